(** Lemmas on the instruction flow decoder: the invariant, and completing instructions. *)

From Coq Require Import List NArith ZArith Bool PeanoNat Lia ZifyBool ZifyNat ZifyN.
From Verif Require Import Base M_config M_time M_pktdec M_event M_evdec M_query M_retstack M_asid M_ildtab M_ild
  M_insn M_insndec S_core S_evdec S_x86 S_insn S_query S_flow S_drive L_core L_evdec L_evsafe L_evnext L_insn T_insn
  L_query L_query2 T_evdec T_evtrace L_flow.
Import ListNotations.
Open Scope N_scope.

Definition no_trig (e : event) : Prop := match ev_var e with Ev_trig _ _ _ _ => False | _ => True end.
(** ... and not part of the flow. *)
Definition usual (e : event) : Prop :=
  match ev_var e with Ev_trig _ _ _ _ | Ev_tip _ | Ev_tnt _ _ => False | _ => True end.
Definition fact_ok (x : fact) : Prop := match x with F_event e => usual e | _ => True end.

(** Only near calls and jumps have their target in the instruction. *)
Definition wf_site (s : site) : Prop :=
  match si_class s with
  | ptic_unknown => False
  | ptic_return | ptic_far_call | ptic_far_return | ptic_far_jump | ptic_indirect => direct s = false
  | _ => True
  end.

Lemma meaning_wf m t ip n : wf_site (mk_site ip n (fst (meaning m t)) (snd (meaning m t))).
Proof.
  unfold meaning, wf_site. pose proof (classify_in m t) as H. destruct (classify m t) as [[c k] d].
  unfold direct. cbn in *.
  repeat (destruct H as [H|H]; [injection H as <- <- <-; cbn; auto|]). destruct H.
Qed.

(** Nothing but outcomes of conditional branches is left. *)
Definition drained (fs : list fact) : Prop := filter not_bit fs = [].

Section FLOW.
  Context (cf : config) (buf : list N) (base : nat) (err : pte).
  Hypothesis sized : callback_sized cf.
  Hypothesis freq : (cf_mtc_freq cf < 24)%N.
  Hypothesis small : (N.of_nat (length buf) + 1 < 2 ^ 31)%N.
  Hypothesis bytes : bytes_ok buf.
  Context {S C : Type} (im : image_if S C) (mem : asid -> memory) (cached : C -> asid -> Prop).
  Hypothesis shows : image_shows im mem cached.
  Notation dec := (insndec C).

  Record common (d : dec) (f : flow) (h : option event) (fs : list fact) : Prop := {
    c_on : id_enabled d = f_on f;
    c_mode : id_mode d = f_mode f;
    c_asid : id_asid d = f_asid f;
    c_spec : id_speculative d = f_spec f;
    c_calls : rs_rep (id_retstack d) (f_calls f);
    c_query : exists s, qrel (id_query d) s /\ full_spec s /\ rest s = fs /\ qs_err s = err;
    c_reach : reachable base cf buf (qd_evdec (id_query d));
    c_held : if id_process_event d then id_event d = h /\ h <> None else h = None;
    c_cache : cached (id_scache d) (id_asid d);
    c_quiet : Forall fact_ok fs /\ match h with Some e => usual e | None => True end;
    c_eos : flag (id_status d) pts_eos = true -> fs = [];
    c_told : flag (id_status d) pts_event_pending = loud err fs }.

  Definition frame (d d' : dec) : Prop :=
    id_ip d' = id_ip d /\ id_postponed d' = id_postponed d /\ id_bound d' = id_bound d /\
    id_ticks d' = id_ticks d.
  (** [frame] without the address. *)
  Definition frame_ (d d' : dec) : Prop :=
    id_postponed d' = id_postponed d /\ id_bound d' = id_bound d /\ id_ticks d' = id_ticks d.

  Lemma frame_refl d : frame d d.
  Proof. repeat split. Qed.
  Lemma frame_trans d1 d2 d3 : frame d1 d2 -> frame d2 d3 -> frame d1 d3.
  Proof. unfold frame. intuition congruence. Qed.

  Lemma common_config d f h fs : common d f h fs -> pt_insn_config d = cf.
  Proof.
    intros H. pose proof (reachable_ok cf buf sized freq small bytes base _ (c_reach _ _ _ _ H)) as ((P & _) & _).
    exact P.
  Qed.

  Ltac same := intros []; constructor; assumption.
  Lemma common_ip d f h fs x : common d f h fs -> common (id_set_ip d x) f h fs.
  Proof. same. Qed.
  Lemma common_icnt d f h fs b x : common d f h fs -> common (id_set_icnt d b x) f h fs.
  Proof. same. Qed.
  Lemma common_anchor d f h fs : common d f h fs -> common (anchor d) f h fs.
  Proof. same. Qed.
  Lemma common_postponed d f h fs x b : common d f h fs -> common (id_set_postponed d x b) f h fs.
  Proof. same. Qed.
  Lemma common_calls d f h fs r l : common d f h fs -> rs_rep r l ->
    common (id_set_retstack d r) (calls f l) h fs.
  Proof. intros [] ?; constructor; assumption. Qed.
  Lemma common_go d f h fs ip : common d f h fs -> common d (go f ip) h fs.
  Proof. same. Qed.
  Lemma common_at d f h fs x : common d f h fs -> common d (at_site f x) h fs.
  Proof. same. Qed.
  Lemma common_status d f h fs st : common d f h fs -> (flag st pts_eos = true -> fs = []) ->
    flag st pts_event_pending = loud err fs -> common (id_set_status d st) f h fs.
  Proof. intros [] ? ?; constructor; assumption. Qed.
  Lemma common_done d f h fs x : common d f h fs -> common (id_set_event d false x) f None fs.
  Proof. intros [? ? ? ? ? ? ? ? ? Q ? ?]; constructor; try assumption; [reflexivity|]. split; [apply Q|exact I]. Qed.
  Lemma common_held d f h fs : common d f h fs -> id_process_event d = true ->
    exists e, h = Some e /\ id_event d = Some e /\ usual e.
  Proof.
    intros H E. pose proof (c_held _ _ _ _ H) as K. rewrite E in K. destruct K as (K & N).
    destruct h as [e|]; [|congruence]. exists e. split; [reflexivity|]. split; [exact K|].
    apply (c_quiet _ _ _ _ H).
  Qed.
  Lemma common_free d f h fs : common d f h fs -> id_process_event d = false -> h = None.
  Proof. intros H E. pose proof (c_held _ _ _ _ H) as K. rewrite E in K. exact K. Qed.

  (** Taking the next event. *)
  Lemma event_pending_ok d f h fs : common d f h fs ->
    match event_pending d with
    | (d', Ok true) => exists e fs', common d' f (Some e) fs' /\ frame d d' /\
        id_process_event d' = true /\ id_event d' = Some e /\ usual e /\
        (h = Some e /\ fs' = fs \/ h = None /\ fs = F_event e :: fs')
    | (d', Ok false) => d' = d /\ h = None /\ forall now, quiet err now None fs
    | (_, Err e) => e <> pte_eos /\ h = None /\ fs = [] /\ err <> pte_eos
    | (_, UB _) => False
    end.
  Proof.
    intros H. unfold event_pending. destruct (id_process_event d) eqn:Ep.
    { destruct (common_held _ _ _ _ H Ep) as (e & -> & Ee & Hn). exists e, fs.
      split; [exact H|]. split; [apply frame_refl|]. repeat split; auto. }
    pose proof (common_free _ _ _ _ H Ep) as Hh.
    destruct (flag (id_status d) pts_event_pending) eqn:Efl; cbn [negb].
    2:{ split; [reflexivity|]. split; [exact Hh|]. intros now. apply loud_quiet. rewrite <- (c_told _ _ _ _ H). exact Efl. }
    destruct H as [H1 H2 H3 H4 H5 (s & Hq & Hf & Hr & He) H7 H8 H9 (Hk & _) H11 H12].
    rewrite Efl in H12.
    pose proof (flags_loud s Hf) as Hl. rewrite Hr, He, <- H12 in Hl.
    pose proof (proj2 (proj2 (spec_err s))) as Se.
    pose proof (event_rel _ _ Hq) as E. pose proof (spec_event_facts s Hf) as F.
    pose proof (query_reach cf buf sized freq small bytes base _ Q_event H7) as R. cbn [qry_step] in R.
    destruct (spec_event s) as [s' r]. destruct E as (q' & E & Hq'). rewrite E in *.
    specialize (Se _ _ eq_refl). rewrite He in Se.
    cbn [fst] in R. destruct r as [[oe st]|e|u].
    - destruct F as (e & -> & _ & F1 & -> & F3). exists e, (rest s').
      rewrite Hr in F1. clear Hr. subst fs. inversion Hk as [|? ? K1 K2]; subst.
      split; [|split; [repeat split|repeat split; auto]].
      constructor; try assumption.
      + exists s'. auto.
      + cbn. split; [reflexivity|discriminate].
      + split; [exact K2|exact K1].
      + intros E'. apply rest_nil_flags. exact E'.
      + cbn [id_status id_set_status]. rewrite (flags_loud s' F3), Se. reflexivity.
    - destruct F as (_ & _ & _ & F). destruct (F Hl) as (F1 & F2 & F3). rewrite <- Hr, <- He, <- F2. auto.
    - exact F.
  Qed.

  (** Ticks. *)
  Definition ticked (d : dec) (h h' : option event) : Prop :=
    h' = h \/ (id_ticks d = true /\ h = None /\ exists e, h' = Some e /\ is_tick e = true).

  Lemma maybe_tick_ok d f h fs ip : common d f h fs -> f_on f = true ->
    exists d' h', maybe_tick d ip = (d', Ok tt) /\ ticked d h h' /\ common d' f h' fs /\ frame d d'.
  Proof.
    intros H On. unfold maybe_tick.
    assert (Keep : exists d' h', (d, Ok tt) = (d', Ok tt) /\ ticked d h h' /\ common d' f h' fs /\ frame d d').
    { exists d, h. split; [reflexivity|]. split; [left; reflexivity|]. split; [exact H|apply frame_refl]. }
    destruct (id_ticks d) eqn:Et; [|exact Keep].
    unfold pt_insn_tick. rewrite (c_on _ _ _ _ H), On. cbn [negb].
    destruct (id_process_event d) eqn:Ep; [exact Keep|].
    unfold pt_qry_time, M_time.pt_time_query_tsc.
    pose proof (common_free _ _ _ _ H Ep) as Hh.
    assert (G : forall has tsc a c, exists d' h',
      (id_set_event d true (Some (mk_event (Ev_tick ip) false false has tsc a c)), Ok tt) = (d', Ok tt) /\
      ticked d h h' /\ common d' f h' fs /\ frame d d').
    { intros has tsc a c. set (ev := mk_event (Ev_tick ip) false false has tsc a c).
      exists (id_set_event d true (Some ev)), (Some ev). split; [reflexivity|].
      split; [right; split; [exact Et|split; [exact Hh|]]; exists ev; split; reflexivity|].
      split; [|repeat split]. destruct H as [? ? ? ? ? ? ? ? ? Q ? ?]. constructor; try assumption.
      - cbn. split; [reflexivity|discriminate].
      - split; [apply Q|exact I]. }
    destruct (M_time.tm_have_tsc _);
      match goal with |- context [if ?b then (d, Ok false) else _] => destruct b end;
      first [exact Keep|apply G].
  Qed.

  (** Queries. *)
  Lemma cond_query d f h fs : common d f h fs ->
    match pt_qry_cond_branch (id_query d) with
    | (q, Ok (b, st)) => exists fs', fs = F_bit b :: fs' /\
        common (id_set_status (id_set_query d q) st) f h fs'
    | (q, Err e) => common (id_set_query d q) f h fs /\ (e = pte_eos -> drained fs) /\
        (forall b fs', fs <> F_bit b :: fs')
    | (_, UB _) => False
    end.
  Proof.
    intros [H1 H2 H3 H4 H5 (s & Hq & Hf & Hr & He) H7 H8 H9 (Hk & Hk2) H11 H12].
    pose proof (proj1 (spec_err s)) as Se. pose proof (cond_rel _ _ Hq) as E. pose proof (spec_cond_facts s Hf) as F.
    pose proof (query_reach cf buf sized freq small bytes base _ Q_cond H7) as R. cbn [qry_step] in R.
    destruct (spec_cond s) as [s' r]. destruct E as (q' & E & Hq'). rewrite E in *.
    specialize (Se _ _ eq_refl). rewrite He in Se.
    cbn [fst] in R. destruct r as [[b st]|e|u].
    - destruct F as (F1 & -> & F3). exists (rest s'). rewrite Hr in F1. clear Hr. subst fs.
      inversion Hk as [|? ? K1 K2]; subst. split; [reflexivity|].
      constructor; try assumption.
      + exists s'. auto.
      + split; assumption.
      + intros E'. apply rest_nil_flags. exact E'.
      + cbn [id_status id_set_status]. rewrite (flags_loud s' F3), Se. reflexivity.
    - destruct F as (F1 & F2 & F3 & F4). rewrite Hr in *. split; [|split; [|exact F4]].
      + constructor; try assumption; [|split; assumption]. exists s'. auto.
      + intros Ee. rewrite (F3 Ee). reflexivity.
    - exact F.
  Qed.

  Lemma indirect_query d f h fs : common d f h fs ->
    match pt_qry_indirect_branch (id_query d) with
    | (q, Ok (ip, st)) => exists bits post, fs = map F_bit bits ++ F_tip ip :: post /\
        common (id_set_status (id_set_query d q) st) f h (map F_bit bits ++ post) /\
        flag st pts_ip_suppressed = match ip with Some _ => false | None => true end
    | (q, Err e) => common (id_set_query d q) f h fs /\ (e = pte_eos -> drained fs) /\
        (forall ip fs', fs <> F_tip ip :: fs')
    | (_, UB _) => False
    end.
  Proof.
    intros [H1 H2 H3 H4 H5 (s & Hq & Hf & Hr & He) H7 H8 H9 (Hk & Hk2) H11 H12].
    pose proof (proj1 (proj2 (spec_err s))) as Se. pose proof (indirect_rel _ _ Hq) as E. pose proof (spec_indirect_facts s Hf) as F.
    pose proof (query_reach cf buf sized freq small bytes base _ Q_indirect H7) as R. cbn [qry_step] in R.
    destruct (spec_indirect s) as [s' r]. destruct E as (q' & E & Hq'). rewrite E in *.
    specialize (Se _ _ eq_refl). rewrite He in Se.
    cbn [fst] in R. destruct r as [[ip st]|e|u].
    - destruct F as ((bits & post & F1 & F2) & F3 & F4). exists bits, post. rewrite Hr in F1. clear Hr.
      rewrite F1 in Hk. apply Forall_app in Hk. destruct Hk as (K1 & K2).
      apply Forall_inv_tail in K2. split; [exact F1|]. split.
      + constructor; try assumption.
        * exists s'. auto.
        * split; [|assumption]. apply Forall_app. auto.
        * rewrite <- F2. intros E'. apply rest_nil_flags. revert E'. cbn [id_status id_set_status].
          rewrite F3. unfold flags_ip, qs_flags.
          destruct ip; destruct (qs_bits s'); try discriminate; destruct (qs_evs s') as [|e1 evs];
            [destruct (qs_err s')|destruct (plain e1)|destruct (qs_err s')|destruct (plain e1)];
            solve [discriminate | intros _; reflexivity].
        * cbn [id_status id_set_status]. rewrite <- F2, <- Se, <- (flags_loud s' F4), F3. unfold flags_ip, qs_flags.
          destruct ip; destruct (qs_bits s'); try reflexivity; destruct (qs_evs s') as [|e1 evs];
            first [destruct (qs_err s'); reflexivity|destruct (plain e1); reflexivity].
      + rewrite F3. unfold qs_flags. destruct ip; destruct (qs_bits s'); try reflexivity;
          destruct (qs_evs s') as [|e evs]; try (destruct (qs_err s'); reflexivity); destruct (plain e);
          reflexivity.
    - destruct F as (F1 & F2 & F3 & F4). rewrite Hr in *. split; [|split; [exact F3|exact F4]].
      constructor; try assumption; [|split; assumption]. exists s'. auto.
    - exact F.
  Qed.

  Lemma maybe_tick_status (d : dec) ip st :
    maybe_tick (id_set_status d st) ip = let (d', r) := maybe_tick d ip in (id_set_status d' st, r).
  Proof.
    unfold maybe_tick. cbn [id_ticks id_set_status]. destruct (id_ticks d); [|reflexivity].
    unfold pt_insn_tick. cbn [id_enabled id_process_event id_query id_event id_set_status].
    destruct (negb _); [reflexivity|]. destruct (id_process_event d); [reflexivity|].
    destruct (pt_qry_time (id_query d)) as [[[tsc a] c] [[]|e|u]]; try reflexivity.
    - destruct (match id_event d with Some _ => _ | None => _ end); reflexivity.
    - destruct e; try reflexivity; destruct (match id_event d with Some _ => _ | None => _ end); reflexivity.
  Qed.

  Lemma cond_branch_ok d f h fs : common d f h fs -> f_on f = true ->
    match pt_insn_cond_branch d with
    | (d', Ok (b, st)) => exists fs' h', fs = F_bit b :: fs' /\ ticked d h h' /\
        common (id_set_status d' st) f h' fs' /\ frame d d'
    | (d', Err e) => common d' f h fs /\ frame d d' /\ (e = pte_eos -> drained fs) /\
        (forall b fs', fs <> F_bit b :: fs')
    | (_, UB _) => False
    end.
  Proof.
    intros H On. unfold pt_insn_cond_branch. pose proof (cond_query _ _ _ _ H) as Q.
    destruct (pt_qry_cond_branch (id_query d)) as [q [[b st]|e|u]]; [| |exact Q].
    - destruct Q as (fs' & E & Hc).
      destruct (maybe_tick_ok _ _ _ _ (id_ip (id_set_query d q)) Hc On) as (d' & h' & E' & Ht & Hc' & Hf).
      rewrite maybe_tick_status in E'. destruct (maybe_tick (id_set_query d q) _) as [d1 r1].
      injection E' as <- ->. exists fs', h'. split; [exact E|]. split; [exact Ht|]. split; [exact Hc'|exact Hf].
    - destruct Q as (Q1 & Q2 & Q3). split; [exact Q1|]. split; [repeat split|]. auto.
  Qed.

  Lemma indirect_branch_ok d f h fs : common d f h fs -> f_on f = true ->
    match pt_insn_indirect_branch d with
    | (d', Ok st) => exists ip bits post h', fs = map F_bit bits ++ F_tip ip :: post /\ ticked d h h' /\
        common (id_set_status d' st) f h' (map F_bit bits ++ post) /\
        flag st pts_ip_suppressed = match ip with Some _ => false | None => true end /\
        (forall a, ip = Some a -> id_ip d' = a) /\ frame_ d d'
    | (d', Err e) => (e = pte_eos -> drained fs) /\ (forall ip fs', fs <> F_tip ip :: fs')
    | (_, UB _) => False
    end.
  Proof.
    intros H On. unfold pt_insn_indirect_branch. pose proof (indirect_query _ _ _ _ H) as Q.
    destruct (pt_qry_indirect_branch (id_query d)) as [q [[ip st]|e|u]]; [|apply Q|exact Q].
    destruct Q as (bits & post & E & Hc & Hi).
    set (d1 := match ip with Some a => id_set_ip (id_set_query d q) a | None => id_set_query d q end).
    assert (Hc1 : common (id_set_status d1 st) f h (map F_bit bits ++ post))
      by (destruct ip; [exact (common_ip _ _ _ _ n Hc)|exact Hc]).
    destruct (maybe_tick_ok _ _ _ _ (id_ip d) Hc1 On) as (d' & h' & E' & Ht & Hc' & Hf).
    rewrite maybe_tick_status in E'. destruct (maybe_tick d1 (id_ip d)) as [d2 r2].
    injection E' as <- ->. exists ip, bits, post, h'. split; [exact E|].
    split; [destruct ip; exact Ht|]. split; [exact Hc'|]. split; [exact Hi|].
    destruct Hf as (F1 & F2 & F3 & F4). cbn [id_ip id_postponed id_bound id_ticks id_set_status] in *. split.
    - intros a ->. rewrite F1. reflexivity.
    - repeat split; [rewrite F2|rewrite F3|rewrite F4]; destruct ip; reflexivity.
  Qed.

  (** The instruction count overflows. *)
  Definition worn (d : dec) (e : pte) : Prop :=
    e = pte_overflow /\ id_has_icnt d = true /\ add32 (id_icnt d) 1 = 0.

  Lemma update_trig_ok d f h fs ip : common d f h fs -> f_on f = true ->
    match pt_insn_update_trig d ip with
    | (d', Ok _) => common d' f h fs /\ frame d d'
    | (d', Err e) => worn d' e
    | (_, UB _) => False
    end.
  Proof.
    intros H On. unfold pt_insn_update_trig. destruct (id_has_icnt d) eqn:Ei; cbn [negb].
    2:{ split; [exact H|apply frame_refl]. }
    rewrite (c_on _ _ _ _ H), On. cbn [negb]. destruct (N.eqb_spec (add32 (id_icnt d) 1) 0) as [E0|_]; [repeat split; assumption|].
    assert (K : common (id_set_icnt d true (add32 (id_icnt d) 1)) f h fs /\
                frame d (id_set_icnt d true (add32 (id_icnt d) 1)))
      by (split; [apply common_icnt; exact H|repeat split]).
    cbn [id_process_event id_event id_set_icnt].
    destruct (id_process_event d) eqn:Ep; [|exact K].
    destruct (common_held _ _ _ _ H Ep) as (e & _ & -> & Hn). unfold usual in Hn.
    destruct (ev_var e); try exact K; destruct Hn.
  Qed.

  (** Without left-over outcomes there is no target. *)
  Definition untargeted (fs : list fact) : Prop :=
    forall a fs', takes fs a fs' -> exists b r, fs = F_bit b :: r.
  Lemma untargeted_tip fs : (forall ip fs', fs <> F_tip ip :: fs') -> untargeted fs.
  Proof.
    intros H a fs' (bits & post & -> & _). destruct bits as [|b bits]; [destruct (H (Some a) post eq_refl)|].
    eexists _, _. reflexivity.
  Qed.
  Lemma untargeted_none bits post : untargeted (map F_bit bits ++ F_tip None :: post).
  Proof.
    intros a fs' (bits' & post' & E & _). destruct bits as [|b bits]; [|eexists _, _; reflexivity].
    destruct bits'; discriminate E.
  Qed.
  Lemma takes_same fs a fs' b fs2 : takes fs a fs' -> takes fs b fs2 -> a = b /\ fs' = fs2.
  Proof.
    intros (l & p & -> & ->) (l' & p' & E & ->). revert l' E. induction l as [|x l IH]; intros [|y l'] E; try discriminate E.
    - injection E as -> ->. auto.
    - injection E as -> E. destruct (IH l' E) as (-> & IH2). split; [reflexivity|]. cbn [map app]. f_equal. exact IH2.
  Qed.

  Lemma leaves_return s l fs ip l' fs' : si_class s = ptic_return -> leaves s l fs ip l' fs' ->
    l = ip :: l' /\ fs = F_bit true :: fs' \/ fs = F_tip (Some ip) :: fs' /\ l' = l.
  Proof.
    intros E H. destruct H; try congruence; auto.
    - destruct H; congruence.
    - rewrite E in H. destruct H as [(H & _)|[H|H]]; discriminate H.
  Qed.
  Lemma leaves_cond s l fs ip l' fs' : si_class s = ptic_cond_jump -> leaves s l fs ip l' fs' ->
    l' = l /\ exists b : bool, fs = F_bit b :: fs' /\ ip = if b then target s else next_insn s.
  Proof.
    intros E H. destruct H; try congruence; eauto.
    - destruct H; congruence.
    - rewrite E in H. destruct H as [(H & _)|[H|H]]; discriminate H.
  Qed.

  (** The loop ends. *)
  Definition halted (ticks : bool) (d : dec) (e : pte) (s : fstate) : Prop :=
    (e = pte_eos -> drained (fs_facts s)) /\ (worn d e \/ no_step mem ticks err s).
  Lemma worn_eos d e : worn d e -> e <> pte_eos.
  Proof. intros (-> & _). discriminate. Qed.
  Lemma worn_halted ticks d e s : worn d e -> halted ticks d e s.
  Proof. intros H. split; [intros E; destruct (worn_eos _ _ H E)|left; exact H]. Qed.

  Lemma stuck_at ticks f s ks h fs : f_cur f = Some (s, ks) -> quiet err (binds s ks) h fs ->
    (forall ip l fs', leaves s (f_calls f) fs ip l fs' -> ~ orderly (mk_fstate f h fs)) ->
    no_step mem ticks err (mk_fstate f h fs).
  Proof.
    intros Hc Hq Hl o s' H. inversion H; subst; try congruence; cbn [quiet] in Hq; try (destruct Hq; fail).
    all: match goal with
         | K : f_cur ?g = Some _, K' : f_cur ?g = Some _ |- _ => rewrite K in K'; injection K' as ? ?; subst
         end.
    - exfalso. apply Hq. right. eauto.
    - exfalso. apply Hq. left. assumption.
    - eapply Hl. eassumption.
  Qed.

  (** Where the last part of pt_insn_proceed() goes. *)
  Definition branched (d : dec) (s : site) (f : flow) (h : option event) (fs : list fact)
             (r : dec * res unit) : Prop :=
    match r with
    | (d', Ok _) => exists ip h' fs', common d' f h' fs' /\ id_ip d' = ip /\ frame_ d d' /\
        (direct s = true /\ ip = target s /\ fs' = fs /\ h' = h \/
         direct s = false /\ ticked d h h' /\ takes fs ip fs')
    | (d', Err e) => (e = pte_eos -> drained fs) /\ (worn d' e \/ direct s = false /\ untargeted fs)
    | (_, UB _) => False
    end.

  Lemma proceed_branch_ok d f h fs i x : common d f h fs -> f_on f = true ->
    id_ip d = next_insn (site_of_insn i x) ->
    branched d (site_of_insn i x) f h fs (proceed_branch d i x).
  Proof.
    intros H On Hip. unfold proceed_branch, branched.
    assert (D : direct (site_of_insn i x) = x_direct x && negb (is_jmpabs x)).
    { unfold direct, is_jmpabs. cbn. destruct (x_inst x); destruct (x_direct x); reflexivity. }
    rewrite D. destruct (x_direct x && negb (is_jmpabs x)).
    - pose proof (update_trig_ok _ _ _ _ (in_ip i) (common_ip _ _ _ _ (add64 (id_ip d) (of_int64 (x_disp x))) H) On) as U.
      destruct (pt_insn_update_trig _ _) as [d' [[]|e|u]];
        [|split; [intros E; destruct (worn_eos _ _ U E)|left; exact U]|exact U].
      destruct U as (Hc & F1 & F2 & F3 & F4). exists (id_ip d'), h, fs.
      split; [exact Hc|]. split; [reflexivity|]. split; [repeat split; assumption|]. left.
      split; [reflexivity|]. split; [|auto]. rewrite F1. cbn [id_ip id_set_ip]. rewrite Hip.
      unfold next_insn, target. cbn. rewrite <- add64_offset. apply add64_disp.
    - pose proof (indirect_branch_ok _ _ _ _ H On) as B.
      destruct (pt_insn_indirect_branch d) as [d' [st|e|u]];
        [|split; [apply B|right; split; [reflexivity|apply untargeted_tip, B]]|exact B].
      destruct B as (ip & bits & post & h' & -> & Ht & Hc & Hi & Ha & Hf).
      rewrite Hi. destruct ip as [a|];
        [|split; [discriminate|right; split; [reflexivity|apply untargeted_none]]].
      exists a, h', (map F_bit bits ++ post). split; [apply common_anchor; exact Hc|].
      split; [apply (Ha a eq_refl)|]. split; [exact Hf|]. right. split; [reflexivity|].
      split; [exact Ht|]. exists bits, post. split; reflexivity.
  Qed.

  (** Completing an instruction. *)
  Lemma proceed_ok d f h fs i x ks : common d f h fs -> f_on f = true ->
    f_cur f = Some (site_of_insn i x, ks) -> wf_site (site_of_insn i x) -> id_ip d = in_ip i ->
    quiet err (binds (site_of_insn i x) ks) h fs ->
    match pt_insn_proceed d i x with
    | (d', Ok _) => exists ip l h' fs',
        common d' (at_site (go (calls f l) ip) None) h' fs' /\ id_ip d' = ip /\ frame_ d d' /\
        fstep mem (id_ticks d) err (mk_fstate f h fs) [] (mk_fstate (at_site (go (calls f l) ip) None) h' fs')
    | (d', Err e) => halted (id_ticks d) d' e (mk_fstate f h fs)
    | (_, UB _) => False
    end.
  Proof.
    intros H On Hcur Hw Hip Hqu. unfold pt_insn_proceed. set (s := site_of_insn i x) in *.
    set (d1 := id_set_ip d _).
    assert (H1 : common d1 f h fs) by (apply common_ip; exact H).
    assert (Hip1 : id_ip d1 = next_insn s).
    { unfold d1. cbn [id_ip id_set_ip]. rewrite Hip, add64_offset. reflexivity. }
    assert (F1 : frame_ d d1) by (repeat split).
    (* without the trace *)
    assert (Plain : forall d' l ip, common d' (calls f l) h fs -> id_ip d' = ip -> frame_ d1 d' ->
      leaves s (f_calls f) fs ip l fs ->
      exists ip l h' fs',
        common d' (at_site (go (calls f l) ip) None) h' fs' /\ id_ip d' = ip /\ frame_ d d' /\
        fstep mem (id_ticks d) err (mk_fstate f h fs) [] (mk_fstate (at_site (go (calls f l) ip) None) h' fs')).
    { intros d' l ip Hc Hi Hf Hl. exists ip, l, h, fs.
      split; [apply common_at, common_go; exact Hc|]. split; [exact Hi|]. split; [exact Hf|].
      eapply fs_leave; [exact On|exact Hcur|exact Hqu|exact Hl|left; reflexivity]. }
    assert (Traced : forall d' l ip h' fs', common d' (calls f l) h' fs' -> id_ip d' = ip -> frame_ d1 d' ->
      traced s -> ticked d h h' -> leaves s (f_calls f) fs ip l fs' ->
      exists ip l h' fs',
        common d' (at_site (go (calls f l) ip) None) h' fs' /\ id_ip d' = ip /\ frame_ d d' /\
        fstep mem (id_ticks d) err (mk_fstate f h fs) [] (mk_fstate (at_site (go (calls f l) ip) None) h' fs')).
    { intros d' l ip h' fs' Hc Hi Hf Ht Hk Hl. exists ip, l, h', fs'.
      split; [apply common_at, common_go; exact Hc|]. split; [exact Hi|]. split; [exact Hf|].
      eapply fs_leave; [exact On|exact Hcur|exact Hqu|exact Hl|].
      destruct Hk as [Hk|(K1 & K2 & K3)]; [left; exact Hk|right]. auto. }
    assert (Same : forall d' h' fs', common d' f h' fs' -> common d' (calls f (f_calls f)) h' fs')
      by (intros d' h' fs' []; constructor; assumption).
    (* the branches that are not handled before *)
    assert (Branch : forall d2 l, common d2 (calls f l) h fs -> id_ip d2 = next_insn s -> frame_ d1 d2 ->
      (direct s = true -> leaves s (f_calls f) fs (target s) l fs) ->
      (direct s = false -> traced s /\ forall a fs', takes fs a fs' -> leaves s (f_calls f) fs a l fs') ->
      (direct s = false -> forall ip l fs', leaves s (f_calls f) fs ip l fs' ->
         takes fs ip fs' /\ forall b r, fs = F_bit b :: r -> ~ orderly (mk_fstate f h fs)) ->
      match proceed_branch d2 i x with
      | (d', Ok _) => exists ip l h' fs',
          common d' (at_site (go (calls f l) ip) None) h' fs' /\ id_ip d' = ip /\ frame_ d d' /\
          fstep mem (id_ticks d) err (mk_fstate f h fs) [] (mk_fstate (at_site (go (calls f l) ip) None) h' fs')
      | (d', Err e) => halted (id_ticks d) d' e (mk_fstate f h fs)
      | (_, UB _) => False
      end).
    { intros d2 l Hc Hi Hf L1 L2 L3. pose proof (proceed_branch_ok d2 _ h fs i x Hc On Hi) as B.
      destruct (proceed_branch d2 i x) as [d' [[]|e|u]]; [| |exact B].
      2:{ destruct B as (B1 & [B2|(B2 & B3)]); [apply worn_halted; exact B2|]. split; [exact B1|right].
          apply (stuck_at _ f s ks); try assumption. intros ip l' fs' Hl. destruct (L3 B2 _ _ _ Hl) as (L4 & L5).
          destruct (B3 _ _ L4) as (b & r & Eb). exact (L5 b r Eb). }
      destruct B as (ip & h' & fs' & Hc' & Hi' & Hf' & [(B1 & -> & -> & ->)|(B1 & B2 & B3)]).
      - apply (Plain d' l (target s)); auto. unfold frame_ in *. intuition congruence.
      - destruct (L2 B1) as (L2a & L2b). apply (Traced d' l ip h' fs'); auto.
        + unfold frame_ in *. intuition congruence.
        + unfold ticked in *. destruct Hf as (_ & _ & Hf). destruct F1 as (_ & _ & F1). rewrite Hf, F1 in B2. exact B2. }
    assert (Push : forall r l, l = remember s (f_calls f) -> rs_rep r l ->
      common (id_set_retstack d1 r) (calls f l) h fs /\ id_ip (id_set_retstack d1 r) = next_insn s /\
      frame_ d1 (id_set_retstack d1 r)).
    { intros r l -> Hr. split; [apply common_calls; assumption|]. split; [exact Hip1|repeat split]. }
    pose proof (fun ip Hc => update_trig_ok d1 f h fs ip H1 Hc) as Trig.
    assert (Stuck : forall d' e, (e = pte_eos -> drained fs) ->
      (forall ip l fs', leaves s (f_calls f) fs ip l fs' -> ~ orderly (mk_fstate f h fs)) ->
      halted (id_ticks d) d' e (mk_fstate f h fs)).
    { intros d' e He Hl. split; [exact He|right]. apply (stuck_at _ f s ks); assumption. }
    (* branches with a target in the trace *)
    assert (Far : direct s = false -> si_class s <> ptic_return -> si_class s <> ptic_other ->
      si_class s <> ptic_ptwrite -> si_class s <> ptic_cond_jump -> si_class s <> ptic_unknown ->
      forall ip l fs', leaves s (f_calls f) fs ip l fs' ->
         takes fs ip fs' /\ forall b r, fs = F_bit b :: r -> ~ orderly (mk_fstate f h fs)).
    { intros Hd N1 N2 N3 N4 N5 ip l fs' Hl. split.
      - destruct Hl; try congruence; try assumption. destruct H0; congruence.
      - intros b r -> Ho. unfold orderly in Ho. cbn [fs_flow fs_facts] in Ho. rewrite Hcur in Ho.
        fold s in Ho. clear - Ho Hd N1 N2 N3 N4 N5. destruct (si_class s); cbn in Ho; congruence. }
    change (in_iclass i) with (si_class s).
    destruct (si_class s) eqn:Ec.
    - (* unknown *) exfalso. unfold wf_site in Hw. rewrite Ec in Hw. exact Hw.
    - (* other *)
      specialize (Trig (in_ip i) On). destruct (pt_insn_update_trig d1 (in_ip i)) as [d' [[]|e|u]]; [|apply worn_halted; exact Trig|exact Trig].
      destruct Trig as (Hc & G1 & G2). apply (Plain d' (f_calls f) (next_insn s)); auto.
      + congruence.
      + apply leave_other. auto.
    - (* call *)
      destruct (negb (Z.eqb (x_disp x) 0) || negb (x_direct x)) eqn:Er.
      + destruct (push_rep _ _ (id_ip d1) (c_calls _ _ _ _ H1)) as (r & Ep & Hr). rewrite Ep.
        rewrite Hip1 in Hr.
        assert (Rm : remember s (f_calls f) = firstn 64 (next_insn s :: f_calls f)).
        { unfold remember. change (si_ext s) with x. destruct (x_direct x); destruct (Z.eqb (x_disp x) 0);
            try discriminate Er; reflexivity. }
        rewrite <- Rm in Hr. destruct (Push r _ eq_refl Hr) as (P1 & P2 & P3).
        apply (Branch _ _ P1 P2 P3).
        * intros Hd. apply leave_call; assumption.
        * intros Hd. split; [unfold traced; rewrite Ec; exact Hd|]. intros a fs' Ht. apply leave_icall; assumption.
        * intros Hd; apply Far; congruence.
      + assert (Rm : remember s (f_calls f) = f_calls f).
        { unfold remember. change (si_ext s) with x. destruct (x_direct x); destruct (Z.eqb (x_disp x) 0);
            try discriminate Er; reflexivity. }
        apply (Branch d1 (f_calls f) (Same _ _ _ H1) Hip1 ltac:(repeat split)).
        * intros Hd. rewrite <- Rm at 2. apply leave_call; assumption.
        * intros Hd. split; [unfold traced; rewrite Ec; exact Hd|]. intros a fs' Ht.
          rewrite <- Rm at 2. apply leave_icall; assumption.
        * intros Hd; apply Far; congruence.
    - (* return *)
      pose proof (cond_branch_ok _ _ _ _ H1 On) as B.
      destruct (pt_insn_cond_branch d1) as [d' [[b st]|e|u]]; [| |exact B].
      + destruct B as (fs' & h' & -> & Ht & Hc & Hf). destruct b; cbn [negb].
        2:{ apply Stuck; [discriminate|]. intros ip l fs2 Hl. exfalso.
            destruct (leaves_return _ _ _ _ _ _ Ec Hl) as [(_ & E)|(E & _)]; discriminate E. }
        pose proof (pop_rep _ _ (c_calls _ _ _ _ Hc)) as P.
        destruct (f_calls f) as [|a l] eqn:Ecalls.
        * destruct P as (r & -> & _). apply Stuck; [discriminate|]. intros ip l fs2 Hl.
          destruct (leaves_return _ _ _ _ _ _ Ec Hl) as [(E & _)|(E & _)]; [congruence|discriminate E].
        * destruct P as (r & -> & Hr).
          apply (Traced _ l a h' fs'); auto.
          -- apply common_anchor, common_ip. exact (common_calls _ _ _ _ r l Hc Hr).
          -- unfold frame_, frame in *. cbn. intuition congruence.
          -- unfold traced. rewrite Ec. exact I.
          -- apply leave_compressed. exact Ec.
      + destruct B as (Hc & Hf & He & Hn). pose proof Hf as (G1 & G2).
        pose proof (proceed_branch_ok d' _ h fs i x Hc On ltac:(rewrite G1; exact Hip1)) as B.
        destruct (proceed_branch d' i x) as [d2 [[]|e2|u]]; [| |exact B].
        2:{ destruct B as (B1 & [B2|(B2 & B3)]); [apply worn_halted; exact B2|]. apply Stuck; [exact B1|].
            intros ip l fs2 Hl. exfalso. destruct (leaves_return _ _ _ _ _ _ Ec Hl) as [(_ & E)|(E & _)].
            - exact (Hn _ _ E).
            - destruct (B3 ip fs2) as (b & r & Eb); [exists [], fs2; split; [exact E|reflexivity]|]. congruence. }
        destruct B as (ip & h' & fs' & Hc' & Hi' & Hf' & [(B1 & -> & -> & ->)|(B1 & B2 & B3)]).
        * exfalso. unfold wf_site in Hw. rewrite Ec in Hw. fold s in B1. rewrite Hw in B1. discriminate B1.
        * apply (Traced d2 (f_calls f) ip h' fs'); auto.
          -- unfold frame_ in *. intuition congruence.
          -- unfold traced. rewrite Ec. exact I.
          -- unfold ticked in *. destruct G2 as (_ & _ & G2). rewrite G2 in B2. exact B2.
          -- destruct B3 as (bits & post & -> & ->). destruct bits as [|b bits].
             ++ apply leave_return. exact Ec.
             ++ exfalso. apply (Hn b (map F_bit bits ++ F_tip (Some ip) :: post)). reflexivity.
    - (* jump *)
      apply (Branch d1 (f_calls f) (Same _ _ _ H1) Hip1 ltac:(repeat split)).
      + intros Hd. apply leave_jump; assumption.
      + intros Hd. split; [unfold traced; rewrite Ec; exact Hd|]. intros a fs' Ht. apply leave_indirect; auto.
      + intros Hd; apply Far; congruence.
    - (* conditional jump *)
      pose proof (cond_branch_ok _ _ _ _ H1 On) as B.
      destruct (pt_insn_cond_branch d1) as [d' [[b st]|e|u]]; [| |exact B].
      + destruct B as (fs' & h' & -> & Ht & Hc & Hf). pose proof Hf as (G1 & G2).
        apply (Traced _ (f_calls f) (if b then target s else next_insn s) h' fs').
        * apply common_anchor. apply Same. destruct b; [apply common_ip|]; exact Hc.
        * destruct b; cbn [id_ip anchor id_set_icnt id_set_ip id_set_status]; rewrite G1, Hip1; [|reflexivity].
          unfold next_insn, target. cbn. rewrite <- add64_offset. apply add64_disp.
        * destruct b; exact G2.
        * unfold traced. rewrite Ec. exact I.
        * exact Ht.
        * apply leave_cond. exact Ec.
      + destruct B as (Hc & Hf & He & Hn). apply Stuck; [exact He|]. intros ip l fs2 Hl. exfalso.
        destruct (leaves_cond _ _ _ _ _ _ Ec Hl) as (_ & b & E & _). exact (Hn _ _ E).
    - (* far call *)
      apply (Branch d1 (f_calls f) (Same _ _ _ H1) Hip1 ltac:(repeat split)); unfold wf_site in Hw; rewrite Ec in Hw.
      + congruence.
      + intros _. split; [unfold traced; rewrite Ec; exact I|]. intros a fs' Ht. apply leave_indirect; [|exact Ht].
        rewrite Ec. auto.
      + intros Hd; apply Far; congruence.
    - (* far return *)
      apply (Branch d1 (f_calls f) (Same _ _ _ H1) Hip1 ltac:(repeat split)); unfold wf_site in Hw; rewrite Ec in Hw.
      + congruence.
      + intros _. split; [unfold traced; rewrite Ec; exact I|]. intros a fs' Ht. apply leave_indirect; [|exact Ht].
        rewrite Ec. auto.
      + intros Hd; apply Far; congruence.
    - (* far jump *)
      apply (Branch d1 (f_calls f) (Same _ _ _ H1) Hip1 ltac:(repeat split)); unfold wf_site in Hw; rewrite Ec in Hw.
      + congruence.
      + intros _. split; [unfold traced; rewrite Ec; exact I|]. intros a fs' Ht. apply leave_indirect; [|exact Ht].
        rewrite Ec. auto.
      + intros Hd; apply Far; congruence.
    - (* ptwrite *)
      specialize (Trig (in_ip i) On). destruct (pt_insn_update_trig d1 (in_ip i)) as [d' [[]|e|u]]; [|apply worn_halted; exact Trig|exact Trig].
      destruct Trig as (Hc & G1 & G2). apply (Plain d' (f_calls f) (next_insn s)); auto.
      + congruence.
      + apply leave_other. auto.
    - (* indirect *)
      apply (Branch d1 (f_calls f) (Same _ _ _ H1) Hip1 ltac:(repeat split)); unfold wf_site in Hw; rewrite Ec in Hw.
      + congruence.
      + intros _. split; [unfold traced; rewrite Ec; exact I|]. intros a fs' Ht. apply leave_indirect; [|exact Ht].
        auto.
      + intros Hd; apply Far; congruence.
  Qed.
End FLOW.
