(** Lemmas on block decoders that share block caches. *)

From Coq Require Import List NArith ZArith Bool PeanoNat Lia.
From Verif Require Import Base M_config M_time M_pktdec M_event M_evdec M_query M_retstack M_asid M_ildtab M_ild
  M_insn M_insndec M_blk L_calm S_core S_evdec S_x86 S_insn S_query S_evtrace S_flow S_drive S_blk L_core L_evdec L_evsafe L_evnext
  L_insn T_ild T_insn L_query L_query2 T_evdec T_evtrace L_flow L_flow2 L_flow3 L_flow4 L_flow5 L_flow6 L_blk L_blk2 L_blk3 L_blk4 L_blk5
  L_blk6 L_blk7 L_blk8 L_blk9 M_share S_share.
Import ListNotations.
Open Scope N_scope.

(** ** Synchronising leaves the caches alone *)

Section SYNC.
  Context {S C : Type} (im : blk_image S C) (base : nat).
  Notation dec := (blkdec C).

  Lemma without_caches {A} (m : M A) (d : dec) : spares m -> same_caches d (fst (without_block m d)).
  Proof.
    intros H. unfold without_block. specialize (H d (new_block 0 ptem_unknown false)).
    destruct (m (d, _)) as [[d1 b1] r]. exact H.
  Qed.
  Lemma start_caches (d : dec) : same_caches d (fst (pt_blk_start im d)).
  Proof.
    unfold pt_blk_start. destruct (start_loop _ _ _) as [ip|e|u]; try (split; reflexivity).
    set (d0 := match ip with Some a => _ | None => d end).
    assert (H : same_caches d d0) by (unfold d0; destruct ip; split; reflexivity).
    destruct (pt_evt_next _) as [q [ev|e|u]]; [| |exact H];
      (eapply sc_trans; [exact H|]; eapply sc_trans; [|apply without_caches, ca_trailing_event]; split; reflexivity).
  Qed.
  Lemma sync_caches (d : dec) o : same_caches d (fst (blk_sync_step base im d o)).
  Proof.
    assert (G : forall f, same_caches d (fst (blk_sync im f d))).
    { intros f. unfold blk_sync. destruct (f _) as [q [[]|e|u]]; try (split; reflexivity).
      eapply sc_trans; [|apply start_caches]. split; reflexivity. }
    destruct o; apply G.
  Qed.
End SYNC.

Section BLOCKS.
  Context (cf : config) (buf : list N) (base : nat) (err : pte).
  Hypothesis sized : callback_sized cf.
  Hypothesis freq : (cf_mtc_freq cf < 24)%N.
  Hypothesis small : (N.of_nat (length buf) + 1 < 2 ^ 31)%N.
  Hypothesis bytes : bytes_ok buf.
  Hypothesis no_bdm64 : er_bdm64 (cf_errata cf) = false.
  Hypothesis no_skd022 : er_skd022 (cf_errata cf) = false.
  Hypothesis no_skl014 : er_skl014 (cf_errata cf) = false.
  Context {S C : Type} (im : blk_image S C) (mem : asid -> memory) (cached : C -> asid -> Prop).
  Context (content : N -> N -> option N) (at_ : asid -> N -> option place) (mode_of : N -> exec_mode).
  Hypothesis shows : blocks_show im mem cached content at_ mode_of.
  Notation dec := (blkdec C).
  Notation agrees := (agrees cached content mode_of).
  Notation good := (good cached content mode_of).
  Notation sane := (sane mem content at_ mode_of err).
  Context (ex : pte -> Prop).
  Hypothesis ex_ovf : ex pte_overflow.
  Hypothesis ex_lookup : forall c a ip e, cached c a -> snd (im_lookup (bi_image im) c a ip) = Err e ->
    e <> pte_nomap -> ex e.
  Hypothesis ex_inval : forall c a e, cached c a -> snd (im_invalidate (bi_image im) c) = Err e -> ex e.
  Hypothesis ex_alloc : forall k e, snd (bi_alloc im k) = Err e -> ex e.
  Notation idle := (idle cf buf base err cached content mode_of).
  Notation between := (between cf buf base err im mem cached content mode_of ex).
  Notation bruns := (bruns mem err).

  (** ** What a call leaves in the caches *)

  Definition unless_ub (d : dec) {A} (r : res A) : Prop := match r with UB _ => True | _ => good d end.

  Lemma spared {A} (m : M A) (d : dec) b : spares m -> good d -> good (fst (fst (m (d, b)))).
  Proof. intros H G. eapply same_good; [apply H|exact G]. Qed.

  Lemma next_good (d : dec) s : sane s -> idle d s ->
    match pt_blk_next im d with (d', _, r) => unless_ub d' r end.
  Proof.
    intros Hs Hid. destruct s as [f h fs]. pose proof (i_settled _ _ _ _ _ _ _ _ _ Hid) as Se.
    pose proof Se as [Ha Hi Hr Hf Hc Cl]. cbn [fs_flow fs_held fs_facts] in *. pose proof (agrees_good _ _ _ _ _ Ha) as G.
    assert (Ne : (exists ev, bd_status d = None /\ bd_event d = Some ev /\
                    match ev_var ev with Ev_tnt _ _ | Ev_tip _ => True | _ => False end) \/
                 bd_status d = Some pte_eos -> f_on f = true ->
      match pt_blk_proceed_no_event im (d, new_block (bd_ip d) (bd_mode d) (bd_spec d)) with
      | (d', _, r) => unless_ub d' r end).
    { intros Hq On.
      assert (L : bd_status d = None \/ bd_status d = Some pte_eos) by (destruct Hq as [(ev & X & _)|X]; auto).
      assert (Hh : h = None).
      { destruct Hr as (_ & R). destruct Hq as [(ev & X & Y & Z)|X]; rewrite X in R; [|tauto].
        destruct R as (ev' & evs & E1 & _ & _ & E2). unfold parted in E2. assert (ev' = ev) by congruence. subst ev'.
        destruct (ev_var ev); try contradiction; congruence. }
      subst h. pose proof (start_walk cf buf base err mem cached content mode_of d _ Se L On) as W.
      pose proof (no_event_ok cf buf base err sized freq small bytes im mem cached content at_ mode_of shows ex ex_ovf ex_lookup ex_alloc
        _ d _ f fs Hs W Hc) as P.
      destruct (pt_blk_proceed_no_event im _) as [[d1 b1] [[]|e|u]]; cbn [post unless_ub] in *; [|apply P|exact I].
      destruct P as (_ & is & s & X). eapply agrees_good. apply X. }
    assert (Ev : match pt_blk_proceed_event im (d, new_block (bd_ip d) (bd_mode d) (bd_spec d)) with
                 | (d', _, r) => unless_ub d' r end).
    { pose proof (spared (pt_blk_proceed_event im) d (new_block (bd_ip d) (bd_mode d) (bd_spec d)) (ca_event im) G) as X.
      destruct (pt_blk_proceed_event im _) as [[d1 b1] [st|e|u]]; cbn [fst unless_ub] in *; auto. }
    unfold pt_blk_next, pt_blk_proceed. unfold bind at 1, state at 1. cbn [fst]. rewrite (a_on _ _ _ _ _ Ha).
    destruct (bd_status d) as [e|] eqn:St.
    - destruct e; try exact G. destruct (f_on f); [|exact G]. cbn [negb].
      specialize (Ne (or_intror eq_refl) eq_refl). unfold bind.
      destruct (pt_blk_proceed_no_event im _) as [[d1 b1] [[]|e|u]]; exact Ne.
    - destruct (bd_event d) as [ev|] eqn:Eev; [|exact Ev].
      assert (T : (match ev_var ev with Ev_tnt _ _ | Ev_tip _ => True | _ => False end) ->
        match (if negb (f_on f) then fail pte_no_enable else
                bind (pt_blk_proceed_no_event im) (fun _ => pt_blk_proceed_trailing_event im true))
                (d, new_block (bd_ip d) (bd_mode d) (bd_spec d)) with (d', _, r) => unless_ub d' r end).
      { intros Hv. destruct (f_on f); cbn [negb]; [|exact G].
        specialize (Ne (or_introl (ex_intro _ ev (conj eq_refl (conj eq_refl Hv)))) eq_refl). unfold bind.
        destruct (pt_blk_proceed_no_event im _) as [[d1 b1] [[]|e|u]]; try exact Ne. cbn [unless_ub] in Ne.
        pose proof (spared (pt_blk_proceed_trailing_event im true) d1 b1 (ca_trailing_event im true) Ne) as X.
        destruct (pt_blk_proceed_trailing_event im true (d1, b1)) as [[d2 b2] [st|e|u]]; cbn [fst unless_ub] in *; auto. }
      destruct (ev_var ev); try exact Ev; apply T; exact I.
  Qed.

  Lemma asid_good a (d : dec) b : good d -> good (fst (fst (new_asid im a (d, b)))).
  Proof.
    intros (G1 & (a0 & G2)). unfold new_asid, bind, state. cbn [fst].
    pose proof (is_invalidate _ _ _ (bl_image _ _ _ _ _ _ shows) (bd_scache d) a0 G2) as V.
    destruct (im_invalidate (bi_image im) (bd_scache d)) as [c [[]|e|u]]; unfold change, lift; cbn.
    - split; [exact G1|]. exists a0. apply V.
    - split; [exact G1|]. exists a0. apply V.
    - destruct V.
  Qed.

  Lemma process_good ev (d : dec) b : good d -> good (fst (fst (process im ev (d, b)))).
  Proof.
    intros G.
    assert (Pg : forall cr3, good (fst (fst (bind (pt_blk_process_paging im cr3) (fun _ => ret ev) (d, b))))).
    { intros cr3. unfold pt_blk_process_paging. destruct (N.eqb_spec (as_cr3 (bd_asid d)) cr3) as [E|E].
      - unfold bind, state. cbn [fst]. rewrite <- E, N.eqb_refl. exact G.
      - pose proof (asid_good (mk_asid cr3 (as_vmcs (bd_asid d))) d b G) as K. apply N.eqb_neq in E.
        unfold bind, state. cbn [fst]. rewrite E. destruct (new_asid im _ (d, b)) as [[d1 b1] [[]|e|u]]; exact K. }
    assert (Pv : forall v, good (fst (fst (bind (pt_blk_process_vmcs im v) (fun _ => ret ev) (d, b))))).
    { intros v. unfold pt_blk_process_vmcs. destruct (N.eqb_spec (as_vmcs (bd_asid d)) v) as [E|E].
      - unfold bind, state. cbn [fst]. rewrite <- E, N.eqb_refl. exact G.
      - pose proof (asid_good (mk_asid (as_cr3 (bd_asid d)) v) d b G) as K. apply N.eqb_neq in E.
        unfold bind, state. cbn [fst]. rewrite E. destruct (new_asid im _ (d, b)) as [[d1 b1] [[]|e|u]]; exact K. }
    unfold process. unfold bind at 1, state at 1. cbn [fst].
    destruct (ev_var ev); try exact G;
      try (match goal with |- context [if ?c then _ else fail _] => destruct c; [|exact G] end);
      try exact G; try apply Pg; try apply Pv;
      try (unfold pt_blk_process_disabled, pt_blk_process_async_branch, pt_blk_process_enabled, pt_blk_process_exec_mode,
             pt_blk_process_stop, pt_blk_process_overflow, bind, state, change; cbn [fst];
           repeat match goal with |- context [if ?c then _ else _] => destruct c end; exact G).
  Qed.

  Lemma event_good (d : dec) : good d -> good (fst (fst (pt_blk_event im d))).
  Proof.
    intros G. unfold pt_blk_event. set (b0 := new_block 0 ptem_unknown false).
    destruct (bd_status d); [exact G|]. destruct (bd_event d) as [ev|].
    2:{ assert (X : good (fst (without_block (bind pt_blk_fetch_event (fun _ => ret 0)) d))).
        { eapply same_good; [apply without_caches; apply ca_bind; [apply ca_fetch|intros; apply ca_ret]|exact G]. }
        destruct (without_block _ d). exact X. }
    assert (Fe : forall (m : M unit) d1 e, spares m -> good d1 ->
      good (fst (fst (let '(d2, _, r) := bind m (fun _ => pt_blk_proceed_trailing_event im false) (d1, b0) in (d2, Some (e : event), r))))).
    { intros m d1 e Hm G1.
      assert (X : good (fst (fst (bind m (fun _ => pt_blk_proceed_trailing_event im false) (d1, b0))))).
      { apply spared; [|exact G1]. apply ca_bind; [exact Hm|intros; apply ca_trailing_event]. }
      destruct (bind m _ (d1, b0)) as [[d2 b2] r]. exact X. }
    assert (Pr : good (fst (fst (match process im ev (d, b0) with
       | (d, _, Err e) => (d, None, Err e)
       | (d, _, UB u) => (d, None, UB u)
       | (d, _, Ok ev) => let '(d, _, r) := bind pt_blk_fetch_event (fun _ => pt_blk_proceed_trailing_event im false) (d, b0) in (d, Some ev, r)
       end)))).
    { pose proof (process_good ev d b0 G) as X. destruct (process im ev (d, b0)) as [[d1 b1] [e1|e|u]]; cbn [fst] in *; try exact X.
      apply Fe; [apply ca_fetch|exact X]. }
    destruct (ev_var ev); try exact Pr. destruct (_ || _ || _); [exact G|].
    apply Fe; [destruct (size =? 0); [apply ca_fetch|apply ca_ret]|].
    eapply same_good; [|exact G]. split; reflexivity.
  Qed.

  (** ** Other decoders between two calls *)

  Lemma agrees_caches (d : dec) f cs : agrees d f -> caches_ok content mode_of cs -> agrees (bd_set_caches d cs) f.
  Proof. intros [] H. constructor; assumption. Qed.

  Lemma between_caches (d : dec) st s cs : between d st s -> caches_ok content mode_of cs -> between (bd_set_caches d cs) st s.
  Proof.
    intros [B1 B2 B3] H. constructor; [exact B1|exact B2|]. destruct (flag st pts_event_pending).
    - destruct B3 as [(e & E & X)|(f & e & fs & -> & X)].
      + left. exists e. split; [|exact X]. intros cs'. exact (E cs').
      + right. exists f, e, fs. split; [reflexivity|]. destruct X as [X|[X|X]]; [left|right; left|right; right];
          destruct X; constructor; try assumption; apply agrees_caches; assumption.
    - destruct B3 as [[] X]. constructor; [|exact X]. constructor; try assumption. apply agrees_caches; assumption.
  Qed.

  (** ** One call *)

  Notation outcome := (outcome cf buf base err im mem cached content mode_of ex).

  Lemma drive1_ok (d : dec) st s : sane s -> between d st s -> good d ->
    match blk_drive1 im d st with
    | (d', o, r) => unless_ub d' r /\ exists s', outcome d' s' r /\ bruns s o s' /\
        (forall st', r = Ok st' -> sane s' /\ forall os s2, bruns s' os s2 -> bruns s (o ++ os) s2)
    end.
  Proof.
    intros Hs B G. unfold blk_drive1. destruct (flag st pts_event_pending) eqn:Ef.
    - assert (Hp : pends cf buf base err im mem cached content mode_of ex d s) by (destruct B as [_ _ B]; rewrite Ef in B; exact B).
      pose proof (event_ok cf buf base err sized freq small bytes no_bdm64 no_skd022 no_skl014 im mem cached content at_ mode_of shows ex ex_inval d s Hs Hp) as E.
      pose proof (event_good d G) as Gd.
      destruct (pt_blk_event im d) as [[d1 [e|]] [st1|er|u]]; cbn [event_result fst] in *; try (destruct E; fail).
      + destruct E as (s1 & F & B1). split; [exact Gd|]. exists s1. split; [exact B1|].
        split; [eapply bruns_event; [exact F|constructor]|]. intros st' _. split; [eapply sane_flow; eassumption|].
        intros os s2 R. eapply bruns_event; eassumption.
      + destruct E as (Ne & s1 & F & Gu). split; [exact Gd|]. exists s1. split; [split; [intros X; destruct (Ne X)|exact Gu]|].
        split; [eapply bruns_event; [exact F|constructor]|discriminate].
      + destruct E as (Ne & Gu). split; [exact Gd|]. exists s. split; [split; [intros X; destruct (Ne X)|exact Gu]|].
        split; [constructor|discriminate].
    - assert (Hi : idle d s) by (destruct B as [_ _ B]; rewrite Ef in B; exact B).
      pose proof (next_ok cf buf base err sized freq small bytes no_bdm64 no_skd022 no_skl014 im mem cached content at_ mode_of shows ex ex_ovf ex_lookup ex_alloc d s Hs Hi) as E.
      pose proof (next_good d s Hs Hi) as Gd.
      destruct (pt_blk_next im d) as [[d1 b] [st1|er|u]]; cbn [post] in E; (split; [exact Gd|]).
      + destruct E as (is & s1 & F & X & E1 & E2 & B1). exists s1. split; [exact B1|].
        split; [eapply bruns_block; try eassumption; constructor|]. intros st' _. split; [eapply sane_flow; eassumption|].
        intros os s2 R. eapply bruns_block; eassumption.
      + destruct E as [(_ & Ne & is & s1 & F & X & Gu)|(-> & E & H1 & H2 & H3 & X)].
        * exists s1. split; [split; [intros Y; destruct (Ne Y)|exact Gu]|]. split; [eapply bruns_last; eassumption|discriminate].
        * exists s. split; [split; [auto|]|split; [eapply (bruns_last mem err s b []); [constructor|left; exact X]|discriminate]].
          apply gives_blocked. destruct s as [f h fs]. cbn [fs_flow fs_held fs_facts] in *. subst h fs.
          intros o s' St _. inversion St; subst; cbn [fs_flow] in *; try congruence.
          match goal with K : executing _ _ |- _ => destruct K as (K & _); cbn [fs_flow] in K end. congruence.
      + exists s. split; [exact E|]. split; [constructor|discriminate].
  Qed.
End BLOCKS.

(** ** The loop *)

Section LOOP.
  Context (cf : config) (buf : list N) (base : nat) (err : pte).
  Hypothesis sized : callback_sized cf.
  Hypothesis freq : (cf_mtc_freq cf < 24)%N.
  Hypothesis small : (N.of_nat (length buf) + 1 < 2 ^ 31)%N.
  Hypothesis bytes : bytes_ok buf.
  Hypothesis no_bdm64 : er_bdm64 (cf_errata cf) = false.
  Hypothesis no_skd022 : er_skd022 (cf_errata cf) = false.
  Hypothesis no_skl014 : er_skl014 (cf_errata cf) = false.
  Context {S C : Type} (im : blk_image S C) (mem : asid -> memory) (cached : C -> asid -> Prop).
  Context (content : N -> N -> option N) (at_ : asid -> N -> option place) (mode_of : N -> exec_mode).
  Hypothesis shows : blocks_show im mem cached content at_ mode_of.
  Notation between := (between cf buf base err im mem cached content mode_of (fun _ => True)).

  Lemma drive_good : forall n (d : blkdec C) st s, sane mem content at_ mode_of err s -> between d st s ->
    good cached content mode_of d ->
    match blk_drive im n d st with (_, d', r) => unless_ub cached content mode_of d' r end.
  Proof.
    induction n as [|n IH]; intros d st s Hs B G; [exact G|]. cbn [blk_drive].
    pose proof (drive1_ok cf buf base err sized freq small bytes no_bdm64 no_skd022 no_skl014 im mem cached content at_ mode_of shows
      (fun _ => True) I (fun _ _ _ _ _ _ _ => I) (fun _ _ _ _ _ => I) (fun _ _ _ => I) d st s Hs B G) as D.
    destruct (blk_drive1 im d st) as [[d1 o] [st1|e|u]]; destruct D as (G1 & s1 & O & _ & X); try exact G1.
    destruct (X st1 eq_refl) as (Hs1 & _). specialize (IH d1 st1 s1 Hs1 O G1).
    destruct (blk_drive im n d1 st1) as [[os d'] r]. exact IH.
  Qed.
End LOOP.

(** ** Other decoders at each access *)

Section SHARED.
  Context {S C : Type} (im : blk_image S C) (mem : asid -> memory) (cached : C -> asid -> Prop).
  Context (content : N -> N -> option N) (at_ : asid -> N -> option place) (mode_of : N -> exec_mode).
  Hypothesis shows : blocks_show im mem cached content at_ mode_of.
  Context (others : nat -> C -> caches -> C * caches).
  Hypothesis fair : forall n c cs a, cached c a -> caches_ok content mode_of cs ->
    match others n c cs with
    | (c', cs') => cached c' a /\ caches_ok content mode_of cs' /\ forall k, cs k <> None -> cs' k <> None
    end.

  Definition cached_env (e : env C) (a : asid) : Prop :=
    cached (en_cache e) a /\ Forall (caches_ok content mode_of) (en_seen e).

  Lemma shared_show : blocks_show (shared im others) mem cached_env content at_ mode_of.
  Proof.
    destruct shows as [[I1 I2 I3] Sw Sr Ss Sa So]. constructor; try assumption.
    - constructor; [exact I1| |].
      + intros e a ip (H1 & H2). specialize (I2 (en_cache e) a ip H1). cbn [shared bi_image shared_image im_lookup im_sread].
        unfold on_cache. destruct (im_lookup (bi_image im) (en_cache e) a ip) as [c [[isid s]|x|u]]; cbn [fst snd] in *; [| |exact I2].
        * destruct I2 as (K1 & K2). split; [split; [exact K1|exact H2]|exact K2].
        * destruct I2 as (K1 & K2). split; [split; [exact K1|exact H2]|exact K2].
      + intros e a (H1 & H2). specialize (I3 (en_cache e) a H1). cbn [shared bi_image shared_image im_invalidate].
        unfold on_cache. destruct (im_invalidate (bi_image im) (en_cache e)) as [c [[]|x|u]]; cbn [fst snd] in *; [| |exact I3].
        * intros a'. split; [apply I3|exact H2].
        * destruct I3 as (K1 & K2). split; [split; [exact K1|exact H2]|exact K2].
    - intros e a ip e' isid s (H1 & H2) E. cbn [shared bi_image shared_image im_lookup] in E. unfold on_cache in E.
      destruct (im_lookup (bi_image im) (en_cache e) a ip) as [c r] eqn:El. cbn [fst snd] in E. injection E as _ ->.
      exact (Sw (en_cache e) a ip c isid s H1 El).
    - intros e cs a (H1 & H2) Hc. cbn [shared bi_others]. pose proof (fair (en_time e) (en_cache e) cs a H1 Hc) as F.
      destruct (others (en_time e) (en_cache e) cs) as [c' cs']. destruct F as (F1 & F2 & F3).
      split; [split; [exact F1|constructor; assumption]|]. auto.
  Qed.
End SHARED.

(** ** Taking turns *)

Section SYSTEM.
  Context (cf : nat -> config) (buf : nat -> list N) (base : nat -> nat) (n : nat).
  Context {S C : Type} (im : nat -> blk_image S C) (mem : nat -> asid -> memory) (cached : nat -> C -> asid -> Prop).
  Context (content : N -> N -> option N) (at_ : nat -> asid -> N -> option place) (mode_of : N -> exec_mode).
  Context (err : nat -> pte) (s0 : nat -> fstate).
  Context (ex : pte -> Prop).
  Hypothesis ex_ovf : ex pte_overflow.
  (** What is known about the decoder [i]. *)
  Hypothesis fit : forall i, (i < n)%nat ->
    (callback_sized (cf i) /\ cf_mtc_freq (cf i) < 24 /\ N.of_nat (length (buf i)) + 1 < 2 ^ 31 /\ bytes_ok (buf i) /\
     er_bdm64 (cf_errata (cf i)) = false /\ er_skd022 (cf_errata (cf i)) = false /\ er_skl014 (cf_errata (cf i)) = false) /\
    blocks_show (im i) (mem i) (cached i) content (at_ i) mode_of /\
    (forall c a ip e, cached i c a -> snd (im_lookup (bi_image (im i)) c a ip) = Err e -> e <> pte_nomap -> ex e) /\
    (forall c a e, cached i c a -> snd (im_invalidate (bi_image (im i)) c) = Err e -> ex e) /\
    (forall k e, snd (bi_alloc (im i) k) = Err e -> ex e).

  Notation outcome i := (outcome (cf i) (buf i) (base i) (err i) (im i) (mem i) (cached i) content mode_of ex).

  Record going (i : nat) (p : part C) : Prop := {
    go_ok : exists s, outcome i (pa_dec p) s (pa_last p) /\ bruns (mem i) (err i) (s0 i) (pa_seen p) s /\
      forall st, pa_last p = Ok st -> sane (mem i) content (at_ i) mode_of (err i) s /\
        forall os s2, bruns (mem i) (err i) s os s2 -> bruns (mem i) (err i) (s0 i) (pa_seen p ++ os) s2;
    go_cache : forall st, pa_last p = Ok st -> exists a, cached i (bd_scache (pa_dec p)) a }.

  Definition all_going (s : system C) : Prop :=
    (forall i, (i < n)%nat -> going i (sy_part s i)) /\ caches_ok content mode_of (sy_caches s).

  Lemma turn_ok i s : (i < n)%nat -> all_going s ->
    (forall j, (j < n)%nat -> going j (sy_part (turn im i s) j)) /\
    ((forall u, pa_last (sy_part (turn im i s) i) <> UB u) -> caches_ok content mode_of (sy_caches (turn im i s))).
  Proof.
    intros Hi (Hg & Hc). unfold turn. pose proof (Hg i Hi) as [(s1 & O & R & X) Ca].
    destruct (pa_last (sy_part s i)) as [st|e|u] eqn:El; [|split; auto|split; auto].
    destruct (X st eq_refl) as (Sn & Cat). destruct (Ca st eq_refl) as (a & Ha).
    destruct (fit i Hi) as ((F1 & F2 & F3 & F4 & F5 & F6 & F7) & Sh & E1 & E2 & E3).
    set (d := bd_set_caches (pa_dec (sy_part s i)) (sy_caches s)).
    assert (G : good (cached i) content mode_of d) by (split; [exact Hc|exists a; exact Ha]).
    pose proof (drive1_ok (cf i) (buf i) (base i) (err i) F1 F2 F3 F4 F5 F6 F7 (im i) (mem i) (cached i) content (at_ i) mode_of Sh
      ex ex_ovf E1 E2 E3 d st s1 Sn (between_caches _ _ _ _ _ _ _ _ _ _ _ _ _ _ O Hc) G) as D.
    destruct (blk_drive1 (im i) d st) as [[d1 o] r]. destruct D as (Gd & s2 & O2 & R2 & X2). cbn [sy_part sy_caches]. split.
    - intros j Hj. destruct (Nat.eqb_spec j i) as [->|Nj]; [|apply Hg, Hj]. constructor; cbn [pa_dec pa_last pa_seen].
      + exists s2. split; [exact O2|]. split; [apply Cat, R2|]. intros st' E. destruct (X2 st' E) as (Y1 & Y2).
        split; [exact Y1|]. intros os s3 R3. rewrite <- app_assoc. apply Cat, Y2, R3.
      + intros st' ->. apply Gd.
    - rewrite Nat.eqb_refl. cbn [pa_last]. intros Nu. destruct r as [st'|e|u]; [apply Gd|apply Gd|destruct (Nu u eq_refl)].
  Qed.

  Lemma turns_ok : forall l s, Forall (fun i => (i < n)%nat) l -> all_going s ->
    (forall j, (j < n)%nat -> going j (sy_part (turns im l s) j)) /\
    ((forall j u, (j < n)%nat -> pa_last (sy_part (turns im l s) j) <> UB u) ->
     caches_ok content mode_of (sy_caches (turns im l s))).
  Proof.
    induction l as [|i l IH]; intros s Hl A; cbn [turns].
    { destruct A as (A1 & A2). split; auto. }
    inversion Hl; subst. destruct (turn_ok i s ltac:(assumption) A) as (T1 & T2).
    destruct (pa_last (sy_part (turn im i s) i)) as [st|e|u] eqn:El.
    - apply IH; [assumption|]. split; [exact T1|]. apply T2. discriminate.
    - apply IH; [assumption|]. split; [exact T1|]. apply T2. discriminate.
    - split; [exact T1|]. intros Nu. apply T2. intros u' E. eapply (Nu i); [assumption|]. rewrite El. reflexivity.
  Qed.
End SYSTEM.
