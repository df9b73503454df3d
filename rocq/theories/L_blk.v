(** Lemmas on the block decoder: running functions, and using the trace. *)

From Coq Require Import List NArith ZArith Bool PeanoNat Lia.
From Verif Require Import Base M_config M_time M_pktdec M_event M_evdec M_query M_retstack M_asid M_ildtab M_ild
  M_insn M_insndec M_blk L_calm S_core S_evdec S_x86 S_insn S_query S_flow S_drive S_blk L_core L_evdec L_evsafe L_evnext
  L_insn T_insn L_query L_query2 T_evdec T_evtrace L_flow L_flow2.
Import ListNotations.
Open Scope N_scope.

(** ** Running functions *)

Section POST.
  Context {C : Type}.
  Notation dec := (blkdec C).

  Definition post {A} (r : (dec * block) * res A) (P : dec -> block -> A -> Prop)
             (E : dec -> block -> pte -> Prop) (U : dec -> block -> ub -> Prop) : Prop :=
    match r with
    | (d, b, Ok a) => P d b a
    | (d, b, Err e) => E d b e
    | (d, b, UB u) => U d b u
    end.

  Lemma post_bind {A B} (m : M A) (k : A -> M B) s P Q E U : post (m s) P E U ->
    (forall d b a, P d b a -> post (k a (d, b)) Q E U) -> post (bind m k s) Q E U.
  Proof.
    intros H K. unfold bind. destruct (m s) as [[d b] [a|e|u]]; cbn in *; auto.
  Qed.
  Lemma post_mono {A} (r : (dec * block) * res A) (P P' : dec -> block -> A -> Prop)
        (E E' : dec -> block -> pte -> Prop) (U U' : dec -> block -> ub -> Prop) :
    post r P E U -> (forall d b a, P d b a -> P' d b a) ->
    (forall d b e, E d b e -> E' d b e) -> (forall d b u, U d b u -> U' d b u) -> post r P' E' U'.
  Proof. destruct r as [[d b] [a|e|u]]; cbn; auto. Qed.
  Lemma post_state {B} (k : dec -> M B) d b Q E U :
    post (k d (d, b)) Q E U -> post (bind state k (d, b)) Q E U.
  Proof. auto. Qed.
  Lemma post_blk {B} (k : block -> M B) (d : dec) b Q E U :
    post (k b (d, b)) Q E U -> post (bind blk k (d, b)) Q E U.
  Proof. auto. Qed.
  Lemma post_change {B} (k : unit -> M B) f (d : dec) b Q E U :
    post (k tt (f d, b)) Q E U -> post (bind (change f) k (d, b)) Q E U.
  Proof. auto. Qed.
  Lemma post_change_blk {B} (k : unit -> M B) f (d : dec) b Q E U :
    post (k tt (d, f b)) Q E U -> post (bind (change_blk f) k (d, b)) Q E U.
  Proof. auto. Qed.
End POST.

(** Nothing goes wrong in these ways. *)
Definition no_ub {C} : blkdec C -> block -> ub -> Prop := fun _ _ _ => False.
(** The decoder gives up: the flow cannot go on, or the error is one of [ex]. *)
Definition gives_up (mem : asid -> memory) (err : pte) (ex : pte -> Prop) (e : pte) (s : fstate) : Prop :=
  exists s1, bflows mem err s [] s1 /\ (ex e \/ blocked mem err s1).
(** An error that leaves the block alone. *)
Definition err_keep {C} mem err ex (s : fstate) (b : block) : blkdec C -> block -> pte -> Prop :=
  fun _ b' e => b' = b /\ e <> pte_eos /\ gives_up mem err ex e s.

(** ** TNT *)

Lemma payload_cons bits size : 1 <= size ->
  payload_bits bits size = N.testbit bits (size - 1) :: payload_bits bits (size - 1).
Proof.
  intros H. unfold payload_bits.
  replace (N.to_nat size) with (S (N.to_nat (size - 1))) by (clear - H; lia).
  rewrite seq_S, rev_app_distr. cbn [rev app map plus]. rewrite N2Nat.id. reflexivity.
Qed.

(** ** The decoder and the flow *)

Definition tnt_ok (e : event) : Prop := match ev_var e with Ev_tnt _ n => 1 <= n | _ => True end.
(** The event with those behind it as an event that is held and facts. *)
Definition parted (ev : event) (evs : list event) : option event * list fact :=
  match ev_var ev with
  | Ev_tnt bits size => (None, map F_bit (payload_bits bits size) ++ flat_map facts_of evs)
  | Ev_tip ip => (None, F_tip (Some ip) :: flat_map facts_of evs)
  | _ => (Some ev, flat_map facts_of evs)
  end.

Lemma bflows_one mem err s o s1 : bstep mem err s o s1 -> bflows mem err s o s1.
Proof. intros H. rewrite <- (app_nil_r o). econstructor; [exact H|constructor]. Qed.
Lemma bflows_app mem err s os s1 os' s2 : bflows mem err s os s1 -> bflows mem err s1 os' s2 ->
  bflows mem err s (os ++ os') s2.
Proof.
  induction 1 as [|s o s1 os s' H _ IH]; intros K; [exact K|]. rewrite <- app_assoc.
  econstructor; [exact H|apply IH, K].
Qed.

Lemma gives_excused mem err (ex : pte -> Prop) e s : ex e -> gives_up mem err ex e s.
Proof. intros H. exists s. split; [constructor|left; exact H]. Qed.
Lemma gives_blocked mem err ex e s : blocked mem err s -> gives_up mem err ex e s.
Proof. intros H. exists s. split; [constructor|right; exact H]. Qed.
Lemma gives_later mem err ex e s s1 : bflows mem err s [] s1 -> gives_up mem err ex e s1 -> gives_up mem err ex e s.
Proof. intros F (s2 & F2 & H). exists s2. split; [exact (bflows_app _ _ _ _ _ _ _ F F2)|exact H]. Qed.

(** Nothing goes on at an instruction. *)
Lemma blocked_site mem err f h fs s ks : f_cur f = Some (s, ks) ->
  (h = None -> forall e fs', fs <> F_event e :: fs') ->
  (forall e, h = Some e -> ~ belongs s ks e) ->
  (orderly (mk_fstate f h fs) -> quiet err (belongs s ks) h fs -> branches s = false \/ h = None ->
   forall ip l fs', ~ completes s (f_calls f) fs ip l fs') ->
  blocked mem err (mk_fstate f h fs).
Proof.
  intros Hc Ht Hb Hl o s' St Od. inversion St; subst.
  - exact (Ht eq_refl _ _ eq_refl).
  - match goal with H : executing _ _ |- _ => destruct H as (_ & H & _); cbn in H end. congruence.
  - assert ((s, ks) = (s0, ks0)) as [= <- <-] by congruence.
    apply (Hb e eq_refl). right. eauto.
  - assert ((s, ks) = (s0, ks0)) as [= <- <-] by congruence. apply (Hb e eq_refl). left. assumption.
  - assert ((s, ks) = (s0, ks0)) as [= <- <-] by congruence. eapply Hl; eassumption.
  - congruence.
Qed.
(** Nothing goes on between instructions. *)
Lemma blocked_between mem err f h fs : f_cur f = None ->
  (h = None -> forall e fs', fs <> F_event e :: fs') ->
  (executing err (mk_fstate f h fs) -> forall t i, ~ insn_of mem f t i) ->
  (forall e, h = Some e -> here f e = true -> effect f e = None) ->
  blocked mem err (mk_fstate f h fs).
Proof.
  intros Hc Ht Hi He o s' St _. inversion St; subst.
  - exact (Ht eq_refl _ _ eq_refl).
  - eapply Hi; eassumption.
  - congruence.
  - congruence.
  - congruence.
  - rewrite (He e eq_refl) in *; [discriminate|assumption].
Qed.

Lemma parted_flow mem err f e evs : plain_event e ->
  bflows mem err (mk_fstate f None (flat_map facts_of (e :: evs))) []
    (mk_fstate f (fst (parted e evs)) (snd (parted e evs))).
Proof.
  intros Hp. unfold parted, plain_event in *. cbn [flat_map]. unfold facts_of at 1.
  unfold bits_of. destruct (ev_var e) eqn:Ev; cbn [fst snd];
    try (apply bflows_one; apply bs_take); try (rewrite Hp); apply bflows_nil.
Qed.

Section BLOCKS.
  Context (cf : config) (buf : list N) (base : nat) (err : pte).
  Hypothesis sized : callback_sized cf.
  Hypothesis freq : (cf_mtc_freq cf < 24)%N.
  Hypothesis small : (N.of_nat (length buf) + 1 < 2 ^ 31)%N.
  Hypothesis bytes : bytes_ok buf.
  Hypothesis no_bdm64 : er_bdm64 (cf_errata cf) = false.
  Hypothesis no_skd022 : er_skd022 (cf_errata cf) = false.
  Hypothesis no_skl014 : er_skl014 (cf_errata cf) = false.
  Context {S C : Type} (im : blk_image S C) (mem : asid -> memory) (cached : C -> asid -> Prop).
  Context (content : N -> N -> option N) (at_ : asid -> N -> option place) (mode_of : N -> exec_mode).
  Hypothesis shows : blocks_show im mem cached content at_ mode_of.
  Notation dec := (blkdec C).

  (** Errors that do not need to mean that the flow cannot go on. *)
  Context (ex : pte -> Prop).
  Notation err_keep := (err_keep mem err ex).

  (** The events to come. *)
  Definition upcoming (d : dec) (evs : list event) : Prop :=
    stream (bd_evdec d) evs err /\ Forall plain_event evs /\ Forall tnt_ok evs /\
    reachable base cf buf (bd_evdec d).

  (** The event that is held and the rest of the trace. *)
  Definition rest (d : dec) (h : option event) (fs : list fact) : Prop :=
    pt_blk_config d = cf /\
    match bd_status d with
    | Some e => e = err /\ bd_event d = None /\ h = None /\ fs = []
    | None => exists ev evs, bd_event d = Some ev /\ plain_event ev /\ upcoming d evs /\
                             (h, fs) = parted ev evs
    end.
  (** There are bits in a TNT event. *)
  Definition fullness (d : dec) : Prop :=
    match bd_event d with Some ev => tnt_ok ev | None => True end.

  (** The decoder's state but for the address and the trace. *)
  Record agrees (d : dec) (f : flow) : Prop := {
    a_on : bd_enabled d = f_on f;
    a_mode : bd_mode d = f_mode f;
    a_asid : bd_asid d = f_asid f;
    a_spec : bd_spec d = f_spec f;
    a_calls : rs_rep (bd_retstack d) (f_calls f);
    a_cache : cached (bd_scache d) (bd_asid d);
    a_caches : caches_ok content mode_of (bd_caches d);
    a_ticks : bd_ticks d = false }.

  (** The section cache and block caches are fine. *)
  Definition good (d : dec) : Prop := caches_ok content mode_of (bd_caches d) /\ exists a, cached (bd_scache d) a.
  Lemma agrees_good d f : agrees d f -> good d.
  Proof. intros H. split; [apply H|eexists; apply H]. Qed.
  Lemma same_good d d' : same_caches d d' -> good d -> good d'.
  Proof. intros (E1 & E2) (G1 & G2). split; [rewrite E1|rewrite E2]; assumption. Qed.

  (** The instruction that is postponed is kept. *)
  Definition keeps (d d' : dec) : Prop :=
    bd_postponed d' = bd_postponed d /\ bd_bound d' = bd_bound d /\
    bd_end_call d' = bd_end_call d /\ bd_end_jump d' = bd_end_jump d.
  (** The trace is kept. *)
  Definition still (d d' : dec) : Prop :=
    bd_evdec d' = bd_evdec d /\ bd_status d' = bd_status d /\ bd_event d' = bd_event d.

  Lemma keeps_refl d : keeps d d. Proof. repeat split. Qed.
  Lemma keeps_trans d1 d2 d3 : keeps d1 d2 -> keeps d2 d3 -> keeps d1 d3.
  Proof. clear. unfold keeps. intuition congruence. Qed.
  Lemma still_trans d1 d2 d3 : still d1 d2 -> still d2 d3 -> still d1 d3.
  Proof. clear. unfold still. intuition congruence. Qed.
  Lemma still_rest d d' h fs : still d d' -> rest d h fs -> rest d' h fs.
  Proof.
    intros (E1 & E2 & E3) (R1 & R2). split; [unfold pt_blk_config in *; congruence|].
    unfold upcoming in *. rewrite E1, E2, E3. exact R2.
  Qed.
  Lemma still_full d d' : still d d' -> fullness d -> fullness d'.
  Proof. intros (_ & _ & E). unfold fullness. rewrite E. auto. Qed.

  Ltac same := intros []; constructor; assumption.
  Lemma agrees_ip d f x : agrees d f -> agrees (bd_set_ip d x) f.
  Proof. same. Qed.
  Lemma agrees_icnt d f b x : agrees d f -> agrees (bd_set_icnt d b x) f.
  Proof. same. Qed.
  Lemma agrees_go d f ip : agrees d f -> agrees d (go f ip).
  Proof. same. Qed.
  Lemma agrees_at d f x : agrees d f -> agrees d (at_site f x).
  Proof. same. Qed.
  Lemma agrees_event d f e : agrees d f -> agrees (bd_set_event d e) f.
  Proof. same. Qed.
  Lemma agrees_evdec d f e : agrees d f -> agrees (bd_set_evdec d e) f.
  Proof. same. Qed.
  Lemma agrees_status d f s e : agrees d f -> agrees (bd_set_status d s e) f.
  Proof. same. Qed.
  Lemma agrees_time d f a b c e : agrees d f -> agrees (bd_set_time d a b c e) f.
  Proof. same. Qed.
  Lemma agrees_postponed d f p b : agrees d f -> agrees (bd_set_postponed d p b) f.
  Proof. same. Qed.
  Lemma agrees_calls d f r l : agrees d f -> rs_rep r l -> agrees (bd_set_retstack d r) (calls f l).
  Proof. intros [] ?; constructor; assumption. Qed.
  Lemma agrees_caches d f c : agrees d f -> caches_ok content mode_of c -> agrees (bd_set_caches d c) f.
  Proof. intros [] ?; constructor; assumption. Qed.

  (** ** Fetching *)

  Lemma anchor_ok (d : dec) ev :
    match pt_blk_find_trig_anchor d ev with
    | Ok d' => exists b, d' = d \/ d' = bd_set_icnt d b 0
    | Err e => ~ plain_event ev
    | UB _ => False
    end.
  Proof.
    unfold pt_blk_find_trig_anchor, plain_event. destruct (ev_var ev); destruct (ev_ip_suppressed ev);
      try discriminate; try (exists true; auto; fail); exists false; auto.
  Qed.

  Lemma config_keep d evs q r : upcoming d evs -> pt_blk_config d = cf ->
    pt_evt_next (bd_evdec d) = (q, r) -> ed_config q = cf /\ reachable base cf buf q.
  Proof.
    intros (_ & _ & _ & R) Hc E. pose proof (next_reach cf buf sized freq small bytes base _ _ _ R E) as R'.
    split; [|exact R'].
    pose proof (reachable_ok cf buf sized freq small bytes base _ R') as ((P & _) & _). exact P.
  Qed.

  Lemma rest_event d fs e fs' : rest d None fs -> fullness d -> fs <> F_event e :: fs'.
  Proof.
    intros (_ & R) F. destruct (bd_status d); [destruct R as (_ & _ & _ & ->); discriminate|].
    destruct R as (ev & evs & Hev & _ & _ & Ep). unfold fullness in F. rewrite Hev in F.
    unfold parted, tnt_ok in *. destruct (ev_var ev); try discriminate Ep; injection Ep as ->; [discriminate|].
    rewrite (payload_cons _ _ F). discriminate.
  Qed.

  Lemma fetch_ok d b f ev evs : agrees d f -> pt_blk_config d = cf -> bd_status d = None ->
    bd_event d = Some ev -> plain_event ev -> upcoming d evs ->
    post (pt_blk_fetch_event (d, b))
      (fun d' b' _ => b' = b /\ agrees d' f /\ bd_ip d' = bd_ip d /\ keeps d d' /\ fullness d' /\
         exists h fs, rest d' h fs /\
           forall g, bflows mem err (mk_fstate g None (flat_map facts_of evs)) [] (mk_fstate g h fs))
      (fun _ _ _ => False) no_ub.
  Proof.
    intros Ha Hc Hs Hev Hpl Hu. unfold pt_blk_fetch_event. apply post_state. rewrite Hev.
    apply post_change. apply post_state.
    set (d1 := bd_set_time d _ _ _ _).
    assert (Ha1 : agrees d1 f) by (apply agrees_time; exact Ha).
    pose proof (anchor_ok d1 ev) as K. unfold bind at 1, lift at 1.
    destruct (pt_blk_find_trig_anchor d1 ev) as [d2|e|u]; [|exact (K Hpl)|destruct K].
    destruct K as (bb & K).
    assert (Q : agrees d2 f /\ bd_ip d2 = bd_ip d /\ keeps d d2 /\ bd_evdec d2 = bd_evdec d /\ bd_status d2 = None).
    { destruct K as [-> | ->]; (split; [try apply agrees_icnt; exact Ha1|repeat split; exact Hs]). }
    clear K. destruct Q as (Q1 & Q2 & Q3 & Q4 & Q5). rewrite Q4.
    pose proof (config_keep d evs) as G. pose proof Hu as (U1 & U2 & U3 & _). inversion U1; subst.
    - rewrite H. destruct (G _ _ Hu Hc H) as (G1 & G2).
      cbn. split; [reflexivity|]. split; [apply agrees_status, agrees_evdec, Q1|].
      split; [exact Q2|]. split; [exact Q3|]. split; [exact I|].
      exists None, []. split; [|intros g; apply bflows_nil]. split; [exact G1|]. cbn. auto.
    - rewrite H. destruct (G _ _ Hu Hc H) as (G1 & G2).
      inversion U2; subst. inversion U3; subst.
      cbn. split; [reflexivity|]. split; [apply agrees_event, agrees_evdec, Q1|].
      split; [exact Q2|]. split; [exact Q3|]. split; [assumption|].
      exists (fst (parted ev0 evs0)), (snd (parted ev0 evs0)).
      split; [|intros g; apply parted_flow; assumption]. split; [exact G1|]. cbn. rewrite Q5.
      exists ev0, evs0. split; [reflexivity|]. split; [assumption|].
      split; [split; [assumption|]; split; [assumption|]; split; assumption|].
      destruct (parted ev0 evs0). reflexivity.
  Qed.

  (** ** Branches *)

  Lemma parted_tnt ev bits size evs : ev_var ev = Ev_tnt bits size ->
    parted ev evs = (None, map F_bit (payload_bits bits size) ++ flat_map facts_of evs).
  Proof. intros E. unfold parted. rewrite E. reflexivity. Qed.

  (** A target from the trace. *)
  Lemma indirect_ok d b f h fs : agrees d f -> rest d h fs ->
    post (pt_blk_proceed_indirect (d, b))
      (fun d' b' _ => b' = b /\ agrees d' f /\ keeps d d' /\ (fullness d -> fullness d') /\ h = None /\
         exists h' fs1 fs', takes fs (bd_ip d') fs1 /\ rest d' h' fs' /\
           (forall g, bflows mem err (mk_fstate g None fs1) [] (mk_fstate g h' fs')))
      (fun _ b' e => b' = b /\ e <> pte_eos /\
         (fullness d -> h <> None \/ (forall a fs', ~ takes fs a fs') \/ exists x fs', fs = F_bit x :: fs'))
      no_ub.
  Proof.
    intros Ha (Hc & Hr). unfold pt_blk_proceed_indirect. apply post_state.
    destruct (bd_status d) as [e|] eqn:Es.
    { destruct Hr as (-> & -> & -> & ->). split; [reflexivity|]. split; [discriminate|]. intros _. right. left.
      intros a fs' (l & p & E & _). destruct l; discriminate E. }
    destruct Hr as (ev & evs & Hev & Hp & Hu & Ep). rewrite Hev.
    destruct (ev_var ev) eqn:Ev;
      try (split; [reflexivity|]; split; [discriminate|]; intros _; left;
           unfold parted in Ep; rewrite Ev in Ep; injection Ep as -> _; discriminate).
    - (* target *)
      pose proof Hp as Hp'. unfold plain_event in Hp'. rewrite Ev in Hp'. rewrite Hp'. apply post_change.
      unfold pt_blk_tick. apply post_state. cbn [bd_event bd_set_ip]. rewrite Hev.
      cbn [bd_ticks bd_set_ip]. rewrite (a_ticks _ _ Ha). cbn [andb].
      eapply post_mono; [eapply (fetch_ok (bd_set_ip d ip) b f ev evs)| | |]; try assumption.
      + apply agrees_ip. exact Ha.
      + intros d' b' _ (-> & A & Eip & K & F & h' & fs' & R & B). cbn [bd_ip bd_set_ip] in Eip.
        unfold parted in Ep. rewrite Ev in Ep. injection Ep as -> ->.
        split; [reflexivity|]. split; [exact A|]. split; [exact K|]. split; [auto|]. split; [reflexivity|].
        exists h', (flat_map facts_of evs), fs'. rewrite Eip.
        split; [exists [], (flat_map facts_of evs); split; reflexivity|]. split; [exact R|].
        exact B.
      + intros ? ? ? [].
      + auto.
    - (* outcomes before the target *)
      assert (Left : fullness d -> h <> None \/ (forall a fs', ~ takes fs a fs') \/ exists x fs', fs = F_bit x :: fs').
      { intros Hf. unfold fullness, tnt_ok in Hf. rewrite Hev, Ev in Hf.
        rewrite (parted_tnt _ _ _ _ Ev), (payload_cons _ _ Hf) in Ep. injection Ep as -> ->. right. right. eexists _, _. reflexivity. }
      pose proof (config_keep d evs) as G. pose proof Hu as (U1 & U2 & U3 & _). inversion U1; subst.
      { rewrite H. split; [reflexivity|]. split; [discriminate|exact Left]. }
      rewrite H. destruct (G _ _ Hu Hc H) as (G1 & G2). inversion U2; subst. inversion U3; subst.
      destruct (ev_var ev0) eqn:Ev0; try (split; [reflexivity|]; split; [discriminate|exact Left]).
      cbn. split; [reflexivity|]. split; [apply agrees_ip, agrees_evdec, Ha|]. split; [repeat split|].
      split; [auto|]. rewrite (parted_tnt _ _ _ _ Ev) in Ep. injection Ep as -> ->.
      split; [reflexivity|].
      assert (F : facts_of ev0 = [F_tip (Some ip)]).
      { unfold facts_of. rewrite Ev0. unfold plain_event in H3. rewrite Ev0 in H3. rewrite H3. reflexivity. }
      exists None, (map F_bit (payload_bits bits size) ++ flat_map facts_of evs0),
        (map F_bit (payload_bits bits size) ++ flat_map facts_of evs0).
      split; [|split; [|intros g; apply bflows_nil]].
      + exists (payload_bits bits size), (flat_map facts_of evs0). split; [|reflexivity].
        cbn [flat_map]. rewrite F. reflexivity.
      + split; [exact G1|]. cbn. rewrite Es. exists ev, evs0. split; [exact Hev|]. split; [exact Hp|].
        split; [split; [assumption|]; split; [assumption|]; split; assumption|].
        rewrite (parted_tnt _ _ _ _ Ev). reflexivity.
  Qed.

  (** An outcome from the trace. *)
  Lemma cond_ok d b f h fs : agrees d f -> rest d h fs -> fullness d ->
    post (pt_blk_cond_branch (d, b))
      (fun d' b' o => b' = b /\ match o with
         | None => d' = d /\ (h = None -> forall x fs', fs <> F_bit x :: fs')
         | Some x => exists ev, d' = bd_set_event d ev /\ h = None /\
             exists fs', fs = F_bit x :: fs' /\ rest d' None fs'
         end)
      (fun _ _ _ => False) no_ub.
  Proof.
    intros Ha (Hc & Hr) Hf. unfold pt_blk_cond_branch. apply post_state.
    destruct (bd_status d) as [e|] eqn:Es.
    { destruct Hr as (-> & -> & -> & ->). repeat split. discriminate. }
    destruct Hr as (ev & evs & Hev & Hp & Hu & Ep). unfold fullness in Hf. rewrite Hev in *.
    unfold tnt_ok in Hf. destruct (ev_var ev) eqn:Ev;
      try (repeat split; intros Eh x fs' E; unfold parted in Ep; rewrite Ev in Ep; injection Ep; intros; congruence).
    destruct (N.eqb_spec size 0) as [E0|E0]; [exfalso; clear - Hf E0; lia|].
    rewrite (parted_tnt _ _ _ _ Ev), (payload_cons _ _ Hf) in Ep. injection Ep as -> ->.
    apply post_change. split; [reflexivity|]. eexists. split; [reflexivity|]. split; [reflexivity|].
    eexists. split; [reflexivity|]. split; [exact Hc|]. cbn. rewrite Es.
    eexists _, evs. split; [reflexivity|]. split; [unfold plain_event in *; rewrite Ev in Hp; exact Hp|]. split; [exact Hu|]. reflexivity.
  Qed.

  Lemma direct_site i x : direct (site_of_insn i x) = x_direct x && negb (is_jmpabs x).
  Proof. unfold direct, is_jmpabs. cbn. destruct (x_inst x); destruct (x_direct x); reflexivity. Qed.

  Lemma completes_takes s l fs ip l' fs' : (si_class s = ptic_jump \/ si_class s = ptic_call) /\ direct s = false \/
      si_class s = ptic_indirect \/ far (si_class s) = true ->
    completes s l fs ip l' fs' -> takes fs ip fs'.
  Proof.
    intros Hk Cm. inversion Cm; subst; try assumption; exfalso;
      destruct Hk as [([Hk|Hk] & Hd)|[Hk|Hk]]; try congruence;
      try match goal with H : _ \/ _ |- _ => destruct H as [H|H] end; try congruence; rewrite H in Hk; discriminate Hk.
  Qed.
  Lemma completes_return s l fs ip l' fs' : si_class s = ptic_return -> completes s l fs ip l' fs' ->
    fs = F_bit true :: fs' /\ l = ip :: l' \/ fs = F_tip (Some ip) :: fs'.
  Proof.
    intros Hk Cm. inversion Cm; subst; auto; exfalso;
      repeat match goal with H : _ \/ _ |- _ => destruct H as [H|H] end; try congruence.
    - destruct H as ([H|H] & _); congruence.
    - rewrite Hk in H. discriminate H.
  Qed.
  Lemma completes_cond s l fs ip l' fs' : si_class s = ptic_cond_jump -> completes s l fs ip l' fs' ->
    exists b, fs = F_bit b :: fs'.
  Proof.
    intros Hk Cm. inversion Cm; subst; eauto; exfalso;
      repeat match goal with H : _ \/ _ |- _ => destruct H as [H|H] end; try congruence.
    - destruct H as ([H|H] & _); congruence.
    - rewrite Hk in H. discriminate H.
  Qed.

  (** Completing a branch with the trace. *)
  Lemma trace_ok d b f h fs i x ks : agrees d f -> rest d h fs -> fullness d -> f_on f = true ->
    f_cur f = Some (site_of_insn i x, ks) -> (forall e, h = Some e -> ~ belongs (site_of_insn i x) ks e) ->
    pt_insn_next_ip i x = Err pte_bad_query ->
    post (pt_blk_proceed_with_trace i x (d, b))
      (fun d' b' _ => b' = b /\ keeps d d' /\ h = None /\
         (fullness d' \/ exists b fs', fs = F_bit b :: fs' /\ (in_iclass i = ptic_cond_jump \/ in_iclass i = ptic_return)) /\
         exists l h' fs', let f' := at_site (go (calls f l) (bd_ip d')) None in
           agrees d' f' /\ rest d' h' fs' /\
           bflows mem err (mk_fstate f h fs) [] (mk_fstate f' h' fs'))
      (err_keep (mk_fstate f h fs) b) no_ub.
  Proof.
    intros Ha Hr Hf On Hcur Hbl Hbr. unfold pt_blk_proceed_with_trace. set (s := site_of_insn i x) in *.
    assert (Bl : (orderly (mk_fstate f h fs) -> branches s = false \/ h = None ->
                  forall ip l fs', ~ completes s (f_calls f) fs ip l fs') -> blocked mem err (mk_fstate f h fs)).
    { intros X. eapply blocked_site; [exact Hcur| |exact Hbl|auto].
      intros -> e fs'. eapply rest_event; eassumption. }
    assert (Bn : forall (d' : dec) e, e <> pte_eos -> (orderly (mk_fstate f h fs) -> branches s = false \/ h = None ->
                  forall ip l fs', ~ completes s (f_calls f) fs ip l fs') -> err_keep (mk_fstate f h fs) b d' b e).
    { intros d' e He X. split; [reflexivity|]. split; [exact He|]. apply gives_blocked. exact (Bl X). }
    assert (Ind : (si_class s = ptic_jump \/ si_class s = ptic_call) /\ direct s = false \/
                  si_class s = ptic_indirect \/ far (si_class s) = true \/ si_class s = ptic_return ->
      (si_class s = ptic_return -> (exists d0, pt_blk_cond_branch (d, b) = (d0, b, Ok None)) /\
                                   (h = None -> forall x fs', fs <> F_bit x :: fs')) ->
      post (pt_blk_proceed_indirect (d, b))
      (fun d' b' _ => b' = b /\ keeps d d' /\ h = None /\
         (fullness d' \/ exists b fs', fs = F_bit b :: fs' /\ (in_iclass i = ptic_cond_jump \/ in_iclass i = ptic_return)) /\
         exists l h' fs', let f' := at_site (go (calls f l) (bd_ip d')) None in
           agrees d' f' /\ rest d' h' fs' /\
           bflows mem err (mk_fstate f h fs) [] (mk_fstate f' h' fs'))
      (err_keep (mk_fstate f h fs) b) no_ub).
    { intros Hk Hret.
      assert (Kind : ((si_class s = ptic_jump \/ si_class s = ptic_call) /\ direct s = false \/
                  si_class s = ptic_indirect \/ far (si_class s) = true) \/ si_class s = ptic_return) by (clear - Hk; tauto).
      assert (Br : branches s = true).
      { unfold branches. destruct Kind as [[([Hk'|Hk'] & Hd)|[Hk'|Hk']]|Hk']; try rewrite Hk'; try rewrite Hd; try reflexivity.
        destruct (si_class s); try reflexivity; discriminate Hk'. }
      eapply post_mono; [apply (indirect_ok d b f h fs Ha Hr)| | |auto].
      2:{ intros d' b' e (-> & He & X). pose proof (X Hf) as X'.
          apply Bn; [exact He|]. intros Od [Y|Y]; [congruence|]. rename Y into Hh. intros ip l fs' Cm.
          destruct X' as [X'|[X'|(b0 & fs1 & E)]]; [congruence| |].
          - destruct Kind as [Hk'|Hk']; [exact (X' _ _ (completes_takes _ _ _ _ _ _ Hk' Cm))|].
            destruct (completes_return _ _ _ _ _ _ Hk' Cm) as [(E & _)|E].
            + destruct (Hret Hk') as (_ & Nb). exact (Nb Hh _ _ E).
            + rewrite E in X'. apply (X' ip fs'). exists [], fs'; split; reflexivity.
          - destruct Kind as [Hk'|Hk'].
            + unfold orderly in Od. cbn [fs_flow fs_facts] in Od. rewrite Hcur, E in Od.
              destruct Hk' as [([Hk'|Hk'] & Hd)|[Hk'|Hk']]; try rewrite Hk' in Od; try congruence; try exact Od.
              destruct (si_class s); discriminate.
            + destruct (Hret Hk') as (_ & Nb). exact (Nb Hh _ _ E). }
      intros d' b' _ (-> & A & K & F & -> & h' & fs1 & fs' & T & R & B).
      split; [reflexivity|]. split; [exact K|]. split; [reflexivity|]. split; [left; auto|].
      exists (f_calls f), h', fs'. cbv zeta. split; [apply agrees_at, agrees_go; destruct A; constructor; assumption|].
      split; [exact R|].
      assert (St : bstep mem err (mk_fstate f None fs) [] (mk_fstate (at_site (go (calls f (f_calls f)) (bd_ip d')) None) None fs1)).
      { apply (bs_leave mem err f s ks None fs (bd_ip d') (f_calls f) fs1 On Hcur).
        - destruct T as (l & p & -> & _). destruct l; exact I.
        - right. reflexivity.
        - destruct Hk as [Hk|[Hk|[Hk|Hk]]];
            [apply complete_indirect; auto|apply complete_indirect; auto|apply complete_indirect; auto|].
          (* a return: the next event is the target *)
          destruct (Hret Hk) as ((d0 & E0) & _). destruct T as (l & p & -> & ->). destruct l as [|x0 l].
          + apply complete_return. exact Hk.
          + exfalso. pose proof Hr as (_ & Hr'). unfold pt_blk_cond_branch, bind, state in E0. cbn [fst] in E0.
            destruct (bd_status d); [destruct Hr' as (_ & _ & _ & Hr'); discriminate Hr'|].
            destruct Hr' as (ev & evs & Hev & Hp & _ & Ep). rewrite Hev in E0. unfold parted in Ep.
            destruct (ev_var ev); try discriminate Ep. destruct (size =? 0); discriminate E0. }
      replace (@nil obs) with (@nil obs ++ []) by reflexivity. econstructor; [exact St|apply B]. }
    assert (Cl : si_class s = in_iclass i) by reflexivity.
    pose proof (direct_site i x) as Ds. fold s in Ds.
    unfold pt_insn_next_ip in Hbr.
    destruct (in_iclass i) eqn:Ei; try discriminate Hbr.
    - (* call *)
      destruct (x_direct x) eqn:Ed; [discriminate Hbr|].
      apply Ind; [left; split; [auto|]; rewrite Ds; reflexivity|congruence].
    - (* return *)
      pose proof (cond_ok d b f h fs Ha Hr Hf) as Cb. unfold bind at 1.
      destruct (pt_blk_cond_branch (d, b)) as [[d1 b1] [[[|]|]|e|u]] eqn:Ec; cbn [post] in Cb; [| | |destruct Cb|exact Cb].
      + destruct Cb as (-> & ev & -> & -> & fs' & -> & R). apply post_state.
        cbn [bd_retstack bd_set_event]. pose proof (pop_rep _ _ (a_calls _ _ Ha)) as Pp.
        destruct (f_calls f) as [|a l] eqn:El.
        * destruct Pp as (r & -> & _). apply Bn; [discriminate|]. intros _ _ ip l fs1 Cm.
          destruct (completes_return _ _ _ _ _ _ Cl Cm) as [(_ & E)|E]; discriminate E.
        * destruct Pp as (r & -> & Hrep). apply post_change. unfold bind at 1, lift at 1.
          split; [reflexivity|]. split; [repeat split|]. split; [reflexivity|].
          split; [right; eexists _, _; split; [reflexivity|right; reflexivity]|].
          exists l, None, fs'. cbv zeta. split; [apply agrees_at, agrees_go, agrees_ip, agrees_calls; [apply agrees_event, Ha|exact Hrep]|].
          split; [eapply still_rest; [|exact R]; repeat split|]. apply bflows_one.
          apply (bs_leave mem err f s ks None (F_bit true :: fs') a l fs' On Hcur); [exact I|right; reflexivity|].
          rewrite El. apply complete_compressed. exact Cl.
      + destruct Cb as (-> & ev & -> & -> & fs' & -> & R). apply Bn; [discriminate|]. intros _ _ ip l fs1 Cm.
        destruct (completes_return _ _ _ _ _ _ Cl Cm) as [(E & _)|E]; discriminate E.
      + destruct Cb as (-> & -> & Nb). apply Ind; [auto|]. intros _. split; [eauto|exact Nb].
    - (* jump *)
      destruct (negb (is_jmpabs x) && x_direct x) eqn:Ed; [destruct (is_jmpabs x), (x_direct x); discriminate|].
      apply Ind; [left; split; [auto|]; rewrite Ds, andb_comm; exact Ed|congruence].
    - (* conditional jump *)
      pose proof (cond_ok d b f h fs Ha Hr Hf) as Cb. unfold bind at 1.
      destruct (pt_blk_cond_branch (d, b)) as [[d1 b1] [[t|]|e|u]] eqn:Ec; cbn [post] in Cb; [| |destruct Cb|exact Cb].
      2:{ destruct Cb as (-> & -> & Nb). apply Bn; [discriminate|]. intros _ [X|X] ip l fs1 Cm.
          - unfold branches in X. rewrite Cl in X. discriminate X.
          - destruct (completes_cond _ _ _ _ _ _ Cl Cm) as (b0 & E). exact (Nb X _ _ E). }
      destruct Cb as (-> & ev & -> & -> & fs' & -> & R).
      split; [reflexivity|]. split; [repeat split|]. split; [reflexivity|].
      split; [right; eexists _, _; split; [reflexivity|left; reflexivity]|].
      exists (f_calls f), None, fs'. cbv zeta.
      split; [apply agrees_at, agrees_go, agrees_ip, agrees_event; destruct Ha; constructor; assumption|].
      split; [eapply still_rest; [|exact R]; repeat split|]. apply bflows_one.
      cbn [bd_ip bd_set_ip].
      replace (if t then add64 (ip_after i) (of_int64 (x_disp x)) else ip_after i)
        with (if t then target s else next_insn s).
      2:{ destruct t; unfold target, next_insn, ip_after; cbn; [symmetry; apply add64_disp|symmetry; apply add64_offset]. }
      apply (bs_leave mem err f s ks None (F_bit t :: fs') _ (f_calls f) fs' On Hcur); [exact I|right; reflexivity|].
      apply complete_cond. exact Cl.
    - apply Ind; [|congruence]. right. right. left. rewrite Cl. reflexivity.
    - apply Ind; [|congruence]. right. right. left. rewrite Cl. reflexivity.
    - apply Ind; [|congruence]. right. right. left. rewrite Cl. reflexivity.
    - apply Ind; [|congruence]. right. left. exact Cl.
  Qed.
End BLOCKS.
