(** Lemmas on the query decoder: it refines the abstract one. *)

From Verif Require Import Base M_tnt M_time M_event M_evdec M_query S_core S_query L_core.
From Coq Require Import List NArith PeanoNat Bool Lia.
Import ListNotations.
Open Scope nat_scope.

Definition small_tnt (e : event) : Prop :=
  match ev_var e with Ev_tnt _ size => (size < 64)%N | _ => True end.

(** The decoder [q] is in the abstract state [s]. *)
Definition qrel (q : qrydec) (s : qspec) : Prop :=
  tnt_rep (qd_tnt q) (qs_bits s) /\ Forall small_tnt (qs_evs s) /\
  match qd_status q with
  | None => exists e evs, qd_event q = Some e /\ qs_evs s = e :: evs /\
              stream (qd_evdec q) evs (qs_err s)
  | Some e => qs_evs s = [] /\ qs_err s = e /\ (qs_bits s = [] \/ qd_event q = None)
  end.

Lemma tnt_empty c l : tnt_rep c l -> pt_tnt_cache_is_empty c = match l with [] => true | _ => false end.
Proof.
  intros H. destruct (tnt_step_sim c l TntIsEmpty H I) as [E _]. cbn in E. congruence.
Qed.
Lemma tnt_query c l : tnt_rep c l ->
  match l with
  | [] => pt_tnt_cache_query c = (c, Err pte_bad_query)
  | b :: l' => exists c', pt_tnt_cache_query c = (c', Ok b) /\ tnt_rep c' l'
  end.
Proof.
  intros H. pose proof (tnt_step_sim c l TntQuery H I) as [E R]. cbn in E, R.
  destruct (pt_tnt_cache_query c) as [c' r] eqn:Eq. destruct l as [|b l]; cbn in E, R.
  - unfold pt_tnt_cache_query in Eq. destruct H as (_ & Hi & _). rewrite Hi in Eq. cbn in Eq. congruence.
  - exists c'. split; [congruence|exact R].
Qed.
Lemma tnt_add c l bits size : tnt_rep c l -> (size < 64)%N ->
  if Nat.leb (length (l ++ payload_bits bits size)) 64
  then exists c', pt_tnt_cache_add c bits size = (c', Ok tt) /\ tnt_rep c' (l ++ payload_bits bits size)
  else exists c', pt_tnt_cache_add c bits size = (c', Err pte_overflow) /\ tnt_rep c' l.
Proof.
  intros H Hs. pose proof (tnt_step_sim c l (TntAdd bits size) H Hs) as [E R]. cbn in E, R.
  destruct (pt_tnt_cache_add c bits size) as [c' r].
  destruct (length (l ++ payload_bits bits size) <=? 64); cbn in E, R;
    exists c'; (split; [congruence|exact R]).
Qed.

Lemma flags_rel q s : qrel q s -> (qd_status q = None \/ qd_event q = None) ->
  pt_qry_status_flags q = qs_flags s.
Proof.
  intros (H1 & _ & H3) Hs. unfold pt_qry_status_flags, qs_flags. rewrite (tnt_empty _ _ H1).
  destruct (qs_bits s); [|reflexivity]. destruct (qd_status q) as [e|].
  - destruct H3 as (-> & -> & _). destruct Hs as [Hs| ->]; [discriminate|].
    destruct e; reflexivity.
  - destruct H3 as (e & evs & -> & -> & _). unfold pt_qry_event_pending, plain, is_tnt, is_tip.
    destruct (ev_var e); reflexivity.
Qed.

Lemma fetch_rel q bits evs err : tnt_rep (qd_tnt q) bits -> Forall small_tnt evs ->
  stream (qd_evdec q) evs err -> qd_status q = None ->
  exists q', pt_qry_fetch_event q = (q', Ok tt) /\ qrel q' (mk_qspec bits evs err) /\
    (qd_status q' = None \/ qd_event q' = None).
Proof.
  intros H1 H2 H3 Hs. unfold pt_qry_fetch_event. inversion H3 as [d d' e E|d d' ev evs' e E St]; subst.
  - rewrite E. eexists. split; [reflexivity|]. split; [|right; reflexivity].
    split; [exact H1|]. split; [exact H2|]. cbn. auto.
  - rewrite E. eexists. split; [reflexivity|]. split; [|left; exact Hs].
    split; [exact H1|]. split; [exact H2|]. cbn. rewrite Hs. exists ev, evs'. auto.
Qed.

(** Reading ahead a TNT event. *)
Lemma cache_rel q s : qrel q s ->
  match absorb s with
  | (s', r) => exists q', pt_qry_cache_tnt q = (q', r) /\ qrel q' s' /\
                 (r = Ok tt -> qd_status q' = None \/ qd_event q' = None)
  end.
Proof.
  intros (H1 & H2 & H3). unfold absorb, pt_qry_cache_tnt. destruct (qd_status q) as [e|] eqn:Es.
  - destruct H3 as (Ev & <- & Hb). rewrite Ev. exists q. split; [reflexivity|].
    split; [|discriminate]. split; [exact H1|]. split; [exact H2|]. rewrite Es. auto.
  - destruct H3 as (e & evs & He & Ev & St). rewrite Ev in *. rewrite He. unfold is_tnt, bits_of.
    assert (Hsame : exists q', (q, Ok tt) = (q', Ok tt) /\ qrel q' s /\
      (Ok tt = Ok tt :> res unit -> qd_status q' = None \/ qd_event q' = None)).
    { exists q. split; [reflexivity|]. split; [|auto]. split; [exact H1|]. rewrite Ev.
      split; [exact H2|]. rewrite Es. exists e, evs. auto. }
    inversion H2 as [|? ? Hsm H2']; subst. unfold small_tnt in Hsm.
    destruct (ev_var e) as [| | | | | | | | | | | | | | | | | | | | |b size| | | | | | | | | | | | |]; try exact Hsame.
    pose proof (tnt_add _ _ b size H1 Hsm) as Ha.
    destruct (length (qs_bits s ++ payload_bits b size) <=? 64).
    + destruct Ha as (c' & -> & Hr).
      destruct (fetch_rel (set_tnt q c') _ evs (qs_err s) Hr H2' St Es) as (q' & E & Hq & Hx).
      exists q'. auto.
    + destruct Ha as (c' & -> & Hr). exists (set_tnt q c'). split; [reflexivity|]. split; [|discriminate].
      split; [exact Hr|]. rewrite Ev. split; [exact H2|]. cbn. rewrite Es. exists e, evs. auto.
Qed.

Lemma keep_rel q s : qrel q s -> qrel (keep_time q) s.
Proof. exact (fun H => H). Qed.

Lemma set_same q : set_tnt q (qd_tnt q) = q.
Proof. destruct q; reflexivity. Qed.

(** Taking a bit. *)
Lemma bit_rel q s c' b bits : qrel q s -> qs_bits s = b :: bits ->
  tnt_rep c' bits ->
  qrel (set_tnt q c') (mk_qspec bits (qs_evs s) (qs_err s)) /\
  pt_qry_status_flags (set_tnt q c') = qs_flags (mk_qspec bits (qs_evs s) (qs_err s)).
Proof.
  intros (H1 & H2 & H3) Eb Hc.
  assert (Hr : qrel (set_tnt q c') (mk_qspec bits (qs_evs s) (qs_err s))).
  { split; [exact Hc|]. split; [exact H2|]. cbn. destruct (qd_status q) as [e|]; [|exact H3].
    destruct H3 as (H4 & H5 & H6). rewrite Eb in H6. destruct H6 as [H6|H6]; [discriminate|]. auto. }
  split; [exact Hr|]. apply flags_rel; [exact Hr|]. cbn. destruct (qd_status q); [|auto].
  destruct H3 as (_ & _ & H6). rewrite Eb in H6. destruct H6 as [H6|H6]; [discriminate|auto].
Qed.

Lemma cond_rel q s : qrel q s ->
  match spec_cond s with
  | (s', r) => exists q', pt_qry_cond_branch q = (q', r) /\ qrel q' s'
  end.
Proof.
  intros H. unfold spec_cond, pt_qry_cond_branch. pose proof H as (H1 & _).
  pose proof (tnt_query _ _ H1) as Hq. destruct (qs_bits s) as [|b bits] eqn:Eb.
  - rewrite Hq, set_same. pose proof (cache_rel _ _ (keep_rel _ _ H)) as Hc.
    destruct (absorb s) as [s' r]. destruct Hc as (q' & -> & Hq' & Hx).
    destruct r as [[]|e|u]; try (exists q'; auto; fail).
    specialize (Hx eq_refl). pose proof Hq' as (H1' & _). pose proof (tnt_query _ _ H1') as Hq2.
    destruct (qs_bits s') as [|b' bits'] eqn:Eb'.
    + rewrite Hq2, set_same. exists q'. split; [|exact Hq']. f_equal. f_equal. unfold qs_none.
      destruct Hq' as (_ & _ & H3). destruct (qd_status q').
      * destruct H3 as (-> & -> & _). reflexivity.
      * destruct H3 as (? & ? & _ & -> & _). reflexivity.
    + destruct Hq2 as (c' & -> & Hc'). exists (set_tnt q' c').
      destruct (bit_rel q' s' c' b' bits' Hq' Eb' Hc') as [G1 G2]. split; [|exact G1].
      unfold with_flags. rewrite G2. reflexivity.
  - destruct Hq as (c' & -> & Hc'). exists (set_tnt q c').
    destruct (bit_rel q s c' b bits H Eb Hc') as [G1 G2]. split; [|exact G1].
    unfold with_flags. rewrite G2. reflexivity.
Qed.

Lemma take_tip_rel q s e evs ip : qrel q s -> qd_status q = None -> qs_evs s = e :: evs ->
  ev_var e = Ev_tip ip ->
  exists q', qry_take_tip q e =
      (q', Ok (if ev_ip_suppressed e then None else Some ip,
               N.lor (if ev_ip_suppressed e then pts_ip_suppressed else 0)
                     (qs_flags (mk_qspec (qs_bits s) evs (qs_err s))))) /\
    qrel q' (mk_qspec (qs_bits s) evs (qs_err s)).
Proof.
  intros (H1 & H2 & H3) Es Ev Et. rewrite Es in H3. destruct H3 as (e' & evs' & He & Ev' & St).
  rewrite Ev in Ev', H2. injection Ev' as <- <-. inversion H2; subst.
  destruct (fetch_rel (keep_time q) (qs_bits s) evs (qs_err s)) as (q' & E & Hq & Hx); auto.
  exists q'. unfold qry_take_tip. rewrite E. split; [|exact Hq]. unfold with_flags.
  rewrite (flags_rel _ _ Hq Hx), Et. reflexivity.
Qed.

Lemma tip_head q s : qrel q s -> qd_status q = None ->
  exists e evs, qd_event q = Some e /\ qs_evs s = e :: evs.
Proof. intros (_ & _ & H) E. rewrite E in H. destruct H as (e & evs & H1 & H2 & _). exists e, evs. auto. Qed.

Lemma indirect_rel q s : qrel q s ->
  match spec_indirect s with
  | (s', r) => exists q', pt_qry_indirect_branch q = (q', r) /\ qrel q' s'
  end.
Proof.
  intros H. unfold spec_indirect, pt_qry_indirect_branch.
  destruct (qd_status q) as [e|] eqn:Es.
  - pose proof H as (H1 & H2 & H3). rewrite Es in H3. destruct H3 as (Ev & Ee & Hb).
    unfold absorb. rewrite Ev, Ee. exists q. auto.
  - destruct (tip_head q s H Es) as (e & evs & He & Ev).
    pose proof (cache_rel q s H) as Hc. rewrite He. cbn [qry_tip].
    destruct (match ev_var e with Ev_tip _ => Some e | _ => None end) as [e1|] eqn:Et.
    + assert (exists ip, e1 = e /\ ev_var e = Ev_tip ip) as (ip & -> & Ei)
        by (destruct (ev_var e); inversion Et; eauto).
      assert (Ea : absorb s = (s, Ok tt)).
      { unfold absorb. rewrite Ev. unfold is_tnt. rewrite Ei. reflexivity. }
      rewrite Ea, Ev, Ei. destruct (take_tip_rel q s e evs ip H Es Ev Ei) as (q' & E & Hq).
      exists q'. auto.
    + clear Et. destruct (absorb s) as [s' r]. destruct Hc as (q' & -> & Hq & Hx).
      destruct r as [[]|e1|u]; try (exists q'; auto; fail).
      destruct (qd_status q') as [e1|] eqn:Es'.
      * destruct (Hx eq_refl) as [Hx'|Hx']; [discriminate|]. rewrite Hx'. cbn [qry_tip].
        pose proof Hq as (_ & _ & H3). rewrite Es' in H3. destruct H3 as (-> & -> & _).
        exists q'. auto.
      * destruct (tip_head q' s' Hq Es') as (e2 & evs2 & He2 & Ev2). rewrite He2, Ev2. cbn [qry_tip].
        destruct (ev_var e2) eqn:E2; try (exists q'; split; [reflexivity|exact Hq]).
        destruct (take_tip_rel q' s' e2 evs2 _ Hq Es' Ev2 E2) as (q'' & E & Hq'').
        exists q''. auto.
Qed.

Lemma event_rel q s : qrel q s ->
  match spec_event s with
  | (s', r) => exists q', pt_qry_event q = (q', r) /\ qrel q' s'
  end.
Proof.
  intros H. unfold spec_event, pt_qry_event. pose proof H as (H1 & H2 & H3).
  rewrite (tnt_empty _ _ H1). destruct (qs_bits s) as [|b bits] eqn:Eb; cbn [negb].
  2: { exists q. auto. }
  destruct (qd_status q) as [e|] eqn:Es.
  - destruct H3 as (-> & -> & _). exists q. auto.
  - destruct H3 as (e & evs & He & Ev & St). rewrite He, Ev in *.
    assert (Ep : pt_qry_event_pending (Some e) = plain e).
    { unfold pt_qry_event_pending, plain, is_tnt, is_tip. destruct (ev_var e); reflexivity. }
    rewrite Ep. destruct (plain e); cbn [negb]; [|exists q; auto].
    inversion H2; subst.
    destruct (fetch_rel (keep_time q) [] evs (qs_err s)) as (q' & E & Hq & Hx); auto.
    rewrite E. exists q'. split; [|exact Hq]. unfold with_flags.
    rewrite (flags_rel _ _ Hq Hx). cbn [N.lor]. rewrite N.lor_0_l || idtac. reflexivity.
Qed.

Lemma step_rel q s o : qrel q s ->
  snd (qry_step q o) = snd (spec_step s o) /\ qrel (fst (qry_step q o)) (fst (spec_step s o)).
Proof.
  intros H. destruct o; cbn [qry_step spec_step].
  - pose proof (cond_rel q s H) as G. destruct (spec_cond s). destruct G as (q' & -> & G). auto.
  - pose proof (indirect_rel q s H) as G. destruct (spec_indirect s). destruct G as (q' & -> & G). auto.
  - pose proof (event_rel q s H) as G. destruct (spec_event s). destruct G as (q' & -> & G). auto.
Qed.

Lemma answers_rel q s ops : qrel q s -> answers qry_step q ops = answers spec_step s ops.
Proof.
  intros H. apply (answers_sim qry_step spec_step qrel (fun _ => True)); auto.
  - intros. apply step_rel. assumption.
  - apply Forall_forall. auto.
Qed.

