(** The time that the query decoder tells is that of the last event it used. *)

From Verif Require Import Base M_packet M_config M_pktdec M_lastip M_tnt M_time
  M_evq M_event M_evdec M_query S_core S_evq S_evtrace S_query L_core L_evdec L_evq_rules L_query.
From Verif Require L_stamp.
From Coq Require Import List NArith PeanoNat Bool Lia.
Import ListNotations.
Open Scope nat_scope.

Notation waiting d := (queued L_stamp.undated (ed_evq d)).

(** The event that was read ahead carries the time of the event decoder. *)
Definition timed (q : qrydec) : Prop :=
  qd_status q = None -> waiting (qd_evdec q) /\
    forall e, qd_event q = Some e -> L_stamp.on_time (ed_time (qd_evdec q)) e.

Lemma fetch_timed q q' : waiting (qd_evdec q) -> qd_status q = None ->
  pt_qry_fetch_event q = (q', Ok tt) ->
  timed q' /\ qd_last_time q' = qd_last_time q.
Proof.
  intros Hw Hs. unfold pt_qry_fetch_event.
  destruct (pt_evt_next (qd_evdec q)) as [d [e|e|u]] eqn:E; intros H; try discriminate H; injection H as <-.
  - split; [|reflexivity]. intros _. cbn. destruct (L_stamp.next_s _ _ _ Hw E) as [G1 G2].
    split; [exact G1|]. intros e' He. injection He as <-. exact G2.
  - split; [|reflexivity]. intros H. discriminate.
Qed.

Lemma fetch_ok q bits evs err : tnt_rep (qd_tnt q) bits -> Forall small_tnt evs ->
  stream (qd_evdec q) evs err -> qd_status q = None -> waiting (qd_evdec q) ->
  exists q', pt_qry_fetch_event q = (q', Ok tt) /\ qrel q' (mk_qspec bits evs err) /\
    timed q' /\ qd_last_time q' = qd_last_time q.
Proof.
  intros H1 H2 H3 H4 H5. destruct (fetch_rel q bits evs err H1 H2 H3 H4) as (q' & E & R & _).
  exists q'. split; [exact E|]. split; [exact R|]. apply (fetch_timed _ _ H5 H4 E).
Qed.

(** Reading ahead a TNT event. *)
Lemma cache_timed q s : qrel q s -> timed q ->
  let q' := fst (pt_qry_cache_tnt q) in
  timed q' /\ qd_last_time q' = qd_last_time q /\
  (pt_qry_cache_tnt q = (q, snd (pt_qry_cache_tnt q)) \/
   (exists c, pt_qry_cache_tnt q = (set_tnt q c, Err pte_overflow)) \/
   exists e evs, qd_status q = None /\ qd_event q = Some e /\ is_tnt e = true /\
     qs_evs s = e :: evs /\ qs_evs (fst (absorb s)) = evs).
Proof.
  intros (H1 & H2 & H3) Ht. unfold pt_qry_cache_tnt. destruct (qd_status q) as [er|] eqn:Es; [auto|].
  destruct H3 as (e & evs & He & Ev & St). rewrite He. destruct (Ht Es) as [Hw Ho].
  pose proof H2 as H2s. rewrite Ev in H2s. inversion H2s as [|? ? Hsm H2']; subst. unfold small_tnt in Hsm.
  destruct (ev_var e) as [| | | | | | | | | | | | | | | | | | | | |b size| | | | | | | | | | | | |] eqn:Ee;
    try (split; [exact Ht|]; split; [reflexivity|]; left; reflexivity).
  pose proof (tnt_add _ _ b size H1 Hsm) as Ha.
  destruct (length (qs_bits s ++ payload_bits b size) <=? 64) eqn:El.
  - destruct Ha as (c' & -> & Hr).
    destruct (fetch_ok (set_tnt q c') _ evs (qs_err s) Hr H2' St Es Hw) as (q' & -> & _ & A & B).
    cbn [fst snd]. split; [exact A|]. split; [exact B|]. right. right. exists e, evs.
    split; [reflexivity|]. split; [reflexivity|]. split; [unfold is_tnt; rewrite Ee; reflexivity|]. split; [exact Ev|].
    unfold absorb. rewrite Ev. unfold is_tnt, bits_of. rewrite Ee, El. reflexivity.
  - destruct Ha as (c' & -> & Hr). cbn [fst snd]. split; [exact Ht|]. split; [reflexivity|]. right. left.
    exists c'. reflexivity.
Qed.

Lemma last_used {A} (pre : list A) x e l : pre ++ x :: l = e :: l -> x = e.
Proof.
  intros H. destruct pre as [|y pre]; [injection H; auto|].
  apply (f_equal (@length A)) in H. rewrite app_length in H. cbn in H. lia.
Qed.
Lemma last_used2 {A} (pre : list A) x e e2 l : pre ++ x :: l = e :: e2 :: l -> x = e2.
Proof.
  intros H. destruct pre as [|y pre]; cbn in H.
  - apply (f_equal (@length A)) in H. cbn in H. lia.
  - injection H as _ H. apply (last_used _ _ _ _ H).
Qed.
Lemma none_used {A} (pre : list A) x l : pre ++ x :: l = l -> False.
Proof. intros H. apply (f_equal (@length A)) in H. rewrite app_length in H. cbn in H. lia. Qed.
Lemma cons_neq {A} (e : A) l : l = e :: l -> False.
Proof. intros H. apply (f_equal (@length A)) in H. cbn in H. lia. Qed.

Definition tells (q q' : qrydec) (evs evs' : list event) : Prop :=
  (forall pre e, evs = pre ++ e :: evs' -> L_stamp.on_time (qd_last_time q') e) /\
  (evs' = evs -> qd_last_time q' = qd_last_time q).

Lemma event_timed q s : qrel q s -> timed q ->
  timed (fst (qry_step q Q_event)) /\
  (fact_learned (snd (spec_step s Q_event)) <> [] ->
   tells q (fst (qry_step q Q_event)) (qs_evs s) (qs_evs (fst (spec_step s Q_event)))).
Proof.
  intros H Ht. cbn [qry_step spec_step]. unfold spec_event, pt_qry_event. pose proof H as (H1 & H2 & H3).
  rewrite (tnt_empty _ _ H1). destruct (qs_bits s) as [|b bits]; cbn [negb].
  2: { cbn. split; [exact Ht|]. intros X. destruct (X eq_refl). }
  destruct (qd_status q) as [er|] eqn:Es.
  - destruct H3 as (-> & -> & _). cbn. split; [exact Ht|]. intros X. destruct (X eq_refl).
  - destruct H3 as (e & evs & He & Ev & St). rewrite He, Ev in *. destruct (Ht Es) as [Hw Ho].
    assert (Ep : pt_qry_event_pending (Some e) = plain e).
    { unfold pt_qry_event_pending, plain, is_tnt, is_tip. destruct (ev_var e); reflexivity. }
    rewrite Ep. destruct (plain e); cbn [negb].
    2: { cbn. split; [exact Ht|]. intros X. destruct (X eq_refl). }
    inversion H2 as [|? ? Hsm H2']; subst.
    destruct (pt_qry_fetch_event (keep_time q)) as [q1 r1] eqn:Ef.
    destruct (fetch_rel (keep_time q) [] evs (qs_err s) H1 H2' St Es) as (q' & E & _).
    rewrite Ef in E. injection E as -> ->.
    destruct (fetch_timed (keep_time q) q' Hw Es Ef) as [A B]. cbn [fst snd with_flags qs_evs].
    split; [exact A|]. intros _. split.
    + intros pre x Hx. symmetry in Hx. apply last_used in Hx. subst x. rewrite B. apply Ho. exact He.
    + intros X. destruct (cons_neq _ _ X).
Qed.

Lemma cond_timed q s : qrel q s -> timed q ->
  timed (fst (qry_step q Q_cond)) /\
  (fact_learned (snd (spec_step s Q_cond)) <> [] ->
   tells q (fst (qry_step q Q_cond)) (qs_evs s) (qs_evs (fst (spec_step s Q_cond)))).
Proof.
  intros H Ht. pose proof (step_rel q s Q_cond H) as [Hsn _].
  cbn [qry_step spec_step] in *. unfold spec_cond, pt_qry_cond_branch in *.
  pose proof H as (H1 & _).
  pose proof (tnt_query _ _ H1) as Hq. destruct (qs_bits s) as [|b bits] eqn:Eb.
  - rewrite Hq in *. rewrite set_same in *.
    pose proof (cache_rel _ _ (keep_rel _ _ H)) as Hc.
    assert (Htk : timed (keep_time q)) by exact Ht.
    pose proof (cache_timed _ _ (keep_rel _ _ H) Htk) as (C1 & C2 & C3).
    destruct (absorb s) as [s' r] eqn:Ea. destruct Hc as (q' & Eq & Hq' & Hx). rewrite Eq in *.
    cbn [fst snd] in C1, C2, C3.
    destruct r as [[]|er|u]; try (cbn; split; [exact C1|intros X; destruct (X eq_refl)]).
    pose proof Hq' as (H1' & _). pose proof (tnt_query _ _ H1') as Hq2.
    destruct (qs_bits s') as [|b' bits'] eqn:Eb'.
    + rewrite Hq2, set_same. cbn. split; [exact C1|intros X; destruct (X eq_refl)].
    + destruct Hq2 as (c' & -> & Hc'). cbn [fst snd with_flags qs_evs].
      split; [exact C1|]. intros _.
      destruct C3 as [C3|[(c & C3)|(e & evs & G1 & G2 & G3 & G4 & G5)]].
      * (* nothing was read: no bits *)
        injection C3 as ->. exfalso.
        assert (Hl : tnt_rep (qd_tnt q) (b' :: bits')) by exact H1'.
        pose proof (tnt_query _ _ Hl) as (c2 & E2 & _). rewrite Hq in E2. discriminate.
      * discriminate.
      * split.
        -- intros pre x Hx'. rewrite G4, <- G5 in Hx'. symmetry in Hx'.
           apply last_used in Hx'. subst x. cbn. rewrite C2. cbn. apply (Ht G1). exact G2.
        -- intros X. rewrite G4 in X. rewrite G5 in X. destruct (cons_neq _ _ X).
  - destruct Hq as (c' & -> & Hc'). cbn. split; [exact Ht|]. intros _. split; [|reflexivity].
    intros pre x Hx. symmetry in Hx. destruct (none_used _ _ _ Hx).
Qed.

Lemma take_timed q s e evs : qrel q s -> timed q -> qd_status q = None -> qs_evs s = e :: evs ->
  is_tip e = true ->
  timed (fst (qry_take_tip q e)) /\ L_stamp.on_time (qd_last_time (fst (qry_take_tip q e))) e.
Proof.
  intros (H1 & H2 & H3) Ht Es Ev Et. rewrite Es in H3. destruct H3 as (e' & evs' & He & Ev' & St).
  rewrite Ev in Ev', H2. injection Ev' as <- <-. inversion H2; subst. destruct (Ht Es) as [Hw Ho].
  destruct (fetch_ok (keep_time q) (qs_bits s) evs (qs_err s)) as (q' & E & Hq & A & B); auto.
  unfold qry_take_tip. rewrite E. cbn [fst with_flags]. split; [exact A|]. rewrite B. apply Ho. exact He.
Qed.

Lemma indirect_timed q s : qrel q s -> timed q ->
  timed (fst (qry_step q Q_indirect)) /\
  (fact_learned (snd (spec_step s Q_indirect)) <> [] ->
   tells q (fst (qry_step q Q_indirect)) (qs_evs s) (qs_evs (fst (spec_step s Q_indirect)))).
Proof.
  intros H Ht. cbn [qry_step spec_step]. unfold spec_indirect, pt_qry_indirect_branch.
  destruct (qd_status q) as [er|] eqn:Es.
  - pose proof H as (H1 & H2 & H3). rewrite Es in H3. destruct H3 as (Ev & Ee & Hb).
    unfold absorb. rewrite Ev. cbn. split; [exact Ht|]. intros X. destruct (X eq_refl).
  - destruct (tip_head q s H Es) as (e & evs & He & Ev).
    pose proof (cache_rel q s H) as Hc. pose proof (cache_timed q s H Ht) as (C1 & C2 & C3).
    rewrite He. cbn [qry_tip].
    destruct (match ev_var e with Ev_tip _ => Some e | _ => None end) as [e1|] eqn:Et.
    + assert (exists ip, e1 = e /\ ev_var e = Ev_tip ip) as (ip & -> & Ei)
        by (destruct (ev_var e); inversion Et; eauto).
      assert (Ea : absorb s = (s, Ok tt)).
      { unfold absorb. rewrite Ev. unfold is_tnt. rewrite Ei. reflexivity. }
      rewrite Ea, Ev, Ei.
      destruct (take_timed q s e evs H Ht Es Ev) as (A & B); [unfold is_tip; rewrite Ei; reflexivity|].
      destruct (qry_take_tip q e) as [q' r]. cbn [fst snd qs_evs] in *. split; [exact A|]. intros _. split.
      * intros pre x Hx. symmetry in Hx. apply last_used in Hx. subst x. exact B.
      * intros X. destruct (cons_neq _ _ X).
    + destruct (absorb s) as [s' r] eqn:Ea. destruct Hc as (q' & Eq & Hq & Hx). rewrite Eq in *.
      cbn [fst snd] in C1, C2, C3.
      destruct r as [[]|er|u]; try (cbn; split; [exact C1|intros X; destruct (X eq_refl)]).
      destruct (qd_status q') as [er|] eqn:Es'.
      * destruct (Hx eq_refl) as [Hx'|Hx']; [congruence|]. rewrite Hx'. cbn [qry_tip].
        pose proof Hq as (_ & _ & H3). rewrite Es' in H3. destruct H3 as (-> & -> & _).
        cbn. split; [exact C1|intros X; destruct (X eq_refl)].
      * destruct (tip_head q' s' Hq Es') as (e2 & evs2 & He2 & Ev2). rewrite He2, Ev2. cbn [qry_tip].
        destruct (ev_var e2) eqn:E2; try (cbn; split; [exact C1|intros X; destruct (X eq_refl)]).
        destruct (take_timed q' s' e2 evs2 Hq C1 Es' Ev2) as (A & B); [unfold is_tip; rewrite E2; reflexivity|].
        destruct (qry_take_tip q' e2) as [q2 r2]. cbn [fst snd qs_evs] in *. split; [exact A|]. intros _.
        destruct C3 as [C3|[(c & C3)|(e3 & evs3 & G1 & G2 & G3 & G4 & G5)]].
        -- injection C3 as ->. rewrite He in He2. injection He2 as ->. rewrite E2 in Et. discriminate.
        -- discriminate.
        -- rewrite Ev2 in G5. subst evs3. split.
           ++ intros pre x Hx'. rewrite G4 in Hx'. symmetry in Hx'. apply last_used2 in Hx'. subst x. exact B.
           ++ intros X. rewrite G4 in X. apply (f_equal (@length _)) in X. cbn in X. lia.
Qed.

Lemma step_timed q s o : qrel q s -> timed q ->
  timed (fst (qry_step q o)) /\
  (fact_learned (snd (spec_step s o)) <> [] ->
   tells q (fst (qry_step q o)) (qs_evs s) (qs_evs (fst (spec_step s o)))).
Proof.
  destruct o; [apply cond_timed|apply indirect_timed|apply event_timed].
Qed.

(** * Synchronization *)

Definition W (_ : unit) (d : evdec) : Prop := waiting d.
Lemma with_pd_w {A} (f : pktdec -> pktdec * res A) (R : A -> evdec -> Prop) d :
  (forall a pd, R a (set_pd d pd)) -> pwp (with_pd f) R L_stamp.F d.
Proof.
  intros H. unfold pwp, with_pd. destruct (f (ed_pd d)) as [pd [a|e|u]]; [apply H|exact I|exact I].
Qed.
Lemma start_w d : waiting d -> pwp pt_evt_start W L_stamp.F d.
Proof.
  intros H. unfold pwp. destruct (pt_evt_start d) as [d' [[]|e|u]] eqn:E; [|exact I|exact I].
  apply (L_stamp.start_s _ _ H E).
Qed.
Lemma forward_w base d : pwp (pt_evt_sync_forward base) W L_stamp.F d.
Proof.
  unfold pt_evt_sync_forward. apply p_bind, p_modify, p_bind, with_pd_w. intros a pd.
  apply start_w. apply queued_init.
Qed.
Lemma set_w off d : pwp (pt_evt_sync_set off) W L_stamp.F d.
Proof.
  unfold pt_evt_sync_set. apply p_bind, p_modify, p_bind, with_pd_w. intros a pd.
  apply start_w. apply queued_init.
Qed.
Lemma inner_w n base sync : forall d, waiting d -> pwp (backward_inner n base sync) W L_stamp.F d.
Proof.
  induction n as [|n IH]; intros d H; [exact I|]. cbn [backward_inner].
  apply p_bind, with_pd_w. intros a pd. apply p_bind, p_get.
  destruct (Nat.leb _ _); [apply IH; exact H|exact H].
Qed.
Lemma outer_w n base start : forall sync d, pwp (backward_outer n base start sync) W L_stamp.F d.
Proof.
  induction n as [|n IH]; intros sync d; [exact I|]. cbn [backward_outer].
  apply p_bind, p_modify, p_bind. eapply p_mono; [apply inner_w, queued_init| |auto].
  intros x d1 H1. apply p_bind, p_get. pose proof (start_w d1 H1) as Hs. unfold pwp in *.
  destruct (pt_evt_start d1) as [d2 [[]|e|u]]; [| |exact I].
  - destruct (Nat.ltb _ _); [exact Hs|apply (IH (evt_pos d1) d2)].
  - destruct (Nat.ltb _ _); [exact I|apply (IH (evt_pos d1) d2)].
Qed.

Lemma start_timed q q' r : waiting (qd_evdec q) -> pt_qry_start q = (q', Ok r) -> timed q'.
Proof.
  intros H. unfold pt_qry_start. destruct (start_loop _ _ _); [|discriminate|discriminate].
  destruct (pt_qry_fetch_event (set_qstatus q None)) as [q1 [[]|e|u]] eqn:E; [|discriminate|discriminate].
  intros X. injection X as <- _. apply (fetch_timed (set_qstatus q None) _ H eq_refl E).
Qed.
Lemma sync_timed f q q' r : (forall d, pwp f W L_stamp.F d) -> qry_sync f q = (q', Ok r) -> timed q'.
Proof.
  intros Hf. unfold qry_sync. specialize (Hf (qd_evdec (pt_qry_reset q))). unfold pwp in Hf.
  destruct (f _) as [d [x|e|u]]; [|discriminate|discriminate]. apply start_timed. exact Hf.
Qed.
Lemma qinner_w n base sync : forall d d', qry_backward_inner n base sync d = (d', Ok tt) -> waiting d'.
Proof.
  induction n as [|n IH]; intros d d' E; [discriminate|]. cbn [qry_backward_inner] in E.
  pose proof (outer_w (S n) base) as Ho. unfold pt_evt_sync_backward, sbind, get in E.
  match type of E with context [backward_outer _ _ ?a ?b ?c] => specialize (Ho a b c) end.
  unfold pwp in Ho. destruct (backward_outer _ _ _ _ _) as [d1 [[]|e|u]]; [|discriminate|discriminate].
  destruct (Nat.leb _ _); [apply (IH _ _ E)|]. injection E as <-. exact Ho.
Qed.
Lemma qouter_timed n base start : forall sync q q' r,
  qry_backward_outer n base start sync q = (q', Ok r) -> timed q'.
Proof.
  induction n as [|n IH]; intros sync q q' r E; [discriminate|]. cbn [qry_backward_outer] in E.
  destruct (qry_backward_inner _ _ _ _) as [d [[]|e|u]] eqn:Ei; [|discriminate|discriminate].
  apply qinner_w in Ei.
  destruct (pt_qry_start _) as [q1 [[ip st]|e|u]] eqn:Es; [| |discriminate].
  - destruct (Nat.ltb _ _); [|apply (IH _ _ _ _ E)]. injection E as <- _.
    apply (start_timed _ _ _ (Ei : waiting (qd_evdec (set_evdec (pt_qry_reset q) d))) Es).
  - destruct e; try discriminate. apply (IH _ _ _ _ E).
Qed.
Lemma sync_step_timed base q o q' r : qry_sync_step base q o = (q', Ok r) -> timed q'.
Proof.
  destruct o; cbn [qry_sync_step].
  - apply sync_timed. apply forward_w.
  - apply qouter_timed.
  - apply sync_timed. apply set_w.
Qed.
