(** The time of an event is the time of the event decoder when it is handed out. *)

From Verif Require Import Base M_packet M_config M_pktdec M_lastip M_time
  M_evq M_event M_evdec S_evq S_evtrace L_evq L_evqpos L_evdec L_evsafe L_evq_rules.
From Coq Require Import List NArith ZArith PeanoNat Bool Lia.
Import ListNotations.
Open Scope nat_scope.

(** The event carries the time [t]. *)
Definition carries (t : time) (e : event) : Prop :=
  pt_time_query_tsc t = (ev_tsc e, ev_lost_mtc e, ev_lost_cyc e,
                         if ev_has_tsc e then Ok tt else Err pte_no_time).
Definition on_time (t : time) (e : event) : Prop :=
  is_overflow (ev_var e) = false -> carries t e.

(** Waiting events have no time yet. *)
Definition undated (_ : N) (e : event) : Prop :=
  is_overflow (ev_var e) = false -> ev_has_tsc e = false.

Lemma carries_time t e : undated 0 e -> on_time t (event_time t e).
Proof.
  unfold undated, on_time, carries, event_time. intros H.
  destruct (pt_time_query_tsc t) as [[[a b] c] r] eqn:E. cbn. intros Ho. rewrite (H Ho). cbn.
  unfold pt_time_query_tsc in E. destruct (tm_have_tsc t); injection E as <- <- <- <-; reflexivity.
Qed.
Lemma var_ip v ip : is_overflow (var_set_ip v ip) = is_overflow v.
Proof. destruct v; reflexivity. Qed.
Lemma on_time_ip t l e : on_time t e -> on_time t (event_ip l e).
Proof.
  unfold on_time, carries, event_ip. intros H.
  destruct (pt_last_ip_query l); cbn; rewrite var_ip; exact H.
Qed.
Lemma undated_ip b l e : undated b e -> undated b (event_ip l e).
Proof.
  unfold undated, event_ip. intros H. destruct (pt_last_ip_query l); cbn; rewrite var_ip; exact H.
Qed.

Definition shown (d : evdec) : Prop :=
  exists p e, ed_event d = Some p /\
    match p with Alone => ed_alone d = e | Slot i => held (ed_evq d) i e end /\
    on_time (ed_time d) e.

Definition Q (more : bool) (d : evdec) : Prop :=
  queued undated (ed_evq d) /\ (more = false -> shown d).
Definition F (_ : pte) (_ : evdec) : Prop := True.

Lemma q_more d : queued undated (ed_evq d) -> Q true d.
Proof. intros H. split; [exact H|discriminate]. Qed.
Lemma q_alone d e : queued undated (ed_evq d) -> ed_event d = Some Alone -> ed_alone d = e ->
  on_time (ed_time d) e -> Q false d.
Proof. intros H1 H2 H3 H4. split; [exact H1|]. intros _. exists Alone, e. auto. Qed.
Lemma q_slot d i e : queued undated (ed_evq d) -> ed_event d = Some (Slot i) -> held (ed_evq d) i e ->
  on_time (ed_time d) e -> Q false d.
Proof. intros H1 H2 H3 H4. split; [exact H1|]. intros _. exists (Slot i), e. auto. Qed.

Lemma fetch_keeps d : Q false d -> pwp pt_evt_fetch_packet Q F d.
Proof. intros H. apply p_fetch; intros; exact H. Qed.

Lemma now_q e d : undated 0 e -> queued undated (ed_evq d) -> pwp (standalone_now e) Q F d.
Proof.
  intros H Hq. unfold standalone_now. apply p_bind, p_get, p_bind, p_standalone.
  apply fetch_keeps. eapply q_alone; [exact Hq|reflexivity|reflexivity|].
  apply carries_time. exact H.
Qed.

Ltac un := first [assumption | intros _; reflexivity | (intros ?; cbn in *; congruence)
  | (intros _; cbn; match goal with H : undated _ ?e, E : ev_var ?e = _ |- _ =>
       apply H; rewrite E; reflexivity end)
  | (intros ?; match goal with H : undated _ ?e |- _ => apply H; cbn in *; congruence end)].
Ltac step :=
  lazymatch goal with
  | |- pwp (sbind _ _) _ _ _ => apply p_bind
  | |- pwp (ret _) _ _ _ => apply p_ret
  | |- pwp (fail _) _ _ _ => apply p_fail; exact I
  | |- pwp get _ _ _ => apply p_get
  | |- pwp (modify _) _ _ _ => apply p_modify
  | |- pwp (publish _) _ _ _ => apply p_publish
  | |- pwp (standalone _) _ _ _ => apply p_standalone
  | |- pwp (jump _ _ _ _) _ _ _ => apply p_jump
  | |- pwp (timing _) _ _ _ => apply p_timing; [intros ? ? ?; sd | intros; exact I]
  | |- pwp (lift _) _ _ _ => apply p_lift; [intros ? ?; sd | intros; exact I]
  | |- pwp (enqueue _ _) _ _ _ =>
      eapply (p_enqueue undated); [sd; eassumption | un | intros ? (? & ? & ?) ?; sd | exact I]
  | |- pwp (dequeue _) _ _ _ =>
      eapply (p_dequeue undated); [sd; eassumption | intros ? ? ? ? ? ? ? ? ?; sd | sd]
  | |- pwp (read_event Alone) _ _ _ => apply p_read_alone
  | |- pwp (write_event Alone _) _ _ _ => apply p_write_alone
  | |- pwp (read_event (Slot ?i)) _ _ _ => eapply p_read_held; [sd; eassumption |]
  | |- pwp (write_event (Slot ?i) _) _ _ _ =>
      eapply (p_write_held undated); [sd; eassumption | sd; eassumption | intros ? ? ?; sd]
  | |- pwp (requeue (Slot ?i) _) _ _ _ =>
      eapply (p_requeue undated); [sd; eassumption | left; sd; eassumption | un | intros ? (? & ? & ?); sd | exact I]
  | |- pwp (update_ip _) _ _ _ => apply p_update_ip; [sd | intros ?; exact I]
  | |- pwp (finish _ _) _ _ _ => unfold finish
  | |- pwp (standalone_now _) _ _ _ => apply now_q; [un | sd; eassumption]
  | |- pwp pt_evt_fetch_packet _ _ _ => apply fetch_keeps
  | |- pwp (if ?b then _ else _) _ _ _ => destruct b eqn:?
  | |- Q true _ => apply q_more; sd; eassumption
  | |- Q false _ =>
      first [ eapply q_alone; [sd; eassumption | reflexivity | reflexivity |sd]
            | eapply q_slot; [sd; eassumption | reflexivity | sd; eassumption |sd] ]
  | |- on_time _ (event_ip _ _) => apply on_time_ip
  | |- on_time _ (event_time _ _) => apply carries_time; sd; try solve [un | apply undated_ip; un]
  end.
Ltac steps := repeat step.

Section STAMP.
  Notation OK m := (forall d, queued undated (ed_evq d) -> pwp m Q F d).

  Lemma tnt_s t : OK (pt_evt_decode_tnt t).
  Proof. intros d H. unfold pt_evt_decode_tnt. steps. Qed.
  Lemma mode_s m : OK (pt_evt_decode_mode m).
  Proof.
    intros d H. unfold pt_evt_decode_mode, pt_evt_decode_mode_exec, pt_evt_decode_mode_tsx.
    destruct m; steps.
  Qed.
  Lemma pip_s cr3 nr : OK (pt_evt_decode_pip cr3 nr).
  Proof. intros d H. unfold pt_evt_decode_pip. steps. Qed.
  Lemma vmcs_s base : OK (pt_evt_decode_vmcs base).
  Proof.
    intros d H. unfold pt_evt_decode_vmcs. apply p_bind, p_get.
    destruct (pt_evq_find (ed_evq d) evb_tip is_async_paging) as [i|] eqn:E.
    - destruct (find_inq undated _ _ _ _ H E) as (b & e & Hi & _ & Ht).
      pose proof (inq_P _ _ _ _ _ Hi) as Hu.
      assert (is_overflow (ev_var e) = false)
        by (unfold is_async_paging in Ht; destruct (ev_var e); try discriminate; reflexivity).
      apply p_bind. eapply (p_requeue undated); [exact H|right; eauto|exact Hu| |exact I].
      intros q' (G1 & G2 & G3). apply p_bind. eapply p_read_inq; [apply G3; exact Hi|].
      apply p_bind. eapply (p_write_inq undated); [apply G3; exact Hi|intros _; cbn; apply Hu; assumption|].
      intros q2 K1 K2 K3. steps.
    - steps.
  Qed.
  Lemma exstop_s ip : OK (pt_evt_decode_exstop ip).
  Proof.
    intros d H. unfold pt_evt_decode_exstop, exstop_self. steps.
    destruct (ev_var e) eqn:?; steps.
  Qed.
  Lemma ptw_s pl plc ip : OK (pt_evt_decode_ptw pl plc ip).
  Proof. intros d H. unfold pt_evt_decode_ptw. steps. Qed.
  Lemma trig_s a b c e f : OK (pt_evt_decode_trig a b c e f).
  Proof. intros d H. unfold pt_evt_decode_trig. destruct e; steps. Qed.
  Lemma psbend_s : OK pt_evt_decode_psbend.
  Proof. intros d H. unfold pt_evt_decode_psbend. steps. destruct (ev_var e) eqn:?; steps. Qed.

  Lemma fup_s ip : OK (pt_evt_decode_fup ip).
  Proof.
    unfold pt_evt_decode_fup. generalize 17 as n. induction n as [|n IH]; intros d H; [exact I|].
    cbn [decode_fup]. apply p_bind, p_update_ip; [|exact (fun _ => I)]. apply p_bind, p_modify.
    set (d1 := if pt_evq_pending _ _ then _ else _).
    assert (H1 : queued undated (ed_evq d1)) by (unfold d1; destruct (pt_evq_pending _ _); exact H).
    clearbody d1. clear d H.
    apply p_bind. eapply (p_dequeue undated); [exact H1| |].
    - intros b e q i G1 G2 G3 G4 _. apply p_bind, p_get, p_bind, p_publish, p_bind.
      eapply p_read_held; [exact G4|].
      destruct (ev_var e) eqn:Ev; steps; try (apply IH; exact G3).
      all: try (apply on_time_ip; steps).
      intros Ho. rewrite Ev in Ho. discriminate.
    - steps.
  Qed.
  Lemma tip_event_s : OK pt_evt_decode_tip_event.
  Proof.
    intros d H. unfold pt_evt_decode_tip_event. apply p_bind, p_modify, p_bind, p_get. sd.
    destruct (pt_evq_find (ed_evq d) evb_tip is_async_branch) as [a|] eqn:E; [|steps].
    apply p_bind. eapply (p_dequeue undated); [exact H| |exact I].
    intros b e q i G1 G2 G3 G4 G5. sd.
    destruct (find_inq undated _ _ _ _ H E) as (b0 & e0 & Hi & _ & Ht).
    destruct (Nat.eqb i a) eqn:Ea.
    - steps.
    - apply p_bind.
      destruct (G5 _ _ _ Hi) as [->|(b2 & y & Hy)]; [rewrite Nat.eqb_refl in Ea; discriminate|].
      apply p_bind. eapply p_read_inq; [exact Hy|]. apply p_bind. eapply p_read_held; [exact G4|].
      apply p_bind. eapply (p_write_inq undated); [exact Hy|exact G1|].
      intros q2 K1 K2 K3. eapply (p_write_held undated); [exact K1|apply K3; exact G4|].
      intros q3 L1 L2. pose proof (inq_P _ _ _ _ _ Hy). steps.
  Qed.
  Lemma tip_s ip : OK (pt_evt_decode_tip ip).
  Proof.
    unfold pt_evt_decode_tip. generalize 17 as n. induction n as [|n IH]; intros d H; [exact I|].
    cbn [decode_tip]. steps; [apply tip_event_s; exact H|].
    destruct (ev_var e) eqn:Ev; steps; apply IH; assumption.
  Qed.
  Lemma pge_s ip : OK (pt_evt_decode_tip_pge ip).
  Proof.
    unfold pt_evt_decode_tip_pge. generalize 17 as n. induction n as [|n IH]; intros d H; [exact I|].
    cbn [decode_tip_pge]. steps.
    destruct (ev_var e) eqn:Ev; steps; apply IH; assumption.
  Qed.
  Lemma pgd_s ip : OK (pt_evt_decode_tip_pgd ip).
  Proof.
    intros d H. unfold pt_evt_decode_tip_pgd. steps.
    destruct (ev_var e) eqn:Ev; steps.
  Qed.

  Lemma cfe_plain_s v ip wf : is_overflow v = false -> OK (cfe_plain None v ip wf).
  Proof. intros Hv d H. unfold cfe_plain. steps. Qed.
  Lemma cfe_noip_s v ip : OK (cfe_noip None v ip).
  Proof. intros d H. unfold cfe_noip. steps. Qed.

  Lemma write_p p e e' (R : unit -> evdec -> Prop) d : queued undated (ed_evq d) ->
    match p with Alone => True | Slot i => held (ed_evq d) i e end ->
    (forall d', queued undated (ed_evq d') -> ed_enabled d' = ed_enabled d -> ed_time d' = ed_time d ->
       match p with Alone => ed_alone d' = e' | Slot i => held (ed_evq d') i e' end -> R tt d') ->
    pwp (write_event p e') R F d.
  Proof.
    intros H1 H2 H3. destruct p as [|i].
    - apply p_write_alone. apply H3; auto.
    - eapply (p_write_held undated); [exact H1|exact H2|]. intros q' G1 G2. apply H3; auto.
  Qed.
  Lemma requeue_p p e b (R : unit -> evdec -> Prop) d : queued undated (ed_evq d) ->
    match p with Alone => ed_alone d = e | Slot i => held (ed_evq d) i e end -> undated b e ->
    (forall d', queued undated (ed_evq d') -> R tt d') -> pwp (requeue p b) R F d.
  Proof.
    intros H1 H2 H3 H4. destruct p as [|i].
    - subst e. eapply (p_requeue_alone undated); [exact H1|exact H3| |exact I].
      intros q' (G & _). apply H4. exact G.
    - eapply (p_requeue undated); [exact H1|left; exact H2|exact H3| |exact I].
      intros q' (G & _). apply H4. exact G.
  Qed.
  Lemma cfe_evd_s o v upd ip : forall d, queued undated (ed_evq d) ->
    (forall v v', upd v = Some v' -> is_overflow v' = is_overflow v) ->
    match o with None => True | Some i => exists b e, undated b e /\ held (ed_evq d) i e end ->
    pwp (cfe_evd o v upd ip) Q F d.
  Proof.
    intros d H Hu Ho. unfold cfe_evd. apply p_bind.
    assert (K : forall p e d, queued undated (ed_evq d) -> undated 0 e ->
      match p with Alone => ed_alone d = e | Slot i => held (ed_evq d) i e end ->
      pwp (do e <- read_event p;
           match upd (ev_var e) with
           | None => fail pte_bad_context
           | Some v' =>
               run write_event p (set_var e v');
               do d <- get;
               if ip then run requeue p evb_fup_bound; ret true
               else if ed_enabled d then run requeue p evb_fup; ret true
               else
                 run write_event p (set_suppressed (event_time (ed_time d) (set_var e v')) true);
                 run publish (Some p);
                 pt_evt_fetch_packet
           end) Q F d).
    { clear - Hu. intros p e d H He Hp. apply p_bind.
      assert (R : forall (Q0 : event -> evdec -> Prop), Q0 e d -> pwp (read_event p) Q0 F d).
      { intros Q0 HQ. destruct p as [|i]; [apply p_read_alone; rewrite Hp; exact HQ|].
        eapply p_read_held; eauto. }
      apply R. clear R. destruct (upd (ev_var e)) as [v'|] eqn:Ev; [|exact I].
      pose proof (Hu _ _ Ev) as Hv.
      assert (Hd : undated 0 (set_var e v')) by (intros Hx; apply He; cbn in Hx; congruence).
      apply p_bind. eapply write_p; [exact H|destruct p; [exact Logic.I|exact Hp]|].
      intros d1 G1 G2 G3 G4. apply p_bind, p_get. destruct ip; [|destruct (ed_enabled d1)].
      - apply p_bind. eapply requeue_p; [exact G1|exact G4|exact Hd|]. intros d2 L. steps.
      - apply p_bind. eapply requeue_p; [exact G1|exact G4|exact Hd|]. intros d2 L. steps.
      - apply p_bind. eapply write_p; [exact G1|destruct p; [exact Logic.I|exact G4]|].
        intros d2 L1 L2 L3 L4. apply p_bind, p_publish. apply fetch_keeps.
        pose proof (carries_time (ed_time d1) _ Hd) as Ht.
        split; [exact L1|]. intros _. exists p. eexists. split; [reflexivity|]. split; [|].
        + destruct p as [|i]; exact L4.
        + sd. rewrite L3. exact Ht. }
    destruct o as [i|].
    - destruct Ho as (b & e & H1 & H2). apply p_ret. apply (K (Slot i) e); auto.
    - apply p_bind, p_write_alone, p_ret. apply (K Alone (new_event v)); auto.
      intros _. reflexivity.
  Qed.
  Lemma cfe_s ty v ip : OK (pt_evt_decode_cfe ty v ip).
  Proof.
    intros d H. unfold pt_evt_decode_cfe. apply p_bind. eapply (p_dequeue undated); [exact H| |].
    - intros b e q i G1 G2 G3 G4 _.
      repeat match goal with |- pwp (if ?b then _ else _) _ _ _ => destruct b end;
        try exact I;
        (apply cfe_evd_s; [exact G3| |exists b, e; auto]; intros x x' E;
         destruct x; try discriminate; injection E as <-; reflexivity).
    - repeat match goal with |- pwp (if ?b then _ else _) _ _ _ => destruct b end;
        try (apply cfe_plain_s; [reflexivity|exact H]); try (apply cfe_noip_s; exact H); try (steps; fail);
        (apply cfe_evd_s; [exact H| |exact Logic.I]; intros x x' E;
         destruct x; try discriminate; injection E as <-; reflexivity).
  Qed.
  Lemma evd_vmexit_s upd : (forall v v', upd v = Some v' -> is_overflow v' = is_overflow v) ->
    OK (evd_vmexit upd).
  Proof.
    intros Hu d H. unfold evd_vmexit. apply p_bind, p_get, p_bind.
    assert (K : forall i b e d, inq undated (ed_evq d) i b e -> pwp
      (do e <- read_event (Slot i);
       match upd (ev_var e) with
       | None => fail pte_bad_context
       | Some v => run write_event (Slot i) (set_var e v); ret true
       end) Q F d).
    { clear - Hu. intros i b e d Hi. apply p_bind. eapply p_read_inq; [exact Hi|].
      destruct (upd (ev_var e)) as [v|] eqn:Ev; [|exact I]. pose proof (Hu _ _ Ev) as Hv.
      pose proof (inq_P _ _ _ _ _ Hi) as Hp.
      apply p_bind. eapply (p_write_inq undated); [exact Hi| |].
      - intros Hx. apply Hp. cbn in Hx. congruence.
      - intros q' G _ _. steps. }
    destruct (pt_evq_peek (ed_evq d) evb_cfe) as [i|] eqn:E.
    - destruct (peek_inq undated _ _ _ H E) as (b & e & Hi & _). apply p_ret. eapply K; exact Hi.
    - apply p_bind. eapply (p_enqueue undated); [exact H|intros _; reflexivity| |exact I].
      intros q' G Hi. apply p_ret. eapply K; exact Hi.
  Qed.
  Lemma evd_s ty pl : OK (pt_evt_decode_evd ty pl).
  Proof.
    intros d H. unfold pt_evt_decode_evd. apply p_bind, p_get.
    destruct (ty =? pt_evd_cr2)%N; [steps|].
    destruct (ty =? pt_evd_vmxq)%N; [|destruct (ty =? pt_evd_vmxr)%N; [|steps]];
      (apply evd_vmexit_s; [|exact H]; intros x x' E;
       destruct x; try discriminate;
       repeat match type of E with context [match ?o with _ => _ end] => destruct o end;
       try discriminate; injection E as <-; reflexivity).
  Qed.

  Lemma at_ip_then pd p ip t l (R : bool -> evdec -> Prop) d : queued undated (ed_evq d) ->
    (forall d', Q false d' -> R false d') -> pwp (pt_evt_recover_ovf_at_ip pd p ip t l) R F d.
  Proof.
    intros H HR. unfold pt_evt_recover_ovf_at_ip. steps. apply HR. steps. intros Ho. discriminate.
  Qed.
  Lemma at_ip_s pd p ip t l : OK (pt_evt_recover_ovf_at_ip pd p ip t l).
  Proof. intros d H. apply at_ip_then; auto. Qed.
  Lemma disabled_s pd p t l (m : ST bool) : (forall d, Q false d -> pwp m Q F d) -> forall d,
    queued undated (ed_evq d) ->
    pwp (run pt_evt_recover_ovf_disabled pd p t l; m) Q F d.
  Proof.
    intros Hm d H. unfold pt_evt_recover_ovf_disabled. do 5 step. apply Hm. step. intros Ho. discriminate.
  Qed.
  Lemma at_offset_s offset : OK (pt_evt_recover_ovf_at_offset offset).
  Proof.
    intros d H. unfold pt_evt_recover_ovf_at_offset. apply p_bind, p_get.
    destruct (offset =? 0)%N; [exact I|].
    revert H. generalize (scan_fuel (ed_pd d)) as n. intros n. revert offset d.
    induction n as [|n IH]; intros offset d H; [exact I|]. cbn [ovf_at_offset].
    apply p_bind. unfold pwp at 1, with_pd. destruct (pt_pkt_next (ed_pd d)) as [pd' [p|e|u]]; try exact I.
    apply p_bind, p_modify. sd.
    destruct (offset <=? _)%N; [steps|].
    destruct (pkt_pl p); try exact I; apply p_bind, p_timing; intros; try exact I; apply IH; exact H.
  Qed.
  Lemma skd010_s : OK pt_evt_handle_skd010.
  Proof.
    intros d H. unfold pt_evt_handle_skd010. apply p_bind, p_get, p_bind, p_lift; [|intros; exact I].
    intros r _. destruct r as [|pd p t l|pd p ip tsx t l|pd p ip t l|pd p ip t l].
    - steps.
    - apply disabled_s; [apply fetch_keeps|exact H].
    - apply p_bind, p_modify, p_bind. destruct tsx as [[intx abrt]|].
      + eapply (p_enqueue undated); [exact H|intros _; reflexivity| |exact I].
        intros q' (G & _) _. apply at_ip_s. exact G.
      + apply p_ret. apply at_ip_s. exact H.
    - apply p_bind. apply at_ip_then; [exact H|]. intros d' HQ. apply fetch_keeps. exact HQ.
    - apply at_ip_s. exact H.
  Qed.
  Lemma apl11_s : OK pt_evt_handle_apl11.
  Proof.
    intros d H. unfold pt_evt_handle_apl11. apply p_bind, p_get, p_bind, p_lift; [|intros; exact I].
    intros [[[[pd p] t] l]|] _; [|steps].
    apply disabled_s; [apply fetch_keeps|exact H].
  Qed.
  Lemma apl12_s offset : OK (pt_evt_handle_apl12 offset).
  Proof.
    intros d H. unfold pt_evt_handle_apl12. apply p_bind, p_get. destruct (Nat.ltb _ _); [exact I|].
    apply p_bind, p_lift; [|intros; exact I]. intros [] _; [apply at_offset_s; exact H|steps].
  Qed.
  Lemma again_s (m k : ST bool) : OK m -> (forall d, queued undated (ed_evq d) -> pwp k Q F d) ->
    OK (do more <- m; if negb more then ret false else k).
  Proof.
    intros Hm Hk d H. apply p_bind. eapply p_mono; [apply Hm; exact H| |auto].
    intros more d' HQ. destruct more; cbn [negb]; [apply Hk; apply HQ|exact HQ].
  Qed.
  Lemma ovf_s : OK pt_evt_decode_ovf.
  Proof.
    unfold pt_evt_decode_ovf. apply again_s; [apply psbend_s|]. intros d0 H0.
    apply p_bind, p_get, p_bind, p_modify.
    set (d1 := set_time _ _).
    assert (H1 : queued undated (ed_evq d1)) by apply queued_init. clearbody d1.
    apply p_bind. eapply (p_mono _ (fun _ d => queued undated (ed_evq d)) _ F).
    { destruct (cf_keep_tcal_on_ovf _); [|exact H1].
      destruct (pt_tcal_update_ovf _) as [l r]. apply p_bind, p_lift; [|intros; exact I].
      intros _ _. exact H1. }
    2: auto. clear d1 H1 H0. intros _ d H. apply p_bind, p_get.
    assert (K : forall r : res N, pwp (match r with
              | UB u => lift (UB u)
              | _ =>
                  if match r with Ok o => (0 <? o)%N | _ => false end then
                    do more <- (if er_apl12 (cf_errata (ed_config d0)) then
                                  pt_evt_handle_apl12 (match r with Ok o => o | _ => 0%N end)
                                else ret true);
                    if negb more then ret false else
                    do d <- get;
                    run enqueue evb_fup_bound
                          (event_time (ed_time d) (new_event (Ev_overflow 0)));
                    ret true
                  else
                    do more <- (if er_skd010 (cf_errata (ed_config d0)) then pt_evt_handle_skd010 else ret true);
                    if negb more then ret false else
                    do more <- (if er_apl11 (cf_errata (ed_config d0))
                                   && match r with Err pte_bad_context => true | _ => false end
                                then pt_evt_handle_apl11 else ret true);
                    if negb more then ret false else
                    match r with
                    | Err pte_eos | Ok _ =>
                        standalone_now (set_suppressed (new_event (Ev_overflow 0)) true)
                    | Err e => fail e
                    | UB u => lift (UB u)
                    end
              end) Q F d).
    { intros r.
      assert (A : pwp (do more <- (if er_apl12 (cf_errata (ed_config d0)) then
                                  pt_evt_handle_apl12 (match r with Ok o => o | _ => 0%N end)
                                else ret true);
                    if negb more then ret false else
                    do d <- get;
                    run enqueue evb_fup_bound
                          (event_time (ed_time d) (new_event (Ev_overflow 0)));
                    ret true) Q F d).
      { apply again_s; [|intros d1 H1; steps; intros Ho; discriminate|exact H].
        intros d1 H1. destruct (er_apl12 _); [apply apl12_s; exact H1|steps]. }
      assert (B : forall last : ST bool, OK last -> pwp (do more <- (if er_skd010 (cf_errata (ed_config d0)) then pt_evt_handle_skd010 else ret true);
                    if negb more then ret false else
                    do more <- (if er_apl11 (cf_errata (ed_config d0))
                                   && match r with Err pte_bad_context => true | _ => false end
                                then pt_evt_handle_apl11 else ret true);
                    if negb more then ret false else last) Q F d).
      { intros last Hlast. apply again_s; [| |exact H].
        - intros d1 H1. destruct (er_skd010 _); [apply skd010_s; exact H1|steps].
        - apply again_s; [|exact Hlast].
          intros d1 H1. destruct (_ && _); [apply apl11_s; exact H1|steps]. }
      destruct r as [o|e|u]; [| |exact I].
      - destruct (0 <? o)%N; [exact A|]. apply B. intros d1 H1. steps.
      - apply B. intros d1 H1. destruct e; steps. }
    apply K.
  Qed.

  (** The event put first for a PSB+ stays in the queue. *)
  Definition slotted (slot : nat) (d : evdec) : Prop :=
    exists b e, inq undated (ed_evq d) slot b e /\ ev_has_tsc e = false.
  Lemma slotted_queued slot d : slotted slot d -> queued undated (ed_evq d).
  Proof. intros (b & e & H & _). apply (inq_queued _ _ _ _ _ H). Qed.
  Lemma enq_slotted slot b e d : slotted slot d -> undated b e ->
    pwp (enqueue b e) (fun _ => slotted slot) F d.
  Proof.
    intros Hs He. eapply (p_enqueue undated); [apply (slotted_queued _ _ Hs)|exact He| |exact I].
    destruct Hs as (b0 & e0 & H1 & H2). intros q' (_ & _ & G) _. exists b0, e0. split; [apply G; exact H1|exact H2].
  Qed.
  Lemma header_mode_s slot m d : slotted slot d ->
    pwp (pt_evt_header_mode m) (fun _ => slotted slot) F d.
  Proof.
    intros H. unfold pt_evt_header_mode. apply p_bind, p_get. destruct m as [csl csd iflag|intx abrt|n].
    - apply p_bind. eapply (p_mono _ (fun _ => slotted slot) _ F); [| |auto].
      + repeat match goal with |- pwp (if ?b then _ else _) _ _ _ => destruct b end; try exact I; exact H.
      + intros ? d1 H1. apply p_bind.
        eapply p_mono; [apply enq_slotted; [exact H1|intros _; reflexivity]| |auto].
        intros ? d2 H2. destruct (cf_enable_iflags_events _); [|exact H2].
        apply enq_slotted; [exact H2|intros _; reflexivity].
    - apply enq_slotted; [exact H|intros _; reflexivity].
    - exact H.
  Qed.
  Lemma header_fup_s slot ip d : slotted slot d ->
    pwp (pt_evt_header_fup ip) (fun _ => slotted slot) F d.
  Proof.
    intros H. unfold pt_evt_header_fup. apply p_bind, p_get, p_bind.
    assert (K : forall b, pwp (run modify (fun d => set_enabled d b);
        if b : bool then update_ip ip else ret tt) (fun _ => slotted slot) F d).
    { intros b. apply p_bind, p_modify. destruct b; [|exact H]. apply p_update_ip; [exact H|intros; exact I]. }
    destruct (er_bdm70 _); [|apply p_ret, K].
    apply p_bind, p_lift; [|intros; exact I]. intros b _. apply p_ret, K.
  Qed.
  Lemma header_s fuel slot : forall d, slotted slot d ->
    pwp (psb_header fuel slot) (fun _ d' => queued undated (ed_evq d')) F d.
  Proof.
    induction fuel as [|n IH]; intros d H; [exact I|]. cbn [psb_header].
    assert (T : forall f d, slotted slot d -> pwp (run timing f; psb_header n slot)
                               (fun _ d' => queued undated (ed_evq d')) F d).
    { intros f d1 H1. apply p_bind, p_timing; intros; [apply IH; exact H1|exact I]. }
    assert (E : forall b e d, slotted slot d -> undated b e -> pwp (run enqueue b e; psb_header n slot)
                               (fun _ d' => queued undated (ed_evq d')) F d).
    { intros b e d1 H1 He. apply p_bind. eapply p_mono; [apply enq_slotted; eassumption| |auto].
      intros ? d2 H2. apply IH, H2. }
    assert (W : forall x d, slotted slot d ->
      (forall e, ev_has_tsc e = false -> ev_has_tsc (x e) = false) ->
      pwp (do e <- read_event (Slot slot); run write_event (Slot slot) (x e); ret true)
          (fun _ d' => queued undated (ed_evq d')) F d).
    { intros x d1 (b & e & H1 & H2) Hx. apply p_bind. eapply p_read_inq; [exact H1|].
      apply p_bind. eapply (p_write_inq undated); [exact H1|intros _; apply Hx, H2|].
      intros q' G _ _. exact G. }
    apply p_bind, p_fetch.
    2:{ intros pads e pd' _ _ _. apply p_bind, p_get. exact I. }
    intros pads p pd' _ _ _. apply p_bind, p_get. sd.
    set (d1 := set_pkt _ _). assert (H1 : slotted slot d1) by exact H. clearbody d1.
    destruct (pkt_pl p); try exact I; try (apply IH; exact H1); try (apply T; exact H1).
    all: try (apply E; [exact H1|intros _; reflexivity]; fail).
    all: try (apply W; [exact H1|]; intros e He; destruct (ed_enabled _); exact He).
    all: try (apply p_bind; eapply p_mono; [apply header_fup_s, H1|intros ? d2 H2; apply IH, H2|auto]; fail).
    all: try (apply p_bind; eapply p_mono; [apply header_mode_s, H1|intros ? d2 H2; apply IH, H2|auto]; fail).
    all: try (destruct (ed_status _); [exact I|apply IH; exact H1]).
    - apply p_bind. unfold pt_evt_header_cbr. apply p_bind, p_timing; intros; [|exact I].
      eapply p_mono; [apply (enq_slotted slot); [exact H1|intros _; reflexivity]| |auto].
      intros ? d2 H2. apply IH, H2.
    - destruct (ed_enabled _).
      + apply (W (fun e => set_var e (Ev_enabled 0 false))); [exact H1|intros e He; exact He].
      + apply p_bind. eapply (p_dequeue undated); [apply (slotted_queued _ _ H1)| |exact I].
        intros b e q i G1 G2 G3 G4 _. destruct (Nat.eqb i slot); [exact G3|exact I].
  Qed.
  Lemma psb_s : forall d, queued undated (ed_evq d) ->
    pwp pt_evt_decode_psb (fun _ d' => queued undated (ed_evq d')) F d.
  Proof.
    intros d H. unfold pt_evt_decode_psb. apply p_bind, p_get.
    destruct (pt_evq_pending _ _); [exact I|]. apply p_bind, p_modify, p_bind. sd.
    eapply (p_enqueue undated); [exact H|intros _; reflexivity| |exact I].
    intros q' G Hi. apply header_s. eexists _, _. split; [exact Hi|reflexivity].
  Qed.

  Lemma other_s psb p : OK psb -> OK (decode_other psb p).
  Proof.
    intros Hp d H. destruct p; cbn [decode_other];
      lazymatch goal with
      | |- pwp psb _ _ _ => apply Hp; exact H
      | |- pwp (pt_evt_decode_tnt _) _ _ _ => apply tnt_s; exact H
      | |- pwp (pt_evt_decode_fup _) _ _ _ => apply fup_s; exact H
      | |- pwp (pt_evt_decode_tip _) _ _ _ => apply tip_s; exact H
      | |- pwp (pt_evt_decode_mode _) _ _ _ => apply mode_s; exact H
      | |- pwp (pt_evt_decode_pip _ _) _ _ _ => apply pip_s; exact H
      | |- pwp (pt_evt_decode_ptw _ _ _) _ _ _ => apply ptw_s; exact H
      | |- pwp pt_evt_decode_psbend _ _ _ => apply psbend_s; exact H
      | |- pwp (pt_evt_decode_tip_pge _) _ _ _ => apply pge_s; exact H
      | |- pwp (pt_evt_decode_tip_pgd _) _ _ _ => apply pgd_s; exact H
      | |- pwp (pt_evt_decode_exstop _) _ _ _ => apply exstop_s; exact H
      | |- pwp (pt_evt_decode_vmcs _) _ _ _ => apply vmcs_s; exact H
      | |- pwp pt_evt_decode_ovf _ _ _ => apply ovf_s; exact H
      | |- pwp (pt_evt_decode_cfe _ _ _) _ _ _ => apply cfe_s; exact H
      | |- pwp (pt_evt_decode_evd _ _) _ _ _ => apply evd_s; exact H
      | |- pwp (pt_evt_decode_trig _ _ _ _ _) _ _ _ => apply trig_s; exact H
      | |- _ =>
          unfold pt_evt_decode_cyc, pt_evt_decode_mtc, pt_evt_decode_tsc, pt_evt_decode_tma,
            pt_evt_decode_cbr, pt_evt_decode_pwre, pt_evt_decode_pwrx, pt_evt_decode_mwait,
            pt_evt_decode_stop, pt_evt_decode_mnt; steps
      end.
    destruct (ed_status d); steps.
  Qed.
  Lemma packet_s : OK pt_evt_decode_packet.
  Proof.
    intros d H. unfold pt_evt_decode_packet. apply p_bind, p_get. apply other_s; [|exact H].
    intros d1 H1. apply p_bind. eapply p_mono; [apply psb_s, H1| |auto].
    intros ? d2 H2. apply p_bind, p_get. apply other_s; [|exact H2]. intros d3 H3. exact I.
  Qed.
  Lemma fetch_event_s n : forall d, queued undated (ed_evq d) ->
    pwp (fetch_event n) (fun _ => Q false) F d.
  Proof.
    induction n as [|n IH]; intros d H; [exact I|]. cbn [fetch_event]. apply p_bind.
    eapply p_mono; [apply packet_s, H| |auto]. intros more d1 H1. destruct more; cbn [negb]; [|exact H1].
    apply p_bind, p_get. destruct (ed_event d1); [exact I|]. apply p_bind, p_modify, p_bind.
    destruct H1 as [H1 _].
    apply p_fetch; intros; apply IH; exact H1.
  Qed.

  Lemma next_s d d' e : queued undated (ed_evq d) -> pt_evt_next d = (d', Ok e) ->
    queued undated (ed_evq d') /\ on_time (ed_time d') e.
  Proof.
    intros H. unfold pt_evt_next.
    assert (K : pwp (run pt_evt_fetch_event; do d0 <- get; run publish None;
        match ed_event d0 with None => fail pte_internal | Some p => read_event p end)
        (fun e d' => queued undated (ed_evq d') /\ on_time (ed_time d') e) F d).
    { unfold pt_evt_fetch_event. apply p_bind, p_bind, p_get.
      eapply p_mono; [apply fetch_event_s, H| |auto].
      intros ? d1 [H1 H2]. destruct (H2 eq_refl) as (p & x & E1 & E2 & E3).
      apply p_bind, p_get, p_bind, p_publish. rewrite E1.
      destruct p as [|i]; [apply p_read_alone|eapply p_read_held; [exact E2|]].
      - split; [exact H1|]. sd. rewrite E2. exact E3.
      - split; [exact H1|exact E3]. }
    unfold pwp in K. intros E. rewrite E in K. exact K.
  Qed.
  Lemma start_s : forall d d', queued undated (ed_evq d) -> pt_evt_start d = (d', Ok tt) ->
    queued undated (ed_evq d').
  Proof.
    intros d d' H.
    assert (K : pwp pt_evt_start (fun _ d' => queued undated (ed_evq d')) F d).
    { clear d'. unfold pt_evt_start. apply p_bind, p_modify, p_bind.
      apply p_fetch; intros; apply p_bind, p_get; sd; [|exact I].
      destruct (pkt_pl p); try exact I. apply p_bind. eapply p_mono; [apply psb_s, H| |auto].
      intros x d2 Hx. exact Hx. }
    unfold pwp in K. intros E. rewrite E in K. exact K.
  Qed.
End STAMP.
