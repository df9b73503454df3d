(** The event decoder never runs into undefined behaviour, its position never moves
    back, and it makes progress. *)

From Verif Require Import Base M_packet M_config M_pktdec M_sync M_lastip M_time
  M_evq M_event M_evdec S_evq S_time S_evtrace L_evq L_evqpos L_bytes L_pktdec L_pktsafe L_time L_evdec.
From Coq Require Import List NArith ZArith PeanoNat Bool Lia ZifyBool ZifyNat ZifyN.
Import ListNotations.
Open Scope nat_scope.
Ltac Zify.zify_post_hook ::= Z.div_mod_to_equations.

(** * Timing *)

Lemma no_ub_ok {A} (a : A) : no_ub (Ok a).
Proof. discriminate. Qed.
Lemma no_ub_err {A} e : no_ub (@Err A e).
Proof. discriminate. Qed.

Lemma apply_timing_no_ub t cal upd : no_ub (snd cal) -> (forall l, no_ub (snd (upd l))) ->
  no_ub (snd (apply_timing t cal upd)).
Proof.
  intros H1 H2. unfold apply_timing. destruct cal as [l r]. cbn [snd] in H1.
  assert (Hi : forall r, no_ub r -> no_ub (ignore_config r)).
  { intros [[]|[]|u] H u'; cbn; try discriminate. exact (H u'). }
  specialize (Hi r H1) as Hi1. destruct (ignore_config r) as [a|e|u]; cbn [snd].
  - specialize (H2 l). destruct (upd l) as [t' r']. cbn [snd] in *. apply Hi, H2.
  - apply no_ub_err.
  - exact Hi1.
Qed.

Section TIMING.
  Context (c : config).
  Hypothesis freq : (cf_mtc_freq c < 24)%N.

  Lemma header_tsc_no_ub t l v : no_ub (snd (pt_evt_apply_header_tsc t l v)).
  Proof.
    apply apply_timing_no_ub; [exact (tcal_no_ub c l (CalHeaderTsc v) freq)|].
    intros _. exact (time_no_ub c t (OpTsc v) freq).
  Qed.
  Lemma tsc_no_ub t l v : no_ub (snd (pt_evt_apply_tsc t l v)).
  Proof.
    apply apply_timing_no_ub; [exact (tcal_no_ub c l (CalTsc v) freq)|].
    intros _. exact (time_no_ub c t (OpTsc v) freq).
  Qed.
  Lemma header_cbr_no_ub t l v : no_ub (snd (pt_evt_apply_header_cbr c t l v)).
  Proof.
    apply apply_timing_no_ub; [exact (tcal_no_ub c l (CalHeaderCbr v) freq)|].
    intros _. exact (time_no_ub c t (OpCbr v) freq).
  Qed.
  Lemma cbr_no_ub t l v : no_ub (snd (pt_evt_apply_cbr c t l v)).
  Proof.
    apply apply_timing_no_ub; [exact (tcal_no_ub c l (CalCbr v) freq)|].
    intros _. exact (time_no_ub c t (OpCbr v) freq).
  Qed.
  Lemma tma_no_ub t l x f : no_ub (snd (pt_evt_apply_tma c t l x f)).
  Proof.
    apply apply_timing_no_ub; [exact (tcal_no_ub c l CalTma freq)|].
    intros _. exact (time_no_ub c t (OpTma x f) freq).
  Qed.
  Lemma mtc_no_ub t l x : no_ub (snd (pt_evt_apply_mtc c t l x)).
  Proof.
    apply apply_timing_no_ub; [exact (tcal_no_ub c l (CalMtc x) freq)|].
    intros _. exact (time_no_ub c t (OpMtc x) freq).
  Qed.
  Lemma cyc_no_ub t l v : no_ub (snd (pt_evt_apply_cyc c t l v)).
  Proof.
    apply apply_timing_no_ub; [exact (tcal_no_ub c l (CalCyc v) freq)|].
    intros l'. pose proof (fun r => time_no_ub c t (OpCyc v r) freq) as H. cbn in H.
    assert (Hf : no_ub (pt_tcal_fcr l')).
    { unfold pt_tcal_fcr. intros u. destruct (pt_tcal_have_fcr l'); discriminate. }
    destruct (pt_tcal_fcr l') as [r|[]|u]; try apply H; try (intros u'; discriminate).
    destruct (Hf u eq_refl).
  Qed.

  Lemma time_packet_no_ub t l p t' l' r :
    apply_time_packet c t l p = Some (t', l', r) -> no_ub r.
  Proof.
    unfold apply_time_packet.
    assert (Hs : forall A (a b : A), Some a = Some b -> a = b) by congruence.
    destruct p; intros H; try discriminate H; apply Hs in H;
      replace r with (snd (t', l', r)) by reflexivity; rewrite <- H.
    - apply cbr_no_ub.
    - apply tsc_no_ub.
    - apply tma_no_ub.
    - apply mtc_no_ub.
    - apply cyc_no_ub.
  Qed.
End TIMING.

(** * Positions in the queue *)

Definition qlen (q : evq event) : nat := (evq_end q + 16 - evq_begin q) mod 16.

Lemma qlen_rep q l : qrep q l -> qlen q = length l.
Proof. intros (_ & H2 & H3 & H4 & _). unfold qlen. lia. Qed.

Lemma take_first_length (p : N * event -> bool) l e l' :
  take_first p l = Some (e, l') -> length l = S (length l').
Proof.
  intros H. pose proof (take_first_split p l) as Hs. rewrite H in Hs.
  destruct Hs as (a & b & c & -> & -> & _). rewrite !app_length. cbn. lia.
Qed.

(** * Automation *)

Ltac sd := cbn [ed_pd ed_pkt ed_ip ed_time ed_tcal ed_evq ed_alone ed_event ed_status
  ed_mode ed_enabled ed_bound set_pd set_pkt set_lip set_time set_tcal set_evq set_alone
  set_event set_status set_mode set_enabled set_bound fst snd] in *.

(** Carry pointers over changes of the queue. *)
Ltac carry :=
  repeat match goal with
  | H : held ?q ?i ?x, K : forall i x, held ?q i x -> held ?q' i x |- _ => apply K in H
  end.

Ltac wp_step :=
  lazymatch goal with
  | |- wp (sbind _ _) _ _ _ => apply wp_bind
  | |- wp (ret _) _ _ _ => apply wp_ret
  | |- wp (fail _) _ _ _ => apply wp_fail
  | |- wp get _ _ _ => apply wp_get
  | |- wp (modify _) _ _ _ => apply wp_modify
  | |- wp (publish _) _ _ _ => apply wp_publish
  | |- wp (standalone _) _ _ _ => apply wp_standalone
  | |- wp (jump _ _ _ _) _ _ _ => apply wp_jump
  | |- wp (enqueue _ _) _ _ _ =>
      eapply wp_enqueue; [sd; eassumption | intros ? ? ? ? ?; sd; carry | sd]
  | |- wp (dequeue _) _ _ _ =>
      eapply wp_dequeue; [sd; eassumption | intros ? ? ? ? ? ? ? ? ?; sd | intros ?; sd]
  | |- wp (read_event Alone) _ _ _ => apply wp_read_alone
  | |- wp (write_event Alone _) _ _ _ => apply wp_write_alone
  | |- wp (read_event (Slot ?i)) _ _ _ =>
      eapply wp_read_held; [sd; eassumption |]
  | |- wp (write_event (Slot ?i) _) _ _ _ =>
      eapply wp_write_held; [sd; eassumption | sd; eassumption | intros ? ? ? ?; sd]
  | |- wp (requeue Alone _) _ _ _ =>
      eapply wp_requeue_alone; [sd; eassumption | intros ? ? ? ? ?; sd; carry | sd]
  | |- wp (requeue (Slot ?i) _) _ _ _ =>
      eapply wp_requeue_held; [sd; eassumption | sd; eassumption | intros ? ? ? ? ?; sd; carry | sd]
  | |- wp (update_ip _) _ _ _ =>
      apply wp_update_ip; intros ? ? ?; split; [intros ? | intros ? ?]; sd
  | |- wp (if ?b then _ else _) _ _ _ => destruct b eqn:?
  | |- wp (match ?x with _ => _ end) _ _ _ => destruct x eqn:?
  | |- wp (finish _ _) _ _ _ => unfold finish
  | |- wp (standalone_now _) _ _ _ => unfold standalone_now
  end; cbv beta.

Lemma held_lt (q : evq event) i e : held q i e -> i < 16.
Proof. intros [-> _]. lia. Qed.

Ltac qfacts :=
  repeat match goal with
  | H : qrep ?q ?l |- _ =>
      lazymatch goal with
      | _ : qlen q = length l |- _ => fail
      | _ => pose proof (qlen_rep q l H); pose proof (qrep_length q l H)
      end
  | H : take_first ?p ?l = Some (?e, ?l') |- _ =>
      lazymatch goal with
      | _ : length l = S (length l') |- _ => fail
      | _ => pose proof (take_first_length p l e l' H)
      end
  | H : held ?q ?i ?e |- _ =>
      lazymatch goal with
      | _ : i < 16 |- _ => fail
      | _ => pose proof (held_lt q i e H)
      end
  end;
  rewrite ?app_length, ?update_length in *; cbn [length] in *.

(** * The invariant *)

Section SAFE.
  Context (cf : config) (buf : list N).
  Hypothesis moves : callback_moves cf.
  Hypothesis freq : (cf_mtc_freq cf < 24)%N.
  Hypothesis small : (N.of_nat (length buf) + 1 < 2 ^ 31)%N.

  Definition ev_ok (d : evdec) : Prop :=
    match ed_event d with Some (Slot i) => i < 16 | _ => True end.

  Definition okd (d : evdec) : Prop :=
    pd_ok cf buf (ed_pd d) /\ (exists l, qrep (ed_evq d) l) /\ ev_ok d.

  Definition at_ (d : evdec) : nat := pd_at (ed_pd d).
  Definition nb (d : evdec) : nat := if ed_bound d then 0 else 1.

  Definition dead (d : evdec) : Prop := pkt_pl (ed_pkt d) = P_invalid /\ ed_status d <> None.

  (** A new packet, or fewer events to deliver for the current one. *)
  Definition progress_ (d d' : evdec) : Prop :=
    at_ d < at_ d' \/ dead d' \/
    (at_ d' = at_ d /\ qlen (ed_evq d') + nb d' < qlen (ed_evq d) + nb d).

  Definition good_err (d : evdec) (_ : pte) (d' : evdec) : Prop := okd d' /\ at_ d <= at_ d'.
  Definition good_ok {A} (d : evdec) (_ : A) (d' : evdec) : Prop := okd d' /\ at_ d <= at_ d'.
  Definition good_pkt (d : evdec) (more : bool) (d' : evdec) : Prop :=
    okd d' /\ at_ d <= at_ d' /\ (more = false -> progress_ d d').

  Ltac destr_ok H := destruct H as (Hpd & [l Hq] & Hev); unfold ev_ok in Hev.

  Ltac fin_part :=
    lazymatch goal with
    | |- pd_ok _ _ _ => assumption
    | |- exists l, qrep _ l => eexists; eassumption
    | |- True => exact I
    | |- _ < 16 => qfacts; lia
    | |- match _ with _ => _ end => assumption
    | |- _ => idtac
    end.
  Ltac fin :=
    unfold good_pkt, good_err, good_ok, okd, ev_ok, progress_, at_, nb, dead in *; sd;
    repeat match goal with
    | |- _ /\ _ => split
    | |- true = false -> _ => intros E; discriminate E
    | |- false = false -> _ => intros _
    end; fin_part.
  Ltac num :=
    qfacts; repeat match goal with H : ed_bound ?d = _ |- _ => rewrite H in * end;
    first [lia | left; lia | right; left; split; [reflexivity|discriminate]
          | right; right; split; [lia | repeat match goal with |- context [if ?b then _ else _] => destruct b end; lia]].

  Lemma standalone_now_ok d e : okd d -> wp (standalone_now e) (good_pkt d) (good_err d) d.
  Proof.
    intros H. destr_ok H. wp_step. wp_step. wp_step. wp_step. sd.
    eapply wp_fetch; [exact moves|sd; exact Hpd|intros|intros]; fin; num.
  Qed.

  Lemma wp_timing' f (Q : unit -> evdec -> Prop) (F : pte -> evdec -> Prop) d :
    pd_ok cf buf (ed_pd d) ->
    (forall t l, no_ub (snd (f cf t l))) ->
    (forall t l, Q tt (set_tcal (set_time d t) l)) ->
    (forall e t l, F e (set_tcal (set_time d t) l)) ->
    wp (timing f) Q F d.
  Proof.
    intros (Hc & _) Hn HQ HF. apply wp_timing. unfold ed_config. rewrite Hc.
    intros t l r E. split; [|split].
    - replace r with (snd (t, l, r)) by reflexivity. rewrite <- E. apply Hn.
    - intros _. apply HQ.
    - intros e _. apply HF.
  Qed.

  Ltac timing_solve :=
    first [apply (header_tsc_no_ub cf freq) | apply (tsc_no_ub cf freq)
          |apply (header_cbr_no_ub cf freq) | apply (cbr_no_ub cf freq)
          |apply (tma_no_ub cf freq) | apply (mtc_no_ub cf freq) | apply (cyc_no_ub cf freq)].

  Ltac step :=
    first
    [ wp_step
    | lazymatch goal with
      | |- wp pt_evt_fetch_packet _ _ _ =>
          eapply wp_fetch; [exact moves | sd; eassumption | intros | intros]; sd; cbv beta
      | |- wp (timing _) _ _ _ =>
          eapply wp_timing'; [sd; eassumption | intros; timing_solve | intros | intros];
          sd; cbv beta
      end ].
  Ltac auto_pkt := repeat step; fin; num.

  Lemma tsc_ok d v : okd d -> wp (pt_evt_decode_tsc v) (good_pkt d) (good_err d) d.
  Proof. intros H. destr_ok H. unfold pt_evt_decode_tsc. auto_pkt. Qed.
  Lemma cbr_ok d v : okd d -> wp (pt_evt_decode_cbr v) (good_pkt d) (good_err d) d.
  Proof. intros H. destr_ok H. unfold pt_evt_decode_cbr. auto_pkt. Qed.
  Lemma tma_ok d x v : okd d -> wp (pt_evt_decode_tma x v) (good_pkt d) (good_err d) d.
  Proof. intros H. destr_ok H. unfold pt_evt_decode_tma. auto_pkt. Qed.
  Lemma mtc_ok d v : okd d -> wp (pt_evt_decode_mtc v) (good_pkt d) (good_err d) d.
  Proof. intros H. destr_ok H. unfold pt_evt_decode_mtc. auto_pkt. Qed.
  Lemma cyc_ok d v : okd d -> wp (pt_evt_decode_cyc v) (good_pkt d) (good_err d) d.
  Proof. intros H. destr_ok H. unfold pt_evt_decode_cyc. auto_pkt. Qed.
  Lemma mode_ok d m : okd d -> wp (pt_evt_decode_mode m) (good_pkt d) (good_err d) d.
  Proof.
    intros H. destr_ok H. unfold pt_evt_decode_mode, pt_evt_decode_mode_exec, pt_evt_decode_mode_tsx.
    auto_pkt.
  Qed.
  Lemma pip_ok d x n : okd d -> wp (pt_evt_decode_pip x n) (good_pkt d) (good_err d) d.
  Proof. intros H. destr_ok H. unfold pt_evt_decode_pip. auto_pkt. Qed.
  Lemma mnt_ok d x : okd d -> wp (pt_evt_decode_mnt x) (good_pkt d) (good_err d) d.
  Proof. intros H. destr_ok H. unfold pt_evt_decode_mnt. auto_pkt. Qed.
  Lemma stop_ok d : okd d -> wp pt_evt_decode_stop (good_pkt d) (good_err d) d.
  Proof. intros H. destr_ok H. unfold pt_evt_decode_stop. auto_pkt. Qed.
  Lemma exstop_ok d ip : okd d -> wp (pt_evt_decode_exstop ip) (good_pkt d) (good_err d) d.
  Proof. intros H. destr_ok H. unfold pt_evt_decode_exstop, exstop_self. auto_pkt. Qed.
  Lemma mwait_ok d a b : okd d -> wp (pt_evt_decode_mwait a b) (good_pkt d) (good_err d) d.
  Proof. intros H. destr_ok H. unfold pt_evt_decode_mwait. auto_pkt. Qed.
  Lemma pwre_ok d a b c : okd d -> wp (pt_evt_decode_pwre a b c) (good_pkt d) (good_err d) d.
  Proof. intros H. destr_ok H. unfold pt_evt_decode_pwre. auto_pkt. Qed.
  Lemma pwrx_ok d a b c e f : okd d -> wp (pt_evt_decode_pwrx a b c e f) (good_pkt d) (good_err d) d.
  Proof. intros H. destr_ok H. unfold pt_evt_decode_pwrx. auto_pkt. Qed.
  Lemma tnt_ok d a : okd d -> wp (pt_evt_decode_tnt a) (good_pkt d) (good_err d) d.
  Proof. intros H. destr_ok H. unfold pt_evt_decode_tnt. auto_pkt. Qed.
  Lemma trig_ok d a b c e f : okd d -> wp (pt_evt_decode_trig a b c e f) (good_pkt d) (good_err d) d.
  Proof. intros H. destr_ok H. unfold pt_evt_decode_trig. auto_pkt. Qed.
  Lemma ptw_ok d a b c : okd d -> wp (pt_evt_decode_ptw a b c) (good_pkt d) (good_err d) d.
  Proof.
    intros H. destr_ok H. unfold pt_evt_decode_ptw. step.
    apply wp_lift_ok; intros.
    - pose proof (ptw_size_ok b) as Hs. intros u E. rewrite E in Hs. exact Hs.
    - auto_pkt.
    - auto_pkt.
  Qed.
  Lemma psbend_ok d : okd d -> wp pt_evt_decode_psbend (good_pkt d) (good_err d) d.
  Proof. intros H. destr_ok H. unfold pt_evt_decode_psbend. auto_pkt. Qed.
  Lemma pgd_ok d ip : okd d -> wp (pt_evt_decode_tip_pgd ip) (good_pkt d) (good_err d) d.
  Proof. intros H. destr_ok H. unfold pt_evt_decode_tip_pgd. auto_pkt. Qed.

  (** Events in the middle of the queue. *)
  Lemma find_slot d l p k : qrep (ed_evq d) l -> find_pos p l = Some k ->
    exists b e, nth_error l k = Some (b, e) /\ k < length l.
  Proof.
    intros _ H. destruct (find_pos_some _ _ _ H) as ([b e] & H1 & _).
    exists b, e. split; [exact H1|]. apply nth_error_Some. congruence.
  Qed.

  Lemma slot_begin (q q' : evq event) k : evq_begin q' = evq_begin q -> slot_of q' k = slot_of q k.
  Proof. unfold slot_of. intros ->. reflexivity. Qed.

  Lemma vmcs_ok d x : okd d -> wp (pt_evt_decode_vmcs x) (good_pkt d) (good_err d) d.
  Proof.
    intros H. destr_ok H. unfold pt_evt_decode_vmcs. step. step.
    rewrite (qrep_find _ _ _ _ Hq). destruct (find_pos _ l) as [k|] eqn:Ek; cbn [option_map].
    - destruct (find_slot d l _ k Hq Ek) as (b & e & Hn & Hk).
      step. eapply wp_requeue_pos; [sd; eassumption | eassumption | intros ? q' ? Hb ? | sd; fin; num].
      step. sd. rewrite <- (slot_begin _ _ k Hb).
      change q' with (ed_evq (set_evq d q')) at 1.
      eapply wp_read_pos; [sd; eassumption|rewrite nth_error_app1 by lia; eassumption|].
      step. change q' with (ed_evq (set_evq d q')) at 1.
      eapply wp_write_pos; [sd; eassumption|rewrite app_length; lia|intros; sd].
      auto_pkt.
    - destruct (pt_evq_find _ _ is_async_branch); auto_pkt.
  Qed.

  Lemma cfe_evd_ok d i o v upd ip l : pd_ok cf buf (ed_pd d) -> qrep (ed_evq d) l -> ev_ok d ->
    (o = None \/ o = Some i /\ exists e, held (ed_evq d) i e) ->
    wp (cfe_evd o v upd ip) (good_pkt d) (good_err d) d.
  Proof.
    intros Hpd Hq Hev Ho. unfold ev_ok in Hev. unfold cfe_evd.
    destruct Ho as [-> | [-> [e He]]]; auto_pkt.
  Qed.

  Lemma good_from d d1 : at_ d = at_ d1 ->
    qlen (ed_evq d1) + nb d1 <= qlen (ed_evq d) + nb d ->
    forall m, wp m (good_pkt d1) (good_err d1) d1 -> wp m (good_pkt d) (good_err d) d1.
  Proof.
    intros H1 H2 m H. eapply wp_mono; [exact H| |].
    - intros a d' (G1 & G2 & G3). split; [exact G1|]. split; [lia|].
      intros E. specialize (G3 E). unfold progress_ in *.
      destruct G3 as [G|[G|[G G']]]; [left; lia|right; left; exact G|right; right; lia].
    - intros e d' (G1 & G2). split; [exact G1|]. lia.
  Qed.

  Lemma cfe_ok d ty v ip : okd d -> wp (pt_evt_decode_cfe ty v ip) (good_pkt d) (good_err d) d.
  Proof.
    intros H. destr_ok H. unfold pt_evt_decode_cfe. apply wp_bind.
    assert (Hx : forall o d1 l1, pd_ok cf buf (ed_pd d1) -> qrep (ed_evq d1) l1 -> ev_ok d1 ->
      at_ d = at_ d1 -> qlen (ed_evq d1) + nb d1 <= qlen (ed_evq d) + nb d ->
      (o = None \/ exists i, o = Some i /\ exists e, held (ed_evq d1) i e) ->
      wp (if (ty =? pt_cfe_intr)%N then
        cfe_evd o (Ev_interrupt 0 None 0)
          (fun v0 => match v0 with
                    | Ev_interrupt _ cr2 a => Some (Ev_interrupt v cr2 a)
                    | _ => None
                    end) ip
      else if (ty =? pt_cfe_iret)%N then cfe_plain o (Ev_iret 0) ip false
      else if (ty =? pt_cfe_smi)%N then cfe_plain o (Ev_smi 0) ip true
      else if (ty =? pt_cfe_rsm)%N then cfe_noip o Ev_rsm ip
      else if (ty =? pt_cfe_sipi)%N then cfe_noip o (Ev_sipi v) ip
      else if (ty =? pt_cfe_init)%N then cfe_plain o (Ev_init 0) ip true
      else if (ty =? pt_cfe_vmentry)%N then cfe_plain o (Ev_vmentry 0) ip false
      else if ((ty =? pt_cfe_vmexit) || (ty =? pt_cfe_vmexit_intr))%N then
        cfe_evd o (Ev_vmexit None None None 0)
          (fun v0 => match v0 with
                    | Ev_vmexit vec r q a =>
                        Some (Ev_vmexit (if (ty =? pt_cfe_vmexit_intr)%N
                                         then Some v else vec) r q a)
                    | _ => None
                    end) ip
      else if (ty =? pt_cfe_shutdown)%N then cfe_plain o (Ev_shutdown 0) ip false
      else if (ty =? pt_cfe_uintr)%N then cfe_plain o (Ev_uintr v 0) ip true
      else if (ty =? pt_cfe_uiret)%N then cfe_plain o (Ev_uiret 0) ip false
      else
        match o with
        | Some _ => fail pte_internal
        | None => if ip then run enqueue evb_fup_bound (new_event (Ev_tick 0)); ret true
                  else ret true
        end) (good_pkt d) (good_err d) d1).
    { intros o d1 l1 Hpd1 Hq1 Hev1 Ha Hl Ho. apply (good_from d d1 Ha Hl).
      assert (Hevd : forall v0 upd, wp (cfe_evd o v0 upd ip) (good_pkt d1) (good_err d1) d1).
      { intros v0 upd. destruct Ho as [-> | (i & -> & He)].
        - apply (cfe_evd_ok d1 0 None v0 upd ip l1); auto.
        - apply (cfe_evd_ok d1 i (Some i) v0 upd ip l1); auto. }
      clear Ha Hl Hev Hq Hpd l. unfold ev_ok in Hev1.
      assert (Hplain : forall v0 f, wp (cfe_plain o v0 ip f) (good_pkt d1) (good_err d1) d1).
      { intros v0 f. unfold cfe_plain. auto_pkt. }
      assert (Hnoip : forall v0, wp (cfe_noip o v0 ip) (good_pkt d1) (good_err d1) d1).
      { intros v0. unfold cfe_noip. auto_pkt. }
      repeat match goal with
      | |- wp (if (?a =? ?b)%N then _ else _) _ _ _ => destruct (a =? b)%N
      | |- wp (if (_ || _) then _ else _) _ _ _ => destruct (_ || _)
      end; auto; auto_pkt. }
    eapply wp_dequeue; [sd; eassumption | intros e l' ? q' i Hq' Hh ? ?; sd | intros ?; sd].
    - apply (Hx (Some i) (set_evq d q') l'); sd; auto; unfold at_, nb; sd; qfacts; try lia.
      right. exists i. split; [reflexivity|]. exists e. exact Hh.
    - apply (Hx None d l); auto.
  Qed.

  Lemma evd_vmexit_ok d upd : okd d -> wp (evd_vmexit upd) (good_pkt d) (good_err d) d.
  Proof.
    intros H. destr_ok H. unfold evd_vmexit. step. step.
    rewrite (qrep_peek _ _ _ Hq). destruct (find_pos _ l) as [k|] eqn:Ek; cbn [option_map].
    - destruct (find_slot d l _ k Hq Ek) as (b & e & Hn & Hk).
      step. step. step. eapply wp_read_pos; [eassumption|eassumption|].
      step; [|auto_pkt]. step. eapply wp_write_pos; [eassumption|lia|intros; sd]. auto_pkt.
    - step. step. step; [|fin; num]. step. step.
      pose proof (qrep_end _ _ Hq) as He. rewrite He.
      match goal with Hb : evq_begin ?q = evq_begin (ed_evq d) |- _ =>
        rewrite <- (slot_begin _ _ (length l) Hb);
        change (slot_of q (length l)) with (slot_of (ed_evq (set_evq d q)) (length l)) end.
      eapply wp_read_pos; [sd; eassumption|rewrite nth_error_app2, Nat.sub_diag by lia; reflexivity|].
      step; [|auto_pkt]. step.
      eapply wp_write_pos; [sd; eassumption|rewrite app_length; cbn; lia|intros; sd]. auto_pkt.
  Qed.

  Lemma evd_ok d ty v : okd d -> wp (pt_evt_decode_evd ty v) (good_pkt d) (good_err d) d.
  Proof.
    intros H. unfold pt_evt_decode_evd. step. step.
    repeat match goal with
      | |- wp (if (?a =? ?b)%N then _ else _) _ _ _ => destruct (a =? b)%N
      end; try (apply evd_vmexit_ok; exact H); destr_ok H; auto_pkt.
  Qed.

  (** A packet that is not consumed. *)
  Definition good_stay (d : evdec) (more : bool) (d' : evdec) : Prop :=
    okd d' /\ at_ d' = at_ d /\
    (more = false -> qlen (ed_evq d') + nb d' < qlen (ed_evq d) + nb d).

  Lemma good_stay_pkt m d : wp m (good_stay d) (good_err d) d -> wp m (good_pkt d) (good_err d) d.
  Proof.
    intros H. eapply wp_mono; [exact H| |auto].
    intros a d' (G1 & G2 & G3). split; [exact G1|]. split; [lia|].
    intros E. right. right. split; [exact G2|]. apply G3, E.
  Qed.

  Ltac fins := unfold good_stay in *; fin; try lia;
    qfacts; repeat match goal with H : ed_bound ?d = _ |- _ => rewrite H in * end;
    repeat match goal with |- context [if ?b then _ else _] => destruct b end; lia.

  Lemma stay_from d d1 : at_ d1 = at_ d ->
    qlen (ed_evq d1) + nb d1 <= qlen (ed_evq d) + nb d ->
    forall m, wp m (good_stay d1) (good_err d1) d1 -> wp m (good_stay d) (good_err d) d1.
  Proof.
    intros H1 H2 m H. eapply wp_mono; [exact H| |].
    - intros a d' (G1 & G2 & G3). split; [exact G1|]. split; [lia|].
      intros E. specialize (G3 E). lia.
    - intros e d' (G1 & G2). split; [exact G1|]. lia.
  Qed.

  Lemma fup_ok_fuel fuel ip : forall d, okd d -> qlen (ed_evq d) < fuel ->
    wp (decode_fup fuel ip) (good_stay d) (good_err d) d.
  Proof.
    induction fuel as [|fuel IH]; intros d H Hf; [lia|]. destr_ok H. cbn [decode_fup].
    step. step; [|fins]. step.
    step. sd.
    set (b := pt_evq_pending _ _).
    assert (Hb : forall x, ed_evq (if b then set_bound x true else x) = ed_evq x /\
      ed_pd (if b then set_bound x true else x) = ed_pd x /\
      ed_event (if b then set_bound x true else x) = ed_event x /\
      nb (if b then set_bound x true else x) <= nb x).
    { intros x. destruct b; unfold nb; sd; repeat split; destruct (ed_bound x); lia. }
    match goal with |- wp _ _ _ ?y => set (d1 := y) end.
    destruct (Hb (set_lip d l0)) as (E1 & E2 & E3 & E4). fold d1 in E1, E2, E3, E4. sd.
    clearbody d1. clear Hb. clearbody b. rewrite <- E1 in Hq. rewrite <- E2 in Hpd.
    rewrite <- E3 in Hev.
    assert (Hg : at_ d1 = at_ d) by (unfold at_; rewrite E2; reflexivity).
    assert (Hnb : nb (set_lip d l0) = nb d) by reflexivity. rewrite Hnb in E4. clear Hnb.
    assert (Hql : qlen (ed_evq d1) = qlen (ed_evq d)) by (rewrite E1; reflexivity).
    apply (stay_from d d1 Hg); [lia|].
    clear E1 E2 E3 E4 Hg. rewrite <- Hql in Hf. clear Hql.
      step. step; [|].
      - step. step. step. step. step. step.
        step; try (repeat step; fins).
        step. step.
        eapply wp_mono; [apply IH| |].
        + unfold okd, ev_ok; sd. fin.
        + sd. qfacts. lia.
        + intros a d' (G1 & G2 & G3). unfold good_stay, at_, nb in *; sd.
          split; [exact G1|]. split; [exact G2|]. intros E. specialize (G3 E). qfacts. lia.
        + intros e' d' (G1 & G2). split; [exact G1|]. exact G2.
      - step. step. step; [repeat step; fins|]. step.
        apply wp_lift_ok.
        + intros u. unfold pt_last_ip_query. destruct (negb _); [discriminate|].
          destruct (li_suppressed _); discriminate.
        + intros a _. repeat step; fins.
        + intros e _. fins.
  Qed.

  Lemma fup_ok d ip : okd d -> wp (pt_evt_decode_fup ip) (good_pkt d) (good_err d) d.
  Proof.
    intros H. apply good_stay_pkt, fup_ok_fuel; [exact H|]. destr_ok H. qfacts. lia.
  Qed.

  (** The slot of a later event after the first has been taken out. *)
  Lemma slot_after (q q' : evq event) l k : qrep q l ->
    evq_begin q' = (evq_begin q + 1) mod 16 -> 0 < k -> slot_of q k = slot_of q' (k - 1).
  Proof. intros (_ & Hb & _) E Hk. unfold slot_of. rewrite E. lia. Qed.

  Lemma slot_zero (q : evq event) l : qrep q l -> slot_of q 0 = evq_begin q.
  Proof. intros (_ & Hb & _). unfold slot_of. lia. Qed.

  Lemma tip_event_ok d : okd d -> ed_bound d = false ->
    wp pt_evt_decode_tip_event (good_stay d) (good_err d) d.
  Proof.
    intros H Hbd. destr_ok H. unfold pt_evt_decode_tip_event. step. step. step. step. sd.
    rewrite (qrep_find _ _ _ _ Hq). destruct (find_pos _ l) as [k|] eqn:Ek; cbn [option_map].
    - destruct (find_slot d l _ k Hq Ek) as (b & e & Hn & Hk).
      step. step; [|repeat step; fins].
      step. step; [|].
      + match goal with He : ?x =? ?y = true |- _ => apply Nat.eqb_eq in He; subst x end.
        repeat step; fins.
      + match goal with He : ?x =? ?y = false |- _ => apply Nat.eqb_neq in He end.
        destruct k as [|k]; [rewrite (slot_zero _ _ Hq) in *; congruence|].
        match goal with Hb : evq_begin ?q' = (evq_begin (ed_evq d) + 1) mod 16 |- _ =>
          rewrite (slot_after (ed_evq d) q' l (S k) Hq Hb) in * by lia; cbn [Nat.sub];
          rewrite Nat.sub_0_r in * end.
        qfacts.
        match goal with Hq' : qrep ?q' ?l' |- wp _ _ _ (set_evq _ ?q') =>
          destruct (nth_error l' k) as [[b' e']|] eqn:En';
          [|apply nth_error_None in En'; lia];
          change (slot_of q' k) with (slot_of (ed_evq (set_evq (set_bound d true) q')) k) end.
        step. eapply wp_read_pos; [sd; eassumption|eassumption|].
        step. step. step.
        match goal with |- wp (write_event (Slot (slot_of ?q k)) _) _ _ ?d1 =>
          change (slot_of q k) with (slot_of (ed_evq d1) k) end.
        eapply wp_write_pos; [sd; eassumption|lia|intros; sd; carry].
        repeat step; fins.
    - repeat step; fins.
  Qed.

  Lemma tip_ok_fuel fuel ip : forall d, okd d -> qlen (ed_evq d) < fuel ->
    wp (decode_tip fuel ip) (good_stay d) (good_err d) d.
  Proof.
    induction fuel as [|fuel IH]; intros d H Hf; [lia|]. cbn [decode_tip].
    step. step. step; [destr_ok H; repeat step; fins|].
    step. destr_ok H. step; [|fins]. step.
    - apply (stay_from d); [reflexivity|sd; unfold nb; sd; lia|].
      apply tip_event_ok; [unfold okd, ev_ok; sd; fin|]. sd.
      destruct (ed_bound d); [discriminate|reflexivity].
    - step. step; [|repeat step; fins].
      step. step. step. step. step. step.
      step; try (repeat step; fins).
      step. step. apply (stay_from d); [reflexivity|unfold nb; sd; qfacts; lia|].
      apply IH; [unfold okd, ev_ok; sd; fin|]. sd. qfacts. lia.
  Qed.

  Lemma tip_ok d ip : okd d -> wp (pt_evt_decode_tip ip) (good_pkt d) (good_err d) d.
  Proof.
    intros H. apply good_stay_pkt, tip_ok_fuel; [exact H|]. destr_ok H. qfacts. lia.
  Qed.

  Lemma pge_ok_fuel fuel ip : forall d, okd d -> qlen (ed_evq d) < fuel ->
    wp (decode_tip_pge fuel ip) (good_stay d) (good_err d) d.
  Proof.
    induction fuel as [|fuel IH]; intros d H Hf; [lia|]. cbn [decode_tip_pge].
    destr_ok H. step. step; [|fins]. step. step. step.
    - repeat step; fins;
        match goal with Hb : negb _ = true |- _ => apply negb_true_iff in Hb; sd end; fins.
    - step. step; [|repeat step; fins].
      step. step. step. step.
      step; try (repeat step; fins).
      step. step. apply (stay_from d); [reflexivity|unfold nb; sd; qfacts; lia|].
      apply IH; [unfold okd, ev_ok; sd; fin|]. sd. qfacts. lia.
  Qed.

  Lemma pge_ok d ip : okd d -> wp (pt_evt_decode_tip_pge ip) (good_pkt d) (good_err d) d.
  Proof.
    intros H. apply good_stay_pkt, pge_ok_fuel; [exact H|]. destr_ok H. qfacts. lia.
  Qed.

  (** * PSB+ *)

  (** A header packet leaves the position and the pointers into the queue. *)
  Definition hdr {A} (d : evdec) (_ : A) (d' : evdec) : Prop :=
    okd d' /\ at_ d' = at_ d /\ evq_begin (ed_evq d') = evq_begin (ed_evq d) /\
    qlen (ed_evq d) <= qlen (ed_evq d').

  Ltac finh := unfold hdr in *; fin; try assumption; try congruence; try (qfacts; lia).

  Lemma bdm70_no_ub pd : pd_ok cf buf pd -> no_ub (pt_evt_check_bdm70 pd).
  Proof.
    intros H. unfold pt_evt_check_bdm70.
    apply (scan_rule cf buf moves _ _ (fun _ _ => True)); auto using (scan_fuel_ok cf buf).
    - intros s pd0 pd' p _ _ _ _ _ _. unfold bdm70_step.
      destruct (pkt_pl p); try exact I; discriminate.
    - intros s pd0 e _ _ _. destruct e; discriminate.
  Qed.

  Lemma header_fup_no_ub pd : pd_ok cf buf pd -> no_ub (pt_evt_find_header_fup pd).
  Proof.
    intros H. unfold pt_evt_find_header_fup.
    apply (scan_rule cf buf moves _ _ (fun _ _ => True)); auto using (scan_fuel_ok cf buf).
    - intros s pd0 pd' p _ _ _ _ _ _. unfold find_header_fup_step.
      destruct (pkt_pl p); try exact I; discriminate.
    - intros s pd0 e _ _ _. discriminate.
  Qed.

  Lemma hfup_ok d ip : okd d -> wp (pt_evt_header_fup ip) (hdr d) (good_err d) d.
  Proof.
    intros H. destr_ok H. unfold pt_evt_header_fup. step. step. step.
    step; [step; apply wp_lift_ok; [apply bdm70_no_ub; exact Hpd|intros|intros]|]; repeat step; finh.
  Qed.
  Lemma hmode_ok d m : okd d -> wp (pt_evt_header_mode m) (hdr d) (good_err d) d.
  Proof. intros H. destr_ok H. unfold pt_evt_header_mode. repeat step; finh. Qed.
  Lemma hpip_ok d a b : okd d -> wp (pt_evt_header_pip a b) (hdr d) (good_err d) d.
  Proof. intros H. destr_ok H. unfold pt_evt_header_pip. repeat step; finh. Qed.
  Lemma hvmcs_ok d a : okd d -> wp (pt_evt_header_vmcs a) (hdr d) (good_err d) d.
  Proof. intros H. destr_ok H. unfold pt_evt_header_vmcs. repeat step; finh. Qed.
  Lemma hmnt_ok d a : okd d -> wp (pt_evt_header_mnt a) (hdr d) (good_err d) d.
  Proof. intros H. destr_ok H. unfold pt_evt_header_mnt. repeat step; finh. Qed.
  Lemma htsc_ok d a : okd d -> wp (pt_evt_header_tsc a) (hdr d) (good_err d) d.
  Proof. intros H. destr_ok H. unfold pt_evt_header_tsc. repeat step; finh. Qed.
  Lemma hcbr_ok d a : okd d -> wp (pt_evt_header_cbr a) (hdr d) (good_err d) d.
  Proof. intros H. destr_ok H. unfold pt_evt_header_cbr. repeat step; finh. Qed.
  Lemma htma_ok d a b : okd d -> wp (pt_evt_header_tma a b) (hdr d) (good_err d) d.
  Proof. intros H. destr_ok H. unfold pt_evt_header_tma. repeat step; finh. Qed.
  Lemma hmtc_ok d a : okd d -> wp (pt_evt_header_mtc a) (hdr d) (good_err d) d.
  Proof. intros H. destr_ok H. unfold pt_evt_header_mtc. repeat step; finh. Qed.
  Lemma hcyc_ok d a : okd d -> wp (pt_evt_header_cyc a) (hdr d) (good_err d) d.
  Proof. intros H. destr_ok H. unfold pt_evt_header_cyc. repeat step; finh. Qed.

  Lemma reads_lt pd p ps pd' : reads pd (ps ++ [p]) pd' -> pd_ok cf buf pd -> pd_at pd < length buf.
  Proof.
    intros H Hok. inversion H as [E1 E2 E3|x pd1 y p' ps' E Hr].
    - destruct ps; discriminate.
    - subst. pose proof (next_step cf buf pd moves Hok) as Hn.
      rewrite E in Hn. apply Hn.
  Qed.

  Definition is_end (d : evdec) : Prop :=
    pkt_pl (ed_pkt d) = P_psbend \/ pkt_pl (ed_pkt d) = P_ovf.
  Definition psb_post (d : evdec) (_ : bool) (d' : evdec) : Prop :=
    okd d' /\ at_ d < at_ d' /\ is_end d'.

  Lemma psb_header_ok fuel k : forall d slot, okd d -> rem buf (ed_pd d) < fuel ->
    slot = slot_of (ed_evq d) k -> k < qlen (ed_evq d) ->
    wp (psb_header fuel slot) (psb_post d) (good_err d) d.
  Proof.
    induction fuel as [|fuel IH]; intros d slot H Hf Hs Hk; [lia|]. cbn [psb_header].
    destr_ok H. apply wp_bind.
    eapply wp_fetch; [exact moves|exact Hpd| |].
    2: { intros pads e pd' G1 G2 G3 G4 G5. step. step. sd. cbn [pkt_pl]. step. fin; try lia. }
    intros pads p pd' G1 G2 G3 G4 G5 G6.
    set (d1 := set_pkt (set_pd d pd') p).
    assert (H1 : okd d1) by (unfold okd, ev_ok, d1; sd; fin).
    assert (Hlt : pd_at (ed_pd d) < length buf) by (eapply reads_lt; eauto).
    assert (Hrem : rem buf pd' < fuel) by (unfold rem in *; lia).
    assert (Hrec : forall (d2 : evdec), hdr d1 tt d2 -> wp (psb_header fuel slot) (psb_post d) (good_err d) d2).
    { intros d2 (F1 & F2 & F3 & F4).
      assert (Ha : at_ d < at_ d2) by (rewrite F2; unfold at_, d1; sd; lia).
      eapply wp_mono; [apply (IH d2 slot)| |].
      - exact F1.
      - unfold at_, rem in *. rewrite F2. unfold d1; sd. exact Hrem.
      - rewrite Hs. apply slot_begin. rewrite F3. reflexivity.
      - unfold d1 in F4; sd. lia.
      - intros a d' (K1 & K2 & K3). split; [exact K1|]. split; [lia|exact K3].
      - intros e d' (K1 & K2). split; [exact K1|]. lia. }
    assert (Hhdr : forall m : ST unit, wp m (hdr d1) (good_err d1) d1 ->
      wp (sbind m (fun _ => psb_header fuel slot)) (psb_post d) (good_err d) d1).
    { intros m Hm. apply wp_bind. eapply wp_mono; [exact Hm| |].
      - intros [] d' Hd. apply Hrec. exact Hd.
      - intros e d' (K1 & K2). split; [exact K1|]. unfold at_, d1 in *; sd. lia. }
    assert (Hself : hdr d1 tt d1) by (unfold hdr; auto).
    step. step. replace (ed_pkt d1) with p by reflexivity.
    assert (Hbad : forall e, wp (fail e) (psb_post d) (good_err d) d1).
    { intros e. step. split; [exact H1|]. unfold at_, d1; sd. lia. }
    destruct (pkt_pl p) eqn:Epl; try apply Hbad; try (apply Hrec; exact Hself).
    - destruct (ed_status d1) as [e|]; [apply Hbad|apply Hrec; exact Hself].
    - pose proof (qlen_rep _ _ Hq) as Hql.
      destruct (nth_error l k) as [[b e]|] eqn:En; [|apply nth_error_None in En; lia].
      assert (Hs1 : slot = slot_of (ed_evq d1) k) by exact Hs. rewrite Hs1.
      assert (Hq1 : qrep (ed_evq d1) l) by exact Hq.
      step. eapply wp_read_pos; [exact Hq1|exact En|].
      step. eapply wp_write_pos; [exact Hq1|lia|intros; sd]. step.
      unfold psb_post, is_end. unfold d1. fin; sd; auto.
    - apply Hhdr, hfup_ok, H1.
    - apply Hhdr, hmode_ok, H1.
    - apply Hhdr, hpip_ok, H1.
    - apply Hhdr, hvmcs_ok, H1.
    - apply Hhdr, hcbr_ok, H1.
    - apply Hhdr, htsc_ok, H1.
    - apply Hhdr, htma_ok, H1.
    - apply Hhdr, hmtc_ok, H1.
    - apply Hhdr, hcyc_ok, H1.
    - pose proof (qlen_rep _ _ Hq) as Hql.
      destruct (nth_error l k) as [[b e]|] eqn:En; [|apply nth_error_None in En; lia].
      assert (Hs1 : slot = slot_of (ed_evq d1) k) by exact Hs. rewrite Hs1.
      assert (Hq1 : qrep (ed_evq d1) l) by exact Hq.
      step.
      + step. eapply wp_read_pos; [exact Hq1|exact En|].
        step. eapply wp_write_pos; [exact Hq1|lia|intros; sd]. step.
        unfold psb_post, is_end. unfold d1. fin; sd; auto.
      + step. eapply wp_dequeue; [exact Hq1|intros; sd|intros; sd].
        * step; [step|apply wp_fail]; unfold d1 in *; sd; unfold psb_post, is_end; fin; sd; auto; lia.
        * apply Hbad.
    - apply Hhdr, hmnt_ok, H1.
  Qed.

  Lemma psb_ok d : okd d -> wp pt_evt_decode_psb (psb_post d) (good_err d) d.
  Proof.
    intros H. destr_ok H. unfold pt_evt_decode_psb. step. step. step; [step; fin; lia|].
    step. step. step.
    eapply wp_enqueue; [sd; eassumption| |sd; fin; lia].
    intros Hl q' Hq' Hb _. sd.
    eapply wp_mono; [apply (psb_header_ok _ (length l))| |].
    - unfold okd, ev_ok; sd; fin.
    - sd. apply (scan_fuel_ok cf buf). exact Hpd.
    - sd. rewrite (slot_begin (ed_evq d) q') by exact Hb. apply qrep_end. exact Hq.
    - sd. qfacts. lia.
    - intros a d' (K1 & K2 & K3). split; [exact K1|]. split; [exact K2|exact K3].
    - intros e d' K. exact K.
  Qed.
End SAFE.
