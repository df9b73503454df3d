(** C73: the time a query decoder tells is that of the last event it used. *)

From Verif Require Import Base M_config M_pktdec M_tnt M_time M_evq M_event M_evdec M_query
  S_core S_evdec S_evtrace S_query L_evsafe L_query L_query2 L_stamp2 T_evdec T_evtrace T_query.
From Verif Require L_stamp.
From Coq Require Import List NArith PeanoNat Bool Lia.
Import ListNotations.
Open Scope nat_scope.

(** The answer of pt_qry_time() that fits the time in an event. *)
Definition time_of (e : event) : N * N * N * res unit :=
  (ev_tsc e, ev_lost_mtc e, ev_lost_cyc e, if ev_has_tsc e then Ok tt else Err pte_no_time).
(** The state after a sequence of calls. *)
Definition after {S O A : Type} (step : S -> O -> S * A) (s : S) (ops : list O) : S :=
  fold_left (fun s o => fst (step s o)) ops s.

Section TOLD.
  Context (cf : config) (buf : list N) (base : nat).
  Hypothesis sized : callback_sized cf.
  Hypothesis freq : (cf_mtc_freq cf < 24)%N.
  Hypothesis small : (N.of_nat (length buf) + 1 < 2 ^ 31)%N.
  Hypothesis bytes : bytes_ok buf.

  Lemma reachable_timed q : qry_reachable base cf buf q -> exists s, qrel q s /\ timed q.
  Proof.
    induction 1 as [|q o q' r H IH E Hu|q o q' a H IH E].
    - exists unsynced. split; [apply (unsynced_rel cf buf freq small); reflexivity|].
      intros X. discriminate.
    - destruct (qry_reachable_rel cf buf sized freq small bytes base q H) as (Hr & _).
      pose proof (sync_step_rel cf buf sized freq small bytes base q o Hr) as S. rewrite E in S.
      destruct r as [[ip st]|e|u]; [| |destruct (Hu u eq_refl)].
      + destruct S as (_ & d & evs & err & _ & _ & Hq & _). exists (mk_qspec [] evs err).
        split; [exact Hq|]. apply (sync_step_timed _ _ _ _ _ E).
      + destruct S as (_ & Hq). exists unsynced. split; [exact Hq|]. intros X.
        destruct Hq as (_ & _ & Hq). rewrite X in Hq. destruct Hq as (x & l & _ & Hq & _). discriminate.
    - destruct IH as (s & Hs & Ht). exists (fst (spec_step s o)).
      pose proof (step_rel q s o Hs) as [_ G1]. pose proof (step_timed q s o Hs Ht) as [G2 _].
      rewrite E in G1, G2. auto.
  Qed.

  (** The time after pt_qry_event() is the time in the event it returned. *)
  Theorem C73_event q q' e st : qry_reachable base cf buf q ->
    pt_qry_event q = (q', Ok (Some e, st)) -> is_overflow (ev_var e) = false ->
    pt_qry_time q' = time_of e.
  Proof.
    intros H E Ho. destruct (reachable_timed q H) as (s & Hs & Ht).
    pose proof (step_timed q s Q_event Hs Ht) as [_ G].
    pose proof (step_rel q s Q_event Hs) as [R _]. cbn [qry_step] in R, G. rewrite E in R, G.
    cbn [fst snd] in R, G. rewrite <- R in G. destruct G as [G _]; [discriminate|].
    cbn [spec_step] in R, G. unfold spec_event in R, G.
    destruct (qs_bits s); [|discriminate]. destruct (qs_evs s) as [|x evs] eqn:Ev; [discriminate|].
    destruct (plain x); [|discriminate]. injection R as <- _. exact (G [] e eq_refl Ho).
  Qed.

  (** After a synchronization, for every sequence of calls: a query that has an answer
      leaves the time of the last event that it used up, among the events of the trace; if
      it needed no further event, it leaves the time as it is. *)
  Theorem C73_queries q0 o0 q r : qry_reachable base cf buf q0 ->
    qry_sync_step base q0 o0 = (q, Ok r) ->
    exists evs err, after_sync cf buf base q evs err /\
    forall ops o,
      let q1 := after qry_step q ops in
      let s1 := after spec_step (mk_qspec [] evs err) ops in
      let q2 := fst (qry_step q1 o) in
      let s2 := fst (spec_step s1 o) in
      fact_learned (snd (qry_step q1 o)) <> [] ->
      (forall used e, qs_evs s1 = used ++ e :: qs_evs s2 -> is_overflow (ev_var e) = false ->
         pt_qry_time q2 = time_of e) /\
      (qs_evs s2 = qs_evs s1 -> pt_qry_time q2 = pt_qry_time q1).
  Proof.
    intros H E. destruct (qry_reachable_rel cf buf sized freq small bytes base q0 H) as (Hr & _).
    pose proof (sync_step_rel cf buf sized freq small bytes base q0 o0 Hr) as S. rewrite E in S.
    destruct r as [ip st].
    destruct S as (_ & d & evs & err & _ & (d0 & o1 & F1 & F2 & F3) & Hq & _).
    exists evs, err. split.
    { split; [exists d0, o1, d; auto|]. intros ops. apply answers_rel. exact Hq. }
    pose proof (sync_step_timed _ _ _ _ _ E) as Ht. intros ops o.
    assert (G : forall ops q s, qrel q s -> timed q ->
      qrel (after qry_step q ops) (after spec_step s ops) /\ timed (after qry_step q ops)).
    { clear. induction ops as [|o ops IH]; intros q s Hq Ht; [auto|]. cbn [after fold_left].
      apply IH; [apply step_rel; exact Hq|apply (step_timed q s o Hq Ht)]. }
    destruct (G ops q _ Hq Ht) as [Hq1 Ht1]. cbv zeta.
    pose proof (step_rel _ _ o Hq1) as [R _]. pose proof (step_timed _ _ o Hq1 Ht1) as [_ T].
    rewrite R. intros Hl. destruct (T Hl) as [T1 T2]. split.
    - intros used e Hu Ho. apply (T1 used e Hu Ho).
    - intros X. unfold pt_qry_time. rewrite (T2 X). reflexivity.
  Qed.
End TOLD.
Print Assumptions C73_event.
Print Assumptions C73_queries.

(** An example: PSB+ with a TSC, another TSC, CBR, then TIP.PGE and TNT with an MTC-less
    third TSC between them. *)
Definition psb73 : list N := flat_map (fun _ => [2; 0x82]%N) (repeat tt 8).
Definition tsc73 (n : N) : list N := [0x19; n; 0; 0; 0; 0; 0; 0]%N.
Definition trace73 : list N :=
  psb73 ++ tsc73 1 ++ [2; 0x23]%N ++ tsc73 2 ++ [2; 3; 5; 0]%N ++ tsc73 3 ++
  [0x51; 0; 0x10; 0; 0]%N ++ tsc73 4 ++ [0x0c]%N.
Definition sync73 (buf : list N) : qrydec := fst (pt_qry_sync_forward 0 (pt_qry_decoder_init config0 buf)).
Fixpoint times73 (q : qrydec) (ops : list qry_op) : list (list fact * N) :=
  match ops with
  | [] => []
  | o :: ops' => let (q', a) := qry_step q o in
                 (fact_learned a, fst (fst (fst (pt_qry_time q')))) :: times73 q' ops'
  end.
Definition told73 (x : list fact * N) : list (option evar * N) * N :=
  (map (fun f => match f with F_event e => (Some (ev_var e), ev_tsc e) | _ => (None, 0%N) end) (fst x), snd x).

Example C73_ex :
  callback_sized config0 /\ (cf_mtc_freq config0 < 24)%N /\
  forallb (fun b => b <? 256)%N trace73 = true /\
  snd (pt_qry_sync_forward 0 (pt_qry_decoder_init config0 trace73)) =
    Ok (None, N.lor pts_ip_suppressed pts_event_pending) /\
  map told73 (times73 (sync73 trace73) [Q_event; Q_event; Q_event; Q_cond]) =
    [([(Some (Ev_disabled 0), 1)], 1); ([(Some (Ev_cbr 5), 2)], 2);
     ([(Some (Ev_enabled 4096 false), 3)], 3); ([(None, 0)], 4)]%N.
Proof. split; [exact I|]. split; [reflexivity|]. split; [reflexivity|]. split; vm_compute; reflexivity. Qed.

(** The claim does not hold for overflow events: such an event carries the time of the
    OVF packet, while the decoder's time is that at the FUP that follows. *)
Definition trace73o : list N :=
  psb73 ++ tsc73 1 ++ [2; 0x23]%N ++ [2; 0xf3]%N ++ tsc73 2 ++ [0x5d; 0; 0x10; 0; 0]%N.
Theorem C73_overflow_refuted :
  exists q e st, qry_reachable 0 config0 trace73o q /\
    snd (pt_qry_event q) = Ok (Some e, st) /\ is_overflow (ev_var e) = true /\
    pt_qry_time (fst (pt_qry_event q)) = (2, 0, 0, Ok tt)%N /\ time_of e = (1, 0, 0, Ok tt)%N.
Proof.
  exists (after qry_step (sync73 trace73o) [Q_event]). eexists _, _. split.
  - cbn [after fold_left].
    eapply (qreach_query 0 config0 trace73o (sync73 trace73o) Q_event); [|apply surjective_pairing].
    refine (qreach_sync 0 config0 trace73o (pt_qry_decoder_init config0 trace73o) Qs_forward
      (fst (pt_qry_sync_forward 0 (pt_qry_decoder_init config0 trace73o)))
      (snd (pt_qry_sync_forward 0 (pt_qry_decoder_init config0 trace73o))) _ _ _).
    + constructor.
    + unfold qry_sync_step. apply surjective_pairing.
    + assert (X : match snd (pt_qry_sync_forward 0 (pt_qry_decoder_init config0 trace73o)) with
                  | UB _ => false | _ => true end = true) by (vm_compute; reflexivity).
      intros u E. clear - E X. rewrite E in X. clear E. discriminate X.
  - split; [vm_compute; reflexivity|]. split; [vm_compute; reflexivity|].
    split; vm_compute; reflexivity.
Qed.

(** Nor does it hold after a query without an answer: pt_qry_cond_branch() then already
    leaves the time of the event that comes next. *)
Theorem C73_failed_refuted :
  map told73 (times73 (sync73 trace73) [Q_event; Q_cond; Q_event]) =
    [([(Some (Ev_disabled 0), 1)], 1); ([], 2); ([(Some (Ev_cbr 5), 2)], 2)]%N /\
  answer_error (nth 1 (answers qry_step (sync73 trace73) [Q_event; Q_cond]) (A_cond (UB ub_fuel))) =
    Some pte_bad_query.
Proof. split; vm_compute; reflexivity. Qed.
Print Assumptions C73_overflow_refuted.
Print Assumptions C73_failed_refuted.
