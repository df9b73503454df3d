(** C34: queries answer the control flow of the trace in order. *)

From Verif Require Import Base M_config M_pktdec M_tnt M_evq M_event M_evdec M_query
  S_core S_evdec S_evtrace S_query L_evsafe L_query L_query2 T_evdec T_evtrace.
From Coq Require Import List NArith PeanoNat Bool Lia.
Import ListNotations.
Open Scope nat_scope.

Section QUERY.
  Context (cf : config) (buf : list N) (base : nat).
  Hypothesis sized : callback_sized cf.
  Hypothesis freq : (cf_mtc_freq cf < 24)%N.
  Hypothesis small : (N.of_nat (length buf) + 1 < 2 ^ 31)%N.
  Hypothesis bytes : bytes_ok buf.

  (** No call of any history has undefined behaviour; only the search for a
      synchronization point backwards may take more rounds than given. *)
  Theorem C34_safe q : qry_reachable base cf buf q ->
    (forall o u, snd (qry_sync_step base q o) = UB u -> u = ub_fuel /\ exists n, o = Qs_backward n) /\
    (forall o, answer_ub (snd (qry_step q o)) = None).
  Proof.
    intros H. destruct (qry_reachable_rel cf buf sized freq small bytes base q H) as (Hr & s & Hs).
    split.
    - intros o u E. pose proof (sync_step_rel cf buf sized freq small bytes base q o Hr) as S.
      destruct (qry_sync_step base q o) as [q' r]. cbn [snd] in E. subst r.
      destruct S as (-> & S). split; [reflexivity|]. destruct o; try discriminate. eauto.
    - intros o. destruct (step_rel q s o Hs) as (-> & _). apply spec_no_ub.
  Qed.

  (** Before a successful synchronization there are no answers. *)
  Theorem C34_unsynced q q' o e ops : qry_reachable base cf buf q ->
    q' = pt_qry_decoder_init cf buf \/ qry_sync_step base q o = (q', Err e) ->
    Forall (fun a => answer_error a = Some pte_nosync) (answers qry_step q' ops).
  Proof.
    intros H Hq'. assert (R : qrel q' unsynced).
    { destruct Hq' as [->|E]; [apply (unsynced_rel cf buf freq small); reflexivity|].
      destruct (qry_reachable_rel cf buf sized freq small bytes base q H) as (Hr & _).
      pose proof (sync_step_rel cf buf sized freq small bytes base q o Hr) as S. rewrite E in S. apply S. }
    rewrite (answers_rel _ _ ops R). clear.
    induction ops as [|o ops IH]; [constructor|]. cbn [answers].
    destruct o; cbn; (constructor; [reflexivity|exact IH]).
  Qed.

  (** After a successful synchronization, the decoder answers every sequence of queries
      as the abstract decoder does that knows the events which an event decoder, synchronized
      to the same place, delivers from there.  The start address is that of the
      first status event that enables tracing, and the status tells whether there is one
      and whether an event is pending. *)
  Definition after_sync (q' : qrydec) (evs : list event) (err : pte) : Prop :=
    (exists d0 o d, reachable base cf buf d0 /\ evt_step base d0 o = (d, Ok None) /\
       stream d evs err) /\
    forall ops, answers qry_step q' ops = answers spec_step (mk_qspec [] evs err) ops.

  Theorem C34_queries q o q' ip st : qry_reachable base cf buf q ->
    qry_sync_step base q o = (q', Ok (ip, st)) ->
    exists evs err, after_sync q' evs err /\
      (forall a, ip = Some a -> exists pre e post b, evs = pre ++ e :: post /\
         Forall (fun e => ev_status_update e = true) (pre ++ [e]) /\ ev_var e = Ev_enabled a b) /\
      st = match o with
           | Qs_backward _ => 0%N
           | _ => N.lor (match ip with Some _ => 0 | None => pts_ip_suppressed end)
                        (qs_flags (mk_qspec [] evs err))
           end.
  Proof.
    intros H E. destruct (qry_reachable_rel cf buf sized freq small bytes base q H) as (Hr & _).
    pose proof (sync_step_rel cf buf sized freq small bytes base q o Hr) as S. rewrite E in S.
    destruct S as (_ & d & evs & err & _ & (d0 & o0 & F1 & F2 & F3) & Hq & Hst & Hf).
    exists evs, err. split; [|split].
    - split; [exists d0, o0, d; auto|]. intros ops. apply answers_rel. exact Hq.
    - intros a ->. exact (proj2 Hst).
    - destruct o; exact Hf.
  Qed.

  (** Forward and to a given place, the events are those that pt_evt_next() delivers after
      the same synchronization of the event decoder in [q], and the address is the first address
      that the status updates among them give. *)
  Theorem C34_same_events q q' r : qry_reachable base cf buf q ->
    (pt_qry_sync_forward base q = (q', Ok r) -> exists d evs err,
       pt_evt_sync_forward base (qd_evdec q) = (d, Ok tt) /\ stream d evs err /\ first_address d (fst r) /\
       forall ops, answers qry_step q' ops = answers spec_step (mk_qspec [] evs err) ops) /\
    (forall offset, pt_qry_sync_set offset q = (q', Ok r) -> exists d evs err,
       pt_evt_sync_set offset (qd_evdec q) = (d, Ok tt) /\ stream d evs err /\ first_address d (fst r) /\
       forall ops, answers qry_step q' ops = answers spec_step (mk_qspec [] evs err) ops).
  Proof.
    intros H. destruct (qry_reachable_rel cf buf sized freq small bytes base q H) as (Hr & _).
    assert (G : forall f o, (forall d, evt_step base d o = (fst (f d), let* _ := snd (f d) in Ok None)) ->
      qry_sync f q = (q', Ok r) -> exists d evs err, f (qd_evdec q) = (d, Ok tt) /\ stream d evs err /\ first_address d (fst r) /\
       forall ops, answers qry_step q' ops = answers spec_step (mk_qspec [] evs err) ops).
    { intros f o Ho E. unfold qry_sync in E. cbn [pt_qry_reset qd_evdec] in E.
      destruct (f (qd_evdec q)) as [d fr] eqn:Ef.
      pose proof (evt_step_sync cf buf sized freq small bytes base f _ d fr o Hr Ef Ho) as Hs.
      destruct fr as [[]|e|u]; try discriminate. destruct Hs as (Hd & Hx).
      pose proof (start_rel cf buf sized freq small bytes base (set_evdec (pt_qry_reset q) d) eq_refl eq_refl Hd Hx) as St.
      change (mk_qrydec (qd_evdec q) (qd_event q) (Some pte_nosync) pt_tnt_cache_init M_time.pt_time_init)
        with (pt_qry_reset q) in E. rewrite E in St.
      destruct r as [ip st]. destruct St as (_ & evs & err & (_ & _ & _ & _ & Hst) & Hq & Hss & _).
      exists d, evs, err. split; [reflexivity|]. split; [exact Hst|]. split; [apply Hss|]. intros ops. apply answers_rel. exact Hq. }
    split; [apply (G _ Evt_sync_forward); reflexivity|].
    intros offset. apply (G _ (Evt_sync_set offset)). reflexivity.
  Qed.
End QUERY.

(** What follows for the user, whatever they query and in which order: the branch
    outcomes and events they learn are, in order, those of the trace, and so are the
    targets and events.  Nothing is skipped, repeated or made up. *)
Theorem C34_in_order cf buf base q' evs err ops : after_sync cf buf base q' evs err ->
  let learned := flat_map fact_learned (answers qry_step q' ops) in
  let facts := flat_map facts_of evs in
  prefix (filter not_tip learned) (filter not_tip facts) /\
  prefix (filter not_bit learned) (filter not_bit facts).
Proof.
  intros (_ & H). rewrite H. split; [apply (run_rest not_tip (or_introl (fun _ => eq_refl)) ops (mk_qspec [] evs err))|
    apply (run_rest not_bit (or_intror (fun _ => eq_refl)) ops (mk_qspec [] evs err))].
Qed.

(** Once pt_qry_cond_branch() or pt_qry_event() reports the end of the trace, all was
    told. *)
Theorem C34_complete cf buf base q' evs err ops o a : after_sync cf buf base q' evs err ->
  o = Q_cond \/ o = Q_event ->
  answers qry_step q' (ops ++ [o]) = answers qry_step q' ops ++ [a] -> answer_error a = Some pte_eos ->
  let learned := flat_map fact_learned (answers qry_step q' ops) in
  let facts := flat_map facts_of evs in
  filter not_tip learned = filter not_tip facts /\ filter not_bit learned = filter not_bit facts.
Proof.
  intros (_ & H) Ho E Ha. cbv zeta.
  assert (G : forall p, good_filter p -> filter p (flat_map fact_learned (answers qry_step q' ops)) =
    filter p (flat_map facts_of evs)).
  { intros p Hp.
    pose proof (run_end p Hp ops (mk_qspec [] evs err) o) as R. rewrite <- H, E in R.
    change (rest (mk_qspec [] evs err)) with (flat_map facts_of evs) in R. rewrite R.
    - rewrite flat_map_app. cbn [flat_map]. destruct a as [[|e|]|[|e|]|[|e|]]; try discriminate;
        cbn [fact_learned app]; rewrite app_nil_r; reflexivity.
    - destruct Ho; subst o; discriminate.
    - exists a. split; [|exact Ha]. apply last_last. }
  split; apply G; [left|right]; reflexivity.
Qed.
Print Assumptions C34_safe.
Print Assumptions C34_unsynced.
Print Assumptions C34_queries.
Print Assumptions C34_same_events.
Print Assumptions C34_in_order.
Print Assumptions C34_complete.

(** An example: the queries of a user who follows the trace. *)
Definition query1 : qrydec := fst (pt_qry_sync_forward 0 (pt_qry_decoder_init config0 trace1)).
Definition queries1 : list qry_op :=
  [Q_event; Q_event; Q_event; Q_cond; Q_cond; Q_cond; Q_indirect; Q_event; Q_event; Q_event].
Definition shown (a : qry_answer) : option (option bool * option N * option evar * N) :=
  match a with
  | A_cond (Ok (b, f)) => Some (Some b, None, None, f)
  | A_indirect (Ok (ip, f)) => Some (None, ip, None, f)
  | A_event (Ok (Some e, f)) => Some (None, None, Some (ev_var e), f)
  | _ => None
  end.
Example C34_ex :
  callback_sized config0 /\ (cf_mtc_freq config0 < 24)%N /\
  qry_reachable 0 config0 trace1 (pt_qry_decoder_init config0 trace1) /\
  snd (qry_sync_step 0 (pt_qry_decoder_init config0 trace1) Qs_forward) =
    Ok (None, N.lor pts_ip_suppressed pts_event_pending) /\
  map shown (answers qry_step query1 queries1) =
    [Some (None, None, Some (Ev_disabled 0), pts_event_pending);
     Some (None, None, Some (Ev_enabled 4096 false), 0%N);
     None; Some (Some true, None, None, 0%N); Some (Some false, None, None, 0%N);
     None; Some (None, Some 4112%N, None, pts_event_pending);
     Some (None, None, Some (Ev_async_branch 4128 4144), pts_event_pending);
     Some (None, None, Some (Ev_disabled 0), pts_eos); None] /\
  answer_error (last (answers qry_step query1 queries1) (A_event (Ok (None, 0%N)))) = Some pte_eos.
Proof.
  split; [exact I|]. split; [reflexivity|]. split; [constructor|].
  split; [vm_compute; reflexivity|]. split; vm_compute; reflexivity.
Qed.

(** pt_qry_sync_backward() does not tell that there is no start address nor that an
    event is pending, at the very place where pt_qry_sync_set() does. *)
Theorem C34_backward_flags_refuted :
  let q := fst (pt_qry_sync_forward 0 (pt_qry_decoder_init config0 (trace1 ++ trace1))) in
  let q2 := fst (pt_qry_sync_forward 0 q) in
  snd (pt_qry_sync_backward 5 0 q2) = Ok (None, 0%N) /\
  snd (pt_qry_sync_set 0 q2) = Ok (None, N.lor pts_ip_suppressed pts_event_pending).
Proof. vm_compute. auto. Qed.
Print Assumptions C34_backward_flags_refuted.
