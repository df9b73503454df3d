(** The event decoder: memory safety and termination (C33). *)

From Verif Require Import Base M_packet M_config M_pktdec M_sync M_evq M_event M_evdec
  S_evdec S_sync L_evqpos L_evdec L_evsafe L_evnext.
From Coq Require Import List NArith PeanoNat Bool Lia.
Import ListNotations.
Open Scope nat_scope.

Section SAFE.
  Context (cf : config) (buf : list N).
  Hypothesis sized : callback_sized cf.
  Hypothesis freq : (cf_mtc_freq cf < 24)%N.
  Hypothesis small : (N.of_nat (length buf) + 1 < 2 ^ 31)%N.
  Hypothesis bytes : bytes_ok buf.

  Lemma moves : callback_moves cf.
  Proof.
    intros cb b p v E. unfold callback_sized in sized. rewrite E in sized. apply sized.
  Qed.

  Lemma init_ok : okd cf buf (pt_evt_decoder_init cf buf).
  Proof.
    split; [repeat split; cbn; lia|]. split; [exists []; apply qrep_init|exact I].
  Qed.

  Lemma next_keeps d d' r : okd cf buf d -> pt_evt_next d = (d', r) ->
    okd cf buf d' /\ evt_pos d <= evt_pos d' /\ no_ub r /\
    (is_ok r = true -> left_ buf d' < left_ buf d).
  Proof.
    intros H E. pose proof (next_ok cf buf moves freq small d H) as W. unfold wp in W.
    rewrite E in W. destruct r as [e|e|u]; [| |destruct W].
    - destruct W as (W1 & W2 & W3). split; [exact W1|]. split; [exact W2|].
      split; [discriminate|auto].
    - destruct W as (W1 & W2). split; [exact W1|]. split; [exact W2|].
      split; [discriminate|]. intros Eo. discriminate Eo.
  Qed.

  Lemma step_ok base d o : okd cf buf d ->
    match evt_step base d o with
    | (_, UB u) => u = ub_fuel /\ exists n, o = Evt_sync_backward n
    | (d', _) => okd cf buf d'
    end.
  Proof.
    intros H. destruct o as [|n|off|]; cbn [evt_step].
    - pose proof (sync_then_start cf buf moves freq small bytes base Op_sync_forward d eq_refl H) as W.
      unfold wp in W. unfold pt_evt_sync_forward.
      change (fun pd : pktdec => pkt_step base pd Op_sync_forward) with (pt_pkt_sync_forward base) in W.
      destruct (sbind _ _ d) as [d' [a|e|u]]; cbn [fst snd bind]; [apply W|apply W|destruct W].
    - pose proof (sync_backward_ok cf buf moves freq small bytes n base d H) as W.
      destruct (pt_evt_sync_backward n base d) as [d' [a|e|u]]; cbn [fst snd bind];
        [exact W|exact W|]. split; [exact W|exists n; reflexivity].
    - pose proof (sync_then_start cf buf moves freq small bytes base (Op_sync_set off) d eq_refl H) as W.
      unfold wp in W. unfold pt_evt_sync_set.
      change (fun pd : pktdec => pkt_step base pd (Op_sync_set off))
        with (fun pd => pt_pkt_sync_set pd off) in W.
      destruct (sbind _ _ d) as [d' [a|e|u]]; cbn [fst snd bind]; [apply W|apply W|destruct W].
    - destruct (pt_evt_next d) as [d' r] eqn:E. destruct (next_keeps d d' r H E) as (W1 & _ & W2 & _).
      destruct r as [e|e|u]; cbn [bind]; [exact W1|exact W1|]. destruct (W2 u eq_refl).
  Qed.

  Lemma reachable_ok base d : reachable base cf buf d -> okd cf buf d.
  Proof.
    intros H. induction H as [|d o d' r H IH E Hn]; [apply init_ok|].
    pose proof (step_ok base d o IH) as S. rewrite E in S.
    destruct r as [a|e|u]; auto. destruct (Hn u eq_refl).
  Qed.

  (** C33: no call of any history has undefined behaviour: it neither reads outside the
      trace nor fails to return.  Only the search for a synchronization point backwards
      may take more rounds than given.  The position stays in the trace, or one byte
      behind it. *)
  Theorem C33_safe base ops o r pos :
    In (o, r, pos) (evt_run base (pt_evt_decoder_init cf buf) ops) ->
    match r with
    | UB u => u = ub_fuel /\ exists n, o = Evt_sync_backward n
    | _ => pos <= S (length buf)
    end.
  Proof.
    pose proof init_ok as H. revert H. generalize (pt_evt_decoder_init cf buf).
    induction ops as [|o' ops IH]; intros d H Hin; [destruct Hin|].
    cbn [evt_run] in Hin. pose proof (step_ok base d o' H) as S.
    destruct (evt_step base d o') as [d' r'] eqn:E. destruct Hin as [Hin|Hin].
    - injection Hin as -> -> <-. destruct r as [a|e|u]; [apply S|apply S|exact S].
    - destruct r' as [a|e|u]; [apply (IH d' S Hin)|apply (IH d' S Hin)|destruct Hin].
  Qed.

  (** C33: pt_evt_next() always returns, and never moves backwards. *)
  Theorem C33_forward base d d' r : reachable base cf buf d -> pt_evt_next d = (d', r) ->
    no_ub r /\ evt_pos d <= evt_pos d' <= S (length buf).
  Proof.
    intros H E. destruct (next_keeps d d' r (reachable_ok base d H) E) as (W1 & W2 & W3 & _).
    split; [exact W3|]. split; [exact W2|]. apply W1.
  Qed.

  (** C33: only finitely many events follow each other; then pt_evt_next() reports an
      error, at the latest the end of the trace. *)
  Theorem C33_finite base d n : reachable base cf buf d -> delivers n d ->
    n <= 17 * (3 + length buf).
  Proof.
    intros H Hd. apply reachable_ok in H.
    enough (n <= left_ buf d) by (pose proof (left_bound cf buf freq small d H); lia).
    revert d H Hd. induction n as [|n IH]; intros d H Hd; [lia|].
    destruct Hd as (d' & e & E & Hd). destruct (next_keeps d d' _ H E) as (W1 & _ & _ & W2).
    specialize (IH d' W1 Hd). specialize (W2 eq_refl). lia.
  Qed.
End SAFE.
Print Assumptions C33_safe.
Print Assumptions C33_forward.
Print Assumptions C33_finite.

(** A trace: PSB, PSBEND, TIP.PGE, TNT, TIP, FUP and TIP, TIP.PGD. *)
Definition trace1 : list N :=
  (psb_bytes ++ [0x02; 0x23;  0x31; 0x00; 0x10;  0x0c;  0x2d; 0x10; 0x10;
                 0x3d; 0x20; 0x10;  0x2d; 0x30; 0x10;  0x01])%N.
Example C33_ex :
  callback_sized config0 /\ (cf_mtc_freq config0 < 24)%N /\
  map (fun x => let '(_, r, pos) := x in
                (match r with Ok (Some e) => Some (ev_var e) | _ => None end, pos))
      (evt_run 0 (pt_evt_decoder_init config0 trace1) (Evt_sync_forward :: repeat Evt_next 7)) =
  [(None, 18); (Some (Ev_disabled 0), 18); (Some (Ev_enabled 4096 false), 21);
   (Some (Ev_tnt 2 2), 25); (Some (Ev_tip 4112), 25); (Some (Ev_async_branch 4128 4144), 31);
   (Some (Ev_disabled 0), 32); (None, 32)].
Proof. split; [exact I|]. split; [reflexivity|]. vm_compute. reflexivity. Qed.

(** The bound on the number of events needs the condition on the callback: if it
    answers with size zero, a single call of pt_evt_next() never ends. *)
Definition zero_cb : config :=
  mk_config (Some (fun _ _ => Cb_size 0 0)) no_errata 0 0 0 0 false false no_filter.
Definition trace_unknown : list N := (psb_bytes ++ [0x02; 0x23; 0x05])%N.
Lemma fetch_again fuel d d1 d2 : pt_evt_decode_packet d = (d1, Ok true) -> ed_event d1 = None ->
  pt_evt_fetch_packet (set_bound d1 false) = (d2, Ok false) ->
  fetch_event (S fuel) d = fetch_event fuel d2.
Proof.
  intros E1 E2 E3. cbn [fetch_event]. unfold sbind. rewrite E1. cbn [negb get]. rewrite E2.
  cbn [modify]. rewrite E3. reflexivity.
Qed.

Lemma fetch_forever d : pt_evt_decode_packet d = (d, Ok true) -> ed_event d = None ->
  pt_evt_fetch_packet (set_bound d false) = (d, Ok false) ->
  forall fuel, snd (fetch_event fuel d) = UB ub_fuel.
Proof.
  intros E1 E2 E3 fuel. induction fuel as [|fuel IH]; [reflexivity|].
  rewrite (fetch_again fuel d d d E1 E2 E3). exact IH.
Qed.

Theorem C33_callback_refuted :
  exists d d' e, pt_evt_sync_forward 0 (pt_evt_decoder_init zero_cb trace_unknown) = (d, Ok tt) /\
    pt_evt_next d = (d', Ok e) /\ forall fuel, snd (fetch_event fuel d') = UB ub_fuel.
Proof.
  assert (H : exists d d' e d1 d2,
    pt_evt_sync_forward 0 (pt_evt_decoder_init zero_cb trace_unknown) = (d, Ok tt) /\
    pt_evt_next d = (d', Ok e) /\ pt_evt_decode_packet d' = (d1, Ok true) /\ ed_event d1 = None /\
    pt_evt_fetch_packet (set_bound d1 false) = (d2, Ok false) /\
    pt_evt_decode_packet d2 = (d2, Ok true) /\ ed_event d2 = None /\
    pt_evt_fetch_packet (set_bound d2 false) = (d2, Ok false)).
  { do 5 eexists. split; [vm_compute; reflexivity|]. split; [vm_compute; reflexivity|].
    split; [vm_compute; reflexivity|]. split; [vm_compute; reflexivity|].
    split; [vm_compute; reflexivity|]. split; [vm_compute; reflexivity|].
    split; [vm_compute; reflexivity|]. vm_compute; reflexivity. }
  destruct H as (d & d' & e & d1 & d2 & H1 & H2 & H3 & H4 & H5 & H6 & H7 & H8).
  exists d, d', e. split; [exact H1|]. split; [exact H2|]. intros [|fuel]; [reflexivity|].
  rewrite (fetch_again fuel d' d1 d2 H3 H4 H5). apply fetch_forever; assumption.
Qed.
Print Assumptions C33_callback_refuted.

(** A trace that ends with two adjacent PSB's: pt_evt_sync_backward() never returns. *)
Definition trace_psbs : list N := (psb_bytes ++ psb_bytes)%N.

Lemma inner_again fuel sync d d1 : with_pd (pt_pkt_sync_backward 0) d = (d1, Ok tt) ->
  backward_inner (S fuel) 0 sync d =
  if Nat.leb sync (evt_pos d1) then backward_inner fuel 0 sync d1 else (d1, Ok tt).
Proof.
  intros E. cbn [backward_inner]. unfold sbind at 1. rewrite E.
  unfold sbind, get. destruct (Nat.leb sync (evt_pos d1)); reflexivity.
Qed.

Lemma inner_forever sync d : with_pd (pt_pkt_sync_backward 0) d = (d, Ok tt) ->
  Nat.leb sync (evt_pos d) = true ->
  forall fuel, snd (backward_inner fuel 0 sync d) = UB ub_fuel.
Proof.
  intros E1 E2 fuel. induction fuel as [|fuel IH]; [reflexivity|].
  rewrite (inner_again fuel sync d d E1), E2. exact IH.
Qed.

Lemma outer_again fuel start sync d d1 d2 r :
  backward_inner (S fuel) 0 sync (pt_evt_reset d) = (d1, Ok tt) ->
  pt_evt_start d1 = (d2, r) -> no_ub r -> Nat.ltb (evt_pos d2) start = false ->
  backward_outer (S fuel) 0 start sync d = backward_outer fuel 0 start (evt_pos d1) d2.
Proof.
  intros E1 E2 Hn E3.
  change (backward_outer (S fuel) 0 start sync d) with
    ((run backward_inner (S fuel) 0 sync;
      do d <- get;
      let sync := evt_pos d in
      fun d =>
        let (d', r) := pt_evt_start d in
        match r with
        | UB u => (d', UB u)
        | _ => if Nat.ltb (evt_pos d') start then (d', r)
               else backward_outer fuel 0 start sync d'
        end) (pt_evt_reset d)).
  unfold sbind at 1. rewrite E1. unfold sbind, get. cbv zeta. rewrite E2.
  destruct r as [a|e|u]; [| |destruct (Hn u eq_refl)]; rewrite E3; reflexivity.
Qed.

Lemma outer_stuck fuel start sync d :
  snd (backward_inner (S fuel) 0 sync (pt_evt_reset d)) = UB ub_fuel ->
  snd (backward_outer (S fuel) 0 start sync d) = UB ub_fuel.
Proof.
  intros E. cbn [backward_outer]. unfold sbind at 1, modify. unfold sbind at 1.
  destruct (backward_inner (S fuel) 0 sync (pt_evt_reset d)) as [d1 r]. cbn [snd] in E.
  rewrite E. reflexivity.
Qed.

Theorem C33_backward_refuted : forall fuel,
  snd (pt_evt_sync_backward fuel 0 (pt_evt_decoder_init config0 trace_psbs)) = UB ub_fuel.
Proof.
  assert (H : exists d1 d2 d3,
    with_pd (pt_pkt_sync_backward 0) (pt_evt_reset (pt_evt_decoder_init config0 trace_psbs)) = (d1, Ok tt) /\
    Nat.leb 32 (evt_pos d1) = false /\ evt_pos d1 = 16 /\
    pt_evt_start d1 = (d2, Err pte_eos) /\ Nat.ltb (evt_pos d2) 32 = false /\
    with_pd (pt_pkt_sync_backward 0) (pt_evt_reset d2) = (d3, Ok tt) /\
    Nat.leb 16 (evt_pos d3) = true /\
    with_pd (pt_pkt_sync_backward 0) d3 = (d3, Ok tt)).
  { do 3 eexists. split; [vm_compute; reflexivity|]. split; [vm_compute; reflexivity|].
    split; [vm_compute; reflexivity|]. split; [vm_compute; reflexivity|].
    split; [vm_compute; reflexivity|]. split; [vm_compute; reflexivity|].
    split; [vm_compute; reflexivity|]. vm_compute; reflexivity. }
  destruct H as (d1 & d2 & d3 & H1 & H2 & H3 & H4 & H5 & H6 & H7 & H8).
  remember (pt_evt_decoder_init config0 trace_psbs) as d0 eqn:Hd0.
  assert (E : forall fuel, pt_evt_sync_backward fuel 0 d0 = backward_outer fuel 0 32 32 d0).
  { assert (P1 : pd_pos (ed_pd d0) = None) by (subst d0; reflexivity).
    assert (P2 : length (pd_buf (ed_pd d0)) = 32) by (subst d0; reflexivity).
    intros fuel. unfold pt_evt_sync_backward, sbind, get. rewrite P1, P2. reflexivity. }
  clear Hd0. intros [|fuel]; [rewrite E; reflexivity|]. rewrite E.
  rewrite (outer_again fuel 32 32 d0 d1 d2 (Err pte_eos)); auto; [|rewrite (inner_again fuel 32 _ d1 H1), H2; reflexivity|discriminate].
  rewrite H3. destruct fuel as [|fuel]; [reflexivity|]. apply outer_stuck.
  rewrite (inner_again fuel 16 _ d3 H6), H7. apply inner_forever; assumption.
Qed.
Print Assumptions C33_backward_refuted.
