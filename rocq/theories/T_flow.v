(** C55: the instruction flow decoder follows the flow that the trace describes.
    C56: it shows all of it. *)

From Coq Require Import List NArith ZArith Bool PeanoNat Lia ZifyBool ZifyNat ZifyN.
From Verif Require Import Base M_config M_time M_pktdec M_event M_evdec M_query M_retstack M_asid M_ildtab M_ild
  M_insn M_insndec S_core S_sync S_evdec S_x86 S_insn S_query S_evtrace S_flow S_drive L_core L_evdec L_evsafe
  L_evnext L_insn T_ild T_insn L_query L_query2 T_evdec T_evtrace L_flow L_flow2 L_flow3 L_flow4 L_flow5 L_flow6 L_flow7.
Import ListNotations.
Open Scope N_scope.

Section FLOW.
  Context (cf : config) (buf : list N) (base : nat).
  Hypothesis sized : callback_sized cf.
  Hypothesis freq : (cf_mtc_freq cf < 24)%N.
  Hypothesis small : (N.of_nat (length buf) + 1 < 2 ^ 31)%N.
  Hypothesis bytes : bytes_ok buf.
  Hypothesis no_bdm64 : er_bdm64 (cf_errata cf) = false.
  Hypothesis no_skd022 : er_skd022 (cf_errata cf) = false.
  Hypothesis no_skl014 : er_skl014 (cf_errata cf) = false.
  Context {S C : Type} (im : image_if S C) (mem : asid -> memory) (cached : C -> asid -> Prop).
  Hypothesis shows : image_shows im mem cached.

  (** Take any decoder on the trace [buf], whatever was done with it before.  Synchronize it
      forwards or at an offset.  There are the events [evs] of the trace from there, as its
      event decoder delivers them after the same synchronization, and perhaps a first address [ip].  If there are no trigger
      events, then the instructions and events that the documented loop shows are a flow
      that these events describe, starting at [ip], as long as the execution mode is known.
      The end of the trace is only reported if all events and targets were used.  The only
      undefined behaviour is the known read behind an instruction's bytes. *)
  Theorem C55_flow (d : insndec C) o d1 st :
    reachable base cf buf (qd_evdec (id_query d)) ->
    length (rs_stack (id_retstack d)) = 65%nat -> cached (id_scache d) pt_asid_init ->
    o = Qs_forward \/ (exists off, o = Qs_set off) ->
    insn_sync_step base im d o = (d1, Ok st) ->
    exists e evs err ip, synced_to base (qd_evdec (id_query d)) o e /\ stream e evs err /\ starts e evs ip /\
      (Forall no_trig evs -> forall n os d' r, drive im n d1 st = (os, d', r) ->
       Forall (fun o => match o with O_insn i => in_mode i <> ptem_unknown | O_event _ => True end) os ->
       exists s, flows mem (id_ticks d) err (mk_fstate (flow0 ip) None (flat_map facts_of evs)) os s /\
         (r = Err pte_eos -> filter not_bit (fs_facts s) = []) /\
         (forall u, r = UB u -> u = ub_oob_read /\
            rex2_hole (mem (f_asid (fs_flow s))) (f_mode (fs_flow s)) (f_ip (fs_flow s)))).
  Proof.
    intros Hr Hl Hc Ho E.
    assert (Hb : forall n, o <> Qs_backward n) by (destruct Ho as [->|(off & ->)]; discriminate).
    pose proof (sync_ok cf buf base sized freq small bytes im mem cached no_bdm64 no_skd022 d o d1 (Ok st) Hr Hl Hc Hb E)
      as (e & evs & err & ip & Hat & (_ & _ & _ & _ & Hf) & Hs & K).
    exists e, evs, err, ip. split; [exact Hat|]. split; [exact Hf|]. split; [exact Hs|]. intros Hn n os d' r Hd Hk.
    destruct (K Hn) as (s0 & K1 & K2 & K3).
    pose proof (drive_ok cf buf base err sized freq small bytes im mem cached shows no_bdm64 no_skd022 no_skl014 n d1 st s0 K3) as D.
    rewrite Hd, K2 in D. destruct (D Hk) as (s & D1 & D2). exists s.
    split; [exact (flows_app _ _ _ _ _ _ _ _ K1 D1)|].
    split; [intros ->; exact (proj1 D2 eq_refl)|]. intros u ->. split; apply D2.
  Qed.

  (** The loop shows the whole flow.  Take any flow [ws] that the events describe in which
      no outcomes of conditional branches are left over at an indirect branch.  As long as
      the loop is not stopped by an error, what it showed is the beginning of [ws], or [ws] is
      the beginning of what it showed.  When it is stopped, also by an error in the trace or
      at the end of the trace, then it showed all of [ws].  It does not show changes of time,
      the image gives no errors of its own, and there are fewer than 2^32 - 1 calls, since
      after 2^32 - 1 instructions without a branch the decoder gives up. *)
  Theorem C56_whole (d : insndec C) o d1 st :
    reachable base cf buf (qd_evdec (id_query d)) ->
    length (rs_stack (id_retstack d)) = 65%nat -> cached (id_scache d) pt_asid_init ->
    o = Qs_forward \/ (exists off, o = Qs_set off) ->
    insn_sync_step base im d o = (d1, Ok st) -> id_ticks d = false -> image_total im cached ->
    exists e evs err ip, synced_to base (qd_evdec (id_query d)) o e /\ stream e evs err /\ starts e evs ip /\
      (Forall no_trig evs -> forall n os d' r, drive im n d1 st = (os, d', r) ->
       N.of_nat n < 2 ^ 32 - 1 ->
       Forall (fun o => match o with O_insn i => in_mode i <> ptem_unknown | O_event _ => True end) os ->
       forall ws s, orderly_flows mem err (mk_fstate (flow0 ip) None (flat_map facts_of evs)) ws s ->
       (exists os1 os2, os = os1 ++ os2 /\ Forall2 same_obs os1 ws) \/
       (exists ws1 ws2, ws = ws1 ++ ws2 /\ Forall2 same_obs os ws1 /\ exists st, r = Ok st)).
  Proof.
    intros Hr Hl Hc Ho E Ht Tot.
    assert (Hb : forall n, o <> Qs_backward n) by (destruct Ho as [->|(off & ->)]; discriminate).
    pose proof (sync_ok cf buf base sized freq small bytes im mem cached no_bdm64 no_skd022 d o d1 (Ok st) Hr Hl Hc Hb E)
      as (e & evs & err & ip & Hat & (_ & _ & _ & _ & Hf) & Hs & K).
    exists e, evs, err, ip. split; [exact Hat|]. split; [exact Hf|]. split; [exact Hs|]. intros Hn n os d' r Hd Hlt Hk ws s Hw.
    destruct (K Hn) as (s0 & K1 & K2 & K3).
    pose proof (drive_ok cf buf base err sized freq small bytes im mem cached shows no_bdm64 no_skd022 no_skl014 n d1 st s0 K3) as D.
    rewrite Hd, K2, Ht in *. destruct (D Hk) as (s1 & D1 & D2).
    pose proof (flows_unique _ _ _ _ _ (flows_app _ _ _ _ _ _ _ _ K1 D1) _ _ Hw) as [(ws1 & ws2 & -> & U1 & U2)|U]; [|left; exact U].
    cbn [app] in U1.
    assert (Nw : forall e, ~ worn d' e).
    { intros e0 (_ & W1 & W2). pose proof (drive_cnt im n d1 st) as Q. rewrite Hd in Q.
      assert (C1 : cnt d1 = 0) by (eapply sync_cnt; exact E).
      rewrite C1 in Q. unfold cnt in Q. rewrite W1 in Q. change ((id_icnt d' + 1) mod 4294967296 = 0) in W2.
      change (2 ^ 32) with 4294967296 in Hlt. rewrite N.mod_small in W2 by lia. lia. }
    assert (St : (forall st, r <> Ok st) -> no_step mem false err s1).
    { destruct r as [st'|er|u]; intros Hx; [destruct (Hx st' eq_refl)| |apply D2].
      destruct D2 as (_ & D2). destruct (D2 Tot) as [W|N]; [destruct (Nw _ W)|exact N]. }
    destruct r as [st'|er|u].
    - right. exists ws1, ws2. eauto.
    - left. assert (ws2 = []) by (eapply no_step_flows; [apply St; discriminate|exact U2]). subst ws2.
      exists os, []. rewrite !app_nil_r. auto.
    - left. assert (ws2 = []) by (eapply no_step_flows; [apply St; discriminate|exact U2]). subst ws2.
      exists os, []. rewrite !app_nil_r. auto.
  Qed.
End FLOW.

(** In every flow events happen in the order of the trace; none is skipped, repeated or made
    up. *)
Theorem C55_events mem err s os s' : flows mem false err s os s' ->
  exists l, to_come s = l ++ to_come s' /\ Forall2 as_shown l (flat_map event_of os).
Proof. apply flows_events. Qed.

Print Assumptions C55_flow.
Print Assumptions C56_whole.
Print Assumptions C55_events.

(** ** An example: a section in memory *)

Definition flat_bytes (at_ : N) (l : list N) (ip : N) : list N :=
  if at_ <=? ip then skipn (N.to_nat (ip - at_)) l else [].
Definition flat_mem (at_ : N) (l : list N) (isid : N) : memory :=
  fun ip => match flat_bytes at_ l ip with b :: _ => Some (b, isid) | [] => None end.
Definition flat_image (at_ : N) (l : list N) (isid : N) : image_if unit unit :=
  mk_image_if _ _
    (fun _ ip n => match flat_bytes at_ l ip with [] => Err pte_nomap | t => Ok (isid, firstn n t) end)
    (fun c _ ip => (c, match flat_bytes at_ l ip with [] => Err pte_nomap | _ => Ok (isid, tt) end))
    (fun _ ip n => match flat_bytes at_ l ip with [] => Err pte_nomap | t => Ok (firstn n t) end)
    (fun c => (c, Ok tt)).

Lemma flat_at at_ l isid ip n : at_ + N.of_nat (length l) <= 2 ^ 64 ->
  bytes_at (flat_mem at_ l isid) ip (firstn n (flat_bytes at_ l ip)).
Proof.
  intros Hl k b Hk. exists isid. unfold flat_mem.
  assert (Hk' : nth_error (flat_bytes at_ l ip) k = Some b).
  { revert Hk. generalize (flat_bytes at_ l ip) as t. revert k. induction n as [|n IH]; intros k t Hk.
    - destruct k; discriminate Hk.
    - destruct t as [|c t]; [destruct k; discriminate Hk|]. destruct k as [|k]; [exact Hk|]. exact (IH k t Hk). }
  unfold flat_bytes in *. destruct (N.leb_spec at_ ip) as [Ha|Ha]; [|destruct k; discriminate Hk'].
  assert (Lk : (N.to_nat (ip - at_) + k < length l)%nat).
  { assert (K : (k < length (skipn (N.to_nat (ip - at_)) l))%nat) by (apply nth_error_Some; congruence).
    rewrite skipn_length in K. lia. }
  assert (Eo : offset_ip ip k = ip + N.of_nat k).
  { unfold offset_ip. apply N.mod_small. change (2 ^ 64) with 18446744073709551616 in *. lia. }
  rewrite Eo. destruct (N.leb_spec at_ (ip + N.of_nat k)) as [_|Hx]; [|lia].
  replace (N.to_nat (ip + N.of_nat k - at_)) with (N.to_nat (ip - at_) + k)%nat by lia.
  revert Hk'. generalize (N.to_nat (ip - at_)) as a. clear. intros a. revert l.
  induction a as [|a IH]; intros l H.
  - cbn [skipn plus] in *. revert l H. induction k as [|k IHk]; intros [|c l] H; try discriminate H.
    + injection H as ->. reflexivity.
    + exact (IHk l H).
  - destruct l as [|c l]; [destruct k; discriminate H|]. exact (IH l H).
Qed.

Lemma flat_shows at_ l isid : at_ + N.of_nat (length l) <= 2 ^ 64 -> bytes_ok l ->
  image_shows (flat_image at_ l isid) (fun _ => flat_mem at_ l isid) (fun _ _ => True).
Proof.
  intros Hl Hb.
  assert (Bk : forall n ip, bytes_ok (firstn n (flat_bytes at_ l ip))).
  { intros n ip. apply Forall_forall. intros b Hin.
    assert (Hin' : In b (flat_bytes at_ l ip)).
    { rewrite <- (firstn_skipn n). apply in_or_app. left. exact Hin. }
    unfold flat_bytes in Hin'. destruct (at_ <=? ip); [|destruct Hin'].
    assert (Hin2 : In b l).
    { rewrite <- (firstn_skipn (N.to_nat (ip - at_)) l). apply in_or_app. right. exact Hin'. }
    exact (proj1 (Forall_forall _ _) Hb b Hin2). }
  assert (Ln : forall n ip, (0 < n)%nat -> flat_bytes at_ l ip <> [] ->
    (1 <= length (firstn n (flat_bytes at_ l ip)) <= n)%nat).
  { intros n ip Hn Hne. rewrite firstn_length. destruct (flat_bytes at_ l ip); [congruence|]. cbn [length]. lia. }
  constructor.
  - intros a ip n Hn. cbn [im_read flat_image]. unfold flat_mem at 1.
    pose proof (Bk n ip) as B. pose proof (Ln n ip Hn) as L. pose proof (flat_at at_ l isid ip n Hl) as A.
    destruct (flat_bytes at_ l ip) as [|b t]; [reflexivity|]. exists (firstn n (b :: t)).
    split; [reflexivity|]. split; [apply L; discriminate|]. split; assumption.
  - intros c a ip _. cbn [im_lookup im_sread flat_image]. unfold flat_mem at 1.
    pose proof (Bk 15%nat ip) as B. pose proof (Ln 15%nat ip ltac:(lia)) as L. pose proof (flat_at at_ l isid ip 15 Hl) as A.
    destruct (flat_bytes at_ l ip) as [|b t]; [split; [exact I|discriminate]|].
    split; [exact I|]. split; [eexists; reflexivity|]. eexists. split; [reflexivity|].
    split; [apply L; discriminate|]. split; assumption.
  - intros c a _. cbn [im_invalidate flat_image]. auto.
Qed.

(** A call, a conditional jump over a byte, a return that the trace compressed, and a system
    call that ends tracing. *)
Definition program1 : list N := [0xe8; 3; 0; 0; 0;  0x90;  0x0f; 0x05;  0x75; 1;  0x90;  0xc3].
Definition trace_flow : list N :=
  psb_bytes ++ [0x99; 0x01;  0x3d; 0x00; 0x10;  0x02; 0x23;  0x0e;  0x01].
Definition image1 : image_if unit unit := flat_image 0x1000 program1 7.
Definition flow_dec : insndec unit :=
  pt_insn_decoder_init config0 false trace_flow None 0 (repeat 0 65) tt.
Definition sight (o : obs) : (N * iclass * exec_mode) + (evar * bool) :=
  match o with
  | O_insn i => inl (in_ip i, in_iclass i, in_mode i)
  | O_event e => inr (ev_var e, ev_status_update e)
  end.
Definition run_loop (o : qry_sync_op) (n : nat) : N * list ((N * iclass * exec_mode) + (evar * bool)) * res N :=
  match insn_sync_step 0 image1 flow_dec o with
  | (d, Ok st) => match drive image1 n d st with (os, _, r) => (st, map sight os, r) end
  | (_, r) => (0, [], r)
  end.

Example C55_ex :
  callback_sized config0 /\ (cf_mtc_freq config0 < 24)%N /\ bytes_ok trace_flow /\
  er_bdm64 (cf_errata config0) = false /\ er_skd022 (cf_errata config0) = false /\
  er_skl014 (cf_errata config0) = false /\
  image_shows image1 (fun _ => flat_mem 0x1000 program1 7) (fun _ _ => True) /\
  reachable 0 config0 trace_flow (qd_evdec (id_query flow_dec)) /\
  length (rs_stack (id_retstack flow_dec)) = 65%nat /\
  run_loop Qs_forward 20 =
    (pts_event_pending,
     [inr (Ev_enabled 4096 true, true); inr (Ev_exec_mode ptem_64bit 4096, true);
      inl (4096, ptic_call, ptem_64bit); inl (4104, ptic_cond_jump, ptem_64bit);
      inl (4107, ptic_return, ptem_64bit); inl (4101, ptic_other, ptem_64bit);
      inl (4102, ptic_far_call, ptem_64bit); inr (Ev_disabled 0, false)],
     Err pte_eos).
Proof.
  split; [exact I|]. split; [reflexivity|].
  split; [repeat (apply Forall_cons; [reflexivity|]); apply Forall_nil|].
  split; [reflexivity|]. split; [reflexivity|]. split; [reflexivity|].
  split; [apply flat_shows; [discriminate|repeat (apply Forall_cons; [reflexivity|]); apply Forall_nil]|].
  split; [constructor|]. split; [reflexivity|]. vm_compute. reflexivity.
Qed.

(** The hypotheses of C56 for the same decoder, and a flow of the same program: the first
    two instructions, of which the second needs the trace. *)
Definition ev1 : event := mk_event (Ev_enabled 4096 false) false false false 0 0 0.
Definition ev2 : event := mk_event (Ev_exec_mode ptem_64bit 4096) false false false 0 0 0.
Definition call1 : x86 := mk_x86 [] Legacy 0 0xe8 [] [] [3; 0; 0; 0] [].
Definition jcc1 : x86 := mk_x86 [] Legacy 0 0x75 [] [] [1] [].
Definition insn1 : insn := mk_insn 4096 7 ptem_64bit ptic_call (render call1 ++ repeat 0 10) 5 false false.
Definition insn2 : insn := mk_insn 4104 7 ptem_64bit ptic_cond_jump (render jcc1 ++ repeat 0 13) 2 false false.
Definition mem1 : asid -> memory := fun _ => flat_mem 0x1000 program1 7.
Lemma known_bytes ip t n : (length t <= n)%nat -> firstn (length t) (flat_bytes 0x1000 program1 ip) = t ->
  bytes_at (flat_mem 0x1000 program1 7) ip t.
Proof.
  intros _ H. rewrite <- H. apply flat_at. discriminate.
Qed.
Example C56_ex : id_ticks flow_dec = false /\ image_total image1 (fun _ _ => True) /\
  exists s, orderly_flows mem1 pte_eos
    (mk_fstate (flow0 None) None [F_event ev1; F_event ev2; F_bit true])
    [O_event (shown (flow0 None) ev1); O_event ev2; O_insn insn1; O_insn insn2] s.
Proof.
  split; [reflexivity|]. split.
  { split; [|intros c a e _; discriminate]. intros c a ip e _. cbn [im_lookup image1 flat_image snd].
    destruct (flat_bytes _ _ _); [congruence|discriminate]. }
  eexists.
  change [O_event (shown (flow0 None) ev1); O_event ev2; O_insn insn1; O_insn insn2]
    with ([] ++ [O_event (shown (flow0 None) ev1)] ++ [] ++ [O_event ev2] ++ [O_insn insn1] ++ [] ++ [O_insn insn2] ++ [] ++ []).
  eapply of_cons; [exact I|apply fs_take|].
  eapply of_cons; [exact I|apply fs_event; reflexivity|].
  eapply of_cons; [exact I|apply fs_take|].
  eapply of_cons; [exact I|apply (fs_event mem1 false pte_eos _ ev2); reflexivity|].
  eapply of_cons; [exact I|apply (fs_insn mem1 false pte_eos _ _ _ call1); try reflexivity; [discriminate|]|].
  { split; [|repeat split; try reflexivity; eexists; reflexivity].
    split; [wf|]. split; [cbn; lia|]. apply (known_bytes 4096 (render call1) 15); [cbn; lia|reflexivity]. }
  eapply of_cons; [exact eq_refl|eapply fs_leave; [reflexivity|reflexivity|exact I|apply leave_call; reflexivity|left; reflexivity]|].
  eapply of_cons; [exact I|apply (fs_insn mem1 false pte_eos _ _ _ jcc1); try reflexivity; [discriminate|]|].
  { split; [|repeat split; try reflexivity; eexists; reflexivity].
    split; [wf|]. split; [cbn; lia|]. apply (known_bytes 4104 (render jcc1) 15); [cbn; lia|reflexivity]. }
  eapply of_cons; [exact eq_refl|eapply fs_leave; [reflexivity|reflexivity|exact I|apply (leave_cond _ true); reflexivity|left; reflexivity]|].
  apply of_nil.
Qed.

(** ** Finding: pt_insn_sync_backward() does not process the initial events

    pt_qry_sync_backward() returns zero instead of the status (pt_query_decoder.c:330-366), so
    the decoder takes tracing as enabled and no event as pending.  On a trace without address
    at the synchronization point the first call of pt_insn_next() then looks for an instruction at
    address zero, although the same place gives a flow when synchronizing forwards. *)
Definition trace_off : list N :=
  psb_bytes ++ [0x99; 0x01;  0x02; 0x23;  0x31; 0x00; 0x10;  0x0e;  0x01].
Definition off_dec : insndec unit :=
  pt_insn_decoder_init config0 false trace_off None 0 (repeat 0 65) tt.
Definition started (o : qry_sync_op) (n : nat) : option (N * bool * N * nat * res N) :=
  match insn_sync_step 0 image1 off_dec o with
  | (d, Ok st) =>
      match drive image1 n d st with (os, _, r) => Some (st, id_enabled d, id_ip d, length os, r) end
  | _ => None
  end.
Theorem C55_backward_refuted :
  started Qs_forward 20 =
    Some (N.lor pts_event_pending pts_ip_suppressed, false, 0, 9%nat, Err pte_eos) /\
  started (Qs_backward 9) 20 = Some (0, true, 0, 0%nat, Err pte_nomap).
Proof. vm_compute. split; reflexivity. Qed.
