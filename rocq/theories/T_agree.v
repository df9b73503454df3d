(** C64: the block decoder and the instruction flow decoder show the same execution. *)

From Coq Require Import List NArith ZArith Bool PeanoNat Lia.
From Verif Require Import Base M_config M_time M_pktdec M_event M_evdec M_query M_retstack M_asid M_ildtab M_ild
  M_insn M_insndec M_blk S_core S_sync S_evdec S_x86 S_insn S_query S_evtrace S_flow S_drive S_blk S_agree L_core
  L_evdec L_evsafe L_evnext L_insn T_ild T_insn L_query L_query2 T_evdec T_evtrace L_flow L_flow2 L_flow3 L_flow4 L_flow5
  L_flow6 L_flow7 T_flow L_blk L_blk3 L_blk6 L_blk9 L_blk10 T_blk L_agree.
Import ListNotations.
Open Scope N_scope.

Section AGREE.
  Context (cf : config) (buf : list N) (base : nat).
  Hypothesis sized : callback_sized cf.
  Hypothesis freq : (cf_mtc_freq cf < 24)%N.
  Hypothesis small : (N.of_nat (length buf) + 1 < 2 ^ 31)%N.
  Hypothesis bytes : bytes_ok buf.
  Hypothesis no_bdm64 : er_bdm64 (cf_errata cf) = false.
  Hypothesis no_skd022 : er_skd022 (cf_errata cf) = false.
  Hypothesis no_skl014 : er_skl014 (cf_errata cf) = false.
  Context {S C : Type} (im : blk_image S C) (mem : asid -> memory) (cached : C -> asid -> Prop).
  Context (content : N -> N -> option N) (at_ : asid -> N -> option place) (mode_of : N -> exec_mode).
  Hypothesis shows : blocks_show im mem cached content at_ mode_of.

  (** Take an instruction flow decoder and a block decoder on the same trace and the same
      image, whatever was done with them before, and synchronize them to the same place, so
      that their event decoders agree.  Let both documented loops make any number of calls.

      If the flow of the trace gets to none of the states in which the block decoder is known
      to go wrong or the two are known to go different ways, then the blocks and events of the one
      stand for instructions and events [ws] such that these are the beginning of what the
      other shows, or the other way round.  If the instruction loop was stopped, then
      it is not the other way round: it showed all that the block loop shows. *)
  Theorem C64_agree (di : insndec C) (db : blkdec C) oi ob e di1 db1 sti stb :
    reachable base cf buf (qd_evdec (id_query di)) -> length (rs_stack (id_retstack di)) = 65%nat ->
    cached (id_scache di) pt_asid_init -> id_ticks di = false ->
    reachable base cf buf (bd_evdec db) -> length (rs_stack (bd_retstack db)) = 65%nat ->
    cached (bd_scache db) pt_asid_init -> caches_ok content mode_of (bd_caches db) -> bd_ticks db = false ->
    oi = Qs_forward \/ (exists off, oi = Qs_set off) ->
    synced_to base (qd_evdec (id_query di)) oi e -> evt_sync_step base (bd_evdec db) ob = (e, Ok tt) ->
    insn_sync_step base (bi_image im) di oi = (di1, Ok sti) -> blk_sync_step base im db ob = (db1, Ok stb) ->
    exists evs err ip, stream e evs err /\ first_address e ip /\
      let s0 := mk_fstate (flow0 ip) None (flat_map facts_of evs) in
      (Forall plain_event evs -> sane mem content at_ mode_of err s0 -> regular mem err s0 ->
       forall n os di' r, drive (bi_image im) n di1 sti = (os, di', r) ->
       Forall (fun o => match o with O_insn i => in_mode i <> ptem_unknown | O_event _ => True end) os ->
       forall m bs db' r', blk_drive im m db1 stb = (bs, db', r') ->
       exists ws, unfolded mem bs ws /\
         ((exists os1 os2, os = os1 ++ os2 /\ Forall2 same_obs os1 ws) \/
          (exists ws1 ws2, ws = ws1 ++ ws2 /\ Forall2 same_obs os ws1)) /\
         (image_total (bi_image im) cached -> used_up mem err s0 -> N.of_nat n < 2 ^ 32 - 1 -> (forall st, r <> Ok st) ->
          exists os1 os2, os = os1 ++ os2 /\ Forall2 same_obs os1 ws)).
  Proof.
    intros Ri Li Ci Ti Rb Lb Cb Hcs Tb Ho Si Sb Ei Eb.
    pose proof (bl_image _ _ _ _ _ _ shows) as Sh.
    destruct (C55_flow cf buf base sized freq small bytes no_bdm64 no_skd022 no_skl014 (bi_image im) mem cached Sh
      di oi di1 sti Ri Li Ci Ho Ei) as (e1 & evs1 & err1 & ip1 & A1 & A2 & A3 & A4).
    destruct (C58_blocks cf buf base sized freq small bytes no_bdm64 no_skd022 no_skl014 im mem cached content at_ mode_of shows
      db ob db1 stb Rb Lb Cb Hcs Tb Eb) as (e2 & evs2 & err2 & ip2 & B1 & B2 & B3 & B4).
    rewrite Sb in B1. injection B1 as <-.
    assert (Se : forall e', synced_to base (qd_evdec (id_query di)) oi e' -> e' = e).
    { intros e' Se. destruct Ho as [->|(off & ->)]; cbn in Si, Se; rewrite Si in Se; injection Se; auto. }
    pose proof (Se _ A1). subst e1.
    destruct (stream_unique _ _ _ A2 _ _ B2) as (<- & <-).
    pose proof (first_unique _ _ _ (proj1 A3) _ (proj1 B3)). subst ip2.
    exists evs1, err1, ip1. split; [exact A2|]. split; [exact (proj1 A3)|]. intros s0 Hp Sn Rg n os di' r Hd Hk m bs db' r' Hb.
    assert (Nt : Forall no_trig evs1).
    { eapply Forall_impl; [|exact Hp]. intros ev. unfold plain_event, no_trig. destruct (ev_var ev); auto. }
    destruct (A4 Nt n os di' r Hd Hk) as (s & Fi & _). rewrite Ti in Fi.
    destruct (B4 Hp Sn m bs db' r' Hb) as (s' & Rb' & _).
    destruct (runs_unfold _ _ _ _ _ Rb') as (ws & U & Fb).
    destruct (flows_agree _ _ _ _ _ Fb _ Rg (sane_known _ _ _ _ _ _ Sn) (start_agrees ip1 (flat_map facts_of evs1)))
      as (t' & Fw & _ & Ow).
    exists ws. split; [exact U|]. split.
    - destruct (flows_prefix _ _ _ _ _ Fi _ _ Fw) as [(ws1 & ws2 & K)|(os1 & os2 & K)]; eauto.
    - intros Tot Us Hn Hr.
      destruct (C56_whole cf buf base sized freq small bytes no_bdm64 no_skd022 no_skl014 (bi_image im) mem cached Sh
        di oi di1 sti Ri Li Ci Ho Ei Ti Tot) as (e3 & evs3 & err3 & ip3 & D1 & D2 & D3 & D4).
      pose proof (Se _ D1). subst e3.
      destruct (stream_unique _ _ _ A2 _ _ D2) as (<- & <-).
      pose proof (first_unique _ _ _ (proj1 A3) _ (proj1 D3)). subst ip3.
      destruct (D4 Nt n os di' r Hd Hn Hk ws t' (Ow Us)) as [K|(_ & _ & _ & _ & st & K)]; [exact K|destruct (Hr _ K)].
  Qed.
End AGREE.
Print Assumptions C64_agree.

(** ** An example: the program of C55 *)

Definition ret1 : x86 := mk_x86 [] Legacy 0 0xc3 [] [] [] [].
Definition nop1 : x86 := mk_x86 [] Legacy 0 0x90 [] [] [] [].
Definition sys1 : x86 := mk_x86 [] Legacy 1 0x05 [] [] [] [].
Definition flow1 : fstate := mk_fstate (flow0 (Some 0x1000)) None (flat_map facts_of (fst all1)).
Definition insn_at (ip : N) (c : iclass) (t : x86) : insn :=
  mk_insn ip 7 ptem_64bit c (render t) (length (render t)) false false.

Lemma known1 : sane mem1 (flat_content program1) (flat_place 0x1000 program1) (fun _ => ptem_64bit) pte_eos flow1.
Proof.
  apply (C58_tidy _ _ _ _ _ ptem_64bit); [discriminate|reflexivity| |vm_compute; reflexivity].
  apply flat_whole.
Qed.

Ltac not_odd :=
  split;
    [let Od := fresh in intros Od; inversion Od; subst; cbn [fs_held fs_facts fs_flow f_cur f_on f_ip] in *; try discriminate;
     repeat match goal with
     | X : stops _ _ |- _ => destruct X
     | X : Some _ = Some _ |- _ => injection X; clear X; intros; subst
     | X : _ :: _ = _ :: _ |- _ => injection X; clear X; intros; subst
     end; try discriminate; try (match goal with X : ends _ _ <> _ |- _ => apply X; reflexivity end);
     try (match goal with X : _ \/ _ |- _ => destruct X; discriminate end);
     try (match goal with X : _ = true |- _ => vm_compute in X; discriminate X end)
    |try exact I; try reflexivity].
Ltac text := split; [split; [wf|]; split; [cbn; lia|]; (eapply known_bytes with (n := 15%nat); [cbn; lia|reflexivity])
                    |repeat split; try reflexivity; eexists; reflexivity].

Ltac next K H := eapply (flow_next _ _ (fun s => ~ odd s /\ orderly s)); [exact K|H|not_odd|clear K; intros K];
  match type of K with known _ _ ?s => let x := eval vm_compute in s in change s with x in * end.
Lemma regular1 : forall os s, bflows mem1 pte_eos flow1 os s -> ~ odd s /\ orderly s.
Proof.
  pose proof (sane_known _ _ _ _ _ _ known1) as K. unfold flow1 in *.
  let x := eval vm_compute in (flat_map facts_of (fst all1)) in change (flat_map facts_of (fst all1)) with x in *.
  next K ltac:(apply bs_take).
  next K ltac:(apply bs_event; reflexivity).
  next K ltac:(apply bs_take).
  next K ltac:(apply bs_event; reflexivity).
  next K ltac:(apply (bs_insn mem1 pte_eos _ _ _ call1 (insn_at 4096 ptic_call call1)); [repeat split|text]).
  next K ltac:(eapply bs_leave; [reflexivity|reflexivity|exact I|left; reflexivity|apply complete_direct; [right|]; reflexivity]).
  next K ltac:(apply (bs_insn mem1 pte_eos _ _ _ jcc1 (insn_at 4104 ptic_cond_jump jcc1)); [repeat split|text]).
  next K ltac:(eapply bs_leave; [reflexivity|reflexivity|exact I|right; reflexivity|apply (complete_cond _ true); reflexivity]).
  next K ltac:(apply (bs_insn mem1 pte_eos _ _ _ ret1 (insn_at 4107 ptic_return ret1)); [repeat split|text]).
  next K ltac:(eapply bs_leave; [reflexivity|reflexivity|exact I|right; reflexivity|apply complete_compressed; reflexivity]).
  next K ltac:(apply bs_take).
  next K ltac:(apply (bs_insn mem1 pte_eos _ _ _ nop1 (insn_at 4101 ptic_other nop1));
               [repeat split; discriminate|text]).
  next K ltac:(eapply bs_leave; [reflexivity|reflexivity|intros [X|(k & X & _)]; discriminate X|left; reflexivity|apply complete_other; left; reflexivity]).
  next K ltac:(apply (bs_insn mem1 pte_eos _ _ _ sys1 (insn_at 4102 ptic_far_call sys1));
               [repeat split; discriminate|text]).
  next K ltac:(eapply bs_end; reflexivity).
  apply flow_end; [|not_odd]. intros o s1 B. inversion B; subst; try discriminate.
  match goal with X : executing _ _ |- _ => destruct X as (X & _); discriminate X end.
Qed.

Lemma same_forward base q e : evt_sync_step base q Bs_forward = (e, Ok tt) -> synced_to base q Qs_forward e.
Proof. auto. Qed.

(** The hypotheses hold for new decoders of this trace, and both loops run to its end. *)
Example C64_ex :
  callback_sized config0 /\ (cf_mtc_freq config0 < 24)%N /\ bytes_ok trace_flow /\
  er_bdm64 (cf_errata config0) = false /\ er_skd022 (cf_errata config0) = false /\
  er_skl014 (cf_errata config0) = false /\
  blocks_show blocks1 mem1 (fun _ _ => True) (flat_content program1) (flat_place 0x1000 program1) (fun _ => ptem_64bit) /\
  image_total (bi_image blocks1) (fun _ _ => True) /\
  reachable 0 config0 trace_flow (qd_evdec (id_query flow_dec)) /\
  length (rs_stack (id_retstack flow_dec)) = 65%nat /\ id_ticks flow_dec = false /\
  reachable 0 config0 trace_flow (bd_evdec (block_dec trace_flow)) /\
  length (rs_stack (bd_retstack (block_dec trace_flow))) = 65%nat /\ bd_ticks (block_dec trace_flow) = false /\
  caches_ok (flat_content program1) (fun _ => ptem_64bit) (bd_caches (block_dec trace_flow)) /\
  (exists e evs, synced_to 0 (qd_evdec (id_query flow_dec)) Qs_forward e /\
     evt_sync_step 0 (bd_evdec (block_dec trace_flow)) Bs_forward = (e, Ok tt) /\ stream e evs pte_eos /\
     first_address e (Some 0x1000) /\ Forall plain_event evs /\
     let s0 := mk_fstate (flow0 (Some 0x1000)) None (flat_map facts_of evs) in
     sane mem1 (flat_content program1) (flat_place 0x1000 program1) (fun _ => ptem_64bit) pte_eos s0 /\
     regular mem1 pte_eos s0 /\ used_up mem1 pte_eos s0) /\
  snd (run_loop Qs_forward 20) = Err pte_eos /\ length (snd (fst (run_loop Qs_forward 20))) = 8%nat /\
  snd (run_blocks blocks1 (block_dec trace_flow) Bs_forward 20) = Err pte_eos /\
  length (snd (fst (run_blocks blocks1 (block_dec trace_flow) Bs_forward 20))) = 8%nat.
Proof.
  assert (B : bytes_ok program1) by (repeat (apply Forall_cons; [reflexivity|]); apply Forall_nil).
  split; [exact I|]. split; [reflexivity|].
  split; [repeat (apply Forall_cons; [reflexivity|]); apply Forall_nil|].
  split; [reflexivity|]. split; [reflexivity|]. split; [reflexivity|].
  split; [apply flat_blocks_show; [discriminate|reflexivity|exact B]|].
  split; [exact (proj1 (proj2 C56_ex))|].
  split; [constructor|]. split; [reflexivity|]. split; [reflexivity|].
  split; [constructor|]. split; [reflexivity|]. split; [reflexivity|]. split; [intros k c; discriminate|].
  split.
  - destruct (events_from_stream _ _ _ _ events1) as (q & Eq & E). exists q, (fst all1).
    assert (L : let q := fst (evt_sync_step 0 (bd_evdec (block_dec trace_flow)) Bs_forward) in
                start_loop 20 (evt_pos q) q = Ok (Some 0x1000)) by (vm_compute; reflexivity).
    rewrite Eq in L. cbn [fst] in L.
    assert (X : qd_evdec (id_query flow_dec) = bd_evdec (block_dec trace_flow)) by (vm_compute; reflexivity).
    rewrite X. split; [exact (same_forward _ _ _ Eq)|]. split; [exact Eq|]. split; [exact E|]. split; [exact (start_loop_first _ _ _ _ L)|].
    split; [repeat constructor; discriminate|]. split; [exact known1|].
    split; intros os s F; apply (regular1 os s F).
  - rewrite run1. vm_compute. repeat split.
Qed.


(** ** Findings: where the decoders go different ways *)

(** What both decoders show of the same program and trace: per address, the number of
    instructions, and the events with whether tracing resumed. *)
Definition insn_view (prog buf : list N) : list (N + evar) * res N :=
  match insn_sync_step 0 (flat_image 0x1000 prog 7) (pt_insn_decoder_init config0 false buf None 0 (repeat 0 65) tt) Qs_forward with
  | (d, Ok st) =>
      match drive (flat_image 0x1000 prog 7) 30 d st with
      | (os, _, r) => (map (fun o => match o with O_insn i => inl (in_ip i) | O_event e => inr (ev_var e) end) os, r)
      end
  | (_, r) => ([], r)
  end.
Definition block_view (prog buf : list N) : list (N * N * N + evar) * res N :=
  match blk_sync_step 0 (flat_blocks 0x1000 prog 7) (block_dec buf) Bs_forward with
  | (d, Ok st) =>
      match blk_drive (flat_blocks 0x1000 prog 7) 30 d st with
      | (os, _, r) => (flat_map (fun o => match o with
                                          | B_block b _ => [inl (b_ip b, b_end_ip b, b_ninsn b)]
                                          | B_last _ => []
                                          | B_event e => [inr (ev_var e)] end) os, r)
      end
  | (_, r) => ([], r)
  end.
Definition at_1000 (more : list N) : list N := psb_bytes ++ [0x99; 0x01;  0x3d; 0x00; 0x10;  0x02; 0x23] ++ more.
Definition start : evar := Ev_enabled 4096 true.
Definition bits64 : evar := Ev_exec_mode ptem_64bit 4096.

(** Tracing ends without an address at a conditional jump.  The block decoder ends there; the
    instruction flow decoder looks for the outcome of the jump and never shows the event
    (pt_block_decoder.c, pt_blk_proceed_event(); pt_insn_decoder.c, pt_insn_check_insn_event()). *)
Theorem C64_near_refuted :
  insn_view [0x75; 1; 0x90; 0x90; 0xc3] (at_1000 [0x01]) =
    ([inr start; inr bits64; inl 4096], Err pte_eos) /\
  block_view [0x75; 1; 0x90; 0x90; 0xc3] (at_1000 [0x01]) =
    ([inr start; inr bits64; inl (4096, 4096, 1); inr (Ev_disabled 0)], Err pte_eos).
Proof. vm_compute. split; reflexivity. Qed.

(** Tracing ends at an address between two instructions.  The block decoder stops at
    that address; the instruction flow decoder shows three more instructions, up to the next
    branch. *)
Theorem C64_next_refuted :
  insn_view [0x90; 0x90; 0x90; 0xc3] (at_1000 [0x21; 0x01; 0x10]) =
    ([inr start; inr bits64; inl 4096; inl 4097; inl 4098; inl 4099; inr (Ev_disabled 4097)], Err pte_eos) /\
  block_view [0x90; 0x90; 0x90; 0xc3] (at_1000 [0x21; 0x01; 0x10]) =
    ([inr start; inr bits64; inl (4096, 4096, 1); inr (Ev_disabled 4097)], Err pte_eos).
Proof. vm_compute. split; reflexivity. Qed.

(** Tracing ends with a write to CR3 and goes on behind it.  The instruction flow decoder
    takes this as resuming; the block decoder does not. *)
Theorem C64_cr3_refuted :
  insn_view [0x0f; 0x22; 0xd8; 0x90; 0xc3] (at_1000 [0x01; 0x31; 0x03; 0x10]) =
    ([inr start; inr bits64; inl 4096; inr (Ev_disabled 0); inr (Ev_enabled 4099 true); inl 4099; inl 4100], Err pte_eos) /\
  block_view [0x0f; 0x22; 0xd8; 0x90; 0xc3] (at_1000 [0x01; 0x31; 0x03; 0x10]) =
    ([inr start; inr bits64; inl (4096, 4096, 1); inr (Ev_disabled 0); inr (Ev_enabled 4099 false)], Err pte_bad_query).
Proof. vm_compute. split; reflexivity. Qed.

(** Tracing ends with a call and goes on in the called function, which returns.  The block
    decoder knows the return address; the instruction flow decoder does not. *)
Theorem C64_call_refuted :
  insn_view [0xe8; 1; 0; 0; 0; 0x90; 0xc3] (at_1000 [0x21; 0x06; 0x10; 0x31; 0x06; 0x10; 0x06]) =
    ([inr start; inr bits64; inl 4096; inr (Ev_disabled 4102); inr (Ev_enabled 4102 true); inl 4102],
     Err pte_retstack_empty) /\
  block_view [0xe8; 1; 0; 0; 0; 0x90; 0xc3] (at_1000 [0x21; 0x06; 0x10; 0x31; 0x06; 0x10; 0x06]) =
    ([inr start; inr bits64; inl (4096, 4096, 1); inr (Ev_disabled 4102); inr (Ev_enabled 4102 true);
      inl (4102, 4102, 1); inl (4101, 4101, 1)], Err pte_bad_query).
Proof. vm_compute. split; reflexivity. Qed.
