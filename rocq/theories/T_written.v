(** C72: from the packets of a trace to the instructions, blocks and events that the decoders
    show. *)

From Coq Require Import List NArith ZArith Bool PeanoNat Lia.
From Verif Require Import Base M_config M_packet M_encoder M_time M_pktdec M_event M_evdec M_query M_retstack M_asid M_ildtab M_ild
  M_insn M_insndec M_blk S_core S_sync S_packet S_run S_evdec S_x86 S_insn S_query S_evtrace S_evfun S_flow S_drive S_blk S_agree L_core L_packet
  L_evdec L_evsafe L_evnext L_insn T_ild T_insn L_query L_query2 T_evdec T_evtrace L_flow L_flow2 L_flow3 L_flow4 L_flow5
  L_flow6 L_flow7 T_flow L_blk L_blk3 L_blk6 L_blk9 L_blk10 T_blk L_agree T_agree T_blkall.
From Verif Require L_evq_rules L_evtrace5 T_evfun.
Import ListNotations.
Open Scope N_scope.

(** ** The packets of a trace *)

(** What pt_pkt_next() gives for a packet: its size is that of the documented format. *)
Definition sized (p : payload) : packet := mk_packet p (length (wire p)).

Lemma wires_flat ps : wires ps = flat_map wire ps.
Proof. induction ps; cbn; congruence. Qed.

Lemma run_reads k : forall d d' ps out e, dec_run d (Datatypes.S k) = (d', out) -> length ps = k ->
  map fst out = map (fun p => Ok p) ps ++ [Err e] -> exists d1, reads d ps d1 /\ pt_pkt_next d1 = (d', Err e).
Proof.
  induction k as [|k IH]; intros d d' ps out e E L M.
  - destruct ps; [|discriminate L]. cbn [dec_run] in E. destruct (pt_pkt_next d) as [d1 r] eqn:N. injection E as <- <-.
    cbn in M. injection M as ->. exists d. split; [constructor|exact N].
  - destruct ps as [|p ps]; [discriminate L|]. injection L as L.
    remember (Datatypes.S k) as k1. cbn [dec_run] in E. destruct (pt_pkt_next d) as [d1 r] eqn:N.
    destruct (dec_run d1 k1) as [d2 out2] eqn:R. injection E as <- <-. cbn in M. injection M as -> M. subst k1.
    destruct (IH _ _ _ _ _ R L M) as (d3 & R1 & R2). exists d3. split; [econstructor; eassumption|exact R2].
Qed.

(** Packets that were written in the documented formats are read as they are, up to the end of
    the trace, whatever is in front of them. *)
Theorem C72_packets cf pre ps : Forall in_range ps -> er_skd007 (cf_errata cf) = false \/ no_skd007_pair ps ->
  whole (synced_at cf (pre ++ flat_map wire ps) (N.of_nat (length pre))) (map sized ps) pte_eos.
Proof.
  intros Hr Hk. unfold whole, synced_at. rewrite Nat2N.id, <- wires_flat.
  pose proof (dec_run_wires cf ps pre (Some (length pre)) Hr Hk) as D.
  destruct (run_reads _ _ _ (map sized ps) _ pte_eos D) as (d1 & R1 & R2); [apply map_length| |].
  - rewrite map_app, !map_map. cbn [map fst]. f_equal. clear. generalize (length pre). induction ps as [|p ps IH]; intros n; [reflexivity|].
    cbn [ends combine map fst snd]. rewrite IH. reflexivity.
  - exists d1. split; [exact R1|]. rewrite R2. f_equal.
    unfold pt_pkt_next in R2. destruct (pd_pos d1) as [pos|]; [|congruence].
    destruct (pt_pkt_decode _ _ _); try discriminate R2; congruence.
Qed.

(** The encoder writes them in these formats. *)
Theorem C72_encoder buf at_ ps e rs : Forall in_range ps -> (at_ <= length buf)%nat ->
  enc_run (mk_enc buf at_) ps = (e, rs) -> Forall (fun r => is_ok (fst r) = true) rs -> e_pos e = length buf ->
  e_buf e = firstn at_ buf ++ flat_map wire ps.
Proof.
  intros Hr L E Ok Full. destruct (enc_run_wires _ _ _ _ Hr E Ok L) as (B & _). cbn [e_buf e_pos] in B.
  rewrite B, Full, skipn_all, app_nil_r, wires_flat. reflexivity.
Qed.

(** There is only one way to read a trace. *)
Lemma whole_unique pd ps e : whole pd ps e -> forall ps' e', whole pd ps' e' -> ps = ps' /\ e = e'.
Proof.
  intros (pd1 & R & N). induction R as [pd|pd pd2 pd3 p ps Np R IH]; intros ps' e' (pd1' & R' & N').
  - inversion R'; subst; [rewrite N in N'; injection N' as ->; auto|].
    match goal with X : pt_pkt_next _ = (_, Ok _) |- _ => rewrite N in X; discriminate X end.
  - inversion R'; subst; [rewrite Np in N'; discriminate N'|].
    match goal with X : pt_pkt_next pd = (_, Ok _) |- _ => rewrite Np in X; injection X; clear X; intros; subst end.
    destruct (IH N ps0 e') as (-> & ->); [exists pd1'; split; assumption|]. auto.
Qed.

Lemma set_offset off d0 d : pt_evt_sync_set off d0 = (d, Ok tt) -> pt_evt_get_sync_offset d = Ok off.
Proof.
  unfold pt_evt_sync_set, sbind, modify, with_pd. unfold pt_pkt_sync_set.
  destruct (_ <? _)%N; try discriminate. cbv zeta.
  match goal with |- pt_evt_start ?x = _ -> _ => set (d1 := x) end. intros E.
  set (cf := ed_config d0). set (buf := pd_buf (ed_pd d0)).
  pose proof (L_evtrace5.start_t cf (synced_at cf buf off) eq_refl d1 eq_refl eq_refl eq_refl eq_refl eq_refl eq_refl) as H.
  unfold L_evq_rules.pwp in H. rewrite E in H.
  destruct (live_reads _ _ _ _ _ H) as (qs & Hq). apply reads_keep in Hq. destruct Hq as (Hq1 & _).
  unfold pt_evt_get_sync_offset, pt_pkt_get_sync_offset. rewrite Hq1. cbn [synced_at pd_sync].
  rewrite N2Nat.id. reflexivity.
Qed.

Section WRITTEN.
  Context (cf : config) (buf : list N) (base : nat).
  Hypothesis callback : callback_sized cf.
  Hypothesis freq : (cf_mtc_freq cf < 24)%N.
  Hypothesis small : (N.of_nat (length buf) + 1 < 2 ^ 31)%N.
  Hypothesis bytes : bytes_ok buf.
  (** No workaround changes packets, events or the flow. *)
  Hypothesis no_bdm64 : er_bdm64 (cf_errata cf) = false.
  Hypothesis no_skd022 : er_skd022 (cf_errata cf) = false.
  Hypothesis no_skl014 : er_skl014 (cf_errata cf) = false.
  Hypothesis no_skz84 : er_skz84 (cf_errata cf) = false.
  Hypothesis no_skips : no_skipping cf.
  Context {S C : Type} (im : blk_image S C) (mem : asid -> memory) (cached : C -> asid -> Prop).
  Context (content : N -> N -> option N) (at_ : asid -> N -> option place) (mode_of : N -> exec_mode).
  Hypothesis shows : blocks_show im mem cached content at_ mode_of.

  Lemma returns_stream d evs d' d'' e : returns d evs d' -> pt_evt_next d' = (d'', Err e) -> stream d evs e.
  Proof. induction 1; intros X; econstructor; eauto. Qed.

  (** The packets from a place on, as pt_pkt_next() reads them, and what follows them; and the
      events that they mean. *)
  Definition means (offset : N) (ps : list packet) (evs : list event) (err : pte) : Prop :=
    exists perr, whole (synced_at cf buf offset) ps perr /\ events_of cf track0 ps perr = (evs, Err err).

  Lemma meant q o d evs err : reachable base cf buf q -> evt_step base q o = (d, Ok None) -> stream d evs err ->
    exists offset ps, pt_evt_get_sync_offset d = Ok offset /\ means offset ps evs err.
  Proof.
    intros Hr E St.
    assert (R : reachable base cf buf d) by (eapply reach_step; [exact Hr|exact E|discriminate]).
    pose proof (reachable_ok cf buf callback freq small bytes base d R) as K.
    assert (Kc : ed_config d = cf /\ pd_buf (ed_pd d) = buf) by (destruct K as ((K1 & K2 & _) & _); split; assumption).
    destruct Kc as (K1 & K2).
    destruct (T_evfun.C57_events base q o d E) as (offset & ps & perr & evs' & e & d' & d'' & A1 & A2 & A3 & A4 & A5);
      rewrite ?K1, ?K2; try assumption; [exact (moves cf callback)|].
    rewrite K1, K2 in *. destruct (stream_unique _ _ _ St _ _ (returns_stream _ _ _ _ _ A4 A5)) as (-> & ->).
    exists offset, ps. split; [exact A1|]. exists perr. split; assumption.
  Qed.

  Lemma synced_step q o e : synced_to base q o e -> o = Qs_forward \/ (exists off, o = Qs_set off) ->
    exists o', evt_step base q o' = (e, Ok None) /\ (forall off, o = Qs_set off -> pt_evt_get_sync_offset e = Ok off).
  Proof.
    intros H [->|(off & ->)]; cbn [synced_to] in H.
    - exists Evt_sync_forward. cbn [evt_step]. rewrite H. split; [reflexivity|discriminate].
    - exists (Evt_sync_set off). cbn [evt_step]. rewrite H. split; [reflexivity|]. intros off' [= <-]. exact (set_offset _ _ _ H).
  Qed.
  Lemma bsynced_step q o e : evt_sync_step base q o = (e, Ok tt) ->
    exists o', evt_step base q o' = (e, Ok None) /\ (forall off, o = Bs_set off -> pt_evt_get_sync_offset e = Ok off).
  Proof.
    destruct o as [|off]; cbn [evt_sync_step]; intros H.
    - exists Evt_sync_forward. cbn [evt_step]. rewrite H. split; [reflexivity|discriminate].
    - exists (Evt_sync_set off). cbn [evt_step]. rewrite H. split; [reflexivity|]. intros off' [= <-]. exact (set_offset _ _ _ H).
  Qed.

  (** The instruction flow decoder.  Take any decoder on the trace and synchronize it.  The
      packets from the synchronization point on mean certain events.  What the documented loop
      shows is a flow that these events describe; and once it stops, it has shown all of every
      flow that they describe, in which no outcomes are left over at an indirect branch. *)
  Theorem C72_insns (d : insndec C) o d1 st :
    reachable base cf buf (qd_evdec (id_query d)) ->
    length (rs_stack (id_retstack d)) = 65%nat -> cached (id_scache d) pt_asid_init -> id_ticks d = false ->
    o = Qs_forward \/ (exists off, o = Qs_set off) ->
    insn_sync_step base (bi_image im) d o = (d1, Ok st) ->
    exists e offset ps evs err ip, synced_to base (qd_evdec (id_query d)) o e /\
      pt_evt_get_sync_offset e = Ok offset /\ (forall off, o = Qs_set off -> offset = off) /\
      means offset ps evs err /\ first_address e ip /\
      let s0 := mk_fstate (flow0 ip) None (flat_map facts_of evs) in
      (Forall no_trig evs -> forall n os d' r, drive (bi_image im) n d1 st = (os, d', r) ->
       Forall (fun o => match o with O_insn i => in_mode i <> ptem_unknown | O_event _ => True end) os ->
       (exists s, flows mem false err s0 os s /\ (r = Err pte_eos -> filter not_bit (fs_facts s) = [])) /\
       (image_total (bi_image im) cached -> N.of_nat n < 2 ^ 32 - 1 -> forall ws s, orderly_flows mem err s0 ws s ->
        (exists os1 os2, os = os1 ++ os2 /\ Forall2 same_obs os1 ws) \/
        (exists ws1 ws2, ws = ws1 ++ ws2 /\ Forall2 same_obs os ws1 /\ exists st, r = Ok st))).
  Proof.
    intros Hr Hl Hc Ht Ho E. pose proof (bl_image _ _ _ _ _ _ shows) as Sh.
    destruct (C55_flow cf buf base callback freq small bytes no_bdm64 no_skd022 no_skl014 (bi_image im) mem cached Sh
      d o d1 st Hr Hl Hc Ho E) as (e & evs & err & ip & A1 & A2 & A3 & A4).
    destruct (synced_step _ _ _ A1 Ho) as (o' & B1 & B2).
    destruct (meant _ _ _ _ _ Hr B1 A2) as (offset & ps & M1 & M2).
    exists e, offset, ps, evs, err, ip. split; [exact A1|]. split; [exact M1|].
    split; [intros off Hoff; specialize (B2 off Hoff); congruence|]. split; [exact M2|]. split; [exact (proj1 A3)|].
    cbv zeta. intros Hn n os d' r Hd Hk. rewrite Ht in A4. split.
    - destruct (A4 Hn n os d' r Hd Hk) as (s & F1 & F2 & _). exists s. split; assumption.
    - intros Tot Ln ws s Hw.
      destruct (C56_whole cf buf base callback freq small bytes no_bdm64 no_skd022 no_skl014 (bi_image im) mem cached Sh
        d o d1 st Hr Hl Hc Ho E Ht Tot) as (e' & evs' & err' & ip' & C1 & C2 & C3 & C4).
      assert (X : e' = e) by (destruct Ho as [->|(off & ->)]; cbn [synced_to] in *; congruence). subst e'.
      destruct (stream_unique _ _ _ A2 _ _ C2) as (<- & <-).
      pose proof (first_unique _ _ _ (proj1 A3) _ (proj1 C3)). subst ip'.
      exact (C4 Hn n os d' r Hd Ln Hk ws s Hw).
  Qed.

  (** The block decoder, likewise. *)
  Theorem C72_blocks (d : blkdec C) o d1 st :
    reachable base cf buf (bd_evdec d) -> length (rs_stack (bd_retstack d)) = 65%nat ->
    cached (bd_scache d) pt_asid_init -> caches_ok content mode_of (bd_caches d) -> bd_ticks d = false ->
    blk_sync_step base im d o = (d1, Ok st) -> blocks_total im cached ->
    exists e offset ps evs err ip, evt_sync_step base (bd_evdec d) o = (e, Ok tt) /\
      pt_evt_get_sync_offset e = Ok offset /\ (forall off, o = Bs_set off -> offset = off) /\
      means offset ps evs err /\ first_address e ip /\
      let s0 := mk_fstate (flow0 ip) None (flat_map facts_of evs) in
      (Forall plain_event evs -> sane mem content at_ mode_of err s0 ->
       forall n bs d' r, blk_drive im n d1 st = (bs, d', r) ->
       (exists s, bruns mem err s0 bs s /\ (r = Err pte_eos -> err = pte_eos /\ fs_held s = None /\ fs_facts s = [])) /\
       exists os, unfolded mem bs os /\ forall ws s, orderly_bflows mem err s0 ws s ->
         (exists os1 os2, os = os1 ++ os2 /\ Forall2 same_obs os1 ws) \/
         (exists ws1 ws2, ws = ws1 ++ ws2 /\ Forall2 same_obs os ws1 /\ forall e, r = Err e -> excused e)).
  Proof.
    intros Hr Hl Hc Hcs Ht E Tot.
    destruct (C58_blocks cf buf base callback freq small bytes no_bdm64 no_skd022 no_skl014 im mem cached content at_ mode_of shows
      d o d1 st Hr Hl Hc Hcs Ht E) as (e & evs & err & ip & A1 & A2 & A3 & A4).
    destruct (bsynced_step _ _ _ A1) as (o' & B1 & B2).
    destruct (meant _ _ _ _ _ Hr B1 A2) as (offset & ps & M1 & M2).
    exists e, offset, ps, evs, err, ip. split; [exact A1|]. split; [exact M1|].
    split; [intros off Hoff; specialize (B2 off Hoff); congruence|]. split; [exact M2|]. split; [exact (proj1 A3)|].
    cbv zeta. intros Hp Hs n bs d' r Hd. split.
    - destruct (A4 Hp Hs n bs d' r Hd) as (s & F1 & F2). exists s. split; [exact F1|]. intros ->. exact (F2 eq_refl).
    - destruct (C65_whole cf buf base callback freq small bytes no_bdm64 no_skd022 no_skl014 im mem cached content at_ mode_of shows Tot
        d o d1 st Hr Hl Hc Hcs Ht E) as (e' & evs' & err' & ip' & C1 & C2 & C3 & C4).
      rewrite A1 in C1. injection C1 as <-.
      destruct (stream_unique _ _ _ A2 _ _ C2) as (<- & <-).
      pose proof (first_unique _ _ _ (proj1 A3) _ (proj1 C3)). subst ip'.
      exact (C4 Hp Hs n bs d' r Hd).
  Qed.

  (** If packets were written to the end of the trace, then these are the packets from
      there on, and the trace ends behind them. *)
  Theorem C72_written pre ps ps' evs err : buf = pre ++ flat_map wire ps -> Forall in_range ps ->
    er_skd007 (cf_errata cf) = false \/ no_skd007_pair ps -> means (N.of_nat (length pre)) ps' evs err ->
    ps' = map sized ps /\ events_of cf track0 (map sized ps) pte_eos = (evs, Err err).
  Proof.
    intros Eb Hr Hk (perr & W & M). pose proof (C72_packets cf pre ps Hr Hk) as W'. rewrite <- Eb in W'.
    destruct (whole_unique _ _ _ W _ _ W') as (-> & ->). auto.
  Qed.
End WRITTEN.

(** ** A trace that was written: status, a conditional branch taken, a return to the caller, the
    end *)

Definition written1 : list payload :=
  [P_psb; P_mode (Mode_exec true false false); P_fup (mk_ip 1 0x1000); P_psbend; P_tnt_8 (mk_tnt 2 3); P_tip_pgd (mk_ip 0 0)].
Example C72_ex :
  (* the encoder *)
  (let r := enc_run (mk_enc (repeat 0 25) 0) written1 in
   Forall (fun r => is_ok (fst r) = true) (snd r) /\ e_pos (fst r) = 25%nat /\ e_buf (fst r) = trace_flow) /\
  Forall in_range written1 /\ trace_flow = [] ++ flat_map wire written1 /\ er_skd007 (cf_errata config0) = false /\
  (* the other hypotheses *)
  er_skz84 (cf_errata config0) = false /\ no_skipping config0 /\
  blocks_show blocks1 mem1 (fun _ _ => True) (flat_content program1) (flat_place 0x1000 program1) (fun _ => ptem_64bit) /\
  blocks_total blocks1 (fun _ _ => True) /\
  (exists d1 st, insn_sync_step 0 (bi_image blocks1) flow_dec (Qs_set 0) = (d1, Ok st)) /\
  (exists d1 st, blk_sync_step 0 blocks1 (block_dec trace_flow) (Bs_set 0) = (d1, Ok st)) /\
  (* what the packets mean *)
  map ev_var (fst (events_of config0 track0 (map sized written1) pte_eos)) =
    [Ev_enabled 4096 false; Ev_exec_mode ptem_64bit 4096; Ev_tnt 3 2; Ev_disabled 0] /\
  (* what the decoders show *)
  snd (fst (run_loop (Qs_set 0) 20)) = snd (fst (run_loop Qs_forward 20)) /\
  length (snd (fst (run_loop (Qs_set 0) 20))) = 8%nat.
Proof.
  assert (B : bytes_ok program1) by (repeat (apply Forall_cons; [reflexivity|]); apply Forall_nil).
  split; [vm_compute; repeat split; repeat (apply Forall_cons; [reflexivity|]); apply Forall_nil|].
  split; [repeat apply Forall_cons; try apply Forall_nil; vm_compute; repeat split; try reflexivity; intro; discriminate|].
  split; [vm_compute; reflexivity|]. split; [reflexivity|]. split; [reflexivity|]. split; [repeat split|].
  split; [apply flat_blocks_show; [discriminate|reflexivity|exact B]|]. split; [exact (proj1 C65_ex)|].
  split; [eexists; eexists; vm_compute; reflexivity|]. split; [eexists; eexists; vm_compute; reflexivity|].
  split; [vm_compute; reflexivity|]. split; vm_compute; reflexivity.
Qed.

Print Assumptions C72_packets.
Print Assumptions C72_encoder.
Print Assumptions C72_insns.
Print Assumptions C72_blocks.
Print Assumptions C72_written.
