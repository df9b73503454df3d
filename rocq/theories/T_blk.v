(** C58: the blocks and events of the block decoder stand for a flow that the trace
    describes. *)

From Coq Require Import List NArith ZArith Bool PeanoNat Lia ZifyBool ZifyNat ZifyN.
From Verif Require Import Base M_config M_time M_pktdec M_event M_evdec M_query M_retstack M_asid M_ildtab M_ild
  M_insn M_insndec M_blk S_core S_sync S_evdec S_x86 S_insn S_query S_evtrace S_flow S_drive S_blk L_core L_evdec
  L_evsafe L_evnext L_insn T_ild T_insn L_query L_query2 T_evdec T_evtrace L_flow6 T_flow L_blk L_blk3 L_blk6 L_blk9 L_blk10.
Import ListNotations.
Open Scope N_scope.

Section BLOCKS.
  Context (cf : config) (buf : list N) (base : nat).
  Hypothesis sized : callback_sized cf.
  Hypothesis freq : (cf_mtc_freq cf < 24)%N.
  Hypothesis small : (N.of_nat (length buf) + 1 < 2 ^ 31)%N.
  Hypothesis bytes : bytes_ok buf.
  Hypothesis no_bdm64 : er_bdm64 (cf_errata cf) = false.
  Hypothesis no_skd022 : er_skd022 (cf_errata cf) = false.
  Hypothesis no_skl014 : er_skl014 (cf_errata cf) = false.
  Context {S C : Type} (im : blk_image S C) (mem : asid -> memory) (cached : C -> asid -> Prop).
  Context (content : N -> N -> option N) (at_ : asid -> N -> option place) (mode_of : N -> exec_mode).
  Hypothesis shows : blocks_show im mem cached content at_ mode_of.

  (** Take any block decoder on the trace [buf], whatever was done with it before, with
      block caches that describe their sections, however they were filled.  Synchronize it
      forwards or at an offset.  An event decoder can synchronize there, too, and delivers the
      events [evs] and then the error [err].  There may be a first address [ip].

      If no flow that these events describe gets to one of the states in which the decoder
      is known to go wrong, then the blocks and events that the documented loop shows stand for
      a flow that these events describe, starting at [ip]: the instructions of a block are
      executed one after the other, none needs the trace but the last one, and events
      happen between blocks.  If the loop may go on, the status says whether tracing is on, and
      the end of the trace is only reported if nothing is left; the same holds for the error
      at the end of the trace.  The block caches are still right.  The only undefined behaviour
      is the known read behind an instruction's bytes. *)
  Theorem C58_blocks (d : blkdec C) o d1 st :
    reachable base cf buf (bd_evdec d) -> length (rs_stack (bd_retstack d)) = 65%nat ->
    cached (bd_scache d) pt_asid_init -> caches_ok content mode_of (bd_caches d) -> bd_ticks d = false ->
    blk_sync_step base im d o = (d1, Ok st) ->
    exists q evs err ip, evt_sync_step base (bd_evdec d) o = (q, Ok tt) /\ stream q evs err /\ starts q evs ip /\
      (Forall plain_event evs ->
       sane mem content at_ mode_of err (mk_fstate (flow0 ip) None (flat_map facts_of evs)) ->
       forall n os d' r, blk_drive im n d1 st = (os, d', r) ->
       exists s, bruns mem err (mk_fstate (flow0 ip) None (flat_map facts_of evs)) os s /\
         match r with
         | Ok st' => flag st' pts_ip_suppressed = negb (f_on (fs_flow s)) /\
             (flag st' pts_eos = true -> err = pte_eos /\ fs_held s = None /\ fs_facts s = []) /\
             (flag st' pts_event_pending = false -> caches_ok content mode_of (bd_caches d'))
         | Err e => e = pte_eos -> err = pte_eos /\ fs_held s = None /\ fs_facts s = []
         | UB u => u = ub_oob_read /\ exists is s1, bflows mem err s (map O_insn is) s1 /\
             rex2_hole (mem (f_asid (fs_flow s1))) (f_mode (fs_flow s1)) (f_ip (fs_flow s1))
         end).
  Proof.
    intros Hr Hl Hc Hcs Ht E.
    pose proof (sync_ok cf buf base sized freq small bytes no_bdm64 no_skd022 im mem cached content at_ mode_of (fun _ => True) d o Hr Hl Hc Hcs Ht) as K.
    rewrite E in K. destruct (evt_sync_step base (bd_evdec d) o) as [q [[]|e|u]]; [|discriminate K|destruct K].
    destruct K as (evs & err & ip & Hf & Hs & K). exists q, evs, err, ip. split; [reflexivity|].
    split; [destruct Hf as (q0 & o0 & _ & _ & Hf); exact Hf|]. split; [exact Hs|].
    intros Hp Sn n os d' r Hd. destruct (K Hp Sn) as (s0 & F0 & B0).
    pose proof (drive_ok cf buf base err sized freq small bytes no_bdm64 no_skd022 no_skl014 im mem cached content at_ mode_of shows
      (fun _ => True) I (fun _ _ _ _ _ _ _ => I) (fun _ _ _ _ _ => I) (fun _ _ _ => I)
      n d1 st s0 (sane_flow _ _ _ _ _ _ _ _ Sn F0) B0) as D. rewrite Hd in D. destruct D as (s & R & O).
    exists s. split; [exact (bruns_silent mem err _ _ _ _ F0 R)|].
    destruct r as [st'|e|u]; [|exact (proj1 O)|exact O]. destruct O as [O1 O2 O3]. split; [exact O1|]. split; [exact O2|].
    intros N. rewrite N in O3. apply O3.
  Qed.
End BLOCKS.
Print Assumptions C58_blocks.

(** A condition on the trace that rules out the states in which the decoder goes wrong: the
    mode is [m] from the first instruction to the last one, sections are in memory as a whole
    and hold code for that mode, and the trace is tidy. *)
Theorem C58_tidy mem content at_ mode_of err m ip fs : m <> ptem_unknown ->
  (forall a ip p, at_ a ip = Some p -> mode_of (pl_key p) = m) ->
  (forall a ip p, at_ a ip = Some p -> content (pl_key p) (pl_off p + pl_left p) = None) ->
  tidy m (match ip with Some _ => true | None => false end) (Some match ip with Some a => a | None => 0 end) fs = true ->
  sane mem content at_ mode_of err (mk_fstate (flow0 ip) None fs).
Proof. intros. eapply tidy_sane; eassumption. Qed.
Print Assumptions C58_tidy.

(** ** An example: one section *)

Definition flat_blocks (at_ : N) (l : list N) (isid : N) : blk_image unit unit :=
  mk_blk_image _ _ (flat_image at_ l isid) (fun _ _ => false) (fun _ => 1) (fun _ => at_)
    (fun _ => at_ + N.of_nat (length l)) (fun _ => 0) (fun _ => N.of_nat (length l)) (fun _ => (true, Ok tt))
    (fun _ _ => true) (fun c cs => (c, cs)).
Definition flat_content (l : list N) (k o : N) : option N := if k =? 1 then nth_error l (N.to_nat o) else None.
Definition flat_place (at_ : N) (l : list N) (a : asid) (ip : N) : option place :=
  if (at_ <=? ip) && (ip <? at_ + N.of_nat (length l))
  then Some (mk_place 1 (ip - at_) (at_ + N.of_nat (length l) - ip)) else None.

Lemma skipn_nth {A} (l : list A) : forall n, match skipn n l with x :: _ => nth_error l n = Some x | [] => nth_error l n = None end.
Proof. induction l as [|x l IH]; intros [|n]; try reflexivity. apply IH. Qed.

Lemma flat_blocks_show at_ l isid mode_of : at_ + N.of_nat (length l) <= 2 ^ 64 -> N.of_nat (length l) < 2 ^ 63 -> bytes_ok l ->
  blocks_show (flat_blocks at_ l isid) (fun _ => flat_mem at_ l isid) (fun _ _ => True) (flat_content l) (flat_place at_ l) mode_of.
Proof.
  intros Ha Hl Hb. pose proof (flat_shows at_ l isid Ha Hb) as Sh. 
  change (2 ^ 64) with 18446744073709551616 in *. change (2 ^ 63) with 9223372036854775808 in *.
  constructor.
  - exact Sh.
  - intros c a ip c' isid0 [] _ E. cbn [flat_blocks bi_image im_lookup flat_image] in E.
    assert (W : window (flat_blocks at_ l isid) tt ip /\ isid0 = isid).
    { destruct (flat_bytes at_ l ip) eqn:Fb; [discriminate|]. injection E as <- <-. split; [|reflexivity].
      unfold flat_bytes in Fb. destruct (N.leb_spec at_ ip) as [L|L]; [|discriminate].
      assert (X : (N.to_nat (ip - at_) < length l)%nat).
      { assert (K : length (skipn (N.to_nat (ip - at_)) l) = (length l - N.to_nat (ip - at_))%nat) by apply skipn_length. rewrite Fb in K.
        cbn [length] in K. lia. }
      split; cbn; lia. }
    destruct W as (W & ->). split; [exact W|]. split; [cbn; exact Ha|]. split; [cbn; lia|].
    intros ip' (W1 & W2). cbn [flat_blocks bi_begin bi_end bi_key bi_image] in *.
    assert (Eo : pt_msec_unmap (flat_blocks at_ l isid) tt ip' = ip' - at_).
    { unfold pt_msec_unmap, add64, sub64. cbn [flat_blocks bi_begin bi_offset]. change (2 ^ 64) with 18446744073709551616.
      rewrite N.add_0_r. rewrite N.mod_mod by discriminate.
      replace (ip' + (18446744073709551616 - at_ mod 18446744073709551616)) with (ip' - at_ + 1 * 18446744073709551616).
      2:{ rewrite (N.mod_small at_) by lia. lia. }
      rewrite N.mod_add by discriminate. apply N.mod_small. lia. }
    rewrite Eo. unfold flat_place. destruct (N.leb_spec at_ ip'); [|lia]. destruct (N.ltb_spec ip' (at_ + N.of_nat (length l))); [|lia].
    cbn [andb]. split; [reflexivity|].
    assert (Fb : exists b t, flat_bytes at_ l ip' = b :: t /\ nth_error l (N.to_nat (ip' - at_)) = Some b).
    { unfold flat_bytes. destruct (N.leb_spec at_ ip'); [|lia]. pose proof (skipn_nth l (N.to_nat (ip' - at_))) as K.
      destruct (skipn (N.to_nat (ip' - at_)) l) as [|b t] eqn:Es; [|eauto]. apply nth_error_None in K. lia. }
    destruct Fb as (b & t & Fb & Fn). split.
    + exists b. unfold flat_content, flat_mem. rewrite Fb. auto.
    +
      pose proof (is_lookup _ _ _ Sh tt a ip' I) as K. cbn [im_lookup flat_image im_sread] in K |- *. rewrite Fb in K |- *.
      destruct K as (_ & _ & l0 & K1 & K2 & K3 & K4). injection K1 as <-. exists (firstn 15 (b :: t)). repeat (split; [reflexivity || assumption|]).
      rewrite firstn_length, <- Fb. unfold flat_bytes. destruct (N.leb_spec at_ ip'); [|lia]. rewrite skipn_length. f_equal. lia.
  - intros a ip p n isid0 l0. unfold flat_place. destruct (N.leb_spec at_ ip) as [L1|L1]; [|discriminate].
    destruct (N.ltb_spec ip (at_ + N.of_nat (length l))) as [L2|L2]; [|discriminate]. cbn [andb]. intros [= <-].
    cbn [flat_blocks bi_image im_read flat_image pl_left]. destruct (flat_bytes at_ l ip) eqn:Fb; [discriminate|]. intros [= _ <-].
    rewrite <- Fb. unfold flat_bytes. destruct (N.leb_spec at_ ip); [|lia]. rewrite firstn_length, skipn_length. lia.
  - intros k o b. unfold flat_content. destruct (k =? 1); [|discriminate]. intros E. cbn [flat_blocks bi_size].
    assert (X : nth_error l (N.to_nat o) <> None) by congruence. apply nth_error_Some in X. lia.
  - intros k. cbn. split; discriminate.
  - intros c cs a H1 H2. cbn. auto.
Qed.

Lemma flat_whole at_ l a ip p : flat_place at_ l a ip = Some p -> flat_content l (pl_key p) (pl_off p + pl_left p) = None.
Proof.
  unfold flat_place. destruct (N.leb_spec at_ ip); [|discriminate].
  destruct (N.ltb_spec ip (at_ + N.of_nat (length l))); [|discriminate]. intros [= <-]. cbn [pl_key pl_off pl_left].
  unfold flat_content. cbn [N.eqb Pos.eqb]. apply nth_error_None. lia.
Qed.

(** The decoder on the program of C55. *)
Definition blocks1 : blk_image unit unit := flat_blocks 0x1000 program1 7.
Definition block_dec (buf : list N) : blkdec unit :=
  pt_blk_decoder_init config0 false false false buf (repeat 0 65) tt (fun _ => None).
Definition block_sight (o : bobs) : (N * N * N * iclass * N) + N + (evar * bool) :=
  match o with
  | B_block b st => inl (inl (b_ip b, b_end_ip b, b_ninsn b, b_iclass b, st))
  | B_last b => inl (inr (b_ninsn b))
  | B_event e => inr (ev_var e, ev_status_update e)
  end.
Definition run_blocks (im : blk_image unit unit) (d : blkdec unit) (o : blk_sync_op) (n : nat) :=
  match blk_sync_step 0 im d o with
  | (d, Ok st) => match blk_drive im n d st with (os, _, r) => (st, map block_sight os, r) end
  | (_, r) => (0, [], r)
  end.
(** All events of a trace. *)
Fixpoint all_events (n : nat) (q : evdec) : list event * res event :=
  match n with
  | O => ([], UB ub_fuel)
  | Datatypes.S n => match pt_evt_next q with
           | (q, Ok e) => match all_events n q with (es, r) => (e :: es, r) end
           | (_, r) => ([], r)
           end
  end.
Definition events_from (buf : list N) (o : blk_sync_op) : list event * res event :=
  match evt_sync_step 0 (bd_evdec (block_dec buf)) o with
  | (q, Ok _) => all_events 50 q
  | _ => ([], UB ub_fuel)
  end.
Lemma all_events_stream n : forall q es e, all_events n q = (es, Err e) -> stream q es e.
Proof.
  induction n as [|n IH]; intros q es e; [discriminate|]. cbn [all_events].
  destruct (pt_evt_next q) as [q' [ev|e'|u]] eqn:E; [|intros [= <- <-]; econstructor; exact E|discriminate].
  destruct (all_events n q') as [es' r] eqn:E'. intros [= <- ->]. econstructor; [exact E|]. apply IH. exact E'.
Qed.

Lemma events_from_stream buf o es e : events_from buf o = (es, Err e) ->
  exists q, evt_sync_step 0 (bd_evdec (block_dec buf)) o = (q, Ok tt) /\ stream q es e.
Proof.
  unfold events_from. destruct (evt_sync_step 0 (bd_evdec (block_dec buf)) o) as [q [[]|e'|u]]; try discriminate.
  intros E. exists q. split; [reflexivity|]. eapply all_events_stream. exact E.
Qed.
Definition all1 : list event * res event :=
  ([mk_event (Ev_enabled 4096 false) true false false 0 0 0;
    mk_event (Ev_exec_mode ptem_64bit 4096) true false false 0 0 0;
    mk_event (Ev_tnt 3 2) false false false 0 0 0;
    mk_event (Ev_disabled 0) false true false 0 0 0], Err pte_eos).
Lemma events1 : events_from trace_flow Bs_forward = all1.
Proof. vm_compute. reflexivity. Qed.
Lemma run1 : run_blocks blocks1 (block_dec trace_flow) Bs_forward 20 =
  (pts_event_pending,
   [inr (Ev_enabled 4096 true, true); inr (Ev_exec_mode ptem_64bit 4096, true);
    inl (inl (4096, 4096, 1, ptic_call, 0)); inl (inl (4104, 4104, 1, ptic_cond_jump, 0));
    inl (inl (4107, 4107, 1, ptic_return, 0));
    inl (inl (4101, 4102, 2, ptic_far_call, pts_event_pending)); inr (Ev_disabled 0, false);
    inl (inr 0)],
   Err pte_eos).
Proof. vm_compute. reflexivity. Qed.

(** The hypotheses hold for this decoder, the trace is tidy, and this is what the loop shows. *)
Example C58_ex :
  callback_sized config0 /\ (cf_mtc_freq config0 < 24)%N /\ bytes_ok trace_flow /\
  er_bdm64 (cf_errata config0) = false /\ er_skd022 (cf_errata config0) = false /\
  er_skl014 (cf_errata config0) = false /\
  blocks_show blocks1 mem1 (fun _ _ => True) (flat_content program1) (flat_place 0x1000 program1) (fun _ => ptem_64bit) /\
  reachable 0 config0 trace_flow (bd_evdec (block_dec trace_flow)) /\
  length (rs_stack (bd_retstack (block_dec trace_flow))) = 65%nat /\
  caches_ok (flat_content program1) (fun _ => ptem_64bit) (bd_caches (block_dec trace_flow)) /\
  (exists q evs, evt_sync_step 0 (bd_evdec (block_dec trace_flow)) Bs_forward = (q, Ok tt) /\
     stream q evs pte_eos /\ starts q evs (Some 0x1000) /\ Forall plain_event evs /\
     sane mem1 (flat_content program1) (flat_place 0x1000 program1) (fun _ => ptem_64bit) pte_eos
       (mk_fstate (flow0 (Some 0x1000)) None (flat_map facts_of evs))) /\
  run_blocks blocks1 (block_dec trace_flow) Bs_forward 20 =
    (pts_event_pending,
     [inr (Ev_enabled 4096 true, true); inr (Ev_exec_mode ptem_64bit 4096, true);
      inl (inl (4096, 4096, 1, ptic_call, 0)); inl (inl (4104, 4104, 1, ptic_cond_jump, 0));
      inl (inl (4107, 4107, 1, ptic_return, 0));
      inl (inl (4101, 4102, 2, ptic_far_call, pts_event_pending)); inr (Ev_disabled 0, false);
      inl (inr 0)],
     Err pte_eos).
Proof.
  assert (B : bytes_ok program1) by (repeat (apply Forall_cons; [reflexivity|]); apply Forall_nil).
  split; [exact I|]. split; [reflexivity|].
  split; [repeat (apply Forall_cons; [reflexivity|]); apply Forall_nil|].
  split; [reflexivity|]. split; [reflexivity|]. split; [reflexivity|].
  split; [apply flat_blocks_show; [discriminate|reflexivity|exact B]|].
  split; [constructor|]. split; [reflexivity|]. split; [intros k c; discriminate|].
  split; [|exact run1].
  destruct (events_from_stream _ _ _ _ events1) as (q & Eq & E). exists q, (fst all1). split; [exact Eq|]. split; [exact E|].
  assert (L : let q := fst (evt_sync_step 0 (bd_evdec (block_dec trace_flow)) Bs_forward) in
              start_loop 20 (evt_pos q) q = Ok (Some 0x1000)) by (vm_compute; reflexivity).
  rewrite Eq in L. cbn [fst] in L.
  split; [split; [exact (start_loop_first _ _ _ _ L)|];
          exists []; do 3 eexists; split; [reflexivity|split; [repeat constructor|reflexivity]]|].
  split; [repeat constructor; discriminate|].
  apply (C58_tidy _ _ _ _ _ ptem_64bit); [discriminate|reflexivity| |vm_compute; reflexivity].
  apply flat_whole.
Qed.

(** ** Findings *)

(** The end of the trace is not reported as -pte_eos.  The first block needs a branch outcome
    that the trace does not have any more: the trace ends, and the events do so with -pte_eos.
    pt_insn_next() returns -pte_eos; pt_blk_next() returns -pte_bad_query, since there is no
    event of the kind the branch needs (pt_block_decoder.c:389-390, 409-410), although
    intel-pt.h documents -pte_eos. *)
Definition trace_short : list N := psb_bytes ++ [0x99; 0x01;  0x3d; 0x00; 0x10;  0x02; 0x23].
Definition short_insn : res N :=
  match insn_sync_step 0 image1 (pt_insn_decoder_init config0 false trace_short None 0 (repeat 0 65) tt) Qs_forward with
  | (d, Ok st) => snd (drive image1 20 d st)
  | (_, r) => r
  end.
Theorem C58_eos_refuted :
  snd (events_from trace_short Bs_forward) = Err pte_eos /\ short_insn = Err pte_eos /\
  snd (run_blocks blocks1 (block_dec trace_short) Bs_forward 20) = Err pte_bad_query.
Proof. vm_compute. repeat split; reflexivity. Qed.

(** pt_blk_sync_backward() does not say that events are pending.  At the same place, forwards, it
    is known that there are. *)
Definition backward_status (buf : list N) : res N :=
  snd (pt_blk_sync_backward blocks1 9 0 (fst (pt_blk_sync_set blocks1 (N.of_nat (length buf)) (block_dec buf)))).
Theorem C58_backward_refuted :
  snd (pt_blk_sync_forward blocks1 0 (block_dec trace_flow)) = Ok pts_event_pending /\
  backward_status trace_flow = Ok 0.
Proof. vm_compute. split; reflexivity. Qed.

(** The block cache ignores the execution mode.  The code [48 ff c0 90 ff e0] is four
    instructions in 32-bit mode and three in 64-bit mode.  After it was executed in 32-bit mode, the
    decoder counts four instructions in 64-bit mode, too. *)
Definition two_modes : blk_image unit unit := flat_blocks 0x1000 [0x48; 0xff; 0xc0; 0x90; 0xff; 0xe0] 7.
(** MODE.Exec, the address, then the code is executed in a loop. *)
Definition trace_modes (mode : N) (more : list N) : list N :=
  psb_bytes ++ [0x99; mode;  0x3d; 0x00; 0x10;  0x02; 0x23;  0x2d; 0x00; 0x10;  0x2d; 0x00; 0x10] ++ more.
(** A change to 64-bit mode with the next jump. *)
Definition to_64 : list N := [0x99; 0x01; 0x2d; 0x00; 0x10;  0x2d; 0x00; 0x10;  0x2d; 0x00; 0x10].
Definition counts (l : list ((N * N * N * iclass * N) + N + (evar * bool))) : list (N + exec_mode) :=
  flat_map (fun o => match o with
                     | inl (inl (_, _, n, _, _)) => [inl n]
                     | inr (Ev_exec_mode m _, _) => [inr m]
                     | _ => []
                     end) l.
Definition counted (buf : list N) : list (N + exec_mode) :=
  counts (snd (fst (run_blocks two_modes (block_dec buf) Bs_forward 30))).
Theorem C58_mode_refuted :
  counted (trace_modes 1 []) = [inr ptem_64bit; inl 3; inl 3] /\
  counted (trace_modes 2 []) = [inr ptem_32bit; inl 4; inl 4] /\
  counted (trace_modes 2 to_64) = [inr ptem_32bit; inl 4; inl 4; inl 4; inr ptem_64bit; inl 4; inl 4].
Proof. vm_compute. repeat split; reflexivity. Qed.
