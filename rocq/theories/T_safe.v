(** C68: no order of calls, no trace and no memory image leads a decoder into undefined
    behaviour, but for the one over-read of C52. *)

From Coq Require Import List NArith ZArith Bool PeanoNat Lia.
From Verif Require Import T_flow T_blk.
From Verif Require Import Base M_config M_cpu M_time M_pktdec M_event M_evdec M_query M_retstack M_asid M_ildtab M_ild
  M_insn M_insndec M_section M_image M_imgdec M_blk S_core S_x86 S_sync S_evdec S_evtrace S_query S_config S_image S_imgdec S_safe L_core
  L_evdec L_section L_image L_imgref L_imghist L_imgfind L_imguniq T_image T_evdec L_safe L_safe2 L_safe3 T_imgdec.
Import ListNotations.
Open Scope N_scope.

Section TRACE.
  (** Any trace and any configuration, with any errata. *)
  Context (cf : config) (buf : list N) (base : nat).
  Hypothesis sized : callback_sized cf.
  Hypothesis freq : (cf_mtc_freq cf < 24)%N.
  Hypothesis small : (N.of_nat (length buf) + 1 < 2 ^ 31)%N.
  Hypothesis bytes : bytes_ok buf.

  Section INSN.
    Context {S C : Type} (im : image_if S C) (held : C -> Prop) (sec : S -> Prop).
    Hypothesis Ht : tame im held sec.

    Theorem C68_insn ticks ev icnt stack cache cs c u :
      length stack = 65%nat -> held cache ->
      In (c, UB u) (insn_history im base (pt_insn_decoder_init cf ticks buf ev icnt stack cache) cs) ->
      (u = ub_oob_read /\ rex2_text im) \/ (u = ub_fuel /\ exists n, c = I_sync (Qs_backward n)).
    Proof.
      intros Hl Hc.
      assert (F : fit cf buf base held (pt_insn_decoder_init cf ticks buf ev icnt stack cache)).
      { constructor; cbn; [constructor|apply (rs_init_ok (mk_retstack stack 0 0))|exact Hc].
        unfold rs_ok. cbn. rewrite Hl. clear. lia. }
      revert F. generalize (pt_insn_decoder_init cf ticks buf ev icnt stack cache) as d. clear Hl Hc.
      induction cs as [|c0 cs IH]; intros d F Hin; [destruct Hin|]. cbn [insn_history] in Hin.
      assert (K : match insn_call im base d c0 with
                  | (d', UB u) => stopped im u \/ (u = ub_fuel /\ exists n, c0 = I_sync (Qs_backward n))
                  | (d', _) => fit cf buf base held d'
                  end).
      { destruct c0 as [o| |].
        - pose proof (sync_safe cf buf base sized freq small bytes im held sec Ht d o F) as K.
          destruct (insn_call im base d (I_sync o)) as [d' [v|e|u']]; [exact K|exact K|].
          destruct K as [K|(K & n & ->)]; [left; exact K|right]. split; [exact K|]. exists n. reflexivity.
        - pose proof (insn_next_safe cf buf base sized freq small bytes im held sec Ht d F) as K.
          destruct (insn_call im base d I_next) as [d' [v|e|u']]; [exact K|exact K|left; exact K].
        - pose proof (insn_event_safe cf buf base sized freq small bytes im held sec Ht d F) as K.
          destruct (insn_call im base d I_event) as [d' [v|e|u']]; [exact K|exact K|left; exact K]. }
      destruct (insn_call im base d c0) as [d' r]. destruct Hin as [E|Hin].
      - injection E as -> ->. exact K.
      - destruct r as [v|e|u']; [exact (IH d' K Hin)|exact (IH d' K Hin)|destruct Hin].
    Qed.
  End INSN.

  Section BLOCK.
    Context {S C : Type} (im : blk_image S C) (held : C -> Prop) (sec : S -> Prop).
    Hypothesis Ht : tame (bi_image im) held sec.
    (** Whatever other decoders do with the block caches, and whether they can be allocated. *)
    Hypothesis Ho : harmless held (bi_others im).
    Hypothesis Ha : forall k u, snd (bi_alloc im k) <> UB u.

    Theorem C68_blk ticks end_call end_jump stack cache bcs cs c u :
      length stack = 65%nat -> held cache -> counts bcs ->
      In (c, UB u) (blk_history im base (pt_blk_decoder_init cf ticks end_call end_jump buf stack cache bcs) cs) ->
      (u = ub_oob_read /\ rex2_text (bi_image im)) \/ (u = ub_fuel /\ exists n, c = B_sync_backward n).
    Proof.
      intros Hl Hc Hb.
      assert (F : fitb cf buf base held None (pt_blk_decoder_init cf ticks end_call end_jump buf stack cache bcs)).
      { constructor; cbn; [constructor|discriminate|apply (rs_init_ok (mk_retstack stack 0 0))|exact Hc|exact Hb|exact I].
        unfold rs_ok. cbn. rewrite Hl. clear. lia. }
      revert F. generalize (pt_blk_decoder_init cf ticks end_call end_jump buf stack cache bcs) as d. clear Hl Hc Hb.
      induction cs as [|c0 cs IH]; intros d F Hin; [destruct Hin|]. cbn [blk_history] in Hin.
      pose proof (blk_call_safe cf buf base sized freq small bytes im held sec Ht Ho Ha d c0 F) as K.
      destruct (blk_call im base d c0) as [d' r]. destruct Hin as [E|Hin].
      - injection E as -> ->. exact K.
      - destruct r as [v|e|u']; [exact (IH d' K Hin)|exact (IH d' K Hin)|destruct Hin].
    Qed.
  End BLOCK.

  (** An image of the library that was made by any sequence of calls that callers may do, and a
      callback that gives no more bytes than asked for. *)
  Section LIBRARY.
    Context (files : N -> file) (mp : section -> res mapping) (cb : option readmem).
    Context (f : refs) (w : world) (ops : list iop).
    Hypothesis Held : held f w.
    Hypothesis May : callers_may f (w, []) ops.
    Hypothesis Usable : usable files mp (snd (after w ops)) (fst (fst (after w ops))).
    Hypothesis Cb : forall c n a x, cb = Some c -> (n <= 15)%nat -> given (c (N.of_nat n) a x) (fun l => l) n.

    Lemma made_tame : tame (library_image files mp cb (made w ops))
      (L_imgdec.inv (snd (after w ops)) (fst (fst (after w ops))) (snd (fst (after w ops)))) (L_safe3.sec (snd (fst (after w ops)))).
    Proof.
      apply library_tame; try assumption.
      - apply (hi_wf _ _ _ (hinv_after f w ops Held May)).
      - apply (hi_facts _ _ _ (hinv_after f w ops Held May)).
      - apply (separate_after f w ops Held May).
      - intros e He. exact (free_alive _ _ _ _ (hi_owned _ _ _ (hinv_after f w ops Held May)) He).
      - exact (start_inv files mp w ops Usable).
    Qed.

    Theorem C68_library_insn ticks ev icnt stack cs c u : length stack = 65%nat ->
      In (c, UB u) (insn_history (library_image files mp cb (made w ops)) base
                      (pt_insn_decoder_init cf ticks buf ev icnt stack (made w ops)) cs) ->
      (u = ub_oob_read /\ rex2_text (library_image files mp cb (made w ops))) \/
      (u = ub_fuel /\ exists n, c = I_sync (Qs_backward n)).
    Proof. intros Hl. eapply (C68_insn _ _ _ made_tame); [exact Hl|]. exact (start_inv files mp w ops Usable). Qed.

    Theorem C68_library_blk size_of alloc kept ticks end_call end_jump stack cs c u :
      (forall k u, snd (alloc k) <> UB u) -> length stack = 65%nat ->
      In (c, UB u) (blk_history (library_blocks files mp cb size_of alloc kept (made w ops)) base
                      (pt_blk_decoder_init cf ticks end_call end_jump buf stack (made w ops) (fun _ => None)) cs) ->
      (u = ub_oob_read /\ rex2_text (library_image files mp cb (made w ops))) \/
      (u = ub_fuel /\ exists n, c = B_sync_backward n).
    Proof.
      intros Ha Hl. eapply (C68_blk (library_blocks files mp cb size_of alloc kept (made w ops)) _ _ made_tame);
        [|exact Ha|exact Hl|exact (start_inv files mp w ops Usable)|intros k b j; discriminate].
      intros c0 cs0 H1 H2. cbn [bi_others library_blocks]. auto.
    Qed.
  End LIBRARY.
End TRACE.
Print Assumptions C68_insn.
Print Assumptions C68_blk.
Print Assumptions C68_library_insn.
Print Assumptions C68_library_blk.

(** ** Examples *)

Lemma flat_given (at_ : N) (l : list N) ip n : bytes_ok l ->
  (length (firstn n (flat_bytes at_ l ip)) <= n)%nat /\ bytes_ok (firstn n (flat_bytes at_ l ip)).
Proof.
  intros Hb. split; [rewrite firstn_length; lia|]. assert (K : bytes_ok (flat_bytes at_ l ip)).
  { unfold flat_bytes. destruct (at_ <=? ip); [|constructor]. unfold bytes_ok in *. rewrite Forall_forall in *.
    intros b H. apply Hb. rewrite <- (firstn_skipn (N.to_nat (ip - at_)) l). apply in_or_app. right. exact H. }
  unfold bytes_ok in *. rewrite Forall_forall in *. intros b H. apply K. rewrite <- (firstn_skipn n). apply in_or_app. left. exact H.
Qed.
Lemma flat_tame at_ l isid : bytes_ok l -> tame (flat_image at_ l isid) (fun _ => True) (fun _ => True).
Proof.
  intros Hb. split; cbn [flat_image im_read im_lookup im_sread im_invalidate].
  - intros a ip n _. pose proof (flat_given at_ l ip n Hb) as K. destruct (flat_bytes at_ l ip); [exact I|exact K].
  - intros s ip _. pose proof (flat_given at_ l ip 15 Hb) as K. destruct (flat_bytes at_ l ip); [exact I|exact K].
  - intros c a ip _. destruct (flat_bytes at_ l ip); auto.
  - intros c _. split; [exact I|discriminate].
Qed.

(** A trace of which the end is cut off, and calls in no sensible order. *)
Definition cut_trace : list N := trace_flow ++ [0x02; 0x77; 0xff].
Definition any_calls : list icall :=
  [I_next; I_event; I_sync Qs_forward; I_next; I_event; I_event; I_next; I_next; I_sync (Qs_backward 9); I_next; I_event;
   I_sync (Qs_set 1000); I_event; I_sync (Qs_set 0); I_event; I_event; I_next; I_next; I_next; I_next; I_next; I_event; I_next].
Definition any_calls_b : list bcall :=
  [B_next; B_event; B_sync_forward; B_next; B_event; B_event; B_next; B_next; B_sync_backward 9; B_next; B_event;
   B_sync_set 1000; B_event; B_sync_set 0; B_event; B_event; B_next; B_next; B_next; B_next; B_next; B_event; B_next].
Definition any_dec : insndec unit := pt_insn_decoder_init config0 true cut_trace None 0 (repeat 0 65) tt.
Definition any_dec_b : blkdec unit :=
  pt_blk_decoder_init config0 true false true cut_trace (repeat 0 65) tt (fun _ => None).
Definition results := map (fun c => snd c : res N) (insn_history (flat_image 0x1000 program1 7) 0 any_dec any_calls).
Definition results_b := map (fun c => snd c : res N) (blk_history (flat_blocks 0x1000 program1 7) 0 any_dec_b any_calls_b).
Example C68_ex :
  callback_sized config0 /\ (cf_mtc_freq config0 < 24)%N /\ (N.of_nat (length cut_trace) + 1 < 2 ^ 31)%N /\ bytes_ok cut_trace /\
  tame (flat_image 0x1000 program1 7) (fun _ => True) (fun _ => True) /\
  harmless (fun _ => True) (bi_others (flat_blocks 0x1000 program1 7)) /\
  (forall k u, snd (bi_alloc (flat_blocks 0x1000 program1 7) k) <> UB u) /\
  results =
    [Err pte_no_enable; Err pte_bad_query; Ok 1; Ok 1; Ok 0; Ok 0; Err pte_bad_query; Ok 0; Ok 0; Ok 0; Err pte_bad_query; Err pte_eos;
     Err pte_bad_query; Ok 1; Ok 1; Ok 0; Ok 0; Ok 0; Ok 0; Ok 0; Ok 1; Err pte_bad_opc; Err pte_no_enable] /\
  results_b =
    [Err pte_nosync; Err pte_nosync; Ok 1; Ok 1; Ok 1; Ok 0; Ok 0; Ok 0; Ok 0; Ok 1; Ok 1; Err pte_eos;
     Err pte_nosync; Ok 1; Ok 1; Ok 0; Ok 0; Ok 0; Ok 1; Ok 1; Err pte_nomap; Ok 3; Err pte_bad_opc].
Proof.
  split; [exact I|]. split; [reflexivity|]. split; [reflexivity|].
  split; [repeat (apply Forall_cons; [reflexivity|]); apply Forall_nil|].
  split; [apply flat_tame; repeat (apply Forall_cons; [reflexivity|]); apply Forall_nil|].
  split; [intros c cs _ H; cbn; auto|]. split; [discriminate|]. split; vm_compute; reflexivity.
Qed.

(** The exception is needed: memory can end in a REX2 prefix. *)
Definition rex2_code : list N := repeat 0x66 13 ++ [0xd5; 0].
Example C68_rex2_ex :
  rex2_text (flat_image 0x1000 rex2_code 7) /\ bytes_ok rex2_code /\
  In (I_next, UB ub_oob_read)
     (insn_history (flat_image 0x1000 rex2_code 7) 0 any_dec [I_sync Qs_forward; I_event; I_event; I_next]) /\
  In (B_next, UB ub_oob_read)
     (blk_history (flat_blocks 0x1000 rex2_code 7) 0 any_dec_b [B_sync_forward; B_event; B_event; B_next]).
Proof.
  split; [|split; [repeat (apply Forall_cons; [reflexivity|]); apply Forall_nil|split]].
  - exists pt_asid_init, 0x1000, (repeat 0x66 13), 0. split; [apply (tx_read _ _ _ 7); reflexivity|].
    split; [reflexivity|]. repeat constructor.
  - apply (nth_error_In _ 3). vm_compute. reflexivity.
  - apply (nth_error_In _ 3). vm_compute. reflexivity.
Qed.
