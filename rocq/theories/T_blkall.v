(** C65: the block decoder's loop shows all of the flow. *)

From Coq Require Import List NArith ZArith Bool PeanoNat Lia.
From Verif Require Import Base M_config M_time M_pktdec M_event M_evdec M_query M_retstack M_asid M_ildtab M_ild
  M_insn M_insndec M_blk S_core S_sync S_evdec S_x86 S_insn S_query S_evtrace S_flow S_drive S_blk S_agree L_core
  L_evdec L_evsafe L_evnext L_insn T_ild T_insn L_query L_query2 T_evdec T_evtrace L_flow L_flow2 L_flow3 L_flow4 L_flow5
  L_flow6 L_flow7 T_flow L_blk L_blk3 L_blk6 L_blk9 L_blk10 T_blk L_agree T_agree.
Import ListNotations.
Open Scope N_scope.

(** The image and the memory for the block caches give no errors of their own. *)
Definition blocks_total {S C} (im : blk_image S C) (cached : C -> asid -> Prop) : Prop :=
  image_total (bi_image im) cached /\ (forall k e, snd (bi_alloc im k) <> Err e).

(** The error after which the loop may not have shown everything: the 32-bit counter of
    instructions would overflow. *)
Definition excused (e : pte) : Prop := e = pte_overflow.

Section ALL.
  Context (cf : config) (buf : list N) (base : nat).
  Hypothesis sized : callback_sized cf.
  Hypothesis freq : (cf_mtc_freq cf < 24)%N.
  Hypothesis small : (N.of_nat (length buf) + 1 < 2 ^ 31)%N.
  Hypothesis bytes : bytes_ok buf.
  Hypothesis no_bdm64 : er_bdm64 (cf_errata cf) = false.
  Hypothesis no_skd022 : er_skd022 (cf_errata cf) = false.
  Hypothesis no_skl014 : er_skl014 (cf_errata cf) = false.
  Context {S C : Type} (im : blk_image S C) (mem : asid -> memory) (cached : C -> asid -> Prop).
  Context (content : N -> N -> option N) (at_ : asid -> N -> option place) (mode_of : N -> exec_mode).
  Hypothesis shows : blocks_show im mem cached content at_ mode_of.
  Hypothesis total : blocks_total im cached.

  (** Take a block decoder, whatever was done with it before, that was synchronized, and let the
      documented loop make any number of calls.  What it shows stands for instructions and
      events [os].  Take any flow [ws] that the events of the trace describe in which no
      outcomes of conditional branches are left over at an indirect branch.  Then [ws] is the
      beginning of [os], or [os] is the beginning of [ws] and there is more in [ws].
      In the second case the loop was not stopped by an error, except for -pte_overflow.
      So a loop that ends with an error showed everything that the trace and the
      memory say about the execution. *)
  Theorem C65_whole (d : blkdec C) o d1 st :
    reachable base cf buf (bd_evdec d) ->
    length (rs_stack (bd_retstack d)) = 65%nat -> cached (bd_scache d) pt_asid_init ->
    caches_ok content mode_of (bd_caches d) -> bd_ticks d = false ->
    blk_sync_step base im d o = (d1, Ok st) ->
    exists q evs err ip, evt_sync_step base (bd_evdec d) o = (q, Ok tt) /\ stream q evs err /\ starts q evs ip /\
      let s0 := mk_fstate (flow0 ip) None (flat_map facts_of evs) in
      (Forall plain_event evs -> sane mem content at_ mode_of err s0 ->
       forall n bs d' r, blk_drive im n d1 st = (bs, d', r) ->
       exists os, unfolded mem bs os /\
         forall ws s, orderly_bflows mem err s0 ws s ->
         (exists os1 os2, os = os1 ++ os2 /\ Forall2 same_obs os1 ws) \/
         (exists ws1 ws2, ws = ws1 ++ ws2 /\ Forall2 same_obs os ws1 /\
            forall e, r = Err e -> excused e)).
  Proof.
    intros Hr Hl Hc Hcs Ht E. destruct total as ((Tl & Ti) & Ta).
    pose proof (sync_ok cf buf base sized freq small bytes no_bdm64 no_skd022 im mem cached content at_ mode_of excused
      d o Hr Hl Hc Hcs Ht) as K.
    rewrite E in K. destruct (evt_sync_step base (bd_evdec d) o) as [q [[]|e|u]]; [|discriminate K|destruct K].
    destruct K as (evs & err & ip & Hf & Hs & K). exists q, evs, err, ip. split; [reflexivity|].
    split; [destruct Hf as (q0 & o0 & _ & _ & Hf); exact Hf|]. split; [exact Hs|].
    intros s0 Hp Sn n os d' r Hd. destruct (K Hp Sn) as (s1 & F0 & B0).
    pose proof (drive_ok cf buf base err sized freq small bytes no_bdm64 no_skd022 no_skl014 im mem cached content at_ mode_of shows
      excused eq_refl (fun c a ip e X Y Z => False_ind _ (Z (Tl c a ip e X Y)))
      (fun c a e X Y => False_ind _ (Ti c a e X Y)) (fun k e X => False_ind _ (Ta k e X))
      n d1 st s1 (sane_flow _ _ _ _ _ _ _ _ Sn F0) B0) as D. rewrite Hd in D. destruct D as (s & R & O).
    destruct (runs_unfold _ _ _ _ _ (bruns_silent mem err _ _ _ _ F0 R)) as (zs & U & Fl).
    exists zs. split; [exact U|]. intros ws s2 W. fold s0 in Fl.
    pose proof (sane_known _ _ _ _ _ _ Sn) as Kn. fold s0 in Kn.
    destruct (bflows_all _ _ _ _ _ Fl Kn _ _ W) as [(ws1 & ws2 & -> & K1 & K2)|X]; [|left; exact X].
    destruct r as [st'|e|u].
    - right. exists ws1, ws2. split; [reflexivity|]. split; [exact K1|]. discriminate.
    - destruct O as (_ & s3 & F3 & [X|B]).
      + right. exists ws1, ws2. split; [reflexivity|]. split; [exact K1|]. intros e' [= <-]. exact X.
      + left. pose proof (bflows_app' _ _ _ _ _ _ _ Fl F3) as FF. rewrite app_nil_r in FF.
        destruct (bflows_all _ _ _ _ _ FF Kn _ _ W) as [(ws3 & ws4 & X1 & X2 & X3)|X]; [|exact X].
        rewrite (blocked_flows _ _ _ _ _ B X3), app_nil_r in X1. exists zs, []. rewrite app_nil_r, X1. auto.
    - right. exists ws1, ws2. split; [reflexivity|]. split; [exact K1|]. discriminate.
  Qed.

  (** When synchronizing fails, then the event decoder cannot be synchronized, or the
      trace's own error comes before the first event that is not a status update, or no
      instruction and no event follows from the trace at all. *)
  Theorem C65_sync (d : blkdec C) o d1 e :
    reachable base cf buf (bd_evdec d) ->
    length (rs_stack (bd_retstack d)) = 65%nat -> cached (bd_scache d) pt_asid_init ->
    caches_ok content mode_of (bd_caches d) -> bd_ticks d = false ->
    blk_sync_step base im d o = (d1, Err e) ->
    snd (evt_sync_step base (bd_evdec d) o) = Err e \/
    exists q evs err, evt_sync_step base (bd_evdec d) o = (q, Ok tt) /\ stream q evs err /\
      (e = err /\ Forall (fun ev => ev_status_update ev = true) evs \/
       exists ip, starts q evs ip /\
         let s0 := mk_fstate (flow0 ip) None (flat_map facts_of evs) in
         (Forall plain_event evs -> sane mem content at_ mode_of err s0 ->
          forall ws s, orderly_bflows mem err s0 ws s -> ws = [])).
  Proof.
    intros Hr Hl Hc Hcs Ht E.
    pose proof (sync_ok cf buf base sized freq small bytes no_bdm64 no_skd022 im mem cached content at_ mode_of (fun _ => False)
      d o Hr Hl Hc Hcs Ht) as K.
    rewrite E in K. destruct (evt_sync_step base (bd_evdec d) o) as [q [[]|e'|u]]; [|left; injection K as ->; reflexivity|destruct K].
    right. destruct K as (evs & err & Hf & K). exists q, evs, err. split; [reflexivity|].
    split; [destruct Hf as (q0 & o0 & _ & _ & Hf); exact Hf|]. destruct K as [K|(ip & Hs & K)]; [left; exact K|right].
    exists ip. split; [exact Hs|]. intros s0 Hp Sn ws s W.
    destruct (gave_all _ _ _ _ _ _ _ (bflows_nil _ _ _) (sane_known _ _ _ _ _ _ Sn) (K Hp Sn) (fun X => X) _ _ W) as (os1 & os2 & X & Y).
    destruct os1; [|discriminate X]. inversion Y. reflexivity.
  Qed.
End ALL.
Print Assumptions C65_whole.
Print Assumptions C65_sync.

(** ** An example *)

(** The program and the trace of C58: its flow has five instructions and three events, and the
    loop shows all of them, in four blocks. *)
Ltac onwards H := eapply obf_cons; [cbv; try exact I; try reflexivity|H|];
  match goal with |- orderly_bflows _ _ ?s _ _ => let x := eval vm_compute in s in change s with x end.
Example C65_ex :
  blocks_total blocks1 (fun _ _ => True) /\
  (exists ws s, orderly_bflows mem1 pte_eos flow1 ws s /\
     map (fun o => match o with O_insn i => inl (in_ip i) | O_event e => inr (ev_var e) end) ws =
     [inr (Ev_enabled 4096 true); inr (Ev_exec_mode ptem_64bit 4096); inl 4096; inl 4104; inl 4107; inl 4101; inl 4102;
      inr (Ev_disabled 0)]) /\
  run_blocks blocks1 (block_dec trace_flow) Bs_forward 20 =
    (pts_event_pending,
     [inr (Ev_enabled 4096 true, true); inr (Ev_exec_mode ptem_64bit 4096, true);
      inl (inl (4096, 4096, 1, ptic_call, 0)); inl (inl (4104, 4104, 1, ptic_cond_jump, 0));
      inl (inl (4107, 4107, 1, ptic_return, 0));
      inl (inl (4101, 4102, 2, ptic_far_call, pts_event_pending)); inr (Ev_disabled 0, false);
      inl (inr 0)],
     Err pte_eos).
Proof.
  split; [|split; [|exact run1]].
  - split; [|discriminate]. split; [|discriminate]. intros c a ip e _. cbn.
    destruct (flat_bytes 4096 program1 ip); cbn; [intros [= <-]; reflexivity|discriminate].
  - eexists. eexists. split.
    + unfold flow1.
      let x := eval vm_compute in (flat_map facts_of (fst all1)) in change (flat_map facts_of (fst all1)) with x.
      onwards ltac:(apply bs_take).
      onwards ltac:(apply bs_event; reflexivity).
      onwards ltac:(apply bs_take).
      onwards ltac:(apply bs_event; reflexivity).
      onwards ltac:(apply (bs_insn mem1 pte_eos _ _ _ call1 (insn_at 4096 ptic_call call1)); [repeat split|text]).
      onwards ltac:(eapply bs_leave; [reflexivity|reflexivity|exact I|left; reflexivity|apply complete_direct; [right|]; reflexivity]).
      onwards ltac:(apply (bs_insn mem1 pte_eos _ _ _ jcc1 (insn_at 4104 ptic_cond_jump jcc1)); [repeat split|text]).
      onwards ltac:(eapply bs_leave; [reflexivity|reflexivity|exact I|right; reflexivity|apply (complete_cond _ true); reflexivity]).
      onwards ltac:(apply (bs_insn mem1 pte_eos _ _ _ ret1 (insn_at 4107 ptic_return ret1)); [repeat split|text]).
      onwards ltac:(eapply bs_leave; [reflexivity|reflexivity|exact I|right; reflexivity|apply complete_compressed; reflexivity]).
      onwards ltac:(apply bs_take).
      onwards ltac:(apply (bs_insn mem1 pte_eos _ _ _ nop1 (insn_at 4101 ptic_other nop1)); [repeat split; discriminate|text]).
      onwards ltac:(eapply bs_leave; [reflexivity|reflexivity|intros [X|(k & X & _)]; discriminate X|left; reflexivity|apply complete_other; left; reflexivity]).
      onwards ltac:(apply (bs_insn mem1 pte_eos _ _ _ sys1 (insn_at 4102 ptic_far_call sys1)); [repeat split; discriminate|text]).
      onwards ltac:(eapply bs_end; reflexivity).
      apply obf_nil.
    + vm_compute. reflexivity.
Qed.
