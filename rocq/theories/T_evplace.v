(** C75: the block decoder gives an event only where it takes place. *)

From Coq Require Import List NArith ZArith Bool PeanoNat Lia.
From Verif Require Import T_flow T_blk T_safe.
From Verif Require Import Base M_config M_cpu M_time M_pktdec M_event M_evdec M_query M_retstack M_asid M_ildtab M_ild
  M_insn M_insndec M_blk S_core S_x86 S_sync S_evdec S_evtrace S_query S_safe T_evdec T_evtrace.
Import ListNotations.
Open Scope N_scope.

(** The address at which an event takes place between instructions, if it has one.  While
    tracing is off ([on] is false), only events that turn tracing off, divert the flow or
    change the address space or the transaction state are tied to an address. *)
Definition place (on : bool) (e : event) : option N :=
  match ev_var e with
  | Ev_async_disabled at_ _ => Some at_
  | Ev_async_branch from _ => Some from
  | Ev_async_paging _ _ ip | Ev_async_vmcs _ ip | Ev_tsx ip _ _ => if ev_ip_suppressed e then None else Some ip
  | Ev_exec_mode _ ip | Ev_exstop ip | Ev_mwait ip _ _ | Ev_iflags _ ip | Ev_interrupt _ _ ip | Ev_smi ip
  | Ev_init ip | Ev_vmexit _ _ _ ip | Ev_shutdown ip | Ev_uintr _ ip | Ev_trig _ _ ip _ =>
      if ev_ip_suppressed e then None else if on then Some ip else None
  | _ => None
  end.

Section BLOCK.
  Context {S C : Type} (im : blk_image S C).
  Notation dec := (blkdec C).

  (** A block keeps its beginning. *)
  Definition begun {A} (m : M (C:=C) A) : Prop := forall s, b_ip (snd (fst (m s))) = b_ip (snd s).
  Lemma begun_bind {A B} (m : M A) (k : A -> M B) : begun m -> (forall a, begun (k a)) -> begun (bind m k).
  Proof.
    intros H K s. unfold bind. specialize (H s). destruct (m s) as [s' [a|e|u]]; try exact H.
    cbn [fst] in *. rewrite (K a s'). exact H.
  Qed.
  Lemma begun_lift {A} (r : res A) : begun (lift r).
  Proof. intros s. reflexivity. Qed.
  Lemma begun_ret {A} (a : A) : begun (ret a).
  Proof. intros s. reflexivity. Qed.
  Lemma begun_fail {A} e : begun (A:=A) (fail e).
  Proof. intros s. reflexivity. Qed.
  Lemma begun_state : begun state.
  Proof. intros s. reflexivity. Qed.
  Lemma begun_blk : begun blk.
  Proof. intros s. reflexivity. Qed.
  Lemma begun_change f : begun (change f).
  Proof. intros [d b]. reflexivity. Qed.
  Lemma begun_change_blk f : (forall b, b_ip (f b) = b_ip b) -> begun (change_blk f).
  Proof. intros H [d b]. apply H. Qed.
  Create HintDb bg.
  Hint Resolve begun_lift begun_ret begun_fail begun_state begun_blk begun_change : bg.
  Ltac bg := repeat first [solve [auto with bg] | lazymatch goal with
    | |- begun (bind _ _) => apply begun_bind; [|intros]
    | |- begun (change_blk _) => apply begun_change_blk; intros; repeat match goal with |- context [if ?b then _ else _] => destruct b end; reflexivity
    | |- begun (match ?x with _ => _ end) => destruct x
    | |- begun (let _ := _ in _) => cbv zeta
    end].

  Lemma indicate_begun n : begun (indicate (C:=C) n).
  Proof. unfold indicate. bg. Qed.
  Hint Resolve indicate_begun : bg.
  Lemma fetch_begun : begun (pt_blk_fetch_event (C:=C)).
  Proof. unfold pt_blk_fetch_event. bg. Qed.
  Hint Resolve fetch_begun : bg.
  Lemma tick_begun ip : begun (pt_blk_tick (C:=C) ip).
  Proof. unfold pt_blk_tick. bg. Qed.
  Hint Resolve tick_begun : bg.
  Lemma indirect_begun : begun (pt_blk_proceed_indirect (C:=C)).
  Proof. unfold pt_blk_proceed_indirect. bg. Qed.
  Lemma cond_begun : begun (pt_blk_cond_branch (C:=C)).
  Proof. unfold pt_blk_cond_branch. bg. Qed.
  Hint Resolve indirect_begun cond_begun : bg.
  Lemma with_trace_begun i x : begun (pt_blk_proceed_with_trace (C:=C) i x).
  Proof. unfold pt_blk_proceed_with_trace. bg. Qed.
  Lemma push_begun ip : begun (push (C:=C) ip).
  Proof. unfold push. bg. Qed.
  Lemma count_begun n : begun (count (C:=C) n).
  Proof. unfold count. bg. Qed.
  Hint Resolve with_trace_begun push_begun count_begun : bg.
  Lemma log_call_begun i x : begun (pt_blk_log_call (C:=C) i x).
  Proof. unfold pt_blk_log_call. bg. Qed.
  Hint Resolve log_call_begun : bg.
  Lemma one_begun : begun (pt_blk_proceed_one_insn im).
  Proof. unfold pt_blk_proceed_one_insn. bg. Qed.
  Hint Resolve one_begun : bg.
  Lemma to_insn_begun p fuel : begun (to_insn im fuel p).
  Proof. induction fuel as [|fuel IH]; cbn [to_insn]; bg. Qed.
  Lemma to_ip_begun ip fuel : begun (to_ip im fuel ip).
  Proof. induction fuel as [|fuel IH]; cbn [to_ip]; bg. Qed.
  Hint Resolve to_insn_begun to_ip_begun : bg.
  Lemma proceed_to_insn_begun p : begun (pt_blk_proceed_to_insn im p).
  Proof. unfold pt_blk_proceed_to_insn. bg. Qed.
  Lemma proceed_to_ip_begun ip : begun (pt_blk_proceed_to_ip im ip).
  Proof. unfold pt_blk_proceed_to_ip. bg. Qed.
  Hint Resolve proceed_to_insn_begun proceed_to_ip_begun : bg.
  Lemma skl014_begun fuel : begun (skl014 im fuel).
  Proof. induction fuel as [|fuel IH]; cbn [skl014]; bg. Qed.
  Hint Resolve skl014_begun : bg.
  Lemma to_disabled_begun ev ip : begun (pt_blk_proceed_to_disabled im ev ip).
  Proof. unfold pt_blk_proceed_to_disabled, pt_blk_proceed_skl014. bg. Qed.
  Lemma cause_begun p ev ip : begun (proceed_to_cause im p ev ip).
  Proof. unfold proceed_to_cause. bg. Qed.
  Lemma anchor_begun ev a b c m : begun (pt_blk_provide_trig_anchor (C:=C) ev a b c m).
  Proof. unfold pt_blk_provide_trig_anchor. bg. Qed.
  Lemma trig_loop_begun ev t m fuel : forall n, begun (trig_loop im fuel ev t n m).
  Proof. induction fuel as [|fuel IH]; intros n; cbn [trig_loop]; bg. Qed.
  Hint Resolve to_disabled_begun cause_begun anchor_begun trig_loop_begun : bg.
  Lemma to_trig_begun ev a b c m : begun (pt_blk_proceed_to_trig im ev a b c m).
  Proof. unfold pt_blk_proceed_to_trig. bg. Qed.
  Lemma skd022_begun ev a b : begun (pt_blk_handle_erratum_skd022 im ev a b).
  Proof. unfold pt_blk_handle_erratum_skd022. bg. Qed.
  Lemma postpone_begun p mark : begun (pt_blk_postpone_insn (C:=C) p mark).
  Proof. unfold pt_blk_postpone_insn. bg. Qed.
  Lemma clear_begun : begun (pt_blk_clear_postponed_insn (C:=C)).
  Proof. unfold pt_blk_clear_postponed_insn. bg. Qed.
  Lemma pending_begun : begun (pending (C:=C)).
  Proof. unfold pending. bg. Qed.
  Lemma resume_begun i : begun (pt_blk_set_disable_resume_ip (C:=C) i).
  Proof. unfold pt_blk_set_disable_resume_ip. bg. Qed.
  Hint Resolve to_trig_begun skd022_begun postpone_begun clear_begun pending_begun resume_begun : bg.
  Lemma postponed_begun : begun (pt_blk_proceed_postponed_insn (C:=C)).
  Proof. unfold pt_blk_proceed_postponed_insn. bg. Qed.
  Lemma at_ip_begun ip : begun (event_at_ip im ip).
  Proof. unfold event_at_ip. bg. Qed.
  Lemma at_insn_begun w mark : begun w -> begun (event_at_insn (C:=C) w mark).
  Proof. intros H. unfold event_at_insn. bg. Qed.
  Lemma disabled_begun ev ip : begun (event_disabled im ev ip).
  Proof. unfold event_disabled. bg. Qed.
  Hint Resolve postponed_begun at_ip_begun at_insn_begun disabled_begun : bg.
  Lemma event_begun : begun (pt_blk_proceed_event im).
  Proof. unfold pt_blk_proceed_event. bg. Qed.
  Lemma uncached_begun : begun (pt_blk_proceed_no_event_uncached im).
  Proof. unfold pt_blk_proceed_no_event_uncached. bg. Qed.
  Lemma interfere_begun : begun (interfere im).
  Proof. unfold interfere. bg. Qed.
  Hint Resolve event_begun uncached_begun interfere_begun : bg.
  Lemma add_begun s i e : begun (cache_add im s i e).
  Proof. unfold cache_add. bg. Qed.
  Lemma lookup_begun s i : begun (cache_lookup im s i).
  Proof. unfold cache_lookup. bg. Qed.
  Hint Resolve add_begun lookup_begun : bg.
  Lemma decode_begun s i m : begun (pt_blk_add_decode im s i m).
  Proof. unfold pt_blk_add_decode. bg. Qed.
  Hint Resolve decode_begun : bg.
  Lemma trampoline_begun s i n m : begun (pt_blk_add_trampoline im s i n m).
  Proof. unfold pt_blk_add_trampoline. bg. Qed.
  Hint Resolve trampoline_begun : bg.
  Lemma fill_begun s steps : begun (fill_cache im steps s).
  Proof. induction steps as [|steps IH]; cbn [fill_cache]; bg. Qed.
  Lemma truncated_begun : begun (pt_blk_proceed_truncated im).
  Proof. unfold pt_blk_proceed_truncated. bg. Qed.
  Hint Resolve fill_begun truncated_begun : bg.
  Lemma cached_begun s fuel : begun (cached im fuel s).
  Proof. induction fuel as [|fuel IH]; cbn [cached]; generalize bcache_fill_steps; intros; bg. Qed.
  Lemma msec_begun : begun (pt_blk_msec_lookup im).
  Proof. unfold pt_blk_msec_lookup. bg. Qed.
  Hint Resolve cached_begun msec_begun : bg.
  Lemma no_event_begun : begun (pt_blk_proceed_no_event im).
  Proof.
    intros s. unfold pt_blk_proceed_no_event. pose proof (msec_begun s) as H.
    destruct (pt_blk_msec_lookup im s) as [s' [[isid m]|e|u]]; cbn [fst] in H; rewrite <- H; [| |reflexivity].
    - match goal with |- b_ip (snd (fst (?m s'))) = _ => assert (K : begun m); [|exact (K s')] end.
      unfold pt_blk_proceed_no_event_cached. bg.
    - destruct e; try reflexivity. apply uncached_begun.
  Qed.
  Lemma tsx_begun g ev a b : begun (pt_blk_postpone_trailing_tsx im g ev a b).
  Proof. unfold pt_blk_postpone_trailing_tsx, pt_blk_handle_erratum_bdm64. bg. Qed.
  Hint Resolve no_event_begun tsx_begun : bg.
  Lemma trailing_begun g fuel : begun (trailing im fuel g).
  Proof. induction fuel as [|fuel IH]; cbn [trailing]; bg. Qed.
  Hint Resolve trailing_begun : bg.
  Lemma proceed_begun : begun (pt_blk_proceed im).
  Proof. unfold pt_blk_proceed, pt_blk_proceed_trailing_event. bg. Qed.
  Lemma next_begin (d : dec) : b_ip (snd (fst (pt_blk_next im d))) = bd_ip d.
  Proof. unfold pt_blk_next. exact (proceed_begun (d, new_block (bd_ip d) (bd_mode d) (bd_spec d))). Qed.

  (** An event that is given takes place where the next block would have begun. *)
  Theorem C75_place (d d' : dec) e r a : pt_blk_event im d = (d', Some e, r) -> place (bd_enabled d) e = Some a ->
    b_ip (snd (fst (pt_blk_next im d))) = a.
  Proof.
    rewrite next_begin. unfold pt_blk_event. destruct (bd_status d); [discriminate|]. destruct (bd_event d) as [ev|].
    2:{ destruct (without_block _ d); discriminate. }
    assert (P : forall s' ev', process im ev (d, new_block 0 ptem_unknown false) = (s', Ok ev') ->
      place (bd_enabled d) ev' = Some a -> bd_ip d = a).
    { intros s' ev'. unfold process. cbv zeta. unfold bind, state, change, ret, fail, lift, place. cbn [fst].
      destruct (ev_var ev) eqn:V; cbn [fst];
        try solve [intros E; injection E as _ <-; rewrite V; discriminate];
        try solve [discriminate].
      all: repeat match goal with
        | |- context [bd_ip ?d =? ?ip] => destruct (N.eqb_spec (bd_ip d) ip)
        | |- context [ev_ip_suppressed ?ev] => destruct (ev_ip_suppressed ev) eqn:?
        | |- context [bd_enabled ?d] => destruct (bd_enabled d) eqn:?
        end; cbn [negb orb andb]; try discriminate.
      all: try solve [match goal with |- context [match ?m with _ => _ end] => destruct m as [? [?|?|?]]; try discriminate end;
        intros E; injection E as _ <-; cbn; rewrite ?V; congruence].
      all: try solve [intros E; injection E as _ <-; cbn; rewrite ?V; congruence]. }
    destruct (ev_var ev);
      try solve [destruct (process im ev _) as [[d1 b1] [ev1|e1|u1]] eqn:E; try discriminate;
        match goal with |- context [let (_, _) := ?m in _] => destruct m as [[? ?] ?] end; intros X; injection X as _ <- _; exact (P _ _ eq_refl)].
    destruct (_ || _); [discriminate|].
    match goal with |- context [let (_, _) := ?m in _] => destruct m as [[? ?] ?] end. intros X. injection X as _ <- _. discriminate.
  Qed.

  (** Asking too early does no harm: the decoder is as before, the event is still to come. *)
  Theorem C75_early (d : dec) ev a : bd_status d = None -> bd_event d = Some ev -> place (bd_enabled d) ev = Some a ->
    b_ip (snd (fst (pt_blk_next im d))) <> a -> pt_blk_event im d = (d, None, Err pte_bad_query).
  Proof.
    rewrite next_begin. unfold pt_blk_event, place. intros -> -> P N.
    destruct (ev_var ev) eqn:V; try discriminate P; unfold process; cbv zeta; unfold bind, state, fail; cbn [fst]; rewrite V;
      repeat match type of P with context [if ?b then _ else _] => destruct b; try discriminate P end;
      injection P as <-; apply N.eqb_neq in N; rewrite N; reflexivity.
  Qed.
End BLOCK.
Print Assumptions C75_place.
Print Assumptions C75_early.

(** ** Example *)

(** An interrupt behind four instructions.  The user asks for it before they have the block
    with these instructions, and again afterwards. *)
Definition trace75 : list N :=
  psb_bytes ++ [0x99; 0x01;  0x3d; 0x00; 0x10;  0x02; 0x23;  0x3d; 0x04; 0x10;  0x2d; 0x00; 0x10;  0x3d; 0x04; 0x10;  0x2d; 0x00; 0x10].
Definition blocks75 := flat_blocks 0x1000 [0x90; 0x90; 0x90; 0x90; 0x90] 7.
Definition dec75 (cs : list bcall) : blkdec unit :=
  fold_left (fun d c => fst (blk_call blocks75 0 d c)) cs
    (pt_blk_decoder_init config0 false false false trace75 (repeat 0 65) tt (fun _ => None)).
Definition early75 := dec75 [B_sync_forward; B_event; B_event].
Definition there75 := dec75 [B_sync_forward; B_event; B_event; B_event; B_next].
Definition begin75 d := b_ip (snd (fst (pt_blk_next blocks75 d))).
Definition given75 d := match pt_blk_event blocks75 d with (_, e, r) => (option_map ev_var e, r) end.
Example C75_ex :
  (bd_status early75 = None /\ option_map (place (bd_enabled early75)) (bd_event early75) = Some (Some 0x1004) /\
   begin75 early75 = 0x1000 /\ given75 early75 = (None, Err pte_bad_query)) /\
  begin75 there75 = 0x1004 /\ given75 there75 = (Some (Ev_async_branch 0x1004 0x1000), Ok 0).
Proof. vm_compute. repeat split. Qed.
