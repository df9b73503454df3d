(** C74: after pt_blk_event(), pt_blk_time() tells the time in the event. *)

From Coq Require Import List NArith ZArith Bool PeanoNat Lia.
From Verif Require Import T_flow T_blk T_safe.
From Verif Require Import Base M_config M_cpu M_time M_pktdec M_event M_evdec M_query M_retstack M_asid M_ildtab M_ild
  M_insn M_insndec M_blk M_blktime S_core S_x86 S_sync S_evdec S_evtrace S_query S_safe L_core L_evdec L_evsafe L_evnext
  L_query L_query2 T_evdec T_evtrace L_safe L_safe2.
Import ListNotations.
Open Scope N_scope.

(** The time in an event, as pt_blk_time() gives it. *)
Definition time_in (e : event) : N * N * N := (ev_tsc e, ev_lost_mtc e, ev_lost_cyc e).

Section BLOCK.
  Context {S C : Type} (im : blk_image S C).
  Notation dec := (blkdec C).

  (** The time and the ratio. *)
  Definition clock (s : dec * block) : (N * N * N) * N := (pt_blk_time (fst s), pt_blk_core_bus_ratio (fst s)).
  (** The time may have moved to that of a TIP event that was pending.  With tick events it did not move far. *)
  Definition moved (s s' : dec * block) : Prop :=
    clock s' = clock s \/
    exists ev tip, bd_event (fst s) = Some ev /\ ev_var ev = Ev_tip tip /\ clock s' = (time_in ev, snd (clock s)) /\
      (bd_ticks (fst s) = true -> ev_tsc ev = bd_tsc (fst s)).
  Definition still {A} (m : M (C:=C) A) : Prop :=
    forall s, clock (fst (m s)) = clock s /\ bd_event (fst (fst (m s))) = bd_event (fst s).
  Definition keeps {A} (m : M (C:=C) A) : Prop := forall s, clock (fst (m s)) = clock s.
  Definition moves {A} (m : M (C:=C) A) : Prop := forall s, moved s (fst (m s)).

  Lemma still_keeps {A} (m : M A) : still m -> keeps m.
  Proof. intros H s. apply H. Qed.
  Lemma keeps_moves {A} (m : M A) : keeps m -> moves m.
  Proof. intros H s. left. apply H. Qed.

  Lemma still_bind {A B} (m : M A) (k : A -> M B) : still m -> (forall a, still (k a)) -> still (bind m k).
  Proof.
    intros H K s. unfold bind. specialize (H s). destruct (m s) as [s' [a|e|u]]; try exact H.
    destruct (K a s') as (K1 & K2). destruct H as (H1 & H2). cbn [fst] in *. split; congruence.
  Qed.
  Lemma keeps_bind {A B} (m : M A) (k : A -> M B) : keeps m -> (forall a, keeps (k a)) -> keeps (bind m k).
  Proof.
    intros H K s. unfold bind. specialize (H s). destruct (m s) as [s' [a|e|u]]; try exact H.
    cbn [fst] in *. rewrite (K a s'). exact H.
  Qed.
  Lemma moves_bind1 {A B} (m : M A) (k : A -> M B) : moves m -> (forall a, keeps (k a)) -> moves (bind m k).
  Proof.
    intros H K s. unfold bind. specialize (H s). destruct (m s) as [s' [a|e|u]]; try exact H.
    cbn [fst] in *. unfold moved in *. rewrite (K a s'). exact H.
  Qed.
  Lemma still_state {A} (k : dec -> M A) : (forall d, still (k d)) -> still (bind state k).
  Proof. intros H s. exact (H (fst s) s). Qed.
  Lemma keeps_state {A} (k : dec -> M A) : (forall d, keeps (k d)) -> keeps (bind state k).
  Proof. intros H s. exact (H (fst s) s). Qed.
  Lemma moves_state {A} (k : dec -> M A) : (forall d, moves (k d)) -> moves (bind state k).
  Proof. intros H s. exact (H (fst s) s). Qed.
  Lemma still_blk {A} (k : block -> M A) : (forall b, still (k b)) -> still (bind blk k).
  Proof. intros H s. exact (H (snd s) s). Qed.
  Lemma keeps_blk {A} (k : block -> M A) : (forall b, keeps (k b)) -> keeps (bind blk k).
  Proof. intros H s. exact (H (snd s) s). Qed.
  Lemma still_lift {A} (r : res A) : still (lift r).
  Proof. intros s. split; reflexivity. Qed.
  Lemma still_ret {A} (a : A) : still (ret a).
  Proof. apply still_lift. Qed.
  Lemma still_fail {A} e : still (A:=A) (fail e).
  Proof. apply still_lift. Qed.
  Lemma still_change (f : dec -> dec) :
    (forall d, pt_blk_time (f d) = pt_blk_time d /\ pt_blk_core_bus_ratio (f d) = pt_blk_core_bus_ratio d /\ bd_event (f d) = bd_event d) ->
    still (change f).
  Proof. intros H [d b]. destruct (H d) as (H1 & H2 & H3). unfold clock. cbn [change fst]. rewrite H1, H2. auto. Qed.
  Lemma keeps_change (f : dec -> dec) :
    (forall d, pt_blk_time (f d) = pt_blk_time d /\ pt_blk_core_bus_ratio (f d) = pt_blk_core_bus_ratio d) -> keeps (change f).
  Proof. intros H [d b]. destruct (H d) as (H1 & H2). unfold clock. cbn [change fst]. rewrite H1, H2. auto. Qed.

  Ltac same := intros; repeat split; repeat match goal with |- context [if ?b then _ else _] => destruct b end; reflexivity.
  Create HintDb tm.
  Ltac st := repeat first [solve [auto with tm] | lazymatch goal with
    | |- still (bind state _) => apply still_state; intros
    | |- still (bind blk _) => apply still_blk; intros
    | |- still (bind _ _) => apply still_bind; [|intros]
    | |- still (ret _) => apply still_ret
    | |- still (fail _) => apply still_fail
    | |- still (lift _) => apply still_lift
    | |- still (change _) => apply still_change; same
    | |- still (match ?x with _ => _ end) => destruct x
    | |- still (let _ := _ in _) => cbv zeta
    end].
  Ltac kp := repeat first [solve [auto with tm] | solve [apply still_keeps; auto with tm] | lazymatch goal with
    | |- keeps (bind state _) => apply keeps_state; intros
    | |- keeps (bind blk _) => apply keeps_blk; intros
    | |- keeps (bind _ _) => apply keeps_bind; [|intros]
    | |- keeps (ret _) => apply still_keeps, still_ret
    | |- keeps (fail _) => apply still_keeps, still_fail
    | |- keeps (lift _) => apply still_keeps, still_lift
    | |- keeps (change _) => apply keeps_change; same
    | |- keeps (match ?x with _ => _ end) => destruct x
    | |- keeps (let _ := _ in _) => cbv zeta
    end].

  Lemma indicate_still n : still (indicate (C:=C) n).
  Proof. unfold indicate. st. Qed.
  Hint Resolve indicate_still : tm.
  Lemma pending_still : still (pending (C:=C)).
  Proof. unfold pending. st. Qed.
  Hint Resolve pending_still : tm.
  Lemma clear_still : still (pt_blk_clear_postponed_insn (C:=C)).
  Proof. unfold pt_blk_clear_postponed_insn. st. Qed.
  Hint Resolve clear_still : tm.
  Lemma resume_still i : still (pt_blk_set_disable_resume_ip (C:=C) i).
  Proof. unfold pt_blk_set_disable_resume_ip. st. Qed.
  Hint Resolve resume_still : tm.
  Lemma cond_keeps : keeps (pt_blk_cond_branch (C:=C)).
  Proof. unfold pt_blk_cond_branch. kp. Qed.
  Hint Resolve cond_keeps : tm.

  (** What fetching does. *)
  Lemma anchor_clock (d d' : dec) ev : pt_blk_find_trig_anchor d ev = Ok d' ->
    pt_blk_time d' = pt_blk_time d /\ pt_blk_core_bus_ratio d' = pt_blk_core_bus_ratio d /\ bd_evdec d' = bd_evdec d /\
    bd_event d' = bd_event d /\ bd_ticks d' = bd_ticks d.
  Proof.
    unfold pt_blk_find_trig_anchor. cbv zeta.
    destruct (ev_var ev); destruct (ev_ip_suppressed ev); intros E; try discriminate E; injection E as <-; repeat split.
  Qed.
  Lemma fetch_clock (s : dec * block) ev : bd_event (fst s) = Some ev ->
    clock (fst (pt_blk_fetch_event s)) = (time_in ev, snd (clock s)) /\
    bd_ticks (fst (fst (pt_blk_fetch_event s))) = bd_ticks (fst s) /\
    (snd (pt_blk_fetch_event s) = Ok tt ->
     match bd_event (fst (fst (pt_blk_fetch_event s))) with
     | Some e => exists q, pt_evt_next (bd_evdec (fst s)) = (q, Ok e)
     | None => True
     end).
  Proof.
    destruct s as [d b]. cbn [fst]. intros E. unfold pt_blk_fetch_event, bind, state. cbn [fst]. rewrite E. cbn [change fst].
    set (d1 := bd_set_time d _ _ _ _). unfold lift.
    destruct (pt_blk_find_trig_anchor d1 ev) as [d2|e|u] eqn:Ea; [|split; [reflexivity|split; [reflexivity|discriminate]]..].
    destruct (anchor_clock _ _ _ Ea) as (A1 & A2 & A3 & A4 & A5).
    assert (Ec : (pt_blk_time d2, pt_blk_core_bus_ratio d2) = (time_in ev, snd (clock (d, b)))) by (rewrite A1, A2; reflexivity).
    change (bd_evdec d) with (bd_evdec d1). rewrite <- A3.
    destruct (pt_evt_next (bd_evdec d2)) as [q [ev'|e|u]]; cbn [change fst snd].
    - split; [exact Ec|]. split; [exact A5|]. intros _. cbn. exists q. reflexivity.
    - split; [exact Ec|]. split; [exact A5|]. intros _. exact I.
    - split; [reflexivity|]. split; [reflexivity|discriminate].
  Qed.

  Lemma tip_moves (s : dec * block) ip ev tip : bd_event (fst s) = Some ev -> ev_var ev = Ev_tip tip ->
    moved s (fst (pt_blk_tick ip s)).
  Proof.
    intros E V. unfold pt_blk_tick, bind, state. rewrite E. destruct (bd_ticks _ && _) eqn:Ek.
    - left. destruct s as [d b]. reflexivity.
    - right. exists ev, tip. split; [exact E|]. split; [exact V|]. split; [apply (fetch_clock s ev E)|]. intros Tk. rewrite Tk in Ek.
      destruct (N.eqb_spec (ev_tsc ev) (bd_tsc (fst s))) as [X|]; [exact X|discriminate Ek].
  Qed.
  Lemma indirect_moves : moves (pt_blk_proceed_indirect (C:=C)).
  Proof.
    intros [d b]. unfold pt_blk_proceed_indirect, bind, state. cbn [fst].
    destruct (bd_event d) as [ev|] eqn:E; [|left; reflexivity].
    destruct (ev_var ev) eqn:V; try (left; reflexivity).
    - destruct (ev_ip_suppressed ev); [left; reflexivity|]. cbn [change].
      match goal with |- moved ?s (fst (?m (?d1, ?b))) => exact (tip_moves (d1, b) _ ev _ E V) end.
    - destruct (pt_evt_next (bd_evdec d)) as [q [ev'|e|u]]; [|left; reflexivity..]. destruct (ev_var ev'); left; reflexivity.
  Qed.

  Lemma cond_or_still (s : dec * block) : 
    match pt_blk_cond_branch s with
    | (s', Ok None) => s' = s
    | (s', _) => clock s' = clock s
    end.
  Proof.
    destruct s as [d b]. unfold pt_blk_cond_branch, bind, state. cbn [fst]. destruct (bd_event d) as [ev|]; [|reflexivity].
    destruct (ev_var ev); try reflexivity. destruct (_ =? 0); reflexivity.
  Qed.
  Lemma with_trace_moves i x : moves (pt_blk_proceed_with_trace (C:=C) i x).
  Proof.
    unfold pt_blk_proceed_with_trace. pose proof indirect_moves as Hi.
    assert (L : forall e, moves (fail (C:=C) (A:=unit) e)) by (intros e; apply keeps_moves, still_keeps, still_fail).
    destruct (in_iclass i); auto.
    - destruct (x_direct x); auto.
    - intros s. unfold bind. pose proof (cond_or_still s) as K. destruct (pt_blk_cond_branch s) as [s' [[[]|]|e|u]].
      + left. rewrite <- K. clear. destruct s' as [d b]. unfold state, change, lift. cbn [fst].
        destruct (pt_retstack_pop _) as [r [ip|e|u]]; reflexivity.
      + left. exact K.
      + subst s'. apply Hi.
      + left. exact K.
      + left. exact K.
    - destruct (_ && _); auto.
    - apply keeps_moves. kp.
  Qed.
  Lemma postponed_moves : moves (pt_blk_proceed_postponed_insn (C:=C)).
  Proof.
    unfold pt_blk_proceed_postponed_insn. apply moves_state. intros d.
    destruct (bd_postponed d) as [[i x]|]; [|apply keeps_moves; kp].
    destruct (negb _); [apply keeps_moves; kp|]. destruct (pt_insn_next_ip i x) as [ip|e|u]; [apply keeps_moves; kp| |apply keeps_moves; kp].
    destruct e; try solve [apply keeps_moves; kp]. apply moves_bind1; [apply with_trace_moves|]. intros _. kp.
  Qed.
  Lemma none_moves n : moves (bind pt_blk_proceed_postponed_insn (fun _ => indicate (C:=C) n)).
  Proof. apply moves_bind1; [apply postponed_moves|]. intros _. kp. Qed.

  (** As long as no TIP event is pending, nothing moves. *)
  Definition calm_ (s : dec * block) : Prop := forall ev tip, bd_event (fst s) = Some ev -> ev_var ev <> Ev_tip tip.
  Definition quiet {A} (m : M (C:=C) A) : Prop := forall s, calm_ s -> clock (fst (m s)) = clock s /\ calm_ (fst (m s)).
  Lemma quiet_bind {A B} (m : M A) (k : A -> M B) : quiet m -> (forall a, quiet (k a)) -> quiet (bind m k).
  Proof.
    intros H K s Hs. unfold bind. specialize (H s Hs). destruct (m s) as [s' [a|e|u]]; try exact H.
    destruct H as (H1 & H2). destruct (K a s' H2) as (K1 & K2). cbn [fst] in *. split; [congruence|exact K2].
  Qed.
  Lemma quiet_state {A} (k : dec -> M A) : (forall d, quiet (k d)) -> quiet (bind state k).
  Proof. intros H s. exact (H (fst s) s). Qed.
  Lemma quiet_blk {A} (k : block -> M A) : (forall b, quiet (k b)) -> quiet (bind blk k).
  Proof. intros H s. exact (H (snd s) s). Qed.
  Lemma still_quiet {A} (m : M A) : still m -> quiet m.
  Proof. intros H s Hs. destruct (H s) as (H1 & H2). split; [exact H1|]. intros ev tip E. apply Hs. rewrite <- H2. exact E. Qed.
  Lemma quiet_event (f : dec -> event) : (forall d tip, ev_var (f d) <> Ev_tip tip) -> quiet (change (fun d : dec => bd_set_event d (Some (f d)))).
  Proof. intros H [d b] _. split; [reflexivity|]. intros ev' tip E. cbn in E. injection E as <-. apply H. Qed.
  Ltac qt := repeat first [solve [auto with tm] | solve [apply still_quiet; st] | lazymatch goal with
    | |- quiet (bind state _) => apply quiet_state; intros
    | |- quiet (bind blk _) => apply quiet_blk; intros
    | |- quiet (bind _ _) => apply quiet_bind; [|intros]
    | |- quiet (change _) => apply (quiet_event (fun d => _)); intros; discriminate
    | |- quiet (match ?x with _ => _ end) => destruct x
    | |- quiet (let _ := _ in _) => cbv zeta
    end].
  Lemma indirect_quiet : quiet (pt_blk_proceed_indirect (C:=C)).
  Proof.
    intros [d b] Hs. assert (K : clock (d, b) = clock (d, b) /\ calm_ (d, b)) by auto.
    unfold pt_blk_proceed_indirect, bind, state. cbn [fst]. destruct (bd_event d) as [ev|] eqn:E; [|exact K].
    destruct (ev_var ev) eqn:V; try exact K.
    - destruct (Hs ev _ E V).
    - destruct (pt_evt_next (bd_evdec d)) as [q [ev'|e|u]]; [|exact K..]. destruct (ev_var ev'); exact K.
  Qed.
  Hint Resolve indirect_quiet : tm.
  Lemma cond_quiet : quiet (pt_blk_cond_branch (C:=C)).
  Proof. unfold pt_blk_cond_branch. qt. Qed.
  Hint Resolve cond_quiet : tm.
  Lemma with_trace_quiet i x : quiet (pt_blk_proceed_with_trace (C:=C) i x).
  Proof. unfold pt_blk_proceed_with_trace. qt. Qed.
  Hint Resolve with_trace_quiet : tm.
  Lemma postponed_quiet : quiet (pt_blk_proceed_postponed_insn (C:=C)).
  Proof. unfold pt_blk_proceed_postponed_insn. qt. Qed.
  Hint Resolve postponed_quiet : tm.
  Lemma anchor_quiet ev a b c m : quiet (pt_blk_provide_trig_anchor (C:=C) ev a b c m).
  Proof. unfold pt_blk_provide_trig_anchor. qt. Qed.
  Lemma skd022_quiet ev a b : quiet (pt_blk_handle_erratum_skd022 im ev a b).
  Proof. unfold pt_blk_handle_erratum_skd022. qt. Qed.
  Lemma tsx_quiet g ev a b : quiet (pt_blk_postpone_trailing_tsx im g ev a b).
  Proof. unfold pt_blk_postpone_trailing_tsx, pt_blk_handle_erratum_bdm64. qt. Qed.
  Hint Resolve anchor_quiet skd022_quiet tsx_quiet : tm.

  (** The pending event is not a TNT event without a bit. *)
  Definition full (s : dec * block) : Prop :=
    bd_status (fst s) = None -> forall ev, bd_event (fst s) = Some ev -> tnt_full ev.

  Lemma trailing_moved fuel g (s : dec * block) : full s -> moved s (fst (trailing im (Datatypes.S fuel) g s)).
  Proof.
    intros F. cbn [trailing].
    match goal with |- context [bind state ?k s] => change (bind state k s) with (k (fst s) s) end. cbv beta.
    destruct (bd_status (fst s)) as [e|] eqn:Es; [apply none_moves|].
    destruct (bd_event (fst s)) as [ev|] eqn:Ee; [|apply none_moves].
    specialize (F Es ev Ee). unfold tnt_full in F. cbv zeta.
    destruct (ev_var ev) as [| | | | | | | | | | | | | | | | | | | | |bits size| | | | | | | | | | | | |] eqn:Ev;
      try solve [apply none_moves];
      try solve [match goal with |- moved s (fst (?m s)) => assert (H : quiet m) by qt;
                   left; apply H; intros ev' tip' E'; rewrite Ee in E'; injection E' as <-; rewrite Ev; discriminate end].
    match goal with |- moved _ (fst (bind blk ?k s)) => assert (H : forall b, moves (k b)); [|exact (H (snd s) s)] end.
    intros b. cbv beta. assert (P : moves (pending (C:=C))) by (apply keeps_moves, still_keeps, pending_still).
    destruct (_ || _); [|destruct (b_iclass b); auto using none_moves].
    destruct (N.eqb_spec size 0) as [->|]; [destruct (F eq_refl)|]. cbn [negb]. apply none_moves.
  Qed.

  Lemma process_clock ev (d : dec) b :
    let '(d1, _, r) := process im ev (d, b) in
    pt_blk_time d1 = pt_blk_time d /\
    match r with
    | Ok ev1 => time_in ev1 = time_in ev /\ bd_evdec d1 = bd_evdec d /\ bd_ticks d1 = bd_ticks d /\
        (bd_event d = Some ev -> exists ev2, bd_event d1 = Some ev2 /\ time_in ev2 = time_in ev) /\
        pt_blk_core_bus_ratio d1 = match ev_var ev1 with Ev_cbr n => n | _ => pt_blk_core_bus_ratio d end
    | _ => pt_blk_core_bus_ratio d1 = pt_blk_core_bus_ratio d
    end.
  Proof.
    unfold process, pt_blk_process_enabled, pt_blk_process_disabled, pt_blk_process_async_branch, pt_blk_process_paging, pt_blk_process_vmcs,
      pt_blk_process_overflow, pt_blk_process_exec_mode, pt_blk_process_stop, new_asid. cbv zeta.
    unfold bind, state, change, ret, fail, lift. cbn [fst].
    destruct (ev_var ev) eqn:V; cbn [fst];
    repeat (cbn [fst snd]; match goal with
    | |- context [if ?c then _ else _] => destruct c
    | |- context [let (_, _) := im_invalidate ?a ?b in _] => destruct (im_invalidate a b) as [? [?|?|?]]
    end); cbn; rewrite ?V; repeat split; eauto.
  Qed.
End BLOCK.

Section TRACE.
  Context (cf : config) (buf : list N) (base : nat).
  Hypothesis sized : callback_sized cf.
  Hypothesis freq : (cf_mtc_freq cf < 24)%N.
  Hypothesis small : (N.of_nat (length buf) + 1 < 2 ^ 31)%N.
  Hypothesis bytes : bytes_ok buf.
  Context {S C : Type} (im : blk_image S C) (held : C -> Prop) (sec : S -> Prop).
  Hypothesis Ht : tame (bi_image im) held sec.
  Hypothesis Ho : harmless held (bi_others im).
  Hypothesis Ha : forall k u, snd (bi_alloc im k) <> UB u.

  (** A block decoder after any calls, in any order, whether they failed or not. *)
  Inductive used : blkdec C -> Prop :=
  | used_new ticks end_call end_jump stack cache bcs : length stack = 65%nat -> held cache -> counts bcs ->
      used (pt_blk_decoder_init cf ticks end_call end_jump buf stack cache bcs)
  | used_call d c : used d -> (forall u, snd (blk_call im base d c) <> UB u) -> used (fst (blk_call im base d c)).

  Lemma used_fit d : used d -> fitb cf buf base held None d.
  Proof.
    induction 1 as [ticks end_call end_jump stack cache bcs Hl Hc Hb|d c _ F Hu].
    - constructor; cbn; [constructor|discriminate|apply (rs_init_ok (mk_retstack stack 0 0))|exact Hc|exact Hb|exact I].
      unfold rs_ok. cbn. rewrite Hl. clear. lia.
    - pose proof (blk_call_safe cf buf base sized freq small bytes im held sec Ht Ho Ha d c F) as K.
      destruct (blk_call im base d c) as [d' [v|e|u]]; [exact K|exact K|destruct (Hu u eq_refl)].
  Qed.

  Lemma after_fetch d b ev : fitb cf buf base held None d -> b_ninsn b < 65536 -> bd_event d = Some ev ->
    let s' := fst (bind pt_blk_fetch_event (fun _ => pt_blk_proceed_trailing_event im false) (d, b)) in
    clock s' = (time_in ev, bd_cbr d) \/
    exists q e1 tip, pt_evt_next (bd_evdec d) = (q, Ok e1) /\ ev_var e1 = Ev_tip tip /\ clock s' = (time_in e1, bd_cbr d) /\
      (bd_ticks d = true -> ev_tsc e1 = ev_tsc ev).
  Proof.
    intros F Hb E. cbv zeta. unfold bind.
    pose proof (fetch_clock (d, b) ev E) as (K1 & K0 & K2).
    pose proof (fetch_safe cf buf base sized freq small bytes im held None 0 (d, b) (conj F Hb) (N.le_0_l _)) as K3.
    destruct (pt_blk_fetch_event (d, b)) as [s1 [[]|e|u]]; [|left; exact K1..]. cbn [fst snd] in K1, K2, K0. specialize (K2 eq_refl).
    destruct K3 as (_ & _ & Fu).
    destruct (trailing_moved im 2 false s1 Fu) as [M|(e1 & tip & M1 & M2 & M3 & M4)].
    - left. unfold pt_blk_proceed_trailing_event. rewrite M. exact K1.
    - right. rewrite M1 in K2. destruct K2 as (q & K2). exists q, e1, tip. split; [exact K2|]. split; [exact M2|].
      unfold pt_blk_proceed_trailing_event. rewrite M3, K1. split; [reflexivity|].
      intros Tk. rewrite M4 by (rewrite K0; exact Tk). injection K1 as K1 _. exact K1.
  Qed.

  Lemma event_clock d : used d ->
    match pt_blk_event im d with
    | (d', Some e, _) => exists c, (c = time_in e \/
          exists q e1 tip, pt_evt_next (bd_evdec d) = (q, Ok e1) /\ ev_var e1 = Ev_tip tip /\ c = time_in e1 /\
            (bd_ticks d = true -> ev_tsc e1 = ev_tsc e)) /\
        clock (d', new_block 0 ptem_unknown false) = (c, match ev_var e with Ev_cbr n => n | _ => bd_cbr d end)
    | (d', None, _) => clock (d', new_block 0 ptem_unknown false) = clock (d, new_block 0 ptem_unknown false)
    end.
  Proof.
    intros U. pose proof (used_fit d U) as F. unfold pt_blk_event. cbv zeta.
    destruct (bd_status d) as [e|] eqn:Es; [reflexivity|]. destruct (bd_event d) as [ev|] eqn:Ee.
    2:{ unfold without_block, pt_blk_fetch_event, bind, state. cbn [fst]. rewrite Ee. reflexivity. }
    set (s0 := new_block 0 ptem_unknown false). assert (S0 : b_ninsn s0 < 65536) by reflexivity.
    assert (P : match match process im ev (d, s0) with
        | (d, _, Err e) => (d, None, Err e)
        | (d, _, UB u) => (d, None, UB u)
        | (d, _, Ok ev) => let '(d, _, r) := bind pt_blk_fetch_event (fun _ => pt_blk_proceed_trailing_event im false) (d, s0) in (d, Some ev, r)
        end with
      | (d', Some e, _) => exists c, (c = time_in e \/
          exists q e1 tip, pt_evt_next (bd_evdec d) = (q, Ok e1) /\ ev_var e1 = Ev_tip tip /\ c = time_in e1 /\
            (bd_ticks d = true -> ev_tsc e1 = ev_tsc e)) /\
        clock (d', s0) = (c, match ev_var e with Ev_cbr n => n | _ => bd_cbr d end)
      | (d', None, _) => clock (d', s0) = clock (d, s0)
      end).
    { pose proof (process_clock im ev d s0) as K.
      pose proof (process_kept cf buf base im held sec Ht ev (d, s0) (conj F S0) (N.le_0_l _)) as G.
      destruct (process im ev (d, s0)) as [[d1 b1] [ev1|e|u]].
      2:{ destruct K as (K1 & K2). unfold clock. cbn [fst]. rewrite K1, K2. reflexivity. }
      2:{ destruct K as (K1 & K2). unfold clock. cbn [fst]. rewrite K1, K2. reflexivity. }
      destruct K as (K1 & K2 & K3 & K0 & K4 & K5). destruct (K4 Ee) as (ev2 & E2 & T2). destruct G as ((G & _) & _). cbn [fst] in G.
      pose proof (after_fetch d1 s0 ev2 G S0 E2) as A. cbv zeta in A. rewrite K3, K0 in A.
      destruct (bind pt_blk_fetch_event _ (d1, s0)) as [[d2 b2] r]. unfold clock in *. cbn [fst snd] in A |- *.
      unfold pt_blk_core_bus_ratio in K5. rewrite <- K5.
      destruct A as [A|(q & e1 & tip & A1 & A2 & A3 & A4)].
      - exists (time_in ev2). split; [left; congruence|exact A].
      - exists (time_in e1). split; [right; exists q, e1, tip|exact A3]. unfold time_in in K2, T2.
        repeat split; auto. intros Tk. rewrite (A4 Tk). congruence. }
    destruct (ev_var ev) as [| | | | | | | | | | | | | | | | | | | | |bits size| | | | | | | | | | | | |] eqn:Ev; try exact P. clear P.
    destruct (_ || _) eqn:Eh; [reflexivity|].
    set (d1 := bd_set_time d true _ _ _). assert (F1 : fitb cf buf base held None d1) by (destruct F; constructor; cbn; assumption).
    destruct (N.eqb_spec size 0) as [_|Hz].
    - pose proof (after_fetch d1 s0 ev F1 S0 Ee) as A. cbv zeta in A.
      destruct (bind pt_blk_fetch_event _ (d1, s0)) as [[d2 b2] r]. unfold clock in *. cbn [fst snd ev_var] in A |- *.
      change (bd_cbr d) with (bd_cbr d1). destruct A as [A|(q & e1 & tip & A1 & A2 & A3 & A4)].
      + exists (time_in ev). split; [left; reflexivity|exact A].
      + exists (time_in e1). split; [right; exists q, e1, tip; repeat split; auto|exact A3].
    - assert (Fu : full (d1, s0)).
      { intros _ ev' E'. cbn in E'. rewrite Ee in E'. injection E' as <-. unfold tnt_full. rewrite Ev. exact Hz. }
      unfold bind at 1, ret, lift. pose proof (trailing_moved im 2 false (d1, s0) Fu) as A.
      unfold pt_blk_proceed_trailing_event. destruct (trailing im 3 false (d1, s0)) as [[d2 b2] r]. cbn [fst] in A.
      destruct A as [A|(e1 & tip & A1 & A2 & A3 & _)].
      + exists (time_in ev). split; [left; reflexivity|exact A].
      + cbn in A1. rewrite Ee in A1. injection A1 as <-. congruence.
  Qed.

  (** After pt_blk_event() gave an event to the user, pt_blk_time() tells the time in the event.
      There is one exception: if the event was the last one at a branch and the branch needed
      the TIP packet that comes next in the trace, it tells the time of that.  If tick events
      were asked for, then it is still the same timestamp. *)
  Theorem C74_time d d' e r : used d -> pt_blk_event im d = (d', Some e, r) ->
    pt_blk_time d' = time_in e \/
    exists q e1 tip, pt_evt_next (bd_evdec d) = (q, Ok e1) /\ ev_var e1 = Ev_tip tip /\ pt_blk_time d' = time_in e1 /\
      (bd_ticks d = true -> ev_tsc e1 = ev_tsc e).
  Proof.
    intros U E. pose proof (event_clock d U) as K. rewrite E in K. destruct K as (c & K & Ec). injection Ec as E1 _. cbn [fst] in E1.
    destruct K as [K|(q & e1 & tip & K1 & K2 & K3 & K4)]; [left; congruence|right]. exists q, e1, tip.
    split; [exact K1|]. split; [exact K2|]. split; [congruence|exact K4].
  Qed.
  Theorem C74_ticks d d' e r : used d -> pt_blk_event im d = (d', Some e, r) -> bd_ticks d = true ->
    fst (fst (pt_blk_time d')) = ev_tsc e.
  Proof.
    intros U E Tk. destruct (C74_time d d' e r U E) as [->|(q & e1 & tip & _ & _ & -> & K)]; [reflexivity|]. exact (K Tk).
  Qed.

  (** The core:bus ratio is that of the last CBR event given to the user: no other event
      changes it. *)
  Theorem C74_ratio d d' e r : used d -> pt_blk_event im d = (d', Some e, r) ->
    pt_blk_core_bus_ratio d' = match ev_var e with Ev_cbr n => n | _ => pt_blk_core_bus_ratio d end.
  Proof.
    intros U E. pose proof (event_clock d U) as K. rewrite E in K. destruct K as (c & _ & Ec). injection Ec as _ Ec. exact Ec.
  Qed.

  (** If no event is given, neither of them changes. *)
  Theorem C74_none d d' r : used d -> pt_blk_event im d = (d', None, r) ->
    pt_blk_time d' = pt_blk_time d /\ pt_blk_core_bus_ratio d' = pt_blk_core_bus_ratio d.
  Proof.
    intros U E. pose proof (event_clock d U) as K. rewrite E in K. injection K as K1 K2 K3 K4. unfold pt_blk_time.
    split; [cbn in *; congruence|exact K4].
  Qed.
End TRACE.
Print Assumptions C74_time.
Print Assumptions C74_ticks.
Print Assumptions C74_ratio.
Print Assumptions C74_none.

(** ** Examples *)

(** A system call that changes CR3, with a time before each packet. *)
Definition tsc74 (n : N) : list N := [0x19; n; 0; 0; 0; 0; 0; 0].
Definition trace74 : list N :=
  psb_bytes ++ tsc74 1 ++ [0x99; 0x01;  0x3d; 0x00; 0x10;  0x02; 0x23] ++ tsc74 2 ++ [0x02; 0x03; 9; 0] ++
  tsc74 3 ++ [0x02; 0x43; 2; 0; 0; 0; 0; 0] ++ tsc74 4 ++ [0x2d; 0x00; 0x10] ++ tsc74 5 ++ [0x01].
Definition blocks74 := flat_blocks 0x1000 [0x0f; 0x05] 7.
Definition dec74 (ticks : bool) : blkdec unit :=
  pt_blk_decoder_init config0 ticks false false trace74 (repeat 0 65) tt (fun _ => None).
(** The event that is given and its timestamp, the timestamp and the ratio told after it, and the result. *)
Fixpoint told74 (d : blkdec unit) (cs : list bcall) :=
  match cs with
  | [] => []
  | c :: cs =>
      let given := match c with
                   | B_event => match pt_blk_event blocks74 d with (_, Some e, _) => Some (ev_var e, ev_tsc e) | _ => None end
                   | _ => None
                   end in
      let (d', r) := blk_call blocks74 0 d c in
      (given, fst (fst (pt_blk_time d')), pt_blk_core_bus_ratio d', r) :: told74 d' cs
  end.
Definition calls74 := [B_sync_forward; B_event; B_event; B_event; B_next; B_event; B_event; B_next; B_event; B_next].
Example C74_ex :
  callback_sized config0 /\ (cf_mtc_freq config0 < 24)%N /\ (N.of_nat (length trace74) + 1 < 2 ^ 31)%N /\ bytes_ok trace74 /\
  tame (bi_image blocks74) (fun _ => True) (fun _ => True) /\ harmless (fun _ => True) (bi_others blocks74) /\
  (forall k u, snd (bi_alloc blocks74 k) <> UB u) /\
  (forall b, used config0 trace74 0 blocks74 (fun _ => True) (dec74 b)) /\
  told74 (dec74 false) calls74 =
    [(None, 0, 0, Ok 1); (Some (Ev_enabled 4096 true, 1), 1, 0, Ok 1); (Some (Ev_exec_mode ptem_64bit 4096, 1), 1, 0, Ok 1);
     (Some (Ev_cbr 9, 2), 2, 9, Ok 0); (None, 2, 9, Ok 1);
     (* the exception *)
     (Some (Ev_paging 32 false, 3), 4, 9, Ok 0);
     (Some (Ev_disabled 0, 5), 5, 9, Ok 6); (None, 5, 9, Err pte_eos); (None, 5, 9, Err pte_eos); (None, 5, 9, Err pte_eos)] /\
  told74 (dec74 true) calls74 =
    [(None, 0, 0, Ok 1); (Some (Ev_enabled 4096 true, 1), 1, 0, Ok 1); (Some (Ev_exec_mode ptem_64bit 4096, 1), 1, 0, Ok 1);
     (Some (Ev_cbr 9, 2), 2, 9, Ok 0); (None, 2, 9, Ok 1); (Some (Ev_paging 32 false, 3), 3, 9, Ok 0);
     (Some (Ev_tick 4096, 4), 4, 9, Ok 0); (None, 4, 9, Ok 1); (Some (Ev_disabled 0, 5), 5, 9, Ok 6); (None, 5, 9, Err pte_eos)].
Proof.
  split; [exact I|]. split; [reflexivity|]. split; [reflexivity|].
  split; [repeat (apply Forall_cons; [reflexivity|]); apply Forall_nil|].
  split; [apply flat_tame; repeat (apply Forall_cons; [reflexivity|]); apply Forall_nil|].
  split; [intros c cs _ H; cbn; auto|]. split; [discriminate|].
  split; [intros b; apply used_new; [reflexivity|exact I|intros k c j X; discriminate X]|].
  split; vm_compute; reflexivity.
Qed.

(** So the claim without the exception does not hold. *)
Theorem C74_exact_refuted :
  ~ forall d d' e r, used config0 trace74 0 blocks74 (fun _ => True) d ->
    pt_blk_event blocks74 d = (d', Some e, r) -> pt_blk_time d' = time_in e.
Proof.
  intros H.
  set (d5 := fold_left (fun d c => fst (blk_call blocks74 0 d c)) [B_sync_forward; B_event; B_event; B_event; B_next] (dec74 false)).
  assert (X : match pt_blk_event blocks74 d5 with
              | (d', Some e, _) => (pt_blk_time d', time_in e) | _ => ((0, 0, 0), (0, 0, 0)) end = ((4, 0, 0), (3, 0, 0)))
    by (vm_compute; reflexivity).
  assert (U : used config0 trace74 0 blocks74 (fun _ => True) d5).
  { assert (N : forall cs d, used config0 trace74 0 blocks74 (fun _ => True) d ->
      forallb (fun c => match snd c with UB _ => false | _ => true end) (blk_history blocks74 0 d cs) = true ->
      used config0 trace74 0 blocks74 (fun _ => True) (fold_left (fun d c => fst (blk_call blocks74 0 d c)) cs d)).
    { clear. induction cs as [|c cs IH]; intros d U B; [exact U|]. cbn [fold_left]. cbn [blk_history] in B.
      destruct (blk_call blocks74 0 d c) as [d' r] eqn:E. cbn [forallb snd fst] in B |- *. destruct r as [v|e|u]; [| |discriminate B];
        (apply IH; [|exact B]; change d' with (fst (d', r)) || idtac; rewrite <- (f_equal fst E : fst (blk_call blocks74 0 d c) = d');
         apply used_call; [exact U|rewrite E; discriminate]). }
    apply N; [apply used_new; [reflexivity|exact I|intros k c j Y; discriminate Y]|vm_compute; reflexivity]. }
  clearbody d5. destruct (pt_blk_event blocks74 d5) as [[d' [e|]] r] eqn:E; [|discriminate X].
  rewrite (H d5 d' e r U E) in X. injection X as X1 X2. congruence.
Qed.
Print Assumptions C74_exact_refuted.
