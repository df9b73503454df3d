(** Lemmas on the instruction flow decoder: the instruction count, and that a trace has only
    one flow. *)

From Coq Require Import List NArith ZArith Bool PeanoNat Lia ZifyBool ZifyNat ZifyN.
From Verif Require Import Base M_config M_time M_pktdec M_event M_evdec M_query M_retstack M_asid M_ildtab M_ild
  M_insn M_insndec S_core S_evdec S_x86 S_insn S_query S_evtrace S_flow S_drive L_core L_evdec L_evsafe L_evnext
  L_insn T_insn L_query L_query2 T_evdec T_evtrace L_flow L_flow2 L_flow3 L_flow4 L_flow5 L_flow6.
Import ListNotations.
Open Scope N_scope.

(** ** The instruction count *)

Section COUNT.
  Context {S C : Type} (im : image_if S C).
  Notation dec := (insndec C).

  Definition cnt (d : dec) : N := if id_has_icnt d then id_icnt d else 0.
  Definition upto (k : N) {R} (d : dec) (r : dec * R) : Prop := cnt (fst r) <= cnt d + k.

  Ltac split_all :=
    repeat match goal with
    | |- context [match ?x with _ => _ end] =>
        match x with context [match _ with _ => _ end] => fail 1 | _ => destruct x end
    end.
  Ltac plainly := unfold upto; split_all; unfold cnt; cbn; split_all; cbn; lia.

  Lemma tick_cnt d ip : upto 0 d (maybe_tick d ip).
  Proof. unfold maybe_tick, pt_insn_tick. plainly. Qed.
  Lemma indirect_cnt d : upto 0 d (pt_insn_indirect_branch d).
  Proof.
    unfold pt_insn_indirect_branch. destruct (pt_qry_indirect_branch (id_query d)) as [q [[ip st]|e|u]];
      [|unfold upto, cnt; cbn; lia|unfold upto, cnt; cbn; lia].
    set (d1 := match ip with Some a => _ | None => _ end).
    pose proof (tick_cnt d1 (id_ip d)) as T. assert (E : cnt d1 = cnt d) by (unfold d1; destruct ip; reflexivity).
    unfold upto in *. destruct (maybe_tick d1 (id_ip d)) as [d2 [[]|e|u]]; cbn [fst] in *; lia.
  Qed.
  Lemma cond_cnt d : upto 0 d (pt_insn_cond_branch d).
  Proof.
    unfold pt_insn_cond_branch. destruct (pt_qry_cond_branch (id_query d)) as [q [[t st]|e|u]];
      [|unfold upto, cnt; cbn; lia|unfold upto, cnt; cbn; lia].
    pose proof (tick_cnt (id_set_query d q) (id_ip (id_set_query d q))) as T.
    change (cnt (id_set_query d q)) with (cnt d) in T. unfold upto in *. change (cnt (id_set_query d q)) with (cnt d) in T.
    destruct (maybe_tick _ _) as [d2 [[]|e|u]]; cbn [fst] in *; lia.
  Qed.
  Lemma pending_cnt d : upto 0 d (event_pending d).
  Proof. unfold event_pending. plainly. Qed.
  Lemma trig_cnt d ip : upto 1 d (pt_insn_update_trig d ip).
  Proof.
    unfold pt_insn_update_trig, upto. unfold cnt at 2. destruct (id_has_icnt d) eqn:E; cbn [negb]; [|unfold cnt; cbn; rewrite E; lia].
    assert (A : add32 (id_icnt d) 1 <= id_icnt d + 1).
    { unfold add32. apply N.mod_le. discriminate. }
    set (k := add32 (id_icnt d) 1) in *. split_all; unfold cnt; cbn; rewrite ?E; lia.
  Qed.
  Lemma branch_cnt d i x : upto 1 d (proceed_branch d i x).
  Proof.
    unfold proceed_branch. destruct (_ && _); [apply (trig_cnt (id_set_ip d _))|].
    pose proof (indirect_cnt d) as I. unfold upto in *. destruct (pt_insn_indirect_branch d) as [d1 [st|e|u]]; cbn [fst] in *; [|lia|lia].
    destruct (flag st _); cbn [fst]; [|unfold cnt; cbn; lia]. change (cnt (id_set_status d1 st)) with (cnt d1). lia.
  Qed.
  Lemma proceed_cnt d i x : upto 1 d (pt_insn_proceed d i x).
  Proof.
    unfold pt_insn_proceed. set (d0 := id_set_ip d _).
    change (upto 1 d0 (match in_iclass i with ptic_unknown => (d0, Err pte_bad_insn)
      | ptic_other | ptic_ptwrite => pt_insn_update_trig d0 (in_ip i)
      | ptic_call => if negb (Z.eqb (x_disp x) 0) || negb (x_direct x) then
          let (r, p) := pt_retstack_push (id_retstack d0) (id_ip d0) in
          match p with
          | UB u => (id_set_retstack d0 r, UB u)
          | _ => proceed_branch (id_set_retstack d0 r) i x
          end else proceed_branch d0 i x
      | ptic_return => match pt_insn_cond_branch d0 with
        | (d, Ok (taken, status)) =>
            let d := id_set_status d status in
            if negb taken then (d, Err pte_bad_retcomp) else
            match pt_retstack_pop (id_retstack d) with
            | (r, Ok ip) => (anchor (id_set_ip (id_set_retstack d r) ip), Ok tt)
            | (r, Err e) => (id_set_retstack d r, Err e)
            | (r, UB u) => (id_set_retstack d r, UB u)
            end
        | (d, Err _) => proceed_branch d i x
        | (d, UB u) => (d, UB u)
        end
      | ptic_cond_jump => match pt_insn_cond_branch d0 with
        | (d, Ok (taken, status)) =>
            let d := id_set_status d status in
            let d := if taken : bool then id_set_ip d (add64 (id_ip d) (of_int64 (x_disp x))) else d in
            (anchor d, Ok tt)
        | (d, Err e) => (d, Err e)
        | (d, UB u) => (d, UB u)
        end
      | _ => proceed_branch d0 i x end)).
    generalize d0. clear. intros d.
    pose proof (cond_cnt d) as K. unfold upto in *.
    destruct (in_iclass i); try apply branch_cnt; try apply trig_cnt; try (cbn; lia).
    - destruct (_ || _); [|apply branch_cnt].
      destruct (pt_retstack_push _ _) as [r [|e|u]]; try apply (branch_cnt (id_set_retstack d r)). unfold cnt. cbn. lia.
    - destruct (pt_insn_cond_branch d) as [d1 [[t st]|e|u]]; cbn [fst] in *; [| |lia].
      + destruct t; cbn [negb fst]; [|change (cnt (id_set_status d1 st)) with (cnt d1); lia].
        destruct (pt_retstack_pop _) as [r [|e|u]]; cbn [fst];
          [unfold cnt; cbn; lia|change (cnt (id_set_retstack (id_set_status d1 st) r)) with (cnt d1); lia..].
      + pose proof (branch_cnt d1 i x) as B. unfold upto in B. lia.
    - destruct (pt_insn_cond_branch d) as [d1 [[t st]|e|u]]; cbn [fst] in *; [|lia..]. unfold cnt at 1. cbn. lia.
  Qed.
  Lemma postponed_cnt d : upto 1 d (pt_insn_proceed_postponed d).
  Proof.
    unfold pt_insn_proceed_postponed. destruct (id_postponed d) as [[i x]|]; [|unfold upto; cbn; lia].
    destruct (negb (id_enabled d)); [unfold upto, cnt; cbn; lia|].
    pose proof (proceed_cnt d i x) as P. unfold upto in *. destruct (pt_insn_proceed d i x) as [d1 [[]|e|u]]; cbn [fst] in *; exact P.
  Qed.
  Lemma check_insn_cnt d i x : upto 0 d (pt_insn_check_insn_event d i x).
  Proof.
    unfold pt_insn_check_insn_event. pose proof (pending_cnt d) as P. unfold upto in *.
    destruct (event_pending d) as [d1 [[]|e|u]]; cbn [fst] in *; try exact P.
    destruct (id_event d1) as [ev|]; [|exact P].
    destruct (ev_var ev); try exact P; try (unfold bind_event, pt_insn_postpone; split_all; cbn [fst]; exact P).
  Qed.
  Lemma check_ip_cnt d oi : upto 0 d (pt_insn_check_ip_event im d oi).
  Proof.
    unfold pt_insn_check_ip_event. pose proof (pending_cnt d) as P. unfold upto in *.
    destruct (event_pending d) as [d1 [[]|e|u]]; cbn [fst] in *; try exact P.
    destruct (id_event d1) as [ev|]; [|exact P].
    destruct (ev_var ev); try exact P; try (destruct (ev_ip_suppressed ev); exact P; fail).
    - destruct (negb _); [exact P|]. destruct (er_skd022 _); [|exact P]. unfold handle_erratum_skd022.
      destruct (check_erratum_skd022 im d1) as [[]|e|u]; exact P.
    - unfold pt_insn_postpone_tsx, handle_erratum_bdm64. split_all; cbn [fst indicate]; exact P.
    - unfold check_trig. split_all; cbn [fst indicate]; exact P.
  Qed.
  Lemma process_cnt d ev : upto 0 d (process_event im d ev).
  Proof.
    unfold process_event, pt_insn_process_enabled, pt_insn_process_disabled, pt_insn_process_async_branch,
      pt_insn_process_paging, pt_insn_process_vmcs, pt_insn_process_overflow, pt_insn_process_exec_mode,
      pt_insn_process_stop.
    destruct (ev_var ev); cbv zeta; plainly.
  Qed.

  Lemma next_cnt d : match pt_insn_next im d with (d', _, _) => cnt d' <= cnt d + 1 end.
  Proof.
    unfold pt_insn_next. destruct (negb _); [lia|]. destruct (im_lookup im _ _ _) as [c l].
    change (cnt d) with (cnt (id_set_scache d c)). set (d0 := id_set_scache d c).
    assert (G : forall i msec, match (match pt_insn_decode_cached im d0 msec i with
           | (i, Err e) => (d0, Some i, Err e)
           | (i, UB u) => (d0, Some i, UB u)
           | (i, Ok x) =>
               match pt_insn_check_insn_event d0 i x with
               | (d, Err e) => (d, Some i, Err e)
               | (d, UB u) => (d, Some i, UB u)
               | (d, Ok status) =>
                   if flag status pts_event_pending then (d, Some i, Ok status) else
                   match pt_insn_proceed d i x with
                   | (d, Err e) => (d, Some i, Err e)
                   | (d, UB u) => (d, Some i, UB u)
                   | (d, Ok _) =>
                       let (d, r) := pt_insn_check_ip_event im d (Some i) in (d, Some i, r)
                   end
               end
           end : dec * option insn * res N) with (d', _, _) => cnt d' <= cnt d0 + 1 end).
    { intros i msec. destruct (pt_insn_decode_cached im d0 msec i) as [i1 [x|e|u]]; [|lia..].
      pose proof (check_insn_cnt d0 i1 x) as Q. unfold upto in Q.
      destruct (pt_insn_check_insn_event d0 i1 x) as [d3 [st'|e'|u]]; cbn [fst] in Q; [|lia..].
      destruct (flag st' _); [lia|].
      pose proof (proceed_cnt d3 i1 x) as R. unfold upto in R. destruct (pt_insn_proceed d3 i1 x) as [d4 [[]|e'|u]]; cbn [fst] in R; [|lia..].
      pose proof (check_ip_cnt d4 (Some i1)) as T. unfold upto in T. destruct (pt_insn_check_ip_event im d4 (Some i1)) as [d5 r]. cbn [fst] in T. lia. }
    assert (Z : cnt d0 <= cnt d0 + 1) by lia.
    destruct l as [[isid s]|e|u]; [apply G| |exact Z].
    destruct e; first [exact Z | apply G].
  Qed.
  Lemma drive1_cnt d st : match drive1 im d st with (d', _, _) => cnt d' <= cnt d + 1 end.
  Proof.
    unfold drive1. destruct (flag st _).
    - unfold pt_insn_event. destruct (negb _); [lia|]. destruct (id_event d) as [ev|]; [|lia].
      pose proof (process_cnt d ev) as P. unfold upto in P. destruct (process_event im d ev) as [d1 [e|e|u]]; cbn [fst] in *; [|lia..].
      set (d2 := id_set_event d1 false (id_event d1)). change (cnt d1) with (cnt d2) in P. clearbody d2.
      destruct (id_postponed d2) as [[i x]|].
      2:{ pose proof (check_ip_cnt d2 None) as Q. unfold upto in Q. destruct (pt_insn_check_ip_event im d2 None) as [d3 r]. cbn [fst] in Q. lia. }
      pose proof (check_insn_cnt d2 i x) as Q. unfold upto in Q. destruct (pt_insn_check_insn_event d2 i x) as [d3 [st'|e'|u]]; cbn [fst] in Q; [|lia..].
      destruct (flag st' _); [lia|].
      pose proof (postponed_cnt d3) as R. unfold upto in R. destruct (pt_insn_proceed_postponed d3) as [d4 [[]|e'|u]]; cbn [fst] in R; [|lia..].
      pose proof (check_ip_cnt d4 None) as T. unfold upto in T. destruct (pt_insn_check_ip_event im d4 None) as [d5 r]. cbn [fst] in T. lia.
    - pose proof (next_cnt d) as K. destruct (pt_insn_next im d) as [[d1 i] r]. exact K.
  Qed.
  Lemma drive_cnt n : forall d st, match drive im n d st with (_, d', _) => cnt d' <= cnt d + N.of_nat n end.
  Proof.
    induction n as [|n IH]; intros d st; cbn [drive]; [cbn; lia|].
    pose proof (drive1_cnt d st) as K. destruct (drive1 im d st) as [[d1 o] [st1|e|u]]; [|lia..].
    specialize (IH d1 st1). destruct (drive im n d1 st1) as [[os d2] r]. lia.
  Qed.
  Lemma sync_cnt base d o d1 r : insn_sync_step base im d o = (d1, r) -> cnt d1 = 0.
  Proof.
    unfold insn_sync_step, insn_sync. destruct (qry_sync_step base _ o) as [q [[ip st]|e|u]];
      [|intros [= <- _]; reflexivity..].
    set (d0 := match ip with Some a => _ | None => _ end).
    assert (E0 : id_has_icnt d0 = false) by (unfold d0; destruct ip; reflexivity).
    unfold pt_insn_start. set (d2 := if flag st _ then _ else _).
    assert (E2 : cnt d2 = 0) by (unfold d2, cnt; destruct (flag st _); cbn; rewrite E0; reflexivity).
    pose proof (check_ip_cnt d2 None) as Q. unfold upto in Q. intros E. rewrite E in Q. cbn [fst] in Q. lia.
  Qed.
End COUNT.

(** ** A trace has one flow *)

Lemma insn_unique mem f t i t' i' : f_mode f <> ptem_unknown -> insn_of mem f t i -> insn_of mem f t' i' ->
  site_of f t = site_of f t' /\ same_obs (O_insn i) (O_insn i').
Proof.
  intros Hm (H1 & H2 & H3 & H4 & H5 & H6 & H7 & b & H8) (G1 & G2 & G3 & G4 & G5 & G6 & G7 & b' & G8).
  destruct (text_unique _ _ _ _ _ Hm H1 G1) as (R & M).
  split; [unfold site_of; rewrite R, M; reflexivity|].
  unfold same_obs. rewrite M in H7. repeat split; congruence.
Qed.

Lemma leaves_unique s l fs ip l1 fs1 ip' l2 fs2 : leaves s l fs ip l1 fs1 -> leaves s l fs ip' l2 fs2 ->
  ip = ip' /\ l1 = l2 /\ fs1 = fs2.
Proof.
  intros H H'. destruct H; inversion H'; subst; try congruence; try (repeat split; congruence);
    repeat match goal with
    | K : _ \/ _ |- _ => destruct K
    | K : _ /\ _ |- _ => destruct K
    end; try congruence;
    try (match goal with K : si_class ?s = _, K' : far (si_class ?s) = true |- _ => rewrite K in K'; discriminate K' end);
    match goal with K : takes ?fs _ _, K' : takes ?fs _ _ |- _ => destruct (takes_same _ _ _ _ _ K K') as (-> & ->) end; auto.
Qed.

Lemma step_unique mem err s o s1 o' s2 : fstep mem false err s o s1 -> fstep mem false err s o' s2 ->
  s1 = s2 /\ Forall2 same_obs o o'.
Proof.
  assert (Ev : forall e, Forall2 same_obs [O_event e] [O_event e]) by (intros e; constructor; [reflexivity|constructor]).
  intros H H'. destruct H; inversion H'; subst; cbn [quiet] in *; try congruence; try contradiction; auto;
    repeat match goal with
    | K : f_cur ?f = Some _, K' : f_cur ?f = Some _ |- _ => rewrite K in K'; injection K' as ? ?; subst
    end.
  - destruct (insn_unique _ _ _ _ _ _ H1 H3 H13) as (-> & K). split; [reflexivity|]. constructor; [exact K|constructor].
  - split; [|apply Ev]. congruence.
  - exfalso. unfold disables, kind_of in *. destruct (ev_var e); discriminate.
  - exfalso. match goal with K : ~ binds _ _ _ |- _ => apply K end. right. eauto.
  - exfalso. unfold disables, kind_of in *. destruct (ev_var e); discriminate.
  - split; [reflexivity|apply Ev].
  - exfalso. match goal with K : ~ binds _ _ _ |- _ => apply K end. left. assumption.
  - exfalso. match goal with K : ~ binds _ _ _ |- _ => apply K end. right. eauto.
  - exfalso. match goal with K : ~ binds _ _ _ |- _ => apply K end. left. assumption.
  - match goal with K : leaves _ _ _ _ _ _, K' : leaves _ _ _ _ _ _ |- _ =>
      destruct (leaves_unique _ _ _ _ _ _ _ _ _ K K') as (-> & -> & ->) end.
    assert (X : h' = h /\ h'0 = h).
    { split; [destruct H3 as [->|(Q & _)]; [reflexivity|discriminate Q]|].
      match goal with K : h'0 = h \/ _ |- _ => destruct K as [->|(Q & _)]; [reflexivity|discriminate Q] end. }
    destruct X as (-> & ->). split; [reflexivity|constructor].
  - split; [congruence|apply Ev].
Qed.

(** Two flows: one of them goes on where the other ends. *)
Lemma flows_unique mem err s os s1 : flows mem false err s os s1 -> forall ws s2, orderly_flows mem err s ws s2 ->
  (exists ws1 ws2, ws = ws1 ++ ws2 /\ Forall2 same_obs os ws1 /\ orderly_flows mem err s1 ws2 s2) \/
  (exists os1 os2, os = os1 ++ os2 /\ Forall2 same_obs os1 ws).
Proof.
  induction 1 as [s|s o s' os s1 H _ IH]; intros ws s2 Hw.
  - left. exists [], ws. split; [reflexivity|]. split; [constructor|exact Hw].
  - inversion Hw as [|? o' s'' ws' ? Ho Hs Hw']; subst.
    + right. exists [], (o ++ os). split; [reflexivity|constructor].
    + destruct (step_unique _ _ _ _ _ _ _ H Hs) as (<- & So).
      destruct (IH _ _ Hw') as [(ws1 & ws2 & -> & K1 & K2)|(os1 & os2 & -> & K)].
      * left. exists (o' ++ ws1), ws2. split; [apply app_assoc|]. split; [apply Forall2_app; assumption|exact K2].
      * right. exists (o ++ os1), os2. split; [apply app_assoc|]. apply Forall2_app; assumption.
Qed.
Lemma no_step_flows mem err s ws s' : no_step mem false err s -> orderly_flows mem err s ws s' -> ws = [].
Proof. intros N H. destruct H as [|s o s1 os s' Ho Hs _]; [reflexivity|]. destruct (N _ _ Hs Ho). Qed.
