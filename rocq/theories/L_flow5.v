(** Lemmas on the instruction flow decoder: each call of the documented loop follows the
    flow. *)

From Coq Require Import List NArith ZArith Bool PeanoNat Lia ZifyBool ZifyNat ZifyN.
From Verif Require Import Base M_config M_time M_pktdec M_event M_evdec M_query M_retstack M_asid M_ildtab M_ild
  M_insn M_insndec S_core S_evdec S_x86 S_insn S_query S_evtrace S_flow S_drive L_core L_evdec L_evsafe L_evnext
  L_insn T_insn L_query L_query2 T_evdec T_evtrace L_flow L_flow2 L_flow3 L_flow4.
Import ListNotations.
Open Scope N_scope.

Section FLOW.
  Context (cf : config) (buf : list N) (base : nat) (err : pte).
  Hypothesis sized : callback_sized cf.
  Hypothesis freq : (cf_mtc_freq cf < 24)%N.
  Hypothesis small : (N.of_nat (length buf) + 1 < 2 ^ 31)%N.
  Hypothesis bytes : bytes_ok buf.
  Context {S C : Type} (im : image_if S C) (mem : asid -> memory) (cached : C -> asid -> Prop).
  Hypothesis shows : image_shows im mem cached.
  Hypothesis no_bdm64 : er_bdm64 (cf_errata cf) = false.
  Hypothesis no_skd022 : er_skd022 (cf_errata cf) = false.
  Hypothesis no_skl014 : er_skl014 (cf_errata cf) = false.
  Notation dec := (insndec C).
  Notation comm := (common cf buf base err cached).
  Notation btw := (between cf buf base err cached).

  (** The event happens at this place of the flow. *)
  Definition fits (f : flow) (e : event) : Prop :=
    located f e = true \/ kind_of e <> None \/ exists ip, ev_var e = Ev_disabled ip.
  Definition processed (d : dec) (f : flow) (e : event) (fs : list fact) (r : dec * res event) : Prop :=
    match r with
    | (d', Ok e') => e' = shown f e /\ exists f', effect f e = Some f' /\
        comm (id_set_event d' false (id_event d')) f' None fs /\ id_ip d' = f_ip f' /\ frame_ d d' /\
        f_cur f' = f_cur f
    | (_, Err er) => er <> pte_eos /\ (image_total im cached -> fits f e -> effect f e = None)
    | (_, UB _) => False
    end.

  Lemma comm_turn d f h fs on ip : comm d f h fs -> comm (id_set_enabled (id_set_ip d ip) on) (turn f on ip) h fs.
  Proof. intros []; constructor; try assumption; reflexivity. Qed.
  Lemma comm_turn_ d f h fs on ip : comm d f h fs -> comm (id_set_enabled d on) (turn f on ip) h fs.
  Proof. intros []; constructor; try assumption; reflexivity. Qed.
  Lemma comm_mode d f h fs m : comm d f h fs -> comm (id_set_mode d m) (in_mode_ f m) h fs.
  Proof. intros []; constructor; try assumption; reflexivity. Qed.
  Lemma comm_tx d f h fs b : comm d f h fs -> comm (id_set_spec d b) (in_tx f b) h fs.
  Proof. intros []; constructor; try assumption; reflexivity. Qed.
  Lemma comm_put d f e fs e' : comm d f (Some e) fs -> usual e' -> comm (put_event d e') f (Some e') fs.
  Proof.
    intros [H1 H2 H3 H4 H5 H6 H7 H8 H9 (H10 & _) H11 H12] N. constructor; try assumption.
    - cbn. destruct (id_process_event d); [split; [reflexivity|discriminate]|discriminate H8].
    - split; assumption.
  Qed.
  Lemma comm_space d f h fs a : comm d f h fs -> a = f_asid f -> comm d (in_space f a) h fs.
  Proof. intros [] ->; constructor; assumption. Qed.
  Lemma comm_move d f h fs c a : comm d f h fs -> (forall a, cached c a) ->
    comm (id_set_asid (id_set_scache d c) a) (in_space f a) h fs.
  Proof. intros [] Hc; constructor; try assumption; [reflexivity|]. apply Hc. Qed.

  Lemma exec_mode_same a b : mode_eqb a b = exec_mode_eqb a b.
  Proof. destruct a, b; reflexivity. Qed.

  (** A step of the decoder [d] to [f']. *)
  Definition moved (d : dec) (f f' : flow) (e : event) (fs : list fact) (r : dec * res unit) : Prop :=
    match r with
    | (d', Ok _) => comm d' f' (Some e) fs /\ id_ip d' = f_ip f' /\ frame_ d d' /\ f_cur f' = f_cur f
    | (_, Err er) => er <> pte_eos /\ (image_total im cached -> effect f e = None)
    | (_, UB _) => False
    end.
  Lemma give_ok d f f' e fs r : moved d f f' e fs r -> e = shown f e ->
    (forall d' , r = (d', Ok tt) -> effect f e = Some f') ->
    processed d f e fs (match r with
                        | (d, Ok _) => (d, Ok e)
                        | (d, Err e) => (d, Err e)
                        | (d, UB u) => (d, UB u)
                        end).
  Proof.
    intros Hm Hs He. destruct r as [d' [[]|er|u]]; [|split; [|intros Ht _]; apply Hm; exact Ht|exact Hm].
    destruct Hm as (H1 & H2 & H3 & H4). split; [exact Hs|]. exists f'.
    split; [apply (He d' eq_refl)|]. split; [eapply common_done; exact H1|]. auto.
  Qed.

  Lemma paging_ok d f e fs cr3 : comm d f (Some e) fs -> id_ip d = f_ip f ->
    moved d f (in_space f (mk_asid cr3 (as_vmcs (f_asid f)))) e fs (pt_insn_process_paging im d cr3).
  Proof.
    intros Hc Hip. unfold pt_insn_process_paging. rewrite (c_asid Hc).
    destruct (N.eqb_spec (as_cr3 (f_asid f)) cr3) as [<-|Hne].
    - split; [apply comm_space; [exact Hc|destruct (f_asid f); reflexivity]|]. repeat split; assumption.
    - pose proof (is_invalidate im mem cached shows (id_scache d) (id_asid d) (c_cache Hc)) as V.
      destruct (im_invalidate im (id_scache d)) as [c [[]|er|u]] eqn:Ei; [| |exact V].
      2:{ split; [exact (proj2 V)|]. intros (_ & T). exfalso. apply (T (id_scache d) (id_asid d) er (c_cache Hc)). rewrite Ei. reflexivity. }
      cbn [id_asid id_set_scache]. rewrite (c_asid Hc).
      split; [apply comm_move; [exact Hc|exact V]|]. repeat split; assumption.
  Qed.
  Lemma vmcs_ok d f e fs vmcs : comm d f (Some e) fs -> id_ip d = f_ip f ->
    moved d f (in_space f (mk_asid (as_cr3 (f_asid f)) vmcs)) e fs (pt_insn_process_vmcs im d e vmcs).
  Proof.
    intros Hc Hip. unfold pt_insn_process_vmcs. rewrite (c_asid Hc).
    destruct (N.eqb_spec (as_vmcs (f_asid f)) vmcs) as [<-|Hne].
    - assert (Hc' : comm d (in_space f (mk_asid (as_cr3 (f_asid f)) (as_vmcs (f_asid f)))) (Some e) fs)
        by (apply comm_space; [exact Hc|destruct (f_asid f); reflexivity]).
      destruct (ev_ip_suppressed e); (split; [try apply common_anchor; exact Hc'|]); repeat split; assumption.
    - pose proof (is_invalidate im mem cached shows (id_scache d) (id_asid d) (c_cache Hc)) as V.
      destruct (im_invalidate im (id_scache d)) as [c [[]|er|u]] eqn:Ei; [| |exact V].
      2:{ split; [exact (proj2 V)|]. intros (_ & T). exfalso. apply (T (id_scache d) (id_asid d) er (c_cache Hc)). rewrite Ei. reflexivity. }
      cbn [id_asid id_set_scache]. rewrite (c_asid Hc).
      pose proof (comm_move d f _ _ c (mk_asid (as_cr3 (f_asid f)) vmcs) Hc V) as Hc'.
      destruct (ev_ip_suppressed e); (split; [try apply common_anchor; exact Hc'|]); repeat split; assumption.
  Qed.
  Lemma disabled_ok d f e fs : comm d f (Some e) fs -> id_ip d = f_ip f ->
    effect f e = (if ev_status_update e then (if f_on f then None else Some f)
                  else if f_on f then Some (turn f false (f_ip f)) else None) ->
    moved d f (if ev_status_update e then f else turn f false (f_ip f)) e fs (pt_insn_process_disabled d e) /\
    forall d', pt_insn_process_disabled d e = (d', Ok tt) -> f_on f = negb (ev_status_update e).
  Proof.
    intros Hc Hip He. unfold pt_insn_process_disabled. rewrite (c_on Hc).
    destruct (ev_status_update e); destruct (f_on f); cbn [negb]; split; try discriminate; auto;
      try (split; [discriminate|auto]; fail).
    - split; [exact Hc|]. repeat split; assumption.
    - split; [apply common_icnt, comm_turn_; exact Hc|]. repeat split; assumption.
  Qed.

  Lemma process_ok d f e fs : comm d f (Some e) fs -> id_ip d = f_ip f ->
    processed d f e fs (process_event im d e).
  Proof.
    intros Hc Hip.
    pose proof (c_on Hc) as On.
    pose proof (proj2 (c_quiet Hc)) as Hn. cbv beta iota in Hn.
    assert (Bad : forall d' er, er <> pte_eos -> effect f e = None -> processed d f e fs (d', Err er))
      by (intros d' er H H'; split; auto).
    assert (Away : forall d' er, er <> pte_eos -> ~ fits f e -> processed d f e fs (d', Err er))
      by (intros d' er H H'; split; [exact H|contradiction]).
    assert (Nf : forall o, located f e = false -> kind_of e = o -> o = None ->
      match ev_var e with Ev_disabled _ => False | _ => True end -> ~ fits f e).
    { intros o N1 N2 N3 N4 [F|[F|(ip & F)]]; [congruence|congruence|rewrite F in N4; exact N4]. }
    (* nothing happens to the flow *)
    assert (Keep0 : shown f e = e -> effect f e = Some f -> processed d f e fs (d, Ok e)).
    { intros Hs He. split; [symmetry; exact Hs|]. exists f. split; [exact He|].
      split; [eapply common_done; exact Hc|]. repeat split; exact Hip. }
    assert (Keep1 : shown f e = e -> effect f e = Some f -> processed d f e fs (anchor d, Ok e)).
    { intros Hs He. split; [symmetry; exact Hs|]. exists f. split; [exact He|].
      split; [eapply common_done, common_anchor; exact Hc|]. repeat split; exact Hip. }
    assert (At : forall ip, shown f e = e -> effect f e = Some f ->
      (ev_ip_suppressed e = false -> f_on f = true -> (f_ip f =? ip) = false -> ~ fits f e) ->
      processed d f e fs (if ev_ip_suppressed e then (d, Ok e)
                          else if f_on f && negb (f_ip f =? ip) then (d, Err pte_bad_query)
                          else (anchor d, Ok e))).
    { intros ip Hs He Hf. destruct (ev_ip_suppressed e); [apply Keep0; assumption|].
      destruct (f_on f); cbn [andb]; [|apply Keep1; assumption].
      destruct (f_ip f =? ip); cbn [negb]; [apply Keep1; assumption|].
      apply Away; [discriminate|auto]. }
    unfold process_event, usual in *.
    rewrite On, Hip in *.
    assert (Sh : match ev_var e with Ev_enabled _ _ => True | _ => shown f e = e end)
      by (unfold shown; destruct (ev_var e); auto).
    destruct (ev_var e) eqn:Ev; try (destruct Hn; fail);
      try (apply Keep0; [exact Sh|unfold effect; rewrite Ev; reflexivity]);
      try (apply At; [exact Sh|unfold effect; rewrite Ev; reflexivity|
           intros S1 S2 S3; apply (Nf None); try exact I;
           [unfold located; rewrite Ev, S1, S2, S3; reflexivity|unfold kind_of; rewrite Ev; reflexivity|reflexivity]]).
    - (* enabled *)
      set (e' := if f_ip f =? ip then set_var e (Ev_enabled ip true) else e).
      assert (Es : ev_status_update e' = ev_status_update e /\ ev_ip_suppressed e' = ev_ip_suppressed e /\
                   usual e' /\ e' = shown f e).
      { unfold e', shown, usual. rewrite Ev. destruct (f_ip f =? ip); cbn.
        - rewrite orb_true_r. auto.
        - rewrite orb_false_r, Ev. repeat split. clear - Ev. destruct e; cbn in Ev |- *. subst. reflexivity. }
      destruct Es as (E1 & E2 & E3 & E4).
      pose proof (comm_put _ _ _ _ e' Hc E3) as Hc'.
      unfold pt_insn_process_enabled. rewrite E1, E2. cbn [id_enabled put_event id_set_event]. rewrite On.
      destruct (ev_status_update e) eqn:Eu.
      + destruct (f_on f) eqn:Ef; [|apply Bad; [discriminate|unfold effect; rewrite Ev, Eu, Ef; reflexivity]].
        split; [exact E4|]. exists f. unfold effect. rewrite Ev, Eu, Ef.
        split; [reflexivity|]. split; [eapply common_done; exact Hc'|]. repeat split; exact Hip.
      + destruct (ev_ip_suppressed e) eqn:Ei; [apply Bad; [discriminate|unfold effect; rewrite Ev, Eu, Ei; reflexivity]|].
        destruct (f_on f) eqn:Ef; [apply Bad; [discriminate|unfold effect; rewrite Ev, Eu, Ei, Ef; reflexivity]|].
        split; [exact E4|]. exists (turn f true ip). unfold effect. rewrite Ev, Eu, Ei, Ef.
        split; [reflexivity|]. split; [eapply common_done, common_anchor, comm_turn; exact Hc'|].
        repeat split.
    - (* disabled *)
      destruct (disabled_ok d f e fs Hc Hip) as (M & M2); [unfold effect; rewrite Ev; reflexivity|].
      eapply give_ok; [exact M|auto|]. intros d' Hd. specialize (M2 d' Hd).
      unfold effect. rewrite Ev, M2. destruct (ev_status_update e); reflexivity.
    - (* async disabled *)
      destruct (negb (ev_ip_suppressed e) && _) eqn:Eq;
        [apply Away; [discriminate|]; apply (Nf None); try exact I;
         [unfold located; rewrite Ev; clear - Eq; destruct (ev_ip_suppressed e); [discriminate|]; destruct (f_ip f =? _); [discriminate|reflexivity]|unfold kind_of; rewrite Ev; reflexivity|reflexivity]|].
      destruct (disabled_ok d f e fs Hc Hip) as (M & M2); [unfold effect; rewrite Ev; reflexivity|].
      eapply give_ok; [exact M|auto|]. intros d' Hd. specialize (M2 d' Hd).
      unfold effect. rewrite Ev, M2. destruct (ev_status_update e); reflexivity.
    - (* async branch *)
      destruct (negb (f_ip f =? from)) eqn:Eq;
        [apply Away; [discriminate|]; apply (Nf None); try exact I;
         [unfold located; rewrite Ev; destruct (f_ip f =? from); [discriminate|reflexivity]|unfold kind_of; rewrite Ev; reflexivity|reflexivity]|].
      unfold pt_insn_process_async_branch. rewrite On.
      destruct (ev_status_update e) eqn:Eu; [apply Bad; [discriminate|unfold effect; rewrite Ev, Eu; reflexivity]|].
      destruct (f_on f) eqn:Ef; [|apply Bad; [discriminate|unfold effect; rewrite Ev, Eu, Ef; reflexivity]].
      split; [auto|]. exists (go f to). unfold effect. rewrite Ev, Eu, Ef. split; [reflexivity|].
      split; [eapply common_done, common_anchor, common_go, common_ip; exact Hc|]. repeat split.
    - (* paging *)
      eapply give_ok; [apply paging_ok; assumption|auto|]. intros d' _. unfold effect. rewrite Ev. reflexivity.
    - (* async paging *)
      destruct (negb (ev_ip_suppressed e) && _) eqn:Eq;
        [apply Away; [discriminate|]; apply (Nf None); try exact I;
         [unfold located; rewrite Ev; clear - Eq; destruct (ev_ip_suppressed e); [discriminate|]; destruct (f_ip f =? _); [discriminate|reflexivity]|unfold kind_of; rewrite Ev; reflexivity|reflexivity]|].
      eapply give_ok; [apply paging_ok; assumption|auto|]. intros d' _. unfold effect. rewrite Ev. reflexivity.
    - (* overflow *)
      unfold pt_insn_process_overflow.
      destruct (ev_status_update e) eqn:Eu; [apply Bad; [discriminate|unfold effect; rewrite Ev, Eu; reflexivity]|].
      split; [auto|].
      exists (in_tx (if ev_ip_suppressed e then turn f false 0 else turn f true ip) false).
      unfold effect. rewrite Ev, Eu. split; [reflexivity|].
      destruct (ev_ip_suppressed e); (split; [|repeat split]).
      + eapply common_done, comm_tx, common_icnt. exact (comm_turn _ _ _ _ false 0 Hc).
      + eapply common_done, comm_tx, common_anchor, comm_turn. exact Hc.
    - (* execution mode *)
      unfold pt_insn_process_exec_mode. rewrite On, (c_mode Hc), (exec_mode_same _ ptem_unknown), (exec_mode_same _ mode).
      destruct (ev_status_update e && f_on f && negb (exec_mode_eqb (f_mode f) ptem_unknown)
                && negb (exec_mode_eqb (f_mode f) mode)) eqn:Em.
      { apply Bad; [discriminate|]. unfold effect. rewrite Ev. destruct (f_mode f); try (
          change (negb (exec_mode_eqb _ ptem_unknown)) with true in Em; rewrite andb_true_r in Em; rewrite Em; reflexivity).
        change (negb (exec_mode_eqb ptem_unknown ptem_unknown)) with false in Em.
        rewrite andb_false_r in Em. discriminate Em. }
      split; [auto|]. exists (in_mode_ f mode). split.
      + unfold effect. rewrite Ev. destruct (f_mode f); try reflexivity;
          change (negb (exec_mode_eqb _ ptem_unknown)) with true in Em; rewrite andb_true_r in Em;
          rewrite Em; reflexivity.
      + split; [eapply common_done, common_anchor, comm_mode; exact Hc|]. repeat split; exact Hip.
    - (* transaction *)
      split; [auto|]. exists (in_tx f speculative). unfold effect. rewrite Ev. split; [reflexivity|].
      split; [eapply common_done, common_anchor, comm_tx; exact Hc|]. repeat split; exact Hip.
    - (* stop *)
      unfold pt_insn_process_stop. rewrite On.
      destruct (ev_status_update e) eqn:Eu; [apply Bad; [discriminate|unfold effect; rewrite Ev, Eu; reflexivity]|].
      destruct (f_on f) eqn:Ef; [apply Bad; [discriminate|unfold effect; rewrite Ev, Eu, Ef; reflexivity]|].
      split; [auto|]. exists f. unfold effect. rewrite Ev, Eu, Ef. split; [reflexivity|].
      split; [eapply common_done; exact Hc|]. repeat split; exact Hip.
    - (* vmcs *)
      eapply give_ok; [apply vmcs_ok; assumption|auto|]. intros d' _. unfold effect. rewrite Ev. reflexivity.
    - (* async vmcs *)
      destruct (negb (ev_ip_suppressed e) && _) eqn:Eq;
        [apply Away; [discriminate|]; apply (Nf None); try exact I;
         [unfold located; rewrite Ev; clear - Eq; destruct (ev_ip_suppressed e); [discriminate|]; destruct (f_ip f =? _); [discriminate|reflexivity]|unfold kind_of; rewrite Ev; reflexivity|reflexivity]|].
      eapply give_ok; [apply vmcs_ok; assumption|auto|]. intros d' _. unfold effect. rewrite Ev. reflexivity.
    - (* mwait *)
      destruct (negb (ev_ip_suppressed e) && f_on f && _) eqn:Eq;
        [apply Away; [discriminate|]; apply (Nf None); try exact I;
         [unfold located; rewrite Ev; clear - Eq; destruct (ev_ip_suppressed e); [discriminate|]; destruct (f_on f); [|discriminate]; destruct (f_ip f =? _); [discriminate|reflexivity]|unfold kind_of; rewrite Ev; reflexivity|reflexivity]|].
      apply Keep0; [exact Sh|unfold effect; rewrite Ev; reflexivity].
    - (* rsm *)
      destruct (ev_ip_suppressed e) eqn:Es; [|apply Bad; [discriminate|unfold effect; rewrite Ev, Es; reflexivity]].
      apply Keep0; [exact Sh|unfold effect; rewrite Ev, Es; reflexivity].
    - (* sipi *)
      destruct (ev_ip_suppressed e) eqn:Es; [|apply Bad; [discriminate|unfold effect; rewrite Ev, Es; reflexivity]].
      apply Keep0; [exact Sh|unfold effect; rewrite Ev, Es; reflexivity].
  Qed.

  (** ** The calls of the loop *)

  Definition known (o : list obs) : Prop :=
    Forall (fun o => match o with O_insn i => in_mode i <> ptem_unknown | O_event _ => True end) o.

  Definition follows (ticks : bool) (s : fstate) (r : dec * list obs * res N) : Prop :=
    match r with
    | (d', o, r) => known o -> exists s', flows mem ticks err s o s' /\
        match r with
        | Ok st => id_ticks d' = ticks /\ btw d' st s'
        | Err e => (e = pte_eos -> drained (fs_facts s')) /\
            (image_total im cached -> worn d' e \/ no_step mem ticks err s')
        | UB u => u = ub_oob_read /\ f_on (fs_flow s') = true /\
            rex2_hole (mem (f_asid (fs_flow s'))) (f_mode (fs_flow s')) (f_ip (fs_flow s')) /\
            no_step mem ticks err s'
        end
    end.

  (** The end of a call. *)
  Lemma settle_follows ticks s o s1 (d d' : dec) r : flows mem ticks err s o s1 ->
    settles cf buf base err mem cached ticks d s1 (d', r) -> follows ticks s (d', o, r).
  Proof.
    intros Hf Hs _. unfold settles in Hs. destruct r as [st|e|u]; [| |destruct Hs].
    - destruct Hs as (Ht & s' & H1 & H2). exists s'. rewrite <- (app_nil_r o).
      split; [eapply flows_app; eassumption|]. split; assumption.
    - destruct Hs as (s' & H1 & H2 & H3). exists s'. rewrite <- (app_nil_r o).
      split; [eapply flows_app; eassumption|]. auto.
  Qed.
  Lemma halt_follows ticks s o s1 s2 (d' : dec) e : flows mem ticks err s o s1 -> flows mem ticks err s1 [] s2 ->
    halted err mem ticks d' e s2 -> follows ticks s (d', o, Err e).
  Proof.
    intros H1 H2 (H3 & H4) _. exists s2. rewrite <- (app_nil_r o).
    split; [eapply flows_app; eassumption|]. auto.
  Qed.

  Definition finish (d : dec) : dec * res N :=
    match id_postponed d with
    | None => pt_insn_check_ip_event im d None
    | Some (i, x) =>
        match pt_insn_check_insn_event d i x with
        | (d, Err e) => (d, Err e)
        | (d, UB u) => (d, UB u)
        | (d, Ok status) =>
            if flag status pts_event_pending then (d, Ok status) else
            match pt_insn_proceed_postponed d with
            | (d, Err e) => (d, Err e)
            | (d, UB u) => (d, UB u)
            | (d, Ok _) => pt_insn_check_ip_event im d None
            end
        end
    end.

  Lemma event_finish d : pt_insn_event im d =
    if negb (id_process_event d) then (d, None, Err pte_bad_query) else
    match id_event d with
    | None => (d, None, Err pte_bad_query)
    | Some ev =>
        match process_event im d ev with
        | (d, Err e) => (d, None, Err e)
        | (d, UB u) => (d, None, UB u)
        | (d, Ok ev) => let (d, r) := finish (id_set_event d false (id_event d)) in (d, Some ev, r)
        end
    end.
  Proof.
    unfold pt_insn_event, finish. destruct (negb _); [reflexivity|]. destruct (id_event d); [|reflexivity].
    destruct (process_event im d e) as [d1 [ev|er|u]]; try reflexivity.
    destruct (id_postponed _) as [[i x]|]; [|reflexivity].
    destruct (pt_insn_check_insn_event _ i x) as [d2 [st|er|u]]; try reflexivity.
    destruct (flag st _); [reflexivity|].
    destruct (pt_insn_proceed_postponed d2) as [d3 [st'|er|u]]; reflexivity.
  Qed.

  Lemma common_clear d f h fs : comm d f h fs -> comm (pt_insn_clear_postponed d) f h fs.
  Proof. intros H. unfold pt_insn_clear_postponed. apply common_postponed. exact H. Qed.

  Lemma check_ip_flows ticks d f h fs o s : flows mem ticks err s o (mk_fstate f h fs) -> id_ticks d = ticks ->
    ready cf buf base err cached d f h fs -> forall oi,
    match pt_insn_check_ip_event im d oi with (d', r) => follows ticks s (d', o, r) end.
  Proof.
    intros Hf Ht Hr oi. pose proof (check_ip_ok cf buf base err sized freq small bytes im mem cached no_bdm64 no_skd022 d f h fs oi Hr) as K.
    rewrite Ht in K. destruct (pt_insn_check_ip_event im d oi) as [d' r].
    eapply settle_follows; eassumption.
  Qed.

  Lemma finish_ok ticks s o d f h fs : flows mem ticks err s o (mk_fstate f h fs) -> id_ticks d = ticks ->
    comm d f h fs ->
    ready cf buf base err cached d f h fs \/
    (exists i x ks, at_insn d f i x ks /\ id_postponed d = Some (i, x)) \/
    (exists i x, after_insn d f i x) ->
    match finish d with (d', r) => follows ticks s (d', o, r) end.
  Proof.
    intros Hf Ht Hc Hst. unfold finish.
    destruct Hst as [Hr|Hst].
    { pose proof Hr as (_ & _ & _ & Hp & _). rewrite Hp. eapply check_ip_flows; eassumption. }
    assert (Hx : exists i x ks, id_postponed d = Some (i, x) /\ (at_insn d f i x ks \/ after_insn d f i x)).
    { destruct Hst as [(i & x & ks & H1 & H2)|(i & x & H)]; [exists i, x, ks; auto|].
      exists i, x, []. split; [apply H|auto]. }
    destruct Hx as (i & x & ks & Hp & Hat). rewrite Hp.
    pose proof (check_insn_ok cf buf base err sized freq small bytes mem cached no_skl014 d f h fs i x ks Hc Hat) as K.
    rewrite Ht in K. destruct (pt_insn_check_insn_event d i x) as [d1 [st|er|u]]; unfold checks in K; [| |destruct K].
    2:{ destruct K as (s' & K1 & K2). eapply halt_follows; eassumption. }
    destruct K as (Ht1 & K). destruct (flag st pts_event_pending) eqn:Est.
    { destruct K as (s' & K1 & K2). intros _. exists s'. rewrite <- (app_nil_r o).
      split; [eapply flows_app; eassumption|]. split; [exact Ht1|]. unfold between. rewrite Est. exact K2. }
    destruct K as (h1 & fs1 & K1 & Hc1 & (F1 & F2 & F3 & F4) & Hq).
    pose proof (flows_app _ _ _ _ _ _ _ _ Hf K1) as Hf1. rewrite app_nil_r in Hf1.
    unfold pt_insn_proceed_postponed. rewrite F2, Hp, (c_on Hc1).
    destruct Hat as [(On & Hcur & Hii & Hdi & Hw & Hk & _)|(Off & Hcur & Hdi & _)].
    - rewrite On. cbn [negb].
      pose proof (proceed_ok cf buf base err sized freq small bytes mem cached d1 f h1 fs1 i x ks Hc1 On Hcur Hw ltac:(congruence) (Hq _ _ On Hcur)) as P.
      rewrite Ht1 in P. destruct (pt_insn_proceed d1 i x) as [d2 [[]|er|u]]; [| |destruct P].
      + destruct P as (ip & l & h2 & fs2 & Hc2 & Hip2 & (G1 & G2 & G3) & Hst2).
        pose proof (flows_app _ _ _ _ _ _ _ _ Hf1 (flows_one _ _ _ _ _ _ Hst2)) as Hf2. rewrite app_nil_r in Hf2.
        eapply check_ip_flows; [exact Hf2|cbn; congruence|]. split; [apply common_clear; exact Hc2|].
        split; [reflexivity|]. split; [exact Hip2|]. split; reflexivity.
      + eapply halt_follows; [exact Hf1|constructor|exact P].
    - rewrite Off. cbn [negb].
      eapply check_ip_flows; [exact Hf1|exact Ht1|]. split; [apply common_clear; exact Hc1|].
      split; [exact Hcur|]. split; [cbn; congruence|]. split; reflexivity.
  Qed.

  Lemma kind_effect e f f' k : kind_of e = Some k -> effect f e = Some f' ->
    f_on f' = f_on f /\ f_ip f' = f_ip f /\ shown f e = e.
  Proof.
    unfold kind_of, effect, shown. destruct (ev_var e); try discriminate; intros _ H; injection H as <-; auto.
  Qed.

  Lemma event_ok d s : pending cf buf base err cached d s ->
    match pt_insn_event im d with
    | (d', e, r) => follows (id_ticks d) s (d', match e with Some e => [O_event e] | None => [] end, r)
    end.
  Proof.
    intros (f & e & fs & -> & Hp).
    assert (Hh : id_process_event d = true /\ id_event d = Some e).
    { assert (Hc : comm d f (Some e) fs) by (destruct Hp as [H|[H|[H|H]]]; apply H).
      pose proof (c_held Hc) as K. destruct (id_process_event d); [tauto|discriminate]. }
    rewrite event_finish. destruct Hh as (-> & ->). cbn [negb].
    assert (NoOk : forall d' o er, er <> pte_eos -> o = [] ->
      (image_total im cached -> no_step mem (id_ticks d) err (mk_fstate f (Some e) fs)) ->
      follows (id_ticks d) (mk_fstate f (Some e) fs) (d', o, Err er)).
    { intros d' o er Hne -> Hn _. exists (mk_fstate f (Some e) fs). split; [constructor|].
      split; [congruence|right; auto]. }
    destruct Hp as [(Hc & Hcur & Hip & Hl & Hpp)|[(Hc & On & Hip & i & x & ks & k & Hp & Hcur & Hw & Hii & Hk & Hnk & Hca & Hkb)
                   |[(Hc & On & s & ks & Hcur & Hd & Hip & Hpp)|(Hc & Off & ip & Hev & Hsu)]]].
    - (* between instructions *)
      pose proof (process_ok d f e fs Hc Hip) as P. unfold processed in P.
      destruct (process_event im d e) as [d1 [e'|er|u]]; [| |destruct P].
      2:{ destruct P as (P1 & P2). apply NoOk; [exact P1|reflexivity|]. intros T.
          eapply no_step_event; try reflexivity; try assumption; [congruence|].
          intros _. apply P2; [exact T|left; exact Hl]. }
      destruct P as (-> & f' & He & Hc' & Hip' & (F1 & F2 & F3) & Hcur').
      set (d2 := id_set_event d1 false (id_event d1)) in *.
      assert (Hf : flows mem (id_ticks d) err (mk_fstate f (Some e) fs) [O_event (shown f e)] (mk_fstate f' None fs))
        by (apply flows_one, fs_event; assumption).
      pose proof (finish_ok (id_ticks d) _ _ d2 f' None fs Hf F3 Hc') as K.
      destruct (finish d2) as [d3 r]. apply K. clear K.
      destruct Hpp as [(Hp & Hb)|(Off & Hk & Hp)].
      + left. split; [exact Hc'|]. repeat split; try congruence; cbn; congruence.
      + right. right. destruct (id_postponed d) as [[i x]|] eqn:Ep; [|congruence].
        destruct (kind_of e) as [k|] eqn:Ek; [|congruence].
        destruct (kind_effect _ _ _ _ Ek He) as (K1 & K2 & _).
        exists i, x. repeat split; try congruence; cbn; congruence.
    - (* caused by the instruction *)
      pose proof (process_ok d f e fs Hc Hip) as P. unfold processed in P.
      destruct (process_event im d e) as [d1 [e'|er|u]]; [| |destruct P].
      2:{ destruct P as (P1 & P2). apply NoOk; [exact P1|reflexivity|]. intros T. exfalso.
          assert (N : effect f e = None) by (apply P2; [exact T|right; left; congruence]).
          clear - Hk N. unfold kind_of, effect in *. destruct (ev_var e); discriminate. }
      destruct P as (-> & f' & He & Hc' & Hip' & (F1 & F2 & F3) & Hcur').
      destruct (kind_effect _ _ _ _ Hk He) as (K1 & K2 & K3). rewrite K3.
      set (d2 := id_set_event d1 false (id_event d1)) in *.
      assert (Hf : flows mem (id_ticks d) err (mk_fstate f (Some e) fs) [O_event e]
        (mk_fstate (at_site f' (Some (site_of_insn i x, k :: ks))) None fs))
        by (eapply flows_one, fs_cause; eassumption).
      pose proof (finish_ok (id_ticks d) _ _ d2 _ None fs Hf F3 (common_at _ _ _ _ _ _ _ _ _ _ Hc')) as K.
      destruct (finish d2) as [d3 r]. apply K. clear K.
      right. left. exists i, x, (k :: ks). split; [|cbn; congruence].
      unfold at_insn. cbn [f_on f_cur f_ip at_site].
      split; [congruence|]. split; [reflexivity|]. split; [congruence|]. split; [exact Hip'|].
      split; [exact Hw|].
      split; [unfold d2; cbn [id_bound id_set_event]; rewrite F2; exact Hkb|]. right. cbn. congruence.
    - (* the end of tracing with the instruction *)
      pose proof (common_at _ _ _ _ _ _ _ _ _ None (common_go _ _ _ _ _ _ _ _ _ (resume s) Hc)) as Hc0.
      set (f0 := at_site (go f (resume s)) None) in *.
      pose proof (process_ok d f0 e fs Hc0 Hip) as P. unfold processed in P.
      destruct (process_event im d e) as [d1 [e'|er|u]]; [| |destruct P].
      2:{ destruct P as (P1 & P2). apply NoOk; [exact P1|reflexivity|]. intros T. exfalso.
          clear - P2 T Hd On. unfold disables in Hd. destruct (ev_var e) eqn:Ev; try discriminate.
          destruct (ev_status_update e) eqn:Eu; [discriminate|].
          assert (N : effect f0 e = None) by (apply P2; [exact T|right; right; eauto]).
          unfold effect in N. rewrite Ev, Eu in N. cbn [f_on f0 at_site go] in N. rewrite On in N. discriminate. }
      destruct P as (-> & f' & He & Hc' & Hip' & (F1 & F2 & F3) & Hcur').
      assert (Hv : ev_status_update e = false /\ exists ip, ev_var e = Ev_disabled ip).
      { clear - Hd. unfold disables in Hd. destruct (ev_var e); try discriminate.
        destruct (ev_status_update e); [discriminate|]. eauto. }
      destruct Hv as (Hsu & ip & Hv).
      assert (Ef : f' = at_site (turn f false (resume s)) None /\ shown f0 e = e).
      { clear - He Hsu Hv On. unfold effect, shown in *. rewrite Hv, Hsu in *. cbn [f_on f0 at_site go] in He.
        rewrite On in He. split; [|reflexivity]. injection He as <-. reflexivity. }
      destruct Ef as (-> & ->).
      set (d2 := id_set_event d1 false (id_event d1)) in *.
      assert (Hf : flows mem (id_ticks d) err (mk_fstate f (Some e) fs) [O_event e]
        (mk_fstate (at_site (turn f false (resume s)) None) None fs))
        by (eapply flows_one, fs_disable; eassumption).
      pose proof (finish_ok (id_ticks d) _ _ d2 _ None fs Hf F3 Hc') as K.
      destruct (finish d2) as [d3 r]. apply K. clear K.
      destruct (id_postponed d) as [[i x]|] eqn:Ep.
      + right. right. exists i, x. repeat split; try exact Hip'. cbn; congruence.
      + left. split; [exact Hc'|]. repeat split; try exact Hip'; cbn; [congruence|]. rewrite F2. auto.
    - (* tracing is off already *)
      pose proof (common_go _ _ _ _ _ _ _ _ _ (id_ip d) Hc) as Hc0.
      pose proof (process_ok d (go f (id_ip d)) e fs Hc0 eq_refl) as P. unfold processed in P.
      destruct (process_event im d e) as [d1 [e'|er|u]]; [| |destruct P].
      2:{ destruct P as (P1 & P2). apply NoOk; [exact P1|reflexivity|]. intros _.
          intros o s' H. inversion H; subst; try congruence.
          match goal with L : located f e = true |- _ => unfold located in L; rewrite Hev, Hsu in L; discriminate L end. }
      destruct P as (_ & f' & He & _). exfalso. clear - He Hsu Hev Off. unfold effect in He.
      rewrite Hev, Hsu in He. cbn [f_on go] in He. rewrite Off in He. discriminate.
  Qed.

  Lemma seen_insn (r : res N) (i : insn) : in_iclass i <> ptic_unknown -> seen (Some i) r = [O_insn i].
  Proof. intros H. unfold seen. destruct r; [reflexivity| |]; destruct (in_iclass i); congruence. Qed.

  Lemma no_step_idle ticks s : f_cur (fs_flow s) = None ->
    quiet err (fun e => located (fs_flow s) e = true) (fs_held s) (fs_facts s) ->
    (f_on (fs_flow s) = true -> f_mode (fs_flow s) <> ptem_unknown -> forall t i, ~ insn_of mem (fs_flow s) t i) ->
    no_step mem ticks err s.
  Proof.
    intros Hc Hq Hi o s' H. inversion H; subst; cbn [fs_flow fs_held fs_facts quiet] in *; try congruence; try (destruct Hq; fail).
    exfalso. eapply Hi; eassumption.
  Qed.

  Lemma next_ok d s : idle cf buf base err cached d s ->
    match pt_insn_next im d with
    | (d', i, r) => follows (id_ticks d) s (d', seen i r, r)
    end.
  Proof.
    intros ((Hc & Hcur & Hip & Hp & Hb) & Hqu). unfold pt_insn_next.
    rewrite (c_on Hc).
    destruct (f_on (fs_flow s)) eqn:On; cbn [negb].
    2:{ intros _. exists s. split; [constructor|].
        assert (N : no_step mem (id_ticks d) err s) by (apply no_step_idle; [assumption|assumption|congruence]).
        destruct (flag (id_status d) pts_eos) eqn:Es; (split; [|right; exact N]); [|discriminate]. intros _.
        rewrite (c_eos Hc Es). reflexivity. }
    destruct s as [f h fs]. cbn [fs_flow fs_held fs_facts] in *.
    set (i0 := new_insn (id_ip d) (id_mode d) (id_speculative d)).
    pose proof (is_lookup im mem cached shows (id_scache d) (id_asid d) (id_ip d) (c_cache Hc)) as L.
    assert (Lk : forall c, cached c (id_asid d) -> comm (id_set_scache d c) f h fs).
    { intros c Hcc. clear - Hc Hcc. destruct Hc; constructor; assumption. }
    destruct (im_lookup im (id_scache d) (id_asid d) (id_ip d)) as [c l] eqn:El.
    set (d0 := id_set_scache d c).
    assert (Fin : forall i msec,
      in_ip i = f_ip f -> in_mode i = f_mode f -> in_speculative i = f_spec f ->
      in_iclass i = ptic_unknown -> length (in_raw i) = 15%nat -> bytes_ok (in_raw i) ->
      cached c (id_asid d) ->
      match msec with
      | Some s => (exists b, mem (f_asid f) (f_ip f) = Some (b, in_isid i)) /\
          exists l, im_sread im s (f_ip f) 15 = Ok l /\ (1 <= length l <= 15)%nat /\ bytes_ok l /\
                    bytes_at (mem (f_asid f)) (f_ip f) l
      | None => True
      end ->
      match (match pt_insn_decode_cached im d0 msec i with
             | (i, Err e) => (d0, Some i, Err e)
             | (i, UB u) => (d0, Some i, UB u)
             | (i, Ok x) =>
                 match pt_insn_check_insn_event d0 i x with
                 | (d, Err e) => (d, Some i, Err e)
                 | (d, UB u) => (d, Some i, UB u)
                 | (d, Ok status) =>
                     if flag status pts_event_pending then (d, Some i, Ok status) else
                     match pt_insn_proceed d i x with
                     | (d, Err e) => (d, Some i, Err e)
                     | (d, UB u) => (d, Some i, UB u)
                     | (d, Ok _) =>
                         let (d, r) := pt_insn_check_ip_event im d (Some i) in (d, Some i, r)
                     end
                 end
             end) with
      | (d', i, r) => follows (id_ticks d) (mk_fstate f h fs) (d', seen i r, r)
      end).
    { intros i msec I1 I2 I3 I4 I5 I6 Hcc Hm.
      specialize (Lk c Hcc). fold d0 in Lk.
      pose proof (cached_ok im mem cached shows d0 f msec i (c_asid Lk) I1 I2 I3 I4 I5 I6 Hm) as F.
      destruct (pt_insn_decode_cached im d0 msec i) as [i1 [x|e|u]]; unfold fetched in F.
      2:{ destruct F as ((F1 & F2) & F3). unfold seen. rewrite F2. intros _. exists (mk_fstate f h fs).
          split; [constructor|]. split; [congruence|]. right. apply no_step_idle; auto. }
      2:{ destruct F as ((F1 & F2 & F3) & F4). unfold seen. rewrite F1. intros _. exists (mk_fstate f h fs).
          split; [constructor|]. repeat (split; [assumption|]). apply no_step_idle; auto. }
      destruct F as (Fm & Ci & F).
      assert (Md : f_mode f = ptem_unknown \/ f_mode f <> ptem_unknown)
        by (destruct (f_mode f); auto; right; discriminate).
      destruct Md as [Mu|Mk].
      { (* the mode is not known *)
        assert (Un : forall (d' : dec) (r : res N),
          follows (id_ticks d) (mk_fstate f h fs) (d', seen (Some i1) r, r)).
        { intros d' r. rewrite seen_insn by exact Ci. intros Hk. exfalso. apply Forall_inv in Hk. congruence. }
        destruct (pt_insn_check_insn_event d0 i1 x) as [d1 [st|er|u]]; try apply Un.
        destruct (flag st pts_event_pending); [apply Un|].
        destruct (pt_insn_proceed d1 i1 x) as [d2 [[]|er|u]]; try apply Un.
        destruct (pt_insn_check_ip_event im d2 (Some i1)) as [d3 r]. apply Un. }
      destruct (F Mk) as (t & T1 & T2). clear F.
      assert (Hf : flows mem (id_ticks d) err (mk_fstate f h fs) [O_insn i1]
        (mk_fstate (at_site f (Some (site_of_insn i1 x, []))) h fs)).
      { apply flows_one. rewrite T2. apply fs_insn; assumption. }
      set (f1 := at_site f (Some (site_of_insn i1 x, []))) in *.
      assert (Hc1 : comm d0 f1 h fs) by (apply common_at; exact Lk).
      assert (Hw : wf_site (site_of_insn i1 x)) by (rewrite T2; apply meaning_wf).
      assert (Hat : at_insn d0 f1 i1 x []).
      { unfold at_insn. cbn [f_on f_cur f_ip at_site f1]. split; [exact On|]. split; [reflexivity|].
        split; [apply T1|]. split; [exact Hip|]. split; [exact Hw|].
        change (id_bound d0) with (id_bound d). rewrite Hb. split; [apply kinds_none|]. left. auto. }
      pose proof (check_insn_ok cf buf base err sized freq small bytes mem cached no_skl014 d0 f1 h fs i1 x [] Hc1 (or_introl Hat)) as K.
      change (id_ticks d0) with (id_ticks d) in K.
      destruct (pt_insn_check_insn_event d0 i1 x) as [d1 [st|er|u]]; unfold checks in K; [| |destruct K].
      2:{ destruct K as (s' & K1 & K2). rewrite seen_insn by exact Ci. eapply halt_follows; eassumption. }
      destruct K as (Ht1 & K). destruct (flag st pts_event_pending) eqn:Est.
      { destruct K as (s' & K1 & K2). rewrite seen_insn by exact Ci. intros _. exists s'. rewrite <- (app_nil_r [O_insn i1]).
        split; [eapply flows_app; eassumption|]. split; [exact Ht1|]. unfold between. rewrite Est. exact K2. }
      destruct K as (h1 & fs1 & K1 & Hc2 & (F1 & F2 & F3 & F4) & Hq).
      pose proof (flows_app _ _ _ _ _ _ _ _ Hf K1) as Hf1. rewrite app_nil_r in Hf1.
      pose proof (proceed_ok cf buf base err sized freq small bytes mem cached d1 f1 h1 fs1 i1 x [] Hc2 On eq_refl Hw) as P.
      assert (Hi1 : id_ip d1 = in_ip i1).
      { rewrite F1. change (id_ip d0) with (id_ip d). rewrite Hip. symmetry. apply T1. }
      specialize (P Hi1 (Hq _ _ On eq_refl)). rewrite Ht1 in P.
      destruct (pt_insn_proceed d1 i1 x) as [d2 [[]|er|u]]; [| |destruct P].
      - destruct P as (ip & l0 & h2 & fs2 & Hc3 & Hip2 & (G1 & G2 & G3) & Hst2).
        pose proof (flows_app _ _ _ _ _ _ _ _ Hf1 (flows_one _ _ _ _ _ _ Hst2)) as Hf2. rewrite app_nil_r in Hf2.
        pose proof (check_ip_flows (id_ticks d) d2 _ _ _ _ _ Hf2 ltac:(congruence)) as Q.
        assert (Rd : ready cf buf base err cached d2 (at_site (go (calls f1 l0) ip) None) h2 fs2).
        { split; [exact Hc3|]. split; [reflexivity|]. split; [exact Hip2|].
          split; [rewrite G1, F2; exact Hp|rewrite G2, F3; exact Hb]. }
        specialize (Q Rd (Some i1)). destruct (pt_insn_check_ip_event im d2 (Some i1)) as [d3 r].
        rewrite seen_insn by exact Ci. exact Q.
      - rewrite seen_insn by exact Ci. eapply halt_follows; [exact Hf1|constructor|exact P]. }
    assert (I0 : length (in_raw i0) = 15%nat /\ bytes_ok (in_raw i0)).
    { split; [reflexivity|]. apply Forall_forall. intros b Hbb. apply repeat_spec in Hbb. subst. reflexivity. }
    destruct l as [[isid sec]|e|u]; [| |destruct L].
    - destruct L as (L1 & L2 & L3). rewrite (c_asid Hc), Hip in L2, L3.
      apply Fin; try apply I0; try exact L1; try reflexivity; cbn [in_ip in_mode in_speculative i0 new_insn in_set_isid];
        first [exact Hip | apply (c_mode Hc) | apply (c_spec Hc) | split; assumption].
    - destruct L as (L1 & L2).
      assert (Nm : e = pte_nomap \/ e <> pte_nomap) by (destruct e; auto; right; discriminate).
      destruct Nm as [->|Nm].
      + apply Fin; try apply I0; try exact L1; try reflexivity; try exact I; cbn [in_ip in_mode in_speculative i0 new_insn];
        first [exact Hip | apply (c_mode Hc) | apply (c_spec Hc)].
      + assert (Ee : (match e with pte_nomap => Ok (i0, None) | e => Err e end : res (insn * option S)) = Err e)
          by (destruct e; congruence).
        rewrite Ee. intros _. exists (mk_fstate f h fs). split; [constructor|]. split; [congruence|].
        intros (T & _). exfalso. apply Nm. apply (T (id_scache d) (id_asid d) (id_ip d) _ (c_cache Hc)). rewrite El. reflexivity.
  Qed.

  Lemma drive_ok n : forall d st s, btw d st s ->
    match drive im n d st with
    | (o, d', r) => follows (id_ticks d) s (d', o, r)
    end.
  Proof.
    induction n as [|n IH]; intros d st s Hb.
    { cbn [drive]. intros _. exists s. split; [constructor|]. split; [reflexivity|exact Hb]. }
    cbn [drive].
    assert (K : match drive1 im d st with (d', o, r) => follows (id_ticks d) s (d', o, r) end).
    { unfold drive1. unfold between in Hb. destruct (flag st pts_event_pending).
      - pose proof (event_ok d s Hb) as K. destruct (pt_insn_event im d) as [[d1 e] r]. exact K.
      - pose proof (next_ok d s Hb) as K. destruct (pt_insn_next im d) as [[d1 i] r]. exact K. }
    destruct (drive1 im d st) as [[d1 o] [st1|e|u]]; [|exact K|exact K].
    destruct (drive im n d1 st1) as [[os d2] r] eqn:Ed.
    intros Hk. unfold known in Hk. apply Forall_app in Hk. destruct Hk as (Hk1 & Hk2).
    destruct (K Hk1) as (s1 & K1 & K2 & K3).
    specialize (IH d1 st1 s1 K3). rewrite Ed, K2 in IH. destruct (IH Hk2) as (s2 & K4 & K5).
    exists s2. split; [eapply flows_app; eassumption|exact K5].
  Qed.
End FLOW.
