(** C70: TRIG events are reported after exactly the instructions that they count. *)

From Coq Require Import List NArith ZArith Bool PeanoNat Lia.
From Verif Require Import Base M_config M_time M_pktdec M_event M_evdec M_query M_retstack M_asid M_ildtab M_ild
  M_insn M_insndec S_core S_evdec S_x86 S_insn S_query S_flow S_drive S_trig L_core L_evdec L_evsafe L_evnext
  L_insn T_ild T_insn L_query L_query2 T_evdec T_evtrace L_flow L_flow2 L_flow3 L_flow4 L_flow5 L_flow6 L_flow7 L_trig
  T_flow T_blk T_agree.
Import ListNotations.
Open Scope N_scope.

Section TRIG.
  Context {S C : Type} (im : image_if S C) (mem : asid -> memory) (cached : C -> asid -> Prop).
  Hypothesis shows : image_shows im mem cached.
  Notation dec := (insndec C).

  (** The decoder has a TRIG event in progress, with count [c] and address [a], while tracing
      is on.  An address of zero says that there is none. *)
  Definition arrived (d : dec) (ev : event) (trbv c a : N) (mult : bool) : Prop :=
    id_process_event d = true /\ id_event d = Some ev /\ ev_var ev = Ev_trig trbv c a mult /\
    ev_ip_suppressed ev = false /\ id_enabled d = true /\ id_postponed d = None.
  (** The image shows the memory where the decoder is, whose mode is known. *)
  Definition ready (d : dec) : Prop := cached (id_scache d) (id_asid d) /\ id_mode d <> ptem_unknown.

  Ltac split_all :=
    repeat match goal with
    | |- context [match ?x with _ => _ end] =>
        match x with context [match _ with _ => _ end] => fail 1 | _ => destruct x end
    end.

  Definition same_count (d d' : dec) : Prop := id_has_icnt d' = id_has_icnt d /\ id_icnt d' = id_icnt d.
  Lemma pending_same (d : dec) : same_count d (fst (event_pending d)) /\ id_ip (fst (event_pending d)) = id_ip d /\
    id_postponed (fst (event_pending d)) = id_postponed d.
  Proof. unfold event_pending. split_all; repeat split. Qed.
  Lemma check_ip_same (d : dec) oi : same_count d (fst (pt_insn_check_ip_event im d oi)) /\
    (oi = None -> id_ip (fst (pt_insn_check_ip_event im d oi)) = id_ip d).
  Proof.
    unfold pt_insn_check_ip_event. pose proof (pending_same d) as (P & Pi & _). 
    destruct (event_pending d) as [d1 [[]|e|u]]; cbn [fst] in *; try (split; [exact P|intros _; exact Pi]).
    destruct (id_event d1) as [ev|]; [|split; [exact P|intros _; exact Pi]].
    destruct (ev_var ev); try (split; [exact P|intros _; exact Pi]; fail);
      try (destruct (ev_ip_suppressed ev); (split; [exact P|intros _; exact Pi]); fail).
    - destruct (negb _); [split; [exact P|intros _; exact Pi]|].
      destruct (er_skd022 _); [|split; [exact P|intros _; exact Pi]]. unfold handle_erratum_skd022.
      destruct (check_erratum_skd022 im d1) as [[]|e|u]; (split; [exact P|intros _; exact Pi]).
    - unfold pt_insn_postpone_tsx, handle_erratum_bdm64. split; [|intros ->; destruct (ev_ip_suppressed ev); [exact Pi|]; split_all; exact Pi].
      split_all; cbn [fst indicate]; exact P.
    - unfold check_trig. split; [|intros _]; split_all; cbn [fst indicate]; try exact P; exact Pi.
  Qed.
  Lemma check_insn_same (d : dec) i x : same_count d (fst (pt_insn_check_insn_event d i x)).
  Proof.
    unfold pt_insn_check_insn_event. pose proof (pending_same d) as (P & _).
    destruct (event_pending d) as [d1 [[]|e|u]]; cbn [fst] in *; try exact P.
    destruct (id_event d1) as [ev|]; [|exact P].
    destruct (ev_var ev); try exact P; try (unfold bind_event, pt_insn_postpone; split_all; cbn [fst]; exact P).
  Qed.

  (** ** Counted events *)

  (** The event waits for the rest of its count. *)
  Definition waits (ev : event) (trbv c : N) (mult : bool) (d : dec) : Prop :=
    arrived d (set_var ev (Ev_trig trbv (c - id_icnt d) (id_ip d) mult)) trbv (c - id_icnt d) (id_ip d) mult /\
    id_has_icnt d = true /\ id_icnt d <= c.

  Lemma waits_step ev trbv c mult (d : dec) t i d' st : c < 2 ^ 32 -> ready d -> waits ev trbv c mult d ->
    shown_at im mem d t i d' st -> ~ traced (site_of (here d) t) -> after (site_of (here d) t) <> 0 ->
    waits ev trbv c mult d' /\ ready d' /\ id_icnt d' = id_icnt d + 1 /\
    flag st pts_event_pending = (id_icnt d' =? c).
  Proof.
    intros Hc (R1 & R2) ((A1 & A2 & A3 & A4 & A5 & A6) & W1 & W2) Sh Nt Na.
    pose proof Sh as (_ & _ & Hip & _ & _ & _ & _ & Hcl & _). cbn [here f_ip] in Hip.
    destruct (next_parts im mem cached shows d t i d' st R1 R2 Sh) as (En & c' & x & d1 & st1 & Cc & Si & K & Br).
    unfold pt_insn_check_insn_event, event_pending in K. cbn [id_process_event id_set_scache id_event] in K.
    rewrite A1 in K. cbn [id_event id_set_scache] in K. rewrite A2 in K. cbn [ev_var set_var] in K. injection K as <- <-. destruct Br as [(F & _)|(_ & d2 & Pr & Ck)]; [discriminate F|].
    rewrite <- Si in Nt, Na.
    assert (Nu : in_iclass i <> ptic_unknown).
    { intros U. rewrite Hcl in U. clear - U Pr Hcl. rewrite U in Hcl. unfold pt_insn_proceed in Pr. rewrite Hcl in Pr. discriminate Pr. }
    destruct (proceed_straight (id_set_scache d c') i x d2 En (eq_sym Hip) Nu Nt Pr) as ((D1 & D2 & D3 & D4 & D5 & D6 & D7 & D8 & D9) & T).
    unfold told in T. cbn [id_event id_has_icnt id_process_event id_set_scache] in *. rewrite A2 in T. cbn [ev_var set_var] in T.
    rewrite A1, W1, Hip, N.eqb_refl in T. cbn [andb] in T. destruct T as (T1 & T2). rewrite W1 in *.
    destruct (D7 eq_refl) as (D71 & D72). cbn [id_icnt id_set_scache] in D71.
    assert (Ec : id_icnt d2 = id_icnt d + 1).
    { rewrite D71. unfold u32. apply N.mod_small. change (2 ^ 32) with 4294967296 in *. lia. }
    assert (Ev2 : id_event d2 = Some (set_var ev (Ev_trig trbv (c - id_icnt d2) (id_ip d2) mult))).
    { rewrite T2, Ec. replace (c - (id_icnt d + 1)) with (c - id_icnt d - 1) by lia. reflexivity. }
    unfold pt_insn_check_ip_event, event_pending in Ck. rewrite D8, A1, Ev2 in Ck. cbn [ev_var set_var] in Ck.
    unfold check_trig in Ck. change (ev_ip_suppressed (set_var ev _)) with (ev_ip_suppressed ev) in Ck.
    change (ev_ip_suppressed (set_var ev _)) with (ev_ip_suppressed ev) in A4. rewrite A4 in Ck.
    destruct (N.eqb_spec (id_ip d2) 0) as [Z|_]; [congruence|].
    rewrite N.eqb_refl, D5 in Ck. cbn [negb andb] in Ck.
    assert (Y : d' = d2 /\ flag st pts_event_pending = (c - id_icnt d2 =? 0)).
    { destruct (c - id_icnt d2 =? 0); cbn [negb] in Ck; unfold indicate in Ck; injection Ck as <- <-;
        (split; [reflexivity|]); [apply status_pending|apply status_none]. }
    destruct Y as (-> & Y). split; [|split; [|split; [exact Ec|]]].
    - split; [|split; [exact D6|lia]].
      split; [rewrite D8; exact A1|]. split; [exact Ev2|]. split; [reflexivity|]. split; [exact A4|]. split; [exact D5|]. rewrite D9. exact A6.
    - split; [rewrite D2, D3; exact Cc|]. rewrite D4. exact R2.
    - rewrite Y. destruct (N.eqb_spec (c - id_icnt d2) 0), (N.eqb_spec (id_icnt d2) c); try reflexivity; lia.
  Qed.

  Lemma waits_event ev trbv c mult (d : dec) : waits ev trbv c mult d -> id_icnt d = c ->
    exists d3 r, pt_insn_event im d = (d3, Some (set_var ev (Ev_trig trbv 0 (id_ip d) mult)), r) /\
      id_ip d3 = id_ip d /\ id_has_icnt d3 = true /\ id_icnt d3 = 0.
  Proof.
    intros ((A1 & A2 & A3 & A4 & A5 & A6) & W1 & W2) E. unfold pt_insn_event. rewrite A1, A2. cbn [negb].
    unfold process_event. cbn [ev_var set_var]. rewrite A4. rewrite A5, N.eqb_refl. cbn [andb negb].
    replace (c - id_icnt d) with 0 by lia. rewrite N.eqb_refl. cbn [negb].
    cbn [id_postponed id_set_event anchor id_set_icnt]. rewrite A6.
    set (d2 := id_set_event (anchor d) _ _). pose proof (check_ip_same d2 None) as ((P1 & P2) & P3).
    destruct (pt_insn_check_ip_event im d2 None) as [d3 r]. cbn [fst] in *. exists d3, r.
    split; [reflexivity|]. split; [exact (P3 eq_refl)|]. split; [exact P1|exact P2].
  Qed.

  (** A TRIG event with a count [c] came while tracing was on, after [id_icnt d] instructions
      since the anchor.  It is reported after exactly [c] instructions since the anchor: not
      before, and the decoder does not go beyond.  It then tells the address where the
      decoder is, and this is the next anchor. *)
  Theorem C70_counted (d : dec) oi ev trbv c mult : ready d -> arrived d ev trbv c 0 mult -> c < 2 ^ 32 ->
    id_has_icnt d = true -> id_icnt d <= c ->
    exists d1 st1, pt_insn_check_ip_event im d oi = (d1, Ok st1) /\ id_ip d1 = id_ip d /\ id_icnt d1 = id_icnt d /\
      (forall is d2 st2, straight im mem d1 st1 is d2 st2 ->
         id_icnt d + N.of_nat (length is) <= c /\
         flag st2 pts_event_pending = (id_icnt d + N.of_nat (length is) =? c) /\
         (flag st2 pts_event_pending = true ->
            exists d3 r, pt_insn_event im d2 = (d3, Some (set_var ev (Ev_trig trbv 0 (id_ip d2) mult)), r) /\
              id_ip d3 = id_ip d2 /\ id_has_icnt d3 = true /\ id_icnt d3 = 0)).
  Proof.
    intros R (A1 & A2 & A3 & A4 & A5 & A6) Hc Hi Le.
    unfold pt_insn_check_ip_event, event_pending. rewrite A1, A2, A3. unfold check_trig. rewrite A4, N.eqb_refl, Hi. cbn [negb].
    destruct (N.ltb_spec c (id_icnt d)); [lia|].
    set (d1 := put_event d _).
    assert (W : waits ev trbv c mult d1).
    { split; [|split; [exact Hi|exact Le]]. repeat split; assumption. }
    assert (R1 : ready d1) by exact R.
    change (id_enabled d1) with (id_enabled d). change (id_ip d1) with (id_ip d). rewrite A5, N.eqb_refl. cbn [andb negb].
    assert (X : exists st1, (if negb (c - id_icnt d =? 0) then indicate d1 false else indicate d1 true) = (d1, Ok st1) /\
        flag st1 pts_event_pending = (id_icnt d1 =? c)).
    { change (id_icnt d1) with (id_icnt d). 
      destruct (N.eqb_spec (c - id_icnt d) 0), (N.eqb_spec (id_icnt d) c); try lia; cbn [negb]; unfold indicate; eexists;
        (split; [reflexivity|]); [apply status_pending|apply status_none]. }
    destruct X as (st1 & X1 & X2). exists d1, st1. split; [exact X1|]. split; [reflexivity|]. split; [reflexivity|].
    intros is d2 st2 Ru. clear X1. change (id_icnt d) with (id_icnt d1). clearbody d1. clear - Ru W R1 X2 Hc shows.
    assert (G : waits ev trbv c mult d2 /\ id_icnt d2 = id_icnt d1 + N.of_nat (length is) /\
                flag st2 pts_event_pending = (id_icnt d2 =? c)).
    { induction Ru as [d st|d st t i d3 st3 is d2 st2 Sh Nt Na Ru IH].
      - split; [exact W|]. split; [cbn; lia|exact X2].
      - destruct (waits_step _ _ _ _ _ _ _ _ _ Hc R1 W Sh Nt Na) as (W' & R' & E & F).
        destruct (IH W' R' F) as (G1 & G2 & G3). split; [exact G1|]. split; [|exact G3]. cbn [length]. lia. }
    destruct G as (G1 & G2 & G3). rewrite <- G2. split; [apply G1|]. split; [exact G3|]. intros F. rewrite G3 in F.
    apply N.eqb_eq in F. apply (waits_event ev trbv c); assumption.
  Qed.

  (** If there is no anchor, or the count has passed already, the trace is wrong. *)
  Theorem C70_refused (d : dec) oi ev trbv c mult : arrived d ev trbv c 0 mult ->
    id_has_icnt d = false \/ c < id_icnt d ->
    pt_insn_check_ip_event im d oi = (d, Err pte_bad_packet).
  Proof.
    intros (A1 & A2 & A3 & A4 & A5 & A6) H.
    unfold pt_insn_check_ip_event, event_pending. rewrite A1, A2, A3. unfold check_trig. rewrite A4, N.eqb_refl.
    destruct (id_has_icnt d); [|reflexivity]. destruct H as [H|H]; [discriminate H|]. cbn [negb].
    destruct (N.ltb_spec c (id_icnt d)); [reflexivity|lia].
  Qed.

  (** ** The count *)

  Lemma branch_traced (d : dec) i x d' : x_direct x && negb (is_jmpabs x) = false -> proceed_branch d i x = (d', Ok tt) ->
    id_has_icnt d' = true /\ id_icnt d' = 0.
  Proof.
    intros Hd E. unfold proceed_branch in E. rewrite Hd in E. destruct (pt_insn_indirect_branch d) as [d1 [st|e|u]]; try discriminate E.
    destruct (flag st _); [discriminate E|]. injection E as <-. split; reflexivity.
  Qed.

  Lemma insn_same_ip (d : dec) i x d1 st : pt_insn_check_insn_event d i x = (d1, Ok st) -> flag st pts_event_pending = false ->
    id_ip d1 = id_ip d /\ id_enabled d1 = id_enabled d.
  Proof.
    unfold pt_insn_check_insn_event. intros E F. pose proof (pending_same d) as (_ & Pi & _).
    assert (Pe : id_enabled (fst (event_pending d)) = id_enabled d) by (unfold event_pending; split_all; reflexivity).
    destruct (event_pending d) as [d0 [[]|e|u]]; try discriminate E; cbn [fst] in *.
    2:{ injection E as <- _. auto. }
    destruct (id_event d0) as [ev|]; [|injection E as <- <-; rewrite status_pending in F; discriminate F].
    assert (Q : forall b0 h bo, bind_event d0 i x b0 h bo = (d1, Ok st) -> id_ip d1 = id_ip d /\ id_enabled d1 = id_enabled d).
    { intros b0 h bo X. unfold bind_event, pt_insn_postpone in X. destruct b0; [injection X as <- _; auto|].
      destruct h; cbn [negb] in X; injection X as <- <-; auto. }
    destruct (ev_var ev); try discriminate E; try (injection E as <- _; auto); try (eapply Q; exact E).
    destruct (ev_status_update ev); [injection E as <- _; auto|].
    match type of E with context [pt_insn_at_disabled_event ?a ?b ?c ?e ?f] =>
      destruct (pt_insn_at_disabled_event a b c e f) as [[]|er|u] end; try discriminate E; [|injection E as <- _; auto].
    destruct (pt_insn_next_ip i x) as [a|er|u]; [injection E as _ <-; rewrite status_pending in F; discriminate F| |discriminate E].
    destruct er; try discriminate E. injection E as _ <-. rewrite status_pending in F. discriminate F.
  Qed.

  (** The count is the number of instructions since the last branch that the trace decided: an
      instruction that does not need the trace is counted, and one that does is an anchor.
      The only exception are instructions with an event to be handled first: it ends
      tracing, or the instruction caused it. *)
  Theorem C70_count (d : dec) t i d' st : ready d -> shown_at im mem d t i d' st ->
    id_has_icnt d' = id_has_icnt d /\ id_icnt d' = id_icnt d /\ flag st pts_event_pending = true /\
      id_process_event d' = true /\
      (forall e, id_event d' = Some e -> kind_of e <> None \/ exists ip, ev_var e = Ev_disabled ip) \/
    ~ traced (site_of (here d) t) /\ id_has_icnt d' = id_has_icnt d /\
      (id_has_icnt d = true -> id_icnt d' = u32 (id_icnt d + 1) /\ id_icnt d' <> 0) \/
    traced (site_of (here d) t) /\ id_has_icnt d' = true /\ id_icnt d' = 0.
  Proof.
    intros (R1 & R2) Sh. pose proof Sh as (_ & _ & Hip & _ & _ & _ & _ & Hcl & _). cbn [here f_ip] in Hip.
    destruct (next_parts im mem cached shows d t i d' st R1 R2 Sh) as (En & c' & x & d1 & st1 & Cc & Si & K & Br).
    pose proof (check_insn_same (id_set_scache d c') i x) as (S1 & S2). rewrite K in S1, S2. cbn [fst id_has_icnt id_icnt id_set_scache] in S1, S2.
    destruct Br as [(F & -> & ->)|(F & d2 & Pr & Ck)].
    - left. split; [exact S1|]. split; [exact S2|]. split; [exact F|].
      unfold pt_insn_check_insn_event in K.
      assert (Pe : forall d0, event_pending (id_set_scache d c') = (d0, Ok true) -> id_process_event d0 = true).
      { intros d0 X. unfold event_pending in X. cbn [id_process_event id_status id_query id_set_scache] in X.
        destruct (id_process_event d) eqn:Ep; [injection X as <-; exact Ep|].
        destruct (negb _); [discriminate X|]. destruct (pt_qry_event (id_query d)) as [q [[ev s1]|e|u]]; try discriminate X.
        injection X as <-. reflexivity. }
      destruct (event_pending (id_set_scache d c')) as [d0 [[]|e|u]]; try discriminate K.
      2:{ injection K as _ <-. discriminate F. }
      specialize (Pe d0 eq_refl). destruct (id_event d0) as [ev|] eqn:Ee.
      2:{ injection K as <- _. split; [exact Pe|]. intros e X. congruence. }
      assert (Q : forall b0 h bo, kind_of ev <> None -> bind_event d0 i x b0 h bo = (d', Ok st) ->
        id_process_event d' = true /\
        (forall e, id_event d' = Some e -> kind_of e <> None \/ exists ip, ev_var e = Ev_disabled ip)).
      { intros b0 h bo Hk X. unfold bind_event, pt_insn_postpone in X.
        destruct b0; [injection X as _ <-; discriminate F|]. destruct h; cbn [negb] in X; [|injection X as _ <-; discriminate F].
        injection X as <- _. split; [exact Pe|]. cbn. intros e Y. left. congruence. }
      destruct (ev_var ev) eqn:Ev; try discriminate K; try (injection K as _ <-; discriminate F);
        try (apply (Q _ _ _ ltac:(unfold kind_of; rewrite Ev; discriminate) K)).
      destruct (ev_status_update ev); [injection K as _ <-; discriminate F|].
      match type of K with context [pt_insn_at_disabled_event ?a ?b ?c ?e ?f] =>
        destruct (pt_insn_at_disabled_event a b c e f) as [[]|er|u] end; try discriminate K; [|injection K as _ <-; discriminate F].
      assert (G : forall a, d' = id_set_ip d0 a -> id_process_event d' = true /\
        (forall e, id_event d' = Some e -> kind_of e <> None \/ exists ip, ev_var e = Ev_disabled ip)).
      { intros a ->. split; [exact Pe|]. cbn. intros e Y. right. assert (e = ev) by congruence. subst e. eexists. exact Ev. }
      destruct (pt_insn_next_ip i x) as [a|er|u]; [injection K as <- _; eapply G; reflexivity| |discriminate K].
      destruct er; try discriminate K. injection K as <- _. eapply G. reflexivity.
    - right. pose proof (check_ip_same d2 (Some i)) as ((P1 & P2) & _). rewrite Ck in P1, P2. cbn [fst] in P1, P2.
      rewrite <- Si, P1, P2, <- S1, <- S2.
      assert (Nu : in_iclass i <> ptic_unknown).
      { intros U. unfold pt_insn_proceed in Pr. rewrite U in Pr. discriminate Pr. }
      pose proof (insn_same_ip _ _ _ _ _ K F) as (Ip & En1). cbn [id_ip id_enabled id_set_scache] in Ip, En1. rewrite En in En1.
      assert (Dec : traced (site_of_insn i x) \/ ~ traced (site_of_insn i x)).
      { unfold traced. cbn [si_class site_of_insn]. destruct (direct (site_of_insn i x)); destruct (in_iclass i);
          first [left; exact I|left; reflexivity|right; discriminate|right; intros []]. }
      destruct Dec as [Tr|Nt]; [right|left].
      + split; [exact Tr|].
        assert (Wf : wf_site (site_of_insn i x)) by (rewrite Si; apply meaning_wf). unfold wf_site in Wf. rewrite direct_is in Wf.
        cbn [si_class site_of_insn] in Wf. unfold traced in Tr. rewrite direct_is in Tr. cbn [si_class site_of_insn] in Tr.
        unfold pt_insn_proceed in Pr. set (d3 := id_set_ip d1 _) in Pr. clearbody d3.
        destruct (in_iclass i); try (destruct Tr; fail).
        all: try (eapply branch_traced; [|exact Pr]; assumption).
        * destruct (_ || _); [|eapply branch_traced; [|exact Pr]; assumption].
          destruct (pt_retstack_push _ _) as [r [[]|e|u]]; try discriminate Pr; (eapply branch_traced; [|exact Pr]; assumption).
        * destruct (pt_insn_cond_branch d3) as [d4 [[tk s4]|e|u]]; [| |discriminate Pr].
          -- destruct tk; cbn [negb] in Pr; [|discriminate Pr].
             destruct (pt_retstack_pop _) as [r [a|e|u]]; try discriminate Pr. injection Pr as <-. split; reflexivity.
          -- eapply branch_traced; [|exact Pr]. assumption.
        * destruct (pt_insn_cond_branch d3) as [d4 [[tk s4]|e|u]]; [|discriminate Pr..].
          injection Pr as <-. split; reflexivity.
      + split; [exact Nt|]. destruct (proceed_straight d1 i x d2 En1 ltac:(congruence) Nu Nt Pr) as ((D1 & D2 & D3 & D4 & D5 & D6 & D7 & D8 & D9) & _).
        split; [exact D6|exact D7].
  Qed.

  (** Events are anchors, or end tracing, or leave the count as it is. *)
  Lemma process_marks (d : dec) ev d1 e : process_event im d ev = (d1, Ok e) ->
    match marks e with
    | Marks => id_has_icnt d1 = true /\ id_icnt d1 = 0
    | Clears => id_has_icnt d1 = false
    | Keeps => same_count d d1
    end /\ id_postponed d1 = id_postponed d.
  Proof.
    unfold process_event, pt_insn_process_enabled, pt_insn_process_disabled, pt_insn_process_async_branch,
      pt_insn_process_paging, pt_insn_process_vmcs, pt_insn_process_overflow, pt_insn_process_exec_mode,
      pt_insn_process_stop, marks.
    destruct (ev_var ev) eqn:Ev; cbv beta iota zeta.
    all: repeat (match goal with
    | |- ?l = _ -> _ =>
        match l with context [match ?x with _ => _ end] =>
          match x with context [match _ with _ => _ end] => fail 1 | _ => destruct x eqn:? end
        end
    end; cbv beta iota); intros X; try discriminate X; injection X as <- <-;
      cbn [ev_var ev_status_update ev_ip_suppressed set_var] in *;
      repeat match goal with
      | H : ev_var _ = _ |- _ => rewrite H
      | H : ev_ip_suppressed _ = _ |- _ => rewrite H
      | H : ev_status_update _ = _ |- _ => rewrite H
      end; try (repeat split; fail).
  Qed.

  Theorem C70_events (d : dec) d' e r : id_postponed d = None -> pt_insn_event im d = (d', Some e, r) ->
    match marks e with
    | Marks => id_has_icnt d' = true /\ id_icnt d' = 0
    | Clears => id_has_icnt d' = false
    | Keeps => id_has_icnt d' = id_has_icnt d /\ id_icnt d' = id_icnt d
    end.
  Proof.
    intros Po E. unfold pt_insn_event in E. destruct (negb _); [discriminate E|]. destruct (id_event d) as [ev|]; [|discriminate E].
    pose proof (process_marks d ev) as M. destruct (process_event im d ev) as [d1 [e1|er|u]]; [|discriminate E..].
    specialize (M d1 e1 eq_refl). destruct M as (M & P). cbn [id_postponed id_set_event] in E. rewrite P, Po in E.
    set (d2 := id_set_event d1 false (id_event d1)) in E. pose proof (check_ip_same d2 None) as ((P1 & P2) & _).
    destruct (pt_insn_check_ip_event im d2 None) as [d3 r3]. injection E as <- <- <-. cbn [fst] in *.
    change (id_has_icnt d2) with (id_has_icnt d1) in P1. change (id_icnt d2) with (id_icnt d1) in P2.
    destruct (marks e1); unfold same_count in M; rewrite P1, ?P2; exact M.
  Qed.

  (** ** Events with an address *)

  (** A TRIG event with an address [a] is reported where the decoder is at this address,
      as it is, and is an anchor. *)
  Theorem C70_address (d : dec) oi ev trbv a mult : ready d -> arrived d ev trbv 0 a mult -> a <> 0 ->
    exists st1, pt_insn_check_ip_event im d oi = (d, Ok st1) /\
      forall is d2 st2, straight im mem d st1 is d2 st2 ->
        flag st2 pts_event_pending = (id_ip d2 =? a) /\
        (flag st2 pts_event_pending = true ->
           exists d3 r, pt_insn_event im d2 = (d3, Some ev, r) /\
             id_ip d3 = id_ip d2 /\ id_has_icnt d3 = true /\ id_icnt d3 = 0).
  Proof.
    intros R A Na.
    assert (Ck : forall d0 oi, arrived d0 ev trbv 0 a mult -> exists st, pt_insn_check_ip_event im d0 oi = (d0, Ok st) /\
      flag st pts_event_pending = (id_ip d0 =? a)).
    { intros d0 oi0 (A1 & A2 & A3 & A4 & A5 & A6). unfold pt_insn_check_ip_event, event_pending. rewrite A1, A2, A3. unfold check_trig.
      rewrite A4. destruct (N.eqb_spec a 0) as [Z|_]; [congruence|]. rewrite N.eqb_refl, A5. cbn [negb andb]. rewrite negb_involutive.
      unfold indicate. eexists. split; [reflexivity|]. rewrite status_if. apply N.eqb_sym. }
    destruct (Ck d oi A) as (st1 & C1 & C2). exists st1. split; [exact C1|]. clear C1.
    intros is d2 st2 Ru.
    assert (G : arrived d2 ev trbv 0 a mult /\ flag st2 pts_event_pending = (id_ip d2 =? a)).
    { induction Ru as [d st|d st t i d3 st3 is d2 st2 Sh Nt _ Ru IH]; [split; assumption|].
      destruct R as (R1 & R2). pose proof A as (A1 & A2 & A3 & A4 & A5 & A6).
      pose proof Sh as (_ & _ & Hip & _). cbn [here f_ip] in Hip.
      destruct (next_parts im mem cached shows d t i d3 st3 R1 R2 Sh) as (En & c' & x & d4 & st4 & Cc & Si & K & Br).
      unfold pt_insn_check_insn_event, event_pending in K. cbn [id_process_event id_set_scache id_event] in K.
      rewrite A1 in K. cbn [id_event id_set_scache] in K. rewrite A2, A3 in K. injection K as <- <-.
      destruct Br as [(F & _)|(_ & d5 & Pr & Ck5)]; [discriminate F|]. rewrite <- Si in Nt.
      assert (Nu : in_iclass i <> ptic_unknown).
      { intros U. unfold pt_insn_proceed in Pr. rewrite U in Pr. discriminate Pr. }
      destruct (proceed_straight (id_set_scache d c') i x d5 En (eq_sym Hip) Nu Nt Pr) as ((D1 & D2 & D3 & D4 & D5 & D6 & D7 & D8 & D9) & T).
      unfold told in T. cbn [id_event id_has_icnt id_process_event id_set_scache] in *. rewrite A2, A3 in T.
      assert (T2 : id_event d5 = Some ev).
      { destruct (_ && _ && _); [destruct T as (T & _); destruct (T eq_refl)|exact T]. }
      assert (A' : arrived d5 ev trbv 0 a mult).
      { split; [rewrite D8; exact A1|]. split; [exact T2|]. split; [exact A3|]. split; [exact A4|]. split; [exact D5|]. rewrite D9. exact A6. }
      destruct (Ck d5 (Some i) A') as (st5 & X1 & X2). rewrite X1 in Ck5. injection Ck5 as <- <-.
      apply IH; [split; [rewrite D2, D3; exact Cc|rewrite D4; exact R2]|exact A'|exact X2]. }
    destruct G as ((A1 & A2 & A3 & A4 & A5 & A6) & G). split; [exact G|]. intros F. rewrite G in F. apply N.eqb_eq in F.
    unfold pt_insn_event. rewrite A1, A2. cbn [negb]. unfold process_event. rewrite A3, A4, A5, F, N.eqb_refl. cbn [andb negb].
    rewrite N.eqb_refl. cbn [negb]. cbn [id_postponed id_set_event anchor id_set_icnt]. rewrite A6.
    set (d4 := id_set_event (anchor d2) _ _). pose proof (check_ip_same d4 None) as ((P1 & P2) & P3).
    destruct (pt_insn_check_ip_event im d4 None) as [d3 r]. cbn [fst] in *. exists d3, r.
    split; [reflexivity|]. split; [rewrite <- F; exact (P3 eq_refl)|]. split; [exact P1|exact P2].
  Qed.
End TRIG.

(** ** Where the decoders disagree *)

(** PTWRITE with its address, and TRIG with a count. *)
Definition program_trig : list N := [0x90; 0x90;  0xf3; 0x0f; 0xae; 0xe0;  0x90; 0x90; 0x90; 0x90;  0xc3].
Definition ptw_packets : list N := [0x02; 0x92; 1; 2; 3; 4;  0x3d; 0x02; 0x10].
Definition trig_packet (n : N) : list N := [0xd9; 0x40; 0x01; n; 0].
Definition ptw_event : evar := Ev_ptwrite 4098 4 67305985.

(** The block decoder counts from the PTWRITE, whose address is in the trace
    (pt_block_decoder.c:72-135); the instruction flow decoder counts from the anchor before
    (pt_insn_decoder.c:2118-2128).  They report the same TRIG event after different
    instructions, or one of them finds a wrong packet. *)
Theorem C70_anchors_refuted :
  insn_view program_trig (at_1000 (ptw_packets ++ trig_packet 4 ++ [0x2d; 0; 0x10])) =
    ([inr start; inr bits64; inl 4096; inl 4097; inl 4098; inr ptw_event;
      inl 4102; inr (Ev_trig 1 0 4103 false); inl 4103; inl 4104; inl 4105; inl 4106;
      inl 4096; inl 4097; inl 4098; inl 4102; inl 4103; inl 4104; inl 4105; inl 4106], Err pte_eos) /\
  firstn 6 (fst (block_view program_trig (at_1000 (ptw_packets ++ trig_packet 4 ++ [0x2d; 0; 0x10])))) =
    [inr start; inr bits64; inl (4096, 4098, 3); inr ptw_event;
     inl (4102, 4105, 4); inr (Ev_trig 1 0 4106 false)] /\
  insn_view program_trig (at_1000 (ptw_packets ++ trig_packet 1 ++ [0x2d; 0; 0x10])) =
    ([inr start; inr bits64; inl 4096; inl 4097; inl 4098; inr ptw_event], Err pte_bad_packet) /\
  firstn 6 (fst (block_view program_trig (at_1000 (ptw_packets ++ trig_packet 1 ++ [0x2d; 0; 0x10])))) =
    [inr start; inr bits64; inl (4096, 4098, 3); inr ptw_event;
     inl (4102, 4102, 1); inr (Ev_trig 1 0 4103 false)].
Proof. vm_compute. repeat split. Qed.

(** ** A TRIG event after two instructions *)

Definition trig_image := flat_image 0x1000 program_trig 7.
Definition trig_state (d : insndec unit) : N * N * bool * bool * option evar :=
  (id_ip d, id_icnt d, id_has_icnt d, id_process_event d, option_map ev_var (id_event d)).
(** After the status events: the decoder, with the TRIG event arrived. *)
Definition trig_dec0 (n : N) : insndec unit :=
  match insn_sync_step 0 trig_image
          (pt_insn_decoder_init config0 false (at_1000 (trig_packet n ++ [0x2d; 0; 0x10])) None 0 (repeat 0 65) tt) Qs_forward with
  | (d, Ok st) => match drive trig_image 2 d st with (_, d, _) => d end
  | (d, _) => d
  end.
Definition raw_state (d : insndec unit) (n : N) : insndec unit :=
  id_set_event d true (Some (mk_event (Ev_trig 1 n 0 false) false false false 0 0 0)).

Example C70_ex :
  (* the hypotheses *)
  image_shows trig_image (fun _ => flat_mem 0x1000 program_trig 7) (fun _ _ => True) /\
  (let d := raw_state (trig_dec0 2) 2 in
   ready (fun _ _ => True) d /\
   arrived d (mk_event (Ev_trig 1 2 0 false) false false false 0 0 0) 1 2 0 false /\
   id_has_icnt d = true /\ id_icnt d = 0) /\
  (* the decoder on the trace *)
  trig_state (trig_dec0 2) = (4096, 0, true, true, Some (Ev_trig 1 2 4096 false)) /\
  insn_view program_trig (at_1000 (trig_packet 2 ++ [0x2d; 0; 0x10])) =
    ([inr start; inr bits64; inl 4096; inl 4097; inr (Ev_trig 1 0 4098 false);
      inl 4098; inl 4102; inl 4103; inl 4104; inl 4105; inl 4106;
      inl 4096; inl 4097; inl 4098; inl 4102; inl 4103; inl 4104; inl 4105; inl 4106], Err pte_eos) /\
  (* and with an address *)
  insn_view program_trig (at_1000 ([0xd9; 0xc0; 0x01; 0; 0;  0x3d; 0x02; 0x10;  0x2d; 0; 0x10])) =
    ([inr start; inr bits64; inl 4096; inl 4097; inr (Ev_trig 1 0 4098 false);
      inl 4098; inl 4102; inl 4103; inl 4104; inl 4105; inl 4106;
      inl 4096; inl 4097; inl 4098; inl 4102; inl 4103; inl 4104; inl 4105; inl 4106], Err pte_eos).
Proof.
  split; [apply flat_shows; [discriminate|repeat (apply Forall_cons; [reflexivity|]); apply Forall_nil]|].
  split.
  { cbv zeta. split; [split; [exact I|vm_compute; discriminate]|].
    split; [repeat split; vm_compute; reflexivity|]. split; vm_compute; reflexivity. }
  split; [vm_compute; reflexivity|]. split; vm_compute; reflexivity.
Qed.

(** Two calls of pt_insn_next() from there, after which the event is reported. *)
Definition call_next (d : insndec unit) : insndec unit := match pt_insn_next trig_image d with (d, _, _) => d end.
Definition call_insn (d : insndec unit) : insn :=
  match pt_insn_next trig_image d with (_, Some i, _) => i | _ => insn1 end.
Lemma trig_nop k d st : (k = 0 \/ k = 1) -> here d = mk_flow true (0x1000 + k) ptem_64bit pt_asid_init false [] None ->
  pt_insn_next trig_image d = (call_next d, Some (call_insn d), Ok st) ->
  call_insn d = mk_insn (0x1000 + k) 7 ptem_64bit ptic_other (in_raw (call_insn d)) 1 false false ->
  firstn 1 (in_raw (call_insn d)) = [0x90] ->
  shown_at trig_image (fun _ => flat_mem 0x1000 program_trig 7) d nop1 (call_insn d) (call_next d) st.
Proof.
  intros Hk Hh E I1 I2. split; [exact E|]. rewrite I1. unfold insn_of. rewrite Hh. cbn [f_ip f_mode f_asid f_spec in_ip in_mode in_speculative in_size in_raw in_iclass in_isid].
  split; [|repeat split; [exact I2|destruct Hk as [->| ->]; eexists; reflexivity]].
  split; [wf|]. split; [cbn; lia|].
  assert (X : firstn 1 (flat_bytes 0x1000 program_trig (0x1000 + k)) = [0x90]) by (destruct Hk as [->| ->]; reflexivity).
  change (render nop1) with [0x90]. rewrite <- X. apply flat_at. discriminate.
Qed.
Example C70_run : exists is d2 st2,
  straight trig_image (fun _ => flat_mem 0x1000 program_trig 7) (trig_dec0 2) 0 is d2 st2 /\
  length is = 2%nat /\ flag st2 pts_event_pending = true.
Proof.
  exists [call_insn (trig_dec0 2); call_insn (call_next (trig_dec0 2))], (call_next (call_next (trig_dec0 2))), pts_event_pending.
  split; [|split; reflexivity].
  assert (H1 : here (trig_dec0 2) = mk_flow true (0x1000 + 0) ptem_64bit pt_asid_init false [] None) by (vm_compute; reflexivity).
  assert (H2 : here (call_next (trig_dec0 2)) = mk_flow true (0x1000 + 1) ptem_64bit pt_asid_init false [] None) by (vm_compute; reflexivity).
  eapply straight_more with (st1 := 0).
  - apply (trig_nop 0); [left; reflexivity|exact H1|vm_compute; reflexivity..].
  - rewrite H1. cbn. auto.
  - rewrite H1. vm_compute. discriminate.
  - eapply straight_more.
    + apply (trig_nop 1); [right; reflexivity|exact H2|vm_compute; reflexivity..].
    + rewrite H2. cbn. auto.
    + rewrite H2. vm_compute. discriminate.
    + apply straight_none.
Qed.

Print Assumptions C70_counted.
Print Assumptions C70_refused.
Print Assumptions C70_count.
Print Assumptions C70_events.
Print Assumptions C70_address.
Print Assumptions C70_anchors_refuted.
