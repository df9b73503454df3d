(** The events of a trace against its packets: the packets one by one. *)

From Verif Require Import Base M_packet M_config M_pktdec M_lastip M_time
  M_evq M_event M_evdec S_evq S_evtrace L_evq L_evqpos L_evdec L_evsafe L_evq_rules L_evtrace.
From Coq Require Import List NArith ZArith PeanoNat Bool Lia ZifyBool ZifyNat ZifyN.
Import ListNotations.
Open Scope nat_scope.

Section PACKETS.
  Context (cf : config) (pd0 : pktdec).
  Hypothesis conf : pd_config pd0 = cf.

  Notation strict := (no_skipping cf).
  Notation P := (P cf).
  Notation Here := (Here cf pd0).
  Notation Done := (Done cf pd0).
  Notation Dead := (Dead cf pd0).
  Notation Live := (Live cf pd0).
  Notation Out := (Out cf pd0).
  Notation Post := (Post cf pd0).
  Notation Failed := (Failed cf pd0).

  (** A packet that says nothing about IP or time is done at once. *)
  Definition inert (p : payload) : bool :=
    match p with
    | P_psb | P_ovf | P_psbend | P_fup _ | P_tip _ | P_tip_pge _ | P_tip_pgd _ | P_tsc _ | P_cbr _
    | P_tma _ _ | P_mtc _ | P_cyc _ => false
    | _ => true
    end.
  Lemma inert_step h p : inert (pkt_pl p) = true -> hw_step cf h p = h.
  Proof. unfold hw_step. destruct (pkt_pl p); intros H; try discriminate H; reflexivity. Qed.

  Lemma done_inert fs fs' ps p d d' : Here fs ps p d -> inert (pkt_pl p) = true ->
    fs' = fs ++ flow_of_packet p ->
    ed_pd d' = ed_pd d -> ed_time d' = ed_time d -> ed_tcal d' = ed_tcal d -> ed_ip d' = ed_ip d ->
    ed_status d' = ed_status d -> queued (P (ps ++ [p])) (ed_evq d') ->
    Done fs' (ps ++ [p]) d'.
  Proof.
    intros (Hr & Hp & Hq & Ht & Hs) Hi -> E1 E2 E3 E4 E5 Hq'.
    split; [rewrite E1; exact Hr|]. split; [exact Hq'|].
    split; [rewrite flows_app, flows_one, !tnts_app, Ht; reflexivity|].
    intros S. destruct (Hs S) as (S1 & S2 & S3 & S4 & S5 & S6).
    assert (Hipp : ipp (pkt_pl p) = false) by (destruct (pkt_pl p); auto; discriminate).
    rewrite after_snoc, (inert_step _ _ Hi). unfold stat, HW. rewrite E2, E3, E4, E5.
    split; [exact S1|]. split; [|split].
    - split; [destruct S4 as [S4|[S4 _]]; [exact S4|congruence]|]. auto.
    - destruct (h_psb (hw_after cf ps)); [|reflexivity]. specialize (S5 eq_refl).
      destruct (pkt_pl p); discriminate.
    - rewrite flows_app, flows_one. destruct (ed_bound d); [|congruence].
      destruct S6 as [S6 _]. congruence.
  Qed.
  Lemma bound_inert fs ps p d : Here fs ps p d -> ipp (pkt_pl p) = false -> strict -> ed_bound d = false.
  Proof.
    intros (Hr & Hp & Hq & Ht & Hs) Hi S. destruct (Hs S) as (_ & _ & _ & _ & _ & S6).
    destruct (ed_bound d); [|reflexivity]. destruct S6. congruence.
  Qed.

  Lemma post_done fs ps d : Done fs ps d -> Post fs ps true d.
  Proof. intros H. exists []. rewrite app_nil_r. exact H. Qed.

  Ltac p_step :=
    lazymatch goal with
    | |- pwp (sbind _ _) _ _ _ => apply p_bind
    | |- pwp (ret _) _ _ _ => apply p_ret
    | |- pwp (fail _) _ _ _ => apply p_fail
    | |- pwp get _ _ _ => apply p_get
    | |- pwp (modify _) _ _ _ => apply p_modify
    | |- pwp (publish _) _ _ _ => apply p_publish
    | |- pwp (standalone _) _ _ _ => apply p_standalone
    | |- pwp (enqueue _ _) _ _ _ =>
        eapply (p_enqueue (P _)); [sd; eassumption | | intros ? (? & ? & ?) ?; sd | sd]
    | |- pwp (dequeue _) _ _ _ =>
        eapply (p_dequeue (P _)); [sd; eassumption | intros ? ? ? ? ? ? ? ? ?; sd | sd]
    | |- pwp (read_event Alone) _ _ _ => apply p_read_alone
    | |- pwp (write_event Alone _) _ _ _ => apply p_write_alone
    | |- pwp (read_event (Slot ?i)) _ _ _ => eapply p_read_held; [sd; eassumption |]
    | |- pwp (write_event (Slot ?i) _) _ _ _ =>
        eapply (p_write_held (P _)); [sd; eassumption | sd; eassumption | intros ? ? ?; sd]
    | |- pwp (update_ip _) _ _ _ => apply p_update_ip; [sd | intros ?; sd]
    | |- pwp (finish _ _) _ _ _ => unfold finish
    | |- pwp (if ?b then _ else _) _ _ _ => destruct b eqn:?
    end.
  Ltac fail_ := apply failed; discriminate.
  Ltac plain_ := apply P_plain; [reflexivity | reflexivity | reflexivity |
    intros _; cbn [ev_var new_event set_status_update set_suppressed];
    repeat constructor; try (apply prior_here) ].
  Ltac inert_ H :=
    apply post_done; eapply done_inert;
      [exact H | | | reflexivity.. | sd; eassumption].

  Context (fs : list flow) (ps : list packet) (p : packet).

  (** The rules for standalone events at an inert packet. *)
  Lemma now_inert e d d' : Here fs ps p d -> inert (pkt_pl p) = true ->
    flow_of_event e = flow_of_packet p ->
    ed_pd d' = ed_pd d -> ed_time d' = ed_time d -> ed_tcal d' = ed_tcal d -> ed_ip d' = ed_ip d ->
    ed_status d' = ed_status d -> ed_bound d' = ed_bound d -> queued (P (ps ++ [p])) (ed_evq d') ->
    quiet e (pkt_pl p) = true -> ev_has_tsc e = false -> source (ev_var e) = None ->
    is_overflow (ev_var e) = false ->
    (strict -> bears e (pkt_pl p) = true) ->
    (strict -> Forall (prior (ps ++ [p])) (pieces (ev_var e))) ->
    pwp (standalone_now e) (Post fs (ps ++ [p])) (Failed fs) d'.
  Proof.
    intros H Hi Hf E1 E2 E3 E4 E5 E6 Hq' G1 G2 G3 G4 G5 G6.
    apply now_out; auto.
    - eapply done_inert; [exact H|exact Hi|rewrite Hf; reflexivity|assumption..].
    - intros S. rewrite E6. apply (bound_inert _ _ _ _ H); [|exact S].
      destruct (pkt_pl p); auto; discriminate.
    - congruence.
  Qed.

  Ltac now_ H := eapply (now_inert _ _ _ H);
    [ | | reflexivity.. | sd; eassumption | | | | | |].

  (** Plain facts about the current packet. *)
  Ltac say E :=
    intros; unfold bears, flow_of_packet, flow_of_event, quiet, counted_trigger, of_cfe, of_cfe_vector, of_evd;
    rewrite ?E; cbn; rewrite ?N.eqb_refl, ?eqb_reflx, ?app_nil_r; reflexivity.
  Ltac tell E := intros _; cbn [ev_var new_event set_status_update set_suppressed pieces of_evd_opt app];
    repeat constructor; apply prior_here; say E.
  Ltac new_ E := apply P_plain; [reflexivity | reflexivity | reflexivity | tell E].
  Ltac easy_ H E := inert_ H; say E.
  Ltac stand H E := now_ H; first [say E | tell E].
  Ltac go H := pose proof H as (Hr & Hp & Hq & Ht & Hs).

  Lemma tnt_t t d : Here fs ps p d -> pkt_pl p = P_tnt_8 t \/ pkt_pl p = P_tnt_64 t ->
    pwp (pt_evt_decode_tnt t) (Post fs (ps ++ [p])) (Failed fs) d.
  Proof.
    intros H E. go H. unfold pt_evt_decode_tnt. repeat p_step; [fail_|].
    destruct E as [E|E]; stand H E.
  Qed.

  Lemma mode_t m d : Here fs ps p d -> pkt_pl p = P_mode m ->
    pwp (pt_evt_decode_mode m) (Post fs (ps ++ [p])) (Failed fs) d.
  Proof.
    intros H E. go H. unfold pt_evt_decode_mode. destruct m as [csl csd iflag|intx abrt|leaf]; [| |fail_].
    - assert (Hm : forall m, exec_mode_eqb m m = true) by (intros []; reflexivity).
      unfold pt_evt_decode_mode_exec. repeat p_step; try fail_; try (easy_ H E); try (new_ E).
      all: apply P_plain; [reflexivity | reflexivity | reflexivity |].
      all: intros _; cbn [ev_var new_event pieces]; repeat constructor; apply prior_here; rewrite E; apply Hm.
    - unfold pt_evt_decode_mode_tsx. repeat p_step; try fail_; try (easy_ H E).
      + destruct abrt; new_ E.
      + stand H E.
  Qed.

  Lemma pip_t c n d : Here fs ps p d -> pkt_pl p = P_pip c n ->
    pwp (pt_evt_decode_pip c n) (Post fs (ps ++ [p])) (Failed fs) d.
  Proof.
    intros H E. go H. unfold pt_evt_decode_pip. p_step. p_step. destruct (pt_evq_find _ _ _).
    - repeat p_step; [new_ E|easy_ H E|fail_].
    - stand H E.
  Qed.

  Lemma vmcs_t b d : Here fs ps p d -> pkt_pl p = P_vmcs b ->
    pwp (pt_evt_decode_vmcs b) (Post fs (ps ++ [p])) (Failed fs) d.
  Proof.
    intros H E. go H. unfold pt_evt_decode_vmcs. p_step. p_step.
    destruct (pt_evq_find (ed_evq d) evb_tip is_async_paging) as [i|] eqn:Ef.
    - destruct (find_inq _ _ _ _ _ Hq Ef) as (b' & e & Hi & Hb & He).
      pose proof (inq_P _ _ _ _ _ Hi) as He'.
      p_step. eapply (p_requeue (P _)); [exact Hq|right; eauto| | |fail_].
      + destruct He' as (P1 & P2). split; [exact P1|]. intros S. specialize (P2 S).
        unfold is_async_paging in He. unfold PF in *. destruct (ev_var e); try discriminate He.
        destruct P2 as (F1 & F2 & F3 & F4 & F5). repeat (split; [assumption|]).
        change (evb_tip =? evb_cfe)%N with false. destruct (b' =? evb_cfe)%N; [destruct F5|exact F5].
      + intros q' (G1 & G2 & G3). p_step. eapply (p_read_inq (P _)); [sd; apply G3; exact Hi|].
        p_step. eapply (p_write_inq (P _)); [sd; apply G3; exact Hi| |].
        * destruct He' as (P1 & P2). split; [reflexivity|]. intros S. specialize (P2 S).
          unfold PF in *. cbn [ev_var set_var]. unfold is_async_paging in He.
          destruct (ev_var e); try discriminate He.
          destruct P2 as (F1 & F2 & F3 & F4 & F5). split; [left; reflexivity|].
          split; [exact I|]. split; [exact F3|]. split; [intros a Ha; discriminate Ha|].
          destruct (b' =? evb_cfe)%N; [destruct F5|]. repeat constructor. apply prior_here. say E.
        * intros q2 K1 K2 K3. p_step. sd. easy_ H E.
    - destruct (pt_evq_find (ed_evq d) evb_tip is_async_branch).
      + repeat p_step; [new_ E|easy_ H E|fail_].
      + stand H E.
  Qed.

  Lemma mnt_t v d : Here fs ps p d -> pkt_pl p = P_mnt v ->
    pwp (pt_evt_decode_mnt v) (Post fs (ps ++ [p])) (Failed fs) d.
  Proof. intros H E. go H. unfold pt_evt_decode_mnt. stand H E. Qed.
  Lemma stop_t d : Here fs ps p d -> pkt_pl p = P_stop ->
    pwp pt_evt_decode_stop (Post fs (ps ++ [p])) (Failed fs) d.
  Proof. intros H E. go H. unfold pt_evt_decode_stop. stand H E. Qed.
  Lemma mwait_t a b d : Here fs ps p d -> pkt_pl p = P_mwait a b ->
    pwp (pt_evt_decode_mwait a b) (Post fs (ps ++ [p])) (Failed fs) d.
  Proof. intros H E. go H. unfold pt_evt_decode_mwait. repeat p_step; [new_ E|easy_ H E|fail_]. Qed.
  Lemma pwre_t a b c d : Here fs ps p d -> pkt_pl p = P_pwre a b c ->
    pwp (pt_evt_decode_pwre a b c) (Post fs (ps ++ [p])) (Failed fs) d.
  Proof. intros H E. go H. unfold pt_evt_decode_pwre. stand H E. Qed.
  Lemma pwrx_t a b x y z d : Here fs ps p d -> pkt_pl p = P_pwrx a b x y z ->
    pwp (pt_evt_decode_pwrx a b x y z) (Post fs (ps ++ [p])) (Failed fs) d.
  Proof. intros H E. go H. unfold pt_evt_decode_pwrx. stand H E. Qed.
  Lemma ptw_t a plc ip d : Here fs ps p d -> pkt_pl p = P_ptw a plc ip ->
    pwp (pt_evt_decode_ptw a plc ip) (Post fs (ps ++ [p])) (Failed fs) d.
  Proof.
    intros H E. go H. unfold pt_evt_decode_ptw. p_step. apply p_lift.
    - intros n En. cbv zeta.
      assert (Hw : Forall (prior (ps ++ [p])) (pieces (Ev_ptwrite 0 (N.of_nat n) a))).
      { repeat constructor. apply prior_here. rewrite E, En, !N.eqb_refl. reflexivity. }
      repeat p_step; try fail_.
      + apply P_plain; auto.
      + easy_ H E.
      + now_ H; try (say E). intros _. exact Hw.
    - intros e He. apply failed. unfold pt_ptw_size in He. intros ->.
      repeat match type of He with context [if ?b then _ else _] => destruct b end; discriminate.
  Qed.
  Lemma trig_t tr ic ip iv m d : Here fs ps p d -> pkt_pl p = P_trig tr ic ip iv m ->
    pwp (pt_evt_decode_trig tr ic ip iv m) (Post fs (ps ++ [p])) (Failed fs) d.
  Proof.
    intros H E. go H. unfold pt_evt_decode_trig.
    assert (Hic : truth ic = false -> ic = 0%N).
    { unfold truth. intros Hx. apply negb_false_iff in Hx. apply N.eqb_eq. exact Hx. }
    repeat p_step; try fail_; try (easy_ H E).
    - apply P_plain; auto. intros _. repeat constructor. apply prior_here. rewrite E.
      destruct iv; [|discriminate]. rewrite Hic by assumption.
      rewrite !N.eqb_refl, eqb_reflx. reflexivity.
    - destruct iv.
      + stand H E.
      + stand H E.
  Qed.

  (** Changes that keep [Here]. *)
  Lemma here_same d d' : Here fs ps p d -> queued (P (ps ++ [p])) (ed_evq d') ->
    ed_pd d' = ed_pd d -> ed_pkt d' = ed_pkt d -> ed_ip d' = ed_ip d -> ed_time d' = ed_time d ->
    ed_tcal d' = ed_tcal d -> ed_status d' = ed_status d -> ed_bound d' = ed_bound d ->
    Here fs ps p d'.
  Proof.
    intros (Hr & Hp & Hq & Ht & Hs) Hq' E1 E2 E3 E4 E5 E6 E7. unfold L_evtrace.Here, stat.
    rewrite E1, E2, E3, E4, E5, E6, E7. auto.
  Qed.
  Lemma here_evq d q : Here fs ps p d -> queued (P (ps ++ [p])) q -> Here fs ps p (set_evq d q).
  Proof. intros (Hr & Hp & Hq & Ht & Hs) Hq'. repeat split; auto; apply Hs; assumption. Qed.

  Lemma not_cfe b' b : N.land b' b <> 0%N -> N.land evb_cfe b = 0%N -> (b' =? evb_cfe)%N = false.
  Proof. intros H1 H2. apply N.eqb_neq. intros ->. contradiction. Qed.
  Lemma P_rebind qs b b' e : P qs b e -> (b =? evb_cfe)%N = false -> (b' =? evb_cfe)%N = false ->
    P qs b' e.
  Proof.
    intros (H1 & H2) E1 E2. split; [exact H1|]. intros S. specialize (H2 S). unfold PF in *.
    rewrite E1 in H2. rewrite E2. exact H2.
  Qed.

  (** An event delivered at a packet that will be decoded again. *)
  Lemma out_here fs' e d : fs' = fs ++ flow_of_event e -> Here fs' ps p d ->
    tnts (flow_of_packet p) = [] -> (strict -> ed_bound d = true \/ flow_of_packet p = []) ->
    Pub d e -> (strict -> stamped cf (ps ++ [p]) e) -> Post fs (ps ++ [p]) false d.
  Proof.
    intros -> H Hf Hb HP Hst. exists [], e. rewrite app_nil_r.
    pose proof H as (Hr & Hp & Hq & Ht & Hs).
    split; [exact HP|]. split; [rewrite flows_app, flows_one, (tnts_app (flows ps)), Hf, app_nil_r; exact Ht|].
    split; [|apply prefix_here; exact H].
    intros S. split; [auto|]. destruct (Hs S) as (_ & _ & _ & _ & _ & S6).
    destruct (Hb S) as [Eb|Ef]; [rewrite Eb in S6; apply S6|].
    destruct (ed_bound d); [apply S6|]. rewrite flows_app, flows_one, Ef, app_nil_r. exact S6.
  Qed.

  Lemma hw_inert qs : inert (pkt_pl p) = true -> hw_after cf (qs ++ [p]) = hw_after cf qs.
  Proof. intros H. rewrite after_snoc. apply inert_step. exact H. Qed.

  Lemma exstop_self_t ip d : Here fs ps p d -> pkt_pl p = P_exstop ip ->
    pwp (exstop_self ip) (Post fs (ps ++ [p])) (Failed fs) d.
  Proof.
    intros H E. go H. unfold exstop_self. repeat p_step; [new_ E|easy_ H E|fail_|stand H E].
  Qed.
  Lemma exstop_t ip d : Here fs ps p d -> pkt_pl p = P_exstop ip ->
    pwp (pt_evt_decode_exstop ip) (Post fs (ps ++ [p])) (Failed fs) d.
  Proof.
    intros H E. go H. unfold pt_evt_decode_exstop. p_step. p_step.
    2:{ apply exstop_self_t; assumption. }
    rename b' into b, e into e0. rename H0 into HP, H1 into Hb, H2 into Hq', H3 into Hh.
    pose proof (not_cfe _ _ Hb eq_refl) as Hc.
    p_step. p_step. destruct (ev_var e0) eqn:Ev; try fail_.
    destruct ip.
    - p_step. eapply (p_requeue (P _)); [sd; exact Hq'|left; sd; eassumption| | |sd; fail_].
      + apply (P_rebind _ b); auto.
      + intros q2 (G1 & G2 & G3). sd. apply exstop_self_t; [apply (here_same d); auto|exact E].
    - repeat p_step. eapply (out_here fs); [| | | |right; eexists; split; [reflexivity|sd; eassumption]|].
      + symmetry. apply app_nil_r.
      + repeat split; sd; auto; apply Hs; assumption.
      + unfold flow_of_packet. rewrite E. reflexivity.
      + intros _. right. unfold flow_of_packet. rewrite E. reflexivity.
      + intros S. destruct (Hs S) as (S1 & S2 & S3 & S4 & S5 & S6). destruct HP as (_ & HP).
        specialize (HP S). unfold PF in HP. rewrite Ev, Hc in HP. cbn in HP.
        destruct HP as (F1 & F2 & F3 & F4 & F5).
        apply stamped_quiet; [reflexivity|exact F3|reflexivity| |discriminate| |exact F5].
        * sd. rewrite hw_inert by (rewrite E; reflexivity). exact S2.
        * cbn [ev_var set_suppressed set_var bears]. rewrite E. reflexivity.
  Qed.

  (** *** Control-flow events *)

  Lemma cfe_plain_t o v ty vec ip with_fup d : Here fs ps p d -> pkt_pl p = P_cfe ty vec ip ->
    plain_var v = true -> (forall e, ev_var e = v -> bears e (pkt_pl p) = true) ->
    (strict -> Forall (prior (ps ++ [p])) (pieces v)) ->
    pwp (cfe_plain o v ip with_fup) (Post fs (ps ++ [p])) (Failed fs) d.
  Proof.
    intros H E H1 H2 H3. go H. unfold cfe_plain. destruct o; [fail_|].
    assert (Hpl : forall b, (b =? evb_cfe)%N = false -> P (ps ++ [p]) b (new_event v)).
    { intros b Hb. apply P_plain; auto. }
    assert (Hfl : forall e, ev_var e = v -> flow_of_event e = []).
    { intros e He. unfold flow_of_event. rewrite He. destruct v; auto; discriminate. }
    repeat p_step; try fail_; try (easy_ H E); try (apply Hpl; reflexivity).
    now_ H; try (say E); auto.
    - rewrite Hfl by reflexivity. unfold flow_of_packet. rewrite E. reflexivity.
    - destruct v; auto; discriminate.
    - destruct v; auto; discriminate.
  Qed.

  Lemma cfe_noip_t o v ty vec ip d : Here fs ps p d -> pkt_pl p = P_cfe ty vec ip ->
    plain_var v = true -> (forall e, ev_var e = v -> bears e (pkt_pl p) = true) ->
    (strict -> Forall (prior (ps ++ [p])) (pieces v)) ->
    pwp (cfe_noip o v ip) (Post fs (ps ++ [p])) (Failed fs) d.
  Proof.
    intros H E H1 H2 H3. go H. unfold cfe_noip. destruct o; [fail_|].
    assert (Hpl : forall b, (b =? evb_cfe)%N = false ->
      P (ps ++ [p]) b (set_suppressed (new_event v) true)).
    { intros b Hb. apply P_plain; auto. }
    assert (Hfl : forall e, ev_var e = v -> flow_of_event e = []).
    { intros e He. unfold flow_of_event. rewrite He. destruct v; auto; discriminate. }
    repeat p_step; try fail_; try (easy_ H E); try (apply Hpl; reflexivity).
    now_ H; try (say E); auto.
    - rewrite Hfl by reflexivity. unfold flow_of_packet. rewrite E. reflexivity.
    - destruct v; auto; discriminate.
    - destruct v; auto; discriminate.
  Qed.

  Definition announced_var (v : evar) : bool :=
    match v with Ev_interrupt _ _ _ | Ev_vmexit _ _ _ _ => true | _ => false end.
  Definition good (upd : evar -> option evar) (v : evar) : Prop :=
    forall v', upd v = Some v' ->
      announced_var v' = true /\ (strict -> Forall (prior (ps ++ [p])) (pieces v')).

  Lemma announced_plain v : announced_var v = true -> plain_var v = true /\ source v = None /\
    is_overflow v = false /\ forall e, ev_var e = v -> flow_of_event e = [].
  Proof.
    unfold flow_of_event. destruct v; intros H; try discriminate H; repeat split; intros e ->; reflexivity.
  Qed.

  Lemma cfe_evd_t o v upd ty vec ip d : Here fs ps p d -> pkt_pl p = P_cfe ty vec ip ->
    (forall i, o = Some i -> exists e, held (ed_evq d) i e /\
       (forall v', upd (ev_var e) = Some v' -> strict -> ev_has_tsc e = false) /\
       good upd (ev_var e)) -> good upd v ->
    pwp (cfe_evd o v upd ip) (Post fs (ps ++ [p])) (Failed fs) d.
  Proof.
    intros H E Ho Hv. go H. unfold cfe_evd.
    assert (Hout : forall e v' q i alone, announced_var v' = true -> (strict -> ev_has_tsc e = false) ->
      (strict -> Forall (prior (ps ++ [p])) (pieces v')) -> queued (P (ps ++ [p])) q ->
      let e' := set_suppressed (event_time (ed_time d) (set_var e v')) true in
      let d' := set_event (set_alone (set_evq d q) alone) i in
      Pub d' e' -> pwp pt_evt_fetch_packet (Post fs (ps ++ [p])) (Failed fs) d').
    { intros e v' q i alone Ha Ht' Hpc Hq2 e' d' HP.
      destruct (announced_plain _ Ha) as (A1 & A2 & A3 & A4).
      eapply p_mono; [apply (fetch_out cf pd0 fs (ps ++ [p]) e')| |].
      - rewrite A4 by reflexivity. eapply done_inert; [exact H|say E| |reflexivity..|exact Hq2].
        say E.
      - intros S. apply (bound_inert _ _ _ _ H); [rewrite E; reflexivity|exact S].
      - exact HP.
      - intros S. destruct (Hs S) as (S1 & S2 & S3 & S4 & S5 & S6).
        replace e' with (event_time (ed_time d) (set_suppressed (set_var e v') true)) by reflexivity.
        apply stamped_quiet; auto.
        + rewrite hw_inert by (rewrite E; reflexivity). exact S2.
        + intros G. cbn in G. congruence.
        + unfold bears. cbn [ev_var set_suppressed set_var]. rewrite E.
          destruct v'; try discriminate Ha; reflexivity.
      - intros more d2 (-> & HO). exists [], e'. rewrite app_nil_r. exact HO.
      - intros e2 d2 HF. exact HF. }
    assert (Hpl : forall e v' b, announced_var v' = true -> (strict -> ev_has_tsc e = false) ->
      (strict -> Forall (prior (ps ++ [p])) (pieces v')) -> (b =? evb_cfe)%N = false ->
      P (ps ++ [p]) b (set_var e v')).
    { intros e v' b Ha Ht' Hpc Hb. apply P_plain; auto. apply (announced_plain _ Ha). }
    p_step. destruct o as [i|].
    - destruct (Ho i eq_refl) as (e & Hh & Hts & Hg). p_step. p_step. p_step.
      destruct (upd (ev_var e)) as [v'|] eqn:Eu; [|fail_]. destruct (Hg v' Eu) as (Ha & Hpc). specialize (Hts v' eq_refl).
      p_step. p_step. p_step. p_step. p_step.
      + p_step. eapply (p_requeue (P _)); [sd; eassumption|left; sd; eassumption|apply Hpl; auto| |sd; fail_].
        intros q2 (G1 & G2 & G3). p_step. easy_ H E.
      + p_step.
        * p_step. eapply (p_requeue (P _)); [sd; eassumption|left; sd; eassumption|apply Hpl; auto| |sd; fail_].
          intros q2 (G1 & G2 & G3). p_step. easy_ H E.
        * p_step. p_step. p_step. p_step. sd.
          eapply (Hout e v' q'0 _ (ed_alone d)); eauto. right. exists i. split; [reflexivity|sd; eassumption].
    - p_step. p_step. p_step. p_step. p_step. sd.
      change (ev_var (new_event v)) with v.
      destruct (upd v) as [v'|] eqn:Eu; [|fail_]. destruct (Hv v' Eu) as (Ha & Hpc).
      p_step. p_step. p_step. p_step. p_step.
      + p_step. apply (p_requeue_alone (P (ps ++ [p]))); [sd; eassumption|sd; apply Hpl; auto| |sd; fail_].
        intros q2 (G1 & G2 & G3). p_step. easy_ H E.
      + p_step.
        * p_step. apply (p_requeue_alone (P (ps ++ [p]))); [sd; eassumption|sd; apply Hpl; auto| |sd; fail_].
          intros q2 (G1 & G2 & G3). p_step. easy_ H E.
        * p_step. p_step. p_step. p_step. sd.
          eapply (Hout (new_event v) v' (ed_evq d)); eauto. left. split; reflexivity.
  Qed.

  (** What an announced event already says. *)
  Lemma announced qs b e : strict -> P qs b e -> N.land b evb_cfe <> 0%N ->
    ev_has_tsc e = false \/ announced_var (ev_var e) = false.
  Proof.
    intros S (H1 & H2) _. destruct (H2 S) as (F1 & F2 & F3 & _).
    destruct (ev_var e); auto.
  Qed.
  Lemma announced_intr qs b e v c a : strict -> P qs b e -> ev_var e = Ev_interrupt v c a ->
    Forall (prior qs) (of_evd_opt pt_evd_cr2 c).
  Proof.
    intros S (H1 & H2) E. destruct (H2 S) as (F1 & F2 & F3 & F4 & F5). rewrite E in F5.
    destruct (b =? evb_cfe)%N; [exact F5|]. cbn in F5. inversion F5; assumption.
  Qed.
  Lemma announced_exit qs b e v r q a : strict -> P qs b e -> ev_var e = Ev_vmexit v r q a ->
    Forall (prior qs) (of_evd_opt pt_evd_vmxr r ++ of_evd_opt pt_evd_vmxq q) /\
    match v with Some x => prior qs (of_cfe_vector pt_cfe_vmexit_intr x) | None => True end.
  Proof.
    intros S (H1 & H2) E. destruct (H2 S) as (F1 & F2 & F3 & F4 & F5). rewrite E in F5.
    destruct (b =? evb_cfe)%N; [destruct F5 as (-> & F5); auto|]. cbn in F5.
    inversion F5; subst. split; [assumption|]. destruct v; auto.
  Qed.

  Lemma cfe_t ty vec ip d : Here fs ps p d -> pkt_pl p = P_cfe ty vec ip ->
    pwp (pt_evt_decode_cfe ty vec ip) (Post fs (ps ++ [p])) (Failed fs) d.
  Proof.
    intros H E. unfold pt_evt_decode_cfe.
    assert (Hb : forall o d v upd, Here fs ps p d ->
      (forall i, o = Some i -> exists e b, held (ed_evq d) i e /\ P (ps ++ [p]) b e) ->
      good upd v -> (forall e b, P (ps ++ [p]) b e -> good upd (ev_var e)) ->
      (forall v v', upd v = Some v' -> announced_var v = true) ->
      pwp (cfe_evd o v upd ip) (Post fs (ps ++ [p])) (Failed fs) d).
    { intros o d1 v upd H1 Ho Hg1 Hg2 Hg3. eapply cfe_evd_t; try eassumption.
      intros i Ei. destruct (Ho i Ei) as (e & b & Hh & HP).
      exists e. split; [exact Hh|]. split; [|apply (Hg2 e b HP)].
      intros v' Eu S. destruct HP as (_ & HP). destruct (HP S) as (F1 & F2 & F3 & _).
      specialize (Hg3 _ _ Eu). destruct (ev_var e); try discriminate Hg3; exact F3. }
    match goal with |- pwp (sbind _ ?K) _ _ _ =>
      assert (Hall : forall o d, Here fs ps p d ->
        (forall i, o = Some i -> exists e b, held (ed_evq d) i e /\ P (ps ++ [p]) b e) ->
        pwp (K o) (Post fs (ps ++ [p])) (Failed fs) d)
    end.
    2:{ go H. p_step. p_step.
        - apply Hall; [apply here_evq; assumption|]. intros j Ej. injection Ej as <-. eauto.
        - refine (Hall None d H _); discriminate. }
    clear d H. intros o d H Ho. go H. cbv beta.
    Ltac ty_ E := match goal with Heqb : (_ =? _)%N = true |- _ => apply N.eqb_eq in Heqb; subst end.
    repeat match goal with |- pwp (if ?b then _ else _) _ _ _ => destruct b eqn:? end;
      try (ty_ E; first [eapply cfe_plain_t | eapply cfe_noip_t]; try eassumption;
           [reflexivity | intros e He; unfold bears; rewrite He, E; reflexivity | tell E]).
    - ty_ E. apply Hb; try assumption.
      + intros v' Ev. injection Ev as <-. split; [reflexivity|]. tell E.
      + intros e b HP v' Ev. destruct (ev_var e) eqn:Ee; try discriminate Ev. injection Ev as <-.
        split; [reflexivity|]. intros S. cbn [pieces]. constructor; [apply prior_here; say E|].
        apply (announced_intr _ _ _ _ _ _ S HP Ee).
      + intros v v' Ev. destruct v; try discriminate Ev. reflexivity.
    - apply Hb; try assumption.
      + intros v' Ev. injection Ev as <-. split; [reflexivity|]. intros _.
        destruct (ty =? pt_cfe_vmexit_intr)%N eqn:Et.
        * apply N.eqb_eq in Et. subst. cbn. repeat constructor. apply prior_here. say E.
        * apply orb_true_iff in Heqb6. destruct Heqb6 as [Hx|Hx]; [|congruence].
          apply N.eqb_eq in Hx. subst. cbn. repeat constructor. apply prior_here. say E.
      + intros e b HP v' Ev. destruct (ev_var e) eqn:Ee; try discriminate Ev. injection Ev as <-.
        split; [reflexivity|]. intros S. destruct (announced_exit _ _ _ _ _ _ _ S HP Ee) as (G1 & G2).
        cbn [pieces]. constructor; [|exact G1].
        destruct (ty =? pt_cfe_vmexit_intr)%N eqn:Et.
        * apply N.eqb_eq in Et. subst. apply prior_here. say E.
        * destruct vector; [exact G2|]. apply orb_true_iff in Heqb6.
          destruct Heqb6 as [Hx|Hx]; [|congruence].
          apply N.eqb_eq in Hx. subst. apply prior_here. say E.
      + intros v v' Ev. destruct v; try discriminate Ev. reflexivity.
    - fail_.
    - repeat p_step; [new_ E|easy_ H E|fail_].
    - p_step. easy_ H E.
  Qed.

  (** *** Event data *)

  Lemma P_cfe qs e : announced_var (ev_var e) = true -> (strict -> ev_has_tsc e = false) ->
    (strict -> cfe_piece qs (ev_var e)) -> P qs evb_cfe e.
  Proof.
    intros H1 H2 H3. destruct (announced_plain _ H1) as (A1 & A2 & A3 & A4).
    split; [unfold no_tnt; destruct (ev_var e); auto; discriminate|].
    intros S. unfold PF. rewrite A2, A3. change (evb_cfe =? evb_cfe)%N with true.
    split; [left; apply A4; reflexivity|].
    split; [destruct (ev_var e); auto; discriminate|].
    split; [auto|]. split; [discriminate|auto].
  Qed.

  (** An announced event may become another one. *)
  Lemma P_announced qs b e v' : P qs b e -> announced_var v' = true ->
    announced_var (ev_var e) = true ->
    (strict -> if (b =? evb_cfe)%N then cfe_piece qs v' else Forall (prior qs) (pieces v')) ->
    P qs b (set_var e v').
  Proof.
    intros (H1 & H2) A B H3. destruct (announced_plain _ A) as (A1 & A2 & A3 & A4).
    destruct (announced_plain _ B) as (B1 & B2 & B3 & B4).
    split; [unfold no_tnt; cbn [ev_var set_var]; destruct v'; auto; discriminate|].
    intros S. destruct (H2 S) as (F1 & F2 & F3 & F4 & F5). rewrite B3 in F3.
    unfold PF. cbn [ev_var set_var]. rewrite A2, A3.
    split; [left; apply A4; reflexivity|].
    split; [destruct v'; auto; discriminate|].
    split; [exact F3|]. split; [discriminate|exact (H3 S)].
  Qed.

  Lemma evd_vmexit_t upd ty v d : Here fs ps p d -> pkt_pl p = P_evd ty v ->
    (forall e b v', P (ps ++ [p]) b e -> upd (ev_var e) = Some v' -> P (ps ++ [p]) b (set_var e v')) ->
    pwp (evd_vmexit upd) (Post fs (ps ++ [p])) (Failed fs) d.
  Proof.
    intros H E Hu. go H. unfold evd_vmexit. p_step. p_step. p_step.
    assert (Hk : forall d' i b e, inq (P (ps ++ [p])) (ed_evq d') i b e ->
      ed_pd d' = ed_pd d -> ed_pkt d' = ed_pkt d -> ed_ip d' = ed_ip d -> ed_time d' = ed_time d ->
      ed_tcal d' = ed_tcal d -> ed_status d' = ed_status d ->
      pwp (do e <- read_event (Slot i);
           match upd (ev_var e) with
           | None => fail pte_bad_context
           | Some v => run write_event (Slot i) (set_var e v); ret true
           end) (Post fs (ps ++ [p])) (Failed fs) d').
    { intros d' i b e Hi E1 E2 E3 E4 E5 E6. p_step. eapply (p_read_inq (P _)); [exact Hi|].
      destruct (upd (ev_var e)) as [v'|] eqn:Eu; [|fail_].
      p_step. eapply (p_write_inq (P _)); [exact Hi|apply Hu; [apply (inq_P _ _ _ _ _ Hi)|exact Eu]|].
      intros q2 K1 K2 K3. p_step. apply post_done. eapply done_inert; [exact H| | |sd; congruence..|exact K1];
        say E. }
    destruct (pt_evq_peek (ed_evq d) evb_cfe) as [i|] eqn:Ep.
    - destruct (peek_inq _ _ _ _ Hq Ep) as (b & e & Hi & Hb). p_step. eapply Hk; try reflexivity. exact Hi.
    - p_step. eapply (p_enqueue (P _)); [exact Hq|apply P_cfe; [reflexivity|reflexivity|]| |fail_].
      + intros _. cbn. auto.
      + intros q' (G1 & G2 & G3) Hi. p_step. eapply Hk; try reflexivity. exact Hi.
  Qed.

  Lemma evd_t ty v d : Here fs ps p d -> pkt_pl p = P_evd ty v ->
    pwp (pt_evt_decode_evd ty v) (Post fs (ps ++ [p])) (Failed fs) d.
  Proof.
    intros H E. go H. unfold pt_evt_decode_evd. p_step. p_step. p_step.
    { apply N.eqb_eq in Heqb. subst ty. destruct (pt_evq_peek _ _); [fail_|].
      p_step. eapply (p_enqueue (P _)); [exact Hq|apply P_cfe; [reflexivity|reflexivity|]| |fail_].
      + intros _. cbn. repeat constructor. apply prior_here. say E.
      + intros q' (G1 & G2 & G3) Hi. p_step. easy_ H E. }
    p_step.
    { apply N.eqb_eq in Heqb0. subst ty. eapply evd_vmexit_t; try eassumption.
      intros e b v' HP Ev. destruct (ev_var e) eqn:Ee; try discriminate Ev.
      destruct vmxq; try discriminate Ev. injection Ev as <-.
      apply P_announced; [exact HP|reflexivity|rewrite Ee; reflexivity|].
      intros S. destruct HP as (_ & HP). destruct (HP S) as (F1 & F2 & F3 & F4 & F5). rewrite Ee in F5.
      destruct (b =? evb_cfe)%N; cbn in F5 |- *.
      - destruct F5 as (F5 & F6). split; [exact F5|]. apply Forall_app in F6. apply Forall_app.
        split; [apply F6|]. repeat constructor. apply prior_here. say E.
      - inversion F5; subst. constructor; [assumption|]. apply Forall_app.
        match goal with X : Forall _ (_ ++ []) |- _ => apply Forall_app in X; split; [apply X|] end.
        repeat constructor. apply prior_here. say E. }
    p_step.
    { apply N.eqb_eq in Heqb1. subst ty. eapply evd_vmexit_t; try eassumption.
      intros e b v' HP Ev. destruct (ev_var e) eqn:Ee; try discriminate Ev.
      destruct vmxr; try discriminate Ev. injection Ev as <-.
      apply P_announced; [exact HP|reflexivity|rewrite Ee; reflexivity|].
      intros S. destruct HP as (_ & HP). destruct (HP S) as (F1 & F2 & F3 & F4 & F5). rewrite Ee in F5.
      destruct (b =? evb_cfe)%N; cbn in F5 |- *.
      - destruct F5 as (F5 & F6). split; [exact F5|]. constructor; [apply prior_here; say E|exact F6].
      - inversion F5; subst. constructor; [assumption|]. constructor; [apply prior_here; say E|assumption]. }
    p_step. easy_ H E.
  Qed.

  (** *** Timing packets *)

  Lemma timing_t f d (Q : unit -> evdec -> Prop) : Here fs ps p d -> steps_to cf false (pkt_pl p) f ->
    flow_of_packet p = [] -> ipp (pkt_pl p) = false -> psb_end (pkt_pl p) = false ->
    (forall d', Done fs (ps ++ [p]) d' -> (strict -> ed_bound d' = false) -> Q tt d') ->
    pwp (timing f) Q (Failed fs) d.
  Proof.
    intros H Hf Hfl Hi He HQ. go H. apply p_timing.
    - intros t l Et. apply HQ.
      + split; [exact Hr|]. split; [exact Hq|].
        split; [rewrite flows_app, flows_one, Hfl, app_nil_r; exact Ht|].
        intros S. destruct (Hs S) as (S1 & S2 & S3 & S4 & S5 & S6).
        rewrite (config_is cf pd0 conf _ _ Hr) in Et. destruct (Hf _ _ _ _ _ Et) as (_ & Hst).
        specialize (Hst eq_refl (h_ip (hw_after cf ps))).
        assert (Hps : h_psb (hw_after cf ps) = false).
        { destruct (h_psb _); [|reflexivity]. specialize (S5 eq_refl). congruence. }
        rewrite after_snoc. change (hw_step cf (hw_after cf ps) p)
          with (hw_step cf (hw_after cf ps) (mk_packet (pkt_pl p) 0)).
        replace (hw_after cf ps) with (mk_hw false (h_ip (hw_after cf ps)) (ed_time d) (ed_tcal d))
          by (rewrite S2, S3, <- Hps; destruct (hw_after cf ps); reflexivity).
        rewrite Hst. split; [exact S1|]. split; [|split; [reflexivity|]].
        * split; [|split; reflexivity]. sd. destruct S4 as [S4|[S4 _]]; [exact S4|congruence].
        * rewrite flows_app, flows_one, Hfl, app_nil_r. destruct (ed_bound d); [|exact S6].
          destruct S6; congruence.
      + intros S. apply (bound_inert _ _ _ _ H); assumption.
    - intros t l e Et. apply failed. intros ->.
      rewrite (config_is cf pd0 conf _ _ Hr) in Et. destruct (Hf _ _ _ _ _ Et) as (Hst & _). congruence.
  Qed.

  Ltac flow_ E := unfold flow_of_packet; rewrite E; reflexivity.
  Ltac timing_ H E lem :=
    eapply (timing_t _ _ _ H); [rewrite E; apply lem | flow_ E | rewrite E; reflexivity | rewrite E; reflexivity |].

  Lemma tsc_t v d : Here fs ps p d -> pkt_pl p = P_tsc v ->
    pwp (pt_evt_decode_tsc v) (Post fs (ps ++ [p])) (Failed fs) d.
  Proof.
    intros H E. unfold pt_evt_decode_tsc. p_step. timing_ H E steps_tsc.
    intros d' HD _. p_step. apply post_done. exact HD.
  Qed.
  Lemma tma_t a b d : Here fs ps p d -> pkt_pl p = P_tma a b ->
    pwp (pt_evt_decode_tma a b) (Post fs (ps ++ [p])) (Failed fs) d.
  Proof.
    intros H E. unfold pt_evt_decode_tma. p_step. timing_ H E steps_tma.
    intros d' HD _. p_step. apply post_done. exact HD.
  Qed.
  Lemma mtc_t v d : Here fs ps p d -> pkt_pl p = P_mtc v ->
    pwp (pt_evt_decode_mtc v) (Post fs (ps ++ [p])) (Failed fs) d.
  Proof.
    intros H E. unfold pt_evt_decode_mtc. p_step. timing_ H E steps_mtc.
    intros d' HD _. p_step. apply post_done. exact HD.
  Qed.
  Lemma cyc_t v d : Here fs ps p d -> pkt_pl p = P_cyc v ->
    pwp (pt_evt_decode_cyc v) (Post fs (ps ++ [p])) (Failed fs) d.
  Proof.
    intros H E. unfold pt_evt_decode_cyc. p_step. timing_ H E steps_cyc.
    intros d' HD _. p_step. apply post_done. exact HD.
  Qed.
  Lemma cbr_t v d : Here fs ps p d -> pkt_pl p = P_cbr v ->
    pwp (pt_evt_decode_cbr v) (Post fs (ps ++ [p])) (Failed fs) d.
  Proof.
    intros H E. unfold pt_evt_decode_cbr. p_step. timing_ H E steps_cbr.
    intros d' HD Hb. apply now_out; auto; try reflexivity.
    - cbn [flow_of_event ev_var new_event]. rewrite app_nil_r. exact HD.
    - discriminate.
    - say E.
    - tell E.
  Qed.
End PACKETS.
