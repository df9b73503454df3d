(** The events of a trace against its packets: PSB+ and overflows. *)

From Verif Require Import Base M_packet M_config M_pktdec M_lastip M_time
  M_evq M_event M_evdec S_evq S_evtrace L_evq L_evqpos L_evdec L_evsafe L_evq_rules
  L_evtrace L_evtrace2 L_evtrace3.
From Coq Require Import List NArith ZArith PeanoNat Bool Lia ZifyBool ZifyNat ZifyN.
Import ListNotations.
Open Scope nat_scope.

(** Packets without conditional branches. *)
Definition branchless (ps : list packet) : Prop := tnts (flows ps) = [].
Lemma branchless_nil : branchless [].
Proof. reflexivity. Qed.
Lemma branchless_snoc ps p : branchless ps -> tnts (flow_of_packet p) = [] -> branchless (ps ++ [p]).
Proof. unfold branchless. intros H1 H2. rewrite flows_app, flows_one, tnts_app, H1, H2. reflexivity. Qed.
Lemma branchless_app ps qs : branchless qs -> tnts (flows (ps ++ qs)) = tnts (flows ps).
Proof. unfold branchless. intros H. rewrite flows_app, tnts_app, H, app_nil_r. reflexivity. Qed.

Section PSB.
  Context (cf : config) (pd0 : pktdec).
  Hypothesis conf : pd_config pd0 = cf.

  Notation strict := (no_skipping cf).
  Notation P := (P cf).
  Notation Here := (Here cf pd0).
  Notation Done := (Done cf pd0).
  Notation Dead := (Dead cf pd0).
  Notation Live := (Live cf pd0).
  Notation Out := (Out cf pd0).
  Notation Post := (Post cf pd0).
  Notation Failed := (Failed cf pd0).

  Ltac p_step :=
    lazymatch goal with
    | |- pwp (sbind _ _) _ _ _ => apply p_bind
    | |- pwp (ret _) _ _ _ => apply p_ret
    | |- pwp (fail _) _ _ _ => apply p_fail
    | |- pwp get _ _ _ => apply p_get
    | |- pwp (modify _) _ _ _ => apply p_modify
    | |- pwp (publish _) _ _ _ => apply p_publish
    | |- pwp (standalone _) _ _ _ => apply p_standalone
    | |- pwp (jump _ _ _ _) _ _ _ => apply p_jump
    | |- pwp (read_event Alone) _ _ _ => apply p_read_alone
    | |- pwp (write_event Alone _) _ _ _ => apply p_write_alone
    | |- pwp (read_event (Slot ?i)) _ _ _ => eapply p_read_held; [sd; eassumption |]
    | |- pwp (write_event (Slot ?i) _) _ _ _ =>
        eapply (p_write_held (P _)); [sd; eassumption | sd; eassumption | intros ? ? ?; sd]
    | |- pwp (finish _ _) _ _ _ => unfold finish
    | |- pwp (if ?b then _ else _) _ _ _ => destruct b eqn:?
    end.
  Ltac fail_ := apply failed; discriminate.
  Ltac go H := pose proof H as (Hr & Hp & Hq & Ht & Hs).

  Lemma here_fs fs fs' ps p d : Here fs ps p d -> tnts fs' = tnts fs -> (strict -> fs' = fs) ->
    Here fs' ps p d.
  Proof.
    intros H H1 H2. go H. split; [exact Hr|]. split; [exact Hp|]. split; [exact Hq|].
    split; [congruence|]. intros S. rewrite (H2 S). auto.
  Qed.

  (** ** PSBEND *)

  Lemma end_after ps p : psb_end (pkt_pl p) = true ->
    h_time (hw_after cf (ps ++ [p])) = h_time (hw_after cf ps) /\
    h_ip (hw_after cf (ip_packets (ps ++ [p]))) = h_ip (hw_after cf ps).
  Proof.
    intros H. unfold ip_packets. rewrite last_snoc, removelast_last, after_snoc. unfold hw_step.
    destruct (pkt_pl p) eqn:E; try discriminate H; cbn [is_ovf]; [|split; reflexivity].
    rewrite after_snoc. unfold hw_step. rewrite E. split; reflexivity.
  Qed.

  Lemma psbend_t fs ps p d : Here fs ps p d -> psb_end (pkt_pl p) = true ->
    pwp pt_evt_decode_psbend
        (fun more d' => if more : bool then d' = d else Post fs (ps ++ [p]) false d') (Failed fs) d.
  Proof.
    intros H He. go H. unfold pt_evt_decode_psbend.
    assert (Hf : flow_of_packet p = [])
      by (unfold flow_of_packet; destruct (pkt_pl p); try discriminate He; reflexivity).
    assert (Hipp : ipp (pkt_pl p) = false) by (destruct (pkt_pl p); try discriminate He; reflexivity).
    p_step. eapply (p_dequeue (P _)); [exact Hq| |p_step; reflexivity].
    intros b e q' i HP Hb Hq' Hh _. p_step. p_step. p_step. p_step. p_step. p_step. sd.
    assert (Hout : forall e' d', tnts (flow_of_event e') = [] -> (strict -> flow_of_event e' = []) -> (strict -> stamped cf (ps ++ [p]) e') ->
      queued (P (ps ++ [p])) (ed_evq d') -> held (ed_evq d') i e' -> ed_event d' = Some (Slot i) ->
      ed_pd d' = ed_pd d -> ed_pkt d' = ed_pkt d -> ed_ip d' = ed_ip d -> ed_time d' = ed_time d ->
      ed_tcal d' = ed_tcal d -> ed_status d' = ed_status d -> ed_bound d' = ed_bound d ->
      Post fs (ps ++ [p]) false d').
    { intros e' d' Hn Hn2 Hst Hq2 Hh2 Hev E1 E2 E3 E4 E5 E6 E7.
      eapply (out_here cf pd0 fs ps p _ e' d' eq_refl); auto.
      - apply (here_fs fs); [|rewrite tnts_app, Hn; apply app_nil_r|
          intros S; rewrite (Hn2 S); apply app_nil_r].
        apply (here_same cf pd0 fs ps p d); auto.
      - rewrite Hf. reflexivity.
      - right. exists i. auto. }
    assert (Hfacts : strict -> is_overflow (ev_var e) = false -> ev_has_tsc e = false /\
      (forall ip, source (ev_var e) = Some ip -> sourced cf (ps ++ [p]) ip) /\
      Forall (prior (ps ++ [p])) (pieces (ev_var e))).
    { intros S Ho. apply (P_facts cf _ _ _ _ HP Hb eq_refl S Ho). }
    destruct (end_after ps p He) as (T1 & T2).
    assert (Hst : forall v, ev_var e = v -> address v <> None -> is_overflow v = false ->
      (strict -> bears e (pkt_pl p) = true) -> strict ->
      stamped cf (ps ++ [p]) (event_time (ed_time d) (event_ip (ed_ip d) e))).
    { intros v Ev Ha Ho Hbr S. subst v. destruct (Hfacts S Ho) as (F1 & F2 & F3).
      destruct (Hs S) as (S1 & S2 & S3 & S4 & S5 & S6).
      apply stamped_ip; auto.
      - congruence.
      - rewrite T2. destruct S4 as [S4|[S4 _]]; [exact S4|congruence]. }
    assert (Hquiet : quiet e (pkt_pl p) = true -> is_overflow (ev_var e) = false ->
      source (ev_var e) = None ->
      (strict -> bears e (pkt_pl p) = true) -> strict -> stamped cf (ps ++ [p]) (event_time (ed_time d) e)).
    { intros G1 Ho G2 Hbr S. destruct (Hfacts S Ho) as (F1 & F2 & F3).
      destruct (Hs S) as (S1 & S2 & S3 & S4 & S5 & S6). apply stamped_quiet; auto; congruence. }
    assert (Hflow : forall v, ev_var e = v -> no_flow v = true ->
      flow_of_event (event_time (ed_time d) (event_ip (ed_ip d) e)) = []).
    { intros v <- Hn. apply no_flow_event. rewrite event_time_var.
      destruct (event_ip_var (ed_ip d) e) as (a & ->). destruct (ev_var e); auto. }
    assert (Hb' : forall v, ev_var e = v ->
      match v with
      | Ev_exec_mode _ _ | Ev_iflags _ _ | Ev_tsx _ _ _ | Ev_async_paging _ _ _
      | Ev_async_vmcs _ _ | Ev_cbr _ | Ev_mnt _ => bears e (pkt_pl p) = true
      | Ev_enabled _ _ => ev_status_update e = true -> bears e (pkt_pl p) = true
      | Ev_disabled _ => ev_status_update e = true -> bears e (pkt_pl p) = true
      | _ => True
      end).
    { intros v Ev. unfold bears. rewrite Ev. destruct (pkt_pl p); try discriminate He; destruct v; auto;
        intros ->; reflexivity. }
    specialize (Hb' _ eq_refl).
    destruct (ev_var e) eqn:Ev; try fail_;
      try (repeat p_step; eapply Hout; try reflexivity; try (sd; eassumption);
           [erewrite Hflow; reflexivity|intros _; eapply Hflow; reflexivity|
            eapply Hst; [reflexivity|discriminate|reflexivity|auto]]).
    - (* enabled *)
      assert (Hsu : strict -> ev_status_update e = true).
      { intros S. destruct HP as (_ & HP). destruct (HP S) as (F1 & F2 & _). rewrite Ev in F2. exact F2. }
      repeat p_step. eapply Hout; try reflexivity; try (sd; eassumption).
      + unfold flow_of_event. rewrite event_time_var, event_time_status.
        destruct (event_ip_var (ed_ip d) e) as (a & ->). rewrite Ev. cbn [var_set_ip].
        destruct (ev_status_update (event_ip (ed_ip d) e)); reflexivity.
      + intros S. unfold flow_of_event. rewrite event_time_var, event_time_status.
        destruct (event_ip_var (ed_ip d) e) as (a & ->).
        destruct (event_ip_rest (ed_ip d) e) as (_ & -> & _). rewrite Ev, (Hsu S). reflexivity.
      + eapply Hst; [reflexivity|discriminate|reflexivity|auto].
    - (* disabled *)
      repeat p_step. eapply Hout; try reflexivity; try (sd; eassumption).
      + unfold flow_of_event. rewrite event_time_var, Ev. reflexivity.
      + unfold flow_of_event. rewrite event_time_var, Ev. reflexivity.
      + intros S. destruct HP as (_ & HP). destruct (HP S) as (F1 & F2 & _). rewrite Ev in F2.
        apply Hquiet; auto. unfold quiet. rewrite (proj2 F2). reflexivity. intros _. apply Hb'. apply F2.
    - (* CBR *)
      repeat p_step. eapply Hout; try reflexivity; try (sd; eassumption).
      + unfold flow_of_event. rewrite event_time_var, Ev. reflexivity.
      + unfold flow_of_event. rewrite event_time_var, Ev. reflexivity.
      + apply Hquiet; auto. unfold quiet. rewrite Ev, !orb_true_r. reflexivity.
    - (* MNT *)
      repeat p_step. eapply Hout; try reflexivity; try (sd; eassumption).
      + unfold flow_of_event. rewrite event_time_var, Ev. reflexivity.
      + unfold flow_of_event. rewrite event_time_var, Ev. reflexivity.
      + apply Hquiet; auto. unfold quiet. rewrite Ev, !orb_true_r. reflexivity.
  Qed.

  (** ** PSB+ *)

  Definition first_event : event := set_status_update zero_event.

  (** Between two packets of PSB+. *)
  Definition Head (fs : list flow) (ps : list packet) (slot : nat) (d : evdec) : Prop :=
    reads pd0 ps (ed_pd d) /\ inq (P ps) (ed_evq d) slot evb_psbend first_event /\
    tnts fs = tnts (flows ps) /\
    (strict -> stat d /\ HW (hw_after cf ps) d /\ h_psb (hw_after cf ps) = true /\
               fs = flows ps /\ ed_bound d = false).
  (** At a packet of PSB+. *)
  Definition Header (fs : list flow) (ps : list packet) (p : packet) (slot : nat) (d : evdec) : Prop :=
    reads pd0 (ps ++ [p]) (ed_pd d) /\ inq (P (ps ++ [p])) (ed_evq d) slot evb_psbend first_event /\
    tnts fs = tnts (flows ps) /\
    (strict -> stat d /\ HW (hw_after cf ps) d /\ h_psb (hw_after cf ps) = true /\
               fs = flows ps /\ ed_bound d = false).

  Lemma head_inert fs ps p slot d d' : Header fs ps p slot d -> inert (pkt_pl p) = true ->
    flow_of_packet p = [] -> inq (P (ps ++ [p])) (ed_evq d') slot evb_psbend first_event ->
    ed_pd d' = ed_pd d -> ed_ip d' = ed_ip d -> ed_time d' = ed_time d ->
    ed_tcal d' = ed_tcal d -> ed_status d' = ed_status d -> ed_bound d' = ed_bound d ->
    Head fs (ps ++ [p]) slot d'.
  Proof.
    intros (Hr & Hi & Ht & Hs) Hin Hf Hi' E1 E3 E4 E5 E6 E7.
    split; [rewrite E1; exact Hr|]. split; [exact Hi'|].
    rewrite flows_app, flows_one, Hf, app_nil_r. split; [exact Ht|].
    rewrite (hw_inert cf p ps Hin). unfold stat, HW. rewrite E3, E4, E5, E6, E7. exact Hs.
  Qed.

  Lemma head_timing fs ps p slot d f (Q : unit -> evdec -> Prop) : Header fs ps p slot d ->
    steps_to cf true (pkt_pl p) f -> flow_of_packet p = [] ->
    (forall d', Head fs (ps ++ [p]) slot d' -> Q tt d') -> pwp (timing f) Q (Failed fs) d.
  Proof.
    intros (Hr & Hi & Ht & Hs) Hf Hfl HQ. apply p_timing.
    - intros t l Et. apply HQ. split; [exact Hr|]. split; [exact Hi|].
      rewrite flows_app, flows_one, Hfl, app_nil_r. split; [exact Ht|].
      intros S. destruct (Hs S) as (S1 & (S2 & S3 & S4) & S5 & S6 & S7).
      rewrite (config_is cf pd0 conf _ _ Hr) in Et. destruct (Hf _ _ _ _ _ Et) as (_ & Hst).
      specialize (Hst eq_refl (h_ip (hw_after cf ps))).
      rewrite after_snoc. change (hw_step cf (hw_after cf ps) p)
        with (hw_step cf (hw_after cf ps) (mk_packet (pkt_pl p) 0)).
      replace (hw_after cf ps) with (mk_hw true (h_ip (hw_after cf ps)) (ed_time d) (ed_tcal d))
        by (rewrite S3, S4, <- S5; destruct (hw_after cf ps); reflexivity).
      rewrite Hst. split; [exact S1|]. split; [|split; [reflexivity|split; [exact S6|exact S7]]].
      split; [exact S2|split; reflexivity].
    - intros t l e Et. apply failed. intros ->.
      rewrite (config_is cf pd0 conf _ _ Hr) in Et. destruct (Hf _ _ _ _ _ Et) as (Hst & _). congruence.
  Qed.

  Lemma head_enqueue fs ps slot d e (Q : unit -> evdec -> Prop) : Head fs ps slot d ->
    P ps evb_psbend e -> (forall d', Head fs ps slot d' -> Q tt d') ->
    pwp (enqueue evb_psbend e) Q (Failed fs) d.
  Proof.
    intros (Hr & Hi & Ht & Hs) He HQ.
    eapply (p_enqueue (P _)); [apply (inq_queued _ _ _ _ _ Hi)|exact He| |fail_].
    intros q' (G1 & G2 & G3) _. apply HQ. split; [exact Hr|]. split; [apply G3; exact Hi|].
    split; [exact Ht|exact Hs].
  Qed.

  Ltac say E :=
    intros; unfold bears, flow_of_packet, flow_of_event, quiet, counted_trigger, of_cfe, of_cfe_vector, of_evd;
    rewrite ?E; cbn; rewrite ?N.eqb_refl, ?eqb_reflx, ?app_nil_r; reflexivity.
  Ltac tell E := intros _; cbn [ev_var new_event set_status_update set_suppressed pieces of_evd_opt app];
    repeat constructor; apply prior_here; say E.
  Ltac new_ E := apply P_plain; [reflexivity | reflexivity | reflexivity | tell E].
  Ltac inert_ H E := eapply head_inert; [exact H|rewrite E; reflexivity|say E|apply H|reflexivity..].

  Lemma header_fup_t fs ps p slot ip d (Q : unit -> evdec -> Prop) : Header fs ps p slot d ->
    pkt_pl p = P_fup ip -> (forall d', Head fs (ps ++ [p]) slot d' -> Q tt d') ->
    pwp (pt_evt_header_fup ip) Q (Failed fs) d.
  Proof.
    intros H E HQ. pose proof H as (Hr & Hi & Ht & Hs). unfold pt_evt_header_fup.
    p_step. p_step. p_step.
    assert (Hk : forall en : bool,
      (strict -> en = negb (ip_ipc ip =? pt_ipc_suppressed)%N) ->
      pwp (run modify (fun d => set_enabled d en); if en then update_ip ip else ret tt) Q (Failed fs) d).
    { intros en Hen. p_step. p_step.
      assert (HD : forall d', ed_pd d' = ed_pd d -> ed_evq d' = ed_evq d -> ed_time d' = ed_time d ->
        ed_tcal d' = ed_tcal d -> ed_status d' = ed_status d -> ed_bound d' = ed_bound d ->
        (strict -> ed_ip d' = h_ip (hw_after cf (ps ++ [p]))) -> Head fs (ps ++ [p]) slot d').
      { intros d' E1 E2 E3 E4 E5 E6 E7. split; [rewrite E1; exact Hr|]. split; [rewrite E2; exact Hi|].
        rewrite flows_app, flows_one. unfold flow_of_packet. rewrite E, app_nil_r. split; [exact Ht|].
        intros S. destruct (Hs S) as (S1 & (S2 & S3 & S4) & S5 & S6 & S7).
        unfold stat, HW. rewrite E3, E4, E5, E6, (E7 S). split; [exact S1|].
        assert (Hh : h_time (hw_after cf (ps ++ [p])) = h_time (hw_after cf ps) /\
                     h_cal (hw_after cf (ps ++ [p])) = h_cal (hw_after cf ps) /\
                     h_psb (hw_after cf (ps ++ [p])) = true).
        { rewrite after_snoc. unfold hw_step. rewrite E.
          destruct (h_psb (hw_after cf ps) && _); auto. }
        destruct Hh as (-> & -> & ->). auto. }
      p_step.
      - apply p_update_ip; [|intros l; fail_]. apply HQ. apply HD; try reflexivity.
        intros S. destruct (Hs S) as (S1 & (S2 & S3 & S4) & S5 & S6 & S7).
        rewrite after_snoc. unfold hw_step. rewrite E, S5.
        specialize (Hen S). destruct (_ =? _)%N; [discriminate|]. cbn [andb h_ip hw_set_ip].
        cbn [ed_ip set_lip set_enabled]. rewrite S2. reflexivity.
      - p_step. apply HQ. apply HD; try reflexivity.
        intros S. destruct (Hs S) as (S1 & (S2 & S3 & S4) & S5 & S6 & S7).
        rewrite after_snoc. unfold hw_step. rewrite E, S5.
        specialize (Hen S). destruct (_ =? _)%N; [|discriminate]. exact S2. }
    rewrite (config_is cf pd0 conf _ _ Hr). destruct (er_bdm70 (cf_errata cf)) eqn:Eer.
    - assert (Hn : ~ strict) by (intros (S & _); congruence).
      p_step. apply p_lift; [|intros e _ S; contradiction].
      intros b Eb. p_step. apply Hk. intros S. contradiction.
    - p_step. apply Hk. reflexivity.
  Qed.

  Lemma header_mode_t fs ps p slot m d (Q : unit -> evdec -> Prop) : Header fs ps p slot d ->
    pkt_pl p = P_mode m -> (forall d', Head fs (ps ++ [p]) slot d' -> Q tt d') ->
    pwp (pt_evt_header_mode m) Q (Failed fs) d.
  Proof.
    intros H E HQ. unfold pt_evt_header_mode. p_step. p_step.
    assert (Hd : forall d', ed_pd d' = ed_pd d -> ed_evq d' = ed_evq d -> ed_time d' = ed_time d ->
        ed_ip d' = ed_ip d -> ed_tcal d' = ed_tcal d -> ed_status d' = ed_status d ->
        ed_bound d' = ed_bound d -> Head fs (ps ++ [p]) slot d').
    { intros. eapply head_inert; try eassumption; [rewrite E; reflexivity|say E|].
      match goal with X : ed_evq _ = _ |- _ => rewrite X end. apply H. }
    destruct m as [csl csd iflag|intx abrt|leaf].
    - assert (Hm : forall m, exec_mode_eqb m m = true) by (intros []; reflexivity).
      assert (Hk : forall d', Head fs (ps ++ [p]) slot d' ->
        pwp (run enqueue evb_psbend
               (set_status_update (new_event (Ev_exec_mode (pt_get_exec_mode csl csd) 0)));
             if cf_enable_iflags_events (ed_config d) then
               enqueue evb_psbend (set_status_update (new_event (Ev_iflags iflag 0)))
             else ret tt) Q (Failed fs) d').
      { intros d' HH. p_step. eapply head_enqueue; [exact HH| |].
        - apply P_plain; try reflexivity. intros _. repeat constructor. apply prior_here.
          rewrite E. apply Hm.
        - intros d2 HH2. p_step; [|p_step; apply HQ; exact HH2].
          eapply head_enqueue; [exact HH2|new_ E|exact HQ]. }
      p_step.
      repeat match goal with |- pwp (if ?b then _ else _) _ _ _ => destruct b end;
        p_step; try fail_; apply Hk; apply Hd; reflexivity.
    - eapply head_enqueue; [apply Hd; reflexivity|new_ E|exact HQ].
    - p_step. apply HQ. apply Hd; reflexivity.
  Qed.

  Definition HeadEnd (fs : list flow) (ps : list packet) (d : evdec) : Prop :=
    exists m p, Here fs (ps ++ m) p d /\ psb_end (pkt_pl p) = true.

  Lemma psb_header_t fuel : forall fs ps slot d, Head fs ps slot d ->
    pwp (psb_header fuel slot) (fun _ d' => HeadEnd fs ps d') (Failed fs) d.
  Proof.
    induction fuel as [|fuel IH]; intros fs ps slot d H; [exact I|]. cbn [psb_header].
    pose proof H as (Hr & Hi & Ht & Hs).
    assert (Hnext : forall qs d', Head fs (ps ++ qs) slot d' ->
      pwp (psb_header fuel slot) (fun _ d' => HeadEnd fs ps d') (Failed fs) d').
    { intros qs d' HH. eapply p_mono; [apply (IH _ _ _ _ HH)| |auto].
      intros _ d2 (m & p & G1 & G2). exists (qs ++ m), p. rewrite app_assoc. auto. }
    p_step. apply p_fetch.
    - intros pads p pd' G1 G2 G3. p_step. p_step. sd.
      set (d1 := set_pkt (set_pd d pd') p).
      assert (HH : Header fs (ps ++ pads) p slot d1).
      { split; [rewrite <- app_assoc; apply (reads_app _ _ _ _ _ Hr G1)|].
        split; [rewrite <- app_assoc; apply inq_more; exact Hi|].
        rewrite flows_app, (pads_flows _ G2), app_nil_r, (pads_after _ _ _ G2). auto. }
      assert (Hd : forall d', Head fs ((ps ++ pads) ++ [p]) slot d' ->
        pwp (psb_header fuel slot) (fun _ d' => HeadEnd fs ps d') (Failed fs) d').
      { intros d' HD. rewrite <- app_assoc in HD. apply (Hnext _ _ HD). }
      clear Hnext IH Hr Hi Ht Hs H. revert Hd. 
      assert (Hpd : ed_pkt d1 = p) by reflexivity.
      change (ed_status d) with (ed_status d1). change (ed_enabled d) with (ed_enabled d1).
      generalize dependent d1. clear d G1. intros d HH Hpd Hd.
      pose proof HH as (Hr & Hi & Ht & Hs).
      assert (Hend : forall d', psb_end (pkt_pl p) = true -> queued (P ((ps ++ pads) ++ [p])) (ed_evq d') ->
        ed_pd d' = ed_pd d -> ed_pkt d' = ed_pkt d -> ed_time d' = ed_time d ->
        ed_ip d' = ed_ip d -> ed_tcal d' = ed_tcal d -> ed_status d' = ed_status d ->
        ed_bound d' = ed_bound d -> HeadEnd fs ps d').
      { intros d' He Hq E1 E2 E3 E4 E5 E6 E7. exists pads, p. split; [|exact He].
        split; [rewrite E1; exact Hr|]. split; [congruence|]. split; [exact Hq|]. split; [exact Ht|].
        intros S. destruct (Hs S) as (S1 & (S2 & S3 & S4) & S5 & S6 & S7). unfold stat.
        rewrite E3, E4, E5, E6, E7, S7. auto 10. }
      destruct (pkt_pl p) eqn:E; try fail_.
      all: try (p_step; first [eapply header_fup_t | eapply header_mode_t]; eassumption).
      all: try (p_step; eapply head_timing; [exact HH|rewrite E|say E|exact Hd];
                first [apply steps_htsc | apply steps_tma | apply steps_mtc | apply steps_cyc]).
      all: try (p_step; eapply head_enqueue; [inert_ HH E|new_ E|exact Hd]).
      + (* invalid *)
        destruct (ed_status d) as [e|] eqn:Est; [|apply Hd; inert_ HH E].
        p_step. intros S. left. destruct (Hs S) as ([S1|S1] & _); congruence.
      + (* PAD *) apply Hd. inert_ HH E.
      + (* PSBEND *)
        p_step. eapply (p_read_inq (P _)); [exact Hi|]. p_step.
        eapply (p_write_inq (P _)); [exact Hi| |].
        * destruct (ed_enabled d); (split; [reflexivity|]); intros S; repeat split; auto; try discriminate;
            try (left; reflexivity); constructor.
        * intros q' K1 K2 K3. p_step. eapply Hend; auto; reflexivity.
      + (* CBR *)
        p_step. unfold pt_evt_header_cbr. p_step.
        eapply head_timing; [exact HH|rewrite E; apply steps_hcbr|say E|].
        intros d' HD. eapply head_enqueue; [exact HD|new_ E|exact Hd].
      + (* OVF *)
        p_step.
        * p_step. eapply (p_read_inq (P _)); [exact Hi|]. p_step.
          eapply (p_write_inq (P _)); [exact Hi| |].
          -- split; [reflexivity|]; intros S; repeat split; auto; try discriminate;
              try (left; reflexivity); constructor.
          -- intros q' K1 K2 K3. p_step. eapply Hend; auto; reflexivity.
        * p_step. eapply (p_dequeue (P _)); [apply (inq_queued _ _ _ _ _ Hi)| |fail_].
          intros b e q' i HP Hb Hq' Hh _. p_step; [|fail_]. p_step. eapply Hend; auto; reflexivity.
    - intros pads e pd' G1 G2 G3. p_step. p_step. sd. cbn [pkt_pl]. p_step.
      intros S. right. exists (ps ++ pads).
      split; [apply (reads_app _ _ _ _ _ Hr G1)|]. split; [sd; rewrite G3; reflexivity|].
      rewrite flows_app, (pads_flows _ G2), app_nil_r. apply (Hs S).
  Qed.

  Lemma psb_t fs ps p d : Here fs ps p d -> pkt_pl p = P_psb ->
    pwp pt_evt_decode_psb (fun _ d' => HeadEnd fs (ps ++ [p]) d') (Failed fs) d.
  Proof.
    intros H E. go H. unfold pt_evt_decode_psb. p_step. p_step. p_step; [fail_|].
    p_step. p_step. p_step. eapply (p_enqueue (P _)); [exact Hq| | |fail_].
    - split; [reflexivity|]. intros S. repeat split; auto; try discriminate; try (left; reflexivity).
    - intros q' (G1 & G2 & G3) Hi. apply psb_header_t.
      split; [exact Hr|]. split; [exact Hi|].
      rewrite flows_app, flows_one. unfold flow_of_packet. rewrite E, app_nil_r. split; [exact Ht|].
      intros S. destruct (Hs S) as (S1 & S2 & S3 & S4 & S5 & S6).
      split; [exact S1|]. rewrite after_snoc. unfold hw_step. rewrite E.
      split; [repeat split; assumption|]. split; [reflexivity|].
      assert (Hb : ed_bound d = false) by (apply (bound_inert cf pd0 fs ps p d H); [rewrite E; reflexivity|exact S]).
      rewrite Hb in S6. split; [exact S6|exact Hb].
  Qed.

  (** ** Overflows, with errata *)

  (** Look-aheads find packets that can be read. *)
  Definition ahead (pd : pktdec) (qs : list packet) (pd' : pktdec) : Prop :=
    reads pd qs pd' /\ branchless qs.
  Lemma ahead_nil pd : ahead pd [] pd.
  Proof. split; [constructor|reflexivity]. Qed.
  Lemma ahead_snoc pd qs pd1 pd2 p : ahead pd qs pd1 -> pt_pkt_next pd1 = (pd2, Ok p) ->
    tnts (flow_of_packet p) = [] -> ahead pd (qs ++ [p]) pd2.
  Proof.
    intros (H1 & H2) H3 H4. split; [apply (reads_snoc _ _ _ _ _ H1 H3)|apply branchless_snoc; assumption].
  Qed.

  Definition skd_pos (r : skd010_result) : option (pktdec * packet) :=
    match r with
    | Skd_none => None
    | Skd_pgd pd p _ _ | Skd_fup pd p _ _ _ _ | Skd_tip pd p _ _ _ | Skd_psb pd p _ _ _ => Some (pd, p)
    end.
  Lemma skd010_ahead pd s fuel on_err r pd' p :
    (forall e x, on_err e = Ok x -> skd_pos x = None) ->
    scan_packets fuel skd010_step on_err pd s = Ok r -> skd_pos r = Some (pd', p) ->
    exists qs, ahead pd (qs ++ [p]) pd'.
  Proof.
    intros Herr.
    apply (scan_partial skd010_step on_err (fun _ pd1 => exists qs, ahead pd qs pd1)
             (fun res => res = Ok r -> skd_pos r = Some (pd', p) -> exists qs, ahead pd (qs ++ [p]) pd')).
    - intros [[t l] tsx] pd1 pd2 pk (qs & Hqs) En. unfold skd010_step.
      assert (Hgo : tnts (flow_of_packet pk) = [] -> exists qs, ahead pd qs pd2).
      { intros Hf. eexists. apply (ahead_snoc _ _ _ _ _ Hqs En Hf). }
      assert (Hstop : forall r0, skd_pos r0 = None -> Ok r0 = Ok r -> skd_pos r = Some (pd', p) ->
        exists qs, ahead pd (qs ++ [p]) pd') by (intros r0 G1 G2 G3; congruence).
      assert (Hat : forall r0, skd_pos r0 = Some (pd2, pk) -> tnts (flow_of_packet pk) = [] ->
        Ok r0 = Ok r -> skd_pos r = Some (pd', p) -> exists qs, ahead pd (qs ++ [p]) pd').
      { intros r0 G1 Hf G2 G3. injection G2 as ->. rewrite G1 in G3. injection G3 as -> ->.
        exists qs. apply (ahead_snoc _ _ _ _ _ Hqs En Hf). }
      assert (Hnf : forall pl, pkt_pl pk = pl ->
        match pl with P_tnt_8 _ | P_tnt_64 _ => True | _ => tnts (flow_of_packet pk) = [] end).
      { intros pl Ep. unfold flow_of_packet. rewrite Ep. destruct pl; auto. }
      specialize (Hnf _ eq_refl).
      destruct (pkt_pl pk) eqn:Epl;
        try (apply Hgo; exact Hnf); try (apply Hstop; reflexivity);
        try (eapply Hat; [reflexivity|exact Hnf]);
        try (match goal with |- context [if ?b then _ else _] => destruct b end;
             first [apply Hgo; exact Hnf | apply Hstop; reflexivity]);
        try (cbn [apply_time_packet];
             match goal with |- context [match ?f with (_, _) => _ end] => destruct f as [[? ?] [?|?|?]] end;
             first [apply Hgo; exact Hnf | discriminate]);
        try discriminate.
      + destruct (pt_evt_find_header_fup pd2) as [[ip|]|[]|u]; try discriminate;
          first [apply Hstop; reflexivity | eapply Hat; [reflexivity|exact Hnf]].
      + destruct mode; try (apply Hgo; exact Hnf). destruct tsx; [apply Hstop; reflexivity|apply Hgo; exact Hnf].
    - intros s1 pd1 e _ He Hx. rewrite (Herr _ _ He) in Hx. discriminate.
    - discriminate.
    - exists []. apply ahead_nil.
  Qed.

  Lemma apl11_ahead pd s fuel on_err pd' p t l :
    (forall e x, on_err e <> Ok (Some x)) ->
    scan_packets fuel apl11_step on_err pd s = Ok (Some (pd', p, t, l)) ->
    exists qs, ahead pd (qs ++ [p]) pd'.
  Proof.
    intros Herr.
    apply (scan_partial apl11_step on_err (fun _ pd1 => exists qs, ahead pd qs pd1)
             (fun res => res = Ok (Some (pd', p, t, l)) -> exists qs, ahead pd (qs ++ [p]) pd')).
    - intros [t1 l1] pd1 pd2 pk (qs & Hqs) En. unfold apl11_step.
      assert (Hgo : tnts (flow_of_packet pk) = [] -> exists qs, ahead pd qs pd2).
      { intros Hf. eexists. apply (ahead_snoc _ _ _ _ _ Hqs En Hf). }
      assert (Hnf : forall pl, pkt_pl pk = pl ->
        match pl with P_tnt_8 _ | P_tnt_64 _ => True | _ => tnts (flow_of_packet pk) = [] end).
      { intros pl Ep. unfold flow_of_packet. rewrite Ep. destruct pl; auto. }
      specialize (Hnf _ eq_refl).
      destruct (pkt_pl pk) eqn:Epl; try discriminate; try (apply Hgo; exact Hnf);
        try (cbn [apply_time_packet];
             match goal with |- context [match ?f with (_, _) => _ end] => destruct f as [[? ?] [?|?|?]] end;
             first [apply Hgo; exact Hnf | discriminate]).
      intros G. injection G as -> -> -> ->. exists qs. apply (ahead_snoc _ _ _ _ _ Hqs En Hnf).
    - intros s1 pd1 e _ He. destruct (Herr _ _ He).
    - discriminate.
    - exists []. apply ahead_nil.
  Qed.

  (** The packets up to the FUP. *)
  Fixpoint bytes (qs : list packet) : N :=
    match qs with [] => 0 | p :: qs => N.of_nat (pkt_size p) + bytes qs end%N.
  Lemma bytes_app a b : bytes (a ++ b) = (bytes a + bytes b)%N.
  Proof. induction a; cbn; [reflexivity|]. rewrite IHa. apply N.add_assoc. Qed.

  Lemma ovf_fup_ahead pd o : pt_evt_find_ovf_fup pd = Ok o -> (o <> 0)%N ->
    exists qs pd', ahead pd qs pd' /\ bytes qs = o /\ Forall (fun p => pkt_size p <> 0) qs.
  Proof.
    unfold pt_evt_find_ovf_fup.
    apply (scan_partial ovf_fup_step (fun e => Err e)
      (fun s pd1 => exists qs, ahead pd qs pd1 /\ bytes qs = s /\ Forall (fun p => pkt_size p <> 0) qs)
      (fun res => res = Ok o -> (o <> 0)%N ->
        exists qs pd', ahead pd qs pd' /\ bytes qs = o /\ Forall (fun p => pkt_size p <> 0) qs)).
    - intros s pd1 pd2 pk (qs & Hqs & Hb & Hz) En. unfold ovf_fup_step.
      destruct (Nat.eqb (pkt_size pk) 0) eqn:Ez; [discriminate|]. apply Nat.eqb_neq in Ez.
      destruct (_ <? _)%N; [discriminate|].
      assert (Hnf : forall pl, pkt_pl pk = pl ->
        match pl with P_tnt_8 _ | P_tnt_64 _ => True | _ => tnts (flow_of_packet pk) = [] end).
      { intros pl Ep. unfold flow_of_packet. rewrite Ep. destruct pl; auto. }
      specialize (Hnf _ eq_refl).
      assert (Hgo : tnts (flow_of_packet pk) = [] ->
        ahead pd (qs ++ [pk]) pd2 /\ bytes (qs ++ [pk]) = (s + N.of_nat (pkt_size pk))%N /\
        Forall (fun p => pkt_size p <> 0) (qs ++ [pk])).
      { intros Hf. split; [apply (ahead_snoc _ _ _ _ _ Hqs En Hf)|].
        split; [rewrite bytes_app, Hb; cbn; lia|apply Forall_app; auto]. }
      destruct (pkt_pl pk) eqn:Epl; try (exists (qs ++ [pk]); apply Hgo; exact Hnf); try discriminate;
        try (intros G1 G2; congruence).
      intros G _. injection G as <-. exists (qs ++ [pk]), pd2. apply Hgo. exact Hnf.
    - discriminate.
    - discriminate.
    - exists []. split; [apply ahead_nil|]. split; [reflexivity|constructor].
  Qed.

  (** Without the strict part. *)
  Lemma loose_post fs ps qs more d : Post fs (ps ++ qs) more d -> Post fs ps more d.
  Proof.
    unfold L_evtrace.Post. destruct more.
    - intros (m & H). exists (qs ++ m). rewrite app_assoc. exact H.
    - intros (m & e & H). exists (qs ++ m), e. rewrite app_assoc. exact H.
  Qed.
  Lemma loose_out fs ps qs e d F : ~ strict -> flow_of_event e = [] -> Done fs (ps ++ qs) d -> Pub d e ->
    pwp pt_evt_fetch_packet (fun more d' => more = false /\ Post fs ps false d') F d.
  Proof.
    intros Hn Hf HD HP. eapply (p_mono _ _ _ F); [apply (fetch_out cf pd0 fs (ps ++ qs) e)| |auto].
    - rewrite Hf, app_nil_r. exact HD.
    - intros S. contradiction.
    - exact HP.
    - intros S. contradiction.
    - intros more d' (-> & HO). split; [reflexivity|]. apply (loose_post _ _ qs). exists [], e.
      rewrite app_nil_r. exact HO.
  Qed.
  Lemma loose_done fs ps d qs d' : ~ strict -> Done fs ps d -> ahead (ed_pd d) qs (ed_pd d') ->
    queued (P (ps ++ qs)) (ed_evq d') -> Done fs (ps ++ qs) d'.
  Proof.
    intros Hn (Hr & Hq & Ht & Hs) (Ha & Hb) Hq'. split; [apply (reads_app _ _ _ _ _ Hr Ha)|].
    split; [exact Hq'|]. split; [rewrite (branchless_app _ _ Hb); exact Ht|]. intros S. contradiction.
  Qed.
  Lemma branchless_first qs p : branchless (qs ++ [p]) -> branchless qs.
  Proof.
    unfold branchless. rewrite flows_app, tnts_app. intros H. apply app_eq_nil in H. apply H.
  Qed.
  Lemma loose_here fs ps qs p e d : ~ strict -> Done fs (ps ++ qs ++ [p]) d -> branchless (qs ++ [p]) ->
    ed_pkt d = p -> flow_of_event e = [] -> Pub d e -> Post fs ps false d.
  Proof.
    intros Hn (Hr & Hq & Ht & Hs) Hb Hp Hf HP. exists (qs ++ [p]), e.
    split; [exact HP|]. rewrite Hf, app_nil_r. split; [exact Ht|].
    split; [intros S; contradiction|]. exists []. right. exists (ps ++ qs), p.
    split; [rewrite app_nil_r; apply app_assoc|].
    split; [rewrite <- app_assoc; exact Hr|]. split; [exact Hp|].
    split; [rewrite <- app_assoc; exact Hq|].
    split; [|intros S; contradiction].
    rewrite Ht, !branchless_app; auto. apply (branchless_first _ _ Hb).
  Qed.

  Lemma overflow_ip_flow l t : flow_of_event (event_ip l (event_time t (new_event (Ev_overflow 0)))) = [].
  Proof.
    unfold flow_of_event. destruct (event_ip_var l (event_time t (new_event (Ev_overflow 0)))) as (ip & ->).
    rewrite event_time_var. reflexivity.
  Qed.

  Lemma at_ip_t fs ps d qs pd p ip t l : ~ strict -> Done fs ps d -> ahead (ed_pd d) (qs ++ [p]) pd ->
    pwp (pt_evt_recover_ovf_at_ip pd p ip t l)
        (fun more d' => more = false /\ Done fs (ps ++ qs ++ [p]) d' /\ ed_pkt d' = p /\
           exists e, flow_of_event e = [] /\ Pub d' e) (Failed fs) d.
  Proof.
    intros Hn HD Ha. unfold pt_evt_recover_ovf_at_ip. p_step. apply p_update_ip; [|intros; fail_].
    repeat p_step. split; [reflexivity|]. split; [|split; [reflexivity|]].
    - apply (loose_done fs ps d); auto. apply queued_more. apply HD.
    - eexists. split; [|left; split; reflexivity]. apply overflow_ip_flow.
  Qed.

  Notation Again d := (fun (more : bool) d' => if more then d' = d else Post _ _ false d').
  Lemma skd010_t fs ps d : ~ strict -> Done fs ps d ->
    pwp pt_evt_handle_skd010 (fun more d' => if more : bool then d' = d else Post fs ps false d')
        (Failed fs) d.
  Proof.
    intros Hn HD. unfold pt_evt_handle_skd010. p_step. p_step. p_step.
    apply p_lift; [|intros e _ S; contradiction]. intros r Er.
    assert (Hpos : forall pd p, skd_pos r = Some (pd, p) -> exists qs, ahead (ed_pd d) (qs ++ [p]) pd).
    { intros pd p Hp. eapply skd010_ahead; [|exact Er|exact Hp].
      intros e x He. destruct e; try discriminate He. injection He as <-. reflexivity. }
    assert (Hend : forall d', (exists qs e, Done fs (ps ++ qs) d' /\ flow_of_event e = [] /\ Pub d' e) ->
       pwp pt_evt_fetch_packet (fun more d' => if more : bool then d' = d else Post fs ps false d') (Failed fs) d').
    { intros d' (qs & e & HD' & He & HP).
      eapply p_mono; [apply (loose_out fs ps qs e d' (Failed fs)); assumption| |auto].
      intros more d2 (-> & H). exact H. }
    destruct r as [|pd p t l|pd p ip tsx t l|pd p ip t l|pd p ip t l].
    - p_step. reflexivity.
    - destruct (Hpos _ _ eq_refl) as (qs & Ha). unfold pt_evt_recover_ovf_disabled. repeat p_step.
      apply Hend. eexists (qs ++ [p]), _. split; [|split; [|left; split; reflexivity]].
      + apply (loose_done fs ps d); auto. apply queued_more. apply HD.
      + reflexivity.
    - destruct (Hpos _ _ eq_refl) as (qs & Ha). p_step. p_step. p_step.
      assert (Hk : forall d1, Done fs ps d1 -> ed_pd d1 = ed_pd d ->
        pwp (pt_evt_recover_ovf_at_ip pd p ip t l)
          (fun more d' => if more : bool then d' = d else Post fs ps false d') (Failed fs) d1).
      { intros d1 HD1 E1. rewrite <- E1 in Ha. eapply p_mono; [apply (at_ip_t fs ps d1 qs); assumption| |auto].
        intros more d' (-> & HD' & Hp & e & He & HP).
        eapply (loose_here fs ps qs p e); eauto. apply Ha. }
      destruct HD as (Hr & Hq & Ht & Hs). destruct tsx as [[intx abrt]|].
      + eapply (p_enqueue (P ps)); [exact Hq| | |fail_].
        * split; [reflexivity|]. intros S. contradiction.
        * intros q' (Hq' & _) _. apply Hk; [|reflexivity].
          split; [exact Hr|]. split; [exact Hq'|]. split; [exact Ht|]. intros S. contradiction.
      + p_step. apply Hk; [|reflexivity]. split; [exact Hr|]. split; [exact Hq|]. split; [exact Ht|].
        intros S. contradiction.
    - destruct (Hpos _ _ eq_refl) as (qs & Ha). p_step.
      eapply p_mono; [apply (at_ip_t fs ps d qs); assumption| |auto].
      intros more d' (-> & HD' & Hp & e & He & HP). apply Hend. eauto.
    - destruct (Hpos _ _ eq_refl) as (qs & Ha).
      eapply p_mono; [apply (at_ip_t fs ps d qs); assumption| |auto].
      intros more d' (-> & HD' & Hp & e & He & HP). eapply (loose_here fs ps qs p e); eauto. apply Ha.
  Qed.

  Lemma apl11_t fs ps d : ~ strict -> Done fs ps d ->
    pwp pt_evt_handle_apl11 (fun more d' => if more : bool then d' = d else Post fs ps false d')
        (Failed fs) d.
  Proof.
    intros Hn HD. unfold pt_evt_handle_apl11. p_step. p_step. p_step.
    apply p_lift; [|intros e _ S; contradiction]. intros [[[[pd p] t] l]|] Er; [|p_step; reflexivity].
    eapply apl11_ahead in Er; [destruct Er as (qs & Ha)|intros e x; discriminate].
    unfold pt_evt_recover_ovf_disabled. repeat p_step.
    eapply p_mono; [eapply (loose_out fs ps (qs ++ [p]) _ _ (Failed fs))| |auto].
    - exact Hn.
    - shelve.
    - apply (loose_done fs ps d); auto. apply queued_more. apply HD.
    - left; split; reflexivity.
    - intros more d2 (-> & H). exact H.
    Unshelve. reflexivity.
  Qed.

  Lemma at_offset_t fs fuel : ~ strict -> forall qs ps d pd', Done fs ps d -> ahead (ed_pd d) qs pd' ->
    Forall (fun p => pkt_size p <> 0) qs -> qs <> [] ->
    pwp (ovf_at_offset fuel (bytes qs)) (fun more d' => more = false /\ Post fs ps false d') (Failed fs) d.
  Proof.
    intros Hn. clear conf. induction fuel as [|fuel IH]; intros qs ps d pd' HD (Ha & Hb) Hz Hne; [exact I|].
    destruct qs as [|q qs]; [congruence|]. inversion Ha as [|? pd1 ? ? ? Hnext Hrest]; subst.
    inversion Hz as [|? ? Hzq Hzs]; subst.
    cbn [ovf_at_offset]. p_step. unfold with_pd, pwp at 1. rewrite Hnext. cbn [fst snd].
    fold (pwp (sbind (modify (fun d => set_pkt d q)) (fun _ =>
      let size := N.of_nat (pkt_size q) in
      if (bytes (q :: qs) <=? size)%N then
        if (bytes (q :: qs) <? size)%N then fail pte_internal else
        standalone_now (set_suppressed (new_event (Ev_overflow 0)) true)
      else
      let offset := (bytes (q :: qs) - size)%N in
      match pkt_pl q with
      | P_mode _ | P_pip _ _ | P_vmcs _ | P_invalid | P_unknown _ => fail pte_internal
      | pl =>
          run timing (fun c t l => match apply_time_packet c t l pl with
                                   | Some r => r
                                   | None => (t, l, Ok tt)
                                   end);
          ovf_at_offset fuel offset
      end)) (fun more d' => more = false /\ Post fs ps false d') (Failed fs) (set_pd d pd1)).
    p_step. p_step. cbv zeta. cbn [bytes].
    assert (Hb1 : tnts (flow_of_packet q) = [] /\ branchless qs).
    { unfold branchless in *. change (q :: qs) with ([q] ++ qs) in Hb.
      rewrite flows_app, tnts_app, flows_one in Hb. apply app_eq_nil in Hb. exact Hb. }
    destruct Hb1 as (Hb1 & Hb2).
    assert (HD1 : forall t l, Done fs (ps ++ [q]) (set_tcal (set_time (set_pkt (set_pd d pd1) q) t) l)).
    { intros t l. apply (loose_done fs ps d); auto.
      - split; [econstructor; [exact Hnext|constructor]|].
        unfold branchless. rewrite flows_one. exact Hb1.
      - apply queued_more. apply HD. }
    destruct (_ <=? _)%N eqn:E1.
    - destruct (_ <? _)%N; [p_step; fail_|].
      unfold standalone_now. repeat p_step.
      eapply (loose_out fs ps [q] _ _ (Failed fs)).
      4: { left. split; reflexivity. }
      + exact Hn.
      + reflexivity.
      + destruct (HD1 (ed_time d) (ed_tcal d)) as (G1 & G2 & G3 & G4).
        split; [exact G1|]. split; [exact G2|]. split; [exact G3|]. intros S. contradiction.
    - assert (Hgo : forall t l,
        pwp (ovf_at_offset fuel (N.of_nat (pkt_size q) + bytes qs - N.of_nat (pkt_size q))%N)
            (fun more d' => more = false /\ Post fs ps false d') (Failed fs)
            (set_tcal (set_time (set_pkt (set_pd d pd1) q) t) l)).
      { intros t l. replace (_ + _ - _)%N with (bytes qs) by lia.
        eapply (p_mono _ _ _ (Failed fs)); [apply (IH qs (ps ++ [q]) _ pd' (HD1 t l)); [|exact Hzs|]| |auto].
        - split; [exact Hrest|exact Hb2].
        - intros ->. cbn [bytes] in E1. lia.
        - intros more d' (-> & H). split; [reflexivity|]. apply (loose_post _ _ _ _ _ H). }
      destruct (pkt_pl q); try (p_step; fail_);
        (p_step; apply p_timing; [intros t l _; apply Hgo|intros ? ? ? _ S; contradiction]).
  Qed.

  Lemma apl12_t fs ps d o : ~ strict -> Done fs ps d -> pt_evt_find_ovf_fup (ed_pd d) = Ok o -> o <> 0%N ->
    pwp (pt_evt_handle_apl12 o) (fun more d' => if more : bool then d' = d else Post fs ps false d')
        (Failed fs) d.
  Proof.
    intros Hn HD Ho Hz. destruct (ovf_fup_ahead _ _ Ho Hz) as (qs & pd' & Ha & Hb & Hs).
    unfold pt_evt_handle_apl12. p_step. p_step. cbv zeta. destruct (Nat.ltb _ _); [p_step; fail_|].
    p_step. apply p_lift; [|intros e _ S; contradiction]. intros b _.
    destruct b; [|p_step; reflexivity]. unfold pt_evt_recover_ovf_at_offset. p_step. p_step.
    destruct (o =? 0)%N; [p_step; fail_|]. subst o.
    eapply p_mono; [apply (at_offset_t fs _ Hn qs ps d pd' HD Ha Hs)| |auto].
    - intros ->. apply Hz. reflexivity.
    - intros more d' (-> & H). exact H.
  Qed.

  Lemma ovf_overflow_p ps p d : pkt_pl p = P_ovf -> (strict -> HW (hw_after cf (ps ++ [p])) d) ->
    P (ps ++ [p]) evb_fup_bound (event_time (ed_time d) (new_event (Ev_overflow 0))).
  Proof.
    intros Hp Hh. split; [reflexivity|]. intros S. destruct (Hh S) as (_ & H2 & _).
    unfold PF, flow_of_event. rewrite event_time_var. cbn [ev_var new_event is_overflow source pieces].
    split; [left; reflexivity|]. split; [exact I|]. split.
    - exists (ps ++ [p]), []. split; [symmetry; apply app_nil_r|]. rewrite last_snoc, Hp.
      split; [reflexivity|]. rewrite <- H2. apply event_time_has. reflexivity.
    - split; [discriminate|]. constructor.
  Qed.

  Lemma ovf_t fs ps p d : Here fs ps p d -> pkt_pl p = P_ovf ->
    pwp pt_evt_decode_ovf (Post fs (ps ++ [p])) (Failed fs) d.
  Proof.
    intros H Hp. pose proof H as (Hr & Hpk & Hq & Ht & Hs). unfold pt_evt_decode_ovf. p_step.
    eapply p_mono; [apply (psbend_t fs ps p d H); rewrite Hp; reflexivity| |auto].
    intros [|] d' Hd; [|cbn [negb]; p_step; exact Hd]. subst d'. cbn [negb].
    p_step. p_step. p_step. p_step. p_step.
    assert (Hc : ed_config d = cf) by (apply (config_is cf pd0 conf _ _ Hr)).
    assert (HD : forall d1 m, ed_pd d1 = ed_pd d -> ed_evq d1 = pt_evq_init zero_event ->
      (ed_ip d1 = pt_last_ip_init /\ ed_time d1 = ed_time d /\
       ed_tcal d1 = (if cf_keep_tcal_on_ovf cf then fst (pt_tcal_update_ovf (ed_tcal d)) else pt_tcal_init) /\
       ed_status d1 = Some pte_nosync) -> m = [] ->
      Done fs (ps ++ [p] ++ m) d1 /\ (strict -> HW (hw_after cf (ps ++ [p])) d1)).
    { intros d1 m E1 E2 (E3 & E4 & E5 & E6) ->.
      assert (HH : strict -> HW (hw_after cf (ps ++ [p])) d1).
      { intros S. destruct (Hs S) as (S1 & S2 & S3 & _). rewrite after_snoc. unfold hw_step. rewrite Hp.
        unfold HW. cbn [h_ip h_time h_cal]. rewrite E3, E4, E5, <- S2, <- S3. auto. }
      split; [|exact HH]. cbn [app].
      split; [rewrite E1; exact Hr|]. split.
      - rewrite E2. exists []. split; [apply qrep_init|constructor].
      - split; [rewrite flows_app, flows_one; unfold flow_of_packet; rewrite Hp, app_nil_r; exact Ht|].
        intros S. split; [right; exact E6|]. split; [apply HH; exact S|].
        split; [rewrite after_snoc; unfold hw_step; rewrite Hp; reflexivity|].
        destruct (Hs S) as (_ & _ & _ & _ & _ & S6). destruct (ed_bound d).
        + destruct S6 as (S6 & _). rewrite Hp in S6. discriminate.
        + rewrite flows_app, flows_one. unfold flow_of_packet. rewrite Hp, app_nil_r. exact S6. }
    rewrite Hc in *.
    assert (Hk : forall d1, ed_pd d1 = ed_pd d -> ed_evq d1 = pt_evq_init zero_event ->
      (ed_ip d1 = pt_last_ip_init /\ ed_time d1 = ed_time d /\
       ed_tcal d1 = (if cf_keep_tcal_on_ovf cf then fst (pt_tcal_update_ovf (ed_tcal d)) else pt_tcal_init) /\
       ed_status d1 = Some pte_nosync) -> ed_bound d1 = false ->
      pwp (do d <- get;
  let offset := pt_evt_find_ovf_fup (ed_pd d) in
  match offset with
  | UB u => lift (UB u)
  | _ =>
      if match offset with Ok o => (0 <? o)%N | _ => false end then
        do more <- (if er_apl12 (cf_errata cf) then
                      pt_evt_handle_apl12 (match offset with Ok o => o | _ => 0%N end)
                    else ret true);
        if negb more then ret false else
        do d <- get;
        run enqueue evb_fup_bound
              (event_time (ed_time d) (new_event (Ev_overflow 0)));
        ret true
      else
        do more <- (if er_skd010 (cf_errata cf) then pt_evt_handle_skd010 else ret true);
        if negb more then ret false else
        do more <- (if er_apl11 (cf_errata cf)
                       && match offset with Err pte_bad_context => true | _ => false end
                    then pt_evt_handle_apl11 else ret true);
        if negb more then ret false else
        match offset with
        | Err pte_eos | Ok _ =>
            standalone_now (set_suppressed (new_event (Ev_overflow 0)) true)
        | Err e => fail e
        | UB u => lift (UB u)
        end
  end) (Post fs (ps ++ [p])) (Failed fs) d1).
    { intros d1 E1 E2 E3 E4. destruct (HD d1 [] E1 E2 E3 eq_refl) as (HD1 & HH). cbn [app] in HD1.
      p_step. p_step. cbv zeta.
      assert (Hend : pwp (standalone_now (set_suppressed (new_event (Ev_overflow 0)) true))
                         (Post fs (ps ++ [p])) (Failed fs) d1).
      { apply (now_out cf pd0 fs ps p).
        - cbn [flow_of_event ev_var set_suppressed new_event]. rewrite app_nil_r. exact HD1.
        - auto.
        - reflexivity.
        - reflexivity.
        - reflexivity.
        - auto.
        - intros _. rewrite Hp. reflexivity.
        - intros _. constructor. }
      assert (Hsk : pt_evt_find_ovf_fup (ed_pd d1) <> UB ub_fuel \/ True) by auto. clear Hsk.
      destruct (pt_evt_find_ovf_fup (ed_pd d1)) as [o|e|u] eqn:Eo; [| |exact I].
      - destruct (0 <? o)%N eqn:Eo0.
        + p_step. eapply (p_mono _ (fun more d' => if more : bool then d' = d1 else Post fs (ps ++ [p]) false d')
                            _ (Failed fs)); [| |auto].
          * destruct (er_apl12 (cf_errata cf)) eqn:E12; [|p_step; reflexivity].
            apply apl12_t; auto; [|lia]. intros (_ & _ & _ & S). congruence.
          * intros [|] d' Hd; cbn [negb]; [subst d'|p_step; exact Hd].
            p_step. p_step. p_step. eapply (p_enqueue (P (ps ++ [p]))).
            -- apply HD1.
            -- apply ovf_overflow_p; auto.
            -- intros q' (Hq' & _) _. p_step. exists []. rewrite app_nil_r.
               destruct HD1 as (G1 & G2 & G3 & G4). repeat (split; [first [exact G1|exact Hq'|exact G3]|]). exact G4.
            -- fail_.
        + p_step. eapply (p_mono _ (fun more d' => if more : bool then d' = d1 else Post fs (ps ++ [p]) false d')
                            _ (Failed fs)); [| |auto].
          * destruct (er_skd010 (cf_errata cf)) eqn:E12; [|p_step; reflexivity].
            apply skd010_t; auto. intros (_ & S & _). congruence.
          * intros [|] d' Hd; cbn [negb]; [subst d'|p_step; exact Hd].
            rewrite andb_false_r. p_step. p_step. cbn [negb]. exact Hend.
      - p_step. eapply (p_mono _ (fun more d' => if more : bool then d' = d1 else Post fs (ps ++ [p]) false d')
                            _ (Failed fs)); [| |auto].
        + destruct (er_skd010 (cf_errata cf)) eqn:E12; [|p_step; reflexivity].
          apply skd010_t; auto. intros (_ & S & _). congruence.
        + intros [|] d' Hd; cbn [negb]; [subst d'|p_step; exact Hd].
          p_step. eapply (p_mono _ (fun more d' => if more : bool then d' = d1 else Post fs (ps ++ [p]) false d')
                            _ (Failed fs)); [| |auto].
          * destruct (er_apl11 (cf_errata cf) && _) eqn:E12; [|p_step; reflexivity].
            apply andb_prop in E12. destruct E12 as (E12 & _).
            apply apl11_t; auto. intros (_ & _ & S & _). congruence.
          * intros [|] d' Hd; cbn [negb]; [subst d'|p_step; exact Hd].
            destruct e; try exact Hend; p_step; fail_. }
    destruct (cf_keep_tcal_on_ovf cf) eqn:Ek.
    - destruct (pt_tcal_update_ovf (ed_tcal d)) as [l r] eqn:El.
      p_step. apply p_lift; [|intros e E; injection El as _ <-; discriminate].
      intros [] _. p_step. apply Hk; try reflexivity. repeat split; reflexivity.
    - p_step. apply Hk; try reflexivity. repeat split; reflexivity.
  Qed.
End PSB.
