(** The events of a trace against its packets: packets with an IP, PSBEND and OVF. *)

From Verif Require Import Base M_packet M_config M_pktdec M_lastip M_time
  M_evq M_event M_evdec S_evq S_evtrace L_evq L_evqpos L_evdec L_evsafe L_evq_rules L_evtrace L_evtrace2.
From Coq Require Import List NArith ZArith PeanoNat Bool Lia ZifyBool ZifyNat ZifyN.
Import ListNotations.
Open Scope nat_scope.

Section IPS.
  Context (cf : config) (pd0 : pktdec).
  Hypothesis conf : pd_config pd0 = cf.

  Notation strict := (no_skipping cf).
  Notation P := (P cf).
  Notation Here := (Here cf pd0).
  Notation Done := (Done cf pd0).
  Notation Dead := (Dead cf pd0).
  Notation Live := (Live cf pd0).
  Notation Out := (Out cf pd0).
  Notation Post := (Post cf pd0).
  Notation Failed := (Failed cf pd0).

  Ltac p_step :=
    lazymatch goal with
    | |- pwp (sbind _ _) _ _ _ => apply p_bind
    | |- pwp (ret _) _ _ _ => apply p_ret
    | |- pwp (fail _) _ _ _ => apply p_fail
    | |- pwp get _ _ _ => apply p_get
    | |- pwp (modify _) _ _ _ => apply p_modify
    | |- pwp (publish _) _ _ _ => apply p_publish
    | |- pwp (standalone _) _ _ _ => apply p_standalone
    | |- pwp (read_event Alone) _ _ _ => apply p_read_alone
    | |- pwp (write_event Alone _) _ _ _ => apply p_write_alone
    | |- pwp (read_event (Slot ?i)) _ _ _ => eapply p_read_held; [sd; eassumption |]
    | |- pwp (write_event (Slot ?i) _) _ _ _ =>
        eapply (p_write_held (P _)); [sd; eassumption | sd; eassumption | intros ? ? ?; sd]
    | |- pwp (finish _ _) _ _ _ => unfold finish
    | |- pwp (if ?b then _ else _) _ _ _ => destruct b eqn:?
    end.
  Ltac fail_ := apply failed; discriminate.
  Ltac go H := pose proof H as (Hr & Hp & Hq & Ht & Hs).

  Context (fs : list flow) (ps : list packet) (p : packet).

  (** Setting the address does not matter here. *)
  Lemma bears_ip l e pl : bears (event_ip l e) pl = bears e pl.
  Proof.
    destruct (event_ip_var l e) as (ip & E). destruct (event_ip_rest l e) as (_ & E2 & _).
    unfold bears. rewrite E, E2. destruct (ev_var e); reflexivity.
  Qed.
  Lemma flow_ip l e : flow_of_event (event_ip l e) = flow_of_event e.
  Proof.
    destruct (event_ip_var l e) as (ip & E). destruct (event_ip_rest l e) as (_ & E2 & _).
    unfold flow_of_event. rewrite E, E2. destruct (ev_var e); reflexivity.
  Qed.
  Lemma ip_time l t e : event_ip l (event_time t e) = event_time t (event_ip l e).
  Proof.
    unfold event_ip. rewrite event_time_var. destruct (pt_last_ip_query l); unfold event_time;
    destruct (pt_time_query_tsc t) as [[[? ?] ?] ?]; reflexivity.
  Qed.

  Lemma stamped_ip qs pk e t l : bears e (pkt_pl pk) = true -> ev_has_tsc e = false ->
    is_overflow (ev_var e) = false -> address (ev_var e) <> None ->
    t = h_time (hw_after cf (qs ++ [pk])) -> l = h_ip (hw_after cf (ip_packets (qs ++ [pk]))) ->
    Forall (prior (qs ++ [pk])) (pieces (ev_var e)) ->
    (forall ip, source (ev_var e) = Some ip -> sourced cf (qs ++ [pk]) ip) ->
    stamped cf (qs ++ [pk]) (event_time t (event_ip l e)).
  Proof.
    intros H1 H2 H3 Ha -> -> H4 H5. set (l := h_ip _). set (t := h_time _).
    destruct (event_ip_var l e) as (a & Ev). destruct (event_ip_rest l e) as (R1 & R2 & _).
    unfold stamped. rewrite event_time_var, event_time_sup, last_snoc.
    split; [rewrite <- H1, <- (bears_ip l e); reflexivity|].
    split; [rewrite Ev, pieces_ip; exact H4|].
    split; [intros _; apply event_time_has; congruence|].
    split; [rewrite Ev, overflow_ip; congruence|].
    split; [intros ip G1 G2 _; apply (event_ip_address l e ip G1 G2 Ha)|].
    intros ip G. rewrite Ev, source_ip in G. apply (H5 ip G).
  Qed.

  (** ** The address of the packet *)

  Definition pkt_ip (pl : payload) : option packet_ip :=
    match pl with P_fup ip | P_tip ip | P_tip_pge ip | P_tip_pgd ip => Some ip | _ => None end.

  Lemma no_psb d : Here fs ps p d -> psb_end (pkt_pl p) = false -> strict ->
    h_psb (hw_after cf ps) = false.
  Proof.
    intros H He S. go H. destruct (Hs S) as (_ & _ & _ & _ & S5 & _).
    destruct (h_psb _); [|reflexivity]. specialize (S5 eq_refl). congruence.
  Qed.
  Lemma ip_after ip : pkt_ip (pkt_pl p) = Some ip -> h_psb (hw_after cf ps) = false ->
    hw_after cf (ps ++ [p]) = hw_set_ip (hw_after cf ps) ip.
  Proof.
    intros E Hps. rewrite after_snoc. unfold hw_step.
    destruct (pkt_pl p); try discriminate E; injection E as ->; rewrite ?Hps; reflexivity.
  Qed.
  Lemma ip_ipp ip : pkt_ip (pkt_pl p) = Some ip -> ipp (pkt_pl p) = true.
  Proof. destruct (pkt_pl p); intros E; try discriminate E; reflexivity. Qed.
  Lemma ip_end ip : pkt_ip (pkt_pl p) = Some ip -> psb_end (pkt_pl p) = false.
  Proof. destruct (pkt_pl p); intros E; try discriminate E; reflexivity. Qed.
  Lemma ip_tnts ip : pkt_ip (pkt_pl p) = Some ip -> tnts (flow_of_packet p) = [].
  Proof. unfold flow_of_packet. destruct (pkt_pl p); intros E; try discriminate E; reflexivity. Qed.

  (** The address is the one of the packet; it was decoded. *)
  Definition at_ip (d : evdec) : Prop :=
    Here fs ps p d /\ (strict -> ed_ip d = h_ip (hw_after cf (ps ++ [p]))).

  Lemma update_t ip d (Q : unit -> evdec -> Prop) : Here fs ps p d -> pkt_ip (pkt_pl p) = Some ip ->
    (forall l, at_ip (set_lip d l) -> Q tt (set_lip d l)) -> pwp (update_ip ip) Q (Failed fs) d.
  Proof.
    intros H E HQ. go H. apply p_update_ip; [|intros l; fail_]. apply HQ.
    assert (Hl : strict -> fst (pt_last_ip_update_ip (ed_ip d) ip) = h_ip (hw_after cf (ps ++ [p]))).
    { intros S. pose proof (no_psb d H (ip_end ip E) S) as Hps.
      rewrite (ip_after ip E Hps). destruct (Hs S) as (_ & _ & _ & S4 & _).
      rewrite (ip_after ip E Hps) in S4. cbn [h_ip hw_set_ip] in S4 |- *.
      destruct S4 as [S4|[_ S4]]; rewrite S4; [reflexivity|apply update_ip_again]. }
    split; [|exact Hl]. split; [exact Hr|]. split; [exact Hp|]. split; [exact Hq|]. split; [exact Ht|].
    intros S. destruct (Hs S) as (S1 & S2 & S3 & S4 & S5 & S6). repeat (split; [assumption|]).
    split; [right; split; [apply (ip_ipp ip E)|apply (Hl S)]|]. auto.
  Qed.

  Lemma at_same d d' : at_ip d -> queued (P (ps ++ [p])) (ed_evq d') ->
    ed_pd d' = ed_pd d -> ed_pkt d' = ed_pkt d -> ed_ip d' = ed_ip d -> ed_time d' = ed_time d ->
    ed_tcal d' = ed_tcal d -> ed_status d' = ed_status d -> ed_bound d' = ed_bound d -> at_ip d'.
  Proof.
    intros (H1 & H2) Hq E1 E2 E3 E4 E5 E6 E7. split; [|intros S; rewrite E3; auto].
    apply (here_same cf pd0 fs ps p d); assumption.
  Qed.
  Lemma at_bound d : at_ip d -> flow_of_packet p = [] -> ipp (pkt_pl p) = true ->
    at_ip (set_bound d true).
  Proof.
    intros (H & H2) Hf Hi. split; [|exact H2]. go H.
    split; [exact Hr|]. split; [exact Hp|]. split; [exact Hq|]. split; [exact Ht|].
    intros S. destruct (Hs S) as (S1 & S2 & S3 & S4 & S5 & S6). repeat (split; [assumption|]).
    rewrite flows_app, flows_one, Hf, app_nil_r.
    destruct (ed_bound d); [|exact S6]. destruct S6 as (_ & ->).
    rewrite flows_app, flows_one, Hf, app_nil_r. reflexivity.
  Qed.

  Lemma at_time ip d : at_ip d -> pkt_ip (pkt_pl p) = Some ip -> strict ->
    ed_time d = h_time (hw_after cf (ps ++ [p])) /\ ed_tcal d = h_cal (hw_after cf (ps ++ [p])) /\
    h_psb (hw_after cf (ps ++ [p])) = false.
  Proof.
    intros (H & H2) E S. go H. destruct (Hs S) as (S1 & S2 & S3 & _).
    pose proof (no_psb d H (ip_end ip E) S) as Hps. rewrite (ip_after ip E Hps). auto.
  Qed.

  (** The packet is done. *)
  Lemma at_done ip d d' : at_ip d -> pkt_ip (pkt_pl p) = Some ip -> ed_bound d = true \/ flow_of_packet p = [] ->
    queued (P (ps ++ [p])) (ed_evq d') ->
    ed_pd d' = ed_pd d -> ed_ip d' = ed_ip d -> ed_time d' = ed_time d ->
    ed_tcal d' = ed_tcal d -> ed_status d' = ed_status d -> Done fs (ps ++ [p]) d'.
  Proof.
    intros HA E Hb Hq' E1 E3 E4 E5 E6. pose proof HA as (H & H2). go H.
    split; [rewrite E1; exact Hr|]. split; [exact Hq'|].
    split; [rewrite flows_app, tnts_app, flows_one, (ip_tnts ip E), app_nil_r; exact Ht|].
    intros S. destruct (at_time ip d HA E S) as (T1 & T2 & T3).
    destruct (Hs S) as (S1 & S2 & S3 & S4 & S5 & S6). unfold stat, HW. rewrite E3, E4, E5, E6.
    split; [exact S1|]. split; [auto|]. split; [exact T3|].
    destruct (ed_bound d); [apply S6|]. destruct Hb as [Hb|Hb]; [discriminate|].
    rewrite flows_app, flows_one, Hb, app_nil_r. exact S6.
  Qed.

  (** An event is delivered. *)
  Lemma at_out ip e d d' : at_ip d -> pkt_ip (pkt_pl p) = Some ip ->
    Pub d' e -> (strict -> stamped cf (ps ++ [p]) e) -> queued (P (ps ++ [p])) (ed_evq d') ->
    ed_pd d' = ed_pd d -> ed_pkt d' = ed_pkt d -> ed_ip d' = ed_ip d -> ed_time d' = ed_time d ->
    ed_tcal d' = ed_tcal d -> ed_status d' = ed_status d ->
    tnts (flow_of_event e) = [] ->
    (strict -> if ed_bound d' then fs ++ flow_of_event e = flows (ps ++ [p])
               else flow_of_packet p = [] /\ fs ++ flow_of_event e = flows ps) ->
    Post fs (ps ++ [p]) false d'.
  Proof.
    intros HA E HP Hst Hq' E1 E2 E3 E4 E5 E6 Hft Hf. pose proof HA as (H & H2). go H.
    assert (HH : Here (fs ++ flow_of_event e) ps p d').
    { split; [rewrite E1; exact Hr|]. split; [rewrite E2; exact Hp|]. split; [exact Hq'|].
      split; [rewrite tnts_app, Hft, app_nil_r; exact Ht|].
      intros S. destruct (Hs S) as (S1 & S2 & S3 & S4 & S5 & S6). unfold stat.
      rewrite E3, E4, E5, E6. repeat (split; [assumption|]). specialize (Hf S).
      destruct (ed_bound d'); [split; [apply (ip_ipp ip E)|exact Hf]|apply Hf]. }
    eapply (out_here cf pd0 fs ps p _ e d' eq_refl HH (ip_tnts ip E)); auto.
    intros S. specialize (Hf S). destruct (ed_bound d'); [left; reflexivity|right; apply Hf].
  Qed.

  Lemma flows_bound d : Here fs ps p d -> ed_bound d = true -> strict -> fs = flows (ps ++ [p]).
  Proof.
    intros H Hb S. go H. destruct (Hs S) as (_ & _ & _ & _ & _ & S6). rewrite Hb in S6. apply S6.
  Qed.
  Lemma flows_unbound d : Here fs ps p d -> ed_bound d = false -> strict -> fs = flows ps.
  Proof.
    intros H Hb S. go H. destruct (Hs S) as (_ & _ & _ & _ & _ & S6). rewrite Hb in S6. apply S6.
  Qed.
  Lemma ip_packets_ip ip : pkt_ip (pkt_pl p) = Some ip -> ip_packets (ps ++ [p]) = ps ++ [p].
  Proof.
    intros E. unfold ip_packets. rewrite last_snoc. destruct (pkt_pl p); try discriminate E; reflexivity.
  Qed.

  (** ** FUP *)

  Definition no_flow (v : evar) : bool :=
    match v with
    | Ev_tnt _ _ | Ev_tip _ | Ev_async_branch _ _ | Ev_enabled _ _ => false
    | _ => true
    end.
  Lemma no_flow_event e : no_flow (ev_var e) = true -> flow_of_event e = [].
  Proof. unfold flow_of_event. destruct (ev_var e); intros H; try discriminate H; reflexivity. Qed.

  Lemma P_facts qs b e m : P qs b e -> N.land b m <> 0%N -> N.land evb_cfe m = 0%N -> strict ->
    is_overflow (ev_var e) = false -> ev_has_tsc e = false /\
    (forall ip, source (ev_var e) = Some ip -> sourced cf qs ip) /\
    Forall (prior qs) (pieces (ev_var e)).
  Proof.
    intros (_ & H) H1 H2 S Ho. destruct (H S) as (F1 & F2 & F3 & F4 & F5). rewrite Ho in F3.
    rewrite (not_cfe _ _ H1 H2) in F5. auto.
  Qed.

  Lemma flows_same fl d d' : Here fs ps p d -> ed_bound d' = ed_bound d -> flow_of_packet p = [] \/ ed_bound d = true ->
    fl = [] -> strict -> if ed_bound d' then fs ++ fl = flows (ps ++ [p])
               else flow_of_packet p = [] /\ fs ++ fl = flows ps.
  Proof.
    intros H E Hf -> S. rewrite E, app_nil_r. go H. destruct (Hs S) as (_ & _ & _ & _ & _ & S6).
    destruct (ed_bound d); [apply S6|]. destruct Hf as [Hf|Hf]; [|discriminate]. auto.
  Qed.

  Lemma decode_fup_t fuel : forall ip d, Here fs ps p d -> pkt_pl p = P_fup ip ->
    pwp (decode_fup fuel ip) (Post fs (ps ++ [p])) (Failed fs) d.
  Proof.
    induction fuel as [|fuel IH]; intros ip d H E; [exact I|]. cbn [decode_fup].
    assert (Ei : pkt_ip (pkt_pl p) = Some ip) by (rewrite E; reflexivity).
    assert (Ef : flow_of_packet p = []) by (unfold flow_of_packet; rewrite E; reflexivity).
    apply p_bind. apply (update_t ip d); [exact H|exact Ei|]. intros l HA. clear H.
    generalize dependent (set_lip d l). clear d l. intros d HA.
    p_step. p_step.
    assert (HA' : at_ip (if pt_evq_pending (ed_evq d) evb_fup_bound then set_bound d true else d)).
    { destruct (pt_evq_pending _ _); [|exact HA].
      apply at_bound; [exact HA|exact Ef|rewrite E; reflexivity]. }
    clear HA. generalize dependent (if pt_evq_pending (ed_evq d) evb_fup_bound then set_bound d true else d).
    clear d. intros d HA. pose proof HA as (H & Hip). go H.
    p_step. eapply (p_dequeue (P _)); [exact Hq| |].
    2:{ p_step. p_step. p_step.
        - p_step. apply post_done. eapply at_done; try eassumption; auto.
        - p_step. apply p_lift; [|intros e He; apply failed; apply (query_err _ _ He)].
          intros from Efr. p_step. eapply (p_enqueue (P _)); [exact Hq| | |fail_].
          + split; [reflexivity|]. intros S. split; [right; reflexivity|]. split; [exact I|].
            split; [reflexivity|]. split; [|constructor].
            intros a Ea. injection Ea as <-. exists (ps ++ [p]), []. rewrite app_nil_r, last_snoc.
            split; [reflexivity|]. split; [rewrite E; reflexivity|]. rewrite <- (Hip S). exact Efr.
          + intros q' (G1 & G2 & G3) _. p_step. apply post_done.
            eapply at_done; try eassumption; auto. }
    intros b e q' i HP Hb Hq' Hh _. p_step. p_step. p_step. p_step. p_step. sd. p_step.
    assert (HA1 : at_ip (set_evq d q')) by (apply (at_same d); auto).
    assert (Hpub : forall (e' : event) (d' : evdec), (strict -> stamped cf (ps ++ [p]) e') ->
      no_flow (ev_var e') = true ->
      ed_pd d' = ed_pd d -> ed_pkt d' = ed_pkt d -> ed_ip d' = ed_ip d -> ed_time d' = ed_time d ->
      ed_tcal d' = ed_tcal d -> ed_status d' = ed_status d -> ed_bound d' = ed_bound d ->
      ed_event d' = Some (Slot i) -> queued (P (ps ++ [p])) (ed_evq d') -> held (ed_evq d') i e' ->
      Post fs (ps ++ [p]) false d').
    { intros e' d' Hst Hnf E1 E2 E3 E4 E5 E6 E7 E8 Hq2 Hh2.
      eapply (at_out ip e' d d'); auto.
      - right. exists i. auto.
      - rewrite (no_flow_event _ Hnf). reflexivity.
      - apply (flows_same _ d); auto. rewrite (no_flow_event _ Hnf). reflexivity. }
    assert (Hfacts : strict -> is_overflow (ev_var e) = false -> ev_has_tsc e = false /\
      (forall ip, source (ev_var e) = Some ip -> sourced cf (ps ++ [p]) ip) /\
      Forall (prior (ps ++ [p])) (pieces (ev_var e))).
    { intros S Ho. apply (P_facts _ _ _ _ HP Hb eq_refl S Ho). }
    assert (Hst : forall v, ev_var e = v -> address v <> None -> is_overflow v = false ->
      bears e (pkt_pl p) = true -> strict ->
      stamped cf (ps ++ [p]) (event_ip (ed_ip d) (event_time (ed_time d) e))).
    { intros v Ev Ha Ho Hbr S. subst v. destruct (Hfacts S Ho) as (F1 & F2 & F3).
      rewrite ip_time. apply stamped_ip; auto.
      - apply (at_time ip d HA Ei S).
      - rewrite (ip_packets_ip ip Ei). apply (Hip S). }
    assert (Hnf : forall t l, no_flow (ev_var e) = true -> no_flow (ev_var (event_ip l (event_time t e))) = true).
    { intros t l Hn. destruct (event_ip_var l (event_time t e)) as (a & ->). rewrite event_time_var.
      destruct (ev_var e); auto. }
    destruct (ev_var e) eqn:Ev; try fail_;
      try (p_step; p_step; p_step; eapply Hpub; try reflexivity; try (sd; eassumption);
           [eapply Hst; [reflexivity|discriminate|reflexivity|unfold bears; rewrite Ev, E; reflexivity]
           |apply Hnf; reflexivity]).
    - (* overflow *)
      p_step. p_step. p_step. p_step. p_step. eapply Hpub; try reflexivity; try (sd; eassumption).
      + intros S. destruct (event_ip_var (ed_ip d) e) as (a & Ea).
        destruct (event_ip_rest (ed_ip d) e) as (R1 & R2 & R3 & R4 & R5).
        destruct HP as (_ & HP). destruct (HP S) as (F1 & F2 & F3 & F4 & F5). rewrite Ev in F3. cbn in F3.
        rewrite Ev in Ea. unfold stamped. rewrite last_snoc, Ea. cbn [var_set_ip].
        split; [unfold bears; rewrite Ea, E; reflexivity|]. split; [constructor|].
        split; [discriminate|]. split; [|split; [|discriminate]].
        * intros _. destruct F3 as (q1 & q2 & E1 & E2 & E3). exists q1, q2. split; [exact E1|].
          split; [exact E2|]. unfold has_time in *. rewrite R1, R3, R4, R5. exact E3.
        * intros x G1 G2 _. rewrite (ip_packets_ip ip Ei), <- (Hip S).
          eapply event_ip_address; [exact G1|rewrite Ea; exact G2|rewrite Ev; discriminate].
      + destruct (event_ip_var (ed_ip d) e) as (a & ->). rewrite Ev. reflexivity.
    - (* tick *)
      p_step. p_step. apply IH; [|exact E].
      apply (here_same cf pd0 fs ps p d); auto.
    - (* RSM *)
      p_step. p_step. p_step; [|fail_]. p_step.
      eapply Hpub; try reflexivity; try (sd; eassumption); [|rewrite event_time_var, Ev; reflexivity].
      intros S. destruct (Hfacts S eq_refl) as (F1 & F2 & F3).
      apply stamped_quiet; try (rewrite Ev); auto.
      + unfold quiet. rewrite Heqb0. reflexivity.
      + apply (at_time ip d HA Ei S).
      + discriminate.
      + unfold bears. rewrite Ev, E. reflexivity.
    - (* SIPI *)
      p_step. p_step. p_step; [|fail_]. p_step.
      eapply Hpub; try reflexivity; try (sd; eassumption); [|rewrite event_time_var, Ev; reflexivity].
      intros S. destruct (Hfacts S eq_refl) as (F1 & F2 & F3).
      apply stamped_quiet; try (rewrite Ev); auto.
      + unfold quiet. rewrite Heqb0. reflexivity.
      + apply (at_time ip d HA Ei S).
      + discriminate.
      + unfold bears. rewrite Ev, E. reflexivity.
  Qed.

  (** ** TIP *)

  (** A queued event without flow is delivered with its address. *)
  Lemma queued_ip ip b m e i d d' : at_ip d -> pkt_ip (pkt_pl p) = Some ip ->
    P (ps ++ [p]) b e -> N.land b m <> 0%N -> N.land evb_cfe m = 0%N ->
    no_flow (ev_var e) = true -> is_overflow (ev_var e) = false -> address (ev_var e) <> None ->
    bears e (pkt_pl p) = true -> flow_of_packet p = [] \/ ed_bound d = true ->
    ed_pd d' = ed_pd d -> ed_pkt d' = ed_pkt d -> ed_ip d' = ed_ip d -> ed_time d' = ed_time d ->
    ed_tcal d' = ed_tcal d -> ed_status d' = ed_status d -> ed_bound d' = ed_bound d ->
    ed_event d' = Some (Slot i) -> queued (P (ps ++ [p])) (ed_evq d') ->
    held (ed_evq d') i (event_time (ed_time d) (event_ip (ed_ip d) e)) ->
    Post fs (ps ++ [p]) false d'.
  Proof.
    intros HA Ei HP Hb Hm Hn Ho Ha Hbr Hfl E1 E2 E3 E4 E5 E6 E7 E8 Hq2 Hh2.
    assert (Hnf : flow_of_event (event_time (ed_time d) (event_ip (ed_ip d) e)) = []).
    { apply no_flow_event. rewrite event_time_var. destruct (event_ip_var (ed_ip d) e) as (a & ->).
      destruct (ev_var e); auto. }
    eapply (at_out ip _ d d'); auto.
    - right. exists i. eauto.
    - intros S. destruct (P_facts _ _ _ _ HP Hb Hm S Ho) as (F1 & F2 & F3).
      apply stamped_ip; auto.
      + apply (at_time ip d HA Ei S).
      + rewrite (ip_packets_ip ip Ei). apply HA. exact S.
    - rewrite Hnf. reflexivity.
    - apply (flows_same _ d); auto. apply HA.
  Qed.
  (** ... or with its address suppressed. *)
  Lemma queued_quiet ip b m e i d d' : at_ip d -> pkt_ip (pkt_pl p) = Some ip ->
    P (ps ++ [p]) b e -> N.land b m <> 0%N -> N.land evb_cfe m = 0%N ->
    no_flow (ev_var e) = true -> is_overflow (ev_var e) = false -> source (ev_var e) = None ->
    bears (set_suppressed e true) (pkt_pl p) = true -> flow_of_packet p = [] \/ ed_bound d = true ->
    ed_pd d' = ed_pd d -> ed_pkt d' = ed_pkt d -> ed_ip d' = ed_ip d -> ed_time d' = ed_time d ->
    ed_tcal d' = ed_tcal d -> ed_status d' = ed_status d -> ed_bound d' = ed_bound d ->
    ed_event d' = Some (Slot i) -> queued (P (ps ++ [p])) (ed_evq d') ->
    held (ed_evq d') i (event_time (ed_time d) (set_suppressed e true)) ->
    Post fs (ps ++ [p]) false d'.
  Proof.
    intros HA Ei HP Hb Hm Hn Ho Ha Hbr Hfl E1 E2 E3 E4 E5 E6 E7 E8 Hq2 Hh2.
    assert (Hnf : flow_of_event (event_time (ed_time d) (set_suppressed e true)) = []).
    { apply no_flow_event. exact Hn. }
    eapply (at_out ip _ d d'); auto.
    - right. exists i. eauto.
    - intros S. destruct (P_facts _ _ _ _ HP Hb Hm S Ho) as (F1 & F2 & F3).
      apply stamped_quiet; auto.
      + apply (at_time ip d HA Ei S).
      + intros G. cbn in G. congruence.
    - rewrite Hnf. reflexivity.
    - apply (flows_same _ d); auto. apply HA.
  Qed.

  Lemma tip_event_t ip d : at_ip d -> pkt_pl p = P_tip ip -> ed_bound d = false ->
    pwp pt_evt_decode_tip_event (Post fs (ps ++ [p])) (Failed fs) d.
  Proof.
    intros HA E Eb. unfold pt_evt_decode_tip_event.
    assert (Ei : pkt_ip (pkt_pl p) = Some ip) by (rewrite E; reflexivity).
    pose proof HA as (H & Hip). go H.
    assert (Hfl : strict -> fs ++ [Fl_tip] = flows (ps ++ [p])).
    { intros S. rewrite (flows_unbound d H Eb S), flows_app, flows_one. f_equal.
      unfold flow_of_packet. rewrite E. reflexivity. }
    p_step. p_step. p_step. p_step.
    destruct (pt_evq_find (ed_evq (set_bound d true)) evb_tip is_async_branch) as [async|] eqn:Ef.
    - destruct (find_inq _ _ _ _ _ Hq Ef) as (b0 & e0 & Hi0 & Hb0 & He0).
      p_step. eapply (p_dequeue (P _)); [exact Hq| |fail_].
      intros b e q' i HP Hb Hq' Hh Hoth.
      (* the event that is delivered in the end *)
      assert (Hend : forall b1 e1 d', P (ps ++ [p]) b1 e1 -> (b1 =? evb_cfe)%N = false ->
        queued (P (ps ++ [p])) (ed_evq d') -> held (ed_evq d') i e1 -> is_async_branch e1 = true ->
        ed_pd d' = ed_pd d -> ed_pkt d' = ed_pkt d -> ed_ip d' = ed_ip d -> ed_time d' = ed_time d ->
        ed_tcal d' = ed_tcal d -> ed_status d' = ed_status d -> ed_bound d' = true ->
        pwp (run publish (Some (Slot i)); finish (Slot i) (event_ip (ed_ip d) e1))
            (Post fs (ps ++ [p])) (Failed fs) d').
      { intros b1 e1 d' HP1 Hc1 Hq1 Hh1 Ha1 E1 E2 E3 E4 E5 E6 E7.
        p_step. p_step. p_step. p_step. p_step. p_step. p_step. p_step.
        assert (Hv : flow_of_event (event_time (ed_time d') (event_ip (ed_ip d) e1)) = [Fl_tip]).
        { unfold is_async_branch in Ha1. destruct (event_ip_var (ed_ip d) e1) as (a & Ea).
          unfold flow_of_event. rewrite event_time_var, Ea. destruct (ev_var e1); try discriminate Ha1.
          reflexivity. }
        eapply (at_out ip (event_time (ed_time d') (event_ip (ed_ip d) e1)) d); auto.
        - right. exists i. split; [reflexivity|sd; eassumption].
        - intros S. destruct HP1 as (_ & HP1). destruct (HP1 S) as (F1 & F2 & F3 & F4 & F5).
          rewrite Hc1 in F5. unfold is_async_branch in Ha1.
          destruct (ev_var e1) eqn:Ev; try discriminate Ha1. cbn in F3.
          apply stamped_ip; rewrite ?Ev; auto; try discriminate.
          + unfold bears. rewrite Ev, E. reflexivity.
          + rewrite E4. apply (at_time ip d HA Ei S).
          + rewrite (ip_packets_ip ip Ei). apply (Hip S).
        - rewrite Hv. reflexivity.
        - intros S. cbn [ed_bound set_evq set_event]. rewrite E7, Hv. auto. }
      pose proof (not_cfe _ _ Hb eq_refl) as Hc.
      sd. destruct (Nat.eqb i async) eqn:Eia.
      + p_step. p_step. p_step. p_step. destruct (is_async_branch e) eqn:Ea; [|fail_].
        cbn [negb]. eapply Hend; try reflexivity; try eassumption.
      + apply Nat.eqb_neq in Eia. destruct (Hoth _ _ _ Hi0) as [->|(b2 & y & Hy)]; [congruence|].
        p_step. p_step. eapply (p_read_inq (P _)); [sd; exact Hy|]. p_step. p_step. p_step.
        pose proof (inq_P _ _ _ _ _ Hy) as HPy.
        destruct (is_async_branch y) eqn:Ey.
        * assert (Hcy : strict -> (b2 =? evb_cfe)%N = false).
          { intros S. destruct HPy as (_ & HPy). destruct (HPy S) as (F1 & F2 & F3 & F4 & F5).
            destruct (b2 =? evb_cfe)%N; [|reflexivity]. unfold is_async_branch in Ey.
            destruct (ev_var y); try discriminate Ey. destruct F5. }
          assert (HPe : P (ps ++ [p]) b2 e).
          { split; [apply HP|]. intros S. destruct HP as (_ & HP). specialize (HP S). specialize (Hcy S).
            unfold PF in *. rewrite Hc in HP. rewrite Hcy. exact HP. }
          eapply (p_write_inq (P _)); [sd; exact Hy|exact HPe|]. intros q2 K1 K2 K3.
          eapply (p_write_held (P _)); [sd; exact K1|sd; apply K3; eassumption|]. intros q3 L1 L2.
          p_step. p_step. rewrite Ey. cbn [negb].
          eapply (Hend evb_tip y); try reflexivity; try assumption.
          split; [apply HPy|]. intros S. destruct HPy as (_ & HPy). specialize (HPy S). specialize (Hcy S).
          unfold PF in *. rewrite Hcy in HPy. exact HPy.
        * assert (Hw : inq (fun _ _ => True) q' async b2 y).
          { eapply inq_mono; [|exact Hy]. auto. }
          eapply (p_write_inq (fun _ _ => True)); [sd; exact Hw|exact I|]. intros q2 K1 K2 K3.
          eapply (p_write_held (fun _ _ => True)); [sd; exact K1|sd; apply K3; eassumption|]. intros q3 L1 L2.
          p_step. p_step. rewrite Ey. fail_.
    - p_step. p_step. p_step. p_step. p_step. p_step. p_step. p_step.
      assert (Hv : flow_of_event (event_time (ed_time d) (event_ip (ed_ip d) (new_event (Ev_tip 0)))) = [Fl_tip]).
      { destruct (event_ip_var (ed_ip d) (new_event (Ev_tip 0))) as (a & Ea).
        unfold flow_of_event. rewrite event_time_var, Ea. reflexivity. }
      eapply (at_out ip (event_time (ed_time d) (event_ip (ed_ip d) (new_event (Ev_tip 0)))) d); auto.
      + left. split; reflexivity.
      + intros S. apply stamped_ip; auto; try discriminate.
        * unfold bears. cbn. rewrite E. reflexivity.
        * apply (at_time ip d HA Ei S).
        * rewrite (ip_packets_ip ip Ei). apply (Hip S).
        * constructor.
      + rewrite Hv. reflexivity.
      + intros S. cbn [ed_bound set_bound set_alone set_event]. rewrite Hv. auto.
  Qed.

  Lemma decode_tip_t fuel : forall ip d, Here fs ps p d -> pkt_pl p = P_tip ip ->
    pwp (decode_tip fuel ip) (Post fs (ps ++ [p])) (Failed fs) d.
  Proof.
    induction fuel as [|fuel IH]; intros ip d H E; [exact I|]. cbn [decode_tip].
    assert (Ei : pkt_ip (pkt_pl p) = Some ip) by (rewrite E; reflexivity).
    p_step. p_step. p_step; [fail_|].
    apply p_bind. apply (update_t ip d); [exact H|exact Ei|]. intros l HA. clear H Heqb.
    change (ed_bound d) with (ed_bound (set_lip d l)).
    generalize dependent (set_lip d l). clear d l. intros d HA.
    destruct (ed_bound d) eqn:Eb; cbn [negb]; [|eapply tip_event_t; eauto].
    pose proof HA as (H & Hip). go H.
    p_step. eapply (p_dequeue (P _)); [exact Hq| |].
    2:{ p_step. apply post_done. eapply at_done; try eassumption; auto. }
    intros b e q' i HP Hb Hq' Hh _. p_step. p_step. p_step. p_step. p_step. p_step.
    destruct (ev_var e) eqn:Ev; try fail_;
      try (repeat p_step; eapply (queued_ip ip b _ e i d); try reflexivity; try eassumption; auto;
           rewrite ?Ev; try reflexivity; try discriminate; [unfold bears; rewrite Ev, E; reflexivity]).
    p_step. p_step. apply IH; [|exact E]. apply (here_same cf pd0 fs ps p d); auto.
  Qed.

  Lemma decode_tip_pge_t fuel : forall ip d, Here fs ps p d -> pkt_pl p = P_tip_pge ip ->
    pwp (decode_tip_pge fuel ip) (Post fs (ps ++ [p])) (Failed fs) d.
  Proof.
    induction fuel as [|fuel IH]; intros ip d H E; [exact I|]. cbn [decode_tip_pge].
    assert (Ei : pkt_ip (pkt_pl p) = Some ip) by (rewrite E; reflexivity).
    apply p_bind. apply (update_t ip d); [exact H|exact Ei|]. intros l HA. clear H.
    generalize dependent (set_lip d l). clear d l. intros d HA.
    pose proof HA as (H & Hip). go H. p_step. p_step.
    destruct (ed_bound d) eqn:Eb; cbn [negb].
    - p_step. eapply (p_dequeue (P _)); [exact Hq| |].
      2:{ p_step. apply post_done. eapply at_done; try eassumption; auto. }
      intros b e q' i HP Hb Hq' Hh _. p_step. p_step. p_step. p_step.
      destruct (ev_var e) eqn:Ev; try fail_;
        try (repeat p_step; eapply (queued_ip ip b _ e i d); try reflexivity; try eassumption; auto;
             rewrite ?Ev; try reflexivity; try discriminate; [unfold bears; rewrite Ev, E; reflexivity]).
      p_step. p_step. apply IH; [|exact E]. apply (here_same cf pd0 fs ps p d); auto.
    - p_step. p_step. p_step. p_step. p_step. p_step. p_step. p_step. p_step. p_step.
      assert (Hv : flow_of_event (event_time (ed_time d) (event_ip (ed_ip d) (new_event (Ev_enabled 0 false))))
        = [Fl_enable]).
      { unfold flow_of_event. rewrite event_time_var, event_time_status.
        destruct (event_ip_var (ed_ip d) (new_event (Ev_enabled 0 false))) as (a & ->).
        destruct (event_ip_rest (ed_ip d) (new_event (Ev_enabled 0 false))) as (_ & -> & _). reflexivity. }
      eapply (at_out ip (event_time (ed_time d) (event_ip (ed_ip d) (new_event (Ev_enabled 0 false)))) d); auto.
      + left. split; reflexivity.
      + intros S. apply stamped_ip; auto; try discriminate.
        * unfold bears. cbn. rewrite E. reflexivity.
        * apply (at_time ip d HA Ei S).
        * rewrite (ip_packets_ip ip Ei). apply (Hip S).
        * constructor.
      + rewrite Hv. reflexivity.
      + intros S. cbn [ed_bound set_bound set_alone set_event set_enabled]. rewrite Hv.
        rewrite (flows_unbound d H Eb S), flows_app, flows_one. f_equal.
        unfold flow_of_packet. rewrite E. reflexivity.
  Qed.

  Lemma tip_pgd_t ip d : Here fs ps p d -> pkt_pl p = P_tip_pgd ip ->
    pwp (pt_evt_decode_tip_pgd ip) (Post fs (ps ++ [p])) (Failed fs) d.
  Proof.
    intros H E. unfold pt_evt_decode_tip_pgd.
    assert (Ei : pkt_ip (pkt_pl p) = Some ip) by (rewrite E; reflexivity).
    assert (Ef : flow_of_packet p = []) by (unfold flow_of_packet; rewrite E; reflexivity).
    apply p_bind. apply (update_t ip d); [exact H|exact Ei|]. intros l HA. clear H.
    generalize dependent (set_lip d l). clear d l. intros d HA.
    pose proof HA as (H & Hip). go H.
    p_step. eapply (p_dequeue (P _)); [exact Hq| |].
    2:{ p_step. p_step. p_step.
        - p_step. apply post_done. eapply at_done; try eassumption; auto.
        - p_step. p_step. p_step. p_step.
          assert (Hv : flow_of_event (event_time (ed_time d) (event_ip (ed_ip d) (new_event (Ev_disabled 0)))) = []).
          { apply no_flow_event. rewrite event_time_var.
            destruct (event_ip_var (ed_ip d) (new_event (Ev_disabled 0))) as (a & ->). reflexivity. }
          eapply p_mono; [apply (fetch_out cf pd0 fs (ps ++ [p])
            (event_time (ed_time d) (event_ip (ed_ip d) (new_event (Ev_disabled 0)))))| |].
          + rewrite Hv, app_nil_r. eapply at_done; try eassumption; auto.
          + intros _. exact Heqb.
          + left. split; reflexivity.
          + intros S. apply stamped_ip; auto; try discriminate.
            * unfold bears. cbn. rewrite E. reflexivity.
            * apply (at_time ip d HA Ei S).
            * rewrite (ip_packets_ip ip Ei). apply (Hip S).
            * constructor.
          + intros more d' (-> & HO). eexists [], _. rewrite app_nil_r. exact HO.
          + intros e' d' HF. exact HF. }
    intros b e q' i HP Hb Hq' Hh _. p_step. p_step. p_step. p_step. p_step. p_step.
    destruct (ev_var e) eqn:Ev; try fail_.
    - (* async branch *)
      repeat p_step. sd.
      set (e2 := set_var e (Ev_async_disabled from 0)) in *.
      assert (Hv : flow_of_event (event_time (ed_time d) (event_ip (ed_ip d) e2)) = []).
      { apply no_flow_event. rewrite event_time_var.
        destruct (event_ip_var (ed_ip d) e2) as (a & ->). reflexivity. }
      eapply (at_out ip (event_time (ed_time d) (event_ip (ed_ip d) e2)) d); auto.
      + right. exists i. split; [reflexivity|sd; eassumption].
      + intros S. destruct (P_facts _ _ _ _ HP Hb eq_refl S) as (F1 & F2 & F3); [rewrite Ev; reflexivity|].
        rewrite Ev in F2. apply stamped_ip; auto; try discriminate.
        * unfold bears. cbn. rewrite E. reflexivity.
        * apply (at_time ip d HA Ei S).
        * rewrite (ip_packets_ip ip Ei). apply (Hip S).
        * constructor.
      + rewrite Hv. reflexivity.
      + intros S. cbn [ed_bound set_bound set_alone set_event set_enabled set_evq]. rewrite Hv, app_nil_r.
        destruct (ed_bound d) eqn:Eb; [apply (flows_bound d H Eb S)|].
        rewrite (flows_unbound d H Eb S), flows_app, flows_one, Ef, app_nil_r. reflexivity.
    - p_step; [|fail_]. repeat p_step. eapply (queued_quiet ip b _ e i d); try reflexivity; try eassumption; auto;
        rewrite ?Ev; try reflexivity. unfold bears. cbn [ev_var set_suppressed]. rewrite Ev, E. reflexivity.
    - repeat p_step. eapply (queued_quiet ip b _ e i d); try reflexivity; try eassumption; auto;
        rewrite ?Ev; try reflexivity. unfold bears. cbn [ev_var set_suppressed]. rewrite Ev, E. reflexivity.
    - p_step; [|fail_]. repeat p_step. eapply (queued_quiet ip b _ e i d); try reflexivity; try eassumption; auto;
        rewrite ?Ev; try reflexivity. unfold bears. cbn [ev_var set_suppressed]. rewrite Ev, E. reflexivity.
  Qed.
End IPS.
