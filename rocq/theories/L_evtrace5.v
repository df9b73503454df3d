(** The events of a trace against its packets: whole runs. *)

From Verif Require Import Base M_packet M_config M_pktdec M_lastip M_time
  M_evq M_event M_evdec S_evq S_evtrace L_evq L_evqpos L_evdec L_evsafe L_evq_rules
  L_evtrace L_evtrace2 L_evtrace3 L_evtrace4.
From Coq Require Import List NArith ZArith PeanoNat Bool Lia ZifyBool ZifyNat ZifyN.
Import ListNotations.
Open Scope nat_scope.

Section RUN.
  Context (cf : config) (pd0 : pktdec).
  Hypothesis conf : pd_config pd0 = cf.

  Notation strict := (no_skipping cf).
  Notation P := (P cf).
  Notation Here := (Here cf pd0).
  Notation Done := (Done cf pd0).
  Notation Dead := (Dead cf pd0).
  Notation Live := (Live cf pd0).
  Notation Out := (Out cf pd0).
  Notation Post := (Post cf pd0).
  Notation Failed := (Failed cf pd0).
  Notation HeadEnd := (HeadEnd cf pd0).

  Ltac p_step :=
    lazymatch goal with
    | |- pwp (sbind _ _) _ _ _ => apply p_bind
    | |- pwp (ret _) _ _ _ => apply p_ret
    | |- pwp (fail _) _ _ _ => apply p_fail
    | |- pwp get _ _ _ => apply p_get
    | |- pwp (modify _) _ _ _ => apply p_modify
    | |- pwp (publish _) _ _ _ => apply p_publish
    end.
  Ltac fail_ := apply failed; discriminate.

  (** Packets without meaning. *)
  Definition idle (p : payload) : bool :=
    match p with P_pad | P_unknown _ | P_invalid | P_psbend => true | _ => false end.
  Lemma idle_done fs ps p d : Here fs ps p d -> idle (pkt_pl p) = true ->
    Post fs (ps ++ [p]) true d.
  Proof.
    intros (Hr & Hp & Hq & Ht & Hs) Hi. exists []. rewrite app_nil_r.
    assert (Hf : flow_of_packet p = []) by (unfold flow_of_packet; destruct (pkt_pl p); auto; discriminate).
    split; [exact Hr|]. split; [exact Hq|].
    split; [rewrite flows_app, flows_one, Hf, app_nil_r; exact Ht|]. intros S.
    destruct (Hs S) as (S1 & S2 & S3 & S4 & S5 & S6).
    assert (Hip : ipp (pkt_pl p) = false) by (destruct (pkt_pl p); auto; discriminate).
    rewrite Hip in *. rewrite flows_app, flows_one, Hf, app_nil_r. rewrite after_snoc.
    split; [exact S1|].
    assert (Hh : forall h, h_ip (hw_step cf h p) = h_ip h /\ h_time (hw_step cf h p) = h_time h /\
                           h_cal (hw_step cf h p) = h_cal h).
    { intros h. unfold hw_step. destruct (pkt_pl p); try discriminate; auto. }
    destruct (Hh (hw_after cf ps)) as (G1 & G2 & G3).
    split; [unfold HW; rewrite G1, G2, G3; intuition discriminate|].
    split.
    - unfold hw_step. destruct (pkt_pl p); try discriminate; try reflexivity;
        destruct (h_psb (hw_after cf ps)); auto; discriminate (S5 eq_refl).
    - destruct (ed_bound d); [destruct S6; discriminate|exact S6].
  Qed.

  Lemma other_t fs ps p d psb : Here fs ps p d ->
    (pkt_pl p = P_psb -> pwp psb (Post fs (ps ++ [p])) (Failed fs) d) ->
    pwp (decode_other psb (pkt_pl p)) (Post fs (ps ++ [p])) (Failed fs) d.
  Proof.
    intros H Hpsb. destruct (pkt_pl p) eqn:E; cbn [decode_other].
    all: match goal with |- pwp ?x _ _ _ => is_var x; apply Hpsb; reflexivity | |- _ => idtac end.
    all: lazymatch goal with
    | H : Here _ _ _ _, E : pkt_pl _ = _ |- pwp (ret _) _ _ _ => p_step; apply idle_done; [exact H|rewrite E; reflexivity]
    | |- _ => idtac
    end.
    all: lazymatch goal with
    | |- pwp (pt_evt_decode_tnt _) _ _ _ => eapply tnt_t; [eassumption|auto]
    | |- pwp (pt_evt_decode_mode _) _ _ _ => eapply mode_t; [eassumption|eassumption]
    | |- pwp (pt_evt_decode_pip _ _) _ _ _ => eapply pip_t; [eassumption|eassumption]
    | |- pwp (pt_evt_decode_vmcs _) _ _ _ => eapply vmcs_t; [eassumption|eassumption]
    | |- pwp (pt_evt_decode_mnt _) _ _ _ => eapply mnt_t; [eassumption|eassumption]
    | |- pwp pt_evt_decode_stop _ _ _ => eapply stop_t; [eassumption|eassumption]
    | |- pwp (pt_evt_decode_mwait _ _) _ _ _ => eapply mwait_t; [eassumption|eassumption]
    | |- pwp (pt_evt_decode_pwre _ _ _) _ _ _ => eapply pwre_t; [eassumption|eassumption]
    | |- pwp (pt_evt_decode_pwrx _ _ _ _ _) _ _ _ => eapply pwrx_t; [eassumption|eassumption]
    | |- pwp (pt_evt_decode_ptw _ _ _) _ _ _ => eapply ptw_t; [eassumption|eassumption]
    | |- pwp (pt_evt_decode_trig _ _ _ _ _) _ _ _ => eapply trig_t; [eassumption|eassumption]
    | |- pwp (pt_evt_decode_exstop _) _ _ _ => eapply exstop_t; [eassumption|eassumption]
    | |- pwp (pt_evt_decode_cfe _ _ _) _ _ _ => eapply cfe_t; [eassumption|eassumption|eassumption]
    | |- pwp (pt_evt_decode_evd _ _) _ _ _ => eapply evd_t; [eassumption|eassumption|eassumption]
    | |- pwp (pt_evt_decode_tsc _) _ _ _ => eapply tsc_t; [eassumption|eassumption|eassumption]
    | |- pwp (pt_evt_decode_tma _ _) _ _ _ => eapply tma_t; [eassumption|eassumption|eassumption]
    | |- pwp (pt_evt_decode_mtc _) _ _ _ => eapply mtc_t; [eassumption|eassumption|eassumption]
    | |- pwp (pt_evt_decode_cyc _) _ _ _ => eapply cyc_t; [eassumption|eassumption|eassumption]
    | |- pwp (pt_evt_decode_cbr _) _ _ _ => eapply cbr_t; [eassumption|eassumption|eassumption]
    | |- pwp pt_evt_decode_ovf _ _ _ => eapply ovf_t; [eassumption|eassumption|eassumption]
    | |- pwp (pt_evt_decode_tip_pgd _) _ _ _ => eapply tip_pgd_t; [eassumption|eassumption]
    | |- pwp (pt_evt_decode_tip _) _ _ _ => unfold pt_evt_decode_tip; eapply decode_tip_t; [eassumption|eassumption]
    | |- pwp (pt_evt_decode_tip_pge _) _ _ _ =>
        unfold pt_evt_decode_tip_pge; eapply decode_tip_pge_t; [eassumption|eassumption]
    | |- pwp (pt_evt_decode_fup _) _ _ _ => unfold pt_evt_decode_fup; eapply decode_fup_t; [eassumption|eassumption]
    | |- _ => idtac
    end.
    - pose proof H as (_ & _ & _ & _ & Hs). p_step. p_step.
      destruct (ed_status d) as [e|] eqn:Es; p_step.
      + intros S. destruct (Hs S) as ([S1|S1] & _); [congruence|].
        left. intros ->. congruence.
      + apply idle_done; [exact H|rewrite E; reflexivity].
    - eapply p_mono; [apply (psbend_t _ _ _ _ _ _ H); rewrite E; reflexivity| |auto].
      intros [|] d' Hd; [subst d'|exact Hd]. apply idle_done; [exact H|rewrite E; reflexivity].
  Qed.

  Lemma post_more fs ps m more d : Post fs (ps ++ m) more d -> Post fs ps more d.
  Proof. apply loose_post. Qed.

  Lemma packet_t fs ps p d : Here fs ps p d ->
    pwp pt_evt_decode_packet (Post fs (ps ++ [p])) (Failed fs) d.
  Proof.
    intros H. pose proof H as (_ & Hp & _). unfold pt_evt_decode_packet. p_step. p_step. rewrite Hp.
    apply other_t; [exact H|]. intros E. p_step.
    eapply p_mono; [apply (psb_t _ _ conf _ _ _ _ H E)| |auto].
    intros _ d' (m & q & Hq & He). p_step. p_step. pose proof Hq as (_ & -> & _).
    eapply p_mono; [apply (other_t _ _ _ _ _ Hq)| |auto].
    - intros E2. rewrite E2 in He. discriminate.
    - intros more d2 HP. apply (post_more _ (ps ++ [p]) (m ++ [q])). rewrite app_assoc. exact HP.
  Qed.

  Lemma dead_t fs ps d Q : Dead fs ps d -> pwp pt_evt_decode_packet Q (Failed fs) d.
  Proof.
    intros (Hr & Hp & (e & E1 & E2) & Ht & Hs). unfold pt_evt_decode_packet. p_step. p_step. rewrite Hp.
    cbn [decode_other]. p_step. p_step. rewrite E1. p_step. intros S. right. exists ps. auto.
  Qed.

  Lemma fetch_event_t fuel : forall fs ps d, Live fs ps d ->
    pwp (fetch_event fuel) (fun _ d' => exists m e, Out fs (ps ++ m) e d') (Failed fs) d.
  Proof.
    induction fuel as [|fuel IH]; intros fs ps d (m & H); [exact I|]. cbn [fetch_event]. p_step.
    destruct H as [H|(ps0 & p & E & H)]; [eapply dead_t; exact H|].
    eapply p_mono; [apply (packet_t _ _ _ _ H)| |auto]. rewrite <- E.
    intros [|] d1; cbn [negb].
    - intros (m1 & HD). p_step. p_step. destruct (ed_event d1) eqn:Ee; [p_step; fail_|].
      p_step. p_step. p_step. apply (fetch_live cf pd0 fs ((ps ++ m) ++ m1)).
      + exact HD.
      + reflexivity.
      + intros d' HL _ _ _. eapply p_mono; [apply (IH _ _ _ HL)| |auto].
        intros _ d2 (m2 & e & HO). exists (m ++ m1 ++ m2), e. rewrite !app_assoc. exact HO.
    - intros (m1 & e & HO). p_step. exists (m ++ m1), e. rewrite app_assoc. exact HO.
  Qed.

  Lemma live_same fs ps d d' : Live fs ps d -> ed_pd d' = ed_pd d -> ed_pkt d' = ed_pkt d ->
    ed_evq d' = ed_evq d -> ed_ip d' = ed_ip d -> ed_time d' = ed_time d -> ed_tcal d' = ed_tcal d ->
    ed_status d' = ed_status d -> ed_bound d' = ed_bound d -> Live fs ps d'.
  Proof.
    intros (m & H) E1 E2 E3 E4 E5 E6 E7 E8. exists m. destruct H as [H|(ps0 & p & E & H)].
    - left. unfold L_evtrace.Dead in *. rewrite E1, E2, E7. exact H.
    - right. exists ps0, p. split; [exact E|]. unfold L_evtrace.Here, stat in *.
      rewrite E1, E2, E3, E4, E5, E6, E7, E8. exact H.
  Qed.

  Lemma next_t fs ps d : Live fs ps d ->
    pwp pt_evt_next (fun e d' => exists m, let fs' := fs ++ flow_of_event e in
      Live fs' (ps ++ m) d' /\ tnts fs' = tnts (flows (ps ++ m)) /\
      (strict -> stamped cf (ps ++ m) e /\ fs' = flows (ps ++ m))) (Failed fs) d.
  Proof.
    intros H. unfold pt_evt_next, pt_evt_fetch_event. p_step. p_step. p_step.
    eapply p_mono; [apply (fetch_event_t _ fs ps _ H)| |auto].
    intros _ d1 (m & e & Hp & Ht & Hs & HL). p_step. p_step. p_step. p_step.
    assert (HL2 : Live (fs ++ flow_of_event e) (ps ++ m) (set_event d1 None)).
    { eapply live_same; [exact HL|reflexivity..]. }
    destruct Hp as [(Ee & Ea)|(i & Ee & Ei)]; rewrite Ee.
    - apply p_read_alone. sd. rewrite Ea. exists m. auto.
    - eapply p_read_held; [sd; exact Ei|]. exists m. auto.
  Qed.

  Lemma start_t d : ed_pd d = pd0 -> ed_evq d = pt_evq_init zero_event -> ed_ip d = pt_last_ip_init ->
    ed_time d = pt_time_init -> ed_tcal d = pt_tcal_init -> ed_bound d = false ->
    pwp pt_evt_start (fun _ d' => Live [] [] d') (fun _ _ => True) d.
  Proof.
    intros E1 E2 E3 E4 E5 E6. unfold pt_evt_start. p_step. p_step. p_step.
    apply p_fetch; sd; rewrite E1.
    - intros pads p pd' H1 H2 H3. p_step. p_step. sd.
      destruct (pkt_pl p) eqn:Ep; try (p_step; exact I). p_step.
      eapply p_mono; [apply (psb_t cf pd0 conf [] pads p)| |auto].
      + split; [exact H1|]. split; [reflexivity|].
        split; [sd; rewrite E2; exists []; split; [apply qrep_init|constructor]|].
        split; [rewrite (pads_flows _ H2); reflexivity|]. intros S. sd.
        rewrite (pads_after cf [] pads H2 : hw_after cf pads = hw_after cf []).
        rewrite E3, E4, E5, E6, (pads_flows _ H2).
        split; [left; reflexivity|]. repeat (split; [first [reflexivity|left; reflexivity|discriminate]|]).
        reflexivity.
      + exact Ep.
      + intros _ d' (m & q & Hq & _). p_step. exists (((pads ++ [p]) ++ m) ++ [q]). right.
        exists ((pads ++ [p]) ++ m), q. split; [reflexivity|exact Hq].
    - intros pads e pd' H1 H2 H3. p_step. p_step. sd. cbn [pkt_pl]. p_step. exact I.
  Qed.
End RUN.
