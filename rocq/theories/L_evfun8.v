(** The events of a trace as a function of its packets: all packets. *)

From Verif Require Import Base M_packet M_config M_pktdec M_lastip M_time
  M_evq M_event M_evdec S_evq S_evtrace S_evfun L_evq L_evqpos L_evdec L_evsafe L_evtrace L_evfun L_evfun2
  L_evfun3 L_evfun4 L_evfun5 L_evnext L_evfun6 L_evfun7.
From Coq Require Import List NArith ZArith PeanoNat Bool Lia.
Import ListNotations.
Open Scope nat_scope.

Section ALL.
  Context (cf : config) (buf : list N) (err : pte).
  Hypothesis moves : callback_moves cf.
  Hypothesis freq : (cf_mtc_freq cf < 24)%N.
  Hypothesis small : (N.of_nat (length buf) + 1 < 2 ^ 31)%N.
  Hypothesis skip : no_skipping cf.

  Notation Core := (Core cf buf err).
  Notation Done := (Done cf buf err).
  Notation Mid := (Mid cf buf err).
  Notation Here := (Here cf buf err).
  Notation Next := (Next cf buf err).
  Notation Post := (Post buf).
  Notation yields := (yields buf).
  Notation andthen := (andthen cf err).
  Notation Begins := (Begins cf buf err).
  Notation Decodes := (Decodes cf buf err).

  Definition at_end (d : evdec) : Prop :=
    pkt_pl (ed_pkt d) = P_psbend \/ pkt_pl (ed_pkt d) = P_ovf.
  Definition Out (o : outcome) (n : nat) (more : bool) (d : evdec) : Prop :=
    more = true /\ yields d o /\ at_end d /\ rem buf (ed_pd d) <= n /\ okd cf buf d.

  Lemma head_loop slot n : (forall r, length r < n -> Next r) ->
    forall fuel ps s d, length ps <= n -> rem buf (ed_pd d) < fuel -> Begins slot s ps d ->
    wp (psb_header fuel slot) (Out (events_of cf s ps err) (rem buf (ed_pd d)))
       (Fail (events_of cf s ps err)) d.
  Proof.
    intros HN. induction fuel as [|fuel IH]; intros ps s d Hn Hf HB; [lia|].
    pose proof HB as [(l & [HC Hh Hk Hp Hq Hno He Hb]) Hslot].
    pose proof HC as [Hpd Hw Hip Ht Hc Hon Hm Hv].
    assert (Hf2 : rem buf (ed_pd d) < scan_fuel (ed_pd d)) by apply (scan_fuel_ok cf buf _ Hpd).
    destruct (fetch_whole cf buf err moves freq small ps (ed_pd d) _ Hpd Hw Hf2 Hv) as (pads & ps' & -> & Hpads & HF).
    rewrite (events_pads cf err _ _ _ Hpads).
    cbn [psb_header]. apply wp_bind. unfold wp at 1, pt_evt_fetch_packet. destruct ps' as [|p r].
    - destruct HF as (pd' & ->). apply wp_bind, wp_get. cbn. reflexivity.
    - destruct HF as (pd' & -> & H1 & H2 & H3 & H4 & H5 & H6).
      assert (Hr : length r < n) by (rewrite app_length in Hn; cbn [length] in Hn; lia).
      set (d1 := set_pkt (set_pd d pd') p).
      assert (HB1 : Begins slot s r d1).
      { split; [|exact Hslot]. exists l. split; auto. split; auto. }
      apply wp_bind, wp_get. change (ed_pkt d1) with p. change (ed_enabled d1) with (ed_enabled d).
      rewrite (events_cons cf err). unfold packet_events. rewrite Hh.
      assert (Hgo : forall m, inside cf s l p r err = quietly (header cf s p) ->
        wp m (Step cf buf err slot (header cf s p) r pd') (Stop (header cf s p)) d1 ->
        wp (run m; psb_header fuel slot) (Out (andthen (inside cf s l p r err) r) (rem buf (ed_pd d)))
           (Fail (andthen (inside cf s l p r err) r)) d1).
      { intros m Ei Hm1. rewrite Ei. apply wp_bind. eapply wp_mono; [exact Hm1| |].
        - intros [] d2 (s2 & E2 & B2 & P2). rewrite E2.
          replace (andthen (quietly (Ok s2)) r) with (events_of cf s2 r err)
            by (cbn; destruct (events_of cf s2 r err); reflexivity).
          eapply wp_mono; [apply (IH r s2 d2)| |].
          + lia.
          + rewrite P2. lia.
          + exact B2.
          + intros more d3 (G1 & G2 & G3 & G4 & G5). rewrite P2 in G4.
            split; [exact G1|]. split; [exact G2|]. split; [exact G3|]. split; [lia|exact G5].
          + auto.
        - intros e d2 E2. red in E2. rewrite E2. reflexivity. }
      assert (Hi : match pkt_pl p with P_psbend | P_ovf => True | _ => inside cf s l p r err = quietly (header cf s p) end)
        by (unfold inside; destruct (pkt_pl p); auto).
      assert (Hbad : header cf s p = Err pte_bad_context -> inside cf s l p r err = quietly (header cf s p) ->
        wp (fail pte_bad_context) (Out (andthen (inside cf s l p r err) r) (rem buf (ed_pd d)))
          (Fail (andthen (inside cf s l p r err) r)) d1).
      { intros E1 E2. rewrite E2, E1. reflexivity. }
      assert (Hs0 : slot = slot_of (ed_evq d1) 0).
      { unfold slot_of. rewrite Nat.add_0_r, Nat.mod_small; [symmetry; exact Hslot|]. apply Hq. }
      assert (HCd : Core s r d1) by (split; auto).
      assert (Htail : forall q e, qrep q (psbq (e :: l)) -> shown e = true ->
        Tail cf buf err s r (e :: l) (set_evq d1 q)).
      { intros q e G1 G2. split; auto; [destruct HCd; split; auto|]. cbn [forallb]. rewrite G2.
        apply noted_shown. exact Hno. }
      assert (Htr : forall e, e = (if ed_enabled d then set_var status0 (Ev_enabled 0 false)
                                  else set_suppressed (set_var status0 (Ev_disabled 0)) true) ->
        appears s e = tracing s /\ shown e = true).
      { intros e ->. rewrite Hon. unfold tracing. destruct (k_on s); split; reflexivity. }
      assert (Hwrite : forall e (Q : unit -> evdec -> Prop) (F : pte -> evdec -> Prop), (forall q, qrep q (psbq (e :: l)) -> Q tt (set_evq d1 q)) ->
        wp (write_event (Slot slot) e) Q F d1).
      { intros e Q F HQ. rewrite Hs0. eapply wp_write_pos; [exact Hq|rewrite psbq_length; cbn; lia|].
        intros q G1 _ _. apply HQ. exact G1. }
      assert (Hread : forall (Q : event -> evdec -> Prop) (F : pte -> evdec -> Prop), Q status0 d1 -> wp (read_event (Slot slot)) Q F d1).
      { intros Q F HQ. rewrite Hs0. eapply wp_read_pos; [exact Hq|reflexivity|exact HQ]. }
      assert (Hnx : Next r) by (apply HN; exact Hr).
      assert (Hok : forall q l', qrep q l' -> okd cf buf (set_evq d1 q)).
      { intros q l' G. split; [exact H3|]. split; [exists l'; exact G|].
        unfold ev_ok. cbn [ed_event set_evq d1 set_pkt set_pd]. rewrite He. exact I. }
      destruct (pkt_pl p) eqn:Epl; try (apply Hbad; [unfold header; rewrite Epl; reflexivity|exact Hi]);
        try (destruct H1; exact Epl); try (destruct H2; reflexivity);
        lazymatch type of Epl with
        | _ = P_psbend => idtac
        | _ = P_ovf => idtac
        | _ => apply Hgo; [exact Hi|]; change pd' with (ed_pd d1);
          lazymatch type of Epl with
          | _ = P_mode _ => destruct p as [pl sz]; cbn [pkt_pl] in Epl; subst pl;
              apply (hmode_f cf buf err slot s r _ _ HB1 _ _ eq_refl)
          | _ => unfold header; rewrite Epl
          end;
          try (apply (hfup_f cf buf err skip slot s r _ HB1));
          try (apply (notes_f cf buf err slot s r _ HB1); reflexivity)
        end.
      + apply wp_bind, Hread, wp_bind, Hwrite. intros q G1. apply wp_ret.
        destruct (Htr _ eq_refl) as [A1 A2]. split; [reflexivity|]. split; [|split; [left; exact Epl|]].
        * unfold inside. rewrite Epl.
          replace (gives (leaves_psb cf s p) (tracing s :: map (shows s) l))
            with (tail_of (tracing s :: map (shows s) l) (gives (leaves_psb cf s p) []))
            by (unfold tail_of, gives; cbn [fst snd]; rewrite app_nil_r; reflexivity).
          rewrite andthen_tail, <- A1, <- (noted_appears s l Hno).
          change (?a :: map ?f l) with (map f ((if ed_enabled d then set_var status0 (Ev_enabled 0 false)
                                  else set_suppressed (set_var status0 (Ev_disabled 0)) true) :: l)).
          apply (psbend_tail cf buf err freq small); auto.
        * split; [change (rem buf pd' <= rem buf (ed_pd d)); lia|exact (Hok _ _ G1)].
      + destruct p as [pl sz]; cbn [pkt_pl] in Epl; subst pl.
        apply (hcbr_f cf buf err freq slot s r _ _ HB1 _ _ eq_refl).
      + destruct p as [pl sz]; cbn [pkt_pl] in Epl; subst pl.
        apply (hclock_f cf buf err slot s r _ _ HB1 _ _ _ eq_refl (times_htsc cf freq _)).
      + destruct p as [pl sz]; cbn [pkt_pl] in Epl; subst pl.
        apply (hclock_f cf buf err slot s r _ _ HB1 _ _ _ eq_refl (times_tma cf freq _ _ _)).
      + destruct p as [pl sz]; cbn [pkt_pl] in Epl; subst pl.
        apply (hclock_f cf buf err slot s r _ _ HB1 _ _ _ eq_refl (times_mtc cf freq _ _)).
      + destruct p as [pl sz]; cbn [pkt_pl] in Epl; subst pl.
        apply (hclock_f cf buf err slot s r _ _ HB1 _ _ _ eq_refl (times_cyc cf freq _ _)).
      + unfold inside. rewrite Epl.
        assert (Ho : forall evs, (let (e2, r0) := overflows cf s p r err in (evs ++ map (shows s) l ++ e2, r0)) =
          tail_of (evs ++ map (shows s) l) (overflows cf s p r err)).
        { intros evs. unfold tail_of. destruct (overflows cf s p r err). cbn. rewrite app_assoc. reflexivity. }
        rewrite Ho, andthen_tail. clear Ho. rewrite <- (noted_appears s l Hno).
        destruct (ed_enabled d) eqn:Een; rewrite <- Hon.
        * apply wp_bind, Hread, wp_bind, Hwrite. intros q G1. apply wp_ret.
          destruct (Htr _ eq_refl) as [A1 A2].
          split; [reflexivity|]. split; [|split; [right; exact Epl|]].
          -- cbn [app]. rewrite <- A1. change (?a :: map ?f l) with (map f (set_var status0 (Ev_enabled 0 false) :: l)).
             apply (ovf_tail_y cf buf err moves freq small skip); auto.
          -- split; [change (rem buf pd' <= rem buf (ed_pd d)); lia|exact (Hok _ _ G1)].
        * apply wp_bind. eapply wp_dequeue; [exact Hq| |discriminate].
          intros e l' E q i G1 G2 G3 _. injection E as <- <-.
          rewrite G3. change (ed_evq d1) with (ed_evq d). rewrite Hslot, Nat.eqb_refl. apply wp_ret.
          split; [reflexivity|]. split; [|split; [right; exact Epl|]].
          -- cbn [app]. apply (ovf_tail_y cf buf err moves freq small skip); auto.
             split; auto; [destruct HCd; split; auto|apply noted_shown; exact Hno].
          -- split; [change (rem buf pd' <= rem buf (ed_pd d)); lia|exact (Hok _ _ G1)].
  Qed.

  (** PSB: the status is collected. *)
  Lemma psb_f n s p ps d : (forall r, length r < n -> Next r) -> length ps <= n ->
    Here s p ps d -> pkt_pl p = P_psb ->
    wp pt_evt_decode_psb (Out (events_of cf s (p :: ps) err) (rem buf (ed_pd d)))
       (Fail (events_of cf s (p :: ps) err)) d.
  Proof.
    intros HN Hn [HD Hp Hv He Hb] Hpl. pose proof HD as [[Hpd Hw Hip Ht Hc Hon Hm Hval] [Hq Hf Ho] Hh Hps].
    unfold pt_evt_decode_psb. apply wp_bind, wp_get. rewrite (qrep_pending _ _ _ Hq), (qs_existsb _ _ _ asks_all).
    rewrite (events_cons cf err). unfold packet_events. rewrite Hh. unfold outside. rewrite Hpl.
    destruct (k_wait s) as [|w l] eqn:Ek; cbn [existsb orb]; [|reflexivity].
    apply wp_bind, wp_modify. cbv zeta. apply wp_bind.
    set (s1 := mk_track (hw_step cf (k_hw s) p) false (k_mode s) [] (Some [])).
    set (d1 := set_enabled (set_lip d pt_last_ip_init) false).
    assert (Hq1 : qrep (ed_evq d1) []) by exact Hq.
    destruct (qrep_enqueue (ed_evq d1) [] evb_psbend (set_status_update zero_event) Hq1) as (q & E & G1 & G2 & _).
    unfold wp at 1, enqueue. rewrite E.
    replace (andthen (gives s1 []) ps) with (events_of cf s1 ps err)
      by (cbn; destruct (events_of cf s1 ps err); reflexivity).
    change (rem buf (ed_pd d)) with (rem buf (ed_pd (set_evq d1 q))).
    apply head_loop with (n := n); auto; [apply (scan_fuel_ok cf buf _ Hpd)|].
    split.
    - exists []. unfold s1, hw_step. rewrite Hpl. split; auto. split; auto.
    - cbn [ed_evq set_evq]. rewrite G2. apply (qrep_empty _ Hq).
  Qed.

  (** ** All packets *)

  Lemma decodes_all n : (forall r, length r < n -> Next r) -> forall p ps, length ps < n -> Decodes p ps.
  Proof.
    intros HN p ps Hn s d HH. pose proof HH as [HD Hp Hv He Hb]. pose proof (HN ps Hn) as next.
    pose proof (d_head _ _ _ _ _ _ HD) as Hh.
    assert (Hd : pkt_pl p <> P_psb -> wp (decode_other (ret false) (pkt_pl p))
        (Post d (events_of cf s (p :: ps) err)) (Fail (events_of cf s (p :: ps) err)) d ->
      yields d (events_of cf s (p :: ps) err)).
    { intros H1 H2. apply (y_decode cf buf freq small). unfold pt_evt_decode_packet. apply wp_bind, wp_get.
      rewrite Hp. destruct (pkt_pl p); try exact H2. congruence. }
    destruct (pkt_pl p) eqn:Epl.
    all: try (apply Hd; [discriminate|]; rewrite (events_cons cf err); unfold packet_events; rewrite Hh;
      unfold outside; rewrite Epl; cbn [decode_other]).
    all: lazymatch type of Epl with
         | _ = P_tnt_8 _ => eapply tnt_f; eassumption
         | _ = P_tnt_64 _ => eapply tnt_f; eassumption
         | _ = P_mode _ => eapply mode_f; eassumption
         | _ = P_pip _ _ => eapply pip_f; eassumption
         | _ = P_vmcs _ => eapply vmcs_f; eassumption
         | _ = P_mwait _ _ => eapply mwait_f; eassumption
         | _ = P_ptw _ _ _ => eapply ptw_f; eassumption
         | _ = P_trig _ _ _ _ _ => eapply trig_f; eassumption
         | _ = P_exstop _ => eapply exstop_f; eassumption
         | _ = P_cfe _ _ _ => eapply cfe_f; eassumption
         | _ = P_evd _ _ => eapply evd_f; eassumption
         | _ = P_fup _ => eapply fup_f; eassumption
         | _ = P_tip _ => eapply tip_f; eassumption
         | _ = P_tip_pge _ => eapply pge_f; eassumption
         | _ = P_tip_pgd _ => eapply pgd_f; eassumption
         | _ = P_ovf => eapply ovf_f; eassumption
         | _ = P_psbend => eapply psbend_f; eassumption
         | _ = P_pad => eapply silent_f; eassumption
         | _ = P_unknown _ => eapply silent_f; eassumption
         | _ = P_pwre _ _ _ => eapply now_f; eassumption
         | _ = P_pwrx _ _ _ _ _ => eapply now_f; eassumption
         | _ = P_stop => eapply now_f; eassumption
         | _ = P_mnt _ => eapply now_f; eassumption
         | _ => idtac
         end.
    - exfalso. apply Hv. rewrite Hp. exact Epl.
    - assert (HP : wp pt_evt_decode_psb (Out (events_of cf s (p :: ps) err) (rem buf (ed_pd d)))
       (Fail (events_of cf s (p :: ps) err)) d) by (apply (psb_f n); auto; lia).
      assert (Ed : forall d', pt_evt_decode_psb d = (d', Ok true) -> at_end d' ->
        pt_evt_decode_packet d = pt_evt_decode_packet d').
      { intros d' E Hend. unfold pt_evt_decode_packet, sbind, get. rewrite Hp, Epl. cbn [decode_other].
        rewrite E. destruct Hend as [-> | ->]; reflexivity. }
      destruct (pt_evt_decode_psb d) as [d' [more|e|u]] eqn:E; unfold wp in HP; rewrite E in HP; [| |destruct HP].
      + destruct HP as (-> & Hy & Hend & Hr & _). eapply (y_same cf buf freq small); [apply (Ed d' eq_refl Hend)| |exact Hy].
        rewrite !need_valid; [lia|exact Hv|]. unfold valid_pkt. destruct Hend as [-> | ->]; discriminate.
      + apply (y_decode cf buf freq small). unfold wp, pt_evt_decode_packet, sbind, get. rewrite Hp, Epl. cbn [decode_other].
        rewrite E. exact HP.
    - destruct p as [pl sz]; cbn [pkt_pl] in Epl; subst pl.
      eapply cbr_f; [eassumption..|reflexivity].
    - destruct p as [pl sz]; cbn [pkt_pl] in Epl; subst pl.
      eapply time_f; [eassumption..|apply (times_tsc cf freq)|reflexivity].
    - destruct p as [pl sz]; cbn [pkt_pl] in Epl; subst pl.
      eapply time_f; [eassumption..|apply (times_tma cf freq)|reflexivity].
    - destruct p as [pl sz]; cbn [pkt_pl] in Epl; subst pl.
      eapply time_f; [eassumption..|apply (times_mtc cf freq)|reflexivity].
    - destruct p as [pl sz]; cbn [pkt_pl] in Epl; subst pl.
      eapply time_f; [eassumption..|apply (times_cyc cf freq)|reflexivity].
  Qed.

  Lemma next_all n : forall ps, length ps < n -> Next ps.
  Proof.
    induction n as [|n IH]; intros ps Hn; [lia|].
    apply (next_intro cf buf err moves freq small). intros pads p ps' ->. apply (decodes_all n IH).
    rewrite app_length in Hn. cbn [length] in Hn. lia.
  Qed.

  (** ** Synchronisation and runs *)

  Lemma start_yields d d' ps : pd_ok cf buf (ed_pd d) -> whole (ed_pd d) ps err ->
    Forall (fun p => pkt_pl p <> P_invalid) ps ->
    ed_evq d = pt_evq_init zero_event -> ed_ip d = pt_last_ip_init -> ed_time d = pt_time_init ->
    ed_tcal d = pt_tcal_init -> ed_bound d = false -> ed_event d = None -> ed_enabled d = false ->
    ms_valid (ed_mode d) = false ->
    pt_evt_start d = (d', Ok tt) -> yields d' (events_of cf track0 ps err) /\ okd cf buf d'.
  Proof.
    intros Hpd Hw Hv Eq Ei Et Ec Eb Ee En Em Es.
    assert (Hf : rem buf (ed_pd d) < scan_fuel (ed_pd d)) by apply (scan_fuel_ok cf buf _ Hpd).
    destruct (fetch_whole cf buf err moves freq small ps (ed_pd d) _ Hpd Hw Hf Hv) as (pads & ps' & -> & Hpads & HF).
    rewrite (events_pads cf err _ _ _ Hpads).
    unfold pt_evt_start, sbind, modify, get in Es. unfold pt_evt_fetch_packet in Es.
    change (ed_pd (set_status d None)) with (ed_pd d) in Es. destruct ps' as [|p r].
    - destruct HF as (pd' & Ef). rewrite Ef in Es. discriminate Es.
    - destruct HF as (pd' & Ef & H1 & H2 & H3 & H4 & H5 & H6). rewrite Ef in Es.
      set (d1 := set_pkt (set_pd (set_status d None) pd') p) in Es. change (ed_pkt d1) with p in Es.
      destruct (pkt_pl p) eqn:Epl; try discriminate Es.
      assert (HH : Here track0 p r d1).
      { split; auto; [|unfold valid_pkt; change (ed_pkt d1) with p; rewrite Epl; discriminate].
        split; [split; auto| |reflexivity|reflexivity].
        split; [|reflexivity|reflexivity]. cbn [ed_evq d1 set_pkt set_pd set_status]. rewrite Eq. apply qrep_init. }
      assert (HP : wp pt_evt_decode_psb (Out (events_of cf track0 (p :: r) err) (rem buf (ed_pd d1)))
        (Fail (events_of cf track0 (p :: r) err)) d1).
      { apply (psb_f (length r)); auto. intros r' Hr. apply (next_all (length r)). exact Hr. }
      destruct (pt_evt_decode_psb d1) as [d2 [more|e|u]] eqn:E; unfold wp in HP; rewrite E in HP; try discriminate Es.
      injection Es as <-. destruct HP as (_ & HP & _ & _ & Hok). split; assumption.
  Qed.

  Lemma yields_next d o : yields d o -> okd cf buf d ->
    exists e d' d'', snd o = Err e /\ returns d (fst o) d' /\ pt_evt_next d' = (d'', Err e).
  Proof.
    assert (Hn : forall d, okd cf buf d -> pt_evt_next d = nextf (S (scan_fuel (ed_pd d))) d)
      by (intros; reflexivity).
    assert (Hneed : forall d, okd cf buf d -> need buf d <= S (scan_fuel (ed_pd d))).
    { intros d0 (Hpd & _). pose proof (scan_fuel_ok cf buf _ Hpd). unfold need.
      destruct (pkt_pl (ed_pkt d0)); lia. }
    induction 1 as [d d' e Hx|d d' e evs r Hx Hy IH]; intros Hok.
    - exists e, d, d'. cbn [fst snd]. split; [reflexivity|]. split; [constructor|].
      rewrite (Hn d Hok). apply Hx. auto.
    - assert (E : pt_evt_next d = (d', Ok e)) by (rewrite (Hn d Hok); apply Hx; auto).
      pose proof (next_ok cf buf moves freq small d Hok) as W. unfold wp in W. rewrite E in W.
      destruct (IH (proj1 W)) as (e0 & d1 & d2 & H1 & H2 & H3). exists e0, d1, d2. cbn [fst snd] in *.
      split; [exact H1|]. split; [econstructor; eauto|exact H3].
  Qed.
End ALL.
