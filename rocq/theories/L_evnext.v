(** Overflow handling, the dispatcher, and the calls of the event decoder: no undefined
    behaviour, the position never moves back, and every call makes progress. *)

From Verif Require Import Base M_packet M_config M_pktdec M_sync M_lastip M_time
  M_evq M_event M_evdec S_evq S_time S_evtrace L_evq L_evqpos L_bytes L_pktdec L_pktsafe L_time L_evdec L_evsafe S_sync L_sync.
From Coq Require Import List NArith ZArith PeanoNat Bool Lia ZifyBool ZifyNat ZifyN.
Import ListNotations.
Open Scope nat_scope.
Ltac Zify.zify_post_hook ::= Z.div_mod_to_equations.


Section SAFE.
  Context (cf : config) (buf : list N).
  Hypothesis moves : callback_moves cf.
  Hypothesis freq : (cf_mtc_freq cf < 24)%N.
  Hypothesis small : (N.of_nat (length buf) + 1 < 2 ^ 31)%N.

  Local Notation okd := (okd cf buf).
  Local Notation good_err := (good_err cf buf).
  Local Notation good_ok := (good_ok cf buf).
  Local Notation good_pkt := (good_pkt cf buf).
  Local Notation good_stay := (good_stay cf buf).

  Ltac destr_ok H := destruct H as (Hpd & [l Hq] & Hev); unfold ev_ok in Hev.

  Ltac fin_part :=
    lazymatch goal with
    | |- pd_ok _ _ _ => assumption
    | |- exists l, qrep _ l => eexists; eassumption
    | |- True => exact I
    | |- _ < 16 => qfacts; lia
    | |- match _ with _ => _ end => assumption
    | |- _ => idtac
    end.
  Ltac fin :=
    unfold good_pkt, good_err, good_ok, okd, ev_ok, progress_, at_, nb, dead in *; sd;
    repeat match goal with
    | |- _ /\ _ => split
    | |- true = false -> _ => intros E; discriminate E
    | |- false = false -> _ => intros _
    end; fin_part.
  Ltac num :=
    qfacts; repeat match goal with H : ed_bound ?d = _ |- _ => rewrite H in * end;
    first [lia | left; lia | right; left; split; [reflexivity|discriminate]
          | right; right; split; [lia | repeat match goal with |- context [if ?b then _ else _] => destruct b end; lia]].

  Ltac timing_solve :=
    first [apply (header_tsc_no_ub cf freq) | apply (tsc_no_ub cf freq)
          |apply (header_cbr_no_ub cf freq) | apply (cbr_no_ub cf freq)
          |apply (tma_no_ub cf freq) | apply (mtc_no_ub cf freq) | apply (cyc_no_ub cf freq)].

  Ltac step :=
    first
    [ wp_step
    | lazymatch goal with
      | |- wp pt_evt_fetch_packet _ _ _ =>
          eapply wp_fetch; [exact moves | sd; eassumption | intros | intros]; sd; cbv beta
      | |- wp (timing _) _ _ _ =>
          eapply wp_timing'; [sd; eassumption | intros; timing_solve | intros | intros];
          sd; cbv beta
      end ].

  (** * OVF *)

  Lemma ovf_fup_no_ub pd : pd_ok cf buf pd -> no_ub (pt_evt_find_ovf_fup pd).
  Proof.
    intros H. unfold pt_evt_find_ovf_fup.
    apply (scan_rule cf buf moves _ _ (fun off pd' => (off <= N.of_nat (pd_at pd'))%N));
      auto using (scan_fuel_ok cf buf).
    - intros s pd0 pd' p Hok Hs En Hok' Hlt Hsome. unfold ovf_fup_step.
      pose proof (next_step cf buf pd0 moves Hok) as Hn. rewrite En in Hn.
      destruct Hn as (_ & _ & _ & Hsz & Hsz1 & _). destruct Hok' as (_ & _ & Hle).
      destruct (Nat.eqb_spec (pkt_size p) 0); [lia|].
      destruct (N.ltb_spec 0x7fffffff (s + N.of_nat (pkt_size p))) as [Hbig|_].
      { exfalso. change (2 ^ 31)%N with 2147483648%N in small. lia. }
      destruct (pkt_pl p); try discriminate; lia.
    - intros s pd0 e _ _ _. discriminate.
    - lia.
  Qed.

  Lemma at_ip_ok d d0 pd p ip t l0 l : pd_ok cf buf pd -> at_ d0 < pd_at pd -> qrep (ed_evq d) l ->
    ed_event d = None -> pd_ok cf buf (ed_pd d) -> at_ d0 <= at_ d ->
    wp (pt_evt_recover_ovf_at_ip pd p ip t l0)
       (fun a d' => a = false /\ okd d' /\ at_ d0 < at_ d') (good_err d0) d.
  Proof.
    intros Hpd Hat Hq Hev0 Hpd0 Hat0.
    assert (Hev : match ed_event d with Some (Slot i) => i < 16 | _ => True end) by (rewrite Hev0; exact I).
    unfold pt_evt_recover_ovf_at_ip. repeat step; fin; try lia; try reflexivity.
  Qed.

  Definition advanced (d0 : evdec) (more : bool) (d' : evdec) : Prop :=
    okd d' /\ at_ d0 <= at_ d' /\ (more = false -> at_ d0 < at_ d' \/ dead d').

  Ltac fina := unfold advanced in *; fin;
    try lia; try (left; lia); try (right; split; [reflexivity|discriminate]).

  Lemma at_offset_ok fuel : forall off d, okd d -> rem buf (ed_pd d) < fuel ->
    wp (ovf_at_offset fuel off) (advanced d) (good_err d) d.
  Proof.
    induction fuel as [|fuel IH]; intros off d H Hf; [lia|]. destr_ok H. cbn [ovf_at_offset].
    apply wp_bind. unfold wp at 1. unfold with_pd.
    pose proof (next_step cf buf (ed_pd d) moves Hpd) as Hn.
    destruct (pt_pkt_next (ed_pd d)) as [pd' [p|e|u]] eqn:En; [| |exact Hn].
    2: { subst pd'. fin. lia. }
    destruct Hn as (G1 & G2 & G3 & G4 & G5 & G6).
    step. step. step.
    - repeat step; fina.
    - assert (Hrec : forall t l1 off', wp (ovf_at_offset fuel off') (advanced d) (good_err d)
        (set_tcal (set_time (set_pkt (set_pd d pd') p) t) l1)).
      { intros t l1 off'. eapply wp_mono; [apply IH| |].
        - unfold okd, ev_ok; sd; fin.
        - sd. unfold rem in *. lia.
        - intros a d' (K1 & K2 & K3). unfold advanced, at_ in *; sd. split; [exact K1|].
          split; [lia|]. intros E. left. lia.
        - intros e d' (K1 & K2). unfold good_err, at_ in *; sd. split; [exact K1|]. lia. }
      assert (Htime : forall pl off', wp (run timing (fun c t l => match apply_time_packet c t l pl with
                                   | Some r => r | None => (t, l, Ok tt) end);
          ovf_at_offset fuel off') (advanced d) (good_err d) (set_pkt (set_pd d pd') p)).
      { intros pl off'. step. eapply wp_timing'; [sd; exact G1| |intros; sd; apply Hrec|intros; fin; lia].
        intros t l1. destruct (apply_time_packet cf t l1 pl) as [[[t' l'] r]|] eqn:E.
        - apply (time_packet_no_ub cf freq t l1 pl t' l' r E).
        - discriminate. }
      destruct (pkt_pl p) eqn:Epl; try apply Htime; step; fin; lia.
  Qed.

  Definition skd_post (d : evdec) (r : res skd010_result) : Prop :=
    no_ub r /\
    match r with
    | Ok (Skd_pgd pd _ _ _) | Ok (Skd_fup pd _ _ _ _ _) | Ok (Skd_tip pd _ _ _ _)
    | Ok (Skd_psb pd _ _ _ _) => pd_ok cf buf pd /\ at_ d < pd_at pd
    | _ => True
    end.

  Lemma skd010_scan d : pd_ok cf buf (ed_pd d) ->
    skd_post d (scan_packets (scan_fuel (ed_pd d)) skd010_step
                  (fun e => match e with pte_eos => Ok Skd_none | e => Err e end)
                  (ed_pd d) (ed_time d, ed_tcal d, None)).
  Proof.
    intros H.
    apply (scan_rule cf buf moves _ _ (fun _ pd => at_ d <= pd_at pd));
      auto using (scan_fuel_ok cf buf).
    - intros [[t l] tsx] pd0 pd' p Hok Hs En Hok' Hlt Hsome. unfold skd010_step.
      assert (Htm : forall pl, match match apply_time_packet (pd_config pd') t l pl with
        | Some (t', l', Ok _) => inl (t', l', tsx)
        | Some (_, _, Err e) => inr (Err e)
        | Some (_, _, UB u) => inr (UB u)
        | None => inl (t, l, tsx)
        end with inl _ => at_ d <= pd_at pd' | inr r => skd_post d r end).
      { intros pl. destruct Hok' as (Hc & _). rewrite Hc.
        destruct (apply_time_packet cf t l pl) as [[[t' l'] [r|e|u]]|] eqn:E; try lia.
        - split; [discriminate|exact I].
        - destruct (time_packet_no_ub cf freq t l pl t' l' _ E u eq_refl). }
      assert (Hgood : forall x, (match x with Skd_none => True | Skd_pgd pd _ _ _ | Skd_fup pd _ _ _ _ _
        | Skd_tip pd _ _ _ _ | Skd_psb pd _ _ _ _ => pd = pd' end) -> skd_post d (Ok x)).
      { intros x Hx. split; [discriminate|]. destruct x; auto; subst; split; auto; lia. }
      destruct (pkt_pl p) as [| | | | |ip|ip|ip|ip| | |m| | | | | | | | | | |ip| | | |x y ip|x y ip| |] eqn:Epl;
        try (apply Hgood; exact I); try (apply Hgood; reflexivity); try apply Htm; try lia;
        try (destruct ip; [apply Hgood; exact I|lia]).
      + pose proof (header_fup_no_ub cf buf moves pd' Hok') as Hh.
        destruct (pt_evt_find_header_fup pd') as [[ip|]|[]|u];
          try (apply Hgood; exact I); try (apply Hgood; reflexivity);
          try (split; [discriminate|exact I]). destruct (Hh u eq_refl).
      + split; [discriminate|exact I].
      + destruct m; try lia. destruct tsx; [apply Hgood; exact I|lia].
    - intros s pd0 e _ _ _. destruct e; split; try discriminate; exact I.
  Qed.

  Lemma disabled_ok d d0 pd p t l0 l : pd_ok cf buf pd -> at_ d0 < pd_at pd -> qrep (ed_evq d) l ->
    at_ d0 <= at_ d ->
    wp (sbind (pt_evt_recover_ovf_disabled pd p t l0) (fun _ => pt_evt_fetch_packet))
       (advanced d0) (good_err d0) d.
  Proof.
    intros Hpd Hat Hq Hat0. unfold pt_evt_recover_ovf_disabled. repeat step; fina.
  Qed.

  Lemma skd010_ok d : okd d -> ed_event d = None ->
    wp pt_evt_handle_skd010 (advanced d) (good_err d) d.
  Proof.
    intros H Hevn. destr_ok H. unfold pt_evt_handle_skd010. step. step. step.
    pose proof (skd010_scan d Hpd) as [Hn Hp].
    apply wp_lift_ok; [exact Hn| |intros; fin; lia].
    intros a E. rewrite E in Hp. clear E Hn.
    destruct a as [|pd p t l0|pd p ip tsx t l0|pd p ip t l0|pd p ip t l0].
    - step. fina.
    - destruct Hp as [Hp1 Hp2]. eapply disabled_ok; eauto.
    - destruct Hp as [Hp1 Hp2]. step. step. step.
      assert (Hx : forall q' l', qrep q' l' -> wp (pt_evt_recover_ovf_at_ip pd p ip t l0) (advanced d)
        (good_err d) (set_evq (set_pkt d p) q')).
      { intros q' l' Hq'. eapply wp_mono; [eapply at_ip_ok; sd; eauto|intros a d'; cbv beta|auto].
        intros (-> & K1 & K2). split; [exact K1|]. split; [lia|]. intros _. left. exact K2. }
      destruct tsx as [[x y]|].
      + eapply wp_enqueue; [sd; eassumption|intros ? q' Hq' ? ?; sd; eapply Hx; eassumption|fin; lia].
      + step. specialize (Hx _ _ Hq). exact Hx.
    - destruct Hp as [Hp1 Hp2]. step. eapply wp_mono; [eapply at_ip_ok; eauto|intros a d'; cbv beta|auto].
      intros (-> & K1 & K2). clear Hpd Hq Hev l. destr_ok K1. step; fina.
    - destruct Hp as [Hp1 Hp2]. eapply wp_mono; [eapply at_ip_ok; eauto|intros a d'; cbv beta|auto].
      intros (-> & K1 & K2). split; [exact K1|]. split; [lia|]. intros _. left. exact K2.
  Qed.

  Definition apl_post (d : evdec) (r : res (option (pktdec * packet * time * tcal))) : Prop :=
    no_ub r /\ match r with
              | Ok (Some (pd, _, _, _)) => pd_ok cf buf pd /\ at_ d < pd_at pd
              | _ => True
              end.

  Lemma apl11_ok d : okd d -> wp pt_evt_handle_apl11 (advanced d) (good_err d) d.
  Proof.
    intros H. destr_ok H. unfold pt_evt_handle_apl11. step. step. step.
    assert (Hs : apl_post d
      (scan_packets (scan_fuel (ed_pd d)) apl11_step (fun e => Err e)
                  (ed_pd d) (ed_time d, ed_tcal d))).
    { apply (scan_rule cf buf moves _ _ (fun _ pd => at_ d <= pd_at pd));
        auto using (scan_fuel_ok cf buf).
      - intros [t l1] pd0 pd' p Hok Hs En Hok' Hlt Hsome. unfold apl11_step.
        assert (Htm : forall pl, match match apply_time_packet (pd_config pd') t l1 pl with
          | Some (t', l', Ok _) => inl (t', l')
          | Some (_, _, Err e) => inr (Err e)
          | Some (_, _, UB u) => inr (UB u)
          | None => inl (t, l1)
          end with inl _ => at_ d <= pd_at pd' | inr r => apl_post d r end).
        { intros pl. destruct Hok' as (Hc & _). rewrite Hc.
          destruct (apply_time_packet cf t l1 pl) as [[[t' l'] [r|e|u]]|] eqn:E; try lia.
          - split; [discriminate|exact I].
          - destruct (time_packet_no_ub cf freq t l1 pl t' l' _ E u eq_refl). }
        destruct (pkt_pl p); try apply Htm; (split; [discriminate|]); try exact I.
        split; [exact Hok'|]. lia.
      - intros s pd0 e _ _ _. split; [discriminate|exact I]. }
    destruct Hs as [Hn Hp]. apply wp_lift_ok; [exact Hn| |intros; fin; lia].
    intros a E. rewrite E in Hp. destruct a as [[[[pd p] t] l1]|].
    - destruct Hp as [Hp1 Hp2]. eapply disabled_ok; eauto.
    - step. fina.
  Qed.

  Lemma apl12_ok d off : okd d -> wp (pt_evt_handle_apl12 off) (advanced d) (good_err d) d.
  Proof.
    intros H. assert (H0 := H). destr_ok H. unfold pt_evt_handle_apl12. step. step.
    step; [step; fin; lia|]. apply Nat.ltb_ge in Heqb. step.
    match goal with |- wp (lift (scan_packets (scan_fuel ?x) _ _ _ _)) _ _ _ => set (pd := x) end.
    pose proof Hpd as (Hc & Hb & Hle). rewrite Hb in Heqb.
    assert (Hok : pd_ok cf buf pd).
    { unfold pd_ok, pd, pd_at. cbn [pd_config pd_buf pd_pos]. repeat split; auto. }
    assert (Hs : no_ub (scan_packets (scan_fuel pd) apl12_step
                  (fun e => match e with pte_eos => Ok false | e => Err e end) pd tt)).
    { apply (scan_rule cf buf moves _ _ (fun _ _ => True)); auto using (scan_fuel_ok cf buf).
      - intros s pd0 pd' p _ _ _ Hok' _ _. unfold apl12_step.
        destruct (pkt_pl p); try exact I; try discriminate.
        pose proof (header_fup_no_ub cf buf moves pd' Hok') as Hh.
        destruct (pt_evt_find_header_fup pd') as [[ip|]|[]|u]; try discriminate.
        destruct (Hh u eq_refl).
      - intros s pd0 e _ _ _. destruct e; discriminate. }
    apply wp_lift_ok; [exact Hs| |intros; fin; lia].
    intros a _.
    step; [|step; fina]. unfold pt_evt_recover_ovf_at_offset. step. step.
    step; [step; fina|]. apply at_offset_ok; [exact H0|].
    apply (scan_fuel_ok cf buf). exact Hpd.
  Qed.

  (** When PSBEND has no more status events, the state did not change. *)
  Lemma psbend_more d : okd d ->
    wp pt_evt_decode_psbend
       (fun more d' => if more : bool then okd d' /\ at_ d' = at_ d else good_pkt d more d')
       (good_err d) d.
  Proof. intros H. destr_ok H. unfold pt_evt_decode_psbend. repeat step; fin; num. Qed.

  Lemma advanced_pkt d d0 m d1 : at_ d = at_ d0 -> wp m (advanced d0) (good_err d0) d1 ->
    wp m (good_pkt d) (good_err d) d1.
  Proof.
    intros Ha H. eapply wp_mono; [exact H| |].
    - intros a d' (K1 & K2 & K3). split; [exact K1|]. split; [lia|]. intros E.
      destruct (K3 E); [left; lia|right; left; assumption].
    - intros e d' (K1 & K2). split; [exact K1|]. lia.
  Qed.

  Lemma wp_more d (m k : ST bool) d1 : wp m (advanced d) (good_err d) d1 ->
    (forall d', okd d' -> at_ d <= at_ d' -> wp k (advanced d) (good_err d) d') ->
    wp (do more <- m; if negb more then ret false else k) (advanced d) (good_err d) d1.
  Proof.
    intros H Hk. apply wp_bind. eapply wp_mono; [exact H| |auto].
    intros a d' (K1 & K2 & K3). destruct a; cbn [negb].
    - apply Hk; assumption.
    - apply wp_ret. split; [exact K1|]. split; assumption.
  Qed.

  Lemma standalone_adv d d0 e : okd d -> at_ d0 <= at_ d ->
    wp (standalone_now e) (advanced d0) (good_err d0) d.
  Proof.
    intros H Ha. destr_ok H. unfold standalone_now. repeat step; fina.
  Qed.

  Lemma adv_from d d0 m : at_ d0 <= at_ d -> wp m (advanced d) (good_err d) d ->
    wp m (advanced d0) (good_err d0) d.
  Proof.
    intros Ha H. eapply wp_mono; [exact H| |].
    - intros a d' (K1 & K2 & K3). split; [exact K1|]. split; [lia|]. intros E.
      destruct (K3 E); [left; lia|right; assumption].
    - intros e d' (K1 & K2). split; [exact K1|]. lia.
  Qed.

  Lemma adv_ret d d0 : okd d -> at_ d0 <= at_ d -> advanced d0 true d.
  Proof. intros H Ha. split; [exact H|]. split; [exact Ha|]. discriminate. Qed.

  Lemma ovf_ok d : okd d -> wp pt_evt_decode_ovf (good_pkt d) (good_err d) d.
  Proof.
    intros H. unfold pt_evt_decode_ovf. apply wp_bind.
    eapply wp_mono; [apply psbend_more; exact H| |auto].
    intros a d1 Hp. destruct a; cbn [negb]; [|apply wp_ret; exact Hp].
    destruct Hp as (Hok & Ha). cbv beta in Ha. clear H.
    assert (Ha' : at_ d = at_ d1) by congruence. clear Ha.
    apply (advanced_pkt d d1); [exact Ha'|]. clear Ha' d.
    rename d1 into d. step. step. step. step.
    assert (Hok1 : okd (set_time (pt_evt_reset d) (ed_time d))).
    { destruct Hok as (K1 & _). unfold pt_evt_reset, okd, L_evsafe.okd, ev_ok. sd.
      split; [exact K1|]. split; [exists []; apply qrep_init|exact I]. }
    assert (Hat1 : at_ (set_time (pt_evt_reset d) (ed_time d)) = at_ d) by reflexivity.
    assert (Hev1 : ed_event (set_time (pt_evt_reset d) (ed_time d)) = None) by reflexivity.
    generalize dependent (set_time (pt_evt_reset d) (ed_time d)). intros d1 Hok1 Hat1 Hev1.
    match goal with |- wp (sbind _ ?K) _ _ _ => set (k := K) end.
    assert (Hk : forall d2, okd d2 -> at_ d2 = at_ d -> ed_event d2 = None ->
      wp (k tt) (advanced d) (good_err d) d2).
    2: { destruct (cf_keep_tcal_on_ovf (ed_config d)); step.
         2: { step. apply Hk; assumption. }
         pose proof (tcal_no_ub cf (ed_tcal d) CalOvf freq) as Hn. cbn [tcal_update] in Hn.
         destruct (pt_tcal_update_ovf (ed_tcal d)) as [l' r] eqn:El.
         apply wp_bind. apply wp_lift_ok; [exact Hn| |].
         - intros a _. step. apply Hk; auto.
         - intros e _. destruct Hok1. split; [split; assumption|]. lia. }
    clear d1 Hok1 Hat1 Hev1. intros d1 Hok1 Hat1 Hev1. unfold k. clear k. step. step.
    assert (Hpd1 : pd_ok cf buf (ed_pd d1)) by apply Hok1.
    pose proof (ovf_fup_no_ub _ Hpd1) as Hn.
    destruct (pt_evt_find_ovf_fup (ed_pd d1)) as [off|e|u] eqn:Eoff; [| |destruct (Hn u eq_refl)].
    - destruct (N.ltb_spec 0 off) as [Hpos|Hpos].
      + apply wp_more.
        * destruct (er_apl12 (cf_errata (ed_config d))).
          -- apply adv_from; [lia|]. apply apl12_ok; exact Hok1.
          -- apply wp_ret. apply adv_ret; [exact Hok1|lia].
        * intros d2 Hok2 Hat2. destr_ok Hok2. repeat step; fina.
      + apply wp_more.
        * destruct (er_skd010 (cf_errata (ed_config d))).
          -- apply adv_from; [lia|]. apply skd010_ok; assumption.
          -- apply wp_ret. apply adv_ret; [exact Hok1|lia].
        * intros d2 Hok2 Hat2. apply wp_more.
          -- rewrite andb_false_r. apply wp_ret. apply adv_ret; assumption.
          -- intros d3 Hok3 Hat3. apply standalone_adv; assumption.
    - apply wp_more.
      + destruct (er_skd010 (cf_errata (ed_config d))).
        * apply adv_from; [lia|]. apply skd010_ok; assumption.
        * apply wp_ret. apply adv_ret; [exact Hok1|lia].
      + intros d2 Hok2 Hat2. apply wp_more.
        * destruct (er_apl11 (cf_errata (ed_config d)) && _).
          -- apply adv_from; [lia|]. apply apl11_ok; exact Hok2.
          -- apply wp_ret. apply adv_ret; assumption.
        * intros d3 Hok3 Hat3.
          destruct e; try (apply wp_fail; split; assumption). apply standalone_adv; assumption.
  Qed.

  (** * The dispatcher *)

  Lemma other_ok psb d : okd d ->
    (pkt_pl (ed_pkt d) = P_psb -> wp psb (good_pkt d) (good_err d) d) ->
    wp (decode_other psb (pkt_pl (ed_pkt d)))
       (fun more d' => good_pkt d more d' /\ ~ dead d) (good_err d) d.
  Proof.
    intros H Hpsb.
    assert (Hmono : forall m : ST bool, pkt_pl (ed_pkt d) <> P_invalid ->
      wp m (good_pkt d) (good_err d) d ->
      wp m (fun more d' => good_pkt d more d' /\ ~ dead d) (good_err d) d).
    { intros m Hni Hm. eapply wp_mono; [exact Hm| |auto]. intros a d' Hg. split; [exact Hg|].
      intros [Hd _]. contradiction. }
    assert (Hret : wp (ret true) (good_pkt d) (good_err d) d).
    { apply wp_ret. split; [exact H|]. split; [lia|]. discriminate. }
    unfold decode_other.
    destruct (pkt_pl (ed_pkt d)) eqn:E; try (apply Hmono; [discriminate|]); try exact Hret;
      try (apply Hpsb; reflexivity).
    all: try (lazymatch goal with
      | |- wp (pt_evt_decode_tnt _) _ _ _ => apply tnt_ok
      | |- wp (pt_evt_decode_cyc _) _ _ _ => apply cyc_ok
      | |- wp (pt_evt_decode_fup _) _ _ _ => apply fup_ok
      | |- wp (pt_evt_decode_tip _) _ _ _ => apply tip_ok
      | |- wp (pt_evt_decode_mtc _) _ _ _ => apply mtc_ok
      | |- wp (pt_evt_decode_tsc _) _ _ _ => apply tsc_ok
      | |- wp (pt_evt_decode_cbr _) _ _ _ => apply cbr_ok
      | |- wp (pt_evt_decode_tma _ _) _ _ _ => apply tma_ok
      | |- wp (pt_evt_decode_mode _) _ _ _ => apply mode_ok
      | |- wp (pt_evt_decode_pip _ _) _ _ _ => apply pip_ok
      | |- wp (pt_evt_decode_ptw _ _ _) _ _ _ => apply ptw_ok
      | |- wp pt_evt_decode_psbend _ _ _ => apply psbend_ok
      | |- wp (pt_evt_decode_tip_pge _) _ _ _ => apply pge_ok
      | |- wp (pt_evt_decode_tip_pgd _) _ _ _ => apply pgd_ok
      | |- wp (pt_evt_decode_exstop _) _ _ _ => apply exstop_ok
      | |- wp (pt_evt_decode_pwre _ _ _) _ _ _ => apply pwre_ok
      | |- wp (pt_evt_decode_pwrx _ _ _ _ _) _ _ _ => apply pwrx_ok
      | |- wp (pt_evt_decode_mwait _ _) _ _ _ => apply mwait_ok
      | |- wp (pt_evt_decode_vmcs _) _ _ _ => apply vmcs_ok
      | |- wp pt_evt_decode_stop _ _ _ => apply stop_ok
      | |- wp (pt_evt_decode_mnt _) _ _ _ => apply mnt_ok
      | |- wp (pt_evt_decode_cfe _ _ _) _ _ _ => apply cfe_ok
      | |- wp (pt_evt_decode_evd _ _) _ _ _ => apply evd_ok
      | |- wp (pt_evt_decode_trig _ _ _ _ _) _ _ _ => apply trig_ok
      | |- wp pt_evt_decode_ovf _ _ _ => apply ovf_ok
      end; assumption).
    step. step. destruct (ed_status d) eqn:Es.
    - step. split; [exact H|lia].
    - step. split; [|intros [_ Hd]; congruence]. split; [exact H|]. split; [lia|]. discriminate.
  Qed.

  Lemma packet_ok d : okd d ->
    wp pt_evt_decode_packet (fun more d' => good_pkt d more d' /\ ~ dead d) (good_err d) d.
  Proof.
    intros H. unfold pt_evt_decode_packet. step. step. apply other_ok; [exact H|].
    intros _. step. eapply wp_mono; [apply (psb_ok cf buf); assumption| |auto].
    intros a d1 (K1 & K2 & K3). step. step.
    eapply wp_mono; [apply other_ok; [exact K1|]| |].
    - intros E. destruct K3 as [K3|K3]; congruence.
    - cbv beta. intros b d' ((G1 & G2 & G3) & _). split; [exact G1|]. split; [lia|].
      intros _. left. lia.
    - intros e d' (G1 & G2). split; [exact G1|lia].
  Qed.

  Lemma fetch_event_ok fuel : forall d, okd d -> 1 <= fuel ->
    dead d \/ rem buf (ed_pd d) + 2 <= fuel ->
    wp (fetch_event fuel) (fun _ d' => okd d' /\ at_ d <= at_ d' /\ progress_ d d' /\ ~ dead d)
       (good_err d) d.
  Proof.
    induction fuel as [|fuel IH]; intros d H Hf Hr; [lia|]. cbn [fetch_event]. step.
    eapply wp_mono; [apply packet_ok; exact H| |auto].
    cbv beta. intros more d1 ((G1 & G2 & G3) & Hnd). destruct Hr as [Hr|Hr]; [contradiction|].
    destruct more; cbn [negb].
    2: { step. split; [exact G1|]. split; [exact G2|]. split; [apply G3; reflexivity|exact Hnd]. }
    step. step. destruct (ed_event d1) eqn:Ee; [step; split; [exact G1|exact G2]|].
    step. step. step. destruct G1 as (Hpd & [l Hq] & Hev).
    assert (Hev' : ev_ok (set_bound d1 false)) by exact Hev.
    step; (eapply wp_mono; [apply IH| |]).
    - split; [assumption|]. split; [exists l; exact Hq|exact Hev].
    - unfold rem, at_ in *. lia.
    - right. pose proof Hpd as Hpd'. destruct Hpd as (_ & _ & Hle). unfold rem, at_ in *; sd.
      match goal with K : reads _ _ _ |- _ =>
        pose proof (reads_lt cf buf moves _ _ _ _ K Hpd') end.
      lia.
    - cbv beta. intros _ d' (K1 & K2 & K3 & K4). unfold at_ in *; sd.
      split; [exact K1|]. split; [lia|]. split; [left; unfold at_; lia|exact Hnd].
    - intros e d' (K1 & K2). unfold at_ in *; sd. split; [exact K1|unfold at_; lia].
    - split; [assumption|]. split; [exists l; exact Hq|exact Hev].
    - unfold rem, at_ in *. lia.
    - left. split; [reflexivity|discriminate].
    - cbv beta. intros _ d' (K1 & K2 & K3 & K4). destruct K4. split; [reflexivity|discriminate].
    - intros e' d' (K1 & K2). unfold at_ in *; sd. split; [exact K1|unfold at_; lia].
  Qed.

  (** How much the decoder can still deliver. *)
  Definition left_ (d : evdec) : nat :=
    qlen (ed_evq d) + nb d +
    match pkt_pl (ed_pkt d), ed_status d with
    | P_invalid, Some _ => 0
    | _, _ => 17 * (2 + length buf - at_ d)
    end.

  Lemma left_bound d : okd d -> left_ d <= 17 * (3 + length buf).
  Proof.
    intros (Hpd & [l Hq] & _). unfold left_. qfacts.
    assert (nb d <= 1) by (unfold nb; destruct (ed_bound d); lia).
    destruct (pkt_pl (ed_pkt d)), (ed_status d); lia.
  Qed.

  Lemma next_ok d : okd d ->
    wp pt_evt_next (fun _ d' => okd d' /\ at_ d <= at_ d' /\ left_ d' < left_ d) (good_err d) d.
  Proof.
    intros H. unfold pt_evt_next. step. unfold pt_evt_fetch_event. step. step.
    eapply wp_mono; [apply fetch_event_ok; [exact H|unfold scan_fuel; lia|]| |auto].
    { right. unfold rem, scan_fuel. destruct H as ((_ & Hb & _) & _). rewrite Hb. lia. }
    cbv beta. intros _ d1 (G1 & G2 & G3 & G4). step. step. step. step.
    assert (G1' : okd (set_event d1 None)).
    { destruct G1 as (Hpd & Hq & _). split; [exact Hpd|]. split; [exact Hq|exact I]. }
    destruct (ed_event d1) as [p|] eqn:Ee; [|step; split; [exact G1'|exact G2]].
    assert (Hl : left_ (set_event d1 None) < left_ d).
    { unfold left_, dead, progress_ in *. destruct G1 as (Hpd1 & [l1 Hq1] & _).
      destruct H as (Hpd & [l Hq] & _). destruct Hpd as (_ & _ & Hle). destruct Hpd1 as (_ & _ & Hle1).
      unfold at_, nb in *. sd. qfacts.
      assert (HL : match pkt_pl (ed_pkt d), ed_status d with
        | P_invalid, Some _ => 0
        | _, _ => 17 * (2 + length buf - pd_at (ed_pd d)) end = 17 * (2 + length buf - pd_at (ed_pd d))).
      { destruct (pkt_pl (ed_pkt d)) eqn:E1; try reflexivity.
        destruct (ed_status d) eqn:E2; [|reflexivity]. destruct G4. split; congruence. }
      rewrite HL. clear HL.
      set (m := match pkt_pl (ed_pkt d1), ed_status d1 with
        | P_invalid, Some _ => 0
        | _, _ => 17 * (2 + length buf - pd_at (ed_pd d1)) end) in *.
      assert (Hm : m <= 17 * (2 + length buf - pd_at (ed_pd d1))).
      { unfold m. destruct (pkt_pl (ed_pkt d1)), (ed_status d1); lia. }
      destruct G3 as [G3|[(D1 & D2)|(G3 & G5)]].
      - destruct (ed_bound d), (ed_bound d1); lia.
      - assert (m = 0) by (unfold m; rewrite D1; destruct (ed_status d1); congruence).
        destruct (ed_bound d), (ed_bound d1); lia.
      - lia. }
    clear G3 G4. destruct p as [|i].
    - step. split; [exact G1'|]. split; assumption.
    - destruct G1 as (_ & [l Hq] & Hi). unfold ev_ok in Hi. rewrite Ee in Hi.
      assert (Hlen : length (evq_queue (ed_evq d1)) = 16) by apply Hq.
      unfold wp, read_event, evq_at. sd.
      destruct (nth_error (evq_queue (ed_evq d1)) i) as [e|] eqn:E.
      + split; [exact G1'|]. split; assumption.
      + apply nth_error_None in E. lia.
  Qed.

  (** * Synchronization *)

  Lemma reset_ok d : pd_ok cf buf (ed_pd d) -> okd (pt_evt_reset d).
  Proof.
    intros H. split; [exact H|]. split; [exists []; apply qrep_init|exact I].
  Qed.

  Lemma start_ok d : okd d ->
    wp pt_evt_start (fun _ d' => okd d' /\ at_ d < at_ d' /\ is_end d') (good_err d) d.
  Proof.
    intros H. destr_ok H. unfold pt_evt_start. step. step. step.
    step; step; step.
    - match goal with |- wp (match ?x with _ => _ end) _ _ _ => destruct x eqn:Ep end;
        try (step; fin; lia).
      step. eapply wp_mono; [apply (psb_ok cf buf); try assumption| |].
      + fin.
      + cbv beta. intros a d1 (K1 & K2 & K3). unfold at_ in *; sd. step.
        split; [exact K1|]. unfold at_. split; [lia|exact K3].
      + intros e d1 (K1 & K2). unfold at_ in *; sd. split; [exact K1|]. unfold at_. lia.
    - sd. cbn [pkt_pl]. step. fin. lia.
  Qed.

  Hypothesis bytes : bytes_ok buf.

  Lemma psb_length b i : psb_at b i -> i <= length b.
  Proof.
    intros H. apply psb_at_pattern in H. apply pattern_le in H; lia.
  Qed.

  Lemma sync_op_ok base o d : is_sync_op o = true -> pd_ok cf buf (ed_pd d) ->
    wp (with_pd (fun pd => pkt_step base pd o)) (fun _ d' => d' = set_pd d (ed_pd d') /\ pd_ok cf buf (ed_pd d'))
       (fun _ d' => d' = d) d.
  Proof.
    intros Ho H. unfold wp, with_pd.
    pose proof (step_fields base (ed_pd d) o) as (F1 & _ & F2 & F3 & _).
    pose proof (step_no_ub base (ed_pd d) o) as Hn.
    assert (Hlt : is_ok (snd (pkt_step base (ed_pd d) o)) = true ->
      pd_at (fst (pkt_step base (ed_pd d) o)) <= S (length buf)).
    { destruct H as (Hc & Hb & Hle). destruct o; try discriminate; cbn [pkt_step].
      - unfold pt_pkt_sync_set. destruct (N.ltb_spec (N.of_nat (length (pd_buf (ed_pd d)))) offset);
          [discriminate|]. intros _. cbn. rewrite Hb in *. lia.
      - unfold pt_pkt_sync_forward. cbv zeta.
        match goal with |- context [pt_sync_forward base (pd_buf (ed_pd d)) ?p] =>
          set (pos := p); clearbody pos end.
        destruct (Nat.le_gt_cases pos (length (pd_buf (ed_pd d)))) as [K | K].
        + destruct (sync_forward_spec base (pd_buf (ed_pd d)) pos ltac:(rewrite Hb; exact bytes) K)
            as [(s & E & _ & Hs & _) | (E & _)]; rewrite E; [|discriminate].
          intros _. cbn. apply psb_length in Hs. rewrite Hb in *. lia.
        + unfold pt_sync_forward.
          destruct (Nat.ltb_spec (length (pd_buf (ed_pd d))) pos); [discriminate|lia].
      - destruct (pt_pkt_sync_backward base (ed_pd d)) as [pd' [[]|e|u]] eqn:E; try discriminate.
        intros _. destruct (backward_sound base (ed_pd d) pd' ltac:(rewrite Hb; exact bytes) E)
          as (s & p & -> & Hs & _). cbn. rewrite Hb in *. lia. }
    assert (Hcf : pd_config (fst (pkt_step base (ed_pd d) o)) = pd_config (ed_pd d) \/
                  is_ok (snd (pkt_step base (ed_pd d) o)) = false).
    { destruct (is_ok (snd (pkt_step base (ed_pd d) o))) eqn:Eo; [|auto].
      destruct (F3 Ho eq_refl) as [s Es]. left. rewrite Es. reflexivity. }
    destruct H as (Hc & Hb & Hle). rewrite Hb in Hn. specialize (Hn bytes).
    destruct (pkt_step base (ed_pd d) o) as [pd' [a|e|u]]; cbn [fst snd is_ok is_err] in *.
    - split; [reflexivity|]. sd. destruct Hcf as [Hcf|]; [|discriminate].
      split; [congruence|]. split; [congruence|]. apply Hlt. reflexivity.
    - rewrite F2; [|reflexivity]. destruct d; reflexivity.
    - destruct (Hn u eq_refl).
  Qed.

  Lemma sync_then_start base o d : is_sync_op o = true -> okd d ->
    wp (run modify pt_evt_reset; run with_pd (fun pd => pkt_step base pd o); pt_evt_start)
       (fun _ d' => okd d' /\ is_end d') (fun _ d' => okd d') d.
  Proof.
    intros Ho H. step. step. step.
    eapply wp_mono; [apply sync_op_ok; [exact Ho|apply H]| |].
    - cbv beta. intros a d1 (K1 & K2). rewrite K1. clear K1.
      eapply wp_mono; [apply start_ok| |].
      + split; [exact K2|]. split; [exists []; apply qrep_init|exact I].
      + cbv beta. tauto.
      + intros e d' (G & _). exact G.
    - cbv beta. intros e d' ->. apply reset_ok. apply H.
  Qed.

  (** The search backwards may take too many rounds; nothing else can go wrong. *)
  Definition fuel_or (P : evdec -> Prop) {A} (x : evdec * res A) : Prop :=
    match x with
    | (_, UB u) => u = ub_fuel
    | (d', _) => P d'
    end.

  Lemma inner_ok fuel base sync : forall d, okd d -> fuel_or okd (backward_inner fuel base sync d).
  Proof.
    induction fuel as [|fuel IH]; intros d H; [reflexivity|]. cbn [backward_inner]. unfold sbind at 1.
    pose proof (sync_op_ok base Op_sync_backward d eq_refl (proj1 H)) as W. unfold wp in W.
    cbn [pkt_step] in W. change (fun pd : pktdec => pt_pkt_sync_backward base pd)
      with (pt_pkt_sync_backward base) in W.
    destruct (with_pd (pt_pkt_sync_backward base) d) as [d1 [a|e|u]]; [| |destruct W].
    - destruct W as [W1 W2].
      assert (H1 : okd d1).
      { rewrite W1. destruct H as (_ & Hq & Hev). split; [exact W2|]. split; [exact Hq|exact Hev]. }
      unfold sbind, get. destruct (Nat.leb sync (evt_pos d1)); [apply IH; exact H1|exact H1].
    - subst d1. exact H.
  Qed.

  Lemma outer_ok fuel base start : forall sync d, okd d ->
    fuel_or okd (backward_outer fuel base start sync d).
  Proof.
    induction fuel as [|fuel IH]; intros sync d H; [reflexivity|].
    change (fuel_or okd ((run modify pt_evt_reset; run backward_inner (S fuel) base sync;
      do d <- get;
      let sync := evt_pos d in
      fun d =>
        let (d', r) := pt_evt_start d in
        match r with
        | UB u => (d', UB u)
        | _ => if Nat.ltb (evt_pos d') start then (d', r)
               else backward_outer fuel base start sync d'
        end) d)).
    unfold sbind at 1, modify.
    pose proof (inner_ok (S fuel) base sync (pt_evt_reset d) (reset_ok d (proj1 H))) as Hi.
    unfold sbind at 1. destruct (backward_inner (S fuel) base sync (pt_evt_reset d)) as [d1 [a|e|u]];
      [|exact Hi|exact Hi].
    unfold sbind, get. cbv zeta. pose proof (start_ok d1 Hi) as W. unfold wp in W.
    destruct (pt_evt_start d1) as [d2 [b|e|u]]; [| |destruct W].
    - destruct (Nat.ltb (evt_pos d2) start); [apply W|]. apply IH. apply W.
    - destruct (Nat.ltb (evt_pos d2) start); [apply W|]. apply IH. apply W.
  Qed.

  Lemma sync_backward_ok fuel base d : okd d -> fuel_or okd (pt_evt_sync_backward fuel base d).
  Proof. intros H. apply outer_ok. exact H. Qed.
End SAFE.
