(** The events of a trace as a function of its packets: TIP, TIP.PGE, and TIP.PGD. *)

From Verif Require Import Base M_packet M_config M_pktdec M_lastip M_time
  M_evq M_event M_evdec S_evq S_evtrace S_evfun L_evq L_evqpos L_evdec L_evsafe L_evnext L_evtrace
  L_evfun L_evfun2 L_evfun3 L_evfun4.
From Coq Require Import List NArith ZArith PeanoNat Bool Lia.
Import ListNotations.
Open Scope nat_scope.

Lemma ordered_none l : Forall (fun x => for_tip x = false) l -> ordered l = true.
Proof. intros H. unfold ordered. rewrite (filter_none _ _ H). reflexivity. Qed.
Lemma ordered_first a w c : Forall (fun x => for_tip x = false) a -> for_tip w = true ->
  ordered (a ++ w :: c) = true -> is_async w = true \/ by_mode w = true.
Proof.
  intros Ha Hw. unfold ordered. rewrite filter_app, (filter_none _ _ Ha). cbn [app filter]. rewrite Hw.
  cbn [forallb]. intros H. apply orb_prop in H as [H|H]; [auto|]. apply andb_prop in H. tauto.
Qed.

(** The first asynchronous branch is the first event for TIP. *)
Lemma async_first l : ordered l = true -> forallb fits l = true -> existsb is_async l = true ->
  exists a w c, l = a ++ w :: c /\ is_async w = true /\ for_tip w = true /\
    Forall (fun x => for_tip x = false) a /\ Forall (fun x => is_async x = false) a.
Proof.
  intros Ho Hf He.
  assert (Hft : forall x, In x l -> is_async x = true -> fst x = At_tip).
  { intros x Hx Ha. rewrite forallb_forall in Hf. specialize (Hf x Hx).
    destruct x as [[] e]; unfold fits, is_async in *; cbn in *; auto; destruct (ev_var e); discriminate. }
  pose proof (pick_split for_tip l) as Hs. destruct (pick for_tip l) as [[e l']|].
  - destruct Hs as (a & w & c & El & _ & _ & Hw & Ha).
    assert (Hna : Forall (fun x => is_async x = false) a).
    { rewrite Forall_forall in *. intros x Hx. destruct (is_async x) eqn:E; [|reflexivity].
      specialize (Ha x Hx). specialize (Hft x). rewrite El in Hft.
      rewrite (Hft (in_or_app _ _ _ (or_introl Hx)) E) in Ha || (unfold for_tip in Ha;
        rewrite (Hft (in_or_app _ _ _ (or_introl Hx)) E) in Ha); discriminate. }
    exists a, w, c. split; [exact El|]. repeat split; auto.
    unfold ordered in Ho. rewrite El, filter_app, (filter_none _ _ Ha) in Ho. cbn [app filter] in Ho.
    rewrite Hw in Ho. destruct (is_async w) eqn:Ew; [reflexivity|]. exfalso. cbn [orb] in Ho.
    apply existsb_exists in He. destruct He as (x & Hx & Hxa). specialize (Hft x Hx Hxa).
    rewrite El in Hx. apply in_app_or in Hx as [Hx|[->|Hx]].
    + rewrite Forall_forall in Hna. specialize (Hna x Hx). congruence.
    + congruence.
    + cbn [forallb] in Ho. apply andb_prop in Ho as [_ Ho]. rewrite forallb_forall in Ho.
      assert (Hin : In x (filter for_tip c)) by (apply filter_In; split; [exact Hx|]; unfold for_tip; rewrite Hft; reflexivity).
      specialize (Ho x Hin). unfold by_mode in Ho. rewrite Hft in Ho. discriminate.
  - exfalso. apply existsb_exists in He. destruct He as (x & Hx & Hxa).
    rewrite Forall_forall in Hs. specialize (Hs x Hx). unfold for_tip in Hs. rewrite (Hft x Hx Hxa) in Hs.
    discriminate.
Qed.

Section LOOP3.
  Context (cf : config) (buf : list N) (err : pte).
  Hypothesis moves : callback_moves cf.
  Hypothesis freq : (cf_mtc_freq cf < 24)%N.
  Hypothesis small : (N.of_nat (length buf) + 1 < 2 ^ 31)%N.
  Hypothesis skip : no_skipping cf.

  Notation Core := (Core cf buf err).
  Notation Done := (Done cf buf err).
  Notation Mid := (Mid cf buf err).
  Notation Here := (Here cf buf err).
  Notation Next := (Next cf buf err).
  Notation Post := (Post buf).
  Notation andthen := (andthen cf err).
  Notation yields := (yields buf).

  Context (p : packet) (ps : list packet).
  Hypothesis next : Next ps.
  Notation Loop := (Loop cf buf err ps).

  Lemma done_none s d : Mid s ps d -> Forall (fun x => for_tip x = false) (k_wait s) -> Done s ps d.
  Proof. intros HM H. apply of_mid; [exact HM|]. apply ordered_none. exact H. Qed.

  Lemma no_tip_none s : Forall (fun x => for_tip x = false) (k_wait s) -> no_tip s = s.
  Proof. intros H. unfold no_tip. rewrite (filter_all _ _ H). apply with_wait_same. Qed.
  Lemma no_tip_mid s a w c : k_wait s = a ++ w :: c -> for_tip w = true ->
    no_tip s = no_tip (with_wait s (a ++ c)).
  Proof. intros El Hw. unfold no_tip. rewrite El, (filter_mid _ _ _ _ Hw). reflexivity. Qed.

  (** What follows after the first event. *)
  Definition rest (f : track -> event -> res (list event)) (s : track) : outcome :=
    finishes s [] (in_turn (f s) (k_wait s)).

  Lemma rest_none f s : Forall (fun x => for_tip x = false) (k_wait s) -> rest f s = gives s [].
  Proof. intros H. unfold rest, finishes. rewrite (in_turn_none _ _ H), (no_tip_none s H). reflexivity. Qed.
  Lemma rest_mid f s a w c : (forall s l, f (with_wait s l) = f s) ->
    k_wait s = a ++ w :: c -> Forall (fun x => for_tip x = false) a -> for_tip w = true ->
    rest f s = match f s (snd w) with
               | Ok evs => (evs ++ fst (rest f (with_wait s (a ++ c))), snd (rest f (with_wait s (a ++ c))))
               | Err e => errs e
               | UB _ => gives (no_tip s) []
               end.
  Proof.
    intros Hf El Ha Hw. unfold rest, finishes. rewrite El, (in_turn_mid _ _ _ _ Ha Hw).
    cbn [k_wait with_wait]. rewrite Hf, (no_tip_mid s a w c El Hw).
    destruct (f s (snd w)); reflexivity.
  Qed.
  Lemma rest_first f s e : finishes s [e] (in_turn (f s) (k_wait s)) = (e :: fst (rest f s), snd (rest f s)).
  Proof. reflexivity. Qed.

  Lemma tip_loop ip n : forall s d d0 fuel, cnt for_tip (k_wait s) <= n -> cnt for_tip (k_wait s) < fuel ->
    Loop ip (P_tip ip) s d -> ed_bound d = true -> k_on s = true -> valid_pkt d0 ->
    rem buf (ed_pd d) <= rem buf (ed_pd d0) ->
    let o := andthen (rest at_tip s) ps in
    wp (decode_tip fuel ip) (Post d0 o) (Fail o) d.
  Proof.
    induction n as [|n IH]; intros s d d0 fuel Hn Hfuel HL Hb Hon Hv0 Hrem o;
      (destruct fuel as [|fuel]; [lia|]); cbn [decode_tip]; pose proof HL as [Hset HM He Hpk];
      pose proof HM as [HC Hq Hf Hhd Hps]; apply wp_bind, wp_get;
      pose proof (c_on _ _ _ _ _ _ HC) as Hon'; cbn [ed_enabled set_lip] in Hon'; rewrite Hon', Hon; cbn [negb];
      apply wp_bind; (eapply wp_setting; [exact Hset|]); rewrite Hb; cbn [negb];
      set (d1 := set_lip d (k_ip s)) in *; apply wp_bind;
      (eapply wp_take; [apply asks_tip|exact HM| |]).
    1: intros a w c q' i El Hw; rewrite El, (cnt_mid _ _ _ _ Hw) in Hn; lia.
    1: intros Hno _; apply wp_ret; subst o; rewrite (rest_none _ _ Hno);
       apply post_silent; auto; apply done_none; assumption.
    2: intros Hno _; apply wp_ret; subst o; rewrite (rest_none _ _ Hno);
       apply post_silent; auto; apply done_none; assumption.
    intros a w c q' i El Hw Ha Hfw HM' Hh _ _ _.
    rewrite El, (cnt_mid _ _ _ _ Hw) in Hn, Hfuel.
    apply wp_bind, wp_publish, wp_bind.
    eapply wp_read_held; [sd; exact Hh|]. apply wp_bind, wp_get.
    set (s' := with_wait s (a ++ c)) in *.
    pose proof (rest_mid at_tip s a w c (fun _ _ => eq_refl) El Ha Hw) as Es. fold s' in Es.
    assert (Hpub : at_tip s (snd w) = Ok [dated s (placed s (snd w))] ->
      wp (finish (Slot i) (event_ip (ed_ip (set_event (set_evq d1 q') (Some (Slot i)))) (snd w)))
        (Post d0 o) (Fail o) (set_event (set_evq d1 q') (Some (Slot i)))).
    { intros Hat. rewrite Hat in Es. cbn [app] in Es.
      change (event_ip (ed_ip (set_event (set_evq d1 q') (Some (Slot i)))) (snd w)) with (placed s (snd w)).
      eapply wp_finish; [apply mid_event; exact HM'|sd; exact Hh|]. intros q2 G1 G2.
      subst o. rewrite Es, (andthen_cons cf err ps _ (rest at_tip s')).
      apply post_event with (i := i); [reflexivity|exact G2|]. rewrite <- surjective_pairing.
      apply (y_decode cf buf freq small). unfold pt_evt_decode_packet. apply wp_bind, wp_get. sd.
      change (ed_pkt d1) with (ed_pkt d).       rewrite Hpk. cbn [decode_other]. unfold pt_evt_decode_tip.
      pose proof (mid_cnt cf buf err freq small s' ps _ for_tip HM') as H14.
      apply (IH s' (set_event (set_evq (set_event (set_evq d1 q') (Some (Slot i))) q2) None)).
      - subst s'. cbn [k_wait with_wait]. clear - Hn. lia.
      - clear - H14. lia.
      - eapply loop_again; [exact HL| |reflexivity|reflexivity|exact Hpk].
        apply mid_event, mid_evq; [apply mid_event; exact HM'|exact G1].
      - exact Hb.
      - exact Hon.
      - unfold valid_pkt. sd. change (ed_pkt d1) with (ed_pkt d). rewrite Hpk. discriminate.
      - apply le_n. }
    assert (Hfits : match ev_var (snd w) with
       | Ev_async_branch _ _ | Ev_exec_mode _ _ | Ev_async_paging _ _ _ | Ev_async_vmcs _ _
       | Ev_iflags _ _ | Ev_tick _ => True
       | _ => False end).
    { destruct w as [[] e]; unfold fits in Hfw; cbn in *; try discriminate;
        destruct (ev_var e); try discriminate; auto. }
    assert (Eat : at_tip s (snd w) = match ev_var (snd w) with
       | Ev_async_branch _ _ => Err pte_internal | Ev_tick _ => Ok [] | _ => Ok [dated s (placed s (snd w))] end)
      by reflexivity.
    destruct (ev_var (snd w)) eqn:Ev; try (destruct Hfits; fail); try (apply Hpub; exact Eat).
    - apply wp_fail. subst o. rewrite Es, Eat. reflexivity.
    - apply wp_bind, wp_publish.
      assert (Eo : o = andthen (rest at_tip s') ps).
      { subst o. rewrite Es, Eat. cbn [app]. rewrite <- surjective_pairing. reflexivity. }
      rewrite Eo. apply IH; auto.
      + subst s'. cbn [k_wait with_wait]. clear - Hn. lia.
      + subst s'. cbn [k_wait with_wait]. clear - Hfuel. lia.
      + eapply loop_again; [exact HL| |reflexivity|reflexivity|exact Hpk].
        apply mid_event, mid_event. exact HM'.
  Qed.

  (** After the first event. *)
  Lemma tip_again ip s d : Mid s ps d -> setting ip s d -> ed_event d = None ->
    pkt_pl (ed_pkt d) = P_tip ip -> ed_bound d = true -> k_on s = true ->
    yields d (andthen (rest at_tip s) ps).
  Proof.
    intros HM Hset He Hpk Hb Hon.
    apply (y_decode cf buf freq small). unfold pt_evt_decode_packet. apply wp_bind, wp_get.
    rewrite Hpk. cbn [decode_other]. unfold pt_evt_decode_tip.
    pose proof (mid_cnt cf buf err freq small s ps _ for_tip HM) as H14.
    apply (tip_loop ip (cnt for_tip (k_wait s))); auto.
    - lia.
    - split; auto. rewrite set_lip_same; [exact HM|].
      apply (c_ip _ _ _ _ _ _ (m_core _ _ _ _ _ _ HM)).
    - unfold valid_pkt. rewrite Hpk. discriminate.
  Qed.

  Lemma setting_again ip s d d' : setting ip s d -> ed_ip d' = k_ip s -> setting ip s d'.
  Proof. unfold setting. intros H ->. apply (set_again _ _ _ H). Qed.

  Lemma fits_async w : fits w = true -> tip_async a_branch w = is_async w.
  Proof.
    destruct w as [[] e]; unfold fits, tip_async, a_branch, is_async; cbn; destruct (ev_var e);
      reflexivity || discriminate.
  Qed.

  Lemma slot_ne (q : evq event) k : 1 <= k -> k < 14 -> evq_begin q < 16 -> evq_begin q <> slot_of q k.
  Proof.
    intros H1 H2 H3. unfold slot_of. destruct (Nat.lt_ge_cases (evq_begin q + k) 16) as [H|H].
    - rewrite Nat.mod_small by lia. lia.
    - replace (evq_begin q + k) with (evq_begin q + k - 16 + 1 * 16) by lia.
      rewrite Nat.mod_add by lia. rewrite Nat.mod_small by lia. lia.
  Qed.
  Lemma slot_shift (q q' : evq event) k : 1 <= k -> evq_begin q' = (evq_begin q + 1) mod 16 ->
    slot_of q k = slot_of q' (k - 1).
  Proof.
    intros H1 H2. unfold slot_of. rewrite H2, Nat.add_mod_idemp_l by lia. f_equal. lia.
  Qed.

  Lemma tip_f s d ip : Here s p ps d -> pkt_pl p = P_tip ip -> let o := andthen (tip s ip) ps in
    wp (pt_evt_decode_tip ip) (Post d o) (Fail o) d.
  Proof.
    intros H Hpl o. subst o. unfold tip, pt_evt_decode_tip. cbn [decode_tip]. pose proof H as [HD Hp Hv He Hb].
    apply wp_bind, wp_get. rewrite (c_on _ _ _ _ _ _ (d_core _ _ _ _ _ _ HD)).
    destruct (k_on s) eqn:Hon; [|reflexivity]. cbn [negb].
    destruct (moves_to s ip) as [s'|e|u] eqn:Em.
    2: { apply wp_bind. eapply moves_bad; eassumption. }
    2: { destruct (moves_ub _ _ _ Em). }
    destruct (loop_begin cf buf err p ps s d ip s' H Em) as (HL & Ho & Hon' & _). rewrite Hpl in HL.
    rewrite Hon in Hon'. clear Em.
    pose proof HL as [Hset HM _ Hpk]. pose proof HM as [HC Hq Hf Hhd Hps].
    apply wp_bind. eapply wp_setting; [exact Hset|]. rewrite Hb. cbn [negb].
    unfold pt_evt_decode_tip_event. apply wp_bind, wp_modify, wp_bind, wp_get.
    set (d1 := set_lip d (k_ip s')) in *.
    assert (HM1 : Mid s' ps (set_bound d1 true)) by (apply mid_bound; exact HM).
    cbn [ed_evq set_bound].
    assert (Hsame : forall w, fits w = true -> (bound evb_tip (q1 w) && is_async_branch (snd w))%bool = is_async w).
    { intros w Hw. rewrite (is_branch w Hw). apply fits_async. exact Hw. }
    rewrite (qrep_find _ _ _ _ Hq).
    destruct (existsb is_async (k_wait s')) eqn:Eas.
    - destruct (async_first _ Ho Hf Eas) as (a & w & c & El & Hwa & Hwt & Ha & Hna).
      assert (Hfa : forallb fits (a ++ w :: c) = true) by (rewrite <- El; exact Hf).
      rewrite (find_at (k_wait s') a w c _ El).
      2: { cbn [snd q1]. rewrite Hsame; [exact Hwa|]. rewrite forallb_app in Hfa. cbn in Hfa.
           apply andb_prop in Hfa as [_ Hfa]. apply andb_prop in Hfa. tauto. }
      2: { rewrite Forall_forall in *. intros x Hx. cbn [snd q1]. rewrite Hsame; [apply Hna; exact Hx|].
           rewrite forallb_app in Hfa. apply andb_prop in Hfa as [Hfa _]. rewrite forallb_forall in Hfa. auto. }
      cbn [option_map]. apply wp_bind. eapply wp_take; [apply asks_tip|exact HM1| |].
      2: { intros Hno. exfalso. rewrite El in Hno. apply Forall_app in Hno as [_ Hno].
           inversion Hno; congruence. }
      intros a2 w2 c2 q' i El2 Hw2 Ha2 Hfw HM' Hh Hi Hbeg _.
      assert (Esplit : a2 = a /\ w2 = w /\ c2 = c).
      { clear - El El2 Hw2 Hwt Ha Ha2. rewrite El in El2. clear El. revert a2 Ha2 El2.
        induction Ha as [|x a Hx Ha IH]; intros a2 Ha2 El2.
        - destruct a2 as [|y a2]; cbn in El2; [injection El2 as -> ->; auto|].
          injection El2 as -> _. inversion Ha2; congruence.
        - destruct a2 as [|y a2]; cbn in El2; [injection El2 as -> _; congruence|].
          injection El2 as -> El2. inversion Ha2; subst. destruct (IH a2) as (-> & -> & ->); auto. }
      destruct Esplit as (-> & -> & ->). clear El2 Hw2 Ha2.
      set (s2 := with_wait s' (a ++ c)) in *.
      assert (Hab : is_async_branch (snd w) = true).
      { unfold is_async in Hwa. unfold is_async_branch. destruct (ev_var (snd w)); congruence. }
      destruct a as [|x0 a0].
      + (* the asynchronous branch is the first event *)
        cbn [app length] in *.
        assert (Es0 : Nat.eqb i (slot_of (ed_evq d1) 0) = true).
        { apply Nat.eqb_eq. rewrite Hi. unfold slot_of. rewrite Nat.add_0_r, Nat.mod_small; [reflexivity|].
          destruct Hq as (_ & Hq & _). exact Hq. }
        change (ed_evq d1) with (ed_evq d) in *. rewrite Es0. apply wp_bind, wp_ret, wp_bind.
        eapply wp_read_held; [sd; exact Hh|]. rewrite Hab. cbn [negb].
        apply wp_bind, wp_publish.
        change (event_ip (ed_ip (set_bound d1 true)) (snd w)) with (placed s' (snd w)).
        eapply wp_finish; [apply mid_event; exact HM'|sd; exact Hh|]. intros q2 G1 G2.
        assert (Er : match k_wait s' with
          | [] => gives s' [dated s' (placed s' (new_event (Ev_tip 0)))]
          | (w, e) :: l =>
            if is_async (w, e) then finishes s' [dated s' (placed s' e)] (in_turn (at_tip s') l)
            else if existsb is_async l then errs pte_internal
            else finishes s' [dated s' (placed s' (new_event (Ev_tip 0)))] (in_turn (at_tip s') (k_wait s'))
          end = (dated s' (placed s' (snd w)) :: fst (rest at_tip s2), snd (rest at_tip s2))).
        { rewrite El. destruct w as [pw ew]. rewrite Hwa. unfold rest, finishes. cbn [fst snd app].
          subst s2. cbn [k_wait with_wait]. rewrite (no_tip_mid s' [] (pw, ew) c El Hwt). reflexivity. }
        rewrite Er, (andthen_cons cf err ps _ (rest at_tip s2)).
        apply post_event with (i := i); [reflexivity|exact G2|]. rewrite <- surjective_pairing.
        apply tip_again with (ip := ip); auto.
        * apply mid_event, mid_evq; [apply mid_event; exact HM'|exact G1].
        * apply (setting_again ip s' d); [exact Hset|reflexivity].
      + (* another event comes first *)
        rewrite El. cbn [app]. inversion Hna as [|y l Hx0 Hna0]; subst y l.
        assert (Hx0' : is_async (fst x0, snd x0) = false) by (rewrite <- surjective_pairing; exact Hx0).
        destruct x0 as [pl0 e0]. cbn [fst snd] in Hx0'. rewrite Hx0'.
        assert (Eex : existsb is_async (a0 ++ w :: c) = true).
        { rewrite existsb_app. cbn [existsb]. rewrite Hwa, orb_true_l, orb_true_r. reflexivity. }
        rewrite Eex. set (k := length ((pl0, e0) :: a0)) in *.
        assert (Hk1 : 1 <= k) by (subst k; cbn; lia).
        pose proof (qrep_length _ _ Hq) as H14. rewrite qs_length, El, app_length in H14. cbn [length] in H14.
        assert (Hk2 : k < 14) by (subst k; cbn [length]; lia).
        assert (Hbq : evq_begin (ed_evq d) < 16) by (destruct Hq as (_ & Hq & _); exact Hq).
        change (ed_evq d1) with (ed_evq d) in *. change (ed_evq (set_bound d1 true)) with (ed_evq d) in *.
        assert (Ene : Nat.eqb i (slot_of (ed_evq d) k) = false).
        { apply Nat.eqb_neq. rewrite Hi. apply slot_ne; assumption. }
        rewrite Ene. pose proof HM' as [_ Hq' _ _ _]. cbn [ed_evq set_evq] in Hq'.
        rewrite (slot_shift _ q' k Hk1 Hbeg).
        set (l2 := a0 ++ c).
        destruct (nth_error (a0 ++ [w]) 0) as [|] eqn:En0; [|destruct a0; discriminate]. clear En0.
        assert (Hnth : exists y, nth_error ((pl0, e0) :: a0) (k - 1) = Some y /\ is_async y = false).
        { destruct (nth_error ((pl0, e0) :: a0) (k - 1)) as [y|] eqn:Ey.
          - exists y. split; [reflexivity|]. rewrite Forall_forall in Hna. apply Hna.
            apply (nth_error_In _ _ Ey).
          - apply nth_error_None in Ey. fold k in Ey. clear - Ey Hk1. lia. }
        destruct Hnth as (y & Hy & Hya).
        assert (Hlt : k - 1 < length (qs (k_wait s2))).
        { subst s2. cbn [k_wait with_wait]. rewrite qs_length, app_length. fold k. clear - Hk1. lia. }
        assert (Hnq : nth_error (qs (k_wait s2)) (k - 1) = Some (q1 y)).
        { subst s2. cbn [k_wait with_wait]. unfold qs. apply map_nth_error.
          rewrite nth_error_app1 by (fold k; clear - Hk1; lia). exact Hy. }
        apply wp_bind, wp_bind. change q' with (ed_evq (set_evq (set_bound d1 true) q')) at 1.
        eapply wp_read_pos; [sd; exact Hq'|exact Hnq|]. apply wp_bind.
        eapply wp_read_held; [sd; exact Hh|]. apply wp_bind.
        change q' with (ed_evq (set_evq (set_bound d1 true) q')) at 1.
        eapply wp_write_pos; [sd; exact Hq'|exact Hlt|]. intros q2 G1 _ G3.
        eapply wp_write_held; [sd; exact G1|sd; apply G3; exact Hh|]. intros q3 G4 _ G6.
        apply wp_bind. eapply wp_read_held; [sd; exact G6|].
        assert (Hyn : is_async_branch (snd y) = false).
        { unfold is_async in Hya. unfold is_async_branch. destruct (ev_var (snd y)); congruence. }
        rewrite Hyn. reflexivity.
    - (* no asynchronous branch *)
      rewrite find_not.
      2: { rewrite forallb_forall in Hf. apply Forall_forall. intros x Hx. cbn [snd q1]. rewrite Hsame by auto.
           destruct (is_async x) eqn:E; [|reflexivity].
           assert (existsb is_async (k_wait s') = true) by (apply existsb_exists; eauto). congruence. }
      cbn [option_map]. apply wp_bind, wp_standalone. unfold finish.
      apply wp_bind, wp_get, wp_bind, wp_write_alone, wp_ret. sd.
      assert (Er : match k_wait s' with
        | [] => gives s' [dated s' (placed s' (new_event (Ev_tip 0)))]
        | (w, e) :: l =>
          if is_async (w, e) then finishes s' [dated s' (placed s' e)] (in_turn (at_tip s') l)
          else if existsb is_async l then errs pte_internal
          else finishes s' [dated s' (placed s' (new_event (Ev_tip 0)))] (in_turn (at_tip s') (k_wait s'))
        end = (dated s' (placed s' (new_event (Ev_tip 0))) :: fst (rest at_tip s'), snd (rest at_tip s'))).
      { destruct (k_wait s') as [|[w e] l] eqn:El.
        - rewrite rest_none by (rewrite El; constructor). reflexivity.
        - cbn [existsb] in Eas. apply orb_false_elim in Eas as [-> ->]. rewrite <- El. reflexivity. }
      rewrite Er, (andthen_cons cf err ps _ (rest at_tip s')).
      apply post_alone; [reflexivity| |].
      + sd. rewrite <- (mid_time cf buf err s' ps d1 _ HM). reflexivity.
      + rewrite <- surjective_pairing. apply tip_again with (ip := ip); auto.
        * apply mid_event, mid_alone, mid_event, mid_alone. exact HM1.
        * apply (setting_again ip s' d); [exact Hset|reflexivity].
  Qed.

  (** ** TIP.PGE *)

  Lemma pge_loop ip n : forall s d d0 fuel, cnt for_tip (k_wait s) <= n -> cnt for_tip (k_wait s) < fuel ->
    Loop ip (P_tip_pge ip) s d -> ed_bound d = true -> valid_pkt d0 ->
    rem buf (ed_pd d) <= rem buf (ed_pd d0) ->
    let o := andthen (rest at_pge s) ps in
    wp (decode_tip_pge fuel ip) (Post d0 o) (Fail o) d.
  Proof.
    induction n as [|n IH]; intros s d d0 fuel Hn Hfuel HL Hb Hv0 Hrem o;
      (destruct fuel as [|fuel]; [lia|]); cbn [decode_tip_pge]; pose proof HL as [Hset HM He Hpk];
      pose proof HM as [HC Hq Hf Hhd Hps];
      apply wp_bind; (eapply wp_setting; [exact Hset|]); apply wp_bind, wp_get;
      change (ed_bound (set_lip d (k_ip s))) with (ed_bound d); rewrite Hb; cbn [negb];
      set (d1 := set_lip d (k_ip s)) in *; apply wp_bind;
      (eapply wp_take; [apply asks_tip|exact HM| |]).
    1: intros a w c q' i El Hw; rewrite El, (cnt_mid _ _ _ _ Hw) in Hn; lia.
    1: intros Hno _; apply wp_ret; subst o; rewrite (rest_none _ _ Hno);
       apply post_silent; auto; apply done_none; assumption.
    2: intros Hno _; apply wp_ret; subst o; rewrite (rest_none _ _ Hno);
       apply post_silent; auto; apply done_none; assumption.
    intros a w c q' i El Hw Ha Hfw HM' Hh _ _ _.
    rewrite El, (cnt_mid _ _ _ _ Hw) in Hn, Hfuel.
    apply wp_bind, wp_publish, wp_bind.
    eapply wp_read_held; [sd; exact Hh|].
    set (s' := with_wait s (a ++ c)) in *.
    pose proof (rest_mid at_pge s a w c (fun _ _ => eq_refl) El Ha Hw) as Es. fold s' in Es.
    assert (Hpub : at_pge s (snd w) = Ok [dated s (placed s (snd w))] ->
      wp (finish (Slot i) (event_ip (ed_ip d1) (snd w)))
        (Post d0 o) (Fail o) (set_event (set_evq d1 q') (Some (Slot i)))).
    { intros Hat. rewrite Hat in Es. cbn [app] in Es.
      change (event_ip (ed_ip d1) (snd w)) with (placed s (snd w)).
      eapply wp_finish; [apply mid_event; exact HM'|sd; exact Hh|]. intros q2 G1 G2.
      subst o. rewrite Es, (andthen_cons cf err ps _ (rest at_pge s')).
      apply post_event with (i := i); [reflexivity|exact G2|]. rewrite <- surjective_pairing.
      apply (y_decode cf buf freq small). unfold pt_evt_decode_packet. apply wp_bind, wp_get. sd.
      change (ed_pkt d1) with (ed_pkt d).       rewrite Hpk. cbn [decode_other]. unfold pt_evt_decode_tip_pge.
      pose proof (mid_cnt cf buf err freq small s' ps _ for_tip HM') as H14.
      apply (IH s' (set_event (set_evq (set_event (set_evq d1 q') (Some (Slot i))) q2) None)).
      - subst s'. cbn [k_wait with_wait]. clear - Hn. lia.
      - clear - H14. lia.
      - eapply loop_again; [exact HL| |reflexivity|reflexivity|exact Hpk].
        apply mid_event, mid_evq; [apply mid_event; exact HM'|exact G1].
      - exact Hb.
      - unfold valid_pkt. sd. change (ed_pkt d1) with (ed_pkt d). rewrite Hpk. discriminate.
      - apply le_n. }
    assert (Eat : at_pge s (snd w) = match ev_var (snd w) with
       | Ev_exec_mode _ _ | Ev_iflags _ _ => Ok [dated s (placed s (snd w))]
       | Ev_tick _ => Ok []
       | _ => Err pte_bad_context
       end) by reflexivity.
    destruct (ev_var (snd w)) eqn:Ev; try (apply Hpub; exact Eat);
      try (apply wp_fail; subst o; rewrite Es, Eat; reflexivity).
    apply wp_bind, wp_publish.
    assert (Eo : o = andthen (rest at_pge s') ps).
    { subst o. rewrite Es, Eat. cbn [app]. rewrite <- surjective_pairing. reflexivity. }
    rewrite Eo. apply IH; auto.
    + subst s'. cbn [k_wait with_wait]. clear - Hn. lia.
    + subst s'. cbn [k_wait with_wait]. clear - Hfuel. lia.
    + eapply loop_again; [exact HL| |reflexivity|reflexivity|exact Hpk].
      apply mid_event, mid_event. exact HM'.
  Qed.

  Lemma pge_f s d ip : Here s p ps d -> pkt_pl p = P_tip_pge ip -> let o := andthen (tip_pge s ip) ps in
    wp (pt_evt_decode_tip_pge ip) (Post d o) (Fail o) d.
  Proof.
    intros H Hpl o. subst o. unfold tip_pge, pt_evt_decode_tip_pge. cbn [decode_tip_pge].
    pose proof H as [HD Hp Hv He Hb].
    destruct (moves_to s ip) as [s'|e|u] eqn:Em.
    2: { apply wp_bind. eapply moves_bad; eassumption. }
    2: { destruct (moves_ub _ _ _ Em). }
    destruct (loop_begin cf buf err p ps s d ip s' H Em) as (HL & Ho & Hon' & _). rewrite Hpl in HL.
    pose proof HL as [Hset HM _ Hpk].
    apply wp_bind. eapply wp_setting; [exact Hset|]. apply wp_bind, wp_get.
    change (ed_bound (set_lip d (k_ip s'))) with (ed_bound d). rewrite Hb. cbn [negb].
    set (d1 := set_lip d (k_ip s')) in *. cbv zeta. apply wp_bind, wp_standalone, wp_bind, wp_modify.
    unfold finish. apply wp_bind, wp_get, wp_bind, wp_write_alone, wp_ret.
    set (s2 := with_on s' true). rewrite (rest_first at_pge s2).
    rewrite (andthen_cons cf err ps _ (rest at_pge s2)).
    match goal with |- Post _ _ _ ?x => set (dd := x) end.
    assert (HM2 : Mid s2 ps (set_event dd None)).
    { subst dd s2. apply mid_event, mid_alone, mid_bound, mid_on, mid_event, mid_alone. exact HM. }
    apply post_alone; [reflexivity| |].
    - subst dd. sd. rewrite dated_is. change (k_time s2) with (k_time s').
      rewrite <- (c_time _ _ _ _ _ _ (m_core _ _ _ _ _ _ HM)). reflexivity.
    - rewrite <- surjective_pairing. apply (y_decode cf buf freq small). unfold pt_evt_decode_packet.
      apply wp_bind, wp_get. change (pkt_pl (ed_pkt (set_event dd None))) with (pkt_pl (ed_pkt d)).
      rewrite Hpk. cbn [decode_other].
      pose proof (mid_cnt cf buf err freq small s2 ps _ for_tip HM2) as H14.
      unfold pt_evt_decode_tip_pge. apply (pge_loop ip (cnt for_tip (k_wait s2))); auto.
      + lia.
      + split; auto.
        apply (setting_again ip s' d); [exact Hset|reflexivity].
  Qed.

  (** ** TIP.PGD *)

  Definition pgds (s : track) (b : bool) : outcome :=
    let (evs, r) := in_turn (at_pgd s) (k_wait s) in
    let sync := if b || existsb is_async (k_wait s) then []
                else [dated s (placed s (new_event (Ev_disabled 0)))] in
    match r with
    | None => (evs ++ sync, Ok (with_on (no_tip s) false))
    | Some e => (evs, Err e)
    end.

  Lemma pgds_step s a w c b on : k_wait s = a ++ w :: c -> Forall (fun x => for_tip x = false) a ->
    for_tip w = true ->
    let s' := with_on (with_wait s (a ++ c)) on in
    let b' := b || is_async w in
    pgds s b = match at_pgd s (snd w) with
               | Ok evs => (evs ++ fst (pgds s' b'), snd (pgds s' b'))
               | Err e => errs e
               | UB _ => (if b || existsb is_async (k_wait s) then []
                else [dated s (placed s (new_event (Ev_disabled 0)))], Ok (with_on (no_tip s) false))
               end.
  Proof.
    intros El Ha Hw s' b'. unfold pgds. rewrite El, (in_turn_mid _ _ _ _ Ha Hw). subst s'.
    cbn [k_wait with_wait with_on].
    change (at_pgd (with_on (with_wait s (a ++ c)) on)) with (at_pgd s).
    replace (b' || existsb is_async (a ++ c)) with (b || existsb is_async (a ++ w :: c)).
    2: { subst b'. rewrite !existsb_app. cbn [existsb]. destruct b, (existsb is_async a), (is_async w); reflexivity. }
    rewrite (no_tip_mid s a w c El Hw).
    destruct (at_pgd s (snd w)) as [evs|e|u]; [|reflexivity|reflexivity].
    destruct (in_turn (at_pgd s) (a ++ c)) as [m r]. cbn [fst snd].
    destruct r; cbn [fst snd]; rewrite <- ?app_assoc; reflexivity.
  Qed.

  Lemma pgd_loop ip n : forall s d d0, cnt for_tip (k_wait s) <= n ->
    Loop ip (P_tip_pgd ip) s d -> (ed_bound d = true /\ k_on s = false \/
      ed_bound d = false /\ ordered (k_wait s) = true) -> valid_pkt d0 ->
    rem buf (ed_pd d) <= rem buf (ed_pd d0) ->
    let o := andthen (pgds s (ed_bound d)) ps in
    wp (pt_evt_decode_tip_pgd ip) (Post d0 o) (Fail o) d.
  Proof.
    induction n as [|n IH]; intros s d d0 Hn HL Hb Hv0 Hrem o;
      unfold pt_evt_decode_tip_pgd; pose proof HL as [Hset HM He Hpk];
      pose proof HM as [HC Hq Hf Hhd Hps];
      apply wp_bind; (eapply wp_setting; [exact Hset|]);
      set (d1 := set_lip d (k_ip s)) in *; apply wp_bind;
      (eapply wp_take; [apply asks_tip|exact HM| |]);
      (assert (Hnone : Forall (fun x => for_tip x = false) (k_wait s) ->
         wp (if ed_bound d1 then ret true else
             run standalone (event_time (ed_time d1) (event_ip (ed_ip d1) (new_event (Ev_disabled 0))));
             run modify (fun d => set_enabled d false);
             pt_evt_fetch_packet) (Post d0 o) (Fail o) d1);
       [ intros Hno; change (ed_bound d1) with (ed_bound d); subst o; unfold pgds;
         rewrite (in_turn_none _ _ Hno), (no_tip_none _ Hno); cbn [app];
         destruct Hb as [[Hb0 Hon]|[Hb0 Ho]]; rewrite Hb0; cbn [orb];
         [ rewrite <- Hon, with_on_same; apply wp_ret; apply post_silent; auto; apply done_none; assumption
         | assert (Eas : existsb is_async (k_wait s) = false);
           [ apply existsb_none; rewrite forallb_forall in Hf; rewrite Forall_forall in *; intros x Hx;
             specialize (Hno x Hx); specialize (Hf x Hx); clear - Hno Hf;
             destruct x as [[] e]; unfold fits, is_async in *; cbn in *; try discriminate;
             destruct (ev_var e); try discriminate; reflexivity |];
           rewrite Eas; apply wp_bind, wp_standalone, wp_bind, wp_modify;
           apply post_fetch with (p := Alone); auto;
           [ apply done_none; [|exact Hno]; apply mid_on, mid_event, mid_alone; exact HM
           | change (Ok (event_time (ed_time d1) (placed s (new_event (Ev_disabled 0)))) =
                     Ok (dated s (placed s (new_event (Ev_disabled 0)))));
             rewrite (mid_time cf buf err s ps d1 _ HM); reflexivity ] ]
       |]).
    1: intros a w c q' i El Hw; rewrite El, (cnt_mid _ _ _ _ Hw) in Hn; lia.
    1: intros Hno _; apply wp_bind, wp_get; apply Hnone; exact Hno.
    2: intros Hno _; apply wp_bind, wp_get; apply Hnone; exact Hno.
    clear Hnone. intros a w c q' i El Hw Ha Hfw HM' Hh _ _ _.
    rewrite El, (cnt_mid _ _ _ _ Hw) in Hn.
    apply wp_bind, wp_get, wp_bind, wp_publish, wp_bind.
    eapply wp_read_held; [sd; exact Hh|].
    (* an event is published *)
    assert (Hpub : forall dd e' on, let s' := with_on (with_wait s (a ++ c)) on in
      Mid s' ps dd -> ed_event dd = Some (Slot i) -> held (ed_evq dd) i e' ->
      ed_bound dd = ed_bound d || is_async w -> pkt_pl (ed_pkt dd) = P_tip_pgd ip ->
      at_pgd s (snd w) = Ok [e'] -> (ed_bound dd = true -> on = false) -> Post d0 o false dd).
    { intros dd e' on s' HMd Hev Hhd' Hbd Hpkd Hat Hond. subst o.
      rewrite (pgds_step s a w c (ed_bound d) on El Ha Hw), Hat. fold s'. rewrite <- Hbd. cbn [app].
      rewrite (andthen_cons cf err ps e' (pgds s' (ed_bound dd))).
      apply post_event with (i := i); [exact Hev|exact Hhd'|]. rewrite <- surjective_pairing.
      apply (y_decode cf buf freq small). unfold pt_evt_decode_packet. apply wp_bind, wp_get.
      cbn [ed_pkt set_event]. rewrite Hpkd. cbn [decode_other].
      apply (IH s' (set_event dd None)).
      - subst s'. cbn [k_wait with_wait with_on]. clear - Hn. lia.
      - eapply loop_again; [exact HL|apply mid_event; exact HMd|reflexivity|reflexivity|exact Hpkd].
      - change (ed_bound (set_event dd None)) with (ed_bound dd). destruct (ed_bound dd) eqn:Ebd.
        + left. split; [reflexivity|]. subst s'. cbn. auto.
        + right. split; [reflexivity|]. symmetry in Hbd. apply orb_false_elim in Hbd as [Hb1 Hb2].
          destruct Hb as [[Hb _]|[_ Ho]]; [congruence|]. rewrite El in Ho.
          apply (ordered_remove a w c Ho Hb2).
      - unfold valid_pkt. cbn [ed_pkt set_event]. rewrite Hpkd. discriminate.
      - apply le_n. }
    assert (HMs : Mid (with_on (with_wait s (a ++ c)) (k_on s)) ps (set_event (set_evq d1 q') (Some (Slot i)))).
    { change (k_on s) with (k_on (with_wait s (a ++ c))). rewrite with_on_same. apply mid_event. exact HM'. }
    assert (Hplain : is_async w = false -> at_pgd s (snd w) = Ok [dated s (set_suppressed (snd w) true)] ->
      wp (finish (Slot i) (set_suppressed (snd w) true)) (Post d0 o) (Fail o)
         (set_event (set_evq d1 q') (Some (Slot i)))).
    { intros Hna Hat. eapply wp_finish; [exact HMs|sd; exact Hh|]. intros q2 G1 G2.
      apply (Hpub _ (dated s (set_suppressed (snd w) true)) (k_on s)); auto.
      - apply mid_evq; [exact HMs|exact G1].
      - rewrite Hna, orb_false_r. reflexivity.
      - sd. intros Hbt. change (ed_bound d1) with (ed_bound d) in Hbt. destruct Hb as [[_ Hb]|[Hb _]]; congruence. }
    assert (Hfits : match ev_var (snd w) with
       | Ev_async_branch _ _ | Ev_exec_mode _ _ | Ev_async_paging _ _ _ | Ev_async_vmcs _ _
       | Ev_iflags _ _ | Ev_tick _ => True
       | _ => False end).
    { destruct w as [[] e]; unfold fits in Hfw; cbn in *; try discriminate;
        destruct (ev_var e); try discriminate; auto. }
    assert (Eat : at_pgd s (snd w) = match ev_var (snd w) with
       | Ev_async_branch from _ => Ok [dated s (placed s (set_var (snd w) (Ev_async_disabled from 0)))]
       | Ev_async_paging _ _ _ | Ev_async_vmcs _ _ | Ev_exec_mode _ _ => Ok [dated s (set_suppressed (snd w) true)]
       | _ => Err pte_bad_context
       end) by reflexivity.
    assert (Hord : is_async w = false -> by_mode w = false -> ed_bound d1 = true).
    { intros H1 H2. change (ed_bound d1) with (ed_bound d). destruct Hb as [[Hb _]|[_ Ho]]; [exact Hb|].
      rewrite El in Ho. destruct (ordered_first a w c Ha Hw Ho); congruence. }
    assert (Has : is_async w = match ev_var (snd w) with Ev_async_branch _ _ => true | _ => false end) by reflexivity.
    assert (Hbm : match ev_var (snd w) with Ev_async_paging _ _ _ | Ev_async_vmcs _ _ => by_mode w = false
                  | _ => True end).
    { clear - Hfw. destruct w as [[] e]; unfold fits, by_mode in *; cbn in *; try discriminate;
        destruct (ev_var e); try discriminate; auto. }
    change (ed_ip (set_evq d1 q')) with (k_ip s). change (ed_bound (set_evq d1 q')) with (ed_bound d1).
    destruct (ev_var (snd w)) eqn:Ev; try (destruct Hfits; fail);
      try (apply wp_fail; subst o; rewrite (pgds_step s a w c _ false El Ha Hw), Eat; reflexivity).
    - (* asynchronous branch *)
      apply wp_bind, wp_modify.
      match goal with |- wp _ _ _ ?x => set (d2 := x) end.
      assert (HM2 : Mid (with_on (with_wait s (a ++ c)) false) ps d2).
      { subst d2. apply mid_bound, mid_on, mid_event. exact HM'. }
      eapply wp_finish; [exact HM2|subst d2; sd; exact Hh|]. intros q2 G1 G2.
      eapply (Hpub _ _ false); eauto.
      + apply mid_evq; [exact HM2|exact G1].
      + rewrite Has, orb_true_r. reflexivity.
    - rewrite (Hord Has Hbm). apply Hplain; assumption.
    - apply Hplain; assumption.
    - rewrite (Hord Has Hbm). apply Hplain; assumption.
  Qed.

  Lemma pgd_f s d ip : Here s p ps d -> pkt_pl p = P_tip_pgd ip -> let o := andthen (tip_pgd s ip) ps in
    wp (pt_evt_decode_tip_pgd ip) (Post d o) (Fail o) d.
  Proof.
    intros H Hpl o. subst o. unfold tip_pgd. destruct (moves_to s ip) as [s'|e|u] eqn:Em.
    - destruct (loop_begin cf buf err p ps s d ip s' H Em) as (HL & Ho & _). rewrite Hpl in HL.
      pose proof H as [HD Hp Hv He Hb].
      pose proof (pgd_loop ip (cnt for_tip (k_wait s')) s' d d (le_n _) HL (or_intror (conj Hb Ho)) Hv (le_n _)) as HF.
      cbv zeta in HF. rewrite Hb in HF. exact HF.
    - unfold pt_evt_decode_tip_pgd. apply wp_bind. eapply moves_bad; eassumption.
    - destruct (moves_ub _ _ _ Em).
  Qed.
End LOOP3.
