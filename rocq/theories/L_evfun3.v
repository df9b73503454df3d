(** The events of a trace as a function of its packets: EXSTOP, CFE, EVD, and FUP. *)

From Verif Require Import Base M_packet M_config M_pktdec M_lastip M_time
  M_evq M_event M_evdec S_evq S_evtrace S_evfun L_evq L_evqpos L_evdec L_evsafe L_evnext L_evtrace
  L_evfun L_evfun2.
From Coq Require Import List NArith ZArith PeanoNat Bool Lia ZifyBool ZifyNat ZifyN.
Import ListNotations.
Open Scope nat_scope.

Definition cnt (p : place * event -> bool) (l : list (place * event)) : nat := length (filter p l).
Lemma cnt_le p l : cnt p l <= length l.
Proof. unfold cnt. induction l as [|w l IH]; cbn; [lia|]. destruct (p w); cbn; lia. Qed.
Lemma cnt_mid p a w c : p w = true -> cnt p (a ++ w :: c) = S (cnt p (a ++ c)).
Proof. intros H. unfold cnt. rewrite !filter_app, !app_length. cbn. rewrite H. cbn. lia. Qed.
Lemma filter_mid (p : place * event -> bool) a w c : p w = true ->
  filter (fun x => negb (p x)) (a ++ w :: c) = filter (fun x => negb (p x)) (a ++ c).
Proof. intros H. rewrite !filter_app. cbn. rewrite H. reflexivity. Qed.
Lemma fits_mid a w c : forallb fits (a ++ w :: c) = true -> forallb fits (a ++ c) = true /\ fits w = true.
Proof.
  rewrite !forallb_app. cbn [forallb]. intros H. apply andb_prop in H as [H1 H].
  apply andb_prop in H as [H2 H3]. rewrite H1, H3. auto.
Qed.
Lemma ordered_remove a w c : ordered (a ++ w :: c) = true -> is_async w = false -> ordered (a ++ c) = true.
Proof.
  unfold ordered. rewrite !filter_app. cbn [filter]. intros H Hw.
  destruct (for_tip w); [|exact H].
  destruct (filter for_tip a) as [|x r].
  - cbn [app forallb] in *. rewrite Hw in H. cbn in H. apply andb_prop in H as [_ H].
    destruct (filter for_tip c); [reflexivity|]. cbn [forallb] in *. rewrite H. apply orb_true_r.
  - cbn [app] in *. destruct (is_async x); [reflexivity|]. cbn [orb forallb] in *.
    rewrite forallb_app in *. cbn [forallb] in H.
    apply andb_prop in H as [H0 H]. apply andb_prop in H as [H1 H]. apply andb_prop in H as [_ H2].
    rewrite H0, H1, H2. reflexivity.
Qed.

Lemma with_wait_same s : with_wait s (k_wait s) = s.
Proof. destruct s; reflexivity. Qed.
Lemma with_on_same s : with_on s (k_on s) = s.
Proof. destruct s; reflexivity. Qed.

Section LOOP.
  Context (cf : config) (buf : list N) (err : pte).
  Hypothesis moves : callback_moves cf.
  Hypothesis freq : (cf_mtc_freq cf < 24)%N.
  Hypothesis small : (N.of_nat (length buf) + 1 < 2 ^ 31)%N.
  Hypothesis skip : no_skipping cf.

  Notation Core := (Core cf buf err).
  Notation Done := (Done cf buf err).
  Notation Here := (Here cf buf err).
  Notation Next := (Next cf buf err).
  Notation Post := (Post buf).
  Notation andthen := (andthen cf err).
  Notation yields := (yields buf).

  (** As [Done], but the events need not be in order. *)
  Record Mid (s : track) (ps : list packet) (d : evdec) : Prop := mk_Mid {
    m_core : Core s ps d;
    m_queue : qrep (ed_evq d) (qs (k_wait s));
    m_fits : forallb fits (k_wait s) = true;
    m_head : k_head s = None;
    m_psb : h_psb (k_hw s) = false }.

  Lemma mid_of s ps d : Done s ps d -> Mid s ps d.
  Proof. intros [HC [] ? ?]. split; auto. Qed.
  Lemma of_mid s ps d : Mid s ps d -> ordered (k_wait s) = true -> Done s ps d.
  Proof. intros [] Ho. split; auto. split; auto. Qed.

  Lemma core_evq s ps d l q : Core s ps d -> Core (with_wait s l) ps (set_evq d q).
  Proof. intros []. split; auto. Qed.
  Lemma core_on s ps d b : Core s ps d -> Core (with_on s b) ps (set_enabled d b).
  Proof. intros []. split; auto. Qed.
  Lemma core_event s ps d e : Core s ps d -> Core s ps (set_event d e).
  Proof. intros []. split; auto. Qed.
  Lemma core_alone s ps d e : Core s ps d -> Core s ps (set_alone d e).
  Proof. intros []. split; auto. Qed.
  Lemma core_bound s ps d e : Core s ps d -> Core s ps (set_bound d e).
  Proof. intros []. split; auto. Qed.

  Lemma wp_take b p s ps d (Q : option nat -> evdec -> Prop) F : asks b p -> Mid s ps d ->
    (forall a w c q' i, k_wait s = a ++ w :: c -> p w = true -> Forall (fun x => p x = false) a ->
       fits w = true -> Mid (with_wait s (a ++ c)) ps (set_evq d q') -> held q' i (snd w) ->
       i = evq_begin (ed_evq d) -> evq_begin q' = (evq_begin (ed_evq d) + 1) mod 16 ->
       pick p (k_wait s) = Some (snd w, a ++ c) -> Q (Some i) (set_evq d q')) ->
    (Forall (fun x => p x = false) (k_wait s) -> pick p (k_wait s) = None -> Q None d) ->
    wp (dequeue b) Q F d.
  Proof.
    intros Ha HM H1 H2. pose proof HM as [HC Hq Hf Hh Hp]. pose proof (pick_split p (k_wait s)) as Hs.
    eapply wp_dequeue; [exact Hq| |]; rewrite (take_pick _ _ _ Ha).
    - intros e l' Ht q' i Hq' Hh' Hi Hb. destruct (pick p (k_wait s)) as [[e0 l0]|] eqn:Ep; [|discriminate].
      injection Ht as <- <-. destruct Hs as (a & w & c & E1 & E2 & E3 & E4 & E5). subst e0 l0.
      rewrite E1 in Hf. destruct (fits_mid _ _ _ Hf) as [Hf1 Hf2].
      eapply H1; eauto. split; auto. apply core_evq. exact HC.
    - destruct (pick p (k_wait s)) as [[e0 l0]|]; [discriminate|]. intros _. apply H2; auto.
  Qed.

  Context (p : packet) (ps : list packet).
  Hypothesis next : Next ps.

  (** An event from the queue is published. *)
  Lemma post_event d0 d' i e evs r : ed_event d' = Some (Slot i) -> held (ed_evq d') i e ->
    yields (set_event d' None) (evs, r) -> Post d0 (e :: evs, r) false d'.
  Proof.
    intros H1 H2 H3. exists (Slot i), e, evs. split; [exact H1|]. split; [|split; [reflexivity|exact H3]].
    unfold read_event. cbn [ed_evq set_event]. rewrite (held_at _ _ _ H2). reflexivity.
  Qed.
  Lemma post_alone d0 d' e evs r : ed_event d' = Some Alone -> ed_alone d' = e ->
    yields (set_event d' None) (evs, r) -> Post d0 (e :: evs, r) false d'.
  Proof.
    intros H1 H2 H3. exists Alone, e, evs. split; [exact H1|]. split; [|split; [reflexivity|exact H3]].
    unfold read_event. cbn [ed_alone set_event]. rewrite H2. reflexivity.
  Qed.

  Lemma andthen_cons e o : andthen (e :: fst o, snd o) ps = (e :: fst (andthen o ps), snd (andthen o ps)).
  Proof. destruct o as [evs [s|x|u]]; reflexivity. Qed.

  (** ** EXSTOP *)

  Definition exstops (s : track) : outcome :=
    gives (with_wait s (filter (fun w => negb (for_exstop w)) (k_wait s)))
          (map (fun w => dated s (unplaced (snd w))) (filter for_exstop (k_wait s))
           ++ [nowhere s (Ev_exstop 0)]).

  Lemma exstops_f n : forall s d d0, cnt for_exstop (k_wait s) <= n -> Done s ps d ->
    ed_event d = None -> ed_bound d = false -> pkt_pl (ed_pkt d) = P_exstop false ->
    wp (pt_evt_decode_exstop false) (Post d0 (andthen (exstops s) ps)) (Fail (andthen (exstops s) ps)) d.
  Proof.
    induction n as [|n IH]; intros s d d0 Hn HD He Hb Hpk;
      unfold pt_evt_decode_exstop; apply wp_bind; eapply wp_take; try apply asks_exstop;
      try (apply mid_of; exact HD);
      try (intros Hno _; unfold exstop_self, exstops;
           rewrite (filter_none _ _ Hno), (filter_all _ _ Hno), with_wait_same; apply post_now; auto);
      intros a w c q' i El Hw Ha Hfw HM Hh _ _ _; rewrite El, (cnt_mid _ _ _ _ Hw) in Hn; try lia.
    apply wp_bind. eapply wp_read_held; [sd; exact Hh|].
    assert (Hm : exists ip h x, ev_var (snd w) = Ev_mwait ip h x).
    { destruct w as [[] e]; try discriminate Hw. unfold fits in Hfw. cbn in *.
      destruct (ev_var e); try discriminate. eauto. }
    destruct Hm as (ip & h & x & Ev). rewrite Ev.
    pose proof HM as [_ HMq _ _ _].
    apply wp_bind, wp_get, wp_bind. eapply wp_write_held; [sd; exact HMq|sd; exact Hh|].
    intros q2 Hq2 _ Hh2. apply wp_bind, wp_publish, wp_ret. sd.
    assert (HD2 : Done (with_wait s (a ++ c)) ps (set_event (set_evq (set_evq d q') q2) None)).
    { destruct HM as [HC Hq Hfit Hhd Hpsb]. apply of_mid.
      - split; auto. apply core_event. destruct HC. split; auto.
      - cbn [k_wait with_wait]. pose proof (w_ordered _ _ (d_waits _ _ _ _ _ _ HD)) as Ho. rewrite El in Ho.
        apply (ordered_remove a w c Ho). unfold is_async. rewrite Ev. reflexivity. }
    assert (Eo : exstops s = (dated s (unplaced (snd w)) :: fst (exstops (with_wait s (a ++ c))),
                              snd (exstops (with_wait s (a ++ c))))).
    { unfold exstops, gives. cbn [k_wait with_wait fst snd]. rewrite El, (filter_mid _ _ _ _ Hw).
      rewrite !filter_app, !map_app. cbn [filter]. rewrite Hw, (filter_none _ _ Ha). reflexivity. }
    rewrite Eo, andthen_cons.
    apply post_event with (i := i); [reflexivity| |].
    - sd. replace (dated s (unplaced (snd w))) with
        (event_time (ed_time d) (set_suppressed (set_var (snd w) (Ev_mwait 0 h x)) true)); [exact Hh2|].
      rewrite dated_is. unfold unplaced. rewrite Ev.
      rewrite (c_time _ _ _ _ _ _ (d_core _ _ _ _ _ _ HD)). reflexivity.
    - rewrite <- surjective_pairing. apply (y_decode cf buf freq small). unfold pt_evt_decode_packet. apply wp_bind, wp_get.
      sd. rewrite Hpk. cbn [decode_other]. apply IH; auto. cbn [k_wait with_wait]. lia.
  Qed.

  Lemma exstop_f s d ip : Here s p ps d -> pkt_pl p = P_exstop ip -> let o := andthen (exstop s ip) ps in
    wp (pt_evt_decode_exstop ip) (Post d o) (Fail o) d.
  Proof.
    intros [HD Hp Hv He Hb] Hpl o. subst o. destruct ip.
    2: { apply exstops_f with (n := cnt for_exstop (k_wait s)); auto. congruence. }
    unfold pt_evt_decode_exstop, exstop.
    pose proof (w_ordered _ _ (d_waits _ _ _ _ _ _ HD)) as Ho.
    apply wp_bind. eapply wp_take; [apply asks_exstop|apply mid_of; exact HD| |].
    - intros a w c q' i El Hw Ha Hfw HM Hh _ _ Hpick. rewrite Hpick.
      apply wp_bind. eapply wp_read_held; [sd; exact Hh|].
      assert (Hm : exists x h y, ev_var (snd w) = Ev_mwait x h y).
      { destruct w as [[] e]; try discriminate Hw. unfold fits in Hfw. cbn in *.
        destruct (ev_var e); try discriminate. eauto. }
      destruct Hm as (x & h & y & Ev). rewrite Ev.
      assert (HD2 : Done (with_wait s (a ++ c)) ps (set_evq d q')).
      { apply of_mid; [exact HM|]. rewrite El in Ho. apply (ordered_remove a w c Ho). unfold is_async.
        rewrite Ev. reflexivity. }
      apply wp_bind. pose proof HM as [_ HMq _ _ _].
      unfold wp at 1, requeue. pose proof (qrep_requeue zero_event _ _ evb_fup_bound _ _ HMq (or_introl Hh)) as HR.
      cbn [ed_evq set_evq] in *. rewrite qs_length in HR.
      assert (Hwt : waits At_own_fup (snd w) (with_wait s (a ++ c)) =
        if Nat.ltb (length (a ++ c)) 14 then Ok (with_wait s ((a ++ c) ++ [(At_own_fup, snd w)])) else Err pte_nomem)
        by reflexivity.
      cbn [k_wait with_wait] in HR. rewrite Hwt. destruct (Nat.ltb (length (a ++ c)) 14) eqn:El14.
      2: { rewrite HR. reflexivity. }
      destruct HR as (q2 & -> & G1 & _).
      assert (HD3 : Done (with_wait s ((a ++ c) ++ [(At_own_fup, snd w)])) ps (set_evq (set_evq d q') q2)).
      { eapply (waits_done cf buf err (with_wait s (a ++ c)) ps (set_evq d q') At_own_fup (snd w)); eauto.
        - unfold fits. cbn. rewrite Ev. reflexivity.
        - eapply ordered_not_tip; [exact HD2|reflexivity]. }
      cbn [bind]. unfold exstop_self. change evb_fup_bound with (mask At_own_fup).
      apply (post_wait cf buf err freq small ps next _ d); auto. eapply ordered_not_tip; [exact HD3|reflexivity].
    - intros Hno Hpick. rewrite Hpick. cbn [bind]. unfold exstop_self. change evb_fup_bound with (mask At_own_fup).
      apply post_wait; auto. eapply ordered_not_tip; [exact HD|reflexivity].
  Qed.

  (** ** CFE *)

  Lemma cfe_take s d (Q : option nat -> evdec -> Prop) F : Here s p ps d ->
    (forall a w c q' i, k_wait s = a ++ w :: c -> for_cfe w = true ->
       (exists a b c, ev_var (snd w) = Ev_interrupt a b c) \/ (exists a b c x, ev_var (snd w) = Ev_vmexit a b c x) ->
       Done (with_wait s (a ++ c)) ps (set_evq d q') -> held q' i (snd w) ->
       pick for_cfe (k_wait s) = Some (snd w, a ++ c) -> Q (Some i) (set_evq d q')) ->
    (pick for_cfe (k_wait s) = None -> Q None d) ->
    wp (dequeue evb_cfe) Q F d.
  Proof.
    intros [HD Hp Hv He Hb] H1 H2. pose proof (w_ordered _ _ (d_waits _ _ _ _ _ _ HD)) as Ho.
    eapply wp_take; [apply asks_cfe|apply mid_of; exact HD| |intros _; exact H2].
    intros a w c q' i El Hw Ha Hfw HM Hh _ _ Hpick.
    assert (Hx : (exists a b c, ev_var (snd w) = Ev_interrupt a b c) \/
                 (exists a b c x, ev_var (snd w) = Ev_vmexit a b c x)).
    { destruct w as [[] e]; try discriminate Hw. unfold fits in Hfw. cbn in *.
      destruct (ev_var e); try discriminate; eauto 8. }
    apply (H1 a w c); auto. apply of_mid; [exact HM|]. rewrite El in Ho. apply (ordered_remove a w c Ho).
    unfold is_async. destruct Hx as [(x & y & z & ->)|(x & y & z & u & ->)]; reflexivity.
  Qed.

  Lemma plain_f s d v ip any : Here s p ps d ->
    fits (At_own_fup, new_event v) = true -> (any = true -> fits (At_fup, new_event v) = true) ->
    let o := andthen (unannounced s (later s ip any v)) ps in
    wp (do o <- dequeue evb_cfe; cfe_plain o v ip any) (Post d o) (Fail o) d.
  Proof.
    intros H H1 H2 o. subst o. apply wp_bind. eapply cfe_take; [exact H| |].
    - intros a w c q' i _ _ _ _ _ Hpick. unfold unannounced. rewrite Hpick. reflexivity.
    - intros Hpick. unfold unannounced. rewrite Hpick. destruct H as [HD Hp Hv He Hb].
      unfold cfe_plain. apply wp_bind, wp_get. apply later_f; auto.
  Qed.

  Lemma noip_f s d v ip : Here s p ps d ->
    fits (At_fup, set_suppressed (new_event v) true) = true ->
    let o := andthen (unannounced s (no_address s ip v)) ps in
    wp (do o <- dequeue evb_cfe; cfe_noip o v ip) (Post d o) (Fail o) d.
  Proof.
    intros H H1 o. subst o. apply wp_bind. eapply cfe_take; [exact H| |].
    - intros a w c q' i _ _ _ _ _ Hpick. unfold unannounced. rewrite Hpick. reflexivity.
    - intros Hpick. unfold unannounced. rewrite Hpick. pose proof H as [HD Hp Hv He Hb].
      unfold cfe_noip, no_address. destruct ip; [reflexivity|]. apply wp_bind, wp_get. cbv zeta.
      rewrite (c_on _ _ _ _ _ _ (d_core _ _ _ _ _ _ HD)). destruct (k_on s).
      + change evb_fup with (mask At_fup). apply post_wait; auto.
        eapply ordered_not_tip; [exact HD|reflexivity].
      + apply post_now; auto.
  Qed.

  Lemma evd_cfe_f s d v (add : evar -> option evar) ip : Here s p ps d ->
    (forall x y, add x = Some y -> fits (At_own_fup, new_event y) = true /\ fits (At_fup, new_event y) = true) ->
    let o := andthen (announced s ip v add) ps in
    wp (do o <- dequeue evb_cfe; cfe_evd o v add ip) (Post d o) (Fail o) d.
  Proof.
    intros H Hadd o. subst o.
    assert (Hfit : forall e y, add (ev_var e) = Some y ->
      fits (At_own_fup, set_var e y) = true /\ fits (At_fup, set_var e y) = true).
    { intros e y E. destruct (Hadd _ _ E) as [G1 G2]. unfold fits in *. cbn in *. split; [exact G1|].
      destruct y; auto; discriminate. }
    pose proof H as [HD Hp Hv He Hb].
    apply wp_bind. eapply cfe_take; [exact H| |].
    - intros a w c q' i El Hw Hx HD2 Hh Hpick. unfold announced. rewrite Hpick.
      unfold cfe_evd. apply wp_bind, wp_ret, wp_bind. eapply wp_read_held; [sd; exact Hh|].
      destruct (add (ev_var (snd w))) as [y|] eqn:Ea; [|reflexivity].
      pose proof (w_queue _ _ (d_waits _ _ _ _ _ _ HD2)) as Hq2.
      apply wp_bind. eapply wp_write_held; [exact Hq2|sd; exact Hh|]. intros q2 Hq3 _ Hh3.
      apply wp_bind, wp_get. sd.
      assert (HD3 : Done (with_wait s (a ++ c)) ps (set_evq (set_evq d q') q2)).
      { destruct HD2 as [[] [] ? ?]. split; auto; split; auto. }
      cbn [k_wait with_wait] in *. pose proof (c_on _ _ _ _ _ _ (d_core _ _ _ _ _ _ HD)) as Hon. rewrite Hon.
      cbn [k_on with_wait]. destruct (Hfit _ _ Ea) as [F1 F2].
      assert (Hreq : forall pl, fits (pl, set_var (snd w) y) = true -> for_tip (pl, set_var (snd w) y) = false ->
        let r := waits pl (set_var (snd w) y) (with_wait s (a ++ c)) in
        wp (run requeue (Slot i) (mask pl); ret true) (Post d (andthen (quietly r) ps))
           (Fail (andthen (quietly r) ps)) (set_evq (set_evq d q') q2)).
      { intros pl Hpl Htip r. apply wp_bind. unfold wp at 1, requeue.
        pose proof (qrep_requeue zero_event q2 _ (mask pl) i _ Hq3 (or_introl Hh3)) as HR.
        rewrite qs_length in HR. cbn [ed_evq set_evq]. subst r. unfold waits.
        cbn [k_wait with_wait] in *. destruct (Nat.ltb (length (a ++ c)) 14) eqn:E14.
        - destruct HR as (q4 & -> & G1 & _). apply wp_ret. apply post_silent; auto.
          eapply (waits_done cf buf err (with_wait s (a ++ c)) ps (set_evq (set_evq d q') q2) pl); eauto.
          + eapply ordered_not_tip; [exact HD3|exact Htip].
          + unfold waits. cbn [k_wait with_wait]. rewrite E14. reflexivity.
        - rewrite HR. reflexivity. }
      destruct ip; [apply (Hreq At_own_fup F1 eq_refl)|]. destruct (k_on s); [apply (Hreq At_fup F2 eq_refl)|].
      apply wp_bind. eapply wp_write_held; [sd; exact Hq3|sd; exact Hh3|]. intros q5 Hq5 _ Hh5.
      apply wp_bind, wp_publish. apply post_fetch with (p := Slot i); auto.
      + destruct HD3 as [[] [] ? ?]. split; auto; split; auto.
      + unfold read_event. sd. rewrite (held_at _ _ _ Hh5). cbn [snd]. f_equal.
        rewrite suppressed_time, dated_is. rewrite (c_time _ _ _ _ _ _ (d_core _ _ _ _ _ _ HD)). reflexivity.
    - intros Hpick. unfold announced. rewrite Hpick, with_wait_same.
      unfold cfe_evd. apply wp_bind, wp_bind, wp_write_alone, wp_ret, wp_bind, wp_read_alone. sd.
      cbn [ev_var new_event]. destruct (add v) as [y|] eqn:Ea; [|reflexivity].
      apply wp_bind, wp_write_alone, wp_bind, wp_get. sd.
      destruct (Hfit (new_event v) y Ea) as [F1 F2].
      set (d2 := set_alone (set_alone d (new_event v)) (set_var (new_event v) y)).
      assert (HD3 : Done s ps d2) by (destruct HD as [[] [] ? ?]; split; auto; split; auto).
      rewrite (c_on _ _ _ _ _ _ (d_core _ _ _ _ _ _ HD)).
      assert (Hreq : forall pl, fits (pl, set_var (new_event v) y) = true ->
        for_tip (pl, set_var (new_event v) y) = false ->
        let r := waits pl (set_var (new_event v) y) s in
        wp (run requeue Alone (mask pl); ret true) (Post d (andthen (quietly r) ps))
           (Fail (andthen (quietly r) ps)) d2).
      { intros pl Hpl Htip r. apply (post_wait cf buf err freq small ps next s d d2 pl (set_var (new_event v) y)); auto.
        eapply ordered_not_tip; [exact HD3|exact Htip]. }
      destruct ip; [apply (Hreq At_own_fup F1 eq_refl)|]. destruct (k_on s); [apply (Hreq At_fup F2 eq_refl)|].
      apply wp_bind, wp_write_alone, wp_bind, wp_publish. apply post_fetch with (p := Alone); auto.
      + destruct HD as [[] [] ? ?]. split; auto; split; auto.
      + unfold read_event. sd. cbn [snd]. f_equal. subst d2. sd.
        rewrite suppressed_time, dated_is. rewrite (c_time _ _ _ _ _ _ (d_core _ _ _ _ _ _ HD)). reflexivity.
  Qed.

  Lemma cfe_f s d ty v ip : Here s p ps d -> let o := andthen (cfe s ty v ip) ps in
    wp (pt_evt_decode_cfe ty v ip) (Post d o) (Fail o) d.
  Proof.
    intros H o. subst o.
    assert (Hdef : let o := andthen (match pick for_cfe (k_wait s) with
      | Some _ => errs pte_internal
      | None => if ip then quietly (waits At_own_fup (new_event (Ev_tick 0)) s) else gives s []
      end) ps in wp (do o <- dequeue evb_cfe; match o with
      | Some _ => fail pte_internal
      | None => if ip then run enqueue evb_fup_bound (new_event (Ev_tick 0)); ret true else ret true
      end) (Post d o) (Fail o) d).
    { intros o. subst o. pose proof H as [HD Hp Hv He Hb].
      apply wp_bind. eapply cfe_take; [exact H| |].
      - intros a w c q' i _ _ _ _ _ Hpick. rewrite Hpick. reflexivity.
      - intros Hpick. rewrite Hpick. destruct ip.
        + change evb_fup_bound with (mask At_own_fup). apply post_wait; auto.
          eapply ordered_not_tip; [exact HD|reflexivity].
        + apply wp_ret. apply post_silent; auto. }
    unfold pt_evt_decode_cfe.
    destruct ty as [|ty]; [exact Hdef|].
    destruct ty as [ty|ty|]; try destruct ty as [ty|ty|]; try destruct ty as [ty|ty|];
      try destruct ty as [ty|ty|]; try exact Hdef;
    match goal with
    | |- context [cfe _ 1 _ _] => apply evd_cfe_f; [exact H|]; intros x y E; destruct x; try discriminate;
        injection E as <-; split; reflexivity
    | |- context [cfe _ 8 _ _] => apply evd_cfe_f; [exact H|]; intros x y E; destruct x; try discriminate;
        injection E as <-; split; reflexivity
    | |- context [cfe _ 9 _ _] => apply evd_cfe_f; [exact H|]; intros x y E; destruct x; try discriminate;
        injection E as <-; split; reflexivity
    | |- context [cfe _ 4 _ _] => apply noip_f; [exact H|reflexivity]
    | |- context [cfe _ 5 _ _] => apply noip_f; [exact H|reflexivity]
    | |- _ => apply plain_f; [exact H|reflexivity|]; first [reflexivity | discriminate]
    end.
  Qed.
End LOOP.
