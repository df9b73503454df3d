(** The events of a trace as a function of its packets: EVD, FUP, and TIP. *)

From Verif Require Import Base M_packet M_config M_pktdec M_lastip M_time
  M_evq M_event M_evdec S_evq S_evtrace S_evfun L_evq L_evqpos L_evdec L_evsafe L_evnext L_evtrace
  L_evfun L_evfun2 L_evfun3.
From Coq Require Import List NArith ZArith PeanoNat Bool Lia.
Import ListNotations.
Open Scope nat_scope.

Lemma amend_split add l : match amend add l with
  | Some o => exists a w c, l = a ++ w :: c /\ for_cfe w = true /\ Forall (fun x => for_cfe x = false) a /\
      o = option_map (fun v => a ++ (fst w, set_var (snd w) v) :: c) (add (ev_var (snd w)))
  | None => Forall (fun x => for_cfe x = false) l
  end.
Proof.
  induction l as [|w l IH]; cbn [amend]; [constructor|]. destruct (for_cfe w) eqn:E.
  - exists [], w, l. repeat split; auto.
  - destruct (amend add l) as [o|]; cbn [option_map].
    + destruct IH as (a & x & c & -> & E2 & E3 & ->). exists (w :: a), x, c. repeat split; auto.
      destruct (add (ev_var (snd x))); reflexivity.
    + constructor; assumption.
Qed.

Lemma ordered_set a w c w' : for_tip w = false -> for_tip w' = false -> ordered (a ++ w :: c) = true ->
  ordered (a ++ w' :: c) = true.
Proof. unfold ordered. rewrite !filter_app. cbn [filter]. intros -> ->. auto. Qed.

Lemma in_turn_skip f a l : Forall (fun x => for_tip x = false) a -> in_turn f (a ++ l) = in_turn f l.
Proof. induction 1 as [|x a Hx _ IH]; [reflexivity|]. cbn. rewrite Hx. exact IH. Qed.
Lemma in_turn_none f l : Forall (fun x => for_tip x = false) l -> in_turn f l = ([], None).
Proof. intros H. rewrite <- (app_nil_r l), in_turn_skip by exact H. reflexivity. Qed.
Lemma in_turn_mid f a w c : Forall (fun x => for_tip x = false) a -> for_tip w = true ->
  in_turn f (a ++ w :: c) =
  match f (snd w) with
  | Ok evs => (evs ++ fst (in_turn f (a ++ c)), snd (in_turn f (a ++ c)))
  | Err e => ([], Some e)
  | UB _ => ([], None)
  end.
Proof.
  intros Ha Hw. rewrite !in_turn_skip by exact Ha. cbn [in_turn]. rewrite Hw. cbn [negb].
  destruct (f (snd w)); auto. destruct (in_turn f c); reflexivity.
Qed.

Section LOOP2.
  Context (cf : config) (buf : list N) (err : pte).
  Hypothesis moves : callback_moves cf.
  Hypothesis freq : (cf_mtc_freq cf < 24)%N.
  Hypothesis small : (N.of_nat (length buf) + 1 < 2 ^ 31)%N.
  Hypothesis skip : no_skipping cf.

  Notation Core := (Core cf buf err).
  Notation Done := (Done cf buf err).
  Notation Mid := (Mid cf buf err).
  Notation Here := (Here cf buf err).
  Notation Next := (Next cf buf err).
  Notation Post := (Post buf).
  Notation andthen := (andthen cf err).
  Notation yields := (yields buf).

  Context (p : packet) (ps : list packet).
  Hypothesis next : Next ps.

  (** ** EVD *)

  Lemma peek_cfe s d : Done s ps d ->
    match pt_evq_peek (ed_evq d) evb_cfe with Some _ => true | None => false end = existsb for_cfe (k_wait s).
  Proof.
    intros HD. rewrite (qrep_peek _ _ _ (w_queue _ _ (d_waits _ _ _ _ _ _ HD))).
    rewrite <- (qs_existsb _ _ _ asks_cfe), <- find_pos_existsb. destruct (find_pos _ _); reflexivity.
  Qed.

  Lemma evd_exit_f s d add fresh : Here s p ps d ->
    (forall x y, add x = Some y -> exists a b c e, y = Ev_vmexit a b c e) ->
    add (Ev_vmexit None None None 0) = Some fresh ->
    let o := andthen (evd_exit s add fresh) ps in
    wp (evd_vmexit add) (Post d o) (Fail o) d.
  Proof.
    intros [HD Hp Hv He Hb] Hadd Hfr o. subst o. pose proof HD as [HC [Hq Hf Ho] Hh Hps].
    unfold evd_vmexit, evd_exit. apply wp_bind, wp_get. pose proof (amend_split add (k_wait s)) as Hs.
    rewrite (qrep_peek _ _ _ Hq).
    destruct (amend add (k_wait s)) as [o|].
    - destruct Hs as (a & w & c & El & Hw & Ha & ->).
      rewrite (find_at (k_wait s) a w c _ El).
      2: { rewrite asks_cfe. exact Hw. }
      2: { eapply Forall_impl; [|exact Ha]. intros x Hx. rewrite asks_cfe. exact Hx. }
      cbn [option_map]. apply wp_bind, wp_ret, wp_bind.
      assert (Hnth : nth_error (qs (k_wait s)) (length a) = Some (q1 w)).
      { rewrite El, qs_app, nth_error_app2 by (rewrite qs_length; lia). rewrite qs_length, Nat.sub_diag.
        reflexivity. }
      eapply wp_read_pos; [exact Hq|exact Hnth|].
      destruct (add (ev_var (snd w))) as [y|] eqn:Ea; [|reflexivity]. cbn [option_map].
      apply wp_bind. eapply wp_write_pos; [exact Hq|rewrite qs_length, El, app_length; cbn; lia|].
      intros q2 Hq2 _ _. apply wp_ret. apply post_silent; auto.
      destruct (Hadd _ _ Ea) as (x1 & x2 & x3 & x4 & ->).
      assert (Hpl : fst w = At_cfe) by (unfold for_cfe in Hw; destruct (fst w); congruence).
      rewrite El, update_at in Hq2.
      split; [destruct HC; split; auto| |auto|auto]. rewrite El in Hf, Ho.
      split; cbn [k_wait with_wait].
      + exact Hq2.
      + rewrite forallb_app in *. cbn [forallb] in *. unfold fits at 2. cbn [fst snd]. rewrite Hpl. cbn.
        apply andb_prop in Hf as [Hf1 Hf]. apply andb_prop in Hf as [_ Hf2]. rewrite Hf1, Hf2. reflexivity.
      + apply (ordered_set a w); auto; unfold for_tip; cbn [fst]; rewrite Hpl; reflexivity.
    - rewrite find_not.
      2: { eapply Forall_impl; [|exact Hs]. intros x Hx. rewrite asks_cfe. exact Hx. }
      cbn [option_map]. apply wp_bind, wp_bind.
      change evb_cfe with (mask At_cfe).
      unfold wp at 1, enqueue.
      pose proof (qrep_enqueue (ed_evq d) _ (mask At_cfe) (new_event (Ev_vmexit None None None 0)) Hq) as HE.
      rewrite qs_length in HE. unfold waits. destruct (Nat.ltb (length (k_wait s)) 14) eqn:E14.
      2: { rewrite HE. reflexivity. }
      destruct HE as (q' & -> & G1 & G2 & _). apply wp_ret, wp_bind.
      assert (Hend : evq_end (ed_evq d) = slot_of q' (length (k_wait s))).
      { rewrite (qrep_end _ _ Hq), qs_length. symmetry. apply slot_begin. exact G2. }
      rewrite Hend.
      change [(mask At_cfe, new_event (Ev_vmexit None None None 0))]
        with (qs [(At_cfe, new_event (Ev_vmexit None None None 0))]) in G1.
      rewrite <- qs_app in G1. change q' with (ed_evq (set_evq d q')) at 1.
      eapply wp_read_pos; [exact G1| |].
      { rewrite qs_app, nth_error_app2 by (rewrite qs_length; lia). rewrite qs_length, Nat.sub_diag.
        reflexivity. }
      cbn [ev_var new_event snd]. rewrite Hfr. apply wp_bind. change q' with (ed_evq (set_evq d q')) at 1.
      eapply wp_write_pos; [exact G1|rewrite qs_length, app_length; cbn; lia|].
      intros q2 Hq2 _ _. apply wp_ret. rewrite update_at in Hq2.
      destruct (Hadd _ _ Hfr) as (x1 & x2 & x3 & x4 & ->).
      apply post_silent; auto.
      assert (Ew : waits At_cfe (new_event (Ev_vmexit x1 x2 x3 x4)) s =
                   Ok (with_wait s (k_wait s ++ [(At_cfe, new_event (Ev_vmexit x1 x2 x3 x4))])))
        by (unfold waits; rewrite E14; reflexivity).
      assert (HX := waits_done cf buf err s ps d At_cfe (new_event (Ev_vmexit x1 x2 x3 x4)) _ q2 HD eq_refl
        ltac:(eapply ordered_not_tip; [exact HD|reflexivity]) Ew).
      cbn [fst] in Hq2. rewrite qs_app in Hq2. specialize (HX Hq2).
      destruct HX as [[] [] ? ?]. split; auto; split; auto.
  Qed.

  Lemma evd_f s d ty v : Here s p ps d -> let o := andthen (evd s ty v) ps in
    wp (pt_evt_decode_evd ty v) (Post d o) (Fail o) d.
  Proof.
    intros H o. subst o. pose proof H as [HD Hp Hv He Hb]. unfold pt_evt_decode_evd, pt_evd_cr2, pt_evd_vmxq, pt_evd_vmxr.
    apply wp_bind, wp_get.
    assert (Hdef : Post d (andthen (gives s []) ps) true d) by (apply post_silent; auto).
    destruct ty as [|ty]; cbn [N.eqb].
    - unfold evd. rewrite <- (peek_cfe s d HD). destruct (pt_evq_peek _ _); [reflexivity|].
      change evb_cfe with (mask At_cfe). apply post_wait; auto.
      eapply ordered_not_tip; [exact HD|reflexivity].
    - destruct ty as [ty|ty|]; [exact Hdef|destruct ty as [ty|ty|]; try exact Hdef|];
        (apply evd_exit_f; [exact H| |reflexivity]); intros x y E; destruct x; try discriminate;
        repeat match goal with |- context [match ?o with _ => _ end] => destruct o
               | H : match ?o with _ => _ end = Some _ |- _ => destruct o; try discriminate end;
        injection E as <-; eauto.
  Qed.

  Lemma psbend_none s q d (Q : bool -> evdec -> Prop) F : Mid s q d -> Q true d ->
    wp pt_evt_decode_psbend Q F d.
  Proof.
    intros HM HQ. unfold pt_evt_decode_psbend. apply wp_bind.
    eapply wp_take; [apply asks_psbend|exact HM| |].
    - intros. discriminate.
    - intros _ _. exact HQ.
  Qed.

  (** ** The last IP *)

  (** The state, but for the last IP, which the packet may have set already. *)
  Definition setting (ip : packet_ip) (s : track) (d : evdec) : Prop :=
    pt_last_ip_update_ip (ed_ip d) ip = (k_ip s, Ok tt).

  Lemma wp_setting ip s d (Q : unit -> evdec -> Prop) F : setting ip s d ->
    Q tt (set_lip d (k_ip s)) -> wp (update_ip ip) Q F d.
  Proof. unfold setting. intros H HQ. unfold wp, update_ip. rewrite H. exact HQ. Qed.

  Lemma update_result l l' ip : snd (pt_last_ip_update_ip l ip) = snd (pt_last_ip_update_ip l' ip).
  Proof.
    unfold pt_last_ip_update_ip.
    repeat match goal with |- context [if ?b then _ else _] => destruct b end; reflexivity.
  Qed.
  Lemma set_again l l' ip : pt_last_ip_update_ip l ip = (l', Ok tt) ->
    pt_last_ip_update_ip l' ip = (l', Ok tt).
  Proof.
    intros H. pose proof (update_ip_again l ip) as H1. pose proof (update_result l' l ip) as H2.
    rewrite H in H1, H2. cbn [fst snd] in *. destruct (pt_last_ip_update_ip l' ip). cbn in *. congruence.
  Qed.

  (** The packet is decoded, in several calls. *)
  Record Loop (ip : packet_ip) (pl : payload) (s : track) (d : evdec) : Prop := mk_Loop {
    l_set : setting ip s d;
    l_mid : Mid s ps (set_lip d (k_ip s));
    l_event : ed_event d = None;
    l_pkt : pkt_pl (ed_pkt d) = pl }.

  Lemma loop_begin s d ip s' : Here s p ps d -> moves_to s ip = Ok s' ->
    Loop ip (pkt_pl p) s' d /\ ordered (k_wait s') = true /\ k_on s' = k_on s /\ k_wait s' = k_wait s.
  Proof.
    intros [HD Hp Hv He Hb] Hm. pose proof HD as [[Hpd Hw Hip Ht Hc Hon Hmo Hval] [Hq Hf Ho] Hh Hps].
    unfold moves_to in Hm. destruct (snd (pt_last_ip_update_ip (k_ip s) ip)) as [[]|e|u] eqn:E; try discriminate.
    cbn [bind] in Hm. injection Hm as <-. cbn [k_wait k_on with_hw].
    split; [|auto]. split; [|split; auto|auto|].
    - unfold setting. rewrite Hip, (surjective_pairing (pt_last_ip_update_ip _ _)), E.
      reflexivity.
    - split; auto.
    - rewrite Hp. reflexivity.
  Qed.
  Lemma moves_bad s d ip e : Here s p ps d -> moves_to s ip = Err e ->
    forall (Q : unit -> evdec -> Prop), wp (update_ip ip) Q (Fail ([], Err e)) d.
  Proof.
    intros [HD _ _ _ _] Hm Q. unfold moves_to in Hm. unfold wp, update_ip.
    rewrite (c_ip _ _ _ _ _ _ (d_core _ _ _ _ _ _ HD)).
    destruct (pt_last_ip_update_ip (k_ip s) ip) as [l r]. cbn [snd] in Hm.
    destruct r as [[]|e'|u]; cbn in Hm; try discriminate. injection Hm as ->. reflexivity.
  Qed.
  Lemma moves_ub s ip u : moves_to s ip <> UB u.
  Proof.
    unfold moves_to, pt_last_ip_update_ip.
    repeat match goal with |- context [if ?b then _ else _] => destruct b end; discriminate.
  Qed.

  Lemma set_lip_same d l : ed_ip d = l -> set_lip d l = d.
  Proof. destruct d. cbn. intros <-. reflexivity. Qed.
  Lemma loop_again ip pl s d s' d' : Loop ip pl s d -> Mid s' ps d' -> k_ip s' = k_ip s ->
    ed_event d' = None -> pkt_pl (ed_pkt d') = pl -> Loop ip pl s' d'.
  Proof.
    intros [H1 H2 H3 H4] HM Hk He Hp. pose proof (c_ip _ _ _ _ _ _ (m_core _ _ _ _ _ _ HM)) as Hip.
    split; auto.
    - unfold setting in *. rewrite Hip, Hk. apply (set_again _ _ _ H1).
    - rewrite set_lip_same by exact Hip. exact HM.
  Qed.

  Lemma mid_evq s q d q2 : Mid s q d -> qrep q2 (qs (k_wait s)) -> Mid s q (set_evq d q2).
  Proof. intros [[] ? ? ? ?] Hq. split; auto. split; auto. Qed.
  Lemma mid_event s q d e : Mid s q d -> Mid s q (set_event d e).
  Proof. intros [[] ? ? ? ?]. split; auto. split; auto. Qed.
  Lemma mid_bound s q d e : Mid s q d -> Mid s q (set_bound d e).
  Proof. intros [[] ? ? ? ?]. split; auto. split; auto. Qed.
  Lemma mid_alone s q d e : Mid s q d -> Mid s q (set_alone d e).
  Proof. intros [[] ? ? ? ?]. split; auto. split; auto. Qed.
  Lemma mid_on s q d b : Mid s q d -> Mid (with_on s b) q (set_enabled d b).
  Proof. intros [[] ? ? ? ?]. split; auto. split; auto. Qed.

  Lemma mid_time s q d e : Mid s q d -> event_time (ed_time d) e = dated s e.
  Proof. intros HM. rewrite dated_is, (c_time _ _ _ _ _ _ (m_core _ _ _ _ _ _ HM)). reflexivity. Qed.
  Lemma mid_ip s q d e : Mid s q d -> event_ip (ed_ip d) e = placed s e.
  Proof. intros HM. rewrite placed_is, (c_ip _ _ _ _ _ _ (m_core _ _ _ _ _ _ HM)). reflexivity. Qed.
  Lemma mid_cnt s q d f : Mid s q d -> cnt f (k_wait s) <= 14.
  Proof.
    intros HM. pose proof (qrep_length _ _ (m_queue _ _ _ _ _ _ HM)) as H. rewrite qs_length in H.
    pose proof (cnt_le f (k_wait s)). lia.
  Qed.

  Lemma wp_finish i e e' s q d (Q : bool -> evdec -> Prop) F : Mid s q d -> held (ed_evq d) i e ->
    (forall q2, qrep q2 (qs (k_wait s)) -> held q2 i (dated s e') -> Q false (set_evq d q2)) ->
    wp (finish (Slot i) e') Q F d.
  Proof.
    intros HM Hh HQ. unfold finish. apply wp_bind, wp_get, wp_bind.
    eapply wp_write_held; [apply (m_queue _ _ _ _ _ _ HM)|exact Hh|]. intros q2 G1 _ G3. apply wp_ret.
    apply HQ; [exact G1|]. rewrite <- (mid_time s q d e' HM). exact G3.
  Qed.

  (** ** FUP *)

  Definition fups (s : track) (b : bool) : outcome :=
    let evs := flat_map (at_fup s) (k_wait s) in
    let on := k_on s || existsb (fun w => for_fup w && is_overflow (ev_var (snd w))) (k_wait s) in
    let s' := with_on (with_wait s (filter (fun w => negb (for_fup w)) (k_wait s))) on in
    (evs,
     if b || existsb owns_fup (k_wait s) then Ok s'
     else let* from := pt_last_ip_query (k_ip s') in
          waits At_tip (new_event (Ev_async_branch from 0)) s').

  Lemma at_fup_none s a : Forall (fun x => for_fup x = false) a -> flat_map (at_fup s) a = [].
  Proof.
    induction 1 as [|x a Hx _ IH]; [reflexivity|]. cbn [flat_map]. rewrite IH.
    unfold at_fup. rewrite Hx. reflexivity.
  Qed.

  Lemma fups_step s a w c b : k_wait s = a ++ w :: c -> Forall (fun x => for_fup x = false) a ->
    for_fup w = true ->
    let s' := with_on (with_wait s (a ++ c)) (k_on s || is_overflow (ev_var (snd w))) in
    let b' := b || existsb owns_fup (k_wait s) in
    fups s b = (at_fup s w ++ fst (fups s' b'), snd (fups s' b')).
  Proof.
    intros El Ha Hw s' b'. unfold fups. cbn [fst snd]. f_equal.
    - rewrite El, flat_map_app. cbn [flat_map]. rewrite (at_fup_none s a Ha). cbn [app].
      subst s'. cbn [k_wait with_wait with_on]. rewrite flat_map_app.
      change (at_fup (with_on (with_wait s (a ++ c)) (k_on s || is_overflow (ev_var (snd w))))) with (at_fup s).
      rewrite (at_fup_none s a Ha). reflexivity.
    - subst s' b'. cbn [k_wait with_wait with_on k_on k_ip k_hw].
      rewrite El, (filter_mid _ _ _ _ Hw), !existsb_app. cbn [existsb]. rewrite Hw. cbn [andb].
      set (o := is_overflow (ev_var (snd w))).
      set (x1 := existsb (fun w => for_fup w && is_overflow (ev_var (snd w))) a).
      set (x2 := existsb (fun w => for_fup w && is_overflow (ev_var (snd w))) c).
      set (y1 := existsb owns_fup a). set (y2 := existsb owns_fup c).
      replace (k_on s || o || (x1 || x2)) with (k_on s || (x1 || (o || x2)))
        by (destruct (k_on s), o, x1, x2; reflexivity).
      replace (b || (y1 || (owns_fup w || y2)) || (y1 || y2)) with (b || (y1 || (owns_fup w || y2)))
        by (destruct b, y1, y2, (owns_fup w); reflexivity).
      reflexivity.
  Qed.

  Lemma owns_for w : for_fup w = false -> owns_fup w = false.
  Proof. destruct w as [[] e]; cbn; congruence. Qed.
  Lemma mode_for w : for_fup w = false -> by_mode w = false.
  Proof. destruct w as [[] e]; cbn; congruence. Qed.

  Lemma fup_none s d d0 l : Mid s ps (set_lip d l) -> ordered (k_wait s) = true ->
    Forall (fun x => for_fup x = false) (k_wait s) -> ed_event d = None -> valid_pkt d0 ->
    rem buf (ed_pd d) <= rem buf (ed_pd d0) -> let o := andthen (fups s (ed_bound d)) ps in
    wp (do d <- get;
        if ed_bound d then ret true else
        do from <- lift (pt_last_ip_query (ed_ip d));
        run enqueue evb_tip (new_event (Ev_async_branch from 0));
        ret true) (Post d0 o) (Fail o)
       (set_bound (set_lip d l) (ed_bound d || existsb owns_fup (k_wait s))).
  Proof.
    intros HM Ho Hno He Hv0 Hrem o. subst o. set (d1 := set_lip d l) in *.
    apply wp_bind, wp_get. cbn [ed_bound set_bound].
    assert (Eo : existsb owns_fup (k_wait s) = false)
      by (apply existsb_none; eapply Forall_impl; [|exact Hno]; exact owns_for).
    rewrite Eo, orb_false_r. unfold fups. rewrite Eo, orb_false_r, (at_fup_none _ _ Hno).
    rewrite (filter_all _ _ Hno).
    rewrite (existsb_none (fun w => for_fup w && is_overflow (ev_var (snd w))))
      by (eapply Forall_impl; [|exact Hno]; intros x Hx; cbn beta; rewrite Hx; reflexivity).
    rewrite orb_false_r, with_wait_same, with_on_same.
    assert (HDD : forall b, Done s ps (set_bound d1 b))
      by (intros b; apply of_mid; [apply mid_bound; exact HM|exact Ho]).
    destruct (ed_bound d); [apply wp_ret; apply post_silent; auto|].
    assert (Hip : ed_ip (set_bound d1 false) = k_ip s) by apply (c_ip _ _ _ _ _ _ (m_core _ _ _ _ _ _ HM)).
    rewrite Hip.
    apply wp_bind. apply wp_lift_ok.
    - intros u Hu. unfold pt_last_ip_query in Hu.
      repeat match type of Hu with context [if ?b then _ else _] => destruct b end; discriminate.
    - intros from Hfr. rewrite Hfr. cbn [bind].
      change evb_tip with (mask At_tip). apply post_wait; auto.
      apply ordered_app; auto; [|apply (m_fits _ _ _ _ _ _ HM)]. right. right. right. split; [reflexivity|].
      apply existsb_none; eapply Forall_impl; [|exact Hno]; exact mode_for.
    - intros e Hfr. rewrite Hfr. reflexivity.
  Qed.

  Lemma fup_loop ip n : forall s d d0 fuel, cnt for_fup (k_wait s) <= n -> cnt for_fup (k_wait s) < fuel ->
    Loop ip (P_fup ip) s d -> ordered (k_wait s) = true -> valid_pkt d0 ->
    rem buf (ed_pd d) <= rem buf (ed_pd d0) ->
    let o := andthen (fups s (ed_bound d)) ps in
    wp (decode_fup fuel ip) (Post d0 o) (Fail o) d.
  Proof.
    induction n as [|n IH]; intros s d d0 fuel Hn Hfuel HL Ho Hv0 Hrem o;
      (destruct fuel as [|fuel]; [lia|]); cbn [decode_fup]; pose proof HL as [Hset HM He Hpk];
      pose proof HM as [HC Hq Hf Hhd Hps]; apply wp_bind; (eapply wp_setting; [exact Hset|]);
      apply wp_bind, wp_modify; cbn [ed_evq set_lip] in *;
      rewrite (qrep_pending _ _ _ Hq), (qs_existsb _ _ _ asks_own);
      set (d1 := set_lip d (k_ip s)) in *;
      (replace (if existsb owns_fup (k_wait s) then set_bound d1 true else d1)
        with (set_bound d1 (ed_bound d || existsb owns_fup (k_wait s)))
        by (subst d1; destruct d as [? ? ? ? ? ? ? ? ? ? ? bo]; cbn; destruct bo, (existsb _ _); reflexivity));
      apply wp_bind; (eapply wp_take; [apply asks_fup|apply mid_bound; exact HM| |]).
    1: intros a w c q' i El Hw; rewrite El, (cnt_mid _ _ _ _ Hw) in Hn; lia.
    1: intros Hno _; apply (fup_none s d d0 (k_ip s)); auto.
    2: intros Hno _; apply (fup_none s d d0 (k_ip s)); auto.
    intros a w c q' i El Hw Ha Hfw HM' Hh _ _ _.
    rewrite El, (cnt_mid _ _ _ _ Hw) in Hn, Hfuel.
    apply wp_bind, wp_get, wp_bind, wp_publish, wp_bind.
    eapply wp_read_held; [sd; exact Hh|].
    set (b' := ed_bound d || existsb owns_fup (k_wait s)) in *.
    set (s' := with_on (with_wait s (a ++ c)) (k_on s || is_overflow (ev_var (snd w)))).
    assert (Es : fups s (ed_bound d) = (at_fup s w ++ fst (fups s' b'), snd (fups s' b')))
      by (apply fups_step; assumption).
    assert (Hna : is_async w = false).
    { destruct w as [[] e]; unfold fits, is_async in *; cbn in *; try discriminate;
        destruct (ev_var e); try discriminate; reflexivity. }
    assert (Ho' : ordered (k_wait s') = true) by (rewrite El in Ho; apply (ordered_remove a w c Ho Hna)).
    assert (HMon : is_overflow (ev_var (snd w)) = false -> Mid s' ps (set_evq (set_bound d1 b') q')).
    { intros Eov. subst s'. rewrite Eov, orb_false_r. change (k_on s) with (k_on (with_wait s (a ++ c))).
      rewrite with_on_same. exact HM'. }
    (* an event is published *)
    assert (Hpub : forall dd e', Mid s' ps dd -> ed_event dd = Some (Slot i) -> held (ed_evq dd) i e' ->
      ed_bound dd = b' -> pkt_pl (ed_pkt dd) = P_fup ip -> at_fup s w = [e'] -> Post d0 o false dd).
    { intros dd e' HMd Hev Hhd' Hbd Hpkd Hat. subst o. rewrite Es, Hat. cbn [app].
      rewrite (andthen_cons cf err ps e' (fups s' b')).
      apply post_event with (i := i); [exact Hev|exact Hhd'|]. rewrite <- surjective_pairing.
      apply (y_decode cf buf freq small). unfold pt_evt_decode_packet. apply wp_bind, wp_get.
      cbn [ed_pkt set_event]. rewrite Hpkd. cbn [decode_other]. unfold pt_evt_decode_fup.
      pose proof (mid_cnt s' ps dd for_fup HMd) as H14.
      rewrite <- Hbd. apply (IH s' (set_event dd None)).
      - subst s'. cbn [k_wait with_wait with_on]. clear - Hn. lia.
      - clear - H14. lia.
      - eapply loop_again; [exact HL|apply mid_event; exact HMd|reflexivity|reflexivity|exact Hpkd].
      - exact Ho'.
      - unfold valid_pkt. cbn [ed_pkt set_event]. rewrite Hpkd. discriminate.
      - lia. }
    assert (Hx : is_overflow (ev_var (snd w)) = false -> forall e', at_fup s w = [e'] ->
      forall k : unit -> ST bool, (k = fun _ => ret false) ->
      wp (sbind (write_event (Slot i) e') k) (Post d0 o) (Fail o)
         (set_event (set_evq (set_bound d1 b') q') (Some (Slot i)))).
    { intros Eov e' Hat k ->. specialize (HMon Eov). apply wp_bind.
      eapply wp_write_held; [sd; exact (m_queue _ _ _ _ _ _ HMon)|sd; exact Hh|].
      intros q2 G1 _ G3. apply wp_ret. apply (Hpub _ e'); auto.
      apply (mid_evq s' ps _ q2 (mid_event _ _ _ _ HMon) G1). }
    assert (Ht : forall e, event_time (ed_time d1) e = dated s e) by (intros e; apply (mid_time _ _ _ e HM)).
    assert (Hi : forall e, event_ip (ed_ip d1) e = placed s e) by (intros e; apply (mid_ip _ _ _ e HM)).
    cbn [ed_ip ed_time set_bound set_evq] in *. rewrite ?Ht, ?Hi.
    assert (Ew : at_fup s w = match ev_var (snd w) with
       | Ev_tick _ => []
       | Ev_overflow _ => [placed s (snd w)]
       | Ev_rsm | Ev_sipi _ => [dated s (snd w)]
       | _ => [placed s (dated s (snd w))]
       end) by (unfold at_fup; rewrite Hw; reflexivity).
    assert (Hfits : match ev_var (snd w) with
       | Ev_tsx _ _ _ | Ev_exstop _ | Ev_mwait _ _ _ | Ev_ptwrite _ _ _
       | Ev_exec_mode _ _ | Ev_iflags _ _ | Ev_interrupt _ _ _ | Ev_iret _
       | Ev_smi _ | Ev_init _ | Ev_vmentry _ | Ev_vmexit _ _ _ _ | Ev_shutdown _
       | Ev_uintr _ _ | Ev_uiret _ | Ev_trig _ _ _ _ | Ev_overflow _ | Ev_tick _ => True
       | Ev_rsm | Ev_sipi _ => ev_ip_suppressed (snd w) = true
       | _ => False end).
    { destruct w as [[] e]; unfold fits in Hfw; cbn in *; try discriminate;
        destruct (ev_var e); try discriminate; auto. }
    destruct (ev_var (snd w)) eqn:Ev; try (destruct Hfits; fail);
      try (apply (Hx eq_refl); [exact Ew|reflexivity]).
    all: cbn [is_overflow] in *.
    - (* overflow *)
      apply wp_bind. eapply wp_write_held; [sd; exact (m_queue _ _ _ _ _ _ HM')|sd; exact Hh|].
      intros q2 G1 _ G3. apply wp_bind, wp_modify, wp_ret. apply (Hpub _ (placed s (snd w))); auto.
      subst s'. rewrite orb_true_r. apply mid_on.
      apply (mid_evq (with_wait s (a ++ c)) ps _ q2 (mid_event _ _ _ _ HM') G1).
    - (* tick *)
      apply wp_bind, wp_publish. specialize (HMon eq_refl).
      assert (Eo : o = andthen (fups s' b') ps).
      { subst o. rewrite Es, Ew. cbn [app]. rewrite <- surjective_pairing. reflexivity. }
      rewrite Eo. set (dd := set_event (set_event (set_evq (set_bound d1 b') q') (Some (Slot i))) None).
      change b' with (ed_bound dd). apply IH; auto.
      + subst s'. cbn [k_wait with_wait with_on]. lia.
      + subst s'. cbn [k_wait with_wait with_on]. lia.
      + eapply loop_again; [exact HL| |reflexivity|reflexivity|exact Hpk].
        apply mid_event, mid_event. exact HMon.
    - rewrite Hfits. apply (Hx eq_refl); [exact Ew|reflexivity].
    - rewrite Hfits. apply (Hx eq_refl); [exact Ew|reflexivity].
  Qed.

  Lemma fup_f s d ip : Here s p ps d -> pkt_pl p = P_fup ip -> let o := andthen (fup s ip) ps in
    wp (pt_evt_decode_fup ip) (Post d o) (Fail o) d.
  Proof.
    intros H Hpl o. subst o. unfold fup. destruct (moves_to s ip) as [s'|e|u] eqn:Em.
    - destruct (loop_begin s d ip s' H Em) as (HL & Ho & _). rewrite Hpl in HL.
      pose proof H as [HD Hp Hv He Hb].
      pose proof (mid_cnt s' ps _ for_fup (l_mid _ _ _ _ HL)) as H14.
      pose proof (fup_loop ip (cnt for_fup (k_wait s')) s' d d 17 (le_n _) ltac:(lia) HL Ho Hv (le_n _)) as HF.
      cbv zeta in HF. rewrite Hb in HF. exact HF.
    - unfold pt_evt_decode_fup. cbn [decode_fup]. apply wp_bind. eapply moves_bad; eassumption.
    - destruct (moves_ub _ _ _ Em).
  Qed.
End LOOP2.
