(** The events of a trace as a function of its packets: OVF and PSB+. *)

From Verif Require Import Base M_packet M_config M_pktdec M_lastip M_time
  M_evq M_event M_evdec S_evq S_evtrace S_evfun L_evq L_evqpos L_evdec L_evsafe L_evtrace L_evfun L_evfun2
  L_evfun3 L_evfun4 L_evnext.
From Coq Require Import List NArith ZArith PeanoNat Bool Lia.
Import ListNotations.
Open Scope nat_scope.

Section OVF.
  Context (cf : config) (buf : list N) (err : pte).
  Hypothesis moves : callback_moves cf.
  Hypothesis freq : (cf_mtc_freq cf < 24)%N.
  Hypothesis small : (N.of_nat (length buf) + 1 < 2 ^ 31)%N.
  Hypothesis skip : no_skipping cf.

  Notation Core := (Core cf buf err).
  Notation Done := (Done cf buf err).
  Notation Mid := (Mid cf buf err).
  Notation Here := (Here cf buf err).
  Notation Next := (Next cf buf err).
  Notation Post := (Post buf).
  Notation yields := (yields buf).
  Notation andthen := (andthen cf err).

  (** ** What follows an OVF *)

  Definition found (r : res N) (a : ahead) : Prop :=
    match r with
    | Ok o => if (0 <? o)%N then a = A_fup else a = A_none
    | Err pte_eos => a = A_none
    | Err e => a = A_error e
    | UB _ => False
    end.

  Lemma looks_scan ps : forall pd fuel off, pd_ok cf buf pd -> whole pd ps err -> rem buf pd < fuel ->
    (off <= N.of_nat (pd_at pd))%N ->
    found (scan_packets fuel ovf_fup_step (fun e => Err e) pd off) (looks ps err).
  Proof.
    induction ps as [|p ps IH]; intros pd fuel off Hok Hw Hf Hoff; (destruct fuel as [|fuel]; [lia|]).
    - cbn [scan_packets]. rewrite (whole_nil err _ Hw). cbn [looks found]. destruct err; reflexivity.
    - destruct (whole_cons err _ _ _ Hw) as (pd' & En & Hw').
      pose proof (next_step cf buf pd moves Hok) as Hn. rewrite En in Hn.
      destruct Hn as (G1 & G2 & G3 & G4 & G5 & G6).
      cbn [scan_packets]. rewrite En. unfold ovf_fup_step at 1.
      destruct (Nat.eqb_spec (pkt_size p) 0) as [E0|_]; [lia|].
      destruct G1 as (G1a & G1b & Hle) eqn:EG. clear EG.
      destruct (N.ltb_spec 0x7fffffff (off + N.of_nat (pkt_size p))%N) as [Hbig|_].
      { exfalso. change (2 ^ 31)%N with 2147483648%N in small. lia. }
      cbv zeta.
      assert (Hrec : found (scan_packets fuel ovf_fup_step (fun e => Err e) pd' (off + N.of_nat (pkt_size p))%N) (looks ps err)).
      { apply IH; auto; [|lia]. unfold rem in *. lia. }
      cbn [looks]. destruct (pkt_pl p); try exact Hrec; try reflexivity.
      cbn [found]. destruct (N.ltb_spec 0 (off + N.of_nat (pkt_size p))%N); [reflexivity|lia].
  Qed.

  Lemma looks_found pd ps : pd_ok cf buf pd -> whole pd ps err -> found (pt_evt_find_ovf_fup pd) (looks ps err).
  Proof.
    intros Hok Hw. apply looks_scan; auto; [apply (scan_fuel_ok cf buf pd Hok)|lia].
  Qed.

  Context (p : packet) (ps : list packet).
  Hypothesis next : Next ps.

  Definition ovf_tail : ST bool :=
    do d0 <- get;
    let config := ed_config d0 in
    run modify (fun d => set_time (pt_evt_reset d) (ed_time d0));
    run (if cf_keep_tcal_on_ovf config then
           let (l, r) := pt_tcal_update_ovf (ed_tcal d0) in
           run lift r; modify (fun d => set_tcal d l)
         else ret tt);
    do d <- get;
    let offset := pt_evt_find_ovf_fup (ed_pd d) in
    match offset with
    | UB u => lift (UB u)
    | _ =>
        if match offset with Ok o => (0 <? o)%N | _ => false end then
          do more <- (if er_apl12 (cf_errata config) then
                        pt_evt_handle_apl12 (match offset with Ok o => o | _ => 0%N end)
                      else ret true);
          if negb more then ret false else
          do d <- get;
          run enqueue evb_fup_bound
                (event_time (ed_time d) (new_event (Ev_overflow 0)));
          ret true
        else
          do more <- (if er_skd010 (cf_errata config) then pt_evt_handle_skd010 else ret true);
          if negb more then ret false else
          do more <- (if er_apl11 (cf_errata config)
                         && match offset with Err pte_bad_context => true | _ => false end
                      then pt_evt_handle_apl11 else ret true);
          if negb more then ret false else
          match offset with
          | Err pte_eos | Ok _ =>
              standalone_now (set_suppressed (new_event (Ev_overflow 0)) true)
          | Err e => fail e
          | UB u => lift (UB u)
          end
    end.

  Lemma ovf_split : pt_evt_decode_ovf =
    (do more <- pt_evt_decode_psbend; if negb more then ret false else ovf_tail).
  Proof. reflexivity. Qed.

  Lemma ovf_rest s d d0 : Core s ps d -> pkt_pl p = P_ovf -> valid_pkt d0 ->
    rem buf (ed_pd d) <= rem buf (ed_pd d0) ->
    let o := andthen (overflows cf s p ps err) ps in wp ovf_tail (Post d0 o) (Fail o) d.
  Proof.
    intros [Hpd Hw Hip Ht Hc Hon Hm Hv] Hp Hv0 Hr o. destruct skip as (_ & S1 & S2 & S3).
    set (s2 := mk_track (hw_step cf (k_hw s) p) false None [] None).
    assert (Hcf : ed_config d = cf) by apply Hpd.
    unfold ovf_tail. apply wp_bind, wp_get. cbv zeta. rewrite Hcf. apply wp_bind, wp_modify.
    set (dr := set_time (pt_evt_reset d) (ed_time d)).
    set (l2 := if cf_keep_tcal_on_ovf cf then fst (pt_tcal_update_ovf (ed_tcal d)) else pt_tcal_init).
    assert (HD : Done s2 ps (set_tcal dr l2)).
    { split; [|split; [|reflexivity|reflexivity]|reflexivity|].
      - split; auto; unfold s2, k_ip, k_time, hw_step; rewrite Hp; try reflexivity; [exact Ht|].
        cbn. unfold l2. rewrite Hc. reflexivity.
      - apply qrep_init.
      - unfold s2, hw_step. rewrite Hp. reflexivity. }
    assert (Hs : (run (if cf_keep_tcal_on_ovf cf then
           let (l, r) := pt_tcal_update_ovf (ed_tcal d) in
           run lift r; modify (fun d => set_tcal d l)
         else ret tt); get) dr = (set_tcal dr l2, Ok (set_tcal dr l2))).
    { unfold l2. destruct (cf_keep_tcal_on_ovf cf); [reflexivity|]. reflexivity. }
    match goal with |- wp (sbind ?m (fun _ => sbind get ?k)) ?Q ?F ?x =>
      assert (He : sbind m (fun _ => sbind get k) x = k (set_tcal dr l2) (set_tcal dr l2)) end.
    { clear - Hs. unfold sbind in *. destruct (_ dr) as [d1 [[]|e|u]]; [|discriminate..].
      unfold get in *. injection Hs as -> . reflexivity. }
    unfold wp. rewrite He. cbv beta zeta.
    match goal with |- match ?m ?x with _ => _ end => change (wp m (Post d0 o) (Fail o) x) end.
    change (ed_pd (set_tcal dr l2)) with (ed_pd d). rewrite S1, S2, S3.
    pose proof (looks_found (ed_pd d) ps Hpd Hw) as Hl. unfold overflows in o. fold s2 in o.
    assert (Hnone : looks ps err = A_none ->
      wp (standalone_now (set_suppressed (new_event (Ev_overflow 0)) true)) (Post d0 o) (Fail o) (set_tcal dr l2)).
    { intros E. subst o. rewrite E. apply post_now; auto. }
    destruct (pt_evt_find_ovf_fup (ed_pd d)) as [off|e|u]; [| |destruct Hl].
    - cbn [found] in Hl. destruct (0 <? off)%N.
      + apply wp_bind, wp_ret. cbn [negb]. apply wp_bind, wp_get.
        change evb_fup_bound with (mask At_own_fup).
        subst o. rewrite Hl.
        replace (event_time (ed_time (set_tcal dr l2)) (new_event (Ev_overflow 0))) with (now s2 (Ev_overflow 0)).
        * apply (post_wait cf buf err freq small ps next s2 d0 (set_tcal dr l2) At_own_fup); auto.
        * unfold now. rewrite dated_is. rewrite <- (c_time _ _ _ _ _ _ (d_core _ _ _ _ _ _ HD)). reflexivity.
      + cbn [andb]. apply wp_bind, wp_ret. cbn [negb]. apply wp_bind, wp_ret. cbn [negb]. apply Hnone. exact Hl.
    - cbn [andb]. apply wp_bind, wp_ret. cbn [negb]. apply wp_bind, wp_ret. cbn [negb].
      assert (HE : found (Err e) (looks ps err) -> e <> pte_eos -> looks ps err = A_error e)
        by (destruct e; cbn; congruence).
      destruct e; try (apply Hnone; exact Hl);
        (apply wp_fail; subst o; rewrite (HE Hl ltac:(discriminate)); reflexivity).
  Qed.

  Lemma ovf_f s d : Here s p ps d -> pkt_pl p = P_ovf ->
    let o := andthen (overflows cf s p ps err) ps in wp pt_evt_decode_ovf (Post d o) (Fail o) d.
  Proof.
    intros [HD Hp Hv He Hb] Hpl o. rewrite ovf_split. apply wp_bind.
    eapply psbend_none; [apply mid_of; exact HD|]. cbn [negb].
    apply ovf_rest; auto. apply (d_core _ _ _ _ _ _ HD).
  Qed.

  Lemma psbend_f s d : Here s p ps d -> let o := andthen (gives s []) ps in
    wp pt_evt_decode_psbend (Post d o) (Fail o) d.
  Proof.
    intros [HD Hp Hv He Hb] o. eapply psbend_none; [apply mid_of; exact HD|].
    apply post_silent; auto.
  Qed.
  Lemma silent_f s d : Here s p ps d -> let o := andthen (gives s []) ps in
    wp (ret true) (Post d o) (Fail o) d.
  Proof.
    intros [HD Hp Hv He Hb] o. apply wp_ret. apply post_silent; auto.
  Qed.
End OVF.
