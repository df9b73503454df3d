(** The events of a trace as a function of its packets: packets that need one step. *)

From Verif Require Import Base M_packet M_config M_pktdec M_lastip M_time
  M_evq M_event M_evdec S_evq S_evtrace S_evfun L_evq L_evqpos L_evdec L_evsafe L_evnext L_evtrace L_evfun.
From Coq Require Import List NArith ZArith PeanoNat Bool Lia ZifyBool ZifyNat ZifyN.
Import ListNotations.
Open Scope nat_scope.

(** * Timing packets *)

Definition times (cf : config) (psb : bool) (pl : payload)
           (f : config -> time -> tcal -> time * tcal * res unit) : Prop :=
  forall h, h_psb h = psb ->
    match f cf (h_time h) (h_cal h) with
    | (t', l', r) => time_check cf h pl = r /\ no_ub r /\
        (r = Ok tt -> hw_step cf h (mk_packet pl 0) = mk_hw psb (h_ip h) t' l')
    end.

Lemma apply_both t cal upd :
  match apply_timing t cal upd with
  | (t', l', r) => (let* _ := tolerate (snd cal) in tolerate (snd (upd (fst cal)))) = r /\
      (r = Ok tt -> t' = fst (upd (fst cal)) /\ l' = fst cal)
  end.
Proof.
  unfold apply_timing. destruct cal as [l r]. cbn [fst snd].
  change (tolerate r) with (ignore_config r).
  destruct (ignore_config r) as [a|e|u]; cbn [bind].
  - destruct (upd l) as [t' r']. cbn [fst snd]. split; [reflexivity|auto].
  - split; [reflexivity|discriminate].
  - split; [reflexivity|discriminate].
Qed.

Section TIMES.
  Context (cf : config).
  Hypothesis freq : (cf_mtc_freq cf < 24)%N.

  Lemma times_tsc v : times cf false (P_tsc v) (fun _ t l => pt_evt_apply_tsc t l v).
  Proof.
    unfold pt_evt_apply_tsc. intros h Hh. pose proof (tsc_no_ub cf freq (h_time h) (h_cal h) v) as Hn.
    unfold pt_evt_apply_tsc in Hn.
    pose proof (apply_both (h_time h) (pt_tcal_update_tsc (h_cal h) v) (fun _ => pt_time_update_tsc (h_time h) v)) as H.
    destruct (apply_timing _ _ _) as [[t' l'] r]. destruct H as [H1 H2].
    split; [unfold time_check; rewrite Hh; exact H1|]. split; [exact Hn|]. intros Hr. destruct (H2 Hr) as [-> ->].
    unfold hw_step. cbn [pkt_pl]. rewrite Hh. reflexivity.
  Qed.
  Lemma times_htsc v : times cf true (P_tsc v) (fun _ t l => pt_evt_apply_header_tsc t l v).
  Proof.
    intros h Hh. pose proof (header_tsc_no_ub cf freq (h_time h) (h_cal h) v) as Hn.
    unfold pt_evt_apply_header_tsc in *.
    pose proof (apply_both (h_time h) (pt_tcal_header_tsc (h_cal h) v) (fun _ => pt_time_update_tsc (h_time h) v)) as H.
    destruct (apply_timing _ _ _) as [[t' l'] r]. destruct H as [H1 H2].
    split; [unfold time_check; rewrite Hh; exact H1|]. split; [exact Hn|]. intros Hr. destruct (H2 Hr) as [-> ->].
    unfold hw_step. cbn [pkt_pl]. rewrite Hh. reflexivity.
  Qed.
  Lemma times_cbr v : times cf false (P_cbr v) (fun c t l => pt_evt_apply_cbr c t l v).
  Proof.
    intros h Hh. pose proof (cbr_no_ub cf freq (h_time h) (h_cal h) v) as Hn. unfold pt_evt_apply_cbr in *.
    pose proof (apply_both (h_time h) (pt_tcal_update_cbr (h_cal h) v cf) (fun _ => pt_time_update_cbr (h_time h) v)) as H.
    destruct (apply_timing _ _ _) as [[t' l'] r]. destruct H as [H1 H2].
    split; [unfold time_check; rewrite Hh; exact H1|]. split; [exact Hn|]. intros Hr. destruct (H2 Hr) as [-> ->].
    unfold hw_step. cbn [pkt_pl]. rewrite Hh. reflexivity.
  Qed.
  Lemma times_hcbr v : times cf true (P_cbr v) (fun c t l => pt_evt_apply_header_cbr c t l v).
  Proof.
    intros h Hh. pose proof (header_cbr_no_ub cf freq (h_time h) (h_cal h) v) as Hn.
    unfold pt_evt_apply_header_cbr in *.
    pose proof (apply_both (h_time h) (pt_tcal_header_cbr (h_cal h) v cf) (fun _ => pt_time_update_cbr (h_time h) v)) as H.
    destruct (apply_timing _ _ _) as [[t' l'] r]. destruct H as [H1 H2].
    split; [unfold time_check; rewrite Hh; exact H1|]. split; [exact Hn|]. intros Hr. destruct (H2 Hr) as [-> ->].
    unfold hw_step. cbn [pkt_pl]. rewrite Hh. reflexivity.
  Qed.
  Lemma times_tma b x y : times cf b (P_tma x y) (fun c t l => pt_evt_apply_tma c t l x y).
  Proof.
    intros h Hh. pose proof (tma_no_ub cf freq (h_time h) (h_cal h) x y) as Hn. unfold pt_evt_apply_tma in *.
    pose proof (apply_both (h_time h) (pt_tcal_update_tma (h_cal h)) (fun _ => pt_time_update_tma (h_time h) x y cf)) as H.
    destruct (apply_timing _ _ _) as [[t' l'] r]. destruct H as [H1 H2].
    split; [exact H1|]. split; [exact Hn|]. intros Hr. destruct (H2 Hr) as [-> ->].
    unfold hw_step. cbn [pkt_pl]. rewrite Hh. reflexivity.
  Qed.
  Lemma times_mtc b x : times cf b (P_mtc x) (fun c t l => pt_evt_apply_mtc c t l x).
  Proof.
    intros h Hh. pose proof (mtc_no_ub cf freq (h_time h) (h_cal h) x) as Hn. unfold pt_evt_apply_mtc in *.
    pose proof (apply_both (h_time h) (pt_tcal_update_mtc (h_cal h) x cf) (fun _ => pt_time_update_mtc (h_time h) x cf)) as H.
    destruct (apply_timing _ _ _) as [[t' l'] r]. destruct H as [H1 H2].
    split; [exact H1|]. split; [exact Hn|]. intros Hr. destruct (H2 Hr) as [-> ->].
    unfold hw_step. cbn [pkt_pl]. rewrite Hh. reflexivity.
  Qed.
  Lemma times_cyc b x : times cf b (P_cyc x) (fun c t l => pt_evt_apply_cyc c t l x).
  Proof.
    intros h Hh. pose proof (cyc_no_ub cf freq (h_time h) (h_cal h) x) as Hn. unfold pt_evt_apply_cyc in *.
    match goal with |- context [apply_timing ?t ?c ?u] => pose proof (apply_both t c u) as H end.
    destruct (apply_timing _ _ _) as [[t' l'] r]. destruct H as [H1 H2].
    assert (E : match pt_tcal_fcr (fst (pt_tcal_update_cyc (h_cal h) x)) with
              | Ok fcr => pt_time_update_cyc (h_time h) x cf fcr
              | Err pte_no_time => pt_time_update_cyc (h_time h) x cf 0
              | Err e => (h_time h, Err e)
              | UB u => (h_time h, UB u)
              end = pt_time_update_cyc (h_time h) x cf
                 (match pt_tcal_fcr (fst (pt_tcal_update_cyc (h_cal h) x)) with Ok f => f | _ => 0%N end)).
    { unfold pt_tcal_fcr. destruct (pt_tcal_have_fcr _); reflexivity. }
    rewrite E in *. split; [exact H1|]. split; [exact Hn|]. intros Hr. destruct (H2 Hr) as [-> ->].
    unfold hw_step. cbn [pkt_pl]. rewrite Hh. reflexivity.
  Qed.
End TIMES.

Section ONE.
  Context (cf : config) (buf : list N) (err : pte).
  Hypothesis moves : callback_moves cf.
  Hypothesis freq : (cf_mtc_freq cf < 24)%N.
  Hypothesis small : (N.of_nat (length buf) + 1 < 2 ^ 31)%N.
  Hypothesis skip : no_skipping cf.

  Notation Core := (Core cf buf err).
  Notation Done := (Done cf buf err).
  Notation Here := (Here cf buf err).
  Notation Next := (Next cf buf err).
  Notation Post := (Post buf).
  Notation andthen := (andthen cf err).

  (** ** Waiting *)

  Lemma waits_done s ps d w e s' q' : Done s ps d -> fits (w, e) = true ->
    ordered (k_wait s ++ [(w, e)]) = true -> waits w e s = Ok s' ->
    qrep q' (qs (k_wait s) ++ [(mask w, e)]) -> Done s' ps (set_evq d q').
  Proof.
    intros [[] [] ? ?] Hf Ho Hw Hq. unfold waits in Hw. destruct (Nat.ltb _ _); [|discriminate].
    injection Hw as <-. split; [split; auto| |auto|auto].
    split; cbn [k_wait with_wait ed_evq set_evq].
    - rewrite qs_app. exact Hq.
    - rewrite forallb_app, w_fits. cbn [forallb]. rewrite Hf. reflexivity.
    - exact Ho.
  Qed.

  Lemma wp_waits w e s ps d (Q : unit -> evdec -> Prop) (F : pte -> evdec -> Prop) : Done s ps d ->
    fits (w, e) = true -> ordered (k_wait s ++ [(w, e)]) = true ->
    (forall s' q', waits w e s = Ok s' -> Done s' ps (set_evq d q') -> Q tt (set_evq d q')) ->
    (waits w e s = Err pte_nomem -> F pte_nomem d) ->
    wp (enqueue (mask w) e) Q F d.
  Proof.
    intros HD Hf Ho HQ HF. pose proof (w_queue _ _ (d_waits _ _ _ _ _ _ HD)) as Hq.
    pose proof (qrep_length _ _ Hq) as Hl. rewrite qs_length in Hl.
    assert (Hw : waits w e s = if Nat.ltb (length (k_wait s)) 14
      then Ok (with_wait s (k_wait s ++ [(w, e)])) else Err pte_nomem) by reflexivity.
    pose proof (qrep_enqueue (ed_evq d) (qs (k_wait s)) (mask w) e Hq) as H.
    unfold wp, enqueue. rewrite qs_length in H. destruct (Nat.ltb (length (k_wait s)) 14).
    - destruct H as (q' & -> & G1 & _). apply (HQ _ _ Hw). apply (waits_done _ _ _ _ _ _ _ HD Hf Ho Hw G1).
    - rewrite H. auto.
  Qed.

  Lemma ordered_not_tip s ps d w e : Done s ps d -> for_tip (w, e) = false ->
    ordered (k_wait s ++ [(w, e)]) = true.
  Proof. intros [_ [] _ _] H. apply ordered_app; auto. Qed.
  Lemma ordered_mode s ps d e : Done s ps d -> ordered (k_wait s ++ [(At_fup_or_tip, e)]) = true.
  Proof. intros [_ [] _ _]. apply ordered_app; auto. Qed.
  Lemma ordered_async s ps d w e : Done s ps d -> existsb is_async (k_wait s) = true ->
    ordered (k_wait s ++ [(w, e)]) = true.
  Proof. intros [_ [] _ _] H. apply ordered_app; auto. Qed.

  Context (p : packet) (ps : list packet).
  Hypothesis next : Next ps.

  Lemma post_wait s d d' w e : Done s ps d' -> fits (w, e) = true ->
    ordered (k_wait s ++ [(w, e)]) = true -> ed_event d' = None ->
    rem buf (ed_pd d') <= rem buf (ed_pd d) -> valid_pkt d ->
    wp (run enqueue (mask w) e; ret true) (Post d (andthen (quietly (waits w e s)) ps))
       (Fail (andthen (quietly (waits w e s)) ps)) d'.
  Proof.
    intros HD Hf Ho He Hr Hv. apply wp_bind. eapply wp_waits; [exact HD|exact Hf|exact Ho| |].
    - intros s' q' -> HD'. apply wp_ret. apply post_silent; auto.
    - intros ->. reflexivity.
  Qed.

  Ltac here H := pose proof H as [HD Hp Hv He Hb];
    pose proof HD as [[Hpd Hw Hip Ht Hc Hon Hm Hval] [Hq Hf Ho] Hh Hpsb].
  Ltac wait_ HD := change evb_tip with (mask At_tip) || change evb_fup with (mask At_fup) ||
    change evb_fup_bound with (mask At_own_fup) || change (N.lor evb_tip evb_fup_bound) with (mask At_fup_or_tip)
    || change evb_exstop with (mask At_exstop) || change evb_cfe with (mask At_cfe);
    apply post_wait; auto; eapply ordered_not_tip; [exact HD|reflexivity].
  Ltac now_ := apply post_now; auto.

  Lemma tnt_f s d t : Here s p ps d -> let o := andthen
    (if k_on s then gives s [now s (Ev_tnt (tnt_payload t) (tnt_bit_size t))] else errs pte_bad_context) ps in
    wp (pt_evt_decode_tnt t) (Post d o) (Fail o) d.
  Proof.
    intros H o. here H. unfold pt_evt_decode_tnt. apply wp_bind, wp_get. subst o. rewrite Hon.
    destruct (k_on s); [|reflexivity]. now_.
  Qed.

  Lemma clock_core s pl n d psb f (Q : unit -> evdec -> Prop) (F : pte -> evdec -> Prop) qs' :
    Core s qs' d -> h_psb (k_hw s) = psb -> times cf psb pl f ->
    (forall s' t l, clock cf s (mk_packet pl n) = Ok s' -> Core s' qs' (set_tcal (set_time d t) l) ->
       k_wait s' = k_wait s -> k_head s' = k_head s -> k_on s' = k_on s -> h_psb (k_hw s') = psb ->
       Q tt (set_tcal (set_time d t) l)) ->
    (forall e t l, clock cf s (mk_packet pl n) = Err e -> F e (set_tcal (set_time d t) l)) ->
    wp (timing f) Q F d.
  Proof.
    intros [] Hs Htm HQ HF. specialize (Htm (k_hw s) Hs). unfold wp, timing, ed_config.
    destruct c_pd as (Hc & Hb & Hl) eqn:Epd. rewrite Hc, c_time, c_cal. unfold k_time.
    destruct (f cf (h_time (k_hw s)) (h_cal (k_hw s))) as [[t' l'] r]. destruct Htm as (H1 & H2 & H3).
    unfold clock in *. cbn [pkt_pl] in *. rewrite H1 in HQ, HF. destruct r as [[]|e|u]; [| |exact (H2 u eq_refl)].
    - specialize (H3 eq_refl). cbn [bind] in HQ.
      replace (hw_step cf (k_hw s) (mk_packet pl n)) with (mk_hw psb (h_ip (k_hw s)) t' l') in HQ
        by (rewrite <- H3; reflexivity).
      eapply HQ; try reflexivity. split; auto.
    - apply HF. reflexivity.
  Qed.

  Lemma clock_done s pl n d f (Q : unit -> evdec -> Prop) (F : pte -> evdec -> Prop) :
    Done s ps d -> times cf false pl f ->
    (forall s' t l, clock cf s (mk_packet pl n) = Ok s' -> Done s' ps (set_tcal (set_time d t) l) ->
       Q tt (set_tcal (set_time d t) l)) ->
    (forall e t l, clock cf s (mk_packet pl n) = Err e -> F e (set_tcal (set_time d t) l)) ->
    wp (timing f) Q F d.
  Proof.
    intros [HC HW Hh Hp] Htm HQ HF. eapply clock_core; [exact HC|exact Hp|exact Htm| |exact HF].
    intros s' t l E HC' E1 E2 E3 E4. eapply HQ; [exact E|]. split; auto; [|congruence].
    destruct HW. split; rewrite ?E1; auto.
  Qed.

  Lemma time_f s d pl n f : Here s p ps d -> times cf false pl f -> p = mk_packet pl n ->
    let o := andthen (quietly (clock cf s p)) ps in
    wp (run timing f; ret true) (Post d o) (Fail o) d.
  Proof.
    intros H Htm -> o. here H. apply wp_bind. eapply clock_done; [exact HD|exact Htm| |].
    - intros s' t l E HD'. apply wp_ret. subst o. rewrite E. apply post_silent; auto.
    - intros e t l E. subst o. rewrite E. reflexivity.
  Qed.

  Lemma cbr_f s d v n : Here s p ps d -> p = mk_packet (P_cbr v) n ->
    let o := andthen (match clock cf s p with Ok s => gives s [now s (Ev_cbr v)] | r => quietly r end) ps in
    wp (pt_evt_decode_cbr v) (Post d o) (Fail o) d.
  Proof.
    intros H -> o. here H. apply wp_bind. eapply clock_done; [exact HD|apply (times_cbr cf freq)| |].
    - intros s' t l E HD'. subst o. rewrite E. now_.
    - intros e t l E. subst o. rewrite E. reflexivity.
  Qed.

  Lemma now_f s d v : Here s p ps d -> let o := andthen (gives s [now s v]) ps in
    wp (standalone_now (new_event v)) (Post d o) (Fail o) d.
  Proof. intros H o. here H. now_. Qed.

  (** ** MODE *)

  Lemma mode_exec_f s d csl csd i : Here s p ps d ->
    let o := andthen (quietly (mode_exec cf s csl csd i)) ps in
    wp (pt_evt_decode_mode_exec csl csd i) (Post d o) (Fail o) d.
  Proof.
    intros H o. here H. unfold pt_evt_decode_mode_exec. apply wp_bind, wp_get. cbv zeta.
    assert (Ecf : ed_config d = cf) by (destruct Hpd as (Hx & _); exact Hx). rewrite Ecf.
    set (cm := (negb (ms_valid (ed_mode d)) || negb (eqb (ms_csl (ed_mode d)) csl)
                || negb (eqb (ms_csd (ed_mode d)) csd))%bool).
    set (ci := (cf_enable_iflags_events cf &&
                (negb (ms_valid (ed_mode d)) || negb (eqb (ms_iflag (ed_mode d)) i)))%bool).
    assert (Ecm : cm = match k_mode s with
                  | Some (l, d, _) => negb (eqb l csl && eqb d csd)
                  | None => true
                  end).
    { subst cm. unfold modes in Hm. destruct (k_mode s) as [[[l x] j]|].
      - destruct Hm as (-> & -> & -> & _). cbn. destruct l, x, csl, csd; reflexivity.
      - rewrite Hm. reflexivity. }
    assert (Eci : ci = (cf_enable_iflags_events cf &&
                   match k_mode s with Some (_, _, i') => negb (eqb i' i) | None => true end)%bool).
    { subst ci. unfold modes in Hm. destruct (cf_enable_iflags_events cf); [|reflexivity].
      destruct (k_mode s) as [[[l x] j]|].
      - destruct Hm as (-> & _ & _ & Hi). rewrite (Hi eq_refl). reflexivity.
      - rewrite Hm. reflexivity. }
    subst o. unfold mode_exec. rewrite <- Ecm, <- Eci.
    (* the modes so far *)
    assert (Hmid : forall s', Done s' ps d -> True) by auto.
    assert (Hcm : cm = false -> ms_valid (ed_mode d) = true /\ ms_csl (ed_mode d) = csl /\ ms_csd (ed_mode d) = csd).
    { subst cm. intros E. destruct (ms_valid (ed_mode d)), (ms_csl (ed_mode d)), csl,
        (ms_csd (ed_mode d)), csd; cbn in E; try discriminate; auto. }
    assert (Hci : ci = false -> cf_enable_iflags_events cf = true -> ms_iflag (ed_mode d) = i).
    { subst ci. intros E E'. rewrite E' in E. destruct (ms_valid (ed_mode d)), (ms_iflag (ed_mode d)), i;
        cbn in E; try discriminate; auto. }
    clearbody cm ci. clear Ecm Eci.
    (* a state up to the mode *)
    set (D s1 d1 := Done (with_mode s1 None) ps (set_mode d1 (mk_mode false false false false))
                    /\ ed_event d1 = None /\ ed_pd d1 = ed_pd d).
    assert (Dset : forall s1 d1 m, D s1 d1 -> D s1 (set_mode d1 m)) by (intros s1 d1 m HD1; exact HD1).
    assert (Dfin : forall s1 d1, D s1 d1 -> modes cf (Some (csl, csd, i)) (ed_mode d1) ->
      Done (with_mode s1 (Some (csl, csd, i))) ps d1).
    { intros s1 d1 ([[] [] ? ?] & _ & _) Hmm. split; auto; split; auto. }
    assert (Dwait : forall s1 d1 e (Q : unit -> evdec -> Prop) (F : pte -> evdec -> Prop), D s1 d1 -> fits (At_fup_or_tip, e) = true ->
      (forall s2 q, waits At_fup_or_tip e s1 = Ok s2 -> D s2 (set_evq d1 q) -> Q tt (set_evq d1 q)) ->
      (waits At_fup_or_tip e s1 = Err pte_nomem -> F pte_nomem d1) ->
      wp (enqueue (N.lor evb_tip evb_fup_bound) e) Q F d1).
    { intros s1 d1 e Q F (HD1 & E1 & E2) Hfit HQ HF. change (N.lor evb_tip evb_fup_bound) with (mask At_fup_or_tip).
      pose proof (w_queue _ _ (d_waits _ _ _ _ _ _ HD1)) as Hq1. cbn [k_wait with_mode ed_evq set_mode] in Hq1.
      pose proof (qrep_enqueue (ed_evq d1) (qs (k_wait s1)) (mask At_fup_or_tip) e Hq1) as HE.
      unfold wp, enqueue. rewrite qs_length in HE. unfold waits in HQ, HF.
      destruct (Nat.ltb (length (k_wait s1)) 14) eqn:El.
      - destruct HE as (q' & -> & G1 & _). eapply HQ; [reflexivity|]. split; [|split; assumption].
        eapply (waits_done (with_mode s1 None) ps _ At_fup_or_tip e _ q' HD1 Hfit).
        + eapply ordered_mode. exact HD1.
        + unfold waits. cbn [k_wait with_mode]. rewrite El. reflexivity.
        + exact G1.
      - rewrite HE. auto. }
    assert (D0 : D s d).
    { split; [|auto]. destruct HD as [[] [] ? ?]. split; auto; split; auto. reflexivity. }
    apply wp_bind. destruct cm.
    - apply wp_bind. eapply Dwait; [exact D0|reflexivity| |intros ->; reflexivity].
      intros s2 q -> D2. cbn [bind]. apply wp_modify. apply wp_bind. destruct ci.
      + apply wp_bind. eapply Dwait; [apply Dset; exact D2|reflexivity| |intros ->; reflexivity].
        intros s3 q3 -> D3. cbn [bind orb]. apply wp_modify, wp_bind, wp_ret, wp_bind, wp_modify, wp_ret.
        apply post_silent; auto.
        apply Dfin; [repeat apply Dset; exact D3|]. cbn. auto.
      + cbn [bind orb]. apply wp_ret, wp_bind, wp_ret, wp_bind, wp_modify, wp_ret.
        apply post_silent; auto. apply Dfin; [repeat apply Dset; exact D2|]. cbn. auto.
    - specialize (Hcm eq_refl) as (Hc1 & Hc2 & Hc3). cbn [bind]. apply wp_ret, wp_bind. destruct ci.
      + apply wp_bind. eapply Dwait; [exact D0|reflexivity| |intros ->; reflexivity].
        intros s3 q3 -> D3. cbn [bind orb]. apply wp_modify, wp_bind, wp_ret, wp_bind, wp_modify, wp_ret.
        apply post_silent; auto.
        apply Dfin; [repeat apply Dset; exact D3|]. cbn. auto.
      + cbn [bind orb]. apply wp_ret, wp_bind.
        eapply Dwait; [exact D0|reflexivity| |intros ->; reflexivity].
        intros s3 q3 -> D3. cbn [bind]. apply wp_bind, wp_modify, wp_ret.
        apply post_silent; auto.
        apply Dfin; [repeat apply Dset; exact D3|]. cbn. auto.
  Qed.

  Lemma mode_f s d m : Here s p ps d -> let o := andthen (mode cf s m) ps in
    wp (pt_evt_decode_mode m) (Post d o) (Fail o) d.
  Proof.
    intros H. destruct m as [csl csd i|intx abrt|leaf]; [apply mode_exec_f; exact H| |reflexivity].
    intros o. here H. unfold pt_evt_decode_mode, pt_evt_decode_mode_tsx. apply wp_bind, wp_get.
    subst o. unfold mode. rewrite Hon. destruct (k_on s); [|now_].
    replace (if abrt then evb_fup else evb_fup_bound) with (mask (if abrt then At_fup else At_own_fup))
      by (destruct abrt; reflexivity).
    apply post_wait; auto; [destruct abrt; reflexivity|].
    eapply ordered_not_tip; [exact HD|destruct abrt; reflexivity].
  Qed.

  (** ** PIP and VMCS *)

  Lemma find_exists q l b ty f : qrep q (qs l) ->
    (forall w, fits w = true -> (bound b (q1 w) && ty (snd w))%bool = f w) -> forallb fits l = true ->
    match pt_evq_find q b ty with Some _ => true | None => false end = existsb f l.
  Proof.
    intros Hq Hf Hl. rewrite (qrep_find _ _ _ _ Hq).
    replace (match option_map (slot_of q) (find_pos (fun e => bound b e && ty (snd e)) (qs l)) with
             | Some _ => true | None => false end)
      with (match find_pos (fun e => bound b e && ty (snd e)) (qs l) with Some _ => true | None => false end)
      by (destruct (find_pos _ _); reflexivity).
    rewrite find_pos_existsb. clear Hq. induction l as [|w l IH]; [reflexivity|].
    cbn [qs map existsb forallb] in *. apply andb_prop in Hl as [H1 H2]. fold (qs l). rewrite (IH H2).
    rewrite <- (Hf w H1). reflexivity.
  Qed.

  Lemma is_branch w : fits w = true -> (bound evb_tip (q1 w) && is_async_branch (snd w))%bool = tip_async a_branch w.
  Proof. destruct w as [[] e]; unfold fits, tip_async, is_async_branch, a_branch; cbn; destruct (ev_var e); reflexivity || discriminate. Qed.
  Lemma is_paging w : fits w = true -> (bound evb_tip (q1 w) && is_async_paging (snd w))%bool = tip_async a_paging w.
  Proof. destruct w as [[] e]; unfold fits, tip_async, is_async_paging, a_paging; cbn; destruct (ev_var e); reflexivity || discriminate. Qed.

  Lemma async_any l : existsb (tip_async a_branch) l = true -> existsb is_async l = true.
  Proof.
    intros H. apply existsb_exists in H. destruct H as (w & Hi & Hw). apply existsb_exists. exists w.
    split; [exact Hi|]. unfold tip_async, a_branch, is_async in *. destruct (fst w); congruence || exact Hw.
  Qed.

  Lemma pip_f s d cr3 nr : Here s p ps d -> let o := andthen (pip s cr3 nr) ps in
    wp (pt_evt_decode_pip cr3 nr) (Post d o) (Fail o) d.
  Proof.
    intros H o. here H. unfold pt_evt_decode_pip. apply wp_bind, wp_get. subst o. unfold pip.
    rewrite <- (find_exists _ _ _ _ _ Hq is_branch Hf).
    pose proof (find_exists _ _ _ _ _ Hq is_branch Hf) as Ha.
    destruct (pt_evq_find _ _ _); [|now_].
    change evb_tip with (mask At_tip). apply post_wait; auto.
    eapply ordered_async; [exact HD|]. apply async_any. congruence.
  Qed.

  Lemma swap_find v l : match swap_in v l with
    | Some (l', e) => exists a w c, l = a ++ w :: c /\ l' = a ++ (fst w, set_var (snd w) v) :: c /\ e = snd w /\
        tip_async a_paging w = true /\ Forall (fun x => tip_async a_paging x = false) a
    | None => Forall (fun x => tip_async a_paging x = false) l
    end.
  Proof.
    induction l as [|w l IH]; [constructor|]. cbn [swap_in]. destruct (tip_async a_paging w) eqn:E.
    - exists [], w, l. repeat split; auto.
    - destruct (swap_in v l) as [[l' e]|].
      + destruct IH as (a & x & c & -> & -> & -> & H1 & H2). exists (w :: a), x, c. repeat split; auto.
      + constructor; auto.
  Qed.

  Lemma find_at l a w c f : l = a ++ w :: c -> f (q1 w) = true ->
    Forall (fun x => f (q1 x) = false) a -> find_pos f (qs l) = Some (length a).
  Proof.
    intros -> Hw Ha. induction Ha as [|x a Hx Ha IH]; cbn; [rewrite Hw; reflexivity|].
    rewrite Hx. cbn in IH. unfold qs in IH. rewrite IH. reflexivity.
  Qed.
  Lemma find_not l f : Forall (fun x => f (q1 x) = false) l -> find_pos f (qs l) = None.
  Proof.
    induction 1 as [|x l Hx _ IH]; [reflexivity|]. cbn. rewrite Hx. unfold qs in IH. rewrite IH. reflexivity.
  Qed.

  Lemma update_at a w c e : update (qs (a ++ w :: c)) (length a) e = qs (a ++ (fst w, e) :: c).
  Proof. induction a as [|x a IH]; [reflexivity|]. cbn. f_equal. exact IH. Qed.

  Lemma paging_async l : ordered l = true -> forallb fits l = true -> existsb (tip_async a_paging) l = true ->
    existsb is_async l = true.
  Proof.
    intros Ho Hf H. apply existsb_exists in H. destruct H as (w & Hi & Hw).
    assert (Hin : In w (filter for_tip l)).
    { apply filter_In. split; [exact Hi|]. unfold tip_async, for_tip in *. destruct (fst w); auto; discriminate. }
    unfold ordered in Ho. destruct (filter for_tip l) as [|x r] eqn:Er; [destruct Hin|].
    destruct (is_async x) eqn:Ex.
    - apply existsb_exists. exists x. split; [|exact Ex].
      apply (proj1 (filter_In for_tip x l)). rewrite Er. left. reflexivity.
    - cbn [orb] in Ho. rewrite forallb_forall in Ho. specialize (Ho w Hin).
      unfold by_mode, tip_async in *. destruct (fst w); discriminate.
  Qed.

  Lemma vmcs_f s d base : Here s p ps d -> let o := andthen (vmcs s base) ps in
    wp (pt_evt_decode_vmcs base) (Post d o) (Fail o) d.
  Proof.
    intros H o. here H. unfold pt_evt_decode_vmcs. apply wp_bind, wp_get. subst o. unfold vmcs.
    pose proof (swap_find (Ev_async_vmcs base 0) (k_wait s)) as Hs.
    rewrite (qrep_find _ _ _ _ Hq).
    destruct (swap_in _ _) as [[l' e]|] eqn:Es.
    - destruct Hs as (a & w & c & E1 & E2 & E3 & E4 & E5).
      assert (Hfa : Forall (fun x => fits x = true) a /\ fits w = true /\ Forall (fun x => fits x = true) c).
      { rewrite E1, forallb_app in Hf. cbn in Hf. apply andb_prop in Hf as [Hfa Hf].
        apply andb_prop in Hf as [Hfw Hfc]. rewrite forallb_forall in Hfa, Hfc.
        split; [apply Forall_forall; exact Hfa|]. split; [exact Hfw|]. apply Forall_forall. exact Hfc. }
      destruct Hfa as (Hfa & Hfw & Hfc).
      rewrite (find_at (k_wait s) a w c _ E1).
      2: { cbn [snd q1]. rewrite (is_paging w Hfw). exact E4. }
      2: { apply Forall_forall. intros x Hx. rewrite Forall_forall in Hfa, E5.
           cbn [snd q1]. rewrite (is_paging x (Hfa x Hx)). apply (E5 x Hx). }
      cbn [option_map].
      assert (Hnth : nth_error (qs (k_wait s)) (length a) = Some (q1 w)).
      { rewrite E1, qs_app, nth_error_app2 by (rewrite qs_length; lia). rewrite qs_length, Nat.sub_diag.
        reflexivity. }
      assert (Hwt : waits At_tip e (with_wait s l') =
        if Nat.ltb (length (k_wait s)) 14 then Ok (with_wait s (l' ++ [(At_tip, e)])) else Err pte_nomem).
      { unfold waits. cbn [k_wait with_wait]. rewrite E1, E2, !app_length. reflexivity. }
      apply wp_bind.
      pose proof (qrep_requeue zero_event (ed_evq d) (qs (k_wait s)) evb_tip (slot_of (ed_evq d) (length a))
        (snd w) Hq (or_intror (ex_intro _ (length a) (ex_intro _ (mask (fst w)) (conj eq_refl Hnth))))) as HR.
      rewrite qs_length in HR. unfold wp at 1, requeue. rewrite Hwt.
      destruct (Nat.ltb (length (k_wait s)) 14).
      2: { rewrite HR. reflexivity. }
      destruct HR as (q' & -> & G1 & G2 & _).
      apply wp_bind. rewrite <- (slot_begin _ _ (length a) G2).
      change q' with (ed_evq (set_evq d q')) at 1.
      assert (Hlt : length a < length (qs (k_wait s))) by (rewrite qs_length, E1, app_length; cbn; lia).
      eapply wp_read_pos; [sd; exact G1|rewrite nth_error_app1 by exact Hlt; exact Hnth|].
      apply wp_bind. change q' with (ed_evq (set_evq d q')) at 1.
      eapply wp_write_pos; [sd; exact G1|rewrite app_length; lia|]. intros q2 G3 _ _. apply wp_ret.
      apply post_silent; auto. sd.
      assert (Eq2 : update (qs (k_wait s) ++ [(evb_tip, snd w)]) (length a) (set_var (snd w) (Ev_async_vmcs base 0))
                    = qs (l' ++ [(At_tip, e)])).
      { change [(evb_tip, snd w)] with (qs [(At_tip, snd w)]). rewrite <- qs_app, E1, <- app_assoc.
        cbn [app]. rewrite update_at, E2, E3, <- app_assoc. reflexivity. }
      rewrite Eq2 in G3.
      assert (Hpl : fst w = At_tip) by (unfold tip_async in E4; destruct (fst w); try discriminate; reflexivity).
      assert (Hft : fits (fst w, set_var (snd w) (Ev_async_vmcs base 0)) = true) by (rewrite Hpl; reflexivity).
      assert (Hfl : forallb fits (l' ++ [(At_tip, e)]) = true).
      { rewrite E2, <- app_assoc, forallb_app. cbn [app forallb]. rewrite forallb_app, Hft. cbn [forallb].
        rewrite E3, <- Hpl, <- surjective_pairing, Hfw.
        rewrite (proj2 (forallb_forall fits a)), (proj2 (forallb_forall fits c)); [reflexivity| |];
          apply Forall_forall; assumption. }
      assert (Has : existsb is_async (k_wait s) = true).
      { apply paging_async; auto. apply existsb_exists. exists w. split; [|exact E4]. rewrite E1.
        apply in_or_app. right. left. reflexivity. }
      assert (Hnw : is_async w = false).
      { unfold tip_async, is_async, a_paging in *. rewrite Hpl in E4. destruct (ev_var (snd w)); congruence. }
      assert (Hol : ordered l' = true).
      { rewrite E2. rewrite E1 in Ho. unfold ordered in *. rewrite filter_app in *. cbn [filter] in *.
        assert (T1 : for_tip w = true) by (unfold for_tip; rewrite Hpl; reflexivity).
        rewrite T1 in Ho.
        assert (T2 : for_tip (fst w, set_var (snd w) (Ev_async_vmcs base 0)) = true)
          by (unfold for_tip; cbn; rewrite Hpl; reflexivity).
        rewrite T2.
        assert (Hnb : by_mode w = false) by (unfold by_mode; rewrite Hpl; reflexivity).
        destruct (filter for_tip a) as [|x r] eqn:Era.
        - cbn [app forallb] in Ho. rewrite Hnw, Hnb in Ho. discriminate.
        - cbn [app] in *. rewrite app_comm_cons, forallb_app in Ho. cbn [forallb] in Ho. rewrite Hnb in Ho.
          destruct (is_async x) eqn:Ex; [reflexivity|]. rewrite andb_false_l, andb_false_r in Ho. discriminate. }
      assert (Hfl' : forallb fits l' = true) by (rewrite forallb_app in Hfl; apply andb_prop in Hfl; tauto).
      assert (Has' : existsb is_async l' = true).
      { rewrite E1 in Has. rewrite E2. rewrite existsb_app in *. cbn [existsb] in *. rewrite Hnw in Has.
        unfold is_async at 2. cbn. exact Has. }
      split; [split; auto| |auto|auto]. split; [exact G3|exact Hfl|].
      cbn [k_wait with_wait]. apply ordered_app; auto.
    - rewrite find_not.
      2: { rewrite forallb_forall in Hf. apply Forall_forall. intros x Hx. rewrite Forall_forall in Hs.
           cbn [snd q1]. rewrite (is_paging x (Hf x Hx)). auto. }
      cbn [option_map].
      rewrite <- (find_exists _ _ _ _ _ Hq is_branch Hf).
      pose proof (find_exists _ _ _ _ _ Hq is_branch Hf) as Ha.
      destruct (pt_evq_find _ _ is_async_branch); [|now_].
      change evb_tip with (mask At_tip). apply post_wait; auto.
      eapply ordered_async; [exact HD|]. apply async_any. congruence.
  Qed.

  (** ** Others *)

  Lemma mwait_f s d h e : Here s p ps d ->
    let o := andthen (quietly (waits At_exstop (new_event (Ev_mwait 0 h e)) s)) ps in
    wp (pt_evt_decode_mwait h e) (Post d o) (Fail o) d.
  Proof. intros H o. here H. subst o. unfold pt_evt_decode_mwait. wait_ HD. Qed.

  Lemma later_f s d ip any v : Done s ps d -> ed_bound d = false -> ed_event d = None -> valid_pkt d ->
    fits (At_own_fup, new_event v) = true ->
    (any = true -> fits (At_fup, new_event v) = true) ->
    let o := andthen (later s ip any v) ps in
    wp (if ip : bool then run enqueue evb_fup_bound (new_event v); ret true
        else if any && ed_enabled d then run enqueue evb_fup (new_event v); ret true
        else standalone_now (set_suppressed (new_event v) true)) (Post d o) (Fail o) d.
  Proof.
    intros HD Hb He Hv H1 H2 o. subst o. unfold later. pose proof HD as [[] [] ? ?].
    destruct ip; [wait_ HD|]. rewrite c_on. destruct (any && k_on s)%bool eqn:E; [|now_].
    apply andb_prop in E as [-> _]. wait_ HD.
  Qed.

  Lemma ptw_f s d v plc ip : Here s p ps d ->
    let o := andthen (match pt_ptw_size plc with
      | Ok n => later s ip false (Ev_ptwrite 0 (N.of_nat n) v)
      | Err e => errs e
      | UB u => ([], UB u)
      end) ps in
    wp (pt_evt_decode_ptw v plc ip) (Post d o) (Fail o) d.
  Proof.
    intros H o. here H. unfold pt_evt_decode_ptw. apply wp_bind. subst o.
    assert (Hn : no_ub (pt_ptw_size plc)).
    { pose proof (L_pktsafe.ptw_size_ok plc) as Hs. intros u E. rewrite E in Hs. exact Hs. }
    destruct (pt_ptw_size plc) as [n|e|u]; [|reflexivity|exact (Hn u eq_refl)].
    unfold wp at 1, lift. pose proof (later_f s d ip false (Ev_ptwrite 0 (N.of_nat n) v) HD Hb He Hv eq_refl
      ltac:(discriminate)) as HL. destruct ip; exact HL.
  Qed.

  Lemma trig_f s d trbv icnt ip icntv mult : Here s p ps d ->
    let o := andthen (trig s trbv icnt ip icntv mult) ps in
    wp (pt_evt_decode_trig trbv icnt ip icntv mult) (Post d o) (Fail o) d.
  Proof.
    intros H o. here H. unfold pt_evt_decode_trig. subst o. unfold trig.
    assert (Et : truth icnt = negb (icnt =? 0)%N) by (unfold truth; reflexivity).
    rewrite Et. destruct ip.
    - destruct icntv; cbn [negb orb]; [|reflexivity]. destruct (negb (icnt =? 0)%N); [reflexivity|]. wait_ HD.
    - apply wp_bind, wp_get, wp_bind, wp_standalone. rewrite Hon.
      assert (HD' : Done s ps (set_event (set_alone d (new_event (Ev_trig trbv 0 0 mult))) (Some Alone))).
      { destruct HD as [[] [] ? ?]. split; auto; split; auto. }
      destruct icntv; cbn [andb].
      + destruct (negb (icnt =? 0)%N && negb (k_on s))%bool; [reflexivity|]. now_.
      + now_.
  Qed.
End ONE.
