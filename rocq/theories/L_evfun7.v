(** The events of a trace as a function of its packets: PSB+. *)

From Verif Require Import Base M_packet M_config M_pktdec M_lastip M_time
  M_evq M_event M_evdec S_evq S_evtrace S_evfun L_evq L_evqpos L_evdec L_evsafe L_evtrace L_evfun L_evfun2
  L_evfun3 L_evfun4 L_evnext L_evfun6.
From Coq Require Import List NArith ZArith PeanoNat Bool Lia.
Import ListNotations.
Open Scope nat_scope.

Definition status0 : event := set_status_update zero_event.
Definition psbq (l : list event) : list (N * event) := map (pair evb_psbend) l.

Definition noted (e : event) : bool :=
  match ev_var e with
  | Ev_exec_mode _ _ | Ev_iflags _ _ | Ev_tsx _ _ _ | Ev_async_paging _ _ _ | Ev_async_vmcs _ _
  | Ev_cbr _ | Ev_mnt _ => true
  | _ => false
  end.
Definition shown (e : event) : bool :=
  match ev_var e with Ev_enabled _ _ | Ev_disabled _ => true | _ => noted e end.
Definition appears (s : track) (e : event) : event :=
  match ev_var e with
  | Ev_cbr _ | Ev_mnt _ | Ev_disabled _ => dated s e
  | _ => dated s (placed s e)
  end.

Lemma noted_shown l : forallb noted l = true -> forallb shown l = true.
Proof.
  intros H. rewrite forallb_forall in *. intros e He. specialize (H e He). unfold shown, noted in *.
  destruct (ev_var e); auto.
Qed.
Lemma noted_appears s l : forallb noted l = true -> map (appears s) l = map (shows s) l.
Proof.
  intros H. apply map_ext_in. intros e He. rewrite forallb_forall in H. specialize (H e He).
  unfold noted, appears, shows in *. destruct (ev_var e); try discriminate; reflexivity.
Qed.
Lemma psbq_take e l : take_first (bound evb_psbend) (psbq (e :: l)) = Some (e, psbq l).
Proof. reflexivity. Qed.
Lemma psbq_length l : length (psbq l) = length l.
Proof. apply map_length. Qed.

Section PSB.
  Context (cf : config) (buf : list N) (err : pte).
  Hypothesis moves : callback_moves cf.
  Hypothesis freq : (cf_mtc_freq cf < 24)%N.
  Hypothesis small : (N.of_nat (length buf) + 1 < 2 ^ 31)%N.
  Hypothesis skip : no_skipping cf.

  Notation Core := (Core cf buf err).
  Notation Done := (Done cf buf err).
  Notation Mid := (Mid cf buf err).
  Notation Here := (Here cf buf err).
  Notation Next := (Next cf buf err).
  Notation Post := (Post buf).
  Notation yields := (yields buf).
  Notation andthen := (andthen cf err).

  (** ** The end of PSB+ *)

  Lemma psbend_some s ps d e l (Q : bool -> evdec -> Prop) F : Core s ps d ->
    qrep (ed_evq d) (psbq (e :: l)) -> shown e = true ->
    (forall q i, qrep q (psbq l) -> held q i (appears s e) ->
       Q false (set_evq (set_event d (Some (Slot i))) q)) ->
    wp pt_evt_decode_psbend Q F d.
  Proof.
    intros [Hpd Hw Hip Ht Hc Hon Hm Hv] Hq He HQ. unfold pt_evt_decode_psbend. apply wp_bind.
    eapply wp_dequeue; [exact Hq| |discriminate]. intros e0 l' E q' i Hq' Hh _ _.
    rewrite psbq_take in E. injection E as <- <-.
    apply wp_bind. unfold publish. apply wp_modify. apply wp_bind.
    eapply wp_read_held; [exact Hh|]. apply wp_bind, wp_get.
    assert (Hfin : forall x, event_time (ed_time d) x = appears s e ->
      wp (finish (Slot i) x) Q F (set_event (set_evq d q') (Some (Slot i)))).
    { intros x Hx. unfold finish. apply wp_bind, wp_get, wp_bind.
      eapply wp_write_held; [exact Hq'|exact Hh|]. intros q2 G1 _ G3. apply wp_ret.
      apply HQ; [exact G1|]. rewrite <- Hx. exact G3. }
    unfold shown, noted, appears in *. destruct (ev_var e) eqn:Ev; try discriminate;
      apply Hfin; rewrite dated_is, Ht, ?placed_is; try reflexivity;
      cbn [ed_ip set_event set_evq]; rewrite Hip; reflexivity.
  Qed.

  Lemma psbend_done d (Q : bool -> evdec -> Prop) F : qrep (ed_evq d) [] -> Q true d ->
    wp pt_evt_decode_psbend Q F d.
  Proof.
    intros Hq HQ. unfold pt_evt_decode_psbend. apply wp_bind. eapply wp_dequeue; [exact Hq| |].
    - intros; discriminate.
    - intros _. exact HQ.
  Qed.

  (** What is left of the status. *)
  Record Tail (s : track) (ps : list packet) (l : list event) (d : evdec) : Prop := mk_Tail {
    t_core : Core s ps d;
    t_queue : qrep (ed_evq d) (psbq l);
    t_shown : forallb shown l = true;
    t_event : ed_event d = None;
    t_bound : ed_bound d = false;
    t_next : Next ps }.

  Definition tail_of (evs : list event) (o : outcome) : outcome := (evs ++ fst o, snd o).

  Lemma andthen_tail evs o ps : andthen (tail_of evs o) ps = tail_of evs (andthen o ps).
  Proof. destruct o as [l [s|e|u]]; cbn; rewrite <- ?app_assoc; reflexivity. Qed.

  Lemma tail_cons e evs o : tail_of (e :: evs) o = (e :: fst (tail_of evs o), snd (tail_of evs o)).
  Proof. reflexivity. Qed.

  Lemma tail_next s ps e l d q i : Tail s ps (e :: l) d -> qrep q (psbq l) ->
    Tail s ps l (set_event (set_evq (set_event d (Some (Slot i))) q) None).
  Proof.
    intros [[] ? Hs ? ? ?] Hq. cbn [forallb] in Hs. apply andb_prop in Hs as [_ Hs].
    split; auto. split; auto.
  Qed.

  Lemma psbend_tail ps p s l : forall d, Tail s ps l d -> pkt_pl p = P_psbend ->
    pkt_pl (ed_pkt d) = P_psbend -> k_wait s = [] ->
    yields d (tail_of (map (appears s) l) (andthen (gives (leaves_psb cf s p) []) ps)).
  Proof.
    induction l as [|e l IH]; intros d HT Hp Hd Hk; pose proof HT as [HC Hq Hs He Hb HN].
    - apply (y_decode cf buf freq small). unfold pt_evt_decode_packet. apply wp_bind, wp_get. rewrite Hd.
      cbn [decode_other]. apply psbend_done; [exact Hq|]. cbn [map].
      change (tail_of [] ?o) with (fst o, snd o). rewrite <- surjective_pairing.
      apply post_silent; auto; [|unfold valid_pkt; rewrite Hd; discriminate].
      destruct HC. unfold leaves_psb, with_head, with_hw, hw_step. rewrite Hp.
      split; [split; auto| |reflexivity|reflexivity]. split; cbn; rewrite Hk; auto.
    - apply (y_decode cf buf freq small). unfold pt_evt_decode_packet. apply wp_bind, wp_get. rewrite Hd.
      cbn [decode_other].
      eapply psbend_some; [exact HC|exact Hq|cbn [forallb] in Hs; apply andb_prop in Hs; apply Hs|].
      intros q i Hq' Hh. cbn [map]. rewrite tail_cons. eapply post_event; [reflexivity|exact Hh|].
      rewrite <- surjective_pairing. apply IH; auto. apply (tail_next _ _ _ _ _ _ _ HT Hq').
  Qed.

  Lemma ovf_tail_y ps p s l : forall d, Tail s ps l d -> pkt_pl p = P_ovf ->
    pkt_pl (ed_pkt d) = P_ovf ->
    yields d (tail_of (map (appears s) l) (andthen (overflows cf s p ps err) ps)).
  Proof.
    induction l as [|e l IH]; intros d HT Hp Hd; pose proof HT as [HC Hq Hs He Hb HN].
    - apply (y_decode cf buf freq small). unfold pt_evt_decode_packet. apply wp_bind, wp_get. rewrite Hd.
      cbn [decode_other]. rewrite ovf_split. apply wp_bind. apply psbend_done; [exact Hq|]. cbn [map negb].
      change (tail_of [] ?o) with (fst o, snd o). rewrite <- surjective_pairing.
      apply (ovf_rest cf buf err moves freq small skip); auto. unfold valid_pkt. rewrite Hd. discriminate.
    - apply (y_decode cf buf freq small). unfold pt_evt_decode_packet. apply wp_bind, wp_get. rewrite Hd.
      cbn [decode_other]. rewrite ovf_split. apply wp_bind.
      eapply psbend_some; [exact HC|exact Hq|cbn [forallb] in Hs; apply andb_prop in Hs; apply Hs|].
      intros q i Hq' Hh. cbn [map negb]. apply wp_ret. rewrite tail_cons.
      eapply post_event; [reflexivity|exact Hh|].
      rewrite <- surjective_pairing. apply IH; auto. apply (tail_next _ _ _ _ _ _ _ HT Hq').
  Qed.

  (** ** Inside *)

  Record Head (s : track) (l : list event) (ps : list packet) (d : evdec) : Prop := mk_Head {
    g_core : Core s ps d;
    g_head : k_head s = Some l;
    g_wait : k_wait s = [];
    g_psb : h_psb (k_hw s) = true;
    g_queue : qrep (ed_evq d) (psbq (status0 :: l));
    g_noted : forallb noted l = true;
    g_event : ed_event d = None;
    g_bound : ed_bound d = false }.

  Definition Begins (slot : nat) (s : track) (ps : list packet) (d : evdec) : Prop :=
    (exists l, Head s l ps d) /\ evq_begin (ed_evq d) = slot.

  Lemma wp_notes slot e s ps d (Q : unit -> evdec -> Prop) (F : pte -> evdec -> Prop) :
    Begins slot s ps d -> noted e = true ->
    (forall s' q', notes e s = Ok s' -> Begins slot s' ps (set_evq d q') -> Q tt (set_evq d q')) ->
    (notes e s = Err pte_nomem -> F pte_nomem d) ->
    wp (enqueue evb_psbend e) Q F d.
  Proof.
    intros [(l & [HC Hh Hk Hp Hq Hn He Hb]) Hslot] Hne HQ HF.
    unfold notes in *. rewrite Hh in *.
    pose proof (qrep_enqueue (ed_evq d) (psbq (status0 :: l)) evb_psbend e Hq) as H.
    rewrite psbq_length in H. change (Nat.ltb (length (status0 :: l)) 14) with (Nat.ltb (length l) 13) in H.
    unfold wp, enqueue. destruct (Nat.ltb (length l) 13).
    - destruct H as (q' & -> & G1 & G2 & _). eapply HQ; [reflexivity|]. split; [|cbn; congruence].
      exists (l ++ [e]). destruct HC. split; auto.
      + split; auto.
      + unfold psbq in *. rewrite app_comm_cons, map_app. exact G1.
      + rewrite forallb_app, Hn. cbn. rewrite Hne. reflexivity.
    - rewrite H. apply HF. reflexivity.
  Qed.

  Lemma begins_clock slot s pl n d f (Q : unit -> evdec -> Prop) (F : pte -> evdec -> Prop) ps :
    Begins slot s ps d -> times cf true pl f ->
    (forall s' t l, clock cf s (mk_packet pl n) = Ok s' -> Begins slot s' ps (set_tcal (set_time d t) l) ->
       Q tt (set_tcal (set_time d t) l)) ->
    (forall e t l, clock cf s (mk_packet pl n) = Err e -> F e (set_tcal (set_time d t) l)) ->
    wp (timing f) Q F d.
  Proof.
    intros [(l & [HC Hh Hk Hp Hq Hn He Hb]) Hslot] Htm HQ HF.
    eapply clock_core; [exact HC|exact Hp|exact Htm| |exact HF].
    intros s' t l' E HC' E1 E2 E3 E4. eapply HQ; [exact E|]. split; [|exact Hslot].
    exists l. split; auto; congruence.
  Qed.

  Lemma begins_on slot s ps d b : Begins slot s ps d -> Begins slot (with_on s b) ps (set_enabled d b).
  Proof. intros [(l & [[] ? ? ? ? ? ? ?]) ?]. split; [exists l; split; auto; split; auto|auto]. Qed.

  (** One packet before the end. *)
  Definition Step (slot : nat) (r : res track) (ps : list packet) (pd : pktdec) (_ : unit) (d : evdec) : Prop :=
    exists s', r = Ok s' /\ Begins slot s' ps d /\ ed_pd d = pd.
  Definition Stop (r : res track) (e : pte) (_ : evdec) : Prop := r = Err e.

  Section ONEHEAD.
    Context (slot : nat) (s : track) (ps : list packet) (p : packet) (d : evdec).
    Hypothesis B : Begins slot s ps d.

    Lemma notes_f e : noted e = true ->
      wp (enqueue evb_psbend e) (Step slot (notes e s) ps (ed_pd d)) (Stop (notes e s)) d.
    Proof.
      intros He. eapply wp_notes; [exact B|exact He| |].
      - intros s' q' E HB. exists s'. auto.
      - intros E. exact E.
    Qed.
    Lemma hclock_f pl n f : p = mk_packet pl n -> times cf true pl f ->
      wp (timing f) (Step slot (clock cf s p) ps (ed_pd d)) (Stop (clock cf s p)) d.
    Proof.
      intros -> Htm. eapply begins_clock; [exact B|exact Htm| |].
      - intros s' t l E HB. exists s'. auto.
      - intros e t l E. exact E.
    Qed.
    Lemma hcbr_f v n : p = mk_packet (P_cbr v) n -> let r := let* s := clock cf s p in notes (status (Ev_cbr v)) s in
      wp (pt_evt_header_cbr v) (Step slot r ps (ed_pd d)) (Stop r) d.
    Proof.
      intros -> r. unfold pt_evt_header_cbr. apply wp_bind.
      eapply begins_clock; [exact B|apply (times_hcbr cf freq)| |].
      - intros s' t l E HB. subst r. rewrite E. cbn [bind].
        eapply wp_notes; [exact HB|reflexivity| |].
        + intros s2 q' E2 HB2. exists s2. auto.
        + intros E2. exact E2.
      - intros e t l E. subst r. rewrite E. reflexivity.
    Qed.
    Lemma hfup_f ip : let r := if (ip_ipc ip =? pt_ipc_suppressed)%N then Ok (with_on s false)
                               else let* s := moves_to s ip in Ok (with_on s true) in
      wp (pt_evt_header_fup ip) (Step slot r ps (ed_pd d)) (Stop r) d.
    Proof.
      intros r. unfold pt_evt_header_fup. apply wp_bind, wp_get.
      pose proof B as [(l & [HC Hh Hk Hp Hq Hn He Hb]) Hslot].
      pose proof HC as [Hpd Hw Hip Ht Hc Hon Hm Hv].
      assert (Hcf : ed_config d = cf) by apply Hpd. rewrite Hcf. destruct skip as (S0 & _). rewrite S0.
      apply wp_bind, wp_ret. apply wp_bind, wp_modify. subst r.
      destruct (ip_ipc ip =? pt_ipc_suppressed)%N; cbn [negb].
      - apply wp_ret. exists (with_on s false). split; [reflexivity|]. split; [|reflexivity].
        apply begins_on. exact B.
      - unfold wp, update_ip. cbn [ed_ip set_enabled]. rewrite Hip. unfold moves_to.
        destruct (pt_last_ip_update_ip (k_ip s) ip) as [ip' r] eqn:E. cbn [snd].
        destruct r as [[]|e|u].
        + cbn [bind]. eexists. split; [reflexivity|]. split; [|reflexivity]. split; [|exact Hslot].
          exists l. split; auto. split; auto.
          unfold k_ip, with_on, with_hw, hw_set_ip. cbn. fold (k_ip s). rewrite E. reflexivity.
        + reflexivity.
        + unfold pt_last_ip_update_ip in E.
          repeat match type of E with context [if ?b then _ else _] => destruct b end; congruence.
    Qed.
    Lemma hmode_f m n : p = mk_packet (P_mode m) n ->
      wp (pt_evt_header_mode m) (Step slot (header cf s p) ps (ed_pd d)) (Stop (header cf s p)) d.
    Proof.
      intros ->. unfold header. cbn [pkt_pl].
      pose proof B as [(l & [HC Hh Hk Hp Hq Hn He Hb]) Hslot].
      pose proof HC as [Hpd Hw Hip Ht Hc Hon Hm Hv].
      assert (Hcf : ed_config d = cf) by apply Hpd.
      unfold pt_evt_header_mode. apply wp_bind, wp_get. rewrite Hcf. cbv zeta.
      destruct m as [csl csd i|intx abrt|x].
      - set (r0 := match k_mode s with
                | Some m => if same_mode cf m (csl, csd, i) then Ok s
                            else Err pte_bad_status_update
                | None => Ok (with_mode s (Some (csl, csd, i)))
                end).
        assert (H0 : wp (if ms_valid (ed_mode d) then
             if cf_enable_iflags_events cf && negb (eqb (ms_iflag (ed_mode d)) i) then fail pte_bad_status_update
             else if negb (eqb (ms_csd (ed_mode d)) csd) then fail pte_bad_status_update
             else if negb (eqb (ms_csl (ed_mode d)) csl) then fail pte_bad_status_update
             else ret tt
           else modify (fun d => set_mode d (mk_mode true i csd csl)))
          (Step slot r0 ps (ed_pd d)) (Stop r0) d).
        { subst r0. destruct (k_mode s) as [[[csl0 csd0] i0]|] eqn:Ek; cbn [modes] in Hm.
          - destruct Hm as (-> & -> & -> & Hi). unfold same_mode.
            assert (HS : forall u, Step slot (Ok s) ps (ed_pd d) u d) by (intros u; exists s; auto).
            destruct (cf_enable_iflags_events cf); cbn [andb negb orb].
            + rewrite (Hi eq_refl). destruct csl0, csl, csd0, csd, i0, i; cbn; try reflexivity; apply (HS tt).
            + destruct csl0, csl, csd0, csd; cbn; try reflexivity; apply (HS tt).
          - rewrite Hm. apply wp_modify. eexists. split; [reflexivity|]. split; [|reflexivity].
            split; [|exact Hslot]. exists l. split; auto. split; auto. cbn. auto. }
        apply wp_bind. eapply wp_mono; [exact H0| |].
        + intros [] d1 (s1 & E1 & B1 & P1). rewrite E1. cbn [bind]. apply wp_bind.
          eapply wp_notes; [exact B1|reflexivity| |].
          * intros s2 q2 E2 B2. change (set_status_update (new_event ?x)) with (status x) in *. rewrite E2. cbn [bind].
            destruct (cf_enable_iflags_events cf).
            -- eapply wp_notes; [exact B2|reflexivity| |].
               ++ intros s3 q3 E3 B3. exists s3. auto.
               ++ intros E3. exact E3.
            -- apply wp_ret. exists s2. auto.
          * intros E2. change (set_status_update (new_event ?x)) with (status x) in *. rewrite E2. reflexivity.
        + intros e d1 E1. red in E1. rewrite E1. reflexivity.
      - apply notes_f. reflexivity.
      - apply wp_ret. exists s. auto.
    Qed.
  End ONEHEAD.
End PSB.
