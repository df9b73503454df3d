(** The events of a trace against its packets: invariants of the event decoder. *)

From Verif Require Import Base M_packet M_config M_pktdec M_lastip M_time
  M_evq M_event M_evdec S_evq S_evtrace L_evq L_evqpos L_evdec L_evq_rules.
From Coq Require Import List NArith ZArith PeanoNat Bool Lia ZifyBool ZifyNat ZifyN.
Import ListNotations.
Open Scope nat_scope.

(** * Packets *)

Lemma last_snoc ps p : last_packet (ps ++ [p]) = pkt_pl p.
Proof. unfold last_packet. rewrite rev_app_distr. reflexivity. Qed.
Lemma flows_app a b : flows (a ++ b) = flows a ++ flows b.
Proof. apply flat_map_app. Qed.
Lemma flows_one p : flows [p] = flow_of_packet p.
Proof. cbn. apply app_nil_r. Qed.
Lemma tnts_app a b : tnts (a ++ b) = tnts a ++ tnts b.
Proof. apply filter_app. Qed.
Lemma after_snoc cf ps p : hw_after cf (ps ++ [p]) = hw_step cf (hw_after cf ps) p.
Proof. unfold hw_after. rewrite fold_left_app. reflexivity. Qed.

Lemma pads_flows pads : Forall is_pad pads -> flows pads = [].
Proof.
  intros H. induction H as [|p ps Hp H IH]; [reflexivity|]. cbn [flows flat_map].
  unfold flows in IH. rewrite IH. unfold flow_of_packet. unfold is_pad in Hp. rewrite Hp. reflexivity.
Qed.
Lemma pads_after cf ps pads : Forall is_pad pads -> hw_after cf (ps ++ pads) = hw_after cf ps.
Proof.
  intros H. unfold hw_after. rewrite fold_left_app. generalize (fold_left (hw_step cf) ps hw_init).
  induction H as [|p pads Hp H IH]; intros h; [reflexivity|]. cbn [fold_left]. rewrite IH.
  unfold hw_step. unfold is_pad in Hp. rewrite Hp. reflexivity.
Qed.

Lemma prior_mono ps ps' f : prior ps f -> prior (ps ++ ps') f.
Proof. intros (a & b & -> & H). exists a, (b ++ ps'). rewrite app_assoc. auto. Qed.
Lemma prior_here ps p f : f (pkt_pl p) = true -> prior (ps ++ [p]) f.
Proof. intros H. exists (ps ++ [p]), []. rewrite app_nil_r, last_snoc. auto. Qed.

Lemma next_config pd pd' r : pt_pkt_next pd = (pd', r) -> pd_config pd' = pd_config pd.
Proof.
  unfold pt_pkt_next. destruct (pd_pos pd) as [pos|]; [|congruence].
  destruct (pt_pkt_decode _ _ _); intros H; injection H as <- _; reflexivity.
Qed.
Lemma reads_config pd ps pd' : reads pd ps pd' -> pd_config pd' = pd_config pd.
Proof.
  intros H. induction H as [|pd pd1 pd2 p ps E H IH]; [reflexivity|].
  rewrite IH. apply (next_config _ _ _ E).
Qed.

(** * Addresses *)

Lemma update_again a k b : N.lor (N.land (N.lor (N.land a k) b) k) b = N.lor (N.land a k) b.
Proof.
  apply N.bits_inj. intros n. rewrite !N.lor_spec, !N.land_spec, !N.lor_spec, !N.land_spec.
  destruct (N.testbit a n), (N.testbit k n), (N.testbit b n); reflexivity.
Qed.
Lemma update_ip_again l ip :
  fst (pt_last_ip_update_ip (fst (pt_last_ip_update_ip l ip)) ip) = fst (pt_last_ip_update_ip l ip).
Proof.
  unfold pt_last_ip_update_ip.
  repeat match goal with |- context [if ?b then _ else _] => destruct b end;
    cbn [fst li_ip li_have_ip]; rewrite ?update_again; reflexivity.
Qed.

Lemma query_err l e : pt_last_ip_query l = Err e -> e <> pte_eos.
Proof. unfold pt_last_ip_query. intros H. destruct (li_have_ip l), (li_suppressed l); cbn in H; congruence. Qed.

(** * Timing *)

Lemma apply_ok t cal upd t' l' : apply_timing t cal upd = (t', l', Ok tt) ->
  l' = fst cal /\ t' = fst (upd (fst cal)).
Proof.
  unfold apply_timing. destruct cal as [l r]. cbn [fst].
  destruct (ignore_config r); [|congruence..]. destruct (upd l) as [t1 r1]. cbn [fst].
  intros H. injection H as <- <- _. auto.
Qed.
Lemma ignore_err r e : ignore_config r = Err e -> r = Err e.
Proof. destruct r as [|[]|]; cbn; congruence. Qed.
Lemma apply_err t cal upd t' l' e : apply_timing t cal upd = (t', l', Err e) ->
  snd cal = Err e \/ exists l, snd (upd l) = Err e.
Proof.
  unfold apply_timing. destruct cal as [l r]. cbn [snd].
  destruct (ignore_config r) as [u|e1|] eqn:Er; [| |congruence].
  - destruct (upd l) as [t1 r1] eqn:Eu. intros H. injection H as _ _ H. right. exists l.
    rewrite Eu. cbn. apply ignore_err. exact H.
  - intros H. injection H as _ _ <-. left. apply ignore_err. exact Er.
Qed.

Definition not_eos {A} (r : res A) : Prop := r <> Err pte_eos.
Lemma bind_eos {A B} (r : res A) (k : A -> res B) : not_eos r -> (forall a, not_eos (k a)) ->
  not_eos (bind r k).
Proof. intros H1 H2. unfold not_eos in *. destruct r; cbn; auto; congruence. Qed.
Lemma shl32_eos v n : not_eos (shl32 v n).
Proof. unfold shl32, not_eos. destruct (_ <=? _)%N; discriminate. Qed.
Lemma div64_eos v n : not_eos (div64 v n).
Proof. unfold div64, not_eos. destruct (_ =? _)%N; discriminate. Qed.
Lemma ctc_delta_eos a b c : not_eos (pt_time_ctc_delta a b c).
Proof.
  unfold pt_time_ctc_delta. destruct (_ <? _)%N; [|discriminate].
  apply bind_eos; [apply shl32_eos|]. intros w. destruct (_ <? _)%N; discriminate.
Qed.
Lemma ctc_fc_eos a c : not_eos (pt_time_ctc_fc a c).
Proof. unfold pt_time_ctc_fc. destruct (_ || _); [discriminate|apply div64_eos]. Qed.

Ltac eos_case :=
  match goal with
  | |- context [match ?r with Ok _ => _ | Err _ => _ | UB _ => _ end] =>
      let E := fresh "E" in
      assert (E : not_eos r) by first [apply shl32_eos | apply div64_eos | apply ctc_delta_eos | apply ctc_fc_eos];
      destruct r as [?|?|?]; cbn [snd]
  | |- context [if ?b then _ else _] => destruct b; cbn [snd]
  end.
Ltac eos_done := first [discriminate | unfold not_eos in *; congruence].

Lemma time_tsc_eos t v : not_eos (snd (pt_time_update_tsc t v)).
Proof. discriminate. Qed.
Lemma time_cbr_eos t v : not_eos (snd (pt_time_update_cbr t v)).
Proof. unfold pt_time_update_cbr. destruct (_ =? _)%N; discriminate. Qed.
Lemma time_tma_eos t a b c : not_eos (snd (pt_time_update_tma t a b c)).
Proof. unfold pt_time_update_tma. cbv zeta. repeat eos_case; eos_done. Qed.
Lemma last_ctc_eos a b c : not_eos (mtc_last_ctc a b c).
Proof.
  unfold mtc_last_ctc. cbv zeta. destruct (truth _); [discriminate|].
  apply bind_eos; [|discriminate]. destruct (_ <? _)%N; [|discriminate].
  apply bind_eos; [apply shl32_eos|discriminate].
Qed.
Lemma time_mtc_eos t v c : not_eos (snd (pt_time_update_mtc t v c)).
Proof.
  unfold pt_time_update_mtc. cbv zeta. destruct (_ && _); [discriminate|].
  eos_case; [|eos_done..]. destruct (negb (tm_have_mtc t) && _); [discriminate|].
  assert (E1 : not_eos (if negb (tm_have_mtc t) then mtc_last_ctc a (tm_ctc t) c else Ok (tm_ctc t)))
    by (destruct (negb _); [apply last_ctc_eos|discriminate]).
  destruct (if negb (tm_have_mtc t) then _ else _); cbn [snd]; [|eos_done..].
  repeat eos_case; eos_done.
Qed.
Lemma time_cyc_eos t v c f : not_eos (snd (pt_time_update_cyc t v c f)).
Proof.
  unfold pt_time_update_cyc. destruct (f =? 0)%N; [discriminate|].
  assert (E1 : not_eos (if (tm_fc t =? 0)%N then pt_time_adjust_cyc v t c f else Ok v)).
  { destruct (_ =? _)%N; [|discriminate]. unfold pt_time_adjust_cyc.
    destruct (_ =? _)%N; [discriminate|]. cbv zeta. destruct (_ =? _)%N; [discriminate|].
    apply bind_eos; [apply ctc_delta_eos|]. intros x. apply bind_eos; [apply ctc_fc_eos|].
    intros y. apply bind_eos; [apply div64_eos|discriminate]. }
  destruct (if (tm_fc t =? 0)%N then _ else _); cbn [snd]; eos_done.
Qed.
Lemma cal_htsc_eos l v : not_eos (snd (pt_tcal_header_tsc l v)).
Proof. unfold pt_tcal_header_tsc. cbv zeta. repeat eos_case; eos_done. Qed.
Lemma cal_hcbr_eos l v c : not_eos (snd (pt_tcal_header_cbr l v c)).
Proof. unfold pt_tcal_header_cbr. cbv zeta. repeat eos_case; eos_done. Qed.
Lemma cal_mtc_eos l v c : not_eos (snd (pt_tcal_update_mtc l v c)).
Proof.
  unfold pt_tcal_update_mtc. cbv zeta. eos_case; [|eos_done..].
  destruct (negb _); [discriminate|]. destruct (_ =? _)%N; [discriminate|].
  eos_case; [|eos_done..]. eos_case; [|eos_done..]. destruct (fcr_overflow _); [discriminate|].
  eos_case; [|eos_done..].
  match goal with |- context [match ?r with Ok _ => _ | Err _ => _ | UB _ => _ end] =>
    assert (E3 : not_eos r) end.
  { destruct (tl_check_skl168 l); [|discriminate]. unfold skl168_lost.
    apply bind_eos; [apply shl32_eos|]. intros x. destruct (_ <? _)%N; [discriminate|].
    destruct (_ && _); discriminate. }
  match goal with |- context [match ?r with Ok _ => _ | Err _ => _ | UB _ => _ end] =>
    destruct r as [[|]|?|?] end; cbn [snd]; eos_done.
Qed.

(** A timing function: where it leads, and that its errors are not the end. *)
Definition steps_to (cf : config) (psb : bool) (p : payload)
           (f : config -> time -> tcal -> time * tcal * res unit) : Prop :=
  forall t l t' l' r, f cf t l = (t', l', r) ->
    r <> Err pte_eos /\
    (r = Ok tt -> forall ip,
       hw_step cf (mk_hw psb ip t l) (mk_packet p 0) = mk_hw psb ip t' l').

Lemma steps_apply cf psb p f cal upd :
  (forall t l, f cf t l = apply_timing t (cal l) (upd t)) ->
  (forall l, not_eos (snd (cal l))) -> (forall t l, not_eos (snd (upd t l))) ->
  (forall t l ip, hw_step cf (mk_hw psb ip t l) (mk_packet p 0) =
     mk_hw psb ip (fst (upd t (fst (cal l)))) (fst (cal l))) ->
  steps_to cf psb p f.
Proof.
  intros Hf Hc Hu Hh t l t' l' r E. rewrite Hf in E. split.
  - intros ->. apply apply_err in E. destruct E as [E|[l1 E]]; [apply (Hc l E)|apply (Hu t l1 E)].
  - intros -> ip. apply apply_ok in E. destruct E as [-> ->]. apply Hh.
Qed.

Lemma steps_tsc cf v : steps_to cf false (P_tsc v) (fun _ t l => pt_evt_apply_tsc t l v).
Proof.
  apply (steps_apply _ _ _ _ (fun l => pt_tcal_update_tsc l v) (fun t _ => pt_time_update_tsc t v));
    [reflexivity|discriminate|discriminate|reflexivity].
Qed.
Lemma steps_htsc cf v : steps_to cf true (P_tsc v) (fun _ t l => pt_evt_apply_header_tsc t l v).
Proof.
  apply (steps_apply _ _ _ _ (fun l => pt_tcal_header_tsc l v) (fun t _ => pt_time_update_tsc t v));
    [reflexivity|intros; apply cal_htsc_eos|discriminate|reflexivity].
Qed.
Lemma steps_cbr cf v : steps_to cf false (P_cbr v) (fun c t l => pt_evt_apply_cbr c t l v).
Proof.
  apply (steps_apply _ _ _ _ (fun l => pt_tcal_update_cbr l v cf) (fun t _ => pt_time_update_cbr t v));
    [reflexivity|intros; apply cal_hcbr_eos|intros; apply time_cbr_eos|reflexivity].
Qed.
Lemma steps_hcbr cf v : steps_to cf true (P_cbr v) (fun c t l => pt_evt_apply_header_cbr c t l v).
Proof.
  apply (steps_apply _ _ _ _ (fun l => pt_tcal_header_cbr l v cf) (fun t _ => pt_time_update_cbr t v));
    [reflexivity|intros; apply cal_hcbr_eos|intros; apply time_cbr_eos|reflexivity].
Qed.
Lemma steps_tma cf b x y : steps_to cf b (P_tma x y) (fun c t l => pt_evt_apply_tma c t l x y).
Proof.
  apply (steps_apply _ _ _ _ (fun l => pt_tcal_update_tma l) (fun t _ => pt_time_update_tma t x y cf));
    [reflexivity|discriminate|intros; apply time_tma_eos|reflexivity].
Qed.
Lemma steps_mtc cf b x : steps_to cf b (P_mtc x) (fun c t l => pt_evt_apply_mtc c t l x).
Proof.
  apply (steps_apply _ _ _ _ (fun l => pt_tcal_update_mtc l x cf) (fun t _ => pt_time_update_mtc t x cf));
    [reflexivity|intros; apply cal_mtc_eos|intros; apply time_mtc_eos|reflexivity].
Qed.
Lemma steps_cyc cf b x : steps_to cf b (P_cyc x) (fun c t l => pt_evt_apply_cyc c t l x).
Proof.
  apply (steps_apply _ _ _ _ (fun l => pt_tcal_update_cyc l x)
           (fun t l => match pt_tcal_fcr l with
              | Ok fcr => pt_time_update_cyc t x cf fcr
              | Err pte_no_time => pt_time_update_cyc t x cf 0
              | Err e => (t, Err e)
              | UB u => (t, UB u)
              end));
    [reflexivity|discriminate| |].
  - intros t l. unfold pt_tcal_fcr. destruct (pt_tcal_have_fcr l); apply time_cyc_eos.
  - intros t l ip. cbn [hw_step pkt_pl h_psb h_ip h_time h_cal]. unfold pt_tcal_fcr.
    destruct (pt_tcal_have_fcr _); reflexivity.
Qed.

(** * Events *)

Lemma event_time_var t e : ev_var (event_time t e) = ev_var e.
Proof. reflexivity. Qed.
Lemma event_time_sup t e : ev_ip_suppressed (event_time t e) = ev_ip_suppressed e.
Proof. reflexivity. Qed.
Lemma event_time_status t e : ev_status_update (event_time t e) = ev_status_update e.
Proof. reflexivity. Qed.
Lemma event_time_has t e : ev_has_tsc e = false -> has_time t (event_time t e).
Proof.
  intros H. unfold has_time, event_time, pt_time_query_tsc. cbn. rewrite H.
  destruct (tm_have_tsc t); auto.
Qed.

(** Setting the address keeps all the rest. *)
Definition same_but_ip (v v' : evar) : Prop := var_set_ip v 0 = var_set_ip v' 0.
Lemma var_set_same v ip : same_but_ip (var_set_ip v ip) v.
Proof. destruct v; reflexivity. Qed.
Lemma event_ip_var l e : exists ip, ev_var (event_ip l e) = var_set_ip (ev_var e) ip.
Proof. unfold event_ip. destruct (pt_last_ip_query l); eexists; reflexivity. Qed.
Lemma event_ip_address l e ip : ev_ip_suppressed (event_ip l e) = false ->
  address (ev_var (event_ip l e)) = Some ip -> address (ev_var e) <> None ->
  pt_last_ip_query l = Ok ip.
Proof.
  unfold event_ip. destruct (pt_last_ip_query l) as [a|x|u]; cbn [ev_var set_var set_suppressed];
    [|discriminate..].
  intros _ H Hn. destruct (ev_var e); cbn in *; congruence.
Qed.
Lemma event_ip_rest l e : ev_has_tsc (event_ip l e) = ev_has_tsc e /\
  ev_status_update (event_ip l e) = ev_status_update e /\ ev_tsc (event_ip l e) = ev_tsc e /\
  ev_lost_mtc (event_ip l e) = ev_lost_mtc e /\ ev_lost_cyc (event_ip l e) = ev_lost_cyc e.
Proof. unfold event_ip. destruct (pt_last_ip_query l); repeat split. Qed.

Lemma pieces_ip v ip : pieces (var_set_ip v ip) = pieces v.
Proof. destruct v; reflexivity. Qed.
Lemma source_ip v ip : source (var_set_ip v ip) = source v.
Proof. destruct v; reflexivity. Qed.
Lemma overflow_ip v ip : is_overflow (var_set_ip v ip) = is_overflow v.
Proof. destruct v; reflexivity. Qed.

(** * Invariants *)

Section TRACE.
  Context (cf : config) (pd0 : pktdec).
  Hypothesis conf : pd_config pd0 = cf.

  Let strict : Prop := no_skipping cf.

  Definition sourced (ps : list packet) (ip : N) : Prop :=
    exists ps1 ps2, ps = ps1 ++ ps2 /\ is_fup (last_packet ps1) = true /\
      pt_last_ip_query (h_ip (hw_after cf ps1)) = Ok ip.
  Definition timed (ps : list packet) (e : event) : Prop :=
    exists ps1 ps2, ps = ps1 ++ ps2 /\ is_ovf (last_packet ps1) = true /\
      has_time (h_time (hw_after cf ps1)) e.

  Definition cfe_piece (ps : list packet) (v : evar) : Prop :=
    match v with
    | Ev_interrupt _ cr2 _ => Forall (prior ps) (of_evd_opt pt_evd_cr2 cr2)
    | Ev_vmexit vec r q _ => vec = None /\
        Forall (prior ps) (of_evd_opt pt_evd_vmxr r ++ of_evd_opt pt_evd_vmxq q)
    | _ => False
    end.

  (** Queued events have no time yet, and are no branches other than asynchronous ones. *)
  Definition PF (ps : list packet) (b : N) (e : event) : Prop :=
    (flow_of_event e = [] \/ is_async_branch e = true) /\
    match ev_var e with
    | Ev_enabled _ _ => ev_status_update e = true
    | Ev_disabled _ => ev_status_update e = true /\ ev_ip_suppressed e = true
    | _ => True
    end /\
    (if is_overflow (ev_var e) then timed ps e else ev_has_tsc e = false) /\
    (forall ip, source (ev_var e) = Some ip -> sourced ps ip) /\
    (if (b =? evb_cfe)%N then cfe_piece ps (ev_var e) else Forall (prior ps) (pieces (ev_var e))).

  Definition no_tnt (e : event) : bool := match ev_var e with Ev_tnt _ _ => false | _ => true end.
  Definition P (ps : list packet) (b : N) (e : event) : Prop := no_tnt e = true /\ (strict -> PF ps b e).

  Lemma P_mono ps ps' b e : P ps b e -> P (ps ++ ps') b e.
  Proof.
    intros (H1 & H2). split; [exact H1|]. intros S. destruct (H2 S) as (F1 & F2 & F3 & F4 & F5).
    split; [exact F1|]. split; [exact F2|]. split; [|split].
    - destruct (is_overflow _); [|exact F3]. destruct F3 as (a & c & -> & G). exists a, (c ++ ps').
      rewrite app_assoc. auto.
    - intros ip E. destruct (F4 ip E) as (a & c & -> & G). exists a, (c ++ ps'). rewrite app_assoc. auto.
    - assert (Hm : forall l, Forall (prior ps) l -> Forall (prior (ps ++ ps')) l).
      { intros l. apply Forall_impl. intros f. apply prior_mono. }
      destruct (b =? evb_cfe)%N; [|apply Hm; exact F5].
      destruct (ev_var e); cbn in *; try exact F5; [apply Hm; exact F5|].
      split; [apply F5|apply Hm; apply F5].
  Qed.
  Lemma queued_more ps ps' q : queued (P ps) q -> queued (P (ps ++ ps')) q.
  Proof. apply queued_mono. intros b e. apply P_mono. Qed.
  Lemma inq_more ps ps' q i b e : inq (P ps) q i b e -> inq (P (ps ++ ps')) q i b e.
  Proof. apply inq_mono. intros b' e'. apply P_mono. Qed.

  Definition ipp (p : payload) : bool :=
    match p with P_fup _ | P_tip _ | P_tip_pge _ | P_tip_pgd _ => true | _ => false end.
  Definition psb_end (p : payload) : bool := match p with P_psbend | P_ovf => true | _ => false end.
  Definition stat (d : evdec) : Prop := ed_status d = None \/ ed_status d = Some pte_nosync.
  Definition HW (h : hw) (d : evdec) : Prop :=
    ed_ip d = h_ip h /\ ed_time d = h_time h /\ ed_tcal d = h_cal h.

  (** The packet [p] was read after [ps]; it is being decoded, maybe again. *)
  Definition Here (fs : list flow) (ps : list packet) (p : packet) (d : evdec) : Prop :=
    reads pd0 (ps ++ [p]) (ed_pd d) /\ ed_pkt d = p /\ queued (P (ps ++ [p])) (ed_evq d) /\
    tnts fs = tnts (flows ps) /\
    (strict ->
       stat d /\
       ed_time d = h_time (hw_after cf ps) /\ ed_tcal d = h_cal (hw_after cf ps) /\
       (ed_ip d = h_ip (hw_after cf ps) \/
        ipp (pkt_pl p) = true /\ ed_ip d = h_ip (hw_after cf (ps ++ [p]))) /\
       (h_psb (hw_after cf ps) = true -> psb_end (pkt_pl p) = true) /\
       (if ed_bound d then ipp (pkt_pl p) = true /\ fs = flows (ps ++ [p]) else fs = flows ps)).

  (** All of [ps] is done. *)
  Definition Done (fs : list flow) (ps : list packet) (d : evdec) : Prop :=
    reads pd0 ps (ed_pd d) /\ queued (P ps) (ed_evq d) /\ tnts fs = tnts (flows ps) /\
    (strict -> stat d /\ HW (hw_after cf ps) d /\ h_psb (hw_after cf ps) = false /\ fs = flows ps).

  (** There is nothing after [ps]. *)
  Definition Dead (fs : list flow) (ps : list packet) (d : evdec) : Prop :=
    reads pd0 ps (ed_pd d) /\ pkt_pl (ed_pkt d) = P_invalid /\
    (exists e, ed_status d = Some e /\ snd (pt_pkt_next (ed_pd d)) = Err e) /\
    tnts fs = tnts (flows ps) /\ (strict -> fs = flows ps).

  Definition Live (fs : list flow) (ps : list packet) (d : evdec) : Prop :=
    exists more, Dead fs (ps ++ more) d \/
      exists ps0 p, ps ++ more = ps0 ++ [p] /\ Here fs ps0 p d.

  Definition Pub (d : evdec) (e : event) : Prop :=
    (ed_event d = Some Alone /\ ed_alone d = e) \/
    (exists i, ed_event d = Some (Slot i) /\ held (ed_evq d) i e).

  (** An event was delivered after [ps]. *)
  Definition Out (fs : list flow) (ps : list packet) (e : event) (d : evdec) : Prop :=
    Pub d e /\ tnts (fs ++ flow_of_event e) = tnts (flows ps) /\
    (strict -> stamped cf ps e /\ fs ++ flow_of_event e = flows ps) /\
    Live (fs ++ flow_of_event e) ps d.

  Definition Post (fs : list flow) (ps : list packet) (more : bool) (d : evdec) : Prop :=
    if more then exists m, Done fs (ps ++ m) d else exists m e, Out fs (ps ++ m) e d.

  Definition Failed (fs : list flow) (e : pte) (d : evdec) : Prop :=
    strict -> e <> pte_eos \/
      exists ps, reads pd0 ps (ed_pd d) /\ snd (pt_pkt_next (ed_pd d)) = Err e /\ fs = flows ps.

  Lemma failed fs e d : e <> pte_eos -> Failed fs e d.
  Proof. intros H _. left. exact H. Qed.

  Lemma config_is ps d : reads pd0 ps (ed_pd d) -> ed_config d = cf.
  Proof. intros H. unfold ed_config. rewrite (reads_config _ _ _ H). exact conf. Qed.

  Lemma prefix_here fs ps p d : Here fs ps p d -> Live fs (ps ++ [p]) d.
  Proof. intros H. exists []. right. exists ps, p. rewrite app_nil_r. auto. Qed.

  (** ** Fetching the next packet *)

  Lemma fetch_live fs ps d (Q : bool -> evdec -> Prop) F :
    Done fs ps d -> (strict -> ed_bound d = false) ->
    (forall d', Live fs ps d' -> ed_event d' = ed_event d -> ed_alone d' = ed_alone d ->
       ed_evq d' = ed_evq d -> Q false d') ->
    pwp pt_evt_fetch_packet Q F d.
  Proof.
    intros (Hr & Hq & Ht & Hs) Hb HQ. apply p_fetch.
    - intros pads p pd' H1 H2 H3. apply HQ; try reflexivity. exists (pads ++ [p]). right.
      exists (ps ++ pads), p. split; [apply app_assoc|].
      split; [rewrite <- app_assoc; apply (reads_app _ _ _ _ _ Hr H1)|].
      split; [reflexivity|]. split; [rewrite <- app_assoc; apply queued_more; exact Hq|].
      split; [rewrite flows_app, (pads_flows _ H2), app_nil_r; exact Ht|].
      intros S. destruct (Hs S) as (S1 & (S2 & S3 & S4) & S5 & S6).
      rewrite (pads_after _ _ _ H2). cbn [ed_status ed_time ed_tcal ed_ip ed_bound set_pkt set_pd].
      rewrite (Hb S). split; [exact S1|]. split; [exact S3|]. split; [exact S4|].
      split; [left; exact S2|]. split; [congruence|].
      rewrite flows_app, (pads_flows _ H2), app_nil_r. exact S6.
    - intros pads e pd' H1 H2 H3. apply HQ; try reflexivity. exists pads. left.
      split; [apply (reads_app _ _ _ _ _ Hr H1)|]. split; [reflexivity|].
      split; [exists e; split; [reflexivity|]; cbn [ed_pd set_status set_pkt set_pd]; rewrite H3; reflexivity|].
      rewrite flows_app, (pads_flows _ H2), app_nil_r. split; [exact Ht|].
      intros S. destruct (Hs S) as (_ & _ & _ & S6). exact S6.
  Qed.

  (** A published event, with a following fetch. *)
  Lemma fetch_out fs ps e d F :
    Done (fs ++ flow_of_event e) ps d -> (strict -> ed_bound d = false) -> Pub d e ->
    (strict -> stamped cf ps e) ->
    pwp pt_evt_fetch_packet (fun more d' => more = false /\ Out fs ps e d') F d.
  Proof.
    intros H Hb Hp Hst. apply (fetch_live _ _ _ _ _ H Hb).
    intros d' HL E1 E2 E3. split; [reflexivity|].
    destruct H as (Hr & Hq & Ht & Hs). split; [|split; [exact Ht|split; [|exact HL]]].
    - unfold Pub in *. rewrite E1, E2, E3. exact Hp.
    - intros S. destruct (Hs S) as (_ & _ & _ & S6). auto.
  Qed.

  (** ** Queue entries *)

  Definition plain_var (v : evar) : bool :=
    match v with
    | Ev_enabled _ _ | Ev_disabled _ | Ev_async_disabled _ _ | Ev_async_branch _ _ | Ev_overflow _
    | Ev_tip _ | Ev_tnt _ _ => false
    | _ => true
    end.
  Lemma P_plain ps b e : plain_var (ev_var e) = true -> (strict -> ev_has_tsc e = false) ->
    (b =? evb_cfe)%N = false -> (strict -> Forall (prior ps) (pieces (ev_var e))) -> P ps b e.
  Proof.
    intros H1 H2 H3 H4. split; [unfold no_tnt; destruct (ev_var e); auto; discriminate|].
    intros S. specialize (H2 S). unfold PF, flow_of_event. rewrite H3.
    split; [left; destruct (ev_var e); auto; discriminate|].
    split; [destruct (ev_var e); auto; discriminate|].
    split; [destruct (ev_var e); auto; discriminate|].
    split; [destruct (ev_var e); intros a E; cbn in *; discriminate|]. auto.
  Qed.

  (** ** Standalone events *)

  Definition quiet (e : event) (p : payload) : bool :=
    ev_ip_suppressed e || counted_trigger (ev_var e) p ||
    match address (ev_var e) with None => true | Some _ => false end.

  Lemma stamped_quiet ps p e t : quiet e (pkt_pl p) = true -> ev_has_tsc e = false ->
    source (ev_var e) = None ->
    t = h_time (hw_after cf (ps ++ [p])) -> (is_overflow (ev_var e) = true -> pkt_pl p = P_ovf) ->
    bears e (pkt_pl p) = true -> Forall (prior (ps ++ [p])) (pieces (ev_var e)) ->
    stamped cf (ps ++ [p]) (event_time t e).
  Proof.
    intros H1 H2 H3 -> H4 H5 H6. unfold stamped. rewrite event_time_var, event_time_sup, last_snoc.
    assert (Ht : has_time (h_time (hw_after cf (ps ++ [p]))) (event_time (h_time (hw_after cf (ps ++ [p]))) e))
      by (apply event_time_has; exact H2).
    split; [exact H5|]. split; [exact H6|]. split; [auto|]. split; [|split].
    - intros Ho. exists (ps ++ [p]), []. rewrite app_nil_r, last_snoc, (H4 Ho). auto.
    - intros ip G1 G2 G3. unfold quiet in H1. rewrite G1, G2, G3 in H1. discriminate.
    - intros ip G. congruence.
  Qed.

  Lemma now_out fs ps p e d F :
    Done (fs ++ flow_of_event e) (ps ++ [p]) d -> (strict -> ed_bound d = false) ->
    quiet e (pkt_pl p) = true -> ev_has_tsc e = false -> source (ev_var e) = None ->
    (is_overflow (ev_var e) = true -> pkt_pl p = P_ovf) ->
    (strict -> bears e (pkt_pl p) = true) ->
    (strict -> Forall (prior (ps ++ [p])) (pieces (ev_var e))) ->
    pwp (standalone_now e) (Post fs (ps ++ [p])) F d.
  Proof.
    intros H Hb H1 H2 H3 H4 H5 H6. unfold standalone_now.
    apply p_bind, p_get, p_bind, p_standalone.
    pose proof H as (Hr & Hq & Ht & Hs).
    eapply p_mono; [apply (fetch_out fs (ps ++ [p]) (event_time (ed_time d) e))| |].
    - exact H.
    - exact Hb.
    - left. split; reflexivity.
    - intros S. destruct (Hs S) as (_ & (_ & S2 & _) & _). apply stamped_quiet; auto.
    - intros more d' (-> & HO). exists [], (event_time (ed_time d) e). rewrite app_nil_r. exact HO.
    - intros e' d' HF. exact HF.
  Qed.
End TRACE.
