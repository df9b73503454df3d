(** C49, C50: what the events of a trace say is what the packets say. *)

From Verif Require Import Base M_packet M_config M_pktdec M_sync M_lastip M_time
  M_evq M_event M_evdec S_sync S_evdec S_evtrace L_evq_rules L_evtrace L_tntsize
  L_evtrace4 L_evtrace5 L_evdec L_packet T_evdec.
From Coq Require Import List NArith ZArith PeanoNat Bool Lia.
Import ListNotations.
Open Scope nat_scope.

(** ** Synchronisation *)

Lemma set_sync_at pd s : set_sync pd s = synced_at (pd_config pd) (pd_buf pd) (N.of_nat s).
Proof. unfold set_sync, synced_at. rewrite Nat2N.id. reflexivity. Qed.

Lemma reads_keep pd ps pd' : reads pd ps pd' ->
  pd_sync pd' = pd_sync pd /\ pd_buf pd' = pd_buf pd /\ pd_config pd' = pd_config pd.
Proof.
  induction 1 as [|pd pd1 pd2 p ps E _ (IH1 & IH2 & IH3)]; [auto|]. rewrite IH1, IH2, IH3.
  unfold pt_pkt_next in E. destruct (pd_pos pd); [|discriminate].
  destruct (pt_pkt_decode _ _ _); try discriminate. injection E as <- _. auto.
Qed.

Definition begun (d : evdec) : Prop :=
  exists s, pt_evt_get_sync_offset d = Ok s /\
    Live (ed_config d) (synced_at (ed_config d) (pd_buf (ed_pd d)) s) [] [] d.

Lemma live_reads cf pd0 fs ps d : Live cf pd0 fs ps d -> exists qs, reads pd0 qs (ed_pd d).
Proof.
  intros (m & [H|(ps0 & p & _ & H)]); [exists (ps ++ m); apply H|exists (ps0 ++ [p]); apply H].
Qed.

Lemma start_begun d s cf buf d' : ed_pd d = synced_at cf buf s -> ed_evq d = pt_evq_init zero_event ->
  ed_ip d = pt_last_ip_init -> ed_time d = pt_time_init -> ed_tcal d = pt_tcal_init ->
  ed_bound d = false -> pt_evt_start d = (d', Ok tt) -> begun d'.
Proof.
  intros E1 E2 E3 E4 E5 E6 E. pose proof (start_t cf (synced_at cf buf s) eq_refl d E1 E2 E3 E4 E5 E6) as H.
  unfold pwp in H. rewrite E in H.
  destruct (live_reads _ _ _ _ _ H) as (qs & Hq). apply reads_keep in Hq. destruct Hq as (Hq1 & Hq2 & Hq3).
  exists s. unfold ed_config. rewrite Hq2, Hq3. cbn [synced_at pd_buf pd_config]. split; [|exact H].
  unfold pt_evt_get_sync_offset, pt_pkt_get_sync_offset. rewrite Hq1. cbn [synced_at pd_sync].
  rewrite N2Nat.id. reflexivity.
Qed.

Lemma inner_begun fuel : forall base sync d d', backward_inner fuel base sync d = (d', Ok tt) ->
  exists s, d' = set_pd d (synced_at (pd_config (ed_pd d)) (pd_buf (ed_pd d)) s).
Proof.
  induction fuel as [|fuel IH]; intros base sync d d'; cbn [backward_inner]; [discriminate|].
  unfold sbind, with_pd, get. unfold pt_pkt_sync_backward.
  destruct (pt_sync_backward _ _ _) as [s|e|u]; try discriminate. rewrite set_sync_at. cbn [fst snd].
  destruct (Nat.leb sync _).
  - intros E. destruct (IH _ _ _ _ E) as (s2 & ->). exists s2. destruct d. reflexivity.
  - intros E. injection E as <-. eauto.
Qed.

Lemma outer_begun fuel : forall base start sync d d',
  backward_outer fuel base start sync d = (d', Ok tt) -> begun d'.
Proof.
  induction fuel as [|fuel IH]; intros base start sync d d'; cbn [backward_outer]; [discriminate|].
  unfold sbind, modify, get.
  destruct (backward_inner (S fuel) base sync (pt_evt_reset d)) as [d1 [[]|e|u]] eqn:Ei; try discriminate.
  destruct (inner_begun _ _ _ _ _ Ei) as (s & E1).
  destruct (pt_evt_start d1) as [d2 r] eqn:Es.
  assert (Hgo : r = Ok tt -> begun d2).
  { intros ->. revert Es. subst d1. apply start_begun with (s := s) (cf := ed_config d) (buf := pd_buf (ed_pd d));
      reflexivity. }
  destruct r as [[]|e|u]; [| |discriminate]; (destruct (Nat.ltb _ _); [|apply IH]).
  - intros E. injection E as <-. apply Hgo. reflexivity.
  - discriminate.
Qed.

Lemma sync_begun base d o d' : evt_step base d o = (d', Ok None) -> begun d'.
Proof.
  destruct o as [|n|off|]; cbn [evt_step].
  - unfold pt_evt_sync_forward, sbind, modify, with_pd. unfold pt_pkt_sync_forward.
    destruct (pt_sync_forward _ _ _) as [s|e|u]; try discriminate. rewrite set_sync_at.
    destruct (pt_evt_start _) as [d2 [[]|e|u]] eqn:Es; try discriminate. cbn [fst snd].
    intros E. injection E as <-. revert Es. eapply start_begun; reflexivity.
  - unfold pt_evt_sync_backward, sbind, get.
    destruct (backward_outer _ _ _ _ _) as [d2 [[]|e|u]] eqn:Es; try discriminate. cbn [fst snd].
    intros E. injection E as <-. apply (outer_begun _ _ _ _ _ _ Es).
  - unfold pt_evt_sync_set, sbind, modify, with_pd. unfold pt_pkt_sync_set.
    destruct (_ <? _)%N; try discriminate. cbv zeta.
    destruct (pt_evt_start _) as [d2 [[]|e|u]] eqn:Es; try discriminate. cbn [fst snd].
    intros E. injection E as <-. revert Es.
    eapply start_begun with (s := off); reflexivity.
  - destruct (pt_evt_next d) as [d2 [e|e|u]]; discriminate.
Qed.

(** ** Runs *)

Lemma live_readable cf pd0 fs ps d : Live cf pd0 fs ps d -> readable pd0 ps.
Proof.
  intros (m & H).
  assert (Hr : exists pd', reads pd0 (ps ++ m) pd').
  { destruct H as [H|(ps0 & p & -> & H)]; eexists; apply H. }
  destruct Hr as (pd' & Hr). clear H d. revert m pd' Hr. induction ps as [|p ps IH] using rev_ind.
  - intros. exists pd0. constructor.
  - clear IH. intros m pd' Hr. remember (ps ++ [p]) as qs eqn:E. clear E ps p.
    revert pd0 Hr. induction qs as [|q qs IH]; intros pd0 Hr; [exists pd0; constructor|].
    cbn [app] in Hr. inversion Hr as [|? pd1 ? ? ? H1 H2]; subst.
    destruct (IH pd1 H2) as (pd2 & H3). exists pd2. econstructor; eassumption.
Qed.

Lemma run_live cf pd0 : pd_config pd0 = cf -> forall d evs d', returns d evs d' ->
  forall fs ps, Live cf pd0 fs ps d -> tnts fs = tnts (flows ps) ->
  (no_skipping cf -> fs = flows ps) ->
  exists ps', readable pd0 ps' /\ Live cf pd0 (fs ++ flat_map flow_of_event evs) ps' d' /\
    tnts (fs ++ flat_map flow_of_event evs) = tnts (flows ps') /\
    (no_skipping cf -> explained cf pd0 fs ps evs /\ fs ++ flat_map flow_of_event evs = flows ps').
Proof.
  intros Hc d evs d' H. induction H as [d|d e d1 evs d2 En _ IH]; intros fs ps HL Ht Hf.
  - exists ps. cbn [flat_map]. rewrite app_nil_r. split; [apply (live_readable _ _ _ _ _ HL)|].
    split; [exact HL|]. split; [exact Ht|]. intros S. split; [constructor|auto].
  - pose proof (next_t cf pd0 Hc fs ps d HL) as H. unfold pwp in H. rewrite En in H.
    destruct H as (m & H1 & H2 & H3). destruct (IH _ _ H1 H2) as (ps' & G1 & G2 & G3 & G4).
    { intros S. apply (H3 S). }
    exists ps'. cbn [flat_map]. rewrite app_assoc. split; [exact G1|]. split; [exact G2|].
    split; [exact G3|]. intros S. destruct (H3 S) as (H4 & H5). destruct (G4 S) as (G5 & G6).
    split; [|exact G6]. econstructor; eauto. apply (live_readable _ _ _ _ _ H1).
Qed.

(** C49: after a successful synchronisation, the events that pt_evt_next() delivers
    contain every conditional branch of the packets up to some place, exactly once and
    in order; and no others.  Without errata that make the decoder skip packets, the same
    holds for indirect branches (including asynchronous ones) and for enabling. *)
Theorem C49_control_flow : forall base d0 o d evs d',
  evt_step base d0 o = (d, Ok None) -> returns d evs d' ->
  exists offset ps, pt_evt_get_sync_offset d = Ok offset /\
    readable (synced_at (ed_config d) (pd_buf (ed_pd d)) offset) ps /\
    tnts (flat_map flow_of_event evs) = tnts (flows ps) /\
    (no_skipping (ed_config d) -> flat_map flow_of_event evs = flows ps).
Proof.
  intros base d0 o d evs d' Hs He. destruct (sync_begun _ _ _ _ Hs) as (s & E & HL).
  edestruct run_live as (ps & G1 & _ & G3 & G4); [|exact He|exact HL| | |]; try reflexivity.
  exists s, ps. split; [exact E|]. split; [exact G1|]. split; [exact G3|]. intros S. apply (G4 S).
Qed.
Print Assumptions C49_control_flow.

(** At the end of the trace nothing is missing. *)
Theorem C49_end : forall base d0 o d evs d' d'',
  evt_step base d0 o = (d, Ok None) -> returns d evs d' ->
  pt_evt_next d' = (d'', Err pte_eos) -> no_skipping (ed_config d) ->
  exists offset ps pd, pt_evt_get_sync_offset d = Ok offset /\
    reads (synced_at (ed_config d) (pd_buf (ed_pd d)) offset) ps pd /\
    snd (pt_pkt_next pd) = Err pte_eos /\ flat_map flow_of_event evs = flows ps.
Proof.
  intros base d0 o d evs d' d'' Hs He Hn S. destruct (sync_begun _ _ _ _ Hs) as (s & E & HL).
  edestruct run_live as (ps & G1 & G2 & G3 & G4); [|exact He|exact HL| | |]; try reflexivity.
  pose proof (next_t (ed_config d) (synced_at (ed_config d) (pd_buf (ed_pd d)) s) eq_refl _ _ _ G2) as H.
  unfold pwp in H. rewrite Hn in H. destruct (H S) as [H1|(ps' & H1 & H2 & H3)]; [congruence|].
  exists s, ps', (ed_pd d''). auto.
Qed.
Print Assumptions C49_end.

(** C50: each event is reported at a packet of its kind, says what the packets say, has
    the time of the packets up to there and the address that the last IP packet gives. *)
Theorem C50_events : forall base d0 o d evs d',
  evt_step base d0 o = (d, Ok None) -> returns d evs d' -> no_skipping (ed_config d) ->
  exists offset, pt_evt_get_sync_offset d = Ok offset /\
    explained (ed_config d) (synced_at (ed_config d) (pd_buf (ed_pd d)) offset) [] [] evs.
Proof.
  intros base d0 o d evs d' Hs He S. destruct (sync_begun _ _ _ _ Hs) as (s & E & HL).
  edestruct run_live as (ps & G1 & _ & G3 & G4); [|exact He|exact HL| | |]; try reflexivity.
  exists s. split; [exact E|]. apply (G4 S).
Qed.
Print Assumptions C50_events.

Lemma reads_tnt_ok pd ps pd' : bytes_ok (pd_buf pd) -> reads pd ps pd' ->
  Forall (fun p => tnt_ok (pkt_pl p)) ps.
Proof.
  intros Hb H. induction H as [|pd pd1 pd2 p ps E _ IH]; constructor.
  - apply (next_tnt_ok _ _ _ Hb E).
  - apply IH. assert (Hr : reads pd [p] pd1) by (econstructor; [exact E|constructor]).
    apply reads_keep in Hr. destruct Hr as (_ & -> & _). exact Hb.
Qed.

(** TNT events hold between one and 63 bits. *)
Theorem C49_tnt_size : forall base d0 o d evs d',
  evt_step base d0 o = (d, Ok None) -> returns d evs d' -> bytes_ok (pd_buf (ed_pd d)) ->
  Forall (fun e => match ev_var e with Ev_tnt _ n => (1 <= n < 64)%N | _ => True end) evs.
Proof.
  intros base d0 o d evs d' Hs He Hb.
  destruct (C49_control_flow _ _ _ _ _ _ Hs He) as (s & ps & _ & (pd' & Hr) & Ht & _).
  apply reads_tnt_ok in Hr; [|exact Hb].
  assert (Hf : Forall (fun f => match f with Fl_tnt _ n => (1 <= n < 64)%N | _ => True end) (tnts (flows ps))).
  { clear Ht. induction Hr as [|p ps Hp _ IH]; [constructor|]. cbn [flows flat_map].
    rewrite tnts_app. apply Forall_app. split; [|exact IH].
    unfold flow_of_packet. destruct (pkt_pl p); constructor; auto. }
  rewrite <- Ht in Hf. clear -Hf. induction evs as [|e evs IH]; [constructor|].
  cbn [flat_map] in Hf. rewrite tnts_app, Forall_app in Hf. destruct Hf as (H1 & H2).
  constructor; [|apply IH; exact H2]. unfold flow_of_event in H1. destruct (ev_var e); auto.
  cbn in H1. inversion H1. assumption.
Qed.
Print Assumptions C49_tnt_size.

(** An instance: enabling, a TNT, a TIP, an asynchronous branch, and disabling. *)
Fixpoint evts (n : nat) (d : evdec) : list event * evdec :=
  match n with
  | O => ([], d)
  | S n => match pt_evt_next d with
           | (d', Ok e) => (e :: fst (evts n d'), snd (evts n d'))
           | _ => ([], d)
           end
  end.
Lemma evts_returns : forall n d, returns d (fst (evts n d)) (snd (evts n d)).
Proof.
  induction n as [|n IH]; intros d; [constructor|]. cbn [evts].
  destruct (pt_evt_next d) as [d1 [e|e|u]] eqn:E; try constructor.
  cbn [fst snd]. econstructor; [exact E|apply IH].
Qed.
Definition synced1 : evdec := fst (evt_step 0 (pt_evt_decoder_init config0 trace1) Evt_sync_forward).
Example C49_ex :
  evt_step 0 (pt_evt_decoder_init config0 trace1) Evt_sync_forward = (synced1, Ok None) /\
  returns synced1 (fst (evts 6 synced1)) (snd (evts 6 synced1)) /\
  bytes_ok (pd_buf (ed_pd synced1)) /\ no_skipping (ed_config synced1) /\
  snd (pt_evt_next (snd (evts 6 synced1))) = Err pte_eos /\
  map ev_var (fst (evts 6 synced1)) =
    [Ev_disabled 0; Ev_enabled 4096 false; Ev_tnt 2 2; Ev_tip 4112; Ev_async_branch 4128 4144;
     Ev_disabled 0] /\
  flat_map flow_of_event (fst (evts 6 synced1)) = [Fl_enable; Fl_tnt 2 2; Fl_tip; Fl_tip].
Proof.
  split; [vm_compute; reflexivity|]. split; [apply evts_returns|].
  split; [|split; [|split; [|split]]].
  - unfold bytes_ok. apply Forall_forall. intros x Hx.
    assert (H : forallb (fun b => (b <? 256)%N) (pd_buf (ed_pd synced1)) = true) by (vm_compute; reflexivity).
    rewrite forallb_forall in H. apply H in Hx. apply N.ltb_lt. exact Hx.
  - vm_compute. auto.
  - vm_compute. reflexivity.
  - vm_compute. reflexivity.
  - vm_compute. reflexivity.
Qed.

(** A run may end early although the trace is fine: if an MWAIT waits for its EXSTOP
    when an asynchronous branch comes, pt_evt_next() answers -pte_internal, and the
    branch is never reported.  The events are exchanged after dequeuing one has moved
    them (pt_event_decoder.c:2893-2913). *)
Definition trace_mwait : list N :=
  (psb_bytes ++ [0x02; 0x23;  0x31; 0x00; 0x10;  0x02; 0xc2; 1; 0; 0; 0; 0; 0; 0; 0;
                 0x3d; 0x20; 0x10;  0x2d; 0x30; 0x10;  0x01])%N.
Theorem C49_pending_refuted :
  exists ps pd, reads (synced_at config0 trace_mwait 0) ps pd /\ snd (pt_pkt_next pd) = Err pte_eos /\
    flows ps = [Fl_enable; Fl_tip] /\
    map (fun x => match snd (fst x) with
                  | Ok (Some e) => Ok (Some (ev_var e))
                  | Ok None => Ok None
                  | Err e => Err e
                  | UB u => UB u
                  end)
        (evt_run 0 (pt_evt_decoder_init config0 trace_mwait) (Evt_sync_forward :: repeat Evt_next 5)) =
    [Ok None; Ok (Some (Ev_disabled 0)); Ok (Some (Ev_enabled 4096 false)); Err pte_internal;
     Ok (Some (Ev_disabled 0)); Err pte_eos].
Proof.
  assert (H : exists ps pd, reads (synced_at config0 trace_mwait 0) ps pd /\
            snd (pt_pkt_next pd) = Err pte_eos /\ flows ps = [Fl_enable; Fl_tip]).
  { eexists _, _. split; [|split].
    - do 7 (eapply reads_cons; [vm_compute; reflexivity|]). apply reads_nil.
    - vm_compute. reflexivity.
    - vm_compute. reflexivity. }
  destruct H as (ps & pd & H1 & H2 & H3). exists ps, pd. repeat (split; [assumption|]).
  vm_compute. reflexivity.
Qed.
Print Assumptions C49_pending_refuted.
