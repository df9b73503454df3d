(** C57: the events of a trace are a function of its packets. *)

From Verif Require Import Base M_packet M_config M_pktdec M_sync M_lastip M_time
  M_evq M_event M_evdec S_sync S_evdec S_evtrace S_evfun L_evtrace L_evdec L_evsafe L_evfun
  L_evfun8 L_evq_rules L_evtrace4 L_evtrace5 T_evdec T_evtrace.
From Coq Require Import List NArith ZArith PeanoNat Bool Lia.
Import ListNotations.
Open Scope nat_scope.

(** ** Packets *)

Definition sane (r : res (payload * nat)) : Prop :=
  match r with Ok (pl, _) => pl <> P_invalid | _ => True end.
Lemma sane_bind {A} (r : res A) k : (forall a, sane (k a)) -> sane (bind r k).
Proof. intros H. destruct r; cbn; auto. Qed.
Ltac sane_ :=
  repeat first
    [ apply sane_bind; intros
    | match goal with |- sane (if ?b then _ else _) => destruct b end
    | match goal with |- sane (let (_, _) := ?x in _) => destruct x end
    | match goal with |- sane (match ?x with _ => _ end) => destruct x end
    | exact I | (intros E; discriminate E) | (cbn; discriminate) ].

Lemma plain_sane r dc : sane r -> plain r = Ok dc -> dc_pl dc <> P_invalid.
Proof.
  unfold plain. destruct r as [[pl n]|e|u]; cbn; try discriminate. intros H E. injection E as <-. exact H.
Qed.
Lemma ip_sane f r dc : (forall ip, f ip <> P_invalid) -> as_ip f r = Ok dc -> dc_pl dc <> P_invalid.
Proof.
  unfold as_ip. destruct r as [[ip n]|e|u]; cbn; try discriminate. intros H E. injection E as <-. apply H.
Qed.

Lemma decode_sane cf buf pos dc : er_skz84 (cf_errata cf) = false ->
  pt_pkt_decode cf buf pos = Ok dc -> dc_pl dc <> P_invalid.
Proof.
  intros Hs. unfold pt_pkt_decode.
  destruct (Nat.leb _ _); [discriminate|]. destruct (rd buf pos) as [opc|e|u]; try discriminate. cbn [bind].
  repeat match goal with
    | |- (if ?b then _ else _) = _ -> _ => destruct b
    | |- bind ?r _ = _ -> _ => destruct r; try discriminate; cbn [bind]
    | |- Ok _ = Ok _ -> _ => intros E; injection E as <-; discriminate
    | |- Err _ = _ -> _ => discriminate
    | |- as_ip _ _ = _ -> _ => apply ip_sane; discriminate
    | |- plain _ = _ -> _ => apply plain_sane
    end.
  all: try (unfold pt_pkt_read_mode, pt_pkt_read_mtc, pt_pkt_read_tsc, pt_pkt_read_trig, pt_pkt_read_psb,
    pt_pkt_read_cbr, pt_pkt_read_pip, pt_pkt_read_vmcs, pt_pkt_read_exstop, pt_pkt_read_mwait,
    pt_pkt_read_pwre, pt_pkt_read_pwrx, pt_pkt_read_tnt_64, pt_pkt_read_cfe, pt_pkt_read_evd,
    pt_pkt_read_mnt, pt_pkt_read_unknown, pt_pkt_read_ptw, pt_pkt_read_tnt_8; sane_).
  - unfold pt_pkt_decode_tma.
    assert (H : sane (pt_pkt_read_tma buf pos)) by (unfold pt_pkt_read_tma; sane_).
    destruct (pt_pkt_read_tma buf pos) as [[pl n]|e|u]; [| |discriminate].
    + intros E. injection E as <-. exact H.
    + destruct e; try discriminate. rewrite Hs. discriminate.
  - unfold pt_pkt_decode_cyc. destruct (pt_pkt_read_cyc buf pos) as [[v n]|e|u]; try discriminate. cbn [bind].
    unfold pt_pkt_handle_skd007. destruct (er_skd007 _).
    + repeat match goal with
        | |- context [if ?b then _ else _] => destruct b
        | |- context [let* _ := rd ?a ?b in _] => destruct (rd a b)
        end; cbn [bind]; try discriminate;
        try (destruct (negb _); cbn [bind]); intros E; injection E as <-; discriminate.
    + cbn [bind]. intros E. injection E as <-. discriminate.
Qed.

(** The packets of a trace, up to its end or an error. *)
Lemma whole_exists cf buf n : callback_moves cf -> forall pd, pd_ok cf buf pd -> rem buf pd < n ->
  exists ps err, whole pd ps err.
Proof.
  intros Hm. induction n as [|n IH]; intros pd Hok Hn; [lia|].
  pose proof (next_step cf buf pd Hm Hok) as H. destruct (pt_pkt_next pd) as [pd' [p|e|u]] eqn:E.
  - destruct H as (H1 & H2 & H3 & _). destruct (IH pd' H1) as (ps & err & pd2 & Hr & He).
    { unfold rem in *. lia. }
    exists (p :: ps), err, pd2. split; [econstructor; eauto|exact He].
  - subst pd'. exists [], e, pd. split; [constructor|exact E].
  - destruct H.
Qed.
Lemma whole_unique pd ps1 e1 : whole pd ps1 e1 -> forall ps2 e2, whole pd ps2 e2 -> ps1 = ps2 /\ e1 = e2.
Proof.
  intros (pd1 & H1 & E1). revert E1. induction H1 as [pd|pd pda pdb p ps E H IH]; intros E1 ps2 e2 (pd2 & H2 & E2).
  - inversion H2 as [|x y z q r E' H']; subst; [|congruence]. rewrite E1 in E2. injection E2 as ->. auto.
  - inversion H2 as [|x y z q r E' H']; subst; [congruence|]. rewrite E in E'. injection E' as <- <-.
    destruct (IH E1 r e2) as [-> ->]; [exists pd2; auto|auto].
Qed.
Lemma reads_sane pd ps pd' : reads pd ps pd' -> er_skz84 (cf_errata (pd_config pd)) = false ->
  Forall (fun p => pkt_pl p <> P_invalid) ps.
Proof.
  induction 1 as [|pd pda pdb p ps E H IH]; intros Hs; constructor.
  - unfold pt_pkt_next in E. destruct (pd_pos pd); [|discriminate].
    destruct (pt_pkt_decode _ _ _) eqn:Ed; try discriminate. injection E as <- <-.
    apply (decode_sane _ _ _ _ Hs Ed).
  - apply IH. unfold pt_pkt_next in E. destruct (pd_pos pd); [|discriminate].
    destruct (pt_pkt_decode _ _ _) eqn:Ed; try discriminate. injection E as <- <-. exact Hs.
Qed.

(** ** Synchronisation *)

(** A successful synchronisation starts anew at its offset. *)
Definition started (d' : evdec) : Prop :=
  exists s d, pt_evt_get_sync_offset d' = Ok s /\
    ed_pd d = synced_at (ed_config d') (pd_buf (ed_pd d')) s /\
    ed_evq d = pt_evq_init zero_event /\ ed_ip d = pt_last_ip_init /\ ed_time d = pt_time_init /\
    ed_tcal d = pt_tcal_init /\ ed_bound d = false /\ ed_event d = None /\ ed_enabled d = false /\
    ms_valid (ed_mode d) = false /\ pt_evt_start d = (d', Ok tt).

Lemma start_started d s cf buf d' : ed_pd d = synced_at cf buf s -> ed_evq d = pt_evq_init zero_event ->
  ed_ip d = pt_last_ip_init -> ed_time d = pt_time_init -> ed_tcal d = pt_tcal_init ->
  ed_bound d = false -> ed_event d = None -> ed_enabled d = false -> ms_valid (ed_mode d) = false ->
  pt_evt_start d = (d', Ok tt) -> started d'.
Proof.
  intros E1 E2 E3 E4 E5 E6 E7 E8 E9 E.
  pose proof (L_evtrace5.start_t cf (synced_at cf buf s) eq_refl d E1 E2 E3 E4 E5 E6) as H.
  unfold pwp in H. rewrite E in H.
  destruct (live_reads _ _ _ _ _ H) as (qs & Hq). apply reads_keep in Hq. destruct Hq as (Hq1 & Hq2 & Hq3).
  exists s, d. unfold ed_config. rewrite Hq2, Hq3. cbn [synced_at pd_buf pd_config]. split; [|auto 12].
  unfold pt_evt_get_sync_offset, pt_pkt_get_sync_offset. rewrite Hq1. cbn [synced_at pd_sync].
  rewrite N2Nat.id. reflexivity.
Qed.

Lemma outer_started fuel : forall base start sync d d',
  backward_outer fuel base start sync d = (d', Ok tt) -> started d'.
Proof.
  induction fuel as [|fuel IH]; intros base start sync d d'; cbn [backward_outer]; [discriminate|].
  unfold sbind, modify, get.
  destruct (backward_inner (S fuel) base sync (pt_evt_reset d)) as [d1 [[]|e|u]] eqn:Ei; try discriminate.
  destruct (inner_begun _ _ _ _ _ Ei) as (s & E1).
  destruct (pt_evt_start d1) as [d2 r] eqn:Es.
  assert (Hgo : r = Ok tt -> started d2).
  { intros ->. revert Es. subst d1. apply start_started with (s := s) (cf := ed_config d) (buf := pd_buf (ed_pd d));
      reflexivity. }
  destruct r as [[]|e|u]; [| |discriminate]; (destruct (Nat.ltb _ _); [|apply IH]).
  - intros E. injection E as <-. apply Hgo. reflexivity.
  - discriminate.
Qed.

Lemma sync_started base d o d' : evt_step base d o = (d', Ok None) -> started d'.
Proof.
  destruct o as [|n|off|]; cbn [evt_step].
  - unfold pt_evt_sync_forward, sbind, modify, with_pd. unfold pt_pkt_sync_forward.
    destruct (pt_sync_forward _ _ _) as [s|e|u]; try discriminate. rewrite set_sync_at.
    destruct (pt_evt_start _) as [d2 [[]|e|u]] eqn:Es; try discriminate. cbn [fst snd].
    intros E. injection E as <-. revert Es. eapply start_started; reflexivity.
  - unfold pt_evt_sync_backward, sbind, get.
    destruct (backward_outer _ _ _ _ _) as [d2 [[]|e|u]] eqn:Es; try discriminate. cbn [fst snd].
    intros E. injection E as <-. apply (outer_started _ _ _ _ _ _ Es).
  - unfold pt_evt_sync_set, sbind, modify, with_pd. unfold pt_pkt_sync_set.
    destruct (_ <? _)%N; try discriminate. cbv zeta.
    destruct (pt_evt_start _) as [d2 [[]|e|u]] eqn:Es; try discriminate. cbn [fst snd].
    intros E. injection E as <-. revert Es.
    eapply start_started with (s := off); reflexivity.
  - destruct (pt_evt_next d) as [d2 [e|e|u]]; discriminate.
Qed.

Lemma start_inside d d' cf buf s : ed_pd d = synced_at cf buf s -> pt_evt_start d = (d', Ok tt) ->
  pd_ok cf buf (ed_pd d).
Proof.
  intros E Es. rewrite E. split; [reflexivity|]. split; [reflexivity|]. cbn.
  destruct (Nat.leb (length buf) (N.to_nat s)) eqn:El; [|apply Nat.leb_gt in El; lia].
  exfalso. unfold pt_evt_start, sbind, modify, get, pt_evt_fetch_packet in Es.
  change (ed_pd (set_status d None)) with (ed_pd d) in Es. rewrite E in Es.
  unfold scan_fuel in Es. cbn [fetch_loop] in Es. unfold pt_pkt_next in Es. cbn [synced_at pd_pos pd_config pd_buf] in Es.
  unfold pt_pkt_decode in Es. rewrite El in Es. discriminate Es.
Qed.

(** C57: after a successful synchronisation, the calls of pt_evt_next() deliver exactly the
    events that [events_of] gives for the packets from the synchronisation point on, in
    order and with all fields; and the call after those returns the error that it gives. *)
Theorem C57_events : forall base d0 o d,
  evt_step base d0 o = (d, Ok None) ->
  let cf := ed_config d in
  let buf := pd_buf (ed_pd d) in
  no_skipping cf -> er_skz84 (cf_errata cf) = false -> callback_moves cf -> (cf_mtc_freq cf < 24)%N ->
  (N.of_nat (length buf) + 1 < 2 ^ 31)%N ->
  exists offset ps err evs e d' d'', pt_evt_get_sync_offset d = Ok offset /\
    whole (synced_at cf buf offset) ps err /\
    events_of cf track0 ps err = (evs, Err e) /\
    returns d evs d' /\ pt_evt_next d' = (d'', Err e).
Proof.
  intros base d0 o d Hs cf buf S1 S2 Hm Hf Hb.
  destruct (sync_started _ _ _ _ Hs) as (s & d1 & E0 & E1 & E2 & E3 & E4 & E5 & E6 & E7 & E8 & E9 & Es).
  fold cf buf in E1. pose proof (start_inside _ _ _ _ _ E1 Es) as Hok.
  destruct (whole_exists cf buf _ Hm (ed_pd d1) Hok (scan_fuel_ok cf buf _ Hok)) as (ps & err & Hw).
  assert (Hv : Forall (fun p => pkt_pl p <> P_invalid) ps).
  { destruct Hw as (pd' & Hr & _). apply (reads_sane _ _ _ Hr). rewrite E1. exact S2. }
  destruct (start_yields cf buf err Hm Hf Hb S1 d1 d ps Hok Hw Hv E2 E3 E4 E5 E6 E7 E8 E9 Es) as [Hy Hd].
  destruct (yields_next cf buf Hm Hf Hb _ _ Hy Hd) as (e & d' & d'' & G1 & G2 & G3).
  exists s, ps, err, (fst (events_of cf track0 ps err)), e, d', d''.
  split; [exact E0|]. split; [rewrite <- E1; exact Hw|]. split; [|auto].
  rewrite <- G1. apply surjective_pairing.
Qed.
Print Assumptions C57_events.

(** An instance: status in PSB+, enabling, a mode with a branch, an asynchronous branch that
    switches the address space, an overflow with a FUP, and disabling; the trace ends in the
    middle of a packet. *)
Definition trace57 : list N :=
  (psb_bytes ++
   [0x19; 7; 0; 0; 0; 0; 0; 0;  0x02; 0x03; 20; 0;  0x99; 0x01;  0x02; 0x43; 0; 2; 0; 0; 0; 0;  0x02; 0x23;
    0x31; 0x00; 0x10;  0x0c;  0x99; 0x02;  0x2d; 0x10; 0x10;
    0x3d; 0x20; 0x10;  0x02; 0x43; 0; 3; 0; 0; 0; 0;  0x2d; 0x30; 0x10;
    0x02; 0xf3;  0x3d; 0x40; 0x10;  0x01;  0x02; 0x43])%N.
Definition synced57 : evdec := fst (evt_step 0 (pt_evt_decoder_init config0 trace57) Evt_sync_forward).
Fixpoint packets57 (n : nat) (pd : pktdec) : list packet * res packet :=
  match n with
  | O => ([], Err pte_internal)
  | S n => match pt_pkt_next pd with
           | (pd', Ok p) => (p :: fst (packets57 n pd'), snd (packets57 n pd'))
           | (_, r) => ([], r)
           end
  end.
Example C57_ex :
  snd (evt_step 0 (pt_evt_decoder_init config0 trace57) Evt_sync_forward) = Ok None /\
  no_skipping (ed_config synced57) /\ er_skz84 (cf_errata (ed_config synced57)) = false /\
  cf_callback (ed_config synced57) = None /\
  (cf_mtc_freq (ed_config synced57) < 24)%N /\
  (let '(ps, r) := packets57 30 (synced_at config0 trace57 0) in
   length ps = 16 /\ r = Err pte_eos /\
   map ev_var (fst (events_of config0 track0 ps pte_eos)) =
     map ev_var (fst (evts 30 synced57)) /\
   map ev_var (fst (evts 30 synced57)) =
     [Ev_disabled 0; Ev_cbr 20; Ev_exec_mode ptem_64bit 0; Ev_async_paging 8192 false 0;
      Ev_enabled 4096 false; Ev_tnt 2 2; Ev_tip 4112; Ev_exec_mode ptem_32bit 4112;
      Ev_async_branch 4128 4144; Ev_async_paging 12288 false 4144; Ev_overflow 4160;
      Ev_disabled 0]%N /\
   match snd (events_of config0 track0 ps pte_eos) with Err e => e = pte_eos | _ => False end).
Proof. vm_compute. repeat split. Qed.
