(** Lemmas on the instruction flow decoder: synchronization, and the order of events. *)

From Coq Require Import List NArith ZArith Bool PeanoNat Lia ZifyBool ZifyNat ZifyN.
From Verif Require Import Base M_config M_time M_pktdec M_event M_evdec M_query M_retstack M_asid M_ildtab M_ild
  M_insn M_insndec S_core S_evdec S_x86 S_insn S_query S_evtrace S_flow S_drive L_core L_evdec L_evsafe L_evnext
  L_insn T_insn L_query L_query2 T_evdec T_evtrace L_flow L_flow2 L_flow3 L_flow4 L_flow5.
Import ListNotations.
Open Scope N_scope.

Lemma facts_ok evs : Forall no_trig evs -> Forall fact_ok (flat_map facts_of evs).
Proof.
  induction 1 as [|e evs H _ IH]; [constructor|]. cbn [flat_map]. apply Forall_app. split; [|exact IH].
  unfold facts_of, no_trig in *.
  destruct (ev_var e) eqn:Ev; try (constructor; [cbn; unfold usual; rewrite Ev; exact H|constructor]).
  - constructor; [exact I|constructor].
  - apply Forall_forall. intros x Hx. apply in_map_iff in Hx. destruct Hx as (b & <- & _). exact I.
Qed.

Section SYNC.
  Context (cf : config) (buf : list N) (base : nat).
  Hypothesis sized : callback_sized cf.
  Hypothesis freq : (cf_mtc_freq cf < 24)%N.
  Hypothesis small : (N.of_nat (length buf) + 1 < 2 ^ 31)%N.
  Hypothesis bytes : bytes_ok buf.
  Context {S C : Type} (im : image_if S C) (mem : asid -> memory) (cached : C -> asid -> Prop).
  Hypothesis shows : image_shows im mem cached.
  Hypothesis no_bdm64 : er_bdm64 (cf_errata cf) = false.
  Hypothesis no_skd022 : er_skd022 (cf_errata cf) = false.
  Notation dec := (insndec C).

  Lemma fresh_full d evs err : fresh cf buf base d evs err -> Forall full evs.
  Proof.
    intros (d0 & o & Hd & E & Hs). destruct (stream_returns _ _ _ Hs) as (d' & Hr).
    assert (Hb : bytes_ok (pd_buf (ed_pd d))).
    { assert (Hd1 : reachable base cf buf d) by (econstructor; [exact Hd|exact E|discriminate]).
      destruct (reachable_ok cf buf sized freq small bytes base _ Hd1) as ((_ & Hbuf & _) & _). rewrite Hbuf. exact bytes. }
    eapply Forall_impl; [|exact (C49_tnt_size _ _ _ _ _ _ E Hr Hb)].
    intros e. unfold full, is_tnt, bits_of. destruct (ev_var e); intros H1 H2; try discriminate H2.
    assert (L := payload_length bits size). split; [|lia].
    intros E0. rewrite E0 in L. cbn in L. lia.
  Qed.

  (** A synchronization of the instruction flow decoder. *)
  Definition insn_sync_step (d : dec) (o : qry_sync_op) : dec * res N :=
    insn_sync im (fun q => qry_sync_step base q o) d.

  Lemma sync_ok d o d1 r : reachable base cf buf (qd_evdec (id_query d)) ->
    length (rs_stack (id_retstack d)) = 65%nat -> cached (id_scache d) pt_asid_init ->
    (forall n, o <> Qs_backward n) -> insn_sync_step d o = (d1, r) ->
    match r with
    | Err _ => True
    | _ => exists e evs err ip, synced_to base (qd_evdec (id_query d)) o e /\ fresh cf buf base e evs err /\ starts e evs ip /\
        (Forall no_trig evs ->
         match r with
         | Ok st => exists s,
             flows mem (id_ticks d) err (mk_fstate (flow0 ip) None (flat_map facts_of evs)) [] s /\
             id_ticks d1 = id_ticks d /\ between cf buf base err cached d1 st s
         | _ => False
         end)
    end.
  Proof.
    intros Hr Hl Hcc Hb. unfold insn_sync_step, insn_sync.
    change (id_query (pt_insn_reset d)) with (id_query d).
    pose proof (sync_step_rel cf buf sized freq small bytes base (id_query d) o Hr) as Q.
    assert (Eb : match o with Qs_backward _ => true | _ => false end = false)
      by (destruct o; [reflexivity|destruct (Hb rounds eq_refl)|reflexivity]).
    rewrite Eb in Q. clear Eb.
    destruct (qry_sync_step base (id_query d) o) as [q' [[ip st]|e|u]] eqn:Eq; cbn [synced_rel] in Q.
    2:{ intros [= <- <-]. exact I. }
    2:{ destruct Q as (_ & Q). discriminate. }
    destruct Q as (Q1 & d0 & evs & err & Qat & Qf & Qr & Qs & ->).
    set (d2 := match ip with Some a => id_set_ip (id_set_query (pt_insn_reset d) q') a
               | None => id_set_query (pt_insn_reset d) q' end).
    unfold pt_insn_start. set (st := flags_of ip (mk_qspec [] evs err)).
    set (d3 := if flag st pts_ip_suppressed then id_set_status d2 st else id_set_enabled (id_set_status d2 st) true).
    assert (Hs : flag st pts_ip_suppressed = match ip with Some _ => false | None => true end).
    { unfold st, flags_of, qs_flags. cbn [qs_bits qs_evs qs_err].
      destruct ip, evs as [|e0 evs0]; try (destruct err; reflexivity); destruct (plain e0); reflexivity. }
    assert (Rd : forall evs' err', qrel q' (mk_qspec [] evs' err') -> Forall full evs' -> Forall no_trig evs' ->
              (flag st pts_eos = true -> flat_map facts_of evs' = []) ->
              flag st pts_event_pending = loud err' (flat_map facts_of evs') ->
              ready cf buf base err' cached d3 (flow0 ip) None (flat_map facts_of evs')).
    { intros evs' err' R' F' N' E' T'. unfold d3. rewrite Hs.
      assert (G : common cf buf base err' cached d3 (flow0 ip) None (flat_map facts_of evs') /\ id_ip d3 = f_ip (flow0 ip) /\
                  id_postponed d3 = None /\ id_bound d3 = no_bounds).
      { unfold d3. rewrite Hs. destruct ip as [a|]; (split; [|repeat split]).
        all: constructor; cbn; try reflexivity; try assumption.
        all: try (apply rs_rep_init; exact Hl).
        all: try (eexists; split; [exact R'|split; [exact F'|split; reflexivity]]).
        all: try (split; [apply facts_ok; exact N'|exact I]). }
      destruct G as (G1 & G2 & G3 & G4). unfold d3 in *. rewrite Hs in *.
      split; [exact G1|]. split; [reflexivity|]. repeat split; assumption. }
    assert (Ef : flag st pts_eos = true -> flat_map facts_of evs = []).
    { intros Hf. pose proof (rest_nil_flags (mk_qspec [] evs err)) as K. unfold rest in K. cbn in K. apply K.
      unfold st, flags_of, qs_flags in *. cbn [qs_bits qs_evs qs_err] in *.
      destruct ip, evs as [|e0 evs0]; try (destruct err; exact Hf); destruct (plain e0); exact Hf. }
    assert (Tf : flag st pts_event_pending = loud err (flat_map facts_of evs)).
    { pose proof (flags_loud (mk_qspec [] evs err) (fresh_full _ _ _ Qf)) as K. unfold rest in K. cbn in K. rewrite <- K.
      unfold st, flags_of, qs_flags in *. cbn [qs_bits qs_evs qs_err] in *.
      destruct ip, evs as [|e0 evs0]; try (destruct err; reflexivity); destruct (plain e0); reflexivity. }
    pose proof (fun N' => check_ip_ok cf buf base err sized freq small bytes im mem cached no_bdm64 no_skd022 d3 (flow0 ip) None
      (flat_map facts_of evs) None (Rd evs err Qr (fresh_full _ _ _ Qf) N' Ef Tf)) as K.
    assert (Tk : id_ticks d3 = id_ticks d) by (unfold d3, d2; rewrite Hs; destruct ip; reflexivity).
    rewrite Tk in K.
    intros E. change (pt_insn_check_ip_event im d3 None = (d1, r)) in E. rewrite E in K.
    destruct r as [st'|e|u]; [|exact I|].
    - exists d0, evs, err, ip. split; [exact Qat|]. split; [exact Qf|]. split; [exact Qs|]. intros N'.
      destruct (K N') as (K1 & s & K2 & K3). exists s. auto.
    - exists d0, evs, err, ip. split; [exact Qat|]. split; [exact Qf|]. split; [exact Qs|exact K].
  Qed.
End SYNC.

(** ** The order of events *)

Definition event_of (o : obs) : list event := match o with O_event e => [e] | O_insn _ => [] end.
Definition events_in (fs : list fact) : list event :=
  flat_map (fun x => match x with F_event e => [e] | _ => [] end) fs.
Definition to_come (s : fstate) : list event :=
  match fs_held s with Some e => [e] | None => [] end ++ events_in (fs_facts s).
(** The user may see whether tracing resumed where it was expected to. *)
Definition as_shown (e e' : event) : Prop := e' = e \/ exists f, e' = shown f e.

Lemma events_bits bits : events_in (map F_bit bits) = [].
Proof. induction bits; [reflexivity|assumption]. Qed.
Lemma events_app a b : events_in (a ++ b) = events_in a ++ events_in b.
Proof. apply flat_map_app. Qed.
Lemma leaves_events s l fs ip l' fs' : leaves s l fs ip l' fs' -> events_in fs' = events_in fs.
Proof.
  destruct 1; try reflexivity; destruct H0 as (bits & post & -> & ->) || destruct H1 as (bits & post & -> & ->);
    rewrite !events_app, !events_bits; reflexivity.
Qed.

Lemma step_events mem err s o s' : fstep mem false err s o s' ->
  exists l, to_come s = l ++ to_come s' /\ Forall2 as_shown l (flat_map event_of o).
Proof.
  destruct 1; unfold to_come; cbn [fs_held fs_facts app flat_map event_of events_in].
  - exists []. split; [reflexivity|constructor].
  - exists []. split; [reflexivity|constructor].
  - exists [e]. split; [reflexivity|]. constructor; [left; reflexivity|constructor].
  - exists [e]. split; [reflexivity|]. constructor; [left; reflexivity|constructor].
  - exists []. split; [|constructor]. cbn [app]. destruct H3 as [->|(Hf & _)]; [|discriminate].
    fold (events_in fs) (events_in fs'). rewrite (leaves_events _ _ _ _ _ _ H2). reflexivity.
  - exists [e]. split; [reflexivity|]. constructor; [right; eauto|constructor].
Qed.
Lemma flows_events mem err s o s' : flows mem false err s o s' ->
  exists l, to_come s = l ++ to_come s' /\ Forall2 as_shown l (flat_map event_of o).
Proof.
  induction 1 as [s|s o s1 os s' H _ (l' & IH1 & IH2)].
  - exists []. split; [reflexivity|constructor].
  - destruct (step_events _ _ _ _ _ H) as (l & H1 & H2). exists (l ++ l').
    rewrite flat_map_app, H1, IH1, app_assoc. split; [reflexivity|]. apply Forall2_app; assumption.
Qed.
