(** Lemmas on the instruction flow decoder: the documented loop follows the flow. *)

From Coq Require Import List NArith ZArith Bool PeanoNat Lia ZifyBool ZifyNat ZifyN.
From Verif Require Import Base M_config M_time M_pktdec M_event M_evdec M_query M_retstack M_asid M_ildtab M_ild
  M_insn M_insndec S_core S_evdec S_x86 S_insn S_query S_evtrace S_flow S_drive L_core L_evdec L_evsafe L_evnext
  L_insn T_insn L_query L_query2 T_evdec T_evtrace L_flow L_flow2 L_flow3.
Import ListNotations.
Open Scope N_scope.

Definition kinds (b : bounds) (ks : list kind) : Prop :=
  (bo_paging b = true <-> In K_paging ks) /\ (bo_vmcs b = true <-> In K_vmcs ks) /\
  (bo_ptwrite b = true <-> In K_ptwrite ks) /\ (bo_iret b = true <-> In K_iret ks) /\
  (bo_vmentry b = true <-> In K_vmentry ks) /\ (bo_uiret b = true <-> In K_uiret ks).

Lemma kinds_none : kinds no_bounds [].
Proof. repeat split; cbn; intros H; try discriminate H; destruct H. Qed.

Lemma flows_one mem ticks err s o s' : fstep mem ticks err s o s' -> flows mem ticks err s o s'.
Proof. intros H. rewrite <- (app_nil_r o). econstructor; [exact H|constructor]. Qed.
Lemma flows_app mem ticks err s o s1 o' s' : flows mem ticks err s o s1 -> flows mem ticks err s1 o' s' ->
  flows mem ticks err s (o ++ o') s'.
Proof.
  intros H. revert o' s'. induction H as [|s o s1 os s2 H1 H2 IH]; intros o' s' H'; [exact H'|].
  rewrite <- app_assoc. econstructor; [exact H1|]. apply IH. exact H'.
Qed.

Arguments c_on {cf buf base err C cached d f h fs}. Arguments c_mode {cf buf base err C cached d f h fs}.
Arguments c_asid {cf buf base err C cached d f h fs}. Arguments c_spec {cf buf base err C cached d f h fs}.
Arguments c_calls {cf buf base err C cached d f h fs}. Arguments c_query {cf buf base err C cached d f h fs}.
Arguments c_reach {cf buf base err C cached d f h fs}. Arguments c_held {cf buf base err C cached d f h fs}.
Arguments c_cache {cf buf base err C cached d f h fs}. Arguments c_quiet {cf buf base err C cached d f h fs}.
Arguments c_eos {cf buf base err C cached d f h fs}. Arguments c_told {cf buf base err C cached d f h fs}.

Section FLOW.
  Context (cf : config) (buf : list N) (base : nat) (err : pte).
  Hypothesis sized : callback_sized cf.
  Hypothesis freq : (cf_mtc_freq cf < 24)%N.
  Hypothesis small : (N.of_nat (length buf) + 1 < 2 ^ 31)%N.
  Hypothesis bytes : bytes_ok buf.
  Context {S C : Type} (im : image_if S C) (mem : asid -> memory) (cached : C -> asid -> Prop).
  Hypothesis shows : image_shows im mem cached.
  Hypothesis no_bdm64 : er_bdm64 (cf_errata cf) = false.
  Hypothesis no_skd022 : er_skd022 (cf_errata cf) = false.
  Hypothesis no_skl014 : er_skl014 (cf_errata cf) = false.
  Notation dec := (insndec C).
  Notation comm := (common cf buf base err cached).

  (** Between calls: *)
  Definition ready (d : dec) (f : flow) (h : option event) (fs : list fact) : Prop :=
    comm d f h fs /\ f_cur f = None /\ id_ip d = f_ip f /\
    id_postponed d = None /\ id_bound d = no_bounds.
  (** An event is pending between instructions, ... *)
  Definition pend_at (d : dec) (f : flow) (e : event) (fs : list fact) : Prop :=
    comm d f (Some e) fs /\ f_cur f = None /\ id_ip d = f_ip f /\ located f e = true /\
    (id_postponed d = None /\ id_bound d = no_bounds \/
     f_on f = false /\ kind_of e <> None /\ id_postponed d <> None).
  (** ... an event that the current instruction causes, ... *)
  Definition pend_cause (d : dec) (f : flow) (e : event) (fs : list fact) : Prop :=
    comm d f (Some e) fs /\ f_on f = true /\ id_ip d = f_ip f /\
    exists i x ks k, id_postponed d = Some (i, x) /\ f_cur f = Some (site_of_insn i x, ks) /\
      wf_site (site_of_insn i x) /\ in_ip i = f_ip f /\
      kind_of e = Some k /\ ~ In k ks /\ causes (site_of_insn i x) e = true /\
      kinds (id_bound d) (k :: ks).
  (** ... the end of tracing with the current instruction, ... *)
  Definition pend_disable (d : dec) (f : flow) (e : event) (fs : list fact) : Prop :=
    comm d f (Some e) fs /\ f_on f = true /\
    exists s ks, f_cur f = Some (s, ks) /\ disables s e = true /\ id_ip d = resume s /\
      (id_postponed d = None -> id_bound d = no_bounds).
  (** ... or the end of tracing although tracing is off, an error. *)
  Definition pend_error (d : dec) (f : flow) (e : event) (fs : list fact) : Prop :=
    comm d f (Some e) fs /\ f_on f = false /\
    exists ip, ev_var e = Ev_disabled ip /\ ev_status_update e = false.

  Definition pending (d : dec) (s : fstate) : Prop :=
    exists f e fs, s = mk_fstate f (Some e) fs /\
    (pend_at d f e fs \/ pend_cause d f e fs \/ pend_disable d f e fs \/ pend_error d f e fs).
  Definition idle (d : dec) (s : fstate) : Prop :=
    ready d (fs_flow s) (fs_held s) (fs_facts s) /\
    quiet err (fun e => located (fs_flow s) e = true) (fs_held s) (fs_facts s).
  Definition between (d : dec) (st : N) (s : fstate) : Prop :=
    if flag st pts_event_pending then pending d s else idle d s.

  Lemma status_pending (d : dec) : flag (pt_insn_status d pts_event_pending) pts_event_pending = true.
  Proof. unfold pt_insn_status. destruct (id_enabled d); destruct (flag (id_status d) pts_eos && _); reflexivity. Qed.
  Lemma status_none (d : dec) : flag (pt_insn_status d 0) pts_event_pending = false.
  Proof. unfold pt_insn_status. destruct (id_enabled d); destruct (flag (id_status d) pts_eos && _); reflexivity. Qed.
  Lemma status_if (d : dec) (b : bool) :
    flag (pt_insn_status d (if b then pts_event_pending else 0)) pts_event_pending = b.
  Proof. destruct b; [apply status_pending|apply status_none]. Qed.

  (** Taking the event, as steps of the flow. *)
  Lemma take_flows ticks f h fs e fs' : h = Some e /\ fs' = fs \/ h = None /\ fs = F_event e :: fs' ->
    flows mem ticks err (mk_fstate f h fs) [] (mk_fstate f (Some e) fs').
  Proof. intros [(-> & ->)|(-> & ->)]; [constructor|apply flows_one; constructor]. Qed.

  (** After an instruction, or at the beginning. *)
  Definition settles (ticks : bool) (d : dec) (s : fstate) (r : dec * res N) : Prop :=
    match r with
    | (d', Ok st) => id_ticks d' = ticks /\ exists s', flows mem ticks err s [] s' /\ between d' st s'
    | (d', Err e) => exists s', flows mem ticks err s [] s' /\ halted err mem ticks d' e s'
    | (_, UB _) => False
    end.

  Lemma no_step_event ticks f h e fs : f_cur f = None -> h = Some e ->
    (f_on f = true -> f_mode f <> ptem_unknown -> located f e = false -> forall t i, ~ insn_of mem f t i) ->
    (located f e = true -> effect f e = None) -> no_step mem ticks err (mk_fstate f h fs).
  Proof.
    intros Hc -> Hi He o s' H. inversion H; subst; try congruence; cbn [quiet] in *.
    - exfalso. eapply Hi; try eassumption. destruct (located f e); [congruence|reflexivity].
    - rewrite He in *; congruence.
  Qed.
  Lemma no_step_error ticks f : err <> pte_eos -> no_step mem ticks err (mk_fstate f None []).
  Proof. intros He o s' H. inversion H; subst; cbn [quiet] in *; congruence. Qed.

  Lemma check_ip_ok d f h fs oi : ready d f h fs ->
    settles (id_ticks d) d (mk_fstate f h fs) (pt_insn_check_ip_event im d oi).
  Proof.
    intros (Hc & Hcur & Hip & Hp & Hb). unfold pt_insn_check_ip_event.
    pose proof (event_pending_ok cf buf base err sized freq small bytes cached d f h fs Hc) as E.
    destruct (event_pending d) as [d1 [[]|e|u]].
    - destruct E as (e & fs' & Hc' & (F1 & F2 & F3 & F4) & Ep & Ee & Hn & Ht).
      rewrite Ee.
      assert (G : forall b, b = located f e ->
        settles (id_ticks d) d (mk_fstate f h fs) (indicate d1 b)).
      { intros b Hb'. unfold indicate, settles. split; [exact F4|].
        exists (mk_fstate f (Some e) fs'). split; [apply take_flows; exact Ht|].
        unfold between. rewrite status_if. destruct b.
        - exists f, e, fs'. split; [reflexivity|]. left. split; [exact Hc'|]. split; [exact Hcur|].
          split; [congruence|]. split; [symmetry; exact Hb'|]. left. split; congruence.
        - split; [|cbn; congruence]. split; [exact Hc'|]. cbn. split; [exact Hcur|]. repeat split; congruence. }
      assert (Bad : forall e0, e0 <> pte_eos -> located f e = true -> effect f e = None ->
        settles (id_ticks d) d (mk_fstate f h fs) (d1, Err e0)).
      { intros e0 Hne Hl He. exists (mk_fstate f (Some e) fs'). split; [apply take_flows; exact Ht|].
        split; [congruence|right]. eapply no_step_event; try reflexivity; try assumption; [congruence|auto]. }
      rewrite (common_config cf buf base err sized freq small bytes cached _ _ _ _ Hc').
      rewrite (c_on Hc'), F1, Hip.
      assert (L : located f e = located f e) by reflexivity. unfold located in L at 2. unfold usual in Hn.
      destruct (ev_var e) eqn:Ev; try (destruct Hn; fail);
        try (apply G; rewrite L; reflexivity).
      all: try (apply G; rewrite L; rewrite ?orb_assoc; reflexivity).
      all: try (destruct (ev_ip_suppressed e) eqn:Es;
                [apply G; rewrite L; reflexivity|
                 apply Bad; [discriminate|exact L|unfold effect; rewrite Ev, Es; reflexivity]]).
      + (* async disabled *)
        destruct (f_ip f =? at_) eqn:Ea; cbn [negb]; [|apply G; rewrite L; reflexivity].
        rewrite no_skd022. apply G. rewrite L; reflexivity.
      + (* transaction *)
        unfold pt_insn_postpone_tsx.
        destruct (ev_ip_suppressed e) eqn:Es; [apply G; rewrite L; reflexivity|].
        rewrite (common_config cf buf base err sized freq small bytes cached _ _ _ _ Hc'), no_bdm64.
        assert (Eo : (match oi with Some i => if false then handle_erratum_bdm64 im d1 ip aborted i else (d1, Ok tt)
                      | None => (d1, Ok tt) end) = (d1, Ok tt)) by (destruct oi; reflexivity).
        rewrite Eo, negb_involutive, F1, Hip. apply G. rewrite L; reflexivity.
    - destruct E as (-> & -> & Hq). unfold indicate, settles. split; [reflexivity|].
      exists (mk_fstate f None fs). split; [constructor|]. unfold between. rewrite (status_if d false).
      split; [|apply Hq]. split; [exact Hc|]. auto.
    - destruct E as (He & -> & -> & Hne). exists (mk_fstate f None []). split; [constructor|].
      split; [congruence|right]. apply no_step_error. exact Hne.
    - exact E.
  Qed.

  (** Events of an instruction.  [on]: the instruction is in the flow. *)
  Definition at_insn (d : dec) (f : flow) (i : insn) (x : insn_ext) (ks : list kind) : Prop :=
    f_on f = true /\ f_cur f = Some (site_of_insn i x, ks) /\ in_ip i = f_ip f /\ id_ip d = f_ip f /\
    wf_site (site_of_insn i x) /\ kinds (id_bound d) ks /\
    (id_postponed d = None /\ id_bound d = no_bounds \/ id_postponed d = Some (i, x)).
  Definition after_insn (d : dec) (f : flow) (i : insn) (x : insn_ext) : Prop :=
    f_on f = false /\ f_cur f = None /\ id_ip d = f_ip f /\ id_postponed d = Some (i, x).

  Definition checks (ticks : bool) (d : dec) (f : flow) (h : option event) (fs : list fact)
             (r : dec * res N) : Prop :=
    match r with
    | (d', Ok st) => id_ticks d' = ticks /\
        if flag st pts_event_pending
        then exists s', flows mem ticks err (mk_fstate f h fs) [] s' /\ pending d' s'
        else exists h' fs', flows mem ticks err (mk_fstate f h fs) [] (mk_fstate f h' fs') /\
               comm d' f h' fs' /\ frame d d' /\
               (forall s ks, f_on f = true -> f_cur f = Some (s, ks) -> quiet err (binds s ks) h' fs')
    | (d', Err e) => exists s', flows mem ticks err (mk_fstate f h fs) [] s' /\ halted err mem ticks d' e s'
    | (_, UB _) => False
    end.

  Lemma at_disabled_ok e eip i x : ev_var e = Ev_disabled eip -> ev_status_update e = false ->
    match pt_insn_at_disabled_event e eip i x cf with
    | Ok b => b = disables (site_of_insn i x) e
    | Err er => er <> pte_eos /\ in_iclass i = ptic_unknown
    | UB _ => False
    end.
  Proof.
    intros Ev Eu. unfold pt_insn_at_disabled_event, disables. rewrite Ev, Eu. cbn [negb andb si_ext si_class site_of_insn].
    rewrite no_skl014, andb_false_r. cbn [andb].
    unfold pt_insn_is_far_branch, pt_insn_changes_cpl, pt_insn_changes_cr3, far.
    destruct (ev_ip_suppressed e).
    - destruct (in_iclass i); destruct (x_inst x); reflexivity.
    - unfold direct, is_jmpabs, target, ip_after. cbn [si_ext site_of_insn si_ip si_len].
      rewrite add64_disp.
      destruct (in_iclass i); try reflexivity; try (split; [discriminate|reflexivity]);
        destruct (x_inst x); destruct (x_direct x); reflexivity.
  Qed.

  Lemma resume_ok i x : wf_site (site_of_insn i x) ->
    match pt_insn_next_ip i x with
    | Ok ip => ip = resume (site_of_insn i x)
    | Err pte_bad_query => match in_iclass i with ptic_call | ptic_far_call => ip_after i | _ => 0 end =
                           resume (site_of_insn i x)
    | _ => False
    end.
  Proof.
    intros Hw. unfold wf_site in Hw. unfold pt_insn_next_ip, resume, next_insn, target, direct, is_jmpabs, ip_after.
    cbn [si_class si_ext si_ip si_len site_of_insn] in *. rewrite add64_disp, add64_offset.
    destruct (in_iclass i); try reflexivity; try (destruct Hw); destruct (x_inst x); destruct (x_direct x); reflexivity.
  Qed.

  Lemma bind_ok d f h fs i x ks ticks e d1 fs' (already here : bool) k b :
    at_insn d1 f i x ks \/ after_insn d1 f i x ->
    comm d1 f (Some e) fs' -> id_ticks d1 = ticks -> frame d d1 ->
    h = Some e /\ fs' = fs \/ h = None /\ fs = F_event e :: fs' ->
    kind_of e = Some k ->
    (f_on f = true -> here = causes (site_of_insn i x) e) ->
    (f_on f = true -> if already then In k ks else ~ In k ks /\ kinds b (k :: ks)) ->
    (f_on f = false -> located f e = true) ->
    checks ticks d f h fs (bind_event d1 i x already here b).
  Proof.
    intros Hat Hc Htk Hfr Ht Hk Hh Ha Hl.
    assert (Go : (f_on f = true -> ~ In k ks -> causes (site_of_insn i x) e = true -> False) ->
                 checks ticks d f h fs (d1, Ok 0)).
    { intros Hno. split; [exact Htk|]. cbn [flag]. change (flag 0 pts_event_pending) with false. cbv iota.
      exists (Some e), fs'. split; [apply take_flows; exact Ht|]. split; [assumption|]. split; [assumption|].
      intros s0 ks0 On Hcur [Hd|(k' & B1 & B2 & B3)].
      - clear - Hd Hk. unfold disables, kind_of in *. destruct (ev_var e); discriminate.
      - destruct Hat as [(_ & Hcur' & _)|(Off & _)]; [|congruence]. rewrite Hcur in Hcur'.
        injection Hcur' as -> ->. rewrite Hk in B1. injection B1 as <-. exact (Hno On B2 B3). }
    unfold bind_event. destruct already.
    { apply Go. intros On N _. apply N. exact (Ha On). }
    destruct here; cbn [negb].
    2:{ apply Go. intros On _ Hca. rewrite <- (Hh On) in Hca. discriminate. }
    unfold pt_insn_postpone, checks. split; [exact Htk|]. rewrite status_pending.
    exists (mk_fstate f (Some e) fs'). split; [apply take_flows; exact Ht|].
    exists f, e, fs'. split; [reflexivity|].
    assert (Hc' : comm (id_set_postponed d1 (match id_postponed d1 with Some p => Some p | None => Some (i, x) end) b)
      f (Some e) fs') by (apply common_postponed; exact Hc).
    destruct Hat as [(On & Hcur & Hi & Hip & Hw & Hks & Hp)|(Off & Hcur & Hip & Hp)].
    - right. left. split; [exact Hc'|]. split; [exact On|]. split; [exact Hip|].
      destruct (Ha On) as (Hnk & Hkb).
      exists i, x, ks, k. split; [cbn [id_postponed id_set_postponed]; destruct Hp as [(-> & _)| ->]; reflexivity|].
      repeat (split; [first [assumption | symmetry; exact (Hh On)]|]). exact Hkb.
    - left. split; [exact Hc'|]. split; [exact Hcur|]. split; [exact Hip|]. split; [exact (Hl Off)|].
      right. split; [exact Off|]. split; [congruence|]. cbn [id_postponed id_set_postponed]. rewrite Hp. discriminate.
  Qed.

  Lemma check_insn_ok d f h fs i x ks : comm d f h fs ->
    at_insn d f i x ks \/ after_insn d f i x ->
    checks (id_ticks d) d f h fs (pt_insn_check_insn_event d i x).
  Proof.
    intros Hc Hat. unfold pt_insn_check_insn_event.
    pose proof (event_pending_ok cf buf base err sized freq small bytes cached d f h fs Hc) as E.
    destruct (event_pending d) as [d1 [[]|e|u]].
    2:{ destruct E as (-> & -> & Hq). split; [reflexivity|]. change (flag 0 pts_event_pending) with false. cbv iota.
        exists None, fs. split; [constructor|]. split; [exact Hc|]. split; [apply frame_refl|]. intros; apply Hq. }
    2:{ destruct E as (He & -> & -> & Hne). exists (mk_fstate f None []). split; [constructor|].
        split; [congruence|right]. apply no_step_error. exact Hne. }
    2:{ exact E. }
    destruct E as (e & fs' & Hc' & Hfr & Ep & Ee & Hn & Ht). rewrite Ee.
    pose proof Hfr as (F1 & F2 & F3 & F4).
    assert (Hat' : at_insn d1 f i x ks \/ after_insn d1 f i x).
    { destruct Hat as [(A1 & A2 & A3 & A4 & A5 & A6 & A7)|(A1 & A2 & A3 & A4)]; [left|right].
      - unfold at_insn. rewrite F1, F2, F3. repeat (split; [assumption|]). assumption.
      - unfold after_insn. rewrite F1, F2. repeat (split; [assumption|]). assumption. }
    assert (Go : kind_of e = None -> disables (site_of_insn i x) e = false ->
                 checks (id_ticks d) d f h fs (d1, Ok 0)).
    { intros G1 G2. split; [exact F4|]. change (flag 0 pts_event_pending) with false. cbv iota.
      exists (Some e), fs'. split; [apply take_flows; exact Ht|]. split; [assumption|]. split; [assumption|].
      intros s0 ks0 On Hcur [Hd|(k' & B1 & _)]; [|congruence].
      destruct Hat' as [(_ & Hcur' & _)|(Off & _)]; [|congruence]. rewrite Hcur in Hcur'.
      injection Hcur' as -> ->. congruence. }
    assert (Bind : forall (already here : bool) k b,
      kind_of e = Some k ->
      (f_on f = true -> here = causes (site_of_insn i x) e) ->
      (f_on f = true -> if already then In k ks else ~ In k ks /\ kinds b (k :: ks)) ->
      (f_on f = false -> located f e = true) ->
      checks (id_ticks d) d f h fs (bind_event d1 i x already here b)).
    { intros already here k b B1 B2 B3 B4. eapply bind_ok; eassumption. }
    assert (Kb : f_on f = true -> kinds (id_bound d1) ks).
    { intros On. destruct Hat' as [(_ & _ & _ & _ & _ & K & _)|(Off & _)]; [exact K|congruence]. }
    assert (Ipi : f_on f = true -> id_ip d1 = in_ip i).
    { intros On. destruct Hat' as [(_ & _ & K1 & K2 & _)|(Off & _)]; congruence. }
    rewrite (common_config cf buf base err sized freq small bytes cached _ _ _ _ Hc').
    unfold usual in Hn.
    destruct (ev_var e) eqn:Ev; try (destruct Hn; fail);
      try (apply Go; [unfold kind_of|unfold disables]; rewrite Ev; reflexivity).
    1:{ (* disabled *)
      destruct (ev_status_update e) eqn:Eu;
        [apply Go; [unfold kind_of|unfold disables]; rewrite Ev; [|rewrite Eu]; reflexivity|].
      assert (Off_bad : forall (d' : dec) er, f_on f = false -> f_cur f = None -> er <> pte_eos ->
        checks (id_ticks d) d f h fs (d', Err er)).
      { intros d' er Off Hcur Hne. exists (mk_fstate f (Some e) fs'). split; [apply take_flows; exact Ht|].
        split; [congruence|right]. eapply no_step_event; try reflexivity; try assumption; [congruence|].
        unfold located. rewrite Ev, Eu. discriminate. }
      pose proof (at_disabled_ok e ip i x Ev Eu) as D.
      destruct (pt_insn_at_disabled_event e ip i x cf) as [[]|er|u]; [| | |exact D].
      2:{ apply Go; [unfold kind_of; rewrite Ev; reflexivity|symmetry; exact D]. }
      2:{ destruct D as (D1 & D2). destruct Hat' as [(_ & _ & _ & _ & Hw & _)|(Off & Hcur & _)].
          - exfalso. unfold wf_site in Hw. cbn [si_class site_of_insn] in Hw. rewrite D2 in Hw. exact Hw.
          - apply Off_bad; assumption. }
      assert (P : forall a, (f_on f = true -> a = resume (site_of_insn i x)) ->
        checks (id_ticks d) d f h fs (id_set_ip d1 a, Ok (pt_insn_status (id_set_ip d1 a) pts_event_pending))).
      { intros a Ha. split; [exact F4|]. rewrite status_pending. exists (mk_fstate f (Some e) fs').
        split; [apply take_flows; exact Ht|]. exists f, e, fs'. split; [reflexivity|].
        pose proof (common_ip cf buf base err cached d1 f (Some e) fs' a Hc') as Hc2.
        destruct Hat' as [(On & Hcur & Hi & Hip & Hw & Hks & Hp)|(Off & Hcur & Hip & Hp)].
        - right. right. left. split; [exact Hc2|]. split; [exact On|]. exists (site_of_insn i x), ks.
          split; [exact Hcur|]. split; [symmetry; exact D|]. split; [apply (Ha On)|].
          cbn [id_postponed id_bound id_set_ip]. destruct Hp as [(_ & Hp)|Hp]; [auto|congruence].
        - right. right. right. split; [exact Hc2|]. split; [exact Off|]. exists ip. auto. }
      destruct Hat' as [(On & Hcur & Hi & Hip & Hw & Hks & Hp)|(Off & Hcur & Hip & Hp)].
      - pose proof (resume_ok i x Hw) as R.
        destruct (pt_insn_next_ip i x) as [a|er|u]; [apply P; auto| |destruct R].
        destruct er; try (destruct R; fail). apply P. auto.
      - assert (Q : match pt_insn_next_ip i x with Ok _ => True | Err er => er <> pte_eos | UB _ => False end).
        { unfold pt_insn_next_ip. destruct (in_iclass i); try exact I; try discriminate;
            destruct (is_jmpabs x); destruct (x_direct x); try exact I; discriminate. }
        destruct (pt_insn_next_ip i x) as [a|er|u]; [apply P; congruence| |destruct Q].
        destruct er; first [apply Off_bad; first [assumption|discriminate] | apply P; congruence]. }
    all: unfold kinds in Bind;
      match goal with
      | Ev : ev_var ?e = Ev_paging _ _ |- _ => apply (Bind _ _ K_paging)
      | Ev : ev_var ?e = Ev_vmcs _ |- _ => apply (Bind _ _ K_vmcs)
      | Ev : ev_var ?e = Ev_ptwrite _ _ _ |- _ => apply (Bind _ _ K_ptwrite)
      | Ev : ev_var ?e = Ev_iret _ |- _ => apply (Bind _ _ K_iret)
      | Ev : ev_var ?e = Ev_vmentry _ |- _ => apply (Bind _ _ K_vmentry)
      | Ev : ev_var ?e = Ev_uiret _ |- _ => apply (Bind _ _ K_uiret)
      end.
    all: try (unfold kind_of; rewrite Ev; reflexivity).
    all: try (intros Off; unfold located; rewrite Ev, Off; reflexivity).
    all: try (intros On; unfold causes; rewrite Ev; try rewrite (Ipi On); cbn [si_ip si_ext si_class site_of_insn];
              solve [unfold pt_insn_binds_to_pip, pt_insn_is_far_branch, far; destruct (x_inst x); destruct (in_iclass i); reflexivity
                    | unfold pt_insn_binds_to_vmcs, pt_insn_is_far_branch, far; destruct (x_inst x); destruct (in_iclass i); reflexivity
                    | destruct (ev_ip_suppressed e); [|reflexivity];
                      unfold pt_insn_is_ptwrite, pt_insn_is_iret, pt_insn_is_vmentry, pt_insn_is_uiret;
                      first [destruct (x_inst x); reflexivity | destruct (in_iclass i); reflexivity]]).
    all: intros On; specialize (Kb On); unfold kinds in Kb;
      destruct Kb as (K1 & K2 & K3 & K4 & K5 & K6);
      match goal with |- if ?b then _ else _ => destruct b eqn:Hal end;
      [tauto|].
    all: split; [intros HI; apply K1 in HI || apply K2 in HI || apply K3 in HI || apply K4 in HI || apply K5 in HI || apply K6 in HI;
              congruence|];
      cbn [bo_paging bo_vmcs bo_ptwrite bo_iret bo_vmentry bo_uiret In];
      clear - K1 K2 K3 K4 K5 K6; intuition (try discriminate).
  Qed.
End FLOW.
