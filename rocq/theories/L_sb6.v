(** Sideband: the perf event decoder follows the rules for address spaces, continued. *)
From Verif Require Import Base M_event M_pevent M_sb M_sbpev S_sb2 S_sb3 L_core L_sb L_sbpev L_sbpev2 L_sb2 L_sb5.
From Coq Require Import List NArith Bool PeanoNat Permutation Lia.
Import ListNotations.
Open Scope nat_scope.

Definition mode_of (l : ploc) : mode :=
  match l with
  | ploc_unknown => Unknown
  | ploc_in_kernel | ploc_likely_in_kernel => Kernel
  | ploc_in_user | ploc_likely_in_user => User
  end.

Definition goal_of (p : priv) : option nat :=
  match pp_next_context p with Some n => Some n | None => pp_context p end.

Definition XR (p : priv) (v : cpu_view) : Prop :=
  cv_now v = pp_context p /\ cv_goal v = goal_of p /\
  (forall n, pp_next_context p = Some n -> pp_context p <> Some n) /\ cv_mode v = mode_of (pp_location p).

Lemma kernelish_mode l : kernelish l = negb (is_user (mode_of l)).
Proof. now destruct l. Qed.

Lemma mode_event p ev : mode_of (ploc_from_event p ev) = mode_after (pp_kernel_start p) (mode_of (pp_location p)) ev.
Proof.
  assert (A : forall ip, mode_of (ploc_from_ip p ip) = mode_at (pp_kernel_start p) ip).
  { intros ip. unfold ploc_from_ip, mode_at. now destruct (ip <? pp_kernel_start p)%N. }
  assert (B : forall l, mode_of (ploc_from_suppressed_ip l) = other (mode_of l)) by (now intros []).
  unfold ploc_from_event, mode_after. destruct (ev_var ev); try reflexivity; try apply A;
    destruct (ev_ip_suppressed ev); rewrite ?A, ?B, ?A; reflexivity.
Qed.

Lemma bit13 m : truth (N.land m 8192) = N.testbit m 13.
Proof.
  assert (X : N.land m 8192 = if N.testbit m 13 then 8192%N else 0%N).
  { apply N.bits_inj. intros i. rewrite N.land_spec. change 8192%N with (2 ^ 13)%N.
    rewrite N.pow2_bits_eqb. destruct (N.eqb_spec 13 i) as [<-|N].
    - rewrite andb_true_r. destruct (N.testbit m 13); reflexivity.
    - rewrite andb_false_r. destruct (N.testbit m 13); [|now rewrite N.bits_0].
      symmetry. rewrite N.pow2_bits_eqb. now apply N.eqb_neq. }
  rewrite X. now destruct (N.testbit m 13).
Qed.

Lemma same_neq a b : a <> b -> same a b = false.
Proof.
  destruct a, b; cbn; try reflexivity; try congruence. intros H. apply Nat.eqb_neq. congruence.
Qed.
Lemma same_refl a : same a a = true.
Proof. destruct a; cbn; [apply Nat.eqb_refl|reflexivity]. Qed.

Section REF.
  Context {E I : Type} (out : outside E I) (t : tools I) (kernel : I).
  Notation wld := (world E I).
  Notation tab := (table I).
  Implicit Types (w : wld) (p : priv) (y : tab) (v : cpu_view).
  Hypothesis ANS : answers out.
  Hypothesis WK : works out t.
  Variables FK FR : list nat.
  Hypothesis Few : (N.of_nat (length FK + length FR) <= 64000)%N.
  Notation WR := (WR kernel).
  Notation PInv := (PInv FK FR).
  Notation fresh := (S_sb3.fresh t (eo_new out) kernel).
  Notation look := (S_sb3.look t (eo_new out) kernel).
  Definition held (p : priv) : list nat := opt (pp_context p) ++ opt (pp_next_context p) ++ FK ++ FR.

  Lemma few p : (N.of_nat (length (held p)) <= 65000)%N.
  Proof.
    unfold held. rewrite !app_length. destruct (pp_context p), (pp_next_context p); cbn [opt length]; clear - Few; lia.
  Qed.

  Definition rel w p y v : Prop := PInv w p /\ WR w y /\ XR p v.

  (** From one pair of states to another, with a result. *)
  Definition goes {A} (m : M A) w p (q : tab * cpu_view) (r : res A -> Prop) : Prop :=
    exists w' p' r', m (w, p) = ((w', p'), r') /\ r r' /\ rel w' p' (fst q) (snd q).

  Definition fine {A} (r : res A) : Prop := exists a, r = Ok a.
  Definition any_res {A} (r : res A) : Prop := no_ub r.

  Lemma goes_weaken {A} (m : M A) w p q : goes m w p q fine -> goes m w p q any_res.
  Proof.
    intros (w' & p' & r' & X & (a & ->) & Y). exists w', p', (Ok a). split; [exact X|]. split; [intros ? ?; discriminate|exact Y].
  Qed.

  Lemma prepare_ref w p y v c : rel w p y v -> In c (wd_contexts w) ->
    goes (pt_sb_pevent_prepare_context_switch c) w p (y, aim c v) fine.
  Proof.
    intros (HP & HW & X1 & X2 & X3 & X4) In_. pose proof (prepare_ok (I := I) FK FR c w p HP In_) as OK.
    unfold goes. revert OK. unfold pt_sb_pevent_prepare_context_switch, mbind, private.
    cbn [fst snd].
    destruct (is_ctx (pp_next_context p) c) eqn:I1.
    { cbn [ret fst snd]. intros OK. exists w, p, (Ok tt). split; [reflexivity|]. split; [now exists tt|].
      split; [exact HP|]. split; [exact HW|]. unfold XR, aim. cbn [fst snd cv_now cv_goal cv_mode].
      split; [exact X1|]. split; [|split; [exact X3|exact X4]].
      unfold goal_of. destruct (pp_next_context p) as [n|]; [|discriminate]. cbn in I1. apply Nat.eqb_eq in I1. now subst. }
    assert (CAN : exists w1, WR w1 y /\ wd_contexts w1 = wd_contexts w /\
       Inv w1 (opt (pp_context p) ++ FK ++ FR) /\
       pt_sb_pevent_cancel_context_switch (w, p) = ((w1, match pp_next_context p with Some _ => pp_set_ctx p (pp_context p) None | None => p end), Ok tt)).
    { unfold pt_sb_pevent_cancel_context_switch, mbind, private, update, onworld. cbn [fst snd].
      destruct HP as (HI & _). destruct (pp_next_context p) as [n|] eqn:En.
      - assert (I3 : Inv w (n :: opt (pp_context p) ++ FK ++ FR)).
        { eapply Inv_ext; [|exact HI]. intros c'. cbn [opt app].
          rewrite (cnt_app (opt (pp_context p))), !cnt_cons, (cnt_app (opt (pp_context p))). lia. }
        destruct (put_ref kernel _ _ _ y I3 HW) as (w1 & P1 & P2 & P3 & P4 & P5). exists w1.
        split; [exact P5|]. split; [exact P2|]. split; [exact P4|]. cbn [fst snd]. now rewrite P1.
      - exists w. split; [exact HW|]. split; [reflexivity|]. split; [exact HI|reflexivity]. }
    destruct CAN as (w1 & C1 & C2 & C3 & C4). rewrite C4. clear C4. unfold onworld, update.
    set (p1 := match pp_next_context p with Some _ => pp_set_ctx p (pp_context p) None | None => p end).
    assert (P1 : pp_context p1 = pp_context p /\ pp_next_context p1 = None /\ pp_location p1 = pp_location p).
    { unfold p1. destruct (pp_next_context p) eqn:En; [now cbn|auto]. }
    destruct P1 as (Pc & Pn & Pl).
    destruct (is_ctx (pp_context p) c) eqn:I2; cbn [fst snd ret].
    { intros (OK1 & _). exists w1, p1, (Ok tt). split; [reflexivity|]. split; [now exists tt|]. split; [exact OK1|].
      split; [exact C1|]. unfold XR, aim, goal_of. cbn [fst snd cv_now cv_goal cv_mode]. rewrite Pc, Pn, Pl.
      split; [exact X1|]. split; [|split; [discriminate|exact X4]].
      destruct (pp_context p) as [n|]; [|discriminate]. cbn in I2. apply Nat.eqb_eq in I2. now subst. }
    assert (In1 : In c (wd_contexts w1 ++ opt (pp_context p) ++ FK ++ FR)) by (apply in_or_app; left; now rewrite C2).
    assert (Len : (N.of_nat (length (opt (pp_context p) ++ FK ++ FR)) <= 65000)%N).
    { rewrite !app_length. destruct (pp_context p); cbn [opt length]; clear - Few; lia. }
    destruct (get_ref kernel _ _ _ y C3 In1 Len C1) as (w2 & G1 & G2 & G3 & G4 & G5). rewrite G1. cbn [fst snd].
    intros (OK1 & _). eexists w2, _, (Ok tt). split; [reflexivity|]. split; [now exists tt|]. split; [exact OK1|].
    split; [exact G5|]. unfold XR, aim, goal_of. cbn [fst snd cv_now cv_goal cv_mode pp_set_ctx pp_context pp_next_context pp_location].
    rewrite Pc, Pl. split; [exact X1|]. split; [reflexivity|]. split; [|exact X4].
    intros n Q. injection Q as <-. intros Q. rewrite Q in I2. cbn in I2. now rewrite Nat.eqb_refl in I2.
  Qed.

  Lemma switch_ref w p y v n : rel w p y v -> pp_next_context p = Some n ->
    goes (pt_sb_pevent_switch_contexts out true) w p (arrive y v) fine.
  Proof.
    intros (HP & HW & X1 & X2 & X3 & X4) En. pose proof (switch_ok out ANS FK FR true w p HP Logic.I) as OK.
    unfold goes. revert OK. unfold pt_sb_pevent_switch_contexts, mbind, private, onworld, update. cbn [fst snd negb].
    rewrite En. unfold pt_sb_ctx_switch_to. cbn [fst snd negb].
    pose proof HP as (HI & _). rewrite En in HI. cbn [opt app] in HI.
    destruct (Inv_alive w _ n HI) as (x & D).
    { apply in_or_app. right. apply in_or_app. right. now left. }
    rewrite D. set (g := match eo_switch out with Some notify => _ | None => _ end).
    assert (G : exists e, g = (wd_set_image (wd_set_env w e) (Some n), Ok tt)).
    { unfold g. destruct WK as (_ & _ & _ & _ & W5). destruct (eo_switch out) as [f|].
      - specialize (W5 f eq_refl (wd_env w) n). destruct (f (wd_env w) n) as (e', r). cbn [snd] in W5. subst r. now exists e'.
      - exists (wd_env w). now destruct w. }
    destruct G as (e & G). rewrite G. cbn [fst snd].
    assert (Ar : arrive y v = (mk_table (tb_spaces y) (tb_process y) (Some n), mk_cpu_view (Some n) (Some n) (cv_mode v))).
    { unfold arrive. assert (Gv : cv_goal v = Some n) by (rewrite X2; unfold goal_of; now rewrite En).
      rewrite same_neq; [now rewrite Gv|]. rewrite Gv, X1. exact (X3 n En). }
    rewrite Ar. cbn [fst snd].
    assert (HW1 : WR (wd_set_image (wd_set_env w e) (Some n)) (mk_table (tb_spaces y) (tb_process y) (Some n))).
    { destruct HW as (A & B & C & D' & F & H & K). unfold L_sb5.WR. cbn [tb_spaces tb_process tb_shown].
      split; [exact A|]. split; [exact B|]. split; [exact C|]. split; [exact D'|]. split; [exact F|]. split; [exact H|reflexivity]. }
    assert (XX : XR (pp_set_ctx p (Some n) None) (mk_cpu_view (Some n) (Some n) (cv_mode v))).
    { unfold XR, goal_of. cbn. split; [reflexivity|]. split; [reflexivity|]. split; [discriminate|exact X4]. }
    destruct (pp_context p) as [c|] eqn:Ec.
    - cbn [opt app] in HI.
      assert (HI1 : Inv (wd_set_image (wd_set_env w e) (Some n)) (c :: n :: FK ++ FR)) by exact HI.
      destruct (put_ref kernel _ _ _ _ HI1 HW1) as (w2 & P1 & P2 & P3 & P4 & P5). unfold onworld. cbn [fst snd]. rewrite P1. cbn [fst snd].
      intros (OK1 & _). eexists w2, _, (Ok tt). split; [reflexivity|]. split; [now exists tt|]. split; [exact OK1|].
      split; [exact P5|exact XX].
    - cbn [ret fst snd]. intros (OK1 & _). eexists _, _, (Ok tt). split; [reflexivity|]. split; [now exists tt|]. split; [exact OK1|].
      split; [exact HW1|exact XX].
  Qed.

  (** A process is looked up; the rest goes on from there. *)
  Lemma PInv_world w w' p : PInv w p -> wd_image w' = wd_image w -> Inv w' (held p) -> PInv w' p.
  Proof. intros (A & B) Ei Hi. split; [exact Hi|now rewrite Ei]. Qed.

  Lemma look_goes {A} w p y v pid (k : nat -> M A) q r : rel w p y v ->
    (forall w', rel w' p (fst (look pid y)) v -> In (snd (look pid y)) (wd_contexts w') ->
       goes (k (snd (look pid y))) w' p q r) ->
    goes (mbind (onworld (fun w => pt_sb_get_context_by_pid out w pid)) k) w p q r.
  Proof.
    intros (HP & HW & HX) K. destruct (look_ref out t kernel ANS WK w (held p) y pid (proj1 HP) HW) as (w' & L1 & L2 & L3 & L4 & L5).
    unfold goes, mbind, onworld. cbn [fst snd]. rewrite L1. apply K; [|exact L5].
    split; [exact (PInv_world _ _ _ HP L2 L3)|]. split; [exact L4|exact HX].
  Qed.

  Lemma renew_goes {A} w p y v pid (k : nat -> M A) q r : rel w p y v ->
    (forall w', rel w' p (fst (fresh pid y)) v -> In (snd (fresh pid y)) (wd_contexts w') ->
       goes (k (snd (fresh pid y))) w' p q r) ->
    goes (mbind (pt_sb_pevent_remove_context_for_pid pid)
            (fun _ => mbind (onworld (fun w => pt_sb_get_context_by_pid out w pid)) k)) w p q r.
  Proof.
    intros (HP & HW & HX) K. destruct (renew_ref out t kernel ANS WK w p (held p) y pid k (proj1 HP) HW) as (w' & L1 & L2 & L3 & L4 & L5).
    unfold goes. rewrite L1. apply K; [|exact L5].
    split; [exact (PInv_world _ _ _ HP L2 L3)|]. split; [exact L4|exact HX].
  Qed.

  Lemma prepare_pid_ref w p y v pid : rel w p y v ->
    goes (pt_sb_pevent_prepare_switch_to_pid out pid) w p (let (y, c) := look pid y in (y, aim c v)) fine.
  Proof.
    intros H. unfold pt_sb_pevent_prepare_switch_to_pid. apply (look_goes w p y v); [exact H|].
    intros w' H' In_. destruct (look pid y) as (y', c). now apply prepare_ref.
  Qed.

  Lemma itrace_ref w p y v pid : rel w p y v ->
    goes (pt_sb_pevent_itrace_start out true pid) w p
      (let (y, v) := (let (y, c) := look pid y in (y, aim c v)) in arrive y v) fine.
  Proof.
    intros H. destruct (prepare_pid_ref w p y v pid H) as (w1 & p1 & r1 & M1 & (a & ->) & R1).
    destruct (let (y, c) := look pid y in (y, aim c v)) as (y1, v1). cbn [fst snd] in R1.
    unfold goes, pt_sb_pevent_itrace_start, mbind. rewrite M1. unfold private. cbn [fst snd].
    destruct (pp_next_context p1) as [n|] eqn:En.
    - exact (switch_ref w1 p1 y1 v1 n R1 En).
    - cbn [ret]. exists w1, p1, (Ok tt). split; [reflexivity|]. split; [now exists tt|].
      assert (Ar : arrive y1 v1 = (y1, v1)).
      { destruct R1 as (_ & _ & Q1 & Q2 & _). unfold arrive. rewrite Q1, Q2. unfold goal_of. rewrite En. now rewrite same_refl. }
      now rewrite Ar.
  Qed.

  Lemma exec_ref given w p y v pid : rel w p y v ->
    goes (pt_sb_pevent_exec out given pid) w p
      (let (y, c) := fresh pid y in (y, if given then aim c v else v)) fine.
  Proof.
    intros H. unfold pt_sb_pevent_exec. apply (renew_goes w p y v); [exact H|].
    intros w' H' In_. destruct (fresh pid y) as (y', c). cbn [fst snd] in *.
    destruct given; cbn [negb]; [now apply prepare_ref|].
    exists w', p, (Ok tt). split; [reflexivity|]. split; [now exists tt|exact H'].
  Qed.

  (** The image of an address space changes. *)
  Lemma change_ref w y c x x' : WR w y -> deref w c = Ok x -> cx_pid x' = cx_pid x ->
    forall f, f (mk_space (cx_image x) (cx_abi x)) = mk_space (cx_image x') (cx_abi x') ->
    WR (store w c (Some x')) (change c f y).
  Proof.
    intros HW D Px f Hf. pose proof HW as (A & B & _). destruct (deref_uc _ _ _ D) as (_ & L). rewrite A in L.
    unfold change. rewrite (B _ _ D), Hf. eapply WR_store; try exact HW; try exact D; try exact Px; try reflexivity.
    - cbn [tb_spaces]. now rewrite set_at_length.
    - cbn [tb_spaces]. now apply set_at_nth_eq.
    - intros c' N. cbn [tb_spaces]. apply set_at_nth_ne; [exact L|congruence].
  Qed.

  Lemma on_image_ref w R y c f g : Inv w R -> WR w y -> In c (wd_contexts w ++ R) ->
    (forall e i, no_ub (snd (f e i))) -> (forall e i, snd (fst (f e i)) = g i) ->
    exists w' r, on_image w c f = (w', r) /\ no_ub r /\ wd_image w' = wd_image w /\
       wd_contexts w' = wd_contexts w /\ Inv w' R /\
       WR w' (change c (fun x => mk_space (g (sp_image x)) (sp_abi x)) y).
  Proof.
    intros H HW In_ N1 N2. pose proof (on_image_safe w R c f H In_ N1) as X. revert X. unfold on_image.
    destruct (Inv_alive _ _ _ H In_) as (x & D). rewrite D. specialize (N2 (wd_env w) (cx_image x)).
    destruct (f (wd_env w) (cx_image x)) as ((e, i), r). cbn [fst snd] in N2. subst i.
    intros (X1 & X2 & X3 & X4). eexists _, r. split; [reflexivity|]. split; [exact X4|]. split; [exact X1|]. split; [exact X2|].
    split; [exact X3|].
    apply (change_ref (wd_set_env w e) y c x); [exact HW|exact D|reflexivity|reflexivity].
  Qed.

  Lemma copy_pure e i j : snd (fst (eo_copy out e i j)) = tl_copy t i j.
  Proof. destruct WK as (_ & W2 & _). now apply W2. Qed.

  Lemma fork_ref w p y v pid ppid tid : rel w p y v ->
    goes (pt_sb_pevent_fork out pid ppid tid) w p
      (if (ppid =? pid)%N || negb (pid =? tid)%N then (y, v) else
       let (y, c) := fresh pid y in
       match tb_process y ppid with
       | None => (y, v)
       | Some parent =>
           match nth_error (tb_spaces y) parent with
           | Some q => (change c (fun x => mk_space (tl_copy t (sp_image x) (sp_image q)) (sp_abi x)) y, v)
           | None => (y, v)
           end
       end) any_res.
  Proof.
    intros H. unfold pt_sb_pevent_fork.
    destruct (N.eqb ppid pid); cbn [orb].
    { exists w, p, (Ok tt). split; [reflexivity|]. split; [intros ? ?; discriminate|exact H]. }
    destruct (N.eqb pid tid); cbn [negb].
    2: { exists w, p, (Err pte_internal). split; [reflexivity|]. split; [intros ? ?; discriminate|exact H]. }
    apply (renew_goes w p y v); [exact H|]. intros w' (HP & HW & HX) In_. destruct (fresh pid y) as (y', c). cbn [fst snd] in *.
    unfold goes, mbind, onworld. cbn [fst snd]. rewrite (find_ref kernel w' y' ppid HW).
    destruct (tb_process y' ppid) as [parent|] eqn:Pp; cbn [fst snd ret].
    2: { exists w', p, (Ok tt). split; [reflexivity|]. split; [intros ? ?; discriminate|]. split; [exact HP|]. now split. }
    pose proof HW as (_ & B & _ & D & _). destruct (D _ _ Pp) as (Ip & x & Dx & _). rewrite Dx, (B _ _ Dx). cbn [sp_image].
    destruct (on_image_ref w' (held p) y' c (fun e i => eo_copy out e i (cx_image x)) (fun i => tl_copy t i (cx_image x)) (proj1 HP) HW)
      as (w2 & r & O1 & O2 & O3 & O4 & O5 & O6).
    { apply in_or_app. now left. }
    { intros e i. apply (proj1 ANS). }
    { intros e i. apply copy_pure. }
    rewrite O1. exists w2, p, r. split; [reflexivity|]. split; [exact O2|]. split; [exact (PInv_world _ _ _ HP O3 O5)|].
    split; [exact O6|exact HX].
  Qed.

  (** A message for the user changes nothing. *)
  Lemma report_ref w p y v code : rel w p y v -> goes (pt_sb_pevent_error out code) w p (y, v) any_res.
  Proof.
    intros (HP & HW & HX). pose proof (report_ok out ANS FK FR any code w p HP Logic.I) as OK. unfold goes. revert OK.
    unfold pt_sb_pevent_error, mbind, private, onworld, pt_sb_error. cbn [fst snd].
    destruct (eo_error out) as [f|].
    - destruct (f (wd_env w) code _) as (e, r). cbn [fst snd]. intros (OK1 & _ & OK3 & _). eexists _, p, r.
      split; [reflexivity|]. split; [exact OK3|]. split; [exact OK1|]. split; [exact HW|exact HX].
    - cbn [fst snd]. intros (OK1 & _). exists w, p, (Ok tt). split; [reflexivity|]. split; [intros ? ?; discriminate|].
      split; [exact OK1|]. now split.
  Qed.

  Lemma change_change c f g y : change c f (change c g y) = change c (fun x => f (g x)) y.
  Proof.
    unfold change. destruct (nth_error (tb_spaces y) c) as [x|] eqn:N1; [|now rewrite N1].
    cbn [tb_spaces tb_process tb_shown].
    assert (L : c < length (tb_spaces y)) by (apply nth_error_Some; congruence).
    rewrite set_at_nth_eq by exact L. f_equal. clear N1. revert c L. generalize (tb_spaces y) as l.
    induction l as [|a l IH]; intros c L; [cbn in L; lia|]. destruct c as [|c]; [reflexivity|].
    cbn in L. apply Nat.succ_lt_mono in L. cbn. f_equal. now apply IH.
  Qed.
  Lemma change_ext c f g y : (forall x, nth_error (tb_spaces y) c = Some x -> f x = g x) -> change c f y = change c g y.
  Proof. intros H. unfold change. destruct (nth_error (tb_spaces y) c) as [x|]; [|reflexivity]. now rewrite H. Qed.

  Lemma map_pure e i f o s a :
    snd (fst ((fun e i => if negb (eo_iscache out) then eo_add_file out e i f o s a else
      match eo_isc_add out e f o s a with
      | (e, Ok isid) => eo_add_cached out e i isid
      | (e, Err x) => (e, i, Err x)
      | (e, UB u) => (e, i, UB u)
      end) e i)) = tl_map t i f o s a.
  Proof.
    cbn beta. destruct WK as (_ & _ & W3 & _). destruct (eo_iscache out); cbn [negb]; [|apply W3].
    specialize (W3 e i f o s a). destruct (eo_isc_add out e f o s a) as (e', [isid|er|u]); exact W3.
  Qed.

  Lemma map_file_ref w p y v c file o s a : rel w p y v -> In c (wd_contexts w) ->
    goes (map_file out c file o s a) w p (change c (mapped t file o s a) y, v) any_res.
  Proof.
    intros (HP & HW & HX) In_. unfold goes, map_file, mbind, pt_sb_pevent_track_abi, onworld. cbn [fst snd].
    assert (In1 : In c (wd_contexts w ++ held p)) by (apply in_or_app; now left).
    destruct (Inv_alive _ _ _ (proj1 HP) In1) as (x & D). rewrite D.
    pose proof HW as (_ & B & _).
    set (abi := match cx_abi x, tl_abi t file with pt_sb_abi_unknown, Some b => b | b, _ => b end).
    assert (T1 : exists w1, (match cx_abi x with
         | pt_sb_abi_unknown =>
             let (e, o0) := eo_abi out (wd_env w) file in
             match o0 with
             | Some b => (store (wd_set_env w e) c (Some (cx_set_abi x b)), Ok tt)
             | None => (wd_set_env w e, Ok tt)
             end
         | _ => (w, Ok tt)
         end) = (w1, Ok tt) /\ wd_image w1 = wd_image w /\ wd_contexts w1 = wd_contexts w /\ Inv w1 (held p) /\
         WR w1 (change c (fun z => mk_space (sp_image z) abi) y)).
    { assert (Id : cx_abi x = abi -> WR w (change c (fun z => mk_space (sp_image z) abi) y)).
      { intros Ea. rewrite (change_ext c _ (fun z => z)); [|intros z; rewrite (B _ _ D); intros Q; injection Q as <-; cbn [sp_image]; congruence].
        eapply WR_ext; [exact HW| | |]; unfold change; rewrite (B _ _ D); try reflexivity. cbn [tb_spaces].
        clear - B D. specialize (B _ _ D). revert B. generalize (mk_space (cx_image x) (cx_abi x)) as z. clear D.
        revert c. generalize (tb_spaces y) as l. induction l as [|b l IH]; intros [|c] z Q; cbn in *; try discriminate.
        - injection Q as ->. reflexivity.
        - f_equal. now apply IH. }
      destruct (cx_abi x) eqn:Ea;
        try (exists w; split; [reflexivity|]; split; [reflexivity|]; split; [reflexivity|]; split; [exact (proj1 HP)|];
             apply Id; unfold abi; reflexivity).
      destruct WK as (_ & _ & _ & W4 & _). specialize (W4 (wd_env w) file).
      destruct (eo_abi out (wd_env w) file) as (e, o0). cbn [snd] in W4. unfold abi. rewrite <- W4. destruct o0 as [b|].
      - eexists. split; [reflexivity|]. split; [reflexivity|]. split; [reflexivity|]. split.
        + apply (Inv_store _ _ _ x); [exact (proj1 HP)|exact D|reflexivity].
        + apply (change_ref (wd_set_env w e) y c x); [exact HW|exact D|reflexivity|reflexivity].
      - exists (wd_set_env w e). split; [reflexivity|]. split; [reflexivity|]. split; [reflexivity|]. split; [exact (proj1 HP)|].
        unfold abi in Id. rewrite <- W4 in Id. exact (Id eq_refl). }
    destruct T1 as (w1 & T1 & T2 & T3 & T4 & T5).
    match goal with |- context [match ?m with (_, _) => _ end] => idtac end.
    cbv zeta. rewrite T1. cbn [fst snd].
    unfold pt_sb_ctx_mmap.
    match goal with |- context [on_image w1 c ?f] =>
      destruct (on_image_ref w1 (held p) _ c f (fun i => tl_map t i file o s a) T4 T5) as (w2 & r & O1 & O2 & O3 & O4 & O5 & O6) end.
    { apply in_or_app. left. now rewrite T3. }
    { intros e i. destruct ANS as (_ & A1 & A2 & A3 & _). destruct (eo_iscache out); cbn [negb]; [|apply A1].
      specialize (A2 e file o s a). destruct (eo_isc_add out e file o s a) as (e', [isid|er|u]);
        [apply A3|intros ? ?; discriminate|now destruct (A2 u eq_refl)]. }
    { intros e i. apply map_pure. }
    rewrite O1. exists w2, p, r. split; [reflexivity|]. split; [exact O2|].
    split; [apply (PInv_world w); [exact HP|congruence|exact O5]|]. split; [|exact HX].
    rewrite change_change in O6. cbn [fst]. erewrite change_ext; [exact O6|].
    intros z Hz. rewrite (B _ _ D) in Hz. injection Hz as <-. reflexivity.
  Qed.

  Lemma streq_eq a b : streq a b = true -> a = b.
  Proof.
    revert b. induction a as [|x a IH]; intros [|z b] H; cbn in H; try discriminate; [reflexivity|].
    apply andb_prop in H. destruct H as (H1 & H2). apply N.eqb_eq in H1. subst. f_equal. now apply IH.
  Qed.
  Lemma starts_bracket l : starts_with l [91%N] = match l with b :: _ => (b =? 91)%N | [] => false end.
  Proof. destruct l as [|b l]; [reflexivity|]. cbn [starts_with]. replace (starts_with l []) with true by now destruct l. rewrite andb_true_r. apply N.eqb_sym. Qed.

  Lemma map_ref w p y v pid name o s a : rel w p y v ->
    goes (pt_sb_pevent_map out pid name o s a) w p
      (let (y, c) := look pid y in
       let abi := match nth_error (tb_spaces y) c with Some x => sp_abi x | None => pt_sb_abi_unknown end in
       match file_for p abi name with
       | Some f => (change c (mapped t f o s a) y, v)
       | None => (y, v)
       end) any_res.
  Proof.
    intros H. unfold pt_sb_pevent_map. apply (look_goes w p y v); [exact H|]. intros w' H' In_.
    destruct (look pid y) as (y', c). cbn [fst snd] in *. cbv zeta. unfold mbind at 1, private. unfold goes.
    cbn [fst snd].
    rewrite <- starts_bracket. unfold file_for. destruct (streq name str_vdso) eqn:Ev.
    - apply streq_eq in Ev. subst name. replace (starts_with str_vdso [91%N]) with true by reflexivity.
      unfold mbind, onworld. cbn [fst snd].
      destruct (Inv_alive w' (held p) c (proj1 (proj1 H'))) as (x & D); [apply in_or_app; now left|].
      rewrite D. pose proof H' as (_ & (_ & B & _) & _). rewrite (B _ _ D). cbn [sp_abi].
      unfold pt_sb_pevent_find_vdso.
      destruct (match cx_abi x with pt_sb_abi_unknown => None | pt_sb_abi_x64 => pp_vdso_x64 p
          | pt_sb_abi_x32 => pp_vdso_x32 p | pt_sb_abi_ia32 => pp_vdso_ia32 p end) as [f|];
        [exact (map_file_ref w' p y' v c f o s a H' In_)|exact (report_ref w' p y' v _ H')].
    - destruct (starts_with name [91%N]); cbn [orb]; [exact (report_ref w' p y' v _ H')|].
      destruct (streq name str_anon); cbn [orb]; [exact (report_ref w' p y' v _ H')|].
      destruct (strstr name str_deleted); [exact (report_ref w' p y' v _ H')|].
      exact (map_file_ref w' p y' v c _ o s a H' In_).
  Qed.

  Lemma skip_ref {A} w p y v (a : A) : rel w p y v -> goes (ret a) w p (y, v) any_res.
  Proof. intros H. exists w, p, (Ok a). split; [reflexivity|]. split; [intros ? ?; discriminate|exact H]. Qed.

  Lemma record_ref given w p y v r : rel w p y v ->
    goes (pt_sb_pevent_apply_event_record out given r) w p (on_record t (eo_new out) kernel given p r y v) any_res.
  Proof.
    intros H. unfold pt_sb_pevent_apply_event_record, on_record.
    change PERF_RECORD_MISC_SWITCH_OUT with 8192%N. change PERF_RECORD_MISC_COMM_EXEC with 8192%N. rewrite bit13.
    unfold pt_sb_pevent_ignore_mmap. change PERF_RECORD_MISC_CPUMODE_MASK with 7%N. change PERF_RECORD_MISC_KERNEL with 1%N.
    destruct (pe_record r); try (now apply skip_ref).
    all: cbv zeta; destruct (N.testbit (pe_misc r) 13).
    all: repeat match goal with
      | |- _ => progress cbn [negb andb]
      | |- context [negb ?b] => is_var b; destruct b
      | |- context [if ?b then _ else _] => is_var b; destruct b
      | |- goes (if ?b then _ else _) _ _ _ _ => destruct b
      | |- goes (match ?o with Some _ => _ | None => _ end) _ _ _ _ => destruct o
      end;
      first [now apply skip_ref|now apply report_ref|now apply map_ref|now apply fork_ref
            |now apply goes_weaken, itrace_ref|now apply goes_weaken, (exec_ref true)
            |now apply goes_weaken, (exec_ref false)
            |now apply goes_weaken, prepare_pid_ref|idtac].
    all: try (exists w, p, (Err pte_bad_config); split; [reflexivity|]; split; [intros ? ?; discriminate|exact H]).
    all: destruct (sm_pid (pe_sample r)); now apply skip_ref.
  Qed.

  Lemma apply_ref given ev w p y v : rel w p y v ->
    goes (pt_sb_pevent_apply out given ev) w p (on_apply t (eo_new out) kernel given ev p y v) any_res.
  Proof.
    intros H. unfold pt_sb_pevent_apply, on_apply, due_record. unfold mbind at 1, private. unfold goes. cbn [fst snd].
    replace (match pp_current p with Some n => negb (Nat.eqb n (pp_next p)) | None => true end) with (negb (at_end p))
      by (unfold at_end; now destruct (pp_current p)).
    match goal with |- context [if ?b then _ else _] => destruct b end.
    { exact (record_ref given w p y v (pp_event p) H). }
    unfold mbind, update. cbn [fst snd].
    set (p1 := pp_set_loc p (ploc_from_event p ev)). unfold on_event.
    destruct H as (HP & HW & X1 & X2 & X3 & X4).
    set (v1 := mk_cpu_view _ _ _).
    assert (H1 : rel w p1 y v1).
    { split; [exact HP|]. split; [exact HW|]. unfold XR, v1. cbn [cv_now cv_goal cv_mode].
      split; [exact X1|]. split; [exact X2|]. split; [exact X3|]. cbn [p1 pp_set_loc pp_location]. now rewrite mode_event, X4. }
    assert (St : goal_of p1 = pp_context p1 -> arrive y v1 = (y, v1)).
    { intros Hg. destruct H1 as (_ & _ & Q1 & Q2 & _). unfold arrive. rewrite Q1, Q2, Hg. now rewrite same_refl. }
    destruct (pp_next_context p) as [n|] eqn:En.
    - rewrite !kernelish_mode, mode_event, <- X4, <- negb_andb.
      destruct (is_user (cv_mode v) && is_user (mode_after (pp_kernel_start p) (cv_mode v) ev)); cbn [negb].
      + rewrite andb_false_r. exact (skip_ref w p1 y v1 tt H1).
      + rewrite andb_true_r. destruct given.
        * exact (goes_weaken _ _ _ _ (switch_ref w p1 y v1 n H1 En)).
        * unfold pt_sb_pevent_switch_contexts, mbind, private. cbn [fst snd negb].
          exists w, p1, (Err pte_internal). split; [reflexivity|]. split; [intros ? ?; discriminate|exact H1].
    - assert (Q : (if given && negb (is_user (cv_mode v) && is_user (mode_after (pp_kernel_start p) (cv_mode v) ev))
                   then arrive y v1 else (y, v1)) = (y, v1)).
      { rewrite St by (unfold goal_of, p1; cbn [pp_set_loc pp_next_context pp_context]; now rewrite En).
        match goal with |- (if ?b then _ else _) = _ => now destruct b end. }
      rewrite Q. destruct (at_end p); [|exact (skip_ref w p1 y v1 tt H1)].
      exists w, p1, (Err pte_eos). split; [reflexivity|]. split; [intros ? ?; discriminate|exact H1].
  Qed.

  Lemma apply_callback_ref given ev w p y v : rel w p y v ->
    goes (fun s => apply_callback out given ev (fst s) (snd s)) w p (on_apply t (eo_new out) kernel given ev p y v) any_res.
  Proof.
    intros H. destruct (apply_ref given ev w p y v H) as (w1 & p1 & r1 & M1 & N1 & R1).
    unfold goes, apply_callback. cbn [fst snd]. rewrite M1. destruct (on_apply _ _ _ _ _ _ _ _) as (y1, v1). cbn [fst snd] in R1.
    destruct r1 as [[]|e|u].
    - exists w1, p1, (Ok tt). now split.
    - assert (X := report_ref w1 p1 y1 v1 (ptse_error e) R1). destruct e; try exact X.
      exists w1, p1, (Err pte_eos). now split.
    - now destruct (N1 u eq_refl).
  Qed.

  Lemma fetch_callback_ref w p y v : rel w p y v ->
    let '(s, r) := fetch_callback out w p in WR (fst s) y /\ XR (snd s) v.
  Proof.
    intros (HP & HW & HX). unfold fetch_callback, pt_sb_pevent_fetch, mbind, private, update. cbn [fst snd].
    destruct (let* _ := pev_read (skipn (pp_next p) (pp_buf p)) (pp_pev p) in _) as [(n, e)|e|u]; cbn [bind].
    - destruct (sm_time (pe_sample e)); cbn [ret fst snd]; (split; [exact HW|exact HX]).
    - cbn [fail]. set (p1 := pp_set_pos p _ _ _).
      destruct (report_ref w p1 y v (ptse_error e)) as (w2 & p2 & r2 & M2 & _ & R2).
      { split; [exact HP|]. split; [exact HW|exact HX]. }
      rewrite M2. destruct e; cbn [fst snd]; try exact (proj2 R2). split; [exact HW|exact HX].
    - cbn [fst snd]. split; [exact HW|exact HX].
  Qed.

  Lemma print_callback_ref w p y v : rel w p y v ->
    let '(s, r) := print_callback out w p in WR (fst s) y /\ XR (snd s) v.
  Proof.
    intros (HP & HW & HX). unfold print_callback. destruct (pp_current p); [cbn [fst snd]; now split|].
    destruct (report_ref w p y v (ptse_error pte_internal)) as (w2 & p2 & r2 & M2 & _ & R2).
    { split; [exact HP|]. split; [exact HW|exact HX]. }
    rewrite M2. exact (proj2 R2).
  Qed.

  Lemma dtor_ref w p y : Inv w (held p) -> WR w y -> WR (fst (dtor w p)) y.
  Proof.
    intros H HW. unfold dtor, put_opt. unfold held in H.
    destruct (pp_next_context p) as [n|], (pp_context p) as [c|]; cbn [opt app] in H; try exact HW.
    - assert (H2 : Inv w (n :: c :: FK ++ FR)).
      { eapply Inv_ext; [|exact H]. intros c'. rewrite !cnt_cons. lia. }
      destruct (put_ref kernel _ _ _ y H2 HW) as (w1 & -> & A1 & A2 & A3 & A4).
      destruct (put_ref kernel _ _ _ y A3 A4) as (w2 & -> & B1 & B2 & B3 & B4). exact B4.
    - destruct (put_ref kernel _ _ _ y H HW) as (w1 & -> & A1 & A2 & A3 & A4). exact A4.
    - destruct (put_ref kernel _ _ _ y H HW) as (w1 & -> & A1 & A2 & A3 & A4). exact A4.
  Qed.
End REF.
