(** Sideband: the perf event decoder follows the rules for address spaces. *)
From Verif Require Import Base M_event M_pevent M_sb M_sbpev S_sb2 S_sb3 L_core L_sb L_sbpev L_sbpev2 L_sb2.
From Coq Require Import List NArith Bool PeanoNat Permutation Lia.
Import ListNotations.
Open Scope nat_scope.

Section REF.
  Context {E I : Type} (out : outside E I) (t : tools I) (kernel : I).
  Notation wld := (world E I).
  Notation tab := (table I).
  Implicit Types (w : wld) (p : priv) (y : tab) (v : cpu_view).
  Hypothesis ANS : answers out.
  Hypothesis WK : works out t.

  Definition WR w y : Prop :=
    length (wd_heap w) = length (tb_spaces y) /\
    (forall c x, deref w c = Ok x -> nth_error (tb_spaces y) c = Some (mk_space (cx_image x) (cx_abi x))) /\
    (forall c, In c (wd_contexts w) -> exists x, deref w c = Ok x /\ tb_process y (cx_pid x) = Some c) /\
    (forall pid c, tb_process y pid = Some c ->
       In c (wd_contexts w) /\ exists x, deref w c = Ok x /\ cx_pid x = pid) /\
    NoDup (wd_contexts w) /\ wd_kernel w = kernel /\ wd_image w = tb_shown y.

  Lemma WR_ext w y y' : WR w y -> tb_spaces y' = tb_spaces y -> tb_shown y' = tb_shown y ->
    (forall q, tb_process y' q = tb_process y q) -> WR w y'.
  Proof.
    intros (A & B & C & D & F & G & H) E1 E2 E3. unfold WR. rewrite E1, E2.
    split; [exact A|]. split; [exact B|]. split; [|split; [|split; [exact F|split; [exact G|exact H]]]].
    - intros c Hc. destruct (C c Hc) as (x & X1 & X2). exists x. now rewrite E3.
    - intros pid c. rewrite E3. apply D.
  Qed.

  Lemma WR_env w y e : WR w y -> WR (wd_set_env w e) y.
  Proof. intros H. exact H. Qed.

  (** Changing a context. *)
  Lemma WR_store w y y' c x x' : WR w y -> deref w c = Ok x -> cx_pid x' = cx_pid x ->
    tb_process y' = tb_process y -> tb_shown y' = tb_shown y ->
    length (tb_spaces y') = length (tb_spaces y) ->
    nth_error (tb_spaces y') c = Some (mk_space (cx_image x') (cx_abi x')) ->
    (forall c', c' <> c -> nth_error (tb_spaces y') c' = nth_error (tb_spaces y) c') ->
    WR (store w c (Some x')) y'.
  Proof.
    intros (A & B & C & D & F & G & H) Dx Px E1 E2 E3 E4 E5.
    destruct (deref_uc _ _ _ Dx) as (_ & L). unfold WR. rewrite E1, E2, E3.
    change (wd_contexts (store w c (Some x'))) with (wd_contexts w).
    split; [|split; [|split; [|split; [|split; [exact F|split; [exact G|exact H]]]]]].
    - unfold store, wd_set_heap. cbn [wd_heap]. now rewrite set_at_length.
    - intros c' z. rewrite deref_store by exact L. destruct (Nat.eq_dec c c') as [<-|N].
      + intros Q. injection Q as <-. exact E4.
      + rewrite E5 by congruence. apply B.
    - intros c' Hc. destruct (C c' Hc) as (z & Z1 & Z2). rewrite deref_store by exact L.
      destruct (Nat.eq_dec c c') as [<-|N]; [|now exists z]. exists x'. split; [reflexivity|]. rewrite Px. congruence.
    - intros pid c' Q. destruct (D pid c' Q) as (In_ & z & Z1 & Z2). split; [exact In_|].
      rewrite deref_store by exact L. destruct (Nat.eq_dec c c') as [<-|N]; [|now exists z].
      exists x'. split; [reflexivity|]. rewrite Px. congruence.
  Qed.

  Lemma WR_count w y c x n : WR w y -> deref w c = Ok x -> WR (store w c (Some (cx_set_ucount x n))) y.
  Proof.
    intros H Dx. pose proof H as (_ & B & _). eapply WR_store; try exact H; try exact Dx; try reflexivity.
    exact (B _ _ Dx).
  Qed.

  Lemma put_ref w R c y : Inv w (c :: R) -> WR w y ->
    exists w', pt_sb_ctx_put w c = (w', Ok tt) /\ wd_contexts w' = wd_contexts w /\
               wd_image w' = wd_image w /\ Inv w' R /\ WR w' y.
  Proof.
    intros H Hw. destruct (put_ctx _ _ _ H) as (w' & P1 & P2 & P3 & P4). exists w'.
    split; [exact P1|]. split; [exact P2|]. split; [exact P3|]. split; [exact P4|].
    destruct (Inv_alive _ _ c H) as (x & D); [apply in_or_app; right; now left|].
    revert P1. unfold pt_sb_ctx_put. rewrite D.
    destruct (N.ltb_spec 1 (cx_ucount x)).
    - intros Q. injection Q as <-. now apply WR_count.
    - destruct (N.eqb_spec (cx_ucount x) 0); [discriminate|]. intros Q. injection Q as <-.
      destruct (deref_uc _ _ _ D) as (U & L). pose proof (proj1 H c) as Cn. rewrite U, cnt_app, cnt_cons in Cn.
      destruct (Nat.eq_dec c c) as [_|]; [|congruence].
      assert (Nc : ~ In c (wd_contexts w)). { intros Hc. apply cnt_in in Hc. lia. }
      destruct Hw as (A & B & C & D' & F & G & K).
      change (wd_contexts (store w c None)) with (wd_contexts w) in *.
      unfold WR. change (wd_contexts (store w c None)) with (wd_contexts w).
      split; [|split; [|split; [|split; [|split; [exact F|split; [exact G|exact K]]]]]].
      + unfold store, wd_set_heap. cbn [wd_heap]. now rewrite set_at_length.
      + intros c' z. rewrite deref_store by exact L. destruct (Nat.eq_dec c c') as [<-|N]; [discriminate|apply B].
      + intros c' Hc. rewrite deref_store by exact L. destruct (Nat.eq_dec c c') as [<-|N]; [now destruct Nc|now apply C].
      + intros pid c' Q. destruct (D' pid c' Q) as (In_ & Z). split; [exact In_|]. rewrite deref_store by exact L.
        destruct (Nat.eq_dec c c') as [<-|N]; [now destruct Nc|exact Z].
  Qed.

  Lemma cnt_le l c : cnt l c <= length l.
  Proof. induction l as [|d l IH]; [apply le_n|]. rewrite cnt_cons. cbn [length]. destruct (Nat.eq_dec d c); lia. Qed.
  Lemma cnt_nodup l c : NoDup l -> cnt l c <= 1.
  Proof. intros H. exact (proj1 (NoDup_count_occ Nat.eq_dec l) H c). Qed.

  Lemma get_ref w R c y : Inv w R -> In c (wd_contexts w ++ R) -> (N.of_nat (length R) <= 65000)%N -> WR w y ->
    exists w', pt_sb_ctx_get w c = (w', Ok tt) /\ wd_contexts w' = wd_contexts w /\
               wd_image w' = wd_image w /\ Inv w' (c :: R) /\ WR w' y.
  Proof.
    intros H In_ Len Hw. pose proof (get_safe _ _ _ H In_) as X. destruct (Inv_alive _ _ _ H In_) as (x & D).
    revert X. unfold pt_sb_ctx_get. rewrite D.
    destruct (deref_uc _ _ _ D) as (U & L). pose proof (proj1 H c) as Cn. rewrite U, cnt_app in Cn.
    pose proof (cnt_le R c) as C1. pose proof Hw as (_ & _ & _ & _ & F & _). pose proof (cnt_nodup _ c F) as C2.
    destruct (N.leb_spec 65535 (cx_ucount x)); [lia|]. intros (X1 & X2 & X3).
    eexists. split; [reflexivity|]. split; [exact X1|]. split; [exact X2|]. split; [exact X3|]. now apply WR_count.
  Qed.

  Lemma find_ref w y pid : WR w y -> pt_sb_find_context_by_pid w pid = Ok (tb_process y pid).
  Proof.
    intros (A & B & C & D & _). unfold pt_sb_find_context_by_pid.
    assert (X : forall l, (forall c, In c l -> In c (wd_contexts w)) ->
      find_pid w l pid = Ok (tb_process y pid) \/
      (find_pid w l pid = Ok None /\ forall c, tb_process y pid = Some c -> ~ In c l)).
    { induction l as [|c l IH]; intros Hl; cbn [find_pid]; [right; split; [reflexivity|intros c _ []]|].
      destruct (C c (Hl c (or_introl eq_refl))) as (x & Dx & Px). rewrite Dx. cbn [bind].
      destruct (N.eqb_spec (cx_pid x) pid) as [<-|N]; [left; now rewrite Px|].
      destruct IH as [->|(-> & X)]; [intros c' Hc; apply Hl; now right|now left|]. right. split; [reflexivity|].
      intros c' Hc [<-|H]; [|exact (X c' Hc H)]. destruct (D _ _ Hc) as (_ & z & Z1 & Z2). congruence. }
    destruct (X (wd_contexts w)) as [H|(H & N)]; [now intros|exact H|]. rewrite H.
    destruct (tb_process y pid) as [c|] eqn:P_; [|reflexivity]. destruct (N c eq_refl). now apply (D pid).
  Qed.

  Notation fresh := (S_sb3.fresh t (eo_new out) kernel).
  Notation look := (S_sb3.look t (eo_new out) kernel).

  Lemma fresh_ref w R y pid : Inv w R -> WR w y -> tb_process y pid = None ->
    exists w', pt_sb_add_context_by_pid out w pid = (w', Ok (snd (fresh pid y))) /\
      wd_image w' = wd_image w /\ Inv w' R /\ WR w' (fst (fresh pid y)) /\
      In (snd (fresh pid y)) (wd_contexts w').
  Proof.
    intros H Hw Np. pose proof (add_safe out ANS w R pid H) as X.
    destruct WK as (W1 & W2 & _). revert X. unfold pt_sb_add_context_by_pid.
    specialize (W1 (wd_env w)). destruct (eo_alloc out (wd_env w)) as (e, ok). cbn [snd] in W1. subst ok. cbn [negb].
    specialize (W2 (wd_env (wd_set_env w e)) (eo_new out) (wd_kernel (wd_set_env w e))).
    destruct (eo_copy out (wd_env (wd_set_env w e)) (eo_new out) (wd_kernel (wd_set_env w e))) as ((e', i), r).
    cbn [fst snd] in W2. destruct W2 as (-> & ->). cbn [wd_set_env wd_heap wd_kernel].
    destruct Hw as (A & B & C & D & F & G & K). rewrite G. unfold S_sb3.fresh. cbn [fst snd]. rewrite <- A.
    set (x := mk_context (tl_copy t (eo_new out) kernel) pt_sb_abi_unknown pid 1).
    set (w1 := wd_set_contexts _ _). intros (X1 & X2 & X3 & X4 & X5).
    exists w1. split; [reflexivity|]. split; [exact X1|]. split; [exact X2|]. split; [|exact X5].
    assert (D0 : deref w1 (length (wd_heap w)) = Ok x).
    { unfold deref, w1. cbn. rewrite nth_error_app2 by apply le_n. now rewrite Nat.sub_diag. }
    assert (D1 : forall c z, deref w c = Ok z -> deref w1 c = Ok z /\ c <> length (wd_heap w)).
    { intros c z Dz. destruct (deref_uc _ _ _ Dz) as (_ & L). split; [|lia]. revert Dz. unfold deref, w1. cbn.
      now rewrite nth_error_app1. }
    assert (Nl : forall c, In c (wd_contexts w) -> c <> length (wd_heap w)).
    { intros c Hc. destruct (C c Hc) as (z & Z & _). now apply (D1 c z). }
    unfold WR. cbn [tb_spaces tb_process tb_shown]. split; [|split; [|split; [|split; [|split; [|split]]]]].
    - unfold w1. cbn. rewrite !app_length. cbn [length]. now rewrite A.
    - intros c z Dz. destruct (deref_new w x c z Dz) as [(-> & ->)|D2].
      + rewrite A, nth_error_app2 by apply le_n. now rewrite Nat.sub_diag.
      + destruct (deref_uc _ _ _ D2) as (_ & L). rewrite nth_error_app1 by (now rewrite <- A). exact (B _ _ D2).
    - intros c [<-|Hc]; [exists x; split; [exact D0|]; cbn [x cx_pid]; now rewrite N.eqb_refl|].
      destruct (C c Hc) as (z & Z1 & Z2). exists z. split; [now apply D1|].
      destruct (N.eqb_spec (cx_pid z) pid) as [Ez|]; [congruence|exact Z2].
    - intros q c. destruct (N.eqb_spec q pid) as [->|].
      + intros Q. injection Q as <-. split; [now left|]. now exists x.
      + intros Q. destruct (D q c Q) as (In_ & z & Z1 & Z2). split; [now right|]. exists z. split; [now apply D1|exact Z2].
    - constructor; [|exact F]. intros Hc. now apply (Nl _ Hc).
    - exact G.
    - rewrite <- K. reflexivity.
  Qed.

  Lemma look_ref w R y pid : Inv w R -> WR w y ->
    exists w', pt_sb_get_context_by_pid out w pid = (w', Ok (snd (look pid y))) /\
      wd_image w' = wd_image w /\ Inv w' R /\ WR w' (fst (look pid y)) /\
      In (snd (look pid y)) (wd_contexts w').
  Proof.
    intros H Hw. unfold pt_sb_get_context_by_pid. rewrite (find_ref w y pid Hw). unfold S_sb3.look.
    destruct (tb_process y pid) as [c|] eqn:P_.
    - exists w. cbn [fst snd]. split; [reflexivity|]. split; [reflexivity|]. split; [exact H|]. split; [exact Hw|].
      now apply Hw in P_.
    - now apply fresh_ref.
  Qed.

  Definition unset (pid : N) y : tab :=
    mk_table (tb_spaces y) (fun q => if N.eqb q pid then None else tb_process y q) (tb_shown y).

  Lemma unlink_order w l c l' : unlink w c l = Ok (Some l') -> NoDup l -> NoDup l' /\ ~ In c l' /\ (forall d, In d l' <-> In d l /\ d <> c).
  Proof.
    revert l'. induction l as [|d l IH]; intros l' H ND; cbn [unlink] in H; [discriminate|].
    apply NoDup_cons_iff in ND. destruct ND as (Nd & ND).
    destruct (Nat.eqb_spec d c) as [->|N].
    - destruct (deref w c); cbn [bind] in H; try discriminate. injection H as <-. split; [exact ND|]. split; [exact Nd|].
      intros d. split; [intros Hd; split; [now right|intros ->; contradiction]|intros ([->|Hd] & Nd'); [congruence|exact Hd]].
    - destruct (deref w d); cbn [bind] in H; try discriminate.
      destruct (unlink w c l) as [[l1|]|e|u]; cbn [bind] in H; try discriminate. injection H as <-.
      destruct (IH l1 eq_refl ND) as (A & B & C). split; [|split].
      + constructor; [|exact A]. intros Hd. apply C in Hd. now destruct Hd.
      + intros [->|Hc]; [congruence|contradiction].
      + intros d'. cbn [In]. rewrite C. split; [intros [->|(X & Y)]; auto|intros ([->|X] & Y); auto].
  Qed.

  Lemma remove_ref w R y pid c : Inv w R -> WR w y -> tb_process y pid = Some c ->
    exists w', pt_sb_remove_context w c = (w', Ok tt) /\ wd_image w' = wd_image w /\ Inv w' R /\ WR w' (unset pid y).
  Proof.
    intros H Hw P_. pose proof Hw as (A & B & C & D & F & G & K). destruct (D _ _ P_) as (In_ & x & Dx & Px).
    unfold pt_sb_remove_context.
    destruct (unlink_safe w (wd_contexts w) c) as (l' & U & X); [|exact In_|].
    { intros z Hz. apply (Inv_alive _ _ _ H). apply in_or_app. now left. }
    rewrite U. destruct (unlink_order _ _ _ _ U F) as (ND & Nc & El).
    assert (H1 : Inv (wd_set_contexts w l') (c :: R)).
    { destruct H as (HA & HB). split; [|exact HB]. intros c'.
      change (uc (wd_set_contexts w l') c') with (uc w c'). rewrite <- HA.
      cbn [wd_set_contexts wd_contexts]. rewrite !cnt_app, X. rewrite (cnt_cons c R). lia. }
    assert (H2 : WR (wd_set_contexts w l') (unset pid y)).
    { unfold WR, unset. cbn [tb_spaces tb_process tb_shown wd_set_contexts wd_contexts].
      split; [exact A|]. split; [exact B|]. split; [|split; [|split; [exact ND|split; [exact G|exact K]]]].
      - intros d Hd. apply El in Hd. destruct Hd as (Hd & Nd). destruct (C d Hd) as (z & Z1 & Z2). exists z.
        split; [exact Z1|]. destruct (N.eqb_spec (cx_pid z) pid) as [Ez|]; [|exact Z2]. rewrite Ez in Z2. congruence.
      - intros q d. destruct (N.eqb_spec q pid); [discriminate|]. intros Q. destruct (D q d Q) as (Id & z & Z1 & Z2).
        split; [|now exists z]. apply El. split; [exact Id|]. intros ->. congruence. }
    destruct (put_ref _ _ _ _ H1 H2) as (w' & P1 & _ & P3 & P4 & P5). exists w'. split; [exact P1|].
    split; [exact P3|]. split; [exact P4|exact P5].
  Qed.

  (** The old address space of a process goes, and a new one is made. *)
  Lemma renew_ref {A} w p R y pid (k : nat -> M A) : Inv w R -> WR w y ->
    exists w', mbind (pt_sb_pevent_remove_context_for_pid pid)
                 (fun _ => mbind (onworld (fun w => pt_sb_get_context_by_pid out w pid)) k) (w, p) =
               k (snd (fresh pid y)) (w', p) /\
      wd_image w' = wd_image w /\ Inv w' R /\ WR w' (fst (fresh pid y)) /\ In (snd (fresh pid y)) (wd_contexts w').
  Proof.
    intros H Hw.
    assert (X : exists w', pt_sb_pevent_remove_context_for_pid pid (w, p) = ((w', p), Ok tt) /\
              wd_image w' = wd_image w /\ Inv w' R /\ WR w' (unset pid y)).
    { unfold pt_sb_pevent_remove_context_for_pid, mbind, onworld. cbn [fst snd]. rewrite (find_ref w y pid Hw).
      destruct (tb_process y pid) as [c|] eqn:P_; cbn [fst snd].
      - destruct (remove_ref w R y pid c H Hw P_) as (w' & -> & Q). now exists w'.
      - exists w. split; [reflexivity|]. split; [reflexivity|]. split; [exact H|].
        eapply WR_ext; [exact Hw|reflexivity|reflexivity|]. intros q. cbn. destruct (N.eqb_spec q pid) as [->|]; congruence. }
    destruct X as (w1 & X1 & X2 & X3 & X4). unfold mbind at 1. rewrite X1. unfold mbind, onworld. cbn [fst snd].
    assert (N1 : tb_process (unset pid y) pid = None) by (cbn; now rewrite N.eqb_refl).
    destruct (fresh_ref w1 R _ pid X3 X4 N1) as (w2 & Y1 & Y2 & Y3 & Y4 & Y5).
    unfold pt_sb_get_context_by_pid. rewrite (find_ref w1 _ pid X4), N1, Y1. cbn [fst snd].
    exists w2. split; [reflexivity|]. split; [congruence|]. split; [exact Y3|]. split; [|exact Y5].
    eapply WR_ext; [exact Y4|reflexivity|reflexivity|]. intros q. cbn. now destruct (N.eqb q pid).
  Qed.
End REF.
