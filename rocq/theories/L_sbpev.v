(** Sideband: references to process contexts are counted. *)
From Verif Require Import Base M_event M_pevent M_sb M_sbpev L_core.
From Coq Require Import List NArith Bool PeanoNat Lia.
Import ListNotations.
Open Scope nat_scope.

Section SAFE.
  Context {E I : Type} (out : outside E I).
  Notation wld := (world E I).
  Implicit Types w : wld.

  (** The outside answers. *)
  Definition answers : Prop :=
    (forall e i j, no_ub (snd (eo_copy out e i j))) /\
    (forall e i f o s v, no_ub (snd (eo_add_file out e i f o s v))) /\
    (forall e f o s v, no_ub (snd (eo_isc_add out e f o s v))) /\
    (forall e i n, no_ub (snd (eo_add_cached out e i n))) /\
    (forall f, eo_switch out = Some f -> forall e c, no_ub (snd (f e c))) /\
    (forall f, eo_error out = Some f -> forall e r n, no_ub (snd (f e r n))).
  Hypothesis ANS : answers.

  Definition uc (w : wld) (c : nat) : N :=
    match nth_error (wd_heap w) c with Some (Some x) => cx_ucount x | _ => 0%N end.
  Definition cnt (l : list nat) (c : nat) : nat := count_occ Nat.eq_dec l c.
  Definition Inv (w : wld) (R : list nat) : Prop :=
    (forall c, N.of_nat (cnt (wd_contexts w ++ R) c) = uc w c) /\
    (forall c x, deref w c = Ok x -> (1 <= cx_ucount x)%N).

  Lemma cnt_app a b c : cnt (a ++ b) c = cnt a c + cnt b c.
  Proof. apply count_occ_app. Qed.
  Lemma cnt_cons a l c : cnt (a :: l) c = (if Nat.eq_dec a c then 1 else 0) + cnt l c.
  Proof. unfold cnt. cbn. destruct (Nat.eq_dec a c); reflexivity. Qed.
  Lemma cnt_in l c : In c l -> 1 <= cnt l c.
  Proof. intros H. now apply (count_occ_In Nat.eq_dec) in H. Qed.

  Lemma Inv_ext w R R' : (forall c, cnt R c = cnt R' c) -> Inv w R -> Inv w R'.
  Proof.
    intros X (A & B). split; [|exact B]. intros c. rewrite <- A, !cnt_app, X. reflexivity.
  Qed.

  Lemma deref_uc w c x : deref w c = Ok x -> uc w c = cx_ucount x /\ c < length (wd_heap w).
  Proof.
    unfold deref, uc. destruct (nth_error (wd_heap w) c) as [[y|]|] eqn:X; try discriminate.
    intros H. injection H as ->. split; [reflexivity|]. apply nth_error_Some. now rewrite X.
  Qed.

  Lemma uc_deref w c : (1 <= uc w c)%N -> exists x, deref w c = Ok x.
  Proof.
    unfold deref, uc. destruct (nth_error (wd_heap w) c) as [[y|]|]; try lia. eauto.
  Qed.

  Lemma Inv_alive w R c : Inv w R -> In c (wd_contexts w ++ R) -> exists x, deref w c = Ok x.
  Proof.
    intros (A & _) H. apply uc_deref. rewrite <- A. apply cnt_in in H. lia.
  Qed.

  Lemma deref_env w e c : deref (wd_set_env w e) c = deref w c.
  Proof. reflexivity. Qed.

  Lemma deref_store w c v c' : c < length (wd_heap w) ->
    deref (store w c v) c' =
    if Nat.eq_dec c c' then match v with Some x => Ok x | None => UB ub_uaf end else deref w c'.
  Proof.
    intros L. unfold deref, store, wd_set_heap. cbn [wd_heap]. destruct (Nat.eq_dec c c') as [<-|N].
    - rewrite set_at_nth_eq by exact L. reflexivity.
    - rewrite set_at_nth_ne by assumption. reflexivity.
  Qed.

  Lemma uc_store w c v c' : c < length (wd_heap w) ->
    uc (store w c v) c' =
    if Nat.eq_dec c c' then match v with Some x => cx_ucount x | None => 0%N end else uc w c'.
  Proof.
    intros L. unfold uc, store, wd_set_heap. cbn [wd_heap]. destruct (Nat.eq_dec c c') as [<-|N].
    - rewrite set_at_nth_eq by exact L. reflexivity.
    - rewrite set_at_nth_ne by assumption. reflexivity.
  Qed.

  (** Changing a context but for its count. *)
  Lemma Inv_store w R c x y : Inv w R -> deref w c = Ok x -> cx_ucount y = cx_ucount x ->
    Inv (store w c (Some y)) R.
  Proof.
    intros (A & B) D U. destruct (deref_uc _ _ _ D) as (Uc & L). split.
    - intros c'. rewrite uc_store by exact L. change (wd_contexts (store w c (Some y))) with (wd_contexts w).
      destruct (Nat.eq_dec c c') as [<-|N]; rewrite A; [congruence|reflexivity].
    - intros c' z. rewrite deref_store by exact L. destruct (Nat.eq_dec c c') as [<-|N]; [|apply B].
      intros H. injection H as <-. rewrite U. exact (B _ _ D).
  Qed.

  Lemma Inv_env w R e : Inv w R -> Inv (wd_set_env w e) R.
  Proof. intros H. exact H. Qed.
  Lemma Inv_image w R i : Inv w R -> Inv (wd_set_image w i) R.
  Proof. intros H. exact H. Qed.

  Lemma get_safe w R c : Inv w R -> In c (wd_contexts w ++ R) ->
    let (w', r) := pt_sb_ctx_get w c in
    wd_contexts w' = wd_contexts w /\ wd_image w' = wd_image w /\
    match r with Ok _ => Inv w' (c :: R) | Err _ => Inv w' R | UB _ => False end.
  Proof.
    intros H In_. destruct (Inv_alive _ _ _ H In_) as (x & D). unfold pt_sb_ctx_get. rewrite D.
    destruct H as (A & B). destruct (deref_uc _ _ _ D) as (Uc & L).
    destruct (65535 <=? cx_ucount x)%N; [now repeat split|].
    split; [reflexivity|]. split; [reflexivity|]. split.
    - intros c'. rewrite uc_store by exact L.
      change (wd_contexts (store w c (Some (cx_set_ucount x (cx_ucount x + 1))))) with (wd_contexts w).
      specialize (A c'). rewrite cnt_app in A. rewrite cnt_app, cnt_cons.
      destruct (Nat.eq_dec c c') as [<-|N]; cbn [cx_set_ucount cx_ucount]; lia.
    - intros c' z. rewrite deref_store by exact L. destruct (Nat.eq_dec c c') as [<-|N]; [|apply B].
      intros H. injection H as <-. cbn [cx_set_ucount cx_ucount]. lia.
  Qed.

  Lemma put_safe w R c : Inv w (c :: R) ->
    let (w', r) := pt_sb_ctx_put w c in
    wd_contexts w' = wd_contexts w /\ wd_image w' = wd_image w /\ r = Ok tt /\ Inv w' R.
  Proof.
    intros H. destruct (Inv_alive _ _ c H) as (x & D).
    { apply in_or_app. right. left. reflexivity. }
    unfold pt_sb_ctx_put. rewrite D.
    destruct H as (A & B). destruct (deref_uc _ _ _ D) as (Uc & L).
    assert (S_ : forall v, match v with Some y => cx_ucount y | None => 0%N end = (cx_ucount x - 1)%N ->
                 match v with Some y => (1 <= cx_ucount y)%N | None => True end ->
                 Inv (store w c v) R).
    { intros v Hv Hp. split.
      - intros c'. rewrite uc_store by exact L.
        change (wd_contexts (store w c v)) with (wd_contexts w).
        pose proof (A c') as A'. rewrite cnt_app, cnt_cons in A'. rewrite cnt_app.
        destruct (Nat.eq_dec c c') as [<-|N]; [rewrite Hv|]; lia.
      - intros c' z. rewrite deref_store by exact L. destruct (Nat.eq_dec c c') as [<-|N]; [|apply B].
        destruct v as [y|]; [|discriminate]. intros H. injection H as <-. exact Hp. }
    pose proof (B _ _ D) as B1.
    destruct (N.ltb_spec 1 (cx_ucount x)).
    - split; [reflexivity|]. split; [reflexivity|]. split; [reflexivity|].
      apply S_; cbn [cx_set_ucount cx_ucount]; lia.
    - destruct (N.eqb_spec (cx_ucount x) 0); [lia|].
      split; [reflexivity|]. split; [reflexivity|]. split; [reflexivity|].
      apply S_; [lia|exact Logic.I].
  Qed.

  Lemma find_safe w l pid : (forall c, In c l -> exists x, deref w c = Ok x) ->
    exists o, find_pid w l pid = Ok o /\ match o with Some c => In c l | None => True end.
  Proof.
    induction l as [|c l IH]; intros H; [exists None; now split|]. cbn [find_pid].
    destruct (H c (or_introl eq_refl)) as (x & D). rewrite D. cbn.
    destruct (N.eqb (cx_pid x) pid); [exists (Some c); split; [reflexivity|now left]|].
    destruct IH as (o & X & Y); [intros; apply H; now right|]. exists o. split; [exact X|].
    destruct o; [now right|exact Y].
  Qed.

  Lemma by_pid_safe w R pid : Inv w R ->
    exists o, pt_sb_find_context_by_pid w pid = Ok o /\
              match o with Some c => In c (wd_contexts w) | None => True end.
  Proof.
    intros H. apply find_safe. intros c In_. apply (Inv_alive _ _ _ H). apply in_or_app. now left.
  Qed.

  Lemma uc_new w x c : uc (wd_set_heap w (wd_heap w ++ [Some x])) c =
    if Nat.eq_dec (length (wd_heap w)) c then cx_ucount x else uc w c.
  Proof.
    unfold uc, wd_set_heap. cbn [wd_heap]. destruct (Nat.eq_dec (length (wd_heap w)) c) as [<-|N].
    - rewrite nth_error_app2 by lia. rewrite Nat.sub_diag. reflexivity.
    - destruct (Nat.lt_ge_cases c (length (wd_heap w))).
      + now rewrite nth_error_app1 by assumption.
      + rewrite (proj2 (nth_error_None (wd_heap w) c)) by assumption.
        rewrite (proj2 (nth_error_None _ c)); [reflexivity|]. rewrite app_length. cbn. lia.
  Qed.

  Lemma deref_new w x c y : deref (wd_set_heap w (wd_heap w ++ [Some x])) c = Ok y ->
    (c = length (wd_heap w) /\ y = x) \/ deref w c = Ok y.
  Proof.
    unfold deref, wd_set_heap. cbn [wd_heap]. destruct (Nat.eq_dec (length (wd_heap w)) c) as [<-|N].
    - rewrite nth_error_app2 by lia. rewrite Nat.sub_diag. cbn. intros H. injection H as <-. now left.
    - destruct (Nat.lt_ge_cases c (length (wd_heap w))).
      + rewrite nth_error_app1 by assumption. now right.
      + rewrite (proj2 (nth_error_None _ c)); [discriminate|]. rewrite app_length. cbn. lia.
  Qed.

  Lemma add_safe w R pid : Inv w R ->
    let (w', r) := pt_sb_add_context_by_pid out w pid in
    wd_image w' = wd_image w /\ Inv w' R /\ no_ub r /\ incl (wd_contexts w) (wd_contexts w') /\
    match r with Ok c => In c (wd_contexts w') | _ => True end.
  Proof.
    intros H. unfold pt_sb_add_context_by_pid.
    destruct (eo_alloc out (wd_env w)) as (e, ok). destruct ok; cbn [negb].
    2: { repeat split; try exact (proj1 H); try exact (proj2 H); try (intros ? ?; discriminate). now apply incl_refl. }
    pose proof (proj1 ANS (wd_env (wd_set_env w e)) (eo_new out) (wd_kernel (wd_set_env w e))) as NU.
    destruct (eo_copy out (wd_env (wd_set_env w e)) (eo_new out) (wd_kernel (wd_set_env w e))) as ((e', i), r).
    cbn [snd] in NU.
    set (x := mk_context i pt_sb_abi_unknown pid 1).
    set (w1 := wd_set_env (wd_set_heap (wd_set_env w e) (wd_heap (wd_set_env w e) ++ [Some x])) e').
    set (c := length (wd_heap (wd_set_env w e))).
    assert (H1 : Inv w1 (c :: R)).
    { destruct H as (A & B). split.
      - intros c'. change (uc w1 c') with (uc (wd_set_heap w (wd_heap w ++ [Some x])) c').
        rewrite uc_new. change (wd_contexts w1) with (wd_contexts w). specialize (A c').
        rewrite cnt_app, cnt_cons. rewrite cnt_app in A. change (length (wd_heap w)) with c.
        destruct (Nat.eq_dec c c') as [<-|N]; [|lia].
        assert (Z : uc w c = 0%N).
        { unfold uc. rewrite (proj2 (nth_error_None (wd_heap w) c)) by apply le_n. reflexivity. }
        cbn [x cx_ucount]. lia.
      - intros c' y D. destruct (deref_new w x c' y D) as [(_ & ->)|D']; [cbn; lia|exact (B _ _ D')]. }
    destruct r as [[]|er|u].
    - split; [reflexivity|]. split.
      { destruct H1 as (A & B). split; [|exact B]. intros c'. change (uc (wd_set_contexts w1 (c :: wd_contexts w1)) c') with (uc w1 c').
        rewrite <- A. cbn [wd_set_contexts wd_contexts]. rewrite !cnt_app, !cnt_cons. lia. }
      split; [intros ? ?; discriminate|]. split; [apply incl_tl, incl_refl|]. left. reflexivity.
    - pose proof (put_safe _ _ _ H1) as X. destruct (pt_sb_ctx_put w1 c) as (w2, r2). cbn [fst].
      destruct X as (X1 & X2 & X3 & X4). split; [exact X2|]. split; [exact X4|].
      split; [intros ? ?; discriminate|]. rewrite X1. split; [apply incl_refl|exact Logic.I].
    - now destruct (NU u eq_refl).
  Qed.

  Lemma get_by_pid_safe w R pid : Inv w R ->
    let (w', r) := pt_sb_get_context_by_pid out w pid in
    wd_image w' = wd_image w /\ Inv w' R /\ no_ub r /\ incl (wd_contexts w) (wd_contexts w') /\
    match r with Ok c => In c (wd_contexts w') | _ => True end.
  Proof.
    intros H. unfold pt_sb_get_context_by_pid.
    destruct (by_pid_safe w R pid H) as (o & -> & X). destruct o as [c|]; [|now apply add_safe].
    split; [reflexivity|]. split; [exact H|]. split; [intros ? ?; discriminate|].
    split; [apply incl_refl|exact X].
  Qed.

  Lemma unlink_safe w l c : (forall x, In x l -> exists y, deref w x = Ok y) -> In c l ->
    exists l', unlink w c l = Ok (Some l') /\
               forall c', cnt l c' = (if Nat.eq_dec c c' then 1 else 0) + cnt l' c'.
  Proof.
    induction l as [|d l IH]; intros H In_; [destruct In_|]. cbn [unlink].
    destruct (H d (or_introl eq_refl)) as (x & D).
    destruct (Nat.eqb_spec d c) as [->|N].
    - rewrite D. cbn [bind]. exists l. split; [reflexivity|]. intros c'. apply cnt_cons.
    - rewrite D. cbn. destruct IH as (l' & -> & X).
      { intros y Hy. apply H. now right. }
      { destruct In_ as [->|]; [congruence|assumption]. }
      cbn. exists (d :: l'). split; [reflexivity|]. intros c'. rewrite !cnt_cons, X. destruct (Nat.eq_dec d c'), (Nat.eq_dec c c'); lia.
  Qed.

  Lemma remove_safe w R c : Inv w R -> In c (wd_contexts w) ->
    let (w', r) := pt_sb_remove_context w c in
    wd_image w' = wd_image w /\ r = Ok tt /\ Inv w' R.
  Proof.
    intros H In_. unfold pt_sb_remove_context.
    destruct (unlink_safe w (wd_contexts w) c) as (l' & -> & X); [|exact In_|].
    { intros x Hx. apply (Inv_alive _ _ _ H). apply in_or_app. now left. }
    assert (H1 : Inv (wd_set_contexts w l') (c :: R)).
    { destruct H as (A & B). split; [|exact B]. intros c'.
      change (uc (wd_set_contexts w l') c') with (uc w c'). rewrite <- A.
      cbn [wd_set_contexts wd_contexts]. rewrite !cnt_app, X. rewrite (cnt_cons c R). lia. }
    pose proof (put_safe _ _ _ H1) as Y. destruct (pt_sb_ctx_put (wd_set_contexts w l') c) as (w2, r2).
    destruct Y as (_ & Y2 & Y3 & Y4). auto.
  Qed.

  Lemma on_image_safe w R c f : Inv w R -> In c (wd_contexts w ++ R) ->
    (forall e i, no_ub (snd (f e i))) ->
    let (w', r) := on_image w c f in
    wd_image w' = wd_image w /\ wd_contexts w' = wd_contexts w /\ Inv w' R /\ no_ub r.
  Proof.
    intros H In_ Hf. unfold on_image. destruct (Inv_alive _ _ _ H In_) as (x & D). rewrite D.
    specialize (Hf (wd_env w) (cx_image x)). destruct (f (wd_env w) (cx_image x)) as ((e, i), r).
    split; [reflexivity|]. split; [reflexivity|]. split; [|exact Hf].
    apply (Inv_store _ _ _ x); [exact H|exact D|reflexivity].
  Qed.

  Lemma mmap_safe w R c file o s v : Inv w R -> In c (wd_contexts w ++ R) ->
    let (w', r) := pt_sb_ctx_mmap out w c file o s v in
    wd_image w' = wd_image w /\ wd_contexts w' = wd_contexts w /\ Inv w' R /\ no_ub r.
  Proof.
    intros H In_. apply on_image_safe; [exact H|exact In_|]. intros e i.
    destruct ANS as (_ & A1 & A2 & A3 & _). destruct (eo_iscache out); cbn [negb]; [|apply A1].
    specialize (A2 e file o s v). destruct (eo_isc_add out e file o s v) as (e', [isid|er|u]).
    - apply A3.
    - cbn. intros ? ?; discriminate.
    - now destruct (A2 u eq_refl).
  Qed.

  Lemma error_safe w R code n : Inv w R ->
    let (w', r) := pt_sb_error out w code n in
    wd_image w' = wd_image w /\ wd_contexts w' = wd_contexts w /\ Inv w' R /\ no_ub r.
  Proof.
    intros H. unfold pt_sb_error. destruct ANS as (_ & _ & _ & _ & _ & A).
    destruct (eo_error out) as [f|].
    - specialize (A f eq_refl (wd_env w) code n). destruct (f (wd_env w) code n) as (e, r). auto.
    - split; [reflexivity|]. split; [reflexivity|]. split; [exact H|intros ? ?; discriminate].
  Qed.
End SAFE.
