(** Sideband: the perf event decoder only uses contexts it has references to. *)
From Verif Require Import Base M_event M_pevent M_sb M_sbpev L_core T_pevent L_sbpev.
From Coq Require Import List NArith Bool PeanoNat Lia.
Import ListNotations.
Open Scope nat_scope.

Definition opt {A} (o : option A) : list A := match o with Some c => [c] | None => [] end.

Section SAFE2.
  Context {E I : Type} (out : outside E I).
  Notation wld := (world E I).
  Implicit Types (w : wld) (p : priv).
  Hypothesis ANS : answers out.

  (** The contexts that other decoders use, and other references. *)
  Variables FK FR : list nat.

  Definition PInv w p : Prop :=
    Inv w (opt (pp_context p) ++ opt (pp_next_context p) ++ FK ++ FR) /\
    match wd_image w with Some c => In c (opt (pp_context p) ++ FK) | None => True end.

  Definition fixedp p p' : Prop :=
    pp_buf p' = pp_buf p /\ pp_pev p' = pp_pev p /\ pp_next p' = pp_next p.
  Lemma fixed_refl p : fixedp p p. Proof. now repeat split. Qed.
  Lemma fixed_trans p q r : fixedp p q -> fixedp q r -> fixedp p r.
  Proof. intros (A & B & C) (A' & B' & C'). repeat split; congruence. Qed.

  Definition ok {A} (pre : wld -> priv -> Prop) (m : M A) (post : A -> wld -> priv -> Prop) : Prop :=
    forall w p, PInv w p -> pre w p ->
    let '(s, r) := m (w, p) in
    PInv (fst s) (snd s) /\ fixedp p (snd s) /\ no_ub r /\ (forall a, r = Ok a -> post a (fst s) (snd s)).

  Lemma ok_bind {A B} pre (m : M A) mid (k : A -> M B) post :
    ok pre m mid -> (forall a, ok (mid a) (k a) post) -> ok pre (mbind m k) post.
  Proof.
    intros H1 H2 w p I_ Pre. unfold mbind. specialize (H1 w p I_ Pre).
    destruct (m (w, p)) as (s, r). destruct s as (w1, p1). destruct H1 as (I1 & F1 & N1 & Q1).
    cbn [fst snd] in *. destruct r as [a|e|u].
    - specialize (H2 a w1 p1 I1 (Q1 a eq_refl)). destruct (k a (w1, p1)) as (s2, r2).
      destruct H2 as (I2 & F2 & N2 & Q2). repeat split; try apply I2; try assumption;
        try apply (fixed_trans _ _ _ F1 F2).
    - repeat split; try apply I1; try apply F1; intros ? ?; discriminate.
    - now destruct (N1 u eq_refl).
  Qed.

  Lemma ok_pre {A} (pre pre' : wld -> priv -> Prop) (m : M A) post :
    (forall w p, pre w p -> pre' w p) -> ok pre' m post -> ok pre m post.
  Proof. intros H X w p I_ Pre. exact (X w p I_ (H _ _ Pre)). Qed.

  Lemma ok_post {A} pre (m : M A) (post post' : A -> wld -> priv -> Prop) :
    (forall a w p, post a w p -> post' a w p) -> ok pre m post -> ok pre m post'.
  Proof.
    intros H X w p I_ Pre. specialize (X w p I_ Pre). destruct (m (w, p)) as (s, r).
    destruct X as (A1 & A2 & A3 & A4). split; [exact A1|]. split; [exact A2|]. split; [exact A3|].
    intros a Ha. apply H. now apply A4.
  Qed.

  Lemma ok_ret {A} (pre : wld -> priv -> Prop) (a : A) : ok pre (ret a) (fun b w p => b = a /\ pre w p).
  Proof.
    intros w p I_ Pre. cbn. split; [exact I_|]. split; [apply fixed_refl|].
    split; [intros ? ?; discriminate|]. intros b H. injection H as <-. now split.
  Qed.

  Lemma ok_fail {A} pre e post : ok pre (@fail E I A e) post.
  Proof.
    intros w p I_ Pre. cbn. split; [exact I_|]. split; [apply fixed_refl|].
    split; intros ? ?; discriminate.
  Qed.

  Lemma ok_private (pre : wld -> priv -> Prop) : ok pre private (fun a w p => a = p /\ pre w p).
  Proof.
    intros w p I_ Pre. cbn. split; [exact I_|]. split; [apply fixed_refl|].
    split; [intros ? ?; discriminate|]. intros b H. injection H as <-. now split.
  Qed.

  Lemma ok_world {A} (pre : wld -> priv -> Prop) (f : wld -> wld * res A) (post : A -> wld -> priv -> Prop) :
    (forall w p R, Inv w R -> pre w p -> (forall c, In c R -> In c (wd_contexts w ++ R)) ->
       let (w', r) := f w in
       wd_image w' = wd_image w /\ Inv w' R /\ no_ub r /\ (forall a, r = Ok a -> post a w' p)) ->
    ok pre (onworld f) post.
  Proof.
    intros H w p (I1 & I2) Pre. unfold onworld. cbn [fst snd].
    assert (X : forall c, In c (opt (pp_context p) ++ opt (pp_next_context p) ++ FK ++ FR) ->
        In c (wd_contexts w ++ opt (pp_context p) ++ opt (pp_next_context p) ++ FK ++ FR)).
    { intros c Hc. apply in_or_app. now right. }
    specialize (H w p _ I1 Pre X). destruct (f w) as (w', r). destruct H as (A1 & A2 & A3 & A4).
    cbn [fst snd]. split; [split; [exact A2|rewrite A1; exact I2]|].
    split; [apply fixed_refl|]. split; assumption.
  Qed.

  Definition any (w : wld) (p : priv) : Prop := True.
  Definition none {A} (a : A) (w : wld) (p : priv) : Prop := True.

  Lemma ok_none {A} pre (m : M A) post : ok pre m post -> ok pre m none.
  Proof. apply ok_post. now intros. Qed.

  (** ** Switching *)

  Lemma put_ctx w c R : Inv w (c :: R) ->
    exists w', pt_sb_ctx_put w c = (w', Ok tt) /\ wd_contexts w' = wd_contexts w /\
               wd_image w' = wd_image w /\ Inv w' R.
  Proof.
    intros H. pose proof (put_safe _ _ _ H) as X. destruct (pt_sb_ctx_put w c) as (w', r).
    destruct X as (A & B & -> & D). eauto.
  Qed.

  Lemma switch_ok given : ok any (pt_sb_pevent_switch_contexts out given) none.
  Proof.
    intros w p (I1 & I2) _. unfold pt_sb_pevent_switch_contexts, mbind, private. cbn [fst snd].
    assert (Same : forall w', Inv w' (opt (pp_context p) ++ opt (pp_next_context p) ++ FK ++ FR) ->
                    wd_image w' = wd_image w -> forall e : pte,
              PInv (fst (w', p)) (snd (w', p)) /\ fixedp p (snd (w', p)) /\ no_ub (@Err unit e) /\
              (forall a, @Err unit e = Ok a -> none a (fst (w', p)) (snd (w', p)))).
    { intros w' Iw Ew e. cbn [fst snd]. split; [split; [exact Iw|now rewrite Ew]|].
      split; [apply fixed_refl|]. split; intros ? ?; discriminate. }
    destruct given; cbn [negb]; [|now apply Same].
    destruct (pp_next_context p) as [n|] eqn:En; [|now apply Same].
    cbn [opt app] in I1.
    destruct (Inv_alive w _ n I1) as (x & D).
    { apply in_or_app. right. apply in_or_app. right. now left. }
    unfold onworld, update. cbn [fst snd]. unfold pt_sb_ctx_switch_to. cbn [negb]. rewrite D.
    set (g := match eo_switch out with Some notify => _ | None => _ end).
    assert (G : exists w', Inv w' (opt (pp_context p) ++ n :: FK ++ FR) /\
       ((g = (wd_set_image w' (Some n), Ok tt)) \/
        (wd_image w' = wd_image w /\ exists e, g = (w', Err e)))).
    { unfold g. destruct ANS as (_ & _ & _ & _ & A & _). destruct (eo_switch out) as [f|].
      - specialize (A f eq_refl (wd_env w) n). destruct (f (wd_env w) n) as (e', r).
        exists (wd_set_env w e'). split; [exact I1|].
        destruct r as [[]|e|u]; [now left|right; eauto|now destruct (A u eq_refl)].
      - exists w. split; [exact I1|]. now left. }
    destruct G as (w' & Iw & [->|(Ew & e & ->)]).
    2: { cbn [fst snd]. split; [split; [rewrite En; exact Iw|now rewrite Ew]|].
         split; [apply fixed_refl|]. split; intros ? ?; discriminate. }
    cbn [fst snd].
    destruct (pp_context p) as [c|] eqn:Ec.
    - cbn [opt app] in Iw. apply Inv_image with (i := Some n) in Iw. unfold onworld; cbn [fst snd].
      destruct (put_ctx _ _ _ Iw) as (w2 & -> & X1 & X2 & X3).
      cbn [fst snd]. split; [split|].
      + cbn [pp_context pp_next_context pp_set_ctx opt app]. exact X3.
      + rewrite X2. cbn [wd_set_image wd_image pp_set_ctx pp_context opt app]. now left.
      + split; [now repeat split|]. split; [intros ? ?; discriminate|now intros].
    - cbn. split; [split; [exact Iw|now left]|]. split; [now repeat split|].
      split; [intros ? ?; discriminate|now intros].
  Qed.

  Lemma cancel_ok (Q : list nat -> option nat -> Prop) :
    ok (fun w p => Q (wd_contexts w) (pp_context p)) (@pt_sb_pevent_cancel_context_switch E I)
       (fun _ w p => Q (wd_contexts w) (pp_context p) /\ pp_next_context p = None).
  Proof.
    intros w p (I1 & I2) H. unfold pt_sb_pevent_cancel_context_switch, mbind, private, update, onworld.
    cbn [fst snd]. destruct (pp_next_context p) as [n|] eqn:En.
    - assert (I3 : Inv w (n :: opt (pp_context p) ++ FK ++ FR)).
      { eapply Inv_ext; [|exact I1]. intros c'. cbn [opt app].
        rewrite (cnt_app (opt (pp_context p))), !cnt_cons, (cnt_app (opt (pp_context p))). lia. }
      cbn [fst snd].
      destruct (put_ctx _ _ _ I3) as (w2 & -> & X1 & X2 & X3). cbn [fst snd].
      split; [split; [exact X3|rewrite X2; exact I2]|]. split; [now repeat split|].
      split; [intros ? ?; discriminate|]. intros _ _. rewrite X1. now split.
    - cbn. split; [split; [rewrite En; exact I1|exact I2]|]. split; [apply fixed_refl|].
      split; [intros ? ?; discriminate|]. intros _ _. now split.
  Qed.

  Lemma take_ok c :
    ok (fun w p => In c (wd_contexts w) /\ pp_next_context p = None)
       (mbind (onworld (fun w => pt_sb_ctx_get w c))
              (fun _ => update (fun p => pp_set_ctx p (pp_context p) (Some c)))) none.
  Proof.
    intros w p (I1 & I2) (In_ & En). unfold mbind, onworld, update. cbn [fst snd].
    assert (In2 : In c (wd_contexts w ++ opt (pp_context p) ++ opt (pp_next_context p) ++ FK ++ FR)).
    { apply in_or_app. now left. }
    pose proof (get_safe _ _ _ I1 In2) as X. destruct (pt_sb_ctx_get w c) as (w', r).
    destruct X as (X1 & X2 & X3). rewrite En in X3. cbn [opt app] in X3.
    destruct r as [[]|e|u]; [| |destruct X3]; cbn [fst snd].
    - split; [split; [|cbn [pp_set_ctx pp_context]; rewrite X2; exact I2]|].
      + cbn [pp_set_ctx pp_context pp_next_context opt app]. eapply Inv_ext; [|exact X3]. intros c'.
        rewrite (cnt_app (opt (pp_context p))), !cnt_cons, (cnt_app (opt (pp_context p))). lia.
      + split; [now repeat split|]. split; [intros ? ?; discriminate|now intros].
    - split; [split; [rewrite En; exact X3|rewrite X2; exact I2]|]. split; [apply fixed_refl|].
      split; intros ? ?; discriminate.
  Qed.

  Lemma prepare_ok c : ok (fun w _ => In c (wd_contexts w)) (pt_sb_pevent_prepare_context_switch c) none.
  Proof.
    unfold pt_sb_pevent_prepare_context_switch. eapply ok_bind; [apply ok_private|]. intros p0. cbn beta.
    destruct (is_ctx (pp_next_context p0) c); [apply ok_none with (1 := ok_ret _ _)|].
    eapply ok_bind.
    { eapply ok_pre; [|apply (cancel_ok (fun l o => In c l))]. intros w p (_ & H). exact H. }
    intros ?. cbn beta.
    destruct (is_ctx (pp_context p0) c); [apply ok_none with (1 := ok_ret _ _)|].
    apply take_ok.
  Qed.

  (** ** Looking for contexts *)

  Lemma by_pid_ok pid : ok any (onworld (fun w => pt_sb_get_context_by_pid out w pid))
    (fun c w _ => In c (wd_contexts w)).
  Proof.
    apply ok_world. intros w p R H _ _. pose proof (get_by_pid_safe out ANS w R pid H) as X.
    destruct (pt_sb_get_context_by_pid out w pid) as (w', r). destruct X as (A & B & C & D & F).
    repeat split; try apply B; try assumption. intros a ->. exact F.
  Qed.

  Lemma prepare_pid_ok pid : ok any (pt_sb_pevent_prepare_switch_to_pid out pid) none.
  Proof. eapply ok_bind; [apply by_pid_ok|]. intros c. apply prepare_ok. Qed.

  Lemma find_ok (Q : list nat -> Prop) pid : ok (fun w _ => Q (wd_contexts w))
    (onworld (fun w => (w, pt_sb_find_context_by_pid w pid)))
    (fun o w _ => Q (wd_contexts w) /\ match o with Some c => In c (wd_contexts w) | None => True end).
  Proof.
    apply ok_world. intros w p R H HQ _. destruct (by_pid_safe w R pid H) as (o & -> & X).
    split; [reflexivity|]. split; [exact H|]. split; [intros ? ?; discriminate|].
    intros a Ha. injection Ha as <-. now split.
  Qed.

  Lemma remove_pid_ok pid : ok any (@pt_sb_pevent_remove_context_for_pid E I pid) none.
  Proof.
    eapply ok_bind; [apply (find_ok (fun _ => True))|]. intros [c|]; [|apply ok_none with (1 := ok_ret _ _)].
    apply ok_world. intros w p R H (_ & In_) _. pose proof (remove_safe w R c H In_) as X.
    destruct (pt_sb_remove_context w c) as (w', r). destruct X as (A & -> & B).
    split; [exact A|]. split; [exact B|]. split; [intros ? ?; discriminate|now intros].
  Qed.

  Lemma any_pre {A} (pre : wld -> priv -> Prop) (m : M A) post : ok any m post -> ok pre m post.
  Proof. apply ok_pre. now intros. Qed.

  Lemma itrace_ok given pid : ok any (pt_sb_pevent_itrace_start out given pid) none.
  Proof.
    eapply ok_bind; [apply prepare_pid_ok|]. intros ?. eapply ok_bind; [apply ok_private|]. intros p0.
    cbn beta. destruct (pp_next_context p0); [apply any_pre, switch_ok|apply ok_none with (1 := ok_ret _ _)].
  Qed.

  Lemma fork_ok pid ppid tid : ok any (pt_sb_pevent_fork out pid ppid tid) none.
  Proof.
    unfold pt_sb_pevent_fork. destruct (N.eqb ppid pid); [apply ok_none with (1 := ok_ret _ _)|].
    destruct (N.eqb pid tid); cbn [negb]; [|apply ok_fail].
    eapply ok_bind; [apply remove_pid_ok|]. intros ?. eapply ok_bind; [apply any_pre, by_pid_ok|]. intros c.
    eapply ok_bind; [apply (find_ok (fun l => In c l))|]. intros [parent|]; [|apply ok_none with (1 := ok_ret _ _)].
    apply ok_world. intros w p R H (In1 & In2) _.
    destruct (Inv_alive w R parent H) as (x & ->); [apply in_or_app; now left|].
    assert (In3 : In c (wd_contexts w ++ R)) by (apply in_or_app; now left).
    pose proof (on_image_safe w R c (fun e i => eo_copy out e i (cx_image x)) H In3
                  (fun e i => proj1 ANS e i (cx_image x))) as X.
    destruct (on_image w c (fun e i => eo_copy out e i (cx_image x))) as (w', r).
    destruct X as (X1 & X2 & X3 & X4). repeat split; try apply X3; assumption.
  Qed.

  Lemma exec_ok given pid : ok any (pt_sb_pevent_exec out given pid) none.
  Proof.
    eapply ok_bind; [apply remove_pid_ok|]. intros ?. eapply ok_bind; [apply any_pre, by_pid_ok|]. intros c.
    destruct given; cbn [negb]; [apply prepare_ok|apply ok_none with (1 := ok_ret _ _)].
  Qed.

  (** ** Mapping *)

  Lemma report_ok (pre : wld -> priv -> Prop) code : ok pre (pt_sb_pevent_error out code) none.
  Proof.
    eapply ok_bind; [apply ok_private|]. intros p0. cbn beta. apply ok_world. intros w p R H _ _.
    pose proof (error_safe out ANS w R code (match pp_current p0 with Some n => n | None => pp_next p0 end) H) as X.
    destruct (pt_sb_error out w code _) as (w', r). destruct X as (X1 & X2 & X3 & X4).
    repeat split; try apply X3; assumption.
  Qed.

  Lemma map_file_ok c file o s v : ok (fun w _ => In c (wd_contexts w)) (map_file out c file o s v) none.
  Proof.
    eapply ok_bind with (mid := fun _ w _ => In c (wd_contexts w)).
    - apply ok_world. intros w p R H In_ _.
      destruct (Inv_alive w R c H) as (x & D); [apply in_or_app; now left|]. rewrite D.
      destruct (cx_abi x);
        try (split; [reflexivity|]; split; [exact H|]; split; [intros ? ?; discriminate|now intros]).
      destruct (eo_abi out (wd_env w) file) as (e, [a|]);
        (split; [reflexivity|]; split; [|split; [intros ? ?; discriminate|now intros]]).
      + apply (Inv_store _ _ _ x); [exact H|exact D|reflexivity].
      + exact H.
    - intros ?. cbn beta. apply ok_world. intros w p R H In_ _.
      assert (In3 : In c (wd_contexts w ++ R)) by (apply in_or_app; now left).
      pose proof (mmap_safe out ANS w R c file o s v H In3) as X.
      destruct (pt_sb_ctx_mmap out w c file o s v) as (w', r). destruct X as (X1 & X2 & X3 & X4).
      repeat split; try apply X3; assumption.
  Qed.

  Lemma map_ok pid file o s v : ok any (pt_sb_pevent_map out pid file o s v) none.
  Proof.
    eapply ok_bind; [apply by_pid_ok|]. intros c. eapply ok_bind; [apply ok_private|]. intros p0. cbn beta.
    destruct (match file with b :: _ => N.eqb b 91 | [] => false end).
    - destruct (streq file str_vdso); [|apply report_ok].
      eapply ok_bind with (mid := fun _ w _ => In c (wd_contexts w)).
      + apply ok_world. intros w p R H (_ & In_) _.
        destruct (Inv_alive w R c H) as (x & D); [apply in_or_app; now left|]. rewrite D.
        split; [reflexivity|]. split; [exact H|]. split; [intros ? ?; discriminate|now intros].
      + intros x. unfold pt_sb_pevent_find_vdso.
        destruct (match cx_abi x with pt_sb_abi_unknown => None | pt_sb_abi_x64 => pp_vdso_x64 p0
          | pt_sb_abi_x32 => pp_vdso_x32 p0 | pt_sb_abi_ia32 => pp_vdso_ia32 p0 end);
          [apply map_file_ok|apply report_ok].
    - destruct (streq file str_anon); [apply report_ok|].
      destruct (strstr file str_deleted); [apply report_ok|].
      eapply ok_pre; [|apply map_file_ok]. intros w p (_ & H). exact H.
  Qed.

  Lemma record_ok given ev : ok any (pt_sb_pevent_apply_event_record out given ev) none.
  Proof.
    unfold pt_sb_pevent_apply_event_record.
    destruct (pe_record ev); try (apply ok_none with (1 := ok_ret _ _));
      repeat match goal with
      | |- ok _ (if ?b then _ else _) _ => destruct b
      | |- ok _ (match ?o with Some _ => _ | None => _ end) _ => destruct o
      end;
      first [apply ok_none with (1 := ok_ret _ _)|apply ok_fail|apply map_ok|apply report_ok
            |apply prepare_pid_ok|apply itrace_ok|apply fork_ok|apply exec_ok].
  Qed.

  Lemma apply_ok given ev : ok any (pt_sb_pevent_apply out given ev) none.
  Proof.
    eapply ok_bind; [apply ok_private|]. intros p0. cbn beta.
    match goal with |- ok _ (if ?b then _ else _) _ => destruct b end; [apply any_pre, record_ok|].
    eapply ok_bind with (mid := none).
    - intros w p H _. cbn. split; [exact H|]. split; [now repeat split|].
      split; [intros ? ?; discriminate|now intros].
    - intros ?. destruct (pp_next_context p0).
      + match goal with |- ok _ (if ?b then _ else _) _ => destruct b end;
          [apply any_pre, switch_ok|apply ok_none with (1 := ok_ret _ _)].
      + destruct (at_end p0); [apply ok_fail|apply ok_none with (1 := ok_ret _ _)].
  Qed.

  Lemma apply_callback_ok given ev w p : PInv w p ->
    let '(s, r) := apply_callback out given ev w p in
    PInv (fst s) (snd s) /\ fixedp p (snd s) /\ no_ub r.
  Proof.
    intros H. unfold apply_callback. pose proof (apply_ok given ev w p H Logic.I) as X.
    destruct (pt_sb_pevent_apply out given ev (w, p)) as ((w1, p1), r). destruct X as (A & B & C & _).
    cbn [fst snd] in A, B.
    destruct r as [[]|e|u].
    - cbn [fst snd]. auto.
    - assert (Y := report_ok any (ptse_error e) w1 p1 A Logic.I).
      destruct (pt_sb_pevent_error out (ptse_error e) (w1, p1)) as (s2, r2) eqn:Er.
      destruct Y as (Y1 & Y2 & Y3 & _).
      assert (Z : PInv (fst s2) (snd s2) /\ fixedp p (snd s2) /\ no_ub r2).
      { split; [exact Y1|]. split; [apply (fixed_trans _ _ _ B Y2)|exact Y3]. }
      destruct e; try exact Z. cbn [fst snd]. auto.
    - now destruct (C u eq_refl).
  Qed.

  Lemma print_callback_ok w p : PInv w p ->
    let '(s, r) := print_callback out w p in
    PInv (fst s) (snd s) /\ fixedp p (snd s) /\ no_ub r.
  Proof.
    intros H. unfold print_callback. destruct (pp_current p).
    - cbn. split; [exact H|]. split; [apply fixed_refl|]. intros ? ?; discriminate.
    - assert (Y := report_ok any (ptse_error pte_internal) w p H Logic.I).
      destruct (pt_sb_pevent_error out (ptse_error pte_internal) (w, p)) as (s2, r2).
      destruct Y as (Y1 & Y2 & Y3 & _). auto.
  Qed.

  (** ** Reading records *)

  Lemma bytes_ok_skipn n l : bytes_ok l -> bytes_ok (skipn n l).
  Proof.
    intros H. unfold bytes_ok in *. rewrite <- (firstn_skipn n l) in H. now apply Forall_app in H.
  Qed.

  Lemma fetch_callback_ok w p : PInv w p -> bytes_ok (pp_buf p) -> (pc_shift (pp_pev p) < 64)%N ->
    let '(s, r) := fetch_callback out w p in
    PInv (fst s) (snd s) /\ pp_buf (snd s) = pp_buf p /\ pp_pev (snd s) = pp_pev p /\ no_ub r /\
    match r with
    | Ok _ => pp_next p + 8 <= pp_next (snd s) <= length (pp_buf p)
    | _ => pp_next (snd s) = pp_next p
    end.
  Proof.
    intros H B Sh. unfold fetch_callback, pt_sb_pevent_fetch, mbind, private, update. cbn [fst snd].
    pose proof (C48_read_no_ub (skipn (pp_next p) (pp_buf p)) (pp_pev p) Sh) as NU.
    pose proof (C48_pointers_inside (skipn (pp_next p) (pp_buf p)) (pp_pev p)) as PI.
    destruct (pev_read (skipn (pp_next p) (pp_buf p)) (pp_pev p)) as [(n, re)|e|u]; cbn [bind].
    - specialize (PI n re (bytes_ok_skipn _ _ B) eq_refl). destruct PI as (L & e & V). rewrite V. cbn [bind].
      rewrite skipn_length in L.
      destruct (sm_time (pe_sample e)); cbn;
        (split; [exact H|]; split; [reflexivity|]; split; [reflexivity|];
         split; [intros ? ?; discriminate|lia]).
    - cbn [fail fst snd]. set (p1 := pp_set_pos p _ _ _).
      assert (H1 : PInv w p1) by exact H.
      assert (Y := report_ok any (ptse_error e) w p1 H1 Logic.I).
      destruct (pt_sb_pevent_error out (ptse_error e) (w, p1)) as (s2, r2) eqn:Er.
      destruct Y as (Y1 & (Y2 & Y3 & Y4) & _ & _). cbn [fst].
      assert (Z : PInv (fst s2) (snd s2) /\ pp_buf (snd s2) = pp_buf p /\ pp_pev (snd s2) = pp_pev p /\
                  no_ub (@Err N e) /\ pp_next (snd s2) = pp_next p).
      { split; [exact Y1|]. split; [exact Y2|]. split; [exact Y3|]. split; [intros ? ?; discriminate|exact Y4]. }
      destruct e; try exact Z.
      split; [exact H|]. split; [reflexivity|]. split; [reflexivity|]. split; [intros ? ?; discriminate|reflexivity].
    - now destruct (NU u eq_refl).
  Qed.

  Lemma dtor_ok w p : Inv w (opt (pp_context p) ++ opt (pp_next_context p) ++ FK ++ FR) ->
    exists w', dtor w p = (w', Ok tt) /\ Inv w' (FK ++ FR) /\ wd_image w' = wd_image w /\
               wd_contexts w' = wd_contexts w.
  Proof.
    intros H. unfold dtor, put_opt.
    destruct (pp_next_context p) as [n|], (pp_context p) as [c|]; cbn [opt app] in H.
    - assert (H2 : Inv w (n :: c :: FK ++ FR)).
      { eapply Inv_ext; [|exact H]. intros c'. rewrite !cnt_cons. lia. }
      destruct (put_ctx _ _ _ H2) as (w1 & -> & A1 & A2 & A3).
      destruct (put_ctx _ _ _ A3) as (w2 & -> & B1 & B2 & B3).
      exists w2. split; [reflexivity|]. split; [exact B3|]. split; congruence.
    - destruct (put_ctx _ _ _ H) as (w1 & -> & A1 & A2 & A3). eauto.
    - destruct (put_ctx _ _ _ H) as (w1 & -> & A1 & A2 & A3). eauto.
    - eauto.
  Qed.
End SAFE2.
