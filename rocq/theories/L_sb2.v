(** Sideband: sequences of calls keep the references to process contexts in order. *)
From Verif Require Import Base M_event M_pevent M_sb M_sbpev S_sb L_sb L_sbpev L_sbpev2.
From Coq Require Import List NArith Bool PeanoNat Permutation Lia.
Import ListNotations.
Open Scope nat_scope.

Section C60.
  Context {E I : Type} (out : outside E I).
  Notation wld := (world E I).
  Hypothesis ANS : answers out.

  Definition good (p : priv) : Prop := bytes_ok (pp_buf p) /\ (pc_shift (pp_pev p) < 64)%N.
  Definition ctxs (l : list priv) : list nat := flat_map (fun p => opt (pp_context p)) l.
  Definition nexts (l : list priv) : list nat := flat_map (fun p => opt (pp_next_context p)) l.

  (** [b]: the image is in use. *)
  Definition J (b : bool) (U : list nat) (w : wld) (l : list priv) : Prop :=
    Inv w (ctxs l ++ nexts l ++ U) /\ Forall good l /\
    (b = true -> match wd_image w with Some c => In c (ctxs l) | None => True end).

  Lemma flat_cnt {A} (f : A -> list nat) l l' : Permutation l l' ->
    forall c, cnt (flat_map f l) c = cnt (flat_map f l') c.
  Proof.
    intros H c. apply (Permutation_flat_map f) in H. unfold cnt.
    now apply Permutation_count_occ.
  Qed.

  Lemma J_perm b U w l l' : Permutation l l' -> J b U w l -> J b U w l'.
  Proof.
    intros H (A & B & C). split; [|split].
    - eapply Inv_ext; [|exact A]. intros c. rewrite !cnt_app. unfold ctxs, nexts.
      now rewrite (flat_cnt _ _ _ H), (flat_cnt _ _ _ H).
    - now rewrite <- H.
    - intros Hb. specialize (C Hb). destruct (wd_image w); [|exact Logic.I].
      unfold ctxs in *. apply (Permutation_in _ (Permutation_flat_map _ H)). exact C.
  Qed.

  Lemma J_split b U w p l : J b U w (p :: l) <->
    Inv w (opt (pp_context p) ++ opt (pp_next_context p) ++ ctxs l ++ nexts l ++ U) /\
    (good p /\ Forall good l) /\
    (b = true -> match wd_image w with Some c => In c (opt (pp_context p) ++ ctxs l) | None => True end).
  Proof.
    unfold J. cbn [ctxs nexts flat_map].
    assert (X : forall c, cnt ((opt (pp_context p) ++ flat_map (fun p => opt (pp_context p)) l) ++
      (opt (pp_next_context p) ++ flat_map (fun p => opt (pp_next_context p)) l) ++ U) c =
      cnt (opt (pp_context p) ++ opt (pp_next_context p) ++ ctxs l ++ nexts l ++ U) c).
    { intros c. rewrite !cnt_app. unfold ctxs, nexts. lia. }
    rewrite Forall_cons_iff. split; intros (A & B & C); (split; [|split; assumption]).
    - eapply Inv_ext; [exact X|exact A].
    - eapply Inv_ext; [intros c; symmetry; apply X|exact A].
  Qed.

  Definition left_ (p : priv) : nat := length (pp_buf p) - pp_next p.
  Definition idle (p : priv) : Prop := pp_context p = None /\ pp_next_context p = None.

  Lemma PInv_J U w p l : J true U w (p :: l) <-> PInv (ctxs l) (nexts l ++ U) w p /\ (good p /\ Forall good l).
  Proof.
    rewrite J_split. unfold PInv. split.
    - intros (A & B & C). split; [|exact B]. split; [exact A|now apply C].
    - intros ((A & C) & B). split; [exact A|]. split; [exact B|now intros].
  Qed.

  Lemma good_fixed p p' : fixedp p p' -> good p -> good p'.
  Proof. intros (A & B & _) (C & D). unfold good. now rewrite A, B. Qed.

  Lemma fetch_J U w p l : J true U w (p :: l) ->
    kept (J true U) left_ (so_fetch (pevent_ops out) w p) p l /\
    (forall t, snd (so_fetch (pevent_ops out) w p) = Ok t ->
       left_ (snd (fst (so_fetch (pevent_ops out) w p))) < left_ p).
  Proof.
    intros H. apply PInv_J in H. destruct H as (H & G & Gl). cbn [so_fetch pevent_ops].
    pose proof (fetch_callback_ok out ANS _ _ w p H (proj1 G) (proj2 G)) as X.
    destruct (fetch_callback out w p) as (s, r). destruct X as (X1 & X2 & X3 & X4 & X5).
    destruct s as (w', p'). cbn [fst snd] in *. unfold kept. cbn [fst snd]. split; [split; [|split]|].
    - apply PInv_J. split; [exact X1|]. split; [|exact Gl]. unfold good. now rewrite X2, X3.
    - exact X4.
    - unfold left_. rewrite X2. destruct r; lia.
    - intros t ->. unfold left_. rewrite X2. lia.
  Qed.

  Lemma apply_J U g ev w p l : J true U w (p :: l) ->
    kept (J true U) left_ (so_apply (pevent_ops out) g ev w p) p l.
  Proof.
    intros H. apply PInv_J in H. destruct H as (H & G & Gl). cbn [so_apply pevent_ops].
    pose proof (apply_callback_ok out ANS _ _ g ev w p H) as X.
    destruct (apply_callback out g ev w p) as (s, r). destruct X as (X1 & X2 & X3).
    unfold kept. cbn [fst snd]. split; [|split].
    - apply PInv_J. split; [exact X1|]. split; [|exact Gl]. exact (good_fixed _ _ X2 G).
    - exact X3.
    - unfold left_. destruct X2 as (-> & _ & ->). apply le_n.
  Qed.

  Lemma print_J U w p l : J true U w (p :: l) ->
    kept (J true U) left_ (so_print (pevent_ops out) w p) p l.
  Proof.
    intros H. apply PInv_J in H. destruct H as (H & G & Gl). cbn [so_print pevent_ops].
    pose proof (print_callback_ok out ANS _ _ w p H) as X.
    destruct (print_callback out w p) as (s, r). destruct X as (X1 & X2 & X3).
    unfold kept. cbn [fst snd]. split; [|split].
    - apply PInv_J. split; [exact X1|]. split; [|exact Gl]. exact (good_fixed _ _ X2 G).
    - exact X3.
    - unfold left_. destruct X2 as (-> & _ & ->). apply le_n.
  Qed.

  Lemma dtor_J b U w p l : J b U w (p :: l) -> (b = true -> idle p) ->
    J b U (fst (so_dtor (pevent_ops out) w p)) l /\ no_ub (snd (so_dtor (pevent_ops out) w p)).
  Proof.
    intros H Hi. apply J_split in H. destruct H as (A & (_ & B) & C). cbn [so_dtor pevent_ops].
    destruct (dtor_ok _ _ w p A) as (w' & -> & A1 & A2 & A3). cbn [fst snd].
    split; [|intros ? ?; discriminate]. split; [exact A1|]. split; [exact B|]. intros Hb. rewrite A2.
    specialize (C Hb). destruct (Hi Hb) as (E1 & _). rewrite E1 in C. exact C.
  Qed.

  Lemma idle_fetch w p : idle p -> idle (snd (fst (so_fetch (pevent_ops out) w p))).
  Proof.
    intros H. cbn [so_fetch pevent_ops]. unfold fetch_callback, pt_sb_pevent_fetch, mbind, private, update.
    cbn [fst snd].
    destruct (let* _ := pev_read (skipn (pp_next p) (pp_buf p)) (pp_pev p) in _) as [(n, e)|e|u]; cbn [bind].
    - destruct (sm_time (pe_sample e)); exact H.
    - cbn [fail]. set (p1 := pp_set_pos p _ _ _).
      assert (X : forall c, snd (fst (pt_sb_pevent_error out c (w, p1))) = p1).
      { intros c. unfold pt_sb_pevent_error, mbind, private, onworld. cbn [fst snd].
        destruct (pt_sb_error out w c _) as (w', r). reflexivity. }
      destruct e; cbn [fst snd]; rewrite ?X; exact H.
    - exact H.
  Qed.

  (** ** Sequences of calls *)

  Definition K (cl : client E I) : Prop :=
    J true (cl_held cl) (cl_world cl) (privs (cl_session cl)) /\
    Forall (fun d => idle (sd_priv d)) (ss_waiting (cl_session cl)).

  Lemma weight_turns s : weight left_ (ss_decoders s) <= turns s.
  Proof.
    unfold weight, turns. induction (ss_decoders s) as [|d l IH]; [apply le_n|].
    cbn [map]. unfold list_sum in *. cbn [fold_right]. unfold left_ at 1. lia.
  Qed.

  Lemma drop_cnt c l : In c l -> forall c', cnt l c' = (if Nat.eq_dec c c' then 1 else 0) + cnt (drop_one c l) c'.
  Proof.
    induction l as [|d l IH]; intros H c'; [destruct H|]. cbn [drop_one].
    destruct (Nat.eqb_spec d c) as [->|N]; [apply cnt_cons|].
    rewrite !cnt_cons. destruct H as [->|H]; [congruence|]. rewrite (IH H c').
    destruct (Nat.eq_dec d c'), (Nat.eq_dec c c'); lia.
  Qed.

  Lemma step_ok cl o : op_ok o -> K cl -> K (fst (sb_step out cl o)) /\ no_ub (snd (sb_step out cl o)).
  Proof.
    intros Ho (H & Wt). unfold sb_step. destruct cl as (s, w, held). cbn [cl_session cl_world cl_held] in *.
    destruct o as [buf fn sr x64 x32 ia32 pev ks toff pr| |printing ev|tsc|pid|c|pid].
    - unfold pt_sb_alloc_pevent_decoder. destruct Ho as (B & Sh & F).
      assert (P_ : path_ok (Some fn) && path_ok sr && path_ok x64 && path_ok x32 && path_ok ia32 = true).
      { assert (G : forall o, (forall f, o = Some f -> length f < FILENAME_MAX) -> path_ok o = true).
        { intros [f|] Hf; [|reflexivity]. apply Nat.ltb_lt. now apply Hf. }
        rewrite Forall_forall in F.
        assert (G' : forall o, In o [sr; x64; x32; ia32] -> path_ok o = true).
        { intros o Ho. apply G. intros f ->. apply F. right. apply in_flat_map. exists (Some f).
          split; [exact Ho|now left]. }
        rewrite (G (Some fn)), !G'; cbn; auto.
        intros f X. injection X as <-. apply F. now left. }
      rewrite P_. cbn [fst snd]. split; [|intros ? ?; discriminate]. split.
      + cbn [cl_session cl_world cl_held]. set (p := mk_priv _ _ _ _ _ _ _ _ _ _ _ _ _ _).
        assert (H1 : J true held w (p :: privs s)).
        { apply J_split. destruct H as (A & B' & C). split; [exact A|]. split; [|exact C].
          split; [now split|exact B']. }
        eapply J_perm; [|exact H1]. unfold privs, members, pt_sb_alloc_decoder.
        cbn [ss_decoders ss_waiting ss_retired ss_removed].
        change (p :: map sd_priv (ss_decoders s ++ ss_waiting s ++ ss_retired s ++ ss_removed s))
          with (map sd_priv (mk_sbdec 0%N p pr :: ss_decoders s ++ ss_waiting s ++ ss_retired s ++ ss_removed s)).
        apply Permutation_map. cbn [app]. apply Permutation_middle.
      + cbn. constructor; [now split|exact Wt].
    - unfold pt_sb_init_decoders.
      pose proof (init_kept (pevent_ops out) (J true held) left_ (J_perm true held) (fetch_J held)
        idle idle_fetch (fun w p l Hj Hi => dtor_J true held w p l Hj (fun _ => Hi))
        (ss_waiting s) s w eq_refl Wt H) as X.
      destruct (init_loop (pevent_ops out) (ss_waiting s) s w) as ((s', w'), r).
      destruct X as (X1 & X2 & X3). split; [|exact X2]. split; [exact X1|].
      cbn [cl_session fst]. rewrite X3. constructor.
    - pose proof (event_kept (pevent_ops out) (J true held) left_ (J_perm true held) (fetch_J held) (apply_J held) (print_J held)
        (turns s) printing ev s w (weight_turns s) H) as X.
      pose proof (event_waiting (pevent_ops out) (turns s) printing ev s w) as Y.
      destruct (pt_sb_event (pevent_ops out) (turns s) printing ev s w) as ((s', w'), r).
      destruct X as (X1 & X2). cbn [fst snd] in *. split; [|exact X2]. split; [exact X1|].
      cbn [cl_session]. rewrite Y. exact Wt.
    - pose proof (dump_kept (pevent_ops out) (J true held) left_ (J_perm true held) (fetch_J held) (print_J held)
        (turns s) tsc s w (weight_turns s) H) as X.
      pose proof (dump_waiting (pevent_ops out) (turns s) tsc s w) as Y.
      destruct (pt_sb_dump (pevent_ops out) (turns s) tsc s w) as ((s', w'), r).
      destruct X as (X1 & X2). cbn [fst snd] in *. split; [|exact X2]. split; [exact X1|].
      cbn [cl_session]. rewrite Y. exact Wt.
    - destruct H as (A & B & C).
      pose proof (get_by_pid_safe out ANS w _ pid A) as X.
      destruct (pt_sb_get_context_by_pid out w pid) as (w1, r1). destruct X as (X1 & X2 & X3 & X4 & X5).
      destruct r1 as [c|e|u]; [| |now destruct (X3 u eq_refl)].
      + assert (In_ : In c (wd_contexts w1 ++ ctxs (privs s) ++ nexts (privs s) ++ held)) by (apply in_or_app; now left).
        pose proof (get_safe w1 _ c X2 In_) as Y. destruct (pt_sb_ctx_get w1 c) as (w2, r2).
        destruct Y as (Y1 & Y2 & Y3). destruct r2 as [[]|e|u]; [| |destruct Y3].
        * split; [|intros ? ?; discriminate]. split; [|exact Wt]. cbn [fst cl_session cl_world cl_held].
          split; [|split; [exact B|rewrite Y2, X1; exact C]]. eapply Inv_ext; [|exact Y3]. intros c'.
          rewrite !cnt_app, !cnt_cons, !cnt_app. lia.
        * split; [|intros ? ?; discriminate]. split; [|exact Wt]. cbn [fst cl_session cl_world cl_held].
          split; [exact Y3|split; [exact B|rewrite Y2, X1; exact C]].
      + split; [|intros ? ?; discriminate]. split; [|exact Wt]. cbn [fst cl_session cl_world cl_held].
        split; [exact X2|split; [exact B|rewrite X1; exact C]].
    - destruct (existsb (Nat.eqb c) held) eqn:Ex.
      2: { split; [split; [exact H|exact Wt]|intros ? ?; discriminate]. }
      apply existsb_exists in Ex. destruct Ex as (c0 & In_ & Ec). apply Nat.eqb_eq in Ec. subst c0.
      destruct H as (A & B & C).
      assert (A' : Inv w (c :: ctxs (privs s) ++ nexts (privs s) ++ drop_one c held)).
      { eapply Inv_ext; [|exact A]. intros c'. rewrite cnt_cons, !cnt_app, (drop_cnt c held In_ c'). lia. }
      destruct (put_ctx w c _ A') as (w1 & -> & X1 & X2 & X3). cbn [fst snd].
      split; [|intros ? ?; discriminate]. split; [|exact Wt]. cbn [cl_session cl_world cl_held].
      split; [exact X3|split; [exact B|rewrite X2; exact C]].
    - destruct H as (A & B & C).
      destruct (by_pid_safe w _ pid A) as (o & -> & X). destruct o as [c|].
      2: { split; [split; [split; [exact A|split; assumption]|exact Wt]|intros ? ?; discriminate]. }
      pose proof (remove_safe w _ c A X) as Y. destruct (pt_sb_remove_context w c) as (w1, r1).
      destruct Y as (Y1 & -> & Y3). cbn [fst snd].
      split; [|intros ? ?; discriminate]. split; [|exact Wt]. cbn [cl_session cl_world cl_held].
      split; [exact Y3|split; [exact B|rewrite Y1; exact C]].
  Qed.

  Lemma run_ok l : forall cl, Forall op_ok l -> K cl ->
    K (fst (sb_run out cl l)) /\ Forall no_ub (snd (sb_run out cl l)).
  Proof.
    induction l as [|o l IH]; intros cl Hl H; [split; [exact H|constructor]|].
    apply Forall_cons_iff in Hl. destruct Hl as (Ho & Hl). cbn [sb_run].
    destruct (step_ok cl o Ho H) as (H1 & N1). destruct (sb_step out cl o) as (cl1, r1).
    destruct (IH cl1 Hl H1) as (H2 & N2). destruct (sb_run out cl1 l) as (cl2, rs). cbn [fst snd] in *.
    split; [exact H2|now constructor].
  Qed.

  Lemma start_ok kernel e : K (sb_start kernel e).
  Proof.
    split; [|constructor]. split; [|split; [constructor|now intros]]. split.
    - intros c. unfold uc. cbn. now destruct c.
    - intros c x. unfold deref. cbn. destruct c; discriminate.
  Qed.

  Lemma put_contexts (w : wld) c l :
    pt_sb_ctx_put (wd_set_contexts w l) c =
    (wd_set_contexts (fst (pt_sb_ctx_put w c)) l, snd (pt_sb_ctx_put w c)).
  Proof.
    unfold pt_sb_ctx_put. change (deref (wd_set_contexts w l) c) with (deref w c).
    destruct (deref w c) as [x|e|u]; try reflexivity.
    destruct (N.ltb 1 (cx_ucount x)); [reflexivity|]. destruct (N.eqb (cx_ucount x) 0); reflexivity.
  Qed.

  Lemma free_contexts_ok l : forall (w : wld) R, Inv (wd_set_contexts w []) (l ++ R) ->
    exists w', free_contexts l w = (w', Ok tt) /\ Inv (wd_set_contexts w' []) R.
  Proof.
    induction l as [|c l IH]; intros w R H; [exists w; auto|]. cbn [free_contexts].
    destruct (put_ctx _ c _ H) as (w1 & X0 & X1 & X2 & X3). rewrite put_contexts in X0.
    destruct (pt_sb_ctx_put w c) as (w2, r). cbn [fst snd] in X0. injection X0 as X0 ->.
    apply IH. now rewrite X0.
  Qed.

  Lemma end_ok cl : K cl -> exists w, sb_end out cl = (w, Ok tt) /\ Inv (wd_set_contexts w []) (cl_held cl).
  Proof.
    intros (H & _). unfold sb_end. destruct cl as (s, w, held). cbn [cl_session cl_world cl_held] in *.
    assert (H1 : J false held w (privs s ++ [])).
    { rewrite app_nil_r. destruct H as (A & B & C). split; [exact A|]. split; [exact B|discriminate]. }
    destruct (sb_free_kept (pevent_ops out) (J false held) (fun _ => True)
      (fun w p l Hj _ => dtor_J false held w p l Hj (fun X => False_ind _ (Bool.diff_false_true X)))
      s w [] (fun _ => Logic.I) H1) as (w1 & -> & (A & _)). cbn [ctxs nexts flat_map app] in A.
    apply free_contexts_ok. destruct A as (A & B). split; [|exact B]. intros c. exact (A c).
  Qed.
End C60.
