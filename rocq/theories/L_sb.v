(** Sideband sessions: what all callbacks preserve is preserved by the session. *)
From Verif Require Import Base M_event M_sb.
From Coq Require Import List NArith Bool PeanoNat Permutation Lia.
Import ListNotations.
Open Scope nat_scope.

Definition members {P} (s : session P) : list (sbdec P) :=
  ss_decoders s ++ ss_waiting s ++ ss_retired s ++ ss_removed s.
Definition privs {P} (s : session P) : list P := map sd_priv (members s).

Lemma add_perm {P} (d : sbdec P) l : Permutation (d :: l) (pt_sb_add_decoder d l).
Proof.
  induction l as [|c l IH]; [reflexivity|]. cbn [pt_sb_add_decoder].
  destruct (N.leb (sd_tsc d) (sd_tsc c)); [reflexivity|].
  rewrite perm_swap. now constructor.
Qed.

Section INV.
  Context {P W : Type} (ops : sbops P W) (J : W -> list P -> Prop) (m : P -> nat).
  Hypothesis J_perm : forall w l l', Permutation l l' -> J w l -> J w l'.
  Definition kept {A} (x : W * P * res A) (p : P) (l : list P) : Prop :=
    J (fst (fst x)) (snd (fst x) :: l) /\ no_ub (snd x) /\ m (snd (fst x)) <= m p.
  Hypothesis H_fetch : forall w p l, J w (p :: l) ->
    kept (so_fetch ops w p) p l /\
    (forall t, snd (so_fetch ops w p) = Ok t -> m (snd (fst (so_fetch ops w p))) < m p).
  Hypothesis H_apply : forall g ev w p l, J w (p :: l) -> kept (so_apply ops g ev w p) p l.
  Hypothesis H_print : forall w p l, J w (p :: l) -> kept (so_print ops w p) p l.
  (** Decoders that may be destroyed. *)
  Variable F : P -> Prop.
  Hypothesis F_fetch : forall w p, F p -> F (snd (fst (so_fetch ops w p))).
  Hypothesis H_dtor : forall w p l, J w (p :: l) -> F p ->
    J (fst (so_dtor ops w p)) l /\ no_ub (snd (so_dtor ops w p)).

  Definition keptd (x : W * sbdec P * res unit) (d : sbdec P) (l : list P) : Prop :=
    J (fst (fst x)) (sd_priv (snd (fst x)) :: l) /\ no_ub (snd x) /\
    m (sd_priv (snd (fst x))) <= m (sd_priv d).

  Lemma fetch_kept w d l : J w (sd_priv d :: l) ->
    keptd (pt_sb_fetch ops w d) d l /\
    (snd (pt_sb_fetch ops w d) = Ok tt ->
     m (sd_priv (snd (fst (pt_sb_fetch ops w d)))) < m (sd_priv d)).
  Proof.
    intros H. destruct (H_fetch _ _ _ H) as ((A & B & C) & D).
    unfold pt_sb_fetch, keptd. destruct (so_fetch ops w (sd_priv d)) as ((w', p'), r).
    cbn [fst snd] in *. destruct r as [t|e|u]; cbn [fst snd sd_priv set_priv set_tsc].
    - split; [split; [exact A|split; [intros ? ?; discriminate|exact C]]|]. intros _. exact (D t eq_refl).
    - split; [split; [exact A|split; [intros ? ?; discriminate|exact C]]|]. intros X. discriminate X.
    - now destruct (B _ eq_refl).
  Qed.

  Lemma apply_kept ev w d l : J w (sd_priv d :: l) -> keptd (pt_sb_apply ops ev w d) d l.
  Proof.
    intros H. destruct (H_apply (sd_primary d) ev _ _ _ H) as (A & B & C).
    unfold pt_sb_apply, keptd. destruct (so_apply ops (sd_primary d) ev w (sd_priv d)) as ((w', p'), r).
    cbn [fst snd] in *. cbn [sd_priv set_priv]. auto.
  Qed.

  Lemma print_kept w d l : J w (sd_priv d :: l) -> keptd (pt_sb_print ops w d) d l.
  Proof.
    intros H. destruct (H_print _ _ _ H) as (A & B & C).
    unfold pt_sb_print, keptd. destruct (so_print ops w (sd_priv d)) as ((w', p'), r).
    cbn [fst snd] in *. cbn [sd_priv set_priv]. auto.
  Qed.

  Definition weight (l : list (sbdec P)) : nat :=
    list_sum (map (fun d => S (m (sd_priv d))) l).

  Lemma weight_cons d l : weight (d :: l) = S (m (sd_priv d)) + weight l.
  Proof. reflexivity. Qed.

  Lemma weight_perm l l' : Permutation l l' -> weight l = weight l'.
  Proof.
    unfold weight. intros H. induction H; cbn [map]; try reflexivity; [unfold list_sum in *; cbn [fold_right]; rewrite IHPermutation; reflexivity|unfold list_sum; cbn [fold_right]; lia|congruence].
  Qed.

  Ltac mem := unfold privs, members, remove, retire, set_decoders, pt_sb_alloc_decoder in *;
    cbn [ss_decoders ss_waiting ss_retired ss_removed tl] in *.

  (** Moving one decoder. *)
  Lemma privs_split d (s : session P) l : ss_decoders s = d :: l ->
    privs s = sd_priv d :: map sd_priv (l ++ ss_waiting s ++ ss_retired s ++ ss_removed s).
  Proof. intros E. mem. rewrite E. reflexivity. Qed.

  Lemma J_removed w d l0 (s : session P) :
    J w (sd_priv d :: map sd_priv (l0 ++ ss_waiting s ++ ss_retired s ++ ss_removed s)) ->
    J w (privs (mk_session l0 (ss_waiting s) (ss_retired s) (d :: ss_removed s))).
  Proof.
    apply J_perm. mem. rewrite !map_app. cbn [map].
    rewrite !app_assoc. apply Permutation_middle.
  Qed.

  Lemma J_retired w d l0 (s : session P) :
    J w (sd_priv d :: map sd_priv (l0 ++ ss_waiting s ++ ss_retired s ++ ss_removed s)) ->
    J w (privs (mk_session l0 (ss_waiting s) (d :: ss_retired s) (ss_removed s))).
  Proof.
    apply J_perm. mem. rewrite !map_app. cbn [map app].
    rewrite !(app_assoc (map sd_priv l0)). apply Permutation_middle.
  Qed.

  Lemma J_readd w d l0 (s : session P) :
    J w (sd_priv d :: map sd_priv (l0 ++ ss_waiting s ++ ss_retired s ++ ss_removed s)) ->
    J w (privs (mk_session (pt_sb_add_decoder d l0) (ss_waiting s) (ss_retired s) (ss_removed s))).
  Proof.
    apply J_perm. mem. change (sd_priv d :: map sd_priv (l0 ++ ss_waiting s ++ ss_retired s ++ ss_removed s))
      with (map sd_priv ((d :: l0) ++ ss_waiting s ++ ss_retired s ++ ss_removed s)).
    apply Permutation_map. apply Permutation_app_tail. apply add_perm.
  Qed.

  Lemma turn_kept printing ev w s d l : ss_decoders s = d :: l -> J w (privs s) ->
    let '(s', w', r) := turn ops printing ev d s w in
    J w' (privs s') /\ no_ub r /\ (r = Ok tt -> weight (ss_decoders s') < weight (ss_decoders s)).
  Proof.
    intros E H. rewrite (privs_split _ _ _ E) in H. unfold turn. rewrite E. cbn [tl].
    unfold remove, retire, set_decoders. cbn [ss_decoders ss_waiting ss_retired ss_removed].
    assert (Wt : weight l < weight (d :: l)) by (rewrite weight_cons; lia).
    set (R := map sd_priv (l ++ ss_waiting s ++ ss_retired s ++ ss_removed s)) in *.
    assert (A : keptd (if printing then pt_sb_print ops w d else (w, d, Ok tt)) d R).
    { destruct printing; [now apply print_kept|]. split; [exact H|split; [intros ? ?; discriminate|apply le_n]]. }
    destruct (if printing then pt_sb_print ops w d else (w, d, Ok tt)) as ((w1, d1), r1).
    destruct A as (J1 & N1 & M1). cbn [fst snd] in *.
    destruct r1 as [[]|e1|u1]; [| |now destruct (N1 _ eq_refl)].
    2: { split; [now apply J_removed|split; [intros ? ?; discriminate|auto]]. }
    pose proof (apply_kept ev _ _ _ J1) as A.
    destruct (pt_sb_apply ops ev w1 d1) as ((w2, d2), r2). destruct A as (J2 & N2 & M2). cbn [fst snd] in *.
    destruct r2 as [[]|e2|u2]; [| |now destruct (N2 _ eq_refl)].
    2: { split; [now apply J_removed|split; [intros ? ?; discriminate|auto]]. }
    destruct (fetch_kept _ _ _ J2) as ((J3 & N3 & M3) & M3').
    destruct (pt_sb_fetch ops w2 d2) as ((w3, d3), r3). cbn [fst snd] in *.
    destruct r3 as [[]|e3|u3]; [| |now destruct (N3 _ eq_refl)].
    - split; [now apply J_readd|split; [intros ? ?; discriminate|]]. intros _.
      cbn [ss_decoders]. rewrite <- (weight_perm _ _ (add_perm d3 l)). specialize (M3' eq_refl).
      rewrite !weight_cons. lia.
    - destruct e3; (split; [first [now apply J_removed|now apply J_retired]|split; [intros ? ?; discriminate|intros _; exact Wt]]).
  Qed.

  Lemma first_round_kept fuel printing ev : forall s w, weight (ss_decoders s) <= fuel ->
    J w (privs s) ->
    let '(s', w', r) := first_round ops fuel printing ev s w in J w' (privs s') /\ no_ub r.
  Proof.
    induction fuel as [|fuel IH]; intros s w L H; cbn [first_round];
      destruct (ss_decoders s) as [|d l] eqn:E; try (split; [exact H|intros ? ?; discriminate]).
    - rewrite weight_cons in L. lia.
    - destruct (N.ltb (ev_tsc ev) (sd_tsc d)); [split; [exact H|intros ? ?; discriminate]|].
      pose proof (turn_kept printing ev w s d l E H) as T.
      destruct (turn ops printing ev d s w) as ((s1, w1), r1). destruct T as (J1 & N1 & Wt).
      destruct r1 as [[]|e1|u1]; [|split; [exact J1|intros ? ?; discriminate]|now destruct (N1 _ eq_refl)].
      specialize (Wt eq_refl). apply IH; [|exact J1]. rewrite E in Wt. lia.
  Qed.

  Lemma present_kept ev l : forall removed w R,
    J w (map sd_priv (l ++ removed) ++ R) ->
    let '(l', removed', w', r) := pt_sb_event_present ops ev l removed w in
    J w' (map sd_priv (l' ++ removed') ++ R) /\ no_ub r.
  Proof.
    induction l as [|d l IH]; intros removed w R H; cbn [pt_sb_event_present]; [split; [exact H|intros ? ?; discriminate]|].
    cbn [app map] in H. pose proof (apply_kept ev w d _ H) as A.
    destruct (pt_sb_apply ops ev w d) as ((w1, d1), r1). destruct A as (J1 & N1 & _). cbn [fst snd] in *.
    destruct r1 as [[]|e1|u1]; [| |now destruct (N1 _ eq_refl)].
    - assert (H1 : J w1 (map sd_priv (l ++ removed) ++ sd_priv d1 :: R)).
      { eapply J_perm; [|exact J1]. apply Permutation_middle. }
      specialize (IH removed w1 _ H1).
      destruct (pt_sb_event_present ops ev l removed w1) as (((l2, rm2), w2), r2).
      destruct IH as (J2 & N2). split; [|exact N2].
      eapply J_perm; [|exact J2]. symmetry. cbn [app map]. apply Permutation_middle.
    - apply IH. eapply J_perm; [|exact J1].
      change (sd_priv d1 :: map sd_priv (l ++ removed) ++ R)
        with (map sd_priv (d1 :: l ++ removed) ++ R).
      apply Permutation_app_tail, Permutation_map, Permutation_middle.
  Qed.

  Lemma event_kept fuel printing ev s w : weight (ss_decoders s) <= fuel -> J w (privs s) ->
    let '(s', w', r) := pt_sb_event ops fuel printing ev s w in J w' (privs s') /\ no_ub r.
  Proof.
    intros L H. unfold pt_sb_event. pose proof (first_round_kept fuel printing ev s w L H) as A.
    destruct (first_round ops fuel printing ev s w) as ((s1, w1), r1). destruct A as (J1 & N1).
    destruct r1 as [[]|e1|u1]; [|split; [exact J1|intros ? ?; discriminate]|now destruct (N1 _ eq_refl)].
    assert (H1 : J w1 (map sd_priv (ss_decoders s1 ++ ss_removed s1)
                       ++ map sd_priv (ss_waiting s1 ++ ss_retired s1))).
    { eapply J_perm; [|exact J1]. unfold privs, members. rewrite <- map_app. apply Permutation_map.
      rewrite <- app_assoc. apply Permutation_app_head.
      rewrite (app_assoc (ss_waiting s1)). apply Permutation_app_comm. }
    pose proof (present_kept ev _ _ _ _ H1) as A.
    destruct (pt_sb_event_present ops ev (ss_decoders s1) (ss_removed s1) w1) as (((l2, rm2), w2), r2).
    destruct A as (J2 & N2).
    assert (P2 : Permutation (map sd_priv (l2 ++ rm2) ++ map sd_priv (ss_waiting s1 ++ ss_retired s1))
                   (privs (mk_session l2 (ss_waiting s1) (ss_retired s1) rm2))).
    { unfold privs, members. cbn [ss_decoders ss_waiting ss_retired ss_removed].
      rewrite <- map_app. apply Permutation_map.
      rewrite <- app_assoc. apply Permutation_app_head.
      rewrite (app_assoc (ss_waiting s1)). apply Permutation_app_comm. }
    destruct r2 as [[]|e2|u2];
      [|split; [now apply (J_perm _ _ _ P2)|intros ? ?; discriminate]|now destruct (N2 _ eq_refl)].
    cbn [ss_decoders ss_waiting ss_retired ss_removed].
    assert (H3 : J w2 (map sd_priv (ss_retired s1 ++ rm2) ++ map sd_priv (l2 ++ ss_waiting s1))).
    { eapply J_perm; [|exact J2]. rewrite <- !map_app. apply Permutation_map.
      rewrite <- !app_assoc. rewrite (Permutation_app_comm (ss_retired s1)). rewrite <- !app_assoc.
      rewrite (app_assoc l2 rm2). rewrite (Permutation_app_comm l2 rm2). rewrite <- !app_assoc.
      apply Permutation_refl. }
    pose proof (present_kept ev _ _ _ _ H3) as A.
    destruct (pt_sb_event_present ops ev (ss_retired s1) rm2 w2) as (((l3, rm3), w3), r3).
    destruct A as (J3 & N3). split; [|exact N3].
    eapply J_perm; [|exact J3]. unfold privs, members. cbn [ss_decoders ss_waiting ss_retired ss_removed].
    rewrite <- map_app. apply Permutation_map.
    rewrite (Permutation_app_comm (l3 ++ rm3)). rewrite <- !app_assoc. apply Permutation_refl.
  Qed.

  Lemma dump_kept fuel tsc : forall s w, weight (ss_decoders s) <= fuel -> J w (privs s) ->
    let '(s', w', r) := pt_sb_dump ops fuel tsc s w in J w' (privs s') /\ no_ub r.
  Proof.
    induction fuel as [|fuel IH]; intros s w L H; cbn [pt_sb_dump];
      destruct (ss_decoders s) as [|d l] eqn:E; try (split; [exact H|intros ? ?; discriminate]).
    { rewrite weight_cons in L. lia. }
    destruct (N.ltb tsc (sd_tsc d)); [split; [exact H|intros ? ?; discriminate]|].
    rewrite (privs_split _ _ _ E) in H. unfold dump_turn. rewrite E. cbn [tl].
    unfold remove, retire, set_decoders. cbn [ss_decoders ss_waiting ss_retired ss_removed].
    assert (Wt : weight l <= fuel) by (rewrite weight_cons in L; lia).
    set (R := map sd_priv (l ++ ss_waiting s ++ ss_retired s ++ ss_removed s)) in *.
    pose proof (print_kept _ _ _ H) as A.
    destruct (pt_sb_print ops w d) as ((w1, d1), r1).
    destruct A as (J1 & N1 & M1). cbn [fst snd] in *.
    destruct r1 as [[]|e1|u1]; [| |now destruct (N1 _ eq_refl)].
    2: { apply IH; [exact Wt|]. now apply J_removed. }
    destruct (fetch_kept _ _ _ J1) as ((J3 & N3 & M3) & M3').
    destruct (pt_sb_fetch ops w1 d1) as ((w3, d3), r3). cbn [fst snd] in *.
    destruct r3 as [[]|e3|u3]; [| |now destruct (N3 _ eq_refl)].
    - apply IH; [|now apply J_readd]. cbn [ss_decoders].
      rewrite <- (weight_perm _ _ (add_perm d3 l)). specialize (M3' eq_refl).
      rewrite !weight_cons in *. lia.
    - apply IH; [exact Wt|]. now apply J_removed.
  Qed.

  Lemma fetch_F w d : F (sd_priv d) -> F (sd_priv (snd (fst (pt_sb_fetch ops w d)))).
  Proof.
    intros H. apply (F_fetch w) in H. unfold pt_sb_fetch.
    destruct (so_fetch ops w (sd_priv d)) as ((w', p'), [t|e|u]); exact H.
  Qed.

  Lemma init_kept waiting : forall s w, ss_waiting s = waiting ->
    Forall (fun d => F (sd_priv d)) waiting -> J w (privs s) ->
    let '(s', w', r) := init_loop ops waiting s w in J w' (privs s') /\ no_ub r /\ ss_waiting s' = [].
  Proof.
    induction waiting as [|d l IH]; intros s w E Fw H; cbn [init_loop]; [split; [exact H|split; [intros ? ?; discriminate|exact E]]|].
    apply Forall_cons_iff in Fw. destruct Fw as (Fd & Fl).
    assert (H' : J w (sd_priv d :: map sd_priv (ss_decoders s ++ l ++ ss_retired s ++ ss_removed s))).
    { eapply J_perm; [|exact H]. unfold privs, members. rewrite E.
      change (sd_priv d :: map sd_priv (ss_decoders s ++ l ++ ss_retired s ++ ss_removed s))
        with (map sd_priv (d :: ss_decoders s ++ l ++ ss_retired s ++ ss_removed s)).
      apply Permutation_map. cbn [app]. symmetry. apply Permutation_middle. }
    destruct (fetch_kept _ _ _ H') as ((J3 & N3 & M3) & M3').
    pose proof (fetch_F w d Fd) as F3.
    destruct (pt_sb_fetch ops w d) as ((w3, d3), r3). cbn [fst snd] in *.
    destruct r3 as [[]|e3|u3]; [| |now destruct (N3 _ eq_refl)].
    - apply IH; [reflexivity|exact Fl|].
      exact (J_readd w3 d3 (ss_decoders s) (mk_session (ss_decoders s) l (ss_retired s) (ss_removed s)) J3).
    - destruct (H_dtor _ _ _ J3 F3) as (J4 & N4). destruct (so_dtor ops w3 (sd_priv d3)) as (w4, r4).
      cbn [fst snd] in *. destruct r4 as [[]|e4|u4]; [| |now destruct (N4 _ eq_refl)];
        (apply IH; [reflexivity|exact Fl|exact J4]).
  Qed.

  Lemma free_kept l : forall w R, (forall p, F p) -> J w (map sd_priv l ++ R) ->
    exists w', free_decoders ops l w = (w', Ok tt) /\ J w' R.
  Proof.
    induction l as [|d l IH]; intros w R T H; [exists w; now split|]. cbn [free_decoders].
    destruct (H_dtor _ _ _ H (T _)) as (J4 & N4). destruct (so_dtor ops w (sd_priv d)) as (w4, r4).
    cbn [fst snd] in *. destruct r4 as [[]|e4|u4]; [| |now destruct (N4 _ eq_refl)]; now apply IH.
  Qed.

  Lemma sb_free_kept s w R : (forall p, F p) -> J w (privs s ++ R) ->
    exists w', pt_sb_free ops s w = (w', Ok tt) /\ J w' R.
  Proof.
    unfold privs, members, pt_sb_free. rewrite !map_app, <- !app_assoc. intros T H.
    apply (free_kept _ _ _ T) in H. destruct H as (w1 & -> & H).
    apply (free_kept _ _ _ T) in H. destruct H as (w2 & -> & H).
    apply (free_kept _ _ _ T) in H. destruct H as (w3 & -> & H).
    now apply (free_kept _ _ _ T) in H.
  Qed.
End INV.

(** Waiting decoders wait. *)
Section WAIT.
  Context {P W : Type} (ops : sbops P W).

  Lemma turn_waiting printing ev d s (w : W) : ss_waiting (fst (fst (turn ops printing ev d s w))) = ss_waiting s.
  Proof.
    unfold turn. destruct (if printing then pt_sb_print ops w d else (w, d, Ok tt)) as ((w1, d1), [[]|e1|u1]); try reflexivity.
    destruct (pt_sb_apply ops ev w1 d1) as ((w2, d2), [[]|e2|u2]); try reflexivity.
    destruct (pt_sb_fetch ops w2 d2) as ((w3, d3), [[]|e3|u3]); try reflexivity. destruct e3; reflexivity.
  Qed.

  Lemma first_round_waiting fuel printing ev : forall s (w : W),
    ss_waiting (fst (fst (first_round ops fuel printing ev s w))) = ss_waiting s.
  Proof.
    induction fuel as [|fuel IH]; intros s w; cbn [first_round]; destruct (ss_decoders s) as [|d l]; try reflexivity;
      destruct (N.ltb (ev_tsc ev) (sd_tsc d)); try reflexivity.
    pose proof (turn_waiting printing ev d s w) as T. destruct (turn ops printing ev d s w) as ((s1, w1), [[]|e|u]);
      try exact T. rewrite IH. exact T.
  Qed.

  Lemma event_waiting fuel printing ev s (w : W) :
    ss_waiting (fst (fst (pt_sb_event ops fuel printing ev s w))) = ss_waiting s.
  Proof.
    unfold pt_sb_event. pose proof (first_round_waiting fuel printing ev s w) as T.
    destruct (first_round ops fuel printing ev s w) as ((s1, w1), [[]|e|u]); try exact T.
    destruct (pt_sb_event_present ops ev (ss_decoders s1) (ss_removed s1) w1) as (((l2, rm2), w2), [[]|e2|u2]); try exact T.
    cbn [ss_decoders ss_waiting ss_retired ss_removed].
    destruct (pt_sb_event_present ops ev (ss_retired s1) rm2 w2) as (((l3, rm3), w3), r3). exact T.
  Qed.

  Lemma dump_waiting fuel tsc : forall s (w : W),
    ss_waiting (fst (fst (pt_sb_dump ops fuel tsc s w))) = ss_waiting s.
  Proof.
    induction fuel as [|fuel IH]; intros s w; cbn [pt_sb_dump]; destruct (ss_decoders s) as [|d l]; try reflexivity;
      destruct (N.ltb tsc (sd_tsc d)); try reflexivity.
    assert (T : ss_waiting (fst (fst (dump_turn ops d s w))) = ss_waiting s).
    { unfold dump_turn. destruct (pt_sb_print ops w d) as ((w1, d1), [[]|e1|u1]); try reflexivity.
      destruct (pt_sb_fetch ops w1 d1) as ((w3, d3), [[]|e3|u3]); reflexivity. }
    destruct (dump_turn ops d s w) as ((s1, w1), [[]|e|u]); try exact T. rewrite IH. exact T.
  Qed.
End WAIT.
