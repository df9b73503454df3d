(** Sideband: a session of perf event decoders follows the rules for address spaces. *)
From Verif Require Import Base M_event M_pevent M_sb M_sbpev S_sb2 S_sb3 L_core L_sb L_sbpev L_sbpev2 L_sb2 L_sb4 L_sb5 L_sb6.
From Coq Require Import List NArith Bool PeanoNat Permutation Lia.
Import ListNotations.
Open Scope nat_scope.

Section SESSION.
  Context {E I : Type} (out : outside E I) (t : tools I) (kernel : I) (B : nat).
  Notation wld := (world E I).
  Notation tab := (table I).
  Hypothesis ANS : answers out.
  Hypothesis WK : works out t.

  Notation ops := (observe t (eo_new out) kernel (pevent_ops out)).
  Definition leftx (x : priv * cpu_view) : nat := left_ (fst x).
  Definition sum (l : list (priv * cpu_view)) : nat := list_sum (map (fun x => S (leftx x)) l).

  Definition JJ (wy : wld * tab) (l : list (priv * cpu_view)) : Prop :=
    J true [] (fst wy) (map fst l) /\ WR kernel (fst wy) (snd wy) /\
    Forall (fun x => XR (fst x) (snd x)) l /\ (N.of_nat (length l) <= 30000)%N /\ sum l <= B.

  Lemma sum_perm l l' : Permutation l l' -> sum l = sum l'.
  Proof.
    intros H. unfold sum, list_sum. induction H; cbn [map fold_right]; lia.
  Qed.

  Lemma JJ_perm w l l' : Permutation l l' -> JJ w l -> JJ w l'.
  Proof.
    intros H (A & C & D & F & G). split; [exact (J_perm _ _ _ _ _ (Permutation_map fst H) A)|]. split; [exact C|].
    split; [now rewrite <- H|]. split; [now rewrite <- H|]. now rewrite <- (sum_perm _ _ H).
  Qed.

  Lemma flat_le {A} (f : A -> list nat) l : (forall a, length (f a) <= 1) -> length (flat_map f l) <= length l.
  Proof.
    intros H. induction l as [|a l IH]; [apply le_n|]. cbn [flat_map length]. rewrite app_length. specialize (H a). lia.
  Qed.

  Lemma JJ_rel w y p v l : JJ (w, y) ((p, v) :: l) ->
    rel kernel (ctxs (map fst l)) (nexts (map fst l) ++ []) w p y v /\
    (N.of_nat (length (ctxs (map fst l)) + length (nexts (map fst l) ++ [])) <= 64000)%N.
  Proof.
    intros (A & C & D & F & G). cbn [fst snd map] in *. apply PInv_J in A. destruct A as (A & _).
    apply Forall_cons_iff in D. split; [split; [exact A|split; [exact C|exact (proj1 D)]]|].
    rewrite app_nil_r. cbn [length] in F.
    assert (L1 : length (ctxs (map fst l)) <= length l).
    { rewrite <- (map_length fst l). apply flat_le. intros a. destruct (pp_context a); cbn; lia. }
    assert (L2 : length (nexts (map fst l)) <= length l).
    { rewrite <- (map_length fst l). apply flat_le. intros a. destruct (pp_next_context a); cbn; lia. }
    clear - F L1 L2. lia.
  Qed.

  Lemma JJ_step w y p v l w' y' p' v' : JJ (w, y) ((p, v) :: l) ->
    J true [] w' (p' :: map fst l) -> WR kernel w' y' -> XR p' v' -> left_ p' <= left_ p ->
    JJ (w', y') ((p', v') :: l).
  Proof.
    intros (A & C & D & F & G) J1 W1 X1 L1. unfold JJ. cbn [fst snd map]. split; [exact J1|]. split; [exact W1|].
    apply Forall_cons_iff in D. split; [constructor; [exact X1|exact (proj2 D)]|]. split; [exact F|].
    revert G. unfold sum, list_sum, leftx. cbn [map fold_right fst snd]. lia.
  Qed.

  Lemma fetch_JJ w x l : JJ w (x :: l) ->
    kept JJ leftx (so_fetch ops w x) x l /\
    (forall t_, snd (so_fetch ops w x) = Ok t_ -> leftx (snd (fst (so_fetch ops w x))) < leftx x).
  Proof.
    destruct w as (w, y), x as (p, v). intros H. destruct (JJ_rel _ _ _ _ _ H) as (R & L).
    destruct (fetch_J out ANS [] w p (map fst l) (proj1 H)) as ((A1 & A2 & A3) & A4).
    pose proof (fetch_callback_ref out kernel ANS _ _ w p y v R) as X.
    cbn [observe so_fetch pevent_ops] in *. destruct (fetch_callback out w p) as ((w', p'), r).
    unfold kept. cbn [fst snd] in *. split; [split; [|split; [exact A2|exact A3]]|exact A4].
    apply (JJ_step w y p v); try assumption; apply X.
  Qed.

  Lemma apply_JJ g ev w x l : JJ w (x :: l) -> kept JJ leftx (so_apply ops g ev w x) x l.
  Proof.
    destruct w as (w, y), x as (p, v). intros H. destruct (JJ_rel _ _ _ _ _ H) as (R & L).
    destruct (apply_J out ANS [] g ev w p (map fst l) (proj1 H)) as (A1 & A2 & A3).
    destruct (apply_callback_ref out t kernel ANS WK _ _ L g ev w p y v R) as (w1 & p1 & r1 & M1 & _ & (_ & R1 & R2)).
    cbn [observe so_apply pevent_ops] in *. cbn [fst snd] in M1. rewrite M1 in *.
    destruct (on_apply t (eo_new out) kernel g ev p y v) as (y', v'). unfold kept. cbn [fst snd] in *.
    split; [|split; [exact A2|exact A3]]. now apply (JJ_step w y p v).
  Qed.

  Lemma print_JJ w x l : JJ w (x :: l) -> kept JJ leftx (so_print ops w x) x l.
  Proof.
    destruct w as (w, y), x as (p, v). intros H. destruct (JJ_rel _ _ _ _ _ H) as (R & L).
    destruct (print_J out ANS [] w p (map fst l) (proj1 H)) as (A1 & A2 & A3).
    pose proof (print_callback_ref out kernel ANS _ _ w p y v R) as X.
    cbn [observe so_print pevent_ops] in *. destruct (print_callback out w p) as ((w', p'), r).
    unfold kept. cbn [fst snd] in *. split; [|split; [exact A2|exact A3]].
    apply (JJ_step w y p v); try assumption; apply X.
  Qed.

  Definition idlex (x : priv * cpu_view) : Prop := idle (fst x).
  Lemma idlex_fetch w x : idlex x -> idlex (snd (fst (so_fetch ops w x))).
  Proof.
    destruct w as (w, y), x as (p, v). intros H. apply (idle_fetch out w) in H. cbn [observe so_fetch pevent_ops fst] in *.
    destruct (fetch_callback out w p) as ((w', p'), r). exact H.
  Qed.

  Lemma dtor_JJ w x l : JJ w (x :: l) -> idlex x ->
    JJ (fst (so_dtor ops w x)) l /\ no_ub (snd (so_dtor ops w x)).
  Proof.
    destruct w as (w, y), x as (p, v). intros H Hi.
    destruct (dtor_J out true [] w p (map fst l) (proj1 H) (fun _ => Hi)) as (A1 & A2).
    destruct (JJ_rel _ _ _ _ _ H) as (((RI & _) & RW & _) & L).
    pose proof (dtor_ref (I := I) kernel _ _ L w p y RI RW) as X.
    cbn [observe so_dtor pevent_ops] in *. destruct (dtor w p) as (w', r). cbn [fst snd] in *. split; [|exact A2].
    destruct H as (_ & _ & D & F & G). unfold JJ. cbn [fst snd]. split; [exact A1|]. split; [exact X|].
    apply Forall_cons_iff in D. split; [exact (proj2 D)|]. split; [cbn [length] in F; clear - F; lia|].
    revert G. unfold sum, list_sum. cbn [map fold_right]. lia.
  Qed.

  Lemma weight_le s w : JJ w (privs s) -> weight leftx (ss_decoders s) <= B.
  Proof.
    intros (_ & _ & _ & _ & G). etransitivity; [|exact G]. unfold privs, members, sum, weight.
    rewrite (map_app sd_priv), map_app, list_sum_app, map_map. apply Nat.le_add_r.
  Qed.

  Lemma see_JJ : forall l s w, Forall (fun x => B <= fst (fst x)) l -> JJ w (privs s) ->
    let '(s', w', r) := see ops l s w in JJ w' (privs s') /\ no_ub r.
  Proof.
    induction l as [|((fuel, printing), ev) l IH]; intros s w HB H; cbn [see]; [split; [exact H|intros ? ?; discriminate]|].
    apply Forall_cons_iff in HB. destruct HB as (B1 & HB). cbn [fst] in B1.
    pose proof (event_kept ops JJ leftx JJ_perm fetch_JJ apply_JJ print_JJ fuel printing ev s w
                  (Nat.le_trans _ _ _ (weight_le s w H) B1) H) as X.
    destruct (pt_sb_event ops fuel printing ev s w) as ((s1, w1), r1). destruct X as (X1 & X2).
    destruct r1 as [[]|e|u]; [now apply IH|now split|now split].
  Qed.

  Lemma attach_waiting {P} : forall l (s : session P), attach l s =
    mk_session (ss_decoders s) (rev (map (fun x => mk_sbdec 0 (fst x) (snd x)) l) ++ ss_waiting s) (ss_retired s) (ss_removed s).
  Proof.
    induction l as [|(p, b) l IH]; intros s; [now destruct s|]. cbn [attach]. rewrite IH.
    unfold M_sb.pt_sb_alloc_decoder. cbn [ss_decoders ss_waiting ss_retired ss_removed map rev fst snd].
    rewrite <- app_assoc. reflexivity.
  Qed.

  Lemma run_JJ decoders e l : Forall (fun d => starts (fst d)) decoders ->
    (N.of_nat (length decoders) <= 30000)%N -> total decoders <= B -> Forall (fun x => B <= fst (fst x)) l ->
    let '(s, w, r) := run_session ops (map (fun d => ((fst d, no_view), snd d)) decoders) (mk_world [] [] kernel None e, no_table) l in
    JJ w (privs s) /\ no_ub r.
  Proof.
    intros Hs Hn Ht Hl. unfold run_session, pt_sb_init_decoders. rewrite attach_waiting.
    cbn [pt_sb_alloc ss_decoders ss_waiting ss_retired ss_removed]. rewrite app_nil_r, map_map. cbn [fst snd].
    set (waiting := rev _).
    assert (Pw : map sd_priv waiting = rev (map (fun d => (fst d, no_view)) decoders)).
    { unfold waiting. now rewrite map_rev, map_map. }
    assert (Q : forall x, In x (map sd_priv waiting) -> exists p, x = (p, no_view) /\ starts p).
    { intros x. rewrite Pw, <- in_rev. intros Hx. apply in_map_iff in Hx. destruct Hx as (d & <- & Hd).
      exists (fst d). split; [reflexivity|]. rewrite Forall_forall in Hs. now apply Hs. }
    assert (H0 : JJ (mk_world [] [] kernel None e, no_table) (map sd_priv waiting)).
    { assert (Em : forall f : priv -> option nat, (forall p, starts p -> f p = None) ->
                   flat_map (fun p => opt (f p)) (map fst (map sd_priv waiting)) = []).
      { intros f Hf. revert Q. generalize (map sd_priv waiting) as m. induction m as [|x m IH]; intros Q; [reflexivity|].
        cbn [map flat_map]. destruct (Q x (or_introl eq_refl)) as (p & -> & Sp). cbn [fst]. rewrite (Hf p Sp). cbn [opt app].
        apply IH. intros z Hz. apply Q. now right. }
      unfold JJ. cbn [fst snd]. split; [|split; [|split; [|split]]].
      - unfold J, ctxs, nexts. rewrite !Em by (intros p Sp; apply Sp). split; [|split].
        + split; [now intros [|c]|intros [|c] x; discriminate].
        + apply Forall_forall. intros p Hp. apply in_map_iff in Hp. destruct Hp as (x & <- & Hx).
          destruct (Q x Hx) as (p & -> & Sp). split; apply Sp.
        + intros _. exact Logic.I.
      - unfold WR. cbn. split; [reflexivity|]. split; [intros [|c] x; discriminate|]. split; [intros c []|].
        split; [discriminate|]. split; [constructor|]. now split.
      - apply Forall_forall. intros x Hx. destruct (Q x Hx) as (p & -> & (_ & _ & S1 & S2 & S3)).
        unfold XR, goal_of, no_view. cbn [fst snd cv_now cv_goal cv_mode]. rewrite S1, S2, S3. repeat split. discriminate.
      - rewrite Pw, rev_length, map_length. exact Hn.
      - etransitivity; [|exact Ht]. rewrite Pw. rewrite <- (sum_perm _ _ (Permutation_rev _)). unfold sum, total, list_sum.
        clear. induction decoders as [|d m IH]; [apply le_n|]. cbn [map fold_right]. unfold leftx at 1, left_. cbn [fst]. lia. }
    assert (Fw : Forall (fun d => idlex (sd_priv d)) waiting).
    { apply Forall_forall. intros d Hd. destruct (Q (sd_priv d)) as (p & -> & Sp); [now apply in_map|]. split; apply Sp. }
    pose proof (init_kept ops JJ leftx JJ_perm fetch_JJ idlex idlex_fetch dtor_JJ waiting
                 (mk_session [] waiting [] []) (mk_world [] [] kernel None e, no_table) eq_refl Fw) as X.
    unfold privs at 1, members in X. cbn [ss_decoders ss_waiting ss_retired ss_removed app] in X. rewrite app_nil_r in X.
    specialize (X H0). destruct (init_loop ops waiting (mk_session [] waiting [] []) (mk_world [] [] kernel None e, no_table)) as ((s1, w1), r1).
    destruct X as (X1 & X2 & _). destruct r1 as [[]|er|u]; [now apply see_JJ|now split|now split].
  Qed.

  Lemma run_plain decoders w y l :
    run_session (pevent_ops out) decoders w l =
    let '(s, (w', _), r) := run_session ops (map (fun d => ((fst d, no_view), snd d)) decoders) (w, y) l in
    (erase fst s, w', r).
  Proof.
    pose proof (run_erase (pevent_ops out) ops fst fst) as H.
    assert (M_ : map (fun x => (@fst priv cpu_view (fst x), snd x)) (map (fun d : priv * bool => ((fst d, no_view), snd d)) decoders) = decoders).
    { rewrite map_map. rewrite <- (map_id decoders) at 2. apply map_ext. now intros (p, b). }
    rewrite <- M_ at 1. change w with (fst (w, y)) at 1. rewrite H.
    - destruct (run_session ops _ (w, y) l) as ((s, (w', y')), r). reflexivity.
    - intros (w0, y0) (p, v). cbn. now destruct (fetch_callback out w0 p) as ((w1, p1), r1).
    - intros g ev (w0, y0) (p, v). cbn. destruct (on_apply t (eo_new out) kernel g ev p y0 v) as (y1, v1).
      now destruct (apply_callback out g ev w0 p) as ((w1, p1), r1).
    - intros (w0, y0) (p, v). cbn. now destruct (print_callback out w0 p) as ((w1, p1), r1).
    - intros (w0, y0) (p, v). cbn. now destruct (dtor w0 p) as (w1, r1).
  Qed.
End SESSION.
