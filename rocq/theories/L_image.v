(** Lemmas about images. *)

From Verif Require Import Base M_asid M_section M_image S_config L_config S_image.
From Coq Require Import List NArith ZArith Bool Lia ZifyBool ZifyNat ZifyN Permutation PeanoNat.
Import ListNotations.
Open Scope N_scope.
Ltac Zify.zify_post_hook ::= Z.div_mod_to_equations.

(** ** Facts: which section is visible where *)

Definition origin (e : entry) : added :=
  mk_added (ms_sec (en_msec e)) (ms_asid (en_msec e))
           (ms_vaddr (en_msec e) - ms_offset (en_msec e)) (en_isid e).
Definition ecovers (e : entry) (x : N) : Prop :=
  ms_vaddr (en_msec e) <= x < ms_vaddr (en_msec e) + ms_size (en_msec e).
Record wf (e : entry) : Prop := mk_wf {
  wf_off : ms_offset (en_msec e) <= ms_vaddr (en_msec e);
  wf_end : ms_vaddr (en_msec e) + ms_size (en_msec e) < 2 ^ 64;
  wf_size : ms_offset (en_msec e) + ms_size (en_msec e) <= sc_size (en_sec e) }.
Definition facts (l : list entry) (a : added) (x : N) : Prop :=
  exists e, In e l /\ origin e = a /\ ecovers e x.

Lemma facts_nil a x : facts [] a x <-> False.
Proof. split; [intros (e & [] & _)|tauto]. Qed.
Lemma facts_cons e l a x : facts (e :: l) a x <-> (origin e = a /\ ecovers e x) \/ facts l a x.
Proof.
  split.
  - intros (e' & [->|Hin] & H1 & H2); [left; tauto|right; exists e'; tauto].
  - intros [[H1 H2]|(e' & H0 & H1 & H2)]; [exists e; cbn; tauto|exists e'; cbn; tauto].
Qed.
Lemma facts_app l l' a x : facts (l ++ l') a x <-> facts l a x \/ facts l' a x.
Proof.
  induction l as [|e l IH]; cbn [app].
  - rewrite facts_nil. tauto.
  - rewrite !facts_cons, IH. tauto.
Qed.
Lemma facts_perm l l' a x : Permutation l l' -> facts l a x -> facts l' a x.
Proof.
  intros Hp (e & Hin & H). exists e. split; [|exact H].
  eapply Permutation_in; eassumption.
Qed.
Lemma facts_rev l a x : facts (rev l) a x <-> facts l a x.
Proof.
  split; apply facts_perm; [symmetry|]; apply Permutation_rev.
Qed.

Lemma match_compat a b : pt_asid_match a b = true <-> compatible a b.
Proof. apply match_spec. Qed.
Lemma compat_sym a b : compatible a b -> compatible b a.
Proof. unfold compatible, agree. intuition. Qed.

(** ** Adding: the list *)

Lemma mk_list_ok w mem sec a v o s i w' mem' e :
  pt_mk_section_list w mem sec a v o s i = (w', mem', Ok e) ->
  e = mk_entry (mk_msec sec a v o s) i.
Proof.
  unfold pt_mk_section_list. destruct mem as [|[] mem]; cbn [negb];
    try discriminate; destruct (on_section w (sc_id sec) pt_section_get) as [w0 [| |]];
    congruence.
Qed.

Lemma add_piece_ok st e v o s st' u :
  add_piece st e v o s = (st', Ok u) ->
  ad_kept st' = ad_kept st /\ ad_removed st' = ad_removed st /\
  ad_next st' = mk_entry (mk_msec (en_sec e) (ms_asid (en_msec e)) v o s) (en_isid e)
                :: ad_next st.
Proof.
  unfold add_piece. destruct (pt_mk_section_list _ _ _ _ _ _ _ _) as [[w' mem'] [n| |]] eqn:E;
    try discriminate.
  intros [= <- _]. cbn. apply mk_list_ok in E. subst n. repeat split.
Qed.

Definition inside (b n x : N) : Prop := b <= x < n.

Lemma add_step_ok st a begin end_ e st' u :
  wf e -> begin <= end_ < 2 ^ 64 ->
  Forall wf (ad_kept st) -> Forall wf (ad_next st) ->
  add_step st a begin end_ e = (st', Ok u) ->
  Forall wf (ad_kept st') /\ Forall wf (ad_next st') /\
  forall o x, facts (ad_kept st' ++ ad_next st') o x <->
    facts (ad_kept st ++ ad_next st) o x \/
    ((origin e = o /\ ecovers e x) /\
     ~ (compatible (ad_asid o) a /\ inside begin end_ x)).
Proof.
  intros [Ho He Hs] Hbe Hk Hn. unfold add_step.
  destruct (pt_asid_match (ms_asid (en_msec e)) a) eqn:Hm; cbn [negb].
  2:{ intros [= <- _]. cbn. split; [constructor; [split; assumption|assumption]|].
      split; [assumption|]. intros o x. cbn [app]. rewrite facts_cons.
      assert (Hc : origin e = o -> ~ compatible (ad_asid o) a).
      { intros <- Hc. cbn in Hc. apply match_compat in Hc. congruence. }
      tauto. }
  assert (Hc : compatible (ms_asid (en_msec e)) a) by (apply match_compat; exact Hm).
  unfold pt_msec_begin, pt_msec_end.
  set (m := en_msec e) in *.
  replace (add64 (ms_vaddr m) (ms_size m)) with (ms_vaddr m + ms_size m)
    by (unfold add64; lia).
  destruct ((end_ <=? ms_vaddr m) || (ms_vaddr m + ms_size m <=? begin)) eqn:Hd.
  { intros [= <- _]. cbn [ad_kept ad_next].
    split; [constructor; [split; assumption|assumption]|].
    split; [assumption|]. intros o x. cbn [app]. rewrite facts_cons.
    assert (Hx : ecovers e x -> ~ inside begin end_ x).
    { unfold ecovers, inside. fold m. lia. }
    tauto. }
  set (st0 := mk_adding (ad_world st) (ad_mem st) (ad_kept st) (e :: ad_removed st) (ad_next st)).
  destruct (if ms_vaddr m <? begin then _ else _) as [st1 r1] eqn:E1.
  destruct r1 as [u1| |]; try discriminate.
  assert (G1 : ad_kept st1 = ad_kept st /\ ad_next st1 =
    (if ms_vaddr m <? begin
     then [mk_entry (mk_msec (en_sec e) (ms_asid m) (ms_vaddr m) (ms_offset m)
                             (begin - ms_vaddr m)) (en_isid e)]
     else []) ++ ad_next st).
  { destruct (N.ltb_spec (ms_vaddr m) begin) as [Hl|Hl].
    - apply add_piece_ok in E1. destruct E1 as (A & _ & B). split; [exact A|].
      rewrite B. cbn [app]. unfold st0. cbn [ad_next].
      replace (sub64 begin (ms_vaddr m)) with (begin - ms_vaddr m) by (unfold sub64; lia).
      reflexivity.
    - injection E1 as <- _. split; reflexivity. }
  intros E2.
  assert (G2 : ad_kept st' = ad_kept st /\ ad_next st' =
    (if end_ <? ms_vaddr m + ms_size m
     then [mk_entry (mk_msec (en_sec e) (ms_asid m) end_ (ms_offset m + (end_ - ms_vaddr m))
                             (ms_vaddr m + ms_size m - end_)) (en_isid e)]
     else []) ++ ad_next st1).
  { destruct (N.ltb_spec end_ (ms_vaddr m + ms_size m)) as [Hl|Hl].
    - apply add_piece_ok in E2. destruct E2 as (A & _ & B).
      split; [rewrite A; apply G1|].
      rewrite B. cbn [app].
      replace (add64 (ms_offset m) (sub64 end_ (ms_vaddr m)))
        with (ms_offset m + (end_ - ms_vaddr m)) by (unfold add64, sub64; lia).
      replace (sub64 (ms_vaddr m + ms_size m) end_)
        with (ms_vaddr m + ms_size m - end_) by (unfold sub64; lia).
      reflexivity.
    - injection E2 as <- _. split; [apply G1|reflexivity]. }
  clear E1 E2. destruct G1 as [_ G1], G2 as [G2a G2].
  rewrite G2, G1, G2a.
  split; [assumption|]. split.
  - apply Forall_app. split; [|apply Forall_app; split; [|assumption]];
      match goal with |- Forall wf (if ?c then _ else _) => destruct c eqn:? end;
      constructor; try constructor; unfold en_sec; cbn [en_msec ms_sec ms_offset ms_vaddr ms_size];
      fold m; unfold en_sec in Hs; fold m in Hs; lia.
  - intros o x. rewrite !facts_app.
    assert (P : forall c p, facts (if c : bool then [p] else []) o x <->
                            c = true /\ origin p = o /\ ecovers p x).
    { intros [] p; [rewrite facts_cons|]; rewrite facts_nil; intuition congruence. }
    rewrite !P. clear P.
    assert (O1 : forall v f s, v - f = ms_vaddr m - ms_offset m ->
      origin (mk_entry (mk_msec (en_sec e) (ms_asid m) v f s) (en_isid e)) = origin e).
    { intros v f s Hv. unfold origin, en_sec. cbn [en_msec ms_sec ms_asid ms_vaddr ms_offset en_isid].
      fold m. rewrite Hv. reflexivity. }
    rewrite !O1 by lia.
    unfold ecovers at 1 2. cbn [en_msec ms_vaddr ms_size].
    unfold ecovers. fold m. unfold inside.
    assert (Ho' : origin e = o -> compatible (ad_asid o) a) by (intros <-; exact Hc).
    split.
    + intros H. destruct H as [?|H]; [tauto|]. destruct H as [H|[H|?]]; [| |tauto];
        destruct H as (Hb & Hor & Hx); right; (split; [split; [exact Hor|lia]|]);
        intros [_ Hin]; lia.
    + intros [?|[[Hor Hx] Hni]]; [tauto|]. right.
      assert (~ (begin <= x < end_)) by tauto.
      destruct (N.lt_ge_cases x begin).
      * right; left. split; [lia|]. split; [exact Hor|]. lia.
      * left. split; [lia|]. split; [exact Hor|]. lia.
Qed.

Lemma add_loop_ok l : forall st a begin end_ st' rest u,
  Forall wf l -> begin <= end_ < 2 ^ 64 ->
  Forall wf (ad_kept st) -> Forall wf (ad_next st) ->
  add_loop st a begin end_ l = (st', rest, Ok u) ->
  Forall wf (ad_kept st') /\ Forall wf (ad_next st') /\
  forall o x, facts (ad_kept st' ++ ad_next st') o x <->
    facts (ad_kept st ++ ad_next st) o x \/
    (facts l o x /\ ~ (compatible (ad_asid o) a /\ inside begin end_ x)).
Proof.
  induction l as [|e l IH]; intros st a begin end_ st' rest u Hwf Hbe Hk Hn; cbn [add_loop].
  - intros [= <- <- _]. split; [assumption|]. split; [assumption|].
    intros o x. rewrite facts_nil. tauto.
  - inversion Hwf as [|? ? He Hl]; subst.
    destruct (add_step st a begin end_ e) as [st1 [u1| |]] eqn:E; try discriminate.
    destruct (add_step_ok _ _ _ _ _ _ _ He Hbe Hk Hn E) as (Hk1 & Hn1 & F1).
    intros E2. destruct (IH _ _ _ _ _ _ _ Hl Hbe Hk1 Hn1 E2) as (Hk2 & Hn2 & F2).
    split; [assumption|]. split; [assumption|]. intros o x.
    rewrite F2, F1, facts_cons. tauto.
Qed.

(** Where pieces end: at the end of a previous piece of the same section or where the new
    section begins. *)
Definition eend (e : entry) : N := ms_vaddr (en_msec e) + ms_size (en_msec e).
Definition ends (P : added -> N -> Prop) (l : list entry) : Prop :=
  Forall (fun e => P (origin e) (eend e)) l.

Lemma add_step_ends P st a begin end_ e st' u :
  wf e -> begin <= end_ < 2 ^ 64 ->
  ends P (ad_kept st) -> ends P (ad_next st) -> P (origin e) (eend e) ->
  (forall o, P o begin) ->
  add_step st a begin end_ e = (st', Ok u) ->
  ends P (ad_kept st') /\ ends P (ad_next st').
Proof.
  intros [Ho He Hs] Hbe Hk Hn Pe Pb. unfold add_step.
  destruct (negb _); [intros [= <- _]; split; [constructor; assumption|assumption]|].
  unfold pt_msec_begin, pt_msec_end.
  set (m := en_msec e) in *.
  replace (add64 (ms_vaddr m) (ms_size m)) with (ms_vaddr m + ms_size m)
    by (unfold add64; lia).
  destruct ((end_ <=? ms_vaddr m) || (ms_vaddr m + ms_size m <=? begin)) eqn:Hd;
    [intros [= <- _]; split; [constructor; assumption|assumption]|].
  set (st0 := mk_adding (ad_world st) (ad_mem st) (ad_kept st) (e :: ad_removed st) (ad_next st)).
  destruct (if ms_vaddr m <? begin then _ else _) as [st1 r1] eqn:E1.
  destruct r1 as [u1| |]; try discriminate.
  assert (G1 : ad_kept st1 = ad_kept st /\ ends P (ad_next st1)).
  { destruct (N.ltb_spec (ms_vaddr m) begin) as [Hl|Hl].
    - apply add_piece_ok in E1. destruct E1 as (A & _ & B). split; [exact A|].
      rewrite B. constructor; [|exact Hn]. unfold eend. cbn [en_msec ms_vaddr ms_size].
      replace (ms_vaddr m + sub64 begin (ms_vaddr m)) with begin by (unfold sub64; lia).
      apply Pb.
    - injection E1 as <- _. split; [reflexivity|exact Hn]. }
  clear E1. destruct G1 as [K1 N1].
  destruct (N.ltb_spec end_ (ms_vaddr m + ms_size m)) as [Hl|Hl].
  - intros E2. apply add_piece_ok in E2. destruct E2 as (A & _ & B).
    rewrite A, K1, B. split; [exact Hk|]. constructor; [|exact N1].
    unfold eend, origin, en_sec. cbn [en_msec ms_vaddr ms_size ms_sec ms_asid ms_offset en_isid].
    fold m.
    replace (end_ + sub64 (ms_vaddr m + ms_size m) end_) with (ms_vaddr m + ms_size m)
      by (unfold sub64; lia).
    replace (end_ - add64 (ms_offset m) (sub64 end_ (ms_vaddr m)))
      with (ms_vaddr m - ms_offset m) by (unfold sub64, add64; lia).
    exact Pe.
  - intros [= <- _]. rewrite K1. split; assumption.
Qed.
Lemma add_loop_ends P l : forall st a begin end_ st' rest u,
  Forall wf l -> begin <= end_ < 2 ^ 64 ->
  ends P (ad_kept st) -> ends P (ad_next st) -> ends P l ->
  (forall o, P o begin) ->
  add_loop st a begin end_ l = (st', rest, Ok u) ->
  ends P (ad_kept st') /\ ends P (ad_next st').
Proof.
  induction l as [|e l IH]; intros st a begin end_ st' rest u Hwf Hbe Hk Hn Pl Pb; cbn [add_loop].
  - intros [= <- <- _]. split; assumption.
  - inversion Hwf as [|? ? He Hl]; subst. inversion Pl as [|? ? Pe Pl']; subst.
    destruct (add_step st a begin end_ e) as [st1 [u1| |]] eqn:E; try discriminate.
    destruct (add_step_ends _ _ _ _ _ _ _ _ He Hbe Hk Hn Pe Pb E) as [K1 N1].
    apply IH; assumption.
Qed.

(** The sections that are still there if the loop fails, or are removed. *)
Lemma add_piece_perm st e v o s st' r :
  add_piece st e v o s = (st', r) ->
  ad_kept st' = ad_kept st /\ ad_removed st' = ad_removed st.
Proof.
  unfold add_piece. destruct (pt_mk_section_list _ _ _ _ _ _ _ _) as [[w' mem'] [n| |]];
    intros [= <- _]; split; reflexivity.
Qed.
Lemma add_step_perm st a begin end_ e st' r :
  add_step st a begin end_ e = (st', r) ->
  Permutation (ad_kept st' ++ ad_removed st') (e :: ad_kept st ++ ad_removed st).
Proof.
  unfold add_step. destruct (negb _); [intros [= <- _]; apply Permutation_refl|].
  destruct (_ || _); [intros [= <- _]; apply Permutation_refl|].
  set (st0 := mk_adding _ _ _ _ _).
  assert (P : Permutation (ad_kept st0 ++ ad_removed st0) (e :: ad_kept st ++ ad_removed st))
    by (cbn; symmetry; apply Permutation_middle).
  destruct (if pt_msec_begin (en_msec e) <? begin then _ else _) as [st1 r1] eqn:E1.
  assert (Q : ad_kept st1 = ad_kept st0 /\ ad_removed st1 = ad_removed st0).
  { destruct (_ <? _) in E1; [eapply add_piece_perm; exact E1|].
    injection E1 as <- _. split; reflexivity. }
  destruct Q as [Qa Qb]. rewrite <- Qa, <- Qb in P. clear E1.
  destruct r1 as [u1| |]; [|intros [= <- _]; exact P|intros [= <- _]; exact P].
  destruct (_ <? _); [|intros [= <- _]; exact P].
  intros E2. apply add_piece_perm in E2. destruct E2 as [-> ->]. exact P.
Qed.
Lemma add_loop_perm l : forall st a begin end_ st' rest r,
  add_loop st a begin end_ l = (st', rest, r) ->
  Permutation (ad_kept st' ++ rest ++ ad_removed st') (l ++ ad_kept st ++ ad_removed st) /\
  (forall u, r = Ok u -> rest = []).
Proof.
  induction l as [|e l IH]; intros st a begin end_ st' rest r; cbn [add_loop].
  - intros [= <- <- _]. split; [apply Permutation_refl|reflexivity].
  - destruct (add_step st a begin end_ e) as [st1 r1] eqn:E. apply add_step_perm in E.
    assert (P : Permutation (ad_kept st1 ++ l ++ ad_removed st1)
                            ((e :: l) ++ ad_kept st ++ ad_removed st)).
    { rewrite Permutation_app_swap_app. cbn [app]. rewrite E. symmetry. apply Permutation_middle. }
    destruct r1 as [u1| |]; [|intros [= <- <- <-]; split; [exact P|discriminate]..].
    intros E2. destruct (IH _ _ _ _ _ _ _ E2) as [P2 Hr]. split; [|exact Hr].
    rewrite P2. cbn [app]. rewrite E. symmetry. apply Permutation_middle.
Qed.
