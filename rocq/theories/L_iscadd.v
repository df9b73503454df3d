(** Lemmas about adding sections to the image section cache. *)

From Verif Require Import Base M_section M_image M_iscache S_core S_section L_section S_image
  S_iscache L_iscache L_isclru.
From Coq Require Import List NArith ZArith Bool Lia ZifyBool ZifyNat ZifyN PeanoNat.
Import ListNotations.
Open Scope N_scope.
Ltac Zify.zify_post_hook ::= Z.div_mod_to_equations.

(** ** Entries *)

Definition sid (e : cached) : nat := sc_id (ce_sec e).
Definition occ (l : list cached) (id : nat) : N :=
  N.of_nat (length (filter (fun e => Nat.eqb (sc_id (ce_sec e)) id) l)).
Definition ident_of (e : cached) : ident :=
  mk_ident (sc_name (ce_sec e)) (sc_offset (ce_sec e)) (sc_size (ce_sec e)) (ce_laddr e).
Definition is_for (s : section) (name offset size : N) : Prop :=
  sc_name s = name /\ sc_offset s = offset /\ sc_size s = size.

Lemma occ_cons e l id : occ (e :: l) id = (if Nat.eqb (sid e) id then 1 else 0) + occ l id.
Proof. unfold occ, sid. cbn [filter]. destruct (Nat.eqb _ _); cbn [length]; lia. Qed.
Lemma occ_app l l' id : occ (l ++ l') id = occ l id + occ l' id.
Proof. unfold occ. rewrite filter_app, app_length. lia. Qed.
Lemma occ_in l id : 0 < occ l id <-> In id (map sid l).
Proof.
  induction l as [|e l IH]; [cbn; lia|]. rewrite occ_cons. cbn [map In].
  destruct (Nat.eqb_spec (sid e) id).
  - split; [tauto|lia].
  - rewrite N.add_0_l, IH. tauto.
Qed.

Record einv (c : iscache) : Prop := {
  ei_same : forall e e', In e (ic_entries c) -> In e' (ic_entries c) -> sid e = sid e' ->
            ce_sec e = ce_sec e';
  ei_share : forall e e', In e (ic_entries c) -> In e' (ic_entries c) ->
             is_for (ce_sec e) (sc_name (ce_sec e')) (sc_offset (ce_sec e')) (sc_size (ce_sec e')) ->
             ce_sec e = ce_sec e';
  ei_nodup : NoDup (map ident_of (ic_entries c));
  ei_cap : ic_size c <= ic_capacity c /\ ic_capacity c <= 65528 /\ ic_capacity c mod 8 = 0 }.

Lemma einv_same c c' : same_cache c c' -> einv c -> einv c'.
Proof.
  intros (E1 & E2 & E3 & E4) [H1 H2 H3 H4]. split; unfold ic_size in *; rewrite ?E2, ?E3 in *; assumption.
Qed.

(** ** Searching *)

Lemma find_some s name offset size laddr : forall l idx m,
  let r := find_section l idx (Some s) m name offset size laddr in
  (exists k e, nth_error l k = Some e /\ r = (idx + k)%nat /\ sid e = s /\ ce_laddr e = laddr) \/
  (r = m /\ forall e, In e l -> sid e = s -> ce_laddr e <> laddr).
Proof.
  induction l as [|e l IH]; intros idx m; cbn [find_section]; cbv zeta.
  { right. split; [reflexivity|]. intros e []. }
  change (sc_id (ce_sec e)) with (sid e).
  destruct (Nat.eqb_spec (sid e) s) as [E|E].
  - destruct (N.eqb_spec laddr (ce_laddr e)) as [El|El].
    + left. exists O, e. rewrite Nat.add_0_r. repeat split; congruence.
    + rewrite E. specialize (IH (S idx) m). cbv zeta in IH.
      destruct IH as [(k & e' & H1 & H2 & H3)|[H1 H2]].
      * left. exists (S k), e'. cbn. rewrite H2. split; [exact H1|]. split; [lia|exact H3].
      * right. split; [exact H1|]. intros x [<-|Hx]; [intros _; congruence|apply H2, Hx].
  - specialize (IH (S idx) m). cbv zeta in IH.
    destruct IH as [(k & e' & H1 & H2 & H3)|[H1 H2]].
    + left. exists (S k), e'. cbn. rewrite H2. split; [exact H1|]. split; [lia|exact H3].
    + right. split; [exact H1|]. intros x [<-|Hx]; [intros Hs; congruence|apply H2, Hx].
Qed.

Lemma find_none name offset size laddr : forall l idx m,
  let r := find_section l idx None m name offset size laddr in
  (r = m /\ forall e, In e l -> ~ is_for (ce_sec e) name offset size) \/
  (exists a e b, l = a ++ e :: b /\ (forall x, In x a -> ~ is_for (ce_sec x) name offset size) /\
     is_for (ce_sec e) name offset size /\
     ((exists k x, nth_error (e :: b) k = Some x /\ r = (idx + length a + k)%nat /\ sid x = sid e /\
         ce_laddr x = laddr) \/
      (r = (idx + length a)%nat /\ forall x, In x (e :: b) -> sid x = sid e -> ce_laddr x <> laddr))).
Proof.
  induction l as [|e l IH]; intros idx m; cbn [find_section]; cbv zeta.
  { left. split; [reflexivity|]. intros e []. }
  destruct (negb (offset =? sc_offset (ce_sec e)) || negb (size =? sc_size (ce_sec e))
             || negb (name =? sc_name (ce_sec e))) eqn:Em.
  - assert (Hn : ~ is_for (ce_sec e) name offset size).
    { intros (E1 & E2 & E3). rewrite E1, E2, E3, !N.eqb_refl in Em. discriminate. }
    specialize (IH (S idx) m). cbv zeta in IH.
    destruct IH as [[H1 H2]|(a & x & b & -> & H2 & H3 & H4)].
    + left. split; [exact H1|]. intros y [<-|Hy]; [exact Hn|apply H2, Hy].
    + right. exists (e :: a), x, b. split; [reflexivity|].
      split; [intros y [<-|Hy]; [exact Hn|apply H2, Hy]|]. split; [exact H3|]. cbn [length].
      destruct H4 as [(k & y & K1 & K2 & K3)|[K1 K2]]; [left; exists k, y; split; [exact K1|split; [lia|exact K3]]|].
      right. split; [lia|exact K2].
  - right. exists [], e, l. split; [reflexivity|]. split; [intros x []|]. split.
    { apply orb_false_iff in Em. destruct Em as [Em E3]. apply orb_false_iff in Em. destruct Em as [E1 E2].
      apply negb_false_iff, N.eqb_eq in E1, E2, E3. repeat split; congruence. }
    cbn [length]. rewrite Nat.add_0_r. change (sc_id (ce_sec e)) with (sid e).
    destruct (N.eqb_spec laddr (ce_laddr e)) as [El|El].
    + left. exists O, e. rewrite Nat.add_0_r. repeat split; congruence.
    + pose proof (find_some (sid e) name offset size laddr l (S idx) idx) as F. cbv zeta in F.
      destruct F as [(k & y & K1 & K2 & K3)|[K1 K2]].
      * left. exists (S k), y. split; [exact K1|]. split; [lia|exact K3].
      * right. split; [exact K1|]. intros x [<-|Hx]; [intros _; congruence|apply K2, Hx].
Qed.

Lemma find_section_spec c name offset size laddr : einv c ->
  let m := pt_iscache_find_section c name offset size laddr in
  (nth_error (ic_entries c) m = None /\
   forall e, In e (ic_entries c) -> ~ is_for (ce_sec e) name offset size) \/
  (exists e, nth_error (ic_entries c) m = Some e /\ is_for (ce_sec e) name offset size /\
    (ce_laddr e = laddr \/
     forall e', In e' (ic_entries c) -> is_for (ce_sec e') name offset size -> ce_laddr e' <> laddr)).
Proof.
  intros H. cbv zeta. unfold pt_iscache_find_section.
  pose proof (find_none name offset size laddr (ic_entries c) 0 (length (ic_entries c))) as F.
  cbv zeta in F. destruct F as [[F1 F2]|(a & e & b & E & F1 & F2 & F3)].
  - left. split; [|exact F2]. apply nth_error_None. lia.
  - right. destruct F3 as [(k & x & K1 & K2 & K3 & K4)|[K1 K2]].
    + exists x. assert (Hn : nth_error (ic_entries c) (0 + length a + k) = Some x).
      { rewrite E. rewrite Nat.add_0_l, nth_error_app2 by lia.
        replace (length a + k - length a)%nat with k by lia. exact K1. }
      rewrite K2. split; [exact Hn|]. split; [|left; exact K4].
      rewrite (ei_same _ H x e); [exact F2|apply nth_error_In in Hn; exact Hn| |exact K3].
      rewrite E. apply in_app_iff. right. left. reflexivity.
    + exists e. rewrite K1. split.
      { rewrite E, Nat.add_0_l, nth_error_app2 by lia. rewrite Nat.sub_diag. reflexivity. }
      split; [exact F2|]. right. intros x Hx Hm.
      assert (Hs : sid x = sid e).
      { assert (Es : ce_sec x = ce_sec e).
        { apply (ei_share _ H); [exact Hx|rewrite E; apply in_app_iff; right; left; reflexivity|].
          destruct F2 as (G1 & G2 & G3). rewrite G1, G2, G3. exact Hm. }
        unfold sid. rewrite Es. reflexivity. }
      rewrite E in Hx. apply in_app_iff in Hx. destruct Hx as [Hx|Hx]; [exfalso; exact (F1 x Hx Hm)|].
      apply K2; assumption.
Qed.

Lemma ident_eqb_eq a b : ident_eqb a b = true <-> a = b.
Proof.
  unfold ident_eqb. destruct a as [a1 a2 a3 a4], b as [b1 b2 b3 b4]. cbn.
  rewrite !andb_true_iff, !N.eqb_eq. split; [intros [[[-> ->] ->] ->]; reflexivity|intros [= -> -> -> ->]; tauto].
Qed.

Lemma index_none l i : index_of l i = None <-> ~ In i l.
Proof.
  induction l as [|x l IH]; cbn; [tauto|].
  destruct (ident_eqb x i) eqn:E.
  - apply ident_eqb_eq in E. split; [discriminate|tauto].
  - assert (x <> i) by (intros ->; rewrite (proj2 (ident_eqb_eq i i) eq_refl) in E; discriminate).
    destruct (index_of l i); cbn; [|tauto].
    split; [discriminate|]. intros Hn. discriminate (proj2 IH). tauto.
Qed.

Lemma index_nth l : forall m i, NoDup l -> nth_error l m = Some i -> index_of l i = Some (N.of_nat m).
Proof.
  induction l as [|x l IH]; intros [|m] i Hn; cbn; try discriminate.
  - intros [= ->]. rewrite (proj2 (ident_eqb_eq i i) eq_refl). reflexivity.
  - inversion Hn as [|? ? H1 H2]; subst. intros E.
    destruct (ident_eqb x i) eqn:Ex.
    + apply ident_eqb_eq in Ex. subst x. exfalso. apply H1. apply nth_error_In in E. exact E.
    + rewrite (IH _ _ H2 E). cbn. f_equal. lia.
Qed.

Lemma index_some l : forall i n, index_of l i = Some n -> nth_error l (N.to_nat n) = Some i.
Proof.
  induction l as [|x l IH]; intros i n; cbn; [discriminate|].
  destruct (ident_eqb x i) eqn:E.
  - apply ident_eqb_eq in E. intros [= <-]. cbn. congruence.
  - destruct (index_of l i) as [k|] eqn:Ek; [|discriminate]. cbn. intros [= <-].
    rewrite N2Nat.inj_succ. cbn. apply IH, Ek.
Qed.

(** ** Moving between states *)

Lemma linv_step cid R G A S R' A' w w' c :
  linv cid R G A S w c -> wok cid R' (fun id => G id + inlru (ic_lru c) id) A' w' ->
  mem_same w w' -> (forall id, In id S -> 0 < R' id) -> linv cid R' G A' S w' c.
Proof.
  intros [[H1 H2 H3 H4 H5 H6 H7 H8 H9] H10] W M P. split; [|exact H10].
  split; try assumption. intros e He. rewrite (memory_same _ _ (M (lr_id e))). apply H6, He.
Qed.

Lemma linv_ext cid R G A S R' G' A' w c : linv cid R G A S w c ->
  (forall j, R' j = R j) -> (forall j, G' j = G j) -> (forall j, A' j = A j) ->
  linv cid R' G' A' S w c.
Proof.
  intros [[H1 H2 H3 H4 H5 H6 H7 H8 H9] H10] E1 E2 E3. split; [|exact H10].
  split; try assumption.
  - eapply wok_ext; [exact H2|exact E1| |exact E3]. intros j. rewrite E2. reflexivity.
  - intros id Hid. rewrite E1. apply H5, Hid.
Qed.

(** [plus1 F id]: one more for [id]. *)
Definition plus1 (F : counts) (id : nat) : counts :=
  fun j => F j + (if Nat.eqb j id then 1 else 0).
Lemma plus1_up F id j : plus1 F id j = up F id (F id + 1) j.
Proof. unfold plus1, up. destruct (Nat.eqb_spec j id) as [->|]; lia. Qed.
Lemma plus1_down F id j : F j = up (plus1 F id) id (plus1 F id id - 1) j.
Proof. unfold plus1, up. rewrite Nat.eqb_refl. destruct (Nat.eqb_spec j id) as [->|]; lia. Qed.
Lemma plus1_same F id : plus1 F id id = F id + 1.
Proof. unfold plus1. rewrite Nat.eqb_refl. reflexivity. Qed.
Lemma plus1_le F id j : F j <= plus1 F id j.
Proof. unfold plus1. destruct (Nat.eqb j id); lia. Qed.

Section Moves.
  Context (cid : nat) (G : counts) (S : list nat).

  Lemma l_get R A w c id : linv cid R G A S w c -> 0 < R id ->
    exists w', (on_section w id pt_section_get = (w', Ok tt) /\ linv cid (plus1 R id) G A S w' c) \/
               (on_section w id pt_section_get = (w', Err pte_overflow) /\ R id = max_count /\
                linv cid R G A S w' c).
  Proof.
    intros H Hr. pose proof H as [[_ W _ _ P _ _ _ _] _].
    destruct (w_get _ _ _ _ _ W id Hr) as (w' & M & [(E & _ & W')|(E & Hm & W')]); exists w'.
    - left. split; [exact E|]. eapply linv_step; [exact H| |exact M|].
      + eapply wok_ext; [exact W'|apply plus1_up|reflexivity|reflexivity].
      + intros j Hj. pose proof (plus1_le R id j). specialize (P j Hj). lia.
    - right. split; [exact E|]. split; [exact Hm|]. eapply linv_step; [exact H|exact W'|exact M|exact P].
  Qed.

  Lemma l_put R A w c id : linv cid (plus1 R id) G A S w c -> A id <= R id ->
    (R id = 0 -> G id = 0) -> (In id S -> 0 < R id) ->
    exists w', on_section w id pt_section_put = (w', Ok tt) /\ linv cid R G A S w' c.
  Proof.
    intros H Ha Hg Hs. pose proof H as [[_ W _ I P _ _ _ _] _].
    destruct (w_put _ _ _ _ _ W id) as (w' & E & M & W').
    - rewrite plus1_same. lia.
    - rewrite plus1_same. intros E. assert (E0 : R id = 0) by lia. rewrite (Hg E0).
      destruct (N.eq_dec (inlru (ic_lru c) id) 0) as [->|Hn]; [reflexivity|].
      assert (0 < inlru (ic_lru c) id) as Hin by lia. apply inl_in, I, Hs in Hin. lia.
    - exists w'. split; [exact E|]. eapply linv_step; [exact H| |exact M|].
      + eapply wok_ext; [exact W'|apply plus1_down|reflexivity|reflexivity].
      + intros j Hj. destruct (Nat.eq_dec j id) as [->|Hne]; [apply Hs, Hj|].
        specialize (P j Hj). unfold plus1 in P. destruct (Nat.eqb_spec j id); [congruence|]. lia.
  Qed.

  Lemma l_attach R A w c id : linv cid R G A S w c -> A id < R id ->
    exists w', on_section w id (fun s => pt_section_attach s (ic_id c)) = (w', Ok tt) /\
               linv cid R G (plus1 A id) S w' c.
  Proof.
    intros H Ha. pose proof H as [[E0 W _ I P _ _ _ _] _]. rewrite E0.
    destruct (w_attach _ _ _ _ _ W id Ha) as (w' & E & M & W').
    exists w'. split; [exact E|]. eapply linv_step; [exact H| |exact M|exact P].
    eapply wok_ext; [exact W'|reflexivity|reflexivity|apply plus1_up].
  Qed.

  Lemma l_detach R A w c id : linv cid R G (plus1 A id) S w c ->
    exists w', on_section w id (fun s => pt_section_detach s (ic_id c)) = (w', Ok tt) /\
               linv cid R G A S w' c.
  Proof.
    intros H. pose proof H as [[E0 W _ I P _ _ _ _] _]. rewrite E0.
    destruct (w_detach _ _ _ _ _ W id) as (w' & E & M & W'); [rewrite plus1_same; lia|].
    exists w'. split; [exact E|]. eapply linv_step; [exact H| |exact M|exact P].
    eapply wok_ext; [exact W'|reflexivity|reflexivity|apply plus1_down].
  Qed.

  Lemma l_clear R A w c : linv cid R G A S w c ->
    exists w', pt_iscache_lru_clear w c = (w', set_lru c [] 0, Ok tt) /\
               linv cid R G A S w' (set_lru c [] 0).
  Proof.
    intros [[H1 H2 H3 H4 H5 H6 H7 H8 H9] H10]. unfold pt_iscache_lru_clear.
    destruct (lru_free_ok (ic_lru c) cid R G A w H2) as (w' & -> & W & K).
    { intros id Hid. apply inl_in, H4, H5 in Hid. exact Hid. }
    exists w'. split; [reflexivity|]. split; [|cbn; lia].
    split; cbn [set_lru ic_id ic_lru ic_limit ic_used map]; try assumption; try reflexivity.
    - eapply wok_ext; [exact W|reflexivity| |reflexivity]. intros j. cbn. lia.
    - constructor.
    - intros x [].
    - intros x [].
  Qed.

  Lemma l_out_lru {T} R A w c id e : linv cid (plus1 R id) G A S w c -> A id <= R id ->
    (R id = 0 -> G id = 0) -> (In id S -> 0 < R id) ->
    exists w', @out_lru T w c id e = (w', set_lru c [] 0, Err e) /\
               linv cid R G A S w' (set_lru c [] 0).
  Proof.
    intros H Ha Hg Hs. unfold out_lru, out_put, next.
    destruct (l_clear _ _ _ _ H) as (w1 & -> & H1).
    destruct (l_put _ _ _ _ _ H1 Ha Hg Hs) as (w2 & E & H2).
    rewrite E. exists w2. split; [reflexivity|exact H2].
  Qed.

  Lemma l_out_detach {T} R A w c id e : linv cid (plus1 R id) G (plus1 A id) S w c -> A id <= R id ->
    (R id = 0 -> G id = 0) -> (In id S -> 0 < R id) ->
    exists w', @out_detach T w c id e = (w', set_lru c [] 0, Err e) /\
               linv cid R G A S w' (set_lru c [] 0).
  Proof.
    intros H Ha Hg Hs. unfold out_detach, next.
    destruct (l_detach _ _ _ _ _ H) as (w1 & E1 & H1). rewrite E1.
    apply l_out_lru; assumption.
  Qed.
End Moves.

(** ** Adding *)

Lemma next_ok {A B} c w (x : A) k h : @next A B c (w, Ok x) k h = k w x.
Proof. reflexivity. Qed.
Lemma next_err {A B} c w e k h : @next A B c (w, Err e) k h = h w e.
Proof. reflexivity. Qed.


Definition sids (c : iscache) : list nat := map sid (ic_entries c).

(** [B] counts the references without our own; sections in the cache have at least one
    for each entry. *)
Lemma search_ok cid B G c name offset size laddr :
  einv c -> (forall j, occ (ic_entries c) j <= B j) -> (forall j, B j = 0 -> G j = 0) ->
  forall fuel sec w,
  linv cid (plus1 B (sc_id sec)) G (plus1 (occ (ic_entries c)) (sc_id sec)) (sids c) w c ->
  occ (ic_entries c) (sc_id sec) < B (sc_id sec) \/ (0 < occ (ic_entries c) (sc_id sec)) ->
  is_for sec name offset size ->
  ((exists e, In e (ic_entries c) /\ ce_sec e = sec) /\ (0 < fuel)%nat) \/
  (occ (ic_entries c) (sc_id sec) = 0 /\ (1 < fuel)%nat) ->
  let i := mk_ident name offset size laddr in
  exists w',
    (exists sec', add_search fuel w c sec name offset size laddr = (w', c, Ok (inl sec')) /\
       index_of (map ident_of (ic_entries c)) i = None /\
       linv cid (plus1 B (sc_id sec')) G (plus1 (occ (ic_entries c)) (sc_id sec')) (sids c) w' c /\
       is_for sec' name offset size /\
       ((exists e, In e (ic_entries c) /\ ce_sec e = sec') \/
        (sec' = sec /\ forall e, In e (ic_entries c) -> ~ is_for (ce_sec e) name offset size))) \/
    (exists isid, add_search fuel w c sec name offset size laddr = (w', c, Ok (inr isid)) /\
       option_map N.succ (index_of (map ident_of (ic_entries c)) i) = Some isid /\
       linv cid B G (occ (ic_entries c)) (sids c) w' c) \/
    (exists e, add_search fuel w c sec name offset size laddr = (w', set_lru c [] 0, Err e) /\
       linv cid B G (occ (ic_entries c)) (sids c) w' (set_lru c [] 0)).
Proof.
  intros HE HB HG. cbv zeta.
  assert (HS : forall j, In j (sids c) -> 0 < B j).
  { intros j Hj. apply occ_in in Hj. specialize (HB j). lia. }
  assert (Hnone : (forall e, In e (ic_entries c) -> is_for (ce_sec e) name offset size -> ce_laddr e <> laddr) ->
            index_of (map ident_of (ic_entries c)) (mk_ident name offset size laddr) = None).
  { intros Hn. apply index_none. intros Hin. apply in_map_iff in Hin. destruct Hin as (e & E & He).
    injection E as E1 E2 E3 E4. apply (Hn e He); [split; [exact E1|split; assumption]|exact E4]. }
  induction fuel as [|fuel IH]; intros sec w H Hb Hf Hfuel; [exfalso; lia|].
  cbn [add_search]. cbv zeta.
  pose proof (find_section_spec c name offset size laddr HE) as F. cbv zeta in F.
  set (m := pt_iscache_find_section c name offset size laddr) in *.
  destruct F as [[F1 F2]|(e & F1 & F2 & F3)]; rewrite F1.
  - exists w. left. exists sec. split; [reflexivity|].
    split; [apply Hnone; intros e He Hm; exfalso; exact (F2 e He Hm)|].
    split; [exact H|]. split; [exact Hf|]. right. split; [reflexivity|exact F2].
  - assert (Hin : In e (ic_entries c)) by (apply nth_error_In in F1; exact F1).
    assert (Hoe : 0 < occ (ic_entries c) (sc_id (ce_sec e))) by (apply occ_in, (in_map sid), Hin).
    assert (Hidx : ce_laddr e = laddr ->
              index_of (map ident_of (ic_entries c)) (mk_ident name offset size laddr) = Some (N.of_nat m)).
    { intros El. apply index_nth; [apply HE|]. rewrite nth_error_map, F1. cbn.
      unfold ident_of. destruct F2 as (-> & -> & ->). rewrite El. reflexivity. }
    destruct (Nat.eqb_spec (sc_id (ce_sec e)) (sc_id sec)) as [Es|Es].
    + assert (Esec : ce_sec e = sec).
      { destruct Hfuel as [[(e1 & I1 & S1) _]|[H0 _]]; [|rewrite <- Es in H0; lia].
        rewrite <- S1. apply (ei_same _ HE); [exact Hin|exact I1|]. unfold sid. congruence. }
      destruct (N.eqb_spec (ce_laddr e) laddr) as [El|El].
      * destruct (l_detach _ _ _ _ _ _ _ _ H) as (w1 & E1 & H1). rewrite E1, ?next_ok, ?next_err.
        destruct (l_put _ _ _ _ _ _ _ _ H1) as (w2 & E2 & H2).
        { apply HB. } { apply HG. } { apply HS. }
        rewrite E2, ?next_ok, ?next_err. exists w2. right. left. eexists. split; [reflexivity|].
        split; [|exact H2]. rewrite (Hidx El). cbn. f_equal. lia.
      * exists w. left. exists sec. split; [reflexivity|].
        split; [apply Hnone; destruct F3 as [F3|F3]; [congruence|exact F3]|].
        split; [exact H|]. split; [exact Hf|]. left. exists e. tauto.
    + assert (H0 : occ (ic_entries c) (sc_id sec) = 0 /\ (1 < S fuel)%nat).
      { destruct Hfuel as [[(e1 & I1 & S1) _]|H0]; [|exact H0]. exfalso. apply Es.
        rewrite <- S1. f_equal. apply (ei_share _ HE); [exact Hin|exact I1|].
        rewrite S1. destruct Hf as (-> & -> & ->). exact F2. }
      destruct H0 as [H0 Hfu]. clear Hfuel.
      set (other := ce_sec e) in *.
      assert (Hbo : 0 < B (sc_id other)) by (specialize (HB (sc_id other)); lia).
      destruct (l_get _ _ _ _ _ _ _ (sc_id other) H) as (w1 & [(E1 & H1)|(E1 & _ & H1)]).
      { unfold plus1. lia. }
      2:{ rewrite E1, ?next_ok, ?next_err. destruct (@l_out_detach cid G (sids c) (section + N) _ _ _ _ _ pte_overflow H1 (HB _) (HG _) (HS _)) as (w2 & E2 & H2).
          rewrite E2, ?next_ok, ?next_err. exists w2. right. right. exists pte_overflow. split; [reflexivity|exact H2]. }
      rewrite E1, ?next_ok, ?next_err.
      destruct (l_detach _ _ _ _ _ _ _ _ H1) as (w2 & E2 & H2). rewrite E2, ?next_ok, ?next_err.
      destruct (l_attach _ _ _ _ _ _ _ (sc_id other) H2) as (w3 & E3 & H3).
      { unfold plus1. rewrite Nat.eqb_refl. specialize (HB (sc_id other)). destruct (Nat.eqb _ _); lia. }
      rewrite E3, ?next_ok, ?next_err. unfold pt_iscache_lru_remove.
      assert (Hl : lru_take (ic_lru c) (sc_id sec) = None).
      { destruct (lru_take (ic_lru c) (sc_id sec)) as [[x y]|] eqn:Et; [|reflexivity]. exfalso.
        destruct (lru_take_some _ _ _ _ Et) as (a & b & El & _ & Hx).
        assert (Hi : In (sc_id sec) (map lr_id (ic_lru c))).
        { rewrite El, map_app. apply in_app_iff. right. left. exact Hx. }
        apply (li_incl _ _ _ _ _ _ _ (proj1 H)) in Hi. apply occ_in in Hi. lia. }
      rewrite Hl.
      assert (H3' : linv cid (plus1 (plus1 B (sc_id other)) (sc_id sec)) G
                      (plus1 (occ (ic_entries c)) (sc_id other)) (sids c) w3 c).
      { eapply linv_ext; [exact H3|intros j; unfold plus1; lia|reflexivity|reflexivity]. }
      destruct (l_put _ _ _ _ _ _ _ _ H3') as (w4 & E4 & H4).
      { unfold plus1. destruct (Nat.eqb_spec (sc_id sec) (sc_id other)); [congruence|].
        specialize (HB (sc_id sec)). lia. }
      { unfold plus1. intros Hz. apply HG. lia. }
      { intros Hj. unfold plus1. specialize (HS _ Hj). lia. }
      rewrite E4, ?next_ok, ?next_err. 
      destruct (IH other w4) as (w5 & [(s' & K1 & K2 & K3 & K4 & K5)|K]);
        [exact H4|right; exact Hoe|exact F2|left; split; [exists e; split; [exact Hin|reflexivity]|lia]| |].
      * exists w5. left. exists s'. split; [exact K1|]. split; [exact K2|]. split; [exact K3|]. split; [exact K4|].
        left. destruct K5 as [K5|[-> _]]; [exact K5|]. exists e. split; [exact Hin|reflexivity].
      * exists w5. right. exact K.
Qed.

Lemma expand_ok c mem : einv c -> ic_capacity c <= ic_size c ->
  (exists cap, pt_iscache_expand c mem = Ok cap /\ cap = ic_capacity c + 8 /\ cap <= 65528 /\ cap mod 8 = 0) \/
  pt_iscache_expand c mem = Err pte_nomem.
Proof.
  intros H Hc. destruct (ei_cap _ H) as (H1 & H2 & H3). unfold pt_iscache_expand, u16, trunc. cbv zeta.
  change (2 ^ 16) with 65536.
  destruct (N.ltb_spec ((ic_capacity c + 8) mod 65536) (ic_capacity c)); [right; reflexivity|].
  destruct mem; cbn [negb]; [|right; reflexivity]. left. eexists. split; [reflexivity|]. lia.
Qed.

(** The entries grow by one for [sec]. *)
Lemma insert_ok cid B G c sec w laddr cap :
  einv c -> (forall j, occ (ic_entries c) j <= B j) ->
  linv cid (plus1 B (sc_id sec)) G (plus1 (occ (ic_entries c)) (sc_id sec)) (sids c) w c ->
  ((exists e, In e (ic_entries c) /\ ce_sec e = sec) \/
   (occ (ic_entries c) (sc_id sec) = 0 /\
    forall e, In e (ic_entries c) -> ~ is_for (ce_sec e) (sc_name sec) (sc_offset sec) (sc_size sec))) ->
  index_of (map ident_of (ic_entries c)) (ident_of (mk_cached sec laddr)) = None ->
  ic_size c < cap -> cap <= 65528 -> cap mod 8 = 0 ->
  let c' := set_entries c (ic_entries c ++ [mk_cached sec laddr]) cap in
  einv c' /\ linv cid (plus1 B (sc_id sec)) G (occ (ic_entries c')) (sids c') w c'.
Proof.
  intros HE HB H Hsec Hi Hc1 Hc2 Hc3. cbv zeta.
  assert (Ho : forall j, occ (ic_entries c ++ [mk_cached sec laddr]) j = plus1 (occ (ic_entries c)) (sc_id sec) j).
  { intros j. rewrite occ_app, occ_cons. unfold plus1, sid. cbn [ce_sec].
    rewrite Nat.eqb_sym. destruct (Nat.eqb j (sc_id sec)); cbn; lia. }
  assert (Hlen : N.of_nat (length (sids c)) < cap).
  { unfold sids, ic_size in *. rewrite map_length. exact Hc1. }
  split.
  - split; cbn [set_entries ic_entries].
    + intros e e' He He' Es. apply in_app_iff in He, He'. cbn [In] in He, He'.
      destruct He as [He|[<-|[]]], He' as [He'|[<-|[]]].
      * apply (ei_same _ HE); assumption.
      * cbn. unfold sid in Es. cbn in Es. destruct Hsec as [(x & Hx & <-)|[H0 _]].
        -- apply (ei_same _ HE); assumption.
        -- assert (0 < occ (ic_entries c) (sc_id sec)); [|lia]. apply occ_in. rewrite <- Es. apply (in_map sid), He.
      * cbn. unfold sid in Es. cbn in Es. destruct Hsec as [(x & Hx & <-)|[H0 _]].
        -- apply (ei_same _ HE); assumption.
        -- assert (0 < occ (ic_entries c) (sc_id sec)); [|lia]. apply occ_in. rewrite Es. apply (in_map sid), He'.
      * reflexivity.
    + intros e e' He He' Em. apply in_app_iff in He, He'. cbn [In] in He, He'.
      destruct He as [He|[<-|[]]], He' as [He'|[<-|[]]].
      * apply (ei_share _ HE); assumption.
      * cbn in *. destruct Hsec as [(x & Hx & <-)|[_ H0]]; [apply (ei_share _ HE); assumption|].
        exfalso. exact (H0 e He Em).
      * cbn in *. destruct Hsec as [(x & Hx & <-)|[_ H0]]; [apply (ei_share _ HE); assumption|].
        exfalso. apply (H0 e' He'). destruct Em as (-> & -> & ->). repeat split.
      * reflexivity.
    + rewrite map_app. cbn [map]. apply index_none in Hi.
      apply (NoDup_Add (a := ident_of (mk_cached sec laddr)) (l := map ident_of (ic_entries c))).
      * rewrite <- (app_nil_r (map ident_of (ic_entries c))) at 1. apply Add_app.
      * split; [apply HE|exact Hi].
    + unfold ic_size in *. cbn [set_entries ic_entries ic_capacity]. rewrite app_length. cbn [length]. lia.
  - destruct H as [[H1 H2 H3 H4 H5 H6 H7 H8 H9] H10]. split; [|exact H10].
    assert (Es : sids (set_entries c (ic_entries c ++ [mk_cached sec laddr]) cap) = sids c ++ [sc_id sec]).
    { unfold sids. cbn [set_entries ic_entries]. rewrite map_app. reflexivity. }
    split; cbn [set_entries ic_id ic_lru ic_limit ic_used ic_entries]; try assumption.
    + eapply wok_ext; [exact H2|reflexivity|reflexivity|exact Ho].
    + rewrite Es. intros x Hx. apply in_app_iff. left. apply H4, Hx.
    + rewrite Es. intros id Hid. apply in_app_iff in Hid. destruct Hid as [Hid|[<-|[]]]; [apply H5, Hid|].
      rewrite plus1_same. lia.
    + rewrite Es, app_length. cbn [length]. lia.
Qed.

(** The outcome of adding: [c'] is the cache afterwards. *)
Definition added_as (c c' : iscache) (i : ident) (r : res N) : Prop :=
  ic_id c' = ic_id c /\ ic_limit c' = ic_limit c /\
  match r with
  | Ok isid =>
      ic_lru c' = ic_lru c /\
      match index_of (map ident_of (ic_entries c)) i with
      | Some k => isid = N.succ k /\ ic_entries c' = ic_entries c
      | None => isid = N.of_nat (length (ic_entries c)) + 1 /\
                map ident_of (ic_entries c') = map ident_of (ic_entries c) ++ [i]
      end
  | Err _ => ic_entries c' = ic_entries c /\ (c' = c \/ ic_lru c' = [])
  | UB _ => False
  end.

Lemma add_ok cid f G c sec w laddr mem :
  let B := plus1 (fun j => f j + occ (ic_entries c) j) (sc_id sec) in
  einv c -> (forall j, f j = 0 -> G j = 0) ->
  linv cid B G (occ (ic_entries c)) (sids c) w c ->
  ((exists e, In e (ic_entries c) /\ ce_sec e = sec) \/ occ (ic_entries c) (sc_id sec) = 0) ->
  exists w' c' r, pt_iscache_add w c sec laddr mem = (w', c', r) /\ einv c' /\
    linv cid (plus1 (fun j => f j + occ (ic_entries c') j) (sc_id sec)) G (occ (ic_entries c')) (sids c') w' c' /\
    added_as c c' (mk_ident (sc_name sec) (sc_offset sec) (sc_size sec) laddr) r.
Proof.
  cbv zeta. intros HE HG H Hsec. set (B := plus1 (fun j => f j + occ (ic_entries c) j) (sc_id sec)) in *.
  assert (HB : forall j, occ (ic_entries c) j <= B j) by (intros j; unfold B, plus1; lia).
  assert (HBG : forall j, B j = 0 -> G j = 0) by (intros j Hj; apply HG; unfold B, plus1 in Hj; lia).
  assert (HS : forall j, In j (sids c) -> 0 < B j).
  { intros j Hj. apply occ_in in Hj. specialize (HB j). lia. }
  assert (Hsb : occ (ic_entries c) (sc_id sec) < B (sc_id sec)) by (unfold B; rewrite plus1_same; lia).
  unfold pt_iscache_add. cbv zeta.
  destruct (l_get _ _ _ _ _ _ _ (sc_id sec) H) as (w1 & [(E1 & H1)|(E1 & _ & H1)]); [lia| |]; rewrite E1, ?next_ok, ?next_err.
  2:{ exists w1, c, (Err pte_overflow). split; [reflexivity|]. split; [exact HE|]. split; [exact H1|].
      repeat split. left. reflexivity. }
 
  destruct (l_attach _ _ _ _ _ _ _ (sc_id sec) H1) as (w2 & E2 & H2); [rewrite plus1_same; lia|]. rewrite E2, ?next_ok, ?next_err.
  destruct (search_ok cid B G c (sc_name sec) (sc_offset sec) (sc_size sec) laddr HE HB HBG 3 sec w2 H2)
    as (w3 & [(sec' & E3 & Hi & H3 & Hf & Hin)|[(isid & E3 & Hi & H3)|(e & E3 & H3)]]).
  - left. exact Hsb.
  - repeat split.
  - destruct Hsec as [Hs|Hs]; [left; split; [exact Hs|lia]|right; split; [exact Hs|lia]].
  - rewrite E3, ?next_ok, ?next_err. cbn iota. unfold add_insert. cbv zeta.
    assert (Hid : mk_ident (sc_name sec) (sc_offset sec) (sc_size sec) laddr = ident_of (mk_cached sec' laddr)).
    { destruct Hf as (F1 & F2 & F3). unfold ident_of. cbn. congruence. }
    rewrite Hid in *. destruct (ei_cap _ HE) as (C1 & C2 & C3).
    assert (Hin' : (exists e, In e (ic_entries c) /\ ce_sec e = sec') \/
      (occ (ic_entries c) (sc_id sec') = 0 /\
       forall e, In e (ic_entries c) -> ~ is_for (ce_sec e) (sc_name sec') (sc_offset sec') (sc_size sec'))).
    { destruct Hin as [Hin|[-> Hn]]; [left; exact Hin|].
      destruct Hsec as [Hs|Hs]; [left; exact Hs|right; split; [exact Hs|]].
      exact Hn. }
    assert (Ins : forall cap, ic_size c < cap -> cap <= 65528 -> cap mod 8 = 0 ->
      let c' := set_entries c (ic_entries c ++ [mk_cached sec' laddr]) cap in
      einv c' /\
      linv cid (plus1 (fun j => f j + occ (ic_entries c') j) (sc_id sec)) G (occ (ic_entries c')) (sids c') w3 c' /\
      added_as c c' (ident_of (mk_cached sec' laddr)) (Ok (ic_size c + 1))).
    { intros cap K1 K2 K3. cbv zeta.
      destruct (insert_ok cid B G c sec' w3 laddr cap HE HB H3 Hin' Hi K1 K2 K3) as [I1 I2].
      split; [exact I1|]. split.
      - eapply linv_ext; [exact I2| |reflexivity|reflexivity]. intros j. unfold B.
        unfold plus1. cbn [set_entries ic_entries]. rewrite occ_app, occ_cons. unfold sid. cbn [ce_sec].
        rewrite (Nat.eqb_sym (sc_id sec') j). destruct (Nat.eqb j (sc_id sec')); cbn; lia.
      - unfold added_as. cbn [set_entries ic_id ic_limit ic_lru ic_entries]. rewrite Hi.
        split; [reflexivity|]. split; [reflexivity|]. split; [reflexivity|]. split; [reflexivity|].
        rewrite map_app. reflexivity. }
    destruct (N.leb_spec (ic_capacity c) (ic_size c)) as [Hfull|Hroom].
    + destruct (N.ltb_spec (ic_capacity c) (ic_size c)); [lia|].
      destruct (expand_ok c mem HE Hfull) as [(cap & -> & Ec & Hc1 & Hc2)|Ee]; [|rewrite Ee].
      * unfold ic_size at 1. cbn [set_entries ic_entries ic_capacity].
        fold (ic_size c). destruct (N.leb_spec cap (ic_size c)); [lia|].
        destruct (Ins cap) as (I1 & I2 & I3); [lia..|].
        eexists w3, _, _. split; [reflexivity|]. cbn [set_entries ic_entries] in *.
        split; [exact I1|]. split; [exact I2|exact I3].
      * destruct (@l_out_detach cid G (sids c) N _ _ _ _ _ pte_nomem H3 (HB _) (HBG _) (HS _)) as (w4 & E4 & H4).
        rewrite E4, ?next_ok, ?next_err. eexists w4, _, _. split; [reflexivity|].
        split; [apply (einv_same c); [apply same_cache_set|exact HE]|]. split; [exact H4|].
        repeat split. right. reflexivity.
    + destruct (Ins (ic_capacity c)) as (I1 & I2 & I3); [lia..|].
      eexists w3, _, _. split; [reflexivity|]. split; [exact I1|]. split; [exact I2|exact I3].
  - rewrite E3, ?next_ok, ?next_err. exists w3, c, (Ok isid). split; [reflexivity|]. split; [exact HE|]. split; [exact H3|].
    unfold added_as. split; [reflexivity|]. split; [reflexivity|]. split; [reflexivity|].
    destruct (index_of _ _) as [k|]; [|discriminate]. cbn in Hi. injection Hi as <-. split; reflexivity.
  - rewrite E3, ?next_ok, ?next_err. exists w3, (set_lru c [] 0), (Err e). split; [reflexivity|].
    split; [apply (einv_same c); [apply same_cache_set|exact HE]|]. split; [exact H3|].
    repeat split. right. reflexivity.
Qed.
