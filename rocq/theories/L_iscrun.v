(** Lemmas about runs of the image section cache and its users. *)

From Verif Require Import Base M_section M_image M_iscache S_core S_section L_section S_image
  S_iscache L_iscache L_isclru L_iscadd.
From Coq Require Import List NArith ZArith Bool Lia ZifyBool ZifyNat ZifyN PeanoNat.
Import ListNotations.
Open Scope N_scope.
Ltac Zify.zify_post_hook ::= Z.div_mod_to_equations.

(** ** Mapping *)

Lemma linv_kept cid R G A S R' G' A' w w' c :
  linv cid R G A S w c -> wok cid R' (fun id => G' id + inlru (ic_lru c) id) A' w' ->
  (forall j, In j (map lr_id (ic_lru c)) -> same_mem (w j) (w' j)) ->
  (forall id, In id S -> 0 < R' id) -> linv cid R' G' A' S w' c.
Proof.
  intros [[H1 H2 H3 H4 H5 H6 H7 H8 H9] H10] W M P. split; [|exact H10].
  split; try assumption. intros e He. rewrite (memory_same _ _ (M (lr_id e) (in_map _ _ _ He))).
  apply H6, He.
Qed.

Lemma l_unmap cid R G A S w c id : linv cid R (plus1 G id) A S w c -> 0 < R id ->
  exists w', on_section w id pt_section_unmap = (w', Ok tt) /\ linv cid R G A S w' c /\
             mem_kept (fun j => G j + inlru (ic_lru c) j) w w'.
Proof.
  intros H Hr. pose proof H as [[_ W _ _ P _ _ _ _] _].
  destruct (w_unmap _ _ _ _ _ W id Hr) as (w' & E & W' & K); [rewrite plus1_same; lia|].
  assert (Em : forall j, G j + inlru (ic_lru c) j
     = up (fun j => plus1 G id j + inlru (ic_lru c) j) id (plus1 G id id + inlru (ic_lru c) id - 1) j).
  { intros j. unfold up. destruct (Nat.eqb_spec j id) as [->|Hne]; [rewrite plus1_same; lia|].
    unfold plus1. destruct (Nat.eqb_spec j id); [congruence|lia]. }
  exists w'. split; [exact E|]. split.
  - eapply linv_kept; [exact H| | |exact P].
    + eapply wok_ext; [exact W'|reflexivity|exact Em|reflexivity].
    + intros j Hj. apply K. rewrite <- Em. apply inl_in in Hj. lia.
  - intros j Hj. apply K. rewrite <- Em. exact Hj.
Qed.

(** The cache after use of section [id]. *)
Definition used_as (c c' : iscache) (S : list nat) (id : nat) (n : N) : Prop :=
  (In id S -> longest_fit (ic_limit c) (touch (ic_limit c) (ic_lru c) id n) (ic_lru c')) /\
  (~ In id S -> c' = c).

Lemma l_map cid R G A S w c id m mem : linv cid R G A S w c -> 0 < R id -> map_small m ->
  (0 < A id <-> In id S) ->
  exists w' c' r, pt_section_map w c id m mem = (w', c', r) /\ same_cache c c' /\
    ((r = Ok tt /\ linv cid R (plus1 G id) A S w' c' /\ used_as c c' S id (memory (w' id)) /\
      (0 < sn_mcount (w id) -> same_mem (w id) (w' id)) /\
      (sn_mcount (w id) = 0 -> exists x, m = Ok x /\ sn_mapped (w' id) = Some x)) \/
     (exists e, r = Err e /\ linv cid R G A S w' c' /\ c' = c /\
        (m = Err e \/ e = pte_overflow \/ e = pte_nomem /\ mem = false))).
Proof.
  intros H Hr Hm Ha. pose proof H as [[Hi W _ Hincl P _ _ _ _] _].
  unfold pt_section_map. cbv zeta. rewrite (w_mcount _ _ _ _ _ W id).
  destruct (w_map _ _ _ _ _ W id m Hr Hm) as (w1 & K1 & [(E & Hlt & W1 & Hx)|(e & E & W1 & M1 & He)]);
    rewrite E, ?next_ok, ?next_err.
  2:{ exists w1, c, (Err e). split; [reflexivity|]. split; [apply same_cache_refl|]. right.
      exists e. split; [reflexivity|]. split; [eapply linv_step; eassumption|]. split; [reflexivity|].
      destruct He as [He|[He _]]; [left; exact He|right; left; exact He]. }
  rewrite (w_mcount _ _ _ _ _ W1 id), up_same.
  destruct (N.eqb_spec (G id + inlru (ic_lru c) id + 1) (G id + inlru (ic_lru c) id)) as [|_]; [lia|].
  rewrite (w_attached _ _ _ _ _ W1 id c Hi). cbn [orb].
  assert (H1 : linv cid R (plus1 G id) A S w1 c).
  { eapply linv_kept; [exact H| | |exact P].
    - eapply wok_ext; [exact W1|reflexivity| |reflexivity]. intros j. unfold up, plus1.
      destruct (Nat.eqb_spec j id) as [->|]; lia.
    - intros j Hj. apply K1. intros ->. apply inl_in in Hj. lia. }
  rewrite negb_involutive. destruct (N.eqb_spec (A id) 0) as [E0|E0].
  - exists w1, c, (Ok tt). split; [reflexivity|]. split; [apply same_cache_refl|]. left.
    split; [reflexivity|]. split; [exact H1|]. split; [|split].
    + split; [intros Hin; apply Ha in Hin; lia|reflexivity].
    + intros Hp. apply K1. intros _. exact Hp.
    + exact Hx.
  - assert (Hin : In id S) by (apply Ha; lia).
    unfold pt_iscache_notify_map.
    destruct (lru_add_ok _ _ _ _ _ _ _ id mem H1 Hin) as (w2 & M2 & [(c2 & E2 & C2 & T2 & H2)|(e & E2 & H2 & He)]).
    { rewrite plus1_same. lia. }
    + rewrite E2. pose proof C2 as (_ & _ & _ & El).
      destruct (notify_ok _ _ _ _ _ _ _ _ H2 eq_refl) as (w3 & c3 & E3 & C3 & F3 & H3 & K3).
      rewrite El in E3, F3. rewrite E3. exists w3, c3, (Ok tt). split; [reflexivity|].
      split; [eapply same_cache_trans; eassumption|]. left. split; [reflexivity|]. split; [exact H3|].
      assert (Ms : same_mem (w1 id) (w3 id)).
      { eapply same_mem_trans; [apply M2|]. apply K3. rewrite plus1_same. lia. }
      split; [|split].
      * split; [|tauto]. intros _. rewrite (memory_same _ _ Ms), <- T2. exact F3.
      * intros Hp. eapply same_mem_trans; [apply K1; intros _; exact Hp|exact Ms].
      * intros Hz. destruct (Hx Hz) as (x & -> & Ex). exists x. split; [reflexivity|].
        destruct Ms as [Ms _]. congruence.
    + rewrite E2. cbn [notify].
      destruct (l_unmap _ _ _ _ _ _ _ _ H2 Hr) as (w3 & E3 & H3 & _). rewrite E3, next_ok.
      exists w3, c, (Err e). split; [reflexivity|]. split; [apply same_cache_refl|]. right.
      exists e. split; [reflexivity|]. split; [exact H3|]. split; [reflexivity|]. right. exact He.
Qed.

Lemma l_bcache cid R G A S w c sec n mem lmem :
  let id := sc_id sec in
  linv cid R G A S w c -> 0 < R id -> 0 < G id -> n < 2 ^ 47 -> (0 < A id <-> In id S) ->
  exists w' c' r, alloc_bcache w c sec n mem lmem = (w', c', r) /\ same_cache c c' /\
    linv cid R G A S w' c' /\
    ((r = Ok tt /\ used_as c c' S id (memory (w' id)) /\ sn_bcache (w id) = None /\
      memory (w' id) <> 0) \/
     (r = Ok tt /\ c' = c /\ (sn_bcache (w id) <> None \/ memory (w' id) = 0)) \/
     (exists e, r = Err e /\ c' = c)).
Proof.
  cbv zeta. intros H Hr Hg Hn Ha. pose proof H as [[Hi W _ Hincl P Hsz _ _ _] _].
  set (id := sc_id sec) in *. unfold alloc_bcache. cbv zeta. fold id. unfold on_section.
  destruct (W id) as [Ho Hs].
  destruct (one_bcache _ _ _ _ _ Ho (sc_size sec) n mem Hr Hs Hn)
    as [(s' & k & -> & Hm & Ho' & Hs' & Emap & Hk)|(e & ->)]; rewrite ?next_ok, ?next_err.
  2:{ exists (wset w id (w id)), c, (Err e). split; [reflexivity|]. split; [apply same_cache_refl|].
      split; [|right; right; exists e; split; reflexivity].
      eapply linv_step; [exact H| |apply mem_set; split; reflexivity|exact P].
      eapply wok_ext; [apply (wok_set _ _ _ _ _ id _ _ _ _ W Ho Hs)|ext..]. }
  assert (W' : wok cid R (fun j => G j + inlru (ic_lru c) j) A (wset w id s')).
  { eapply wok_ext; [apply (wok_set _ _ _ _ _ id _ _ _ _ W Ho' Hs')|ext..]. }
  assert (Ew : wset w id s' id = s') by (unfold wset; rewrite Nat.eqb_refl; reflexivity).
  destruct Hk as [(Hsame & -> & Hb)|(Hb & Eb & ->)].
  - exists (wset w id s'), c, (Ok tt). split; [reflexivity|]. split; [apply same_cache_refl|].
    split; [|right; left; split; [reflexivity|split; [reflexivity|left]]].
    + eapply linv_step; [exact H|exact W'|apply mem_set, Hsame|exact P].
    + unfold hasb in Hb. destruct (sn_bcache (w id)); discriminate.
  - assert (Eb0 : sn_bcache (w id) = None) by (unfold hasb in Hb; destruct (sn_bcache (w id)); [discriminate|reflexivity]).
    assert (Hoth : forall e, In e (ic_lru c) -> lr_id e <> id -> lr_size e = memory (wset w id s' (lr_id e))).
    { intros e He Hne. unfold wset. destruct (Nat.eqb_spec (lr_id e) id); [congruence|]. apply Hsz, He. }
    assert (L : lmid cid R G A S (wset w id s') c id).
    { destruct (linv_lmid _ _ _ _ _ _ _ id H) as [D1 D2 D3 D4 D5 D6 D7 D8 D9 D10 D11].
      split; assumption. }
    assert (Lin : (In id (map lr_id (ic_lru c)) -> memory s' = memory (w id)) ->
              linv cid R G A S (wset w id s') c).
    { intros Hmem. destruct L as [D1 D2 D3 D4 D5 D6 D7 D8 D9 D10 D11]. split; [|exact D9].
      split; try assumption. intros e He. destruct (Nat.eq_dec (lr_id e) id) as [Ee|Ee]; [|apply D6; assumption].
      rewrite Ee, Ew. rewrite Hmem, <- Ee; [apply Hsz, He|]. rewrite <- Ee. apply in_map, He. }
    unfold truth. destruct (N.eqb_spec (memory s') 0) as [E0|E0]; cbn [negb].
    + exists (wset w id s'), c, (Ok tt). split; [reflexivity|]. split; [apply same_cache_refl|].
      split; [|right; left; rewrite Ew; repeat split; right; exact E0].
      apply Lin. intros _. revert E0. unfold memory. rewrite Emap, Eb, Eb0.
      destruct (sn_mapped (w id)); lia.
    + rewrite (w_attached _ _ _ _ _ W' id c Hi). destruct (N.eqb_spec (A id) 0) as [Ea|Ea]; cbn [negb].
      * assert (Hnin : ~ In id S) by (intros Hin; apply Ha in Hin; lia).
        exists (wset w id s'), c, (Ok tt). split; [reflexivity|]. split; [apply same_cache_refl|].
        split; [apply Lin; intros Hin; apply Hincl in Hin; contradiction|]. left.
        split; [reflexivity|]. split; [split; [contradiction|reflexivity]|].
        split; [exact Eb0|]. rewrite Ew. exact E0.
      * assert (Hin : In id S) by (apply Ha; lia). unfold pt_iscache_notify_resize.
        replace (memory s') with (memory (wset w id s' id)) by (rewrite Ew; reflexivity).
        destruct (lru_resize_ok _ _ _ _ _ _ _ id lmem L Hin Hg) as (w2 & M2 & [(c2 & E2 & C2 & T2 & H2)|(e & E2 & H2 & Hz)]);
          rewrite E2.
        -- pose proof C2 as (_ & _ & _ & El).
           destruct (notify_ok _ _ _ _ _ _ _ _ H2 eq_refl) as (w3 & c3 & E3 & C3 & F3 & H3 & K3).
           rewrite El in E3, F3. rewrite E3. exists w3, c3, (Ok tt). split; [reflexivity|].
           split; [eapply same_cache_trans; eassumption|]. split; [exact H3|]. left. split; [reflexivity|].
           assert (Ms : same_mem (wset w id s' id) (w3 id)).
           { eapply same_mem_trans; [apply M2|]. apply K3. lia. }
           split; [split; [|tauto]|split; [exact Eb0|]].
           ++ intros _. rewrite (memory_same _ _ Ms), <- T2. exact F3.
           ++ rewrite (memory_same _ _ Ms), Ew. exact E0.
        -- cbn [notify]. exists w2, c, (Err e). split; [reflexivity|]. split; [apply same_cache_refl|].
           split; [|right; right; exists e; split; reflexivity].
           destruct H2 as [D1 D2 D3 D4 D5 D6 D7 D8 D9 D10 D11]. split; [|exact D9].
           split; try assumption. intros x Hx. apply D6; [exact Hx|]. intros Ex.
           assert (0 < inlru (ic_lru c) id) by (apply inl_in; rewrite <- Ex; apply in_map, Hx). lia.
Qed.

(** ** Clearing *)

Lemma clear_ok cid f G : (forall j, f j = 0 -> G j = 0) -> forall l w,
  wok cid (fun j => f j + occ l j) G (occ l) w ->
  exists w', clear_entries w cid l = (w', Ok tt) /\ wok cid f G (fun _ => 0) w'.
Proof.
  intros HG. induction l as [|e l IH]; intros w W; cbn [clear_entries].
  - exists w. split; [reflexivity|]. eapply wok_ext; [exact W| |reflexivity|reflexivity].
    intros j. cbn. lia.
  - change (sc_id (ce_sec e)) with (sid e).
    assert (Ho : forall j, occ (e :: l) j = plus1 (occ l) (sid e) j).
    { intros j. rewrite occ_cons. unfold plus1. rewrite Nat.eqb_sym. lia. }
    assert (W0 : wok cid (plus1 (fun j => f j + occ l j) (sid e)) G (plus1 (occ l) (sid e)) w).
    { eapply wok_ext; [exact W| |reflexivity|]; intros j; cbv beta; rewrite Ho; unfold plus1; lia. }
    destruct (w_detach _ _ _ _ _ W0 (sid e)) as (w1 & E1 & _ & W1); [rewrite plus1_same; lia|].
    rewrite E1.
    assert (W1' : wok cid (plus1 (fun j => f j + occ l j) (sid e)) G (occ l) w1).
    { eapply wok_ext; [exact W1|reflexivity|reflexivity|apply plus1_down]. }
    destruct (w_put _ _ _ _ _ W1' (sid e)) as (w2 & E2 & _ & W2).
    { rewrite plus1_same. lia. }
    { rewrite plus1_same. intros Hz. apply HG. lia. }
    rewrite E2. apply IH. eapply wok_ext; [exact W2|apply plus1_down|reflexivity|reflexivity].
Qed.

(** ** The invariant *)

Record cinv (cid : nat) (f g : counts) (w : world) (c : iscache) : Prop := {
  ci_e : einv c;
  ci_l : linv cid (fun j => f j + occ (ic_entries c) j) g (occ (ic_entries c)) (sids c) w c;
  ci_g : forall j, f j = 0 -> g j = 0 }.

Lemma att_iff c j : 0 < occ (ic_entries c) j <-> In j (sids c).
Proof. apply occ_in. Qed.

Lemma linv_same_cache cid R G A w c c' : same_cache c c' ->
  linv cid R G (occ (ic_entries c)) A w c' -> A = sids c ->
  linv cid R G (occ (ic_entries c')) (sids c') w c'.
Proof. intros (_ & E & _) H ->. unfold sids in *. rewrite E. exact H. Qed.

Lemma sids_same c c' : same_cache c c' -> sids c' = sids c.
Proof. intros (_ & E & _). unfold sids. rewrite E. reflexivity. Qed.

Lemma cinv_same cid f g f' g' w w' c c' : cinv cid f g w c -> same_cache c c' ->
  linv cid (fun j => f' j + occ (ic_entries c) j) g' (occ (ic_entries c)) (sids c) w' c' ->
  (forall j, f' j = 0 -> g' j = 0) -> cinv cid f' g' w' c'.
Proof.
  intros [H1 H2 H3] Hs H Hg. split; [eapply einv_same; eassumption| |exact Hg].
  rewrite (sids_same _ _ Hs). destruct Hs as (_ & E & _). rewrite E. exact H.
Qed.

(** Drop a reference. *)
Lemma c_put cid f G w c id : einv c -> (forall j, f j = 0 -> G j = 0) ->
  linv cid (plus1 (fun j => f j + occ (ic_entries c) j) id) G (occ (ic_entries c)) (sids c) w c ->
  exists w', on_section w id pt_section_put = (w', Ok tt) /\ cinv cid f G w' c.
Proof.
  intros HE HG H. destruct (l_put _ _ _ _ _ _ _ _ H) as (w' & E & H').
  - lia.
  - intros Hz. apply HG. lia.
  - intros Hin. apply occ_in in Hin. lia.
  - exists w'. split; [exact E|]. split; assumption.
Qed.

(** ** Adding a file *)

Lemma known_iff c name offset size :
  known (map ident_of (ic_entries c)) name offset size = true <->
  exists e, In e (ic_entries c) /\ is_for (ce_sec e) name offset size.
Proof.
  unfold known. rewrite existsb_exists. split.
  - intros (i & Hi & E). apply in_map_iff in Hi. destruct Hi as (e & <- & He). exists e. split; [exact He|].
    cbn in E. rewrite !andb_true_iff, !N.eqb_eq in E. destruct E as [[E1 E2] E3]. repeat split; assumption.
  - intros (e & He & (E1 & E2 & E3)). exists (ident_of e). split; [apply in_map, He|].
    cbn. rewrite E1, E2, E3, !N.eqb_refl. reflexivity.
Qed.

Lemma add_file_ok cid f g w c id name size_of offset size vaddr mem :
  cinv cid f g w c -> sn_freed (w id) = true -> no_ub size_of ->
  (forall fs, size_of = Ok fs -> fs < 2 ^ 64) ->
  exists w' c' r, pt_iscache_add_file w c id name size_of offset size vaddr mem = (w', c', r) /\
    cinv cid f g w' c' /\
    added_as c c' (requested (map ident_of (ic_entries c)) name size_of offset size vaddr) r.
Proof.
  intros [HE HL HG] Hfree Hub Hfs. unfold pt_iscache_add_file. cbv zeta.
  pose proof HL as [[Hi W _ Hincl P _ _ _ _] _].
  assert (Fin : forall sec w0 i,
    linv cid (plus1 (fun j => f j + occ (ic_entries c) j) (sc_id sec)) g (occ (ic_entries c)) (sids c) w0 c ->
    ((exists e, In e (ic_entries c) /\ ce_sec e = sec) \/ occ (ic_entries c) (sc_id sec) = 0) ->
    i = mk_ident (sc_name sec) (sc_offset sec) (sc_size sec) vaddr ->
    exists w' c' r,
      match pt_iscache_add w0 c sec vaddr mem with
      | (w, c, UB u) => (w, c, UB u)
      | (w, c, r) => next c (on_section w (sc_id sec) pt_section_put)
                       (fun w _ => (w, c, r)) (fun w e => (w, c, Err e))
      end = (w', c', r) /\ cinv cid f g w' c' /\ added_as c c' i r).
  { intros sec w0 i H0 Hsec ->.
    destruct (add_ok cid f g c sec w0 vaddr mem HE HG H0 Hsec) as (w1 & c1 & r & E & HE1 & H1 & Ha).
    rewrite E. destruct (c_put _ _ _ _ _ _ HE1 HG H1) as (w2 & E2 & H2).
    destruct r as [n|e|u]; [| |destruct Ha as (_ & _ & [])];
      rewrite E2, next_ok; eexists w2, c1, _; (split; [reflexivity|split; [exact H2|exact Ha]]). }
  pose proof (find_section_spec c name offset size vaddr HE) as F. cbv zeta in F.
  set (m := pt_iscache_find_section c name offset size vaddr) in *.
  destruct F as [[F1 F2]|(e & F1 & F2 & F3)]; rewrite F1.
  - assert (Ek : known (map ident_of (ic_entries c)) name offset size = false).
    { destruct (known _ _ _ _) eqn:E; [|reflexivity]. apply known_iff in E. destruct E as (e & He & Hm).
      exfalso. exact (F2 e He Hm). }
    unfold requested. rewrite Ek. unfold pt_mk_section.
    destruct size_of as [fs|x|u]; cbn [bind]; [|..].
    + specialize (Hfs fs eq_refl).
      destruct (N.leb_spec fs offset) as [Hle|Hlt].
      { exists w, c, (Err pte_invalid). split; [reflexivity|]. split; [split; assumption|].
        repeat split. left. reflexivity. }
      apply Fin; cbn [sc_id sc_name sc_offset sc_size].
      * rewrite (w_freed _ _ _ _ _ W id) in Hfree. apply N.eqb_eq in Hfree.
        destruct (w_zero _ _ _ _ _ W id Hfree) as [Hz1 Hz2].
        assert (Hnew : wok cid (up (fun j => f j + occ (ic_entries c) j) id 1)
                  (up (fun j => g j + inlru (ic_lru c) j) id 0) (up (occ (ic_entries c)) id 0) (wset w id new_scnt)).
        { apply w_new; assumption. }
        eapply linv_kept; [exact HL| | |].
        -- eapply wok_ext; [exact Hnew|..]; intros j; unfold up, plus1;
             destruct (Nat.eqb_spec j id) as [->|]; lia.
        -- intros j Hj. unfold wset. destruct (Nat.eqb_spec j id) as [->|]; [|split; reflexivity].
           apply inl_in in Hj. lia.
        -- intros j Hj. specialize (P j Hj). unfold plus1. lia.
      * right. rewrite (w_freed _ _ _ _ _ W id) in Hfree. apply N.eqb_eq in Hfree. lia.
      * f_equal. replace (sub64 fs offset) with (fs - offset).
        { destruct (N.ltb_spec (fs - offset) size); lia. }
        unfold sub64. change (2 ^ 64) with 18446744073709551616 in *. lia.
    + exists w, c, (Err x). split; [reflexivity|]. split; [split; assumption|]. repeat split. left. reflexivity.
    + exfalso. exact (Hub u eq_refl).
  - assert (Hin : In e (ic_entries c)) by (apply nth_error_In in F1; exact F1).
    assert (Ek : known (map ident_of (ic_entries c)) name offset size = true).
    { apply known_iff. exists e. tauto. }
    unfold requested. rewrite Ek.
    destruct (N.eqb_spec (ce_laddr e) vaddr) as [El|El].
    + exists w, c, (Ok (N.of_nat m + 1)). split; [reflexivity|]. split; [split; assumption|].
      unfold added_as. split; [reflexivity|]. split; [reflexivity|]. split; [reflexivity|].
      rewrite (index_nth _ m).
      * split; [lia|reflexivity].
      * apply HE.
      * rewrite nth_error_map, F1. cbn. unfold ident_of. destruct F2 as (-> & -> & ->). rewrite El. reflexivity.
    + assert (Ho : 0 < occ (ic_entries c) (sc_id (ce_sec e))) by (apply occ_in, (in_map sid), Hin).
      destruct (l_get _ _ _ _ _ _ _ (sc_id (ce_sec e)) HL) as (w1 & [(E1 & H1)|(E1 & _ & H1)]); [lia| |];
        rewrite E1, ?next_ok, ?next_err.
      * apply Fin; [exact H1|left; exists e; tauto|]. destruct F2 as (-> & -> & ->). reflexivity.
      * exists w1, c, (Err pte_overflow). split; [reflexivity|]. split; [split; assumption|].
        repeat split. left. reflexivity.
Qed.

(** ** Finding *)

Lemma nth_error_Some_lt {T} (l : list T) n x : nth_error l n = Some x -> (n < length l)%nat.
Proof. intros H. apply nth_error_Some. congruence. Qed.


Lemma find_locked_spec c name offset size laddr :
  pt_iscache_find c name offset size laddr
  = match index_of (map ident_of (ic_entries c)) (mk_ident name offset size laddr) with
    | Some k => k + 1 | None => 0 end.
Proof.
  unfold pt_iscache_find.
  assert (G : forall l i, find_locked l i name offset size laddr
    = match index_of (map ident_of l) (mk_ident name offset size laddr) with
      | Some k => i + k + 1 | None => 0 end).
  { induction l as [|e l IH]; intros i; cbn [find_locked map index_of]; [reflexivity|].
    unfold ident_eqb at 1. cbn [ident_of id_name id_offset id_size id_laddr].
    destruct (ce_laddr e =? laddr), (sc_offset (ce_sec e) =? offset), (sc_size (ce_sec e) =? size),
      (sc_name (ce_sec e) =? name); cbn [andb]; try (rewrite IH; destruct (index_of _ _); cbn; lia).
    lia. }
  rewrite G. destruct (index_of _ _); lia.
Qed.

(** [isid] names the section [s] at [laddr]. *)
Definition names (c : iscache) (isid : Z) (s : section) (laddr : N) : Prop :=
  (0 < isid)%Z /\ nth_error (ic_entries c) (Z.to_nat (isid - 1)) = Some (mk_cached s laddr).

Lemma lookup_ok cid f g w c isid : cinv cid f g w c ->
  exists w' r, pt_iscache_lookup w c isid = (w', c, r) /\
    ((exists s laddr, r = Ok (s, laddr) /\ names c isid s laddr /\
        linv cid (plus1 (fun j => f j + occ (ic_entries c) j) (sc_id s)) g (occ (ic_entries c)) (sids c) w' c /\
        mem_same w w' /\ sn_mcount (w' (sc_id s)) = sn_mcount (w (sc_id s))) \/
     (exists s laddr, r = Err pte_overflow /\ names c isid s laddr /\
        sn_ucount (w (sc_id s)) = 65535 /\ cinv cid f g w' c) \/
     ((forall s laddr, ~ names c isid s laddr) /\ w' = w /\
      r = Err (if (isid <=? 65536)%Z then pte_bad_image else pte_internal))).
Proof.
  intros [HE HL HG]. unfold pt_iscache_lookup.
  destruct (Z.leb_spec isid 0) as [Hn|Hp].
  { exists w, (Err pte_bad_image). split; [reflexivity|]. right. right. split; [intros s l [H _]; lia|].
    split; [reflexivity|]. destruct (Z.leb_spec isid 65536); [reflexivity|lia]. }
  assert (Ez : N.to_nat (Z.to_N (isid - 1)) = Z.to_nat (isid - 1)) by lia.
  pose proof (ei_cap _ HE) as (C1 & C2 & _). unfold ic_size in C1. change (2 ^ 16 - 1) with 65535.
  destruct (N.ltb_spec 65535 (Z.to_N (isid - 1))) as [Hb|Hs].
  { exists w, (Err pte_internal). split; [reflexivity|]. right. right. split.
    - intros s l [_ H]. apply nth_error_Some_lt in H. lia.
    - split; [reflexivity|]. destruct (Z.leb_spec isid 65536); [lia|reflexivity]. }
  rewrite Ez. destruct (nth_error (ic_entries c) (Z.to_nat (isid - 1))) as [e|] eqn:En.
  2:{ exists w, (Err pte_bad_image). split; [reflexivity|]. right. right.
      split; [intros s l [_ H]; congruence|]. split; [reflexivity|].
      destruct (Z.leb_spec isid 65536); [reflexivity|lia]. }
  assert (Hin : In e (ic_entries c)) by (apply nth_error_In in En; exact En).
  assert (Ho : 0 < occ (ic_entries c) (sc_id (ce_sec e))) by (apply occ_in, (in_map sid), Hin).
  assert (Hnm : names c isid (ce_sec e) (ce_laddr e)).
  { split; [lia|]. rewrite En. destruct e; reflexivity. }
  pose proof HL as [[_ W _ _ _ _ _ _ _] _].
  destruct (l_get _ _ _ _ _ _ _ (sc_id (ce_sec e)) HL) as (w1 & [(E1 & H1)|(E1 & Hm & H1)]); [lia| |];
    rewrite E1, ?next_ok, ?next_err.
  - exists w1, (Ok (ce_sec e, ce_laddr e)). split; [reflexivity|]. left. exists (ce_sec e), (ce_laddr e).
    split; [reflexivity|]. split; [exact Hnm|]. split; [exact H1|].
    pose proof H1 as [[_ W1 _ _ _ _ _ _ _] _]. split.
    + destruct (w_get _ _ _ _ _ W (sc_id (ce_sec e))) as (w2 & M & [(E & _)|(E & _)]); [lia|..];
        rewrite E1 in E; [|discriminate]. injection E as <-. exact M.
    + rewrite (w_mcount _ _ _ _ _ W1), (w_mcount _ _ _ _ _ W). reflexivity.
  - exists w1, (Err pte_overflow). split; [reflexivity|]. right. left. exists (ce_sec e), (ce_laddr e).
    split; [reflexivity|]. split; [exact Hnm|]. split; [|split; assumption].
    pose proof (W (sc_id (ce_sec e))) as [B _]. pose proof (ho_refs _ _ B) as B1. cbn in B1.
    unfold max_count in Hm. destruct B1; lia.
Qed.

(** ** Reading *)

Lemma read_ok cid f g w c files map mem size isid vaddr :
  cinv cid f g w c -> (forall s, map_small (map s)) ->
  exists w' c' r, pt_iscache_read w c files map mem size isid vaddr = (w', c', r) /\
    cinv cid f g w' c' /\ same_cache c c' /\
    ((size = 0 /\ c' = c /\ r = Err pte_invalid) \/
     (size <> 0 /\ (forall s laddr, ~ names c isid s laddr) /\ c' = c /\
      r = Err (if (isid <=? 65536)%Z then pte_bad_image else pte_internal)) \/
     (size <> 0 /\ exists s laddr, names c isid s laddr /\
      ((c' = c /\ sn_ucount (w (sc_id s)) = 65535 /\ r = Err pte_overflow) \/
       (c' = c /\ vaddr < laddr /\ r = Err pte_nomap) \/
       (c' = c /\ laddr <= vaddr /\ exists e, r = Err e /\
          (map s = Err e \/ e = pte_overflow \/ e = pte_nomem /\ mem = false)) \/
       (laddr <= vaddr /\ exists n, used_as c c' (sids c) (sc_id s) n) /\
       exists m, (0 < sn_mcount (w (sc_id s)) -> sn_mapped (w (sc_id s)) = Some m) /\
                 (sn_mcount (w (sc_id s)) = 0 -> map s = Ok m) /\
                 r = pt_section_read s (Some m) (files (sc_name s)) (N.min size 65535) (vaddr - laddr)))).
Proof.
  intros C Hmap. pose proof C as [HE HL HG]. unfold pt_iscache_read.
  destruct (N.eqb_spec size 0) as [E0|E0].
  { exists w, c, (Err pte_invalid). split; [reflexivity|]. split; [exact C|].
    split; [apply same_cache_refl|]. left. tauto. }
  destruct (lookup_ok _ _ _ _ _ isid C) as (w1 & r1 & -> & [(s & laddr & -> & Hn & H1 & M1 & Em)|
    [(s & laddr & -> & Hn & Hu & C1)|(Hn & -> & ->)]]).
  2:{ exists w1, c, (Err pte_overflow). split; [reflexivity|]. split; [exact C1|].
      split; [apply same_cache_refl|]. right. right. split; [exact E0|]. exists s, laddr. split; [exact Hn|].
      left. tauto. }
  2:{ eexists w, c, _. split; [reflexivity|]. split; [exact C|].
      split; [apply same_cache_refl|]. right. left. tauto. }
  cbv zeta.
  destruct (N.ltb_spec vaddr laddr) as [Hlt|Hge].
  { destruct (c_put _ _ _ _ _ _ HE HG H1) as (w2 & E2 & C2). rewrite E2, next_ok.
    eexists w2, c, _. split; [reflexivity|]. split; [exact C2|]. split; [apply same_cache_refl|].
    right. right. split; [exact E0|]. exists s, laddr. split; [exact Hn|]. right. left. tauto. }
  destruct (l_map _ _ _ _ _ _ _ (sc_id s) (map s) mem H1) as (w2 & c2 & r2 & -> & S2 & D).
  { rewrite plus1_same. lia. } { apply Hmap. } { apply att_iff. }
  destruct D as [(-> & H2 & U2 & K1 & K2)|(e & -> & H2 & -> & He)].
  2:{ destruct (c_put _ _ _ _ _ _ HE HG H2) as (w3 & E3 & C3). rewrite E3, next_ok.
      eexists w3, c, _. split; [reflexivity|]. split; [exact C3|]. split; [apply same_cache_refl|].
      right. right. split; [exact E0|]. exists s, laddr. split; [exact Hn|]. right. right. left.
      split; [reflexivity|]. split; [exact Hge|]. exists e. split; [reflexivity|exact He]. }
  destruct (l_unmap _ _ _ _ _ _ _ (sc_id s) H2) as (w3 & E3 & H3 & _); [rewrite plus1_same; lia|].
  rewrite E3, next_ok.
  assert (HE2 : einv c2) by (eapply einv_same; eassumption).
  assert (H3' : linv cid (plus1 (fun j => f j + occ (ic_entries c2) j) (sc_id s)) g
                  (occ (ic_entries c2)) (sids c2) w3 c2).
  { rewrite (sids_same _ _ S2). destruct S2 as (_ & -> & _). exact H3. }
  destruct (c_put _ _ _ _ _ _ HE2 HG H3') as (w4 & E4 & C4). rewrite E4, next_ok.
  eexists w4, c2, _. split; [reflexivity|]. split; [exact C4|]. split; [exact S2|].
  right. right. split; [exact E0|]. exists s, laddr. split; [exact Hn|]. right. right. right.
  split; [split; [exact Hge|eexists; exact U2]|].
  rewrite Em in K1, K2.
  assert (Es : (if 2 ^ 16 - 1 <? size then 2 ^ 16 - 1 else size) = N.min size 65535).
  { change (2 ^ 16 - 1) with 65535. destruct (N.ltb_spec 65535 size); lia. }
  rewrite Es. destruct (N.eq_dec (sn_mcount (w (sc_id s))) 0) as [Ez|Ez].
  - destruct (K2 Ez) as (m & Hm & E). exists m. rewrite E. split; [lia|]. split; [intros _; exact Hm|reflexivity].
  - assert (Hp : 0 < sn_mcount (w (sc_id s))) by lia. specialize (K1 Hp).
    pose proof HL as [[_ W _ _ _ _ _ _ _] _]. destruct (W (sc_id s)) as [B _].
    pose proof (ho_mapped _ _ B) as [_ B1]. pose proof (ho_maps _ _ B) as B2. cbn in B1, B2.
    destruct B1 as [m Hm]; [lia|]. exists m. split; [intros _; exact Hm|]. split; [lia|].
    destruct K1 as [K1 _]. destruct (M1 (sc_id s)) as [M2 _]. rewrite K1, M2, Hm. reflexivity.
Qed.

(** ** Steps *)

Definition next_idents (l : list ident) (o : cop) (r : cans) : list ident :=
  match o, r with
  | KAddFile _ name size_of offset size vaddr _, RIsid (Ok _) =>
      let i := requested l name size_of offset size vaddr in
      match index_of l i with Some _ => l | None => l ++ [i] end
  | KClear, _ => []
  | _, _ => l
  end.
Lemma idents_cons o r h : idents ((o, r) :: h) = next_idents (idents h) o r.
Proof. destruct o, r as [r|r|r|r]; try reflexivity; destruct r; reflexivity. Qed.

(** What is known about answers. *)
Definition answered (w : world) (c : iscache) (o : cop) (r : cans) : Prop :=
  let l := map ident_of (ic_entries c) in
  match o, r with
  | KAddFile _ name size_of offset size vaddr _, RIsid (Ok isid) =>
      isid = match index_of l (requested l name size_of offset size vaddr) with
             | Some k => k + 1 | None => N.of_nat (length l) + 1 end
  | KAddFile _ _ _ _ _ _ _, RIsid (Err _) => True
  | KFind name offset size laddr, RIsid r =>
      r = Ok (match index_of l (mk_ident name offset size laddr) with Some k => k + 1 | None => 0 end)
  | KLookup isid, RSection r =>
      (exists s laddr, r = Ok (s, laddr) /\ names c isid s laddr) \/
      (exists s laddr, r = Err pte_overflow /\ names c isid s laddr /\ sn_ucount (w (sc_id s)) = 65535) \/
      ((forall s laddr, ~ names c isid s laddr) /\
       r = Err (if (isid <=? 65536)%Z then pte_bad_image else pte_internal))
  | KRead _ _ _ _ _ _, RBytes _ => True
  | KSetLimit _, RDone r | KClear, RDone r | KPut _, RDone r | KUnmap _, RDone r => r = Ok tt
  | KGet id, RDone r =>
      r = Ok tt \/ r = Err pte_overflow /\ sn_ucount (w id) = 65535
  | KMap id m mem, RDone r =>
      r = Ok tt \/ exists e, r = Err e /\ (m = Err e \/ e = pte_overflow \/ e = pte_nomem /\ mem = false)
  | KBcache _ _ _ _, RDone r => r = Ok tt \/ exists e, r = Err e
  | _, _ => False
  end.

Lemma in_cache_iff c id : in_cache c id <-> In id (sids c).
Proof.
  unfold in_cache, sids. rewrite in_map_iff. split; intros (e & H1 & H2); exists e; split; assumption.
Qed.

Lemma cinv_refs cid f f' g g' w c : cinv cid f g w c ->
  (forall j, f' j = f j) -> (forall j, g' j = g j) -> cinv cid f' g' w c.
Proof.
  intros [H1 H2 H3] Ef Eg. split; [exact H1| |].
  - eapply linv_ext; [exact H2|intros j; rewrite Ef; reflexivity|exact Eg|reflexivity].
  - intros j. rewrite Ef, Eg. apply H3.
Qed.

Lemma same_idents c c' : same_cache c c' -> map ident_of (ic_entries c') = map ident_of (ic_entries c).
Proof. intros (_ & -> & _). reflexivity. Qed.

Lemma step_ok cid f g w c o : cinv cid f g w c -> user_may f g w o ->
  let '((w', c'), r) := cstep (w, c) o in
  cinv cid (refs_next f o r) (maps_next g o r) w' c' /\
  map ident_of (ic_entries c') = next_idents (map ident_of (ic_entries c)) o r /\
  list_after w c w' c' o r /\ answered w c o r.
Proof.
  intros C Hmay. pose proof C as [HE HL HG].
  pose proof HL as [[Hi W Hnd Hincl P Hsz Hu Hlim Hlen] Hfit].
  destruct o as [id name size_of offset size vaddr mem|name offset size laddr|isid|
                 files map0 mem size isid vaddr|limit| |id|id|id m mem|id|sec n mem lmem];
    cbn [cstep user_may] in *.
  - destruct Hmay as (M1 & M2 & M3).
    destruct (add_file_ok _ _ _ _ _ _ name _ offset size vaddr mem C M1 M2 M3) as (w' & c' & r & -> & C' & Ha).
    destruct Ha as (_ & Hl & Ha). cbn [refs_next maps_next list_after answered].
    destruct r as [isid|e|u]; [| |destruct Ha].
    + destruct Ha as [Ha1 Ha2]. cbn [next_idents]. cbv zeta. rewrite map_length.
      destruct (index_of _ _) as [k|]; destruct Ha2 as [Ha2 Ha3].
      * split; [exact C'|]. split; [rewrite Ha3; reflexivity|]. split; [split; assumption|]. rewrite Ha2. lia.
      * split; [exact C'|]. split; [exact Ha3|]. split; [split; assumption|]. exact Ha2.
    + destruct Ha as [Ha1 Ha2]. cbn [next_idents]. split; [exact C'|]. split; [rewrite Ha1; reflexivity|].
      split; [|exact I]. split; [exact Hl|]. destruct Ha2 as [->|Ha2]; [left; reflexivity|right; exact Ha2].
  - cbn [refs_next maps_next next_idents list_after answered]. split; [exact C|]. split; [reflexivity|].
    split; [split; reflexivity|]. rewrite find_locked_spec. reflexivity.
  - destruct (lookup_ok _ _ _ _ _ isid C) as (w1 & r1 & -> & D).
    cbn [maps_next next_idents list_after answered]. split; [|split; [|split]].
    + destruct D as [(s & laddr & -> & Hn & H1 & _)|[(s & laddr & -> & Hn & _ & C1)|(_ & -> & ->)]];
        cbn [refs_next]; [|exact C1|exact C].
      split; [exact HE| |].
      * eapply linv_ext; [exact H1| |reflexivity|reflexivity]. intros j. unfold plus1, bump.
        destruct (Nat.eqb j (sc_id s)); lia.
      * intros j. unfold bump. destruct (Nat.eqb j (sc_id s)); [lia|apply HG].
    + destruct r1; reflexivity.
    + destruct r1; split; reflexivity.
    + destruct D as [(s & laddr & -> & Hn & _)|[(s & laddr & -> & Hn & Hm & _)|(Hn & _ & ->)]].
      * left. exists s, laddr. tauto.
      * right. left. exists s, laddr. tauto.
      * right. right. tauto.
  - destruct (read_ok _ _ _ _ _ files map0 mem size isid vaddr C Hmay) as (w' & c' & r & -> & C' & S & D).
    cbn [refs_next maps_next next_idents answered]. split; [exact C'|]. split; [apply same_idents, S|].
    split; [|destruct r; exact I].
    unfold list_after. cbv zeta. split; [apply S|].
    destruct D as [(_ & -> & ->)|[(_ & _ & -> & ->)|(_ & s & laddr & [Hn1 Hn2] & D)]]; [left; reflexivity..|].
    assert (Hin : In (sc_id s) (sids c)).
    { apply nth_error_In in Hn2. unfold sids. apply (in_map sid) in Hn2. exact Hn2. }
    assert (Hused : (exists n, used_as c c' (sids c) (sc_id s) n) ->
      exists e n, nth_error (ic_entries c) (Z.to_nat (isid - 1)) = Some e /\
        longest_fit (ic_limit c) (touch (ic_limit c) (ic_lru c) (sc_id (ce_sec e)) n) (ic_lru c')).
    { intros (n & U1 & _). exists (mk_cached s laddr), n. split; [exact Hn2|]. apply U1, Hin. }
    destruct D as [(-> & _ & ->)|[(-> & _ & ->)|[(-> & _ & e & -> & _)|(Hd & m & _)]]];
      [left; reflexivity|left; reflexivity|left; reflexivity|].
    specialize (Hused (proj2 Hd)). destruct r; [exact Hused|right; exact Hused..].
  - unfold pt_iscache_set_limit.
    assert (H0 : linv0 cid (fun j => f j + occ (ic_entries c) j) g (occ (ic_entries c)) (sids c) w (set_limit c limit)).
    { split; assumption. }
    destruct (notify_ok _ _ _ _ _ _ _ (limit <? ic_used (set_limit c limit)) H0) as (w' & c' & -> & S & F & L & _).
    { cbn [set_limit ic_limit ic_lru ic_used]. rewrite Hu. reflexivity. }
    cbn [refs_next maps_next next_idents list_after answered]. split; [|split; [|split]].
    + destruct S as (S1 & S2 & S3 & S4). cbn in S1, S2, S3, S4. split; [| |exact HG].
      * destruct HE as [E1 E2 E3 E4]. split; unfold ic_size in *; rewrite ?S2, ?S3; assumption.
      * unfold sids. rewrite S2. exact L.
    + destruct S as (_ & S2 & _). cbn in S2. rewrite S2. reflexivity.
    + split; [apply S|exact F].
    + reflexivity.
  - unfold pt_iscache_clear. cbv zeta.
    destruct (lru_free_ok (ic_lru c) _ _ _ _ _ W) as (w1 & -> & W1 & _).
    { intros j Hj. apply P, Hincl, inl_in, Hj. }
    rewrite Hi. destruct (clear_ok cid f g HG (ic_entries c) w1 W1) as (w2 & -> & W2).
    cbn [refs_next maps_next next_idents list_after answered ic_entries ic_lru ic_limit map].
    split; [|split; [reflexivity|split; [split; reflexivity|reflexivity]]].
    split; [| |exact HG].
    + split; cbn [ic_entries ic_capacity ic_size length map].
      * intros e e' [].
      * intros e e' [].
      * constructor.
      * unfold ic_size. cbn. lia.
    + split; [|cbn; lia]. split; cbn [ic_id ic_entries ic_lru ic_limit ic_used sids map total]; try reflexivity;
        try assumption.
      * eapply wok_ext; [exact W2|intros j; cbn; lia|intros j; cbn; lia|reflexivity].
      * constructor.
      * intros x [].
      * intros x [].
      * intros x [].
      * cbn. lia.
  - destruct (l_get _ _ _ _ _ _ _ id HL) as (w1 & [(E1 & H1)|(E1 & Hm & H1)]); [lia| |]; rewrite E1;
      cbn [refs_next maps_next next_idents list_after answered].
    + split; [|split; [reflexivity|split; [split; reflexivity|left; reflexivity]]].
      split; [exact HE| |].
      * eapply linv_ext; [exact H1| |reflexivity|reflexivity]. intros j. unfold plus1, bump.
        destruct (Nat.eqb j id); lia.
      * intros j. unfold bump. destruct (Nat.eqb j id); [lia|apply HG].
    + split; [split; assumption|]. split; [reflexivity|]. split; [split; reflexivity|].
      right. split; [reflexivity|]. destruct (W id) as [B _]. destruct (ho_refs _ _ B) as [B1|B1]; cbn in B1.
      * lia.
      * rewrite B1. exact Hm.
  - destruct Hmay as [M1 M2].
    assert (H1 : linv cid (plus1 (fun j => bump f id false j + occ (ic_entries c) j) id) g (occ (ic_entries c)) (sids c) w c).
    { eapply linv_ext; [exact HL| |reflexivity|reflexivity]. intros j. unfold plus1, bump.
      destruct (Nat.eqb_spec j id) as [->|]; lia. }
    assert (HG1 : forall j, bump f id false j = 0 -> g j = 0).
    { intros j. unfold bump. destruct (Nat.eqb_spec j id) as [->|]; [|apply HG]. intros Hz. apply M2. lia. }
    destruct (c_put _ _ _ _ _ _ HE HG1 H1) as (w1 & E1 & C1). rewrite E1.
    cbn [refs_next maps_next next_idents list_after answered].
    split; [exact C1|]. split; [reflexivity|]. split; [split; reflexivity|reflexivity].
  - destruct Hmay as [M1 M2].
    destruct (l_map _ _ _ _ _ _ _ id m mem HL) as (w2 & c2 & r2 & -> & S2 & D); [lia|exact M2|apply att_iff|].
    destruct D as [(-> & H2 & [U1 U2] & _)|(e & -> & H2 & -> & He)];
      cbn [refs_next maps_next next_idents list_after answered].
    + split; [|split; [apply same_idents, S2|split; [split; [apply S2|]|left; reflexivity]]].
      * eapply cinv_same; [exact C|exact S2| |].
        -- eapply linv_ext; [exact H2|reflexivity| |reflexivity]. intros j. unfold plus1, bump.
           destruct (Nat.eqb j id); lia.
        -- intros j Hj. unfold bump. destruct (Nat.eqb_spec j id) as [->|]; [lia|apply HG, Hj].
      * split; rewrite in_cache_iff; [exact U1|]. intros Hn. rewrite (U2 Hn). reflexivity.
    + split; [eapply cinv_same; [exact C|exact S2|exact H2|exact HG]|].
      split; [reflexivity|]. split; [split; reflexivity|]. right. exists e. split; [reflexivity|exact He].
  - assert (Hf : 0 < f id).
    { destruct (N.eq_dec (f id) 0) as [E|]; [|lia]. rewrite (HG _ E) in Hmay. lia. }
    assert (H1 : linv cid (fun j => f j + occ (ic_entries c) j) (plus1 (bump g id false) id) (occ (ic_entries c)) (sids c) w c).
    { eapply linv_ext; [exact HL|reflexivity| |reflexivity]. intros j. unfold plus1, bump.
      destruct (Nat.eqb_spec j id) as [->|]; lia. }
    destruct (l_unmap _ _ _ _ _ _ _ _ H1) as (w1 & E1 & L1 & _); [lia|]. rewrite E1.
    cbn [refs_next maps_next next_idents list_after answered].
    split; [|split; [reflexivity|split; [split; reflexivity|reflexivity]]].
    split; [exact HE|exact L1|]. intros j Hj. unfold bump. rewrite (HG _ Hj). destruct (Nat.eqb j id); reflexivity.
  - destruct Hmay as (M1 & M2 & M3).
    destruct (l_bcache _ _ _ _ _ _ _ sec n mem lmem HL) as (w2 & c2 & r2 & -> & S2 & H2 & D);
      [lia|exact M2|exact M3|apply att_iff|].
    cbn [refs_next maps_next next_idents answered].
    assert (C2 : cinv cid f g w2 c2) by (eapply cinv_same; eassumption).
    split; [exact C2|]. split; [apply same_idents, S2|].
    unfold list_after. cbv zeta.
    destruct D as [(-> & [U1 U2] & B1 & B2)|[(-> & -> & B)|(e & -> & ->)]].
    + split; [|left; reflexivity]. split; [apply S2|]. split.
      * intros (_ & _ & G3). apply U1, in_cache_iff, G3.
      * intros Hn. destruct (in_dec Nat.eq_dec (sc_id sec) (sids c)) as [Hin|Hin]; [|rewrite (U2 Hin); reflexivity].
        exfalso. apply Hn. split; [exact B1|]. split; [exact B2|apply in_cache_iff, Hin].
    + split; [|left; reflexivity]. split; [reflexivity|]. split; [|reflexivity].
      intros (G1 & G2 & _). destruct B as [B|B]; contradiction.
    + split; [|right; exists e; reflexivity]. split; reflexivity.
Qed.

(** ** Runs *)

Definition good (cid : nat) (t : run) : Prop :=
  cinv cid (ru_refs t) (ru_maps t) (fst (ru_state t)) (snd (ru_state t)) /\
  idents (ru_hist t) = map ident_of (ic_entries (snd (ru_state t))).

Lemma good_start cid : good cid (start cid).
Proof.
  split; [|reflexivity]. cbn [start ru_refs ru_maps ru_state fst snd]. split.
  - split; cbn [pt_iscache_init ic_entries ic_capacity map].
    + intros e e' [].
    + intros e e' [].
    + constructor.
    + cbn. lia.
  - split; [|cbn; lia]. split; cbn [pt_iscache_init ic_id ic_entries ic_lru ic_limit ic_used sids map total]; try reflexivity.
    + intros j. split.
      * split; cbn; try reflexivity; try lia; try tauto; try discriminate;
          try (split; [intros [? H]; discriminate|congruence]); split; intros [? H]; discriminate.
      * split; discriminate.
    + constructor.
    + intros x [].
    + intros x [].
    + intros x [].
    + cbn. lia.
  - reflexivity.
Qed.

Lemma good_step cid t o : good cid t ->
  user_may (ru_refs t) (ru_maps t) (fst (ru_state t)) o -> good cid (run_step t o).
Proof.
  intros [C E] Hm. unfold run_step. destruct (ru_state t) as [w c]. cbn [fst snd] in *.
  pose proof (step_ok _ _ _ _ _ o C Hm) as S. destruct (cstep (w, c) o) as [[w' c'] r].
  destruct S as (S1 & S2 & _ & _). split; cbn [ru_refs ru_maps ru_state ru_hist fst snd]; [exact S1|].
  rewrite idents_cons, E. symmetry. exact S2.
Qed.

Lemma good_all cid ops : forall t, good cid t -> users_may t ops -> good cid (fold_left run_step ops t).
Proof.
  induction ops as [|o ops IH]; intros t G Hm; [exact G|]. destruct Hm as [Hm1 Hm2].
  cbn [fold_left]. apply IH; [apply good_step; assumption|exact Hm2].
Qed.

Lemma users_may_app t a b : users_may t (a ++ b) <-> users_may t a /\ users_may (fold_left run_step a t) b.
Proof.
  revert t. induction a as [|o a IH]; intros t; cbn [app users_may fold_left]; [tauto|].
  rewrite IH. tauto.
Qed.

Lemma good_run cid ops : users_may (start cid) ops -> good cid (run_all cid ops).
Proof. intros H. apply good_all; [apply good_start|exact H]. Qed.
