(** Lemmas about the list of mapped sections in the image section cache. *)

From Verif Require Import Base M_section M_image M_iscache S_core S_section L_section S_image
  S_iscache L_iscache.
From Coq Require Import List NArith ZArith Bool Lia ZifyBool ZifyNat ZifyN PeanoNat.
Import ListNotations.
Open Scope N_scope.
Ltac Zify.zify_post_hook ::= Z.div_mod_to_equations.

(** ** Lists *)

Definition inlru (l : list lru_entry) (id : nat) : N :=
  N.of_nat (length (filter (fun e => Nat.eqb (lr_id e) id) l)).

Lemma inl_cons e l id : inlru (e :: l) id = (if Nat.eqb (lr_id e) id then 1 else 0) + inlru l id.
Proof. unfold inlru. cbn [filter]. destruct (Nat.eqb _ _); cbn [length]; lia. Qed.
Lemma inl_app l l' id : inlru (l ++ l') id = inlru l id + inlru l' id.
Proof. unfold inlru. rewrite filter_app, app_length. lia. Qed.

Lemma inl_in l id : 0 < inlru l id <-> In id (map lr_id l).
Proof.
  induction l as [|e l IH]; [cbn; lia|]. rewrite inl_cons. cbn [map In].
  destruct (Nat.eqb_spec (lr_id e) id).
  - split; [tauto|lia].
  - rewrite N.add_0_l, IH. tauto.
Qed.

Lemma inl_nodup l id : NoDup (map lr_id l) -> inlru l id <= 1.
Proof.
  induction l as [|e l IH]; [cbn; lia|]. rewrite inl_cons. cbn [map]. intros H.
  inversion H as [|? ? H1 H2]; subst. specialize (IH H2).
  destruct (Nat.eqb_spec (lr_id e) id) as [<-|]; [|lia].
  destruct (N.eq_dec (inlru l (lr_id e)) 0); [lia|]. exfalso. apply H1, inl_in. lia.
Qed.

Lemma total_app l l' : total (l ++ l') = total l + total l'.
Proof. induction l as [|e l IH]; cbn [app total]; lia. Qed.

Lemma total_bound l b : (forall e, In e l -> lr_size e < b) -> total l <= N.of_nat (length l) * b.
Proof.
  induction l as [|e l IH]; intros H; [cbn; lia|]. cbn [total length].
  specialize (IH (fun x Hx => H x (or_intror Hx))). specialize (H e (or_introl eq_refl)).
  rewrite Nat2N.inj_succ, N.mul_succ_l. lia.
Qed.

Lemma lru_take_none l id : lru_take l id = None -> inlru l id = 0.
Proof.
  induction l as [|e l IH]; [reflexivity|]. cbn [lru_take]. rewrite inl_cons.
  destruct (Nat.eqb (lr_id e) id); [discriminate|].
  destruct (lru_take l id) as [[x y]|]; [discriminate|]. intros _. rewrite IH; reflexivity.
Qed.

Lemma lru_take_some l id e r : lru_take l id = Some (e, r) ->
  exists a b, l = a ++ e :: b /\ r = a ++ b /\ lr_id e = id.
Proof.
  revert e r. induction l as [|x l IH]; [discriminate|]. cbn [lru_take]. intros e r.
  destruct (Nat.eqb_spec (lr_id x) id) as [E|E].
  - intros [= <- <-]. exists [], l. tauto.
  - destruct (lru_take l id) as [[y z]|]; [|discriminate]. intros [= <- <-].
    destruct (IH _ _ eq_refl) as (a & b & -> & -> & Hy). exists (x :: a), b. tauto.
Qed.

Lemma filter_none l id : inlru l id = 0 -> filter (fun e => negb (Nat.eqb (lr_id e) id)) l = l.
Proof.
  induction l as [|e l IH]; [reflexivity|]. rewrite inl_cons. cbn [filter].
  destruct (Nat.eqb (lr_id e) id); cbn [negb]; [lia|]. intros H. rewrite IH; [reflexivity|lia].
Qed.

Lemma existsb_inl l id : existsb (fun e => Nat.eqb (lr_id e) id) l = negb (inlru l id =? 0).
Proof.
  induction l as [|e l IH]; [reflexivity|]. rewrite inl_cons. cbn [existsb]. rewrite IH.
  destruct (Nat.eqb (lr_id e) id); [|reflexivity].
  destruct (N.eqb_spec (1 + inlru l id) 0); [lia|reflexivity].
Qed.

(** Touching an element of the list moves it to the front. *)
Lemma touch_found limit l a e b id n : l = a ++ e :: b -> lr_id e = id -> NoDup (map lr_id l) ->
  touch limit l id n = mk_lru id n :: a ++ b.
Proof.
  intros -> <- Hn. unfold touch. rewrite existsb_inl.
  assert (Ha : inlru a (lr_id e) = 0 /\ inlru b (lr_id e) = 0).
  { pose proof (inl_nodup _ (lr_id e) Hn) as G. rewrite inl_app, inl_cons, Nat.eqb_refl in G. lia. }
  rewrite inl_app, inl_cons, Nat.eqb_refl.
  destruct (N.eqb_spec (inlru a (lr_id e) + (1 + inlru b (lr_id e))) 0); [lia|]. cbn [negb].
  rewrite filter_app. cbn [filter]. rewrite Nat.eqb_refl. cbn [negb].
  rewrite !filter_none by tauto. reflexivity.
Qed.

Lemma nodup_app_l {T} (a b : list T) : NoDup (a ++ b) -> NoDup a.
Proof.
  induction a as [|x a IH]; [constructor|]. cbn. intros H. inversion H as [|? ? H1 H2]; subst.
  constructor; [|apply IH, H2]. intros H3. apply H1, in_app_iff. left. exact H3.
Qed.

(** ** Freeing *)

Lemma lru_free_ok l : forall cid R G A w, wok cid R (fun id => G id + inlru l id) A w ->
  (forall id, 0 < inlru l id -> 0 < R id) ->
  exists w', pt_iscache_lru_free w l = (w', Ok tt) /\ wok cid R G A w' /\ mem_kept G w w'.
Proof.
  induction l as [|e l IH]; intros cid R G A w H Hr; cbn [pt_iscache_lru_free].
  - exists w. split; [reflexivity|]. split; [|intros id _; split; reflexivity].
    eapply wok_ext; [exact H|intros j; cbn..]; try reflexivity. lia.
  - assert (H1 : 0 < inlru (e :: l) (lr_id e)) by (rewrite inl_cons, Nat.eqb_refl; lia).
    destruct (w_unmap _ _ _ _ _ H (lr_id e) (Hr _ H1)) as (w1 & -> & H2 & H3); [lia|].
    cbn iota beta.
    assert (Em : forall j, G j + inlru l j = up (fun id => G id + inlru (e :: l) id) (lr_id e)
                   (G (lr_id e) + inlru (e :: l) (lr_id e) - 1) j).
    { intros j. unfold up. rewrite !inl_cons, Nat.eqb_refl.
      destruct (Nat.eqb_spec j (lr_id e)) as [->|Hne]; [lia|].
      destruct (Nat.eqb_spec (lr_id e) j); [congruence|]. lia. }
    destruct (IH cid R G A w1) as (w2 & E2 & H4 & H5).
    + eapply wok_ext; [exact H2|reflexivity|exact Em|reflexivity].
    + intros id Hid. apply Hr. rewrite inl_cons. destruct (Nat.eqb _ _); lia.
    + exists w2. split; [exact E2|]. split; [exact H4|]. intros id Hid.
      eapply same_mem_trans; [apply H3; rewrite <- Em; lia|apply H5; exact Hid].
Qed.

(** ** Pruning *)

Lemma lru_split_spec limit : forall l used, used + total l < 2 ^ 64 -> used <= limit ->
  limit < used + total l ->
  exists keep e tail, lru_split limit used l = Some (keep, used + total keep, e :: tail) /\
    l = keep ++ e :: tail /\ used + total keep <= limit < used + total keep + lr_size e.
Proof.
  induction l as [|e l IH]; intros used Hb Hu Hl; cbn [total] in *; [lia|].
  cbn [lru_split].
  assert (E : add64 used (lr_size e) = used + lr_size e).
  { unfold add64, u64, trunc. apply N.mod_small. lia. }
  rewrite E. destruct (N.leb_spec (used + lr_size e) limit) as [Hle|Hgt].
  - destruct (IH (used + lr_size e)) as (keep & x & tail & E2 & E3 & E4); [lia..|].
    rewrite E2. exists (e :: keep), x, tail. cbn [total].
    split; [do 3 f_equal; lia|]. split; [rewrite E3; reflexivity|lia].
  - exists [], e, l. cbn [total app]. split; [|split; [reflexivity|lia]].
    do 3 f_equal. unfold sub64, u64, trunc. change (2 ^ 64) with 18446744073709551616 in *. lia.
Qed.

(** ** The invariant *)

(** Sections in the list are among [S], are referenced by someone, and have the noted
    size; [G] counts the mappings by others. *)
Record linv0 (cid : nat) (R G A : counts) (S : list nat) (w : world) (c : iscache) : Prop := {
  li_id : ic_id c = cid;
  li_w : wok cid R (fun id => G id + inlru (ic_lru c) id) A w;
  li_nodup : NoDup (map lr_id (ic_lru c));
  li_incl : incl (map lr_id (ic_lru c)) S;
  li_held : forall id, In id S -> 0 < R id;
  li_size : forall e, In e (ic_lru c) -> lr_size e = memory (w (lr_id e));
  li_used : ic_used c = total (ic_lru c);
  li_bound : ic_limit c < 2 ^ 64;
  li_len : N.of_nat (length S) <= 65528 }.
Definition linv cid R G A S w c := linv0 cid R G A S w c /\ total (ic_lru c) <= ic_limit c.

Lemma memory_small s : small s -> memory s < 2 ^ 48.
Proof.
  intros [H1 H2]. unfold memory. destruct (sn_mapped s) as [m|]; [|reflexivity].
  specialize (H1 m eq_refl).
  assert (Hb : match sn_bcache s with Some n => n | None => 0 end < 2 ^ 47)
    by (destruct (sn_bcache s); [apply H2; reflexivity|reflexivity]).
  change (2 ^ 48) with (2 ^ 47 + 2 ^ 47). lia.
Qed.
Lemma memory_same s s' : same_mem s s' -> memory s' = memory s.
Proof. intros [E1 E2]. unfold memory. rewrite E1, E2. reflexivity. Qed.

Lemma list_bound l S (b : N) : NoDup (map lr_id l) -> incl (map lr_id l) S ->
  N.of_nat (length S) <= 65528 -> (forall e, In e l -> lr_size e < 2 ^ 48) -> total l < 2 ^ 64.
Proof.
  intros H1 H2 H3 H4. pose proof (NoDup_incl_length H1 H2) as H5. rewrite map_length in H5.
  pose proof (total_bound l (2 ^ 48) H4) as H6.
  change (2 ^ 48) with 281474976710656 in *. change (2 ^ 64) with 18446744073709551616. lia.
Qed.

Lemma linv0_total cid R G A S w c : linv0 cid R G A S w c -> total (ic_lru c) < 2 ^ 64.
Proof.
  intros [H1 H2 H3 H4 H5 H6 H7 H8 H9]. apply (list_bound _ S 0 H3 H4 H9).
  intros e He. rewrite (H6 e He). apply memory_small, H2.
Qed.

(** Fields that the list functions do not change. *)
Definition same_cache (c c' : iscache) : Prop :=
  ic_id c' = ic_id c /\ ic_entries c' = ic_entries c /\ ic_capacity c' = ic_capacity c /\
  ic_limit c' = ic_limit c.
Lemma same_cache_refl c : same_cache c c.
Proof. repeat split. Qed.
Lemma same_cache_trans a b c : same_cache a b -> same_cache b c -> same_cache a c.
Proof. unfold same_cache. intuition congruence. Qed.
Lemma same_cache_set c l n : same_cache c (set_lru c l n).
Proof. repeat split. Qed.

Lemma notify_ok cid R G A S w c b : linv0 cid R G A S w c -> b = (ic_limit c <? total (ic_lru c)) ->
  exists w' c', notify (w, c, Ok b) = (w', c', Ok tt) /\ same_cache c c' /\
    longest_fit (ic_limit c) (ic_lru c) (ic_lru c') /\ linv cid R G A S w' c' /\
    mem_kept (fun id => G id + inlru (ic_lru c') id) w w'.
Proof.
  intros H Eb. pose proof (linv0_total _ _ _ _ _ _ _ H) as Ht.
  destruct H as [H1 H2 H3 H4 H5 H6 H7 H8 H9]. unfold notify. subst b.
  destruct (N.ltb_spec (ic_limit c) (total (ic_lru c))) as [Hp|Hp].
  - unfold pt_iscache_lru_prune.
    destruct (lru_split_spec (ic_limit c) (ic_lru c) 0) as (keep & e & tail & -> & El & Hk); [lia..|].
    cbn iota beta. rewrite N.add_0_l in *.
    destruct (lru_free_ok (e :: tail) cid R (fun id => G id + inlru keep id) A w) as (w1 & -> & W1 & W2).
    + eapply wok_ext; [exact H2|reflexivity| |reflexivity].
      intros j. rewrite El, inl_app. lia.
    + intros id Hid. apply H5, H4. rewrite El. apply inl_in. rewrite inl_app. lia.
    + exists w1, (set_lru c keep (total keep)). split; [reflexivity|]. split; [apply same_cache_set|].
      split; [exists (e :: tail); split; [exact El|cbn; lia]|].
      rewrite El in H3, H4, H6. rewrite map_app in H3, H4.
      assert (Hnd : NoDup (map lr_id keep)) by (apply nodup_app_l in H3; exact H3).
      split; [split; [split; cbn [set_lru ic_id ic_lru ic_limit ic_used]|]|exact W2]; try assumption; try reflexivity.
      * intros x Hx. apply H4, in_app_iff. left. exact Hx.
      * intros x Hx. rewrite H6 by (apply in_app_iff; left; exact Hx). symmetry. apply memory_same, W2.
        assert (0 < inlru keep (lr_id x)) by (apply inl_in, in_map; exact Hx). lia.
      * cbn. lia.
  - exists w, c. split; [reflexivity|]. split; [apply same_cache_refl|].
    split; [exists []; rewrite app_nil_r; tauto|].
    split; [split; [split; assumption|lia]|]. intros id _. split; reflexivity.
Qed.

(** ** Adding *)

Lemma touch_found' limit c e a b id n : ic_lru c = a ++ e :: b -> lr_id e = id -> lr_size e = n ->
  NoDup (map lr_id (ic_lru c)) -> touch limit (ic_lru c) id n = e :: a ++ b.
Proof.
  intros E1 E2 E3 H. rewrite (touch_found limit _ a e b id n E1 E2 H). destruct e. cbn in *. congruence.
Qed.

Lemma perm_facts (l : list lru_entry) a e b : l = a ++ e :: b ->
  (forall id, inlru (e :: a ++ b) id = inlru l id) /\ total (e :: a ++ b) = total l /\
  (NoDup (map lr_id l) -> NoDup (map lr_id (e :: a ++ b))) /\
  (forall x, In x (e :: a ++ b) <-> In x l).
Proof.
  intros ->. split; [|split; [|split]].
  - intros id. rewrite inl_cons, !inl_app, inl_cons. lia.
  - cbn [total]. rewrite !total_app. cbn [total]. lia.
  - rewrite map_app. cbn [map]. rewrite map_app. intros H.
    constructor; [apply NoDup_remove_2 in H; exact H|apply NoDup_remove_1 in H; exact H].
  - intros x. cbn [In]. rewrite !in_app_iff. cbn [In]. tauto.
Qed.

(** The state while the size of [id] is being updated: as [linv0], but the size of [id]
    may be out of date. *)
Record lmid (cid : nat) (R G A : counts) (S : list nat) (w : world) (c : iscache) (id : nat) : Prop := {
  lm_id : ic_id c = cid;
  lm_w : wok cid R (fun id => G id + inlru (ic_lru c) id) A w;
  lm_nodup : NoDup (map lr_id (ic_lru c));
  lm_incl : incl (map lr_id (ic_lru c)) S;
  lm_held : forall id, In id S -> 0 < R id;
  lm_size : forall e, In e (ic_lru c) -> lr_id e <> id -> lr_size e = memory (w (lr_id e));
  lm_old : forall e, In e (ic_lru c) -> lr_size e < 2 ^ 48;
  lm_used : ic_used c = total (ic_lru c);
  lm_fits : total (ic_lru c) <= ic_limit c;
  lm_bound : ic_limit c < 2 ^ 64;
  lm_len : N.of_nat (length S) <= 65528 }.

Lemma linv_lmid cid R G A S w c id : linv cid R G A S w c -> lmid cid R G A S w c id.
Proof.
  intros [[H1 H2 H3 H4 H5 H6 H7 H8 H9] H10]. split; try assumption.
  - intros e He _. apply H6, He.
  - intros e He. rewrite (H6 e He). apply memory_small, H2.
Qed.

Lemma lru_new_ok cid R G A S w c id mem : lmid cid R G A S w c id ->
  In id S -> inlru (ic_lru c) id = 0 -> 0 < G id ->
  exists w', mem_same w w' /\
    ((exists c', pt_iscache_lru_new w c id mem
                 = (w', c', Ok (ic_limit c <? total (ic_lru c'))) /\
        same_cache c c' /\ ic_lru c' = touch (ic_limit c) (ic_lru c) id (memory (w id)) /\
        linv0 cid R G A S w' c') \/
     (exists e, pt_iscache_lru_new w c id mem = (w', c, Err e) /\ lmid cid R G A S w' c id /\
        (e = pte_overflow \/ e = pte_nomem /\ mem = false))).
Proof.
  intros [H1 H2 H3 H4 H5 H6 H7 H8 H9 H10 H11] Hin Hz Hg. unfold pt_iscache_lru_new, next.
  assert (Hr : 0 < R id) by (apply H5, Hin).
  destruct (w_memsize _ _ _ _ _ H2 id Hr) as (w1 & -> & Hm & M1 & W1); [lia|].
  assert (Et : touch (ic_limit c) (ic_lru c) id (memory (w id))
               = if memory (w id) <=? ic_limit c then mk_lru id (memory (w id)) :: ic_lru c else ic_lru c).
  { unfold touch. rewrite existsb_inl, Hz. reflexivity. }
  assert (Hsz : forall w', mem_same w w' -> forall e, In e (ic_lru c) -> lr_size e = memory (w' (lr_id e))).
  { intros w' Hw e He. rewrite (memory_same _ _ (Hw (lr_id e))). apply H6; [exact He|].
    intros E. assert (0 < inlru (ic_lru c) id) by (apply inl_in; rewrite <- E; apply in_map, He). lia. }
  assert (Back : forall w', mem_same w w' -> wok cid R (fun id => G id + inlru (ic_lru c) id) A w' ->
             lmid cid R G A S w' c id).
  { intros w' Mw Ww. split; try assumption. intros e He _. apply Hsz; assumption. }
  destruct (N.ltb_spec (ic_limit c) (memory (w id))) as [Hbig|Hsm].
  { exists w1. split; [exact M1|]. left. exists c. split.
    - do 2 f_equal. symmetry. apply N.ltb_ge. exact H9.
    - split; [apply same_cache_refl|]. rewrite Et.
      destruct (N.leb_spec (memory (w id)) (ic_limit c)); [lia|]. split; [reflexivity|].
      split; try assumption. apply Hsz, M1. }
  destruct (w_share _ _ _ _ _ W1 id Hr) as (w2 & M2 & [(-> & Hlt & W2)|(-> & _ & W2)]); [lia| |].
  2:{ pose proof (mem_same_trans _ _ _ M1 M2) as M12. exists w2. split; [exact M12|].
      right. exists pte_overflow. split; [reflexivity|]. split; [apply Back; assumption|]. left. reflexivity. }
  pose proof (mem_same_trans _ _ _ M1 M2) as M12.
  destruct mem; cbn [negb].
  - exists w2. split; [exact M12|]. left. cbv zeta.
    set (l := mk_lru id (memory (w id)) :: ic_lru c).
    assert (Hl : total l < 2 ^ 64).
    { apply (list_bound l S 0).
      - cbn. constructor; [|exact H3]. intros G1. apply inl_in in G1. lia.
      - intros x [<-|Hx]; [exact Hin|apply H4, Hx].
      - exact H11.
      - intros e [<-|He]; [exact Hm|apply H7, He]. }
    unfold l in Hl. cbn [total lr_size] in Hl.
    assert (Ea : add64 (ic_used c) (memory (w id)) = total l).
    { rewrite H8. unfold add64, u64, trunc. rewrite N.mod_small by lia. unfold l. cbn [total lr_size]. lia. }
    rewrite Ea, H8. unfold l. cbn [total lr_size].
    destruct (N.ltb_spec (memory (w id) + total (ic_lru c)) (total (ic_lru c))); [lia|].
    destruct (N.ltb_spec (memory (w id) + total (ic_lru c)) (memory (w id))); [lia|].
    cbn [orb]. exists (set_lru c l (total l)). split; [reflexivity|]. split; [apply same_cache_set|].
    cbn [set_lru ic_lru]. split.
    { rewrite Et. destruct (N.leb_spec (memory (w id)) (ic_limit c)); [reflexivity|lia]. }
    split; cbn [set_lru ic_id ic_lru ic_limit ic_used]; try assumption; try reflexivity.
    + eapply wok_ext; [exact W2|reflexivity| |reflexivity]. intros j. unfold l, up.
      rewrite inl_cons. cbn [lr_id]. rewrite Nat.eqb_sym.
      destruct (Nat.eqb_spec j id) as [->|]; [|lia]. lia.
    + cbn. constructor; [|exact H3]. intros G1. apply inl_in in G1. lia.
    + intros x [<-|Hx]; [exact Hin|apply H4, Hx].
    + intros e [<-|He]; [cbn; symmetry; apply memory_same, M12|apply Hsz; assumption].
  - destruct (w_unmap _ _ _ _ _ W2 id Hr) as (w3 & -> & W3 & K3); [rewrite up_same; lia|].
    exists w3.
    assert (Em : forall j, G j + inlru (ic_lru c) j
      = up (up (fun id => G id + inlru (ic_lru c) id) id (G id + inlru (ic_lru c) id + 1)) id
           (up (fun id => G id + inlru (ic_lru c) id) id (G id + inlru (ic_lru c) id + 1) id - 1) j).
    { intros j. rewrite up_same. unfold up. destruct (Nat.eqb_spec j id) as [->|]; lia. }
    assert (M3 : mem_same w w3).
    { intros j. eapply same_mem_trans; [apply M12|]. destruct (Nat.eq_dec j id) as [->|Hne].
      - apply K3. rewrite up_same, up_same. lia.
      - revert K3. clear -H2 W3 Hne Em W2 Hr Hlt. intros K3.
        destruct (N.eq_dec (G j + inlru (ic_lru c) j) 0) as [E0|E0].
        + (* not mapped before and after *)
          destruct (W2 j) as [B1 _]. destruct (W3 j) as [B2 _].
          pose proof (ho_mapped _ _ B1) as P1. pose proof (ho_mapped _ _ B2) as P2.
          pose proof (ho_bcache _ _ B1) as Q1. pose proof (ho_bcache _ _ B2) as Q2.
          pose proof (ho_bmap _ _ B1) as T1. pose proof (ho_bmap _ _ B2) as T2.
          cbn [us us_maps us_bcache] in *. unfold up in P1, P2, T1, T2.
          destruct (Nat.eqb_spec j id); [congruence|]. rewrite E0 in P1, P2, T1, T2.
          unfold hasb in *.
          split.
          * destruct (sn_mapped (w3 j)); [exfalso; apply P2; [eexists; reflexivity|reflexivity]|].
            destruct (sn_mapped (w2 j)); [exfalso; apply P1; [eexists; reflexivity|reflexivity]|].
            reflexivity.
          * destruct (sn_bcache (w3 j)); [exfalso; apply T2; reflexivity|].
            destruct (sn_bcache (w2 j)); [exfalso; apply T1; reflexivity|]. reflexivity.
        + apply K3. rewrite <- Em. lia. }
    split; [exact M3|]. right. exists pte_nomem. split; [reflexivity|].
    split; [|right; split; reflexivity]. apply Back; [exact M3|]. eapply wok_ext; [exact W3|reflexivity|exact Em|reflexivity].
Qed.

Lemma lru_add_ok cid R G A S w c id mem : linv cid R G A S w c -> In id S -> 0 < G id ->
  exists w', mem_same w w' /\
    ((exists c', pt_iscache_lru_add w c id mem
                 = (w', c', Ok (ic_limit c <? total (ic_lru c'))) /\
        same_cache c c' /\ ic_lru c' = touch (ic_limit c) (ic_lru c) id (memory (w id)) /\
        linv0 cid R G A S w' c') \/
     (exists e, pt_iscache_lru_add w c id mem = (w', c, Err e) /\ linv cid R G A S w' c /\
        (e = pte_overflow \/ e = pte_nomem /\ mem = false))).
Proof.
  intros H Hin Hg. unfold pt_iscache_lru_add.
  destruct (lru_take (ic_lru c) id) as [[e r]|] eqn:Et.
  - destruct (lru_take_some _ _ _ _ Et) as (a & b & El & -> & He).
    destruct (perm_facts _ _ _ _ El) as (P1 & P2 & P3 & P4).
    destruct H as [[H1 H2 H3 H4 H5 H6 H7 H8 H9] H10].
    exists w. split; [apply mem_same_refl|]. left. exists (set_lru c (e :: a ++ b) (ic_used c)).
    cbn [set_lru ic_lru]. split; [do 2 f_equal; rewrite P2; symmetry; apply N.ltb_ge; exact H10|].
    split; [apply same_cache_set|]. split.
    { symmetry. apply touch_found'; try assumption. rewrite <- He. apply H6. rewrite El.
      apply in_app_iff. right. left. reflexivity. }
    split; cbn [set_lru ic_id ic_lru ic_limit ic_used]; try assumption.
    + eapply wok_ext; [exact H2|reflexivity| |reflexivity]. intros j. rewrite P1. reflexivity.
    + apply P3, H3.
    + intros x Hx. apply in_map_iff in Hx. destruct Hx as (y & <- & Hy). apply H4, in_map, P4, Hy.
    + intros x Hx. apply H6, P4, Hx.
    + rewrite P2. exact H7.
  - apply lru_take_none in Et.
    destruct (lru_new_ok cid R G A S w c id mem (linv_lmid _ _ _ _ _ _ _ _ H) Hin Et Hg)
      as (w' & M & [C|(e & E & C & Ce)]); exists w'; split; try exact M; [left; exact C|right].
    exists e. split; [exact E|]. split; [|exact Ce]. destruct C as [C1 C2 C3 C4 C5 C6 C7 C8 C9 C10 C11].
    split; [|exact C9]. split; try assumption. intros x Hx. apply C6; [exact Hx|].
    intros Ex. assert (0 < inlru (ic_lru c) id) by (apply inl_in; rewrite <- Ex; apply in_map, Hx). lia.
Qed.

Lemma lru_resize_ok cid R G A S w c id mem : lmid cid R G A S w c id -> In id S -> 0 < G id ->
  exists w', mem_same w w' /\
    ((exists c', pt_iscache_lru_resize w c id (memory (w id)) mem
                 = (w', c', Ok (ic_limit c <? total (ic_lru c'))) /\
        same_cache c c' /\ ic_lru c' = touch (ic_limit c) (ic_lru c) id (memory (w id)) /\
        linv0 cid R G A S w' c') \/
     (exists e, pt_iscache_lru_resize w c id (memory (w id)) mem = (w', c, Err e) /\
        lmid cid R G A S w' c id /\ inlru (ic_lru c) id = 0)).
Proof.
  intros H Hin Hg. pose proof (lm_fits _ _ _ _ _ _ _ _ H) as Hfit.
  assert (Hsmall : memory (w id) < 2 ^ 48) by (apply memory_small, (lm_w _ _ _ _ _ _ _ _ H)).
  unfold pt_iscache_lru_resize, pt_iscache_lru_add.
  destruct (lru_take (ic_lru c) id) as [[e r]|] eqn:Et.
  - destruct (lru_take_some _ _ _ _ Et) as (a & b & El & -> & He).
    destruct (perm_facts _ _ _ _ El) as (P1 & P2 & P3 & P4).
    destruct H as [H1 H2 H3 H4 H5 H6 H7 H8 H9 H10 H11].
    cbn iota. cbn [set_lru ic_lru ic_used ic_limit]. rewrite He, Nat.eqb_refl. cbn [negb].
    set (l := mk_lru id (memory (w id)) :: a ++ b).
    assert (Hl : total l < 2 ^ 64).
    { apply (list_bound l S 0).
      - unfold l. cbn [map lr_id]. rewrite <- He. exact (P3 H3).
      - intros x Hx. unfold l in Hx. cbn [map In lr_id] in Hx.
        destruct Hx as [<-|Hx]; [exact Hin|]. apply H4.
        apply in_map_iff in Hx. destruct Hx as (y & <- & Hy). apply in_map, P4. right. exact Hy.
      - exact H11.
      - intros x [<-|Hx]; [exact Hsmall|]. apply H7, P4. right. exact Hx. }
    assert (Eu : add64 (sub64 (ic_used c) (lr_size e)) (memory (w id)) = total l).
    { assert (Ht : total (e :: a ++ b) < 2 ^ 64) by (rewrite P2; lia).
      rewrite H8, <- P2. unfold l in *. cbn [total lr_size] in *. unfold add64, sub64, u64, trunc.
      change (2 ^ 64) with 18446744073709551616 in *. lia. }
    rewrite Eu. exists w. split; [apply mem_same_refl|]. left. exists (set_lru c l (total l)).
    split; [reflexivity|]. split; [apply same_cache_set|]. cbn [set_lru ic_lru].
    split; [symmetry; apply (touch_found _ _ _ _ _ _ _ El He H3)|].
    split; cbn [set_lru ic_id ic_lru ic_limit ic_used]; try assumption; try reflexivity.
    + eapply wok_ext; [exact H2|reflexivity| |reflexivity]. intros j. cbv beta. rewrite <- P1.
      unfold l. rewrite !inl_cons. cbn [lr_id]. rewrite He. reflexivity.
    + unfold l. cbn [map lr_id]. rewrite <- He. exact (P3 H3).
    + intros x Hx. unfold l in Hx. cbn [map In lr_id] in Hx.
      destruct Hx as [<-|Hx]; [exact Hin|]. apply H4.
      apply in_map_iff in Hx. destruct Hx as (y & <- & Hy). apply in_map, P4. right. exact Hy.
    + assert (Hne : ~ In id (map lr_id (a ++ b))).
      { specialize (P3 H3). cbn [map] in P3. inversion P3. rewrite <- He. assumption. }
      intros x [<-|Hx]; [reflexivity|]. apply H6; [apply P4; right; exact Hx|].
      intros Ex. apply Hne. rewrite <- Ex. apply in_map, Hx.
  - apply lru_take_none in Et.
    destruct (lru_new_ok cid R G A S w c id mem H Hin Et Hg)
      as (w' & M & [(c' & E & C1 & C2 & C3)|(e & E & C & _)]); exists w'; split; try exact M.
    2:{ right. exists e. rewrite E. split; [reflexivity|]. split; [exact C|exact Et]. }
    left. rewrite E. cbn iota.
    assert (Et' : touch (ic_limit c) (ic_lru c) id (memory (w id))
               = if memory (w id) <=? ic_limit c then mk_lru id (memory (w id)) :: ic_lru c else ic_lru c).
    { unfold touch. rewrite existsb_inl, Et. reflexivity. }
    destruct C1 as (D1 & D2 & D3 & D4).
    exists c'. rewrite D4.
    destruct (N.leb_spec (memory (w id)) (ic_limit c)) as [Hle|Hgt]; rewrite Et' in C2.
    + rewrite C2. cbn [lr_id]. rewrite Nat.eqb_refl. cbn [negb lr_size].
      pose proof (li_used _ _ _ _ _ _ _ C3) as Hu. rewrite C2 in Hu.
      assert (Ec : set_lru c' (mk_lru id (memory (w id)) :: ic_lru c) (ic_used c') = c').
      { rewrite <- C2. destruct c'. reflexivity. }
      destruct (N.ltb_spec (ic_limit c) (total (mk_lru id (memory (w id)) :: ic_lru c))) as [Hp|Hp].
      * rewrite Ec. split; [reflexivity|]. split; [repeat split; assumption|].
        split; [symmetry; exact Et'|exact C3].
      * assert (Eu : add64 (sub64 (ic_used c') (memory (w id))) (memory (w id)) = ic_used c').
        { pose proof (linv0_total _ _ _ _ _ _ _ C3) as Ht. rewrite C2, <- Hu in Ht.
          unfold add64, sub64, u64, trunc. change (2 ^ 48) with 281474976710656 in *.
          change (2 ^ 64) with 18446744073709551616 in *. lia. }
        rewrite Eu, Ec, Hu. split; [|split; [repeat split; assumption|split; [symmetry; exact Et'|exact C3]]].
        do 2 f_equal. apply N.ltb_ge. exact Hp.
    + rewrite C2, Et'.
      assert (El : ic_limit c <? total (ic_lru c) = false) by (apply N.ltb_ge; exact Hfit).
      rewrite El. destruct (N.leb_spec (memory (w id)) (ic_limit c)); [lia|].
      destruct (ic_lru c) as [|e0 rest] eqn:El0.
      * split; [reflexivity|]. split; [repeat split; assumption|]. split; [reflexivity|exact C3].
      * assert (Hne : Nat.eqb (lr_id e0) id = false).
        { rewrite inl_cons in Et. destruct (Nat.eqb (lr_id e0) id); [lia|reflexivity]. }
        rewrite Hne. cbn [negb]. destruct (N.ltb_spec (ic_limit c) (memory (w id))); [|lia].
        split; [reflexivity|]. split; [repeat split; assumption|]. split; [reflexivity|exact C3].
Qed.
