(** C23 (continued): block caches in memory, with entries of 32 bits. *)

From Coq Require Import List NArith ZArith Bool PeanoNat Lia.
From Verif Require Import Base M_event M_blk M_bcword.
Import ListNotations.
Open Scope N_scope.

(** ** What is claimed *)

(** Stores, the last one first. *)
Definition stores := list (N * entry).
(** The last entry stored for [i]. *)
Fixpoint last_stored (l : stores) (i : N) : option entry :=
  match l with
  | [] => None
  | (j, e) :: l => if j =? i then Some e else last_stored l i
  end.
(** The fields of an entry fit. *)
Definition fits (e : entry) : Prop :=
  (- 2 ^ 15 <= be_disp e < 2 ^ 15)%Z /\ be_ninsn e < 256 /\ be_isize e < 8.
(** The cache after some stores, whether they failed or not, with their results. *)
Fixpoint store_all (s : store) (l : stores) : store * list (res unit) :=
  match l with
  | [] => (s, [])
  | (i, e) :: l =>
      let (s, rs) := store_all s l in
      match bcache_add s i e with
      | Ok s => (s, Ok tt :: rs)
      | Err x => (s, Err x :: rs)
      | UB u => (s, UB u :: rs)
      end
  end.

(** ** Words *)

Lemma pack_unpack e : fits e -> unpack (pack e) = e.
Proof.
  destruct e as [d n m q z]. unfold fits, pack, unpack. cbn [be_disp be_ninsn be_mode be_qual be_isize]. intros (Hd & Hn & Hz).
  rewrite (N.mod_small n) by lia. rewrite (N.mod_small z) by lia.
  assert (Hx : Z.to_N (d mod 2 ^ 16)%Z < 2 ^ 16).
  { pose proof (Z.mod_pos_bound d (2 ^ 16) ltac:(lia)). apply N2Z.inj_lt. rewrite Z2N.id by lia. lia. }
  assert (Hsx : sx16 (Z.of_N (Z.to_N (d mod 2 ^ 16)%Z)) = d).
  { pose proof (Z.mod_pos_bound d (2 ^ 16) ltac:(lia)). rewrite Z2N.id by lia. unfold sx16.
    rewrite Z.add_mod_idemp_l by lia. rewrite Z.mod_small by lia. lia. }
  set (x := Z.to_N (d mod 2 ^ 16)%Z) in *.
  assert (Hm : mode_code m < 4) by (destruct m; reflexivity).
  assert (Hq : qual_code q < 8) by (destruct q; reflexivity).
  assert (Mm : mode_from (mode_code m) = m) by (destruct m; reflexivity).
  assert (Mq : qual_from (qual_code q) = q) by (destruct q; reflexivity).
  set (mc := mode_code m) in *. set (qc := qual_code q) in *.
  assert (D : forall k a b, 0 < k -> a < k -> (a + k * b) / k = b /\ (a + k * b) mod k = a).
  { clear. intros k a b Hk Ha. split; symmetry; [apply (N.div_unique _ _ _ a)|apply (N.mod_unique _ _ b)]; first [exact Ha|apply N.add_comm]. }
  set (w := x + 2 ^ 16 * n + 2 ^ 24 * mc + 2 ^ 26 * qc + 2 ^ 29 * z).
  assert (W0 : w mod 2 ^ 16 = x).
  { replace w with (x + 2 ^ 16 * (n + 2 ^ 8 * mc + 2 ^ 10 * qc + 2 ^ 13 * z)) by (unfold w; lia). apply D; lia. }
  assert (W1 : w / 2 ^ 16 mod 2 ^ 8 = n).
  { replace w with (x + 2 ^ 16 * (n + 2 ^ 8 * (mc + 2 ^ 2 * qc + 2 ^ 5 * z))) by (unfold w; lia).
    rewrite (proj1 (D (2 ^ 16) x _ ltac:(lia) Hx)). apply D; lia. }
  assert (W2 : w / 2 ^ 24 mod 2 ^ 2 = mc).
  { replace w with ((x + 2 ^ 16 * n) + 2 ^ 24 * (mc + 2 ^ 2 * (qc + 2 ^ 3 * z))) by (unfold w; lia).
    rewrite (proj1 (D (2 ^ 24) (x + 2 ^ 16 * n) _ ltac:(lia) ltac:(lia))). apply D; lia. }
  assert (W3 : w / 2 ^ 26 mod 2 ^ 3 = qc).
  { replace w with ((x + 2 ^ 16 * n + 2 ^ 24 * mc) + 2 ^ 26 * (qc + 2 ^ 3 * z)) by (unfold w; lia).
    rewrite (proj1 (D (2 ^ 26) (x + 2 ^ 16 * n + 2 ^ 24 * mc) _ ltac:(lia) ltac:(lia))). apply D; lia. }
  assert (W4 : w / 2 ^ 29 mod 2 ^ 3 = z).
  { replace w with ((x + 2 ^ 16 * n + 2 ^ 24 * mc + 2 ^ 26 * qc) + 2 ^ 29 * z) by (unfold w; lia).
    rewrite (proj1 (D (2 ^ 29) (x + 2 ^ 16 * n + 2 ^ 24 * mc + 2 ^ 26 * qc) _ ltac:(lia) ltac:(lia))).
    apply N.mod_small. lia. }
  rewrite W0, W1, W2, W3, W4, Mm, Mq, Hsx. reflexivity.
Qed.

Lemma set_nth_length n x l : length (set_nth n x l) = length l.
Proof. revert n. induction l as [|y t IH]; intros [|n]; cbn [set_nth length]; auto. Qed.
Lemma set_nth_get n x l m : (n < length l)%nat ->
  nth_error (set_nth n x l) m = if Nat.eqb n m then Some x else nth_error l m.
Proof.
  revert n m. induction l as [|y t IH]; intros [|n] [|m] H; cbn [length] in H; try lia; cbn [set_nth nth_error Nat.eqb]; auto.
  apply IH. lia.
Qed.

(** ** The cache as a map *)

(** The words of a cache of [n] entries after some stores. *)
Definition keeps (n : N) (s : store) (l : stores) : Prop :=
  st_n s = n /\ length (st_words s) = N.to_nat n /\
  forall i, i < n -> nth_error (st_words s) (N.to_nat i) =
    Some match last_stored l i with Some e => pack e | None => 0 end.

Lemma alloc_keeps n s : pt_bcache_alloc n true = Some s -> keeps n s [] /\ 0 < n < 2 ^ 32.
Proof.
  unfold pt_bcache_alloc. destruct (N.eqb_spec n 0) as [|H0]; [discriminate|]. cbn [orb].
  destruct (N.ltb_spec 0xffffffff n) as [|H1]; [discriminate|]. intros E. injection E as <-.
  split; [|lia]. split; [apply N.mod_small; lia|]. split; [apply repeat_length|]. intros i Hi. cbn [st_words last_stored].
  rewrite nth_error_repeat by lia. reflexivity.
Qed.

Lemma add_keeps n s l i e : keeps n s l -> n < 2 ^ 32 ->
  match bcache_add s i e with
  | Ok s' => i < n /\ keeps n s' ((i, e) :: l)
  | Err x => n <= i /\ x = pte_internal
  | UB _ => False
  end.
Proof.
  intros (K1 & K2 & K3) Hn. unfold bcache_add. rewrite K1. destruct (N.leb_spec n i) as [H|H]; [auto|].
  rewrite (N.mod_small i) by lia. destruct (Nat.ltb_spec (N.to_nat i) (length (st_words s))) as [L|L]; [|lia].
  split; [exact H|]. split; [reflexivity|]. cbn [st_words]. split; [rewrite set_nth_length; exact K2|].
  intros j Hj. rewrite set_nth_get by exact L. cbn [last_stored].
  destruct (N.eqb_spec i j) as [->|Nij]; [rewrite Nat.eqb_refl; reflexivity|].
  destruct (Nat.eqb_spec (N.to_nat i) (N.to_nat j)) as [X|_]; [lia|]. apply K3, Hj.
Qed.

Lemma outside_ignored n l i : i < n -> last_stored (filter (fun p => fst p <? n) l) i = last_stored l i.
Proof.
  intros H. induction l as [|[j e] l IH]; [reflexivity|]. cbn [filter fst last_stored].
  destruct (N.ltb_spec j n) as [L|L]; [cbn [last_stored]; rewrite IH; reflexivity|].
  destruct (N.eqb_spec j i) as [->|_]; [lia|exact IH].
Qed.

Lemma all_keeps n s l : keeps n s [] -> n < 2 ^ 32 ->
  keeps n (fst (store_all s l)) (filter (fun p => fst p <? n) l) /\
  snd (store_all s l) = map (fun p => if fst p <? n then Ok tt else Err pte_internal) l.
Proof.
  intros K Hn. induction l as [|[i e] l (IH1 & IH2)]; [split; [exact K|reflexivity]|].
  cbn [store_all filter map fst]. destruct (store_all s l) as [s1 rs]. cbn [fst snd] in IH1, IH2.
  pose proof (add_keeps n s1 _ i e IH1 Hn) as A. destruct (bcache_add s1 i e) as [s2|x|u]; [| |destruct A].
  - destruct A as (A1 & A2). destruct (N.ltb_spec i n) as [_|L]; [|lia]. cbn [fst snd]. rewrite IH2. auto.
  - destruct A as (A1 & ->). destruct (N.ltb_spec i n) as [L|_]; [lia|]. cbn [fst snd]. rewrite IH2. auto.
Qed.

(** After any stores, by any decoders, each store within the
    section succeeded and each other one failed, without effect.  A lookup within the section
    gives the last entry stored there, all fields as they were, or an entry that is not valid if
    there is none.  Other lookups fail.  Nothing outside the cache is read or written. *)
Theorem C23_words n s l i : pt_bcache_alloc n true = Some s -> Forall (fun p => fits (snd p)) l ->
  snd (store_all s l) = map (fun p => if fst p <? n then Ok tt else Err pte_internal) l /\
  bcache_lookup (fst (store_all s l)) i =
    (if i <? n then Ok match last_stored l i with Some e => e | None => no_entry end else Err pte_internal) /\
  pt_bce_is_valid no_entry = false.
Proof.
  intros E F. destruct (alloc_keeps n s E) as (K & Hn). destruct (all_keeps n s l K (proj2 Hn)) as (A & R).
  split; [exact R|]. split; [|reflexivity]. destruct A as (A1 & A2 & A3). unfold bcache_lookup. rewrite A1.
  destruct (N.leb_spec n i) as [H|H]; destruct (N.ltb_spec i n) as [H'|H']; try lia; [reflexivity|].
  rewrite (N.mod_small i) by lia. rewrite (A3 i H), outside_ignored by exact H. f_equal.
  assert (Fl : match last_stored l i with Some e => fits e | None => True end).
  { clear - F. induction l as [|[j e] l IH]; [exact Logic.I|]. inversion F; subst. cbn [last_stored].
    destruct (j =? i); [assumption|apply IH; assumption]. }
  destruct (last_stored l i) as [e|]; [apply pack_unpack, Fl|reflexivity].
Qed.

(** ** The caches that the block decoder's model uses *)

(** A cache in memory stands for such a cache. *)
Definition stands_for (s : store) (c : bcache) : Prop :=
  st_n s = bc_n c /\ bc_n c < 2 ^ 32 /\ length (st_words s) = N.to_nat (bc_n c) /\
  forall i, i < bc_n c -> nth_error (st_words s) (N.to_nat i) = Some (pack (bc_entry c i)) /\ fits (bc_entry c i).

(** A new one stands for the empty one, and then they do the same. *)
Theorem C23_model s c :
  (forall n, pt_bcache_alloc n true = Some s -> stands_for s (mk_bcache n (fun _ => no_entry))) /\
  (stands_for s c -> forall i,
    bcache_lookup s i = pt_bcache_lookup c i /\
    forall e, fits e ->
      match bcache_add s i e, pt_bcache_add c i e with
      | Ok s', Ok c' => stands_for s' c'
      | Err x, Err y => x = y
      | _, _ => False
      end).
Proof.
  split.
  - intros n E. destruct (alloc_keeps n s E) as ((K1 & K2 & K3) & Hn). split; [exact K1|]. split; [apply Hn|].
    split; [exact K2|]. intros i Hi. split; [exact (K3 i Hi)|]. cbn. unfold fits. cbn. lia.
  - intros (K1 & K0 & K2 & K3) i. split.
    + unfold bcache_lookup, pt_bcache_lookup. rewrite K1. destruct (N.leb_spec (bc_n c) i) as [H|H]; [reflexivity|].
      rewrite (N.mod_small i) by lia. destruct (K3 i H) as (-> & F). f_equal. apply pack_unpack, F.
    + intros e F. unfold bcache_add, pt_bcache_add. rewrite K1. destruct (N.leb_spec (bc_n c) i) as [H|H]; [reflexivity|].
      rewrite (N.mod_small i) by lia. destruct (Nat.ltb_spec (N.to_nat i) (length (st_words s))) as [L|L]; [|lia].
      split; [reflexivity|]. split; [exact K0|]. cbn [st_words bc_n bc_entry]. split; [rewrite set_nth_length; exact K2|].
      intros j Hj. rewrite set_nth_get by exact L. destruct (N.eqb_spec j i) as [->|Nij]; [rewrite Nat.eqb_refl; auto|].
      destruct (Nat.eqb_spec (N.to_nat i) (N.to_nat j)) as [X|_]; [lia|]. apply K3, Hj.
Qed.

(** Fields that do not fit are cut, so an entry that is stored with them is another one. *)
Theorem C23_cut_refuted :
  ~ forall n s l i e, pt_bcache_alloc n true = Some s -> i < n -> last_stored l i = Some e ->
    bcache_lookup (fst (store_all s l)) i = Ok e.
Proof.
  intros H. specialize (H 1 (mk_store 1 [0]) [(0, mk_entry 0 256 ptem_64bit ptbq_decode 0)] 0 _ eq_refl eq_refl eq_refl).
  vm_compute in H. discriminate H.
Qed.
Print Assumptions C23_words.
Print Assumptions C23_model.
Print Assumptions C23_cut_refuted.

(** ** Examples *)
Example C23_words_ex :
  let e1 := mk_entry (-3) 255 ptem_64bit ptbq_cond 7 in
  let e2 := mk_entry 32767 1 ptem_16bit ptbq_decode 0 in
  let e3 := mk_entry (-32768) 9 ptem_32bit ptbq_return 1 in
  let l := [(1, e3); (4, e2); (3, e2); (1, e1); (0, e1)] in
  exists s, pt_bcache_alloc 4 true = Some s /\ Forall (fun p => fits (snd p)) l /\
    map (bcache_lookup (fst (store_all s l))) [0; 1; 2; 3; 4; 2 ^ 32] =
      [Ok e1; Ok e3; Ok no_entry; Ok e2; Err pte_internal; Err pte_internal] /\
    snd (store_all s l) = [Ok tt; Err pte_internal; Ok tt; Ok tt; Ok tt].
Proof.
  eexists. split; [reflexivity|]. split; [repeat constructor; cbn; lia|]. split; vm_compute; reflexivity.
Qed.
