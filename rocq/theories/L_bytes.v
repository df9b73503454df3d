(** Lemmas about bytes, little-endian numbers and buffer accesses. *)

From Verif Require Import Base M_packet M_config M_encoder M_pktdec S_packet.
From Coq Require Import List NArith ZArith Lia Bool Arith.
From Coq Require Import ZifyBool ZifyNat ZifyN.
Import ListNotations.
Open Scope N_scope.
Ltac Zify.zify_post_hook ::= Z.div_mod_to_equations.

Lemma lor_add : forall a b, N.land a b = 0 -> N.lor a b = a + b.
Proof.
  intros a b H. rewrite N.add_nocarry_lxor by exact H.
  symmetry. apply N.lxor_lor. exact H.
Qed.

Lemma land_shift_0 : forall a b k, a < 2 ^ k -> N.land a (N.shiftl b k) = 0.
Proof.
  intros a b k H. apply N.bits_inj_iff. intros i.
  rewrite N.land_spec, N.bits_0.
  destruct (N.lt_ge_cases i k) as [Hi | Hi].
  - rewrite N.shiftl_spec_low by exact Hi. apply andb_false_r.
  - replace (N.testbit a i) with false; [reflexivity |].
    symmetry. destruct (N.eq_dec a 0) as [-> | Hne]; [apply N.bits_0 |].
    apply N.bits_above_log2.
    apply N.lt_le_trans with k; [| exact Hi].
    apply N.log2_lt_pow2; [lia | exact H].
Qed.

Lemma lor_shift : forall a b k, a < 2 ^ k ->
  N.lor a (N.shiftl b k) = a + b * 2 ^ k.
Proof.
  intros a b k H. rewrite lor_add by (apply land_shift_0; exact H).
  now rewrite N.shiftl_mul_pow2.
Qed.

Lemma u8_idem : forall v, u8 (u8 v) = u8 v.
Proof. intros v. unfold u8, trunc. now rewrite N.mod_mod. Qed.

Lemma u8_mod : forall v, u8 v = v mod 256.
Proof. reflexivity. Qed.

Lemma u8_small : forall v, v < 256 -> u8 v = v.
Proof. intros v H. apply N.mod_small. exact H. Qed.

Lemma le_length : forall n v, length (le n v) = n.
Proof. induction n as [| n IH]; intros v; cbn [le length]; auto. Qed.

Lemma le_bytes_ok : forall n v, bytes_ok (le n v).
Proof.
  induction n as [| n IH]; intros v; cbn [le]; constructor.
  - apply N.mod_lt. discriminate.
  - apply IH.
Qed.

Lemma map_u8_ok : forall l, bytes_ok l -> map u8 l = l.
Proof.
  intros l H. induction H as [| b l Hb Hl IH]; cbn [map]; [reflexivity |].
  now rewrite IH, u8_small.
Qed.

(** Writing a byte list at a position. *)
Definition write (buf : list N) (pos : nat) (bs : list N) : list N :=
  firstn pos buf ++ bs ++ skipn (pos + length bs) buf.

Lemma write_length : forall buf pos bs,
  (pos + length bs <= length buf)%nat -> length (write buf pos bs) = length buf.
Proof.
  intros buf pos bs H. unfold write.
  rewrite !app_length, firstn_length, skipn_length. lia.
Qed.

Lemma write_nil : forall buf pos, (pos <= length buf)%nat -> write buf pos [] = buf.
Proof.
  intros buf pos H. unfold write. cbn [length app].
  rewrite Nat.add_0_r. apply firstn_skipn.
Qed.

Lemma write_split : forall l1 mid l2 bs,
  length mid = length bs -> write (l1 ++ mid ++ l2) (length l1) bs = l1 ++ bs ++ l2.
Proof.
  intros l1 mid l2 bs H. unfold write.
  rewrite firstn_app, firstn_all, Nat.sub_diag. cbn [firstn].
  rewrite app_nil_r. do 2 f_equal.
  rewrite <- H, app_assoc, skipn_app, skipn_all2 by (rewrite app_length; lia).
  rewrite app_length, Nat.sub_diag. reflexivity.
Qed.

Lemma split_at : forall (buf : list N) pos n, (pos + n <= length buf)%nat ->
  exists l1 mid l2, buf = l1 ++ mid ++ l2 /\ length l1 = pos /\ length mid = n.
Proof.
  intros buf pos n H.
  exists (firstn pos buf), (firstn n (skipn pos buf)), (skipn n (skipn pos buf)).
  rewrite !firstn_skipn, !firstn_length, skipn_length. split; [reflexivity | lia].
Qed.

Lemma upd_split : forall l1 c l2 b, upd (l1 ++ c :: l2) (length l1) b = l1 ++ b :: l2.
Proof.
  intros l1 c l2 b. exact (write_split l1 [c] l2 [b] eq_refl) || 
  (generalize (write_split l1 [c] l2 [b] eq_refl); unfold write, upd; cbn [app length];
   now rewrite Nat.add_1_r).
Qed.

Lemma write_cons : forall buf pos b bs,
  (pos + S (length bs) <= length buf)%nat ->
  write (upd buf pos b) (S pos) bs = write buf pos (b :: bs).
Proof.
  intros buf pos b bs H.
  destruct (split_at buf pos (S (length bs)) H) as (l1 & mid & l2 & -> & <- & Hm).
  rewrite write_split by exact Hm.
  destruct mid as [| c mid]; [discriminate |]. cbn [app length] in *.
  rewrite upd_split.
  replace (l1 ++ b :: mid ++ l2) with ((l1 ++ [b]) ++ mid ++ l2)
    by (rewrite <- app_assoc; reflexivity).
  replace (S (length l1)) with (length (l1 ++ [b]))
    by (rewrite app_length; cbn; lia).
  rewrite write_split by lia. rewrite <- app_assoc. reflexivity.
Qed.

Lemma puts_ok : forall bs pos buf,
  (pos + length bs <= length buf)%nat ->
  puts pos bs buf = (write buf pos (map u8 bs), Ok (pos + length bs)%nat).
Proof.
  induction bs as [| b bs IH]; intros pos buf H; cbn [puts map length] in *.
  - unfold wret. rewrite write_nil by lia. now rewrite Nat.add_0_r.
  - unfold wbind, put.
    destruct (Nat.ltb_spec pos (length buf)) as [Hlt | Hge]; [| lia].
    rewrite IH.
    + rewrite write_cons by (rewrite map_length; lia). do 2 f_equal. lia.
    + unfold upd. rewrite app_length. cbn [length].
      rewrite firstn_length, skipn_length. lia.
Qed.

Lemma puts_app : forall a b pos buf,
  (wbind (puts pos a) (fun p => puts p b)) buf = puts pos (a ++ b) buf.
Proof.
  induction a as [| x a IH]; intros b pos buf; cbn [puts app]; [reflexivity |].
  unfold wbind at 2. unfold wbind at 1. unfold wbind at 1.
  destruct (put pos x buf) as [buf' [p | e | u]]; try reflexivity.
  rewrite <- IH. reflexivity.
Qed.

Lemma put_puts : forall b pos buf, put pos b buf = puts pos [b] buf.
Proof.
  intros b pos buf. cbn [puts]. unfold wbind, wret.
  destruct (put pos b buf) as [buf' [p | e | u]]; reflexivity.
Qed.

Lemma put_u8 : forall b pos buf, put pos (u8 b) buf = put pos b buf.
Proof. intros b pos buf. unfold put. now rewrite u8_idem. Qed.

Lemma encode_int_puts : forall n v pos buf,
  pt_encode_int pos v n buf = puts pos (le n v) buf.
Proof.
  induction n as [| n IH]; intros v pos buf; cbn [pt_encode_int le puts];
    [reflexivity |].
  unfold wbind. change (v mod 256) with (u8 v). rewrite put_u8.
  destruct (put pos v buf) as [buf' [p | e | u]]; try reflexivity.
  rewrite IH. now rewrite N.shiftr_div_pow2.
Qed.

Lemma wbind_ext : forall A B (m m' : W A) (f f' : A -> W B) buf,
  m buf = m' buf -> (forall a b, f a b = f' a b) ->
  wbind m f buf = wbind m' f' buf.
Proof.
  intros A B m m' f f' buf Hm Hf. unfold wbind. rewrite Hm.
  destruct (m' buf) as [b [a | e | u]]; auto.
Qed.

Lemma reserve_then : forall A pos n (k : unit -> W A) buf,
  wbind (pt_reserve pos n) k buf =
  if Nat.ltb (length buf) (pos + n) then (buf, Err pte_eos) else k tt buf.
Proof.
  intros A pos n k buf. unfold wbind, pt_reserve.
  destruct (Nat.ltb (length buf) (pos + n)); reflexivity.
Qed.

(** Reads relative to a prefix. *)
Lemma rd_app : forall pre x k, rd (pre ++ x) (length pre + k) = rd x k.
Proof.
  intros pre x k. unfold rd.
  rewrite nth_error_app2 by lia. now replace (length pre + k - length pre)%nat
    with k by lia.
Qed.

Lemma rd_ok : forall buf i, (i < length buf)%nat -> exists b, rd buf i = Ok b.
Proof.
  intros buf i H. unfold rd.
  destruct (nth_error buf i) as [b |] eqn:E; [now exists b |].
  apply nth_error_None in E. lia.
Qed.

Lemma rd_byte : forall buf i b, bytes_ok buf -> rd buf i = Ok b -> b < 256.
Proof.
  intros buf i b H. unfold rd.
  destruct (nth_error buf i) as [b' |] eqn:E; [| discriminate].
  intros [= <-]. apply nth_error_In in E.
  unfold bytes_ok in H. rewrite Forall_forall in H. apply H. exact E.
Qed.

Lemma rd_lt : forall buf i b, rd buf i = Ok b -> (i < length buf)%nat.
Proof.
  intros buf i b. unfold rd.
  destruct (nth_error buf i) as [b' |] eqn:E; [| discriminate].
  intros _. apply nth_error_Some. now rewrite E.
Qed.

Lemma rd_ext : forall buf ext i, (i < length buf)%nat ->
  rd (buf ++ ext) i = rd buf i.
Proof. intros. unfold rd. now rewrite nth_error_app1. Qed.

Lemma read_value_app : forall n pre x k idx val,
  read_value_from (pre ++ x) (length pre + k) idx n val
  = read_value_from x k idx n val.
Proof.
  induction n as [| n IH]; intros pre x k idx val; cbn [read_value_from];
    [reflexivity |].
  rewrite rd_app. destruct (rd x k) as [b | e | u]; cbn [bind]; try reflexivity.
  replace (S (length pre + k)) with (length pre + S k)%nat by lia. apply IH.
Qed.

Lemma read_value_no_err : forall n buf pos idx val,
  (pos + n <= length buf)%nat ->
  exists v, read_value_from buf pos idx n val = Ok v.
Proof.
  induction n as [| n IH]; intros buf pos idx val H; cbn [read_value_from].
  - eauto.
  - destruct (rd_ok buf pos) as [b Hb]; [lia |]. rewrite Hb. cbn [bind].
    apply IH. lia.
Qed.

Lemma read_value_ext : forall n buf ext pos idx val,
  (pos + n <= length buf)%nat ->
  read_value_from (buf ++ ext) pos idx n val = read_value_from buf pos idx n val.
Proof.
  induction n as [| n IH]; intros buf ext pos idx val H; cbn [read_value_from];
    [reflexivity |].
  rewrite rd_ext by lia.
  destruct (rd buf pos); cbn [bind]; try reflexivity.
  apply IH. lia.
Qed.

(** Reading back a little-endian number. *)
Lemma read_value_le_gen : forall n pre v post idx val,
  val < 2 ^ (8 * idx) -> idx + N.of_nat n <= 8 ->
  read_value_from (pre ++ le n v ++ post) (length pre) idx n val
  = Ok (val + (v mod 2 ^ (8 * N.of_nat n)) * 2 ^ (8 * idx)).
Proof.
  induction n as [| n IH]; intros pre v post idx val Hval Hidx.
  - cbn [read_value_from]. f_equal. rewrite N.mod_1_r. lia.
  - cbn [read_value_from le app].
    replace (length pre) with (length pre + 0)%nat at 1 by lia.
    rewrite rd_app. cbn [rd nth_error bind].
    assert (Hb : v mod 256 < 2 ^ 8) by (apply N.mod_lt; discriminate).
    assert (Hsh : shl64 (v mod 256) (idx * 8)
                  = N.shiftl (v mod 256) (8 * idx)).
    { unfold shl64. rewrite (N.mul_comm idx 8). apply N.mod_small.
      rewrite N.shiftl_mul_pow2.
      apply N.lt_le_trans with (2 ^ 8 * 2 ^ (8 * idx)).
      - apply N.mul_lt_mono_pos_r; [| exact Hb].
        apply N.neq_0_lt_0. apply N.pow_nonzero. discriminate.
      - rewrite <- N.pow_add_r. apply N.pow_le_mono_r; lia. }
    rewrite Hsh, lor_shift by exact Hval.
    replace (pre ++ v mod 256 :: le n (v / 256) ++ post)
      with ((pre ++ [v mod 256]) ++ le n (v / 256) ++ post)
      by (rewrite <- app_assoc; reflexivity).
    replace (S (length pre)) with (length (pre ++ [v mod 256]))
      by (rewrite app_length; cbn; lia).
    rewrite IH.
    + f_equal.
      replace (8 * N.of_nat (S n)) with (8 + 8 * N.of_nat n) by lia.
      replace (8 * (idx + 1)) with (8 + 8 * idx) by lia.
      rewrite !N.pow_add_r. rewrite N.mod_mul_r by (try discriminate;
        apply N.pow_nonzero; discriminate).
      change (2 ^ 8) with 256. ring.
    + replace (8 * (idx + 1)) with (8 + 8 * idx) by lia.
      rewrite N.pow_add_r. nia.
    + lia.
Qed.

Lemma read_value_le : forall n pre v post,
  (n <= 8)%nat -> v < 2 ^ (8 * N.of_nat n) ->
  pt_pkt_read_value (pre ++ le n v ++ post) (length pre) n = Ok v.
Proof.
  intros n pre v post Hn Hv. unfold pt_pkt_read_value.
  rewrite read_value_le_gen by (cbn; lia).
  f_equal. rewrite N.mod_small by exact Hv. cbn. lia.
Qed.

Lemma Forall_firstn : forall A (P : A -> Prop) n l,
  Forall P l -> Forall P (firstn n l).
Proof.
  intros A P n l H. rewrite <- (firstn_skipn n l) in H.
  apply Forall_app in H. tauto.
Qed.

Lemma Forall_skipn : forall A (P : A -> Prop) n l,
  Forall P l -> Forall P (skipn n l).
Proof.
  intros A P n l H. rewrite <- (firstn_skipn n l) in H.
  apply Forall_app in H. tauto.
Qed.

Lemma firstn_app_exact : forall A (a b : list A) n,
  length a = n -> firstn n (a ++ b) = a.
Proof.
  intros A a b n <-. rewrite firstn_app, firstn_all, Nat.sub_diag.
  cbn [firstn]. apply app_nil_r.
Qed.

Lemma skipn_app_ge : forall A (a b : list A) n,
  (length a <= n)%nat -> skipn n (a ++ b) = skipn (n - length a) b.
Proof.
  intros A a b n H. rewrite skipn_app, skipn_all2 by exact H. reflexivity.
Qed.

Lemma skipn_skipn : forall A n m (l : list A), skipn n (skipn m l) = skipn (n + m) l.
Proof.
  intros A n m. induction m as [| m IH]; intros l.
  - now rewrite Nat.add_0_r.
  - rewrite Nat.add_succ_r. destruct l as [| x l]; [now rewrite !skipn_nil |].
    cbn [skipn]. apply IH.
Qed.
