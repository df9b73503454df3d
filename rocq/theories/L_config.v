(** Lemmas for address spaces, configuration, filters, errata and processor strings. *)

From Verif Require Import Base M_config M_asid M_cpu S_config.
From Coq Require Import List NArith ZArith PeanoNat Bool Lia ZifyBool ZifyNat ZifyN.
Import ListNotations.
Open Scope N_scope.
Ltac Zify.zify_post_hook ::= Z.div_mod_to_equations.

Lemma skipn_skipn {A} a b (l : list A) : skipn a (skipn b l) = skipn (a + b) l.
Proof.
  revert l. induction b as [|b IH]; intros l; [rewrite Nat.add_0_r; reflexivity|].
  rewrite Nat.add_succ_r. destruct l as [|x l]; [rewrite !skipn_nil; reflexivity|].
  cbn [skipn]. apply IH.
Qed.

(** ** Matching *)

Lemma match_spec a b :
  pt_asid_match a b = true <->
  agree (as_cr3 a) (as_cr3 b) /\ agree (as_vmcs a) (as_vmcs b).
Proof.
  unfold pt_asid_match, agree, unspecified, pt_asid_no_cr3, pt_asid_no_vmcs.
  change (2 ^ 64 - 1) with 0xffffffffffffffff.
  repeat match goal with |- context [?x =? ?y] => destruct (N.eqb_spec x y) end;
    cbn [negb andb]; split; try reflexivity; try discriminate; try tauto; intuition.
Qed.

(** ** Structures as memory *)

Lemma le_value_fold l : le_value l = fold_right (fun b v => b + 256 * v) 0 l.
Proof. induction l as [|b l IH]; [reflexivity|]. cbn [le_value fold_right]. rewrite IH. reflexivity. Qed.

Lemma le_bytes_length n v : length (le_bytes n v) = n.
Proof. revert v. induction n as [|n IH]; intros v; [reflexivity|]. cbn. rewrite IH. reflexivity. Qed.

Lemma le_value_bytes n : forall v, v < 256 ^ N.of_nat n -> le_value (le_bytes n v) = v.
Proof.
  induction n as [|n IH]; intros v H.
  - cbn in *. lia.
  - cbn [le_bytes le_value]. rewrite Nat2N.inj_succ, N.pow_succ_r' in H.
    rewrite IH.
    + pose proof (N.div_mod v 256). lia.
    + apply N.div_lt_upper_bound; lia.
Qed.

Lemma load64_field m off v : load64 m off = Ok v <-> field m off v.
Proof.
  unfold load64, field. rewrite le_value_fold.
  destruct (Nat.ltb_spec (length m) (off + 8)).
  - split; [discriminate|lia].
  - split.
    + intros [= <-]. split; [assumption|reflexivity].
    + intros [_ ->]. reflexivity.
Qed.

Lemma store64_length m off v : (off + 8 <= length m)%nat ->
  length (store64 m off v) = length m.
Proof.
  intros H. unfold store64. rewrite !app_length, firstn_length, le_bytes_length, skipn_length.
  lia.
Qed.

Lemma load_store_same m off v : (off + 8 <= length m)%nat -> v < 2 ^ 64 ->
  load64 (store64 m off v) off = Ok v.
Proof.
  intros H Hv. unfold load64. rewrite store64_length by exact H.
  destruct (Nat.ltb_spec (length m) (off + 8)); [lia|]. f_equal.
  unfold store64. rewrite skipn_app, firstn_length.
  rewrite skipn_all2 by (rewrite firstn_length; lia).
  replace (off - Nat.min off (length m))%nat with 0%nat by lia.
  cbn [skipn app]. rewrite firstn_app, le_bytes_length.
  rewrite firstn_all2 by (rewrite le_bytes_length; lia).
  rewrite Nat.sub_diag. cbn [firstn]. rewrite app_nil_r.
  apply le_value_bytes. exact Hv.
Qed.

Lemma skipn_store64 m off v k : (off + 8 <= length m)%nat -> (off + 8 <= k)%nat ->
  skipn k (store64 m off v) = skipn k m.
Proof.
  intros H Hk. unfold store64. rewrite app_assoc, skipn_app.
  rewrite skipn_all2 by (rewrite app_length, firstn_length, le_bytes_length; lia).
  cbn [app]. rewrite app_length, firstn_length, le_bytes_length.
  rewrite skipn_skipn. f_equal. lia.
Qed.

Lemma memcpy_ok dst src n : (n <= length dst)%nat -> (n <= length src)%nat ->
  memcpy dst src n = Ok (firstn n src ++ skipn n dst).
Proof.
  intros H1 H2. unfold memcpy.
  destruct (Nat.ltb_spec (length src) n); [lia|].
  destruct (Nat.ltb_spec (length dst) n); [lia|]. reflexivity.
Qed.

Lemma skipn_overlay (src dst : list N) n off : (n <= length src)%nat ->
  skipn off (firstn n src ++ skipn n dst)
  = if Nat.leb off n then firstn (n - off) (skipn off src) ++ skipn n dst
    else skipn off dst.
Proof.
  intros H. rewrite skipn_app, firstn_length, skipn_firstn_comm.
  destruct (Nat.leb_spec off n).
  - replace (off - Nat.min n (length src))%nat with 0%nat by lia. reflexivity.
  - replace (n - off)%nat with 0%nat by lia. cbn [firstn app].
    rewrite skipn_skipn. f_equal. lia.
Qed.

(** ** Filters *)

Lemma kind_cfg f n : (n < 8)%nat -> pt_filter_addr_cfg f n = range_kind f n.
Proof.
  intros H. unfold pt_filter_addr_cfg, range_kind, pt_filter_addr_ncfg.
  change ((8 + 8) / 2)%nat with 8%nat.
  destruct (Nat.leb_spec 8 n); [lia|].
  change 0xf with (N.ones 4). rewrite N.land_ones, N.shiftr_div_pow2.
  change 16 with (2 ^ 4) at 1. rewrite <- N.pow_mul_r. reflexivity.
Qed.

Lemma range_test f n addr : (n < 8)%nat ->
  (pt_filter_addr_a f n <=? addr) && (addr <=? pt_filter_addr_b f n) = true
  <-> in_nth_range f n addr.
Proof.
  intros H. unfold pt_filter_addr_a, pt_filter_addr_b, in_nth_range, pt_filter_addr_ncfg.
  change ((8 + 8) / 2)%nat with 8%nat.
  destruct (Nat.leb_spec 8 n); [lia|].
  rewrite andb_true_iff, !N.leb_le. reflexivity.
Qed.

Lemma filter_hit_spec f addr ns : (forall n, In n ns -> (n < 8)%nat) ->
  filter_hit f addr ns = true <->
  exists n, In n ns /\ range_kind f n = 1 /\ in_nth_range f n addr.
Proof.
  induction ns as [|n ns IH]; intros Hn.
  - split; [discriminate|intros (n & [] & _)].
  - cbn [filter_hit]. rewrite kind_cfg by (apply Hn; left; reflexivity).
    assert (IH' := IH (fun m Hm => Hn m (or_intror Hm))). clear IH.
    assert (H8 : (n < 8)%nat) by (apply Hn; left; reflexivity).
    unfold pt_addr_cfg_filter. destruct (N.eqb_spec (range_kind f n) 1) as [E|E]; cbn [negb].
    + pose proof (range_test f n addr H8) as Hr.
      destruct ((pt_filter_addr_a f n <=? addr) && (addr <=? pt_filter_addr_b f n)).
      * split; [intros _|reflexivity]. exists n. split; [left; reflexivity|].
        split; [exact E|]. apply Hr. reflexivity.
      * rewrite IH'. split.
        -- intros (m & Hm & H). exists m. split; [right; exact Hm|exact H].
        -- intros (m & [<-|Hm] & Hk & Hi); [|exists m; auto].
           exfalso. apply Hr in Hi. discriminate.
    + rewrite IH'. split.
      * intros (m & Hm & H). exists m. split; [right; exact Hm|exact H].
      * intros (m & [<-|Hm] & Hk & Hi); [contradiction|exists m; auto].
Qed.

Lemma stop_hit_spec f addr ns : (forall n, In n ns -> (n < 8)%nat) ->
  stop_hit f addr ns = true <->
  exists n, In n ns /\ range_kind f n = 2 /\ in_nth_range f n addr.
Proof.
  induction ns as [|n ns IH]; intros Hn.
  - split; [discriminate|intros (n & [] & _)].
  - cbn [stop_hit]. rewrite kind_cfg by (apply Hn; left; reflexivity).
    assert (IH' := IH (fun m Hm => Hn m (or_intror Hm))). clear IH.
    assert (H8 : (n < 8)%nat) by (apply Hn; left; reflexivity).
    unfold pt_addr_cfg_stop. destruct (N.eqb_spec (range_kind f n) 2) as [E|E]; cbn [negb].
    + pose proof (range_test f n addr H8) as Hr.
      destruct ((pt_filter_addr_a f n <=? addr) && (addr <=? pt_filter_addr_b f n)).
      * split; [intros _|reflexivity]. exists n. split; [left; reflexivity|].
        split; [exact E|]. apply Hr. reflexivity.
      * rewrite IH'. split.
        -- intros (m & Hm & H). exists m. split; [right; exact Hm|exact H].
        -- intros (m & [<-|Hm] & Hk & Hi); [|exists m; auto].
           exfalso. apply Hr in Hi. discriminate.
    + rewrite IH'. split.
      * intros (m & Hm & H). exists m. split; [right; exact Hm|exact H].
      * intros (m & [<-|Hm] & Hk & Hi); [contradiction|exists m; auto].
Qed.

Lemma filter_any_spec f ns : (forall n, In n ns -> (n < 8)%nat) ->
  filter_any f ns = true <-> exists n, In n ns /\ range_kind f n = 1.
Proof.
  induction ns as [|n ns IH]; intros Hn.
  - split; [discriminate|intros (n & [] & _)].
  - cbn [filter_any]. rewrite kind_cfg by (apply Hn; left; reflexivity).
    assert (IH' := IH (fun m Hm => Hn m (or_intror Hm))). clear IH.
    unfold pt_addr_cfg_filter. destruct (N.eqb_spec (range_kind f n) 1) as [E|E].
    + split; [intros _|reflexivity]. exists n. split; [left; reflexivity|exact E].
    + rewrite IH'. split.
      * intros (m & Hm & H). exists m. split; [right; exact Hm|exact H].
      * intros (m & [<-|Hm] & Hk); [contradiction|exists m; auto].
Qed.

Lemma seq8 n : In n (seq 0 pt_filter_addr_ncfg) <-> (n < 8)%nat.
Proof. rewrite in_seq. change pt_filter_addr_ncfg with 8%nat. lia. Qed.

Lemma filter_spec f addr : pt_filter_addr_check f addr = true <-> traced 8 f addr.
Proof.
  unfold pt_filter_addr_check, pt_filter_check_cfg_stop, pt_filter_check_cfg_filter, traced.
  assert (Hseq : forall n, In n (seq 0 pt_filter_addr_ncfg) -> (n < 8)%nat)
    by (intros n; apply seq8).
  pose proof (stop_hit_spec f addr _ Hseq) as Hs.
  pose proof (filter_hit_spec f addr _ Hseq) as Hf.
  pose proof (filter_any_spec f _ Hseq) as Ha.
  setoid_rewrite seq8 in Hs. setoid_rewrite seq8 in Hf. setoid_rewrite seq8 in Ha.
  destruct (stop_hit f addr _); cbn [negb].
  - split; [discriminate|]. intros [Hn _]. exfalso.
    destruct (proj1 Hs eq_refl) as (n & Hlt & Hk & Hi). exact (Hn n Hlt Hk Hi).
  - assert (Hno : forall n, (n < 8)%nat -> range_kind f n = 2 -> ~ in_nth_range f n addr).
    { intros n Hlt Hk Hi. assert (false = true) by (apply Hs; exists n; auto). discriminate. }
    destruct (filter_hit f addr _).
    + split; [intros _|reflexivity]. split; [exact Hno|]. right. apply Hf. reflexivity.
    + destruct (filter_any f _).
      * split; [discriminate|]. intros [_ [Hn|He]]; exfalso.
        -- destruct (proj1 Ha eq_refl) as (n & Hlt & Hk). exact (Hn n Hlt Hk).
        -- apply Hf in He. discriminate.
      * split; [intros _|reflexivity]. split; [exact Hno|]. left. intros n Hlt Hk.
        assert (false = true) by (apply Ha; exists n; auto). discriminate.
Qed.

Lemma kind_small f n : af_addr_cfg f < 2 ^ 16 -> (4 <= n)%nat -> range_kind f n = 0.
Proof.
  intros H Hn. unfold range_kind.
  rewrite N.div_small; [reflexivity|].
  eapply N.lt_le_trans; [exact H|].
  change (2 ^ 16) with (16 ^ 4). apply N.pow_le_mono_r; lia.
Qed.

Lemma traced_four f addr : af_addr_cfg f < 2 ^ 16 -> (traced 8 f addr <-> traced 4 f addr).
Proof.
  intros H. unfold traced. split; intros [H1 H2]; split.
  - intros n Hn. apply H1. lia.
  - destruct H2 as [H2|(n & Hn & Hk & Hi)].
    + left. intros n Hn. apply H2. lia.
    + right. exists n. split; [|auto]. destruct (Nat.lt_ge_cases n 4); [assumption|].
      rewrite kind_small in Hk by assumption. discriminate.
  - intros n Hn Hk. apply H1; [|exact Hk]. destruct (Nat.lt_ge_cases n 4); [assumption|].
    rewrite kind_small in Hk by assumption. discriminate.
  - destruct H2 as [H2|(n & Hn & Hk & Hi)].
    + left. intros n Hn Hk. destruct (Nat.lt_ge_cases n 4); [exact (H2 n H0 Hk)|].
      rewrite kind_small in Hk by assumption. discriminate.
    + right. exists n. split; [lia|auto].
Qed.

(** ** Errata *)

Lemma is_one_of_in n l : is_one_of n l = true <-> In n l.
Proof.
  unfold is_one_of. rewrite existsb_exists. split.
  - intros (x & Hx & E). apply N.eqb_eq in E. subst. exact Hx.
  - intros H. exists n. split; [exact H|apply N.eqb_refl].
Qed.

(** ** Processor strings *)

Lemma digit_in_decimal base c : 48 <= c <= 57 -> c - 48 < base ->
  digit_in base c = Some (c - 48).
Proof.
  intros H Hb. unfold digit_in, digit_value.
  destruct (N.leb_spec 48 c); [|lia]. destruct (N.leb_spec c 57); [|lia]. cbn [andb].
  destruct (N.ltb_spec (c - 48) base); [reflexivity|lia].
Qed.

Definition ends_number (rest : list N) : Prop := rest = [] \/ exists r, rest = 47 :: r.

Lemma read_digits_decimal ds rest : Forall (fun c => 48 <= c <= 57) ds ->
  ends_number rest ->
  forall acc some, (some = true \/ ds <> []) ->
  read_digits 10 acc some (ds ++ rest)
  = Some (fold_left (fun v c => 10 * v + (c - 48)) ds acc, rest).
Proof.
  intros Hd Hr. induction Hd as [|c ds Hc Hd IH]; intros acc some Hs.
  - destruct Hs as [->|Hs]; [|contradiction]. cbn [app fold_left].
    destruct Hr as [->|(r & ->)]; reflexivity.
  - cbn [app read_digits fold_left]. rewrite digit_in_decimal by lia.
    rewrite IH by (left; reflexivity). f_equal. f_equal. f_equal. lia.
Qed.

Lemma strtol_decimal ds n rest : decimal ds n -> ends_number rest ->
  strtol (ds ++ rest) = (Z.min LONG_MAX (Z.of_N n), rest, true).
Proof.
  intros (Hne & Hd & Hz & Hn) Hr. unfold strtol.
  assert (E : strtol0 (ds ++ rest) = Some (Z.min LONG_MAX (Z.of_N n), rest)).
  { unfold strtol0. destruct ds as [|c ds]; [contradiction|].
    assert (Hc : 48 <= c <= 57) by (inversion Hd; assumption).
    assert (Hsk : skip_space ((c :: ds) ++ rest) = (c :: ds) ++ rest).
    { cbn [app skip_space]. unfold isspace.
      replace (((9 <=? c) && (c <=? 13)) || (c =? 32)) with false by lia. reflexivity. }
    rewrite Hsk. cbn [app]. replace (c =? 45) with false by lia.
    replace (c =? 43) with false by lia.
    assert (Hmax : Z.max LONG_MIN (Z.min LONG_MAX (Z.of_N n)) = Z.min LONG_MAX (Z.of_N n))
      by (unfold LONG_MIN, LONG_MAX; lia).
    destruct Hz as [Hz|Hz].
    - injection Hz as -> ->. cbn in Hn. subst n. cbn [app].
      destruct Hr as [->|(r & ->)]; [reflexivity|]. destruct r as [|h r]; reflexivity.
    - cbn [hd] in Hz. assert (E48 : (c =? 48) = false) by lia. rewrite E48. cbn [andb].
      pose proof (read_digits_decimal (c :: ds) rest Hd Hr 0 false
                    (or_intror Hne)) as Hrd. cbn [app] in Hrd.
      rewrite <- Hn in Hrd.
      destruct (ds ++ rest) as [|x [|h r]]; rewrite Hrd; rewrite Hmax; reflexivity. }
  rewrite E. reflexivity.
Qed.

Lemma digit_in_base base c v : digit c v -> v < base -> digit_in base c = Some v.
Proof.
  intros D B. unfold digit_in, digit_value.
  destruct D as [[D ->]|[[D ->]|[D ->]]].
  - replace ((48 <=? c) && (c <=? 57)) with true by lia.
    destruct (N.ltb_spec (c - 48) base); [reflexivity|lia].
  - replace ((48 <=? c) && (c <=? 57)) with false by lia.
    replace ((97 <=? c) && (c <=? 122)) with true by lia.
    destruct (N.ltb_spec (c - 97 + 10) base); [reflexivity|lia].
  - replace ((48 <=? c) && (c <=? 57)) with false by lia.
    replace ((97 <=? c) && (c <=? 122)) with false by lia.
    replace ((65 <=? c) && (c <=? 90)) with true by lia.
    destruct (N.ltb_spec (c - 65 + 10) base); [reflexivity|lia].
Qed.

Lemma read_digits_base base ds vs rest :
  Forall2 (fun c v => digit c v /\ v < base) ds vs -> ends_number rest ->
  forall acc some, (some = true \/ ds <> []) ->
  read_digits base acc some (ds ++ rest)
  = Some (fold_left (fun a v => base * a + v) vs acc, rest).
Proof.
  intros Hd Hr. induction Hd as [|c v ds vs [Hc Hb] Hd IH]; intros acc some Hs.
  - destruct Hs as [Hs|Hs]; [subst some|contradiction]. cbn [app fold_left].
    destruct Hr as [Hr|(r & Hr)]; subst rest; reflexivity.
  - cbn [app read_digits fold_left]. rewrite (digit_in_base base c v) by assumption.
    rewrite IH by (left; reflexivity). f_equal. f_equal. f_equal. lia.
Qed.

Lemma strtol_numeral ds n rest : numeral ds n -> ends_number rest ->
  strtol (ds ++ rest) = (Z.min LONG_MAX (Z.of_N n), rest, true).
Proof.
  assert (Hmax : Z.max LONG_MIN (Z.min LONG_MAX (Z.of_N n)) = Z.min LONG_MAX (Z.of_N n))
    by (unfold LONG_MIN, LONG_MAX; lia).
  intros [D|[(t & -> & Ht & vs & Hd & Hn)|(x & t & -> & Hx & Ht & vs & Hd & Hn)]] Hr.
  - now apply strtol_decimal.
  - assert (R : read_digits 8 0 false (48 :: t ++ rest) = Some (n, rest)).
    { pose proof (read_digits_base 8 t vs rest Hd Hr 0 true (or_introl eq_refl)) as Q.
      rewrite <- Hn in Q. cbn [read_digits].
      replace (digit_in 8 48) with (Some 0) by reflexivity. exact Q. }
    assert (X : match t ++ rest with
                | x :: _ :: _ => ((x =? 120) || (x =? 88)) = false
                | _ => True end).
    { destruct Hd as [|c v t vs [Hc Hb] Hd]; [contradiction|]. cbn [app].
      destruct (t ++ rest); [exact I|].
      unfold digit in Hc. lia. }
    unfold strtol.
    replace (strtol0 ((48 :: t) ++ rest))
      with (Some (Z.min LONG_MAX (Z.of_N n), rest)); [reflexivity|].
    symmetry. unfold strtol0. cbn [app].
    change (skip_space (48 :: t ++ rest)) with (48 :: t ++ rest).
    cbv beta iota zeta. change (48 =? 45) with false. change (48 =? 43) with false.
    cbv beta iota zeta. change (48 =? 48) with true.
    destruct (t ++ rest) as [|x [|h r]]; cbv beta iota zeta;
      [rewrite R, Hmax; reflexivity|rewrite R, Hmax; reflexivity|].
    rewrite X. cbn [andb]. rewrite R, Hmax. reflexivity.
  - unfold strtol.
    replace (strtol0 ((48 :: x :: t) ++ rest))
      with (Some (Z.min LONG_MAX (Z.of_N n), rest)); [reflexivity|].
    symmetry. unfold strtol0. cbn [app].
    change (skip_space (48 :: x :: t ++ rest)) with (48 :: x :: t ++ rest).
    cbv beta iota zeta. change (48 =? 45) with false. change (48 =? 43) with false.
    cbv beta iota zeta. change (48 =? 48) with true.
    pose proof (read_digits_base 16 t vs rest Hd Hr 0 false (or_intror Ht)) as Q.
    rewrite <- Hn in Q.
    destruct Hd as [|c v t vs [Hc Hb] Hd]; [contradiction|]. cbn [app] in *.
    replace ((x =? 120) || (x =? 88)) with true by lia.
    rewrite (digit_in_base 16 c v) by assumption. cbn [andb].
    rewrite Q, Hmax. reflexivity.
Qed.
