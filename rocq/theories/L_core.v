(** Lemmas for the small stateful components. *)

From Verif Require Import Base M_packet M_encoder M_bcache M_tnt M_retstack M_lastip S_core.
From Coq Require Import List NArith ZArith PeanoNat Bool Lia ZifyBool ZifyNat ZifyN.
Import ListNotations.
Open Scope N_scope.
Ltac Zify.zify_post_hook ::= Z.div_mod_to_equations.

(** Simulation: related machines give the same answers. *)
Lemma answers_sim {S1 S2 O A : Type} (step1 : S1 -> O -> S1 * A)
      (step2 : S2 -> O -> S2 * A) (R : S1 -> S2 -> Prop) (P : O -> Prop) :
  (forall s1 s2 o, R s1 s2 -> P o ->
     snd (step1 s1 o) = snd (step2 s2 o) /\ R (fst (step1 s1 o)) (fst (step2 s2 o))) ->
  forall ops s1 s2, R s1 s2 -> Forall P ops -> answers step1 s1 ops = answers step2 s2 ops.
Proof.
  intros H ops. induction ops as [|o ops IH]; intros s1 s2 HR HP; [reflexivity|].
  inversion HP as [|? ? Ho Hops]; subst. cbn [answers].
  destruct (H s1 s2 o HR Ho) as [Ha Hr].
  destruct (step1 s1 o) as [s1' a1], (step2 s2 o) as [s2' a2]. cbn [fst snd] in *.
  subst. f_equal. apply IH; assumption.
Qed.

(** ** Last IP *)

Lemma merge_low k a b : k <= 64 -> a < 2 ^ 64 ->
  N.lor (N.land a (not64 (N.ones k))) (N.land b (N.ones k))
  = a / 2 ^ k * 2 ^ k + b mod 2 ^ k.
Proof.
  intros Hk Ha.
  rewrite N.land_ones.
  replace (N.land a (not64 (N.ones k))) with (a / 2 ^ k * 2 ^ k).
  - rewrite <- N.shiftl_mul_pow2, <- N.shiftr_div_pow2.
    rewrite <- N.land_ones.
    apply N.bits_inj. intros n.
    rewrite N.lor_spec.
    rewrite N.shiftl_mul_pow2 at 2.
    replace (N.shiftr a k * 2 ^ k + N.land b (N.ones k))
      with (N.lor (N.shiftl (N.shiftr a k) k) (N.land b (N.ones k))).
    + rewrite N.lor_spec. reflexivity.
    + rewrite <- N.lxor_lor, <- N.add_nocarry_lxor, N.shiftl_mul_pow2; try reflexivity.
      * apply N.bits_inj. intros m. rewrite N.land_spec, N.bits_0, N.land_spec.
        destruct (N.lt_ge_cases m k).
        -- rewrite N.shiftl_spec_low by lia. reflexivity.
        -- rewrite N.ones_spec_high by lia. rewrite andb_false_r. apply andb_false_r.
      * apply N.bits_inj. intros m. rewrite N.land_spec, N.bits_0, N.land_spec.
        destruct (N.lt_ge_cases m k).
        -- rewrite N.shiftl_spec_low by lia. reflexivity.
        -- rewrite N.ones_spec_high by lia. rewrite andb_false_r. apply andb_false_r.
  - rewrite <- N.shiftl_mul_pow2, <- N.shiftr_div_pow2.
    apply N.bits_inj. intros m. unfold not64.
    rewrite N.land_spec, N.lxor_spec.
    destruct (N.lt_ge_cases m k).
    + rewrite N.shiftl_spec_low by lia. rewrite !N.ones_spec_low by lia.
      cbn. rewrite andb_false_r. reflexivity.
    + rewrite N.shiftl_spec_high' by lia. rewrite N.shiftr_spec'.
      replace (m - k + k) with m by lia.
      rewrite (N.ones_spec_high k) by lia.
      destruct (N.lt_ge_cases m 64).
      * rewrite N.ones_spec_low by lia. cbn. rewrite andb_true_r. reflexivity.
      * rewrite N.ones_spec_high by lia. cbn. rewrite andb_false_r.
        destruct (N.eq_dec a 0) as [->|Hz]; [apply N.bits_0|].
        apply N.bits_above_log2. apply N.log2_lt_pow2; [lia|].
        eapply N.lt_le_trans; [exact Ha|]. apply N.pow_le_mono_r; lia.
Qed.

Lemma sext48 ip : ip < 2 ^ 64 -> (ip < 2 ^ 47 \/ 2 ^ 64 - 2 ^ 47 <= ip) ->
  sext (ip mod 2 ^ 48) 48 = ip.
Proof.
  intros Hip Hc. unfold sext.
  change (shl64 1 (48 - 1)) with (2 ^ 47).
  change (shl64 (N.ones 64) 48) with 0xffff000000000000.
  assert (Hb : truth (N.land (ip mod 2 ^ 48) (2 ^ 47)) = N.testbit (ip mod 2^48) 47).
  { unfold truth. destruct (N.testbit (ip mod 2^48) 47) eqn:E.
    - replace (N.land (ip mod 2 ^ 48) (2 ^ 47)) with (2 ^ 47); [reflexivity|].
      apply N.bits_inj. intros n. rewrite N.land_spec, N.pow2_bits_eqb.
      destruct (N.eqb_spec 47 n) as [<-|]; [rewrite E; reflexivity|].
      symmetry. apply andb_false_r.
    - replace (N.land (ip mod 2 ^ 48) (2 ^ 47)) with 0; [reflexivity|].
      apply N.bits_inj. intros n. rewrite N.land_spec, N.pow2_bits_eqb, N.bits_0.
      destruct (N.eqb_spec 47 n) as [<-|]; [rewrite E; reflexivity|].
      symmetry. apply andb_false_r. }
  rewrite Hb, N.testbit_odd, N.shiftr_div_pow2.
  change (not64 0xffff000000000000) with (N.ones 48).
  rewrite N.land_ones.
  destruct Hc as [Hc|Hc].
  - replace (ip mod 2 ^ 48 / 2 ^ 47) with 0 by lia. change (N.odd 0) with false; cbn iota.
    lia.
  - assert (E : ip = 0xffff * 2 ^ 48 + ip mod 2 ^ 48) by lia.
    replace (ip mod 2 ^ 48 / 2 ^ 47) with 1 by lia. change (N.odd 1) with true; cbn iota.
    rewrite E at 2.
    assert (Hl : ip mod 2 ^ 48 < 2 ^ 48) by lia.
    generalize dependent (ip mod 2 ^ 48). intros lo _ _ Hlo.
    change 0xffff000000000000 with (N.shiftl 0xffff 48).
    rewrite <- N.shiftl_mul_pow2, N.lor_comm.
    rewrite <- N.lxor_lor, <- N.add_nocarry_lxor; try reflexivity.
    all: apply N.bits_inj; intros m; rewrite N.land_spec, N.bits_0.
    all: destruct (N.lt_ge_cases m 48);
      [rewrite N.shiftl_spec_low by lia; reflexivity|].
    all: replace (N.testbit lo m) with false; [apply andb_false_r|].
    all: symmetry; destruct (N.eq_dec lo 0) as [->|Hz]; [apply N.bits_0|].
    all: apply N.bits_above_log2, N.log2_lt_pow2; [lia|].
    all: eapply N.lt_le_trans; [exact Hlo|]; apply N.pow_le_mono_r; lia.
Qed.

Lemma update_compresses l p ip :
  li_ip l < 2 ^ 64 -> compresses (li_ip l) p ip ->
  pt_last_ip_update_ip l p = (mk_last_ip ip true false, Ok tt).
Proof.
  intros Hl (Hip & H). unfold pt_last_ip_update_ip.
  destruct H as [(E & Ep & H)|[(E & Ep & H)|[(E & Ep & H)|[(E & Ep & H)|(E & Ep)]]]];
    rewrite E, Ep; cbn -[N.pow N.land N.lor not64 N.div N.modulo sext].
  - change 0xffff with (N.ones 16). rewrite merge_low by lia.
    rewrite <- H. f_equal. f_equal. lia.
  - change 0xffffffff with (N.ones 32). rewrite merge_low by lia.
    rewrite <- H. f_equal. f_equal. lia.
  - rewrite sext48 by assumption. reflexivity.
  - change 0xffffffffffff with (N.ones 48). rewrite merge_low by lia.
    rewrite <- H. f_equal. f_equal. lia.
  - reflexivity.
Qed.

Lemma ip_history_answers last ps ans :
  ip_history last ps ans ->
  forall l, li_have_ip l = (match last with Some _ => true | None => false end) ->
       li_ip l = (match last with Some i => i | None => 0 end) -> li_ip l < 2 ^ 64 ->
       answers last_ip_step l ps = ans.
Proof.
  intros H. induction H as [last|last p ip ps ans Hc H IH|last p ps ans Hi H IH];
    intros l Hh Hv Hb; [reflexivity| |]; cbn [answers]; unfold last_ip_step at 1.
  - rewrite <- Hv in Hc. rewrite (update_compresses _ _ _ Hb Hc). cbn.
    f_equal. apply IH; cbn; try reflexivity. apply Hc.
  - unfold pt_last_ip_update_ip. rewrite Hi. cbn -[last_ip_step]. unfold pt_last_ip_query.
    cbn [li_have_ip li_suppressed li_ip]. rewrite Hh.
    f_equal; [destruct last; reflexivity|].
    apply IH; cbn; first [assumption | reflexivity].
Qed.

(** ** TNT cache *)

(** The value of a list of bits, most significant first. *)
Fixpoint bits_value (l : list bool) : N :=
  match l with
  | [] => 0
  | b :: l' => (if b then 2 ^ N.of_nat (length l') else 0) + bits_value l'
  end.

Lemma bits_value_lt l : bits_value l < 2 ^ N.of_nat (length l).
Proof.
  induction l as [|b l IH]; [cbn; lia|].
  cbn [bits_value length]. rewrite Nat2N.inj_succ, N.pow_succ_r'.
  destruct b; lia.
Qed.

Lemma bits_value_app l r :
  bits_value (l ++ r) = bits_value l * 2 ^ N.of_nat (length r) + bits_value r.
Proof.
  induction l as [|b l IH]; [cbn; lia|].
  cbn [bits_value app]. rewrite IH, app_length, Nat2N.inj_add, N.pow_add_r.
  destruct b; lia.
Qed.

Lemma payload_length tnt size : length (payload_bits tnt size) = N.to_nat size.
Proof. unfold payload_bits. rewrite map_length, rev_length, seq_length. reflexivity. Qed.

Lemma payload_value tnt size : bits_value (payload_bits tnt size) = tnt mod 2 ^ size.
Proof.
  unfold payload_bits. rewrite <- (N2Nat.id size) at 2.
  induction (N.to_nat size) as [|n IH].
  - cbn. lia.
  - rewrite seq_S, rev_app_distr. cbn [rev app map bits_value].
    rewrite IH, map_length, rev_length, seq_length. cbn [Nat.add].
    rewrite Nat2N.inj_succ, N.pow_succ_r', (N.mul_comm 2).
    rewrite N.testbit_odd, N.shiftr_div_pow2.
    rewrite N.mod_mul_r by (try apply N.pow_nonzero; lia).
    rewrite <- N.bit0_odd.
    replace ((tnt / 2 ^ N.of_nat n) mod 2) with (N.b2n (N.testbit (tnt / 2 ^ N.of_nat n) 0))
      by (apply N.bit0_mod).
    destruct (N.testbit (tnt / 2 ^ N.of_nat n) 0); cbn [N.b2n]; lia.
Qed.

(** The cache [c] holds the bits [q]. *)
Definition tnt_rep (c : tnt_cache) (q : list bool) : Prop :=
  (length q <= 64)%nat /\
  tc_index c = (match q with [] => 0 | _ :: q' => 2 ^ N.of_nat (length q') end) /\
  tc_tnt c mod 2 ^ N.of_nat (length q) = bits_value q.

Lemma shl64_pow i s : shl64 (2 ^ i) s = if i + s <? 64 then 2 ^ (i + s) else 0.
Proof.
  unfold shl64. rewrite N.shiftl_mul_pow2, <- N.pow_add_r.
  destruct (N.ltb_spec (i + s) 64).
  - unfold u64. apply N.mod_small. apply N.pow_lt_mono_r; lia.
  - unfold u64. replace (i + s) with (64 + (i + s - 64)) by lia.
    rewrite N.pow_add_r. rewrite N.mul_comm. apply N.mod_mul. discriminate.
Qed.

Lemma tnt_step_sim c q o : tnt_rep c q -> tnt_op_ok o ->
  snd (tnt_step c o) = snd (fifo_step q o) /\
  tnt_rep (fst (tnt_step c o)) (fst (fifo_step q o)).
Proof.
  intros (Hlen & Hidx & Hval) Ho. destruct o as [tnt size| |].
  - cbn [tnt_op_ok] in Ho. cbn [tnt_step fifo_step].
    rewrite app_length, payload_length. unfold pt_tnt_cache_add.
    destruct (N.eqb_spec size 0) as [->|Hs].
    { cbn [N.to_nat]. destruct (Nat.leb_spec (length q + 0) 64); [|lia].
      cbn [fst snd]. replace (payload_bits tnt 0) with (@nil bool) by reflexivity.
      rewrite app_nil_r. split; [reflexivity|]. split; [|split]; assumption. }
    destruct (N.leb_spec 64 size) as [Hc|_]; [lia|].
    set (index := if truth (tc_index c) then shl64 (tc_index c) size
                  else shl64 1 (size - 1)).
    assert (Hindex : index = if Nat.leb (length q + N.to_nat size) 64
                             then 2 ^ (N.of_nat (length q) + size - 1) else 0).
    { unfold index. rewrite Hidx. destruct q as [|b q].
      - change (truth 0) with false. cbn iota.
        change 1 with (2 ^ 0) at 1. rewrite shl64_pow. cbn [length].
        destruct (Nat.leb_spec (0 + N.to_nat size) 64); [|lia].
        destruct (N.ltb_spec (0 + (size - 1)) 64); [|lia].
        f_equal.
      - assert (Ht : truth (2 ^ N.of_nat (length q)) = true).
        { unfold truth. destruct (N.eqb_spec (2 ^ N.of_nat (length q)) 0) as [E|]; [|reflexivity].
          exfalso. revert E. apply N.pow_nonzero. discriminate. }
        rewrite Ht, shl64_pow. cbn [length] in *.
        destruct (Nat.leb_spec (S (length q) + N.to_nat size) 64),
          (N.ltb_spec (N.of_nat (length q) + size) 64); try lia.
        f_equal. lia. }
    rewrite Hindex. destruct (Nat.leb_spec (length q + N.to_nat size) 64) as [Hfit|Hfit].
    + destruct (N.eqb_spec (2 ^ (N.of_nat (length q) + size - 1)) 0) as [E|_].
      { exfalso. revert E. apply N.pow_nonzero. discriminate. }
      cbn [fst snd]. split; [reflexivity|]. split; [|split].
      * rewrite app_length, payload_length. exact Hfit.
      * cbn [tc_index]. destruct (q ++ payload_bits tnt size) as [|b l] eqn:E.
        { apply (f_equal (@length _)) in E. rewrite app_length, payload_length in E.
          cbn in E. lia. }
        apply (f_equal (@length _)) in E. rewrite app_length, payload_length in E.
        cbn [length] in E. f_equal. lia.
      * cbn [tc_tnt]. rewrite app_length, payload_length, bits_value_app, payload_length.
        rewrite N2Nat.id, payload_value, <- Hval.
        set (n := N.of_nat (length q)) in *.
        assert (Hn : n + size <= 64) by lia.
        rewrite Nat2N.inj_add, N2Nat.id. fold n.
        change (shl64 1 size) with (shl64 (2 ^ 0) size). rewrite shl64_pow.
        destruct (N.ltb_spec (0 + size) 64); [|lia]. rewrite N.add_0_l.
        replace (2 ^ size - 1) with (N.ones size)
          by (rewrite N.ones_equiv, N.sub_1_r; reflexivity).
        apply N.bits_inj. intros m.
        replace (tc_tnt c mod 2 ^ n * 2 ^ size + tnt mod 2 ^ size)
          with (N.lor (N.shiftl (N.land (tc_tnt c) (N.ones n)) size)
                      (N.land tnt (N.ones size))).
        2: { rewrite <- N.land_ones, <- N.land_ones, <- N.shiftl_mul_pow2.
             rewrite <- N.lxor_lor, <- N.add_nocarry_lxor; try reflexivity.
             all: apply N.bits_inj; intros j; rewrite !N.land_spec, N.bits_0.
             all: destruct (N.lt_ge_cases j size);
               [rewrite N.shiftl_spec_low by lia; reflexivity|].
             all: rewrite (N.ones_spec_high size) by lia;
               rewrite andb_false_r; apply andb_false_r. }
        rewrite <- N.land_ones. rewrite N.land_spec, !N.lor_spec, !N.land_spec.
        unfold shl64, u64. 
        destruct (N.lt_ge_cases m size) as [Hm|Hm].
        -- rewrite (N.shiftl_spec_low (N.land _ _)) by lia.
           rewrite N.mod_pow2_bits_low by lia.
           rewrite (N.shiftl_spec_low (tc_tnt c)) by lia.
           rewrite !N.ones_spec_low by lia. rewrite !andb_true_r. reflexivity.
        -- rewrite (N.ones_spec_high size) by lia. rewrite !andb_false_r, !orb_false_r.
           rewrite (N.shiftl_spec_high' (N.land _ _)) by lia. rewrite N.land_spec.
           destruct (N.lt_ge_cases m (n + size)).
           ++ rewrite (N.ones_spec_low (n + size)), (N.ones_spec_low n) by lia.
              rewrite !andb_true_r. rewrite N.mod_pow2_bits_low by lia.
              rewrite N.shiftl_spec_high' by lia. reflexivity.
           ++ rewrite (N.ones_spec_high (n + size)), (N.ones_spec_high n) by lia.
              rewrite !andb_false_r. reflexivity.
    + cbn [fst snd]. rewrite N.eqb_refl. cbn [fst snd].
      split; [reflexivity|]. split; [|split]; assumption.
  - cbn [tnt_step fifo_step]. unfold pt_tnt_cache_query. rewrite Hidx.
    destruct q as [|b q].
    + cbn [fst snd N.eqb]. split; [reflexivity|]. split; [|split]; assumption.
    + destruct (N.eqb_spec (2 ^ N.of_nat (length q)) 0) as [E|_].
      { exfalso. revert E. apply N.pow_nonzero. discriminate. }
      cbn [fst snd]. cbn [bits_value length] in Hval, Hlen.
      set (n := N.of_nat (length q)) in *.
      rewrite Nat2N.inj_succ in Hval. fold n in Hval.
      pose proof (bits_value_lt q) as Hlt. fold n in Hlt.
      rewrite N.pow_succ_r', (N.mul_comm 2), N.mod_mul_r in Hval
        by (try apply N.pow_nonzero; lia).
      assert (Hbit : N.testbit (tc_tnt c) n = b /\ tc_tnt c mod 2 ^ n = bits_value q).
      { rewrite N.testbit_odd, N.shiftr_div_pow2, <- N.bit0_odd.
        replace ((tc_tnt c / 2 ^ n) mod 2)
          with (N.b2n (N.testbit (tc_tnt c / 2 ^ n) 0)) in Hval
          by (apply N.bit0_mod).
        assert (Hm : tc_tnt c mod 2 ^ n < 2 ^ n)
          by (apply N.mod_lt, N.pow_nonzero; discriminate).
        destruct (N.testbit (tc_tnt c / 2 ^ n) 0), b; cbn [N.b2n] in Hval;
          split; try reflexivity; lia. }
      destruct Hbit as [Hbit Hrest]. split; [|split; [|split]].
      * f_equal. f_equal. unfold truth.
        replace (N.land (tc_tnt c) (2 ^ n)) with (if b then 2 ^ n else 0).
        -- destruct b; [|reflexivity].
           destruct (N.eqb_spec (2 ^ n) 0) as [E|]; [|reflexivity].
           exfalso. revert E. apply N.pow_nonzero. discriminate.
        -- apply N.bits_inj. intros m. rewrite N.land_spec, N.pow2_bits_eqb.
           destruct (N.eqb_spec n m) as [<-|Hnm].
           ++ rewrite Hbit. destruct b; [rewrite N.pow2_bits_true|]; reflexivity.
           ++ rewrite andb_false_r. destruct b; [|apply N.bits_0].
              rewrite N.pow2_bits_false by lia. reflexivity.
      * lia.
      * cbn [tc_index]. rewrite N.shiftr_div_pow2. change (2 ^ 1) with 2.
        unfold n. destruct q as [|b' q']; [reflexivity|].
        cbn [length]. rewrite Nat2N.inj_succ, N.pow_succ_r'. lia.
      * cbn [tc_tnt]. exact Hrest.
  - cbn [tnt_step fifo_step fst snd]. split; [|split; [|split]; assumption].
    unfold pt_tnt_cache_is_empty. rewrite Hidx. destruct q as [|b q]; [reflexivity|].
    destruct (N.eqb_spec (2 ^ N.of_nat (length q)) 0) as [E|_]; [|reflexivity].
    exfalso. revert E. apply N.pow_nonzero. discriminate.
Qed.

(** ** Return stack *)

Open Scope nat_scope.

(** Element [i] of the stack, counted from the top, is in slot [top - 1 - i]. *)
Definition slot_from_top (top i : nat) : nat := (top + 65 - 1 - i) mod 65.

Definition rs_rep (r : retstack) (l : list N) : Prop :=
  length (rs_stack r) = 65 /\ rs_top r < 65 /\ rs_bottom r < 65 /\
  length l <= 64 /\ rs_bottom r = (rs_top r + 65 - length l) mod 65 /\
  forall i, i < length l -> nth_error (rs_stack r) (slot_from_top (rs_top r) i) = nth_error l i.

Lemma set_at_length {A} (l : list A) i x : i < length l -> length (set_at l i x) = length l.
Proof.
  intros H. unfold set_at. rewrite app_length, firstn_length. cbn [length].
  rewrite skipn_length. lia.
Qed.

Lemma set_at_nth_eq {A} (l : list A) i x : i < length l -> nth_error (set_at l i x) i = Some x.
Proof.
  intros H. unfold set_at. rewrite nth_error_app2; rewrite firstn_length; [|lia].
  replace (i - Nat.min i (length l)) with 0 by lia. reflexivity.
Qed.

Lemma nth_error_skipn {A} (l : list A) n i : nth_error (skipn n l) i = nth_error l (n + i).
Proof.
  revert l. induction n as [|n IH]; intros l; [reflexivity|].
  destruct l as [|a l]; cbn [skipn Nat.add]; [destruct i; reflexivity|apply IH].
Qed.

Lemma nth_error_firstn {A} (l : list A) n i : i < n -> nth_error (firstn n l) i = nth_error l i.
Proof.
  revert l i. induction n as [|n IH]; intros l i H; [lia|].
  destruct l as [|a l]; [reflexivity|]. destruct i as [|i]; [reflexivity|].
  cbn [firstn nth_error]. apply IH. lia.
Qed.

Lemma set_at_nth_ne {A} (l : list A) i j x : i < length l -> i <> j ->
  nth_error (set_at l i x) j = nth_error l j.
Proof.
  intros H Hne. unfold set_at. destruct (Nat.lt_ge_cases j i) as [Hj|Hj].
  - rewrite nth_error_app1 by (rewrite firstn_length; lia). apply nth_error_firstn. exact Hj.
  - rewrite nth_error_app2 by (rewrite firstn_length; lia). rewrite firstn_length.
    replace (j - Nat.min i (length l)) with (S (j - i - 1)) by lia. cbn [nth_error].
    rewrite nth_error_skipn. f_equal. lia.
Qed.

Lemma rs_step_sim r l o : rs_rep r l ->
  snd (rs_step r o) = snd (lifo_step l o) /\
  rs_rep (fst (rs_step r o)) (fst (lifo_step l o)).
Proof.
  intros (Hs & Ht & Hb & Hl & Hbot & Hnth). destruct o as [ip| |].
  - cbn [rs_step lifo_step]. unfold pt_retstack_push.
    destruct (Nat.leb_spec (length (rs_stack r)) (rs_top r)) as [H|_]; [lia|].
    cbn [fst snd]. split; [reflexivity|].
    unfold pt_retstack_size.
    set (top' := if Nat.eqb (rs_top r) 64 then 0 else S (rs_top r)).
    assert (Htop' : top' = (rs_top r + 1) mod 65).
    { unfold top'. destruct (Nat.eqb_spec (rs_top r) 64) as [->|]; [reflexivity|].
      rewrite Nat.mod_small; lia. }
    unfold rs_rep. cbn [rs_stack rs_top rs_bottom].
    assert (Hlen' : length (firstn 64 (ip :: l)) = Nat.min 64 (S (length l)))
      by (rewrite firstn_length; reflexivity).
    rewrite Hlen'. rewrite set_at_length by lia.
    split; [exact Hs|]. split; [lia|].
    assert (Hfull : rs_bottom r = top' <-> length l = 64) by lia.
    split; [|split; [lia|split]].
    + destruct (Nat.eqb_spec (rs_bottom r) top');
        [destruct (Nat.eqb_spec (rs_bottom r) 64)|]; lia.
    + destruct (Nat.eqb_spec (rs_bottom r) top') as [E|E];
        [destruct (Nat.eqb_spec (rs_bottom r) 64)|]; lia.
    + intros i Hi. rewrite nth_error_firstn by lia. unfold slot_from_top.
      destruct i as [|i].
      * replace ((top' + 65 - 1 - 0) mod 65) with (rs_top r) by lia.
        rewrite set_at_nth_eq by lia. reflexivity.
      * cbn [nth_error].
        rewrite set_at_nth_ne by lia. rewrite <- Hnth by lia. unfold slot_from_top.
        f_equal. lia.
  - cbn [rs_step lifo_step]. unfold pt_retstack_pop.
    destruct l as [|ip l].
    + cbn [length] in *. destruct (Nat.eqb_spec (rs_top r) (rs_bottom r)) as [E|E]; [|lia].
      cbn [fst snd]. split; [reflexivity|]. repeat (split; [assumption|]). assumption.
    + cbn [length] in *. destruct (Nat.eqb_spec (rs_top r) (rs_bottom r)) as [E|E]; [lia|].
      unfold pt_retstack_size.
      set (top' := match rs_top r with O => 64 | S t => t end).
      assert (Htop' : top' = slot_from_top (rs_top r) 0).
      { unfold top', slot_from_top. destruct (rs_top r) as [|t]; [reflexivity|].
        lia. }
      cbn [fst snd]. split.
      * f_equal. unfold rd. rewrite Htop', Hnth by lia. reflexivity.
      * unfold rs_rep. cbn [rs_stack rs_top rs_bottom].
        assert (top' < 65) by (rewrite Htop'; unfold slot_from_top; lia).
        repeat (split; [first [assumption | lia]|]). split.
        -- rewrite Htop'. unfold slot_from_top. lia.
        -- intros i Hi. specialize (Hnth (S i)). cbn [nth_error] in Hnth.
           rewrite <- Hnth by lia. f_equal. rewrite Htop'. unfold slot_from_top. lia.
  - cbn [rs_step lifo_step fst snd]. split.
    + f_equal. unfold pt_retstack_is_empty. destruct l as [|ip l]; cbn [length] in *;
        destruct (Nat.eqb_spec (rs_top r) (rs_bottom r)); try reflexivity; lia.
    + repeat (split; [assumption|]). assumption.
Qed.

Lemma rs_rep_init stack : length stack = 65 -> rs_rep (pt_retstack_init stack) [].
Proof.
  intros H. unfold rs_rep. cbn [rs_stack rs_top rs_bottom pt_retstack_init length].
  repeat (split; [first [exact H | reflexivity | lia]|]). intros i Hi. lia.
Qed.

(** ** Block cache *)

Open Scope N_scope.

Definition bc_rep (n : N) (c : bcache) (log : list (N * bcache_entry)) : Prop :=
  N.of_nat (length c) = n /\
  forall i, i < n ->
    nth_error c (N.to_nat i)
    = Some (match newest log i with Some e => e | None => bce_zero end).

Lemma bc_step_sim n c log o : bc_rep n c log ->
  snd (bc_step c o) = snd (map_step n log o) /\
  bc_rep n (fst (bc_step c o)) (fst (map_step n log o)).
Proof.
  intros (Hlen & Hnth). destruct o as [index e|index]; cbn [bc_step map_step].
  - unfold pt_bcache_add. rewrite Hlen.
    destruct (N.leb_spec n index), (N.ltb_spec index n); try lia; cbn [fst snd].
    + split; [reflexivity|]. split; assumption.
    + split; [reflexivity|]. split.
      * rewrite set_at_length by lia. exact Hlen.
      * intros i Hi. cbn [newest]. destruct (N.eqb_spec index i) as [->|Hne].
        -- apply set_at_nth_eq. lia.
        -- rewrite set_at_nth_ne by lia. apply Hnth. exact Hi.
  - cbn [fst snd]. split; [|split; assumption]. f_equal. unfold pt_bcache_lookup.
    rewrite Hlen. destruct (N.leb_spec n index), (N.ltb_spec index n); try lia; [reflexivity|].
    rewrite Hnth by assumption. reflexivity.
Qed.

Lemma bc_rep_init n ok c : pt_bcache_alloc ok n = Some c -> bc_rep n c [].
Proof.
  unfold pt_bcache_alloc. destruct ((n =? 0) || (0xffffffff <? n)); [discriminate|].
  destruct ok; cbn [negb]; [|discriminate]. intros [= <-]. split.
  - rewrite repeat_length. lia.
  - intros i Hi. cbn [newest]. rewrite nth_error_repeat; [reflexivity|]. lia.
Qed.
