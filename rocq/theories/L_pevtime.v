(** Conversion between perf event time and TSC. *)
From Coq Require Import NArith ZArith Bool Lia.
From Coq Require Import ZifyBool ZifyN.
From Verif Require Import Base M_pevent S_pevent.
Open Scope N_scope.

Lemma div_split a b k : b <> 0 -> a * k / b = a / b * k + a mod b * k / b.
Proof.
  intros B.
  rewrite (N.div_mod a b B) at 1.
  replace ((b * (a / b) + a mod b) * k) with (a / b * k * b + a mod b * k) by lia.
  rewrite N.div_add_l by exact B. reflexivity.
Qed.

Lemma to_tsc_ok time c : time < 2 ^ 64 -> pc_zero c <= time ->
  32 <= pc_size c -> 0 < pc_mult c -> pc_shift c < 64 ->
  pc_mult c * 2 ^ pc_shift c <= 2 ^ 64 ->
  tsc_of_clock (pc_zero c) (pc_mult c) (pc_shift c) time < 2 ^ 64 ->
  pev_time_to_tsc time c =
    Ok (tsc_of_clock (pc_zero c) (pc_mult c) (pc_shift c) time).
Proof.
  intros T Z S M H B R. unfold pev_time_to_tsc, tsc_of_clock in *.
  destruct (N.eqb_spec time 0) as [E|NZ].
  { subst time. replace (0 - pc_zero c) with 0 by lia.
    rewrite N.mul_0_l, N.div_0_l by lia. reflexivity. }
  unfold has_time_zero. destruct (N.leb_spec 32 (pc_size c)); [|lia].
  destruct (N.eqb_spec (pc_mult c) 0); [lia|].
  destruct (N.leb_spec 64 (pc_shift c)); [lia|]. cbn [negb].
  replace (sub64 time (pc_zero c)) with (time - pc_zero c).
  2: { unfold sub64. rewrite (N.mod_small (pc_zero c)) by lia.
       replace (time + (2 ^ 64 - pc_zero c))
         with (time - pc_zero c + 1 * 2 ^ 64) by lia.
       rewrite N.mod_add by lia. rewrite N.mod_small by lia. reflexivity. }
  set (t := time - pc_zero c) in *.
  pose proof (div_split t (pc_mult c) (2 ^ pc_shift c) ltac:(lia)) as D.
  rewrite D in R |- *.
  pose proof (N.mod_upper_bound t (pc_mult c) ltac:(lia)) as U.
  assert (P : 0 < 2 ^ pc_shift c) by (apply N.neq_0_lt_0, N.pow_nonzero; lia).
  unfold shl64, add64. rewrite !N.shiftl_mul_pow2.
  rewrite (N.mod_small (t / pc_mult c * _))
    by (eapply N.le_lt_trans; [apply N.le_add_r|exact R]).
  rewrite (N.mod_small (t mod pc_mult c * _))
    by (eapply N.lt_le_trans; [apply N.mul_lt_mono_pos_r; [exact P|exact U]
                              |exact B]).
  now rewrite N.mod_small by exact R.
Qed.

Lemma from_tsc_ok tsc c : tsc < 2 ^ 64 ->
  32 <= pc_size c -> 0 < pc_mult c -> pc_shift c < 64 ->
  pc_mult c * 2 ^ pc_shift c <= 2 ^ 64 ->
  pev_time_from_tsc tsc c =
    Ok (clock_of_tsc (pc_zero c) (pc_mult c) (pc_shift c) tsc mod 2 ^ 64).
Proof.
  intros T S M H B. unfold pev_time_from_tsc, clock_of_tsc.
  unfold has_time_zero. destruct (N.leb_spec 32 (pc_size c)); [|lia].
  destruct (N.eqb_spec (pc_mult c) 0); [lia|].
  destruct (N.leb_spec 64 (pc_shift c)); [lia|]. cbn [negb].
  assert (P : 0 < 2 ^ pc_shift c) by (apply N.neq_0_lt_0, N.pow_nonzero; lia).
  assert (P' : 2 ^ pc_shift c < 2 ^ 64) by (apply N.pow_lt_mono_r; lia).
  replace (sub64 (shl64 1 (pc_shift c)) 1) with (N.ones (pc_shift c)).
  2: { unfold sub64, shl64. rewrite N.shiftl_mul_pow2, N.mul_1_l.
       rewrite (N.mod_small (2 ^ pc_shift c)) by exact P'.
       change (1 mod 2 ^ 64) with 1.
       replace (2 ^ pc_shift c + (2 ^ 64 - 1))
         with (2 ^ pc_shift c - 1 + 1 * 2 ^ 64) by lia.
       rewrite N.mod_add by lia. rewrite N.mod_small by lia.
       rewrite N.ones_equiv. lia. }
  rewrite N.land_ones, !N.shiftr_div_pow2.
  pose proof (div_split tsc (2 ^ pc_shift c) (pc_mult c) ltac:(lia)) as D.
  rewrite D.
  pose proof (N.mod_upper_bound tsc (2 ^ pc_shift c) ltac:(lia)) as U.
  unfold u64, trunc, add64.
  rewrite (N.mod_small (tsc mod 2 ^ pc_shift c * pc_mult c))
    by (eapply N.lt_le_trans; [apply N.mul_lt_mono_pos_r; [exact M|exact U]
                              |rewrite N.mul_comm; exact B]).
  rewrite N.add_mod_idemp_r by lia. rewrite N.add_mod_idemp_l by lia.
  f_equal. f_equal. lia.
Qed.

Lemma clock_mono z m s a b : a <= b -> clock_of_tsc z m s a <= clock_of_tsc z m s b.
Proof.
  intros L. unfold clock_of_tsc.
  assert (P : 2 ^ s <> 0) by (apply N.pow_nonzero; lia).
  assert (a * m / 2 ^ s <= b * m / 2 ^ s)
    by (apply N.div_le_mono; [exact P|apply N.mul_le_mono_r; exact L]).
  lia.
Qed.

Lemma tsc_mono z m s a b : 0 < m -> a <= b ->
  tsc_of_clock z m s a <= tsc_of_clock z m s b.
Proof.
  intros M L. unfold tsc_of_clock. apply N.div_le_mono; [lia|].
  apply N.mul_le_mono_r. lia.
Qed.

(** There and back loses less than one unit of the coarser clock. *)
Lemma there_and_back z m s t : 0 < m ->
  let t' := tsc_of_clock z m s (clock_of_tsc z m s t) in
  t' <= t /\ m * (t - t') < 2 ^ s + m.
Proof.
  intros M t'. unfold t', tsc_of_clock, clock_of_tsc.
  rewrite (N.add_comm z), N.add_sub.
  assert (P : 2 ^ s <> 0) by (apply N.pow_nonzero; lia).
  pose proof (N.div_mod (t * m) (2 ^ s) P) as D.
  pose proof (N.mod_upper_bound (t * m) (2 ^ s) P) as U.
  set (q := t * m / 2 ^ s) in *. set (r := t * m mod 2 ^ s) in *.
  pose proof (N.div_mod (q * 2 ^ s) m ltac:(lia)) as D'.
  pose proof (N.mod_upper_bound (q * 2 ^ s) m ltac:(lia)) as U'.
  set (v := q * 2 ^ s / m) in *. set (w := (q * 2 ^ s) mod m) in *.
  assert (v <= t) by (apply (N.mul_le_mono_pos_r v t m M); lia).
  split; [assumption|]. rewrite N.mul_sub_distr_l. lia.
Qed.

Lemma back_and_there z m s t : 0 < m -> z <= t ->
  let t' := clock_of_tsc z m s (tsc_of_clock z m s t) in
  t' <= t /\ 2 ^ s * (t - t') < 2 ^ s + m.
Proof.
  intros M Z t'. unfold t', tsc_of_clock, clock_of_tsc.
  assert (P : 2 ^ s <> 0) by (apply N.pow_nonzero; lia).
  set (d := t - z).
  pose proof (N.div_mod (d * 2 ^ s) m ltac:(lia)) as D'.
  pose proof (N.mod_upper_bound (d * 2 ^ s) m ltac:(lia)) as U'.
  set (v := d * 2 ^ s / m) in *. set (w := (d * 2 ^ s) mod m) in *.
  pose proof (N.div_mod (v * m) (2 ^ s) P) as D.
  pose proof (N.mod_upper_bound (v * m) (2 ^ s) P) as U.
  set (q := v * m / 2 ^ s) in *. set (r := (v * m) mod 2 ^ s) in *.
  assert (q <= d) by (apply (N.mul_le_mono_pos_r q d (2 ^ s)); lia).
  split; [lia|].
  replace (t - (z + q)) with (d - q) by lia. rewrite N.mul_sub_distr_l. lia.
Qed.
