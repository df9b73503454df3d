(** Lemmas for time tracking and calibration. *)

From Verif Require Import Base M_config M_time S_core S_time.
From Coq Require Import List NArith ZArith Bool Lia ZifyBool ZifyN.
Import ListNotations.
Open Scope N_scope.
Ltac Zify.zify_post_hook ::= Z.div_mod_to_equations.

(** ** No undefined behaviour *)

Lemma shl32_ok v n : n < 32 -> shl32 v n = Ok (u32 (N.shiftl v n)).
Proof. intros H. unfold shl32. destruct (N.leb_spec 32 n); [lia|reflexivity]. Qed.

Lemma delta_no_ub ctc last c : cf_mtc_freq c < 24 -> no_ub (pt_time_ctc_delta ctc last c).
Proof.
  intros H u. unfold pt_time_ctc_delta, pt_pl_mtc_bit_size.
  destruct (ctc <? last); [|discriminate].
  rewrite shl32_ok by lia. cbn [bind]. destruct (_ <? _); discriminate.
Qed.

Lemma fc_no_ub ctc c : no_ub (pt_time_ctc_fc ctc c).
Proof.
  intros u. unfold pt_time_ctc_fc, div64.
  destruct (N.eqb_spec (cf_cpuid_0x15_eax c) 0); cbn [orb]; [discriminate|].
  destruct (cf_cpuid_0x15_ebx c =? 0); discriminate.
Qed.

Lemma last_no_ub ctc last c : cf_mtc_freq c < 24 -> no_ub (mtc_last_ctc ctc last c).
Proof.
  intros H u. unfold mtc_last_ctc.
  destruct (truth _); [discriminate|]. destruct (_ <? _).
  - rewrite shl32_ok by lia. cbn [bind]. discriminate.
  - cbn [bind]. discriminate.
Qed.

Lemma adjust_no_ub cyc t c fcr : cf_mtc_freq c < 24 ->
  no_ub (pt_time_adjust_cyc cyc t c fcr).
Proof.
  intros H u. unfold pt_time_adjust_cyc.
  destruct (N.eqb_spec fcr 0); [discriminate|].
  destruct (tm_ctc t =? tm_ctc_cyc t); [discriminate|].
  pose proof (delta_no_ub (tm_ctc t) (tm_ctc_cyc t) c H) as H1.
  destruct (pt_time_ctc_delta _ _ c) as [d|e|x]; cbn [bind]; [|discriminate|exfalso; exact (H1 x eq_refl)].
  pose proof (fc_no_ub d c) as H2.
  destruct (pt_time_ctc_fc d c) as [f|e|x]; cbn [bind]; [|discriminate|exfalso; exact (H2 x eq_refl)].
  unfold div64. destruct (N.eqb_spec fcr 0); [contradiction|]. cbn [bind]. discriminate.
Qed.

Lemma time_no_ub c t o : cf_mtc_freq c < 24 -> no_ub (snd (time_update c t o)).
Proof.
  intros H u. destruct o as [tsc|ctc fc|ctc|value fcr|ratio]; cbn [time_update].
  - discriminate.
  - unfold pt_time_update_tma.
    destruct (negb _); [discriminate|]. destruct (tm_have_tma t); [discriminate|].
    destruct (tm_have_mtc t); [discriminate|]. unfold pt_pl_mtc_bit_size.
    rewrite shl32_ok by lia. discriminate.
  - unfold pt_time_update_mtc. destruct (_ && _); [discriminate|].
    rewrite shl32_ok by lia. destruct (_ && _); [discriminate|].
    match goal with |- context [match (if ?b then ?m else Ok ?l) with _ => _ end] =>
      assert (Hl : no_ub (if b then m else Ok l));
      [destruct b; [apply last_no_ub; exact H|intros x; discriminate]|];
      destruct (if b then m else Ok l) as [last|e|x]; [|discriminate|exfalso; exact (Hl x eq_refl)]
    end.
    match goal with |- context [pt_time_ctc_delta ?a ?b c] =>
      pose proof (delta_no_ub a b c H) as Hd;
      destruct (pt_time_ctc_delta a b c) as [d|e|x]; [|discriminate|exfalso; exact (Hd x eq_refl)] end.
    pose proof (fc_no_ub d c) as Hf.
    destruct (pt_time_ctc_fc d c) as [f|e|x]; [discriminate|discriminate|exfalso; exact (Hf x eq_refl)].
  - unfold pt_time_update_cyc. destruct (fcr =? 0); [discriminate|].
    match goal with |- context [match (if ?b then ?m else Ok ?l) with _ => _ end] =>
      assert (Hl : no_ub (if b then m else Ok l));
      [destruct b; [apply adjust_no_ub; exact H|intros x; discriminate]|];
      destruct (if b then m else Ok l) as [last|e|x]; [discriminate|discriminate|exfalso; exact (Hl x eq_refl)]
    end.
  - unfold pt_time_update_cbr. destruct (ratio =? 0); discriminate.
Qed.

Lemma tcal_no_ub c l o : cf_mtc_freq c < 24 -> no_ub (snd (tcal_update c l o)).
Proof.
  intros H u. destruct o as [|tsc|tsc|ratio|ratio| |ctc|value|]; cbn [tcal_update];
    try discriminate.
  - unfold pt_tcal_update_psb. destruct (er_skl168 _); discriminate.
  - unfold pt_tcal_header_tsc.
    destruct (N.eqb_spec (tl_tsc l) 0); cbn [orb]; [discriminate|].
    destruct (N.eqb_spec (tl_cyc_tsc l) 0) as [|Hc]; [discriminate|].
    destruct (tl_have_mtc _); [discriminate|].
    destruct (_ && _); [discriminate|]. destruct (fcr_overflow _); [discriminate|].
    unfold div64. destruct (N.eqb_spec (tl_cyc_tsc l) 0); [contradiction|]. discriminate.
  - unfold pt_tcal_update_cbr, pt_tcal_header_cbr.
    destruct (cf_nom_freq c =? 0); [discriminate|].
    destruct (N.eqb_spec ratio 0) as [|Hr]; [discriminate|].
    unfold div64. destruct (N.eqb_spec ratio 0); [contradiction|]. discriminate.
  - unfold pt_tcal_header_cbr.
    destruct (cf_nom_freq c =? 0); [discriminate|].
    destruct (N.eqb_spec ratio 0) as [|Hr]; [discriminate|].
    unfold div64. destruct (N.eqb_spec ratio 0); [contradiction|]. discriminate.
  - unfold pt_tcal_update_mtc. rewrite shl32_ok by lia.
    destruct (negb _); [discriminate|].
    destruct (N.eqb_spec (tl_cyc_mtc l) 0) as [|Hc]; [discriminate|].
    match goal with |- context [pt_time_ctc_delta ?a ?b c] =>
      pose proof (delta_no_ub a b c H) as Hd;
      destruct (pt_time_ctc_delta a b c) as [d|e|x]; [|discriminate|exfalso; exact (Hd x eq_refl)] end.
    pose proof (fc_no_ub d c) as Hf.
    destruct (pt_time_ctc_fc d c) as [f|e|x]; [|discriminate|exfalso; exact (Hf x eq_refl)].
    destruct (fcr_overflow f); [discriminate|].
    unfold div64. destruct (N.eqb_spec (tl_cyc_mtc l) 0); [contradiction|].
    destruct (tl_check_skl168 l); [|discriminate].
    unfold skl168_lost. rewrite shl32_ok by lia. cbn [bind].
    destruct (_ <? d); [discriminate|]. destruct (_ && _); [|discriminate].
    destruct (_ <? f); discriminate.
Qed.

(** ** TSC *)

(** Two times that differ at most in the core:bus ratio. *)
Definition same_time (a b : time) : Prop :=
  tm_tsc a = tm_tsc b /\ tm_base a = tm_base b /\ tm_fc a = tm_fc b /\ tm_ctc a = tm_ctc b /\
  tm_ctc_cyc a = tm_ctc_cyc b /\ tm_lost_mtc a = tm_lost_mtc b /\
  tm_lost_cyc a = tm_lost_cyc b /\ tm_have_tsc a = tm_have_tsc b /\
  tm_have_tma a = tm_have_tma b /\ tm_have_mtc a = tm_have_mtc b.

Ltac same := repeat split; first [reflexivity | assumption].

Lemma same_time_step c a b o : same_time a b ->
  snd (time_update c a o) = snd (time_update c b o) /\
  same_time (fst (time_update c a o)) (fst (time_update c b o)).
Proof.
  destruct a as [tsc base fc ctc cc lm lc cbr ht hc hm hmtc].
  destruct b as [tsc' base' fc' ctc' cc' lm' lc' cbr' ht' hc' hm' hmtc'].
  unfold same_time. cbn [tm_tsc tm_base tm_fc tm_ctc tm_ctc_cyc tm_lost_mtc tm_lost_cyc
    tm_have_tsc tm_have_tma tm_have_mtc].
  intros (<- & <- & <- & <- & <- & <- & <- & <- & <- & <-).
  destruct o as [v|x f|p|v r|ratio]; cbn [time_update].
  - split; [reflexivity|]. cbn. repeat split.
  - unfold pt_time_update_tma. cbn [tm_have_tsc tm_have_tma tm_have_mtc].
    destruct (negb ht); [cbn; repeat split|]. destruct hm; [cbn; repeat split|].
    destruct hmtc; [cbn; repeat split|]. destruct (shl32 _ _); cbn; repeat split.
  - unfold pt_time_update_mtc.
    cbn [tm_tsc tm_base tm_fc tm_ctc tm_ctc_cyc tm_lost_mtc tm_lost_cyc tm_cbr
      tm_have_tsc tm_have_cbr tm_have_tma tm_have_mtc].
    destruct (ht && negb hm); [cbn; repeat split|].
    destruct (shl32 p _) as [x| |]; [|cbn; repeat split|cbn; repeat split].
    destruct (negb hmtc && negb hm); [cbn; repeat split|].
    destruct (if negb hmtc then mtc_last_ctc x ctc c else Ok ctc) as [last| |];
      [|cbn; repeat split|cbn; repeat split].
    destruct (pt_time_ctc_delta x last c) as [d| |];
      [|cbn; repeat split|cbn; repeat split].
    destruct (pt_time_ctc_fc d c); cbn; repeat split.
  - unfold pt_time_update_cyc, pt_time_adjust_cyc.
    cbn [tm_tsc tm_base tm_fc tm_ctc tm_ctc_cyc tm_lost_mtc tm_lost_cyc tm_cbr
      tm_have_tsc tm_have_cbr tm_have_tma tm_have_mtc].
    destruct (r =? 0); [cbn; repeat split|].
    match goal with |- context [match ?m with Ok _ => _ | Err _ => _ | UB _ => _ end] =>
      destruct m end; cbn; repeat split.
  - unfold pt_time_update_cbr. destruct (ratio =? 0); cbn; repeat split.
Qed.

Lemma same_time_query a b : same_time a b -> pt_time_query_tsc a = pt_time_query_tsc b.
Proof.
  intros (H1 & _ & _ & _ & _ & H2 & H3 & H4 & _). unfold pt_time_query_tsc.
  rewrite H1, H2, H3, H4. reflexivity.
Qed.

Lemma same_time_answers c a b ops : same_time a b ->
  answers (time_step c) a ops = answers (time_step c) b ops.
Proof.
  revert a b. induction ops as [|o ops IH]; intros a b H; [reflexivity|].
  cbn [answers]. unfold time_step at 1 3.
  destruct (same_time_step c a b o H) as [Hr Hs].
  destruct (time_update c a o) as [a' ra], (time_update c b o) as [b' rb].
  cbn [fst snd] in *. subst. rewrite (same_time_query _ _ Hs). f_equal. apply IH. exact Hs.
Qed.

Lemma tsc_tma_same c a b v x f : cf_mtc_freq c < 24 ->
  same_time (time_run c a [OpTsc v; OpTma x f]) (time_run c b [OpTsc v; OpTma x f]).
Proof.
  intros H. unfold time_run. cbn [fold_left time_update pt_time_update_tsc fst].
  unfold pt_time_update_tma. cbn [tm_have_tsc tm_have_tma tm_have_mtc negb].
  unfold pt_pl_mtc_bit_size. rewrite shl32_ok by lia. cbn. repeat split.
Qed.

(** Without a TSC packet, there is no time. *)
Lemma have_tsc_step c t o : (forall v, o <> OpTsc v) ->
  tm_have_tsc (fst (time_update c t o)) = tm_have_tsc t.
Proof.
  intros H. destruct o as [v|x f|p|v r|ratio]; cbn [time_update].
  - exfalso. exact (H v eq_refl).
  - unfold pt_time_update_tma. destruct (negb _); [reflexivity|].
    destruct (tm_have_tma t); [reflexivity|]. destruct (tm_have_mtc t); [reflexivity|].
    destruct (shl32 _ _); reflexivity.
  - unfold pt_time_update_mtc. destruct (_ && _); [reflexivity|].
    destruct (shl32 _ _); [|reflexivity|reflexivity]. destruct (_ && _); [reflexivity|].
    match goal with |- context [match (if ?b then ?m else ?l) with Ok _ => _ | Err _ => _ | UB _ => _ end] =>
      destruct (if b then m else l) end; [|reflexivity|reflexivity].
    destruct (pt_time_ctc_delta _ _ _); [|reflexivity|reflexivity].
    destruct (pt_time_ctc_fc _ _); reflexivity.
  - unfold pt_time_update_cyc. destruct (_ =? _); [reflexivity|].
    match goal with |- context [match (if ?b then ?m else ?l) with Ok _ => _ | Err _ => _ | UB _ => _ end] =>
      destruct (if b then m else l) end; reflexivity.
  - unfold pt_time_update_cbr. destruct (_ =? _); reflexivity.
Qed.

(** ** MTC *)

(** Compute powers of two. *)
Ltac pows :=
  repeat match goal with
  | |- context [2 ^ ?n] => let v := eval vm_compute in (2 ^ n) in change (2 ^ n) with v
  | H : context [2 ^ ?n] |- _ =>
      let v := eval vm_compute in (2 ^ n) in change (2 ^ n) with v in H
  end.

(** Case analysis on a small number. *)
Ltac small n k :=
  match k with
  | 0 => exfalso; lia
  | _ => let k' := eval vm_compute in (k - 1) in
         destruct (N.eq_dec n k') as [->|]; [|small n k']
  end.

Lemma payload_ctc count f : f < 24 -> count mod 2 ^ f = 0 ->
  shl32 (count / 2 ^ f mod 256) f = Ok (count mod 2 ^ (f + 8)).
Proof.
  intros Hf Hm. rewrite shl32_ok by lia. f_equal. unfold u32, trunc.
  rewrite N.shiftl_mul_pow2. small f 24.
  all: pows; lia.
Qed.

(** The distance between two counts less than a full wrap apart. *)
Lemma delta_exact c last count :
  cf_mtc_freq c < 24 -> last <= count < last + 2 ^ (cf_mtc_freq c + 8) ->
  pt_time_ctc_delta (count mod 2 ^ (cf_mtc_freq c + 8))
                    (last mod 2 ^ (cf_mtc_freq c + 8)) c = Ok (count - last).
Proof.
  intros Hf Hc. unfold pt_time_ctc_delta, pt_pl_mtc_bit_size.
  rewrite shl32_ok by lia. rewrite N.shiftl_1_l. cbn [bind].
  unfold add32, sub32, u32, trunc. revert Hc. generalize dependent (cf_mtc_freq c).
  intros f Hf Hc. small f 24.
  all: pows.
  all: match goal with |- context [?a <? ?b] => destruct (N.ltb_spec a b) end;
    [|f_equal; lia].
  all: match goal with |- context [?a <? ?b] => destruct (N.ltb_spec a b) end;
    [exfalso; lia|f_equal; lia].
Qed.

(** The estimate for the first MTC after TMA. *)
Lemma land_field x f : N.land x (255 * 2 ^ f) = (x / 2 ^ f mod 256) * 2 ^ f.
Proof.
  change 255 with (N.ones 8). change 256 with (2 ^ 8).
  rewrite <- !N.shiftl_mul_pow2, <- N.land_ones, <- N.shiftr_div_pow2.
  apply N.bits_inj. intros n. rewrite N.land_spec.
  destruct (N.lt_ge_cases n f).
  - rewrite !N.shiftl_spec_low by lia. apply andb_false_r.
  - rewrite !N.shiftl_spec_high' by lia. rewrite N.land_spec, N.shiftr_spec'.
    replace (n - f + f) with n by lia. reflexivity.
Qed.

Lemma land_low x : N.land x 0xffff = x mod 2 ^ 16.
Proof. change 0xffff with (N.ones 16). apply N.land_ones. Qed.

Lemma land_high x : x < 2 ^ 32 -> N.land x (not32 0xffff) = x - x mod 2 ^ 16.
Proof.
  intros H. change (not32 0xffff) with (N.shiftl (N.ones 16) 16).
  rewrite <- N.land_ones.
  replace (N.land x (N.shiftl (N.ones 16) 16)) with (x / 2 ^ 16 * 2 ^ 16).
  - rewrite N.land_ones. lia.
  - rewrite <- N.shiftl_mul_pow2, <- N.shiftr_div_pow2. apply N.bits_inj. intros n.
    rewrite N.land_spec. destruct (N.lt_ge_cases n 16).
    + rewrite !N.shiftl_spec_low by lia. symmetry. apply andb_false_r.
    + rewrite !N.shiftl_spec_high' by lia. rewrite N.shiftr_spec'.
      replace (n - 16 + 16) with n by lia.
      destruct (N.lt_ge_cases n 32).
      * rewrite N.ones_spec_low by lia. symmetry. apply andb_true_r.
      * rewrite N.ones_spec_high by lia. rewrite andb_false_r.
        destruct (N.eq_dec x 0) as [->|]; [apply N.bits_0|].
        apply N.bits_above_log2, N.log2_lt_pow2; [lia|].
        eapply N.lt_le_trans; [exact H|]. apply N.pow_le_mono_r; lia.
Qed.

Lemma lor_disjoint lo hi : lo < 2 ^ 16 -> N.lor lo (hi * 2 ^ 16) = hi * 2 ^ 16 + lo.
Proof.
  intros H. rewrite N.lor_comm, <- N.shiftl_mul_pow2.
  rewrite <- N.lxor_lor, <- N.add_nocarry_lxor; try reflexivity.
  all: apply N.bits_inj; intros m; rewrite N.land_spec, N.bits_0.
  all: destruct (N.lt_ge_cases m 16);
    [rewrite N.shiftl_spec_low by lia; reflexivity|].
  all: replace (N.testbit lo m) with false; [apply andb_false_r|].
  all: symmetry; destruct (N.eq_dec lo 0) as [->|Hz]; [apply N.bits_0|].
  all: apply N.bits_above_log2, N.log2_lt_pow2; [lia|].
  all: eapply N.lt_le_trans; [exact H|]; apply N.pow_le_mono_r; lia.
Qed.

Lemma estimate_exact c last count :
  8 < cf_mtc_freq c <= 16 -> count mod 2 ^ cf_mtc_freq c = 0 ->
  last <= count < last + 2 ^ 16 ->
  mtc_last_ctc (count mod 2 ^ (cf_mtc_freq c + 8)) (last mod 2 ^ 16) c
  = Ok (last mod 2 ^ (cf_mtc_freq c + 8)).
Proof.
  intros Hf Hm Hc. unfold mtc_last_ctc, pt_pl_tma_ctc_mask, pt_pl_mtc_mask,
    pt_pl_tma_ctc_bit_size.
  assert (Hlt : last mod 2 ^ 16 < 2 ^ 16) by lia.
  assert (H32 : count mod 2 ^ (cf_mtc_freq c + 8) < 2 ^ 32).
  { eapply N.lt_le_trans; [apply N.mod_lt, N.pow_nonzero; discriminate|].
    apply N.pow_le_mono_r; lia. }
  rewrite !land_high by lia. rewrite land_low.
  rewrite N.mod_mod by discriminate.
  replace (last mod 2 ^ 16 - last mod 2 ^ 16) with 0 by lia. change (truth 0) with false.
  cbn iota. rewrite shl32_ok by lia. cbn [bind].
  rewrite N.shiftl_mul_pow2.
  assert (Hu : u32 (255 * 2 ^ cf_mtc_freq c) = 255 * 2 ^ cf_mtc_freq c).
  { unfold u32, trunc. apply N.mod_small. revert Hf. generalize (cf_mtc_freq c).
    intros f Hf. assert (H : 2 ^ f <= 2 ^ 16) by (apply N.pow_le_mono_r; lia). lia. }
  rewrite Hu, land_field. unfold sub32, u32, trunc.
  assert (Hgoal : exists hi,
    (if (count mod 2 ^ (cf_mtc_freq c + 8)) mod 2 ^ 16 <? last mod 2 ^ 16
     then Ok (((count mod 2 ^ (cf_mtc_freq c + 8)
                - (count mod 2 ^ (cf_mtc_freq c + 8)) mod 2 ^ 16 + 2 ^ 32 - 2 ^ 16)
               mod 2 ^ 32 / 2 ^ cf_mtc_freq c mod 256) * 2 ^ cf_mtc_freq c)
     else Ok (count mod 2 ^ (cf_mtc_freq c + 8)
              - (count mod 2 ^ (cf_mtc_freq c + 8)) mod 2 ^ 16)) = Ok (hi * 2 ^ 16) /\
    hi * 2 ^ 16 + last mod 2 ^ 16 = last mod 2 ^ (cf_mtc_freq c + 8)).
  { exists (last mod 2 ^ (cf_mtc_freq c + 8) / 2 ^ 16).
    clear Hu H32 Hlt. revert Hm. generalize dependent (cf_mtc_freq c). intros f Hf Hm.
    split.
    - small f 17; pows; try (exfalso; lia).
      all: match goal with |- context [?a <? ?b] => destruct (N.ltb_spec a b) end;
        f_equal; lia.
    - small f 17; pows; try (exfalso; lia); lia. }
  destruct Hgoal as (hi & -> & Hhi). cbn [bind]. rewrite lor_disjoint by exact Hlt.
  rewrite Hhi. reflexivity.
Qed.

(** The state while following the clock: the last count is [last]. *)
Definition follows (c : config) (t : time) (last base : N) : Prop :=
  tm_have_tsc t = true /\ tm_have_tma t = true /\ tm_base t = base /\ tm_lost_mtc t = 0 /\
  ((tm_have_mtc t = true /\ tm_ctc t = last mod 2 ^ (cf_mtc_freq c + 8)) \/
   (tm_have_mtc t = false /\ 8 < cf_mtc_freq c /\ tm_ctc t = last mod 2 ^ 16)).

Lemma ctc_fc_exact c d : ratio_ok c -> d < 2 ^ 32 ->
  pt_time_ctc_fc d c = Ok (d * cf_cpuid_0x15_ebx c / cf_cpuid_0x15_eax c).
Proof.
  intros [[H1 H2] [H3 H4]] Hd. unfold pt_time_ctc_fc, div64.
  destruct (N.eqb_spec (cf_cpuid_0x15_eax c) 0); [lia|].
  destruct (N.eqb_spec (cf_cpuid_0x15_ebx c) 0); [lia|]. cbn [orb].
  f_equal. unfold u64, trunc. rewrite N.mod_small; [reflexivity|].
  change (2 ^ 64) with (2 ^ 32 * 2 ^ 32). apply N.mul_lt_mono; assumption.
Qed.

Lemma follows_mtc c t last base count limit :
  ratio_ok c -> cf_mtc_freq c < 24 ->
  follows c t last base ->
  (tm_have_mtc t = true -> limit <= 2 ^ (cf_mtc_freq c + 8)) ->
  (tm_have_mtc t = false -> cf_mtc_freq c <= 16 /\ limit <= 2 ^ 16) ->
  count mod 2 ^ cf_mtc_freq c = 0 -> last <= count < last + limit ->
  exists t', pt_time_update_mtc t (count / 2 ^ cf_mtc_freq c mod 256) c = (t', Ok tt) /\
    let base' := add64 base ((count - last) * cf_cpuid_0x15_ebx c / cf_cpuid_0x15_eax c) in
    follows c t' count base' /\ tm_have_mtc t' = true /\
    pt_time_query_tsc t' = (base', 0, 0, Ok tt) /\ tm_fc t' = 0.
Proof.
  intros Hr Hf (Ht & Hm & Hb & Hl & Hctc) Hlim1 Hlim2 Hmul Hcount.
  unfold pt_time_update_mtc. rewrite Ht, Hm. cbn [negb andb].
  rewrite payload_ctc by assumption. rewrite andb_false_r.
  assert (Hlast : (if negb (tm_have_mtc t)
                   then mtc_last_ctc (count mod 2 ^ (cf_mtc_freq c + 8)) (tm_ctc t) c
                   else Ok (tm_ctc t)) = Ok (last mod 2 ^ (cf_mtc_freq c + 8))).
  { destruct Hctc as [[E1 E2]|(E1 & E2 & E3)]; rewrite E1; cbn [negb].
    - rewrite E2. reflexivity.
    - rewrite E3. destruct (Hlim2 E1) as [H1 H2].
      apply estimate_exact; [lia|exact Hmul|lia]. }
  rewrite Hlast.
  assert (Hbound : last <= count < last + 2 ^ (cf_mtc_freq c + 8)).
  { split; [lia|]. destruct (tm_have_mtc t) eqn:E.
    - specialize (Hlim1 eq_refl). lia.
    - destruct (Hlim2 eq_refl) as [H1 H2]. destruct Hctc as [[E1 _]|(_ & E2 & _)]; [discriminate|].
      assert (2 ^ 16 <= 2 ^ (cf_mtc_freq c + 8)) by (apply N.pow_le_mono_r; lia). lia. }
  rewrite delta_exact by assumption.
  assert (Hd : count - last < 2 ^ 32).
  { assert (2 ^ (cf_mtc_freq c + 8) <= 2 ^ 32) by (apply N.pow_le_mono_r; lia). lia. }
  rewrite (ctc_fc_exact c _ Hr Hd).
  eexists. split; [reflexivity|]. cbv zeta. rewrite Hb. split; [|split; [|split]].
  - unfold follows. cbn. rewrite Hl. repeat split. left. split; reflexivity.
  - reflexivity.
  - unfold pt_time_query_tsc. cbn. rewrite Hl. reflexivity.
  - reflexivity.
Qed.

Lemma follows_cyc c t last base v r : follows c t last base ->
  follows c (fst (pt_time_update_cyc t v c r)) last base /\
  tm_have_mtc (fst (pt_time_update_cyc t v c r)) = tm_have_mtc t.
Proof.
  intros (H1 & H2 & H3 & H4 & H5). unfold pt_time_update_cyc.
  destruct (r =? 0).
  - cbn. split; [|reflexivity]. repeat split; assumption.
  - match goal with |- context [match (if ?b then ?m else ?l) with Ok _ => _ | Err _ => _ | UB _ => _ end] =>
      destruct (if b then m else l) end; cbn; (split; [|reflexivity]); repeat split; assumption.
Qed.

Lemma follows_cbr c t last base r : follows c t last base ->
  follows c (fst (pt_time_update_cbr t r)) last base /\
  tm_have_mtc (fst (pt_time_update_cbr t r)) = tm_have_mtc t.
Proof.
  intros (H1 & H2 & H3 & H4 & H5). unfold pt_time_update_cbr.
  destruct (r =? 0); cbn; (split; [|reflexivity]); repeat split; assumption.
Qed.

Definition limit_ok (c : config) (t : time) (limit : N) : Prop :=
  (tm_have_mtc t = true -> limit <= 2 ^ (cf_mtc_freq c + 8)) /\
  (tm_have_mtc t = false -> cf_mtc_freq c <= 16 /\ limit <= 2 ^ 16).

Lemma elapsed_snoc c last h count :
  hw_elapsed c last (h ++ [HwMtc count])
  = hw_elapsed c last h
    + (count - fold_left (fun l o => match o with HwMtc n => n | _ => l end) h last)
      * cf_cpuid_0x15_ebx c / cf_cpuid_0x15_eax c.
Proof.
  revert last. induction h as [|o h IH]; intros last.
  - cbn [app hw_elapsed fold_left]. lia.
  - destruct o as [n|v r|r]; cbn [app hw_elapsed fold_left]; rewrite IH; lia.
Qed.

Lemma follows_run c : ratio_ok c -> cf_mtc_freq c < 24 ->
  forall h t last base limit count,
  follows c t last base -> limit_ok c t limit ->
  hw_ok c limit last (h ++ [HwMtc count]) ->
  let s := time_run c t (map (hw_packet c) (h ++ [HwMtc count])) in
  pt_time_query_tsc s
  = ((base + hw_elapsed c last (h ++ [HwMtc count])) mod 2 ^ 64, 0, 0, Ok tt) /\
  tm_base s = tm_tsc s /\ tm_fc s = 0.
Proof.
  intros Hr Hf. induction h as [|o h IH]; intros t last base limit count HF [L1 L2] Hok.
  - cbn [app map hw_packet hw_elapsed] in *. destruct Hok as (Hm & Hc & _).
    destruct (follows_mtc c t last base count limit Hr Hf HF L1 L2 Hm Hc)
      as (t' & E & HF' & _ & Hq & H0).
    unfold time_run. cbn [fold_left time_update]. rewrite E. cbn [fst]. cbv zeta. rewrite Hq.
    split; [unfold add64; rewrite N.add_0_r; reflexivity|]. split; [|exact H0].
    destruct HF' as (_ & _ & -> & _). unfold pt_time_query_tsc in Hq. injection Hq as -> _.
    reflexivity.
  - destruct o as [n|v r|r]; cbn [app map hw_packet hw_elapsed hw_ok] in *.
    + destruct Hok as (Hm & Hc & Hok).
      destruct (follows_mtc c t last base n limit Hr Hf HF L1 L2 Hm Hc)
        as (t' & E & HF' & Hh & _ & _).
      unfold time_run. cbn [fold_left time_update]. rewrite E. cbn [fst].
      change (fold_left (fun t o => fst (time_update c t o)) ?l ?a) with (time_run c a l).
      cbv zeta in HF'.
      specialize (IH t' n _ (2 ^ (cf_mtc_freq c + 8)) count HF'). cbv zeta in *.
      destruct IH as (H1 & H2 & H3); [|exact Hok|].
      2: rewrite H1; split; [|split; assumption]; unfold add64; f_equal; f_equal; f_equal;
        rewrite N.add_mod_idemp_l by discriminate; f_equal; lia.
      split; [intros _; apply N.le_refl|rewrite Hh; discriminate].
    + unfold time_run. cbn [fold_left time_update].
      change (fold_left (fun t o => fst (time_update c t o)) ?l ?a) with (time_run c a l).
      destruct (follows_cyc c t last base v r HF) as [HF' Hh].
      apply (IH _ last base limit count HF'); [|exact Hok]. unfold limit_ok. rewrite Hh.
      split; assumption.
    + unfold time_run. cbn [fold_left time_update].
      change (fold_left (fun t o => fst (time_update c t o)) ?l ?a) with (time_run c a l).
      destruct (follows_cbr c t last base r HF) as [HF' Hh].
      apply (IH _ last base limit count HF'); [|exact Hok]. unfold limit_ok. rewrite Hh.
      split; assumption.
Qed.

Lemma follows_start c t v count fc :
  cf_mtc_freq c < 24 ->
  follows c (time_run c t [OpTsc v; OpTma (count mod 2 ^ 16) fc]) count (sub64 v fc) /\
  tm_have_mtc (time_run c t [OpTsc v; OpTma (count mod 2 ^ 16) fc])
  = (cf_mtc_freq c <=? 8).
Proof.
  intros Hf. unfold time_run. cbn [fold_left time_update pt_time_update_tsc fst].
  unfold pt_time_update_tma. cbn [tm_have_tsc tm_have_tma tm_have_mtc negb].
  unfold pt_pl_mtc_bit_size, pt_pl_tma_ctc_bit_size. rewrite shl32_ok by lia.
  rewrite N.shiftl_1_l.
  assert (Hmask : sub32 (u32 (2 ^ (cf_mtc_freq c + 8))) 1 = N.ones (cf_mtc_freq c + 8)).
  { unfold sub32, u32, trunc. rewrite N.ones_equiv. generalize dependent (cf_mtc_freq c).
    intros f Hf. assert (H : 2 ^ (f + 8) <= 2 ^ 31) by (apply N.pow_le_mono_r; lia).
    assert (H0 : 0 < 2 ^ (f + 8)) by (apply N.neq_0_lt_0, N.pow_nonzero; discriminate).
    rewrite (N.mod_small (2 ^ (f + 8))) by lia.
    replace (2 ^ (f + 8) + 2 ^ 32 - 1) with (2 ^ (f + 8) - 1 + 1 * 2 ^ 32) by lia.
    rewrite N.mod_add by discriminate. rewrite N.mod_small by lia. lia. }
  rewrite Hmask, N.land_ones. cbn [tm_tsc tm_base tm_fc tm_lost_mtc tm_lost_cyc tm_cbr
    tm_have_cbr fst].
  assert (Hhave : (if cf_mtc_freq c + 8 <=? 16 then true else false) = (cf_mtc_freq c <=? 8)).
  { destruct (N.leb_spec (cf_mtc_freq c + 8) 16), (N.leb_spec (cf_mtc_freq c) 8); lia. }
  split; [|exact Hhave]. unfold follows. cbn. split; [reflexivity|]. split; [reflexivity|].
  split; [reflexivity|]. split; [reflexivity|]. rewrite Hhave.
  destruct (N.leb_spec (cf_mtc_freq c) 8); [left|right].
  - split; [reflexivity|]. generalize dependent (cf_mtc_freq c). intros f _ _ _ Hle.
    small f 9; pows; lia.
  - split; [reflexivity|]. split; [assumption|].
    generalize dependent (cf_mtc_freq c). intros f Hf _ _ Hgt.
    apply N.mod_small. assert (2 ^ 16 <= 2 ^ (f + 8)) by (apply N.pow_le_mono_r; lia).
    assert (count mod 2 ^ 16 < 2 ^ 16) by (apply N.mod_lt; discriminate). lia.
Qed.

(** ** Interpolation *)

Lemma adjust_le v t c r x : pt_time_adjust_cyc v t c r = Ok x -> x <= v.
Proof.
  unfold pt_time_adjust_cyc. destruct (r =? 0); [discriminate|].
  destruct (_ =? _); [intros [= <-]; lia|].
  destruct (pt_time_ctc_delta _ _ _) as [d| |]; cbn [bind]; try discriminate.
  destruct (pt_time_ctc_fc _ _) as [f| |]; cbn [bind]; try discriminate.
  destruct (div64 _ _) as [o| |]; cbn [bind]; try discriminate.
  intros [= <-]. unfold sub64. change (2 ^ 64) with 18446744073709551616.
  destruct (N.ltb_spec v o); lia.
Qed.

Lemma shr8 x : N.shiftr x pt_tcal_fcr_shr = x / 256.
Proof. apply N.shiftr_div_pow2. Qed.

(** While there are only CYC packets, the time is the base plus the fast counter. *)
Lemma cyc_run_le c : forall vs t fc0,
  Forall (fun p => fst p * snd p < 2 ^ 64) vs ->
  tm_have_tsc t = true -> tm_base t < 2 ^ 64 ->
  tm_fc t <= fc0 -> fc0 + cyc_time vs < 2 ^ 64 ->
  tm_tsc t = (tm_base t + tm_fc t) mod 2 ^ 64 ->
  exists e, tm_fc t <= e <= fc0 + cyc_time vs /\
    tm_tsc (time_run c t (cyc_packets vs)) = (tm_base t + e) mod 2 ^ 64 /\
    tm_have_tsc (time_run c t (cyc_packets vs)) = true.
Proof.
  induction vs as [|[v r] vs IH]; intros t fc0 HF Hh Hb Hfc Hsum Ht.
  - exists (tm_fc t). cbn. split; [lia|]. split; assumption.
  - inversion HF as [|? ? Hvr HF']; subst. cbn [fst snd] in Hvr.
    cbn [cyc_time] in *. unfold time_run, cyc_packets. cbn [map fold_left fst snd time_update].
    change (fold_left (fun t o => fst (time_update c t o)) ?l ?a) with (time_run c a l).
    change (map (fun p => OpCyc (fst p) (snd p)) vs) with (cyc_packets vs).
    unfold pt_time_update_cyc. destruct (N.eqb_spec r 0) as [->|Hr].
    + rewrite N.mul_0_r in *. change (0 / 256) with 0 in *.
      destruct (IH (fst (mk_time (tm_tsc t) (tm_base t) (tm_fc t) (tm_ctc t) (tm_ctc_cyc t) (tm_lost_mtc t)
             (add32 (tm_lost_cyc t) 1) (tm_cbr t) (tm_have_tsc t) (tm_have_cbr t)
             (tm_have_tma t) (tm_have_mtc t), Ok tt)) fc0) as (e & He & H1 & H2);
        cbn [fst tm_have_tsc tm_base tm_fc tm_tsc] in *; try assumption; try lia.
      exists e. split; [lia|]. split; assumption.
    + match goal with |- context [match (if ?b then ?m else Ok ?l) with Ok _ => _ | Err _ => _ | UB _ => _ end] =>
        assert (Hx : forall x, (if b then m else Ok l) = Ok x -> x <= v);
        [destruct b; [intros x; apply adjust_le|intros x [= <-]; lia]|];
        destruct (if b then m else Ok l) as [x|er|u] end; cbn [fst].
      * specialize (Hx x eq_refl). rewrite shr8.
        assert (Hxr : x * r <= v * r) by (apply N.mul_le_mono_r; exact Hx).
        assert (Hu : u64 (x * r) = x * r) by (apply N.mod_small; lia). rewrite Hu.
        assert (Hd : x * r / 256 <= v * r / 256) by (apply N.div_le_mono; [discriminate|exact Hxr]).
        assert (Ha : add64 (tm_fc t) (x * r / 256) = tm_fc t + x * r / 256).
        { apply N.mod_small. revert Hd Hsum Hfc. generalize (x * r / 256), (v * r / 256). lia. }
        rewrite Ha.
        match goal with |- context [time_run c ?s _] => destruct (IH s (fc0 + v * r / 256)) as (e & He & H1 & H2) end;
          cbn [tm_have_tsc tm_base tm_fc tm_tsc] in *; try assumption; try reflexivity.
        -- revert Hd Hfc. generalize (x * r / 256), (v * r / 256). lia.
        -- revert Hsum. generalize (v * r / 256). lia.
        -- exists e. split; [|split; assumption].
           revert He. generalize (x * r / 256), (v * r / 256). lia.
      * destruct (IH t (fc0 + v * r / 256)) as (e & He & H1 & H2); try assumption.
        -- revert Hfc. generalize (v * r / 256). lia.
        -- revert Hsum. generalize (v * r / 256). lia.
        -- exists e. split; [|split; assumption]. revert He. generalize (v * r / 256). lia.
      * destruct (IH t (fc0 + v * r / 256)) as (e & He & H1 & H2); try assumption.
        -- revert Hfc. generalize (v * r / 256). lia.
        -- revert Hsum. generalize (v * r / 256). lia.
        -- exists e. split; [|split; assumption]. revert He. generalize (v * r / 256). lia.
Qed.

(** If CTC did not advance since the last CYC, the cycles are all counted. *)
Lemma cyc_run_exact c : forall vs t,
  Forall (fun p => 0 < snd p /\ fst p * snd p < 2 ^ 64) vs ->
  tm_ctc t = tm_ctc_cyc t ->
  tm_tsc t = (tm_base t + tm_fc t) mod 2 ^ 64 ->
  tm_tsc (time_run c t (cyc_packets vs)) = (tm_base t + tm_fc t + cyc_time vs) mod 2 ^ 64 /\
  tm_have_tsc (time_run c t (cyc_packets vs)) = tm_have_tsc t /\
  tm_lost_mtc (time_run c t (cyc_packets vs)) = tm_lost_mtc t /\
  tm_lost_cyc (time_run c t (cyc_packets vs)) = tm_lost_cyc t.
Proof.
  induction vs as [|[v r] vs IH]; intros t HF Hctc Ht.
  - cbn. rewrite N.add_0_r. repeat split; assumption.
  - inversion HF as [|? ? [Hr Hvr] HF']; subst. cbn [fst snd] in Hr, Hvr.
    cbn [cyc_time]. unfold time_run, cyc_packets. cbn [map fold_left fst snd time_update].
    change (fold_left (fun t o => fst (time_update c t o)) ?l ?a) with (time_run c a l).
    change (map (fun p => OpCyc (fst p) (snd p)) vs) with (cyc_packets vs).
    unfold pt_time_update_cyc, pt_time_adjust_cyc.
    destruct (N.eqb_spec r 0); [lia|]. rewrite Hctc, N.eqb_refl.
    replace (if tm_fc t =? 0 then Ok v else Ok v) with (@Ok N v) by (destruct (tm_fc t =? 0); reflexivity).
    cbn [fst]. rewrite shr8.
    assert (Hu : u64 (v * r) = v * r) by (apply N.mod_small; lia). rewrite Hu.
    match goal with |- context [time_run c ?s _] => destruct (IH s) as (H1 & H2 & H3 & H4) end;
      cbn [tm_have_tsc tm_base tm_fc tm_tsc tm_ctc tm_ctc_cyc tm_lost_mtc tm_lost_cyc] in *;
      try assumption; try reflexivity.
    rewrite H1. split; [|repeat split; assumption].
    unfold add64, u64, trunc.
    generalize (v * r / 256). intros d.
    rewrite <- N.add_assoc, (N.add_comm _ (cyc_time vs)), N.add_assoc.
    rewrite N.add_mod_idemp_r by discriminate. f_equal. lia.
Qed.

(** ** Calibration *)

Definition uncalibrated (l : tcal) : Prop :=
  tl_min_fcr l = 0xffffffffffffffff /\ tl_max_fcr l = 0 /\ tl_cyc_tsc l = 0 /\ tl_cyc_mtc l = 0.

Lemma uncalibrated_run c : forall ops l, uncalibrated l ->
  (forall v, ~ In (CalCyc v) ops) ->
  (cf_nom_freq c = 0 \/ forall r, ~ In (CalCbr r) ops /\ ~ In (CalHeaderCbr r) ops) ->
  uncalibrated (tcal_run c l ops).
Proof.
  induction ops as [|o ops IH]; intros l Hl Hcyc Hcbr; [exact Hl|].
  unfold tcal_run. cbn [fold_left].
  change (fold_left (fun l o => fst (tcal_update c l o)) ?a ?b) with (tcal_run c b a).
  apply IH.
  - destruct Hl as (H1 & H2 & H3 & H4).
    destruct o as [|tsc|tsc|ratio|ratio| |ctc|value|]; cbn [tcal_update].
    + unfold pt_tcal_update_psb. destruct (er_skl168 _); repeat split; assumption.
    + repeat split; assumption.
    + unfold pt_tcal_header_tsc. rewrite H3. change (0 =? 0) with true. rewrite orb_true_r.
      repeat split; assumption.
    + unfold pt_tcal_update_cbr, pt_tcal_header_cbr.
      destruct Hcbr as [->|Hn]; [repeat split|].
      exfalso. destruct (Hn ratio) as [Hn' _]. apply Hn'. left. reflexivity.
    + unfold pt_tcal_header_cbr.
      destruct Hcbr as [->|Hn]; [repeat split; assumption|].
      exfalso. destruct (Hn ratio) as [_ Hn']. apply Hn'. left. reflexivity.
    + repeat split; assumption.
    + unfold pt_tcal_update_mtc. destruct (shl32 _ _); try (repeat split; assumption).
      destruct (negb _); [repeat split; assumption|].
      rewrite H4. change (0 =? 0) with true. cbn iota. repeat split; assumption.
    + exfalso. apply (Hcyc value). left. reflexivity.
    + repeat split; assumption.
  - intros v Hv. apply (Hcyc v). right. exact Hv.
  - destruct Hcbr as [H|H]; [left; exact H|right]. intros r. destruct (H r) as [H1 H2].
    split; intros Hin; [apply H1|apply H2]; right; exact Hin.
Qed.

Lemma set_fcr_have l fcr : pt_tcal_fcr (pt_tcal_set_fcr l fcr) = Ok fcr.
Proof.
  unfold pt_tcal_fcr, pt_tcal_have_fcr, pt_tcal_set_fcr. cbn [tl_min_fcr tl_max_fcr tl_fcr].
  destruct (N.leb_spec (if fcr <? tl_min_fcr l then fcr else tl_min_fcr l)
    (if tl_max_fcr l <? fcr then fcr else tl_max_fcr l)) as [|H]; [reflexivity|exfalso].
  destruct (N.ltb_spec fcr (tl_min_fcr l)), (N.ltb_spec (tl_max_fcr l) fcr); lia.
Qed.

Lemma fcr_overflow_small v : v < 2 ^ 56 -> fcr_overflow v = false.
Proof.
  intros H. unfold fcr_overflow, truth. apply negb_false_iff, N.eqb_eq.
  change (N.lxor (N.shiftr (N.ones 64) pt_tcal_fcr_shr) (N.ones 64)) with (N.shiftl (N.ones 8) 56).
  apply N.bits_inj. intros n. rewrite N.land_spec, N.bits_0.
  destruct (N.lt_ge_cases n 56).
  - rewrite N.shiftl_spec_low by lia. apply andb_false_r.
  - replace (N.testbit v n) with false; [reflexivity|]. symmetry.
    destruct (N.eq_dec v 0) as [->|]; [apply N.bits_0|].
    apply N.bits_above_log2, N.log2_lt_pow2; [lia|].
    eapply N.lt_le_trans; [exact H|]. apply N.pow_le_mono_r; lia.
Qed.

Lemma shl64_fcr v : v < 2 ^ 56 -> shl64 v pt_tcal_fcr_shr = v * 256.
Proof.
  intros H. unfold shl64, pt_tcal_fcr_shr. rewrite N.shiftl_mul_pow2.
  apply N.mod_small. change (2 ^ 8) with 256. lia.
Qed.

Lemma tcal_cycs c : forall vs l,
  tl_cyc_tsc l + total vs < 2 ^ 64 -> tl_cyc_mtc l + total vs < 2 ^ 64 ->
  tcal_run c l (map CalCyc vs)
  = mk_tcal (tl_fcr l) (tl_min_fcr l) (tl_max_fcr l) (tl_tsc l) (tl_cyc_tsc l + total vs)
            (tl_cyc_mtc l + total vs) (tl_ctc l) (tl_lost_mtc l) (tl_have_mtc l)
            (tl_check_skl168 l).
Proof.
  induction vs as [|v vs IH]; intros l H1 H2.
  - destruct l. cbn. rewrite !N.add_0_r. reflexivity.
  - cbn [total] in *. unfold tcal_run. cbn [map fold_left tcal_update].
    change (fold_left (fun l o => fst (tcal_update c l o)) ?a ?b) with (tcal_run c b a).
    unfold pt_tcal_update_cyc. cbn [fst].
    assert (A1 : add64 (tl_cyc_tsc l) v = tl_cyc_tsc l + v) by (apply N.mod_small; lia).
    assert (A2 : add64 (tl_cyc_mtc l) v = tl_cyc_mtc l + v) by (apply N.mod_small; lia).
    rewrite A1, A2. rewrite IH; cbn [tl_cyc_tsc tl_cyc_mtc]; [|lia|lia].
    cbn [tl_fcr tl_min_fcr tl_max_fcr tl_tsc tl_ctc tl_lost_mtc tl_have_mtc tl_check_skl168].
    f_equal; lia.
Qed.

(** ** Lost packets *)

Lemma below_bits a n : a < 2 ^ n <-> forall i, n <= i -> N.testbit a i = false.
Proof.
  split.
  - intros H i Hi. destruct (N.eq_dec a 0) as [->|Ha]; [apply N.bits_0|].
    apply N.bits_above_log2. apply N.log2_lt_pow2 in H; lia.
  - intros H. destruct (N.eq_dec a 0) as [->|Ha]; [apply N.neq_0_lt_0, N.pow_nonzero; discriminate|].
    apply N.log2_lt_pow2; [lia|]. apply N.nle_gt. intros Hn. apply H in Hn.
    rewrite N.bit_log2 in Hn by exact Ha. discriminate.
Qed.
Lemma lor_below a b n : a < 2 ^ n -> b < 2 ^ n -> N.lor a b < 2 ^ n.
Proof.
  rewrite !below_bits. intros Ha Hb i Hi. rewrite N.lor_spec, Ha, Hb by exact Hi. reflexivity.
Qed.
Lemma land_below_r a b n : b < 2 ^ n -> N.land a b < 2 ^ n.
Proof. rewrite !below_bits. intros Hb i Hi. rewrite N.land_spec, Hb, andb_false_r by exact Hi. reflexivity. Qed.
Lemma land_below_l a b n : a < 2 ^ n -> N.land a b < 2 ^ n.
Proof. rewrite N.land_comm. apply land_below_r. Qed.

Lemma shl_below v f : f < 24 -> v < 256 -> u32 (N.shiftl v f) < 2 ^ (f + 8).
Proof.
  intros Hf Hv. unfold u32, trunc. eapply N.le_lt_trans; [apply N.mod_le; discriminate|].
  rewrite N.shiftl_mul_pow2, N.pow_add_r, N.mul_comm. apply N.mul_lt_mono_pos_l; [|exact Hv].
  apply N.neq_0_lt_0, N.pow_nonzero. discriminate.
Qed.

Lemma delta_known ctc last c : cf_mtc_freq c < 24 -> ctc < 2 ^ (cf_mtc_freq c + 8) ->
  last < 2 ^ (cf_mtc_freq c + 8) -> exists d, pt_time_ctc_delta ctc last c = Ok d.
Proof.
  intros Hf Hc Hl. unfold pt_time_ctc_delta, pt_pl_mtc_bit_size.
  destruct (N.ltb_spec ctc last); [|eexists; reflexivity].
  rewrite shl32_ok by lia. cbn [bind]. rewrite N.shiftl_1_l.
  assert (Hp : 2 ^ (cf_mtc_freq c + 8) <= 2 ^ 31) by (apply N.pow_le_mono_r; lia).
  unfold add32, u32, trunc. change (2 ^ 32) with 4294967296 in *. change (2 ^ 31) with 2147483648 in Hp.
  rewrite (N.mod_small (2 ^ _)) by lia. rewrite N.mod_small by lia.
  destruct (N.ltb_spec (ctc + 2 ^ (cf_mtc_freq c + 8)) last); [lia|]. eexists; reflexivity.
Qed.

Lemma last_ctc_below ctc last c x : cf_mtc_freq c < 24 -> ctc < 2 ^ (cf_mtc_freq c + 8) ->
  last < 2 ^ (cf_mtc_freq c + 8) -> mtc_last_ctc ctc last c = Ok x -> x < 2 ^ (cf_mtc_freq c + 8).
Proof.
  intros Hf Hc Hl. unfold mtc_last_ctc. destruct (truth _); [discriminate|].
  destruct (_ <? last).
  - rewrite shl32_ok by lia. cbn [bind]. intros [= <-]. apply lor_below; [exact Hl|].
    apply land_below_r. apply (shl_below pt_pl_mtc_mask); [exact Hf|]. reflexivity.
  - cbn [bind]. intros [= <-]. apply lor_below; [exact Hl|]. apply land_below_l. exact Hc.
Qed.

Definition no_loss (c : config) (t : time) : Prop := tm_lost_mtc t = 0 /\ tm_ctc t < 2 ^ (cf_mtc_freq c + 8).

Lemma no_loss_step c t o : cf_mtc_freq c < 24 -> (forall v, o = OpMtc v -> v < 256) ->
  no_loss c t -> no_loss c (fst (time_update c t o)).
Proof.
  intros Hf Hv (H1 & H2). unfold no_loss.
  assert (H0 : 0 < 2 ^ (cf_mtc_freq c + 8)) by (apply N.neq_0_lt_0, N.pow_nonzero; discriminate).
  destruct o as [v|ctc fc|v|v r|ratio]; cbn [time_update].
  - cbn. auto.
  - unfold pt_time_update_tma. destruct (negb _); [auto|]. destruct (tm_have_tma t); [auto|].
    destruct (tm_have_mtc t); [auto|]. unfold pt_pl_mtc_bit_size. rewrite shl32_ok by lia.
    cbn [fst tm_lost_mtc tm_ctc]. split; [exact H1|]. apply land_below_r.
    rewrite N.shiftl_1_l. unfold sub32, u32, trunc.
    assert (Hp : 2 ^ (cf_mtc_freq c + 8) <= 2 ^ 31) by (apply N.pow_le_mono_r; lia).
    change (2 ^ 32) with 4294967296. change (2 ^ 31) with 2147483648 in Hp.
    rewrite (N.mod_small (2 ^ _)) by lia. lia.
  - specialize (Hv v eq_refl). pose proof (shl_below v _ Hf Hv) as Hc.
    unfold pt_time_update_mtc. destruct (_ && _); [auto|]. rewrite shl32_ok by lia.
    destruct (negb (tm_have_mtc t) && negb (tm_have_tma t)); [cbn; auto|].
    destruct (if negb (tm_have_mtc t) then _ else _) as [last|e|u] eqn:El; [|cbn; auto|cbn; auto].
    assert (Hlast : last < 2 ^ (cf_mtc_freq c + 8)).
    { destruct (negb (tm_have_mtc t)); [|injection El as <-; exact H2].
      eapply last_ctc_below; [exact Hf|exact Hc|exact H2|exact El]. }
    destruct (delta_known _ _ c Hf Hc Hlast) as (d & ->).
    destruct (pt_time_ctc_fc d c); cbn; auto.
  - unfold pt_time_update_cyc. destruct (r =? 0); [cbn; auto|].
    destruct (if tm_fc t =? 0 then _ else _); cbn; auto.
  - unfold pt_time_update_cbr. destruct (ratio =? 0); cbn; auto.
Qed.

(** The tracker after TSC and TMA. *)
Definition tracking (t : time) : Prop := tm_have_tma t = true.
Lemma tracking_step c t o : (forall v, o <> OpTsc v) -> (forall x f, o <> OpTma x f) -> cf_mtc_freq c < 24 ->
  tracking t -> tracking (fst (time_update c t o)) /\
  tm_lost_cyc (fst (time_update c t o)) =
    match o with
    | OpMtc _ => 0
    | OpCyc _ r => if r =? 0 then add32 (tm_lost_cyc t) 1 else tm_lost_cyc t
    | _ => tm_lost_cyc t
    end.
Proof.
  intros H1 H2 Hf Ht. unfold tracking in *. destruct o as [v|x f|v|v r|ratio]; cbn [time_update].
  - destruct (H1 v eq_refl).
  - destruct (H2 x f eq_refl).
  - unfold pt_time_update_mtc. rewrite Ht, !andb_false_r. rewrite shl32_ok by lia.
    destruct (if negb (tm_have_mtc t) then _ else _) as [last|e|u]; [|cbn; auto|cbn; auto].
    destruct (pt_time_ctc_delta _ last c) as [d|e|u]; [|cbn; auto|cbn; auto].
    destruct (pt_time_ctc_fc d c); cbn; auto.
  - unfold pt_time_update_cyc. destruct (r =? 0); [cbn; auto|].
    destruct (if tm_fc t =? 0 then _ else _); cbn; auto.
  - unfold pt_time_update_cbr. destruct (ratio =? 0); cbn; auto.
Qed.

Lemma tcal_cycs_tsc c : forall vs l, tl_cyc_tsc l + total vs < 2 ^ 64 ->
  let l' := tcal_run c l (map CalCyc vs) in
  tl_tsc l' = tl_tsc l /\ tl_cyc_tsc l' = tl_cyc_tsc l + total vs /\ tl_have_mtc l' = tl_have_mtc l /\
  tl_fcr l' = tl_fcr l /\ tl_min_fcr l' = tl_min_fcr l /\ tl_max_fcr l' = tl_max_fcr l.
Proof.
  induction vs as [|v vs IH]; intros l H; cbv zeta.
  - cbn. rewrite N.add_0_r. repeat split.
  - cbn [total] in H. unfold tcal_run. cbn [map fold_left tcal_update].
    change (fold_left (fun l o => fst (tcal_update c l o)) ?l ?a) with (tcal_run c a l).
    assert (E : add64 (tl_cyc_tsc l) v = tl_cyc_tsc l + v) by (apply N.mod_small; lia).
    specialize (IH (fst (pt_tcal_update_cyc l v))). cbv zeta in IH.
    unfold pt_tcal_update_cyc in *. cbn [fst tl_cyc_tsc tl_tsc tl_have_mtc tl_fcr tl_min_fcr tl_max_fcr] in *.
    rewrite E in *. destruct IH as (I1 & I2 & I3 & I4 & I5 & I6); [lia|]. cbn [total].
    repeat split; try assumption. rewrite I2. lia.
Qed.
Lemma tcal_have_mtc c : forall h l, (forall v, ~ In (CalMtc v) h) -> tl_have_mtc l = false ->
  tl_have_mtc (tcal_run c l h) = false.
Proof.
  induction h as [|o h IH]; intros l Hn Hl; [exact Hl|].
  unfold tcal_run. cbn [fold_left].
  change (fold_left (fun l o => fst (tcal_update c l o)) ?l ?a) with (tcal_run c a l).
  apply IH; [intros v Hv; apply (Hn v); right; exact Hv|].
  destruct o as [|t|t|r|r| |v|v|]; cbn [tcal_update].
  - unfold pt_tcal_update_psb. destruct (er_skl168 _); exact Hl.
  - exact Hl.
  - unfold pt_tcal_header_tsc. cbn [pt_tcal_update_tsc fst].
    destruct (_ || _); [exact Hl|]. cbn [tl_have_mtc]. rewrite Hl.
    destruct (_ && _); [reflexivity|]. destruct (fcr_overflow _); [reflexivity|].
    destruct (div64 _ _); reflexivity.
  - unfold pt_tcal_update_cbr, pt_tcal_header_cbr. destruct (_ =? 0); [reflexivity|].
    destruct (_ =? 0); [reflexivity|]. destruct (div64 _ _); reflexivity.
  - unfold pt_tcal_header_cbr. destruct (_ =? 0); [exact Hl|].
    destruct (_ =? 0); [exact Hl|]. destruct (div64 _ _); exact Hl.
  - exact Hl.
  - destruct (Hn v). left. reflexivity.
  - exact Hl.
  - reflexivity.
Qed.
