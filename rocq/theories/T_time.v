(** Theorems about time tracking (C19, C20, C21, C41) and calibration (C21, C40). *)

From Verif Require Import Base M_config M_time S_core S_time L_time.
From Coq Require Import List NArith ZArith Bool Lia ZifyBool ZifyN.
Import ListNotations.
Open Scope N_scope.
Ltac Zify.zify_post_hook ::= Z.div_mod_to_equations.

(** A clock ratio of [ebx]/[eax]. *)
Definition clock (eax ebx freq nom : N) : config :=
  mk_config None no_errata eax ebx freq nom false false no_filter.

Lemma sub64_small a b : b < 2 ^ 64 -> sub64 a b = (a + 2 ^ 64 - b) mod 2 ^ 64.
Proof. intros H. unfold sub64. f_equal. rewrite N.mod_small by exact H. lia. Qed.

(** ** C19 *)

(** After TSC, the time is that of the TSC packet, whatever came before. *)
Theorem C19_tsc_is_time c t h v :
  pt_time_query_tsc (time_run c t (h ++ [OpTsc v])) = (v, 0, 0, Ok tt).
Proof. unfold time_run. rewrite fold_left_app. reflexivity. Qed.

(** Without TSC, there is no time; the query still gives the estimate. *)
Theorem C19_no_tsc c ops : (forall v, ~ In (OpTsc v) ops) ->
  snd (pt_time_query_tsc (time_run c pt_time_init ops)) = Err pte_no_time.
Proof.
  intros H.
  assert (Hg : forall ops t, (forall v, ~ In (OpTsc v) ops) ->
    tm_have_tsc (time_run c t ops) = tm_have_tsc t).
  { clear. induction ops as [|o ops IH]; intros t H; [reflexivity|].
    unfold time_run. cbn [fold_left].
    change (fold_left (fun t o => fst (time_update c t o)) ?l ?a) with (time_run c a l).
    rewrite IH; [apply have_tsc_step|].
    - intros v ->. apply (H v). left. reflexivity.
    - intros v Hv. apply (H v). right. exact Hv. }
  unfold pt_time_query_tsc. cbn [snd]. rewrite Hg by exact H. reflexivity.
Qed.

Theorem C19_tsc_gives_time c t ops v : In (OpTsc v) ops ->
  snd (pt_time_query_tsc (time_run c t ops)) = Ok tt.
Proof.
  intros H. apply in_split in H. destruct H as (h1 & h2 & ->).
  unfold time_run. rewrite fold_left_app. cbn [fold_left time_update pt_time_update_tsc fst].
  assert (Hg : forall ops t, tm_have_tsc t = true -> tm_have_tsc (time_run c t ops) = true).
  { clear. induction ops as [|o ops IH]; intros t H; [exact H|].
    unfold time_run. cbn [fold_left].
    change (fold_left (fun t o => fst (time_update c t o)) ?l ?a) with (time_run c a l).
    apply IH. destruct o as [v|x f|p|v r|ratio]; try reflexivity;
      rewrite have_tsc_step; try exact H; discriminate. }
  change (fold_left (fun t o => fst (time_update c t o)) ?l ?a) with (time_run c a l).
  unfold pt_time_query_tsc. cbn [snd]. rewrite Hg by reflexivity. reflexivity.
Qed.

(** After TSC and TMA, all answers are independent of the past. *)
Theorem C19_past_irrelevant c t1 t2 v ctc fc ops :
  cf_mtc_freq c < 24 ->
  answers (time_step c) (time_run c t1 [OpTsc v; OpTma ctc fc]) ops
  = answers (time_step c) (time_run c t2 [OpTsc v; OpTma ctc fc]) ops.
Proof. intros H. apply same_time_answers, tsc_tma_same. exact H. Qed.

(** TSC alone does not separate the future from the past: the last CTC value that was
    used for CYC is kept, and the first CYC packet is corrected by the difference. *)
Theorem C19_tsc_alone_refuted :
  ~ forall c h v ops, cf_mtc_freq c < 24 ->
    answers (time_step c) (time_run c pt_time_init (h ++ [OpTsc v])) ops
    = answers (time_step c) (time_run c pt_time_init [OpTsc v]) ops.
Proof.
  intros H. specialize (H (clock 1 1 0 0) [OpMtc 5] 1000 [OpCyc 100000 256] eq_refl).
  vm_compute in H. discriminate.
Qed.

(** The number of CYC packets that could not be used is reported. *)
Theorem C19_lost_cyc c t v ctc fc h : cf_mtc_freq c < 24 ->
  snd (fst (pt_time_query_tsc (time_run c t (OpTsc v :: OpTma ctc fc :: map (hw_packet c) h))))
  = lost_cycs 0 h mod 2 ^ 32.
Proof.
  intros Hf. unfold time_run. cbn [fold_left time_update pt_time_update_tsc fst].
  unfold pt_time_update_tma. cbn [tm_have_tsc tm_have_tma tm_have_mtc negb]. unfold pt_pl_mtc_bit_size.
  rewrite shl32_ok by lia.
  change (fold_left (fun t o => fst (time_update c t o)) ?l ?a) with (time_run c a l).
  assert (G : forall h t n, tracking t -> tm_lost_cyc t = n mod 2 ^ 32 ->
    tm_lost_cyc (time_run c t (map (hw_packet c) h)) = lost_cycs n h mod 2 ^ 32).
  { clear -Hf. induction h as [|o h IH]; intros t n Ht Hn; [exact Hn|].
    unfold time_run. cbn [map fold_left].
    change (fold_left (fun t o => fst (time_update c t o)) ?l ?a) with (time_run c a l).
    assert (S : tracking (fst (time_update c t (hw_packet c o))) /\ _) by
      (apply tracking_step; [destruct o; discriminate|destruct o; discriminate|exact Hf|exact Ht]).
    destruct S as (S1 & S2). destruct o as [count|v r|r]; cbn [hw_packet lost_cycs] in *.
    - apply IH; [exact S1|]. rewrite S2. reflexivity.
    - apply IH; [exact S1|]. rewrite S2. destruct (r =? 0); [|exact Hn].
      unfold add32, u32, trunc. rewrite Hn. apply N.add_mod_idemp_l. discriminate.
    - apply IH; [exact S1|]. rewrite S2. exact Hn. }
  cbn [fst]. apply G; reflexivity.
Qed.

(** The number of lost MTC packets, on the other hand, is always zero: of two counts
    the difference can always be formed. *)
Theorem C19_lost_mtc c ops : cf_mtc_freq c < 24 -> (forall v, In (OpMtc v) ops -> v < 256) ->
  snd (fst (fst (pt_time_query_tsc (time_run c pt_time_init ops)))) = 0.
Proof.
  intros Hf Hv.
  assert (G : forall ops t, (forall v, In (OpMtc v) ops -> v < 256) -> no_loss c t ->
    no_loss c (time_run c t ops)).
  { clear -Hf. induction ops as [|o ops IH]; intros t Hv Ht; [exact Ht|].
    unfold time_run. cbn [fold_left].
    change (fold_left (fun t o => fst (time_update c t o)) ?l ?a) with (time_run c a l).
    apply IH; [intros v Hi; apply Hv; right; exact Hi|].
    apply no_loss_step; [exact Hf| |exact Ht]. intros v ->. apply Hv. left. reflexivity. }
  apply (G ops pt_time_init Hv). split; [reflexivity|].
  apply N.neq_0_lt_0, N.pow_nonzero. discriminate.
Qed.
Example C19_lost_ex : pt_time_query_tsc (time_run (clock 1 1 3 0) pt_time_init
  [OpTsc 5000; OpTma 3 0; OpCyc 7 0; OpMtc 1; OpCyc 8 0; OpCyc 9 0; OpMtc 0; OpCyc 1 0]) =
  (7045, 0, 1, Ok tt).
Proof. vm_compute. reflexivity. Qed.

Print Assumptions C19_lost_cyc.
Print Assumptions C19_lost_mtc.
Print Assumptions C19_tsc_is_time.
Print Assumptions C19_no_tsc.
Print Assumptions C19_tsc_gives_time.
Print Assumptions C19_past_irrelevant.
Print Assumptions C19_tsc_alone_refuted.

Example C19_no_tsc_ex :
  pt_time_query_tsc (time_run (clock 1 2 3 0) pt_time_init [OpMtc 3; OpMtc 5; OpCyc 42 256])
  = (42, 0, 0, Err pte_no_time).
Proof. reflexivity. Qed.
Example C19_past_ex :
  answers (time_step (clock 1 2 3 0))
    (time_run (clock 1 2 3 0) pt_time_init [OpMtc 9; OpCyc 3 256; OpTsc 5000; OpTma 0x10 0])
    [OpMtc 3; OpCyc 7 256]
  = [(Ok tt, (5016, 0, 0, Ok tt)); (Ok tt, (5016, 0, 0, Ok tt))].
Proof. reflexivity. Qed.

(** ** C20 *)

(** The time after an MTC packet is exact if the hardware never lets 256 MTC periods
    pass without an MTC packet and, for frequencies above 8 where TMA does not cover
    all bits of MTC, the first MTC comes within 2^16 ticks of TMA. *)
Theorem C20_mtc_time c t v fc c0 h n :
  ratio_ok c -> cf_mtc_freq c <= 16 -> v < 2 ^ 64 -> fc < 2 ^ 64 ->
  hw_ok c (if cf_mtc_freq c <=? 8 then 2 ^ (cf_mtc_freq c + 8) else 2 ^ 16) c0
        (h ++ [HwMtc n]) ->
  pt_time_query_tsc
    (time_run c t (OpTsc v :: OpTma (c0 mod 2 ^ 16) fc :: map (hw_packet c) (h ++ [HwMtc n])))
  = ((v + 2 ^ 64 - fc + hw_elapsed c c0 (h ++ [HwMtc n])) mod 2 ^ 64, 0, 0, Ok tt).
Proof.
  intros Hr Hf Hv Hfc Hok.
  destruct (follows_start c t v c0 fc) as [HF Hh]; [lia|].
  change (OpTsc v :: OpTma (c0 mod 2 ^ 16) fc :: map (hw_packet c) (h ++ [HwMtc n]))
    with ([OpTsc v; OpTma (c0 mod 2 ^ 16) fc] ++ map (hw_packet c) (h ++ [HwMtc n])).
  unfold time_run. rewrite fold_left_app.
  repeat change (fold_left (fun t o => fst (time_update c t o)) ?l ?a) with (time_run c a l).
  destruct (follows_run c Hr ltac:(lia) h _ c0 (sub64 v fc)
    (if cf_mtc_freq c <=? 8 then 2 ^ (cf_mtc_freq c + 8) else 2 ^ 16) n HF) as [-> _].
  - unfold limit_ok. rewrite Hh. destruct (N.leb_spec (cf_mtc_freq c) 8); split; try discriminate.
    + intros _. lia.
    + intros _. split; lia.
  - exact Hok.
  - rewrite (sub64_small v fc Hfc). rewrite N.add_mod_idemp_l by discriminate. reflexivity.
Qed.

(** The number of ticks between the first and the last count is recovered exactly if
    the clocks are the same. *)
Theorem C20_ticks c t v c0 h n :
  cf_cpuid_0x15_eax c = cf_cpuid_0x15_ebx c -> 0 < cf_cpuid_0x15_eax c < 2 ^ 32 ->
  cf_mtc_freq c <= 16 -> v < 2 ^ 64 ->
  hw_ok c (if cf_mtc_freq c <=? 8 then 2 ^ (cf_mtc_freq c + 8) else 2 ^ 16) c0
        (h ++ [HwMtc n]) ->
  pt_time_query_tsc
    (time_run c t (OpTsc v :: OpTma (c0 mod 2 ^ 16) 0 :: map (hw_packet c) (h ++ [HwMtc n])))
  = ((v + (n - c0)) mod 2 ^ 64, 0, 0, Ok tt) /\ c0 <= n.
Proof.
  intros He Hp Hf Hv Hok.
  assert (Hel : forall h limit c0, hw_ok c limit c0 (h ++ [HwMtc n]) ->
    hw_elapsed c c0 (h ++ [HwMtc n]) = n - c0 /\ c0 <= n).
  { clear - He Hp. induction h as [|o h IH]; intros limit c0 Hok.
    - cbn [app hw_ok hw_elapsed] in *. destruct Hok as (_ & Hc & _).
      rewrite He, N.div_mul by lia. lia.
    - destruct o as [m|x y|x]; cbn [app hw_ok hw_elapsed] in *.
      + destruct Hok as (_ & Hc & Hok). destruct (IH _ _ Hok) as [-> Hle].
        rewrite He, N.div_mul by lia. lia.
      + exact (IH _ _ Hok).
      + exact (IH _ _ Hok). }
  destruct (Hel _ _ _ Hok) as [Hel1 Hle]. split; [|exact Hle].
  rewrite C20_mtc_time; [|split; lia|exact Hf|exact Hv|reflexivity|exact Hok].
  rewrite Hel1. f_equal. f_equal. f_equal.
  rewrite N.sub_0_r, <- N.add_assoc, (N.add_comm (2 ^ 64)), N.add_assoc.
  replace (v + (n - c0) + 2 ^ 64) with (v + (n - c0) + 1 * 2 ^ 64) by lia.
  apply N.mod_add. discriminate.
Qed.

Print Assumptions C20_mtc_time.
Print Assumptions C20_ticks.

(** 255 periods pass; the counter wraps. *)
Example C20_ok_ex :
  hw_ok (clock 2 84 3 0) (2 ^ 11) 1005 ([HwMtc 1008; HwCyc 3 256] ++ [HwMtc 3048]).
Proof. cbn. repeat split; (reflexivity || discriminate). Qed.
Example C20_ex :
  pt_time_query_tsc (time_run (clock 2 84 3 0) pt_time_init
    [OpTsc 10000; OpTma 1005 0; OpMtc 126; OpCyc 3 256; OpMtc 125])
  = (10000 + 3 * 42 + 2040 * 42, 0, 0, Ok tt).
Proof. reflexivity. Qed.
Example C20_high_ex :
  hw_ok (clock 1 1 12 0) (2 ^ 16) (0xff000 + 17) ([HwMtc 0x100000] ++ [HwMtc 0x101000]).
Proof. cbn. repeat split; (reflexivity || discriminate). Qed.

(** ** C21 *)

Theorem C21_time_no_ub c t o : cf_mtc_freq c < 24 -> no_ub (snd (time_update c t o)).
Proof. apply time_no_ub. Qed.

Theorem C21_calibration_no_ub c l o : cf_mtc_freq c < 24 -> no_ub (snd (tcal_update c l o)).
Proof. apply tcal_no_ub. Qed.

(** The restriction on the frequency is needed; the field is eight bits wide and not
    checked when the decoder is allocated. *)
Theorem C21_frequency_refuted :
  ~ forall c t o, cf_mtc_freq c < 256 -> no_ub (snd (time_update c t o)).
Proof.
  intros H.
  specialize (H (clock 1 1 24 0) (time_run (clock 1 1 24 0) pt_time_init [OpTsc 5])
    (OpTma 0 0) eq_refl ub_shift).
  vm_compute in H. apply H. reflexivity.
Qed.

(** Without a clock ratio, MTC is reported as bad configuration. *)
Theorem C21_no_clock_ratio c t v ctc fc h n :
  cf_cpuid_0x15_eax c = 0 \/ cf_cpuid_0x15_ebx c = 0 ->
  cf_mtc_freq c <= 8 -> Forall (fun o => exists r, o = HwCbr r) h -> n < 256 ->
  snd (time_update c (time_run c t (OpTsc v :: OpTma ctc fc :: map (hw_packet c) h)) (OpMtc n))
  = Err pte_bad_config.
Proof.
  intros Hz Hf Hh Hn.
  assert (Hrun : forall h t, Forall (fun o => exists r, o = HwCbr r) h ->
    tm_ctc (time_run c t (map (hw_packet c) h)) = tm_ctc t /\
    tm_have_tsc (time_run c t (map (hw_packet c) h)) = tm_have_tsc t /\
    tm_have_tma (time_run c t (map (hw_packet c) h)) = tm_have_tma t /\
    tm_have_mtc (time_run c t (map (hw_packet c) h)) = tm_have_mtc t).
  { clear. induction h as [|o h IH]; intros t H; [repeat split|].
    inversion H as [|? ? [r ->] Hh]; subst. unfold time_run. cbn [map hw_packet fold_left time_update].
    change (fold_left (fun t o => fst (time_update c t o)) ?l ?a) with (time_run c a l).
    destruct (IH (fst (pt_time_update_cbr t r)) Hh) as (H1 & H2 & H3 & H4).
    rewrite H1, H2, H3, H4. unfold pt_time_update_cbr. destruct (r =? 0); repeat split. }
  unfold time_run. cbn [fold_left].
  change (fold_left (fun t o => fst (time_update c t o)) ?l ?a) with (time_run c a l).
  match goal with |- context [time_run c ?s (map _ h)] => set (s0 := s) end.
  destruct (Hrun h s0 Hh) as (H1 & H2 & H3 & H4).
  assert (Hs : tm_have_tsc s0 = true /\ tm_have_tma s0 = true /\ tm_have_mtc s0 = true /\
               tm_ctc s0 < 2 ^ (cf_mtc_freq c + 8)).
  { subst s0. cbn [time_update pt_time_update_tsc fst]. unfold pt_time_update_tma.
    cbn [tm_have_tsc tm_have_tma tm_have_mtc negb]. unfold pt_pl_mtc_bit_size.
    rewrite shl32_ok by lia.
    assert (Hp : 2 ^ (cf_mtc_freq c + 8) <= 2 ^ 16) by (apply N.pow_le_mono_r; lia).
    assert (H0 : 0 < 2 ^ (cf_mtc_freq c + 8)) by (apply N.neq_0_lt_0, N.pow_nonzero; discriminate).
    replace (sub32 (u32 (N.shiftl 1 (cf_mtc_freq c + 8))) 1) with (N.ones (cf_mtc_freq c + 8)).
    - cbn [fst tm_have_tsc tm_have_tma tm_have_mtc tm_ctc]. unfold pt_pl_tma_ctc_bit_size.
      destruct (N.leb_spec (cf_mtc_freq c + 8) 16); [|lia].
      repeat split. rewrite N.land_ones. apply N.mod_lt. lia.
    - rewrite N.shiftl_1_l, N.ones_equiv. unfold sub32, u32, trunc.
      revert Hp H0. generalize (2 ^ (cf_mtc_freq c + 8)). intros p Hp H0. lia. }
  destruct Hs as (S1 & S2 & S3 & S4).
  cbn [time_update]. unfold pt_time_update_mtc. rewrite H2, H3, H4, S1, S2, S3. cbn [negb andb].
  rewrite shl32_ok by lia. rewrite H1.
  assert (Hd : exists d, pt_time_ctc_delta (u32 (N.shiftl n (cf_mtc_freq c))) (tm_ctc s0) c = Ok d).
  { unfold pt_time_ctc_delta, pt_pl_mtc_bit_size.
    destruct (_ <? _); [|eexists; reflexivity].
    rewrite shl32_ok by lia. cbn [bind].
    match goal with |- context [?a <? ?b] => destruct (N.ltb_spec a b) as [Hlt|] end;
      [exfalso|eexists; reflexivity].
    rewrite N.shiftl_1_l, N.shiftl_mul_pow2 in Hlt.
    unfold add32, u32, trunc in Hlt.
    assert (Hp : 2 ^ (cf_mtc_freq c + 8) <= 2 ^ 16) by (apply N.pow_le_mono_r; lia).
    assert (Hn' : n * 2 ^ cf_mtc_freq c < 2 ^ 8 * 2 ^ cf_mtc_freq c)
      by (apply N.mul_lt_mono_pos_r; [apply N.neq_0_lt_0, N.pow_nonzero; discriminate|exact Hn]).
    rewrite <- N.pow_add_r, (N.add_comm 8) in Hn'.
    rewrite (N.mod_small (n * _)) in Hlt by lia.
    rewrite (N.mod_small (2 ^ _)) in Hlt by lia.
    rewrite N.mod_small in Hlt by lia. lia. }
  destruct Hd as [d ->]. unfold pt_time_ctc_fc.
  destruct Hz as [->| ->]; change (0 =? 0) with true; [|rewrite orb_true_r]; reflexivity.
Qed.

Print Assumptions C21_time_no_ub.
Print Assumptions C21_calibration_no_ub.
Print Assumptions C21_frequency_refuted.
Print Assumptions C21_no_clock_ratio.

Example C21_ex : snd (time_update (clock 1 1 23 0)
  (time_run (clock 1 1 23 0) pt_time_init [OpTsc 5; OpTma 7 0]) (OpMtc 255)) = Ok tt.
Proof. reflexivity. Qed.

(** ** C40 *)

(** Without cycles and without core:bus ratio, there is no calibration. *)
Theorem C40_uncalibrated c ops :
  (forall v, ~ In (CalCyc v) ops) ->
  (cf_nom_freq c = 0 \/ forall r, ~ In (CalCbr r) ops /\ ~ In (CalHeaderCbr r) ops) ->
  pt_tcal_fcr (tcal_run c pt_tcal_init ops) = Err pte_no_time.
Proof.
  intros H1 H2.
  destruct (uncalibrated_run c ops pt_tcal_init) as (E1 & E2 & _); try assumption.
  - repeat split.
  - unfold pt_tcal_fcr, pt_tcal_have_fcr. rewrite E1, E2. reflexivity.
Qed.

(** Calibration by the core:bus ratio. *)
Theorem C40_cbr c l r : 0 < cf_nom_freq c < 256 -> 0 < r ->
  pt_tcal_fcr (tcal_run c l [CalCbr r]) = Ok (cf_nom_freq c * 256 / r).
Proof.
  intros Hn Hr. unfold tcal_run. cbn [fold_left tcal_update].
  unfold pt_tcal_update_cbr, pt_tcal_header_cbr, div64.
  destruct (N.eqb_spec (cf_nom_freq c) 0); [lia|]. destruct (N.eqb_spec r 0); [lia|].
  rewrite shl64_fcr by lia. cbn [fst]. apply set_fcr_have.
Qed.

(** Calibration between two MTC packets. *)
Theorem C40_mtc c l a vs b :
  ratio_ok c -> cf_mtc_freq c < 24 ->
  a mod 2 ^ cf_mtc_freq c = 0 -> b mod 2 ^ cf_mtc_freq c = 0 ->
  a <= b < a + 2 ^ (cf_mtc_freq c + 8) ->
  0 < total vs < 2 ^ 64 ->
  (b - a) * cf_cpuid_0x15_ebx c / cf_cpuid_0x15_eax c < 2 ^ 56 ->
  pt_tcal_fcr (tcal_run c l
    (CalOvf :: CalMtc (a / 2 ^ cf_mtc_freq c mod 256) ::
     map CalCyc vs ++ [CalMtc (b / 2 ^ cf_mtc_freq c mod 256)]))
  = Ok ((b - a) * cf_cpuid_0x15_ebx c / cf_cpuid_0x15_eax c * 256 / total vs).
Proof.
  intros Hr Hf Ha Hb Hab Hvs Hfit.
  unfold tcal_run. cbn [fold_left tcal_update]. rewrite fold_left_app.
  repeat change (fold_left (fun l o => fst (tcal_update c l o)) ?l ?a) with (tcal_run c a l).
  unfold pt_tcal_update_ovf. cbn [fst]. unfold pt_tcal_update_mtc at 1.
  rewrite payload_ctc by assumption. cbn [tl_have_mtc negb fst].
  rewrite tcal_cycs by (cbn [tl_cyc_tsc tl_cyc_mtc]; lia).
  cbn [tl_fcr tl_min_fcr tl_max_fcr tl_tsc tl_ctc tl_lost_mtc tl_have_mtc tl_check_skl168
    tl_cyc_tsc tl_cyc_mtc].
  unfold tcal_run. cbn [fold_left tcal_update]. unfold pt_tcal_update_mtc.
  rewrite payload_ctc by assumption. cbn [tl_fcr tl_min_fcr tl_max_fcr tl_tsc tl_ctc
    tl_lost_mtc tl_have_mtc tl_check_skl168 tl_cyc_tsc tl_cyc_mtc negb].
  destruct (N.eqb_spec (0 + total vs) 0); [lia|].
  rewrite delta_exact by assumption.
  assert (Hd : b - a < 2 ^ 32).
  { assert (2 ^ (cf_mtc_freq c + 8) <= 2 ^ 32) by (apply N.pow_le_mono_r; lia). lia. }
  rewrite (ctc_fc_exact c _ Hr Hd).
  rewrite fcr_overflow_small, shl64_fcr by exact Hfit.
  unfold div64. destruct (N.eqb_spec (0 + total vs) 0); [lia|]. cbn [fst].
  match goal with |- context [pt_tcal_set_fcr ?x ?y] => pose proof (set_fcr_have x y) as HS end.
  unfold pt_tcal_fcr, pt_tcal_have_fcr in *.
  cbn [tl_fcr tl_min_fcr tl_max_fcr pt_tcal_set_fcr] in *. rewrite N.add_0_l in *. exact HS.
Qed.

(** Calibration between two TSC packets, in the absence of MTC.  TSC is 56 bits wide. *)
Theorem C40_tsc c l h t1 vs t2 :
  (forall v, ~ In (CalMtc v) h) ->
  0 < t1 < 2 ^ 56 -> t1 <= t2 < t1 + 2 ^ 56 -> 0 < total vs < 2 ^ 64 ->
  pt_tcal_fcr (tcal_run c l
    (CalOvf :: h ++ CalTsc t1 :: map CalCyc vs ++ [CalHeaderTsc (t2 mod 2 ^ 56)]))
  = Ok ((t2 - t1) * 256 / total vs).
Proof.
  intros Hm H1 H2 Hvs.
  unfold tcal_run. cbn [fold_left tcal_update]. rewrite fold_left_app. cbn [fold_left tcal_update].
  rewrite fold_left_app.
  repeat change (fold_left (fun l o => fst (tcal_update c l o)) ?l ?a) with (tcal_run c a l).
  pose proof (tcal_have_mtc c h (fst (pt_tcal_update_ovf l)) Hm eq_refl) as Hn.
  set (l1 := tcal_run c (fst (pt_tcal_update_ovf l)) h) in *.
  destruct (tcal_cycs_tsc c vs (fst (pt_tcal_update_tsc l1 t1))) as (K1 & K2 & K3 & _).
  { cbn [pt_tcal_update_tsc fst tl_cyc_tsc]. lia. }
  set (l2 := tcal_run c (fst (pt_tcal_update_tsc l1 t1)) (map CalCyc vs)) in *.
  unfold pt_tcal_update_tsc in K1, K2, K3. cbn [fst tl_tsc tl_cyc_tsc tl_have_mtc] in K1, K2, K3.
  rewrite Hn in K3.
  unfold tcal_run. cbn [fold_left tcal_update]. unfold pt_tcal_header_tsc.
  cbn [pt_tcal_update_tsc fst tl_have_mtc]. rewrite K1, K2, K3.
  destruct (N.eqb_spec t1 0); [lia|]. destruct (N.eqb_spec (0 + total vs) 0); [lia|].
  cbn [orb].
  assert (Hdelta : exists x, (if t2 mod 2 ^ 56 <? t1
      then add64 (t2 mod 2 ^ 56) (2 ^ pt_pl_tsc_bit_size) else t2 mod 2 ^ 56) = x /\
      t1 <= x /\ sub64 x t1 = t2 - t1).
  { clear -H1 H2. eexists. split; [reflexivity|]. unfold pt_pl_tsc_bit_size, add64, sub64, u64, trunc.
    destruct (N.ltb_spec (t2 mod 2 ^ 56) t1); lia. }
  destruct Hdelta as (x & -> & Hx1 & ->).
  assert (Hnb : ((t2 mod 2 ^ 56 <? t1) && (x <? t1)) = false).
  { apply andb_false_iff. right. apply N.ltb_ge. exact Hx1. }
  rewrite Hnb. rewrite fcr_overflow_small, shl64_fcr by (clear -H1 H2; lia).
  unfold div64. destruct (N.eqb_spec (0 + total vs) 0); [lia|]. cbn [fst].
  rewrite set_fcr_have. reflexivity.
Qed.

(** An overflow loses packets: what follows is not related to what came before it.
    Neither a TSC nor an MTC packet behind it changes the calibration. *)
Theorem C40_overflow c l vs o : cf_mtc_freq c < 24 -> total vs < 2 ^ 64 ->
  (exists tsc, o = CalHeaderTsc tsc) \/ (exists v, o = CalMtc v) ->
  pt_tcal_fcr (tcal_run c l (CalOvf :: map CalCyc vs ++ [o])) = pt_tcal_fcr l.
Proof.
  intros Hf Hvs Ho. unfold tcal_run. cbn [fold_left tcal_update]. rewrite fold_left_app.
  repeat change (fold_left (fun l o => fst (tcal_update c l o)) ?l ?a) with (tcal_run c a l).
  destruct (tcal_cycs_tsc c vs (fst (pt_tcal_update_ovf l))) as (K1 & K2 & K3 & K4 & K5 & K6).
  { cbn [pt_tcal_update_ovf fst tl_cyc_tsc]. lia. }
  set (l2 := tcal_run c (fst (pt_tcal_update_ovf l)) (map CalCyc vs)) in *.
  unfold pt_tcal_update_ovf in K1, K2, K3, K4, K5, K6.
  cbn [fst tl_tsc tl_cyc_tsc tl_have_mtc tl_fcr tl_min_fcr tl_max_fcr] in K1, K2, K3, K4, K5, K6.
  assert (E : pt_tcal_fcr l2 = pt_tcal_fcr l).
  { unfold pt_tcal_fcr, pt_tcal_have_fcr. rewrite K4, K5, K6. reflexivity. }
  unfold tcal_run. cbn [fold_left]. destruct Ho as [(tsc & ->)|(v & ->)]; cbn [tcal_update].
  - unfold pt_tcal_header_tsc. rewrite K1. change (0 =? 0) with true. cbn [orb fst]. exact E.
  - unfold pt_tcal_update_mtc. rewrite shl32_ok by lia. rewrite K3. cbn [negb fst]. exact E.
Qed.
Example C40_overflow_ex : pt_tcal_fcr (tcal_run (clock 2 84 3 24) pt_tcal_init
  [CalCbr 12; CalTsc 1000; CalCyc 10; CalOvf; CalCyc 100; CalHeaderTsc 5000]) = Ok 512.
Proof. vm_compute. reflexivity. Qed.

Print Assumptions C40_overflow.
Print Assumptions C40_uncalibrated.
Print Assumptions C40_cbr.
Print Assumptions C40_mtc.
Print Assumptions C40_tsc.

Example C40_mtc_ex : pt_tcal_fcr (tcal_run (clock 2 84 3 24) pt_tcal_init
  [CalOvf; CalMtc 254; CalCyc 100; CalCyc 400; CalMtc 1]) = Ok 516.
Proof. reflexivity. Qed.
Example C40_mtc_value : (2056 - 2032) * 84 / 2 * 256 / (100 + 400) = 516.
Proof. reflexivity. Qed.
Example C40_tsc_ex : pt_tcal_fcr (tcal_run (clock 0 0 0 0) pt_tcal_init
  [CalOvf; CalTsc 7; CalCyc 70; CalTsc (2 ^ 56 - 100); CalCyc 300; CalHeaderTsc 50]) = Ok 128.
Proof. reflexivity. Qed.
Example C40_uncalibrated_ex : pt_tcal_fcr (tcal_run (clock 1 1 3 0) pt_tcal_init
  [CalCbr 20; CalTsc 5; CalMtc 3; CalMtc 9; CalHeaderTsc 77; CalPsb; CalOvf])
  = Err pte_no_time.
Proof. reflexivity. Qed.

(** ** C41 *)

(** Directly after TSC and TMA, CYC packets advance the time by the number of cycles
    times the ratio, rounded down for each packet. *)
Theorem C41_cyc_after_tma c t v ctc fc vs :
  cf_mtc_freq c < 24 -> v < 2 ^ 64 -> fc < 2 ^ 64 ->
  Forall (fun p => 0 < snd p /\ fst p * snd p < 2 ^ 64) vs ->
  pt_time_query_tsc (time_run c t (OpTsc v :: OpTma ctc fc :: cyc_packets vs))
  = ((v + cyc_time vs) mod 2 ^ 64, 0, 0, Ok tt).
Proof.
  intros Hf Hv Hfc HF. unfold time_run. cbn [fold_left].
  change (fold_left (fun t o => fst (time_update c t o)) ?l ?a) with (time_run c a l).
  cbn [time_update pt_time_update_tsc fst]. unfold pt_time_update_tma.
  cbn [tm_have_tsc tm_have_tma tm_have_mtc negb]. unfold pt_pl_mtc_bit_size.
  rewrite shl32_ok by lia. cbn [fst].
  match goal with |- context [time_run c ?s _] =>
    destruct (cyc_run_exact c vs s HF) as (H1 & H2 & H3 & H4) end.
  - reflexivity.
  - cbn [tm_tsc tm_base tm_fc]. unfold sub64, add64, u64, trunc. lia.
  - unfold pt_time_query_tsc. rewrite H1, H2, H3, H4.
    cbn [tm_base tm_fc tm_tsc tm_have_tsc tm_lost_mtc tm_lost_cyc].
    f_equal. f_equal. f_equal. rewrite (sub64_small v fc Hfc).
    unfold add64. rewrite N.add_0_l, (N.mod_small fc) by exact Hfc.
    rewrite <- N.add_assoc, N.add_mod_idemp_l by discriminate.
    replace (v + 2 ^ 64 - fc + (fc + cyc_time vs)) with (v + cyc_time vs + 1 * 2 ^ 64)
      by (clear - Hfc; lia).
    apply N.mod_add. discriminate.
Qed.

(** After an MTC packet, CYC packets advance the time by at most this.  (Cycles that
    belong to earlier MTC periods are not counted again.) *)
Theorem C41_cyc_after_mtc c t v fc c0 h n vs :
  ratio_ok c -> cf_mtc_freq c <= 16 -> v < 2 ^ 64 -> fc < 2 ^ 64 ->
  hw_ok c (if cf_mtc_freq c <=? 8 then 2 ^ (cf_mtc_freq c + 8) else 2 ^ 16) c0
        (h ++ [HwMtc n]) ->
  Forall (fun p => fst p * snd p < 2 ^ 64) vs -> cyc_time vs < 2 ^ 64 ->
  exists e, e <= cyc_time vs /\
  let q := pt_time_query_tsc
    (time_run c t (OpTsc v :: OpTma (c0 mod 2 ^ 16) fc ::
                   map (hw_packet c) (h ++ [HwMtc n]) ++ cyc_packets vs)) in
  fst (fst (fst q)) = (v + 2 ^ 64 - fc + hw_elapsed c c0 (h ++ [HwMtc n]) + e) mod 2 ^ 64 /\
  snd q = Ok tt.
Proof.
  intros Hr Hf Hv Hfc Hok HF Hsum.
  destruct (follows_start c t v c0 fc) as [HS Hh]; [lia|].
  change (OpTsc v :: OpTma (c0 mod 2 ^ 16) fc :: map (hw_packet c) (h ++ [HwMtc n]) ++ cyc_packets vs)
    with (([OpTsc v; OpTma (c0 mod 2 ^ 16) fc] ++ map (hw_packet c) (h ++ [HwMtc n])) ++ cyc_packets vs).
  unfold time_run. rewrite fold_left_app.
  repeat change (fold_left (fun t o => fst (time_update c t o)) ?l ?a) with (time_run c a l).
  destruct (follows_run c Hr ltac:(lia) h _ c0 (sub64 v fc)
    (if cf_mtc_freq c <=? 8 then 2 ^ (cf_mtc_freq c + 8) else 2 ^ 16) n HS)
    as (Hq & Hb & H0).
  - unfold limit_ok. rewrite Hh.
    destruct (N.leb_spec (cf_mtc_freq c) 8); split; try discriminate; intros _; lia.
  - exact Hok.
  - unfold time_run in Hq, Hb, H0. rewrite <- fold_left_app in Hq, Hb, H0.
    repeat change (fold_left (fun t o => fst (time_update c t o)) ?l ?a) with (time_run c a l)
      in Hq, Hb, H0.
    set (s := time_run c t ([OpTsc v; OpTma (c0 mod 2 ^ 16) fc] ++
                            map (hw_packet c) (h ++ [HwMtc n]))) in *.
    unfold pt_time_query_tsc in Hq. injection Hq as Hq _ _ Hst.
    assert (Hlt : tm_base s < 2 ^ 64) by (rewrite Hb, Hq; apply N.mod_lt; discriminate).
    destruct (cyc_run_le c vs s 0 HF) as (e & He & H1 & H2).
    + destruct (tm_have_tsc s); [reflexivity|discriminate].
    + exact Hlt.
    + lia.
    + exact Hsum.
    + rewrite H0, N.add_0_r, <- Hb. symmetry. apply N.mod_small. exact Hlt.
    + exists e. split; [lia|]. cbv zeta. unfold pt_time_query_tsc. cbn [fst snd].
      rewrite H1, H2, Hb, Hq. split; [|reflexivity]. rewrite (sub64_small v fc Hfc).
      rewrite N.add_mod_idemp_l by discriminate.
      rewrite <- N.add_assoc, N.add_mod_idemp_l by discriminate. f_equal. lia.
Qed.

Print Assumptions C41_cyc_after_tma.
Print Assumptions C41_cyc_after_mtc.

Example C41_ex : pt_time_query_tsc (time_run (clock 1 1 3 0) pt_time_init
  [OpTsc 5000; OpTma 3 7; OpCyc 10 384; OpCyc 3 384]) = (5000 + 15 + 4, 0, 0, Ok tt).
Proof. reflexivity. Qed.
Example C41_mtc_ex : pt_time_query_tsc (time_run (clock 1 1 3 0) pt_time_init
  [OpTsc 5000; OpTma 3 0; OpMtc 1; OpMtc 2; OpCyc 20 256]) = (5000 + 13 + 20 - 13, 0, 0, Ok tt).
Proof. reflexivity. Qed.
