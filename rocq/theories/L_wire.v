(** The encoder writes exactly the specified bytes. *)

From Verif Require Import Base M_packet M_encoder S_packet L_bytes L_encoder L_fin.
From Coq Require Import List NArith ZArith Lia Bool Arith.
From Coq Require Import ZifyBool ZifyNat ZifyN.
Import ListNotations.
Open Scope N_scope.
Ltac Zify.zify_post_hook ::= Z.div_mod_to_equations.

Definition enc_result (pos : nat) (bs buf : list N) : list N * res nat :=
  if Nat.ltb (length buf) (pos + length bs) then (buf, Err pte_eos)
  else puts pos bs buf.

Lemma enc_result_eq : forall pos buf bs bs' n,
  length bs' = n -> bs = bs' ->
  (if Nat.ltb (length buf) (pos + n) then (buf, Err pte_eos)
   else puts pos bs buf) = enc_result pos bs' buf.
Proof. intros pos buf bs bs' n <- ->. reflexivity. Qed.

Lemma ip_bytes_spec : forall ipc n, ip_bytes ipc = Some n ->
  (ipc = 0 /\ n = 0%nat) \/ (ipc = 1 /\ n = 2%nat) \/ (ipc = 2 /\ n = 4%nat)
  \/ (ipc = 3 /\ n = 6%nat) \/ (ipc = 4 /\ n = 6%nat) \/ (ipc = 6 /\ n = 8%nat).
Proof.
  intros ipc n H. unfold ip_bytes in H.
  destruct ipc as [| [[[|[]|] | [[]|[]|] |] | [[[]|[]|]|[[]|[]|]|] |]];
    try discriminate; injection H as <-; intuition.
Qed.

Lemma encode_ip_wire : forall pos buf opc ip,
  In opc [0x1d; 0x0d; 0x11; 0x01] -> ip_in_range ip ->
  pt_encode_ip pos opc ip buf = enc_result pos (ip_wire opc ip) buf.
Proof.
  intros pos buf opc [ipc ip] Hopc Hr. unfold ip_in_range in Hr.
  unfold pt_encode_ip, ip_wire. cbn [ip_ipc ip_ip] in *.
  destruct (ip_bytes ipc) as [n |] eqn:E; [| contradiction].
  assert (Hs : pt_ipc_size ipc = Ok n).
  { apply ip_bytes_spec in E.
    intuition; subst; reflexivity. }
  unfold wbind at 1, wlift. rewrite Hs. cbv zeta. rewrite reserve_then, put_int.
  apply enc_result_eq; [cbn [length]; now rewrite le_length |].
  f_equal. apply ip_bytes_spec in E.
  cbn [In] in Hopc.
  intuition; subst; reflexivity.
Qed.

Lemma cyc_bytes_groups : forall n room c,
  (n <= room)%nat -> (n <= 8)%nat -> c < 2 ^ (7 * N.of_nat n) ->
  cyc_bytes room c = Ok (cyc_groups n c).
Proof.
  induction n as [| n IH]; intros room c Hr Hn Hc.
  - assert (c = 0) by (change (2 ^ (7 * N.of_nat 0)) with 1 in Hc; lia). subst c.
    destruct room; reflexivity.
  - destruct room as [| room]; [lia |]. cbn [cyc_bytes cyc_groups].
    destruct (N.eqb_spec c 0) as [-> | Hne]; [reflexivity |].
    assert (Hlt : c < 2 ^ 56).
    { eapply N.lt_le_trans; [exact Hc |]. apply N.pow_le_mono_r; lia. }
    assert (Hsh : shl64 c pt_opm_cycx_shr = 2 * c).
    { unfold shl64, pt_opm_cycx_shr. rewrite N.shiftl_mul_pow2.
      change (2 ^ 1) with 2. rewrite N.mod_small; [lia |].
      change (2 ^ 64) with (2 ^ 56 * 256). lia. }
    rewrite Hsh. clear Hsh.
    assert (Hq : N.shiftr (2 * c) 8 = c / 128).
    { rewrite N.shiftr_div_pow2. change (2 ^ 8) with (2 * 128).
      rewrite N.div_mul_cancel_l by discriminate. reflexivity. }
    rewrite Hq.
    rewrite (IH room (c / 128)); [| lia | lia |].
    + cbn [bind]. do 2 f_equal.
      assert (Hb : u8 (2 * c) = 2 * (c mod 128)).
      { rewrite u8_mod. change 256 with (2 * 128).
        now rewrite N.mul_mod_distr_l by discriminate. }
      rewrite Hb. unfold truth.
      destruct (c / 128 =? 0); cbn [negb]; [lia |].
      unfold pt_opm_cycx_ext. rewrite lor_add; [reflexivity |].
      rewrite N.land_comm. replace (2 * (c mod 128)) with (N.shiftl (c mod 128) 1)
        by (rewrite N.shiftl_mul_pow2; change (2 ^ 1) with 2; lia).
      apply land_shift_0. reflexivity.
    + apply N.div_lt_upper_bound; [discriminate |].
      eapply N.lt_le_trans; [exact Hc |].
      replace (7 * N.of_nat (S n)) with (7 + 7 * N.of_nat n) by lia.
      rewrite N.pow_add_r. change (2 ^ 7) with 128. lia.
Qed.

Lemma land_31 : forall t, t < 32 -> N.land t 0x1f = t.
Proof.
  intros t H. change 0x1f with (N.ones 5). rewrite N.land_ones.
  apply N.mod_small. exact H.
Qed.

Lemma enc_body_wire : forall pos p buf, in_range p ->
  enc_body pos p buf = enc_result pos (wire p) buf.
Proof.
  intros pos p buf Hr.
  destruct p; cbn [enc_body wire in_range] in *; cbv zeta; try contradiction.
  - (* pad *) rewrite reserve_then, put_puts. now apply enc_result_eq.
  - (* psb *) rewrite reserve_then, int_int. now apply enc_result_eq.
  - rewrite reserve_then. now apply enc_result_eq.
  - apply encode_ip_wire; [cbn; auto 9 | exact Hr].
  - apply encode_ip_wire; [cbn; auto 9 | exact Hr].
  - apply encode_ip_wire; [cbn; auto 9 | exact Hr].
  - apply encode_ip_wire; [cbn; auto 9 | exact Hr].
  - (* tnt_8 *) destruct tnt as [bs pl]. unfold tnt_in_range in Hr.
    cbn [tnt_bit_size tnt_payload] in *. destruct Hr as [[H1 H6] Hpl].
    destruct (N.leb_spec 7 bs) as [H7 | _]; [lia |].
    rewrite reserve_then, put_puts. apply enc_result_eq; [reflexivity |].
    f_equal. unfold pt_opm_tnt_8_shr.
    assert (Hle : 2 ^ bs <= 2 ^ 6) by (apply N.pow_le_mono_r; lia).
    change (2 ^ 6) with 64 in Hle.
    rewrite N.shiftl_mul_pow2. change (2 ^ 1) with 2.
    rewrite u8_small by lia.
    rewrite lor_shift by (rewrite N.pow_add_r; change (2 ^ 1) with 2; lia).
    rewrite N.pow_add_r. change (2 ^ 1) with 2. lia.
  - (* tnt_64 *) destruct tnt as [bs pl]. unfold tnt_in_range in Hr.
    cbn [tnt_bit_size tnt_payload] in *. destruct Hr as [[H1 H47] Hpl].
    rewrite reserve_then.
    destruct (N.leb_spec pt_pl_tnt_64_bits bs) as [H | _];
      [unfold pt_pl_tnt_64_bits in H; lia |].
    rewrite N.shiftl_mul_pow2, N.mul_1_l.
    replace (N.ldiff pl (2 ^ bs - 1)) with 0.
    + change (truth 0) with false. cbv iota. rewrite puts_int.
      apply enc_result_eq; [reflexivity |].
      cbn [app]. do 3 f_equal.
      rewrite <- (N.mul_1_l (2 ^ bs)), <- N.shiftl_mul_pow2.
      rewrite lor_shift by exact Hpl. rewrite N.shiftl_mul_pow2. lia.
    + symmetry. rewrite N.sub_1_r, <- N.ones_equiv.
      apply N.ldiff_ones_r_low.
      destruct (N.eq_dec pl 0) as [-> | Hne]; [cbn; lia |].
      apply N.log2_lt_pow2; [lia | exact Hpl].
  - (* mode *) destruct mode as [csl csd iflag | intx abrt |]; [| | contradiction];
      rewrite reserve_then; unfold wbind, wlift; cbn [mode_byte].
    + apply enc_result_eq; [reflexivity |].
      destruct csl, csd, iflag; reflexivity.
    + apply enc_result_eq; [reflexivity |].
      destruct intx, abrt; reflexivity.
  - (* pip *) rewrite reserve_then, puts_int.
    apply enc_result_eq; [reflexivity |]. cbn [app]. do 3 f_equal.
    destruct Hr as [H52 H32].
    unfold pt_pl_pip_shl, pt_pl_pip_shr, pt_pl_pip_nr, shl64.
    rewrite N.shiftr_div_pow2, N.shiftl_mul_pow2.
    change (2 ^ 5) with 32. change (2 ^ 1) with 2.
    change (2 ^ 52) with 4503599627370496 in H52.
    rewrite N.mod_small by (change (2 ^ 64) with 18446744073709551616; lia).
    destruct nr; cbn [b2n]; [| lia].
    rewrite lor_add; [lia |]. rewrite N.land_comm.
    change (cr3 / 32 * 2) with (cr3 / 32 * 2 ^ 1).
    rewrite <- N.shiftl_mul_pow2. apply land_shift_0. reflexivity.
  - (* vmcs *) rewrite reserve_then, puts_int.
    apply enc_result_eq; [reflexivity |]. cbn [app]. do 3 f_equal.
    unfold pt_pl_vmcs_shl. now rewrite N.shiftr_div_pow2.
  - rewrite reserve_then. now apply enc_result_eq.
  - rewrite reserve_then, put_int. now apply enc_result_eq.
  - (* tma *) destruct Hr as [Hc Hf]. rewrite reserve_then.
    replace (N.ldiff fc pt_pl_tma_fc_mask) with 0.
    + change (truth 0) with false. cbv iota.
      assert (E : (do pos1 <- puts pos [pt_opc_ext; pt_ext_tma];
                 do pos2 <- pt_encode_int pos1 ctc pt_pl_tma_ctc_size;
                 do pos3 <- put pos2 0; pt_encode_int pos3 fc pt_pl_tma_fc_size)
                  buf
                = puts pos ([pt_opc_ext; pt_ext_tma] ++ le 2 ctc ++ 0 :: le 2 fc)
                       buf).
      { rewrite <- puts_app. apply wbind_ext; [reflexivity |]. intros a b.
        rewrite <- puts_app. apply wbind_ext; [apply encode_int_puts |].
        intros a' b'. apply put_int. }
      rewrite E. now apply enc_result_eq.
    + symmetry. change pt_pl_tma_fc_mask with (N.ones 9).
      apply N.ldiff_ones_r_low.
      destruct (N.eq_dec fc 0) as [-> | Hne]; [reflexivity |].
      apply N.log2_lt_pow2; [lia | exact Hf].
  - rewrite reserve_then. now apply enc_result_eq.
  - (* cyc *) unfold wbind at 1, wlift.
    unfold pt_opm_cyc_shr. change (8 - 3) with 5.
    rewrite N.shiftr_div_pow2. change (2 ^ 5) with 32.
    rewrite (cyc_bytes_groups 8 _ (value / 32)); cbn [pt_pl_cyc_max_size Nat.sub].
    + rewrite reserve_then. apply enc_result_eq; [reflexivity |]. f_equal.
      assert (Hm : u8 (N.shiftl (u8 value) 3) = 8 * (value mod 32)).
      { rewrite N.shiftl_mul_pow2. unfold u8, trunc. change (2 ^ 3) with 8.
        change (2 ^ 8) with 256. lia. }
      rewrite Hm. unfold truth, pt_opc_cyc, pt_opm_cyc_ext.
      generalize (value / 32 =? 0). intros b.
      assert (Hlt : value mod 32 < N.of_nat 32) by (cbn; lia).
      clear Hm Hr. revert Hlt. generalize (value mod 32). intros x Hx.
      apply N.eqb_eq. revert x Hx.
      destruct b; apply forall_upto; vm_compute; reflexivity.
    + unfold pt_pl_cyc_max_size. lia.
    + lia.
    + change (2 ^ (7 * N.of_nat 8)) with (2 ^ 56).
      change (2 ^ 61) with (32 * 2 ^ 56) in Hr.
      apply N.div_lt_upper_bound; [discriminate | exact Hr].
  - rewrite reserve_then. now apply enc_result_eq.
  - rewrite reserve_then. now apply enc_result_eq.
  - rewrite reserve_then, puts_int. now apply enc_result_eq.
  - (* exstop *) rewrite reserve_then. apply enc_result_eq; [reflexivity |].
    destruct ip; reflexivity.
  - (* mwait *) rewrite reserve_then.
    assert (E : (do pos1 <- puts pos [pt_opc_ext; pt_ext_mwait];
                 do pos2 <- pt_encode_int pos1 hints pt_pl_mwait_hints_size;
                 pt_encode_int pos2 ext pt_pl_mwait_ext_size) buf
                = puts pos ([pt_opc_ext; pt_ext_mwait] ++ le 4 hints ++ le 4 ext)
                       buf).
    { rewrite <- puts_app. apply wbind_ext; [reflexivity |]. intros a b.
      apply int_int. }
    rewrite E. now apply enc_result_eq.
  - (* pwre *) rewrite reserve_then, puts_int.
    apply enc_result_eq; [reflexivity |]. cbn [app]. do 3 f_equal.
    destruct Hr as [H1 H2]. apply N.eqb_eq. revert state sub_state H1 H2.
    destruct hw; apply (forall_upto2 _ 16 16); vm_compute; reflexivity.
  - (* pwrx *) rewrite reserve_then, puts_int.
    apply enc_result_eq; [reflexivity |]. cbn [app]. do 3 f_equal.
    destruct Hr as [H1 H2]. apply N.eqb_eq. revert last deepest H1 H2.
    destruct interrupt, store, autonomous;
      apply (forall_upto2 _ 16 16); vm_compute; reflexivity.
  - (* ptw *) unfold wbind at 1, wlift.
    destruct Hr as [[-> Hp] | [-> Hp]];
      [change (pt_ptw_size 0) with (@Ok nat 4%nat) | change (pt_ptw_size 1) with (@Ok nat 8%nat)];
      cbv beta iota;
      rewrite reserve_then, puts_int;
      (apply enc_result_eq; [reflexivity |]; destruct ip; reflexivity).
  - (* cfe *) rewrite reserve_then. apply enc_result_eq; [reflexivity |].
    destruct Hr as [H1 H2]. do 3 f_equal.
    apply N.eqb_eq. revert type H1.
    destruct ip; apply (forall_upto _ 32); vm_compute; reflexivity.
  - (* evd *) rewrite reserve_then, puts_int.
    apply enc_result_eq; [reflexivity |].
    unfold pt_pl_evd_type. rewrite land_31 by tauto. reflexivity.
  - (* trig *) destruct icntv.
    + rewrite reserve_then, puts_int. apply enc_result_eq; [reflexivity |].
      destruct ip, mult; reflexivity.
    + rewrite reserve_then, puts_ret. apply enc_result_eq; [reflexivity |].
      destruct ip, mult; reflexivity.
Qed.
