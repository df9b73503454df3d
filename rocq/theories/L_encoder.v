(** The encoder writes a byte list at its position or fails without effect. *)

From Verif Require Import Base M_packet M_encoder S_packet L_bytes.
From Coq Require Import List NArith ZArith Lia Bool Arith.
From Coq Require Import ZifyBool ZifyNat ZifyN.
Import ListNotations.
Open Scope N_scope.
Ltac Zify.zify_post_hook ::= Z.div_mod_to_equations.

Arguments N.add : simpl never.
Arguments N.mul : simpl never.
Arguments N.div : simpl never.
Arguments N.modulo : simpl never.
Arguments N.shiftl : simpl never.
Arguments N.shiftr : simpl never.
Arguments N.pow : simpl never.
Arguments N.lor : simpl never.
Arguments N.land : simpl never.
Arguments N.ldiff : simpl never.

Lemma puts_int : forall a v n pos buf,
  wbind (puts pos a) (fun p => pt_encode_int p v n) buf
  = puts pos (a ++ le n v) buf.
Proof.
  intros. rewrite <- puts_app. apply wbind_ext; [reflexivity |].
  intros. apply encode_int_puts.
Qed.

Lemma put_int : forall a v n pos buf,
  wbind (put pos a) (fun p => pt_encode_int p v n) buf
  = puts pos (a :: le n v) buf.
Proof.
  intros. cbn [puts]. apply wbind_ext; [reflexivity |].
  intros. apply encode_int_puts.
Qed.

Lemma int_int : forall v n w m pos buf,
  wbind (pt_encode_int pos v n) (fun p => pt_encode_int p w m) buf
  = puts pos (le n v ++ le m w) buf.
Proof.
  intros. rewrite <- puts_app. apply wbind_ext.
  - apply encode_int_puts.
  - intros. apply encode_int_puts.
Qed.

Lemma puts_ret : forall a pos buf,
  wbind (puts pos a) (fun p => wret p) buf = puts pos a buf.
Proof.
  intros. unfold wbind, wret. destruct (puts pos a buf) as [b [p | e | u]];
    reflexivity.
Qed.

(** The shape of an encoding step: fail with the buffer unchanged, or write a
    non-empty list of bytes that fits. *)
Inductive shape (pos : nat) (buf : list N) : list N * res nat -> Prop :=
| shape_err : forall e, shape pos buf (buf, Err e)
| shape_ok : forall bs, bs <> [] -> (pos + length bs <= length buf)%nat ->
    shape pos buf (write buf pos (map u8 bs), Ok (pos + length bs)%nat).

Lemma shape_puts : forall pos buf bs n, bs <> [] -> length bs = n ->
  shape pos buf (if Nat.ltb (length buf) (pos + n) then (buf, Err pte_eos)
                 else puts pos bs buf).
Proof.
  intros pos buf bs n Hne <-.
  destruct (Nat.ltb_spec (length buf) (pos + length bs)) as [H | H].
  - constructor.
  - rewrite puts_ok by exact H. constructor; auto.
Qed.

Lemma cyc_bytes_no_ub : forall room c, no_ub (cyc_bytes room c).
Proof.
  induction room as [| room IH]; intros c u; cbn [cyc_bytes];
    destruct (c =? 0); try discriminate.
  specialize (IH (N.shiftr (shl64 c pt_opm_cycx_shr) 8)).
  destruct (cyc_bytes room (N.shiftr (shl64 c pt_opm_cycx_shr) 8));
    cbn [bind]; try discriminate.
  exfalso. exact (IH u0 eq_refl).
Qed.

Ltac one_put :=
  rewrite reserve_then;
  repeat first [ rewrite put_puts | rewrite puts_int | rewrite put_int ];
  apply shape_puts; [discriminate | cbn [length app]; rewrite ?le_length;
                                    reflexivity].

Lemma encode_ip_shape : forall pos buf opc ip,
  shape pos buf (pt_encode_ip pos opc ip buf).
Proof.
  intros pos buf opc ip. unfold pt_encode_ip.
  unfold wbind at 1. unfold wlift.
  destruct (pt_ipc_size (ip_ipc ip)) as [n | e | u] eqn:E.
  - one_put.
  - constructor.
  - exfalso. revert E. unfold pt_ipc_size.
    repeat destruct (_ =? _); discriminate.
Qed.

Lemma enc_body_shape : forall pos p buf, shape pos buf (enc_body pos p buf).
Proof.
  intros pos p buf. destruct p; cbn [enc_body]; cbv zeta.
  all: try solve [constructor].
  all: try solve [one_put].
  all: try apply encode_ip_shape.
  - (* psb *) rewrite reserve_then, int_int.
    apply shape_puts; [discriminate |]. now rewrite app_length, !le_length.
  - (* tnt_8 *) destruct (7 <=? tnt_bit_size tnt); [constructor |]. one_put.
  - (* tnt_64 *) rewrite reserve_then.
    destruct (Nat.ltb_spec (length buf) (pos + ptps_tnt_64)); [constructor |].
    destruct (_ <=? _); [constructor |].
    destruct (truth _); [constructor |].
    rewrite puts_int, puts_ok
      by (rewrite app_length, le_length; cbn; unfold ptps_tnt_64, pt_pl_tnt_64_size in *; lia).
    constructor; [discriminate |].
    rewrite app_length, le_length. cbn. unfold ptps_tnt_64, pt_pl_tnt_64_size in *. lia.
  - (* mode *) rewrite reserve_then.
    destruct (Nat.ltb_spec (length buf) (pos + ptps_mode)); [constructor |].
    unfold wbind at 1. unfold wlift.
    destruct mode; cbn [mode_byte]; try solve [constructor];
      rewrite puts_ok by (unfold ptps_mode in *; cbn [length]; lia);
      (constructor; [discriminate | unfold ptps_mode in *; cbn [length]; lia]).
  - (* tma *) rewrite reserve_then.
    destruct (Nat.ltb_spec (length buf) (pos + ptps_tma)); [constructor |].
    destruct (truth _); [constructor |].
    assert (E : (do pos1 <- puts pos [pt_opc_ext; pt_ext_tma];
                 do pos2 <- pt_encode_int pos1 ctc pt_pl_tma_ctc_size;
                 do pos3 <- put pos2 0; pt_encode_int pos3 fc pt_pl_tma_fc_size)
                  buf
                = puts pos ([pt_opc_ext; pt_ext_tma] ++ le 2 ctc ++ 0 :: le 2 fc)
                       buf).
    { rewrite <- puts_app. apply wbind_ext; [reflexivity |]. intros a b.
      rewrite <- puts_app. apply wbind_ext; [apply encode_int_puts |].
      intros a' b'. apply put_int. }
    rewrite E, puts_ok
      by (rewrite !app_length; cbn [length]; rewrite !le_length; cbn;
          unfold ptps_tma in *; lia).
    constructor; [discriminate |].
    rewrite !app_length; cbn [length]; rewrite !le_length; cbn.
    unfold ptps_tma in *; lia.
  - (* cyc *) unfold wbind at 1, wlift.
    destruct (cyc_bytes _ _) as [rest | e | u] eqn:E.
    + rewrite reserve_then. apply shape_puts; [discriminate | reflexivity].
    + constructor.
    + exfalso. exact (cyc_bytes_no_ub _ _ u E).
  - (* mwait *) rewrite reserve_then.
    assert (E : (do pos1 <- puts pos [pt_opc_ext; pt_ext_mwait];
                 do pos2 <- pt_encode_int pos1 hints pt_pl_mwait_hints_size;
                 pt_encode_int pos2 ext pt_pl_mwait_ext_size) buf
                = puts pos ([pt_opc_ext; pt_ext_mwait] ++ le 4 hints ++ le 4 ext)
                       buf).
    { rewrite <- puts_app. apply wbind_ext; [reflexivity |]. intros a b.
      apply int_int. }
    rewrite E. apply shape_puts; [discriminate |].
    rewrite !app_length, !le_length. reflexivity.
  - (* ptw *) unfold wbind at 1, wlift.
    destruct (pt_ptw_size plc) as [n | e | u] eqn:E.
    + one_put.
    + constructor.
    + exfalso. revert E. unfold pt_ptw_size.
      repeat destruct (_ =? _); cbn; discriminate.
  - (* trig *) destruct icntv; [one_put |].
    rewrite reserve_then, puts_ret.
    apply shape_puts; [discriminate | reflexivity].
Qed.
