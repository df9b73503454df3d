(** The packet decoder: position independence, decoding of specified packets,
    absence of out-of-bounds reads, progress, and stability under extension. *)

From Verif Require Import Base M_packet M_config M_pktdec S_packet L_bytes L_fin.
From Coq Require Import List NArith ZArith Lia Bool Arith.
From Coq Require Import ZifyBool ZifyNat ZifyN.
Import ListNotations.
Open Scope N_scope.
Ltac Zify.zify_post_hook ::= Z.div_mod_to_equations.

(** * Position independence *)

Lemma rd_app_0 : forall pre x, rd (pre ++ x) (length pre) = rd x 0.
Proof. intros. rewrite <- (rd_app pre x 0). f_equal. lia. Qed.

Lemma rd_app_S : forall pre x, rd (pre ++ x) (S (length pre)) = rd x 1.
Proof. intros. rewrite <- (rd_app pre x 1). f_equal. lia. Qed.

Lemma need_app : forall pre x k, need (pre ++ x) (length pre + k) = need x k.
Proof.
  intros. unfold need. rewrite app_length.
  destruct (Nat.ltb_spec (length pre + length x) (length pre + k));
    destruct (Nat.ltb_spec (length x) k); try reflexivity; lia.
Qed.

Lemma need_app_S : forall pre x k,
  need (pre ++ x) (S (length pre + k)) = need x (S k).
Proof. intros. rewrite <- (need_app pre x (S k)). f_equal. lia. Qed.

Lemma leb_app : forall (pre x : list N) k,
  Nat.leb (length (pre ++ x)) (length pre + k) = Nat.leb (length x) k.
Proof.
  intros. rewrite app_length.
  destruct (Nat.leb_spec (length pre + length x) (length pre + k));
    destruct (Nat.leb_spec (length x) k); try reflexivity; lia.
Qed.

Lemma leb_app_0 : forall (pre x : list N),
  Nat.leb (length (pre ++ x)) (length pre) = Nat.leb (length x) 0.
Proof. intros. rewrite <- (leb_app pre x 0). f_equal. lia. Qed.

Lemma value_app : forall n pre x k,
  pt_pkt_read_value (pre ++ x) (length pre + k) n = pt_pkt_read_value x k n.
Proof. intros. apply read_value_app. Qed.

Lemma value_app_S : forall n pre x,
  pt_pkt_read_value (pre ++ x) (S (length pre)) n = pt_pkt_read_value x 1 n.
Proof.
  intros. rewrite <- (value_app n pre x 1). f_equal. lia.
Qed.

Lemma psb_loop_app : forall n pre x k,
  psb_loop (pre ++ x) (length pre + k) n = psb_loop x k n.
Proof.
  induction n as [| n IH]; intros; cbn [psb_loop]; [reflexivity |].
  rewrite rd_app. destruct (rd x k); cbn [bind]; try reflexivity.
  destruct (negb _); [reflexivity |].
  replace (S (length pre + k)) with (length pre + S k)%nat by lia.
  rewrite rd_app. destruct (rd x (S k)); cbn [bind]; try reflexivity.
  destruct (negb _); [reflexivity |].
  replace (S (length pre + S k)) with (length pre + S (S k))%nat by lia.
  apply IH.
Qed.

Lemma cyc_loop_app : forall fuel pre x n value shl,
  cyc_loop fuel (pre ++ x) (length pre) n value shl
  = cyc_loop fuel x 0 n value shl.
Proof.
  induction fuel as [| fuel IH]; intros; cbn [cyc_loop]; [reflexivity |].
  rewrite leb_app, rd_app. cbn [Nat.add].
  destruct (Nat.leb (length x) n); [reflexivity |].
  destruct (rd x n) as [b | e | u]; cbn [bind]; try reflexivity.
  destruct (64 <? _); [reflexivity |].
  destruct (truth _); [apply IH | reflexivity].
Qed.

(** The callback as seen from behind a prefix. *)
Definition shift_cb (pre : list N) (cf : config) : config :=
  mk_config
    (option_map (fun (cb : callback) buf pos =>
                   cb (pre ++ buf) (length pre + pos)%nat) (cf_callback cf))
    (cf_errata cf) (cf_cpuid_0x15_eax cf) (cf_cpuid_0x15_ebx cf)
    (cf_mtc_freq cf) (cf_nom_freq cf) (cf_keep_tcal_on_ovf cf)
    (cf_enable_iflags_events cf) (cf_addr_filter cf).

Ltac shift_once :=
  first [ rewrite need_app | rewrite need_app_S | rewrite rd_app
        | rewrite rd_app_0 | rewrite rd_app_S
        | rewrite value_app | rewrite value_app_S | rewrite psb_loop_app
        | rewrite leb_app | rewrite leb_app_0 | rewrite cyc_loop_app ].

Ltac shift_step :=
  match goal with
  | |- bind ?m _ = bind ?m _ =>
      let x := fresh in destruct m as [x | |]; cbn [bind]; try reflexivity
  | |- (if ?b then _ else _) = (if ?b then _ else _) => destruct b; try reflexivity
  end.

Ltac shift_all :=
  cbn [plus]; rewrite <- ?Nat.add_assoc;
  repeat (repeat shift_once; try reflexivity; shift_step;
          rewrite <- ?Nat.add_assoc).

Lemma unknown_shift : forall cf pre x,
  pt_pkt_read_unknown cf (pre ++ x) (length pre)
  = pt_pkt_read_unknown (shift_cb pre cf) x 0.
Proof.
  intros. unfold pt_pkt_read_unknown. cbn [shift_cb cf_callback option_map].
  destruct (cf_callback cf) as [cb |]; cbn [option_map]; [| reflexivity].
  rewrite Nat.add_0_r. destruct (cb _ _); [reflexivity |].
  destruct (255 <? _); [reflexivity |]. now rewrite need_app.
Qed.

Lemma decode_shift : forall cf pre x,
  pt_pkt_decode cf (pre ++ x) (length pre)
  = pt_pkt_decode (shift_cb pre cf) x 0.
Proof.
  intros cf pre x. unfold pt_pkt_decode.
  rewrite leb_app_0. destruct (Nat.leb (length x) 0); [reflexivity |].
  rewrite rd_app_0. destruct (rd x 0) as [opc | e | u] eqn:Eopc; cbn [bind];
    try reflexivity.
  assert (Emode : pt_pkt_read_mode (pre ++ x) (length pre) = pt_pkt_read_mode x 0)
    by (unfold pt_pkt_read_mode; shift_all).
  assert (Emtc : pt_pkt_read_mtc (pre ++ x) (length pre) = pt_pkt_read_mtc x 0)
    by (unfold pt_pkt_read_mtc; shift_all).
  assert (Etsc : pt_pkt_read_tsc (pre ++ x) (length pre) = pt_pkt_read_tsc x 0)
    by (unfold pt_pkt_read_tsc; shift_all).
  assert (Etrig : pt_pkt_read_trig (pre ++ x) (length pre) = pt_pkt_read_trig x 0).
  { unfold pt_pkt_read_trig. rewrite <- !Nat.add_assoc. repeat shift_once.
    cbn [Nat.add]. reflexivity. }
  assert (Epsb : pt_pkt_read_psb (pre ++ x) (length pre) = pt_pkt_read_psb x 0)
    by (unfold pt_pkt_read_psb; shift_all).
  assert (Ecbr : pt_pkt_read_cbr (pre ++ x) (length pre) = pt_pkt_read_cbr x 0)
    by (unfold pt_pkt_read_cbr; shift_all).
  assert (Etma0 : pt_pkt_read_tma (pre ++ x) (length pre) = pt_pkt_read_tma x 0).
  { unfold pt_pkt_read_tma. repeat shift_once. cbn [Nat.add]. reflexivity. }
  assert (Etma : pt_pkt_decode_tma cf (pre ++ x) (length pre)
                 = pt_pkt_decode_tma (shift_cb pre cf) x 0)
    by (unfold pt_pkt_decode_tma; rewrite Etma0; reflexivity).
  assert (Epip : pt_pkt_read_pip (pre ++ x) (length pre) = pt_pkt_read_pip x 0)
    by (unfold pt_pkt_read_pip; shift_all).
  assert (Evmcs : pt_pkt_read_vmcs (pre ++ x) (length pre) = pt_pkt_read_vmcs x 0)
    by (unfold pt_pkt_read_vmcs; shift_all).
  assert (Eexstop : pt_pkt_read_exstop (pre ++ x) (length pre)
                    = pt_pkt_read_exstop x 0)
    by (unfold pt_pkt_read_exstop; shift_all).
  assert (Emwait : pt_pkt_read_mwait (pre ++ x) (length pre)
                   = pt_pkt_read_mwait x 0).
  { unfold pt_pkt_read_mwait. rewrite <- !Nat.add_assoc. repeat shift_once.
    reflexivity. }
  assert (Epwre : pt_pkt_read_pwre (pre ++ x) (length pre) = pt_pkt_read_pwre x 0)
    by (unfold pt_pkt_read_pwre; shift_all).
  assert (Epwrx : pt_pkt_read_pwrx (pre ++ x) (length pre) = pt_pkt_read_pwrx x 0)
    by (unfold pt_pkt_read_pwrx; shift_all).
  assert (Etnt64 : pt_pkt_read_tnt_64 (pre ++ x) (length pre)
                   = pt_pkt_read_tnt_64 x 0)
    by (unfold pt_pkt_read_tnt_64; shift_all).
  assert (Ecfe : pt_pkt_read_cfe (pre ++ x) (length pre) = pt_pkt_read_cfe x 0).
  { unfold pt_pkt_read_cfe. rewrite <- !Nat.add_assoc. repeat shift_once.
    reflexivity. }
  assert (Eevd : pt_pkt_read_evd (pre ++ x) (length pre) = pt_pkt_read_evd x 0).
  { unfold pt_pkt_read_evd. rewrite <- !Nat.add_assoc. repeat shift_once.
    reflexivity. }
  assert (Emnt : pt_pkt_read_mnt (pre ++ x) (length pre) = pt_pkt_read_mnt x 0)
    by (unfold pt_pkt_read_mnt; shift_all).
  assert (Eptw : pt_pkt_read_ptw (pre ++ x) (length pre) = pt_pkt_read_ptw x 0).
  { unfold pt_pkt_read_ptw. rewrite rd_app. cbn [Nat.add].
    destruct (rd x 1); cbn [bind]; try reflexivity.
    destruct (pt_ptw_size _); cbn [bind]; try reflexivity.
    rewrite <- !Nat.add_assoc, need_app, value_app. reflexivity. }
  assert (Etnt8 : pt_pkt_read_tnt_8 (pre ++ x) (length pre)
                  = pt_pkt_read_tnt_8 x 0)
    by (unfold pt_pkt_read_tnt_8; shift_all).
  assert (Eip : pt_pkt_read_ip (pre ++ x) (length pre) = pt_pkt_read_ip x 0).
  { unfold pt_pkt_read_ip. rewrite rd_app_0.
    destruct (rd x 0); cbn [bind]; try reflexivity.
    destruct (pt_pkt_ip_size _); cbn [bind]; try reflexivity.
    change (S (length pre) + a0)%nat with (S (length pre + a0))%nat.
    rewrite need_app_S, value_app_S. reflexivity. }
  assert (Ecyc : pt_pkt_decode_cyc cf (pre ++ x) (length pre)
                 = pt_pkt_decode_cyc (shift_cb pre cf) x 0).
  { unfold pt_pkt_decode_cyc, pt_pkt_read_cyc, pt_pkt_handle_skd007.
    rewrite rd_app_0. cbn [shift_cb cf_errata].
    destruct (rd x 0); cbn [bind]; try reflexivity.
    cbv zeta. rewrite cyc_loop_app.
    match goal with |- bind ?m _ = bind ?m _ =>
      destruct m as [[v s] | |]; cbn [bind]; try reflexivity end.
    rewrite leb_app, rd_app. reflexivity. }
  rewrite Emode, Emtc, Etsc, Etrig, Ecyc, Etnt8, Eip, Epsb, Ecbr, Etma, Epip, Evmcs,
    Eexstop, Emwait, Epwre, Epwrx, Etnt64, Ecfe, Eevd, Emnt, Eptw.
  rewrite unknown_shift. rewrite !leb_app, !rd_app. reflexivity.
Qed.
