(** The packet decoder reads back every specified packet. *)

From Verif Require Import Base M_packet M_config M_pktdec S_packet L_bytes L_fin
  L_wire L_pktdec.
From Coq Require Import List NArith ZArith Lia Bool Arith.
From Coq Require Import ZifyBool ZifyNat ZifyN.
Import ListNotations.
Open Scope N_scope.
Ltac Zify.zify_post_hook ::= Z.div_mod_to_equations.

Lemma need_ok : forall buf n, (n <= length buf)%nat -> need buf n = Ok tt.
Proof.
  intros buf n H. unfold need.
  destruct (Nat.ltb_spec (length buf) n); [lia | reflexivity].
Qed.

Ltac len := cbn [length app Nat.add]; rewrite ?app_length, ?le_length;
            cbn [length app Nat.add]; lia.

Lemma value_at : forall pre n v post,
  (n <= 8)%nat -> v < 2 ^ (8 * N.of_nat n) ->
  pt_pkt_read_value (pre ++ le n v ++ post) (length pre) n = Ok v.
Proof. intros. now apply read_value_le. Qed.

Lemma ldiff_ones_0 : forall a n, a < 2 ^ n -> N.ldiff a (N.ones n) = 0.
Proof.
  intros a n H. destruct (N.eq_dec a 0) as [-> | Hne]; [apply N.ldiff_0_l |].
  apply N.ldiff_ones_r_low. apply N.log2_lt_pow2; [lia | exact H].
Qed.

(** TNT payloads. *)
Lemma tnt_loop : forall fuel bs pl size,
  pl < 2 ^ bs -> bs < N.of_nat fuel ->
  tnt_bit_size_loop fuel (2 ^ bs + pl) size = size + bs.
Proof.
  induction fuel as [| fuel IH]; intros bs pl size Hpl Hf; [lia |].
  cbn [tnt_bit_size_loop]. rewrite N.shiftr_div_pow2. change (2 ^ 1) with 2.
  destruct (N.eq_dec bs 0) as [-> | Hne].
  - change (2 ^ 0) with 1 in *. assert (pl = 0) by lia. subst pl.
    change ((1 + 0) / 2 =? 0) with true. cbv iota. lia.
  - assert (E : (2 ^ bs + pl) / 2 = 2 ^ (bs - 1) + pl / 2).
    { replace (2 ^ bs) with (2 ^ (bs - 1) * 2).
      - rewrite N.div_add_l by discriminate. reflexivity.
      - rewrite N.mul_comm, <- N.pow_succ_r'. f_equal. lia. }
    rewrite E.
    assert (Hp : 2 ^ bs = 2 * 2 ^ (bs - 1))
      by (rewrite <- N.pow_succ_r'; f_equal; lia).
    assert (0 < 2 ^ (bs - 1))
      by (apply N.neq_0_lt_0, N.pow_nonzero; discriminate).
    destruct (N.eqb_spec (2 ^ (bs - 1) + pl / 2) 0); [lia |].
    rewrite IH; lia.
Qed.

Lemma read_tnt_ok : forall bs pl, 1 <= bs < 64 -> pl < 2 ^ bs ->
  pt_pkt_read_tnt (2 ^ bs + pl) = Ok (mk_tnt bs pl).
Proof.
  intros bs pl Hbs Hpl. unfold pt_pkt_read_tnt, pt_pkt_tnt_bit_size.
  rewrite tnt_loop by (cbn; lia). rewrite N.add_0_l.
  destruct (N.eqb_spec bs 0); [lia |]. do 2 f_equal.
  assert (E : 2 ^ bs + pl = N.lor pl (N.shiftl 1 bs)).
  { rewrite lor_shift by exact Hpl. lia. }
  rewrite E. rewrite <- N.sub_nocarry_ldiff.
  - rewrite lor_shift by exact Hpl. rewrite N.shiftl_mul_pow2. lia.
  - apply N.bits_inj_iff. intros i.
    rewrite N.ldiff_spec, N.lor_spec, N.bits_0.
    destruct (N.testbit pl i), (N.testbit (N.shiftl 1 bs) i); reflexivity.
Qed.

(** CYC continuation. *)
Lemma cyc_groups_length : forall n v, (length (cyc_groups n v) <= n)%nat.
Proof.
  induction n as [| n IH]; intros v; cbn [cyc_groups]; [cbn; lia |].
  destruct (v =? 0); cbn [length]; [lia |]. specialize (IH (v / 128)). lia.
Qed.

Lemma cyc_loop_groups : forall n fuel pre post q value shl,
  q <> 0 -> q < 2 ^ (7 * N.of_nat n) -> (n < fuel)%nat ->
  value < 2 ^ shl -> shl + 7 * N.of_nat n <= 61 ->
  cyc_loop fuel (pre ++ cyc_groups n q ++ post) 0 (length pre) value shl
  = Ok (value + q * 2 ^ shl, (length pre + length (cyc_groups n q))%nat).
Proof.
  induction n as [| n IH]; intros fuel pre post q value shl Hq Hlt Hf Hv Hs.
  - change (2 ^ (7 * N.of_nat 0)) with 1 in Hlt. lia.
  - destruct fuel as [| fuel]; [lia |].
    cbn [cyc_loop cyc_groups].
    destruct (N.eqb_spec q 0) as [H0 | _]; [contradiction |].
    set (b := 2 * (q mod 128) + (if q / 128 =? 0 then 0 else 1)).
    cbn [app]. rewrite Nat.add_0_l.
    destruct (Nat.leb_spec
      (length (pre ++ b :: cyc_groups n (q / 128) ++ post)) (length pre))
      as [H | _]; [rewrite app_length in H; cbn [length] in H; lia |].
    rewrite rd_app_0. cbn [rd nth_error bind].
    assert (Hb : N.land b pt_opm_cycx_ext = if q / 128 =? 0 then 0 else 1).
    { unfold pt_opm_cycx_ext. change 1 with (N.ones 1) at 1.
      rewrite N.land_ones. change (2 ^ 1) with 2. subst b.
      destruct (q / 128 =? 0); lia. }
    assert (Hr : N.shiftr b pt_opm_cycx_shr = q mod 128).
    { unfold pt_opm_cycx_shr. rewrite N.shiftr_div_pow2. change (2 ^ 1) with 2.
      subst b. destruct (q / 128 =? 0); lia. }
    rewrite Hb, Hr.
    assert (Hsh : shl64 (q mod 128) shl = N.shiftl (q mod 128) shl).
    { unfold shl64. apply N.mod_small. rewrite N.shiftl_mul_pow2.
      apply N.lt_le_trans with (2 ^ 7 * 2 ^ shl).
      - apply N.mul_lt_mono_pos_r.
        + apply N.neq_0_lt_0, N.pow_nonzero. discriminate.
        + change (2 ^ 7) with 128. lia.
      - rewrite <- N.pow_add_r. apply N.pow_le_mono_r; lia. }
    rewrite Hsh, lor_shift by exact Hv.
    unfold pt_opm_cycx_shr. change (8 - 1) with 7.
    destruct (N.ltb_spec 64 (shl + 7)) as [H | _]; [lia |].
    assert (Hdm : q = q / 128 * 128 + q mod 128) by lia.
    destruct (N.eqb_spec (q / 128) 0) as [H0 | Hne].
    + change (truth 0) with false. cbv iota. f_equal. f_equal.
      * rewrite H0 in Hdm. rewrite Hdm at 2. lia.
      * rewrite H0. destruct n; cbn; lia.
    + change (truth 1) with true. cbv iota.
      replace (pre ++ b :: cyc_groups n (q / 128) ++ post)
        with ((pre ++ [b]) ++ cyc_groups n (q / 128) ++ post)
        by (rewrite <- app_assoc; reflexivity).
      replace (S (length pre)) with (length (pre ++ [b]))
        by (rewrite app_length; cbn; lia).
      rewrite IH.
      * f_equal. f_equal.
        -- rewrite N.pow_add_r. change (2 ^ 7) with 128.
           rewrite Hdm at 3. ring.
        -- rewrite app_length. cbn [length]. lia.
      * exact Hne.
      * apply N.div_lt_upper_bound; [discriminate |].
        replace (7 * N.of_nat (S n)) with (7 + 7 * N.of_nat n) in Hlt by lia.
        rewrite N.pow_add_r in Hlt. exact Hlt.
      * lia.
      * rewrite N.pow_add_r. change (2 ^ 7) with 128.
        assert (q mod 128 < 128) by (apply N.mod_lt; discriminate). nia.
      * lia.
Qed.

Lemma cyc_groups_nonempty : forall n q, q <> 0 -> cyc_groups (S n) q <> [].
Proof.
  intros n q H. cbn [cyc_groups]. destruct (N.eqb_spec q 0); [contradiction |].
  discriminate.
Qed.

Lemma cyc_groups_0 : forall n, cyc_groups n 0 = [].
Proof. destruct n; reflexivity. Qed.

Lemma cyc_groups_len1 : forall q, length (cyc_groups 8 q) = 1%nat -> q < 128.
Proof.
  intros q. cbn [cyc_groups]. destruct (q =? 0); cbn [length]; [lia |].
  destruct (N.eqb_spec (q / 128) 0); cbn [length]; lia.
Qed.

Lemma read_cyc_ok : forall v post, v < 2 ^ 61 ->
  pt_pkt_read_cyc (wire (P_cyc v) ++ post) 0 = Ok (v, length (wire (P_cyc v))).
Proof.
  intros v post Hv. cbn [wire].
  set (b0 := 3 + (if v / 32 =? 0 then 0 else 4) + 8 * (v mod 32)).
  assert (Hx : truth (N.land b0 pt_opm_cyc_ext) = negb (v / 32 =? 0) /\
               N.shiftr b0 pt_opm_cyc_shr = v mod 32).
  { assert (Hr : v mod 32 < 32) by (apply N.mod_lt; discriminate).
    subst b0. generalize (v / 32 =? 0). intros b. revert Hr.
    generalize (v mod 32). intros r Hr.
    assert (H : (Bool.eqb (truth (N.land (3 + (if b then 0 else 4) + 8 * r)
                                         pt_opm_cyc_ext)) (negb b) &&
                 (N.shiftr (3 + (if b then 0 else 4) + 8 * r) pt_opm_cyc_shr
                  =? r)) = true).
    { revert r Hr. destruct b; apply (forall_upto _ 32); vm_compute; reflexivity. }
    apply andb_prop in H. destruct H as [H1 H2]. split.
    - now apply eqb_prop.
    - now apply N.eqb_eq. }
  destruct Hx as [Hx Hs].
  unfold pt_pkt_read_cyc. cbn [app rd nth_error bind]. rewrite Hx, Hs.
  destruct (N.eqb_spec (v / 32) 0) as [H0 | Hne]; cbn [negb].
  - rewrite H0, cyc_groups_0. cbn [length]. f_equal. f_equal. lia.
  - change (b0 :: cyc_groups 8 (v / 32) ++ post)
      with ([b0] ++ cyc_groups 8 (v / 32) ++ post).
    change 1%nat with (length [b0]). unfold pt_opm_cyc_shr. change (8 - 3) with 5.
    rewrite cyc_loop_groups.
    + f_equal. f_equal. change (2 ^ 5) with 32. lia.
    + exact Hne.
    + change (2 ^ (7 * N.of_nat 8)) with (2 ^ 56).
      change (2 ^ 61) with (32 * 2 ^ 56) in Hv.
      apply N.div_lt_upper_bound; [discriminate | exact Hv].
    + lia.
    + change (2 ^ 5) with 32. lia.
    + cbn. lia.
Qed.

Lemma skd007_size2 : forall v, v < 2 ^ 61 -> length (wire (P_cyc v)) = 2%nat ->
  v < 4096.
Proof.
  intros v Hv H. cbn [wire length] in H. injection H as H.
  apply cyc_groups_len1 in H. lia.
Qed.

Lemma skd007_ldiff : forall v, v < 4096 ->
  (N.ldiff (u16 v) 0x1f =? 0x20) = ((32 <=? v) && (v <? 64)).
Proof.
  intros v Hv. apply eqb_prop. revert v Hv.
  apply (forall_upto (fun v => Bool.eqb (N.ldiff (u16 v) 0x1f =? 0x20)
                                        ((32 <=? v) && (v <? 64))) 4096).
  vm_compute. reflexivity.
Qed.

Lemma skd007_none : forall v post, v < 2 ^ 61 ->
  ~ skd007_pattern (P_cyc v) post ->
  pt_pkt_handle_skd007 (wire (P_cyc v) ++ post) 0 v (length (wire (P_cyc v)))
  = Ok None.
Proof.
  intros v post Hv Hn. unfold pt_pkt_handle_skd007.
  destruct (Nat.eqb_spec (length (wire (P_cyc v))) 2) as [H2 | _];
    cbn [negb]; [| reflexivity].
  rewrite skd007_ldiff by (now apply skd007_size2).
  destruct ((32 <=? v) && (v <? 64)) eqn:E; cbn [negb]; [| reflexivity].
  destruct (Nat.leb_spec (length (wire (P_cyc v) ++ post))
                         (0 + length (wire (P_cyc v)))) as [H | H]; [reflexivity |].
  rewrite Nat.add_0_l, rd_app_0.
  destruct post as [| b post]; [rewrite app_nil_r in H; lia |].
  cbn [rd nth_error bind].
  destruct (N.eqb_spec b pt_ext_ovf) as [-> | _]; cbn [negb]; [| reflexivity].
  exfalso. apply Hn. exists v. repeat split; lia.
Qed.

Lemma dispatch_cyc : forall cf r b rest,
  r < 32 ->
  pt_pkt_decode cf ((3 + (if b : bool then 0 else 4) + 8 * r) :: rest) 0
  = pt_pkt_decode_cyc cf ((3 + (if b then 0 else 4) + 8 * r) :: rest) 0.
Proof.
  intros cf r b rest Hr. unfold pt_pkt_decode.
  cbn [length Nat.leb rd nth_error bind].
  set (o := 3 + (if b then 0 else 4) + 8 * r).
  assert (H : (negb (o =? pt_opc_mode) && negb (o =? pt_opc_mtc)
               && negb (o =? pt_opc_tsc) && negb (o =? pt_opc_pad)
               && negb (o =? pt_opc_trig) && negb (o =? pt_opc_ext)
               && (N.land o pt_opm_cyc =? pt_opc_cyc)) = true).
  { subst o. revert r Hr. destruct b; apply (forall_upto _ 32); vm_compute;
      reflexivity. }
  repeat (apply andb_prop in H; destruct H as [H ?]).
  repeat match goal with H : negb _ = true |- _ => apply negb_true_iff in H;
    rewrite H; clear H end.
  rewrite H0. reflexivity.
Qed.

Definition skd007_free (cf : config) (p : payload) (post : list N) : Prop :=
  er_skd007 (cf_errata cf) = false \/ ~ skd007_pattern p post.

Lemma ip_wire_dec : forall opc mk cf ip post,
  In (opc, mk) [(0x1d, P_fup); (0x0d, P_tip); (0x11, P_tip_pge); (0x01, P_tip_pgd)] ->
  ip_in_range ip ->
  pt_pkt_decode cf (ip_wire opc ip ++ post) 0
  = Ok (mk_decoded (mk ip) (length (ip_wire opc ip)) 0).
Proof.
  intros opc mk cf [ipc ip] post Hin Hr. unfold ip_in_range, ip_wire in *.
  cbn [ip_ipc ip_ip] in *.
  destruct (ip_bytes ipc) as [n |] eqn:E; [| contradiction].
  assert (Hread : forall b0 ipc' n', (1 <= n')%nat -> (n' <= 8)%nat ->
            N.land (N.shiftr b0 pt_opm_ipc_shr) pt_opm_ipc_shr_mask = ipc' ->
            pt_pkt_ip_size ipc' = Ok n' -> ip < 2 ^ (8 * N.of_nat n') ->
            pt_pkt_read_ip (b0 :: le n' ip ++ post) 0
            = Ok (mk_ip ipc' ip, S n')).
  { intros b0 ipc' n' H1 H8 Hipc Hsz Hlt. unfold pt_pkt_read_ip.
    cbn [rd nth_error bind]. rewrite Hipc, Hsz. cbn [bind].
    rewrite need_ok by len. cbn [bind].
    destruct n' as [| n']; [lia |].
    change (b0 :: le (S n') ip ++ post) with ([b0] ++ le (S n') ip ++ post).
    change 1%nat with (length [b0]).
    rewrite value_at by (assumption || lia). reflexivity. }
  apply ip_bytes_spec in E.
  cbn [app length]. rewrite le_length.
  cbn [In] in Hin.
  destruct Hin as [Hin | [Hin | [Hin | [Hin | []]]]]; injection Hin as <- <-;
  (destruct E as [[-> ->] | [[-> ->] | [[-> ->] | [[-> ->] | [[-> ->] | [-> ->]]]]]];
   [ change (8 * N.of_nat 0) with 0 in Hr; change (2 ^ 0) with 1 in Hr;
     assert (ip = 0) by lia; subst ip; reflexivity
   | .. ]);
  match goal with |- pt_pkt_decode _ (?b0 :: le ?n _ ++ _) 0
                    = Ok (mk_decoded (?mk (mk_ip ?ipc _)) _ _) =>
    transitivity (as_ip mk (pt_pkt_read_ip (b0 :: le n ip ++ post) 0));
      [reflexivity |];
    rewrite (Hread b0 ipc n); [reflexivity | lia | lia | reflexivity
                              | reflexivity | exact Hr]
  end.
Qed.

Ltac dispatch t :=
  transitivity (plain t); [reflexivity |].

Lemma decode_wire : forall cf p post, in_range p -> skd007_free cf p post ->
  pt_pkt_decode cf (wire p ++ post) 0
  = Ok (mk_decoded p (length (wire p)) 0).
Proof.
  intros cf p post Hr Hskd.
  destruct p; cbn [in_range] in Hr; try contradiction; cbn [wire].
  - (* pad *) reflexivity.
  - (* psb *) cbn [app]. dispatch (pt_pkt_read_psb
      (0x02 :: 0x82 :: 0x02 :: 0x82 :: 0x02 :: 0x82 :: 0x02 :: 0x82 ::
       0x02 :: 0x82 :: 0x02 :: 0x82 :: 0x02 :: 0x82 :: 0x02 :: 0x82 :: post) 0).
    unfold pt_pkt_read_psb. rewrite need_ok by (unfold ptps_psb; len). reflexivity.
  - reflexivity.
  - apply (ip_wire_dec _ P_fup); [cbn; auto 9 | exact Hr].
  - apply (ip_wire_dec _ P_tip); [cbn; auto 9 | exact Hr].
  - apply (ip_wire_dec _ P_tip_pge); [cbn; auto 9 | exact Hr].
  - apply (ip_wire_dec _ P_tip_pgd); [cbn; auto 9 | exact Hr].
  - (* tnt_8 *) destruct tnt as [bs pl]. unfold tnt_in_range in Hr.
    cbn [tnt_bit_size tnt_payload] in *. destruct Hr as [[H1 H6] Hpl].
    assert (Hpl64 : pl < 64).
    { eapply N.lt_le_trans; [exact Hpl |]. change 64 with (2 ^ 6).
      apply N.pow_le_mono_r; lia. }
    assert (Hb : exists b, b = 2 * (2 ^ bs + pl)
                 /\ b = 2 * (2 ^ bs + pl)) by eauto.
    destruct Hb as (b & Eb & _). rewrite <- Eb.
    assert (H : (negb (b =? pt_opc_mode) && negb (b =? pt_opc_mtc)
               && negb (b =? pt_opc_tsc) && negb (b =? pt_opc_pad)
               && negb (b =? pt_opc_trig) && negb (b =? pt_opc_ext)
               && negb (N.land b pt_opm_cyc =? pt_opc_cyc)
               && (N.land b pt_opm_tnt_8 =? pt_opc_tnt_8)
               && (N.shiftr b pt_opm_tnt_8_shr =? 2 ^ bs + pl)) = true).
    { subst b.
      assert (Hall : forallb (fun bs => forallb (fun pl =>
         let b := 2 * (2 ^ bs + pl) in
         negb ((1 <=? bs) && (pl <? 2 ^ bs)) ||
         (negb (b =? pt_opc_mode) && negb (b =? pt_opc_mtc)
               && negb (b =? pt_opc_tsc) && negb (b =? pt_opc_pad)
               && negb (b =? pt_opc_trig) && negb (b =? pt_opc_ext)
               && negb (N.land b pt_opm_cyc =? pt_opc_cyc)
               && (N.land b pt_opm_tnt_8 =? pt_opc_tnt_8)
               && (N.shiftr b pt_opm_tnt_8_shr =? 2 ^ bs + pl))) (upto 64)) (upto 7)
         = true) by (vm_compute; reflexivity).
      assert (Hbs : bs < N.of_nat 7) by lia.
      pose proof (forall_upto2 _ 7 64 Hall bs pl Hbs Hpl64) as H. cbv zeta in H.
      apply orb_prop in H. destruct H as [H | H]; [| exact H].
      apply N.leb_le in H1. apply N.ltb_lt in Hpl. rewrite H1, Hpl in H.
      discriminate. }
    repeat (apply andb_prop in H; destruct H as [H ?]).
    unfold pt_pkt_decode. cbn [length app Nat.leb rd nth_error bind].
    repeat match goal with H : negb _ = true |- _ => apply negb_true_iff in H;
      rewrite H; clear H end.
    match goal with H : (N.land b _ =? pt_opc_tnt_8) = true |- _ => rewrite H end.
    unfold pt_pkt_read_tnt_8. cbn [rd nth_error bind].
    match goal with H : (N.shiftr b _ =? _) = true |- _ =>
      apply N.eqb_eq in H; rewrite H end.
    rewrite read_tnt_ok by (assumption || lia). reflexivity.
  - (* tnt_64 *) destruct tnt as [bs pl]. unfold tnt_in_range in Hr.
    cbn [tnt_bit_size tnt_payload] in *. destruct Hr as [[H1 H47] Hpl].
    cbn [app].
    dispatch (pt_pkt_read_tnt_64 (0x02 :: 0xa3 :: le 6 (2 ^ bs + pl) ++ post) 0).
    unfold pt_pkt_read_tnt_64. rewrite need_ok by (unfold ptps_tnt_64; len).
    cbn [bind Nat.add].
    change (0x02 :: 0xa3 :: le 6 (2 ^ bs + pl) ++ post)
      with ([0x02; 0xa3] ++ le 6 (2 ^ bs + pl) ++ post).
    change pt_opcs_tnt_64 with (length [0x02; 0xa3]).
    unfold pt_pl_tnt_64_size. rewrite value_at.
    + cbn [bind]. rewrite read_tnt_ok by (assumption || lia). reflexivity.
    + lia.
    + change (2 ^ (8 * N.of_nat 6)) with (2 ^ 47 * 2).
      assert (2 ^ bs <= 2 ^ 47) by (apply N.pow_le_mono_r; lia). lia.
  - (* mode *) destruct mode as [csl csd iflag | intx abrt |]; [| | contradiction].
    + destruct csl, csd, iflag; reflexivity.
    + destruct intx, abrt; reflexivity.
  - (* pip *) destruct Hr as [H52 H32].
    change (2 ^ 52) with 4503599627370496 in H52. cbn [app].
    dispatch (pt_pkt_read_pip
                (0x02 :: 0x43 :: le 6 (2 * (cr3 / 32) + b2n nr) ++ post) 0).
    unfold pt_pkt_read_pip. rewrite need_ok by (unfold ptps_pip; len).
    cbn [bind Nat.add].
    change (0x02 :: 0x43 :: le 6 (2 * (cr3 / 32) + b2n nr) ++ post)
      with ([0x02; 0x43] ++ le 6 (2 * (cr3 / 32) + b2n nr) ++ post).
    change pt_opcs_pip with (length [0x02; 0x43]).
    unfold pt_pl_pip_size.
    assert (Hb : b2n nr <= 1) by (destruct nr; cbn; lia).
    rewrite value_at; [| lia
      | change (2 ^ (8 * N.of_nat 6)) with 281474976710656; lia].
    cbn [bind plain].
    assert (E1 : truth (N.land (2 * (cr3 / 32) + b2n nr) pt_pl_pip_nr) = nr).
    { unfold pt_pl_pip_nr. change 1 with (N.ones 1). rewrite N.land_ones.
      change (2 ^ 1) with 2. unfold truth. destruct nr; cbn [b2n];
      match goal with |- negb (?a =? 0) = _ =>
        destruct (N.eqb_spec a 0); cbn [negb]; (reflexivity || lia) end. }
    assert (E2 : shl64 (N.shiftr (2 * (cr3 / 32) + b2n nr) pt_pl_pip_shr)
                       pt_pl_pip_shl = cr3).
    { unfold shl64, pt_pl_pip_shr, pt_pl_pip_shl.
      rewrite N.shiftr_div_pow2, N.shiftl_mul_pow2.
      change (2 ^ 1) with 2. change (2 ^ 5) with 32.
      change (2 ^ 64) with 18446744073709551616.
      replace ((2 * (cr3 / 32) + b2n nr) / 2) with (cr3 / 32) by lia.
      rewrite N.mod_small by lia. lia. }
    rewrite E1, E2. reflexivity.
  - (* vmcs *) destruct Hr as [H52 H12].
    change (2 ^ 52) with 4503599627370496 in H52. cbn [app].
    dispatch (pt_pkt_read_vmcs (0x02 :: 0xc8 :: le 5 (base / 4096) ++ post) 0).
    unfold pt_pkt_read_vmcs. rewrite need_ok by (unfold ptps_vmcs; len).
    cbn [bind Nat.add].
    change (0x02 :: 0xc8 :: le 5 (base / 4096) ++ post)
      with ([0x02; 0xc8] ++ le 5 (base / 4096) ++ post).
    change pt_opcs_vmcs with (length [0x02; 0xc8]).
    unfold pt_pl_vmcs_size.
    rewrite value_at; [| lia
      | change (2 ^ (8 * N.of_nat 5)) with 1099511627776; lia].
    cbn [bind plain].
    assert (E : shl64 (base / 4096) pt_pl_vmcs_shl = base).
    { unfold shl64, pt_pl_vmcs_shl. rewrite N.shiftl_mul_pow2.
      change (2 ^ 12) with 4096. change (2 ^ 64) with 18446744073709551616.
      rewrite N.mod_small by lia. lia. }
    rewrite E. reflexivity.
  - (* cbr *) cbn [app].
    dispatch (pt_pkt_read_cbr (0x02 :: 0x03 :: ratio :: 0 :: post) 0).
    unfold pt_pkt_read_cbr. rewrite need_ok by (unfold ptps_cbr; len).
    reflexivity.
  - (* tsc *) cbn [app].
    dispatch (pt_pkt_read_tsc (0x19 :: le 7 tsc ++ post) 0).
    unfold pt_pkt_read_tsc. rewrite need_ok by (unfold ptps_tsc; len).
    cbn [bind Nat.add].
    change (0x19 :: le 7 tsc ++ post) with ([0x19] ++ le 7 tsc ++ post).
    change pt_opcs_tsc with (length [0x19]).
    unfold pt_pl_tsc_size. rewrite value_at; [reflexivity | lia | exact Hr].
  - (* tma *) destruct Hr as [Hc Hf].
    change (2 ^ 16) with 65536 in Hc. change (2 ^ 9) with 512 in Hf.
    transitivity (pt_pkt_decode_tma cf
      (0x02 :: 0x73 :: ctc mod 256 :: ctc / 256 mod 256 :: 0
        :: fc mod 256 :: fc / 256 mod 256 :: post) 0); [reflexivity |].
    unfold pt_pkt_decode_tma, pt_pkt_read_tma.
    rewrite need_ok by (unfold ptps_tma; len).
    cbn [bind Nat.add rd nth_error pt_pl_tma_ctc_0 pt_pl_tma_ctc_1
         pt_pl_tma_fc_0 pt_pl_tma_fc_1].
    assert (E : forall v, v < 65536 ->
              u16 (N.lor (v mod 256) (N.shiftl (v / 256 mod 256) 8)) = v).
    { intros v Hv. rewrite lor_shift by (apply N.mod_lt; discriminate).
      unfold u16, trunc. change (2 ^ 8) with 256. change (2 ^ 16) with 65536. lia. }
    rewrite !E by lia.
    change pt_pl_tma_fc_mask with (N.ones 9).
    rewrite ldiff_ones_0 by exact Hf. reflexivity.
  - (* mtc *) cbn [app]. dispatch (pt_pkt_read_mtc (0x59 :: ctc :: post) 0).
    unfold pt_pkt_read_mtc. rewrite need_ok by (unfold ptps_mtc; len).
    reflexivity.
  - (* cyc *)
    change ((3 + (if value / 32 =? 0 then 0 else 4) + 8 * (value mod 32)
               :: cyc_groups 8 (value / 32)) ++ post)
      with (3 + (if value / 32 =? 0 then 0 else 4) + 8 * (value mod 32)
               :: (cyc_groups 8 (value / 32) ++ post)).
    rewrite dispatch_cyc by (apply N.mod_lt; discriminate).
    change (3 + (if value / 32 =? 0 then 0 else 4) + 8 * (value mod 32)
               :: (cyc_groups 8 (value / 32) ++ post))
      with (wire (P_cyc value) ++ post).
    unfold pt_pkt_decode_cyc. rewrite read_cyc_ok by exact Hr. cbn [bind].
    destruct Hskd as [Hoff | Hno].
    + rewrite Hoff. reflexivity.
    + destruct (er_skd007 (cf_errata cf)); [| reflexivity].
      rewrite skd007_none by assumption. reflexivity.
  - reflexivity.
  - reflexivity.
  - (* mnt *) cbn [app].
    dispatch (pt_pkt_read_mnt (0x02 :: 0xc3 :: 0x88 :: le 8 payload ++ post) 0).
    unfold pt_pkt_read_mnt. rewrite need_ok by (unfold ptps_mnt; len).
    cbn [bind Nat.add].
    change (0x02 :: 0xc3 :: 0x88 :: le 8 payload ++ post)
      with ([0x02; 0xc3; 0x88] ++ le 8 payload ++ post).
    change pt_opcs_mnt with (length [0x02; 0xc3; 0x88]).
    unfold pt_pl_mnt_size. rewrite value_at; [reflexivity | lia | exact Hr].
  - (* exstop *) destruct ip; reflexivity.
  - (* mwait *) destruct Hr as [Hh He]. cbn [app].
    rewrite <- app_assoc.
    dispatch (pt_pkt_read_mwait
                (0x02 :: 0xc2 :: le 4 hints ++ le 4 ext ++ post) 0).
    unfold pt_pkt_read_mwait. rewrite need_ok by (unfold ptps_mwait; len).
    cbn [bind Nat.add].
    assert (E1 : pt_pkt_read_value (0x02 :: 0xc2 :: le 4 hints ++ le 4 ext ++ post)
                   pt_opcs_mwait pt_pl_mwait_hints_size = Ok hints)
      by (apply (value_at [0x02; 0xc2] 4); [lia | exact Hh]).
    assert (E2 : pt_pkt_read_value (0x02 :: 0xc2 :: le 4 hints ++ le 4 ext ++ post)
                   (pt_opcs_mwait + pt_pl_mwait_hints_size) pt_pl_mwait_ext_size
                 = Ok ext).
    { pose proof (value_at (0x02 :: 0xc2 :: le 4 hints) 4 ext post) as H.
      cbn [length app] in H. apply H; [lia | exact He]. }
    rewrite E1, E2. cbn [bind plain].
    unfold u32, trunc. rewrite !N.mod_small by assumption. reflexivity.
  - (* pwre *) destruct Hr as [H1 H2]. cbn [app].
    set (pl := 4096 * state + 256 * sub_state + 8 * b2n hw).
    dispatch (pt_pkt_read_pwre (0x02 :: 0x22 :: le 2 pl ++ post) 0).
    unfold pt_pkt_read_pwre. rewrite need_ok by (unfold ptps_pwre; len).
    cbn [bind Nat.add].
    change (0x02 :: 0x22 :: le 2 pl ++ post) with ([0x02; 0x22] ++ le 2 pl ++ post).
    change pt_opcs_pwre with (length [0x02; 0x22]).
    unfold pt_pl_pwre_size. rewrite value_at; [| lia
      | change (2 ^ (8 * N.of_nat 2)) with 65536; subst pl; destruct hw; cbn [b2n]; lia].
    cbn [bind plain].
    assert (E : (u8 (N.shiftr (N.land pl pt_pl_pwre_state_mask)
                              pt_pl_pwre_state_shr) =? state)
                && (u8 (N.shiftr (N.land pl pt_pl_pwre_sub_state_mask)
                                 pt_pl_pwre_sub_state_shr) =? sub_state)
                && Bool.eqb (truth (N.land pl pt_pl_pwre_hw_mask)) hw = true).
    { subst pl. clear Hskd. revert state sub_state H1 H2.
      destruct hw; apply (forall_upto2 _ 16 16); vm_compute; reflexivity. }
    apply andb_prop in E. destruct E as [E E3]. apply andb_prop in E.
    destruct E as [E1 E2]. apply N.eqb_eq in E1, E2. apply eqb_prop in E3.
    rewrite E1, E2, E3. reflexivity.
  - (* pwrx *) destruct Hr as [H1 H2]. cbn [app].
    set (pl := deepest + 16 * last + 256 * b2n interrupt + 1024 * b2n store
               + 2048 * b2n autonomous).
    dispatch (pt_pkt_read_pwrx (0x02 :: 0xa2 :: le 5 pl ++ post) 0).
    unfold pt_pkt_read_pwrx. rewrite need_ok by (unfold ptps_pwrx; len).
    cbn [bind Nat.add].
    change (0x02 :: 0xa2 :: le 5 pl ++ post) with ([0x02; 0xa2] ++ le 5 pl ++ post).
    change pt_opcs_pwrx with (length [0x02; 0xa2]).
    unfold pt_pl_pwrx_size. rewrite value_at; [| lia
      | change (2 ^ (8 * N.of_nat 5)) with 1099511627776; subst pl;
        destruct interrupt, store, autonomous; cbn [b2n]; lia].
    cbn [bind plain].
    assert (E : (u8 (N.shiftr (N.land pl pt_pl_pwrx_last_mask)
                              pt_pl_pwrx_last_shr) =? last)
                && (u8 (N.shiftr (N.land pl pt_pl_pwrx_deepest_mask)
                                 pt_pl_pwrx_deepest_shr) =? deepest)
                && Bool.eqb (truth (N.land pl pt_pl_pwrx_wr_int)) interrupt
                && Bool.eqb (truth (N.land pl pt_pl_pwrx_wr_store)) store
                && Bool.eqb (truth (N.land pl pt_pl_pwrx_wr_hw)) autonomous
                = true).
    { subst pl. clear Hskd. revert last deepest H1 H2.
      destruct interrupt, store, autonomous;
        apply (forall_upto2 _ 16 16); vm_compute; reflexivity. }
    repeat (apply andb_prop in E; destruct E as [E ?]).
    repeat match goal with
    | H : Bool.eqb _ _ = true |- _ => apply eqb_prop in H; rewrite H; clear H
    | H : (_ =? _) = true |- _ => apply N.eqb_eq in H; rewrite H; clear H
    end. reflexivity.
  - (* ptw *)
    destruct Hr as [[-> Hp] | [-> Hp]]; cbn [N.eqb app].
    + set (b := 18 + 32 * 0 + 128 * b2n ip).
      transitivity (plain (pt_pkt_read_ptw (0x02 :: b :: le 4 payload ++ post) 0)).
      * destruct ip; reflexivity.
      * unfold pt_pkt_read_ptw. cbn [Nat.add rd nth_error bind].
        replace (N.land (N.shiftr b pt_opm_ptw_pb_shr) pt_opm_ptw_pb_shr_mask)
          with 0 by (destruct ip; reflexivity).
        replace (truth (N.land b pt_opm_ptw_ip)) with ip
          by (destruct ip; reflexivity).
        change (pt_ptw_size 0) with (@Ok nat 4%nat). cbn [bind].
        rewrite need_ok by len. cbn [bind].
        change (0x02 :: b :: le 4 payload ++ post)
          with ([0x02; b] ++ le 4 payload ++ post).
        change 2%nat with (length [0x02; b]) at 1.
        rewrite value_at; [reflexivity | lia | exact Hp].
    + set (b := 18 + 32 * 1 + 128 * b2n ip).
      transitivity (plain (pt_pkt_read_ptw (0x02 :: b :: le 8 payload ++ post) 0)).
      * destruct ip; reflexivity.
      * unfold pt_pkt_read_ptw. cbn [Nat.add rd nth_error bind].
        replace (N.land (N.shiftr b pt_opm_ptw_pb_shr) pt_opm_ptw_pb_shr_mask)
          with 1 by (destruct ip; reflexivity).
        replace (truth (N.land b pt_opm_ptw_ip)) with ip
          by (destruct ip; reflexivity).
        change (pt_ptw_size 1) with (@Ok nat 8%nat). cbn [bind].
        rewrite need_ok by len. cbn [bind].
        change (0x02 :: b :: le 8 payload ++ post)
          with ([0x02; b] ++ le 8 payload ++ post).
        change 2%nat with (length [0x02; b]) at 1.
        rewrite value_at; [reflexivity | lia | exact Hp].
  - (* cfe *) destruct Hr as [H1 H2]. cbn [app].
    dispatch (pt_pkt_read_cfe
                (0x02 :: 0x13 :: type + 128 * b2n ip :: vector :: post) 0).
    unfold pt_pkt_read_cfe. rewrite need_ok by (unfold ptps_cfe; len).
    cbn [bind Nat.add rd nth_error pt_opcs_cfe plain].
    assert (E : (N.land (type + 128 * b2n ip) pt_pl_cfe_type =? type)
                && Bool.eqb (truth (N.land (type + 128 * b2n ip) pt_pl_cfe_ip)) ip
                = true).
    { clear Hskd. revert type H1. destruct ip; apply (forall_upto _ 32); vm_compute;
        reflexivity. }
    apply andb_prop in E. destruct E as [E1 E2]. apply N.eqb_eq in E1.
    apply eqb_prop in E2. rewrite E1, E2. reflexivity.
  - (* evd *) destruct Hr as [H1 H2]. cbn [app].
    dispatch (pt_pkt_read_evd (0x02 :: 0x53 :: type :: le 8 payload ++ post) 0).
    unfold pt_pkt_read_evd. rewrite need_ok by (unfold ptps_evd; len).
    cbn [bind Nat.add rd nth_error pt_opcs_evd].
    change (0x02 :: 0x53 :: type :: le 8 payload ++ post)
      with ([0x02; 0x53; type] ++ le 8 payload ++ post).
    change 3%nat with (length [0x02; 0x53; type]).
    unfold pt_pl_evd_pl_size. rewrite value_at; [| lia | exact H2].
    unfold pt_pl_evd_type. rewrite land_31 by exact H1. reflexivity.
  - (* trig *) destruct Hr as (Ht & Hi & Hz). cbn [app].
    destruct icntv.
    + set (b := 128 * b2n ip + 64 * b2n true + 32 * b2n mult).
      dispatch (pt_pkt_read_trig (0xd9 :: b :: trbv :: le 2 icnt ++ post) 0).
      unfold pt_pkt_read_trig. rewrite need_ok by (unfold ptps_trig; len).
      cbn [bind Nat.add rd nth_error pt_opcs_trig].
      replace (truth (N.land b pt_pl_trig_icntv)) with true
        by (destruct ip, mult; reflexivity).
      rewrite need_ok by (unfold ptps_trig_icnt; len). cbn [bind].
      change (0xd9 :: b :: trbv :: le 2 icnt ++ post)
        with ([0xd9; b; trbv] ++ le 2 icnt ++ post).
      change ptps_trig with (length [0xd9; b; trbv]).
      unfold pt_pl_trig_icnt_size. rewrite value_at; [| lia | exact Hi].
      cbn [bind rd app nth_error plain].
      unfold u16, trunc. rewrite N.mod_small by exact Hi.
      destruct ip, mult; reflexivity.
    + rewrite (Hz eq_refl). destruct ip, mult; reflexivity.
Qed.
