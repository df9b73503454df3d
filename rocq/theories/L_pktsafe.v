(** The packet decoder never reads outside the buffer, makes progress, and its
    result does not depend on bytes behind the packet. *)

From Verif Require Import Base M_packet M_config M_pktdec S_packet L_bytes L_fin
  L_pktdec L_decwire.
From Coq Require Import List NArith ZArith Lia Bool Arith.
From Coq Require Import ZifyBool ZifyNat ZifyN.
Import ListNotations.
Open Scope N_scope.

(** No undefined behaviour, and [Q] on success. *)
Definition safe {A} (r : res A) (Q : A -> Prop) : Prop :=
  match r with Ok a => Q a | Err _ => True | UB _ => False end.

Lemma safe_bind : forall A B (m : res A) (k : A -> res B) Q,
  safe m (fun a => safe (k a) Q) -> safe (bind m k) Q.
Proof. intros A B [a | e | u] k Q H; exact H. Qed.

Lemma safe_weaken : forall A (m : res A) (P Q : A -> Prop),
  safe m P -> (forall a, P a -> Q a) -> safe m Q.
Proof. intros A [a | e | u] P Q H HPQ; cbn in *; auto. Qed.

Lemma safe_need : forall buf n (Q : unit -> Prop),
  ((n <= length buf)%nat -> Q tt) -> safe (need buf n) Q.
Proof.
  intros buf n Q H. unfold need.
  destruct (Nat.ltb_spec (length buf) n); cbn; auto with arith.
Qed.

Lemma safe_rd : forall buf i (Q : N -> Prop),
  (i < length buf)%nat -> (forall b, rd buf i = Ok b -> Q b) -> safe (rd buf i) Q.
Proof.
  intros buf i Q Hi H. destruct (rd_ok buf i Hi) as [b Hb]. rewrite Hb.
  apply H. exact Hb.
Qed.

Lemma safe_val : forall buf pos n (Q : N -> Prop),
  (pos + n <= length buf)%nat -> (forall v, Q v) ->
  safe (pt_pkt_read_value buf pos n) Q.
Proof.
  intros buf pos n Q Hi H. unfold pt_pkt_read_value.
  destruct (read_value_no_err n buf pos 0 0 Hi) as [v Hv]. rewrite Hv. apply H.
Qed.

Lemma safe_psb_loop : forall n buf pos,
  (pos + 2 * n <= length buf)%nat -> safe (psb_loop buf pos n) (fun _ => True).
Proof.
  induction n as [| n IH]; intros buf pos H; cbn [psb_loop]; [exact I |].
  apply safe_bind, safe_rd; [lia |]. intros b _.
  destruct (negb _); [exact I |].
  apply safe_bind, safe_rd; [lia |]. intros b' _.
  destruct (negb _); [exact I |]. apply IH. lia.
Qed.

(** The loop counter cannot run out: every iteration adds seven to the shift
    count, which may not exceed 64. *)
Lemma safe_cyc_loop : forall fuel buf pos n value shl,
  1 <= shl -> 64 < shl + 7 * N.of_nat fuel -> (1 <= n)%nat ->
  safe (cyc_loop fuel buf pos n value shl)
       (fun r => (1 <= snd r)%nat /\ (pos + snd r <= length buf)%nat
                 /\ (snd r <= n + fuel)%nat) \/ (64 < shl).
Proof.
  induction fuel as [| fuel IH]; intros buf pos n value shl Hs Hf Hn;
    cbn [cyc_loop]; [right; lia |].
  destruct (Nat.leb_spec (length buf) (pos + n)) as [H | H]; [left; exact I |].
  destruct (rd_ok buf (pos + n) H) as [b Hb]. rewrite Hb. cbn [bind].
  unfold pt_opm_cycx_shr. change (8 - 1) with 7.
  destruct (N.ltb_spec 64 (shl + 7)) as [H64 | H64]; [left; exact I |].
  destruct (truth _).
  - destruct (IH buf pos (S n)
                 (N.lor value (shl64 (N.shiftr b 1) shl)) (shl + 7))
      as [IH' | IH']; [lia | lia | lia | left | lia].
    eapply safe_weaken; [exact IH' |]. cbv beta. intros r Hr. lia.
  - left. cbn [safe snd]. lia.
Qed.

Lemma safe_read_cyc : forall buf pos, (pos < length buf)%nat ->
  safe (pt_pkt_read_cyc buf pos)
       (fun r => (1 <= snd r)%nat /\ (pos + snd r <= length buf)%nat
                 /\ (snd r <= 17)%nat).
Proof.
  intros buf pos H. unfold pt_pkt_read_cyc.
  apply safe_bind, safe_rd; [exact H |]. intros b _.
  destruct (truth _).
  - unfold pt_opm_cyc_shr. change (8 - 3) with 5.
    destruct (safe_cyc_loop 16 buf pos 1 (N.shiftr b 3) 5) as [Hs | Hs];
      [lia | lia | lia | | lia].
    eapply safe_weaken; [exact Hs |]. cbv beta. intros r Hr. lia.
  - cbn [safe snd]. lia.
Qed.

(** What is known about a decoded packet at [pos]. *)
Definition good (cf : config) (len pos : nat) (d : decoded) : Prop :=
  match dc_pl d with
  | P_unknown _ => dc_skip d = 0%nat /\ (pos + dc_size d <= len)%nat
                   /\ (dc_size d <= 255)%nat
  | P_invalid => er_skz84 (cf_errata cf) = true /\ dc_skip d = 0%nat
                 /\ dc_size d = 8%nat /\ (pos + 7 <= len)%nat
  | _ => (dc_skip d = 0%nat \/
          er_skd007 (cf_errata cf) = true /\ dc_pl d = P_ovf /\
          dc_skip d = 1%nat /\ dc_size d = 2%nat)
         /\ (1 <= dc_size d <= 255)%nat
         /\ (pos + dc_skip d + dc_size d <= len)%nat
  end.

Ltac consts := unfold ptps_pad, ptps_tnt_8, ptps_mode, ptps_tsc, ptps_mtc, ptps_psb,
  ptps_psbend, ptps_ovf, ptps_pip, ptps_tnt_64, ptps_cbr, ptps_tma, ptps_stop,
  ptps_vmcs, ptps_mnt, ptps_exstop, ptps_mwait, ptps_pwre, ptps_pwrx, ptps_cfe,
  ptps_evd, ptps_trig, ptps_trig_icnt, pt_opcs_psb, pt_opcs_mode, pt_opcs_tsc,
  pt_opcs_mtc, pt_opcs_pip, pt_opcs_tnt_64, pt_opcs_vmcs, pt_opcs_mnt,
  pt_opcs_mwait, pt_opcs_pwre, pt_opcs_pwrx, pt_opcs_ptw, pt_opcs_cfe,
  pt_opcs_evd, pt_opcs_trig, pt_pl_pip_size, pt_pl_tnt_64_size, pt_pl_tsc_size,
  pt_pl_tma_ctc_0, pt_pl_tma_ctc_1, pt_pl_tma_fc_0, pt_pl_tma_fc_1,
  pt_pl_vmcs_size, pt_pl_mnt_size, pt_pl_mwait_hints_size, pt_pl_mwait_ext_size,
  pt_pl_pwre_size, pt_pl_pwrx_size, pt_pl_evd_pl_size, pt_pl_trig_icnt_size,
  pt_psb_repeat_count in *.

Ltac safe_step :=
  lazymatch goal with
  | |- safe (bind _ _) _ => apply safe_bind
  | |- safe (need _ _) _ => apply safe_need; intros ?
  | |- safe (rd _ _) _ => apply safe_rd; [consts; lia | intros ? ?]
  | |- safe (pt_pkt_read_value _ _ _) _ => apply safe_val; [consts; lia | intros ?]
  | |- safe (if ?b then _ else _) _ => destruct b
  | |- safe (Err _) _ => exact I
  | |- safe (Ok _) _ => cbn [safe]
  | |- safe (plain _) _ => unfold plain
  | |- safe (as_ip _ _) _ => unfold as_ip
  end.

Ltac good_done :=
  cbn [safe]; unfold good; cbn [dc_pl dc_skip dc_size]; consts;
  repeat split; auto; lia.

Ltac safe_read f := unfold f; repeat safe_step; good_done.

Lemma ptw_size_ok : forall plc, safe (pt_ptw_size plc) (fun n => n = 4 \/ n = 8)%nat.
Proof.
  intros plc. unfold pt_ptw_size. repeat destruct (_ =? _); cbn; auto.
Qed.

Lemma ip_size_ok : forall ipc, safe (pt_pkt_ip_size ipc) (fun n => (n <= 8)%nat).
Proof.
  intros ipc. unfold pt_pkt_ip_size. repeat destruct (_ =? _); cbn; auto with arith.
Qed.

Lemma safe_ip : forall buf pos, (pos < length buf)%nat ->
  safe (pt_pkt_read_ip buf pos)
       (fun r => (1 <= snd r <= 9)%nat /\ (pos + snd r <= length buf)%nat).
Proof.
  intros buf pos H. unfold pt_pkt_read_ip. repeat safe_step.
  eapply safe_weaken; [apply ip_size_ok |]. cbv beta. intros n Hn.
  repeat safe_step; cbn [safe snd]; lia.
Qed.

Lemma safe_unknown : forall cf buf pos,
  (pos < length buf)%nat ->
  safe (plain (pt_pkt_read_unknown cf buf pos)) (good cf (length buf) pos).
Proof.
  intros cf buf pos H. unfold pt_pkt_read_unknown, plain.
  destruct (cf_callback cf) as [cb |]; [| exact I].
  destruct (cb buf pos) as [e | size priv]; [exact I |].
  destruct (N.ltb_spec 255 size); [exact I |].
  repeat safe_step. cbn. lia.
Qed.

Lemma safe_tma : forall cf buf pos,
  (pos < length buf)%nat ->
  safe (pt_pkt_decode_tma cf buf pos) (good cf (length buf) pos).
Proof.
  intros cf buf pos H. unfold pt_pkt_decode_tma, pt_pkt_read_tma, need.
  destruct (Nat.ltb_spec (length buf) (pos + ptps_tma)) as [Hl | Hl];
    cbn [bind]; [exact I |].
  consts.
  destruct (rd_ok buf (pos + 2)) as [c0 ->]; [lia |].
  destruct (rd_ok buf (pos + 3)) as [c1 ->]; [lia |].
  destruct (rd_ok buf (pos + 5)) as [f0 ->]; [lia |].
  destruct (rd_ok buf (pos + 6)) as [f1 ->]; [lia |].
  destruct (rd_ok buf (pos + (3 + 1))) as [r0 ->]; [lia |].
  cbn [bind].
  repeat destruct (truth _); destruct (er_skz84 (cf_errata cf)) eqn:E;
    cbn [safe]; unfold good; cbn [dc_pl dc_skip dc_size]; repeat split; auto; lia.
Qed.

Lemma safe_cyc : forall cf buf pos,
  (pos < length buf)%nat ->
  safe (pt_pkt_decode_cyc cf buf pos) (good cf (length buf) pos).
Proof.
  intros cf buf pos H. unfold pt_pkt_decode_cyc. apply safe_bind.
  eapply safe_weaken; [apply safe_read_cyc; exact H |]. cbv beta.
  intros [v size] (H1 & H2 & H3). cbn [snd] in *.
  apply safe_bind.
  destruct (er_skd007 (cf_errata cf)) eqn:E.
  - unfold pt_pkt_handle_skd007.
    destruct (Nat.eqb_spec size 2) as [Hs | Hs]; cbn [negb]; [| good_done].
    destruct (negb _); [good_done |].
    destruct (Nat.leb_spec (length buf) (pos + size)); [good_done |].
    repeat safe_step; good_done.
  - good_done.
Qed.

Lemma decode_safe : forall cf buf pos,
  safe (pt_pkt_decode cf buf pos) (good cf (length buf) pos).
Proof.
  intros cf buf pos. unfold pt_pkt_decode.
  destruct (Nat.leb_spec (length buf) pos) as [H | H]; [exact I |].
  apply safe_bind, safe_rd; [exact H |]. intros opc _.
  destruct (opc =? pt_opc_mode); [safe_read pt_pkt_read_mode |].
  destruct (opc =? pt_opc_mtc); [safe_read pt_pkt_read_mtc |].
  destruct (opc =? pt_opc_tsc); [safe_read pt_pkt_read_tsc |].
  destruct (opc =? pt_opc_pad); [good_done |].
  destruct (opc =? pt_opc_trig); [safe_read pt_pkt_read_trig |].
  destruct (opc =? pt_opc_ext).
  - destruct (Nat.leb_spec (length buf) (pos + 1)) as [H1 | H1]; [exact I |].
    apply safe_bind, safe_rd; [exact H1 |]. intros ext _.
    destruct (ext =? pt_ext_psb).
    { unfold pt_pkt_read_psb. repeat safe_step.
      eapply safe_weaken; [apply safe_psb_loop; consts; lia |].
      intros _ _. good_done. }
    destruct (ext =? pt_ext_ovf); [good_done |].
    destruct (ext =? pt_ext_psbend); [good_done |].
    destruct (ext =? pt_ext_cbr); [safe_read pt_pkt_read_cbr |].
    destruct (ext =? pt_ext_tma); [now apply safe_tma |].
    destruct (ext =? pt_ext_pip); [safe_read pt_pkt_read_pip |].
    destruct (ext =? pt_ext_vmcs); [safe_read pt_pkt_read_vmcs |].
    destruct (_ || _); [safe_read pt_pkt_read_exstop |].
    destruct (ext =? pt_ext_mwait); [safe_read pt_pkt_read_mwait |].
    destruct (ext =? pt_ext_pwre); [safe_read pt_pkt_read_pwre |].
    destruct (ext =? pt_ext_pwrx); [safe_read pt_pkt_read_pwrx |].
    destruct (ext =? pt_ext_stop); [good_done |].
    destruct (ext =? pt_ext_tnt_64).
    { unfold pt_pkt_read_tnt_64, pt_pkt_read_tnt. repeat safe_step. good_done. }
    destruct (ext =? pt_ext_cfe); [safe_read pt_pkt_read_cfe |].
    destruct (ext =? pt_ext_evd); [safe_read pt_pkt_read_evd |].
    destruct (ext =? pt_ext_ext2).
    { destruct (Nat.leb_spec (length buf) (pos + 2)) as [H2 | H2]; [exact I |].
      apply safe_bind, safe_rd; [exact H2 |]. intros ext2 _.
      destruct (ext2 =? pt_ext2_mnt); [safe_read pt_pkt_read_mnt |].
      now apply safe_unknown. }
    destruct (_ =? pt_ext_ptw).
    { unfold pt_pkt_read_ptw. repeat safe_step.
      eapply safe_weaken; [apply ptw_size_ok |]. cbv beta. intros n Hn.
      repeat safe_step. good_done. }
    now apply safe_unknown.
  - destruct (_ =? pt_opc_cyc); [now apply safe_cyc |].
    destruct (_ =? pt_opc_tnt_8).
    { unfold pt_pkt_read_tnt_8, pt_pkt_read_tnt. repeat safe_step. good_done. }
    assert (Hip : forall f, (forall ip, match f ip with P_unknown _ | P_invalid => False | _ => True end) -> safe (as_ip f (pt_pkt_read_ip buf pos)) (good cf (length buf) pos)).
    { intros f Hf. unfold as_ip. apply safe_bind.
      eapply safe_weaken; [apply safe_ip; exact H |]. cbv beta.
      intros [ip n] [Hn1 Hn2]. cbn [snd safe] in *. unfold good.
      cbn [dc_pl dc_skip dc_size].
      specialize (Hf ip). destruct (f ip); try contradiction;
        (repeat split; auto; lia). }
    destruct (_ =? pt_opc_fup); [apply Hip; exact (fun _ => I) |].
    destruct (_ =? pt_opc_tip); [apply Hip; exact (fun _ => I) |].
    destruct (_ =? pt_opc_tip_pge); [apply Hip; exact (fun _ => I) |].
    destruct (_ =? pt_opc_tip_pgd); [apply Hip; exact (fun _ => I) |].
    now apply safe_unknown.
Qed.

(** * Stability under extension of the buffer *)

(** Either the shorter buffer runs out, or the results agree. *)
Definition stable {A} (r r' : res A) : Prop := r = Err pte_eos \/ r = r'.

Lemma stable_refl : forall A (r : res A), stable r r.
Proof. intros. right. reflexivity. Qed.

Lemma stable_bind : forall A B (m m' : res A) (k k' : A -> res B),
  stable m m' -> (forall a, m = Ok a -> stable (k a) (k' a)) ->
  stable (bind m k) (bind m' k').
Proof.
  intros A B m m' k k' [-> | <-] Hk; [left; reflexivity |].
  destruct m as [a | e | u]; cbn [bind]; [apply Hk; reflexivity | |];
    apply stable_refl.
Qed.

Lemma stable_need : forall buf ext n, stable (need buf n) (need (buf ++ ext) n).
Proof.
  intros buf ext n. unfold need. rewrite app_length.
  destruct (Nat.ltb_spec (length buf) n);
    destruct (Nat.ltb_spec (length buf + length ext) n);
    [left | left | | right]; try reflexivity; lia.
Qed.

Lemma need_le : forall buf n, need buf n = Ok tt -> (n <= length buf)%nat.
Proof.
  intros buf n. unfold need.
  destruct (Nat.ltb_spec (length buf) n); [discriminate | auto].
Qed.

Lemma stable_rd : forall buf ext i, (i < length buf)%nat ->
  stable (rd buf i) (rd (buf ++ ext) i).
Proof. intros. right. symmetry. now apply rd_ext. Qed.

Lemma stable_val : forall buf ext pos n, (pos + n <= length buf)%nat ->
  stable (pt_pkt_read_value buf pos n) (pt_pkt_read_value (buf ++ ext) pos n).
Proof. intros. right. symmetry. now apply read_value_ext. Qed.

Lemma stable_leb : forall A buf (ext : list N) k (a b : res A),
  ((k < length buf)%nat -> stable a b) ->
  stable (if Nat.leb (length buf) k then Err pte_eos else a)
         (if Nat.leb (length (buf ++ ext)) k then Err pte_eos else b).
Proof.
  intros A buf ext k a b H. rewrite app_length.
  destruct (Nat.leb_spec (length buf) k); [left; reflexivity |].
  destruct (Nat.leb_spec (length buf + length ext) k); [lia |]. now apply H.
Qed.

Lemma stable_psb : forall n buf ext pos, (pos + 2 * n <= length buf)%nat ->
  stable (psb_loop buf pos n) (psb_loop (buf ++ ext) pos n).
Proof.
  intros n buf ext pos H. right. revert pos H.
  induction n as [| n IH]; intros pos H; cbn [psb_loop]; [reflexivity |].
  rewrite !rd_ext by lia.
  destruct (rd buf pos); cbn [bind]; try reflexivity.
  destruct (negb _); [reflexivity |].
  destruct (rd buf (S pos)); cbn [bind]; try reflexivity.
  destruct (negb _); [reflexivity |]. apply IH. lia.
Qed.

Lemma stable_cyc_loop : forall fuel buf ext pos n value shl,
  stable (cyc_loop fuel buf pos n value shl)
         (cyc_loop fuel (buf ++ ext) pos n value shl).
Proof.
  induction fuel as [| fuel IH]; intros; cbn [cyc_loop]; [apply stable_refl |].
  apply stable_leb. intros H. apply stable_bind; [now apply stable_rd |].
  intros b _. destruct (64 <? _); [apply stable_refl |].
  destruct (truth _); [apply IH | apply stable_refl].
Qed.

Ltac stable_step :=
  lazymatch goal with
  | |- stable (bind _ _) (bind _ _) => apply stable_bind; [| intros ? ?]
  | |- stable (need _ _) _ => apply stable_need
  | |- stable (rd _ _) _ => apply stable_rd; consts; lia
  | |- stable (pt_pkt_read_value _ _ _) _ => apply stable_val; consts; lia
  | |- stable (if ?b then _ else _) (if ?b then _ else _) => destruct b
  | |- stable (if Nat.leb _ _ then _ else _) _ => apply stable_leb; intros ?
  | |- stable (plain _) _ => unfold plain
  | |- stable (as_ip _ _) _ => unfold as_ip
  | |- stable ?a ?a => apply stable_refl
  | |- stable (match ?a with (_, _) => _ end) _ => destruct a
  end;
  try match goal with
      | a : unit, H : need _ _ = Ok ?a |- _ => destruct a; apply need_le in H
      end.

Ltac stable_read f := unfold f; repeat stable_step.

(** The callback gives the same answer on the longer buffer. *)
Definition cb_stable (cf : config) (buf ext : list N) (pos : nat) : Prop :=
  forall cb, cf_callback cf = Some cb -> cb (buf ++ ext) pos = cb buf pos.

Lemma stable_unknown : forall cf buf ext pos, cb_stable cf buf ext pos ->
  stable (plain (pt_pkt_read_unknown cf buf pos))
         (plain (pt_pkt_read_unknown cf (buf ++ ext) pos)).
Proof.
  intros cf buf ext pos Hcb. unfold pt_pkt_read_unknown, plain.
  destruct (cf_callback cf) as [cb |] eqn:E; [| apply stable_refl].
  rewrite (Hcb cb E). destruct (cb buf pos); [apply stable_refl |].
  repeat stable_step.
Qed.

(** The one case where more bytes change the result: a CYC packet at the very end
    of the buffer that the SKD007 workaround would want to look behind. *)
Definition skd007_at_end (cf : config) (buf : list N) (pos : nat) : Prop :=
  er_skd007 (cf_errata cf) = true /\ (pos + 2 = length buf)%nat /\
  exists v, 32 <= v < 64 /\
            pt_pkt_decode cf buf pos = Ok (mk_decoded (P_cyc v) 2 0).

Lemma handle_stable : forall buf ext pos v size,
  (pos + size < length buf)%nat \/ (size <> 2)%nat
     \/ N.ldiff (u16 v) 0x1f <> 0x20 ->
  pt_pkt_handle_skd007 buf pos v size = pt_pkt_handle_skd007 (buf ++ ext) pos v size.
Proof.
  intros buf ext pos v size H. unfold pt_pkt_handle_skd007.
  destruct (Nat.eqb_spec size 2) as [Hs | Hs]; cbn [negb]; [| reflexivity].
  destruct (N.eqb_spec (N.ldiff (u16 v) 0x1f) 0x20) as [Hl | Hl]; cbn [negb];
    [| reflexivity].
  destruct H as [H | [H | H]]; [| contradiction | contradiction].
  rewrite app_length.
  destruct (Nat.leb_spec (length buf) (pos + size)); [lia |].
  destruct (Nat.leb_spec (length buf + length ext) (pos + size)); [lia |].
  now rewrite rd_ext by lia.
Qed.

Lemma read_cyc_2 : forall buf pos v, bytes_ok buf ->
  pt_pkt_read_cyc buf pos = Ok (v, 2%nat) -> v < 4096.
Proof.
  intros buf pos v Hok. unfold pt_pkt_read_cyc.
  destruct (rd buf pos) as [b | |] eqn:Eb; cbn [bind]; try discriminate.
  assert (Hb : b < 256) by (eapply rd_byte; eauto).
  destruct (truth _); [| discriminate].
  set (f := 15%nat). change (cyc_loop 16) with (cyc_loop (S f)). clearbody f.
  cbn [cyc_loop]. destruct (Nat.leb _ _); [discriminate |].
  destruct (rd buf (pos + 1)) as [c | |] eqn:Ec; cbn [bind]; try discriminate.
  assert (Hc : c < 256) by (eapply rd_byte; eauto).
  destruct (64 <? _); [discriminate |].
  destruct (truth _) eqn:Et.
  - intros H.
    exfalso.
    assert (G : forall fuel buf pos n value shl v m,
               cyc_loop fuel buf pos n value shl = Ok (v, m) -> (n < m)%nat).
    { clear. induction fuel as [| fuel IH]; intros buf pos n value shl v m;
        cbn [cyc_loop]; [discriminate |].
      destruct (Nat.leb _ _); [discriminate |].
      destruct (rd _ _); cbn [bind]; try discriminate.
      destruct (64 <? _); [discriminate |].
      destruct (truth _).
      - intros H. apply IH in H. lia.
      - intros [= _ <-]. lia. }
    apply G in H. lia.
  - intros [= <-].
    unfold pt_opm_cyc_shr, pt_opm_cycx_shr. change (8 - 3) with 5.
    rewrite !N.shiftr_div_pow2.
    change (2 ^ 3) with 8. change (2 ^ 1) with 2.
    assert (Hq : b / 8 < 2 ^ 5)
      by (apply N.div_lt_upper_bound; [discriminate | exact Hb]).
    assert (Hc2 : c / 2 < 128)
      by (apply N.div_lt_upper_bound; [discriminate | exact Hc]).
    unfold shl64.
    rewrite N.mod_small.
    + rewrite lor_shift by exact Hq. change (2 ^ 5) with 32 in *. lia.
    + rewrite N.shiftl_mul_pow2. change (2 ^ 5) with 32.
      change (2 ^ 64) with 18446744073709551616. lia.
Qed.

Lemma stable_cyc : forall cf buf ext pos, bytes_ok buf ->
  (pos < length buf)%nat ->
  (er_skd007 (cf_errata cf) = true -> (pos + 2 = length buf)%nat ->
   forall v, 32 <= v < 64 ->
             pt_pkt_decode_cyc cf buf pos <> Ok (mk_decoded (P_cyc v) 2 0)) ->
  stable (pt_pkt_decode_cyc cf buf pos) (pt_pkt_decode_cyc cf (buf ++ ext) pos).
Proof.
  intros cf buf ext pos Hok Hp Hno.
  unfold pt_pkt_decode_cyc in *.
  assert (Hread : stable (pt_pkt_read_cyc buf pos)
                         (pt_pkt_read_cyc (buf ++ ext) pos)).
  { unfold pt_pkt_read_cyc. repeat stable_step.
    apply stable_cyc_loop. }
  pose proof (safe_read_cyc buf pos Hp) as Hsafe.
  apply stable_bind; [exact Hread |]. intros [v size] E.
  rewrite E in *. cbn [bind safe snd] in *.
  destruct (er_skd007 (cf_errata cf)) eqn:Eskd; [| apply stable_refl].
  right.
  destruct (Nat.lt_ge_cases (pos + size) (length buf)) as [Hlt | Hge].
  { now rewrite (handle_stable buf ext) by tauto. }
  destruct (Nat.eq_dec size 2) as [-> | Hs].
  2: { now rewrite (handle_stable buf ext) by tauto. }
  destruct (N.eq_dec (N.ldiff (u16 v) 0x1f) 0x20) as [Hl | Hl].
  2: { now rewrite (handle_stable buf ext) by tauto. }
  exfalso.
  assert (Hv : v < 4096) by (eapply read_cyc_2; eauto).
  pose proof (skd007_ldiff v Hv) as Hx. rewrite Hl, N.eqb_refl in Hx.
  apply (Hno eq_refl ltac:(lia) v ltac:(lia)).
  unfold pt_pkt_handle_skd007. cbn [Nat.eqb negb].
  rewrite Hl, N.eqb_refl. cbn [negb].
  destruct (Nat.leb_spec (length buf) (pos + 2)); [reflexivity | lia].
Qed.

Lemma decode_stable : forall cf buf ext pos, bytes_ok buf ->
  cb_stable cf buf ext pos -> ~ skd007_at_end cf buf pos ->
  stable (pt_pkt_decode cf buf pos) (pt_pkt_decode cf (buf ++ ext) pos).
Proof.
  intros cf buf ext pos Hok Hcb Hskd.
  assert (Hcyc : (pos < length buf)%nat ->
     (pt_pkt_decode_cyc cf buf pos = pt_pkt_decode cf buf pos) ->
     stable (pt_pkt_decode_cyc cf buf pos) (pt_pkt_decode_cyc cf (buf ++ ext) pos)).
  { intros Hp E. apply stable_cyc; auto. intros Ha Hb v Hv Hd. apply Hskd.
    repeat split; auto. exists v. split; [exact Hv |]. congruence. }
  revert Hcyc. clear Hskd.
  unfold pt_pkt_decode. intros Hcyc.
  apply stable_leb. intros Hp.
  assert (Eleb : Nat.leb (length buf) pos = false)
    by (apply Nat.leb_gt; exact Hp).
  rewrite Eleb in Hcyc. specialize (Hcyc Hp).
  apply stable_bind; [now apply stable_rd |]. intros opc Eopc.
  rewrite Eopc in Hcyc. cbn [bind] in Hcyc.
  destruct (opc =? pt_opc_mode); [stable_read pt_pkt_read_mode |].
  destruct (opc =? pt_opc_mtc); [stable_read pt_pkt_read_mtc |].
  destruct (opc =? pt_opc_tsc); [stable_read pt_pkt_read_tsc |].
  destruct (opc =? pt_opc_pad); [apply stable_refl |].
  destruct (opc =? pt_opc_trig).
  { unfold pt_pkt_read_trig. repeat stable_step. }
  destruct (opc =? pt_opc_ext).
  - apply stable_leb. intros H1.
    apply stable_bind; [now apply stable_rd |]. intros x _.
    destruct (x =? pt_ext_psb).
    { unfold pt_pkt_read_psb. repeat stable_step. apply stable_psb. consts. lia. }
    destruct (x =? pt_ext_ovf); [apply stable_refl |].
    destruct (x =? pt_ext_psbend); [apply stable_refl |].
    destruct (x =? pt_ext_cbr); [stable_read pt_pkt_read_cbr |].
    destruct (x =? pt_ext_tma).
    { unfold pt_pkt_decode_tma.
      assert (Ht : stable (pt_pkt_read_tma buf pos)
                          (pt_pkt_read_tma (buf ++ ext) pos))
        by (stable_read pt_pkt_read_tma).
      destruct Ht as [Ht | Ht]; rewrite Ht; [left; reflexivity | apply stable_refl]. }
    destruct (x =? pt_ext_pip); [stable_read pt_pkt_read_pip |].
    destruct (x =? pt_ext_vmcs); [stable_read pt_pkt_read_vmcs |].
    destruct (_ || _); [stable_read pt_pkt_read_exstop |].
    destruct (x =? pt_ext_mwait); [stable_read pt_pkt_read_mwait |].
    destruct (x =? pt_ext_pwre); [stable_read pt_pkt_read_pwre |].
    destruct (x =? pt_ext_pwrx); [stable_read pt_pkt_read_pwrx |].
    destruct (x =? pt_ext_stop); [apply stable_refl |].
    destruct (x =? pt_ext_tnt_64); [stable_read pt_pkt_read_tnt_64 |].
    destruct (x =? pt_ext_cfe); [stable_read pt_pkt_read_cfe |].
    destruct (x =? pt_ext_evd); [stable_read pt_pkt_read_evd |].
    destruct (x =? pt_ext_ext2).
    { apply stable_leb. intros H2.
      apply stable_bind; [now apply stable_rd |]. intros x2 _.
      destruct (x2 =? pt_ext2_mnt); [stable_read pt_pkt_read_mnt |].
      now apply stable_unknown. }
    destruct (_ =? pt_ext_ptw); [stable_read pt_pkt_read_ptw |].
    now apply stable_unknown.
  - destruct (_ =? pt_opc_cyc); [apply Hcyc; reflexivity |].
    destruct (_ =? pt_opc_tnt_8); [stable_read pt_pkt_read_tnt_8 |].
    assert (Hip : forall f, stable (as_ip f (pt_pkt_read_ip buf pos))
                                   (as_ip f (pt_pkt_read_ip (buf ++ ext) pos))).
    { intros f. unfold pt_pkt_read_ip. repeat stable_step. }
    destruct (_ =? pt_opc_fup); [apply Hip |].
    destruct (_ =? pt_opc_tip); [apply Hip |].
    destruct (_ =? pt_opc_tip_pge); [apply Hip |].
    destruct (_ =? pt_opc_tip_pgd); [apply Hip |].
    now apply stable_unknown.
Qed.
