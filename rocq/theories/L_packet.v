(** Proofs of the packet layer properties. *)

From Verif Require Import Base M_packet M_config M_encoder M_pktdec S_packet S_run
  L_bytes L_encoder L_wire L_pktdec L_decwire L_pktsafe.
From Coq Require Import List NArith ZArith Lia Bool Arith.
From Coq Require Import ZifyBool ZifyNat ZifyN.
Import ListNotations.
Open Scope N_scope.
Ltac Zify.zify_post_hook ::= Z.div_mod_to_equations.

(** * Wire format *)

Lemma ip_wire_ok : forall opc ip, opc < 32 -> ip_in_range ip ->
  bytes_ok (ip_wire opc ip).
Proof.
  intros opc [ipc ip] Ho H. unfold ip_in_range, ip_wire in *. cbn [ip_ipc ip_ip] in *.
  destruct (ip_bytes ipc) as [n |] eqn:E; [| contradiction].
  constructor; [| apply le_bytes_ok]. apply ip_bytes_spec in E.
  unfold byte_ok. intuition; subst; lia.
Qed.

Lemma wire_ok : forall p, in_range p -> bytes_ok (wire p).
Proof.
  intros p H. destruct p; cbn [in_range wire] in *; try contradiction;
    try (apply ip_wire_ok; [reflexivity | assumption]).
  all: try solve [repeat constructor].
  - destruct tnt as [bs pl]. unfold tnt_in_range in H.
    cbn [tnt_bit_size tnt_payload] in *. destruct H as [[H1 H2] H3].
    assert (2 ^ bs <= 2 ^ 6) by (apply N.pow_le_mono_r; lia).
    change (2 ^ 6) with 64 in *. constructor; [unfold byte_ok; lia | constructor].
  - constructor; [reflexivity |]. constructor; [reflexivity |]. apply le_bytes_ok.
  - destruct mode as [[] [] [] | [] [] |]; try contradiction; repeat constructor.
  - constructor; [reflexivity |]. constructor; [reflexivity |]. apply le_bytes_ok.
  - constructor; [reflexivity |]. constructor; [reflexivity |]. apply le_bytes_ok.
  - repeat constructor; assumption.
  - constructor; [reflexivity |]. apply le_bytes_ok.
  - constructor; [reflexivity |]. constructor; [reflexivity |].
    apply Forall_app. split; [apply le_bytes_ok |].
    constructor; [reflexivity |]. apply le_bytes_ok.
  - repeat constructor; assumption.
  - constructor.
    + unfold byte_ok. assert (value mod 32 < 32) by (apply N.mod_lt; discriminate).
      destruct (value / 32 =? 0); lia.
    + generalize 8%nat (value / 32). clear. intros n. 
      induction n as [| n IH]; intros v; cbn [cyc_groups]; [constructor |].
      destruct (v =? 0); constructor; [| apply IH].
      unfold byte_ok. assert (v mod 128 < 128) by (apply N.mod_lt; discriminate).
      destruct (v / 128 =? 0); lia.
  - do 3 (constructor; [reflexivity |]). apply le_bytes_ok.
  - destruct ip; repeat constructor.
  - do 2 (constructor; [reflexivity |]). apply Forall_app.
    split; apply le_bytes_ok.
  - do 2 (constructor; [reflexivity |]). apply le_bytes_ok.
  - do 2 (constructor; [reflexivity |]). apply le_bytes_ok.
  - constructor; [reflexivity |]. constructor; [| apply le_bytes_ok].
    unfold byte_ok. destruct ip; cbn [b2n]; lia.
  - constructor; [reflexivity |]. constructor; [reflexivity |].
    constructor; [unfold byte_ok; destruct ip; cbn [b2n]; lia |].
    constructor; [apply H | constructor].
  - constructor; [reflexivity |]. constructor; [reflexivity |].
    constructor; [unfold byte_ok; lia |]. apply le_bytes_ok.
  - constructor; [reflexivity |].
    constructor; [unfold byte_ok; destruct ip, icntv, mult; cbn [b2n]; lia |].
    constructor; [apply H |]. destruct icntv; [apply le_bytes_ok | constructor].
Qed.

Lemma wire_nonempty : forall p, in_range p -> wire p <> [].
Proof.
  intros p H. destruct p; cbn [in_range wire] in *; try contradiction;
    try discriminate;
    try (unfold ip_in_range, ip_wire in *; destruct (ip_bytes _);
         [discriminate | contradiction]).
  destruct mode; [discriminate | discriminate | contradiction].
Qed.

Lemma enc_wire : forall e p, in_range p ->
  (e_pos e + length (wire p) <= length (e_buf e))%nat ->
  pt_enc_next e p
  = (mk_enc (firstn (e_pos e) (e_buf e) ++ wire p
             ++ skipn (e_pos e + length (wire p)) (e_buf e))
            (e_pos e + length (wire p)), Ok (length (wire p))).
Proof.
  intros e p Hr Hl. unfold pt_enc_next.
  rewrite enc_body_wire by exact Hr. unfold enc_result.
  destruct (Nat.ltb_spec (length (e_buf e)) (e_pos e + length (wire p))); [lia |].
  rewrite puts_ok by exact Hl. rewrite map_u8_ok by (now apply wire_ok).
  f_equal. f_equal. lia.
Qed.

Lemma enc_no_room : forall e p, in_range p ->
  (length (e_buf e) < e_pos e + length (wire p))%nat ->
  pt_enc_next e p = (e, Err pte_eos).
Proof.
  intros e p Hr Hl. unfold pt_enc_next.
  rewrite enc_body_wire by exact Hr. unfold enc_result.
  destruct (Nat.ltb_spec (length (e_buf e)) (e_pos e + length (wire p))); [| lia].
  destruct e. reflexivity.
Qed.

Lemma enc_ok_inv : forall e p e' n, in_range p -> pt_enc_next e p = (e', Ok n) ->
  (e_pos e + length (wire p) <= length (e_buf e))%nat /\ n = length (wire p) /\
  e' = mk_enc (firstn (e_pos e) (e_buf e) ++ wire p
               ++ skipn (e_pos e + length (wire p)) (e_buf e))
              (e_pos e + length (wire p)).
Proof.
  intros e p e' n Hr H.
  destruct (Nat.le_gt_cases (e_pos e + length (wire p)) (length (e_buf e)))
    as [Hl | Hl].
  - rewrite enc_wire in H by assumption. injection H as <- <-. auto.
  - rewrite enc_no_room in H by assumption. discriminate.
Qed.

(** * C01 *)

Lemma round_trip : forall e e' p n cf sync,
  in_range p -> pt_enc_next e p = (e', Ok n) ->
  (er_skd007 (cf_errata cf) = false \/
   ~ skd007_pattern p (skipn (e_pos e') (e_buf e'))) ->
  pt_pkt_next (mk_pktdec cf (e_buf e') (Some (e_pos e)) sync)
  = (mk_pktdec cf (e_buf e') (Some (e_pos e')) sync, Ok (mk_packet p n)).
Proof.
  intros e e' p n cf sync Hr He Hskd.
  destruct (enc_ok_inv e p e' n Hr He) as (Hl & -> & ->).
  cbn [e_buf e_pos] in *. unfold pt_pkt_next. cbn [pd_pos pd_config pd_buf pd_sync].
  set (pre := firstn (e_pos e) (e_buf e)) in *.
  assert (Hpre : length pre = e_pos e) by (subst pre; rewrite firstn_length; lia).
  set (post := skipn (e_pos e + length (wire p)) (e_buf e)) in *.
  rewrite <- Hpre. rewrite decode_shift. rewrite decode_wire.
  - cbn [dc_pl dc_size dc_skip]. rewrite Nat.add_0_r. reflexivity.
  - exact Hr.
  - destruct Hskd as [Hs | Hs]; [left; exact Hs | right].
    rewrite <- Hpre in Hs. rewrite app_assoc, skipn_app in Hs.
    rewrite skipn_all2 in Hs by (rewrite app_length; lia).
    rewrite app_length, Nat.sub_diag in Hs. exact Hs.
Qed.

(** * C03 *)

Lemma write_outside : forall buf pos bs i,
  (pos + length bs <= length buf)%nat -> (i < pos \/ pos + length bs <= i)%nat ->
  nth_error (write buf pos bs) i = nth_error buf i.
Proof.
  intros buf pos bs i Hl Hi.
  destruct (split_at buf pos (length bs) Hl) as (l1 & mid & l2 & -> & <- & Hm).
  rewrite write_split by exact Hm.
  destruct Hi as [Hi | Hi].
  - now rewrite !nth_error_app1 by exact Hi.
  - rewrite !nth_error_app2 by lia. now rewrite Hm.
Qed.

Lemma enc_frame : forall e p,
  match pt_enc_next e p with
  | (e', Ok n) =>
      (1 <= n)%nat /\ e_pos e' = (e_pos e + n)%nat /\
      (e_pos e' <= length (e_buf e))%nat /\
      length (e_buf e') = length (e_buf e) /\
      (forall i, (i < e_pos e \/ e_pos e + n <= i)%nat ->
                 nth_error (e_buf e') i = nth_error (e_buf e) i) /\
      (bytes_ok (e_buf e) -> bytes_ok (e_buf e'))
  | (e', Err _) => e' = e
  | (_, UB _) => False
  end.
Proof.
  intros e p. unfold pt_enc_next.
  destruct (enc_body_shape (e_pos e) p (e_buf e)) as [x | bs Hne Hl].
  - destruct e; reflexivity.
  - cbn [e_pos e_buf].
    assert (Hlen : (1 <= length bs)%nat) by (destruct bs; [congruence | cbn; lia]).
    repeat split.
    + lia.
    + lia.
    + lia.
    + apply write_length. rewrite map_length. exact Hl.
    + intros i Hi. apply write_outside; rewrite map_length; lia.
    + intros Hok. unfold write, bytes_ok in *.
      apply Forall_app. split; [now apply Forall_firstn |].
      apply Forall_app. split; [| now apply Forall_skipn].
      apply Forall_forall. intros b Hb. apply in_map_iff in Hb.
      destruct Hb as (x & <- & _). unfold byte_ok, u8, trunc.
      apply N.mod_lt. discriminate.
Qed.

(** * C04 *)

Lemma pkt_next_no_ub : forall d, no_ub (snd (pt_pkt_next d)).
Proof.
  intros d u. unfold pt_pkt_next. destruct (pd_pos d) as [pos |]; [| discriminate].
  pose proof (decode_safe (pd_config d) (pd_buf d) pos) as H.
  destruct (pt_pkt_decode _ _ _); cbn in *; try discriminate. contradiction.
Qed.

Definition clear_skd007 (cf : config) : config :=
  let er := cf_errata cf in
  mk_config (cf_callback cf)
    (mk_errata (er_bdm70 er) (er_bdm64 er) false (er_skd022 er) (er_skd010 er)
               (er_skl014 er) (er_apl12 er) (er_apl11 er) (er_skl168 er)
               (er_skz84 er))
    (cf_cpuid_0x15_eax cf) (cf_cpuid_0x15_ebx cf)
    (cf_mtc_freq cf) (cf_nom_freq cf) (cf_keep_tcal_on_ovf cf)
    (cf_enable_iflags_events cf) (cf_addr_filter cf).

Lemma clear_skd007_err : forall cf buf pos e,
  pt_pkt_decode (clear_skd007 cf) buf pos = Err e ->
  pt_pkt_decode cf buf pos = Err e.
Proof.
  intros cf buf pos e. unfold pt_pkt_decode.
  assert (Hc : pt_pkt_decode_cyc (clear_skd007 cf) buf pos = Err e ->
               pt_pkt_decode_cyc cf buf pos = Err e).
  { unfold pt_pkt_decode_cyc. cbn [clear_skd007 cf_errata er_skd007].
    destruct (pt_pkt_read_cyc buf pos) as [[v s] | |]; cbn [bind]; try discriminate.
    intros H; exact H. }
  change (pt_pkt_decode_tma (clear_skd007 cf) buf pos)
    with (pt_pkt_decode_tma cf buf pos).
  change (pt_pkt_read_unknown (clear_skd007 cf) buf pos)
    with (pt_pkt_read_unknown cf buf pos).
  destruct (Nat.leb _ _); [auto |].
  destruct (rd buf pos) as [opc | |]; cbn [bind]; auto.
  repeat (match goal with |- (if ?b then _ else _) = _ -> _ => destruct b; [now auto |] end).
  auto.
Qed.

Lemma truncated_eos : forall cf pre p k sync,
  bytes_ok pre -> in_range p -> (k < length (wire p))%nat ->
  let d := mk_pktdec cf (pre ++ firstn k (wire p)) (Some (length pre)) sync in
  pt_pkt_next d = (d, Err pte_eos).
Proof.
  intros cf pre p k sync Hpre Hr Hk d. unfold pt_pkt_next.
  cbn [d pd_pos pd_config pd_buf pd_sync].
  replace (pt_pkt_decode cf (pre ++ firstn k (wire p)) (length pre))
    with (@Err decoded pte_eos); [reflexivity |].
  symmetry.
  rewrite decode_shift. apply clear_skd007_err.
  set (cf' := clear_skd007 (shift_cb pre cf)).
  assert (Hpart : bytes_ok (firstn k (wire p)))
    by (apply Forall_firstn; now apply wire_ok).
  (* Replace the callback by none: it is not reached. *)
  assert (Hst : forall c, er_skd007 (cf_errata c) = false ->
             cf_callback c = None ->
             pt_pkt_decode c (firstn k (wire p)) 0 = Err pte_eos).
  { intros c Hs Hcb.
    destruct (decode_stable c (firstn k (wire p)) (skipn k (wire p)) 0 Hpart)
      as [E | E].
    - intros cb Hcb'. congruence.
    - intros (Hx & _). congruence.
    - exact E.
    - exfalso.
      rewrite firstn_skipn in E.
      pose proof (decode_wire c p [] Hr (or_introl Hs)) as Hw.
      rewrite app_nil_r in Hw. rewrite Hw in E.
      pose proof (decode_safe c (firstn k (wire p)) 0) as Hsafe.
      rewrite E in Hsafe. cbn [safe] in Hsafe. unfold good in Hsafe.
      cbn [dc_pl dc_skip dc_size] in Hsafe. rewrite firstn_length in Hsafe.
      destruct p; cbn [in_range] in Hr; try contradiction; lia. }
  (* The callback is only consulted when the decoder finds an unknown opcode;
     without it, that is -pte_bad_opc, not -pte_eos. *)
  assert (Hnocb : forall c buf pos,
     pt_pkt_decode (mk_config None (cf_errata c) 0 0 0 0 false false no_filter)
                   buf pos = Err pte_eos ->
     pt_pkt_decode c buf pos = Err pte_eos).
  { clear. intros c buf pos. unfold pt_pkt_decode.
    set (c' := mk_config None (cf_errata c) 0 0 0 0 false false no_filter).
    change (pt_pkt_decode_tma c' buf pos) with (pt_pkt_decode_tma c buf pos).
    change (pt_pkt_decode_cyc c' buf pos) with (pt_pkt_decode_cyc c buf pos).
    change (plain (pt_pkt_read_unknown c' buf pos)) with (@Err decoded pte_bad_opc).
    destruct (Nat.leb _ _); [auto |].
    destruct (rd buf pos) as [opc | |]; cbn [bind]; auto.
    repeat (match goal with |- (if ?b then _ else _) = _ -> _ =>
      destruct b; [now auto |] end).
    destruct (opc =? pt_opc_ext).
    - destruct (Nat.leb _ _); [auto |].
      destruct (rd buf (pos + 1)) as [ext | |]; cbn [bind]; auto.
      repeat (match goal with |- (if ?b then _ else _) = _ -> _ =>
        destruct b; [now auto |] end).
      destruct (ext =? pt_ext_ext2).
      + destruct (Nat.leb _ _); [auto |].
        destruct (rd buf (pos + 2)) as [ext2 | |]; cbn [bind]; auto.
        destruct (_ =? _); [auto | discriminate].
      + destruct (_ =? _); [auto | discriminate].
    - repeat (match goal with |- (if ?b then _ else _) = _ -> _ =>
        destruct b; [now auto |] end). discriminate. }
  apply Hnocb, Hst; reflexivity.
Qed.

(** * C05 *)

Lemma next_accounting : forall d d' p,
  pt_pkt_next d = (d', Ok p) ->
  exists pos pos', pd_pos d = Some pos /\ pd_pos d' = Some pos' /\
  pd_sync d' = pd_sync d /\ pd_buf d' = pd_buf d /\ pd_config d' = pd_config d /\
  match pkt_pl p with
  | P_unknown _ => pos' = (pos + pkt_size p)%nat /\ (pos' <= length (pd_buf d))%nat
  | P_invalid => er_skz84 (cf_errata (pd_config d)) = true /\
                 pkt_size p = 8%nat /\ pos' = (pos + 8)%nat /\
                 (pos' <= length (pd_buf d) + 1)%nat
  | P_ovf =>
      (pos' = (pos + pkt_size p)%nat \/
       er_skd007 (cf_errata (pd_config d)) = true /\
       pos' = (pos + pkt_size p + 1)%nat) /\
      (1 <= pkt_size p)%nat /\ (pos' <= length (pd_buf d))%nat
  | _ => pos' = (pos + pkt_size p)%nat /\ (1 <= pkt_size p)%nat /\
         (pos' <= length (pd_buf d))%nat
  end.
Proof.
  intros d d' p. unfold pt_pkt_next. destruct (pd_pos d) as [pos |]; [| discriminate].
  pose proof (decode_safe (pd_config d) (pd_buf d) pos) as H.
  destruct (pt_pkt_decode _ _ _) as [dc | |]; try discriminate.
  intros [= <- <-]. cbn [safe] in H. unfold good in H.
  cbn [pd_pos pd_sync pd_buf pd_config pkt_pl pkt_size].
  exists pos, (pos + dc_skip dc + dc_size dc)%nat.
  repeat split.
  destruct (dc_pl dc);
    try (destruct H as ([H | (H & H' & _)] & H1 & H2); [lia | congruence]).
  - destruct H as (? & ? & ? & ?). repeat split; auto; lia.
  - lia.
  - destruct H as ([H | (H & H' & H'' & H3)] & H1 & H2); (split; [| lia]);
      [left; lia | right; split; [exact H | lia]].
Qed.

Lemma next_fail_same : forall d d' e, pt_pkt_next d = (d', Err e) -> d' = d.
Proof.
  intros d d' e. unfold pt_pkt_next. destruct (pd_pos d) as [pos |].
  - destruct (pt_pkt_decode _ _ _); [discriminate | | discriminate].
    intros [= <- _]. reflexivity.
  - intros [= <- _]. reflexivity.
Qed.

(** * C06 *)

Lemma next_stable : forall cf buf ext pos sync, bytes_ok buf ->
  (forall cb, cf_callback cf = Some cb -> cb (buf ++ ext) pos = cb buf pos) ->
  (er_skd007 (cf_errata cf) = true -> (pos + 2 = length buf)%nat ->
   forall d' v, 32 <= v < 64 ->
     pt_pkt_next (mk_pktdec cf buf (Some pos) sync)
     <> (d', Ok (mk_packet (P_cyc v) 2))) ->
  let d := mk_pktdec cf buf (Some pos) sync in
  let dx := mk_pktdec cf (buf ++ ext) (Some pos) sync in
  snd (pt_pkt_next d) = Err pte_eos \/
  (snd (pt_pkt_next dx) = snd (pt_pkt_next d) /\
   pd_pos (fst (pt_pkt_next dx)) = pd_pos (fst (pt_pkt_next d))).
Proof.
  intros cf buf ext pos sync Hok Hcb Hskd d dx. subst d dx.
  unfold pt_pkt_next in *. cbn [pd_pos pd_config pd_buf pd_sync] in *.
  destruct (decode_stable cf buf ext pos Hok Hcb) as [E | E].
  - intros (Hs & Hp & v & Hv & Ed). rewrite Ed in Hskd.
    eapply Hskd; [exact Hs | exact Hp | exact Hv |]. reflexivity.
  - rewrite E. left. reflexivity.
  - rewrite <- E. right. destruct (pt_pkt_decode cf buf pos); auto.
Qed.

(** * C02 *)

Fixpoint wires (ps : list payload) : list N :=
  match ps with [] => [] | p :: ps' => wire p ++ wires ps' end.

(** Positions after each packet. *)
Fixpoint ends (pos : nat) (ps : list payload) : list nat :=
  match ps with
  | [] => []
  | p :: ps' => (pos + length (wire p))%nat :: ends (pos + length (wire p)) ps'
  end.

Lemma enc_run_wires : forall ps e e' rs,
  Forall in_range ps -> enc_run e ps = (e', rs) ->
  Forall (fun r => is_ok (fst r) = true) rs ->
  (e_pos e <= length (e_buf e))%nat ->
  e_buf e' = firstn (e_pos e) (e_buf e) ++ wires ps ++ skipn (e_pos e') (e_buf e)
  /\ e_pos e' = (e_pos e + length (wires ps))%nat
  /\ (e_pos e' <= length (e_buf e))%nat
  /\ rs = map (fun x => (Ok (length (wire (fst x))), N.of_nat (snd x)))
              (combine ps (ends (e_pos e) ps)).
Proof.
  induction ps as [| p ps IH]; intros e e' rs Hr H Hok Hp; cbn [enc_run] in H.
  - injection H as <- <-. cbn [wires app length combine map ends].
    rewrite firstn_skipn. repeat split; lia.
  - destruct (pt_enc_next e p) as [e1 r] eqn:E1.
    destruct (enc_run e1 ps) as [e2 rs2] eqn:E2. injection H as <- <-.
    inversion_clear Hr as [| ? ? Hrp Hrps].
    inversion_clear Hok as [| ? ? Hokp Hoks].
    cbn [fst] in Hokp. destruct r as [n | |]; try discriminate.
    destruct (enc_ok_inv e p e1 n Hrp E1) as (Hl & -> & He1).
    assert (Hp1 : (e_pos e1 <= length (e_buf e1))%nat).
    { subst e1. cbn [e_pos e_buf]. rewrite !app_length, firstn_length, skipn_length.
      lia. }
    destruct (IH e1 e2 rs2 Hrps E2 Hoks Hp1) as (Hb & Hpos & Hle & Hrs).
    assert (Hpos1 : e_pos e1 = (e_pos e + length (wire p))%nat) by (subst e1; reflexivity).
    assert (Hlen1 : length (e_buf e1) = length (e_buf e)).
    { subst e1. cbn [e_buf]. rewrite !app_length, firstn_length, skipn_length. lia. }
    cbn [wires]. rewrite app_length. repeat split.
    + rewrite Hb. rewrite Hpos1. rewrite Hpos1 in Hpos.
      assert (Hbuf1 : e_buf e1 = firstn (e_pos e) (e_buf e) ++ wire p
               ++ skipn (e_pos e + length (wire p)) (e_buf e)) by (subst e1; reflexivity).
      assert (Hf : length (firstn (e_pos e) (e_buf e)) = e_pos e)
        by (rewrite firstn_length; lia).
      rewrite app_assoc in Hbuf1. rewrite Hbuf1.
      set (A := firstn (e_pos e) (e_buf e) ++ wire p).
      assert (HA : length A = (e_pos e + length (wire p))%nat)
        by (subst A; rewrite app_length; lia).
      rewrite (firstn_app_exact _ A) by exact HA.
      rewrite skipn_app_ge by lia. rewrite skipn_skipn.
      subst A. rewrite <- !app_assoc. do 4 f_equal. lia.
    + lia.
    + lia.
    + cbn [ends combine map fst snd]. rewrite Hrs, Hpos1.
      unfold pt_enc_get_offset. rewrite Hpos1. reflexivity.
Qed.

Lemma hd_f3 : forall p, in_range p -> hd_error (wire p) = Some 0xf3 ->
  p = P_cyc 30.
Proof.
  intros p Hr H. destruct p; cbn [in_range wire] in *; try contradiction;
    try discriminate.
  1-4: unfold ip_in_range, ip_wire in *; destruct ip as [ipc ip];
       cbn [ip_ipc ip_ip] in *; destruct (ip_bytes ipc) as [n |] eqn:E;
       [| discriminate]; apply ip_bytes_spec in E;
       intuition; subst; discriminate.
  - cbn [hd_error] in H. injection H as H. exfalso. lia.
  - destruct mode; try discriminate.
  - cbn [hd_error] in H. injection H as H.
    destruct (N.eqb_spec (value / 32) 0) as [H0 | H0]; [| exfalso; lia].
    assert (value = 30) by lia. now subst.
Qed.

Lemma dec_run_wires : forall cf ps pre sync,
  Forall in_range ps ->
  er_skd007 (cf_errata cf) = false \/ no_skd007_pair ps ->
  dec_run (mk_pktdec cf (pre ++ wires ps) (Some (length pre)) sync)
          (S (length ps))
  = (mk_pktdec cf (pre ++ wires ps) (Some (length pre + length (wires ps))%nat) sync,
     map (fun x => (Ok (mk_packet (fst x) (length (wire (fst x)))),
                    Ok (N.of_nat (snd x))))
         (combine ps (ends (length pre) ps))
     ++ [(Err pte_eos, Ok (N.of_nat (length pre + length (wires ps))))]).
Proof.
  intros cf ps. induction ps as [| p ps IH]; intros pre sync Hr Hskd.
  - cbn [wires length combine ends map app dec_run]. rewrite app_nil_r, Nat.add_0_r.
    unfold pt_pkt_next. cbn [pd_pos pd_config pd_buf].
    unfold pt_pkt_decode. rewrite Nat.leb_refl. reflexivity.
  - inversion_clear Hr as [| ? ? Hrp Hrps].
    change (length (p :: ps)) with (S (length ps)).
    remember (S (length ps)) as k eqn:Ek. cbn [dec_run]. subst k.
    unfold pt_pkt_next. cbn [pd_pos pd_config pd_buf pd_sync wires].
    rewrite decode_shift, decode_wire; [| exact Hrp |].
    + cbn [dc_pl dc_size dc_skip]. rewrite Nat.add_0_r.
      replace (pre ++ wire p ++ wires ps) with ((pre ++ wire p) ++ wires ps)
        by (now rewrite app_assoc).
      replace (length pre + length (wire p))%nat with (length (pre ++ wire p))
        by (now rewrite app_length).
      rewrite IH.
      * cbn [combine ends map app fst snd].
        unfold pt_pkt_get_offset. cbn [pd_pos].
        rewrite !app_length. rewrite !Nat.add_assoc. reflexivity.
      * exact Hrps.
      * destruct Hskd as [Hs | Hs]; [left; exact Hs | right].
        intros a v b Hv Heq. apply (Hs (p :: a) v b Hv). now rewrite Heq.
    + cbn [shift_cb cf_errata]. destruct Hskd as [Hs | Hs]; [left; exact Hs | right].
      intros (v & -> & Hv & Hhd).
      destruct ps as [| q ps]; [discriminate |].
      inversion_clear Hrps as [| ? ? Hq _].
      cbn [wires] in Hhd.
      assert (Hq' : hd_error (wire q) = Some 0xf3).
      { pose proof (wire_nonempty q Hq) as Hne.
        destruct (wire q) as [| b l]; [congruence |]. exact Hhd. }
      apply (hd_f3 q Hq) in Hq'. subst q. exact (Hs [] v ps Hv eq_refl).
Qed.

Lemma stream_round_trip : forall cf buf ps e rs,
  Forall in_range ps ->
  er_skd007 (cf_errata cf) = false \/ no_skd007_pair ps ->
  enc_run (pt_encoder_init buf) ps = (e, rs) ->
  Forall (fun r => is_ok (fst r) = true) rs ->
  e_pos e = length buf ->
  exists d d' out,
    pt_pkt_sync_set (pt_pkt_decoder_init cf (e_buf e)) 0 = (d, Ok tt) /\
    dec_run d (length ps) = (d', out) /\
    snd (pt_pkt_next d') = Err pte_eos /\
    Forall2 (fun (p : payload * (res nat * N)) o =>
               exists n, fst (snd p) = Ok n /\ fst o = Ok (mk_packet (fst p) n) /\
                         snd o = Ok (snd (snd p)))
            (combine ps rs) out /\ length rs = length ps.
Proof.
  intros cf buf ps e rs Hr Hskd He Hok Hfull.
  destruct (enc_run_wires ps (pt_encoder_init buf) e rs Hr He Hok)
    as (Hb & Hpos & _ & Hrs); [cbn; lia |].
  cbn [pt_encoder_init e_pos e_buf firstn app] in *.
  rewrite Hfull, skipn_all, app_nil_r in Hb.
  rewrite Hb.
  pose proof (dec_run_wires cf ps [] (Some 0%nat) Hr Hskd) as Hd.
  cbn [app length Nat.add] in Hd.
  set (d0 := mk_pktdec cf (wires ps) (Some 0%nat) (Some 0%nat)) in *.
  assert (Hsplit : forall k d, dec_run d (S k)
     = (let (d1, o1) := dec_run d k in
        let (d2, r) := pt_pkt_next d1 in
        (d2, o1 ++ [(r, pt_pkt_get_offset d2)]))).
  { clear. induction k as [| k IH]; intros d.
    - cbn [dec_run]. destruct (pt_pkt_next d) as [d1 r]. reflexivity.
    - remember (S k) as k'. cbn [dec_run]. subst k'.
      destruct (pt_pkt_next d) as [d1 r] eqn:E. rewrite IH.
      cbn [dec_run]. rewrite E.
      destruct (dec_run d1 k) as [d2 o2].
      destruct (pt_pkt_next d2) as [d3 r3]. reflexivity. }
  rewrite Hsplit in Hd.
  destruct (dec_run d0 (length ps)) as [d1 out] eqn:E1.
  destruct (pt_pkt_next d1) as [d2 r] eqn:E2.
  injection Hd as Hd2 Hout. apply app_inj_tail in Hout.
  destruct Hout as [Hout Hlast].
  exists d0, d1, out. split.
  { unfold pt_pkt_sync_set. cbn [pt_pkt_decoder_init pd_buf pd_config].
    destruct (N.ltb_spec (N.of_nat (length (wires ps))) 0); [lia | reflexivity]. }
  split; [exact E1 |].
  split; [rewrite E2; cbn; congruence |].
  rewrite Hrs, Hout.
  split.
  - clear. generalize 0%nat. induction ps as [| p ps IH]; intros n;
      cbn [ends combine map]; constructor; [| apply IH].
    cbn [fst snd]. eauto.
  - rewrite map_length, combine_length.
    clear. generalize 0%nat. induction ps as [| p ps IH]; intros n; cbn; auto.
Qed.
