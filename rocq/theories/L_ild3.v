(** The instruction length decoder accepts exactly the instruction texts:
    opcodes, operands and classification. *)

From Coq Require Import List NArith ZArith Bool Lia.
From Coq Require Import ZifyBool ZifyNat ZifyN.
From Verif Require Import Base M_event M_ildtab M_ild S_x86 L_ild L_ild2.
Import ListNotations.
Open Scope N_scope.

(** Signed little-endian values. *)
Lemma le_bound : forall l, bytes_ok l ->
  le_bytes l < 2 ^ (8 * N.of_nat (length l)).
Proof.
  intros l. induction l as [|b l IH]; intros H.
  - cbn. lia.
  - inversion H as [|b' l' Hb Hl]; subst. specialize (IH Hl).
    cbn [le_bytes length].
    replace (8 * N.of_nat (S (length l))) with (8 + 8 * N.of_nat (length l)) by lia.
    rewrite N.pow_add_r. change (2 ^ 8) with 256. unfold byte_ok in Hb.
    set (p := 2 ^ (8 * N.of_nat (length l))) in *.
    set (v := le_bytes l) in *. lia.
Qed.

Lemma signed_eq : forall l, bytes_ok l -> l <> [] ->
  to_signed (8 * N.of_nat (length l)) (le_bytes l) = signed_le l.
Proof.
  intros l. induction l as [|b l IH]; intros H Hn; [congruence|].
  inversion H as [|b' l' Hb Hl]; subst. unfold byte_ok in Hb.
  destruct l as [|c l].
  - cbn [length le_bytes signed_le]. unfold to_signed.
    change (8 * N.of_nat 1) with 8. change (2 ^ (8 - 1)) with 128.
    replace (b + 256 * 0) with b by lia.
    destruct (b <? 128); [reflexivity|]. reflexivity.
  - assert (Hc : c :: l <> []) by congruence.
    specialize (IH Hl Hc).
    change (signed_le (b :: c :: l))
      with (Z.of_N b + 256 * signed_le (c :: l))%Z.
    rewrite <- IH.
    change (le_bytes (b :: c :: l)) with (b + 256 * le_bytes (c :: l)).
    pose proof (le_bound _ Hl) as Hv.
    set (v := le_bytes (c :: l)) in *.
    assert (En : exists k, N.of_nat (length (c :: l)) = k + 1)
      by (exists (N.of_nat (length l)); cbn [length]; lia).
    destruct En as [k Ek].
    change (length (b :: c :: l)) with (S (length (c :: l))).
    rewrite Nat2N.inj_succ, Ek in *.
    unfold to_signed.
    replace (8 * N.succ (k + 1) - 1) with (8 + (8 * k + 7)) by lia.
    replace (8 * (k + 1) - 1) with (8 * k + 7) by lia.
    rewrite (N.pow_add_r 2 8). change (2 ^ 8) with 256.
    set (p := 2 ^ (8 * k + 7)) in *.
    assert (Zp : (2 ^ Z.of_N (8 * N.succ (k + 1)) = 256 * 2 ^ Z.of_N (8 * (k + 1)))%Z).
    { replace (Z.of_N (8 * N.succ (k + 1)))
        with (8 + Z.of_N (8 * (k + 1)))%Z by lia.
      rewrite Z.pow_add_r by lia. reflexivity. }
    rewrite Zp. set (q := (2 ^ Z.of_N (8 * (k + 1)))%Z).
    destruct (v <? p) eqn:E1; destruct (b + 256 * v <? 256 * p) eqn:E2;
      try (exfalso; lia); lia.
Qed.

Lemma get_bytes_at : forall i bs pos,
  at_pos (i_raw i) pos bs -> get_bytes i pos (length bs) = Ok bs.
Proof.
  intros i bs. induction bs as [|b bs IH]; intros pos H; [reflexivity|].
  destruct H as [H1 H2]. cbn [length get_bytes].
  unfold get_byte, rd. rewrite H1. cbn [bind]. rewrite (IH _ H2). reflexivity.
Qed.

(** Bits. *)
Lemma land1 : forall a, N.land a 1 = N.b2n (N.testbit a 0).
Proof.
  intros a. change 1 with (N.ones 1). rewrite N.land_ones.
  rewrite N.bit0_mod. reflexivity.
Qed.

Lemma bit_truth : forall a k, truth (N.land (N.shiftr a k) 1) = N.testbit a k.
Proof.
  intros a k. rewrite land1, N.shiftr_spec, N.add_0_l by lia.
  destruct (N.testbit a k); reflexivity.
Qed.

Lemma bit_zero : forall a k,
  (N.land (N.shiftr a k) 1 =? 0) = negb (N.testbit a k).
Proof.
  intros a k. rewrite land1, N.shiftr_spec, N.add_0_l by lia.
  destruct (N.testbit a k); reflexivity.
Qed.

Lemma land_mod : forall a k, N.land a (N.ones k) = a mod 2 ^ k.
Proof. intros. apply N.land_ones. Qed.

Lemma rex2_r : forall p, p < 256 ->
  (N.lor (N.land (N.shiftr p 5) 2) (N.land (N.shiftr p 2) 1) =? 0)
  = negb (N.testbit p 2 || N.testbit p 6).
Proof.
  intros p Hp.
  assert (E : all_bytes (fun p => eqb
    (N.lor (N.land (N.shiftr p 5) 2) (N.land (N.shiftr p 2) 1) =? 0)
    (negb (N.testbit p 2 || N.testbit p 6))) = true)
    by (vm_compute; reflexivity).
  apply (all_bytes_spec _ E) in Hp. now apply eqb_prop.
Qed.

Lemma top2 : forall p, p < 256 -> bits_match p 0xc0 0xc0 = (m_mod p =? 3).
Proof.
  intros p Hp.
  assert (E : all_bytes (fun p =>
    eqb (bits_match p 0xc0 0xc0) (m_mod p =? 3)) = true)
    by (vm_compute; reflexivity).
  apply (all_bytes_spec _ E) in Hp. now apply eqb_prop.
Qed.

Lemma esc38 : forall p, p < 256 ->
  bits_match p 0xf8 0x38 = within 0x38 0x3f p.
Proof.
  intros p Hp.
  assert (E : all_bytes (fun p =>
    eqb (bits_match p 0xf8 0x38) (within 0x38 0x3f p)) = true)
    by (vm_compute; reflexivity).
  apply (all_bytes_spec _ E) in Hp. now apply eqb_prop.
Qed.

(** The decoder state [j] before ModRM belongs to the head of [x]. *)
Definition head_rel (m : exec_mode) (x : x86) (j : ild) : Prop :=
  i_mode j = m
  /\ form_i j = form_of m x
  /\ i_f3 j = f3_prefix x
  /\ i_last_f2f3 j = rep_code (rep_prefix x)
  /\ i_rex2 j = is_rex2 x
  /\ (kind_of (x_enc x) = Klegacy -> (i_rex_r j =? 0) = negb (rex_r m x)).

(** The operands. *)
Definition tail_wf (m : exec_mode) (x : x86) : Prop :=
  let f := form_of m x in
  let mb := hd 0 (x_modrm x) in
  length (x_modrm x) = modrm_size f
  /\ length (x_sib x) = sib_size f mb
  /\ length (x_dsp x) = disp_size f mb (hd 0 (x_sib x))
  /\ length (x_imm x) = imm_size f mb.

Definition tail_bytes (x : x86) : list N :=
  x_modrm x ++ x_sib x ++ x_dsp x ++ x_imm x.

Definition tail_rel (x : x86) (j : ild) (l : nat) (i : ild) : Prop :=
  same_head j i /\ i_modrm i = hd 0 (x_modrm x)
  /\ i_disp_bytes i = length (x_dsp x)
  /\ (length (x_dsp x) <> 0%nat ->
      i_disp_pos i = (l + length (x_modrm x) + length (x_sib x))%nat).

Lemma hd_at : forall raw l bs n rest,
  at_pos raw l (bs ++ rest) -> length bs = n -> (n <= 1)%nat ->
  hd 0 bs = if (n =? 0)%nat then 0 else byte_at raw l.
Proof.
  intros raw l bs n rest H Hn Hle. destruct bs as [|b bs].
  - cbn in Hn. subst n. reflexivity.
  - cbn in Hn. subst n. cbn [Nat.eqb hd app] in *.
    destruct (at_byte _ _ _ _ H) as [E _]. now rewrite E.
Qed.

Lemma modrm_size_le : forall f, (modrm_size f <= 1)%nat.
Proof. intros f. unfold modrm_size. destruct (modrm_of f); lia. Qed.
Lemma sib_size_le : forall f b, (sib_size f b <= 1)%nat.
Proof.
  intros f b. unfold sib_size. destruct (modrm_of f); try lia.
  destruct (_ && _); lia.
Qed.

Lemma tail_complete : forall m x j l,
  m <> ptem_unknown -> tail_start j -> head_rel m x j -> tail_wf m x ->
  at_pos (i_raw j) l (tail_bytes x) ->
  (l + length (tail_bytes x) <= i_max_bytes j)%nat ->
  exists i, modrm_dec j l = Ok (i, (l + length (tail_bytes x))%nat)
    /\ tail_rel x j l i.
Proof.
  intros m x j l Hm Ht Hh (W1 & W2 & W3 & W4) Ha Hl.
  destruct Hh as (Emode & Ef & _).
  assert (Hm' : i_mode j <> ptem_unknown) by congruence.
  destruct (modrm_dec_eq j l Ht Hm') as [_ B].
  unfold tail_bytes in *.
  pose proof (hd_at _ _ _ _ _ Ha W1 (modrm_size_le _)) as E1.
  apply at_app in Ha. destruct Ha as [Ha1 Ha2].
  pose proof (hd_at _ _ _ _ _ Ha2 W2 (sib_size_le _ _)) as E2.
  assert (T1 : tail_modrm j l = hd 0 (x_modrm x))
    by (unfold tail_modrm; rewrite Ef; symmetry; exact E1).
  assert (T2 : tail_sib j l = hd 0 (x_sib x)).
  { unfold tail_sib. rewrite T1, Ef, E2, W1. reflexivity. }
  assert (T3 : tail_disp j l = length (x_dsp x)).
  { unfold tail_disp. rewrite T1, T2, Ef, W3. reflexivity. }
  assert (T4 : tail_pos j l = (l + length (x_modrm x) + length (x_sib x))%nat).
  { unfold tail_pos. rewrite T1, Ef, W1, W2. reflexivity. }
  assert (T5 : tail_end j l
    = (l + length (x_modrm x ++ x_sib x ++ x_dsp x ++ x_imm x))%nat).
  { unfold tail_end. rewrite T3, T4, T1, Ef, <- W4.
    rewrite !app_length. lia. }
  rewrite T5 in B. destruct (B Hl) as (i & Ei & R1 & R2 & R3 & R4).
  exists i. split; [exact Ei|]. unfold tail_rel.
  rewrite T1 in R2. rewrite T3 in R3, R4. rewrite T4 in R4.
  repeat split; try assumption; apply R1.
Qed.

Definition with_tail (x : x86) (a b c d : list N) : x86 :=
  mk_x86 (x_pfx x) (x_enc x) (x_map x) (x_opc x) a b c d.

Lemma tail_sound : forall m x j l i n,
  m <> ptem_unknown -> tail_start j -> head_rel m x j ->
  modrm_dec j l = Ok (i, n) ->
  exists a b c d, let x' := with_tail x a b c d in
    tail_wf m x' /\ at_pos (i_raw j) l (tail_bytes x')
    /\ n = (l + length (tail_bytes x'))%nat /\ (n <= i_max_bytes j)%nat
    /\ bytes_ok (tail_bytes x')
    /\ tail_rel x' j l i.
Proof.
  intros m x j l i n Hm Ht Hh Hd.
  destruct Hh as (Emode & Ef & _).
  assert (Hm' : i_mode j <> ptem_unknown) by congruence.
  destruct (modrm_dec_eq j l Ht Hm') as [A B].
  destruct (Nat.lt_ge_cases (i_max_bytes j) (tail_end j l)) as [H|H];
    [rewrite (A H) in Hd; discriminate Hd|].
  destruct (B H) as (i' & Ei & R1 & R2 & R3 & R4).
  rewrite Ei in Hd. injection Hd as -> <-.
  destruct Ht as (_ & _ & _ & _ & _ & Hb & Hlen).
  set (k1 := modrm_size (form_i j)) in *.
  set (k2 := sib_size (form_i j) (tail_modrm j l)).
  set (k3 := tail_disp j l) in *.
  set (k4 := imm_size (form_i j) (tail_modrm j l)).
  assert (Ee : tail_end j l = (l + k1 + k2 + k3 + k4)%nat) by reflexivity.
  assert (Ep : tail_pos j l = (l + k1 + k2)%nat) by reflexivity.
  set (raw := i_raw j) in *.
  exists (slice raw l k1), (slice raw (l + k1) k2), (slice raw (l + k1 + k2) k3),
    (slice raw (l + k1 + k2 + k3) k4). cbv zeta.
  assert (L1 : length (slice raw l k1) = k1) by (apply slice_length; lia).
  assert (L2 : length (slice raw (l + k1) k2) = k2) by (apply slice_length; lia).
  assert (L3 : length (slice raw (l + k1 + k2) k3) = k3)
    by (apply slice_length; lia).
  assert (L4 : length (slice raw (l + k1 + k2 + k3) k4) = k4)
    by (apply slice_length; lia).
  assert (H1 : hd 0 (slice raw l k1) = tail_modrm j l).
  { rewrite hd_slice; [reflexivity|lia|apply modrm_size_le]. }
  assert (H2 : hd 0 (slice raw (l + k1) k2) = tail_sib j l).
  { rewrite hd_slice; [reflexivity|lia|apply sib_size_le]. }
  unfold tail_bytes, tail_wf, tail_rel.
  cbn [x_modrm x_sib x_dsp x_imm with_tail].
  change (form_of m (with_tail x _ _ _ _)) with (form_of m x).
  rewrite <- Ef. rewrite !app_length, H1, H2, L1, L2, L3, L4.
  repeat split; try exact R2; try exact R3; try (apply R1); try lia.
  - apply at_app. split; [apply at_slice; lia|]. rewrite L1.
    apply at_app. split; [apply at_slice; lia|]. rewrite L2.
    apply at_app. split; [apply at_slice; lia|]. rewrite L3.
    apply at_slice; lia.
  - unfold bytes_ok. repeat (apply Forall_app; split); apply slice_ok; exact Hb.
Qed.

(** Classification. *)
Lemma rep_f2 : forall x j,
  i_last_f2f3 j = rep_code (rep_prefix x) ->
  (forall b, rep_prefix x = Some b -> b = 0xf2 \/ b = 0xf3) ->
  (if i_last_f2f3 j =? 2 then Ok (ptic_far_return, mk_iext PTI_ERETS 0 false)
   else if i_last_f2f3 j =? 3
   then Ok (ptic_far_return, mk_iext PTI_ERETU 0 false)
   else Ok (ptic_other, mk_iext PTI_INVALID 0 false))
  = Ok (let '(c, k, d) :=
          match rep_prefix x with Some b => pick b eret | None => other end in
        (c, mk_iext k (if d then signed_le (x_dsp x) else 0%Z) d)).
Proof.
  intros x j E H. rewrite E. destruct (rep_prefix x) as [b|]; [|reflexivity].
  destruct (H b eq_refl) as [-> | ->]; reflexivity.
Qed.

Lemma last_rep_vals : forall pfx r b,
  (forall c, r = Some c -> c = 0xf2 \/ c = 0xf3) ->
  last_rep pfx r = Some b -> b = 0xf2 \/ b = 0xf3.
Proof.
  intros pfx. induction pfx as [|a pfx IH]; intros r b Hr H.
  - apply Hr. exact H.
  - cbn [last_rep] in H. eapply IH; [|exact H].
    intros c Hc. destruct (one_of [0xf2; 0xf3] a) eqn:E; [|now apply Hr].
    injection Hc as <-. unfold one_of in E. cbn [existsb] in E. lia.
Qed.

Lemma rep_vals : forall x b, rep_prefix x = Some b -> b = 0xf2 \/ b = 0xf3.
Proof.
  intros x b. unfold rep_prefix.
  destruct (implied (x_enc x)) as [|[[p|p|]|[p|p|]|]] eqn:E;
    intros H; try (eapply last_rep_vals; [|exact H]; discriminate);
    injection H as <-; auto.
Qed.

Lemma row70 : forall op, op < 256 ->
  (N.land op 0xf0 =? 0x70) = within 0x70 0x7f op
  /\ (N.land op 0xf0 =? 0x80) = within 0x80 0x8f op.
Proof.
  intros op Ho.
  assert (E : all_bytes (fun op =>
    eqb (N.land op 0xf0 =? 0x70) (within 0x70 0x7f op)
    && eqb (N.land op 0xf0 =? 0x80) (within 0x80 0x8f op)) = true)
    by (vm_compute; reflexivity).
  apply (all_bytes_spec _ E) in Ho. cbv beta in Ho.
  apply andb_true_iff in Ho. destruct Ho as [A B].
  split; now apply eqb_prop.
Qed.

Definition disp_width (n : nat) : Prop :=
  (n = 1 \/ n = 2 \/ n = 4 \/ n = 8)%nat.

Lemma branch_target : forall i k dsp pos,
  i_disp_bytes i = length dsp -> disp_width (length dsp) ->
  (length dsp <> 0%nat -> i_disp_pos i = pos) ->
  at_pos (i_raw i) pos dsp -> bytes_ok dsp ->
  set_branch_target k i = Ok (mk_iext k (signed_le dsp) true).
Proof.
  intros i k dsp pos Hd Hw Hp Ha Hb. unfold set_branch_target.
  assert (Hn : dsp <> []) by (intros ->; unfold disp_width in Hw; cbn in Hw; lia).
  assert (G : (let* l := get_bytes i (i_disp_pos i) (i_disp_bytes i) in
     Ok (mk_iext k (to_signed (8 * N.of_nat (i_disp_bytes i)) (le_bytes l)) true))
     = Ok (mk_iext k (signed_le dsp) true)).
  { rewrite Hp by (unfold disp_width in Hw; lia). rewrite Hd.
    rewrite (get_bytes_at _ _ _ Ha). cbn [bind]. now rewrite signed_eq. }
  rewrite Hd in *. destruct Hw as [E|[E|[E|E]]]; rewrite E in *; exact G.
Qed.

Lemma width_z_ok : forall f, disp_width (width_z f).
Proof. intros f. unfold disp_width, width_z. destruct (opsize16 f); lia. Qed.
Lemma width_branch_ok : forall f, disp_width (width_branch f).
Proof.
  intros f. unfold width_branch. destruct (is64 _).
  - unfold disp_width. lia.
  - apply width_z_ok.
Qed.
Lemma addrsize_ok : forall f, disp_width (addrsize f).
Proof.
  intros f. unfold disp_width, addrsize. destruct (f_mode f), (f_asz f); lia.
Qed.

(** Opcodes without ModRM have the displacement of the opcode. *)
Lemma disp_no_modrm : forall f mb sb,
  modrm_of f = No_modrm -> disp_size f mb sb = opc_disp f mb.
Proof.
  intros f mb sb H. unfold disp_size, mem_disp. rewrite H. reflexivity.
Qed.

Ltac ifs :=
  repeat (match goal with |- context [if ?c then _ else _] => destruct c end);
  discriminate.

Lemma direct_width : forall m x,
  x_opc x < 256 ->
  snd (classify m x) = true -> tail_wf m x -> disp_width (length (x_dsp x)).
Proof.
  intros m x Ho Hc (_ & _ & W3 & _). rewrite W3. clear W3.
  set (f := form_of m x) in *.
  assert (Ek : f_kind f = kind_of (x_enc x)) by reflexivity.
  assert (Em : f_map f = x_map x) by reflexivity.
  assert (Eo : f_opc f = x_opc x) by reflexivity.
  assert (K : forall c, f_opc f = c -> f_map f = 0%nat -> f_kind f = Klegacy ->
            map0_modrm c = false -> modrm_of f = No_modrm).
  { intros c H1 H2 H3 H4. unfold modrm_of. rewrite H3, H2, H1, H4. reflexivity. }
  unfold classify in Hc.
  destruct (kind_of (x_enc x)); try discriminate Hc.
  destruct (x_map x) as [|[|k]]; try discriminate Hc.
  - assert (J : forall c, f_opc f = c -> map0_modrm c = false ->
      disp_width (opc_disp f (hd 0 (x_modrm x))) ->
      disp_width (disp_size f (hd 0 (x_modrm x)) (hd 0 (x_sib x)))).
    { intros c H1 H2 H3. rewrite disp_no_modrm; [exact H3|].
      exact (K c H1 Em Ek H2). }
    unfold opc_disp in J. rewrite Ek, Em, Eo in J. cbv iota zeta in J.
    destruct (x_opc x =? 0xff) eqn:E0.
    { exfalso. revert Hc. cbn [pick group5].
      repeat (destruct (_ =? _)); cbn; discriminate. }
    destruct (negb (is_rex2 x) && within 0x70 0x7f (x_opc x)) eqn:E1.
    { assert (E2 : within 0x70 0x7f (x_opc x) = true)
        by (apply andb_true_iff in E1; tauto).
      apply (J (x_opc x)); [reflexivity| |].
      - assert (E : all_bytes (fun op => negb (within 0x70 0x7f op)
            || negb (map0_modrm op)) = true)
          by (vm_compute; reflexivity).
        apply (all_bytes_spec _ E) in Ho. cbv beta in Ho. rewrite E2 in Ho.
        cbn [negb orb] in Ho. now apply negb_true_iff.
      - rewrite E2. cbn [orb]. unfold disp_width. lia. }
    destruct (is_rex2 x && (x_opc x =? 0xa1)) eqn:E3.
    { assert (E4 : x_opc x = 0xa1) by lia.
      apply (J 0xa1); [exact E4|reflexivity|]. rewrite E4. cbn.
      apply addrsize_ok. }
    revert Hc.
    destruct (is_rex2 x), (is64 m); cbn [app one_byte one_byte_near one_byte_far pick];
      repeat (match goal with
              | |- context [x_opc x =? ?k] =>
                  let E := fresh "E" in destruct (x_opc x =? k) eqn:E;
                  [cbn [snd]; intros Hc;
                   first [discriminate Hc
                   | apply N.eqb_eq in E;
                     apply (J k); [exact E|reflexivity|]; rewrite E; cbn;
                     first [apply width_branch_ok | unfold disp_width; lia]] | ]
              end); cbn; discriminate.
  - assert (Hd : within 0x80 0x8f (x_opc x) = true).
    { destruct (negb (is_rex2 x) && within 0x80 0x8f (x_opc x)) eqn:E1;
        [apply andb_true_iff in E1; tauto|]. exfalso. revert Hc.
      destruct (x_opc x =? 0x01).
      { destruct (hd 0 (x_modrm x) =? 0xca).
        - destruct (rep_prefix x) as [b|]; [|discriminate].
          cbn [pick eret]. repeat (destruct (_ =? _)); discriminate.
        - cbn [pick group7]. repeat (destruct (_ =? _)); discriminate. }
      destruct (x_opc x =? 0x22); [ifs|].
      destruct (x_opc x =? 0xc7); [ifs|].
      destruct (x_opc x =? 0xae); [ifs|].
      destruct (is_rex2 x); cbn [app two_byte two_byte_legacy pick]; ifs. }
    rewrite disp_no_modrm.
    + unfold opc_disp. rewrite Ek, Em, Eo, Hd. apply width_branch_ok.
    + unfold modrm_of. rewrite Ek, Em, Eo. unfold map1_no_modrm. rewrite Hd.
      rewrite !orb_true_r. cbn [orb]. reflexivity.
Qed.

Lemma within_neq : forall lo hi k op,
  within lo hi op = true -> ((k <? lo) || (hi <? k)) = true -> (op =? k) = false.
Proof. intros lo hi k op H1 H2. unfold within in H1. lia. Qed.

Ltac no_eq op W :=
  repeat (match goal with
          | |- context [op =? ?k] => rewrite (within_neq _ _ k op W eq_refl)
          end).

Ltac each op HT :=
  repeat (match goal with
          | |- context [if op =? ?k then _ else _] =>
              let E := fresh "E" in
              destruct (op =? k) eqn:E;
              [apply N.eqb_eq in E; subst op;
               first [rewrite (HT eq_refl); reflexivity | reflexivity] | ]
          end).

Lemma class_eq : forall m x j i l,
  m <> ptem_unknown -> head_rel m x j -> tail_rel x j l i -> tail_wf m x ->
  x_opc x < 256 -> (is_rex2 x = true -> is64 m = true) ->
  (x_map x <= 7)%nat ->
  at_pos (i_raw j) l (tail_bytes x) -> bytes_ok (tail_bytes x) ->
  pt_instruction_decode i = Ok (meaning m x).
Proof.
  intros m x j i l Hm Hh Ht Hw Ho Hr2 Hmap Ha Hb.
  pose proof (direct_width m x Ho) as HD.
  destruct Hh as (Emode & Ef & Ef3 & Erep & Erex2 & Er).
  destruct Ht as (Hs & Emod & Ed & Ep).
  destruct Hs as (S1 & S2 & S3 & S4 & S5 & S6 & S7 & S8 & S9 & S10 & S11 & S12 & S13).
  assert (Hdsp : at_pos (i_raw i) (l + length (x_modrm x) + length (x_sib x))
                   (x_dsp x)).
  { rewrite S1. unfold tail_bytes in Ha. apply at_app in Ha. destruct Ha as [_ Ha].
    apply at_app in Ha. destruct Ha as [_ Ha]. apply at_app in Ha. tauto. }
  assert (Hbd : bytes_ok (x_dsp x)).
  { unfold tail_bytes, bytes_ok in Hb. apply Forall_app in Hb. destruct Hb as [_ Hb].
    apply Forall_app in Hb. destruct Hb as [_ Hb]. apply Forall_app in Hb. tauto. }
  assert (HT : snd (classify m x) = true -> forall k,
    set_branch_target k i = Ok (mk_iext k (signed_le (x_dsp x)) true)).
  { intros H k. eapply branch_target; [exact Ed|exact (HD H Hw)|exact Ep| |];
      assumption. }
  assert (Fm : i_map i = x_map x)
    by (rewrite S12; exact (f_equal f_map Ef)).
  assert (Fo : i_opc i = x_opc x)
    by (rewrite S13; exact (f_equal f_opc Ef)).
  assert (Fk : vex_kind (i_vex i) = kind_of (x_enc x))
    by (rewrite S11; exact (f_equal f_kind Ef)).
  assert (Fz : i_osz i = opsize_prefix x)
    by (rewrite S4; exact (f_equal f_osz Ef)).
  assert (Fa : i_asz i = addrsize_prefix x)
    by (rewrite S5; exact (f_equal f_asz Ef)).
  assert (Fw : i_rex_w i = rex_w m x)
    by (rewrite S10; exact (f_equal f_w Ef)).
  assert (F3 : i_f3 i = f3_prefix x) by congruence.
  assert (Frep : i_last_f2f3 i = rep_code (rep_prefix x)) by congruence.
  assert (F2 : i_rex2 i = is_rex2 x) by congruence.
  assert (F64 : mode_64b i = is64 m) by (rewrite mode_64_eq; congruence).
  assert (Fr : kind_of (x_enc x) = Klegacy -> (i_rex_r i =? 0) = negb (rex_r m x))
    by (rewrite S9; exact Er).
  unfold meaning, pt_instruction_decode.
  rewrite !reg_eq, !mod_eq, Fm, Fo, Fz, Fa, Fw, F3, F2, F64, Emod.
  destruct (row70 _ Ho) as [R7 R8]. rewrite R7, R8.
  unfold classify in *.
  set (mb := hd 0 (x_modrm x)) in *. set (op := x_opc x) in *.
  destruct (kind_of (x_enc x)) eqn:Ek.
  2: { destruct (i_vex i) as [|[|v]]; try discriminate Fk.
       destruct (1 <? x_map x)%nat; reflexivity. }
  2: { destruct (i_vex i) as [|[|v]]; try discriminate Fk.
       destruct (1 <? x_map x)%nat; reflexivity. }
  destruct (i_vex i) as [|[|v]]; try discriminate Fk. clear Fk.
  rewrite (Fr eq_refl).
  destruct (x_map x) as [|[|k]] eqn:Emap; cbn [Nat.ltb Nat.leb Nat.eqb negb andb].
  - (* map 0 *)
    clearbody mb op.
    clear - HT Hr2.
    assert (HT' : snd
     (if op =? 0xff then pick (m_reg mb) group5
      else if negb (is_rex2 x) && within 0x70 0x7f op
      then (ptic_cond_jump, PTI_JCC, true)
      else if is_rex2 x && (op =? 0xa1) then
        if negb (rex_w m x) && negb (addrsize_prefix x)
           && negb (opsize_prefix x)
        then (ptic_jump, PTI_JMPABS, true) else other
      else
        pick op (one_byte ++ (if is_rex2 x then [] else one_byte_near)
                   ++ (if is64 m then [] else one_byte_far))) = true ->
        forall k, set_branch_target k i
          = Ok (mk_iext k (signed_le (x_dsp x)) true)) by exact HT.
    clear HT. revert HT' Hr2.
    generalize (set_branch_target) as sbt.
    generalize (signed_le (x_dsp x)) as v.
    generalize (opsize_prefix x) as z. generalize (addrsize_prefix x) as a.
    generalize (rex_w m x) as w.
    generalize (is_rex2 x) as r2. generalize (is64 m) as b64.
    generalize (i_rex_r i =? 0) as rr.
    intros rr b64 r2 w a z v sbt HT Hr2.
    destruct (within 0x70 0x7f op) eqn:W7.
    { destruct r2; cbn [negb andb] in *.
      - no_eq op W7. unfold one_byte, one_byte_far.
        destruct b64; cbn [app pick]; no_eq op W7; reflexivity.
      - rewrite (within_neq _ _ 0xff op W7 eq_refl) in *.
        rewrite (HT eq_refl). reflexivity. }
    rewrite andb_false_r in *.
    destruct (within 0x80 0x8f op) eqn:W8.
    { no_eq op W8. rewrite andb_false_r. unfold one_byte, one_byte_near, one_byte_far.
      destruct r2, b64; cbn [app pick]; no_eq op W8; reflexivity. }
    clear W7 W8.
    unfold one_byte, one_byte_near, one_byte_far in *.
    destruct r2; [rewrite (Hr2 eq_refl) in *; clear Hr2|destruct b64];
      cbn [negb andb app pick] in *.
    + destruct (op =? 0xff) eqn:E0.
      { apply N.eqb_eq in E0. subst op. cbn [pick group5].
        repeat (destruct (m_reg mb =? _)); reflexivity. }
      destruct (op =? 0xa1) eqn:E1.
      { apply N.eqb_eq in E1. subst op. cbn [pick].
        destruct w, a, z; cbn [negb andb] in *; try reflexivity.
        rewrite (HT eq_refl). reflexivity. }
      each op HT. reflexivity.
    + destruct (op =? 0xff) eqn:E0.
      { apply N.eqb_eq in E0. subst op. cbn [pick group5].
        repeat (destruct (m_reg mb =? _)); reflexivity. }
      each op HT. reflexivity.
    + destruct (op =? 0xff) eqn:E0.
      { apply N.eqb_eq in E0. subst op. cbn [pick group5].
        repeat (destruct (m_reg mb =? _)); reflexivity. }
      each op HT. reflexivity.
  - clearbody mb op.
    pose proof (rep_vals x) as HV.
    clear - HT HV Frep.
    assert (HT' : snd (
      if negb (is_rex2 x) && within 0x80 0x8f op
      then (ptic_cond_jump, PTI_JCC, true)
      else if op =? 0x01 then
        if mb =? 0xca then
          match rep_prefix x with Some b => pick b eret | None => other end
        else pick mb group7
      else if op =? 0x22 then
        if (m_reg mb =? 3) && negb (rex_r m x)
        then (ptic_other, PTI_MOV_CR3, false) else other
      else if op =? 0xc7 then
        if (m_reg mb =? 6) && negb (m_mod mb =? 3)
        then (ptic_other, PTI_VMPTRLD, false) else other
      else if op =? 0xae then
        if (m_reg mb =? 4) && f3_prefix x && negb (opsize_prefix x)
        then (ptic_ptwrite, PTI_PTWRITE, false) else other
      else pick op (two_byte ++ (if is_rex2 x then [] else two_byte_legacy)))
       = true -> forall k, set_branch_target k i
          = Ok (mk_iext k (signed_le (x_dsp x)) true)) by exact HT.
    clear HT. revert HT' HV Frep.
    generalize (set_branch_target) as sbt.
    generalize (signed_le (x_dsp x)) as v.
    generalize (opsize_prefix x) as z. generalize (f3_prefix x) as f3.
    generalize (rex_r m x) as rr. generalize (is_rex2 x) as r2.
    generalize (rep_prefix x) as rep. generalize (i_last_f2f3 i) as last.
    intros last rep r2 rr f3 z v sbt HT HV Hl.
    destruct (within 0x70 0x7f op) eqn:W7.
    { unfold within in HT. no_eq op W7.
      replace (within 0x80 0x8f op) with false by (unfold within in *; lia).
      rewrite andb_false_r. unfold two_byte, two_byte_legacy.
      destruct r2; cbn [app pick]; no_eq op W7; reflexivity. }
    destruct (within 0x80 0x8f op) eqn:W8.
    { destruct r2; cbn [negb andb] in *.
      - no_eq op W8. unfold two_byte. cbn [app pick]. no_eq op W8. reflexivity.
      - rewrite (HT eq_refl). reflexivity. }
    rewrite andb_false_r in *. clear W7 W8.
    destruct (op =? 0x01) eqn:E1.
    { apply N.eqb_eq in E1. subst op. cbn [pick N.eqb Pos.eqb].
      destruct (mb =? 0xca) eqn:E2.
      - apply N.eqb_eq in E2. subst mb. cbn [N.eqb Pos.eqb].
        rewrite Hl. destruct rep as [b|]; [|reflexivity].
        destruct (HV b eq_refl) as [-> | ->]; reflexivity.
      - cbn [group7 pick]. repeat (destruct (mb =? _)); reflexivity. }
    destruct (op =? 0x22) eqn:E2.
    { apply N.eqb_eq in E2. subst op. cbn [N.eqb Pos.eqb].
      destruct (m_reg mb =? 3), rr; reflexivity. }
    destruct (op =? 0xc7) eqn:E3.
    { apply N.eqb_eq in E3. subst op. cbn [N.eqb Pos.eqb].
      destruct (m_reg mb =? 6), (m_mod mb =? 3); reflexivity. }
    destruct (op =? 0xae) eqn:E4.
    { apply N.eqb_eq in E4. subst op. cbn [N.eqb Pos.eqb].
      destruct (m_reg mb =? 4), f3, z; reflexivity. }
    unfold two_byte, two_byte_legacy in *. clear HV Hl.
    destruct r2; cbn [negb andb app pick] in *; each op HT; reflexivity.
  - reflexivity.
Qed.
