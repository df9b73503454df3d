(** The instruction length decoder on any input in any execution mode. *)

From Coq Require Import List NArith ZArith Bool Lia.
From Coq Require Import ZifyBool ZifyNat ZifyN.
From Verif Require Import Base M_event M_ildtab M_ild S_x86 L_ild L_ild2 L_ild3
  L_ild4 L_ild5.
Import ListNotations.
Open Scope N_scope.

(** Both directions. *)
Lemma wf_tail : forall m x, x86_wf m x -> tail_wf m x.
Proof. intros m x (_ & _ & A & B & C & D & _). repeat split; assumption. Qed.

Lemma wf_map : forall m x, head_ok m x -> (x_map x <= 7)%nat.
Proof.
  intros m x (_ & _ & H). destruct (x_enc x) as [|p|p|p1 p2|p1 p2 p3].
  - destruct H as [H _]. lia.
  - destruct H as (_ & -> & Hp).
    assert (p / 128 < 2) by (apply N.div_lt_upper_bound; lia). lia.
  - destruct H as [-> _]. lia.
  - lia.
  - destruct H as [-> _]. assert (p1 mod 8 < 8) by (apply N.mod_lt; lia). lia.
Qed.

Lemma head_rex2 : forall m x, head_ok m x -> is_rex2 x = true -> is64 m = true.
Proof.
  intros m x (_ & _ & H) E. unfold is_rex2 in E.
  destruct (x_enc x); try discriminate E. tauto.
Qed.

Lemma ild_complete : forall m x raw size,
  m <> ptem_unknown -> x86_wf m x -> bytes_ok raw -> (size <= length raw)%nat ->
  at_pos raw 0 (render x) -> (length (render x) <= size)%nat ->
  pt_ild_decode raw size m = (length (render x), Ok (meaning m x)).
Proof.
  intros m x raw size Hm Hwf Hb Hs Ha Hl.
  pose proof (wf_head_ok m x Hwf) as Hh.
  unfold pt_ild_decode.
  rewrite (head_complete m x raw size) by assumption.
  destruct (head_state m x _ (init_init_ok raw size m Hb Hs) Hh)
    as (S1 & S2 & S3 & S4).
  set (j := enc_state m x (pfx_state (ild_init raw size m) (x_pfx x))) in *.
  cbn [i_raw i_max_bytes ild_init] in S3, S4.
  rewrite render_split in Ha, Hl |- *.
  assert (Bt : bytes_ok (tail_bytes x)).
  { destruct Hwf as (_ & _ & _ & _ & _ & _ & W). rewrite render_split in W.
    unfold bytes_ok in W. apply Forall_app in W. apply W. }
  apply at_app in Ha. destruct Ha as [_ Ha]. cbn [Nat.add] in Ha.
  rewrite app_length in Hl |- *.
  destruct (tail_complete m x j (length (head_bytes x)) Hm S1 S2 (wf_tail m x Hwf))
    as (i & Ei & Ht); [rewrite S3; exact Ha|rewrite S4; exact Hl|].
  rewrite Ei. f_equal.
  eapply class_eq; [exact Hm|exact S2|exact Ht|exact (wf_tail m x Hwf)
    |apply Hh|now apply head_rex2|exact (wf_map m x Hh)|rewrite S3; exact Ha|exact Bt].
Qed.

Lemma with_tail_head : forall pfx e map opc a b c d,
  head_bytes (with_tail (head_of pfx e map opc) a b c d)
  = head_bytes (head_of pfx e map opc).
Proof. reflexivity. Qed.

Lemma prefix_ok : forall raw l bs, bytes_ok raw -> at_pos raw l bs -> bytes_ok bs.
Proof.
  intros raw l bs H Ha. rewrite <- (at_slice_eq _ _ _ Ha). now apply slice_ok.
Qed.

Lemma ild_sound : forall m raw size n r,
  m <> ptem_unknown -> bytes_ok raw -> (size <= length raw)%nat ->
  pt_ild_decode raw size m = (n, Ok r) ->
  exists x, x86_wf m x /\ at_pos raw 0 (render x) /\ n = length (render x)
    /\ (n <= size)%nat /\ r = meaning m x.
Proof.
  intros m raw size n r Hm Hb Hs H. unfold pt_ild_decode in H.
  destruct (decode (ild_init raw size m)) as [[i n']|e|u] eqn:Ed;
    try discriminate H.
  injection H as -> Hr.
  destruct (head_sound m raw size (i, n) Hb Hs Ed)
    as (pfx & e & map & opc & Hh & Hc & Ha & Hd).
  set (x := head_of pfx e map opc) in *.
  destruct (head_state m x _ (init_init_ok raw size m Hb Hs) Hh)
    as (S1 & S2 & S3 & S4).
  change (pfx_state (ild_init raw size m) (x_pfx x))
    with (pfx_state (ild_init raw size m) pfx) in *.
  set (j := enc_state m x (pfx_state (ild_init raw size m) pfx)) in *.
  cbn [i_raw i_max_bytes ild_init] in S3, S4.
  destruct (tail_sound m x j _ i n Hm S1 S2 Hd)
    as (a & b & c & d & T1 & T2 & T3 & T4 & T5 & T6).
  set (y := with_tail x a b c d) in *.
  rewrite S3 in T2. rewrite S4 in T4.
  assert (Hhy : head_ok m y) by exact Hh.
  assert (Er : at_pos raw 0 (render y)).
  { rewrite render_split. apply at_app. split; [exact Ha|exact T2]. }
  assert (En : n = length (render y)).
  { rewrite render_split, app_length. exact T3. }
  exists y. split; [|split; [exact Er|split; [exact En|split; [exact T4|]]]].
  - destruct T1 as (W1 & W2 & W3 & W4).
    split; [apply Hh|]. split.
    2: { repeat split; try assumption. exact (prefix_ok _ _ _ Hb Er). }
    destruct Hh as (_ & _ & Hh). unfold enc_ok, enc_cond in *.
    change (x_enc y) with (x_enc x). change (x_map y) with (x_map x).
    change (x_opc y) with (x_opc x).
    destruct (x_enc x) as [|p|p|p1 p2|p1 p2 p3] eqn:Ee; try tauto.
    destruct Hh as (L1 & L2 & L3). split; [exact L1|]. split; [|exact L3].
    intros Hz. destruct (Hc Hz) as (C1 & C2 & C3).
    split; [exact C1|]. split; [exact (L2 Hz)|]. split; [|exact C3].
    intros Hone. destruct (C2 Hone) as [C4 C5]. split; [exact C4|].
    assert (Hsize : length (x_modrm y) = 1%nat).
    { rewrite W1. unfold modrm_size, modrm_of, form_of. cbn [f_kind f_map f_opc].
      change (x_enc y) with (x_enc x). change (x_map y) with (x_map x).
      change (x_opc y) with (x_opc x).
      rewrite Ee, Hz. cbn [kind_of].
      assert (Ho : x_opc x = 0x62 \/ x_opc x = 0xc4 \/ x_opc x = 0xc5)
        by (unfold one_of in Hone; cbn [existsb] in Hone; clear - Hone; lia).
      destruct Ho as [-> |[-> | ->]]; reflexivity. }
    unfold tail_bytes in T2.
    destruct (x_modrm y) as [|mb [|? ?]]; try discriminate Hsize.
    cbn [hd app at_pos] in *. destruct T2 as [T2 _].
    now rewrite <- (byte_nth _ _ _ T2).
  - assert (Q : pt_instruction_decode i = Ok (meaning m y)).
    { eapply (class_eq m y j i (length (head_bytes x)));
        [exact Hm|exact S2|exact T6|exact T1|apply Hhy|now apply head_rex2
        |exact (wf_map m y Hhy)|rewrite S3; exact T2|exact T5]. }
    congruence.
Qed.

(** Any input, any mode. *)
Definition tail_safe (i : ild) (l : nat) (r : res (ild * nat)) : Prop :=
  match r with
  | Ok (i', n) =>
      (l <= n <= i_max_bytes i)%nat /\ same_head i i'
      /\ (i_disp_bytes i' <> 0 -> i_disp_pos i' + i_disp_bytes i' <= n)%nat
      /\ (modrm_of (form_i i) = No_modrm ->
          i_disp_bytes i' = opc_disp (form_i i) 0)
  | Err e => e = pte_bad_insn
  | UB _ => False
  end.

Lemma disp_safe : forall i j l l',
  map_ok i -> imm_start i -> i_opc i < 256 -> same_head i j ->
  i_imm1 j = i_imm1 i -> i_imm2 j = i_imm2 i ->
  (l <= l')%nat ->
  (modrm_of (form_i i) = No_modrm -> i_disp_bytes j = 0%nat /\ i_modrm j = 0) ->
  tail_safe i l (disp_dec j l').
Proof.
  intros i j l l' Hm Hi Ho Hs E1 E2 Hl Hn.
  pose proof (form_same _ _ Hs) as Ef.
  pose proof Hs as Hs'.
  destruct Hs' as (S1 & S2 & S3 & S4 & S5 & S6 & S7 & S8 & S9 & S10 & S11 & S12 & S13).
  assert (Hm' : map_ok j) by (unfold map_ok in *; rewrite S11, S12; exact Hm).
  assert (Hi' : imm_start j)
    by (unfold imm_start in *; rewrite E1, E2, S11, S12; exact Hi).
  assert (Ho' : i_opc j < 256) by (rewrite S13; exact Ho).
  destruct (disp_dec_eq j l' Hm' Hi' Ho') as [A B].
  set (d := if (i_disp_bytes j =? 0)%nat then _ else _) in *.
  set (k := imm_size (form_i j) (i_modrm j)) in *.
  destruct (Nat.lt_ge_cases (i_max_bytes j) (l' + d + k)) as [H|H].
  - rewrite (A H). reflexivity.
  - destruct (B H) as (i' & Ei & R1 & R2 & R3 & R4). rewrite Ei. unfold tail_safe.
    split; [rewrite <- S2; clear - Hl H; lia|].
    split; [exact (same_trans _ _ _ Hs R1)|].
    split; [rewrite R3; intros Hd; rewrite (R4 Hd); clear; lia|].
    intros Hno. destruct (Hn Hno) as [N1 N2]. rewrite R3. unfold d.
    rewrite N1, N2, Ef. reflexivity.
Qed.

Lemma modrm_safe : forall i l,
  tail_start i -> tail_safe i l (modrm_dec i l).
Proof.
  intros i l (Hm & Hi & Ho & Hd & Hmod & Hb & Hlen).
  destruct (has_modrm_eq i Hm Ho) as (c & Ec & Hc).
  unfold modrm_dec.
  replace (map_invalid <=? i_map i)%nat with false
    by (unfold map_ok, map_invalid in *; clear - Hm; lia).
  rewrite Ec. cbn [bind].
  assert (Hrefl : same_head i i) by (unfold same_head; intuition).
  destruct c; cbn [modrm_norm modrm_code] in Hc.
  - apply disp_safe; auto.
  - destruct (i_max_bytes i <=? l)%nat eqn:El; [reflexivity|].
    unfold get_byte. rewrite rd_at by lia. cbn [bind]. cbv zeta.
    set (b := byte_at (i_raw i) l).
    assert (Hbl : b < 256) by (apply byte_at_ok; exact Hb).
    assert (Hno : modrm_of (form_i i) <> No_modrm)
      by (intros E; rewrite E in Hc; discriminate Hc).
    rewrite !mod_eq, !rm_eq. cbn [i_modrm set_modrm].
    destruct (ea_any (i_asz i) (i_mode i) (m_mod b) (m_rm b) (m_mod_lt _ Hbl)
                (m_rm_lt b)) as (x & y & E1 & E2).
    rewrite E1. cbn [bind]. rewrite !mod_eq, !rm_eq.
    cbn [i_modrm set_modrm set_disp_bytes]. rewrite E2. cbn [bind].
    destruct (truth y).
    + unfold sib_dec. cbn [i_max_bytes set_disp_bytes set_modrm].
      destruct (i_max_bytes i <=? l + 1)%nat eqn:El1; [reflexivity|].
      unfold get_byte. cbn [i_raw set_disp_bytes set_modrm].
      rewrite rd_at by lia. cbn [bind].
      apply disp_safe; try assumption; try lia; try contradiction;
        destruct ((_ =? 5) && (_ =? 0)); unfold same_head; cbn; intuition.
    + apply disp_safe; try assumption; try lia; try contradiction;
        unfold same_head; cbn; intuition.
  - destruct (i_max_bytes i <=? l)%nat eqn:El; [reflexivity|].
    unfold get_byte. rewrite rd_at by lia. cbn [bind].
    assert (Hno : modrm_of (form_i i) <> No_modrm)
      by (intros E; rewrite E in Hc; discriminate Hc).
    apply disp_safe; try assumption; try lia; try contradiction;
      unfold same_head; cbn; intuition.
  - apply disp_safe; auto.
Qed.

(** Classification does not fail after a successful length decode. *)
Definition direct_opc (i : ild) : bool :=
  (i_vex i =? 0)%nat
  && ((((i_map i =? 0)%nat
       && (within 0x70 0x7f (i_opc i)
           || one_of [0xe0; 0xe1; 0xe2; 0xe3; 0xe8; 0xe9; 0xeb; 0xa1] (i_opc i)))
      || ((i_map i =? 1)%nat && within 0x80 0x8f (i_opc i)))).

Lemma class_any : forall i,
  i_opc i < 256 ->
  (direct_opc i = true -> forall k, exists t, set_branch_target k i = Ok t) ->
  exists r, pt_instruction_decode i = Ok r.
Proof.
  intros i Ho H. unfold direct_opc in H.
  destruct (row70 _ Ho) as [R7 R8].
  unfold pt_instruction_decode. rewrite R7, R8. clear R7 R8 Ho.
  destruct (i_vex i =? 0)%nat; cbn [andb negb] in *;
    [|destruct (1 <? i_map i)%nat; eexists; reflexivity].
  destruct (1 <? i_map i)%nat; [eexists; reflexivity|].
  assert (D : forall k c, (forall k, exists t, set_branch_target k i = Ok t) ->
    exists r, (let* x := set_branch_target k i in Ok (c : iclass, x)) = Ok r).
  { intros k c Hk. destruct (Hk k) as (t & E). rewrite E. eexists; reflexivity. }
  destruct (within 0x70 0x7f (i_opc i)); cbn [orb andb] in *.
  { destruct (i_map i =? 0)%nat; cbn [orb andb] in *; [|eexists; reflexivity].
    destruct (negb (i_rex2 i)); [apply D; apply H; reflexivity|eexists; reflexivity]. }
  destruct (within 0x80 0x8f (i_opc i)); cbn [orb andb] in *.
  { destruct (i_map i =? 1)%nat; cbn [orb andb] in *; [|eexists; reflexivity].
    destruct (negb (i_rex2 i));
      [apply D; apply H; apply orb_true_r|eexists; reflexivity]. }
  rewrite andb_false_r, orb_false_r in H. unfold one_of in H. cbn [existsb] in H.
  rewrite orb_false_r in H.
  destruct (i_map i =? 0)%nat; cbn [andb] in *.
  - generalize dependent (i_opc i). intros op H.
    repeat (match goal with
            | |- context [if op =? ?k then _ else _] =>
                let E := fresh "E" in
                destruct (op =? k) eqn:E;
                [apply N.eqb_eq in E; subst op;
                 repeat (match goal with
                         | |- context [if ?c then _ else _] => destruct c
                         end);
                 first [eexists; reflexivity
                       | apply D; apply H; reflexivity] | ]
            end).
    eexists; reflexivity.
  - repeat (match goal with
            | |- context [if ?c then _ else _] => destruct c
            end; try (eexists; reflexivity)).
    all: eexists; reflexivity.
Qed.

Lemma target_ok : forall i k,
  disp_width (i_disp_bytes i) ->
  (i_disp_pos i + i_disp_bytes i <= length (i_raw i))%nat ->
  exists t, set_branch_target k i = Ok t.
Proof.
  intros i k Hw Hp.
  assert (Ha : at_pos (i_raw i) (i_disp_pos i)
    (slice (i_raw i) (i_disp_pos i) (i_disp_bytes i))) by (now apply at_slice).
  apply get_bytes_at in Ha. rewrite slice_length in Ha by exact Hp.
  unfold set_branch_target. rewrite Ha.
  destruct Hw as [-> |[-> |[-> | ->]]]; eexists; reflexivity.
Qed.

Lemma direct_no_modrm : forall i,
  i_opc i < 256 -> direct_opc i = true ->
  modrm_of (form_i i) = No_modrm /\ disp_width (opc_disp (form_i i) 0).
Proof.
  intros i Ho H. unfold direct_opc in H. apply andb_true_iff in H.
  destruct H as [Hv H]. apply Nat.eqb_eq in Hv.
  unfold modrm_of, opc_disp.
  change (f_kind (form_i i)) with (vex_kind (i_vex i)).
  change (f_map (form_i i)) with (i_map i).
  change (f_opc (form_i i)) with (i_opc i).
  rewrite Hv. cbn [vex_kind].
  pose proof (width_branch_ok (form_i i)) as W1.
  pose proof (addrsize_ok (form_i i)) as W2.
  assert (W3 : disp_width 1) by (unfold disp_width; lia).
  apply orb_true_iff in H. destruct H as [H|H]; apply andb_true_iff in H;
    destruct H as [Hm H]; apply Nat.eqb_eq in Hm; rewrite Hm.
  - assert (E : all_bytes (fun op =>
      negb (within 0x70 0x7f op
           || one_of [0xe0; 0xe1; 0xe2; 0xe3; 0xe8; 0xe9; 0xeb; 0xa1] op)
      || (negb (map0_modrm op)
          && (within 0x70 0x7f op || within 0xe0 0xe3 op || (op =? 0xeb)
              || one_of [0xe8; 0xe9] op
              || (negb (one_of [0x9a; 0xea] op) && within 0xa0 0xa3 op)))) = true)
      by (vm_compute; reflexivity).
    apply (all_bytes_spec _ E) in Ho. cbv beta in Ho. clear E.
    rewrite H in Ho. cbn [negb orb] in Ho. apply andb_true_iff in Ho.
    destruct Ho as [Ho1 Ho2]. apply negb_true_iff in Ho1. rewrite Ho1.
    split; [reflexivity|].
    destruct (within 0x70 0x7f (i_opc i) || within 0xe0 0xe3 (i_opc i)
              || (i_opc i =? 0xeb)); [exact W3|]. cbn [orb] in Ho2.
    destruct (one_of [0xe8; 0xe9] (i_opc i)); [exact W1|]. cbn [orb] in Ho2.
    apply andb_true_iff in Ho2. destruct Ho2 as [Ho2 Ho3].
    apply negb_true_iff in Ho2. rewrite Ho2, Ho3. exact W2.
  - unfold map1_no_modrm. rewrite H, !orb_true_r. cbn [orb]. split; [reflexivity|exact W1].
Qed.

(** The condition under which the decoder reads outside of the buffer. *)
Definition rex2_at_end (m : exec_mode) (raw : list N) (size : nat) : Prop :=
  is64 m = true /\ length raw = size
  /\ exists pfx p, raw = pfx ++ [0xd5; p]
     /\ Forall (fun b => prefix_byte m b = true) pfx.

Lemma prefix_split : forall fuel i l rex,
  bytes_ok (i_raw i) -> (i_max_bytes i <= length (i_raw i))%nat ->
  (l <= i_max_bytes i)%nat -> (i_max_bytes i - l < fuel)%nat ->
  prefix_decode fuel i l rex = Err pte_bad_insn
  \/ exists pfx b,
    Forall (fun b => prefix_byte (i_mode i) b = true) pfx
    /\ at_pos (i_raw i) l (pfx ++ [b])
    /\ prefix_byte (i_mode i) b = false
    /\ (l + length pfx < i_max_bytes i)%nat
    /\ prefix_decode fuel i l rex
       = main_dec (pfx_state i pfx) (l + length pfx) (pfx_rex rex pfx) b.
Proof.
  intros fuel. induction fuel as [|fuel IH]; intros i l rex Hb Hm Hl Hf; [lia|].
  rewrite prefix_unfold by assumption.
  destruct (i_max_bytes i <=? l)%nat eqn:El; [now left|].
  cbv zeta. set (b := byte_at (i_raw i) l) in *.
  assert (Hat : nth_error (i_raw i) l = Some b)
    by (unfold b, byte_at; apply nth_error_nth'; lia).
  destruct (prefix_byte (i_mode i) b) eqn:Ep.
  - destruct (pfx_step_keeps i b) as (E1 & E2 & E3).
    destruct (IH (pfx_step i b) (l + 1)%nat (rex_step b)) as [H|H];
      rewrite ?E1, ?E2; try assumption; try lia; [now left|right].
    destruct H as (pfx & c & H1 & H2 & H3 & H4 & H5).
    rewrite E1, E2, E3 in *.
    exists (b :: pfx), c. split; [now constructor|].
    split; [cbn [app at_pos]; split; [exact Hat|];
            now replace (S l) with (l + 1)%nat by lia|].
    split; [exact H3|]. cbn [length]. split; [lia|].
    replace (l + S (length pfx))%nat with (l + 1 + length pfx)%nat by lia.
    exact H5.
  - right. exists [], b. cbn [length app at_pos]. rewrite Nat.add_0_r.
    repeat split; try assumption; [constructor|lia].
Qed.

(** Safe outcomes of the length decode. *)
Definition len_safe (raw : list N) (size : nat) (r : res (ild * nat)) : Prop :=
  match r with
  | Ok (i, n) =>
      (1 <= n <= size)%nat /\ i_raw i = raw /\ i_opc i < 256
      /\ (direct_opc i = true ->
          disp_width (i_disp_bytes i)
          /\ (i_disp_pos i + i_disp_bytes i <= n)%nat)
  | Err e => e = pte_bad_insn
  | UB _ => False
  end.

Lemma len_from_tail : forall j l raw size,
  i_raw j = raw -> i_max_bytes j = size -> tail_start j -> (1 <= l)%nat ->
  len_safe raw size (modrm_dec j l).
Proof.
  intros j l raw size E1 E2 Ht Hl.
  pose proof (modrm_safe j l Ht) as H.
  destruct (modrm_dec j l) as [[i n]|e|u]; [|exact H|exact H].
  destruct H as (H1 & H2 & H3 & H4).
  pose proof (form_same _ _ H2) as Ef.
  destruct H2 as (S1 & S2 & S3 & S4 & S5 & S6 & S7 & S8 & S9 & S10 & S11 & S12 & S13).
  unfold len_safe. split; [clear - H1 E2 Hl; lia|]. split; [congruence|].
  assert (Ho : i_opc i < 256) by (rewrite S13; apply Ht).
  split; [exact Ho|]. intros Hd.
  destruct (direct_no_modrm i Ho Hd) as [D1 D2]. rewrite Ef in D1, D2.
  specialize (H4 D1). rewrite <- H4 in D2.
  split; [exact D2|]. apply H3. unfold disp_width in D2.
  clear - D2. lia.
Qed.

(** The state before the opcode. *)
Definition start_ok (v : nat) (i : ild) : Prop :=
  i_imm1 i = 0%nat /\ i_imm2 i = 0%nat /\ i_disp_bytes i = 0%nat
  /\ i_modrm i = 0 /\ i_vex i = v /\ bytes_ok (i_raw i)
  /\ (i_max_bytes i <= length (i_raw i))%nat.

Lemma legacy_start : forall i map opc,
  start_ok 0 i -> (map <= 3)%nat -> opc < 256 -> tail_start (opc_state i map opc).
Proof.
  intros i map opc (A & B & C & D & E & F & G) Hm Ho. unfold opc_state.
  destruct (map =? 3)%nat eqn:E3.
  - apply Nat.eqb_eq in E3. subst map.
    split; [left; split; [exact E|exact Hm]|].
    split; [split; [exact B|right; split; [exact E|reflexivity]]|].
    repeat split; assumption.
  - split; [left; split; [exact E|exact Hm]|].
    split; [split; [exact B|left; exact A]|].
    repeat split; assumption.
Qed.

Lemma opcode_any : forall i l,
  start_ok 0 i -> (l < i_max_bytes i)%nat ->
  len_safe (i_raw i) (i_max_bytes i) (opcode_dec i l).
Proof.
  intros i l Hs Hl. pose proof Hs as (_ & _ & _ & _ & _ & Hb & Hm).
  unfold opcode_dec.
  destruct (nth_byte i l Hm Hl Hb) as (b & E1 & B1).
  rewrite (get_at _ _ _ E1). cbn [bind].
  assert (K : forall map opc l', (map <= 3)%nat -> opc < 256 -> (1 <= l')%nat ->
    len_safe (i_raw i) (i_max_bytes i) (modrm_dec (opc_state i map opc) l')).
  { intros map opc l' H1 H2 H3. apply len_from_tail; [| |now apply legacy_start|exact H3];
      unfold opc_state; destruct (map =? 3)%nat; reflexivity. }
  destruct (negb (b =? 0x0f)).
  { apply (K 0%nat b); [lia|exact B1|lia]. }
  cbv zeta. destruct (i_max_bytes i <=? l + 1)%nat eqn:L1; [reflexivity|].
  assert (Hl1 : (l + 1 < i_max_bytes i)%nat) by lia.
  destruct (nth_byte i (l + 1) Hm Hl1 Hb) as (c & E2 & B2).
  rewrite (get_at _ _ _ E2). cbn [bind].
  destruct (c =? 0x38).
  { unfold get_next_as_opcode. cbn [i_max_bytes set_map].
    destruct (i_max_bytes i <=? l + 1 + 1)%nat eqn:L2; [reflexivity|].
    assert (Hl2 : (l + 1 + 1 < i_max_bytes i)%nat) by lia.
    destruct (nth_byte i (l + 1 + 1) Hm Hl2 Hb) as (d & E3 & B3).
    rewrite (get_at (set_map 2 i) _ _ E3). cbn [bind].
    apply (K 2%nat d); [lia|exact B3|lia]. }
  destruct (c =? 0x3a).
  { unfold get_next_as_opcode. cbn [i_max_bytes set_map set_imm1].
    destruct (i_max_bytes i <=? l + 1 + 1)%nat eqn:L2; [reflexivity|].
    assert (Hl2 : (l + 1 + 1 < i_max_bytes i)%nat) by lia.
    destruct (nth_byte i (l + 1 + 1) Hm Hl2 Hb) as (d & E3 & B3).
    rewrite (get_at (set_imm1 1 (set_map 3 i)) _ _ E3). cbn [bind].
    apply (K 3%nat d); [lia|exact B3|lia]. }
  destruct (bits_match c 0xf8 0x38).
  { unfold get_next_as_opcode. cbn [i_max_bytes set_map].
    destruct (i_max_bytes i <=? l + 1 + 1)%nat eqn:L2; [reflexivity|].
    assert (Hl2 : (l + 1 + 1 < i_max_bytes i)%nat) by lia.
    destruct (nth_byte i (l + 1 + 1) Hm Hl2 Hb) as (d & E3 & B3).
    rewrite (get_at (set_map map_invalid i) _ _ E3). cbn [bind].
    rewrite bad_map by (left; apply le_n). reflexivity. }
  apply (K 1%nat c); [lia|exact B2|lia].
Qed.

Lemma vex_start : forall v i map opc,
  start_ok v i -> (v = 1 \/ v = 2)%nat -> (map <= 7)%nat -> opc < 256 ->
  forall l, (1 <= l)%nat ->
  len_safe (i_raw i) (i_max_bytes i) (modrm_dec (set_opc opc (set_map map i)) l).
Proof.
  intros v i map opc (A & B & C & D & E & F & G) Hv Hm Ho l Hl.
  destruct (Nat.eq_dec map 0) as [Z|Z].
  - rewrite bad_map; [reflexivity|]. right. cbn. rewrite E, C. auto.
  - apply len_from_tail; try reflexivity; try exact Hl.
    split.
    { right. destruct Hv as [-> | ->]; [left|right]; (split; [exact E|]);
        cbn; clear - Hm Z; lia. }
    split; [split; [exact B|left; exact A]|]. repeat split; assumption.
Qed.

Lemma vex_max : forall p i, i_max_bytes (resolve_vex_pp p i) = i_max_bytes i.
Proof.
  intros p i. unfold resolve_vex_pp.
  repeat (match goal with |- context [if ?c then _ else _] => destruct c end);
    reflexivity.
Qed.

Lemma vex_ok : forall p v i, start_ok v i -> start_ok v (resolve_vex_pp p i).
Proof.
  intros p v i H. unfold resolve_vex_pp.
  repeat (match goal with |- context [if ?c then _ else _] => destruct c end);
    exact H.
Qed.

Lemma vex_done_any : forall v i map p k l,
  start_ok v k -> (v = 1 \/ v = 2)%nat -> (map <= 7)%nat ->
  i = set_map map (resolve_vex_pp p k) -> (l < i_max_bytes k)%nat ->
  len_safe (i_raw k) (i_max_bytes k) (prefix_vex_done i l).
Proof.
  intros v i map p k l Hs Hv Hm -> Hl. unfold prefix_vex_done.
  pose proof (vex_ok p v k Hs) as Hs'.
  destruct Hs as (_ & _ & _ & _ & _ & Hb & Hmax).
  destruct (nth_byte k l Hmax Hl Hb) as (o & A & B).
  rewrite (get_at _ _ o) by (cbn; rewrite vex_raw; exact A). cbn [bind].
  rewrite <- (vex_raw p k), <- (vex_max p k).
  apply (vex_start v); try assumption. lia.
Qed.

Lemma main_any : forall m i l rex b,
  fresh i -> i_mode i = m -> bytes_ok (i_raw i) ->
  (i_max_bytes i <= length (i_raw i))%nat ->
  b < 256 -> (l < i_max_bytes i)%nat ->
  len_safe (i_raw i) (i_max_bytes i) (main_dec i l rex b)
  \/ (m = ptem_64bit /\ b = 0xd5 /\ main_dec i l rex b = UB ub_oob_read
      /\ i_max_bytes i = (l + 2)%nat /\ length (i_raw i) = (l + 2)%nat).
Proof.
  intros m i l rex b Hf Em Hb Hm Bb Hl.
  assert (Hs : start_ok 0 i).
  { destruct Hf as (A & B & C & D & E & _). repeat split; assumption. }
  assert (LEG : len_safe (i_raw i) (i_max_bytes i) (opcode_dec i l))
    by (now apply opcode_any).
  assert (Hmap8 : forall p, (N.to_nat (N.land p 7) <= 7)%nat).
  { intros p. change 7 with (N.ones 3). rewrite N.land_ones. change (2 ^ 3) with 8.
    assert (p mod 8 < 8) by (apply N.mod_lt; lia). clear - H. lia. }
  pose proof (pfx_code_vals b Bb) as Hc. unfold main_dec.
  destruct (pfx_code b);
    try (left; unfold prefix_done; cbv zeta;
         match goal with |- len_safe _ _ (opcode_dec ?j _) =>
           exact (opcode_any j l Hs Hl) end).
  - left. unfold prefix_vex_c4.
    destruct (i_max_bytes i <=? l + 1)%nat eqn:L1; [reflexivity|].
    assert (Hl1 : (l + 1 < i_max_bytes i)%nat) by (clear - L1; lia).
    destruct (nth_byte i (l + 1) Hm Hl1 Hb) as (p1 & A1 & B1).
    rewrite (get_at _ _ _ A1). cbn [bind].
    destruct (negb (mode_64b i) && _); [exact LEG|].
    destruct (i_max_bytes i <? l + 4)%nat eqn:L4; [reflexivity|].
    assert (Hl2 : (l + 2 < i_max_bytes i)%nat) by (clear - L4; lia).
    destruct (nth_byte i (l + 2) Hm Hl2 Hb) as (p2 & A2 & B2).
    rewrite (get_at _ _ _ A2). cbn [bind]. cbv zeta.
    destruct (map_invalid <=? _)%nat eqn:EM; [reflexivity|].
    eapply (vex_done_any 1%nat _ (N.to_nat (N.land p1 0x1f)) (N.land p2 3)
      (set_rex_w (truth (N.land (N.shiftr p2 7) 1))
        (set_rex_r (inv_bit p1 7) (set_vex 1%nat i)))); try reflexivity.
    + destruct Hs as (X1 & X2 & X3 & X4 & X5 & X6 & X7). repeat split; assumption.
    + now left.
    + unfold map_invalid in EM. clear - EM. lia.
    + cbn. clear - L4. lia.
  - left. unfold prefix_vex_c5.
    destruct (i_max_bytes i <=? l + 1)%nat eqn:L1; [reflexivity|].
    assert (Hl1 : (l + 1 < i_max_bytes i)%nat) by (clear - L1; lia).
    destruct (nth_byte i (l + 1) Hm Hl1 Hb) as (p1 & A1 & B1).
    rewrite (get_at _ _ _ A1). cbn [bind].
    destruct (negb (mode_64b i) && _); [exact LEG|].
    destruct (i_max_bytes i <? l + 3)%nat eqn:L4; [reflexivity|]. cbv zeta.
    eapply (vex_done_any 1%nat _ 1%nat (N.land p1 3)
        (set_rex_r (inv_bit p1 7) (set_vex 1%nat i))); try reflexivity.
    + destruct Hs as (X1 & X2 & X3 & X4 & X5 & X6 & X7). repeat split; assumption.
    + now left.
    + clear. lia.
    + cbn. clear - L4. lia.
  - left. unfold prefix_evex.
    destruct (i_max_bytes i <=? l + 1)%nat eqn:L1; [reflexivity|].
    assert (Hl1 : (l + 1 < i_max_bytes i)%nat) by (clear - L1; lia).
    destruct (nth_byte i (l + 1) Hm Hl1 Hb) as (p1 & A1 & B1).
    rewrite (get_at _ _ _ A1). cbn [bind].
    destruct (negb (mode_64b i) && _); [exact LEG|].
    destruct (i_max_bytes i <? l + 5)%nat eqn:L4; [reflexivity|].
    assert (Hl2 : (l + 2 < i_max_bytes i)%nat) by (clear - L4; lia).
    destruct (nth_byte i (l + 2) Hm Hl2 Hb) as (p2 & A2 & B2).
    rewrite (get_at _ _ _ A2). cbn [bind]. cbv zeta.
    eapply (vex_done_any 2%nat _ (N.to_nat (N.land p1 7)) (N.land p2 3)
      (set_rex_w (truth (N.land (N.shiftr p2 7) 1))
        (set_rex_r (N.lor (inv_bit p1 7) (2 * inv_bit p1 4)) (set_vex 2%nat i))));
      try reflexivity.
    + destruct Hs as (X1 & X2 & X3 & X4 & X5 & X6 & X7). repeat split; assumption.
    + now right.
    + apply Hmap8.
    + cbn. clear - L4. lia.
  - unfold prefix_rex2. rewrite mode_64_eq, Em.
    destruct (is64 m) eqn:E64; cbn [negb]; [|now left].
    destruct (i_max_bytes i <? l + 2)%nat eqn:L1; [now left|].
    assert (Hl1 : (l + 1 < i_max_bytes i)%nat) by (clear - L1; lia).
    destruct (nth_byte i (l + 1) Hm Hl1 Hb) as (p1 & A1 & B1).
    rewrite (get_at _ _ _ A1). cbn [bind]. cbv zeta. unfold prefix_vex_done.
    set (j := set_map _ _).
    unfold get_byte, rd. change (i_raw j) with (i_raw i).
    destruct (nth_error (i_raw i) (l + 2)) as [o|] eqn:Eo; cbn [bind].
    + left. apply len_from_tail; try reflexivity; [|clear; lia].
      assert (Bo : o < 256) by (exact (nth_ok _ _ _ Hb Eo)).
      destruct Hs as (X1 & X2 & X3 & X4 & X5 & X6 & X7).
      split.
      { left. split; [exact X5|].
        change (N.to_nat (N.shiftr p1 7) <= 3)%nat. rewrite N.shiftr_div_pow2.
        change (2 ^ 7) with 128.
        assert (p1 / 128 < 2) by (apply N.div_lt_upper_bound; clear - B1; lia).
        clear - H. lia. }
      split; [split; [exact X2|left; exact X1]|]. repeat split; assumption.
    + right. apply nth_error_None in Eo.
      repeat split; try assumption; try (clear - L1 Hm Eo; lia).
      destruct m; (reflexivity || discriminate E64).
Qed.

Lemma decode_any : forall m raw size,
  bytes_ok raw -> (size <= length raw)%nat ->
  (len_safe raw size (decode (ild_init raw size m)) /\ ~ rex2_at_end m raw size)
  \/ (decode (ild_init raw size m) = UB ub_oob_read /\ rex2_at_end m raw size).
Proof.
  intros m raw size Hb Hs. unfold decode. set (i := ild_init raw size m).
  assert (Hfu : (i_max_bytes i - 0 < S (i_max_bytes i))%nat) by lia.
  pose proof (prefix_split (S (i_max_bytes i)) i 0 0 Hb Hs (Nat.le_0_l _) Hfu) as G.
  assert (RUN : forall pfx b, Forall (fun b => prefix_byte m b = true) pfx ->
    at_pos raw 0 (pfx ++ [b]) -> prefix_byte m b = false ->
    (length pfx < size)%nat ->
    prefix_decode (S (i_max_bytes i)) i 0 0
    = main_dec (pfx_state i pfx) (length pfx) (pfx_rex 0 pfx) b).
  { intros pfx b P1 P2 P3 P4.
    rewrite (prefix_run pfx _ i 0 0 b); try assumption; try reflexivity.
    change (i_max_bytes i) with size. lia. }
  assert (ST : forall pfx b, b < 256 -> (length pfx < size)%nat ->
    len_safe raw size (main_dec (pfx_state i pfx) (length pfx) (pfx_rex 0 pfx) b)
    \/ (m = ptem_64bit /\ b = 0xd5
        /\ main_dec (pfx_state i pfx) (length pfx) (pfx_rex 0 pfx) b = UB ub_oob_read
        /\ size = (length pfx + 2)%nat /\ length raw = (length pfx + 2)%nat)).
  { intros pfx b B L. destruct (pfx_state_keeps pfx i) as (K1 & K2 & K3).
    pose proof (main_any m (pfx_state i pfx) (length pfx) (pfx_rex 0 pfx) b) as Q.
    rewrite K1, K2 in Q. apply Q; try assumption.
    apply pfx_fresh. apply fresh_init. }
  assert (UBE : forall pfx p, raw = pfx ++ [0xd5; p] -> is64 m = true ->
    length raw = size -> Forall (fun b => prefix_byte m b = true) pfx ->
    prefix_decode (S (i_max_bytes i)) i 0 0 = UB ub_oob_read).
  { intros pfx p E E64 El Hp.
    assert (Hsz : size = (length pfx + 2)%nat)
      by (rewrite <- El, E, app_length; reflexivity).
    assert (Ha : at_pos raw 0 (pfx ++ [0xd5; p])).
    { apply firstn_at. rewrite <- E. now rewrite firstn_all. }
    change [0xd5; p] with ([0xd5] ++ [p]) in Ha. rewrite app_assoc in Ha.
    pose proof (at_prefix _ _ _ _ Ha) as Ha1.
    apply at_app in Ha. destruct Ha as [_ Ha]. rewrite app_length in Ha.
    cbn [Nat.add length] in Ha. destruct Ha as [Ha _].
    rewrite (RUN pfx 0xd5 Hp Ha1); [|now apply not_prefix|clear - Hsz; lia].
    destruct (pfx_state_keeps pfx i) as (K1 & K2 & K3).
    set (s := pfx_state i pfx) in *. clearbody s.
    change (main_dec s (length pfx) (pfx_rex 0 pfx) 0xd5)
      with (prefix_rex2 s (length pfx)).
    unfold prefix_rex2. rewrite mode_64_eq, K3.
    change (i_mode i) with m. rewrite E64. cbn [negb]. rewrite K2.
    change (i_max_bytes i) with size.
    replace (size <? length pfx + 2)%nat with false by (clear - Hsz; lia).
    rewrite (get_at s _ p) by (rewrite K1; exact Ha). cbn [bind]. cbv zeta.
    unfold prefix_vex_done, get_byte, rd. cbn [i_raw set_map set_rex2 set_rex_w set_rex_r].
    rewrite K1. change (i_raw i) with raw.
    replace (nth_error raw (length pfx + 2)) with (@None N); [reflexivity|].
    symmetry. apply nth_error_None. clear - El Hsz. lia. }
  assert (NE : len_safe raw size (prefix_decode (S (i_max_bytes i)) i 0 0) ->
    ~ rex2_at_end m raw size).
  { intros HS (X1 & X2 & pfx & p & X3 & X4).
    rewrite (UBE pfx p X3 X1 X2 X4) in HS. exact HS. }
  destruct G as [G|(pfx & b & G1 & G2 & G3 & G4 & G5)].
  - left. rewrite G in *. split; [reflexivity|]. apply NE. reflexivity.
  - cbn [Nat.add] in G4, G5.
    change (i_raw i) with raw in G2. change (i_max_bytes i) with size in G4.
    apply at_app in G2. destruct G2 as [G2 G2']. cbn [Nat.add] in G2'.
    assert (Eb : nth_error raw (length pfx) = Some b) by apply G2'.
    destruct (ST pfx b (nth_ok _ _ _ Hb Eb) G4) as [H|(H1 & H2 & H3 & H4 & H5)].
    + left. rewrite G5 in *. split; [exact H|]. now apply NE.
    + right. rewrite G5. split; [exact H3|]. subst m b.
      split; [reflexivity|]. split; [clear - H4 H5; lia|].
      exists pfx, (byte_at raw (length pfx + 1)). split; [|exact G1].
      assert (Ha : at_pos raw 0 (pfx ++ [0xd5; byte_at raw (length pfx + 1)])).
      { apply at_app. split; [exact G2|]. cbn [Nat.add at_pos].
        split; [exact Eb|]. split; [|exact I].
        replace (S (length pfx)) with (length pfx + 1)%nat by (clear; lia).
        unfold byte_at. apply nth_error_nth'. clear - H5. lia. }
      apply at_firstn in Ha. rewrite app_length in Ha.
      etransitivity; [|exact Ha]. symmetry. apply firstn_all2.
      cbn [length]. clear - H5. lia.
Qed.

Lemma ild_any : forall m raw size,
  bytes_ok raw -> (size <= length raw)%nat ->
  (~ rex2_at_end m raw size /\
   ((exists n r, pt_ild_decode raw size m = (n, Ok r) /\ (1 <= n <= size)%nat)
    \/ pt_ild_decode raw size m = (size, Err pte_bad_insn)))
  \/ (rex2_at_end m raw size
      /\ pt_ild_decode raw size m = (size, UB ub_oob_read)).
Proof.
  intros m raw size Hb Hs. unfold pt_ild_decode.
  destruct (decode_any m raw size Hb Hs) as [[H N]|[H N]].
  - left. split; [exact N|].
    destruct (decode (ild_init raw size m)) as [[i n]|e|u].
    + left. destruct H as (H1 & H2 & H3 & H4).
      destruct (class_any i H3) as (r & Er).
      { intros Hd k. destruct (H4 Hd) as [H5 H6]. apply target_ok; [exact H5|].
        rewrite H2. clear - H1 H6 Hs. lia. }
      rewrite Er. exists n, r. split; [reflexivity|exact H1].
    + right. unfold len_safe in H. now rewrite H.
    + destruct H.
  - right. rewrite H. split; [exact N|reflexivity].
Qed.
