(** The instruction length decoder accepts exactly the instruction texts:
    prefixes, encodings and opcodes. *)

From Coq Require Import List NArith ZArith Bool Lia.
From Coq Require Import ZifyBool ZifyNat ZifyN.
From Verif Require Import Base M_event M_ildtab M_ild S_x86 L_ild L_ild2 L_ild3.
Import ListNotations.
Open Scope N_scope.

(** Opcode maps without instructions. *)
Lemma bad_map : forall i l,
  (8 <= i_map i)%nat
  \/ ((i_vex i = 1 \/ i_vex i = 2)%nat /\ i_map i = 0%nat
      /\ i_disp_bytes i = 0%nat) ->
  modrm_dec i l = Err pte_bad_insn.
Proof.
  intros i l [H|(Hv & Hm & Hd)].
  - unfold modrm_dec. replace (map_invalid <=? i_map i)%nat with true
      by (unfold map_invalid; lia). reflexivity.
  - unfold modrm_dec, has_modrm, disp_dec, imm_dec, set_imm_bytes.
    destruct Hv as [Hv|Hv]; rewrite Hm, Hv; cbn [bind at_ nth_error has_modrm_table
      map_invalid Nat.leb Nat.eqb]; rewrite Hd; cbn [Nat.eqb];
      rewrite Hm, Hv; reflexivity.
Qed.

(** The state before ModRM. *)
Definition opc_state (i : ild) (map : nat) (opc : N) : ild :=
  let i := set_opc opc (set_map map i) in
  if (map =? 3)%nat then set_imm1 1%nat i else i.

Definition legacy_ok (map : nat) (opc : N) : Prop :=
  (map <= 3)%nat /\ (map = 0%nat -> opc <> 0x0f)
  /\ (map = 1%nat -> within 0x38 0x3f opc = false).

Lemma get_at : forall i l b, nth_error (i_raw i) l = Some b ->
  get_byte i l = Ok b.
Proof. intros i l b H. unfold get_byte, rd. now rewrite H. Qed.

Lemma nth_byte : forall i l,
  (i_max_bytes i <= length (i_raw i))%nat -> (l < i_max_bytes i)%nat ->
  bytes_ok (i_raw i) ->
  exists b, nth_error (i_raw i) l = Some b /\ b < 256.
Proof.
  intros i l Hm Hl Hb. exists (byte_at (i_raw i) l). split.
  - unfold byte_at. apply nth_error_nth'. lia.
  - now apply byte_at_ok.
Qed.

Lemma opcode_complete : forall i l map opc,
  legacy_ok map opc -> opc < 256 ->
  at_pos (i_raw i) l (escape Legacy map ++ [opc]) ->
  (l + length (escape Legacy map ++ [opc]) <= i_max_bytes i)%nat ->
  opcode_dec i l
  = modrm_dec (opc_state i map opc) (l + length (escape Legacy map ++ [opc])).
Proof.
  intros i l map opc (H1 & H2 & H3) Ho Ha Hl. unfold opcode_dec.
  destruct map as [|[|[|[|k]]]]; [| | | |exfalso; lia];
    cbn [escape app length at_pos] in *.
  - destruct Ha as [E1 _]. rewrite (get_at _ _ _ E1). cbn [bind].
    rewrite (proj2 (N.eqb_neq opc 0x0f) (H2 eq_refl)). reflexivity.
  - destruct Ha as [E1 [E2 _]]. rewrite (get_at _ _ _ E1). cbn [bind].
    change (negb (0x0f =? 0x0f)) with false. cbv iota zeta.
    replace (i_max_bytes i <=? l + 1)%nat with false by lia.
    replace (S l) with (l + 1)%nat in E2 by lia.
    rewrite (get_at _ _ _ E2). cbn [bind].
    specialize (H3 eq_refl).
    assert (opc =? 0x38 = false) by (unfold within in H3; lia).
    assert (opc =? 0x3a = false) by (unfold within in H3; lia).
    rewrite H, H0, esc38, H3 by exact Ho.
    replace (l + 2)%nat with (l + 1 + 1)%nat by lia. reflexivity.
  - destruct Ha as [E1 [E2 [E3 _]]]. rewrite (get_at _ _ _ E1). cbn [bind].
    change (negb (0x0f =? 0x0f)) with false. cbv iota zeta.
    replace (i_max_bytes i <=? l + 1)%nat with false by lia.
    replace (S l) with (l + 1)%nat in * by lia.
    rewrite (get_at _ _ _ E2). cbn [bind N.eqb Pos.eqb].
    unfold get_next_as_opcode. cbn [i_max_bytes set_map].
    replace (i_max_bytes i <=? l + 1 + 1)%nat with false by lia.
    replace (S (l + 1)) with (l + 1 + 1)%nat in * by lia.
    rewrite (get_at (set_map 2 i) _ _ E3). cbn [bind].
    replace (l + 3)%nat with (l + 1 + 1 + 1)%nat by lia. reflexivity.
  - destruct Ha as [E1 [E2 [E3 _]]]. rewrite (get_at _ _ _ E1). cbn [bind].
    change (negb (0x0f =? 0x0f)) with false. cbv iota zeta.
    replace (i_max_bytes i <=? l + 1)%nat with false by lia.
    replace (S l) with (l + 1)%nat in * by lia.
    rewrite (get_at _ _ _ E2). cbn [bind N.eqb Pos.eqb].
    unfold get_next_as_opcode. cbn [i_max_bytes set_map set_imm1].
    replace (i_max_bytes i <=? l + 1 + 1)%nat with false by lia.
    replace (S (l + 1)) with (l + 1 + 1)%nat in * by lia.
    rewrite (get_at (set_imm1 1 (set_map 3 i)) _ _ E3). cbn [bind].
    replace (l + 3)%nat with (l + 1 + 1 + 1)%nat by lia. reflexivity.
Qed.

Lemma opcode_sound : forall i l r,
  bytes_ok (i_raw i) -> (i_max_bytes i <= length (i_raw i))%nat ->
  (l < i_max_bytes i)%nat ->
  opcode_dec i l = Ok r ->
  exists map opc,
    legacy_ok map opc /\ opc < 256
    /\ at_pos (i_raw i) l (escape Legacy map ++ [opc])
    /\ (l + length (escape Legacy map ++ [opc]) <= i_max_bytes i)%nat
    /\ modrm_dec (opc_state i map opc)
         (l + length (escape Legacy map ++ [opc])) = Ok r.
Proof.
  intros i l r Hb Hm Hl H. unfold opcode_dec in H.
  destruct (nth_byte i l Hm Hl Hb) as (b & E1 & B1).
  rewrite (get_at _ _ _ E1) in H. cbn [bind] in H.
  destruct (b =? 0x0f) eqn:Eb; cbn [negb] in H.
  2: { exists 0%nat, b. cbn [escape app length at_pos].
       repeat split; try assumption; try lia; try discriminate. }
  apply N.eqb_eq in Eb. subst b. cbv zeta in H.
  destruct (i_max_bytes i <=? l + 1)%nat eqn:L1; [discriminate H|].
  assert (Hl1 : (l + 1 < i_max_bytes i)%nat) by lia.
  destruct (nth_byte i (l + 1) Hm Hl1 Hb) as (c & E2 & B2).
  rewrite (get_at _ _ _ E2) in H. cbn [bind] in H.
  destruct (c =? 0x38) eqn:Ec.
  { apply N.eqb_eq in Ec. subst c.
    unfold get_next_as_opcode in H. cbn [i_max_bytes set_map] in H.
    destruct (i_max_bytes i <=? l + 1 + 1)%nat eqn:L2; [discriminate H|].
    assert (Hl2 : (l + 1 + 1 < i_max_bytes i)%nat) by lia.
    destruct (nth_byte i (l + 1 + 1) Hm Hl2 Hb) as (d & E3 & B3).
    rewrite (get_at (set_map 2 i) _ _ E3) in H. cbn [bind] in H.
    exists 2%nat, d. cbn [escape app length at_pos].
    replace (S (S l)) with (l + 1 + 1)%nat by lia.
    replace (S l) with (l + 1)%nat by lia.
    replace (l + 3)%nat with (l + 1 + 1 + 1)%nat by lia.
    repeat split; try assumption; try lia; discriminate. }
  destruct (c =? 0x3a) eqn:Ed.
  { apply N.eqb_eq in Ed. subst c.
    unfold get_next_as_opcode in H. cbn [i_max_bytes set_map set_imm1] in H.
    destruct (i_max_bytes i <=? l + 1 + 1)%nat eqn:L2; [discriminate H|].
    assert (Hl2 : (l + 1 + 1 < i_max_bytes i)%nat) by lia.
    destruct (nth_byte i (l + 1 + 1) Hm Hl2 Hb) as (d & E3 & B3).
    rewrite (get_at (set_imm1 1 (set_map 3 i)) _ _ E3) in H. cbn [bind] in H.
    exists 3%nat, d. cbn [escape app length at_pos].
    replace (S (S l)) with (l + 1 + 1)%nat by lia.
    replace (S l) with (l + 1)%nat by lia.
    replace (l + 3)%nat with (l + 1 + 1 + 1)%nat by lia.
    repeat split; try assumption; try lia; discriminate. }
  rewrite esc38 in H by exact B2.
  destruct (within 0x38 0x3f c) eqn:Ew.
  { exfalso. unfold get_next_as_opcode in H. cbn [i_max_bytes set_map] in H.
    destruct (i_max_bytes i <=? l + 1 + 1)%nat eqn:L2; [discriminate H|].
    assert (Hl2 : (l + 1 + 1 < i_max_bytes i)%nat) by lia.
    destruct (nth_byte i (l + 1 + 1) Hm Hl2 Hb) as (d & E3 & B3).
    rewrite (get_at (set_map map_invalid i) _ _ E3) in H. cbn [bind] in H.
    rewrite bad_map in H by (left; apply le_n). discriminate H. }
  exists 1%nat, c. cbn [escape app length at_pos].
  replace (S l) with (l + 1)%nat by lia.
  replace (l + 2)%nat with (l + 1 + 1)%nat by lia.
  repeat split; try assumption; try lia; try discriminate.
Qed.

(** REX before the opcode. *)
Lemma pfx_rex_eq : forall m pfx,
  Forall (fun b => prefix_byte m b = true) pfx ->
  pfx_rex 0 pfx = rex_of m pfx.
Proof.
  intros m pfx H. unfold pfx_rex, rex_of.
  induction pfx as [|b pfx _] using rev_ind.
  - cbn. rewrite andb_false_r. reflexivity.
  - rewrite fold_left_app, last_last. cbn [fold_left].
    apply Forall_app in H. destruct H as [_ H]. inversion H as [|b' l Hb _]; subst.
    unfold rex_step, prefix_byte in *.
    destruct (rex_prefix b) eqn:E; [|now rewrite andb_false_r].
    rewrite andb_true_r in *.
    replace (legacy_prefix b) with false in Hb; [|symmetry].
    + cbn in Hb. now rewrite Hb.
    + unfold legacy_prefix, one_of. cbn [existsb].
      unfold rex_prefix, within in E. lia.
Qed.

Lemma rex_of_non64 : forall m pfx, is64 m = false -> rex_of m pfx = 0.
Proof. intros m pfx H. unfold rex_of. now rewrite H. Qed.

Lemma prefix_done_0 : forall i l, fresh i -> prefix_done i l 0 = opcode_dec i l.
Proof.
  intros i l (_ & _ & _ & _ & _ & _ & H1 & H2). unfold prefix_done.
  destruct i. cbn in *. subst. reflexivity.
Qed.

(** What the opcode byte of a legacy instruction may be. *)
Definition legacy_first (m : exec_mode) (raw : list N) (l : nat) (b : N) : Prop :=
  (one_of [0x62; 0xc4; 0xc5] b = true ->
   is64 m = false /\ m_mod (byte_at raw (l + 1)) <> 3)
  /\ (b = 0xd5 -> is64 m = false).

Lemma pfx_code_vals : forall b, b < 256 ->
  match pfx_code b with
  | Pc4 => b = 0xc4 | Pc5 => b = 0xc5 | Pevex => b = 0x62 | Prex2 => b = 0xd5
  | Prex => rex_prefix b = true
  | _ => one_of [0x62; 0xc4; 0xc5; 0xd5] b = false
  end.
Proof.
  intros b Hb.
  assert (E : all_bytes (fun b =>
    match pfx_code b with
    | Pc4 => b =? 0xc4 | Pc5 => b =? 0xc5 | Pevex => b =? 0x62
    | Prex2 => b =? 0xd5
    | Prex => rex_prefix b
    | _ => negb (one_of [0x62; 0xc4; 0xc5; 0xd5] b)
    end) = true) by (vm_compute; reflexivity).
  apply (all_bytes_spec _ E) in Hb. cbv beta in Hb.
  destruct (pfx_code b); try (now apply negb_true_iff); try (now apply N.eqb_eq);
    exact Hb.
Qed.

Lemma main_legacy : forall m i l rex b,
  fresh i -> i_mode i = m -> (is64 m = false -> rex = 0) ->
  b < 256 -> prefix_byte m b = false ->
  bytes_ok (i_raw i) -> (i_max_bytes i <= length (i_raw i))%nat ->
  legacy_first m (i_raw i) l b ->
  (one_of [0x62; 0xc4; 0xc5] b = true -> (l + 1 < i_max_bytes i)%nat) ->
  main_dec i l rex b = prefix_done i l rex.
Proof.
  intros m i l rex b Hf Em Hr Hb Hp Hok Hm [H1 H2] Hl.
  pose proof (pfx_code_vals b Hb) as Hc.
  rewrite prefix_code in Hp by exact Hb.
  unfold main_dec. destruct (pfx_code b); try reflexivity; try discriminate Hp.
  - rewrite (Hr Hp). symmetry. now apply prefix_done_0.
  - subst b. destruct (H1 eq_refl) as [E64 Emod]. specialize (Hl eq_refl).
    rewrite (Hr E64), prefix_done_0 by exact Hf. unfold prefix_vex_c4.
    replace (i_max_bytes i <=? l + 1)%nat with false by lia.
    unfold get_byte. rewrite rd_at by lia. cbn [bind].
    rewrite mode_64_eq, Em, E64, top2 by (now apply byte_at_ok).
    rewrite (proj2 (N.eqb_neq _ _) Emod). reflexivity.
  - subst b. destruct (H1 eq_refl) as [E64 Emod]. specialize (Hl eq_refl).
    rewrite (Hr E64), prefix_done_0 by exact Hf. unfold prefix_vex_c5.
    replace (i_max_bytes i <=? l + 1)%nat with false by lia.
    unfold get_byte. rewrite rd_at by lia. cbn [bind].
    rewrite mode_64_eq, Em, E64, top2 by (now apply byte_at_ok).
    rewrite (proj2 (N.eqb_neq _ _) Emod). reflexivity.
  - subst b. destruct (H1 eq_refl) as [E64 Emod]. specialize (Hl eq_refl).
    rewrite (Hr E64), prefix_done_0 by exact Hf. unfold prefix_evex.
    replace (i_max_bytes i <=? l + 1)%nat with false by lia.
    unfold get_byte. rewrite rd_at by lia. cbn [bind].
    rewrite mode_64_eq, Em, E64, top2 by (now apply byte_at_ok).
    rewrite (proj2 (N.eqb_neq _ _) Emod). reflexivity.
  - subst b. specialize (H2 eq_refl).
    rewrite (Hr H2), prefix_done_0 by exact Hf. unfold prefix_rex2.
    rewrite mode_64_eq, Em, H2. reflexivity.
Qed.

(** The state before ModRM, by encoding. *)
Definition enc_state (m : exec_mode) (x : x86) (i : ild) : ild :=
  match x_enc x with
  | Legacy =>
      let rex := rex_of m (x_pfx x) in
      opc_state (set_rex_w (truth (N.land (N.shiftr rex 3) 1))
                  (set_rex_r (N.land (N.shiftr rex 2) 1) i))
        (x_map x) (x_opc x)
  | Rex2 p =>
      set_opc (x_opc x) (set_map (N.to_nat (N.shiftr p 7))
        (set_rex2 true (set_rex_w (truth (N.land (N.shiftr p 3) 1))
          (set_rex_r (N.lor (N.land (N.shiftr p 5) 2)
                            (N.land (N.shiftr p 2) 1)) i))))
  | Vex2 p =>
      set_opc (x_opc x) (set_map 1%nat (resolve_vex_pp (N.land p 3)
        (set_rex_r (inv_bit p 7) (set_vex 1%nat i))))
  | Vex3 p1 p2 =>
      set_opc (x_opc x) (set_map (N.to_nat (N.land p1 0x1f))
        (resolve_vex_pp (N.land p2 3)
          (set_rex_w (truth (N.land (N.shiftr p2 7) 1))
            (set_rex_r (inv_bit p1 7) (set_vex 1%nat i)))))
  | Evex p1 p2 _ =>
      set_opc (x_opc x) (set_map (N.to_nat (N.land p1 7))
        (resolve_vex_pp (N.land p2 3)
          (set_rex_w (truth (N.land (N.shiftr p2 7) 1))
            (set_rex_r (N.lor (inv_bit p1 7) (2 * inv_bit p1 4))
              (set_vex 2%nat i)))))
  end.

Definition head_bytes (x : x86) : list N :=
  x_pfx x ++ enc_bytes (x_enc x) ++ escape (x_enc x) (x_map x) ++ [x_opc x].

Lemma render_split : forall x, render x = head_bytes x ++ tail_bytes x.
Proof.
  intros x. unfold render, head_bytes, tail_bytes.
  rewrite <- !app_assoc. reflexivity.
Qed.

(** The encoding without the condition on ModRM. *)
Definition head_ok (m : exec_mode) (x : x86) : Prop :=
  Forall (fun b => prefix_byte m b = true) (x_pfx x)
  /\ x_opc x < 256
  /\ match x_enc x with
     | Legacy => legacy_ok (x_map x) (x_opc x)
     | Rex2 p => is64 m = true /\ x_map x = N.to_nat (p / 128) /\ p < 256
     | Vex2 p => x_map x = 1%nat /\ p < 256
     | Vex3 p1 p2 =>
         x_map x = N.to_nat (p1 mod 32) /\ (1 <= x_map x <= 7)%nat
         /\ p1 < 256 /\ p2 < 256
     | Evex p1 p2 p3 =>
         x_map x = N.to_nat (p1 mod 8) /\ (1 <= x_map x)%nat
         /\ p1 < 256 /\ p2 < 256
     end.

Lemma vex_pp : forall p i r,
  let pp := p mod 4 in
  let j := resolve_vex_pp (N.land p 3) i in
  i_last_f2f3 i = rep_code r ->
  i_osz j = (i_osz i || (pp =? 1))
  /\ i_asz j = i_asz i
  /\ i_f3 j = (i_f3 i || (pp =? 2))
  /\ i_last_f2f3 j
     = rep_code (match pp with 2 => Some 0xf3 | 3 => Some 0xf2 | _ => r end)
  /\ i_rex_w j = i_rex_w i /\ i_rex_r j = i_rex_r i /\ i_rex2 j = i_rex2 i
  /\ i_vex j = i_vex i /\ i_mode j = i_mode i /\ i_raw j = i_raw i
  /\ i_max_bytes j = i_max_bytes i /\ i_imm1 j = i_imm1 i
  /\ i_imm2 j = i_imm2 i /\ i_disp_bytes j = i_disp_bytes i
  /\ i_modrm j = i_modrm i.
Proof.
  intros p i r. cbv zeta. intros Hr.
  change 3 with (N.ones 2) at 1 2 3 4 5 6 7 8 9 10 11 12 13 14 15.
  rewrite (N.land_ones p 2). change (2 ^ 2) with 4.
  assert (H : p mod 4 < 4) by (apply N.mod_lt; lia).
  unfold resolve_vex_pp.
  assert (Hc : p mod 4 = 0 \/ p mod 4 = 1 \/ p mod 4 = 2 \/ p mod 4 = 3) by lia.
  destruct Hc as [-> |[-> |[-> | ->]]]; cbn;
    rewrite ?orb_false_r, ?orb_true_r; repeat split; exact Hr.
Qed.

Lemma rep2 : forall r,
  (forall b, r = Some b -> b = 0xf2 \/ b = 0xf3) ->
  (rep_code r =? 2) = match r with Some b => b =? 0xf2 | None => false end.
Proof.
  intros [b|] H; [|reflexivity].
  destruct (H b eq_refl) as [-> | ->]; reflexivity.
Qed.

Definition init_ok (m : exec_mode) (i : ild) : Prop :=
  fresh i /\ i_mode i = m /\ i_osz i = false /\ i_asz i = false
  /\ i_f3 i = false /\ i_last_f2f3 i = 0
  /\ bytes_ok (i_raw i) /\ (i_max_bytes i <= length (i_raw i))%nat.

Lemma head_build : forall m x i j,
  bytes_ok (i_raw i) -> (i_max_bytes i <= length (i_raw i))%nat ->
  x_opc x < 256 ->
  i_raw j = i_raw i -> i_max_bytes j = i_max_bytes i -> i_mode j = m ->
  vex_kind (i_vex j) = kind_of (x_enc x) -> map_ok j -> imm_start j ->
  i_opc j = x_opc x -> i_map j = x_map x ->
  i_osz j = opsize_prefix x -> i_asz j = addrsize_prefix x ->
  i_f3 j = f3_prefix x -> i_last_f2f3 j = rep_code (rep_prefix x) ->
  i_rex_w j = rex_w m x -> i_rex2 j = is_rex2 x ->
  (kind_of (x_enc x) = Klegacy -> (i_rex_r j =? 0) = negb (rex_r m x)) ->
  i_disp_bytes j = 0%nat -> i_modrm j = 0 ->
  tail_start j /\ head_rel m x j
  /\ i_raw j = i_raw i /\ i_max_bytes j = i_max_bytes i.
Proof.
  intros m x i j H1 H2 H3 H4 H5 H6 H7 H8 H9 H10 H11 H12 H13 H14 H15 H16 H17 H18
    H19 H20.
  split; [|split; [|split; assumption]].
  - unfold tail_start. rewrite H4, H5, H10. auto 10.
  - unfold head_rel, form_i, form_of.
    rewrite H6, H7, H10, H11, H12, H13, H15, H16, (rep2 _ (rep_vals x)).
    auto 10.
Qed.

Lemma head_state : forall m x i,
  init_ok m i -> head_ok m x ->
  let j := enc_state m x (pfx_state i (x_pfx x)) in
  tail_start j /\ head_rel m x j
  /\ i_raw j = i_raw i /\ i_max_bytes j = i_max_bytes i.
Proof.
  intros m x i (If & Im & I1 & I2 & I3 & I4 & I5 & I6) (Hp & Ho & He). cbv zeta.
  pose proof (pfx_fresh (x_pfx x) i If) as Hf.
  destruct (pfx_state_keeps (x_pfx x) i) as (K1 & K2 & K3).
  destruct (pfx_flags (x_pfx x) i None I4) as (P1 & P2 & P3 & P4).
  rewrite I1 in P1. rewrite I2 in P2. rewrite I3 in P3. cbn [orb] in P1, P2, P3.
  set (s := pfx_state i (x_pfx x)) in *. clearbody s. rewrite Im in K3.
  destruct Hf as (F1 & F2 & F3 & F4 & F5 & F6 & F7 & F8).
  unfold enc_state.
  destruct (x_enc x) as [|p|p|p1 p2|p1 p2 p3] eqn:Ee.
  - destruct He as (L1 & L2 & L3).
    assert (Er : rep_prefix x = last_rep (x_pfx x) None)
      by (unfold rep_prefix; rewrite Ee; reflexivity).
    assert (Q : exists k, (k = 0 \/ x_map x = 3)%nat /\
      opc_state (set_rex_w (truth (N.land (N.shiftr (rex_of m (x_pfx x)) 3) 1))
                  (set_rex_r (N.land (N.shiftr (rex_of m (x_pfx x)) 2) 1) s))
        (x_map x) (x_opc x)
      = set_imm1 k (set_opc (x_opc x) (set_map (x_map x)
          (set_rex_w (truth (N.land (N.shiftr (rex_of m (x_pfx x)) 3) 1))
                  (set_rex_r (N.land (N.shiftr (rex_of m (x_pfx x)) 2) 1) s))))).
    { unfold opc_state. destruct (x_map x =? 3)%nat eqn:E3.
      - exists 1%nat. split; [right; now apply Nat.eqb_eq|reflexivity].
      - exists 0%nat. split; [now left|]. unfold set_imm1. cbn. rewrite <- F1.
        reflexivity. }
    destruct Q as (k & Hk & ->). cbv zeta.
    apply head_build; try assumption; try reflexivity.
    + change (vex_kind (i_vex s) = kind_of (x_enc x)). rewrite F5, Ee. reflexivity.
    + left. split; [exact F5|exact L1].
    + split; [exact F2|]. destruct Hk as [Hk|Hk]; [now left|right].
      split; [exact F5|exact Hk].
    + unfold opsize_prefix. rewrite Ee. cbn [implied].
      change (0 =? 1) with false. rewrite orb_false_r. exact P1.
    + unfold f3_prefix. rewrite Ee. cbn [implied].
      change (0 =? 2) with false. rewrite orb_false_r. exact P3.
    + rewrite Er. exact P4.
    + unfold rex_w. rewrite Ee. apply bit_truth.
    + unfold is_rex2. rewrite Ee. exact F6.
    + intros _. unfold rex_r. rewrite Ee. apply bit_zero.
  - destruct He as (L1 & L2 & L3).
    assert (Er : rep_prefix x = last_rep (x_pfx x) None)
      by (unfold rep_prefix; rewrite Ee; reflexivity).
    assert (E7 : N.to_nat (N.shiftr p 7) = x_map x).
    { rewrite L2, N.shiftr_div_pow2. reflexivity. }
    assert (E8 : (x_map x <= 1)%nat).
    { rewrite L2. clear - L3.
      assert (p / 128 < 2) by (apply N.div_lt_upper_bound; lia). lia. }
    rewrite E7.
    apply head_build; try assumption; try reflexivity.
    + change (vex_kind (i_vex s) = kind_of (x_enc x)). rewrite F5, Ee. reflexivity.
    + left. split; [exact F5|]. change (x_map x <= 3)%nat. clear - E8. lia.
    + split; [exact F2|left; exact F1].
    + unfold opsize_prefix. rewrite Ee. cbn [implied].
      change (0 =? 1) with false. rewrite orb_false_r. exact P1.
    + unfold f3_prefix. rewrite Ee. cbn [implied].
      change (0 =? 2) with false. rewrite orb_false_r. exact P3.
    + rewrite Er. exact P4.
    + unfold rex_w. rewrite Ee. apply bit_truth.
    + unfold is_rex2. rewrite Ee. reflexivity.
    + intros _. unfold rex_r. rewrite Ee. now apply rex2_r.
  - destruct He as (L1 & L2).
    set (s' := set_rex_r _ _).
    destruct (vex_pp p s' (last_rep (x_pfx x) None) P4)
      as (V1 & V2 & V3 & V4 & V5 & V6 & V7 & V8 & V9 & V10 & V11 & V12 & V13 & V14 & V15).
    assert (Er : rep_prefix x
      = match p mod 4 with 2 => Some 0xf3 | 3 => Some 0xf2
        | _ => last_rep (x_pfx x) None end)
      by (unfold rep_prefix; rewrite Ee; reflexivity).
    set (t := resolve_vex_pp _ _) in *. clearbody t.
    apply head_build; try assumption; try reflexivity.
    + rewrite <- K1. exact V10.
    + rewrite <- K2. exact V11.
    + rewrite <- K3. exact V9.
    + change (vex_kind (i_vex t) = kind_of (x_enc x)). rewrite V8, Ee. reflexivity.
    + right. left. split; [exact V8|]. cbn. clear. lia.
    + split; [etransitivity; [exact V13|exact F2]|left].
      etransitivity; [exact V12|exact F1].
    + now rewrite L1.
    + unfold opsize_prefix. rewrite Ee. cbn [implied]. rewrite <- P1. exact V1.
    + etransitivity; [exact V2|exact P2].
    + unfold f3_prefix. rewrite Ee. cbn [implied]. rewrite <- P3. exact V3.
    + rewrite Er. exact V4.
    + unfold rex_w. rewrite Ee. etransitivity; [exact V5|exact F8].
    + unfold is_rex2. rewrite Ee. etransitivity; [exact V7|exact F6].
    + rewrite Ee. discriminate.
    + etransitivity; [exact V14|exact F3].
    + etransitivity; [exact V15|exact F4].
  - destruct He as (L1 & L2 & L3 & L4).
    set (s' := set_rex_w _ _).
    destruct (vex_pp p2 s' (last_rep (x_pfx x) None) P4)
      as (V1 & V2 & V3 & V4 & V5 & V6 & V7 & V8 & V9 & V10 & V11 & V12 & V13 & V14 & V15).
    assert (Er : rep_prefix x
      = match p2 mod 4 with 2 => Some 0xf3 | 3 => Some 0xf2
        | _ => last_rep (x_pfx x) None end)
      by (unfold rep_prefix; rewrite Ee; reflexivity).
    assert (EM : N.to_nat (N.land p1 0x1f) = x_map x).
    { rewrite L1. change 0x1f with (N.ones 5). rewrite N.land_ones. reflexivity. }
    rewrite EM.
    set (t := resolve_vex_pp _ _) in *. clearbody t.
    apply head_build; try assumption; try reflexivity.
    + rewrite <- K1. exact V10.
    + rewrite <- K2. exact V11.
    + rewrite <- K3. exact V9.
    + change (vex_kind (i_vex t) = kind_of (x_enc x)). rewrite V8, Ee. reflexivity.
    + right. left. split; [exact V8|exact L2].
    + split; [etransitivity; [exact V13|exact F2]|left].
      etransitivity; [exact V12|exact F1].
    + unfold opsize_prefix. rewrite Ee. cbn [implied]. rewrite <- P1. exact V1.
    + etransitivity; [exact V2|exact P2].
    + unfold f3_prefix. rewrite Ee. cbn [implied]. rewrite <- P3. exact V3.
    + rewrite Er. exact V4.
    + unfold rex_w. rewrite Ee. etransitivity; [exact V5|apply bit_truth].
    + unfold is_rex2. rewrite Ee. etransitivity; [exact V7|exact F6].
    + rewrite Ee. discriminate.
    + etransitivity; [exact V14|exact F3].
    + etransitivity; [exact V15|exact F4].
  - destruct He as (L1 & L2 & L3 & L4).
    set (s' := set_rex_w _ _).
    destruct (vex_pp p2 s' (last_rep (x_pfx x) None) P4)
      as (V1 & V2 & V3 & V4 & V5 & V6 & V7 & V8 & V9 & V10 & V11 & V12 & V13 & V14 & V15).
    assert (Er : rep_prefix x
      = match p2 mod 4 with 2 => Some 0xf3 | 3 => Some 0xf2
        | _ => last_rep (x_pfx x) None end)
      by (unfold rep_prefix; rewrite Ee; reflexivity).
    assert (EM : N.to_nat (N.land p1 7) = x_map x).
    { rewrite L1. change 7 with (N.ones 3). rewrite N.land_ones. reflexivity. }
    rewrite EM.
    assert (E8 : (x_map x <= 7)%nat).
    { rewrite L1. clear.
      assert (p1 mod 8 < 8) by (apply N.mod_lt; lia). lia. }
    set (t := resolve_vex_pp _ _) in *. clearbody t.
    apply head_build; try assumption; try reflexivity.
    + rewrite <- K1. exact V10.
    + rewrite <- K2. exact V11.
    + rewrite <- K3. exact V9.
    + change (vex_kind (i_vex t) = kind_of (x_enc x)). rewrite V8, Ee. reflexivity.
    + right. right. split; [exact V8|]. split; [exact L2|exact E8].
    + split; [etransitivity; [exact V13|exact F2]|left].
      etransitivity; [exact V12|exact F1].
    + unfold opsize_prefix. rewrite Ee. cbn [implied]. rewrite <- P1. exact V1.
    + etransitivity; [exact V2|exact P2].
    + unfold f3_prefix. rewrite Ee. cbn [implied]. rewrite <- P3. exact V3.
    + rewrite Er. exact V4.
    + unfold rex_w. rewrite Ee. etransitivity; [exact V5|apply bit_truth].
    + unfold is_rex2. rewrite Ee. etransitivity; [exact V7|exact F6].
    + rewrite Ee. discriminate.
    + etransitivity; [exact V14|exact F3].
    + etransitivity; [exact V15|exact F4].
Qed.
