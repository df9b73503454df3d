(** Lemmas about the instruction length decoder: every stage as a function of
    the sizes in S_x86.v. *)

From Coq Require Import List NArith ZArith Bool Lia.
From Coq Require Import ZifyBool ZifyNat ZifyN.
From Verif Require Import Base M_event M_ildtab M_ild S_x86.
Import ListNotations.
Open Scope N_scope.

(** Checking a statement for all bytes. *)
Definition all_bytes (p : N -> bool) : bool :=
  forallb (fun k => p (N.of_nat k)) (seq 0 256).

Lemma all_bytes_spec : forall p,
  all_bytes p = true -> forall b, b < 256 -> p b = true.
Proof.
  intros p H b Hb. unfold all_bytes in H. rewrite forallb_forall in H.
  specialize (H (N.to_nat b)).
  rewrite N2Nat.id in H. apply H. apply in_seq. lia.
Qed.

(** The sizes as codes of the tables. *)
Definition imm_code0 (op : N) : pti_imm :=
  if (op <? 0x40) && (op mod 8 =? 4) then Iu8
  else if (op <? 0x40) && (op mod 8 =? 5) then Isz
  else if one_of [0x68; 0x69; 0x81; 0xa9] op then Isz
  else if one_of [0x6a; 0x6b; 0x80; 0x82; 0x83; 0xa8; 0xc0; 0xc1; 0xc6;
                  0xcd; 0xd4; 0xd5; 0xe4; 0xe5; 0xe6; 0xe7] op then Iu8
  else if within 0xb0 0xb7 op then Iu8
  else if within 0xb8 0xbf op then Iuv
  else if one_of [0x9a; 0xc2; 0xca; 0xea] op then Iu16
  else if op =? 0xc7 then Ic7
  else if op =? 0xc8 then Ic8
  else if op =? 0xf6 then If6
  else if op =? 0xf7 then If7
  else I0.

Definition imm_code1 (op : N) : pti_imm :=
  if map1_imm8 op || one_of [0xa4; 0xac; 0xba] op then Iu8
  else if op =? 0x78 then I78
  else I0.

Definition imm_codev (op : N) : pti_imm := if map1_imm8 op then Iu8 else I0.

Definition imm_code4 (op : N) : pti_imm :=
  if one_of [0x24; 0x2c; 0x6b; 0x80; 0x83; 0xc0; 0xc1; 0xd4] op then Iu8
  else if one_of [0x69; 0x81] op then Isz
  else if op =? 0xf6 then Ie6
  else if op =? 0xf7 then Ie7
  else I0.

Definition imm_norm (c : pti_imm) : pti_imm :=
  match c with Is8 => Iu8 | Isz64 => Isz | c => c end.

Definition imm_eqb (a b : pti_imm) : bool :=
  match a, b with
  | I0, I0 | Iu8, Iu8 | Is8, Is8 | Isz, Isz | Iuv, Iuv | Iu16, Iu16
  | If7, If7 | Ic7, Ic7 | Isz64, Isz64 | If6, If6 | Ic8, Ic8 | I78, I78
  | Ie6, Ie6 | Ie7, Ie7 => true
  | _, _ => false
  end.

Lemma imm_eqb_eq : forall a b, imm_eqb a b = true -> a = b.
Proof. intros [] []; simpl; intros; congruence. Qed.

Definition imm_check (t : list pti_imm) (g : N -> pti_imm) : bool :=
  all_bytes (fun b =>
    match nth_error t (N.to_nat b) with
    | Some c => imm_eqb (imm_norm c) (g b)
    | None => false
    end).

Lemma imm_check_spec : forall t g b,
  imm_check t g = true -> b < 256 ->
  exists c, at_ t (N.to_nat b) = Ok c /\ imm_norm c = g b.
Proof.
  intros t g b H Hb. unfold imm_check in H.
  pose proof (all_bytes_spec _ H b Hb) as E. cbv beta in E. unfold at_.
  destruct (nth_error t (N.to_nat b)) as [c|]; [|discriminate].
  exists c. split; [reflexivity|]. now apply imm_eqb_eq.
Qed.

Lemma imm0_ok : imm_check imm_bytes_legacy_map_0 imm_code0 = true.
Proof. vm_compute. reflexivity. Qed.
Lemma imm1_ok : imm_check imm_bytes_legacy_map_1 imm_code1 = true.
Proof. vm_compute. reflexivity. Qed.
Lemma immv_ok : imm_check imm_bytes_vex_map_1 imm_codev = true.
Proof. vm_compute. reflexivity. Qed.
Lemma imme_ok : imm_check imm_bytes_evex_map_1 imm_codev = true.
Proof. vm_compute. reflexivity. Qed.
Lemma imm4_ok : imm_check imm_bytes_evex_map_4 imm_code4 = true.
Proof. vm_compute. reflexivity. Qed.

Definition modrm_code (u : modrm_use) : pti_modrm :=
  match u with No_modrm => Mno | Reg_only => Mign | Full_modrm => Myes end.
Definition modrm_norm (c : pti_modrm) : pti_modrm :=
  match c with Mund => Mno | c => c end.
Definition modrm_eqb (a b : pti_modrm) : bool :=
  match a, b with
  | Mno, Mno | Myes, Myes | Mign, Mign | Mund, Mund => true
  | _, _ => false
  end.
Lemma modrm_eqb_eq : forall a b, modrm_eqb a b = true -> a = b.
Proof. intros [] []; simpl; intros; congruence. Qed.

Definition modrm_check (t : list pti_modrm) (g : N -> modrm_use) : bool :=
  all_bytes (fun b =>
    match nth_error t (N.to_nat b) with
    | Some c => modrm_eqb (modrm_norm c) (modrm_code (g b))
    | None => false
    end).

Lemma modrm_check_spec : forall t g b,
  modrm_check t g = true -> b < 256 ->
  exists c, at_ t (N.to_nat b) = Ok c /\ modrm_norm c = modrm_code (g b).
Proof.
  intros t g b H Hb. unfold modrm_check in H.
  pose proof (all_bytes_spec _ H b Hb) as E. cbv beta in E. unfold at_.
  destruct (nth_error t (N.to_nat b)) as [c|]; [|discriminate].
  exists c. split; [reflexivity|]. now apply modrm_eqb_eq.
Qed.

Definition modrm0 (op : N) : modrm_use :=
  if map0_modrm op then Full_modrm else No_modrm.
Definition modrm1 (op : N) : modrm_use :=
  if map1_no_modrm op then No_modrm
  else if map1_reg_only op then Reg_only else Full_modrm.

Lemma modrm0_ok : modrm_check has_modrm_legacy_map_0 modrm0 = true.
Proof. vm_compute. reflexivity. Qed.
Lemma modrm1_ok : modrm_check has_modrm_legacy_map_1 modrm1 = true.
Proof. vm_compute. reflexivity. Qed.
Lemma modrmv_ok : modrm_check has_modrm_vex_map_1 modrm1 = true.
Proof. vm_compute. reflexivity. Qed.

Definition disp_code0 (op : N) : pti_disp :=
  if within 0x70 0x7f op || within 0xe0 0xe3 op || (op =? 0xeb) then Dbr8
  else if one_of [0xe8; 0xe9] op then Dbk0
  else if one_of [0x9a; 0xea] op then Dbrz
  else if within 0xa0 0xa3 op then Dmemv
  else if op =? 0xc7 then Dc7
  else Dpres.
Definition disp_code1 (op : N) : pti_disp :=
  if within 0x80 0x8f op then Dbk0 else Dpres.
Definition disp_norm (c : pti_disp) : pti_disp :=
  match c with Dnone => Dpres | c => c end.
Definition disp_eqb (a b : pti_disp) : bool :=
  match a, b with
  | Dnone, Dnone | Dpres, Dpres | Dbr8, Dbr8 | Dbk0, Dbk0 | Dmemv, Dmemv
  | Dbrz, Dbrz | Dc7, Dc7 => true
  | _, _ => false
  end.
Lemma disp_eqb_eq : forall a b, disp_eqb a b = true -> a = b.
Proof. intros [] []; simpl; intros; congruence. Qed.

Definition disp_check (t : list pti_disp) (g : N -> pti_disp) : bool :=
  all_bytes (fun b =>
    match nth_error t (N.to_nat b) with
    | Some c => disp_eqb (disp_norm c) (g b)
    | None => false
    end).

Lemma disp_check_spec : forall t g b,
  disp_check t g = true -> b < 256 ->
  exists c, at_ t (N.to_nat b) = Ok c /\ disp_norm c = g b.
Proof.
  intros t g b H Hb. unfold disp_check in H.
  pose proof (all_bytes_spec _ H b Hb) as E. cbv beta in E. unfold at_.
  destruct (nth_error t (N.to_nat b)) as [c|]; [|discriminate].
  exists c. split; [reflexivity|]. now apply disp_eqb_eq.
Qed.

Lemma disp0_ok : disp_check disp_bytes_map_0x0 disp_code0 = true.
Proof. vm_compute. reflexivity. Qed.
Lemma disp1_ok : disp_check disp_bytes_map_0x0F disp_code1 = true.
Proof. vm_compute. reflexivity. Qed.

(** The form of a decoder state. *)
Definition vex_kind (v : nat) : kind :=
  match v with 0%nat => Klegacy | 1%nat => Kvex | _ => Kevex end.

Definition form_i (i : ild) : form :=
  mk_form (i_mode i) (vex_kind (i_vex i)) (i_map i) (i_opc i) (i_osz i)
    (i_asz i) (i_last_f2f3 i =? 2) (i_rex_w i).

Lemma resolve_z_eosz : forall i,
  resolve_z (nominal_eosz i) = Ok (width_z (form_i i)).
Proof.
  intros i. unfold nominal_eosz, nominal_eosz_non64, mode_64b, mode_32b,
    width_z, opsize16, form_i. cbn.
  destruct (i_mode i), (i_osz i), (i_rex_w i); reflexivity.
Qed.

Lemma resolve_z_df64 : forall i,
  resolve_z (nominal_eosz_df64 i) = Ok (width_z (form_i i)).
Proof.
  intros i. unfold nominal_eosz_df64, nominal_eosz_non64, mode_64b, mode_32b,
    width_z, opsize16, form_i. cbn.
  destruct (i_mode i), (i_osz i), (i_rex_w i); reflexivity.
Qed.

Lemma resolve_v_eosz : forall i,
  resolve_v (nominal_eosz i) = Ok (width_v (form_i i)).
Proof.
  intros i. unfold nominal_eosz, nominal_eosz_non64, mode_64b, mode_32b,
    width_v, width_z, opsize16, form_i. cbn.
  destruct (i_mode i), (i_osz i), (i_rex_w i); reflexivity.
Qed.

Lemma resolve_v_easz : forall i,
  resolve_v (nominal_easz i) = Ok (addrsize (form_i i)).
Proof.
  intros i. unfold nominal_easz, nominal_easz_non64, mode_64b, mode_32b,
    addrsize, form_i. cbn.
  destruct (i_mode i), (i_asz i); reflexivity.
Qed.

(** ModRM fields as arithmetic. *)
Lemma mod_eq : forall i, modrm_mod i = m_mod (i_modrm i).
Proof.
  intros i. unfold modrm_mod, m_mod. rewrite N.shiftr_div_pow2. reflexivity.
Qed.
Lemma reg_eq : forall i, modrm_reg i = m_reg (i_modrm i).
Proof.
  intros i. unfold modrm_reg, m_reg. rewrite N.shiftr_div_pow2.
  change 7 with (N.ones 3). rewrite N.land_ones. reflexivity.
Qed.
Lemma rm_eq : forall i, modrm_rm i = m_rm (i_modrm i).
Proof.
  intros i. unfold modrm_rm, m_rm.
  change 7 with (N.ones 3). rewrite N.land_ones. reflexivity.
Qed.

(** What later stages leave alone. *)
Definition same_head (i j : ild) : Prop :=
  i_raw j = i_raw i /\ i_max_bytes j = i_max_bytes i /\ i_mode j = i_mode i
  /\ i_osz j = i_osz i /\ i_asz j = i_asz i /\ i_f3 j = i_f3 i
  /\ i_last_f2f3 j = i_last_f2f3 i /\ i_rex2 j = i_rex2 i
  /\ i_rex_r j = i_rex_r i /\ i_rex_w j = i_rex_w i /\ i_vex j = i_vex i
  /\ i_map j = i_map i /\ i_opc j = i_opc i.

(** Valid combinations of encoding and map. *)
Definition map_ok (i : ild) : Prop :=
  (i_vex i = 0 /\ i_map i <= 3)%nat
  \/ (i_vex i = 1 /\ 1 <= i_map i <= 7)%nat
  \/ (i_vex i = 2 /\ 1 <= i_map i <= 7)%nat.

Definition imm_start (i : ild) : Prop :=
  i_imm2 i = 0%nat
  /\ (i_imm1 i = 0%nat \/ (i_vex i = 0 /\ i_map i = 3)%nat).

Lemma at_row : forall (A B : Type) (t : list (list A)) v m d (F : A -> res B),
  (v < length t)%nat -> (m < length (nth v t []))%nat ->
  (let* row := at_ t v in let* x := at_ row m in F x)
  = F (nth m (nth v t []) d).
Proof.
  intros A B t v m d F Hv Hm. unfold at_.
  rewrite (nth_error_nth' t [] Hv). cbn [bind].
  rewrite (nth_error_nth' _ d Hm). reflexivity.
Qed.

Lemma set_imm_eq : forall i,
  map_ok i -> imm_start i -> i_opc i < 256 ->
  exists i',
    set_imm_bytes i = Ok i'
    /\ (i_imm1 i' + i_imm2 i')%nat = imm_size (form_i i) (i_modrm i)
    /\ same_head i i' /\ i_modrm i' = i_modrm i
    /\ i_disp_bytes i' = i_disp_bytes i /\ i_disp_pos i' = i_disp_pos i.
Proof.
  intros i Hm [H2 H1] Ho.
  assert (H1' : (i_map i <> 3 \/ i_vex i <> 0)%nat -> i_imm1 i = 0%nat) by lia.
  assert (K : forall t g,
    imm_check t g = true ->
    exists c, at_ t (N.to_nat (i_opc i)) = Ok c /\ imm_norm c = g (i_opc i)).
  { intros t g Ht. apply imm_check_spec; assumption. }
  pose proof (resolve_z_eosz i) as Z1. pose proof (resolve_z_df64 i) as Z2.
  pose proof (resolve_v_eosz i) as V1.
  assert (Z : forall k, exists i', Ok (set_imm1 k i) = Ok i'
    /\ (i_imm1 i' + i_imm2 i')%nat = k
    /\ same_head i i' /\ i_modrm i' = i_modrm i
    /\ i_disp_bytes i' = i_disp_bytes i /\ i_disp_pos i' = i_disp_pos i).
  { intros k. exists (set_imm1 k i). unfold same_head. cbn. intuition lia. }
  assert (Y : (i_map i <> 3 \/ i_vex i <> 0)%nat ->
    exists i', Ok i = Ok i'
    /\ (i_imm1 i' + i_imm2 i')%nat = 0%nat
    /\ same_head i i' /\ i_modrm i' = i_modrm i
    /\ i_disp_bytes i' = i_disp_bytes i /\ i_disp_pos i' = i_disp_pos i).
  { intros Hx. exists i. unfold same_head. rewrite (H1' Hx), H2.
    intuition lia. }
  assert (W : forall a b, exists i', Ok (set_imm2 b (set_imm1 a i)) = Ok i'
    /\ (i_imm1 i' + i_imm2 i')%nat = (a + b)%nat
    /\ same_head i i' /\ i_modrm i' = i_modrm i
    /\ i_disp_bytes i' = i_disp_bytes i /\ i_disp_pos i' = i_disp_pos i).
  { intros a b. exists (set_imm2 b (set_imm1 a i)).
    unfold same_head. cbn. intuition lia. }
  unfold set_imm_bytes.
  replace (map_invalid <=? i_map i)%nat with false
    by (unfold map_ok, map_invalid in *; lia).
  unfold imm_size.
  change (f_kind (form_i i)) with (vex_kind (i_vex i)).
  change (f_map (form_i i)) with (i_map i).
  change (f_opc (form_i i)) with (i_opc i).
  change (f_osz (form_i i)) with (i_osz i).
  change (f_f2 (form_i i)) with (i_last_f2f3 i =? 2).
  rewrite <- reg_eq.
  rewrite (at_row _ _ imm_bytes_desc _ _ (Iwidth None));
    [ | unfold map_ok in Hm; cbn [length imm_bytes_desc]; lia
      | unfold map_ok in Hm;
        destruct Hm as [[-> Hm]|[[-> Hm]|[-> Hm]]];
        cbn [length nth imm_bytes_desc]; lia ].
  destruct Hm as [[Hv Hm]|[[Hv Hm]|[Hv Hm]]]; rewrite Hv;
    destruct (i_map i) as [|[|[|[|[|[|[|[|k]]]]]]]] eqn:Em; try (exfalso; lia);
    cbn [imm_bytes_desc nth vex_kind Nat.eqb];
    try apply Z; try (apply Y; lia).
  - destruct (K _ _ imm0_ok) as (c & Ec & Ek). rewrite Ec. cbn [bind].
    unfold imm_code0 in Ek.
    repeat match type of Ek with
           | context [if ?b then _ else _] =>
               let E := fresh "E" in destruct b eqn:E
           end;
    cbn [orb andb] in *;
    destruct c; try discriminate Ek; clear Ek;
    rewrite ?Z1, ?Z2, ?V1; cbv [bind]; try apply Z; try apply W;
    try (apply Y; lia);
    repeat match goal with
           | |- context [if ?b then _ else _] =>
               let E := fresh "E" in destruct b eqn:E
           end; try apply Z; try apply W; try (apply Y; lia); exfalso; lia.
  - destruct (K _ _ imm1_ok) as (c & Ec & Ek). rewrite Ec. cbn [bind].
    unfold imm_code1 in Ek.
    destruct (map1_imm8 (i_opc i) || one_of [0xa4; 0xac; 0xba] (i_opc i));
      [destruct c; try discriminate Ek; apply Z|].
    destruct (i_opc i =? 0x78); cbn [andb];
      destruct c; try discriminate Ek; try (apply Y; lia).
    destruct (i_osz i || (i_last_f2f3 i =? 2)); [apply W | apply Y; lia].
  - destruct (K _ _ immv_ok) as (c & Ec & Ek). rewrite Ec. cbn [bind].
    unfold imm_codev in Ek.
    destruct (map1_imm8 (i_opc i));
      destruct c; try discriminate Ek; [apply Z | apply Z | apply Y; lia].
  - destruct (K _ _ imme_ok) as (c & Ec & Ek). rewrite Ec. cbn [bind].
    unfold imm_codev in Ek.
    destruct (map1_imm8 (i_opc i));
      destruct c; try discriminate Ek; [apply Z | apply Z | apply Y; lia].
  - destruct (K _ _ imm4_ok) as (c & Ec & Ek). rewrite Ec. cbn [bind].
    unfold imm_code4 in Ek.
    repeat match type of Ek with
           | context [if ?b then _ else _] =>
               let E := fresh "E" in destruct b eqn:E
           end;
    cbn [orb andb] in *;
    destruct c; try discriminate Ek; clear Ek;
    rewrite ?Z1, ?Z2, ?V1; cbv [bind]; try apply Z; try (apply Y; lia);
    repeat match goal with
           | |- context [if ?b then _ else _] =>
               let E := fresh "E" in destruct b eqn:E
           end; try apply Z; try (apply Y; lia); exfalso; lia.
Qed.

Lemma form_same : forall i j, same_head i j -> form_i j = form_i i.
Proof.
  unfold same_head, form_i. intros i j H.
  decompose [and] H. congruence.
Qed.

Lemma same_trans : forall i j k,
  same_head i j -> same_head j k -> same_head i k.
Proof.
  unfold same_head. intros i j k H1 H2.
  decompose [and] H1. decompose [and] H2. repeat split; congruence.
Qed.

Lemma legacy_disp_eq : forall i,
  i_vex i = 0%nat -> i_opc i < 256 ->
  exists i',
    compute_legacy_disp i = Ok i'
    /\ i_disp_bytes i'
       = (if (i_disp_bytes i =? 0)%nat
          then opc_disp (form_i i) (i_modrm i) else i_disp_bytes i)
    /\ same_head i i' /\ i_modrm i' = i_modrm i
    /\ i_imm1 i' = i_imm1 i /\ i_imm2 i' = i_imm2 i.
Proof.
  intros i Hv Ho. unfold compute_legacy_disp.
  destruct (i_disp_bytes i) as [|d] eqn:Ed; cbn [Nat.eqb Nat.ltb Nat.leb].
  2: { exists i. unfold same_head. intuition. }
  unfold opc_disp.
  change (f_kind (form_i i)) with (vex_kind (i_vex i)).
  change (f_map (form_i i)) with (i_map i).
  change (f_opc (form_i i)) with (i_opc i).
  rewrite Hv. cbn [vex_kind]. rewrite <- reg_eq.
  pose proof (resolve_z_eosz i) as Z1. pose proof (resolve_v_easz i) as Z2.
  assert (Z : forall k, exists i', Ok (set_disp_bytes k i) = Ok i'
    /\ i_disp_bytes i' = k
    /\ same_head i i' /\ i_modrm i' = i_modrm i
    /\ i_imm1 i' = i_imm1 i /\ i_imm2 i' = i_imm2 i).
  { intros k. exists (set_disp_bytes k i). unfold same_head. cbn. intuition. }
  assert (Y : exists i', Ok i = Ok i'
    /\ i_disp_bytes i' = 0%nat
    /\ same_head i i' /\ i_modrm i' = i_modrm i
    /\ i_imm1 i' = i_imm1 i /\ i_imm2 i' = i_imm2 i).
  { exists i. unfold same_head. intuition. }
  assert (X : width_branch (form_i i)
    = if mode_64b i then 4%nat else width_z (form_i i)).
  { unfold width_branch, mode_64b, is64. cbn. destruct (i_mode i); reflexivity. }
  destruct (i_map i) as [|[|k]] eqn:Em;
    cbn [Nat.leb Nat.eqb andb]; [ | | apply Y ].
  - destruct (disp_check_spec _ _ (i_opc i) disp0_ok Ho) as (c & Ec & Ek).
    rewrite Ec. cbn [bind]. unfold disp_code0 in Ek.
    repeat match type of Ek with
           | context [if ?b then _ else _] =>
               let E := fresh "E" in destruct b eqn:E
           end; cbn [andb];
    destruct c; try discriminate Ek; clear Ek;
    rewrite ?X, ?Z1, ?Z2; cbn [bind]; try apply Z; try apply Y;
    repeat match goal with
           | |- context [if ?b then _ else _] =>
               let E := fresh "E" in destruct b eqn:E
           end; try apply Z; try apply Y.
  - destruct (disp_check_spec _ _ (i_opc i) disp1_ok Ho) as (c & Ec & Ek).
    rewrite Ec. cbn [bind]. unfold disp_code1 in Ek.
    destruct (within 0x80 0x8f (i_opc i)); destruct c; try discriminate Ek;
      rewrite ?X, ?Z1; cbn [bind]; try apply Z; try apply Y.
    destruct (mode_64b i); apply Z.
Qed.

Lemma imm_dec_eq : forall i l,
  map_ok i -> imm_start i -> i_opc i < 256 ->
  let k := imm_size (form_i i) (i_modrm i) in
  ((i_max_bytes i < l + k)%nat -> imm_dec i l = Err pte_bad_insn)
  /\ ((l + k <= i_max_bytes i)%nat ->
      exists i', imm_dec i l = Ok (i', (l + k)%nat)
        /\ same_head i i' /\ i_modrm i' = i_modrm i
        /\ i_disp_bytes i' = i_disp_bytes i /\ i_disp_pos i' = i_disp_pos i).
Proof.
  intros i l Hm Hi Ho k.
  destruct (set_imm_eq i Hm Hi Ho) as (j & Ej & Ek & Hs & H1 & H2 & H3).
  unfold imm_dec. rewrite Ej. cbn [bind].
  assert (Emax : i_max_bytes j = i_max_bytes i) by (unfold same_head in Hs; tauto).
  rewrite Emax, <- Nat.add_assoc, Ek. fold k. split; intros Hk.
  - replace (i_max_bytes i <? l + k)%nat with true by lia. reflexivity.
  - replace (i_max_bytes i <? l + k)%nat with false by lia.
    exists j. intuition.
Qed.

Lemma disp_dec_eq : forall i l,
  map_ok i -> imm_start i -> i_opc i < 256 ->
  let d := if (i_disp_bytes i =? 0)%nat
           then opc_disp (form_i i) (i_modrm i) else i_disp_bytes i in
  let k := imm_size (form_i i) (i_modrm i) in
  ((i_max_bytes i < l + d + k)%nat -> disp_dec i l = Err pte_bad_insn)
  /\ ((l + d + k <= i_max_bytes i)%nat ->
      exists i', disp_dec i l = Ok (i', (l + d + k)%nat)
        /\ same_head i i' /\ i_modrm i' = i_modrm i
        /\ i_disp_bytes i' = d
        /\ (d <> 0%nat -> i_disp_pos i' = l)).
Proof.
  intros i l Hm Hi Ho d k.
  assert (G : exists j,
    (if (i_vex i =? 0)%nat then compute_legacy_disp i else Ok i) = Ok j
    /\ i_disp_bytes j = d /\ same_head i j /\ i_modrm j = i_modrm i
    /\ i_imm1 j = i_imm1 i /\ i_imm2 j = i_imm2 i).
  { destruct (i_vex i =? 0)%nat eqn:Ev.
    - apply Nat.eqb_eq in Ev. apply legacy_disp_eq; assumption.
    - exists i. split; [reflexivity|].
      split; [|unfold same_head; intuition].
      unfold d, opc_disp. change (f_kind (form_i i)) with (vex_kind (i_vex i)).
      destruct (i_vex i) as [|[|v]]; [discriminate| |]; cbn [vex_kind];
        destruct (i_disp_bytes i); reflexivity. }
  destruct G as (j & Ej & Ed & Hs & Hmod & Hi1 & Hi2).
  pose proof (form_same _ _ Hs) as Ef.
  assert (Hs' := Hs). unfold same_head in Hs'.
  assert (Hm' : map_ok j)
    by (unfold map_ok in *; replace (i_vex j) with (i_vex i) by (symmetry; tauto);
        replace (i_map j) with (i_map i) by (symmetry; tauto); assumption).
  assert (Hi' : imm_start j)
    by (unfold imm_start in *; rewrite Hi1, Hi2;
        replace (i_vex j) with (i_vex i) by (symmetry; tauto);
        replace (i_map j) with (i_map i) by (symmetry; tauto); assumption).
  assert (Ho' : i_opc j < 256)
    by (replace (i_opc j) with (i_opc i) by (symmetry; tauto); assumption).
  assert (Hx : i_max_bytes j = i_max_bytes i) by tauto.
  unfold disp_dec. rewrite Ej. cbn [bind]. rewrite Ed.
  destruct (d =? 0)%nat eqn:E0.
  - apply Nat.eqb_eq in E0. rewrite E0, Nat.add_0_r.
    destruct (imm_dec_eq j l Hm' Hi' Ho') as [A B].
    rewrite Ef, Hmod, Hx in *. fold k in A, B. split; [exact A|].
    intros H. destruct (B H) as (i' & Ei & Hsi & H1 & H2 & H3).
    exists i'. split; [exact Ei|]. split; [exact (same_trans _ _ _ Hs Hsi)|].
    repeat split; congruence.
  - apply Nat.eqb_neq in E0. rewrite Hx.
    destruct (i_max_bytes i <? l + d)%nat eqn:E1.
    + split; [reflexivity|]. lia.
    + set (j' := set_disp_pos l j).
      assert (Hs2 : same_head j j') by (unfold same_head, j'; cbn; tauto).
      assert (Hm2 : map_ok j') by exact Hm'.
      assert (Hi3 : imm_start j') by exact Hi'.
      assert (Ho2 : i_opc j' < 256) by exact Ho'.
      destruct (imm_dec_eq j' (l + d) Hm2 Hi3 Ho2) as [A B].
      rewrite (form_same _ _ Hs2), Ef in *.
      change (i_modrm j') with (i_modrm j) in *.
      change (i_max_bytes j') with (i_max_bytes j) in *.
      rewrite Hmod, Hx in *. fold k in A, B. split; [exact A|].
      intros H. destruct (B H) as (i' & Ei & Hsi & H1 & H2 & H3).
      exists i'. split; [exact Ei|].
      split; [exact (same_trans _ _ _ Hs (same_trans _ _ _ Hs2 Hsi))|].
      rewrite H1, H2, H3. repeat split; try assumption.
Qed.

(** The addressing form tables. *)
Definition ea_disp (a16 : bool) (md rm : N) : N :=
  if md =? 1 then 1
  else if md =? 2 then (if a16 then 2 else 4)
  else if md =? 0 then
    if a16 then (if rm =? 6 then 2 else 0)
    else if rm =? 5 then 4 else 0
  else 0.

Definition addr16 (asz : bool) (m : exec_mode) : bool :=
  match m with
  | ptem_32bit => asz | ptem_64bit => false | _ => negb asz
  end.

Lemma addr16_eq : forall i,
  addr16 (i_asz i) (i_mode i) = (addrsize (form_i i) =? 2)%nat.
Proof.
  intros i. unfold addr16, addrsize. cbn.
  destruct (i_mode i), (i_asz i); reflexivity.
Qed.

Lemma lt4 : forall n, n < 4 -> n = 0 \/ n = 1 \/ n = 2 \/ n = 3.
Proof. intros; lia. Qed.
Lemma lt8 : forall n, n < 8 ->
  n = 0 \/ n = 1 \/ n = 2 \/ n = 3 \/ n = 4 \/ n = 5 \/ n = 6 \/ n = 7.
Proof. intros; lia. Qed.

Lemma ea_tables : forall asz m md rm,
  m <> ptem_unknown -> md < 4 -> rm < 8 ->
  ea_lookup disp_default (eamode asz m) md rm = Ok (ea_disp (addr16 asz m) md rm)
  /\ ea_lookup has_sib (eamode asz m) md rm
     = Ok (b2n (negb (addr16 asz m) && negb (md =? 3) && (rm =? 4))).
Proof.
  intros asz m md rm Hm Hd Hr.
  apply lt4 in Hd. apply lt8 in Hr.
  destruct m; [congruence| | |]; destruct asz;
    destruct Hd as [->|[->|[->| ->]]];
    destruct Hr as [->|[->|[->|[->|[->|[->|[->| ->]]]]]]];
    split; reflexivity.
Qed.

Lemma ea_any : forall asz m md rm,
  md < 4 -> rm < 8 ->
  exists a b, ea_lookup disp_default (eamode asz m) md rm = Ok a
  /\ ea_lookup has_sib (eamode asz m) md rm = Ok b.
Proof.
  intros asz m md rm Hd Hr.
  apply lt4 in Hd. apply lt8 in Hr.
  destruct m; destruct asz;
    destruct Hd as [->|[->|[->| ->]]];
    destruct Hr as [->|[->|[->|[->|[->|[->|[->| ->]]]]]]];
    eexists; eexists; split; reflexivity.
Qed.

Definition byte_at (l : list N) (k : nat) : N := nth k l 0.

Lemma rd_at : forall l k, (k < length l)%nat -> rd l k = Ok (byte_at l k).
Proof.
  intros l k H. unfold rd, byte_at. now rewrite (nth_error_nth' l 0 H).
Qed.

Lemma byte_at_ok : forall l k, bytes_ok l -> byte_at l k < 256.
Proof.
  intros l k H. unfold byte_at.
  destruct (Nat.lt_ge_cases k (length l)) as [Hk|Hk].
  - apply (proj1 (Forall_forall _ _) H). now apply nth_In.
  - rewrite nth_overflow by exact Hk. lia.
Qed.

(** The state before ModRM. *)
Definition tail_start (i : ild) : Prop :=
  map_ok i /\ imm_start i /\ i_opc i < 256 /\ i_disp_bytes i = 0%nat
  /\ i_modrm i = 0 /\ bytes_ok (i_raw i)
  /\ (i_max_bytes i <= length (i_raw i))%nat.

Definition tail_modrm (i : ild) (l : nat) : N :=
  if (modrm_size (form_i i) =? 0)%nat then 0 else byte_at (i_raw i) l.
Definition tail_sib (i : ild) (l : nat) : N :=
  let n := modrm_size (form_i i) in
  if (sib_size (form_i i) (tail_modrm i l) =? 0)%nat then 0
  else byte_at (i_raw i) (l + n).

Definition tail_disp (i : ild) (l : nat) : nat :=
  disp_size (form_i i) (tail_modrm i l) (tail_sib i l).

Definition tail_pos (i : ild) (l : nat) : nat :=
  (l + modrm_size (form_i i) + sib_size (form_i i) (tail_modrm i l))%nat.

Definition tail_end (i : ild) (l : nat) : nat :=
  (tail_pos i l + tail_disp i l + imm_size (form_i i) (tail_modrm i l))%nat.

Lemma has_modrm_eq : forall i,
  map_ok i -> i_opc i < 256 ->
  exists c, has_modrm i = Ok c
    /\ modrm_norm c = modrm_code (modrm_of (form_i i)).
Proof.
  intros i Hm Ho. unfold has_modrm.
  rewrite (at_row _ _ has_modrm_table _ _ (Mfixed Mno));
    [ | unfold map_ok in Hm; cbn [length has_modrm_table]; lia
      | unfold map_ok in Hm;
        destruct Hm as [[-> Hm]|[[-> Hm]|[-> Hm]]];
        cbn [length nth has_modrm_table]; lia ].
  unfold modrm_of.
  change (f_kind (form_i i)) with (vex_kind (i_vex i)).
  change (f_map (form_i i)) with (i_map i).
  change (f_opc (form_i i)) with (i_opc i).
  destruct Hm as [[Hv Hm]|[[Hv Hm]|[Hv Hm]]]; rewrite Hv;
    destruct (i_map i) as [|[|[|[|[|[|[|[|k]]]]]]]] eqn:Em; try (exfalso; lia);
    cbn [has_modrm_table nth vex_kind];
    try (eexists; split; reflexivity).
  - exact (modrm_check_spec _ _ _ modrm0_ok Ho).
  - exact (modrm_check_spec _ _ _ modrm1_ok Ho).
  - exact (modrm_check_spec _ _ _ modrmv_ok Ho).
Qed.

Lemma m_mod_lt : forall b, b < 256 -> m_mod b < 4.
Proof. intros b H. unfold m_mod. apply N.div_lt_upper_bound; lia. Qed.
Lemma m_rm_lt : forall b, m_rm b < 8.
Proof. intros b. unfold m_rm. apply N.mod_lt. lia. Qed.

Lemma modrm_dec_eq : forall i l,
  tail_start i -> i_mode i <> ptem_unknown ->
  ((i_max_bytes i < tail_end i l)%nat -> modrm_dec i l = Err pte_bad_insn)
  /\ ((tail_end i l <= i_max_bytes i)%nat ->
      exists i', modrm_dec i l = Ok (i', tail_end i l)
        /\ same_head i i' /\ i_modrm i' = tail_modrm i l
        /\ i_disp_bytes i' = tail_disp i l
        /\ (tail_disp i l <> 0%nat -> i_disp_pos i' = tail_pos i l)).
Proof.
  intros i l (Hm & Hi & Ho & Hd & Hmod & Hb & Hlen) Hmode.
  destruct (has_modrm_eq i Hm Ho) as (c & Ec & Hc).
  unfold modrm_dec.
  replace (map_invalid <=? i_map i)%nat with false
    by (unfold map_ok, map_invalid in *; lia).
  rewrite Ec. cbn [bind].
  unfold tail_end, tail_pos, tail_disp, disp_size, tail_sib, tail_modrm.
  unfold modrm_size, sib_size, mem_disp.
  destruct (modrm_of (form_i i)) eqn:Eu; cbn [modrm_code] in Hc;
    cbn [Nat.eqb].
  - assert (G : modrm_dec i l = disp_dec i l).
    { unfold modrm_dec.
      replace (map_invalid <=? i_map i)%nat with false
        by (unfold map_ok, map_invalid in *; lia).
      rewrite Ec. cbn [bind]. destruct c; (reflexivity || discriminate Hc). }
    replace (match c with Myes => _ | Mign => _ | _ => _ end) with (disp_dec i l)
      by (destruct c; (reflexivity || discriminate Hc)).
    pose proof (disp_dec_eq i l Hm Hi Ho) as [A B]. rewrite Hd, Hmod in *.
    cbn [Nat.eqb] in *. rewrite !Nat.add_0_r. split; assumption.
  - destruct c; try discriminate Hc.
    destruct (i_max_bytes i <=? l)%nat eqn:El.
    { split; [reflexivity|]. lia. }
    unfold get_byte. rewrite rd_at by lia. cbn [bind].
    set (b := byte_at (i_raw i) l).
    set (j := set_modrm b i).
    pose proof (disp_dec_eq j (l + 1) Hm Hi Ho) as [A B].
    change (form_i j) with (form_i i) in *.
    change (i_modrm j) with b in *.
    change (i_disp_bytes j) with (i_disp_bytes i) in *.
    change (i_max_bytes j) with (i_max_bytes i) in *.
    rewrite Hd in *. cbn [Nat.eqb] in *. rewrite !Nat.add_0_r.
    split; [exact A|]. intros H. destruct (B H) as (i' & Ei & Hs & R).
    exists i'. split; [exact Ei|]. split; [|exact R].
    unfold same_head in *. cbn in Hs. exact Hs.
  - destruct c; try discriminate Hc.
    destruct (i_max_bytes i <=? l)%nat eqn:El.
    { split; [reflexivity|]. lia. }
    unfold get_byte. rewrite rd_at by lia. cbn [bind].
    set (b := byte_at (i_raw i) l).
    assert (Hbl : b < 256) by (apply byte_at_ok; exact Hb).
    cbv zeta.
    rewrite !mod_eq, !rm_eq. cbn [i_modrm set_modrm set_disp_bytes].
    destruct (ea_tables (i_asz i) (i_mode i) (m_mod b) (m_rm b) Hmode
                (m_mod_lt _ Hbl) (m_rm_lt b)) as [E1 E2].
    rewrite E1. cbn [bind]. rewrite !mod_eq, !rm_eq.
    cbn [i_modrm set_modrm set_disp_bytes]. rewrite E2. cbn [bind].
    rewrite addr16_eq.
    set (a16 := (addrsize (form_i i) =? 2)%nat).
    destruct (negb a16 && negb (m_mod b =? 3) && (m_rm b =? 4)) eqn:Es;
      cbn [b2n truth N.eqb negb Nat.eqb].
    + unfold sib_dec. cbn [i_max_bytes set_disp_bytes set_modrm].
      destruct (i_max_bytes i <=? l + 1)%nat eqn:El1.
      { split; [reflexivity|]. lia. }
      unfold get_byte. cbn [i_raw set_disp_bytes set_modrm].
      rewrite rd_at by lia. cbn [bind].
      set (sb := byte_at (i_raw i) (l + 1)).
      rewrite mod_eq. cbn [i_modrm set_disp_bytes set_modrm].
      assert (Es5 : N.land sb 7 = sb mod 8)
        by (change 7 with (N.ones 3); now rewrite N.land_ones).
      rewrite Es5.
      set (n := N.to_nat (ea_disp a16 (m_mod b) (m_rm b))).
      set (n' := if (sb mod 8 =? 5) && (m_mod b =? 0) then 4%nat else n).
      set (j := set_disp_bytes n' (set_modrm b i)).
      replace (if (sb mod 8 =? 5) && (m_mod b =? 0)
               then set_disp_bytes 4 (set_disp_bytes n (set_modrm b i))
               else set_disp_bytes n (set_modrm b i)) with j
        by (unfold j, n'; destruct ((sb mod 8 =? 5) && (m_mod b =? 0));
            reflexivity).
      pose proof (disp_dec_eq j (l + 1 + 1) Hm Hi Ho) as [A B].
      change (form_i j) with (form_i i) in *.
      change (i_modrm j) with b in *.
      change (i_disp_bytes j) with n' in *.
      change (i_max_bytes j) with (i_max_bytes i) in *.
      assert (En : n' = (if m_mod b =? 1 then 1%nat
        else if m_mod b =? 2 then (if a16 then 2%nat else 4%nat)
        else if m_mod b =? 0 then
          if a16 then (if m_rm b =? 6 then 2%nat else 0%nat)
          else if (m_rm b =? 5) || ((m_rm b =? 4) && (sb mod 8 =? 5))
               then 4%nat else 0%nat
        else 0%nat)).
      { assert (a16 = false /\ m_rm b = 4) as [Ha Hr] by lia.
        unfold n', n, ea_disp. rewrite Ha, Hr.
        destruct (m_mod b =? 1) eqn:F1; [|destruct (m_mod b =? 2) eqn:F2;
          [|destruct (m_mod b =? 0) eqn:F3]];
          try (replace (m_mod b =? 0) with false by lia);
          rewrite ?andb_false_r, ?andb_true_r;
          destruct (sb mod 8 =? 5); reflexivity. }
      rewrite <- En. split; [exact A|].
      intros H. destruct (B H) as (i' & Ei & Hs & R).
      exists i'. split; [exact Ei|]. split; [|exact R].
      unfold same_head in *. cbn in Hs. exact Hs.
    + set (n := N.to_nat (ea_disp a16 (m_mod b) (m_rm b))).
      set (j := set_disp_bytes n (set_modrm b i)).
      pose proof (disp_dec_eq j (l + 1) Hm Hi Ho) as [A B].
      change (form_i j) with (form_i i) in *.
      change (i_modrm j) with b in *.
      change (i_disp_bytes j) with n in *.
      change (i_max_bytes j) with (i_max_bytes i) in *.
      assert (En : n = (if m_mod b =? 1 then 1%nat
        else if m_mod b =? 2 then (if a16 then 2%nat else 4%nat)
        else if m_mod b =? 0 then
          if a16 then (if m_rm b =? 6 then 2%nat else 0%nat)
          else if (m_rm b =? 5) || ((m_rm b =? 4) && (0 mod 8 =? 5))
               then 4%nat else 0%nat
        else 0%nat)).
      { unfold n, ea_disp. change (0 mod 8 =? 5) with false.
        rewrite andb_false_r, orb_false_r.
        destruct (m_mod b =? 1); [|destruct (m_mod b =? 2);
          [|destruct (m_mod b =? 0)]]; destruct a16; try reflexivity;
          [destruct (m_rm b =? 6)|destruct (m_rm b =? 5)]; reflexivity. }
      rewrite <- En, !Nat.add_0_r. split; [exact A|].
      intros H. destruct (B H) as (i' & Ei & Hs & R).
      exists i'. split; [exact Ei|]. split; [|exact R].
      unfold same_head in *. cbn in Hs. exact Hs.
Qed.
