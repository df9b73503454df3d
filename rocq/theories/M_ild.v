(** Model of the instruction length decoder,
    /repo/libipt/src/pt_ild.c and internal/include/pt_ild.h.

    Simplifications: null checks of internal pointers are left out; [itext] is
    the list of the bytes of the array insn->raw, and reading outside of this
    array is undefined behaviour; lengths (uint8_t in C) are natural numbers,
    since a length is at most max_bytes (15) before a part of the instruction
    is added to it; the state of a failed decode is not kept, because no caller
    looks at it; bit-fields of one bit are booleans; the multi-byte displacement
    is read in little-endian order at any alignment. *)

From Coq Require Import List NArith ZArith Bool.
From Verif Require Import Base M_event M_ildtab.
Import ListNotations.
Open Scope N_scope.

(** struct pt_ild, internal/include/pt_ild.h:50-77.  [i_map] is the number of
    the opcode map; [map_invalid] is PTI_MAP_INVALID. *)
Record ild := mk_ild {
  i_raw : list N;
  i_max_bytes : nat;
  i_mode : exec_mode;
  i_osz : bool;
  i_asz : bool;
  i_lock : bool;
  i_f3 : bool;
  i_f2 : bool;
  i_last_f2f3 : N;
  i_rex2 : bool;
  i_rex_r : N;
  i_rex_w : bool;
  i_imm1 : nat;
  i_imm2 : nat;
  i_disp_bytes : nat;
  i_modrm : N;
  i_vex : nat;
  i_map : nat;
  i_opc : N;
  i_disp_pos : nat }.

Definition set_osz (v : bool) (i : ild) : ild :=
  mk_ild (i_raw i) (i_max_bytes i) (i_mode i) v (i_asz i) (i_lock i) (i_f3 i) (i_f2 i) (i_last_f2f3 i) (i_rex2 i) (i_rex_r i) (i_rex_w i) (i_imm1 i) (i_imm2 i) (i_disp_bytes i) (i_modrm i) (i_vex i) (i_map i) (i_opc i) (i_disp_pos i).
Definition set_asz (v : bool) (i : ild) : ild :=
  mk_ild (i_raw i) (i_max_bytes i) (i_mode i) (i_osz i) v (i_lock i) (i_f3 i) (i_f2 i) (i_last_f2f3 i) (i_rex2 i) (i_rex_r i) (i_rex_w i) (i_imm1 i) (i_imm2 i) (i_disp_bytes i) (i_modrm i) (i_vex i) (i_map i) (i_opc i) (i_disp_pos i).
Definition set_lock (v : bool) (i : ild) : ild :=
  mk_ild (i_raw i) (i_max_bytes i) (i_mode i) (i_osz i) (i_asz i) v (i_f3 i) (i_f2 i) (i_last_f2f3 i) (i_rex2 i) (i_rex_r i) (i_rex_w i) (i_imm1 i) (i_imm2 i) (i_disp_bytes i) (i_modrm i) (i_vex i) (i_map i) (i_opc i) (i_disp_pos i).
Definition set_f3 (v : bool) (i : ild) : ild :=
  mk_ild (i_raw i) (i_max_bytes i) (i_mode i) (i_osz i) (i_asz i) (i_lock i) v (i_f2 i) (i_last_f2f3 i) (i_rex2 i) (i_rex_r i) (i_rex_w i) (i_imm1 i) (i_imm2 i) (i_disp_bytes i) (i_modrm i) (i_vex i) (i_map i) (i_opc i) (i_disp_pos i).
Definition set_f2 (v : bool) (i : ild) : ild :=
  mk_ild (i_raw i) (i_max_bytes i) (i_mode i) (i_osz i) (i_asz i) (i_lock i) (i_f3 i) v (i_last_f2f3 i) (i_rex2 i) (i_rex_r i) (i_rex_w i) (i_imm1 i) (i_imm2 i) (i_disp_bytes i) (i_modrm i) (i_vex i) (i_map i) (i_opc i) (i_disp_pos i).
Definition set_last_f2f3 (v : N) (i : ild) : ild :=
  mk_ild (i_raw i) (i_max_bytes i) (i_mode i) (i_osz i) (i_asz i) (i_lock i) (i_f3 i) (i_f2 i) v (i_rex2 i) (i_rex_r i) (i_rex_w i) (i_imm1 i) (i_imm2 i) (i_disp_bytes i) (i_modrm i) (i_vex i) (i_map i) (i_opc i) (i_disp_pos i).
Definition set_rex2 (v : bool) (i : ild) : ild :=
  mk_ild (i_raw i) (i_max_bytes i) (i_mode i) (i_osz i) (i_asz i) (i_lock i) (i_f3 i) (i_f2 i) (i_last_f2f3 i) v (i_rex_r i) (i_rex_w i) (i_imm1 i) (i_imm2 i) (i_disp_bytes i) (i_modrm i) (i_vex i) (i_map i) (i_opc i) (i_disp_pos i).
Definition set_rex_r (v : N) (i : ild) : ild :=
  mk_ild (i_raw i) (i_max_bytes i) (i_mode i) (i_osz i) (i_asz i) (i_lock i) (i_f3 i) (i_f2 i) (i_last_f2f3 i) (i_rex2 i) v (i_rex_w i) (i_imm1 i) (i_imm2 i) (i_disp_bytes i) (i_modrm i) (i_vex i) (i_map i) (i_opc i) (i_disp_pos i).
Definition set_rex_w (v : bool) (i : ild) : ild :=
  mk_ild (i_raw i) (i_max_bytes i) (i_mode i) (i_osz i) (i_asz i) (i_lock i) (i_f3 i) (i_f2 i) (i_last_f2f3 i) (i_rex2 i) (i_rex_r i) v (i_imm1 i) (i_imm2 i) (i_disp_bytes i) (i_modrm i) (i_vex i) (i_map i) (i_opc i) (i_disp_pos i).
Definition set_imm1 (v : nat) (i : ild) : ild :=
  mk_ild (i_raw i) (i_max_bytes i) (i_mode i) (i_osz i) (i_asz i) (i_lock i) (i_f3 i) (i_f2 i) (i_last_f2f3 i) (i_rex2 i) (i_rex_r i) (i_rex_w i) v (i_imm2 i) (i_disp_bytes i) (i_modrm i) (i_vex i) (i_map i) (i_opc i) (i_disp_pos i).
Definition set_imm2 (v : nat) (i : ild) : ild :=
  mk_ild (i_raw i) (i_max_bytes i) (i_mode i) (i_osz i) (i_asz i) (i_lock i) (i_f3 i) (i_f2 i) (i_last_f2f3 i) (i_rex2 i) (i_rex_r i) (i_rex_w i) (i_imm1 i) v (i_disp_bytes i) (i_modrm i) (i_vex i) (i_map i) (i_opc i) (i_disp_pos i).
Definition set_disp_bytes (v : nat) (i : ild) : ild :=
  mk_ild (i_raw i) (i_max_bytes i) (i_mode i) (i_osz i) (i_asz i) (i_lock i) (i_f3 i) (i_f2 i) (i_last_f2f3 i) (i_rex2 i) (i_rex_r i) (i_rex_w i) (i_imm1 i) (i_imm2 i) v (i_modrm i) (i_vex i) (i_map i) (i_opc i) (i_disp_pos i).
Definition set_modrm (v : N) (i : ild) : ild :=
  mk_ild (i_raw i) (i_max_bytes i) (i_mode i) (i_osz i) (i_asz i) (i_lock i) (i_f3 i) (i_f2 i) (i_last_f2f3 i) (i_rex2 i) (i_rex_r i) (i_rex_w i) (i_imm1 i) (i_imm2 i) (i_disp_bytes i) v (i_vex i) (i_map i) (i_opc i) (i_disp_pos i).
Definition set_vex (v : nat) (i : ild) : ild :=
  mk_ild (i_raw i) (i_max_bytes i) (i_mode i) (i_osz i) (i_asz i) (i_lock i) (i_f3 i) (i_f2 i) (i_last_f2f3 i) (i_rex2 i) (i_rex_r i) (i_rex_w i) (i_imm1 i) (i_imm2 i) (i_disp_bytes i) (i_modrm i) v (i_map i) (i_opc i) (i_disp_pos i).
Definition set_map (v : nat) (i : ild) : ild :=
  mk_ild (i_raw i) (i_max_bytes i) (i_mode i) (i_osz i) (i_asz i) (i_lock i) (i_f3 i) (i_f2 i) (i_last_f2f3 i) (i_rex2 i) (i_rex_r i) (i_rex_w i) (i_imm1 i) (i_imm2 i) (i_disp_bytes i) (i_modrm i) (i_vex i) v (i_opc i) (i_disp_pos i).
Definition set_opc (v : N) (i : ild) : ild :=
  mk_ild (i_raw i) (i_max_bytes i) (i_mode i) (i_osz i) (i_asz i) (i_lock i) (i_f3 i) (i_f2 i) (i_last_f2f3 i) (i_rex2 i) (i_rex_r i) (i_rex_w i) (i_imm1 i) (i_imm2 i) (i_disp_bytes i) (i_modrm i) (i_vex i) (i_map i) v (i_disp_pos i).
Definition set_disp_pos (v : nat) (i : ild) : ild :=
  mk_ild (i_raw i) (i_max_bytes i) (i_mode i) (i_osz i) (i_asz i) (i_lock i) (i_f3 i) (i_f2 i) (i_last_f2f3 i) (i_rex2 i) (i_rex_r i) (i_rex_w i) (i_imm1 i) (i_imm2 i) (i_disp_bytes i) (i_modrm i) (i_vex i) (i_map i) (i_opc i) v.
(** pti_map_enum_t, pt_ild.h:38-48. *)
Definition map_invalid : nat := 8.

(** pt_ild.h:84-97. *)
Definition modrm_mod (i : ild) : N := N.shiftr (i_modrm i) 6.
Definition modrm_reg (i : ild) : N := N.land (N.shiftr (i_modrm i) 3) 7.
Definition modrm_rm (i : ild) : N := N.land (i_modrm i) 7.

(** eamode_table, pt_ild.c:40-54. *)
Definition eamode (asz : bool) (m : exec_mode) : exec_mode :=
  if asz then
    match m with
    | ptem_unknown => ptem_unknown
    | ptem_16bit => ptem_32bit
    | ptem_32bit => ptem_16bit
    | ptem_64bit => ptem_32bit
    end
  else m.

Definition mode_index (m : exec_mode) : nat :=
  match m with
  | ptem_unknown => 0 | ptem_16bit => 1 | ptem_32bit => 2 | ptem_64bit => 3
  end.

(** get_byte(), pt_ild.c:58-61. *)
Definition get_byte (i : ild) (k : nat) : res N := rd (i_raw i) k.

(** mode_64b(), mode_32b(), pt_ild.c:68-76. *)
Definition mode_64b (i : ild) : bool :=
  match i_mode i with ptem_64bit => true | _ => false end.
Definition mode_32b (i : ild) : bool :=
  match i_mode i with ptem_32bit => true | _ => false end.

(** bits_match(), pt_ild.c:78-81. *)
Definition bits_match (x mask target : N) : bool := N.land x mask =? target.

(** pti_get_nominal_eosz_non64(), pt_ild.c:83-94. *)
Definition nominal_eosz_non64 (i : ild) : exec_mode :=
  if mode_32b i then (if i_osz i then ptem_16bit else ptem_32bit)
  else if i_osz i then ptem_32bit else ptem_16bit.

(** pti_get_nominal_eosz(), pt_ild.c:96-107. *)
Definition nominal_eosz (i : ild) : exec_mode :=
  if mode_64b i then
    if i_rex_w i then ptem_64bit
    else if i_osz i then ptem_16bit else ptem_32bit
  else nominal_eosz_non64 i.

(** pti_get_nominal_eosz_df64(), pt_ild.c:109-122. *)
Definition nominal_eosz_df64 (i : ild) : exec_mode :=
  if mode_64b i then
    if i_rex_w i then ptem_64bit
    else if i_osz i then ptem_16bit else ptem_64bit
  else nominal_eosz_non64 i.

(** pti_get_nominal_easz_non64(), pt_ild.c:124-135. *)
Definition nominal_easz_non64 (i : ild) : exec_mode :=
  if mode_32b i then (if i_asz i then ptem_16bit else ptem_32bit)
  else if i_asz i then ptem_32bit else ptem_16bit.

(** pti_get_nominal_easz(), pt_ild.c:137-146. *)
Definition nominal_easz (i : ild) : exec_mode :=
  if mode_64b i then (if i_asz i then ptem_32bit else ptem_64bit)
  else nominal_easz_non64 i.

(** resolve_z(), pt_ild.c:148-162. *)
Definition resolve_z (eosz : exec_mode) : res nat :=
  match eosz with
  | ptem_unknown => Err pte_bad_insn
  | ptem_16bit => Ok 2%nat
  | ptem_32bit => Ok 4%nat
  | ptem_64bit => Ok 4%nat
  end.

(** resolve_v(), pt_ild.c:164-178. *)
Definition resolve_v (eosz : exec_mode) : res nat :=
  match eosz with
  | ptem_unknown => Err pte_bad_insn
  | ptem_16bit => Ok 2%nat
  | ptem_32bit => Ok 4%nat
  | ptem_64bit => Ok 8%nat
  end.

(** imm_bytes_desc, pti-imm.h:1354-1385: a table indexed by opcode, or a fixed
    width.  [None] is the width 0xff. *)
Inductive imm_desc :=
| Itable (t : list pti_imm)
| Iwidth (w : option nat).

Definition imm_bytes_desc : list (list imm_desc) :=
  [[Itable imm_bytes_legacy_map_0; Itable imm_bytes_legacy_map_1;
    Iwidth (Some 0); Iwidth (Some 1); Iwidth (Some 1); Iwidth (Some 0);
    Iwidth (Some 0); Iwidth (Some 0)]%nat;
   [Iwidth None; Itable imm_bytes_vex_map_1;
    Iwidth (Some 0); Iwidth (Some 1); Iwidth (Some 0); Iwidth (Some 0);
    Iwidth (Some 0); Iwidth (Some 4)]%nat;
   [Iwidth None; Itable imm_bytes_evex_map_1;
    Iwidth (Some 0); Iwidth (Some 1); Itable imm_bytes_evex_map_4;
    Iwidth (Some 0); Iwidth (Some 0); Iwidth (Some 4)]%nat].

(** An array access [t[k]]. *)
Definition at_ {A : Type} (t : list A) (k : nat) : res A :=
  match nth_error t k with
  | Some x => Ok x
  | None => UB ub_oob_read
  end.

(** set_imm_bytes(), pt_ild.c:182-291. *)
Definition set_imm_bytes (i : ild) : res ild :=
  if (map_invalid <=? i_map i)%nat then Err pte_bad_insn
  else
    let* row := at_ imm_bytes_desc (i_vex i) in
    let* desc := at_ row (i_map i) in
    match desc with
    | Iwidth None => Err pte_bad_insn
    | Iwidth (Some w) => Ok (set_imm1 w i)
    | Itable t =>
        let* imm := at_ t (N.to_nat (i_opc i)) in
        match imm with
        | I0 => Ok i
        | Iu8 => Ok (set_imm1 1%nat i)
        | Is8 => Ok (set_imm1 1%nat i)
        | Isz =>
            let* n := resolve_z (nominal_eosz i) in
            Ok (set_imm1 n i)
        | Iuv =>
            let* n := resolve_v (nominal_eosz i) in
            Ok (set_imm1 n i)
        | Iu16 => Ok (set_imm1 2%nat i)
        | Isz64 =>
            let* n := resolve_z (nominal_eosz_df64 i) in
            Ok (set_imm1 n i)
        | If7 =>
            if (i_map i =? 0)%nat && (modrm_reg i <? 2) then
              let* n := resolve_z (nominal_eosz i) in
              Ok (set_imm1 n i)
            else Ok i
        | Ic7 =>
            if (i_map i =? 0)%nat && (modrm_reg i =? 0) then
              let* n := resolve_z (nominal_eosz i) in
              Ok (set_imm1 n i)
            else Ok i
        | If6 =>
            if (i_map i =? 0)%nat && (modrm_reg i <? 2)
            then Ok (set_imm1 1%nat i) else Ok i
        | Ic8 =>
            if (i_map i =? 0)%nat
            then Ok (set_imm2 1%nat (set_imm1 2%nat i)) else Ok i
        | I78 =>
            if (i_map i =? 1)%nat then
              if i_osz i || (i_last_f2f3 i =? 2)
              then Ok (set_imm2 1%nat (set_imm1 1%nat i)) else Ok i
            else Ok i
        | Ie6 =>
            if modrm_reg i <? 2 then Ok (set_imm1 1%nat i) else Ok i
        | Ie7 =>
            if modrm_reg i <? 2 then
              let* n := resolve_z (nominal_eosz i) in
              Ok (set_imm1 n i)
            else Ok i
        end
    end.

(** imm_dec(), pt_ild.c:293-310. *)
Definition imm_dec (i : ild) (length : nat) : res (ild * nat) :=
  let* i := set_imm_bytes i in
  let length := (length + i_imm1 i + i_imm2 i)%nat in
  if (i_max_bytes i <? length)%nat then Err pte_bad_insn
  else Ok (i, length).

(** compute_legacy_disp(), pt_ild.c:312-376. *)
Definition compute_legacy_disp (i : ild) : res ild :=
  if (0 <? i_disp_bytes i)%nat then Ok i
  else if (2 <=? i_map i)%nat then Ok i
  else
    let t := if (i_map i =? 0)%nat then disp_bytes_map_0x0
             else disp_bytes_map_0x0F in
    let* disp := at_ t (N.to_nat (i_opc i)) in
    match disp with
    | Dnone => Ok (set_disp_bytes 0%nat i)
    | Dpres => Ok i
    | Dbr8 => Ok (set_disp_bytes 1%nat i)
    | Dbk0 =>
        if mode_64b i then Ok (set_disp_bytes 4%nat i)
        else
          let* n := resolve_z (nominal_eosz i) in
          Ok (set_disp_bytes n i)
    | Dmemv =>
        let* n := resolve_v (nominal_easz i) in
        Ok (set_disp_bytes n i)
    | Dbrz =>
        let* n := resolve_z (nominal_eosz i) in
        Ok (set_disp_bytes n i)
    | Dc7 =>
        if (i_map i =? 0)%nat && (modrm_reg i =? 7) then
          let* n := resolve_z (nominal_eosz i) in
          Ok (set_disp_bytes n i)
        else Ok i
    end.

(** disp_dec(), pt_ild.c:378-404. *)
Definition disp_dec (i : ild) (length : nat) : res (ild * nat) :=
  let* i := if (i_vex i =? 0)%nat then compute_legacy_disp i else Ok i in
  let disp_bytes := i_disp_bytes i in
  if (disp_bytes =? 0)%nat then imm_dec i length
  else if (i_max_bytes i <? length + disp_bytes)%nat then Err pte_bad_insn
  else imm_dec (set_disp_pos length i) (length + disp_bytes).

(** sib_dec(), pt_ild.c:406-421. *)
Definition sib_dec (i : ild) (length : nat) : res (ild * nat) :=
  if (i_max_bytes i <=? length)%nat then Err pte_bad_insn
  else
    let* sib := get_byte i length in
    let i := if (N.land sib 7 =? 5) && (modrm_mod i =? 0)
             then set_disp_bytes 4%nat i else i in
    disp_dec i (length + 1).

(** has_modrm_table, pti-modrm.h:826-857. *)
Inductive modrm_desc :=
| Mtable (t : list pti_modrm)
| Mfixed (m : pti_modrm).

Definition has_modrm_table : list (list modrm_desc) :=
  [[Mtable has_modrm_legacy_map_0; Mtable has_modrm_legacy_map_1;
    Mfixed Myes; Mfixed Myes; Mfixed Myes; Mfixed Mund; Mfixed Mund;
    Mfixed Mund];
   [Mfixed Mund; Mtable has_modrm_vex_map_1;
    Mfixed Myes; Mfixed Myes; Mfixed Mund; Mfixed Mund; Mfixed Mund;
    Mfixed Myes];
   [Mfixed Mund; Mfixed Myes;
    Mfixed Myes; Mfixed Myes; Mfixed Myes; Mfixed Myes; Mfixed Myes;
    Mfixed Myes]].

(** The lookup in modrm_dec(), pt_ild.c:437-439. *)
Definition has_modrm (i : ild) : res pti_modrm :=
  let* row := at_ has_modrm_table (i_vex i) in
  let* desc := at_ row (i_map i) in
  match desc with
  | Mtable t => at_ t (N.to_nat (i_opc i))
  | Mfixed m => Ok m
  end.

(** A lookup [t[eamode][mod][rm]]. *)
Definition ea_lookup (t : list (list (list N))) (m : exec_mode) (md rm : N)
  : res N :=
  let* x := at_ t (mode_index m) in
  let* y := at_ x (N.to_nat md) in
  at_ y (N.to_nat rm).

(** modrm_dec(), pt_ild.c:423-472. *)
Definition modrm_dec (i : ild) (length : nat) : res (ild * nat) :=
  if (map_invalid <=? i_map i)%nat then Err pte_bad_insn
  else
    let* m := has_modrm i in
    match m with
    | Mno | Mund => disp_dec i length
    | Mign =>
        if (i_max_bytes i <=? length)%nat then Err pte_bad_insn
        else
          let* b := get_byte i length in
          disp_dec (set_modrm b i) (length + 1)
    | Myes =>
        let ea := eamode (i_asz i) (i_mode i) in
        if (i_max_bytes i <=? length)%nat then Err pte_bad_insn
        else
          let* b := get_byte i length in
          let i := set_modrm b i in
          let* disp := ea_lookup disp_default ea (modrm_mod i) (modrm_rm i) in
          let i := set_disp_bytes (N.to_nat disp) i in
          let* sib := ea_lookup has_sib ea (modrm_mod i) (modrm_rm i) in
          if truth sib then sib_dec i (length + 1)
          else disp_dec i (length + 1)
    end.

(** get_next_as_opcode(), pt_ild.c:474-485. *)
Definition get_next_as_opcode (i : ild) (length : nat) : res (ild * nat) :=
  if (i_max_bytes i <=? length)%nat then Err pte_bad_insn
  else
    let* b := get_byte i length in
    modrm_dec (set_opc b i) (length + 1).

(** opcode_dec(), pt_ild.c:487-529. *)
Definition opcode_dec (i : ild) (length : nat) : res (ild * nat) :=
  let* b := get_byte i length in
  if negb (b =? 0x0f) then
    modrm_dec (set_opc b (set_map 0%nat i)) (length + 1)
  else
    let length := (length + 1)%nat in
    if (i_max_bytes i <=? length)%nat then Err pte_bad_insn
    else
      let* m := get_byte i length in
      if m =? 0x38 then get_next_as_opcode (set_map 2%nat i) (length + 1)
      else if m =? 0x3a then
        get_next_as_opcode (set_imm1 1%nat (set_map 3%nat i)) (length + 1)
      else if bits_match m 0xf8 0x38 then
        get_next_as_opcode (set_map map_invalid i) (length + 1)
      else modrm_dec (set_map 1%nat (set_opc m i)) (length + 1).

(** prefix_done(), pt_ild.c:909-918. *)
Definition prefix_done (i : ild) (length : nat) (rex : N) : res (ild * nat) :=
  let i := set_rex_r (N.land (N.shiftr rex 2) 1) i in
  let i := set_rex_w (truth (N.land (N.shiftr rex 3) 1)) i in
  opcode_dec i length.

(** prefix_vex_done(), pt_ild.c:933-941. *)
Definition prefix_vex_done (i : ild) (length : nat) : res (ild * nat) :=
  let* b := get_byte i length in
  modrm_dec (set_opc b i) (length + 1).

(** resolve_vex_pp(), pt_ild.c:943-960. *)
Definition resolve_vex_pp (pp : N) (i : ild) : ild :=
  if pp =? 1 then set_osz true i
  else if pp =? 2 then set_last_f2f3 3 (set_f3 true i)
  else if pp =? 3 then set_last_f2f3 2 (set_f2 true i)
  else i.

(** The lowest bit of ~p >> k for a byte p, which C evaluates as an int. *)
Definition inv_bit (p k : N) : N := N.land (N.shiftr (255 - p) k) 1.

(** prefix_vex_c5(), pt_ild.c:962-1001. *)
Definition prefix_vex_c5 (i : ild) (length : nat) : res (ild * nat) :=
  if (i_max_bytes i <=? length + 1)%nat then Err pte_bad_insn
  else
    let* p1 := get_byte i (length + 1) in
    if negb (mode_64b i) && negb (bits_match p1 0xc0 0xc0)
    then opcode_dec i length
    else if (i_max_bytes i <? length + 3)%nat then Err pte_bad_insn
    else
      let i := set_vex 1%nat i in
      let i := set_rex_r (inv_bit p1 7) i in
      let i := resolve_vex_pp (N.land p1 3) i in
      prefix_vex_done (set_map 1%nat i) (length + 2).

(** prefix_vex_c4(), pt_ild.c:1003-1047. *)
Definition prefix_vex_c4 (i : ild) (length : nat) : res (ild * nat) :=
  if (i_max_bytes i <=? length + 1)%nat then Err pte_bad_insn
  else
    let* p1 := get_byte i (length + 1) in
    if negb (mode_64b i) && negb (bits_match p1 0xc0 0xc0)
    then opcode_dec i length
    else if (i_max_bytes i <? length + 4)%nat then Err pte_bad_insn
    else
      let* p2 := get_byte i (length + 2) in
      let i := set_vex 1%nat i in
      let i := set_rex_r (inv_bit p1 7) i in
      let i := set_rex_w (truth (N.land (N.shiftr p2 7) 1)) i in
      let i := resolve_vex_pp (N.land p2 3) i in
      let map := N.to_nat (N.land p1 0x1f) in
      let i := set_map map i in
      if (map_invalid <=? map)%nat then Err pte_bad_insn
      else prefix_vex_done i (length + 3).

(** prefix_evex(), pt_ild.c:1049-1091. *)
Definition prefix_evex (i : ild) (length : nat) : res (ild * nat) :=
  if (i_max_bytes i <=? length + 1)%nat then Err pte_bad_insn
  else
    let* p1 := get_byte i (length + 1) in
    if negb (mode_64b i) && negb (bits_match p1 0xc0 0xc0)
    then opcode_dec i length
    else if (i_max_bytes i <? length + 5)%nat then Err pte_bad_insn
    else
      let* p2 := get_byte i (length + 2) in
      let i := set_vex 2%nat i in
      let i := set_rex_r (N.lor (inv_bit p1 7) (2 * inv_bit p1 4)) i in
      let i := set_rex_w (truth (N.land (N.shiftr p2 7) 1)) i in
      let i := resolve_vex_pp (N.land p2 3) i in
      prefix_vex_done (set_map (N.to_nat (N.land p1 7)) i) (length + 4).

(** prefix_rex2(), pt_ild.c:1093-1126.  The check requires two bytes, but the
    prefix takes two bytes already: the opcode is read without a check. *)
Definition prefix_rex2 (i : ild) (length : nat) : res (ild * nat) :=
  if negb (mode_64b i) then opcode_dec i length
  else if (i_max_bytes i <? length + 2)%nat then Err pte_bad_insn
  else
    let* payload := get_byte i (length + 1) in
    let i := set_rex_r (N.lor (N.land (N.shiftr payload 5) 2)
                              (N.land (N.shiftr payload 2) 1)) i in
    let i := set_rex_w (truth (N.land (N.shiftr payload 3) 1)) i in
    let i := set_rex2 true i in
    let i := set_map (N.to_nat (N.shiftr payload 7)) i in
    prefix_vex_done i (length + 2).

(** prefix_decode(), prefix_next() and the prefix decoders that call it,
    pt_ild.c:820-907 and 920-931.  The recursion is over the bytes. *)
Fixpoint prefix_decode (fuel : nat) (i : ild) (length : nat) (rex : N)
  : res (ild * nat) :=
  match fuel with
  | O => UB ub_fuel
  | S fuel =>
      if (i_max_bytes i <=? length)%nat then Err pte_bad_insn
      else
        let* byte := get_byte i length in
        let* fn := at_ prefix_table (N.to_nat byte) in
        match fn with
        | Posz => prefix_decode fuel (set_osz true i) (length + 1) 0
        | Pasz => prefix_decode fuel (set_asz true i) (length + 1) 0
        | Plock => prefix_decode fuel (set_lock true i) (length + 1) 0
        | Pf2 =>
            prefix_decode fuel (set_last_f2f3 2 (set_f2 true i)) (length + 1) 0
        | Pf3 =>
            prefix_decode fuel (set_last_f2f3 3 (set_f3 true i)) (length + 1) 0
        | Pign => prefix_decode fuel i (length + 1) 0
        | Pdone => prefix_done i length rex
        | Prex =>
            if mode_64b i then prefix_decode fuel i (length + 1) byte
            else opcode_dec i length
        | Pc4 => prefix_vex_c4 i length
        | Pc5 => prefix_vex_c5 i length
        | Pevex => prefix_evex i length
        | Prex2 => prefix_rex2 i length
        end
  end.

(** decode(), pt_ild.c:1128-1131. *)
Definition decode (i : ild) : res (ild * nat) :=
  prefix_decode (S (i_max_bytes i)) i 0 0.

(** enum pt_insn_class, intel-pt.h.in:2505-2554. *)
Inductive iclass :=
| ptic_unknown | ptic_other | ptic_call | ptic_return | ptic_jump
| ptic_cond_jump | ptic_far_call | ptic_far_return | ptic_far_jump
| ptic_ptwrite | ptic_indirect.

(** pti_inst_enum_t, internal/include/pt_insn.h:41-93. *)
Inductive inst :=
| PTI_INVALID
| PTI_CALL_9A | PTI_CALL_FFr3 | PTI_CALL_FFr2 | PTI_CALL_E8 | PTI_INT
| PTI_INT3 | PTI_INT1 | PTI_INTO | PTI_IRET
| PTI_JMP_E9 | PTI_JMP_EB | PTI_JMP_EA | PTI_JMP_FFr5 | PTI_JMP_FFr4
| PTI_JCC | PTI_JrCXZ | PTI_LOOP | PTI_LOOPE | PTI_LOOPNE
| PTI_MOV_CR3
| PTI_RET_C3 | PTI_RET_C2 | PTI_RET_CB | PTI_RET_CA
| PTI_SYSCALL | PTI_SYSENTER | PTI_SYSEXIT | PTI_SYSRET
| PTI_VMLAUNCH | PTI_VMRESUME | PTI_VMCALL | PTI_VMPTRLD
| PTI_PTWRITE | PTI_UIRET | PTI_ERETS | PTI_ERETU | PTI_JMPABS.

(** struct pt_insn_ext, internal/include/pt_insn.h:98-127. *)
Record insn_ext := mk_iext {
  x_inst : inst;
  x_disp : Z;
  x_direct : bool }.

(** The little-endian value of a byte string. *)
Fixpoint le_bytes (l : list N) : N :=
  match l with
  | [] => 0
  | b :: l => b + 256 * le_bytes l
  end.

(** Conversion of an unsigned value of [w] bits to the signed type. *)
Definition to_signed (w : N) (n : N) : Z :=
  if n <? 2 ^ (w - 1) then Z.of_N n else (Z.of_N n - 2 ^ Z.of_N w)%Z.

(** Read [n] bytes at [pos]. *)
Fixpoint get_bytes (i : ild) (pos n : nat) : res (list N) :=
  match n with
  | O => Ok []
  | S n =>
      let* b := get_byte i pos in
      let* l := get_bytes i (S pos) n in
      Ok (b :: l)
  end.

(** set_branch_target(), pt_ild.c:1133-1164. *)
Definition set_branch_target (k : inst) (i : ild) : res insn_ext :=
  match i_disp_bytes i with
  | 1%nat | 2%nat | 4%nat | 8%nat =>
      let* l := get_bytes i (i_disp_pos i) (i_disp_bytes i) in
      Ok (mk_iext k
            (to_signed (8 * N.of_nat (i_disp_bytes i)) (le_bytes l)) true)
  | _ => Err pte_bad_insn
  end.

(** pt_instruction_decode(), pt_ild.c:1166-1478. *)
Definition pt_instruction_decode (i : ild) : res (iclass * insn_ext) :=
  let map0 := (i_map i =? 0)%nat in
  let map1 := (i_map i =? 1)%nat in
  let none := Ok (ptic_other, mk_iext PTI_INVALID 0 false) in
  let plain c k := Ok (c, mk_iext k 0 false) in
  let direct c k :=
    let* x := set_branch_target k i in
    Ok (c, x) in
  let opc := i_opc i in
  let row := N.land opc 0xf0 in
  if (1 <? i_map i)%nat then none
  else if negb (i_vex i =? 0)%nat then none
  else if row =? 0x70 then
    if map0 && negb (i_rex2 i) then direct ptic_cond_jump PTI_JCC else none
  else if row =? 0x80 then
    if map1 && negb (i_rex2 i) then direct ptic_cond_jump PTI_JCC else none
  else if opc =? 0x9a then
    if map0 && negb (mode_64b i) then plain ptic_far_call PTI_CALL_9A else none
  else if opc =? 0xff then
    if map0 then
      let reg := modrm_reg i in
      if reg =? 2 then plain ptic_call PTI_CALL_FFr2
      else if reg =? 3 then plain ptic_far_call PTI_CALL_FFr3
      else if reg =? 4 then plain ptic_jump PTI_JMP_FFr4
      else if reg =? 5 then plain ptic_far_jump PTI_JMP_FFr5
      else none
    else none
  else if opc =? 0xe8 then
    if map0 && negb (i_rex2 i) then direct ptic_call PTI_CALL_E8 else none
  else if opc =? 0xcd then
    if map0 then plain ptic_far_call PTI_INT else none
  else if opc =? 0xcc then
    if map0 then plain ptic_far_call PTI_INT3 else none
  else if opc =? 0xce then
    if map0 && negb (mode_64b i) then plain ptic_far_call PTI_INTO else none
  else if opc =? 0xf1 then
    if map0 then plain ptic_far_call PTI_INT1 else none
  else if opc =? 0xcf then
    if map0 then plain ptic_far_return PTI_IRET else none
  else if opc =? 0xe9 then
    if map0 && negb (i_rex2 i) then direct ptic_jump PTI_JMP_E9 else none
  else if opc =? 0xea then
    if map0 && negb (mode_64b i) && negb (i_rex2 i)
    then plain ptic_far_jump PTI_JMP_EA else none
  else if opc =? 0xeb then
    if map0 && negb (i_rex2 i) then direct ptic_jump PTI_JMP_EB else none
  else if opc =? 0xe3 then
    if map0 && negb (i_rex2 i) then direct ptic_cond_jump PTI_JrCXZ else none
  else if opc =? 0xe0 then
    if map0 && negb (i_rex2 i) then direct ptic_cond_jump PTI_LOOPNE else none
  else if opc =? 0xe1 then
    if map0 && negb (i_rex2 i) then direct ptic_cond_jump PTI_LOOPE else none
  else if opc =? 0xe2 then
    if map0 && negb (i_rex2 i) then direct ptic_cond_jump PTI_LOOP else none
  else if opc =? 0x22 then
    if map1 && (modrm_reg i =? 3) && (i_rex_r i =? 0)
    then plain ptic_other PTI_MOV_CR3 else none
  else if opc =? 0xc3 then
    if map0 then plain ptic_return PTI_RET_C3 else none
  else if opc =? 0xc2 then
    if map0 then plain ptic_return PTI_RET_C2 else none
  else if opc =? 0xcb then
    if map0 then plain ptic_far_return PTI_RET_CB else none
  else if opc =? 0xca then
    if map0 then plain ptic_far_return PTI_RET_CA else none
  else if opc =? 0x05 then
    if map1 then plain ptic_far_call PTI_SYSCALL else none
  else if opc =? 0x34 then
    if map1 && negb (i_rex2 i) then plain ptic_far_call PTI_SYSENTER else none
  else if opc =? 0x35 then
    if map1 && negb (i_rex2 i) then plain ptic_far_return PTI_SYSEXIT else none
  else if opc =? 0x07 then
    if map1 then plain ptic_far_return PTI_SYSRET else none
  else if opc =? 0x01 then
    if map1 then
      let m := i_modrm i in
      if m =? 0xc1 then plain ptic_far_call PTI_VMCALL
      else if m =? 0xc2 then plain ptic_far_return PTI_VMLAUNCH
      else if m =? 0xc3 then plain ptic_far_return PTI_VMRESUME
      else if m =? 0xec then plain ptic_far_return PTI_UIRET
      else if m =? 0xca then
        if i_last_f2f3 i =? 2 then plain ptic_far_return PTI_ERETS
        else if i_last_f2f3 i =? 3 then plain ptic_far_return PTI_ERETU
        else none
      else none
    else none
  else if opc =? 0xc7 then
    if map1 && negb (modrm_mod i =? 3) && (modrm_reg i =? 6)
    then plain ptic_other PTI_VMPTRLD else none
  else if opc =? 0xae then
    if map1 && i_f3 i && negb (i_osz i) && (modrm_reg i =? 4)
    then plain ptic_ptwrite PTI_PTWRITE else none
  else if opc =? 0xa1 then
    if map0 && mode_64b i && i_rex2 i && negb (i_rex_w i) && negb (i_asz i)
       && negb (i_osz i)
    then direct ptic_jump PTI_JMPABS else none
  else none.

(** The initial decoder state, pt_ild.c:1489-1493. *)
Definition ild_init (raw : list N) (size : nat) (m : exec_mode) : ild :=
  mk_ild raw size m false false false false false 0 false 0 false
    0%nat 0%nat 0%nat 0 0%nat map_invalid 0 0%nat.

(** pt_ild_decode(), pt_ild.c:1480-1501.  insn->size is written when the length
    is known, even if the classification then fails: the first component is the
    value of insn->size afterwards. *)
Definition pt_ild_decode (raw : list N) (size : nat) (m : exec_mode)
  : nat * res (iclass * insn_ext) :=
  match decode (ild_init raw size m) with
  | Ok (i, n) => (n, pt_instruction_decode i)
  | Err e => (size, Err e)
  | UB u => (size, UB u)
  end.
