(** What an instruction text is, independently of the decoder.

    The encoding rules of Intel's Software Developer's Manual, volume 2,
    chapter 2 (instruction format) and appendix A (opcode maps): an instruction
    is a sequence of prefix bytes, an optional REX2, VEX or EVEX prefix, an
    opcode in an opcode map, and then, as the opcode asks for, a ModRM byte, a
    SIB byte, a displacement and an immediate.

    Opcodes that the manual leaves undefined have no operands here unless their
    map says otherwise. *)

From Coq Require Import List NArith ZArith Bool.
From Verif Require Import Base M_event M_ild.
Import ListNotations.
Open Scope N_scope.

Definition is64 (m : exec_mode) : bool :=
  match m with ptem_64bit => true | _ => false end.
Definition is32 (m : exec_mode) : bool :=
  match m with ptem_32bit => true | _ => false end.
Definition is16 (m : exec_mode) : bool :=
  match m with ptem_16bit => true | _ => false end.

Definition one_of (l : list N) (b : N) : bool := existsb (N.eqb b) l.
Definition within (lo hi b : N) : bool := (lo <=? b) && (b <=? hi).

(** Segment override, operand size, address size, lock and repeat prefixes. *)
Definition legacy_prefix (b : N) : bool :=
  one_of [0x26; 0x2e; 0x36; 0x3e; 0x64; 0x65; 0x66; 0x67; 0xf0; 0xf2; 0xf3] b.
Definition rex_prefix (b : N) : bool := within 0x40 0x4f b.

Definition prefix_byte (m : exec_mode) (b : N) : bool :=
  legacy_prefix b || (is64 m && rex_prefix b).

(** How the opcode is introduced. *)
Inductive enc :=
| Legacy
| Rex2 (p : N)
| Vex2 (p : N)
| Vex3 (p1 p2 : N)
| Evex (p1 p2 p3 : N).

Record x86 := mk_x86 {
  x_pfx : list N;
  x_enc : enc;
  x_map : nat;
  x_opc : N;
  x_modrm : list N;
  x_sib : list N;
  x_dsp : list N;
  x_imm : list N }.

Definition enc_bytes (e : enc) : list N :=
  match e with
  | Legacy => []
  | Rex2 p => [0xd5; p]
  | Vex2 p => [0xc5; p]
  | Vex3 p1 p2 => [0xc4; p1; p2]
  | Evex p1 p2 p3 => [0x62; p1; p2; p3]
  end.

Definition escape (e : enc) (map : nat) : list N :=
  match e with
  | Legacy =>
      match map with
      | 1%nat => [0x0f]
      | 2%nat => [0x0f; 0x38]
      | 3%nat => [0x0f; 0x3a]
      | _ => []
      end
  | _ => []
  end.

Definition render (x : x86) : list N :=
  x_pfx x ++ enc_bytes (x_enc x) ++ escape (x_enc x) (x_map x) ++ [x_opc x]
    ++ x_modrm x ++ x_sib x ++ x_dsp x ++ x_imm x.

(** The implied prefix of VEX and EVEX: 1 is 66, 2 is F3, 3 is F2. *)
Definition implied (e : enc) : N :=
  match e with
  | Legacy | Rex2 _ => 0
  | Vex2 p => p mod 4
  | Vex3 _ p2 => p2 mod 4
  | Evex _ p2 _ => p2 mod 4
  end.

(** A REX prefix counts only directly before the opcode. *)
Definition rex_of (m : exec_mode) (pfx : list N) : N :=
  let b := last pfx 0 in
  if is64 m && rex_prefix b then b else 0.

Definition rex_w (m : exec_mode) (x : x86) : bool :=
  match x_enc x with
  | Legacy => N.testbit (rex_of m (x_pfx x)) 3
  | Rex2 p => N.testbit p 3
  | Vex2 _ => false
  | Vex3 _ p2 => N.testbit p2 7
  | Evex _ p2 _ => N.testbit p2 7
  end.

(** Whether the register number in ModRM.reg is extended. *)
Definition rex_r (m : exec_mode) (x : x86) : bool :=
  match x_enc x with
  | Legacy => N.testbit (rex_of m (x_pfx x)) 2
  | Rex2 p => N.testbit p 2 || N.testbit p 6
  | _ => false
  end.

Definition opsize_prefix (x : x86) : bool :=
  one_of (x_pfx x) 0x66 || (implied (x_enc x) =? 1).
Definition addrsize_prefix (x : x86) : bool := one_of (x_pfx x) 0x67.
Definition f3_prefix (x : x86) : bool :=
  one_of (x_pfx x) 0xf3 || (implied (x_enc x) =? 2).

(** The last of F2 and F3. *)
Fixpoint last_rep (pfx : list N) (r : option N) : option N :=
  match pfx with
  | [] => r
  | b :: l => last_rep l (if one_of [0xf2; 0xf3] b then Some b else r)
  end.

Definition rep_prefix (x : x86) : option N :=
  match implied (x_enc x) with
  | 2 => Some 0xf3
  | 3 => Some 0xf2
  | _ => last_rep (x_pfx x) None
  end.

(** The attributes that determine the operands of an opcode. *)
Inductive kind := Klegacy | Kvex | Kevex.

Definition kind_of (e : enc) : kind :=
  match e with
  | Legacy | Rex2 _ => Klegacy
  | Vex2 _ | Vex3 _ _ => Kvex
  | Evex _ _ _ => Kevex
  end.

Record form := mk_form {
  f_mode : exec_mode;
  f_kind : kind;
  f_map : nat;
  f_opc : N;
  f_osz : bool;
  f_asz : bool;
  f_f2 : bool;   (* the last repeat prefix is F2 *)
  f_w : bool }.

Definition form_of (m : exec_mode) (x : x86) : form :=
  mk_form m (kind_of (x_enc x)) (x_map x) (x_opc x) (opsize_prefix x)
    (addrsize_prefix x)
    (match rep_prefix x with Some b => b =? 0xf2 | None => false end)
    (rex_w m x).

(** Operand-size dependent widths: z is 2 or 4 bytes, v is 2, 4 or 8. *)
Definition opsize16 (f : form) : bool :=
  match f_mode f with
  | ptem_64bit => f_osz f && negb (f_w f)
  | ptem_32bit => f_osz f
  | _ => negb (f_osz f)
  end.
Definition width_z (f : form) : nat := if opsize16 f then 2 else 4.
Definition width_v (f : form) : nat :=
  if is64 (f_mode f) && f_w f then 8 else width_z f.

(** Near branches have a 32-bit displacement in 64-bit mode. *)
Definition width_branch (f : form) : nat :=
  if is64 (f_mode f) then 4 else width_z f.

(** Address size in bytes. *)
Definition addrsize (f : form) : nat :=
  match f_mode f with
  | ptem_64bit => if f_asz f then 4 else 8
  | ptem_32bit => if f_asz f then 2 else 4
  | _ => if f_asz f then 4 else 2
  end.

(** ModRM. *)
Inductive modrm_use := No_modrm | Reg_only | Full_modrm.

Definition map0_modrm (op : N) : bool :=
  ((op <? 0x40) && (op mod 8 <? 4) )
  || one_of [0x62; 0x63; 0x69; 0x6b] op || within 0x80 0x8f op
  || one_of [0xc0; 0xc1] op || within 0xc4 0xc7 op || within 0xd0 0xd3 op
  || within 0xd8 0xdf op || one_of [0xf6; 0xf7; 0xfe; 0xff] op.

Definition map1_no_modrm (op : N) : bool :=
  within 0x04 0x0c op || within 0x0e 0x0f op || within 0x24 0x27 op
  || within 0x30 0x3f op || one_of [0x77; 0x7a; 0x7b] op
  || within 0x80 0x8f op || within 0xa0 0xa2 op || within 0xa8 0xaa op
  || within 0xc8 0xcf op.

(** Moves to and from control and debug registers ignore ModRM.mod. *)
Definition map1_reg_only (op : N) : bool :=
  within 0x20 0x23 op || within 0xa6 0xa7 op.

Definition modrm_of (f : form) : modrm_use :=
  match f_kind f, f_map f with
  | Klegacy, 0%nat => if map0_modrm (f_opc f) then Full_modrm else No_modrm
  | (Klegacy | Kvex), 1%nat =>
      if map1_no_modrm (f_opc f) then No_modrm
      else if map1_reg_only (f_opc f) then Reg_only else Full_modrm
  | Kvex, (4 | 5 | 6)%nat => No_modrm
  | _, _ => Full_modrm
  end.

Definition m_mod (b : N) : N := b / 64.
Definition m_reg (b : N) : N := (b / 8) mod 8.
Definition m_rm (b : N) : N := b mod 8.

Definition modrm_size (f : form) : nat :=
  match modrm_of f with No_modrm => 0 | _ => 1 end.

(** SIB: 32- and 64-bit memory operands with r/m = 4. *)
Definition sib_size (f : form) (mb : N) : nat :=
  match modrm_of f with
  | Full_modrm =>
      if negb (addrsize f =? 2)%nat && negb (m_mod mb =? 3) && (m_rm mb =? 4)
      then 1 else 0
  | _ => 0
  end.

(** Displacement of the memory operand. *)
Definition mem_disp (f : form) (mb sb : N) : nat :=
  match modrm_of f with
  | Full_modrm =>
      if m_mod mb =? 1 then 1
      else if m_mod mb =? 2 then (if (addrsize f =? 2)%nat then 2 else 4)
      else if m_mod mb =? 0 then
        if (addrsize f =? 2)%nat then (if m_rm mb =? 6 then 2 else 0)
        else if (m_rm mb =? 5) || ((m_rm mb =? 4) && (sb mod 8 =? 5))
             then 4 else 0
      else 0
  | _ => 0
  end.

(** Displacement of the opcode: near branches, far pointers, memory offsets,
    and XBEGIN (C7 /7). *)
Definition opc_disp (f : form) (mb : N) : nat :=
  match f_kind f, f_map f with
  | Klegacy, 0%nat =>
      let op := f_opc f in
      if within 0x70 0x7f op || within 0xe0 0xe3 op || (op =? 0xeb) then 1
      else if one_of [0xe8; 0xe9] op then width_branch f
      else if one_of [0x9a; 0xea] op then width_z f
      else if within 0xa0 0xa3 op then addrsize f
      else if (op =? 0xc7) && (m_reg mb =? 7) then width_z f
      else 0
  | Klegacy, 1%nat =>
      if within 0x80 0x8f (f_opc f) then width_branch f else 0
  | _, _ => 0
  end.

Definition disp_size (f : form) (mb sb : N) : nat :=
  let n := mem_disp f mb sb in
  if (n =? 0)%nat then opc_disp f mb else n.

(** Immediates. *)
Definition map1_imm8 (op : N) : bool :=
  within 0x70 0x73 op || (op =? 0xc2) || within 0xc4 0xc6 op.

Definition imm_size (f : form) (mb : N) : nat :=
  let op := f_opc f in
  match f_kind f, f_map f with
  | Klegacy, 0%nat =>
      if (op <? 0x40) && (op mod 8 =? 4) then 1
      else if (op <? 0x40) && (op mod 8 =? 5) then width_z f
      else if one_of [0x68; 0x69; 0x81; 0xa9] op then width_z f
      else if one_of [0x6a; 0x6b; 0x80; 0x82; 0x83; 0xa8; 0xc0; 0xc1; 0xc6;
                      0xcd; 0xd4; 0xd5; 0xe4; 0xe5; 0xe6; 0xe7] op then 1
      else if within 0xb0 0xb7 op then 1
      else if within 0xb8 0xbf op then width_v f
      else if one_of [0x9a; 0xc2; 0xca; 0xea] op then 2
      else if (op =? 0xc7) && (m_reg mb =? 0) then width_z f
      else if op =? 0xc8 then 3
      else if (op =? 0xf6) && (m_reg mb <? 2) then 1
      else if (op =? 0xf7) && (m_reg mb <? 2) then width_z f
      else 0
  | Klegacy, 1%nat =>
      if map1_imm8 op || one_of [0xa4; 0xac; 0xba] op then 1
      else if (op =? 0x78) && (f_osz f || f_f2 f) then 2
      else 0
  | _, 1%nat => if map1_imm8 op then 1 else 0
  | _, 3%nat => 1
  | Kevex, 4%nat =>
      if one_of [0x24; 0x2c; 0x6b; 0x80; 0x83; 0xc0; 0xc1; 0xd4] op then 1
      else if one_of [0x69; 0x81] op then width_z f
      else if (op =? 0xf6) && (m_reg mb <? 2) then 1
      else if (op =? 0xf7) && (m_reg mb <? 2) then width_z f
      else 0
  | (Kvex | Kevex), 7%nat => 4
  | _, _ => 0
  end.

(** Which opcodes an encoding introduces. *)
Definition enc_ok (m : exec_mode) (x : x86) : Prop :=
  match x_enc x with
  | Legacy =>
      (x_map x <= 3)%nat
      /\ (x_map x = 0%nat ->
          prefix_byte m (x_opc x) = false /\ x_opc x <> 0x0f
          /\ (one_of [0x62; 0xc4; 0xc5] (x_opc x) = true ->
              is64 m = false /\ m_mod (hd 0 (x_modrm x)) <> 3)
          /\ (x_opc x = 0xd5 -> is64 m = false))
      /\ (x_map x = 1%nat -> within 0x38 0x3f (x_opc x) = false)
  | Rex2 p => is64 m = true /\ x_map x = N.to_nat (p / 128)
  | Vex2 p => x_map x = 1%nat /\ (is64 m = false -> m_mod p = 3)
  | Vex3 p1 _ =>
      x_map x = N.to_nat (p1 mod 32) /\ (1 <= x_map x <= 7)%nat
      /\ (is64 m = false -> m_mod p1 = 3)
  | Evex p1 _ _ =>
      x_map x = N.to_nat (p1 mod 8) /\ (1 <= x_map x)%nat
      /\ (is64 m = false -> m_mod p1 = 3)
  end.

(** Instruction texts of execution mode [m]. *)
Definition x86_wf (m : exec_mode) (x : x86) : Prop :=
  let f := form_of m x in
  let mb := hd 0 (x_modrm x) in
  Forall (fun b => prefix_byte m b = true) (x_pfx x)
  /\ enc_ok m x
  /\ length (x_modrm x) = modrm_size f
  /\ length (x_sib x) = sib_size f mb
  /\ length (x_dsp x) = disp_size f mb (hd 0 (x_sib x))
  /\ length (x_imm x) = imm_size f mb
  /\ bytes_ok (render x).

(** The signed value of a little-endian two's complement number. *)
Fixpoint signed_le (l : list N) : Z :=
  match l with
  | [] => 0
  | [b] => if b <? 128 then Z.of_N b else (Z.of_N b - 256)%Z
  | b :: l => (Z.of_N b + 256 * signed_le l)%Z
  end.

(** The control flow instructions and the few others that matter for Intel PT:
    class, identity, and whether the target is the displacement. *)
Definition class : Type := iclass * inst * bool.

Definition other : class := (ptic_other, PTI_INVALID, false).

Fixpoint pick (op : N) (l : list (N * class)) : class :=
  match l with
  | [] => other
  | (k, c) :: l => if op =? k then c else pick op l
  end.

(** One-byte opcodes in any mode. *)
Definition one_byte : list (N * class) :=
  [ (0xc2, (ptic_return, PTI_RET_C2, false));
    (0xc3, (ptic_return, PTI_RET_C3, false));
    (0xca, (ptic_far_return, PTI_RET_CA, false));
    (0xcb, (ptic_far_return, PTI_RET_CB, false));
    (0xcc, (ptic_far_call, PTI_INT3, false));
    (0xcd, (ptic_far_call, PTI_INT, false));
    (0xcf, (ptic_far_return, PTI_IRET, false));
    (0xf1, (ptic_far_call, PTI_INT1, false)) ].

(** One-byte opcodes that REX2 does not introduce. *)
Definition one_byte_near : list (N * class) :=
  [ (0xe0, (ptic_cond_jump, PTI_LOOPNE, true));
    (0xe1, (ptic_cond_jump, PTI_LOOPE, true));
    (0xe2, (ptic_cond_jump, PTI_LOOP, true));
    (0xe3, (ptic_cond_jump, PTI_JrCXZ, true));
    (0xe8, (ptic_call, PTI_CALL_E8, true));
    (0xe9, (ptic_jump, PTI_JMP_E9, true));
    (0xeb, (ptic_jump, PTI_JMP_EB, true)) ].

(** One-byte opcodes that 64-bit mode does not have. *)
Definition one_byte_far : list (N * class) :=
  [ (0x9a, (ptic_far_call, PTI_CALL_9A, false));
    (0xce, (ptic_far_call, PTI_INTO, false));
    (0xea, (ptic_far_jump, PTI_JMP_EA, false)) ].

(** FF /reg. *)
Definition group5 : list (N * class) :=
  [ (2, (ptic_call, PTI_CALL_FFr2, false));
    (3, (ptic_far_call, PTI_CALL_FFr3, false));
    (4, (ptic_jump, PTI_JMP_FFr4, false));
    (5, (ptic_far_jump, PTI_JMP_FFr5, false)) ].

(** 0F opcodes. *)
Definition two_byte : list (N * class) :=
  [ (0x05, (ptic_far_call, PTI_SYSCALL, false));
    (0x07, (ptic_far_return, PTI_SYSRET, false)) ].
Definition two_byte_legacy : list (N * class) :=
  [ (0x34, (ptic_far_call, PTI_SYSENTER, false));
    (0x35, (ptic_far_return, PTI_SYSEXIT, false)) ].

(** 0F 01 with this ModRM byte. *)
Definition group7 : list (N * class) :=
  [ (0xc1, (ptic_far_call, PTI_VMCALL, false));
    (0xc2, (ptic_far_return, PTI_VMLAUNCH, false));
    (0xc3, (ptic_far_return, PTI_VMRESUME, false));
    (0xec, (ptic_far_return, PTI_UIRET, false)) ].

(** 0F 01 CA with a repeat prefix. *)
Definition eret : list (N * class) :=
  [ (0xf2, (ptic_far_return, PTI_ERETS, false));
    (0xf3, (ptic_far_return, PTI_ERETU, false)) ].

Definition is_rex2 (x : x86) : bool :=
  match x_enc x with Rex2 _ => true | _ => false end.

Definition classify (m : exec_mode) (x : x86) : class :=
  let mb := hd 0 (x_modrm x) in
  let op := x_opc x in
  match kind_of (x_enc x), x_map x with
  | Klegacy, 0%nat =>
      if op =? 0xff then pick (m_reg mb) group5
      else if negb (is_rex2 x) && within 0x70 0x7f op
      then (ptic_cond_jump, PTI_JCC, true)
      else if is_rex2 x && (op =? 0xa1) then
        if negb (rex_w m x) && negb (addrsize_prefix x)
           && negb (opsize_prefix x)
        then (ptic_jump, PTI_JMPABS, true) else other
      else
        pick op (one_byte ++ (if is_rex2 x then [] else one_byte_near)
                   ++ (if is64 m then [] else one_byte_far))
  | Klegacy, 1%nat =>
      if negb (is_rex2 x) && within 0x80 0x8f op
      then (ptic_cond_jump, PTI_JCC, true)
      else if op =? 0x01 then
        if mb =? 0xca then
          match rep_prefix x with Some b => pick b eret | None => other end
        else pick mb group7
      else if op =? 0x22 then
        if (m_reg mb =? 3) && negb (rex_r m x)
        then (ptic_other, PTI_MOV_CR3, false) else other
      else if op =? 0xc7 then
        if (m_reg mb =? 6) && negb (m_mod mb =? 3)
        then (ptic_other, PTI_VMPTRLD, false) else other
      else if op =? 0xae then
        if (m_reg mb =? 4) && f3_prefix x && negb (opsize_prefix x)
        then (ptic_ptwrite, PTI_PTWRITE, false) else other
      else pick op (two_byte ++ (if is_rex2 x then [] else two_byte_legacy))
  | _, _ => other
  end.

(** What the decoder must report about an instruction text. *)
Definition meaning (m : exec_mode) (x : x86) : iclass * insn_ext :=
  let '(c, k, direct) := classify m x in
  (c, mk_iext k (if direct then signed_le (x_dsp x) else 0%Z) direct).
