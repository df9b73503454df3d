(** The tables of the instruction length decoder, transcribed entry by entry
    from /repo/libipt/internal/include/pti-disp.h, pti-imm.h, pti-modrm.h,
    pti-disp_default.h, pti-sib.h and from prefix_table in
    /repo/libipt/src/pt_ild.c. *)

From Coq Require Import List NArith.
From Verif Require Import Base.
Import ListNotations.
Open Scope N_scope.

(** enum pti_disp, pti-disp.h:33-41. *)
Inductive pti_disp :=
| Dnone  (* PTI_DISP_NONE *)
| Dpres  (* PTI_PRESERVE_DEFAULT *)
| Dbr8   (* PTI_BRDISP8 *)
| Dbk0   (* PTI_DISP_BUCKET_0_l1 *)
| Dmemv  (* PTI_MEMDISPv_DISP_WIDTH_ASZ_NONTERM_EASZ_l2 *)
| Dbrz   (* PTI_BRDISPz_BRDISP_WIDTH_OSZ_NONTERM_EOSZ_l2 *)
| Dc7.   (* PTI_RESOLVE_BYREG_DISP_map0x0_op0xc7_l1 *)

(** enum pti_imm, pti-imm.h:33-48. *)
Inductive pti_imm :=
| I0    (* PTI_0_IMM_WIDTH_CONST_l2 *)
| Iu8   (* PTI_UIMM8_IMM_WIDTH_CONST_l2 *)
| Is8   (* PTI_SIMM8_IMM_WIDTH_CONST_l2 *)
| Isz   (* PTI_SIMMz_IMM_WIDTH_OSZ_NONTERM_EOSZ_l2 *)
| Iuv   (* PTI_UIMMv_IMM_WIDTH_OSZ_NONTERM_EOSZ_l2 *)
| Iu16  (* PTI_UIMM16_IMM_WIDTH_CONST_l2 *)
| If7   (* PTI_RESOLVE_BYREG_IMM_WIDTH_maplegacy_map0_op0xf7_l1 *)
| Ic7   (* PTI_RESOLVE_BYREG_IMM_WIDTH_maplegacy_map0_op0xc7_l1 *)
| Isz64 (* PTI_SIMMz_IMM_WIDTH_OSZ_NONTERM_DF64_EOSZ_l2 *)
| If6   (* PTI_RESOLVE_BYREG_IMM_WIDTH_maplegacy_map0_op0xf6_l1 *)
| Ic8   (* PTI_IMM_hasimm_map0x0_op0xc8_l1 *)
| I78   (* PTI_IMM_hasimm_map0x0F_op0x78_l1 *)
| Ie6   (* PTI_RESOLVE_BYREG_IMM_WIDTH_mapevex_map4_op0xf6_l1 *)
| Ie7.  (* PTI_RESOLVE_BYREG_IMM_WIDTH_mapevex_map4_op0xf7_l1 *)

(** enum pti_modrm, pti-modrm.h:33-38. *)
Inductive pti_modrm :=
| Mno    (* PTI_MODRM_FALSE *)
| Myes   (* PTI_MODRM_TRUE *)
| Mign   (* PTI_MODRM_IGNORE_MOD *)
| Mund.  (* PTI_MODRM_UNDEF *)

(** The functions in prefix_table, pt_ild.c:532-543. *)
Inductive prefix_fn :=
| Pdone | Posz | Pasz | Plock | Pf2 | Pf3 | Pign | Prex | Pc4 | Pc5 | Pevex
| Prex2.

(** pti-disp.h:43-300. *)
Definition disp_bytes_map_0x0 : list pti_disp :=
  [Dpres; Dpres; Dpres; Dpres; Dpres; Dpres; Dpres; Dpres;
   Dpres; Dpres; Dpres; Dpres; Dpres; Dpres; Dpres; Dnone;
   Dpres; Dpres; Dpres; Dpres; Dpres; Dpres; Dpres; Dpres;
   Dpres; Dpres; Dpres; Dpres; Dpres; Dpres; Dpres; Dpres;
   Dpres; Dpres; Dpres; Dpres; Dpres; Dpres; Dnone; Dpres;
   Dpres; Dpres; Dpres; Dpres; Dpres; Dpres; Dnone; Dpres;
   Dpres; Dpres; Dpres; Dpres; Dpres; Dpres; Dnone; Dpres;
   Dpres; Dpres; Dpres; Dpres; Dpres; Dpres; Dnone; Dpres;
   Dpres; Dpres; Dpres; Dpres; Dpres; Dpres; Dpres; Dpres;
   Dpres; Dpres; Dpres; Dpres; Dpres; Dpres; Dpres; Dpres;
   Dpres; Dpres; Dpres; Dpres; Dpres; Dpres; Dpres; Dpres;
   Dpres; Dpres; Dpres; Dpres; Dpres; Dpres; Dpres; Dpres;
   Dpres; Dpres; Dpres; Dpres; Dnone; Dnone; Dnone; Dnone;
   Dpres; Dpres; Dpres; Dpres; Dpres; Dpres; Dpres; Dpres;
   Dbr8; Dbr8; Dbr8; Dbr8; Dbr8; Dbr8; Dbr8; Dbr8;
   Dbr8; Dbr8; Dbr8; Dbr8; Dbr8; Dbr8; Dbr8; Dbr8;
   Dpres; Dpres; Dpres; Dpres; Dpres; Dpres; Dpres; Dpres;
   Dpres; Dpres; Dpres; Dpres; Dpres; Dpres; Dpres; Dpres;
   Dpres; Dpres; Dpres; Dpres; Dpres; Dpres; Dpres; Dpres;
   Dpres; Dpres; Dbrz; Dpres; Dpres; Dpres; Dpres; Dpres;
   Dmemv; Dmemv; Dmemv; Dmemv; Dpres; Dpres; Dpres; Dpres;
   Dpres; Dpres; Dpres; Dpres; Dpres; Dpres; Dpres; Dpres;
   Dpres; Dpres; Dpres; Dpres; Dpres; Dpres; Dpres; Dpres;
   Dpres; Dpres; Dpres; Dpres; Dpres; Dpres; Dpres; Dpres;
   Dpres; Dpres; Dpres; Dpres; Dpres; Dpres; Dpres; Dc7;
   Dpres; Dpres; Dpres; Dpres; Dpres; Dpres; Dpres; Dpres;
   Dpres; Dpres; Dpres; Dpres; Dpres; Dpres; Dpres; Dpres;
   Dpres; Dpres; Dpres; Dpres; Dpres; Dpres; Dpres; Dpres;
   Dbr8; Dbr8; Dbr8; Dbr8; Dpres; Dpres; Dpres; Dpres;
   Dbk0; Dbk0; Dbrz; Dbr8; Dpres; Dpres; Dpres; Dpres;
   Dnone; Dpres; Dnone; Dnone; Dpres; Dpres; Dpres; Dpres;
   Dpres; Dpres; Dpres; Dpres; Dpres; Dpres; Dpres; Dpres].

(** pti-disp.h:301-558. *)
Definition disp_bytes_map_0x0F : list pti_disp :=
  [Dpres; Dpres; Dpres; Dpres; Dnone; Dpres; Dpres; Dpres;
   Dpres; Dpres; Dnone; Dpres; Dnone; Dpres; Dpres; Dnone;
   Dpres; Dpres; Dpres; Dpres; Dpres; Dpres; Dpres; Dpres;
   Dpres; Dpres; Dpres; Dpres; Dpres; Dpres; Dpres; Dpres;
   Dpres; Dpres; Dpres; Dpres; Dnone; Dnone; Dnone; Dnone;
   Dpres; Dpres; Dpres; Dpres; Dpres; Dpres; Dpres; Dpres;
   Dpres; Dpres; Dpres; Dpres; Dpres; Dpres; Dnone; Dpres;
   Dnone; Dnone; Dnone; Dnone; Dnone; Dnone; Dnone; Dnone;
   Dpres; Dpres; Dpres; Dpres; Dpres; Dpres; Dpres; Dpres;
   Dpres; Dpres; Dpres; Dpres; Dpres; Dpres; Dpres; Dpres;
   Dpres; Dpres; Dpres; Dpres; Dpres; Dpres; Dpres; Dpres;
   Dpres; Dpres; Dpres; Dpres; Dpres; Dpres; Dpres; Dpres;
   Dpres; Dpres; Dpres; Dpres; Dpres; Dpres; Dpres; Dpres;
   Dpres; Dpres; Dpres; Dpres; Dpres; Dpres; Dpres; Dpres;
   Dpres; Dpres; Dpres; Dpres; Dpres; Dpres; Dpres; Dpres;
   Dpres; Dpres; Dpres; Dpres; Dpres; Dpres; Dpres; Dpres;
   Dbk0; Dbk0; Dbk0; Dbk0; Dbk0; Dbk0; Dbk0; Dbk0;
   Dbk0; Dbk0; Dbk0; Dbk0; Dbk0; Dbk0; Dbk0; Dbk0;
   Dpres; Dpres; Dpres; Dpres; Dpres; Dpres; Dpres; Dpres;
   Dpres; Dpres; Dpres; Dpres; Dpres; Dpres; Dpres; Dpres;
   Dpres; Dpres; Dpres; Dpres; Dpres; Dpres; Dnone; Dnone;
   Dpres; Dpres; Dpres; Dpres; Dpres; Dpres; Dpres; Dpres;
   Dpres; Dpres; Dpres; Dpres; Dpres; Dpres; Dpres; Dpres;
   Dpres; Dnone; Dpres; Dpres; Dpres; Dpres; Dpres; Dpres;
   Dpres; Dpres; Dpres; Dpres; Dpres; Dpres; Dpres; Dpres;
   Dpres; Dpres; Dpres; Dpres; Dpres; Dpres; Dpres; Dpres;
   Dpres; Dpres; Dpres; Dpres; Dpres; Dpres; Dpres; Dpres;
   Dpres; Dpres; Dpres; Dpres; Dpres; Dpres; Dpres; Dpres;
   Dpres; Dpres; Dpres; Dpres; Dpres; Dpres; Dpres; Dpres;
   Dpres; Dpres; Dpres; Dpres; Dpres; Dpres; Dpres; Dpres;
   Dpres; Dpres; Dpres; Dpres; Dpres; Dpres; Dpres; Dpres;
   Dpres; Dpres; Dpres; Dpres; Dpres; Dpres; Dpres; Dnone].

(** pti-imm.h:50-307. *)
Definition imm_bytes_legacy_map_0 : list pti_imm :=
  [I0; I0; I0; I0; Is8; Isz; I0; I0;
   I0; I0; I0; I0; Iu8; Isz; I0; I0;
   I0; I0; I0; I0; Is8; Isz; I0; I0;
   I0; I0; I0; I0; Is8; Isz; I0; I0;
   I0; I0; I0; I0; Is8; Isz; I0; I0;
   I0; I0; I0; I0; Is8; Isz; I0; I0;
   I0; I0; I0; I0; Iu8; Isz; I0; I0;
   I0; I0; I0; I0; Is8; Isz; I0; I0;
   I0; I0; I0; I0; I0; I0; I0; I0;
   I0; I0; I0; I0; I0; I0; I0; I0;
   I0; I0; I0; I0; I0; I0; I0; I0;
   I0; I0; I0; I0; I0; I0; I0; I0;
   I0; I0; I0; I0; I0; I0; I0; I0;
   Isz64; Isz; Is8; Is8; I0; I0; I0; I0;
   I0; I0; I0; I0; I0; I0; I0; I0;
   I0; I0; I0; I0; I0; I0; I0; I0;
   Is8; Isz; Is8; Is8; I0; I0; I0; I0;
   I0; I0; I0; I0; I0; I0; I0; I0;
   I0; I0; I0; I0; I0; I0; I0; I0;
   I0; I0; Iu16; I0; I0; I0; I0; I0;
   I0; I0; I0; I0; I0; I0; I0; I0;
   Is8; Isz; I0; I0; I0; I0; I0; I0;
   Iu8; Iu8; Iu8; Iu8; Iu8; Iu8; Iu8; Iu8;
   Iuv; Iuv; Iuv; Iuv; Iuv; Iuv; Iuv; Iuv;
   Iu8; Iu8; Iu16; I0; I0; I0; Iu8; Ic7;
   Ic8; I0; Iu16; I0; I0; Iu8; I0; I0;
   I0; I0; I0; I0; Iu8; Iu8; I0; I0;
   I0; I0; I0; I0; I0; I0; I0; I0;
   I0; I0; I0; I0; Iu8; Iu8; Iu8; Iu8;
   I0; I0; Iu16; I0; I0; I0; I0; I0;
   I0; I0; I0; I0; I0; I0; If6; If7;
   I0; I0; I0; I0; I0; I0; I0; I0].

(** pti-imm.h:309-566. *)
Definition imm_bytes_legacy_map_1 : list pti_imm :=
  [I0; I0; I0; I0; I0; I0; I0; I0;
   I0; I0; I0; I0; I0; I0; I0; I0;
   I0; I0; I0; I0; I0; I0; I0; I0;
   I0; I0; I0; I0; I0; I0; I0; I0;
   I0; I0; I0; I0; I0; I0; I0; I0;
   I0; I0; I0; I0; I0; I0; I0; I0;
   I0; I0; I0; I0; I0; I0; I0; I0;
   I0; I0; I0; I0; I0; I0; I0; I0;
   I0; I0; I0; I0; I0; I0; I0; I0;
   I0; I0; I0; I0; I0; I0; I0; I0;
   I0; I0; I0; I0; I0; I0; I0; I0;
   I0; I0; I0; I0; I0; I0; I0; I0;
   I0; I0; I0; I0; I0; I0; I0; I0;
   I0; I0; I0; I0; I0; I0; I0; I0;
   Iu8; Iu8; Iu8; Iu8; I0; I0; I0; I0;
   I78; I0; I0; I0; I0; I0; I0; I0;
   I0; I0; I0; I0; I0; I0; I0; I0;
   I0; I0; I0; I0; I0; I0; I0; I0;
   I0; I0; I0; I0; I0; I0; I0; I0;
   I0; I0; I0; I0; I0; I0; I0; I0;
   I0; I0; I0; I0; Iu8; I0; I0; I0;
   I0; I0; I0; I0; Iu8; I0; I0; I0;
   I0; I0; I0; I0; I0; I0; I0; I0;
   I0; I0; Iu8; I0; I0; I0; I0; I0;
   I0; I0; Iu8; I0; Iu8; Iu8; Iu8; I0;
   I0; I0; I0; I0; I0; I0; I0; I0;
   I0; I0; I0; I0; I0; I0; I0; I0;
   I0; I0; I0; I0; I0; I0; I0; I0;
   I0; I0; I0; I0; I0; I0; I0; I0;
   I0; I0; I0; I0; I0; I0; I0; I0;
   I0; I0; I0; I0; I0; I0; I0; I0;
   I0; I0; I0; I0; I0; I0; I0; I0].

(** pti-imm.h:568-825. *)
Definition imm_bytes_vex_map_1 : list pti_imm :=
  [I0; I0; I0; I0; I0; I0; I0; I0;
   I0; I0; I0; I0; I0; I0; I0; I0;
   I0; I0; I0; I0; I0; I0; I0; I0;
   I0; I0; I0; I0; I0; I0; I0; I0;
   I0; I0; I0; I0; I0; I0; I0; I0;
   I0; I0; I0; I0; I0; I0; I0; I0;
   I0; I0; I0; I0; I0; I0; I0; I0;
   I0; I0; I0; I0; I0; I0; I0; I0;
   I0; I0; I0; I0; I0; I0; I0; I0;
   I0; I0; I0; I0; I0; I0; I0; I0;
   I0; I0; I0; I0; I0; I0; I0; I0;
   I0; I0; I0; I0; I0; I0; I0; I0;
   I0; I0; I0; I0; I0; I0; I0; I0;
   I0; I0; I0; I0; I0; I0; I0; I0;
   Iu8; Iu8; Iu8; Iu8; I0; I0; I0; I0;
   I0; I0; I0; I0; I0; I0; I0; I0;
   I0; I0; I0; I0; I0; I0; I0; I0;
   I0; I0; I0; I0; I0; I0; I0; I0;
   I0; I0; I0; I0; I0; I0; I0; I0;
   I0; I0; I0; I0; I0; I0; I0; I0;
   I0; I0; I0; I0; I0; I0; I0; I0;
   I0; I0; I0; I0; I0; I0; I0; I0;
   I0; I0; I0; I0; I0; I0; I0; I0;
   I0; I0; I0; I0; I0; I0; I0; I0;
   I0; I0; Iu8; I0; Iu8; Iu8; Iu8; I0;
   I0; I0; I0; I0; I0; I0; I0; I0;
   I0; I0; I0; I0; I0; I0; I0; I0;
   I0; I0; I0; I0; I0; I0; I0; I0;
   I0; I0; I0; I0; I0; I0; I0; I0;
   I0; I0; I0; I0; I0; I0; I0; I0;
   I0; I0; I0; I0; I0; I0; I0; I0;
   I0; I0; I0; I0; I0; I0; I0; I0].

(** pti-imm.h:827-1084. *)
Definition imm_bytes_evex_map_1 : list pti_imm :=
  [I0; I0; I0; I0; I0; I0; I0; I0;
   I0; I0; I0; I0; I0; I0; I0; I0;
   I0; I0; I0; I0; I0; I0; I0; I0;
   I0; I0; I0; I0; I0; I0; I0; I0;
   I0; I0; I0; I0; I0; I0; I0; I0;
   I0; I0; I0; I0; I0; I0; I0; I0;
   I0; I0; I0; I0; I0; I0; I0; I0;
   I0; I0; I0; I0; I0; I0; I0; I0;
   I0; I0; I0; I0; I0; I0; I0; I0;
   I0; I0; I0; I0; I0; I0; I0; I0;
   I0; I0; I0; I0; I0; I0; I0; I0;
   I0; I0; I0; I0; I0; I0; I0; I0;
   I0; I0; I0; I0; I0; I0; I0; I0;
   I0; I0; I0; I0; I0; I0; I0; I0;
   Iu8; Iu8; Iu8; Iu8; I0; I0; I0; I0;
   I0; I0; I0; I0; I0; I0; I0; I0;
   I0; I0; I0; I0; I0; I0; I0; I0;
   I0; I0; I0; I0; I0; I0; I0; I0;
   I0; I0; I0; I0; I0; I0; I0; I0;
   I0; I0; I0; I0; I0; I0; I0; I0;
   I0; I0; I0; I0; I0; I0; I0; I0;
   I0; I0; I0; I0; I0; I0; I0; I0;
   I0; I0; I0; I0; I0; I0; I0; I0;
   I0; I0; I0; I0; I0; I0; I0; I0;
   I0; I0; Iu8; I0; Iu8; Iu8; Iu8; I0;
   I0; I0; I0; I0; I0; I0; I0; I0;
   I0; I0; I0; I0; I0; I0; I0; I0;
   I0; I0; I0; I0; I0; I0; I0; I0;
   I0; I0; I0; I0; I0; I0; I0; I0;
   I0; I0; I0; I0; I0; I0; I0; I0;
   I0; I0; I0; I0; I0; I0; I0; I0;
   I0; I0; I0; I0; I0; I0; I0; I0].

(** pti-imm.h:1086-1343. *)
Definition imm_bytes_evex_map_4 : list pti_imm :=
  [I0; I0; I0; I0; I0; I0; I0; I0;
   I0; I0; I0; I0; I0; I0; I0; I0;
   I0; I0; I0; I0; I0; I0; I0; I0;
   I0; I0; I0; I0; I0; I0; I0; I0;
   I0; I0; I0; I0; Iu8; I0; I0; I0;
   I0; I0; I0; I0; Iu8; I0; I0; I0;
   I0; I0; I0; I0; I0; I0; I0; I0;
   I0; I0; I0; I0; I0; I0; I0; I0;
   I0; I0; I0; I0; I0; I0; I0; I0;
   I0; I0; I0; I0; I0; I0; I0; I0;
   I0; I0; I0; I0; I0; I0; I0; I0;
   I0; I0; I0; I0; I0; I0; I0; I0;
   I0; I0; I0; I0; I0; I0; I0; I0;
   I0; Isz; I0; Is8; I0; I0; I0; I0;
   I0; I0; I0; I0; I0; I0; I0; I0;
   I0; I0; I0; I0; I0; I0; I0; I0;
   Is8; Isz; I0; Is8; I0; I0; I0; I0;
   I0; I0; I0; I0; I0; I0; I0; I0;
   I0; I0; I0; I0; I0; I0; I0; I0;
   I0; I0; I0; I0; I0; I0; I0; I0;
   I0; I0; I0; I0; I0; I0; I0; I0;
   I0; I0; I0; I0; I0; I0; I0; I0;
   I0; I0; I0; I0; I0; I0; I0; I0;
   I0; I0; I0; I0; I0; I0; I0; I0;
   Iu8; Iu8; I0; I0; I0; I0; I0; I0;
   I0; I0; I0; I0; I0; I0; I0; I0;
   I0; I0; I0; I0; Is8; I0; I0; I0;
   I0; I0; I0; I0; I0; I0; I0; I0;
   I0; I0; I0; I0; I0; I0; I0; I0;
   I0; I0; I0; I0; I0; I0; I0; I0;
   I0; I0; I0; I0; I0; I0; Ie6; Ie7;
   I0; I0; I0; I0; I0; I0; I0; I0].

(** pti-modrm.h:40-297. *)
Definition has_modrm_legacy_map_0 : list pti_modrm :=
  [Myes; Myes; Myes; Myes; Mno; Mno; Mno; Mno;
   Myes; Myes; Myes; Myes; Mno; Mno; Mno; Mund;
   Myes; Myes; Myes; Myes; Mno; Mno; Mno; Mno;
   Myes; Myes; Myes; Myes; Mno; Mno; Mno; Mno;
   Myes; Myes; Myes; Myes; Mno; Mno; Mund; Mno;
   Myes; Myes; Myes; Myes; Mno; Mno; Mund; Mno;
   Myes; Myes; Myes; Myes; Mno; Mno; Mund; Mno;
   Myes; Myes; Myes; Myes; Mno; Mno; Mund; Mno;
   Mno; Mno; Mno; Mno; Mno; Mno; Mno; Mno;
   Mno; Mno; Mno; Mno; Mno; Mno; Mno; Mno;
   Mno; Mno; Mno; Mno; Mno; Mno; Mno; Mno;
   Mno; Mno; Mno; Mno; Mno; Mno; Mno; Mno;
   Mno; Mno; Myes; Myes; Mund; Mund; Mund; Mund;
   Mno; Myes; Mno; Myes; Mno; Mno; Mno; Mno;
   Mno; Mno; Mno; Mno; Mno; Mno; Mno; Mno;
   Mno; Mno; Mno; Mno; Mno; Mno; Mno; Mno;
   Myes; Myes; Myes; Myes; Myes; Myes; Myes; Myes;
   Myes; Myes; Myes; Myes; Myes; Myes; Myes; Myes;
   Mno; Mno; Mno; Mno; Mno; Mno; Mno; Mno;
   Mno; Mno; Mno; Mno; Mno; Mno; Mno; Mno;
   Mno; Mno; Mno; Mno; Mno; Mno; Mno; Mno;
   Mno; Mno; Mno; Mno; Mno; Mno; Mno; Mno;
   Mno; Mno; Mno; Mno; Mno; Mno; Mno; Mno;
   Mno; Mno; Mno; Mno; Mno; Mno; Mno; Mno;
   Myes; Myes; Mno; Mno; Myes; Myes; Myes; Myes;
   Mno; Mno; Mno; Mno; Mno; Mno; Mno; Mno;
   Myes; Myes; Myes; Myes; Mno; Mno; Mno; Mno;
   Myes; Myes; Myes; Myes; Myes; Myes; Myes; Myes;
   Mno; Mno; Mno; Mno; Mno; Mno; Mno; Mno;
   Mno; Mno; Mno; Mno; Mno; Mno; Mno; Mno;
   Mund; Mno; Mund; Mund; Mno; Mno; Myes; Myes;
   Mno; Mno; Mno; Mno; Mno; Mno; Myes; Myes].

(** pti-modrm.h:299-556. *)
Definition has_modrm_legacy_map_1 : list pti_modrm :=
  [Myes; Myes; Myes; Myes; Mund; Mno; Mno; Mno;
   Mno; Mno; Mund; Mno; Mund; Myes; Mno; Mund;
   Myes; Myes; Myes; Myes; Myes; Myes; Myes; Myes;
   Myes; Myes; Myes; Myes; Myes; Myes; Myes; Myes;
   Mign; Mign; Mign; Mign; Mund; Mund; Mund; Mund;
   Myes; Myes; Myes; Myes; Myes; Myes; Myes; Myes;
   Mno; Mno; Mno; Mno; Mno; Mno; Mund; Mno;
   Mund; Mund; Mund; Mund; Mund; Mund; Mund; Mund;
   Myes; Myes; Myes; Myes; Myes; Myes; Myes; Myes;
   Myes; Myes; Myes; Myes; Myes; Myes; Myes; Myes;
   Myes; Myes; Myes; Myes; Myes; Myes; Myes; Myes;
   Myes; Myes; Myes; Myes; Myes; Myes; Myes; Myes;
   Myes; Myes; Myes; Myes; Myes; Myes; Myes; Myes;
   Myes; Myes; Myes; Myes; Myes; Myes; Myes; Myes;
   Myes; Myes; Myes; Myes; Myes; Myes; Myes; Mno;
   Myes; Myes; Mund; Mund; Myes; Myes; Myes; Myes;
   Mno; Mno; Mno; Mno; Mno; Mno; Mno; Mno;
   Mno; Mno; Mno; Mno; Mno; Mno; Mno; Mno;
   Myes; Myes; Myes; Myes; Myes; Myes; Myes; Myes;
   Myes; Myes; Myes; Myes; Myes; Myes; Myes; Myes;
   Mno; Mno; Mno; Myes; Myes; Myes; Mign; Mign;
   Mno; Mno; Mno; Myes; Myes; Myes; Myes; Myes;
   Myes; Myes; Myes; Myes; Myes; Myes; Myes; Myes;
   Myes; Myes; Myes; Myes; Myes; Myes; Myes; Myes;
   Myes; Myes; Myes; Myes; Myes; Myes; Myes; Myes;
   Mno; Mno; Mno; Mno; Mno; Mno; Mno; Mno;
   Myes; Myes; Myes; Myes; Myes; Myes; Myes; Myes;
   Myes; Myes; Myes; Myes; Myes; Myes; Myes; Myes;
   Myes; Myes; Myes; Myes; Myes; Myes; Myes; Myes;
   Myes; Myes; Myes; Myes; Myes; Myes; Myes; Myes;
   Myes; Myes; Myes; Myes; Myes; Myes; Myes; Myes;
   Myes; Myes; Myes; Myes; Myes; Myes; Myes; Myes].

(** pti-modrm.h:558-815. *)
Definition has_modrm_vex_map_1 : list pti_modrm :=
  [Myes; Myes; Myes; Myes; Mno; Mno; Mno; Mno;
   Mno; Mno; Mno; Mno; Mno; Myes; Mno; Mno;
   Myes; Myes; Myes; Myes; Myes; Myes; Myes; Myes;
   Myes; Myes; Myes; Myes; Myes; Myes; Myes; Myes;
   Mign; Mign; Mign; Mign; Mno; Mno; Mno; Mno;
   Myes; Myes; Myes; Myes; Myes; Myes; Myes; Myes;
   Mno; Mno; Mno; Mno; Mno; Mno; Mno; Mno;
   Mno; Mno; Mno; Mno; Mno; Mno; Mno; Mno;
   Myes; Myes; Myes; Myes; Myes; Myes; Myes; Myes;
   Myes; Myes; Myes; Myes; Myes; Myes; Myes; Myes;
   Myes; Myes; Myes; Myes; Myes; Myes; Myes; Myes;
   Myes; Myes; Myes; Myes; Myes; Myes; Myes; Myes;
   Myes; Myes; Myes; Myes; Myes; Myes; Myes; Myes;
   Myes; Myes; Myes; Myes; Myes; Myes; Myes; Myes;
   Myes; Myes; Myes; Myes; Myes; Myes; Myes; Mno;
   Myes; Myes; Mno; Mno; Myes; Myes; Myes; Myes;
   Mno; Mno; Mno; Mno; Mno; Mno; Mno; Mno;
   Mno; Mno; Mno; Mno; Mno; Mno; Mno; Mno;
   Myes; Myes; Myes; Myes; Myes; Myes; Myes; Myes;
   Myes; Myes; Myes; Myes; Myes; Myes; Myes; Myes;
   Mno; Mno; Mno; Myes; Myes; Myes; Mign; Mign;
   Mno; Mno; Mno; Myes; Myes; Myes; Myes; Myes;
   Myes; Myes; Myes; Myes; Myes; Myes; Myes; Myes;
   Myes; Myes; Myes; Myes; Myes; Myes; Myes; Myes;
   Myes; Myes; Myes; Myes; Myes; Myes; Myes; Myes;
   Mno; Mno; Mno; Mno; Mno; Mno; Mno; Mno;
   Myes; Myes; Myes; Myes; Myes; Myes; Myes; Myes;
   Myes; Myes; Myes; Myes; Myes; Myes; Myes; Myes;
   Myes; Myes; Myes; Myes; Myes; Myes; Myes; Myes;
   Myes; Myes; Myes; Myes; Myes; Myes; Myes; Myes;
   Myes; Myes; Myes; Myes; Myes; Myes; Myes; Myes;
   Myes; Myes; Myes; Myes; Myes; Myes; Myes; Myes].

(** pt_ild.c:546-818. *)
Definition prefix_table : list prefix_fn :=
  [Pdone; Pdone; Pdone; Pdone; Pdone; Pdone; Pdone; Pdone;
   Pdone; Pdone; Pdone; Pdone; Pdone; Pdone; Pdone; Pdone;
   Pdone; Pdone; Pdone; Pdone; Pdone; Pdone; Pdone; Pdone;
   Pdone; Pdone; Pdone; Pdone; Pdone; Pdone; Pdone; Pdone;
   Pdone; Pdone; Pdone; Pdone; Pdone; Pdone; Pign; Pdone;
   Pdone; Pdone; Pdone; Pdone; Pdone; Pdone; Pign; Pdone;
   Pdone; Pdone; Pdone; Pdone; Pdone; Pdone; Pign; Pdone;
   Pdone; Pdone; Pdone; Pdone; Pdone; Pdone; Pign; Pdone;
   Prex; Prex; Prex; Prex; Prex; Prex; Prex; Prex;
   Prex; Prex; Prex; Prex; Prex; Prex; Prex; Prex;
   Pdone; Pdone; Pdone; Pdone; Pdone; Pdone; Pdone; Pdone;
   Pdone; Pdone; Pdone; Pdone; Pdone; Pdone; Pdone; Pdone;
   Pdone; Pdone; Pevex; Pdone; Pign; Pign; Posz; Pasz;
   Pdone; Pdone; Pdone; Pdone; Pdone; Pdone; Pdone; Pdone;
   Pdone; Pdone; Pdone; Pdone; Pdone; Pdone; Pdone; Pdone;
   Pdone; Pdone; Pdone; Pdone; Pdone; Pdone; Pdone; Pdone;
   Pdone; Pdone; Pdone; Pdone; Pdone; Pdone; Pdone; Pdone;
   Pdone; Pdone; Pdone; Pdone; Pdone; Pdone; Pdone; Pdone;
   Pdone; Pdone; Pdone; Pdone; Pdone; Pdone; Pdone; Pdone;
   Pdone; Pdone; Pdone; Pdone; Pdone; Pdone; Pdone; Pdone;
   Pdone; Pdone; Pdone; Pdone; Pdone; Pdone; Pdone; Pdone;
   Pdone; Pdone; Pdone; Pdone; Pdone; Pdone; Pdone; Pdone;
   Pdone; Pdone; Pdone; Pdone; Pdone; Pdone; Pdone; Pdone;
   Pdone; Pdone; Pdone; Pdone; Pdone; Pdone; Pdone; Pdone;
   Pdone; Pdone; Pdone; Pdone; Pc4; Pc5; Pdone; Pdone;
   Pdone; Pdone; Pdone; Pdone; Pdone; Pdone; Pdone; Pdone;
   Pdone; Pdone; Pdone; Pdone; Pdone; Prex2; Pdone; Pdone;
   Pdone; Pdone; Pdone; Pdone; Pdone; Pdone; Pdone; Pdone;
   Pdone; Pdone; Pdone; Pdone; Pdone; Pdone; Pdone; Pdone;
   Pdone; Pdone; Pdone; Pdone; Pdone; Pdone; Pdone; Pdone;
   Plock; Pdone; Pf2; Pf3; Pdone; Pdone; Pdone; Pdone;
   Pdone; Pdone; Pdone; Pdone; Pdone; Pdone; Pdone; Pdone].

(** pti-disp_default.h:36-208, indexed by effective addressing mode, MOD and RM. *)
Definition disp_default : list (list (list N)) :=
  [[[0; 0; 0; 0; 0; 0; 0; 0];
    [0; 0; 0; 0; 0; 0; 0; 0];
    [0; 0; 0; 0; 0; 0; 0; 0];
    [0; 0; 0; 0; 0; 0; 0; 0]];
   [[0; 0; 0; 0; 0; 0; 2; 0];
    [1; 1; 1; 1; 1; 1; 1; 1];
    [2; 2; 2; 2; 2; 2; 2; 2];
    [0; 0; 0; 0; 0; 0; 0; 0]];
   [[0; 0; 0; 0; 0; 4; 0; 0];
    [1; 1; 1; 1; 1; 1; 1; 1];
    [4; 4; 4; 4; 4; 4; 4; 4];
    [0; 0; 0; 0; 0; 0; 0; 0]];
   [[0; 0; 0; 0; 0; 4; 0; 0];
    [1; 1; 1; 1; 1; 1; 1; 1];
    [4; 4; 4; 4; 4; 4; 4; 4];
    [0; 0; 0; 0; 0; 0; 0; 0]]].

(** pti-sib.h:36-208, indexed by effective addressing mode, MOD and RM. *)
Definition has_sib : list (list (list N)) :=
  [[[0; 0; 0; 0; 0; 0; 0; 0];
    [0; 0; 0; 0; 0; 0; 0; 0];
    [0; 0; 0; 0; 0; 0; 0; 0];
    [0; 0; 0; 0; 0; 0; 0; 0]];
   [[0; 0; 0; 0; 0; 0; 0; 0];
    [0; 0; 0; 0; 0; 0; 0; 0];
    [0; 0; 0; 0; 0; 0; 0; 0];
    [0; 0; 0; 0; 0; 0; 0; 0]];
   [[0; 0; 0; 0; 1; 0; 0; 0];
    [0; 0; 0; 0; 1; 0; 0; 0];
    [0; 0; 0; 0; 1; 0; 0; 0];
    [0; 0; 0; 0; 0; 0; 0; 0]];
   [[0; 0; 0; 0; 1; 0; 0; 0];
    [0; 0; 0; 0; 1; 0; 0; 0];
    [0; 0; 0; 0; 1; 0; 0; 0];
    [0; 0; 0; 0; 0; 0; 0; 0]]].
