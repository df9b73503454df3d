(** Packets and opcode constants.

    /repo/libipt/include/intel-pt.h.in:581-1093 (struct pt_packet and its
    payloads), /repo/libipt/internal/include/pt_opcodes.h:35-432. *)

From Verif Require Import Base.
From Coq Require Import List NArith Bool.
Import ListNotations.
Open Scope N_scope.

(** intel-pt.h.in:671-677.  [ipc] is the C enum value, any integer. *)
Record packet_ip := mk_ip { ip_ipc : N; ip_ip : N }.

(** intel-pt.h.in:662-668. *)
Record packet_tnt := mk_tnt { tnt_bit_size : N; tnt_payload : N }.

(** intel-pt.h.in:680-754.  The union is represented by a sum keyed by the
    leaf; other leaves are kept by value. *)
Inductive packet_mode :=
| Mode_exec (csl csd iflag : bool)
| Mode_tsx (intx abrt : bool)
| Mode_other (leaf : N).

(** The packet type together with its payload: intel-pt.h.in:581-621 and
    1017-1093.  The payload union is represented by a sum keyed by the type.
    The [icnt] field of TRIG is indeterminate in C when [icntv] is clear; the
    model uses 0 for it.  The pointer and the [priv] pointer of an unknown
    packet are represented by an opaque number chosen by the callback. *)
Inductive payload :=
| P_invalid
| P_unknown (priv : N)
| P_pad
| P_psb
| P_psbend
| P_fup (ip : packet_ip)
| P_tip (ip : packet_ip)
| P_tip_pge (ip : packet_ip)
| P_tip_pgd (ip : packet_ip)
| P_tnt_8 (tnt : packet_tnt)
| P_tnt_64 (tnt : packet_tnt)
| P_mode (mode : packet_mode)
| P_pip (cr3 : N) (nr : bool)
| P_vmcs (base : N)
| P_cbr (ratio : N)
| P_tsc (tsc : N)
| P_tma (ctc fc : N)
| P_mtc (ctc : N)
| P_cyc (value : N)
| P_stop
| P_ovf
| P_mnt (payload : N)
| P_exstop (ip : bool)
| P_mwait (hints ext : N)
| P_pwre (state sub_state : N) (hw : bool)
| P_pwrx (last deepest : N) (interrupt store autonomous : bool)
| P_ptw (payload plc : N) (ip : bool)
| P_cfe (type vector : N) (ip : bool)
| P_evd (type payload : N)
| P_trig (trbv icnt : N) (ip icntv mult : bool).

Record packet := mk_packet { pkt_pl : payload; pkt_size : nat }.

(** IP compression values, intel-pt.h.in:624-645. *)
Definition pt_ipc_suppressed := 0.
Definition pt_ipc_update_16 := 1.
Definition pt_ipc_update_32 := 2.
Definition pt_ipc_sext_48 := 3.
Definition pt_ipc_update_48 := 4.
Definition pt_ipc_full := 6.

(** Mode leaves, intel-pt.h.in:656-659. *)
Definition pt_mol_exec := 0x00.
Definition pt_mol_tsx := 0x20.

(** pt_opcodes.h:35-83. *)
Definition pt_opc_pad := 0x00.
Definition pt_opc_ext := 0x02.
Definition pt_opc_tip := 0x0d.
Definition pt_opc_tnt_8 := 0x00.
Definition pt_opc_tip_pge := 0x11.
Definition pt_opc_tip_pgd := 0x01.
Definition pt_opc_fup := 0x1d.
Definition pt_opc_mode := 0x99.
Definition pt_opc_tsc := 0x19.
Definition pt_opc_mtc := 0x59.
Definition pt_opc_cyc := 0x03.
Definition pt_opc_trig := 0xd9.

Definition pt_ext_psb := 0x82.
Definition pt_ext_tnt_64 := 0xa3.
Definition pt_ext_pip := 0x43.
Definition pt_ext_ovf := 0xf3.
Definition pt_ext_psbend := 0x23.
Definition pt_ext_cbr := 0x03.
Definition pt_ext_tma := 0x73.
Definition pt_ext_stop := 0x83.
Definition pt_ext_vmcs := 0xc8.
Definition pt_ext_ext2 := 0xc3.
Definition pt_ext_exstop := 0x62.
Definition pt_ext_exstop_ip := 0xe2.
Definition pt_ext_mwait := 0xc2.
Definition pt_ext_pwre := 0x22.
Definition pt_ext_pwrx := 0xa2.
Definition pt_ext_ptw := 0x12.
Definition pt_ext_cfe := 0x13.
Definition pt_ext_evd := 0x53.
Definition pt_ext2_mnt := 0x88.

(** pt_opcodes.h:86-124. *)
Definition pt_opm_tip := 0x1f.
Definition pt_opm_tnt_8 := 0x01.
Definition pt_opm_tnt_8_shr := 1.
Definition pt_opm_ipc_shr := 5.
Definition pt_opm_ipc_shr_mask := 0x7.
Definition pt_opm_cyc := 0x03.
Definition pt_opm_cyc_ext := 0x04.
Definition pt_opm_cyc_shr := 3.
Definition pt_opm_cycx_ext := 0x01.
Definition pt_opm_cycx_shr := 1.
Definition pt_opm_ptw := 0x1f.
Definition pt_opm_ptw_ip := 0x80.
Definition pt_opm_ptw_pb_shr := 5.
Definition pt_opm_ptw_pb_shr_mask := 0x3.

(** pt_opcodes.h:162-176. *)
Definition pt_psb_hi := pt_opc_ext.
Definition pt_psb_lo := pt_ext_psb.
Definition pt_psb_hilo := N.lor pt_psb_hi (N.shiftl pt_psb_lo 8).
Definition pt_psb_repeat_count : nat := 7.

(** pt_opcodes.h:179-360. *)
Definition pt_pl_pip_shr := 1.
Definition pt_pl_pip_shl := 5.
Definition pt_pl_pip_size : nat := 6.
Definition pt_pl_pip_nr := 0x01.
Definition pt_pl_tnt_64_size : nat := 6.
Definition pt_pl_tnt_64_bits := 48.
Definition pt_pl_tsc_size : nat := 7.
Definition pt_pl_tma_ctc_size : nat := 2.
Definition pt_pl_tma_ctc_0 : nat := 2.
Definition pt_pl_tma_ctc_1 : nat := 3.
Definition pt_pl_tma_fc_size : nat := 2.
Definition pt_pl_tma_fc_0 : nat := 5.
Definition pt_pl_tma_fc_1 : nat := 6.
Definition pt_pl_tma_fc_mask := 0x1ff.
Definition pt_pl_cyc_max_size : nat := 15.
Definition pt_pl_vmcs_size : nat := 5.
Definition pt_pl_vmcs_shl := 12.
Definition pt_pl_mnt_size : nat := 8.
Definition pt_pl_exstop_ip_mask := 0x80.
Definition pt_pl_mwait_hints_size : nat := 4.
Definition pt_pl_mwait_ext_size : nat := 4.
Definition pt_pl_pwre_size : nat := 2.
Definition pt_pl_pwre_hw_mask := 0x8.
Definition pt_pl_pwre_sub_state_mask := 0xf00.
Definition pt_pl_pwre_sub_state_shr := 8.
Definition pt_pl_pwre_state_mask := 0xf000.
Definition pt_pl_pwre_state_shr := 12.
Definition pt_pl_pwrx_size : nat := 5.
Definition pt_pl_pwrx_deepest_mask := 0xf.
Definition pt_pl_pwrx_deepest_shr := 0.
Definition pt_pl_pwrx_last_mask := 0xf0.
Definition pt_pl_pwrx_last_shr := 4.
Definition pt_pl_pwrx_wr_int := 0x100.
Definition pt_pl_pwrx_wr_store := 0x400.
Definition pt_pl_pwrx_wr_hw := 0x800.
Definition pt_pl_cfe_type := 0x1f.
Definition pt_pl_cfe_ip := 0x80.
Definition pt_pl_evd_pl_size : nat := 8.
Definition pt_pl_evd_type := 0x1f.
Definition pt_pl_trig_icnt_size : nat := 2.
Definition pt_pl_trig_ip_shr := 7.
Definition pt_pl_trig_icntv_shr := 6.
Definition pt_pl_trig_mult_shr := 5.
Definition pt_pl_trig_icntv := 0x40.

(** pt_opcodes.h:363-379. *)
Definition pt_mom_leaf := 0xe0.
Definition pt_mom_bits := 0x1f.
Definition pt_mob_exec_csl := 0x01.
Definition pt_mob_exec_csd := 0x02.
Definition pt_mob_exec_iflag := 0x04.
Definition pt_mob_tsx_intx := 0x01.
Definition pt_mob_tsx_abrt := 0x02.

(** Opcode sizes, pt_opcodes.h:127-156. *)
Definition pt_opcs_psb : nat := 2.
Definition pt_opcs_mode : nat := 1.
Definition pt_opcs_tsc : nat := 1.
Definition pt_opcs_mtc : nat := 1.
Definition pt_opcs_pip : nat := 2.
Definition pt_opcs_tnt_64 : nat := 2.
Definition pt_opcs_vmcs : nat := 2.
Definition pt_opcs_mnt : nat := 3.
Definition pt_opcs_mwait : nat := 2.
Definition pt_opcs_pwre : nat := 2.
Definition pt_opcs_pwrx : nat := 2.
Definition pt_opcs_ptw : nat := 2.
Definition pt_opcs_cfe : nat := 2.
Definition pt_opcs_evd : nat := 2.
Definition pt_opcs_trig : nat := 1.

(** Packet sizes, pt_opcodes.h:382-432. *)
Definition ptps_pad : nat := 1.
Definition ptps_tnt_8 : nat := 1.
Definition ptps_mode : nat := 2.
Definition ptps_tsc : nat := 8.
Definition ptps_mtc : nat := 2.
Definition ptps_psb : nat := 16.
Definition ptps_psbend : nat := 2.
Definition ptps_ovf : nat := 2.
Definition ptps_pip : nat := 8.
Definition ptps_tnt_64 : nat := 8.
Definition ptps_cbr : nat := 4.
Definition ptps_tma : nat := 7.
Definition ptps_stop : nat := 2.
Definition ptps_vmcs : nat := 7.
Definition ptps_mnt : nat := 11.
Definition ptps_exstop : nat := 2.
Definition ptps_mwait : nat := 10.
Definition ptps_pwre : nat := 4.
Definition ptps_pwrx : nat := 7.
Definition ptps_cfe : nat := 4.
Definition ptps_evd : nat := 11.
Definition ptps_trig : nat := 3.
Definition ptps_trig_icnt : nat := 5.

(** pt_ptw_size(), intel-pt.h.in:876-891. *)
Definition pt_ptw_size (plc : N) : res nat :=
  if plc =? 0 then Ok 4%nat
  else if plc =? 1 then Ok 8%nat
  else if (plc =? 2) || (plc =? 3) then Err pte_bad_packet
  else Err pte_internal.
