(** The packet decoder: /repo/libipt/src/pt_packet.c and
    /repo/libipt/src/pt_packet_decoder.c (without synchronisation, see M_sync).

    Pointers into the trace buffer are indices.  [config->end < pos + n] is
    modelled as a comparison of indices: like the C code in practice, it assumes
    that pointer arithmetic slightly past the end of the buffer does not wrap. *)

From Verif Require Import Base M_packet M_config.
From Coq Require Import List NArith Bool.
Import ListNotations.
Open Scope N_scope.

(** pt_pkt_read_value(), pt_packet.c:38-51.  [pos] is the current byte, [idx]
    the loop counter, [n] the number of remaining bytes. *)
Fixpoint read_value_from (buf : list N) (pos : nat) (idx : N) (n : nat) (val : N)
  : res N :=
  match n with
  | O => Ok val
  | S n' =>
      let* b := rd buf pos in
      let byte := shl64 b (idx * 8) in
      read_value_from buf (S pos) (idx + 1) n' (N.lor val byte)
  end.

Definition pt_pkt_read_value (buf : list N) (pos : nat) (size : nat) : res N :=
  read_value_from buf pos 0 size 0.

(** [if (config->end < pos + size) return -pte_eos;] *)
Definition need (buf : list N) (upto : nat) : res unit :=
  if Nat.ltb (length buf) upto then Err pte_eos else Ok tt.

(** pt_pkt_read_unknown(), pt_packet.c:53-89. *)
Definition pt_pkt_read_unknown (cf : config) (buf : list N) (pos : nat)
  : res (payload * nat) :=
  match cf_callback cf with
  | None => Err pte_bad_opc
  | Some cb =>
      match cb buf pos with
      | Cb_err e => Err e
      | Cb_size size priv =>
          if 255 <? size then Err pte_invalid else
          let n := N.to_nat size in
          let* _ := need buf (pos + n) in
          Ok (P_unknown priv, n)
      end
  end.

(** The loop in pt_pkt_read_psb(), pt_packet.c:103-108. *)
Fixpoint psb_loop (buf : list N) (pos : nat) (count : nat) : res unit :=
  match count with
  | O => Ok tt
  | S count' =>
      let* hi := rd buf pos in
      if negb (hi =? pt_psb_hi) then Err pte_bad_packet else
      let* lo := rd buf (S pos) in
      if negb (lo =? pt_psb_lo) then Err pte_bad_packet else
      psb_loop buf (S (S pos)) count'
  end.

(** pt_pkt_read_psb(), pt_packet.c:91-111. *)
Definition pt_pkt_read_psb (buf : list N) (pos : nat) : res (payload * nat) :=
  let* _ := need buf (pos + ptps_psb) in
  let* _ := psb_loop buf (pos + pt_opcs_psb) pt_psb_repeat_count in
  Ok (P_psb, ptps_psb).

(** pt_pkt_ip_size(), pt_packet.c:113-134. *)
Definition pt_pkt_ip_size (ipc : N) : res nat :=
  if ipc =? pt_ipc_suppressed then Ok 0%nat
  else if ipc =? pt_ipc_update_16 then Ok 2%nat
  else if ipc =? pt_ipc_update_32 then Ok 4%nat
  else if (ipc =? pt_ipc_update_48) || (ipc =? pt_ipc_sext_48) then Ok 6%nat
  else if ipc =? pt_ipc_full then Ok 8%nat
  else Err pte_bad_packet.

(** pt_pkt_read_ip(), pt_packet.c:136-163. *)
Definition pt_pkt_read_ip (buf : list N) (pos : nat) : res (packet_ip * nat) :=
  let* opc := rd buf pos in
  let ipc := N.land (N.shiftr opc pt_opm_ipc_shr) pt_opm_ipc_shr_mask in
  let* ipsize := pt_pkt_ip_size ipc in
  let* _ := need buf (S pos + ipsize) in
  let* ip := (match ipsize with
              | O => Ok 0
              | _ => pt_pkt_read_value buf (S pos) ipsize
              end) in
  Ok (mk_ip ipc ip, S ipsize).

(** pt_pkt_tnt_bit_size(), pt_packet.c:165-179.  The loop shifts right until
    the payload is zero; the argument has at most 64 bits, so 64 iterations
    suffice and the fuel never runs out for uint64_t values. *)
Fixpoint tnt_bit_size_loop (fuel : nat) (pl : N) (size : N) : N :=
  match fuel with
  | O => size
  | S fuel' =>
      let pl := N.shiftr pl 1 in
      if pl =? 0 then size else tnt_bit_size_loop fuel' pl (size + 1)
  end.
Definition pt_pkt_tnt_bit_size (pl : N) : N := tnt_bit_size_loop 64 pl 0.

(** pt_pkt_read_tnt(), pt_packet.c:181-199. *)
Definition pt_pkt_read_tnt (pl : N) : res packet_tnt :=
  let bit_size := pt_pkt_tnt_bit_size pl in
  if bit_size =? 0 then Err pte_bad_packet else
  Ok (mk_tnt bit_size (N.ldiff pl (N.shiftl 1 bit_size))).

(** pt_pkt_read_tnt_8(), pt_packet.c:201-216. *)
Definition pt_pkt_read_tnt_8 (buf : list N) (pos : nat) : res (payload * nat) :=
  let* b := rd buf pos in
  let* t := pt_pkt_read_tnt (N.shiftr b pt_opm_tnt_8_shr) in
  Ok (P_tnt_8 t, ptps_tnt_8).

(** pt_pkt_read_tnt_64(), pt_packet.c:218-237. *)
Definition pt_pkt_read_tnt_64 (buf : list N) (pos : nat) : res (payload * nat) :=
  let* _ := need buf (pos + ptps_tnt_64) in
  let* pl := pt_pkt_read_value buf (pos + pt_opcs_tnt_64) pt_pl_tnt_64_size in
  let* t := pt_pkt_read_tnt pl in
  Ok (P_tnt_64 t, ptps_tnt_64).

(** pt_pkt_read_pip(), pt_packet.c:239-262. *)
Definition pt_pkt_read_pip (buf : list N) (pos : nat) : res (payload * nat) :=
  let* _ := need buf (pos + ptps_pip) in
  let* pl := pt_pkt_read_value buf (pos + pt_opcs_pip) pt_pl_pip_size in
  let nr := truth (N.land pl pt_pl_pip_nr) in
  let cr3 := shl64 (N.shiftr pl pt_pl_pip_shr) pt_pl_pip_shl in
  Ok (P_pip cr3 nr, ptps_pip).

(** pt_pkt_read_mode{,_exec,_tsx}(), pt_packet.c:264-315. *)
Definition pt_pkt_read_mode (buf : list N) (pos : nat) : res (payload * nat) :=
  let* _ := need buf (pos + ptps_mode) in
  let* pl := rd buf (pos + pt_opcs_mode) in
  let leaf := N.land pl pt_mom_leaf in
  let mode := N.land pl pt_mom_bits in
  if leaf =? pt_mol_exec then
    Ok (P_mode (Mode_exec (truth (N.land mode pt_mob_exec_csl))
                          (truth (N.land mode pt_mob_exec_csd))
                          (truth (N.land mode pt_mob_exec_iflag))), ptps_mode)
  else if leaf =? pt_mol_tsx then
    Ok (P_mode (Mode_tsx (truth (N.land mode pt_mob_tsx_intx))
                         (truth (N.land mode pt_mob_tsx_abrt))), ptps_mode)
  else Err pte_bad_packet.

(** pt_pkt_read_tsc(), pt_packet.c:317-329. *)
Definition pt_pkt_read_tsc (buf : list N) (pos : nat) : res (payload * nat) :=
  let* _ := need buf (pos + ptps_tsc) in
  let* v := pt_pkt_read_value buf (pos + pt_opcs_tsc) pt_pl_tsc_size in
  Ok (P_tsc v, ptps_tsc).

(** pt_pkt_read_cbr(), pt_packet.c:331-343. *)
Definition pt_pkt_read_cbr (buf : list N) (pos : nat) : res (payload * nat) :=
  let* _ := need buf (pos + ptps_cbr) in
  let* r := rd buf (pos + 2) in
  Ok (P_cbr r, ptps_cbr).

(** pt_pkt_read_tma(), pt_packet.c:345-372. *)
Definition pt_pkt_read_tma (buf : list N) (pos : nat) : res (payload * nat) :=
  let* _ := need buf (pos + ptps_tma) in
  let* c0 := rd buf (pos + pt_pl_tma_ctc_0) in
  let* c1 := rd buf (pos + pt_pl_tma_ctc_1) in
  let ctc := u16 (N.lor c0 (N.shiftl c1 8)) in
  let* f0 := rd buf (pos + pt_pl_tma_fc_0) in
  let* f1 := rd buf (pos + pt_pl_tma_fc_1) in
  let fc := u16 (N.lor f0 (N.shiftl f1 8)) in
  if truth (N.ldiff fc pt_pl_tma_fc_mask) then Err pte_bad_packet else
  let* rsv := rd buf (pos + (pt_pl_tma_ctc_1 + 1)) in
  if truth rsv then Err pte_bad_packet else
  Ok (P_tma ctc fc, ptps_tma).

(** pt_pkt_read_mtc(), pt_packet.c:374-386. *)
Definition pt_pkt_read_mtc (buf : list N) (pos : nat) : res (payload * nat) :=
  let* _ := need buf (pos + ptps_mtc) in
  let* c := rd buf (pos + pt_opcs_mtc) in
  Ok (P_mtc c, ptps_mtc).

(** The loop in pt_pkt_read_cyc(), pt_packet.c:412-429.  [n] counts the bytes
    read so far.  The C loop has no bound of its own, but it stops with an error
    once shl exceeds 64, i.e. after at most nine iterations, so a fuel of 16 is
    never exhausted. *)
Fixpoint cyc_loop (fuel : nat) (buf : list N) (pos : nat) (n : nat)
         (value shl : N) : res (N * nat) :=
  match fuel with
  | O => UB ub_fuel
  | S fuel' =>
      if Nat.leb (length buf) (pos + n) then Err pte_eos else
      let* bits := rd buf (pos + n) in
      let ext := N.land bits pt_opm_cycx_ext in
      let bits := N.shiftr bits pt_opm_cycx_shr in
      let bits := shl64 bits shl in
      let shl := shl + (8 - pt_opm_cycx_shr) in
      if 64 <? shl then Err pte_bad_packet else
      let value := N.lor value bits in
      if truth ext then cyc_loop fuel' buf pos (S n) value shl
      else Ok (value, S n)
  end.

(** pt_pkt_read_cyc(), pt_packet.c:388-434. *)
Definition pt_pkt_read_cyc (buf : list N) (pos : nat) : res (N * nat) :=
  let* cyc := rd buf pos in
  let ext := N.land cyc pt_opm_cyc_ext in
  let value := N.shiftr cyc pt_opm_cyc_shr in
  if truth ext then cyc_loop 16 buf pos 1 value (8 - pt_opm_cyc_shr)
  else Ok (value, 1%nat).

(** pt_pkt_read_vmcs(), pt_packet.c:436-452. *)
Definition pt_pkt_read_vmcs (buf : list N) (pos : nat) : res (payload * nat) :=
  let* _ := need buf (pos + ptps_vmcs) in
  let* pl := pt_pkt_read_value buf (pos + pt_opcs_vmcs) pt_pl_vmcs_size in
  Ok (P_vmcs (shl64 pl pt_pl_vmcs_shl), ptps_vmcs).

(** pt_pkt_read_mnt(), pt_packet.c:454-466. *)
Definition pt_pkt_read_mnt (buf : list N) (pos : nat) : res (payload * nat) :=
  let* _ := need buf (pos + ptps_mnt) in
  let* pl := pt_pkt_read_value buf (pos + pt_opcs_mnt) pt_pl_mnt_size in
  Ok (P_mnt pl, ptps_mnt).

(** pt_pkt_read_exstop(), pt_packet.c:468-480. *)
Definition pt_pkt_read_exstop (buf : list N) (pos : nat) : res (payload * nat) :=
  let* _ := need buf (pos + ptps_exstop) in
  let* b := rd buf (pos + 1) in
  Ok (P_exstop (truth (N.land b pt_pl_exstop_ip_mask)), ptps_exstop).

(** pt_pkt_read_mwait(), pt_packet.c:482-497. *)
Definition pt_pkt_read_mwait (buf : list N) (pos : nat) : res (payload * nat) :=
  let* _ := need buf (pos + ptps_mwait) in
  let* hints := pt_pkt_read_value buf (pos + pt_opcs_mwait)
                                  pt_pl_mwait_hints_size in
  let* ext := pt_pkt_read_value buf (pos + pt_opcs_mwait
                                     + pt_pl_mwait_hints_size)
                                pt_pl_mwait_ext_size in
  Ok (P_mwait (u32 hints) (u32 ext), ptps_mwait).

(** pt_pkt_read_pwre(), pt_packet.c:499-521. *)
Definition pt_pkt_read_pwre (buf : list N) (pos : nat) : res (payload * nat) :=
  let* _ := need buf (pos + ptps_pwre) in
  let* pl := pt_pkt_read_value buf (pos + pt_opcs_pwre) pt_pl_pwre_size in
  Ok (P_pwre
        (u8 (N.shiftr (N.land pl pt_pl_pwre_state_mask) pt_pl_pwre_state_shr))
        (u8 (N.shiftr (N.land pl pt_pl_pwre_sub_state_mask)
                      pt_pl_pwre_sub_state_shr))
        (truth (N.land pl pt_pl_pwre_hw_mask)), ptps_pwre).

(** pt_pkt_read_pwrx(), pt_packet.c:523-549. *)
Definition pt_pkt_read_pwrx (buf : list N) (pos : nat) : res (payload * nat) :=
  let* _ := need buf (pos + ptps_pwrx) in
  let* pl := pt_pkt_read_value buf (pos + pt_opcs_pwrx) pt_pl_pwrx_size in
  Ok (P_pwrx
        (u8 (N.shiftr (N.land pl pt_pl_pwrx_last_mask) pt_pl_pwrx_last_shr))
        (u8 (N.shiftr (N.land pl pt_pl_pwrx_deepest_mask)
                      pt_pl_pwrx_deepest_shr))
        (truth (N.land pl pt_pl_pwrx_wr_int))
        (truth (N.land pl pt_pl_pwrx_wr_store))
        (truth (N.land pl pt_pl_pwrx_wr_hw)), ptps_pwrx).

(** pt_pkt_read_ptw(), pt_packet.c:551-578. *)
Definition pt_pkt_read_ptw (buf : list N) (pos : nat) : res (payload * nat) :=
  let* opc := rd buf (pos + 1) in
  let plc := N.land (N.shiftr opc pt_opm_ptw_pb_shr) pt_opm_ptw_pb_shr_mask in
  let* size := pt_ptw_size plc in
  let* _ := need buf (pos + 2 + size) in
  let* pl := pt_pkt_read_value buf (pos + 2) size in
  Ok (P_ptw pl plc (truth (N.land opc pt_opm_ptw_ip)), pt_opcs_ptw + size)%nat.

(** pt_pkt_read_cfe(), pt_packet.c:580-596. *)
Definition pt_pkt_read_cfe (buf : list N) (pos : nat) : res (payload * nat) :=
  let* _ := need buf (pos + ptps_cfe) in
  let* b0 := rd buf (pos + pt_opcs_cfe) in
  let* b1 := rd buf (pos + pt_opcs_cfe + 1) in
  Ok (P_cfe (N.land b0 pt_pl_cfe_type) b1 (truth (N.land b0 pt_pl_cfe_ip)),
      ptps_cfe).

(** pt_pkt_read_evd(), pt_packet.c:598-613. *)
Definition pt_pkt_read_evd (buf : list N) (pos : nat) : res (payload * nat) :=
  let* _ := need buf (pos + ptps_evd) in
  let* b0 := rd buf (pos + pt_opcs_evd) in
  let* pl := pt_pkt_read_value buf (pos + pt_opcs_evd + 1) pt_pl_evd_pl_size in
  Ok (P_evd (N.land b0 pt_pl_evd_type) pl, ptps_evd).

(** pt_pkt_read_trig(), pt_packet.c:615-644. *)
Definition pt_pkt_read_trig (buf : list N) (pos : nat) : res (payload * nat) :=
  let* _ := need buf (pos + ptps_trig) in
  let* b1 := rd buf (pos + 1) in
  let* (icnt, size) :=
    (if truth (N.land b1 pt_pl_trig_icntv) then
       let* _ := need buf (pos + ptps_trig_icnt) in
       let* v := pt_pkt_read_value buf (pos + ptps_trig) pt_pl_trig_icnt_size in
       Ok (u16 v, ptps_trig_icnt)
     else Ok (0, ptps_trig)) in
  let* t := rd buf (pos + pt_opcs_trig + 1) in
  Ok (P_trig t icnt
             (truth (N.land (N.shiftr b1 pt_pl_trig_ip_shr) 0x01))
             (truth (N.land (N.shiftr b1 pt_pl_trig_icntv_shr) 0x01))
             (truth (N.land (N.shiftr b1 pt_pl_trig_mult_shr) 0x01)), size).

(** Result of decoding one packet: payload, size (both the return value and
    packet->size), and by how much the decoder position was moved before the
    size is added (only SKD007 does that). *)
Record decoded := mk_decoded { dc_pl : payload; dc_size : nat; dc_skip : nat }.

Definition plain (r : res (payload * nat)) : res decoded :=
  let* (pl, size) := r in Ok (mk_decoded pl size 0).

Definition as_ip (f : packet_ip -> payload) (r : res (packet_ip * nat))
  : res decoded :=
  let* (ip, size) := r in Ok (mk_decoded (f ip) size 0).

(** pt_pkt_decode_tma(), pt_packet_decoder.c:502-534. *)
Definition pt_pkt_decode_tma (cf : config) (buf : list N) (pos : nat)
  : res decoded :=
  match pt_pkt_read_tma buf pos with
  | Ok (pl, size) => Ok (mk_decoded pl size 0)
  | Err pte_bad_packet =>
      if er_skz84 (cf_errata cf)
      then Ok (mk_decoded P_invalid (ptps_tma + 1) 0)
      else Err pte_bad_packet
  | Err e => Err e
  | UB u => UB u
  end.

(** pt_pkt_handle_skd007(), pt_packet_decoder.c:555-598.  [Ok None] stands for
    the return value zero. *)
Definition pt_pkt_handle_skd007 (buf : list N) (pos : nat) (value : N)
           (size : nat) : res (option decoded) :=
  if negb (Nat.eqb size 2) then Ok None else
  let pl := u16 value in
  if negb (N.ldiff pl 0x1f =? 0x20) then Ok None else
  if Nat.leb (length buf) (pos + size) then Ok None else
  let* b := rd buf (pos + size) in
  if negb (b =? pt_ext_ovf) then Ok None else
  Ok (Some (mk_decoded P_ovf ptps_ovf 1)).

(** pt_pkt_decode_cyc(), pt_packet_decoder.c:600-623. *)
Definition pt_pkt_decode_cyc (cf : config) (buf : list N) (pos : nat)
  : res decoded :=
  let* (value, size) := pt_pkt_read_cyc buf pos in
  let* o := (if er_skd007 (cf_errata cf)
             then pt_pkt_handle_skd007 buf pos value size
             else Ok None) in
  match o with
  | Some d => Ok d
  | None => Ok (mk_decoded (P_cyc value) size 0)
  end.

(** pt_pkt_decode(), pt_packet_decoder.c:829-961, at a non-NULL position. *)
Definition pt_pkt_decode (cf : config) (buf : list N) (pos : nat)
  : res decoded :=
  if Nat.leb (length buf) pos then Err pte_eos else
  let* opc := rd buf pos in
  if opc =? pt_opc_mode then plain (pt_pkt_read_mode buf pos)
  else if opc =? pt_opc_mtc then plain (pt_pkt_read_mtc buf pos)
  else if opc =? pt_opc_tsc then plain (pt_pkt_read_tsc buf pos)
  else if opc =? pt_opc_pad then Ok (mk_decoded P_pad ptps_pad 0)
  else if opc =? pt_opc_trig then plain (pt_pkt_read_trig buf pos)
  else if opc =? pt_opc_ext then
    if Nat.leb (length buf) (pos + 1) then Err pte_eos else
    let* ext := rd buf (pos + 1) in
    if ext =? pt_ext_psb then plain (pt_pkt_read_psb buf pos)
    else if ext =? pt_ext_ovf then Ok (mk_decoded P_ovf ptps_ovf 0)
    else if ext =? pt_ext_psbend then Ok (mk_decoded P_psbend ptps_psbend 0)
    else if ext =? pt_ext_cbr then plain (pt_pkt_read_cbr buf pos)
    else if ext =? pt_ext_tma then pt_pkt_decode_tma cf buf pos
    else if ext =? pt_ext_pip then plain (pt_pkt_read_pip buf pos)
    else if ext =? pt_ext_vmcs then plain (pt_pkt_read_vmcs buf pos)
    else if (ext =? pt_ext_exstop) || (ext =? pt_ext_exstop_ip) then
      plain (pt_pkt_read_exstop buf pos)
    else if ext =? pt_ext_mwait then plain (pt_pkt_read_mwait buf pos)
    else if ext =? pt_ext_pwre then plain (pt_pkt_read_pwre buf pos)
    else if ext =? pt_ext_pwrx then plain (pt_pkt_read_pwrx buf pos)
    else if ext =? pt_ext_stop then Ok (mk_decoded P_stop ptps_stop 0)
    else if ext =? pt_ext_tnt_64 then plain (pt_pkt_read_tnt_64 buf pos)
    else if ext =? pt_ext_cfe then plain (pt_pkt_read_cfe buf pos)
    else if ext =? pt_ext_evd then plain (pt_pkt_read_evd buf pos)
    else if ext =? pt_ext_ext2 then
      if Nat.leb (length buf) (pos + 2) then Err pte_eos else
      let* ext2 := rd buf (pos + 2) in
      if ext2 =? pt_ext2_mnt then plain (pt_pkt_read_mnt buf pos)
      else plain (pt_pkt_read_unknown cf buf pos)
    else if N.land ext pt_opm_ptw =? pt_ext_ptw then
      plain (pt_pkt_read_ptw buf pos)
    else plain (pt_pkt_read_unknown cf buf pos)
  else if N.land opc pt_opm_cyc =? pt_opc_cyc then pt_pkt_decode_cyc cf buf pos
  else if N.land opc pt_opm_tnt_8 =? pt_opc_tnt_8 then
    plain (pt_pkt_read_tnt_8 buf pos)
  else if N.land opc pt_opm_tip =? pt_opc_fup then
    as_ip P_fup (pt_pkt_read_ip buf pos)
  else if N.land opc pt_opm_tip =? pt_opc_tip then
    as_ip P_tip (pt_pkt_read_ip buf pos)
  else if N.land opc pt_opm_tip =? pt_opc_tip_pge then
    as_ip P_tip_pge (pt_pkt_read_ip buf pos)
  else if N.land opc pt_opm_tip =? pt_opc_tip_pgd then
    as_ip P_tip_pgd (pt_pkt_read_ip buf pos)
  else plain (pt_pkt_read_unknown cf buf pos).

(** Packet decoder state: struct pt_packet_decoder in
    /repo/libipt/internal/include/pt_packet_decoder.h.  [None] is the NULL
    pointer.  The buffer is kept in the state; the decoder never writes it. *)
Record pktdec := mk_pktdec {
  pd_config : config;
  pd_buf : list N;
  pd_pos : option nat;
  pd_sync : option nat }.

(** pt_pkt_decoder_init(), pt_packet_decoder.c:41-56, on a valid config. *)
Definition pt_pkt_decoder_init (cf : config) (buf : list N) : pktdec :=
  mk_pktdec cf buf None None.

(** pt_pkt_next(), pt_packet_decoder.c:963-985.  The copy to the user's packet
    (pkt_to_user) is the identity for a full-size packet.  SKD007 moves the
    position before the packet is known to succeed. *)
Definition pt_pkt_next (d : pktdec) : pktdec * res packet :=
  match pd_pos d with
  | None => (d, Err pte_nosync)
  | Some pos =>
      match pt_pkt_decode (pd_config d) (pd_buf d) pos with
      | Ok dc =>
          (mk_pktdec (pd_config d) (pd_buf d)
                     (Some (pos + dc_skip dc + dc_size dc)%nat) (pd_sync d),
           Ok (mk_packet (dc_pl dc) (dc_size dc)))
      | Err e => (d, Err e)
      | UB u => (d, UB u)
      end
  end.

(** pt_pkt_sync_set(), pt_packet_decoder.c:151-169; no pointer wrap-around. *)
Definition pt_pkt_sync_set (d : pktdec) (offset : N) : pktdec * res unit :=
  if N.of_nat (length (pd_buf d)) <? offset then (d, Err pte_eos)
  else
    let pos := N.to_nat offset in
    (mk_pktdec (pd_config d) (pd_buf d) (Some pos) (Some pos), Ok tt).

(** pt_pkt_get_offset(), pt_packet_decoder.c:171-186. *)
Definition pt_pkt_get_offset (d : pktdec) : res N :=
  match pd_pos d with
  | None => Err pte_nosync
  | Some pos => Ok (N.of_nat pos)
  end.

(** pt_pkt_get_sync_offset(), pt_packet_decoder.c:188-204. *)
Definition pt_pkt_get_sync_offset (d : pktdec) : res N :=
  match pd_sync d with
  | None => Err pte_nosync
  | Some pos => Ok (N.of_nat pos)
  end.
