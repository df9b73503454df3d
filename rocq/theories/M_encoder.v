(** The packet encoder: /repo/libipt/src/pt_encoder.c. *)

From Verif Require Import Base M_packet.
From Coq Require Import List NArith Bool.
Import ListNotations.
Open Scope N_scope.

(** Encoder state: struct pt_encoder in
    /repo/libipt/internal/include/pt_encoder.h.  [e_buf] is the memory between
    config.begin and config.end, [e_pos] is pos - config.begin. *)
Record enc := mk_enc { e_buf : list N; e_pos : nat }.

(** Computations that write to the buffer.  Writes that happened before an
    error are kept, as in C. *)
Definition W (A : Type) : Type := list N -> list N * res A.
Definition wret {A} (a : A) : W A := fun buf => (buf, Ok a).
Definition wlift {A} (r : res A) : W A := fun buf => (buf, r).
Definition wbind {A B} (m : W A) (f : A -> W B) : W B :=
  fun buf =>
    match m buf with
    | (buf', Ok a) => f a buf'
    | (buf', Err e) => (buf', Err e)
    | (buf', UB u) => (buf', UB u)
    end.
Declare Scope w_scope.
Notation "'do' x '<-' m ';' k" :=
  (wbind m (fun x => k)) (at level 200, x pattern, m at level 100,
                          k at level 200) : w_scope.
Open Scope w_scope.

(** Replace element [i] of a list. *)
Definition upd (buf : list N) (i : nat) (b : N) : list N :=
  firstn i buf ++ b :: skipn (S i) buf.

(** [*pos++ = (uint8_t) b]. *)
Definition put (pos : nat) (b : N) : W nat :=
  fun buf =>
    if Nat.ltb pos (length buf)
    then (upd buf pos (u8 b), Ok (S pos))
    else (buf, UB ub_oob_write).

Fixpoint puts (pos : nat) (bs : list N) : W nat :=
  match bs with
  | [] => wret pos
  | b :: bs' => do pos' <- put pos b ; puts pos' bs'
  end.

(** pt_encode_int(), pt_encoder.c:201-207. *)
Fixpoint pt_encode_int (pos : nat) (val : N) (size : nat) : W nat :=
  match size with
  | O => wret pos
  | S size' =>
      do pos' <- put pos val ;
      pt_encode_int pos' (N.shiftr val 8) size'
  end.

(** pt_reserve(), pt_encoder.c:142-162.  Pointer comparison is comparison of
    indices; [pos < begin] cannot happen for an index. *)
Definition pt_reserve (pos : nat) (size : nat) : W unit :=
  fun buf =>
    if Nat.ltb (length buf) (pos + size) then (buf, Err pte_eos)
    else (buf, Ok tt).

(** pt_ipc_size(), pt_encoder.c:168-191. *)
Definition pt_ipc_size (ipc : N) : res nat :=
  if ipc =? pt_ipc_suppressed then Ok 0%nat
  else if ipc =? pt_ipc_update_16 then Ok 2%nat
  else if ipc =? pt_ipc_update_32 then Ok 4%nat
  else if ipc =? pt_ipc_update_48 then Ok 6%nat
  else if ipc =? pt_ipc_sext_48 then Ok 6%nat
  else if ipc =? pt_ipc_full then Ok 8%nat
  else Err pte_invalid.

(** pt_encode_ip(), pt_encoder.c:220-248. *)
Definition pt_encode_ip (pos : nat) (opc : N) (p : packet_ip) : W nat :=
  do size <- wlift (pt_ipc_size (ip_ipc p)) ;
  do _ <- pt_reserve pos (1 + size) ;
  let ipc := u8 (N.shiftl (ip_ipc p) pt_opm_ipc_shr) in
  do pos1 <- put pos (N.lor opc ipc) ;
  pt_encode_int pos1 (ip_ip p) size.

(** The byte array built for a CYC packet, pt_encoder.c:507-519.  [room] is
    pt_pl_cyc_max_size - end. *)
Fixpoint cyc_bytes (room : nat) (ctc : N) : res (list N) :=
  if ctc =? 0 then Ok []
  else
    match room with
    | O => Err pte_bad_packet
    | S room' =>
        let c := shl64 ctc pt_opm_cycx_shr in
        let b := u8 c in
        let c' := N.shiftr c 8 in
        let b' := if truth c' then N.lor b pt_opm_cycx_ext else b in
        let* rest := cyc_bytes room' c' in
        Ok (b' :: rest)
    end.

(** The mode byte, pt_encoder.c:376-402. *)
Definition mode_byte (m : packet_mode) : res N :=
  match m with
  | Mode_exec csl csd iflag =>
      let mode := pt_mol_exec in
      let mode := if csl then N.lor mode pt_mob_exec_csl else mode in
      let mode := if csd then N.lor mode pt_mob_exec_csd else mode in
      Ok (if iflag then N.lor mode pt_mob_exec_iflag else mode)
  | Mode_tsx intx abrt =>
      let mode := pt_mol_tsx in
      let mode := if intx then N.lor mode pt_mob_tsx_intx else mode in
      Ok (if abrt then N.lor mode pt_mob_tsx_abrt else mode)
  | Mode_other _ => Err pte_bad_packet
  end.

(** The body of pt_enc_next(), pt_encoder.c:250-751.  Returns the new value of
    the local variable pos, which is assigned to encoder->pos on success. *)
Definition enc_body (pos : nat) (p : payload) : W nat :=
  match p with
  | P_pad =>                                        (* 260-268 *)
      do _ <- pt_reserve pos ptps_pad ;
      put pos pt_opc_pad
  | P_psb =>                                        (* 270-287 *)
      do _ <- pt_reserve pos ptps_psb ;
      let psb := N.lor (N.lor (N.lor (N.shiftl pt_psb_hilo 48)
                                     (N.shiftl pt_psb_hilo 32))
                              (N.shiftl pt_psb_hilo 16)) pt_psb_hilo in
      do pos1 <- pt_encode_int pos psb 8 ;
      pt_encode_int pos1 psb 8
  | P_psbend =>                                     (* 289-298 *)
      do _ <- pt_reserve pos ptps_psbend ;
      puts pos [pt_opc_ext; pt_ext_psbend]
  | P_ovf =>                                        (* 300-309 *)
      do _ <- pt_reserve pos ptps_ovf ;
      puts pos [pt_opc_ext; pt_ext_ovf]
  | P_fup ip => pt_encode_ip pos pt_opc_fup ip      (* 311-312 *)
  | P_tip ip => pt_encode_ip pos pt_opc_tip ip      (* 314-315 *)
  | P_tip_pge ip => pt_encode_ip pos pt_opc_tip_pge ip  (* 317-319 *)
  | P_tip_pgd ip => pt_encode_ip pos pt_opc_tip_pgd ip  (* 321-323 *)
  | P_tnt_8 t =>                                    (* 325-343 *)
      if 7 <=? tnt_bit_size t then wlift (Err pte_bad_packet) else
      do _ <- pt_reserve pos ptps_tnt_8 ;
      let stop := tnt_bit_size t + pt_opm_tnt_8_shr in
      let opc := u8 (N.shiftl (tnt_payload t) pt_opm_tnt_8_shr) in
      put pos (N.lor opc (N.shiftl 1 stop))
  | P_tnt_64 t =>                                   (* 345-367 *)
      do _ <- pt_reserve pos ptps_tnt_64 ;
      if pt_pl_tnt_64_bits <=? tnt_bit_size t then wlift (Err pte_invalid) else
      let stop := N.shiftl 1 (tnt_bit_size t) in
      let tnt := tnt_payload t in
      if truth (N.ldiff tnt (stop - 1)) then wlift (Err pte_invalid) else
      do pos1 <- puts pos [pt_opc_ext; pt_ext_tnt_64] ;
      pt_encode_int pos1 (N.lor tnt stop) pt_pl_tnt_64_size
  | P_mode m =>                                     (* 369-409 *)
      do _ <- pt_reserve pos ptps_mode ;
      do mode <- wlift (mode_byte m) ;
      puts pos [pt_opc_mode; mode]
  | P_pip cr3 nr =>                                 (* 411-431 *)
      do _ <- pt_reserve pos ptps_pip ;
      let c := N.shiftr cr3 pt_pl_pip_shl in
      let c := shl64 c pt_pl_pip_shr in
      let c := if nr then N.lor c pt_pl_pip_nr else c in
      do pos1 <- puts pos [pt_opc_ext; pt_ext_pip] ;
      pt_encode_int pos1 c pt_pl_pip_size
  | P_tsc tsc =>                                    (* 433-443 *)
      do _ <- pt_reserve pos ptps_tsc ;
      do pos1 <- put pos pt_opc_tsc ;
      pt_encode_int pos1 tsc pt_pl_tsc_size
  | P_cbr ratio =>                                  (* 445-456 *)
      do _ <- pt_reserve pos ptps_cbr ;
      puts pos [pt_opc_ext; pt_ext_cbr; ratio; 0]
  | P_tma ctc fc =>                                 (* 458-479 *)
      do _ <- pt_reserve pos ptps_tma ;
      if truth (N.ldiff fc pt_pl_tma_fc_mask) then wlift (Err pte_bad_packet) else
      do pos1 <- puts pos [pt_opc_ext; pt_ext_tma] ;
      do pos2 <- pt_encode_int pos1 ctc pt_pl_tma_ctc_size ;
      do pos3 <- put pos2 0 ;
      pt_encode_int pos3 fc pt_pl_tma_fc_size
  | P_mtc ctc =>                                    (* 481-490 *)
      do _ <- pt_reserve pos ptps_mtc ;
      puts pos [pt_opc_mtc; ctc]
  | P_cyc value =>                                  (* 492-530 *)
      let c0 := N.shiftl (u8 value) pt_opm_cyc_shr in
      let b0 := N.lor pt_opc_cyc (u8 c0) in
      let ctc := N.shiftr value (8 - pt_opm_cyc_shr) in
      let b0 := if truth ctc then N.lor b0 pt_opm_cyc_ext else b0 in
      do rest <- wlift (cyc_bytes (pt_pl_cyc_max_size - 1) ctc) ;
      do _ <- pt_reserve pos (S (length rest)) ;
      puts pos (b0 :: rest)
  | P_stop =>                                       (* 532-541 *)
      do _ <- pt_reserve pos ptps_stop ;
      puts pos [pt_opc_ext; pt_ext_stop]
  | P_vmcs base =>                                  (* 543-555 *)
      do _ <- pt_reserve pos ptps_vmcs ;
      do pos1 <- puts pos [pt_opc_ext; pt_ext_vmcs] ;
      pt_encode_int pos1 (N.shiftr base pt_pl_vmcs_shl) pt_pl_vmcs_size
  | P_mnt pl =>                                     (* 557-569 *)
      do _ <- pt_reserve pos ptps_mnt ;
      do pos1 <- puts pos [pt_opc_ext; pt_ext_ext2; pt_ext2_mnt] ;
      pt_encode_int pos1 pl pt_pl_mnt_size
  | P_exstop ip =>                                  (* 571-586 *)
      do _ <- pt_reserve pos ptps_exstop ;
      let ext := if ip then pt_ext_exstop_ip else pt_ext_exstop in
      puts pos [pt_opc_ext; ext]
  | P_mwait hints ext =>                            (* 588-601 *)
      do _ <- pt_reserve pos ptps_mwait ;
      do pos1 <- puts pos [pt_opc_ext; pt_ext_mwait] ;
      do pos2 <- pt_encode_int pos1 hints pt_pl_mwait_hints_size ;
      pt_encode_int pos2 ext pt_pl_mwait_ext_size
  | P_pwre state sub_state hw =>                    (* 603-627 *)
      do _ <- pt_reserve pos ptps_pwre ;
      let pl := N.land (N.shiftl state pt_pl_pwre_state_shr)
                       pt_pl_pwre_state_mask in
      let pl := N.lor pl (N.land (N.shiftl sub_state pt_pl_pwre_sub_state_shr)
                                 pt_pl_pwre_sub_state_mask) in
      let pl := if hw then N.lor pl pt_pl_pwre_hw_mask else pl in
      do pos1 <- puts pos [pt_opc_ext; pt_ext_pwre] ;
      pt_encode_int pos1 pl pt_pl_pwre_size
  | P_pwrx last deepest interrupt store autonomous =>   (* 629-657 *)
      do _ <- pt_reserve pos ptps_pwrx ;
      let pl := N.land (N.shiftl last pt_pl_pwrx_last_shr)
                       pt_pl_pwrx_last_mask in
      let pl := N.lor pl (N.land (N.shiftl deepest pt_pl_pwrx_deepest_shr)
                                 pt_pl_pwrx_deepest_mask) in
      let pl := if interrupt then N.lor pl pt_pl_pwrx_wr_int else pl in
      let pl := if store then N.lor pl pt_pl_pwrx_wr_store else pl in
      let pl := if autonomous then N.lor pl pt_pl_pwrx_wr_hw else pl in
      do pos1 <- puts pos [pt_opc_ext; pt_ext_pwrx] ;
      pt_encode_int pos1 pl pt_pl_pwrx_size
  | P_ptw pl plc ip =>                              (* 659-686 *)
      do size <- wlift (pt_ptw_size plc) ;
      do _ <- pt_reserve pos (pt_opcs_ptw + size) ;
      let ext := u8 (N.lor pt_ext_ptw (N.shiftl plc pt_opm_ptw_pb_shr)) in
      let ext := if ip then N.lor ext pt_opm_ptw_ip else ext in
      do pos1 <- puts pos [pt_opc_ext; ext] ;
      pt_encode_int pos1 pl size
  | P_cfe type vector ip =>                         (* 688-707 *)
      do _ <- pt_reserve pos ptps_cfe ;
      let ty := N.land type pt_pl_cfe_type in
      let ty := if ip then N.lor ty pt_pl_cfe_ip else ty in
      puts pos [pt_opc_ext; pt_ext_cfe; ty; vector]
  | P_evd type pl =>                                (* 709-722 *)
      do _ <- pt_reserve pos ptps_evd ;
      do pos1 <- puts pos [pt_opc_ext; pt_ext_evd; N.land type pt_pl_evd_type] ;
      pt_encode_int pos1 pl pt_pl_evd_pl_size
  | P_trig trbv icnt ip icntv mult =>               (* 724-743 *)
      do _ <- pt_reserve pos (if icntv then ptps_trig_icnt else ptps_trig) ;
      let bits := N.lor (N.lor (N.shiftl (b2n ip) pt_pl_trig_ip_shr)
                               (N.shiftl (b2n icntv) pt_pl_trig_icntv_shr))
                        (N.shiftl (b2n mult) pt_pl_trig_mult_shr) in
      do pos1 <- puts pos [pt_opc_trig; bits; trbv] ;
      if icntv then pt_encode_int pos1 icnt pt_pl_trig_icnt_size
      else wret pos1
  | P_unknown _ => wlift (Err pte_bad_opc)          (* 745-747 *)
  | P_invalid => wlift (Err pte_bad_opc)
  end.

(** pt_enc_next(), pt_encoder.c:250-751: run the body at the current position
    and, on success, store the new position and return the difference. *)
Definition pt_enc_next (e : enc) (p : payload) : enc * res nat :=
  match enc_body (e_pos e) p (e_buf e) with
  | (buf, Ok pos) => (mk_enc buf pos, Ok (pos - e_pos e)%nat)
  | (buf, Err x) => (mk_enc buf (e_pos e), Err x)
  | (buf, UB u) => (mk_enc buf (e_pos e), UB u)
  end.

(** pt_encoder_init(), pt_encoder.c:38-54, on a valid configuration. *)
Definition pt_encoder_init (buf : list N) : enc := mk_enc buf 0.

(** pt_enc_sync_set(), pt_encoder.c:87-103.  The C code adds the 64-bit offset
    to a pointer; the model compares without pointer wrap-around. *)
Definition pt_enc_sync_set (e : enc) (offset : N) : enc * res unit :=
  if N.of_nat (length (e_buf e)) <? offset then (e, Err pte_eos)
  else (mk_enc (e_buf e) (N.to_nat offset), Ok tt).

(** pt_enc_get_offset(), pt_encoder.c:105-123. *)
Definition pt_enc_get_offset (e : enc) : N := N.of_nat (e_pos e).
