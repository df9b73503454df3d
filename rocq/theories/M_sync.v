(** Synchronisation onto PSB packets: /repo/libipt/src/pt_sync.c and the
    synchronisation functions of /repo/libipt/src/pt_packet_decoder.c.

    Positions are indices into the trace buffer.  The search is by aligned 64-bit
    words, so it depends on the address of the buffer: [base] is that address
    (config->begin as an integer).  The words are read in little-endian byte order
    (libipt runs on little-endian machines). *)

From Verif Require Import Base M_packet M_config M_pktdec.
From Coq Require Import List NArith Bool PeanoNat.
Import ListNotations.
Open Scope N_scope.

(** pt_psb_lohi, pt_opcodes.h:168. *)
Definition pt_psb_lohi := N.lor pt_psb_lo (N.shiftl pt_psb_hi 8).

(** psb_pattern, pt_sync.c:41-46. *)
Definition rep4 (w : N) : N :=
  N.lor (N.lor (N.lor w (N.shiftl w 16)) (N.shiftl w 32)) (N.shiftl w 48).
Definition psb_pattern_0 : N := rep4 pt_psb_lohi.
Definition psb_pattern_1 : N := rep4 pt_psb_hilo.

(** align(), pt_sync.c:58-61, as a function on indices: the smallest index at or
    after [pos] whose address is a multiple of eight. *)
Definition align (base pos : nat) : nat :=
  ((base + pos + 8 - 1) / 8 * 8 - base)%nat.

(** truncate(), pt_sync.c:48-56, on indices.  The result of the C function may lie
    before the buffer; the (natural number) subtraction then gives zero, which the
    caller treats in the same way. *)
Definition truncate (base pos : nat) : nat := ((base + pos) / 8 * 8 - base)%nat.

(** The loop in pt_find_psb(), pt_sync.c:88-99.  Each iteration consumes two bytes
    of the buffer, so [fuel = length buf] suffices. *)
Fixpoint psb_run_end (fuel : nat) (buf : list N) (pos : nat) : res nat :=
  if Nat.leb (length buf) (pos + 1) then Ok pos else
  match fuel with
  | O => UB ub_fuel
  | S fuel' =>
      let* hi := rd buf pos in
      let* lo := rd buf (pos + 1) in
      if negb (hi =? pt_psb_hi) then Ok pos
      else if negb (lo =? pt_psb_lo) then Ok pos
      else psb_run_end fuel' buf (pos + 2)
  end.

(** pt_find_psb(), pt_sync.c:63-119.  [Ok None] is NULL. *)
Definition pt_find_psb (buf : list N) (pos : nat) : res (option nat) :=
  let* b := rd buf pos in
  let pos := if negb (b =? pt_psb_hi) then (pos + 1)%nat else pos in
  let* pos := psb_run_end (length buf) buf pos in
  if Nat.ltb pos ptps_psb then Ok None else
  let pos := (pos - ptps_psb)%nat in
  let* b0 := rd buf pos in
  if negb (b0 =? pt_opc_ext) then Ok None else
  let* b1 := rd buf (pos + 1) in
  if negb (b1 =? pt_ext_psb) then Ok None else
  match pt_pkt_read_psb buf pos with
  | Ok _ => Ok (Some pos)
  | Err _ => Ok None
  | UB u => UB u
  end.

(** The 64-bit word at [pos] is one of the two patterns, pt_sync.c:189-191 and
    236-238. *)
Definition is_psb_word (buf : list N) (pos : nat) : res bool :=
  let* val := pt_pkt_read_value buf pos 8 in
  Ok ((val =? psb_pattern_0) || (val =? psb_pattern_1)).

(** The loop of pt_sync_forward(), pt_sync.c:181-207. *)
Fixpoint sync_forward_loop (fuel : nat) (buf : list N) (start pos : nat)
  : res nat :=
  if Nat.ltb (length buf) (pos + 8) then Err pte_eos else
  match fuel with
  | O => UB ub_fuel
  | S fuel' =>
      let* m := is_psb_word buf pos in
      if negb m then sync_forward_loop fuel' buf start (pos + 8) else
      let* o := pt_find_psb buf pos in
      match o with
      | None => sync_forward_loop fuel' buf start (pos + 8)
      | Some current =>
          if Nat.ltb current start
          then sync_forward_loop fuel' buf start (pos + 8)
          else Ok current
      end
  end.

(** pt_sync_forward(), pt_sync.c:162-208. *)
Definition pt_sync_forward (base : nat) (buf : list N) (pos : nat) : res nat :=
  if Nat.ltb (length buf) pos then Err pte_internal else
  sync_forward_loop (length buf) buf pos (align base pos).

(** The loop of pt_sync_backward(), pt_sync.c:228-248. *)
Fixpoint sync_backward_loop (fuel : nat) (buf : list N) (pos : nat) : res nat :=
  if Nat.ltb pos 8 then Err pte_eos else
  match fuel with
  | O => UB ub_fuel
  | S fuel' =>
      let pos := (pos - 8)%nat in
      let* m := is_psb_word buf pos in
      if negb m then sync_backward_loop fuel' buf pos else
      let* o := pt_find_psb buf pos in
      match o with
      | None => sync_backward_loop fuel' buf pos
      | Some next => Ok next
      end
  end.

(** pt_sync_backward(), pt_sync.c:210-249. *)
Definition pt_sync_backward (base : nat) (buf : list N) (pos : nat) : res nat :=
  if Nat.ltb (length buf) pos then Err pte_internal else
  sync_backward_loop (length buf) buf (truncate base pos).

(** pt_sync_set(), pt_sync.c:131-160; [pos] is an index, so it is not before the
    buffer. *)
Definition pt_sync_set (buf : list N) (pos : nat) : res nat :=
  if Nat.ltb (length buf) pos then Err pte_eos else
  if Nat.ltb (length buf) (pos + 2) then Err pte_eos else
  let* b0 := rd buf pos in
  if negb (b0 =? pt_opc_ext) then Err pte_nosync else
  let* b1 := rd buf (pos + 1) in
  if negb (b1 =? pt_ext_psb) then Err pte_nosync else
  let* _ := pt_pkt_read_psb buf pos in
  Ok pos.

Definition set_sync (d : pktdec) (pos : nat) : pktdec :=
  mk_pktdec (pd_config d) (pd_buf d) (Some pos) (Some pos).

(** pt_pkt_sync_forward(), pt_packet_decoder.c:89-127. *)
Definition pt_pkt_sync_forward (base : nat) (d : pktdec) : pktdec * res unit :=
  let pos := match pd_pos d with Some p => p | None => O end in
  let pos := match pd_sync d with
             | Some s => if Nat.eqb pos s then (pos + ptps_psb)%nat else pos
             | None => pos
             end in
  let space := pos in
  let space := if Nat.leb ptps_psb space then (ptps_psb - 1)%nat else space in
  let pos := (pos - space)%nat in
  match pt_sync_forward base (pd_buf d) pos with
  | Ok sync => (set_sync d sync, Ok tt)
  | Err e => (d, Err e)
  | UB u => (d, UB u)
  end.

(** pt_pkt_sync_backward(), pt_packet_decoder.c:129-149. *)
Definition pt_pkt_sync_backward (base : nat) (d : pktdec) : pktdec * res unit :=
  let pos := match pd_pos d with Some p => p | None => length (pd_buf d) end in
  match pt_sync_backward base (pd_buf d) pos with
  | Ok sync => (set_sync d sync, Ok tt)
  | Err e => (d, Err e)
  | UB u => (d, UB u)
  end.
