(** How packets, events, instructions and blocks are handed to the user, and how an event is
    taken from the user, for any size of the structure that the user declares.  Structures
    are byte strings as in M_asid; [n] is the size of the structure that the library was
    built with, [u] is the user's memory from the structure's address on. *)

From Coq Require Import List NArith Bool PeanoNat.
From Verif Require Import Base M_asid M_insn M_insndec M_blk.
Import ListNotations.
Open Scope N_scope.

(** memset(u + off, 0, len) *)
Definition memset_zero (u : list N) (off len : nat) : res (list N) :=
  if Nat.ltb (length u) (off + len) then UB ub_oob_write
  else Ok (firstn off u ++ repeat 0 len ++ skipn (off + len) u).

(** The result of a copy: on undefined behaviour the user's memory is given as it was. *)
Definition copied (u : list N) (m : res (list N)) : list N * res unit :=
  match m with Ok u' => (u', Ok tt) | Err e => (u, Err e) | UB x => (u, UB x) end.

(** pkt_to_user(), pt_packet_decoder.c:215-236.  [same] tells that the user's structure is
    the one the packet was decoded into. *)
Definition pkt_to_user (n : nat) (same : bool) (u : list N) (size : nat) (pkt : list N) : list N * res unit :=
  if same then (u, Ok tt) else
  copied u
    (let* us := (if Nat.ltb n size then (let* u := memset_zero u n (size - n) in Ok (u, n)) else Ok (u, size)) in
     memcpy (fst us) pkt (snd us)).

(** pt_evt_to_user(), pt_event_decoder.c:3923-3939. *)
Definition pt_evt_to_user (n : nat) (u : list N) (size : nat) (ev : list N) : list N * res unit :=
  copied u
    (let* us := (if Nat.ltb n size then (let* u := memset_zero u n (size - n) in Ok (u, n)) else Ok (u, size)) in
     memcpy (fst us) ev (snd us)).

(** insn_to_user(), pt_insn_decoder.c:1543-1563. *)
Definition insn_to_user (n : nat) (same : bool) (u : list N) (size : nat) (insn : list N) : list N * res unit :=
  if same then (u, Ok tt) else
  copied u
    (let* us := (if Nat.ltb n size then (let* u := memset_zero u n (size - n) in Ok (u, n)) else Ok (u, size)) in
     memcpy (fst us) insn (snd us)).

(** block_to_user(), pt_block_decoder.c:671-690. *)
Definition block_to_user (n : nat) (same : bool) (u : list N) (size : nat) (block : list N) : list N * res unit :=
  if same then (u, Ok tt) else
  copied u
    (let* us := (if Nat.ltb n size then (let* u := memset_zero u n (size - n) in Ok (u, n)) else Ok (u, size)) in
     memcpy (fst us) block (snd us)).

(** The copy in pt_qry_event(), pt_query_decoder.c:534-566; offsetof(struct pt_event, variant)
    is 40 (intel-pt.h.in:1396-1430). *)
Definition off_event_variant : nat := 40.
Definition qry_event_to_user (n : nat) (u : list N) (size : nat) (ev : list N) : list N * res unit :=
  if Nat.ltb size off_event_variant then (u, Err pte_invalid) else
  copied u (memcpy u ev (if Nat.ltb n size then n else size)).

(** The copy in pt_insn_event(), pt_insn_decoder.c:2270-2279. *)
Definition insn_event_to_user (n : nat) (u : list N) (size : nat) (ev : list N) : list N * res unit :=
  copied u (memcpy u ev (if Nat.ltb n size then n else size)).

(** The copies in pt_blk_event(), pt_block_decoder.c:4150-4156, 4188, 4403. *)
Definition blk_event_to_user (n : nat) (u : list N) (size : nat) (ev : list N) : list N * res unit :=
  copied u (memcpy u ev (if Nat.ltb n size then n else size)).

(** pt_sb_event_from_user(), sideband/src/pt_sb_session.c:375-397.  [event] is the memory of the
    copy, which is not initialized before; offsetof(struct pt_event, reserved) is 24. *)
Definition off_event_reserved : nat := 24.
Definition pt_sb_event_from_user (n : nat) (event u : list N) (size : nat) : list N * res unit :=
  if Nat.ltb size off_event_reserved then (event, Err pte_invalid) else
  copied event
    (let* es := (if Nat.ltb n size then Ok (event, n)
                 else let* e := memset_zero event size (n - size) in Ok (e, size)) in
     memcpy (fst es) u (snd es)).

(** ** The functions that use them *)

(** Bytes of a structure put at the beginning of the user's memory. *)
Definition in_place (u : list N) (bytes : list N) : list N := bytes ++ skipn (length bytes) u.

(** pt_pkt_next(), pt_packet_decoder.c:964-985.  [decode] is pt_pkt_decode(): it turns the
    memory of a packet into the packet's bytes.  [local] is the memory of the local packet.
    The second component of the result is the memory of the user; the position moves by
    the size on success only. *)
Definition pt_pkt_next_user (n : nat) (decode : list N -> list N * res N) (local : list N) (pos : N)
           (u : list N) (psize : nat) : N * list N * res N :=
  let same := Nat.eqb psize n in
  let (pkt, r) := decode (if same then firstn n u else local) in
  let u := if same then in_place u pkt else u in
  match r with
  | Ok size =>
      match pkt_to_user n same u psize pkt with
      | (u, Ok _) => (pos + size, u, Ok size)
      | (u, Err e) => (pos, u, Err e)
      | (u, UB x) => (pos, u, UB x)
      end
  | Err e => (pos, u, Err e)
  | UB x => (pos, u, UB x)
  end.

Section DECODERS.
  Context {S C : Type}.

  (** pt_insn_next(), pt_insn_decoder.c:1639-1725, for a layout [bytes] of struct pt_insn.
      The instruction is not given to the user if the section lookup fails, unless it was
      written into the user's structure right away. *)
  Definition insn_lookup_failed (im : image_if S C) (d : insndec C) : bool :=
    match snd (im_lookup im (id_scache d) (id_asid d) (id_ip d)) with
    | Ok _ | Err pte_nomap => false
    | _ => true
    end.
  Definition pt_insn_next_user (bytes : insn -> list N) (n : nat) (im : image_if S C) (d : insndec C)
             (u : list N) (size : nat) : insndec C * list N * res N :=
    let same := Nat.eqb size n in
    match pt_insn_next im d with
    | (d', None, r) => (d', u, r)
    | (d', Some i, r) =>
        let u := if same then in_place u (bytes i) else u in
        if insn_lookup_failed im d then (d', u, r) else
        match insn_to_user n same u size (bytes i) with
        | (u, Ok _) => (d', u, r)
        | (u, Err e) => (d', u, Err e)
        | (u, UB x) => (d', u, UB x)
        end
    end.

  (** pt_blk_next(), pt_block_decoder.c:3830-3866, for a layout [bytes] of struct pt_block. *)
  Definition pt_blk_next_user (bytes : block -> list N) (n : nat) (im : blk_image S C) (d : blkdec C)
             (u : list N) (size : nat) : blkdec C * list N * res N :=
    let same := Nat.eqb size n in
    match pt_blk_next im d with
    | (d', b, r) =>
        let u := if same then in_place u (bytes b) else u in
        match block_to_user n same u size (bytes b) with
        | (u, Ok _) => (d', u, r)
        | (u, Err e) => (d', u, Err e)
        | (u, UB x) => (d', u, UB x)
        end
    end.
End DECODERS.
