(** Last-IP tracking: /repo/libipt/src/pt_last_ip.c. *)

From Verif Require Import Base M_packet.
From Coq Require Import NArith.
Open Scope N_scope.

(** struct pt_last_ip, internal/include/pt_last_ip.h. *)
Record last_ip := mk_last_ip { li_ip : N; li_have_ip : bool; li_suppressed : bool }.

(** pt_last_ip_init(), pt_last_ip.c:35-43. *)
Definition pt_last_ip_init : last_ip := mk_last_ip 0 false false.

(** pt_last_ip_query(), pt_last_ip.c:45-66.  On error the C function also sets
    the user's IP to zero. *)
Definition pt_last_ip_query (l : last_ip) : res N :=
  if negb (li_have_ip l) then Err pte_noip
  else if li_suppressed l then Err pte_ip_suppressed
  else Ok (li_ip l).

(** ~0ull << sign, and complement of a 64-bit value. *)
Definition not64 (v : N) : N := N.lxor v (N.ones 64).

(** sext(), pt_last_ip.c:68-77. *)
Definition sext (val sign : N) : N :=
  let signbit := shl64 1 (sign - 1) in
  let mask := shl64 (N.ones 64) sign in
  if truth (N.land val signbit) then N.lor val mask else N.land val (not64 mask).

(** pt_last_ip_update_ip(), pt_last_ip.c:79-128. *)
Definition pt_last_ip_update_ip (l : last_ip) (p : packet_ip) : last_ip * res unit :=
  let set ip := (mk_last_ip ip true false, Ok tt) in
  let upd mask := set (N.lor (N.land (li_ip l) (not64 mask)) (N.land (ip_ip p) mask)) in
  if ip_ipc p =? pt_ipc_suppressed then
    (mk_last_ip (li_ip l) (li_have_ip l) true, Ok tt)
  else if ip_ipc p =? pt_ipc_sext_48 then set (sext (ip_ip p) 48)
  else if ip_ipc p =? pt_ipc_update_16 then upd 0xffff
  else if ip_ipc p =? pt_ipc_update_32 then upd 0xffffffff
  else if ip_ipc p =? pt_ipc_update_48 then upd 0xffffffffffff
  else if ip_ipc p =? pt_ipc_full then set (ip_ip p)
  else (l, Err pte_bad_packet).
