(** The return-address stack: /repo/libipt/src/pt_retstack.c. *)

From Verif Require Import Base.
From Coq Require Import List NArith PeanoNat.
Import ListNotations.
Open Scope nat_scope.

(** pt_retstack_size, internal/include/pt_retstack.h:36-39. *)
Definition pt_retstack_size : nat := 64.

(** struct pt_retstack, internal/include/pt_retstack.h:41-57: an array with one
    more element than the stack size, and the indices of the top (next free) and
    the bottom element. *)
Record retstack := mk_retstack { rs_stack : list N; rs_top : nat; rs_bottom : nat }.

(** pt_retstack_init(), pt_retstack.c:35-42.  The array is not initialised in C; its
    initial content is a parameter. *)
Definition pt_retstack_init (stack : list N) : retstack := mk_retstack stack 0 0.

(** pt_retstack_is_empty(), pt_retstack.c:44-50. *)
Definition pt_retstack_is_empty (r : retstack) : bool := Nat.eqb (rs_top r) (rs_bottom r).

(** pt_retstack_pop(), pt_retstack.c:52-72. *)
Definition pt_retstack_pop (r : retstack) : retstack * res N :=
  let top := rs_top r in
  if Nat.eqb top (rs_bottom r) then (r, Err pte_retstack_empty) else
  let top := match top with O => pt_retstack_size | S t => t end in
  (mk_retstack (rs_stack r) top (rs_bottom r), rd (rs_stack r) top).

(** pt_retstack_push(), pt_retstack.c:74-95. *)
Definition pt_retstack_push (r : retstack) (ip : N) : retstack * res unit :=
  let top := rs_top r in
  let bottom := rs_bottom r in
  if Nat.leb (length (rs_stack r)) top then (r, UB ub_oob_write) else
  let stack := set_at (rs_stack r) top ip in
  let top := if Nat.eqb top pt_retstack_size then 0 else S top in
  let bottom := if Nat.eqb bottom top
                then (if Nat.eqb bottom pt_retstack_size then 0 else S bottom)
                else bottom in
  (mk_retstack stack top bottom, Ok tt).
