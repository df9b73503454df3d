(** Base definitions shared by all model files.

    Error codes follow enum pt_error_code in
    /repo/libipt/include/intel-pt.h.in:120-204.  *)

From Coq Require Import List NArith ZArith Lia Bool.
Import ListNotations.
Open Scope N_scope.

(** intel-pt.h.in:120-204.  [pte_ok] (0) is represented by [Ok]. *)
Inductive pte : Type :=
| pte_internal | pte_invalid | pte_nosync | pte_bad_opc | pte_bad_packet
| pte_bad_context | pte_eos | pte_bad_query | pte_nomem | pte_bad_config
| pte_noip | pte_ip_suppressed | pte_nomap | pte_bad_insn | pte_no_time
| pte_no_cbr | pte_bad_image | pte_bad_lock | pte_not_supported
| pte_retstack_empty | pte_bad_retcomp | pte_bad_status_update
| pte_no_enable | pte_event_ignored | pte_overflow | pte_bad_file
| pte_bad_cpu.

(** Kinds of undefined behaviour of the C code.  These are outcomes of the
    model, not of the C program; the theorems say where they are impossible. *)
Inductive ub : Type :=
| ub_oob_read      (* read outside the trace buffer or another array *)
| ub_oob_write     (* write outside the trace buffer or another array *)
| ub_div_zero      (* division by zero *)
| ub_shift         (* shift count not smaller than the operand width *)
| ub_fuel          (* the fuel of a modelled loop ran out: divergence *)
| ub_uninit        (* use of an indeterminate value *)
| ub_uaf           (* use after free *)
| ub_relock        (* locking a non-recursive mutex twice *)
| ub_signed.       (* overflow of a signed integer *)

(** Result of a modelled C function: a value, [return -pte_e], or undefined
    behaviour. *)
Inductive res (A : Type) : Type :=
| Ok (a : A)
| Err (e : pte)
| UB (u : ub).
Arguments Ok {A} _.
Arguments Err {A} _.
Arguments UB {A} _.

Definition bind {A B} (m : res A) (f : A -> res B) : res B :=
  match m with
  | Ok a => f a
  | Err e => Err e
  | UB u => UB u
  end.

Declare Scope res_scope.
Delimit Scope res_scope with res.
Notation "'let*' x ':=' m 'in' k" :=
  (bind m (fun x => k)) (at level 200, x pattern, m at level 100,
                         k at level 200) : res_scope.
Open Scope res_scope.

Definition is_ok {A} (r : res A) : bool :=
  match r with Ok _ => true | _ => false end.
Definition is_err {A} (r : res A) : bool :=
  match r with Err _ => true | _ => false end.
Definition is_ub {A} (r : res A) : bool :=
  match r with UB _ => true | _ => false end.

Definition no_ub {A} (r : res A) : Prop := forall u, r <> UB u.

(** C truth value of a bit-field or mask expression. *)
Definition truth (n : N) : bool := negb (n =? 0).
Definition b2n (b : bool) : N := if b then 1 else 0.

(** Fixed-width truncation: conversion to an unsigned type of [w] bits. *)
Definition trunc (w : N) (n : N) : N := n mod 2 ^ w.
Definition u8 := trunc 8.
Definition u16 := trunc 16.
Definition u32 := trunc 32.
Definition u64 := trunc 64.

(** Addition, subtraction and shift-left on 64-bit unsigned integers. *)
Definition add64 (a b : N) : N := (a + b) mod 2 ^ 64.
Definition sub64 (a b : N) : N := (a + (2 ^ 64 - b mod 2 ^ 64)) mod 2 ^ 64.
Definition shl64 (a k : N) : N := N.shiftl a k mod 2 ^ 64.

(** A byte string as found in a trace buffer. *)
Definition byte_ok (b : N) : Prop := b < 256.
Definition bytes_ok (l : list N) : Prop := Forall byte_ok l.

(** Read byte [i] of a buffer; reading outside is undefined behaviour. *)
Definition rd (buf : list N) (i : nat) : res N :=
  match nth_error buf i with
  | Some b => Ok b
  | None => UB ub_oob_read
  end.

(** Replace element [i] of an array. *)
Definition set_at {A : Type} (l : list A) (i : nat) (x : A) : list A :=
  firstn i l ++ x :: skipn (S i) l.
