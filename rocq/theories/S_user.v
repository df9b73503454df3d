(** Structures that are handed over for a size that the user declares, byte by byte. *)

From Coq Require Import List NArith PeanoNat.
Import ListNotations.
Open Scope N_scope.

(** Byte [i] of the user's memory [u'] after a structure [s] was handed over for [size] bytes:
    what both know of the structure, zero for what only the user knows, and nothing is
    changed behind the user's structure. *)
Definition handed (u : list N) (size : nat) (s : list N) (u' : list N) : Prop :=
  length u' = length u /\
  (forall i, (i < size)%nat -> (i < length s)%nat -> nth_error u' i = nth_error s i) /\
  (forall i, (length s <= i < size)%nat -> nth_error u' i = Some 0) /\
  (forall i, (size <= i)%nat -> nth_error u' i = nth_error u i).

(** The same, but what only the user knows is left alone. *)
Definition handed_part (u : list N) (size : nat) (s : list N) (u' : list N) : Prop :=
  length u' = length u /\
  (forall i, (i < size)%nat -> (i < length s)%nat -> nth_error u' i = nth_error s i) /\
  (forall i, (size <= i \/ length s <= i)%nat -> nth_error u' i = nth_error u i).
