(** The block cache: /repo/libipt/src/pt_block_cache.c. *)

From Verif Require Import Base.
From Coq Require Import List Bool NArith ZArith PeanoNat.
Import ListNotations.
Open Scope N_scope.

(** enum pt_bcache_qualifier, internal/include/pt_block_cache.h:45-109. *)
Definition ptbq_again : N := 0.
Definition ptbq_cond : N := 1.
Definition ptbq_ind_call : N := 2.
Definition ptbq_return : N := 3.
Definition ptbq_indirect : N := 4.
Definition ptbq_decode : N := 5.

(** struct pt_bcache_entry, internal/include/pt_block_cache.h:123-165. *)
Record bcache_entry := mk_bce {
  bce_displacement : Z; bce_ninsn : N; bce_mode : N; bce_qualifier : N; bce_isize : N }.

(** The all-zero entry written by memset(); its mode is ptem_unknown. *)
Definition bce_zero : bcache_entry := mk_bce 0%Z 0 0 0 0.

(** pt_bce_is_valid(), internal/include/pt_block_cache.h:180-184. *)
Definition pt_bce_is_valid (b : bcache_entry) : bool := negb (bce_mode b =? 0).

(** struct pt_block_cache: the entries; nentries is their number. *)
Definition bcache := list bcache_entry.

(** pt_bcache_alloc(), pt_block_cache.c:36-56, on a 64-bit machine; [alloc_ok] says
    whether malloc() succeeds. *)
Definition pt_bcache_alloc (alloc_ok : bool) (nentries : N) : option bcache :=
  if (nentries =? 0) || (0xffffffff <? nentries) then None
  else if negb alloc_ok then None
  else Some (repeat bce_zero (N.to_nat nentries)).

(** pt_bcache_add(), pt_block_cache.c:63-78. *)
Definition pt_bcache_add (c : bcache) (index : N) (e : bcache_entry)
  : bcache * res unit :=
  if N.of_nat (length c) <=? index then (c, Err pte_internal)
  else (set_at c (N.to_nat index) e, Ok tt).

(** pt_bcache_lookup(), pt_block_cache.c:80-95. *)
Definition pt_bcache_lookup (c : bcache) (index : N) : res bcache_entry :=
  if N.of_nat (length c) <=? index then Err pte_internal
  else match nth_error c (N.to_nat index) with
       | Some e => Ok e
       | None => UB ub_oob_read
       end.
