(** The cache of taken/not-taken bits: /repo/libipt/src/pt_tnt_cache.c. *)

From Verif Require Import Base.
From Coq Require Import NArith.
Open Scope N_scope.

(** struct pt_tnt_cache, internal/include/pt_tnt_cache.h: the bits, and a one-hot
    index of the next bit (zero if the cache is empty). *)
Record tnt_cache := mk_tnt_cache { tc_tnt : N; tc_index : N }.

(** pt_tnt_cache_init(), pt_tnt_cache.c:35-42. *)
Definition pt_tnt_cache_init : tnt_cache := mk_tnt_cache 0 0.

(** pt_tnt_cache_is_empty(), pt_tnt_cache.c:44-50. *)
Definition pt_tnt_cache_is_empty (c : tnt_cache) : bool := tc_index c =? 0.

(** pt_tnt_cache_query(), pt_tnt_cache.c:52-66. *)
Definition pt_tnt_cache_query (c : tnt_cache) : tnt_cache * res bool :=
  if tc_index c =? 0 then (c, Err pte_bad_query)
  else (mk_tnt_cache (tc_tnt c) (N.shiftr (tc_index c) 1),
        Ok (truth (N.land (tc_tnt c) (tc_index c)))).

(** pt_tnt_cache_add(), pt_tnt_cache.c:68-92.  Shifting a 64-bit value by 64 or
    more is undefined behaviour in C; [size] is an uint8_t. *)
Definition pt_tnt_cache_add (c : tnt_cache) (tnt size : N) : tnt_cache * res unit :=
  if size =? 0 then (c, Ok tt) else
  if 64 <=? size then (c, UB ub_shift) else
  let index := if truth (tc_index c) then shl64 (tc_index c) size
               else shl64 1 (size - 1) in
  if index =? 0 then (c, Err pte_overflow) else
  (mk_tnt_cache (N.lor (shl64 (tc_tnt c) size) (N.land tnt (shl64 1 size - 1))) index,
   Ok tt).
