(** The memory of a block cache, pt_block_cache.c.

    An entry is a 32-bit word with bit fields, allocated from the least significant bit on, as
    GCC does on x86.  malloc() may fail: [mem] says whether it succeeds.  Null pointers are not
    modelled. *)

From Coq Require Import List NArith ZArith Bool.
From Verif Require Import Base M_event M_blk.
Import ListNotations.
Open Scope N_scope.

(** enum pt_exec_mode, intel-pt.h.in:648-653, and enum pt_bcache_qualifier,
    pt_block_cache.h:50-112. *)
Definition mode_code (m : exec_mode) : N :=
  match m with ptem_unknown => 0 | ptem_16bit => 1 | ptem_32bit => 2 | ptem_64bit => 3 end.
Definition mode_from (n : N) : exec_mode :=
  match n with 0 => ptem_unknown | 1 => ptem_16bit | 2 => ptem_32bit | _ => ptem_64bit end.
Definition qual_code (q : qualifier) : N :=
  match q with
  | ptbq_again => 0 | ptbq_cond => 1 | ptbq_ind_call => 2 | ptbq_return => 3 | ptbq_indirect => 4
  | ptbq_decode => 5
  end.
(** Other values cannot be stored; they are read as [ptbq_decode]. *)
Definition qual_from (n : N) : qualifier :=
  match n with
  | 0 => ptbq_again | 1 => ptbq_cond | 2 => ptbq_ind_call | 3 => ptbq_return | 4 => ptbq_indirect
  | _ => ptbq_decode
  end.

(** struct pt_bcache_entry, pt_block_cache.h:124-157. *)
Definition pack (e : entry) : N :=
  Z.to_N (Z.modulo (be_disp e) (2 ^ 16)) + 2 ^ 16 * (be_ninsn e mod 2 ^ 8) + 2 ^ 24 * mode_code (be_mode e) +
  2 ^ 26 * qual_code (be_qual e) + 2 ^ 29 * (be_isize e mod 2 ^ 3).
Definition unpack (w : N) : entry :=
  mk_entry (sx16 (Z.of_N (w mod 2 ^ 16))) (w / 2 ^ 16 mod 2 ^ 8) (mode_from (w / 2 ^ 24 mod 2 ^ 2))
    (qual_from (w / 2 ^ 26 mod 2 ^ 3)) (w / 2 ^ 29 mod 2 ^ 3).

(** struct pt_block_cache, pt_block_cache.h:181-195: [nentries] and the memory behind it. *)
Record store := mk_store { st_n : N; st_words : list N }.

(** pt_bcache_alloc(), pt_block_cache.c:36-56, with a 64-bit size_t. *)
Definition pt_bcache_alloc (nentries : N) (mem : bool) : option store :=
  if (nentries =? 0) || (0xffffffff <? nentries) then None
  else if mem then Some (mk_store (nentries mod 2 ^ 32) (repeat 0 (N.to_nat nentries)))
  else None.

Fixpoint set_nth (n : nat) (x : N) (l : list N) : list N :=
  match l, n with
  | [], _ => []
  | _ :: t, O => x :: t
  | y :: t, S n => y :: set_nth n x t
  end.

(** pt_bcache_add(), pt_block_cache.c:64-79, and pt_bcache_lookup(), pt_block_cache.c:81-98. *)
Definition bcache_add (s : store) (index : N) (e : entry) : res store :=
  if st_n s <=? index then Err pte_internal
  else let i := N.to_nat (index mod 2 ^ 32) in
       if Nat.ltb i (length (st_words s)) then Ok (mk_store (st_n s) (set_nth i (pack e) (st_words s)))
       else UB ub_oob_write.
Definition bcache_lookup (s : store) (index : N) : res entry :=
  if st_n s <=? index then Err pte_internal
  else match nth_error (st_words s) (N.to_nat (index mod 2 ^ 32)) with
       | Some w => Ok (unpack w)
       | None => UB ub_oob_read
       end.
