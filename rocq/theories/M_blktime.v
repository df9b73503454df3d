(** What a block decoder tells about the time. *)

From Coq Require Import NArith.
From Verif Require Import Base M_blk.
Open Scope N_scope.

(** pt_blk_time(), pt_block_decoder.c:631-642.  It has no errors but for null pointers. *)
Definition pt_blk_time {C} (d : blkdec C) : N * N * N := (bd_tsc d, bd_lost_mtc d, bd_lost_cyc d).
(** pt_blk_core_bus_ratio(), pt_block_decoder.c:644-652. *)
Definition pt_blk_core_bus_ratio {C} (d : blkdec C) : N := bd_cbr d.
