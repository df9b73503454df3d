(** Several block decoders that take turns and share the block caches of their sections. *)

From Coq Require Import List NArith Bool PeanoNat.
From Verif Require Import Base M_asid M_insndec M_blk S_blk.
Import ListNotations.
Open Scope N_scope.

(** A decoder, the result of its last call, and what it has shown so far. *)
Record part (C : Type) := mk_part { pa_dec : blkdec C; pa_last : res N; pa_seen : list bobs }.
Arguments mk_part {C}. Arguments pa_dec {C}. Arguments pa_last {C}. Arguments pa_seen {C}.
Record system (C : Type) := mk_system { sy_part : nat -> part C; sy_caches : caches }.
Arguments mk_system {C}. Arguments sy_part {C}. Arguments sy_caches {C}.

Section SYSTEM.
  (** Each decoder has its own image. *)
  Context {S C : Type} (im : nat -> blk_image S C).

  (** The decoder [i] makes the next call of its loop, with the block caches as the others left
      them.  After an error it makes no more calls. *)
  Definition turn (i : nat) (s : system C) : system C :=
    let p := sy_part s i in
    match pa_last p with
    | Ok st =>
        match blk_drive1 (im i) (bd_set_caches (pa_dec p) (sy_caches s)) st with
        | (d, o, r) =>
            mk_system (fun j => if (j =? i)%nat then mk_part d r (pa_seen p ++ o) else sy_part s j)
                      (bd_caches d)
        end
    | _ => s
    end.
  (** The program ends if the C standard does not say what a call does. *)
  Fixpoint turns (l : list nat) (s : system C) : system C :=
    match l with
    | [] => s
    | i :: l =>
        let s := turn i s in
        match pa_last (sy_part s i) with UB _ => s | _ => turns l s end
    end.
End SYSTEM.
