(** Calls on a decoder in any order. *)

From Coq Require Import List NArith ZArith Bool.
From Verif Require Import Base M_evdec M_event M_query M_asid M_ild M_ildtab M_insn M_insndec M_blk S_core S_x86 S_query.
Import ListNotations.
Open Scope N_scope.

(** ** The instruction flow decoder *)

Inductive icall := I_sync (o : qry_sync_op) | I_next | I_event.

Section INSN.
  Context {S C : Type} (im : image_if S C) (base : nat).

  Definition insn_call (d : insndec C) (c : icall) : insndec C * res N :=
    match c with
    | I_sync o => insn_sync im (fun q => qry_sync_step base q o) d
    | I_next => let '(d, _, r) := pt_insn_next im d in (d, r)
    | I_event => let '(d, _, r) := pt_insn_event im d in (d, r)
    end.
  (** Each call with its result.  Nothing follows undefined behaviour. *)
  Fixpoint insn_history (d : insndec C) (cs : list icall) : list (icall * res N) :=
    match cs with
    | [] => []
    | c :: cs =>
        let (d, r) := insn_call d c in
        (c, r) :: match r with UB _ => [] | _ => insn_history d cs end
    end.
End INSN.

(** ** The block decoder *)

Inductive bcall :=
| B_sync_forward | B_sync_backward (rounds : nat) | B_sync_set (offset : N) | B_next | B_event.

Section BLOCK.
  Context {S C : Type} (im : blk_image S C) (base : nat).

  Definition blk_call (d : blkdec C) (c : bcall) : blkdec C * res N :=
    match c with
    | B_sync_forward => pt_blk_sync_forward im base d
    | B_sync_backward n => pt_blk_sync_backward im n base d
    | B_sync_set off => pt_blk_sync_set im off d
    | B_next => let '(d, _, r) := pt_blk_next im d in (d, r)
    | B_event => let '(d, _, r) := pt_blk_event im d in (d, r)
    end.
  Fixpoint blk_history (d : blkdec C) (cs : list bcall) : list (bcall * res N) :=
    match cs with
    | [] => []
    | c :: cs =>
        let (d, r) := blk_call d c in
        (c, r) :: match r with UB _ => [] | _ => blk_history d cs end
    end.
End BLOCK.

(** ** Images *)

Section IMAGE.
  Context {S C : Type} (im : image_if S C).

  (** Reading gives at most as many bytes as were asked for. *)
  Definition given {A} (r : res A) (bs : A -> list N) (n : nat) : Prop :=
    match r with
    | Ok x => (length (bs x) <= n)%nat /\ bytes_ok (bs x)
    | Err _ => True
    | UB _ => False
    end.
  (** An image that can be used without undefined behaviour; nothing is said about what it
      contains, and it may fail in any way.  [held] is the condition of the section cache and
      [sec] that of the sections it provides. *)
  Record tame (held : C -> Prop) (sec : S -> Prop) : Prop := {
    tm_read : forall a ip n, (n <= 15)%nat -> given (im_read im a ip n) snd n;
    tm_sread : forall s ip, sec s -> given (im_sread im s ip 15) (fun bs => bs) 15;
    tm_lookup : forall c a ip, held c ->
      match im_lookup im c a ip with
      | (c', Ok (_, s)) => held c' /\ sec s
      | (c', Err _) => held c'
      | (_, UB _) => False
      end;
    tm_invalidate : forall c, held c ->
      match im_invalidate im c with (c', r) => held c' /\ forall u, r <> UB u end }.

  (** What the decoders read for the instruction at an address: 15 bytes at once, or fewer and
      then what follows, maybe from other sections. *)
  Inductive text (a : asid) (ip : N) : list N -> Prop :=
  | tx_read isid bs : im_read im a ip 15 = Ok (isid, bs) -> text a ip bs
  | tx_section s bs : im_sread im s ip 15 = Ok bs -> text a ip bs
  | tx_more raw isid bs : text a ip raw ->
      im_read im a (add64 ip (N.of_nat (length raw))) (15 - length raw) = Ok (isid, bs) ->
      text a ip (raw ++ bs).
  (** Fifteen bytes of memory, all of them prefixes, and the last two a REX2 prefix: see
      C52_overread. *)
  Definition rex2_text : Prop :=
    exists a ip pfx p, text a ip (pfx ++ [0xd5; p]) /\ length pfx = 13%nat /\
      Forall (fun b => prefix_byte ptem_64bit b = true) pfx.
End IMAGE.

(** What other decoders may do to the block caches: entries that are in use count from one to 255
    instructions, and no block cache is taken away. *)
Definition counts (cs : caches) : Prop :=
  forall k c j, cs k = Some c -> pt_bce_is_valid (bc_entry c j) = true -> 1 <= be_ninsn (bc_entry c j) < 256.
Definition harmless {C} (held : C -> Prop) (act : C -> caches -> C * caches) : Prop :=
  forall c cs, held c -> counts cs ->
    match act c cs with
    | (c', cs') => held c' /\ counts cs' /\ forall k, cs k <> None -> cs' k <> None
    end.
