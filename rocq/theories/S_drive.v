(** The documented way to use the instruction flow decoder (doc/howto_libipt.md:884-1010): as
    long as an event is pending call pt_insn_event(), otherwise call pt_insn_next(); stop at
    the first error. *)

From Coq Require Import List NArith ZArith Bool.
From Verif Require Import Base M_event M_asid M_ildtab M_ild M_insn M_query M_insndec S_insn S_flow.
Import ListNotations.
Open Scope N_scope.

Section DRIVE.
  Context {S C : Type} (im : image_if S C).

  (** If there is an error an instruction counts if its class is set
      (doc/howto_libipt.md:920-921). *)
  Definition seen (i : option insn) (r : res N) : list obs :=
    match i with
    | Some i =>
        match r, in_iclass i with
        | Ok _, _ => [O_insn i]
        | _, ptic_unknown => []
        | _, _ => [O_insn i]
        end
    | None => []
    end.

  (** One call. *)
  Definition drive1 (d : insndec C) (st : N) : insndec C * list obs * res N :=
    if flag st pts_event_pending then
      match pt_insn_event im d with
      | (d, e, r) => (d, match e with Some e => [O_event e] | None => [] end, r)
      end
    else
      match pt_insn_next im d with
      | (d, i, r) => (d, seen i r, r)
      end.

  (** At most [n] calls: what is seen, and the last status. *)
  Fixpoint drive (n : nat) (d : insndec C) (st : N) : list obs * insndec C * res N :=
    match n with
    | O => ([], d, Ok st)
    | Datatypes.S n =>
        match drive1 d st with
        | (d, o, Ok st) => match drive n d st with (os, d, r) => (o ++ os, d, r) end
        | (d, o, r) => (o, d, r)
        end
    end.

  (** The image shows the memory of each address space.  [cached c a] says that the section in
      the decoder's cache [c] may be used in address space [a]: what it provides is
      memory of [a]. *)
  Record image_shows (mem : asid -> memory) (cached : C -> asid -> Prop) : Prop := {
    is_read : forall a, reads (mem a) (im_read im a);
    is_lookup : forall c a ip, cached c a ->
      match im_lookup im c a ip with
      | (c', Ok (isid, s)) =>
          cached c' a /\ (exists b, mem a ip = Some (b, isid)) /\
          (exists l, im_sread im s ip 15 = Ok l /\ (1 <= length l <= 15)%nat /\ bytes_ok l /\
                     bytes_at (mem a) ip l)
      | (c', Err e) => cached c' a /\ e <> pte_eos
      | (_, UB _) => False
      end;
    is_invalidate : forall c a, cached c a ->
      match im_invalidate im c with
      | (c', Ok _) => forall a, cached c' a
      | (c', Err e) => cached c' a /\ e <> pte_eos
      | (_, UB _) => False
      end }.

  (** Looking up a section does not fail if there is one. *)
  Definition image_total (cached : C -> asid -> Prop) : Prop :=
    (forall c a ip e, cached c a -> snd (im_lookup im c a ip) = Err e -> e = pte_nomap) /\
    (forall c a e, cached c a -> snd (im_invalidate im c) <> Err e).
End DRIVE.
