(** The event queue: /repo/libipt/src/pt_event_queue.c.

    The queue is parameterised by the type of events.  A pointer to an event in the
    queue is the index of its slot.  pt_evq_enqueue() returns a pointer to a cleared
    event that the caller fills in; here the caller passes the complete event. *)

From Verif Require Import Base.
From Coq Require Import List NArith PeanoNat.
Import ListNotations.
Open Scope nat_scope.

(** evq_max, internal/include/pt_event_queue.h:48-51. *)
Definition evq_max : nat := 16.

(** struct pt_evq_entry and struct pt_event_queue,
    internal/include/pt_event_queue.h:53-73, without the standalone event. *)
Record evq_entry (E : Type) := mk_entry { en_event : E; en_binding : N }.
Arguments mk_entry {E}.
Arguments en_event {E}.
Arguments en_binding {E}.

Record evq (E : Type) := mk_evq {
  evq_queue : list (evq_entry E); evq_begin : nat; evq_end : nat }.
Arguments mk_evq {E}.
Arguments evq_queue {E}.
Arguments evq_begin {E}.
Arguments evq_end {E}.

(** pt_evq_inc(), pt_evq_dec(), pt_event_queue.c:35-49, on uint8_t. *)
Definition pt_evq_inc (idx : nat) : nat := (idx + 1) mod 256 mod evq_max.
Definition pt_evq_dec (idx : nat) : nat := (idx + 255) mod 256 mod evq_max.

Section EVQ.
  Context {E : Type}.

  (** pt_evq_init(), pt_event_queue.c:59-65; [zero] is the cleared event. *)
  Definition pt_evq_init (zero : E) : evq E := mk_evq (repeat (mk_entry zero 0%N) 16) 0 0.

  (** pt_evq_enqueue(), pt_event_queue.c:75-104, and filling in the event.  [None]
      is NULL. *)
  Definition pt_evq_enqueue (q : evq E) (evb : N) (ev : E) : option (evq E) :=
    let begin := evq_begin q in
    let idx := evq_end q in
    if Nat.leb evq_max begin then None else
    if Nat.leb evq_max idx then None else
    let end_ := pt_evq_inc idx in
    let gap := pt_evq_inc end_ in
    if Nat.eqb begin gap then None else
    Some (mk_evq (set_at (evq_queue q) idx (mk_entry ev evb)) begin end_).

  (** The binding test [(pentry->binding & evb) != 0] on slot [i]. *)
  Definition slot_bound (q : list (evq_entry E)) (i : nat) (evb : N) : bool :=
    match nth_error q i with
    | Some e => truth (N.land (en_binding e) evb)
    | None => false
    end.

  (** The search loop of pt_evq_dequeue(), pt_event_queue.c:140-149. *)
  Fixpoint dequeue_find (fuel : nat) (q : list (evq_entry E)) (end_ idx : nat) (evb : N)
    : option nat :=
    match fuel with
    | O => None
    | S fuel' =>
        let idx := pt_evq_inc idx in
        if Nat.eqb idx end_ then None
        else if slot_bound q idx evb then Some idx
        else dequeue_find fuel' q end_ idx evb
    end.

  (** The shift loop of pt_evq_dequeue(), pt_event_queue.c:155-165; returns the
      array and the final value of idx. *)
  Fixpoint dequeue_shift (fuel : nat) (q : list (evq_entry E)) (begin idx : nat)
    : list (evq_entry E) * nat :=
    match fuel with
    | O => (q, idx)
    | S fuel' =>
        let prev := pt_evq_dec idx in
        let q := match nth_error q prev with
                 | Some e => set_at q idx e
                 | None => q
                 end in
        if Nat.eqb prev begin then (q, idx)
        else dequeue_shift fuel' q begin prev
    end.

  (** pt_evq_dequeue(), pt_event_queue.c:106-174.  Returns the slot of the event the
      returned pointer refers to.  Both loops end after at most sixteen rounds. *)
  Definition pt_evq_dequeue (q : evq E) (evb : N) : evq E * option nat :=
    let begin := evq_begin q in
    let end_ := evq_end q in
    if Nat.leb evq_max begin then (q, None) else
    if Nat.leb evq_max end_ then (q, None) else
    if Nat.eqb begin end_ then (q, None) else
    if slot_bound (evq_queue q) begin evb then
      (mk_evq (evq_queue q) (pt_evq_inc begin) end_, Some begin)
    else
      match dequeue_find evq_max (evq_queue q) end_ begin evb with
      | None => (q, None)
      | Some idx =>
          match nth_error (evq_queue q) idx with
          | None => (q, None)
          | Some entry =>
              let (arr, idx') := dequeue_shift evq_max (evq_queue q) begin idx in
              (mk_evq (set_at arr begin entry) idx' end_, Some begin)
          end
      end.

  (** The event a pointer refers to. *)
  Definition evq_at (q : evq E) (i : nat) : option E :=
    match nth_error (evq_queue q) i with
    | Some e => Some (en_event e)
    | None => None
    end.

  (** pt_evq_requeue(), pt_event_queue.c:176-190; [zero] is the cleared event that
      pt_evq_enqueue() writes before the copy from slot [ev]. *)
  Definition pt_evq_requeue (zero : E) (q : evq E) (ev : nat) (evb : N)
    : option (evq E) :=
    let idx := evq_end q in
    match pt_evq_enqueue q evb zero with
    | None => None
    | Some q' =>
        match evq_at q' ev with
        | None => None
        | Some e => Some (mk_evq (set_at (evq_queue q') idx (mk_entry e evb))
                                 (evq_begin q') (evq_end q'))
        end
    end.

  (** pt_evq_clear(), pt_event_queue.c:192-201. *)
  Definition pt_evq_clear (q : evq E) : evq E := mk_evq (evq_queue q) 0 0.

  (** The slots from begin to end, in order: the loops of pt_evq_empty(),
      pt_evq_find() and pt_evq_peek(), pt_event_queue.c:219-222, 255-266, 287-295. *)
  Fixpoint scan (fuel : nat) (q : list (evq_entry E)) (begin end_ : nat)
           (hit : evq_entry E -> bool) : option nat :=
    match fuel with
    | O => None
    | S fuel' =>
        if Nat.eqb begin end_ then None else
        match nth_error q begin with
        | Some e => if hit e then Some begin
                    else scan fuel' q (pt_evq_inc begin) end_ hit
        | None => None
        end
    end.

  Definition scan_queue (q : evq E) (hit : evq_entry E -> bool) : option nat :=
    if Nat.leb evq_max (evq_begin q) then None else
    if Nat.leb evq_max (evq_end q) then None else
    scan evq_max (evq_queue q) (evq_begin q) (evq_end q) hit.

  (** pt_evq_empty() and pt_evq_pending(), pt_event_queue.c:203-236 (the index
      checks cannot fail for indices that the functions above produce). *)
  Definition pt_evq_empty (q : evq E) (evb : N) : bool :=
    match scan_queue q (fun e => truth (N.land (en_binding e) evb)) with
    | Some _ => false
    | None => true
    end.
  Definition pt_evq_pending (q : evq E) (evb : N) : bool := negb (pt_evq_empty q evb).

  (** pt_evq_find(), pt_event_queue.c:238-269; [is_type] tests the event type. *)
  Definition pt_evq_find (q : evq E) (evb : N) (is_type : E -> bool) : option nat :=
    scan_queue q (fun e => andb (truth (N.land (en_binding e) evb)) (is_type (en_event e))).

  (** pt_evq_peek(), pt_event_queue.c:271-298. *)
  Definition pt_evq_peek (q : evq E) (evb : N) : option nat :=
    scan_queue q (fun e => truth (N.land (en_binding e) evb)).
End EVQ.
