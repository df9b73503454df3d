(** Specification of the event queue: a list of events with their bindings. *)

From Verif Require Import Base M_evq S_core.
From Coq Require Import List NArith PeanoNat Bool.
Import ListNotations.
Open Scope nat_scope.

(** Requests.  [Deref] reads the event that the last successful dequeue returned a
    pointer to; [Requeue] puts that event back. *)
Inductive evq_op (E : Type) :=
| Enq (evb : N) (ev : E) | Deq (evb : N) | Requeue (evb : N) | Clear
| Peek (evb : N) | Find (evb : N) (is_type : E -> bool) | Empty (evb : N)
| Pending (evb : N) | Deref.
Arguments Enq {E}. Arguments Deq {E}. Arguments Requeue {E}. Arguments Clear {E}.
Arguments Peek {E}. Arguments Find {E}. Arguments Empty {E}. Arguments Pending {E}.
Arguments Deref {E}.

Inductive evq_answer (E : Type) :=
| AnsBool (b : bool) | AnsEvent (e : option E) | AnsUnit.
Arguments AnsBool {E}. Arguments AnsEvent {E}. Arguments AnsUnit {E}.

Section SPEC.
  Context {E : Type}.

  Definition bound (evb : N) (e : N * E) : bool := negb (N.land (fst e) evb =? 0)%N.

  (** Take the first element that satisfies [p] out of a list. *)
  Fixpoint take_first (p : N * E -> bool) (l : list (N * E))
    : option (E * list (N * E)) :=
    match l with
    | [] => None
    | e :: l' =>
        if p e then Some (snd e, l')
        else match take_first p l' with
             | Some (x, r) => Some (x, e :: r)
             | None => None
             end
    end.

  (** The state: pending events in order, and the event last returned. *)
  Definition spec_state := (list (N * E) * option E)%type.

  Definition evq_spec_step (s : spec_state) (o : evq_op E) : spec_state * evq_answer E :=
    let (l, held) := s in
    match o with
    | Enq evb ev =>
        if Nat.ltb (length l) 14 then ((l ++ [(evb, ev)], held), AnsBool true)
        else (s, AnsBool false)
    | Requeue evb =>
        match held with
        | Some ev => if Nat.ltb (length l) 14
                     then ((l ++ [(evb, ev)], held), AnsEvent (Some ev))
                     else (s, AnsEvent None)
        | None => (s, AnsEvent None)
        end
    | Deq evb =>
        match take_first (bound evb) l with
        | Some (ev, l') => ((l', Some ev), AnsEvent (Some ev))
        | None => (s, AnsEvent None)
        end
    | Clear => (([], None), AnsUnit)
    | Peek evb => (s, AnsEvent (option_map snd (find (bound evb) l)))
    | Find evb ty =>
        (s, AnsEvent (option_map snd (find (fun e => bound evb e && ty (snd e)) l)))
    | Empty evb => (s, AnsBool (negb (existsb (bound evb) l)))
    | Pending evb => (s, AnsBool (existsb (bound evb) l))
    | Deref => (s, AnsEvent held)
    end.

  (** The queue of the library, used by a client that remembers the pointer returned
      by its last successful dequeue, and forgets it when it clears the queue. *)
  Definition evq_step (zero : E) (s : evq E * option nat) (o : evq_op E)
    : (evq E * option nat) * evq_answer E :=
    let (q, held) := s in
    let deref q i := match i with Some i => evq_at q i | None => None end in
    match o with
    | Enq evb ev =>
        match pt_evq_enqueue q evb ev with
        | Some q' => ((q', held), AnsBool true)
        | None => (s, AnsBool false)
        end
    | Requeue evb =>
        match held with
        | Some i =>
            match pt_evq_requeue zero q i evb with
            | Some q' => ((q', held), AnsEvent (evq_at q' (evq_end q)))
            | None => (s, AnsEvent None)
            end
        | None => (s, AnsEvent None)
        end
    | Deq evb =>
        match pt_evq_dequeue q evb with
        | (q', Some i) => ((q', Some i), AnsEvent (evq_at q' i))
        | (q', None) => ((q', held), AnsEvent None)
        end
    | Clear => ((pt_evq_clear q, None), AnsUnit)
    | Peek evb => (s, AnsEvent (deref q (pt_evq_peek q evb)))
    | Find evb ty => (s, AnsEvent (deref q (pt_evq_find q evb ty)))
    | Empty evb => (s, AnsBool (pt_evq_empty q evb))
    | Pending evb => (s, AnsBool (pt_evq_pending q evb))
    | Deref => (s, AnsEvent (deref q held))
    end.

  (** The events successfully queued for binding [b], and those returned for it. *)
  Fixpoint queued_for (b : N) (ops : list (evq_op E)) (ans : list (evq_answer E)) : list E :=
    match ops, ans with
    | Enq evb ev :: ops', AnsBool true :: ans' =>
        if (evb =? b)%N then ev :: queued_for b ops' ans' else queued_for b ops' ans'
    | Requeue evb :: ops', AnsEvent (Some ev) :: ans' =>
        if (evb =? b)%N then ev :: queued_for b ops' ans' else queued_for b ops' ans'
    | _ :: ops', _ :: ans' => queued_for b ops' ans'
    | _, _ => []
    end.

  Fixpoint returned_for (b : N) (ops : list (evq_op E)) (ans : list (evq_answer E)) : list E :=
    match ops, ans with
    | Deq evb :: ops', AnsEvent (Some ev) :: ans' =>
        if (evb =? b)%N then ev :: returned_for b ops' ans' else returned_for b ops' ans'
    | _ :: ops', _ :: ans' => returned_for b ops' ans'
    | _, _ => []
    end.

  (** A history without clear in which binding [b] is used on its own: every other
      binding that appears has no bit in common with it. *)
  Definition separate (b : N) (o : evq_op E) : Prop :=
    let apart evb := evb = b \/ N.land evb b = 0%N in
    match o with
    | Enq evb _ | Deq evb | Requeue evb => apart evb
    | Clear => False
    | _ => True
    end.
End SPEC.
