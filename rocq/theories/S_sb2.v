(** Watching the callbacks of sideband decoders.

    Any set of callbacks can be wrapped so that it takes notes: a decoder then has a number and
    remembers the time of the record it fetched last. *)
From Verif Require Import Base M_event M_sb.
From Coq Require Import List NArith Bool PeanoNat Sorted.
Import ListNotations.
Open Scope nat_scope.

Section RUN.
  Context {P W : Type} (ops : sbops P W).

  (** A session with some decoders that starts and sees events.  The events come with a bound
      for the number of turns, and with whether to print. *)
  Fixpoint attach (l : list (P * bool)) (s : session P) : session P :=
    match l with
    | [] => s
    | (p, primary) :: l => attach l (pt_sb_alloc_decoder p primary s)
    end.

  Fixpoint see (l : list (nat * bool * event)) (s : session P) (w : W) : session P * W * res unit :=
    match l with
    | [] => (s, w, Ok tt)
    | (fuel, printing, ev) :: l =>
        match pt_sb_event ops fuel printing ev s w with
        | (s, w, Ok _) => see l s w
        | r => r
        end
    end.

  Definition run_session (decoders : list (P * bool)) (w : W) (l : list (nat * bool * event)) :
    session P * W * res unit :=
    match pt_sb_init_decoders ops (attach decoders pt_sb_alloc) w with
    | (s, w, Ok _) => see l s w
    | r => r
    end.
End RUN.

Inductive note :=
| Fetched (id : nat) (time : option N)
| Applied (id : nat) (time : option N) (ev : event)
| Printed (id : nat)
| Freed (id : nat).

Section SPY.
  Context {P W : Type} (ops : sbops P W).

  Definition watched : Type := nat * option N * P.
  Definition watching : Type := W * list note.

  Definition watch : sbops watched watching :=
    mk_sbops
      (fun '(w, L) '(id, _, p) =>
         let '(w, p, r) := so_fetch ops w p in
         let t := match r with Ok t => Some t | _ => None end in
         ((w, L ++ [Fetched id t]), (id, t, p), r))
      (fun given ev '(w, L) '(id, t, p) =>
         let '(w, p, r) := so_apply ops given ev w p in ((w, L ++ [Applied id t ev]), (id, t, p), r))
      (fun '(w, L) '(id, t, p) =>
         let '(w, p, r) := so_print ops w p in ((w, L ++ [Printed id]), (id, t, p), r))
      (fun '(w, L) '(id, _, p) =>
         let (w, r) := so_dtor ops w p in ((w, L ++ [Freed id]), r)).

  Fixpoint numbered (n : nat) (l : list (P * bool)) : list (watched * bool) :=
    match l with
    | [] => []
    | (p, primary) :: l => ((n, None, p), primary) :: numbered (S n) l
    end.

  Definition watch_session (decoders : list (P * bool)) (w : W) (l : list (nat * bool * event)) :
    session watched * watching * res unit :=
    run_session watch (numbered 0 decoders) (w, []) l.
End SPY.

(** A session without the additions of wrapped callbacks. *)
Definition erase_dec {P Q} (f : P -> Q) (d : sbdec P) : sbdec Q :=
  mk_sbdec (sd_tsc d) (f (sd_priv d)) (sd_primary d).
Definition erase {P Q} (f : P -> Q) (s : session P) : session Q :=
  mk_session (map (erase_dec f) (ss_decoders s)) (map (erase_dec f) (ss_waiting s))
    (map (erase_dec f) (ss_retired s)) (map (erase_dec f) (ss_removed s)).

Definition number {P} (d : sbdec (@watched P)) : nat := fst (fst (sd_priv d)).

(** The record that was fetched last is due at an event. *)
Definition due (time : option N) (ev : event) : bool :=
  match time with Some t => (t <=? ev_tsc ev)%N | None => false end.

(** The times of the records that a decoder fetched. *)
Definition fetched (id : nat) (L : list note) : list N :=
  flat_map (fun n => match n with
                     | Fetched i (Some t) => if Nat.eqb i id then [t] else []
                     | _ => []
                     end) L.

(** The times of the due records that all decoders, or one of them, were told to apply. *)
Definition applied_all (L : list note) : list N :=
  flat_map (fun n => match n with
                     | Applied _ (Some t) ev => if due (Some t) ev then [t] else []
                     | _ => []
                     end) L.
Definition applied (id : nat) (L : list note) : list N :=
  flat_map (fun n => match n with
                     | Applied i (Some t) ev => if Nat.eqb i id && due (Some t) ev then [t] else []
                     | _ => []
                     end) L.

(** The events a decoder has seen when no record of it was due. *)
Definition seen (id : nat) (L : list note) : list event :=
  flat_map (fun n => match n with
                     | Applied i t ev => if Nat.eqb i id && negb (due t ev) then [ev] else []
                     | _ => []
                     end) L.

Definition freed (L : list note) : list nat :=
  flat_map (fun n => match n with Freed i => [i] | _ => [] end) L.
