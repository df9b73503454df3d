(** Threads that share mutexes: how they run, and what it means that they
    block each other, race with each other, or misuse a mutex.  Nothing here
    mentions an order on locks or which lock guards which field. *)
From Coq Require Import List Arith.
From Verif Require Import M_locks.
Import ListNotations.

(** The remaining program of every thread, and who owns each mutex. *)
Record sys := mkSys { progs : list prog; owner : lock -> option nat }.

Definition lock_eq_dec (a b : lock) : {a = b} + {a <> b}.
Proof. decide equality; apply Nat.eq_dec. Defined.

Definition own (o : lock -> option nat) (l : lock) (v : option nat) :=
  fun x => if lock_eq_dec x l then v else o x.

Fixpoint put_at (i : nat) (p : prog) (ps : list prog) : list prog :=
  match ps, i with
  | [], _ => []
  | _ :: r, O => p :: r
  | q :: r, S j => q :: put_at j p r
  end.

(** One action of thread [i].  A plain mutex (mtx_plain) that is owned, also
    by the thread itself, cannot be taken; one can be released only by its
    owner. *)
Inductive action (o : lock -> option nat) (i : nat) :
  prog -> prog -> (lock -> option nat) -> Prop :=
| act_acq l k : o l = None ->
    action o i (Acq l k) k (own o l (Some i))
| act_rel l k : o l = Some i ->
    action o i (Rel l k) k (own o l None)
| act_rd f k : action o i (Rd f k) k o
| act_wr f k : action o i (Wr f k) k o
| act_pick k n : action o i (Pick k) (k n) o.

Inductive step : sys -> sys -> Prop :=
| step_at ps o i p q o' :
    nth_error ps i = Some p -> action o i p q o' ->
    step (mkSys ps o) (mkSys (put_at i q ps) o').

Inductive steps : sys -> sys -> Prop :=
| steps_refl x : steps x x
| steps_next x y z : steps x y -> step y z -> steps x z.

(** Any number of threads, each making any finite sequence of calls, and all
    mutexes free. *)
Definition start (ls : list (list call)) : sys :=
  mkSys (map thread ls) (fun _ => None).

Definition reachable (x : sys) : Prop := exists ls, steps (start ls) x.

Definition finished (x : sys) : Prop :=
  forall i p, nth_error (progs x) i = Some p -> p = Done.

(** Thread [i] waits for a mutex that thread [j] owns. *)
Definition waits (x : sys) (i j : nat) : Prop :=
  exists l k, nth_error (progs x) i = Some (Acq l k) /\ owner x l = Some j.

(** A set of threads that wait for each other. *)
Definition deadlock (x : sys) : Prop :=
  exists d : list nat, d <> [] /\
    forall i, In i d -> exists j, In j d /\ waits x i j.

(** Whatever the schedule, the threads get to their ends: either all of them
    are there or some thread can run, and every way to go on gets there. *)
Inductive gets_done : sys -> Prop :=
| gd x : (finished x \/ exists y, step x y) ->
    (forall y, step x y -> gets_done y) -> gets_done x.

(** Two threads are about to access the same field, at least one writes. *)
Definition race (x : sys) (f : field) : Prop :=
  exists i j k k', i <> j /\ nth_error (progs x) i = Some (Wr f k) /\
    (nth_error (progs x) j = Some (Wr f k') \/
     nth_error (progs x) j = Some (Rd f k')).

(** Releasing a mutex of another thread, or ending with a mutex owned. *)
Definition misuse (x : sys) : Prop :=
  (exists i l k, nth_error (progs x) i = Some (Rel l k) /\
     owner x l <> Some i) \/
  (exists i l, nth_error (progs x) i = Some Done /\ owner x l = Some i).
