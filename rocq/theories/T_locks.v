(** C32 and C47: threads sharing sections and image section caches. *)
From Coq Require Import List Arith Lia.
From Verif Require Import M_locks S_locks L_locks.
Import ListNotations.

(** C32: whatever any number of threads call, and however they are scheduled,
    no set of threads ends up waiting for each other. *)
Theorem C32_no_deadlock : forall x, reachable x -> ~ deadlock x.
Proof. intros x R. apply no_deadlock. now apply inv_reach. Qed.
Print Assumptions C32_no_deadlock.

(** C32: all threads get to their ends under every schedule: as long as one
    has not, some thread can run, and no schedule runs forever. *)
Theorem C32_completes : forall ls, gets_done (start ls).
Proof. intros ls. apply inv_gets_done. apply inv_start. Qed.
Print Assumptions C32_completes.

(** C32: a thread releases only mutexes that it owns and owns none when its
    calls have returned. *)
Theorem C32_no_misuse : forall x, reachable x -> ~ misuse x.
Proof. intros x R. apply no_misuse. now apply inv_reach. Qed.
Print Assumptions C32_no_misuse.

(** C47: no data races on use, map and attach counts, on the contents of the
    cache and on the file position; and never two writes to any field. *)
Theorem C47_no_race : forall x f, reachable x ->
  (forall s, f <> Attached s) -> ~ race x f.
Proof. intros x f R. apply no_race. now apply inv_reach. Qed.
Print Assumptions C47_no_race.

Theorem C47_one_writer : forall x f i j k k', reachable x -> i <> j ->
  nth_error (progs x) i = Some (Wr f k) ->
  nth_error (progs x) j <> Some (Wr f k').
Proof.
  intros x f i j k k' R N Ei Ej.
  exact (no_wr_race x f (inv_reach x R) i j k k' N Ei Ej).
Qed.
Print Assumptions C47_one_writer.

(** The exception: pt_section_on_map() (pt_section.h:350-356) reads [iscache]
    without the attach lock that pt_section_attach() holds when writing it. *)
Lemma run_acq ps o i l k : nth_error ps i = Some (Acq l k) -> o l = None ->
  step (mkSys ps o) (mkSys (put_at i k ps) (own o l (Some i))).
Proof. intros E F. econstructor; [exact E|now constructor]. Qed.

Lemma run_rel ps o i l k : nth_error ps i = Some (Rel l k) -> o l = Some i ->
  step (mkSys ps o) (mkSys (put_at i k ps) (own o l None)).
Proof. intros E F. econstructor; [exact E|now constructor]. Qed.

Lemma run_rd ps o i f k : nth_error ps i = Some (Rd f k) ->
  step (mkSys ps o) (mkSys (put_at i k ps) o).
Proof. intros E. econstructor; [exact E|constructor]. Qed.

Lemma run_wr ps o i f k : nth_error ps i = Some (Wr f k) ->
  step (mkSys ps o) (mkSys (put_at i k ps) o).
Proof. intros E. econstructor; [exact E|constructor]. Qed.

Lemma run_pick ps o i k n : nth_error ps i = Some (Pick k) ->
  step (mkSys ps o) (mkSys (put_at i (k n) ps) o).
Proof. intros E. econstructor; [exact E|constructor]. Qed.

Lemma steps_trans x y z : steps x y -> steps y z -> steps x z.
Proof.
  intros A B. induction B as [|a b c B IH S]; [exact A|].
  eapply steps_next; [now apply IH|exact S].
Qed.

Lemma steps_one x y z : step x y -> steps y z -> steps x z.
Proof.
  intros A B. eapply steps_trans; [|exact B].
  eapply steps_next; [apply steps_refl|exact A].
Qed.

(** One action of thread [i], choosing [n] if it is a choice. *)
Ltac fwd i n :=
  eapply steps_one;
  [first
     [ eapply (run_acq _ _ i); [reflexivity|vm_compute; reflexivity]
     | eapply (run_rel _ _ i); [reflexivity|vm_compute; reflexivity]
     | eapply (run_rd _ _ i); reflexivity
     | eapply (run_wr _ _ i); reflexivity
     | eapply (run_pick _ _ i _ n); reflexivity ]
  |cbn [put_at]].

Theorem C47_iscache_refuted : exists x s, reachable x /\ race x (Attached s).
Proof.
  eexists. exists 7. split.
  - exists [[CSecAttach 7]; [CSecMap 7]]. unfold start. cbn [map].
    (* the attaching thread gets as far as writing the pointer *)
    do 3 fwd 0 1. fwd 0 1. do 3 fwd 0 1. fwd 0 1. fwd 0 0.
    (* the mapping thread has mapped and looks at the pointer *)
    do 2 fwd 1 1. fwd 1 1. fwd 1 1. fwd 1 1. fwd 1 1. fwd 1 1.
    apply steps_refl.
  - exists 0, 1. eexists. eexists. split; [discriminate|]. split; [reflexivity|].
    right. reflexivity.
Qed.
Print Assumptions C47_iscache_refuted.

(** Threads do wait in reachable states: one has locked the section, the other
    wants to. *)
Example C32_contention : exists x, reachable x /\ waits x 1 0.
Proof.
  eexists. split.
  - exists [[CSecGet 3; CIscAdd 1 3]; [CSecUnmap 3; CIscClear 1]].
    unfold start. cbn [map]. fwd 0 0. apply steps_refl.
  - unfold waits. eexists. eexists. split; reflexivity.
Qed.

(** Taking the two locks of a section the other way round in one thread does
    deadlock, by the same definitions. *)
Example C32_wrong_order :
  exists x, steps (mkSys [Acq (Alock 0) (Acq (Slock 0) Done);
                          Acq (Slock 0) (Acq (Alock 0) Done)]
                         (fun _ => None)) x /\ deadlock x.
Proof.
  eexists. split.
  - fwd 0 0. fwd 1 0. apply steps_refl.
  - exists [0; 1]. split; [discriminate|]. intros i [<-|[<-|[]]].
    + exists 1. split; [cbn; tauto|]. eexists. eexists. split; reflexivity.
    + exists 0. split; [cbn; tauto|]. eexists. eexists. split; reflexivity.
Qed.

(** A mutex taken twice by the same thread is a deadlock too. *)
Example C32_reentry :
  exists x, steps (mkSys [Acq (Alock 0) (Acq (Alock 0) Done)]
                         (fun _ => None)) x /\ deadlock x.
Proof.
  eexists. split.
  - fwd 0 0. apply steps_refl.
  - exists [0]. split; [discriminate|]. intros i [<-|[]].
    exists 0. split; [cbn; tauto|]. eexists. eexists. split; reflexivity.
Qed.
