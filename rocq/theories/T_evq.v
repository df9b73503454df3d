(** Theorems about the event queue: C18. *)

From Verif Require Import Base M_evq S_core S_evq L_core L_evq.
From Coq Require Import List NArith PeanoNat Bool Lia.
Import ListNotations.
Open Scope nat_scope.

(** C18.  For every sequence of requests the queue gives the answers of a list that
    holds up to fourteen events with their bindings: events for a binding come out in
    the order they went in, queuing fails only when fourteen events are pending, and
    the event last dequeued can be read and requeued until the next dequeue. *)
Theorem C18_queue_refines_list {E : Type} (zero : E) ops :
  answers (evq_step zero) (pt_evq_init zero, None) ops
  = answers evq_spec_step ([], None) ops.
Proof.
  apply (answers_sim (evq_step zero) evq_spec_step evq_rep (fun _ => True)).
  - intros. apply evq_step_sim. assumption.
  - apply evq_rep_init.
  - clear. induction ops; constructor; trivial.
Qed.

(** C18, order: the events returned for a binding are exactly the events queued for
    it, in order, except that some at the end may still be pending. *)
Theorem C18_order_per_binding {E : Type} (zero : E) b ops :
  b <> 0%N -> Forall (separate b) ops ->
  let ans := answers (evq_step zero) (pt_evq_init zero, None) ops in
  exists pending, queued_for b ops ans = returned_for b ops ans ++ pending.
Proof.
  intros Hb Hs ans. subst ans. rewrite C18_queue_refines_list.
  destruct (spec_order b ops Hb Hs [] None) as (l' & _ & E').
  - constructor.
  - exists (own b l'). exact E'.
Qed.

(** Twenty events for two bindings, wrapping around, taken from the middle. *)
Definition C18_ops : list (evq_op nat) :=
  concat (map (fun n => [Enq 1%N n; Enq 2%N (100 + n); Deq 2%N; Deref]) (seq 0 9))
  ++ [Deq 1%N; Requeue 1%N; Enq 4%N 7; Deref; Peek 1%N; Pending 4%N] ++ repeat (Deq 1%N) 11.

Example C18_case :
  answers (evq_step 0) (pt_evq_init 0, None) C18_ops
  = concat (map (fun n => [AnsBool true; AnsBool true; AnsEvent (Some (100 + n));
                           AnsEvent (Some (100 + n))]) (seq 0 9))
    ++ [AnsEvent (Some 0); AnsEvent (Some 0); AnsBool true; AnsEvent (Some 0);
        AnsEvent (Some 1); AnsBool true]
    ++ map (fun n => AnsEvent (Some n)) (seq 1 8)
    ++ [AnsEvent (Some 0); AnsEvent None; AnsEvent None].
Proof. rewrite C18_queue_refines_list. reflexivity. Qed.

Example C18_order_case :
  Forall (separate 1%N) C18_ops /\
  returned_for 1%N C18_ops (answers (evq_step 0) (pt_evq_init 0, None) C18_ops)
  = seq 0 9 ++ [0].
Proof.
  split; [|reflexivity]. unfold C18_ops. cbn.
  repeat apply Forall_cons; try apply Forall_nil; cbn; auto.
Qed.

(** C18, what does not hold: the event last dequeued does not survive clearing the
    queue; new events may be stored on top of it. *)
Theorem C18_clear_refuted :
  exists (q1 q q2 : evq nat) i,
    pt_evq_enqueue (pt_evq_init 0) 1 5 = Some q1 /\
    pt_evq_dequeue q1 1 = (q, Some i) /\ evq_at q i = Some 5 /\
    pt_evq_enqueue (pt_evq_clear q) 1 6 = Some q2 /\ evq_at q2 i = Some 6.
Proof.
  do 3 eexists. exists 0. split; [reflexivity|]. split; [reflexivity|].
  split; [reflexivity|]. split; reflexivity.
Qed.

Print Assumptions C18_queue_refines_list.
Print Assumptions C18_order_per_binding.
Print Assumptions C18_clear_refuted.
