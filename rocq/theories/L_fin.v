(** Finite domains: lift an exhaustive boolean check to a universal statement. *)

From Coq Require Import List NArith Lia Bool.
Import ListNotations.
Open Scope N_scope.

Definition upto (n : nat) : list N := map N.of_nat (seq 0 n).

Lemma in_upto : forall n x, x < N.of_nat n -> In x (upto n).
Proof.
  intros n x H. unfold upto. apply in_map_iff.
  exists (N.to_nat x). split; [lia |]. apply in_seq. lia.
Qed.

Lemma forall_upto : forall (P : N -> bool) n,
  forallb P (upto n) = true -> forall x, x < N.of_nat n -> P x = true.
Proof.
  intros P n H x Hx. rewrite forallb_forall in H. apply H. now apply in_upto.
Qed.

Lemma forall_upto2 : forall (P : N -> N -> bool) n m,
  forallb (fun x => forallb (P x) (upto m)) (upto n) = true ->
  forall x y, x < N.of_nat n -> y < N.of_nat m -> P x y = true.
Proof.
  intros P n m H x y Hx Hy.
  apply (forall_upto (P x) m); [| exact Hy].
  exact (forall_upto (fun x => forallb (P x) (upto m)) n H x Hx).
Qed.
