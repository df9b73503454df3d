(** Specifications for sections. *)

From Verif Require Import Base M_section.
From Coq Require Import List NArith Bool.
Import ListNotations.
Open Scope N_scope.

(** ** Use counts *)

(** Operations of any number of users on one section. *)
Inductive sec_op :=
| SecGet | SecPut | SecMap (m : res mapping) | SecShare | SecUnmap
| SecAttach (cache : nat) | SecDetach (cache : nat) | SecAllocBcache (csize n : N) (mem : bool).

Definition sec_step (s : scnt) (o : sec_op) : scnt * res unit :=
  match o with
  | SecGet => pt_section_get s
  | SecPut => pt_section_put s
  | SecMap m => pt_section_map_count s m
  | SecShare => pt_section_map_share s
  | SecUnmap => pt_section_unmap s
  | SecAttach c => pt_section_attach s c
  | SecDetach c => pt_section_detach s c
  | SecAllocBcache csize n mem =>
      let (s', r) := pt_section_alloc_bcache s csize n mem in
      (s', match r with Ok _ => Ok tt | Err e => Err e | UB u => UB u end)
  end.

(** What the users together hold: references, mappings, and attachments of a cache. *)
Record usage := mk_usage {
  us_refs : N; us_maps : N; us_atts : N; us_cache : option nat; us_bcache : bool }.
Definition new_usage : usage := mk_usage 1 0 0 None false.

(** A user may use a section while holding a reference, may only drop what it holds,
    keeps its reference while it is attached or mapped, and a section is only attached
    to one cache at a time. *)
Definition may (u : usage) (o : sec_op) : Prop :=
  0 < us_refs u /\
  match o with
  | SecPut => us_atts u < us_refs u /\ (us_refs u = 1 -> us_maps u = 0)
  | SecMap m => no_ub m
  | SecUnmap => 0 < us_maps u
  | SecAttach c => us_atts u < us_refs u /\ (us_cache u = None \/ us_cache u = Some c)
  | SecDetach c => us_cache u = Some c
  | _ => True
  end.

(** The counts are 16 bits wide. *)
Definition max_count : N := 65535.

(** What happens and what is reported. *)
Definition usage_step (u : usage) (o : sec_op) : usage * res unit :=
  let '(mk_usage r m a c b) := u in
  match o with
  | SecGet => if r =? max_count then (u, Err pte_overflow)
              else (mk_usage (r + 1) m a c b, Ok tt)
  | SecPut => (mk_usage (r - 1) m a c b, Ok tt)
  | SecMap res =>
      if m =? 0 then
        match res with
        | Ok _ => (mk_usage r 1 a c b, Ok tt)
        | Err e => (u, Err e)
        | UB x => (u, UB x)
        end
      else if m =? max_count then (u, Err pte_overflow)
      else (mk_usage r (m + 1) a c b, Ok tt)
  | SecShare =>
      if m =? 0 then (u, Err pte_internal)
      else if m =? max_count then (u, Err pte_overflow)
      else (mk_usage r (m + 1) a c b, Ok tt)
  | SecUnmap => (mk_usage r (m - 1) a c (if m =? 1 then false else b), Ok tt)
  | SecAttach x => (mk_usage r m (a + 1) (Some x) b, Ok tt)
  | SecDetach x => (mk_usage r m (a - 1) (if a =? 1 then None else Some x) b, Ok tt)
  | SecAllocBcache csize n mem =>
      if 2 ^ 32 <=? csize then (u, Err pte_not_supported)
      else if m =? 0 then (u, Err pte_internal)
      else if b then (u, Ok tt)
      else if mem then (mk_usage r m a c true, Ok tt)
      else (u, Err pte_nomem)
  end.

Fixpoint all_may (u : usage) (ops : list sec_op) : Prop :=
  match ops with
  | [] => True
  | o :: ops' => may u o /\ all_may (fst (usage_step u o)) ops'
  end.

Definition sec_run (s : scnt) (ops : list sec_op) : scnt :=
  fold_left (fun s o => fst (sec_step s o)) ops s.
Definition usage_run (u : usage) (ops : list sec_op) : usage :=
  fold_left (fun u o => fst (usage_step u o)) ops u.
