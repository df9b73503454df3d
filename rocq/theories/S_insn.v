(** Instructions in memory, and what follows them. *)

From Coq Require Import List NArith ZArith Bool.
From Verif Require Import Base M_event M_ild M_asid S_x86.
Import ListNotations.
Open Scope N_scope.

(** The memory of an address space: a byte and the identifier of the section it is in,
    at some of the addresses. *)
Definition memory := N -> option (N * N).

(** Address [k] after [ip]; addresses wrap around. *)
Definition offset_ip (ip : N) (k : nat) : N := (ip + N.of_nat k) mod 2 ^ 64.

(** The bytes are in memory at [ip]. *)
Definition bytes_at (mem : memory) (ip : N) (l : list N) : Prop :=
  forall k b, nth_error l k = Some b -> exists s, mem (offset_ip ip k) = Some (b, s).

(** An instruction text in memory.  The architecture allows 15 bytes. *)
Definition text_at (mem : memory) (m : exec_mode) (ip : N) (x : x86) : Prop :=
  x86_wf m x /\ (length (render x) <= 15)%nat /\ bytes_at mem ip (render x).

(** [iread] reads this memory, in pieces as it likes. *)
Definition reads (mem : memory) (iread : N -> nat -> res (N * list N)) : Prop :=
  forall ip n, (0 < n)%nat ->
    match mem ip with
    | None => iread ip n = Err pte_nomap
    | Some (_, s) => exists l, iread ip n = Ok (s, l) /\ (1 <= length l <= n)%nat /\
                               bytes_ok l /\ bytes_at mem ip l
    end.

(** Where control goes after an instruction of this class and length at [ip], if the
    instruction alone decides it. *)
Definition only_next (ip : N) (len : nat) (c : iclass) (x : insn_ext) : option N :=
  match c with
  | ptic_other | ptic_ptwrite => Some (offset_ip ip len)
  | ptic_call =>
      if x_direct x then Some (Z.to_N ((Z.of_N ip + Z.of_nat len + x_disp x) mod 2 ^ 64)) else None
  | ptic_jump =>
      match x_inst x, x_direct x with
      | PTI_JMPABS, _ | _, false => None
      | _, true => Some (Z.to_N ((Z.of_N ip + Z.of_nat len + x_disp x) mod 2 ^ 64))
      end
  | _ => None
  end.

(** Executing the instructions at [ip] leads to [ip'] in [n] steps without any choice. *)
Inductive straight (mem : memory) (m : exec_mode) : N -> nat -> N -> Prop :=
| straight_here ip : straight mem m ip 0 ip
| straight_step ip x ip1 n ip' :
    text_at mem m ip x ->
    only_next ip (length (render x)) (fst (meaning m x)) (snd (meaning m x)) = Some ip1 ->
    straight mem m ip1 n ip' ->
    straight mem m ip (S n) ip'.
