(** Instructions: /repo/libipt/src/pt_insn.c.

    Simplifications: null checks are left out.  Reading the image is an argument: [iread
    a addr n] is what pt_image_read() answers for [n] bytes at [addr] in the address space
    [a] (M_image), namely a section identifier and at least no more than [n] bytes; that
    reading reorders the sections of the image is not shown here.  The bytes of a struct
    pt_insn that were not written keep their value. *)

From Coq Require Import List NArith ZArith Bool.
From Verif Require Import Base M_event M_ildtab M_ild M_asid.
Import ListNotations.
Open Scope N_scope.

(** struct pt_insn, intel-pt.h.in:2562-2599. *)
Record insn := mk_insn {
  in_ip : N;
  in_isid : N;
  in_mode : exec_mode;
  in_iclass : iclass;
  in_raw : list N;
  in_size : nat;
  in_speculative : bool;
  in_truncated : bool }.

(** memset() to zero, with the fields that pt_insn_next() sets. *)
Definition new_insn (ip : N) (m : exec_mode) (speculative : bool) : insn :=
  mk_insn ip 0 m ptic_unknown (repeat 0 15) 0 speculative false.
Definition in_set_isid i x := mk_insn (in_ip i) x (in_mode i) (in_iclass i) (in_raw i) (in_size i)
  (in_speculative i) (in_truncated i).
Definition in_set_ip i x := mk_insn x (in_isid i) (in_mode i) (in_iclass i) (in_raw i) (in_size i)
  (in_speculative i) (in_truncated i).
Definition in_set_iclass i x := mk_insn (in_ip i) (in_isid i) (in_mode i) x (in_raw i) (in_size i)
  (in_speculative i) (in_truncated i).
Definition in_set_text i raw size := mk_insn (in_ip i) (in_isid i) (in_mode i) (in_iclass i) raw size
  (in_speculative i) (in_truncated i).
Definition in_set_truncated i := mk_insn (in_ip i) (in_isid i) (in_mode i) (in_iclass i) (in_raw i)
  (in_size i) (in_speculative i) true.

(** pt_insn_changes_cpl(), pt_insn.c:39-61. *)
Definition pt_insn_changes_cpl (x : insn_ext) : bool :=
  match x_inst x with
  | PTI_INT | PTI_INT3 | PTI_INT1 | PTI_INTO | PTI_IRET
  | PTI_SYSCALL | PTI_SYSENTER | PTI_SYSEXIT | PTI_SYSRET => true
  | _ => false
  end.

(** pt_insn_changes_cr3(), pt_insn.c:63-78. *)
Definition pt_insn_changes_cr3 (x : insn_ext) : bool :=
  match x_inst x with PTI_MOV_CR3 => true | _ => false end.

(** pt_insn_is_branch(), pt_insn.c:80-102. *)
Definition pt_insn_is_branch (i : insn) : bool :=
  match in_iclass i with
  | ptic_call | ptic_return | ptic_jump | ptic_cond_jump
  | ptic_far_call | ptic_far_return | ptic_far_jump | ptic_indirect => true
  | _ => false
  end.

(** pt_insn_is_far_branch(), pt_insn.c:104-121. *)
Definition pt_insn_is_far_branch (i : insn) : bool :=
  match in_iclass i with
  | ptic_far_call | ptic_far_return | ptic_far_jump => true
  | _ => false
  end.

(** pt_insn_binds_to_pip(), pt_insn.c:123-138. *)
Definition pt_insn_binds_to_pip (i : insn) (x : insn_ext) : bool :=
  match x_inst x with
  | PTI_MOV_CR3 | PTI_VMLAUNCH | PTI_VMRESUME => true
  | _ => pt_insn_is_far_branch i
  end.

(** pt_insn_binds_to_vmcs(), pt_insn.c:140-155. *)
Definition pt_insn_binds_to_vmcs (i : insn) (x : insn_ext) : bool :=
  match x_inst x with
  | PTI_VMPTRLD | PTI_VMLAUNCH | PTI_VMRESUME => true
  | _ => pt_insn_is_far_branch i
  end.

(** pt_insn_is_ptwrite(), pt_insn.c:157-172. *)
Definition pt_insn_is_ptwrite (i : insn) : bool :=
  match in_iclass i with ptic_ptwrite => true | _ => false end.

(** pt_insn_is_iret(), pt_insn.c:174-193. *)
Definition pt_insn_is_iret (x : insn_ext) : bool :=
  match x_inst x with
  | PTI_IRET | PTI_SYSRET | PTI_SYSEXIT | PTI_ERETS | PTI_ERETU => true
  | _ => false
  end.

(** pt_insn_is_vmentry(), pt_insn.c:195-211. *)
Definition pt_insn_is_vmentry (x : insn_ext) : bool :=
  match x_inst x with PTI_VMLAUNCH | PTI_VMRESUME => true | _ => false end.

(** pt_insn_is_uiret(), pt_insn.c:213-228. *)
Definition pt_insn_is_uiret (x : insn_ext) : bool :=
  match x_inst x with PTI_UIRET => true | _ => false end.

Definition is_jmpabs (x : insn_ext) : bool :=
  match x_inst x with PTI_JMPABS => true | _ => false end.

(** Conversion of int64_t to uint64_t. *)
Definition of_int64 (z : Z) : N := Z.to_N (z mod 2 ^ 64).

(** The address of the next instruction in memory. *)
Definition ip_after (i : insn) : N := add64 (in_ip i) (N.of_nat (in_size i)).

(** pt_insn_next_ip(), pt_insn.c:230-269. *)
Definition pt_insn_next_ip (i : insn) (x : insn_ext) : res N :=
  match in_iclass i with
  | ptic_ptwrite | ptic_other => Ok (ip_after i)
  | ptic_jump =>
      if is_jmpabs x then Err pte_bad_query
      else if x_direct x then Ok (add64 (ip_after i) (of_int64 (x_disp x))) else Err pte_bad_query
  | ptic_call =>
      if x_direct x then Ok (add64 (ip_after i) (of_int64 (x_disp x))) else Err pte_bad_query
  | ptic_unknown => Err pte_bad_insn
  | _ => Err pte_bad_query
  end.

(** Write [bs] into [raw] at [pos]. *)
Definition put_raw (raw : list N) (pos : nat) (bs : list N) : list N :=
  firstn pos raw ++ bs ++ skipn (pos + length bs) raw.

(** pt_ild_decode() on the instruction: the size and, on success, the class are written. *)
Definition decode_text (i : insn) : insn * res insn_ext :=
  match pt_ild_decode (in_raw i) (in_size i) (in_mode i) with
  | (n, Ok (c, x)) => (in_set_iclass (in_set_text i (in_raw i) n) c, Ok x)
  | (n, Err e) => (in_set_text i (in_raw i) n, Err e)
  | (n, UB u) => (in_set_text i (in_raw i) n, UB u)
  end.

Section IMAGE.
  Context (iread : asid -> N -> nat -> res (N * list N)) (a : asid).

  (** pt_insn_decode_retry(), pt_insn.c:289-369.  The recursion reads at least one byte
      every time. *)
  Fixpoint pt_insn_decode_retry (fuel : nat) (i : insn) : insn * res insn_ext :=
    match fuel with
    | O => (i, UB ub_fuel)
    | S fuel' =>
        let isize := in_size i in
        let remaining := (15 - isize)%nat in
        if Nat.eqb remaining 0 then (i, Err pte_bad_insn) else
        match iread a (add64 (in_ip i) (N.of_nat isize)) remaining with
        | UB u => (i, UB u)
        | Err pte_nomap => (i, Err pte_bad_insn)
        | Err e => (i, Err e)
        | Ok (_, []) => (i, Err pte_internal)
        | Ok (_, bs) =>
            let i := in_set_text i (put_raw (in_raw i) isize bs) (isize + length bs) in
            let size := in_size i in
            match decode_text i with
            | (i, Ok x) => (in_set_truncated i, Ok x)
            | (i, Err pte_bad_insn) =>
                if negb (Nat.eqb (in_size i) size) then (i, Err pte_bad_insn)
                else pt_insn_decode_retry fuel' i
            | (i, r) => (i, r)
            end
        end
    end.

  (** pt_insn_decode(), pt_insn.c:371-405. *)
  Definition pt_insn_decode (i : insn) : insn * res insn_ext :=
    match iread a (in_ip i) 15 with
    | Err e => (i, Err e)
    | UB u => (i, UB u)
    | Ok (isid, bs) =>
        let i := in_set_text (in_set_isid i isid) (put_raw (in_raw i) 0 bs) (length bs) in
        let size := in_size i in
        match decode_text i with
        | (i, Err pte_bad_insn) =>
            if negb (Nat.eqb (in_size i) size) then (i, Err pte_bad_insn)
            else pt_insn_decode_retry 16 i
        | (i, r) => (i, r)
        end
    end.

  (** The loop of pt_insn_range_is_contiguous(), pt_insn.c:407-435: [true] if [end_] was
      reached within the given number of steps. *)
  Fixpoint range_loop (steps : nat) (i : insn) (end_ : N) : res bool :=
    if in_ip i =? end_ then Ok true else
    match steps with
    | O => Ok false
    | S steps' =>
        match pt_insn_decode i with
        | (i, Ok x) =>
            let* ip := pt_insn_next_ip i x in
            range_loop steps' (in_set_ip i ip) end_
        | (_, Err e) => Err e
        | (_, UB u) => UB u
        end
    end.
  Definition pt_insn_range_is_contiguous (begin end_ : N) (m : exec_mode) (steps : nat) : res bool :=
    range_loop steps (new_insn begin m false) end_.
End IMAGE.
