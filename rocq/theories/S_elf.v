(** What an ELF file says about the memory of a program (System V ABI, little-endian files). *)

From Verif Require Import Base M_asid M_section S_image.
From Coq Require Import List NArith.
Import ListNotations.
Open Scope N_scope.

(** The [w] bytes of the file at [pos] hold the number [v], least significant byte first. *)
Fixpoint holds (f : file) (pos : N) (w : nat) (v : N) : Prop :=
  match w with
  | O => v = 0
  | S w => exists b v', nth_error f (N.to_nat pos) = Some b /\ v = b + 256 * v' /\
                        holds f (pos + 1) w v'
  end.

Inductive class := C32 | C64.

(** A program header. *)
Record segment := mk_segment { sg_type : N; sg_offset : N; sg_vaddr : N; sg_filesz : N }.

Definition header_size (c : class) : N := match c with C32 => 52 | C64 => 64 end.
Definition segment_size (c : class) : N := match c with C32 => 32 | C64 => 56 end.

Definition segment_at (c : class) (f : file) (pos : N) (s : segment) : Prop :=
  match c with
  | C32 => holds f pos 4 (sg_type s) /\ holds f (pos + 4) 4 (sg_offset s) /\
           holds f (pos + 8) 4 (sg_vaddr s) /\ holds f (pos + 16) 4 (sg_filesz s)
  | C64 => holds f pos 4 (sg_type s) /\ holds f (pos + 8) 8 (sg_offset s) /\
           holds f (pos + 16) 8 (sg_vaddr s) /\ holds f (pos + 32) 8 (sg_filesz s)
  end.

(** The program headers, one behind the other. *)
Fixpoint segments_at (c : class) (f : file) (pos : N) (l : list segment) : Prop :=
  match l with
  | [] => True
  | s :: l => pos + segment_size c <= fsize f /\ segment_at c f pos s /\
              segments_at c f (pos + segment_size c) l
  end.

(** The file is an ELF file of the given class with the given program headers. *)
Definition elf_file (f : file) (c : class) (l : list segment) : Prop :=
  header_size c <= fsize f /\
  holds f 0 1 127 /\ holds f 1 1 69 /\ holds f 2 1 76 /\ holds f 3 1 70 /\
  holds f 4 1 (match c with C32 => 1 | C64 => 2 end) /\
  exists phoff, phoff < 2 ^ 63 /\
    match c with
    | C32 => holds f 28 4 phoff /\ holds f 44 2 (N.of_nat (length l))
    | C64 => holds f 32 8 phoff /\ holds f 56 2 (N.of_nat (length l))
    end /\ segments_at c f phoff l.

(** Segments that are part of the program's memory; of those, segments that have bytes in the
    file. *)
Definition part (s : segment) : Prop := sg_type s = 1.
Definition loaded (s : segment) : Prop := part s /\ sg_filesz s <> 0.

(** The lowest address of the program according to the file. *)
Definition lowest (l : list segment) (a : N) : Prop :=
  (exists s, In s l /\ part s /\ sg_vaddr s = a) /\ forall s, In s l -> part s -> a <= sg_vaddr s.

(** Where a segment is in memory: where the file says, or, for a base other than zero, as far
    from the base as the file says it is from the lowest address. *)
Definition placed (base : N) (l : list segment) (s : segment) (a : N) : Prop :=
  (base = 0 -> a = sg_vaddr s) /\
  (base <> 0 -> exists low, lowest l low /\ a = (base + (sg_vaddr s - low)) mod 2 ^ 64).

(** The calls that load some of the segments [l] of a file with the segments [all]: offset,
    size and address. *)
Inductive loads (base : N) (all : list segment) : list segment -> list (N * N * N) -> Prop :=
| loads_none : loads base all [] []
| loads_skip s l cs : ~ loaded s -> loads base all l cs -> loads base all (s :: l) cs
| loads_take s l cs a : loaded s -> placed base all s a -> loads base all l cs ->
    loads base all (s :: l) ((sg_offset s, sg_filesz s, a) :: cs).

(** Calls, one after the other. *)
Definition calls {E : Type} (load : E -> N -> N -> N -> E * res unit) (e : E)
  (cs : list (N * N * N)) : E :=
  fold_left (fun e '(o, n, a) => fst (load e o n a)) cs e.

(** The calls on the image, numbered from [k] on: a section of the file without address
    space. *)
Fixpoint file_calls (name : N) (fresh : nat -> nat) (mem : nat -> list bool)
  (size_of : nat -> res N) (k : nat) (cs : list (N * N * N)) : list iop :=
  match cs with
  | [] => []
  | (o, n, a) :: cs =>
      IAddFile (fresh k) name (size_of k) o n (mk_asid (2 ^ 64 - 1) (2 ^ 64 - 1)) a (mem k) ::
      file_calls name fresh mem size_of (S k) cs
  end.

(** Call number [k] of a history was successful. *)
Definition went_well (h : history) (k : nat) : Prop :=
  exists o, nth_error (rev h) k = Some (o, ADone (Ok tt)).
