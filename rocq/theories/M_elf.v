(** Loading ELF files into an image: ptxed/src/load_elf.c.

    The program's host is little-endian and its long has 64 bits.  A file is the list of its
    bytes: fseek() succeeds for every position that a long can hold, and fread() fails if,
    and only if, the file ends before the structure does.  Warnings, the verbose output and
    the counter that decides about the last warning are not modelled. *)

From Verif Require Import Base M_asid M_section M_image.
From Coq Require Import List NArith.
Import ListNotations.
Open Scope N_scope.

(** A number in a structure that was read into memory. *)
Fixpoint le (l : list N) : N :=
  match l with
  | [] => 0
  | b :: l' => b + 256 * le l'
  end.
Definition member (l : list N) (off w : nat) : N := le (firstn w (skipn off l)).

(** fread() of one structure of [n] bytes at file position [pos]. *)
Definition fread (f : file) (pos n : N) : option (list N) :=
  if pos + n <=? fsize f then Some (firstn (N.to_nat n) (skipn (N.to_nat pos) f)) else None.

(** The members of Elf32_Phdr and Elf64_Phdr that are used. *)
Record phdr := mk_phdr { p_type : N; p_offset : N; p_vaddr : N; p_filesz : N }.

(** Elf32_Ehdr and Elf32_Phdr as in elf.h (System V ABI): e_phoff is at 28,
    e_phnum at 44, the size is 52; p_type, p_offset, p_vaddr, p_paddr, p_filesz have four
    bytes each, the size is 32. *)
Definition phdr32 (l : list N) : phdr :=
  mk_phdr (member l 0 4) (member l 4 4) (member l 8 4) (member l 16 4).
(** Elf64_Ehdr and Elf64_Phdr: e_phoff is at 32, e_phnum at 56, the size is 64; p_type and
    p_flags have four bytes, p_offset, p_vaddr, p_paddr, p_filesz eight, the size is 56. *)
Definition phdr64 (l : list N) : phdr :=
  mk_phdr (member l 0 4) (member l 8 8) (member l 16 8) (member l 32 8).

Definition PT_LOAD : N := 1.
Definition UINT64_MAX : N := 2 ^ 64 - 1.
Definition LONG_MAX : N := 2 ^ 63 - 1.

Section LOAD.
  (** load_section(), load_elf.c:42-58: what it does to its environment, for a file offset, a
      size and an address. *)
  Context {E : Type} (load_section : E -> N -> N -> N -> E * res unit).

  (** The first loop, load_elf.c:102-119 and 225-242, from program header [n] before the last
      on; [pos] is the file position. *)
  Fixpoint min_loop (f : file) (size : N) (rd : list N -> phdr) (n : nat) (pos minaddr : N)
    : res N :=
    match n with
    | O => Ok minaddr
    | S n =>
        match fread f pos size with
        | None => Err pte_bad_config
        | Some l =>
            let p := rd l in
            min_loop f size rd n (pos + size)
              (if negb (p_type p =? PT_LOAD) then minaddr
               else if p_vaddr p <? minaddr then p_vaddr p else minaddr)
        end
    end.

  (** The second loop, load_elf.c:132-167 and 255-290.  Errors of load_section() are
      warned about. *)
  Fixpoint load_loop (f : file) (size : N) (rd : list N -> phdr) (offset : N) (n : nat)
                     (pos : N) (e : E) : E * res unit :=
    match n with
    | O => (e, Ok tt)
    | S n =>
        match fread f pos size with
        | None => (e, Err pte_bad_config)
        | Some l =>
            let p := rd l in
            if negb (p_type p =? PT_LOAD) then load_loop f size rd offset n (pos + size) e else
            if p_filesz p =? 0 then load_loop f size rd offset n (pos + size) e else
            match load_section e (p_offset p) (p_filesz p) (add64 (p_vaddr p) offset) with
            | (e, UB u) => (e, UB u)
            | (e, _) => load_loop f size rd offset n (pos + size) e
            end
        end
    end.

  (** load_elf.c:94-174 and 217-297, which are the same but for the type of [phdr]. *)
  Definition load_phdrs (f : file) (base size : N) (rd : list N -> phdr) (phoff phnum : N) (e : E)
    : E * res unit :=
    match (if base =? 0 then Ok 0
           else let* minaddr := min_loop f size rd (N.to_nat phnum) phoff UINT64_MAX in
                Ok (sub64 base minaddr)) with
    | Ok offset => load_loop f size rd offset (N.to_nat phnum) phoff e
    | Err c => (e, Err c)
    | UB u => (e, UB u)
    end.

  (** load_elf32(), load_elf.c:60-175. *)
  Definition load_elf32 (f : file) (base : N) (e : E) : E * res unit :=
    match fread f 0 52 with
    | None => (e, Err pte_bad_config)
    | Some ehdr => load_phdrs f base 32 phdr32 (member ehdr 28 4) (member ehdr 44 2) e
    end.

  (** load_elf64(), load_elf.c:177-298. *)
  Definition load_elf64 (f : file) (base : N) (e : E) : E * res unit :=
    match fread f 0 64 with
    | None => (e, Err pte_bad_config)
    | Some ehdr =>
        if LONG_MAX <? member ehdr 32 8 then (e, Err pte_bad_config) else
        load_phdrs f base 56 phdr64 (member ehdr 32 8) (member ehdr 56 2) e
    end.

  (** load_elf(), load_elf.c:300-360, with an image and a name.  [None] is a file that cannot
      be opened. *)
  Definition load_elf (file : option file) (base : N) (e : E) : E * res unit :=
    match file with
    | None => (e, Err pte_bad_config)
    | Some f =>
        match fread f 0 16 with
        | None => (e, Err pte_bad_config)
        | Some e_ident =>
            if negb ((member e_ident 0 1 =? 127) && (member e_ident 1 1 =? 69) &&
                     (member e_ident 2 1 =? 76) && (member e_ident 3 1 =? 70))%bool
            then (e, Err pte_bad_config) else
            if member e_ident 4 1 =? 1 then load_elf32 f base e else
            if member e_ident 4 1 =? 2 then load_elf64 f base e else
            (e, Err pte_bad_config)
        end
    end.
End LOAD.

(** load_section() without a section cache, load_elf.c:46-48.  The environment has the image
    and the number of calls so far.  [fresh k] is the memory that call [k] gets for its
    section, [mem k] says which further allocations succeed and [size_of k] is the size of the
    file as the library sees it.  No address space is given. *)
Definition load_section_file (name : N) (fresh : nat -> nat) (mem : nat -> list bool)
  (size_of : nat -> res N) (e : nat * (world * image)) (offset size vaddr : N)
  : (nat * (world * image)) * res unit :=
  let '(k, (w, img)) := e in
  let '(w, img, r) := pt_image_add_file w (mem k) img (fresh k) name (size_of k) offset size
                        pt_asid_init vaddr in
  ((S k, (w, img)), r).
