(** Sections: /repo/libipt/src/pt_section.c, pt_section_file.c and
    posix/pt_section_posix.c.

    The functions are modelled as they run when they hold the locks; locking itself
    is modelled in M_locks.v.  Locking errors are not modelled.  File names are
    abstract names; strcmp() is equality of names. *)

From Verif Require Import Base.
From Coq Require Import List NArith Bool.
Import ListNotations.
Open Scope N_scope.

(** ** Files *)

(** A file: its contents from the beginning. *)
Definition file := list N.
Definition fsize (f : file) : N := N.of_nat (length f).

(** The fixed part of struct pt_section, internal/include/pt_section.h:57-68:
    identity (the address of the object), name, file offset and size. *)
Record section := mk_section_info {
  sc_id : nat; sc_name : N; sc_offset : N; sc_size : N }.

(** pt_mk_section(), pt_section.c:41-121: the new section's offset and size; [size_of]
    is the size of the file as provided by pt_section_mk_status(), or its error.
    The length of the file name, allocation and lock errors are not modelled. *)
Definition pt_mk_section (id : nat) (name : N) (size_of : res N) (offset size : N)
  : res section :=
  let* fs := size_of in
  if fs <=? offset then Err pte_invalid else
  let fs := sub64 fs offset in
  Ok (mk_section_info id name offset (if fs <? size then fs else size)).

(** ** Mappings *)

(** struct pt_sec_posix_mapping: [MapPosix base msize begin]: [msize] bytes mapped from
    file offset [base] on; [begin] is the start of the section relative to the mapped
    memory.  struct pt_sec_file_mapping: [MapFile begin fend]. *)
Inductive mapping :=
| MapPosix (base msize begin : N)
| MapFile (begin fend : N).

(** pt_sec_posix_map(), pt_section_posix.c:100-161.  [page] is the page size (0 if it is
    not available), [mmap] tells whether mmap() and malloc() succeed. *)
Definition pt_sec_posix_map (s : section) (page : N) (mmap : bool) : res mapping :=
  if page =? 0 then Err pte_bad_config else
  let adjustment := sc_offset s mod page in
  let offset := sub64 (sc_offset s) adjustment in
  let size := add64 (sc_size s) adjustment in
  if size <? sc_size s then Err pte_internal else
  if 2 ^ 31 - 1 <? offset then Err pte_nomem else
  if negb mmap then Err pte_nomem else
  Ok (MapPosix offset size adjustment).

(** pt_sec_file_map(), pt_section_file.c:109-173, with 64-bit [long].  [fs] is the size
    of the file, [mem] tells whether malloc() succeeds. *)
Definition pt_sec_file_map (s : section) (fs : N) (mem : bool) : res mapping :=
  if 2 ^ 63 <=? sc_offset s + sc_size s then UB ub_signed else
  let fend := sc_offset s + sc_size s in
  if fs <? fend then Err pte_bad_image else
  if negb mem then Err pte_nomem else
  Ok (MapFile (sc_offset s) fend).

(** The mapping chosen by pt_section_map(), pt_section_posix.c:199-264: [unchanged] is
    the result of check_file_status(). *)
Definition map_file (s : section) (fs page : N) (unchanged mmap mem : bool) : res mapping :=
  if negb unchanged then Err pte_bad_image else
  match pt_sec_posix_map s page mmap with
  | Ok m => Ok m
  | _ => pt_sec_file_map s fs mem
  end.

(** [n] bytes of [f] from [pos]. *)
Definition file_bytes (f : file) (pos n : N) : list N :=
  firstn (N.to_nat n) (skipn (N.to_nat pos) f).

(** pt_sec_posix_read(), pt_section_posix.c:288-311: bytes outside the mapping, and
    bytes of the mapping beyond the end of the file, must not be read. *)
Definition pt_sec_posix_read (f : file) (base msize begin size offset : N)
  : res (list N) :=
  if msize <? begin + offset + size then UB ub_oob_read else
  if fsize f <? base + begin + offset + size then UB ub_oob_read else
  Ok (file_bytes f (base + begin + offset) size).

(** pt_sec_file_read(), pt_section_file.c:198-243: reads are truncated at the end of
    the file. *)
Definition pt_sec_file_read (f : file) (begin size offset : N) : res (list N) :=
  if 2 ^ 63 <=? begin + offset then UB ub_signed else
  Ok (file_bytes f (begin + offset) size).

(** pt_section_read(), pt_section.c:704-725.  [m] is the mapping, if any. *)
Definition pt_section_read (s : section) (m : option mapping) (f : file)
  (size offset : N) : res (list N) :=
  match m with
  | None => Err pte_nomap
  | Some m =>
      let limit := sc_size s in
      if limit <=? offset then Err pte_nomap else
      let space := sub64 limit offset in
      let size := if space <? size then u16 space else size in
      match m with
      | MapPosix base msize begin => pt_sec_posix_read f base msize begin size offset
      | MapFile begin _ => pt_sec_file_read f begin size offset
      end
  end.

(** ** Use counts *)

(** The variable part of struct pt_section: use, map and attach counts, the attached
    cache, whether the mapping (with its unmap, read and memsize functions) is
    installed, the memory size of the block cache, if any, and whether the section was
    freed. *)
Record scnt := mk_scnt {
  sn_ucount : N; sn_mcount : N; sn_acount : N; sn_iscache : option nat;
  sn_mapped : option mapping; sn_bcache : option N; sn_freed : bool }.

(** After pt_mk_section(), pt_section.c:81-87. *)
Definition new_scnt : scnt := mk_scnt 1 0 0 None None None false.

Definition set_ucount (s : scnt) (n : N) : scnt :=
  mk_scnt n (sn_mcount s) (sn_acount s) (sn_iscache s) (sn_mapped s) (sn_bcache s)
          (sn_freed s).
Definition set_mcount (s : scnt) (n : N) : scnt :=
  mk_scnt (sn_ucount s) n (sn_acount s) (sn_iscache s) (sn_mapped s) (sn_bcache s)
          (sn_freed s).
Definition set_attach (s : scnt) (n : N) (i : option nat) : scnt :=
  mk_scnt (sn_ucount s) (sn_mcount s) n i (sn_mapped s) (sn_bcache s) (sn_freed s).
Definition set_mapped (s : scnt) (m : option mapping) : scnt :=
  mk_scnt (sn_ucount s) (sn_mcount s) (sn_acount s) (sn_iscache s) m (sn_bcache s)
          (sn_freed s).
Definition set_bcache (s : scnt) (b : option N) : scnt :=
  mk_scnt (sn_ucount s) (sn_mcount s) (sn_acount s) (sn_iscache s) (sn_mapped s) b
          (sn_freed s).
Definition set_freed (s : scnt) : scnt :=
  mk_scnt (sn_ucount s) (sn_mcount s) (sn_acount s) (sn_iscache s) (sn_mapped s)
          (sn_bcache s) true.

(** Every function starts by locking the section; using a freed section is undefined. *)
Definition alive {A} (s : scnt) (k : scnt * res A) : scnt * res A :=
  if sn_freed s then (s, UB ub_uaf) else k.

(** pt_section_get(), pt_section.c:180-201. *)
Definition pt_section_get (s : scnt) : scnt * res unit :=
  alive s
  (let ucount := u16 (sn_ucount s + 1) in
   if ucount =? 0 then (s, Err pte_overflow)
   else (set_ucount s ucount, Ok tt)).

(** pt_section_put(), pt_section.c:203-231. *)
Definition pt_section_put (s : scnt) : scnt * res unit :=
  alive s
  (let mcount := sn_mcount s in
   let ucount := sn_ucount s in
   if 1 <? ucount then (set_ucount s (ucount - 1), Ok tt)
   else if (ucount =? 0) || truth mcount then (s, Err pte_internal)
   else (set_freed s, Ok tt)).

(** pt_section_attach(), pt_section.c:269-341. *)
Definition pt_section_attach (s : scnt) (iscache : nat) : scnt * res unit :=
  alive s
  (let acount := sn_acount s in
   if acount =? 0 then
     match sn_iscache s with
     | Some _ => (s, Err pte_internal)
     | None =>
         if sn_ucount s =? 0 then (s, Err pte_internal)
         else (set_attach s 1 (Some iscache), Ok tt)
     end
   else
     let acount := u16 (acount + 1) in
     if acount =? 0 then (s, Err pte_overflow) else
     match sn_iscache s with
     | Some i =>
         if negb (Nat.eqb i iscache) then (s, Err pte_internal) else
         if sn_ucount s <? acount then (s, Err pte_internal)
         else (set_attach s acount (sn_iscache s), Ok tt)
     | None => (s, Err pte_internal)
     end).

(** pt_section_detach(), pt_section.c:343-391. *)
Definition pt_section_detach (s : scnt) (iscache : nat) : scnt * res unit :=
  alive s
  (match sn_iscache s with
   | Some i =>
       if negb (Nat.eqb i iscache) then (s, Err pte_internal) else
       let acount := sn_acount s in
       if acount =? 0 then (s, Err pte_internal) else
       let acount := acount - 1 in
       if sn_ucount s <? acount then (s, Err pte_internal) else
       (set_attach s acount (if acount =? 0 then None else sn_iscache s), Ok tt)
   | None => (s, Err pte_internal)
   end).

(** pt_section_map() up to the notification of the attached cache,
    pt_section_posix.c:163-180 and 199-264.  [m] is the result of mapping the file. *)
Definition pt_section_map_count (s : scnt) (m : res mapping) : scnt * res unit :=
  alive s
  (let success (s : scnt) :=
     let mcount := u16 (sn_mcount s + 1) in
     if mcount =? 0 then (s, Err pte_overflow)
     else (set_mcount s mcount, Ok tt) in
   if truth (sn_mcount s) then success s else
   match sn_mapped s with
   | Some _ => (s, Ok tt)
   | None =>
       match m with
       | Ok m => success (set_mapped s (Some m))
       | Err e => (s, Err e)
       | UB u => (s, UB u)
       end
   end).

(** pt_section_map_share(), pt_section.c:632-659. *)
Definition pt_section_map_share (s : scnt) : scnt * res unit :=
  alive s
  (let mcount := sn_mcount s in
   if mcount =? 0 then (s, Err pte_internal) else
   let mcount := u16 (mcount + 1) in
   if mcount =? 0 then (s, Err pte_overflow)
   else (set_mcount s mcount, Ok tt)).

(** pt_section_unmap(), pt_section.c:661-702. *)
Definition pt_section_unmap (s : scnt) : scnt * res unit :=
  alive s
  (let mcount := sn_mcount s in
   if mcount =? 0 then (s, Err pte_nomap) else
   let mcount := mcount - 1 in
   let s := set_mcount s mcount in
   if truth mcount then (s, Ok tt) else
   match sn_mapped s with
   | None => (s, Err pte_internal)
   | Some _ => (set_bcache (set_mapped s None) None, Ok tt)
   end).

(** pt_section_memsize_locked(), pt_section.c:409-459, with pt_sec_posix_memsize(),
    pt_section_posix.c:313-334, and pt_sec_file_memsize(), pt_section_file.c:245-256. *)
Definition pt_section_memsize (s : scnt) : scnt * res N :=
  alive s
  (match sn_mapped s with
   | None => if truth (sn_mcount s) then (s, Err pte_internal) else (s, Ok 0)
   | Some m =>
       let msize := match m with MapPosix _ msize _ => msize | MapFile _ _ => 0 end in
       (s, Ok (add64 msize (match sn_bcache s with Some n => n | None => 0 end)))
   end).

(** The part of pt_section_alloc_bcache() that runs under both locks,
    pt_section.c:507-577.  [n] is the memory size of a new block cache, [mem] tells
    whether the allocation succeeds.  [Ok None]: nothing to notify. *)
Definition pt_section_alloc_bcache (s : scnt) (csize n : N) (mem : bool)
  : scnt * res (option N) :=
  if negb (u32 csize =? csize) then (s, Err pte_not_supported) else
  alive s
  (if sn_mcount s =? 0 then (s, Err pte_internal) else
   match sn_bcache s with
   | Some _ => (s, Ok None)
   | None =>
       if negb mem then (s, Err pte_nomem) else
       let s := set_bcache s (Some n) in
       match snd (pt_section_memsize s) with
       | Ok memsize => (s, Ok (if truth memsize then Some memsize else None))
       | Err e => (s, Err e)
       | UB u => (s, UB u)
       end
   end).
