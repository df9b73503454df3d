(** Images: /repo/libipt/src/pt_image.c, internal/include/pt_mapped_section.h and
    pt_msec_cache.c.

    An image is the list of its sections, first element first.  The use counts of all
    sections are kept in a world.  Whether malloc() succeeds is decided by a list of
    booleans, one per call; when it is exhausted, malloc() succeeds.  Arguments are
    not NULL.  The notification of an attached cache is modelled in M_iscache.v. *)

From Verif Require Import Base M_asid M_section.
From Coq Require Import List NArith Bool.
Import ListNotations.
Open Scope N_scope.

Definition world := nat -> scnt.
Definition wset (w : world) (id : nat) (s : scnt) : world :=
  fun j => if Nat.eqb j id then s else w j.
Definition on_section {A} (w : world) (id : nat) (f : scnt -> scnt * res A)
  : world * res A :=
  let (s, r) := f (w id) in (wset w id s, r).

(** struct pt_mapped_section, pt_mapped_section.h:40-63. *)
Record msec := mk_msec {
  ms_sec : section; ms_asid : asid; ms_vaddr : N; ms_offset : N; ms_size : N }.

(** pt_msec_begin(), pt_msec_end(), pt_msec_map(), pt_msec_unmap(),
    pt_mapped_section.h:94-109 and 147-158. *)
Definition pt_msec_begin (m : msec) : N := ms_vaddr m.
Definition pt_msec_end (m : msec) : N := add64 (ms_vaddr m) (ms_size m).
Definition pt_msec_map (m : msec) (offset : N) : N :=
  add64 (sub64 offset (ms_offset m)) (ms_vaddr m).
Definition pt_msec_unmap (m : msec) (vaddr : N) : N :=
  add64 (sub64 vaddr (ms_vaddr m)) (ms_offset m).

(** struct pt_section_list, internal/include/pt_image.h:42-51. *)
Record entry := mk_entry { en_msec : msec; en_isid : N }.
Definition image := list entry.

Definition en_sec (e : entry) : section := ms_sec (en_msec e).
Definition en_id (e : entry) : nat := sc_id (en_sec e).

(** pt_mk_section_list(), pt_image.c:39-66. *)
Definition pt_mk_section_list (w : world) (mem : list bool) (sec : section) (a : asid)
  (vaddr offset size isid : N) : world * list bool * res entry :=
  let '(ok, mem') := match mem with [] => (true, []) | b :: m => (b, m) end in
  if negb ok then (w, mem', Err pte_nomem) else
  match on_section w (sc_id sec) pt_section_get with
  | (w, Ok _) => (w, mem', Ok (mk_entry (mk_msec sec a vaddr offset size) isid))
  | (w, Err _) => (w, mem', Err pte_nomem)
  | (w, UB u) => (w, mem', UB u)
  end.

(** pt_section_list_free(), pt_section_list_free_tail(), pt_image.c:68-88: errors are
    ignored. *)
Definition pt_section_list_free (w : world) (e : entry) : world * res unit :=
  match on_section w (en_id e) pt_section_put with
  | (w, UB u) => (w, UB u)
  | (w, _) => (w, Ok tt)
  end.
Fixpoint pt_section_list_free_tail (w : world) (l : list entry) : world * res unit :=
  match l with
  | [] => (w, Ok tt)
  | e :: l' =>
      match pt_section_list_free w e with
      | (w, Ok _) => pt_section_list_free_tail w l'
      | (w, r) => (w, r)
      end
  end.

(** The state of the loop in pt_image_add(), pt_image.c:157-229: world, allocations,
    sections that stay (last first), removed sections, new sections. *)
Record adding := mk_adding {
  ad_world : world; ad_mem : list bool; ad_kept : list entry; ad_removed : list entry;
  ad_next : list entry }.

(** Add a piece of an existing section to the new sections, pt_image.c:205-213 and
    218-227. *)
Definition add_piece (st : adding) (e : entry) (vaddr offset size : N)
  : adding * res unit :=
  match pt_mk_section_list (ad_world st) (ad_mem st) (en_sec e) (ms_asid (en_msec e))
                           vaddr offset size (en_isid e) with
  | (w, mem, Ok n) =>
      (mk_adding w mem (ad_kept st) (ad_removed st) (n :: ad_next st), Ok tt)
  | (w, mem, Err _) => (mk_adding w mem (ad_kept st) (ad_removed st) (ad_next st), Err pte_nomem)
  | (w, mem, UB u) => (mk_adding w mem (ad_kept st) (ad_removed st) (ad_next st), UB u)
  end.

(** One iteration of the loop, for the section [e], pt_image.c:166-228. *)
Definition add_step (st : adding) (a : asid) (begin end_ : N) (e : entry)
  : adding * res unit :=
  let m := en_msec e in
  let keep := mk_adding (ad_world st) (ad_mem st) (e :: ad_kept st) (ad_removed st)
                        (ad_next st) in
  if negb (pt_asid_match (ms_asid m) a) then (keep, Ok tt) else
  let lbegin := pt_msec_begin m in
  let lend := pt_msec_end m in
  if (end_ <=? lbegin) || (lend <=? begin) then (keep, Ok tt) else
  let loff := ms_offset m in
  let st := mk_adding (ad_world st) (ad_mem st) (ad_kept st) (e :: ad_removed st)
                      (ad_next st) in
  match (if lbegin <? begin then add_piece st e lbegin loff (sub64 begin lbegin)
         else (st, Ok tt)) with
  | (st, Ok _) =>
      if end_ <? lend then
        add_piece st e end_ (add64 loff (sub64 end_ lbegin)) (sub64 lend end_)
      else (st, Ok tt)
  | (st, r) => (st, r)
  end.

(** The loop; the sections that were not yet looked at are returned, as well. *)
Fixpoint add_loop (st : adding) (a : asid) (begin end_ : N) (l : list entry)
  : adding * list entry * res unit :=
  match l with
  | [] => (st, [], Ok tt)
  | e :: l' =>
      match add_step st a begin end_ e with
      | (st, Ok _) => add_loop st a begin end_ l'
      | (st, r) => (st, l', r)
      end
  end.

(** pt_image_add(), pt_image.c:136-246. *)
Definition pt_image_add (w : world) (mem : list bool) (img : image) (sec : section)
  (a : asid) (vaddr isid : N) : world * image * res unit :=
  let size := sc_size sec in
  let begin := vaddr in
  let end_ := add64 begin size in
  match pt_mk_section_list w mem sec a begin 0 size isid with
  | (w, mem, Ok next) =>
      match add_loop (mk_adding w mem [] [] [next]) a begin end_ img with
      | (st, _, Ok _) =>
          match pt_section_list_free_tail (ad_world st) (ad_removed st) with
          | (w, Ok _) => (w, rev (ad_kept st) ++ ad_next st, Ok tt)
          | (w, r) => (w, rev (ad_kept st) ++ ad_next st, r)
          end
      | (st, rest, Err e) =>
          let img := rev (ad_kept st) ++ rest ++ ad_removed st in
          match pt_section_list_free_tail (ad_world st) (ad_next st) with
          | (w, Ok _) => (w, img, Err e)
          | (w, r) => (w, img, r)
          end
      | (st, rest, UB u) => (ad_world st, img, UB u)
      end
  | (w, _, Err _) => (w, img, Err pte_nomem)
  | (w, _, UB u) => (w, img, UB u)
  end.

(** pt_image_remove(), pt_image.c:248-286. *)
Fixpoint pt_image_remove (w : world) (img : image) (id : nat) (a : asid) (vaddr : N)
  : world * image * res unit :=
  match img with
  | [] => (w, [], Err pte_bad_image)
  | e :: img' =>
      if pt_asid_match (ms_asid (en_msec e)) a && Nat.eqb (en_id e) id
         && (pt_msec_begin (en_msec e) =? vaddr) then
        let (w, r) := pt_section_list_free w e in (w, img', r)
      else
        let '(w, img', r) := pt_image_remove w img' id a vaddr in (w, e :: img', r)
  end.

(** The loops of pt_image_remove_by_filename(), pt_image.c:367-400, and
    pt_image_remove_by_asid(), pt_image.c:417-442: the sections for which [p] holds
    are removed and counted. *)
Fixpoint remove_where (p : entry -> bool) (w : world) (img : image)
  : world * image * res N :=
  match img with
  | [] => (w, [], Ok 0)
  | e :: img' =>
      if p e then
        match pt_section_list_free w e with
        | (w, Ok _) =>
            let '(w, img', r) := remove_where p w img' in
            (w, img', let* n := r in Ok (n + 1))
        | (w, Err x) => (w, img', Err x)
        | (w, UB u) => (w, img', UB u)
        end
      else
        let '(w, img', r) := remove_where p w img' in (w, e :: img', r)
  end.
Definition pt_image_remove_by_filename (w : world) (img : image) (name : N) (a : asid) :=
  remove_where (fun e => pt_asid_match (ms_asid (en_msec e)) a && (sc_name (en_sec e) =? name))
               w img.
Definition pt_image_remove_by_asid (w : world) (img : image) (a : asid) :=
  remove_where (fun e => pt_asid_match (ms_asid (en_msec e)) a) w img.

(** pt_image_copy(), pt_image.c:322-351, for different images.  [mems] decides about the
    allocations of each addition. *)
Fixpoint pt_image_copy (w : world) (mems : list (list bool)) (img src : image)
  : world * image * res N :=
  match src with
  | [] => (w, img, Ok 0)
  | e :: src' =>
      let (mem, mems') := match mems with [] => ([], []) | m :: ms => (m, ms) end in
      match pt_image_add w mem img (en_sec e) (ms_asid (en_msec e))
                         (ms_vaddr (en_msec e)) (en_isid e) with
      | (w, img, Ok _) => pt_image_copy w mems' img src'
      | (w, img, Err _) =>
          let '(w, img, r) := pt_image_copy w mems' img src' in
          (w, img, let* n := r in Ok (n + 1))
      | (w, img, UB u) => (w, img, UB u)
      end
  end.

(** pt_image_add_file(), pt_image.c:288-320, for a converted address space.  [id] is the
    address of the new section, [size_of] the result of getting the file's size. *)
Definition pt_image_add_file (w : world) (mem : list bool) (img : image) (id : nat)
  (name : N) (size_of : res N) (offset size : N) (a : asid) (vaddr : N)
  : world * image * res unit :=
  match pt_mk_section id name size_of offset size with
  | Ok section =>
      let w := wset w id new_scnt in
      match pt_image_add w mem img section a vaddr 0 with
      | (w, img, Ok _) =>
          let (w, r) := on_section w id pt_section_put in (w, img, r)
      | (w, img, Err e) =>
          match on_section w id pt_section_put with
          | (w, UB u) => (w, img, UB u)
          | (w, _) => (w, img, Err e)
          end
      | (w, img, UB u) => (w, img, UB u)
      end
  | Err e => (w, img, Err e)
  | UB u => (w, img, UB u)
  end.

(** pt_image_check_msec(), pt_image.c:481-507. *)
Definition pt_image_check_msec (m : msec) (a : asid) (vaddr : N) : bool :=
  if (vaddr <? pt_msec_begin m) || (pt_msec_end m <=? vaddr) then false
  else pt_asid_match (ms_asid m) a.

(** pt_image_fetch_section(), pt_image.c:516-553: the image with the found section in
    front. *)
Fixpoint find_split (p : entry -> bool) (before l : list entry)
  : option (entry * list entry) :=
  match l with
  | [] => None
  | e :: l' => if p e then Some (e, rev before ++ l') else find_split p (e :: before) l'
  end.
Definition pt_image_fetch_section (img : image) (a : asid) (vaddr : N)
  : image * res entry :=
  match find_split (fun e => pt_image_check_msec (en_msec e) a vaddr) [] img with
  | Some (e, rest) => (e :: rest, Ok e)
  | None => (img, Err pte_nomap)
  end.

(** pt_image_find(), pt_image.c:637-666. *)
Definition pt_image_find (w : world) (img : image) (a : asid) (vaddr : N)
  : world * image * res entry :=
  match pt_image_fetch_section img a vaddr with
  | (img, Ok e) =>
      match on_section w (en_id e) pt_section_get with
      | (w, Ok _) => (w, img, Ok e)
      | (w, Err x) => (w, img, Err x)
      | (w, UB u) => (w, img, UB u)
      end
  | (img, Err x) => (w, img, Err x)
  | (img, UB u) => (w, img, UB u)
  end.

(** Comparing structures with memcmp(). *)
Definition section_eqb (a b : section) : bool := Nat.eqb (sc_id a) (sc_id b).
Definition msec_eqb (a b : msec) : bool :=
  section_eqb (ms_sec a) (ms_sec b) && (as_cr3 (ms_asid a) =? as_cr3 (ms_asid b))
  && (as_vmcs (ms_asid a) =? as_vmcs (ms_asid b)) && (ms_vaddr a =? ms_vaddr b)
  && (ms_offset a =? ms_offset b) && (ms_size a =? ms_size b).

(** pt_image_validate(), pt_image.c:668-704. *)
Definition pt_image_validate (img : image) (m : msec) (vaddr isid : N) : res unit :=
  if (vaddr <? pt_msec_begin m) || (pt_msec_end m <=? vaddr) then Err pte_nomap else
  match img with
  | [] => Err pte_nomap
  | e :: _ =>
      if negb (en_isid e =? isid) then Err pte_nomap
      else if negb (msec_eqb (en_msec e) m) then Err pte_nomap
      else Ok tt
  end.

(** ** Reading *)

(** pt_msec_read(), pt_mapped_section.h:168-198: the clipped size, then
    pt_section_read(). *)
Definition pt_msec_read (m : msec) (map : option mapping) (f : file) (size vaddr : N)
  : res (list N) :=
  let begin := vaddr in
  let end_ := add64 begin size in
  let end_ := if end_ <? begin then 2 ^ 64 - 1 else end_ in
  let mbegin := pt_msec_begin m in
  let mend := pt_msec_end m in
  if (begin <? mbegin) || (mend <=? begin) then Err pte_nomap else
  let end_ := if mend <? end_ then mend else end_ in
  let size := u16 (sub64 end_ begin) in
  pt_section_read (ms_sec m) map f size (pt_msec_unmap m begin).

(** The read-memory callback: size, address space and address to bytes. *)
Definition readmem := N -> asid -> N -> res (list N).

(** pt_image_read_callback(), pt_image.c:457-473. *)
Definition pt_image_read_callback (cb : option readmem) (size : N) (a : asid) (addr : N)
  : res (N * list N) :=
  match cb with
  | None => Err pte_nomap
  | Some f => let* bytes := f size a addr in Ok (0, bytes)
  end.

(** pt_image_read(), pt_image.c:555-603.  [files] gives the contents of the files, [map]
    the result of mapping a section's file. *)
Definition pt_image_read (w : world) (img : image) (cb : option readmem)
  (files : N -> file) (map : section -> res mapping) (size : N) (a : asid) (addr : N)
  : world * image * res (N * list N) :=
  match pt_image_fetch_section img a addr with
  | (img, Ok e) =>
      match on_section w (en_id e) (fun s => pt_section_map_count s (map (en_sec e))) with
      | (w, Ok _) =>
          let status := pt_msec_read (en_msec e) (sn_mapped (w (en_id e)))
                                     (files (sc_name (en_sec e))) size addr in
          match on_section w (en_id e) pt_section_unmap with
          | (w, Ok _) =>
              (w, img,
               match status with
               | Ok bytes => Ok (en_isid e, bytes)
               | Err pte_nomap => pt_image_read_callback cb size a addr
               | Err x => Err x
               | UB u => UB u
               end)
          | (w, Err x) => (w, img, Err x)
          | (w, UB u) => (w, img, UB u)
          end
      | (w, Err x) => (w, img, Err x)
      | (w, UB u) => (w, img, UB u)
      end
  | (img, Err pte_nomap) => (w, img, pt_image_read_callback cb size a addr)
  | (img, Err x) => (w, img, Err x)
  | (img, UB u) => (w, img, UB u)
  end.

(** ** The section cache of a decoder *)

(** struct pt_msec_cache, internal/include/pt_msec_cache.h:41-54.  Without a section,
    the remaining fields are not used: pt_image_validate() fails in every case. *)
Record msec_cache := mk_msec_cache { mc_msec : option msec; mc_isid : N }.
Definition pt_msec_cache_init : msec_cache := mk_msec_cache None 0.

(** pt_msec_cache_invalidate(), pt_msec_cache.c:56-75. *)
Definition pt_msec_cache_invalidate (w : world) (c : msec_cache)
  : world * msec_cache * res unit :=
  match mc_msec c with
  | None => (w, c, Ok tt)
  | Some m =>
      let id := sc_id (ms_sec m) in
      match on_section w id pt_section_unmap with
      | (w, Ok _) =>
          let (w, r) := on_section w id pt_section_put in
          (w, mk_msec_cache None (mc_isid c), r)
      | (w, r) => (w, c, r)
      end
  end.

(** pt_msec_cache_read(), pt_msec_cache.c:77-98. *)
Definition pt_msec_cache_read (c : msec_cache) (img : image) (vaddr : N)
  : res (N * msec) :=
  match mc_msec c with
  | None => Err pte_nomap
  | Some m =>
      let* _ := pt_image_validate img m vaddr (mc_isid c) in
      Ok (mc_isid c, m)
  end.

(** pt_msec_cache_fill(), pt_msec_cache.c:100-137.  [map] is the result of mapping a
    section's file. *)
Definition pt_msec_cache_fill (w : world) (c : msec_cache) (img : image)
  (map : section -> res mapping) (a : asid) (vaddr : N)
  : world * msec_cache * image * res (N * msec) :=
  match pt_msec_cache_invalidate w c with
  | (w, c, Ok _) =>
      match pt_image_find w img a vaddr with
      | (w, img, Ok e) =>
          let m := en_msec e in
          let id := en_id e in
          match on_section w id (fun s => pt_section_map_count s (map (en_sec e))) with
          | (w, Ok _) => (w, mk_msec_cache (Some m) (en_isid e), img, Ok (en_isid e, m))
          | (w, Err x) =>
              match on_section w id pt_section_put with
              | (w, UB u) => (w, c, img, UB u)
              | (w, _) => (w, c, img, Err x)
              end
          | (w, UB u) => (w, c, img, UB u)
          end
      | (w, img, Err x) => (w, c, img, Err x)
      | (w, img, UB u) => (w, c, img, UB u)
      end
  | (w, c, Err x) => (w, c, img, Err x)
  | (w, c, UB u) => (w, c, img, UB u)
  end.
