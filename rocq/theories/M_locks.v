(** The locking structure of sections, image section caches and everything
    that calls them: which mutex each function takes and releases, which
    shared fields it reads and writes in between, and nothing else.

    A program is the tree of lock operations and shared-field accesses a
    function may perform.  Every data-dependent branch of the C code (results
    of other calls, contents of counters, which section the cache holds, how
    often a loop iterates) is a [Pick]: the environment chooses.  So a program
    has at least the executions of the C function, for every state of the data.

    Simplified: mutex functions succeed (-pte_bad_lock never happens) and NULL
    arguments are left out; a section number stands for its object and is not
    reused after pt_section_free.  Loops run any finite number of times. *)
From Coq Require Import List Arith.
Import ListNotations.

(** pt_section.h:133-151, [lock] and [alock]; pt_image_section_cache.h:98-101,
    [lock]; pt_section_file.h:48-63, [lock] of the file mapping of a section. *)
Inductive lock :=
| Alock (s : nat)
| Clock (c : nat)
| Slock (s : nat)
| Flock (s : nat).

(** The shared fields: pt_section.h:154-161 [ucount], [acount], [mcount]
    (standing also for the mapping pointers that are set when it leaves zero),
    pt_section.h:108 [iscache]; pt_image_section_cache.h:84-116 all the
    fields of the cache; the file position of pt_section_file.h:48-63.  The
    [bcache] pointer is atomic and left out. *)
Inductive field :=
| Ucount (s : nat)
| Mcount (s : nat)
| Acount (s : nat)
| Attached (s : nat)
| Cdata (c : nat)
| Fpos (s : nat).

Inductive prog :=
| Done
| Acq (l : lock) (k : prog)
| Rel (l : lock) (k : prog)
| Rd (f : field) (k : prog)
| Wr (f : field) (k : prog)
| Pick (k : nat -> prog).

(** A two-way choice. *)
Definition either (a b : prog) : prog :=
  Pick (fun n => match n with O => a | S _ => b end).

(** Functions take the rest of the program as argument; [k true] continues
    after success, [k false] after an error. *)

(** pt_section.c:180-201 *)
Definition sec_get (s : nat) (k : bool -> prog) : prog :=
  Acq (Slock s) (Rd (Ucount s)
    (either (Rel (Slock s) (k false))
            (Wr (Ucount s) (Rel (Slock s) (k true))))).

(** pt_section.c:203-231; freeing the section is not an access here. *)
Definition sec_put (s : nat) (k : bool -> prog) : prog :=
  Acq (Slock s) (Rd (Mcount s) (Rd (Ucount s)
    (either (Wr (Ucount s) (Rel (Slock s) (k true)))
            (Rel (Slock s) (either (k false) (k true)))))).

(** pt_section.c:268-341 *)
Definition sec_attach (s : nat) (k : bool -> prog) : prog :=
  Acq (Alock s) (Rd (Acount s) (Rd (Attached s)
    (either (Rel (Alock s) (k false))
            (Acq (Slock s) (Rd (Ucount s) (Rel (Slock s)
               (either (Rel (Alock s) (k false))
                 (either
                    (Wr (Attached s) (Wr (Acount s)
                       (Rel (Alock s) (k true))))
                    (Wr (Acount s) (Rel (Alock s) (k true))))))))))).

(** pt_section.c:343-391 *)
Definition sec_detach (s : nat) (k : bool -> prog) : prog :=
  Acq (Alock s) (Rd (Attached s)
    (either (Rel (Alock s) (k false))
      (Rd (Acount s)
        (either (Rel (Alock s) (k false))
          (Acq (Slock s) (Rd (Ucount s) (Rel (Slock s)
             (either (Rel (Alock s) (k false))
                (Wr (Acount s)
                   (either (Wr (Attached s) (Rel (Alock s) (k true)))
                           (Rel (Alock s) (k true)))))))))))).

(** pt_section.c:461-476 *)
Definition sec_memsize (s : nat) (k : bool -> prog) : prog :=
  Acq (Slock s) (Rd (Mcount s)
    (Rel (Slock s) (either (k false) (k true)))).

(** pt_section.c:632-659 *)
Definition sec_map_share (s : nat) (k : bool -> prog) : prog :=
  Acq (Slock s) (Rd (Mcount s)
    (either (Rel (Slock s) (k false))
            (Wr (Mcount s) (Rel (Slock s) (k true))))).

(** pt_section.c:661-702 *)
Definition sec_unmap (s : nat) (k : bool -> prog) : prog :=
  Acq (Slock s) (Rd (Mcount s)
    (either (Rel (Slock s) (k false))
            (Wr (Mcount s)
               (Rel (Slock s) (either (k false) (k true)))))).

(** pt_image_section_cache.c:192-208: any number of sections, in any order;
    stops at the first error. *)
Fixpoint lru_free_n (n : nat) (k : bool -> prog) : prog :=
  match n with
  | O => k true
  | S m => Pick (fun s =>
      sec_unmap s (fun ok => if ok then lru_free_n m k else k false))
  end.

Definition lru_free (k : bool -> prog) : prog :=
  Pick (fun n => lru_free_n n k).

(** pt_image_section_cache.c:246-293 *)
Definition lru_new (c s : nat) (k : bool -> prog) : prog :=
  sec_memsize s (fun ok =>
    if ok then
      Rd (Cdata c)
        (either (k true)
          (sec_map_share s (fun ok =>
             if ok then
               either (sec_unmap s (fun _ => k false))
                 (Wr (Cdata c) (either (k false) (k true)))
             else k false)))
    else k false).

(** pt_image_section_cache.c:301-326 *)
Definition lru_add (c s : nat) (k : bool -> prog) : prog :=
  Rd (Cdata c) (either (Wr (Cdata c) (k true)) (lru_new c s k)).

(** pt_image_section_cache.c:333-355 *)
Definition lru_remove (c s : nat) (k : bool -> prog) : prog :=
  Rd (Cdata c)
    (either (k true) (Wr (Cdata c) (sec_unmap s k))).

(** pt_image_section_cache.c:364-408 *)
Definition lru_resize (c s : nat) (k : bool -> prog) : prog :=
  lru_add c s (fun ok =>
    if ok then
      Rd (Cdata c)
        (either (either (k false) (k true)) (Wr (Cdata c) (k true)))
    else k false).

(** pt_image_section_cache.c:210-240, the list is only looked at and cut. *)
Definition lru_prune (c : nat) (k : bool -> prog) : prog :=
  Rd (Cdata c) (either (k false) (Wr (Cdata c) (k true))).

(** pt_image_section_cache.c:1031-1053 (notify_map) and 1055-1077
    (notify_resize): [work] is the part done under the lock. *)
Definition notify (work : (bool -> prog) -> prog) (c : nat)
  (k : bool -> prog) : prog :=
  Acq (Clock c)
    (work (fun ok =>
       if ok then
         either (Rel (Clock c) (k true))
           (lru_prune c (fun ok =>
              Rel (Clock c) (if ok then lru_free k else k false)))
       else Rel (Clock c) (k false))).

Definition notify_map (c s : nat) : (bool -> prog) -> prog :=
  notify (lru_add c s) c.

Definition notify_resize (c s : nat) : (bool -> prog) -> prog :=
  notify (lru_resize c s) c.

(** pt_section.c:507-598; the cache is whichever the section is attached to. *)
Definition sec_alloc_bcache (s : nat) (k : bool -> prog) : prog :=
  Acq (Alock s) (Acq (Slock s) (Rd (Mcount s)
    (either (Rel (Slock s) (Rel (Alock s) (either (k false) (k true))))
      (Rel (Slock s)
        (either (Rel (Alock s) (k true))
          (Rd (Attached s)
            (either (Rel (Alock s) (k true))
              (Pick (fun c =>
                 notify_resize c s (fun ok => Rel (Alock s) (k ok))))))))))).

(** pt_section.c:600-630 *)
Definition sec_on_map_lock (s : nat) (k : bool -> prog) : prog :=
  Acq (Alock s) (Rd (Attached s)
    (either (Rel (Alock s) (k true))
      (Pick (fun c =>
         notify_map c s (fun ok => Rel (Alock s) (k ok)))))).

(** pt_section.h:350-356: reads [iscache] without holding the attach lock. *)
Definition sec_on_map (s : nat) (k : bool -> prog) : prog :=
  Rd (Attached s) (either (k true) (sec_on_map_lock s k)).

(** posix/pt_section_posix.c:163-197 *)
Definition sec_map_success (s : nat) (k : bool -> prog) : prog :=
  Rd (Mcount s)
    (either (Rel (Slock s) (k false))
      (Wr (Mcount s) (Rel (Slock s)
         (sec_on_map s (fun ok =>
            if ok then k true
            else sec_unmap s (fun _ => k false)))))).

(** posix/pt_section_posix.c:199-264 *)
Definition sec_map (s : nat) (k : bool -> prog) : prog :=
  Acq (Slock s) (Rd (Mcount s)
    (either (Rel (Slock s) (k false)) (sec_map_success s k))).

(** pt_section_file.c:195-243; memory mapped sections are read without any
    lock (the first branch). *)
Definition sec_read (s : nat) (k : bool -> prog) : prog :=
  either (either (k false) (k true))
    (Acq (Flock s) (Wr (Fpos s)
       (Rel (Flock s) (either (k false) (k true))))).

(** pt_image_section_cache.c:416-434 *)
Definition lru_clear (c : nat) (k : bool -> prog) : prog :=
  Acq (Clock c) (Rd (Cdata c) (Wr (Cdata c) (Rel (Clock c) (lru_free k)))).

(** pt_image_section_cache.c:725-734, the labels at the end of
    pt_iscache_add. *)
Definition isc_out_put (s : nat) (k : bool -> prog) : prog :=
  sec_put s (fun _ => k false).
Definition isc_out_lru (c s : nat) (k : bool -> prog) : prog :=
  lru_clear c (fun _ => isc_out_put s k).
Definition isc_out_detach (c s : nat) (k : bool -> prog) : prog :=
  sec_detach s (fun _ => isc_out_lru c s k).
Definition isc_out_unlock (c s : nat) (k : bool -> prog) : prog :=
  Rel (Clock c) (isc_out_detach c s k).

(** pt_image_section_cache.c:699-723, inserting the entry. *)
Definition isc_insert (c s : nat) (k : bool -> prog) : prog :=
  Rd (Cdata c)
    (either (isc_out_unlock c s k)
            (Wr (Cdata c) (Rel (Clock c) (k true)))).

(** pt_image_section_cache.c:580-697: at most [n] replacements of the section
    by another one; entered and left with the cache locked. *)
Fixpoint isc_loop (n : nat) (c s : nat) (k : bool -> prog) : prog :=
  Rd (Cdata c)
    (either (isc_out_unlock c s k)
    (either (isc_insert c s k)
    (either
       (Rel (Clock c)
          (sec_detach s (fun ok =>
             if ok then sec_put s k else isc_out_lru c s k)))
       (match n with
        | O => isc_insert c s k
        | S m => Pick (fun sec =>
            sec_get sec (fun ok =>
              if ok then
                Rel (Clock c)
                  (sec_detach s (fun ok =>
                     if ok then
                       sec_attach sec (fun ok =>
                         if ok then
                           Acq (Clock c)
                             (lru_remove c s (fun ok =>
                                if ok then
                                  sec_put s (fun ok =>
                                    if ok then isc_loop m c sec k
                                    else isc_out_unlock c sec k)
                                else
                                  sec_put s (fun _ =>
                                    isc_out_unlock c sec k)))
                         else sec_put sec (fun _ => isc_out_lru c s k))
                     else sec_put sec (fun _ => isc_out_lru c s k)))
              else isc_out_unlock c s k))
        end)))).

(** pt_image_section_cache.c:505-735 *)
Definition isc_add (c s : nat) (k : bool -> prog) : prog :=
  sec_get s (fun ok =>
    if ok then
      sec_attach s (fun ok =>
        if ok then Acq (Clock c) (Pick (fun n => isc_loop n c s k))
        else isc_out_put s k)
    else k false).

(** pt_image_section_cache.c:737-754 *)
Definition isc_find (c : nat) (k : bool -> prog) : prog :=
  Acq (Clock c) (Rd (Cdata c) (Rel (Clock c) (k true))).

(** pt_image_section_cache.c:756-795; [k] is given the section found. *)
Definition isc_lookup (c : nat) (k : option nat -> prog) : prog :=
  Acq (Clock c) (Rd (Cdata c)
    (either (Rel (Clock c) (k None))
      (Pick (fun s =>
         sec_get s (fun ok =>
           Rel (Clock c) (k (if ok then Some s else None))))))).

(** pt_image_section_cache.c:828-844 *)
Fixpoint isc_drop (n : nat) (k : bool -> prog) : prog :=
  match n with
  | O => k true
  | S m => Pick (fun s =>
      sec_detach s (fun ok =>
        if ok then
          sec_put s (fun ok => if ok then isc_drop m k else k false)
        else k false))
  end.

(** pt_image_section_cache.c:797-848 *)
Definition isc_clear (c : nat) (k : bool -> prog) : prog :=
  Acq (Clock c) (Rd (Cdata c) (Wr (Cdata c) (Rel (Clock c)
    (lru_free (fun ok =>
       if ok then Pick (fun n => isc_drop n k) else k false))))).

(** pt_image_section_cache.c:870-895 *)
Definition isc_set_limit (c : nat) (k : bool -> prog) : prog :=
  Acq (Clock c) (Wr (Cdata c)
    (either (Rel (Clock c) (k true))
      (lru_prune c (fun ok =>
         Rel (Clock c) (if ok then lru_free k else k false))))).

(** pt_image_section_cache.c:905-980; a section that is not found is made
    fresh (no lock), added and released. *)
Definition isc_add_file (c : nat) (k : bool -> prog) : prog :=
  Acq (Clock c) (Rd (Cdata c)
    (either (Rel (Clock c) (either (k false) (k true)))
    (either
       (Pick (fun s => sec_get s (fun ok =>
          if ok then
            Rel (Clock c) (isc_add c s (fun _ => sec_put s k))
          else Rel (Clock c) (k false))))
       (Rel (Clock c)
          (Pick (fun s => isc_add c s (fun _ => sec_put s k))))))).

(** pt_image_section_cache.c:983-1029 *)
Definition isc_read (c : nat) (k : bool -> prog) : prog :=
  isc_lookup c (fun o =>
    match o with
    | None => k false
    | Some s =>
        either (sec_put s (fun _ => k false))
          (sec_map s (fun ok =>
             if ok then
               sec_read s (fun _ => sec_unmap s (fun _ => sec_put s k))
             else sec_put s (fun _ => k false)))
    end).

(** pt_image.c:596-636, without the list manipulation of the image itself:
    the section found is taken by the image (pt_image.c:54), sections that it
    overlaps may be taken or released (pt_image.c:54, 73, 310, 315). *)
Fixpoint img_shuffle (n : nat) (k : prog) : prog :=
  match n with
  | O => k
  | S m => Pick (fun s =>
      either (sec_get s (fun _ => img_shuffle m k))
             (sec_put s (fun _ => img_shuffle m k)))
  end.

Definition img_change (k : prog) : prog := Pick (fun n => img_shuffle n k).

Definition img_add_cached (c : nat) (k : bool -> prog) : prog :=
  isc_lookup c (fun o =>
    match o with
    | None => k false
    | Some s => either (k false) (img_change (sec_put s k))
    end).

(** pt_image.c:560-594 *)
Definition img_read (k : bool -> prog) : prog :=
  either (k false)
    (Pick (fun s => sec_map s (fun ok =>
       if ok then sec_read s (fun _ => sec_unmap s k) else k false))).

(** pt_msec_cache.c:47-75 *)
Definition msec_invalidate (k : bool -> prog) : prog :=
  either (k true)
    (Pick (fun s => sec_unmap s (fun ok =>
       if ok then sec_put s k else k false))).

(** pt_msec_cache.c:90-137; pt_image_find takes a reference, pt_image.c:659. *)
Definition msec_fill (k : bool -> prog) : prog :=
  msec_invalidate (fun ok =>
    if ok then
      either (k false)
        (Pick (fun s => sec_get s (fun ok =>
           if ok then
             sec_map s (fun ok =>
               if ok then k true else sec_put s (fun _ => k false))
           else k false)))
    else k false).

(** What a thread may call: the functions of the section and image section
    cache interfaces, image functions, and the section accesses of the
    instruction flow and block decoders. *)
Inductive call :=
| CSecGet (s : nat) | CSecPut (s : nat)
| CSecAttach (s : nat) | CSecDetach (s : nat)
| CSecMemsize (s : nat) | CSecMap (s : nat) | CSecMapShare (s : nat)
| CSecUnmap (s : nat) | CSecRead (s : nat) | CSecAllocBcache (s : nat)
| CIscAdd (c s : nat) | CIscFind (c : nat) | CIscLookup (c : nat)
| CIscClear (c : nat) | CIscSetLimit (c : nat) | CIscAddFile (c : nat)
| CIscRead (c : nat)
| CImgAddCached (c : nat) | CImgChange | CImgRead
| CMsecInvalidate | CMsecFill.

Definition call_prog (o : call) (k : prog) : prog :=
  match o with
  | CSecGet s => sec_get s (fun _ => k)
  | CSecPut s => sec_put s (fun _ => k)
  | CSecAttach s => sec_attach s (fun _ => k)
  | CSecDetach s => sec_detach s (fun _ => k)
  | CSecMemsize s => sec_memsize s (fun _ => k)
  | CSecMap s => sec_map s (fun _ => k)
  | CSecMapShare s => sec_map_share s (fun _ => k)
  | CSecUnmap s => sec_unmap s (fun _ => k)
  | CSecRead s => sec_read s (fun _ => k)
  | CSecAllocBcache s => sec_alloc_bcache s (fun _ => k)
  | CIscAdd c s => isc_add c s (fun _ => k)
  | CIscFind c => isc_find c (fun _ => k)
  | CIscLookup c => isc_lookup c (fun _ => k)
  | CIscClear c => isc_clear c (fun _ => k)
  | CIscSetLimit c => isc_set_limit c (fun _ => k)
  | CIscAddFile c => isc_add_file c (fun _ => k)
  | CIscRead c => isc_read c (fun _ => k)
  | CImgAddCached c => img_add_cached c (fun _ => k)
  | CImgChange => img_change k
  | CImgRead => img_read (fun _ => k)
  | CMsecInvalidate => msec_invalidate (fun _ => k)
  | CMsecFill => msec_fill (fun _ => k)
  end.

(** A thread making the calls one after the other. *)
Fixpoint thread (l : list call) : prog :=
  match l with
  | [] => Done
  | o :: l => call_prog o (thread l)
  end.
