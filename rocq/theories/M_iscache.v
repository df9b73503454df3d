(** The image section cache: /repo/libipt/src/pt_image_section_cache.c, with the
    notifications it gets from pt_section_map() (posix/pt_section_posix.c) and
    pt_section_alloc_bcache() (pt_section.c).

    One cache and any number of sections; no section is attached to another cache.
    This model is sequential: locks are modelled in M_locks.v, locking errors are not
    modelled.  The array of entries is a list.  Arguments are not NULL. *)

From Verif Require Import Base M_section M_image.
From Coq Require Import List NArith ZArith Bool.
Import ListNotations.
Open Scope N_scope.

(** struct pt_iscache_entry and struct pt_iscache_lru_entry,
    internal/include/pt_image_section_cache.h:46-69. *)
Record cached := mk_cached { ce_sec : section; ce_laddr : N }.
Record lru_entry := mk_lru { lr_id : nat; lr_size : N }.

(** struct pt_image_section_cache, pt_image_section_cache.h:83-117; [ic_id] is its
    address. *)
Record iscache := mk_iscache {
  ic_id : nat; ic_entries : list cached; ic_capacity : N; ic_lru : list lru_entry;
  ic_limit : N; ic_used : N }.

Definition set_lru (c : iscache) (l : list lru_entry) (used : N) : iscache :=
  mk_iscache (ic_id c) (ic_entries c) (ic_capacity c) l (ic_limit c) used.
Definition set_limit (c : iscache) (limit : N) : iscache :=
  mk_iscache (ic_id c) (ic_entries c) (ic_capacity c) (ic_lru c) limit (ic_used c).
Definition set_entries (c : iscache) (l : list cached) (capacity : N) : iscache :=
  mk_iscache (ic_id c) l capacity (ic_lru c) (ic_limit c) (ic_used c).

(** pt_iscache_init(), pt_image_section_cache.c:38-62. *)
Definition pt_iscache_init (id : nat) : iscache := mk_iscache id [] 0 [] (2 ^ 64 - 1) 0.

Definition ic_size (c : iscache) : N := N.of_nat (length (ic_entries c)).

(** Continue after a call on a section: [k] on success, [h] on error. *)
Definition next {A B} (c : iscache) (p : world * res A)
  (k : world -> A -> world * iscache * res B) (h : world -> pte -> world * iscache * res B)
  : world * iscache * res B :=
  match p with
  | (w, Ok a) => k w a
  | (w, Err e) => h w e
  | (w, UB u) => (w, c, UB u)
  end.

(** pt_iscache_expand(), pt_image_section_cache.c:120-142: the new capacity. *)
Definition pt_iscache_expand (c : iscache) (mem : bool) : res N :=
  let target := u16 (ic_capacity c + 8) in
  if target <? ic_capacity c then Err pte_nomem
  else if negb mem then Err pte_nomem
  else Ok target.

(** pt_iscache_find_locked(), pt_image_section_cache.c:144-190; [idx] is the index of
    the first element of [l]. *)
Fixpoint find_locked (l : list cached) (idx : N) (name offset size laddr : N) : N :=
  match l with
  | [] => 0
  | e :: l' =>
      if (ce_laddr e =? laddr) && (sc_offset (ce_sec e) =? offset)
         && (sc_size (ce_sec e) =? size) && (sc_name (ce_sec e) =? name)
      then idx + 1
      else find_locked l' (idx + 1) name offset size laddr
  end.
Definition pt_iscache_find (c : iscache) (name offset size laddr : N) : N :=
  find_locked (ic_entries c) 0 name offset size laddr.

(** pt_iscache_find_section_locked(), pt_image_section_cache.c:444-503. [section] is the
    matching section found so far, [match_] its index. *)
Fixpoint find_section (l : list cached) (idx : nat) (section : option nat) (match_ : nat)
  (name offset size laddr : N) : nat :=
  match l with
  | [] => match_
  | e :: l' =>
      let id := sc_id (ce_sec e) in
      let go := find_section l' (S idx) in
      let found m := if laddr =? ce_laddr e then idx
                     else go (Some id) m name offset size laddr in
      match section with
      | Some s =>
          if Nat.eqb id s then found match_ else go section match_ name offset size laddr
      | None =>
          if negb (offset =? sc_offset (ce_sec e)) || negb (size =? sc_size (ce_sec e))
             || negb (name =? sc_name (ce_sec e))
          then go section match_ name offset size laddr
          else found idx
      end
  end.
Definition pt_iscache_find_section (c : iscache) (name offset size laddr : N) : nat :=
  find_section (ic_entries c) 0 None (length (ic_entries c)) name offset size laddr.

(** ** The list of mapped sections *)

(** pt_iscache_lru_free(), pt_image_section_cache.c:192-209. *)
Fixpoint pt_iscache_lru_free (w : world) (l : list lru_entry) : world * res unit :=
  match l with
  | [] => (w, Ok tt)
  | e :: l' =>
      match on_section w (lr_id e) pt_section_unmap with
      | (w, Ok _) => pt_iscache_lru_free w l'
      | (w, r) => (w, r)
      end
  end.

(** pt_iscache_lru_prune(), pt_image_section_cache.c:211-240: the part that stays and
    its size, and the part that goes. *)
Fixpoint lru_split (limit used : N) (l : list lru_entry)
  : option (list lru_entry * N * list lru_entry) :=
  match l with
  | [] => None
  | e :: l' =>
      let used' := add64 used (lr_size e) in
      if used' <=? limit then
        match lru_split limit used' l' with
        | Some (keep, n, tail) => Some (e :: keep, n, tail)
        | None => None
        end
      else Some ([], sub64 used' (lr_size e), l)
  end.
Definition pt_iscache_lru_prune (c : iscache) : iscache * res (list lru_entry) :=
  match lru_split (ic_limit c) 0 (ic_lru c) with
  | Some (keep, n, tail) => (set_lru c keep n, Ok tail)
  | None => (c, Err pte_internal)
  end.

(** pt_isache_lru_new(), pt_image_section_cache.c:248-293: whether to prune. *)
Definition pt_iscache_lru_new (w : world) (c : iscache) (id : nat) (mem : bool)
  : world * iscache * res bool :=
  next c (on_section w id pt_section_memsize)
    (fun w memsize =>
       if ic_limit c <? memsize then (w, c, Ok false) else
       next c (on_section w id pt_section_map_share)
         (fun w _ =>
            if negb mem then
              next c (on_section w id pt_section_unmap)
                (fun w _ => (w, c, Err pte_nomem)) (fun w _ => (w, c, Err pte_nomem))
            else
              let l := mk_lru id memsize :: ic_lru c in
              let total := add64 (ic_used c) memsize in
              if (total <? ic_used c) || (total <? memsize)
              then (w, set_lru c l (ic_used c), Err pte_overflow)
              else (w, set_lru c l total, Ok (ic_limit c <? total)))
         (fun w e => (w, c, Err e)))
    (fun w e => (w, c, Err e)).

(** The list without the first entry for [id], and that entry. *)
Fixpoint lru_take (l : list lru_entry) (id : nat) : option (lru_entry * list lru_entry) :=
  match l with
  | [] => None
  | e :: l' =>
      if Nat.eqb (lr_id e) id then Some (e, l') else
      match lru_take l' id with
      | Some (x, r) => Some (x, e :: r)
      | None => None
      end
  end.

(** pt_iscache_lru_add(), pt_image_section_cache.c:301-325. *)
Definition pt_iscache_lru_add (w : world) (c : iscache) (id : nat) (mem : bool)
  : world * iscache * res bool :=
  match lru_take (ic_lru c) id with
  | Some (e, rest) => (w, set_lru c (e :: rest) (ic_used c), Ok false)
  | None => pt_iscache_lru_new w c id mem
  end.

(** pt_iscache_lru_remove(), pt_image_section_cache.c:332-353. *)
Definition pt_iscache_lru_remove (w : world) (c : iscache) (id : nat)
  : world * iscache * res unit :=
  match lru_take (ic_lru c) id with
  | Some (e, rest) =>
      let (w, r) := pt_iscache_lru_free w [e] in (w, set_lru c rest (ic_used c), r)
  | None => (w, c, Ok tt)
  end.

(** pt_iscache_lru_resize(), pt_image_section_cache.c:362-408. *)
Definition pt_iscache_lru_resize (w : world) (c : iscache) (id : nat) (memsize : N)
  (mem : bool) : world * iscache * res bool :=
  match pt_iscache_lru_add w c id mem with
  | (w, c, Ok status) =>
      match ic_lru c with
      | [] => (w, c, if status then Err pte_internal else Ok false)
      | e :: rest =>
          if negb (Nat.eqb (lr_id e) id) then
            (w, c, if ic_limit c <? memsize then Ok false else Err pte_internal)
          else
            let l := mk_lru id memsize :: rest in
            if status then (w, set_lru c l (ic_used c), Ok true) else
            let used := add64 (sub64 (ic_used c) (lr_size e)) memsize in
            (w, set_lru c l used, Ok (ic_limit c <? used))
      end
  | r => r
  end.

(** pt_iscache_lru_clear(), pt_image_section_cache.c:416-434. *)
Definition pt_iscache_lru_clear (w : world) (c : iscache) : world * iscache * res unit :=
  let (w, r) := pt_iscache_lru_free w (ic_lru c) in (w, set_lru c [] 0, r).

(** The common part of pt_iscache_notify_map() and pt_iscache_notify_resize(),
    pt_image_section_cache.c:1041-1052 and 1066-1077. *)
Definition notify (p : world * iscache * res bool) : world * iscache * res unit :=
  match p with
  | (w, c, Ok prune) =>
      if prune then
        match pt_iscache_lru_prune c with
        | (c, Ok tail) => let (w, r) := pt_iscache_lru_free w tail in (w, c, r)
        | (c, Err e) => (w, c, Err e)
        | (c, UB u) => (w, c, UB u)
        end
      else (w, c, Ok tt)
  | (w, c, Err e) => (w, c, Err e)
  | (w, c, UB u) => (w, c, UB u)
  end.

(** pt_iscache_notify_map(), pt_iscache_notify_resize(),
    pt_image_section_cache.c:1031-1077. *)
Definition pt_iscache_notify_map (w : world) (c : iscache) (id : nat) (mem : bool) :=
  notify (pt_iscache_lru_add w c id mem).
Definition pt_iscache_notify_resize (w : world) (c : iscache) (id : nat) (memsize : N)
  (mem : bool) :=
  notify (pt_iscache_lru_resize w c id memsize mem).

(** pt_iscache_set_limit(), pt_image_section_cache.c:870-895. *)
Definition pt_iscache_set_limit (w : world) (c : iscache) (limit : N)
  : world * iscache * res unit :=
  let c := set_limit c limit in
  notify (w, c, Ok (limit <? ic_used c)).

(** ** Sections that notify the cache *)

Definition attached_to (s : scnt) (c : iscache) : bool :=
  match sn_iscache s with Some i => Nat.eqb i (ic_id c) | None => false end.

(** pt_section_map(), posix/pt_section_posix.c:163-264, and pt_section_on_map_lock(),
    pt_section.c:600-630.  [m] is the result of mapping the file. *)
Definition pt_section_map (w : world) (c : iscache) (id : nat) (m : res mapping)
  (mem : bool) : world * iscache * res unit :=
  let before := sn_mcount (w id) in
  next c (on_section w id (fun s => pt_section_map_count s m))
    (fun w _ =>
       if (sn_mcount (w id) =? before) || negb (attached_to (w id) c) then (w, c, Ok tt)
       else
         match pt_iscache_notify_map w c id mem with
         | (w, c, Err e) =>
             next c (on_section w id pt_section_unmap)
               (fun w _ => (w, c, Err e)) (fun w _ => (w, c, Err e))
         | r => r
         end)
    (fun w e => (w, c, Err e)).

(** pt_section_alloc_bcache(), pt_section.c:507-598.  [n] is the memory size of a new
    block cache. *)
Definition alloc_bcache (w : world) (c : iscache) (sec : section) (n : N) (mem lmem : bool)
  : world * iscache * res unit :=
  let id := sc_id sec in
  next c (on_section w id (fun s => pt_section_alloc_bcache s (sc_size sec) n mem))
    (fun w r =>
       match r with
       | Some memsize =>
           if attached_to (w id) c then pt_iscache_notify_resize w c id memsize lmem
           else (w, c, Ok tt)
       | None => (w, c, Ok tt)
       end)
    (fun w e => (w, c, Err e)).

(** ** Sections in the cache *)

(** The ends of pt_iscache_add() on error, pt_image_section_cache.c:721-734. *)
Definition out_put {A} (w : world) (c : iscache) (id : nat) (e : pte)
  : world * iscache * res A :=
  next c (on_section w id pt_section_put)
    (fun w _ => (w, c, Err e)) (fun w _ => (w, c, Err e)).
Definition out_lru {A} (w : world) (c : iscache) (id : nat) (e : pte)
  : world * iscache * res A :=
  match pt_iscache_lru_clear w c with
  | (w, c, UB u) => (w, c, UB u)
  | (w, c, _) => out_put w c id e
  end.
Definition out_detach {A} (w : world) (c : iscache) (id : nat) (e : pte)
  : world * iscache * res A :=
  next c (on_section w id (fun s => pt_section_detach s (ic_id c)))
    (fun w _ => out_lru w c id e) (fun w _ => out_lru w c id e).

(** The loop in pt_iscache_add(), pt_image_section_cache.c:577-681, for the section [sec]
    that we hold and are attached to: the section to add, or the identifier of an
    existing entry. *)
Fixpoint add_search (fuel : nat) (w : world) (c : iscache) (sec : section)
  (name offset size laddr : N) : world * iscache * res (section + N) :=
  match fuel with
  | O => (w, c, UB ub_fuel)
  | S fuel =>
      let m := pt_iscache_find_section c name offset size laddr in
      match nth_error (ic_entries c) m with
      | None => (w, c, Ok (inl sec))
      | Some e =>
          let id := sc_id sec in
          let other := ce_sec e in
          if Nat.eqb (sc_id other) id then
            if ce_laddr e =? laddr then
              next c (on_section w id (fun s => pt_section_detach s (ic_id c)))
                (fun w _ =>
                   next c (on_section w id pt_section_put)
                     (fun w _ => (w, c, Ok (inr (N.of_nat m + 1))))
                     (fun w e => (w, c, Err e)))
                (fun w e => out_lru w c id e)
            else (w, c, Ok (inl sec))
          else
            let put_other {A} w c (k : world -> world * iscache * res A) :=
              next c (on_section w (sc_id other) pt_section_put)
                (fun w _ => k w) (fun w _ => k w) in
            next c (on_section w (sc_id other) pt_section_get)
              (fun w _ =>
                 next c (on_section w id (fun s => pt_section_detach s (ic_id c)))
                   (fun w _ =>
                      next c (on_section w (sc_id other) (fun s => pt_section_attach s (ic_id c)))
                        (fun w _ =>
                           match pt_iscache_lru_remove w c id with
                           | (w, c, Ok _) =>
                               next c (on_section w id pt_section_put)
                                 (fun w _ => add_search fuel w c other name offset size laddr)
                                 (fun w e => out_detach w c (sc_id other) e)
                           | (w, c, Err e) =>
                               next c (on_section w id pt_section_put)
                                 (fun w _ => out_detach w c (sc_id other) e)
                                 (fun w _ => out_detach w c (sc_id other) e)
                           | (w, c, UB u) => (w, c, UB u)
                           end)
                        (fun w e => put_other w c (fun w => out_lru w c id e)))
                   (fun w e => put_other w c (fun w => out_lru w c id e)))
              (fun w e => out_detach w c id e)
      end
  end.

(** Making room and inserting, pt_image_section_cache.c:683-719. *)
Definition add_insert (w : world) (c : iscache) (sec : section) (laddr : N) (mem : bool)
  : world * iscache * res N :=
  let id := sc_id sec in
  let insert (c : iscache) :=
    (w, set_entries c (ic_entries c ++ [mk_cached sec laddr]) (ic_capacity c),
     Ok (ic_size c + 1)) in
  if ic_capacity c <=? ic_size c then
    if ic_capacity c <? ic_size c then out_detach w c id pte_internal else
    match pt_iscache_expand c mem with
    | Ok capacity =>
        let c := set_entries c (ic_entries c) capacity in
        if ic_capacity c <=? ic_size c then out_detach w c id pte_internal
        else insert c
    | Err e => out_detach w c id e
    | UB u => (w, c, UB u)
    end
  else insert c.

(** pt_iscache_add(), pt_image_section_cache.c:505-735.  The loop runs at most three
    times when there are no other threads; C46 shows that it does not run out of
    fuel. *)
Definition pt_iscache_add (w : world) (c : iscache) (sec : section) (laddr : N) (mem : bool)
  : world * iscache * res N :=
  let id := sc_id sec in
  next c (on_section w id pt_section_get)
    (fun w _ =>
       next c (on_section w id (fun s => pt_section_attach s (ic_id c)))
         (fun w _ =>
            match add_search 3 w c sec (sc_name sec) (sc_offset sec) (sc_size sec) laddr with
            | (w, c, Ok (inl sec)) => add_insert w c sec laddr mem
            | (w, c, Ok (inr isid)) => (w, c, Ok isid)
            | (w, c, Err e) => (w, c, Err e)
            | (w, c, UB u) => (w, c, UB u)
            end)
         (fun w e => out_put w c id e))
    (fun w e => (w, c, Err e)).

(** pt_iscache_add_file(), pt_image_section_cache.c:905-980.  [id] is the address of a
    new section, [size_of] the result of getting the file's size. *)
Definition pt_iscache_add_file (w : world) (c : iscache) (id : nat) (name : N)
  (size_of : res N) (offset size vaddr : N) (mem : bool) : world * iscache * res N :=
  let add (w : world) (sec : section) :=
    match pt_iscache_add w c sec vaddr mem with
    | (w, c, UB u) => (w, c, UB u)
    | (w, c, r) =>
        next c (on_section w (sc_id sec) pt_section_put)
          (fun w _ => (w, c, r)) (fun w e => (w, c, Err e))
    end in
  let m := pt_iscache_find_section c name offset size vaddr in
  match nth_error (ic_entries c) m with
  | Some e =>
      if ce_laddr e =? vaddr then (w, c, Ok (N.of_nat m + 1)) else
      next c (on_section w (sc_id (ce_sec e)) pt_section_get)
        (fun w _ => add w (ce_sec e)) (fun w e => (w, c, Err e))
  | None =>
      match pt_mk_section id name size_of offset size with
      | Ok sec => add (wset w id new_scnt) sec
      | Err e => (w, c, Err e)
      | UB u => (w, c, UB u)
      end
  end.

(** pt_iscache_lookup(), pt_image_section_cache.c:756-795; [isid] is a C int. *)
Definition pt_iscache_lookup (w : world) (c : iscache) (isid : Z)
  : world * iscache * res (section * N) :=
  if (isid <=? 0)%Z then (w, c, Err pte_bad_image) else
  let isid := Z.to_N (isid - 1) in
  if 2 ^ 16 - 1 <? isid then (w, c, Err pte_internal) else
  match nth_error (ic_entries c) (N.to_nat isid) with
  | None => (w, c, Err pte_bad_image)
  | Some e =>
      next c (on_section w (sc_id (ce_sec e)) pt_section_get)
        (fun w _ => (w, c, Ok (ce_sec e, ce_laddr e))) (fun w x => (w, c, Err x))
  end.

(** The loop in pt_iscache_clear(), pt_image_section_cache.c:829-844. *)
Fixpoint clear_entries (w : world) (cid : nat) (l : list cached) : world * res unit :=
  match l with
  | [] => (w, Ok tt)
  | e :: l' =>
      match on_section w (sc_id (ce_sec e)) (fun s => pt_section_detach s cid) with
      | (w, Ok _) =>
          match on_section w (sc_id (ce_sec e)) pt_section_put with
          | (w, Ok _) => clear_entries w cid l'
          | (w, r) => (w, r)
          end
      | (w, r) => (w, r)
      end
  end.
(** pt_iscache_clear(), pt_image_section_cache.c:797-848. *)
Definition pt_iscache_clear (w : world) (c : iscache) : world * iscache * res unit :=
  let c' := mk_iscache (ic_id c) [] 0 [] (ic_limit c) 0 in
  match pt_iscache_lru_free w (ic_lru c) with
  | (w, Ok _) => let (w, r) := clear_entries w (ic_id c) (ic_entries c) in (w, c', r)
  | (w, r) => (w, c', r)
  end.

(** pt_iscache_read(), pt_image_section_cache.c:983-1029. *)
Definition pt_iscache_read (w : world) (c : iscache) (files : N -> file)
  (map : section -> res mapping) (mem : bool) (size : N) (isid : Z) (vaddr : N)
  : world * iscache * res (list N) :=
  if size =? 0 then (w, c, Err pte_invalid) else
  match pt_iscache_lookup w c isid with
  | (w, c, Ok (sec, laddr)) =>
      let id := sc_id sec in
      let put {A} w c (r : res A) :=
        next c (on_section w id pt_section_put) (fun w _ => (w, c, r)) (fun w _ => (w, c, r)) in
      if vaddr <? laddr then put w c (Err pte_nomap) else
      let vaddr := vaddr - laddr in
      match pt_section_map w c id (map sec) mem with
      | (w, c, Ok _) =>
          let size := if 2 ^ 16 - 1 <? size then 2 ^ 16 - 1 else size in
          let status := pt_section_read sec (sn_mapped (w id)) (files (sc_name sec)) size vaddr in
          next c (on_section w id pt_section_unmap)
            (fun w _ =>
               next c (on_section w id pt_section_put)
                 (fun w _ => (w, c, status)) (fun w e => (w, c, Err e)))
            (fun w e => put w c (Err e))
      | (w, c, Err e) => put w c (Err e)
      | (w, c, UB u) => (w, c, UB u)
      end
  | (w, c, Err e) => (w, c, Err e)
  | (w, c, UB u) => (w, c, UB u)
  end.
