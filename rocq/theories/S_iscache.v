(** Specification of the image section cache: identifiers, the limit, and rules for
    users. *)

From Verif Require Import Base M_section M_image M_iscache S_image.
From Coq Require Import List NArith ZArith Bool.
Import ListNotations.
Open Scope N_scope.

(** ** The interface *)

(** Calls on the cache, and on sections by users that got them from the cache. *)
Inductive cop :=
| KAddFile (id : nat) (name : N) (size_of : res N) (offset size vaddr : N) (mem : bool)
| KFind (name offset size laddr : N)
| KLookup (isid : Z)
| KRead (files : N -> file) (map : section -> res mapping) (mem : bool) (size : N)
        (isid : Z) (vaddr : N)
| KSetLimit (limit : N)
| KClear
| KGet (id : nat) | KPut (id : nat)
| KMap (id : nat) (m : res mapping) (mem : bool) | KUnmap (id : nat)
| KBcache (sec : section) (n : N) (mem lmem : bool).

Inductive cans :=
| RDone (r : res unit) | RIsid (r : res N) | RSection (r : res (section * N))
| RBytes (r : res (list N)).

Definition cstep (s : world * iscache) (o : cop) : (world * iscache) * cans :=
  let (w, c) := s in
  match o with
  | KAddFile id name size_of offset size vaddr mem =>
      let '(w, c, r) := pt_iscache_add_file w c id name size_of offset size vaddr mem in
      ((w, c), RIsid r)
  | KFind name offset size laddr => (s, RIsid (Ok (pt_iscache_find c name offset size laddr)))
  | KLookup isid => let '(w, c, r) := pt_iscache_lookup w c isid in ((w, c), RSection r)
  | KRead files map mem size isid vaddr =>
      let '(w, c, r) := pt_iscache_read w c files map mem size isid vaddr in
      ((w, c), RBytes r)
  | KSetLimit limit => let '(w, c, r) := pt_iscache_set_limit w c limit in ((w, c), RDone r)
  | KClear => let '(w, c, r) := pt_iscache_clear w c in ((w, c), RDone r)
  | KGet id => let (w, r) := on_section w id pt_section_get in ((w, c), RDone r)
  | KPut id => let (w, r) := on_section w id pt_section_put in ((w, c), RDone r)
  | KMap id m mem => let '(w, c, r) := pt_section_map w c id m mem in ((w, c), RDone r)
  | KUnmap id => let (w, r) := on_section w id pt_section_unmap in ((w, c), RDone r)
  | KBcache sec n mem lmem =>
      let '(w, c, r) := alloc_bcache w c sec n mem lmem in ((w, c), RDone r)
  end.

(** ** Rules for users *)

(** References and mappings held by users, not by the cache. *)
Definition counts := nat -> N.

(** The memory a mapping takes. *)
Definition mapping_size (m : mapping) : N :=
  match m with MapPosix _ msize _ => msize | MapFile _ _ => 0 end.
(** Mapped files and block caches are smaller than 2^47 bytes. *)
Definition map_small (r : res mapping) : Prop :=
  match r with Ok m => mapping_size m < 2 ^ 47 | Err _ => True | UB _ => False end.

(** Users use sections while they hold a reference, drop what they hold, keep a reference
    while they have a section mapped, and only ask for a block cache while they have the
    section mapped.  New sections are new. *)
Definition user_may (f g : counts) (w : world) (o : cop) : Prop :=
  match o with
  | KAddFile id _ size_of _ _ _ _ =>
      sn_freed (w id) = true /\ no_ub size_of /\ forall fs, size_of = Ok fs -> fs < 2 ^ 64
  | KRead _ map _ _ _ _ => forall s, map_small (map s)
  | KSetLimit limit => limit < 2 ^ 64
  | KGet id => 0 < f id
  | KPut id => 0 < f id /\ (f id = 1 -> g id = 0)
  | KMap id m _ => 0 < f id /\ map_small m
  | KUnmap id => 0 < g id
  | KBcache sec n _ _ => 0 < f (sc_id sec) /\ 0 < g (sc_id sec) /\ n < 2 ^ 47
  | _ => True
  end.

Definition refs_next (f : counts) (o : cop) (r : cans) : counts :=
  match o, r with
  | KLookup _, RSection (Ok (s, _)) => bump f (sc_id s) true
  | KGet id, RDone (Ok _) => bump f id true
  | KPut id, RDone (Ok _) => bump f id false
  | _, _ => f
  end.
Definition maps_next (g : counts) (o : cop) (r : cans) : counts :=
  match o, r with
  | KMap id _ _, RDone (Ok _) => bump g id true
  | KUnmap id, RDone (Ok _) => bump g id false
  | _, _ => g
  end.

(** Everything that was done and answered, newest first; what users hold; the state. *)
Record run := mk_run {
  ru_hist : list (cop * cans); ru_refs : counts; ru_maps : counts;
  ru_state : world * iscache }.
Definition run_step (t : run) (o : cop) : run :=
  let (s, r) := cstep (ru_state t) o in
  mk_run ((o, r) :: ru_hist t) (refs_next (ru_refs t) o r) (maps_next (ru_maps t) o r) s.

(** At the beginning there are no sections and the cache is new. *)
Definition no_sections : world := fun _ => mk_scnt 0 0 0 None None None true.
Definition start (cid : nat) : run :=
  mk_run [] (fun _ => 0) (fun _ => 0) (no_sections, pt_iscache_init cid).
Definition run_all (cid : nat) (ops : list cop) : run := fold_left run_step ops (start cid).

Fixpoint users_may (t : run) (ops : list cop) : Prop :=
  match ops with
  | [] => True
  | o :: ops' =>
      user_may (ru_refs t) (ru_maps t) (fst (ru_state t)) o /\ users_may (run_step t o) ops'
  end.

(** ** Identifiers *)

(** What an identifier stands for: file, offset, size and load address. *)
Record ident := mk_ident { id_name : N; id_offset : N; id_size : N; id_laddr : N }.
Definition ident_eqb (a b : ident) : bool :=
  (id_name a =? id_name b) && (id_offset a =? id_offset b) && (id_size a =? id_size b)
  && (id_laddr a =? id_laddr b).

(** A section with the requested size is known, or the size is cut at the end of the
    file. *)
Definition known (l : list ident) (name offset size : N) : bool :=
  existsb (fun i => (id_name i =? name) && (id_offset i =? offset) && (id_size i =? size)) l.
Definition requested (l : list ident) (name : N) (size_of : res N) (offset size vaddr : N)
  : ident :=
  mk_ident name offset
    (if known l name offset size then size
     else match size_of with Ok fs => N.min size (fs - offset) | _ => size end) vaddr.

(** The index of the first occurrence. *)
Fixpoint index_of (l : list ident) (i : ident) : option N :=
  match l with
  | [] => None
  | x :: l' => if ident_eqb x i then Some 0 else option_map N.succ (index_of l' i)
  end.

(** The identifiers handed out since the last clear, in order: each successful addition
    of something new appends. *)
Fixpoint idents (h : list (cop * cans)) : list ident :=
  match h with
  | [] => []
  | (KAddFile _ name size_of offset size vaddr _, RIsid (Ok _)) :: h' =>
      let l := idents h' in
      let i := requested l name size_of offset size vaddr in
      match index_of l i with Some _ => l | None => l ++ [i] end
  | (KClear, _) :: _ => []
  | _ :: h' => idents h'
  end.

(** ** The limit *)

Fixpoint total (l : list lru_entry) : N :=
  match l with [] => 0 | e :: l' => lr_size e + total l' end.

(** [keep] is the longest part of [l], from the beginning, that fits. *)
Definition longest_fit (limit : N) (l keep : list lru_entry) : Prop :=
  exists dropped, l = keep ++ dropped /\ total keep <= limit /\
    match dropped with [] => True | e :: _ => limit < total keep + lr_size e end.

(** Use of [id], which takes [n] bytes: it becomes the most recently used one, unless it
    is new and can never fit. *)
Definition touch (limit : N) (l : list lru_entry) (id : nat) (n : N) : list lru_entry :=
  let rest := filter (fun e => negb (Nat.eqb (lr_id e) id)) l in
  if existsb (fun e => Nat.eqb (lr_id e) id) l then mk_lru id n :: rest
  else if n <=? limit then mk_lru id n :: l else l.

(** The memory that a section takes. *)
Definition memory (s : scnt) : N :=
  match sn_mapped s with
  | None => 0
  | Some m => mapping_size m + match sn_bcache s with Some n => n | None => 0 end
  end.

(** The section [id] is in the cache. *)
Definition in_cache (c : iscache) (id : nat) : Prop :=
  exists e, In e (ic_entries c) /\ sc_id (ce_sec e) = id.

(** Entries of the cache for a section; mappings of a section by the cache. *)
Definition entries_of (c : iscache) (id : nat) : N :=
  N.of_nat (length (filter (fun e => Nat.eqb (sc_id (ce_sec e)) id) (ic_entries c))).
Definition cached_maps (c : iscache) (id : nat) : N :=
  N.of_nat (length (filter (fun e => Nat.eqb (lr_id e) id) (ic_lru c))).

(** What a call that was answered with [r] does to the list of sections that the cache
    keeps mapped. *)
Definition list_after (w : world) (c : iscache) (w' : world) (c' : iscache) (o : cop)
  (r : cans) : Prop :=
  let same := ic_lru c' = ic_lru c in
  let used id n := longest_fit (ic_limit c) (touch (ic_limit c) (ic_lru c) id n) (ic_lru c') in
  ic_limit c' = match o with KSetLimit limit => limit | _ => ic_limit c end /\
  match o, r with
  | KSetLimit limit, _ => longest_fit limit (ic_lru c) (ic_lru c')
  | KClear, _ => ic_lru c' = []
  | KMap id _ _, RDone (Ok _) =>
      (in_cache c id -> used id (memory (w' id))) /\ (~ in_cache c id -> same)
  | KBcache sec _ _ _, RDone (Ok _) =>
      let id := sc_id sec in
      let grows := sn_bcache (w id) = None /\ memory (w' id) <> 0 /\ in_cache c id in
      (grows -> used id (memory (w' id))) /\ (~ grows -> same)
  | KRead _ _ _ _ isid _, RBytes (Ok _) =>
      exists e n, nth_error (ic_entries c) (Z.to_nat (isid - 1)) = Some e /\
                  used (sc_id (ce_sec e)) n
  | KRead _ _ _ _ isid _, _ =>
      same \/ exists e n, nth_error (ic_entries c) (Z.to_nat (isid - 1)) = Some e /\
                          used (sc_id (ce_sec e)) n
  | KAddFile _ _ _ _ _ _ _, RIsid (Ok _) => same
  | KAddFile _ _ _ _ _ _ _, _ => same \/ ic_lru c' = []
  | _, _ => same
  end.

(** What an identifier stands for; identifiers begin with one. *)
Definition meaning (l : list ident) (isid : Z) : option ident :=
  if (0 <? isid)%Z then nth_error l (Z.to_nat (isid - 1)) else None.

(** The section shows the part of the file that [i] describes. *)
Definition section_for (s : section) (i : ident) : Prop :=
  sc_name s = id_name i /\ sc_offset s = id_offset i /\ sc_size s = id_size i.
