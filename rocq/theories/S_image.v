(** Specification of images: which byte of which added section is visible at which
    address.

    The specification looks only at the history of calls and their return values.  It
    does not know about splitting or about the order of the list. *)

From Verif Require Import Base M_asid M_section M_image S_config.
From Coq Require Import List NArith.
Import ListNotations.
Open Scope N_scope.

(** ** The interface *)

(** Calls.  [IAdd] is pt_image_add(); the caller holds a reference to the section. *)
Inductive iop :=
| IAdd (sec : section) (a : asid) (vaddr isid : N) (mem : list bool)
| IAddFile (id : nat) (name : N) (size_of : res N) (offset size : N) (a : asid) (vaddr : N)
           (mem : list bool)
| IRemoveFile (name : N) (a : asid)
| IRemoveAsid (a : asid)
| IFind (a : asid) (vaddr : N)
| IRead (cb : option readmem) (files : N -> file) (map : section -> res mapping)
        (size : N) (a : asid) (addr : N)
| IGet (id : nat)                      (* the user takes another reference *)
| IPut (id : nat).                     (* the user drops a reference *)

(** What they return. *)
Inductive ians :=
| ADone (r : res unit) | ACount (r : res N) | AFound (r : res entry)
| ABytes (r : res (N * list N)).

Definition istep (s : world * image) (o : iop) : (world * image) * ians :=
  let (w, img) := s in
  match o with
  | IAdd sec a vaddr isid mem =>
      let '(w, img, r) := pt_image_add w mem img sec a vaddr isid in ((w, img), ADone r)
  | IAddFile id name size_of offset size a vaddr mem =>
      let '(w, img, r) := pt_image_add_file w mem img id name size_of offset size a vaddr in
      ((w, img), ADone r)
  | IRemoveFile name a =>
      let '(w, img, r) := pt_image_remove_by_filename w img name a in ((w, img), ACount r)
  | IRemoveAsid a =>
      let '(w, img, r) := pt_image_remove_by_asid w img a in ((w, img), ACount r)
  | IFind a vaddr =>
      let '(w, img, r) := pt_image_find w img a vaddr in ((w, img), AFound r)
  | IRead cb files map size a addr =>
      let '(w, img, r) := pt_image_read w img cb files map size a addr in
      ((w, img), ABytes r)
  | IGet id => let (w, r) := on_section w id pt_section_get in ((w, img), ADone r)
  | IPut id => let (w, r) := on_section w id pt_section_put in ((w, img), ADone r)
  end.

(** The state after a sequence of calls and the history, newest call first. *)
Definition history := list (iop * ians).
Fixpoint irun (s : world * image) (h : history) (ops : list iop)
  : (world * image) * history :=
  match ops with
  | [] => (s, h)
  | o :: ops' => let (s, r) := istep s o in irun s ((o, r) :: h) ops'
  end.

(** ** What is visible *)

(** A section as it was added. *)
Record added := mk_added { ad_sec : section; ad_asid : asid; ad_vaddr : N; ad_isid : N }.

(** The section a call adds. *)
Definition adds (o : iop) : option added :=
  match o with
  | IAdd sec a vaddr isid _ => Some (mk_added sec a vaddr isid)
  | IAddFile id name (Ok fs) offset size a vaddr _ =>
      Some (mk_added (mk_section_info id name offset (N.min size (fs - offset))) a vaddr 0)
  | _ => None
  end.

Definition contains (a : added) (x : N) : Prop :=
  ad_vaddr a <= x < ad_vaddr a + sc_size (ad_sec a).
Definition compatible (a b : asid) : Prop :=
  agree (as_cr3 a) (as_cr3 b) /\ agree (as_vmcs a) (as_vmcs b).

(** The call removes the mappings of [a]. *)
Definition removes (o : iop) (a : added) : Prop :=
  match o with
  | IRemoveFile name q => sc_name (ad_sec a) = name /\ compatible (ad_asid a) q
  | IRemoveAsid q => compatible (ad_asid a) q
  | _ => False
  end.

(** [shows h a x]: after the history [h], the section added by [a] is visible at [x].
    A successful addition makes the new section visible and hides, inside its range,
    all sections in compatible address spaces. *)
Fixpoint shows (h : history) (a : added) (x : N) : Prop :=
  match h with
  | [] => False
  | (o, r) :: h' =>
      match adds o with
      | Some n =>
          match r with
          | ADone (Ok _) =>
              (a = n /\ contains n x) \/
              (shows h' a x /\ ~ (compatible (ad_asid a) (ad_asid n) /\ contains n x))
          | _ => shows h' a x
          end
      | None => shows h' a x /\ ~ removes o a
      end
  end.

(** Address spaces without wildcards. *)
Definition specific (a : asid) : Prop :=
  ~ unspecified (as_cr3 a) /\ ~ unspecified (as_vmcs a).

(** ** Rules for callers *)

(** References held by others than the image. *)
Definition refs := nat -> N.
Definition bump (f : refs) (id : nat) (d : bool) : refs :=
  fun j => if Nat.eqb j id then (if d then f j + 1 else f j - 1) else f j.

(** Added sections do not reach the end of the address space; added and dropped sections
    are held by the caller; who has mapped a section keeps a reference; new sections are
    new. *)
Definition fits (a : added) : Prop := ad_vaddr a + sc_size (ad_sec a) < 2 ^ 64.
Definition caller_may (f : refs) (w : world) (o : iop) : Prop :=
  (forall n, adds o = Some n -> fits n) /\
  match o with
  | IAdd sec _ _ _ _ => 0 < f (sc_id sec)
  | IAddFile id _ size_of _ _ _ _ _ =>
      sn_freed (w id) = true /\ (forall fs, size_of = Ok fs -> fs < 2 ^ 64) /\ no_ub size_of
  | IGet id => 0 < f id
  | IPut id => 0 < f id /\ (sn_mcount (w id) <> 0 -> 1 < f id)
  | _ => True
  end.
(** A found section is handed over to the caller with a reference. *)
Definition refs_after (f : refs) (o : iop) (r : ians) : refs :=
  match o, r with
  | IFind _ _, AFound (Ok e) => bump f (sc_id (ms_sec (en_msec e))) true
  | IGet id, ADone (Ok _) => bump f id true
  | IPut id, ADone (Ok _) => bump f id false
  | _, _ => f
  end.
Fixpoint callers_may (f : refs) (s : world * image) (ops : list iop) : Prop :=
  match ops with
  | [] => True
  | o :: ops' =>
      caller_may f (fst s) o /\
      callers_may (refs_after f o (snd (istep s o))) (fst (istep s o)) ops'
  end.
Fixpoint refs_run (f : refs) (s : world * image) (ops : list iop) : refs :=
  match ops with
  | [] => f
  | o :: ops' => refs_run (refs_after f o (snd (istep s o))) (fst (istep s o)) ops'
  end.

(** Pieces of a section in an image. *)
Definition pieces (img : image) (id : nat) : N :=
  N.of_nat (length (filter (fun e => Nat.eqb (sc_id (ms_sec (en_msec e))) id) img)).

(** At the beginning, the image is empty and [f] tells who holds which sections. *)
Definition held (f : refs) (w : world) : Prop :=
  forall id,
    sn_freed (w id) = (f id =? 0) /\ (f id <> 0 -> sn_ucount (w id) = f id) /\
    f id < 2 ^ 16 /\ (f id = 0 -> sn_mcount (w id) = 0).

(** The state and the history after a sequence of calls on a new image. *)
Definition after (w : world) (ops : list iop) : (world * image) * history :=
  irun (w, []) [] ops.

(** Where a found section puts the address [x]: the section, its identifier and the
    offset into the section. *)
Definition place (r : ians) (x : N) : option (res (section * N * N)) :=
  match r with
  | AFound (Ok e) =>
      Some (Ok (ms_sec (en_msec e), en_isid e, pt_msec_unmap (en_msec e) x))
  | AFound (Err e) => Some (Err e)
  | AFound (UB u) => Some (UB u)
  | _ => None
  end.
Definition place_of (a : added) (x : N) : option (res (section * N * N)) :=
  Some (Ok (ad_sec a, ad_isid a, x - ad_vaddr a)).
Definition lookup_at (s : world * image) (q : asid) (x : N) : option (res (section * N * N)) :=
  place (snd (istep s (IFind q x))) x.

(** The section is mapped properly: a mapping exists while there are users, and it shows
    the section's part of the file. *)
Definition mapped_well (w : world) (s : section) : Prop :=
  match sn_mapped (w (sc_id s)) with
  | None => sn_mcount (w (sc_id s)) = 0
  | Some m => 0 < sn_mcount (w (sc_id s)) < 2 ^ 16 /\
              exists fs page u mm mem, sc_offset s + sc_size s <= fs < 2 ^ 63 /\
                                       map_file s fs page u mm mem = Ok m
  end.

(** [x] is where the section of a successful addition begins. *)
Definition begins (h : history) (x : N) : Prop :=
  exists o u n, In (o, ADone (Ok u)) h /\ adds o = Some n /\ ad_vaddr n = x.

(** An entry that is not a fragment: the whole section. *)
Definition whole (e : entry) : Prop :=
  ms_offset (en_msec e) = 0 /\ ms_size (en_msec e) = sc_size (ms_sec (en_msec e)).
