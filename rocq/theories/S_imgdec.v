(** The memory that an image shows to a decoder, from the history of the image. *)

From Verif Require Import Base M_asid M_section M_image M_insndec M_imgdec S_config S_image S_insn
  S_drive S_blk.
From Coq Require Import List NArith.
Import ListNotations.
Open Scope N_scope.

(** The byte of an added section at address [x]. *)
Definition byte_of (files : N -> file) (s : added) (x : N) : option N :=
  nth_error (files (sc_name (ad_sec s))) (N.to_nat (sc_offset (ad_sec s) + (x - ad_vaddr s))).

(** After the history [h], the memory consists of the bytes of the visible sections.
    Elsewhere, the callback reads memory; without a callback there is none. *)
Record memory_of (files : N -> file) (cb : option readmem) (h : history) (mem : asid -> memory) : Prop := {
  mo_section : forall a s x, shows h s x -> compatible (ad_asid s) a ->
    exists b, byte_of files s x = Some b /\ mem a x = Some (b, ad_isid s);
  mo_other : forall a x, (forall s, compatible (ad_asid s) a -> ~ shows h s x) ->
    match cb with
    | None => mem a x = None
    | Some c => forall n, 0 < n < 2 ^ 16 ->
        match mem a x with
        | None => c n a x = Err pte_nomap
        | Some (_, isid) => isid = 0 /\
            exists l, c n a x = Ok l /\ 0 < N.of_nat (length l) <= n /\ bytes_ok l /\ bytes_at (mem a) x l
        end
    end }.

(** The image can be used: no two sections are visible at the same address, not even in
    different address spaces; a section is one object; its file can be mapped and is not
    shorter than the section; and it has room for two more users. *)
Record usable (files : N -> file) (map : section -> res mapping) (h : history) (w : world) : Prop := {
  us_alone : forall s s' x, shows h s x -> shows h s' x -> s = s';
  us_object : forall s s' x x', shows h s x -> shows h s' x' ->
    sc_id (ad_sec s) = sc_id (ad_sec s') -> ad_sec s = ad_sec s';
  us_file : forall s x, shows h s x ->
    sc_offset (ad_sec s) + sc_size (ad_sec s) <= fsize (files (sc_name (ad_sec s))) < 2 ^ 63 /\
    bytes_ok (files (sc_name (ad_sec s)));
  us_map : forall s x, shows h s x ->
    exists m fs page u mm mem, sc_offset (ad_sec s) + sc_size (ad_sec s) <= fs < 2 ^ 63 /\
      map_file (ad_sec s) fs page u mm mem = Ok m /\ map (ad_sec s) = Ok m;
  us_mapped : forall s x, shows h s x -> mapped_well w (ad_sec s);
  us_room : forall s x, shows h s x ->
    sn_ucount (w (sc_id (ad_sec s))) < 65535 /\ sn_mcount (w (sc_id (ad_sec s))) < 65534 }.

(** The content of sections, and where the addresses of memory are in sections. *)
Record places_of (files : N -> file) (h : history) (content : N -> N -> option N)
                 (at_ : asid -> N -> option place) : Prop := {
  pc_content : forall s x o, shows h s x ->
    content (N.of_nat (sc_id (ad_sec s))) o =
      if o <? sc_size (ad_sec s)
      then nth_error (files (sc_name (ad_sec s))) (N.to_nat (sc_offset (ad_sec s) + o)) else None;
  pc_at : forall a x,
    match at_ a x with
    | Some p => exists s, shows h s x /\ compatible (ad_asid s) a /\
        pl_key p = N.of_nat (sc_id (ad_sec s)) /\ pl_off p = x - ad_vaddr s /\ 0 < pl_left p /\
        (forall y, x <= y < x + pl_left p -> shows h s y)
    | None => forall s, compatible (ad_asid s) a -> ~ shows h s x
    end }.

(** ** Using an image *)

(** The decoder as it is after the image was made. *)
Definition made (w : world) (ops : list iop) : lib :=
  mk_lib (fst (fst (after w ops))) (snd (fst (after w ops))) pt_msec_cache_init.

(** A decoder reads memory, finds the section at an address and reads from there, or forgets
    the section that it found last. *)
Inductive use :=
| Use_read (a : asid) (x : N) (n : nat)
| Use_find (a : asid) (x : N) (n : nat)
| Use_forget.

Section USE.
  Context (files : N -> file) (map : section -> res mapping) (cb : option readmem).

  Definition use_step (s : lib) (u : use) : lib * res (N * list N) :=
    match u with
    | Use_read a x n => image_read files map cb s a x n
    | Use_find a x n =>
        match im_lookup (library_image files map cb s) s a x with
        | (s, Ok (isid, v)) => (s, let* l := view_read files v x n in Ok (isid, l))
        | (s, Err e) => (s, Err e)
        | (s, UB u) => (s, UB u)
        end
    | Use_forget =>
        match msec_forget s with (s, r) => (s, let* _ := r in Ok (0, [])) end
    end.
  Fixpoint use_run (s : lib) (us : list use) : lib :=
    match us with
    | [] => s
    | u :: us => use_run (fst (use_step s u)) us
    end.
End USE.

(** The address space is not changed without forgetting the section. *)
Fixpoint proper (space : option asid) (us : list use) : Prop :=
  match us with
  | [] => True
  | Use_read _ _ _ :: us => proper space us
  | Use_find a _ _ :: us => (forall b, space = Some b -> a = b) /\ proper (Some a) us
  | Use_forget :: us => proper None us
  end.
