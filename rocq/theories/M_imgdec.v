(** The image and the section cache as a decoder uses them.

    /repo/libipt/src/pt_insn_decoder.c:1612-1637 (pt_insn_msec_lookup()),
    pt_block_decoder.c:2919-2965 (pt_blk_msec_fill(), pt_blk_msec_lookup() without block
    caches), pt_msec_cache.c and pt_image.c.

    This instantiates the access to memory that the instruction flow and the block decoder
    have in M_insndec and M_blk. *)

From Verif Require Import Base M_asid M_section M_image M_insndec M_blk.
From Coq Require Import List NArith Bool.
Import ListNotations.
Open Scope N_scope.

(** What a decoder works on: the sections, the image and the decoder's section cache. *)
Record lib := mk_lib { lb_world : world; lb_image : image; lb_cache : msec_cache }.

Section LIB.
  (** The contents of files, the results of mapping sections, and the callback. *)
  Context (files : N -> file) (map : section -> res mapping) (cb : option readmem).

  (** pt_insn_msec_lookup() and pt_blk_msec_lookup(): the cached section if the image would
      find it, too, otherwise the one that the image finds. *)
  Definition msec_lookup (s : lib) (a : asid) (ip : N) : lib * res (N * msec) :=
    match pt_msec_cache_read (lb_cache s) (lb_image s) ip with
    | Err pte_nomap =>
        let '(w, c, img, r) := pt_msec_cache_fill (lb_world s) (lb_cache s) (lb_image s) map a ip in
        (mk_lib w img c, r)
    | r => (s, r)
    end.

  (** pt_msec_cache_invalidate(). *)
  Definition msec_forget (s : lib) : lib * res unit :=
    let '(w, c, r) := pt_msec_cache_invalidate (lb_world s) (lb_cache s) in
    (mk_lib w (lb_image s) c, r).

  (** pt_image_read().  The size is a uint16_t. *)
  Definition image_read (s : lib) (a : asid) (ip : N) (n : nat) : lib * res (N * list N) :=
    let '(w, img, r) :=
      pt_image_read (lb_world s) (lb_image s) cb files map (N.min (N.of_nat n) 65535) a ip in
    (mk_lib w img (lb_cache s), r).

  (** A mapped section for reading: the section and the mapping of its file. *)
  Definition view := (msec * option mapping)%type.
  Definition view_of (s : lib) (m : msec) : view := (m, sn_mapped (lb_world s (sc_id (ms_sec m)))).
  Definition view_read (v : view) (ip : N) (n : nat) : res (list N) :=
    pt_msec_read (fst v) (snd v) (files (sc_name (ms_sec (fst v)))) (N.min (N.of_nat n) 65535) ip.

  (** The interface of M_insndec.  There, reading does not change anything, so [im_read] reads
      from the state [s0]. *)
  Definition library_image (s0 : lib) : image_if view lib :=
    mk_image_if view lib
      (fun a ip n => snd (image_read s0 a ip n))
      (fun s a ip => match msec_lookup s a ip with
                     | (s, Ok (isid, m)) => (s, Ok (isid, view_of s m))
                     | (s, Err e) => (s, Err e)
                     | (s, UB u) => (s, UB u)
                     end)
      view_read
      msec_forget.

  (** The interface of M_blk.  A section is known by the address of its object.  Which block
      caches can be allocated and which get lost is arbitrary.  Other decoders are added by
      [shared] (M_share). *)
  Context (size_of : nat -> N) (alloc : N -> bool * res unit) (kept : lib -> N -> bool).
  Definition library_blocks (s0 : lib) : blk_image view lib :=
    mk_blk_image view lib (library_image s0)
      (fun s ip => match pt_msec_cache_read (lb_cache s) (lb_image s) ip with Ok _ => true | _ => false end)
      (fun v => N.of_nat (sc_id (ms_sec (fst v))))
      (fun v => pt_msec_begin (fst v))
      (fun v => pt_msec_end (fst v))
      (fun v => ms_offset (fst v))
      (fun k => size_of (N.to_nat k))
      alloc kept
      (fun s cs => (s, cs)).
End LIB.
