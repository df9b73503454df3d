(** Block decoders that share sections with other decoders.

    The block cache belongs to the section (internal/include/pt_section.h:97, 286-318) and is used
    by all decoders that have the section in their image.  A decoder reads and writes one entry
    at a time, with an atomic load or store (pt_block_cache.c:63-95). *)

From Coq Require Import List NArith Bool.
From Verif Require Import Base M_asid M_insndec M_blk.
Import ListNotations.
Open Scope N_scope.

(** The decoder's section cache, the number of times other decoders had a chance to change the
    block caches, and the block caches they found, the last ones first. *)
Record env (C : Type) := mk_env { en_cache : C; en_time : nat; en_seen : list caches }.
Arguments mk_env {C}. Arguments en_cache {C}. Arguments en_time {C}. Arguments en_seen {C}.

Section SHARED.
  (** [others n] is what other decoders do the [n]th time they have a chance to. *)
  Context {S C : Type} (im : blk_image S C) (others : nat -> C -> caches -> C * caches).

  Definition on_cache {A} (e : env C) (r : C * A) : env C * A :=
    (mk_env (fst r) (en_time e) (en_seen e), snd r).

  Definition shared_image : image_if S (env C) :=
    mk_image_if S (env C) (im_read (bi_image im))
      (fun e a ip => on_cache e (im_lookup (bi_image im) (en_cache e) a ip))
      (im_sread (bi_image im))
      (fun e => on_cache e (im_invalidate (bi_image im) (en_cache e))).
  (** The image [im], with these other decoders instead of its own. *)
  Definition shared : blk_image S (env C) :=
    mk_blk_image S (env C) shared_image (fun e => bi_hit im (en_cache e)) (bi_key im) (bi_begin im)
      (bi_end im) (bi_offset im) (bi_size im) (bi_alloc im) (fun e => bi_kept im (en_cache e))
      (fun e cs => let (c, cs') := others (en_time e) (en_cache e) cs in
                   (mk_env c (Datatypes.S (en_time e)) (cs :: en_seen e), cs')).
End SHARED.
