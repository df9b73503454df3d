(** The block decoder: /repo/libipt/src/pt_block_decoder.c and pt_block_cache.c.

    The decoder state is [blkdec]; the functions are state transformers that keep the
    changed state, and the changed block, also when they return an error.

    Simplifications: null-pointer checks are left out, and the user provides memory for a
    full event and a full block.  Memory is read through [image_if], and [blk_image] adds
    what the block decoder asks of a mapped section.  Reading the image is assumed not to
    return -pte_bad_query.  The block caches of the sections are part of the state;
    before each access other decoders may have changed them ([bi_others]). *)

From Coq Require Import List NArith ZArith Bool.
From Verif Require Import Base M_packet M_pktdec M_config M_cpu M_time M_event M_evdec M_query M_retstack M_asid
  M_ildtab M_ild M_insn M_insndec.
Import ListNotations.
Open Scope N_scope.

(** ** The block cache *)

(** enum pt_bcache_qualifier, internal/include/pt_block_cache.h:37-103. *)
Inductive qualifier := ptbq_again | ptbq_cond | ptbq_ind_call | ptbq_return | ptbq_indirect
  | ptbq_decode.

(** struct pt_bcache_entry, pt_block_cache.h:118-157. *)
Record entry := mk_entry {
  be_disp : Z;       (* 16 bit *)
  be_ninsn : N;      (* 8 bit *)
  be_mode : exec_mode;
  be_qual : qualifier;
  be_isize : N }.    (* 3 bit *)
(** memset() to zero. *)
Definition no_entry : entry := mk_entry 0 0 ptem_unknown ptbq_again 0.

(** Conversions to signed integers. *)
Definition sx64 (n : N) : Z :=
  let z := Z.of_N (n mod 2 ^ 64) in if Z.ltb z (2 ^ 63) then z else Z.sub z (2 ^ 64).
Definition sx16 (z : Z) : Z := Z.sub (Z.modulo (Z.add z (2 ^ 15)) (2 ^ 16)) (2 ^ 15).

(** pt_bce_is_valid(), pt_block_cache.h:172-176. *)
Definition pt_bce_is_valid (e : entry) : bool := negb (mode_eqb (be_mode e) ptem_unknown).

(** struct pt_block_cache, pt_block_cache.h:181-195. *)
Record bcache := mk_bcache { bc_n : N; bc_entry : N -> entry }.

(** pt_bcache_add() and pt_bcache_lookup(), pt_block_cache.c:64-97. *)
Definition pt_bcache_add (c : bcache) (i : N) (e : entry) : res bcache :=
  if bc_n c <=? i then Err pte_internal
  else Ok (mk_bcache (bc_n c) (fun j => if j =? i then e else bc_entry c j)).
Definition pt_bcache_lookup (c : bcache) (i : N) : res entry :=
  if bc_n c <=? i then Err pte_internal else Ok (bc_entry c i).

(** The block caches of the sections; sections are numbered. *)
Definition caches := N -> option bcache.
Definition put_cache (c : caches) (k : N) (b : bcache) : caches :=
  fun j => if j =? k then Some b else c j.

(** ** Blocks *)

(** struct pt_block, intel-pt.h.in:2819-2881. *)
Record block := mk_block {
  b_ip : N; b_end_ip : N; b_isid : N; b_mode : exec_mode; b_iclass : iclass; b_ninsn : N;
  b_raw : list N; b_size : nat; b_speculative : bool; b_truncated : bool }.
(** A block as pt_blk_next() initialises it. *)
Definition new_block (ip : N) (m : exec_mode) (spec : bool) : block :=
  mk_block ip 0 0 m ptic_unknown 0 (repeat 0 15) 0 spec false.
Definition b_set_isid b x := mk_block (b_ip b) (b_end_ip b) x (b_mode b) (b_iclass b) (b_ninsn b)
  (b_raw b) (b_size b) (b_speculative b) (b_truncated b).
Definition b_set_iclass b x := mk_block (b_ip b) (b_end_ip b) (b_isid b) (b_mode b) x (b_ninsn b)
  (b_raw b) (b_size b) (b_speculative b) (b_truncated b).
Definition b_set_end b c e n := mk_block (b_ip b) e (b_isid b) (b_mode b) c n
  (b_raw b) (b_size b) (b_speculative b) (b_truncated b).
Definition b_set_mode b x := mk_block (b_ip b) (b_end_ip b) (b_isid b) x (b_iclass b) (b_ninsn b)
  (b_raw b) (b_size b) (b_speculative b) (b_truncated b).
(** The text of a truncated instruction is copied into the block. *)
Definition b_set_text b (i : insn) := mk_block (b_ip b) (b_end_ip b) (b_isid b) (b_mode b)
  (b_iclass b) (b_ninsn b) (put_raw (b_raw b) 0 (firstn (in_size i) (in_raw i))) (in_size i)
  (b_speculative b) true.

(** ** The decoder *)

(** What the block decoder asks of the image besides [image_if]: [bi_hit] says whether
    pt_msec_cache_read() finds the address in the section cache, so that [im_lookup] does not
    fill it; of a mapped section, its section and its addresses (pt_mapped_section.h:94-147);
    [bi_alloc] is pt_section_alloc_bcache() (pt_section.c:507-590) on a section without block
    cache: whether one is installed, and the result; its size is [bi_size].  Filling the
    section cache may unmap sections; their block caches are gone unless [bi_kept].
    [bi_others] is what other decoders do to the block caches they share with this one, before
    it looks at them: entries are read and written as a whole (pt_block_cache.c:63-95). *)
Record blk_image (S C : Type) := mk_blk_image {
  bi_image : image_if S C;
  bi_hit : C -> N -> bool;
  bi_key : S -> N;
  bi_begin : S -> N;
  bi_end : S -> N;
  bi_offset : S -> N;
  bi_size : N -> N;
  bi_alloc : N -> bool * res unit;
  bi_kept : C -> N -> bool;
  bi_others : C -> caches -> C * caches }.
Arguments bi_image {S C}. Arguments bi_hit {S C}. Arguments bi_key {S C}. Arguments bi_begin {S C}.
Arguments bi_end {S C}. Arguments bi_offset {S C}. Arguments bi_size {S C}.
Arguments bi_alloc {S C}. Arguments bi_kept {S C}. Arguments bi_others {S C}.

(** struct pt_block_decoder, internal/include/pt_block_decoder.h:47-143.  [bd_status] is
    [None] if it is not negative.  [bd_event] is [None] if it holds no known event. *)
Record blkdec (C : Type) := mk_blkdec {
  bd_evdec : evdec;
  bd_ticks : bool;              (* flags.variant.block.enable_tick_events *)
  bd_end_call : bool;           (* flags.variant.block.end_on_call *)
  bd_end_jump : bool;           (* flags.variant.block.end_on_jump *)
  bd_mode : exec_mode;
  bd_ip : N;
  bd_status : option pte;
  bd_event : option event;
  bd_enabled : bool;
  bd_spec : bool;
  bd_tsc : N;
  bd_has_tsc : bool;
  bd_lost_mtc : N;
  bd_lost_cyc : N;
  bd_cbr : N;
  bd_has_icnt : bool;
  bd_icnt : N;
  bd_postponed : option (insn * insn_ext);   (* process_insn, insn and iext *)
  bd_bound : bounds;
  bd_retstack : retstack;
  bd_asid : asid;
  bd_scache : C;
  bd_caches : caches }.
Arguments mk_blkdec {C}. Arguments bd_evdec {C}. Arguments bd_ticks {C}. Arguments bd_end_call
{C}. Arguments bd_end_jump {C}. Arguments bd_mode {C}. Arguments bd_ip {C}. Arguments bd_status
{C}. Arguments bd_event {C}. Arguments bd_enabled {C}. Arguments bd_spec {C}. Arguments bd_tsc
{C}. Arguments bd_has_tsc {C}. Arguments bd_lost_mtc {C}. Arguments bd_lost_cyc {C}. Arguments
bd_cbr {C}. Arguments bd_has_icnt {C}. Arguments bd_icnt {C}. Arguments bd_postponed {C}.
Arguments bd_bound {C}. Arguments bd_retstack {C}. Arguments bd_asid {C}. Arguments bd_scache
{C}. Arguments bd_caches {C}.

(** How far a walk over instructions got: it had to stop because of the block; it got to
    where it should, with the instruction there; or it needs trace to get past the given
    instruction (-pte_bad_query in C). *)
Inductive walk :=
| W_stop
| W_done (p : option (insn * insn_ext))
| W_trace (i : insn) (x : insn_ext).

Section DECODER.
  Context {S C : Type} (im : blk_image S C).
  Local Notation dec := (blkdec C).

  Definition bd_set_evdec (d : dec) x0 : dec := mk_blkdec x0 (bd_ticks d) (bd_end_call d)
    (bd_end_jump d) (bd_mode d) (bd_ip d) (bd_status d) (bd_event d) (bd_enabled d) (bd_spec d)
    (bd_tsc d) (bd_has_tsc d) (bd_lost_mtc d) (bd_lost_cyc d) (bd_cbr d) (bd_has_icnt d) (bd_icnt
    d) (bd_postponed d) (bd_bound d) (bd_retstack d) (bd_asid d) (bd_scache d) (bd_caches d).
  Definition bd_set_mode (d : dec) x0 : dec := mk_blkdec (bd_evdec d) (bd_ticks d) (bd_end_call
    d) (bd_end_jump d) x0 (bd_ip d) (bd_status d) (bd_event d) (bd_enabled d) (bd_spec d) (bd_tsc
    d) (bd_has_tsc d) (bd_lost_mtc d) (bd_lost_cyc d) (bd_cbr d) (bd_has_icnt d) (bd_icnt d)
    (bd_postponed d) (bd_bound d) (bd_retstack d) (bd_asid d) (bd_scache d) (bd_caches d).
  Definition bd_set_ip (d : dec) x0 : dec := mk_blkdec (bd_evdec d) (bd_ticks d) (bd_end_call d)
    (bd_end_jump d) (bd_mode d) x0 (bd_status d) (bd_event d) (bd_enabled d) (bd_spec d) (bd_tsc
    d) (bd_has_tsc d) (bd_lost_mtc d) (bd_lost_cyc d) (bd_cbr d) (bd_has_icnt d) (bd_icnt d)
    (bd_postponed d) (bd_bound d) (bd_retstack d) (bd_asid d) (bd_scache d) (bd_caches d).
  Definition bd_set_status (d : dec) x0 x1 : dec := mk_blkdec (bd_evdec d) (bd_ticks d)
    (bd_end_call d) (bd_end_jump d) (bd_mode d) (bd_ip d) x0 x1 (bd_enabled d) (bd_spec d) (bd_tsc
    d) (bd_has_tsc d) (bd_lost_mtc d) (bd_lost_cyc d) (bd_cbr d) (bd_has_icnt d) (bd_icnt d)
    (bd_postponed d) (bd_bound d) (bd_retstack d) (bd_asid d) (bd_scache d) (bd_caches d).
  Definition bd_set_event (d : dec) x0 : dec := mk_blkdec (bd_evdec d) (bd_ticks d) (bd_end_call
    d) (bd_end_jump d) (bd_mode d) (bd_ip d) (bd_status d) x0 (bd_enabled d) (bd_spec d) (bd_tsc
    d) (bd_has_tsc d) (bd_lost_mtc d) (bd_lost_cyc d) (bd_cbr d) (bd_has_icnt d) (bd_icnt d)
    (bd_postponed d) (bd_bound d) (bd_retstack d) (bd_asid d) (bd_scache d) (bd_caches d).
  Definition bd_set_enabled (d : dec) x0 : dec := mk_blkdec (bd_evdec d) (bd_ticks d)
    (bd_end_call d) (bd_end_jump d) (bd_mode d) (bd_ip d) (bd_status d) (bd_event d) x0 (bd_spec
    d) (bd_tsc d) (bd_has_tsc d) (bd_lost_mtc d) (bd_lost_cyc d) (bd_cbr d) (bd_has_icnt d)
    (bd_icnt d) (bd_postponed d) (bd_bound d) (bd_retstack d) (bd_asid d) (bd_scache d) (bd_caches
    d).
  Definition bd_set_spec (d : dec) x0 : dec := mk_blkdec (bd_evdec d) (bd_ticks d) (bd_end_call
    d) (bd_end_jump d) (bd_mode d) (bd_ip d) (bd_status d) (bd_event d) (bd_enabled d) x0 (bd_tsc
    d) (bd_has_tsc d) (bd_lost_mtc d) (bd_lost_cyc d) (bd_cbr d) (bd_has_icnt d) (bd_icnt d)
    (bd_postponed d) (bd_bound d) (bd_retstack d) (bd_asid d) (bd_scache d) (bd_caches d).
  Definition bd_set_time (d : dec) x0 x1 x2 x3 : dec := mk_blkdec (bd_evdec d) (bd_ticks d)
    (bd_end_call d) (bd_end_jump d) (bd_mode d) (bd_ip d) (bd_status d) (bd_event d) (bd_enabled
    d) (bd_spec d) x1 x0 x2 x3 (bd_cbr d) (bd_has_icnt d) (bd_icnt d) (bd_postponed d) (bd_bound
    d) (bd_retstack d) (bd_asid d) (bd_scache d) (bd_caches d).
  Definition bd_set_cbr (d : dec) x0 : dec := mk_blkdec (bd_evdec d) (bd_ticks d) (bd_end_call
    d) (bd_end_jump d) (bd_mode d) (bd_ip d) (bd_status d) (bd_event d) (bd_enabled d) (bd_spec d)
    (bd_tsc d) (bd_has_tsc d) (bd_lost_mtc d) (bd_lost_cyc d) x0 (bd_has_icnt d) (bd_icnt d)
    (bd_postponed d) (bd_bound d) (bd_retstack d) (bd_asid d) (bd_scache d) (bd_caches d).
  Definition bd_set_icnt (d : dec) x0 x1 : dec := mk_blkdec (bd_evdec d) (bd_ticks d)
    (bd_end_call d) (bd_end_jump d) (bd_mode d) (bd_ip d) (bd_status d) (bd_event d) (bd_enabled
    d) (bd_spec d) (bd_tsc d) (bd_has_tsc d) (bd_lost_mtc d) (bd_lost_cyc d) (bd_cbr d) x0 x1
    (bd_postponed d) (bd_bound d) (bd_retstack d) (bd_asid d) (bd_scache d) (bd_caches d).
  Definition bd_set_postponed (d : dec) x0 x1 : dec := mk_blkdec (bd_evdec d) (bd_ticks d)
    (bd_end_call d) (bd_end_jump d) (bd_mode d) (bd_ip d) (bd_status d) (bd_event d) (bd_enabled
    d) (bd_spec d) (bd_tsc d) (bd_has_tsc d) (bd_lost_mtc d) (bd_lost_cyc d) (bd_cbr d)
    (bd_has_icnt d) (bd_icnt d) x0 x1 (bd_retstack d) (bd_asid d) (bd_scache d) (bd_caches d).
  Definition bd_set_retstack (d : dec) x0 : dec := mk_blkdec (bd_evdec d) (bd_ticks d)
    (bd_end_call d) (bd_end_jump d) (bd_mode d) (bd_ip d) (bd_status d) (bd_event d) (bd_enabled
    d) (bd_spec d) (bd_tsc d) (bd_has_tsc d) (bd_lost_mtc d) (bd_lost_cyc d) (bd_cbr d)
    (bd_has_icnt d) (bd_icnt d) (bd_postponed d) (bd_bound d) x0 (bd_asid d) (bd_scache d)
    (bd_caches d).
  Definition bd_set_asid (d : dec) x0 : dec := mk_blkdec (bd_evdec d) (bd_ticks d) (bd_end_call
    d) (bd_end_jump d) (bd_mode d) (bd_ip d) (bd_status d) (bd_event d) (bd_enabled d) (bd_spec d)
    (bd_tsc d) (bd_has_tsc d) (bd_lost_mtc d) (bd_lost_cyc d) (bd_cbr d) (bd_has_icnt d) (bd_icnt
    d) (bd_postponed d) (bd_bound d) (bd_retstack d) x0 (bd_scache d) (bd_caches d).
  Definition bd_set_scache (d : dec) x0 : dec := mk_blkdec (bd_evdec d) (bd_ticks d)
    (bd_end_call d) (bd_end_jump d) (bd_mode d) (bd_ip d) (bd_status d) (bd_event d) (bd_enabled
    d) (bd_spec d) (bd_tsc d) (bd_has_tsc d) (bd_lost_mtc d) (bd_lost_cyc d) (bd_cbr d)
    (bd_has_icnt d) (bd_icnt d) (bd_postponed d) (bd_bound d) (bd_retstack d) (bd_asid d) x0
    (bd_caches d).
  Definition bd_set_caches (d : dec) x0 : dec := mk_blkdec (bd_evdec d) (bd_ticks d)
    (bd_end_call d) (bd_end_jump d) (bd_mode d) (bd_ip d) (bd_status d) (bd_event d) (bd_enabled
    d) (bd_spec d) (bd_tsc d) (bd_has_tsc d) (bd_lost_mtc d) (bd_lost_cyc d) (bd_cbr d)
    (bd_has_icnt d) (bd_icnt d) (bd_postponed d) (bd_bound d) (bd_retstack d) (bd_asid d)
    (bd_scache d) x0.

  (** pt_blk_config(), internal/include/pt_block_decoder.h:158-166. *)
  Definition pt_blk_config (d : dec) : config := ed_config (bd_evdec d).

  (** Functions on the decoder and the block. *)
  Definition M (A : Type) := dec * block -> (dec * block) * res A.
  Definition ret {A} (a : A) : M A := fun s => (s, Ok a).
  Definition fail {A} (e : pte) : M A := fun s => (s, Err e).
  Definition bind {A B} (m : M A) (k : A -> M B) : M B := fun s =>
    match m s with
    | (s, Ok a) => k a s
    | (s, Err e) => (s, Err e)
    | (s, UB u) => (s, UB u)
    end.
  Definition state : M dec := fun s => (s, Ok (fst s)).
  Definition blk : M block := fun s => (s, Ok (snd s)).
  Definition change (f : dec -> dec) : M unit := fun '(d, b) => ((f d, b), Ok tt).
  Definition change_blk (f : block -> block) : M unit := fun '(d, b) => ((d, f b), Ok tt).
  Definition lift {A} (r : res A) : M A := fun s => (s, r).
  Local Notation "'do' x <- m ; k" := (bind m (fun x => k))
    (at level 200, x pattern, m at level 100, k at level 200).
  Local Notation "'run' m ; k" := (bind m (fun _ => k))
    (at level 200, m at level 100, k at level 200).

  (** pt_blk_find_trig_anchor() with pt_blk_set_trig_anchor() and
      pt_blk_clear_trig_anchor(), pt_block_decoder.c:48-135. *)
  Definition pt_blk_find_trig_anchor (d : dec) (ev : event) : res dec :=
    let set := bd_set_icnt d true 0 in
    let clear := bd_set_icnt d false 0 in
    let sup := ev_ip_suppressed ev in
    match ev_var ev with
    | Ev_paging _ _ | Ev_sipi _ | Ev_cbr _ | Ev_mnt _ | Ev_stop | Ev_vmcs _ | Ev_mwait _ _ _
    | Ev_pwre _ _ _ | Ev_pwrx _ _ _ _ _ => Ok d
    | Ev_exec_mode _ _ | Ev_tsx _ _ _ | Ev_async_paging _ _ _ | Ev_async_vmcs _ _ | Ev_exstop _
    | Ev_ptwrite _ _ _ | Ev_tick _ | Ev_iflags _ _ | Ev_interrupt _ _ _ | Ev_iret _ | Ev_smi _
    | Ev_rsm | Ev_init _ | Ev_vmentry _ | Ev_vmexit _ _ _ _ | Ev_shutdown _ | Ev_uintr _ _
    | Ev_uiret _ | Ev_trig _ _ _ _ => Ok (if sup then d else set)
    | Ev_enabled _ _ | Ev_async_branch _ _ | Ev_tip _ | Ev_tnt _ _ =>
        if sup then Err pte_internal else Ok set
    | Ev_disabled _ | Ev_async_disabled _ _ => Ok clear
    | Ev_overflow _ => Ok (if sup then clear else set)
    end.

  (** pt_blk_fetch_event(), pt_block_decoder.c:137-166.  An unknown event has no anchor. *)
  Definition pt_blk_fetch_event : M unit :=
    do d <- state;
    match bd_event d with
    | None => fail pte_internal
    | Some ev =>
        run change (fun d => bd_set_time d (ev_has_tsc ev) (ev_tsc ev) (ev_lost_mtc ev)
                               (ev_lost_cyc ev));
        do d <- state;
        do d <- lift (pt_blk_find_trig_anchor d ev);
        match pt_evt_next (bd_evdec d) with
        | (q, Ok ev) => change (fun _ => bd_set_event (bd_set_evdec d q) (Some ev))
        | (q, Err e) => change (fun _ => bd_set_status (bd_set_evdec d q) (Some e) None)
        | (q, UB u) => lift (UB u)
        end
    end.

  (** pt_blk_status(), pt_block_decoder.c:168-180. *)
  Definition pt_blk_status (d : dec) (flags : N) : N :=
    let flags := if bd_enabled d then flags else N.lor flags pts_ip_suppressed in
    match bd_status d with Some pte_eos => N.lor flags pts_eos | _ => flags end.
  Definition indicate (flags : N) : M N := do d <- state; ret (pt_blk_status d flags).

  (** pt_blk_reset(), pt_block_decoder.c:182-212.  The section cache is kept. *)
  Definition pt_blk_reset (d : dec) : dec :=
    mk_blkdec (bd_evdec d) (bd_ticks d) (bd_end_call d) (bd_end_jump d) ptem_unknown 0
      (Some pte_nosync) None false false 0 false 0 0 0 false 0 None no_bounds
      (pt_retstack_init (rs_stack (bd_retstack d))) pt_asid_init (bd_scache d) (bd_caches d).

  (** pt_blk_decoder_init(), pt_block_decoder.c:230-263, on a valid configuration with the
      flags for the event decoder (214-228) in [cf].  The stack is not initialised in C; it
      is a parameter.  So are the caches of the sections, which belong to the image. *)
  Definition pt_blk_decoder_init (cf : config) (ticks end_call end_jump : bool) (buf : list N)
             (stack : list N) (cache : C) (bcs : caches) : dec :=
    pt_blk_reset
      (mk_blkdec (pt_evt_decoder_init cf buf) ticks end_call end_jump ptem_unknown 0 None None
         false false 0 false 0 0 0 false 0 None no_bounds (mk_retstack stack 0 0) pt_asid_init
         cache bcs).

  (** pt_blk_tick(), pt_block_decoder.c:310-328. *)
  Definition pt_blk_tick (ip : N) : M unit :=
    do d <- state;
    match bd_event d with
    | Some ev =>
        if bd_ticks d && negb (ev_tsc ev =? bd_tsc d)
        then change (fun d => bd_set_event d (Some (set_var ev (Ev_tick ip))))
        else pt_blk_fetch_event
    | None => pt_blk_fetch_event
    end.

  (** pt_blk_proceed_indirect(), pt_block_decoder.c:334-392. *)
  Definition pt_blk_proceed_indirect : M unit :=
    do d <- state;
    match bd_event d with
    | None => fail pte_bad_query
    | Some ev =>
        match ev_var ev with
        | Ev_tip tip =>
            if ev_ip_suppressed ev then fail pte_bad_packet else
            run change (fun d => bd_set_ip d tip);
            pt_blk_tick (bd_ip d)
        | Ev_tnt _ _ =>
            match pt_evt_next (bd_evdec d) with
            | (q, Ok ev') =>
                match ev_var ev' with
                | Ev_tip tip => change (fun d => bd_set_ip (bd_set_evdec d q) tip)
                | _ => fail pte_bad_query
                end
            | (q, Err _) => fail pte_bad_query
            | (q, UB u) => lift (UB u)
            end
        | _ => fail pte_bad_query
        end
    end.

  (** pt_blk_cond_branch(), pt_block_decoder.c:400-423: whether the branch was taken; [None]
      is -pte_bad_query.  The bits are 64 bit wide and there are fewer than 64 of them. *)
  Definition pt_blk_cond_branch : M (option bool) :=
    do d <- state;
    match bd_event d with
    | None => ret None
    | Some ev =>
        match ev_var ev with
        | Ev_tnt bits size =>
            if size =? 0 then fail pte_internal else
            let size := size - 1 in
            run change (fun d => bd_set_event d (Some (set_var ev (Ev_tnt bits size))));
            ret (Some (N.testbit bits size))
        | _ => ret None
        end
    end.

  (** pt_blk_proceed_with_trace(), pt_block_decoder.c:715-801. *)
  Definition pt_blk_proceed_with_trace (i : insn) (x : insn_ext) : M unit :=
    match in_iclass i with
    | ptic_cond_jump =>
        do tnt <- pt_blk_cond_branch;
        match tnt with
        | None => fail pte_bad_query
        | Some taken =>
            change (fun d => bd_set_ip d
              (if taken : bool then add64 (ip_after i) (of_int64 (x_disp x)) else ip_after i))
        end
    | ptic_return =>
        do tnt <- pt_blk_cond_branch;
        match tnt with
        | None => pt_blk_proceed_indirect
        | Some false => fail pte_bad_retcomp
        | Some true =>
            do d <- state;
            let (r, p) := pt_retstack_pop (bd_retstack d) in
            run change (fun d => bd_set_retstack d r);
            do ip <- lift p;
            change (fun d => bd_set_ip d ip)
        end
    | ptic_jump =>
        if negb (is_jmpabs x) && x_direct x then fail pte_internal else pt_blk_proceed_indirect
    | ptic_call => if x_direct x then fail pte_internal else pt_blk_proceed_indirect
    | ptic_far_call | ptic_far_return | ptic_far_jump | ptic_indirect => pt_blk_proceed_indirect
    | ptic_ptwrite | ptic_other => fail pte_internal
    | ptic_unknown => fail pte_bad_insn
    end.

  (** pt_blk_decode_in_section(), pt_block_decoder.c:810-833. *)
  Definition pt_blk_decode_in_section (i : insn) (s : S) : insn * res insn_ext :=
    match im_sread (bi_image im) s (in_ip i) 15 with
    | Err e => (i, Err e)
    | UB u => (i, UB u)
    | Ok bs => decode_text (in_set_text i (put_raw (in_raw i) 0 bs) (length bs))
    end.

  (** pt_retstack_push() on the decoder's stack. *)
  Definition push (ip : N) : M unit :=
    do d <- state;
    let (r, p) := pt_retstack_push (bd_retstack d) ip in
    run change (fun d => bd_set_retstack d r);
    lift p.

  (** pt_blk_log_call(), pt_block_decoder.c:839-857. *)
  Definition pt_blk_log_call (i : insn) (x : insn_ext) : M unit :=
    match in_iclass i with
    | ptic_call => if x_direct x && Z.eqb (x_disp x) 0 then ret tt else push (ip_after i)
    | _ => ret tt
    end.

  (** pt_insn_decode() at the decoder's IP. *)
  Definition decode_here (d : dec) : insn * res insn_ext :=
    pt_insn_decode (im_read (bi_image im)) (bd_asid d) (new_insn (bd_ip d) (bd_mode d) false).

  (** pt_blk_block_is_empty(), pt_block_decoder.c:663-669. *)
  Definition pt_blk_block_is_empty (b : block) : bool := b_ninsn b =? 0.

  (** The instruction counter from the last anchor, e.g. pt_block_decoder.c:935-943. *)
  Definition count (n : N) : M unit :=
    do d <- state;
    if bd_has_icnt d then
      let icnt := add32 (bd_icnt d) n in
      if icnt <? bd_icnt d then fail pte_overflow
      else change (fun d => bd_set_icnt d true icnt)
    else ret tt.

  (** pt_blk_proceed_one_insn(), pt_block_decoder.c:875-949; [None] is zero in C: it did not
      fit. *)
  Definition pt_blk_proceed_one_insn : M (option (insn * insn_ext)) :=
    do b <- blk;
    let ninsn := u16 (b_ninsn b + 1) in
    if ninsn =? 0 then ret None else
    if b_truncated b then ret None else
    do d <- state;
    let (i, r) := decode_here d in
    do x <- lift r;
    if negb (in_isid i =? b_isid b) && negb (pt_blk_block_is_empty b) then ret None else
    run change_blk (fun b => b_set_isid b (in_isid i));
    run change_blk (fun b => if in_truncated i then b_set_text b i else b);
    run pt_blk_log_call i x;
    run change_blk (fun b => b_set_end b (in_iclass i) (in_ip i) ninsn);
    run count 1;
    ret (Some (i, x)).

  (** The user asked to end the block behind this instruction. *)
  Definition ends_block (d : dec) (i : insn) : bool :=
    match in_iclass i with
    | ptic_call => bd_end_call d
    | ptic_jump => bd_end_jump d
    | _ => false
    end.

  (** An upper bound for the number of instructions that fit into the block. *)
  Definition room (b : block) : nat := Datatypes.S (N.to_nat (65536 - b_ninsn b)).

  (** pt_blk_proceed_to_insn(), pt_block_decoder.c:972-1013.  The predicates do not fail. *)
  Fixpoint to_insn (fuel : nat) (pred : insn -> insn_ext -> bool) : M walk :=
    match fuel with
    | O => lift (UB ub_fuel)
    | Datatypes.S fuel' =>
        do o <- pt_blk_proceed_one_insn;
        match o with
        | None => ret W_stop
        | Some (i, x) =>
            if pred i x then ret (W_done (Some (i, x))) else
            match pt_insn_next_ip i x with
            | Err pte_bad_query => ret (W_trace i x)
            | Err e => fail e
            | UB u => lift (UB u)
            | Ok ip =>
                run change (fun d => bd_set_ip d ip);
                do d <- state;
                if ends_block d i then ret W_stop else to_insn fuel' pred
            end
        end
    end.
  Definition pt_blk_proceed_to_insn (pred : insn -> insn_ext -> bool) : M walk :=
    do b <- blk; to_insn (room b) pred.

  (** pt_blk_proceed_to_ip(), pt_block_decoder.c:1034-1075. *)
  Fixpoint to_ip (fuel : nat) (ip : N) : M walk :=
    match fuel with
    | O => lift (UB ub_fuel)
    | Datatypes.S fuel' =>
        do d <- state;
        if bd_ip d =? ip then ret (W_done None) else
        do o <- pt_blk_proceed_one_insn;
        match o with
        | None => ret W_stop
        | Some (i, x) =>
            match pt_insn_next_ip i x with
            | Err pte_bad_query => ret (W_trace i x)
            | Err e => fail e
            | UB u => lift (UB u)
            | Ok nip =>
                run change (fun d => bd_set_ip d nip);
                do d <- state;
                if ends_block d i then ret (if nip =? ip then W_done None else W_stop)
                else to_ip fuel' ip
            end
        end
    end.
  Definition pt_blk_proceed_to_ip (ip : N) : M walk := do b <- blk; to_ip (room b) ip.

  (** pt_insn_skl014(), pt_block_decoder.c:1077-1099. *)
  Definition pt_insn_skl014 (i : insn) (x : insn_ext) : bool :=
    match in_iclass i with
    | ptic_jump => if is_jmpabs x then false else x_direct x
    | ptic_call => x_direct x
    | ptic_other => pt_insn_changes_cr3 x
    | _ => false
    end.

  (** pt_blk_proceed_skl014(), pt_block_decoder.c:1118-1185.  Stopping behind a branch because
      the user asked for it returns the positive result of pt_filter_addr_check(). *)
  Fixpoint skl014 (fuel : nat) : M walk :=
    match fuel with
    | O => lift (UB ub_fuel)
    | Datatypes.S fuel' =>
        do w <- pt_blk_proceed_to_insn pt_insn_skl014;
        match w with
        | W_done (Some (i, x)) =>
            if pt_insn_changes_cr3 x then ret w else
            do ip <- lift (pt_insn_next_ip i x);
            do d <- state;
            if negb (pt_filter_addr_check (cf_addr_filter (pt_blk_config d)) ip) then ret w else
            run change (fun d => bd_set_ip d ip);
            if ends_block d i then ret w else skl014 fuel'
        | w => ret w
        end
    end.
  Definition pt_blk_proceed_skl014 : M walk := do b <- blk; skl014 (room b).

  (** pt_blk_proceed_to_disabled(), pt_block_decoder.c:1198-1238. *)
  Definition pt_blk_proceed_to_disabled (ev : event) (ip : N) : M walk :=
    if ev_ip_suppressed ev then
      do d <- state;
      let cf := pt_blk_config d in
      if truth (af_addr_cfg (cf_addr_filter cf)) && er_skl014 (cf_errata cf)
      then pt_blk_proceed_skl014
      else pt_blk_proceed_to_insn (fun _ x => pt_insn_changes_cr3 x)
    else pt_blk_proceed_to_ip ip.

  (** pt_blk_set_disable_resume_ip(), pt_block_decoder.c:1250-1268. *)
  Definition pt_blk_set_disable_resume_ip (i : insn) : M unit :=
    change (fun d => bd_set_ip d
      (match in_iclass i with ptic_call | ptic_far_call => ip_after i | _ => 0 end)).

  (** pt_blk_proceed_to_ptwrite(), pt_block_decoder.c:1285-1326, and, alike,
      pt_blk_proceed_to_iret(), pt_blk_proceed_to_vmentry() and pt_blk_proceed_to_uiret(),
      1328-1500. *)
  Definition proceed_to_cause (pred : insn -> insn_ext -> bool) (ev : event) (ip : N) : M walk :=
    if ev_ip_suppressed ev then pt_blk_proceed_to_insn pred else
    do w <- pt_blk_proceed_to_ip ip;
    match w with
    | W_done _ =>
        do o <- pt_blk_proceed_one_insn;
        ret (match o with Some p => W_done (Some p) | None => W_stop end)
    | w => ret w
    end.

  (** pt_blk_provide_trig_anchor(), pt_block_decoder.c:1506-1538, for a TRIG event with the
      given count and address: the updated ones. *)
  Definition pt_blk_provide_trig_anchor (ev : event) (trbv icnt ip : N) (mult : bool)
    : M (N * N) :=
    if ev_ip_suppressed ev then fail pte_internal else
    if negb (ip =? 0) then ret (icnt, ip) else
    do d <- state;
    if negb (bd_has_icnt d) then fail pte_bad_packet else
    if icnt <? bd_icnt d then fail pte_bad_packet else
    run change (fun d => bd_set_event d
                 (Some (set_var ev (Ev_trig trbv (icnt - bd_icnt d) (bd_ip d) mult))));
    ret (icnt - bd_icnt d, bd_ip d).

  (** The loop of pt_blk_proceed_to_trig(), pt_block_decoder.c:1594-1605. *)
  Fixpoint trig_loop (fuel : nat) (ev : event) (trbv icnt : N) (mult : bool) : M walk :=
    if icnt =? 0 then ret (W_done None) else
    match fuel with
    | O => lift (UB ub_fuel)
    | Datatypes.S fuel' =>
        do o <- pt_blk_proceed_one_insn;
        match o with
        | None => ret W_stop
        | Some (i, x) =>
            match pt_insn_next_ip i x with
            | Err pte_bad_query => ret (W_trace i x)
            | Err e => fail e
            | UB u => lift (UB u)
            | Ok ip =>
                run change (fun d => bd_set_ip d ip);
                run change (fun d => bd_set_event d
                             (Some (set_var ev (Ev_trig trbv (icnt - 1) ip mult))));
                trig_loop fuel' ev trbv (icnt - 1) mult
            end
        end
    end.

  (** pt_blk_proceed_to_trig(), pt_block_decoder.c:1549-1608. *)
  Definition pt_blk_proceed_to_trig (ev : event) (trbv icnt ip : N) (mult : bool) : M walk :=
    if ev_ip_suppressed ev then ret (W_done None) else
    do p <- pt_blk_provide_trig_anchor ev trbv icnt ip mult;
    let (icnt, ip) := p in
    do d <- state;
    if negb (bd_enabled d) then
      if icnt =? 0 then fail pte_internal else ret (W_done None)
    else
    do w <- pt_blk_proceed_to_ip ip;
    match w with
    | W_done _ => do b <- blk; trig_loop (room b) ev trbv icnt mult
    | w => ret w
    end.

  (** pt_blk_handle_erratum_skd022(), pt_block_decoder.c:1619-1654.  The instruction on the
      stack is not initialised; pt_insn_decode() sets what is used. *)
  Definition pt_blk_handle_erratum_skd022 (ev : event) (at_ ip : N) : M bool :=
    do d <- state;
    match pt_insn_decode (im_read (bi_image im)) (bd_asid d) (new_insn at_ (bd_mode d) false) with
    | (_, Err _) => ret false
    | (_, UB u) => lift (UB u)
    | (_, Ok x) =>
        match x_inst x with
        | PTI_VMLAUNCH | PTI_VMRESUME =>
            run change (fun d => bd_set_event d (Some (set_var ev (Ev_disabled ip))));
            ret true
        | _ => ret false
        end
    end.

  (** pt_blk_postpone_insn(), pt_block_decoder.c:1664-1680, with setting what is bound before
      it, e.g. 1840. *)
  Definition pt_blk_postpone_insn (p : insn * insn_ext) (mark : bounds -> bounds) : M N :=
    run change (fun d => bd_set_postponed d (bd_postponed d) (mark (bd_bound d)));
    do d <- state;
    match bd_postponed d with
    | Some _ => fail pte_internal
    | None =>
        run change (fun d => bd_set_postponed d (Some p) (bd_bound d));
        indicate pts_event_pending
    end.

  (** pt_blk_clear_postponed_insn(), pt_block_decoder.c:1686-1700. *)
  Definition pt_blk_clear_postponed_insn : M unit :=
    change (fun d => bd_set_postponed d None no_bounds).

  (** pt_blk_proceed_postponed_insn(), pt_block_decoder.c:1708-1735. *)
  Definition pt_blk_proceed_postponed_insn : M unit :=
    do d <- state;
    match bd_postponed d with
    | None => ret tt
    | Some (i, x) =>
        if negb (bd_enabled d) then pt_blk_clear_postponed_insn else
        match pt_insn_next_ip i x with
        | Ok ip => run change (fun d => bd_set_ip d ip); pt_blk_clear_postponed_insn
        | Err pte_bad_query =>
            run pt_blk_proceed_with_trace i x; pt_blk_clear_postponed_insn
        | Err e => fail e
        | UB u => lift (UB u)
        end
    end.

  Definition mark_paging (b : bounds) := mk_bounds true (bo_vmcs b) (bo_ptwrite b) (bo_iret b)
    (bo_vmentry b) (bo_uiret b).
  Definition mark_vmcs (b : bounds) := mk_bounds (bo_paging b) true (bo_ptwrite b) (bo_iret b)
    (bo_vmentry b) (bo_uiret b).
  Definition mark_ptwrite (b : bounds) := mk_bounds (bo_paging b) (bo_vmcs b) true (bo_iret b)
    (bo_vmentry b) (bo_uiret b).
  Definition mark_iret (b : bounds) := mk_bounds (bo_paging b) (bo_vmcs b) (bo_ptwrite b) true
    (bo_vmentry b) (bo_uiret b).
  Definition mark_vmentry (b : bounds) := mk_bounds (bo_paging b) (bo_vmcs b) (bo_ptwrite b)
    (bo_iret b) true (bo_uiret b).
  Definition mark_uiret (b : bounds) := mk_bounds (bo_paging b) (bo_vmcs b) (bo_ptwrite b)
    (bo_iret b) (bo_vmentry b) true.

  Definition pending : M N := indicate pts_event_pending.

  (** Proceed to an address and indicate the event there, e.g. pt_block_decoder.c:1820-1826. *)
  Definition event_at_ip (ip : N) : M N :=
    do w <- pt_blk_proceed_to_ip ip;
    match w with
    | W_stop => ret 0
    | W_done _ => pending
    | W_trace _ _ => fail pte_bad_query
    end.
  (** Proceed to the instruction that causes the event, e.g. pt_block_decoder.c:1828-1842. *)
  Definition event_at_insn (walk : M walk) (mark : bounds -> bounds) : M N :=
    do w <- walk;
    match w with
    | W_stop => ret 0
    | W_done (Some p) => pt_blk_postpone_insn p mark
    | W_done None => lift (UB ub_uninit)
    | W_trace _ _ => fail pte_bad_query
    end.

  (** The case of a disabled event in pt_blk_proceed_event(), pt_block_decoder.c:1771-1790. *)
  Definition event_disabled (ev : event) (ip : N) : M N :=
    if ev_status_update ev then pending else
    do w <- pt_blk_proceed_to_disabled ev ip;
    match w with
    | W_stop => ret 0
    | W_done _ => pending
    | W_trace i _ => run pt_blk_set_disable_resume_ip i; pending
    end.

  (** pt_blk_proceed_event(), pt_block_decoder.c:1755-2102. *)
  Definition pt_blk_proceed_event : M N :=
    do d <- state;
    match bd_event d with
    | None => pending
    | Some ev =>
        let sup := ev_ip_suppressed ev in
        let off := negb (bd_enabled d) in
        match ev_var ev with
        | Ev_disabled ip => event_disabled ev ip
        | Ev_async_disabled at_ ip =>
            do w <- pt_blk_proceed_to_ip at_;
            match w with
            | W_stop => ret 0
            | W_trace _ _ => fail pte_bad_query
            | W_done _ =>
                do d <- state;
                if er_skd022 (cf_errata (pt_blk_config d)) then
                  do hit <- pt_blk_handle_erratum_skd022 ev at_ ip;
                  if hit : bool then event_disabled (set_var ev (Ev_disabled ip)) ip else pending
                else pending
            end
        | Ev_async_branch from _ => event_at_ip from
        | Ev_paging _ _ =>
            if off then pending
            else event_at_insn (pt_blk_proceed_to_insn pt_insn_binds_to_pip) mark_paging
        | Ev_vmcs _ =>
            if off then pending
            else event_at_insn (pt_blk_proceed_to_insn pt_insn_binds_to_vmcs) mark_vmcs
        | Ev_async_paging _ _ ip | Ev_async_vmcs _ ip | Ev_exec_mode _ ip | Ev_tsx ip _ _
        | Ev_iflags _ ip | Ev_interrupt _ _ ip | Ev_smi ip | Ev_init ip | Ev_vmexit _ _ _ ip
        | Ev_shutdown ip | Ev_uintr _ ip => if sup then pending else event_at_ip ip
        | Ev_exstop ip | Ev_mwait ip _ _ => if off || sup then pending else event_at_ip ip
        | Ev_ptwrite ip _ _ =>
            if off then pending else
            event_at_insn (proceed_to_cause (fun i _ => pt_insn_is_ptwrite i) ev ip) mark_ptwrite
        | Ev_iret ip =>
            if off then pending else
            event_at_insn (proceed_to_cause (fun _ x => pt_insn_is_iret x) ev ip) mark_iret
        | Ev_vmentry ip =>
            if off then pending else
            event_at_insn (proceed_to_cause (fun _ x => pt_insn_is_vmentry x) ev ip) mark_vmentry
        | Ev_uiret ip =>
            if off then pending else
            event_at_insn (proceed_to_cause (fun _ x => pt_insn_is_uiret x) ev ip) mark_uiret
        | Ev_enabled _ _ | Ev_overflow _ | Ev_stop | Ev_pwre _ _ _ | Ev_pwrx _ _ _ _ _ | Ev_tick _
        | Ev_cbr _ | Ev_mnt _ | Ev_rsm | Ev_sipi _ => pending
        | Ev_tip _ | Ev_tnt _ _ => fail pte_internal
        | Ev_trig trbv icnt ip mult =>
            do w <- pt_blk_proceed_to_trig ev trbv icnt ip mult;
            match w with
            | W_stop => ret 0
            | W_done _ => pending
            | W_trace _ _ => fail pte_bad_query
            end
        end
    end.

  (** pt_blk_proceed_no_event_uncached(), pt_block_decoder.c:2117-2144. *)
  Definition pt_blk_proceed_no_event_uncached : M unit :=
    do w <- pt_blk_proceed_to_insn (fun _ _ => false);
    match w with
    | W_trace i x => pt_blk_proceed_with_trace i x
    | _ => ret tt
    end.

  (** pt_blk_is_in_section(), pt_block_decoder.c:2151-2160. *)
  Definition pt_blk_is_in_section (s : S) (ip : N) : bool :=
    (bi_begin im s <=? ip) && (ip <? bi_end im s).
  (** pt_msec_unmap(), internal/include/pt_mapped_section.h:151-155. *)
  Definition pt_msec_unmap (s : S) (ip : N) : N := add64 (sub64 ip (bi_begin im s)) (bi_offset im s).

  (** Other decoders get a chance to change the block caches. *)
  Definition interfere : M unit :=
    change (fun d => let (c, cs) := bi_others im (bd_scache d) (bd_caches d) in
                     bd_set_caches (bd_set_scache d c) cs).
  (** The section's block cache is updated or read.  A section without one is not used. *)
  Definition cache_add (s : S) (i : N) (e : entry) : M unit :=
    run interfere;
    do d <- state;
    match bd_caches d (bi_key im s) with
    | None => lift (UB ub_uaf)
    | Some c =>
        do c <- lift (pt_bcache_add c i e);
        change (fun d => bd_set_caches d (put_cache (bd_caches d) (bi_key im s) c))
    end.
  Definition cache_lookup (s : S) (i : N) : M entry :=
    run interfere;
    do d <- state;
    match bd_caches d (bi_key im s) with
    | None => lift (UB ub_uaf)
    | Some c => lift (pt_bcache_lookup c i)
    end.

  (** pt_blk_add_decode(), pt_block_decoder.c:2207-2218. *)
  Definition pt_blk_add_decode (s : S) (ioff : N) (m : exec_mode) : M unit :=
    cache_add s ioff (mk_entry 0 1 m ptbq_decode 0).

  (** pt_blk_add_trampoline(), pt_block_decoder.c:2171-2199. *)
  Definition pt_blk_add_trampoline (s : S) (ip nip : N) (m : exec_mode) : M unit :=
    let disp := sx64 (sub64 nip ip) in
    if Z.eqb (sx16 disp) disp then cache_add s ip (mk_entry (sx16 disp) 1 m ptbq_again 0)
    else pt_blk_add_decode s ip m.

  (** The qualifier for an instruction that needs trace, pt_block_decoder.c:2285-2325. *)
  Definition decision (i : insn) (x : insn_ext) : res qualifier :=
    match in_iclass i with
    | ptic_ptwrite | ptic_unknown | ptic_other => Err pte_internal
    | ptic_jump => if x_direct x && negb (is_jmpabs x) then Err pte_internal else Ok ptbq_indirect
    | ptic_call => if x_direct x then Err pte_internal else Ok ptbq_ind_call
    | ptic_return => Ok ptbq_return
    | ptic_cond_jump => Ok ptbq_cond
    | ptic_far_call | ptic_far_return | ptic_far_jump | ptic_indirect => Ok ptbq_indirect
    end.

  (** pt_blk_proceed_no_event_fill_cache(), pt_block_decoder.c:2239-2519. *)
  Fixpoint fill_cache (steps : nat) (s : S) : M unit :=
    match steps with
    | O => fail pte_internal
    | Datatypes.S steps' =>
        do o <- pt_blk_proceed_one_insn;
        match o with
        | None => ret tt
        | Some (i, x) =>
            let ioff := pt_msec_unmap s (in_ip i) in
            match pt_insn_next_ip i x with
            | UB u => lift (UB u)
            | Err pte_bad_query =>
                let isize := N.of_nat (in_size i) mod 8 in
                let isize := if isize =? N.of_nat (in_size i) then isize else 0 in
                do q <- lift (decision i x);
                do b <- blk;
                let q := if b_truncated b then ptbq_decode else q in
                run cache_add s ioff (mk_entry 0 1 (in_mode i) q isize);
                pt_blk_proceed_with_trace i x
            | Err e => fail e
            | Ok nip =>
                run change (fun d => bd_set_ip d nip);
                let noff := pt_msec_unmap s nip in
                do b <- blk;
                do d <- state;
                let leaves := negb (pt_blk_is_in_section s nip) || b_truncated b in
                do stop <- lift (match in_iclass i with
                                 | ptic_call => Ok true
                                 | ptic_jump =>
                                     if negb (x_direct x) || is_jmpabs x then Err pte_internal
                                     else Ok (Z.ltb (x_disp x) 0 || bd_end_jump d || leaves)
                                 | _ => Ok leaves
                                 end);
                if stop : bool then pt_blk_add_decode s ioff (in_mode i) else
                do e <- cache_lookup s noff;
                (* add an entry for this instruction that extends the one of the next *)
                let extend e :=
                  if negb (mode_eqb (be_mode e) (in_mode i)) then fail pte_internal else
                  let dip := add64 nip (of_int64 (be_disp e)) in
                  let disp := sx64 (sub64 dip (in_ip i)) in
                  if negb (pt_blk_is_in_section s dip) then ret tt else
                  let ninsn := u8 (be_ninsn e + 1) in
                  if (ninsn =? 0) || negb (Z.eqb (sx16 disp) disp)
                  then pt_blk_add_trampoline s ioff noff (in_mode i)
                  else cache_add s ioff (mk_entry (sx16 disp) ninsn (be_mode e) (be_qual e)
                                           (be_isize e)) in
                if pt_bce_is_valid e then extend e else
                match steps' with
                | O => pt_blk_add_trampoline s ioff noff (in_mode i)
                | _ =>
                    run fill_cache steps' s;
                    do e <- cache_lookup s noff;
                    if pt_bce_is_valid e then extend e else ret tt
                end
            end
        end
    end.
  (** bcache_fill_steps, pt_block_decoder.c:2220-2223. *)
  Definition bcache_fill_steps : nat := N.to_nat 0x400.

  (** pt_blk_proceed_truncated(), pt_block_decoder.c:2532-2581. *)
  Definition pt_blk_proceed_truncated : M unit :=
    do d <- state;
    let (i, r) := decode_here d in
    do x <- lift r;
    if negb (in_truncated i) then fail pte_internal else
    run change_blk (fun b => b_set_iclass (b_set_text b i) (in_iclass i));
    run pt_blk_log_call i x;
    match pt_insn_next_ip i x with
    | Ok ip => change (fun d => bd_set_ip d ip)
    | Err pte_bad_query => pt_blk_proceed_with_trace i x
    | Err e => fail e
    | UB u => lift (UB u)
    end.

  (** pt_blk_proceed_no_event_cached(), pt_block_decoder.c:2599-2917.  The recursion is bounded
      by the room in the block as long as the entries count instructions. *)
  Fixpoint cached (fuel : nat) (s : S) : M unit :=
    match fuel with
    | O => lift (UB ub_fuel)
    | Datatypes.S fuel' =>
        do d <- state;
        do e <- cache_lookup s (pt_msec_unmap s (bd_ip d));
        if negb (pt_bce_is_valid e) then fill_cache bcache_fill_steps s else
        let nip := add64 (bd_ip d) (of_int64 (be_disp e)) in
        if negb (pt_blk_is_in_section s nip) then pt_blk_proceed_no_event_uncached else
        do b <- blk;
        let ninsn := u16 (b_ninsn b + be_ninsn e) in
        if ninsn <? b_ninsn b then ret tt else
        run count (be_ninsn e);
        run change (fun d => bd_set_ip d nip);
        run change_blk (fun b => b_set_mode (b_set_end b (b_iclass b) nip ninsn) (be_mode e));
        let class c := change_blk (fun b => b_set_iclass b c) in
        let here := new_insn nip (be_mode e) false in
        let decode :=
          match pt_blk_decode_in_section here s with
          | (_, Err pte_bad_insn) => pt_blk_proceed_truncated
          | (_, Err e) => fail e
          | (_, UB u) => lift (UB u)
          | (i, Ok x) =>
              run class (in_iclass i);
              run pt_blk_log_call i x;
              match pt_insn_next_ip i x with
              | UB u => lift (UB u)
              | Err pte_bad_query => pt_blk_proceed_with_trace i x
              | Err e => fail e
              | Ok ip =>
                  run change (fun d => bd_set_ip d ip);
                  do d <- state;
                  if ends_block d i then ret tt else
                  if negb (pt_blk_is_in_section s ip) then ret tt else cached fuel' s
              end
          end in
        match be_qual e with
        | ptbq_again => run class ptic_unknown; cached fuel' s
        | ptbq_cond =>
            run class ptic_cond_jump;
            if negb (be_isize e =? 0) then
              do tnt <- pt_blk_cond_branch;
              match tnt with
              | None => fail pte_bad_query
              | Some false => change (fun d => bd_set_ip d (add64 nip (be_isize e)))
              | Some true =>
                  let (i, r) := pt_blk_decode_in_section here s in
                  do x <- lift r;
                  change (fun d => bd_set_ip d (add64 (add64 nip (of_int64 (x_disp x)))
                                                      (be_isize e)))
              end
            else decode
        | ptbq_decode => decode
        | ptbq_ind_call =>
            run class ptic_call;
            do ip <- (if negb (be_isize e =? 0) then ret (add64 nip (be_isize e))
                      else let (i, r) := pt_blk_decode_in_section here s in
                           do x <- lift r; ret (add64 nip (N.of_nat (in_size i))));
            run push ip;
            pt_blk_proceed_indirect
        | ptbq_return =>
            run class ptic_return;
            do tnt <- pt_blk_cond_branch;
            match tnt with
            | None => pt_blk_proceed_indirect
            | Some false => fail pte_bad_retcomp
            | Some true =>
                do d <- state;
                let (r, p) := pt_retstack_pop (bd_retstack d) in
                run change (fun d => bd_set_retstack d r);
                do ip <- lift p;
                change (fun d => bd_set_ip d ip)
            end
        | ptbq_indirect => run class ptic_indirect; pt_blk_proceed_indirect
        end
    end.
  Definition pt_blk_proceed_no_event_cached (s : S) : M unit := do b <- blk; cached (room b) s.

  (** pt_blk_msec_fill() and pt_blk_msec_lookup(), pt_block_decoder.c:2919-2965.  Filling the
      section cache requests a block cache for the section. *)
  Definition pt_blk_msec_lookup : M (N * S) :=
    do d <- state;
    let hit := bi_hit im (bd_scache d) (bd_ip d) in
    let (c, l) := im_lookup (bi_image im) (bd_scache d) (bd_asid d) (bd_ip d) in
    run change (fun d => bd_set_scache d c);
    if hit then lift l else
    run change (fun d => bd_set_caches d
                 (fun k => if bi_kept im c k then bd_caches d k else None));
    do l <- lift l;
    run interfere;
    do d <- state;
    let k := bi_key im (snd l) in
    match bd_caches d k with
    | Some _ => ret l
    | None =>
        let (got, r) := bi_alloc im k in
        run change (fun d => if got
                             then bd_set_caches d (put_cache (bd_caches d) k
                                    (mk_bcache (bi_size im k) (fun _ => no_entry)))
                             else d);
        run lift r;
        ret l
    end.

  (** pt_blk_proceed_no_event(), pt_block_decoder.c:2980-3019. *)
  Definition pt_blk_proceed_no_event : M unit := fun s =>
    match pt_blk_msec_lookup s with
    | (s, Err pte_nomap) => pt_blk_proceed_no_event_uncached s
    | (s, Err e) => (s, Err e)
    | (s, UB u) => (s, UB u)
    | (s, Ok (isid, m)) =>
        (do b <- blk;
         if negb (isid =? b_isid b) && negb (pt_blk_block_is_empty b) then ret tt else
         run change_blk (fun b => b_set_isid b isid);
         do d <- state;
         match bd_caches d (bi_key im m) with
         | None => pt_blk_proceed_no_event_uncached
         | Some _ => pt_blk_proceed_no_event_cached m
         end) s
    end.

  (** pt_blk_handle_erratum_bdm64(), pt_block_decoder.c:3098-3151: an error is [true]. *)
  Definition pt_blk_handle_erratum_bdm64 (ip : N) (aborted : bool) : M unit :=
    if negb aborted then ret tt else
    do b <- blk;
    do d <- state;
    if pt_blk_block_is_empty b then ret tt else
    match pt_insn_decode (im_read (bi_image im)) (bd_asid d)
            (new_insn (b_end_ip b) (b_mode b) false) with
    | (_, UB u) => lift (UB u)
    | (_, Err _) => ret tt
    | (i, Ok _) =>
        if negb (pt_insn_is_branch i) then ret tt else
        match pt_insn_range_is_contiguous (im_read (bi_image im)) (bd_asid d) (bd_ip d) ip
                (bd_mode d) 0x100 with
        | Ok true => ret tt
        | UB u => lift (UB u)
        | _ => change (fun d => bd_set_ip d ip)
        end
    end.

  (** pt_blk_postpone_trailing_tsx(), pt_block_decoder.c:3161-3192; [given] says whether there
      is a block. *)
  Definition pt_blk_postpone_trailing_tsx (given : bool) (ev : event) (ip : N) (aborted : bool)
    : M bool :=
    if ev_ip_suppressed ev then ret false else
    do d <- state;
    run (if given && er_bdm64 (cf_errata (pt_blk_config d))
         then pt_blk_handle_erratum_bdm64 ip aborted else ret tt);
    do d <- state;
    ret (negb (bd_ip d =? ip)).

  (** pt_blk_proceed_trailing_event(), pt_block_decoder.c:3208-3829; [given] says whether there
      is a block. *)
  Fixpoint trailing (fuel : nat) (given : bool) : M N :=
    match fuel with
    | O => lift (UB ub_fuel)
    | Datatypes.S fuel' =>
        do d <- state;
        match bd_status d with
        | Some e =>
            run pt_blk_proceed_postponed_insn;
            indicate (match e with pte_eos => 0 | _ => pts_event_pending end)
        | None =>
            (* no further events *)
            let none := run pt_blk_proceed_postponed_insn; indicate 0 in
            match bd_event d with
            | None => none
            | Some ev =>
                let sup := ev_ip_suppressed ev in
                (* events that do not bind to an instruction *)
                let after k := run pt_blk_proceed_postponed_insn; do d <- state; k d in
                let when (b : bool) := if b then pending else none in
                (* events that bind to an instruction together with a previous event *)
                let also bound here mark :=
                  if negb (bd_enabled d) then pending else
                  match bd_postponed d with
                  | Some (i, x) =>
                      if bound (bd_bound d) : bool then none else
                      if negb (here i x) then none else
                      run change (fun d => bd_set_postponed d (bd_postponed d) (mark (bd_bound d)));
                      pending
                  | None => none
                  end in
                match ev_var ev with
                | Ev_tnt _ size =>
                    do b <- blk;
                    if negb (bd_ticks d) || negb given || negb (ev_has_tsc ev)
                       || (ev_tsc ev =? bd_tsc d) then
                      if negb (size =? 0) then none else
                      run pt_blk_fetch_event; trailing fuel' given
                    else match b_iclass b with
                         | ptic_cond_jump | ptic_return => pending
                         | _ => none
                         end
                | Ev_tip _ => none
                | Ev_disabled ip =>
                    match bd_postponed d with
                    | None => none
                    | Some (i, x) =>
                        if sup && pt_insn_changes_cr3 x then pending else
                        match pt_insn_next_ip i x with
                        | UB u => lift (UB u)
                        | Err pte_bad_query => run pt_blk_set_disable_resume_ip i; pending
                        | Err e => fail e
                        | Ok nip =>
                            run change (fun d => bd_set_ip d nip);
                            run pt_blk_clear_postponed_insn;
                            when (negb sup && (nip =? ip))
                        end
                    end
                | Ev_async_disabled at_ ip =>
                    after (fun d =>
                      if negb (bd_ip d =? at_) then none else
                      if er_skd022 (cf_errata (pt_blk_config d)) then
                        do hit <- pt_blk_handle_erratum_skd022 ev at_ ip; when (negb hit)
                      else pending)
                | Ev_async_branch from _ => after (fun d => when (bd_ip d =? from))
                | Ev_paging _ _ => also bo_paging pt_insn_binds_to_pip mark_paging
                | Ev_vmcs _ => also bo_vmcs pt_insn_binds_to_vmcs mark_vmcs
                | Ev_ptwrite _ _ _ =>
                    also bo_ptwrite (fun i _ => sup && pt_insn_is_ptwrite i) mark_ptwrite
                | Ev_iret _ => also bo_iret (fun _ x => sup && pt_insn_is_iret x) mark_iret
                | Ev_vmentry _ =>
                    also bo_vmentry (fun _ x => sup && pt_insn_is_vmentry x) mark_vmentry
                | Ev_uiret _ => also bo_uiret (fun _ x => sup && pt_insn_is_uiret x) mark_uiret
                | Ev_async_paging _ _ ip | Ev_async_vmcs _ ip =>
                    after (fun d => when (sup || (bd_ip d =? ip)))
                | Ev_exec_mode _ ip | Ev_exstop ip | Ev_mwait ip _ _ | Ev_iflags _ ip
                | Ev_interrupt _ _ ip | Ev_smi ip | Ev_init ip | Ev_vmexit _ _ _ ip
                | Ev_shutdown ip | Ev_uintr _ ip =>
                    after (fun d => when (negb (bd_enabled d) || sup || (bd_ip d =? ip)))
                | Ev_tsx ip _ aborted =>
                    after (fun _ =>
                      do later <- pt_blk_postpone_trailing_tsx given ev ip aborted;
                      when (negb later))
                | Ev_enabled _ _ | Ev_overflow _ | Ev_stop | Ev_pwre _ _ _ | Ev_pwrx _ _ _ _ _
                | Ev_tick _ | Ev_cbr _ | Ev_mnt _ => after (fun _ => pending)
                | Ev_rsm | Ev_sipi _ =>
                    after (fun _ => if sup then pending else fail pte_internal)
                | Ev_trig trbv icnt ip mult =>
                    after (fun d =>
                      if negb (bd_enabled d) || sup then pending else
                      do p <- pt_blk_provide_trig_anchor ev trbv icnt ip mult;
                      let (icnt, ip) := p in
                      if negb (icnt =? 0) then none else
                      do d <- state;
                      if negb (ip =? bd_ip d) then fail pte_bad_packet else pending)
                end
            end
        end
    end.
  (** A TNT event has at least one bit, so there are at most two rounds. *)
  Definition pt_blk_proceed_trailing_event (given : bool) : M N := trailing 3 given.

  (** A function without a block. *)
  Definition without_block {A} (m : M A) (d : dec) : dec * res A :=
    let '(d, _, r) := m (d, new_block 0 ptem_unknown false) in (d, r).

  (** pt_blk_start(), pt_block_decoder.c:425-488.  The loop is that of pt_qry_start(). *)
  Definition pt_blk_start (d : dec) : dec * res N :=
    let q := bd_evdec d in
    match start_loop (18 * (3 + length (pd_buf (ed_pd q)))) (evt_pos q) q with
    | UB u => (d, UB u)
    | Err e => (d, Err e)
    | Ok ip =>
        let d := match ip with Some a => bd_set_ip (bd_set_enabled d true) a | None => d end in
        match pt_evt_next q with
        | (q, UB u) => (d, UB u)
        | (q, Ok ev) =>
            without_block (pt_blk_proceed_trailing_event false)
              (bd_set_status (bd_set_evdec d q) None (Some ev))
        | (q, Err e) =>
            without_block (pt_blk_proceed_trailing_event false)
              (bd_set_status (bd_set_evdec d q) (Some e) (bd_event d))
        end
    end.

  (** pt_blk_sync_forward(), pt_block_decoder.c:490-506, and pt_blk_sync_set(), 567-583: [sync]
      is the function of the event decoder. *)
  Definition blk_sync (sync : ST unit) (d : dec) : dec * res N :=
    let d := pt_blk_reset d in
    match sync (bd_evdec d) with
    | (q, Ok _) => pt_blk_start (bd_set_evdec d q)
    | (q, Err e) => (bd_set_evdec d q, Err e)
    | (q, UB u) => (bd_set_evdec d q, UB u)
    end.
  Definition pt_blk_sync_forward (base : nat) := blk_sync (pt_evt_sync_forward base).
  Definition pt_blk_sync_set (offset : N) := blk_sync (pt_evt_sync_set offset).

  (** pt_blk_sync_backward(), pt_block_decoder.c:508-565.  The inner loop is that of
      pt_qry_sync_backward(); the number of rounds is not bounded by the trace. *)
  Fixpoint blk_backward (fuel base start sync : nat) (d : dec) : dec * res N :=
    match fuel with
    | O => (d, UB ub_fuel)
    | Datatypes.S fuel' =>
        let d := pt_blk_reset d in
        match qry_backward_inner fuel base sync (bd_evdec d) with
        | (q, Err e) => (bd_set_evdec d q, Err e)
        | (q, UB u) => (bd_set_evdec d q, UB u)
        | (q, Ok _) =>
            match pt_blk_start (bd_set_evdec d q) with
            | (d, UB u) => (d, UB u)
            | (d, Err pte_eos) => blk_backward fuel' base start (evt_pos q) d
            | (d, Err e) => (d, Err e)
            | (d, Ok _) =>
                if Nat.ltb (evt_pos (bd_evdec d)) start then (d, Ok 0)
                else blk_backward fuel' base start (evt_pos q) d
            end
        end
    end.
  Definition pt_blk_sync_backward (fuel base : nat) (d : dec) : dec * res N :=
    let start := match pd_pos (ed_pd (bd_evdec d)) with
                 | Some p => p | None => length (pd_buf (ed_pd (bd_evdec d))) end in
    blk_backward fuel base start start d.

  (** pt_blk_proceed(), pt_block_decoder.c:3026-3080. *)
  Definition pt_blk_proceed : M N :=
    do d <- state;
    match bd_status d with
    | Some pte_eos =>
        if negb (bd_enabled d) then fail pte_eos else
        run pt_blk_proceed_no_event; ret pts_eos
    | Some e => fail e
    | None =>
        match bd_event d with
        | Some ev =>
            match ev_var ev with
            | Ev_tnt _ _ | Ev_tip _ =>
                if negb (bd_enabled d) then fail pte_no_enable else
                run pt_blk_proceed_no_event; pt_blk_proceed_trailing_event true
            | _ => pt_blk_proceed_event
            end
        | None => pt_blk_proceed_event
        end
    end.

  (** pt_blk_next(), pt_block_decoder.c:3831-3866: the block as it is given to the user. *)
  Definition pt_blk_next (d : dec) : dec * block * res N :=
    pt_blk_proceed (d, new_block (bd_ip d) (bd_mode d) (bd_spec d)).

  (** ** Processing events *)

  (** pt_blk_process_enabled(), pt_block_decoder.c:3872-3898. *)
  Definition pt_blk_process_enabled (ev : event) (ip : N) : M unit :=
    do d <- state;
    if ev_status_update ev then
      if bd_enabled d then ret tt else fail pte_bad_status_update
    else if ev_ip_suppressed ev then fail pte_noip
    else if bd_enabled d then fail pte_bad_context
    else change (fun d => bd_set_enabled (bd_set_ip d ip) true).

  (** pt_blk_process_disabled(), pt_block_decoder.c:3904-3939. *)
  Definition pt_blk_process_disabled (ev : event) : M unit :=
    do d <- state;
    if ev_status_update ev then
      if bd_enabled d then fail pte_bad_status_update else ret tt
    else if negb (bd_enabled d) then fail pte_bad_context
    else change (fun d => bd_set_icnt (bd_set_enabled d false) (bd_has_icnt d) 0).

  (** pt_blk_process_async_branch(), pt_block_decoder.c:3945-3965. *)
  Definition pt_blk_process_async_branch (ev : event) (to : N) : M unit :=
    do d <- state;
    if ev_status_update ev then fail pte_bad_context
    else if negb (bd_enabled d) then fail pte_bad_context
    else change (fun d => bd_set_ip d to).

  (** pt_blk_process_paging() and pt_blk_process_vmcs(), pt_block_decoder.c:3971-4015. *)
  Definition new_asid (a : asid) : M unit :=
    do d <- state;
    let (c, r) := im_invalidate (bi_image im) (bd_scache d) in
    run change (fun d => bd_set_scache d c);
    run lift r;
    change (fun d => bd_set_asid d a).
  Definition pt_blk_process_paging (cr3 : N) : M unit :=
    do d <- state;
    if as_cr3 (bd_asid d) =? cr3 then ret tt else new_asid (mk_asid cr3 (as_vmcs (bd_asid d))).
  Definition pt_blk_process_vmcs (base : N) : M unit :=
    do d <- state;
    if as_vmcs (bd_asid d) =? base then ret tt else new_asid (mk_asid (as_cr3 (bd_asid d)) base).

  (** pt_blk_process_overflow(), pt_block_decoder.c:4021-4059. *)
  Definition pt_blk_process_overflow (ev : event) (ip : N) : M unit :=
    if ev_status_update ev then fail pte_bad_context else
    change (fun d =>
      bd_set_spec (if ev_ip_suppressed ev then bd_set_ip (bd_set_enabled d false) 0
                   else bd_set_ip (bd_set_enabled d true) ip) false).

  (** pt_blk_process_exec_mode(), pt_block_decoder.c:4065-4082. *)
  Definition pt_blk_process_exec_mode (ev : event) (mode : exec_mode) : M unit :=
    do d <- state;
    if ev_status_update ev && bd_enabled d && negb (mode_eqb (bd_mode d) ptem_unknown)
       && negb (mode_eqb (bd_mode d) mode) then fail pte_bad_status_update
    else change (fun d => bd_set_mode d mode).

  (** pt_blk_process_stop(), pt_block_decoder.c:4103-4118. *)
  Definition pt_blk_process_stop (ev : event) : M unit :=
    do d <- state;
    if ev_status_update ev then fail pte_bad_context
    else if bd_enabled d then fail pte_bad_context
    else ret tt.

  (** The switch of pt_blk_event(), pt_block_decoder.c:4157-4400, for events but TNT: the event
      as it is given to the user. *)
  Definition process (ev : event) : M event :=
    let sup := ev_ip_suppressed ev in
    let give (m : M unit) := run m; ret ev in
    (* the event must be here *)
    let need (b : bool) (m : M unit) : M event := if b then give m else fail pte_bad_query in
    do d <- state;
    let here ip := bd_ip d =? ip in
    match ev_var ev with
    | Ev_tnt _ _ | Ev_tip _ => fail pte_bad_query
    | Ev_enabled ip r =>
        let ev := if here ip then set_var ev (Ev_enabled ip true) else ev in
        run change (fun d => bd_set_event d (Some ev));
        run pt_blk_process_enabled ev ip;
        ret ev
    | Ev_async_disabled at_ _ => need (here at_) (pt_blk_process_disabled ev)
    | Ev_disabled _ => give (pt_blk_process_disabled ev)
    | Ev_async_branch from to => need (here from) (pt_blk_process_async_branch ev to)
    | Ev_async_paging cr3 _ ip => need (sup || here ip) (pt_blk_process_paging cr3)
    | Ev_paging cr3 _ => give (pt_blk_process_paging cr3)
    | Ev_async_vmcs base ip => need (sup || here ip) (pt_blk_process_vmcs base)
    | Ev_vmcs base => give (pt_blk_process_vmcs base)
    | Ev_overflow ip => give (pt_blk_process_overflow ev ip)
    | Ev_exec_mode mode ip =>
        need (negb (bd_enabled d) || sup || here ip) (pt_blk_process_exec_mode ev mode)
    | Ev_tsx ip spec _ => need (sup || here ip) (change (fun d => bd_set_spec d spec))
    | Ev_stop => give (pt_blk_process_stop ev)
    | Ev_exstop ip | Ev_mwait ip _ _ | Ev_iflags _ ip | Ev_interrupt _ _ ip | Ev_smi ip
    | Ev_init ip | Ev_vmexit _ _ _ ip | Ev_shutdown ip | Ev_uintr _ ip | Ev_trig _ _ ip _ =>
        need (negb (bd_enabled d) || sup || here ip) (ret tt)
    | Ev_pwre _ _ _ | Ev_pwrx _ _ _ _ _ | Ev_ptwrite _ _ _ | Ev_tick _ | Ev_mnt _ | Ev_iret _
    | Ev_vmentry _ | Ev_uiret _ => ret ev
    | Ev_cbr ratio => give (change (fun d => bd_set_cbr d ratio))
    | Ev_rsm | Ev_sipi _ => if sup then ret ev else fail pte_internal
    end.

  (** pt_blk_event(), pt_block_decoder.c:4135-4412.  The user's event is [None] if it was not
      written. *)
  Definition pt_blk_event (d : dec) : dec * option event * res N :=
    let s0 := new_block 0 ptem_unknown false in
    let rest given m d := let '(d, _, r) := m (d, s0) in (d, Some given, r) in
    match bd_status d with
    | Some e => (d, None, Err e)
    | None =>
        match bd_event d with
        | None => let (d, r) := without_block (run pt_blk_fetch_event; ret 0) d in (d, None, r)
        | Some ev =>
            match ev_var ev with
            | Ev_tnt _ size =>
                if negb (bd_ticks d) || negb (ev_has_tsc ev) || (ev_tsc ev =? bd_tsc d)
                then (d, None, Err pte_bad_query) else
                let tick := mk_event (Ev_tick (bd_ip d)) false false true (ev_tsc ev)
                              (ev_lost_mtc ev) (ev_lost_cyc ev) in
                rest tick
                  (run (if size =? 0 then pt_blk_fetch_event else ret tt);
                   pt_blk_proceed_trailing_event false)
                  (bd_set_time d true (ev_tsc ev) (ev_lost_mtc ev) (ev_lost_cyc ev))
            | _ =>
                match process ev (d, s0) with
                | (d, _, Err e) => (d, None, Err e)
                | (d, _, UB u) => (d, None, UB u)
                | (d, _, Ok ev) =>
                    rest ev (run pt_blk_fetch_event; pt_blk_proceed_trailing_event false) d
                end
            end
        end
    end.
End DECODER.
