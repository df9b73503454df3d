(** Sideband: process contexts and the decoder for Linux perf event records.
    Model of /repo/sideband/src/pt_sb_context.c, of the context functions of
    /repo/sideband/src/pt_sb_session.c, and of /repo/sideband/src/pt_sb_pevent.c with
    LIBIPT_SB_VERSION >= 0x201 and LIBIPT_VERSION >= 0x201.

    Contexts are numbered in the order of their allocation; a freed context stays as [None],
    so that every later use of it is seen as undefined behaviour.  (In C, a new context may
    have the address of a freed one.  That does not matter as long as no freed context is
    used.)  Printing is left out, pt_sb_pevent.c:430-896: it does not change anything. *)

From Verif Require Import Base M_event M_pevent M_sb.
From Coq Require Import List NArith Bool PeanoNat.
Import ListNotations.
Open Scope N_scope.

(** enum pt_sb_abi, pt_sb_context.h:39-44. *)
Inductive sb_abi := pt_sb_abi_unknown | pt_sb_abi_x64 | pt_sb_abi_x32 | pt_sb_abi_ia32.

(** enum pt_sb_error_code, libipt-sb.h.in:65-78, and enum pt_error_code: what an error
    notifier is told. *)
Inductive sb_report := ptse_lost | ptse_trace_lost | ptse_section_lost | ptse_error (e : pte).

(** The outside: the image functions of libipt, files and the user's notifiers.  [E] is the
    state of all of them, [I] an image. *)
Record outside (E I : Type) := mk_outside {
  (* pt_image_alloc() and malloc() succeed *)
  eo_alloc : E -> E * bool;
  eo_new : I;
  (* pt_image_copy(): destination, source *)
  eo_copy : E -> I -> I -> E * I * res unit;
  (* whether there is an image section cache; pt_image_add_file(), pt_iscache_add_file(),
     pt_image_add_cached() *)
  eo_iscache : bool;
  eo_add_file : E -> I -> list N -> N -> N -> N -> E * I * res unit;
  eo_isc_add : E -> list N -> N -> N -> N -> E * res N;
  eo_add_cached : E -> I -> N -> E * I * res unit;
  (* elf_get_abi() on a file, pt_sb_pevent.c:61-135; [None] if it cannot be opened *)
  eo_abi : E -> list N -> E * option sb_abi;
  (* the notifiers, if there are any *)
  eo_switch : option (E -> nat -> E * res unit);
  eo_error : option (E -> sb_report -> nat -> E * res unit) }.
Arguments eo_alloc {E I}. Arguments eo_new {E I}. Arguments eo_copy {E I}.
Arguments eo_iscache {E I}. Arguments eo_add_file {E I}. Arguments eo_isc_add {E I}.
Arguments eo_add_cached {E I}. Arguments eo_abi {E I}. Arguments eo_switch {E I}.
Arguments eo_error {E I}.

(** struct pt_sb_context, pt_sb_context.h:46-86. *)
Record context (I : Type) := mk_context { cx_image : I; cx_abi : sb_abi; cx_pid : N; cx_ucount : N }.
Arguments mk_context {I}. Arguments cx_image {I}. Arguments cx_abi {I}. Arguments cx_pid {I}.
Arguments cx_ucount {I}.

(** All contexts ever allocated, the session's list of contexts, its kernel image, and the
    image the user's pointer points to: that of a context, or ([None]) another one. *)
Record world (E I : Type) := mk_world {
  wd_heap : list (option (context I));
  wd_contexts : list nat;
  wd_kernel : I;
  wd_image : option nat;
  wd_env : E }.
Arguments mk_world {E I}. Arguments wd_heap {E I}. Arguments wd_contexts {E I}.
Arguments wd_kernel {E I}. Arguments wd_image {E I}. Arguments wd_env {E I}.

(** enum pt_sb_pevent_loc, pt_sb_pevent.h:37-52. *)
Inductive ploc := ploc_unknown | ploc_in_kernel | ploc_in_user | ploc_likely_in_kernel | ploc_likely_in_user.

(** struct pt_sb_pevent_priv, pt_sb_pevent.h:55-151.  [pp_buf] is the sideband data from
    begin to end; positions are offsets into it.  The name of the sideband file is only used in
    messages. *)
Record priv := mk_priv {
  pp_buf : list N;
  pp_sysroot : option (list N);
  pp_vdso_x64 : option (list N);
  pp_vdso_x32 : option (list N);
  pp_vdso_ia32 : option (list N);
  pp_pev : pev_config;
  pp_kernel_start : N;
  pp_tsc_offset : N;
  pp_current : option nat;
  pp_next : nat;
  pp_event : pev_event;
  pp_context : option nat;
  pp_next_context : option nat;
  pp_location : ploc }.

Definition pp_set_pos (p : priv) (c : option nat) (n : nat) (e : pev_event) : priv :=
  mk_priv (pp_buf p) (pp_sysroot p) (pp_vdso_x64 p) (pp_vdso_x32 p) (pp_vdso_ia32 p) (pp_pev p)
          (pp_kernel_start p) (pp_tsc_offset p) c n e (pp_context p) (pp_next_context p) (pp_location p).
Definition pp_set_ctx (p : priv) (c n : option nat) : priv :=
  mk_priv (pp_buf p) (pp_sysroot p) (pp_vdso_x64 p) (pp_vdso_x32 p) (pp_vdso_ia32 p) (pp_pev p)
          (pp_kernel_start p) (pp_tsc_offset p) (pp_current p) (pp_next p) (pp_event p) c n (pp_location p).
Definition pp_set_loc (p : priv) (l : ploc) : priv :=
  mk_priv (pp_buf p) (pp_sysroot p) (pp_vdso_x64 p) (pp_vdso_x32 p) (pp_vdso_ia32 p) (pp_pev p)
          (pp_kernel_start p) (pp_tsc_offset p) (pp_current p) (pp_next p) (pp_event p) (pp_context p)
          (pp_next_context p) l.

(** The bits of struct perf_event_header.misc and of struct pev_record_aux.flags; from
    <linux/perf_event.h>. *)
Definition PERF_RECORD_MISC_CPUMODE_MASK : N := 7.
Definition PERF_RECORD_MISC_KERNEL : N := 1.
Definition PERF_RECORD_MISC_COMM_EXEC : N := 8192.
Definition PERF_RECORD_MISC_SWITCH_OUT : N := 8192.
Definition PERF_AUX_FLAG_TRUNCATED : N := 1.

Definition FILENAME_MAX : nat := 4096.

Section WORLD.
  Context {E I : Type} (out : outside E I).
  Notation ctx := (context I).
  Notation wld := (world E I).

  Definition wd_set_heap (w : wld) (h : list (option ctx)) : wld :=
    mk_world h (wd_contexts w) (wd_kernel w) (wd_image w) (wd_env w).
  Definition wd_set_contexts (w : wld) (l : list nat) : wld :=
    mk_world (wd_heap w) l (wd_kernel w) (wd_image w) (wd_env w).
  Definition wd_set_image (w : wld) (i : option nat) : wld :=
    mk_world (wd_heap w) (wd_contexts w) (wd_kernel w) i (wd_env w).
  Definition wd_set_env (w : wld) (e : E) : wld :=
    mk_world (wd_heap w) (wd_contexts w) (wd_kernel w) (wd_image w) e.

  (** Following a pointer to a context. *)
  Definition deref (w : wld) (c : nat) : res ctx :=
    match nth_error (wd_heap w) c with
    | Some (Some x) => Ok x
    | _ => UB ub_uaf
    end.
  Definition store (w : wld) (c : nat) (x : option ctx) : wld := wd_set_heap w (set_at (wd_heap w) c x).

  Definition cx_set_ucount (x : ctx) (n : N) : ctx := mk_context (cx_image x) (cx_abi x) (cx_pid x) n.
  Definition cx_set_image (x : ctx) (i : I) : ctx := mk_context i (cx_abi x) (cx_pid x) (cx_ucount x).
  Definition cx_set_abi (x : ctx) (a : sb_abi) : ctx := mk_context (cx_image x) a (cx_pid x) (cx_ucount x).

  (** ** Contexts *)

  (** pt_sb_ctx_get(), pt_sb_context.c:60-74. *)
  Definition pt_sb_ctx_get (w : wld) (c : nat) : wld * res unit :=
    match deref w c with
    | Ok x => if 65535 <=? cx_ucount x then (w, Err pte_overflow)
              else (store w c (Some (cx_set_ucount x (cx_ucount x + 1))), Ok tt)
    | Err e => (w, Err e)
    | UB u => (w, UB u)
    end.

  (** pt_sb_ctx_put(), pt_sb_context.c:76-104. *)
  Definition pt_sb_ctx_put (w : wld) (c : nat) : wld * res unit :=
    match deref w c with
    | Ok x => if 1 <? cx_ucount x then (store w c (Some (cx_set_ucount x (cx_ucount x - 1))), Ok tt)
              else if cx_ucount x =? 0 then (w, Err pte_internal)
              else (store w c None, Ok tt)
    | Err e => (w, Err e)
    | UB u => (w, UB u)
    end.

  (** pt_sb_find_context_by_pid(), pt_sb_session.c:190-206. *)
  Fixpoint find_pid (w : wld) (l : list nat) (pid : N) : res (option nat) :=
    match l with
    | [] => Ok None
    | c :: l => let* x := deref w c in
                if cx_pid x =? pid then Ok (Some c) else find_pid w l pid
    end.
  Definition pt_sb_find_context_by_pid (w : wld) (pid : N) : res (option nat) :=
    find_pid w (wd_contexts w) pid.

  (** pt_sb_add_context_by_pid(), pt_sb_session.c:135-170, with pt_sb_ctx_alloc(),
      pt_sb_context.c:38-58.  The context gets its pid after the image was copied; nobody looks in
      between. *)
  Definition pt_sb_add_context_by_pid (w : wld) (pid : N) : wld * res nat :=
    let (e, ok) := eo_alloc out (wd_env w) in
    let w := wd_set_env w e in
    if negb ok then (w, Err pte_nomem) else
    let c := length (wd_heap w) in
    let '(e, i, r) := eo_copy out (wd_env w) (eo_new out) (wd_kernel w) in
    let w := wd_set_env (wd_set_heap w (wd_heap w ++ [Some (mk_context i pt_sb_abi_unknown pid 1)])) e in
    match r with
    | Err e => (fst (pt_sb_ctx_put w c), Err e)
    | UB u => (w, UB u)
    | Ok _ => (wd_set_contexts w (c :: wd_contexts w), Ok c)
    end.

  (** pt_sb_get_context_by_pid(), pt_sb_session.c:172-188. *)
  Definition pt_sb_get_context_by_pid (w : wld) (pid : N) : wld * res nat :=
    match pt_sb_find_context_by_pid w pid with
    | Ok (Some c) => (w, Ok c)
    | Ok None => pt_sb_add_context_by_pid w pid
    | Err e => (w, Err e)
    | UB u => (w, UB u)
    end.

  (** pt_sb_remove_context(), pt_sb_session.c:208-228.  Looking for the pointer, the function
      follows the links of the contexts before it. *)
  Fixpoint unlink (w : wld) (c : nat) (l : list nat) : res (option (list nat)) :=
    match l with
    | [] => Ok None
    | c' :: l =>
        if Nat.eqb c' c then (let* _ := deref w c in Ok (Some l)) else
        let* _ := deref w c' in
        let* o := unlink w c l in
        Ok (match o with Some l => Some (c' :: l) | None => None end)
    end.
  Definition pt_sb_remove_context (w : wld) (c : nat) : wld * res unit :=
    match unlink w c (wd_contexts w) with
    | Ok (Some l) => pt_sb_ctx_put (wd_set_contexts w l) c
    | Ok None => (w, Err pte_nosync)
    | Err e => (w, Err e)
    | UB u => (w, UB u)
    end.

  (** Changing the image of a context. *)
  Definition on_image (w : wld) (c : nat) (f : E -> I -> E * I * res unit) : wld * res unit :=
    match deref w c with
    | Ok x => let '(e, i, r) := f (wd_env w) (cx_image x) in
              (store (wd_set_env w e) c (Some (cx_set_image x i)), r)
    | Err e => (w, Err e)
    | UB u => (w, UB u)
    end.

  (** pt_sb_ctx_mmap(), pt_sb_context.c:114-136. *)
  Definition pt_sb_ctx_mmap (w : wld) (c : nat) (file : list N) (offset size vaddr : N) : wld * res unit :=
    on_image w c (fun e i =>
      if negb (eo_iscache out) then eo_add_file out e i file offset size vaddr else
      match eo_isc_add out e file offset size vaddr with
      | (e, Ok isid) => eo_add_cached out e i isid
      | (e, Err x) => (e, i, Err x)
      | (e, UB u) => (e, i, UB u)
      end).

  (** pt_sb_ctx_switch_to(), pt_sb_context.c:138-162; [given] tells whether there is an image
      pointer. *)
  Definition pt_sb_ctx_switch_to (w : wld) (given : bool) (c : nat) : wld * res unit :=
    if negb given then (w, Err pte_internal) else
    match deref w c with
    | Ok _ =>
        match eo_switch out with
        | None => (wd_set_image w (Some c), Ok tt)
        | Some notify =>
            let (e, r) := notify (wd_env w) c in
            let w := wd_set_env w e in
            match r with
            | Ok _ => (wd_set_image w (Some c), Ok tt)
            | Err x => (w, Err x)
            | UB u => (w, UB u)
            end
        end
    | Err e => (w, Err e)
    | UB u => (w, UB u)
    end.

  (** pt_sb_error(), pt_sb_session.c:591-604. *)
  Definition pt_sb_error (w : wld) (code : sb_report) (offset : nat) : wld * res unit :=
    match eo_error out with
    | None => (w, Ok tt)
    | Some notify => let (e, r) := notify (wd_env w) code offset in (wd_set_env w e, r)
    end.

  (** ** The decoder *)

  (** Computations on the world and the private data. *)
  Definition M (A : Type) : Type := wld * priv -> wld * priv * res A.
  Definition ret {A} (a : A) : M A := fun s => (s, Ok a).
  Definition fail {A} (e : pte) : M A := fun s => (s, Err e).
  Definition mbind {A B} (m : M A) (k : A -> M B) : M B := fun s =>
    match m s with
    | (s, Ok a) => k a s
    | (s, Err e) => (s, Err e)
    | (s, UB u) => (s, UB u)
    end.
  Definition private : M priv := fun s => (s, Ok (snd s)).
  Definition update (f : priv -> priv) : M unit := fun s => ((fst s, f (snd s)), Ok tt).
  Definition onworld {A} (f : wld -> wld * res A) : M A := fun s =>
    let (w, r) := f (fst s) in ((w, snd s), r).

  Local Notation "'do' x <- m ; k" := (mbind m (fun x => k)) (at level 200, x name, m at level 100, k at level 200).
  Local Notation "'run' m ; k" := (mbind m (fun _ => k)) (at level 200, m at level 100, k at level 200).

  (** pt_sb_pevent_error(), pt_sb_pevent.c:137-162. *)
  Definition pt_sb_pevent_error (code : sb_report) : M unit :=
    do p <- private;
    onworld (fun w => pt_sb_error w code (match pp_current p with Some n => n | None => pp_next p end)).

  (** The time stamp of a record, pt_sb_pevent.c:389-417, in 64-bit arithmetic. *)
  Definition shifted (tsc offset : N) : N :=
    if offset <=? tsc then sub64 tsc offset
    else if offset <? 2 ^ 63 then 0
    else if tsc <=? offset then sub64 tsc offset else 2 ^ 64 - 1.

  Definition with_tsc (e : pev_event) (tsc : N) : pev_event :=
    {| pe_type := pe_type e; pe_misc := pe_misc e; pe_record := pe_record e;
       pe_sample := {| sm_pid := sm_pid (pe_sample e); sm_tid := sm_tid (pe_sample e);
                       sm_time := sm_time (pe_sample e); sm_tsc := tsc; sm_id := sm_id (pe_sample e);
                       sm_stream_id := sm_stream_id (pe_sample e); sm_cpu := sm_cpu (pe_sample e);
                       sm_identifier := sm_identifier (pe_sample e) |} |}.

  (** pt_sb_pevent_fetch(), pt_sb_pevent.c:362-428.  The pointers in the event are followed
      at once, in the bytes of the record.  The event that a failing pev_read() leaves behind is not looked at, since then
      the current position is the next one. *)
  Definition pt_sb_pevent_fetch : M N :=
    do p <- private;
    let pos := pp_next p in
    run update (fun p => pp_set_pos p (Some pos) pos (pp_event p));
    match (let* (size, r) := pev_read (skipn pos (pp_buf p)) (pp_pev p) in
           let* e := view (firstn size (skipn pos (pp_buf p))) r in
           Ok (size, e)) with
    | Err e => fail e
    | UB u => fun s => (s, UB u)
    | Ok (size, e) =>
        match sm_time (pe_sample e) with
        | None =>
            run update (fun p => pp_set_pos p (Some pos) (pos + size) e);
            ret 0
        | Some _ =>
            let tsc := shifted (sm_tsc (pe_sample e)) (pp_tsc_offset p) in
            run update (fun p => pp_set_pos p (Some pos) (pos + size) (with_tsc e tsc));
            ret tsc
        end
    end.

  (** pt_sb_pevent_switch_contexts(), pt_sb_pevent.c:898-921. *)
  Definition pt_sb_pevent_switch_contexts (given : bool) : M unit :=
    do p <- private;
    if negb given then fail pte_internal else
    match pp_next_context p with
    | None => fail pte_internal
    | Some next =>
        run onworld (fun w => pt_sb_ctx_switch_to w given next);
        run update (fun p => pp_set_ctx p (Some next) None);
        match pp_context p with
        | Some prev => onworld (fun w => pt_sb_ctx_put w prev)
        | None => ret tt
        end
    end.

  (** pt_sb_pevent_cancel_context_switch(), pt_sb_pevent.c:923-937. *)
  Definition pt_sb_pevent_cancel_context_switch : M unit :=
    do p <- private;
    match pp_next_context p with
    | None => ret tt
    | Some c => run update (fun p => pp_set_ctx p (pp_context p) None);
                onworld (fun w => pt_sb_ctx_put w c)
    end.

  Definition is_ctx (o : option nat) (c : nat) : bool :=
    match o with Some c' => Nat.eqb c' c | None => false end.

  (** pt_sb_pevent_prepare_context_switch(), pt_sb_pevent.c:939-981. *)
  Definition pt_sb_pevent_prepare_context_switch (c : nat) : M unit :=
    do p <- private;
    if is_ctx (pp_next_context p) c then ret tt else
    run pt_sb_pevent_cancel_context_switch;
    if is_ctx (pp_context p) c then ret tt else
    run onworld (fun w => pt_sb_ctx_get w c);
    update (fun p => pp_set_ctx p (pp_context p) (Some c)).

  (** pt_sb_pevent_prepare_switch_to_pid(), pt_sb_pevent.c:983-996. *)
  Definition pt_sb_pevent_prepare_switch_to_pid (pid : N) : M unit :=
    do c <- onworld (fun w => pt_sb_get_context_by_pid w pid);
    pt_sb_pevent_prepare_context_switch c.

  (** pt_sb_pevent_remove_context_for_pid(), pt_sb_pevent.c:998-1013. *)
  Definition pt_sb_pevent_remove_context_for_pid (pid : N) : M unit :=
    do o <- onworld (fun w => (w, pt_sb_find_context_by_pid w pid));
    match o with
    | None => ret tt
    | Some c => onworld (fun w => pt_sb_remove_context w c)
    end.

  (** pt_sb_pevent_itrace_start(), pt_sb_pevent.c:1015-1041. *)
  Definition pt_sb_pevent_itrace_start (given : bool) (pid : N) : M unit :=
    run pt_sb_pevent_prepare_switch_to_pid pid;
    do p <- private;
    match pp_next_context p with
    | None => ret tt
    | Some _ => pt_sb_pevent_switch_contexts given
    end.

  (** pt_sb_pevent_fork(), pt_sb_pevent.c:1043-1104. *)
  Definition pt_sb_pevent_fork (pid ppid tid : N) : M unit :=
    if ppid =? pid then ret tt else
    if negb (pid =? tid) then fail pte_internal else
    run pt_sb_pevent_remove_context_for_pid pid;
    do c <- onworld (fun w => pt_sb_get_context_by_pid w pid);
    do o <- onworld (fun w => (w, pt_sb_find_context_by_pid w ppid));
    match o with
    | None => ret tt
    | Some parent =>
        onworld (fun w =>
          match deref w parent with
          | Ok x => on_image w c (fun e i => eo_copy out e i (cx_image x))
          | Err e => (w, Err e)
          | UB u => (w, UB u)
          end)
    end.

  (** pt_sb_pevent_exec(), pt_sb_pevent.c:1106-1154. *)
  Definition pt_sb_pevent_exec (given : bool) (pid : N) : M unit :=
    run pt_sb_pevent_remove_context_for_pid pid;
    do c <- onworld (fun w => pt_sb_get_context_by_pid w pid);
    if negb given then ret tt else pt_sb_pevent_prepare_context_switch c.

  (** pt_sb_pevent_find_vdso(), pt_sb_pevent.c:192-226. *)
  Definition pt_sb_pevent_find_vdso (p : priv) (abi : sb_abi) : res (list N) :=
    match (match abi with
           | pt_sb_abi_unknown => None
           | pt_sb_abi_x64 => pp_vdso_x64 p
           | pt_sb_abi_x32 => pp_vdso_x32 p
           | pt_sb_abi_ia32 => pp_vdso_ia32 p
           end) with
    | Some f => Ok f
    | None => Err pte_bad_config
    end.

  (** strcmp() and strstr() on strings without their terminating zero. *)
  Fixpoint streq (a b : list N) : bool :=
    match a, b with
    | [], [] => true
    | x :: a, y :: b => (x =? y) && streq a b
    | _, _ => false
    end.
  Fixpoint starts_with (s pat : list N) : bool :=
    match pat, s with
    | [], _ => true
    | x :: pat, y :: s => (x =? y) && starts_with s pat
    | _, [] => false
    end.
  Fixpoint strstr (s pat : list N) : bool :=
    starts_with s pat || match s with [] => false | _ :: s => strstr s pat end.

  (** "[vdso]", "//anon" and " (deleted)" in ASCII. *)
  Definition str_vdso : list N := [91; 118; 100; 115; 111; 93].
  Definition str_anon : list N := [47; 47; 97; 110; 111; 110].
  Definition str_deleted : list N := [32; 40; 100; 101; 108; 101; 116; 101; 100; 41].

  (** snprintf() into a buffer of FILENAME_MAX bytes, pt_sb_pevent.c:1240-1244.  A string that
      does not fit is cut; only a negative result counts as an error. *)
  Definition joined (sysroot file : list N) : list N := firstn (FILENAME_MAX - 1) (sysroot ++ file).

  (** pt_sb_pevent_track_abi(), pt_sb_pevent.c:164-190. *)
  Definition pt_sb_pevent_track_abi (c : nat) (file : list N) : M unit :=
    onworld (fun w =>
      match deref w c with
      | Ok x =>
          match cx_abi x with
          | pt_sb_abi_unknown =>
              let (e, o) := eo_abi out (wd_env w) file in
              let w := wd_set_env w e in
              match o with
              | Some a => (store w c (Some (cx_set_abi x a)), Ok tt)
              | None => (w, Ok tt)
              end
          | _ => (w, Ok tt)
          end
      | Err e => (w, Err e)
      | UB u => (w, UB u)
      end).

  Definition map_file (c : nat) (file : list N) (offset size vaddr : N) : M unit :=
    run pt_sb_pevent_track_abi c file;
    onworld (fun w => pt_sb_ctx_mmap w c file offset size vaddr).

  (** pt_sb_pevent_map(), pt_sb_pevent.c:1178-1253. *)
  Definition pt_sb_pevent_map (pid : N) (file : list N) (offset size vaddr : N) : M unit :=
    do c <- onworld (fun w => pt_sb_get_context_by_pid w pid);
    do p <- private;
    if (match file with b :: _ => b =? 91 | [] => false end) then
      if streq file str_vdso then
        do x <- onworld (fun w => (w, deref w c));
        match pt_sb_pevent_find_vdso p (cx_abi x) with
        | Ok f => map_file c f offset size vaddr
        | Err e => pt_sb_pevent_error (ptse_error e)
        | UB u => fun s => (s, UB u)
        end
      else pt_sb_pevent_error ptse_section_lost
    else if streq file str_anon then pt_sb_pevent_error ptse_section_lost
    else if strstr file str_deleted then pt_sb_pevent_error ptse_section_lost
    else
      map_file c (match pp_sysroot p with Some root => joined root file | None => file end)
               offset size vaddr.

  (** pt_sb_pevent_ignore_mmap(), pt_sb_pevent.c:1290-1307. *)
  Definition pt_sb_pevent_ignore_mmap (misc : N) : bool :=
    N.land misc PERF_RECORD_MISC_CPUMODE_MASK =? PERF_RECORD_MISC_KERNEL.

  (** pt_sb_pevent_apply_event_record(), pt_sb_pevent.c:1309-1408, with
      pt_sb_pevent_switch(), pt_sb_pevent_switch_cpu(), pt_sb_pevent_mmap(),
      pt_sb_pevent_mmap2() and pt_sb_pevent_aux(), pt_sb_pevent.c:1156-1176 and 1255-1288.
      The union holds the record of the event's type. *)
  Definition pt_sb_pevent_apply_event_record (given : bool) (ev : pev_event) : M unit :=
    let out_ := truth (N.land (pe_misc ev) PERF_RECORD_MISC_SWITCH_OUT) in
    match pe_record ev with
    | RItrace pid _ => if negb given then ret tt else pt_sb_pevent_itrace_start given pid
    | RFork pid ppid tid _ _ => pt_sb_pevent_fork pid ppid tid
    | RComm pid _ _ =>
        if negb (truth (N.land (pe_misc ev) PERF_RECORD_MISC_COMM_EXEC)) then ret tt
        else pt_sb_pevent_exec given pid
    | RSwitchWide next _ =>
        if negb given then ret tt else
        if negb out_ then
          match sm_pid (pe_sample ev) with
          | None => ret tt
          | Some pid => pt_sb_pevent_prepare_switch_to_pid pid
          end
        else pt_sb_pevent_prepare_switch_to_pid next
    | RMmap pid _ addr len pgoff file | RMmap2 pid _ addr len pgoff _ _ _ _ _ _ file =>
        if pt_sb_pevent_ignore_mmap (pe_misc ev) then ret tt
        else pt_sb_pevent_map pid file pgoff len addr
    | RLost _ _ => pt_sb_pevent_error ptse_lost
    | RAux _ _ flags =>
        if negb given then ret tt else
        if truth (N.land flags PERF_AUX_FLAG_TRUNCATED) then pt_sb_pevent_error ptse_trace_lost
        else ret tt
    | RNone =>
        if pe_type ev =? PERF_RECORD_SWITCH then
          if negb given then ret tt else
          if out_ then ret tt else
          match sm_pid (pe_sample ev) with
          | None => fail pte_bad_config
          | Some pid => pt_sb_pevent_prepare_switch_to_pid pid
          end
        else ret tt
    | _ => ret tt
    end.

  (** ploc_from_ip() and ploc_from_suppressed_ip(), pt_sb_pevent.c:1410-1444. *)
  Definition ploc_from_ip (p : priv) (ip : N) : ploc :=
    if ip <? pp_kernel_start p then ploc_in_user else ploc_in_kernel.
  Definition ploc_from_suppressed_ip (from : ploc) : ploc :=
    match from with
    | ploc_likely_in_kernel | ploc_in_kernel => ploc_likely_in_user
    | ploc_likely_in_user | ploc_in_user => ploc_likely_in_kernel
    | ploc_unknown => ploc_unknown
    end.

  (** ploc_from_event(), pt_sb_pevent.c:1446-1630.  The RSM event has no address in this
      model; its IP is suppressed in all events of the library. *)
  Definition ploc_from_event (p : priv) (ev : event) : ploc :=
    let sup := ev_ip_suppressed ev in
    let at_ ip := if sup then ploc_unknown else ploc_from_ip p ip in
    match ev_var ev with
    | Ev_enabled ip _ => ploc_from_ip p ip
    | Ev_disabled ip => if sup then ploc_from_suppressed_ip (pp_location p) else ploc_from_ip p ip
    | Ev_async_disabled a ip =>
        if sup then ploc_from_suppressed_ip (ploc_from_ip p a) else ploc_from_ip p ip
    | Ev_async_branch _ to => ploc_from_ip p to
    | Ev_async_paging _ _ ip => if sup then ploc_likely_in_kernel else ploc_from_ip p ip
    | Ev_paging _ _ => ploc_likely_in_kernel
    | Ev_tip ip => ploc_from_ip p ip
    | Ev_overflow ip | Ev_exec_mode _ ip | Ev_tsx ip _ _ | Ev_exstop ip | Ev_mwait ip _ _
    | Ev_ptwrite ip _ _ | Ev_tick ip | Ev_iflags _ ip | Ev_interrupt _ _ ip | Ev_iret ip | Ev_smi ip
    | Ev_init ip | Ev_vmentry ip | Ev_vmexit _ _ _ ip | Ev_shutdown ip | Ev_uintr _ ip | Ev_uiret ip =>
        at_ ip
    | _ => ploc_unknown
    end.

  Definition kernelish (l : ploc) : bool :=
    match l with
    | ploc_likely_in_kernel | ploc_in_kernel | ploc_unknown => true
    | _ => false
    end.

  Definition at_end (p : priv) : bool :=
    match pp_current p with Some n => Nat.eqb n (pp_next p) | None => false end.

  (** pt_sb_pevent_apply(), pt_sb_pevent.c:1632-1727. *)
  Definition pt_sb_pevent_apply (given : bool) (ev : event) : M unit :=
    do p <- private;
    if negb (at_end p) &&
       match sm_time (pe_sample (pp_event p)) with
       | None => true
       | Some _ => sm_tsc (pe_sample (pp_event p)) <=? ev_tsc ev
       end
    then pt_sb_pevent_apply_event_record given (pp_event p) else
    let loc := ploc_from_event p ev in
    run update (fun p => pp_set_loc p loc);
    match pp_next_context p with
    | None => if at_end p then fail pte_eos else ret tt
    | Some _ =>
        if kernelish (pp_location p) || kernelish loc then pt_sb_pevent_switch_contexts given
        else ret tt
    end.

  (** pt_sb_pevent_fetch_callback(), pt_sb_pevent.c:1729-1740.  The answer of the error notifier
      does not matter. *)
  Definition fetch_callback (w : wld) (p : priv) : wld * priv * res N :=
    match pt_sb_pevent_fetch (w, p) with
    | (s, Err pte_eos) => (s, Err pte_eos)
    | (s, Err e) => (fst (pt_sb_pevent_error (ptse_error e) s), Err e)
    | r => r
    end.

  (** pt_sb_pevent_apply_callback(), pt_sb_pevent.c:1756-1769. *)
  Definition apply_callback (given : bool) (ev : event) (w : wld) (p : priv) : wld * priv * res unit :=
    match pt_sb_pevent_apply given ev (w, p) with
    | (s, Err pte_eos) => (s, Err pte_eos)
    | (s, Err e) => pt_sb_pevent_error (ptse_error e) s
    | r => r
    end.

  (** pt_sb_pevent_print_callback(), pt_sb_pevent.c:1742-1754, and pt_sb_pevent_print() for its
      result: there is a current record, and pev_read() never leaves a record pointer NULL. *)
  Definition print_callback (w : wld) (p : priv) : wld * priv * res unit :=
    match pp_current p with
    | None => pt_sb_pevent_error (ptse_error pte_internal) (w, p)
    | Some _ => (w, p, Ok tt)
    end.

  (** pt_sb_pevent_dtor(), pt_sb_pevent.c:228-252: the contexts. *)
  Definition put_opt (w : wld) (o : option nat) : wld * res unit :=
    match o with Some c => pt_sb_ctx_put w c | None => (w, Ok tt) end.
  Definition dtor (w : wld) (p : priv) : wld * res unit :=
    match put_opt w (pp_next_context p) with
    | (w, UB u) => (w, UB u)
    | (w, _) => put_opt w (pp_context p)
    end.

  Definition pevent_ops : sbops priv wld := mk_sbops fetch_callback apply_callback print_callback dtor.

  (** The contexts in pt_sb_free(), pt_sb_session.c:104-112. *)
  Fixpoint free_contexts (l : list nat) (w : wld) : wld * res unit :=
    match l with
    | [] => (w, Ok tt)
    | c :: l =>
        match pt_sb_ctx_put w c with
        | (w, UB u) => (w, UB u)
        | (w, _) => free_contexts l w
        end
    end.

  (** pt_sb_alloc_pevent_decoder(), pt_sb_pevent.c:1771-1804, with pt_sb_pevent_init(),
      pt_sb_pevent.c:283-360, and pt_sb_pevent_init_path(), pt_sb_pevent.c:254-281; there is memory.
      The file was loaded to [buf].  When a path is too long, pt_sb_pevent_init() calls
      pt_sb_pevent_dtor(), which frees the private data, and pt_sb_alloc_pevent_decoder() frees it
      again. *)
  Definition path_ok (o : option (list N)) : bool :=
    match o with Some f => Nat.ltb (length f) FILENAME_MAX | None => true end.
  Definition no_pev_event : pev_event :=
    {| pe_type := 0; pe_misc := 0; pe_record := RNone;
       pe_sample := {| sm_pid := None; sm_tid := None; sm_time := None; sm_tsc := 0; sm_id := None;
                       sm_stream_id := None; sm_cpu := None; sm_identifier := None |} |}.
  Definition pt_sb_alloc_pevent_decoder (buf : list N) (filename : list N)
    (sysroot x64 x32 ia32 : option (list N)) (pev : pev_config) (kernel_start tsc_offset : N)
    (primary : bool) (s : session priv) : session priv * res unit :=
    if path_ok (Some filename) && path_ok sysroot && path_ok x64 && path_ok x32 && path_ok ia32 then
      (M_sb.pt_sb_alloc_decoder
         (mk_priv buf sysroot x64 x32 ia32 pev kernel_start tsc_offset None 0 no_pev_event None None ploc_unknown)
         primary s, Ok tt)
    else (s, UB ub_uaf).
End WORLD.
