(** Sideband sessions: the list of decoders.
    Model of /repo/sideband/src/pt_sb_session.c and
    /repo/sideband/internal/include/pt_sb_decoder.h.

    A decoder's callbacks are functions on its private data and on everything else they
    may change, the world: process contexts, images, the user's image pointer, files.  One
    type of private data and one set of functions stand for decoders of several formats;
    a NULL callback is a function that answers -pte_bad_config.  Callbacks do not change
    the session's lists of decoders.  NULL arguments are left out. *)

From Verif Require Import Base M_event.
From Coq Require Import List NArith Bool.
Import ListNotations.
Open Scope N_scope.

(** struct pt_sb_decoder_config, libipt-sb.h.in:364-428.  The flag of [so_apply] tells whether
    the image pointer is given, pt_sb_session.c:329-330. *)
Record sbops (P W : Type) := mk_sbops {
  so_fetch : W -> P -> W * P * res N;
  so_apply : bool -> event -> W -> P -> W * P * res unit;
  so_print : W -> P -> W * P * res unit;
  so_dtor : W -> P -> W * res unit }.
Arguments mk_sbops {P W}. Arguments so_fetch {P W}. Arguments so_apply {P W}.
Arguments so_print {P W}. Arguments so_dtor {P W}.

(** struct pt_sb_decoder, pt_sb_decoder.h:37-68. *)
Record sbdec (P : Type) := mk_sbdec { sd_tsc : N; sd_priv : P; sd_primary : bool }.
Arguments mk_sbdec {P}. Arguments sd_tsc {P}. Arguments sd_priv {P}. Arguments sd_primary {P}.

(** The lists of decoders in struct pt_sb_session, pt_sb_session.h:59-81. *)
Record session (P : Type) := mk_session {
  ss_decoders : list (sbdec P);
  ss_waiting : list (sbdec P);
  ss_retired : list (sbdec P);
  ss_removed : list (sbdec P) }.
Arguments mk_session {P}. Arguments ss_decoders {P}. Arguments ss_waiting {P}.
Arguments ss_retired {P}. Arguments ss_removed {P}.

Section SESSION.
  Context {P W : Type} (ops : sbops P W).
  Notation dec := (sbdec P).
  Notation sess := (session P).

  (** pt_sb_alloc(), pt_sb_session.c:44-64. *)
  Definition pt_sb_alloc : sess := mk_session [] [] [] [].

  (** pt_sb_alloc_decoder(), pt_sb_session.c:230-254; memory is available. *)
  Definition pt_sb_alloc_decoder (p : P) (primary : bool) (s : sess) : sess :=
    mk_session (ss_decoders s) (mk_sbdec 0 p primary :: ss_waiting s) (ss_retired s) (ss_removed s).

  (** pt_sb_add_decoder(), pt_sb_session.c:263-282. *)
  Fixpoint pt_sb_add_decoder (d : dec) (l : list dec) : list dec :=
    match l with
    | [] => [d]
    | cand :: l' => if sd_tsc d <=? sd_tsc cand then d :: l else cand :: pt_sb_add_decoder d l'
    end.

  Definition set_priv (d : dec) (p : P) : dec := mk_sbdec (sd_tsc d) p (sd_primary d).
  Definition set_tsc (d : dec) (tsc : N) : dec := mk_sbdec tsc (sd_priv d) (sd_primary d).

  (** pt_sb_fetch(), pt_sb_session.c:284-297.  What a failing callback writes to the time
      stamp is never looked at. *)
  Definition pt_sb_fetch (w : W) (d : dec) : W * dec * res unit :=
    match so_fetch ops w (sd_priv d) with
    | (w, p, Ok tsc) => (w, set_tsc (set_priv d p) tsc, Ok tt)
    | (w, p, Err e) => (w, set_priv d p, Err e)
    | (w, p, UB u) => (w, set_priv d p, UB u)
    end.

  (** pt_sb_print(), pt_sb_session.c:299-313. *)
  Definition pt_sb_print (w : W) (d : dec) : W * dec * res unit :=
    let '(w, p, r) := so_print ops w (sd_priv d) in (w, set_priv d p, r).

  (** pt_sb_apply(), pt_sb_session.c:315-333. *)
  Definition pt_sb_apply (ev : event) (w : W) (d : dec) : W * dec * res unit :=
    let '(w, p, r) := so_apply ops (sd_primary d) ev w (sd_priv d) in (w, set_priv d p, r).

  (** pt_sb_init_decoders(), pt_sb_session.c:335-366. *)
  Fixpoint init_loop (waiting : list dec) (s : sess) (w : W) : sess * W * res unit :=
    match waiting with
    | [] => (s, w, Ok tt)
    | d :: waiting =>
        let s := mk_session (ss_decoders s) waiting (ss_retired s) (ss_removed s) in
        match pt_sb_fetch w d with
        | (w, d, UB u) => (s, w, UB u)
        | (w, d, Err _) =>
            match so_dtor ops w (sd_priv d) with
            | (w, UB u) => (s, w, UB u)
            | (w, _) => init_loop waiting s w
            end
        | (w, d, Ok _) =>
            init_loop waiting
              (mk_session (pt_sb_add_decoder d (ss_decoders s)) waiting (ss_retired s) (ss_removed s)) w
        end
    end.
  Definition pt_sb_init_decoders (s : sess) (w : W) : sess * W * res unit :=
    init_loop (ss_waiting s) s w.

  (** Moving a decoder to the front of a list. *)
  Definition remove (d : dec) (s : sess) : sess :=
    mk_session (ss_decoders s) (ss_waiting s) (ss_retired s) (d :: ss_removed s).
  Definition retire (d : dec) (s : sess) : sess :=
    mk_session (ss_decoders s) (ss_waiting s) (d :: ss_retired s) (ss_removed s).
  Definition set_decoders (s : sess) (l : list dec) : sess :=
    mk_session l (ss_waiting s) (ss_retired s) (ss_removed s).

  (** The first round of pt_sb_event(), pt_sb_session.c:456-498, for the first decoder.
      [printing] tells whether there is a stream. *)
  Definition turn (printing : bool) (ev : event) (d : dec) (s : sess) (w : W) : sess * W * res unit :=
    let s := set_decoders s (tl (ss_decoders s)) in
    match (if printing then pt_sb_print w d else (w, d, Ok tt)) with
    | (w, d, UB u) => (remove d s, w, UB u)
    | (w, d, Err _) => (remove d s, w, Ok tt)
    | (w, d, Ok _) =>
        match pt_sb_apply ev w d with
        | (w, d, UB u) => (remove d s, w, UB u)
        | (w, d, Err _) => (remove d s, w, Ok tt)
        | (w, d, Ok _) =>
            match pt_sb_fetch w d with
            | (w, d, UB u) => (remove d s, w, UB u)
            | (w, d, Err pte_eos) => (retire d s, w, Ok tt)
            | (w, d, Err _) => (remove d s, w, Ok tt)
            | (w, d, Ok _) => (set_decoders s (pt_sb_add_decoder d (ss_decoders s)), w, Ok tt)
            end
        end
    end.

  Fixpoint first_round (fuel : nat) (printing : bool) (ev : event) (s : sess) (w : W) :
    sess * W * res unit :=
    match ss_decoders s with
    | [] => (s, w, Ok tt)
    | d :: _ =>
        if ev_tsc ev <? sd_tsc d then (s, w, Ok tt) else
        match fuel with
        | O => (s, w, UB ub_fuel)
        | S fuel =>
            match turn printing ev d s w with
            | (s, w, Ok _) => first_round fuel printing ev s w
            | r => r
            end
        end
    end.

  (** pt_sb_event_present(), pt_sb_session.c:398-429: the decoders that stay and those that
      are removed, the last one first. *)
  Fixpoint pt_sb_event_present (ev : event) (l removed : list dec) (w : W) :
    list dec * list dec * W * res unit :=
    match l with
    | [] => ([], removed, w, Ok tt)
    | d :: l =>
        match pt_sb_apply ev w d with
        | (w, d, UB u) => (d :: l, removed, w, UB u)
        | (w, d, Err _) => pt_sb_event_present ev l (d :: removed) w
        | (w, d, Ok _) =>
            let '(l, removed, w, r) := pt_sb_event_present ev l removed w in (d :: l, removed, w, r)
        end
    end.

  (** pt_sb_event(), pt_sb_session.c:431-513, for an event of this version of the library. *)
  Definition pt_sb_event (fuel : nat) (printing : bool) (ev : event) (s : sess) (w : W) :
    sess * W * res unit :=
    match first_round fuel printing ev s w with
    | (s, w, Ok _) =>
        match pt_sb_event_present ev (ss_decoders s) (ss_removed s) w with
        | (l, rm, w, Ok _) =>
            let s := mk_session l (ss_waiting s) (ss_retired s) rm in
            match pt_sb_event_present ev (ss_retired s) (ss_removed s) w with
            | (l, rm, w, r) => (mk_session (ss_decoders s) (ss_waiting s) l rm, w, r)
            end
        | (l, rm, w, r) => (mk_session l (ss_waiting s) (ss_retired s) rm, w, r)
        end
    | r => r
    end.

  (** pt_sb_dump(), pt_sb_session.c:515-555: one decoder. *)
  Definition dump_turn (d : dec) (s : sess) (w : W) : sess * W * res unit :=
    let s := set_decoders s (tl (ss_decoders s)) in
    match pt_sb_print w d with
    | (w, d, UB u) => (remove d s, w, UB u)
    | (w, d, Err _) => (remove d s, w, Ok tt)
    | (w, d, Ok _) =>
        match pt_sb_fetch w d with
        | (w, d, UB u) => (remove d s, w, UB u)
        | (w, d, Err _) => (remove d s, w, Ok tt)
        | (w, d, Ok _) => (set_decoders s (pt_sb_add_decoder d (ss_decoders s)), w, Ok tt)
        end
    end.
  Fixpoint pt_sb_dump (fuel : nat) (tsc : N) (s : sess) (w : W) : sess * W * res unit :=
    match ss_decoders s with
    | [] => (s, w, Ok tt)
    | d :: _ =>
        if tsc <? sd_tsc d then (s, w, Ok tt) else
        match fuel with
        | O => (s, w, UB ub_fuel)
        | S fuel =>
            match dump_turn d s w with
            | (s, w, Ok _) => pt_sb_dump fuel tsc s w
            | r => r
            end
        end
    end.

  (** The decoders in pt_sb_free(), pt_sb_session.c:66-102.  A destructor returns nothing; its result
      here tells about undefined behaviour. *)
  Fixpoint free_decoders (l : list dec) (w : W) : W * res unit :=
    match l with
    | [] => (w, Ok tt)
    | d :: l =>
        match so_dtor ops w (sd_priv d) with
        | (w, UB u) => (w, UB u)
        | (w, _) => free_decoders l w
        end
    end.
  Definition pt_sb_free (s : sess) (w : W) : W * res unit :=
    match free_decoders (ss_decoders s) w with
    | (w, Ok _) =>
        match free_decoders (ss_waiting s) w with
        | (w, Ok _) =>
            match free_decoders (ss_retired s) w with
            | (w, Ok _) => free_decoders (ss_removed s) w
            | r => r
            end
        | r => r
        end
    | r => r
    end.
End SESSION.
