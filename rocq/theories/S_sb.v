(** What a client does with a sideband session of perf event decoders, and who refers to
    a process context. *)
From Verif Require Import Base M_event M_pevent M_sb M_sbpev.
From Coq Require Import List NArith Bool PeanoNat.
Import ListNotations.
Open Scope nat_scope.

(** Calls of the API.  [Use] gets the context of a process and takes a reference, [Drop] gives
    back a reference that the client has, [Forget] removes a process from the session. *)
Inductive sb_op :=
| Attach (buf filename : list N) (sysroot x64 x32 ia32 : option (list N)) (pev : pev_config)
      (kernel_start tsc_offset : N) (primary : bool)
| Init
| Event (printing : bool) (ev : event)
| Dump (tsc : N)
| Use (pid : N)
| Drop (c : nat)
| Forget (pid : N).

Definition op_ok (o : sb_op) : Prop :=
  match o with
  | Attach buf filename sysroot x64 x32 ia32 pev _ _ _ =>
      bytes_ok buf /\ (pc_shift pev < 64)%N /\
      Forall (fun f => length f < FILENAME_MAX)
        (filename :: flat_map (fun o => match o with Some f => [f] | None => [] end) [sysroot; x64; x32; ia32])
  | _ => True
  end.

Section CLIENT.
  Context {E I : Type} (out : outside E I).

  (** The session, the world, and the references of the client. *)
  Record client := mk_client { cl_session : session priv; cl_world : world E I; cl_held : list nat }.

  (** The number of turns is limited by the amount of sideband data. *)
  Definition turns (s : session priv) : nat :=
    list_sum (map (fun d => S (length (pp_buf (sd_priv d)))) (ss_decoders s)).

  Fixpoint drop_one (c : nat) (l : list nat) : list nat :=
    match l with
    | [] => []
    | d :: l => if Nat.eqb d c then l else d :: drop_one c l
    end.

  Definition sb_step (cl : client) (o : sb_op) : client * res unit :=
    let s := cl_session cl in
    let w := cl_world cl in
    let held := cl_held cl in
    match o with
    | Attach buf filename sysroot x64 x32 ia32 pev ks toff primary =>
        let (s, r) := pt_sb_alloc_pevent_decoder buf filename sysroot x64 x32 ia32 pev ks toff primary s in
        (mk_client s w held, r)
    | Init => let '(s, w, r) := pt_sb_init_decoders (pevent_ops out) s w in (mk_client s w held, r)
    | Event printing ev =>
        let '(s, w, r) := pt_sb_event (pevent_ops out) (turns s) printing ev s w in (mk_client s w held, r)
    | Dump tsc => let '(s, w, r) := pt_sb_dump (pevent_ops out) (turns s) tsc s w in (mk_client s w held, r)
    | Use pid =>
        match pt_sb_get_context_by_pid out w pid with
        | (w, Ok c) =>
            match pt_sb_ctx_get w c with
            | (w, Ok _) => (mk_client s w (c :: held), Ok tt)
            | (w, r) => (mk_client s w held, r)
            end
        | (w, Err e) => (mk_client s w held, Err e)
        | (w, UB u) => (mk_client s w held, UB u)
        end
    | Drop c =>
        if existsb (Nat.eqb c) held then
          let (w, r) := pt_sb_ctx_put w c in (mk_client s w (drop_one c held), r)
        else (cl, Ok tt)
    | Forget pid =>
        match pt_sb_find_context_by_pid w pid with
        | Ok (Some c) => let (w, r) := pt_sb_remove_context w c in (mk_client s w held, r)
        | Ok None => (cl, Ok tt)
        | Err e => (cl, Err e)
        | UB u => (cl, UB u)
        end
    end.

  (** All calls, and the result of each. *)
  Fixpoint sb_run (cl : client) (l : list sb_op) : client * list (res unit) :=
    match l with
    | [] => (cl, [])
    | o :: l =>
        let (cl, r) := sb_step cl o in
        let (cl, rs) := sb_run cl l in (cl, r :: rs)
    end.

  Definition sb_start (kernel : I) (e : E) : client :=
    mk_client pt_sb_alloc (mk_world [] [] kernel None e) [].

  (** pt_sb_free(). *)
  Definition sb_end (cl : client) : world E I * res unit :=
    match M_sb.pt_sb_free (pevent_ops out) (cl_session cl) (cl_world cl) with
    | (w, Ok _) => free_contexts (wd_contexts w) w
    | r => r
    end.

  (** The contexts that decoders use now, or want to use next. *)
  Definition every (s : session priv) : list priv :=
    map sd_priv (ss_decoders s ++ ss_waiting s ++ ss_retired s ++ ss_removed s).
  Definition in_use (s : session priv) : list nat :=
    flat_map (fun p => match pp_context p with Some c => [c] | None => [] end) (every s).
  Definition wanted (s : session priv) : list nat :=
    flat_map (fun p => match pp_next_context p with Some c => [c] | None => [] end) (every s).

  Definition refs (c : nat) (l : list nat) : nat := count_occ Nat.eq_dec l c.
  Definition alive (w : world E I) (c : nat) : Prop := exists x, deref w c = Ok x.
End CLIENT.
Arguments client : clear implicits.
