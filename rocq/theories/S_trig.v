(** Specification of where TRIG events are reported: after a number of instructions since the
    last address that the trace gave, its anchor. *)

From Coq Require Import List NArith ZArith Bool.
From Verif Require Import Base M_event M_asid M_ildtab M_ild M_insn M_insndec S_x86 S_insn S_flow.
Import ListNotations.
Open Scope N_scope.

Section STRAIGHT.
  Context {S C : Type} (im : image_if S C) (mem : asid -> memory).

  (** Where the decoder is. *)
  Definition here (d : insndec C) : flow :=
    mk_flow (id_enabled d) (id_ip d) (id_mode d) (id_asid d) (id_speculative d) [] None.

  (** One call gives an instruction that is in memory at the decoder's address. *)
  Definition shown_at (d : insndec C) (t : x86) (i : insn) (d' : insndec C) (st : N) : Prop :=
    pt_insn_next im d = (d', Some i, Ok st) /\ insn_of mem (here d) t i.

  (** Where an instruction goes that does not need the trace. *)
  Definition after (s : site) : N :=
    match si_class s with
    | ptic_jump | ptic_call => target s
    | _ => next_insn s
    end.

  (** Calls that give instructions that do not need the trace.  No address is zero. *)
  Inductive straight (d : insndec C) (st : N) : list insn -> insndec C -> N -> Prop :=
  | straight_none : straight d st [] d st
  | straight_more t i d1 st1 is d2 st2 :
      shown_at d t i d1 st1 -> ~ traced (site_of (here d) t) -> after (site_of (here d) t) <> 0 ->
      straight d1 st1 is d2 st2 -> straight d st (i :: is) d2 st2.
End STRAIGHT.

(** [n] instructions in memory that do not need the trace, from one address to another. *)
Inductive walks (mem : memory) (m : exec_mode) : N -> nat -> N -> Prop :=
| walks_none ip : walks mem m ip 0 ip
| walks_more ip t n ip' : text_at mem m ip t ->
    ~ traced (mk_site ip (length (render t)) (fst (meaning m t)) (snd (meaning m t))) ->
    walks mem m (after (mk_site ip (length (render t)) (fst (meaning m t)) (snd (meaning m t)))) n ip' ->
    walks mem m ip (Datatypes.S n) ip'.

(** The addresses that instruction counts are relative to.  Events say where execution is, or
    that tracing ended, or nothing. *)
Inductive mark := Marks | Clears | Keeps.
Definition marks (e : event) : mark :=
  let unless_sup := if ev_ip_suppressed e then Keeps else Marks in
  match ev_var e with
  | Ev_enabled _ _ => if ev_status_update e then Keeps else Marks
  | Ev_disabled _ | Ev_async_disabled _ _ => if ev_status_update e then Keeps else Clears
  | Ev_async_branch _ _ | Ev_exec_mode _ _ | Ev_tsx _ _ _ => Marks
  | Ev_overflow _ => if ev_ip_suppressed e then Clears else Marks
  | Ev_vmcs _ | Ev_async_vmcs _ _ | Ev_exstop _ | Ev_iflags _ _ | Ev_interrupt _ _ _ | Ev_smi _
  | Ev_init _ | Ev_vmexit _ _ _ _ | Ev_shutdown _ | Ev_uintr _ _ | Ev_trig _ _ _ _ => unless_sup
  | _ => Keeps
  end.
