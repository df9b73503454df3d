(** Where the block decoder and the instruction flow decoder are meant to show the same. *)

From Coq Require Import List NArith Bool.
From Verif Require Import Base M_event M_asid M_ildtab M_ild M_insn M_blk S_x86 S_insn S_query S_flow S_drive S_blk.
Import ListNotations.
Open Scope N_scope.

(** [stops e ip]: tracing ends; [ip] is the address of the event unless it is suppressed. *)
Definition stops (e : event) (ip : N) : Prop := ev_var e = Ev_disabled ip /\ ev_status_update e = false.

(** States in which the two decoders are known to go different ways. *)
Inductive odd : fstate -> Prop :=
(** Tracing ends without an address at an instruction that does not leave the privilege level:
    the block decoder ends at every branch that needs the trace, *)
| odd_near s si ks e ip : f_cur (fs_flow s) = Some (si, ks) -> fs_held s = Some e -> stops e ip ->
    ev_ip_suppressed e = true -> ends si e <> disables si e -> odd s
(** tracing ends with a change of the address space: the decoders expect it to resume at
    different addresses, *)
| odd_cr3 s si ks e ip : f_cur (fs_flow s) = Some (si, ks) -> fs_held s = Some e -> stops e ip ->
    ev_ip_suppressed e = true -> moves_cr3 si = true -> odd s
(** tracing ends with a call: only the block decoder remembers it, *)
| odd_call s si ks e : f_cur (fs_flow s) = Some (si, ks) -> fs_held s = Some e -> disables si e = true ->
    si_class si = ptic_call -> odd s
(** tracing ends between two instructions: only the block decoder goes on, *)
| odd_next s si ks e ip : f_cur (fs_flow s) = Some (si, ks) -> fs_held s = Some e -> stops e ip ->
    ev_ip_suppressed e = false -> si_class si = ptic_other \/ si_class si = ptic_ptwrite ->
    next_insn si = ip -> odd s
| odd_here s e ip fs : f_on (fs_flow s) = true -> f_cur (fs_flow s) = None -> fs_held s = None ->
    fs_facts s = F_event e :: fs -> stops e ip -> ev_ip_suppressed e = false -> f_ip (fs_flow s) = ip -> odd s
(** and an instruction causes an event that comes with its address after another one: the block
    decoder looks for the next instruction at that address. *)
| odd_second s si ks e k : f_cur (fs_flow s) = Some (si, ks) -> fs_held s = Some e -> ks <> [] ->
    kind_of e = Some k -> ~ In k ks -> causes si e = true -> also_causes si ks e = false -> odd s.

(** No flow of the block decoder gets there. *)
Definition regular (mem : asid -> memory) (err : pte) (s : fstate) : Prop :=
  forall os s', bflows mem err s os s' -> ~ odd s'.
(** No outcome of a conditional branch is left over at an indirect branch. *)
Definition used_up (mem : asid -> memory) (err : pte) (s : fstate) : Prop :=
  forall os s', bflows mem err s os s' -> orderly s'.

(** The instructions and events that blocks and events stand for. *)
Inductive unfolded (mem : asid -> memory) : list bobs -> list obs -> Prop :=
| un_nil : unfolded mem [] []
| un_block b st is a bs os : expands (mem a) b is ->
    (b_iclass b = ptic_unknown -> is = [] \/ 65280 < b_ninsn b) ->
    unfolded mem bs os -> unfolded mem (B_block b st :: bs) (map O_insn is ++ os)
(** On errors, the block may count an instruction that cannot be decoded. *)
| un_last b is a : expands (mem a) b is \/ b_ninsn b = N.of_nat (length is) + 1 ->
    unfolded mem [B_last b] (map O_insn is)
| un_event e bs os : unfolded mem bs os -> unfolded mem (B_event e :: bs) (O_event e :: os).
