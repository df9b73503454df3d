(** Execution flow: what it means that a sequence of instructions and events is the flow
    that a trace describes.

    The trace is a list of facts in the order of the trace: outcomes of conditional
    branches, targets of indirect branches, and events.  Memory gives the instructions.
    The specification knows nothing about how a decoder looks ahead. *)

From Coq Require Import List NArith ZArith Bool.
From Verif Require Import Base M_event M_asid M_ildtab M_ild M_insn S_x86 S_insn S_query S_evtrace.
Import ListNotations.
Open Scope N_scope.

(** What the user sees. *)
Inductive obs := O_insn (i : insn) | O_event (e : event).

(** An instruction in the flow: its address, length and meaning. *)
Record site := mk_site { si_ip : N; si_len : nat; si_class : iclass; si_ext : insn_ext }.

(** Events that an instruction causes while tracing is on.  An instruction causes at most one
    of each kind. *)
Inductive kind := K_paging | K_vmcs | K_ptwrite | K_iret | K_vmentry | K_uiret.

(** Where the flow is: whether tracing is on, the address, the execution mode, the address
    space, whether a transaction is executed, the return addresses of the calls (newest
    first), and the instruction that is being executed with the kinds of events that it
    caused so far. *)
Record flow := mk_flow {
  f_on : bool; f_ip : N; f_mode : exec_mode; f_asid : asid; f_spec : bool; f_calls : list N;
  f_cur : option (site * list kind) }.

Definition go (f : flow) (ip : N) : flow :=
  mk_flow (f_on f) ip (f_mode f) (f_asid f) (f_spec f) (f_calls f) (f_cur f).
Definition turn (f : flow) (on : bool) (ip : N) : flow :=
  mk_flow on ip (f_mode f) (f_asid f) (f_spec f) (f_calls f) (f_cur f).
Definition in_mode_ (f : flow) (m : exec_mode) : flow :=
  mk_flow (f_on f) (f_ip f) m (f_asid f) (f_spec f) (f_calls f) (f_cur f).
Definition in_space (f : flow) (a : asid) : flow :=
  mk_flow (f_on f) (f_ip f) (f_mode f) a (f_spec f) (f_calls f) (f_cur f).
Definition in_tx (f : flow) (b : bool) : flow :=
  mk_flow (f_on f) (f_ip f) (f_mode f) (f_asid f) b (f_calls f) (f_cur f).
Definition calls (f : flow) (l : list N) : flow :=
  mk_flow (f_on f) (f_ip f) (f_mode f) (f_asid f) (f_spec f) l (f_cur f).
Definition at_site (f : flow) (c : option (site * list kind)) : flow :=
  mk_flow (f_on f) (f_ip f) (f_mode f) (f_asid f) (f_spec f) (f_calls f) c.

(** ** Instructions *)

(** The user's instruction [i] describes the text [t] at the flow's address. *)
Definition insn_of (mem : asid -> memory) (f : flow) (t : x86) (i : insn) : Prop :=
  text_at (mem (f_asid f)) (f_mode f) (f_ip f) t /\
  in_ip i = f_ip f /\ in_mode i = f_mode f /\ in_speculative i = f_spec f /\
  in_size i = length (render t) /\ firstn (in_size i) (in_raw i) = render t /\
  in_iclass i = fst (meaning (f_mode f) t) /\
  exists b, mem (f_asid f) (f_ip f) = Some (b, in_isid i).
Definition site_of (f : flow) (t : x86) : site :=
  mk_site (f_ip f) (length (render t)) (fst (meaning (f_mode f) t)) (snd (meaning (f_mode f) t)).

Definition next_insn (s : site) : N := offset_ip (si_ip s) (si_len s).
Definition target (s : site) : N :=
  Z.to_N ((Z.of_N (si_ip s) + Z.of_nat (si_len s) + x_disp (si_ext s)) mod 2 ^ 64).
(** The target is part of the instruction and not in the trace. *)
Definition direct (s : site) : bool :=
  match x_inst (si_ext s) with PTI_JMPABS => false | _ => x_direct (si_ext s) end.
Definition far (c : iclass) : bool :=
  match c with ptic_far_call | ptic_far_return | ptic_far_jump => true | _ => false end.

(** The processor remembers 64 calls.  A call to the next instruction is not one of them. *)
Definition remember (s : site) (l : list N) : list N :=
  if x_direct (si_ext s) && Z.eqb (x_disp (si_ext s)) 0 then l else firstn 64 (next_insn s :: l).

(** The next target in the trace.  Outcomes of conditional branches before it may be left
    over. *)
Definition takes (fs : list fact) (a : N) (fs' : list fact) : Prop :=
  exists bits post, fs = map F_bit bits ++ F_tip (Some a) :: post /\ fs' = map F_bit bits ++ post.

(** Completing an instruction: the calls and the facts before; then the next address, the
    calls and the facts after. *)
Inductive leaves (s : site) : list N -> list fact -> N -> list N -> list fact -> Prop :=
| leave_other l fs : si_class s = ptic_other \/ si_class s = ptic_ptwrite ->
    leaves s l fs (next_insn s) l fs
| leave_cond (b : bool) l fs : si_class s = ptic_cond_jump ->
    leaves s l (F_bit b :: fs) (if b then target s else next_insn s) l fs
| leave_jump l fs : si_class s = ptic_jump -> direct s = true ->
    leaves s l fs (target s) l fs
| leave_call l fs : si_class s = ptic_call -> direct s = true ->
    leaves s l fs (target s) (remember s l) fs
| leave_compressed a l fs : si_class s = ptic_return ->
    leaves s (a :: l) (F_bit true :: fs) a l fs
| leave_return a l fs : si_class s = ptic_return ->
    leaves s l (F_tip (Some a) :: fs) a l fs
| leave_icall a l fs fs' : si_class s = ptic_call -> direct s = false -> takes fs a fs' ->
    leaves s l fs a (remember s l) fs'
| leave_indirect a l fs fs' :
    (si_class s = ptic_jump /\ direct s = false) \/ si_class s = ptic_indirect \/
    far (si_class s) = true -> takes fs a fs' ->
    leaves s l fs a l fs'.
(** A branch that needs the trace. *)
Definition traced (s : site) : Prop :=
  match si_class s with
  | ptic_other | ptic_ptwrite | ptic_unknown => False
  | ptic_jump | ptic_call => direct s = false
  | _ => True
  end.

(** ** Events *)

(** The kind of event that an instruction causes. *)
Definition kind_of (e : event) : option kind :=
  match ev_var e with
  | Ev_paging _ _ => Some K_paging
  | Ev_vmcs _ => Some K_vmcs
  | Ev_ptwrite _ _ _ => Some K_ptwrite
  | Ev_iret _ => Some K_iret
  | Ev_vmentry _ => Some K_vmentry
  | Ev_uiret _ => Some K_uiret
  | _ => None
  end.

(** The instruction causes the event: it is the one at the event's address, or, if there is
    no address, an instruction that causes such events. *)
Definition causes (s : site) (e : event) : bool :=
  let at_ ip ok := if ev_ip_suppressed e then ok else si_ip s =? ip in
  match ev_var e with
  | Ev_paging _ _ =>
      match x_inst (si_ext s) with
      | PTI_MOV_CR3 | PTI_VMLAUNCH | PTI_VMRESUME => true
      | _ => far (si_class s)
      end
  | Ev_vmcs _ =>
      match x_inst (si_ext s) with
      | PTI_VMPTRLD | PTI_VMLAUNCH | PTI_VMRESUME => true
      | _ => far (si_class s)
      end
  | Ev_ptwrite ip _ _ =>
      at_ ip (match si_class s with ptic_ptwrite => true | _ => false end)
  | Ev_iret ip =>
      at_ ip (match x_inst (si_ext s) with
              | PTI_IRET | PTI_SYSRET | PTI_SYSEXIT | PTI_ERETS | PTI_ERETU => true
              | _ => false
              end)
  | Ev_vmentry ip =>
      at_ ip (match x_inst (si_ext s) with PTI_VMLAUNCH | PTI_VMRESUME => true | _ => false end)
  | Ev_uiret ip => at_ ip (match x_inst (si_ext s) with PTI_UIRET => true | _ => false end)
  | _ => false
  end.

(** Tracing ends with this instruction.  With an address, it is a branch and, if its target
    is known, goes to that address; otherwise it leaves the privilege level or the
    address space. *)
Definition disables (s : site) (e : event) : bool :=
  match ev_var e with
  | Ev_disabled ip =>
      negb (ev_status_update e) &&
      if ev_ip_suppressed e then
        match x_inst (si_ext s) with
        | PTI_INT | PTI_INT3 | PTI_INT1 | PTI_INTO | PTI_IRET | PTI_SYSCALL | PTI_SYSENTER
        | PTI_SYSEXIT | PTI_SYSRET | PTI_MOV_CR3 => true
        | _ => far (si_class s)
        end
      else
        match si_class s with
        | ptic_other | ptic_ptwrite | ptic_unknown => false
        | ptic_jump | ptic_call => if direct s then target s =? ip else true
        | _ => true
        end
  | _ => false
  end.

(** Where tracing is expected to resume. *)
Definition resume (s : site) : N :=
  match si_class s with
  | ptic_other | ptic_ptwrite => next_insn s
  | ptic_jump => if direct s then target s else 0
  | ptic_call => if x_direct (si_ext s) then target s else next_insn s
  | ptic_far_call => next_insn s
  | _ => 0
  end.

(** Between instructions: events with an address wait for it, some only while tracing is
    on; events that instructions cause can only be there while tracing is off. *)
Definition located (f : flow) (e : event) : bool :=
  let here ip := f_ip f =? ip in
  let maybe ip := ev_ip_suppressed e || here ip in
  match ev_var e with
  | Ev_disabled _ => ev_status_update e
  | Ev_async_disabled at_ _ => here at_
  | Ev_async_branch from _ => here from
  | Ev_tsx ip _ _ | Ev_async_paging _ _ ip | Ev_async_vmcs _ ip => maybe ip
  | Ev_exec_mode _ ip | Ev_exstop ip | Ev_mwait ip _ _ | Ev_iflags _ ip | Ev_interrupt _ _ ip
  | Ev_smi ip | Ev_init ip | Ev_vmexit _ _ _ ip | Ev_shutdown ip | Ev_uintr _ ip =>
      negb (f_on f) || maybe ip
  | Ev_paging _ _ | Ev_vmcs _ | Ev_ptwrite _ _ _ | Ev_iret _ | Ev_vmentry _ | Ev_uiret _ =>
      negb (f_on f)
  | Ev_trig _ _ _ _ => ev_ip_suppressed e
  | Ev_tip _ | Ev_tnt _ _ => false
  | _ => true
  end.

(** What an event does to the flow; [None] if it contradicts the flow. *)
Definition effect (f : flow) (e : event) : option flow :=
  let su := ev_status_update e in
  let sup := ev_ip_suppressed e in
  match ev_var e with
  | Ev_enabled ip _ =>
      if su then (if f_on f then Some f else None)
      else if sup || f_on f then None else Some (turn f true ip)
  | Ev_disabled _ | Ev_async_disabled _ _ =>
      if su then (if f_on f then None else Some f)
      else if f_on f then Some (turn f false (f_ip f)) else None
  | Ev_async_branch _ to => if su || negb (f_on f) then None else Some (go f to)
  | Ev_paging cr3 _ | Ev_async_paging cr3 _ _ =>
      Some (in_space f (mk_asid cr3 (as_vmcs (f_asid f))))
  | Ev_vmcs base | Ev_async_vmcs base _ =>
      Some (in_space f (mk_asid (as_cr3 (f_asid f)) base))
  | Ev_overflow ip =>
      if su then None
      else Some (in_tx (if sup then turn f false 0 else turn f true ip) false)
  | Ev_exec_mode m _ =>
      match f_mode f with
      | ptem_unknown => Some (in_mode_ f m)
      | m' => if su && f_on f && negb (exec_mode_eqb m' m) then None else Some (in_mode_ f m)
      end
  | Ev_tsx _ spec _ => Some (in_tx f spec)
  | Ev_stop => if su || f_on f then None else Some f
  | Ev_rsm | Ev_sipi _ | Ev_trig _ _ _ _ => if sup then Some f else None
  | Ev_tip _ | Ev_tnt _ _ => None
  | _ => Some f
  end.

(** The event as the user sees it: whether tracing resumes where it was expected to. *)
Definition shown (f : flow) (e : event) : event :=
  match ev_var e with
  | Ev_enabled ip r => set_var e (Ev_enabled ip (r || (f_ip f =? ip)))
  | _ => e
  end.

(** ** The flow of a trace *)

Definition is_tick (e : event) : bool := match ev_var e with Ev_tick _ => true | _ => false end.

(** A flow with an event that was taken from the trace but did not happen yet, and the rest
    of the trace. *)
Record fstate := mk_fstate { fs_flow : flow; fs_held : option event; fs_facts : list fact }.

(** The event that is next, if any, is not one of [now].  Without an event there is more in
    the trace; if there is not, the trace ends properly: behind an error nothing is known. *)
Definition quiet (err : pte) (now : event -> Prop) (h : option event) (fs : list fact) : Prop :=
  match h, fs with
  | Some e, _ => ~ now e
  | None, F_event _ :: _ => False
  | None, [] => err = pte_eos
  | None, _ => True
  end.
(** The event belongs to the instruction. *)
Definition binds (s : site) (ks : list kind) (e : event) : Prop :=
  disables s e = true \/ exists k, kind_of e = Some k /\ ~ In k ks /\ causes s e = true.

(** [ticks]: changes of time are shown at branches that need the trace.  [err]: the error that
    ends the trace. *)
Inductive fstep (mem : asid -> memory) (ticks : bool) (err : pte) : fstate -> list obs -> fstate -> Prop :=
| fs_take f e fs :
    fstep mem ticks err (mk_fstate f None (F_event e :: fs)) [] (mk_fstate f (Some e) fs)
| fs_insn f h fs t i :
    f_on f = true -> f_cur f = None -> f_mode f <> ptem_unknown ->
    quiet err (fun e => located f e = true) h fs -> insn_of mem f t i ->
    fstep mem ticks err (mk_fstate f h fs) [O_insn i]
      (mk_fstate (at_site f (Some (site_of f t, []))) h fs)
| fs_cause f s ks k e f' fs :
    f_on f = true -> f_cur f = Some (s, ks) -> kind_of e = Some k -> ~ In k ks ->
    causes s e = true -> effect f e = Some f' ->
    fstep mem ticks err (mk_fstate f (Some e) fs) [O_event e]
      (mk_fstate (at_site f' (Some (s, k :: ks))) None fs)
| fs_disable f s ks e fs :
    f_on f = true -> f_cur f = Some (s, ks) -> disables s e = true ->
    fstep mem ticks err (mk_fstate f (Some e) fs) [O_event e]
      (mk_fstate (at_site (turn f false (resume s)) None) None fs)
| fs_leave f s ks h fs ip l fs' h' :
    f_on f = true -> f_cur f = Some (s, ks) -> quiet err (binds s ks) h fs ->
    leaves s (f_calls f) fs ip l fs' ->
    h' = h \/ (ticks = true /\ traced s /\ h = None /\ exists e, h' = Some e /\ is_tick e = true) ->
    fstep mem ticks err (mk_fstate f h fs) []
      (mk_fstate (at_site (go (calls f l) ip) None) h' fs')
| fs_event f e f' fs :
    f_cur f = None -> located f e = true -> effect f e = Some f' ->
    fstep mem ticks err (mk_fstate f (Some e) fs) [O_event (shown f e)] (mk_fstate f' None fs).

Inductive flows (mem : asid -> memory) (ticks : bool) (err : pte) : fstate -> list obs -> fstate -> Prop :=
| flows_nil s : flows mem ticks err s [] s
| flows_cons s o s1 os s' : fstep mem ticks err s o s1 -> flows mem ticks err s1 os s' ->
    flows mem ticks err s (o ++ os) s'.

(** At the beginning nothing is known but the address, if tracing is on. *)
Definition flow0 (ip : option N) : flow :=
  mk_flow (match ip with Some _ => true | None => false end)
          (match ip with Some a => a | None => 0 end) ptem_unknown pt_asid_init false [] None.

(** ** Runs to the end *)

(** No outcome of a conditional branch is left over when an indirect branch takes its target
    from the trace. *)
Definition orderly (s : fstate) : Prop :=
  match f_cur (fs_flow s), fs_facts s with
  | Some (si, _), F_bit _ :: _ =>
      match si_class si with
      | ptic_jump | ptic_call => direct si = true
      | ptic_indirect => False
      | c => far c = false
      end
  | _, _ => True
  end.
(** A flow without left-over outcomes. *)
Inductive orderly_flows (mem : asid -> memory) (err : pte) : fstate -> list obs -> fstate -> Prop :=
| of_nil s : orderly_flows mem err s [] s
| of_cons s o s1 os s' : orderly s -> fstep mem false err s o s1 -> orderly_flows mem err s1 os s' ->
    orderly_flows mem err s (o ++ os) s'.
(** The flow cannot go on. *)
Definition no_step (mem : asid -> memory) (ticks : bool) (err : pte) (s : fstate) : Prop :=
  forall o s', fstep mem ticks err s o s' -> ~ orderly s.

(** Instructions that are the same up to unused bytes of the text and the truncated flag. *)
Definition same_obs (o o' : obs) : Prop :=
  match o, o' with
  | O_insn i, O_insn i' =>
      in_ip i = in_ip i' /\ in_mode i = in_mode i' /\ in_speculative i = in_speculative i' /\
      in_size i = in_size i' /\ firstn (in_size i) (in_raw i) = firstn (in_size i') (in_raw i') /\
      in_iclass i = in_iclass i' /\ in_isid i = in_isid i'
  | O_event e, O_event e' => e = e'
  | _, _ => False
  end.
