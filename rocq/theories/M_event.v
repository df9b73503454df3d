(** Events: struct pt_event, /repo/libipt/include/intel-pt.h.in:1283-1926. *)

From Verif Require Import Base.
From Coq Require Import NArith.
Open Scope N_scope.

(** enum pt_exec_mode, intel-pt.h.in:648-653, and pt_get_exec_mode(), intel-pt.h.in:696-703. *)
Inductive exec_mode := ptem_unknown | ptem_16bit | ptem_32bit | ptem_64bit.

Definition pt_get_exec_mode (csl csd : bool) : exec_mode :=
  if csl then (if csd then ptem_unknown else ptem_64bit)
  else (if csd then ptem_32bit else ptem_16bit).

(** enum pt_event_type and the variant of struct pt_event.  [Ev_tick] is also the
    internal ptev_ignore (internal/include/pt_event_decoder.h). Optional fields
    (has_cr2, has_vector, ...) are options.  *)
Inductive evar :=
| Ev_enabled (ip : N) (resumed : bool)
| Ev_disabled (ip : N)
| Ev_async_disabled (at_ ip : N)
| Ev_async_branch (from to : N)
| Ev_paging (cr3 : N) (nr : bool)
| Ev_async_paging (cr3 : N) (nr : bool) (ip : N)
| Ev_overflow (ip : N)
| Ev_exec_mode (mode : exec_mode) (ip : N)
| Ev_tsx (ip : N) (speculative aborted : bool)
| Ev_stop
| Ev_vmcs (base : N)
| Ev_async_vmcs (base ip : N)
| Ev_exstop (ip : N)
| Ev_mwait (ip hints ext : N)
| Ev_pwre (state sub_state : N) (hw : bool)
| Ev_pwrx (last deepest : N) (interrupt store autonomous : bool)
| Ev_ptwrite (ip size payload : N)
| Ev_tick (ip : N)
| Ev_cbr (ratio : N)
| Ev_mnt (payload : N)
| Ev_tip (ip : N)
| Ev_tnt (bits size : N)
| Ev_iflags (iflag : bool) (ip : N)
| Ev_interrupt (vector : N) (cr2 : option N) (ip : N)
| Ev_iret (ip : N)
| Ev_smi (ip : N)
| Ev_rsm
| Ev_sipi (vector : N)
| Ev_init (ip : N)
| Ev_vmentry (ip : N)
| Ev_vmexit (vector vmxr vmxq : option N) (ip : N)
| Ev_shutdown (ip : N)
| Ev_uintr (vector : N) (ip : N)
| Ev_uiret (ip : N)
| Ev_trig (trbv icnt ip : N) (mult : bool).

Record event := mk_event {
  ev_var : evar;
  ev_status_update : bool;
  ev_ip_suppressed : bool;
  ev_has_tsc : bool;
  ev_tsc : N;
  ev_lost_mtc : N;
  ev_lost_cyc : N }.

(** A cleared event with its type and variant filled in. *)
Definition new_event (v : evar) : event := mk_event v false false false 0 0 0.

(** An all-zero event; its type is ptev_enabled (zero). *)
Definition zero_event : event := new_event (Ev_enabled 0 false).

Definition set_var (e : event) (v : evar) : event :=
  mk_event v (ev_status_update e) (ev_ip_suppressed e) (ev_has_tsc e) (ev_tsc e)
           (ev_lost_mtc e) (ev_lost_cyc e).
Definition set_suppressed (e : event) (b : bool) : event :=
  mk_event (ev_var e) (ev_status_update e) b (ev_has_tsc e) (ev_tsc e)
           (ev_lost_mtc e) (ev_lost_cyc e).
Definition set_status_update (e : event) : event :=
  mk_event (ev_var e) true (ev_ip_suppressed e) (ev_has_tsc e) (ev_tsc e)
           (ev_lost_mtc e) (ev_lost_cyc e).

(** Write the field that holds the IP an event binds to. *)
Definition var_set_ip (v : evar) (ip : N) : evar :=
  match v with
  | Ev_enabled _ r => Ev_enabled ip r
  | Ev_disabled _ => Ev_disabled ip
  | Ev_async_disabled a _ => Ev_async_disabled a ip
  | Ev_async_branch f _ => Ev_async_branch f ip
  | Ev_async_paging c n _ => Ev_async_paging c n ip
  | Ev_overflow _ => Ev_overflow ip
  | Ev_exec_mode m _ => Ev_exec_mode m ip
  | Ev_tsx _ s a => Ev_tsx ip s a
  | Ev_async_vmcs b _ => Ev_async_vmcs b ip
  | Ev_exstop _ => Ev_exstop ip
  | Ev_mwait _ h e => Ev_mwait ip h e
  | Ev_ptwrite _ s p => Ev_ptwrite ip s p
  | Ev_tick _ => Ev_tick ip
  | Ev_tip _ => Ev_tip ip
  | Ev_iflags f _ => Ev_iflags f ip
  | Ev_interrupt v c _ => Ev_interrupt v c ip
  | Ev_iret _ => Ev_iret ip
  | Ev_smi _ => Ev_smi ip
  | Ev_init _ => Ev_init ip
  | Ev_vmentry _ => Ev_vmentry ip
  | Ev_vmexit v r q _ => Ev_vmexit v r q ip
  | Ev_shutdown _ => Ev_shutdown ip
  | Ev_uintr v _ => Ev_uintr v ip
  | Ev_uiret _ => Ev_uiret ip
  | Ev_trig t i _ m => Ev_trig t i ip m
  | v => v
  end.
