(** The event decoder: /repo/libipt/src/pt_event_decoder.c.

    The decoder state is [evdec]; the functions are state transformers that keep the
    changed state also when they return an error, since the user may go on.  A
    packet decode function returns [true] for 1 ("further packets are needed") and
    [false] for 0 ("an event was created").

    Loops that read packets take their fuel from the length of the trace; running
    out of fuel is the outcome [UB ub_fuel].

    Simplifications: null-pointer checks are left out.  The IP field of an event
    whose IP is suppressed has no meaning; it is zero here where the C code may
    leave older bytes of the union. *)

From Verif Require Import Base M_packet M_config M_pktdec M_sync M_lastip M_time
  M_evq M_event.
From Coq Require Import List NArith Bool.
Import ListNotations.
Open Scope N_scope.

(** enum pt_event_binding, internal/include/pt_event_queue.h:39-46. *)
Definition evb_psbend : N := 1.
Definition evb_tip : N := 2.
Definition evb_fup : N := 4.
Definition evb_fup_bound : N := 8.
Definition evb_exstop : N := 16.
Definition evb_cfe : N := 32.
Definition evb_all : N := 0xffffffff.

(** A pointer to an event: the standalone event or a slot of the queue. *)
Inductive evptr := Alone | Slot (i : nat).

(** The execution mode last seen: mode_exec_valid, iflag, csd, csl. *)
Record mode_state := mk_mode {
  ms_valid : bool; ms_iflag : bool; ms_csd : bool; ms_csl : bool }.

(** struct pt_event_decoder, internal/include/pt_event_decoder.h:44-106.  The
    configuration is that of the packet decoder; the flags are part of it.
    [ed_status] is [None] for zero. *)
Record evdec := mk_evdec {
  ed_pd : pktdec;
  ed_pkt : packet;
  ed_ip : last_ip;
  ed_time : time;
  ed_tcal : tcal;
  ed_evq : evq event;
  ed_alone : event;
  ed_event : option evptr;
  ed_status : option pte;
  ed_mode : mode_state;
  ed_enabled : bool;
  ed_bound : bool }.

Definition ed_config (d : evdec) : config := pd_config (ed_pd d).

Definition set_pd d x := mk_evdec x (ed_pkt d) (ed_ip d) (ed_time d) (ed_tcal d)
  (ed_evq d) (ed_alone d) (ed_event d) (ed_status d) (ed_mode d) (ed_enabled d) (ed_bound d).
Definition set_pkt d x := mk_evdec (ed_pd d) x (ed_ip d) (ed_time d) (ed_tcal d)
  (ed_evq d) (ed_alone d) (ed_event d) (ed_status d) (ed_mode d) (ed_enabled d) (ed_bound d).
Definition set_lip d x := mk_evdec (ed_pd d) (ed_pkt d) x (ed_time d) (ed_tcal d)
  (ed_evq d) (ed_alone d) (ed_event d) (ed_status d) (ed_mode d) (ed_enabled d) (ed_bound d).
Definition set_time d x := mk_evdec (ed_pd d) (ed_pkt d) (ed_ip d) x (ed_tcal d)
  (ed_evq d) (ed_alone d) (ed_event d) (ed_status d) (ed_mode d) (ed_enabled d) (ed_bound d).
Definition set_tcal d x := mk_evdec (ed_pd d) (ed_pkt d) (ed_ip d) (ed_time d) x
  (ed_evq d) (ed_alone d) (ed_event d) (ed_status d) (ed_mode d) (ed_enabled d) (ed_bound d).
Definition set_evq d x := mk_evdec (ed_pd d) (ed_pkt d) (ed_ip d) (ed_time d) (ed_tcal d)
  x (ed_alone d) (ed_event d) (ed_status d) (ed_mode d) (ed_enabled d) (ed_bound d).
Definition set_alone d x := mk_evdec (ed_pd d) (ed_pkt d) (ed_ip d) (ed_time d) (ed_tcal d)
  (ed_evq d) x (ed_event d) (ed_status d) (ed_mode d) (ed_enabled d) (ed_bound d).
Definition set_event d x := mk_evdec (ed_pd d) (ed_pkt d) (ed_ip d) (ed_time d) (ed_tcal d)
  (ed_evq d) (ed_alone d) x (ed_status d) (ed_mode d) (ed_enabled d) (ed_bound d).
Definition set_status d x := mk_evdec (ed_pd d) (ed_pkt d) (ed_ip d) (ed_time d) (ed_tcal d)
  (ed_evq d) (ed_alone d) (ed_event d) x (ed_mode d) (ed_enabled d) (ed_bound d).
Definition set_mode d x := mk_evdec (ed_pd d) (ed_pkt d) (ed_ip d) (ed_time d) (ed_tcal d)
  (ed_evq d) (ed_alone d) (ed_event d) (ed_status d) x (ed_enabled d) (ed_bound d).
Definition set_enabled d x := mk_evdec (ed_pd d) (ed_pkt d) (ed_ip d) (ed_time d) (ed_tcal d)
  (ed_evq d) (ed_alone d) (ed_event d) (ed_status d) (ed_mode d) x (ed_bound d).
Definition set_bound d x := mk_evdec (ed_pd d) (ed_pkt d) (ed_ip d) (ed_time d) (ed_tcal d)
  (ed_evq d) (ed_alone d) (ed_event d) (ed_status d) (ed_mode d) (ed_enabled d) x.

(** State transformers. *)
Definition ST (A : Type) := evdec -> evdec * res A.
Definition ret {A} (a : A) : ST A := fun d => (d, Ok a).
Definition fail {A} (e : pte) : ST A := fun d => (d, Err e).
Definition lift {A} (r : res A) : ST A := fun d => (d, r).
Definition get : ST evdec := fun d => (d, Ok d).
Definition modify (f : evdec -> evdec) : ST unit := fun d => (f d, Ok tt).
Definition sbind {A B} (m : ST A) (k : A -> ST B) : ST B := fun d =>
  match m d with
  | (d', Ok a) => k a d'
  | (d', Err e) => (d', Err e)
  | (d', UB u) => (d', UB u)
  end.

Declare Scope st_scope.
Delimit Scope st_scope with st.
Notation "'do' x <- m ; k" := (sbind m (fun x => k))
  (at level 200, x pattern, m at level 100, k at level 200) : st_scope.
Notation "'run' m ; k" := (sbind m (fun _ => k))
  (at level 200, m at level 100, k at level 200) : st_scope.
Open Scope st_scope.

(** A packet decoder that reads until [step] ends the search; the pattern of all
    scan-ahead loops: pt_event_decoder.c:237-271, 598-638, 900-954, 2189-2486,
    2516-2624 and 2662-2745. *)
Fixpoint scan_packets {S R : Type} (fuel : nat)
         (step : S -> pktdec -> packet -> S + res R) (on_err : pte -> res R)
         (pd : pktdec) (s : S) : res R :=
  match fuel with
  | O => UB ub_fuel
  | S fuel' =>
      match pt_pkt_next pd with
      | (pd', Ok p) =>
          match step s pd' p with
          | inl s' => scan_packets fuel' step on_err pd' s'
          | inr r => r
          end
      | (_, Err e) => on_err e
      | (_, UB u) => UB u
      end
  end.

(** More packets than bytes cannot follow, unless they have no bytes. *)
Definition scan_fuel (pd : pktdec) : nat := S (length (pd_buf pd)).

(** pt_evt_reset(), pt_event_decoder.c:53-71. *)
Definition pt_evt_reset (d : evdec) : evdec :=
  mk_evdec (ed_pd d) (mk_packet P_invalid (pkt_size (ed_pkt d))) pt_last_ip_init
           pt_time_init pt_tcal_init (pt_evq_init zero_event) zero_event None
           (Some pte_nosync)
           (mk_mode false (ms_iflag (ed_mode d)) (ms_csd (ed_mode d)) (ms_csl (ed_mode d)))
           false false.

(** pt_evt_decoder_init(), pt_event_decoder.c:73-99, on a valid configuration.  The
    fields that stay indeterminate are not used before they are set. *)
Definition pt_evt_decoder_init (cf : config) (buf : list N) : evdec :=
  pt_evt_reset
    (mk_evdec (pt_pkt_decoder_init cf buf) (mk_packet P_invalid 0) pt_last_ip_init
              pt_time_init pt_tcal_init (pt_evq_init zero_event) zero_event None None
              (mk_mode false false false false) false false).

(** The loop of pt_evt_fetch_packet(), pt_event_decoder.c:157-168. *)
Fixpoint fetch_loop (fuel : nat) (pd : pktdec) : pktdec * res packet :=
  match fuel with
  | O => (pd, UB ub_fuel)
  | S fuel' =>
      match pt_pkt_next pd with
      | (pd', Ok p) =>
          match pkt_pl p with
          | P_pad => fetch_loop fuel' pd'
          | _ => (pd', Ok p)
          end
      | r => r
      end
  end.

(** pt_evt_fetch_packet(), pt_event_decoder.c:146-171; returns 0. *)
Definition pt_evt_fetch_packet : ST bool := fun d =>
  match fetch_loop (scan_fuel (ed_pd d)) (ed_pd d) with
  | (pd, Ok p) => (set_pkt (set_pd d pd) p, Ok false)
  | (pd, Err e) =>
      (set_status (set_pkt (set_pd d pd) (mk_packet P_invalid 0)) (Some e), Ok false)
  | (pd, UB u) => (set_pd d pd, UB u)
  end.

(** pt_evt_event_time(), pt_event_decoder.c:173-189. *)
Definition event_time (t : time) (e : event) : event :=
  let '(tsc, lost_mtc, lost_cyc, r) := pt_time_query_tsc t in
  mk_event (ev_var e) (ev_status_update e) (ev_ip_suppressed e)
           (ev_has_tsc e || is_ok r) tsc lost_mtc lost_cyc.

(** pt_evt_event_ip(), pt_event_decoder.c:191-213. *)
Definition event_ip (l : last_ip) (e : event) : event :=
  match pt_last_ip_query l with
  | Ok ip => set_var e (var_set_ip (ev_var e) ip)
  | _ => set_suppressed (set_var e (var_set_ip (ev_var e) 0)) true
  end.

(** Queue access.  pt_evq_enqueue() and filling in the new event. *)
Definition enqueue (evb : N) (e : event) : ST unit := fun d =>
  match pt_evq_enqueue (ed_evq d) evb e with
  | Some q => (set_evq d q, Ok tt)
  | None => (d, Err pte_nomem)
  end.

Definition dequeue (evb : N) : ST (option nat) := fun d =>
  let (q, o) := pt_evq_dequeue (ed_evq d) evb in (set_evq d q, Ok o).

Definition evq_put (q : evq event) (i : nat) (e : event) : evq event :=
  match nth_error (evq_queue q) i with
  | Some en => mk_evq (set_at (evq_queue q) i (mk_entry e (en_binding en)))
                      (evq_begin q) (evq_end q)
  | None => q
  end.

(** Read and write through an event pointer. *)
Definition read_event (p : evptr) : ST event := fun d =>
  match p with
  | Alone => (d, Ok (ed_alone d))
  | Slot i => match evq_at (ed_evq d) i with
              | Some e => (d, Ok e)
              | None => (d, UB ub_oob_read)
              end
  end.
Definition write_event (p : evptr) (e : event) : ST unit := fun d =>
  match p with
  | Alone => (set_alone d e, Ok tt)
  | Slot i => match evq_at (ed_evq d) i with
              | Some _ => (set_evq d (evq_put (ed_evq d) i e), Ok tt)
              | None => (d, UB ub_oob_write)
              end
  end.

(** [decoder->event = ev]. *)
Definition publish (p : option evptr) : ST unit := modify (fun d => set_event d p).

(** pt_evq_requeue(), pt_event_queue.c:176-190, for any event pointer, and the same
    steps at pt_event_decoder.c:1101-1106 and 970-974. *)
Definition requeue (p : evptr) (evb : N) : ST unit := fun d =>
  match p with
  | Alone => enqueue evb (ed_alone d) d
  | Slot i => match pt_evq_requeue zero_event (ed_evq d) i evb with
              | Some q => (set_evq d q, Ok tt)
              | None => (d, Err pte_nomem)
              end
  end.

(** [decoder->event = ev = pt_evq_standalone()], pt_event_queue.c:67-73, filling in
    the event, setting its time and fetching the next packet. *)
Definition standalone (e : event) : ST unit := fun d =>
  (set_event (set_alone d e) (Some Alone), Ok tt).
Definition standalone_now (e : event) : ST bool :=
  do d <- get;
  run standalone (event_time (ed_time d) e);
  pt_evt_fetch_packet.

(** [ptev_*] type tests used with pt_evq_find(). *)
Definition is_async_branch (e : event) : bool :=
  match ev_var e with Ev_async_branch _ _ => true | _ => false end.
Definition is_async_paging (e : event) : bool :=
  match ev_var e with Ev_async_paging _ _ _ => true | _ => false end.

(** pt_evt_find_header_fup(), pt_event_decoder.c:228-272. [Ok (Some ip)] is 1. *)
Definition find_header_fup_step (_ : unit) (_ : pktdec) (p : packet)
  : unit + res (option packet_ip) :=
  match pkt_pl p with
  | P_fup ip => inr (Ok (Some ip))
  | P_mode _ | P_pip _ _ | P_vmcs _ | P_mnt _ | P_tsc _ | P_cbr _ | P_tma _ _
  | P_mtc _ | P_cyc _ | P_pad | P_invalid => inl tt
  | P_psbend | P_ovf => inr (Ok None)
  | _ => inr (Err pte_bad_context)
  end.
Definition pt_evt_find_header_fup (pd : pktdec) : res (option packet_ip) :=
  scan_packets (scan_fuel pd) find_header_fup_step (fun e => Err e) pd tt.

(** Configuration errors are ignored, e.g. pt_event_decoder.c:285, 292. *)
Definition ignore_config (r : res unit) : res unit :=
  match r with Err pte_bad_config => Ok tt | r => r end.

(** First the calibration, then the time: the pattern of pt_evt_apply_*(). *)
Definition apply_timing (t : time) (cal : tcal * res unit)
           (upd : tcal -> time * res unit) : time * tcal * res unit :=
  let (l, r) := cal in
  match ignore_config r with
  | Ok _ => let (t', r') := upd l in (t', l, ignore_config r')
  | r => (t, l, r)
  end.

(** pt_evt_apply_header_tsc(), pt_event_decoder.c:274-296. *)
Definition pt_evt_apply_header_tsc (t : time) (l : tcal) (tsc : N) :=
  apply_timing t (pt_tcal_header_tsc l tsc) (fun _ => pt_time_update_tsc t tsc).
(** pt_evt_apply_tsc(), pt_event_decoder.c:305-326. *)
Definition pt_evt_apply_tsc (t : time) (l : tcal) (tsc : N) :=
  apply_timing t (pt_tcal_update_tsc l tsc) (fun _ => pt_time_update_tsc t tsc).
(** pt_evt_apply_header_cbr(), pt_event_decoder.c:341-366. *)
Definition pt_evt_apply_header_cbr (c : config) (t : time) (l : tcal) (ratio : N) :=
  apply_timing t (pt_tcal_header_cbr l ratio c) (fun _ => pt_time_update_cbr t ratio).
(** pt_evt_apply_cbr(), pt_event_decoder.c:393-417. *)
Definition pt_evt_apply_cbr (c : config) (t : time) (l : tcal) (ratio : N) :=
  apply_timing t (pt_tcal_update_cbr l ratio c) (fun _ => pt_time_update_cbr t ratio).
(** pt_evt_apply_tma(), pt_event_decoder.c:447-468. *)
Definition pt_evt_apply_tma (c : config) (t : time) (l : tcal) (ctc fc : N) :=
  apply_timing t (pt_tcal_update_tma l) (fun _ => pt_time_update_tma t ctc fc c).
(** pt_evt_apply_mtc(), pt_event_decoder.c:490-511. *)
Definition pt_evt_apply_mtc (c : config) (t : time) (l : tcal) (ctc : N) :=
  apply_timing t (pt_tcal_update_mtc l ctc c) (fun _ => pt_time_update_mtc t ctc c).
(** pt_evt_apply_cyc(), pt_event_decoder.c:533-568. *)
Definition pt_evt_apply_cyc (c : config) (t : time) (l : tcal) (value : N) :=
  apply_timing t (pt_tcal_update_cyc l value)
    (fun l => match pt_tcal_fcr l with
              | Ok fcr => pt_time_update_cyc t value c fcr
              | Err pte_no_time => pt_time_update_cyc t value c 0
              | Err e => (t, Err e)
              | UB u => (t, UB u)
              end).

(** Timing packets outside of PSB+; [None] for other packets. *)
Definition apply_time_packet (c : config) (t : time) (l : tcal) (p : payload)
  : option (time * tcal * res unit) :=
  match p with
  | P_tsc tsc => Some (pt_evt_apply_tsc t l tsc)
  | P_cbr ratio => Some (pt_evt_apply_cbr c t l ratio)
  | P_tma ctc fc => Some (pt_evt_apply_tma c t l ctc fc)
  | P_mtc ctc => Some (pt_evt_apply_mtc c t l ctc)
  | P_cyc v => Some (pt_evt_apply_cyc c t l v)
  | _ => None
  end.

Definition timing (f : config -> time -> tcal -> time * tcal * res unit) : ST unit := fun d =>
  let '(t, l, r) := f (ed_config d) (ed_time d) (ed_tcal d) in
  (set_tcal (set_time d t) l, r).

(** pt_evt_header_tsc(), pt_event_decoder.c:298-303. *)
Definition pt_evt_header_tsc (tsc : N) : ST unit :=
  timing (fun _ t l => pt_evt_apply_header_tsc t l tsc).
(** pt_evt_decode_tsc(), pt_event_decoder.c:328-339. *)
Definition pt_evt_decode_tsc (tsc : N) : ST bool :=
  run timing (fun _ t l => pt_evt_apply_tsc t l tsc); ret true.
(** pt_evt_header_cbr(), pt_event_decoder.c:368-391. *)
Definition pt_evt_header_cbr (ratio : N) : ST unit :=
  run timing (fun c t l => pt_evt_apply_header_cbr c t l ratio);
  enqueue evb_psbend (set_status_update (new_event (Ev_cbr ratio))).
(** pt_evt_decode_cbr(), pt_event_decoder.c:419-445. *)
Definition pt_evt_decode_cbr (ratio : N) : ST bool :=
  run timing (fun c t l => pt_evt_apply_cbr c t l ratio);
  standalone_now (new_event (Ev_cbr ratio)).
(** pt_evt_header_tma(), pt_evt_decode_tma(), pt_event_decoder.c:470-488. *)
Definition pt_evt_header_tma (ctc fc : N) : ST unit :=
  timing (fun c t l => pt_evt_apply_tma c t l ctc fc).
Definition pt_evt_decode_tma (ctc fc : N) : ST bool :=
  run timing (fun c t l => pt_evt_apply_tma c t l ctc fc); ret true.
(** pt_evt_header_mtc(), pt_evt_decode_mtc(), pt_event_decoder.c:513-531. *)
Definition pt_evt_header_mtc (ctc : N) : ST unit :=
  timing (fun c t l => pt_evt_apply_mtc c t l ctc).
Definition pt_evt_decode_mtc (ctc : N) : ST bool :=
  run timing (fun c t l => pt_evt_apply_mtc c t l ctc); ret true.
(** pt_evt_header_cyc(), pt_evt_decode_cyc(), pt_event_decoder.c:570-588. *)
Definition pt_evt_header_cyc (v : N) : ST unit :=
  timing (fun c t l => pt_evt_apply_cyc c t l v).
Definition pt_evt_decode_cyc (v : N) : ST bool :=
  run timing (fun c t l => pt_evt_apply_cyc c t l v); ret true.

(** pt_evt_check_bdm70(), pt_event_decoder.c:590-639. *)
Definition bdm70_step (_ : unit) (_ : pktdec) (p : packet) : unit + res bool :=
  match pkt_pl p with
  | P_tip_pge _ => inr (Ok true)
  | P_pad | P_tsc _ | P_cbr _ | P_psbend | P_pip _ _ | P_mode _ | P_vmcs _
  | P_tma _ _ | P_mtc _ | P_cyc _ | P_mnt _ => inl tt
  | _ => inr (Ok false)
  end.
Definition pt_evt_check_bdm70 (pd : pktdec) : res bool :=
  scan_packets (scan_fuel pd) bdm70_step
    (fun e => match e with pte_eos => Ok false | e => Err e end) pd tt.

Definition update_ip (ip : packet_ip) : ST unit := fun d =>
  let (l, r) := pt_last_ip_update_ip (ed_ip d) ip in (set_lip d l, r).

(** pt_evt_header_fup(), pt_event_decoder.c:641-671. *)
Definition pt_evt_header_fup (ip : packet_ip) : ST unit :=
  do d <- get;
  let enabled := negb (ip_ipc ip =? pt_ipc_suppressed) in
  do enabled <- (if er_bdm70 (cf_errata (ed_config d)) then
                   do b <- lift (pt_evt_check_bdm70 (ed_pd d));
                   ret (if b : bool then false else enabled)
                 else ret enabled);
  run modify (fun d => set_enabled d enabled);
  if enabled : bool then update_ip ip else ret tt.

(** pt_evt_header_mode(), pt_event_decoder.c:673-741. *)
Definition pt_evt_header_mode (m : packet_mode) : ST unit :=
  do d <- get;
  let iflags := cf_enable_iflags_events (ed_config d) in
  match m with
  | Mode_exec csl csd iflag =>
      let ms := ed_mode d in
      run (if ms_valid ms then
             if iflags && negb (eqb (ms_iflag ms) iflag) then fail pte_bad_status_update
             else if negb (eqb (ms_csd ms) csd) then fail pte_bad_status_update
             else if negb (eqb (ms_csl ms) csl) then fail pte_bad_status_update
             else ret tt
           else modify (fun d => set_mode d (mk_mode true iflag csd csl)));
      run enqueue evb_psbend
            (set_status_update (new_event (Ev_exec_mode (pt_get_exec_mode csl csd) 0)));
      if iflags then
        enqueue evb_psbend (set_status_update (new_event (Ev_iflags iflag 0)))
      else ret tt
  | Mode_tsx intx abrt =>
      enqueue evb_psbend (set_status_update (new_event (Ev_tsx 0 intx abrt)))
  | Mode_other _ => ret tt
  end.

(** pt_evt_decode_mode_exec(), pt_event_decoder.c:743-806. *)
Definition pt_evt_decode_mode_exec (csl csd iflag : bool) : ST bool :=
  do d <- get;
  let ms := ed_mode d in
  let chg_mode := negb (ms_valid ms) || negb (eqb (ms_csl ms) csl)
                  || negb (eqb (ms_csd ms) csd) in
  let chg_iflag := cf_enable_iflags_events (ed_config d)
                   && (negb (ms_valid ms) || negb (eqb (ms_iflag ms) iflag)) in
  run (if chg_mode then
         run enqueue (N.lor evb_tip evb_fup_bound)
               (new_event (Ev_exec_mode (pt_get_exec_mode csl csd) 0));
         modify (fun d => set_mode d (mk_mode (ms_valid (ed_mode d)) (ms_iflag (ed_mode d))
                                              csd csl))
       else ret tt);
  run (if chg_iflag then
         run enqueue (N.lor evb_tip evb_fup_bound) (new_event (Ev_iflags iflag 0));
         modify (fun d => set_mode d (mk_mode (ms_valid (ed_mode d)) iflag
                                              (ms_csd (ed_mode d)) (ms_csl (ed_mode d))))
       else ret tt);
  run (if chg_mode || chg_iflag then ret tt
       else enqueue (N.lor evb_tip evb_fup_bound) (new_event (Ev_tick 0)));
  run modify (fun d => set_mode d (mk_mode true (ms_iflag (ed_mode d)) (ms_csd (ed_mode d))
                                           (ms_csl (ed_mode d))));
  ret true.

(** pt_evt_decode_mode_tsx(), pt_event_decoder.c:808-848. *)
Definition pt_evt_decode_mode_tsx (intx abrt : bool) : ST bool :=
  do d <- get;
  if ed_enabled d then
    run enqueue (if abrt then evb_fup else evb_fup_bound) (new_event (Ev_tsx 0 intx abrt));
    ret true
  else standalone_now (set_suppressed (new_event (Ev_tsx 0 intx abrt)) true).

(** pt_evt_decode_mode(), pt_event_decoder.c:850-867. *)
Definition pt_evt_decode_mode (m : packet_mode) : ST bool :=
  match m with
  | Mode_exec csl csd iflag => pt_evt_decode_mode_exec csl csd iflag
  | Mode_tsx intx abrt => pt_evt_decode_mode_tsx intx abrt
  | Mode_other _ => fail pte_bad_opc
  end.

(** pt_evt_header_pip(), pt_event_decoder.c:869-887. *)
Definition pt_evt_header_pip (cr3 : N) (nr : bool) : ST unit :=
  enqueue evb_psbend (set_status_update (new_event (Ev_async_paging cr3 nr 0))).

(** pt_evt_decode_pip(), pt_event_decoder.c:889-929. *)
Definition pt_evt_decode_pip (cr3 : N) (nr : bool) : ST bool :=
  do d <- get;
  match pt_evq_find (ed_evq d) evb_tip is_async_branch with
  | Some _ => run enqueue evb_tip (new_event (Ev_async_paging cr3 nr 0)); ret true
  | None => standalone_now (new_event (Ev_paging cr3 nr))
  end.

(** pt_evt_header_vmcs(), pt_event_decoder.c:931-948. *)
Definition pt_evt_header_vmcs (base : N) : ST unit :=
  enqueue evb_psbend (set_status_update (new_event (Ev_async_vmcs base 0))).

(** pt_evt_decode_vmcs(), pt_event_decoder.c:950-1014. *)
Definition pt_evt_decode_vmcs (base : N) : ST bool :=
  do d <- get;
  match pt_evq_find (ed_evq d) evb_tip is_async_paging with
  | Some i =>
      run requeue (Slot i) evb_tip;
      do e <- read_event (Slot i);
      run write_event (Slot i) (set_var e (Ev_async_vmcs base 0));
      ret true
  | None =>
      match pt_evq_find (ed_evq d) evb_tip is_async_branch with
      | Some _ => run enqueue evb_tip (new_event (Ev_async_vmcs base 0)); ret true
      | None => standalone_now (new_event (Ev_vmcs base))
      end
  end.

(** pt_evt_header_mnt(), pt_event_decoder.c:1016-1032. *)
Definition pt_evt_header_mnt (payload : N) : ST unit :=
  enqueue evb_psbend (new_event (Ev_mnt payload)).
(** pt_evt_decode_mnt(), pt_event_decoder.c:1034-1055. *)
Definition pt_evt_decode_mnt (payload : N) : ST bool :=
  standalone_now (new_event (Ev_mnt payload)).
(** pt_evt_decode_stop(), pt_event_decoder.c:1057-1076. *)
Definition pt_evt_decode_stop : ST bool := standalone_now (new_event Ev_stop).

(** pt_evt_decode_exstop(), pt_event_decoder.c:1078-1153. *)
Definition exstop_self (ip : bool) : ST bool :=
  if ip then run enqueue evb_fup_bound (new_event (Ev_exstop 0)); ret true
  else standalone_now (set_suppressed (new_event (Ev_exstop 0)) true).
Definition pt_evt_decode_exstop (ip : bool) : ST bool :=
  do o <- dequeue evb_exstop;
  match o with
  | None => exstop_self ip
  | Some i =>
      do e <- read_event (Slot i);
      match ev_var e with
      | Ev_mwait _ hints ext =>
          if ip then run requeue (Slot i) evb_fup_bound; exstop_self ip
          else
            do d <- get;
            run write_event (Slot i)
                  (event_time (ed_time d)
                     (set_suppressed (set_var e (Ev_mwait 0 hints ext)) true));
            run publish (Some (Slot i));
            ret false
      | _ => fail pte_internal
      end
  end.

(** pt_evt_decode_mwait(), pt_event_decoder.c:1155-1172. *)
Definition pt_evt_decode_mwait (hints ext : N) : ST bool :=
  run enqueue evb_exstop (new_event (Ev_mwait 0 hints ext)); ret true.
(** pt_evt_decode_pwre(), pt_event_decoder.c:1174-1199. *)
Definition pt_evt_decode_pwre (state sub_state : N) (hw : bool) : ST bool :=
  standalone_now (new_event (Ev_pwre state sub_state hw)).
(** pt_evt_decode_pwrx(), pt_event_decoder.c:1201-1230. *)
Definition pt_evt_decode_pwrx (last deepest : N) (interrupt store autonomous : bool)
  : ST bool :=
  standalone_now (new_event (Ev_pwrx last deepest interrupt store autonomous)).

(** pt_evt_decode_ptw(), pt_event_decoder.c:1232-1274. *)
Definition pt_evt_decode_ptw (payload plc : N) (ip : bool) : ST bool :=
  do size <- lift (pt_ptw_size plc);
  let size := N.of_nat size in
  if ip then run enqueue evb_fup_bound (new_event (Ev_ptwrite 0 size payload)); ret true
  else standalone_now (set_suppressed (new_event (Ev_ptwrite 0 size payload)) true).

(** The loop of pt_evt_decode_psb(), pt_event_decoder.c:1327-1429; [slot] is the
    event enqueued first. *)
Fixpoint psb_header (fuel : nat) (slot : nat) : ST bool :=
  match fuel with
  | O => lift (UB ub_fuel)
  | S fuel' =>
      run pt_evt_fetch_packet;
      do d <- get;
      match pkt_pl (ed_pkt d) with
      | P_fup ip => run pt_evt_header_fup ip; psb_header fuel' slot
      | P_mode m => run pt_evt_header_mode m; psb_header fuel' slot
      | P_pip cr3 nr => run pt_evt_header_pip cr3 nr; psb_header fuel' slot
      | P_vmcs base => run pt_evt_header_vmcs base; psb_header fuel' slot
      | P_mnt pl => run pt_evt_header_mnt pl; psb_header fuel' slot
      | P_tsc tsc => run pt_evt_header_tsc tsc; psb_header fuel' slot
      | P_cbr ratio => run pt_evt_header_cbr ratio; psb_header fuel' slot
      | P_tma ctc fc => run pt_evt_header_tma ctc fc; psb_header fuel' slot
      | P_mtc ctc => run pt_evt_header_mtc ctc; psb_header fuel' slot
      | P_cyc v => run pt_evt_header_cyc v; psb_header fuel' slot
      | P_psbend =>
          do e <- read_event (Slot slot);
          run write_event (Slot slot)
                (if ed_enabled d then set_var e (Ev_enabled 0 false)
                 else set_suppressed (set_var e (Ev_disabled 0)) true);
          ret true
      | P_ovf =>
          if ed_enabled d then
            do e <- read_event (Slot slot);
            run write_event (Slot slot) (set_var e (Ev_enabled 0 false));
            ret true
          else
            do o <- dequeue evb_psbend;
            match o with
            | Some i => if Nat.eqb i slot then ret true else fail pte_internal
            | None => fail pte_internal
            end
      | P_pad => psb_header fuel' slot
      | P_invalid =>
          match ed_status d with
          | Some e => fail e
          | None => psb_header fuel' slot
          end
      | _ => fail pte_bad_context
      end
  end.

(** pt_evt_decode_psb(), pt_event_decoder.c:1299-1430. *)
Definition pt_evt_decode_psb : ST bool :=
  do d <- get;
  if pt_evq_pending (ed_evq d) evb_all then fail pte_bad_context else
  run modify (fun d => set_enabled (set_lip d pt_last_ip_init) false);
  let slot := evq_end (ed_evq d) in
  run enqueue evb_psbend (set_status_update zero_event);
  psb_header (scan_fuel (ed_pd d)) slot.

(** pt_evt_start(), pt_event_decoder.c:1432-1464. *)
Definition pt_evt_start : ST unit :=
  run modify (fun d => set_status d None);
  run pt_evt_fetch_packet;
  do d <- get;
  match pkt_pl (ed_pkt d) with
  | P_psb => run pt_evt_decode_psb; ret tt
  | P_invalid => fail (match ed_status d with Some e => e | None => pte_internal end)
  | _ => fail pte_nosync
  end.

(** pt_evt_sync_forward(), pt_event_decoder.c:1466-1482. *)
Definition with_pd {A} (f : pktdec -> pktdec * res A) : ST A := fun d =>
  let (pd, r) := f (ed_pd d) in (set_pd d pd, r).
Definition pt_evt_sync_forward (base : nat) : ST unit :=
  run modify pt_evt_reset;
  run with_pd (pt_pkt_sync_forward base);
  pt_evt_start.

(** pt_evt_sync_set(), pt_event_decoder.c:1523-1539. *)
Definition pt_evt_sync_set (offset : N) : ST unit :=
  run modify pt_evt_reset;
  run with_pd (fun pd => pt_pkt_sync_set pd offset);
  pt_evt_start.

Definition evt_pos (d : evdec) : nat :=
  match pd_pos (ed_pd d) with Some p => p | None => O end.

(** pt_evt_sync_backward(), pt_event_decoder.c:1484-1521.  The inner loop searches
    for a PSB before [sync], the outer one for a PSB+ that ends before [start].  The
    number of rounds is not bounded by the trace, so the fuel is an argument. *)
Fixpoint backward_inner (fuel base sync : nat) : ST unit :=
  match fuel with
  | O => lift (UB ub_fuel)
  | S fuel' =>
      run with_pd (pt_pkt_sync_backward base);
      do d <- get;
      if Nat.leb sync (evt_pos d) then backward_inner fuel' base sync else ret tt
  end.
Fixpoint backward_outer (fuel base start sync : nat) : ST unit :=
  match fuel with
  | O => lift (UB ub_fuel)
  | S fuel' =>
      run modify pt_evt_reset;
      run backward_inner fuel base sync;
      do d <- get;
      let sync := evt_pos d in
      fun d =>
        let (d', r) := pt_evt_start d in
        match r with
        | UB u => (d', UB u)
        | _ => if Nat.ltb (evt_pos d') start then (d', r)
               else backward_outer fuel' base start sync d'
        end
  end.
Definition pt_evt_sync_backward (fuel base : nat) : ST unit :=
  do d <- get;
  let start := match pd_pos (ed_pd d) with
               | Some p => p | None => length (pd_buf (ed_pd d)) end in
  backward_outer fuel base start start.

(** pt_evt_get_offset(), pt_event_decoder.c:1541-1556. *)
Definition pt_evt_get_offset (d : evdec) : res N :=
  let* off := pt_pkt_get_offset (ed_pd d) in
  Ok (sub64 off (N.of_nat (pkt_size (ed_pkt d)))).

(** pt_evt_get_sync_offset(), pt_event_decoder.c:1558-1565. *)
Definition pt_evt_get_sync_offset (d : evdec) : res N := pt_pkt_get_sync_offset (ed_pd d).

(** Finish the event that was just published: [f] writes its fields, then the time
    is set; result 0. *)
Definition finish (p : evptr) (e : event) : ST bool :=
  do d <- get;
  run write_event p (event_time (ed_time d) e);
  ret false.

(** pt_evt_decode_psbend(), pt_event_decoder.c:1576-1636. *)
Definition pt_evt_decode_psbend : ST bool :=
  do o <- dequeue evb_psbend;
  match o with
  | None => ret true
  | Some i =>
      run publish (Some (Slot i));
      do e <- read_event (Slot i);
      do d <- get;
      match ev_var e with
      | Ev_enabled _ _ | Ev_exec_mode _ _ | Ev_iflags _ _ | Ev_tsx _ _ _
      | Ev_async_paging _ _ _ | Ev_async_vmcs _ _ =>
          finish (Slot i) (event_ip (ed_ip d) e)
      | Ev_disabled _ | Ev_cbr _ | Ev_mnt _ => finish (Slot i) e
      | _ => fail pte_bad_context
      end
  end.

(** pt_evt_decode_fup(), pt_event_decoder.c:1638-1882.  The function calls itself
    again after dropping an ignored event. *)
Fixpoint decode_fup (fuel : nat) (ip : packet_ip) : ST bool :=
  match fuel with
  | O => lift (UB ub_fuel)
  | S fuel' =>
      run update_ip ip;
      run modify (fun d => if pt_evq_pending (ed_evq d) evb_fup_bound
                           then set_bound d true else d);
      do o <- dequeue (N.lor evb_fup evb_fup_bound);
      do d <- get;
      match o with
      | None =>
          if ed_bound d then ret true else
          do from <- lift (pt_last_ip_query (ed_ip d));
          run enqueue evb_tip (new_event (Ev_async_branch from 0));
          ret true
      | Some i =>
          run publish (Some (Slot i));
          do e <- read_event (Slot i);
          match ev_var e with
          | Ev_overflow _ =>
              run write_event (Slot i) (event_ip (ed_ip d) e);
              run modify (fun d => set_enabled d true);
              ret false
          | Ev_tsx _ _ _ | Ev_exstop _ | Ev_mwait _ _ _ | Ev_ptwrite _ _ _
          | Ev_exec_mode _ _ | Ev_iflags _ _ | Ev_interrupt _ _ _ | Ev_iret _
          | Ev_smi _ | Ev_init _ | Ev_vmentry _ | Ev_vmexit _ _ _ _ | Ev_shutdown _
          | Ev_uintr _ _ | Ev_uiret _ | Ev_trig _ _ _ _ =>
              run write_event (Slot i) (event_ip (ed_ip d) (event_time (ed_time d) e));
              ret false
          | Ev_rsm | Ev_sipi _ =>
              run write_event (Slot i) (event_time (ed_time d) e);
              if ev_ip_suppressed e then ret false else fail pte_internal
          | Ev_tick _ => run publish None; decode_fup fuel' ip
          | _ => fail pte_bad_context
          end
      end
  end.
Definition pt_evt_decode_fup (ip : packet_ip) : ST bool := decode_fup 17 ip.

(** pt_evt_find_ovf_fup(), pt_event_decoder.c:1890-1955.  The offset is an int; it
    is increased before it is tested for overflow. *)
Definition ovf_fup_step (offset : N) (_ : pktdec) (p : packet) : N + res N :=
  if Nat.eqb (pkt_size p) 0 then inr (Err pte_bad_packet) else
  let offset := offset + N.of_nat (pkt_size p) in
  if 0x7fffffff <? offset then inr (UB ub_signed) else
  match pkt_pl p with
  | P_fup _ => inr (Ok offset)
  | P_unknown _ | P_pad | P_mnt _ | P_cbr _ | P_tsc _ | P_tma _ _ | P_mtc _ | P_cyc _
  | P_invalid => inl offset
  | P_psb | P_tip_pge _ | P_mode _ | P_pip _ _ | P_vmcs _ | P_stop | P_ovf | P_exstop _
  | P_mwait _ _ | P_pwre _ _ _ | P_pwrx _ _ _ _ _ | P_ptw _ _ _ | P_cfe _ _ _
  | P_evd _ _ | P_trig _ _ _ _ _ => inr (Ok 0)
  | P_psbend | P_tip _ | P_tip_pgd _ | P_tnt_8 _ | P_tnt_64 _ =>
      inr (Err pte_bad_context)
  end.
Definition pt_evt_find_ovf_fup (pd : pktdec) : res N :=
  scan_packets (scan_fuel pd) ovf_fup_step (fun e => Err e) pd 0.

(** Take over the state of a look-ahead. *)
Definition jump (pd : pktdec) (p : packet) (t : time) (l : tcal) : ST unit :=
  modify (fun d => set_tcal (set_time (set_pkt (set_pd d pd) p) t) l).

(** pt_evt_recover_ovf_at_ip(), pt_event_decoder.c:1957-1995. *)
Definition pt_evt_recover_ovf_at_ip (pd : pktdec) (p : packet) (ip : packet_ip)
           (t : time) (l : tcal) : ST bool :=
  run update_ip ip;
  do d <- get;
  let e := event_time (ed_time d) (new_event (Ev_overflow 0)) in
  run standalone e;
  run jump pd p t l;
  run modify (fun d => set_enabled d true);
  run write_event Alone (event_ip (ed_ip d) e);
  ret false.

(** pt_evt_recover_ovf_disabled(), pt_event_decoder.c:1997-2027. *)
Definition pt_evt_recover_ovf_disabled (pd : pktdec) (p : packet) (t : time) (l : tcal)
  : ST unit :=
  do d <- get;
  run standalone (event_time (ed_time d) (set_suppressed (new_event (Ev_overflow 0)) true));
  jump pd p t l.

(** pt_evt_recover_ovf_at_offset(), pt_event_decoder.c:2029-2136. *)
Fixpoint ovf_at_offset (fuel : nat) (offset : N) : ST bool :=
  match fuel with
  | O => lift (UB ub_fuel)
  | S fuel' =>
      do p <- with_pd pt_pkt_next;
      run modify (fun d => set_pkt d p);
      let size := N.of_nat (pkt_size p) in
      if offset <=? size then
        if offset <? size then fail pte_internal else
        standalone_now (set_suppressed (new_event (Ev_overflow 0)) true)
      else
      let offset := offset - size in
      match pkt_pl p with
      | P_mode _ | P_pip _ _ | P_vmcs _ | P_invalid | P_unknown _ => fail pte_internal
      | pl =>
          run timing (fun c t l => match apply_time_packet c t l pl with
                                   | Some r => r
                                   | None => (t, l, Ok tt)
                                   end);
          ovf_at_offset fuel' offset
      end
  end.
Definition pt_evt_recover_ovf_at_offset (offset : N) : ST bool :=
  do d <- get;
  if offset =? 0 then fail pte_internal else ovf_at_offset (scan_fuel (ed_pd d)) offset.

(** pt_evt_handle_skd010(), pt_event_decoder.c:2165-2487.  The loop computes where
    to resume; the decoder changes only after that. *)
Inductive skd010_result :=
| Skd_none                                     (* return 1 *)
| Skd_pgd (pd : pktdec) (p : packet) (t : time) (l : tcal)
| Skd_fup (pd : pktdec) (p : packet) (ip : packet_ip) (tsx : option (bool * bool))
          (t : time) (l : tcal)
| Skd_tip (pd : pktdec) (p : packet) (ip : packet_ip) (t : time) (l : tcal)
| Skd_psb (pd : pktdec) (p : packet) (ip : packet_ip) (t : time) (l : tcal).

Definition skd010_step (s : time * tcal * option (bool * bool)) (pd : pktdec) (p : packet)
  : (time * tcal * option (bool * bool)) + res skd010_result :=
  let '(t, l, tsx) := s in
  match pkt_pl p with
  | P_tip_pge _ => inr (Ok Skd_none)
  | P_tip_pgd _ => inr (Ok (Skd_pgd pd p t l))
  | P_tnt_8 _ | P_tnt_64 _ => inr (Ok Skd_none)
  | P_pip _ _ | P_vmcs _ => inl s
  | P_mode (Mode_tsx intx abrt) =>
      match tsx with
      | Some _ => inr (Ok Skd_none)
      | None => inl (t, l, Some (intx, abrt))
      end
  | P_mode _ => inl s
  | P_fup ip => inr (Ok (Skd_fup pd p ip tsx t l))
  | P_tip ip => inr (Ok (Skd_tip pd p ip t l))
  | P_psb =>
      inr (match pt_evt_find_header_fup pd with
           | Ok (Some ip) => Ok (Skd_psb pd p ip t l)
           | Ok None => Ok Skd_none
           | Err pte_eos => Ok Skd_none
           | Err e => Err e
           | UB u => UB u
           end)
  | P_psbend => inr (Err pte_bad_context)
  | P_ovf | P_stop => inr (Ok Skd_none)
  | P_pad | P_mnt _ | P_pwre _ _ _ | P_pwrx _ _ _ _ _ | P_evd _ _
  | P_trig _ _ _ _ _ => inl s
  | P_exstop ip => if ip then inr (Ok Skd_none) else inl s
  | P_mwait _ _ => inr (Ok Skd_none)
  | P_ptw _ _ ip => if ip then inr (Ok Skd_none) else inl s
  | P_cfe _ _ ip => if ip then inr (Ok Skd_none) else inl s
  | P_unknown _ | P_invalid => inr (Ok Skd_none)
  | pl =>
      match apply_time_packet (pd_config pd) t l pl with
      | Some (t', l', Ok _) => inl (t', l', tsx)
      | Some (_, _, Err e) => inr (Err e)
      | Some (_, _, UB u) => inr (UB u)
      | None => inl s
      end
  end.

Definition pt_evt_handle_skd010 : ST bool :=
  do d <- get;
  do r <- lift (scan_packets (scan_fuel (ed_pd d)) skd010_step
                  (fun e => match e with pte_eos => Ok Skd_none | e => Err e end)
                  (ed_pd d) (ed_time d, ed_tcal d, None));
  match r with
  | Skd_none => ret true
  | Skd_pgd pd p t l => run pt_evt_recover_ovf_disabled pd p t l; pt_evt_fetch_packet
  | Skd_fup pd p ip tsx t l =>
      run modify (fun d => set_pkt d p);
      run match tsx with
          | Some (intx, abrt) => enqueue evb_fup_bound (new_event (Ev_tsx 0 intx abrt))
          | None => ret tt
          end;
      pt_evt_recover_ovf_at_ip pd p ip t l
  | Skd_tip pd p ip t l => run pt_evt_recover_ovf_at_ip pd p ip t l; pt_evt_fetch_packet
  | Skd_psb pd p ip t l => pt_evt_recover_ovf_at_ip pd p ip t l
  end.

(** pt_evt_handle_apl11(), pt_event_decoder.c:2504-2625. *)
Definition apl11_step (s : time * tcal) (pd : pktdec) (p : packet)
  : (time * tcal) + res (option (pktdec * packet * time * tcal)) :=
  let (t, l) := s in
  match pkt_pl p with
  | P_tip_pgd _ => inr (Ok (Some (pd, p, t, l)))
  | P_fup _ | P_psb | P_tip_pge _ | P_stop | P_ovf | P_mode _ | P_pip _ _ | P_vmcs _
  | P_exstop _ | P_mwait _ _ | P_pwre _ _ _ | P_pwrx _ _ _ _ _ | P_ptw _ _ _
  | P_psbend | P_tip _ | P_tnt_8 _ | P_tnt_64 _ | P_unknown _ | P_invalid =>
      inr (Ok None)
  | pl =>
      match apply_time_packet (pd_config pd) t l pl with
      | Some (t', l', Ok _) => inl (t', l')
      | Some (_, _, Err e) => inr (Err e)
      | Some (_, _, UB u) => inr (UB u)
      | None => inl s
      end
  end.
Definition pt_evt_handle_apl11 : ST bool :=
  do d <- get;
  do r <- lift (scan_packets (scan_fuel (ed_pd d)) apl11_step (fun e => Err e)
                  (ed_pd d) (ed_time d, ed_tcal d));
  match r with
  | None => ret true
  | Some (pd, p, t, l) =>
      run pt_evt_recover_ovf_disabled pd p t l; pt_evt_fetch_packet
  end.

(** pt_evt_handle_apl12(), pt_event_decoder.c:2649-2746; the scan says whether to
    resume at the offset. *)
Definition apl12_step (_ : unit) (pd : pktdec) (p : packet) : unit + res bool :=
  match pkt_pl p with
  | P_tnt_8 _ | P_tnt_64 _ | P_tip _ | P_tip_pgd _ => inr (Ok false)
  | P_psb =>
      inr (match pt_evt_find_header_fup pd with
           | Ok (Some _) => Ok false
           | Ok None => Ok true
           | Err pte_eos => Ok false
           | Err e => Err e
           | UB u => UB u
           end)
  | P_stop | P_tip_pge _ => inr (Ok true)
  | P_psbend | P_ovf => inr (Ok false)
  | P_unknown _ | P_invalid => inr (Ok false)
  | _ => inl tt
  end.
Definition pt_evt_handle_apl12 (offset : N) : ST bool :=
  do d <- get;
  let pd := ed_pd d in
  let pos := (evt_pos d + N.to_nat offset)%nat in
  if Nat.ltb (length (pd_buf pd)) pos then fail pte_internal else
  let pd := mk_pktdec (pd_config pd) (pd_buf pd) (Some pos) (pd_sync pd) in
  do b <- lift (scan_packets (scan_fuel pd) apl12_step
                  (fun e => match e with pte_eos => Ok false | e => Err e end) pd tt);
  if b : bool then pt_evt_recover_ovf_at_offset offset else ret true.

(** pt_evt_decode_ovf(), pt_event_decoder.c:2748-2877. *)
Definition pt_evt_decode_ovf : ST bool :=
  do more <- pt_evt_decode_psbend;
  if negb more then ret false else
  do d0 <- get;
  let config := ed_config d0 in
  run modify (fun d => set_time (pt_evt_reset d) (ed_time d0));
  run (if cf_keep_tcal_on_ovf config then
         let (l, r) := pt_tcal_update_ovf (ed_tcal d0) in
         run lift r; modify (fun d => set_tcal d l)
       else ret tt);
  do d <- get;
  let offset := pt_evt_find_ovf_fup (ed_pd d) in
  match offset with
  | UB u => lift (UB u)
  | _ =>
      if match offset with Ok o => 0 <? o | _ => false end then
        do more <- (if er_apl12 (cf_errata config) then
                      pt_evt_handle_apl12 (match offset with Ok o => o | _ => 0 end)
                    else ret true);
        if negb more then ret false else
        do d <- get;
        run enqueue evb_fup_bound
              (event_time (ed_time d) (new_event (Ev_overflow 0)));
        ret true
      else
        do more <- (if er_skd010 (cf_errata config) then pt_evt_handle_skd010 else ret true);
        if negb more then ret false else
        do more <- (if er_apl11 (cf_errata config)
                       && match offset with Err pte_bad_context => true | _ => false end
                    then pt_evt_handle_apl11 else ret true);
        if negb more then ret false else
        match offset with
        | Err pte_eos | Ok _ =>
            standalone_now (set_suppressed (new_event (Ev_overflow 0)) true)
        | Err e => fail e
        | UB u => lift (UB u)
        end
  end.

(** pt_evt_decode_tip_event(), pt_event_decoder.c:2879-2928. *)
Definition pt_evt_decode_tip_event : ST bool :=
  run modify (fun d => set_bound d true);
  do d <- get;
  match pt_evq_find (ed_evq d) evb_tip is_async_branch with
  | Some async =>
      do o <- dequeue evb_tip;
      match o with
      | None => fail pte_internal
      | Some i =>
          run (if Nat.eqb i async then ret tt else
               do tmp <- read_event (Slot async);
               do e <- read_event (Slot i);
               run write_event (Slot async) e;
               write_event (Slot i) tmp);
          do e <- read_event (Slot i);
          if negb (is_async_branch e) then fail pte_internal else
          run publish (Some (Slot i));
          finish (Slot i) (event_ip (ed_ip d) e)
      end
  | None =>
      run standalone (event_ip (ed_ip d) (new_event (Ev_tip 0)));
      finish Alone (event_ip (ed_ip d) (new_event (Ev_tip 0)))
  end.

(** pt_evt_decode_tip(), pt_event_decoder.c:2930-3000. *)
Fixpoint decode_tip (fuel : nat) (ip : packet_ip) : ST bool :=
  match fuel with
  | O => lift (UB ub_fuel)
  | S fuel' =>
      do d <- get;
      if negb (ed_enabled d) then fail pte_bad_context else
      run update_ip ip;
      if negb (ed_bound d) then pt_evt_decode_tip_event else
      do o <- dequeue evb_tip;
      match o with
      | None => ret true
      | Some i =>
          run publish (Some (Slot i));
          do e <- read_event (Slot i);
          do d <- get;
          match ev_var e with
          | Ev_async_branch _ _ => fail pte_internal
          | Ev_exec_mode _ _ | Ev_async_paging _ _ _ | Ev_async_vmcs _ _
          | Ev_iflags _ _ => finish (Slot i) (event_ip (ed_ip d) e)
          | Ev_tick _ => run publish None; decode_tip fuel' ip
          | _ => fail pte_bad_context
          end
      end
  end.
Definition pt_evt_decode_tip (ip : packet_ip) : ST bool := decode_tip 17 ip.

(** pt_evt_decode_tip_pge(), pt_event_decoder.c:3002-3071. *)
Fixpoint decode_tip_pge (fuel : nat) (ip : packet_ip) : ST bool :=
  match fuel with
  | O => lift (UB ub_fuel)
  | S fuel' =>
      run update_ip ip;
      do d <- get;
      if negb (ed_bound d) then
        let e := event_ip (ed_ip d) (new_event (Ev_enabled 0 false)) in
        run standalone e;
        run modify (fun d => set_bound (set_enabled d true) true);
        finish Alone e
      else
      do o <- dequeue evb_tip;
      match o with
      | None => ret true
      | Some i =>
          run publish (Some (Slot i));
          do e <- read_event (Slot i);
          match ev_var e with
          | Ev_exec_mode _ _ | Ev_iflags _ _ => finish (Slot i) (event_ip (ed_ip d) e)
          | Ev_tick _ => run publish None; decode_tip_pge fuel' ip
          | _ => fail pte_bad_context
          end
      end
  end.
Definition pt_evt_decode_tip_pge (ip : packet_ip) : ST bool := decode_tip_pge 17 ip.

(** pt_evt_decode_tip_pgd(), pt_event_decoder.c:3073-3176. *)
Definition pt_evt_decode_tip_pgd (ip : packet_ip) : ST bool :=
  run update_ip ip;
  do o <- dequeue evb_tip;
  do d <- get;
  match o with
  | None =>
      if ed_bound d then ret true else
      run standalone (event_time (ed_time d)
                        (event_ip (ed_ip d) (new_event (Ev_disabled 0))));
      run modify (fun d => set_enabled d false);
      pt_evt_fetch_packet
  | Some i =>
      run publish (Some (Slot i));
      do e <- read_event (Slot i);
      match ev_var e with
      | Ev_async_branch from _ =>
          run modify (fun d => set_bound (set_enabled d false) true);
          finish (Slot i) (event_ip (ed_ip d) (set_var e (Ev_async_disabled from 0)))
      | Ev_async_paging _ _ _ | Ev_async_vmcs _ _ =>
          if ed_bound d then finish (Slot i) (set_suppressed e true)
          else fail pte_internal
      | Ev_exec_mode _ _ => finish (Slot i) (set_suppressed e true)
      | _ => fail pte_bad_context
      end
  end.

(** pt_evt_decode_tnt(), pt_event_decoder.c:3178-3203. *)
Definition pt_evt_decode_tnt (t : packet_tnt) : ST bool :=
  do d <- get;
  if negb (ed_enabled d) then fail pte_bad_context else
  standalone_now (new_event (Ev_tnt (tnt_payload t) (tnt_bit_size t))).

(** Control-flow event types, intel-pt.h.in:895-910. *)
Definition pt_cfe_intr : N := 1.
Definition pt_cfe_iret : N := 2.
Definition pt_cfe_smi : N := 3.
Definition pt_cfe_rsm : N := 4.
Definition pt_cfe_sipi : N := 5.
Definition pt_cfe_init : N := 6.
Definition pt_cfe_vmentry : N := 7.
Definition pt_cfe_vmexit : N := 8.
Definition pt_cfe_vmexit_intr : N := 9.
Definition pt_cfe_shutdown : N := 10.
Definition pt_cfe_uintr : N := 12.
Definition pt_cfe_uiret : N := 13.

(** A control-flow event that was not announced by an EVD, with an optional binding
    to an unbound FUP while tracing is enabled: the pattern of
    pt_event_decoder.c:3284-3318, 3384-3445 and 3490-3581. *)
Definition cfe_plain (announced : option nat) (v : evar) (ip with_fup : bool) : ST bool :=
  match announced with
  | Some _ => fail pte_bad_context
  | None =>
      do d <- get;
      if ip then run enqueue evb_fup_bound (new_event v); ret true
      else if with_fup && ed_enabled d then run enqueue evb_fup (new_event v); ret true
      else standalone_now (set_suppressed (new_event v) true)
  end.

(** The pattern of RSM and SIPI, pt_event_decoder.c:3320-3382. *)
Definition cfe_noip (announced : option nat) (v : evar) (ip : bool) : ST bool :=
  match announced with
  | Some _ => fail pte_bad_context
  | None =>
      if ip then fail pte_bad_packet else
      do d <- get;
      let e := set_suppressed (new_event v) true in
      if ed_enabled d then run enqueue evb_fup e; ret true
      else standalone_now e
  end.

(** Interrupts and VM exits may have been announced by an EVD:
    pt_event_decoder.c:3218-3255 and 3447-3488.  [upd] checks the type and fills in
    the vector. *)
Definition cfe_evd (announced : option nat) (v : evar) (upd : evar -> option evar)
           (ip : bool) : ST bool :=
  do p <- (match announced with
           | Some i => ret (Slot i)
           | None => run write_event Alone (new_event v); ret Alone
           end);
  do e <- read_event p;
  match upd (ev_var e) with
  | None => fail pte_bad_context
  | Some v' =>
      run write_event p (set_var e v');
      do d <- get;
      if ip then run requeue p evb_fup_bound; ret true
      else if ed_enabled d then run requeue p evb_fup; ret true
      else
        run write_event p (set_suppressed (event_time (ed_time d) (set_var e v')) true);
        run publish (Some p);
        pt_evt_fetch_packet
  end.

(** pt_evt_decode_cfe(), pt_event_decoder.c:3205-3605. *)
Definition pt_evt_decode_cfe (type vector : N) (ip : bool) : ST bool :=
  do o <- dequeue evb_cfe;
  if type =? pt_cfe_intr then
    cfe_evd o (Ev_interrupt 0 None 0)
      (fun v => match v with
                | Ev_interrupt _ cr2 a => Some (Ev_interrupt vector cr2 a)
                | _ => None
                end) ip
  else if type =? pt_cfe_iret then cfe_plain o (Ev_iret 0) ip false
  else if type =? pt_cfe_smi then cfe_plain o (Ev_smi 0) ip true
  else if type =? pt_cfe_rsm then cfe_noip o Ev_rsm ip
  else if type =? pt_cfe_sipi then cfe_noip o (Ev_sipi vector) ip
  else if type =? pt_cfe_init then cfe_plain o (Ev_init 0) ip true
  else if type =? pt_cfe_vmentry then cfe_plain o (Ev_vmentry 0) ip false
  else if (type =? pt_cfe_vmexit) || (type =? pt_cfe_vmexit_intr) then
    cfe_evd o (Ev_vmexit None None None 0)
      (fun v => match v with
                | Ev_vmexit vec r q a =>
                    Some (Ev_vmexit (if type =? pt_cfe_vmexit_intr
                                     then Some vector else vec) r q a)
                | _ => None
                end) ip
  else if type =? pt_cfe_shutdown then cfe_plain o (Ev_shutdown 0) ip false
  else if type =? pt_cfe_uintr then cfe_plain o (Ev_uintr vector 0) ip true
  else if type =? pt_cfe_uiret then cfe_plain o (Ev_uiret 0) ip false
  else
    match o with
    | Some _ => fail pte_internal
    | None => if ip then run enqueue evb_fup_bound (new_event (Ev_tick 0)); ret true
              else ret true
    end.

(** Event data types, intel-pt.h.in:958-962. *)
Definition pt_evd_cr2 : N := 0.
Definition pt_evd_vmxq : N := 1.
Definition pt_evd_vmxr : N := 2.

(** The VM exit event to which an EVD adds, pt_event_decoder.c:3633-3671. *)
Definition evd_vmexit (upd : evar -> option evar) : ST bool :=
  do d <- get;
  do i <- (match pt_evq_peek (ed_evq d) evb_cfe with
           | Some i => ret i
           | None => run enqueue evb_cfe (new_event (Ev_vmexit None None None 0));
                     ret (evq_end (ed_evq d))
           end);
  do e <- read_event (Slot i);
  match upd (ev_var e) with
  | None => fail pte_bad_context
  | Some v => run write_event (Slot i) (set_var e v); ret true
  end.

(** pt_evt_decode_evd(), pt_event_decoder.c:3607-3681. *)
Definition pt_evt_decode_evd (type payload : N) : ST bool :=
  do d <- get;
  if type =? pt_evd_cr2 then
    match pt_evq_peek (ed_evq d) evb_cfe with
    | Some _ => fail pte_bad_context
    | None => run enqueue evb_cfe (new_event (Ev_interrupt 0 (Some payload) 0)); ret true
    end
  else if type =? pt_evd_vmxq then
    evd_vmexit (fun v => match v with
                         | Ev_vmexit vec r None a => Some (Ev_vmexit vec r (Some payload) a)
                         | _ => None
                         end)
  else if type =? pt_evd_vmxr then
    evd_vmexit (fun v => match v with
                         | Ev_vmexit vec None q a => Some (Ev_vmexit vec (Some payload) q a)
                         | _ => None
                         end)
  else ret true.

(** pt_evt_decode_trig(), pt_event_decoder.c:3683-3744. *)
Definition pt_evt_decode_trig (trbv icnt : N) (ip icntv mult : bool) : ST bool :=
  if ip then
    if negb icntv then fail pte_bad_packet
    else if truth icnt then fail pte_bad_packet
    else run enqueue evb_fup_bound (new_event (Ev_trig trbv 0 0 mult)); ret true
  else
    do d <- get;
    run standalone (new_event (Ev_trig trbv 0 0 mult));
    if icntv && truth icnt && negb (ed_enabled d) then fail pte_bad_packet else
    standalone_now (if icntv then new_event (Ev_trig trbv icnt 0 mult)
                    else set_suppressed (new_event (Ev_trig trbv 0 0 mult)) true).

(** pt_evt_decode_packet(), pt_event_decoder.c:3755-3863, for packets other than
    PSB, including pt_evt_decode_unknown(), 3746-3753. *)
Definition decode_other (psb : ST bool) (p : payload) : ST bool :=
  match p with
  | P_tnt_8 t | P_tnt_64 t => pt_evt_decode_tnt t
  | P_cyc v => pt_evt_decode_cyc v
  | P_pad => ret true
  | P_fup ip => pt_evt_decode_fup ip
  | P_tip ip => pt_evt_decode_tip ip
  | P_mtc ctc => pt_evt_decode_mtc ctc
  | P_tsc tsc => pt_evt_decode_tsc tsc
  | P_cbr ratio => pt_evt_decode_cbr ratio
  | P_tma ctc fc => pt_evt_decode_tma ctc fc
  | P_mode m => pt_evt_decode_mode m
  | P_pip cr3 nr => pt_evt_decode_pip cr3 nr
  | P_ptw pl plc ip => pt_evt_decode_ptw pl plc ip
  | P_psb => psb
  | P_psbend => pt_evt_decode_psbend
  | P_tip_pge ip => pt_evt_decode_tip_pge ip
  | P_tip_pgd ip => pt_evt_decode_tip_pgd ip
  | P_exstop ip => pt_evt_decode_exstop ip
  | P_pwre s ss hw => pt_evt_decode_pwre s ss hw
  | P_pwrx l dp i s a => pt_evt_decode_pwrx l dp i s a
  | P_mwait h e => pt_evt_decode_mwait h e
  | P_vmcs base => pt_evt_decode_vmcs base
  | P_ovf => pt_evt_decode_ovf
  | P_stop => pt_evt_decode_stop
  | P_mnt pl => pt_evt_decode_mnt pl
  | P_cfe ty v ip => pt_evt_decode_cfe ty v ip
  | P_evd ty pl => pt_evt_decode_evd ty pl
  | P_trig tr ic ip iv m => pt_evt_decode_trig tr ic ip iv m
  | P_invalid => do d <- get; match ed_status d with Some e => fail e | None => ret true end
  | P_unknown _ => ret true
  end.

(** After a PSB the packet is PSBEND or OVF, so the function calls itself at most
    once. *)
Definition pt_evt_decode_packet : ST bool :=
  do d <- get;
  decode_other
    (run pt_evt_decode_psb;
     do d <- get;
     decode_other (lift (UB ub_fuel)) (pkt_pl (ed_pkt d)))
    (pkt_pl (ed_pkt d)).

(** pt_evt_fetch_event(), pt_event_decoder.c:3889-3921. *)
Fixpoint fetch_event (fuel : nat) : ST unit :=
  match fuel with
  | O => lift (UB ub_fuel)
  | S fuel' =>
      do more <- pt_evt_decode_packet;
      if negb more then ret tt else
      do d <- get;
      match ed_event d with
      | Some _ => fail pte_internal
      | None =>
          run modify (fun d => set_bound d false);
          run pt_evt_fetch_packet;
          fetch_event fuel'
      end
  end.
Definition pt_evt_fetch_event : ST unit :=
  do d <- get; fetch_event (S (scan_fuel (ed_pd d))).

(** pt_evt_next(), pt_event_decoder.c:3923-3958, for a user event of full size. *)
Definition pt_evt_next : ST event :=
  run pt_evt_fetch_event;
  do d <- get;
  run publish None;
  match ed_event d with
  | None => fail pte_internal
  | Some p => read_event p
  end.
