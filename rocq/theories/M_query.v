(** The query decoder: /repo/libipt/src/pt_query_decoder.c.

    Simplifications: null-pointer checks are left out, and the user provides memory
    for a full event.  The copy of the event decoder that pt_qry_start() works on
    shares the pointer to the published event with the original; since the original
    does not change meanwhile, the copy here has the event by its place. *)

From Verif Require Import Base M_config M_pktdec M_tnt M_time M_evq M_event M_evdec.
From Coq Require Import List NArith Bool.
Import ListNotations.
Open Scope N_scope.

(** enum pt_status_flag, intel-pt.h.in:2044-2053. *)
Definition pts_event_pending : N := 1.
Definition pts_ip_suppressed : N := 2.
Definition pts_eos : N := 4.

(** struct pt_query_decoder, internal/include/pt_query_decoder.h:39-78.  The event is
    [None] if its bytes are all 0xff after an error, which is no known event type.
    [qd_status] is [None] for zero. *)
Record qrydec := mk_qrydec {
  qd_evdec : evdec;
  qd_event : option event;
  qd_status : option pte;
  qd_tnt : tnt_cache;
  qd_last_time : time }.

Definition set_evdec q x := mk_qrydec x (qd_event q) (qd_status q) (qd_tnt q) (qd_last_time q).
Definition set_qstatus q x := mk_qrydec (qd_evdec q) (qd_event q) x (qd_tnt q) (qd_last_time q).
Definition set_tnt q x := mk_qrydec (qd_evdec q) (qd_event q) (qd_status q) x (qd_last_time q).
Definition keep_time q := mk_qrydec (qd_evdec q) (qd_event q) (qd_status q) (qd_tnt q)
  (ed_time (qd_evdec q)).

(** pt_qry_reset(), pt_query_decoder.c:60-71. *)
Definition pt_qry_reset (q : qrydec) : qrydec :=
  mk_qrydec (qd_evdec q) (qd_event q) (Some pte_nosync) pt_tnt_cache_init pt_time_init.

(** pt_qry_decoder_init(), pt_query_decoder.c:73-99, on a valid configuration; the flags
    of the event decoder (45-58) are those given in [cf].  The event is indeterminate
    but not used before it is set. *)
Definition pt_qry_decoder_init (cf : config) (buf : list N) : qrydec :=
  pt_qry_reset (mk_qrydec (pt_evt_decoder_init cf buf) None None pt_tnt_cache_init pt_time_init).

(** pt_qry_event_pending(), pt_query_decoder.c:133-146. *)
Definition pt_qry_event_pending (ev : option event) : bool :=
  match ev with
  | Some e => match ev_var e with Ev_tnt _ _ | Ev_tip _ => false | _ => true end
  | None => true
  end.

(** pt_qry_status_flags(), pt_query_decoder.c:148-186. *)
Definition pt_qry_status_flags (q : qrydec) : N :=
  if pt_tnt_cache_is_empty (qd_tnt q) then
    match qd_status q with
    | Some pte_eos => pts_eos
    | _ => if pt_qry_event_pending (qd_event q) then pts_event_pending else 0
    end
  else 0.

(** pt_qry_fetch_event(), pt_query_decoder.c:188-205.  Errors are deferred. *)
Definition pt_qry_fetch_event (q : qrydec) : qrydec * res unit :=
  match pt_evt_next (qd_evdec q) with
  | (d, Ok e) => (mk_qrydec d (Some e) (qd_status q) (qd_tnt q) (qd_last_time q), Ok tt)
  | (d, Err e) => (mk_qrydec d None (Some e) (qd_tnt q) (qd_last_time q), Ok tt)
  | (d, UB u) => (set_evdec q d, UB u)
  end.

(** The loop of pt_qry_start(), pt_query_decoder.c:228-262: the start address, if any. *)
Fixpoint start_loop (fuel : nat) (pos : nat) (d : evdec) : res (option N) :=
  match fuel with
  | O => UB ub_fuel
  | S fuel' =>
      if negb (Nat.eqb (evt_pos d) pos) then Ok None else
      match pt_evt_next d with
      | (_, UB u) => UB u
      | (_, Err pte_eos) => Ok None
      | (_, Err e) => Err e
      | (d', Ok ev) =>
          if negb (ev_status_update ev) then Ok None else
          match ev_var ev with
          | Ev_enabled ip _ => Ok (Some ip)
          | _ => start_loop fuel' pos d'
          end
      end
  end.

(** pt_qry_start(), pt_query_decoder.c:207-277. Returns the start address unless it is
    suppressed, and the status. The fuel exceeds the number of events in the trace. *)
Definition pt_qry_start (q : qrydec) : qrydec * res (option N * N) :=
  let d := qd_evdec q in
  match start_loop (18 * (3 + length (pd_buf (ed_pd d)))) (evt_pos d) d with
  | UB u => (q, UB u)
  | Err e => (q, Err e)
  | Ok ip =>
      match pt_qry_fetch_event (set_qstatus q None) with
      | (q', Ok _) =>
          (q', Ok (ip, N.lor (match ip with Some _ => 0 | None => pts_ip_suppressed end)
                             (pt_qry_status_flags q')))
      | (q', Err e) => (q', Err e)
      | (q', UB u) => (q', UB u)
      end
  end.

(** pt_qry_sync_forward(), pt_query_decoder.c:279-295, and pt_qry_sync_set(), 356-373:
    [sync] is the function of the event decoder. *)
Definition qry_sync (sync : ST unit) (q : qrydec) : qrydec * res (option N * N) :=
  let q := pt_qry_reset q in
  match sync (qd_evdec q) with
  | (d, Ok _) => pt_qry_start (set_evdec q d)
  | (d, Err e) => (set_evdec q d, Err e)
  | (d, UB u) => (set_evdec q d, UB u)
  end.
Definition pt_qry_sync_forward (base : nat) := qry_sync (pt_evt_sync_forward base).
Definition pt_qry_sync_set (offset : N) := qry_sync (pt_evt_sync_set offset).

(** pt_qry_sync_backward(), pt_query_decoder.c:297-354.  The number of rounds of the
    loops is not bounded by the trace, so the fuel is an argument.  A successful call
    returns zero for the status. *)
Fixpoint qry_backward_inner (fuel base sync : nat) (d : evdec) : evdec * res unit :=
  match fuel with
  | O => (d, UB ub_fuel)
  | S fuel' =>
      match pt_evt_sync_backward fuel base d with
      | (d', Ok _) =>
          if Nat.leb sync (evt_pos d') then qry_backward_inner fuel' base sync d'
          else (d', Ok tt)
      | (d', Err e) => (d', Err e)
      | (d', UB u) => (d', UB u)
      end
  end.
Fixpoint qry_backward_outer (fuel base start sync : nat) (q : qrydec)
  : qrydec * res (option N * N) :=
  match fuel with
  | O => (q, UB ub_fuel)
  | S fuel' =>
      let q := pt_qry_reset q in
      match qry_backward_inner fuel base sync (qd_evdec q) with
      | (d, Err e) => (set_evdec q d, Err e)
      | (d, UB u) => (set_evdec q d, UB u)
      | (d, Ok _) =>
          let sync := evt_pos d in
          match pt_qry_start (set_evdec q d) with
          | (q', UB u) => (q', UB u)
          | (q', Err pte_eos) => qry_backward_outer fuel' base start sync q'
          | (q', Err e) => (q', Err e)
          | (q', Ok (ip, _)) =>
              if Nat.ltb (evt_pos (qd_evdec q')) start then (q', Ok (ip, 0))
              else qry_backward_outer fuel' base start sync q'
          end
      end
  end.
Definition pt_qry_sync_backward (fuel base : nat) (q : qrydec) : qrydec * res (option N * N) :=
  let start := match pd_pos (ed_pd (qd_evdec q)) with
               | Some p => p | None => length (pd_buf (ed_pd (qd_evdec q))) end in
  qry_backward_outer fuel base start start q.

(** pt_qry_cache_tnt(), pt_query_decoder.c:401-425. *)
Definition pt_qry_cache_tnt (q : qrydec) : qrydec * res unit :=
  match qd_status q with
  | Some e => (q, Err e)
  | None =>
      match qd_event q with
      | Some ev =>
          match ev_var ev with
          | Ev_tnt bits size =>
              match pt_tnt_cache_add (qd_tnt q) bits size with
              | (c, Ok _) => pt_qry_fetch_event (set_tnt q c)
              | (c, Err e) => (set_tnt q c, Err e)
              | (c, UB u) => (set_tnt q c, UB u)
              end
          | _ => (q, Ok tt)
          end
      | None => (q, Ok tt)
      end
  end.

(** The end of a query: the answer with the status flags of the decoder. *)
Definition with_flags {A} (q : qrydec) (a : A) (status : N) : qrydec * res (A * N) :=
  (q, Ok (a, N.lor status (pt_qry_status_flags q))).

(** pt_qry_cond_branch(), pt_query_decoder.c:427-473. *)
Definition pt_qry_cond_branch (q : qrydec) : qrydec * res (bool * N) :=
  match pt_tnt_cache_query (qd_tnt q) with
  | (c, Ok taken) => with_flags (set_tnt q c) taken 0
  | (c, UB u) => (set_tnt q c, UB u)
  | (c, Err pte_bad_query) =>
      match pt_qry_cache_tnt (keep_time (set_tnt q c)) with
      | (q', Err e) => (q', Err e)
      | (q', UB u) => (q', UB u)
      | (q', Ok _) =>
          match pt_tnt_cache_query (qd_tnt q') with
          | (c, Ok taken) => with_flags (set_tnt q' c) taken 0
          | (c, UB u) => (set_tnt q' c, UB u)
          | (c, Err pte_bad_query) =>
              (set_tnt q' c, Err (match qd_status q' with Some e => e | None => pte_bad_query end))
          | (c, Err e) => (set_tnt q' c, Err e)
          end
      end
  | (c, Err e) => (set_tnt q c, Err e)
  end.

(** pt_qry_indirect_branch(), pt_query_decoder.c:475-525.  The address is [None] if it is
    suppressed. *)
Definition qry_tip (ev : option event) : option event :=
  match ev with
  | Some e => match ev_var e with Ev_tip _ => Some e | _ => None end
  | None => None
  end.
Definition qry_take_tip (q : qrydec) (e : event) : qrydec * res (option N * N) :=
  let addr := if ev_ip_suppressed e then None
              else match ev_var e with Ev_tip ip => Some ip | _ => None end in
  match pt_qry_fetch_event (keep_time q) with
  | (q', Ok _) => with_flags q' addr (if ev_ip_suppressed e then pts_ip_suppressed else 0)
  | (q', Err e) => (q', Err e)
  | (q', UB u) => (q', UB u)
  end.
Definition pt_qry_indirect_branch (q : qrydec) : qrydec * res (option N * N) :=
  match qd_status q with
  | Some e => (q, Err e)
  | None =>
      match qry_tip (qd_event q) with
      | Some e => qry_take_tip q e
      | None =>
          match pt_qry_cache_tnt q with
          | (q', Err e) => (q', Err e)
          | (q', UB u) => (q', UB u)
          | (q', Ok _) =>
              match qry_tip (qd_event q') with
              | Some e => qry_take_tip q' e
              | None => (q', Err (match qd_status q' with Some e => e | None => pte_bad_query end))
              end
          end
      end
  end.

(** pt_qry_event(), pt_query_decoder.c:527-579. *)
Definition pt_qry_event (q : qrydec) : qrydec * res (option event * N) :=
  if negb (pt_tnt_cache_is_empty (qd_tnt q)) then (q, Err pte_bad_query) else
  match qd_status q with
  | Some e => (q, Err e)
  | None =>
      if negb (pt_qry_event_pending (qd_event q)) then (q, Err pte_bad_query) else
      match pt_qry_fetch_event (keep_time q) with
      | (q', Ok _) => with_flags q' (qd_event q) 0
      | (q', Err e) => (q', Err e)
      | (q', UB u) => (q', UB u)
      end
  end.

(** pt_qry_time(), pt_query_decoder.c:581-588. *)
Definition pt_qry_time (q : qrydec) : N * N * N * res unit := pt_time_query_tsc (qd_last_time q).

(** pt_qry_core_bus_ratio(), pt_query_decoder.c:590-596. *)
Definition pt_qry_core_bus_ratio (q : qrydec) : res N := pt_time_query_cbr (qd_last_time q).
