(** What queries answer, given the events of the trace. *)

From Verif Require Import Base M_config M_event M_evdec M_query S_core.
From Coq Require Import List NArith Bool.
Import ListNotations.

(** The events that an event decoder delivers, and the error that ends them. *)
Inductive stream : evdec -> list event -> pte -> Prop :=
| stream_end d d' e : pt_evt_next d = (d', Err e) -> stream d [] e
| stream_next d d' ev evs e : pt_evt_next d = (d', Ok ev) -> stream d' evs e ->
    stream d (ev :: evs) e.

(** The first address: the one at which the status updates of the PSB+ say that tracing is on.
    Only the events of that PSB+ count; the decoder's position is behind it until they
    are used up. *)
Inductive first_from (pos : nat) : evdec -> option N -> Prop :=
| first_moved d : evt_pos d <> pos -> first_from pos d None
| first_end d d' : evt_pos d = pos -> pt_evt_next d = (d', Err pte_eos) -> first_from pos d None
| first_none d d' ev : evt_pos d = pos -> pt_evt_next d = (d', Ok ev) -> ev_status_update ev = false ->
    first_from pos d None
| first_found d d' ev ip b : evt_pos d = pos -> pt_evt_next d = (d', Ok ev) -> ev_status_update ev = true ->
    ev_var ev = Ev_enabled ip b -> first_from pos d (Some ip)
| first_later d d' ev r : evt_pos d = pos -> pt_evt_next d = (d', Ok ev) -> ev_status_update ev = true ->
    (forall ip b, ev_var ev <> Ev_enabled ip b) -> first_from pos d' r -> first_from pos d r.
Definition first_address (d : evdec) : option N -> Prop := first_from (evt_pos d) d.

(** The queries and their answers. *)
Inductive qry_op := Q_cond | Q_indirect | Q_event.
Inductive qry_answer :=
| A_cond (r : res (bool * N))
| A_indirect (r : res (option N * N))
| A_event (r : res (option event * N)).

Definition qry_step (q : qrydec) (o : qry_op) : qrydec * qry_answer :=
  match o with
  | Q_cond => let (q', r) := pt_qry_cond_branch q in (q', A_cond r)
  | Q_indirect => let (q', r) := pt_qry_indirect_branch q in (q', A_indirect r)
  | Q_event => let (q', r) := pt_qry_event q in (q', A_event r)
  end.

(** The abstract decoder: the bits that were read ahead, the events to come, and the
    error behind them. *)
Record qspec := mk_qspec { qs_bits : list bool; qs_evs : list event; qs_err : pte }.

Definition is_tnt (e : event) : bool := match ev_var e with Ev_tnt _ _ => true | _ => false end.
Definition is_tip (e : event) : bool := match ev_var e with Ev_tip _ => true | _ => false end.
Definition plain (e : event) : bool := negb (is_tnt e) && negb (is_tip e).
Definition bits_of (e : event) : list bool :=
  match ev_var e with Ev_tnt bits size => payload_bits bits size | _ => [] end.

(** The status: the end of the trace or a pending event is only told once the bits are
    used up.  An error other than the end counts as pending. *)
Definition qs_flags (s : qspec) : N :=
  match qs_bits s, qs_evs s with
  | _ :: _, _ => 0
  | [], [] => match qs_err s with pte_eos => pts_eos | _ => pts_event_pending end
  | [], e :: _ => if plain e then pts_event_pending else 0
  end.

(** Move the bits of the next event to the others; they must fit. *)
Definition absorb (s : qspec) : qspec * res unit :=
  match qs_evs s with
  | [] => (s, Err (qs_err s))
  | e :: evs =>
      if is_tnt e then
        if Nat.leb (length (qs_bits s ++ bits_of e)) 64
        then (mk_qspec (qs_bits s ++ bits_of e) evs (qs_err s), Ok tt)
        else (s, Err pte_overflow)
      else (s, Ok tt)
  end.

(** Why there is no answer. *)
Definition qs_none (s : qspec) : pte :=
  match qs_evs s with [] => qs_err s | _ => pte_bad_query end.

Definition spec_cond (s : qspec) : qspec * res (bool * N) :=
  let take s := match qs_bits s with
                | b :: bits => let s' := mk_qspec bits (qs_evs s) (qs_err s) in
                               (s', Ok (b, qs_flags s'))
                | [] => (s, Err (qs_none s))
                end in
  match qs_bits s with
  | _ :: _ => take s
  | [] => match absorb s with (s', Ok _) => take s' | (s', Err e) => (s', Err e)
          | (s', UB u) => (s', UB u) end
  end.

Definition spec_indirect (s : qspec) : qspec * res (option N * N) :=
  let take s := match qs_evs s with
                | e :: evs =>
                    match ev_var e with
                    | Ev_tip ip =>
                        let s' := mk_qspec (qs_bits s) evs (qs_err s) in
                        (s', Ok (if ev_ip_suppressed e then None else Some ip,
                                 N.lor (if ev_ip_suppressed e then pts_ip_suppressed else 0)
                                       (qs_flags s')))
                    | _ => (s, Err pte_bad_query)
                    end
                | [] => (s, Err (qs_err s))
                end in
  match absorb s with (s', Ok _) => take s' | (s', Err e) => (s', Err e)
  | (s', UB u) => (s', UB u) end.

Definition spec_event (s : qspec) : qspec * res (option event * N) :=
  match qs_bits s, qs_evs s with
  | _ :: _, _ => (s, Err pte_bad_query)
  | [], [] => (s, Err (qs_err s))
  | [], e :: evs =>
      if plain e then
        let s' := mk_qspec [] evs (qs_err s) in (s', Ok (Some e, qs_flags s'))
      else (s, Err pte_bad_query)
  end.

Definition spec_step (s : qspec) (o : qry_op) : qspec * qry_answer :=
  match o with
  | Q_cond => let (s', r) := spec_cond s in (s', A_cond r)
  | Q_indirect => let (s', r) := spec_indirect s in (s', A_indirect r)
  | Q_event => let (s', r) := spec_event s in (s', A_event r)
  end.

(** What a user learns about the control flow. *)
Inductive fact := F_bit (b : bool) | F_tip (ip : option N) | F_event (e : event).

Definition facts_of (e : event) : list fact :=
  match ev_var e with
  | Ev_tnt _ _ => map F_bit (bits_of e)
  | Ev_tip ip => [F_tip (if ev_ip_suppressed e then None else Some ip)]
  | _ => [F_event e]
  end.
Definition fact_learned (a : qry_answer) : list fact :=
  match a with
  | A_cond (Ok (b, _)) => [F_bit b]
  | A_indirect (Ok (ip, _)) => [F_tip ip]
  | A_event (Ok (Some e, _)) => [F_event e]
  | _ => []
  end.
Definition not_tip (f : fact) : bool := match f with F_tip _ => false | _ => true end.
Definition not_bit (f : fact) : bool := match f with F_bit _ => false | _ => true end.

Definition prefix {A} (l l' : list A) : Prop := exists r, l' = l ++ r.

(** ** Histories *)

Inductive qry_sync_op := Qs_forward | Qs_backward (rounds : nat) | Qs_set (offset : N).
Definition qry_sync_step (base : nat) (q : qrydec) (o : qry_sync_op) : qrydec * res (option N * N) :=
  match o with
  | Qs_forward => pt_qry_sync_forward base q
  | Qs_backward n => pt_qry_sync_backward n base q
  | Qs_set offset => pt_qry_sync_set offset q
  end.

(** The event decoder [e] is what the same synchronization makes of the event decoder [q],
    pt_evt_sync_forward() and pt_evt_sync_set(). *)
Definition synced_to (base : nat) (q : evdec) (o : qry_sync_op) (e : evdec) : Prop :=
  match o with
  | Qs_forward => pt_evt_sync_forward base q = (e, Ok tt)
  | Qs_set off => pt_evt_sync_set off q = (e, Ok tt)
  | Qs_backward _ => True
  end.
(** The decoders that a history of calls leads to. *)
Inductive qry_reachable (base : nat) (cf : config) (buf : list N) : qrydec -> Prop :=
| qreach_init : qry_reachable base cf buf (pt_qry_decoder_init cf buf)
| qreach_sync q o q' r : qry_reachable base cf buf q -> qry_sync_step base q o = (q', r) ->
    (forall u, r <> UB u) -> qry_reachable base cf buf q'
| qreach_query q o q' a : qry_reachable base cf buf q -> qry_step q o = (q', a) ->
    qry_reachable base cf buf q'.

Definition answer_ub (a : qry_answer) : option ub :=
  match a with
  | A_cond (UB u) | A_indirect (UB u) | A_event (UB u) => Some u
  | _ => None
  end.
Definition answer_error (a : qry_answer) : option pte :=
  match a with
  | A_cond (Err e) | A_indirect (Err e) | A_event (Err e) => Some e
  | _ => None
  end.
