(** Histories of calls of the event decoder. *)

From Verif Require Import Base M_config M_pktdec M_event M_evdec.
From Coq Require Import List NArith.
Import ListNotations.

(** The calls.  The number of rounds that pt_evt_sync_backward() may take is given
    with the call. *)
Inductive evt_op :=
| Evt_sync_forward
| Evt_sync_backward (rounds : nat)
| Evt_sync_set (offset : N)
| Evt_next.

(** One call: new decoder, and the event if pt_evt_next() returned one. *)
Definition evt_step (base : nat) (d : evdec) (o : evt_op) : evdec * res (option event) :=
  let no_event (r : evdec * res unit) := (fst r, let* _ := snd r in Ok None) in
  match o with
  | Evt_sync_forward => no_event (pt_evt_sync_forward base d)
  | Evt_sync_backward n => no_event (pt_evt_sync_backward n base d)
  | Evt_sync_set offset => no_event (pt_evt_sync_set offset d)
  | Evt_next => let (d', r) := pt_evt_next d in (d', let* e := r in Ok (Some e))
  end.

(** A history: each call with its result and the position of the decoder after it.
    Nothing follows undefined behaviour. *)
Fixpoint evt_run (base : nat) (d : evdec) (ops : list evt_op)
  : list (evt_op * res (option event) * nat) :=
  match ops with
  | [] => []
  | o :: ops =>
      let (d', r) := evt_step base d o in
      (o, r, evt_pos d') ::
      match r with
      | UB _ => []
      | _ => evt_run base d' ops
      end
  end.

(** A run of pt_evt_next() calls that all deliver an event. *)
Fixpoint delivers (n : nat) (d : evdec) : Prop :=
  match n with
  | O => True
  | S n => exists d' e, pt_evt_next d = (d', Ok e) /\ delivers n d'
  end.

(** The decoders that a history of calls leads to. *)
Inductive reachable (base : nat) (cf : config) (buf : list N) : evdec -> Prop :=
| reach_init : reachable base cf buf (pt_evt_decoder_init cf buf)
| reach_step d o d' r : reachable base cf buf d -> evt_step base d o = (d', r) ->
    (forall u, r <> UB u) -> reachable base cf buf d'.

(** The callback for unknown packets, if there is one, never answers with size zero. *)
Definition callback_sized (cf : config) : Prop :=
  match cf_callback cf with
  | Some cb => forall buf pos v, cb buf pos <> Cb_size 0 v
  | None => True
  end.
