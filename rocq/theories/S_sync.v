(** Specification vocabulary for synchronisation and for histories of packet
    decoder calls. *)

From Verif Require Import Base M_packet M_config M_pktdec M_sync.
From Coq Require Import List NArith PeanoNat.
Import ListNotations.
Open Scope N_scope.

(** A PSB packet: 02 82, eight times. *)
Definition psb_bytes : list N :=
  [0x02; 0x82; 0x02; 0x82; 0x02; 0x82; 0x02; 0x82;
   0x02; 0x82; 0x02; 0x82; 0x02; 0x82; 0x02; 0x82].

(** There is a PSB packet at offset [i], completely inside the buffer. *)
Definition psb_at (buf : list N) (i : nat) : Prop :=
  firstn 16 (skipn i buf) = psb_bytes.

(** The bytes from offset [a] (inclusive) to offset [b] (exclusive) are inside the
    buffer and are the unbroken pattern 02 82 02 82 ... *)
Definition pattern (buf : list N) (a b : nat) : Prop :=
  forall i, (a <= i < b)%nat ->
    nth_error buf i = Some (if Nat.even (i - a) then 0x02 else 0x82).

(** The offset at which the search of pt_pkt_sync_forward() starts: PSB's that
    were partially consumed are found, the PSB at the current synchronisation
    point is not found again. *)
Definition search_start (d : pktdec) : nat :=
  match pd_pos d with
  | None => 0
  | Some p =>
      match pd_sync d with
      | Some s => if Nat.eqb p s then S p else p - 15
      | None => p - 15
      end
  end%nat.

(** The calls a user can make on a packet decoder. *)
Inductive pkt_op :=
| Op_sync_set (offset : N)
| Op_sync_forward
| Op_sync_backward
| Op_next.

(** One call: new decoder, and the return code (the packet is dropped). *)
Definition pkt_step (base : nat) (d : pktdec) (o : pkt_op) : pktdec * res unit :=
  match o with
  | Op_sync_set offset => pt_pkt_sync_set d offset
  | Op_sync_forward => pt_pkt_sync_forward base d
  | Op_sync_backward => pt_pkt_sync_backward base d
  | Op_next =>
      let (d', r) := pt_pkt_next d in
      (d', let* _ := r in Ok tt)
  end.

(** A history of calls: what the caller sees after each call, i.e. its return code
    and the results of pt_pkt_get_offset() and pt_pkt_get_sync_offset(). *)
Record obs := mk_obs { ob_ret : res unit; ob_offset : res N; ob_sync : res N }.

Definition observe (d : pktdec) (r : res unit) : obs :=
  mk_obs r (pt_pkt_get_offset d) (pt_pkt_get_sync_offset d).

Fixpoint pkt_run (base : nat) (d : pktdec) (ops : list pkt_op)
  : pktdec * list obs :=
  match ops with
  | [] => (d, [])
  | o :: ops' =>
      let (d1, r) := pkt_step base d o in
      let (d2, rs) := pkt_run base d1 ops' in
      (d2, observe d1 r :: rs)
  end.

(** The operation is one of the three synchronisation calls. *)
Definition is_sync_op (o : pkt_op) : bool :=
  match o with Op_next => false | _ => true end.

(** Some synchronisation call of the history succeeded. *)
Definition synced (ops : list pkt_op) (rs : list obs) : bool :=
  existsb (fun x => andb (is_sync_op (fst x)) (is_ok (ob_ret (snd x))))
          (combine ops rs).

(** The sync offsets reported after the successful pt_pkt_sync_forward() calls of
    a history, in order. *)
Fixpoint forward_offsets (ops : list pkt_op) (rs : list obs) : list (res N) :=
  match ops, rs with
  | Op_sync_forward :: ops', r :: rs' =>
      if is_ok (ob_ret r) then ob_sync r :: forward_offsets ops' rs'
      else forward_offsets ops' rs'
  | _ :: ops', _ :: rs' => forward_offsets ops' rs'
  | _, _ => []
  end.

(** A strictly increasing sequence of offsets. *)
Inductive increasing : list (res N) -> Prop :=
| inc_nil : increasing []
| inc_one : forall a, increasing [Ok a]
| inc_cons : forall a b l, a < b -> increasing (Ok b :: l) ->
    increasing (Ok a :: Ok b :: l).
