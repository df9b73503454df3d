(** Sequences of API calls used in the statements: only iterate the modelled
    functions and record what the caller sees. *)

From Verif Require Import Base M_packet M_config M_encoder M_pktdec.
From Coq Require Import List NArith.
Import ListNotations.

(** Encode a list of packets; record the result of every call and the encoder
    offset after it. *)
Fixpoint enc_run (e : enc) (ps : list payload) : enc * list (res nat * N) :=
  match ps with
  | [] => (e, [])
  | p :: ps' =>
      let (e1, r) := pt_enc_next e p in
      let (e2, rs) := enc_run e1 ps' in
      (e2, (r, pt_enc_get_offset e1) :: rs)
  end.

(** Call pt_pkt_next() [k] times; record every result and the decoder offset
    after it. *)
Fixpoint dec_run (d : pktdec) (k : nat) : pktdec * list (res packet * res N) :=
  match k with
  | O => (d, [])
  | S k' =>
      let (d1, r) := pt_pkt_next d in
      let (d2, rs) := dec_run d1 k' in
      (d2, (r, pt_pkt_get_offset d1) :: rs)
  end.
