(** Property theorems for the packet encoder and decoder: C01-C06, C37. *)

From Verif Require Import Base M_packet M_config M_encoder M_pktdec S_packet S_run
  L_packet.
From Coq Require Import List NArith.
Import ListNotations.
Open Scope N_scope.

(** ** C01: packet encode/decode round trip *)

Theorem C01_packet_round_trip :
  forall (e e' : enc) (p : payload) (n : nat) (cf : config) (sync : option nat),
  in_range p ->
  pt_enc_next e p = (e', Ok n) ->
  (er_skd007 (cf_errata cf) = false \/
   ~ skd007_pattern p (skipn (e_pos e') (e_buf e'))) ->
  pt_pkt_next (mk_pktdec cf (e_buf e') (Some (e_pos e)) sync)
  = (mk_pktdec cf (e_buf e') (Some (e_pos e')) sync, Ok (mk_packet p n)).
Proof. exact round_trip. Qed.
Print Assumptions C01_packet_round_trip.

(** The hypotheses are met by a non-trivial packet in the middle of a buffer. *)
Example C01_example :
  let e := mk_enc (repeat 0xaa 20) 3 in
  let p := P_tip (mk_ip 3 0xffff80001234) in
  in_range p /\ snd (pt_enc_next e p) = Ok 7%nat /\
  pt_pkt_next (mk_pktdec config0 (e_buf (fst (pt_enc_next e p))) (Some 3%nat) None)
  = (mk_pktdec config0 (e_buf (fst (pt_enc_next e p))) (Some 10%nat) None,
     Ok (mk_packet p 7)).
Proof. vm_compute. repeat split. Qed.

(** The range condition is needed: the encoder accepts CYC values that the decoder
    rejects, and TNT packets without any bit. *)
Theorem C01_cyc_wide_refuted :
  exists v e', v < 2 ^ 64 /\
  pt_enc_next (mk_enc (repeat 0 20) 0) (P_cyc v) = (e', Ok 10%nat) /\
  snd (pt_pkt_next (mk_pktdec config0 (e_buf e') (Some 0%nat) None))
  = Err pte_bad_packet.
Proof.
  exists (2 ^ 61). eexists. split; [reflexivity |]. split; vm_compute; reflexivity.
Qed.
Print Assumptions C01_cyc_wide_refuted.

Theorem C01_tnt_empty_refuted :
  exists e' n, pt_enc_next (mk_enc (repeat 0 20) 0) (P_tnt_8 (mk_tnt 0 0)) = (e', Ok n)
  /\ snd (pt_pkt_next (mk_pktdec config0 (e_buf e') (Some 0%nat) None))
     = Err pte_bad_opc.
Proof. eexists. eexists. split; vm_compute; reflexivity. Qed.
Print Assumptions C01_tnt_empty_refuted.

(** ** C02: packet stream round trip *)

Theorem C02_stream_round_trip :
  forall (cf : config) (buf : list N) (ps : list payload) (e : enc)
         (rs : list (res nat * N)),
  Forall in_range ps ->
  er_skd007 (cf_errata cf) = false \/ no_skd007_pair ps ->
  enc_run (pt_encoder_init buf) ps = (e, rs) ->
  Forall (fun r => is_ok (fst r) = true) rs ->
  e_pos e = length buf ->
  exists d d' out,
    pt_pkt_sync_set (pt_pkt_decoder_init cf (e_buf e)) 0 = (d, Ok tt) /\
    dec_run d (length ps) = (d', out) /\
    snd (pt_pkt_next d') = Err pte_eos /\
    Forall2 (fun (p : payload * (res nat * N)) (o : res packet * res N) =>
               exists n, fst (snd p) = Ok n /\ fst o = Ok (mk_packet (fst p) n) /\
                         snd o = Ok (snd (snd p)))
            (combine ps rs) out /\
    length rs = length ps.
Proof. exact stream_round_trip. Qed.
Print Assumptions C02_stream_round_trip.

Example C02_example :
  let ps := [P_psb; P_tsc 0x123456789abcd; P_fup (mk_ip 6 0xffffffff81000000);
             P_psbend; P_tnt_8 (mk_tnt 3 5); P_cyc 12345678; P_pad] in
  let r := enc_run (pt_encoder_init (repeat 0 41)) ps in
  Forall in_range ps /\ Forall (fun r => is_ok (fst r) = true) (snd r) /\
  e_pos (fst r) = 41%nat /\ no_skd007_pair ps.
Proof.
  cbv zeta. split; [| split; [| split]].
  - repeat apply Forall_cons; try apply Forall_nil; vm_compute; repeat split;
      try reflexivity; intro; discriminate.
  - vm_compute. repeat apply Forall_cons; try apply Forall_nil; reflexivity.
  - vm_compute. reflexivity.
  - intros a v b Hv H.
    repeat (destruct a as [| ? a]; [discriminate H | injection H as _ H]).
    destruct a; discriminate H.
Qed.

(** ** C03: the encoder stays inside its buffer; failed encodes have no effect *)

Theorem C03_encoder_frame :
  forall (e : enc) (p : payload),
  match pt_enc_next e p with
  | (e', Ok n) =>
      (1 <= n)%nat /\ e_pos e' = (e_pos e + n)%nat /\
      (e_pos e' <= length (e_buf e))%nat /\
      length (e_buf e') = length (e_buf e) /\
      (forall i, (i < e_pos e \/ e_pos e + n <= i)%nat ->
                 nth_error (e_buf e') i = nth_error (e_buf e) i) /\
      (bytes_ok (e_buf e) -> bytes_ok (e_buf e'))
  | (e', Err _) => e' = e
  | (_, UB _) => False
  end.
Proof. exact enc_frame. Qed.
Print Assumptions C03_encoder_frame.

(** Both outcomes occur: success, and an error with no effect. *)
Example C03_example :
  snd (pt_enc_next (mk_enc (repeat 7 9) 1) (P_tsc 42)) = Ok 8%nat /\
  pt_enc_next (mk_enc (repeat 7 8) 1) (P_tsc 42)
  = (mk_enc (repeat 7 8) 1, Err pte_eos).
Proof. vm_compute. split; reflexivity. Qed.

(** An in-range packet is accepted whenever it fits, and rejected with -pte_eos
    otherwise. *)
Theorem C03_encoder_accepts :
  forall (e : enc) (p : payload), in_range p ->
  ((e_pos e + length (wire p) <= length (e_buf e))%nat ->
   exists e', pt_enc_next e p = (e', Ok (length (wire p)))) /\
  ((length (e_buf e) < e_pos e + length (wire p))%nat ->
   pt_enc_next e p = (e, Err pte_eos)).
Proof.
  exact (fun e p H => conj (fun Hl => ex_intro _ _ (enc_wire e p H Hl))
                           (enc_no_room e p H)).
Qed.
Print Assumptions C03_encoder_accepts.

(** ** C04: packet decoding never reads outside the trace buffer *)

Theorem C04_no_out_of_bounds_read :
  forall (d : pktdec), no_ub (snd (pt_pkt_next d)).
Proof. exact pkt_next_no_ub. Qed.
Print Assumptions C04_no_out_of_bounds_read.

(** A packet cut off by the end of the buffer gives -pte_eos and changes nothing. *)
Theorem C04_truncated_packet :
  forall (cf : config) (pre : list N) (p : payload) (k : nat) (sync : option nat),
  bytes_ok pre -> in_range p -> (k < length (wire p))%nat ->
  let d := mk_pktdec cf (pre ++ firstn k (wire p)) (Some (length pre)) sync in
  pt_pkt_next d = (d, Err pte_eos).
Proof. exact truncated_eos. Qed.
Print Assumptions C04_truncated_packet.

Example C04_example :
  in_range (P_mnt 0x1122334455667788) /\
  (10 < length (wire (P_mnt 0x1122334455667788)))%nat /\
  bytes_ok [1; 2; 3].
Proof. vm_compute. repeat constructor. Qed.

(** ** C05: progress and position accounting *)

Theorem C05_accounting :
  forall (d d' : pktdec) (p : packet),
  pt_pkt_next d = (d', Ok p) ->
  exists pos pos', pd_pos d = Some pos /\ pd_pos d' = Some pos' /\
  pd_sync d' = pd_sync d /\ pd_buf d' = pd_buf d /\ pd_config d' = pd_config d /\
  match pkt_pl p with
  | P_unknown _ =>  (* the size is chosen by the user's callback *)
      pos' = (pos + pkt_size p)%nat /\ (pos' <= length (pd_buf d))%nat
  | P_invalid =>    (* SKZ84 *)
      er_skz84 (cf_errata (pd_config d)) = true /\
      pkt_size p = 8%nat /\ pos' = (pos + 8)%nat /\
      (pos' <= length (pd_buf d) + 1)%nat
  | P_ovf =>        (* SKD007 *)
      (pos' = (pos + pkt_size p)%nat \/
       er_skd007 (cf_errata (pd_config d)) = true /\
       pos' = (pos + pkt_size p + 1)%nat) /\
      (1 <= pkt_size p)%nat /\ (pos' <= length (pd_buf d))%nat
  | _ =>
      pos' = (pos + pkt_size p)%nat /\ (1 <= pkt_size p)%nat /\
      (pos' <= length (pd_buf d))%nat
  end.
Proof. exact next_accounting. Qed.
Print Assumptions C05_accounting.

Theorem C05_failure_keeps_position :
  forall (d d' : pktdec) (e : pte), pt_pkt_next d = (d', Err e) -> d' = d.
Proof. exact next_fail_same. Qed.
Print Assumptions C05_failure_keeps_position.

Example C05_example :
  exists d',
  pt_pkt_next (mk_pktdec config0 [0x19; 1; 2; 3; 4; 5; 6; 7; 0] (Some 0%nat) None)
  = (d', Ok (mk_packet (P_tsc 0x07060504030201) 8)) /\ pd_pos d' = Some 8%nat.
Proof. eexists. split; vm_compute; reflexivity. Qed.

(** With SKZ84 enabled the position can pass the end of the buffer by one byte. *)
Theorem C05_skz84_overrun_refuted :
  exists cf buf d' p,
  bytes_ok buf /\
  pt_pkt_next (mk_pktdec cf buf (Some 0%nat) None) = (d', Ok p) /\
  pd_pos d' = Some (S (length buf)).
Proof.
  exists (mk_config None
            (mk_errata false false false false false false false false false true)
            0 0 0 0 false false no_filter), [0x02; 0x73; 1; 2; 3; 4; 0].
  do 2 eexists. split; [repeat constructor | split; vm_compute; reflexivity].
Qed.
Print Assumptions C05_skz84_overrun_refuted.

(** ** C06: decoding does not depend on what follows the packet *)

Theorem C06_extension :
  forall (cf : config) (buf ext : list N) (pos : nat) (sync : option nat),
  bytes_ok buf ->
  (forall cb, cf_callback cf = Some cb -> cb (buf ++ ext) pos = cb buf pos) ->
  (er_skd007 (cf_errata cf) = true -> (pos + 2 = length buf)%nat ->
   forall d' v, 32 <= v < 64 ->
     pt_pkt_next (mk_pktdec cf buf (Some pos) sync)
     <> (d', Ok (mk_packet (P_cyc v) 2))) ->
  let d := mk_pktdec cf buf (Some pos) sync in
  let dx := mk_pktdec cf (buf ++ ext) (Some pos) sync in
  snd (pt_pkt_next d) = Err pte_eos \/
  (snd (pt_pkt_next dx) = snd (pt_pkt_next d) /\
   pd_pos (fst (pt_pkt_next dx)) = pd_pos (fst (pt_pkt_next d))).
Proof. exact next_stable. Qed.
Print Assumptions C06_extension.

Example C06_example :
  let buf := [0x0d + 0x60; 1; 2; 3; 4; 5; 6] in
  bytes_ok buf /\ er_skd007 (cf_errata config0) = false /\
  cf_callback config0 = None /\
  is_ok (snd (pt_pkt_next (mk_pktdec config0 buf (Some 0%nat) None))) = true.
Proof. vm_compute. repeat constructor. Qed.

(** ** C37: the encoder writes the documented wire format *)

Theorem C37_wire_format :
  forall (e : enc) (p : payload), in_range p ->
  (e_pos e + length (wire p) <= length (e_buf e))%nat ->
  pt_enc_next e p
  = (mk_enc (firstn (e_pos e) (e_buf e) ++ wire p
             ++ skipn (e_pos e + length (wire p)) (e_buf e))
            (e_pos e + length (wire p)), Ok (length (wire p))).
Proof. exact enc_wire. Qed.
Print Assumptions C37_wire_format.

Example C37_example :
  in_range (P_pip 0x1234567000 true) /\
  wire (P_pip 0x1234567000 true) = [0x02; 0x43; 0x01; 0x67; 0x45; 0x23; 0x01; 0x00].
Proof. vm_compute. repeat split. Qed.
