(** Independent specification of the Intel PT packet formats.

    [in_range] gives the documented field ranges of a packet.  [wire] gives the
    byte sequence of a packet as a table of literal bytes and arithmetic
    expressions, following the packet definitions in the Intel SDM.  Neither uses
    any definition of the encoder or decoder model. *)

From Verif Require Import Base M_packet.
From Coq Require Import List NArith Bool.
Import ListNotations.
Open Scope N_scope.

(** Little-endian representation of [v] on [n] bytes. *)
Fixpoint le (n : nat) (v : N) : list N :=
  match n with
  | O => []
  | S n' => v mod 256 :: le n' (v / 256)
  end.

(** Number of IP payload bytes for an IPBytes value, if it is defined. *)
Definition ip_bytes (ipc : N) : option nat :=
  match ipc with
  | 0 => Some 0%nat
  | 1 => Some 2%nat
  | 2 => Some 4%nat
  | 3 => Some 6%nat
  | 4 => Some 6%nat
  | 6 => Some 8%nat
  | _ => None
  end.

Definition ip_in_range (p : packet_ip) : Prop :=
  match ip_bytes (ip_ipc p) with
  | Some n => ip_ip p < 2 ^ (8 * N.of_nat n)
  | None => False
  end.

Definition tnt_in_range (max : N) (t : packet_tnt) : Prop :=
  1 <= tnt_bit_size t <= max /\ tnt_payload t < 2 ^ tnt_bit_size t.

(** The documented ranges of the packet fields. *)
Definition in_range (p : payload) : Prop :=
  match p with
  | P_invalid | P_unknown _ => False
  | P_pad | P_psb | P_psbend | P_stop | P_ovf | P_exstop _ => True
  | P_fup ip | P_tip ip | P_tip_pge ip | P_tip_pgd ip => ip_in_range ip
  | P_tnt_8 t => tnt_in_range 6 t
  | P_tnt_64 t => tnt_in_range 47 t
  | P_mode (Mode_other _) => False
  | P_mode _ => True
  | P_pip cr3 _ => cr3 < 2 ^ 52 /\ cr3 mod 32 = 0
  | P_vmcs base => base < 2 ^ 52 /\ base mod 4096 = 0
  | P_cbr ratio => ratio < 2 ^ 8
  | P_tsc tsc => tsc < 2 ^ 56
  | P_tma ctc fc => ctc < 2 ^ 16 /\ fc < 2 ^ 9
  | P_mtc ctc => ctc < 2 ^ 8
  | P_cyc value => value < 2 ^ 61
  | P_mnt pl => pl < 2 ^ 64
  | P_mwait hints ext => hints < 2 ^ 32 /\ ext < 2 ^ 32
  | P_pwre state sub_state _ => state < 16 /\ sub_state < 16
  | P_pwrx last deepest _ _ _ => last < 16 /\ deepest < 16
  | P_ptw pl plc _ => (plc = 0 /\ pl < 2 ^ 32) \/ (plc = 1 /\ pl < 2 ^ 64)
  | P_cfe type vector _ => type < 32 /\ vector < 256
  | P_evd type pl => type < 32 /\ pl < 2 ^ 64
  | P_trig trbv icnt _ icntv _ =>
      trbv < 256 /\ icnt < 2 ^ 16 /\ (icntv = false -> icnt = 0)
  end.

(** The C types of the packet fields (uint8_t, uint16_t, uint32_t, uint64_t):
    what a C caller can put into struct pt_packet at all. *)
Definition c_typed (p : payload) : Prop :=
  match p with
  | P_fup ip | P_tip ip | P_tip_pge ip | P_tip_pgd ip =>
      ip_ipc ip < 2 ^ 32 /\ ip_ip ip < 2 ^ 64
  | P_tnt_8 t | P_tnt_64 t => tnt_bit_size t < 2 ^ 8 /\ tnt_payload t < 2 ^ 64
  | P_pip cr3 _ => cr3 < 2 ^ 64
  | P_vmcs base => base < 2 ^ 64
  | P_cbr ratio => ratio < 2 ^ 8
  | P_tsc tsc => tsc < 2 ^ 64
  | P_tma ctc fc => ctc < 2 ^ 16 /\ fc < 2 ^ 16
  | P_mtc ctc => ctc < 2 ^ 8
  | P_cyc value => value < 2 ^ 64
  | P_mnt pl => pl < 2 ^ 64
  | P_mwait hints ext => hints < 2 ^ 32 /\ ext < 2 ^ 32
  | P_pwre state sub_state _ => state < 2 ^ 8 /\ sub_state < 2 ^ 8
  | P_pwrx last deepest _ _ _ => last < 2 ^ 8 /\ deepest < 2 ^ 8
  | P_ptw pl plc _ => pl < 2 ^ 64 /\ plc < 2 ^ 8
  | P_cfe type vector _ => type < 2 ^ 8 /\ vector < 2 ^ 8
  | P_evd type pl => type < 2 ^ 8 /\ pl < 2 ^ 64
  | P_trig trbv icnt _ _ _ => trbv < 2 ^ 8 /\ icnt < 2 ^ 16
  | _ => True
  end.

(** CYC continuation bytes: seven payload bits each, least significant group
    first, bit 0 says whether another byte follows. *)
Fixpoint cyc_groups (fuel : nat) (v : N) : list N :=
  match fuel with
  | O => []
  | S fuel' =>
      if v =? 0 then []
      else (2 * (v mod 128) + (if v / 128 =? 0 then 0 else 1))
             :: cyc_groups fuel' (v / 128)
  end.

Definition ip_wire (opc : N) (p : packet_ip) : list N :=
  match ip_bytes (ip_ipc p) with
  | Some n => (opc + 32 * ip_ipc p) :: le n (ip_ip p)
  | None => []
  end.

(** The byte sequence of a packet. *)
Definition wire (p : payload) : list N :=
  match p with
  | P_invalid | P_unknown _ => []
  | P_pad => [0x00]
  | P_psb => [0x02; 0x82; 0x02; 0x82; 0x02; 0x82; 0x02; 0x82;
              0x02; 0x82; 0x02; 0x82; 0x02; 0x82; 0x02; 0x82]
  | P_psbend => [0x02; 0x23]
  | P_ovf => [0x02; 0xf3]
  | P_stop => [0x02; 0x83]
  | P_fup ip => ip_wire 0x1d ip
  | P_tip ip => ip_wire 0x0d ip
  | P_tip_pge ip => ip_wire 0x11 ip
  | P_tip_pgd ip => ip_wire 0x01 ip
  | P_tnt_8 t => [2 * (2 ^ tnt_bit_size t + tnt_payload t)]
  | P_tnt_64 t => 0x02 :: 0xa3 :: le 6 (2 ^ tnt_bit_size t + tnt_payload t)
  | P_mode (Mode_exec csl csd iflag) =>
      [0x99; b2n csl + 2 * b2n csd + 4 * b2n iflag]
  | P_mode (Mode_tsx intx abrt) => [0x99; 0x20 + b2n intx + 2 * b2n abrt]
  | P_mode (Mode_other _) => []
  | P_pip cr3 nr => 0x02 :: 0x43 :: le 6 (2 * (cr3 / 32) + b2n nr)
  | P_vmcs base => 0x02 :: 0xc8 :: le 5 (base / 4096)
  | P_cbr ratio => [0x02; 0x03; ratio; 0x00]
  | P_tsc tsc => 0x19 :: le 7 tsc
  | P_tma ctc fc => 0x02 :: 0x73 :: le 2 ctc ++ [0x00] ++ le 2 fc
  | P_mtc ctc => [0x59; ctc]
  | P_cyc value =>
      (3 + (if value / 32 =? 0 then 0 else 4) + 8 * (value mod 32))
        :: cyc_groups 8 (value / 32)
  | P_mnt pl => 0x02 :: 0xc3 :: 0x88 :: le 8 pl
  | P_exstop ip => [0x02; if ip then 0xe2 else 0x62]
  | P_mwait hints ext => 0x02 :: 0xc2 :: le 4 hints ++ le 4 ext
  | P_pwre state sub_state hw =>
      0x02 :: 0x22 :: le 2 (4096 * state + 256 * sub_state + 8 * b2n hw)
  | P_pwrx last deepest interrupt store autonomous =>
      0x02 :: 0xa2 :: le 5 (deepest + 16 * last + 256 * b2n interrupt
                            + 1024 * b2n store + 2048 * b2n autonomous)
  | P_ptw pl plc ip =>
      0x02 :: (0x12 + 32 * plc + 128 * b2n ip)
           :: le (if plc =? 0 then 4 else 8) pl
  | P_cfe type vector ip => [0x02; 0x13; type + 128 * b2n ip; vector]
  | P_evd type pl => 0x02 :: 0x53 :: type :: le 8 pl
  | P_trig trbv icnt ip icntv mult =>
      0xd9 :: (128 * b2n ip + 64 * b2n icntv + 32 * b2n mult) :: trbv
           :: (if icntv then le 2 icnt else [])
  end.

(** When the SKD007 workaround is enabled, a two-byte CYC whose second byte looks
    like the extended opcode followed by a byte that looks like the OVF opcode is
    reported as OVF: CYC values 32..63 followed by 0xf3. *)
Definition skd007_pattern (p : payload) (post : list N) : Prop :=
  exists v, p = P_cyc v /\ 32 <= v < 64 /\ hd_error post = Some 0xf3.

(** No two adjacent packets of a stream form that pattern: 0xf3 is the encoding of
    a CYC packet with value 30. *)
Definition no_skd007_pair (ps : list payload) : Prop :=
  forall a v b, 32 <= v < 64 -> ps <> a ++ P_cyc v :: P_cyc 30 :: b.
