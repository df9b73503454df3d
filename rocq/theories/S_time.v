(** Specifications for time tracking and calibration. *)

From Verif Require Import Base M_config M_time.
From Coq Require Import List NArith Bool.
Import ListNotations.
Open Scope N_scope.

(** The timing packets seen by the time tracker.  For a CYC packet the caller passes
    the current fast-counter:cycles ratio. *)
Inductive time_op :=
| OpTsc (tsc : N) | OpTma (ctc fc : N) | OpMtc (ctc : N) | OpCyc (value fcr : N)
| OpCbr (ratio : N).

Definition time_update (c : config) (t : time) (o : time_op) : time * res unit :=
  match o with
  | OpTsc tsc => pt_time_update_tsc t tsc
  | OpTma ctc fc => pt_time_update_tma t ctc fc c
  | OpMtc ctc => pt_time_update_mtc t ctc c
  | OpCyc value fcr => pt_time_update_cyc t value c fcr
  | OpCbr ratio => pt_time_update_cbr t ratio
  end.

(** After each packet: the status of the update, and the time. *)
Definition time_step (c : config) (t : time) (o : time_op)
  : time * (res unit * (N * N * N * res unit)) :=
  let (t', r) := time_update c t o in (t', (r, pt_time_query_tsc t')).

(** The state after a history. *)
Definition time_run (c : config) (t : time) (ops : list time_op) : time :=
  fold_left (fun t o => fst (time_update c t o)) ops t.

(** ** What the hardware does *)

(** The crystal clock counts without bound.  An MTC packet carries eight bits of the
    count, from bit [mtc_freq] upwards; a TMA packet carries the low sixteen bits.
    CYC and CBR packets may come in between. *)
Inductive hw_op := HwMtc (count : N) | HwCyc (value fcr : N) | HwCbr (ratio : N).

Definition hw_packet (c : config) (o : hw_op) : time_op :=
  match o with
  | HwMtc count => OpMtc (count / 2 ^ cf_mtc_freq c mod 256)
  | HwCyc value fcr => OpCyc value fcr
  | HwCbr ratio => OpCbr ratio
  end.

(** MTC packets are sent when the selected bits change, i.e. at multiples of
    2^mtc_freq.  [limit] bounds the number of ticks up to the first MTC;
    2^(mtc_freq+8) bounds it between MTC packets. *)
Fixpoint hw_ok (c : config) (limit last : N) (h : list hw_op) : Prop :=
  match h with
  | [] => True
  | HwMtc count :: h' =>
      count mod 2 ^ cf_mtc_freq c = 0 /\ last <= count < last + limit /\
      hw_ok c (2 ^ (cf_mtc_freq c + 8)) count h'
  | _ :: h' => hw_ok c limit last h'
  end.

(** The elapsed time in units of the time stamp counter: each period is the number of
    ticks times the clock ratio, rounded down. *)
Fixpoint hw_elapsed (c : config) (last : N) (h : list hw_op) : N :=
  match h with
  | [] => 0
  | HwMtc count :: h' =>
      (count - last) * cf_cpuid_0x15_ebx c / cf_cpuid_0x15_eax c + hw_elapsed c count h'
  | _ :: h' => hw_elapsed c last h'
  end.

(** The clock ratio is configured. *)
Definition ratio_ok (c : config) : Prop :=
  0 < cf_cpuid_0x15_eax c < 2 ^ 32 /\ 0 < cf_cpuid_0x15_ebx c < 2 ^ 32.

(** ** Calibration *)

Inductive tcal_op :=
| CalPsb | CalTsc (tsc : N) | CalHeaderTsc (tsc : N) | CalCbr (ratio : N)
| CalHeaderCbr (ratio : N) | CalTma | CalMtc (ctc : N) | CalCyc (value : N) | CalOvf.

Definition tcal_update (c : config) (l : tcal) (o : tcal_op) : tcal * res unit :=
  match o with
  | CalPsb => pt_tcal_update_psb l c
  | CalTsc tsc => pt_tcal_update_tsc l tsc
  | CalHeaderTsc tsc => pt_tcal_header_tsc l tsc
  | CalCbr ratio => pt_tcal_update_cbr l ratio c
  | CalHeaderCbr ratio => pt_tcal_header_cbr l ratio c
  | CalTma => pt_tcal_update_tma l
  | CalMtc ctc => pt_tcal_update_mtc l ctc c
  | CalCyc value => pt_tcal_update_cyc l value
  | CalOvf => pt_tcal_update_ovf l
  end.

Definition tcal_run (c : config) (l : tcal) (ops : list tcal_op) : tcal :=
  fold_left (fun l o => fst (tcal_update c l o)) ops l.

(** The cycles counted by a list of CYC packets, and the corresponding time at given
    ratios (in units of 1/256), each rounded down. *)
Fixpoint total (vs : list N) : N := match vs with [] => 0 | v :: vs' => v + total vs' end.
Fixpoint cyc_time (vs : list (N * N)) : N :=
  match vs with [] => 0 | (v, r) :: vs' => v * r / 256 + cyc_time vs' end.
Definition cyc_packets (vs : list (N * N)) : list time_op :=
  map (fun p => OpCyc (fst p) (snd p)) vs.

(** The CYC packets without calibration since the last MTC packet. *)
Fixpoint lost_cycs (n : N) (h : list hw_op) : N :=
  match h with
  | [] => n
  | HwMtc _ :: h' => lost_cycs 0 h'
  | HwCyc _ r :: h' => lost_cycs (if r =? 0 then n + 1 else n) h'
  | HwCbr _ :: h' => lost_cycs n h'
  end.
