(** The decoder configuration record:
    /repo/libipt/include/intel-pt.h.in:244-552. *)

From Verif Require Import Base.
From Coq Require Import List NArith.
Open Scope N_scope.

(** struct pt_errata, intel-pt.h.in:244-364. *)
Record errata := mk_errata {
  er_bdm70 : bool; er_bdm64 : bool; er_skd007 : bool; er_skd022 : bool;
  er_skd010 : bool; er_skl014 : bool; er_apl12 : bool; er_apl11 : bool;
  er_skl168 : bool; er_skz84 : bool }.

Definition no_errata : errata :=
  mk_errata false false false false false false false false false false.

(** What the unknown-packet callback may do, intel-pt.h.in:494-512: return a
    negative error code or a non-negative size (and set the private pointer). *)
Inductive cb_result :=
| Cb_err (e : pte)
| Cb_size (size : N) (priv : N).

(** The callback sees the trace buffer and the position. *)
Definition callback := list N -> nat -> cb_result.

(** struct pt_conf_addr_filter, intel-pt.h.in:446-477: the 64-bit configuration
    word with four bits per range, and the 64-bit words that follow it, i.e.
    addr0_a, addr0_b, ..., addr3_b and the eight reserved words. *)
Record addr_filter := mk_filter { af_addr_cfg : N; af_addr : list N }.

Definition no_filter := mk_filter 0 (repeat 0 16).

(** struct pt_config, intel-pt.h.in:484-552, without the buffer pointers (the
    buffer is a separate argument of the model functions), the size (see
    M_config_user) and the cpu (see M_cpu).  The flags are those of the event
    decoder, intel-pt.h.in:426-437. *)
Record config := mk_config {
  cf_callback : option callback;
  cf_errata : errata;
  cf_cpuid_0x15_eax : N;
  cf_cpuid_0x15_ebx : N;
  cf_mtc_freq : N;
  cf_nom_freq : N;
  cf_keep_tcal_on_ovf : bool;
  cf_enable_iflags_events : bool;
  cf_addr_filter : addr_filter }.

(** pt_config_init(): all zero, intel-pt.h.in:556-561. *)
Definition config0 : config :=
  mk_config None no_errata 0 0 0 0 false false no_filter.
