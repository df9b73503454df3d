(** Specifications for address spaces, configuration, filters, errata and processor
    strings. *)

From Verif Require Import Base M_config M_asid M_cpu.
From Coq Require Import List NArith ZArith PeanoNat Bool.
Import ListNotations.
Open Scope N_scope.

(** ** Address spaces *)

(** A value is specified if it is not the all-ones default. *)
Definition unspecified (v : N) : Prop := v = 2 ^ 64 - 1.
Definition agree (a b : N) : Prop := a = b \/ unspecified a \/ unspecified b.

(** ** Structures with a declared size *)

(** The byte at offset [i]. *)
Definition byte_at (m : list N) (i : nat) : option N := nth_error m i.

(** The declared size: the first eight bytes, little-endian. *)
Definition declares (m : list N) (size : N) : Prop :=
  (8 <= length m)%nat /\ bytes_ok m /\
  size = fold_right (fun b v => b + 256 * v) 0 (firstn 8 m).

(** The value of an 8-byte field. *)
Definition field (m : list N) (off : nat) (v : N) : Prop :=
  (off + 8 <= length m)%nat /\
  v = fold_right (fun b v => b + 256 * v) 0 (firstn 8 (skipn off m)).

(** ** Address filters *)

(** Range [n] of a filter configuration. *)
Definition range_kind (f : addr_filter) (n : nat) : N :=
  (af_addr_cfg f / 16 ^ N.of_nat n) mod 16.
Definition in_nth_range (f : addr_filter) (n : nat) (addr : N) : Prop :=
  nth (2 * n) (af_addr f) 0 <= addr /\ addr <= nth (2 * n + 1) (af_addr f) 0.

(** [addr] is traced, considering the first [k] ranges. *)
Definition traced (k : nat) (f : addr_filter) (addr : N) : Prop :=
  (forall n, (n < k)%nat -> range_kind f n = 2 -> ~ in_nth_range f n addr) /\
  ((forall n, (n < k)%nat -> range_kind f n <> 1) \/
   (exists n, (n < k)%nat /\ range_kind f n = 1 /\ in_nth_range f n addr)).

(** ** Errata *)

(** The processor generations, by family 6 model number. *)
Definition broadwell := [0x3d; 0x47; 0x4f; 0x56].
Definition skylake := [0x4e; 0x5e; 0x8e; 0x9e; 0xa5; 0xa6].
Definition xeon_skx_icx := [0x55; 0x6a; 0x6c].
Definition xeon_spr_gnr := [0x8f; 0xcf; 0xad; 0xae].
Definition icelake_tigerlake := [0x66; 0x7d; 0x7e; 0x8c; 0x8d; 0xa7; 0xa8].
Definition hybrid := [0x97; 0x9a; 0xba; 0xb7; 0xbf; 0xc5; 0xc6; 0xb5; 0xaa; 0xac;
                      0xbd; 0xcc].
Definition apollolake := [0x5c; 0x5f].
Definition later_atom := [0x7a; 0x86; 0x96; 0x9c; 0xb6; 0xaf; 0xdd].

Definition big_core := broadwell ++ skylake ++ xeon_skx_icx ++ xeon_spr_gnr
                       ++ icelake_tigerlake ++ hybrid.
Definition known_models := big_core ++ apollolake ++ later_atom.

Inductive erratum := Bdm70 | Bdm64 | Skd007 | Skd022 | Skd010 | Skl014 | Apl12 | Apl11
                   | Skl168 | Skz84.

Definition enabled (e : errata) (x : erratum) : bool :=
  match x with
  | Bdm70 => er_bdm70 e | Bdm64 => er_bdm64 e | Skd007 => er_skd007 e
  | Skd022 => er_skd022 e | Skd010 => er_skd010 e | Skl014 => er_skl014 e
  | Apl12 => er_apl12 e | Apl11 => er_apl11 e | Skl168 => er_skl168 e
  | Skz84 => er_skz84 e
  end.

(** The family 6 models that have an erratum. *)
Definition models_with (x : erratum) : list N :=
  match x with
  | Bdm70 => big_core
  | Bdm64 => broadwell
  | Skd007 | Skd010 | Skl168 => skylake
  | Skd022 => skylake ++ xeon_skx_icx ++ xeon_spr_gnr ++ icelake_tigerlake ++ hybrid
  | Skl014 => skylake ++ xeon_skx_icx ++ icelake_tigerlake
  | Apl12 => apollolake
  | Apl11 => hybrid ++ apollolake ++ later_atom
  | Skz84 => xeon_skx_icx ++ xeon_spr_gnr
  end.

(** Family 0x13 has one known model, with the errata of the newest Xeons. *)
Definition has_erratum (c : cpu) (x : erratum) : Prop :=
  cpu_vendor c = pcv_intel /\
  ((cpu_family c = 0x6 /\ In (cpu_model c) (models_with x)) \/
   (cpu_family c = 0x13 /\ cpu_model c = 0x01 /\ (x = Bdm70 \/ x = Skd022 \/ x = Skz84))).

Definition supported (c : cpu) : Prop :=
  cpu_vendor c = pcv_intel /\
  ((cpu_family c = 0x6 /\ In (cpu_model c) known_models) \/
   (cpu_family c = 0x13 /\ cpu_model c = 0x01)).

(** ** Processor strings *)

(** [s] is the decimal representation of [n]: digits without leading zero. *)
Definition decimal (s : list N) (n : N) : Prop :=
  s <> [] /\ Forall (fun c => 48 <= c <= 57) s /\
  (s = [48] \/ hd 0 s <> 48) /\
  n = fold_left (fun v c => 10 * v + (c - 48)) s 0.

(** The value of a digit, and numbers in another base. *)
Definition digit (c v : N) : Prop :=
  (48 <= c <= 57 /\ v = c - 48) \/ (97 <= c <= 102 /\ v = c - 97 + 10) \/
  (65 <= c <= 70 /\ v = c - 65 + 10).

Definition in_base (base : N) (s : list N) (n : N) : Prop :=
  s <> [] /\
  exists vs, Forall2 (fun c v => digit c v /\ v < base) s vs /\
    n = fold_left (fun a v => base * a + v) vs 0.

(** A number as in the C language: decimal, octal with a leading zero, or
    hexadecimal with a leading 0x or 0X. *)
Definition numeral (s : list N) (n : N) : Prop :=
  decimal s n \/
  (exists t, s = 48 :: t /\ in_base 8 t n) \/
  (exists x t, s = 48 :: x :: t /\ (x = 120 \/ x = 88) /\ in_base 16 t n).

Definition slash : N := 47.
