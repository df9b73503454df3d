(** Processor identification and errata: pt_cpu_errata() in
    /repo/libipt/src/pt_config.c, pt_cpu_parse() in /repo/libipt/src/pt_cpu.c, and
    the address filters of /repo/libipt/src/pt_config.c. *)

From Verif Require Import Base M_config.
From Coq Require Import List NArith ZArith PeanoNat Bool.
Import ListNotations.
Open Scope N_scope.

(** enum pt_cpu_vendor, struct pt_cpu, intel-pt.h.in:222-241. *)
Inductive vendor := pcv_unknown | pcv_intel | pcv_other (n : N).
Record cpu := mk_cpu { cpu_vendor : vendor; cpu_family : N; cpu_model : N;
                       cpu_stepping : N }.

Definition is_one_of (n : N) (l : list N) : bool := existsb (N.eqb n) l.

(** pt_cpu_errata(), pt_config.c:39-152.  Returns the errata structure, which is
    cleared first, and the status. *)
Definition pt_cpu_errata (c : cpu) : errata * res unit :=
  let m := cpu_model c in
  match cpu_vendor c with
  | pcv_intel =>
      if cpu_family c =? 0x6 then
        if is_one_of m [0x3d; 0x47; 0x4f; 0x56] then
          (mk_errata true true false false false false false false false false, Ok tt)
        else if is_one_of m [0x4e; 0x5e; 0x8e; 0x9e; 0xa5; 0xa6] then
          (mk_errata true false true true true true false false true false, Ok tt)
        else if is_one_of m [0x55; 0x6a; 0x6c] then
          (mk_errata true false false true false true false false false true, Ok tt)
        else if is_one_of m [0x8f; 0xcf; 0xad; 0xae] then
          (mk_errata true false false true false false false false false true, Ok tt)
        else if is_one_of m [0x66; 0x7d; 0x7e; 0x8c; 0x8d; 0xa7; 0xa8] then
          (mk_errata true false false true false true false false false false, Ok tt)
        else if is_one_of m [0x97; 0x9a; 0xba; 0xb7; 0xbf; 0xc5; 0xc6; 0xb5; 0xaa;
                             0xac; 0xbd; 0xcc] then
          (mk_errata true false false true false false false true false false, Ok tt)
        else if is_one_of m [0x5c; 0x5f] then
          (mk_errata false false false false false false true true false false, Ok tt)
        else if is_one_of m [0x7a; 0x86; 0x96; 0x9c; 0xb6; 0xaf; 0xdd] then
          (mk_errata false false false false false false false true false false, Ok tt)
        else (no_errata, Err pte_bad_cpu)
      else if cpu_family c =? 0x13 then
        if m =? 0x01 then
          (mk_errata true false false true false false false false false true, Ok tt)
        else (no_errata, Err pte_bad_cpu)
      else (no_errata, Err pte_bad_cpu)
  | _ => (no_errata, Err pte_bad_cpu)
  end.

(** ** Address filters *)

(** pt_filter_addr_ncfg(), pt_config.c:193-199: the size of the structure after
    addr_cfg, including the eight reserved words, in units of two words. *)
Definition pt_filter_addr_ncfg : nat := (8 + 8) / 2.

(** pt_filter_addr_cfg(), pt_config.c:201-210. *)
Definition pt_filter_addr_cfg (f : addr_filter) (n : nat) : N :=
  if Nat.leb pt_filter_addr_ncfg n then 0
  else N.land (N.shiftr (af_addr_cfg f) (4 * N.of_nat n)) 0xf.

(** pt_filter_addr_a(), pt_filter_addr_b(), pt_config.c:212-238. *)
Definition pt_filter_addr_a (f : addr_filter) (n : nat) : N :=
  if Nat.leb pt_filter_addr_ncfg n then 0 else nth (2 * n) (af_addr f) 0.
Definition pt_filter_addr_b (f : addr_filter) (n : nat) : N :=
  if Nat.leb pt_filter_addr_ncfg n then 0 else nth (2 * n + 1) (af_addr f) 0.

(** enum pt_addr_cfg, internal/include/pt_opcodes.h:435-439. *)
Definition pt_addr_cfg_disabled : N := 0.
Definition pt_addr_cfg_filter : N := 1.
Definition pt_addr_cfg_stop : N := 2.

(** The loops of pt_filter_check_cfg_filter(), pt_config.c:248-262 and 267-273. *)
Fixpoint filter_hit (f : addr_filter) (addr : N) (ns : list nat) : bool :=
  match ns with
  | [] => false
  | n :: ns' =>
      if negb (pt_filter_addr_cfg f n =? pt_addr_cfg_filter) then filter_hit f addr ns'
      else if (pt_filter_addr_a f n <=? addr) && (addr <=? pt_filter_addr_b f n)
           then true else filter_hit f addr ns'
  end.
Fixpoint filter_any (f : addr_filter) (ns : list nat) : bool :=
  match ns with
  | [] => false
  | n :: ns' => if pt_filter_addr_cfg f n =? pt_addr_cfg_filter then true
                else filter_any f ns'
  end.

(** pt_filter_check_cfg_filter(), pt_config.c:240-276. *)
Definition pt_filter_check_cfg_filter (f : addr_filter) (addr : N) : bool :=
  let ns := seq 0 pt_filter_addr_ncfg in
  if filter_hit f addr ns then true
  else if filter_any f ns then false else true.

(** pt_filter_check_cfg_stop(), pt_config.c:278-303. *)
Fixpoint stop_hit (f : addr_filter) (addr : N) (ns : list nat) : bool :=
  match ns with
  | [] => false
  | n :: ns' =>
      if negb (pt_filter_addr_cfg f n =? pt_addr_cfg_stop) then stop_hit f addr ns'
      else if (pt_filter_addr_a f n <=? addr) && (addr <=? pt_filter_addr_b f n)
           then true else stop_hit f addr ns'
  end.
Definition pt_filter_check_cfg_stop (f : addr_filter) (addr : N) : bool :=
  negb (stop_hit f addr (seq 0 pt_filter_addr_ncfg)).

(** pt_filter_addr_check(), pt_config.c:305-315. *)
Definition pt_filter_addr_check (f : addr_filter) (addr : N) : bool :=
  if negb (pt_filter_check_cfg_stop f addr) then false
  else pt_filter_check_cfg_filter f addr.

(** ** Parsing a processor string *)

(** strtol(s, &endptr, 0) of the C library in the "C" locale.  A string is the list
    of its characters without the terminating zero.  Returns the value, and the
    remaining string; [None] if no number was found (then endptr == s). *)
Definition isspace (c : N) : bool := ((9 <=? c) && (c <=? 13)) || (c =? 32).

Fixpoint skip_space (s : list N) : list N :=
  match s with
  | c :: s' => if isspace c then skip_space s' else s
  | [] => []
  end.

Definition digit_value (c : N) : option N :=
  if (48 <=? c) && (c <=? 57) then Some (c - 48)
  else if (97 <=? c) && (c <=? 122) then Some (c - 97 + 10)
  else if (65 <=? c) && (c <=? 90) then Some (c - 65 + 10)
  else None.

Definition digit_in (base c : N) : option N :=
  match digit_value c with
  | Some v => if v <? base then Some v else None
  | None => None
  end.

(** Read digits; [some] says whether at least one has been read. *)
Fixpoint read_digits (base : N) (acc : N) (some : bool) (s : list N)
  : option (N * list N) :=
  match s with
  | c :: s' =>
      match digit_in base c with
      | Some v => read_digits base (acc * base + v) true s'
      | None => if some then Some (acc, s) else None
      end
  | [] => if some then Some (acc, []) else None
  end.

Definition LONG_MAX : Z := 0x7fffffffffffffff.
Definition LONG_MIN : Z := (-0x8000000000000000)%Z.

Definition strtol0 (s : list N) : option (Z * list N) :=
  let s1 := skip_space s in
  let '(neg, s2) := match s1 with
                    | c :: s' => if c =? 45 then (true, s')
                                 else if c =? 43 then (false, s') else (false, s1)
                    | [] => (false, [])
                    end in
  let r := match s2 with
           | z :: x :: h :: s' =>
               if (z =? 48) && ((x =? 120) || (x =? 88)) then
                 match digit_in 16 h with
                 | Some _ => read_digits 16 0 false (h :: s')
                 | None => Some (0, x :: h :: s')
                 end
               else if z =? 48 then read_digits 8 0 false s2
               else read_digits 10 0 false s2
           | z :: _ => if z =? 48 then read_digits 8 0 false s2
                       else read_digits 10 0 false s2
           | [] => None
           end in
  match r with
  | None => None
  | Some (v, rest) =>
      let v := if neg then (- Z.of_N v)%Z else Z.of_N v in
      Some (Z.max LONG_MIN (Z.min LONG_MAX v), rest)
  end.

(** strtol() with endptr == s and value zero when there is no number. *)
Definition strtol (s : list N) : Z * list N * bool :=
  match strtol0 s with
  | Some (v, rest) => (v, rest, true)
  | None => (0%Z, s, false)
  end.

(** pt_cpu_parse(), pt_cpu.c:38-85.  '/' is 47.  [moved] is [s != endptr]. *)
Definition pt_cpu_parse (s : list N) : res cpu :=
  let '(family, endptr, moved) := strtol s in
  match moved, endptr with
  | true, sep :: s =>
      if negb (sep =? 47) then Err pte_invalid else
      if ((family <? 0) || (65535 <? family))%Z then Err pte_invalid else
      let '(model, endptr, moved) := strtol s in
      if negb moved then Err pte_invalid else
      if (match endptr with [] => false | c :: _ => negb (c =? 47) end)
      then Err pte_invalid else
      if ((model <? 0) || (255 <? model))%Z then Err pte_invalid else
      let* stepping :=
        (match endptr with
         | [] => Ok 0%Z
         | _ :: s =>
             let '(stepping, endptr, _) := strtol s in
             match endptr with
             | _ :: _ => Err pte_invalid
             | [] => if ((stepping <? 0) || (255 <? stepping))%Z
                     then Err pte_invalid else Ok stepping
             end
         end) in
      Ok (mk_cpu pcv_intel (Z.to_N family) (Z.to_N model) (Z.to_N stepping))
  | _, _ => Err pte_invalid
  end.
