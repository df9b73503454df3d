(** Address space identifiers: /repo/libipt/src/pt_asid.c, and the copy of the
    user's configuration, pt_config_from_user() in /repo/libipt/src/pt_config.c.

    Structures that cross the API with a declared size are byte strings (64-bit
    little-endian layout). *)

From Verif Require Import Base.
From Coq Require Import List NArith PeanoNat.
Import ListNotations.
Open Scope N_scope.

(** struct pt_asid without its size field. *)
Record asid := mk_asid { as_cr3 : N; as_vmcs : N }.

(** pt_asid_no_cr3, pt_asid_no_vmcs, intel-pt.h.in:2267-2271. *)
Definition pt_asid_no_cr3 : N := 0xffffffffffffffff.
Definition pt_asid_no_vmcs : N := 0xffffffffffffffff.

(** pt_asid_init(), intel-pt.h.in:2273-2279. *)
Definition pt_asid_init : asid := mk_asid pt_asid_no_cr3 pt_asid_no_vmcs.

(** pt_asid_match(), pt_asid.c:86-107. *)
Definition pt_asid_match (lhs rhs : asid) : bool :=
  let lcr3 := as_cr3 lhs in
  let rcr3 := as_cr3 rhs in
  if (negb (lcr3 =? rcr3) && negb (lcr3 =? pt_asid_no_cr3)
      && negb (rcr3 =? pt_asid_no_cr3))%bool then false else
  let lvmcs := as_vmcs lhs in
  let rvmcs := as_vmcs rhs in
  if (negb (lvmcs =? rvmcs) && negb (lvmcs =? pt_asid_no_vmcs)
      && negb (rvmcs =? pt_asid_no_vmcs))%bool then false else
  true.

(** ** Structures as memory *)

(** memcpy(): copy [n] bytes from [src] to the beginning of [dst]; accesses outside
    either object are undefined behaviour. *)
Definition memcpy (dst src : list N) (n : nat) : res (list N) :=
  if Nat.ltb (length src) n then UB ub_oob_read
  else if Nat.ltb (length dst) n then UB ub_oob_write
  else Ok (firstn n src ++ skipn n dst).

(** Store an 8-byte little-endian field at offset [off]; load it. *)
Fixpoint le_bytes (n : nat) (v : N) : list N :=
  match n with
  | O => []
  | S n' => v mod 256 :: le_bytes n' (v / 256)
  end.
Definition store64 (m : list N) (off : nat) (v : N) : list N :=
  firstn off m ++ le_bytes 8 v ++ skipn (off + 8) m.

Fixpoint le_value (l : list N) : N :=
  match l with
  | [] => 0
  | b :: l' => b + 256 * le_value l'
  end.
Definition load64 (m : list N) (off : nat) : res N :=
  if Nat.ltb (length m) (off + 8) then UB ub_oob_read
  else Ok (le_value (firstn 8 (skipn off m))).

(** sizeof(struct pt_asid) and the offsets of its fields. *)
Definition sizeof_asid : nat := 24.
Definition off_asid_size : nat := 0.
Definition off_asid_cr3 : nat := 8.
Definition off_asid_vmcs : nat := 16.

(** pt_asid_init(), intel-pt.h.in:2273-2279, as memory. *)
Definition asid_init_mem : list N :=
  le_bytes 8 (N.of_nat sizeof_asid) ++ le_bytes 8 pt_asid_no_cr3
  ++ le_bytes 8 pt_asid_no_vmcs.

(** pt_asid_from_user(), pt_asid.c:37-61; [None] is a NULL pointer. *)
Definition pt_asid_from_user (user : option (list N)) : res (list N) :=
  let asid := asid_init_mem in
  match user with
  | None => Ok asid
  | Some u =>
      let* usize := load64 u off_asid_size in
      let size := if N.of_nat sizeof_asid <? usize then N.of_nat sizeof_asid
                  else usize in
      let* asid := memcpy asid u (N.to_nat size) in
      Ok (store64 asid off_asid_size (N.of_nat sizeof_asid))
  end.

(** pt_asid_to_user(), pt_asid.c:63-84.  [user] is the memory of the user's
    structure.  The final store of the size field writes eight bytes. *)
Definition pt_asid_to_user (user asid : list N) (size : N) : list N * res unit :=
  if size <? 8 then (user, Err pte_invalid) else
  let size := if N.of_nat sizeof_asid <? size then N.of_nat sizeof_asid else size in
  match memcpy user asid (N.to_nat size) with
  | Ok user => (store64 user off_asid_size size, Ok tt)
  | Err e => (user, Err e)
  | UB u => (user, UB u)
  end.

(** The fields of an internal asid. *)
Definition asid_of_mem (m : list N) : res asid :=
  let* cr3 := load64 m off_asid_cr3 in
  let* vmcs := load64 m off_asid_vmcs in
  Ok (mk_asid cr3 vmcs).

(** ** Configuration *)

(** sizeof(struct pt_config) and offsetof(struct pt_config, decode) for the layout
    of intel-pt.h.in:484-552 on a 64-bit machine: size, begin, end, decode (2
    pointers), cpu (8), errata (64), cpuid_0x15_eax/ebx (8), mtc_freq, nom_freq
    (2, padded to 4), flags (16), addr_filter (136), all 8-byte aligned. *)
Definition off_config_size : nat := 0.
Definition off_config_begin : nat := 8.
Definition off_config_end : nat := 16.
Definition off_config_decode : nat := 24.

(** pt_config_from_user(), pt_config.c:154-191.  [config] is the (uninitialised)
    memory of the internal structure of size [sizeof_config]; [uconfig] is the memory
    of the user's structure. *)
Definition pt_config_from_user (sizeof_config : nat) (config : list N)
           (uconfig : option (list N)) : list N * res unit :=
  match uconfig with
  | None => (config, Err pte_invalid)
  | Some u =>
      match load64 u off_config_size with
      | Ok size =>
          if size <? N.of_nat off_config_decode then (config, Err pte_bad_config) else
          match load64 u off_config_begin, load64 u off_config_end with
          | Ok b, Ok e =>
              if ((b =? 0) || (e =? 0) || (e <? b))%bool
              then (config, Err pte_bad_config) else
              let '(size, config) :=
                if N.of_nat sizeof_config <=? size
                then (sizeof_config, config)
                else (N.to_nat size,
                      firstn (N.to_nat size) config
                      ++ repeat 0 (sizeof_config - N.to_nat size)) in
              match memcpy config u size with
              | Ok config => (store64 config off_config_size (N.of_nat size), Ok tt)
              | Err x => (config, Err x)
              | UB x => (config, UB x)
              end
          | UB x, _ | _, UB x => (config, UB x)
          | Err x, _ | _, Err x => (config, Err x)
          end
      | Err x => (config, Err x)
      | UB x => (config, UB x)
      end
  end.
