(** The layout of perf event records as documented by the kernel interface,
    and the clock conversion as published in the mmap page. *)
From Coq Require Import List NArith Arith Bool.
From Verif Require Import Base M_pevent.
Import ListNotations.
Open Scope N_scope.

(** A little-endian number of [n] bytes. *)
Definition num (n : nat) (v : N) : list N :=
  map (fun i => v / 2 ^ (8 * N.of_nat i) mod 256) (seq 0 n).

(** A structure: a list of (width in bytes, value). *)
Definition struct (l : list (nat * N)) : list N :=
  concat (map (fun f => num (fst f) (snd f)) l).

(** The fields in front of the text of each record. *)
Definition layout (r : record) : list (nat * N) :=
  match r with
  | RNone => []
  | RMmap pid tid addr len pgoff _ =>
      [(4, pid); (4, tid); (8, addr); (8, len); (8, pgoff)]%nat
  | RLost id lost => [(8, id); (8, lost)]%nat
  | RComm pid tid _ => [(4, pid); (4, tid)]%nat
  | RExit pid ppid tid ptid time | RFork pid ppid tid ptid time =>
      [(4, pid); (4, ppid); (4, tid); (4, ptid); (8, time)]%nat
  | RThrottle time id sid => [(8, time); (8, id); (8, sid)]%nat
  | RMmap2 pid tid addr len pgoff maj min ino gen prot flags _ =>
      [(4, pid); (4, tid); (8, addr); (8, len); (8, pgoff); (4, maj);
       (4, min); (8, ino); (8, gen); (4, prot); (4, flags)]%nat
  | RAux off size flags => [(8, off); (8, size); (8, flags)]%nat
  | RItrace pid tid | RSwitchWide pid tid => [(4, pid); (4, tid)]%nat
  | RLostSamples lost => [(8, lost)]%nat
  end.

Definition text (r : record) : option (list N) :=
  match r with
  | RMmap _ _ _ _ _ s | RComm _ _ s | RMmap2 _ _ _ _ _ _ _ _ _ _ _ s => Some s
  | _ => None
  end.

(** Text ends with a zero and is filled up with zeros to a multiple of 8. *)
Definition padded (s : list N) : list N :=
  s ++ [0] ++ repeat 0 (7 - length s mod 8).

Definition text_bytes (o : option (list N)) : list N :=
  match o with Some s => padded s | None => [] end.

(** struct sample_id of the kernel interface; [res] is the reserved half of
    the cpu field. *)
Definition sample_layout (s : pev_sample) (res : N) : list (nat * N) :=
  match sm_pid s, sm_tid s with
  | Some p, Some t => [(4, p); (4, t)]%nat | _, _ => [] end ++
  match sm_time s with Some v => [(8%nat, v)] | None => [] end ++
  match sm_id s with Some v => [(8%nat, v)] | None => [] end ++
  match sm_stream_id s with Some v => [(8%nat, v)] | None => [] end ++
  match sm_cpu s with Some v => [(4, v); (4, res)]%nat | None => [] end ++
  match sm_identifier s with Some v => [(8%nat, v)] | None => [] end.

Definition payload (e : pev_event) (res : N) : list N :=
  struct (layout (pe_record e)) ++ text_bytes (text (pe_record e)) ++
  struct (sample_layout (pe_sample e) res).

(** struct perf_event_header followed by the record and the samples. *)
Definition packet (e : pev_event) (res : N) : list N :=
  struct [(4%nat, pe_type e); (2%nat, pe_misc e);
          (2%nat, N.of_nat (8 + length (payload e res)))] ++ payload e res.

(** Which structure belongs to which record type. *)
Definition of_type (ty : N) (r : record) : Prop :=
  match r with
  | RNone => ty = 14
  | RMmap _ _ _ _ _ _ => ty = 1
  | RLost _ _ => ty = 2
  | RComm _ _ _ => ty = 3
  | RExit _ _ _ _ _ => ty = 4
  | RThrottle _ _ _ => ty = 5 \/ ty = 6
  | RFork _ _ _ _ _ => ty = 7
  | RMmap2 _ _ _ _ _ _ _ _ _ _ _ _ => ty = 10
  | RAux _ _ _ => ty = 11
  | RItrace _ _ => ty = 12
  | RLostSamples _ => ty = 13
  | RSwitchWide _ _ => ty = 15
  end.

(** Values fit their fields, text has no zero bytes, the structure is the one
    for the type. *)
Definition fit (f : nat * N) : Prop := snd f < 2 ^ (8 * N.of_nat (fst f)).

Definition event_ok (e : pev_event) : Prop :=
  pe_type e < 2 ^ 32 /\ pe_misc e < 2 ^ 16 /\
  of_type (pe_type e) (pe_record e) /\
  Forall fit (layout (pe_record e)) /\
  Forall fit (sample_layout (pe_sample e) 0) /\
  match text (pe_record e) with
  | Some s => Forall (fun b => 0 < b < 256) s
  | None => True
  end.

(** The pid is there exactly if the tid is. *)
Definition pid_with_tid (s : pev_sample) : Prop :=
  sm_pid s = None <-> sm_tid s = None.

(** The sample type that describes the samples present. *)
Definition samples_type (s : pev_sample) : N :=
  (if sm_tid s then 2 else 0) + (if sm_time s then 4 else 0) +
  (if sm_id s then 64 else 0) + (if sm_cpu s then 128 else 0) +
  (if sm_stream_id s then 512 else 0) +
  (if sm_identifier s then 65536 else 0).

(** The sample type that the configuration prescribes for an event with this
    identifier: that of the first entry for the identifier, which must include
    the identifier itself, else the general one. *)
Fixpoint configured (l : list (N * N)) (ident : N) : option N :=
  match l with
  | [] => None
  | (i, st) :: l => if i =? ident then Some st else configured l ident
  end.

Definition prescribes (c : pev_config) (ident : option N) (st : N) : Prop :=
  16 <= pc_size c /\
  match ident, pc_samples c with
  | Some i, Some l =>
      if 40 <=? pc_size c then
        match configured l i with
        | Some t => t = st /\ N.testbit t 16 = true
        | None => st = pc_sample_type c
        end
      else st = pc_sample_type c
  | _, _ => st = pc_sample_type c
  end.

(** An event without identifier can be told from one with identifier. *)
Definition no_ambiguity (c : pev_config) (s : pev_sample) : Prop :=
  sm_identifier s <> None \/ pc_samples c = None \/ pc_size c < 40 \/
  samples_type s = 0.

(** The time of a sample in TSC units. *)
Definition tsc_of (c : pev_config) (s : pev_sample) (t : N) : Prop :=
  match sm_time s with
  | Some v => pev_time_to_tsc v c = Ok t
  | None => t = 0
  end.

Definition with_tsc (e : pev_event) (t : N) : pev_event :=
  {| pe_type := pe_type e; pe_misc := pe_misc e; pe_record := pe_record e;
     pe_sample :=
       {| sm_pid := sm_pid (pe_sample e); sm_tid := sm_tid (pe_sample e);
          sm_time := sm_time (pe_sample e); sm_tsc := t;
          sm_id := sm_id (pe_sample e);
          sm_stream_id := sm_stream_id (pe_sample e);
          sm_cpu := sm_cpu (pe_sample e);
          sm_identifier := sm_identifier (pe_sample e) |} |}.

(** The published relation between the clocks, on unbounded numbers. *)
Definition clock_of_tsc (zero mult shift tsc : N) : N :=
  zero + tsc * mult / 2 ^ shift.
Definition tsc_of_clock (zero mult shift time : N) : N :=
  (time - zero) * 2 ^ shift / mult.

(** A packet with any bytes for the padding of its text. *)
Definition text_pad (o : option (list N)) (pad : list N) : list N :=
  match o with Some s => s ++ [0] ++ pad | None => [] end.
Definition pad_size (o : option (list N)) : nat :=
  match o with Some s => 7 - length s mod 8 | None => 0 end.

Definition payload_with (e : pev_event) (pad : list N) (res : N) : list N :=
  struct (layout (pe_record e)) ++ text_pad (text (pe_record e)) pad ++
  struct (sample_layout (pe_sample e) res).

Definition packet_with (e : pev_event) (pad : list N) (res : N) : list N :=
  struct [(4%nat, pe_type e); (2%nat, pe_misc e);
          (2%nat, N.of_nat (8 + length (payload_with e pad res)))] ++
  payload_with e pad res.

(** The record types that have a structure or are known to have none. *)
Definition known_type (ty : N) : Prop := exists r, of_type ty r.
