(** Linux perf event records: reading, writing, and time conversion.
    Model of /repo/pevent/src/pevent.c and /repo/pevent/include/pevent.h with
    LIBIPT_SB_VERSION >= 0x201 on a little-endian LP64 machine.

    The constants are those of <linux/perf_event.h>, which is not in the
    repository.  NULL arguments are left out. *)
From Coq Require Import List NArith Arith Bool.
From Verif Require Import Base.
Import ListNotations.
Open Scope N_scope.

(** enum perf_event_type and enum perf_event_sample_format of the kernel
    interface. *)
Definition PERF_RECORD_MMAP : N := 1.
Definition PERF_RECORD_LOST : N := 2.
Definition PERF_RECORD_COMM : N := 3.
Definition PERF_RECORD_EXIT : N := 4.
Definition PERF_RECORD_THROTTLE : N := 5.
Definition PERF_RECORD_UNTHROTTLE : N := 6.
Definition PERF_RECORD_FORK : N := 7.
Definition PERF_RECORD_MMAP2 : N := 10.
Definition PERF_RECORD_AUX : N := 11.
Definition PERF_RECORD_ITRACE_START : N := 12.
Definition PERF_RECORD_LOST_SAMPLES : N := 13.
Definition PERF_RECORD_SWITCH : N := 14.
Definition PERF_RECORD_SWITCH_CPU_WIDE : N := 15.

Definition PERF_SAMPLE_TID : N := 2.
Definition PERF_SAMPLE_TIME : N := 4.
Definition PERF_SAMPLE_ID : N := 64.
Definition PERF_SAMPLE_CPU : N := 128.
Definition PERF_SAMPLE_STREAM_ID : N := 512.
Definition PERF_SAMPLE_IDENTIFIER : N := 65536.

(** pevent.h:43-66 and libipt-sb.h:448-470; [pc_samples] is [None] for a NULL
    pointer, else the (identifier, sample type) pairs. *)
Record pev_config := {
  pc_size : N;
  pc_sample_type : N;
  pc_shift : N;
  pc_mult : N;
  pc_zero : N;
  pc_samples : option (list (N * N)) }.

(** pevent.h:68-70, pev_config_has, with the offsets of the fields: size 0,
    sample_type 8, time_shift 16, time_mult 20, time_zero 24,
    sample_config 32. *)
Definition has_sample_type (c : pev_config) : bool := 16 <=? pc_size c.
Definition has_time_zero (c : pev_config) : bool := 32 <=? pc_size c.
Definition has_sample_config (c : pev_config) : bool := 40 <=? pc_size c.

(** pevent.c:33-74 *)
Definition pev_time_to_tsc (time : N) (c : pev_config) : res N :=
  if time =? 0 then Ok 0
  else if negb (has_time_zero c) then Err pte_bad_config
  else if pc_mult c =? 0 then Err pte_bad_config
  else
    let time := sub64 time (pc_zero c) in
    let quot := time / pc_mult c in
    let rem := time mod pc_mult c in
    if 64 <=? pc_shift c then UB ub_shift
    else
      let quot := shl64 quot (pc_shift c) in
      let rem := shl64 rem (pc_shift c) / pc_mult c in
      Ok (add64 quot rem).

(** pevent.c:76-106 *)
Definition pev_time_from_tsc (tsc : N) (c : pev_config) : res N :=
  if negb (has_time_zero c) then Err pte_bad_config
  else if pc_mult c =? 0 then Err pte_bad_config
  else if 64 <=? pc_shift c then UB ub_shift
  else
    let quot := N.shiftr tsc (pc_shift c) in
    let rem := N.land tsc (sub64 (shl64 1 (pc_shift c)) 1) in
    let quot := u64 (quot * pc_mult c) in
    let rem := N.shiftr (u64 (rem * pc_mult c)) (pc_shift c) in
    Ok (add64 (add64 (pc_zero c) quot) rem).

(** The record structures, pevent.h:80-166; a record type without structure
    is [RNone]. *)
Inductive record :=
| RNone
| RMmap (pid tid addr len pgoff : N) (filename : list N)
| RLost (id lost : N)
| RComm (pid tid : N) (comm : list N)
| RExit (pid ppid tid ptid time : N)
| RThrottle (time id stream_id : N)
| RFork (pid ppid tid ptid time : N)
| RMmap2 (pid tid addr len pgoff maj min ino gen prot flags : N)
    (filename : list N)
| RAux (off size flags : N)
| RItrace (pid tid : N)
| RLostSamples (lost : N)
| RSwitchWide (pid tid : N).

(** pevent.h:209-232; a NULL pointer is [None]. *)
Record pev_sample := {
  sm_pid : option N;
  sm_tid : option N;
  sm_time : option N;
  sm_tsc : N;
  sm_id : option N;
  sm_stream_id : option N;
  sm_cpu : option N;
  sm_identifier : option N }.

(** pevent.h:168-233 *)
Record pev_event := {
  pe_type : N;
  pe_misc : N;
  pe_record : record;
  pe_sample : pev_sample }.

(** Numbers in memory. *)
Fixpoint nbytes (n : nat) (v : N) : list N :=
  match n with
  | O => []
  | S m => (v mod 256) :: nbytes m (v / 256)
  end.

Fixpoint bvalue (l : list N) : N :=
  match l with
  | [] => 0
  | b :: l => b + 256 * bvalue l
  end.

(** Reading [n] bytes at [pos] as a number. *)
Definition ld (buf : list N) (n pos : nat) : res N :=
  if (pos + n <=? length buf)%nat
  then Ok (bvalue (firstn n (skipn pos buf)))
  else UB ub_oob_read.

(** pevent.c:108-125: the length including the terminating zero. *)
Fixpoint scan0 (buf : list N) (n : nat) (pos : nat) : res (option nat) :=
  match n with
  | O => Ok None
  | S m =>
      let* b := rd buf pos in
      if b =? 0 then Ok (Some 1%nat)
      else
        let* r := scan0 buf m (S pos) in
        match r with Some k => Ok (Some (S k)) | None => Ok None end
  end.

Definition pev_strlen (buf : list N) (begin fin : nat) : res nat :=
  if (fin <? begin)%nat then Err pte_internal
  else
    let* r := scan0 buf (fin - begin) begin in
    match r with Some n => Ok n | None => Err pte_bad_packet end.

(** pevent.c:147-164 *)
Fixpoint find_stype (l : list (N * N)) (ident : N) : res (option N) :=
  match l with
  | [] => Ok None
  | (i, st) :: l =>
      if i =? ident then
        if truth (N.land st PERF_SAMPLE_IDENTIFIER) then Ok (Some st)
        else Err pte_bad_config
      else find_stype l ident
  end.

(** pevent.c:127-170; [ident] reads the identifier, if there is one. *)
Definition pev_sample_type (ident : option (res N)) (c : pev_config) : res N :=
  if negb (has_sample_type c) then Err pte_bad_config
  else if has_sample_config c then
    match pc_samples c, ident with
    | Some l, Some i =>
        let* i := i in
        let* o := find_stype l i in
        match o with Some st => Ok st | None => Ok (pc_sample_type c) end
    | _, _ => Ok (pc_sample_type c)
    end
  else Ok (pc_sample_type c).

(** The event as pev_read() fills it: positions in the buffer in place of
    pointers. *)
Record rsample := {
  rs_pid : option nat;
  rs_tid : option nat;
  rs_time : option nat;
  rs_tsc : N;
  rs_id : option nat;
  rs_stream_id : option nat;
  rs_cpu : option nat;
  rs_identifier : option nat }.

Record revent := {
  re_type : N;
  re_misc : N;
  re_record : nat;
  re_sample : rsample }.

(** pevent.c:172-238 *)
Definition pev_read_samples (buf : list N) (begin fin : nat)
  (c : pev_config) : res (nat * rsample) :=
  let pident :=
    if (begin + 8 <=? fin)%nat then Some (ld buf 8 (fin - 8)) else None in
  let* st := pev_sample_type pident c in
  let pos := begin in
  let '(pid, tid, pos) :=
    if truth (N.land st PERF_SAMPLE_TID)
    then (Some pos, Some (pos + 4)%nat, (pos + 8)%nat)
    else (None, None, pos) in
  let* (time, tsc, pos) :=
    (if truth (N.land st PERF_SAMPLE_TIME) then
       if (fin <? pos + 8)%nat then Err pte_nosync
       else
         let* t := ld buf 8 pos in
         let* tsc := pev_time_to_tsc t c in
         Ok (Some pos, tsc, (pos + 8)%nat)
     else Ok (None, 0, pos)) in
  let '(id, pos) :=
    if truth (N.land st PERF_SAMPLE_ID)
    then (Some pos, (pos + 8)%nat) else (None, pos) in
  let '(sid, pos) :=
    if truth (N.land st PERF_SAMPLE_STREAM_ID)
    then (Some pos, (pos + 8)%nat) else (None, pos) in
  let '(cpu, pos) :=
    if truth (N.land st PERF_SAMPLE_CPU)
    then (Some pos, (pos + 8)%nat) else (None, pos) in
  let '(ident, pos) :=
    if truth (N.land st PERF_SAMPLE_IDENTIFIER)
    then (Some pos, (pos + 8)%nat) else (None, pos) in
  Ok ((pos - begin)%nat,
      {| rs_pid := pid; rs_tid := tid; rs_time := time; rs_tsc := tsc;
         rs_id := id; rs_stream_id := sid; rs_cpu := cpu;
         rs_identifier := ident |}).

(** [(n + 7) & ~7] *)
Definition round8 (n : nat) : nat := N.to_nat (N.ldiff (N.of_nat n + 7) 7).

(** pevent.c:270-375, the switch of pev_read(): how far the record extends
    from [pos]; [None] for the default case. *)
Definition read_string (buf : list N) (pos size fin : nat) : res (option nat) :=
  let* slen := pev_strlen buf (pos + size) fin in
  Ok (Some (pos + size + round8 slen)%nat).

Definition read_record (ty : N) (buf : list N) (pos fin : nat) :
  res (option nat) :=
  if ty =? PERF_RECORD_MMAP then read_string buf pos 32 fin
  else if ty =? PERF_RECORD_LOST then Ok (Some (pos + 16)%nat)
  else if ty =? PERF_RECORD_COMM then read_string buf pos 8 fin
  else if ty =? PERF_RECORD_EXIT then Ok (Some (pos + 24)%nat)
  else if (ty =? PERF_RECORD_THROTTLE) || (ty =? PERF_RECORD_UNTHROTTLE)
       then Ok (Some (pos + 24)%nat)
  else if ty =? PERF_RECORD_FORK then Ok (Some (pos + 24)%nat)
  else if ty =? PERF_RECORD_MMAP2 then read_string buf pos 64 fin
  else if ty =? PERF_RECORD_AUX then Ok (Some (pos + 24)%nat)
  else if ty =? PERF_RECORD_ITRACE_START then Ok (Some (pos + 8)%nat)
  else if ty =? PERF_RECORD_LOST_SAMPLES then Ok (Some (pos + 8)%nat)
  else if ty =? PERF_RECORD_SWITCH then Ok (Some pos)
  else if ty =? PERF_RECORD_SWITCH_CPU_WIDE then Ok (Some (pos + 8)%nat)
  else Ok None.

Definition no_samples : rsample :=
  {| rs_pid := None; rs_tid := None; rs_time := None; rs_tsc := 0;
     rs_id := None; rs_stream_id := None; rs_cpu := None;
     rs_identifier := None |}.

(** pevent.c:240-390; the buffer starts at [begin] and ends at [end]. *)
Definition pev_read (buf : list N) (c : pev_config) : res (nat * revent) :=
  if (length buf <? 8)%nat then Err pte_eos
  else
    let* ty := ld buf 4 0 in
    let* misc := ld buf 2 4 in
    let* hsize := ld buf 2 6 in
    if hsize <? 8 then Err pte_nosync
    else if (ty =? 0) || (length buf <? N.to_nat hsize)%nat then Err pte_eos
    else
      let fin := N.to_nat hsize in
      let* r := read_record ty buf 8 fin in
      match r with
      | None =>
          Ok (fin, {| re_type := ty; re_misc := misc; re_record := 8%nat;
                      re_sample := no_samples |})
      | Some pos =>
          let* (size, sm) := pev_read_samples buf pos fin c in
          let size := (pos + size)%nat in
          if u16 (N.of_nat size) =? hsize then
            Ok (size, {| re_type := ty; re_misc := misc; re_record := 8%nat;
                         re_sample := sm |})
          else Err pte_nosync
      end.

(** What a user sees who follows the pointers of the event that pev_read()
    filled, according to its type. *)
Fixpoint cstr (n : nat) (buf : list N) (pos : nat) : res (list N) :=
  let* b := rd buf pos in
  if b =? 0 then Ok []
  else match n with
       | O => UB ub_oob_read
       | S m => let* s := cstr m buf (S pos) in Ok (b :: s)
       end.

Definition view_record (ty : N) (buf : list N) (p : nat) : res record :=
  let w n o := ld buf n (p + o) in
  if ty =? PERF_RECORD_MMAP then
    let* pid := w 4%nat 0%nat in let* tid := w 4%nat 4%nat in
    let* addr := w 8%nat 8%nat in let* len := w 8%nat 16%nat in
    let* pgoff := w 8%nat 24%nat in
    let* s := cstr (length buf) buf (p + 32) in
    Ok (RMmap pid tid addr len pgoff s)
  else if ty =? PERF_RECORD_LOST then
    let* id := w 8%nat 0%nat in let* lost := w 8%nat 8%nat in
    Ok (RLost id lost)
  else if ty =? PERF_RECORD_COMM then
    let* pid := w 4%nat 0%nat in let* tid := w 4%nat 4%nat in
    let* s := cstr (length buf) buf (p + 8) in
    Ok (RComm pid tid s)
  else if ty =? PERF_RECORD_EXIT then
    let* pid := w 4%nat 0%nat in let* ppid := w 4%nat 4%nat in
    let* tid := w 4%nat 8%nat in let* ptid := w 4%nat 12%nat in
    let* time := w 8%nat 16%nat in
    Ok (RExit pid ppid tid ptid time)
  else if (ty =? PERF_RECORD_THROTTLE) || (ty =? PERF_RECORD_UNTHROTTLE) then
    let* time := w 8%nat 0%nat in let* id := w 8%nat 8%nat in
    let* sid := w 8%nat 16%nat in
    Ok (RThrottle time id sid)
  else if ty =? PERF_RECORD_FORK then
    let* pid := w 4%nat 0%nat in let* ppid := w 4%nat 4%nat in
    let* tid := w 4%nat 8%nat in let* ptid := w 4%nat 12%nat in
    let* time := w 8%nat 16%nat in
    Ok (RFork pid ppid tid ptid time)
  else if ty =? PERF_RECORD_MMAP2 then
    let* pid := w 4%nat 0%nat in let* tid := w 4%nat 4%nat in
    let* addr := w 8%nat 8%nat in let* len := w 8%nat 16%nat in
    let* pgoff := w 8%nat 24%nat in
    let* maj := w 4%nat 32%nat in let* min := w 4%nat 36%nat in
    let* ino := w 8%nat 40%nat in let* gen := w 8%nat 48%nat in
    let* prot := w 4%nat 56%nat in let* flags := w 4%nat 60%nat in
    let* s := cstr (length buf) buf (p + 64) in
    Ok (RMmap2 pid tid addr len pgoff maj min ino gen prot flags s)
  else if ty =? PERF_RECORD_AUX then
    let* off := w 8%nat 0%nat in let* size := w 8%nat 8%nat in
    let* flags := w 8%nat 16%nat in
    Ok (RAux off size flags)
  else if ty =? PERF_RECORD_ITRACE_START then
    let* pid := w 4%nat 0%nat in let* tid := w 4%nat 4%nat in
    Ok (RItrace pid tid)
  else if ty =? PERF_RECORD_LOST_SAMPLES then
    let* lost := w 8%nat 0%nat in Ok (RLostSamples lost)
  else if ty =? PERF_RECORD_SWITCH_CPU_WIDE then
    let* pid := w 4%nat 0%nat in let* tid := w 4%nat 4%nat in
    Ok (RSwitchWide pid tid)
  else Ok RNone.

Definition view_field (buf : list N) (n : nat) (p : option nat) :
  res (option N) :=
  match p with
  | None => Ok None
  | Some p => let* v := ld buf n p in Ok (Some v)
  end.

Definition view_sample (buf : list N) (s : rsample) : res pev_sample :=
  let* pid := view_field buf 4 (rs_pid s) in
  let* tid := view_field buf 4 (rs_tid s) in
  let* time := view_field buf 8 (rs_time s) in
  let* id := view_field buf 8 (rs_id s) in
  let* sid := view_field buf 8 (rs_stream_id s) in
  let* cpu := view_field buf 4 (rs_cpu s) in
  let* ident := view_field buf 8 (rs_identifier s) in
  Ok {| sm_pid := pid; sm_tid := tid; sm_time := time; sm_tsc := rs_tsc s;
        sm_id := id; sm_stream_id := sid; sm_cpu := cpu;
        sm_identifier := ident |}.

Definition view (buf : list N) (e : revent) : res pev_event :=
  let* r := view_record (re_type e) buf (re_record e) in
  let* s := view_sample buf (re_sample e) in
  Ok {| pe_type := re_type e; pe_misc := re_misc e; pe_record := r;
        pe_sample := s |}.

(** ** Writing *)

(** pevent.c:392-440 *)
Definition pev_sample_config (s : pev_sample) : N * nat :=
  let add (o : option N) (bit : N) (a : N * nat) :=
    match o with
    | Some _ => (N.lor (fst a) bit, (snd a + 8)%nat)
    | None => a
    end in
  add (sm_identifier s) PERF_SAMPLE_IDENTIFIER
    (add (sm_cpu s) PERF_SAMPLE_CPU
      (add (sm_stream_id s) PERF_SAMPLE_STREAM_ID
        (add (sm_id s) PERF_SAMPLE_ID
          (add (sm_time s) PERF_SAMPLE_TIME
            (add (sm_tid s) PERF_SAMPLE_TID (0, 0%nat)))))).

(** pevent.c:442-452; a stream is a buffer and a position in it. *)
Definition stream : Type := list N * nat.

Definition write (bs : list N) (s : stream) : res stream :=
  let '(buf, pos) := s in
  if (pos + length bs <=? length buf)%nat
  then Ok (firstn pos buf ++ bs ++ skipn (pos + length bs) buf,
           (pos + length bs)%nat)
  else UB ub_oob_write.

Definition clear (n : nat) (s : stream) : res stream := write (repeat 0 n) s.

(** One block of pevent.c:480-526. *)
Definition write_field (bit : N) (n : nat) (o : option N) (a : stream * N) :
  res (stream * N) :=
  let '(s, st) := a in
  if truth (N.land st bit) then
    match o with
    | None => Err pte_bad_packet
    | Some v => let* s := write (nbytes n v) s in Ok (s, N.ldiff st bit)
    end
  else Ok a.

(** pevent.c:454-532 *)
Definition write_samples (s : stream) (e : pev_sample) (c : pev_config)
  (st : N) : res stream :=
  let* cstype :=
    pev_sample_type (match sm_identifier e with
                     | Some i => Some (Ok i) | None => None end) c in
  if negb (cstype =? st) then Err pte_bad_config
  else
    let* a :=
      (if truth (N.land st PERF_SAMPLE_TID) then
         match sm_pid e, sm_tid e with
         | Some pid, Some tid =>
             let* s := write (nbytes 4 pid) s in
             let* s := write (nbytes 4 tid) s in
             Ok (s, N.ldiff st PERF_SAMPLE_TID)
         | _, _ => Err pte_bad_packet
         end
       else Ok (s, st)) in
    let* a := write_field PERF_SAMPLE_TIME 8 (sm_time e) a in
    let* a := write_field PERF_SAMPLE_ID 8 (sm_id e) a in
    let* a := write_field PERF_SAMPLE_STREAM_ID 8 (sm_stream_id e) a in
    let* a :=
      (let '(s, st) := a in
       if truth (N.land st PERF_SAMPLE_CPU) then
         match sm_cpu e with
         | None => Err pte_bad_packet
         | Some cpu =>
             let* (buf, pos) := write (nbytes 4 cpu) s in
             Ok ((buf, (pos + 4)%nat), N.ldiff st PERF_SAMPLE_CPU)
         end
       else Ok a) in
    let* (s, st) := write_field PERF_SAMPLE_IDENTIFIER 8 (sm_identifier e) a in
    if truth st then Err pte_bad_packet else Ok s.

(** What the switch of pev_write() writes: the structure, and the string if
    the structure ends with one. *)
Inductive body :=
| BNone
| BFixed (bs : list N)
| BString (bs : list N) (str : list N).

Definition fields (l : list (nat * N)) : list N :=
  concat (map (fun f => nbytes (fst f) (snd f)) l).

(** pevent.c:558-752; accessing the union as another type than the one it
    holds is an undefined value. *)
Definition write_body (ty : N) (r : record) : res body :=
  if ty =? PERF_RECORD_MMAP then
    match r with
    | RMmap pid tid addr len pgoff s =>
        Ok (BString (fields [(4, pid); (4, tid); (8, addr); (8, len);
                             (8, pgoff)]%nat) s)
    | _ => UB ub_uninit
    end
  else if ty =? PERF_RECORD_LOST then
    match r with
    | RLost id lost => Ok (BFixed (fields [(8, id); (8, lost)]%nat))
    | _ => UB ub_uninit
    end
  else if ty =? PERF_RECORD_COMM then
    match r with
    | RComm pid tid s => Ok (BString (fields [(4, pid); (4, tid)]%nat) s)
    | _ => UB ub_uninit
    end
  else if ty =? PERF_RECORD_EXIT then
    match r with
    | RExit pid ppid tid ptid time =>
        Ok (BFixed (fields [(4, pid); (4, ppid); (4, tid); (4, ptid);
                            (8, time)]%nat))
    | _ => UB ub_uninit
    end
  else if (ty =? PERF_RECORD_THROTTLE) || (ty =? PERF_RECORD_UNTHROTTLE) then
    match r with
    | RThrottle time id sid =>
        Ok (BFixed (fields [(8, time); (8, id); (8, sid)]%nat))
    | _ => UB ub_uninit
    end
  else if ty =? PERF_RECORD_FORK then
    match r with
    | RFork pid ppid tid ptid time =>
        Ok (BFixed (fields [(4, pid); (4, ppid); (4, tid); (4, ptid);
                            (8, time)]%nat))
    | _ => UB ub_uninit
    end
  else if ty =? PERF_RECORD_MMAP2 then
    match r with
    | RMmap2 pid tid addr len pgoff maj min ino gen prot flags s =>
        Ok (BString (fields [(4, pid); (4, tid); (8, addr); (8, len);
                             (8, pgoff); (4, maj); (4, min); (8, ino);
                             (8, gen); (4, prot); (4, flags)]%nat) s)
    | _ => UB ub_uninit
    end
  else if ty =? PERF_RECORD_AUX then
    match r with
    | RAux off size flags =>
        Ok (BFixed (fields [(8, off); (8, size); (8, flags)]%nat))
    | _ => UB ub_uninit
    end
  else if ty =? PERF_RECORD_ITRACE_START then
    match r with
    | RItrace pid tid => Ok (BFixed (fields [(4, pid); (4, tid)]%nat))
    | _ => UB ub_uninit
    end
  else if ty =? PERF_RECORD_LOST_SAMPLES then
    match r with
    | RLostSamples lost => Ok (BFixed (fields [(8, lost)]%nat))
    | _ => UB ub_uninit
    end
  else if ty =? PERF_RECORD_SWITCH then Ok BNone
  else if ty =? PERF_RECORD_SWITCH_CPU_WIDE then
    match r with
    | RSwitchWide pid tid => Ok (BFixed (fields [(4, pid); (4, tid)]%nat))
    | _ => UB ub_uninit
    end
  else Err pte_bad_opc.

(** The header as written; pevent.c:555-556 and the assignments of
    header.size. *)
Definition header_bytes (e : pev_event) (size : nat) : list N :=
  nbytes 4 (pe_type e) ++ nbytes 2 (pe_misc e) ++ nbytes 2 (N.of_nat size).

(** The body of each case: pevent.c:562-585 with a string, 587-598 without,
    732-738 without structure. *)
Definition write_case (e : pev_event) (b : body) (size : nat) (s : stream) :
  res stream :=
  let room (n : nat) : bool := (length (fst s) <? n)%nat in
  match b with
  | BNone =>
      if room size then Err pte_eos else write (header_bytes e size) s
  | BFixed bs =>
      let size := (size + length bs)%nat in
      if 65535 <? N.of_nat size then Err pte_bad_packet
      else if room size then Err pte_eos
      else
        let* s := write (header_bytes e size) s in
        write bs s
  | BString bs str =>
      if 65535 <=? N.of_nat (length str) then Err pte_eos
      else
        let slen := (length str + 1)%nat in
        let gap := (round8 slen - slen)%nat in
        let size := (size + (length bs + slen + gap))%nat in
        if 65535 <? N.of_nat size then Err pte_bad_packet
        else if room size then Err pte_eos
        else
          let* s := write (header_bytes e size) s in
          let* s := write bs s in
          let* s := write (str ++ [0]) s in
          clear gap s
  end.

(** pevent.c:534-760; gives the buffer afterwards and the number of bytes. *)
Definition pev_write (e : pev_event) (buf : list N) (c : pev_config) :
  res (list N * nat) :=
  let '(st, ssize) := pev_sample_config (pe_sample e) in
  let size := (8 + ssize)%nat in
  if 65535 <? N.of_nat size then Err pte_internal
  else
    let* b := write_body (pe_type e) (pe_record e) in
    let* s := write_case e b size (buf, 0%nat) in
    write_samples s (pe_sample e) c st.
