(** C35, C36, C48: perf event records and perf event time. *)
From Coq Require Import List NArith ZArith Arith Bool Lia.
From Coq Require Import ZifyBool ZifyNat ZifyN.
From Verif Require Import Base M_pevent S_pevent L_pevent L_pevread L_pevsound
  L_pevsamp L_pevtime.
Import ListNotations.
Open Scope N_scope.

(** A successful write puts the documented packet into the buffer, with some
    value in the reserved half of the cpu field, and changes nothing behind it. *)
Theorem C35_write_layout e buf c buf' n :
  event_ok e -> pid_with_tid (pe_sample e) -> bytes_ok buf ->
  pev_write e buf c = Ok (buf', n) ->
  exists res, res < 2 ^ 32 /\ n = length (packet e res) /\ (n <= length buf)%nat /\
    buf' = packet e res ++ skipn n buf.
Proof.
  intros (_ & _ & OT & _) PT Bb W.
  destruct (pev_write_inv e buf c _ OT PT W) as (Pr & Sz & Room).
  destruct (pev_write_ok e buf c OT PT Bb Pr Sz Room) as (res & R & L & E).
  rewrite E in W. injection W as <- <-. exists res. rewrite L. auto.
Qed.
Print Assumptions C35_write_layout.

(** Writing succeeds whenever the samples are those the configuration asks for
    and the packet fits. *)
Theorem C35_write_complete e buf c :
  event_ok e -> pid_with_tid (pe_sample e) -> bytes_ok buf ->
  prescribes c (sm_identifier (pe_sample e)) (samples_type (pe_sample e)) ->
  N.of_nat (length (packet e 0)) <= 65535 ->
  (length (packet e 0) <= length buf)%nat ->
  exists buf', pev_write e buf c = Ok (buf', length (packet e 0)).
Proof.
  intros (_ & _ & OT & _) PT Bb Pr Sz Room.
  rewrite packet_length in * by exact PT.
  destruct (pev_write_ok e buf c OT PT Bb Pr Sz Room) as (res & R & L & E).
  eauto.
Qed.
Print Assumptions C35_write_complete.

(** Reading a documented packet gives the event and the size of the packet. *)
Theorem C35_read_layout e res c tsc rest :
  event_ok e -> pid_with_tid (pe_sample e) -> res < 2 ^ 32 ->
  prescribes c (sm_identifier (pe_sample e)) (samples_type (pe_sample e)) ->
  no_ambiguity c (pe_sample e) -> tsc_of c (pe_sample e) tsc ->
  N.of_nat (length (packet e res)) <= 65535 ->
  exists r, pev_read (packet e res ++ rest) c = Ok (length (packet e res), r) /\
    view (packet e res ++ rest) r = Ok (with_tsc e tsc).
Proof. intros; now apply pev_read_ok. Qed.
Print Assumptions C35_read_layout.

(** What was written is read back, with the time also in TSC units. *)
Theorem C35_round_trip e buf c tsc buf' n :
  event_ok e -> pid_with_tid (pe_sample e) -> bytes_ok buf ->
  no_ambiguity c (pe_sample e) -> tsc_of c (pe_sample e) tsc ->
  pev_write e buf c = Ok (buf', n) ->
  exists r, pev_read buf' c = Ok (n, r) /\ view buf' r = Ok (with_tsc e tsc).
Proof.
  intros EO PT Bb NA TS W.
  pose proof (fun OT => pev_write_inv e buf c _ OT PT W) as I.
  destruct (C35_write_layout e buf c buf' n EO PT Bb W)
    as (res & R & -> & _ & ->).
  destruct I as (Pr & Sz & _); [apply EO|].
  apply pev_read_ok; try assumption.
  rewrite packet_length by exact PT. exact Sz.
Qed.
Print Assumptions C35_round_trip.

(** Whatever is read is described by the bytes read: the event that the user
    sees is made of in-range values, its samples are those that the
    configuration asks for, and the bytes are its packet, up to padding. *)
Theorem C35_read_sound buf c n r :
  bytes_ok buf -> pev_read buf c = Ok (n, r) ->
  exists e, view buf r = Ok e /\ pe_type e <> 0 /\
    firstn 8 buf = struct [(4%nat, pe_type e); (2%nat, pe_misc e);
                           (2%nat, N.of_nat n)] /\
    (known_type (pe_type e) ->
       event_ok e /\ pid_with_tid (pe_sample e) /\
       tsc_of c (pe_sample e) (sm_tsc (pe_sample e)) /\
       exists st pad res,
         prescribes c (sm_identifier (pe_sample e)) st /\
         samples_type (pe_sample e) = N.land st 66246 /\ res < 2 ^ 32 /\
         length pad = pad_size (text (pe_record e)) /\
         firstn n buf = packet_with e pad res).
Proof.
  intros Bb H. destruct (pev_read_sound buf c n r Bb H)
    as (L & e & V & Q1 & Q2 & Q3 & Q4 & Q5 & _).
  exists e. split; [|auto].
  rewrite <- (firstn_skipn n buf). now apply view_app.
Qed.
Print Assumptions C35_read_sound.

(** What was read can be written under the same configuration, takes the same
    number of bytes, and reads as the same event again, provided that the
    configuration does not ask for samples that the library does not know. *)
Theorem C35_read_write buf c n r e buf2 :
  bytes_ok buf -> pev_read buf c = Ok (n, r) -> view buf r = Ok e ->
  known_type (pe_type e) ->
  (forall i st, prescribes c i st -> N.land st 66246 = st) ->
  bytes_ok buf2 -> (n <= length buf2)%nat -> no_ambiguity c (pe_sample e) ->
  exists buf' r', pev_write e buf2 c = Ok (buf', n) /\
    pev_read buf' c = Ok (n, r') /\ view buf' r' = Ok e.
Proof.
  intros Bb H V K KB Bb2 L NA.
  destruct (pev_read_sound buf c n r Bb H)
    as (Ln & e' & V' & Q1 & Q2 & Q3 & Q4 & Q5 & _).
  assert (e' = e).
  { apply (view_app _ (skipn n buf)) in V'. rewrite firstn_skipn in V'.
    congruence. }
  subst e'. destruct (Q5 K) as (EO & PT & TS & st & pad & res & Pr & ST & R & LP & PK).
  assert (Len : n = length (packet e 0)).
  { assert (N1 : length (firstn n buf) = n) by (rewrite firstn_length; lia).
    rewrite <- N1, PK, packet_length by exact PT.
    unfold packet_with, payload_with. rewrite <- !fields_struct.
    rewrite !app_length, !fields_length. cbn [width fst].
    rewrite body_length.
    rewrite (pid_layout _ res PT), (pid_layout _ 0 PT).
    destruct (text (pe_record e)) as [s|]; cbn [text_pad pad_size] in *.
    - rewrite round8_pad, !app_length. cbn [length]. lia.
    - cbn [length]. lia. }
  assert (N16 : N.of_nat n <= 65535).
  { destruct (read_header_size buf c n r Bb H) as (m & Lm & HS).
    assert (n = m).
    { pose proof H as H'. rewrite <- (firstn_skipn m buf) in H'.
      rewrite pev_read_app in H' by exact HS.
      assert (Bm : bytes_ok (firstn m buf)).
      { pose proof Bb as B'. rewrite <- (firstn_skipn m buf) in B'.
        now apply Forall_app in B'. }
      destruct (read_exact _ c n r Bm HS H') as (En & _).
      rewrite firstn_length in En. lia. }
    subst m.
    assert (Bm : bytes_ok (firstn n buf)).
    { pose proof Bb as B'. rewrite <- (firstn_skipn n buf) in B'.
      now apply Forall_app in B'. }
    destruct (ld_piece (firstn n buf) 2 6 Bm) as (v & E & _ & F);
      [rewrite firstn_length; lia|].
    rewrite E in HS. injection HS as ->. unfold fit in F. cbn [fst snd] in F.
    rewrite firstn_length, Nat.min_l in F by lia.
    change (2 ^ (8 * N.of_nat 2)) with 65536 in F. lia. }
  rewrite <- (KB _ _ Pr), <- ST in Pr.
  assert (W : exists b, pev_write e buf2 c = Ok (b, n)).
  { rewrite Len. apply C35_write_complete; try assumption; rewrite <- Len; assumption. }
  destruct W as [b W].
  destruct (C35_round_trip e buf2 c _ b n EO PT Bb2 NA TS W) as (r' & R1 & R2).
  exists b, r'. repeat split; try assumption.
  rewrite R2. f_equal. destruct e as [ty mi rc [? ? ? ? ? ? ? ?]]. reflexivity.
Qed.
Print Assumptions C35_read_write.

(** An event of unknown type is not written. *)
Theorem C35_write_unknown e buf c : ~ known_type (pe_type e) ->
  pev_write e buf c = Err pte_bad_opc.
Proof.
  intros K. unfold pev_write. rewrite sample_config_eq.
  set (sz := width _). assert (SB : (sz <= 48)%nat) by apply ssize_bound.
  destruct (N.ltb_spec 65535 (N.of_nat (8 + sz))); [lia|].
  assert (NE : forall t r, of_type t r -> (pe_type e =? t) = false).
  { intros t r O. destruct (N.eqb_spec (pe_type e) t) as [E|]; [|reflexivity].
    exfalso. apply K. exists r. now rewrite E. }
  unfold write_body.
  rewrite (NE PERF_RECORD_MMAP (RMmap 0 0 0 0 0 []) eq_refl).
  rewrite (NE PERF_RECORD_LOST (RLost 0 0) eq_refl).
  rewrite (NE PERF_RECORD_COMM (RComm 0 0 []) eq_refl).
  rewrite (NE PERF_RECORD_EXIT (RExit 0 0 0 0 0) eq_refl).
  rewrite (NE PERF_RECORD_THROTTLE (RThrottle 0 0 0) (or_introl eq_refl)).
  rewrite (NE PERF_RECORD_UNTHROTTLE (RThrottle 0 0 0) (or_intror eq_refl)).
  rewrite (NE PERF_RECORD_FORK (RFork 0 0 0 0 0) eq_refl).
  rewrite (NE PERF_RECORD_MMAP2 (RMmap2 0 0 0 0 0 0 0 0 0 0 0 []) eq_refl).
  rewrite (NE PERF_RECORD_AUX (RAux 0 0 0) eq_refl).
  rewrite (NE PERF_RECORD_ITRACE_START (RItrace 0 0) eq_refl).
  rewrite (NE PERF_RECORD_LOST_SAMPLES (RLostSamples 0) eq_refl).
  rewrite (NE PERF_RECORD_SWITCH RNone eq_refl).
  rewrite (NE PERF_RECORD_SWITCH_CPU_WIDE (RSwitchWide 0 0) eq_refl).
  reflexivity.
Qed.
Print Assumptions C35_write_unknown.

(** *** Concrete cases *)

Definition no_sample : pev_sample :=
  {| sm_pid := None; sm_tid := None; sm_time := None; sm_tsc := 0;
     sm_id := None; sm_stream_id := None; sm_cpu := None;
     sm_identifier := None |}.

Definition ex_conf : pev_config :=
  {| pc_size := 40; pc_sample_type := 6; pc_shift := 10; pc_mult := 3;
     pc_zero := 1000; pc_samples := Some [(7, 65536); (9, 65670)] |}.

Definition ex_sample : pev_sample :=
  {| sm_pid := Some 17; sm_tid := Some 18; sm_time := Some 4000; sm_tsc := 0;
     sm_id := None; sm_stream_id := None; sm_cpu := Some 3;
     sm_identifier := Some 9 |}.

Definition ex_event : pev_event :=
  {| pe_type := 3; pe_misc := 0x2000;
     pe_record := RComm 17 18 [0x62; 0x61; 0x73; 0x68]; pe_sample := ex_sample |}.

Example C35_hypotheses : event_ok ex_event /\ pid_with_tid ex_sample /\
  no_ambiguity ex_conf ex_sample /\ tsc_of ex_conf ex_sample 1024000 /\
  prescribes ex_conf (Some 9) (samples_type ex_sample).
Proof.
  split; [|split; [|split; [|split]]].
  - unfold event_ok. cbn.
    repeat match goal with
    | |- _ /\ _ => split
    | |- Forall _ _ => constructor
    | |- fit _ => reflexivity
    | |- _ => reflexivity
    end.
  - split; discriminate.
  - left. discriminate.
  - vm_compute. reflexivity.
  - split; [discriminate|]. cbn. split; reflexivity.
Qed.

Example C35_example : exists buf' r,
  pev_write ex_event (repeat 0xaa 60) ex_conf = Ok (buf', 56%nat) /\
  pev_read buf' ex_conf = Ok (56%nat, r) /\
  view buf' r = Ok (with_tsc ex_event 1024000) /\
  skipn 56 buf' = [0xaa; 0xaa; 0xaa; 0xaa].
Proof.
  eexists. eexists. split; [vm_compute; reflexivity|].
  split; [vm_compute; reflexivity|]. split; vm_compute; reflexivity.
Qed.

(** *** Where the plain claim is false *)

(** An event without identifier whose last sample looks like an identifier is
    misread: the id 7 comes back as identifier. *)
Definition amb_conf : pev_config :=
  {| pc_size := 40; pc_sample_type := 64; pc_shift := 0; pc_mult := 1;
     pc_zero := 0; pc_samples := Some [(7, 65536)] |}.
Definition amb_event : pev_event :=
  {| pe_type := 14; pe_misc := 0; pe_record := RNone;
     pe_sample := {| sm_pid := None; sm_tid := None; sm_time := None;
       sm_tsc := 0; sm_id := Some 7; sm_stream_id := None; sm_cpu := None;
       sm_identifier := None |} |}.

Theorem C35_ambiguity_refuted :
  ~ (forall e buf c tsc buf' n, event_ok e -> pid_with_tid (pe_sample e) ->
       bytes_ok buf -> tsc_of c (pe_sample e) tsc ->
       pev_write e buf c = Ok (buf', n) ->
       exists r, pev_read buf' c = Ok (n, r) /\
         view buf' r = Ok (with_tsc e tsc)).
Proof.
  intros H.
  destruct (H amb_event (repeat 0 16) amb_conf 0
    [14; 0; 0; 0; 0; 0; 16; 0; 7; 0; 0; 0; 0; 0; 0; 0] 16%nat)
    as (r & R & V).
  - unfold event_ok. cbn.
    repeat match goal with
    | |- _ /\ _ => split
    | |- Forall _ _ => constructor
    | |- True => exact I
    | |- fit _ => reflexivity
    | |- _ => reflexivity
    end.
  - split; reflexivity.
  - repeat constructor.
  - reflexivity.
  - vm_compute. reflexivity.
  - vm_compute in R. injection R as <-. vm_compute in V. discriminate V.
Qed.
Print Assumptions C35_ambiguity_refuted.

(** With a sample type that includes samples the library does not know, here
    PERF_SAMPLE_IP, an event can be read but not written. *)
Definition ip_conf : pev_config :=
  {| pc_size := 40; pc_sample_type := 1; pc_shift := 0; pc_mult := 1;
     pc_zero := 0; pc_samples := None |}.

Theorem C35_unknown_samples_refuted :
  exists buf r e, bytes_ok buf /\ pev_read buf ip_conf = Ok (8%nat, r) /\
    view buf r = Ok e /\ known_type (pe_type e) /\
    forall buf2, (8 <= length buf2)%nat ->
      pev_write e buf2 ip_conf = Err pte_bad_config.
Proof.
  exists [14; 0; 0; 0; 0; 0; 8; 0]. eexists. eexists.
  split; [repeat constructor|]. split; [vm_compute; reflexivity|].
  split; [vm_compute; reflexivity|]. split; [now exists RNone|].
  intros buf2 L.
  do 8 (destruct buf2 as [|? buf2]; [cbn in L; lia|]). reflexivity.
Qed.
Print Assumptions C35_unknown_samples_refuted.

(** ** C48 *)

(** Reading a record stays inside the given bytes, whatever they are. *)
Theorem C48_read_no_ub buf c : pc_shift c < 64 -> no_ub (pev_read buf c).
Proof. apply pev_read_no_ub. Qed.
Print Assumptions C48_read_no_ub.

(** The pointers in the event that is returned point into the bytes that the
    record claims to have: the user can follow all of them. *)
Theorem C48_pointers_inside buf c n r : bytes_ok buf ->
  pev_read buf c = Ok (n, r) ->
  (8 <= n <= length buf)%nat /\ exists e, view (firstn n buf) r = Ok e.
Proof.
  intros Bb H. destruct (pev_read_sound buf c n r Bb H) as (L & e & V & _).
  eauto.
Qed.
Print Assumptions C48_pointers_inside.

(** Bytes behind the record do not matter. *)
Theorem C48_local buf c n r rest : bytes_ok buf ->
  pev_read buf c = Ok (n, r) -> pev_read (firstn n buf ++ rest) c = Ok (n, r).
Proof.
  intros Bb H. pose proof H as H'.
  destruct (read_header_size buf c n r Bb H) as (m & Lm & HS).
  rewrite <- (firstn_skipn m buf), pev_read_app in H by exact HS.
  assert (Bm : bytes_ok (firstn m buf)).
  { pose proof Bb as B'. rewrite <- (firstn_skipn m buf) in B'.
    now apply Forall_app in B'. }
  destruct (read_exact _ c n r Bm HS H) as (En & _).
  rewrite firstn_length in En. assert (n = m) by lia. subst m.
  now rewrite pev_read_app by exact HS.
Qed.
Print Assumptions C48_local.

(** Writing a record stays inside the given buffer. *)
Theorem C48_write_no_ub e buf c :
  of_type (pe_type e) (pe_record e) -> bytes_ok buf -> no_ub (pev_write e buf c).
Proof. apply pev_write_no_ub. Qed.
Print Assumptions C48_write_no_ub.

(** Malformed: the text of a COMM record does not end inside the record. *)
Example C48_example : pev_read
  [3; 0; 0; 0; 0; 0; 24; 0; 1; 0; 0; 0; 1; 0; 0; 0; 65; 65; 65; 65; 65; 65; 65;
   65; 0; 0; 0; 0; 0; 0; 0; 0] ip_conf = Err pte_bad_packet.
Proof. vm_compute. reflexivity. Qed.

(** A time_shift of 64 or more is undefined behaviour. *)
Theorem C48_shift_refuted : exists buf c, bytes_ok buf /\
  pev_read buf c = UB ub_shift.
Proof.
  exists [14; 0; 0; 0; 0; 0; 16; 0; 7; 0; 0; 0; 0; 0; 0; 0],
    {| pc_size := 40; pc_sample_type := 4; pc_shift := 64; pc_mult := 1;
       pc_zero := 0; pc_samples := None |}.
  split; [repeat constructor|vm_compute; reflexivity].
Qed.
Print Assumptions C48_shift_refuted.

(** ** C36 *)

(** Both conversions are those published for the clock, if the parameters keep
    the intermediate values in range. *)
Theorem C36_to_tsc time c : time < 2 ^ 64 -> pc_zero c <= time ->
  32 <= pc_size c -> 0 < pc_mult c -> pc_shift c < 64 ->
  pc_mult c * 2 ^ pc_shift c <= 2 ^ 64 ->
  tsc_of_clock (pc_zero c) (pc_mult c) (pc_shift c) time < 2 ^ 64 ->
  pev_time_to_tsc time c =
    Ok (tsc_of_clock (pc_zero c) (pc_mult c) (pc_shift c) time).
Proof. apply to_tsc_ok. Qed.
Print Assumptions C36_to_tsc.

Theorem C36_from_tsc tsc c : tsc < 2 ^ 64 ->
  32 <= pc_size c -> 0 < pc_mult c -> pc_shift c < 64 ->
  pc_mult c * 2 ^ pc_shift c <= 2 ^ 64 ->
  clock_of_tsc (pc_zero c) (pc_mult c) (pc_shift c) tsc < 2 ^ 64 ->
  pev_time_from_tsc tsc c =
    Ok (clock_of_tsc (pc_zero c) (pc_mult c) (pc_shift c) tsc).
Proof.
  intros. rewrite from_tsc_ok by assumption. now rewrite N.mod_small.
Qed.
Print Assumptions C36_from_tsc.

(** Later is not earlier. *)
Theorem C36_from_tsc_monotonic a b ta tb c :
  a <= b -> b < 2 ^ 64 -> pc_shift c < 64 ->
  pc_mult c * 2 ^ pc_shift c <= 2 ^ 64 ->
  clock_of_tsc (pc_zero c) (pc_mult c) (pc_shift c) b < 2 ^ 64 ->
  pev_time_from_tsc a c = Ok ta -> pev_time_from_tsc b c = Ok tb -> ta <= tb.
Proof.
  intros L B S M R Ha Hb.
  assert (SZ : 32 <= pc_size c /\ 0 < pc_mult c).
  { unfold pev_time_from_tsc, has_time_zero in Ha.
    destruct (N.leb_spec 32 (pc_size c)); [|discriminate].
    destruct (N.eqb_spec (pc_mult c) 0); [discriminate|]. lia. }
  pose proof (clock_mono (pc_zero c) (pc_mult c) (pc_shift c) a b L) as Mo.
  rewrite C36_from_tsc in Ha by lia. rewrite C36_from_tsc in Hb by lia.
  injection Ha as <-. injection Hb as <-. exact Mo.
Qed.
Print Assumptions C36_from_tsc_monotonic.

Theorem C36_to_tsc_monotonic a b ta tb c :
  pc_zero c <= a -> a <= b -> b < 2 ^ 64 -> pc_shift c < 64 ->
  32 <= pc_size c -> 0 < pc_mult c ->
  pc_mult c * 2 ^ pc_shift c <= 2 ^ 64 ->
  tsc_of_clock (pc_zero c) (pc_mult c) (pc_shift c) b < 2 ^ 64 ->
  pev_time_to_tsc a c = Ok ta -> pev_time_to_tsc b c = Ok tb -> ta <= tb.
Proof.
  intros Z L B S Sz Mu M R Ha Hb.
  pose proof (tsc_mono (pc_zero c) (pc_mult c) (pc_shift c) a b Mu L) as Mo.
  rewrite C36_to_tsc in Ha by lia. rewrite C36_to_tsc in Hb by lia.
  injection Ha as <-. injection Hb as <-. exact Mo.
Qed.
Print Assumptions C36_to_tsc_monotonic.

(** From TSC to time and back never gives a later TSC, and loses less than one
    unit of time plus one of TSC: the error is below 2^shift / mult + 1. *)
Theorem C36_there_and_back tsc time tsc' c :
  tsc < 2 ^ 64 -> pc_shift c < 64 ->
  pc_mult c * 2 ^ pc_shift c <= 2 ^ 64 ->
  clock_of_tsc (pc_zero c) (pc_mult c) (pc_shift c) tsc < 2 ^ 64 ->
  pev_time_from_tsc tsc c = Ok time -> pev_time_to_tsc time c = Ok tsc' ->
  tsc' <= tsc /\ pc_mult c * (tsc - tsc') < 2 ^ pc_shift c + pc_mult c.
Proof.
  intros T S M R Ha Hb.
  assert (SZ : 32 <= pc_size c /\ 0 < pc_mult c).
  { unfold pev_time_from_tsc, has_time_zero in Ha.
    destruct (N.leb_spec 32 (pc_size c)); [|discriminate].
    destruct (N.eqb_spec (pc_mult c) 0); [discriminate|]. lia. }
  rewrite C36_from_tsc in Ha by lia. injection Ha as <-.
  pose proof (there_and_back (pc_zero c) (pc_mult c) (pc_shift c) tsc
    ltac:(lia)) as Q. cbv zeta in Q.
  rewrite C36_to_tsc in Hb; try lia.
  - injection Hb as <-. exact Q.
  - unfold clock_of_tsc. apply N.le_add_r.
Qed.
Print Assumptions C36_there_and_back.

(** Too short a configuration, or a zero multiplier, is rejected; time zero is
    always TSC zero. *)
Theorem C36_rejected c : pc_size c < 32 \/ pc_mult c = 0 ->
  (forall tsc, pev_time_from_tsc tsc c = Err pte_bad_config) /\
  (forall time, time <> 0 -> pev_time_to_tsc time c = Err pte_bad_config).
Proof.
  intros H. unfold pev_time_from_tsc, pev_time_to_tsc, has_time_zero.
  split; intros t; [|intros NZ; destruct (N.eqb_spec t 0); [contradiction|]];
    (destruct (N.leb_spec 32 (pc_size c)); [|reflexivity]);
    (destruct (N.eqb_spec (pc_mult c) 0); [reflexivity|lia]).
Qed.
Print Assumptions C36_rejected.

Theorem C36_time_zero c : pev_time_to_tsc 0 c = Ok 0.
Proof. reflexivity. Qed.
Print Assumptions C36_time_zero.

Example C36_example :
  let c := {| pc_size := 40; pc_sample_type := 0; pc_shift := 31;
              pc_mult := 633_000_000; pc_zero := 5_000_000; pc_samples := None |} in
  pc_mult c * 2 ^ pc_shift c <= 2 ^ 64 /\
  pev_time_from_tsc 1_000_000_000_000 c = Ok 294_768_594_865 /\
  pev_time_to_tsc 294_768_594_865 c = Ok 999999999997.
Proof.
  split; [vm_compute; discriminate|]. split; vm_compute; reflexivity.
Qed.

(** Outside this range the result is silently wrong: a shift that the kernel
    could publish for a slow clock. *)
Theorem C36_overflow_refuted :
  ~ (forall time c, time < 2 ^ 64 -> pc_zero c <= time -> 32 <= pc_size c ->
       0 < pc_mult c < 2 ^ 32 -> pc_shift c < 64 ->
       tsc_of_clock (pc_zero c) (pc_mult c) (pc_shift c) time < 2 ^ 64 ->
       pev_time_to_tsc time c =
         Ok (tsc_of_clock (pc_zero c) (pc_mult c) (pc_shift c) time)).
Proof.
  intros H.
  specialize (H 1000000 {| pc_size := 40; pc_sample_type := 0; pc_shift := 48;
     pc_mult := 4000000000; pc_zero := 0; pc_samples := None |}).
  cbn [pc_size pc_shift pc_mult pc_zero] in H.
  specialize (H eq_refl ltac:(discriminate) ltac:(discriminate)
    ltac:(split; reflexivity) eq_refl eq_refl).
  vm_compute in H. discriminate H.
Qed.
Print Assumptions C36_overflow_refuted.

(** A time before time_zero wraps around to a far future TSC. *)
Theorem C36_before_zero_refuted :
  exists c tsc, pev_time_to_tsc 1 c = Ok tsc /\ 2 ^ 60 < tsc /\
    pc_mult c * 2 ^ pc_shift c <= 2 ^ 64 /\ pc_zero c = 2.
Proof.
  exists {| pc_size := 40; pc_sample_type := 0; pc_shift := 0;
     pc_mult := 1; pc_zero := 2; pc_samples := None |}. eexists.
  split; [vm_compute; reflexivity|]. repeat split; discriminate.
Qed.
Print Assumptions C36_before_zero_refuted.
