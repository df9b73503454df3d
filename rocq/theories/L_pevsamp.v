(** The samples of a perf event record, and reading as a whole. *)
From Coq Require Import List NArith ZArith Arith Bool Lia.
From Coq Require Import ZifyBool ZifyNat ZifyN.
From Verif Require Import Base M_pevent S_pevent L_pevent L_pevread L_pevsound.
Import ListNotations.
Open Scope N_scope.
Ltac Zify.zify_post_hook ::= Z.div_mod_to_equations.

Lemma fld8 b (t : bool) p : bytes_ok b ->
  let po := if t then (Some p, (p + 8)%nat) else (@None nat, p) in
  (snd po <= length b)%nat ->
  exists o, view_field b 8 (fst po) = Ok o /\ piece b p (fields (opt 8 o)) /\
    snd po = (p + width (opt 8 o))%nat /\ some o = t /\ Forall fit (opt 8 o).
Proof.
  intros Bb po L. destruct t; cbn in *.
  - destruct (ld_piece b 8 p Bb L) as (v & E & P & F).
    exists (Some v). unfold view_field. rewrite E. cbn [bind opt width fst some].
    repeat apply conj; try reflexivity.
    + rewrite fields_cons. cbn [fields map concat]. now rewrite app_nil_r.
    + repeat constructor. exact F.
  - exists None. cbn [view_field opt width some]. repeat apply conj; try reflexivity.
    + now apply piece_nil.
    + lia.
    + constructor.
Qed.

Lemma fld_cpu b (t : bool) p : bytes_ok b ->
  let po := if t then (Some p, (p + 8)%nat) else (@None nat, p) in
  (snd po <= length b)%nat ->
  exists o res, view_field b 4 (fst po) = Ok o /\
    piece b p (fields (opt_cpu o res)) /\
    snd po = (p + width (opt_cpu o res))%nat /\ some o = t /\
    Forall fit (opt_cpu o 0) /\ res < 2 ^ 32.
Proof.
  intros Bb po L. destruct t; cbn in *.
  - destruct (ld_piece b 4 p Bb ltac:(lia)) as (v & E & P & F).
    destruct (ld_piece b 4 (p + 4) Bb ltac:(lia)) as (w & _ & P' & F').
    exists (Some v), w. unfold view_field. rewrite E.
    cbn [bind opt_cpu width fst some].
    repeat apply conj; try reflexivity.
    + rewrite !fields_cons. cbn [fields map concat]. rewrite app_nil_r.
      apply piece_app; [exact P|]. now rewrite nbytes_length.
    + constructor; [exact F|]. constructor; [reflexivity|constructor].
    + exact F'.
  - exists None, 0. cbn [view_field opt_cpu width some].
    repeat apply conj; try reflexivity.
    + now apply piece_nil.
    + lia.
    + constructor.
Qed.

Lemma fld_tid b (t : bool) p : bytes_ok b ->
  let po := if t then (Some p, Some (p + 4)%nat, (p + 8)%nat)
            else (@None nat, @None nat, p) in
  (snd po <= length b)%nat ->
  exists o1 o2, view_field b 4 (fst (fst po)) = Ok o1 /\
    view_field b 4 (snd (fst po)) = Ok o2 /\
    (forall s, sm_pid s = o1 -> sm_tid s = o2 ->
       piece b p (fields (opt_tid s)) /\
       snd po = (p + width (opt_tid s))%nat /\ Forall fit (opt_tid s)) /\
    some o1 = t /\ some o2 = t.
Proof.
  intros Bb po L. destruct t; cbn in *.
  - destruct (ld_piece b 4 p Bb ltac:(lia)) as (v & E & P & F).
    destruct (ld_piece b 4 (p + 4) Bb ltac:(lia)) as (w & E' & P' & F').
    exists (Some v), (Some w). unfold view_field. rewrite E, E'.
    cbn [bind some]. repeat apply conj; try reflexivity.
    intros s E1 E2. unfold opt_tid. rewrite E1, E2. cbn [width fst]. repeat apply conj; try reflexivity.
    + rewrite !fields_cons. cbn [fields map concat]. rewrite app_nil_r.
      apply piece_app; [exact P|]. now rewrite nbytes_length.
    + constructor; [exact F|]. constructor; [exact F'|constructor].
  - exists None, None. repeat apply conj; try reflexivity.
    intros s E1 E2. unfold opt_tid. rewrite E1. cbn [width]. repeat apply conj.
    + now apply piece_nil.
    + lia.
    + constructor.
Qed.

(** The six sample kinds that the library knows. *)
Lemma land_pow st k : N.land st (2 ^ k) =
  if truth (N.land st (2 ^ k)) then 2 ^ k else 0.
Proof.
  unfold truth. destruct (N.eqb_spec (N.land st (2 ^ k)) 0) as [E|E]; [exact E|].
  cbn [negb]. apply N.bits_inj_iff. intros i. rewrite N.land_spec.
  destruct (N.eq_dec k i) as [->|Ni].
  - rewrite N.pow2_bits_true, andb_true_r.
    destruct (N.testbit st i) eqn:B; [reflexivity|]. exfalso. apply E.
    apply N.bits_inj_iff. intros j. rewrite N.land_spec, N.bits_0.
    destruct (N.eq_dec i j) as [->|Nj]; [now rewrite B|].
    rewrite N.pow2_bits_false by exact Nj. apply andb_false_r.
  - rewrite !N.pow2_bits_false by exact Ni. apply andb_false_r.
Qed.

Lemma known_bits st : N.land st 66246 =
  type_of (truth (N.land st PERF_SAMPLE_TID)) (truth (N.land st PERF_SAMPLE_TIME))
    (truth (N.land st PERF_SAMPLE_ID)) (truth (N.land st PERF_SAMPLE_STREAM_ID))
    (truth (N.land st PERF_SAMPLE_CPU))
    (truth (N.land st PERF_SAMPLE_IDENTIFIER)).
Proof.
  change 66246 with (N.lor (2 ^ 1) (N.lor (2 ^ 2) (N.lor (2 ^ 6) (N.lor (2 ^ 7)
    (N.lor (2 ^ 9) (2 ^ 16)))))).
  change PERF_SAMPLE_TID with (2 ^ 1). change PERF_SAMPLE_TIME with (2 ^ 2).
  change PERF_SAMPLE_ID with (2 ^ 6). change PERF_SAMPLE_CPU with (2 ^ 7).
  change PERF_SAMPLE_STREAM_ID with (2 ^ 9).
  change PERF_SAMPLE_IDENTIFIER with (2 ^ 16).
  rewrite !N.land_lor_distr_r.
  rewrite (land_pow st 1), (land_pow st 2), (land_pow st 6), (land_pow st 7),
    (land_pow st 9), (land_pow st 16).
  generalize (truth (N.land st (2 ^ 1))), (truth (N.land st (2 ^ 2))),
    (truth (N.land st (2 ^ 6))), (truth (N.land st (2 ^ 7))),
    (truth (N.land st (2 ^ 9))), (truth (N.land st (2 ^ 16))).
  intros [] [] [] [] [] []; reflexivity.
Qed.

Lemma time_no_ub t c : pc_shift c < 64 -> no_ub (pev_time_to_tsc t c).
Proof.
  intros S u. unfold pev_time_to_tsc.
  destruct (t =? 0); [discriminate|]. destruct (negb _); [discriminate|].
  destruct (pc_mult c =? 0); [discriminate|].
  destruct (N.leb_spec 64 (pc_shift c)); [lia|discriminate].
Qed.

(** The time block of pev_read_samples(). *)
Lemma time_block b (t : bool) p c x :
  (if t then
     if (length b <? p + 8)%nat then Err pte_nosync
     else
       let* v := ld b 8 p in
       let* tsc := pev_time_to_tsc v c in
       Ok (Some p, tsc, (p + 8)%nat)
   else Ok (None, 0, p)) = Ok x ->
  (fst (fst x), snd x) = (if t then (Some p, (p + 8)%nat) else (None, p)) /\
  (if t then (p + 8 <= length b)%nat /\
     exists v, ld b 8 p = Ok v /\ pev_time_to_tsc v c = Ok (snd (fst x))
   else snd (fst x) = 0).
Proof.
  destruct t.
  - destruct (Nat.ltb_spec (length b) (p + 8)) as [|L]; [discriminate|].
    destruct (ld b 8 p) as [v|e|u] eqn:E; try discriminate. cbn [bind].
    destruct (pev_time_to_tsc v c) as [tsc|e|u] eqn:T; try discriminate.
    cbn [bind]. intros [= <-]. cbn [fst snd]. split; [reflexivity|].
    split; [exact L|]. now exists v.
  - intros [= <-]. cbn [fst snd]. now split.
Qed.

Lemma samples_sound b p c size rs : bytes_ok b -> (p <= length b)%nat ->
  pev_read_samples b p (length b) c = Ok (size, rs) ->
  (p + size)%nat = length b ->
  exists s res st, view_sample b rs = Ok s /\
    piece b p (fields (sample_layout s res)) /\ res < 2 ^ 32 /\
    size = width (sample_layout s res) /\
    Forall fit (sample_layout s 0) /\ pid_with_tid s /\
    prescribes c (sm_identifier s) st /\
    samples_type s = N.land st 66246 /\ tsc_of c s (sm_tsc s).
Proof.
  intros Bb Lp H EQ. unfold pev_read_samples in H.
  set (pid := if (p + 8 <=? length b)%nat
              then Some (ld b 8 (length b - 8)) else None) in *.
  destruct (pev_sample_type pid c) as [st|e|u] eqn:ST; try discriminate H.
  cbn [bind] in H.
  pose proof (known_bits st) as KB.
  set (t1 := truth (N.land st PERF_SAMPLE_TID)) in *.
  set (t2 := truth (N.land st PERF_SAMPLE_TIME)) in *.
  set (t3 := truth (N.land st PERF_SAMPLE_ID)) in *.
  set (t4 := truth (N.land st PERF_SAMPLE_STREAM_ID)) in *.
  set (t5 := truth (N.land st PERF_SAMPLE_CPU)) in *.
  set (t6 := truth (N.land st PERF_SAMPLE_IDENTIFIER)) in *.
  destruct (if t1 then (Some p, Some (p + 4)%nat, (p + 8)%nat)
            else (None, None, p)) as [[pp pt] p1] eqn:E1.
  match type of H with bind ?m _ = _ => destruct m as [[[ptm tsc] p2]|e|u] eqn:E2
    end; try discriminate H.
  cbn [bind] in H. apply time_block in E2. cbn [fst snd] in E2.
  destruct E2 as [E2 T2].
  destruct (if t3 then (Some p2, (p2 + 8)%nat) else (None, p2))
    as [pi p3] eqn:E3.
  destruct (if t4 then (Some p3, (p3 + 8)%nat) else (None, p3))
    as [psi p4] eqn:E4.
  destruct (if t5 then (Some p4, (p4 + 8)%nat) else (None, p4))
    as [pc p5] eqn:E5.
  destruct (if t6 then (Some p5, (p5 + 8)%nat) else (None, p5))
    as [pn p6] eqn:E6.
  injection H as Hs Hr.
  assert (M1 : (p <= p1)%nat) by (destruct t1; injection E1 as <- <- <-; lia).
  assert (M2 : (p1 <= p2)%nat) by (destruct t2; injection E2 as -> ->; lia).
  assert (M3 : (p2 <= p3)%nat) by (destruct t3; injection E3 as <- <-; lia).
  assert (M4 : (p3 <= p4)%nat) by (destruct t4; injection E4 as <- <-; lia).
  assert (M5 : (p4 <= p5)%nat) by (destruct t5; injection E5 as <- <-; lia).
  assert (M6 : (p5 <= p6)%nat) by (destruct t6; injection E6 as <- <-; lia).
  assert (P6 : p6 = length b) by lia.
  pose proof (fld_tid b t1 p Bb) as D1. cbv zeta in D1. rewrite E1 in D1.
  cbn [fst snd] in D1. specialize (D1 ltac:(lia)).
  destruct D1 as (o1 & o1' & V1 & V1' & D1 & S1 & S1').
  pose proof (fld8 b t2 p1 Bb) as D2. cbv zeta in D2. rewrite <- E2 in D2.
  cbn [fst snd] in D2. specialize (D2 ltac:(lia)).
  destruct D2 as (o2 & V2 & A2 & W2 & S2 & F2).
  pose proof (fld8 b t3 p2 Bb) as D3. cbv zeta in D3. rewrite E3 in D3.
  cbn [fst snd] in D3. specialize (D3 ltac:(lia)).
  destruct D3 as (o3 & V3 & A3 & W3 & S3 & F3).
  pose proof (fld8 b t4 p3 Bb) as D4. cbv zeta in D4. rewrite E4 in D4.
  cbn [fst snd] in D4. specialize (D4 ltac:(lia)).
  destruct D4 as (o4 & V4 & A4 & W4 & S4 & F4).
  pose proof (fld_cpu b t5 p4 Bb) as D5. cbv zeta in D5. rewrite E5 in D5.
  cbn [fst snd] in D5. specialize (D5 ltac:(lia)).
  destruct D5 as (o5 & res & V5 & A5 & W5 & S5 & F5 & R5).
  pose proof (fld8 b t6 p5 Bb) as D6. cbv zeta in D6. rewrite E6 in D6.
  cbn [fst snd] in D6. specialize (D6 ltac:(lia)).
  destruct D6 as (o6 & V6 & A6 & W6 & S6 & F6).
  set (s := {| sm_pid := o1; sm_tid := o1'; sm_time := o2; sm_tsc := tsc;
               sm_id := o3; sm_stream_id := o4; sm_cpu := o5;
               sm_identifier := o6 |}).
  destruct (D1 s eq_refl eq_refl) as (A1 & W1 & F1).
  exists s, res, st.
  split.
  { subst rs. unfold view_sample.
    cbn [rs_pid rs_tid rs_time rs_tsc rs_id rs_stream_id rs_cpu rs_identifier].
    rewrite V1, V1', V2, V3, V4, V5, V6. reflexivity. }
  split.
  { rewrite sample_layout_eq. cbn [s sm_time sm_id sm_stream_id sm_cpu
      sm_identifier].
    rewrite !fields_app.
    apply piece_app; [exact A1|]. rewrite fields_length, <- W1.
    apply piece_app; [exact A2|]. rewrite fields_length, <- W2.
    apply piece_app; [exact A3|]. rewrite fields_length, <- W3.
    apply piece_app; [exact A4|]. rewrite fields_length, <- W4.
    apply piece_app; [exact A5|]. rewrite fields_length, <- W5. exact A6. }
  split; [exact R5|].
  split.
  { rewrite sample_layout_eq, !width_app. cbn [s sm_time sm_id sm_stream_id
      sm_cpu sm_identifier]. lia. }
  split.
  { rewrite sample_layout_eq. repeat (apply Forall_app; split); assumption. }
  split.
  { unfold pid_with_tid. cbn [s sm_pid sm_tid].
    destruct o1, o1'; cbn [some] in *; try congruence; split; congruence. }
  split.
  { (* the sample type *)
    cbn [s sm_identifier].
    assert (ID : forall i, o6 = Some i -> pid = Some (Ok i)).
    { intros i ->. cbn [some] in S6. rewrite <- S6 in E6.
      injection E6 as <- EP6. unfold view_field in V6.
      destruct (ld b 8 p5) as [v|e|u] eqn:LD; try discriminate V6.
      cbn [bind] in V6. injection V6 as ->.
      unfold pid. destruct (Nat.leb_spec (p + 8) (length b)); [|lia].
      replace (length b - 8)%nat with p5 by lia. now rewrite LD. }
    destruct o6 as [i|].
    - rewrite (ID i eq_refl) in ST. now apply (sample_type_ok (Some i)).
    - cbn [some] in S6.
      apply (sample_type_ok None). cbn [some_ok].
      unfold pev_sample_type in ST |- *.
      destruct (negb (has_sample_type c)); [discriminate|].
      destruct (has_sample_config c); [|exact ST].
      destruct (pc_samples c) as [l|]; [|exact ST].
      destruct pid as [m|]; [|exact ST].
      destruct m as [i|e|u]; try discriminate ST. cbn [bind] in ST.
      destruct (find_stype l i) as [[t|]|e|u] eqn:F; try discriminate ST;
        cbn [bind] in ST; [|exact ST].
      apply find_stype_ok in F. destruct F as [_ F]. injection ST as ->.
      exfalso. unfold t6 in S6. rewrite ident_bit in S6. congruence. }
  split.
  { rewrite KB, samples_type_eq. cbn [s sm_tid sm_time sm_id sm_stream_id
      sm_cpu sm_identifier]. congruence. }
  unfold tsc_of. cbn [s sm_time sm_tsc].
  destruct o2 as [v|]; cbn [some] in S2; rewrite <- S2 in T2, E2.
  - destruct T2 as (_ & w & Lw & Tw). injection E2 as -> ->.
    unfold view_field in V2. rewrite Lw in V2. cbn [bind] in V2.
    injection V2 as <-. exact Tw.
  - exact T2.
Qed.

(** ** Reading as a whole *)

Lemma strlen_bound b p fin n : bytes_ok b -> (fin <= length b)%nat ->
  pev_strlen b p fin = Ok n -> (p + n <= fin)%nat.
Proof.
  intros Bb L. unfold pev_strlen.
  destruct (Nat.ltb_spec fin p) as [|Lp]; [discriminate|].
  destruct (scan0 b (fin - p) p) as [[k|]|e|u] eqn:S0; try discriminate.
  cbn [bind]. intros [= <-].
  pose proof (scan0_piece b (fin - p) Bb p (Some k) ltac:(lia) S0)
    as (s & -> & K & _). lia.
Qed.

Lemma record_bound ty b fin pos : bytes_ok b -> (fin <= length b)%nat ->
  read_record ty b 8 fin = Ok (Some pos) ->
  (8 <= pos)%nat /\ (pos <= fin + 7 \/ pos <= 32)%nat.
Proof.
  intros Bb L H.
  assert (STR : forall w, read_string b 8 w fin = Ok (Some pos) ->
     (8 <= pos)%nat /\ (pos <= fin + 7 \/ pos <= 32)%nat).
  { intros w. unfold read_string.
    destruct (pev_strlen b (8 + w) fin) as [n|e|u] eqn:E; try discriminate.
    cbn [bind]. intros [= <-]. apply strlen_bound in E; [|assumption..].
    pose proof (round8_lt n). lia. }
  unfold read_record in H.
  repeat match type of H with
  | (if ?x then _ else _) = _ => destruct x
  end; try (now apply STR in H); try discriminate H;
    injection H as <-; lia.
Qed.

Lemma samples_size b p fin c size rs :
  pev_read_samples b p fin c = Ok (size, rs) -> (size <= 48)%nat.
Proof.
  unfold pev_read_samples.
  destruct (pev_sample_type _ c) as [st|e|u]; try discriminate. cbn [bind].
  generalize (truth (N.land st PERF_SAMPLE_TID))
    (truth (N.land st PERF_SAMPLE_TIME)) (truth (N.land st PERF_SAMPLE_ID))
    (truth (N.land st PERF_SAMPLE_STREAM_ID))
    (truth (N.land st PERF_SAMPLE_CPU))
    (truth (N.land st PERF_SAMPLE_IDENTIFIER)).
  intros t1 t2 t3 t4 t5 t6.
  destruct t1; cbv beta iota zeta;
  (match goal with |- bind ?m _ = _ -> _ =>
    assert (T : forall q, m = Ok q -> (snd q <= p + 16)%nat);
    [ intros q; destruct t2;
      [ destruct (_ <? _)%nat; [discriminate|];
        destruct (ld _ _ _); cbn [bind]; try discriminate;
        destruct (pev_time_to_tsc _ _); cbn [bind]; try discriminate;
        intros [= <-]; cbn [snd]; lia
      | intros [= <-]; cbn [snd]; lia ]
    | destruct m as [[[o tsc] q]|e|u]; try discriminate;
      specialize (T _ eq_refl); cbn [snd] in T; cbn [bind] ] end);
  destruct t3, t4, t5, t6; cbv beta iota zeta; intros [= <- _]; lia.
Qed.

Lemma read_record_no_ub ty b fin : (fin <= length b)%nat ->
  no_ub (read_record ty b 8 fin).
Proof.
  intros L.
  assert (STR : forall w, no_ub (read_string b 8 w fin)).
  { intros w u. unfold read_string, pev_strlen.
    destruct (Nat.ltb_spec fin (8 + w)); [discriminate|].
    pose proof (scan0_no_ub b (fin - (8 + w)) (8 + w) ltac:(lia)) as Q.
    destruct (scan0 b (fin - (8 + w)) (8 + w)) as [[k|]|e|v]; try discriminate.
    exfalso. now apply (Q v). }
  unfold read_record.
  repeat match goal with
  | |- no_ub (if ?x then _ else _) => destruct x; [try apply STR|]
  end; try (intros u; discriminate).
Qed.

Lemma ld_ok b n p : (p + n <= length b)%nat -> exists v, ld b n p = Ok v.
Proof.
  intros L. unfold ld. destruct (Nat.leb_spec (p + n) (length b)); [|lia].
  eauto.
Qed.

Lemma read_samples_no_ub b p fin c : (fin <= length b)%nat ->
  pc_shift c < 64 -> no_ub (pev_read_samples b p fin c).
Proof.
  intros L S u. unfold pev_read_samples.
  set (pid := if (p + 8 <=? fin)%nat then _ else _).
  assert (PU : forall m, pid = Some m -> no_ub m).
  { intros m. unfold pid. destruct (Nat.leb_spec (p + 8) fin); [|discriminate].
    intros [= <-] v. destruct (ld_ok b 8 (fin - 8)) as [x ->]; [lia|].
    discriminate. }
  pose proof (sample_type_no_ub pid c PU) as Q.
  destruct (pev_sample_type pid c) as [st|e|v]; [|discriminate|
    exfalso; now apply (Q v)].
  cbn [bind]. clear Q PU.
  generalize (truth (N.land st PERF_SAMPLE_TID))
    (truth (N.land st PERF_SAMPLE_TIME)) (truth (N.land st PERF_SAMPLE_ID))
    (truth (N.land st PERF_SAMPLE_STREAM_ID))
    (truth (N.land st PERF_SAMPLE_CPU))
    (truth (N.land st PERF_SAMPLE_IDENTIFIER)).
  intros t1 t2 t3 t4 t5 t6.
  destruct t1; cbv beta iota zeta;
  (match goal with |- bind ?m _ <> _ =>
    assert (T : no_ub m);
    [ intros v; destruct t2; [|discriminate];
      match goal with |- context [(fin <? ?q)%nat] =>
        destruct (Nat.ltb_spec fin q); [discriminate|] end;
      match goal with |- context [ld b 8 ?q] =>
        destruct (ld_ok b 8 q) as [x ->]; [lia|] end;
      cbn [bind]; pose proof (time_no_ub x c S) as TU;
      destruct (pev_time_to_tsc x c) as [y|e|w]; cbn [bind]; try discriminate;
      exfalso; now apply (TU w)
    | destruct m as [[[o tsc] q]|e|v]; [|discriminate|exfalso; now apply (T v)];
      cbn [bind] ] end);
  destruct t3, t4, t5, t6; cbv beta iota zeta; discriminate.
Qed.

Lemma pev_read_no_ub b c : pc_shift c < 64 -> no_ub (pev_read b c).
Proof.
  intros S u. unfold pev_read.
  destruct (Nat.ltb_spec (length b) 8); [discriminate|].
  destruct (ld_ok b 4 0) as [ty ->]; [lia|].
  destruct (ld_ok b 2 4) as [m ->]; [lia|].
  destruct (ld_ok b 2 6) as [hs ->]; [lia|]. cbn [bind].
  destruct (hs <? 8); [discriminate|].
  destruct (Nat.ltb_spec (length b) (N.to_nat hs)) as [|L];
    [rewrite orb_true_r; discriminate|].
  destruct (ty =? 0); [discriminate|]. cbn [orb].
  pose proof (read_record_no_ub ty b (N.to_nat hs) L) as Q.
  destruct (read_record ty b 8 (N.to_nat hs)) as [[p|]|e|v]; cbn [bind];
    try discriminate; [|exfalso; now apply (Q v)].
  pose proof (read_samples_no_ub b p (N.to_nat hs) c L S) as R.
  destruct (pev_read_samples b p (N.to_nat hs) c) as [[size rs]|e|v];
    cbn [bind]; try discriminate; [|exfalso; now apply (R v)].
  destruct (_ =? _); discriminate.
Qed.

Lemma record_known ty b fin : read_record ty b 8 fin = Ok None ->
  ~ known_type ty.
Proof.
  intros H [r K].
  assert (STR : forall w, read_string b 8 w fin <> Ok None).
  { intros w. unfold read_string. destruct (pev_strlen b (8 + w) fin); discriminate. }
  destruct r; cbn [of_type] in K; try (destruct K as [K|K]); subst ty;
    first [discriminate H | exact (STR _ H)].
Qed.

Lemma view_unknown ty b p : ~ known_type ty -> view_record ty b p = Ok RNone.
Proof.
  intros K. unfold view_record.
  assert (NE : forall t r, of_type t r -> (ty =? t) = false).
  { intros t r O. destruct (N.eqb_spec ty t) as [->|]; [|reflexivity].
    exfalso. apply K. now exists r. }
  rewrite (NE PERF_RECORD_MMAP (RMmap 0 0 0 0 0 []) eq_refl).
  rewrite (NE PERF_RECORD_LOST (RLost 0 0) eq_refl).
  rewrite (NE PERF_RECORD_COMM (RComm 0 0 []) eq_refl).
  rewrite (NE PERF_RECORD_EXIT (RExit 0 0 0 0 0) eq_refl).
  rewrite (NE PERF_RECORD_THROTTLE (RThrottle 0 0 0) (or_introl eq_refl)).
  rewrite (NE PERF_RECORD_UNTHROTTLE (RThrottle 0 0 0) (or_intror eq_refl)).
  rewrite (NE PERF_RECORD_FORK (RFork 0 0 0 0 0) eq_refl).
  rewrite (NE PERF_RECORD_MMAP2 (RMmap2 0 0 0 0 0 0 0 0 0 0 0 []) eq_refl).
  rewrite (NE PERF_RECORD_AUX (RAux 0 0 0) eq_refl).
  rewrite (NE PERF_RECORD_ITRACE_START (RItrace 0 0) eq_refl).
  rewrite (NE PERF_RECORD_LOST_SAMPLES (RLostSamples 0) eq_refl).
  rewrite (NE PERF_RECORD_SWITCH_CPU_WIDE (RSwitchWide 0 0) eq_refl).
  reflexivity.
Qed.

Lemma piece_all b x : piece b 0 x -> length x = length b -> b = x.
Proof.
  intros (a & z & E & L) Lx. destruct a; [|discriminate]. cbn [app] in E.
  rewrite E, app_length in Lx. destruct z; [now rewrite app_nil_r in E|].
  cbn in Lx. lia.
Qed.

(** The packet that is read, given that the buffer is just that. *)
Lemma read_exact b c n r : bytes_ok b -> ld b 2 6 = Ok (N.of_nat (length b)) ->
  pev_read b c = Ok (n, r) ->
  n = length b /\ (8 <= n)%nat /\
  exists e, view b r = Ok e /\ pe_type e < 2 ^ 32 /\ pe_misc e < 2 ^ 16 /\
    pe_type e <> 0 /\
    piece b 0 (struct [(4%nat, pe_type e); (2%nat, pe_misc e);
                       (2%nat, N.of_nat n)]) /\
    (known_type (pe_type e) ->
       event_ok e /\ pid_with_tid (pe_sample e) /\
       tsc_of c (pe_sample e) (sm_tsc (pe_sample e)) /\
       exists st pad res,
         prescribes c (sm_identifier (pe_sample e)) st /\
         samples_type (pe_sample e) = N.land st 66246 /\ res < 2 ^ 32 /\
         length pad = pad_size (text (pe_record e)) /\
         b = packet_with e pad res) /\
    (~ known_type (pe_type e) -> pe_record e = RNone /\
       pe_sample e = {| sm_pid := None; sm_tid := None; sm_time := None;
         sm_tsc := 0; sm_id := None; sm_stream_id := None; sm_cpu := None;
         sm_identifier := None |}).
Proof.
  intros Bb HS H. unfold pev_read in H.
  destruct (Nat.ltb_spec (length b) 8) as [|L8]; [discriminate|].
  destruct (ld_piece b 4 0 Bb ltac:(lia)) as (ty & E0 & P0 & F0).
  destruct (ld_piece b 2 4 Bb ltac:(lia)) as (mi & E4 & P4 & F4).
  destruct (ld_piece b 2 6 Bb ltac:(lia)) as (hs & E6 & P6 & F6).
  rewrite E0, E4, HS in H. cbn [bind] in H.
  rewrite HS in E6. injection E6 as <-.
  unfold fit in F0, F4, F6. cbn [fst snd] in F0, F4, F6.
  change (2 ^ (8 * N.of_nat 2)) with 65536 in F6.
  destruct (N.ltb_spec (N.of_nat (length b)) 8); [lia|].
  rewrite Nat2N.id in H.
  destruct (N.eqb_spec ty 0) as [|TZ]; [discriminate|].
  destruct (Nat.ltb_spec (length b) (length b)); [lia|]. cbn [orb] in H.
  assert (PH : piece b 0 (fields [(4%nat, ty); (2%nat, mi);
                                  (2%nat, N.of_nat (length b))])).
  { rewrite !fields_cons. cbn [fields map concat]. rewrite app_nil_r.
    apply piece_app; [exact P0|]. rewrite nbytes_length.
    apply piece_app; [exact P4|]. rewrite nbytes_length. exact P6. }
  destruct (read_record ty b 8 (length b)) as [[pos|]|er|u] eqn:RR;
    try discriminate H; cbn [bind] in H.
  - destruct (record_bound ty b (length b) pos Bb (Nat.le_refl _) RR) as [B1 B2].
    destruct (pev_read_samples b pos (length b) c) as [[size rs]|er|u] eqn:RS;
      try discriminate H. cbn [bind] in H.
    pose proof (samples_size _ _ _ _ _ _ RS) as SZ.
    unfold u16, trunc in H. change (2 ^ 16) with 65536 in H.
    destruct (N.eqb_spec (N.of_nat (pos + size) mod 65536)
      (N.of_nat (length b))) as [EQ|]; [|discriminate].
    assert (TOT : (pos + size)%nat = length b) by lia.
    injection H as <- <-. rewrite TOT.
    destruct (rec_sound ty b pos Bb RR ltac:(lia))
      as (rc & V & OT & FL & pad & TX & PB & LP & EP).
    destruct (samples_sound b pos c size rs Bb ltac:(lia) RS TOT)
      as (s & res & st & VS & PS & R & WS & FS & PT & PR & ST & TS).
    split; [reflexivity|]. split; [exact L8|].
    exists {| pe_type := ty; pe_misc := mi; pe_record := rc; pe_sample := s |}.
    cbn [pe_type pe_misc pe_record pe_sample].
    split; [unfold view; cbn [re_type re_misc re_record re_sample];
            rewrite V; cbn [bind]; rewrite VS; reflexivity|].
    split; [exact F0|]. split; [exact F4|]. split; [exact TZ|].
    split; [rewrite <- fields_struct; exact PH|].
    split; [|intros K; exfalso; apply K; now exists rc].
    intros _. split.
    { unfold event_ok. cbn [pe_type pe_misc pe_record pe_sample].
      repeat split; assumption. }
    split; [exact PT|]. split; [exact TS|].
    exists st, pad, res. repeat (split; [assumption|]).
    apply piece_all.
    + unfold packet_with, payload_with. cbn [pe_type pe_misc pe_record pe_sample].
      rewrite <- !fields_struct.
      assert (LEN : (8 + length (fields (layout rc) ++ text_pad (text rc) pad ++
          fields (sample_layout s res)))%nat = length b).
      { rewrite app_assoc, app_length, fields_length. lia. }
      rewrite LEN. apply piece_app; [exact PH|]. rewrite fields_length.
      rewrite app_assoc. apply piece_app; [exact PB|]. cbn [width fst].
      replace (0 + (4 + (2 + (2 + 0))) +
        length (fields (layout rc) ++ text_pad (text rc) pad))%nat with pos
        by (rewrite EP; reflexivity). exact PS.
    + unfold packet_with. rewrite <- fields_struct, app_length, fields_length.
      unfold payload_with. cbn [pe_record pe_sample width fst].
      rewrite <- !fields_struct, app_assoc, app_length, (fields_length (sample_layout s res)).
      lia.
  - injection H as <- <-. split; [reflexivity|]. split; [exact L8|].
    pose proof (record_known _ _ _ RR) as K.
    exists {| pe_type := ty; pe_misc := mi; pe_record := RNone;
      pe_sample := {| sm_pid := None; sm_tid := None; sm_time := None;
         sm_tsc := 0; sm_id := None; sm_stream_id := None; sm_cpu := None;
         sm_identifier := None |} |}.
    cbn [pe_type pe_misc pe_record pe_sample].
    split; [unfold view; cbn [re_type re_misc re_record re_sample];
            rewrite (view_unknown ty b 8 K); reflexivity|].
    split; [exact F0|]. split; [exact F4|]. split; [exact TZ|].
    split; [rewrite <- fields_struct; exact PH|].
    split; [intros K'; contradiction|]. now split.
Qed.

Lemma read_header_size buf c n r : bytes_ok buf -> pev_read buf c = Ok (n, r) ->
  exists m, (8 <= m <= length buf)%nat /\
    ld (firstn m buf) 2 6 = Ok (N.of_nat (length (firstn m buf))).
Proof.
  intros Bb H. unfold pev_read in H.
  destruct (Nat.ltb_spec (length buf) 8) as [|L8]; [discriminate|].
  destruct (ld buf 4 0) as [ty|e|u]; try discriminate H. cbn [bind] in H.
  destruct (ld buf 2 4) as [mi|e|u]; try discriminate H. cbn [bind] in H.
  destruct (ld buf 2 6) as [hs|e|u] eqn:E6; try discriminate H. cbn [bind] in H.
  destruct (N.ltb_spec hs 8); [discriminate|].
  destruct (Nat.ltb_spec (length buf) (N.to_nat hs)) as [|L];
    [rewrite orb_true_r in H; discriminate|].
  exists (N.to_nat hs). split; [lia|].
  rewrite firstn_length, Nat.min_l by lia.
  rewrite <- (firstn_skipn (N.to_nat hs) buf) in E6.
  rewrite ld_app in E6 by (rewrite firstn_length; lia).
  rewrite E6. f_equal. lia.
Qed.

Lemma pev_read_sound buf c n r : bytes_ok buf -> pev_read buf c = Ok (n, r) ->
  (8 <= n <= length buf)%nat /\
  exists e, view (firstn n buf) r = Ok e /\ pe_type e < 2 ^ 32 /\
    pe_misc e < 2 ^ 16 /\ pe_type e <> 0 /\
    firstn 8 buf = struct [(4%nat, pe_type e); (2%nat, pe_misc e);
                           (2%nat, N.of_nat n)] /\
    (known_type (pe_type e) ->
       event_ok e /\ pid_with_tid (pe_sample e) /\
       tsc_of c (pe_sample e) (sm_tsc (pe_sample e)) /\
       exists st pad res,
         prescribes c (sm_identifier (pe_sample e)) st /\
         samples_type (pe_sample e) = N.land st 66246 /\ res < 2 ^ 32 /\
         length pad = pad_size (text (pe_record e)) /\
         firstn n buf = packet_with e pad res) /\
    (~ known_type (pe_type e) -> pe_record e = RNone /\
       pe_sample e = {| sm_pid := None; sm_tid := None; sm_time := None;
         sm_tsc := 0; sm_id := None; sm_stream_id := None; sm_cpu := None;
         sm_identifier := None |}).
Proof.
  intros Bb H. destruct (read_header_size buf c n r Bb H) as (m & Lm & HS).
  rewrite <- (firstn_skipn m buf) in H. rewrite pev_read_app in H by exact HS.
  assert (Bm : bytes_ok (firstn m buf)).
  { rewrite <- (firstn_skipn m buf) in Bb. now apply Forall_app in Bb. }
  destruct (read_exact _ c n r Bm HS H) as (En & L & e & V & Q).
  rewrite firstn_length in En.
  assert (Enm : n = m) by lia. subst m.
  split; [lia|]. exists e. split; [exact V|].
  destruct Q as (Q1 & Q2 & Q3 & (a & z & Ez & La) & Q).
  repeat (split; [assumption|]). split; [|exact Q].
  destruct a; [|discriminate]. cbn [app] in Ez.
  transitivity (firstn 8 (firstn n buf)).
  - rewrite firstn_firstn. now rewrite Nat.min_l by lia.
  - rewrite Ez, <- fields_struct.
    rewrite firstn_app, fields_length. cbn [width fst].
    rewrite firstn_O, app_nil_r. apply firstn_all2. rewrite fields_length.
    cbn. lia.
Qed.

(** More bytes behind do not change what the user sees. *)
Lemma cstr_app n : forall b r p m s, cstr n b p = Ok s -> (n <= m)%nat ->
  cstr m (b ++ r) p = Ok s.
Proof.
  assert (RD : forall b r p v, rd b p = Ok v -> rd (b ++ r) p = Ok v).
  { intros b r p v. unfold rd. destruct (nth_error b p) as [w|] eqn:E;
      [|discriminate].
    rewrite nth_error_app1, E; [auto|]. apply nth_error_Some. congruence. }
  induction n as [|n IH]; intros b r p m s H L; cbn [cstr] in H;
    destruct (rd b p) as [v|e|u] eqn:E; try discriminate H; cbn [bind] in H;
    apply (RD _ r) in E.
  - destruct m; cbn [cstr]; rewrite E; cbn [bind];
      destruct (v =? 0); try discriminate H; exact H.
  - destruct m as [|m]; [lia|]. cbn [cstr]. rewrite E. cbn [bind].
    destruct (v =? 0); [exact H|].
    destruct (cstr n b (S p)) as [t|e|u] eqn:C; try discriminate H.
    rewrite (IH b r (S p) m t C) by lia. exact H.
Qed.

Lemma ld_app_ok b r n p v : ld b n p = Ok v -> ld (b ++ r) n p = Ok v.
Proof.
  intros H. rewrite ld_app; [exact H|]. unfold ld in H.
  destruct (Nat.leb_spec (p + n) (length b)); [assumption|discriminate].
Qed.

Lemma view_record_app ty b r p x : view_record ty b p = Ok x ->
  view_record ty (b ++ r) p = Ok x.
Proof.
  unfold view_record.
  repeat match goal with |- (if ?t then _ else _) = _ -> _ => destruct t end;
  repeat match goal with
  | |- (let* _ := ld ?b ?n ?q in _) = _ -> _ =>
      let E := fresh "E" in
      destruct (ld b n q) eqn:E; cbn [bind]; try discriminate;
      rewrite (ld_app_ok _ _ _ _ _ E); cbn [bind]
  | |- (let* _ := cstr ?n ?b ?q in _) = _ -> _ =>
      let E := fresh "E" in
      destruct (cstr n b q) eqn:E; cbn [bind]; try discriminate;
      rewrite (cstr_app n b r q (length (b ++ r)) _ E)
        by (rewrite app_length; lia); cbn [bind]
  end; auto.
Qed.

Lemma view_app b r v e : view b v = Ok e -> view (b ++ r) v = Ok e.
Proof.
  unfold view.
  destruct (view_record (re_type v) b (re_record v)) as [x|?|?] eqn:E;
    try discriminate. rewrite (view_record_app _ _ r _ _ E). cbn [bind].
  unfold view_sample.
  assert (VF : forall n o y, view_field b n o = Ok y ->
     view_field (b ++ r) n o = Ok y).
  { intros n [q|] y; cbn [view_field]; [|auto].
    destruct (ld b n q) eqn:L; cbn [bind]; try discriminate.
    now rewrite (ld_app_ok _ _ _ _ _ L). }
  repeat match goal with
  | |- context [view_field b ?n ?o] =>
      let F := fresh "F" in
      destruct (view_field b n o) eqn:F; cbn [bind]; try discriminate;
      rewrite (VF n o _ F); cbn [bind]
  end; auto.
Qed.
