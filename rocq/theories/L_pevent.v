(** Lemmas about perf event records. *)
From Coq Require Import List NArith ZArith Arith Bool Lia.
From Coq Require Import ZifyBool ZifyNat ZifyN.
From Verif Require Import Base M_pevent S_pevent.
Import ListNotations.
Open Scope N_scope.
Ltac Zify.zify_post_hook ::= Z.div_mod_to_equations.

(** ** Numbers and structures *)

Lemma nbytes_length n v : length (nbytes n v) = n.
Proof. revert v. induction n as [|n IH]; intros v; cbn; auto. Qed.

Lemma nbytes_num n : forall v, nbytes n v = num n v.
Proof.
  unfold num. intros v.
  assert (G : forall k, nbytes n (v / 2 ^ (8 * N.of_nat k)) =
     map (fun i => v / 2 ^ (8 * N.of_nat i) mod 256) (seq k n)).
  { induction n as [|n IH]; intros k; [reflexivity|].
    cbn [nbytes seq map]. f_equal. rewrite <- IH. f_equal.
    rewrite N.div_div by (try discriminate; apply N.pow_nonzero; discriminate).
    f_equal. change 256 with (2 ^ 8). rewrite <- N.pow_add_r. f_equal. lia. }
  specialize (G 0%nat). cbn [N.of_nat] in G. rewrite N.mul_0_r, N.pow_0_r in G.
  now rewrite N.div_1_r in G.
Qed.

Lemma fields_struct l : fields l = struct l.
Proof.
  unfold fields, struct. f_equal. apply map_ext. intros [n v].
  apply nbytes_num.
Qed.

Lemma pow_256 n : 2 ^ (8 * N.of_nat n) = 256 ^ N.of_nat n.
Proof. rewrite N.pow_mul_r. reflexivity. Qed.

Lemma bvalue_nbytes n : forall v, v < 2 ^ (8 * N.of_nat n) ->
  bvalue (nbytes n v) = v.
Proof.
  induction n as [|n IH]; intros v H.
  - cbn in *. lia.
  - cbn [nbytes bvalue]. rewrite pow_256, Nat2N.inj_succ, N.pow_succ_r' in H.
    rewrite IH.
    + pose proof (N.div_mod v 256). lia.
    + rewrite pow_256. apply N.div_lt_upper_bound; lia.
Qed.

Lemma fields_cons n v l : fields ((n, v) :: l) = nbytes n v ++ fields l.
Proof. reflexivity. Qed.

Lemma fields_app a b : fields (a ++ b) = fields a ++ fields b.
Proof. unfold fields. now rewrite map_app, concat_app. Qed.

Fixpoint width (l : list (nat * N)) : nat :=
  match l with [] => 0%nat | f :: l => (fst f + width l)%nat end.

Lemma fields_length l : length (fields l) = width l.
Proof.
  induction l as [|[n v] l IH]; [reflexivity|].
  rewrite fields_cons, app_length, nbytes_length, IH. reflexivity.
Qed.

Lemma ld_mid a n v b pos : length a = pos -> v < 2 ^ (8 * N.of_nat n) ->
  ld (a ++ nbytes n v ++ b) n pos = Ok v.
Proof.
  intros <- H. unfold ld. rewrite !app_length, nbytes_length.
  destruct (Nat.leb_spec (length a + n) (length a + (n + length b))); [|lia].
  f_equal. rewrite skipn_app, skipn_all, Nat.sub_diag. cbn [skipn app].
  rewrite firstn_app, nbytes_length, Nat.sub_diag. cbn [firstn].
  rewrite app_nil_r, firstn_all2 by (rewrite nbytes_length; lia).
  now apply bvalue_nbytes.
Qed.

(** Reading field [i] of a structure that is found behind [a]. *)
Lemma ld_field l : forall i a b n v pos, nth_error l i = Some (n, v) ->
  Forall fit l -> pos = (length a + width (firstn i l))%nat ->
  ld (a ++ fields l ++ b) n pos = Ok v.
Proof.
  induction l as [|[m w] l IH]; intros i a b n v pos E F P.
  - destruct i; discriminate.
  - inversion F as [|? ? F1 F2]; subst. destruct i as [|i]; cbn in E.
    + injection E as <- <-. rewrite fields_cons, <- app_assoc.
      apply ld_mid; [cbn; lia|exact F1].
    + rewrite fields_cons, <- !app_assoc, (app_assoc a).
      apply (IH i); [exact E|exact F2|].
      rewrite app_length, nbytes_length. cbn [firstn width fst]. lia.
Qed.

(** ** Text *)

Lemma rd_mid a x b pos : length a = pos -> rd (a ++ x :: b) pos = Ok x.
Proof.
  intros <-. unfold rd. rewrite nth_error_app2, Nat.sub_diag by lia. reflexivity.
Qed.

Lemma scan0_text s : forall a b n, Forall (fun x => 0 < x < 256) s ->
  (length s < n)%nat ->
  scan0 (a ++ s ++ 0 :: b) n (length a) = Ok (Some (length s + 1)%nat).
Proof.
  induction s as [|x s IH]; intros a b n F L; cbn [length app] in *.
  - destruct n as [|n]; [lia|]. cbn [scan0]. rewrite rd_mid by reflexivity.
    reflexivity.
  - destruct n as [|n]; [lia|]. inversion F as [|? ? F1 F2]; subst.
    cbn [scan0]. rewrite rd_mid by reflexivity. cbn [bind].
    destruct (N.eqb_spec x 0); [lia|].
    specialize (IH (a ++ [x]) b n F2 ltac:(lia)).
    rewrite app_length, <- app_assoc in IH. cbn [length app] in IH.
    rewrite Nat.add_1_r in IH. rewrite IH. reflexivity.
Qed.

Lemma cstr_text s : forall a b n, Forall (fun x => 0 < x < 256) s ->
  (length s <= n)%nat -> cstr n (a ++ s ++ 0 :: b) (length a) = Ok s.
Proof.
  induction s as [|x s IH]; intros a b n F L; cbn [length app] in *.
  - destruct n; cbn [cstr]; rewrite rd_mid by reflexivity; reflexivity.
  - inversion F as [|? ? F1 F2]; subst. destruct n as [|n]; [lia|].
    cbn [cstr]. rewrite rd_mid by reflexivity. cbn [bind].
    destruct (N.eqb_spec x 0); [lia|].
    specialize (IH (a ++ [x]) b n F2 ltac:(lia)).
    rewrite app_length, <- app_assoc in IH. cbn [length app] in IH.
    rewrite Nat.add_1_r in IH. rewrite IH. reflexivity.
Qed.

Lemma round8_spec n : round8 n = ((n + 7) / 8 * 8)%nat.
Proof.
  unfold round8. change 7 with (N.ones 3) at 2.
  rewrite N.ldiff_ones_r, N.shiftl_mul_pow2, N.shiftr_div_pow2.
  change (2 ^ 3) with 8. lia.
Qed.

Lemma padded_eq s : padded s =
  (s ++ [0]) ++ repeat 0 (round8 (length s + 1) - (length s + 1)).
Proof.
  unfold padded. rewrite <- app_assoc. do 3 f_equal. rewrite round8_spec.
  pose proof (Nat.div_mod (length s) 8 ltac:(lia)).
  pose proof (Nat.mod_upper_bound (length s) 8 ltac:(lia)).
  pose proof (Nat.div_mod (length s + 1 + 7) 8 ltac:(lia)).
  pose proof (Nat.mod_upper_bound (length s + 1 + 7) 8 ltac:(lia)). lia.
Qed.

Lemma padded_length s : length (padded s) = round8 (length s + 1).
Proof.
  rewrite padded_eq, !app_length, repeat_length. cbn [length].
  rewrite round8_spec.
  pose proof (Nat.div_mod (length s + 1 + 7) 8 ltac:(lia)).
  pose proof (Nat.mod_upper_bound (length s + 1 + 7) 8 ltac:(lia)). lia.
Qed.

(** ** Writing *)

Lemma write_app bs a r : (length bs <= length r)%nat ->
  write bs (a ++ r, length a) =
  Ok ((a ++ bs) ++ skipn (length bs) r, length (a ++ bs)).
Proof.
  intros H. unfold write. rewrite app_length.
  destruct (Nat.leb_spec (length a + length bs) (length a + length r)); [|lia].
  rewrite firstn_app, firstn_all, Nat.sub_diag. cbn [firstn].
  rewrite app_nil_r, skipn_app, skipn_all2 by lia.
  replace (length a + length bs - length a)%nat with (length bs) by lia.
  cbn [app]. rewrite <- app_assoc, app_length. reflexivity.
Qed.

Lemma nbytes_bvalue l : bytes_ok l -> nbytes (length l) (bvalue l) = l.
Proof.
  induction 1 as [|b l Hb Hl IH]; [reflexivity|]. cbn [length nbytes bvalue].
  unfold byte_ok in Hb.
  replace ((b + 256 * bvalue l) mod 256) with b by lia.
  replace ((b + 256 * bvalue l) / 256) with (bvalue l) by lia. now rewrite IH.
Qed.

Lemma bvalue_bound l : bytes_ok l -> bvalue l < 2 ^ (8 * N.of_nat (length l)).
Proof.
  induction 1 as [|b l Hb Hl IH]; [reflexivity|]. cbn [length bvalue].
  unfold byte_ok in Hb. rewrite pow_256 in *.
  rewrite Nat2N.inj_succ, N.pow_succ_r'. lia.
Qed.

Definition some {A} (o : option A) : bool :=
  match o with Some _ => true | None => false end.

Definition opt (n : nat) (o : option N) : list (nat * N) :=
  match o with Some v => [(n, v)] | None => [] end.

Lemma write_field_opt bit n o a r st : truth (N.land st bit) = some o ->
  (width (opt n o) <= length r)%nat ->
  write_field bit n o ((a ++ r, length a), st) =
  Ok (((a ++ fields (opt n o)) ++ skipn (width (opt n o)) r,
       length (a ++ fields (opt n o))),
      if some o then N.ldiff st bit else st).
Proof.
  intros B L. unfold write_field. rewrite B.
  destruct o as [v|]; cbn [some opt width fst] in *.
  - rewrite write_app by (rewrite nbytes_length; lia). cbn [bind].
    rewrite nbytes_length, Nat.add_0_r. unfold fields. cbn [map concat fst snd].
    now rewrite app_nil_r.
  - cbn [fields map concat skipn]. now rewrite app_nil_r.
Qed.

Lemma skipn_skipn' {A} n m (l : list A) : skipn n (skipn m l) = skipn (m + n) l.
Proof.
  revert l. induction m as [|m IH]; intros l; [reflexivity|].
  destruct l; cbn [skipn plus]; [now rewrite skipn_nil|]. apply IH.
Qed.

Definition opt_tid (s : pev_sample) : list (nat * N) :=
  match sm_pid s, sm_tid s with
  | Some p, Some t => [(4, p); (4, t)]%nat | _, _ => [] end.

Definition opt_cpu (o : option N) (res : N) : list (nat * N) :=
  match o with Some v => [(4, v); (4, res)]%nat | None => [] end.

Lemma sample_layout_eq s res : sample_layout s res =
  opt_tid s ++ opt 8 (sm_time s) ++ opt 8 (sm_id s) ++ opt 8 (sm_stream_id s)
  ++ opt_cpu (sm_cpu s) res ++ opt 8 (sm_identifier s).
Proof. reflexivity. Qed.

Lemma width_app a b : width (a ++ b) = (width a + width b)%nat.
Proof. induction a as [|f a IH]; [reflexivity|]. cbn. rewrite IH. lia. Qed.

Definition type_of (t m i d c n : bool) : N :=
  (if t then 2 else 0) + (if m then 4 else 0) + (if i then 64 else 0) +
  (if c then 128 else 0) + (if d then 512 else 0) + (if n then 65536 else 0).

Lemma samples_type_eq s : samples_type s =
  type_of (some (sm_tid s)) (some (sm_time s)) (some (sm_id s))
    (some (sm_stream_id s)) (some (sm_cpu s)) (some (sm_identifier s)).
Proof.
  unfold samples_type, type_of.
  destruct (sm_tid s), (sm_time s), (sm_id s), (sm_cpu s), (sm_stream_id s),
    (sm_identifier s); reflexivity.
Qed.

Lemma sample_config_eq s : pev_sample_config s =
  (samples_type s, width (sample_layout {| sm_pid := sm_tid s;
     sm_tid := sm_tid s; sm_time := sm_time s; sm_tsc := sm_tsc s;
     sm_id := sm_id s; sm_stream_id := sm_stream_id s; sm_cpu := sm_cpu s;
     sm_identifier := sm_identifier s |} 0)).
Proof.
  unfold samples_type, pev_sample_config, sample_layout.
  destruct s as [pid tid time tsc id sid cpu ident].
  cbn [sm_pid sm_tid sm_time sm_id sm_stream_id sm_cpu sm_identifier].
  destruct tid, time, id, cpu, sid, ident; reflexivity.
Qed.

Definition off (b : bool) (bit st : N) : N := if b then N.ldiff st bit else st.

Lemma type_bits t m i d c n :
  let st := type_of t m i d c n in
  let s1 := off t PERF_SAMPLE_TID st in
  let s2 := off m PERF_SAMPLE_TIME s1 in
  let s3 := off i PERF_SAMPLE_ID s2 in
  let s4 := off d PERF_SAMPLE_STREAM_ID s3 in
  let s5 := off c PERF_SAMPLE_CPU s4 in
  let s6 := off n PERF_SAMPLE_IDENTIFIER s5 in
  truth (N.land st PERF_SAMPLE_TID) = t /\
  truth (N.land s1 PERF_SAMPLE_TIME) = m /\
  truth (N.land s2 PERF_SAMPLE_ID) = i /\
  truth (N.land s3 PERF_SAMPLE_STREAM_ID) = d /\
  truth (N.land s4 PERF_SAMPLE_CPU) = c /\
  truth (N.land s5 PERF_SAMPLE_IDENTIFIER) = n /\
  truth s6 = false.
Proof. destruct t, m, i, d, c, n; vm_compute; auto 10. Qed.

Lemma pid_layout s res : pid_with_tid s -> width (sample_layout s res) =
  width (sample_layout {| sm_pid := sm_tid s;
     sm_tid := sm_tid s; sm_time := sm_time s; sm_tsc := sm_tsc s;
     sm_id := sm_id s; sm_stream_id := sm_stream_id s; sm_cpu := sm_cpu s;
     sm_identifier := sm_identifier s |} 0).
Proof.
  unfold pid_with_tid, sample_layout.
  destruct s as [[pid|] [tid|] time tsc id sid cpu ident];
    cbn [sm_pid sm_tid sm_time sm_id sm_stream_id sm_cpu sm_identifier];
    intros [A B]; try (specialize (A eq_refl); discriminate);
    try (specialize (B eq_refl); discriminate);
    rewrite !width_app; destruct cpu; reflexivity.
Qed.

Lemma write_samples_ok s c a r :
  pev_sample_type (match sm_identifier s with
                   | Some i => Some (Ok i) | None => None end) c =
    Ok (samples_type s) ->
  pid_with_tid s -> bytes_ok r ->
  (width (sample_layout s 0) <= length r)%nat ->
  exists res, res < 2 ^ 32 /\
    write_samples (a ++ r, length a) s c (samples_type s) =
    Ok ((a ++ fields (sample_layout s res)) ++
          skipn (width (sample_layout s 0)) r,
        length (a ++ fields (sample_layout s res))).
Proof.
  intros T PT Br L.
  destruct (type_bits (some (sm_tid s)) (some (sm_time s)) (some (sm_id s))
    (some (sm_stream_id s)) (some (sm_cpu s)) (some (sm_identifier s)))
    as (B1 & B2 & B3 & B4 & B5 & B6 & B7).
  rewrite <- samples_type_eq in *.
  set (o := width (opt_tid s ++ opt 8 (sm_time s) ++ opt 8 (sm_id s) ++
                opt 8 (sm_stream_id s))).
  set (res := match sm_cpu s with
              | Some _ => bvalue (firstn 4 (skipn (o + 4) r)) | None => 0 end).
  exists res.
  assert (Bp : bytes_ok (firstn 4 (skipn (o + 4) r))).
  { apply Forall_forall. intros x Hx. eapply Forall_forall in Br; [exact Br|].
    rewrite <- (firstn_skipn (o + 4)). apply in_or_app. right.
    rewrite <- (firstn_skipn 4). apply in_or_app. now left. }
  rewrite sample_layout_eq, !width_app in L.
  assert (Lp : forall v, sm_cpu s = Some v ->
     length (firstn 4 (skipn (o + 4) r)) = 4%nat).
  { intros v Ev. rewrite firstn_length, skipn_length. subst o.
    rewrite !width_app. rewrite Ev in L. cbn [opt_cpu width fst] in L. lia. }
  split.
  { subst res. destruct (sm_cpu s) as [v|] eqn:Ec; [|reflexivity].
    pose proof (bvalue_bound _ Bp) as Q. rewrite (Lp v eq_refl) in Q. exact Q. }
  unfold write_samples. rewrite T. cbn [bind]. rewrite N.eqb_refl. cbn [negb].
  rewrite B1.
  match goal with |- bind ?m _ = _ => assert (E1 : m =
     Ok (((a ++ fields (opt_tid s)) ++ skipn (width (opt_tid s)) r,
          length (a ++ fields (opt_tid s))),
         off (some (sm_tid s)) PERF_SAMPLE_TID (samples_type s))) end.
  { unfold opt_tid, pid_with_tid in *.
    destruct (sm_tid s) as [t|], (sm_pid s) as [p|]; cbn [some off].
    - cbn [width fst] in L.
      rewrite write_app by (rewrite nbytes_length; lia). cbn [bind].
      rewrite write_app by (rewrite skipn_length, !nbytes_length; lia).
      cbn [bind]. rewrite skipn_skipn', !nbytes_length, !fields_cons.
      cbn [fields map concat]. rewrite app_nil_r, <- !app_assoc. reflexivity.
    - destruct PT as [PT _]. specialize (PT eq_refl). discriminate.
    - destruct PT as [_ PT]. specialize (PT eq_refl). discriminate.
    - cbn. now rewrite app_nil_r. }
  rewrite E1. cbn [bind]. clear E1.
  rewrite write_field_opt; [|exact B2|rewrite skipn_length; lia].
  cbn [bind]. rewrite skipn_skipn'.
  rewrite write_field_opt; [|exact B3|rewrite skipn_length; lia].
  cbn [bind]. rewrite skipn_skipn'.
  rewrite write_field_opt; [|exact B4|rewrite skipn_length; lia].
  cbn [bind]. rewrite skipn_skipn'.
  fold (off (some (sm_time s)) PERF_SAMPLE_TIME
    (off (some (sm_tid s)) PERF_SAMPLE_TID (samples_type s))).
  match goal with |- context [if some (sm_id s) then N.ldiff ?x ?y else ?x] =>
    change (if some (sm_id s) then N.ldiff x y else x)
      with (off (some (sm_id s)) y x) end.
  match goal with |- context [if some (sm_stream_id s) then N.ldiff ?x ?y
                              else ?x] =>
    change (if some (sm_stream_id s) then N.ldiff x y else x)
      with (off (some (sm_stream_id s)) y x) end.
  rewrite B5.
  set (r4 := skipn _ r). 
  set (a4 := (((a ++ fields (opt_tid s)) ++ fields (opt 8 (sm_time s))) ++
    fields (opt 8 (sm_id s))) ++ fields (opt 8 (sm_stream_id s))).
  assert (R4 : r4 = skipn o r).
  { subst r4 o. f_equal. rewrite !width_app. lia. }
  assert (L4 : (width (opt_cpu (sm_cpu s) 0) + width (opt 8 (sm_identifier s))
                <= length r4)%nat).
  { subst r4. rewrite skipn_length. lia. }
  match goal with |- bind ?m _ = _ => assert (E4 : m =
     Ok (((a4 ++ fields (opt_cpu (sm_cpu s) res)) ++
            skipn (width (opt_cpu (sm_cpu s) 0)) r4,
          length (a4 ++ fields (opt_cpu (sm_cpu s) res))),
         off (some (sm_cpu s)) PERF_SAMPLE_CPU
          (off (some (sm_stream_id s)) PERF_SAMPLE_STREAM_ID
           (off (some (sm_id s)) PERF_SAMPLE_ID
            (off (some (sm_time s)) PERF_SAMPLE_TIME
             (off (some (sm_tid s)) PERF_SAMPLE_TID (samples_type s))))))) end.
  { destruct (sm_cpu s) as [cpu|]; cbn [some].
    - cbn [opt_cpu width fst] in L4.
      rewrite write_app by (rewrite nbytes_length; lia).
      cbn [bind]. specialize (Lp cpu eq_refl).
      assert (Q : firstn 4 (skipn (o + 4) r) = firstn 4 (skipn 4 r4))
        by (rewrite R4, skipn_skipn'; reflexivity).
      subst res. rewrite Q in *.
      rewrite nbytes_length.
      cbn [opt_cpu width fst]. rewrite !fields_cons.
      cbn [fields map concat]. rewrite app_nil_r.
      assert (Z : nbytes 4 (bvalue (firstn 4 (skipn 4 r4))) =
                  firstn 4 (skipn 4 r4)).
      { rewrite <- Lp at 1. now apply nbytes_bvalue. }
      rewrite Z. unfold off at 1. do 3 f_equal.
      + rewrite <- !app_assoc. do 3 f_equal.
        change (4 + (4 + 0))%nat with (4 + 4)%nat.
        rewrite <- skipn_skipn', firstn_skipn. reflexivity.
      + rewrite !app_length, Lp, nbytes_length. lia.
    - cbn [opt_cpu fields map concat width skipn]. now rewrite app_nil_r. }
  rewrite E4. cbn [bind]. clear E4.
  rewrite write_field_opt; [|exact B6|rewrite skipn_length; lia]. cbn [bind].
  match goal with |- context [if some (sm_identifier s) then N.ldiff ?x ?y
                              else ?x] =>
    change (if some (sm_identifier s) then N.ldiff x y else x)
      with (off (some (sm_identifier s)) y x) end.
  rewrite B7.
  subst a4 r4.
  rewrite !sample_layout_eq, !skipn_skipn', !fields_app, !width_app,
    <- !app_assoc.
  rewrite <- !Nat.add_assoc. reflexivity.
Qed.

(** ** pev_write() *)

Definition body_of (r : record) : body :=
  match r with
  | RNone => BNone
  | _ => match text r with
         | Some s => BString (fields (layout r)) s
         | None => BFixed (fields (layout r))
         end
  end.

Lemma write_body_ok ty r : of_type ty r -> write_body ty r = Ok (body_of r).
Proof.
  destruct r; cbn [of_type]; [intros ->|intros ->|intros ->|intros ->
   |intros ->|intros [-> | ->]|intros ->..]; reflexivity.
Qed.

Definition body_bytes (r : record) : list N :=
  fields (layout r) ++ text_bytes (text r).

Lemma body_length r : length (body_bytes r) =
  (width (layout r) + match text r with
     | Some s => round8 (length s + 1) | None => 0 end)%nat.
Proof.
  unfold body_bytes. rewrite app_length, fields_length.
  destruct (text r); cbn [text_bytes]; [now rewrite padded_length|reflexivity].
Qed.

Lemma header_length e n : length (header_bytes e n) = 8%nat.
Proof. unfold header_bytes. rewrite !app_length, !nbytes_length. reflexivity. Qed.

Lemma round8_ge n : (n <= round8 n)%nat.
Proof.
  rewrite round8_spec. pose proof (Nat.div_mod (n + 7) 8 ltac:(lia)).
  pose proof (Nat.mod_upper_bound (n + 7) 8 ltac:(lia)). lia.
Qed.

Lemma round8_lt n : (round8 n < n + 8)%nat.
Proof.
  rewrite round8_spec. pose proof (Nat.div_mod (n + 7) 8 ltac:(lia)). lia.
Qed.

Lemma write_nil_app bs r : (length bs <= length r)%nat ->
  write bs (r, 0%nat) = Ok (bs ++ skipn (length bs) r, length bs).
Proof. intros L. apply (write_app bs [] r L). Qed.

Lemma write_case_ok e ssize buf :
  let r := pe_record e in
  let total := (8 + ssize + length (body_bytes r))%nat in
  write_case e (body_of r) (8 + ssize) (buf, 0%nat) =
  if (match r with RNone => false | _ => true end) &&
     (65535 <? N.of_nat total)
  then match text r with
       | Some s => if 65535 <=? N.of_nat (length s) then Err pte_eos
                   else Err pte_bad_packet
       | None => Err pte_bad_packet
       end
  else if (length buf <? total)%nat then Err pte_eos
  else Ok ((header_bytes e total ++ body_bytes r) ++
             skipn (8 + length (body_bytes r)) buf,
           length (header_bytes e total ++ body_bytes r)).
Proof.
  intros r total.
  assert (FIX : forall bs, bs = body_bytes r -> (8 + length bs <= total)%nat ->
    (if (length buf <? total)%nat then Err pte_eos
     else let* s := write (header_bytes e total) (buf, 0%nat) in write bs s) =
    (if (length buf <? total)%nat then Err pte_eos
     else Ok ((header_bytes e total ++ body_bytes r) ++
             skipn (8 + length (body_bytes r)) buf,
           length (header_bytes e total ++ body_bytes r)))).
  { intros bs -> L. destruct (Nat.ltb_spec (length buf) total); [reflexivity|].
    rewrite write_nil_app by (rewrite header_length; lia). cbn [bind].
    rewrite write_app by (rewrite skipn_length, header_length; lia).
    rewrite skipn_skipn', header_length. reflexivity. }
  destruct (text r) as [s|] eqn:Et.
  - assert (Eb : body_of r = BString (fields (layout r)) s).
    { destruct r; try discriminate; cbn in Et |- *; injection Et as ->;
        reflexivity. }
    assert (Nr : match r with RNone => false | _ => true end = true)
      by (destruct r; [discriminate|reflexivity..]).
    rewrite Eb, Nr. cbn [andb write_case].
    pose proof (body_length r) as LB. rewrite Et in LB.
    pose proof (round8_ge (length s + 1)) as G.
    replace (8 + ssize + (length (fields (layout r)) + (length s + 1) +
       (round8 (length s + 1) - (length s + 1))))%nat with total
      by (subst total; rewrite LB, fields_length; lia).
    assert (IMP : 65535 <= N.of_nat (length s) -> 65535 < N.of_nat total)
      by (subst total; lia).
    destruct (N.leb_spec 65535 (N.of_nat (length s))).
    { destruct (N.ltb_spec 65535 (N.of_nat total)); [reflexivity|lia]. }
    destruct (N.ltb_spec 65535 (N.of_nat total)); [reflexivity|].
    cbn [fst]. destruct (Nat.ltb_spec (length buf) total); [reflexivity|].
    rewrite write_nil_app by (rewrite header_length; lia). cbn [bind].
    rewrite write_app
      by (rewrite skipn_length, header_length, fields_length; lia).
    cbn [bind].
    rewrite write_app by (rewrite !skipn_length, header_length, fields_length,
        app_length; cbn [length]; lia).
    cbn [bind]. unfold clear.
    rewrite write_app by (rewrite !skipn_length, header_length, fields_length,
        app_length, repeat_length; cbn [length]; lia).
    assert (BB : body_bytes r = fields (layout r) ++ (s ++ [0]) ++
      repeat 0 (round8 (length s + 1) - (length s + 1))).
    { unfold body_bytes. rewrite Et. cbn [text_bytes]. now rewrite padded_eq. }
    rewrite !skipn_skipn', BB, <- !app_assoc, !header_length.
    rewrite !app_length, !header_length, <- !Nat.add_assoc. reflexivity.
  - assert (BB : fields (layout r) = body_bytes r).
    { unfold body_bytes. rewrite Et. cbn [text_bytes]. now rewrite app_nil_r. }
    assert (Eb : r = RNone \/ body_of r = BFixed (body_bytes r) /\
       match r with RNone => false | _ => true end = true).
    { rewrite <- BB. destruct r; try discriminate; auto. }
    destruct Eb as [Er|[Eb Nr]].
    + rewrite Er. cbn [body_of write_case andb fst].
      assert (Z : body_bytes r = []) by (rewrite Er; reflexivity).
      specialize (FIX [] (eq_sym Z)). subst total. rewrite Er in *.
      cbn [body_bytes layout text text_bytes fields map concat length app] in *.
      rewrite Nat.add_0_r in *. rewrite app_nil_r in *.
      destruct (Nat.ltb_spec (length buf) (8 + ssize)); [reflexivity|].
      rewrite write_nil_app by (rewrite header_length; lia).
      now rewrite header_length.
    + rewrite Eb, Nr. cbn [andb write_case].
      fold total. destruct (N.ltb_spec 65535 (N.of_nat total)); [reflexivity|].
      cbn [fst]. apply FIX; [reflexivity|]. subst total. lia.
Qed.

Lemma ident_bit st : truth (N.land st PERF_SAMPLE_IDENTIFIER) = N.testbit st 16.
Proof.
  unfold truth, PERF_SAMPLE_IDENTIFIER. change 65536 with (2 ^ 16).
  destruct (N.testbit st 16) eqn:E.
  - destruct (N.eqb_spec (N.land st (2 ^ 16)) 0) as [Z|Z]; [|reflexivity].
    assert (B : N.testbit (N.land st (2 ^ 16)) 16 = true)
      by (rewrite N.land_spec, E, N.pow2_bits_true; reflexivity).
    rewrite Z in B. discriminate.
  - replace (N.land st (2 ^ 16)) with 0; [reflexivity|]. symmetry.
    apply N.bits_inj_iff. intros i. rewrite N.land_spec, N.bits_0.
    destruct (N.eq_dec i 16) as [->|Ni]; [now rewrite E|].
    rewrite N.pow2_bits_false by congruence. apply andb_false_r.
Qed.

Lemma find_stype_ok l i st : find_stype l i = Ok (Some st) <->
  configured l i = Some st /\ N.testbit st 16 = true.
Proof.
  induction l as [|[j t] l IH]; cbn [find_stype configured].
  - split; [discriminate|intros [? _]; discriminate].
  - destruct (N.eqb_spec j i); [|exact IH].
    rewrite ident_bit. destruct (N.testbit t 16) eqn:E.
    + split; [intros [= <-]; auto|intros [[= <-] _]; reflexivity].
    + split; [discriminate|intros [[= <-] Q]; congruence].
Qed.

Lemma find_stype_none l i : find_stype l i = Ok None <-> configured l i = None.
Proof.
  induction l as [|[j t] l IH]; cbn [find_stype configured].
  - split; reflexivity.
  - destruct (N.eqb_spec j i); [|exact IH].
    destruct (truth _); split; discriminate.
Qed.

Definition some_ok (o : option N) : option (res N) :=
  match o with Some i => Some (Ok i) | None => None end.

Lemma sample_type_ok o c st : pev_sample_type (some_ok o) c = Ok st <->
  prescribes c o st.
Proof.
  unfold pev_sample_type, prescribes, has_sample_type, has_sample_config.
  destruct (N.leb_spec 16 (pc_size c)) as [H|H]; cbn [negb];
    [|split; [discriminate|lia]].
  assert (D : Ok (pc_sample_type c) = Ok st <->
     16 <= pc_size c /\ st = pc_sample_type c).
  { split; [intros [= <-]; auto|intros [_ ->]; reflexivity]. }
  destruct o as [i|]; cbn [some_ok].
  - destruct (pc_samples c) as [l|].
    + destruct (40 <=? pc_size c); [|exact D]. cbn [bind].
      destruct (find_stype l i) as [[t|]|e|u] eqn:F; cbn [bind].
      * apply find_stype_ok in F. destruct F as [F B]. rewrite F.
        split; [intros [= <-]; auto|intros (_ & -> & _); reflexivity].
      * apply find_stype_none in F. rewrite F. exact D.
      * split; [discriminate|]. intros [_ Q].
        destruct (configured l i) as [t|] eqn:C.
        -- destruct Q as [-> Q].
           assert (find_stype l i = Ok (Some st)) by now apply find_stype_ok.
           congruence.
        -- apply find_stype_none in C. congruence.
      * exfalso. clear -F. revert F.
        induction l as [|[j t] l IH]; cbn; [discriminate|].
        destruct (j =? i); [destruct (truth _); discriminate|exact IH].
    + destruct (40 <=? pc_size c); exact D.
  - destruct (pc_samples c); destruct (40 <=? pc_size c); exact D.
Qed.

Lemma packet_length e res : pid_with_tid (pe_sample e) ->
  length (packet e res) =
  (8 + width (sample_layout (pe_sample e) 0) +
   length (body_bytes (pe_record e)))%nat.
Proof.
  intros P. unfold packet, payload.
  rewrite <- !fields_struct, !app_length, !fields_length. cbn [width fst].
  unfold body_bytes. rewrite app_length, fields_length.
  rewrite (pid_layout _ res P), (pid_layout _ 0 P). lia.
Qed.

Lemma packet_eq e res n : n = length (packet e res) ->
  packet e res = header_bytes e n ++ body_bytes (pe_record e) ++
    fields (sample_layout (pe_sample e) res).
Proof.
  intros ->. unfold packet at 1. unfold header_bytes, body_bytes.
  rewrite <- fields_struct. rewrite !fields_cons.
  cbn [fields map concat]. rewrite app_nil_r, <- !app_assoc.
  unfold payload at 2. rewrite <- !fields_struct. do 3 f_equal.
Qed.

(** Writing succeeds. *)
Lemma pev_write_ok e buf c : let s := pe_sample e in
  let total := (8 + width (sample_layout s 0) +
                length (body_bytes (pe_record e)))%nat in
  of_type (pe_type e) (pe_record e) -> pid_with_tid s -> bytes_ok buf ->
  prescribes c (sm_identifier s) (samples_type s) ->
  N.of_nat total <= 65535 -> (total <= length buf)%nat ->
  exists res, res < 2 ^ 32 /\ length (packet e res) = total /\
    pev_write e buf c = Ok (packet e res ++ skipn total buf, total).
Proof.
  intros s total OT PT Bb Pr Sz Room.
  unfold pev_write. rewrite sample_config_eq. fold s.
  rewrite <- (pid_layout _ 0 PT).
  destruct (N.ltb_spec 65535 (N.of_nat (8 + width (sample_layout s 0))));
    [lia|].
  rewrite write_body_ok by exact OT. cbn [bind]. rewrite write_case_ok.
  fold total. destruct (N.ltb_spec 65535 (N.of_nat total)); [lia|].
  rewrite andb_false_r.
  destruct (Nat.ltb_spec (length buf) total); [lia|]. cbn [bind].
  apply sample_type_ok in Pr.
  destruct (write_samples_ok s c
    (header_bytes e total ++ body_bytes (pe_record e))
    (skipn (8 + length (body_bytes (pe_record e))) buf) Pr PT)
    as (res & R & W).
  { apply Forall_forall. intros x Hx. eapply Forall_forall in Bb; [exact Bb|].
    rewrite <- (firstn_skipn (8 + length (body_bytes (pe_record e)))).
    apply in_or_app. now right. }
  { rewrite skipn_length. lia. }
  exists res. split; [exact R|].
  pose proof (packet_length e res PT) as PL. fold s total in PL.
  split; [exact PL|]. rewrite W.
  rewrite (packet_eq e res total) by now symmetry.
  rewrite <- !app_assoc, skipn_skipn'. do 3 f_equal.
  - do 3 f_equal. subst total. lia.
  - rewrite !app_length, header_length, fields_length. subst total.
    rewrite (pid_layout _ res PT), (pid_layout _ 0 PT). fold s. lia.
Qed.

(** ** Reading what was written *)

Lemma ld_split a b l1 n v l2 pos : pos = (length a + width l1)%nat ->
  v < 2 ^ (8 * N.of_nat n) ->
  ld (a ++ fields (l1 ++ (n, v) :: l2) ++ b) n pos = Ok v.
Proof.
  intros -> F. rewrite fields_app, fields_cons, <- !app_assoc, app_assoc.
  apply ld_mid; [|exact F]. now rewrite app_length, fields_length.
Qed.

Lemma type_bits' t m i d c n :
  let st := type_of t m i d c n in
  truth (N.land st PERF_SAMPLE_TID) = t /\
  truth (N.land st PERF_SAMPLE_TIME) = m /\
  truth (N.land st PERF_SAMPLE_ID) = i /\
  truth (N.land st PERF_SAMPLE_STREAM_ID) = d /\
  truth (N.land st PERF_SAMPLE_CPU) = c /\
  truth (N.land st PERF_SAMPLE_IDENTIFIER) = n.
Proof. destruct t, m, i, d, c, n; vm_compute; auto 10. Qed.

Definition at_pos (o : option N) (p : nat) : option nat :=
  match o with Some _ => Some p | None => None end.

Definition rsample_of (s : pev_sample) (b : nat) (tsc : N) : rsample :=
  let p1 := (b + width (opt_tid s))%nat in
  let p2 := (p1 + width (opt 8 (sm_time s)))%nat in
  let p3 := (p2 + width (opt 8 (sm_id s)))%nat in
  let p4 := (p3 + width (opt 8 (sm_stream_id s)))%nat in
  let p5 := (p4 + width (opt_cpu (sm_cpu s) 0))%nat in
  {| rs_pid := at_pos (sm_tid s) b; rs_tid := at_pos (sm_tid s) (b + 4);
     rs_time := at_pos (sm_time s) p1; rs_tsc := tsc;
     rs_id := at_pos (sm_id s) p2; rs_stream_id := at_pos (sm_stream_id s) p3;
     rs_cpu := at_pos (sm_cpu s) p4;
     rs_identifier := at_pos (sm_identifier s) p5 |}.

Lemma read_samples_ok s res a b c tsc :
  pid_with_tid s -> Forall fit (sample_layout s res) ->
  prescribes c (sm_identifier s) (samples_type s) -> no_ambiguity c s ->
  tsc_of c s tsc ->
  pev_read_samples (a ++ fields (sample_layout s res) ++ b) (length a)
    (length a + width (sample_layout s res)) c =
  Ok (width (sample_layout s res), rsample_of s (length a) tsc).
Proof.
  intros PT FT Pr NA TS.
  destruct (type_bits' (some (sm_tid s)) (some (sm_time s)) (some (sm_id s))
    (some (sm_stream_id s)) (some (sm_cpu s)) (some (sm_identifier s)))
    as (B1 & B2 & B3 & B4 & B5 & B6).
  rewrite <- samples_type_eq in *.
  unfold pev_read_samples.
  set (fin := (length a + width (sample_layout s res))%nat).
  set (buf := a ++ fields (sample_layout s res) ++ b).
  assert (ST : pev_sample_type
    (if (length a + 8 <=? fin)%nat then Some (ld buf 8 (fin - 8)) else None) c =
    Ok (samples_type s)).
  { destruct (sm_identifier s) as [i|] eqn:Ei.
    - assert (W : width (sample_layout s res) =
        (width (opt_tid s ++ opt 8 (sm_time s) ++ opt 8 (sm_id s) ++
           opt 8 (sm_stream_id s) ++ opt_cpu (sm_cpu s) res) + 8)%nat).
      { rewrite sample_layout_eq, Ei, !width_app. cbn [opt width fst]. lia. }
      destruct (Nat.leb_spec (length a + 8) fin); [|lia].
      replace (ld buf 8 (fin - 8)) with (Ok i).
      + now apply (sample_type_ok (Some i)).
      + symmetry. unfold buf.
        assert (SL : sample_layout s res =
          (opt_tid s ++ opt 8 (sm_time s) ++ opt 8 (sm_id s) ++
           opt 8 (sm_stream_id s) ++ opt_cpu (sm_cpu s) res) ++ (8%nat, i) :: [])
          by (rewrite sample_layout_eq, Ei, <- !app_assoc; reflexivity).
        rewrite SL at 1. apply ld_split; [lia|].
        rewrite SL in FT. apply Forall_app in FT. destruct FT as [_ FT].
        now inversion FT.
    - pose proof (proj2 (sample_type_ok None c _) Pr) as Q. cbn [some_ok] in Q.
      destruct NA as [NA|[NA|[NA|NA]]].
      + congruence.
      + destruct (length a + 8 <=? fin)%nat; [|exact Q].
        unfold pev_sample_type in *. rewrite NA in *. exact Q.
      + destruct (length a + 8 <=? fin)%nat; [|exact Q].
        unfold pev_sample_type, has_sample_config in *.
        destruct (N.leb_spec 40 (pc_size c)); [lia|]. exact Q.
      + assert (W : width (sample_layout s res) = 0%nat).
        { rewrite (pid_layout _ _ PT).
          unfold samples_type in NA. unfold sample_layout.
          destruct s as [pid tid time t id sid cpu ident]; cbn [sm_pid sm_tid
            sm_time sm_id sm_stream_id sm_cpu sm_identifier] in *.
          destruct tid, time, id, sid, cpu, ident; try lia; reflexivity. }
        destruct (Nat.leb_spec (length a + 8) fin); [lia|]. exact Q. }
  rewrite ST. cbn [bind]. clear ST.
  rewrite B1, B2, B3, B4, B5, B6.
  assert (WT : forall x, (if some (sm_tid s) then
      (Some x, Some (x + 4)%nat, (x + 8)%nat) else (None, None, x)) =
      (at_pos (sm_tid s) x, at_pos (sm_tid s) (x + 4),
       (x + width (opt_tid s))%nat)).
  { intros x. unfold opt_tid, pid_with_tid in *.
    destruct (sm_tid s), (sm_pid s); cbn [some at_pos width fst].
    - reflexivity.
    - destruct PT as [PT _]. specialize (PT eq_refl). discriminate.
    - now rewrite Nat.add_0_r.
    - now rewrite Nat.add_0_r. }
  assert (WO : forall o x, (if some o then (Some x, (x + 8)%nat)
      else (None, x)) = (at_pos o x, (x + width (opt 8 o))%nat)).
  { intros [v|] x; cbn [some at_pos opt width fst]; [reflexivity|].
    now rewrite Nat.add_0_r. }
  assert (WC : forall o x, (if some o then (Some x, (x + 8)%nat)
      else (None, x)) = (at_pos o x, (x + width (opt_cpu o 0))%nat)).
  { intros [v|] x; cbn [some at_pos opt_cpu width fst]; [reflexivity|].
    now rewrite Nat.add_0_r. }
  rewrite WT.
  match goal with |- bind ?m _ = _ => assert (E : m =
     Ok (at_pos (sm_time s) (length a + width (opt_tid s)), tsc,
         (length a + width (opt_tid s) + width (opt 8 (sm_time s)))%nat)) end.
  { unfold tsc_of in TS. destruct (sm_time s) as [v|] eqn:Ev; cbn [some].
    - assert (SL : sample_layout s res = opt_tid s ++ (8%nat, v) ::
        (opt 8 (sm_id s) ++ opt 8 (sm_stream_id s)
         ++ opt_cpu (sm_cpu s) res ++ opt 8 (sm_identifier s)))
        by (rewrite sample_layout_eq, Ev; reflexivity).
      assert (W : (width (opt_tid s) + 8 <= width (sample_layout s res))%nat).
      { rewrite SL, width_app. cbn [width fst]. lia. }
      destruct (Nat.ltb_spec fin (length a + width (opt_tid s) + 8)); [lia|].
      replace (ld buf 8 (length a + width (opt_tid s))) with (Ok v).
      + cbn [bind]. rewrite TS. reflexivity.
      + symmetry. unfold buf. rewrite SL. apply ld_split; [reflexivity|].
        rewrite SL in FT. apply Forall_app in FT. destruct FT as [_ FT].
        now inversion FT.
    - subst tsc. cbn [at_pos opt width]. now rewrite Nat.add_0_r. }
  rewrite E. cbn [bind]. clear E.
  rewrite WO. rewrite WO. rewrite WC. rewrite WO.
  unfold rsample_of. do 2 f_equal.
  rewrite sample_layout_eq, !width_app.
  replace (width (opt_cpu (sm_cpu s) res)) with (width (opt_cpu (sm_cpu s) 0))
    by (destruct (sm_cpu s); reflexivity).
  lia.
Qed.

Lemma view_opt a b l1 n o l2 pos :
  pos = (length a + width l1)%nat -> Forall fit (opt n o) ->
  view_field (a ++ fields (l1 ++ opt n o ++ l2) ++ b) n (at_pos o pos) = Ok o.
Proof.
  intros P F. destruct o as [v|]; cbn [at_pos view_field opt app]; [|reflexivity].
  rewrite ld_split; [reflexivity|exact P|]. now inversion F.
Qed.

Lemma view_sample_ok s res a b tsc :
  pid_with_tid s -> Forall fit (sample_layout s res) ->
  view_sample (a ++ fields (sample_layout s res) ++ b)
    (rsample_of s (length a) tsc) =
  Ok {| sm_pid := sm_pid s; sm_tid := sm_tid s; sm_time := sm_time s;
        sm_tsc := tsc; sm_id := sm_id s; sm_stream_id := sm_stream_id s;
        sm_cpu := sm_cpu s; sm_identifier := sm_identifier s |}.
Proof.
  intros PT FT. unfold view_sample, rsample_of.
  cbn [rs_pid rs_tid rs_time rs_tsc rs_id rs_stream_id rs_cpu rs_identifier].
  pose proof FT as FT0. rewrite sample_layout_eq in FT.
  repeat (apply Forall_app in FT; let X := fresh "F" in destruct FT as [X FT]).
  set (l := sample_layout s res).
  assert (V1 : view_field (a ++ fields l ++ b) 4 (at_pos (sm_tid s) (length a))
               = Ok (sm_pid s)).
  { unfold pid_with_tid in PT.
    destruct (sm_tid s) as [t|] eqn:Et, (sm_pid s) as [p|] eqn:Ep;
      cbn [at_pos view_field].
    - rewrite (ld_field l 0 a b 4 p); [reflexivity| |exact FT0|cbn; lia].
      unfold l. rewrite sample_layout_eq. unfold opt_tid. rewrite Et, Ep.
      reflexivity.
    - destruct PT as [PT _]. specialize (PT eq_refl). discriminate.
    - destruct PT as [_ PT]. specialize (PT eq_refl). discriminate.
    - reflexivity. }
  assert (V2 : view_field (a ++ fields l ++ b) 4
                 (at_pos (sm_tid s) (length a + 4)) = Ok (sm_tid s)).
  { unfold pid_with_tid in PT.
    destruct (sm_tid s) as [t|] eqn:Et, (sm_pid s) as [p|] eqn:Ep;
      cbn [at_pos view_field].
    - assert (SL : l = [(4%nat, p)] ++ (4%nat, t) :: tl (tl l)).
      { unfold l. rewrite sample_layout_eq. unfold opt_tid. rewrite Et, Ep.
        reflexivity. }
      rewrite SL at 1. rewrite ld_split; [reflexivity|cbn; lia|].
      unfold l in SL. rewrite SL in FT0. inversion FT0 as [|? ? _ F'].
      now inversion F'.
    - destruct PT as [PT _]. specialize (PT eq_refl). discriminate.
    - reflexivity.
    - reflexivity. }
  assert (V3 : view_field (a ++ fields l ++ b) 8
     (at_pos (sm_time s) (length a + width (opt_tid s))) = Ok (sm_time s)).
  { unfold l. rewrite sample_layout_eq. apply view_opt; [reflexivity|assumption]. }
  assert (V4 : view_field (a ++ fields l ++ b) 8
     (at_pos (sm_id s) (length a + width (opt_tid s) + width (opt 8 (sm_time s))))
     = Ok (sm_id s)).
  { unfold l. rewrite sample_layout_eq, (app_assoc (opt_tid s)).
    apply view_opt; [rewrite width_app; lia|assumption]. }
  assert (V5 : view_field (a ++ fields l ++ b) 8
     (at_pos (sm_stream_id s) (length a + width (opt_tid s) +
        width (opt 8 (sm_time s)) + width (opt 8 (sm_id s))))
     = Ok (sm_stream_id s)).
  { unfold l. rewrite sample_layout_eq, (app_assoc (opt_tid s)).
    rewrite (app_assoc (opt_tid s ++ _)).
    apply view_opt; [rewrite !width_app; lia|assumption]. }
  assert (V6 : view_field (a ++ fields l ++ b) 4
     (at_pos (sm_cpu s) (length a + width (opt_tid s) +
        width (opt 8 (sm_time s)) + width (opt 8 (sm_id s)) +
        width (opt 8 (sm_stream_id s))))
     = Ok (sm_cpu s)).
  { unfold l. rewrite sample_layout_eq.
    rewrite (app_assoc (opt_tid s)), (app_assoc (opt_tid s ++ _)),
      (app_assoc ((opt_tid s ++ _) ++ _)).
    destruct (sm_cpu s) as [v|]; cbn [at_pos view_field opt_cpu];
      [|reflexivity].
    cbn [app]. rewrite ld_split; [reflexivity|rewrite !width_app; lia|].
    match goal with Q : Forall fit (opt_cpu (Some v) res) |- _ =>
      now inversion Q end. }
  assert (V7 : view_field (a ++ fields l ++ b) 8
     (at_pos (sm_identifier s) (length a + width (opt_tid s) +
        width (opt 8 (sm_time s)) + width (opt 8 (sm_id s)) +
        width (opt 8 (sm_stream_id s)) + width (opt_cpu (sm_cpu s) 0)))
     = Ok (sm_identifier s)).
  { unfold l. rewrite sample_layout_eq.
    rewrite <- (app_nil_r (opt 8 (sm_identifier s))).
    rewrite (app_assoc (opt_tid s)), (app_assoc (opt_tid s ++ _)),
      (app_assoc ((opt_tid s ++ _) ++ _)),
      (app_assoc (((opt_tid s ++ _) ++ _) ++ _)).
    apply view_opt; [|assumption]. rewrite !width_app.
    destruct (sm_cpu s); cbn [opt_cpu width fst]; lia. }
  rewrite V1, V2, V3, V4, V5, V6, V7. reflexivity.
Qed.
