(** Reading perf event records. *)
From Coq Require Import List NArith ZArith Arith Bool Lia.
From Coq Require Import ZifyBool ZifyNat ZifyN.
From Verif Require Import Base M_pevent S_pevent L_pevent.
Import ListNotations.
Open Scope N_scope.
Ltac Zify.zify_post_hook ::= Z.div_mod_to_equations.

Definition text_ok (r : record) : Prop :=
  match text r with
  | Some s => Forall (fun b => 0 < b < 256) s
  | None => True
  end.

Lemma body_text r s : text r = Some s -> forall h rest,
  h ++ body_bytes r ++ rest =
  (h ++ fields (layout r)) ++ s ++ 0 ::
    (repeat 0 (7 - length s mod 8) ++ rest).
Proof.
  intros E h rest. unfold body_bytes. rewrite E. cbn [text_bytes].
  unfold padded. rewrite <- !app_assoc. reflexivity.
Qed.

Lemma strlen_ok r s h rest w fin : text r = Some s -> text_ok r ->
  w = (length h + width (layout r))%nat ->
  (length h + length (body_bytes r) <= fin)%nat ->
  pev_strlen (h ++ body_bytes r ++ rest) w fin = Ok (length s + 1)%nat.
Proof.
  intros E T -> L. unfold text_ok in T. rewrite E in T.
  pose proof (body_length r) as B. rewrite E in B.
  pose proof (round8_ge (length s + 1)) as G.
  unfold pev_strlen.
  destruct (Nat.ltb_spec fin (length h + width (layout r))); [lia|].
  rewrite (body_text r s E).
  rewrite <- (fields_length (layout r)), <- app_length.
  rewrite scan0_text; [reflexivity|exact T|].
  rewrite app_length, fields_length. lia.
Qed.

Lemma read_record_ok ty r h rest fin : of_type ty r -> text_ok r ->
  length h = 8%nat -> (8 + length (body_bytes r) <= fin)%nat ->
  read_record ty (h ++ body_bytes r ++ rest) 8 fin =
  Ok (Some (8 + length (body_bytes r))%nat).
Proof.
  intros OT T H L. pose proof (body_length r) as B.
  assert (STR : forall s w, text r = Some s -> w = width (layout r) ->
     read_string (h ++ body_bytes r ++ rest) 8 w fin =
     Ok (Some (8 + length (body_bytes r))%nat)).
  { intros s w E ->. unfold read_string.
    rewrite (strlen_ok r s); [|exact E|exact T|lia|lia].
    cbn [bind]. rewrite B, E. do 2 f_equal; lia. }
  destruct r; cbn [of_type] in OT; try (subst ty; rewrite B;
    cbn [layout text width fst]; rewrite ?Nat.add_0_r; reflexivity).
  - subst ty. now apply (STR filename).
  - subst ty. now apply (STR comm).
  - destruct OT as [-> | ->]; rewrite B; reflexivity.
  - subst ty. now apply (STR filename).
Qed.

Lemma view_record_ok ty r h rest : of_type ty r -> text_ok r ->
  Forall fit (layout r) -> length h = 8%nat ->
  view_record ty (h ++ body_bytes r ++ rest) 8 = Ok r.
Proof.
  intros OT T F H.
  assert (STR : forall s w, text r = Some s -> w = width (layout r) ->
     cstr (length (h ++ body_bytes r ++ rest)) (h ++ body_bytes r ++ rest)
       (8 + w) = Ok s).
  { intros s w E ->.
    pose proof (body_length r) as B. rewrite E in B.
    pose proof (round8_ge (length s + 1)) as G.
    remember (length (h ++ body_bytes r ++ rest)) as n eqn:En.
    rewrite (body_text r s E).
    replace (8 + width (layout r))%nat with (length (h ++ fields (layout r)))
      by (rewrite app_length, fields_length; lia).
    apply cstr_text.
    - unfold text_ok in T. now rewrite E in T.
    - subst n. rewrite !app_length. lia. }
  assert (LD : forall i n v o, nth_error (layout r) i = Some (n, v) ->
     o = width (firstn i (layout r)) ->
     ld (h ++ body_bytes r ++ rest) n (8 + o) = Ok v).
  { intros i n v o E ->. unfold body_bytes. rewrite <- app_assoc.
    apply (ld_field (layout r) i); [exact E|exact F|lia]. }
  unfold view_record.
  destruct r; cbn [of_type] in OT;
    try (destruct OT as [OT|OT]); subst ty;
    cbv beta iota zeta delta [N.eqb Pos.eqb orb PERF_RECORD_MMAP
      PERF_RECORD_LOST PERF_RECORD_COMM PERF_RECORD_EXIT PERF_RECORD_THROTTLE
      PERF_RECORD_UNTHROTTLE PERF_RECORD_FORK PERF_RECORD_MMAP2
      PERF_RECORD_AUX PERF_RECORD_ITRACE_START PERF_RECORD_LOST_SAMPLES
      PERF_RECORD_SWITCH_CPU_WIDE];
    repeat match goal with
    | |- context [ld _ ?n (8 + ?o)] =>
        first [rewrite (LD 0%nat n _ o eq_refl eq_refl)
              |rewrite (LD 1%nat n _ o eq_refl eq_refl)
              |rewrite (LD 2%nat n _ o eq_refl eq_refl)
              |rewrite (LD 3%nat n _ o eq_refl eq_refl)
              |rewrite (LD 4%nat n _ o eq_refl eq_refl)
              |rewrite (LD 5%nat n _ o eq_refl eq_refl)
              |rewrite (LD 6%nat n _ o eq_refl eq_refl)
              |rewrite (LD 7%nat n _ o eq_refl eq_refl)
              |rewrite (LD 8%nat n _ o eq_refl eq_refl)
              |rewrite (LD 9%nat n _ o eq_refl eq_refl)
              |rewrite (LD 10%nat n _ o eq_refl eq_refl)]
    end;
    try rewrite (STR _ 32%nat eq_refl eq_refl);
    try rewrite (STR _ 8%nat eq_refl eq_refl);
    try rewrite (STR _ 64%nat eq_refl eq_refl);
    reflexivity.
Qed.

(** ** A whole packet *)

Lemma hdr_ld e total rest i n v pos :
  nth_error [(4%nat, pe_type e); (2%nat, pe_misc e); (2%nat, N.of_nat total)] i =
    Some (n, v) ->
  pe_type e < 2 ^ 32 -> pe_misc e < 2 ^ 16 -> N.of_nat total <= 65535 ->
  pos = width (firstn i [(4%nat, pe_type e); (2%nat, pe_misc e);
                         (2%nat, N.of_nat total)]) ->
  ld (header_bytes e total ++ rest) n pos = Ok v.
Proof.
  intros E T M S P.
  replace (header_bytes e total) with
    (fields [(4%nat, pe_type e); (2%nat, pe_misc e); (2%nat, N.of_nat total)])
    by (unfold header_bytes, fields; cbn [map concat fst snd];
        now rewrite app_nil_r).
  apply (ld_field _ i []); [exact E| |exact P].
  repeat apply Forall_cons; try apply Forall_nil; unfold fit; cbn [fst snd].
  - exact T.
  - exact M.
  - change (2 ^ (8 * N.of_nat 2)) with 65536. lia.
Qed.

Lemma fit_res s res : Forall fit (sample_layout s 0) -> res < 2 ^ 32 ->
  Forall fit (sample_layout s res).
Proof.
  intros F R. rewrite sample_layout_eq in *.
  repeat (apply Forall_app in F; let X := fresh "F" in destruct F as [X F]).
  repeat (apply Forall_app; split); try assumption.
  unfold opt_cpu in *. destruct (sm_cpu s); [|exact F4].
  inversion F4; subst. repeat apply Forall_cons; [assumption|exact R|apply Forall_nil].
Qed.

Lemma of_type_known ty r : of_type ty r -> ty <> 0.
Proof. destruct r; cbn [of_type]; lia. Qed.

Lemma pev_read_ok e res c tsc rest : let s := pe_sample e in
  let total := length (packet e res) in
  event_ok e -> pid_with_tid s -> res < 2 ^ 32 ->
  prescribes c (sm_identifier s) (samples_type s) -> no_ambiguity c s ->
  tsc_of c s tsc -> N.of_nat total <= 65535 ->
  exists r, pev_read (packet e res ++ rest) c = Ok (total, r) /\
    view (packet e res ++ rest) r = Ok (with_tsc e tsc).
Proof.
  intros s total (Ty & Mi & OT & FL & FS & TX) PT R Pr NA TS Sz.
  pose proof (fit_res _ _ FS R) as FR. fold s in FR.
  assert (PL : total = (8 + length (body_bytes (pe_record e)) +
                        width (sample_layout s res))%nat).
  { unfold total. rewrite packet_length by exact PT. fold s.
    rewrite (pid_layout _ res PT), (pid_layout _ 0 PT). lia. }
  pose proof (packet_eq e res total) as PE.
  unfold total in PE at 1. fold s in PE.
  specialize (PE eq_refl).
  set (buf := packet e res ++ rest).
  assert (B1 : buf = header_bytes e total ++
     (body_bytes (pe_record e) ++ fields (sample_layout s res) ++ rest)).
  { unfold buf. rewrite PE, <- !app_assoc. reflexivity. }
  assert (B2 : buf = header_bytes e total ++ body_bytes (pe_record e) ++
     (fields (sample_layout s res) ++ rest)) by exact B1.
  assert (B3 : buf = (header_bytes e total ++ body_bytes (pe_record e)) ++
     fields (sample_layout s res) ++ rest)
    by (rewrite B1, <- app_assoc; reflexivity).
  assert (LB : (total <= length buf)%nat).
  { unfold buf. rewrite app_length. fold total. lia. }
  pose proof (of_type_known _ _ OT) as TK.
  unfold pev_read.
  destruct (Nat.ltb_spec (length buf) 8); [lia|].
  replace (ld buf 4 0) with (Ok (pe_type e)) by
    (symmetry; rewrite B1; now apply (hdr_ld e total _ 0)).
  replace (ld buf 2 4) with (Ok (pe_misc e)) by
    (symmetry; rewrite B1; now apply (hdr_ld e total _ 1)).
  replace (ld buf 2 6) with (Ok (N.of_nat total)) by
    (symmetry; rewrite B1; now apply (hdr_ld e total _ 2)).
  cbn [bind]. destruct (N.ltb_spec (N.of_nat total) 8); [lia|].
  rewrite Nat2N.id.
  destruct (N.eqb_spec (pe_type e) 0); [contradiction|].
  destruct (Nat.ltb_spec (length buf) total); [lia|]. cbn [orb].
  pose proof (header_length e total) as HL.
  rewrite B2, read_record_ok; [|exact OT|exact TX|exact HL|lia].
  cbn [bind]. rewrite <- B2, B3.
  pose proof (read_samples_ok s res (header_bytes e total ++
    body_bytes (pe_record e)) rest c tsc PT FR Pr NA TS) as RS.
  rewrite app_length, HL in RS.
  replace (8 + length (body_bytes (pe_record e)) +
           width (sample_layout s res))%nat with total in RS by lia.
  rewrite RS. cbn [bind].
  replace (8 + length (body_bytes (pe_record e)) +
           width (sample_layout s res))%nat with total by lia.
  unfold u16, trunc. change (2 ^ 16) with 65536.
  rewrite N.mod_small by lia. rewrite N.eqb_refl.
  eexists. split; [reflexivity|].
  unfold view. cbn [re_type re_misc re_record re_sample].
  rewrite <- B3, B2, view_record_ok; [|exact OT|exact TX|exact FL|exact HL].
  cbn [bind]. rewrite <- B2, B3.
  pose proof (view_sample_ok s res (header_bytes e total ++
    body_bytes (pe_record e)) rest tsc PT FR) as VS.
  rewrite app_length, HL in VS. rewrite VS. reflexivity.
Qed.

(** ** What a successful write implies *)

Lemma write_case_inv e ssize buf x : (ssize <= 48)%nat ->
  write_case e (body_of (pe_record e)) (8 + ssize) (buf, 0%nat) = Ok x ->
  let total := (8 + ssize + length (body_bytes (pe_record e)))%nat in
  N.of_nat total <= 65535 /\ (total <= length buf)%nat.
Proof.
  intros S W total. rewrite write_case_ok in W. fold total in W.
  assert (Z : pe_record e = RNone -> N.of_nat total <= 65535).
  { intros E. unfold total. rewrite E. cbn. lia. }
  destruct (N.ltb_spec 65535 (N.of_nat total)) as [G|G].
  - destruct (pe_record e); cbn [andb text] in W; try discriminate W;
      try (destruct (_ <=? _)%N in W; discriminate W).
    specialize (Z eq_refl). lia.
  - rewrite andb_false_r in W. split; [exact G|].
    destruct (Nat.ltb_spec (length buf) total); [discriminate W|assumption].
Qed.

Lemma ssize_bound s : (width (sample_layout s 0) <= 48)%nat.
Proof.
  rewrite sample_layout_eq, !width_app. unfold opt_tid, opt, opt_cpu.
  destruct (sm_pid s), (sm_tid s), (sm_time s), (sm_id s), (sm_stream_id s),
    (sm_cpu s), (sm_identifier s); cbn; lia.
Qed.

Lemma write_samples_inv st s c a x : write_samples a s c st = Ok x ->
  prescribes c (sm_identifier s) st.
Proof.
  unfold write_samples. change (match sm_identifier s with
    | Some i => Some (Ok i) | None => None end) with (some_ok (sm_identifier s)).
  destruct (pev_sample_type (some_ok (sm_identifier s)) c) as [t|e|u] eqn:E;
    try discriminate. cbn [bind].
  destruct (N.eqb_spec t st) as [->|]; [|discriminate].
  intros _. now apply sample_type_ok.
Qed.

Lemma pev_write_inv e buf c x : let s := pe_sample e in
  let total := (8 + width (sample_layout s 0) +
                length (body_bytes (pe_record e)))%nat in
  of_type (pe_type e) (pe_record e) -> pid_with_tid s ->
  pev_write e buf c = Ok x ->
  prescribes c (sm_identifier s) (samples_type s) /\
  N.of_nat total <= 65535 /\ (total <= length buf)%nat.
Proof.
  intros s total OT PT. unfold pev_write. rewrite sample_config_eq. fold s.
  rewrite <- (pid_layout _ 0 PT). pose proof (ssize_bound s) as SB.
  destruct (N.ltb_spec 65535 (N.of_nat (8 + width (sample_layout s 0))));
    [lia|].
  rewrite write_body_ok by exact OT. cbn [bind].
  destruct (write_case _ _ _ _) as [y|e'|u] eqn:W; try discriminate.
  cbn [bind]. intros WS. apply write_samples_inv in WS. split; [exact WS|].
  exact (write_case_inv _ _ _ _ SB W).
Qed.

(** Writing never leaves the buffer. *)
Lemma find_stype_no_ub l i : no_ub (find_stype l i).
Proof.
  induction l as [|[j t] l IH]; cbn; [intros u; discriminate|].
  destruct (j =? i); [destruct (truth _); intros u; discriminate|exact IH].
Qed.

Lemma sample_type_no_ub o c : (forall m, o = Some m -> no_ub m) ->
  no_ub (pev_sample_type o c).
Proof.
  intros H u. unfold pev_sample_type.
  destruct (negb _); [discriminate|]. destruct (has_sample_config c);
    [|discriminate].
  destruct (pc_samples c) as [l|], o as [m|]; try discriminate.
  specialize (H m eq_refl). destruct m as [i|e|v]; cbn [bind];
    [|discriminate|exfalso; now apply (H v)].
  pose proof (find_stype_no_ub l i) as F.
  destruct (find_stype l i) as [[t|]|e|v]; cbn [bind]; try discriminate.
  exfalso. now apply (F v).
Qed.

Lemma some_ok_no_ub o m : some_ok o = Some m -> no_ub m.
Proof. destruct o; cbn; [intros [= <-] u|]; discriminate. Qed.

(** The pid of an event without tid is not written. *)
Definition drop_pid (s : pev_sample) : pev_sample :=
  {| sm_pid := match sm_tid s with Some _ => sm_pid s | None => None end;
     sm_tid := sm_tid s; sm_time := sm_time s; sm_tsc := sm_tsc s;
     sm_id := sm_id s; sm_stream_id := sm_stream_id s; sm_cpu := sm_cpu s;
     sm_identifier := sm_identifier s |}.

Lemma write_drop_pid a s c : sm_tid s = None ->
  write_samples a s c (samples_type s) =
  write_samples a (drop_pid s) c (samples_type s).
Proof.
  intros E. unfold write_samples. cbn [drop_pid sm_pid sm_tid sm_time sm_id
    sm_stream_id sm_cpu sm_identifier].
  rewrite samples_type_eq, E. cbn [some].
  replace (truth (N.land (type_of false (some (sm_time s)) (some (sm_id s))
    (some (sm_stream_id s)) (some (sm_cpu s)) (some (sm_identifier s)))
    PERF_SAMPLE_TID)) with false; [reflexivity|].
  destruct (some (sm_time s)), (some (sm_id s)), (some (sm_stream_id s)),
    (some (sm_cpu s)), (some (sm_identifier s)); reflexivity.
Qed.

Lemma pev_write_no_ub e buf c : of_type (pe_type e) (pe_record e) ->
  bytes_ok buf -> no_ub (pev_write e buf c).
Proof.
  intros OT Bb u. unfold pev_write. rewrite sample_config_eq.
  set (s := pe_sample e).
  set (sz := width _). assert (SB : (sz <= 48)%nat) by apply ssize_bound.
  destruct (N.ltb_spec 65535 (N.of_nat (8 + sz))); [lia|].
  rewrite write_body_ok by exact OT. cbn [bind]. rewrite write_case_ok.
  set (total := (8 + sz + length (body_bytes (pe_record e)))%nat).
  destruct (_ && _).
  { destruct (text (pe_record e)); [destruct (_ <=? _)|]; discriminate. }
  destruct (Nat.ltb_spec (length buf) total) as [|L]; [discriminate|].
  cbn [bind].
  set (a := header_bytes e total ++ body_bytes (pe_record e)).
  set (r := skipn (8 + length (body_bytes (pe_record e))) buf).
  assert (Br : bytes_ok r).
  { apply Forall_forall. intros x Hx. eapply Forall_forall in Bb; [exact Bb|].
    rewrite <- (firstn_skipn (8 + length (body_bytes (pe_record e)))).
    apply in_or_app. now right. }
  assert (Lr : (sz <= length r)%nat)
    by (unfold r; rewrite skipn_length; unfold total in L; lia).
  assert (GOOD : forall t, pid_with_tid t -> sm_identifier t = sm_identifier s ->
     samples_type t = samples_type s ->
     (width (sample_layout t 0) <= length r)%nat ->
     write_samples (a ++ r, length a) t c (samples_type s) <> UB u).
  { intros t PT EI ET LT.
    destruct (pev_sample_type (some_ok (sm_identifier t)) c) as [st|er|v] eqn:P.
    - destruct (N.eq_dec st (samples_type t)) as [->|NE].
      + destruct (write_samples_ok t c a r P PT Br LT) as (res & _ & W).
        rewrite <- ET, W. discriminate.
      + unfold write_samples. fold (some_ok (sm_identifier t)). rewrite P.
        cbn [bind]. rewrite <- ET. destruct (N.eqb_spec st (samples_type t));
          [contradiction|discriminate].
    - unfold write_samples. fold (some_ok (sm_identifier t)). rewrite P.
      discriminate.
    - exfalso. refine (sample_type_no_ub _ c _ v P). intros m.
      apply some_ok_no_ub. }
  destruct (sm_tid s) as [t|] eqn:Et.
  - destruct (sm_pid s) as [p|] eqn:Ep.
    + apply GOOD; try reflexivity.
      * unfold pid_with_tid. rewrite Et, Ep. split; discriminate.
      * rewrite (pid_layout s 0); [rewrite Et; exact Lr|].
        unfold pid_with_tid. rewrite Et, Ep. split; discriminate.
    + unfold write_samples. fold (some_ok (sm_identifier s)).
      destruct (pev_sample_type (some_ok (sm_identifier s)) c) as [st|er|v] eqn:P;
        [|discriminate|].
      * cbn [bind]. destruct (negb _); [discriminate|].
        rewrite samples_type_eq, Et. cbn [some].
        destruct (type_bits' true (some (sm_time s)) (some (sm_id s))
          (some (sm_stream_id s)) (some (sm_cpu s)) (some (sm_identifier s)))
          as (B1 & _).
        rewrite B1, Ep. discriminate.
      * exfalso. refine (sample_type_no_ub _ c _ v P). intros m.
        apply some_ok_no_ub.
  - rewrite write_drop_pid by exact Et.
    assert (PT : pid_with_tid (drop_pid s)).
    { unfold pid_with_tid. cbn [drop_pid sm_pid sm_tid]. rewrite Et. tauto. }
    apply GOOD; try reflexivity; [exact PT|].
    rewrite (pid_layout _ 0 PT). cbn [drop_pid sm_tid sm_time sm_tsc sm_id
      sm_stream_id sm_cpu sm_identifier]. rewrite Et. exact Lr.
Qed.
