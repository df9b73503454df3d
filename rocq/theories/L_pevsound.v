(** What a successful read of a perf event record implies. *)
From Coq Require Import List NArith ZArith Arith Bool Lia.
From Coq Require Import ZifyBool ZifyNat ZifyN.
From Verif Require Import Base M_pevent S_pevent L_pevent L_pevread.
Import ListNotations.
Open Scope N_scope.
Ltac Zify.zify_post_hook ::= Z.div_mod_to_equations.

(** ** Only the packet is read *)

Lemma rd_app b r i : (i < length b)%nat -> rd (b ++ r) i = rd b i.
Proof. intros L. unfold rd. now rewrite nth_error_app1. Qed.

Lemma ld_app b r n p : (p + n <= length b)%nat -> ld (b ++ r) n p = ld b n p.
Proof.
  intros L. unfold ld. rewrite app_length.
  destruct (Nat.leb_spec (p + n) (length b + length r)); [|lia].
  destruct (Nat.leb_spec (p + n) (length b)); [|lia].
  rewrite skipn_app, firstn_app, skipn_length.
  replace (n - (length b - p))%nat with 0%nat by lia.
  cbn [firstn]. now rewrite app_nil_r.
Qed.

Lemma scan0_app b r n : forall p, (p + n <= length b)%nat ->
  scan0 (b ++ r) n p = scan0 b n p.
Proof.
  induction n as [|n IH]; intros p L; [reflexivity|]. cbn [scan0].
  rewrite rd_app by lia. destruct (rd b p); [|reflexivity..]. cbn [bind].
  now rewrite IH by lia.
Qed.

Lemma strlen_app b r p : pev_strlen (b ++ r) p (length b) =
  pev_strlen b p (length b).
Proof.
  unfold pev_strlen. destruct (Nat.ltb_spec (length b) p); [reflexivity|].
  now rewrite scan0_app by lia.
Qed.

Lemma read_record_app ty b r p : read_record ty (b ++ r) p (length b) =
  read_record ty b p (length b).
Proof. unfold read_record, read_string. now rewrite !strlen_app. Qed.

Lemma read_samples_app b r p c : pev_read_samples (b ++ r) p (length b) c =
  pev_read_samples b p (length b) c.
Proof.
  unfold pev_read_samples.
  destruct (Nat.leb_spec (p + 8) (length b)) as [L|L].
  - rewrite ld_app by lia.
    destruct (pev_sample_type _ c) as [st|e|u]; [|reflexivity..]. cbn [bind].
    destruct (truth (N.land st PERF_SAMPLE_TID)).
    + destruct (truth (N.land st PERF_SAMPLE_TIME)); [|reflexivity].
      destruct (Nat.ltb_spec (length b) (p + 8 + 8)); [reflexivity|].
      now rewrite ld_app by lia.
    + destruct (truth (N.land st PERF_SAMPLE_TIME)); [|reflexivity].
      destruct (Nat.ltb_spec (length b) (p + 8)); [reflexivity|].
      now rewrite ld_app by lia.
  - destruct (pev_sample_type _ c) as [st|e|u]; [|reflexivity..]. cbn [bind].
    destruct (truth (N.land st PERF_SAMPLE_TID)).
    + destruct (truth (N.land st PERF_SAMPLE_TIME)); [|reflexivity].
      destruct (Nat.ltb_spec (length b) (p + 8 + 8)); [reflexivity|lia].
    + destruct (truth (N.land st PERF_SAMPLE_TIME)); [|reflexivity].
      destruct (Nat.ltb_spec (length b) (p + 8)); [reflexivity|lia].
Qed.

Lemma pev_read_app b r c : ld b 2 6 = Ok (N.of_nat (length b)) ->
  pev_read (b ++ r) c = pev_read b c.
Proof.
  intros H. assert (L : (8 <= length b)%nat).
  { unfold ld in H. destruct (Nat.leb_spec (6 + 2) (length b)); [lia|discriminate]. }
  unfold pev_read.
  rewrite !ld_app by lia. rewrite H, app_length.
  destruct (Nat.ltb_spec (length b + length r) 8); [lia|].
  destruct (Nat.ltb_spec (length b) 8); [lia|].
  destruct (ld b 4 0) as [ty|e|u]; [|reflexivity..]. cbn [bind].
  destruct (ld b 2 4) as [m|e|u]; [|reflexivity..]. cbn [bind].
  destruct (N.ltb_spec (N.of_nat (length b)) 8); [lia|].
  rewrite Nat2N.id.
  destruct (Nat.ltb_spec (length b + length r) (length b)); [lia|].
  destruct (Nat.ltb_spec (length b) (length b)); [lia|].
  rewrite read_record_app.
  destruct (ty =? 0); [reflexivity|]. cbn [orb].
  destruct (read_record ty b 8 (length b)) as [[p|]|e|u]; [|reflexivity..].
  cbn [bind]. now rewrite read_samples_app.
Qed.

(** ** Pieces of a buffer *)

Definition piece (b : list N) (p : nat) (x : list N) : Prop :=
  exists a z, b = a ++ x ++ z /\ length a = p.

Lemma app_len_inj {A} (a : list A) : forall a' x x', length a = length a' ->
  a ++ x = a' ++ x' -> a = a'.
Proof.
  induction a as [|h a IH]; intros [|h' a'] x x' L E; try discriminate L;
    [reflexivity|].
  cbn in *. injection E as -> E. injection L as L. f_equal. now apply (IH a' x x').
Qed.

Lemma piece_app b p x y : piece b p x -> piece b (p + length x) y ->
  piece b p (x ++ y).
Proof.
  intros (a & z & E & L) (a' & z' & E' & L'). exists a, z'. split; [|exact L].
  assert (F : a' = a ++ x).
  { rewrite E in E'. rewrite app_assoc in E'.
    symmetry. eapply app_len_inj; [|exact E'].
    rewrite app_length. lia. }
  rewrite E', F, <- !app_assoc. reflexivity.
Qed.

Lemma piece_nil b p : (p <= length b)%nat -> piece b p [].
Proof.
  intros L. exists (firstn p b), (skipn p b). cbn [app].
  rewrite firstn_skipn, firstn_length. split; [reflexivity|lia].
Qed.

Lemma ld_piece b n p : bytes_ok b -> (p + n <= length b)%nat ->
  exists v, ld b n p = Ok v /\ piece b p (nbytes n v) /\ fit (n, v).
Proof.
  intros Bb L. unfold ld. destruct (Nat.leb_spec (p + n) (length b)); [|lia].
  set (x := firstn n (skipn p b)).
  assert (E : b = firstn p b ++ x ++ skipn n (skipn p b))
    by (unfold x; rewrite (firstn_skipn n), firstn_skipn; reflexivity).
  assert (Bx : bytes_ok x).
  { rewrite E in Bb. apply Forall_app in Bb. destruct Bb as [_ Bb].
    apply Forall_app in Bb. apply Bb. }
  assert (Lx : length x = n)
    by (unfold x; rewrite firstn_length, skipn_length; lia).
  exists (bvalue x). split; [reflexivity|]. split.
  - rewrite <- Lx at 1. rewrite nbytes_bvalue by exact Bx.
    exists (firstn p b), (skipn n (skipn p b)). split; [exact E|].
    rewrite firstn_length. lia.
  - unfold fit. cbn [fst snd]. rewrite <- Lx at 1. now apply bvalue_bound.
Qed.

Lemma rd_piece b p : bytes_ok b -> (p < length b)%nat ->
  exists v, rd b p = Ok v /\ piece b p [v] /\ v < 256.
Proof.
  intros Bb L. unfold rd.
  destruct (nth_error b p) as [v|] eqn:E.
  - exists v. split; [reflexivity|]. split.
    + apply nth_error_split in E. destruct E as (l1 & l2 & -> & <-).
      exists l1, l2. split; reflexivity.
    + apply nth_error_In in E. unfold bytes_ok in Bb.
      rewrite Forall_forall in Bb. now apply Bb.
  - apply nth_error_None in E. lia.
Qed.

Lemma scan0_piece b n : bytes_ok b -> forall p r, (p + n <= length b)%nat ->
  scan0 b n p = Ok r ->
  match r with
  | Some k => exists s, k = S (length s) /\ (k <= n)%nat /\
      Forall (fun x => 0 < x < 256) s /\ piece b p (s ++ [0]) /\
      forall m, (length s <= m)%nat -> cstr m b p = Ok s
  | None => True
  end.
Proof.
  intros Bb. induction n as [|n IH]; intros p r L H; cbn [scan0] in H.
  { now injection H as <-. }
  destruct (rd_piece b p Bb ltac:(lia)) as (v & E & P & V).
  rewrite E in H. cbn [bind] in H.
  destruct (N.eqb_spec v 0) as [Ev|NZ]; [subst v|].
  - injection H as <-. exists []. split; [reflexivity|]. split; [lia|].
    split; [constructor|]. split; [exact P|]. intros m _.
    destruct m; cbn [cstr]; rewrite E; reflexivity.
  - destruct (scan0 b n (S p)) as [o|e|u] eqn:S0; try discriminate H.
    cbn [bind] in H. specialize (IH (S p) o ltac:(lia) S0).
    destruct o as [k|]; [|now injection H as <-]. injection H as <-.
    destruct IH as (s & -> & K & F & P' & C).
    exists (v :: s). split; [reflexivity|]. split; [lia|].
    split; [constructor; [lia|exact F]|]. split.
    + change ((v :: s) ++ [0]) with ([v] ++ (s ++ [0])).
      apply piece_app; [exact P|]. cbn [length].
      now replace (p + 1)%nat with (S p) by lia.
    + intros m Lm. cbn [length] in Lm. destruct m as [|m]; [lia|].
      cbn [cstr]. rewrite E. cbn [bind].
      destruct (N.eqb_spec v 0); [contradiction|].
      rewrite C by lia. reflexivity.
Qed.

Lemma scan0_no_ub b n : forall p, (p + n <= length b)%nat ->
  no_ub (scan0 b n p).
Proof.
  induction n as [|n IH]; intros p L u; cbn [scan0]; [discriminate|].
  unfold rd. destruct (nth_error b p) as [v|] eqn:E.
  - cbn [bind]. destruct (v =? 0); [discriminate|].
    pose proof (IH (S p) ltac:(lia)) as Q.
    destruct (scan0 b n (S p)) as [[k|]|e|w]; cbn [bind]; try discriminate.
    exfalso. now apply (Q w).
  - apply nth_error_None in E. lia.
Qed.

(** ** Records *)

Lemma round8_pad n : round8 (n + 1) = (n + 1 + (7 - n mod 8))%nat.
Proof.
  rewrite round8_spec.
  pose proof (Nat.div_mod n 8 ltac:(lia)) as D.
  pose proof (Nat.mod_upper_bound n 8 ltac:(lia)) as B.
  replace (n + 1 + 7)%nat with ((n / 8 + 1) * 8 + n mod 8)%nat by lia.
  rewrite Nat.div_add_l by lia. rewrite (Nat.div_small (n mod 8)) by lia.
  lia.
Qed.

Lemma bytes_piece b p n : (p + n <= length b)%nat ->
  exists x, length x = n /\ piece b p x.
Proof.
  intros L. exists (firstn n (skipn p b)). split.
  - rewrite firstn_length, skipn_length. lia.
  - exists (firstn p b), (skipn n (skipn p b)).
    rewrite (firstn_skipn n), firstn_skipn, firstn_length. split; [reflexivity|lia].
Qed.

Lemma string_sound b w pos : bytes_ok b ->
  read_string b 8 w (length b) = Ok (Some pos) -> (pos <= length b)%nat ->
  exists s pad, cstr (length b) b (8 + w) = Ok s /\
    Forall (fun x => 0 < x < 256) s /\
    piece b (8 + w) (text_pad (Some s) pad) /\
    length pad = pad_size (Some s) /\
    pos = (8 + w + length (text_pad (Some s) pad))%nat.
Proof.
  intros Bb H L. unfold read_string, pev_strlen in H.
  destruct (Nat.ltb_spec (length b) (8 + w)) as [|Lw]; [discriminate|].
  destruct (scan0 b (length b - (8 + w)) (8 + w)) as [[k|]|e|u] eqn:S0;
    try discriminate H.
  cbn [bind] in H. injection H as H.
  pose proof (scan0_piece b (length b - (8 + w)) Bb (8 + w)%nat (Some k)
    ltac:(lia) S0) as (s & -> & K & F & P & C).
  replace (S (length s)) with (length s + 1)%nat in H by lia.
  rewrite round8_pad in H.
  destruct (bytes_piece b (8 + w + (length s + 1)) (7 - length s mod 8))
    as (pad & Lp & Pp); [lia|].
  exists s, pad. split; [apply C; lia|]. split; [exact F|].
  cbn [text_pad pad_size].
  split; [|split; [exact Lp|]].
  - rewrite app_assoc. apply piece_app; [exact P|]. rewrite app_length.
    exact Pp.
  - rewrite !app_length, Lp. cbn [length]. lia.
Qed.

Lemma fields_piece b l : forall p, (p + width l <= length b)%nat ->
  (forall i n v, nth_error l i = Some (n, v) ->
     piece b (p + width (firstn i l)) (nbytes n v)) ->
  piece b p (fields l).
Proof.
  induction l as [|[n v] l IH]; intros p L H.
  - apply piece_nil. cbn in L. lia.
  - rewrite fields_cons. apply piece_app.
    + specialize (H 0%nat n v eq_refl). cbn in H. now rewrite Nat.add_0_r in H.
    + rewrite nbytes_length. cbn [width fst] in L. apply IH; [lia|].
      intros i m w E. specialize (H (S i) m w E).
      cbn [firstn width fst] in H. now rewrite Nat.add_assoc in H.
Qed.

Ltac redty :=
  unfold view_record;
  cbv beta iota zeta delta [N.eqb Pos.eqb orb PERF_RECORD_MMAP
      PERF_RECORD_LOST PERF_RECORD_COMM PERF_RECORD_EXIT PERF_RECORD_THROTTLE
      PERF_RECORD_UNTHROTTLE PERF_RECORD_FORK PERF_RECORD_MMAP2
      PERF_RECORD_AUX PERF_RECORD_ITRACE_START PERF_RECORD_LOST_SAMPLES
      PERF_RECORD_SWITCH PERF_RECORD_SWITCH_CPU_WIDE].

Ltac ldall Bb :=
  repeat match goal with
  | |- context [ld ?b ?n (8 + ?o)] =>
      let v := fresh "v" in let E := fresh "E" in
      destruct (ld_piece b n (8 + o) Bb) as (v & E & ? & ?);
      [lia|rewrite E; cbn [bind]; clear E]
  end.

Ltac close_fields :=
  repeat match goal with
  | |- piece _ _ (fields ((_, _) :: _)) =>
      rewrite fields_cons; apply piece_app;
      [assumption|rewrite nbytes_length]
  | |- piece _ _ (fields []) => apply piece_nil; lia
  end.

Lemma rec_fixed b pos r : pos = (8 + width (layout r))%nat ->
  text r = None -> piece b 8 (fields (layout r)) ->
  exists pad,
    text_ok r /\
    piece b 8 (fields (layout r) ++ text_pad (text r) pad) /\
    length pad = pad_size (text r) /\
    pos = (8 + length (fields (layout r) ++ text_pad (text r) pad))%nat.
Proof.
  intros E T P. exists []. unfold text_ok. rewrite T. cbn [text_pad pad_size].
  rewrite app_nil_r, fields_length. auto.
Qed.

Lemma rec_string b pos r s pad : text r = Some s ->
  Forall (fun x => 0 < x < 256) s ->
  piece b 8 (fields (layout r)) ->
  piece b (8 + width (layout r)) (text_pad (Some s) pad) ->
  length pad = pad_size (Some s) ->
  pos = (8 + width (layout r) + length (text_pad (Some s) pad))%nat ->
  exists pad,
    text_ok r /\
    piece b 8 (fields (layout r) ++ text_pad (text r) pad) /\
    length pad = pad_size (text r) /\
    pos = (8 + length (fields (layout r) ++ text_pad (text r) pad))%nat.
Proof.
  intros T F P Q L E. exists pad. unfold text_ok. rewrite T.
  split; [exact F|]. split; [|split; [exact L|]].
  - apply piece_app; [exact P|]. now rewrite fields_length.
  - rewrite app_length, fields_length. lia.
Qed.

Ltac fits := repeat apply Forall_cons; try apply Forall_nil; assumption.

Ltac fixed_case Bb :=
  match goal with H : Ok (Some _) = Ok (Some _) |- _ => injection H as H end;
  redty; ldall Bb; eexists;
  repeat apply conj; [reflexivity|cbn [of_type]; auto|fits|];
  apply rec_fixed; [cbn [layout width fst]; lia|reflexivity|];
  cbn [layout]; close_fields.

Ltac string_case Bb :=
  match goal with H : read_string ?b 8 ?w _ = Ok (Some ?pos) |- _ =>
    let s := fresh "s" in let C := fresh "C" in
    destruct (string_sound b w pos Bb H) as (s & ? & C & ? & ? & ? & ?);
    [assumption|];
    redty; change (8 + w)%nat with (8 + w)%nat; rewrite C; ldall Bb; eexists;
    repeat apply conj; [reflexivity|cbn [of_type]; auto|fits|];
    eapply rec_string; [reflexivity|assumption| | | |];
    [cbn [layout]; close_fields|cbn [layout width fst]; eassumption
    |eassumption|cbn [layout width fst]; lia]
  end.

Lemma rec_sound ty b pos : bytes_ok b ->
  read_record ty b 8 (length b) = Ok (Some pos) -> (pos <= length b)%nat ->
  exists r, view_record ty b 8 = Ok r /\ of_type ty r /\
    Forall fit (layout r) /\
  exists pad, text_ok r /\
    piece b 8 (fields (layout r) ++ text_pad (text r) pad) /\
    length pad = pad_size (text r) /\
    pos = (8 + length (fields (layout r) ++ text_pad (text r) pad))%nat.
Proof.
  intros Bb H L. unfold read_record in H.
  destruct (N.eqb_spec ty PERF_RECORD_MMAP) as [Et|];
    [subst ty; string_case Bb|].
  destruct (N.eqb_spec ty PERF_RECORD_LOST) as [Et|];
    [subst ty; fixed_case Bb|].
  destruct (N.eqb_spec ty PERF_RECORD_COMM) as [Et|];
    [subst ty; string_case Bb|].
  destruct (N.eqb_spec ty PERF_RECORD_EXIT) as [Et|];
    [subst ty; fixed_case Bb|].
  destruct (N.eqb_spec ty PERF_RECORD_THROTTLE) as [Et|];
    cbn [orb] in H; [subst ty; fixed_case Bb|].
  destruct (N.eqb_spec ty PERF_RECORD_UNTHROTTLE) as [Et|];
    cbn [orb] in H; [subst ty; fixed_case Bb|].
  destruct (N.eqb_spec ty PERF_RECORD_FORK) as [Et|];
    [subst ty; fixed_case Bb|].
  destruct (N.eqb_spec ty PERF_RECORD_MMAP2) as [Et|];
    [subst ty; string_case Bb|].
  destruct (N.eqb_spec ty PERF_RECORD_AUX) as [Et|];
    [subst ty; fixed_case Bb|].
  destruct (N.eqb_spec ty PERF_RECORD_ITRACE_START) as [Et|];
    [subst ty; fixed_case Bb|].
  destruct (N.eqb_spec ty PERF_RECORD_LOST_SAMPLES) as [Et|];
    [subst ty; fixed_case Bb|].
  destruct (N.eqb_spec ty PERF_RECORD_SWITCH) as [Et|];
    [subst ty; fixed_case Bb|].
  destruct (N.eqb_spec ty PERF_RECORD_SWITCH_CPU_WIDE) as [Et|];
    [subst ty; fixed_case Bb|].
  discriminate H.
Qed.
