(** Lemmas about the ELF loader. *)

From Verif Require Import Base M_section M_elf S_elf.
From Coq Require Import List NArith Bool PeanoNat Lia.
Import ListNotations.
Open Scope N_scope.

Lemma holds_fun f w : forall pos v v', holds f pos w v -> holds f pos w v' -> v = v'.
Proof.
  induction w as [|w IH]; cbn [holds]; intros pos v v' H H'; [congruence|].
  destruct H as (b & x & B & -> & H), H' as (b' & x' & B' & -> & H').
  rewrite B in B'. injection B' as <-. rewrite (IH _ _ _ H H'). reflexivity.
Qed.
Lemma holds_bound f w : bytes_ok f -> forall pos v, holds f pos w v -> v < 256 ^ N.of_nat w.
Proof.
  intros Hf. induction w as [|w IH]; cbn [holds]; intros pos v H.
  - subst v. cbn. lia.
  - destruct H as (b & x & B & -> & H). apply IH in H. apply nth_error_In in B.
    unfold bytes_ok in Hf. rewrite Forall_forall in Hf. specialize (Hf _ B). unfold byte_ok in Hf.
    rewrite Nat2N.inj_succ, N.pow_succ_r'. lia.
Qed.
Lemma holds_at f w : forall pos, (N.to_nat pos + w <= length f)%nat ->
  holds f pos w (le (firstn w (skipn (N.to_nat pos) f))).
Proof.
  induction w as [|w IH]; intros pos H; [reflexivity|]. cbn [holds].
  assert (X : exists b, nth_error f (N.to_nat pos) = Some b).
  { destruct (nth_error f (N.to_nat pos)) eqn:E; [eauto|]. apply nth_error_None in E. lia. }
  destruct X as (b & B). exists b, (le (firstn w (skipn (N.to_nat (pos + 1)) f))).
  split; [exact B|]. split; [|apply IH; lia].
  replace (N.to_nat (pos + 1)) with (S (N.to_nat pos)) by lia. clear - B.
  revert f B. induction (N.to_nat pos) as [|n IH]; intros [|x f] B; try discriminate B.
  - injection B as ->. reflexivity.
  - exact (IH f B).
Qed.

Lemma skipn_firstn_comm' (f : list N) a b : skipn a (firstn b f) = firstn (b - a) (skipn a f).
Proof. apply skipn_firstn_comm. Qed.
Lemma skipn_skipn' (f : list N) a b : skipn a (skipn b f) = skipn (b + a) f.
Proof. revert f. induction b as [|b IH]; intros [|x f]; cbn; try apply IH; try reflexivity. destruct a; reflexivity. Qed.

Lemma holds_member f pos n l off w : fread f pos n = Some l -> (N.of_nat off + N.of_nat w <= n) ->
  holds f (pos + N.of_nat off) w (member l off w).
Proof.
  unfold fread, fsize. intros R H. destruct (N.leb_spec (pos + n) (N.of_nat (length f))) as [L|]; [|discriminate R].
  injection R as <-. unfold member. rewrite skipn_firstn_comm, firstn_firstn, skipn_skipn'.
  rewrite Nat.min_l by lia. replace (N.to_nat pos + off)%nat with (N.to_nat (pos + N.of_nat off)) by lia.
  apply holds_at. lia.
Qed.

(** Reading program headers. *)
Definition reads (c : class) : list N -> phdr := match c with C32 => phdr32 | C64 => phdr64 end.
Definition seg (p : phdr) : segment := mk_segment (p_type p) (p_offset p) (p_vaddr p) (p_filesz p).

Lemma read_segment c f pos l : fread f pos (segment_size c) = Some l ->
  segment_at c f pos (seg (reads c l)).
Proof.
  intros R. destruct c; cbn [segment_at seg reads phdr32 phdr64 p_type p_offset p_vaddr p_filesz sg_type sg_offset sg_vaddr sg_filesz segment_size] in *;
    (split; [rewrite <- (N.add_0_r pos); apply (holds_member f pos _ l 0 4 R); cbn; lia|]).
  - split; [apply (holds_member f pos _ l 4 4 R); cbn; lia|]. split; [apply (holds_member f pos _ l 8 4 R); cbn; lia|].
    apply (holds_member f pos _ l 16 4 R); cbn; lia.
  - split; [apply (holds_member f pos _ l 8 8 R); cbn; lia|]. split; [apply (holds_member f pos _ l 16 8 R); cbn; lia|].
    apply (holds_member f pos _ l 32 8 R); cbn; lia.
Qed.
Lemma segment_fun c f pos s s' : segment_at c f pos s -> segment_at c f pos s' -> s = s'.
Proof.
  destruct s as [s1 s2 s3 s4], s' as [t1 t2 t3 t4], c; cbn [segment_at sg_type sg_offset sg_vaddr sg_filesz]; intros (A & B & C & D) (A' & B' & C' & D');
    f_equal; eapply holds_fun; eassumption.
Qed.
Lemma segment_bound c f pos s : bytes_ok f -> segment_at c f pos s -> sg_vaddr s < 2 ^ 64.
Proof.
  intros Hf. destruct c; cbn [segment_at]; intros (_ & _ & H & _); apply (holds_bound _ _ Hf) in H; cbn in *; lia.
Qed.

(** Either all program headers can be read, or not. *)
Lemma read_all c f : forall n pos, (exists l, length l = n /\ segments_at c f pos l) \/
  (exists k l, (k < n)%nat /\ length l = k /\ segments_at c f pos l /\ fread f (pos + N.of_nat k * segment_size c) (segment_size c) = None).
Proof.
  induction n as [|n IH]; intros pos; [left; exists []; split; [reflexivity|exact I]|].
  destruct (fread f pos (segment_size c)) as [l|] eqn:R.
  - assert (Hs := read_segment c f pos l R).
    assert (Hl : pos + segment_size c <= fsize f).
    { unfold fread in R. destruct (N.leb_spec (pos + segment_size c) (fsize f)); [assumption|discriminate R]. }
    destruct (IH (pos + segment_size c)) as [(m & M1 & M2)|(k & m & K & M1 & M2 & M3)].
    + left. exists (seg (reads c l) :: m). split; [cbn; congruence|]. cbn [segments_at]. auto.
    + right. exists (S k), (seg (reads c l) :: m). split; [lia|]. split; [cbn; congruence|]. split; [cbn [segments_at]; auto|].
      rewrite <- M3. f_equal. destruct c; cbn [segment_size]; lia.
  - right. exists O, []. split; [lia|]. split; [reflexivity|]. split; [exact I|]. rewrite <- R. f_equal. lia.
Qed.
Lemma segments_fun c f : forall l pos l', length l = length l' -> segments_at c f pos l -> segments_at c f pos l' -> l = l'.
Proof.
  induction l as [|s l IH]; intros pos [|s' l'] L H H'; cbn in L; try lia; [reflexivity|].
  destruct H as (_ & H1 & H2), H' as (_ & H1' & H2'). rewrite (segment_fun _ _ _ _ _ H1 H1').
  rewrite (IH _ l' ltac:(lia) H2 H2'). reflexivity.
Qed.
Lemma read_there c f pos s : pos + segment_size c <= fsize f -> segment_at c f pos s ->
  exists l, fread f pos (segment_size c) = Some l /\ seg (reads c l) = s.
Proof.
  intros H Hs. destruct (fread f pos (segment_size c)) as [l|] eqn:R.
  - exists l. split; [reflexivity|]. eapply segment_fun; [apply read_segment; exact R|exact Hs].
  - unfold fread in R. destruct (N.leb_spec (pos + segment_size c) (fsize f)); [discriminate R|lia].
Qed.

(** The first loop. *)
Definition partb (s : segment) : bool := sg_type s =? 1.
Definition lower (m : N) (s : segment) : N := if partb s then N.min (sg_vaddr s) m else m.
Lemma min_all c f : forall l pos m, segments_at c f pos l ->
  min_loop f (segment_size c) (reads c) (length l) pos m = Ok (fold_left lower l m).
Proof.
  induction l as [|s l IH]; intros pos m H; [reflexivity|]. destruct H as (H0 & H1 & H2).
  destruct (read_there _ _ _ _ H0 H1) as (b & R & <-). cbn [length min_loop fold_left]. rewrite R.
  rewrite (IH _ _ H2). unfold lower at 3, partb, seg. cbn [sg_type sg_vaddr]. unfold PT_LOAD.
  destruct (p_type (reads c b) =? 1); cbn [negb]; [|reflexivity].
  do 2 f_equal. destruct (N.ltb_spec (p_vaddr (reads c b)) m); lia.
Qed.
Lemma min_short c f : forall l n pos m, segments_at c f pos l -> (length l < n)%nat ->
  fread f (pos + N.of_nat (length l) * segment_size c) (segment_size c) = None ->
  min_loop f (segment_size c) (reads c) n pos m = Err pte_bad_config.
Proof.
  induction l as [|s l IH]; intros [|n] pos m H Hn R; cbn [length] in *; try lia.
  - cbn [min_loop]. rewrite N.mul_0_l, N.add_0_r in R. rewrite R. reflexivity.
  - destruct H as (H0 & H1 & H2). destruct (read_there _ _ _ _ H0 H1) as (b & R' & <-). cbn [min_loop]. rewrite R'.
    apply IH; [exact H2|lia|]. rewrite <- R. f_equal. destruct c; cbn [segment_size]; lia.
Qed.
Lemma lower_low : forall l m, (forall s, In s l -> part s -> fold_left lower l m <= sg_vaddr s) /\ fold_left lower l m <= m /\
  (fold_left lower l m = m \/ exists s, In s l /\ part s /\ sg_vaddr s = fold_left lower l m).
Proof.
  induction l as [|s l IH]; intros m; cbn [fold_left].
  - split; [intros s []|]. split; [lia|left; reflexivity].
  - destruct (IH (lower m s)) as (A & B & C).
    assert (D : lower m s <= m /\ (part s -> lower m s <= sg_vaddr s) /\ (lower m s = m \/ part s /\ sg_vaddr s = lower m s)).
    { unfold lower, partb, part. destruct (N.eqb_spec (sg_type s) 1); [|split; [lia|split; [congruence|left; reflexivity]]].
      split; [lia|]. split; [lia|]. destruct (N.le_gt_cases (sg_vaddr s) m); [right; split; [assumption|lia]|left; lia]. }
    destruct D as (D1 & D2 & D3). split; [|split; [lia|]].
    + intros x [<-|Hx] P; [specialize (D2 P); lia|exact (A x Hx P)].
    + destruct C as [C|(x & X1 & X2 & X3)]; [|right; exists x; split; [right; exact X1|auto]].
      rewrite C. destruct D3 as [D3|(D3 & D4)]; [left; exact D3|right; exists s]. split; [left; reflexivity|auto].
Qed.
Lemma lowest_min l : (forall s, In s l -> sg_vaddr s < 2 ^ 64) -> (exists s, In s l /\ part s) ->
  lowest l (fold_left lower l UINT64_MAX).
Proof.
  intros Hv (s & Hs & P). destruct (lower_low l UINT64_MAX) as (A & B & C). split; [|exact A].
  destruct C as [C|C]; [|exact C]. exists s. split; [exact Hs|]. split; [exact P|].
  specialize (A s Hs P). specialize (Hv s Hs). unfold UINT64_MAX in *. change (2 ^ 64) with 18446744073709551616 in *. lia.
Qed.

Section LOOP.
  Context {E : Type} (load : E -> N -> N -> N -> E * res unit).
  Notation calls := (calls load).

  (** None of the calls is undefined. *)
  Fixpoint along (e : E) (cs : list (N * N * N)) : Prop :=
    match cs with
    | [] => True
    | (o, s, a) :: cs => (forall u, snd (load e o s a) <> UB u) /\ along (fst (load e o s a)) cs
    end.
  Lemma along_app : forall cs cs' e, along e (cs ++ cs') <-> along e cs /\ along (calls e cs) cs'.
  Proof.
    induction cs as [|[[o s] a] cs IH]; intros cs' e; cbn [app along]; [unfold S_elf.calls; cbn; tauto|].
    rewrite IH. unfold S_elf.calls. cbn [fold_left]. tauto.
  Qed.
  Lemma along_fine : (forall e o s a u, snd (load e o s a) <> UB u) -> forall cs e, along e cs.
  Proof. intros F. induction cs as [|[[o s] a] cs IH]; intros e; cbn [along]; auto. Qed.

  Definition loadedb (s : segment) : bool := partb s && negb (sg_filesz s =? 0).
  Definition call (offset : N) (s : segment) : N * N * N := (sg_offset s, sg_filesz s, add64 (sg_vaddr s) offset).
  Definition plan (offset : N) (l : list segment) : list (N * N * N) := map (call offset) (filter loadedb l).

  Lemma load_step c f offset n pos e l : fread f pos (segment_size c) = Some l ->
    along e (plan offset [seg (reads c l)]) ->
    load_loop load f (segment_size c) (reads c) offset (S n) pos e =
    load_loop load f (segment_size c) (reads c) offset n (pos + segment_size c) (calls e (plan offset [seg (reads c l)])).
  Proof.
    intros R F. cbn [load_loop]. rewrite R. revert F. unfold plan. cbn [filter]. unfold loadedb, partb, seg.
    cbn [sg_type sg_filesz]. unfold PT_LOAD.
    destruct (p_type (reads c l) =? 1); cbn [negb andb map]; [|reflexivity].
    destruct (p_filesz (reads c l) =? 0); cbn [negb map]; [reflexivity|].
    unfold S_elf.calls, call. cbn [fold_left along sg_offset sg_filesz sg_vaddr]. intros (F & _).
    destruct (load e _ _ _) as [e' [ | | u]]; cbn [fst snd] in *; try reflexivity. exfalso. apply (F u). reflexivity.
  Qed.
  Lemma plan_cons offset s l : plan offset (s :: l) = plan offset [s] ++ plan offset l.
  Proof. unfold plan. cbn [filter]. destruct (loadedb s); reflexivity. Qed.
  Lemma calls_app e a b : calls e (a ++ b) = calls (calls e a) b.
  Proof. apply fold_left_app. Qed.

  Lemma load_all c f offset : forall l pos e, segments_at c f pos l -> along e (plan offset l) ->
    load_loop load f (segment_size c) (reads c) offset (length l) pos e = (calls e (plan offset l), Ok tt).
  Proof.
    induction l as [|s l IH]; intros pos e H F; [reflexivity|]. destruct H as (H0 & H1 & H2).
    destruct (read_there _ _ _ _ H0 H1) as (b & R & <-). cbn [length].
    rewrite (plan_cons _ _ l), along_app in F. destruct F as (F1 & F2).
    rewrite (load_step _ _ _ _ _ _ _ R F1), (IH _ _ H2 F2).
    rewrite (plan_cons _ _ l), calls_app. reflexivity.
  Qed.
  Lemma load_short c f offset : forall l n pos e, segments_at c f pos l -> (length l < n)%nat ->
    fread f (pos + N.of_nat (length l) * segment_size c) (segment_size c) = None -> along e (plan offset l) ->
    load_loop load f (segment_size c) (reads c) offset n pos e = (calls e (plan offset l), Err pte_bad_config).
  Proof.
    induction l as [|s l IH]; intros [|n] pos e H Hn R F; cbn [length] in *; try lia.
    - cbn [load_loop]. rewrite N.mul_0_l, N.add_0_r in R. rewrite R. reflexivity.
    - destruct H as (H0 & H1 & H2). destruct (read_there _ _ _ _ H0 H1) as (b & R' & <-).
      rewrite (plan_cons _ _ l), along_app in F. destruct F as (F1 & F2).
      rewrite (load_step _ _ _ _ _ _ _ R' F1), (plan_cons _ _ l), calls_app.
      apply IH; [exact H2|lia| |exact F2]. rewrite <- R. f_equal. destruct c; cbn [segment_size]; lia.
  Qed.

  Lemma plan_loads base all offset : forall l,
    (forall s, In s l -> loaded s -> placed base all s (add64 (sg_vaddr s) offset)) -> loads base all l (plan offset l).
  Proof.
    induction l as [|s l IH]; intros H; [constructor|]. unfold plan in *. cbn [filter].
    destruct (loadedb s) eqn:B; unfold loadedb, partb in B.
    - apply andb_true_iff in B. destruct B as (B1 & B2). apply N.eqb_eq in B1. apply negb_true_iff, N.eqb_neq in B2.
      cbn [map]. unfold call at 1. apply loads_take; [split; assumption| |].
      + apply H; [left; reflexivity|split; assumption].
      + apply IH. intros x Hx. apply H. right. exact Hx.
    - apply loads_skip; [|apply IH; intros x Hx; apply H; right; exact Hx]. intros (P1 & P2). unfold part in P1.
      rewrite P1 in B. cbn in B. apply negb_false_iff, N.eqb_eq in B. contradiction.
  Qed.

  Lemma at_in c f : forall l pos s, segments_at c f pos l -> In s l -> exists p, segment_at c f p s.
  Proof.
    induction l as [|x l IH]; intros pos s H Hs; [destruct Hs|]. destruct H as (_ & H1 & H2).
    destruct Hs as [<-|Hs]; [eauto|exact (IH _ _ H2 Hs)].
  Qed.

  (** Both loops. *)
  Lemma phdrs_all c f base phoff l : bytes_ok f -> base < 2 ^ 64 -> segments_at c f phoff l ->
    exists cs, loads base l l cs /\ forall e, along e cs ->
      load_phdrs load f base (segment_size c) (reads c) phoff (N.of_nat (length l)) e = (calls e cs, Ok tt).
  Proof.
    intros Hf Hb H. assert (V : forall s, In s l -> sg_vaddr s < 2 ^ 64).
    { intros s Hs. destruct (at_in _ _ _ _ _ H Hs) as (p & Hp). exact (segment_bound _ _ _ _ Hf Hp). }
    unfold load_phdrs. rewrite Nat2N.id. destruct (N.eqb_spec base 0) as [->|Nb].
    - exists (plan 0 l). split; [|intros e; apply (load_all _ _ _ _ _ _ H)]. apply plan_loads. intros s Hs _.
      split; [intros _|congruence]. unfold add64. rewrite N.add_0_r. apply N.mod_small, V, Hs.
    - rewrite (min_all _ _ _ _ _ H). cbn [Base.bind].
      exists (plan (sub64 base (fold_left lower l UINT64_MAX)) l). split; [|intros e; apply (load_all _ _ _ _ _ _ H)].
      apply plan_loads. intros s Hs (P & _). split; [congruence|intros _].
      assert (L : lowest l (fold_left lower l UINT64_MAX)) by (apply lowest_min; [exact V|eauto]).
      exists (fold_left lower l UINT64_MAX). split; [exact L|]. destruct L as (_ & L). specialize (L s Hs P).
      pose proof (V s Hs) as Vs. set (m := fold_left lower l UINT64_MAX) in *. clearbody m. clear - Hb L Vs.
      unfold add64, sub64. change (2 ^ 64) with 18446744073709551616 in *.
      rewrite N.add_mod_idemp_r by lia. rewrite (N.mod_small m) by lia.
      rewrite <- (N.mod_add (base + (sg_vaddr s - m)) 1) by lia. f_equal. lia.
  Qed.
  Lemma phdrs_short c f base phoff n l e : (forall e o s a u, snd (load e o s a) <> UB u) -> segments_at c f phoff l -> (length l < n)%nat ->
    fread f (phoff + N.of_nat (length l) * segment_size c) (segment_size c) = None ->
    exists e', load_phdrs load f base (segment_size c) (reads c) phoff (N.of_nat n) e = (e', Err pte_bad_config) /\
      (base <> 0 -> e' = e).
  Proof.
    intros F H Hn R. unfold load_phdrs. rewrite Nat2N.id. destruct (N.eqb_spec base 0) as [->|Nb].
    - rewrite (load_short _ _ _ _ _ _ _ H Hn R (along_fine F _ _)). eexists. split; [reflexivity|congruence].
    - rewrite (min_short _ _ _ _ _ _ H Hn R). cbn [Base.bind]. exists e. split; reflexivity.
  Qed.
End LOOP.
