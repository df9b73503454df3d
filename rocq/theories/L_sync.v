(** Proofs about synchronisation. *)

From Verif Require Import Base M_packet M_config M_pktdec M_sync S_packet S_sync
  L_bytes L_packet L_pktsafe.
From Coq Require Import List NArith ZArith Lia Bool Arith.
From Coq Require Import ZifyBool ZifyNat ZifyN.
Import ListNotations.
Open Scope nat_scope.
Ltac Zify.zify_post_hook ::= Z.div_mod_to_equations.

(** * Patterns *)

Lemma nth_error_firstn_lt : forall (A : Type) n (l : list A) k, k < n ->
  nth_error (firstn n l) k = nth_error l k.
Proof.
  intros A. induction n as [| n IH]; intros l k H; [lia |].
  destruct l as [| x l]; [now destruct k |].
  destruct k as [| k]; [reflexivity |]. cbn [firstn nth_error]. apply IH. lia.
Qed.

Lemma nth_error_skipn_add : forall (A : Type) n (l : list A) k,
  nth_error (skipn n l) k = nth_error l (n + k).
Proof.
  intros A. induction n as [| n IH]; intros l k; [reflexivity |].
  destruct l as [| x l]; [now destruct k |]. cbn [skipn plus nth_error]. apply IH.
Qed.

Lemma even_add_even : forall a b, Nat.even a = true -> Nat.even (a + b) = Nat.even b.
Proof.
  intros a b H. rewrite Nat.even_add, H. now destruct (Nat.even b).
Qed.

Lemma even_iff : forall n, Nat.even n = true <-> n mod 2 = 0.
Proof.
  intros n. rewrite Nat.even_spec. split.
  - intros [k ->]. lia.
  - intros H. exists (n / 2). lia.
Qed.

Lemma even_dec : forall n, (Nat.even n = true /\ n mod 2 = 0) \/
                           (Nat.even n = false /\ n mod 2 = 1).
Proof.
  intros n. destruct (Nat.even n) eqn:E; [left | right]; split; auto.
  - now apply even_iff.
  - assert (n mod 2 <> 0) by (intros H; apply even_iff in H; congruence). lia.
Qed.

Ltac evens := repeat match goal with
  | |- context [Nat.even ?n] => let E := fresh in let F := fresh in
      destruct (even_dec n) as [[E F] | [E F]]; rewrite E in *; clear E
  | H : context [Nat.even ?n] |- _ => let E := fresh in let F := fresh in
      destruct (even_dec n) as [[E F] | [E F]]; rewrite E in *; clear E
  end.

Lemma psb_nth : forall k, k < 16 ->
  nth_error psb_bytes k = Some (if Nat.even k then 0x02 else 0x82)%N.
Proof. intros k H. do 16 (destruct k as [| k]; [reflexivity |]). lia. Qed.

Lemma list_ext : forall (A : Type) (l r : list A),
  (forall k, k < length r -> nth_error l k = nth_error r k) ->
  firstn (length r) l = r.
Proof.
  intros A l r. revert l. induction r as [| x r IH]; intros l H; [reflexivity |].
  pose proof (H 0 ltac:(cbn; lia)) as H0. destruct l as [| y l]; [discriminate |].
  injection H0 as ->. cbn [length firstn]. f_equal. apply IH.
  intros k Hk. apply (H (S k)). cbn. lia.
Qed.

Lemma psb_at_pattern : forall buf i, psb_at buf i <-> pattern buf i (i + 16).
Proof.
  intros buf i. unfold psb_at, pattern. split.
  - intros H k Hk. rewrite <- (psb_nth (k - i)) by lia. rewrite <- H.
    rewrite nth_error_firstn_lt by lia. rewrite nth_error_skipn_add.
    f_equal. lia.
  - intros H. apply (list_ext N (skipn i buf) psb_bytes). intros k Hk.
    change (length psb_bytes) with 16 in Hk.
    rewrite nth_error_skipn_add, psb_nth by lia.
    rewrite H by lia. now replace (i + k - i) with k by lia.
Qed.

Lemma pattern_le : forall buf a b, pattern buf a b -> a < b -> b <= length buf.
Proof.
  intros buf a b H Hl. specialize (H (b - 1) ltac:(lia)).
  assert (nth_error buf (b - 1) <> None) by congruence.
  apply nth_error_Some in H0. lia.
Qed.

Lemma pattern_sub : forall buf a b a' b', pattern buf a b -> a <= a' -> b' <= b ->
  (a' - a) mod 2 = 0 -> pattern buf a' b'.
Proof.
  intros buf a b a' b' H Ha Hb He i Hi. rewrite H by lia. f_equal. evens; auto; lia.
Qed.

(** Two overlapping pattern ranges have the same phase ... *)
Lemma pattern_phase : forall buf a b a' b' i, pattern buf a b -> pattern buf a' b' ->
  a <= i < b -> a' <= i < b' -> a mod 2 = a' mod 2.
Proof.
  intros buf a b a' b' i H H' Hi Hi'. specialize (H i Hi). specialize (H' i Hi').
  rewrite H in H'. evens; try discriminate; lia.
Qed.

(** ... and their union is a pattern range. *)
Lemma pattern_join : forall buf a b a' b' i, pattern buf a b -> pattern buf a' b' ->
  a <= i < b -> a' <= i < b' -> a <= a' -> pattern buf a b'.
Proof.
  intros buf a b a' b' i H H' Hi Hi' Hl k Hk.
  pose proof (pattern_phase _ _ _ _ _ i H H' Hi Hi') as P.
  destruct (Nat.lt_ge_cases k b) as [C | C]; [apply H; lia |].
  rewrite H' by lia. f_equal. evens; auto; lia.
Qed.

Lemma pattern_snoc : forall buf a b, pattern buf a b -> a <= b -> (b - a) mod 2 = 0 ->
  nth_error buf b = Some 0x02%N -> nth_error buf (b + 1) = Some 0x82%N ->
  pattern buf a (b + 2).
Proof.
  intros buf a b H Hl He H0 H1 i Hi.
  destruct (Nat.lt_ge_cases i b) as [C | C]; [apply H; lia |].
  assert (i = b \/ i = b + 1) as [-> | ->] by lia.
  - rewrite H0. f_equal. evens; auto; lia.
  - rewrite H1. f_equal. evens; auto; lia.
Qed.

(** * Words *)

Lemma le_exists : forall bs, bytes_ok bs ->
  exists v, (v < 2 ^ (8 * N.of_nat (length bs)))%N /\ le (length bs) v = bs.
Proof.
  induction 1 as [| b bs Hb H IH].
  - exists 0%N. split; [reflexivity | reflexivity].
  - destruct IH as (v & Hv & E). exists (b + 256 * v)%N. unfold byte_ok in Hb. split.
    + cbn [length]. rewrite Nat2N.inj_succ.
      replace (8 * N.succ (N.of_nat (length bs)))%N
        with (8 + 8 * N.of_nat (length bs))%N by lia.
      rewrite N.pow_add_r. change (2 ^ 8)%N with 256%N. nia.
    + cbn [length le]. f_equal.
      * rewrite N.mul_comm, N.mod_add by lia. now apply N.mod_small.
      * rewrite N.mul_comm, N.div_add by lia. rewrite N.div_small by lia.
        now rewrite N.add_0_l.
Qed.

(** The eight bytes at [w] alternate between 02 and 82, starting with either. *)
Definition psb_word (buf : list N) (w : nat) : Prop :=
  pattern buf w (w + 8) \/
  (nth_error buf w = Some 0x82%N /\ pattern buf (w + 1) (w + 8)).

Lemma nth8 : forall (l : list N) w bs, firstn 8 (skipn w l) = bs -> length bs = 8 ->
  forall i, w <= i < w + 8 -> nth_error l i = nth_error bs (i - w).
Proof.
  intros l w bs E Hl i Hi. rewrite <- E.
  rewrite nth_error_firstn_lt by lia. rewrite nth_error_skipn_add. f_equal. lia.
Qed.

Lemma is_psb_word_spec : forall buf w, bytes_ok buf -> w + 8 <= length buf ->
  exists b, is_psb_word buf w = Ok b /\ (b = true <-> psb_word buf w).
Proof.
  intros buf w Hb Hl.
  pose proof (le_exists (firstn 8 (skipn w buf))
                (Forall_firstn _ _ _ _ (Forall_skipn _ _ _ _ Hb))) as (v & Hv & E).
  assert (L : length (firstn 8 (skipn w buf)) = 8).
  { rewrite firstn_length, skipn_length. lia. }
  rewrite L in Hv, E.
  assert (R : pt_pkt_read_value buf w 8 = Ok v).
  { rewrite <- (firstn_skipn w buf) at 1.
    rewrite <- (firstn_skipn 8 (skipn w buf)), <- E.
    pose proof (read_value_le 8 (firstn w buf) v (skipn 8 (skipn w buf))
                  ltac:(lia) Hv) as R.
    rewrite firstn_length in R. now rewrite Nat.min_l in R by lia. }
  unfold is_psb_word. rewrite R. cbn [bind]. eexists. split; [reflexivity |].
  rewrite orb_true_iff, !N.eqb_eq. unfold psb_word. split.
  - intros [-> | ->]; vm_compute in E; symmetry in E;
      pose proof (nth8 _ _ _ E eq_refl) as G.
    + right. split; [rewrite G by lia; now rewrite Nat.sub_diag |].
      intros i Hi. rewrite G by lia.
      assert (exists k, i = w + S k /\ k < 7) as (k & -> & Hk)
        by (exists (i - w - 1); lia).
      replace (w + S k - w) with (S k) by lia.
      replace (w + S k - (w + 1)) with k by lia.
      do 7 (destruct k as [| k]; [reflexivity |]). lia.
    + left. intros i Hi. rewrite G by lia.
      assert (exists k, i = w + k /\ k < 8) as (k & -> & Hk)
        by (exists (i - w); lia).
      replace (w + k - w) with k by lia.
      do 8 (destruct k as [| k]; [reflexivity |]). lia.
  - intros H.
    assert (G : forall bs, length bs = 8 ->
              (forall k, k < 8 -> nth_error buf (w + k) = nth_error bs k) ->
              le 8 v = bs).
    { intros bs Hbs H1. rewrite E. rewrite <- Hbs. apply list_ext. rewrite Hbs.
      intros k Hk. rewrite nth_error_skipn_add. now apply H1. }
    assert (V : forall x y, (x < 2 ^ 64)%N -> (y < 2 ^ 64)%N -> le 8 x = le 8 y ->
                            x = y).
    { intros x y Hx Hy Exy.
      pose proof (read_value_le 8 [] x [] ltac:(lia) Hx) as A.
      pose proof (read_value_le 8 [] y [] ltac:(lia) Hy) as B.
      rewrite Exy in A. congruence. }
    destruct H as [H | [H0 H]]; [right | left].
    + apply V; [exact Hv | reflexivity |].
      apply G; [reflexivity |]. intros k Hk. rewrite H by lia.
      replace (w + k - w) with k by lia.
      do 8 (destruct k as [| k]; [reflexivity |]). lia.
    + apply V; [exact Hv | reflexivity |].
      apply G; [reflexivity |]. intros k Hk.
      destruct k as [| k]; [rewrite Nat.add_0_r; exact H0 |].
      rewrite H by lia. replace (w + S k - (w + 1)) with k by lia.
      do 7 (destruct k as [| k]; [reflexivity |]). lia.
Qed.

(** * The end of a run *)

Lemma psb_run_end_spec : forall fuel buf pos,
  length buf < pos + 2 * fuel + 2 ->
  exists r, psb_run_end fuel buf pos = Ok r /\ pos <= r /\ (pos <= length buf -> r <= length buf) /\
            (r - pos) mod 2 = 0 /\ pattern buf pos r /\ ~ pattern buf r (r + 2).
Proof.
  induction fuel as [| fuel IH]; intros buf pos Hf.
  - cbn [psb_run_end].
    destruct (Nat.leb_spec (length buf) (pos + 1)) as [C | C]; [| lia].
    exists pos. repeat split; try lia.
    + intros i Hi. lia.
    + intros H. apply pattern_le in H; lia.
  - cbn [psb_run_end].
    destruct (Nat.leb_spec (length buf) (pos + 1)) as [C | C].
    + exists pos. repeat split; try lia.
      * intros i Hi. lia.
      * intros H. apply pattern_le in H; lia.
    + unfold rd.
      destruct (nth_error buf pos) as [hi |] eqn:Ehi;
        [| apply nth_error_None in Ehi; lia].
      destruct (nth_error buf (pos + 1)) as [lo |] eqn:Elo;
        [| apply nth_error_None in Elo; lia].
      cbn [bind].
      assert (Z : pattern buf pos (pos + 2) -> hi = 0x02%N /\ lo = 0x82%N).
      { intros H. pose proof (H pos ltac:(lia)) as A.
        pose proof (H (pos + 1) ltac:(lia)) as B.
        rewrite Nat.sub_diag in A. replace (pos + 1 - pos) with 1 in B by lia.
        cbn [Nat.even] in A, B. rewrite Ehi in A. rewrite Elo in B. now split; congruence. }
      destruct (N.eqb_spec hi pt_psb_hi) as [-> | Nhi]; cbn [negb].
      * destruct (N.eqb_spec lo pt_psb_lo) as [-> | Nlo]; cbn [negb].
        -- destruct (IH buf (pos + 2) ltac:(lia)) as (r & E & H1 & H2 & H3 & H4 & H5).
           exists r. repeat split; try lia; auto.
           assert (P : pattern buf pos (pos + 2)).
           { intros i Hi. assert (i = pos \/ i = pos + 1) as [-> | ->] by lia.
             - rewrite Ehi, Nat.sub_diag. reflexivity.
             - rewrite Elo. now replace (pos + 1 - pos) with 1 by lia. }
           intros i Hi. destruct (Nat.lt_ge_cases i (pos + 2)) as [D | D];
             [apply P; lia |].
           rewrite H4 by lia. f_equal. evens; auto; lia.
        -- exists pos. repeat split; try lia.
           ++ intros i Hi. lia.
           ++ intros H. apply Z in H. destruct H as [_ ->]. now apply Nlo.
      * exists pos. repeat split; try lia.
        -- intros i Hi. lia.
        -- intros H. apply Z in H. destruct H as [-> _]. now apply Nhi.
Qed.

(** A PSB read succeeds exactly at a PSB. *)
Lemma psb_loop_spec : forall count buf pos,
  pos + 2 * count <= length buf ->
  (pattern buf pos (pos + 2 * count) /\ psb_loop buf pos count = Ok tt) \/
  (~ pattern buf pos (pos + 2 * count) /\
   psb_loop buf pos count = Err pte_bad_packet).
Proof.
  induction count as [| count IH]; intros buf pos Hl.
  - left. split; [intros i Hi; lia | reflexivity].
  - cbn [psb_loop]. unfold rd.
    destruct (nth_error buf pos) as [hi |] eqn:Ehi;
      [| apply nth_error_None in Ehi; lia].
    destruct (nth_error buf (S pos)) as [lo |] eqn:Elo;
      [| apply nth_error_None in Elo; lia].
    cbn [bind].
    assert (Z : pattern buf pos (pos + 2 * S count) -> hi = 0x02%N /\ lo = 0x82%N).
    { intros H. pose proof (H pos ltac:(lia)) as A.
      pose proof (H (S pos) ltac:(lia)) as B.
      rewrite Nat.sub_diag in A. replace (S pos - pos) with 1 in B by lia.
      cbn [Nat.even] in A, B. rewrite Ehi in A. rewrite Elo in B. now split; congruence. }
    destruct (N.eqb_spec hi pt_psb_hi) as [-> | Nhi]; cbn [negb].
    2: { right. split; [| reflexivity]. intros H. apply Z in H.
         destruct H as [-> _]. now apply Nhi. }
    destruct (N.eqb_spec lo pt_psb_lo) as [-> | Nlo]; cbn [negb].
    2: { right. split; [| reflexivity]. intros H. apply Z in H.
         destruct H as [_ ->]. now apply Nlo. }
    destruct (IH buf (S (S pos)) ltac:(lia)) as [[P E] | [P E]]; rewrite E;
      [left | right]; (split; [| reflexivity]).
    + intros i Hi.
      assert (i = pos \/ i = S pos \/ S (S pos) <= i) as [-> | [-> | D]] by lia.
      * rewrite Ehi, Nat.sub_diag. reflexivity.
      * rewrite Elo. now replace (S pos - pos) with 1 by lia.
      * rewrite P by lia. f_equal. evens; auto; lia.
    + intros H. apply P. apply (pattern_sub _ pos (pos + 2 * S count)); auto; lia.
Qed.

(** The check at the end of pt_find_psb() and in pt_sync_set(). *)
Lemma psb_check : forall buf pos, pos + 16 <= length buf ->
  (pt_pkt_read_psb buf pos = Ok (P_psb, 16) /\ pattern buf (pos + 2) (pos + 16)) \/
  (pt_pkt_read_psb buf pos = Err pte_bad_packet /\ ~ pattern buf (pos + 2) (pos + 16)).
Proof.
  intros buf pos Hl. unfold pt_pkt_read_psb, need, ptps_psb, pt_opcs_psb.
  destruct (Nat.ltb_spec (length buf) (pos + 16)); [lia |]. cbn [bind].
  destruct (psb_loop_spec pt_psb_repeat_count buf (pos + 2)) as [[P E] | [P E]];
    unfold pt_psb_repeat_count in *; try lia; rewrite E; cbn [bind].
  - left. split; [reflexivity |]. now replace (pos + 16) with (pos + 2 + 2 * 7) by lia.
  - right. split; [reflexivity |]. now replace (pos + 16) with (pos + 2 + 2 * 7) by lia.
Qed.

(** What pt_find_psb() does at a pattern word: it goes to the end [r] of the run
    and returns the last 16 bytes if they are a PSB. *)
Lemma find_psb_spec : forall buf w, w + 8 <= length buf -> psb_word buf w ->
  exists p r, w <= p <= w + 1 /\ p + 6 <= r /\ r <= length buf /\ (r - p) mod 2 = 0 /\
    (w + 8 <= r + 1) /\
    pattern buf p r /\ ~ pattern buf r (r + 2) /\
    ((pt_find_psb buf w = Ok (Some (r - 16)) /\ 16 <= r /\ psb_at buf (r - 16)) \/
     (pt_find_psb buf w = Ok None /\ (16 <= r -> ~ psb_at buf (r - 16)))).
Proof.
  intros buf w Hl Hw. remember (pt_find_psb buf w) as f eqn:Ef. unfold pt_find_psb in Ef.
  assert (exists p, w <= p <= w + 1 /\ pattern buf p (w + 8) /\
    (let* b := rd buf w in
     Ok (if negb (b =? pt_psb_hi)%N then w + 1 else w)) = Ok p) as (p & Hp & Pp & Ep).
  { destruct Hw as [Hw | [H0 Hw]].
    - exists w. repeat split; auto; try lia. unfold rd. rewrite Hw by lia.
      rewrite Nat.sub_diag. reflexivity.
    - exists (w + 1). repeat split; auto; try lia. unfold rd. rewrite H0. reflexivity. }
  destruct (rd buf w) as [b | |] eqn:Eb; [| discriminate ..]. cbn [bind] in Ep, Ef.
  injection Ep as Ep. rewrite Ep in Ef.
  destruct (psb_run_end_spec (length buf) buf p ltac:(lia))
    as (r & E & H1 & H2 & H3 & H4 & H5).
  rewrite E in Ef. cbn [bind] in Ef. specialize (H2 ltac:(lia)).
  assert (Hr : p + 6 <= r /\ w + 8 <= r + 1).
  { destruct (Nat.lt_ge_cases r (p + 6)) as [C | C].
    - exfalso. apply H5. apply (pattern_sub _ p (w + 8)); auto; lia.
    - split; [exact C |]. destruct (Nat.lt_ge_cases (r + 1) (w + 8)) as [D | D]; [| lia].
      exfalso. apply H5. apply (pattern_sub _ p (w + 8)); auto; lia. }
  exists p, r. repeat split; try lia; auto.
  unfold ptps_psb in Ef. destruct (Nat.ltb_spec r 16) as [C | C].
  { right. split; [exact Ef | lia]. }
  rewrite psb_at_pattern.
  assert (T : forall A B, (A /\ 16 <= r /\ pattern buf (r - 16) (r - 16 + 16)) \/
            (B /\ ~ pattern buf (r - 16) (r - 16 + 16)) ->
            (A /\ 16 <= r /\ pattern buf (r - 16) (r - 16 + 16)) \/
            (B /\ (16 <= r -> ~ pattern buf (r - 16) (r - 16 + 16)))) by intuition.
  apply T. clear T.
  set (q := r - 16) in *. assert (Hq : q + 16 <= length buf) by lia.
  unfold rd in Ef. destruct (nth_error buf q) as [b0 |] eqn:E0;
    [| apply nth_error_None in E0; lia].
  destruct (nth_error buf (q + 1)) as [b1 |] eqn:E1;
    [| apply nth_error_None in E1; lia].
  cbn [bind] in Ef.
  assert (Z : pattern buf q (q + 16) -> b0 = 0x02%N /\ b1 = 0x82%N).
  { intros H. pose proof (H q ltac:(lia)) as A.
    pose proof (H (q + 1) ltac:(lia)) as B.
    rewrite Nat.sub_diag in A. replace (q + 1 - q) with 1 in B by lia.
    cbn [Nat.even] in A, B. rewrite E0 in A. rewrite E1 in B. now split; congruence. }
  destruct (N.eqb_spec b0 pt_opc_ext) as [-> | N0]; cbn [negb] in Ef.
  2: { right. split; [exact Ef |]. intros H. apply Z in H.
       destruct H as [-> _]. now apply N0. }
  destruct (N.eqb_spec b1 pt_ext_psb) as [-> | N1]; cbn [negb] in Ef.
  2: { right. split; [exact Ef |]. intros H. apply Z in H.
       destruct H as [_ ->]. now apply N1. }
  destruct (psb_check buf q Hq) as [[R P] | [R P]]; rewrite R in Ef; [left | right].
  - split; [exact Ef | split; [exact C |]].
    intros i Hi. assert (i = q \/ i = q + 1 \/ q + 2 <= i) as [-> | [-> | D]] by lia.
    + rewrite E0, Nat.sub_diag. reflexivity.
    + rewrite E1. now replace (q + 1 - q) with 1 by lia.
    + rewrite P by lia. f_equal. evens; auto; lia.
  - split; [exact Ef |]. intros H. apply P.
    apply (pattern_sub _ q (q + 16)); auto; lia.
Qed.

(** * Searching *)

Lemma psb_has_word : forall buf j w, psb_at buf j -> j <= w <= j + 8 -> psb_word buf w.
Proof.
  intros buf j w H Hw. apply psb_at_pattern in H. unfold psb_word.
  destruct (even_dec (w - j)) as [[_ F] | [_ F]]; [left | right].
  - apply (pattern_sub _ j (j + 16)); auto; lia.
  - split.
    + rewrite H by lia. evens; auto; lia.
    + apply (pattern_sub _ j (j + 16)); auto; lia.
Qed.

Lemma find_psb_at : forall buf j w, psb_at buf j -> j <= w <= j + 7 ->
  exists s, pt_find_psb buf w = Ok (Some s) /\ j <= s /\ pattern buf j (s + 16) /\
            (s - j) mod 2 = 0 /\ ~ pattern buf (s + 16) (s + 18).
Proof.
  intros buf j w H Hw.
  assert (Pj := proj1 (psb_at_pattern _ _) H).
  assert (Hl := pattern_le _ _ _ Pj ltac:(lia)).
  destruct (find_psb_spec buf w ltac:(lia) (psb_has_word buf j w H ltac:(lia)))
    as (p & r & Hp & Hr & Hrl & Hm & Hr2 & P & NP & D).
  assert (Ph := pattern_phase _ _ _ _ _ p Pj P ltac:(lia) ltac:(lia)).
  assert (Pjr := pattern_join _ _ _ _ _ p Pj P ltac:(lia) ltac:(lia) ltac:(lia)).
  assert (j + 16 <= r).
  { destruct (Nat.lt_ge_cases r (j + 16)) as [C | C]; [| lia]. exfalso. apply NP.
    apply (pattern_sub _ j (j + 16)); auto; lia. }
  assert (psb_at buf (r - 16)).
  { apply psb_at_pattern. apply (pattern_sub _ j r); auto; lia. }
  destruct D as [(E & _ & _) | (_ & D)]; [| exfalso; apply D; auto; lia].
  exists (r - 16). replace (r - 16 + 16) with r by lia.
  replace (r - 16 + 18) with (r + 2) by lia.
  repeat split; auto; lia.
Qed.

(** What is known about a PSB found through a word at [w]. *)
Lemma find_psb_some : forall buf w s, w + 8 <= length buf -> psb_word buf w ->
  pt_find_psb buf w = Ok (Some s) ->
  psb_at buf s /\ s + 16 <= length buf /\ ~ pattern buf (s + 16) (s + 18) /\
  w + 7 <= s + 16 /\
  exists p, w <= p <= w + 1 /\ pattern buf p (s + 16) /\ (s + 16 - p) mod 2 = 0.
Proof.
  intros buf w s Hl Hw E.
  destruct (find_psb_spec buf w Hl Hw)
    as (p & r & Hp & Hr & Hrl & Hm & Hr2 & P & NP & [(E' & H16 & D) | (E' & _)]);
    rewrite E in E'; [| discriminate].
  injection E' as ->. replace (r - 16 + 16) with r by lia.
  replace (r - 16 + 18) with (r + 2) by lia. repeat split; auto; try lia.
  exists p. auto.
Qed.

Definition skipped (buf : list N) (start w : nat) : Prop :=
  psb_word buf w -> forall s, pt_find_psb buf w = Ok (Some s) -> s < start.

Lemma fwd_loop_spec : forall fuel buf start pos, bytes_ok buf ->
  length buf < pos + 8 * fuel + 8 ->
  (exists s k, sync_forward_loop fuel buf start pos = Ok s /\
     pos + 8 * k + 8 <= length buf /\ psb_word buf (pos + 8 * k) /\
     pt_find_psb buf (pos + 8 * k) = Ok (Some s) /\ start <= s /\
     forall k', k' < k -> skipped buf start (pos + 8 * k'))
  \/ (sync_forward_loop fuel buf start pos = Err pte_eos /\
      forall k, pos + 8 * k + 8 <= length buf -> skipped buf start (pos + 8 * k)).
Proof.
  induction fuel as [| fuel IH]; intros buf start pos Hb Hf; cbn [sync_forward_loop];
    destruct (Nat.ltb_spec (length buf) (pos + 8)) as [C | C];
    try (right; split; [reflexivity | intros k Hk; lia]); [lia |].
  destruct (is_psb_word_spec buf pos Hb C) as (m & Em & Hm). rewrite Em. cbn [bind].
  assert (Step : skipped buf start pos ->
    (exists s k, sync_forward_loop fuel buf start (pos + 8) = Ok s /\
       pos + 8 * k + 8 <= length buf /\ psb_word buf (pos + 8 * k) /\
       pt_find_psb buf (pos + 8 * k) = Ok (Some s) /\ start <= s /\
       forall k', k' < k -> skipped buf start (pos + 8 * k'))
    \/ (sync_forward_loop fuel buf start (pos + 8) = Err pte_eos /\
        forall k, pos + 8 * k + 8 <= length buf -> skipped buf start (pos + 8 * k))).
  { intros S0. destruct (IH buf start (pos + 8) Hb ltac:(lia))
      as [(s & k & E & H1 & H2 & H3 & H4 & H5) | (E & H1)]; [left | right].
    - exists s, (S k). replace (pos + 8 * S k) with (pos + 8 + 8 * k) by lia.
      repeat split; auto. intros [| k'] Hk.
      + now rewrite Nat.mul_0_r, Nat.add_0_r.
      + replace (pos + 8 * S k') with (pos + 8 + 8 * k') by lia. apply H5. lia.
    - split; auto. intros [| k] Hk.
      + now rewrite Nat.mul_0_r, Nat.add_0_r.
      + replace (pos + 8 * S k) with (pos + 8 + 8 * k) by lia. apply H1. lia. }
  destruct m; cbn [negb].
  2: { apply Step. intros W. apply Hm in W. discriminate. }
  assert (W : psb_word buf pos) by now apply Hm.
  destruct (find_psb_spec buf pos C W) as (p & r & _ & _ & _ & _ & _ & _ & _ & D).
  destruct D as [(E & _) | (E & _)]; rewrite E; cbn [bind].
  - destruct (Nat.ltb_spec (r - 16) start) as [G | G].
    + apply Step. intros _ s E'. rewrite E in E'. injection E' as <-. exact G.
    + left. exists (r - 16), 0. rewrite Nat.mul_0_r, Nat.add_0_r.
      repeat split; auto. lia.
  - apply Step. intros _ s E'. rewrite E in E'. discriminate.
Qed.

Lemma align_spec : forall base pos,
  pos <= align base pos < pos + 8 /\ (base + align base pos) mod 8 = 0.
Proof. intros base pos. unfold align. lia. Qed.

Lemma align_step : forall base p q, p <= q ->
  exists k, align base q = align base p + 8 * k.
Proof.
  intros base p q H.
  pose proof (align_spec base p) as [A1 A2]. pose proof (align_spec base q) as [B1 B2].
  exists ((align base q - align base p) / 8).
  assert (align base p <= align base q) by lia. lia.
Qed.

Theorem sync_forward_spec : forall base buf pos, bytes_ok buf -> pos <= length buf ->
  (exists s, pt_sync_forward base buf pos = Ok s /\ pos <= s /\ psb_at buf s /\
     ~ pattern buf (s + 16) (s + 18) /\
     forall j, pos <= j < s -> psb_at buf j -> pattern buf j (s + 16)) \/
  (pt_sync_forward base buf pos = Err pte_eos /\
   forall j, pos <= j -> ~ psb_at buf j).
Proof.
  intros base buf pos Hb Hp. unfold pt_sync_forward.
  destruct (Nat.ltb_spec (length buf) pos) as [C | C]; [lia |].
  pose proof (align_spec base pos) as [A1 A2].
  destruct (fwd_loop_spec (length buf) buf pos (align base pos) Hb ltac:(lia))
    as [(s & k & E & H1 & H2 & H3 & H4 & H5) | (E & H1)]; rewrite E; [left | right].
  - destruct (find_psb_some _ _ _ H1 H2 H3) as (Ps & Hs & NP & Hw & p & Hp' & P & Hm).
    exists s. repeat split; auto.
    intros j Hj Pj.
    assert (Qj := proj1 (psb_at_pattern _ _) Pj).
    destruct (align_step base pos j ltac:(lia)) as [kj Ek].
    pose proof (align_spec base j) as [B1 B2].
    destruct (Nat.lt_ge_cases kj k) as [G | G].
    + exfalso. specialize (H5 kj G). rewrite <- Ek in H5.
      destruct (find_psb_at buf j (align base j) Pj ltac:(lia))
        as (s' & Es' & Hs' & _).
      specialize (H5 (psb_has_word buf j (align base j) Pj ltac:(lia)) s' Es'). lia.
    + set (w := align base pos + 8 * k) in *.
      assert (w <= align base j) by lia.
      destruct (Nat.lt_ge_cases j p) as [D | D].
      * (* the word lies inside the PSB at j *)
        apply (pattern_join _ j (j + 16) p (s + 16) p); auto; lia.
      * (* the PSB at j lies inside the run *)
        assert (Ph := pattern_phase _ _ _ _ _ j Qj P ltac:(lia) ltac:(lia)).
        apply (pattern_sub _ p (s + 16)); auto; lia.
  - split; auto. intros j Hj Pj.
    destruct (align_step base pos j ltac:(lia)) as [kj Ek].
    pose proof (align_spec base j) as [B1 B2].
    assert (Qj := proj1 (psb_at_pattern _ _) Pj).
    assert (Hl := pattern_le _ _ _ Qj ltac:(lia)).
    destruct (find_psb_at buf j (align base j) Pj ltac:(lia)) as (s' & Es' & Hs' & _).
    specialize (H1 kj). rewrite <- Ek in H1. 
    specialize (H1 ltac:(lia) (psb_has_word buf j (align base j) Pj ltac:(lia)) s' Es'). lia.
Qed.

(** * Backward *)

Lemma bwd_loop_spec : forall fuel buf pos, bytes_ok buf -> pos <= length buf ->
  pos < 8 * fuel + 8 ->
  (exists s k, sync_backward_loop fuel buf pos = Ok s /\
     8 * k + 8 <= pos /\ psb_word buf (pos - 8 * k - 8) /\
     pt_find_psb buf (pos - 8 * k - 8) = Ok (Some s) /\
     forall k', k' < k -> skipped buf 0 (pos - 8 * k' - 8))
  \/ (sync_backward_loop fuel buf pos = Err pte_eos /\
      forall k, 8 * k + 8 <= pos -> skipped buf 0 (pos - 8 * k - 8)).
Proof.
  induction fuel as [| fuel IH]; intros buf pos Hb Hl Hf; cbn [sync_backward_loop];
    destruct (Nat.ltb_spec pos 8) as [C | C];
    try (right; split; [reflexivity | intros k Hk; lia]); [lia |].
  destruct (is_psb_word_spec buf (pos - 8) Hb ltac:(lia)) as (m & Em & Hm).
  rewrite Em. cbn [bind].
  assert (Z0 : pos - 8 * 0 - 8 = pos - 8) by lia.
  assert (ZS : forall k, pos - 8 * S k - 8 = pos - 8 - 8 * k - 8) by (intros; lia).
  assert (Step : skipped buf 0 (pos - 8) ->
    (exists s k, sync_backward_loop fuel buf (pos - 8) = Ok s /\
       8 * k + 8 <= pos /\ psb_word buf (pos - 8 * k - 8) /\
       pt_find_psb buf (pos - 8 * k - 8) = Ok (Some s) /\
       forall k', k' < k -> skipped buf 0 (pos - 8 * k' - 8))
    \/ (sync_backward_loop fuel buf (pos - 8) = Err pte_eos /\
        forall k, 8 * k + 8 <= pos -> skipped buf 0 (pos - 8 * k - 8))).
  { intros S0. destruct (IH buf (pos - 8) Hb ltac:(lia) ltac:(lia))
      as [(s & k & E & H1 & H2 & H3 & H5) | (E & H1)]; [left | right].
    - exists s, (S k). rewrite ZS.
      repeat split; auto; [lia |]. intros [| k'] Hk; [now rewrite Z0 |].
      rewrite ZS. apply H5. lia.
    - split; auto. intros [| k] Hk; [now rewrite Z0 |].
      rewrite ZS. apply H1. lia. }
  destruct m; cbn [negb].
  2: { apply Step. intros W. apply Hm in W. discriminate. }
  assert (W : psb_word buf (pos - 8)) by now apply Hm.
  destruct (find_psb_spec buf (pos - 8) ltac:(lia) W)
    as (p & r & _ & _ & _ & _ & _ & _ & _ & D).
  destruct D as [(E & _) | (E & _)]; rewrite E; cbn [bind].
  - left. exists (r - 16), 0. rewrite Z0. repeat split; auto; lia.
  - apply Step. intros _ s E'. rewrite E in E'. discriminate.
Qed.

Lemma truncate_spec : forall base pos, 8 <= truncate base pos ->
  pos < truncate base pos + 8 /\ truncate base pos <= pos /\
  (base + truncate base pos) mod 8 = 0.
Proof. intros base pos. unfold truncate. lia. Qed.

Theorem sync_backward_spec : forall base buf pos, bytes_ok buf -> pos <= length buf ->
  (exists s p, pt_sync_backward base buf pos = Ok s /\ psb_at buf s /\
     ~ pattern buf (s + 16) (s + 18) /\
     p + 7 <= pos /\ pattern buf p (s + 16) /\ (s + 16 - p) mod 2 = 0 /\ 
     forall j, j + 16 <= pos -> psb_at buf j -> j <= s) \/
  (pt_sync_backward base buf pos = Err pte_eos /\
   forall j, j + 16 <= pos -> ~ psb_at buf j).
Proof.
  intros base buf pos Hb Hp. unfold pt_sync_backward.
  destruct (Nat.ltb_spec (length buf) pos) as [C | C]; [lia |].
  assert (T0 : truncate base pos <= pos) by (unfold truncate; lia).
  destruct (bwd_loop_spec (length buf) buf (truncate base pos) Hb
              ltac:(lia) ltac:(lia))
    as [(s & k & E & H1 & H2 & H3 & H5) | (E & H1)]; rewrite E; [left | right].
  - pose proof (truncate_spec base pos ltac:(lia)) as (T1 & T2 & T3).
    set (t := truncate base pos) in *. set (w := t - 8 * k - 8) in *.
    assert (Hw8 : w + 8 <= length buf) by lia.
    destruct (find_psb_some _ _ _ Hw8 H2 H3) as (Ps & Hs & NP & Hw & p & Hp' & P & Hm).
    exists s, p. repeat split; auto; [lia |].
    intros j Hj Pj.
    assert (Qj := proj1 (psb_at_pattern _ _) Pj).
    pose proof (align_spec base j) as [B1 B2].
    destruct (Nat.le_gt_cases (align base j) w) as [G | G].
    + (* w at or after the first word of the PSB at j *)
      destruct (Nat.le_gt_cases j s) as [D | D]; [exact D | exfalso].
      destruct (Nat.lt_ge_cases p (j + 16)) as [D2 | D2]; [| lia].
      apply NP.
      assert (Ph := pattern_phase _ _ _ _ _ p Qj P ltac:(lia) ltac:(lia)).
      apply (pattern_sub _ j (j + 16)); auto; lia.
    + exfalso.
      assert (Q : align base j + 8 <= t) by lia.
      specialize (H5 ((t - align base j - 8) / 8)).
      assert (EE : t - 8 * ((t - align base j - 8) / 8) - 8 = align base j) by lia.
      rewrite EE in H5.
      destruct (find_psb_at buf j (align base j) Pj ltac:(lia)) as (s' & Es' & _).
      specialize (H5 ltac:(lia) (psb_has_word buf j (align base j) Pj ltac:(lia)) s' Es'). lia.
  - split; auto. intros j Hj Pj.
    pose proof (align_spec base j) as [B1 B2].
    assert (T8 : 8 <= truncate base pos) by (unfold truncate, align in *; lia).
    pose proof (truncate_spec base pos T8) as (T1 & T2 & T3).
    set (t := truncate base pos) in *.
    assert (Q : align base j + 8 <= t) by lia.
    specialize (H1 ((t - align base j - 8) / 8)).
    assert (EE : t - 8 * ((t - align base j - 8) / 8) - 8 = align base j) by lia.
    rewrite EE in H1.
    destruct (find_psb_at buf j (align base j) Pj ltac:(lia)) as (s' & Es' & _).
    specialize (H1 ltac:(lia) (psb_has_word buf j (align base j) Pj ltac:(lia)) s' Es'). lia.
Qed.

(** * The packet decoder's synchronisation functions *)

Lemma fwd_start : forall d,
  (let pos := match pd_pos d with Some p => p | None => 0 end in
   let pos := match pd_sync d with
             | Some s => if Nat.eqb pos s then pos + ptps_psb else pos
             | None => pos
             end in
   pos - (if Nat.leb ptps_psb pos then ptps_psb - 1 else pos)) =
  match pd_pos d, pd_sync d with
  | None, Some 0 => 1
  | _, _ => search_start d
  end.
Proof.
  intros d. unfold search_start, ptps_psb. cbv zeta.
  destruct (pd_pos d) as [p |], (pd_sync d) as [s |].
  - destruct (Nat.eqb_spec p s).
    + destruct (Nat.leb_spec 16 (p + 16)); lia.
    + destruct (Nat.leb_spec 16 p); lia.
  - destruct (Nat.leb_spec 16 p); lia.
  - destruct s as [| s]; cbn; reflexivity.
  - reflexivity.
Qed.

(** Decoders as they can arise: both positions are set or none is. *)
Definition consistent (d : pktdec) : Prop := pd_pos d = None <-> pd_sync d = None.

Lemma fwd_unfold : forall base d, consistent d ->
  pt_pkt_sync_forward base d =
  match pt_sync_forward base (pd_buf d) (search_start d) with
  | Ok sync => (set_sync d sync, Ok tt)
  | Err e => (d, Err e)
  | UB u => (d, UB u)
  end.
Proof.
  intros base d Hc. pose proof (fwd_start d) as F. unfold pt_pkt_sync_forward.
  cbv zeta in F |- *. rewrite F. clear F. unfold consistent in Hc.
  destruct (pd_pos d) eqn:E1, (pd_sync d) as [[|s] |] eqn:E2; try reflexivity;
    exfalso; destruct Hc as [H1 H2]; try (discriminate (H1 eq_refl)).
Qed.

Lemma next_psb : forall cf buf s sync, psb_at buf s ->
  pt_pkt_next (mk_pktdec cf buf (Some s) sync)
  = (mk_pktdec cf buf (Some (s + 16)) sync, Ok (mk_packet P_psb 16)).
Proof.
  intros cf buf s sync H.
  assert (P := proj1 (psb_at_pattern _ _) H).
  assert (Hl := pattern_le _ _ _ P ltac:(lia)).
  unfold pt_pkt_next, pt_pkt_decode. cbn [pd_pos pd_config pd_buf pd_sync].
  destruct (Nat.leb_spec (length buf) s); [lia |].
  assert (R0 : rd buf s = Ok 0x02%N)
    by (unfold rd; rewrite P by lia; now rewrite Nat.sub_diag).
  assert (R1 : rd buf (s + 1) = Ok 0x82%N)
    by (unfold rd; rewrite P by lia; now replace (s + 1 - s) with 1 by lia).
  rewrite R0. cbn [bind].
  destruct (Nat.leb_spec (length buf) (s + 1)); [lia |].
  rewrite R1. cbn [bind].
  destruct (psb_check buf s Hl) as [[R _] | [_ N]].
  2: { exfalso. apply N. apply (pattern_sub _ s (s + 16)); auto; lia. }
  rewrite R. cbn -[Nat.add]. repeat f_equal. lia.
Qed.

Lemma forward_sound : forall base d d', bytes_ok (pd_buf d) -> consistent d ->
  pt_pkt_sync_forward base d = (d', Ok tt) ->
  exists s, d' = set_sync d s /\ search_start d <= s /\
    s + 16 <= length (pd_buf d) /\ psb_at (pd_buf d) s /\
    ~ pattern (pd_buf d) (s + 16) (s + 18) /\
    forall j, search_start d <= j < s -> psb_at (pd_buf d) j ->
              pattern (pd_buf d) j (s + 16).
Proof.
  intros base d d' Hb Hc E. rewrite fwd_unfold in E by exact Hc.
  destruct (Nat.le_gt_cases (search_start d) (length (pd_buf d))) as [H | H].
  - destruct (sync_forward_spec base _ _ Hb H) as [(s & E' & H1 & H2 & H3 & H4) | (E' & _)];
      rewrite E' in E; [| discriminate].
    injection E as <-. exists s. repeat split; auto.
    apply psb_at_pattern in H2. apply pattern_le in H2; lia.
  - unfold pt_sync_forward in E.
    destruct (Nat.ltb_spec (length (pd_buf d)) (search_start d)); [| lia].
    discriminate.
Qed.

Lemma forward_complete : forall base d, bytes_ok (pd_buf d) -> consistent d ->
  search_start d <= length (pd_buf d) ->
  (pt_pkt_sync_forward base d = (d, Err pte_eos) /\
   forall j, search_start d <= j -> ~ psb_at (pd_buf d) j) \/
  (exists d', pt_pkt_sync_forward base d = (d', Ok tt) /\
   exists j, search_start d <= j /\ psb_at (pd_buf d) j).
Proof.
  intros base d Hb Hc H. rewrite fwd_unfold by exact Hc.
  destruct (sync_forward_spec base _ _ Hb H) as [(s & E' & H1 & H2 & H3 & H4) | (E' & H1)];
    rewrite E'; [right | left].
  - eexists. split; [reflexivity |]. exists s. auto.
  - split; auto.
Qed.

(** Where the backward search starts. *)
Definition back_start (d : pktdec) : nat :=
  match pd_pos d with Some p => p | None => length (pd_buf d) end.

Lemma backward_sound : forall base d d', bytes_ok (pd_buf d) ->
  pt_pkt_sync_backward base d = (d', Ok tt) ->
  exists s p, d' = set_sync d s /\ s + 16 <= length (pd_buf d) /\ psb_at (pd_buf d) s /\
    ~ pattern (pd_buf d) (s + 16) (s + 18) /\
    p + 7 <= back_start d /\ pattern (pd_buf d) p (s + 16) /\ (s + 16 - p) mod 2 = 0 /\
    forall j, j + 16 <= back_start d -> psb_at (pd_buf d) j -> j <= s.
Proof.
  intros base d d' Hb E. unfold pt_pkt_sync_backward in E. fold (back_start d) in E.
  destruct (Nat.le_gt_cases (back_start d) (length (pd_buf d))) as [H | H].
  - destruct (sync_backward_spec base _ _ Hb H)
      as [(s & p & E' & H1 & H2 & H3 & H4 & H5 & H6) | (E' & _)];
      rewrite E' in E; [| discriminate].
    injection E as <-. exists s, p. repeat split; auto.
    apply psb_at_pattern in H1. apply pattern_le in H1; lia.
  - unfold pt_sync_backward in E.
    destruct (Nat.ltb_spec (length (pd_buf d)) (back_start d)); [| lia].
    discriminate.
Qed.

(** A PSB starts before the search position whenever backward search succeeds. *)
Lemma backward_psb_before : forall base d d', bytes_ok (pd_buf d) ->
  pt_pkt_sync_backward base d = (d', Ok tt) ->
  exists j s, d' = set_sync d s /\ j < back_start d /\ j <= s /\
    psb_at (pd_buf d) j /\ pattern (pd_buf d) j (s + 16).
Proof.
  intros base d d' Hb E.
  destruct (backward_sound base d d' Hb E) as (s & p & -> & Hl & H1 & H2 & H3 & H4 & H5 & _).
  destruct (Nat.le_gt_cases p s) as [C | C].
  - exists p, s. repeat split; auto; [lia |]. apply psb_at_pattern.
    apply (pattern_sub _ p (s + 16)); auto; lia.
  - exists s, s. assert (Q := proj1 (psb_at_pattern _ _) H1).
    repeat split; auto. lia.
Qed.

Lemma backward_complete : forall base d, bytes_ok (pd_buf d) ->
  back_start d <= length (pd_buf d) ->
  (pt_pkt_sync_backward base d = (d, Err pte_eos) /\
   forall j, j + 16 <= back_start d -> ~ psb_at (pd_buf d) j) \/
  (exists d', pt_pkt_sync_backward base d = (d', Ok tt)).
Proof.
  intros base d Hb H. unfold pt_pkt_sync_backward. fold (back_start d).
  destruct (sync_backward_spec base _ _ Hb H) as [(s & p & E' & _) | (E' & H1)];
    rewrite E'; [right | left]; [eexists; reflexivity | auto].
Qed.

(** * No undefined behaviour *)

Lemma sync_no_ub : forall base d, bytes_ok (pd_buf d) ->
  no_ub (snd (pt_pkt_sync_forward base d)) /\ no_ub (snd (pt_pkt_sync_backward base d)).
Proof.
  intros base d Hb. split.
  - unfold pt_pkt_sync_forward. cbv zeta.
    match goal with |- context [pt_sync_forward base (pd_buf d) ?p] =>
      set (pos := p); clearbody pos end.
    destruct (Nat.le_gt_cases pos (length (pd_buf d))) as [H | H].
    + destruct (sync_forward_spec base _ _ Hb H) as [(s & E & _) | (E & _)];
        rewrite E; intros u; discriminate.
    + unfold pt_sync_forward. destruct (Nat.ltb_spec (length (pd_buf d)) pos); [| lia].
      intros u; discriminate.
  - unfold pt_pkt_sync_backward. cbv zeta.
    match goal with |- context [pt_sync_backward base (pd_buf d) ?p] =>
      set (pos := p); clearbody pos end.
    destruct (Nat.le_gt_cases pos (length (pd_buf d))) as [H | H].
    + destruct (sync_backward_spec base _ _ Hb H) as [(s & p & E & _) | (E & _)];
        rewrite E; intros u; discriminate.
    + unfold pt_sync_backward. destruct (Nat.ltb_spec (length (pd_buf d)) pos); [| lia].
      intros u; discriminate.
Qed.

Lemma step_no_ub : forall base d o, bytes_ok (pd_buf d) ->
  no_ub (snd (pkt_step base d o)).
Proof.
  intros base d o Hb. destruct o; cbn [pkt_step].
  - unfold pt_pkt_sync_set. destruct (_ <? _)%N; intros u; discriminate.
  - now apply sync_no_ub.
  - now apply sync_no_ub.
  - pose proof (pkt_next_no_ub d) as H. destruct (pt_pkt_next d) as [d' [p | e | u]];
      cbn in *; intros v Hv; try discriminate. now apply (H u).
Qed.

(** * Bookkeeping *)

Lemma next_fields : forall d,
  pd_buf (fst (pt_pkt_next d)) = pd_buf d /\ pd_sync (fst (pt_pkt_next d)) = pd_sync d /\
  (pd_pos (fst (pt_pkt_next d)) = None <-> pd_pos d = None).
Proof.
  intros d. unfold pt_pkt_next. destruct (pd_pos d) as [p |] eqn:E.
  - destruct (pt_pkt_decode _ _ _); cbn; repeat split; try congruence; intros; congruence.
  - cbn. now rewrite E.
Qed.

Lemma step_fields : forall base d o,
  pd_buf (fst (pkt_step base d o)) = pd_buf d /\
  (consistent d -> consistent (fst (pkt_step base d o))) /\
  (is_err (snd (pkt_step base d o)) = true -> fst (pkt_step base d o) = d) /\
  (is_sync_op o = true -> is_ok (snd (pkt_step base d o)) = true ->
   exists s, fst (pkt_step base d o) = set_sync d s) /\
  (is_sync_op o = false -> pd_sync (fst (pkt_step base d o)) = pd_sync d) /\
  (is_sync_op o = false -> (pd_pos (fst (pkt_step base d o)) = None <-> pd_pos d = None)).
Proof.
  intros base d o. destruct o as [off | | |]; cbn [pkt_step is_sync_op].
  - unfold pt_pkt_sync_set. destruct (_ <? _)%N; cbn; repeat split; intros;
      try discriminate; auto; try congruence; try apply H; auto.
    now exists (N.to_nat off).
  - unfold pt_pkt_sync_forward. cbv zeta. destruct (pt_sync_forward _ _ _); cbn;
      repeat split; intros; try discriminate; auto; try congruence; try apply H; auto.
    now eexists.
  - unfold pt_pkt_sync_backward. cbv zeta. destruct (pt_sync_backward _ _ _); cbn;
      repeat split; intros; try discriminate; auto; try congruence; try apply H; auto.
    now eexists.
  - pose proof (next_fields d) as (F1 & F2 & F3).
    destruct (pt_pkt_next d) as [d' r] eqn:E. cbn [fst snd] in *.
    split; [exact F1 |]. split; [unfold consistent; rewrite F2, F3; auto |].
    split.
    { intros H. destruct r as [p | e | u]; try discriminate.
      now apply next_fail_same in E. }
    split; [discriminate |]. split; auto.
Qed.

Lemma run_synced : forall base ops d d' rs, bytes_ok (pd_buf d) -> consistent d ->
  pkt_run base d ops = (d', rs) ->
  consistent d' /\ pd_buf d' = pd_buf d /\
  (pd_sync d' = None <-> pd_sync d = None /\ synced ops rs = false).
Proof.
  intros base. induction ops as [| o ops IH]; intros d d' rs Hb Hc E.
  - cbn in E. injection E as <- <-. cbn. intuition.
  - cbn [pkt_run] in E.
    pose proof (step_fields base d o) as (F1 & F2 & F3 & F4 & F5 & F6).
    pose proof (step_no_ub base d o Hb) as NU.
    destruct (pkt_step base d o) as [d1 r] eqn:Es. cbn [fst snd] in *.
    destruct (pkt_run base d1 ops) as [d2 rs1] eqn:Er. injection E as <- <-.
    destruct (IH d1 d2 rs1 ltac:(now rewrite F1) (F2 Hc) Er) as (G1 & G2 & G3).
    split; [exact G1 |]. split; [now rewrite G2 |].
    rewrite G3. unfold synced. cbn [combine existsb fst snd observe ob_ret].
    destruct (is_sync_op o) eqn:Eo; cbn [andb].
    + destruct r as [[] | e | u]; cbn [is_ok is_err] in *.
      * destruct (F4 eq_refl eq_refl) as [s ->]. cbn. split; intros [? ?]; discriminate.
      * rewrite (F3 eq_refl). reflexivity.
      * now destruct (NU u).
    + rewrite (F5 eq_refl). reflexivity.
Qed.

(** * Progress *)

Definition at_psb (d : pktdec) : Prop :=
  (pd_pos d = None /\ pd_sync d = None) \/
  exists s p, pd_sync d = Some s /\ pd_pos d = Some p /\
    psb_at (pd_buf d) s /\ (p = s \/ s + 16 <= p) /\ p <= length (pd_buf d) + 1.

Lemma next_le : forall d d' r p, pt_pkt_next d = (d', r) -> pd_pos d = Some p ->
  p <= length (pd_buf d) + 1 ->
  exists p', pd_pos d' = Some p' /\ p <= p' <= length (pd_buf d) + 1.
Proof.
  intros d d' r p E Hp Hl. destruct r as [pk | e | u].
  - apply next_accounting in E. destruct E as (pos & pos' & E1 & E2 & _ & _ & _ & E3).
    assert (pos = p) by congruence. subst pos. exists pos'. split; [exact E2 |].
    destruct (pkt_pl pk); lia.
  - apply next_fail_same in E. subst. eauto.
  - pose proof (pkt_next_no_ub d) as N. rewrite E in N. now destruct (N u).
Qed.

Lemma at_psb_next : forall d, at_psb d -> at_psb (fst (pt_pkt_next d)).
Proof.
  intros d [[H1 H2] | (s & p & H1 & H2 & H3 & H4 & H5)].
  - left. unfold pt_pkt_next. rewrite H1. cbn. auto.
  - right. pose proof (next_fields d) as (F1 & F2 & _).
    destruct (pt_pkt_next d) as [d' r] eqn:E. cbn [fst] in *.
    destruct H4 as [-> | H4].
    + destruct d as [cf buf po sy]. cbn [pd_pos pd_sync pd_buf] in *. subst po sy.
      rewrite (next_psb cf buf s (Some s) H3) in E. injection E as <- <-.
      exists s, (s + 16). cbn. repeat split; auto.
      apply psb_at_pattern in H3. apply pattern_le in H3; lia.
    + destruct (next_le d d' r p E H2 H5) as (p' & E' & Hp').
      exists s, p'. rewrite F1, F2. repeat split; auto; lia.
Qed.

Lemma at_psb_start : forall d s, at_psb d -> pd_sync d = Some s ->
  s < search_start d <= length (pd_buf d) /\ s + 16 <= length (pd_buf d).
Proof.
  intros d s [[_ H] | (s' & p & H1 & H2 & H3 & H4 & H5)] Hs; [congruence |].
  assert (s' = s) by congruence. subst s'.
  apply psb_at_pattern in H3. apply pattern_le in H3; [| lia].
  unfold search_start. rewrite H1, H2. destruct (Nat.eqb_spec p s); lia.
Qed.

Lemma at_psb_forward : forall base d, bytes_ok (pd_buf d) -> at_psb d ->
  (pt_pkt_sync_forward base d = (d, Err pte_eos)) \/
  (exists s', pt_pkt_sync_forward base d = (set_sync d s', Ok tt) /\
     at_psb (set_sync d s') /\ s' + 16 <= length (pd_buf d) /\
     forall s, pd_sync d = Some s -> s < s').
Proof.
  intros base d Hb Ha.
  assert (Hc : consistent d).
  { destruct Ha as [[H1 H2] | (s' & p & H1 & H2 & _)]; unfold consistent;
      rewrite H1, H2; split; congruence. }
  assert (Hs : search_start d <= length (pd_buf d)).
  { destruct (pd_sync d) as [s |] eqn:E; [now apply at_psb_start in E |].
    unfold search_start. destruct Ha as [[H1 H2] | (s' & p & H1 & H2 & _)];
      [rewrite H1; lia | congruence]. }
  destruct (forward_complete base d Hb Hc Hs) as [[E _] | [d' [E _]]]; [now left | right].
  destruct (forward_sound base d d' Hb Hc E) as (s & -> & H1 & H2 & H3 & _).
  exists s. split; [exact E |]. split.
  - right. exists s, s. cbn. repeat split; auto. lia.
  - split; [exact H2 |]. intros s0 E0. apply at_psb_start in E0; [lia | exact Ha].
Qed.

Definition fwd_op (o : pkt_op) : Prop := o = Op_next \/ o = Op_sync_forward.

Lemma forward_run : forall base ops d d' rs, bytes_ok (pd_buf d) -> at_psb d ->
  Forall fwd_op ops -> pkt_run base d ops = (d', rs) ->
  increasing (forward_offsets ops rs) /\
  (forall s a l, pd_sync d = Some s -> forward_offsets ops rs = Ok a :: l ->
                 (N.of_nat s < a)%N) /\
  (Forall (fun x => exists a, x = Ok a /\ (a + 16 <= N.of_nat (length (pd_buf d)))%N)
          (forward_offsets ops rs)) /\
  Forall2 (fun o r => o = Op_sync_forward ->
                      ob_ret r = Ok tt \/ ob_ret r = Err pte_eos) ops rs.
Proof.
  intros base. induction ops as [| o ops IH]; intros d d' rs Hb Ha Ho E.
  - cbn in E. injection E as <- <-. cbn. repeat split; try constructor. discriminate.
  - inversion Ho as [| ? ? Ho1 Ho2]; subst. cbn [pkt_run] in E.
    destruct Ho1 as [-> | ->]; cbn [pkt_step] in E.
    + pose proof (at_psb_next d Ha) as Ha'.
      pose proof (next_fields d) as (F1 & F2 & F3).
      destruct (pt_pkt_next d) as [d1 r1]. cbn [fst] in *.
      destruct (pkt_run base d1 ops) as [d2 rs2] eqn:Er. injection E as <- <-.
      destruct (IH d1 d2 rs2 ltac:(now rewrite F1) Ha' Ho2 Er) as (G1 & G2 & G3 & G4).
      cbn [forward_offsets]. rewrite F1, F2 in *. repeat split; auto.
      constructor; [discriminate | auto].
    + destruct (at_psb_forward base d Hb Ha) as [E1 | (s' & E1 & Ha' & Hl & Hs)];
        rewrite E1 in E.
      * destruct (pkt_run base d ops) as [d2 rs2] eqn:Er. injection E as <- <-.
        destruct (IH d d2 rs2 Hb Ha Ho2 Er) as (G1 & G2 & G3 & G4).
        cbn [forward_offsets observe ob_ret is_ok]. repeat split; auto.
      * destruct (pkt_run base (set_sync d s') ops) as [d2 rs2] eqn:Er.
        injection E as <- <-.
        destruct (IH (set_sync d s') d2 rs2 Hb Ha' Ho2 Er) as (G1 & G2 & G3 & G4).
        cbn [forward_offsets observe ob_ret is_ok ob_sync pt_pkt_get_sync_offset
             set_sync pd_sync] in *.
        cbn [set_sync pd_buf] in *. repeat split.
        -- destruct (forward_offsets ops rs2) as [| x l] eqn:Ef; [constructor |].
           inversion G3 as [| ? ? (a & -> & _) _]; subst.
           constructor; [| exact G1]. now apply (G2 s' a l).
        -- intros s a l Es [= <- <-]. specialize (Hs s Es). lia.
        -- constructor; [| exact G3]. exists (N.of_nat s'). split; [reflexivity | lia].
        -- constructor; [now left | exact G4].
Qed.

Lemma increasing_bound : forall l n, increasing l ->
  Forall (fun x => exists a, x = Ok a /\ (a + 16 <= n)%N) l ->
  (forall a l', l = Ok a :: l' -> (a + N.of_nat (length l) <= n)%N).
Proof.
  intros l n H. induction H as [| a | a b l Hab H IH]; intros F a0 l' E;
    [discriminate | |].
  - injection E as <- <-. inversion F as [| ? ? (x & Ex & Hx) _]. injection Ex as <-. cbn. lia.
  - injection E as <- <-. inversion F as [| ? ? _ F']. specialize (IH F' b l eq_refl).
    cbn [length] in *. lia.
Qed.

Lemma forward_finite : forall base ops buf cf d' rs, bytes_ok buf ->
  Forall fwd_op ops -> pkt_run base (pt_pkt_decoder_init cf buf) ops = (d', rs) ->
  length (forward_offsets ops rs) <= length buf.
Proof.
  intros base ops buf cf d' rs Hb Ho E.
  destruct (forward_run base ops (pt_pkt_decoder_init cf buf) d' rs Hb
              ltac:(now left) Ho E) as (G1 & _ & G3 & _).
  destruct (forward_offsets ops rs) as [| x l] eqn:Ef; [cbn; lia |].
  inversion G3 as [| ? ? (a & -> & _) _]; subst.
  pose proof (increasing_bound _ _ G1 G3 a l eq_refl). 
  cbn [pd_buf pt_pkt_decoder_init] in *. lia.
Qed.

(** * Backward progress without adjacent PSB's *)

Lemma backward_decreases : forall base d d' s, bytes_ok (pd_buf d) ->
  pd_pos d = Some s -> psb_at (pd_buf d) s ->
  (forall j, psb_at (pd_buf d) j -> ~ psb_at (pd_buf d) (j + 2)) ->
  pt_pkt_sync_backward base d = (d', Ok tt) ->
  exists s', d' = set_sync d s' /\ s' < s.
Proof.
  intros base d d' s Hb Hp Hs Hn E.
  destruct (backward_psb_before base d d' Hb E) as (j & s' & -> & H1 & H2 & H3 & H4).
  unfold back_start in H1. rewrite Hp in H1.
  exists s'. split; [reflexivity |].
  destruct (Nat.lt_ge_cases s' s) as [C | C]; [exact C | exfalso].
  apply (Hn j H3). apply psb_at_pattern.
  destruct (Nat.le_gt_cases (j + 2) s') as [D | D].
  - apply (pattern_sub _ j (s' + 16)); auto; lia.
  - assert (s' = s) by lia. assert (j = s - 1) by lia. subst.
    assert (Q := proj1 (psb_at_pattern _ _) Hs).
    pose proof (pattern_phase _ _ _ _ _ s Q H4 ltac:(lia) ltac:(lia)). lia.
Qed.
