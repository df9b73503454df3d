(** Lemmas about instructions in memory. *)

From Coq Require Import List NArith ZArith Bool Lia ZifyBool ZifyNat ZifyN.
From Verif Require Import Base M_event M_ild M_asid M_insn S_x86 S_insn L_ild L_ild2 L_ild6 T_ild.
Import ListNotations.
Open Scope N_scope.

Lemma offset_ip_0 ip : ip < 2 ^ 64 -> offset_ip ip 0 = ip.
Proof. intros H. unfold offset_ip. rewrite N.add_0_r. apply N.mod_small. exact H. Qed.

Lemma offset_ip_add ip j k : offset_ip (offset_ip ip j) k = offset_ip ip (j + k).
Proof.
  unfold offset_ip. rewrite N.add_mod_idemp_l by discriminate. f_equal. lia.
Qed.

Lemma add64_offset ip k : add64 ip (N.of_nat k) = offset_ip ip k.
Proof. reflexivity. Qed.

Lemma bytes_at_app mem ip l1 l2 :
  bytes_at mem ip l1 -> bytes_at mem (offset_ip ip (length l1)) l2 -> bytes_at mem ip (l1 ++ l2).
Proof.
  intros H1 H2 k b E. destruct (Nat.lt_ge_cases k (length l1)) as [L|L].
  - rewrite nth_error_app1 in E by exact L. exact (H1 k b E).
  - rewrite nth_error_app2 in E by exact L. destruct (H2 _ _ E) as (s & Hs).
    rewrite offset_ip_add in Hs. exists s. rewrite <- Hs. f_equal. f_equal. lia.
Qed.

Lemma nth_error_firstn_some {A} n (l : list A) k b :
  nth_error (firstn n l) k = Some b -> nth_error l k = Some b /\ (k < n)%nat.
Proof.
  revert l k. induction n; intros [|c l] [|k]; cbn; intros E; try discriminate E.
  - split; [exact E|lia].
  - destruct (IHn _ _ E). split; [assumption|lia].
Qed.

Lemma bytes_at_firstn mem ip l n : bytes_at mem ip l -> bytes_at mem ip (firstn n l).
Proof. intros H k b E. apply H. apply (nth_error_firstn_some n l k b E). Qed.

(** Two texts at one place agree as far as both go. *)
Lemma bytes_at_agree mem ip l1 l2 :
  bytes_at mem ip l1 -> bytes_at mem ip l2 -> (length l1 <= length l2)%nat ->
  firstn (length l1) l2 = l1.
Proof.
  intros H1 H2 L. apply nth_ext with (d := 0) (d' := 0).
  - rewrite firstn_length. lia.
  - intros k Hk. rewrite firstn_length in Hk.
    assert (Ek1 : nth_error l1 k = Some (nth k l1 0)) by (apply nth_error_nth'; lia).
    assert (Ek2 : nth_error l2 k = Some (nth k l2 0)) by (apply nth_error_nth'; lia).
    assert (E3 : nth k (firstn (length l1) l2) 0 = nth k l2 0).
    { destruct (nth_error (firstn (length l1) l2) k) as [b|] eqn:E.
      - pose proof (nth_error_firstn_some _ _ _ _ E) as (E' & _).
        rewrite (nth_error_nth _ _ 0 E), (nth_error_nth _ _ 0 E'). reflexivity.
      - apply nth_error_None in E. rewrite firstn_length in E. lia. }
    rewrite E3. destruct (H1 _ _ Ek1) as (s & E1). destruct (H2 _ _ Ek2) as (s' & E2).
    rewrite E1 in E2. congruence.
Qed.

(** What the decoder knows: the first bytes of the instruction are those in memory. *)
Definition knows (mem : memory) (i : insn) : Prop :=
  length (in_raw i) = 15%nat /\ bytes_ok (in_raw i) /\ (in_size i <= 15)%nat /\
  bytes_at mem (in_ip i) (firstn (in_size i) (in_raw i)).

Lemma put_raw_length raw pos bs : (pos + length bs <= length raw)%nat ->
  length (put_raw raw pos bs) = length raw.
Proof.
  intros H. unfold put_raw. rewrite !app_length, firstn_length, skipn_length. lia.
Qed.
Lemma Forall_skipn {A} (P : A -> Prop) n l : Forall P l -> Forall P (skipn n l).
Proof. revert l. induction n; intros [|c l] H; cbn; auto. inversion H; auto. Qed.
Lemma Forall_firstn {A} (P : A -> Prop) n l : Forall P l -> Forall P (firstn n l).
Proof. revert l. induction n; intros [|c l] H; cbn; auto. inversion H; subst. constructor; auto. Qed.
Lemma put_raw_bytes raw pos bs : bytes_ok raw -> bytes_ok bs -> bytes_ok (put_raw raw pos bs).
Proof.
  intros H1 H2. unfold put_raw, bytes_ok in *. apply Forall_app. split; [apply Forall_firstn, H1|].
  apply Forall_app. split; [exact H2|apply Forall_skipn, H1].
Qed.
Lemma put_raw_firstn raw pos bs : (pos <= length raw)%nat ->
  firstn (pos + length bs) (put_raw raw pos bs) = firstn pos raw ++ bs.
Proof.
  intros H. unfold put_raw. rewrite app_assoc, firstn_app.
  assert (L : length (firstn pos raw ++ bs) = (pos + length bs)%nat)
    by (rewrite app_length, firstn_length; lia).
  rewrite <- L, firstn_all, Nat.sub_diag, firstn_O, app_nil_r. reflexivity.
Qed.

Lemma knows_more mem i bs :
  knows mem i -> bytes_at mem (offset_ip (in_ip i) (in_size i)) bs -> bytes_ok bs ->
  (in_size i + length bs <= 15)%nat ->
  knows mem (in_set_text i (put_raw (in_raw i) (in_size i) bs) (in_size i + length bs)).
Proof.
  intros (K1 & K2 & K3 & K4) Hb Ho Hl. unfold knows. cbn [in_raw in_size in_ip in_set_text].
  split; [rewrite put_raw_length; lia|]. split; [apply put_raw_bytes; assumption|].
  split; [exact Hl|]. rewrite put_raw_firstn by lia. apply bytes_at_app; [exact K4|].
  rewrite firstn_length, K1. replace (Nat.min (in_size i) 15) with (in_size i) by lia. exact Hb.
Qed.

(** The text is known completely. *)
Lemma decode_known mem i x :
  knows mem i -> in_mode i <> ptem_unknown -> text_at mem (in_mode i) (in_ip i) x ->
  (length (render x) <= in_size i)%nat ->
  pt_ild_decode (in_raw i) (in_size i) (in_mode i) = (length (render x), Ok (meaning (in_mode i) x)).
Proof.
  intros (K1 & K2 & K3 & K4) Hm (W & L15 & Ht) L.
  apply ild_complete; try assumption; [lia|]. apply firstn_at.
  pose proof (bytes_at_agree mem _ _ _ Ht K4) as A. rewrite firstn_length, firstn_firstn in A.
  replace (Nat.min (length (render x)) (in_size i)) with (length (render x)) in A by lia.
  apply A. lia.
Qed.

(** The text is not known completely. *)
Lemma decode_short mem i x :
  knows mem i -> in_mode i <> ptem_unknown -> text_at mem (in_mode i) (in_ip i) x ->
  (in_size i < length (render x))%nat ->
  pt_ild_decode (in_raw i) (in_size i) (in_mode i) = (in_size i, Err pte_bad_insn).
Proof.
  intros (K1 & K2 & K3 & K4) Hm (W & L15 & Ht) L.
  assert (Br : bytes_ok (render x)) by apply W.
  assert (E : firstn (in_size i) (render x) = firstn (in_size i) (in_raw i)).
  { pose proof (bytes_at_agree mem _ _ _ K4 Ht) as A. rewrite firstn_length in A.
    replace (Nat.min (in_size i) (length (in_raw i))) with (in_size i) in A by lia.
    apply A. lia. }
  rewrite (C52_local (in_mode i) (in_raw i) (render x ++ [0]) (in_size i) Hm K2).
  - apply C52_truncated; try assumption. repeat constructor.
  - unfold bytes_ok in *. apply Forall_app. split; [exact Br|repeat constructor].
  - lia.
  - rewrite app_length. lia.
  - rewrite firstn_app, <- E. replace (in_size i - length (render x))%nat with 0%nat by lia.
    rewrite firstn_O, app_nil_r. reflexivity.
Qed.

(** What is found is in memory. *)
Lemma decode_found mem i n c x :
  knows mem i -> in_mode i <> ptem_unknown ->
  pt_ild_decode (in_raw i) (in_size i) (in_mode i) = (n, Ok (c, x)) ->
  exists t, text_at mem (in_mode i) (in_ip i) t /\ n = length (render t) /\
            meaning (in_mode i) t = (c, x) /\ firstn n (in_raw i) = render t /\ (n <= in_size i)%nat.
Proof.
  intros (K1 & K2 & K3 & K4) Hm E.
  assert (Ls : (in_size i <= length (in_raw i))%nat) by lia.
  destruct (C51_only _ _ _ _ _ Hm K2 Ls E) as (t & W & F & L & N & M).

  exists t. split; [|split; [exact N|split; [symmetry; exact M|split; [exact F|exact L]]]].
  split; [exact W|]. split; [lia|]. rewrite <- F.
  replace (firstn n (in_raw i)) with (firstn n (firstn (in_size i) (in_raw i))).
  - apply bytes_at_firstn, K4.
  - rewrite firstn_firstn. f_equal. lia.
Qed.
