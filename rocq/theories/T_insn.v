(** C53: pt_insn_decode() finds the instruction in memory, however the memory is split
    into sections.  C54: what an instruction alone says about the next one, and
    pt_insn_range_is_contiguous(). *)

From Coq Require Import List NArith ZArith Bool Lia ZifyBool ZifyNat ZifyN.
From Verif Require Import Base M_event M_ild M_asid M_insn S_x86 S_insn L_ild L_ild2 L_ild6 T_ild L_insn.
Import ListNotations.
Open Scope N_scope.

(** A usable struct pt_insn: any 15 bytes. *)
Definition insn_ok (i : insn) : Prop :=
  length (in_raw i) = 15%nat /\ bytes_ok (in_raw i) /\ in_ip i < 2 ^ 64.

(** The result [i'] describes the text [t] at the address of [i]. *)
Definition describes (mem : memory) (i i' : insn) (x : insn_ext) (t : x86) : Prop :=
  text_at mem (in_mode i) (in_ip i) t /\
  in_ip i' = in_ip i /\ in_mode i' = in_mode i /\ in_speculative i' = in_speculative i /\
  in_size i' = length (render t) /\ firstn (in_size i') (in_raw i') = render t /\
  (in_iclass i', x) = meaning (in_mode i) t.

(** Thirteen prefixes and a REX2 prefix, of which the decoder reads past the end. *)
Definition rex2_hole (mem : memory) (m : exec_mode) (ip : N) : Prop :=
  is64 m = true /\ exists pfx p, length pfx = 13%nat /\
    Forall (fun b => prefix_byte m b = true) pfx /\ bytes_at mem ip (pfx ++ [0xd5; p]).

Section DECODE.
  Context (iread : asid -> N -> nat -> res (N * list N)) (a : asid) (mem : memory).
  Hypothesis Hmem : reads mem (iread a).

  Lemma hole i : knows mem i -> rex2_at_end (in_mode i) (in_raw i) (in_size i) ->
    rex2_hole mem (in_mode i) (in_ip i).
  Proof.
    intros (K1 & K2 & K3 & K4) (H1 & H2 & pfx & p & H3 & H4). split; [exact H1|].
    exists pfx, p. split; [|split; [exact H4|]].
    - rewrite H3, app_length in K1. cbn in K1. lia.
    - rewrite <- H2, firstn_all, H3 in K4. exact K4.
  Qed.

  (** One attempt at the bytes known so far. *)
  Lemma attempt i : knows mem i -> in_mode i <> ptem_unknown ->
    match decode_text i with
    | (i', Ok x) => (exists t, describes mem i i' x t) /\ in_isid i' = in_isid i /\
                    in_truncated i' = in_truncated i
    | (i', Err e) => e = pte_bad_insn /\ i' = i /\
                     forall t, text_at mem (in_mode i) (in_ip i) t -> (in_size i < length (render t))%nat
    | (i', UB u) => u = ub_oob_read /\ in_size i = 15%nat /\ rex2_hole mem (in_mode i) (in_ip i)
    end.
  Proof.
    intros K Hm. pose proof K as (K1 & K2 & K3 & K4). unfold decode_text.
    assert (Ls : (in_size i <= length (in_raw i))%nat) by lia.
    destruct (ild_any (in_mode i) (in_raw i) (in_size i) K2 Ls) as [(_ & [(n & [c x] & E & Ln)|E])|(N & E)].
    - rewrite E. destruct (decode_found mem i n c x K Hm E) as (t & T1 & T2 & T3 & T4 & T5).
      split; [|split; reflexivity]. exists t. repeat split; try apply T1; cbn; auto.
    - rewrite E. split; [reflexivity|]. split; [destruct i; reflexivity|].
      intros t Ht. destruct (Nat.lt_ge_cases (in_size i) (length (render t))) as [L|L]; [exact L|].
      rewrite (decode_known mem i t K Hm Ht L) in E. discriminate E.
    - rewrite E. split; [reflexivity|]. split; [|apply hole; assumption].
      destruct N as (_ & N & _). lia.
  Qed.

  Lemma rex2_no_text i t : knows mem i -> in_mode i <> ptem_unknown -> in_size i = 15%nat ->
    snd (decode_text i) = UB ub_oob_read -> ~ text_at mem (in_mode i) (in_ip i) t.
  Proof.
    intros K Hm H15 E Ht. unfold decode_text in E.
    rewrite (decode_known mem i t K Hm Ht) in E; [|rewrite H15; apply Ht].
    destruct (meaning (in_mode i) t). discriminate E.
  Qed.

  Definition outcome (i : insn) (r : insn * res insn_ext) : Prop :=
    match r with
    | (i', Ok x) => (exists t, describes mem i i' x t)
    | (i', Err e) => e = pte_bad_insn /\ forall t, ~ text_at mem (in_mode i) (in_ip i) t
    | (i', UB u) => u = ub_oob_read /\ rex2_hole mem (in_mode i) (in_ip i) /\
                    forall t, ~ text_at mem (in_mode i) (in_ip i) t
    end.

  Lemma retry_outcome fuel i : knows mem i -> in_mode i <> ptem_unknown ->
    (15 - in_size i < fuel)%nat ->
    (forall t, text_at mem (in_mode i) (in_ip i) t -> (in_size i < length (render t))%nat) ->
    outcome i (pt_insn_decode_retry iread a fuel i) /\
    forall i' x, pt_insn_decode_retry iread a fuel i = (i', Ok x) ->
      in_truncated i' = true /\ in_isid i' = in_isid i.
  Proof.
    revert i. induction fuel as [|fuel IH]; intros i K Hm Hf Hno; [lia|].
    pose proof K as (K1 & K2 & K3 & K4). cbn [pt_insn_decode_retry].
    destruct (Nat.eqb_spec (15 - in_size i) 0) as [Z|Z].
    { split; [|discriminate]. cbn [outcome]. split; [reflexivity|]. intros t Ht.
      specialize (Hno t Ht). destruct Ht as (_ & L & _). lia. }
    assert (P : (0 < 15 - in_size i)%nat) by lia.
    pose proof (Hmem (offset_ip (in_ip i) (in_size i)) _ P) as R. rewrite add64_offset.
    destruct (mem (offset_ip (in_ip i) (in_size i))) as [[b s]|] eqn:Em.
    2:{ rewrite R. split; [|discriminate]. cbn [outcome]. split; [reflexivity|]. intros t Ht.
        pose proof (Hno t Ht) as L. destruct Ht as (_ & _ & Ht).
        assert (Hs : exists c, nth_error (render t) (in_size i) = Some c).
        { destruct (nth_error (render t) (in_size i)) eqn:E; [eauto|].
          apply nth_error_None in E. lia. }
        destruct Hs as (c & Hs). destruct (Ht _ _ Hs) as (s & Hs'). congruence. }
    destruct R as (l & E & (L1 & L2) & Bl & Al). rewrite E.
    destruct l as [|b0 l0] eqn:El; [cbn in L1; lia|]. rewrite <- El in *. clear El b0 l0.
    set (i1 := in_set_text i (put_raw (in_raw i) (in_size i) l) (in_size i + length l)).
    assert (K' : knows mem i1) by (apply knows_more; try assumption; lia).
    pose proof (attempt i1 K' Hm) as A.
    destruct (decode_text i1) as [i2 [x|e|u]] eqn:D.
    - destruct A as ((t & T) & T3 & T2).
      split; [|intros i' x' [= <- <-]; split; [reflexivity|exact T3]]. cbn [outcome]. exists t. exact T.
    - destruct A as (-> & -> & Hn). rewrite Nat.eqb_refl. cbn [negb].
      assert (Hf1 : (15 - in_size i1 < fuel)%nat) by (change (in_size i1) with (in_size i + length l)%nat; lia).
      apply (IH i1 K' Hm Hf1 Hn).
    - destruct A as (-> & H15 & H). split; [|discriminate]. cbn [outcome].
      split; [reflexivity|]. split; [exact H|]. intros t.
      apply (rex2_no_text i1 t K' Hm H15). rewrite D. reflexivity.
  Qed.

  (** C53.  If there is an instruction text in memory, it is found, also if it lies in
      more than one section; what is found is in memory; nothing is found where
      there is none. *)
  Theorem C53_decode i : length (in_raw i) = 15%nat -> bytes_ok (in_raw i) ->
    in_mode i <> ptem_unknown ->
    match mem (in_ip i) with
    | None => pt_insn_decode iread a i = (i, Err pte_nomap)
    | Some _ => outcome i (pt_insn_decode iread a i)
    end /\
    forall i' x, pt_insn_decode iread a i = (i', Ok x) ->
      (exists b, mem (in_ip i) = Some (b, in_isid i')) /\
      (in_truncated i = false ->
       (in_truncated i' = true <->
        exists s l, iread a (in_ip i) 15 = Ok (s, l) /\ (length l < in_size i')%nat)).
  Proof.
    intros I1 I2 Hm. unfold pt_insn_decode.
    pose proof (Hmem (in_ip i) 15%nat ltac:(lia)) as R.
    destruct (mem (in_ip i)) as [[b s]|] eqn:Em.
    2:{ rewrite R. split; [reflexivity|discriminate]. }
    destruct R as (l & E & (L1 & L2) & Bl & Al). rewrite E.
    set (i1 := in_set_text (in_set_isid i s) (put_raw (in_raw i) 0 l) (length l)).
    assert (K : knows mem i1).
    { apply (knows_more mem (in_set_text (in_set_isid i s) (in_raw i) 0) l).
      - split; [exact I1|]. split; [exact I2|]. split; [cbn; lia|]. intros k c Ec.
        cbn in Ec. destruct k; discriminate Ec.
      - cbn [in_ip in_size in_set_text in_set_isid]. intros k c Hk. rewrite offset_ip_add. exact (Al k c Hk).
      - exact Bl.
      - exact L2. }
    pose proof (attempt i1 K Hm) as A.
    assert (Fit : forall s' l', Ok (s, l) = Ok (s', l') -> l' = l) by (intros s' l' [= _ <-]; reflexivity).
    destruct (decode_text i1) as [i2 [x|e|u]] eqn:D.
    - destruct A as ((t & T) & T3 & T2). split; [exists t; exact T|]. intros i' x' [= <- <-].
      split; [exists b; rewrite T3; reflexivity|]. intros Ht. split.
      + rewrite T2. cbn. congruence.
      + intros (s' & l' & E' & L'). apply Fit in E'. subst l'. exfalso.
        unfold decode_text in D. destruct (pt_ild_decode (in_raw i1) (in_size i1) (in_mode i1)) as [n [[c y]|?|?]] eqn:P;
          try discriminate D. injection D as <- <-.
        destruct (decode_found mem i1 n c y K Hm P) as (_ & _ & _ & _ & _ & Ln). cbn in L', Ln. lia.
    - destruct A as (-> & -> & Hn). rewrite Nat.eqb_refl. cbn [negb].
      destruct (retry_outcome 16 i1 K Hm ltac:(lia) Hn) as (O1 & O2).
      split; [exact O1|]. intros i' x E'. destruct (O2 i' x E') as (T1 & T2).
      split; [exists b; rewrite T2; reflexivity|]. intros _. split; [|intros _; exact T1].
      intros _. exists s, l. split; [reflexivity|]. rewrite E' in O1.
      destruct O1 as (t & T & _ & _ & _ & Es & _). rewrite Es. exact (Hn t T).
    - destruct A as (-> & H15 & H). split; [|discriminate].
      split; [reflexivity|]. split; [exact H|]. intros t.
      apply (rex2_no_text i1 t K Hm H15). rewrite D. reflexivity.
  Qed.

  Theorem C53_finds i t : insn_ok i -> in_mode i <> ptem_unknown ->
    text_at mem (in_mode i) (in_ip i) t ->
    exists i' x, pt_insn_decode iread a i = (i', Ok x) /\ describes mem i i' x t.
  Proof.
    intros Hi Hm Ht. destruct (C53_decode i (proj1 Hi) (proj1 (proj2 Hi)) Hm) as (C & _).
    assert (H0 : exists c, nth_error (render t) 0 = Some c).
    { destruct Ht as (W & _). destruct (render t) eqn:E; [|eexists; reflexivity]. exfalso.
      apply (f_equal (@length N)) in E. unfold render in E. rewrite !app_length in E. cbn in E. lia. }
    destruct H0 as (c & Hc). destruct (proj2 (proj2 Ht) _ _ Hc) as (s & Hs).
    rewrite offset_ip_0 in Hs by apply Hi. rewrite Hs in C.
    destruct (pt_insn_decode iread a i) as [i' [x|e|u]].
    - destruct C as (t' & T). exists i', x. split; [reflexivity|].
      pose proof T as (T1 & T2 & T3 & T4 & T5 & T6 & T7).
      assert (U : render t' = render t).
      { destruct (Nat.le_ge_cases (length (render t')) (length (render t))) as [L|L].
        - pose proof (bytes_at_agree mem _ _ _ (proj2 (proj2 T1)) (proj2 (proj2 Ht)) L) as A.
          rewrite <- A in *. destruct (C51_unique (in_mode i) t' t (skipn (length (render t')) (render t)) Hm
            (proj1 T1) (proj1 Ht)) as (N & _).
          + rewrite <- A at 1. symmetry. apply firstn_skipn.
          + rewrite <- (firstn_skipn (length (render t')) (render t)) at 2. rewrite N, app_nil_r. reflexivity.
        - pose proof (bytes_at_agree mem _ _ _ (proj2 (proj2 Ht)) (proj2 (proj2 T1)) L) as A.
          destruct (C51_unique (in_mode i) t t' (skipn (length (render t)) (render t')) Hm
            (proj1 Ht) (proj1 T1)) as (N & _).
          + rewrite <- A at 1. symmetry. apply firstn_skipn.
          + rewrite <- (firstn_skipn (length (render t)) (render t')). rewrite N, app_nil_r. exact A. }
      destruct (C51_unique (in_mode i) t' t [] Hm (proj1 T1) (proj1 Ht)) as (_ & M);
        [rewrite app_nil_r; auto|].
      repeat split; try assumption; try apply Ht; congruence.
    - destruct C as (_ & C). destruct (C t Ht).
    - destruct C as (_ & _ & C). destruct (C t Ht).
  Qed.
End DECODE.

(** C54.  pt_insn_next_ip() answers exactly if the instruction alone decides where
    control goes next. *)
Theorem C54_next i x : in_iclass i <> ptic_unknown ->
  pt_insn_next_ip i x =
  match only_next (in_ip i) (in_size i) (in_iclass i) x with
  | Some ip => Ok ip
  | None => Err pte_bad_query
  end.
Proof.
  intros Hc. unfold pt_insn_next_ip, only_next, ip_after, is_jmpabs.
  assert (D : forall d, add64 (add64 (in_ip i) (N.of_nat (in_size i))) (of_int64 d) =
    Z.to_N ((Z.of_N (in_ip i) + Z.of_nat (in_size i) + d) mod 2 ^ 64)).
  { intros d. unfold add64, of_int64. rewrite N.add_mod_idemp_l by discriminate.
    rewrite <- (N2Z.id (_ mod _)). f_equal. rewrite N2Z.inj_mod, !N2Z.inj_add, Z2N.id.
    - change (Z.of_N (2 ^ 64)) with (2 ^ 64)%Z. rewrite Z.add_mod_idemp_r by discriminate.
      f_equal. lia.
    - apply Z.mod_pos_bound. reflexivity. }
  destruct (in_iclass i); try reflexivity; try congruence; try rewrite D;
    destruct (x_inst x); destruct (x_direct x); reflexivity.
Qed.


(** The classes that instructions have. *)
Definition classes : list class :=
  other :: (ptic_cond_jump, PTI_JCC, true) :: (ptic_jump, PTI_JMPABS, true) ::
  (ptic_other, PTI_MOV_CR3, false) :: (ptic_other, PTI_VMPTRLD, false) ::
  (ptic_ptwrite, PTI_PTWRITE, false) ::
  map snd (one_byte ++ one_byte_near ++ one_byte_far ++ group5 ++ two_byte ++ two_byte_legacy
           ++ group7 ++ eret).

Lemma pick_in op l : pick op l = other \/ In (pick op l) (map snd l).
Proof.
  induction l as [|[k c] l IH]; cbn [pick]; [left; reflexivity|].
  destruct (op =? k); [right; left; reflexivity|]. destruct IH as [H|H]; [left; exact H|].
  right. right. exact H.
Qed.
Lemma incl_pick op l : incl (map snd l) classes -> In (pick op l) classes.
Proof. intros H. destruct (pick_in op l) as [E|E]; [rewrite E; left; reflexivity|apply H, E]. Qed.

Lemma classify_in m t : In (classify m t) classes.
Proof.
  unfold classify.
  repeat match goal with
  | |- In (if ?c then _ else _) _ => destruct c
  | |- In (match ?c with _ => _ end) _ => destruct c
  | |- context [if ?c then [] else _] => destruct c
  | |- In (pick _ _) _ => apply incl_pick; intros c Hc; cbn in Hc; unfold classes; cbn; tauto
  | |- In _ classes => unfold classes; cbn; tauto
  end.
Qed.

Lemma meaning_class m t : fst (meaning m t) <> ptic_unknown.
Proof.
  unfold meaning. pose proof (classify_in m t) as H. destruct (classify m t) as [[c k] d].
  cbn [fst]. intros ->. cbn in H. intuition discriminate.
Qed.

Lemma text_unique mem m ip t t' : m <> ptem_unknown -> text_at mem m ip t -> text_at mem m ip t' ->
  render t = render t' /\ meaning m t = meaning m t'.
Proof.
  intros Hm.
  assert (G : forall t t', (length (render t) <= length (render t'))%nat ->
    text_at mem m ip t -> text_at mem m ip t' -> render t = render t' /\ meaning m t = meaning m t').
  { clear t t'. intros t t' L H H'.
    pose proof (bytes_at_agree mem _ _ _ (proj2 (proj2 H)) (proj2 (proj2 H')) L) as A.
    assert (E : render t' = render t ++ skipn (length (render t)) (render t')).
    { rewrite <- A at 1. symmetry. apply firstn_skipn. }
    destruct (C51_unique m t t' _ Hm (proj1 H) (proj1 H') E) as (N & M).
    split; [|exact M]. rewrite E, N, app_nil_r. reflexivity. }
  intros H H'. destruct (Nat.le_ge_cases (length (render t)) (length (render t'))) as [L|L].
  - apply G; assumption.
  - destruct (G t' t L H' H). split; symmetry; assumption.
Qed.

Lemma only_next_bound ip n c x ip' : only_next ip n c x = Some ip' -> ip' < 2 ^ 64.
Proof.
  assert (B : forall z, Z.to_N (z mod 2 ^ 64) < 2 ^ 64).
  { intros z. pose proof (Z.mod_pos_bound z (2 ^ 64) ltac:(reflexivity)).
    change (2 ^ 64) with (Z.to_N (2 ^ 64)). lia. }
  unfold only_next, offset_ip. intros H.
  destruct c; try discriminate H;
    try (injection H as <-; apply N.mod_lt; discriminate);
    destruct (x_inst x); destruct (x_direct x); try discriminate H; injection H as <-; apply B.
Qed.

Lemma straight_unique mem m ip n ip1 ip2 : m <> ptem_unknown ->
  straight mem m ip n ip1 -> straight mem m ip n ip2 -> ip1 = ip2.
Proof.
  intros Hm H. revert ip2. induction H as [ip|ip t ip1 n ip' Ht Hn H IH]; intros ip2 H2.
  - inversion H2. reflexivity.
  - inversion H2 as [|? t' ip1' ? ? Ht' Hn' H2']; subst.
    destruct (text_unique mem m ip t t' Hm Ht Ht') as (R & M). rewrite <- R, <- M, Hn in Hn'.
    injection Hn' as <-. apply IH, H2'.
Qed.

Section RANGE.
  Context (iread : asid -> N -> nat -> res (N * list N)) (a : asid) (mem : memory).
  Hypothesis Hmem : reads mem (iread a).

  (** Why the walk stops at [ip]. *)
  Definition stuck (m : exec_mode) (ip : N) (e : pte) : Prop :=
    match e with
    | pte_nomap => mem ip = None
    | pte_bad_insn => mem ip <> None /\ forall t, ~ text_at mem m ip t
    | pte_bad_query => exists t, text_at mem m ip t /\
        only_next ip (length (render t)) (fst (meaning m t)) (snd (meaning m t)) = None
    | _ => False
    end.

  Lemma decode_insn_ok i i' x : insn_ok i -> in_mode i <> ptem_unknown ->
    pt_insn_decode iread a i = (i', Ok x) -> length (in_raw i') = 15%nat /\ bytes_ok (in_raw i').
  Proof.
    intros (I1 & I2 & I3) Hm.
    assert (D : forall i0, length (in_raw i0) = 15%nat -> bytes_ok (in_raw i0) ->
      length (in_raw (fst (decode_text i0))) = 15%nat /\ bytes_ok (in_raw (fst (decode_text i0)))).
    { intros i0 A B. unfold decode_text.
      destruct (pt_ild_decode _ _ _) as [n [[c y]|e|u]]; split; assumption. }
    assert (P : forall i0 l pos s, length (in_raw i0) = 15%nat -> bytes_ok (in_raw i0) ->
      bytes_ok l -> (pos + length l <= 15)%nat ->
      length (in_raw (in_set_text i0 (put_raw (in_raw i0) pos l) s)) = 15%nat /\
      bytes_ok (in_raw (in_set_text i0 (put_raw (in_raw i0) pos l) s))).
    { intros i0 l pos s A B C E. cbn. split; [rewrite put_raw_length; lia|apply put_raw_bytes; assumption]. }
    assert (R : forall fuel i0, length (in_raw i0) = 15%nat -> bytes_ok (in_raw i0) ->
      pt_insn_decode_retry iread a fuel i0 = (i', Ok x) ->
      length (in_raw i') = 15%nat /\ bytes_ok (in_raw i')).
    { induction fuel as [|fuel IH]; intros i0 A B; cbn [pt_insn_decode_retry]; [discriminate|].
      destruct (Nat.eqb_spec (15 - in_size i0) 0) as [Z|Z]; [discriminate|].
      assert (Pp : (0 < 15 - in_size i0)%nat) by lia.
      pose proof (Hmem (add64 (in_ip i0) (N.of_nat (in_size i0))) _ Pp) as Q.
      destruct (mem _) as [[b s]|]; [|rewrite Q; discriminate].
      destruct Q as (l & E & L & Bl & _). rewrite E. destruct l as [|b0 l0] eqn:El; [discriminate|].
      rewrite <- El in *. clear El.
      destruct (P i0 l (in_size i0) (in_size i0 + length l)%nat A B Bl ltac:(lia)) as (A1 & B1).
      destruct (D _ A1 B1) as (A2 & B2).
      destruct (decode_text _) as [i2 [y|e|u]]; cbn [fst] in A2, B2; try discriminate.
      - intros [= <- <-]. split; assumption.
      - destruct e; try discriminate. destruct (negb _); [discriminate|]. apply IH; assumption. }
    unfold pt_insn_decode. pose proof (Hmem (in_ip i) 15%nat ltac:(lia)) as Q.
    destruct (mem (in_ip i)) as [[b s]|]; [|rewrite Q; discriminate].
    destruct Q as (l & E & L & Bl & _). rewrite E.
    destruct (P (in_set_isid i s) l 0%nat (length l) I1 I2 Bl ltac:(lia)) as (A1 & B1).
    cbn [in_raw in_set_isid] in A1, B1.
    destruct (D _ A1 B1) as (A2 & B2).
    destruct (decode_text _) as [i2 [y|e|u]]; cbn [fst] in A2, B2; try discriminate.
    - intros [= <- <-]. split; assumption.
    - destruct e; try discriminate. destruct (negb _); [discriminate|]. apply R; assumption.
  Qed.

  Lemma range_outcome end_ steps : forall i m, insn_ok i -> in_mode i = m -> m <> ptem_unknown ->
    match range_loop iread a steps i end_ with
    | Ok true => exists n, (n <= steps)%nat /\ straight mem m (in_ip i) n end_
    | Ok false => (exists ip, straight mem m (in_ip i) steps ip) /\
                  forall n, (n <= steps)%nat -> ~ straight mem m (in_ip i) n end_
    | Err e => exists n ip, (n < steps)%nat /\ straight mem m (in_ip i) n ip /\ stuck m ip e /\
                            forall k, ~ straight mem m (in_ip i) k end_
    | UB u => u = ub_oob_read /\ exists n ip, (n < steps)%nat /\ straight mem m (in_ip i) n ip /\
                                              rex2_hole mem m ip
    end.
  Proof.
    induction steps as [|steps IH]; intros i m Hi Em Hm; cbn [range_loop];
      (destruct (N.eqb_spec (in_ip i) end_) as [E|E];
        [exists 0%nat; split; [lia|]; rewrite E; constructor|]).
    { split; [exists (in_ip i); constructor|]. intros n L H. assert (n = 0%nat) by lia. subst n.
      inversion H. congruence. }
    rewrite <- Em in Hm.
    destruct (C53_decode iread a mem Hmem i (proj1 Hi) (proj1 (proj2 Hi)) Hm) as (C & _).
    pose proof (decode_insn_ok i) as Dok.
    assert (Nostep : (forall t ip, text_at mem m (in_ip i) t ->
        only_next (in_ip i) (length (render t)) (fst (meaning m t)) (snd (meaning m t)) <> Some ip) ->
        forall k, ~ straight mem m (in_ip i) k end_).
    { intros H k S. inversion S as [|? t ip1 ? ? Ht Hn S']; subst; [congruence|]. exact (H t ip1 Ht Hn). }
    destruct (pt_insn_decode iread a i) as [i' [x|e|u]] eqn:Ed.
    2:{ assert (St : stuck m (in_ip i) e /\ forall t, ~ text_at mem m (in_ip i) t).
        { rewrite Em in *. destruct (mem (in_ip i)) as [b|] eqn:Eb.
          - destruct C as (-> & C). rewrite Em in C. split; [split; [congruence|exact C]|exact C].
          - injection C as _ ->. split; [exact Eb|]. intros t (W & _ & Ht).
            assert (L0 : nth_error (render t) 0 <> None).
            { intros N. apply nth_error_None in N. unfold render in N. rewrite !app_length in N.
              cbn in N. lia. }
            destruct (nth_error (render t) 0) as [c|] eqn:E0; [|congruence].
            destruct (Ht _ _ E0) as (s & Hs). rewrite offset_ip_0 in Hs by apply Hi. congruence. }
        exists 0%nat, (in_ip i). split; [lia|]. split; [constructor|]. split; [apply St|].
        apply Nostep. intros t ip Ht. destruct (proj2 St t Ht). }
    2:{ destruct (mem (in_ip i)); [|discriminate C]. destruct C as (-> & H & _). rewrite Em in H.
        split; [reflexivity|]. exists 0%nat, (in_ip i). split; [lia|]. split; [constructor|exact H]. }
    assert (Hx : exists t, describes mem i i' x t).
    { destruct (mem (in_ip i)); [exact C|discriminate C]. }
    destruct Hx as (t & T1 & T2 & T3 & T4 & T5 & T6 & T7). rewrite Em in *.
    assert (Hc : in_iclass i' <> ptic_unknown).
    { replace (in_iclass i') with (fst (meaning m t)) by (rewrite <- T7; reflexivity). apply meaning_class. }
    assert (On : only_next (in_ip i') (in_size i') (in_iclass i') x =
      only_next (in_ip i) (length (render t)) (fst (meaning m t)) (snd (meaning m t))).
    { rewrite T2, T5, <- T7. reflexivity. }
    rewrite (C54_next i' x Hc), On.
    destruct (only_next (in_ip i) _ _ _) as [ip1|] eqn:On1; cbn [bind].
    2:{ exists 0%nat, (in_ip i). split; [lia|]. split; [constructor|].
        split; [exists t; split; [exact T1|exact On1]|]. apply Nostep. intros t' ip Ht'.
        destruct (text_unique mem m _ t t' Hm T1 Ht') as (R & M). rewrite <- R, <- M, On1. discriminate. }
    destruct (Dok i' x Hi) as (D1 & D2); [congruence|reflexivity|].
    assert (Hi1 : insn_ok (in_set_ip i' ip1)).
    { split; [exact D1|]. split; [exact D2|]. exact (only_next_bound _ _ _ _ _ On1). }
    specialize (IH (in_set_ip i' ip1) m Hi1 T3 Hm). cbn [in_ip in_set_ip] in IH.
    assert (Step : forall n ip, straight mem m ip1 n ip -> straight mem m (in_ip i) (S n) ip)
      by (intros n ip S; econstructor; eassumption).
    clear Em T3. assert (Back : forall k, straight mem m (in_ip i) k end_ ->
      exists k', k = S k' /\ straight mem m ip1 k' end_).
    { intros k S. inversion S as [|? t' ip1' k' ? Ht' Hn' S']; subst; [congruence|]. exists k'.
      split; [reflexivity|]. destruct (text_unique mem m _ t t' Hm T1 Ht') as (R & M).
      rewrite <- R, <- M, On1 in Hn'. injection Hn' as <-. exact S'. }
    destruct (range_loop iread a steps (in_set_ip i' ip1) end_) as [[|]|e|u].
    - destruct IH as (n & L & St). exists (S n). split; [lia|]. apply Step, St.
    - destruct IH as ((ip & St) & N). split; [exists ip; apply Step, St|].
      intros n L S'. destruct (Back n S') as (k & -> & S''). apply (N k ltac:(lia) S'').
    - destruct IH as (n & ip & L & St & K & N). exists (S n), ip. split; [lia|]. split; [apply Step, St|].
      split; [exact K|]. intros k S'. destruct (Back k S') as (k' & _ & S''). exact (N k' S'').
    - destruct IH as (-> & n & ip & L & St & K). split; [reflexivity|]. exists (S n), ip.
      split; [lia|]. split; [apply Step, St|exact K].
  Qed.

  (** C54.  The range is contiguous if control goes from its begin to its end in at most
      the given number of steps without any choice. *)
  Theorem C54_range begin end_ m steps : begin < 2 ^ 64 -> m <> ptem_unknown ->
    match pt_insn_range_is_contiguous iread a begin end_ m steps with
    | Ok true => exists n, (n <= steps)%nat /\ straight mem m begin n end_
    | Ok false => (exists ip, straight mem m begin steps ip) /\
                  forall n, (n <= steps)%nat -> ~ straight mem m begin n end_
    | Err e => exists n ip, (n < steps)%nat /\ straight mem m begin n ip /\ stuck m ip e /\
                            forall k, ~ straight mem m begin k end_
    | UB u => u = ub_oob_read /\ exists n ip, (n < steps)%nat /\ straight mem m begin n ip /\
                                              rex2_hole mem m ip
    end.
  Proof.
    intros Hb Hm. apply (range_outcome end_ steps (new_insn begin m false) m); [|reflexivity|exact Hm].
    split; [reflexivity|]. split; [repeat constructor|exact Hb].
  Qed.
End RANGE.

(** An example: a call that lies in two sections, the second of which is patched code. *)
Definition ex_bytes : list N := [0x90; 0xe8; 0x05; 0x00; 0x00; 0x00; 0x74; 0xfe].
Definition ex_mem : memory := fun ip =>
  if (0x1000 <=? ip) && (ip <? 0x1008)
  then Some (nth (N.to_nat (ip - 0x1000)) ex_bytes 0, if ip <? 0x1003 then 1 else 2) else None.
(** Reading stops at the end of the section. *)
Definition ex_read (_ : asid) (ip : N) (n : nat) : res (N * list N) :=
  match ex_mem ip with
  | None => Err pte_nomap
  | Some (_, s) =>
      let last := if s =? 1 then 0x1003 else 0x1008 in
      Ok (s, firstn n (firstn (N.to_nat (last - ip)) (skipn (N.to_nat (ip - 0x1000)) ex_bytes)))
  end.
Lemma ex_reads a : reads ex_mem (ex_read a).
Proof.
  intros ip n Hn. unfold ex_read. destruct (ex_mem ip) as [[b s]|] eqn:E; [|reflexivity].
  assert (R : exists k, (k < 8)%nat /\ ip = 0x1000 + N.of_nat k).
  { unfold ex_mem in E. destruct ((0x1000 <=? ip) && (ip <? 0x1008)) eqn:C; [|discriminate E].
    exists (N.to_nat (ip - 0x1000)). lia. }
  destruct R as (k & Lk & ->). eexists. split; [reflexivity|].
  assert (B : forall l, bytes_ok l -> bytes_ok (firstn n l)) by (intros; apply Forall_firstn; assumption).
  assert (A : forall l : list N, (1 <= length l)%nat -> (1 <= length (firstn n l) <= n)%nat)
    by (intros; rewrite firstn_length; lia).
  assert (F : forall l, bytes_at ex_mem (0x1000 + N.of_nat k) l ->
    bytes_at ex_mem (0x1000 + N.of_nat k) (firstn n l)) by (intros; apply bytes_at_firstn; assumption).
  do 8 (destruct k as [|k]; [vm_compute in E; injection E as <- <-; vm_compute N.to_nat; cbn [skipn ex_bytes];
    (split; [apply A; cbn; lia|]); (split; [apply B; repeat constructor|]); apply F;
    intros j c Hj; do 8 (destruct j as [|j]; [vm_compute in Hj; try discriminate Hj; injection Hj as <-;
      vm_compute; eexists; reflexivity|]); destruct j; discriminate Hj|]).
  lia.
Qed.
Definition ex_insn (ip : N) : insn := new_insn ip ptem_64bit false.
Example C53_ex : insn_ok (ex_insn 0x1001) /\
  text_at ex_mem ptem_64bit 0x1001 (mk_x86 [] Legacy 0 0xe8 [] [] [5; 0; 0; 0] []) /\
  let (i, r) := pt_insn_decode ex_read pt_asid_init (ex_insn 0x1001) in
  r = Ok (mk_iext PTI_CALL_E8 5 true) /\ in_size i = 5%nat /\ in_isid i = 1 /\ in_truncated i = true.
Proof.
  split; [split; [reflexivity|]; split; [repeat constructor|reflexivity]|]. split; [|vm_compute; auto].
  split; [wf|]. split; [cbn; lia|]. intros k b E.
  do 5 (destruct k as [|k]; [vm_compute in E; injection E as <-; vm_compute; eexists; reflexivity|]).
  destruct k; discriminate E.
Qed.
Example C54_ex : pt_insn_range_is_contiguous ex_read pt_asid_init 0x1000 0x100b ptem_64bit 2 = Ok true /\
  pt_insn_range_is_contiguous ex_read pt_asid_init 0x1000 0x1006 ptem_64bit 1 = Ok false /\
  pt_insn_range_is_contiguous ex_read pt_asid_init 0x1000 0x2000 ptem_64bit 9 = Err pte_nomap /\
  pt_insn_range_is_contiguous ex_read pt_asid_init 0x1006 0x1008 ptem_64bit 9 = Err pte_bad_query.
Proof. vm_compute. auto. Qed.

Print Assumptions C53_decode.
Print Assumptions C53_finds.
Print Assumptions C54_next.
Print Assumptions C54_range.
