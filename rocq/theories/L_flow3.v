(** Lemmas on the instruction flow decoder: decoding the next instruction. *)

From Coq Require Import List NArith ZArith Bool PeanoNat Lia ZifyBool ZifyNat ZifyN.
From Verif Require Import Base M_config M_time M_pktdec M_event M_evdec M_query M_retstack M_asid M_ildtab M_ild
  M_insn M_insndec S_core S_evdec S_x86 S_insn S_query S_flow S_drive L_core L_evdec L_evsafe L_evnext
  L_ild L_ild2 L_ild6 T_ild L_insn T_insn
  L_query L_query2 T_evdec T_evtrace L_flow L_flow2.
Import ListNotations.
Open Scope N_scope.

(** Decoding in any mode. *)
Definition weak (mem : memory) (i : insn) (r : insn * res insn_ext) : Prop :=
  match r with
  | (i', Ok _) => in_mode i' = in_mode i /\ in_iclass i' <> ptic_unknown
  | (i', Err e) => e <> pte_eos /\ in_iclass i' = in_iclass i
  | (i', UB u) => in_iclass i' = in_iclass i /\ u = ub_oob_read /\ rex2_hole mem (in_mode i) (in_ip i)
  end.

Lemma ild_class i c x : pt_instruction_decode i = Ok (c, x) -> c <> ptic_unknown.
Proof.
  unfold pt_instruction_decode.
  repeat match goal with
         | |- context [if ?b then _ else _] => destruct b
         end; intros H;
  match type of H with
  | bind (set_branch_target ?k i) _ = _ => destruct (set_branch_target k i); cbn [bind] in H
  | _ => idtac
  end; try discriminate H; injection H as <- <-; discriminate.
Qed.

Lemma decode_text_weak mem i : knows mem i -> weak mem i (decode_text i) /\
  forall i' e, decode_text i = (i', Err e) -> i' = i /\ e = pte_bad_insn.
Proof.
  intros K. pose proof K as (K1 & K2 & K3 & K4). unfold decode_text.
  assert (Ls : (in_size i <= length (in_raw i))%nat) by lia.
  destruct (ild_any (in_mode i) (in_raw i) (in_size i) K2 Ls) as [(_ & [(n & [c x] & E & Ln)|E])|(N & E)].
  - rewrite E. split; [|discriminate]. split; [reflexivity|]. cbn [in_iclass in_set_iclass in_set_text].
    unfold pt_ild_decode in E. destruct (decode _) as [[i1 n1]|e|u]; try discriminate E.
    injection E as _ E. eapply ild_class. exact E.
  - rewrite E. split; [split; [discriminate|reflexivity]|]. intros i' e [= <- <-]. split; [destruct i; reflexivity|reflexivity].
  - rewrite E. split; [|discriminate]. split; [reflexivity|]. split; [reflexivity|]. apply (hole mem); assumption.
Qed.

Section DECODE.
  Context (iread : asid -> N -> nat -> res (N * list N)) (a : asid) (mem : memory).
  Hypothesis Hmem : reads mem (iread a).

  Lemma retry_weak fuel i : knows mem i -> (15 - in_size i < fuel)%nat ->
    weak mem i (pt_insn_decode_retry iread a fuel i).
  Proof.
    revert i. induction fuel as [|fuel IH]; intros i K Hf; [lia|].
    pose proof K as (K1 & K2 & K3 & K4). cbn [pt_insn_decode_retry].
    destruct (Nat.eqb_spec (15 - in_size i) 0) as [Z|Z]; [split; [discriminate|reflexivity]|].
    assert (P : (0 < 15 - in_size i)%nat) by lia.
    pose proof (Hmem (offset_ip (in_ip i) (in_size i)) _ P) as R. rewrite add64_offset.
    destruct (mem (offset_ip (in_ip i) (in_size i))) as [[b s]|] eqn:Em.
    2:{ rewrite R. split; [discriminate|reflexivity]. }
    destruct R as (l & E & (L1 & L2) & Bl & Al). rewrite E.
    destruct l as [|b0 l0] eqn:El; [cbn in L1; lia|]. rewrite <- El in *. clear El b0 l0.
    set (i1 := in_set_text i (put_raw (in_raw i) (in_size i) l) (in_size i + length l)).
    assert (K' : knows mem i1) by (apply knows_more; try assumption; lia).
    destruct (decode_text_weak mem i1 K') as (W & W2).
    destruct (decode_text i1) as [i2 [x|e|u]] eqn:D; [exact W| |exact W].
    destruct (W2 _ _ eq_refl) as (-> & ->). rewrite Nat.eqb_refl. cbn [negb].
    apply (IH i1 K'). change (in_size i1) with (in_size i + length l)%nat. lia.
  Qed.

  Lemma decode_weak i : length (in_raw i) = 15%nat -> bytes_ok (in_raw i) ->
    weak mem i (pt_insn_decode iread a i).
  Proof.
    intros I1 I2. unfold pt_insn_decode.
    pose proof (Hmem (in_ip i) 15%nat ltac:(lia)) as R.
    destruct (mem (in_ip i)) as [[b s]|] eqn:Em.
    2:{ rewrite R. split; [discriminate|reflexivity]. }
    destruct R as (l & E & (L1 & L2) & Bl & Al). rewrite E.
    set (i1 := in_set_text (in_set_isid i s) (put_raw (in_raw i) 0 l) (length l)).
    assert (K : knows mem i1).
    { apply (knows_more mem (in_set_text (in_set_isid i s) (in_raw i) 0) l).
      - split; [exact I1|]. split; [exact I2|]. split; [cbn; lia|]. intros k c Ec.
        cbn in Ec. destruct k; discriminate Ec.
      - cbn [in_ip in_size in_set_text in_set_isid]. intros k c Hk. rewrite offset_ip_add. exact (Al k c Hk).
      - exact Bl.
      - exact L2. }
    destruct (decode_text_weak mem i1 K) as (W & W2).
    destruct (decode_text i1) as [i2 [x|e|u]] eqn:D; [exact W| |exact W].
    destruct (W2 _ _ eq_refl) as (-> & ->). rewrite Nat.eqb_refl. cbn [negb].
    apply (retry_weak 16 i1 K). lia.
  Qed.
End DECODE.

Section FLOW.
  Context {S C : Type} (im : image_if S C) (mem : asid -> memory) (cached : C -> asid -> Prop).
  Hypothesis shows : image_shows im mem cached.
  Notation dec := (insndec C).

  Lemma firstn_knows m i isid l : length (in_raw i) = 15%nat -> bytes_ok (in_raw i) -> bytes_ok l ->
    (length l <= 15)%nat -> bytes_at m (in_ip i) l ->
    knows m (in_set_text (in_set_isid i isid) (put_raw (in_raw i) 0 l) (length l)).
  Proof.
    intros I1 I2 Bl Ll Al. apply (knows_more m (in_set_text (in_set_isid i isid) (in_raw i) 0) l).
    - split; [exact I1|]. split; [exact I2|]. split; [cbn; lia|]. intros k c Ec.
      cbn in Ec. destruct k; discriminate Ec.
    - cbn [in_ip in_size in_set_text in_set_isid]. intros k c Hk. rewrite offset_ip_add. exact (Al k c Hk).
    - exact Bl.
    - exact Ll.
  Qed.

  (** The instruction at the flow's address. *)
  Definition fetched (f : flow) (r : insn * res insn_ext) : Prop :=
    match r with
    | (i, Ok x) => in_mode i = f_mode f /\ in_iclass i <> ptic_unknown /\
        (f_mode f <> ptem_unknown -> exists t, insn_of mem f t i /\ site_of_insn i x = site_of f t)
    | (i, Err e) => (e <> pte_eos /\ in_iclass i = ptic_unknown) /\
        (f_mode f <> ptem_unknown -> forall t i', ~ insn_of mem f t i')
    | (i, UB u) => (in_iclass i = ptic_unknown /\ u = ub_oob_read /\
        rex2_hole (mem (f_asid f)) (f_mode f) (f_ip f)) /\
        (f_mode f <> ptem_unknown -> forall t i', ~ insn_of mem f t i')
    end.

  Lemma whole_ok f i : length (in_raw i) = 15%nat -> bytes_ok (in_raw i) -> in_ip i = f_ip f ->
    in_mode i = f_mode f -> in_speculative i = f_spec f -> in_iclass i = ptic_unknown ->
    fetched f (pt_insn_decode (im_read im) (f_asid f) i).
  Proof.
    intros I1 I2 I3 I4 I5 I6. pose proof (is_read im mem cached shows (f_asid f)) as Hr.
    pose proof (decode_weak (im_read im) (f_asid f) (mem (f_asid f)) Hr i I1 I2) as W.
    destruct (pt_insn_decode (im_read im) (f_asid f) i) as [i' [x|e|u]] eqn:E; unfold weak, fetched in *.
    - destruct W as (W & Wc). split; [congruence|]. split; [exact Wc|]. intros Hm.
      pose proof (C53_decode (im_read im) (f_asid f) (mem (f_asid f)) Hr i I1 I2) as (D1 & D2);
        [rewrite I4; exact Hm|].
      rewrite E in D1, D2. destruct (D2 i' x eq_refl) as ((b & Hb) & _).
      rewrite Hb in D1. destruct D1 as (t & T1 & T2 & T3 & T4 & T5 & T6 & T7).
      exists t. rewrite I3, I4 in *. split.
      + unfold insn_of. repeat split; try assumption; try apply T1; try congruence.
        * rewrite <- T7. reflexivity.
        * exists b. exact Hb.
      + unfold site_of_insn, site_of. rewrite <- T7, T2, T5. reflexivity.
    - destruct W as (W1 & W2). split; [split; [exact W1|congruence]|]. intros Hm t j Hj.
      pose proof (C53_decode (im_read im) (f_asid f) (mem (f_asid f)) Hr i I1 I2) as (D1 & _);
        [rewrite I4; exact Hm|].
      destruct Hj as (J1 & _ & _ & _ & _ & _ & _ & b & J2).
      rewrite I3, J2, E in D1. destruct D1 as (_ & D1). rewrite I3, I4 in D1. exact (D1 t J1).
    - rewrite I3, I4, I6 in W. split; [exact W|]. intros Hm t j Hj.
      pose proof (C53_decode (im_read im) (f_asid f) (mem (f_asid f)) Hr i I1 I2) as (D1 & _);
        [rewrite I4; exact Hm|].
      destruct Hj as (J1 & _ & _ & _ & _ & _ & _ & b & J2).
      rewrite I3, J2, E in D1. destruct D1 as (_ & _ & D1). rewrite I3, I4 in D1. exact (D1 t J1).
  Qed.

  Lemma cached_ok d f msec i : id_asid d = f_asid f ->
    in_ip i = f_ip f -> in_mode i = f_mode f -> in_speculative i = f_spec f ->
    in_iclass i = ptic_unknown -> length (in_raw i) = 15%nat -> bytes_ok (in_raw i) ->
    match msec with
    | Some s => (exists b, mem (f_asid f) (f_ip f) = Some (b, in_isid i)) /\
        exists l, im_sread im s (f_ip f) 15 = Ok l /\ (1 <= length l <= 15)%nat /\ bytes_ok l /\
                  bytes_at (mem (f_asid f)) (f_ip f) l
    | None => True
    end ->
    fetched f (pt_insn_decode_cached im d msec i).
  Proof.
    intros Ha I3 I4 I5 I6 I1 I2 Hs. unfold pt_insn_decode_cached. rewrite Ha.
    destruct msec as [s|]; [|apply whole_ok; assumption].
    destruct Hs as ((b & Hb) & l & El & Ll & Bl & Al). rewrite I3, El.
    set (i1 := in_set_text i (put_raw (in_raw i) 0 l) (length l)).
    assert (K : knows (mem (f_asid f)) i1).
    { rewrite <- I3 in Al. pose proof (firstn_knows _ i (in_isid i) l I1 I2 Bl ltac:(lia) Al) as K. exact K. }
    destruct (decode_text_weak (mem (f_asid f)) i1 K) as (W & W2).
    pose proof (attempt (mem (f_asid f)) i1 K) as A.
    destruct (decode_text i1) as [i2 [x|e|u]] eqn:D; unfold weak, fetched in *.
    - destruct W as (W & Wc). split; [rewrite W; exact I4|]. split; [exact Wc|]. intros Hm. destruct A as ((t & T1 & T2 & T3 & T4 & T5 & T6 & T7) & A2 & _).
      { change (in_mode i1) with (in_mode i). rewrite I4. exact Hm. }
      change (in_mode i1) with (in_mode i) in *. change (in_ip i1) with (in_ip i) in *.
      change (in_speculative i1) with (in_speculative i) in *. change (in_isid i1) with (in_isid i) in *.
      rewrite I3, I4 in *.
      exists t. split.
      + unfold insn_of. repeat split; try assumption; try apply T1; try congruence.
        * rewrite <- T7. reflexivity.
        * exists b. rewrite A2. exact Hb.
      + unfold site_of_insn, site_of. rewrite <- T7, T2, T5. reflexivity.
    - destruct (W2 _ _ eq_refl) as (-> & ->). apply whole_ok; try assumption.
      + apply K.
      + apply K.
    - change (in_mode i1) with (in_mode i) in W. change (in_ip i1) with (in_ip i) in W.
      change (in_iclass i1) with (in_iclass i) in W. rewrite I3, I4, I6 in W. split; [exact W|].
      intros Hm t j (J1 & _). change (in_mode i1) with (in_mode i) in A. rewrite I4 in A.
      destruct (A Hm) as (A1 & A2 & _).
      apply (rex2_no_text (mem (f_asid f)) i1 t K); try assumption.
      + change (in_mode i1) with (in_mode i). rewrite I4. exact Hm.
      + rewrite D, A1. reflexivity.
      + change (in_mode i1) with (in_mode i). change (in_ip i1) with (in_ip i). rewrite I3, I4. exact J1.
  Qed.
End FLOW.
