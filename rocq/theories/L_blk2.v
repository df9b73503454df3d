(** Lemmas on the block decoder: instructions. *)

From Coq Require Import List NArith ZArith Bool PeanoNat Lia.
From Verif Require Import Base M_config M_time M_pktdec M_event M_evdec M_query M_retstack M_asid M_ildtab M_ild
  M_insn M_insndec M_blk L_calm S_core S_evdec S_x86 S_insn S_query S_flow S_drive S_blk L_core L_evdec L_evsafe L_evnext
  L_insn T_ild T_insn L_query L_query2 T_evdec T_evtrace L_flow L_flow2 L_flow3 L_blk.
Import ListNotations.
Open Scope N_scope.

Lemma meaning_call m t : fst (meaning m t) = ptic_call -> x_inst (snd (meaning m t)) <> PTI_JMPABS.
Proof.
  unfold meaning. pose proof (classify_in m t) as H. destruct (classify m t) as [[c k] d].
  cbn [fst snd x_inst] in *. intros ->. cbn in H.
  repeat (destruct H as [H|H]; [try discriminate H; injection H as <- <-; discriminate|]). destruct H.
Qed.

(** What an instruction alone says about the next one. *)
Lemma next_site f t i x : site_of_insn i x = site_of f t ->
  match pt_insn_next_ip i x with
  | Ok ip => branches (site_of f t) = false /\
      only_next (f_ip f) (length (render t)) (fst (meaning (f_mode f) t)) (snd (meaning (f_mode f) t)) = Some ip /\
      forall l fs, completes (site_of f t) l fs ip l fs
  | Err e => e = pte_bad_query /\ branches (site_of f t) = true
  | UB _ => False
  end.
Proof.
  intros E. pose proof (meaning_class (f_mode f) t) as Hc. pose proof (meaning_call (f_mode f) t) as Hj.
  unfold site_of_insn, site_of in *. injection E as E1 E2 E3 E4.
  rewrite C54_next by congruence. rewrite E1, E2, E3, E4. unfold only_next, branches, direct.
  cbn [si_class si_ext si_ip si_len].
  destruct (fst (meaning (f_mode f) t)) eqn:Ec; try congruence; auto.
  - split; [reflexivity|]. split; [reflexivity|]. intros l fs. apply complete_other. auto.
  - specialize (Hj eq_refl).
    destruct (x_direct (snd (meaning (f_mode f) t))) eqn:Ed.
    + assert (D : match x_inst (snd (meaning (f_mode f) t)) with PTI_JMPABS => false | _ => true end = true)
        by (destruct (x_inst (snd (meaning (f_mode f) t))); try reflexivity; congruence).
      rewrite D. split; [reflexivity|]. split; [reflexivity|]. intros l fs.
      apply complete_direct; [auto|]. unfold direct. cbn. rewrite Ed. exact D.
    + split; [reflexivity|]. destruct (x_inst _); reflexivity.
  - destruct (x_direct (snd (meaning (f_mode f) t))) eqn:Ed; destruct (x_inst (snd (meaning (f_mode f) t))) eqn:Ei;
      try (split; [reflexivity|reflexivity]);
      (split; [reflexivity|]; split; [reflexivity|]; intros l fs; apply complete_direct; [auto|];
       unfold direct; cbn; rewrite Ei, Ed; reflexivity).
  - split; [reflexivity|]. split; [reflexivity|]. intros l fs. apply complete_other. auto.
Qed.

(** The instruction as the user reconstructs it. *)
Definition as_seen (i : insn) (isid : N) (spec : bool) : insn :=
  mk_insn (in_ip i) isid (in_mode i) (in_iclass i) (in_raw i) (in_size i) spec (in_truncated i).

Section BLOCKS.
  Context {S C : Type} (im : blk_image S C) (mem : asid -> memory) (cached : C -> asid -> Prop).
  Context (content : N -> N -> option N) (at_ : asid -> N -> option place) (mode_of : N -> exec_mode).
  Hypothesis shows : blocks_show im mem cached content at_ mode_of.

  (** ** Decoding *)

  Definition decoded (f : flow) (r : insn * res insn_ext) : Prop :=
    match r with
    | (i, Ok x) => exists t, insn_of mem f t (as_seen i (in_isid i) (f_spec f)) /\
        site_of_insn i x = site_of f t /\
        forall p, at_ (f_asid f) (f_ip f) = Some p -> in_truncated i = false ->
          N.of_nat (length (render t)) <= pl_left p
    | (i, Err e) => e <> pte_eos /\ forall t i', ~ insn_of mem f t i'
    | (i, UB u) => u = ub_oob_read /\ rex2_hole (mem (f_asid f)) (f_mode f) (f_ip f)
    end.

  Lemma decode_ok f : f_mode f <> ptem_unknown ->
    decoded f (pt_insn_decode (im_read (bi_image im)) (f_asid f) (new_insn (f_ip f) (f_mode f) false)).
  Proof.
    intros Hm. set (i0 := new_insn (f_ip f) (f_mode f) false).
    assert (I1 : length (in_raw i0) = 15%nat) by reflexivity.
    assert (I2 : bytes_ok (in_raw i0)) by (repeat constructor).
    pose proof (bl_image _ _ _ _ _ _ shows) as Im.
    pose proof (whole_ok (bi_image im) mem cached Im (in_tx f false) i0 I1 I2 eq_refl eq_refl eq_refl eq_refl) as W.
    pose proof (C53_decode (im_read (bi_image im)) (f_asid f) (mem (f_asid f))
      (is_read _ _ _ Im (f_asid f)) i0 I1 I2 Hm) as (_ & D).
    change (f_asid (in_tx f false)) with (f_asid f) in W.
    destruct (pt_insn_decode _ (f_asid f) i0) as [i [x|e|u]]; unfold fetched, decoded in *.
    - destruct W as (_ & _ & W). destruct (W Hm) as (t & Ht & Es). exists t.
      split; [|split; [exact Es|]].
      + destruct Ht as (H1 & H2 & H3 & H4 & H5 & H6 & H7 & H8).
        unfold insn_of. cbn. repeat split; try assumption; apply H1.
      + intros p Hp Htr. destruct (D i x eq_refl) as (_ & D2). destruct (D2 eq_refl) as (_ & D3).
        destruct Ht as (H1 & _ & _ & _ & H5 & _ & _ & (bb & H8)).
        pose proof (is_read _ _ _ Im (f_asid f) (f_ip f) 15%nat ltac:(lia)) as R.
        cbn [f_asid f_ip in_tx] in H8. rewrite H8 in R. destruct R as (l & R & _).
        pose proof (bl_read _ _ _ _ _ _ shows _ _ _ _ _ _ Hp R) as L.
        destruct (Nat.lt_ge_cases (length l) (in_size i)) as [L2|L2].
        * exfalso. assert (T : in_truncated i = true) by (apply D3; eexists _, _; split; [exact R|exact L2]). congruence.
        * rewrite H5 in L2. clear - L L2. lia.
    - destruct W as ((W1 & _) & W2). split; [exact W1|]. intros t i' Hi. apply (W2 Hm t (as_seen i' (in_isid i') false)).
      destruct Hi as (H1 & H2 & H3 & H4 & H5 & H6 & H7 & H8). unfold insn_of. cbn. repeat split; try assumption; apply H1.
    - destruct W as ((_ & W1 & W2) & _). split; assumption.
  Qed.

  (** ** Sections *)

  (** A mapped section that may be used in an address space. *)
  Record opened (a : asid) (isid : N) (s : S) : Prop := {
    op_end : bi_end im s <= 2 ^ 64;
    op_size : bi_offset im s + (bi_end im s - bi_begin im s) < 2 ^ 63;
    op_all : forall ip', window im s ip' ->
      at_ a ip' = Some (mk_place (bi_key im s) (pt_msec_unmap im s ip') (bi_end im s - ip')) /\
      (exists b, content (bi_key im s) (pt_msec_unmap im s ip') = Some b /\ mem a ip' = Some (b, isid)) /\
      (exists l, im_sread (bi_image im) s ip' 15 = Ok l /\ (1 <= length l <= 15)%nat /\
                 bytes_ok l /\ bytes_at (mem a) ip' l /\
                 length l = Nat.min 15 (N.to_nat (bi_end im s - ip'))) }.

  Lemma lookup_opened c a ip c' isid s : cached c a ->
    im_lookup (bi_image im) c a ip = (c', Ok (isid, s)) -> opened a isid s /\ window im s ip.
  Proof.
    intros Hc E. destruct (bl_window _ _ _ _ _ _ shows _ _ _ _ _ _ Hc E) as (H1 & H2 & H3 & H4).
    split; [constructor; assumption|exact H1].
  Qed.

  Lemma unmap_val a isid s ip : opened a isid s -> window im s ip ->
    pt_msec_unmap im s ip = bi_offset im s + (ip - bi_begin im s).
  Proof.
    intros [E1 E2 _] (W1 & W2). unfold pt_msec_unmap, add64, sub64.
    change (2 ^ 64) with 18446744073709551616 in *. change (2 ^ 63) with 9223372036854775808 in *.
    rewrite (N.mod_small (bi_begin im s)) by (clear - W1 W2 E1; lia).
    replace (ip + (18446744073709551616 - bi_begin im s)) with ((ip - bi_begin im s) + 1 * 18446744073709551616)
      by (clear - W1 W2 E1; lia).
    rewrite N.mod_add by discriminate. rewrite (N.mod_small (ip - bi_begin im s)) by (clear - W1 W2 E1; lia).
    rewrite N.mod_small by (clear - W1 W2 E1 E2; lia). apply N.add_comm.
  Qed.

  Lemma offset_small ip k : ip + N.of_nat k < 2 ^ 64 -> offset_ip ip k = ip + N.of_nat k.
  Proof. intros H. apply N.mod_small. exact H. Qed.

  (** Content and memory show the same instructions. *)
  Lemma text_content a isid s m ip t : opened a isid s -> window im s ip -> text_at (mem a) m ip t ->
    N.of_nat (length (render t)) <= bi_end im s - ip ->
    section_text content m (bi_key im s) (pt_msec_unmap im s ip) t.
  Proof.
    intros Ho Hw (T1 & T2 & T3) L. split; [exact T1|]. split; [exact T2|]. intros j b Hj.
    assert (Lj : (j < length (render t))%nat) by (apply nth_error_Some; congruence).
    pose proof (op_end _ _ _ Ho) as He. pose proof Hw as (W1 & W2).
    assert (Hb : ip + N.of_nat j < bi_end im s) by (clear - L Lj W2; lia).
    assert (Wj : window im s (ip + N.of_nat j)) by (split; [clear - W1; lia|exact Hb]).
    destruct (T3 j b Hj) as (sid & Hm). rewrite offset_small in Hm by (clear - Hb He; lia).
    destruct (op_all _ _ _ Ho _ Wj) as (_ & (b' & Hb1 & Hb2) & _). rewrite Hm in Hb2. injection Hb2 as <- _.
    rewrite (unmap_val _ _ _ _ Ho Wj) in Hb1. rewrite (unmap_val _ _ _ _ Ho Hw).
    rewrite <- Hb1. f_equal. clear - W1. lia.
  Qed.
  Lemma content_text a isid s m ip t : opened a isid s -> window im s ip ->
    section_text content m (bi_key im s) (pt_msec_unmap im s ip) t ->
    N.of_nat (length (render t)) <= bi_end im s - ip -> text_at (mem a) m ip t.
  Proof.
    intros Ho Hw (T1 & T2 & T3) L. split; [exact T1|]. split; [exact T2|]. intros j b Hj.
    assert (Lj : (j < length (render t))%nat) by (apply nth_error_Some; congruence).
    pose proof (op_end _ _ _ Ho) as He. pose proof Hw as (W1 & W2).
    assert (Hb : ip + N.of_nat j < bi_end im s) by (clear - L Lj W2; lia).
    assert (Wj : window im s (ip + N.of_nat j)) by (split; [clear - W1; lia|exact Hb]).
    exists isid. rewrite offset_small by (clear - Hb He; lia).
    destruct (op_all _ _ _ Ho _ Wj) as (_ & (b' & Hb1 & Hb2) & _). rewrite Hb2. f_equal. f_equal.
    specialize (T3 j b Hj). rewrite (unmap_val _ _ _ _ Ho Wj) in Hb1. rewrite (unmap_val _ _ _ _ Ho Hw) in T3.
    replace (bi_offset im s + (ip - bi_begin im s) + N.of_nat j)
      with (bi_offset im s + (ip + N.of_nat j - bi_begin im s)) in T3 by (clear - W1; lia).
    congruence.
  Qed.

  (** Decoding in a section. *)
  Lemma section_decode a isid s ip m : opened a isid s -> window im s ip -> m <> ptem_unknown ->
    match pt_blk_decode_in_section im (new_insn ip m false) s with
    | (i, Ok x) => in_mode i = m /\ in_ip i = ip /\ in_truncated i = false /\
        exists t, text_at (mem a) m ip t /\ in_size i = length (render t) /\
          firstn (in_size i) (in_raw i) = render t /\ (in_iclass i, x) = meaning m t
    | (i, Err e) => e = pte_bad_insn /\
        forall t, text_at (mem a) m ip t -> bi_end im s - ip < N.of_nat (length (render t))
    | (i, UB u) => u = ub_oob_read /\ rex2_hole (mem a) m ip /\ forall t, ~ text_at (mem a) m ip t
    end.
  Proof.
    intros Ho Hw Hm. unfold pt_blk_decode_in_section. cbn [in_ip new_insn].
    destruct (op_all _ _ _ Ho _ Hw) as (_ & _ & l & -> & L & Bl & Al & Len).
    set (i0 := new_insn ip m false).
    assert (K : knows (mem a) (in_set_text (in_set_isid i0 0) (put_raw (in_raw i0) 0 l) (length l))).
    { apply (knows_more (mem a) (in_set_text (in_set_isid i0 0) (in_raw i0) 0) l).
      - split; [reflexivity|]. split; [repeat constructor|]. split; [cbn; clear; lia|]. intros k c Ec.
        cbn in Ec. destruct k; discriminate Ec.
      - cbn [in_ip in_size in_set_text in_set_isid]. intros k c Hk. rewrite offset_ip_add. exact (Al k c Hk).
      - exact Bl.
      - apply L. }
    change (in_set_text i0 (put_raw (in_raw i0) 0 l) (length l))
      with (in_set_text (in_set_isid i0 0) (put_raw (in_raw i0) 0 l) (length l)).
    set (i1 := in_set_text _ _ _) in *. pose proof (attempt (mem a) i1 K Hm) as A.
    destruct (decode_text i1) as [i [x|e|u]] eqn:D.
    - destruct A as ((t & T1 & T2 & T3 & T4 & T5 & T6 & T7) & _ & Tt). change (in_mode i1) with m in *. change (in_ip i1) with ip in *.
      split; [congruence|]. split; [congruence|]. split; [exact Tt|].
      exists t. auto.
    - destruct A as (-> & _ & A). split; [reflexivity|]. intros t Ht. specialize (A t Ht).
      change (in_size i1) with (length l) in A. pose proof (proj1 (proj2 Ht)) as L15. clear - A Len L15. lia.
    - destruct A as (-> & H15 & A). split; [reflexivity|]. split; [exact A|]. intros t.
      apply (rex2_no_text (mem a) i1 t K Hm H15). rewrite D. reflexivity.
  Qed.

End BLOCKS.
