(** Lemmas on the block decoder: instructions in sections, and chains of them. *)

From Coq Require Import List NArith ZArith Bool PeanoNat Lia.
From Verif Require Import Base M_config M_time M_pktdec M_event M_evdec M_query M_retstack M_asid M_ildtab M_ild
  M_insn M_insndec M_blk L_calm S_core S_evdec S_x86 S_insn S_query S_flow S_drive S_blk L_core L_evdec L_evsafe L_evnext
  L_insn T_ild T_insn L_query L_query2 T_evdec T_evtrace L_flow L_flow2 L_flow3 L_blk L_blk2 L_blk3.
Import ListNotations.
Open Scope N_scope.

(** ** Displacements *)

Lemma signed_bound l : bytes_ok l -> (signed_le l < 128 * 256 ^ Z.of_nat (length l - 1))%Z.
Proof.
  induction l as [|b l IH]; intros H; [reflexivity|]. inversion H as [|? ? Hb Hl]; subst. unfold byte_ok in Hb.
  specialize (IH Hl). destruct l as [|c l].
  - change (signed_le [b] < 128)%Z. unfold signed_le. destruct (N.ltb_spec b 128) as [L|L]; clear - Hb L; lia.
  - change (signed_le (b :: c :: l)) with (Z.of_N b + 256 * signed_le (c :: l))%Z.
    cbn [length] in *. replace (Datatypes.S (Datatypes.S (length l)) - 1)%nat with (Datatypes.S (Datatypes.S (length l) - 1)) by lia.
    rewrite Nat2Z.inj_succ, Z.pow_succ_r by lia.
    generalize dependent (256 ^ Z.of_nat (Datatypes.S (length l) - 1))%Z. intros p IH. clear - IH Hb. lia.
Qed.

Lemma disp_size_8 f mb sb : (disp_size f mb sb <= 8)%nat.
Proof.
  assert (A : (addrsize f <= 8)%nat) by (unfold addrsize; destruct (S_x86.f_mode f), (f_asz f); cbn; lia).
  assert (Z8 : (width_z f <= 8)%nat) by (unfold width_z; destruct (opsize16 f); lia).
  assert (B8 : (width_branch f <= 8)%nat) by (unfold width_branch; destruct (is64 _); lia).
  unfold disp_size. destruct (_ =? 0)%nat.
  - unfold opc_disp. destruct (f_kind f), (f_map f) as [|[|]]; try lia;
      repeat match goal with |- context [if ?b then _ else _] => destruct b end; lia.
  - unfold mem_disp. destruct (modrm_of f); try lia;
      repeat match goal with |- context [if ?b then _ else _] => destruct b end; lia.
Qed.

Lemma disp_bound m t : x86_wf m t -> (x_disp (snd (meaning m t)) < 2 ^ 63)%Z.
Proof.
  intros (_ & _ & _ & _ & L & _ & B). unfold meaning. destruct (classify m t) as [[c k] [|]]; [|reflexivity].
  cbn [snd x_disp]. assert (Bd : bytes_ok (x_dsp t)).
  { unfold render, bytes_ok in *. rewrite !Forall_app in B. tauto. }
  pose proof (signed_bound _ Bd) as S1. pose proof (disp_size_8 (form_of m t) (hd 0 (x_modrm t)) (hd 0 (x_sib t))) as L8.
  rewrite <- L in L8. clear - S1 L8.
  assert (P : (256 ^ Z.of_nat (length (x_dsp t) - 1) <= 256 ^ 7)%Z) by (apply Z.pow_le_mono_r; lia).
  change (256 ^ 7)%Z with 72057594037927936%Z in P. change (2 ^ 63)%Z with 9223372036854775808%Z. lia.
Qed.

Section BLOCKS.
  Context {S C : Type} (im : blk_image S C) (mem : asid -> memory) (cached : C -> asid -> Prop).
  Context (content : N -> N -> option N) (at_ : asid -> N -> option place) (mode_of : N -> exec_mode) (err : pte).
  Hypothesis shows : blocks_show im mem cached content at_ mode_of.
  Notation opened := (opened im mem content at_).
  Notation window := (window im).
  Notation unmap := (pt_msec_unmap im).
  Notation bflows := (bflows mem err).

  Lemma render_pos t : (1 <= length (render t))%nat.
  Proof. unfold render. rewrite !app_length. cbn [length]. lia. Qed.

  Lemma chain_up m k o n o' : chain content m k o n o' -> o + N.of_nat n <= o'.
  Proof.
    induction 1 as [o|o t o1 n o' Ht Hc Eo Ch IH|o t o1 n o' Ht Hc Hj Hd Hp Eo Ch IH]; [lia| |];
      pose proof (render_pos t) as R; clear - Eo IH R; lia.
  Qed.

  (** An instruction that leads forwards in a section does so in memory. *)
  Lemma forward a isid s m ip t ip' o1 : opened a isid s -> window s ip -> window s ip' ->
    section_text content m (bi_key im s) (unmap s ip) t ->
    (fst (meaning m t) = ptic_other \/ fst (meaning m t) = ptic_ptwrite) /\
      o1 = unmap s ip + N.of_nat (length (render t)) \/
    fst (meaning m t) = ptic_jump /\ x_inst (snd (meaning m t)) <> PTI_JMPABS /\
      x_direct (snd (meaning m t)) = true /\ (0 <= x_disp (snd (meaning m t)))%Z /\
      o1 = unmap s ip + N.of_nat (length (render t)) + Z.to_N (x_disp (snd (meaning m t))) ->
    o1 <= unmap s ip' ->
    text_at (mem a) m ip t /\
    exists ip1, window s ip1 /\ unmap s ip1 = o1 /\ ip1 <= ip' /\
      only_next ip (length (render t)) (fst (meaning m t)) (snd (meaning m t)) = Some ip1.
  Proof.
    intros Ho Hw Hw' Ht Hc Hle. pose proof (op_end _ _ _ _ _ _ _ Ho) as He. pose proof (op_size _ _ _ _ _ _ _ Ho) as Hz.
    rewrite (unmap_val im mem content at_ _ _ _ _ Ho Hw) in *. rewrite (unmap_val im mem content at_ _ _ _ _ Ho Hw') in Hle.
    pose proof Hw as (W1 & W2). pose proof Hw' as (W3 & W4).
    change (2 ^ 64) with 18446744073709551616 in *.
    assert (Len : ip + N.of_nat (length (render t)) <= ip').
    { destruct Hc as [(_ & ->)|(_ & _ & _ & _ & ->)]; clear - Hle W1 W3; lia. }
    split.
    { eapply (content_text im mem content at_ a isid s); [exact Ho|exact Hw| |clear - Len W4; lia].
      rewrite (unmap_val im mem content at_ _ _ _ _ Ho Hw). exact Ht. }
    assert (W5 : window s (bi_begin im s + (o1 - bi_offset im s))).
    { destruct Hc as [(_ & ->)|(_ & _ & _ & _ & ->)]; split; clear - Hle W1 W3 W2 W4; lia. }
    assert (Lo : bi_offset im s + (ip - bi_begin im s) <= o1).
    { destruct Hc as [(_ & ->)|(_ & _ & _ & _ & ->)]; clear; lia. }
    exists (bi_begin im s + (o1 - bi_offset im s)). split; [exact W5|].
    split; [rewrite (unmap_val im mem content at_ _ _ _ _ Ho W5); clear - Lo; lia|].
    split; [clear - Hle W3; lia|]. destruct W5 as (_ & W5).
    destruct Hc as [(Hc & E)|(Hc & Hj & Hd & Hpos & E)].
    - assert (R : offset_ip ip (length (render t)) = bi_begin im s + (o1 - bi_offset im s)).
      { rewrite offset_small; [clear - E W1; lia|].
        change (2 ^ 64) with 18446744073709551616. clear - Len W4 He. lia. }
      unfold only_next. destruct Hc as [-> | ->]; rewrite R; reflexivity.
    - unfold only_next. rewrite Hc, Hd.
      assert (R : Z.to_N ((Z.of_N ip + Z.of_nat (length (render t)) + x_disp (snd (meaning m t))) mod 2 ^ 64) =
                  bi_begin im s + (o1 - bi_offset im s)).
      { change (2 ^ 64)%Z with 18446744073709551616%Z. rewrite Z.mod_small; clear - E W1 W5 Hpos He; lia. }
      rewrite R. destruct (x_inst _); try reflexivity. congruence.
  Qed.

  (** The instruction at an address as the user reconstructs it. *)
  Definition insn_at (f : flow) (isid : N) (t : x86) : insn :=
    mk_insn (f_ip f) isid (f_mode f) (fst (meaning (f_mode f) t)) (render t) (length (render t)) (f_spec f) false.
  Lemma insn_at_ok f isid t c : text_at (mem (f_asid f)) (f_mode f) (f_ip f) t ->
    mem (f_asid f) (f_ip f) = Some (c, isid) -> insn_of mem f t (insn_at f isid t).
  Proof.
    intros H1 H2. unfold insn_of. cbn. rewrite firstn_all. do 7 (split; [try exact H1; reflexivity|]). eauto.
  Qed.

  Lemma only_next_completes f t ip1 :
    only_next (f_ip f) (length (render t)) (fst (meaning (f_mode f) t)) (snd (meaning (f_mode f) t)) = Some ip1 ->
    branches (site_of f t) = false /\ forall l fs, completes (site_of f t) l fs ip1 l fs.
  Proof.
    intros H. pose proof (next_site f t (insn_at f 0 t) (snd (meaning (f_mode f) t))) as N.
    rewrite C54_next in N by (cbn; apply meaning_class). cbn [in_ip in_size in_iclass insn_at] in N.
    rewrite H in N. destruct N as (N1 & _ & N3); [|split; assumption].
    reflexivity.
  Qed.

  (** Executing a chain. *)
  Lemma chain_flow a isid s m ip' fs : opened a isid s -> window s ip' ->
    (forall now, quiet err now None fs) ->
    forall o n o', chain content m (bi_key im s) o n o' -> o' = unmap s ip' ->
    forall f, window s (f_ip f) -> o = unmap s (f_ip f) -> f_on f = true -> f_cur f = None ->
      f_mode f = m -> f_asid f = a ->
    exists is, length is = n /\
      bflows (mk_fstate f None fs) (map O_insn is) (mk_fstate (go f ip') None fs) /\
      Forall (fun i => in_isid i = isid /\ in_mode i = m /\ in_speculative i = f_spec f) is /\
      straight (mem a) m (f_ip f) n ip' /\
      forall l i, is = l ++ [i] -> straight (mem a) m (f_ip f) (length l) (in_ip i).
  Proof.
    intros Ho Hw' Hq.
    assert (Step : forall o t o1 n o', o' = unmap s ip' -> chain content m (bi_key im s) o1 n o' ->
      section_text content m (bi_key im s) o t ->
      (fst (meaning m t) = ptic_other \/ fst (meaning m t) = ptic_ptwrite) /\
        o1 = o + N.of_nat (length (render t)) \/
      fst (meaning m t) = ptic_jump /\ x_inst (snd (meaning m t)) <> PTI_JMPABS /\
        x_direct (snd (meaning m t)) = true /\ (0 <= x_disp (snd (meaning m t)))%Z /\
        o1 = o + N.of_nat (length (render t)) + Z.to_N (x_disp (snd (meaning m t))) ->
      (forall f, window s (f_ip f) -> o1 = unmap s (f_ip f) -> f_on f = true -> f_cur f = None ->
        f_mode f = m -> f_asid f = a ->
        exists is, length is = n /\
          bflows (mk_fstate f None fs) (map O_insn is) (mk_fstate (go f ip') None fs) /\
          Forall (fun i => in_isid i = isid /\ in_mode i = m /\ in_speculative i = f_spec f) is /\
          straight (mem a) m (f_ip f) n ip' /\
          forall l i, is = l ++ [i] -> straight (mem a) m (f_ip f) (length l) (in_ip i)) ->
      forall f, window s (f_ip f) -> o = unmap s (f_ip f) -> f_on f = true -> f_cur f = None ->
        f_mode f = m -> f_asid f = a ->
        exists is, length is = Datatypes.S n /\
          bflows (mk_fstate f None fs) (map O_insn is) (mk_fstate (go f ip') None fs) /\
          Forall (fun i => in_isid i = isid /\ in_mode i = m /\ in_speculative i = f_spec f) is /\
          straight (mem a) m (f_ip f) (Datatypes.S n) ip' /\
          forall l i, is = l ++ [i] -> straight (mem a) m (f_ip f) (length l) (in_ip i)).
    { intros o t o1 n o' Eo' Ch Ht Hk IH f Hw Eo On Cur Em Ea. subst o.
      assert (Le : o1 <= unmap s ip') by (rewrite <- Eo'; apply chain_up in Ch; clear - Ch; lia).
      destruct (forward a isid s m (f_ip f) t ip' o1 Ho Hw Hw' Ht Hk Le) as (Tx & ip1 & Wi & Ui & _ & Nx).
      destruct (op_all _ _ _ _ _ _ _ Ho _ Hw) as (_ & (c & _ & Mc) & _).
      destruct (IH (go f ip1)) as (is & L & Fl & Fa & Str & Last); try assumption; [symmetry; exact Ui|].
      cbn [f_ip go f_spec] in *.
      assert (Io : insn_of mem f t (insn_at f isid t)) by (apply (insn_at_ok f isid t c); rewrite ?Ea, ?Em; assumption).
      assert (Nc : only_next (f_ip f) (length (render t)) (fst (meaning (f_mode f) t)) (snd (meaning (f_mode f) t)) = Some ip1)
        by (rewrite Em; exact Nx).
      destruct (only_next_completes f t ip1 Nc) as (Br & Cm).
      assert (Ncall : is_call (fst (meaning (f_mode f) t)) = false).
      { rewrite Em. destruct Hk as [([-> | ->] & _)|(-> & _)]; reflexivity. }
      exists (insn_at f isid t :: is). split; [cbn; rewrite L; reflexivity|].
      split; [|split; [|split]].
      - cbn [map]. change (O_insn (insn_at f isid t) :: map O_insn is) with ([O_insn (insn_at f isid t)] ++ map O_insn is).
        econstructor.
        + apply bs_insn; [|exact Io]. split; [exact On|]. split; [exact Cur|]. apply Hq.
        + change (map O_insn is) with ([] ++ map O_insn is). econstructor.
          * eapply bs_leave; [exact On|reflexivity|apply Hq|left; exact Br|apply Cm].
          * unfold called. cbn [si_class site_of]. rewrite Ncall.
            replace (at_site _ None) with (go f ip1); [exact Fl|].
            destruct f; cbn in *. subst. reflexivity.
      - constructor; [|exact Fa]. cbn. auto.
      - econstructor; [exact Tx|exact Nx|exact Str].
      - intros l i E. destruct l as [|i0 l].
        + destruct is; [|discriminate E]. injection E as <-. constructor.
        + injection E as <- E. cbn [length]. econstructor; [exact Tx|exact Nx|apply Last; exact E]. }
    induction 1 as [o|o t o1 n o' Ht Hc Eo Ch IH|o t o1 n o' Ht Hc Hj Hd Hp Eo Ch IH]; intros Eo'.
    - intros f Hw Eo On Cur Em Ea. exists []. rewrite Eo in Eo'.
      assert (Eip : ip' = f_ip f).
      { rewrite (unmap_val im mem content at_ _ _ _ _ Ho Hw), (unmap_val im mem content at_ _ _ _ _ Ho Hw') in Eo'.
        destruct Hw as (Hw & _). destruct Hw' as (Hw' & _). clear - Eo' Hw Hw'. lia. }
      split; [reflexivity|]. split; [|split; [constructor|split; [rewrite Eip; constructor|]]].
      + rewrite Eip. replace (go f (f_ip f)) with f by (destruct f; reflexivity). constructor.
      + intros l i E. destruct l; discriminate E.
    - eapply Step; [exact Eo'|exact Ch|exact Ht| |apply IH; exact Eo']. left. auto.
    - eapply Step; [exact Eo'|exact Ch|exact Ht| |apply IH; exact Eo']. right. auto.
  Qed.

End BLOCKS.
