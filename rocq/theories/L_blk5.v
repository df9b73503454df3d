(** Lemmas on the block decoder: proceeding without events. *)

From Coq Require Import List NArith ZArith Bool PeanoNat Lia.
From Verif Require Import Base M_config M_time M_pktdec M_event M_evdec M_query M_retstack M_asid M_ildtab M_ild
  M_insn M_insndec M_blk L_calm S_core S_evdec S_x86 S_insn S_query S_flow S_drive S_blk L_core L_evdec L_evsafe L_evnext
  L_insn T_ild T_insn L_query L_query2 T_evdec T_evtrace L_flow L_flow2 L_flow3 L_blk L_blk2 L_blk3 L_blk4.
Import ListNotations.
Open Scope N_scope.

Section FRAME.
  Context {C : Type}.
  Notation dec := (blkdec C).
  Notation caches_of m := (fun d b => bd_caches (fst (fst (m (d, b)))) = bd_caches d).

  Lemma fetch_caches (d : dec) b : bd_caches (fst (fst (pt_blk_fetch_event (d, b)))) = bd_caches d.
  Proof.
    unfold pt_blk_fetch_event, bind, state, change, lift, fail. cbn [fst].
    destruct (bd_event d) as [ev|]; [|reflexivity]. cbn [fst].
    pose proof (anchor_ok (bd_set_time d (ev_has_tsc ev) (ev_tsc ev) (ev_lost_mtc ev) (ev_lost_cyc ev)) ev) as A.
    destruct (pt_blk_find_trig_anchor _ ev) as [d1|e|u]; [|reflexivity|reflexivity].
    destruct A as (bb & [->| ->]); destruct (pt_evt_next _) as [q [e|e|u]]; reflexivity.
  Qed.
  Lemma tick_caches ip (d : dec) b : bd_caches (fst (fst (pt_blk_tick ip (d, b)))) = bd_caches d.
  Proof.
    unfold pt_blk_tick, bind at 1, state at 1. cbn [fst].
    destruct (bd_event d); [destruct (_ && _); [reflexivity|]|]; apply fetch_caches.
  Qed.
  Lemma indirect_caches (d : dec) b : bd_caches (fst (fst (pt_blk_proceed_indirect (d, b)))) = bd_caches d.
  Proof.
    unfold pt_blk_proceed_indirect, bind at 1, state at 1. cbn [fst].
    destruct (bd_event d) as [ev|] eqn:E; [|reflexivity]. destruct (ev_var ev); try reflexivity.
    - destruct (ev_ip_suppressed ev); [reflexivity|]. unfold bind at 1, change at 1. rewrite tick_caches. reflexivity.
    - destruct (pt_evt_next _) as [q [e|e|u]]; try reflexivity. destruct (ev_var e); reflexivity.
  Qed.
  Lemma cond_caches (d : dec) b : bd_caches (fst (fst (pt_blk_cond_branch (d, b)))) = bd_caches d.
  Proof.
    unfold pt_blk_cond_branch, bind, state. cbn [fst]. destruct (bd_event d) as [ev|]; [|reflexivity].
    destruct (ev_var ev); try reflexivity. destruct (_ =? 0); reflexivity.
  Qed.
  Lemma trace_caches i x (d : dec) b : bd_caches (fst (fst (pt_blk_proceed_with_trace i x (d, b)))) = bd_caches d.
  Proof.
    unfold pt_blk_proceed_with_trace. destruct (in_iclass i); try reflexivity; try apply indirect_caches.
    - destruct (x_direct x); [reflexivity|apply indirect_caches].
    - unfold bind at 1. pose proof (cond_caches d b) as E. destruct (pt_blk_cond_branch (d, b)) as [[d1 b1] [[[|]|]|e|u]];
        cbn [fst] in *; try exact E; [|rewrite indirect_caches; exact E].
      unfold bind, state. cbn [fst]. destruct (pt_retstack_pop _) as [r [p|e|u]]; cbn; exact E.
    - destruct (_ && _); [reflexivity|apply indirect_caches].
    - unfold bind at 1. pose proof (cond_caches d b) as E. destruct (pt_blk_cond_branch (d, b)) as [[d1 b1] [[[|]|]|e|u]];
        cbn [fst] in *; exact E.
  Qed.
End FRAME.

Section BLOCKS.
  Context (cf : config) (buf : list N) (base : nat) (err : pte).
  Hypothesis sized : callback_sized cf.
  Hypothesis freq : (cf_mtc_freq cf < 24)%N.
  Hypothesis small : (N.of_nat (length buf) + 1 < 2 ^ 31)%N.
  Hypothesis bytes : bytes_ok buf.
  Context {S C : Type} (im : blk_image S C) (mem : asid -> memory) (cached : C -> asid -> Prop).
  Context (content : N -> N -> option N) (at_ : asid -> N -> option place) (mode_of : N -> exec_mode).
  Hypothesis shows : blocks_show im mem cached content at_ mode_of.
  Notation dec := (blkdec C).
  Notation agrees := (agrees cached content mode_of).
  Notation rest := (rest cf buf base err).
  Notation bflows := (bflows mem err).
  Notation strange := (strange content at_ mode_of err).
  Notation sane := (sane mem content at_ mode_of err).
  Notation walking := (walking cf buf base err mem cached content mode_of).
  Context (ex : pte -> Prop).
  Hypothesis ex_ovf : ex pte_overflow.
  Hypothesis ex_lookup : forall c a ip e, cached c a -> snd (im_lookup (bi_image im) c a ip) = Err e ->
    e <> pte_nomap -> ex e.
  Hypothesis ex_alloc : forall k e, snd (bi_alloc im k) = Err e -> ex e.
  Notation gives_up := (gives_up mem err ex).
  Notation errs := (errs err mem cached content mode_of ex).
  Notation ubs := (ubs err mem).
  Notation stopped := (stopped cf buf base err mem cached content at_ mode_of).
  Notation halted := (halted cf buf base err mem cached content mode_of).
  Notation opened := (opened im mem content at_).
  Notation window := (window im).
  Notation unmap := (pt_msec_unmap im).

  (** The block is complete. *)
  Record ended_ (s0 : fstate) (d : dec) (b : block) (is : list insn) (s : fstate) : Prop := {
    e_flow : bflows s0 (map O_insn is) s;
    e_agree : agrees d (fs_flow s);
    e_ip : bd_ip d = f_ip (fs_flow s);
    e_rest : rest d (fs_held s) (fs_facts s);
    e_on : f_on (fs_flow s) = true;
    e_cur : f_cur (fs_flow s) = None;
    e_exp : expands (mem (f_asid (fs_flow s0))) b is;
    e_some : is <> [];
    e_unk : b_iclass b = ptic_unknown -> 65280 < b_ninsn b }.
  Definition ended s0 d b : Prop := exists is s, ended_ s0 d b is s.

  Lemma walking_d s0 d b is s d' : walking s0 d b is s -> still d d' -> agrees d' (fs_flow s) ->
    bd_ip d' = bd_ip d -> walking s0 d' b is s.
  Proof.
    intros W St A E. destruct W. constructor; try assumption.
    - congruence.
    - eapply still_rest; eassumption.
    - eapply still_full; eassumption.
    - destruct St as (_ & X & _). rewrite X. exact w_live.
  Qed.
  Lemma ended_d s0 d b d' : ended s0 d b -> still d d' -> (forall f, agrees d f -> agrees d' f) ->
    bd_ip d' = bd_ip d -> ended s0 d' b.
  Proof.
    intros (is & s & H) St A E. exists is, s. destruct H. constructor; try assumption.
    - apply A. assumption.
    - congruence.
    - eapply still_rest; eassumption.
  Qed.
  Lemma halted_ended s0 d b h fs : halted s0 d b h fs -> ended s0 d b.
  Proof.
    intros (is & f & W & Hc & Hn & Hu). exists is, (mk_fstate f h fs). destruct W. constructor; assumption.
  Qed.

  (** Completing the block with the trace. *)
  Lemma trace_end s0 d b is f t i x h fs : walking s0 d b is (mk_fstate (stop_at f t) h fs) -> is <> [] ->
    site_of_insn i x = site_of f t -> h = None -> pt_insn_next_ip i x = Err pte_bad_query ->
    post (pt_blk_proceed_with_trace i x (d, b))
      (fun d' b' _ => keeps d d' /\ bd_caches d' = bd_caches d /\ ended s0 d' b') (errs s0) (ubs s0).
  Proof.
    intros W Hn Es Hh Hnx. pose proof (trace_caches i x d b) as Ec. pose proof (ca_trace i x d b) as Sc.
    pose proof (trace_ok cf buf base err sized freq small bytes mem cached content mode_of ex d b (stop_at f t) h fs i x []
      (w_agree _ _ _ _ _ _ _ _ _ _ _ _ _ W) (w_rest _ _ _ _ _ _ _ _ _ _ _ _ _ W) (w_full _ _ _ _ _ _ _ _ _ _ _ _ _ W)
      (w_on _ _ _ _ _ _ _ _ _ _ _ _ _ W)) as T.
    assert (Hc : f_cur (stop_at f t) = Some (site_of_insn i x, [])) by (rewrite Es; reflexivity).
    specialize (T Hc ltac:(intros e E; congruence) Hnx). destruct (pt_blk_proceed_with_trace i x (d, b)) as [[d1 b1] [u|e|u]]; cbn [post fst] in *.
    - destruct T as (-> & K & -> & _ & l & h' & fs' & A & R & F). split; [exact K|]. split; [exact Ec|].
      eexists is, (mk_fstate _ h' fs'). destruct W. constructor; cbn [fs_flow fs_held fs_facts].
      + rewrite <- (app_nil_r (map O_insn is)). eapply bflows_app; [exact w_flow|exact F].
      + exact A.
      + reflexivity.
      + exact R.
      + exact w_on.
      + reflexivity.
      + exact w_exp.
      + exact Hn.
      + intros X. apply w_unk in X. destruct X as (X & _). discriminate X.
    - destruct T as (-> & He & G). eapply walk_err; [exact W|exact Sc|assumption..].
    - destruct T.
  Qed.

  (** Walking without a block cache. *)
  Lemma uncached_ok s0 d b is f fs : sane s0 -> walking s0 d b is (mk_fstate f None fs) -> f_cur f = None ->
    post (pt_blk_proceed_no_event_uncached im (d, b))
      (fun d' b' _ => keeps d d' /\ bd_caches d' = bd_caches d /\ ended s0 d' b') (errs s0) (ubs s0).
  Proof.
    intros Hs W Hc. unfold pt_blk_proceed_no_event_uncached, pt_blk_proceed_to_insn.
    eapply post_bind; [apply post_blk; eapply to_insn_ok; [exact shows|exact ex_ovf|exact Hs|exact W|exact Hc|discriminate|discriminate|unfold room; lia]|].
    intros d1 b1 w ((K & St & Ec) & H). destruct w as [|[[i x]|]|i x].
    - split; [exact K|]. split; [exact Ec|]. eapply halted_ended. exact H.
    - destruct H as (H & _). discriminate H.
    - destruct H.
    - destruct H as (_ & Hnx & is' & f' & t & i' & (l & El) & A & W'). eapply post_mono; [eapply trace_end; [exact W'| |apply A|reflexivity|exact Hnx]| |auto|auto].
      + rewrite El. destruct l; discriminate.
      + intros d2 b2 [] (K2 & Ec2 & E). split; [eapply keeps_trans; eassumption|]. split; [congruence|exact E].
  Qed.

  (** One more instruction in the block. *)
  Lemma add_insn s0 d b is f h fs t i' d' b' : walking s0 d b is (mk_fstate f h fs) -> executing err (mk_fstate f h fs) ->
    insn_of mem f t i' -> b_ninsn b' = b_ninsn b + 1 -> b_ninsn b' < 65536 -> b_ip b' = b_ip b -> b_mode b' = b_mode b ->
    b_speculative b' = b_speculative b -> b_isid b' = b_isid b -> in_isid i' = b_isid b -> b_end_ip b' = f_ip f ->
    class_of_block b' (in_iclass i') -> b_iclass b' <> ptic_unknown ->
    (b_truncated b' = true -> b_size b' = in_size i' /\ firstn (b_size b') (b_raw b') = firstn (in_size i') (in_raw i')) ->
    still d d' -> agrees d' (calls f (called (site_of f t) (f_calls f))) -> bd_ip d' = bd_ip d ->
    walking s0 d' b' (is ++ [i']) (mk_fstate (stop_at f t) h fs).
  Proof.
    intros W Ex Hi En Sz Eip Em Esp Eis Ei Ee Cl Kn Tr St A Ed. pose proof Ex as (_ & Hcur & _). cbn [fs_flow] in Hcur.
    destruct W. cbn [fs_flow fs_held fs_facts] in *.
    constructor; cbn [fs_flow fs_held fs_facts].
    - rewrite map_app. eapply bflows_app; [exact w_flow|]. apply bflows_one. apply bs_insn; assumption.
    - apply agrees_at, A.
    - rewrite Ed, w_ip. reflexivity.
    - eapply still_rest; eassumption.
    - eapply still_full; eassumption.
    - destruct St as (_ & X & _). rewrite X. exact w_live.
    - exact w_on.
    - destruct w_exp as [X1 X2 X3]. constructor.
      + rewrite En, X1, app_length. cbn [length]. clear. lia.
      + rewrite Eis, Em, Esp. apply Forall_app. split; [exact X2|]. constructor; [|constructor].
        split; [exact Ei|]. destruct Hi as (_ & _ & Hi3 & Hi4 & _). split; congruence.
      + intros l i E. apply app_inj_tail in E. destruct E as (<- & <-). rewrite Em, Eip. split; [|split].
        * rewrite Hcur in w_at. destruct Hi as (_ & Hi2 & _). rewrite Hi2. exact w_at.
        * intros _. split; [|exact Cl]. destruct Hi as (_ & Hi2 & _). congruence.
        * exact Tr.
    - exact w_asid.
    - rewrite Em. exact w_mode.
    - rewrite Esp. exact w_spec.
    - exact Sz.
    - intros X. destruct is; discriminate X.
    - cbn. auto.
    - intros X. congruence.
  Qed.

  (** Many more instructions. *)
  Lemma walk_chain s0 d b is f fs s isid n nip bv d' : walking s0 d b is (mk_fstate f None fs) -> f_cur f = None ->
    b_truncated b = false -> opened (f_asid f) isid s -> window s (f_ip f) -> window s nip -> isid = b_isid b ->
    chain content (f_mode f) (bi_key im s) (unmap s (f_ip f)) n (unmap s nip) ->
    b_ninsn bv = b_ninsn b + N.of_nat n -> b_ninsn bv < 65536 -> b_ip bv = b_ip b -> b_mode bv = b_mode b ->
    b_speculative bv = b_speculative b -> b_isid bv = b_isid b -> b_truncated bv = false -> b_iclass bv = ptic_unknown ->
    still d d' -> agrees d' f -> bd_ip d' = nip ->
    exists is', length is' = n /\ walking s0 d' bv (is ++ is') (mk_fstate (go f nip) None fs).
  Proof.
    intros W Hcur Htr Ho Hw Hw' Eis Ch En Sz Eip Em Esp Ei Tr Cl St A Ed.
    assert (Q : forall now, quiet err now None fs).
    { intros now. apply (rest_quiet cf buf base err now d); [apply W|apply W|apply W|discriminate]. }
    destruct (chain_flow im mem content at_ err (f_asid f) isid s (f_mode f) nip fs Ho Hw' Q _ _ _ Ch eq_refl f Hw eq_refl
      (w_on _ _ _ _ _ _ _ _ _ _ _ _ _ W) Hcur eq_refl eq_refl) as (is' & L & Fl & Fa & Str & Last).
    exists is'. split; [exact L|]. destruct (op_all _ _ _ _ _ _ _ Ho _ Hw') as (_ & (c & _ & Mc) & _).
    destruct W. cbn [fs_flow fs_held fs_facts] in *. rewrite Hcur in w_at.
    constructor; cbn [fs_flow fs_held fs_facts].
    - rewrite map_app. eapply bflows_app; eassumption.
    - apply agrees_go, A.
    - exact Ed.
    - eapply still_rest; eassumption.
    - eapply still_full; eassumption.
    - destruct St as (_ & X & _). rewrite X. exact w_live.
    - exact w_on.
    - destruct w_exp as [X1 X2 X3]. constructor.
      + rewrite En, X1, app_length, L. clear. lia.
      + rewrite Ei, Em, Esp. apply Forall_app. split; [exact X2|]. eapply Forall_impl; [|exact Fa]. cbn.
        intros i (H1 & H2 & H3). split; [congruence|]. split; congruence.
      + rewrite Em, Eip, Tr, Cl. intros l i E. split; [|split; [congruence|discriminate]].
        destruct is' as [|i0 is0] using rev_ind.
        * rewrite app_nil_r in E. apply (X3 _ _ E).
        * rewrite app_assoc in E. apply app_inj_tail in E. destruct E as (<- & <-). rewrite app_length.
          eapply straight_app; [exact w_at|]. rewrite w_mode, <- w_asid. apply Last. reflexivity.
    - exact w_asid.
    - rewrite Em. exact w_mode.
    - rewrite Esp. exact w_spec.
    - exact Sz.
    - intros _. exact Tr.
    - cbn [f_cur go f_ip]. rewrite Hcur, Em, Eip, app_length, L. eapply straight_app; [exact w_at|].
      rewrite w_mode, <- w_asid. exact Str.
    - intros _. cbn [f_cur go f_ip f_asid]. split; [exact Hcur|]. split; [exact Tr|]. right. exists c. congruence.
  Qed.

  (** Code is executed in the section's mode. *)
  Lemma mode_right s0 d b is f h fs s isid : sane s0 -> walking s0 d b is (mk_fstate f h fs) ->
    executing err (mk_fstate f h fs) -> opened (f_asid f) isid s -> window s (f_ip f) ->
    f_mode f = mode_of (bi_key im s) /\ f_mode f <> ptem_unknown.
  Proof.
    intros Hs W Ex Ho Hw. pose proof (Hs _ _ (w_flow _ _ _ _ _ _ _ _ _ _ _ _ _ W)) as Ns. split.
    - assert (D : {f_mode f = mode_of (bi_key im s)} + {f_mode f <> mode_of (bi_key im s)}) by decide equality.
      destruct D as [D|D]; [exact D|]. exfalso. apply Ns.
      destruct (op_all _ _ _ _ _ _ _ Ho _ Hw) as (P & _).
      eapply strange_modes; [exact Ex|exact P|exact D].
    - intros D. apply Ns. apply strange_mode; assumption.
  Qed.
  (** It is not cut off. *)
  Lemma not_split s0 d b is f h fs s isid t : sane s0 -> walking s0 d b is (mk_fstate f h fs) ->
    executing err (mk_fstate f h fs) -> opened (f_asid f) isid s -> window s (f_ip f) ->
    section_text content (f_mode f) (bi_key im s) (unmap s (f_ip f)) t ->
    N.of_nat (length (render t)) <= bi_end im s - f_ip f.
  Proof.
    intros Hs W Ex Ho Hw Ht. pose proof (Hs _ _ (w_flow _ _ _ _ _ _ _ _ _ _ _ _ _ W)) as Ns.
    destruct (N.le_gt_cases (N.of_nat (length (render t))) (bi_end im s - f_ip f)) as [L|L]; [exact L|].
    exfalso. apply Ns. destruct (op_all _ _ _ _ _ _ _ Ho _ Hw) as (P & _).
    eapply strange_split; [exact Ex|exact P|exact Ht|exact L].
  Qed.
  Lemma calm s0 d b is f fs : walking s0 d b is (mk_fstate f None fs) -> f_cur f = None ->
    executing err (mk_fstate f None fs).
  Proof. intros W Hc. eapply walk_exec; [exact W|exact Hc|discriminate]. Qed.

  (** ** Block caches *)

  Lemma near_ip a isid s ip z : opened a isid s -> window s ip -> (0 <= z < 2 ^ 15)%Z ->
    window s (add64 ip (of_int64 z)) -> add64 ip (of_int64 z) = ip + Z.to_N z.
  Proof.
    intros Ho Hw Hz Hw'. pose proof (op_end _ _ _ _ _ _ _ Ho) as He. pose proof (op_size _ _ _ _ _ _ _ Ho) as Hs.
    destruct Hw as (W1 & W2). destruct Hw' as (W3 & W4). unfold add64, of_int64 in *.
    change (2 ^ 64)%Z with 18446744073709551616%Z in *. change (2 ^ 15)%Z with 32768%Z in *.
    change (2 ^ 64) with 18446744073709551616 in *. change (2 ^ 63) with 9223372036854775808 in *.
    rewrite Z.mod_small in * by (clear - Hz; lia).
    destruct (N.lt_ge_cases (ip + Z.to_N z) 18446744073709551616) as [L|L]; [apply N.mod_small; exact L|]. exfalso.
    replace (ip + Z.to_N z) with (ip + Z.to_N z - 18446744073709551616 + 1 * 18446744073709551616) in W3 by (clear - L; lia).
    rewrite N.mod_add in W3 by discriminate. rewrite N.mod_small in W3 by (clear - Hz W2 He; lia).
    clear - W1 W2 W3 L Hz He Hs. lia.
  Qed.
  Lemma sub_near x y : x <= y -> y < 2 ^ 64 -> y - x < 2 ^ 63 -> sx64 (sub64 y x) = Z.of_N (y - x).
  Proof.
    intros H1 H2 H3. unfold sx64, sub64. change (2 ^ 63)%Z with 9223372036854775808%Z.
    change (2 ^ 64)%Z with 18446744073709551616%Z.
    change (2 ^ 64) with 18446744073709551616 in *. change (2 ^ 63) with 9223372036854775808 in *.
    rewrite (N.mod_small x) by (clear - H1 H2; lia).
    replace (y + (18446744073709551616 - x)) with ((y - x) + 1 * 18446744073709551616) by (clear - H1 H2; lia).
    rewrite N.mod_add by discriminate. rewrite (N.mod_small (y - x)) by (clear - H1 H2; lia).
    rewrite N.mod_small by (clear - H1 H2; lia). destruct (Z.ltb_spec (Z.of_N (y - x)) 9223372036854775808); [reflexivity|].
    exfalso. clear - H H3. lia.
  Qed.
  Lemma sx16_eq z : sx16 z = z -> (z < 2 ^ 15)%Z.
  Proof.
    unfold sx16. intros H. pose proof (Z.mod_pos_bound (z + 2 ^ 15) (2 ^ 16) eq_refl) as B.
    change (2 ^ 16)%Z with 65536%Z in *. change (2 ^ 15)%Z with 32768%Z in *. clear - H B. lia.
  Qed.
  Lemma in_section_spec s ip : pt_blk_is_in_section im s ip = true -> window s ip.
  Proof.
    unfold pt_blk_is_in_section. intros H. apply andb_true_iff in H. destruct H as (H1 & H2).
    split; [apply N.leb_le; exact H1|apply N.ltb_lt; exact H2].
  Qed.

  (** The section has a block cache. *)
  Definition has_cache (d : dec) (s : S) : Prop := bd_caches d (bi_key im s) <> None.

  (** The state after others had a chance to change block caches. *)
  Definition alike (d d' : dec) : Prop :=
    keeps d d' /\ still d d' /\ bd_ip d' = bd_ip d /\ (forall s, has_cache d s -> has_cache d' s) /\
    forall f, agrees d f -> agrees d' f.
  Lemma interfere_ok d f : agrees d f ->
    alike d (let (c, cs) := bi_others im (bd_scache d) (bd_caches d) in bd_set_caches (bd_set_scache d c) cs).
  Proof.
    intros A. pose proof (bl_others _ _ _ _ _ _ shows _ _ _ (a_cache _ _ _ _ _ A) (a_caches _ _ _ _ _ A)) as B.
    destruct (bi_others im (bd_scache d) (bd_caches d)) as [c cs]. destruct B as (B1 & B2 & B3).
    do 3 (split; [repeat split|]). split; [intros s H; apply B3, H|]. intros f' A'. destruct A'. constructor; assumption.
  Qed.

  Lemma add_ok d b f s o y e : has_cache d s -> agrees d f ->
    content (bi_key im s) o = Some y -> entry_ok content mode_of (bi_key im s) o e ->
    post (cache_add im s o e (d, b))
      (fun d' b' _ => b' = b /\ keeps d d' /\ still d d' /\ bd_ip d' = bd_ip d /\ has_cache d' s /\
         forall f, agrees d f -> agrees d' f)
      (fun _ _ _ => False) no_ub.
  Proof.
    intros Hc0 A0 Hy He. unfold cache_add, interfere. apply post_change. apply post_state.
    pose proof (interfere_ok d f A0) as Al. cbv beta. destruct (bi_others im (bd_scache d) (bd_caches d)) as [c0 cs0].
    set (d1 := bd_set_caches (bd_set_scache d c0) cs0) in *. clearbody d1.
    destruct Al as (K1 & S1 & I1 & Hc & A1). specialize (Hc s Hc0). pose proof (a_caches _ _ _ _ _ (A1 f A0)) as Hk. unfold has_cache in Hc.
    destruct (bd_caches d1 (bi_key im s)) as [c|] eqn:Ec; [|congruence].
    destruct (Hk _ _ Ec) as (Hk1 & Hk2). pose proof (Hk1 _ _ Hy) as Hlt.
    unfold pt_bcache_add. destruct (N.leb_spec (bc_n c) o) as [L|L]; cbn [bind lift post]; [clear - L Hlt; lia|].
    split; [reflexivity|]. split; [exact K1|]. split; [exact S1|]. split; [exact I1|]. split.
    { unfold has_cache. cbn. unfold put_cache. rewrite N.eqb_refl. discriminate. }
    intros f' A. apply agrees_caches; [exact (A1 f' A)|]. intros k c' E. unfold put_cache in E.
    destruct (N.eqb_spec k (bi_key im s)) as [->|Nk].
    - injection E as <-. cbn [bc_n bc_entry] in *. split; [exact Hk1|]. intros o' Ho'.
      destruct (N.eqb_spec o' o) as [->|No]; [exact He|]. exact (Hk2 _ Ho').
    - exact (Hk _ _ E).
  Qed.
  Lemma find_ok d b f s o y : has_cache d s -> agrees d f -> content (bi_key im s) o = Some y ->
    post (cache_lookup im s o (d, b))
      (fun d' b' e => b' = b /\ alike d d' /\ entry_ok content mode_of (bi_key im s) o e)
      (fun _ _ _ => False) no_ub.
  Proof.
    intros Hc0 A Hy. unfold cache_lookup, interfere. apply post_change. apply post_state.
    pose proof (interfere_ok d f A) as Al. cbv beta. destruct (bi_others im (bd_scache d) (bd_caches d)) as [c0 cs0].
    set (d1 := bd_set_caches (bd_set_scache d c0) cs0) in *. clearbody d1.
    pose proof Al as (_ & _ & _ & Hc & A1). specialize (Hc s Hc0). unfold has_cache in Hc.
    destruct (bd_caches d1 (bi_key im s)) as [c|] eqn:Ec; [|congruence].
    destruct (a_caches _ _ _ _ _ (A1 f A) _ _ Ec) as (Hk1 & Hk2). pose proof (Hk1 _ _ Hy) as Hlt.
    unfold pt_bcache_lookup. destruct (N.leb_spec (bc_n c) o) as [L|L]; cbn [lift post]; [clear - L Hlt; lia|].
    split; [reflexivity|]. split; [exact Al|]. exact (Hk2 _ L).
  Qed.

  (** Adding an entry when the block is complete. *)
  Definition done_ s0 (d : dec) (s : S) : dec -> block -> unit -> Prop := fun d' b' _ =>
    keeps d d' /\ has_cache d' s /\ ended s0 d' b'.
  Lemma add_done s0 d b a isid s ip e : ended s0 d b -> has_cache d s -> opened a isid s -> window s ip ->
    entry_ok content mode_of (bi_key im s) (unmap s ip) e ->
    post (cache_add im s (unmap s ip) e (d, b)) (done_ s0 d s) (errs s0) (ubs s0).
  Proof.
    intros He Hc Op Hw Ho. destruct (op_all _ _ _ _ _ _ _ Op _ Hw) as (_ & (y & Hy & _) & _).
    pose proof He as (is & s1 & He'). pose proof (e_agree _ _ _ _ _ He') as Hk.
    eapply post_mono; [apply (add_ok d b _ s _ y e Hc Hk Hy Ho)| | |].
    - intros d' b' [] (-> & K & St & Eip & Hc' & A). split; [exact K|]. split; [exact Hc'|]. eapply ended_d; eassumption.
    - intros ? ? ? [].
    - intros ? ? ? [].
  Qed.
  Lemma decode_entry k o m : m = mode_of k -> entry_ok content mode_of k o (mk_entry 0 1 m ptbq_decode 0).
  Proof.
    intros -> _. cbn [be_mode be_ninsn be_disp be_qual be_isize]. split; [reflexivity|]. split; [lia|]. split; [lia|].
    split; [|congruence]. change (N.to_nat 1 - 1)%nat with O. rewrite N.add_0_r. constructor.
  Qed.

  (** An instruction of a section that leads to another one behind it. *)
  Definition leads m s ip nip : Prop :=
    ip <= nip /\ forall n o', chain content m (bi_key im s) (unmap s nip) n o' ->
      chain content m (bi_key im s) (unmap s ip) (Datatypes.S n) o'.

  Lemma trampoline_done s0 d b a isid s ip nip m : ended s0 d b -> has_cache d s -> opened a isid s ->
    window s ip -> window s nip -> m = mode_of (bi_key im s) -> leads m s ip nip ->
    post (pt_blk_add_trampoline im s (unmap s ip) (unmap s nip) m (d, b)) (done_ s0 d s) (errs s0) (ubs s0).
  Proof.
    intros He Hc Ho W1 W2 Em (L1 & L2). unfold pt_blk_add_trampoline. cbv zeta.
    pose proof (op_end _ _ _ _ _ _ _ Ho) as H1. pose proof (op_size _ _ _ _ _ _ _ Ho) as H2.
    pose proof (unmap_val im mem content at_ _ _ _ _ Ho W1) as U1. pose proof (unmap_val im mem content at_ _ _ _ _ Ho W2) as U2.
    rewrite sub_near.
    2:{ rewrite U1, U2. clear - L1. lia. }
    2:{ rewrite U2. destruct W2. clear - H H0 H2. change (2 ^ 64) with 18446744073709551616. change (2 ^ 63) with 9223372036854775808 in *. lia. }
    2:{ rewrite U1, U2. destruct W2. clear - H H0 H2. change (2 ^ 63) with 9223372036854775808 in *. lia. }
    destruct (Z.eqb_spec (sx16 (Z.of_N (unmap s nip - unmap s ip))) (Z.of_N (unmap s nip - unmap s ip))) as [E|E];
      eapply add_done; try eassumption; [|apply decode_entry; exact Em].
    rewrite E. intros _. cbn [be_mode be_ninsn be_disp be_qual be_isize].
    split; [exact Em|]. split; [clear; lia|]. split; [split; [apply N2Z.is_nonneg|apply sx16_eq; exact E]|].
    rewrite N2Z.id. change (N.to_nat 1) with 1%nat. rewrite <- Em. apply L2.
    replace (unmap s ip + (unmap s nip - unmap s ip)) with (unmap s nip) by (rewrite U1, U2; clear - L1; lia). constructor.
  Qed.

  Definition extend (s : S) (i : insn) (iip nip noff ioff : N) (e : entry) : M unit :=
    if negb (mode_eqb (be_mode e) (in_mode i)) then fail pte_internal else
    if negb (pt_blk_is_in_section im s (add64 nip (of_int64 (be_disp e)))) then ret tt else
    if (u8 (be_ninsn e + 1) =? 0)
       || negb (Z.eqb (sx16 (sx64 (sub64 (add64 nip (of_int64 (be_disp e))) iip)))
                      (sx64 (sub64 (add64 nip (of_int64 (be_disp e))) iip)))
    then pt_blk_add_trampoline im s ioff noff (in_mode i)
    else cache_add im s ioff (mk_entry (sx16 (sx64 (sub64 (add64 nip (of_int64 (be_disp e))) iip)))
                                (u8 (be_ninsn e + 1)) (be_mode e) (be_qual e) (be_isize e)).
  Lemma extend_done s0 d b a isid s i nip m e : ended s0 d b -> has_cache d s -> opened a isid s ->
    window s (in_ip i) -> window s nip -> in_mode i = m -> m = mode_of (bi_key im s) -> leads m s (in_ip i) nip ->
    pt_bce_is_valid e = true -> entry_ok content mode_of (bi_key im s) (unmap s nip) e ->
    post (extend s i (in_ip i) nip (unmap s nip) (unmap s (in_ip i)) e (d, b)) (done_ s0 d s) (errs s0) (ubs s0).
  Proof.
    intros He Hc Ho W1 W2 Ei Em (L1 & L2) Hv He'.
    assert (Hm : be_mode e <> ptem_unknown).
    { intros X. unfold pt_bce_is_valid in Hv. rewrite X in Hv. discriminate Hv. }
    destruct (He' Hm) as (E1 & E2 & E3 & E4). unfold extend.
    replace (negb (mode_eqb (be_mode e) (in_mode i))) with false by (rewrite E1, <- Em, Ei; destruct m; reflexivity).
    destruct (pt_blk_is_in_section im s (add64 nip (of_int64 (be_disp e)))) eqn:Es; cbn [negb].
    2:{ split; [apply keeps_refl|]. split; assumption. }
    apply in_section_spec in Es. pose proof (near_ip _ _ _ _ _ Ho W2 E3 Es) as En. rewrite En in *. clear En.
    set (dip := nip + Z.to_N (be_disp e)) in *.
    pose proof (op_end _ _ _ _ _ _ _ Ho) as H1. pose proof (op_size _ _ _ _ _ _ _ Ho) as H2.
    pose proof (unmap_val im mem content at_ _ _ _ _ Ho W1) as U1. pose proof (unmap_val im mem content at_ _ _ _ _ Ho W2) as U2.
    rewrite sub_near.
    2:{ unfold dip. clear - L1. lia. }
    2:{ destruct Es as (_ & Es). eapply N.lt_le_trans; [exact Es|exact H1]. }
    2:{ destruct Es as (X & Y). destruct W1 as (Z1 & Z2). change (2 ^ 63) with 9223372036854775808 in *. clear - X Y Z1 H2. lia. }
    destruct (N.eqb_spec (u8 (be_ninsn e + 1)) 0) as [X|X]; cbn [orb].
    { rewrite Ei. eapply trampoline_done; try eassumption. split; assumption. }
    destruct (Z.eqb_spec (sx16 (Z.of_N (dip - in_ip i))) (Z.of_N (dip - in_ip i))) as [E|E]; cbn [negb].
    2:{ rewrite Ei. eapply trampoline_done; try eassumption. split; assumption. }
    rewrite E. eapply add_done; try eassumption.
    assert (Eu : u8 (be_ninsn e + 1) = be_ninsn e + 1 /\ be_ninsn e + 1 < 256).
    { unfold u8, trunc in *. change (2 ^ 8) with 256 in *.
      destruct (N.eq_dec (be_ninsn e) 255) as [Y|Y]; [rewrite Y in X; destruct (X eq_refl)|].
      rewrite N.mod_small; clear - E2 Y; lia. }
    destruct Eu as (-> & Lu).
    assert (Eo : unmap s (in_ip i) + (dip - in_ip i) = unmap s nip + Z.to_N (be_disp e)).
    { rewrite U1, U2. unfold dip. destruct W1. clear - L1 H. lia. }
    intros _. cbn [be_mode be_ninsn be_disp be_qual be_isize].
    split; [exact E1|]. split; [clear - Lu; lia|]. split; [split; [apply N2Z.is_nonneg|apply sx16_eq; exact E]|].
    rewrite N2Z.id, Eo. rewrite <- Em in *.
    assert (Nn : N.to_nat (be_ninsn e + 1) = Datatypes.S (N.to_nat (be_ninsn e))) by (clear; lia).
    assert (Nd : (N.to_nat (be_ninsn e + 1) - 1 = Datatypes.S (N.to_nat (be_ninsn e) - 1))%nat) by (clear - E2; lia).
    destruct (be_qual e); [rewrite Nn; apply L2, E4|..];
      (destruct E4 as (E4 & E5); split; [rewrite Nd; apply L2, E4|exact E5]).
  Qed.

  Lemma next_leads a isid s f t i x nip : opened a isid s -> window s (f_ip f) -> window s nip ->
    site_of_insn i x = site_of f t -> section_text content (f_mode f) (bi_key im s) (unmap s (f_ip f)) t ->
    N.of_nat (length (render t)) <= bi_end im s - f_ip f -> pt_insn_next_ip i x = Ok nip ->
    in_iclass i <> ptic_call -> (in_iclass i = ptic_jump -> (0 <= x_disp x)%Z) ->
    leads (f_mode f) s (f_ip f) nip.
  Proof.
    intros Ho W1 W2 Es Ht Hf Hn Hc Hj. pose proof (next_site f t i x Es) as Nx. rewrite Hn in Nx.
    destruct Nx as (_ & Nx & _). unfold site_of_insn, site_of in Es. injection Es as E1 E2 E3 E4. rewrite E3 in Hc, Hj. rewrite E4 in Hj.
    pose proof (disp_bound (f_mode f) t (proj1 Ht)) as Db.
    pose proof (op_end _ _ _ _ _ _ _ Ho) as H1. pose proof (op_size _ _ _ _ _ _ _ Ho) as H2.
    pose proof (unmap_val im mem content at_ _ _ _ _ Ho W1) as U1. pose proof (unmap_val im mem content at_ _ _ _ _ Ho W2) as U2.
    destruct W1 as (V1 & V2). destruct W2 as (V3 & V4).
    assert (Other : offset_ip (f_ip f) (length (render t)) = nip -> nip = f_ip f + N.of_nat (length (render t))).
    { intros <-. apply offset_small. change (2 ^ 64) with 18446744073709551616 in *. change (2 ^ 63) with 9223372036854775808 in *.
      destruct (N.lt_ge_cases (f_ip f + N.of_nat (length (render t))) 18446744073709551616) as [L|L]; [exact L|]. exfalso.
      unfold offset_ip in V3. change (2 ^ 64) with 18446744073709551616 in V3.
      replace (f_ip f + N.of_nat (length (render t))) with (1 * 18446744073709551616) in V3 by (clear - L Hf H1 V2; lia).
      rewrite N.mod_mul in V3 by discriminate. clear - V3 L Hf H1 H2 V2. lia. }
    assert (Ov : (fst (meaning (f_mode f) t) = ptic_other \/ fst (meaning (f_mode f) t) = ptic_ptwrite) ->
                 nip = f_ip f + N.of_nat (length (render t)) -> leads (f_mode f) s (f_ip f) nip).
    { intros Hk En. split; [rewrite En; clear; lia|]. intros n o' Ch. eapply chain_step; [exact Ht|exact Hk|reflexivity|].
      replace (unmap s (f_ip f) + N.of_nat (length (render t))) with (unmap s nip); [exact Ch|].
      rewrite U1, U2, En. clear - V1. lia. }
    unfold only_next in Nx. destruct (fst (meaning (f_mode f) t)) eqn:Ec; try discriminate Nx; try congruence.
    - apply Ov; [auto|]. apply Other. congruence.
    - specialize (Hj eq_refl).
      assert (X : x_inst (snd (meaning (f_mode f) t)) <> PTI_JMPABS /\ x_direct (snd (meaning (f_mode f) t)) = true /\
        Z.to_N ((Z.of_N (f_ip f) + Z.of_nat (length (render t)) + x_disp (snd (meaning (f_mode f) t))) mod 2 ^ 64) = nip).
      { destruct (x_inst _); destruct (x_direct _); try discriminate Nx; (split; [discriminate|]; split; [reflexivity|congruence]). }
      destruct X as (X1 & X2 & X3). clear Nx.
      assert (En : nip = f_ip f + N.of_nat (length (render t)) + Z.to_N (x_disp (snd (meaning (f_mode f) t)))).
      { set (z := x_disp (snd (meaning (f_mode f) t))) in *.
        change (2 ^ 64)%Z with 18446744073709551616%Z in X3. change (2 ^ 63)%Z with 9223372036854775808%Z in Db.
        change (2 ^ 64) with 18446744073709551616 in *. change (2 ^ 63) with 9223372036854775808 in *.
        destruct (Z.lt_ge_cases (Z.of_N (f_ip f) + Z.of_nat (length (render t)) + z) 18446744073709551616) as [L|L].
        - rewrite Z.mod_small in X3 by (clear - L Hj; lia). clear - X3 Hj. lia.
        - exfalso. replace (Z.of_N (f_ip f) + Z.of_nat (length (render t)) + z)%Z
            with (Z.of_N (f_ip f) + Z.of_nat (length (render t)) + z - 18446744073709551616 + 1 * 18446744073709551616)%Z in X3 by (clear; lia).
          rewrite Z.mod_add in X3 by discriminate. rewrite Z.mod_small in X3 by (clear - L Db Hf H1 V2; lia).
          clear - X3 V3 V4 V1 V2 Hf Db H1 H2 L. lia. }
      split; [rewrite En; clear; lia|]. intros n o' Ch. eapply chain_jump; [exact Ht|exact Ec|exact X1|exact X2|exact Hj|reflexivity|].
      replace (unmap s (f_ip f) + N.of_nat (length (render t)) + Z.to_N (x_disp (snd (meaning (f_mode f) t)))) with (unmap s nip); [exact Ch|].
      rewrite U1, U2, En. clear - V1. lia.
    - apply Ov; [auto|]. apply Other. congruence.
  Qed.

  Lemma isize_ok n : N.of_nat n mod 8 = N.of_nat n \/ (if N.of_nat n mod 8 =? N.of_nat n then N.of_nat n mod 8 else 0) = 0.
  Proof. destruct (N.eqb_spec (N.of_nat n mod 8) (N.of_nat n)); auto. Qed.

  Lemma decision_entry k f t i x isz q (tr : bool) : site_of_insn i x = site_of f t -> f_mode f = mode_of k -> forall o,
    (tr = false -> section_text content (f_mode f) k o t) -> decision i x = Ok q ->
    isz = 0 \/ isz = N.of_nat (length (render t)) ->
    entry_ok content mode_of k o (mk_entry 0 1 (f_mode f) (if tr then ptbq_decode else q) isz).
  Proof.
    intros Es Em o Ht Hd Hz _. cbn [be_mode be_ninsn be_disp be_qual be_isize].
    split; [exact Em|]. split; [clear; lia|]. split; [clear; lia|]. change (N.to_nat 1 - 1)%nat with O. rewrite N.add_0_r.
    rewrite <- Em. destruct tr.
    - split; [constructor|congruence].
    - specialize (Ht eq_refl). unfold site_of_insn, site_of in Es. injection Es as E1 E2 E3 E4.
      assert (Q : qualifies (f_mode f) t q /\ q <> ptbq_again).
      { unfold decision in Hd. unfold qualifies. rewrite <- E3, <- E4. unfold is_jmpabs in Hd.
        destruct (in_iclass i); try discriminate Hd; try (injection Hd as <-; split; [auto|discriminate]; fail).
        - destruct (x_direct x); [discriminate Hd|]. injection Hd as <-. split; [auto|discriminate].
        - destruct (x_direct x); destruct (x_inst x); try discriminate Hd; injection Hd as <-; split; auto; discriminate. }
      destruct Q as (Q1 & Q2).
      destruct q; [congruence|..]; (split; [constructor|intros _; exists t; auto]).
  Qed.

  Lemma fill_ok s0 a isid s : sane s0 -> forall steps d b is f fs, steps <> O ->
    walking s0 d b is (mk_fstate f None fs) -> f_cur f = None -> a = f_asid f -> opened a isid s -> window s (f_ip f) ->
    has_cache d s ->
    post (fill_cache im steps s (d, b)) (done_ s0 d s) (errs s0) (ubs s0).
  Proof.
    intros Hs. induction steps as [|steps IH]; intros d b is f fs Hst W Hc Ea Ho Hw Hca; cbn [fill_cache]; [congruence|].
    eapply post_bind; [apply (one_insn_ok cf buf base err im mem cached content at_ mode_of shows ex ex_ovf s0 d b is _ Hs W Hc); discriminate|].
    intros d1 b1 [[i x]|].
    2:{ intros (-> & -> & H1 & H2). split; [apply keeps_refl|]. split; [exact Hca|].
        eapply halted_ended. exists is, f. split; [exact W|]. auto. }
    cbn [fs_flow fs_held fs_facts].
    intros (K & St & Eip & Ec & En & t & i' & A & W').
    pose proof (calm _ _ _ _ _ _ W Hc) as Ex.
    destruct (mode_right s0 d b is f None fs s isid Hs W Ex ltac:(rewrite <- Ea; exact Ho) Hw) as (Em & Eu).
    pose proof (ai_site _ _ _ _ _ _ _ _ A) as Es. pose proof (ai_mode _ _ _ _ _ _ _ _ A) as Eim.
    assert (Ein : in_ip i = f_ip f) by (unfold site_of_insn, site_of in Es; injection Es; auto).
    assert (Esz : in_size i = length (render t)) by (unfold site_of_insn, site_of in Es; injection Es; auto).
    assert (Hc1 : has_cache d1 s) by (unfold has_cache; rewrite Ec; exact Hca).
    assert (Ht : in_truncated i = false ->
      section_text content (f_mode f) (bi_key im s) (unmap s (f_ip f)) t /\ N.of_nat (length (render t)) <= bi_end im s - f_ip f).
    { intros Tr. destruct (op_all _ _ _ _ _ _ _ Ho _ Hw) as (P & _). rewrite Ea in P.
      pose proof (ai_place _ _ _ _ _ _ _ _ A _ P Tr) as L. cbn in L. split; [|exact L].
      eapply text_content; [exact Ho|exact Hw| |exact L]. rewrite Ea. apply (ai_insn _ _ _ _ _ _ _ _ A). }
    assert (Hne : is ++ [i'] <> []) by (destruct is; discriminate).
    assert (Hb1 : b_iclass b1 <> ptic_unknown) by (rewrite (ai_class _ _ _ _ _ _ _ _ A); apply A).
    pose proof (next_site f t i x Es) as Nx. cbv zeta. rewrite Ein.
    destruct (pt_insn_next_ip i x) as [nip|e|u] eqn:Enx; [|pose proof (proj1 Nx); subst e|destruct Nx].
    - assert (W2 : walking s0 (bd_set_ip d1 nip) b1 (is ++ [i']) (mk_fstate (passed f t nip) None fs)).
      { eapply pass_ok; [exact W'|eauto|exact A|exact Enx|]. discriminate. }
      apply post_change. apply post_blk. apply post_state.
      set (d2 := bd_set_ip d1 nip) in *.
      assert (K2 : keeps d d2) by exact K.
      assert (He2 : ended s0 d2 b1).
      { eapply halted_ended. exists (is ++ [i']), (passed f t nip). split; [exact W2|]. split; [reflexivity|].
        split; [exact Hne|congruence]. }
      assert (Hc2 : has_cache d2 s) by exact Hc1.
      assert (Mono : forall (m : M unit), post (m (d2, b1)) (done_ s0 d2 s) (errs s0) (ubs s0) ->
                     post (m (d2, b1)) (done_ s0 d s) (errs s0) (ubs s0)).
      { intros m P. eapply post_mono; [exact P| |auto|auto]. intros d3 b3 [] (Q1 & Q2 & Q3).
        split; [eapply keeps_trans; eassumption|]. split; assumption. }
      eapply post_bind with (P := fun d' b' (stop : bool) => d' = d2 /\ b' = b1 /\ (stop = false ->
        window s nip /\ in_truncated i = false /\ in_iclass i <> ptic_call /\ (in_iclass i = ptic_jump -> (0 <= x_disp x)%Z))).
      { assert (Lv : negb (pt_blk_is_in_section im s nip) || b_truncated b1 = false -> window s nip /\ in_truncated i = false).
        { intros X. apply orb_false_iff in X. destruct X as (X1 & X2). apply negb_false_iff in X1.
          split; [apply in_section_spec; exact X1|]. rewrite <- (ai_trunc _ _ _ _ _ _ _ _ A). exact X2. }
        set (lv := negb _ || _) in *.
        destruct (in_iclass i) eqn:Eic; try (split; [reflexivity|split; [reflexivity|]];
          intros X; apply Lv in X; destruct X; do 2 (split; [assumption|]); split; [discriminate|intros Y; discriminate Y]).
        - split; [reflexivity|split; [reflexivity|discriminate]].
        - destruct (negb (x_direct x) || is_jmpabs x) eqn:Ej.
          { exfalso. unfold pt_insn_next_ip in Enx. rewrite Eic in Enx. clear - Enx Ej. destruct (is_jmpabs x), (x_direct x); discriminate. }
          split; [reflexivity|]. split; [reflexivity|]. intros X. apply orb_false_iff in X. destruct X as (X & X3).
          apply orb_false_iff in X. destruct X as (X1 & X2). apply Lv in X3. destruct X3.
          do 2 (split; [assumption|]). split; [discriminate|]. intros _. apply Z.ltb_ge. exact X1. }
      intros d3 b3 stop (-> & -> & Hst'). clear Hst. rename Hst' into Hst. destruct stop.
      { apply Mono. eapply add_done; try eassumption. rewrite Eim. apply decode_entry. exact Em. }
      destruct (Hst eq_refl) as (Wn & Tr & Hcl & Hj). destruct (Ht Tr) as (Ht1 & Ht2).
      assert (Ld : leads (f_mode f) s (in_ip i) nip).
      { rewrite Ein. eapply next_leads; try eassumption. }
      rewrite <- Ein in Hw.
      assert (Ext : forall d3 b3 e, ended s0 d3 b3 -> has_cache d3 s -> pt_bce_is_valid e = true ->
        entry_ok content mode_of (bi_key im s) (unmap s nip) e ->
        post (extend s i (f_ip f) nip (unmap s nip) (unmap s (f_ip f)) e (d3, b3)) (done_ s0 d3 s) (errs s0) (ubs s0)).
      { intros d3 b3 e X1 X2 X3 X4. rewrite <- Ein. eapply extend_done; try eassumption. }
      assert (A2 : agrees d2 (passed f t nip)) by apply W2.
      destruct (op_all _ _ _ _ _ _ _ Ho _ Wn) as (_ & (y & Hy & _) & _).
      eapply post_bind; [eapply post_mono; [apply (find_ok d2 b1 _ s (unmap s nip) y Hc2 A2 Hy)|intros d3 b3 e X; exact X|intros ? ? ? []|intros ? ? ? []]|].
      intros d3 b3 e (-> & (Ka & Sa & Ia & Ca & Aa) & He).
      assert (W3 : walking s0 d3 b1 (is ++ [i']) (mk_fstate (passed f t nip) None fs))
        by (eapply walking_d; [exact W2|exact Sa|apply Aa, W2|exact Ia]).
      assert (He3 : ended s0 d3 b1) by (eapply ended_d; eassumption).
      assert (K3 : keeps d d3) by (eapply keeps_trans; eassumption). specialize (Ca s Hc2).
      clear A2 K2 W2 He2 Hc2 Mono Ka Sa Ia Aa. clearbody d2. clear d2. rename d3 into d2, W3 into W2, He3 into He2, K3 into K2, Ca into Hc2.
      assert (Mono : forall (m : M unit), post (m (d2, b1)) (done_ s0 d2 s) (errs s0) (ubs s0) ->
                     post (m (d2, b1)) (done_ s0 d s) (errs s0) (ubs s0)).
      { intros m P. eapply post_mono; [exact P| |auto|auto]. intros d3 b3 [] (Q1 & Q2 & Q3).
        split; [eapply keeps_trans; eassumption|]. split; assumption. }
      destruct (pt_bce_is_valid e) eqn:Ev.
      { apply (Mono (extend s i (f_ip f) nip (unmap s nip) (unmap s (f_ip f)) e)). apply Ext; assumption. }
      destruct steps as [|steps].
      { apply Mono. rewrite Eim, <- Ein. eapply trampoline_done; try eassumption. }
      eapply post_bind; [eapply (IH d2 b1 _ (passed f t nip) fs ltac:(discriminate) W2 eq_refl Ea Ho Wn Hc2)|].
      intros d3 b3 [] (K3 & Hc3 & He3). pose proof He3 as (is3 & s3 & He3').
      assert (K30 : keeps d d3) by (eapply keeps_trans; [exact K2|exact K3]).
      eapply post_bind; [eapply post_mono; [apply (find_ok d3 b3 (fs_flow s3) s (unmap s nip) y Hc3 (e_agree _ _ _ _ _ He3') Hy)|intros d4 b4 e' X; exact X|intros ? ? ? []|intros ? ? ? []]|].
      intros d4 b4 e' (-> & (Ka & Sa & Ia & Ca & Aa) & He').
      assert (He4 : ended s0 d4 b3) by (eapply ended_d; eassumption).
      assert (K4 : keeps d d4) by (eapply keeps_trans; eassumption). specialize (Ca s Hc3).
      destruct (pt_bce_is_valid e') eqn:Ev'.
      2:{ split; [exact K4|]. split; assumption. }
      eapply post_mono; [apply (Ext d4 b3 e'); assumption| |auto|auto].
      intros d5 b4 [] (Q1 & Q2 & Q3). split; [eapply keeps_trans; eassumption|]. split; assumption.
    - destruct (decision i x) as [q|e|u] eqn:Ed.
      2:{ exfalso. unfold decision in Ed. unfold pt_insn_next_ip in Enx.
          destruct (in_iclass i); try discriminate; destruct (x_direct x); try destruct (is_jmpabs x); discriminate. }
      2:{ unfold decision in Ed. destruct (in_iclass i); try congruence; destruct (x_direct x); try discriminate Ed; destruct (negb _); discriminate Ed. }
      eapply post_bind with (P := fun d' b' q' => d' = d1 /\ b' = b1 /\ q' = q); [split; auto|].
      intros d2 b2 q' (-> & -> & ->). apply post_blk. rewrite (ai_trunc _ _ _ _ _ _ _ _ A), Eim.
      eapply post_bind; [eapply post_mono; [destruct (op_all _ _ _ _ _ _ _ Ho _ Hw) as (_ & (y & Hy & _) & _); apply (add_ok d1 b1 _ s _ y _ Hc1 (w_agree _ _ _ _ _ _ _ _ _ _ _ _ _ W') Hy)| | |intros ? ? ? []]|].
      + eapply (decision_entry (bi_key im s) f t i x); [exact Es|exact Em| |exact Ed|].
        * intros Tr. apply Ht, Tr.
        * rewrite Esz. destruct (isize_ok (length (render t))) as [X|X]; [right; rewrite X, N.eqb_refl; reflexivity|left; exact X].
      + intros d2 b2 u X. exact X.
      + intros ? ? ? [].
      + intros d2 b2 [] (-> & K2 & St2 & Eip2 & Hc2 & A2).
        assert (W2 : walking s0 d2 b1 (is ++ [i']) (mk_fstate (stop_at f t) None fs)).
        { eapply walking_d; [exact W'|exact St2|apply A2, W'|exact Eip2]. }
        eapply post_mono; [eapply (trace_end _ _ _ _ _ _ _ _ _ _ W2 Hne Es eq_refl Enx)| |auto|auto].
        intros d3 b3 [] (K3 & Ec3 & E3). split; [eapply keeps_trans; [exact K|eapply keeps_trans; eassumption]|].
        split; [unfold has_cache; rewrite Ec3; exact Hc2|exact E3].
  Qed.

  (** ** Cached blocks *)

  (** A block that already counts the next instruction. *)
  Record counted (b b2 : block) (ip : N) : Prop := {
    c_n : b_ninsn b2 = b_ninsn b + 1;
    c_small : b_ninsn b2 < 65536;
    c_ip : b_ip b2 = b_ip b;
    c_mode : b_mode b2 = b_mode b;
    c_spec : b_speculative b2 = b_speculative b;
    c_isid : b_isid b2 = b_isid b;
    c_end : b_end_ip b2 = ip }.
  Definition on_ s0 (d : dec) : dec -> block -> unit -> Prop := fun d' b' _ =>
    keeps d d' /\ bd_caches d' = bd_caches d /\ ended s0 d' b'.
  Lemma on_trans s0 d1 d2 (m : M unit) b : keeps d1 d2 -> bd_caches d2 = bd_caches d1 ->
    post (m (d2, b)) (on_ s0 d2) (errs s0) (ubs s0) -> post (m (d2, b)) (on_ s0 d1) (errs s0) (ubs s0).
  Proof.
    intros K Ec P. eapply post_mono; [exact P| |auto|auto]. intros d' b' [] (H1 & H2 & H3).
    split; [eapply keeps_trans; eassumption|]. split; [congruence|exact H3].
  Qed.
  Lemma on_done s0 d s (m : M unit) d2 b : has_cache d s ->
    post (m (d2, b)) (on_ s0 d) (errs s0) (ubs s0) -> post (m (d2, b)) (done_ s0 d s) (errs s0) (ubs s0).
  Proof.
    intros Hc P. eapply post_mono; [exact P| |auto|auto]. intros d' b' [] (H1 & H2 & H3).
    split; [exact H1|]. split; [unfold has_cache; rewrite H2; exact Hc|exact H3].
  Qed.

  Lemma counted_err s0 d b is s b2 e : walking s0 d b is s -> counted b b2 (f_ip (fs_flow s)) ->
    e <> pte_eos -> gives_up e s -> errs s0 d b2 e.
  Proof.
    intros W Cn He G. split; [eapply agrees_good; apply W|]. split; [exact He|]. exists is, s. split; [apply W|]. split; [right|exact G].
    split; [|apply Cn]. rewrite (c_n _ _ _ Cn), (ex_count _ _ _ (w_exp _ _ _ _ _ _ _ _ _ _ _ _ _ W)). reflexivity.
  Qed.

  (** The counted instruction is added. *)
  Lemma count_insn s0 d b is f fs b2 isid c t i' : walking s0 d b is (mk_fstate f None fs) -> f_cur f = None ->
    counted b b2 (f_ip f) -> mem (f_asid f) (f_ip f) = Some (c, isid) -> isid = b_isid b -> insn_of mem f t i' ->
    class_of_block b2 (in_iclass i') -> b_iclass b2 <> ptic_unknown ->
    (b_truncated b2 = true -> b_size b2 = in_size i' /\ firstn (b_size b2) (b_raw b2) = firstn (in_size i') (in_raw i')) ->
    forall d', still d d' -> agrees d' (calls f (called (site_of f t) (f_calls f))) -> bd_ip d' = bd_ip d ->
    walking s0 d' b2 (is ++ [i']) (mk_fstate (stop_at f t) None fs).
  Proof.
    intros W Hc Cn Hm Ei Hi Hcl Hk Ht d' St A Ed.
    eapply add_insn; try eassumption; try apply Cn.
    - eapply calm; eassumption.
    - destruct Hi as (_ & _ & _ & _ & _ & _ & _ & (c' & Hi)). congruence.
  Qed.

  Lemma truncated_ok s0 d b is f fs b2 isid c : sane s0 -> walking s0 d b is (mk_fstate f None fs) -> f_cur f = None ->
    counted b b2 (f_ip f) -> mem (f_asid f) (f_ip f) = Some (c, isid) -> isid = b_isid b -> f_mode f <> ptem_unknown ->
    (exists p, at_ (f_asid f) (f_ip f) = Some p /\
       forall t, text_at (mem (f_asid f)) (f_mode f) (f_ip f) t -> pl_left p < N.of_nat (length (render t))) ->
    post (pt_blk_proceed_truncated im (d, b2)) (on_ s0 d) (errs s0) (ubs s0).
  Proof.
    intros Hs W Hc Cn Hm Ei Hu (pl & Hpl & Hcut). unfold pt_blk_proceed_truncated. apply post_state. unfold decode_here.
    pose proof (w_agree _ _ _ _ _ _ _ _ _ _ _ _ _ W) as Ha. cbn [fs_flow] in Ha.
    rewrite (a_asid _ _ _ _ _ Ha), (a_mode _ _ _ _ _ Ha), (w_ip _ _ _ _ _ _ _ _ _ _ _ _ _ W). cbn [fs_flow].
    pose proof (decode_ok im mem cached content at_ mode_of shows f Hu) as D.
    destruct (pt_insn_decode _ _ _) as [i [x|e|u]]; unfold bind at 1, lift at 1; unfold decoded in D.
    2:{ destruct D as (D1 & D2). apply (counted_err _ _ _ _ _ _ _ W Cn D1). apply gives_blocked, blocked_between.
        - exact Hc.
        - intros _ e0 fs'. eapply rest_event; apply W.
        - intros _. exact D2.
        - discriminate. }
    2:{ destruct D as (D1 & D2). split; [exact D1|]. eexists is, _. split; [apply W|exact D2]. }
    destruct D as (t & Hi & Es & Hp). destruct (in_truncated i) eqn:Tr; cbn [negb].
    2:{ exfalso. pose proof (Hp _ Hpl eq_refl) as X. pose proof (Hcut t (proj1 Hi)) as Y. clear - X Y. lia. }
    apply post_change_blk.
    set (b3 := b_set_iclass (b_set_text b2 i) (in_iclass i)).
    set (i' := as_seen i (in_isid i) (f_spec f)) in *.
    assert (Cn3 : counted b b3 (f_ip f)) by (destruct Cn; constructor; assumption).
    assert (Hcl : in_iclass i <> ptic_unknown).
    { destruct Hi as (_ & _ & _ & _ & _ & _ & Hi7 & _). cbn in Hi7. rewrite Hi7. apply meaning_class. }
    assert (T3 : b_truncated b3 = true -> b_size b3 = in_size i' /\ firstn (b_size b3) (b_raw b3) = firstn (in_size i') (in_raw i')).
    { intros _. pose proof Hi as (Hi1 & _ & _ & _ & Hi5 & Hi6 & _). cbn [in_size in_raw as_seen i'] in Hi5, Hi6 |- *.
      assert (L : length (firstn (in_size i) (in_raw i)) = in_size i) by (rewrite Hi6, Hi5; reflexivity).
      pose proof (put_raw_firstn (b_raw b2) 0 (firstn (in_size i) (in_raw i)) (Nat.le_0_l _)) as P.
      rewrite L in P. cbn [plus firstn app] in P. split; [reflexivity|exact P]. }
    eapply post_bind; [eapply post_mono; [apply (log_call_ok cached content mode_of d b3 f i x t Ha Es)| | |]|].
    { intros d2 b4 u H. exact H. }
    { intros ? ? ? []. }
    { intros ? ? ? []. }
    intros d2 b4 _ (-> & K & St & Eip & Ec & Ag).
    assert (W2 : walking s0 d2 b3 (is ++ [i']) (mk_fstate (stop_at f t) None fs)).
    { eapply count_insn; try eassumption. left. reflexivity. }
    pose proof (next_site f t i x Es) as Nx.
    destruct (pt_insn_next_ip i x) as [nip|e|u] eqn:Enx; [|pose proof (proj1 Nx); subst e|destruct Nx].
    - assert (A3 : at_insn mem at_ f b3 i x t i').
      { pose proof Hi as (_ & _ & Hi3 & _ & _ & _ & _ & (c' & Hi8)). constructor; try (symmetry; exact Tr); auto.
        - rewrite (c_isid _ _ _ Cn3), <- Ei. cbn in Hi8. congruence.
        - intros p _ X. congruence. }
      cbn [change post]. split; [exact K|]. split; [exact Ec|].
      eapply halted_ended. eexists (is ++ [i']), (passed f t nip). split.
      + eapply pass_ok; [exact W2|eauto|exact A3|exact Enx|discriminate].
      + split; [reflexivity|]. split; [destruct is; discriminate|]. intros X. destruct (Hcl X).
    - apply on_trans; [exact K|exact Ec|]. eapply trace_end; [exact W2|destruct is; discriminate|exact Es|reflexivity|exact Enx].
  Qed.

  Lemma add64_swap x y z : add64 (add64 x y) z = add64 (add64 x z) y.
  Proof. unfold add64. rewrite !N.add_mod_idemp_l by discriminate. f_equal. lia. Qed.

  Lemma cached_ok s0 a isid s : sane s0 -> forall fuel d b is f fs,
    walking s0 d b is (mk_fstate f None fs) -> f_cur f = None -> a = f_asid f -> opened a isid s -> window s (f_ip f) ->
    isid = b_isid b -> b_truncated b = false -> has_cache d s -> (N.to_nat (65536 - b_ninsn b) < fuel)%nat ->
    post (M_blk.cached im fuel s (d, b)) (done_ s0 d s) (errs s0) (ubs s0).
  Proof.
    intros Hs. induction fuel as [|fuel IH]; intros d b is f fs W Hc Ea Ho Hw Eis Hbt Hca L; [exfalso; clear - L; lia|].
    cbn [M_blk.cached]. apply post_state. rewrite (w_ip _ _ _ _ _ _ _ _ _ _ _ _ _ W). cbn [fs_flow].
    pose proof (w_agree _ _ _ _ _ _ _ _ _ _ _ _ _ W) as Ha. cbn [fs_flow] in Ha.
    destruct (op_all _ _ _ _ _ _ _ Ho _ Hw) as (_ & (y & Hy & _) & _).
    eapply post_bind; [eapply post_mono; [apply (find_ok d b f s (unmap s (f_ip f)) y Hca Ha Hy)|intros d3 b3 e X; exact X|intros ? ? ? []|intros ? ? ? []]|].
    intros d3 b3 e (-> & (Ka & Sa & Ia & Ca & Aa) & He).
    assert (K0 : forall (m : M unit), post (m (d3, b)) (done_ s0 d3 s) (errs s0) (ubs s0) ->
                 post (m (d3, b)) (done_ s0 d s) (errs s0) (ubs s0)).
    { intros m P. eapply post_mono; [exact P| |auto|auto]. intros d4 b4 [] (Q1 & Q2 & Q3).
      split; [eapply keeps_trans; eassumption|]. split; assumption. }
    apply (K0 _). clear K0.
    assert (W3 : walking s0 d3 b is (mk_fstate f None fs))
      by (eapply walking_d; [exact W|exact Sa|apply Aa, W|exact Ia]).
    specialize (Ca s Hca). apply Aa in Ha. clear W Hca Ka Sa Ia Aa d. rename d3 into d, W3 into W, Ca into Hca.
    destruct (pt_bce_is_valid e) eqn:Ev; cbn [negb].
    2:{ eapply fill_ok; try eassumption. discriminate. }
    assert (Hm : be_mode e <> ptem_unknown).
    { intros X. unfold pt_bce_is_valid in Ev. rewrite X in Ev. discriminate Ev. }
    destruct (He Hm) as (E1 & E2 & E3 & E4). clear He.
    pose proof (calm _ _ _ _ _ _ W Hc) as Ex.
    destruct (mode_right s0 d b is f None fs s isid Hs W Ex ltac:(rewrite <- Ea; exact Ho) Hw) as (Em & Eu).
    rewrite E1, <- Em. rewrite <- Em in E1, E4. cbv zeta.
    destruct (pt_blk_is_in_section im s (add64 (f_ip f) (of_int64 (be_disp e)))) eqn:Es; cbn [negb].
    2:{ apply on_done; [exact Hca|]. eapply uncached_ok; eassumption. }
    apply in_section_spec in Es. pose proof (near_ip _ _ _ _ _ Ho Hw E3 Es) as En. rewrite En in *. clear En.
    set (nip := f_ip f + Z.to_N (be_disp e)) in *.
    pose proof (unmap_val im mem content at_ _ _ _ _ Ho Hw) as U1. pose proof (unmap_val im mem content at_ _ _ _ _ Ho Es) as U2.
    assert (Eo : unmap s (f_ip f) + Z.to_N (be_disp e) = unmap s nip).
    { rewrite U1, U2. unfold nip. destruct Hw as (X & _). clear - X. lia. }
    rewrite Eo in E4. clear U1 U2 Eo.
    pose proof (w_size _ _ _ _ _ _ _ _ _ _ _ _ _ W) as Sz.
    pose proof (ex_count _ _ _ (w_exp _ _ _ _ _ _ _ _ _ _ _ _ _ W)) as Cnt.
    apply post_blk. unfold u16, trunc. change (2 ^ 16) with 65536.
    destruct (N.lt_ge_cases (b_ninsn b + be_ninsn e) 65536) as [Ls|Ls].
    2:{ assert (X : (b_ninsn b + be_ninsn e) mod 65536 = b_ninsn b + be_ninsn e - 65536).
        { replace (b_ninsn b + be_ninsn e) with (b_ninsn b + be_ninsn e - 65536 + 1 * 65536) at 1 by (clear - Ls; lia).
          rewrite N.mod_add by discriminate. apply N.mod_small. clear - Sz E2 Ls. lia. }
        rewrite X. destruct (N.ltb_spec (b_ninsn b + be_ninsn e - 65536) (b_ninsn b)) as [Y|Y]; [|exfalso; clear - Y Sz E2 Ls; lia].
        split; [apply keeps_refl|]. split; [exact Hca|]. eapply halted_ended. exists is, f. split; [exact W|]. split; [exact Hc|].
        split; [|intros _; clear - Ls E2; lia]. intros ->. cbn in Cnt. clear - Cnt Ls E2. lia. }
    rewrite N.mod_small by exact Ls.
    destruct (N.ltb_spec (b_ninsn b + be_ninsn e) (b_ninsn b)) as [Y|_]; [exfalso; clear - Y; lia|].
    match goal with |- post (bind (count ?n) ?k (?d, ?b)) ?P ?E ?U =>
      assert (G : forall d1, keeps d d1 -> still d d1 -> agrees d1 f -> bd_caches d1 = bd_caches d ->
        post (k tt (d1, b)) P E U) end.
    2:{ apply count_ok; [intros hh xx|..].
        - apply G; [exact (keeps_refl d)|repeat split|apply agrees_icnt, Ha|reflexivity].
        - apply G; [exact (keeps_refl d)|repeat split|exact Ha|reflexivity].
        - eapply walk_err; [exact W|apply sc_refl|discriminate|apply gives_excused; assumption]. }
    intros d1 K1 St1 A1 Ec1. cbv beta. apply post_change. apply post_change_blk.
    set (d2 := bd_set_ip d1 nip). set (b2 := b_set_mode _ _).
    assert (Hmb : f_mode f = b_mode b) by (symmetry; apply (w_mode _ _ _ _ _ _ _ _ _ _ _ _ _ W)).
    assert (K2 : keeps d d2) by exact K1. assert (St2 : still d d2) by exact St1.
    assert (A2 : agrees d2 f) by (apply agrees_ip, A1).
    assert (Ec2 : bd_caches d2 = bd_caches d) by exact Ec1.
    assert (Hc2 : has_cache d2 s) by (unfold has_cache; rewrite Ec2; exact Hca).
    assert (Mono : forall (m : M unit) b3, post (m (d2, b3)) (done_ s0 d2 s) (errs s0) (ubs s0) ->
                   post (m (d2, b3)) (done_ s0 d s) (errs s0) (ubs s0)).
    { intros m b3 P. eapply post_mono; [exact P| |auto|auto]. intros d3 b4 [] (Q1 & Q2 & Q3).
      split; [eapply keeps_trans; eassumption|]. split; assumption. }
    assert (On : forall (m : M unit) d3 b3, keeps d2 d3 -> bd_caches d3 = bd_caches d2 ->
                 post (m (d3, b3)) (on_ s0 d3) (errs s0) (ubs s0) ->
                 post (m (d3, b3)) (done_ s0 d s) (errs s0) (ubs s0)).
    { intros m d3 b3 K Ec P. apply on_done; [exact Hca|]. apply on_trans; [eapply keeps_trans; eassumption|congruence|exact P]. }
    assert (Again : be_qual e = ptbq_again ->
      post (bind (change_blk (fun b => b_set_iclass b ptic_unknown)) (fun _ => M_blk.cached im fuel s) (d2, b2)) (done_ s0 d s) (errs s0) (ubs s0)).
    { intros Q. rewrite Q in E4. apply post_change_blk. apply Mono.
      destruct (walk_chain s0 d b is f fs s isid (N.to_nat (be_ninsn e)) nip (b_set_iclass b2 ptic_unknown) d2) as (is' & Li & W2);
        try assumption; try reflexivity.
      { rewrite <- Ea. exact Ho. }
      { cbn. clear. lia. }
      eapply (IH d2 _ _ _ _ W2); try assumption.
      change (b_ninsn (b_set_iclass b2 ptic_unknown)) with (b_ninsn b + be_ninsn e). clear - L E2 Sz Ls. lia. }
    assert (Hq : be_qual e = ptbq_again \/ be_qual e <> ptbq_again /\
      chain content (f_mode f) (bi_key im s) (unmap s (f_ip f)) (N.to_nat (be_ninsn e) - 1) (unmap s nip) /\
      (be_qual e <> ptbq_decode -> exists t, section_text content (f_mode f) (bi_key im s) (unmap s nip) t /\
           qualifies (f_mode f) t (be_qual e) /\ (be_isize e = 0 \/ be_isize e = N.of_nat (length (render t))))).
    { destruct (be_qual e); [left; reflexivity|..]; right; (split; [discriminate|exact E4]). }
    destruct Hq as [Q|(Nq & Ch & Tq)]; [rewrite Q; apply Again, Q|]. clear Again E4.
    pose (bv := b_set_end b ptic_unknown nip (b_ninsn b + (be_ninsn e - 1))).
    destruct (walk_chain s0 d b is f fs s isid (N.to_nat (be_ninsn e) - 1) nip bv d2) as (is' & Li & W2);
      [exact W|exact Hc|exact Hbt|rewrite <- Ea; exact Ho|exact Hw|exact Es|exact Eis|exact Ch|cbn; clear - E2; lia|cbn; clear - E2 Ls; lia
      |reflexivity|reflexivity|reflexivity|reflexivity|exact Hbt|reflexivity|exact St2|exact A2|reflexivity|].
    set (fg := go f nip) in *.
    assert (Hcg : f_cur fg = None) by exact Hc.
    assert (Ag : agrees d2 fg) by (apply agrees_go, A2).
    destruct (op_all _ _ _ _ _ _ _ Ho _ Es) as (Pl & (cb & _ & Mc) & _).
    assert (Cn : counted bv b2 nip) by (constructor; try reflexivity; [cbn; clear - E2; lia|cbn; exact Ls|cbn; exact Hmb]).
    assert (Cls : forall c, counted bv (b_set_iclass b2 c) nip) by (intros c; destruct Cn; constructor; assumption).
    assert (Add : forall t c d3, text_at (mem a) (f_mode f) nip t -> class_of_block (b_set_iclass b2 c) (fst (meaning (f_mode f) t)) ->
           c <> ptic_unknown -> still d2 d3 -> agrees d3 (calls fg (called (site_of fg t) (f_calls fg))) -> bd_ip d3 = bd_ip d2 ->
           insn_of mem fg t (insn_at fg isid t) /\
           walking s0 d3 (b_set_iclass b2 c) ((is ++ is') ++ [insn_at fg isid t]) (mk_fstate (stop_at fg t) None fs)).
    { intros t c d3 T1 T2 T3 T4 T5 T6.
      assert (Ia : insn_of mem fg t (insn_at fg isid t)) by (eapply insn_at_ok; [cbn; rewrite <- Ea; exact T1|cbn; rewrite <- Ea; exact Mc]).
      split; [exact Ia|].
      eapply (count_insn s0 d2 bv _ fg fs (b_set_iclass b2 c) isid cb t _ W2 Hcg (Cls c)); [cbn; rewrite <- Ea; exact Mc|exact Eis|exact Ia|exact T2|exact T3| |exact T4|exact T5|exact T6].
      intros X; cbn in X; rewrite Hbt in X; discriminate X. }
    assert (Hne : forall i, (is ++ is') ++ [i] <> []) by (intros i; destruct (is ++ is'); discriminate).
    pose proof (section_decode im mem content at_ a isid s nip (f_mode f) Ho Es Eu) as SD.
    match goal with |- context [match be_qual e with ptbq_again => _ | ptbq_cond => _ | ptbq_ind_call => _ | ptbq_return => _ | ptbq_indirect => _ | ptbq_decode => ?dc end] =>
      assert (Dec : post (dc (d2, b2)) (done_ s0 d s) (errs s0) (ubs s0) /\
                    post (dc (d2, b_set_iclass b2 ptic_cond_jump)) (done_ s0 d s) (errs s0) (ubs s0)) end.
    { assert (Dec : forall c0, post (match pt_blk_decode_in_section im (new_insn nip (f_mode f) false) s with
          | (_, Err pte_bad_insn) => pt_blk_proceed_truncated im
          | (_, Err e) => fail e
          | (_, UB u) => lift (UB u)
          | (i, Ok x) =>
              bind (change_blk (fun b => b_set_iclass b (in_iclass i))) (fun _ =>
              bind (pt_blk_log_call i x) (fun _ =>
              match pt_insn_next_ip i x with
              | UB u => lift (UB u)
              | Err pte_bad_query => pt_blk_proceed_with_trace i x
              | Err e => fail e
              | Ok ip =>
                  bind (change (fun d => bd_set_ip d ip)) (fun _ =>
                  bind state (fun d =>
                  if ends_block d i then ret tt else
                  if negb (pt_blk_is_in_section im s ip) then ret tt else M_blk.cached im fuel s))
              end))
          end (d2, b_set_iclass b2 c0)) (done_ s0 d s) (errs s0) (ubs s0)).
      2:{ split; [apply (Dec (b_iclass b2))|apply (Dec ptic_cond_jump)]. }
      intros c0. destruct (pt_blk_decode_in_section _ _ _) as [i [x|er|u]].
      - destruct SD as (D1 & D2 & D3 & t & D4 & D5 & D6 & D7).
        assert (D7a : in_iclass i = fst (meaning (f_mode f) t)) by (rewrite <- D7; reflexivity).
        assert (D7b : x = snd (meaning (f_mode f) t)) by (rewrite <- D7; reflexivity).
        assert (Est : site_of_insn i x = site_of fg t).
        { unfold site_of_insn, site_of. cbn. rewrite D2, D5, D7a, D7b. reflexivity. }
        assert (Hcl : in_iclass i <> ptic_unknown) by (rewrite D7a; apply meaning_class).
        apply post_change_blk. set (b3 := b_set_iclass (b_set_iclass b2 c0) (in_iclass i)).
        eapply post_bind; [eapply post_mono; [apply (log_call_ok cached content mode_of d2 b3 fg i x t Ag Est)| | |]|].
        { intros d3 b4 u H. exact H. }
        { intros ? ? ? []. }
        { intros ? ? ? []. }
        intros d3 b4 _ (-> & K3 & St3 & Eip3 & Ec3 & Ag3).
        destruct (Add t (in_iclass i) d3 D4) as (Ia & W3); [left; exact D7a|exact Hcl|exact St3|exact Ag3|exact Eip3|].
        pose proof (next_site fg t i x Est) as Nx.
        destruct (pt_insn_next_ip i x) as [ip|er|u] eqn:Enx; [|pose proof (proj1 Nx); subst er|destruct Nx].
        + apply post_change. apply post_state.
          assert (W4 : walking s0 (bd_set_ip d3 ip) b3 ((is ++ is') ++ [insn_at fg isid t]) (mk_fstate (passed fg t ip) None fs)).
          { eapply pass_site; [exact W3|eauto|exact Ia|exact Est|exact Hcl|exact Enx|discriminate]. }
          assert (En4 : ended s0 (bd_set_ip d3 ip) b3).
          { eapply halted_ended. eexists _, _. split; [exact W4|]. split; [reflexivity|]. split; [apply Hne|]. intros X. destruct (Hcl X). }
          assert (Hc4 : has_cache (bd_set_ip d3 ip) s) by (unfold has_cache; cbn; rewrite Ec3; exact Hc2).
          assert (K4 : keeps d (bd_set_ip d3 ip)) by (eapply keeps_trans; [exact K2|exact K3]).
          destruct (ends_block _ i); [split; [exact K4|split; assumption]|].
          destruct (pt_blk_is_in_section im s ip) eqn:Ein; cbn [negb]; [|split; [exact K4|split; assumption]].
          apply in_section_spec in Ein.
          eapply post_mono; [eapply (IH _ _ _ _ _ W4 eq_refl Ea Ho Ein)| |auto|auto].
          * exact Eis.
          * exact Hbt.
          * exact Hc4.
          * change (b_ninsn b3) with (b_ninsn b + be_ninsn e). clear - L E2 Sz Ls. lia.
          * intros d5 b5 [] (Q1 & Q2 & Q3). split; [eapply keeps_trans; [exact K4|exact Q1]|]. split; assumption.
        + apply On; [exact K3|exact Ec3|]. eapply trace_end; [exact W3|apply Hne|exact Est|reflexivity|exact Enx].
      - destruct SD as (-> & SD). apply On; [apply keeps_refl|reflexivity|].
        eapply (truncated_ok s0 d2 bv _ fg fs _ isid cb Hs W2 Hcg (Cls c0)); [cbn; rewrite <- Ea; exact Mc|exact Eis|exact Eu|].
        cbn. rewrite <- Ea. eexists. split; [exact Pl|]. intros t Tt. specialize (SD t Tt). exact SD.
      - destruct SD as (-> & Hh & _). split; [reflexivity|]. eexists _, _. split; [apply W2|]. cbn. rewrite <- Ea. exact Hh. }
    destruct Dec as (Dec1 & Dec2).
    assert (Txt : be_qual e <> ptbq_decode -> exists t i0, text_at (mem a) (f_mode f) nip t /\
      qualifies (f_mode f) t (be_qual e) /\ (be_isize e = 0 \/ be_isize e = N.of_nat (length (render t))) /\
      pt_blk_decode_in_section im (new_insn nip (f_mode f) false) s = (i0, Ok (snd (meaning (f_mode f) t))) /\
      in_size i0 = length (render t)).
    { intros Nd. destruct (Tq Nd) as (t & Ht & Hq & Hz).
      assert (Ft : N.of_nat (length (render t)) <= bi_end im s - nip).
      { eapply (not_split s0 d2 bv (is ++ is') fg None fs s isid t Hs W2); [eapply calm; eassumption| |exact Es|exact Ht].
        change (f_asid fg) with (f_asid f). rewrite <- Ea. exact Ho. }
      pose proof (content_text im mem content at_ a isid s (f_mode f) nip t Ho Es Ht Ft) as Ta.
      destruct (pt_blk_decode_in_section _ _ _) as [i0 [x|er|u]].
      - destruct SD as (D1 & D2 & D3 & t' & D4 & D5 & D6 & D7). exists t, i0.
        destruct (text_unique _ _ _ _ _ Eu Ta D4) as (T1 & T2).
        split; [exact Ta|]. split; [exact Hq|]. split; [exact Hz|]. rewrite T2, <- D7. split; [reflexivity|]. congruence.
      - destruct SD as (_ & SD). specialize (SD t Ta). exfalso. clear - SD Ft. lia.
      - destruct SD as (_ & _ & SD). destruct (SD t Ta). }
    assert (Ask : forall t c (m : M unit), text_at (mem a) (f_mode f) nip t -> class_of_block (b_set_iclass b2 c) (fst (meaning (f_mode f) t)) ->
      c <> ptic_unknown -> fst (meaning (f_mode f) t) <> ptic_call ->
      m (d2, b_set_iclass b2 c) = pt_blk_proceed_with_trace (insn_at fg isid t) (snd (meaning (f_mode f) t)) (d2, b_set_iclass b2 c) ->
      pt_insn_next_ip (insn_at fg isid t) (snd (meaning (f_mode f) t)) = Err pte_bad_query ->
      post (m (d2, b_set_iclass b2 c)) (done_ s0 d s) (errs s0) (ubs s0)).
    { intros t c m T1 T2 T3 T4 T5 T6. rewrite T5.
      destruct (Add t c d2 T1 T2 T3) as (Ia & W3); [repeat split| |reflexivity|].
      { unfold called. cbn [si_class site_of]. change (f_mode fg) with (f_mode f).
        replace (calls fg _) with fg; [exact Ag|]. destruct (fst (meaning (f_mode f) t)); try reflexivity. congruence. }
      apply On; [apply keeps_refl|reflexivity|]. eapply trace_end; [exact W3|apply Hne|reflexivity|reflexivity|exact T6]. }
    destruct (be_qual e) eqn:Q; [congruence|..].
    - destruct (N.eqb_spec (be_isize e) 0) as [Z0|Z0]; cbn [negb].
      { apply post_change_blk. exact Dec2. }
      destruct (Txt ltac:(discriminate)) as (t & i0 & T1 & T2 & [T3|T3] & T4 & T5); [congruence|].
      apply post_change_blk. eapply (Ask t ptic_cond_jump); [exact T1|left; symmetry; exact T2|discriminate|rewrite T2; discriminate| |unfold pt_insn_next_ip; cbn [in_iclass insn_at]; change (f_mode fg) with (f_mode f); rewrite T2; reflexivity].
      unfold pt_blk_proceed_with_trace. cbn [in_iclass insn_at]. change (f_mode fg) with (f_mode f). rewrite T2.
      unfold bind. destruct (pt_blk_cond_branch _) as [st [[[|]|]|er|u]]; try reflexivity.
      + rewrite T4. unfold bind, lift, change, ip_after. destruct st as [dd bb]. cbn [in_ip in_size insn_at f_ip fg go].
        rewrite T3, add64_swap. reflexivity.
      + unfold ip_after. cbn [in_ip in_size insn_at f_ip fg go]. rewrite T3. reflexivity.
    - destruct (Txt ltac:(discriminate)) as (t & i0 & T1 & (T2 & T2') & T3 & T4 & T5).
      apply post_change_blk. set (b3 := b_set_iclass b2 ptic_call).
      assert (X : forall ip, ip = add64 nip (N.of_nat (length (render t))) ->
        post (bind (push ip) (fun _ => pt_blk_proceed_indirect) (d2, b3)) (done_ s0 d s) (errs s0) (ubs s0)).
      { intros ip ->. unfold push.
        destruct (push_rep _ _ (add64 nip (N.of_nat (length (render t)))) (a_calls _ _ _ _ _ Ag)) as (r' & Er & Hr).
        pose (d3 := bd_set_retstack d2 r').
        assert (Ex3 : bind (bind state (fun d => let (r, p) := pt_retstack_push (bd_retstack d) (add64 nip (N.of_nat (length (render t)))) in
                        bind (change (fun d => bd_set_retstack d r)) (fun _ => lift p))) (fun _ => pt_blk_proceed_indirect) (d2, b3)
                     = pt_blk_proceed_indirect (d3, b3)).
        { unfold bind, state, change. cbn [fst snd]. change (bd_retstack (fst (d2, b3))) with (bd_retstack d2). rewrite Er. reflexivity. }
        rewrite Ex3. clear Ex3.
        destruct (Add t ptic_call d3 T1) as (Ia & W3); [left; symmetry; exact T2|discriminate|repeat split| |reflexivity|].
        { apply agrees_calls; [exact Ag|]. unfold called. cbn [si_class site_of]. change (f_mode fg) with (f_mode f). rewrite T2.
          cbn [is_call]. unfold remember. cbn [si_ext site_of]. change (f_mode fg) with (f_mode f). rewrite T2'. cbn [andb].
          unfold next_insn. cbn [si_ip si_len site_of]. rewrite <- add64_offset. exact Hr. }
        assert (Ex3 : pt_blk_proceed_indirect (d3, b3) = pt_blk_proceed_with_trace (insn_at fg isid t) (snd (meaning (f_mode f) t)) (d3, b3)).
        { unfold pt_blk_proceed_with_trace. cbn [in_iclass insn_at]. change (f_mode fg) with (f_mode f). rewrite T2, T2'. reflexivity. }
        rewrite Ex3. apply On; [repeat split|reflexivity|]. eapply trace_end; [exact W3|apply Hne|reflexivity|reflexivity|].
        unfold pt_insn_next_ip. cbn [in_iclass insn_at]. change (f_mode fg) with (f_mode f). rewrite T2, T2'. reflexivity. }
      destruct (N.eqb_spec (be_isize e) 0) as [Z0|Z0]; cbn [negb].
      + rewrite T4. eapply post_bind with (P := fun d' b' ip => d' = d2 /\ b' = b3 /\ ip = add64 nip (N.of_nat (length (render t)))).
        { unfold bind, lift, ret. cbn. rewrite T5. auto. }
        intros d3 b4 ip (-> & -> & E). apply X, E.
      + eapply post_bind with (P := fun d' b' ip => d' = d2 /\ b' = b3 /\ ip = add64 nip (N.of_nat (length (render t)))).
        { cbn. destruct T3 as [T3|T3]; [congruence|]. rewrite T3. auto. }
        intros d3 b4 ip (-> & -> & E). apply X, E.
    - destruct (Txt ltac:(discriminate)) as (t & i0 & T1 & T2 & T3 & T4 & T5).
      apply post_change_blk. eapply (Ask t ptic_return); [exact T1|left; symmetry; exact T2|discriminate|rewrite T2; discriminate| |unfold pt_insn_next_ip; cbn [in_iclass insn_at]; change (f_mode fg) with (f_mode f); rewrite T2; reflexivity].
      unfold pt_blk_proceed_with_trace. cbn [in_iclass insn_at]. change (f_mode fg) with (f_mode f). rewrite T2. reflexivity.
    - destruct (Txt ltac:(discriminate)) as (t & i0 & T1 & T2 & T3 & T4 & T5).
      unfold qualifies in T2. apply post_change_blk. eapply (Ask t ptic_indirect); [exact T1| |discriminate| | |].
      + destruct T2 as [(T2 & _)|[T2|T2]]; [right; auto|left; symmetry; exact T2|right; auto].
      + intros X. unfold far in T2. rewrite X in T2. destruct T2 as [(T2 & _)|[T2|T2]]; discriminate T2.
      + unfold pt_blk_proceed_with_trace, is_jmpabs. cbn [in_iclass insn_at]. change (f_mode fg) with (f_mode f). destruct T2 as [(T2 & T2')|[T2|T2]].
        * rewrite T2. destruct (x_inst _); destruct (x_direct _); try discriminate T2'; reflexivity.
        * rewrite T2. reflexivity.
        * unfold far in T2. destruct (fst (meaning (f_mode f) t)); try discriminate T2; reflexivity.
      + unfold pt_insn_next_ip, is_jmpabs. cbn [in_iclass insn_at]. change (f_mode fg) with (f_mode f). destruct T2 as [(T2 & T2')|[T2|T2]].
        * rewrite T2. destruct (x_inst _); try reflexivity; destruct (x_direct _); try discriminate T2'; reflexivity.
        * rewrite T2. reflexivity.
        * unfold far in T2. destruct (fst (meaning (f_mode f) t)); try discriminate T2; reflexivity.
    - exact Dec1.
  Qed.

  (** ** Sections *)

  Definition moved (d d' : dec) (f : flow) : Prop :=
    keeps d d' /\ still d d' /\ bd_ip d' = bd_ip d /\ agrees d' f.

  Lemma lookup_ok d b f : agrees d f ->
    post (pt_blk_msec_lookup im (d, b))
      (fun d' b' l => b' = b /\ moved d d' f /\ opened (f_asid f) (fst l) (snd l) /\ window (snd l) (bd_ip d))
      (fun d' b' e => b' = b /\ moved d d' f /\ e <> pte_eos /\ (e <> pte_nomap -> ex e)) no_ub.
  Proof.
    intros Ha. unfold pt_blk_msec_lookup. apply post_state. cbv zeta.
    pose proof (a_cache _ _ _ _ _ Ha) as Hc. pose proof (a_asid _ _ _ _ _ Ha) as Ea.
    pose proof (is_lookup _ _ _ (bl_image _ _ _ _ _ _ shows) _ _ (bd_ip d) Hc) as Il.
    pose proof (lookup_opened im mem cached content at_ mode_of shows (bd_scache d) (bd_asid d) (bd_ip d)) as Lo.
    pose proof (ex_lookup (bd_scache d) (bd_asid d) (bd_ip d)) as El.
    destruct (im_lookup _ _ _ _) as [c [[isid s]|e|u]]; [| |destruct Il].
    - specialize (Lo c isid s Hc eq_refl). rewrite Ea in Lo. destruct Lo as (Lo & Lw). destruct Il as (Ic & _).
      apply post_change.
      assert (A1 : agrees (bd_set_scache d c) f).
      { destruct Ha. constructor; try assumption. }
      destruct (bi_hit _ _ _); [split; [reflexivity|]; split; [split; [repeat split|split; [repeat split|split; [reflexivity|exact A1]]]|split; assumption]|].
      apply post_change. set (d2 := bd_set_caches _ _).
      assert (A2 : agrees d2 f).
      { apply agrees_caches; [exact A1|]. intros k c' E. destruct (bi_kept im c k); [|discriminate E].
        exact (a_caches _ _ _ _ _ Ha k c' E). }
      eapply post_bind with (P := fun d' b' l => d' = d2 /\ b' = b /\ l = (isid, s)); [split; auto|].
      intros d3 b3 l (-> & -> & ->). unfold interfere. apply post_change. cbv beta.
      pose proof (interfere_ok d2 f A2) as Al. destruct (bi_others im (bd_scache d2) (bd_caches d2)) as [c0 cs0].
      set (d1 := bd_set_caches (bd_set_scache d2 c0) cs0) in *. clearbody d1. destruct Al as (K2 & S2 & I2 & _ & Al).
      apply Al in A2. change (keeps d d1) in K2. change (still d d1) in S2. change (bd_ip d1 = bd_ip d) in I2.
      clear Al. clearbody d2. clear d2. rename d1 into d2.
      apply post_state. cbn [snd].
      destruct (bd_caches d2 (bi_key im s)) eqn:Ek.
      { split; [reflexivity|]. split; [split; [exact K2|split; [exact S2|split; [exact I2|exact A2]]]|split; assumption]. }
      destruct (bl_alloc _ _ _ _ _ _ shows (bi_key im s)) as (B1 & B2).
      pose proof (ex_alloc (bi_key im s)) as Al.
      destruct (bi_alloc im (bi_key im s)) as [got r]. cbn [snd] in B1, B2, Al. apply post_change.
      set (d3 := if got then _ else _).
      assert (A3 : agrees d3 f /\ keeps d2 d3 /\ still d2 d3 /\ bd_ip d3 = bd_ip d2).
      { unfold d3. destruct got; [|split; [exact A2|repeat split]]. split; [|repeat split]. apply agrees_caches; [exact A2|].
        intros k c' E. unfold put_cache in E. destruct (N.eqb_spec k (bi_key im s)) as [->|Nk].
        - injection E as <-. split; [intros o b0 X; exact (bl_size _ _ _ _ _ _ shows _ _ _ X)|]. intros o _ X. cbn in X. congruence.
        - exact (a_caches _ _ _ _ _ A2 k c' E). }
      destruct A3 as (A3 & K3 & S3 & I3).
      assert (Mv : moved d d3 f).
      { split; [eapply keeps_trans; eassumption|]. split; [eapply still_trans; eassumption|].
        split; [rewrite I3; exact I2|exact A3]. }
      destruct r as [r|e|u]; [| |destruct (B2 u eq_refl)].
      + split; [reflexivity|]. split; [exact Mv|split; assumption].
      + split; [reflexivity|]. split; [exact Mv|]. split; [congruence|]. intros _. apply Al. reflexivity.
    - destruct Il as (Ic & Ie). apply post_change.
      assert (A1 : agrees (bd_set_scache d c) f).
      { destruct Ha. constructor; try assumption. }
      destruct (bi_hit _ _ _); [split; [reflexivity|]; split; [split; [repeat split|split; [repeat split|split; [reflexivity|exact A1]]]|split; [exact Ie|apply (El e Hc eq_refl)]]|].
      apply post_change. set (d2 := bd_set_caches _ _).
      assert (A2 : agrees d2 f).
      { apply agrees_caches; [exact A1|]. intros k c' E. destruct (bi_kept im c k); [|discriminate E].
        exact (a_caches _ _ _ _ _ Ha k c' E). }
      cbn. split; [reflexivity|]. split; [split; [repeat split|split; [repeat split|split; [reflexivity|exact A2]]]|split; [exact Ie|apply (El e Hc eq_refl)]].
  Qed.

  Lemma no_event_ok s0 d b f fs : sane s0 -> walking s0 d b [] (mk_fstate f None fs) -> f_cur f = None ->
    post (pt_blk_proceed_no_event im (d, b)) (fun d' b' _ => keeps d d' /\ ended s0 d' b') (errs s0) (ubs s0).
  Proof.
    intros Hs W Hc. unfold pt_blk_proceed_no_event.
    pose proof (w_agree _ _ _ _ _ _ _ _ _ _ _ _ _ W) as Ha. cbn [fs_flow] in Ha.
    pose proof (lookup_ok d b f Ha) as P. rewrite (w_ip _ _ _ _ _ _ _ _ _ _ _ _ _ W) in P. cbn [fs_flow] in P.
    assert (Step : forall d1 b1 b2 (m : M unit), keeps d d1 -> post (m (d1, b1)) (fun d' b' _ => keeps d1 d' /\ ended s0 d' b') (errs s0) (ubs s0) ->
      b2 = b1 -> post (m (d1, b2)) (fun d' b' _ => keeps d d' /\ ended s0 d' b') (errs s0) (ubs s0)).
    { intros d1 b1 b2 m K Pm ->. eapply post_mono; [exact Pm| |auto|auto]. intros d' b' [] (H1 & H2).
      split; [eapply keeps_trans; eassumption|exact H2]. }
    assert (Unc : forall d1 b1, walking s0 d1 b1 [] (mk_fstate f None fs) ->
      post (pt_blk_proceed_no_event_uncached im (d1, b1)) (fun d' b' _ => keeps d1 d' /\ ended s0 d' b') (errs s0) (ubs s0)).
    { intros d1 b1 W1. eapply post_mono; [eapply uncached_ok; eassumption| |auto|auto]. intros d' b' [] (H1 & H2 & H3). auto. }
    destruct (pt_blk_msec_lookup im (d, b)) as [[d1 b1] [[isid s]|e|u]]; cbn [post] in P; [| |destruct P].
    - destruct P as (-> & (K & St & Ei & A) & Ho & Hw). cbn [fst snd] in Ho, Hw.
      assert (Z0 : b_ninsn b = 0) by (rewrite (ex_count _ _ _ (w_exp _ _ _ _ _ _ _ _ _ _ _ _ _ W)); reflexivity).
      apply post_blk. unfold pt_blk_block_is_empty. rewrite Z0, N.eqb_refl. cbn [negb]. rewrite andb_false_r.
      apply post_change_blk. apply post_state.
      set (b2 := b_set_isid b isid).
      assert (W2 : walking s0 d1 b2 [] (mk_fstate f None fs)).
      { pose proof (walking_d _ _ _ _ _ d1 W St A Ei) as W1. destruct W1. constructor; try assumption.
        - destruct w_exp as [X1 X2 X3]. constructor; [exact X1|constructor|]. intros l i X. destruct l; discriminate X.
        - intros X. split; [exact Hc|]. split; [apply (w_first eq_refl)|left; reflexivity]. }
      destruct (bd_caches d1 (bi_key im s)) eqn:Ek.
      + eapply (Step d1 b2); [exact K| |reflexivity]. unfold pt_blk_proceed_no_event_cached. apply post_blk.
        eapply post_mono; [eapply (cached_ok s0 (f_asid f) isid s Hs _ d1 b2 [] f fs W2 Hc eq_refl Ho Hw eq_refl)| |auto|auto].
        * apply (w_first _ _ _ _ _ _ _ _ _ _ _ _ _ W2 eq_refl).
        * unfold has_cache. congruence.
        * unfold room. apply Nat.lt_succ_diag_r.
        * intros d' b' [] (H1 & _ & H2). auto.
      + eapply (Step d1 b2); [exact K| |reflexivity]. apply Unc, W2.
    - destruct P as (-> & (K & St & Ei & A) & He & Xe). pose proof (walking_d _ _ _ _ _ d1 W St A Ei) as W1.
      assert (X : e <> pte_nomap -> errs s0 d1 b e) by (intros Y; eapply walk_err; [eassumption|apply sc_refl|assumption|apply gives_excused, Xe, Y]).
      destruct e; try (apply X; discriminate).
      eapply (Step d1 b); [exact K| |reflexivity]. apply Unc, W1.
  Qed.

End BLOCKS.
