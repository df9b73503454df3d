(** Lemmas on the block decoder: proceeding to events. *)

From Coq Require Import List NArith ZArith Bool PeanoNat Lia.
From Verif Require Import Base M_config M_time M_pktdec M_event M_evdec M_query M_retstack M_asid M_ildtab M_ild
  M_insn M_insndec M_blk L_calm S_core S_evdec S_x86 S_insn S_query S_flow S_drive S_blk L_core L_evdec L_evsafe L_evnext
  L_insn T_ild T_insn L_query L_query2 T_evdec T_evtrace L_flow L_flow2 L_flow3 L_flow4 L_blk L_blk2 L_blk3 L_blk4 L_blk5
  L_blk6.
Import ListNotations.
Open Scope N_scope.

Section BLOCKS.
  Context (cf : config) (buf : list N) (base : nat) (err : pte).
  Hypothesis sized : callback_sized cf.
  Hypothesis freq : (cf_mtc_freq cf < 24)%N.
  Hypothesis small : (N.of_nat (length buf) + 1 < 2 ^ 31)%N.
  Hypothesis bytes : bytes_ok buf.
  Hypothesis no_bdm64 : er_bdm64 (cf_errata cf) = false.
  Hypothesis no_skd022 : er_skd022 (cf_errata cf) = false.
  Hypothesis no_skl014 : er_skl014 (cf_errata cf) = false.
  Context {S C : Type} (im : blk_image S C) (mem : asid -> memory) (cached : C -> asid -> Prop).
  Context (content : N -> N -> option N) (at_ : asid -> N -> option place) (mode_of : N -> exec_mode).
  Hypothesis shows : blocks_show im mem cached content at_ mode_of.
  Notation dec := (blkdec C).
  Notation agrees := (agrees cached content mode_of).
  Notation rest := (rest cf buf base err).
  Notation bflows := (bflows mem err).
  Notation sane := (sane mem content at_ mode_of err).
  Notation walking := (walking cf buf base err mem cached content mode_of).
  Context (ex : pte -> Prop).
  Hypothesis ex_ovf : ex pte_overflow.
  Hypothesis ex_lookup : forall c a ip e, cached c a -> snd (im_lookup (bi_image im) c a ip) = Err e ->
    e <> pte_nomap -> ex e.
  Hypothesis ex_alloc : forall k e, snd (bi_alloc im k) = Err e -> ex e.
  Notation gives_up := (gives_up mem err ex).
  Notation errs := (errs err mem cached content mode_of ex).
  Notation ubs := (ubs err mem).
  Notation stopped := (stopped cf buf base err mem cached content at_ mode_of).
  Notation halted := (halted cf buf base err mem cached content mode_of).
  Notation ended := (ended cf buf base err mem cached content mode_of).
  Notation settled := (settled cf buf base err cached content mode_of).
  Notation idle := (idle cf buf base err cached content mode_of).
  Notation pends := (pends cf buf base err im mem cached content mode_of ex).
  Notation between := (between cf buf base err im mem cached content mode_of ex).
  Notation pend_here := (pend_here cf buf base err cached content mode_of).
  Notation pend_cause := (pend_cause cf buf base err cached content mode_of).
  Notation pend_end := (pend_end cf buf base err cached content mode_of).
  Notation goes := (goes cf buf base err im mem cached content mode_of ex).
  Notation pending := M_blk.pending.

  (** A call gives a block. *)
  Definition gives (s0 : fstate) : dec -> block -> N -> Prop := fun d b st =>
    exists is s, bflows s0 (map O_insn is) s /\ expands (mem (f_asid (fs_flow s0))) b is /\
      (is = [] -> flag st pts_event_pending = true) /\
      (b_iclass b = ptic_unknown -> is = [] \/ 65280 < b_ninsn b) /\ between d st s.

  Lemma start_walk d s : settled d s -> bd_status d = None \/ bd_status d = Some pte_eos -> f_on (fs_flow s) = true ->
    walking s d (new_block (bd_ip d) (bd_mode d) (bd_spec d)) [] s.
  Proof.
    intros [Ha Hi Hr Hf Hc Cl] L On. constructor; try assumption; try reflexivity; try discriminate.
    - constructor.
    - constructor; [reflexivity|constructor|]. intros l i X. destruct l; discriminate X.
    - apply Ha.
    - apply Ha.
    - rewrite Hc. rewrite <- Hi. constructor.
    - intros _. repeat split; [exact Hc|]. left. reflexivity.
  Qed.

  (** An event is indicated. *)
  Lemma pend_gives s0 is f ev fs d b : bflows s0 (map O_insn is) (mk_fstate f (Some ev) fs) ->
    expands (mem (f_asid (fs_flow s0))) b is -> (b_iclass b = ptic_unknown -> is = [] \/ 65280 < b_ninsn b) ->
    agrees d f -> rest d (Some ev) fs -> pends d (mk_fstate f (Some ev) fs) ->
    post (pending (d, b)) (gives s0) (errs s0) (ubs s0).
  Proof.
    intros F X U A R P.
    unfold pending, indicate. apply post_state. exists is, (mk_fstate f (Some ev) fs).
    pose proof (pending_ok cf buf base err im mem cached content mode_of ex d b f ev fs A R P) as Q.
    split; [exact F|]. split; [exact X|]. split; [intros _; apply (status_event d true)|]. split; [exact U|]. apply Q.
  Qed.
  (** The walk stops early. *)
  Lemma stop_gives s0 d d0 b h fs : halted s0 d b h fs -> same d0 d -> closed d0 -> bd_status d0 = None ->
    gives s0 d b 0.
  Proof.
    intros (is & f & W & Hc & Hn & Hu) (K & (S1 & S2 & S3) & _) Cl St.
    destruct W. cbn [fs_flow fs_held fs_facts] in *. exists is, (mk_fstate f h fs). split; [assumption|]. split; [assumption|].
    split; [congruence|]. split; [auto|]. constructor; cbn [fs_flow fs_held fs_facts].
    - rewrite w_on. reflexivity.
    - discriminate.
    - change (flag 0 pts_event_pending) with false. cbv iota. constructor; [|cbn [fs_flow]; congruence].
      constructor; cbn [fs_flow fs_held fs_facts]; try assumption.
      destruct K as (K1 & K2 & _), Cl. split; congruence.
  Qed.

  (** The walk needs the trace before the event. *)
  Lemma stuck_err s0 d b i x ev fs : stopped s0 d b i x (Some ev) fs -> pt_insn_next_ip i x = Err pte_bad_query ->
    ~ belongs (site_of_insn i x) [] ev -> errs s0 d b pte_bad_query.
  Proof.
    intros (is & g & t & i' & _ & A & W) Nx Nb. pose proof (ai_site _ _ _ _ _ _ _ _ A) as Es.
    eapply walk_err; [exact W|apply sc_refl|discriminate|]. apply gives_blocked. eapply blocked_site; [reflexivity|discriminate| |].
    - intros e [= <-]. rewrite <- Es. exact Nb.
    - pose proof (next_site g t i x Es) as X. rewrite Nx in X. destruct X as (_ & X). intros _ _ [Y|Y]; congruence.
  Qed.

  (** At an address. *)
  Lemma at_ip_ok s0 d b f ev fs ip (k : M N) : sane s0 -> walking s0 d b [] (mk_fstate f (Some ev) fs) -> f_cur f = None ->
    closed d -> bd_status d = None -> kind_of ev = None -> (forall a, ev_var ev <> Ev_disabled a) ->
    (forall f, f_on f = true -> here f ev = (f_ip f =? ip)) ->
    (forall d' b', same d d' -> k (d', b') = pending (d', b')) ->
    post (bind (pt_blk_proceed_to_ip im ip) (fun w => match w with
            | W_stop => ret 0 | W_done _ => k | W_trace _ _ => fail pte_bad_query end) (d, b)) (gives s0) (errs s0) (ubs s0).
  Proof.
    intros Hs W Hc Cl St Hk Hd Hh Kp. unfold pt_blk_proceed_to_ip.
    eapply post_bind.
    - apply post_blk. apply (to_ip_ok cf buf base err im mem cached content at_ mode_of shows ex ex_ovf s0 ip Hs (room b) d b [] f (Some ev) fs W Hc).
      + congruence.
      + intros e g [= <-] On Ne. rewrite (Hh g On). apply N.eqb_neq. exact Ne.
      + intros e g t [= <-] _ _ [X|(k' & X & _)]; [|congruence]. unfold ends in X.
        destruct (ev_var ev) eqn:Ev; try discriminate X. eapply Hd; reflexivity.
      + unfold room. clear. lia.
    - intros d1 b1 w (Sm & X). destruct w as [|[p|]|i x].
      + eapply stop_gives; eassumption.
      + destruct p. destruct X.
      + destruct X as (is' & f' & W' & Hc' & Hi & Hu). rewrite (Kp d1 b1 Sm).
        pose proof W' as W2. destruct W2. cbn [fs_flow fs_held fs_facts] in *.
        eapply pend_gives; try eassumption.
        * intros U. left. destruct is'; [reflexivity|]. exfalso. apply Hu; congruence.
        * right. exists f', ev, fs. split; [reflexivity|]. left. constructor; try assumption.
          -- rewrite Hh by assumption. apply N.eqb_eq. exact Hi.
          -- left. destruct Sm as ((K1 & K2 & _) & _), Cl. split; congruence.
      + destruct X as (Nx & X & _). eapply stuck_err; [exact X|exact Nx|]. intros [Y|(k' & Y & _)]; [|congruence].
        unfold ends in Y. destruct (ev_var ev) eqn:Ev; try discriminate Y. eapply Hd; reflexivity.
  Qed.

  (** Here. *)
  Lemma now_ok s0 d b f ev fs : walking s0 d b [] (mk_fstate f (Some ev) fs) -> f_cur f = None -> closed d ->
    here f ev = true -> post (pending (d, b)) (gives s0) (errs s0) (ubs s0).
  Proof.
    intros W Hc Cl Hh. destruct W. cbn [fs_flow fs_held fs_facts] in *. eapply pend_gives; try eassumption; [auto|].
    right. exists f, ev, fs. split; [reflexivity|]. left. constructor; try assumption. left. exact Cl.
  Qed.

  (** At an instruction. *)
  Lemma postpone_ok s0 d d0 b i x f t i' is ev fs k mark : at_insn mem at_ f b i x t i' ->
    walking s0 d b is (mk_fstate (stop_at f t) (Some ev) fs) -> closed d0 -> same d0 d ->
    kind_of ev = Some k -> also_causes (site_of_insn i x) [] ev = true -> kinds (mark no_bounds) [k] ->
    post (pt_blk_postpone_insn (i, x) mark (d, b)) (gives s0) (errs s0) (ubs s0).
  Proof.
    intros A W (C1 & C2) ((K1 & K2 & _) & _) Hk Hc Hm. unfold pt_blk_postpone_insn. apply post_change. apply post_state.
    cbn [bd_postponed bd_set_postponed]. rewrite K1, C1. apply post_change. rewrite K2, C2.
    destruct W. cbn [fs_flow fs_held fs_facts] in *.
    set (d1 := bd_set_postponed _ _ _).
    assert (A1 : agrees d1 (stop_at f t)) by (repeat apply agrees_postponed; assumption).
    assert (R1 : rest d1 (Some ev) fs) by (eapply still_rest; [|exact w_rest]; repeat split).
    eapply pend_gives; try eassumption.
    - intros U. rewrite (ai_class _ _ _ _ _ _ _ _ A) in U. destruct (ai_known _ _ _ _ _ _ _ _ A U).
    - right. exists (stop_at f t), ev, fs. split; [reflexivity|]. right. left. constructor; try assumption.
      exists i, x, [], k, f, t. pose proof (ai_site _ _ _ _ _ _ _ _ A) as Es.
      split; [reflexivity|]. split; [rewrite Es; reflexivity|]. split; [exact Es|]. split.
      { change (bd_ip d1) with (bd_ip d). rewrite w_ip. change (f_ip (stop_at f t)) with (f_ip f).
        change (in_ip i) with (si_ip (site_of_insn i x)). rewrite Es. reflexivity. }
      split; [exact Hk|]. split; [intros []|]. split; [exact Hc|]. exact Hm.
  Qed.

  Lemma at_insn_ok s0 d b f ev fs k pred mark : sane s0 -> walking s0 d b [] (mk_fstate f (Some ev) fs) -> f_cur f = None ->
    closed d -> bd_status d = None -> kind_of ev = Some k -> kinds (mark no_bounds) [k] ->
    (forall g, f_on g = true -> here g ev = false) ->
    (forall i x, also_causes (site_of_insn i x) [] ev = pred i x) ->
    post (event_at_insn (pt_blk_proceed_to_insn im pred) mark (d, b)) (gives s0) (errs s0) (ubs s0).
  Proof.
    intros Hs W Hc Cl St Hk Hm Hh Hp. unfold event_at_insn, pt_blk_proceed_to_insn.
    assert (Nd : forall s, ends s ev = false).
    { intros s. unfold ends. unfold kind_of in Hk. destruct (ev_var ev); try discriminate Hk; reflexivity. }
    eapply post_bind.
    - apply post_blk. apply (to_insn_ok cf buf base err im mem cached content at_ mode_of shows ex ex_ovf s0 pred Hs (room b) d b [] f (Some ev) fs W Hc).
      + intros e g [= <-] On. apply Hh, On.
      + intros e g t i x [= <-] Es Pf _ [X|(k' & _ & _ & X)]; [rewrite Nd in X; discriminate|].
        rewrite <- Es, Hp, Pf in X. discriminate.
      + unfold room. clear. lia.
    - intros d1 b1 w (Sm & X). destruct w as [|[[i x]|]|i x].
      + eapply stop_gives; eassumption.
      + destruct X as (Pt & (is & g & t & i' & _ & A & W')). eapply postpone_ok; try eassumption. rewrite Hp. exact Pt.
      + destruct X.
      + destruct X as (Pf & Nx & X). eapply stuck_err; [exact X|exact Nx|].
        intros [Y|(k' & _ & _ & Y)]; [rewrite Nd in Y; discriminate|]. rewrite Hp, Pf in Y. discriminate.
  Qed.

  Lemma at_cause_ok s0 d b f ev fs k pred mark ip : sane s0 -> walking s0 d b [] (mk_fstate f (Some ev) fs) -> f_cur f = None ->
    closed d -> bd_status d = None -> kind_of ev = Some k -> kinds (mark no_bounds) [k] ->
    (forall g, f_on g = true -> here g ev = false) ->
    (forall i x, also_causes (site_of_insn i x) [] ev = if ev_ip_suppressed ev then pred i x else in_ip i =? ip) ->
    post (event_at_insn (proceed_to_cause im pred ev ip) mark (d, b)) (gives s0) (errs s0) (ubs s0).
  Proof.
    intros Hs W Hc Cl St Hk Hm Hh Hp. unfold proceed_to_cause. destruct (ev_ip_suppressed ev) eqn:Su.
    { eapply at_insn_ok; eassumption. }
    assert (Nd : forall s, ends s ev = false).
    { intros s. unfold ends. unfold kind_of in Hk. destruct (ev_var ev); try discriminate Hk; reflexivity. }
    assert (Ac : forall s, also_causes s [] ev = (si_ip s =? ip)).
    { intros s. pose proof (Hp (mk_insn (si_ip s) 0 ptem_unknown (si_class s) [] (si_len s) false false) (si_ext s)) as X.
      destruct s. exact X. }
    unfold event_at_insn, pt_blk_proceed_to_ip.
    eapply post_bind with (P := fun d' b' w => same d d' /\ match w with
         | W_stop => halted s0 d' b' (Some ev) fs
         | W_done None => False
         | W_done (Some (i, x)) => in_ip i = ip /\ stopped s0 d' b' i x (Some ev) fs
         | W_trace i x => pt_insn_next_ip i x = Err pte_bad_query /\ stopped s0 d' b' i x (Some ev) fs /\ in_ip i <> ip
         end).
    - eapply post_bind.
      + apply post_blk. apply (to_ip_ok cf buf base err im mem cached content at_ mode_of shows ex ex_ovf s0 ip Hs (room b) d b [] f (Some ev) fs W Hc).
        * congruence.
        * intros e g [= <-] On _. apply Hh, On.
        * intros e g t [= <-] Ne _ [X|(k' & _ & _ & X)]; [rewrite Nd in X; discriminate|].
          rewrite Ac in X. apply N.eqb_eq in X. apply Ne. exact X.
        * unfold room. clear. lia.
      + intros d1 b1 w (Sm & X). destruct w as [|[p|]|i x].
        * split; assumption.
        * destruct p. destruct X.
        * destruct X as (is' & f' & W' & Hc' & Hi & Hu).
          eapply post_bind; [apply (one_insn_ok cf buf base err im mem cached content at_ mode_of shows ex ex_ovf s0 d1 b1 is' (mk_fstate f' (Some ev) fs) Hs W' Hc')|].
          { intros e [= <-]. apply Hh. apply W'. }
          intros d2 b2 o Y. destruct o as [[i x]|].
          -- destruct Y as (K2 & S2 & I2 & C2 & _ & t & i' & A & W2). cbn [fs_flow fs_held fs_facts] in *.
             split; [eapply same_trans; [exact Sm|]; repeat split; try apply K2; try apply S2; assumption|].
             split.
             { change (in_ip i) with (si_ip (site_of_insn i x)). rewrite (ai_site _ _ _ _ _ _ _ _ A). exact Hi. }
             exists (is' ++ [i']), f', t, i'. split; [eauto|]. split; assumption.
          -- destruct Y as (-> & -> & Ne & Unk). split; [exact Sm|]. exists is', f'. auto.
        * split; assumption.
    - intros d1 b1 w (Sm & X). destruct w as [|[[i x]|]|i x].
      + eapply stop_gives; eassumption.
      + destruct X as (Hi & (is & g & t & i' & _ & A & W')). eapply postpone_ok; try eassumption. rewrite Ac. apply N.eqb_eq. exact Hi.
      + destruct X.
      + destruct X as (Nx & X & Ni). eapply stuck_err; [exact X|exact Nx|].
        intros [Y|(k' & _ & _ & Y)]; [rewrite Nd in Y; discriminate|]. rewrite Ac in Y. apply N.eqb_eq in Y. contradiction.
  Qed.

  (** At the end of tracing. *)
  Lemma end_gives s0 d d0 b is i x f t i' ev fs ip : at_insn mem at_ f b i x t i' ->
    walking s0 d b is (mk_fstate (stop_at f t) (Some ev) fs) -> closed d0 -> same d0 d ->
    ends (site_of_insn i x) ev = true -> ip = resumes (site_of_insn i x) ->
    post (pending (bd_set_ip d ip, b)) (gives s0) (errs s0) (ubs s0).
  Proof.
    intros A W (C1 & C2) ((K1 & K2 & _) & _) He Hi. destruct W. cbn [fs_flow fs_held fs_facts] in *.
    set (d1 := bd_set_ip _ _).
    assert (A1 : agrees d1 (stop_at f t)) by (apply agrees_ip; assumption).
    assert (R1 : rest d1 (Some ev) fs) by (eapply still_rest; [|exact w_rest]; repeat split).
    eapply pend_gives; try eassumption.
    - intros U. rewrite (ai_class _ _ _ _ _ _ _ _ A) in U. destruct (ai_known _ _ _ _ _ _ _ _ A U).
    - right. exists (stop_at f t), ev, fs. split; [reflexivity|]. right. right. constructor; try assumption.
      + exists (site_of_insn i x), []. split; [rewrite (ai_site _ _ _ _ _ _ _ _ A); reflexivity|]. split; [exact He|exact Hi].
      + left. split; [exact (eq_trans K1 C1)|exact (eq_trans K2 C2)].
  Qed.

  Lemma disabled_ok s0 d b f ev fs ip : sane s0 -> walking s0 d b [] (mk_fstate f (Some ev) fs) -> f_cur f = None ->
    closed d -> bd_status d = None -> ev_var ev = Ev_disabled ip ->
    post (event_disabled im ev ip (d, b)) (gives s0) (errs s0) (ubs s0).
  Proof.
    intros Hs W Hc Cl St Ev. unfold event_disabled. destruct (ev_status_update ev) eqn:Su.
    { eapply now_ok; try eassumption. unfold here. rewrite Ev, Su. reflexivity. }
    assert (Kn : kind_of ev = None) by (unfold kind_of; rewrite Ev; reflexivity).
    assert (En : forall s, ends s ev = branches s || (ev_ip_suppressed ev && moves_cr3 s)).
    { intros s. unfold ends. rewrite Ev, Su. reflexivity. }
    assert (Hh : forall g, f_on g = true -> here g ev = negb (ev_ip_suppressed ev) && (f_ip g =? ip)).
    { intros g On. unfold here. rewrite Ev, Su, On. reflexivity. }
    assert (Mv : forall i x, pt_insn_changes_cr3 x = moves_cr3 (site_of_insn i x)).
    { intros i x. unfold pt_insn_changes_cr3, moves_cr3. cbn [si_ext site_of_insn]. destruct (x_inst x); reflexivity. }
    assert (Same : forall d1 : dec, d1 = bd_set_ip d1 (bd_ip d1)) by (intros []; reflexivity).
    eapply post_bind with (P := fun d' b' w => same d d' /\ match w with
         | W_stop => halted s0 d' b' (Some ev) fs
         | W_done None => ev_ip_suppressed ev = false /\ exists is' f', walking s0 d' b' is' (mk_fstate f' (Some ev) fs) /\
             f_cur f' = None /\ f_ip f' = ip /\ (is' <> [] -> b_iclass b' <> ptic_unknown)
         | W_done (Some (i, x)) => pt_insn_changes_cr3 x = true /\ ev_ip_suppressed ev = true /\ stopped s0 d' b' i x (Some ev) fs
         | W_trace i x => pt_insn_next_ip i x = Err pte_bad_query /\ stopped s0 d' b' i x (Some ev) fs
         end).
    - unfold pt_blk_proceed_to_disabled. destruct (ev_ip_suppressed ev) eqn:Sp.
      + apply post_state. replace (er_skl014 (cf_errata (pt_blk_config d))) with false.
        2:{ rewrite (proj1 (w_rest _ _ _ _ _ _ _ _ _ _ _ _ _ W)). symmetry. exact no_skl014. }
        rewrite andb_false_r. unfold pt_blk_proceed_to_insn. apply post_blk.
        eapply post_mono; [apply (to_insn_ok cf buf base err im mem cached content at_ mode_of shows ex ex_ovf s0 (fun _ x => pt_insn_changes_cr3 x) Hs (room b) d b [] f (Some ev) fs W Hc)| |auto|auto].
        * intros e g [= <-] On. rewrite (Hh g On). reflexivity.
        * intros e g t i x [= <-] Es Pf Br [X|(k' & X & _)]; [|congruence]. rewrite En, Br in X. rewrite <- Es, <- Mv, Pf in X. discriminate X.
        * unfold room. clear. lia.
        * intros d1 b1 w (Sm & X). split; [exact Sm|]. destruct w as [|[[i x]|]|i x]; try assumption.
          -- destruct X. auto.
          -- destruct X.
          -- destruct X as (_ & X). exact X.
      + unfold pt_blk_proceed_to_ip. apply post_blk.
        eapply post_mono; [apply (to_ip_ok cf buf base err im mem cached content at_ mode_of shows ex ex_ovf s0 ip Hs (room b) d b [] f (Some ev) fs W Hc)| |auto|auto].
        * congruence.
        * intros e g [= <-] On Ne. rewrite (Hh g On). apply N.eqb_neq. exact Ne.
        * intros e g t [= <-] Ne Br [X|(k' & X & _)]; [|congruence]. rewrite En, Br in X. discriminate X.
        * unfold room. clear. lia.
        * intros d1 b1 w (Sm & X). split; [exact Sm|]. destruct w as [|[[i x]|]|i x]; try assumption.
          -- destruct X.
          -- auto.
          -- destruct X as (X & Y & _). auto.
    - intros d1 b1 w (Sm & X). destruct w as [|[[i x]|]|i x].
      + eapply stop_gives; eassumption.
      + destruct X as (Cx & Sp & (is & g & t & i' & _ & A & W')). rewrite (Same d1).
        eapply end_gives; try eassumption.
        * rewrite En, Sp, <- Mv, Cx. apply orb_true_r.
        * rewrite (w_ip _ _ _ _ _ _ _ _ _ _ _ _ _ W'). pose proof (ai_site _ _ _ _ _ _ _ _ A) as Es.
          rewrite <- (resumes_cr3 i x g t Es Cx). change (in_ip i) with (si_ip (site_of_insn i x)). rewrite Es. reflexivity.
      + destruct X as (Sp & is' & f' & W' & Hc' & Hi & Hu).
        pose proof W' as W2. destruct W2. cbn [fs_flow fs_held fs_facts] in *.
        eapply pend_gives; try eassumption.
        * intros U. left. destruct is'; [reflexivity|]. exfalso. apply Hu; congruence.
        * right. exists f', ev, fs. split; [reflexivity|]. left. constructor; try assumption.
          -- rewrite Hh by assumption. rewrite Sp. apply N.eqb_eq. exact Hi.
          -- left. destruct Sm as ((K1 & K2 & _) & _), Cl. split; congruence.
      + destruct X as (En' & (is & g & t & i' & _ & A & W')). unfold pt_blk_set_disable_resume_ip. apply post_change.
        pose proof (ai_site _ _ _ _ _ _ _ _ A) as Es. pose proof (next_site g t i x Es) as Nx. rewrite En' in Nx. destruct Nx as (_ & Br).
        eapply end_gives; try eassumption.
        * rewrite En, Es, Br. reflexivity.
        * apply (resumes_of i x g t Es En').
  Qed.

  Lemma kinds_one : kinds (mark_paging no_bounds) [K_paging] /\ kinds (mark_vmcs no_bounds) [K_vmcs] /\
    kinds (mark_ptwrite no_bounds) [K_ptwrite] /\ kinds (mark_iret no_bounds) [K_iret] /\
    kinds (mark_vmentry no_bounds) [K_vmentry] /\ kinds (mark_uiret no_bounds) [K_uiret].
  Proof. pose proof (kinds_mark no_bounds [] kinds_none) as H. repeat split; apply H. Qed.

  Lemma event_gives d f ev fs : sane (mk_fstate f (Some ev) fs) -> idle d (mk_fstate f (Some ev) fs) -> bd_status d = None ->
    bd_event d = Some ev -> plain_event ev ->
    post (pt_blk_proceed_event im (d, new_block (bd_ip d) (bd_mode d) (bd_spec d)))
      (gives (mk_fstate f (Some ev) fs)) (errs (mk_fstate f (Some ev) fs)) (ubs (mk_fstate f (Some ev) fs)).
  Proof.
    intros Hs Hid St Hev Hp. unfold pt_blk_proceed_event. apply post_state. rewrite Hev.
    pose proof (i_settled _ _ _ _ _ _ _ _ _ Hid) as Se. pose proof Se as [Ha Hi Hr Hf Hc Cl]. cbn [fs_flow fs_held fs_facts] in *.
    rewrite (a_on _ _ _ _ _ Ha).
    destruct (f_on f) eqn:On.
    2:{ destruct (i_off _ _ _ _ _ _ _ _ _ Hid On ev eq_refl) as (ip & Ev & Su). rewrite Ev. unfold event_disabled. rewrite Su.
        eapply (pend_gives _ []); try eassumption.
        - constructor.
        - constructor; [reflexivity|constructor|]. intros l i X. destruct l; discriminate X.
        - auto.
        - right. exists f, ev, fs. split; [reflexivity|]. left. constructor; try assumption; [|left; exact Cl].
          unfold here. rewrite Ev, Su. reflexivity. }
    pose proof (start_walk d _ Se (or_introl St) On) as W. cbn [negb orb].
    assert (Vr : forall g, here g ev = match ev_var ev with
        | Ev_disabled ip => ev_status_update ev || (f_on g && negb (ev_ip_suppressed ev) && (f_ip g =? ip))
        | _ => located g ev end) by reflexivity.
    destruct kinds_one as (K1 & K2 & K3 & K4 & K5 & K6).
    assert (Kn : match ev_var ev with
                 | Ev_paging _ _ | Ev_vmcs _ | Ev_ptwrite _ _ _ | Ev_iret _ | Ev_vmentry _ | Ev_uiret _ => True
                 | _ => kind_of ev = None end) by (unfold kind_of; destruct (ev_var ev); exact I || reflexivity).
    assert (Now : here f ev = true -> post (pending (d, new_block (bd_ip d) (bd_mode d) (bd_spec d)))
      (gives (mk_fstate f (Some ev) fs)) (errs (mk_fstate f (Some ev) fs)) (ubs (mk_fstate f (Some ev) fs))).
    { intros H. eapply now_ok; eassumption. }
    destruct (ev_var ev) eqn:Ev;
    try (apply Now; rewrite Vr; unfold located; rewrite Ev; reflexivity);
    try (destruct (ev_ip_suppressed ev) eqn:Su;
         [apply Now; rewrite Vr; unfold located; rewrite Ev, Su; rewrite ?orb_true_r; reflexivity
         |unfold event_at_ip; eapply at_ip_ok; try eassumption;
            [congruence|intros g Og; rewrite Vr; unfold located; rewrite Ev, Su, ?Og; reflexivity|reflexivity]]).
    - eapply disabled_ok; eassumption.
    - eapply at_ip_ok; try eassumption; [congruence|intros g Og; rewrite Vr; unfold located; rewrite Ev; reflexivity|].
      intros d' b' (_ & (S1 & _) & _). unfold bind at 1, state at 1. cbn [fst].
      replace (pt_blk_config d') with cf. { rewrite no_skd022. reflexivity. }
      rewrite <- (proj1 Hr). unfold pt_blk_config. congruence.
    - unfold event_at_ip. eapply at_ip_ok; try eassumption; [congruence|intros g Og; rewrite Vr; unfold located; rewrite Ev; reflexivity|reflexivity].
    - apply (at_insn_ok _ d _ f ev fs K_paging); try assumption; [unfold kind_of; rewrite Ev; reflexivity|..].
      + intros g Og; rewrite Vr; unfold located; rewrite Ev, Og; reflexivity.
      + intros i x. symmetry. unfold also_causes, causes; rewrite Ev, andb_true_r.
        unfold pt_insn_binds_to_pip, pt_insn_is_far_branch, far.
        cbn [si_ext si_class site_of_insn]. destruct (x_inst x); destruct (in_iclass i); reflexivity.
    - apply (at_insn_ok _ d _ f ev fs K_vmcs); try assumption; [unfold kind_of; rewrite Ev; reflexivity|..].
      + intros g Og; rewrite Vr; unfold located; rewrite Ev, Og; reflexivity.
      + intros i x. symmetry. unfold also_causes, causes; rewrite Ev, andb_true_r.
        unfold pt_insn_binds_to_vmcs, pt_insn_is_far_branch, far.
        cbn [si_ext si_class site_of_insn]. destruct (x_inst x); destruct (in_iclass i); reflexivity.
    - apply (at_cause_ok _ d _ f ev fs K_ptwrite); try assumption; [unfold kind_of; rewrite Ev; reflexivity| |].
      + intros g Og; rewrite Vr; unfold located; rewrite Ev, Og; reflexivity.
      + intros i x; unfold also_causes, causes; rewrite Ev, orb_true_r, andb_true_r; reflexivity.
    - exfalso. destruct Hr as (_ & R). rewrite St in R. destruct R as (ev' & evs & Hev' & _ & _ & Ep).
      rewrite Hev in Hev'. injection Hev' as <-. unfold parted in Ep. rewrite Ev in Ep. discriminate Ep.
    - exfalso. destruct Hr as (_ & R). rewrite St in R. destruct R as (ev' & evs & Hev' & _ & _ & Ep).
      rewrite Hev in Hev'. injection Hev' as <-. unfold parted in Ep. rewrite Ev in Ep. discriminate Ep.
    - apply (at_cause_ok _ d _ f ev fs K_iret); try assumption; [unfold kind_of; rewrite Ev; reflexivity| |].
      + intros g Og; rewrite Vr; unfold located; rewrite Ev, Og; reflexivity.
      + intros i x; unfold also_causes, causes; rewrite Ev, orb_true_r, andb_true_r; reflexivity.
    - apply (at_cause_ok _ d _ f ev fs K_vmentry); try assumption; [unfold kind_of; rewrite Ev; reflexivity| |].
      + intros g Og; rewrite Vr; unfold located; rewrite Ev, Og; reflexivity.
      + intros i x; unfold also_causes, causes; rewrite Ev, orb_true_r, andb_true_r; reflexivity.
    - apply (at_cause_ok _ d _ f ev fs K_uiret); try assumption; [unfold kind_of; rewrite Ev; reflexivity| |].
      + intros g Og; rewrite Vr; unfold located; rewrite Ev, Og; reflexivity.
      + intros i x; unfold also_causes, causes; rewrite Ev, orb_true_r, andb_true_r; reflexivity.
    - unfold plain_event in Hp. rewrite Ev in Hp. destruct Hp.
  Qed.

  (** ** pt_blk_next() *)

  (** An error, or the end of the trace. *)
  Definition fails (s : fstate) : dec -> block -> pte -> Prop := fun d b e =>
    errs s d b e \/
    (e = pte_eos /\ err = pte_eos /\ fs_held s = None /\ fs_facts s = [] /\ f_on (fs_flow s) = false /\
     expands (mem (f_asid (fs_flow s))) b []).

  Lemma post_leaves {A} (m : M A) (d : dec) b P E U : spares m -> post (m (d, b)) P E U ->
    post (m (d, b)) P (fun d' b' e => E d' b' e /\ same_caches d d') U.
  Proof.
    intros L. specialize (L d b). destruct (m (d, b)) as [[d1 b1] [a|e|u]]; cbn [post fst] in *; auto.
  Qed.

  Lemma empty_block mm ip m sp : expands mm (new_block ip m sp) [].
  Proof. constructor; [reflexivity|constructor|]. intros l i X. destruct l; discriminate X. Qed.

  Lemma next_ok d s : sane s -> idle d s -> post (pt_blk_next im d) (gives s) (fails s) (ubs s).
  Proof.
    intros Hs Hid. destruct s as [f h fs]. pose proof (i_settled _ _ _ _ _ _ _ _ _ Hid) as Se.
    pose proof Se as [Ha Hi Hr Hf Hc Cl]. cbn [fs_flow fs_held fs_facts] in *.
    assert (Fe : forall e, e <> pte_eos -> blocked mem err (mk_fstate f h fs) ->
      fails (mk_fstate f h fs) d (new_block (bd_ip d) (bd_mode d) (bd_spec d)) e).
    { intros e Ne B. left. split; [eapply agrees_good, Ha|]. split; [exact Ne|]. exists [], (mk_fstate f h fs). split; [constructor|].
      split; [left; apply empty_block|apply gives_blocked, B]. }
    unfold pt_blk_next, pt_blk_proceed. apply post_state. rewrite (a_on _ _ _ _ _ Ha).
    pose proof Hr as (Hcf & R). destruct (bd_status d) as [e|] eqn:Est.
    - destruct R as (-> & Hev & -> & ->).
      assert (D : err = pte_eos \/ err <> pte_eos) by (destruct err; auto; right; discriminate).
      destruct D as [E|Ne].
      2:{ pose proof (blocked_over err mem f Ne) as B. destruct err; try (apply Fe; [discriminate|exact B]); congruence. }
      rewrite E. destruct (f_on f) eqn:On; cbn [negb].
      2:{ right. repeat (split; [auto; fail|]). apply empty_block. }
      assert (L : bd_status d = Some pte_eos) by congruence.
      pose proof (start_walk d _ Se (or_intror L) On) as W. set (b0 := new_block _ _ _) in *.
      pose proof (no_event_ok cf buf base err sized freq small bytes im mem cached content at_ mode_of shows ex ex_ovf ex_lookup ex_alloc _ d b0 f [] Hs W Hc) as P.
      pose proof (fr_no_event im pte_eos d b0 (conj L Hev)) as (O1 & O2).
      unfold bind. destruct (pt_blk_proceed_no_event im (d, b0)) as [[d1 b1] [[]|e|u]]; cbn [fst] in O1, O2.
      + destruct P as ((K1 & K2 & _) & is & s & X). destruct X. cbn [fs_flow] in *.
        pose proof e_rest as (R1 & R2). rewrite O1 in R2. destruct R2 as (_ & _ & R3 & R4).
        exists is, s. split; [assumption|]. split; [assumption|]. split; [congruence|]. split; [auto|]. constructor.
        * rewrite e_on. reflexivity.
        * auto.
        * change (flag pts_eos pts_event_pending) with false. cbv iota. constructor; [|congruence].
          constructor; try assumption.
          -- unfold fullness. rewrite O2. exact I.
          -- destruct Cl. split; congruence.
      + left. exact P.
      + rewrite <- E; exact P.
    - destruct R as (ev & evs & Hev & Hp & Hu & Ep). rewrite Hev.
      assert (Tr : h = None -> post ((if negb (f_on f) then fail pte_no_enable else
                bind (pt_blk_proceed_no_event im) (fun _ => pt_blk_proceed_trailing_event im true))
                (d, new_block (bd_ip d) (bd_mode d) (bd_spec d))) (gives (mk_fstate f h fs)) (fails (mk_fstate f h fs)) (ubs (mk_fstate f h fs))).
      { intros ->. destruct (f_on f) eqn:On; cbn [negb].
        2:{ apply Fe; [discriminate|]. apply blocked_between; [exact Hc| | |discriminate].
            - intros _ e fs'. eapply rest_event; eassumption.
            - intros (X & _). cbn [fs_flow] in X. congruence. }
        pose proof (start_walk d _ Se (or_introl Est) On) as W. set (b0 := new_block _ _ _) in *.
        eapply post_bind; [eapply post_mono;
          [exact (no_event_ok cf buf base err sized freq small bytes im mem cached content at_ mode_of shows ex ex_ovf ex_lookup ex_alloc _ d b0 f fs Hs W Hc)
          |intros d1 b1 u X; exact X|intros d1 b1 e X; left; exact X|auto]|].
        intros d1 b1 _ ((K1 & K2 & _) & is & s & X). pose proof X as Y. destruct Y. destruct s as [f' h' fs'].
        cbn [fs_flow fs_held fs_facts] in *. assert (Cl1 : closed d1) by (destruct Cl; split; congruence).
        eapply post_mono; [eapply (post_leaves (pt_blk_proceed_trailing_event im true)); [apply ca_trailing_event|apply (trailing_ok cf buf base err sized freq small bytes no_bdm64 no_skd022 im mem cached content at_ mode_of ex true d1 b1 f' h' fs')]| | |].
        - eapply sane_flow; eassumption.
        - assumption.
        - assumption.
        - right. auto.
        - apply phase_next; assumption.
        - intros d2 b2 st (-> & s' & F' & B). exists is, s'. split; [|auto].
          + rewrite <- (app_nil_r (map O_insn is)). eapply bflows_app; eassumption.
          + split; [assumption|]. split; [congruence|]. auto.
        - intros d2 b2 e ((-> & Ne & G) & Sc). left. split; [eapply same_good; [exact Sc|eapply agrees_good, e_agree]|].
          split; [exact Ne|]. exists is, (mk_fstate f' h' fs'). auto.
        - intros d2 b2 u []. }
      assert (Gv : (h, fs) = (Some ev, flat_map facts_of evs) ->
         post (pt_blk_proceed_event im (d, new_block (bd_ip d) (bd_mode d) (bd_spec d)))
         (gives (mk_fstate f h fs)) (fails (mk_fstate f h fs)) (ubs (mk_fstate f h fs))).
      { intros [= -> ->]. eapply post_mono; [apply (event_gives d f ev (flat_map facts_of evs)); assumption|auto|intros d1 b1 e X; left; exact X|auto]. }
      unfold parted in Ep. destruct (ev_var ev); try (apply Gv; exact Ep); apply Tr; congruence.
  Qed.
End BLOCKS.
