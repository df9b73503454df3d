(** Lemmas on the block decoder: walking over instructions. *)

From Coq Require Import List NArith ZArith Bool PeanoNat Lia.
From Verif Require Import Base M_config M_time M_pktdec M_event M_evdec M_query M_retstack M_asid M_ildtab M_ild
  M_insn M_insndec M_blk L_calm S_core S_evdec S_x86 S_insn S_query S_flow S_drive S_blk L_core L_evdec L_evsafe L_evnext
  L_insn T_ild T_insn L_query L_query2 T_evdec T_evtrace L_flow L_flow2 L_flow3 L_blk L_blk2.
Import ListNotations.
Open Scope N_scope.

Lemma straight_snoc mem m ip n ip1 t ip' : straight mem m ip n ip1 -> text_at mem m ip1 t ->
  only_next ip1 (length (render t)) (fst (meaning m t)) (snd (meaning m t)) = Some ip' ->
  straight mem m ip (Datatypes.S n) ip'.
Proof.
  induction 1 as [ip|ip x ip2 n ip1 H1 H2 H3 IH]; intros Ht Ho.
  - econstructor; [exact Ht|exact Ho|constructor].
  - econstructor; [exact H1|exact H2|]. apply IH; assumption.
Qed.
Lemma straight_app mem m ip n ip1 k ip' : straight mem m ip n ip1 -> straight mem m ip1 k ip' ->
  straight mem m ip (n + k) ip'.
Proof. induction 1; intros K; [exact K|]. econstructor; eauto. Qed.

Section BLOCKS.
  Context (cf : config) (buf : list N) (base : nat) (err : pte).
  Hypothesis sized : callback_sized cf.
  Hypothesis freq : (cf_mtc_freq cf < 24)%N.
  Hypothesis small : (N.of_nat (length buf) + 1 < 2 ^ 31)%N.
  Hypothesis bytes : bytes_ok buf.
  Context {S C : Type} (im : blk_image S C) (mem : asid -> memory) (cached : C -> asid -> Prop).
  Context (content : N -> N -> option N) (at_ : asid -> N -> option place) (mode_of : N -> exec_mode).
  Hypothesis shows : blocks_show im mem cached content at_ mode_of.
  Notation dec := (blkdec C).
  Notation agrees := (agrees cached content mode_of).
  Notation rest := (rest cf buf base err).
  Notation bflows := (bflows mem err).
  Notation strange := (strange content at_ mode_of err).
  Notation sane := (sane mem content at_ mode_of err).
  Context (ex : pte -> Prop).
  Hypothesis ex_ovf : ex pte_overflow.
  Notation gives_up := (gives_up mem err ex).

  (** The state during a walk: [is] are the instructions of the block so far. *)
  Record walking (s0 : fstate) (d : dec) (b : block) (is : list insn) (s : fstate) : Prop := {
    w_flow : bflows s0 (map O_insn is) s;
    w_agree : agrees d (fs_flow s);
    w_ip : bd_ip d = f_ip (fs_flow s);
    w_rest : rest d (fs_held s) (fs_facts s);
    w_full : fullness d;
    w_live : bd_status d = None \/ bd_status d = Some pte_eos;
    w_on : f_on (fs_flow s) = true;
    w_exp : expands (mem (f_asid (fs_flow s0))) b is;
    w_asid : f_asid (fs_flow s) = f_asid (fs_flow s0);
    w_mode : b_mode b = f_mode (fs_flow s);
    w_spec : b_speculative b = f_spec (fs_flow s);
    w_size : b_ninsn b < 65536;
    w_first : is = [] -> b_truncated b = false;
    w_at : match f_cur (fs_flow s) with
           | None => straight (mem (f_asid (fs_flow s0))) (b_mode b) (b_ip b) (length is) (f_ip (fs_flow s))
           | Some (si, ks) => ks = [] /\ si_ip si = f_ip (fs_flow s)
           end;
    w_unk : b_iclass b = ptic_unknown -> f_cur (fs_flow s) = None /\ b_truncated b = false /\
            (is = [] \/ exists c, mem (f_asid (fs_flow s)) (f_ip (fs_flow s)) = Some (c, b_isid b)) }.

  (** Where an error leaves the block. *)
  Definition errs (s0 : fstate) : dec -> block -> pte -> Prop := fun d b e =>
    good cached content mode_of d /\ e <> pte_eos /\ exists is s1, bflows s0 (map O_insn is) s1 /\
      (expands (mem (f_asid (fs_flow s0))) b is \/
       (b_ninsn b = N.of_nat (length is) + 1 /\ b_end_ip b = f_ip (fs_flow s1))) /\ gives_up e s1.
  (** The one way to go wrong. *)
  Definition ubs (s0 : fstate) : dec -> block -> ub -> Prop := fun _ _ u =>
    u = ub_oob_read /\ exists is s1, bflows s0 (map O_insn is) s1 /\
      rex2_hole (mem (f_asid (fs_flow s1))) (f_mode (fs_flow s1)) (f_ip (fs_flow s1)).

  Lemma walk_err s0 d b is s e (d' : dec) : walking s0 d b is s -> same_caches d d' -> e <> pte_eos ->
    gives_up e s -> errs s0 d' b e.
  Proof.
    intros W Sc He G. split; [eapply same_good; [exact Sc|eapply agrees_good; apply W]|]. split; [exact He|]. exists is, s. split; [apply W|]. split; [left; apply W|exact G].
  Qed.

  (** Nothing happens in the trace unless it is held. *)
  Lemma rest_quiet (now : event -> Prop) (d : dec) h fs : rest d h fs -> fullness d ->
    bd_status d = None \/ bd_status d = Some pte_eos -> (forall e, h = Some e -> ~ now e) ->
    quiet err now h fs.
  Proof.
    intros (_ & R) F L H. destruct (bd_status d) as [e|].
    - destruct R as (-> & _ & -> & ->). cbn. destruct L as [L|L]; congruence.
    - destruct R as (ev & evs & Hev & Hp & _ & Ep). unfold fullness in F. rewrite Hev in F.
      unfold parted, tnt_ok in *. destruct (ev_var ev); injection Ep as -> ->; cbn; try (apply H; reflexivity); auto.
      rewrite (payload_cons _ _ F). exact I.
  Qed.

  Lemma sane_flow s os s' : sane s -> bflows s os s' -> sane s'.
  Proof. intros H F os' s2 F2. apply (H (os ++ os') s2). eapply bflows_app; eassumption. Qed.

  (** Execution may continue. *)
  Lemma walk_exec s0 d b is s : walking s0 d b is s -> f_cur (fs_flow s) = None ->
    (forall e, fs_held s = Some e -> here (fs_flow s) e = false) -> executing err s.
  Proof.
    intros W Hc Hh. split; [apply W|]. split; [exact Hc|].
    apply (rest_quiet _ d); try apply W. intros e E. rewrite (Hh e E). discriminate.
  Qed.

  Lemma log_call_ok d b f i x t : agrees d f -> site_of_insn i x = site_of f t ->
    post (pt_blk_log_call i x (d, b))
      (fun d' b' _ => b' = b /\ keeps d d' /\ still d d' /\ bd_ip d' = bd_ip d /\ bd_caches d' = bd_caches d /\
         agrees d' (calls f (called (site_of f t) (f_calls f))))
      (fun _ _ _ => False) no_ub.
  Proof.
    intros Ha E. unfold pt_blk_log_call, called. rewrite <- E. cbn [si_class site_of_insn].
    assert (K0 : b = b /\ keeps d d /\ still d d /\ bd_ip d = bd_ip d /\ bd_caches d = bd_caches d /\
                 agrees d (calls f (f_calls f))).
    { do 5 (split; [repeat split|]). destruct Ha. constructor; assumption. }
    destruct (in_iclass i); cbn [is_call]; try exact K0.
    unfold remember. cbn [si_ext site_of_insn]. destruct (_ && _); [exact K0|].
    unfold push. apply post_state.
    destruct (push_rep _ _ (ip_after i) (a_calls _ _ _ _ _ Ha)) as (r' & -> & Hr). apply post_change.
    cbn [lift post]. do 5 (split; [repeat split|]). apply agrees_calls; [exact Ha|].
    unfold next_insn. cbn [si_ip si_len]. rewrite <- add64_offset. exact Hr.
  Qed.

  Lemma count_ok {B} n (k : unit -> M B) (d : dec) b (P : dec -> block -> B -> Prop) (E : dec -> block -> pte -> Prop)
        (U : dec -> block -> ub -> Prop) :
    (forall h x, post (k tt (bd_set_icnt d h x, b)) P E U) -> post (k tt (d, b)) P E U -> E d b pte_overflow ->
    post (bind (count n) k (d, b)) P E U.
  Proof.
    intros H1 H2 H3. eapply post_bind with (P := fun d' b' _ => b' = b /\ (d' = d \/ exists h x, d' = bd_set_icnt d h x)).
    - unfold count. apply post_state. destruct (bd_has_icnt d); [|split; auto].
      destruct (_ <? _); [exact H3|]. split; eauto.
    - intros d' b' [] (-> & [->|(h & x & ->)]); auto.
  Qed.

  (** What is known about an instruction in a walk. *)
  Record at_insn (f : flow) (b' : block) (i : insn) (x : insn_ext) (t : x86) (i' : insn) : Prop := {
    ai_insn : insn_of mem f t i';
    ai_site : site_of_insn i x = site_of f t;
    ai_mode : in_mode i = f_mode f;
    ai_isid : in_isid i = b_isid b';
    ai_trunc : b_truncated b' = in_truncated i;
    ai_class : b_iclass b' = in_iclass i;
    ai_known : in_iclass i <> ptic_unknown;
    ai_place : forall p, at_ (f_asid f) (f_ip f) = Some p -> in_truncated i = false ->
      N.of_nat (length (render t)) <= pl_left p }.
  (** The flow at this instruction. *)
  Definition stop_at (f : flow) (t : x86) : flow :=
    at_site (calls f (called (site_of f t) (f_calls f))) (Some (site_of f t, [])).

  Lemma one_insn_ok s0 d b is s : sane s0 -> walking s0 d b is s -> f_cur (fs_flow s) = None ->
    (forall e, fs_held s = Some e -> here (fs_flow s) e = false) ->
    post (pt_blk_proceed_one_insn im (d, b))
      (fun d' b' o => match o with
         | None => d' = d /\ b' = b /\ is <> [] /\ (b_iclass b = ptic_unknown -> 65280 < b_ninsn b)
         | Some (i, x) => keeps d d' /\ still d d' /\ bd_ip d' = bd_ip d /\ bd_caches d' = bd_caches d /\
             b_ninsn b' = b_ninsn b + 1 /\
             exists t i', at_insn (fs_flow s) b' i x t i' /\
               walking s0 d' b' (is ++ [i']) (mk_fstate (stop_at (fs_flow s) t) (fs_held s) (fs_facts s))
         end) (errs s0) (ubs s0).
  Proof.
    intros Hs W Hcur Hh. unfold pt_blk_proceed_one_insn. apply post_blk. cbv zeta.
    pose proof (walk_exec _ _ _ _ _ W Hcur Hh) as Ex.
    assert (Cnt := ex_count _ _ _ (w_exp _ _ _ _ _ W)).
    assert (Z0 : is = [] <-> b_ninsn b = 0) by (rewrite Cnt; destruct is; cbn; split; congruence || lia).
    pose proof (w_size _ _ _ _ _ W) as Sz.
    destruct (N.eqb_spec (u16 (b_ninsn b + 1)) 0) as [E|E].
    { assert (Nn : b_ninsn b = 65535).
      { unfold u16, trunc in E. change (2 ^ 16) with 65536 in E.
        destruct (N.lt_ge_cases (b_ninsn b + 1) 65536) as [L|L]; [rewrite N.mod_small in E by exact L; clear - E; lia|].
        clear - L Sz. lia. }
      cbn. repeat split; [intros K; apply Z0 in K; clear - K Nn; lia|intros _; clear - Nn; lia]. }
    assert (Nn : b_ninsn b + 1 < 65536).
    { destruct (N.lt_ge_cases (b_ninsn b + 1) 65536) as [L|L]; [exact L|]. exfalso. apply E.
      replace (b_ninsn b + 1) with 65536 by (clear - L Sz; lia). reflexivity. }
    assert (En : u16 (b_ninsn b + 1) = b_ninsn b + 1) by (apply N.mod_small; exact Nn).
    rewrite En. clear E.
    destruct (b_truncated b) eqn:Tr.
    { cbn. repeat split; [intros K; rewrite (w_first _ _ _ _ _ W K) in Tr; discriminate|].
      intros K. apply (w_unk _ _ _ _ _ W) in K. destruct K as (_ & K & _). congruence. }
    apply post_state. unfold decode_here. set (f := fs_flow s) in *.
    pose proof (w_agree _ _ _ _ _ W) as Ha. fold f in Ha.
    assert (Hm : f_mode f <> ptem_unknown).
    { intros K. apply (Hs _ _ (w_flow _ _ _ _ _ W)). apply strange_mode; [exact Ex|exact K]. }
    rewrite (a_asid _ _ _ _ _ Ha), (a_mode _ _ _ _ _ Ha), (w_ip _ _ _ _ _ W). fold f.
    pose proof (decode_ok im mem cached content at_ mode_of shows f Hm) as D.
    destruct (pt_insn_decode _ _ _) as [i [x|e|u]]; unfold bind at 1, lift at 1; unfold decoded in D.
    2:{ destruct D as (D1 & D2). apply (walk_err _ _ _ _ _ _ d W (sc_refl d) D1). apply gives_blocked.
        destruct s as [f1 h fs]. cbn [fs_flow fs_held fs_facts] in *. apply blocked_between.
        - exact Hcur.
        - intros -> e0 fs'. eapply rest_event; apply W.
        - intros _. exact D2.
        - intros e0 Ee He. pose proof (Hh e0 Ee) as X. unfold f in X. cbn [fs_flow] in X. congruence. }
    2:{ destruct D as (D1 & D2). split; [exact D1|]. exists is, s. split; [apply W|exact D2]. }
    destruct D as (t & Hi & Es & Hp). unfold pt_blk_block_is_empty.
    destruct (negb (in_isid i =? b_isid b) && negb (b_ninsn b =? 0)) eqn:Ei.
    { apply andb_true_iff in Ei. destruct Ei as (Ei & E0). apply negb_true_iff in Ei, E0.
      apply N.eqb_neq in Ei, E0. cbn.
      assert (Hne : is <> []) by (intros K; apply Z0 in K; congruence).
      repeat split; [exact Hne|]. intros K. apply (w_unk _ _ _ _ _ W) in K.
      destruct K as (_ & _ & [K|(c & K)]); [congruence|]. exfalso. fold f in K.
      destruct Hi as (_ & _ & _ & _ & _ & _ & _ & (c' & Hi)). cbn [in_isid as_seen] in Hi. congruence. }
    apply post_change_blk. apply post_change_blk.
    set (i' := as_seen i (in_isid i) (f_spec f)) in *.
    set (b1 := if in_truncated i then _ else _).
    assert (B1 : b_ninsn b1 = b_ninsn b /\ b_ip b1 = b_ip b /\ b_mode b1 = b_mode b /\ b_isid b1 = in_isid i /\
                 b_speculative b1 = b_speculative b /\ b_truncated b1 = in_truncated i /\
                 (in_truncated i = true -> b_size b1 = in_size i /\
                    firstn (b_size b1) (b_raw b1) = firstn (in_size i) (in_raw i))).
    { unfold b1. destruct (in_truncated i) eqn:Et; cbn; repeat split; try discriminate; try assumption.
      pose proof Hi as (Hi1 & _ & _ & _ & Hi5 & Hi6 & _). cbn [in_size in_raw as_seen i'] in Hi5, Hi6.
      assert (L : length (firstn (in_size i) (in_raw i)) = in_size i) by (rewrite Hi6, Hi5; reflexivity).
      pose proof (put_raw_firstn (b_raw b) 0 (firstn (in_size i) (in_raw i)) (Nat.le_0_l _)) as P.
      rewrite L in P. cbn [plus firstn app] in P. exact P. }
    destruct B1 as (B1 & B2 & B3 & B4 & B5 & B6 & B7).
    eapply post_bind; [eapply post_mono; [apply (log_call_ok d b1 f i x t Ha Es)| | |]|].
    { intros d2 b2 u H. exact H. }
    { intros ? ? ? []. }
    { intros ? ? ? []. }
    intros d2 b2 _ (-> & K & St & Eip & Ec & Ag). apply post_change_blk.
    set (b3 := b_set_end b1 _ _ _).
    set (s' := mk_fstate (stop_at f t) (fs_held s) (fs_facts s)).
    assert (Hex : expands (mem (f_asid (fs_flow s0))) b3 (is ++ [i'])).
    { pose proof (w_exp _ _ _ _ _ W) as [X1 X2 X3]. constructor.
      - cbn. rewrite app_length. cbn. clear - X1. lia.
      - apply Forall_app. split.
        + destruct (N.eqb_spec (b_ninsn b) 0) as [E0|E0]; [apply Z0 in E0; subst is; constructor|].
          cbn [negb andb] in Ei. rewrite andb_true_r in Ei. apply negb_false_iff, N.eqb_eq in Ei.
          cbn [b_isid b_mode b_speculative b3 b_set_end]. rewrite B3, B4, B5, Ei. exact X2.
        + repeat constructor; cbn [b_isid b_mode b_speculative b3 b_set_end in_isid in_mode in_speculative as_seen i'].
          * rewrite B4. reflexivity.
          * rewrite B3, (w_mode _ _ _ _ _ W). apply Hi.
          * rewrite B5, (w_spec _ _ _ _ _ W). reflexivity.
      - intros l j E. apply app_inj_tail in E. destruct E as (<- & <-).
        cbn [b_mode b_ip b_iclass b_end_ip b_truncated b_size b_raw b3 b_set_end in_ip in_iclass in_size in_raw as_seen i'].
        rewrite B2, B3. split; [|split].
        + pose proof (w_at _ _ _ _ _ W) as A. fold f in A. rewrite Hcur in A. destruct Hi as (_ & Hi2 & _). cbn in Hi2. rewrite Hi2. exact A.
        + intros _. split; [reflexivity|]. left. reflexivity.
        + rewrite B6. exact B7. }
    assert (Hfl : bflows s0 (map O_insn (is ++ [i'])) s').
    { rewrite map_app. eapply bflows_app; [apply W|]. apply bflows_one. unfold s', stop_at.
      assert (Es' : s = mk_fstate f (fs_held s) (fs_facts s)) by (destruct s; reflexivity).
      rewrite Es' at 1. apply bs_insn; [rewrite <- Es'; exact Ex|exact Hi]. }
    assert (Hcl : in_iclass i <> ptic_unknown).
    { destruct Hi as (_ & _ & _ & _ & _ & _ & Hi7 & _). cbn in Hi7. rewrite Hi7. apply meaning_class. }
    assert (Hw : forall d3, still d2 d3 -> agrees d3 (stop_at f t) -> bd_ip d3 = bd_ip d2 ->
                 walking s0 d3 b3 (is ++ [i']) s').
    { intros d3 S3 A3 E3. destruct W. constructor; cbn [fs_flow fs_held fs_facts s'].
      - exact Hfl.
      - exact A3.
      - rewrite E3, Eip, w_ip0. reflexivity.
      - eapply still_rest; [exact (still_trans _ _ _ St S3)|exact w_rest0].
      - eapply still_full; [exact (still_trans _ _ _ St S3)|exact w_full0].
      - destruct (still_trans _ _ _ St S3) as (_ & X & _). rewrite X. exact w_live0.
      - exact w_on0.
      - exact Hex.
      - exact w_asid0.
      - cbn. rewrite B3. exact w_mode0.
      - cbn. rewrite B5. exact w_spec0.
      - cbn. exact Nn.
      - intros X. destruct is; discriminate X.
      - cbn. auto.
      - cbn. intros X. congruence. }
    apply count_ok.
    - intros hh xx. split; [destruct K as (K1 & K2 & K3 & K4); repeat split; cbn; assumption|].
      split; [exact St|]. split; [exact (eq_trans Eip (w_ip _ _ _ _ _ W))|]. split; [exact Ec|]. split; [reflexivity|].
      exists t, i'. split; [|apply Hw; [repeat split|apply agrees_icnt, agrees_at, Ag|reflexivity]].
      pose proof Hi as (_ & _ & Hi3 & _). constructor; auto.
    - split; [exact K|].
      split; [exact St|]. split; [exact (eq_trans Eip (w_ip _ _ _ _ _ W))|]. split; [exact Ec|]. split; [reflexivity|].
      exists t, i'. split; [|apply Hw; [repeat split|apply agrees_at, Ag|reflexivity]].
      pose proof Hi as (_ & _ & Hi3 & _). constructor; auto.
    - split; [eapply agrees_good, Ag|]. split; [discriminate|]. exists (is ++ [i']), s'. split; [exact Hfl|]. split; [left; exact Hex|]. apply gives_excused, ex_ovf.
  Qed.

  (** Behind an instruction that is no branch. *)
  Definition passed (f : flow) (t : x86) (ip : N) : flow := at_site (go (stop_at f t) ip) None.

  Lemma pass_site s0 d b is f t i x i' h fs ip : walking s0 d b is (mk_fstate (stop_at f t) h fs) ->
    (exists l, is = l ++ [i']) -> insn_of mem f t i' -> site_of_insn i x = site_of f t -> b_iclass b <> ptic_unknown ->
    pt_insn_next_ip i x = Ok ip ->
    (forall e, h = Some e -> ~ belongs (site_of f t) [] e) ->
    walking s0 (bd_set_ip d ip) b is (mk_fstate (passed f t ip) h fs).
  Proof.
    intros W (l & El) Ai Es Hk Hn Hb. pose proof (next_site f t i x Es) as Nx. rewrite Hn in Nx.
    destruct Nx as (N1 & N2 & N3).
    assert (Q : quiet err (belongs (site_of f t) []) h fs).
    { apply (rest_quiet _ d); try apply W. exact Hb. }
    destruct W. cbn [fs_flow fs_held fs_facts] in *. constructor; cbn [fs_flow fs_held fs_facts].
    - rewrite <- (app_nil_r (map O_insn is)). eapply bflows_app; [exact w_flow0|]. apply bflows_one.
      apply (bs_leave mem err (stop_at f t) (site_of f t) [] h fs ip (f_calls (stop_at f t)) fs).
      + exact w_on0.
      + reflexivity.
      + exact Q.
      + left. exact N1.
      + apply N3.
    - apply agrees_ip, agrees_at, agrees_go. exact w_agree0.
    - reflexivity.
    - eapply still_rest; [|exact w_rest0]. repeat split.
    - exact w_full0.
    - exact w_live0.
    - exact w_on0.
    - exact w_exp0.
    - exact w_asid0.
    - exact w_mode0.
    - exact w_spec0.
    - exact w_size0.
    - exact w_first0.
    - cbn. destruct (ex_last _ _ _ w_exp0 l i' El) as (X & _).
      pose proof Ai as (I1 & I2 & _).
      rewrite El, app_length, Nat.add_1_r. rewrite I2 in X.
      eapply straight_snoc; [exact X| |].
      + rewrite w_mode0. cbn. change (f_asid (stop_at f t)) with (f_asid f) in w_asid0. rewrite <- w_asid0. exact I1.
      + rewrite w_mode0. exact N2.
    - intros X. destruct (Hk X).
  Qed.

  Lemma pass_ok s0 d b is f t i x i' h fs ip : walking s0 d b is (mk_fstate (stop_at f t) h fs) ->
    (exists l, is = l ++ [i']) -> at_insn f b i x t i' -> pt_insn_next_ip i x = Ok ip ->
    (forall e, h = Some e -> ~ belongs (site_of f t) [] e) ->
    walking s0 (bd_set_ip d ip) b is (mk_fstate (passed f t ip) h fs).
  Proof.
    intros W El A Hn Hb. eapply pass_site; [exact W|exact El|apply A|apply A| |exact Hn|exact Hb].
    rewrite (ai_class _ _ _ _ _ _ A). apply A.
  Qed.

  (** A walk stops at an instruction, *)
  Definition stopped s0 d b i x h fs : Prop :=
    exists is f t i', (exists l, is = l ++ [i']) /\ at_insn f b i x t i' /\
      walking s0 d b is (mk_fstate (stop_at f t) h fs).
  (** or behind one. *)
  Definition halted s0 d b h fs : Prop :=
    exists is f, walking s0 d b is (mk_fstate f h fs) /\ f_cur f = None /\ is <> [] /\
      (b_iclass b = ptic_unknown -> 65280 < b_ninsn b).
  (** The decoder but for the address, calls and counts. *)
  Definition same (d d' : dec) : Prop := keeps d d' /\ still d d' /\ bd_caches d' = bd_caches d.
  Lemma same_refl d : same d d.
  Proof. repeat split. Qed.
  Lemma same_trans d1 d2 d3 : same d1 d2 -> same d2 d3 -> same d1 d3.
  Proof.
    intros (A1 & A2 & A3) (B1 & B2 & B3). split; [eapply keeps_trans; eassumption|].
    split; [eapply still_trans; eassumption|congruence].
  Qed.
  Lemma same_ip d ip : same d (bd_set_ip d ip).
  Proof. repeat split. Qed.

  Lemma to_insn_ok s0 pred : sane s0 -> forall fuel d b is f h fs,
    walking s0 d b is (mk_fstate f h fs) -> f_cur f = None ->
    (forall e f, h = Some e -> f_on f = true -> here f e = false) ->
    (forall e f t i x, h = Some e -> site_of_insn i x = site_of f t -> pred i x = false ->
       branches (site_of f t) = false -> ~ belongs (site_of f t) [] e) ->
    (N.to_nat (65536 - b_ninsn b) < fuel)%nat ->
    post (to_insn im fuel pred (d, b))
      (fun d' b' w => same d d' /\ match w with
         | W_stop => halted s0 d' b' h fs
         | W_done None => False
         | W_done (Some (i, x)) => pred i x = true /\ stopped s0 d' b' i x h fs
         | W_trace i x => pred i x = false /\ pt_insn_next_ip i x = Err pte_bad_query /\ stopped s0 d' b' i x h fs
         end) (errs s0) (ubs s0).
  Proof.
    intros Hs. induction fuel as [|fuel IH]; intros d b is f h fs W Hc Hh Hb L; [exfalso; clear - L; lia|].
    cbn [to_insn].
    assert (Hh' : forall e, fs_held (mk_fstate f h fs) = Some e -> here f e = false).
    { intros e E. apply Hh; [exact E|apply W]. }
    eapply post_bind; [apply (one_insn_ok s0 d b is _ Hs W Hc Hh')|].
    intros d1 b1 [[i x]|].
    2:{ intros (-> & -> & H1 & H2). split; [apply same_refl|]. exists is, f. auto. }
    cbn [fs_flow fs_held fs_facts].
    intros (K & St & Eip & Ec & En & t & i' & A & W').
    assert (Sm : same d d1) by (split; [exact K|split; [exact St|exact Ec]]).
    assert (Stp : stopped s0 d1 b1 i x h fs).
    { exists (is ++ [i']), f, t, i'. split; [eauto|]. split; [exact A|exact W']. }
    destruct (pred i x) eqn:Ep; [split; [exact Sm|]; split; [exact Ep|exact Stp]|].
    pose proof (next_site f t i x (ai_site _ _ _ _ _ _ A)) as Nx.
    destruct (pt_insn_next_ip i x) as [ip|e|u] eqn:Enx; [|destruct Nx as (-> & _)|destruct Nx].
    2:{ split; [exact Sm|]. split; [exact Ep|]. split; [exact Enx|exact Stp]. }
    destruct Nx as (N1 & N2 & N3).
    assert (W2 : walking s0 (bd_set_ip d1 ip) b1 (is ++ [i']) (mk_fstate (passed f t ip) h fs)).
    { eapply pass_ok; [exact W'|eauto|exact A|exact Enx|]. intros e E.
      eapply Hb; [exact E|apply A|exact Ep|exact N1]. }
    apply post_change. apply post_state.
    destruct (ends_block (bd_set_ip d1 ip) i).
    { split; [eapply same_trans; [exact Sm|apply same_ip]|]. exists (is ++ [i']), (passed f t ip). split; [exact W2|]. split; [reflexivity|].
      split; [intros X; destruct is; discriminate X|].
      intros X. rewrite (ai_class _ _ _ _ _ _ A) in X. destruct (ai_known _ _ _ _ _ _ A X). }
    eapply post_mono; [apply (IH (bd_set_ip d1 ip) b1 (is ++ [i']) (passed f t ip) h fs W2 eq_refl Hh Hb)| |auto|auto].
    - pose proof (w_size _ _ _ _ _ W') as Sz. clear - L En Sz. lia.
    - intros d2 b2 w (S2 & H). split; [|exact H].
      eapply same_trans; [exact Sm|]. eapply same_trans; [apply same_ip|exact S2].
  Qed.

  Lemma to_ip_ok s0 ip : sane s0 -> forall fuel d b is f h fs,
    walking s0 d b is (mk_fstate f h fs) -> f_cur f = None -> (is <> [] -> b_iclass b <> ptic_unknown) ->
    (forall e f, h = Some e -> f_on f = true -> f_ip f <> ip -> here f e = false) ->
    (forall e f t, h = Some e -> f_ip f <> ip ->
       branches (site_of f t) = false -> ~ belongs (site_of f t) [] e) ->
    (N.to_nat (65536 - b_ninsn b) < fuel)%nat ->
    post (to_ip im fuel ip (d, b))
      (fun d' b' w => same d d' /\ match w with
         | W_stop => halted s0 d' b' h fs
         | W_done None => exists is' f', walking s0 d' b' is' (mk_fstate f' h fs) /\ f_cur f' = None /\ f_ip f' = ip /\
             (is' <> [] -> b_iclass b' <> ptic_unknown)
         | W_done (Some (i, x)) => False
         | W_trace i x => pt_insn_next_ip i x = Err pte_bad_query /\ stopped s0 d' b' i x h fs /\ in_ip i <> ip
         end) (errs s0) (ubs s0).
  Proof.
    intros Hs. induction fuel as [|fuel IH]; intros d b is f h fs W Hc Hk Hh Hb L; [exfalso; clear - L; lia|].
    cbn [to_ip]. apply post_state. rewrite (w_ip _ _ _ _ _ W). cbn [fs_flow].
    destruct (N.eqb_spec (f_ip f) ip) as [E|E].
    { split; [apply same_refl|]. exists is, f. auto. }
    assert (Hh' : forall e, fs_held (mk_fstate f h fs) = Some e -> here f e = false).
    { intros e Ee. apply Hh; [exact Ee|apply W|exact E]. }
    eapply post_bind; [apply (one_insn_ok s0 d b is _ Hs W Hc Hh')|].
    intros d1 b1 [[i x]|].
    2:{ intros (-> & -> & H1 & H2). split; [apply same_refl|]. exists is, f. auto. }
    cbn [fs_flow fs_held fs_facts].
    intros (K & St & Eip & Ec & En & t & i' & A & W').
    assert (Sm : same d d1) by (split; [exact K|split; [exact St|exact Ec]]).
    assert (Stp : stopped s0 d1 b1 i x h fs).
    { exists (is ++ [i']), f, t, i'. split; [eauto|]. split; [exact A|exact W']. }
    assert (Ei : in_ip i = f_ip f) by (pose proof (ai_site _ _ _ _ _ _ A) as X; injection X; auto).
    pose proof (next_site f t i x (ai_site _ _ _ _ _ _ A)) as Nx.
    destruct (pt_insn_next_ip i x) as [nip|e|u] eqn:Enx; [|destruct Nx as (-> & _)|destruct Nx].
    2:{ split; [exact Sm|]. split; [exact Enx|]. split; [exact Stp|congruence]. }
    destruct Nx as (N1 & N2 & N3).
    assert (W2 : walking s0 (bd_set_ip d1 nip) b1 (is ++ [i']) (mk_fstate (passed f t nip) h fs)).
    { eapply pass_ok; [exact W'|eauto|exact A|exact Enx|]. intros e Ee. apply Hb; auto. }
    assert (Kn : b_iclass b1 <> ptic_unknown).
    { intros X. rewrite (ai_class _ _ _ _ _ _ A) in X. destruct (ai_known _ _ _ _ _ _ A X). }
    apply post_change. apply post_state.
    destruct (ends_block (bd_set_ip d1 nip) i).
    { split; [eapply same_trans; [exact Sm|apply same_ip]|]. destruct (N.eqb_spec nip ip) as [En2|En2].
      - exists (is ++ [i']), (passed f t nip). split; [exact W2|]. split; [reflexivity|]. split; [exact En2|]. auto.
      - exists (is ++ [i']), (passed f t nip). split; [exact W2|]. split; [reflexivity|].
        split; [intros X; destruct is; discriminate X|]. intros X. congruence. }
    eapply post_mono; [apply (IH (bd_set_ip d1 nip) b1 (is ++ [i']) (passed f t nip) h fs W2 eq_refl (fun _ => Kn) Hh Hb)| |auto|auto].
    - pose proof (w_size _ _ _ _ _ W') as Sz. clear - L En Sz. lia.
    - intros d2 b2 w (S2 & H). split.
      + eapply same_trans; [exact Sm|]. eapply same_trans; [apply same_ip|exact S2].
      + exact H.
  Qed.
End BLOCKS.
