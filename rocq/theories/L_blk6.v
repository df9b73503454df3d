(** Lemmas on the block decoder: between calls, and trailing events. *)

From Coq Require Import List NArith ZArith Bool PeanoNat Lia.
From Verif Require Import Base M_config M_time M_pktdec M_event M_evdec M_query M_retstack M_asid M_ildtab M_ild
  M_insn M_insndec M_blk L_calm S_core S_evdec S_x86 S_insn S_query S_flow S_drive S_blk L_core L_evdec L_evsafe L_evnext
  L_insn T_ild T_insn L_query L_query2 T_evdec T_evtrace L_flow L_flow2 L_flow3 L_flow4 L_blk L_blk2 L_blk3 L_blk4 L_blk5.
Import ListNotations.
Open Scope N_scope.

Lemma cr3_other m t : x_inst (snd (meaning m t)) = PTI_MOV_CR3 -> fst (meaning m t) = ptic_other.
Proof.
  unfold meaning. pose proof (classify_in m t) as H. destruct (classify m t) as [[c k] d]. cbn in *.
  repeat (destruct H as [H|H]; [injection H as <- <- <-; intros E; first [reflexivity | discriminate E]|]). destruct H.
Qed.

(** At the end of the trace nothing is fetched. *)
Section FRAME.
  Context {S C : Type} (im : blk_image S C) (e : pte).
  Notation dec := (blkdec C).
  Definition over (d : dec) : Prop := bd_status d = Some e /\ bd_event d = None.
  Definition frame {A} (m : dec * block -> (dec * block) * res A) : Prop :=
    forall d b, over d -> over (fst (fst (m (d, b)))).

  Lemma fr_bind {A B} (m : M A) (k : A -> M B) : frame m -> (forall a, frame (k a)) -> frame (bind m k).
  Proof.
    intros Hm Hk d b H. unfold bind. specialize (Hm d b H). destruct (m (d, b)) as [[d1 b1] [a|x|u]]; cbn [fst] in *; auto.
    apply Hk. exact Hm.
  Qed.
  Lemma fr_state {B} (k : dec -> M B) : (forall d, over d -> frame (k d)) -> frame (bind state k).
  Proof. intros H d b O. unfold bind, state. cbn [fst]. apply H; exact O. Qed.
  Lemma fr_blk {B} (k : block -> M B) : (forall b, frame (k b)) -> frame (bind blk k).
  Proof. intros H d b O. unfold bind, blk. cbn [snd]. apply H; exact O. Qed.
  Lemma fr_ret {A} (a : A) : frame (ret a).
  Proof. intros d b H. exact H. Qed.
  Lemma fr_fail {A} x : frame (@fail C A x).
  Proof. intros d b H. exact H. Qed.
  Lemma fr_lift {A} (r : res A) : frame (lift r).
  Proof. intros d b H. exact H. Qed.
  Lemma fr_change f : (forall d, over d -> over (f d)) -> frame (change f).
  Proof. intros H d b O. apply H, O. Qed.
  Lemma fr_blkch f : frame (change_blk f).
  Proof. intros d b H. exact H. Qed.

  Ltac fr :=
    repeat match goal with
    | |- frame (bind state _) => apply fr_state; intros
    | |- frame (bind blk _) => apply fr_blk; intros
    | |- frame (bind _ _) => apply fr_bind; [|intros]
    | |- frame (ret _) => apply fr_ret
    | |- frame (fail _) => apply fr_fail
    | |- frame (lift _) => apply fr_lift
    | |- frame (change_blk _) => apply fr_blkch
    | |- frame (change _) => apply fr_change; let H := fresh in intros ? H;
        first [exact H | match goal with |- over (if ?c then _ else _) => destruct c; exact H end]
    | |- frame (let (_, _) := ?x in _) => destruct x
    | |- frame (match ?x with _ => _ end) => destruct x
    end.

  Lemma fr_indirect : frame (@pt_blk_proceed_indirect C).
  Proof. unfold pt_blk_proceed_indirect. apply fr_state. intros d (_ & ->). fr. Qed.
  Lemma fr_cond : frame (@pt_blk_cond_branch C).
  Proof. unfold pt_blk_cond_branch. apply fr_state. intros d (_ & ->). fr. Qed.
  Lemma fr_trace i x : frame (@pt_blk_proceed_with_trace C i x).
  Proof. unfold pt_blk_proceed_with_trace. fr; first [apply fr_indirect | apply fr_cond]. Qed.
  Lemma fr_log i x : frame (@pt_blk_log_call C i x).
  Proof. unfold pt_blk_log_call, push. fr. Qed.
  Lemma fr_count n : frame (@count C n).
  Proof. unfold count. fr. Qed.
  Lemma fr_one : frame (pt_blk_proceed_one_insn im).
  Proof. unfold pt_blk_proceed_one_insn. fr; first [apply fr_log | apply fr_count]. Qed.
  Lemma fr_to_insn pred fuel : frame (to_insn im fuel pred).
  Proof. induction fuel as [|n IH]; cbn [to_insn]; fr; first [apply fr_one | apply IH]. Qed.
  Lemma fr_uncached : frame (pt_blk_proceed_no_event_uncached im).
  Proof. unfold pt_blk_proceed_no_event_uncached, pt_blk_proceed_to_insn. fr; first [apply fr_to_insn | apply fr_trace]. Qed.
  Lemma fr_interfere : frame (interfere im).
  Proof. apply fr_change. intros d H. destruct (bi_others im (bd_scache d) (bd_caches d)). exact H. Qed.
  Lemma fr_add s o x : frame (cache_add im s o x).
  Proof. unfold cache_add. fr; apply fr_interfere. Qed.
  Lemma fr_lookup s o : frame (cache_lookup im s o).
  Proof. unfold cache_lookup. fr; apply fr_interfere. Qed.
  Lemma fr_decode s o m : frame (pt_blk_add_decode im s o m).
  Proof. apply fr_add. Qed.
  Lemma fr_tramp s o o' m : frame (pt_blk_add_trampoline im s o o' m).
  Proof. unfold pt_blk_add_trampoline. fr; first [apply fr_add | apply fr_decode]. Qed.
  Lemma fr_fill s n : frame (fill_cache im n s).
  Proof.
    induction n as [|n IH]; cbn [fill_cache]; fr;
      first [apply fr_one | apply fr_add | apply fr_trace | apply fr_decode | apply fr_lookup | apply fr_tramp | apply IH].
  Qed.
  Lemma fr_truncated : frame (pt_blk_proceed_truncated im).
  Proof. unfold pt_blk_proceed_truncated. fr; first [apply fr_log | apply fr_trace]. Qed.
  Lemma fr_push ip : frame (@push C ip).
  Proof. unfold push. fr. Qed.
  Lemma fr_cached s n : frame (M_blk.cached im n s).
  Proof.
    induction n as [|n IH]; cbn [M_blk.cached]; fr;
      first [apply fr_lookup | apply fr_fill | apply fr_uncached | apply fr_count | apply IH | apply fr_cond | apply fr_indirect
            | apply fr_truncated | apply fr_log | apply fr_trace | apply fr_push].
  Qed.
  Lemma fr_msec : frame (pt_blk_msec_lookup im).
  Proof. unfold pt_blk_msec_lookup. fr; apply fr_interfere. Qed.
  Lemma fr_no_event : frame (pt_blk_proceed_no_event im).
  Proof.
    intros d b H. unfold pt_blk_proceed_no_event. pose proof (fr_msec d b H) as M.
    destruct (pt_blk_msec_lookup im (d, b)) as [[d1 b1] [[isid m]|x|u]]; cbn [fst] in M.
    - match goal with |- over (fst (fst (?m _))) => assert (F : frame m) end.
      { fr; try apply fr_uncached. unfold pt_blk_proceed_no_event_cached. fr. apply fr_cached. }
      apply F, M.
    - destruct x; try exact M. apply fr_uncached, M.
    - exact M.
  Qed.
End FRAME.

Section BLOCKS.
  Context (cf : config) (buf : list N) (base : nat) (err : pte).
  Hypothesis sized : callback_sized cf.
  Hypothesis freq : (cf_mtc_freq cf < 24)%N.
  Hypothesis small : (N.of_nat (length buf) + 1 < 2 ^ 31)%N.
  Hypothesis bytes : bytes_ok buf.
  Hypothesis no_bdm64 : er_bdm64 (cf_errata cf) = false.
  Hypothesis no_skd022 : er_skd022 (cf_errata cf) = false.
  Hypothesis no_skl014 : er_skl014 (cf_errata cf) = false.
  Context {S C : Type} (im : blk_image S C) (mem : asid -> memory) (cached : C -> asid -> Prop).
  Context (content : N -> N -> option N) (at_ : asid -> N -> option place) (mode_of : N -> exec_mode).
  Hypothesis shows : blocks_show im mem cached content at_ mode_of.
  Notation dec := (blkdec C).
  Notation agrees := (agrees cached content mode_of).
  Notation rest := (rest cf buf base err).
  Notation bflows := (bflows mem err).
  Notation strange := (strange content at_ mode_of err).
  Notation sane := (sane mem content at_ mode_of err).
  Context (ex : pte -> Prop).
  Notation gives_up := (gives_up mem err ex).
  Notation err_keep := (err_keep mem err ex).

  Notation pending := M_blk.pending.

  (** ** Between calls *)

  Definition closed (d : dec) : Prop := bd_postponed d = None /\ bd_bound d = no_bounds.
  Definition resume_of (i : insn) : N :=
    match in_iclass i with ptic_call | ptic_far_call => ip_after i | _ => 0 end.
  (** An instruction that ended tracing is still postponed. *)
  Definition stale (d : dec) : Prop :=
    exists i x, bd_postponed d = Some (i, x) /\
      (pt_insn_changes_cr3 x = true \/ pt_insn_next_ip i x = Err pte_bad_query /\ bd_ip d = resume_of i).
  (** Events that do not clear it. *)
  Definition sticky (e : event) : Prop := kind_of e <> None \/ exists ip, ev_var e = Ev_disabled ip.

  Record settled (d : dec) (s : fstate) : Prop := {
    s_agree : agrees d (fs_flow s);
    s_ip : bd_ip d = f_ip (fs_flow s);
    s_rest : rest d (fs_held s) (fs_facts s);
    s_full : fullness d;
    s_cur : f_cur (fs_flow s) = None;
    s_closed : closed d }.
  (** No event is pending. *)
  Record idle (d : dec) (s : fstate) : Prop := {
    i_settled : settled d s;
    i_off : f_on (fs_flow s) = false -> forall e, fs_held s = Some e ->
      exists ip, ev_var e = Ev_disabled ip /\ ev_status_update e = true }.
  (** An event between instructions is pending, ... *)
  Record pend_here (d : dec) (f : flow) (e : event) (fs : list fact) : Prop := {
    ph_agree : agrees d f;
    ph_ip : bd_ip d = f_ip f;
    ph_rest : rest d (Some e) fs;
    ph_cur : f_cur f = None;
    ph_here : here f e = true;
    ph_post : closed d \/ f_on f = false /\ stale d /\ sticky e }.
  (** ... one that the instruction causes, ... *)
  Record pend_cause (d : dec) (f : flow) (e : event) (fs : list fact) : Prop := {
    pc_agree : agrees d f;
    pc_rest : rest d (Some e) fs;
    pc_on : f_on f = true;
    pc_insn : exists i x ks k f0 t, bd_postponed d = Some (i, x) /\ f_cur f = Some (site_of_insn i x, ks) /\
      site_of_insn i x = site_of f0 t /\ bd_ip d = in_ip i /\
      kind_of e = Some k /\ ~ In k ks /\ also_causes (site_of_insn i x) ks e = true /\
      kinds (bd_bound d) (k :: ks) }.
  (** ... the end of tracing, ... *)
  Record pend_end (d : dec) (f : flow) (e : event) (fs : list fact) : Prop := {
    pe_agree : agrees d f;
    pe_rest : rest d (Some e) fs;
    pe_on : f_on f = true;
    pe_site : exists s ks, f_cur f = Some (s, ks) /\ ends s e = true /\ bd_ip d = resumes s;
    pe_post : closed d \/ stale d }.
  (** ... or an error, whatever is in the block caches. *)
  Definition dead (d : dec) (s : fstate) : Prop :=
    exists e, (forall cs, exists d', pt_blk_event im (bd_set_caches d cs) = (d', None, Err e)) /\ e <> pte_eos /\ gives_up e s.

  Definition pends (d : dec) (s : fstate) : Prop :=
    dead d s \/ exists f e fs, s = mk_fstate f (Some e) fs /\
      (pend_here d f e fs \/ pend_cause d f e fs \/ pend_end d f e fs).
  Record between (d : dec) (st : N) (s : fstate) : Prop := {
    bt_off : flag st pts_ip_suppressed = negb (f_on (fs_flow s));
    bt_eos : flag st pts_eos = true -> err = pte_eos /\ fs_held s = None /\ fs_facts s = [];
    bt_state : if flag st pts_event_pending then pends d s else idle d s }.

  (** ** Trailing events *)

  Inductive phase (d : dec) (f : flow) : Prop :=
  | phase_next : f_cur f = None -> bd_ip d = f_ip f -> closed d -> phase d f
  | phase_insn i x k ks f0 t : f_on f = true -> f_cur f = Some (site_of_insn i x, k :: ks) ->
      bd_postponed d = Some (i, x) -> site_of_insn i x = site_of f0 t -> bd_ip d = in_ip i ->
      kinds (bd_bound d) (k :: ks) -> phase d f
  | phase_off : f_on f = false -> f_cur f = None -> bd_ip d = f_ip f -> stale d -> phase d f.

  (** The event is not bound to the instruction. *)
  Definition free (f : flow) (e : event) : Prop :=
    forall s k ks, f_on f = true -> f_cur f = Some (s, k :: ks) -> ~ belongs s (k :: ks) e.

  Lemma kind_free f e : kind_of e = None -> (forall ip, ev_var e <> Ev_disabled ip) -> free f e.
  Proof.
    intros Hk Hd s k ks _ _ [H|(k' & H & _)]; [|congruence]. unfold ends in H. destruct (ev_var e); try discriminate H.
    eapply Hd. reflexivity.
  Qed.

  Lemma settled_same d s d' : settled d s -> still d d' -> agrees d' (fs_flow s) -> bd_ip d' = bd_ip d -> closed d' ->
    settled d' s.
  Proof.
    intros [] St A Ei Cl. constructor; try assumption.
    - congruence.
    - eapply still_rest; eassumption.
    - eapply still_full; eassumption.
  Qed.

  Lemma finish_ok d b f h fs : sane (mk_fstate f h fs) -> agrees d f -> rest d h fs -> fullness d -> phase d f ->
    (bd_status d = None \/ bd_status d = Some pte_eos) -> (forall e, h = Some e -> free f e) ->
    post (pt_blk_proceed_postponed_insn (d, b))
      (fun d' b' _ => b' = b /\ exists f' h' fs', bflows (mk_fstate f h fs) [] (mk_fstate f' h' fs') /\
         settled d' (mk_fstate f' h' fs') /\ f_on f' = f_on f /\
         (h <> None \/ f_on f = false -> h' = h /\ fs' = fs /\ still d d'))
      (err_keep (mk_fstate f h fs) b) no_ub.
  Proof.
    intros Hs Ha Hr Hf Ph Lv Hfr. unfold pt_blk_proceed_postponed_insn. apply post_state.
    destruct Ph as [Hc Hi Cl|i x k ks f0 t On Hc Hp Es Hi Hk|Off Hc Hi (i & x & Hp & _)].
    - destruct Cl as (Cl1 & Cl2). rewrite Cl1. split; [reflexivity|]. exists f, h, fs. split; [constructor|].
      split; [constructor; try assumption; split; assumption|]. repeat split; assumption.
    - rewrite Hp. rewrite (a_on _ _ _ _ _ Ha), On. cbn [negb].
      pose proof (next_site f0 t i x Es) as Nx.
      destruct (pt_insn_next_ip i x) as [ip|e|u] eqn:Enx; [|destruct Nx as (-> & Nb)|destruct Nx].
      + destruct Nx as (N1 & _ & N3). apply post_change. split; [reflexivity|].
        exists (at_site (go (calls f (f_calls f)) ip) None), h, fs. split; [|split; [|split]].
        * apply bflows_one. apply (bs_leave mem err f (site_of_insn i x) (k :: ks) h fs ip (f_calls f) fs On Hc).
          -- eapply rest_quiet; [exact Hr|exact Hf|exact Lv|]. intros e E. exact (Hfr e E _ _ _ On Hc).
          -- left. rewrite Es. exact N1.
          -- rewrite Es. apply N3.
        * constructor; cbn [fs_flow fs_held fs_facts].
          -- apply agrees_postponed, agrees_ip, agrees_at, agrees_go. destruct Ha; constructor; assumption.
          -- reflexivity.
          -- eapply still_rest; [|exact Hr]. repeat split.
          -- exact Hf.
          -- reflexivity.
          -- split; reflexivity.
        * exact On.
        * intros _. repeat split.
      + eapply post_bind; [exact (trace_ok cf buf base err sized freq small bytes mem cached content mode_of ex d b f h fs i x (k :: ks) Ha Hr Hf On Hc
                               (fun e E => Hfr e E _ _ _ On Hc) Enx)|].
        intros d1 b1 u (-> & K & -> & Fu & l & h' & fs' & A & R & F).
        assert (Fu' : fullness d1).
        { destruct Fu as [Fu|(b0 & fs0 & -> & Cl)]; [exact Fu|]. exfalso. apply (Hs [] _ (bflows_nil _ _ _)).
          eapply (strange_cause _ _ _ _ (mk_fstate f None (F_bit b0 :: fs0)) (site_of_insn i x)); [exact Hc|reflexivity|reflexivity|exact Cl]. }
        split; [reflexivity|]. eexists _, h', fs'. split; [exact F|]. split; [|split; [exact On|intros [X|X]; [destruct (X eq_refl)|congruence]]].
        constructor; cbn [fs_flow fs_held fs_facts].
        * apply agrees_postponed. exact A.
        * reflexivity.
        * eapply still_rest; [|exact R]. repeat split.
        * exact Fu'.
        * reflexivity.
        * split; reflexivity.
    - rewrite Hp. rewrite (a_on _ _ _ _ _ Ha), Off. cbn [negb]. split; [reflexivity|].
      exists f, h, fs. split; [constructor|]. split; [|split; [exact Off|repeat split]].
      constructor; cbn [fs_flow fs_held fs_facts]; try assumption.
      + apply agrees_postponed. exact Ha.
      + split; reflexivity.
  Qed.

  Lemma status_off (d : dec) st : flag st pts_ip_suppressed = false ->
    flag (pt_blk_status d st) pts_ip_suppressed = negb (bd_enabled d).
  Proof.
    unfold pt_blk_status, flag. intros H. apply negb_false_iff, N.eqb_eq in H.
    destruct (bd_enabled d); destruct (bd_status d) as [[]|];
      rewrite ?N.land_lor_distr_l, H; reflexivity.
  Qed.
  Lemma status_eos (d : dec) st : flag st pts_eos = false ->
    flag (pt_blk_status d st) pts_eos = true -> bd_status d = Some pte_eos.
  Proof.
    unfold pt_blk_status, flag. intros H. apply negb_false_iff, N.eqb_eq in H.
    destruct (bd_enabled d); destruct (bd_status d) as [[]|];
      rewrite ?N.land_lor_distr_l, ?H; first [reflexivity | discriminate].
  Qed.
  Lemma status_event (d : dec) (st : bool) :
    flag (pt_blk_status d (if st then pts_event_pending else 0)) pts_event_pending = st.
  Proof.
    unfold pt_blk_status, flag. destruct st; destruct (bd_enabled d); destruct (bd_status d) as [[]|]; reflexivity.
  Qed.

  Lemma eos_rest (d : dec) h fs : rest d h fs -> bd_status d = Some pte_eos -> err = pte_eos /\ h = None /\ fs = [].
  Proof. intros (_ & R) E. rewrite E in R. destruct R as (<- & _ & -> & ->). auto. Qed.

  (** Indicating that there is nothing, *)
  Lemma idle_ok d b s : idle d s ->
    post (indicate 0 (d, b)) (fun d' b' st => b' = b /\ between d' st s) (err_keep s b) no_ub.
  Proof.
    intros H. unfold indicate. apply post_state. split; [reflexivity|].
    pose proof (i_settled _ _ H) as K. constructor.
    - rewrite status_off by reflexivity. rewrite (a_on _ _ _ _ _ (s_agree _ _ K)). reflexivity.
    - intros E. apply status_eos in E; [|reflexivity]. eapply eos_rest; [apply K|exact E].
    - rewrite (status_event d false). exact H.
  Qed.
  (** or an event. *)
  Lemma pending_ok d b f e fs : agrees d f -> rest d (Some e) fs -> pends d (mk_fstate f (Some e) fs) ->
    post (pending (d, b)) (fun d' b' st => b' = b /\ between d' st (mk_fstate f (Some e) fs)) (err_keep (mk_fstate f (Some e) fs) b) no_ub.
  Proof.
    intros Ha Hr H. unfold pending, indicate. apply post_state. split; [reflexivity|]. constructor.
    - rewrite status_off by reflexivity. rewrite (a_on _ _ _ _ _ Ha). reflexivity.
    - intros E. apply status_eos in E; [|reflexivity]. destruct (eos_rest _ _ _ Hr E) as (_ & X & _). discriminate X.
    - rewrite (status_event d true). exact H.
  Qed.

  Definition goes (s : fstate) (b : block) : dec -> block -> N -> Prop := fun d' b' st =>
    b' = b /\ exists s', bflows s [] s' /\ between d' st s'.

  Notation none := (bind pt_blk_proceed_postponed_insn (fun _ => indicate 0)).

  Lemma flow_cat s s1 s2 : bflows s [] s1 -> bflows s1 [] s2 -> bflows s [] s2.
  Proof. intros H1 H2. exact (bflows_app _ _ _ [] _ [] _ H1 H2). Qed.

  Lemma keep_cat s s1 b (d' : dec) b' e : bflows s [] s1 -> err_keep s1 b d' b' e -> err_keep s b d' b' e.
  Proof. intros F (-> & He & G). split; [reflexivity|]. split; [exact He|]. eapply gives_later; eassumption. Qed.

  Lemma none_ok d b f h fs : sane (mk_fstate f h fs) -> agrees d f -> rest d h fs -> fullness d -> phase d f ->
    (bd_status d = None \/ bd_status d = Some pte_eos) -> (forall e, h = Some e -> free f e) ->
    (f_on f = false -> forall e, h = Some e -> exists ip, ev_var e = Ev_disabled ip /\ ev_status_update e = true) ->
    post (none (d, b)) (goes (mk_fstate f h fs) b) (err_keep (mk_fstate f h fs) b) no_ub.
  Proof.
    intros Hs Ha Hr Hf Ph Lv Hfr Hoff. eapply post_bind; [apply (finish_ok d b f h fs); assumption|].
    intros d1 b1 _ (-> & f' & h' & fs' & F & Se & On & Hh).
    eapply post_mono; [apply (idle_ok d1 b (mk_fstate f' h' fs'))| |intros d2 b2 e X; eapply keep_cat; eassumption|auto].
    - constructor; [exact Se|]. cbn [fs_flow fs_held]. rewrite On. intros Off e E.
      destruct (Hh (or_intror Off)) as (-> & _ & _). apply Hoff; assumption.
    - intros d2 b2 st (-> & B). split; [reflexivity|]. eauto.
  Qed.

  (** The event happens here or later. *)
  Lemma when_ok d b f e fs (c : bool) : sane (mk_fstate f (Some e) fs) -> settled d (mk_fstate f (Some e) fs) ->
    bd_status d = None -> c = here f e ->
    post ((if c then pending else none) (d, b)) (goes (mk_fstate f (Some e) fs) b) (err_keep (mk_fstate f (Some e) fs) b) no_ub.
  Proof.
    intros Hs Se Hst ->. pose proof Se as [Ha Hi Hr Hf Hc Cl]. cbn [fs_flow fs_held fs_facts] in *. destruct (here f e) eqn:Eh.
    - eapply post_mono; [apply (pending_ok d b f e fs Ha Hr)| |auto|auto].
      + right. exists f, e, fs. split; [reflexivity|]. left. constructor; auto.
      + intros d2 b2 st (-> & B). split; [reflexivity|]. eexists. split; [constructor|exact B].
    - apply none_ok; try assumption.
      + apply phase_next; assumption.
      + auto.
      + intros e' E s k ks _ X. congruence.
      + intros Off e' E. exfalso. apply (Hs [] _ (bflows_nil _ _ _)).
        apply (strange_off _ _ _ _ (mk_fstate f (Some e) fs) e); [exact Off|reflexivity|exact Eh].
  Qed.

  Lemma goes_cat s s1 b d' b' st : bflows s [] s1 -> goes s1 b d' b' st -> goes s b d' b' st.
  Proof. intros F (-> & s' & F' & B). split; [reflexivity|]. exists s'. split; [eapply flow_cat; eassumption|exact B]. Qed.

  (** An event that is not bound to the instruction. *)
  Lemma after_ok d b f e fs (k : dec -> M N) : sane (mk_fstate f (Some e) fs) -> agrees d f -> rest d (Some e) fs ->
    fullness d -> phase d f -> bd_status d = None -> kind_of e = None -> (forall ip, ev_var e <> Ev_disabled ip) ->
    (forall d' f', sane (mk_fstate f' (Some e) fs) -> settled d' (mk_fstate f' (Some e) fs) -> bd_status d' = None ->
       post (k d' (d', b)) (goes (mk_fstate f' (Some e) fs) b) (err_keep (mk_fstate f' (Some e) fs) b) no_ub) ->
    post (bind pt_blk_proceed_postponed_insn (fun _ => bind state k) (d, b)) (goes (mk_fstate f (Some e) fs) b) (err_keep (mk_fstate f (Some e) fs) b) no_ub.
  Proof.
    intros Hs Ha Hr Hf Ph Hst Hk Hd Hn. eapply post_bind; [apply (finish_ok d b f (Some e) fs); try assumption|].
    - auto.
    - intros e' [= <-]. apply kind_free; assumption.
    - intros d1 b1 _ (-> & f' & h' & fs' & F & Se & On & Hh).
      destruct Hh as (-> & -> & (S1 & S2 & S3)); [left; discriminate|]. apply post_state.
      eapply post_mono; [apply (Hn d1 f')| |intros d2 b2 e' X; eapply keep_cat; eassumption|auto].
      + eapply sane_flow; eassumption.
      + exact Se.
      + congruence.
      + intros d2 b2 st G. eapply goes_cat; eassumption.
  Qed.

  (** An event that is bound to the instruction together with a previous one. *)
  Lemma also_ok d b f e fs k bound pred mark : sane (mk_fstate f (Some e) fs) -> agrees d f -> rest d (Some e) fs ->
    fullness d -> phase d f -> bd_status d = None -> kind_of e = Some k ->
    (forall ks, kinds (bd_bound d) ks -> (bound (bd_bound d) = true <-> In k ks) /\ kinds (mark (bd_bound d)) (k :: ks)) ->
    (forall i x k' ks, pred i x = also_causes (site_of_insn i x) (k' :: ks) e) -> (here f e = negb (f_on f)) ->
    post ((if negb (bd_enabled d) then pending else
           match bd_postponed d with
           | Some (i, x) =>
               if bound (bd_bound d) : bool then none else
               if negb (pred i x) then none else
               bind (change (fun d => bd_set_postponed d (bd_postponed d) (mark (bd_bound d)))) (fun _ => pending)
           | None => none
           end) (d, b)) (goes (mk_fstate f (Some e) fs) b) (err_keep (mk_fstate f (Some e) fs) b) no_ub.
  Proof.
    intros Hs Ha Hr Hf Ph Hst Hk Hb Hp Hh. rewrite (a_on _ _ _ _ _ Ha).
    assert (Nd : forall s, ends s e = false).
    { intros s. unfold ends. unfold kind_of in Hk. destruct (ev_var e); try discriminate Hk; reflexivity. }
    assert (None_ : f_on f = true -> free f e -> post (none (d, b)) (goes (mk_fstate f (Some e) fs) b) (err_keep (mk_fstate f (Some e) fs) b) no_ub).
    { intros On Fr. apply none_ok; try assumption; [auto|intros e' [= <-]; exact Fr|congruence]. }
    destruct (f_on f) eqn:On; cbn [negb].
    2:{ eapply post_mono; [apply (pending_ok d b f e fs Ha Hr)| |auto|auto].
        - right. exists f, e, fs. split; [reflexivity|]. left.
          destruct Ph as [Hc Hi Cl|i x k' ks f0 t On' Hc Hpp Es Hi Hkk|Off' Hc Hi Stl]; [|congruence|].
          + constructor; auto.
          + constructor; auto. right. split; [exact On|]. split; [exact Stl|]. left. congruence.
        - intros d2 b2 st (-> & B). split; [reflexivity|]. eexists. split; [constructor|exact B]. }
    destruct Ph as [Hc Hi Cl|i x k' ks f0 t On' Hc Hpp Es Hi Hkk|Off' Hc Hi Stl]; [| |congruence].
    - destruct Cl as (Cl1 & Cl2). rewrite Cl1. apply None_; [reflexivity|]. intros s k' ks _ X. congruence.
    - rewrite Hpp. destruct (Hb _ Hkk) as (B1 & B2). destruct (bound (bd_bound d)).
      + apply None_; [reflexivity|]. intros s k2 ks2 _ X. rewrite Hc in X. injection X as <- <- <-.
        intros [X|(k3 & X1 & X2 & _)]; [rewrite Nd in X; discriminate|]. rewrite Hk in X1. injection X1 as <-.
        apply X2, B1. reflexivity.
      + rewrite (Hp i x k' ks). destruct (also_causes _ _ _) eqn:Ea; cbn [negb].
        * apply post_change. set (d1 := bd_set_postponed _ _ _).
          assert (R1 : rest d1 (Some e) fs) by (eapply still_rest; [|exact Hr]; repeat split).
          eapply post_mono; [apply (pending_ok d1 b f e fs)| |auto|auto].
          -- apply agrees_postponed, Ha.
          -- exact R1.
          -- right. exists f, e, fs. split; [reflexivity|]. right. left. constructor.
             ++ apply agrees_postponed, Ha.
             ++ exact R1.
             ++ exact On.
             ++ exists i, x, (k' :: ks), k, f0, t. split; [exact Hpp|]. split; [exact Hc|]. split; [exact Es|].
                split; [exact Hi|]. split; [exact Hk|]. split; [intros X; apply B1 in X; discriminate|].
                split; [exact Ea|exact B2].
          -- intros d2 b2 st (-> & B). split; [reflexivity|]. eexists. split; [constructor|exact B].
        * apply None_; [reflexivity|]. intros s k2 ks2 _ X. rewrite Hc in X. injection X as <- <- <-.
          intros [X|(k3 & _ & _ & X)]; [rewrite Nd in X; discriminate|]. congruence.
  Qed.

  (** The trace ended with an error. *)
  Lemma blocked_over f : err <> pte_eos -> blocked mem err (mk_fstate f None []).
  Proof.
    intros Ne. destruct (f_cur f) as [[s ks]|] eqn:Hc.
    - eapply blocked_site; [exact Hc|discriminate|discriminate|]. intros _ Q. destruct (Ne Q).
    - apply blocked_between; [exact Hc|discriminate| |discriminate]. intros (_ & _ & Q). destruct (Ne Q).
  Qed.
  Lemma dead_status d e s : bd_status d = Some e -> e <> pte_eos -> blocked mem err s -> dead d s.
  Proof. intros H He B. exists e. split; [|split; [exact He|apply gives_blocked, B]].
    intros cs. eexists. unfold pt_blk_event. cbn [bd_status bd_set_caches]. rewrite H. reflexivity. Qed.
  Lemma dead_update d ev ip s : bd_status d = None -> bd_event d = Some ev -> ev_var ev = Ev_disabled ip ->
    ev_status_update ev = true -> bd_enabled d = true -> gives_up pte_bad_status_update s -> dead d s.
  Proof.
    intros H1 H2 H3 H4 H5 G. exists pte_bad_status_update. split; [|split; [discriminate|exact G]]. intros cs. eexists.
    unfold pt_blk_event. cbn [bd_status bd_event bd_set_caches]. rewrite H1, H2, H3.
    unfold process. unfold bind at 1, state at 1. cbn [fst]. rewrite H3. unfold pt_blk_process_disabled, bind, state.
    cbn [fst bd_enabled bd_set_caches]. rewrite H4, H5. reflexivity.
  Qed.

  Lemma status_ok d b f h fs e : sane (mk_fstate f h fs) -> agrees d f -> rest d h fs -> fullness d -> phase d f ->
    bd_status d = Some e ->
    post (bind pt_blk_proceed_postponed_insn (fun _ => indicate (match e with pte_eos => 0 | _ => pts_event_pending end)) (d, b))
      (goes (mk_fstate f h fs) b) (err_keep (mk_fstate f h fs) b) no_ub.
  Proof.
    intros Hs Ha Hr Hf Ph Hst. pose proof Hr as (_ & R). rewrite Hst in R. destruct R as (-> & Ev & -> & ->).
    assert (D : err = pte_eos \/ err <> pte_eos) by (destruct err; auto; right; discriminate).
    destruct D as [E|Ne].
    { replace (match err with pte_eos => 0 | _ => pts_event_pending end) with 0 by (rewrite E; reflexivity).
      apply none_ok; try assumption; [right; congruence|intros; discriminate|intros; discriminate]. }
    assert (P : post (pt_blk_proceed_postponed_insn (d, b))
      (fun d' b' _ => b' = b /\ bd_status d' = Some err /\ bd_enabled d' = bd_enabled d) (err_keep (mk_fstate f None []) b) no_ub).
    { unfold pt_blk_proceed_postponed_insn. apply post_state. destruct (bd_postponed d) as [[i x]|]; [|repeat split; assumption].
      destruct (negb (bd_enabled d)); [repeat split; assumption|].
      assert (Q : match pt_insn_next_ip i x with Ok _ => True | Err er => er <> pte_eos | UB _ => False end).
      { unfold pt_insn_next_ip. destruct (in_iclass i); try exact I; try discriminate;
          destruct (is_jmpabs x); destruct (x_direct x); try exact I; discriminate. }
      destruct (pt_insn_next_ip i x) as [ip|e|u]; [apply post_change; repeat split; assumption| |destruct Q].
      assert (T : post (pt_blk_proceed_with_trace i x (d, b)) (fun d' b' _ => b' = b /\ d' = d) (err_keep (mk_fstate f None []) b) no_ub).
      { assert (I0 : pt_blk_proceed_indirect (d, b) = ((d, b), Err pte_bad_query)).
        { unfold pt_blk_proceed_indirect, bind, state. cbn [fst]. rewrite Ev. reflexivity. }
        assert (C0 : pt_blk_cond_branch (d, b) = ((d, b), Ok None)).
        { unfold pt_blk_cond_branch, bind, state. cbn [fst]. rewrite Ev. reflexivity. }
        unfold pt_blk_proceed_with_trace, post. destruct (in_iclass i); unfold bind; rewrite ?C0, ?I0;
          repeat match goal with |- context [if ?c then _ else _] => destruct c end; rewrite ?I0;
          (split; [reflexivity|first [reflexivity|split; [discriminate|apply gives_blocked, blocked_over, Ne]]]). }
      destruct e; try (split; [reflexivity|split; [exact Q|apply gives_blocked, blocked_over, Ne]]).
      eapply post_bind; [exact T|]. intros d1 b1 _ (-> & ->). repeat split; assumption. }
    eapply post_bind; [exact P|]. intros d1 b1 _ (-> & S1 & E1). unfold indicate. apply post_state. split; [reflexivity|].
    exists (mk_fstate f None []). split; [constructor|].
    assert (Em : match err with pte_eos => 0 | _ => pts_event_pending end = pts_event_pending) by (destruct err; congruence).
    rewrite Em. constructor.
    - rewrite status_off by reflexivity. rewrite E1, (a_on _ _ _ _ _ Ha). reflexivity.
    - intros E. apply status_eos in E; [|reflexivity]. congruence.
    - rewrite (status_event d1 true). left. eapply dead_status; [eassumption|exact Ne|apply blocked_over, Ne].
  Qed.

  Lemma kinds_mark b ks : kinds b ks ->
    ((bo_paging b = true <-> In K_paging ks) /\ kinds (mark_paging b) (K_paging :: ks)) /\
    ((bo_vmcs b = true <-> In K_vmcs ks) /\ kinds (mark_vmcs b) (K_vmcs :: ks)) /\
    ((bo_ptwrite b = true <-> In K_ptwrite ks) /\ kinds (mark_ptwrite b) (K_ptwrite :: ks)) /\
    ((bo_iret b = true <-> In K_iret ks) /\ kinds (mark_iret b) (K_iret :: ks)) /\
    ((bo_vmentry b = true <-> In K_vmentry ks) /\ kinds (mark_vmentry b) (K_vmentry :: ks)) /\
    ((bo_uiret b = true <-> In K_uiret ks) /\ kinds (mark_uiret b) (K_uiret :: ks)).
  Proof.
    intros (H1 & H2 & H3 & H4 & H5 & H6).
    assert (W : forall c k k', (c = true <-> In k ks) -> k <> k' -> (c = true <-> In k (k' :: ks))).
    { intros c k k' H N. split; intros X; [right; apply H, X|]. destruct X as [X|X]; [congruence|apply H, X]. }
    assert (T : forall k, true = true <-> In k (k :: ks)) by (intros k; split; [left; reflexivity|reflexivity]).
    do 5 (split; [split; [assumption|]; unfold kinds; cbn [bo_paging bo_vmcs bo_ptwrite bo_iret bo_vmentry bo_uiret
      mark_paging mark_vmcs mark_ptwrite mark_iret mark_vmentry mark_uiret];
      repeat split; (apply T || (apply W; [assumption|discriminate]))|]).
    split; [assumption|]. unfold kinds; cbn [bo_paging bo_vmcs bo_ptwrite bo_iret bo_vmentry bo_uiret mark_uiret].
      repeat split; (apply T || (apply W; [assumption|discriminate])).
  Qed.

  Lemma pip_causes i x k ks e a n : ev_var e = Ev_paging a n -> pt_insn_binds_to_pip i x = also_causes (site_of_insn i x) (k :: ks) e.
  Proof.
    intros E. unfold also_causes, causes. rewrite E, andb_true_r. unfold pt_insn_binds_to_pip, pt_insn_is_far_branch, far.
    cbn [si_ext si_class site_of_insn]. destruct (x_inst x); destruct (in_iclass i); reflexivity.
  Qed.
  Lemma vmcs_causes i x k ks e a : ev_var e = Ev_vmcs a -> pt_insn_binds_to_vmcs i x = also_causes (site_of_insn i x) (k :: ks) e.
  Proof.
    intros E. unfold also_causes, causes. rewrite E, andb_true_r. unfold pt_insn_binds_to_vmcs, pt_insn_is_far_branch, far.
    cbn [si_ext si_class site_of_insn]. destruct (x_inst x); destruct (in_iclass i); reflexivity.
  Qed.

  Lemma resumes_of i x f0 t : site_of_insn i x = site_of f0 t -> pt_insn_next_ip i x = Err pte_bad_query ->
    resume_of i = resumes (site_of_insn i x).
  Proof.
    intros Es En. pose proof (next_site f0 t i x Es) as Nx. rewrite En in Nx. destruct Nx as (_ & Nb). rewrite <- Es in Nb.
    unfold resume_of, resumes. rewrite Nb. unfold next_insn, ip_after. cbn [si_class si_ip si_len site_of_insn].
    rewrite add64_offset. destruct (in_iclass i); reflexivity.
  Qed.
  Lemma resumes_cr3 i x f0 t : site_of_insn i x = site_of f0 t -> pt_insn_changes_cr3 x = true ->
    in_ip i = resumes (site_of_insn i x).
  Proof.
    intros Es Hx. unfold site_of_insn, site_of in *. injection Es as E1 E2 E3 E4.
    assert (Cl : in_iclass i = ptic_other).
    { rewrite E3. apply cr3_other. rewrite <- E4. unfold pt_insn_changes_cr3 in Hx. destruct (x_inst x); try discriminate Hx; reflexivity. }
    unfold resumes, branches. cbn [si_class si_ip]. rewrite Cl. reflexivity.
  Qed.

  (** Indicating an event in a state with its flow. *)
  Lemma pending_goes d b f e fs : agrees d f -> rest d (Some e) fs -> pends d (mk_fstate f (Some e) fs) ->
    post (pending (d, b)) (goes (mk_fstate f (Some e) fs) b) (err_keep (mk_fstate f (Some e) fs) b) no_ub.
  Proof.
    intros Ha Hr Hp. eapply post_mono; [apply (pending_ok d b f e fs Ha Hr Hp)| |auto|auto].
    intros d2 b2 st (-> & B). split; [reflexivity|]. eexists. split; [constructor|exact B].
  Qed.

  Lemma trailing_disabled d b f ev fs ip : sane (mk_fstate f (Some ev) fs) -> agrees d f -> rest d (Some ev) fs ->
    fullness d -> phase d f -> bd_status d = None -> bd_event d = Some ev -> plain_event ev -> ev_var ev = Ev_disabled ip ->
    post (match bd_postponed d with
          | None => none
          | Some (i, x) =>
              if ev_ip_suppressed ev && pt_insn_changes_cr3 x then pending else
              match pt_insn_next_ip i x with
              | UB u => lift (UB u)
              | Err pte_bad_query => bind (pt_blk_set_disable_resume_ip i) (fun _ => pending)
              | Err e => fail e
              | Ok nip =>
                  bind (change (fun d => bd_set_ip d nip)) (fun _ =>
                  bind pt_blk_clear_postponed_insn (fun _ =>
                  if negb (ev_ip_suppressed ev) && (nip =? ip) then pending else none))
              end
          end (d, b)) (goes (mk_fstate f (Some ev) fs) b) (err_keep (mk_fstate f (Some ev) fs) b) no_ub.
  Proof.
    intros Hs Ha Hr Hf Ph Hst Hev Hp Ev.
    assert (Kn : kind_of ev = None) by (unfold kind_of; rewrite Ev; reflexivity).
    assert (Off : f_on f = false -> ev_status_update ev = true).
    { intros Off. destruct (ev_status_update ev) eqn:Su; [reflexivity|]. exfalso. apply (Hs [] _ (bflows_nil _ _ _)).
      apply (strange_off _ _ _ _ (mk_fstate f (Some ev) fs) ev); [exact Off|reflexivity|]. cbn [fs_flow]. unfold here. rewrite Ev, Su, Off. reflexivity. }
    destruct Ph as [Hc Hi Cl|i x k ks f0 t On Hc Hpp Es Hi Hkk|Of Hc Hi (i & x & Hpp & St)].
    - rewrite (proj1 Cl). apply none_ok; try assumption.
      + apply phase_next; assumption.
      + auto.
      + intros e _ s k ks _ X. congruence.
      + intros Of e [= <-]. eauto.
    - rewrite Hpp.
      assert (End : forall d1, agrees d1 f -> rest d1 (Some ev) fs -> stale d1 -> bd_ip d1 = resumes (site_of_insn i x) ->
        bd_status d1 = None -> bd_event d1 = Some ev ->
        branches (site_of_insn i x) = true \/ ev_ip_suppressed ev = true /\ moves_cr3 (site_of_insn i x) = true ->
        post (pending (d1, b)) (goes (mk_fstate f (Some ev) fs) b) (err_keep (mk_fstate f (Some ev) fs) b) no_ub).
      { intros d1 A1 R1 St Ip S1 E1 Why. apply pending_goes; [assumption|assumption|].
        destruct (ev_status_update ev) eqn:Su.
        - left. eapply dead_update; try eassumption; [rewrite (a_on _ _ _ _ _ A1); exact On|].
          assert (Nb : forall e, Some ev = Some e -> ~ belongs (site_of_insn i x) (k :: ks) e).
          { intros e [= <-] [X|(k' & X & _)]; [|congruence]. unfold ends in X. rewrite Ev, Su in X. discriminate X. }
          destruct (branches (site_of_insn i x)) eqn:Br.
          + apply gives_blocked. eapply blocked_site; [exact Hc|discriminate|exact Nb|].
            intros _ _ [X|X]; congruence.
          + pose proof (next_site f0 t i x Es) as Nx. destruct (pt_insn_next_ip i x) as [nip|e|u]; [|destruct Nx as (_ & Nx); congruence|destruct Nx].
            destruct Nx as (_ & _ & N3). eapply gives_later; [apply bflows_one|apply gives_blocked; apply blocked_between].
            * apply (bs_leave mem err f (site_of_insn i x) (k :: ks) (Some ev) fs nip (f_calls f) fs On Hc).
              -- apply Nb. reflexivity.
              -- left. exact Br.
              -- rewrite Es. apply N3.
            * reflexivity.
            * discriminate.
            * intros (_ & _ & Q) _ _ _. apply Q. unfold here. rewrite Ev, Su. reflexivity.
            * intros e [= <-] _. unfold effect. rewrite Ev, Su. change (f_on (at_site _ _)) with (f_on f). rewrite On. reflexivity.
        - right. exists f, ev, fs. split; [reflexivity|]. right. right. constructor; auto.
          exists (site_of_insn i x), (k :: ks). split; [exact Hc|]. split; [|exact Ip].
          unfold ends. rewrite Ev, Su. destruct Why as [->|(-> & ->)]; [reflexivity|]. apply orb_true_r. }
      assert (Mv : pt_insn_changes_cr3 x = moves_cr3 (site_of_insn i x)).
      { unfold pt_insn_changes_cr3, moves_cr3. cbn [si_ext site_of_insn]. destruct (x_inst x); reflexivity. }
      destruct (ev_ip_suppressed ev && pt_insn_changes_cr3 x) eqn:E1.
      + apply andb_true_iff in E1. destruct E1 as (E1 & E2). apply End; auto.
        * exists i, x. auto.
        * rewrite Hi. eapply resumes_cr3; eassumption.
      + pose proof (next_site f0 t i x Es) as Nx. pose proof (resumes_of i x f0 t Es) as Ro.
        destruct (pt_insn_next_ip i x) as [nip|e|u] eqn:En; [|destruct Nx as (-> & Nb)|destruct Nx].
        * destruct Nx as (N1 & _ & N3). apply post_change. unfold pt_blk_clear_postponed_insn. apply post_change.
          set (f' := at_site (go (calls f (f_calls f)) nip) None). set (d1 := bd_set_postponed _ _ _).
          assert (F : bflows (mk_fstate f (Some ev) fs) [] (mk_fstate f' (Some ev) fs)).
          { apply bflows_one. apply (bs_leave mem err f (site_of_insn i x) (k :: ks) (Some ev) fs nip (f_calls f) fs On Hc).
            - eapply rest_quiet; [exact Hr|exact Hf|auto|]. intros e [= <-] [X|(k' & X & _)]; [|congruence].
              unfold ends in X. rewrite Ev, <- Mv, E1 in X. rewrite Es in X. rewrite N1 in X. rewrite andb_comm in X. discriminate X.
            - left. rewrite Es. exact N1.
            - rewrite Es. apply N3. }
          assert (A1 : agrees d1 f').
          { apply agrees_postponed, agrees_ip, agrees_at, agrees_go. destruct Ha; constructor; assumption. }
          assert (R1 : rest d1 (Some ev) fs) by (eapply still_rest; [|exact Hr]; repeat split).
          assert (Se : settled d1 (mk_fstate f' (Some ev) fs)).
          { constructor; cbn [fs_flow fs_held fs_facts]; auto. split; reflexivity. }
          destruct (negb (ev_ip_suppressed ev) && (nip =? ip)) eqn:E2.
          -- eapply post_mono; [apply (pending_goes d1 b f' ev fs A1 R1)| |intros d2 b2 e' X; eapply keep_cat; eassumption|auto].
             ++ right. exists f', ev, fs. split; [reflexivity|]. left. constructor; auto.
                ** unfold here. rewrite Ev. change (f_on f') with (f_on f). change (f_ip f') with nip. rewrite On.
                   cbn [andb]. rewrite E2. apply orb_true_r.
                ** left. split; reflexivity.
             ++ intros d2 b2 st G. eapply goes_cat; eassumption.
          -- eapply post_mono; [apply (none_ok d1 b f' (Some ev) fs)| |intros d2 b2 e' X; eapply keep_cat; eassumption|auto].
             ++ eapply sane_flow; eassumption.
             ++ exact A1.
             ++ exact R1.
             ++ exact Hf.
             ++ apply phase_next; [reflexivity|reflexivity|split; reflexivity].
             ++ auto.
             ++ intros e _ s k' ks' _ X. discriminate X.
             ++ intros Of. change (f_on f') with (f_on f) in Of. congruence.
             ++ intros d2 b2 st G. eapply goes_cat; eassumption.
        * unfold pt_blk_set_disable_resume_ip. apply post_change. fold (resume_of i). set (d1 := bd_set_ip _ _).
          apply End.
          -- apply agrees_ip, Ha.
          -- eapply still_rest; [|exact Hr]; repeat split.
          -- exists i, x. split; [exact Hpp|]. right. split; [exact En|reflexivity].
          -- apply Ro. reflexivity.
          -- exact Hst.
          -- exact Hev.
          -- left. congruence.
    - rewrite Hpp. pose proof (Off Of) as Su. assert (Sup : ev_ip_suppressed ev = true).
      { unfold plain_event in Hp. rewrite Ev in Hp. auto. }
      rewrite Sup. cbn [andb negb].
      assert (Go : forall d1, agrees d1 f -> rest d1 (Some ev) fs -> stale d1 -> bd_ip d1 = f_ip f ->
        post (pending (d1, b)) (goes (mk_fstate f (Some ev) fs) b) (err_keep (mk_fstate f (Some ev) fs) b) no_ub).
      { intros d1 A1 R1 St1 Ip. apply pending_goes; [assumption|assumption|]. right. exists f, ev, fs. split; [reflexivity|].
        left. constructor; auto.
        - unfold here. rewrite Ev, Su. reflexivity.
        - right. split; [exact Of|]. split; [exact St1|]. right. eauto. }
      destruct (pt_insn_changes_cr3 x) eqn:Cx.
      + apply Go; auto. exists i, x. auto.
      + destruct St as [St|(St & Ip)]; [discriminate|]. rewrite St. unfold pt_blk_set_disable_resume_ip. apply post_change.
        fold (resume_of i). apply Go.
        * apply agrees_ip, Ha.
        * eapply still_rest; [|exact Hr]; repeat split.
        * exists i, x. split; [exact Hpp|]. right. split; [exact St|reflexivity].
        * cbn [bd_ip bd_set_ip]. congruence.
  Qed.

  Lemma trailing_full fuel given d b f h fs : sane (mk_fstate f h fs) -> agrees d f -> rest d h fs -> fullness d -> phase d f ->
    post (trailing im (Datatypes.S fuel) given (d, b)) (goes (mk_fstate f h fs) b) (err_keep (mk_fstate f h fs) b) no_ub.
  Proof.
    intros Hs Ha Hr Hf Ph. cbn [trailing]. apply post_state.
    destruct (bd_status d) as [e|] eqn:Est; [eapply status_ok; eassumption|].
    pose proof Hr as (Hcf & R). rewrite Est in R. destruct R as (ev & evs & Hev & Hp & Hu & Ep). rewrite Hev.
    unfold parted in Ep.
    assert (Held : match ev_var ev with Ev_tnt _ _ | Ev_tip _ => h = None | _ => h = Some ev end).
    { destruct (ev_var ev); congruence. }
    assert (Nt : post (none (d, b)) (goes (mk_fstate f None fs) b) (err_keep (mk_fstate f None fs) b) no_ub \/ h <> None).
    { destruct h as [e|]; [right; discriminate|left]. apply none_ok; try assumption; [auto|intros; discriminate|intros; discriminate]. }
    assert (Aft : forall k, h = Some ev -> kind_of ev = None -> (forall ip, ev_var ev <> Ev_disabled ip) ->
      (forall d' f', sane (mk_fstate f' (Some ev) fs) -> settled d' (mk_fstate f' (Some ev) fs) -> bd_status d' = None ->
         post (k d' (d', b)) (goes (mk_fstate f' (Some ev) fs) b) (err_keep (mk_fstate f' (Some ev) fs) b) no_ub) ->
      post (bind pt_blk_proceed_postponed_insn (fun _ => bind state k) (d, b)) (goes (mk_fstate f h fs) b) (err_keep (mk_fstate f h fs) b) no_ub).
    { intros k -> H1 H2 H3. apply after_ok; assumption. }
    assert (When : forall d' f' (c : bool), sane (mk_fstate f' (Some ev) fs) -> settled d' (mk_fstate f' (Some ev) fs) ->
      bd_status d' = None -> c = here f' ev ->
      post ((if c then pending else none) (d', b)) (goes (mk_fstate f' (Some ev) fs) b) (err_keep (mk_fstate f' (Some ev) fs) b) no_ub).
    { intros d' f' c. apply when_ok. }
    assert (Also : forall k bound pred mark, h = Some ev -> kind_of ev = Some k ->
      (forall ks, kinds (bd_bound d) ks -> (bound (bd_bound d) = true <-> In k ks) /\ kinds (mark (bd_bound d)) (k :: ks)) ->
      (forall i x k' ks, pred i x = also_causes (site_of_insn i x) (k' :: ks) ev) -> (here f ev = negb (f_on f)) ->
      post ((if negb (bd_enabled d) then pending else
           match bd_postponed d with
           | Some (i, x) =>
               if bound (bd_bound d) : bool then none else
               if negb (pred i x) then none else
               bind (change (fun d => bd_set_postponed d (bd_postponed d) (mark (bd_bound d)))) (fun _ => pending)
           | None => none
           end) (d, b)) (goes (mk_fstate f h fs) b) (err_keep (mk_fstate f h fs) b) no_ub).
    { intros k bound pred mark ->. apply also_ok; assumption. }
    pose proof (kinds_mark (bd_bound d)) as Km.
    assert (Nev : h = None -> post (none (d, b)) (goes (mk_fstate f h fs) b) (err_keep (mk_fstate f h fs) b) no_ub).
    { intros ->. apply none_ok; try assumption; [auto|intros; discriminate|intros; discriminate]. }
    assert (Kn : match ev_var ev with
                 | Ev_paging _ _ | Ev_vmcs _ | Ev_ptwrite _ _ _ | Ev_iret _ | Ev_vmentry _ | Ev_uiret _ => True
                 | _ => kind_of ev = None end) by (unfold kind_of; destruct (ev_var ev); exact I || reflexivity).
    assert (Hh : forall d' f', settled d' (mk_fstate f' (Some ev) fs) -> bd_ip d' = f_ip f' /\ bd_enabled d' = f_on f').
    { intros d' f' Se. split; [apply Se|]. apply (a_on _ _ _ _ _ (s_agree _ _ Se)). }
    assert (Vr : forall f', here f' ev = match ev_var ev with
        | Ev_disabled ip => ev_status_update ev || (f_on f' && negb (ev_ip_suppressed ev) && (f_ip f' =? ip))
        | _ => located f' ev end) by reflexivity.
    destruct (ev_var ev) eqn:Ev;
    (* events that happen at a place *)
    try solve [apply Aft; [exact Held|exact Kn|discriminate|]; intros d' f' Hs' Se St';
               destruct (Hh d' f' Se) as (Hi & He); rewrite ?Hi, ?He;
               first [apply When | apply (When d' f' true)]; try assumption; rewrite Vr; unfold located; rewrite Ev;
               try reflexivity; symmetry; apply orb_assoc];
    (* events that an instruction causes *)
    try solve [eapply Also; [exact Held|unfold kind_of; rewrite Ev; reflexivity|intros ks Hk; apply (Km ks Hk)| |rewrite Vr; unfold located; rewrite Ev; reflexivity];
               intros i x k ks; first [eapply pip_causes; exact Ev | eapply vmcs_causes; exact Ev |
                 unfold also_causes, causes; rewrite Ev; destruct (ev_ip_suppressed ev); cbn [andb orb]; [rewrite andb_true_r|rewrite andb_false_r]; reflexivity]].
    - (* disabled *)
      revert Hs Hr. rewrite Held. intros Hs Hr. eapply trailing_disabled; eassumption.
    - (* async disabled *)
      apply Aft; [exact Held|exact Kn|discriminate|]; intros d' f' Hs' Se St'. destruct (Hh d' f' Se) as (Hi & He).
      replace (er_skd022 (cf_errata (pt_blk_config d'))) with false.
      2:{ rewrite (proj1 (s_rest _ _ Se)). symmetry. exact no_skd022. }
      pose proof (When d' f' (here f' ev) Hs' Se St' eq_refl) as W. rewrite Vr in W. unfold located in W. rewrite Ev in W.
      rewrite Hi. destruct (f_ip f' =? _); exact W.
    - (* tsx *)
      apply Aft; [exact Held|exact Kn|discriminate|]; intros d' f' Hs' Se St'. destruct (Hh d' f' Se) as (Hi & He).
      pose proof (When d' f' (here f' ev) Hs' Se St' eq_refl) as W. rewrite Vr in W. unfold located in W. rewrite Ev in W.
      assert (T : pt_blk_postpone_trailing_tsx im given ev ip aborted (d', b) =
                  ((d', b), Ok (negb (ev_ip_suppressed ev || (f_ip f' =? ip))))).
      { unfold pt_blk_postpone_trailing_tsx. destruct (ev_ip_suppressed ev); [reflexivity|].
        unfold bind, state, ret, lift. cbn [fst]. rewrite (proj1 (s_rest _ _ Se)), no_bdm64, andb_false_r. cbn [fst].
        rewrite Hi. reflexivity. }
      unfold bind at 1. rewrite T. rewrite negb_involutive. exact W.
    - (* tip *)
      apply Nev. exact Held.
    - (* tnt *)
      unfold blk, bind at 1. rewrite (a_ticks _ _ _ _ _ Ha). cbn [negb orb].
      unfold fullness in Hf. rewrite Hev in Hf. unfold tnt_ok in Hf. rewrite Ev in Hf.
      destruct (size =? 0) eqn:Ez; [apply N.eqb_eq in Ez; lia|]. apply Nev. exact Held.
    - (* rsm *)
      apply Aft; [exact Held|exact Kn|discriminate|]; intros d' f' Hs' Se St'.
      destruct (ev_ip_suppressed ev) eqn:Su.
      2:{ split; [reflexivity|]. split; [discriminate|]. apply gives_blocked, blocked_between; [exact (s_cur _ _ Se)|discriminate| |].
          - intros (_ & _ & Q). cbn in Q. assert (H : here f' ev = true) by (rewrite Vr; unfold located; rewrite Ev; reflexivity). destruct (Q H).
          - intros e [= <-] _. unfold effect. rewrite Ev, Su. reflexivity. }
      apply (When d' f' true); try assumption. rewrite Vr; unfold located; rewrite Ev; reflexivity.
    - (* sipi *)
      apply Aft; [exact Held|exact Kn|discriminate|]; intros d' f' Hs' Se St'.
      destruct (ev_ip_suppressed ev) eqn:Su.
      2:{ split; [reflexivity|]. split; [discriminate|]. apply gives_blocked, blocked_between; [exact (s_cur _ _ Se)|discriminate| |].
          - intros (_ & _ & Q). cbn in Q. assert (H : here f' ev = true) by (rewrite Vr; unfold located; rewrite Ev; reflexivity). destruct (Q H).
          - intros e [= <-] _. unfold effect. rewrite Ev, Su. reflexivity. }
      apply (When d' f' true); try assumption. rewrite Vr; unfold located; rewrite Ev; reflexivity.
    - (* trig *)
      unfold plain_event in Hp. rewrite Ev in Hp. destruct Hp.
  Qed.

  Lemma trailing_ok given d b f h fs : sane (mk_fstate f h fs) -> agrees d f -> rest d h fs ->
    fullness d \/ closed d /\ f_cur f = None /\ bd_ip d = f_ip f -> phase d f ->
    post (pt_blk_proceed_trailing_event im given (d, b)) (goes (mk_fstate f h fs) b) (err_keep (mk_fstate f h fs) b) no_ub.
  Proof.
    intros Hs Ha Hr Hf Ph. unfold pt_blk_proceed_trailing_event.
    assert (D : fullness d \/ ~ fullness d).
    { unfold fullness, tnt_ok. destruct (bd_event d) as [ev|]; [|auto]. destruct (ev_var ev); auto.
      destruct (N.le_gt_cases 1 size); [auto|right; lia]. }
    destruct D as [Fu|Nf]; [apply trailing_full; assumption|]. destruct Hf as [Hf|(Cl & Hc & Hi)]; [contradiction|].
    pose proof Hr as (Hcf & R). unfold fullness in Nf.
    destruct (bd_status d) as [e|] eqn:Est; [destruct R as (_ & E & _); rewrite E in Nf; destruct (Nf I)|].
    destruct R as (ev & evs & Hev & Hp & Hu & Ep). rewrite Hev in Nf. unfold tnt_ok in Nf.
    destruct (ev_var ev) eqn:Ev; try destruct (Nf I). assert (size = 0) by (clear - Nf; lia). subst size.
    unfold parted in Ep. rewrite Ev in Ep. injection Ep as -> ->.
    change (map F_bit (payload_bits bits 0) ++ flat_map facts_of evs) with (flat_map facts_of evs) in *.
    remember 2%nat as n2 eqn:En. cbn [trailing]. apply post_state. rewrite Est, Hev, Ev. apply post_blk.
    rewrite (a_ticks _ _ _ _ _ Ha). cbn [negb orb N.eqb].
    eapply post_bind; [eapply post_mono; [exact (fetch_ok cf buf base err sized freq small bytes mem cached content mode_of d b f ev evs Ha Hcf Est Hev Hp Hu)
      |intros d1 b1 u X; exact X| |auto]|].
    { intros d1 b1 e []. }
    intros d1 b1 u (-> & A1 & I1 & (K1 & K2 & _) & F1 & h1 & fs1 & R1 & Fl). subst n2.
    eapply post_mono; [apply (trailing_full 1 given d1 b f h1 fs1)| |intros d2 b2 e' X; eapply keep_cat; [apply Fl|exact X]|auto].
    - eapply sane_flow; [exact Hs|apply Fl].
    - exact A1.
    - exact R1.
    - exact F1.
    - apply phase_next; [exact Hc|congruence|]. destruct Cl. split; congruence.
    - intros d2 b2 st G. eapply goes_cat; [apply Fl|exact G].
  Qed.
End BLOCKS.
