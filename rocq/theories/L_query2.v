(** Lemmas on the query decoder: synchronisation, and what queries tell. *)

From Verif Require Import Base M_config M_pktdec M_tnt M_time M_evq M_event M_evdec M_query
  S_core S_evdec S_evtrace S_query L_core L_evsafe L_evnext L_query T_evdec T_evtrace.
From Coq Require Import List NArith PeanoNat Wf_nat Bool Lia.
Import ListNotations.
Open Scope nat_scope.

(** ** The abstract decoder *)

Definition rest (s : qspec) : list fact := map F_bit (qs_bits s) ++ flat_map facts_of (qs_evs s).

Lemma plain_facts e : plain e = true -> facts_of e = [F_event e].
Proof. unfold plain, is_tnt, is_tip, facts_of. destruct (ev_var e); try discriminate; auto. Qed.
Lemma tnt_facts e : is_tnt e = true -> facts_of e = map F_bit (bits_of e).
Proof. unfold is_tnt, facts_of. destruct (ev_var e); try discriminate; auto. Qed.

Lemma absorb_rest s s' r : absorb s = (s', r) -> rest s' = rest s /\
  (match r with UB _ => False | _ => True end).
Proof.
  unfold absorb, rest. destruct (qs_evs s) as [|e evs] eqn:E; [intros H; injection H as <- <-; rewrite E; auto|].
  destruct (is_tnt e) eqn:Et; [|intros H; injection H as <- <-; rewrite E; auto].
  destruct (Nat.leb _ _); intros H; injection H as <- <-; [|rewrite E; auto].
  cbn [qs_bits qs_evs flat_map]. rewrite map_app, <- app_assoc, (tnt_facts _ Et). auto.
Qed.

Definition good_filter (p : fact -> bool) : Prop :=
  (forall ip, p (F_tip ip) = false) \/ (forall b, p (F_bit b) = false).

Lemma step_rest s o p : good_filter p ->
  filter p (rest s) = filter p (fact_learned (snd (spec_step s o))) ++ filter p (rest (fst (spec_step s o))).
Proof.
  intros Hp.
  assert (Htake : forall s, qs_bits s <> [] -> forall b bits, qs_bits s = b :: bits ->
    rest s = F_bit b :: rest (mk_qspec bits (qs_evs s) (qs_err s))).
  { intros s0 _ b bits E. unfold rest. rewrite E. reflexivity. }
  destruct o; cbn [spec_step].
  - unfold spec_cond. destruct (qs_bits s) as [|b bits] eqn:Eb.
    + destruct (absorb s) as [s1 [[]|e|u]] eqn:Ea; destruct (absorb_rest _ _ _ Ea) as (<- & Hu);
        [|cbn; reflexivity|destruct Hu].
      destruct (qs_bits s1) as [|b bits] eqn:Eb1; [cbn; reflexivity|].
      cbn [fst snd fact_learned]. rewrite (Htake s1 ltac:(congruence) b bits Eb1).
      change (F_bit b :: ?x) with ([F_bit b] ++ x). rewrite <- filter_app. reflexivity.
    + cbn [fst snd fact_learned]. rewrite (Htake s ltac:(congruence) b bits Eb).
      change (F_bit b :: ?x) with ([F_bit b] ++ x). rewrite <- filter_app. reflexivity.
  - unfold spec_indirect. destruct (absorb s) as [s1 [[]|e|u]] eqn:Ea; destruct (absorb_rest _ _ _ Ea) as (<- & Hu);
      [|cbn; reflexivity|destruct Hu].
    destruct (qs_evs s1) as [|e evs] eqn:Ee; [cbn; reflexivity|].
    destruct (ev_var e) eqn:Ev; try (cbn; reflexivity).
    cbn [fst snd fact_learned]. unfold rest. rewrite Ee. cbn [qs_bits qs_evs flat_map].
    unfold facts_of at 1. rewrite Ev. rewrite !filter_app. destruct Hp as [Hp|Hp].
    + cbn [filter]. rewrite Hp. reflexivity.
    + assert (E : forall l, filter p (map F_bit l) = []).
      { induction l as [|b l IH]; [reflexivity|]. cbn [map filter]. rewrite Hp. exact IH. }
      rewrite E. reflexivity.
  - unfold spec_event. destruct (qs_bits s) as [|b bits] eqn:Eb; [|cbn; reflexivity].
    destruct (qs_evs s) as [|e evs] eqn:Ee; [cbn; reflexivity|].
    destruct (plain e) eqn:Epl; [|cbn; reflexivity].
    cbn [fst snd fact_learned]. unfold rest. rewrite Eb, Ee. cbn [map app qs_bits qs_evs flat_map].
    rewrite filter_app, (plain_facts _ Epl). reflexivity.
Qed.

Lemma run_rest p : good_filter p -> forall ops s,
  exists r, filter p (rest s) = filter p (flat_map fact_learned (answers spec_step s ops)) ++ r.
Proof.
  intros Hp. induction ops as [|o ops IH]; intros s; [eexists; reflexivity|].
  cbn [answers]. pose proof (step_rest s o p Hp) as Hs.
  destruct (spec_step s o) as [s' a]. cbn [fst snd] in Hs. cbn [flat_map].
  destruct (IH s') as (r & Hr). exists r. rewrite Hs, Hr, filter_app, app_assoc. reflexivity.
Qed.

(** At the end nothing is left. *)
Lemma step_end s o s' a : spec_step s o = (s', a) -> o <> Q_indirect -> answer_error a = Some pte_eos ->
  rest s' = [].
Proof.
  destruct o; [|congruence|]; cbn [spec_step]; intros E _ Ha.
  - unfold spec_cond in E. destruct (qs_bits s) as [|b bits] eqn:Eb; [|injection E as <- <-; discriminate].
    unfold absorb in E. destruct (qs_evs s) as [|e evs] eqn:Ee.
    + injection E as <- <-. unfold rest. rewrite Eb, Ee. reflexivity.
    + destruct (is_tnt e) eqn:Et.
      * destruct (Nat.leb _ _); [|injection E as <- <-; discriminate].
        cbn [qs_bits] in E. rewrite Eb in E. cbn [app] in E.
        destruct (bits_of e) as [|b bits] eqn:Ebt; [|injection E as <- <-; discriminate].
        unfold qs_none in E. cbn [qs_evs qs_err] in E. destruct evs as [|e2 evs].
        -- injection E as <- <-. reflexivity.
        -- injection E as <- <-. discriminate.
      * rewrite Eb in E. unfold qs_none in E. rewrite Ee in E. injection E as <- <-. discriminate.
  - unfold spec_event in E. destruct (qs_bits s) as [|b bits] eqn:Eb; [|injection E as <- <-; discriminate].
    destruct (qs_evs s) as [|e evs] eqn:Ee.
    + injection E as <- <-. unfold rest. rewrite Eb, Ee. reflexivity.
    + destruct (plain e); injection E as <- <-; discriminate.
Qed.

Lemma run_end p : good_filter p -> forall ops s o,
  o <> Q_indirect ->
  (exists a, last (answers spec_step s (ops ++ [o])) (A_event (Ok (None, 0%N))) = a /\ answer_error a = Some pte_eos) ->
  filter p (rest s) = filter p (flat_map fact_learned (answers spec_step s (ops ++ [o]))).
Proof.
  intros Hp. induction ops as [|o1 ops IH]; intros s o Ho (a & Hl & Ha).
  - cbn [app answers] in *. pose proof (step_rest s o p Hp) as Hs.
    destruct (spec_step s o) as [s' a'] eqn:E. cbn [fst snd last flat_map] in *. subst a'.
    rewrite (step_end _ _ _ _ E Ho Ha) in Hs. cbn [filter] in Hs. rewrite app_nil_r in *. exact Hs.
  - cbn [app answers] in *. pose proof (step_rest s o1 p Hp) as Hs.
    destruct (spec_step s o1) as [s' a'] eqn:E. cbn [fst snd flat_map] in *.
    rewrite Hs, filter_app. f_equal. apply (IH s' o Ho). exists a. split; [|exact Ha].
    rewrite <- Hl. destruct (answers spec_step s' (ops ++ [o])) eqn:Ea; [|reflexivity].
    exfalso. clear -Ea. destruct ops; cbn [app answers] in Ea; destruct (spec_step s' _); discriminate.
Qed.

Lemma spec_no_ub s o : answer_ub (snd (spec_step s o)) = None.
Proof.
  destruct o; cbn [spec_step].
  - unfold spec_cond. destruct (qs_bits s).
    + destruct (absorb s) as [s1 [[]|e|u]] eqn:Ea; destruct (absorb_rest _ _ _ Ea) as (_ & Hu); [|reflexivity|destruct Hu].
      destruct (qs_bits s1); reflexivity.
    + reflexivity.
  - unfold spec_indirect. destruct (absorb s) as [s1 [[]|e|u]] eqn:Ea; destruct (absorb_rest _ _ _ Ea) as (_ & Hu); [|reflexivity|destruct Hu].
    destruct (qs_evs s1) as [|e evs]; [reflexivity|]. destruct (ev_var e); reflexivity.
  - unfold spec_event. destruct (qs_bits s), (qs_evs s) as [|e evs]; try reflexivity. destruct (plain e); reflexivity.
Qed.

(** ** Synchronisation *)

Lemma stream_returns d evs e : stream d evs e -> exists d', returns d evs d'.
Proof.
  induction 1 as [d d' e E|d d' ev evs e E _ (d2 & IH)]; [exists d; constructor|].
  exists d2. econstructor; eassumption.
Qed.

Section SYNC.
  Context (cf : config) (buf : list N).
  Hypothesis sized : callback_sized cf.
  Hypothesis freq : (cf_mtc_freq cf < 24)%N.
  Hypothesis small : (N.of_nat (length buf) + 1 < 2 ^ 31)%N.
  Hypothesis bytes : bytes_ok buf.

  Lemma next_okd d d' r : okd cf buf d -> pt_evt_next d = (d', r) -> okd cf buf d'.
  Proof. intros H E. exact (proj1 (next_keeps cf buf sized freq small d d' r H E)). Qed.

  Lemma stream_exists d : okd cf buf d -> exists evs e, stream d evs e.
  Proof.
    remember (left_ buf d) as n eqn:En. revert d En.
    induction n as [n IH] using lt_wf_ind. intros d En H.
    destruct (pt_evt_next d) as [d' r] eqn:E.
    destruct (next_keeps cf buf sized freq small d d' r H E) as (H' & _ & Hu & Hl).
    destruct r as [ev|e|u].
    - specialize (Hl eq_refl). destruct (IH (left_ buf d') ltac:(lia) d' eq_refl H') as (evs & e & Hs).
      exists (ev :: evs), e. econstructor; eassumption.
    - exists [], e. econstructor; eassumption.
    - destruct (Hu u eq_refl).
  Qed.

  Lemma first_unique pos d a : first_from pos d a -> forall b, first_from pos d b -> a = b.
  Proof.
    induction 1; intros r' K; inversion K; subst; try congruence; try reflexivity; try contradiction.
    match goal with A : pt_evt_next d = _, B : pt_evt_next d = _ |- _ => rewrite A in B; injection B as <- <- end.
    auto.
  Qed.
  Lemma start_loop_first pos : forall fuel d ip, start_loop fuel pos d = Ok ip -> first_from pos d ip.
  Proof.
    induction fuel as [|fuel IH]; intros d ip; [discriminate|]. cbn [start_loop].
    destruct (Nat.eqb_spec (evt_pos d) pos) as [P|P]; cbn [negb]; [|intros [= <-]; apply first_moved; exact P].
    destruct (pt_evt_next d) as [d' [ev|e|u]] eqn:E; [| |discriminate].
    - destruct (ev_status_update ev) eqn:Eu; cbn [negb]; [|intros [= <-]; eapply first_none; eassumption].
      intros H. assert (K : (exists a b, ev_var ev = Ev_enabled a b /\ ip = Some a) \/
                            (forall a b, ev_var ev <> Ev_enabled a b) /\ start_loop fuel pos d' = Ok ip).
      { destruct (ev_var ev); try (right; split; [discriminate|exact H]). left. injection H as <-. eauto. }
      destruct K as [(a & b & V & ->)|(V & K)]; [eapply first_found; eassumption|].
      eapply first_later; try eassumption. apply IH. exact K.
    - destruct e; try discriminate. intros [= <-]. eapply first_end; eassumption.
  Qed.

  (** What the loop of pt_qry_start() finds. *)
  Definition found (evs : list event) (err : pte) (r : res (option N)) : Prop :=
    match r with
    | Ok (Some ip) => exists pre e post, evs = pre ++ e :: post /\
        Forall (fun e => ev_status_update e = true) (pre ++ [e]) /\
        (exists b, ev_var e = Ev_enabled ip b)
    | Ok None => True
    | Err e => e = err /\ Forall (fun e => ev_status_update e = true) evs
    | UB _ => False
    end.
  Lemma start_loop_found pos : forall fuel d evs err, okd cf buf d -> left_ buf d < fuel ->
    stream d evs err -> found evs err (start_loop fuel pos d).
  Proof.
    induction fuel as [|fuel IH]; intros d evs err H Hl Hs; [lia|]. cbn [start_loop].
    destruct (negb _); [exact I|]. inversion Hs as [d0 d' e E|d0 d' ev evs' e E Hs']; subst; rewrite E.
    - destruct err; try exact I; split; auto.
    - destruct (negb (ev_status_update ev)) eqn:Eu; [exact I|]. apply negb_false_iff in Eu.
      destruct (next_keeps cf buf sized freq small d d' _ H E) as (H' & _ & _ & Hl').
      specialize (Hl' eq_refl). specialize (IH d' evs' err H' ltac:(lia) Hs').
      assert (Hrec : found (ev :: evs') err (start_loop fuel pos d')).
      { unfold found in IH |- *. destruct (start_loop fuel pos d') as [[ip|]|e|u]; auto.
        - destruct IH as (pre & e & post & -> & Hf & Hv). exists (ev :: pre), e, post.
          split; [reflexivity|]. split; [|exact Hv]. constructor; assumption.
        - destruct IH as (-> & Hf). split; [reflexivity|]. constructor; assumption. }
      destruct (ev_var ev) eqn:Ev; try exact Hrec.
      cbn. exists [], ev, evs'. split; [reflexivity|]. split; [constructor; auto|eauto].
  Qed.

  Context (base : nat).
  Notation Reach d := (reachable base cf buf d).
  Notation Okd := (reachable_ok cf buf sized freq small bytes base).

  (** A decoder that was just synchronised, and its stream. *)
  Definition fresh (d : evdec) (evs : list event) (err : pte) : Prop :=
    exists d0 o, Reach d0 /\ evt_step base d0 o = (d, Ok None) /\ stream d evs err.

  Lemma fresh_small d evs err : fresh d evs err -> Forall small_tnt evs.
  Proof.
    intros (d0 & o & Hd & E & Hs). destruct (stream_returns _ _ _ Hs) as (d' & Hr).
    assert (Hb : bytes_ok (pd_buf (ed_pd d))).
    { assert (Hd1 : Reach d) by (econstructor; [exact Hd|exact E|discriminate]).
      destruct (Okd _ Hd1) as ((_ & Hbuf & _) & _). rewrite Hbuf. exact bytes. }
    eapply Forall_impl; [|exact (C49_tnt_size _ _ _ _ _ _ E Hr Hb)].
    intros e. unfold small_tnt. destruct (ev_var e); auto. lia.
  Qed.

  Lemma next_reach d d' r : Reach d -> pt_evt_next d = (d', r) -> Reach d'.
  Proof.
    intros H E. destruct (next_keeps cf buf sized freq small d d' r (Okd _ H) E) as (_ & _ & Hu & _).
    apply (reach_step base cf buf d Evt_next d' (let* e := r in Ok (Some e)) H).
    - cbn [evt_step]. rewrite E. reflexivity.
    - intros u. destruct r; cbn [bind]; try discriminate. destruct (Hu u0 eq_refl).
  Qed.
  Lemma fetch_reach q : Reach (qd_evdec q) -> Reach (qd_evdec (fst (pt_qry_fetch_event q))).
  Proof.
    intros H. unfold pt_qry_fetch_event. destruct (pt_evt_next (qd_evdec q)) as [d r] eqn:E.
    pose proof (next_reach _ _ _ H E). destruct r; assumption.
  Qed.
  Lemma cache_reach q : Reach (qd_evdec q) -> Reach (qd_evdec (fst (pt_qry_cache_tnt q))).
  Proof.
    intros H. unfold pt_qry_cache_tnt. destruct (qd_status q); [exact H|].
    destruct (qd_event q) as [e|]; [|exact H]. destruct (ev_var e); try exact H.
    destruct (pt_tnt_cache_add _ _ _) as [c [[]|e1|u]]; try exact H. apply fetch_reach. exact H.
  Qed.
  Lemma tip_reach q e : Reach (qd_evdec q) -> Reach (qd_evdec (fst (qry_take_tip q e))).
  Proof.
    intros H. unfold qry_take_tip. pose proof (fetch_reach (keep_time q) H) as F.
    destruct (pt_qry_fetch_event _) as [q' [[]|e1|u]]; exact F.
  Qed.
  Lemma query_reach q o : Reach (qd_evdec q) -> Reach (qd_evdec (fst (qry_step q o))).
  Proof.
    intros H. destruct o; cbn [qry_step].
    - unfold pt_qry_cond_branch. destruct (pt_tnt_cache_query _) as [c [b|e|u]]; try exact H.
      pose proof (cache_reach (keep_time (set_tnt q c)) H) as F.
      destruct e; try exact H.
      destruct (pt_qry_cache_tnt _) as [q' [[]|e1|u]]; try exact F.
      destruct (pt_tnt_cache_query _) as [c2 [b|e|u]]; try exact F. destruct e; exact F.
    - unfold pt_qry_indirect_branch. destruct (qd_status q); [exact H|].
      destruct (qry_tip _) as [e|].
      + pose proof (tip_reach q e H) as F. destruct (qry_take_tip q e); exact F.
      + pose proof (cache_reach q H) as F. destruct (pt_qry_cache_tnt q) as [q' [[]|e1|u]]; try exact F.
        destruct (qry_tip _) as [e|]; [|exact F].
        pose proof (tip_reach q' e F) as F2. destruct (qry_take_tip q' e); exact F2.
    - unfold pt_qry_event. destruct (negb _); [exact H|]. destruct (qd_status q); [exact H|].
      destruct (negb _); [exact H|]. pose proof (fetch_reach (keep_time q) H) as F.
      destruct (pt_qry_fetch_event _) as [q' [[]|e1|u]]; exact F.
  Qed.

  (** The outcomes of a synchronisation. *)
  Definition starts (d : evdec) (evs : list event) (ip : option N) : Prop :=
    first_address d ip /\
    match ip with
    | Some a => exists pre e post b, evs = pre ++ e :: post /\
        Forall (fun e => ev_status_update e = true) (pre ++ [e]) /\ ev_var e = Ev_enabled a b
    | None => True
    end.
  Definition flags_of (ip : option N) (s : qspec) : N :=
    N.lor (match ip with Some _ => 0 | None => pts_ip_suppressed end) (qs_flags s).
  Definition unsynced : qspec := mk_qspec [] [] pte_nosync.

  Lemma tnt_init_rep : tnt_rep pt_tnt_cache_init [].
  Proof. unfold tnt_rep. cbn. repeat split; auto; try lia. Qed.

  Lemma start_rel q : qd_status q = Some pte_nosync -> qd_tnt q = pt_tnt_cache_init ->
    Reach (qd_evdec q) -> (exists d0 o, Reach d0 /\ evt_step base d0 o = (qd_evdec q, Ok None)) ->
    match pt_qry_start q with
    | (q', Ok (ip, st)) => Reach (qd_evdec q') /\ exists evs err, fresh (qd_evdec q) evs err /\
        qrel q' (mk_qspec [] evs err) /\ starts (qd_evdec q) evs ip /\ st = flags_of ip (mk_qspec [] evs err)
    | (q', Err _) => q' = q
    | (_, UB _) => False
    end.
  Proof.
    intros Hst Ht Hr (d0 & o & Hd0 & Eo). unfold pt_qry_start.
    destruct (stream_exists _ (Okd _ Hr)) as (evs & err & Hs).
    assert (Hf : fresh (qd_evdec q) evs err) by (exists d0, o; auto).
    assert (Hb : pd_buf (ed_pd (qd_evdec q)) = buf) by (destruct (Okd _ Hr) as ((_ & B & _) & _); exact B).
    rewrite Hb.
    pose proof (left_bound cf buf freq small _ (Okd _ Hr)) as Hl.
    assert (Hlt : left_ buf (qd_evdec q) < 18 * (3 + length buf)) by lia.
    pose proof (start_loop_found (evt_pos (qd_evdec q)) _ _ _ _ (Okd _ Hr) Hlt Hs) as Hfound.
    destruct (start_loop _ _ _) as [ip|e|u] eqn:El; [|reflexivity|destruct Hfound].
    pose proof (fetch_reach (set_qstatus q None) Hr) as Hre.
    destruct (fetch_rel (set_qstatus q None) [] evs err) as (q' & E & Hq & Hx).
    - cbn. rewrite Ht. apply tnt_init_rep.
    - eapply fresh_small; eassumption.
    - exact Hs.
    - reflexivity.
    - rewrite E in Hre |- *. split; [exact Hre|]. exists evs, err. split; [exact Hf|]. split; [exact Hq|].
      split.
      + split; [exact (start_loop_first _ _ _ _ El)|]. destruct ip; [|exact I]. destruct Hfound as (pre & e & post & A & B & b & C).
        exists pre, e, post, b. auto.
      + unfold flags_of. rewrite (flags_rel q' _ Hq Hx). reflexivity.
  Qed.

  Definition synced_rel (at_ : evdec -> Prop) (backward : bool) (r : qrydec * res (option N * N)) : Prop :=
    match r with
    | (q', Ok (ip, st)) => Reach (qd_evdec q') /\ exists d evs err, at_ d /\ fresh d evs err /\
        qrel q' (mk_qspec [] evs err) /\ starts d evs ip /\
        st = if backward then 0%N else flags_of ip (mk_qspec [] evs err)
    | (q', Err _) => Reach (qd_evdec q') /\ qrel q' unsynced
    | (_, UB u) => u = ub_fuel /\ backward = true
    end.

  Lemma unsynced_rel q : qd_status q = Some pte_nosync -> qd_tnt q = pt_tnt_cache_init -> qrel q unsynced.
  Proof.
    intros Hs Ht. split; [rewrite Ht; apply tnt_init_rep|]. split; [constructor|].
    rewrite Hs. cbn. auto.
  Qed.

  Lemma evt_step_sync f d d' r o : Reach d -> f d = (d', r) ->
    (forall d, evt_step base d o = (fst (f d), let* _ := snd (f d) in Ok None)) ->
    match r with
    | Ok (tt) => Reach d' /\ exists d0 o, Reach d0 /\ evt_step base d0 o = (d', Ok None)
    | Err _ => Reach d'
    | UB u => u = ub_fuel /\ exists n, o = Evt_sync_backward n
    end.
  Proof.
    intros Hd E Ho. specialize (Ho d). rewrite E in Ho. cbn [fst snd] in Ho.
    pose proof (step_ok cf buf sized freq small bytes base d o (Okd _ Hd)) as Hs. rewrite Ho in Hs.
    destruct r as [[]|e|u]; cbn [bind] in Ho, Hs.
    - split; [|exists d, o; auto]. econstructor; [exact Hd|exact Ho|discriminate].
    - econstructor; [exact Hd|exact Ho|discriminate].
    - exact Hs.
  Qed.

  Lemma qry_sync_rel f q o : Reach (qd_evdec q) ->
    (forall d, evt_step base d o = (fst (f d), let* _ := snd (f d) in Ok None)) ->
    (forall n, o <> Evt_sync_backward n) -> synced_rel (fun d => f (qd_evdec q) = (d, Ok tt)) false (qry_sync f q).
  Proof.
    intros Hq Ho Hn. unfold qry_sync. cbn [pt_qry_reset qd_evdec].
    destruct (f (qd_evdec q)) as [d r] eqn:E.
    pose proof (evt_step_sync f _ d r o Hq E Ho) as Hs. destruct r as [[]|e|u].
    - destruct Hs as (Hd & Hx).
      pose proof (start_rel (set_evdec (pt_qry_reset q) d) eq_refl eq_refl Hd Hx) as St.
      destruct (pt_qry_start _) as [q' [[ip st]|e|u]]; cbn [synced_rel].
      + destruct St as (A & evs & err & B). split; [exact A|]. exists d, evs, err. split; [reflexivity|exact B].
      + subst q'. split; [exact Hd|apply unsynced_rel; reflexivity].
      + destruct St.
    - split; [exact Hs|]. apply unsynced_rel; reflexivity.
    - destruct Hs as (_ & n & ->). destruct (Hn n eq_refl).
  Qed.

  Lemma inner_rel : forall fuel sync d, Reach d ->
    match qry_backward_inner fuel base sync d with
    | (d', Ok _) => Reach d' /\ exists d0 o, Reach d0 /\ evt_step base d0 o = (d', Ok None)
    | (d', Err _) => Reach d'
    | (_, UB u) => u = ub_fuel
    end.
  Proof.
    induction fuel as [|fuel IH]; intros sync d Hd; [reflexivity|]. cbn [qry_backward_inner].
    destruct (pt_evt_sync_backward (S fuel) base d) as [d' r] eqn:E.
    pose proof (evt_step_sync (pt_evt_sync_backward (S fuel) base) d d' r (Evt_sync_backward (S fuel)) Hd E
      (fun d => eq_refl)) as Hs.
    destruct r as [[]|e|u]; [|exact Hs|apply Hs].
    destruct Hs as (Hd' & Hx). destruct (Nat.leb _ _); [apply IH; exact Hd'|]. auto.
  Qed.

  Lemma outer_rel : forall fuel start sync q, Reach (qd_evdec q) ->
    synced_rel (fun _ => True) true (qry_backward_outer fuel base start sync q).
  Proof.
    induction fuel as [|fuel IH]; intros start sync q Hq; [split; reflexivity|].
    cbn [qry_backward_outer].
    pose proof (inner_rel (S fuel) sync (qd_evdec (pt_qry_reset q)) Hq) as Hi.
    destruct (qry_backward_inner (S fuel) base sync (qd_evdec (pt_qry_reset q))) as [d [[]|e|u]].
    - destruct Hi as (Hd & Hx).
      pose proof (start_rel (set_evdec (pt_qry_reset q) d) eq_refl eq_refl Hd Hx) as St.
      destruct (pt_qry_start _) as [q' [[ip st]|e|u]].
      + destruct St as (A & evs & err & B & C & D & _).
        destruct (Nat.ltb _ _); [|apply IH; exact A].
        split; [exact A|]. exists d, evs, err. split; [exact I|]. auto.
      + subst q'. assert (synced_rel (fun _ => True) true (set_evdec (pt_qry_reset q) d, Err e)).
        { split; [exact Hd|apply unsynced_rel; reflexivity]. }
        destruct e; try assumption. apply IH. exact Hd.
      + destruct St.
    - split; [exact Hi|]. apply unsynced_rel; reflexivity.
    - split; [exact Hi|reflexivity].
  Qed.

  Lemma sync_step_rel q o : Reach (qd_evdec q) ->
    synced_rel (synced_to base (qd_evdec q) o) (match o with Qs_backward _ => true | _ => false end) (qry_sync_step base q o).
  Proof.
    intros Hq. destruct o as [|n|off]; cbn [qry_sync_step].
    - apply (qry_sync_rel _ q Evt_sync_forward Hq); [reflexivity|discriminate].
    - apply outer_rel. exact Hq.
    - apply (qry_sync_rel _ q (Evt_sync_set off) Hq); [reflexivity|discriminate].
  Qed.

  Lemma qry_reachable_rel q : qry_reachable base cf buf q ->
    Reach (qd_evdec q) /\ exists s, qrel q s.
  Proof.
    induction 1 as [|q o q' r H IH E Hu|q o q' a H IH E].
    - split; [constructor|]. exists unsynced. apply unsynced_rel; reflexivity.
    - pose proof (sync_step_rel q o (proj1 IH)) as S. rewrite E in S.
      destruct r as [[ip st]|e|u]; cbn [synced_rel] in S.
      + destruct S as (A & d & evs & err & _ & _ & B & _). eauto.
      + destruct S as (A & B). eauto.
      + destruct (Hu u eq_refl).
    - destruct IH as (Hr & s & Hs). pose proof (query_reach q o Hr) as Hr'. rewrite E in Hr'.
      split; [exact Hr'|]. destruct (step_rel q s o Hs) as (_ & Hs'). rewrite E in Hs'. eauto.
  Qed.
End SYNC.
