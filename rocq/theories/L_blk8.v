(** Lemmas on the block decoder: events, synchronising, and the loop. *)

From Coq Require Import List NArith ZArith Bool PeanoNat Lia.
From Verif Require Import Base M_config M_time M_pktdec M_event M_evdec M_query M_retstack M_asid M_ildtab M_ild
  M_insn M_insndec M_blk L_calm S_core S_evdec S_x86 S_insn S_query S_evtrace S_flow S_drive S_blk L_core L_evdec L_evsafe L_evnext
  L_insn T_ild T_insn L_query L_query2 T_evdec T_evtrace L_flow L_flow2 L_flow3 L_flow4 L_flow5 L_blk L_blk2 L_blk3 L_blk4 L_blk5
  L_blk6 L_blk7.
Import ListNotations.
Open Scope N_scope.

Section BLOCKS.
  Context (cf : config) (buf : list N) (base : nat) (err : pte).
  Hypothesis sized : callback_sized cf.
  Hypothesis freq : (cf_mtc_freq cf < 24)%N.
  Hypothesis small : (N.of_nat (length buf) + 1 < 2 ^ 31)%N.
  Hypothesis bytes : bytes_ok buf.
  Hypothesis no_bdm64 : er_bdm64 (cf_errata cf) = false.
  Hypothesis no_skd022 : er_skd022 (cf_errata cf) = false.
  Hypothesis no_skl014 : er_skl014 (cf_errata cf) = false.
  Context {S C : Type} (im : blk_image S C) (mem : asid -> memory) (cached : C -> asid -> Prop).
  Context (content : N -> N -> option N) (at_ : asid -> N -> option place) (mode_of : N -> exec_mode).
  Hypothesis shows : blocks_show im mem cached content at_ mode_of.
  Notation dec := (blkdec C).
  Notation agrees := (agrees cached content mode_of).
  Notation rest := (rest cf buf base err).
  Notation bflows := (bflows mem err).
  Notation sane := (sane mem content at_ mode_of err).
  Notation walking := (walking cf buf base err mem cached content mode_of).
  Context (ex : pte -> Prop).
  Hypothesis ex_inval : forall c a e, cached c a -> snd (im_invalidate (bi_image im) c) = Err e -> ex e.
  Notation gives_up := (gives_up mem err ex).
  Notation err_keep := (err_keep mem err ex).
  Notation errs := (errs err mem cached content mode_of ex).
  Notation ubs := (ubs err mem).
  Notation stopped := (stopped cf buf base err mem cached content at_ mode_of).
  Notation halted := (halted cf buf base err mem cached content mode_of).
  Notation ended := (ended cf buf base err mem cached content mode_of).
  Notation settled := (settled cf buf base err cached content mode_of).
  Notation idle := (idle cf buf base err cached content mode_of).
  Notation pends := (pends cf buf base err im mem cached content mode_of ex).
  Notation between := (between cf buf base err im mem cached content mode_of ex).
  Notation pend_here := (pend_here cf buf base err cached content mode_of).
  Notation pend_cause := (pend_cause cf buf base err cached content mode_of).
  Notation pend_end := (pend_end cf buf base err cached content mode_of).
  Notation goes := (goes cf buf base err im mem cached content mode_of ex).
  Notation pending := M_blk.pending.
  Notation gives := (gives cf buf base err im mem cached content mode_of ex).
  Notation fails := (fails err mem cached content mode_of ex).

  (** ** Processing an event *)

  (** What processing an event keeps. *)
  Definition kept (d d' : dec) : Prop :=
    keeps d d' /\ bd_evdec d' = bd_evdec d /\ bd_status d' = bd_status d /\
    (forall ev, bd_event d = Some ev -> plain_event ev -> exists ev', bd_event d' = Some ev' /\ plain_event ev').
  Definition processed (d : dec) (g : flow) (ev : event) : dec -> Prop := fun d' =>
    exists g', effect g ev = Some g' /\ agrees d' g' /\ bd_ip d' = f_ip g' /\ kept d d'.

  (** An error while processing an event. *)
  Definition err_if (P : Prop) (b : block) : dec -> block -> pte -> Prop :=
    fun _ b' e => b' = b /\ e <> pte_eos /\ (ex e \/ P).

  Lemma kept_refl (d : dec) : kept d d.
  Proof. repeat split. eauto. Qed.

  Lemma space_ok d g b a : agrees d g -> bd_ip d = f_ip g ->
    post (new_asid im a (d, b)) (fun d' b' _ => b' = b /\ agrees d' (in_space g a) /\ bd_ip d' = f_ip g /\ kept d d') (err_if False b) no_ub.
  Proof.
    intros Ha Hi. unfold new_asid. apply post_state.
    pose proof (is_invalidate _ _ _ (bl_image _ _ _ _ _ _ shows) (bd_scache d) (bd_asid d) (a_cache _ _ _ _ _ Ha)) as V.
    pose proof (ex_inval (bd_scache d) (bd_asid d)) as Xi.
    destruct (im_invalidate (bi_image im) (bd_scache d)) as [c [[]|er|u]]; [| |destruct V].
    - apply post_change. unfold bind, lift. split; [reflexivity|]. split; [|split; [exact Hi|repeat split; eauto]].
      destruct Ha. constructor; try assumption; [reflexivity|]. apply V.
    - apply post_change. split; [reflexivity|]. split; [exact (proj2 V)|left]. apply (Xi er (a_cache _ _ _ _ _ Ha) eq_refl).
  Qed.
  Lemma paging_ok d g b cr3 : agrees d g -> bd_ip d = f_ip g ->
    post (pt_blk_process_paging im cr3 (d, b)) (fun d' b' _ => b' = b /\
      agrees d' (in_space g (mk_asid cr3 (as_vmcs (f_asid g)))) /\ bd_ip d' = f_ip g /\ kept d d') (err_if False b) no_ub.
  Proof.
    intros Ha Hi. unfold pt_blk_process_paging. apply post_state. pose proof (a_asid _ _ _ _ _ Ha) as Ea.
    destruct (N.eqb_spec (as_cr3 (bd_asid d)) cr3) as [<-|Ne].
    - split; [reflexivity|]. split; [|split; [exact Hi|apply kept_refl]]. destruct Ha. constructor; try assumption.
      rewrite Ea. destruct (f_asid g). reflexivity.
    - rewrite Ea. apply space_ok; assumption.
  Qed.
  Lemma vmcs_ok d g b v : agrees d g -> bd_ip d = f_ip g ->
    post (pt_blk_process_vmcs im v (d, b)) (fun d' b' _ => b' = b /\
      agrees d' (in_space g (mk_asid (as_cr3 (f_asid g)) v)) /\ bd_ip d' = f_ip g /\ kept d d') (err_if False b) no_ub.
  Proof.
    intros Ha Hi. unfold pt_blk_process_vmcs. apply post_state. pose proof (a_asid _ _ _ _ _ Ha) as Ea.
    destruct (N.eqb_spec (as_vmcs (bd_asid d)) v) as [<-|Ne].
    - split; [reflexivity|]. split; [|split; [exact Hi|apply kept_refl]]. destruct Ha. constructor; try assumption.
      rewrite Ea. destruct (f_asid g). reflexivity.
    - rewrite Ea. apply space_ok; assumption.
  Qed.
  Lemma disabled_eff d g b ev : agrees d g -> bd_ip d = f_ip g ->
    post (pt_blk_process_disabled ev (d, b)) (fun d' b' _ => b' = b /\ exists g',
      (if ev_status_update ev then (if f_on g then None else Some g)
       else if f_on g then Some (turn g false (f_ip g)) else None) = Some g' /\ agrees d' g' /\ bd_ip d' = f_ip g' /\ kept d d') 
      (err_if ((if ev_status_update ev then (if f_on g then None else Some g)
                else if f_on g then Some (turn g false (f_ip g)) else None) = None) b) no_ub.
  Proof.
    intros Ha Hi. unfold pt_blk_process_disabled. apply post_state. rewrite (a_on _ _ _ _ _ Ha).
    destruct (ev_status_update ev); destruct (f_on g) eqn:On; cbn [negb]; try (split; [reflexivity|split; [discriminate|right; reflexivity]]).
    - split; [reflexivity|]. exists g. split; [reflexivity|]. split; [exact Ha|]. split; [exact Hi|apply kept_refl].
    - split; [reflexivity|]. eexists. split; [reflexivity|]. split; [|split; [exact Hi|repeat split; eauto]].
      apply agrees_icnt. destruct Ha. constructor; auto.
  Qed.

  (** The event contradicts the flow or is somewhere else. *)
  Definition misfit (g : flow) (ev : event) : Prop :=
    effect g ev = None \/
    located g ev = false /\ kind_of ev = None /\ (forall a, ev_var ev <> Ev_disabled a).
  Ltac eff Ev := unfold effect; rewrite Ev; repeat (match goal with
    | H : ?c = true |- context [?c] => rewrite H
    | H : ?c = false |- context [?c] => rewrite H
    end; cbn [orb andb negb]); rewrite ?orb_true_r; reflexivity.
  Lemma process_ok d g b ev : agrees d g -> bd_ip d = f_ip g -> bd_event d = Some ev -> plain_event ev ->
    post (process im ev (d, b)) (fun d' b' e' => b' = b /\ e' = shown g ev /\ processed d g ev d') (err_if (misfit g ev) b) no_ub.
  Proof.
    intros Ha Hi Hev Hpl.
    assert (Bad : forall (d' : dec) er, er <> pte_eos -> effect g ev = None -> err_if (misfit g ev) b d' b er)
      by (intros; split; [reflexivity|]; split; [assumption|]; right; left; assumption).
    assert (Far : forall (d' : dec) er, er <> pte_eos -> located g ev = false -> kind_of ev = None ->
      (forall a, ev_var ev <> Ev_disabled a) -> err_if (misfit g ev) b d' b er)
      by (intros; split; [reflexivity|]; split; [assumption|]; right; right; auto).
    assert (If : forall (d' : dec) b' er, err_if False b d' b' er -> err_if (misfit g ev) b d' b' er).
    { intros d' b' er (-> & X & [Y|[]]). split; [reflexivity|]. auto. }
    assert (Keep : shown g ev = ev -> effect g ev = Some g -> b = b /\ ev = shown g ev /\ processed d g ev d).
    { intros H1 H2. split; [reflexivity|]. split; [auto|]. exists g. split; [exact H2|]. split; [exact Ha|]. split; [exact Hi|apply kept_refl]. }
    unfold process. apply post_state.
    assert (Sh : match ev_var ev with Ev_enabled _ _ => True | _ => shown g ev = ev end)
      by (unfold shown; destruct (ev_var ev); auto).
    rewrite Hi, (a_on _ _ _ _ _ Ha).
    destruct (ev_var ev) eqn:Ev;
      try (apply Keep; [exact Sh|unfold effect; rewrite Ev; reflexivity]);
      try (match goal with |- post ((if ?c then _ else _) _) _ _ _ =>
             destruct c eqn:Ec; [|first [apply Bad; [discriminate|eff Ev]
               |apply Far; [discriminate|unfold located; rewrite Ev; rewrite <- ?orb_assoc in Ec; exact Ec
                           |unfold kind_of; rewrite Ev; reflexivity|congruence]]] end);
      try (apply Keep; [exact Sh|unfold effect; rewrite Ev, ?Ec; reflexivity]);
      try (apply Bad; [discriminate|eff Ev]).
    - (* enabled *)
      set (e' := if f_ip g =? ip then set_var ev (Ev_enabled ip true) else ev).
      assert (Es : ev_status_update e' = ev_status_update ev /\ ev_ip_suppressed e' = ev_ip_suppressed ev /\ e' = shown g ev).
      { unfold e', shown. rewrite Ev. destruct (f_ip g =? ip); cbn.
        - rewrite orb_true_r. auto.
        - rewrite orb_false_r. repeat split. clear - Ev. destruct ev; cbn in Ev |- *. subst. reflexivity. }
      destruct Es as (E1 & E2 & E4). apply post_change.
      assert (Pe : plain_event e').
      { unfold plain_event in Hpl |- *. rewrite Ev in Hpl. rewrite E2, E4. unfold shown. rewrite Ev. exact Hpl. }
      assert (Ke : forall ev0, bd_event d = Some ev0 -> plain_event ev0 -> exists ev', Some e' = Some ev' /\ plain_event ev') by eauto.
      eapply post_bind with (P := fun d' b' _ => b' = b /\ processed d g ev d').
      2:{ intros d1 b1 _ (-> & P). split; [reflexivity|]. split; [exact E4|exact P]. }
      unfold pt_blk_process_enabled. apply post_state. rewrite E1, E2. cbn [bd_enabled bd_set_event].
      rewrite (a_on _ _ _ _ _ Ha). unfold processed, misfit, effect. rewrite Ev.
      destruct (ev_status_update ev); [|destruct (ev_ip_suppressed ev); [split; [reflexivity|split; [discriminate|right; left; reflexivity]]|]];
        (destruct (f_on g) eqn:On; try (split; [reflexivity|split; [discriminate|right; left; reflexivity]])); (split; [reflexivity|]); eexists; (split; [reflexivity|]).
      + split; [apply agrees_event, Ha|]. split; [exact Hi|]. repeat split; exact Ke.
      + split; [|split; [reflexivity|repeat split; exact Ke]]. destruct Ha; constructor; assumption || reflexivity.
    - (* disabled *)
      eapply post_bind; [eapply post_mono; [apply (disabled_eff d g b ev Ha Hi)|intros ? ? ? X; exact X| |auto]|].
      { intros d1 b1 e (-> & X & Y). split; [reflexivity|]. split; [exact X|]. destruct Y as [Y|Y]; [left; exact Y|right; left].
        unfold effect. rewrite Ev. exact Y. } intros d1 b1 _ (-> & g' & E & P).
      split; [reflexivity|]. split; [auto|]. exists g'. split; [|exact P]. unfold effect. rewrite Ev. exact E.
    - (* async disabled *)
      eapply post_bind; [eapply post_mono; [apply (disabled_eff d g b ev Ha Hi)|intros ? ? ? X; exact X| |auto]|].
      { intros d1 b1 e (-> & X & Y). split; [reflexivity|]. split; [exact X|]. destruct Y as [Y|Y]; [left; exact Y|right; left].
        unfold effect. rewrite Ev. exact Y. } intros d1 b1 _ (-> & g' & E & P).
      split; [reflexivity|]. split; [auto|]. exists g'. split; [|exact P]. unfold effect. rewrite Ev. exact E.
    - (* async branch *)
      unfold pt_blk_process_async_branch. unfold bind at 1, bind at 1, state at 1. cbn [fst]. rewrite (a_on _ _ _ _ _ Ha).
      destruct (ev_status_update ev) eqn:Su; [apply Bad; [discriminate|eff Ev]|]. destruct (f_on g) eqn:On; [|apply Bad; [discriminate|eff Ev]].
      split; [reflexivity|]. split; [auto|]. exists (go g to). unfold effect. rewrite Ev, Su, On. split; [reflexivity|].
      split; [apply agrees_go, agrees_ip, Ha|]. split; [reflexivity|]. repeat split; eauto.
    - (* paging *)
      eapply post_bind; [eapply post_mono; [apply (paging_ok d g b cr3 Ha Hi)|intros ? ? ? X; exact X|exact If|auto]|]. intros d1 b1 _ (-> & A & I1 & P).
      split; [reflexivity|]. split; [auto|]. eexists. unfold effect. rewrite Ev. split; [reflexivity|]. auto.
    - (* async paging *)
      eapply post_bind; [eapply post_mono; [apply (paging_ok d g b cr3 Ha Hi)|intros ? ? ? X; exact X|exact If|auto]|]. intros d1 b1 _ (-> & A & I1 & P).
      split; [reflexivity|]. split; [auto|]. eexists. unfold effect. rewrite Ev. split; [reflexivity|]. auto.
    - (* overflow *)
      unfold pt_blk_process_overflow. unfold bind at 1. destruct (ev_status_update ev) eqn:Su; [apply Bad; [discriminate|eff Ev]|].
      split; [reflexivity|]. split; [auto|].
      exists (in_tx (if ev_ip_suppressed ev then turn g false 0 else turn g true ip) false).
      unfold effect. rewrite Ev, Su. split; [reflexivity|].
      destruct (ev_ip_suppressed ev); (split; [destruct Ha; constructor; assumption || reflexivity|]); (split; [reflexivity|]); repeat split; eauto.
    - (* execution mode *)
      unfold pt_blk_process_exec_mode. unfold bind at 1, bind at 1, state at 1. cbn [fst].
      rewrite (a_on _ _ _ _ _ Ha), (a_mode _ _ _ _ _ Ha), (exec_mode_same _ ptem_unknown), (exec_mode_same _ mode).
      destruct (ev_status_update ev && f_on g && negb (exec_mode_eqb (f_mode g) ptem_unknown)
                && negb (exec_mode_eqb (f_mode g) mode)) eqn:Em.
      { apply Bad; [discriminate|]. unfold effect. rewrite Ev. destruct (f_mode g);
          [rewrite andb_false_r in Em; discriminate Em| | |];
          change (negb (exec_mode_eqb _ ptem_unknown)) with true in Em; rewrite andb_true_r in Em; rewrite Em; reflexivity. }
      split; [reflexivity|]. split; [auto|]. exists (in_mode_ g mode). split.
      + unfold effect. rewrite Ev. destruct (f_mode g); try reflexivity;
          change (negb (exec_mode_eqb _ ptem_unknown)) with true in Em; rewrite andb_true_r in Em;
          rewrite Em; reflexivity.
      + split; [destruct Ha; constructor; assumption || reflexivity|]. split; [exact Hi|]. repeat split; eauto.
    - (* transaction *)
      split; [reflexivity|]. split; [auto|]. exists (in_tx g speculative). unfold effect. rewrite Ev. split; [reflexivity|].
      split; [destruct Ha; constructor; assumption || reflexivity|]. split; [exact Hi|]. repeat split; eauto.
    - (* stop *)
      unfold pt_blk_process_stop. unfold bind at 1, bind at 1, state at 1. cbn [fst]. rewrite (a_on _ _ _ _ _ Ha).
      destruct (ev_status_update ev) eqn:Su; [apply Bad; [discriminate|eff Ev]|]. destruct (f_on g) eqn:On; [apply Bad; [discriminate|eff Ev]|].
      apply Keep; [auto|]. unfold effect. rewrite Ev, Su, On. reflexivity.
    - (* vmcs *)
      eapply post_bind; [eapply post_mono; [apply (vmcs_ok d g b base0 Ha Hi)|intros ? ? ? X; exact X|exact If|auto]|]. intros d1 b1 _ (-> & A & I1 & P).
      split; [reflexivity|]. split; [auto|]. eexists. unfold effect. rewrite Ev. split; [reflexivity|]. auto.
    - (* async vmcs *)
      eapply post_bind; [eapply post_mono; [apply (vmcs_ok d g b base0 Ha Hi)|intros ? ? ? X; exact X|exact If|auto]|]. intros d1 b1 _ (-> & A & I1 & P).
      split; [reflexivity|]. split; [auto|]. eexists. unfold effect. rewrite Ev. split; [reflexivity|]. auto.
    - (* core bus ratio *)
      split; [reflexivity|]. split; [auto|]. exists g. unfold effect. rewrite Ev. split; [reflexivity|].
      split; [destruct Ha; constructor; assumption || reflexivity|]. split; [exact Hi|]. repeat split; eauto.
    - unfold plain_event in Hpl. rewrite Ev in Hpl. destruct Hpl.
  Qed.

  (** ** pt_blk_event() *)

  Definition event_result (s : fstate) (r : dec * option event * res N) : Prop :=
    match r with
    | (d', Some e, Ok st) => exists s1, bflows s [O_event e] s1 /\ between d' st s1
    | (_, Some e, Err er) => er <> pte_eos /\ exists s1, bflows s [O_event e] s1 /\ gives_up er s1
    | (_, None, Err er) => er <> pte_eos /\ gives_up er s
    | _ => False
    end.

  (** Behind the event. *)
  Lemma behind_ok d d0 ev0 s e f1 evs : sane s -> bflows s [O_event e] (mk_fstate f1 None (flat_map facts_of evs)) ->
    agrees d f1 -> kept d0 d -> pt_blk_config d0 = cf -> bd_status d0 = None -> bd_event d0 = Some ev0 -> plain_event ev0 -> upcoming cf buf base err d0 evs ->
    phase d f1 ->
    event_result s (let '(d, _, r) := bind pt_blk_fetch_event (fun _ => pt_blk_proceed_trailing_event im false)
                                        (d, new_block 0 ptem_unknown false) in (d, Some e, r)).
  Proof.
    intros Hs F A (K & K1 & K2 & K3) Hc Hst Hev Hp0 Hu Ph. rewrite Hst in K2.
    destruct (K3 ev0 Hev Hp0) as (ev1 & Ev1 & Hp1).
    assert (Hc1 : pt_blk_config d = cf) by (unfold pt_blk_config in *; congruence).
    assert (Hu1 : upcoming cf buf base err d evs) by (unfold upcoming in *; rewrite K1; exact Hu).
    set (b0 := new_block 0 ptem_unknown false).
    assert (P : post (bind pt_blk_fetch_event (fun _ => pt_blk_proceed_trailing_event im false) (d, b0))
      (goes (mk_fstate f1 None (flat_map facts_of evs)) b0) (err_keep (mk_fstate f1 None (flat_map facts_of evs)) b0) no_ub).
    { eapply post_bind; [eapply post_mono; [exact (fetch_ok cf buf base err sized freq small bytes mem cached content mode_of d b0 f1 ev1 evs A Hc1 K2 Ev1 Hp1 Hu1)
        |intros d1 b1 u X; exact X| |auto]|].
      { intros d1 b1 er []. }
      intros d1 b1 u (-> & A1 & I1 & (P1 & P2 & _) & F1 & h1 & fs1 & R1 & Fl).
      eapply post_mono; [apply (trailing_ok cf buf base err sized freq small bytes no_bdm64 no_skd022 im mem cached content at_ mode_of ex false d1 b0 f1 h1 fs1)| |intros d2 b2 er X; eapply keep_cat; [apply Fl|exact X]|auto].
      - eapply sane_flow; [eapply sane_flow; [exact Hs|exact F]|apply Fl].
      - exact A1.
      - exact R1.
      - left. exact F1.
      - destruct Ph as [Hc' Hi Cl|i x k ks f0 t On Hcc Hpp Es Hi Hkk|Of Hcc Hi (i & x & Hpp & St)].
        + apply phase_next; [exact Hc'|congruence|]. destruct Cl. split; congruence.
        + apply (phase_insn d1 f1 i x k ks f0 t); try assumption; congruence.
        + apply phase_off; try assumption; [congruence|]. exists i, x. rewrite P1, I1. auto.
      - intros d2 b2 st G. eapply goes_cat; [apply Fl|exact G]. }
    destruct (bind _ _ (d, b0)) as [[d1 b1] [st|er|u]]; cbn [post] in P.
    - destruct P as (_ & s' & F' & B). exists s'. split; [|exact B]. exact (bflows_app _ _ _ [O_event e] _ [] _ F F').
    - destruct P as (_ & Ne & G). split; [exact Ne|]. eauto.
    - exact P.
  Qed.

  Lemma event_ok d s : sane s -> pends d s -> event_result s (pt_blk_event im d).
  Proof.
    intros Hs [(er & E & Ne & G)|(f & ev & fs & -> & P)].
    { destruct (E (bd_caches d)) as (d' & E'). replace (bd_set_caches d (bd_caches d)) with d in E' by (destruct d; reflexivity).
      rewrite E'. split; assumption. }
    assert (B : agrees d f /\ rest d (Some ev) fs) by (destruct P as [[]|[[]|[]]]; auto).
    destruct B as (Ha & Hr). pose proof Hr as (Hcf & R).
    destruct (bd_status d) as [e|] eqn:Est; [destruct R as (_ & _ & X & _); discriminate X|].
    destruct R as (ev' & evs & Hev & Hpl & Hu & Ep).
    assert (E : ev' = ev /\ fs = flat_map facts_of evs /\ match ev_var ev with Ev_tnt _ _ | Ev_tip _ => False | _ => True end).
    { unfold parted in Ep. destruct (ev_var ev') eqn:Ev; injection Ep; intros; subst; rewrite ?Ev; try congruence; auto. }
    destruct E as (-> & -> & Nt).
    unfold pt_blk_event. rewrite Est, Hev.
    set (g := go f (bd_ip d)).
    assert (Hi : bd_ip d = f_ip g) by reflexivity.
    pose proof (process_ok d g (new_block 0 ptem_unknown false) ev (agrees_go _ _ _ _ _ _ Ha) Hi Hev Hpl) as Pr.
    assert (Fin : event_result (mk_fstate f (Some ev) (flat_map facts_of evs))
      (match process im ev (d, new_block 0 ptem_unknown false) with
       | (d, _, Err e) => (d, None, Err e)
       | (d, _, UB u) => (d, None, UB u)
       | (d, _, Ok ev) => let '(d, _, r) := bind pt_blk_fetch_event (fun _ => pt_blk_proceed_trailing_event im false)
                                              (d, new_block 0 ptem_unknown false) in (d, Some ev, r)
       end)).
    2:{ clear - Fin Nt. destruct (ev_var ev); try exact Fin. destruct Nt. }
    destruct (process im ev (d, new_block 0 ptem_unknown false)) as [[d1 b1] [e1|er|u]]; cbn [post] in Pr.
    2:{ destruct Pr as (_ & Ne & Why). split; [exact Ne|]. destruct Why as [Why|Why]; [apply gives_excused, Why|].
        destruct P as [Ph|[Pc|Pe]].
        - destruct Ph as [_ Ph2 _ Ph4 Ph5 Ph6]. assert (Gf : g = f) by (unfold g; rewrite Ph2; destruct f; reflexivity).
          rewrite Gf in Why. destruct Why as [Why|(Why & _ & Nd)].
          2:{ exfalso. clear - Why Nd Ph5. unfold here in Ph5. destruct (ev_var ev); try congruence. eapply Nd. reflexivity. }
          apply gives_blocked, blocked_between; [exact Ph4|discriminate| |].
          + intros (_ & _ & Q). cbn in Q. destruct (Q Ph5).
          + intros e [= <-] _. exact Why.
        - exfalso. destruct Pc as [_ _ _ (i & x & ks & k & f0 & t & _ & _ & _ & _ & Hk & _)]. clear - Why Hk.
          destruct Why as [Why|(_ & Why & _)]; [|congruence].
          unfold kind_of in Hk. unfold effect in Why. destruct (ev_var ev); discriminate.
        - exfalso. destruct Pe as [_ _ On (si & ks & _ & He & _) _]. clear - Why He On.
          unfold ends in He. destruct Why as [Why|(_ & _ & Nd)].
          2:{ destruct (ev_var ev); try discriminate He. eapply Nd. reflexivity. }
          unfold effect in Why. destruct (ev_var ev); try discriminate He.
          apply andb_true_iff in He. destruct He as (He & _). apply negb_true_iff in He. rewrite He in Why.
          change (f_on g) with (f_on f) in Why. rewrite On in Why. discriminate. }
    2:{ destruct Pr. }
    destruct Pr as (_ & -> & g' & Eg & A1 & I1 & Kp). pose proof Kp as ((P1 & P2 & _) & _).
    destruct P as [Ph|[Pc|Pe]].
    - destruct Ph as [_ Ph2 _ Ph4 Ph5 Ph6].
      assert (Gf : g = f) by (unfold g; rewrite Ph2; destruct f; reflexivity). rewrite Gf in *.
      eapply (behind_ok d1 d ev); try eassumption.
      + apply bflows_one. apply (bs_event mem err f ev g'); assumption.
      + assert (Cu : f_cur g' = None).
        { rewrite <- Ph4. clear - Eg. unfold effect in Eg. destruct (ev_var ev); try congruence;
            repeat match type of Eg with
            | (if ?c then _ else _) = _ => destruct c
            | match ?c with _ => _ end = _ => destruct c
            end; try discriminate Eg; injection Eg as <-; try reflexivity; destruct (ev_ip_suppressed ev); reflexivity. }
        destruct Ph6 as [(C1 & C2)|(Of & (i & x & Hpp & St) & Sk)].
        * apply phase_next; [exact Cu|exact I1|split; congruence].
        * assert (Gs : f_on g' = false /\ f_ip g' = f_ip f).
          { unfold effect in Eg. destruct Sk as [Sk|(ip & Ev)].
            - unfold kind_of in Sk. destruct (ev_var ev); try congruence; injection Eg as <-; auto.
            - rewrite Ev in Eg. rewrite Of in Eg. destruct (ev_status_update ev); [|discriminate]. injection Eg as <-. auto. }
          destruct Gs as (G1 & G2).
          apply phase_off; [exact G1|exact Cu|exact I1|]. exists i, x. rewrite P1, I1, G2, <- Ph2. auto.
    - destruct Pc as [_ _ On (i & x & ks & k & f0 & t & Hpp & Hcu & Es & Hip & Hk & Nin & Al & Hkk)].
      assert (X : exists f', effect f ev = Some f' /\ agrees d1 f' /\ f_on f' = true /\ bd_ip d1 = in_ip i /\ shown g ev = ev).
      { unfold effect, kind_of, shown in *. destruct (ev_var ev); try discriminate Hk; injection Eg as <-; eexists; (split; [reflexivity|]);
          (split; [destruct A1; constructor; assumption|]); (split; [exact On|]); (split; [rewrite I1; exact Hip|reflexivity]). }
      destruct X as (f' & Ef & Af & Onf & Ipf & ->).
      eapply (behind_ok d1 d ev _ _ (at_site f' (Some (site_of_insn i x, k :: ks)))); try eassumption.
      + apply bflows_one. eapply (bs_cause mem err f (site_of_insn i x) ks k ev f'); eassumption.
      + apply agrees_at. exact Af.
      + apply (phase_insn d1 _ i x k ks f0 t); [exact Onf|reflexivity|congruence|exact Es|exact Ipf|congruence].
    - destruct Pe as [_ _ On (si & ks & Hcu & He & Hip) Pp].
      assert (X : agrees d1 (at_site (turn f false (resumes si)) None) /\ bd_ip d1 = resumes si /\ shown g ev = ev).
      { unfold effect, ends, shown in *. destruct (ev_var ev); try discriminate He. apply andb_true_iff in He. destruct He as (He & _).
        destruct (ev_status_update ev); [discriminate|]. change (f_on g) with (f_on f) in Eg. rewrite On in Eg. injection Eg as <-.
        split; [destruct A1; constructor; assumption|]. split; [rewrite I1; exact Hip|reflexivity]. }
      destruct X as (Ax & Ix & ->).
      eapply (behind_ok d1 d ev _ _ (at_site (turn f false (resumes si)) None)); try eassumption.
      + apply bflows_one. eapply bs_end; eassumption.
      + destruct Pp as [(C1 & C2)|(i & x & Hpp & St)].
        * apply phase_next; [reflexivity|exact Ix|split; congruence].
        * apply phase_off; [reflexivity|reflexivity|exact Ix|]. exists i, x. rewrite P1, Ix, <- Hip. auto.
  Qed.
End BLOCKS.
