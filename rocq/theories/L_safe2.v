(** Lemmas for C68: no undefined behaviour in the block decoder. *)

From Coq Require Import List NArith ZArith Bool PeanoNat Lia.
From Verif Require Import Base M_config M_cpu M_time M_pktdec M_event M_evdec M_query M_retstack M_asid M_ildtab M_ild
  M_insn M_insndec M_blk S_core S_x86 S_sync S_evdec S_evtrace S_query S_safe L_core L_ild L_ild2 L_ild6 L_insn
  L_evdec L_evsafe L_evnext L_query L_query2 T_evdec T_evtrace L_safe.
Import ListNotations.
Open Scope N_scope.

Section BLOCK.
  Context (cf : config) (buf : list N) (base : nat).
  Hypothesis sized : callback_sized cf.
  Hypothesis freq : (cf_mtc_freq cf < 24)%N.
  Hypothesis small : (N.of_nat (length buf) + 1 < 2 ^ 31)%N.
  Hypothesis bytes : bytes_ok buf.
  Context {S C : Type} (im : blk_image S C) (held : C -> Prop) (sec : S -> Prop).
  Hypothesis Ht : tame (bi_image im) held sec.
  Hypothesis Ho : harmless held (bi_others im).
  Hypothesis Ha : forall k u, snd (bi_alloc im k) <> UB u.
  Notation dec := (blkdec C).
  Notation Reach := (reachable base cf buf).

  (** ** Events *)

  Definition tnt_full (e : event) : Prop := match ev_var e with Ev_tnt _ n => n <> 0 | _ => True end.
  Definition tracked (q : evdec) : Prop := exists evs e, stream q evs e /\ Forall tnt_full evs.

  Lemma sync_tracked q0 o q : Reach q0 -> evt_step base q0 o = (q, Ok None) -> tracked q.
  Proof.
    intros H E. assert (R : Reach q) by (econstructor; [exact H|exact E|discriminate]).
    pose proof (reachable_ok cf buf sized freq small bytes base _ R) as K.
    destruct (stream_exists cf buf sized freq small _ K) as (evs & err & Hs).
    destruct (stream_returns _ _ _ Hs) as (q' & Hr). exists evs, err. split; [exact Hs|].
    assert (Hb : bytes_ok (pd_buf (ed_pd q))) by (destruct K as ((_ & B & _) & _); rewrite B; exact bytes).
    eapply Forall_impl; [|exact (C49_tnt_size _ _ _ _ _ _ E Hr Hb)].
    intros e. unfold tnt_full. destruct (ev_var e); auto. lia.
  Qed.

  Lemma tracked_next q q' ev : tracked q -> pt_evt_next q = (q', Ok ev) -> tnt_full ev /\ tracked q'.
  Proof.
    intros (evs & err & Hs & Hf) E. inversion Hs; subst; [congruence|].
    match goal with A : pt_evt_next q = _ |- _ => rewrite E in A; injection A as <- <- end.
    inversion Hf; subst. split; [assumption|]. eexists _, _. eauto.
  Qed.

  Lemma next_no_ub q q' u : Reach q -> pt_evt_next q = (q', UB u) -> False.
  Proof.
    intros R E. destruct (next_keeps cf buf sized freq small q q' _ (reachable_ok cf buf sized freq small bytes base _ R) E) as (_ & _ & U & _).
    exact (U u eq_refl).
  Qed.

  (** ** The invariant.  [ok] is the section of which the block cache is in use. *)

  Record fitb (ok : option N) (d : dec) : Prop := {
    fb_reach : Reach (bd_evdec d);
    fb_track : bd_status d = None -> tracked (bd_evdec d);
    fb_stack : rs_ok (bd_retstack d);
    fb_held : held (bd_scache d);
    fb_counts : counts (bd_caches d);
    fb_key : match ok with Some k => bd_caches d k <> None | None => True end }.

  Definition above (n : N) (s : dec * block) : Prop := n <= b_ninsn (snd s).
  Definition inv (ok : option N) (s : dec * block) : Prop := fitb ok (fst s) /\ b_ninsn (snd s) < 65536.

  Definition safe {A} ok (P : dec * block -> Prop) (m : M (C:=C) A) (Q : A -> dec * block -> Prop) : Prop :=
    forall s, inv ok s -> P s ->
    match m s with
    | (s', Ok a) => inv ok s' /\ Q a s'
    | (s', Err _) => inv ok s'
    | (_, UB u) => stopped (bi_image im) u
    end.
  Definition kept {A} ok n (m : M A) : Prop := safe ok (above n) m (fun _ => above n).

  Lemma safe_bind {A B} ok P (m : M A) R (k : A -> M B) Q :
    safe ok P m R -> (forall a, safe ok (R a) (k a) Q) -> safe ok P (bind m k) Q.
  Proof.
    intros Hm Hk s J HP. unfold bind. specialize (Hm s J HP). destruct (m s) as [s' [a|e|u]]; [|exact Hm|exact Hm].
    destruct Hm as (J' & HR). exact (Hk a s' J' HR).
  Qed.
  Lemma kept_bind {A B} ok n (m : M A) (k : A -> M B) :
    kept ok n m -> (forall a, kept ok n (k a)) -> kept ok n (bind m k).
  Proof. apply safe_bind. Qed.
  Lemma kept_state {A} ok n (k : dec -> M A) : (forall d, fitb ok d -> kept ok n (k d)) -> kept ok n (bind state k).
  Proof. intros H s J HP. unfold bind, state. exact (H (fst s) (proj1 J) s J HP). Qed.
  Lemma kept_blk {A} ok n (k : block -> M A) : (forall b, b_ninsn b < 65536 -> kept ok n (k b)) -> kept ok n (bind blk k).
  Proof. intros H s J HP. unfold bind, blk. exact (H (snd s) (proj2 J) s J HP). Qed.
  Lemma kept_change ok n (f : dec -> dec) : (forall d, fitb ok d -> fitb ok (f d)) -> kept ok n (change f).
  Proof. intros H [d b] (J1 & J2) HP. unfold change. split; [split; [apply H; exact J1|exact J2]|exact HP]. Qed.
  Lemma kept_change_blk ok n (f : block -> block) :
    (forall b, b_ninsn b < 65536 -> n <= b_ninsn b -> b_ninsn (f b) < 65536 /\ n <= b_ninsn (f b)) ->
    kept ok n (change_blk (C:=C) f).
  Proof. intros H [d b] (J1 & J2) HP. unfold change_blk. cbn in J2. destruct (H b J2 HP). split; [split; assumption|assumption]. Qed.
  Lemma kept_lift {A} ok n (r : res A) : (forall u, r = UB u -> stopped (bi_image im) u) -> kept ok n (lift (C:=C) r).
  Proof. intros H s J HP. unfold lift. destruct r as [a|e|u]; [split; assumption|exact J|exact (H u eq_refl)]. Qed.
  Lemma kept_ret {A} ok n (a : A) : kept ok n (ret (C:=C) a).
  Proof. intros s J HP. split; assumption. Qed.
  Lemma kept_fail {A} ok n e : kept (A:=A) ok n (fail (C:=C) e).
  Proof. intros s J HP. exact J. Qed.
  Lemma kept_at {A} ok n (m : M A) s : kept ok n m -> inv ok s -> above n s ->
    match m s with
    | (s', Ok a) => inv ok s' /\ above n s'
    | (s', Err _) => inv ok s'
    | (_, UB u) => stopped (bi_image im) u
    end.
  Proof. intros H. apply H. Qed.
  Lemma kept_safe {A} ok n (m : M A) : kept ok n m -> safe ok (above n) m (fun _ => above n).
  Proof. auto. Qed.

  Create HintDb blk.
  Ltac fitd := lazymatch goal with H : fitb _ ?d |- fitb _ _ =>
    first [exact H | solve [destruct H; constructor; cbn [bd_evdec bd_status bd_retstack bd_scache bd_caches bd_set_evdec bd_set_mode bd_set_ip bd_set_status
      bd_set_event bd_set_enabled bd_set_spec bd_set_time bd_set_cbr bd_set_icnt bd_set_postponed bd_set_retstack bd_set_asid bd_set_scache bd_set_caches];
      first [assumption | discriminate | intros; auto; fail]]] end.
  Ltac stepk :=
    lazymatch goal with
    | |- kept _ _ (bind state _) => apply kept_state; intros
    | |- kept _ _ (bind blk _) => apply kept_blk; intros
    | |- kept _ _ (bind _ _) => apply kept_bind; [|intros]
    | |- kept _ _ (ret _) => apply kept_ret
    | |- kept _ _ (fail _) => apply kept_fail
    | |- kept _ _ (change _) => apply kept_change; intros
    | |- kept _ _ (change_blk _) => apply kept_change_blk; intros
    | |- kept _ _ (lift _) => apply kept_lift; intros
    | |- kept _ _ (match ?x with _ => _ end) => destruct x
    | |- kept _ _ (let _ := _ in _) => cbv zeta
    | |- fitb _ (match ?x with _ => _ end) => destruct x
    | |- fitb _ _ => fitd
    end.
  Ltac auk := repeat first [solve [eauto with blk] | discriminate | stepk].

  Lemma find_anchor_fit ok d ev d' : fitb ok d -> pt_blk_find_trig_anchor d ev = Ok d' -> fitb ok d'.
  Proof.
    intros F. unfold pt_blk_find_trig_anchor. cbv zeta.
    destruct (ev_var ev); destruct (ev_ip_suppressed ev); intros E; try discriminate E; injection E as <-; fitd.
  Qed.
  Lemma find_anchor_ub d ev u : pt_blk_find_trig_anchor (C:=C) d ev <> UB u.
  Proof. unfold pt_blk_find_trig_anchor. cbv zeta. destruct (ev_var ev); destruct (ev_ip_suppressed ev); discriminate. Qed.

  (** The event that was fetched, if it is that of a synchronised decoder. *)
  Definition fetched (s : dec * block) : Prop :=
    bd_status (fst s) = None -> forall ev, bd_event (fst s) = Some ev -> tnt_full ev.

  Lemma fetch_safe ok n : safe ok (above n) pt_blk_fetch_event (fun _ s => above n s /\ fetched s).
  Proof.
    intros [d b] (J & Jb) HP. unfold above in HP. cbn [fst snd] in J, Jb, HP. unfold pt_blk_fetch_event, bind, state. cbn [fst].
    destruct (bd_event d) as [ev|]; [|split; assumption]. cbn [change fst].
    set (d1 := bd_set_time d _ _ _ _). assert (J1 : fitb ok d1) by (unfold d1; fitd). clearbody d1. clear d J.
    unfold lift. pose proof (find_anchor_ub d1 ev) as U.
    destruct (pt_blk_find_trig_anchor d1 ev) as [d2|e|u] eqn:E; [|split; assumption|destruct (U u eq_refl)].
    pose proof (find_anchor_fit ok d1 ev d2 J1 E) as J2.
    destruct (pt_evt_next (bd_evdec d2)) as [q [ev'|e|u]] eqn:En; cbn [change].
    - assert (R : Reach q) by (eapply next_reach; eauto; exact (fb_reach _ _ J2)).
      assert (T : bd_status d2 = None -> tnt_full ev' /\ tracked q) by (intros Hs; eapply tracked_next; [exact (fb_track _ _ J2 Hs)|exact En]).
      split; [split; [|exact Jb]|split; [exact HP|]].
      + destruct J2. constructor; cbn; try assumption. intros Hs. apply T, Hs.
      + intros Hs ev'' E''. cbn in Hs, E''. injection E'' as <-. apply T, Hs.
    - assert (R : Reach q) by (eapply next_reach; eauto; exact (fb_reach _ _ J2)).
      split; [split; [|exact Jb]|split; [exact HP|]].
      + destruct J2. constructor; cbn; try assumption. discriminate.
      + intros Hs. discriminate Hs.
    - destruct (next_no_ub _ _ _ (fb_reach _ _ J2) En).
  Qed.
  Lemma fetch_kept ok n : kept ok n pt_blk_fetch_event.
  Proof.
    intros s J HP. pose proof (fetch_safe ok n s J HP) as K. destruct (pt_blk_fetch_event s) as [s' [a|e|u]]; [|exact K|exact K].
    destruct K as (K1 & K2 & _). split; assumption.
  Qed.
  Hint Resolve fetch_kept : blk.

  (** ** Trace *)

  Lemma tick_kept ok n ip : kept ok n (pt_blk_tick ip).
  Proof. unfold pt_blk_tick. auk. Qed.
  Hint Resolve tick_kept : blk.

  Lemma indirect_kept ok n : kept ok n pt_blk_proceed_indirect.
  Proof.
    intros s J HP. unfold pt_blk_proceed_indirect, bind at 1, state. 
    destruct (bd_event (fst s)) as [ev|]; [|exact J].
    destruct (ev_var ev); try exact J.
    - apply (kept_at ok n); [|exact J|exact HP]. auk.
    - destruct (pt_evt_next (bd_evdec (fst s))) as [q [ev'|e|u]] eqn:En; [|exact J|].
      + destruct (ev_var ev'); try exact J. destruct s as [d b]. destruct J as (J & Jb). cbn [fst snd] in *. cbn [change].
        split; [split; [|exact Jb]|exact HP]. cbn [fst].
        assert (R : Reach q) by (eapply next_reach; eauto; exact (fb_reach _ _ J)).
        assert (T : bd_status d = None -> tracked q) by (intros Hs; eapply tracked_next; [exact (fb_track _ _ J Hs)|exact En]).
        destruct J. constructor; cbn; assumption.
      + destruct (next_no_ub _ _ _ (fb_reach _ _ (proj1 J)) En).
  Qed.
  Hint Resolve indirect_kept : blk.

  Lemma cond_kept ok n : kept ok n pt_blk_cond_branch.
  Proof. unfold pt_blk_cond_branch. auk. Qed.
  Hint Resolve cond_kept : blk.

  Lemma stack_fit ok d r : fitb ok d -> rs_ok r -> fitb ok (bd_set_retstack d r).
  Proof. intros F H. destruct F; constructor; cbn; assumption. Qed.

  Lemma pop_kept ok n : kept ok n (bind state (fun d =>
    let (r, p) := pt_retstack_pop (bd_retstack d) in
    bind (change (fun d => bd_set_retstack d r)) (fun _ => bind (lift p) (fun ip => change (fun d => bd_set_ip d ip))))).
  Proof.
    apply kept_state. intros d F. destruct (pop_ok _ (fb_stack _ _ F)) as (P & U).
    destruct (pt_retstack_pop (bd_retstack d)) as [r p]. cbn [fst snd] in P, U.
    apply kept_bind; [apply kept_change; intros; apply stack_fit; assumption|intros].
    apply kept_bind; [apply kept_lift; intros u E; destruct (U u E)|intros]. auk.
  Qed.
  Hint Resolve pop_kept : blk.
  Lemma push_kept ok n ip : kept ok n (push ip).
  Proof.
    unfold push. apply kept_state. intros d F. destruct (push_ok _ ip (fb_stack _ _ F)) as (P & U).
    destruct (pt_retstack_push (bd_retstack d) ip) as [r p]. cbn [fst snd] in P, U.
    apply kept_bind; [apply kept_change; intros; apply stack_fit; assumption|intros].
    apply kept_lift. intros u E; destruct (U u E).
  Qed.
  Hint Resolve push_kept : blk.

  Lemma with_trace_kept ok n i x : kept ok n (pt_blk_proceed_with_trace i x).
  Proof. unfold pt_blk_proceed_with_trace. auk. Qed.
  Hint Resolve with_trace_kept : blk.

  Lemma log_call_kept ok n i x : kept ok n (pt_blk_log_call i x).
  Proof. unfold pt_blk_log_call. auk. Qed.
  Hint Resolve log_call_kept : blk.
  Lemma count_kept ok n k : kept ok n (count k).
  Proof. unfold count. auk. Qed.
  Hint Resolve count_kept : blk.

  (** ** Walking over instructions *)

  Lemma safe_change_blk ok P n (f : block -> block) :
    (forall b, b_ninsn b < 65536 -> b_ninsn (f b) < 65536 /\ n <= b_ninsn (f b)) ->
    safe ok P (change_blk f) (fun _ => above n).
  Proof. intros H [d b] (J1 & J2) HP. unfold change_blk. cbn in J2. destruct (H b J2). split; [split; assumption|assumption]. Qed.
  Lemma safe_weak {A} ok (P P' : dec * block -> Prop) (m : M A) (Q Q' : A -> dec * block -> Prop) :
    safe ok P m Q -> (forall s, inv ok s -> P' s -> P s) -> (forall a s, Q a s -> Q' a s) -> safe ok P' m Q'.
  Proof.
    intros H HP HQ s J K. specialize (H s J (HP s J K)). destruct (m s) as [s' [a|e|u]]; [|exact H|exact H].
    destruct H as (H1 & H2). split; [exact H1|apply HQ, H2].
  Qed.
  Lemma safe_ret {A} ok (P : dec * block -> Prop) (a : A) (Q : A -> dec * block -> Prop) :
    (forall s, P s -> Q a s) -> safe ok P (ret a) Q.
  Proof. intros H s J K. split; [exact J|apply H, K]. Qed.

  Definition one_more (n : N) (o : option (insn * insn_ext)) (s : dec * block) : Prop :=
    match o with Some _ => above (n + 1) s | None => above n s end.

  Lemma here_safe d i r : decode_here im d = (i, r) -> forall u, r = UB u -> stopped (bi_image im) u.
  Proof.
    intros E u ->. pose proof (decode_safe (bi_image im) held sec Ht (bd_asid d) _ (new_raw (bd_ip d) (bd_mode d) false)) as D.
    unfold decode_here in E. rewrite E in D. exact D.
  Qed.

  Lemma one_safe ok n : safe ok (above n) (pt_blk_proceed_one_insn im) (one_more n).
  Proof.
    intros [d b] J HP. pose proof (proj2 J) as Jb. cbn [snd] in Jb. unfold above in HP. cbn [snd] in HP.
    assert (HP0 : above n (d, b)) by exact HP. unfold pt_blk_proceed_one_insn, bind at 1, blk. cbn [snd].
    assert (En : u16 (b_ninsn b + 1) = 0 \/ u16 (b_ninsn b + 1) = b_ninsn b + 1).
    { unfold u16. change (2 ^ 16) with 65536. destruct (N.eq_dec (b_ninsn b) 65535) as [->|]; [left; reflexivity|right].
      apply N.mod_small. lia. }
    destruct (N.eqb_spec (u16 (b_ninsn b + 1)) 0) as [|Hn]; [split; assumption|].
    destruct En as [En|En]; [contradiction|].
    destruct (b_truncated b); [split; assumption|]. unfold bind at 1, state. cbn [fst].
    destruct (decode_here im d) as [i r] eqn:Ed. pose proof (here_safe d i r Ed) as U.
    assert (HP1 : safe ok (above n)
      (bind (lift r) (fun x => if negb (in_isid i =? b_isid b) && negb (pt_blk_block_is_empty b) then ret None else
        bind (change_blk (fun b => b_set_isid b (in_isid i))) (fun _ =>
        bind (change_blk (fun b => if in_truncated i then b_set_text b i else b)) (fun _ =>
        bind (pt_blk_log_call i x) (fun _ =>
        bind (change_blk (fun b0 => b_set_end b0 (in_iclass i) (in_ip i) (u16 (b_ninsn b + 1)))) (fun _ =>
        bind (count 1) (fun _ => ret (Some (i, x)))))))))
      (one_more n)).
    { apply (safe_bind ok _ _ (fun _ => above n)); [apply kept_lift; exact U|intros x].
      destruct (negb _ && negb _); [apply safe_ret; intros s K; exact K|].
      apply (safe_bind ok _ _ (fun _ => above n)); [apply kept_change_blk; intros; split; assumption|intros _].
      apply (safe_bind ok _ _ (fun _ => above n)); [apply kept_change_blk; intros; destruct (in_truncated i); split; assumption|intros _].
      apply (safe_bind ok _ _ (fun _ => above n)); [apply log_call_kept|intros _].
      apply (safe_bind ok _ _ (fun _ => above (n + 1))).
      { apply safe_change_blk. intros b0 _. cbn [b_set_end b_ninsn]. rewrite En.
        assert (b_ninsn b <> 65535) by (intros E; rewrite E in Hn; apply Hn; reflexivity). lia. }
      intros _. apply (safe_bind ok _ _ (fun _ => above (n + 1))); [apply count_kept|intros _].
      apply safe_ret. intros s K. exact K. }
    exact (HP1 (d, b) J HP0).
  Qed.
  Lemma one_kept ok n : kept ok n (pt_blk_proceed_one_insn im).
  Proof.
    apply (safe_weak ok (above n) _ _ (one_more n)); [apply one_safe|auto|]. intros o s. destruct o as [p|]; intros K; cbn in K; [|exact K]. unfold above in *. lia.
  Qed.
  Hint Resolve one_kept : blk.

  Definition walked (n : N) (w : walk) (s : dec * block) : Prop :=
    match w with W_done (Some _) => above (n + 1) s | W_done None => False | _ => above n s end.

  Lemma above_bound ok n s : inv ok s -> above n s -> n < 65536.
  Proof. intros (_ & J) K. unfold above in K. lia. Qed.
  Lemma above_less n m s : n <= m -> above m s -> above n s.
  Proof. unfold above. lia. Qed.

  Lemma ip_kept ok n ip : kept ok n (change (fun d => bd_set_ip d ip)).
  Proof. auk. Qed.
  Lemma to_insn_safe ok pred : forall fuel n, 65536 - n < N.of_nat fuel -> safe ok (above n) (to_insn im fuel pred) (walked n).
  Proof.
    induction fuel as [|fuel IH]; intros n Hf; [lia|]. intros s J HP. pose proof (above_bound _ _ _ J HP) as Hn.
    revert s J HP. change (safe ok (above n) (to_insn im (Datatypes.S fuel) pred) (walked n)). cbn [to_insn].
    eapply safe_bind; [apply one_safe|]. intros [[i x]|]; [|apply safe_ret; intros s K; exact K].
    destruct (pred i x); [apply safe_ret; intros s K; exact K|].
    pose proof (next_ip_ok i x) as U. destruct (pt_insn_next_ip i x) as [ip|e|u]; [| |destruct (U u eq_refl)].
    - apply (safe_bind ok _ _ (fun _ => above (n + 1))); [apply ip_kept|intros _].
      intros [d b] J HP. unfold bind, state. cbn [fst]. destruct (ends_block d i).
      + split; [exact J|]. cbn [walked]. eapply above_less; [|exact HP]. lia.
      + pose proof (IH (n + 1) ltac:(lia) (d, b) J HP) as K.
        destruct (to_insn im fuel pred (d, b)) as [s' [w|e|u]]; [|exact K|exact K]. destruct K as (K1 & K2). split; [exact K1|].
        destruct w as [|[p|]|]; cbn [walked] in *; try exact K2; (eapply above_less; [|exact K2]); lia.
    - assert (K : forall e, safe ok (one_more n (Some (i, x))) (fail (A:=walk) e) (walked n)) by (intros e0 s J HP; exact J).
      destruct e; try apply K. apply safe_ret. intros s L. cbn [one_more walked] in *. eapply above_less; [|exact L]. lia.
  Qed.
  Lemma room_safe {A} ok n (m : nat -> M A) Q :
    (forall k, 65536 - k < N.of_nat (room (mk_block 0 0 0 ptem_unknown ptic_unknown k [] 0 false false)) -> n <= k ->
       safe ok (above k) (m (room (mk_block 0 0 0 ptem_unknown ptic_unknown k [] 0 false false))) Q) ->
    safe ok (above n) (bind blk (fun b => m (room b))) Q.
  Proof.
    intros H [d b] J HP. unfold bind, blk. cbn [snd].
    assert (E : room b = room (mk_block 0 0 0 ptem_unknown ptic_unknown (b_ninsn b) [] 0 false false)) by reflexivity.
    rewrite E. refine (H (b_ninsn b) _ HP (d, b) J _); [|unfold above; cbn; lia].
    unfold room. cbn [b_ninsn]. lia.
  Qed.
  Lemma walked_less n m w s : n <= m -> walked m w s -> walked n w s.
  Proof. intros H. destruct w as [|[p|]|]; cbn [walked]; try (apply above_less; lia); auto. Qed.
  Lemma proceed_to_insn_safe ok n pred : safe ok (above n) (pt_blk_proceed_to_insn im pred) (walked n).
  Proof.
    apply (room_safe ok n (fun f => to_insn im f pred)). intros k Hk Hn.
    eapply safe_weak; [apply to_insn_safe; exact Hk|auto|]. intros w s. apply walked_less. exact Hn.
  Qed.
  Lemma walked_above n w s : walked n w s -> above n s.
  Proof. destruct w as [|[p|]|]; cbn [walked]; auto; [|contradiction]. unfold above. lia. Qed.
  Lemma proceed_to_insn_kept ok n pred : kept ok n (pt_blk_proceed_to_insn im pred).
  Proof. apply (safe_weak ok (above n) _ _ (walked n)); [apply proceed_to_insn_safe|auto|]. intros w s. apply walked_above. Qed.
  Hint Resolve proceed_to_insn_kept : blk.

  Lemma to_ip_kept ok ip : forall fuel n, 65536 - n < N.of_nat fuel -> kept ok n (to_ip im fuel ip).
  Proof.
    induction fuel as [|fuel IH]; intros n Hf; [lia|]. intros s J HP. pose proof (above_bound _ _ _ J HP) as Hn.
    revert s J HP. change (kept ok n (to_ip im (Datatypes.S fuel) ip)). cbn [to_ip].
    apply kept_state. intros d0 _. destruct (bd_ip d0 =? ip); [apply kept_ret|].
    eapply safe_bind; [apply one_safe|]. intros [[i x]|]; [|apply safe_ret; intros s K; exact K].
    cbn [one_more]. eapply (safe_weak ok (above (n + 1)) _ _ (fun _ => above (n + 1))); [|auto|intros a s; apply above_less; lia].
    change (kept ok (n + 1) (match pt_insn_next_ip i x with
            | Err pte_bad_query => ret (W_trace i x)
            | Err e => fail e
            | UB u => lift (UB u)
            | Ok nip =>
                bind (change (fun d => bd_set_ip d nip)) (fun _ =>
                bind state (fun d =>
                if ends_block d i then ret (if nip =? ip then W_done None else W_stop)
                else to_ip im fuel ip))
            end)).
    pose proof (next_ip_ok i x) as U. destruct (pt_insn_next_ip i x) as [nip|e|u]; [| |destruct (U u eq_refl)].
    - specialize (IH (n + 1) ltac:(lia)). auk.
    - auk.
  Qed.
  Lemma kept_less {A} ok n k (m : M A) : kept ok k m -> n <= k -> safe ok (above k) m (fun _ => above n).
  Proof. intros K H. eapply safe_weak; [exact K|auto|intros a s; apply above_less; exact H]. Qed.
  Lemma proceed_to_ip_kept ok n ip : kept ok n (pt_blk_proceed_to_ip im ip).
  Proof.
    apply (room_safe ok n (fun f => to_ip im f ip)). intros k Hk Hn.
    apply kept_less; [apply to_ip_kept; exact Hk|exact Hn].
  Qed.
  Hint Resolve proceed_to_ip_kept : blk.

  Lemma skl014_kept ok : forall fuel n, 65536 - n < N.of_nat fuel -> kept ok n (skl014 im fuel).
  Proof.
    induction fuel as [|fuel IH]; intros n Hf; [lia|]. intros s J HP. pose proof (above_bound _ _ _ J HP) as Hn.
    revert s J HP. change (kept ok n (skl014 im (Datatypes.S fuel))). cbn [skl014].
    eapply safe_bind; [apply proceed_to_insn_safe|].
    intros [|[[i x]|]|i x]; [apply safe_ret; intros s K; exact K| |intros s J []|apply safe_ret; intros s K; exact K].
    cbn [walked]. set (w := W_done _).
    eapply (safe_weak ok (above (n + 1)) _ _ (fun _ => above (n + 1))); [|auto|intros a s; apply above_less; lia].
    specialize (IH (n + 1) ltac:(lia)). pose proof (next_ip_ok i x) as U.
    change (kept ok (n + 1) (if pt_insn_changes_cr3 x then ret w else
            bind (lift (pt_insn_next_ip i x)) (fun ip =>
            bind state (fun d =>
            if negb (pt_filter_addr_check (cf_addr_filter (pt_blk_config d)) ip) then ret w else
            bind (change (fun d => bd_set_ip d ip)) (fun _ =>
            if ends_block d i then ret w else skl014 im fuel))))).
    auk. match goal with E : _ = UB ?u |- _ => destruct (U u E) end.
  Qed.
  Lemma proceed_skl014_kept ok n : kept ok n (pt_blk_proceed_skl014 im).
  Proof.
    apply (room_safe ok n (skl014 im)). intros k Hk Hn. apply kept_less; [apply skl014_kept; exact Hk|exact Hn].
  Qed.
  Hint Resolve proceed_skl014_kept : blk.

  Lemma to_disabled_kept ok n ev ip : kept ok n (pt_blk_proceed_to_disabled im ev ip).
  Proof. unfold pt_blk_proceed_to_disabled. auk. Qed.
  Hint Resolve to_disabled_kept : blk.

  Lemma to_cause_safe ok n pred ev ip : safe ok (above n) (proceed_to_cause im pred ev ip) (walked n).
  Proof.
    unfold proceed_to_cause. destruct (ev_ip_suppressed ev); [apply proceed_to_insn_safe|].
    eapply safe_bind; [apply proceed_to_ip_kept|]. intros [|p|i x]; try (apply safe_ret; intros s K; exact K).
    eapply safe_bind; [apply one_safe|]. intros [q|]; apply safe_ret; intros s K; exact K.
  Qed.

  Lemma anchor_kept ok n ev trbv icnt ip mult : kept ok n (pt_blk_provide_trig_anchor ev trbv icnt ip mult).
  Proof. unfold pt_blk_provide_trig_anchor. auk. Qed.
  Hint Resolve anchor_kept : blk.

  Lemma trig_loop_kept ok ev trbv mult : forall fuel n icnt, 65536 - n < N.of_nat fuel -> kept ok n (trig_loop im fuel ev trbv icnt mult).
  Proof.
    induction fuel as [|fuel IH]; intros n icnt Hf; [lia|]. intros s J HP. pose proof (above_bound _ _ _ J HP) as Hn.
    revert s J HP. change (kept ok n (trig_loop im (Datatypes.S fuel) ev trbv icnt mult)). cbn [trig_loop].
    destruct (icnt =? 0); [apply kept_ret|].
    eapply safe_bind; [apply one_safe|]. intros [[i x]|]; [|apply safe_ret; intros s K; exact K].
    cbn [one_more]. eapply (safe_weak ok (above (n + 1)) _ _ (fun _ => above (n + 1))); [|auto|intros a s; apply above_less; lia].
    change (kept ok (n + 1) (match pt_insn_next_ip i x with
            | Err pte_bad_query => ret (W_trace i x)
            | Err e => fail e
            | UB u => lift (UB u)
            | Ok ip =>
                bind (change (fun d => bd_set_ip d ip)) (fun _ =>
                bind (change (fun d => bd_set_event d (Some (set_var ev (Ev_trig trbv (icnt - 1) ip mult))))) (fun _ =>
                trig_loop im fuel ev trbv (icnt - 1) mult))
            end)).
    pose proof (next_ip_ok i x) as U. destruct (pt_insn_next_ip i x) as [nip|e|u]; [| |destruct (U u eq_refl)].
    - specialize (IH (n + 1) (icnt - 1) ltac:(lia)). auk.
    - auk.
  Qed.
  Lemma trig_room_kept ok n ev trbv icnt mult : kept ok n (bind blk (fun b => trig_loop im (room b) ev trbv icnt mult)).
  Proof.
    apply (room_safe ok n (fun f => trig_loop im f ev trbv icnt mult)). intros k Hk Hn.
    apply kept_less; [apply trig_loop_kept; exact Hk|exact Hn].
  Qed.
  Hint Resolve trig_room_kept : blk.

  Lemma to_trig_kept ok n ev trbv icnt ip mult : kept ok n (pt_blk_proceed_to_trig im ev trbv icnt ip mult).
  Proof. unfold pt_blk_proceed_to_trig. auk. Qed.
  Hint Resolve to_trig_kept : blk.

  Lemma skd022_kept ok n ev at_ ip : kept ok n (pt_blk_handle_erratum_skd022 im ev at_ ip).
  Proof.
    unfold pt_blk_handle_erratum_skd022. apply kept_state. intros d F.
    pose proof (decode_safe (bi_image im) held sec Ht (bd_asid d) _ (new_raw at_ (bd_mode d) false)) as D.
    destruct (pt_insn_decode _ _ _) as [i [x|e|u]]; [|apply kept_ret|apply kept_lift; intros u' E; injection E as <-; exact D].
    assert (H : kept ok n (bind (change (fun d => bd_set_event d (Some (set_var ev (Ev_disabled ip))))) (fun _ => ret true))) by auk.
    destruct (x_inst x); first [exact H|apply kept_ret].
  Qed.
  Hint Resolve skd022_kept : blk.

  Lemma indicate_kept ok n flags : kept ok n (indicate (C:=C) flags).
  Proof. unfold indicate. auk. Qed.
  Hint Resolve indicate_kept : blk.
  Lemma pending_kept ok n : kept ok n (pending (C:=C)).
  Proof. unfold pending. auk. Qed.
  Hint Resolve pending_kept : blk.

  Lemma postpone_kept ok n p mark : kept ok n (pt_blk_postpone_insn p mark).
  Proof. unfold pt_blk_postpone_insn. auk. Qed.
  Hint Resolve postpone_kept : blk.
  Lemma clear_kept ok n : kept ok n pt_blk_clear_postponed_insn.
  Proof. unfold pt_blk_clear_postponed_insn. auk. Qed.
  Hint Resolve clear_kept : blk.
  Lemma proceed_postponed_kept ok n : kept ok n pt_blk_proceed_postponed_insn.
  Proof.
    unfold pt_blk_proceed_postponed_insn. apply kept_state. intros d F. destruct (bd_postponed d) as [[i x]|]; [|apply kept_ret].
    destruct (negb _); [auk|]. pose proof (next_ip_ok i x) as U. destruct (pt_insn_next_ip i x) as [nip|e|u]; [auk|auk|destruct (U u eq_refl)].
  Qed.
  Hint Resolve proceed_postponed_kept : blk.

  Lemma event_at_ip_kept ok n ip : kept ok n (event_at_ip im ip).
  Proof. unfold event_at_ip. auk. Qed.
  Hint Resolve event_at_ip_kept : blk.
  Lemma event_at_insn_kept ok n w mark : safe ok (above n) w (walked n) -> kept ok n (event_at_insn (C:=C) w mark).
  Proof.
    intros H. unfold event_at_insn. eapply safe_bind; [exact H|].
    intros [|[p|]|i x]; [apply safe_ret; intros s K; exact K| |intros s J []|intros s J _; exact J].
    eapply safe_weak; [apply postpone_kept| |intros a s K; exact K]. intros s _. cbn [walked]. apply above_less. lia.
  Qed.
  Hint Resolve event_at_insn_kept proceed_to_insn_safe to_cause_safe : blk.
  Lemma event_disabled_kept ok n ev ip : kept ok n (event_disabled im ev ip).
  Proof. unfold event_disabled, pt_blk_set_disable_resume_ip. auk. Qed.
  Hint Resolve event_disabled_kept : blk.

  Lemma proceed_event_kept ok n : kept ok n (pt_blk_proceed_event im).
  Proof. unfold pt_blk_proceed_event. auk. Qed.
  Hint Resolve proceed_event_kept : blk.

  Lemma uncached_kept ok n : kept ok n (pt_blk_proceed_no_event_uncached im).
  Proof. unfold pt_blk_proceed_no_event_uncached. auk. Qed.
  Hint Resolve uncached_kept : blk.

  (** ** The block cache *)

  Definition counted (e : entry) : Prop := pt_bce_is_valid e = true -> 1 <= be_ninsn e < 256.

  Lemma interfere_kept ok n : kept ok n (interfere im).
  Proof.
    unfold interfere. apply kept_change. intros d F. pose proof (Ho (bd_scache d) (bd_caches d) (fb_held _ _ F) (fb_counts _ _ F)) as H.
    destruct (bi_others im (bd_scache d) (bd_caches d)) as [c cs]. destruct H as (H1 & H2 & H3).
    destruct F. constructor; cbn; try assumption. destruct ok as [k|]; [|exact I]. apply H3. assumption.
  Qed.
  Hint Resolve interfere_kept : blk.

  Lemma cache_add_kept n s i e : counted e -> kept (Some (bi_key im s)) n (cache_add im s i e).
  Proof.
    intros He. unfold cache_add. apply kept_bind; [apply interfere_kept|intros _]. apply kept_state. intros d F.
    pose proof (fb_key _ _ F) as K. cbn in K. destruct (bd_caches d (bi_key im s)) as [c|] eqn:Ec; [|destruct (K eq_refl)].
    intros [d' b'] J HP. unfold bind, lift, pt_bcache_add. destruct (bc_n c <=? i); [exact J|]. cbn [change].
    destruct J as (J & Jb). split; [split; [|exact Jb]|exact HP]. cbn [fst snd] in *.
    pose proof (fb_counts _ _ F) as Fc. destruct J. constructor; cbn; try assumption.
    - intros k c' j. unfold put_cache. destruct (k =? bi_key im s); [|apply fb_counts0].
      intros E. injection E as <-. cbn [bc_entry]. destruct (j =? i); [exact He|]. apply (Fc _ _ _ Ec).
    - unfold put_cache. rewrite N.eqb_refl. discriminate.
  Qed.
  Lemma cache_lookup_safe n s i : safe (Some (bi_key im s)) (above n) (cache_lookup im s i) (fun e s => above n s /\ counted e).
  Proof.
    unfold cache_lookup. apply (safe_bind _ _ _ (fun _ => above n)); [apply interfere_kept|intros _].
    intros [d b] J HP. unfold bind, state. cbn [fst]. pose proof (fb_key _ _ (proj1 J)) as K. cbn in K.
    destruct (bd_caches d (bi_key im s)) as [c|] eqn:Ec; [|destruct (K eq_refl)].
    unfold lift, pt_bcache_lookup. destruct (bc_n c <=? i); [exact J|]. split; [exact J|]. split; [exact HP|].
    exact (fb_counts _ _ (proj1 J) _ _ _ Ec).
  Qed.
  Lemma counted_one disp m q z : counted (mk_entry disp 1 m q z).
  Proof. intros _. cbn. lia. Qed.
  Hint Resolve cache_add_kept counted_one : blk.
  Lemma add_decode_kept n s i m : kept (Some (bi_key im s)) n (pt_blk_add_decode im s i m).
  Proof. unfold pt_blk_add_decode. auk. Qed.
  Hint Resolve add_decode_kept : blk.
  Lemma add_trampoline_kept n s i j m : kept (Some (bi_key im s)) n (pt_blk_add_trampoline im s i j m).
  Proof. unfold pt_blk_add_trampoline. auk. Qed.
  Hint Resolve add_trampoline_kept : blk.

  Lemma lookup_then {A} n s i (k : entry -> M A) :
    (forall e, counted e -> kept (Some (bi_key im s)) n (k e)) ->
    kept (Some (bi_key im s)) n (bind (cache_lookup im s i) k).
  Proof.
    intros H. apply (safe_bind _ _ _ _ _ _ (cache_lookup_safe n s i)). intros e st J (HP & He). exact (H e He st J HP).
  Qed.

  Lemma decision_ub i x u : decision i x <> UB u.
  Proof. unfold decision. destruct (in_iclass i), (x_direct x), (is_jmpabs x); discriminate. Qed.

  Lemma fill_cache_kept s : forall steps n, kept (Some (bi_key im s)) n (fill_cache im steps s).
  Proof.
    induction steps as [|steps IH]; intros n; cbn [fill_cache]; [apply kept_fail|].
    apply kept_bind; [apply one_kept|]. intros [[i x]|]; [|apply kept_ret]. cbv zeta.
    pose proof (next_ip_ok i x) as U. destruct (pt_insn_next_ip i x) as [nip|e|u]; [| |destruct (U u eq_refl)].
    2:{ assert (K : kept (Some (bi_key im s)) n (bind (lift (decision i x)) (fun q => bind blk (fun b =>
            let q0 := if b_truncated b then ptbq_decode else q in
            bind (cache_add im s (pt_msec_unmap im s (in_ip i)) (mk_entry 0 1 (in_mode i) q0
              (if N.of_nat (in_size i) mod 8 =? N.of_nat (in_size i) then N.of_nat (in_size i) mod 8 else 0)))
              (fun _ => pt_blk_proceed_with_trace i x))))).
        { apply kept_bind; [apply kept_lift; intros u E; destruct (decision_ub _ _ _ E)|intros q]. auk. }
        destruct e; first [exact K | apply kept_fail]. }
    apply kept_bind; [apply ip_kept|intros _]. apply kept_blk. intros b Hb. apply kept_state. intros d F.
    apply kept_bind.
    { apply kept_lift. intros u. destruct (in_iclass i); try discriminate. destruct (negb (x_direct x) || is_jmpabs x); discriminate. }
    intros stop. destruct stop; [apply add_decode_kept|].
    match goal with |- kept _ _ (bind _ (fun e => if pt_bce_is_valid e then @?f e else @?g e)) =>
      assert (X : forall e, kept (Some (bi_key im s)) n (f e)) end.
    { intros e. cbv beta. destruct (negb _); [apply kept_fail|]. destruct (negb _); [apply kept_ret|].
      destruct (N.eqb_spec (u8 (be_ninsn e + 1)) 0) as [|Hz]; cbn [orb]; [apply add_trampoline_kept|].
      destruct (negb _); [apply add_trampoline_kept|]. apply cache_add_kept. intros _. cbn [be_ninsn]. split; [lia|].
      unfold u8, trunc. apply N.mod_lt. discriminate. }
    apply lookup_then. intros e He. destruct (pt_bce_is_valid e); [apply X|].
    destruct steps as [|steps']; [apply add_trampoline_kept|].
    apply kept_bind; [apply IH|intros _]. apply lookup_then. intros e' He'. destruct (pt_bce_is_valid e'); [apply X|apply kept_ret].
  Qed.
  Hint Resolve fill_cache_kept : blk.

  Lemma truncated_kept ok n : kept ok n (pt_blk_proceed_truncated im).
  Proof.
    unfold pt_blk_proceed_truncated. apply kept_state. intros d F. destruct (decode_here im d) as [i r] eqn:Ed.
    pose proof (here_safe d i r Ed) as U. apply kept_bind; [apply kept_lift; exact U|intros x]. destruct (negb _); [apply kept_fail|].
    apply kept_bind; [apply kept_change_blk; intros; split; assumption|intros _]. apply kept_bind; [apply log_call_kept|intros _].
    pose proof (next_ip_ok i x) as U'. destruct (pt_insn_next_ip i x) as [nip|e|u]; [auk|auk|destruct (U' u eq_refl)].
  Qed.
  Hint Resolve truncated_kept : blk.

  Lemma in_section_safe i s u : sec s -> raw_ok i -> snd (pt_blk_decode_in_section im i s) = UB u -> stopped (bi_image im) u.
  Proof.
    intros Hs Hi. unfold pt_blk_decode_in_section.
    pose proof (section_safe (bi_image im) held sec Ht pt_asid_init s i Hs Hi) as D.
    destruct (im_sread (bi_image im) s (in_ip i) 15) as [bs|e|u']; [|discriminate|destruct D].
    destruct (decode_text _) as [i' [x|e|u']]; cbn [snd]; try discriminate. intros E. injection E as <-. exact D.
  Qed.

  Lemma cached_kept s : sec s -> forall fuel n, 65536 - n < N.of_nat fuel -> kept (Some (bi_key im s)) n (cached im fuel s).
  Proof.
    intros Hs. induction fuel as [|fuel IH]; intros n Hf; [lia|]. intros st J HP. pose proof (above_bound _ _ _ J HP) as Hn.
    revert st J HP. change (kept (Some (bi_key im s)) n (cached im (Datatypes.S fuel) s)). cbn [cached].
    apply kept_state. intros d F. apply lookup_then. intros e He. destruct (pt_bce_is_valid e) eqn:Ev; cbn [negb]; [|apply fill_cache_kept].
    specialize (He Ev). cbv zeta. set (nip := add64 _ _). destruct (negb (pt_blk_is_in_section im s nip)); [apply uncached_kept|].
    intros [d0 b] J HP. unfold bind at 1, blk. cbn [snd].
    destruct (N.ltb_spec (u16 (b_ninsn b + be_ninsn e)) (b_ninsn b)) as [|Hlt]; [split; assumption|].
    set (ninsn := u16 (b_ninsn b + be_ninsn e)) in *.
    assert (Hnn : n + 1 <= ninsn < 65536).
    { unfold above in HP. cbn [snd] in HP. pose proof (proj2 J) as Jb. cbn [snd] in Jb. unfold ninsn, u16, trunc in *. change (2 ^ 16) with 65536 in *.
      destruct (N.lt_ge_cases (b_ninsn b + be_ninsn e) 65536) as [L|L]; [rewrite N.mod_small by exact L; lia|].
      exfalso. assert (E : (b_ninsn b + be_ninsn e) mod 65536 = b_ninsn b + be_ninsn e - 65536).
      { replace (b_ninsn b + be_ninsn e) with (b_ninsn b + be_ninsn e - 65536 + 1 * 65536) at 1 by lia.
        rewrite N.mod_add by discriminate. apply N.mod_small. lia. }
      rewrite E in Hlt. lia. }
    clearbody ninsn. revert J HP. generalize (d0, b). clear d0 b Hlt. intros st J HP. revert st J HP.
    set (here := new_insn nip (be_mode e) false). assert (Hh : raw_ok here) by apply new_raw.
    pose proof (fun u => in_section_safe here s u Hs Hh) as Ud.
    specialize (IH (n + 1) ltac:(lia)).
    match goal with |- forall st, inv _ st -> above n st -> match ?m st with _ => _ end => change (kept (Some (bi_key im s)) n m) end.
    apply kept_bind; [apply count_kept|intros _]. apply kept_bind; [apply ip_kept|intros _].
    apply (safe_bind _ _ _ (fun _ => above (n + 1))).
    { apply safe_change_blk. intros b0 _. cbn [b_set_mode b_set_end b_ninsn]. lia. }
    intros _. match goal with |- safe _ _ ?m _ => assert (K : kept (Some (bi_key im s)) (n + 1) m) end.
    2:{ intros st J HP. specialize (K st J HP). match goal with |- match ?x with _ => _ end => destruct x as [st' [a|e'|u]] end; [|exact K|exact K].
        destruct K as (K1 & K2). split; [exact K1|]. eapply above_less; [|exact K2]. lia. }
    assert (Cl : forall c, kept (Some (bi_key im s)) (n + 1) (change_blk (fun b => b_set_iclass b c))).
    { intros c. apply kept_change_blk. intros; split; assumption. }
    destruct (pt_blk_decode_in_section im here s) as [i r] eqn:Ei. cbn [snd] in Ud.
    assert (D : kept (Some (bi_key im s)) (n + 1) (match r with
          | Err pte_bad_insn => pt_blk_proceed_truncated im
          | Err e => fail e
          | UB u => lift (UB u)
          | Ok x =>
              bind (change_blk (fun b => b_set_iclass b (in_iclass i))) (fun _ =>
              bind (pt_blk_log_call i x) (fun _ =>
              match pt_insn_next_ip i x with
              | UB u => lift (UB u)
              | Err pte_bad_query => pt_blk_proceed_with_trace i x
              | Err e => fail e
              | Ok ip =>
                  bind (change (fun d => bd_set_ip d ip)) (fun _ =>
                  bind state (fun d =>
                  if ends_block d i then ret tt else
                  if negb (pt_blk_is_in_section im s ip) then ret tt else cached im fuel s))
              end))
          end)).
    { destruct r as [x|er|u]; [|destruct er; auk|apply kept_lift; intros u' E; injection E as <-; exact (Ud u eq_refl)].
      apply kept_bind; [apply Cl|intros _]. apply kept_bind; [apply log_call_kept|intros _].
      pose proof (next_ip_ok i x) as U'. destruct (pt_insn_next_ip i x) as [ip|er|u]; [auk|auk|destruct (U' u eq_refl)]. }
    destruct (be_qual e).
    - apply kept_bind; [apply Cl|intros _]. exact IH.
    - apply kept_bind; [apply Cl|intros _]. destruct (negb _); [|exact D].
      apply kept_bind; [apply cond_kept|intros tnt]. destruct tnt as [[]|]; [|auk|auk].
      apply kept_bind; [apply kept_lift; exact Ud|intros x]. apply ip_kept.
    - apply kept_bind; [apply Cl|intros _]. apply kept_bind.
      { destruct (negb _); [apply kept_ret|]. apply kept_bind; [apply kept_lift; exact Ud|intros x; apply kept_ret]. }
      intros ip. auk.
    - apply kept_bind; [apply Cl|intros _]. auk.
    - apply kept_bind; [apply Cl|intros _]. auk.
    - exact D.
  Qed.
  Lemma proceed_cached_kept n s : sec s -> kept (Some (bi_key im s)) n (pt_blk_proceed_no_event_cached im s).
  Proof.
    intros Hs. apply (room_safe _ n (fun f => cached im f s)). intros k Hk Hn.
    apply kept_less; [apply cached_kept; assumption|exact Hn].
  Qed.

  (** ** Sections *)

  Lemma msec_lookup_safe n : safe None (above n) (pt_blk_msec_lookup im) (fun l s => above n s /\ sec (snd l)).
  Proof.
    unfold pt_blk_msec_lookup. intros [d b] J HP. unfold bind at 1, state. cbn [fst].
    pose proof (tm_lookup _ held sec Ht (bd_scache d) (bd_asid d) (bd_ip d) (fb_held _ _ (proj1 J))) as L.
    destruct (im_lookup (bi_image im) (bd_scache d) (bd_asid d) (bd_ip d)) as [c l].
    assert (Hc : held c /\ (forall u, l <> UB u) /\ forall x, l = Ok x -> sec (snd x)).
    { destruct l as [[isid s]|e|u]; [destruct L as (L1 & L2)| |destruct L]; (split; [assumption|]; split; [discriminate|]).
      - intros x E. injection E as <-. exact L2.
      - discriminate. }
    destruct Hc as (Hc & Hu & Hl). clear L. unfold bind at 1. cbn [change].
    set (d1 := bd_set_scache d c).
    assert (J1 : inv None (d1, b)) by (destruct J as (J & Jb); split; [destruct J; constructor; cbn; assumption|exact Jb]).
    assert (HP1 : above n (d1, b)) by exact HP. clearbody d1. clear J HP.
    destruct (bi_hit im (bd_scache d) (bd_ip d)).
    { unfold lift. destruct l as [x|e|u]; [|exact J1|destruct (Hu u eq_refl)]. split; [exact J1|]. split; [exact HP1|apply Hl; reflexivity]. }
    unfold bind at 1. cbn [change]. set (d2 := bd_set_caches d1 _).
    assert (J2 : inv None (d2, b)).
    { destruct J1 as (J & Jb). split; [|exact Jb]. cbn [fst] in *. destruct J. constructor; cbn; try assumption.
      intros k c' j. destruct (bi_kept im c k); [apply fb_counts0|discriminate]. }
    assert (HP2 : above n (d2, b)) by exact HP1. clearbody d2. clear d1 J1 HP1.
    unfold bind at 1, lift at 1. destruct l as [x|e|u]; [|exact J2|destruct (Hu u eq_refl)].
    specialize (Hl x eq_refl).
    match goal with |- match ?m (d2, b) with _ => _ end => enough (K : safe None (above n) m (fun l s => above n s /\ sec (snd l))) by exact (K _ J2 HP2) end.
    apply (safe_bind _ _ _ (fun _ => above n)); [apply interfere_kept|intros _].
    clear d b d2 J2 HP2. intros [d b] J HP. unfold bind at 1, state. cbn [fst].
    destruct (bd_caches d (bi_key im (snd x))); [split; [exact J|split; assumption]|].
    pose proof (Ha (bi_key im (snd x))) as A. destruct (bi_alloc im (bi_key im (snd x))) as [got r]. cbn [snd] in A.
    unfold bind at 1. cbn [change]. set (d3 := if got then _ else _).
    assert (J3 : inv None (d3, b)).
    { destruct J as (J & Jb). split; [|exact Jb]. unfold d3. destruct got; [|exact J]. cbn [fst] in *. destruct J. constructor; cbn; try assumption.
      intros k c' j. unfold put_cache. destruct (k =? bi_key im (snd x)); [|apply fb_counts0]. intros E. injection E as <-. discriminate. }
    unfold bind at 1, lift. destruct r as [v|e|u]; [split; [exact J3|split; assumption]|exact J3|destruct (A u eq_refl)].
  Qed.

  Lemma fitb_none ok d : fitb ok d -> fitb None d.
  Proof. intros F. destruct F. constructor; auto. Qed.

  Lemma no_event_kept : kept None 0 (pt_blk_proceed_no_event im).
  Proof.
    intros s J HP. unfold pt_blk_proceed_no_event. pose proof (msec_lookup_safe 0 s J HP) as K.
    destruct (pt_blk_msec_lookup im s) as [s1 [[isid m]|e|u]].
    - destruct K as (J1 & HP1 & Hs). cbn [snd] in Hs. destruct s1 as [d b]. unfold bind at 1, blk. cbn [snd].
      destruct (negb _ && negb _); [split; assumption|]. unfold bind at 1. cbn [change_blk]. unfold bind at 1, state. cbn [fst].
      assert (J2 : inv None (d, b_set_isid b isid)) by exact J1. assert (HP2 : above 0 (d, b_set_isid b isid)) by exact HP1.
      destruct (bd_caches d (bi_key im m)) as [c|] eqn:Ec; [|exact (uncached_kept None 0 _ J2 HP2)].
      assert (J3 : inv (Some (bi_key im m)) (d, b_set_isid b isid)).
      { destruct J2 as (F & Fb). split; [|exact Fb]. cbn [fst] in *. destruct F. constructor; auto. rewrite Ec. discriminate. }
      pose proof (proceed_cached_kept 0 m Hs _ J3 HP2) as P.
      destruct (pt_blk_proceed_no_event_cached im m (d, b_set_isid b isid)) as [s' [v|e|u]]; [|destruct P as (P & Pb); split; [exact (fitb_none _ _ P)|exact Pb]|exact P].
      destruct P as ((P & Pb) & P2). split; [split; [exact (fitb_none _ _ P)|exact Pb]|exact P2].
    - destruct e; try exact K. apply (uncached_kept None 0); [exact K|]. unfold above. lia.
    - exact K.
  Qed.

  (** ** Trailing events *)

  Lemma bdm64_kept ok n ip ab : kept ok n (pt_blk_handle_erratum_bdm64 im ip ab).
  Proof.
    unfold pt_blk_handle_erratum_bdm64. destruct (negb ab); [apply kept_ret|]. apply kept_blk. intros b Hb. apply kept_state. intros d F.
    destruct (pt_blk_block_is_empty b); [apply kept_ret|].
    pose proof (decode_safe (bi_image im) held sec Ht (bd_asid d) _ (new_raw (b_end_ip b) (b_mode b) false)) as D.
    destruct (pt_insn_decode _ _ _) as [i [x|e|u]]; [|apply kept_ret|apply kept_lift; intros u' E; injection E as <-; exact D].
    destruct (negb _); [apply kept_ret|].
    match goal with |- context [pt_insn_range_is_contiguous ?f ?a ?b ?c ?m ?n] =>
      pose proof (fun u => contiguous_safe (bi_image im) held sec Ht a b c m n u) as U; destruct (pt_insn_range_is_contiguous f a b c m n) as [[]|e1|u] end.
    - apply kept_ret.
    - apply ip_kept.
    - apply ip_kept.
    - apply kept_lift. intros u' E. injection E as <-. exact (U u eq_refl).
  Qed.
  Hint Resolve bdm64_kept : blk.
  Lemma tsx_kept ok n g ev ip ab : kept ok n (pt_blk_postpone_trailing_tsx im g ev ip ab).
  Proof. unfold pt_blk_postpone_trailing_tsx. auk. Qed.
  Hint Resolve tsx_kept : blk.
  Lemma resume_kept ok n i : kept ok n (pt_blk_set_disable_resume_ip i).
  Proof. unfold pt_blk_set_disable_resume_ip. auk. Qed.
  Hint Resolve resume_kept : blk.

  Lemma disabled_kept ok n i x ip sup (none : M N) : kept ok n none -> kept ok n
    (if sup && pt_insn_changes_cr3 x then pending else
     match pt_insn_next_ip i x with
     | UB u => lift (UB u)
     | Err pte_bad_query => bind (pt_blk_set_disable_resume_ip i) (fun _ => pending)
     | Err e => fail e
     | Ok nip =>
         bind (change (fun d => bd_set_ip d nip)) (fun _ =>
         bind pt_blk_clear_postponed_insn (fun _ =>
         if negb sup && (nip =? ip) then pending else none))
     end).
  Proof.
    intros Hn. destruct (sup && pt_insn_changes_cr3 x); [auk|].
    pose proof (next_ip_ok i x) as U. destruct (pt_insn_next_ip i x) as [nip|e|u]; [auk|auk|destruct (U u eq_refl)].
  Qed.

  (** One round: it is enough that the round after it is safe, if there is one. *)
  Lemma round_safe ok n fuel given : safe ok
      (fun s => above n s /\ (fetched s \/ kept ok n (bind pt_blk_fetch_event (fun _ => trailing im fuel given))))
      (trailing im (Datatypes.S fuel) given) (fun _ => above n).
  Proof.
    intros s J (HP & Hr). cbn [trailing].
    match goal with |- context [bind state ?k s] => change (bind state k s) with (k (fst s) s) end. cbv beta.
    assert (None_ : kept ok n (bind pt_blk_proceed_postponed_insn (fun _ => indicate 0))) by auk.
    destruct (bd_status (fst s)) as [e|] eqn:Es.
    { apply (kept_at ok n); [auk|exact J|exact HP]. }
    destruct (bd_event (fst s)) as [ev|] eqn:Ee; [|apply (kept_at ok n); assumption].
    assert (Tn : forall bits size, ev_var ev = Ev_tnt bits size ->
       size <> 0 \/ kept ok n (bind pt_blk_fetch_event (fun _ => trailing im fuel given))).
    { intros bits size E. destruct Hr as [Hr|Hr]; [left|right; exact Hr]. specialize (Hr Es ev Ee). unfold tnt_full in Hr. rewrite E in Hr. exact Hr. }
    clear Hr. apply (kept_at ok n); [|exact J|exact HP]. cbv zeta.
    destruct (ev_var ev) as [| | | | | | | | | | | | | | | | | | | | |bits size| | | | | | | | | | | | |] eqn:Ev; try solve [auk].
    - destruct (bd_postponed (fst s)) as [[i x]|]; [|exact None_]. apply disabled_kept. exact None_.
    - apply kept_blk. intros b Hb. destruct (_ || _); [|auk].
      destruct (N.eqb_spec size 0) as [->|]; cbn [negb]; [|exact None_]. destruct (Tn bits 0 eq_refl) as [K|K]; [destruct (K eq_refl)|exact K].
  Qed.

  Lemma trailing_kept ok n given : kept ok n (pt_blk_proceed_trailing_event im given).
  Proof.
    unfold pt_blk_proceed_trailing_event. intros s J HP. apply (round_safe ok n 2 given s J). split; [exact HP|right].
    eapply safe_bind; [apply fetch_safe|]. intros _ s' J' (HP' & F'). apply (round_safe ok n 1 given s' J'). split; [exact HP'|left; exact F'].
  Qed.
  Hint Resolve trailing_kept : blk.

  Definition goodb {A} (r : dec * res A) : Prop :=
    match r with
    | (_, UB u) => stopped (bi_image im) u
    | (d, _) => fitb None d
    end.
  Lemma inv_new d ip m sp : fitb None d -> inv None (d, new_block ip m sp).
  Proof. intros F. split; [exact F|]. reflexivity. Qed.
  Lemma run_kept {A} (m : M A) d ip md sp : kept None 0 m -> fitb None d ->
    goodb (let '(d, _, r) := m (d, new_block ip md sp) in (d, r)).
  Proof.
    intros K F. specialize (K (d, new_block ip md sp) (inv_new _ _ _ _ F)). specialize (K ltac:(unfold above; cbn; lia)).
    destruct (m (d, new_block ip md sp)) as [[d' b'] [a|e|u]]; [apply K|apply K|exact K].
  Qed.

  (** ** Synchronising *)

  Lemma reset_fit d : fitb None d -> fitb None (pt_blk_reset d).
  Proof. intros F. destruct F. constructor; cbn; try assumption; [discriminate|apply rs_init_ok; assumption]. Qed.

  Lemma start_safe d : bd_event d = None -> fitb None d -> tracked (bd_evdec d) -> goodb (pt_blk_start im d).
  Proof.
    intros He F T. unfold pt_blk_start. pose proof (fb_reach _ _ F) as R.
    pose proof (reachable_ok cf buf sized freq small bytes base _ R) as K.
    destruct T as (evs & err & Hs & Hf).
    assert (Hb : pd_buf (ed_pd (bd_evdec d)) = buf) by (destruct K as ((_ & B & _) & _); exact B).
    pose proof (left_bound cf buf freq small _ K) as Hlb. rewrite Hb.
    assert (Hlt : (left_ buf (bd_evdec d) < 18 * (3 + length buf))%nat) by (clear - Hlb; lia).
    pose proof (start_loop_found cf buf sized freq small (evt_pos (bd_evdec d)) _ _ _ _ K Hlt Hs) as Hfound.
    destruct (start_loop _ _ _) as [ip|e|u]; [|exact F|destruct Hfound]. clear Hfound.
    set (d1 := match ip with Some a => _ | None => _ end).
    assert (F1 : fitb None d1) by (unfold d1; destruct ip; fitd).
    destruct (pt_evt_next (bd_evdec d)) as [q [ev|e|u]] eqn:En.
    - apply run_kept; [apply trailing_kept|].
      assert (Rq : Reach q) by (eapply next_reach; eauto).
      destruct (tracked_next _ _ _ (ex_intro _ evs (ex_intro _ err (conj Hs Hf))) En) as (_ & T).
      destruct F1. constructor; cbn; try assumption. intros _. exact T.
    - apply run_kept; [apply trailing_kept|]. assert (Rq : Reach q) by (eapply next_reach; eauto).
      destruct F1. constructor; cbn; try assumption. discriminate.
    - destruct (next_no_ub _ _ _ R En).
  Qed.

  Lemma set_evdec_fit d q : fitb None d -> bd_status d <> None -> Reach q -> fitb None (bd_set_evdec d q).
  Proof. intros F Hs R. destruct F. constructor; cbn; try assumption. intros E. destruct (Hs E). Qed.

  Lemma blk_sync_safe f o d : fitb None d ->
    (forall q, evt_step base q o = (fst (f q), let* _ := snd (f q) in Ok None)) ->
    (forall n, o <> Evt_sync_backward n) -> goodb (blk_sync im f d).
  Proof.
    intros F Hf Hn. unfold blk_sync. pose proof (reset_fit d F) as F1. cbn [pt_blk_reset bd_evdec].
    destruct (f (bd_evdec d)) as [q r] eqn:E.
    pose proof (evt_step_sync cf buf sized freq small bytes base f _ q r o (fb_reach _ _ F) E Hf) as K. destruct r as [[]|e|u].
    - destruct K as (R & q0 & o0 & R0 & E0). apply start_safe; [reflexivity|apply set_evdec_fit; [exact F1|discriminate|exact R]|].
      exact (sync_tracked q0 o0 q R0 E0).
    - apply set_evdec_fit; [exact F1|discriminate|exact K].
    - destruct K as (_ & n & ->). destruct (Hn n eq_refl).
  Qed.

  Lemma blk_backward_safe : forall fuel start sync d, fitb None d ->
    match blk_backward im fuel base start sync d with
    | (_, UB u) => stopped (bi_image im) u \/ u = ub_fuel
    | (d', _) => fitb None d'
    end.
  Proof.
    induction fuel as [|fuel IH]; intros start sync d F; [right; reflexivity|]. cbn [blk_backward].
    pose proof (reset_fit d F) as F1. pose proof (inner_rel cf buf sized freq small bytes base (Datatypes.S fuel) sync _ (fb_reach _ _ F1)) as K.
    destruct (qry_backward_inner (Datatypes.S fuel) base sync (bd_evdec (pt_blk_reset d))) as [q [[]|e|u]].
    - destruct K as (R & q0 & o0 & R0 & E0).
      assert (G : goodb (pt_blk_start im (bd_set_evdec (pt_blk_reset d) q))).
      { apply start_safe; [reflexivity|apply set_evdec_fit; [exact F1|discriminate|exact R]|]. exact (sync_tracked q0 o0 q R0 E0). }
      destruct (pt_blk_start im (bd_set_evdec (pt_blk_reset d) q)) as [d' [v|e|u]]; cbn [goodb] in G.
      + destruct (Nat.ltb _ _); [exact G|apply IH; exact G].
      + destruct e; try exact G. apply IH. exact G.
      + left. exact G.
    - apply set_evdec_fit; [exact F1|discriminate|exact K].
    - right. exact K.
  Qed.

  (** ** The calls *)

  Lemma proceed_kept : kept None 0 (pt_blk_proceed im).
  Proof. pose proof no_event_kept as K. unfold pt_blk_proceed. auk. Qed.

  Lemma new_asid_kept n a : kept None n (new_asid im a).
  Proof.
    unfold new_asid. apply kept_state. intros d F. pose proof (tm_invalidate _ held sec Ht (bd_scache d) (fb_held _ _ F)) as H.
    destruct (im_invalidate (bi_image im) (bd_scache d)) as [c r]. destruct H as (H1 & H2).
    apply kept_bind; [apply kept_change; intros d' F'; destruct F'; constructor; cbn; assumption|intros _].
    apply kept_bind; [apply kept_lift; intros u E; destruct (H2 u E)|intros _]. auk.
  Qed.
  Hint Resolve new_asid_kept : blk.
  Lemma process_kept ev : kept None 0 (process im ev).
  Proof.
    unfold process, pt_blk_process_enabled, pt_blk_process_disabled, pt_blk_process_async_branch, pt_blk_process_paging, pt_blk_process_vmcs,
      pt_blk_process_overflow, pt_blk_process_exec_mode, pt_blk_process_stop. cbv zeta. auk.
    destruct (ev_ip_suppressed ev); fitd.
  Qed.

  Lemma blk_next_safe d : fitb None d -> goodb (blk_call im base d B_next).
  Proof. intros F. cbn [blk_call]. unfold pt_blk_next. apply run_kept; [apply proceed_kept|exact F]. Qed.

  Lemma run_given {A} (m : M A) (g : option event) d ip md sp : kept None 0 m -> fitb None d ->
    goodb (let '(d, _, r) := (let '(d, _, r) := m (d, new_block ip md sp) in (d, g, r)) in (d, r)).
  Proof.
    intros K F. pose proof (run_kept m d ip md sp K F) as G. destruct (m (d, new_block ip md sp)) as [[d' b'] r]. exact G.
  Qed.

  Lemma blk_event_safe d : fitb None d -> goodb (blk_call im base d B_event).
  Proof.
    intros F. cbn [blk_call]. unfold pt_blk_event. cbv zeta. destruct (bd_status d) as [e|] eqn:Es; [exact F|].
    destruct (bd_event d) as [ev|] eqn:Ee.
    2:{ unfold without_block. pose proof (run_kept (bind pt_blk_fetch_event (fun _ => ret 0)) d 0 ptem_unknown false ltac:(auk) F) as G.
        destruct (bind pt_blk_fetch_event (fun _ => ret 0) (d, new_block 0 ptem_unknown false)) as [[d' b'] r]. exact G. }
    assert (P : goodb (let '(d', _, r) :=
        match process im ev (d, new_block 0 ptem_unknown false) with
        | (d, _, Err e) => (d, None, Err e)
        | (d, _, UB u) => (d, None, UB u)
        | (d, _, Ok ev) => let '(d, _, r) := bind pt_blk_fetch_event (fun _ => pt_blk_proceed_trailing_event im false) (d, new_block 0 ptem_unknown false) in (d, Some ev, r)
        end in (d', r))).
    { pose proof (process_kept ev (d, new_block 0 ptem_unknown false) (inv_new _ _ _ _ F) ltac:(unfold above; cbn; lia)) as K.
      destruct (process im ev (d, new_block 0 ptem_unknown false)) as [[d1 b1] [ev1|e|u]]; [|apply K|exact K].
      apply run_given; [auk|]. apply K. }
    destruct (ev_var ev); try exact P. destruct (_ || _); [exact F|]. apply run_given; [auk|]. fitd.
  Qed.

  Lemma blk_call_safe d c : fitb None d ->
    match blk_call im base d c with
    | (_, UB u) => stopped (bi_image im) u \/ (u = ub_fuel /\ exists n, c = B_sync_backward n)
    | (d', _) => fitb None d'
    end.
  Proof.
    intros F. assert (G : forall r : dec * res N, goodb r -> match r with
        | (_, UB u) => stopped (bi_image im) u \/ (u = ub_fuel /\ exists n, c = B_sync_backward n)
        | (d', _) => fitb None d' end).
    { intros [d' [v|e|u]]; cbn [goodb]; auto. }
    destruct c as [|n|off| |].
    - apply G. apply (blk_sync_safe _ Evt_sync_forward); [exact F|reflexivity|discriminate].
    - cbn [blk_call]. unfold pt_blk_sync_backward.
      match goal with |- context [blk_backward im n base ?a ?b d] => pose proof (blk_backward_safe n a b d F) as K; destruct (blk_backward im n base a b d) as [d' [v|e|u]] end;
        [exact K|exact K|]. destruct K as [K|K]; [left; exact K|right]. split; [exact K|eauto].
    - apply G. apply (blk_sync_safe _ (Evt_sync_set off)); [exact F|reflexivity|discriminate].
    - apply G, blk_next_safe, F.
    - apply G, blk_event_safe, F.
  Qed.
End BLOCK.
