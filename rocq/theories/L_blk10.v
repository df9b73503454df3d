(** A condition on the trace under which the block decoder does not go wrong. *)

From Coq Require Import List NArith ZArith Bool PeanoNat Lia.
From Verif Require Import Base M_event M_asid M_ildtab M_ild M_insn M_query M_insndec M_blk S_x86 S_insn S_query
  S_evtrace S_flow S_drive S_blk L_insn T_insn.
Import ListNotations.
Open Scope N_scope.

(** A flow of which we know no more than if and where it is. *)
Definition probe (on : bool) (ip : N) : flow := mk_flow on ip ptem_unknown pt_asid_init false [] None.
(** The event can happen whenever tracing is off. *)
Definition off_ok (e : event) : bool :=
  match ev_var e with
  | Ev_disabled _ => ev_status_update e
  | Ev_async_disabled _ _ | Ev_async_branch _ _ | Ev_tip _ | Ev_tnt _ _ => false
  | Ev_tsx _ _ _ | Ev_async_paging _ _ _ | Ev_async_vmcs _ _ | Ev_trig _ _ _ _ => ev_ip_suppressed e
  | _ => true
  end.
(** The event is caused by no conditional branch and no near return. *)
Definition cause_ok (e : event) : bool :=
  match ev_var e with
  | Ev_ptwrite _ _ _ | Ev_iret _ | Ev_vmentry _ => ev_ip_suppressed e
  | Ev_uiret _ => false
  | _ => true
  end.
Definition mode_ok (m : exec_mode) (e : event) : bool :=
  match ev_var e with Ev_exec_mode m' _ => exec_mode_eqb m' m | _ => true end.
(** If tracing is on after the event. *)
Definition on_after (on : bool) (e : event) : bool :=
  match ev_var e with
  | Ev_enabled _ _ => true
  | Ev_disabled _ | Ev_async_disabled _ _ => false
  | Ev_overflow _ => negb (ev_ip_suppressed e)
  | _ => on
  end.
(** Where we are after an event, as long as the mode is not known. *)
Definition at_after (k : option N) (e : event) : option N :=
  match k with
  | None => None
  | Some a =>
      match ev_var e with
      | Ev_exec_mode _ _ => None
      | Ev_enabled ip _ => Some (if ev_status_update e then a else ip)
      | Ev_overflow ip => Some (if ev_ip_suppressed e then 0 else ip)
      | Ev_async_branch _ to => Some to
      | _ => Some a
      end
  end.
(** The execution mode is [m] from the first instruction to the last, no event needs an
    address while tracing is off, and no event comes with the address of an instruction that
    cannot cause it.  [k]: the address as long as the mode is not known. *)
Fixpoint tidy (m : exec_mode) (on : bool) (k : option N) (fs : list fact) : bool :=
  match fs with
  | [] => negb on || match k with None => true | Some _ => false end
  | F_event e :: fs =>
      (match k with Some a => here (probe on a) e | None => on || off_ok e end) &&
      mode_ok m e && (negb on || cause_ok e) && tidy m (on_after on e) (at_after k e) fs
  | _ :: fs => (negb on || match k with None => true | Some _ => false end) && tidy m on k fs
  end.

Lemma here_probe f e : here f e = here (probe (f_on f) (f_ip f)) e.
Proof. reflexivity. Qed.
Lemma off_here f e : f_on f = false -> off_ok e = true -> here f e = true.
Proof.
  intros Of. unfold off_ok, here, located. rewrite Of. destruct (ev_var e); cbn [negb orb andb]; auto; try discriminate.
  all: intros ->; reflexivity.
Qed.
Lemma effect_on f e f' : effect f e = Some f' -> f_on f' = on_after (f_on f) e.
Proof.
  unfold effect, on_after. destruct (ev_var e), (ev_status_update e), (ev_ip_suppressed e), (f_on f) eqn:On; cbn [andb orb negb];
    try discriminate; intros H; repeat match type of H with
      | match f_mode f with _ => _ end = _ => destruct (f_mode f)
      | (if ?c then _ else _) = _ => destruct c
      end; try discriminate H; injection H as <-; auto.
Qed.
Lemma effect_cur f e f' : effect f e = Some f' -> f_cur f' = f_cur f.
Proof.
  unfold effect. destruct (ev_var e), (ev_status_update e), (ev_ip_suppressed e), (f_on f) eqn:On; cbn [andb orb negb];
    try discriminate; intros H; repeat match type of H with
      | match f_mode f with _ => _ end = _ => destruct (f_mode f)
      | (if ?c then _ else _) = _ => destruct c
      end; try discriminate H; injection H as <-; auto.
Qed.
Lemma effect_at f e f' a : effect f e = Some f' -> f_ip f = a ->
  match at_after (Some a) e with
  | Some a' => f_ip f' = a'
  | None => exists m ip, ev_var e = Ev_exec_mode m ip /\ f_mode f' = m
  end.
Proof.
  unfold effect, at_after. destruct (ev_var e), (ev_status_update e), (ev_ip_suppressed e), (f_on f) eqn:On; cbn [andb orb negb];
    try discriminate; intros H <-; repeat match type of H with
      | match f_mode f with _ => _ end = _ => destruct (f_mode f)
      | (if ?c then _ else _) = _ => destruct c
      end; try discriminate H; injection H as <-; eauto.
Qed.
Lemma effect_mode f e f' m : effect f e = Some f' -> mode_ok m e = true -> f_mode f = m -> f_mode f' = m.
Proof.
  unfold effect, mode_ok. destruct (ev_var e), (ev_status_update e), (ev_ip_suppressed e), (f_on f) eqn:On; cbn [andb orb negb];
    try discriminate; intros H M E; rewrite ?E in H; repeat match type of H with
      | match m with _ => _ end = _ => destruct m
      | (if ?c then _ else _) = _ => destruct c
      end; try discriminate H; injection H as <-; auto; cbn; destruct mode; try discriminate M; auto; destruct m; try discriminate M; auto.
Qed.

(** Which instructions cause events. *)
Lemma cause_class f t e : cause_ok e = true -> causes (site_of f t) e = true ->
  si_class (site_of f t) <> ptic_cond_jump /\ si_class (site_of f t) <> ptic_return.
Proof.
  unfold cause_ok, causes, site_of. cbn [si_class si_ext si_ip]. unfold meaning.
  pose proof (classify_in (f_mode f) t) as H. destruct (classify (f_mode f) t) as [[c k] d]. cbn [fst snd x_inst] in *.
  intros C X. destruct (ev_var e); try discriminate; try rewrite C in X.
  all: repeat (destruct H as [H|H]; [injection H as <- <- <-; cbn in X; try discriminate X; split; discriminate|]); destruct H.
Qed.

Section TIDY.
  Context (mem : asid -> memory) (content : N -> N -> option N) (at_ : asid -> N -> option place).
  Context (mode_of : N -> exec_mode) (err : pte) (m : exec_mode).
  Hypothesis known : m <> ptem_unknown.
  (** All code is for the mode [m]. *)
  Hypothesis one_mode : forall a ip p, at_ a ip = Some p -> mode_of (pl_key p) = m.
  (** Sections are not cut off. *)
  Hypothesis whole : forall a ip p, at_ a ip = Some p -> content (pl_key p) (pl_off p + pl_left p) = None.

  Definition coming (s : fstate) : list fact :=
    match fs_held s with Some e => F_event e :: fs_facts s | None => fs_facts s end.
  Definition tidy_state (s : fstate) : Prop := exists k,
    tidy m (f_on (fs_flow s)) k (coming s) = true /\
    match k with Some a => f_ip (fs_flow s) = a /\ f_cur (fs_flow s) = None | None => f_mode (fs_flow s) = m end /\
    match f_cur (fs_flow s) with
    | Some (si, ks) => exists f0 t, si = site_of f0 t /\
        (ks <> [] -> si_class si <> ptic_cond_jump /\ si_class si <> ptic_return)
    | None => True
    end.

  Lemma tidy_exec s k : tidy m (f_on (fs_flow s)) k (coming s) = true ->
    match k with Some a => f_ip (fs_flow s) = a /\ f_cur (fs_flow s) = None | None => f_mode (fs_flow s) = m end ->
    executing err s -> k = None.
  Proof.
    intros T K (On & _ & Q). destruct k as [a|]; [exfalso|reflexivity]. destruct K as (K & _).
    destruct s as [f [e|] fs]; unfold coming in T; cbn [fs_flow fs_held fs_facts] in *; unfold quiet in Q; rewrite On in T.
    - cbn [tidy] in T. repeat (apply andb_true_iff in T; destruct T as (T & _)). rewrite here_probe, On, K in Q. auto.
    - destruct fs as [|[b|o|e] fs]; cbn in T; try discriminate. exact Q.
  Qed.

  Lemma tidy_bits on bits : forall fs, tidy m on None (map F_bit bits ++ fs) = tidy m on None fs.
  Proof.
    induction bits as [|b bits IH]; intros fs; [reflexivity|]. cbn [map app tidy]. rewrite IH, orb_true_r. reflexivity.
  Qed.
  Lemma tidy_take on fs a fs' : takes fs a fs' -> tidy m on None fs = true -> tidy m on None fs' = true.
  Proof.
    intros (bits & post & -> & ->). rewrite !tidy_bits. cbn [tidy]. intros H. apply andb_true_iff in H. apply H.
  Qed.
  Lemma tidy_complete si l fs ip l' fs' on : completes si l fs ip l' fs' ->
    tidy m on None fs = true -> tidy m on None fs' = true.
  Proof.
    destruct 1; auto; try (cbn [tidy]; intros T; apply andb_true_iff in T; apply T).
    apply (tidy_take on _ _ _ H0).
  Qed.

  Lemma tidy_step s o s' : bstep mem err s o s' -> tidy_state s -> tidy_state s'.
  Proof.
    intros H (k & T & K & Cu). destruct H; unfold tidy_state, coming in *; cbn [fs_flow fs_held fs_facts] in *.
    - exists k. auto.
    - pose proof (tidy_exec (mk_fstate f h fs) k T K H) as ->. exists None. split; [exact T|]. split; [exact K|].
      cbn. exists f, t. split; [reflexivity|congruence].
    - rewrite H0 in Cu. destruct Cu as (f0 & t & -> & _). destruct k as [a|]; [destruct K; congruence|].
      cbn [tidy] in T. rewrite H in T. apply andb_true_iff in T. destruct T as (T & T1). apply andb_true_iff in T. destruct T as (T & T2).
      apply andb_true_iff in T. destruct T as (_ & T3). exists None.
      split; [cbn [f_on at_site]; rewrite (effect_on _ _ _ H4), H; exact T1|].
      split; [exact (effect_mode _ _ _ _ H4 T3 K)|].
      cbn. exists f0, t. split; [reflexivity|]. intros _. apply (cause_class f0 t e T2).
      unfold also_causes in H3. apply andb_true_iff in H3. apply H3.
    - destruct k as [a|]; [destruct K; congruence|].
      cbn [tidy] in T. apply andb_true_iff in T. destruct T as (_ & T1). exists None. split; [|split; [exact K|exact I]].
      unfold ends in H1. cbn. unfold on_after in T1. destruct (ev_var e); try discriminate H1. exact T1.
    - destruct k as [a|]; [destruct K; congruence|]. exists None. split; [|split; [exact K|exact I]]. cbn [f_on at_site go calls].
      destruct h as [e|]; [|eapply tidy_complete; eassumption].
      cbn [tidy] in *. apply andb_true_iff in T. destruct T as (T & T1). rewrite T. cbn [at_after] in *.
      eapply tidy_complete; eassumption.
    - exists (at_after k e). cbn [tidy] in T. apply andb_true_iff in T. destruct T as (T & T1). apply andb_true_iff in T. destruct T as (T & _).
      apply andb_true_iff in T. destruct T as (_ & T3). rewrite (effect_on _ _ _ H1). split; [exact T1|].
      rewrite (effect_cur _ _ _ H1), H. split; [|exact I]. destruct k as [a|].
      + pose proof (effect_at _ _ _ a H1 (proj1 K)) as E. destruct (at_after (Some a) e); [auto|].
        destruct E as (m' & ip & E1 & E2). unfold mode_ok in T3. rewrite E1 in T3. rewrite E2.
        destruct m', m; try discriminate T3; reflexivity.
      + exact (effect_mode _ _ _ _ H1 T3 K).
  Qed.

  Lemma tidy_flow s os s' : bflows mem err s os s' -> tidy_state s -> tidy_state s'.
  Proof. induction 1; [auto|]. intros T. apply IHbflows. eapply tidy_step; eassumption. Qed.

  Lemma tidy_strange s : tidy_state s -> ~ strange content at_ mode_of err s.
  Proof.
    intros (k & T & K & Cu) X. destruct X.
    - rewrite (tidy_exec _ _ T K H) in K. congruence.
    - rewrite (tidy_exec _ _ T K H) in K. rewrite (one_mode _ _ _ H0) in H1. congruence.
    - destruct H1 as (_ & _ & H1). specialize (H1 (N.to_nat (pl_left p))).
      destruct (nth_error (render t) (N.to_nat (pl_left p))) as [b|] eqn:E.
      + specialize (H1 b eq_refl). rewrite N2Nat.id, (whole _ _ _ H0) in H1. discriminate H1.
      + apply nth_error_None in E. clear - E H2. lia.
    - rewrite H in Cu. destruct Cu as (_ & _ & _ & Cu). destruct Cu as (C1 & C2); [discriminate|]. destruct H2; auto.
    - destruct s as [f h fs]. unfold coming in T. cbn [fs_flow fs_held fs_facts] in *. subst h. rewrite H in T. cbn [tidy] in T.
      apply andb_true_iff in T. destruct T as (T & _). apply andb_true_iff in T. destruct T as (T & _).
      apply andb_true_iff in T. destruct T as (T & _). destruct k as [a|].
      + rewrite here_probe, H, (proj1 K) in H1. congruence.
      + rewrite (off_here f e H T) in H1. discriminate.
  Qed.

  Lemma tidy_sane ip fs :
    tidy m (match ip with Some _ => true | None => false end) (Some match ip with Some a => a | None => 0 end) fs = true ->
    sane mem content at_ mode_of err (mk_fstate (flow0 ip) None fs).
  Proof.
    intros T os s' F. apply tidy_strange. apply (tidy_flow _ _ _ F). eexists. split; [exact T|]. cbn. auto.
  Qed.
End TIDY.
