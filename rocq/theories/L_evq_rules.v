(** Partial correctness of the event decoder's steps: rules that keep a property of all
    queued events. *)

From Verif Require Import Base M_packet M_config M_pktdec M_lastip M_time
  M_evq M_event M_evdec S_evq S_evtrace L_evq L_evqpos L_evdec.
From Coq Require Import List NArith ZArith PeanoNat Bool Lia ZifyBool ZifyNat ZifyN.
Import ListNotations.
Open Scope nat_scope.
Ltac Zify.zify_post_hook ::= Z.div_mod_to_equations.

(** Like [wp], but nothing is said about undefined behaviour. *)
Definition pwp {A} (m : ST A) (Q : A -> evdec -> Prop) (F : pte -> evdec -> Prop)
           (d : evdec) : Prop :=
  match m d with
  | (d', Ok a) => Q a d'
  | (d', Err e) => F e d'
  | (_, UB _) => True
  end.

Lemma wp_pwp {A} (m : ST A) Q F d : wp m Q F d -> pwp m Q F d.
Proof. unfold wp, pwp. destruct (m d) as [d' [a|e|u]]; auto. Qed.

Lemma wp_both {A} (m : ST A) Q F Q' F' d : wp m Q F d -> pwp m Q' F' d ->
  wp m (fun a d' => Q a d' /\ Q' a d') (fun e d' => F e d' /\ F' e d') d.
Proof. unfold wp, pwp. destruct (m d) as [d' [a|e|u]]; auto. Qed.

Lemma p_mono {A} (m : ST A) (Q Q' : A -> evdec -> Prop) (F F' : pte -> evdec -> Prop) d :
  pwp m Q F d -> (forall a d', Q a d' -> Q' a d') -> (forall e d', F e d' -> F' e d') ->
  pwp m Q' F' d.
Proof. unfold pwp. destruct (m d) as [d' [a|e|u]]; auto. Qed.

Lemma p_bind {A B} (m : ST A) (k : A -> ST B) Q F d :
  pwp m (fun a d' => pwp (k a) Q F d') F d -> pwp (sbind m k) Q F d.
Proof. unfold pwp, sbind. destruct (m d) as [d' [a|e|u]]; auto. Qed.

Lemma p_ret {A} (a : A) (Q : A -> evdec -> Prop) F d : Q a d -> pwp (ret a) Q F d.
Proof. exact (fun H => H). Qed.
Lemma p_fail {A} e (Q : A -> evdec -> Prop) (F : pte -> evdec -> Prop) d : F e d -> pwp (fail e) Q F d.
Proof. exact (fun H => H). Qed.
Lemma p_get (Q : evdec -> evdec -> Prop) F d : Q d d -> pwp get Q F d.
Proof. exact (fun H => H). Qed.
Lemma p_modify f (Q : unit -> evdec -> Prop) F d : Q tt (f d) -> pwp (modify f) Q F d.
Proof. exact (fun H => H). Qed.
Lemma p_publish p (Q : unit -> evdec -> Prop) F d : Q tt (set_event d p) -> pwp (publish p) Q F d.
Proof. exact (fun H => H). Qed.
Lemma p_standalone e (Q : unit -> evdec -> Prop) F d :
  Q tt (set_event (set_alone d e) (Some Alone)) -> pwp (standalone e) Q F d.
Proof. exact (fun H => H). Qed.
Lemma p_jump pd p t l (Q : unit -> evdec -> Prop) F d :
  Q tt (set_tcal (set_time (set_pkt (set_pd d pd) p) t) l) -> pwp (jump pd p t l) Q F d.
Proof. exact (fun H => H). Qed.
Lemma p_read_alone d (Q : event -> evdec -> Prop) F :
  Q (ed_alone d) d -> pwp (read_event Alone) Q F d.
Proof. exact (fun H => H). Qed.
Lemma p_write_alone d e (Q : unit -> evdec -> Prop) F :
  Q tt (set_alone d e) -> pwp (write_event Alone e) Q F d.
Proof. exact (fun H => H). Qed.
Lemma p_lift {A} (r : res A) (Q : A -> evdec -> Prop) (F : pte -> evdec -> Prop) d :
  (forall a, r = Ok a -> Q a d) -> (forall e, r = Err e -> F e d) -> pwp (lift r) Q F d.
Proof. unfold pwp, lift. intros H2 H3. destruct r as [a|e|u]; auto. Qed.
Lemma p_timing f (Q : unit -> evdec -> Prop) (F : pte -> evdec -> Prop) d :
  (forall t l, f (ed_config d) (ed_time d) (ed_tcal d) = (t, l, Ok tt) ->
     Q tt (set_tcal (set_time d t) l)) ->
  (forall t l e, f (ed_config d) (ed_time d) (ed_tcal d) = (t, l, Err e) ->
     F e (set_tcal (set_time d t) l)) ->
  pwp (timing f) Q F d.
Proof.
  unfold pwp, timing. intros H1 H2. destruct (f _ _ _) as [[t l] [[]|e|u]] eqn:E; auto.
Qed.
Lemma p_update_ip ip (Q : unit -> evdec -> Prop) (F : pte -> evdec -> Prop) d :
  Q tt (set_lip d (fst (pt_last_ip_update_ip (ed_ip d) ip))) ->
  (forall l, F pte_bad_packet (set_lip d l)) -> pwp (update_ip ip) Q F d.
Proof.
  unfold pwp, update_ip. intros H1 H2.
  assert (He : forall e, snd (pt_last_ip_update_ip (ed_ip d) ip) = Err e -> e = pte_bad_packet).
  { unfold pt_last_ip_update_ip. intros e.
    repeat match goal with |- context [if ?b then _ else _] => destruct b end; cbn [snd]; congruence. }
  destruct (pt_last_ip_update_ip (ed_ip d) ip) as [l [[]|e|u]]; auto.
  rewrite (He e eq_refl). apply H2.
Qed.

Lemma next_err pd pd' e : pt_pkt_next pd = (pd', Err e) -> pd' = pd.
Proof.
  unfold pt_pkt_next. destruct (pd_pos pd); [|congruence]. destruct (pt_pkt_decode _ _ _); congruence.
Qed.

Lemma fetch_loop_reads fuel : forall pd,
  match fetch_loop fuel pd with
  | (pd', Ok p) => exists pads, reads pd (pads ++ [p]) pd' /\ Forall is_pad pads /\ ~ is_pad p
  | (pd', Err e) => exists pads, reads pd pads pd' /\ Forall is_pad pads /\
                      pt_pkt_next pd' = (pd', Err e)
  | (_, UB _) => True
  end.
Proof.
  induction fuel as [|fuel IH]; intros pd; [exact I|]. cbn [fetch_loop].
  destruct (pt_pkt_next pd) as [pd' [p|e|u]] eqn:En; [| |exact I].
  - assert (Hstop : ~ is_pad p -> exists pads, reads pd (pads ++ [p]) pd' /\ Forall is_pad pads /\
                        ~ is_pad p).
    { intros Hp. exists []. cbn. split; [econstructor; [exact En|constructor]|auto]. }
    destruct (pkt_pl p) eqn:Epl;
      try (apply Hstop; unfold is_pad; rewrite Epl; discriminate).
    specialize (IH pd'). destruct (fetch_loop fuel pd') as [pd2 [p2|e|u]]; [| |exact I].
    + destruct IH as (pads & G1 & G2 & G3). exists (p :: pads).
      split; [cbn; econstructor; eauto|]. split; auto.
    + destruct IH as (pads & G1 & G2 & G3). exists (p :: pads).
      split; [econstructor; eauto|]. auto.
  - pose proof (next_err _ _ _ En). subst pd'. exists [].
    split; [constructor|]. split; [constructor|exact En].
Qed.

Lemma p_fetch d (Q : bool -> evdec -> Prop) F :
  (forall pads p pd', reads (ed_pd d) (pads ++ [p]) pd' -> Forall is_pad pads -> ~ is_pad p ->
     Q false (set_pkt (set_pd d pd') p)) ->
  (forall pads e pd', reads (ed_pd d) pads pd' -> Forall is_pad pads ->
     pt_pkt_next pd' = (pd', Err e) ->
     Q false (set_status (set_pkt (set_pd d pd') (mk_packet P_invalid 0)) (Some e))) ->
  pwp pt_evt_fetch_packet Q F d.
Proof.
  intros H1 H2. unfold pwp, pt_evt_fetch_packet.
  pose proof (fetch_loop_reads (scan_fuel (ed_pd d)) (ed_pd d)) as H.
  destruct (fetch_loop _ _) as [pd' [p|e|u]]; [| |exact I].
  - destruct H as (pads & G1 & G2 & G3). eapply H1; eauto.
  - destruct H as (pads & G1 & G2 & G3). eapply H2; eauto.
Qed.

Lemma scan_partial {S R} (step : S -> pktdec -> packet -> S + res R) on_err
      (Inv : S -> pktdec -> Prop) (Post : res R -> Prop) :
  (forall s pd pd' p, Inv s pd -> pt_pkt_next pd = (pd', Ok p) ->
     match step s pd' p with inl s' => Inv s' pd' | inr r => Post r end) ->
  (forall s pd e, Inv s pd -> Post (on_err e)) -> (forall u, Post (UB u)) ->
  forall fuel s pd, Inv s pd -> Post (scan_packets fuel step on_err pd s).
Proof.
  intros Hstep Herr Hub. induction fuel as [|fuel IH]; intros s pd HI; [apply Hub|].
  cbn [scan_packets]. destruct (pt_pkt_next pd) as [pd' [p|e|u]] eqn:En; [|eapply Herr; eauto|apply Hub].
  specialize (Hstep s pd pd' p HI En). destruct (step s pd' p) as [s'|r]; [|exact Hstep].
  apply IH. exact Hstep.
Qed.

Section QUEUE.
  Context (P : N -> event -> Prop).

  (** All queued events have the property, given their binding. *)
  Definition queued (q : evq event) : Prop :=
    exists l, qrep q l /\ Forall (fun x : N * event => P (fst x) (snd x)) l.
  (** ... and [e] is queued at place [i] with the binding [b]. *)
  Definition inq (q : evq event) (i : nat) (b : N) (e : event) : Prop :=
    exists l k, qrep q l /\ Forall (fun x : N * event => P (fst x) (snd x)) l /\
      nth_error l k = Some (b, e) /\ i = slot_of q k.

  Lemma inq_queued q i b e : inq q i b e -> queued q.
  Proof. intros (l & k & H1 & H2 & _). exists l. auto. Qed.
  Lemma inq_P q i b e : inq q i b e -> P b e.
  Proof.
    intros (l & k & H1 & H2 & H3 & _). rewrite Forall_forall in H2.
    apply (H2 (b, e)). apply (nth_error_In _ _ H3).
  Qed.
  Lemma queued_init : queued (pt_evq_init zero_event).
  Proof. exists []. split; [apply qrep_init|constructor]. Qed.
  Lemma inq_at q i b e : inq q i b e -> evq_at q i = Some e.
  Proof. intros (l & k & H1 & H2 & H3 & ->). apply (qrep_at _ _ _ _ _ H1 H3). Qed.

  Lemma find_inq q b ty i : queued q -> pt_evq_find q b ty = Some i ->
    exists b' e, inq q i b' e /\ N.land b' b <> 0%N /\ ty e = true.
  Proof.
    intros (l & H1 & H2) E. rewrite (qrep_find _ _ _ _ H1) in E.
    destruct (find_pos _ l) as [k|] eqn:Ek; [|discriminate]. injection E as <-.
    destruct (find_pos_some _ _ _ Ek) as ([b' e] & H3 & H4). exists b', e. split.
    - exists l, k. auto.
    - apply andb_true_iff in H4. unfold bound in H4. cbn [fst snd] in H4.
      split; [lia|apply H4].
  Qed.
  Lemma peek_inq q b i : queued q -> pt_evq_peek q b = Some i ->
    exists b' e, inq q i b' e /\ N.land b' b <> 0%N.
  Proof.
    intros (l & H1 & H2) E. rewrite (qrep_peek _ _ _ H1) in E.
    destruct (find_pos _ l) as [k|] eqn:Ek; [|discriminate]. injection E as <-.
    destruct (find_pos_some _ _ _ Ek) as ([b' e] & H3 & H4). exists b', e.
    split; [exists l, k; auto|]. unfold bound in H4. cbn [fst] in H4. lia.
  Qed.

  Lemma slot_begin_eq (q q' : evq event) k : evq_begin q' = evq_begin q -> slot_of q' k = slot_of q k.
  Proof. unfold slot_of. intros ->. reflexivity. Qed.

  (** A queue that grew by an event. *)
  Definition grown (q q' : evq event) : Prop :=
    queued q' /\ (forall i x, held q i x -> held q' i x) /\
    (forall i b x, inq q i b x -> inq q' i b x).

  Lemma grown_enq q b e q' : P b e -> queued q -> pt_evq_enqueue q b e = Some q' ->
    grown q q' /\ inq q' (evq_end q) b e.
  Proof.
    intros He (l & H1 & H2) E. pose proof (qrep_enqueue q l b e H1) as H. rewrite E in H.
    destruct (length l <? 14); [|discriminate]. destruct H as (q1 & Eq & G1 & G2 & G3).
    injection Eq as <-. split; [split; [|split]|].
    - exists (l ++ [(b, e)]). split; [exact G1|]. apply Forall_app. auto.
    - exact G3.
    - intros i b1 x (l1 & k & K1 & K2 & K3 & ->). pose proof (qrep_enqueue q l1 b e K1) as H.
      rewrite E in H. destruct (length l1 <? 14); [|discriminate].
      destruct H as (q1 & Eq & L1 & L2 & L3). injection Eq as <-.
      exists (l1 ++ [(b, e)]), k. split; [exact L1|]. split; [apply Forall_app; auto|].
      split; [rewrite nth_error_app1; [exact K3|apply nth_error_Some; congruence]|].
      symmetry. apply slot_begin_eq. exact L2.
    - exists (l ++ [(b, e)]), (length l). split; [exact G1|]. split; [apply Forall_app; auto|].
      split; [rewrite nth_error_app2, Nat.sub_diag by lia; reflexivity|].
      rewrite (slot_begin_eq _ _ _ G2). apply qrep_end. exact H1.
  Qed.

  Lemma p_enqueue d b e (Q : unit -> evdec -> Prop) (F : pte -> evdec -> Prop) :
    queued (ed_evq d) -> P b e ->
    (forall q', grown (ed_evq d) q' -> inq q' (evq_end (ed_evq d)) b e -> Q tt (set_evq d q')) ->
    F pte_nomem d -> pwp (enqueue b e) Q F d.
  Proof.
    intros Hq He H1 H2. unfold pwp, enqueue.
    destruct (pt_evq_enqueue (ed_evq d) b e) as [q'|] eqn:E; [|exact H2].
    destruct (grown_enq _ _ _ _ He Hq E). apply H1; assumption.
  Qed.

  Lemma grown_requeue q b i e q' : P b e -> queued q -> (held q i e \/ exists b0, inq q i b0 e) ->
    pt_evq_requeue zero_event q i b = Some q' -> grown q q'.
  Proof.
    intros He Hq Hi E.
    assert (Hl : forall l, qrep q l -> Forall (fun x => P (fst x) (snd x)) l ->
      (held q i e \/ exists k b', i = slot_of q k /\ nth_error l k = Some (b', e)) ->
      qrep q' (l ++ [(b, e)]) /\ evq_begin q' = evq_begin q /\ (forall j x, held q j x -> held q' j x)).
    { intros l H1 H2 H3. pose proof (qrep_requeue zero_event q l b i e H1 H3) as H. rewrite E in H.
      destruct (length l <? 14); [|discriminate]. destruct H as (q1 & Eq & G). injection Eq as <-. exact G. }
    assert (Hpos : forall l, qrep q l -> (exists b0, inq q i b0 e) ->
      exists k b', i = slot_of q k /\ nth_error l k = Some (b', e)).
    { intros l H1 (b0 & l1 & k & K1 & K2 & K3 & ->).
      exists k. destruct (nth_error l k) as [[b2 e2]|] eqn:En.
      - exists b2. split; [reflexivity|]. f_equal. f_equal.
        pose proof (qrep_at _ _ _ _ _ H1 En). pose proof (qrep_at _ _ _ _ _ K1 K3). congruence.
      - apply nth_error_None in En. assert (k < length l1) by (apply nth_error_Some; congruence).
        pose proof H1 as (_ & A1 & A2 & A3 & _). pose proof K1 as (_ & B1 & B2 & B3 & _). lia. }
    assert (Hboth : forall l, qrep q l ->
      (held q i e \/ exists k b', i = slot_of q k /\ nth_error l k = Some (b', e))).
    { intros l H1. destruct Hi as [Hi|Hi]; [left; exact Hi|right; apply Hpos; assumption]. }
    destruct Hq as (l & H1 & H2). destruct (Hl l H1 H2 (Hboth l H1)) as (G1 & G2 & G3).
    split; [|split].
    - exists (l ++ [(b, e)]). split; [exact G1|]. apply Forall_app. auto.
    - exact G3.
    - intros j b1 x (l1 & k & K1 & K2 & K3 & ->). destruct (Hl l1 K1 K2 (Hboth l1 K1)) as (L1 & L2 & L3).
      exists (l1 ++ [(b, e)]), k. split; [exact L1|]. split; [apply Forall_app; auto|].
      split; [rewrite nth_error_app1; [exact K3|apply nth_error_Some; congruence]|].
      symmetry. apply slot_begin_eq. exact L2.
  Qed.

  Lemma p_requeue d i e b (Q : unit -> evdec -> Prop) (F : pte -> evdec -> Prop) :
    queued (ed_evq d) -> (held (ed_evq d) i e \/ exists b0, inq (ed_evq d) i b0 e) -> P b e ->
    (forall q', grown (ed_evq d) q' -> Q tt (set_evq d q')) ->
    F pte_nomem d -> pwp (requeue (Slot i) b) Q F d.
  Proof.
    intros Hq Hi He H1 H2. unfold pwp, requeue.
    destruct (pt_evq_requeue zero_event (ed_evq d) i b) as [q'|] eqn:E; [|exact H2].
    apply H1. apply (grown_requeue _ b i e); assumption.
  Qed.
  Lemma p_requeue_alone d b (Q : unit -> evdec -> Prop) (F : pte -> evdec -> Prop) :
    queued (ed_evq d) -> P b (ed_alone d) ->
    (forall q', grown (ed_evq d) q' -> Q tt (set_evq d q')) ->
    F pte_nomem d -> pwp (requeue Alone b) Q F d.
  Proof.
    intros Hq He H1 H2.
    apply (p_enqueue d b (ed_alone d)); auto.
  Qed.

  (** Taking out an event: others keep their place. *)
  Lemma p_dequeue d b (Q : option nat -> evdec -> Prop) F :
    queued (ed_evq d) ->
    (forall b' e q' i, P b' e -> N.land b' b <> 0%N -> queued q' -> held q' i e ->
       (forall j b1 x, inq (ed_evq d) j b1 x -> j = i \/ exists b2 y, inq q' j b2 y) ->
       Q (Some i) (set_evq d q')) ->
    Q None d -> pwp (dequeue b) Q F d.
  Proof.
    intros (l & Hq & Hl) H1 H2. apply wp_pwp. apply (wp_dequeue d l Hq).
    - intros e l' Et q' i Hq' Hh Hi Hb. pose proof (take_first_split (bound b) l) as Hs.
      rewrite Et in Hs. destruct Hs as (a & b0 & c & E1 & E2 & E3 & _).
      assert (Hl' : Forall (fun x => P (fst x) (snd x)) l').
      { subst. apply Forall_app in Hl. destruct Hl as [Ha Hc]. inversion Hc; subst.
        apply Forall_app. auto. }
      apply (H1 b0 e).
      + subst. apply Forall_app in Hl. destruct Hl as [_ Hc]. inversion Hc; subst. assumption.
      + unfold bound in E3. cbn [fst] in E3. lia.
      + exists l'. auto.
      + exact Hh.
      + intros j b1 x (l1 & k & K1 & K2 & K3 & ->).
        assert (Hk : k < length l).
        { assert (k < length l1) by (apply nth_error_Some; congruence).
          pose proof Hq as (_ & A1 & A2 & A3 & _). pose proof K1 as (_ & B1 & B2 & B3 & _). lia. }
        pose proof Hq as (_ & A1 & A2 & A3 & _).
        destruct k as [|k]; [left; unfold slot_of; lia|right].
        destruct (nth_error l' k) as [[b2 y]|] eqn:En.
        * exists b2, y, l', k. split; [exact Hq'|]. split; [exact Hl'|]. split; [exact En|].
          unfold slot_of. rewrite Hb. lia.
        * apply nth_error_None in En. subst. rewrite !app_length in *. cbn [length] in *. lia.
    - intros _. exact H2.
  Qed.

  Lemma p_read_held d i e (Q : event -> evdec -> Prop) F :
    held (ed_evq d) i e -> Q e d -> pwp (read_event (Slot i)) Q F d.
  Proof. intros H HQ. unfold pwp, read_event. rewrite (held_at _ _ _ H). exact HQ. Qed.
  Lemma p_read_inq d i b e (Q : event -> evdec -> Prop) F :
    inq (ed_evq d) i b e -> Q e d -> pwp (read_event (Slot i)) Q F d.
  Proof. intros H HQ. unfold pwp, read_event. rewrite (inq_at _ _ _ _ H). exact HQ. Qed.

  Lemma p_write_held d i e e' (Q : unit -> evdec -> Prop) F :
    queued (ed_evq d) -> held (ed_evq d) i e ->
    (forall q', queued q' -> held q' i e' -> Q tt (set_evq d q')) ->
    pwp (write_event (Slot i) e') Q F d.
  Proof.
    intros (l & Hq & Hl) H HQ. apply wp_pwp. apply (wp_write_held d l Hq i e); [exact H|].
    intros q' G1 _ G2. apply HQ; [exists l; auto|exact G2].
  Qed.

  Lemma update_forall (l : list (N * event)) k b e e0 : Forall (fun x => P (fst x) (snd x)) l ->
    nth_error l k = Some (b, e0) -> P b e ->
    Forall (fun x => P (fst x) (snd x)) (update l k e).
  Proof.
    intros H. revert k. induction H as [|x l Hx H IH]; intros k Hk He; cbn; [constructor|].
    destruct k; cbn in Hk; constructor; try assumption;
      [injection Hk as ->; exact He|apply (IH k); assumption].
  Qed.

  Lemma p_write_inq d i b e e' (Q : unit -> evdec -> Prop) F :
    inq (ed_evq d) i b e -> P b e' ->
    (forall q', queued q' -> inq q' i b e' -> (forall j x, held (ed_evq d) j x -> held q' j x) ->
       Q tt (set_evq d q')) ->
    pwp (write_event (Slot i) e') Q F d.
  Proof.
    intros (l & k & Hq & Hl & Hn & ->) He HQ. apply wp_pwp.
    assert (Hk : k < length l) by (apply nth_error_Some; congruence).
    apply (wp_write_pos d l Hq k e'); [exact Hk|]. intros q' G1 G2 G3.
    assert (Hu : Forall (fun x => P (fst x) (snd x)) (update l k e'))
      by (apply (update_forall l k b e' e); assumption).
    apply HQ; [exists (update l k e'); auto| |exact G3].
    exists (update l k e'), k. split; [exact G1|]. split; [exact Hu|].
    split; [rewrite update_nth, Nat.eqb_refl, Hn; reflexivity|].
    symmetry. apply slot_begin_eq. exact G2.
  Qed.
End QUEUE.

Lemma queued_mono (P P' : N -> event -> Prop) q : (forall b e, P b e -> P' b e) ->
  queued P q -> queued P' q.
Proof.
  intros H (l & H1 & H2). exists l. split; [exact H1|].
  eapply Forall_impl; [|exact H2]. intros a. apply H.
Qed.
Lemma inq_mono (P P' : N -> event -> Prop) q i b e : (forall b e, P b e -> P' b e) ->
  inq P q i b e -> inq P' q i b e.
Proof.
  intros H (l & k & H1 & H2 & H3 & H4). exists l, k. split; [exact H1|].
  split; [eapply Forall_impl; [|exact H2]; intros a; apply H|]. auto.
Qed.
