(** Reasoning rules for the event decoder. *)

From Verif Require Import Base M_packet M_config M_pktdec M_sync M_lastip M_time
  M_evq M_event M_evdec S_evq S_time S_evtrace L_evq L_evqpos L_bytes L_pktdec L_pktsafe L_time.
From Coq Require Import List NArith ZArith PeanoNat Bool Lia ZifyBool ZifyNat ZifyN.
Import ListNotations.
Open Scope nat_scope.

(** * Reading packets *)

(** The size of an unknown packet is the one that the callback gave. *)
Definition from_callback (cf : config) (buf : list N) (pos : nat) (d : decoded) : Prop :=
  forall v, dc_pl d = P_unknown v ->
    exists cb, cf_callback cf = Some cb /\ cb buf pos = Cb_size (N.of_nat (dc_size d)) v.

Ltac fc_done := cbn [safe]; intros ? Hv; cbn [dc_pl] in Hv; discriminate Hv.
Ltac fc_read f := unfold f; repeat safe_step; fc_done.

Lemma fc_unknown cf buf pos : safe (plain (pt_pkt_read_unknown cf buf pos)) (from_callback cf buf pos).
Proof.
  unfold pt_pkt_read_unknown, plain.
  destruct (cf_callback cf) as [cb |] eqn:Ecb; [| exact I].
  destruct (cb buf pos) as [e | size priv] eqn:Es; [exact I |].
  destruct (N.ltb_spec 255 size); [exact I |].
  repeat safe_step. intros v Hv. cbn in Hv. injection Hv as <-. exists cb.
  split; [exact Ecb|]. rewrite Es. cbn. f_equal. lia.
Qed.

Lemma fc_tma cf buf pos : pos < length buf ->
  safe (pt_pkt_decode_tma cf buf pos) (from_callback cf buf pos).
Proof.
  intros H. unfold pt_pkt_decode_tma, pt_pkt_read_tma, need.
  destruct (Nat.ltb_spec (length buf) (pos + ptps_tma)) as [Hl | Hl];
    cbn [bind]; [exact I |].
  consts.
  destruct (rd_ok buf (pos + 2)) as [c0 ->]; [lia |].
  destruct (rd_ok buf (pos + 3)) as [c1 ->]; [lia |].
  destruct (rd_ok buf (pos + 5)) as [f0 ->]; [lia |].
  destruct (rd_ok buf (pos + 6)) as [f1 ->]; [lia |].
  destruct (rd_ok buf (pos + (3 + 1))) as [r0 ->]; [lia |].
  cbn [bind].
  repeat destruct (truth _); destruct (er_skz84 (cf_errata cf));
    cbn [safe]; auto; fc_done.
Qed.

Lemma fc_cyc cf buf pos : pos < length buf ->
  safe (pt_pkt_decode_cyc cf buf pos) (from_callback cf buf pos).
Proof.
  intros H. unfold pt_pkt_decode_cyc. apply safe_bind.
  eapply safe_weaken; [apply safe_read_cyc; exact H |]. cbv beta.
  intros [v size] (H1 & H2 & H3). cbn [snd] in *.
  apply safe_bind.
  destruct (er_skd007 (cf_errata cf)) eqn:E.
  - unfold pt_pkt_handle_skd007.
    destruct (Nat.eqb_spec size 2) as [Hs | Hs]; cbn [negb]; [| fc_done].
    destruct (negb _); [fc_done |].
    destruct (Nat.leb_spec (length buf) (pos + size)); [fc_done |].
    repeat safe_step; fc_done.
  - fc_done.
Qed.

Lemma decode_callback cf buf pos : safe (pt_pkt_decode cf buf pos) (from_callback cf buf pos).
Proof.
  unfold pt_pkt_decode.
  destruct (Nat.leb_spec (length buf) pos) as [H | H]; [exact I |].
  apply safe_bind, safe_rd; [exact H |]. intros opc _.
  destruct (opc =? pt_opc_mode)%N; [fc_read pt_pkt_read_mode |].
  destruct (opc =? pt_opc_mtc)%N; [fc_read pt_pkt_read_mtc |].
  destruct (opc =? pt_opc_tsc)%N; [fc_read pt_pkt_read_tsc |].
  destruct (opc =? pt_opc_pad)%N; [fc_done |].
  destruct (opc =? pt_opc_trig)%N; [fc_read pt_pkt_read_trig |].
  destruct (opc =? pt_opc_ext)%N.
  - destruct (Nat.leb_spec (length buf) (pos + 1)) as [H1 | H1]; [exact I |].
    apply safe_bind, safe_rd; [exact H1 |]. intros ext _.
    destruct (ext =? pt_ext_psb)%N.
    { unfold pt_pkt_read_psb. repeat safe_step.
      eapply safe_weaken; [apply safe_psb_loop; consts; lia |].
      intros _ _. fc_done. }
    destruct (ext =? pt_ext_ovf)%N; [fc_done |].
    destruct (ext =? pt_ext_psbend)%N; [fc_done |].
    destruct (ext =? pt_ext_cbr)%N; [fc_read pt_pkt_read_cbr |].
    destruct (ext =? pt_ext_tma)%N; [now apply fc_tma |].
    destruct (ext =? pt_ext_pip)%N; [fc_read pt_pkt_read_pip |].
    destruct (ext =? pt_ext_vmcs)%N; [fc_read pt_pkt_read_vmcs |].
    destruct (_ || _); [fc_read pt_pkt_read_exstop |].
    destruct (ext =? pt_ext_mwait)%N; [fc_read pt_pkt_read_mwait |].
    destruct (ext =? pt_ext_pwre)%N; [fc_read pt_pkt_read_pwre |].
    destruct (ext =? pt_ext_pwrx)%N; [fc_read pt_pkt_read_pwrx |].
    destruct (ext =? pt_ext_stop)%N; [fc_done |].
    destruct (ext =? pt_ext_tnt_64)%N.
    { unfold pt_pkt_read_tnt_64, pt_pkt_read_tnt. repeat safe_step. fc_done. }
    destruct (ext =? pt_ext_cfe)%N; [fc_read pt_pkt_read_cfe |].
    destruct (ext =? pt_ext_evd)%N; [fc_read pt_pkt_read_evd |].
    destruct (ext =? pt_ext_ext2)%N.
    { destruct (Nat.leb_spec (length buf) (pos + 2)) as [H2 | H2]; [exact I |].
      apply safe_bind, safe_rd; [exact H2 |]. intros ext2 _.
      destruct (ext2 =? pt_ext2_mnt)%N; [fc_read pt_pkt_read_mnt |].
      apply fc_unknown. }
    destruct (_ =? pt_ext_ptw)%N.
    { unfold pt_pkt_read_ptw. repeat safe_step.
      eapply safe_weaken; [apply ptw_size_ok |]. cbv beta. intros n Hn.
      repeat safe_step. fc_done. }
    apply fc_unknown.
  - destruct (_ =? pt_opc_cyc)%N; [now apply fc_cyc |].
    destruct (_ =? pt_opc_tnt_8)%N.
    { unfold pt_pkt_read_tnt_8, pt_pkt_read_tnt. repeat safe_step. fc_done. }
    assert (Hip : forall f, (forall ip v, f ip <> P_unknown v) ->
      safe (as_ip f (pt_pkt_read_ip buf pos)) (from_callback cf buf pos)).
    { intros f Hf. unfold as_ip. apply safe_bind.
      eapply safe_weaken; [apply safe_ip; exact H |]. cbv beta.
      intros [ip n] _. cbn [safe]. intros v Hv. cbn [dc_pl] in Hv.
      destruct (Hf _ _ Hv). }
    destruct (_ =? pt_opc_fup)%N; [apply Hip; discriminate |].
    destruct (_ =? pt_opc_tip)%N; [apply Hip; discriminate |].
    destruct (_ =? pt_opc_tip_pge)%N; [apply Hip; discriminate |].
    destruct (_ =? pt_opc_tip_pgd)%N; [apply Hip; discriminate |].
    apply fc_unknown.
Qed.

(** The callback never answers that a packet has no bytes. *)
Definition callback_moves (cf : config) : Prop :=
  forall cb buf pos v, cf_callback cf = Some cb -> cb buf pos <> Cb_size 0 v.

(** Where the packet decoder stands. *)
Definition pd_at (pd : pktdec) : nat := match pd_pos pd with Some p => p | None => 0 end.

(** The trace and the configuration do not change; the position is at most one
    byte behind the trace. *)
Definition pd_ok (cf : config) (buf : list N) (pd : pktdec) : Prop :=
  pd_config pd = cf /\ pd_buf pd = buf /\ pd_at pd <= S (length buf).

Lemma next_step cf buf pd : callback_moves cf -> pd_ok cf buf pd ->
  match pt_pkt_next pd with
  | (pd', Ok p) => pd_ok cf buf pd' /\ pd_at pd < length buf /\ pd_at pd < pd_at pd' /\
                   pd_at pd + pkt_size p <= pd_at pd' /\ 1 <= pkt_size p <= 255 /\
                   pd_pos pd' <> None
  | (pd', Err e) => pd' = pd
  | (_, UB _) => False
  end.
Proof.
  intros Hcb (Hc & Hb & Hp). unfold pt_pkt_next, pd_at in *.
  destruct (pd_pos pd) as [pos|]; [|reflexivity]. rewrite Hc, Hb.
  pose proof (decode_safe cf buf pos) as Hs. pose proof (decode_callback cf buf pos) as Hk.
  assert (Hlt : length buf <= pos -> pt_pkt_decode cf buf pos = Err pte_eos).
  { intros Hl. unfold pt_pkt_decode. destruct (Nat.leb_spec (length buf) pos); [reflexivity|lia]. }
  destruct (pt_pkt_decode cf buf pos) as [dc|e|u]; [|reflexivity|exact Hs].
  cbn [safe] in Hs, Hk. unfold pd_ok, pd_at. cbn [pd_config pd_buf pd_pos pkt_size].
  assert (Hle : pos < length buf).
  { destruct (Nat.lt_ge_cases pos (length buf)) as [|Hge]; [assumption|].
    specialize (Hlt Hge). discriminate. }
  assert (H1 : 1 <= dc_size dc <= 255 /\ pos + dc_skip dc + dc_size dc <= S (length buf)).
  { unfold good in Hs. destruct (dc_pl dc) eqn:Epl; try (clear Hlt; lia).
    destruct (Hk _ Epl) as (cb & E1 & E2).
    assert (dc_size dc <> 0); [|lia]. intros E0. rewrite E0 in E2.
    exact (Hcb cb buf pos _ E1 E2). }
  repeat split; try lia. discriminate.
Qed.

Lemma reads_app pd1 ps1 pd2 ps2 pd3 : reads pd1 ps1 pd2 -> reads pd2 ps2 pd3 ->
  reads pd1 (ps1 ++ ps2) pd3.
Proof. induction 1; intros H2; [exact H2|]. cbn. econstructor; eauto. Qed.

Lemma reads_snoc pd1 ps pd2 p pd3 : reads pd1 ps pd2 -> pt_pkt_next pd2 = (pd3, Ok p) ->
  reads pd1 (ps ++ [p]) pd3.
Proof.
  intros H1 H2. eapply reads_app; [exact H1|]. econstructor; [exact H2|constructor].
Qed.

(** Two ways of reading from the same place agree. *)
Lemma reads_det pd ps1 pd1 ps2 pd2 : reads pd ps1 pd1 -> reads pd ps2 pd2 ->
  (exists r, ps2 = ps1 ++ r /\ reads pd1 r pd2) \/ (exists r, ps1 = ps2 ++ r /\ reads pd2 r pd1).
Proof.
  intros H. revert ps2 pd2. induction H as [pd|pd pd1 pd3 p ps E H IH]; intros ps2 pd2 H2.
  - left. exists ps2. auto.
  - inversion H2 as [x|x pd1' y p' ps' E' H2']; subst.
    + right. exists (p :: ps). split; [reflexivity|]. econstructor; eauto.
    + rewrite E in E'. injection E' as <- <-. destruct (IH _ _ H2') as [(r & -> & Hr)|(r & -> & Hr)].
      * left. exists r. auto.
      * right. exists r. auto.
Qed.

Section RULES.
  Context (cf : config) (buf : list N).
  Hypothesis moves : callback_moves cf.

  Lemma reads_ok pd ps pd' : reads pd ps pd' -> pd_ok cf buf pd ->
    pd_ok cf buf pd' /\ pd_at pd + length ps <= pd_at pd'.
  Proof.
    induction 1 as [pd|pd pd1 pd2 p ps E H IH]; intros Hok; [cbn; lia || (split; [assumption|cbn; lia])|].
    pose proof (next_step cf buf pd moves Hok) as Hn. rewrite E in Hn.
    destruct Hn as (H1 & H2 & H3 & _). destruct (IH H1). cbn. split; [assumption|lia].
  Qed.

  (** How many bytes are left. *)
  Definition rem (pd : pktdec) : nat := length buf - pd_at pd.

  (** A scan that keeps an invariant. *)
  Lemma scan_rule {S R} (step : S -> pktdec -> packet -> S + res R) on_err
        (Inv : S -> pktdec -> Prop) (Post : res R -> Prop) :
    (forall s pd pd' p, pd_ok cf buf pd -> Inv s pd -> pt_pkt_next pd = (pd', Ok p) ->
       pd_ok cf buf pd' -> pd_at pd < pd_at pd' -> pd_pos pd' <> None ->
       match step s pd' p with inl s' => Inv s' pd' | inr r => Post r end) ->
    (forall s pd e, pd_ok cf buf pd -> Inv s pd -> pt_pkt_next pd = (pd, Err e) ->
       Post (on_err e)) ->
    forall fuel s pd, rem pd < fuel -> pd_ok cf buf pd -> Inv s pd ->
    Post (scan_packets fuel step on_err pd s).
  Proof.
    intros Hstep Herr. induction fuel as [|fuel IH]; intros s pd Hf Hok HI; [lia|].
    cbn [scan_packets]. pose proof (next_step cf buf pd moves Hok) as Hn.
    destruct (pt_pkt_next pd) as [pd' [p|e|u]] eqn:En; [| |destruct Hn].
    - destruct Hn as (H1 & H2 & H3 & H4 & H5 & H6).
      specialize (Hstep s pd pd' p Hok HI En H1 H3 H6).
      destruct (step s pd' p) as [s'|r]; [|exact Hstep].
      apply IH; [unfold rem in *; lia|assumption|assumption].
    - subst pd'. eapply Herr; eauto.
  Qed.

  Lemma scan_fuel_ok pd : pd_ok cf buf pd -> rem pd < scan_fuel pd.
  Proof. intros (_ & Hb & _). unfold rem, scan_fuel. rewrite Hb. lia. Qed.

  Definition is_pad (p : packet) : Prop := pkt_pl p = P_pad.

  Lemma fetch_loop_spec fuel : forall pd, rem pd < fuel -> pd_ok cf buf pd ->
    match fetch_loop fuel pd with
    | (pd', Ok p) => exists pads, reads pd (pads ++ [p]) pd' /\ Forall is_pad pads /\ ~ is_pad p /\
                       pd_pos pd' <> None
    | (pd', Err e) => exists pads, reads pd pads pd' /\ Forall is_pad pads /\
                        pt_pkt_next pd' = (pd', Err e)
    | (_, UB _) => False
    end.
  Proof.
    induction fuel as [|fuel IH]; intros pd Hf Hok; [lia|]. cbn [fetch_loop].
    pose proof (next_step cf buf pd moves Hok) as Hn.
    destruct (pt_pkt_next pd) as [pd' [p|e|u]] eqn:En; [| |destruct Hn].
    - destruct Hn as (H1 & H2 & H3 & H4 & H5 & H6).
      assert (Hone : reads pd [p] pd') by (econstructor; [exact En|constructor]).
      assert (Hstop : ~ is_pad p -> exists pads, reads pd (pads ++ [p]) pd' /\ Forall is_pad pads /\
                        ~ is_pad p /\ pd_pos pd' <> None).
      { intros Hp. exists []. cbn. auto. }
      destruct (pkt_pl p) eqn:Epl;
        try (apply Hstop; unfold is_pad; rewrite Epl; discriminate).
      clear Hstop. specialize (IH pd' ltac:(unfold rem in *; lia) H1).
      destruct (fetch_loop fuel pd') as [pd2 [p2|e|u]]; [| |exact IH].
      + destruct IH as (pads & G1 & G2 & G3 & G4). exists (p :: pads).
        split; [cbn; econstructor; eauto|]. repeat split; auto.
      + destruct IH as (pads & G1 & G2 & G3). exists (p :: pads).
        split; [econstructor; eauto|]. repeat split; auto.
    - subst pd'. exists []. repeat split; auto. constructor.
  Qed.
End RULES.

(** * Weakest preconditions *)

Definition wp {A} (m : ST A) (Q : A -> evdec -> Prop) (F : pte -> evdec -> Prop)
           (d : evdec) : Prop :=
  match m d with
  | (d', Ok a) => Q a d'
  | (d', Err e) => F e d'
  | (_, UB _) => False
  end.

Lemma wp_mono {A} (m : ST A) (Q Q' : A -> evdec -> Prop) (F F' : pte -> evdec -> Prop) d :
  wp m Q F d -> (forall a d', Q a d' -> Q' a d') -> (forall e d', F e d' -> F' e d') ->
  wp m Q' F' d.
Proof. unfold wp. destruct (m d) as [d' [a|e|u]]; auto. Qed.

Lemma wp_bind {A B} (m : ST A) (k : A -> ST B) Q F d :
  wp m (fun a d' => wp (k a) Q F d') F d -> wp (sbind m k) Q F d.
Proof. unfold wp, sbind. destruct (m d) as [d' [a|e|u]]; auto. Qed.

Lemma wp_ret {A} (a : A) (Q : A -> evdec -> Prop) F d : Q a d -> wp (ret a) Q F d.
Proof. exact (fun H => H). Qed.
Lemma wp_fail {A} e (Q : A -> evdec -> Prop) (F : pte -> evdec -> Prop) d : F e d -> wp (fail e) Q F d.
Proof. exact (fun H => H). Qed.
Lemma wp_get (Q : evdec -> evdec -> Prop) F d : Q d d -> wp get Q F d.
Proof. exact (fun H => H). Qed.
Lemma wp_modify f (Q : unit -> evdec -> Prop) F d : Q tt (f d) -> wp (modify f) Q F d.
Proof. exact (fun H => H). Qed.
Lemma wp_publish p (Q : unit -> evdec -> Prop) F d : Q tt (set_event d p) -> wp (publish p) Q F d.
Proof. exact (fun H => H). Qed.
Lemma wp_standalone e (Q : unit -> evdec -> Prop) F d :
  Q tt (set_event (set_alone d e) (Some Alone)) -> wp (standalone e) Q F d.
Proof. exact (fun H => H). Qed.
Lemma wp_jump pd p t l (Q : unit -> evdec -> Prop) F d :
  Q tt (set_tcal (set_time (set_pkt (set_pd d pd) p) t) l) -> wp (jump pd p t l) Q F d.
Proof. exact (fun H => H). Qed.
Lemma wp_lift_ok {A} (r : res A) (Q : A -> evdec -> Prop) (F : pte -> evdec -> Prop) d :
  no_ub r -> (forall a, r = Ok a -> Q a d) -> (forall e, r = Err e -> F e d) -> wp (lift r) Q F d.
Proof. unfold wp, lift. intros H1 H2 H3. destruct r as [a|e|u]; auto. apply (H1 u eq_refl). Qed.

Lemma wp_timing f (Q : unit -> evdec -> Prop) (F : pte -> evdec -> Prop) d :
  (forall t l r, f (ed_config d) (ed_time d) (ed_tcal d) = (t, l, r) ->
     no_ub r /\ (r = Ok tt -> Q tt (set_tcal (set_time d t) l)) /\
     (forall e, r = Err e -> F e (set_tcal (set_time d t) l))) ->
  wp (timing f) Q F d.
Proof.
  unfold wp, timing. intros H. destruct (f _ _ _) as [[t l] r].
  destruct (H t l r eq_refl) as (H1 & H2 & H3). destruct r as [[]|e|u]; auto.
  apply (H1 u eq_refl).
Qed.

Lemma wp_update_ip ip (Q : unit -> evdec -> Prop) (F : pte -> evdec -> Prop) d :
  (forall l r, pt_last_ip_update_ip (ed_ip d) ip = (l, r) ->
     (r = Ok tt -> Q tt (set_lip d l)) /\ (forall e, r = Err e -> F e (set_lip d l))) ->
  wp (update_ip ip) Q F d.
Proof.
  unfold wp, update_ip. intros H.
  destruct (pt_last_ip_update_ip (ed_ip d) ip) as [l r] eqn:E.
  destruct (H l r eq_refl) as (H2 & H3). destruct r as [[]|e|u]; auto.
  unfold pt_last_ip_update_ip in E.
  repeat match type of E with context [if ?b then _ else _] => destruct b end; congruence.
Qed.

Section QUEUE.
  Context (d : evdec) (l : list (N * event)).
  Hypothesis Hq : qrep (ed_evq d) l.

  Lemma set_evq_same : set_evq d (ed_evq d) = d.
  Proof. destruct d; reflexivity. Qed.

  Lemma wp_enqueue b e (Q : unit -> evdec -> Prop) (F : pte -> evdec -> Prop) :
    (length l < 14 -> forall q', qrep q' (l ++ [(b, e)]) -> evq_begin q' = evq_begin (ed_evq d) ->
       (forall i x, held (ed_evq d) i x -> held q' i x) -> Q tt (set_evq d q')) ->
    F pte_nomem d -> wp (enqueue b e) Q F d.
  Proof.
    intros H1 H2. unfold wp, enqueue. pose proof (qrep_enqueue (ed_evq d) l b e Hq) as H.
    destruct (Nat.ltb_spec (length l) 14) as [Hl|Hl].
    - destruct H as (q' & -> & G1 & G2 & G3). apply H1; assumption.
    - rewrite H. exact H2.
  Qed.

  Lemma wp_dequeue b (Q : option nat -> evdec -> Prop) F :
    (forall e l', take_first (bound b) l = Some (e, l') -> forall q' i, qrep q' l' -> held q' i e ->
       i = evq_begin (ed_evq d) -> evq_begin q' = (evq_begin (ed_evq d) + 1) mod 16 ->
       Q (Some i) (set_evq d q')) ->
    (take_first (bound b) l = None -> Q None d) -> wp (dequeue b) Q F d.
  Proof.
    intros H1 H2. unfold wp, dequeue. pose proof (qrep_dequeue (ed_evq d) l b Hq) as H.
    destruct (take_first (bound b) l) as [[e l']|].
    - destruct H as (q' & i & -> & G1 & G2 & G3 & G4). eapply H1; eauto.
    - rewrite H. rewrite set_evq_same. apply H2. reflexivity.
  Qed.

  Lemma wp_read_held i e (Q : event -> evdec -> Prop) F :
    held (ed_evq d) i e -> Q e d -> wp (read_event (Slot i)) Q F d.
  Proof. intros H HQ. unfold wp, read_event. rewrite (held_at _ _ _ H). exact HQ. Qed.

  Lemma wp_write_held i e e' (Q : unit -> evdec -> Prop) F :
    held (ed_evq d) i e ->
    (forall q', qrep q' l -> evq_begin q' = evq_begin (ed_evq d) -> held q' i e' -> Q tt (set_evq d q')) ->
    wp (write_event (Slot i) e') Q F d.
  Proof.
    intros H HQ. unfold wp, write_event. rewrite (held_at _ _ _ H).
    destruct (put_held _ l i e e' Hq H) as [G1 G2]. apply HQ; [exact G1| |exact G2].
    apply put_begin.
  Qed.

  Lemma wp_read_pos k b e (Q : event -> evdec -> Prop) F :
    nth_error l k = Some (b, e) -> Q e d -> wp (read_event (Slot (slot_of (ed_evq d) k))) Q F d.
  Proof. intros H HQ. unfold wp, read_event. rewrite (qrep_at _ _ _ _ _ Hq H). exact HQ. Qed.

  Lemma wp_write_pos k e' (Q : unit -> evdec -> Prop) F :
    k < length l ->
    (forall q', qrep q' (update l k e') -> evq_begin q' = evq_begin (ed_evq d) ->
       (forall i x, held (ed_evq d) i x -> held q' i x) -> Q tt (set_evq d q')) ->
    wp (write_event (Slot (slot_of (ed_evq d) k)) e') Q F d.
  Proof.
    intros H HQ. unfold wp, write_event.
    destruct (nth_error l k) as [[b e]|] eqn:E.
    2: { apply nth_error_None in E. lia. }
    rewrite (qrep_at _ _ _ _ _ Hq E).
    destruct (put_pos _ l k e' Hq H) as [G1 G2]. apply HQ; [exact G1| |exact G2].
    apply put_begin.
  Qed.

  Lemma wp_requeue_held i e b (Q : unit -> evdec -> Prop) (F : pte -> evdec -> Prop) :
    held (ed_evq d) i e ->
    (length l < 14 -> forall q', qrep q' (l ++ [(b, e)]) -> evq_begin q' = evq_begin (ed_evq d) ->
       (forall i x, held (ed_evq d) i x -> held q' i x) -> Q tt (set_evq d q')) ->
    F pte_nomem d -> wp (requeue (Slot i) b) Q F d.
  Proof.
    intros Hh H1 H2. unfold wp, requeue.
    pose proof (qrep_requeue zero_event (ed_evq d) l b i e Hq (or_introl Hh)) as H.
    destruct (Nat.ltb_spec (length l) 14) as [Hl|Hl].
    - destruct H as (q' & -> & G1 & G2 & G3). apply H1; assumption.
    - rewrite H. exact H2.
  Qed.

  Lemma wp_requeue_pos k b0 e b (Q : unit -> evdec -> Prop) (F : pte -> evdec -> Prop) :
    nth_error l k = Some (b0, e) ->
    (length l < 14 -> forall q', qrep q' (l ++ [(b, e)]) -> evq_begin q' = evq_begin (ed_evq d) ->
       (forall i x, held (ed_evq d) i x -> held q' i x) -> Q tt (set_evq d q')) ->
    F pte_nomem d -> wp (requeue (Slot (slot_of (ed_evq d) k)) b) Q F d.
  Proof.
    intros Hh H1 H2. unfold wp, requeue.
    pose proof (qrep_requeue zero_event (ed_evq d) l b (slot_of (ed_evq d) k) e Hq
      (or_intror (ex_intro _ k (ex_intro _ b0 (conj eq_refl Hh))))) as H.
    destruct (Nat.ltb_spec (length l) 14) as [Hl|Hl].
    - destruct H as (q' & -> & G1 & G2 & G3). apply H1; assumption.
    - rewrite H. exact H2.
  Qed.
End QUEUE.

Lemma wp_read_alone d (Q : event -> evdec -> Prop) F :
  Q (ed_alone d) d -> wp (read_event Alone) Q F d.
Proof. exact (fun H => H). Qed.
Lemma wp_write_alone d e (Q : unit -> evdec -> Prop) F :
  Q tt (set_alone d e) -> wp (write_event Alone e) Q F d.
Proof. exact (fun H => H). Qed.

Lemma wp_requeue_alone d l b (Q : unit -> evdec -> Prop) (F : pte -> evdec -> Prop) :
  qrep (ed_evq d) l ->
  (length l < 14 -> forall q', qrep q' (l ++ [(b, ed_alone d)]) ->
     evq_begin q' = evq_begin (ed_evq d) ->
     (forall i x, held (ed_evq d) i x -> held q' i x) -> Q tt (set_evq d q')) ->
  F pte_nomem d -> wp (requeue Alone b) Q F d.
Proof. intros Hq H1 H2. exact (wp_enqueue d l Hq b (ed_alone d) Q F H1 H2). Qed.

(** Fetching a packet. *)
Lemma wp_fetch cf buf d (Q : bool -> evdec -> Prop) F : callback_moves cf -> pd_ok cf buf (ed_pd d) ->
  (forall pads p pd', reads (ed_pd d) (pads ++ [p]) pd' -> Forall is_pad pads -> ~ is_pad p ->
     pd_pos pd' <> None ->
     pd_ok cf buf pd' -> pd_at (ed_pd d) < pd_at pd' -> Q false (set_pkt (set_pd d pd') p)) ->
  (forall pads e pd', reads (ed_pd d) pads pd' -> Forall is_pad pads ->
     pt_pkt_next pd' = (pd', Err e) -> pd_ok cf buf pd' -> pd_at (ed_pd d) <= pd_at pd' ->
     Q false (set_status (set_pkt (set_pd d pd') (mk_packet P_invalid 0)) (Some e))) ->
  wp pt_evt_fetch_packet Q F d.
Proof.
  intros Hm Hok H1 H2. unfold wp, pt_evt_fetch_packet.
  pose proof (fetch_loop_spec cf buf Hm (scan_fuel (ed_pd d)) (ed_pd d)
                (scan_fuel_ok cf buf _ Hok) Hok) as H.
  destruct (fetch_loop _ _) as [pd' [p|e|u]]; [| |exact H].
  - destruct H as (pads & G1 & G2 & G3 & G4).
    destruct (reads_ok cf buf Hm _ _ _ G1 Hok) as [G5 G6]. rewrite app_length in G6. cbn in G6.
    eapply H1; eauto. lia.
  - destruct H as (pads & G1 & G2 & G3).
    destruct (reads_ok cf buf Hm _ _ _ G1 Hok) as [G5 G6].
    eapply H2; eauto. lia.
Qed.
