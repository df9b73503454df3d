(** The flow of blocks and events is the flow of instructions and events. *)

From Coq Require Import List NArith ZArith Bool PeanoNat Lia.
From Verif Require Import Base M_event M_asid M_ildtab M_ild M_insn M_blk S_x86 S_insn S_query S_evtrace S_flow S_drive S_blk S_agree
  L_flow2 L_flow4 L_flow7 L_blk L_blk2 L_blk3 L_blk4 L_blk5 L_blk6 L_blk7 L_blk8 L_blk9 L_blk10.
Import ListNotations.
Open Scope N_scope.

(** ** Small facts *)

Lemma calls_calls f l l' : calls (calls f l) l' = calls f l'.
Proof. reflexivity. Qed.
Lemma calls_same f : calls f (f_calls f) = f.
Proof. destruct f; reflexivity. Qed.

Lemma effect_calls f l e f' : effect (calls f l) e = Some f' ->
  exists f0, effect f e = Some f0 /\ f' = calls f0 l.
Proof.
  unfold effect. destruct (ev_var e), (ev_status_update e), (ev_ip_suppressed e); cbn [calls f_on f_mode f_asid];
    destruct (f_on f) eqn:On; cbn [andb orb negb]; try discriminate; intros H;
    repeat match type of H with
      | match f_mode f with _ => _ end = _ => destruct (f_mode f)
      | (if ?c then _ else _) = _ => destruct c
      end; try discriminate H; injection H as <-; eexists; split; reflexivity.
Qed.

Lemma located_here f e : located f e = true -> here f e = true.
Proof. unfold here, located. destruct (ev_var e); auto. intros ->. reflexivity. Qed.

(** Something happens here that the instruction flow decoder does not expect here. *)
Lemma here_located f e : here f e = true -> located f e = true \/
  exists ip, stops e ip /\ ev_ip_suppressed e = false /\ f_on f = true /\ f_ip f = ip.
Proof.
  unfold here. destruct (ev_var e) eqn:V; auto. unfold located. rewrite V.
  destruct (ev_status_update e) eqn:Su; cbn [orb]; [auto|]. intros H. right. exists ip.
  apply andb_prop in H. destruct H as (H & H2). apply andb_prop in H. destruct H as (H & H1).
  split; [split; assumption|]. split; [apply negb_true_iff; exact H1|]. split; [exact H|].
  apply N.eqb_eq. exact H2.
Qed.

Lemma also_causes_causes s ks e : also_causes s ks e = true -> causes s e = true.
Proof. unfold also_causes. intros H. apply andb_prop in H. apply H. Qed.

Lemma disables_stops s e : disables s e = true -> exists ip, stops e ip.
Proof.
  unfold disables. destruct (ev_var e) eqn:V; try discriminate. intros H. apply andb_prop in H.
  exists ip. split; [exact V|]. apply negb_true_iff, H.
Qed.
Lemma ends_stops s e : ends s e = true -> exists ip, stops e ip.
Proof.
  unfold ends. destruct (ev_var e) eqn:V; try discriminate. intros H. apply andb_prop in H.
  exists ip. split; [exact V|]. apply negb_true_iff, H.
Qed.

Lemma called_other s l : si_class s <> ptic_call -> called s l = l.
Proof. unfold called. destruct (si_class s); try reflexivity. intros H. destruct (H eq_refl). Qed.

(** Unless they are odd, the decoders expect tracing to resume at the same address. *)
Lemma resume_same s : branches s = true -> si_class s <> ptic_call -> resumes s = resume s.
Proof.
  unfold resumes, resume, branches. destruct (si_class s) eqn:Cl; try reflexivity; try discriminate; intros H N.
  - congruence.
  - destruct (direct s); [discriminate|reflexivity].
Qed.

Lemma completes_leaves s l fs ip l' fs' : completes s (called s l) fs ip l' fs' -> leaves s l fs ip l' fs'.
Proof.
  intros H. inversion H as [? ? Hc|? ? Hc D|b ? ? Hc|? ? ? Hc E|? ? ? Hc|? ? ? ? Hc T]; subst.
  - rewrite called_other by (destruct Hc; congruence). apply leave_other. exact Hc.
  - destruct Hc as [Hc|Hc].
    + rewrite called_other by congruence. apply leave_jump; assumption.
    + unfold called. rewrite Hc. apply leave_call; assumption.
  - rewrite called_other by congruence. apply leave_cond. exact Hc.
  - rewrite called_other in E by congruence. subst l. apply leave_compressed. exact Hc.
  - rewrite called_other by congruence. apply leave_return. exact Hc.
  - destruct Hc as [([Hc|Hc] & D)|[Hc|Hc]].
    + rewrite called_other by congruence. apply leave_indirect; auto.
    + unfold called. rewrite Hc. apply leave_icall; auto.
    + rewrite called_other by congruence. apply leave_indirect; auto.
    + rewrite called_other by (intros X; rewrite X in Hc; discriminate). apply leave_indirect; auto.
Qed.

(** ** The states *)

(** States of the block flow and of the instruction flow at the same point of the execution.
    The block flow remembers a call before it is completed, and it leaves a jump with which
    tracing ends. *)
Inductive agrees : fstate -> fstate -> Prop :=
| ag_between f h fs : f_cur f = None ->
    (forall e, h = Some e -> here f e = true -> located f e = true) ->
    agrees (mk_fstate f h fs) (mk_fstate f h fs)
| ag_at f si ks h fs l : f_cur f = Some (si, ks) ->
    agrees (mk_fstate (calls f (called si l)) h fs) (mk_fstate (calls f l) h fs)
| ag_jump f si ks e ip fs : f_on f = true -> f_cur f = Some (si, ks) -> si_class si = ptic_jump ->
    direct si = true -> target si = ip -> stops e ip -> ev_ip_suppressed e = false ->
    agrees (mk_fstate (at_site (go f ip) None) (Some e) fs) (mk_fstate f (Some e) fs).

Definition none_to_show (f : flow) : forall e, None = Some e -> here f e = true -> located f e = true.
Proof. discriminate. Qed.

Lemma jump_disables si e ip : si_class si = ptic_jump -> direct si = true -> target si = ip -> stops e ip ->
  ev_ip_suppressed e = false -> disables si e = true.
Proof.
  intros Cl D T (V & Su) Sup. unfold disables. rewrite V, Su, Sup, Cl, D, T. cbn [negb andb]. apply N.eqb_refl.
Qed.

(** One step. *)
Lemma step_agree mem err s o s1 t : bstep mem err s o s1 -> ~ odd s ->
  (executing err s -> f_mode (fs_flow s) <> ptem_unknown) -> agrees s t ->
  exists t1, (o = [] /\ t1 = t \/ fstep mem false err t o t1) /\ agrees s1 t1.
Proof.
  intros B No Md A. inversion B; subst; inversion A; subst; cbn [fs_flow fs_held fs_facts] in *;
    try (cbn [calls at_site go f_cur] in *; congruence).
  - (* take *)
    eexists. split; [right; apply fs_take|]. apply ag_between; [assumption|].
    intros e0 [= <-] He. destruct (here_located _ _ He) as [L|(ip & St & Sup & On & Ip)]; [exact L|].
    exfalso. apply No. eapply odd_here; cbn; eauto.
  - eexists. split; [right; apply fs_take|]. apply ag_at with (ks := ks). assumption.
  - (* instruction *)
    destruct H as (On & Cu & Q). cbn [fs_flow fs_held fs_facts] in *.
    exists (mk_fstate (calls (at_site f (Some (site_of f t0, []))) (f_calls f)) h fs). split.
    + right. replace (calls (at_site f (Some (site_of f t0, []))) (f_calls f)) with (at_site f (Some (site_of f t0, [])))
        by (destruct f; reflexivity).
      apply fs_insn; try assumption.
      * apply Md. split; [exact On|]. split; assumption.
      * destruct h; [|exact Q]. intros L. apply Q. apply located_here. exact L.
    + exact (ag_at (at_site f (Some (site_of f t0, []))) (site_of f t0) [] h fs (f_calls f) eq_refl).
  - destruct H as (_ & Cu & _). cbn in Cu. congruence.
  - destruct H as (On & _ & Q). exfalso. apply Q.
    match goal with St : stops e ?ip |- _ => destruct St as (V & Su) end. unfold here. cbn [fs_flow]. rewrite V, Su.
    match goal with X : ev_ip_suppressed e = false |- _ => rewrite X end. cbn in On |- *. rewrite On, N.eqb_refl. reflexivity.
  - (* cause *)
    destruct (effect_calls _ _ _ _ H4) as (f1 & E1 & ->). cbn in H0. rewrite H9 in H0. injection H0 as -> ->.
    exists (mk_fstate (calls (at_site f1 (Some (s0, k :: ks))) l) None fs). split.
    + right. refine (fs_cause mem false err (calls f0 l) s0 ks k e (calls f1 l) fs _ _ _ _ _ _); try assumption.
      * exact (also_causes_causes _ _ _ H3).
      * clear - E1. revert E1. unfold effect.
        destruct (ev_var e), (ev_status_update e), (ev_ip_suppressed e); cbn [calls f_on f_mode f_asid];
        destruct (f_on f0) eqn:On; cbn [andb orb negb]; try discriminate; intros H;
        repeat match type of H with
          | match f_mode f0 with _ => _ end = _ => destruct (f_mode f0)
          | (if ?c then _ else _) = _ => destruct c
          end; try discriminate H; injection H as <-; reflexivity.
    + exact (ag_at (at_site f1 (Some (s0, k :: ks))) s0 (k :: ks) None fs l eq_refl).
  - (* tracing ends *)
    cbn in H0. match goal with X : f_cur f0 = _ |- _ => rewrite X in H0 end. injection H0 as -> ->.
    destruct (ends_stops _ _ H1) as (ip & St).
    assert (Nc : disables s0 e = true -> si_class s0 <> ptic_call).
    { intros D Cl. apply No. eapply odd_call; cbn; eauto. }
    assert (D : disables s0 e = true /\ branches s0 = true).
    { destruct (ev_ip_suppressed e) eqn:Sup.
      - destruct (disables s0 e) eqn:D.
        + split; [reflexivity|]. destruct (moves_cr3 s0) eqn:Mc.
          * exfalso. apply No. eapply odd_cr3; cbn; eauto.
          * destruct St as (V & Su). unfold ends in H1. rewrite V, Su, Mc, andb_false_r, orb_false_r in H1. exact H1.
        + exfalso. apply No. eapply odd_near; cbn; eauto. congruence.
      - destruct St as (V & Su). unfold ends in H1. rewrite V, Su, Sup in H1. cbn [negb andb] in H1. rewrite orb_false_r in H1.
        split; [|exact H1]. unfold disables. rewrite V, Su, Sup. unfold branches in H1. cbn [negb andb].
        destruct (si_class s0); try reflexivity; try discriminate H1; destruct (direct s0); try reflexivity; discriminate H1. }
    destruct D as (D & Br). specialize (Nc D). rewrite called_other in * by exact Nc.
    exists (mk_fstate (at_site (turn (calls f0 l) false (resume s0)) None) None fs). split.
    + right. eapply fs_disable; eassumption.
    + rewrite resume_same by assumption. apply ag_between; [reflexivity|apply none_to_show].
  - (* leave *)
    cbn in H0. rewrite H8 in H0. injection H0 as -> ->. cbn [calls f_calls] in H3.
    assert (St : (exists e ip', h = Some e /\ si_class s0 = ptic_jump /\ direct s0 = true /\ target s0 = ip' /\
                   stops e ip' /\ ev_ip_suppressed e = false) \/
                 quiet err (binds s0 ks) h fs).
    { destruct h as [e|]; [|right; exact H1]. destruct H2 as [Br|?]; [|discriminate].
      destruct (disables s0 e) eqn:D.
      - left. destruct (disables_stops _ _ D) as (ip' & St). exists e, ip'. split; [reflexivity|].
        assert (Cl : si_class s0 <> ptic_call).
        { intros Cl. apply No. eapply odd_call; cbn; eauto. }
        assert (En : ends s0 e = false).
        { destruct (ends s0 e) eqn:En; [|reflexivity]. exfalso. apply H1. left. exact En. }
        destruct (ev_ip_suppressed e) eqn:Sup.
        + exfalso. apply No. eapply odd_near; cbn; eauto. congruence.
        + unfold disables in D. pose proof St as (V & Su). rewrite V, Su, Sup in D. cbn [negb andb] in D.
          unfold branches in Br. destruct (si_class s0); try discriminate; try congruence.
          destruct (direct s0); [|discriminate]. repeat split; try assumption; try (apply N.eqb_eq; assumption).
      - right. cbn. intros [K|(k & K1 & K2 & K3)]; [congruence|].
        destruct (also_causes s0 ks e) eqn:Al; [apply H1; right; eauto|].
        apply No. eapply odd_second; cbn; eauto.
        intros ->. unfold also_causes in Al. rewrite K3 in Al. cbn [andb] in Al.
        destruct (ev_var e); try discriminate Al; rewrite orb_true_r in Al; discriminate Al. }
    destruct St as [(e & ip' & -> & Cl & D & T & St & Sup)|Q].
    + rewrite called_other in * by congruence.
      assert (X : ip = ip' /\ l = l0 /\ fs' = fs).
      { inversion H3 as [? ? Hc|? ? Hc Di|b ? ? Hc|? ? ? Hc E|? ? ? Hc|? ? ? ? Hc Tk]; subst; auto; try congruence.
        - destruct Hc; congruence.
        - destruct Hc as [(_ & X)|[X|X]]; try congruence. rewrite Cl in X. discriminate X. }
      destruct X as (-> & -> & ->).
      exists (mk_fstate (calls f0 l0) (Some e) fs). split; [left; auto|].
      exact (ag_jump (calls f0 l0) s0 ks e ip' fs H H8 Cl D T St Sup).
    + pose proof (completes_leaves _ _ _ _ _ _ H3) as Le.
      exists (mk_fstate (at_site (go (calls (calls f0 l0) l) ip) None) h fs'). split.
      * right. eapply fs_leave; try eassumption. left. reflexivity.
      * rewrite !calls_calls. apply ag_between; [reflexivity|].
        intros e -> He. destruct (here_located _ _ He) as [L|(ip' & St & Sup & _ & Ip)]; [exact L|].
        exfalso. cbn in Ip. subst ip'. destruct H2 as [Br|?]; [|discriminate].
        inversion H3 as [? ? Hc|? ? Hc Di|b ? ? Hc|? ? ? Hc E|? ? ? Hc|? ? ? ? Hc Tk]; subst.
        -- apply No. eapply odd_next; cbn; eauto.
        -- apply Q. left. unfold disables. destruct St as (V & Su). rewrite V, Su, Sup. cbn [negb andb].
           destruct Hc as [Hc|Hc]; rewrite Hc, Di; apply N.eqb_refl.
        -- unfold branches in Br. rewrite Hc in Br. discriminate.
        -- unfold branches in Br. rewrite Hc in Br. discriminate.
        -- unfold branches in Br. rewrite Hc in Br. discriminate.
        -- unfold branches in Br. destruct Hc as [([Hc|Hc] & Di)|[Hc|Hc]].
           ++ rewrite Hc, Di in Br. discriminate.
           ++ rewrite Hc, Di in Br. discriminate.
           ++ rewrite Hc in Br. discriminate.
           ++ destruct (si_class s0); try discriminate.
  - (* event *)
    eexists. split; [right; eapply fs_event; eauto|]. apply ag_between; [|apply none_to_show].
    pose proof (effect_cur _ _ _ H1). congruence.
  - (* the end of tracing that was left for the jump *)
    exists (mk_fstate (at_site (turn f0 false (resume si)) None) None fs).
    assert (Sh : shown (at_site (go f0 (target si)) None) e = e).
    { destruct H11 as (V & _). unfold shown. rewrite V. reflexivity. }
    rewrite Sh. split.
    + right. eapply fs_disable; try eassumption. eapply jump_disables; eauto.
    + destruct H11 as (V & Su). unfold effect in H1. rewrite V, Su in H1. cbn in H1. rewrite H5 in H1. injection H1 as <-.
      assert (R : resume si = target si) by (unfold resume; rewrite H7, H8; reflexivity). rewrite R.
      exact (ag_between (at_site (turn f0 false (target si)) None) None fs eq_refl (none_to_show _)).
Qed.

(** ** Flows *)

Lemma bflows_app' mem err s o s1 o' s' : bflows mem err s o s1 -> bflows mem err s1 o' s' ->
  bflows mem err s (o ++ o') s'.
Proof.
  intros H. revert o' s'. induction H as [|s o s1 os s2 H1 H2 IH]; intros o' s' H'; [exact H'|].
  rewrite <- app_assoc. econstructor; [exact H1|]. apply IH. exact H'.
Qed.

Lemma orderly_agree s t : agrees s t -> orderly s -> orderly t.
Proof.
  intros A. inversion A; subst; unfold orderly; cbn; auto.
  match goal with X : f_cur _ = _ |- _ => rewrite X end. intros _. destruct fs as [|[]]; auto.
  match goal with X : si_class _ = _ |- _ => rewrite X end. assumption.
Qed.

(** [known]: the mode is known wherever an instruction is executed. *)
Definition known (mem : asid -> memory) (err : pte) (s : fstate) : Prop :=
  forall os s', bflows mem err s os s' -> executing err s' -> f_mode (fs_flow s') <> ptem_unknown.

Lemma flows_agree mem err s os s' : bflows mem err s os s' -> forall t, regular mem err s -> known mem err s -> agrees s t ->
  exists t', flows mem false err t os t' /\ agrees s' t' /\ (used_up mem err s -> orderly_flows mem err t os t').
Proof.
  induction 1 as [s|s o s1 os s' H1 H2 IH]; intros t Rg Kn A.
  - exists t. split; [constructor|]. split; [exact A|]. intros _. constructor.
  - assert (One : forall os2 s2, bflows mem err s1 os2 s2 -> bflows mem err s (o ++ os2) s2)
      by (intros; econstructor; eassumption).
    destruct (step_agree _ _ _ _ _ _ H1 (Rg _ _ (bflows_nil _ _ _)) (Kn _ _ (bflows_nil _ _ _)) A) as (t1 & St & A1).
    assert (Rg1 : regular mem err s1) by (intros os2 s2 F; exact (Rg _ _ (One _ _ F))).
    assert (Kn1 : known mem err s1) by (intros os2 s2 F; exact (Kn _ _ (One _ _ F))).
    destruct (IH t1 Rg1 Kn1 A1) as (t' & F & A' & O). exists t'.
    assert (O' : used_up mem err s -> orderly_flows mem err t1 os t').
    { intros U. apply O. intros os2 s2 F2. exact (U _ _ (One _ _ F2)). }
    destruct St as [(-> & ->)|St].
    + cbn [app]. auto.
    + split; [econstructor; eassumption|]. split; [exact A'|]. intros U.
      econstructor; [|exact St|exact (O' U)]. eapply orderly_agree; [exact A|]. apply (U [] s). constructor.
Qed.

(** The instruction flow does not branch. *)
Lemma flows_prefix mem err s os s1 : flows mem false err s os s1 -> forall ws s2, flows mem false err s ws s2 ->
  (exists ws1 ws2, ws = ws1 ++ ws2 /\ Forall2 same_obs os ws1) \/
  (exists os1 os2, os = os1 ++ os2 /\ Forall2 same_obs os1 ws).
Proof.
  induction 1 as [s|s o s' os s1 H _ IH]; intros ws s2 Hw.
  - left. exists [], ws. split; [reflexivity|constructor].
  - inversion Hw as [|? o' s'' ws' ? Hs Hw']; subst.
    + right. exists [], (o ++ os). split; [reflexivity|constructor].
    + destruct (step_unique _ _ _ _ _ _ _ H Hs) as (<- & So).
      destruct (IH _ _ Hw') as [(ws1 & ws2 & -> & K1)|(os1 & os2 & -> & K)].
      * left. exists (o' ++ ws1), ws2. rewrite app_assoc. split; [reflexivity|]. apply Forall2_app; assumption.
      * right. exists (o ++ os1), os2. rewrite app_assoc. split; [reflexivity|]. apply Forall2_app; assumption.
Qed.

(** Blocks and events stand for a flow. *)
Lemma runs_unfold mem err s bs s' : bruns mem err s bs s' -> exists os, unfolded mem bs os /\ bflows mem err s os s'.
Proof.
  induction 1 as [s|s s1 bs s' F _ (os & U & B)|s b st is s1 bs s' F X _ Cl _ (os & U & B)|s b is s1 F X|s e s1 bs s' F _ (os & U & B)].
  - exists []. split; constructor.
  - exists os. split; [exact U|]. exact (bflows_app' _ _ _ [] _ _ _ F B).
  - exists (map O_insn is ++ os). split; [eapply un_block; eassumption|]. exact (bflows_app' _ _ _ _ _ _ _ F B).
  - exists (map O_insn is). split; [|exact F]. apply un_last with (a := f_asid (fs_flow s)). destruct X as [X|(X & _)]; auto.
  - exists (O_event e :: os). split; [constructor; exact U|]. exact (bflows_app' _ _ _ [_] _ _ _ F B).
Qed.

Lemma start_agrees ip fs : agrees (mk_fstate (flow0 ip) None fs) (mk_fstate (flow0 ip) None fs).
Proof. apply ag_between; [reflexivity|apply none_to_show]. Qed.

Lemma sane_known mem content at_ mode_of err s : sane mem content at_ mode_of err s -> known mem err s.
Proof. intros Sn os s' F Ex Em. eapply Sn; [exact F|]. apply strange_mode; assumption. Qed.

Lemma stream_unique d evs err : stream d evs err -> forall evs' err', stream d evs' err' -> evs = evs' /\ err = err'.
Proof.
  induction 1 as [d d' e E|d d' ev evs e E _ IH]; intros evs' err' H'; inversion H' as [? ? ? E'|? ? ? ? ? E' H2]; subst;
    rewrite E in E'; try discriminate E'.
  - injection E' as _ ->. auto.
  - injection E' as <- <-. destruct (IH _ _ H2) as (-> & ->). auto.
Qed.

(** ** The block flow does not branch *)

Lemma completes_unique s l fs ip l1 fs1 ip' l2 fs2 : completes s l fs ip l1 fs1 -> completes s l fs ip' l2 fs2 ->
  ip = ip' /\ l1 = l2 /\ fs1 = fs2.
Proof.
  intros H H'. destruct H; inversion H'; subst; try congruence; try (repeat split; congruence);
    repeat match goal with
    | K : _ \/ _ |- _ => destruct K
    | K : _ /\ _ |- _ => destruct K
    end; try congruence;
    try (match goal with K : si_class ?s = _, K' : far (si_class ?s) = true |- _ => rewrite K in K'; discriminate K' end);
    match goal with K : takes ?fs _ _, K' : takes ?fs _ _ |- _ => destruct (takes_same _ _ _ _ _ K K') as (-> & ->) end; auto.
Qed.

Lemma bstep_unique mem err s o s1 o' s2 : (executing err s -> f_mode (fs_flow s) <> ptem_unknown) ->
  bstep mem err s o s1 -> bstep mem err s o' s2 -> s1 = s2 /\ Forall2 same_obs o o'.
Proof.
  assert (Ev : forall e, Forall2 same_obs [O_event e] [O_event e]) by (intros e; constructor; [reflexivity|constructor]).
  intros Md H H'. destruct H; inversion H'; subst; cbn [quiet] in *;
    repeat match goal with X : executing _ _ |- _ => let a := fresh "On" in let b := fresh "Cu" in let c := fresh "Q" in
      pose proof (Md X); destruct X as (a & b & c); cbn [fs_flow fs_held fs_facts quiet] in a, b, c end;
    try congruence; try contradiction; auto;
    repeat match goal with
    | K : f_cur ?f = Some _, K' : f_cur ?f = Some _ |- _ => rewrite K in K'; injection K' as ? ?; subst
    end.
  - destruct (insn_unique mem f t i t0 i0) as (-> & K); try assumption. split; [reflexivity|]. constructor; [exact K|constructor].
  - split; [|apply Ev]. congruence.
  - exfalso. unfold ends, kind_of in *. destruct (ev_var e); discriminate.
  - exfalso. match goal with K : ~ belongs _ _ _ |- _ => apply K end. right. eauto.
  - exfalso. unfold ends, kind_of in *. destruct (ev_var e); discriminate.
  - split; [reflexivity|apply Ev].
  - exfalso. match goal with K : ~ belongs _ _ _ |- _ => apply K end. left. assumption.
  - exfalso. match goal with K : ~ belongs _ _ _ |- _ => apply K end. right. eauto.
  - exfalso. match goal with K : ~ belongs _ _ _ |- _ => apply K end. left. assumption.
  - match goal with K : completes _ _ _ _ _ _, K' : completes _ _ _ _ _ _ |- _ =>
      destruct (completes_unique _ _ _ _ _ _ _ _ _ K K') as (-> & -> & ->) end. split; [reflexivity|constructor].
  - split; [congruence|apply Ev].
Qed.

(** A property of all states of a flow, step by step. *)
Lemma flow_step mem err (P : fstate -> Prop) s o s1 : known mem err s -> bstep mem err s o s1 -> P s ->
  (forall os s', bflows mem err s1 os s' -> P s') -> forall os s', bflows mem err s os s' -> P s'.
Proof.
  intros Kn H Ps H1 os s' F. destruct F as [|s o' s2 os s' H' F]; [exact Ps|].
  destruct (bstep_unique _ _ _ _ _ _ _ (Kn _ _ (bflows_nil _ _ _)) H H') as (<- & _). exact (H1 _ _ F).
Qed.
Lemma flow_end mem err (P : fstate -> Prop) s : (forall o s1, ~ bstep mem err s o s1) -> P s ->
  forall os s', bflows mem err s os s' -> P s'.
Proof. intros N Ps os s' F. destruct F as [|s o s1 os s' H _]; [exact Ps|]. destruct (N _ _ H). Qed.
Lemma known_step mem err s o s1 : bstep mem err s o s1 -> known mem err s -> known mem err s1.
Proof. intros H K os s' F. apply (K (o ++ os)). econstructor; eassumption. Qed.

Lemma flow_next mem err (P : fstate -> Prop) s o s1 : known mem err s -> bstep mem err s o s1 -> P s ->
  (known mem err s1 -> forall os s', bflows mem err s1 os s' -> P s') -> forall os s', bflows mem err s os s' -> P s'.
Proof. intros K H Ps H1. eapply flow_step; [exact K|exact H|exact Ps|]. apply H1. eapply known_step; eassumption. Qed.

(** ** All of the block flow *)

Lemma bflows_all mem err s os s1 : bflows mem err s os s1 -> known mem err s ->
  forall ws s2, orderly_bflows mem err s ws s2 ->
  (exists ws1 ws2, ws = ws1 ++ ws2 /\ Forall2 same_obs os ws1 /\ orderly_bflows mem err s1 ws2 s2) \/
  (exists os1 os2, os = os1 ++ os2 /\ Forall2 same_obs os1 ws).
Proof.
  induction 1 as [s|s o s1 os s' H F IH]; intros K ws s2 W.
  - left. exists [], ws. repeat split; [constructor|exact W].
  - destruct W as [s|s o' s3 ws s2 _ H' W].
    + right. exists [], (o ++ os). split; [reflexivity|constructor].
    + destruct (bstep_unique _ _ _ _ _ _ _ (K _ _ (bflows_nil _ _ _)) H H') as (<- & So).
      destruct (IH (known_step _ _ _ _ _ H K) _ _ W) as [(ws1 & ws2 & -> & K1 & K2)|(os1 & os2 & -> & K1)].
      * left. exists (o' ++ ws1), ws2. rewrite app_assoc. split; [reflexivity|]. split; [apply Forall2_app; assumption|exact K2].
      * right. exists (o ++ os1), os2. rewrite app_assoc. split; [reflexivity|]. apply Forall2_app; assumption.
Qed.

Lemma blocked_flows mem err s ws s' : blocked mem err s -> orderly_bflows mem err s ws s' -> ws = [].
Proof. intros B W. destruct W as [s|s o s1 os s' O H _]; [reflexivity|]. destruct (B _ _ H O). Qed.

(** A decoder that gave up, and not for an excused reason, showed everything. *)
Lemma gave_all mem err (ex : pte -> Prop) e s os s1 : bflows mem err s os s1 -> known mem err s -> gives_up mem err ex e s1 -> ~ ex e ->
  forall ws s2, orderly_bflows mem err s ws s2 -> exists os1 os2, os = os1 ++ os2 /\ Forall2 same_obs os1 ws.
Proof.
  intros F K (s3 & F' & [X|B]) N ws s2 W; [destruct (N X)|].
  pose proof (bflows_app' _ _ _ _ _ _ _ F F') as FF. rewrite app_nil_r in FF.
  destruct (bflows_all _ _ _ _ _ FF K _ _ W) as [(ws1 & ws2 & -> & K1 & K2)|K1]; [|exact K1].
  rewrite (blocked_flows _ _ _ _ _ B K2), app_nil_r in *. exists os, []. rewrite app_nil_r. auto.
Qed.
