(** Lemmas on the instruction flow decoder: queries in terms of facts. *)

From Coq Require Import List NArith ZArith Bool PeanoNat Lia ZifyBool ZifyNat ZifyN.
From Verif Require Import Base M_config M_pktdec M_event M_evdec M_query M_retstack M_asid M_ildtab M_ild
  M_insn M_insndec S_core S_evdec S_x86 S_insn S_query S_flow S_drive L_core L_evdec L_evsafe L_evnext L_insn T_insn
  L_query L_query2 T_evdec T_evtrace.
Import ListNotations.
Open Scope N_scope.

(** TNT events have at least one bit, and fit. *)
Definition full (e : event) : Prop :=
  is_tnt e = true -> bits_of e <> [] /\ (length (bits_of e) <= 64)%nat.
Definition full_spec (s : qspec) : Prop := Forall full (qs_evs s).

Lemma full_absorb s s' r : full_spec s -> absorb s = (s', r) -> full_spec s'.
Proof.
  unfold full_spec, absorb. intros H. destruct (qs_evs s) as [|e evs] eqn:E.
  - intros [= <- <-]. rewrite E. constructor.
  - destruct (is_tnt e); [destruct (Nat.leb _ _)|]; intros [= <- <-]; cbn [qs_evs]; rewrite ?E; auto.
    inversion H; assumption.
Qed.

Lemma absorb_err s s' r : absorb s = (s', r) -> qs_err s' = qs_err s.
Proof.
  unfold absorb. destruct (qs_evs s) as [|e evs]; [intros [= <- <-]; reflexivity|].
  destruct (is_tnt e); [destruct (Nat.leb _ _)|]; intros [= <- <-]; reflexivity.
Qed.
Lemma spec_err s :
  (forall s' r, spec_cond s = (s', r) -> qs_err s' = qs_err s) /\
  (forall s' r, spec_indirect s = (s', r) -> qs_err s' = qs_err s) /\
  (forall s' r, spec_event s = (s', r) -> qs_err s' = qs_err s).
Proof.
  unfold spec_cond, spec_indirect, spec_event. destruct (absorb s) as [s1 r1] eqn:Ea.
  pose proof (absorb_err _ _ _ Ea) as E1. repeat split; intros s' r.
  - destruct (qs_bits s); [|intros [= <- <-]; reflexivity].
    destruct r1; [|intros [= <- <-]; exact E1|intros [= <- <-]; exact E1].
    destruct (qs_bits s1); intros [= <- <-]; exact E1.
  - destruct r1; [|intros [= <- <-]; exact E1|intros [= <- <-]; exact E1].
    destruct (qs_evs s1) as [|e evs]; [intros [= <- <-]; exact E1|].
    destruct (ev_var e); intros [= <- <-]; exact E1.
  - destruct (qs_bits s); [|intros [= <- <-]; reflexivity].
    destruct (qs_evs s) as [|e evs]; [intros [= <- <-]; reflexivity|].
    destruct (plain e); intros [= <- <-]; reflexivity.
Qed.

(** An event is next, or an error. *)
Definition loud (err : pte) (fs : list fact) : bool :=
  match fs with
  | F_event _ :: _ => true
  | [] => match err with pte_eos => false | _ => true end
  | _ => false
  end.
Lemma loud_quiet err now fs : loud err fs = false -> quiet err now None fs.
Proof.
  unfold loud, quiet. destruct fs as [|[]]; auto; [|discriminate]. destruct err; try discriminate. auto.
Qed.
Lemma flags_loud s : full_spec s -> flag (qs_flags s) pts_event_pending = loud (qs_err s) (rest s).
Proof.
  unfold qs_flags, loud, rest. intros Hf. destruct (qs_bits s) as [|b bits]; [|reflexivity].
  destruct (qs_evs s) as [|e evs] eqn:Ee.
  - cbn. destruct (qs_err s); reflexivity.
  - unfold full_spec in Hf. rewrite Ee in Hf. inversion Hf as [|? ? F _]; subst.
    unfold full in F. unfold plain, is_tnt, is_tip in *. cbn [map app flat_map]. unfold facts_of, bits_of in *.
    destruct (ev_var e); try reflexivity.
    destruct (F eq_refl) as (F1 & _). destruct (payload_bits bits size); [congruence|reflexivity].
Qed.

Lemma rest_nil_flags s : flag (qs_flags s) pts_eos = true -> rest s = [].
Proof.
  unfold qs_flags, rest. destruct (qs_bits s); [|discriminate]. destruct (qs_evs s) as [|e evs].
  - reflexivity.
  - destruct (plain e); discriminate.
Qed.

Lemma spec_cond_facts s : full_spec s ->
  match spec_cond s with
  | (s', Ok (b, st)) => rest s = F_bit b :: rest s' /\ st = qs_flags s' /\ full_spec s'
  | (s', Err e) => rest s' = rest s /\ full_spec s' /\ (e = pte_eos -> rest s = []) /\
                   (forall b fs, rest s <> F_bit b :: fs)
  | (_, UB _) => False
  end.
Proof.
  intros Hf. unfold spec_cond.
  destruct (qs_bits s) as [|b bits] eqn:Eb.
  2:{ unfold rest. rewrite Eb. auto. }
  destruct (absorb s) as [s1 r] eqn:Ea. destruct (absorb_rest _ _ _ Ea) as (Er & Hu).
  pose proof (full_absorb _ _ _ Hf Ea) as Hf1.
  destruct r as [[]|e|u]; [| |destruct Hu].
  - destruct (qs_bits s1) as [|b bits] eqn:Eb1.
    + split; [exact Er|]. split; [exact Hf1|].
      unfold absorb in Ea. rewrite Eb in Ea. destruct (qs_evs s) as [|e evs] eqn:Ee; [discriminate Ea|].
      destruct (is_tnt e) eqn:Et.
      * exfalso. destruct (Nat.leb _ _); [|discriminate Ea]. injection Ea as <-. cbn in Eb1.
        unfold full_spec in Hf. rewrite Ee in Hf. inversion Hf as [|? ? F]; subst. exact (proj1 (F Et) Eb1).
      * injection Ea as <-. unfold qs_none, rest. rewrite Ee, Eb. cbn [map app flat_map].
        split; [discriminate|]. intros b fs. unfold facts_of, is_tnt in *.
        destruct (ev_var e); discriminate.
    + unfold rest at 2. cbn [qs_bits qs_evs]. rewrite <- Er. unfold rest. rewrite Eb1. auto.
  - split; [exact Er|]. split; [exact Hf1|]. unfold absorb in Ea.
    destruct (qs_evs s) as [|e' evs] eqn:Ee.
    + injection Ea as <- <-. unfold rest. rewrite Eb, Ee. cbn. split; [reflexivity|]. intros b fs. discriminate.
    + destruct (is_tnt e') eqn:Et; [|discriminate Ea]. exfalso.
      unfold full_spec in Hf. rewrite Ee in Hf. inversion Hf as [|? ? F]; subst.
      destruct (F Et) as (_ & L). rewrite Eb in Ea. cbn [app] in Ea.
      destruct (Nat.leb_spec (length (bits_of e')) 64); [discriminate Ea|]. lia.
Qed.

Definition flags_ip (st : N) (s : qspec) (ip : option N) : Prop :=
  st = N.lor (match ip with Some _ => 0 | None => pts_ip_suppressed end) (qs_flags s).

Lemma spec_indirect_facts s : full_spec s ->
  match spec_indirect s with
  | (s', Ok (ip, st)) =>
      (exists bits post, rest s = map F_bit bits ++ F_tip ip :: post /\ rest s' = map F_bit bits ++ post) /\
      flags_ip st s' ip /\ full_spec s'
  | (s', Err e) => rest s' = rest s /\ full_spec s' /\ (e = pte_eos -> filter not_bit (rest s) = []) /\
                   (forall ip fs, rest s <> F_tip ip :: fs)
  | (_, UB _) => False
  end.
Proof.
  intros Hf. unfold spec_indirect.
  destruct (absorb s) as [s1 r] eqn:Ea. destruct (absorb_rest _ _ _ Ea) as (Er & Hu).
  pose proof (full_absorb _ _ _ Hf Ea) as Hf1.
  assert (Nb : forall l, filter not_bit (map F_bit l) = []) by (induction l; auto).
  assert (Hend : qs_evs s1 = [] -> filter not_bit (rest s) = []).
  { intros E. rewrite <- Er. unfold rest. rewrite E. cbn. rewrite app_nil_r. apply Nb. }
  destruct r as [[]|e|u]; [| |destruct Hu].
  - destruct (qs_evs s1) as [|e evs] eqn:Ee.
    { split; [exact Er|]. split; [exact Hf1|]. split; [auto|]. intros ip fs. rewrite <- Er. unfold rest.
      rewrite Ee, app_nil_r. destruct (qs_bits s1); discriminate. }
    assert (Hq : is_tip e = false -> rest s1 = rest s /\ full_spec s1 /\
      (pte_bad_query = pte_eos -> filter not_bit (rest s) = []) /\ (forall ip fs, rest s <> F_tip ip :: fs)).
    { intros Ht. split; [exact Er|]. split; [exact Hf1|]. split; [discriminate|]. intros ip fs. rewrite <- Er.
      unfold rest. rewrite Ee. destruct (qs_bits s1); [|discriminate]. cbn [map app flat_map].
      unfold is_tip in Ht. unfold facts_of at 1. unfold full_spec in Hf1. rewrite Ee in Hf1.
      inversion Hf1 as [|? ? F _]; subst. unfold full, is_tnt, bits_of in F |- *.
      destruct (ev_var e); try discriminate Ht; try discriminate.
      destruct (F eq_refl) as (F1 & _). destruct (payload_bits bits size); [congruence|discriminate]. }
    unfold is_tip in Hq.
    destruct (ev_var e) eqn:Ev; try exact (Hq eq_refl).
    split; [|split].
    + exists (qs_bits s1), (flat_map facts_of evs). rewrite <- Er. unfold rest. rewrite Ee.
      cbn [flat_map qs_bits qs_evs]. unfold facts_of at 1. rewrite Ev. split; reflexivity.
    + unfold flags_ip. destruct (ev_ip_suppressed e); reflexivity.
    + unfold full_spec in *. rewrite Ee in Hf1. inversion Hf1; assumption.
  - split; [exact Er|]. split; [exact Hf1|]. unfold absorb in Ea.
    destruct (qs_evs s) as [|e' evs] eqn:Ee.
    + injection Ea as <- <-. split; [intros _; apply Hend; exact Ee|]. intros ip fs. unfold rest.
      rewrite Ee, app_nil_r. destruct (qs_bits s); discriminate.
    + destruct (is_tnt e') eqn:Et; [|discriminate Ea]. destruct (Nat.leb _ _) eqn:El; [discriminate Ea|].
      injection Ea as <- <-. split; [discriminate|]. intros ip fs. unfold rest. rewrite Ee.
      destruct (qs_bits s); [|discriminate]. cbn [map app flat_map].
      unfold full_spec in Hf. rewrite Ee in Hf. inversion Hf as [|? ? F _]; subst.
      destruct (F Et) as (_ & L). apply Nat.leb_gt in El. cbn [app] in El. lia.
Qed.

Lemma spec_event_facts s : full_spec s ->
  match spec_event s with
  | (s', Ok (oe, st)) => exists e, oe = Some e /\ plain e = true /\ rest s = F_event e :: rest s' /\
                         st = qs_flags s' /\ full_spec s'
  | (s', Err e) => rest s' = rest s /\ full_spec s' /\ (e = pte_eos -> rest s = []) /\
                   (flag (qs_flags s) pts_event_pending = true -> rest s = [] /\ e = qs_err s /\ e <> pte_eos)
  | (_, UB _) => False
  end.
Proof.
  intros Hf. unfold spec_event. destruct (qs_bits s) as [|b bits] eqn:Eb.
  2:{ unfold qs_flags. rewrite Eb. repeat split; auto; discriminate. }
  destruct (qs_evs s) as [|e evs] eqn:Ee.
  - assert (R0 : rest s = []) by (unfold rest; rewrite Eb, Ee; reflexivity).
    split; [auto|]. split; [auto|]. split; [auto|]. intros Hp. split; [exact R0|]. split; [reflexivity|].
    unfold qs_flags in Hp. rewrite Eb, Ee in Hp. destruct (qs_err s); discriminate.
  - destruct (plain e) eqn:Ep.
    2:{ unfold qs_flags. rewrite Eb, Ee, Ep. repeat split; auto; discriminate. }
    exists e. split; [reflexivity|]. split; [exact Ep|]. unfold rest. rewrite Eb, Ee.
    cbn [map app flat_map qs_bits qs_evs]. rewrite (plain_facts e Ep). repeat split.
    unfold full_spec in *. rewrite Ee in Hf. inversion Hf; assumption.
Qed.

(** Addresses. *)
Lemma add64_disp ip n x : add64 (add64 ip (N.of_nat n)) (of_int64 x) =
  Z.to_N ((Z.of_N ip + Z.of_nat n + x) mod 2 ^ 64).
Proof.
  unfold add64, of_int64. rewrite N.add_mod_idemp_l by discriminate.
  rewrite <- (N2Z.id (_ mod _)). f_equal. rewrite N2Z.inj_mod, !N2Z.inj_add, Z2N.id.
  - change (Z.of_N (2 ^ 64)) with (2 ^ 64)%Z. rewrite Z.add_mod_idemp_r by discriminate.
    f_equal. lia.
  - apply Z.mod_pos_bound. reflexivity.
Qed.

(** The instruction as a site. *)
Definition site_of_insn (i : insn) (x : insn_ext) : site := mk_site (in_ip i) (in_size i) (in_iclass i) x.

Lemma push_rep r l ip : rs_rep r l -> exists r', pt_retstack_push r ip = (r', Ok tt) /\ rs_rep r' (firstn 64 (ip :: l)).
Proof.
  intros H. pose proof (rs_step_sim r l (RsPush ip) H) as (E & R). unfold rs_step, lifo_step in E, R.
  destruct (pt_retstack_push r ip) as [r' x]. cbn [fst snd] in E, R. exists r'. split; [congruence|exact R].
Qed.
Lemma pop_rep r l : rs_rep r l ->
  match l with
  | ip :: l' => exists r', pt_retstack_pop r = (r', Ok ip) /\ rs_rep r' l'
  | [] => exists r', pt_retstack_pop r = (r', Err pte_retstack_empty) /\ rs_rep r' []
  end.
Proof.
  intros H. pose proof (rs_step_sim r l RsPop H) as (E & R). unfold rs_step, lifo_step in E, R.
  destruct (pt_retstack_pop r) as [r' x]. cbn [fst snd] in E, R.
  destruct l; cbn [fst snd] in E, R; exists r'; (split; [congruence|exact R]).
Qed.
