(** Lemmas on the block decoder: most functions leave the section cache and block caches
    alone, whatever their result. *)

From Coq Require Import List NArith ZArith Bool.
From Verif Require Import Base M_config M_time M_event M_evdec M_asid M_ildtab M_ild M_insn M_insndec M_blk.
Import ListNotations.
Open Scope N_scope.

Section CALM.
  Context {S C : Type} (im : blk_image S C).
  Notation dec := (blkdec C).
  Definition same_caches (d d' : dec) : Prop := bd_caches d' = bd_caches d /\ bd_scache d' = bd_scache d.
  Definition spares {A} (m : dec * block -> (dec * block) * res A) : Prop :=
    forall d b, same_caches d (fst (fst (m (d, b)))).

  Lemma sc_refl d : same_caches d d.
  Proof. split; reflexivity. Qed.
  Lemma sc_trans d1 d2 d3 : same_caches d1 d2 -> same_caches d2 d3 -> same_caches d1 d3.
  Proof. intros (H1 & H2) (H3 & H4). split; congruence. Qed.

  Lemma ca_bind {A B} (m : M A) (k : A -> M B) : spares m -> (forall a, spares (k a)) -> spares (bind m k).
  Proof.
    intros Hm Hk d b. unfold bind. specialize (Hm d b). destruct (m (d, b)) as [[d1 b1] [a|x|u]]; cbn [fst] in *; auto.
    eapply sc_trans; [exact Hm|apply Hk].
  Qed.
  Lemma ca_state {B} (k : dec -> M B) : (forall d b, same_caches d (fst (fst (k d (d, b))))) -> spares (bind state k).
  Proof. intros H d b. apply H. Qed.
  Lemma ca_get {B} (k : dec -> M B) : (forall d, spares (k d)) -> spares (bind state k).
  Proof. intros H d b. unfold bind, state. cbn [fst]. apply H. Qed.
  Lemma ca_blk {B} (k : block -> M B) : (forall b, spares (k b)) -> spares (bind blk k).
  Proof. intros H d b. unfold bind, blk. cbn [snd]. apply H. Qed.
  Lemma ca_ret {A} (a : A) : spares (ret a).
  Proof. intros d b. apply sc_refl. Qed.
  Lemma ca_fail {A} x : spares (@fail C A x).
  Proof. intros d b. apply sc_refl. Qed.
  Lemma ca_lift {A} (r : res A) : spares (lift r).
  Proof. intros d b. apply sc_refl. Qed.
  Lemma ca_change f : (forall d, same_caches d (f d)) -> spares (change f).
  Proof. intros H d b. apply H. Qed.
  Lemma ca_blkch f : spares (change_blk f).
  Proof. intros d b. apply sc_refl. Qed.

  Ltac ca :=
    repeat match goal with
    | |- spares (bind state _) => apply ca_get; intros
    | |- spares (bind blk _) => apply ca_blk; intros
    | |- spares (bind _ _) => apply ca_bind; [|intros]
    | |- spares (ret _) => apply ca_ret
    | |- spares (fail _) => apply ca_fail
    | |- spares (lift _) => apply ca_lift
    | |- spares (change_blk _) => apply ca_blkch
    | |- spares (change _) => apply ca_change; let d := fresh "d" in intros d;
        first [split; reflexivity | match goal with |- same_caches _ (if ?c then _ else _) => destruct c; split; reflexivity end]
    | |- spares (let (_, _) := ?x in _) => destruct x
    | |- spares (match ?x with _ => _ end) => destruct x
    end.

  Lemma ca_anchor (d d' : dec) ev : pt_blk_find_trig_anchor d ev = Ok d' -> same_caches d d'.
  Proof.
    unfold pt_blk_find_trig_anchor. destruct (ev_var ev); destruct (ev_ip_suppressed ev);
      intros E; try discriminate E; injection E as <-; split; reflexivity.
  Qed.
  Lemma ca_fetch : spares (@pt_blk_fetch_event C).
  Proof.
    intros d b. unfold pt_blk_fetch_event, bind, state, fail, change, lift. cbn [fst]. destruct (bd_event d) as [ev|]; [|apply sc_refl].
    cbn [fst]. destruct (pt_blk_find_trig_anchor _ ev) as [d1|e|u] eqn:E; cbn [fst]; try (split; reflexivity).
    apply ca_anchor in E. destruct (pt_evt_next _) as [q [e|e|u]]; cbn [fst]; try (split; reflexivity);
      destruct E as (E1 & E2); split; cbn; assumption.
  Qed.
  Lemma ca_tick ip : spares (@pt_blk_tick C ip).
  Proof. unfold pt_blk_tick. ca; apply ca_fetch. Qed.
  Lemma ca_indirect : spares (@pt_blk_proceed_indirect C).
  Proof. unfold pt_blk_proceed_indirect. ca; apply ca_tick. Qed.
  Lemma ca_cond : spares (@pt_blk_cond_branch C).
  Proof. unfold pt_blk_cond_branch. ca. Qed.
  Lemma ca_trace i x : spares (@pt_blk_proceed_with_trace C i x).
  Proof. unfold pt_blk_proceed_with_trace. ca; first [apply ca_indirect | apply ca_cond | apply ca_tick]. Qed.
  Lemma ca_push ip : spares (@push C ip).
  Proof. unfold push. ca. Qed.
  Lemma ca_log i x : spares (@pt_blk_log_call C i x).
  Proof. unfold pt_blk_log_call. ca; apply ca_push. Qed.
  Lemma ca_count n : spares (@count C n).
  Proof. unfold count. ca. Qed.
  Lemma ca_one : spares (pt_blk_proceed_one_insn im).
  Proof. unfold pt_blk_proceed_one_insn. ca; first [apply ca_log | apply ca_count]. Qed.
  Lemma ca_to_insn pred fuel : spares (to_insn im fuel pred).
  Proof. induction fuel as [|n IH]; cbn [to_insn]; ca; first [apply ca_one | apply IH]. Qed.
  Lemma ca_proceed_to_insn pred : spares (pt_blk_proceed_to_insn im pred).
  Proof. unfold pt_blk_proceed_to_insn. ca; apply ca_to_insn. Qed.
  Lemma ca_to_ip ip fuel : spares (to_ip im fuel ip).
  Proof. induction fuel as [|n IH]; cbn [to_ip]; ca; first [apply ca_one | apply IH]. Qed.
  Lemma ca_proceed_to_ip ip : spares (pt_blk_proceed_to_ip im ip).
  Proof. unfold pt_blk_proceed_to_ip. ca; apply ca_to_ip. Qed.
  Lemma ca_skl014 fuel : spares (skl014 im fuel).
  Proof. induction fuel as [|n IH]; cbn [skl014]; ca; first [apply ca_proceed_to_insn | apply IH]. Qed.
  Lemma ca_proceed_skl014 : spares (pt_blk_proceed_skl014 im).
  Proof. unfold pt_blk_proceed_skl014. ca; apply ca_skl014. Qed.
  Lemma ca_to_disabled ev ip : spares (pt_blk_proceed_to_disabled im ev ip).
  Proof. unfold pt_blk_proceed_to_disabled. ca; first [apply ca_proceed_to_insn | apply ca_proceed_to_ip | apply ca_proceed_skl014]. Qed.
  Lemma ca_resume i : spares (@pt_blk_set_disable_resume_ip C i).
  Proof. unfold pt_blk_set_disable_resume_ip. ca. Qed.
  Lemma ca_to_cause pred ev ip : spares (proceed_to_cause im pred ev ip).
  Proof. unfold proceed_to_cause. ca; first [apply ca_proceed_to_insn | apply ca_proceed_to_ip | apply ca_one]. Qed.
  Lemma ca_provide ev trbv icnt ip mult : spares (@pt_blk_provide_trig_anchor C ev trbv icnt ip mult).
  Proof. unfold pt_blk_provide_trig_anchor. ca. Qed.
  Lemma ca_trig_loop ev trbv mult fuel : forall icnt, spares (trig_loop im fuel ev trbv icnt mult).
  Proof. induction fuel as [|n IH]; intros icnt; cbn [trig_loop]; ca; first [apply ca_one | apply IH]. Qed.
  Lemma ca_to_trig ev trbv icnt ip mult : spares (pt_blk_proceed_to_trig im ev trbv icnt ip mult).
  Proof. unfold pt_blk_proceed_to_trig. ca; first [apply ca_provide | apply ca_proceed_to_ip | apply ca_trig_loop]. Qed.
  Lemma ca_skd022 ev at_ ip : spares (pt_blk_handle_erratum_skd022 im ev at_ ip).
  Proof. unfold pt_blk_handle_erratum_skd022. ca. Qed.
  Lemma ca_indicate f : spares (@indicate C f).
  Proof. unfold indicate. ca. Qed.
  Lemma ca_pending : spares (@pending C).
  Proof. apply ca_indicate. Qed.
  Lemma ca_postpone p mark : spares (@pt_blk_postpone_insn C p mark).
  Proof. unfold pt_blk_postpone_insn. ca; apply ca_indicate. Qed.
  Lemma ca_clear : spares (@pt_blk_clear_postponed_insn C).
  Proof. unfold pt_blk_clear_postponed_insn. ca. Qed.
  Lemma ca_postponed : spares (@pt_blk_proceed_postponed_insn C).
  Proof. unfold pt_blk_proceed_postponed_insn. ca; first [apply ca_clear | apply ca_trace]. Qed.
  Lemma ca_event_at_ip ip : spares (event_at_ip im ip).
  Proof. unfold event_at_ip. ca; first [apply ca_pending | apply ca_proceed_to_ip]. Qed.
  Lemma ca_event_at_insn w mark : spares w -> spares (@event_at_insn C w mark).
  Proof. intros H. unfold event_at_insn. ca; first [exact H | apply ca_postpone]. Qed.
  Lemma ca_event_disabled ev ip : spares (event_disabled im ev ip).
  Proof. unfold event_disabled. ca; first [apply ca_to_disabled | apply ca_resume | apply ca_pending]. Qed.
  Lemma ca_event : spares (pt_blk_proceed_event im).
  Proof.
    unfold pt_blk_proceed_event. ca; first [apply ca_pending | apply ca_event_at_ip
      | apply ca_event_at_insn; first [apply ca_proceed_to_insn | apply ca_to_cause]
      | apply ca_event_disabled | apply ca_to_trig | apply ca_skd022 | apply ca_proceed_to_ip | apply ca_proceed_to_insn].
  Qed.
  Lemma ca_uncached : spares (pt_blk_proceed_no_event_uncached im).
  Proof. unfold pt_blk_proceed_no_event_uncached. ca; first [apply ca_proceed_to_insn | apply ca_trace]. Qed.
  Lemma ca_truncated : spares (pt_blk_proceed_truncated im).
  Proof. unfold pt_blk_proceed_truncated. ca; first [apply ca_log | apply ca_trace]. Qed.
  Lemma ca_bdm64 ip aborted : spares (pt_blk_handle_erratum_bdm64 im ip aborted).
  Proof. unfold pt_blk_handle_erratum_bdm64. ca. Qed.
  Lemma ca_tsx given ev ip aborted : spares (pt_blk_postpone_trailing_tsx im given ev ip aborted).
  Proof. unfold pt_blk_postpone_trailing_tsx. ca; apply ca_bdm64. Qed.
  Lemma ca_trailing given fuel : spares (trailing im fuel given).
  Proof.
    induction fuel as [|n IH]; cbn [trailing]; cbv zeta; ca;
      first [apply ca_postponed | apply ca_indicate | apply ca_pending | apply ca_tsx | apply ca_fetch | apply ca_resume | apply ca_skd022
            | apply ca_clear | apply ca_postpone | apply ca_provide | apply IH].
  Qed.
  Lemma ca_trailing_event given : spares (pt_blk_proceed_trailing_event im given).
  Proof. apply ca_trailing. Qed.
End CALM.
