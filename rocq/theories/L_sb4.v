(** Sideband sessions: additions to the callbacks do not change what a session does. *)
From Verif Require Import Base M_event M_sb S_sb2.
From Coq Require Import List NArith Bool PeanoNat.
Import ListNotations.
Open Scope nat_scope.

Section ERASE.
  Context {P W Q V : Type} (ops : sbops P W) (ops' : sbops Q V) (fp : Q -> P) (fw : V -> W).
  Definition out3 {A} (x : V * Q * res A) : W * P * res A := (fw (fst (fst x)), fp (snd (fst x)), snd x).
  Hypothesis E_fetch : forall w p, so_fetch ops (fw w) (fp p) = out3 (so_fetch ops' w p).
  Hypothesis E_apply : forall g ev w p, so_apply ops g ev (fw w) (fp p) = out3 (so_apply ops' g ev w p).
  Hypothesis E_print : forall w p, so_print ops (fw w) (fp p) = out3 (so_print ops' w p).
  Hypothesis E_dtor : forall w p, so_dtor ops (fw w) (fp p) = (fw (fst (so_dtor ops' w p)), snd (so_dtor ops' w p)).

  Notation ed := (erase_dec fp).
  Notation es := (erase fp).
  Definition outd (x : V * sbdec Q * res unit) : W * sbdec P * res unit := (fw (fst (fst x)), ed (snd (fst x)), snd x).
  Definition outs (x : session Q * V * res unit) : session P * W * res unit := (es (fst (fst x)), fw (snd (fst x)), snd x).

  Lemma fetch_erase w d : pt_sb_fetch ops (fw w) (ed d) = outd (pt_sb_fetch ops' w d).
  Proof.
    unfold pt_sb_fetch. cbn [erase_dec sd_priv]. rewrite E_fetch. unfold out3.
    destruct (so_fetch ops' w (sd_priv d)) as ((w1, p1), [t|e|u]); reflexivity.
  Qed.
  Lemma apply_erase ev w d : pt_sb_apply ops ev (fw w) (ed d) = outd (pt_sb_apply ops' ev w d).
  Proof.
    unfold pt_sb_apply. cbn [erase_dec sd_priv sd_primary]. rewrite E_apply. unfold out3.
    destruct (so_apply ops' (sd_primary d) ev w (sd_priv d)) as ((w1, p1), r); reflexivity.
  Qed.
  Lemma print_erase w d : pt_sb_print ops (fw w) (ed d) = outd (pt_sb_print ops' w d).
  Proof.
    unfold pt_sb_print. cbn [erase_dec sd_priv]. rewrite E_print. unfold out3.
    destruct (so_print ops' w (sd_priv d)) as ((w1, p1), r); reflexivity.
  Qed.
  Lemma add_erase d l : pt_sb_add_decoder (ed d) (map ed l) = map ed (pt_sb_add_decoder d l).
  Proof.
    induction l as [|c l IH]; [reflexivity|]. cbn [map pt_sb_add_decoder]. cbn [erase_dec sd_tsc].
    destruct (N.leb (sd_tsc d) (sd_tsc c)); [reflexivity|]. now rewrite IH.
  Qed.

  Lemma init_erase : forall l s w, init_loop ops (map ed l) (es s) (fw w) = outs (init_loop ops' l s w).
  Proof.
    induction l as [|d l IH]; intros s w; [reflexivity|]. cbn [map init_loop]. rewrite fetch_erase. unfold outd.
    destruct (pt_sb_fetch ops' w d) as ((w1, d1), [[]|e|u]); cbn [fst snd].
    - cbn [ss_decoders ss_waiting ss_retired ss_removed]. change (ss_decoders (es s)) with (map ed (ss_decoders s)). rewrite add_erase.
      apply (IH (mk_session (pt_sb_add_decoder d1 (ss_decoders s)) l (ss_retired s) (ss_removed s))).
    - change (sd_priv (ed d1)) with (fp (sd_priv d1)). rewrite E_dtor.
      destruct (so_dtor ops' w1 (sd_priv d1)) as (w2, [x|x|x]); cbn [fst snd];
        [apply (IH (mk_session (ss_decoders s) l (ss_retired s) (ss_removed s)))
        |apply (IH (mk_session (ss_decoders s) l (ss_retired s) (ss_removed s)))|reflexivity].
    - reflexivity.
  Qed.

  Lemma turn_erase printing ev d s w : turn ops printing ev (ed d) (es s) (fw w) = outs (turn ops' printing ev d s w).
  Proof.
    unfold turn.
    assert (T : set_decoders (es s) (tl (ss_decoders (es s))) = es (set_decoders s (tl (ss_decoders s)))).
    { unfold set_decoders, erase. cbn. now destruct (ss_decoders s). }
    rewrite T. generalize (set_decoders s (tl (ss_decoders s))) as s1. intros s1.
    assert (A : (if printing then pt_sb_print ops (fw w) (ed d) else (fw w, ed d, Ok tt)) =
                outd (if printing then pt_sb_print ops' w d else (w, d, Ok tt))).
    { destruct printing; [apply print_erase|reflexivity]. }
    rewrite A. unfold outd at 1. destruct (if printing then pt_sb_print ops' w d else (w, d, Ok tt)) as ((w1, d1), [[]|e|u]);
      cbn [fst snd]; try reflexivity.
    rewrite apply_erase. unfold outd. destruct (pt_sb_apply ops' ev w1 d1) as ((w2, d2), [[]|e|u]); cbn [fst snd]; try reflexivity.
    rewrite fetch_erase. unfold outd. destruct (pt_sb_fetch ops' w2 d2) as ((w3, d3), [[]|e|u]); cbn [fst snd].
    - unfold outs. cbn [fst snd]. do 2 f_equal. unfold set_decoders, erase. cbn [ss_decoders ss_waiting ss_retired ss_removed].
      f_equal. apply add_erase.
    - destruct e; reflexivity.
    - reflexivity.
  Qed.

  Lemma first_erase printing ev : forall fuel s w,
    first_round ops fuel printing ev (es s) (fw w) = outs (first_round ops' fuel printing ev s w).
  Proof.
    induction fuel as [|fuel IH]; intros s w; cbn [first_round];
      change (ss_decoders (es s)) with (map ed (ss_decoders s));
      (destruct (ss_decoders s) as [|d l] eqn:El; cbn [map]; [reflexivity|]); cbn [erase_dec sd_tsc];
      (destruct (N.ltb (ev_tsc ev) (sd_tsc d)); [reflexivity|]).
    - reflexivity.
    - change (mk_sbdec (sd_tsc d) (fp (sd_priv d)) (sd_primary d)) with (ed d). rewrite turn_erase. unfold outs at 1.
      destruct (turn ops' printing ev d s w) as ((s1, w1), [[]|e|u]); cbn [fst snd]; [apply IH|reflexivity|reflexivity].
  Qed.

  Lemma present_erase ev : forall l X w,
    pt_sb_event_present ops ev (map ed l) (map ed X) (fw w) =
    let '(l', X', w', r) := pt_sb_event_present ops' ev l X w in (map ed l', map ed X', fw w', r).
  Proof.
    induction l as [|d l IH]; intros X w; [reflexivity|]. cbn [map pt_sb_event_present]. rewrite apply_erase. unfold outd.
    destruct (pt_sb_apply ops' ev w d) as ((w1, d1), [[]|e|u]); cbn [fst snd].
    - rewrite IH. destruct (pt_sb_event_present ops' ev l X w1) as (((l2, X2), w2), r2). reflexivity.
    - apply (IH (d1 :: X)).
    - reflexivity.
  Qed.

  Lemma event_erase fuel printing ev s w :
    pt_sb_event ops fuel printing ev (es s) (fw w) = outs (pt_sb_event ops' fuel printing ev s w).
  Proof.
    unfold pt_sb_event. rewrite first_erase. unfold outs at 1.
    destruct (first_round ops' fuel printing ev s w) as ((s1, w1), [[]|e|u]); cbn [fst snd]; try reflexivity.
    change (ss_decoders (es s1)) with (map ed (ss_decoders s1)). change (ss_removed (es s1)) with (map ed (ss_removed s1)).
    rewrite present_erase. destruct (pt_sb_event_present ops' ev (ss_decoders s1) (ss_removed s1) w1) as (((l2, X2), w2), [[]|e|u]);
      try reflexivity.
    cbn [ss_decoders ss_waiting ss_retired ss_removed].
    change (ss_retired (es s1)) with (map ed (ss_retired s1)). rewrite present_erase.
    destruct (pt_sb_event_present ops' ev (ss_retired s1) X2 w2) as (((l3, X3), w3), r3). reflexivity.
  Qed.

  Lemma see_erase : forall l s w, see ops l (es s) (fw w) = outs (see ops' l s w).
  Proof.
    induction l as [|((fuel, printing), ev) l IH]; intros s w; [reflexivity|]. cbn [see]. rewrite event_erase.
    unfold outs at 1. destruct (pt_sb_event ops' fuel printing ev s w) as ((s1, w1), [[]|e|u]); cbn [fst snd]; [apply IH|reflexivity|reflexivity].
  Qed.

  Lemma attach_erase : forall l s, attach (map (fun x => (fp (fst x), snd x)) l) (es s) = es (attach l s).
  Proof.
    induction l as [|(p, b) l IH]; intros s; [reflexivity|]. cbn [map attach fst snd].
    apply (IH (pt_sb_alloc_decoder p b s)).
  Qed.

  Lemma run_erase decoders w l :
    run_session ops (map (fun x => (fp (fst x), snd x)) decoders) (fw w) l = outs (run_session ops' decoders w l).
  Proof.
    unfold run_session, pt_sb_init_decoders. change (@pt_sb_alloc P) with (es pt_sb_alloc). rewrite attach_erase.
    change (ss_waiting (es (attach decoders pt_sb_alloc))) with (map ed (ss_waiting (attach decoders pt_sb_alloc))).
    rewrite init_erase. unfold outs at 1.
    destruct (init_loop ops' (ss_waiting (attach decoders pt_sb_alloc)) (attach decoders pt_sb_alloc) w) as ((s1, w1), [[]|e|u]);
      cbn [fst snd]; [apply see_erase|reflexivity|reflexivity].
  Qed.
End ERASE.

Lemma watch_erase {P W} (ops : sbops P W) decoders w l :
  run_session ops decoders w l =
  let '(s, (w', _), r) := watch_session ops decoders w l in (erase snd s, w', r).
Proof.
  assert (N_ : forall l n, map (fun x => (@snd (nat * option N) P (fst x), snd x)) (numbered n l) = l).
  { clear. induction l as [|(p, b) l IH]; intros n; [reflexivity|]. cbn. now rewrite IH. }
  unfold watch_session. rewrite <- (N_ decoders 0) at 1.
  pose proof (run_erase ops (watch ops) snd fst) as H.
  change w with (fst (w, @nil note)) at 1. rewrite H.
  - destruct (run_session (watch ops) (numbered 0 decoders) (w, []) l) as ((s, (w', L)), r). reflexivity.
  - intros (w0, L) ((id, t), p). cbn. now destruct (so_fetch ops w0 p) as ((w1, p1), r1).
  - intros g ev (w0, L) ((id, t), p). cbn. now destruct (so_apply ops g ev w0 p) as ((w1, p1), r1).
  - intros (w0, L) ((id, t), p). cbn. now destruct (so_print ops w0 p) as ((w1, p1), r1).
  - intros (w0, L) ((id, t), p). cbn. now destruct (so_dtor ops w0 p) as (w1, r1).
Qed.
