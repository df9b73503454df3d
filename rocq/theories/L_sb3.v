(** Sideband sessions: the order of records. *)
From Verif Require Import Base M_event M_sb S_sb2 L_sb.
From Coq Require Import List NArith Bool PeanoNat Sorted Permutation Lia.
Import ListNotations.
Open Scope nat_scope.

Definition note_id (n : note) : nat :=
  match n with Fetched i _ | Applied i _ _ | Printed i | Freed i => i end.

Lemma flat_map_none {A B} (f : A -> list B) l : Forall (fun x => f x = []) l -> flat_map f l = [].
Proof. induction 1 as [|x l H _ IH]; [reflexivity|]. cbn. now rewrite H, IH. Qed.

Section ORDER.
  Context {P W : Type} (ops : sbops P W).
  Notation wops := (watch ops).
  Notation dec := (sbdec (@watched P)).
  Notation sess := (session (@watched P)).

  Definition current (d : dec) : option N := snd (fst (sd_priv d)).

  Lemma fetched_app id a b : fetched id (a ++ b) = fetched id a ++ fetched id b.
  Proof. apply flat_map_app. Qed.
  Lemma applied_app id a b : applied id (a ++ b) = applied id a ++ applied id b.
  Proof. apply flat_map_app. Qed.
  Lemma all_app a b : applied_all (a ++ b) = applied_all a ++ applied_all b.
  Proof. apply flat_map_app. Qed.
  Lemma seen_app id a b : seen id (a ++ b) = seen id a ++ seen id b.
  Proof. apply flat_map_app. Qed.
  Lemma freed_app a b : freed (a ++ b) = freed a ++ freed b.
  Proof. apply flat_map_app. Qed.

  (** Notes of others. *)
  Definition others (id : nat) (L : list note) : Prop := Forall (fun n => note_id n <> id) L.
  Lemma others_none id L : others id L -> fetched id L = [] /\ applied id L = [] /\ seen id L = [].
  Proof.
    intros H. repeat split; apply flat_map_none; (eapply Forall_impl; [|exact H]); intros n Hn;
      destruct n as [i [t|]|i [t|] ev|i|i]; cbn in *; auto;
      destruct (Nat.eqb_spec i id); try contradiction; reflexivity.
  Qed.

  (** What the notes say about a decoder, depending on its list. *)
  Definition act (L : list note) (E : list event) (d : dec) : Prop :=
    current d = Some (sd_tsc d) /\ fetched (number d) L = applied (number d) L ++ [sd_tsc d] /\
    seen (number d) L = E.
  Definition ret (L : list note) (E : list event) (d : dec) : Prop :=
    current d = None /\ fetched (number d) L = applied (number d) L /\ seen (number d) L = E.
  Definition rem (L : list note) (d : dec) : Prop :=
    exists rest, fetched (number d) L = applied (number d) L ++ rest /\ length rest <= 1.
  Definition wait (L : list note) (d : dec) : Prop :=
    fetched (number d) L = [] /\ applied (number d) L = [] /\ seen (number d) L = [].

  Lemma act_others L S_ E d : others (number d) S_ -> act L E d -> act (L ++ S_) E d.
  Proof.
    intros H (A & B & C). apply others_none in H. destruct H as (H1 & H2 & H3).
    unfold act. rewrite fetched_app, applied_app, seen_app, H1, H2, H3, !app_nil_r. auto.
  Qed.
  Lemma ret_others L S_ E d : others (number d) S_ -> ret L E d -> ret (L ++ S_) E d.
  Proof.
    intros H (A & B & C). apply others_none in H. destruct H as (H1 & H2 & H3).
    unfold ret. rewrite fetched_app, applied_app, seen_app, H1, H2, H3, !app_nil_r. auto.
  Qed.
  Lemma rem_others L S_ d : others (number d) S_ -> rem L d -> rem (L ++ S_) d.
  Proof.
    intros H (rest & A & B). apply others_none in H. destruct H as (H1 & H2 & H3).
    exists rest. rewrite fetched_app, applied_app, H1, H2, !app_nil_r. auto.
  Qed.
  Lemma wait_others L S_ d : others (number d) S_ -> wait L d -> wait (L ++ S_) d.
  Proof.
    intros H (A & B & C). apply others_none in H. destruct H as (H1 & H2 & H3).
    unfold wait. rewrite fetched_app, applied_app, seen_app, H1, H2, H3, !app_nil_r. auto.
  Qed.

  (** ** One turn *)

  Definition from (id : nat) (S_ : list note) : Prop := Forall (fun n => note_id n = id) S_.
  Lemma from_others id id' S_ : from id S_ -> id <> id' -> others id' S_.
  Proof. intros H N_. eapply Forall_impl; [|exact H]. cbn. intros n ->. exact N_. Qed.

  Inductive moved (s : sess) (l : list dec) (L S_ : list note) (E : list event) (d d' : dec) : sess -> Prop :=
  | m_stay : act (L ++ S_) E d' -> applied_all S_ = [sd_tsc d] ->
      moved s l L S_ E d d' (mk_session (pt_sb_add_decoder d' l) (ss_waiting s) (ss_retired s) (ss_removed s))
  | m_retire : ret (L ++ S_) E d' -> applied_all S_ = [sd_tsc d] ->
      moved s l L S_ E d d' (mk_session l (ss_waiting s) (d' :: ss_retired s) (ss_removed s))
  | m_remove : rem (L ++ S_) d' -> (applied_all S_ = [sd_tsc d] \/ applied_all S_ = []) ->
      moved s l L S_ E d d' (mk_session l (ss_waiting s) (ss_retired s) (d' :: ss_removed s)).

  Lemma turn_moved printing ev d l s w L s' w' L' E :
    ss_decoders s = d :: l -> act L E d -> (sd_tsc d <= ev_tsc ev)%N ->
    turn wops printing ev d s (w, L) = (s', (w', L'), Ok tt) ->
    exists S_ d', L' = L ++ S_ /\ from (number d) S_ /\ number d' = number d /\ freed S_ = [] /\
                  moved s l L S_ E d d' s'.
  Proof.
    intros El (A1 & A2 & A3) Ht. unfold turn. rewrite El. cbn [tl].
    unfold remove, retire, set_decoders. cbn [ss_decoders ss_waiting ss_retired ss_removed].
    destruct d as (tsc, ((id, cur), p), pr). cbn [sd_tsc] in *. unfold current, number in *. cbn [sd_priv fst snd] in *.
    subst cur. set (q := Printed id). set (a := Applied id (Some tsc) ev).
    assert (Da : due (Some tsc) ev = true) by (apply N.leb_le; exact Ht).
    assert (Fa : forall x b, fetched x [b] = match b with Fetched i (Some t) => if Nat.eqb i x then [t] else [] | _ => [] end)
      by (intros; cbn; apply app_nil_r).
    assert (K : forall (w1 : W) (p1 : P) S1, (S1 = [] \/ S1 = [q]) ->
      match pt_sb_apply wops ev (w1, L ++ S1) (mk_sbdec tsc (id, Some tsc, p1) pr) with
      | (w2, d2, Ok _) =>
          match pt_sb_fetch wops w2 d2 with
          | (w3, d3, Ok _) => (mk_session (pt_sb_add_decoder d3 l) (ss_waiting s) (ss_retired s) (ss_removed s), w3, Ok tt)
          | (w3, d3, Err pte_eos) => (mk_session l (ss_waiting s) (d3 :: ss_retired s) (ss_removed s), w3, Ok tt)
          | (w3, d3, Err _) => (mk_session l (ss_waiting s) (ss_retired s) (d3 :: ss_removed s), w3, Ok tt)
          | (w3, d3, UB u) => (mk_session l (ss_waiting s) (ss_retired s) (d3 :: ss_removed s), w3, UB u)
          end
      | (w2, d2, Err _) => (mk_session l (ss_waiting s) (ss_retired s) (d2 :: ss_removed s), w2, Ok tt)
      | (w2, d2, UB u) => (mk_session l (ss_waiting s) (ss_retired s) (d2 :: ss_removed s), w2, UB u)
      end = (s', (w', L'), Ok tt) ->
      exists S_ d', L' = L ++ S_ /\ from id S_ /\ fst (fst (sd_priv d')) = id /\ freed S_ = [] /\
                    moved s l L S_ E (mk_sbdec tsc (id, Some tsc, p) pr) d' s').
    { intros w1 p1 S1 HS. 
      assert (B1 : fetched id S1 = [] /\ applied id S1 = [] /\ seen id S1 = [] /\ applied_all S1 = [] /\ freed S1 = [] /\ from id S1).
      { destruct HS as [-> | ->]; repeat split; repeat constructor. }
      destruct B1 as (B1 & B2 & B3 & B4 & B5 & B6).
      unfold pt_sb_apply. cbn [watch so_apply sd_priv sd_primary].
      destruct (so_apply ops pr ev w1 p1) as ((w2, p2), r2). cbn [set_priv sd_tsc sd_primary sd_priv].
      assert (Ba : fetched id [a] = [] /\ applied id [a] = [tsc] /\ seen id [a] = [] /\ applied_all [a] = [tsc] /\ freed [a] = []).
      { unfold a. cbn [fetched applied seen applied_all freed flat_map]. rewrite Nat.eqb_refl, Da. cbn. auto. }
      destruct Ba as (C1 & C2 & C3 & C4 & C5).
      destruct r2 as [[]|e2|u2]; [| |discriminate].
      - unfold pt_sb_fetch. unfold set_priv, set_tsc; cbn [watch so_fetch sd_priv sd_tsc sd_primary].
        destruct (so_fetch ops w2 p2) as ((w3, p3), r3). cbn [set_priv set_tsc sd_tsc sd_primary sd_priv].
        destruct r3 as [t|e3|u3]; cbn [sd_tsc sd_primary sd_priv]; [| |intros H; discriminate H].
        + intros H. injection H as <- _ <-. exists (S1 ++ [a] ++ [Fetched id (Some t)]).
          eexists (mk_sbdec t (id, Some t, p3) pr). split; [now rewrite !app_assoc|].
          split; [apply Forall_app; split; [exact B6|repeat constructor]|]. split; [reflexivity|].
          split; [rewrite !freed_app, B5; reflexivity|].
          apply m_stay; [|rewrite !all_app, B4, C4; reflexivity].
          unfold act, number, current. cbn [sd_priv sd_tsc fst snd].
          rewrite !fetched_app, !applied_app, !seen_app, B1, B2, B3, C1, C2, C3, A2, A3.
          cbn. rewrite Nat.eqb_refl, !app_nil_r. cbn. auto.
        + intros H. assert (G : s' = (match e3 with pte_eos => mk_session l (ss_waiting s) (mk_sbdec tsc (id, None, p3) pr :: ss_retired s) (ss_removed s) | _ => mk_session l (ss_waiting s) (ss_retired s) (mk_sbdec tsc (id, None, p3) pr :: ss_removed s) end) /\ L' = L ++ S1 ++ [a] ++ [Fetched id None]).
          { rewrite !app_assoc. destruct e3; injection H as <- _ <-; auto. }
          destruct G as (-> & ->). clear H.
          exists (S1 ++ [a] ++ [Fetched id None]). exists (mk_sbdec tsc (id, None, p3) pr).
          split; [reflexivity|].
          split; [apply Forall_app; split; [exact B6|repeat constructor]|]. split; [reflexivity|].
          split; [rewrite !freed_app, B5; reflexivity|].
          assert (R : ret (L ++ S1 ++ [a] ++ [Fetched id None]) E (mk_sbdec tsc (id, None, p3) pr)).
          { unfold ret, number, current. cbn [sd_priv sd_tsc fst snd].
            rewrite !fetched_app, !applied_app, !seen_app, B1, B2, B3, C1, C2, C3, A2, A3.
            cbn. rewrite !app_nil_r. cbn. auto. }
          assert (Al : applied_all (S1 ++ [a] ++ [Fetched id None]) = [tsc]) by (rewrite !all_app, B4, C4; reflexivity).
          destruct e3; try (apply m_retire; [exact R|exact Al]);
            (apply m_remove; [|left; exact Al]; exists []; split; [|auto]; rewrite app_nil_r; apply (proj1 (proj2 R))).
      - intros H. injection H as <- _ <-. exists (S1 ++ [a]). exists (mk_sbdec tsc (id, Some tsc, p2) pr).
        split; [now rewrite app_assoc|].
        split; [apply Forall_app; split; [exact B6|repeat constructor]|]. split; [reflexivity|].
        split; [rewrite !freed_app, B5; reflexivity|].
        apply m_remove; [|left; rewrite all_app, B4, C4; reflexivity]. exists [].
        unfold number, set_priv. cbn [sd_priv fst]. rewrite !fetched_app, !applied_app, B1, B2, C1, C2, A2.
        cbn. rewrite !app_nil_r. auto. }
    destruct printing.
    - unfold pt_sb_print at 1. cbn [watch so_print sd_priv].
      destruct (so_print ops w p) as ((w1, p1), r1). cbn [set_priv sd_tsc sd_primary].
      destruct r1 as [[]|e1|u1]; [| |discriminate].
      + intros H. apply (K w1 p1 [q]); [now right|]. exact H.
      + intros H. injection H as <- _ <-. exists [q], (mk_sbdec tsc (id, Some tsc, p1) pr).
        split; [reflexivity|]. split; [repeat constructor|]. split; [reflexivity|]. split; [reflexivity|].
        apply m_remove; [|now right]. exists [tsc]. unfold number, set_priv. cbn [sd_priv fst].
        rewrite fetched_app, applied_app, A2. cbn. rewrite !app_nil_r. auto.
    - intros H. apply (K w p []); [now left|]. rewrite app_nil_r. exact H.
  Qed.

  (** ** The invariant *)

  Definition nums (l : list dec) : list nat := map number l.
  Definition mono (L : list note) : Prop := forall id, StronglySorted N.le (fetched id L).

  Lemma nums_app a b : nums (a ++ b) = nums a ++ nums b.
  Proof. apply map_app. Qed.

  Lemma sorted_app {A} (R : A -> A -> Prop) a b :
    StronglySorted R (a ++ b) ->
    StronglySorted R a /\ forall x y, In x a -> In y b -> R x y.
  Proof.
    induction a as [|c a IH]; cbn; intros H; [split; [constructor|contradiction]|].
    apply StronglySorted_inv in H. destruct H as (H & F). destruct (IH H) as (I1 & I2).
    rewrite Forall_app in F. destruct F as (F1 & F2). split; [now constructor|].
    intros x y [<-|Hx] Hy; [rewrite Forall_forall in F2; auto|auto].
  Qed.
  Lemma sorted_snoc {A} (R : A -> A -> Prop) a x :
    StronglySorted R a -> (forall y, In y a -> R y x) -> StronglySorted R (a ++ [x]).
  Proof.
    induction a as [|c a IH]; cbn; intros H F; [repeat constructor|].
    apply StronglySorted_inv in H. destruct H as (H & G). constructor; [apply IH; auto|].
    apply Forall_app. split; [exact G|]. constructor; auto.
  Qed.
  Lemma mono_app L S_ : mono (L ++ S_) -> mono L.
  Proof. intros H id. specialize (H id). rewrite fetched_app in H. exact (proj1 (sorted_app _ _ _ H)). Qed.

  Definition times (l : list dec) : list N := map sd_tsc l.
  Lemma add_times (d : dec) l : Permutation (sd_tsc d :: times l) (times (pt_sb_add_decoder d l)).
  Proof. exact (Permutation_map sd_tsc (add_perm d l)). Qed.
  Lemma add_sorted (d : dec) l :
    StronglySorted N.le (times l) -> StronglySorted N.le (times (pt_sb_add_decoder d l)).
  Proof.
    induction l as [|c l IH]; intros H; [repeat constructor|]. cbn [pt_sb_add_decoder].
    destruct (N.leb_spec (sd_tsc d) (sd_tsc c)) as [Hle|Hlt].
    - cbn [times map] in *. constructor; [exact H|]. apply StronglySorted_inv in H. destruct H as (_ & H).
      constructor; [exact Hle|]. eapply Forall_impl; [|exact H]. cbn. intros a Ha. lia.
    - cbn [times map] in *. apply StronglySorted_inv in H. destruct H as (H & F). constructor; [now apply IH|].
      rewrite Forall_forall in *. intros t Ht. apply (Permutation_in _ (Permutation_sym (add_times d l))) in Ht.
      destruct Ht as [<-|Ht]; [lia|now apply F].
  Qed.

  Record good (n : nat) (E1 E2 : list event) (s : sess) (L : list note) : Prop := {
    g_perm : Permutation (nums (members s) ++ freed L) (seq 0 n);
    g_sorted : StronglySorted N.le (times (ss_decoders s));
    g_act : Forall (act L E1) (ss_decoders s);
    g_wait : Forall (wait L) (ss_waiting s);
    g_ret : Forall (ret L E2) (ss_retired s);
    g_rem : Forall (rem L) (ss_removed s);
    g_freed : forall id, In id (freed L) -> fetched id L = [] /\ applied id L = [];
    g_from : Forall (fun x => note_id x < n) L;
    g_order : mono L -> StronglySorted N.le (applied_all L) /\
                        forall a t, In a (applied_all L) -> In t (times (ss_decoders s)) -> (a <= t)%N
  }.

  Lemma applied_from id S_ : from id S_ -> applied id S_ = applied_all S_.
  Proof.
    induction 1 as [|x S_ H _ IH]; [reflexivity|].
    cbn [applied applied_all flat_map]. fold (applied id S_). fold (applied_all S_). rewrite IH.
    destruct x as [i t|i [t|] ev|i|i]; cbn in H; subst; try reflexivity. rewrite Nat.eqb_refl. reflexivity.
  Qed.

  Lemma good_nodup n E1 E2 s L : good n E1 E2 s L -> NoDup (nums (members s) ++ freed L).
  Proof. intros G. eapply Permutation_NoDup; [apply Permutation_sym, (g_perm _ _ _ _ _ G)|apply seq_NoDup]. Qed.
  Lemma good_bound n E1 E2 s L d : good n E1 E2 s L -> In d (members s) -> number d < n.
  Proof.
    intros G H. assert (I : In (number d) (seq 0 n)).
    { eapply Permutation_in; [apply (g_perm _ _ _ _ _ G)|]. apply in_or_app. left. now apply in_map. }
    apply in_seq in I. clear - I. lia.
  Qed.

  Lemma turn_good n E printing ev d l s w L s' w' L' :
    good n E E s L -> ss_decoders s = d :: l -> (sd_tsc d <= ev_tsc ev)%N ->
    turn wops printing ev d s (w, L) = (s', (w', L'), Ok tt) -> good n E E s' L'.
  Proof.
    intros G El Ht Et. pose proof (good_nodup _ _ _ _ _ G) as Nd.
    assert (Hd : number d < n) by (eapply good_bound; [exact G|unfold members; rewrite El; now left]).
    destruct G as [Gp Gs Ga Gw Gr Gx Gf Gn Go]. rewrite El in *.
    apply Forall_cons_iff in Ga. destruct Ga as (Gd & Ga).
    destruct (turn_moved _ _ _ _ _ _ _ _ _ _ _ El Gd Ht Et) as (S_ & d' & -> & Fr & Nm & Fd & M).
    unfold members in *. rewrite El in *.
    cbn [nums map app] in Gp, Nd. fold (nums (l ++ ss_waiting s ++ ss_retired s ++ ss_removed s)) in *.
    apply NoDup_cons_iff in Nd. destruct Nd as (Nin & Nd).
    assert (O : forall x, In x (l ++ ss_waiting s ++ ss_retired s ++ ss_removed s) -> others (number x) S_).
    { intros x Hx. apply (from_others _ _ _ Fr). intros Ex. apply Nin, in_or_app. left. rewrite Ex.
      now apply in_map. }
    cbn [times map] in Gs, Go. fold (times l) in Gs, Go. apply StronglySorted_inv in Gs. destruct Gs as (Gs & Gm).
    rewrite Forall_forall in Gm.
    assert (A1 : Forall (act (L ++ S_) E) l).
    { rewrite Forall_forall in *. intros x Hx. apply act_others; [apply O|now apply Ga]. apply in_or_app; now left. }
    assert (A2 : Forall (wait (L ++ S_)) (ss_waiting s)).
    { rewrite Forall_forall in *. intros x Hx. apply wait_others; [apply O|now apply Gw]. rewrite !in_app_iff. auto. }
    assert (A3 : Forall (ret (L ++ S_) E) (ss_retired s)).
    { rewrite Forall_forall in *. intros x Hx. apply ret_others; [apply O|now apply Gr]. rewrite !in_app_iff. auto. }
    assert (A4 : Forall (rem (L ++ S_)) (ss_removed s)).
    { rewrite Forall_forall in *. intros x Hx. apply rem_others; [apply O|now apply Gx]. rewrite !in_app_iff. auto. }
    assert (A5 : forall id, In id (freed (L ++ S_)) -> fetched id (L ++ S_) = [] /\ applied id (L ++ S_) = []).
    { intros id Hid. rewrite freed_app, Fd, app_nil_r in Hid. destruct (Gf _ Hid) as (F1 & F2).
      assert (Oi : others id S_).
      { apply (from_others _ _ _ Fr). intros <-. apply Nin, in_or_app. now right. }
      apply others_none in Oi. destruct Oi as (O1 & O2 & _). now rewrite fetched_app, applied_app, F1, F2, O1, O2. }
    assert (A6 : Forall (fun x => note_id x < n) (L ++ S_)).
    { apply Forall_app. split; [exact Gn|]. eapply Forall_impl; [|exact Fr]. cbn. intros x ->. exact Hd. }
    assert (A7 : applied_all S_ = [sd_tsc d] \/ applied_all S_ = [] ->
                 mono (L ++ S_) -> StronglySorted N.le (applied_all (L ++ S_)) /\
                 forall a t, In a (applied_all (L ++ S_)) -> In t (times l) -> (a <= t)%N).
    { intros HS Mo. destruct (Go (mono_app _ _ Mo)) as (O1 & O2). rewrite all_app.
      destruct HS as [-> | ->].
      - split.
        + apply sorted_snoc; [exact O1|]. intros y Hy. apply (O2 _ _ Hy). now left.
        + intros a t Ha Htt. apply in_app_or in Ha. destruct Ha as [Ha|[<-|[]]]; [apply (O2 _ _ Ha); now right|].
          now apply Gm.
      - rewrite app_nil_r. split; [exact O1|]. intros a t Ha Htt. apply (O2 _ _ Ha). now right. }
    assert (Pf : freed (L ++ S_) = freed L) by (rewrite freed_app, Fd; apply app_nil_r).
    inversion M as [Mv Ma Es|Mv Ma Es|Mv Ma Es]; subst s'; clear M.
    - constructor; cbn [ss_decoders ss_waiting ss_retired ss_removed]; auto; try (now constructor).
      + rewrite Pf. eapply Permutation_trans; [|exact Gp]. unfold members. cbn [ss_decoders ss_waiting ss_retired ss_removed].
        change (number d :: nums (l ++ ss_waiting s ++ ss_retired s ++ ss_removed s) ++ freed L) with
          ((number d :: nums (l ++ ss_waiting s ++ ss_retired s ++ ss_removed s)) ++ freed L).
        apply Permutation_app_tail. rewrite <- Nm. change (number d' :: nums (l ++ ss_waiting s ++ ss_retired s ++ ss_removed s))
          with (nums ((d' :: l) ++ ss_waiting s ++ ss_retired s ++ ss_removed s)).
        apply Permutation_map, Permutation_app_tail, Permutation_sym, add_perm.
      + now apply add_sorted.
      + eapply Permutation_Forall; [apply add_perm|]. now constructor.
      + intros Mo. destruct (A7 (or_introl Ma) Mo) as (B1 & B2). split; [exact B1|]. intros a t Ha Htt.
        apply (Permutation_in _ (Permutation_sym (add_times d' l))) in Htt. destruct Htt as [<-|Htt]; [|now apply B2].
        destruct Mv as (_ & Mf & _). pose proof (Mo (number d')) as Mi. rewrite Mf in Mi. apply sorted_app in Mi.
        destruct Mi as (_ & Mi).
        assert (Hdd : (sd_tsc d <= sd_tsc d')%N).
        { apply Mi; [|now left]. rewrite applied_app, Nm, (applied_from _ _ Fr), Ma. apply in_or_app. right. now left. }
        destruct (Go (mono_app _ _ Mo)) as (_ & O2).
        rewrite all_app, Ma in Ha. apply in_app_or in Ha. destruct Ha as [Ha|[<-|[]]]; [|exact Hdd].
        assert (Had : (a <= sd_tsc d)%N) by (apply (O2 _ _ Ha); now left). clear - Had Hdd. lia.
    - constructor; cbn [ss_decoders ss_waiting ss_retired ss_removed]; auto; try (now constructor).
      + rewrite Pf. eapply Permutation_trans; [|exact Gp]. unfold members. cbn [ss_decoders ss_waiting ss_retired ss_removed].
        change (number d :: nums (l ++ ss_waiting s ++ ss_retired s ++ ss_removed s) ++ freed L) with
          ((number d :: nums (l ++ ss_waiting s ++ ss_retired s ++ ss_removed s)) ++ freed L).
        apply Permutation_app_tail. rewrite <- Nm. change (number d' :: nums (l ++ ss_waiting s ++ ss_retired s ++ ss_removed s))
          with (nums (d' :: l ++ ss_waiting s ++ ss_retired s ++ ss_removed s)).
        apply Permutation_map. rewrite (app_assoc l), (app_assoc l). cbn [app].
        apply Permutation_sym, Permutation_middle.
    - constructor; cbn [ss_decoders ss_waiting ss_retired ss_removed]; auto; try (now constructor).
      + rewrite Pf. eapply Permutation_trans; [|exact Gp]. unfold members. cbn [ss_decoders ss_waiting ss_retired ss_removed].
        change (number d :: nums (l ++ ss_waiting s ++ ss_retired s ++ ss_removed s) ++ freed L) with
          ((number d :: nums (l ++ ss_waiting s ++ ss_retired s ++ ss_removed s)) ++ freed L).
        apply Permutation_app_tail. rewrite <- Nm. change (number d' :: nums (l ++ ss_waiting s ++ ss_retired s ++ ss_removed s))
          with (nums (d' :: l ++ ss_waiting s ++ ss_retired s ++ ss_removed s)).
        apply Permutation_map.
        replace (l ++ ss_waiting s ++ ss_retired s ++ d' :: ss_removed s) with
          ((l ++ ss_waiting s ++ ss_retired s) ++ d' :: ss_removed s) by (now rewrite <- !app_assoc).
        replace (l ++ ss_waiting s ++ ss_retired s ++ ss_removed s) with
          ((l ++ ss_waiting s ++ ss_retired s) ++ ss_removed s) by (now rewrite <- !app_assoc).
        apply Permutation_sym.
        apply Permutation_middle.
  Qed.

  Lemma first_good n E printing ev : forall fuel s w L s' w' L',
    good n E E s L -> first_round wops fuel printing ev s (w, L) = (s', (w', L'), Ok tt) ->
    good n E E s' L' /\ Forall (fun d => (ev_tsc ev < sd_tsc d)%N) (ss_decoders s').
  Proof.
    induction fuel as [|fuel IH]; intros s w L s' w' L' G; cbn [first_round];
      (destruct (ss_decoders s) as [|d l] eqn:El; [intros H; injection H as <- <- <-; rewrite El; auto|]);
      (destruct (N.ltb_spec (ev_tsc ev) (sd_tsc d)) as [Hlt|Hge];
       [intros H; injection H as <- <- <-; split; [exact G|]; pose proof (g_sorted _ _ _ _ _ G) as Gs; rewrite El in *;
        cbn [times map] in Gs; apply StronglySorted_inv in Gs; destruct Gs as (_ & Gs); constructor; [exact Hlt|];
        rewrite Forall_forall in *; intros x Hx; apply (in_map sd_tsc) in Hx; apply Gs in Hx; clear - Hx Hlt; lia|]).
    - discriminate.
    - destruct (turn wops printing ev d s (w, L)) as ((s1, (w1, L1)), [[]|e|u]) eqn:Et; try discriminate.
      apply IH. eapply turn_good; [exact G|exact El|exact Hge|exact Et].
  Qed.

  (** ** Presenting *)

  Definition idle_at (ev : event) (d : dec) : Prop := due (current d) ev = false.

  Lemma present_good (Q : list note -> list event -> dec -> Prop) ev :
    (forall L S_ E d, others (number d) S_ -> Q L E d -> Q (L ++ S_) E d) ->
    (forall L E d p, Q L E d -> idle_at ev d ->
       Q (L ++ [Applied (number d) (current d) ev]) (E ++ [ev]) (set_priv d (number d, current d, p))) ->
    (forall L E d, Q L E d -> rem L d) ->
    forall l X w L E l' X' w' L',
      pt_sb_event_present wops ev l X (w, L) = (l', X', (w', L'), Ok tt) ->
      NoDup (nums l) -> Forall (Q L E) l -> Forall (idle_at ev) l ->
      exists S_ Y, L' = L ++ S_ /\ Forall (fun x => In (note_id x) (nums l)) S_ /\ applied_all S_ = [] /\
        freed S_ = [] /\ (forall id, fetched id S_ = [] /\ applied id S_ = []) /\ X' = Y ++ X /\
        Permutation (nums l' ++ nums Y) (nums l) /\ Forall (Q L' (E ++ [ev])) l' /\ Forall (rem L') Y /\
        (StronglySorted N.le (times l) -> StronglySorted N.le (times l')) /\ incl (times l') (times l).
  Proof.
    intros Q1 Q2 Q3. induction l as [|d l IH]; intros X w L E l' X' w' L' Ep Nd Hq Hi; cbn [pt_sb_event_present] in Ep.
    { injection Ep as <- <- _ <-. exists [], []. rewrite app_nil_r. repeat split; auto using incl_refl. }
    cbn [nums map] in Nd. fold (nums l) in Nd. apply NoDup_cons_iff in Nd. destruct Nd as (Nin & Nd).
    apply Forall_cons_iff in Hq, Hi. destruct Hq as (Hq & Hql), Hi as (Hi & Hil).
    destruct (pt_sb_apply wops ev (w, L) d) as ((wL, d1), r) eqn:Ea.
    set (a := Applied (number d) (current d) ev) in *.
    assert (G : exists w1 p1, wL = (w1, L ++ [a]) /\ d1 = set_priv d (number d, current d, p1)).
    { unfold pt_sb_apply in Ea. cbn [watch so_apply] in Ea. unfold a, number, current.
      destruct (sd_priv d) as ((id, t), p). destruct (so_apply ops (sd_primary d) ev w p) as ((w1, p1), r1).
      injection Ea as <- <- _. exists w1, p1. auto. }
    destruct G as (w1 & p1 & -> & ->). clear Ea.
    assert (Na : fetched (number d) [a] = [] /\ applied (number d) [a] = []).
    { unfold a. cbn [fetched applied flat_map]. split; [reflexivity|]. unfold idle_at in Hi.
      destruct (current d); [rewrite Hi, andb_false_r|]; reflexivity. }
    assert (Nb : forall id, fetched id [a] = [] /\ applied id [a] = []).
    { intros id. unfold a. cbn [fetched applied flat_map]. split; [reflexivity|]. unfold idle_at in Hi.
      destruct (current d); [rewrite Hi, andb_false_r|]; reflexivity. }
    assert (Nc : applied_all [a] = [] /\ freed [a] = []).
    { unfold a. cbn [applied_all freed flat_map]. split; [|reflexivity]. unfold idle_at in Hi.
      destruct (current d); [rewrite Hi|]; reflexivity. }
    assert (Hql' : Forall (Q (L ++ [a]) E) l).
    { rewrite Forall_forall in *. intros x Hx. apply Q1; [|now apply Hql]. repeat constructor. cbn. intros Ex. apply Nin.
      rewrite Ex. now apply in_map. }
    assert (Hd1 : Q (L ++ [a]) (E ++ [ev]) (set_priv d (number d, current d, p1))) by (now apply Q2).
    assert (Nd1 : forall S_, Forall (fun x => In (note_id x) (nums l)) S_ -> others (number d) S_).
    { intros S_ F. eapply Forall_impl; [|exact F]. cbn. intros x Hx Ex. apply Nin. now rewrite <- Ex. }
    destruct r as [[]|e|u]; [| |discriminate].
    - destruct (pt_sb_event_present wops ev l X (w1, L ++ [a])) as (((l1, X1), (w2, L2)), r2) eqn:Ep2.
      injection Ep as <- <- -> -> ->.
      destruct (IH _ _ _ _ _ _ _ _ Ep2 Nd Hql' Hil) as (S_ & Y & -> & F1 & F2 & F3 & F4 & -> & F5 & F6 & F7 & F8 & F9).
      exists (a :: S_), Y. rewrite <- app_assoc. cbn [app]. destruct Nc as (Nc1 & Nc2).
      split; [reflexivity|]. split; [constructor; [now left|]; eapply Forall_impl; [|exact F1]; cbn; auto|].
      split; [change (a :: S_) with ([a] ++ S_); now rewrite all_app, Nc1, F2|].
      split; [change (a :: S_) with ([a] ++ S_); now rewrite freed_app, Nc2, F3|].
      split; [intros id; change (a :: S_) with ([a] ++ S_); rewrite fetched_app, applied_app;
              destruct (Nb id) as (-> & ->); apply F4|].
      split; [reflexivity|]. split; [cbn [nums map app]; constructor; exact F5|].
      rewrite <- app_assoc in F6, F7. cbn [app] in F6, F7.
      split; [constructor; [|exact F6]|].
      { change (L ++ a :: S_) with (L ++ [a] ++ S_). rewrite app_assoc. apply Q1; [|exact Hd1]. apply Nd1, F1. }
      split; [exact F7|]. split.
      + cbn [times map]. intros H. apply StronglySorted_inv in H. destruct H as (H & F). constructor; [now apply F8|].
        rewrite Forall_forall in *. intros x Hx. apply F. now apply F9.
      + cbn [times map]. intros x [<-|Hx]; [now left|right; now apply F9].
    - destruct (IH _ _ _ _ _ _ _ _ Ep Nd Hql' Hil) as (S_ & Y & -> & F1 & F2 & F3 & F4 & -> & F5 & F6 & F7 & F8 & F9).
      exists (a :: S_), (Y ++ [set_priv d (number d, current d, p1)]). rewrite <- !app_assoc. cbn [app]. destruct Nc as (Nc1 & Nc2).
      split; [reflexivity|]. split; [constructor; [now left|]; eapply Forall_impl; [|exact F1]; cbn; auto|].
      split; [change (a :: S_) with ([a] ++ S_); now rewrite all_app, Nc1, F2|].
      split; [change (a :: S_) with ([a] ++ S_); now rewrite freed_app, Nc2, F3|].
      split; [intros id; change (a :: S_) with ([a] ++ S_); rewrite fetched_app, applied_app;
              destruct (Nb id) as (-> & ->); apply F4|].
      split; [reflexivity|].
      split.
      { rewrite nums_app, app_assoc. cbn [nums map app]. eapply Permutation_trans; [apply Permutation_app_comm|].
        cbn [app]. constructor. exact F5. }
      rewrite <- app_assoc in F6, F7. cbn [app] in F6, F7. split; [exact F6|]. split.
      { apply Forall_app. split; [exact F7|]. repeat constructor.
        change (L ++ a :: S_) with (L ++ [a] ++ S_). rewrite app_assoc. apply rem_others; [apply Nd1, F1|].
        eapply Q3, Hd1. }
      split.
      + cbn [times map]. intros H. apply StronglySorted_inv in H. destruct H as (H & F). now apply F8.
      + cbn [times map]. intros x Hx. right. now apply F9.
  Qed.

  Lemma idle_note ev (d : dec) : idle_at ev d ->
    fetched (number d) [Applied (number d) (current d) ev] = [] /\
    applied (number d) [Applied (number d) (current d) ev] = [] /\
    seen (number d) [Applied (number d) (current d) ev] = [ev].
  Proof.
    unfold idle_at. intros Hi. cbn [fetched applied seen flat_map]. rewrite Nat.eqb_refl, Hi.
    destruct (current d); rewrite ?Hi; auto.
  Qed.
  Lemma act_idle ev L E (d : dec) p : act L E d -> idle_at ev d ->
    act (L ++ [Applied (number d) (current d) ev]) (E ++ [ev]) (set_priv d (number d, current d, p)).
  Proof.
    intros (A & B & C) Hi. apply idle_note in Hi. destruct Hi as (N1 & N2 & N3).
    unfold act. change (number (set_priv d (number d, current d, p))) with (number d).
    change (sd_tsc (set_priv d (number d, current d, p))) with (sd_tsc d).
    change (current (set_priv d (number d, current d, p))) with (current d).
    rewrite fetched_app, applied_app, seen_app, N1, N2, N3, !app_nil_r, C. auto.
  Qed.
  Lemma ret_idle ev L E (d : dec) p : ret L E d -> idle_at ev d ->
    ret (L ++ [Applied (number d) (current d) ev]) (E ++ [ev]) (set_priv d (number d, current d, p)).
  Proof.
    intros (A & B & C) Hi. apply idle_note in Hi. destruct Hi as (N1 & N2 & N3).
    unfold ret. change (number (set_priv d (number d, current d, p))) with (number d).
    change (current (set_priv d (number d, current d, p))) with (current d).
    rewrite fetched_app, applied_app, seen_app, N1, N2, N3, !app_nil_r, C. auto.
  Qed.
  Lemma act_rem L E (d : dec) : act L E d -> rem L d.
  Proof. intros (_ & B & _). exists [sd_tsc d]. split; [exact B|auto]. Qed.
  Lemma ret_rem L E (d : dec) : ret L E d -> rem L d.
  Proof. intros (_ & B & _). exists []. rewrite app_nil_r. split; [exact B|auto]. Qed.

  Lemma nodup_mid {A} (a b c : list A) : NoDup (a ++ b ++ c) -> NoDup b /\ forall x, In x b -> ~ In x a /\ ~ In x c.
  Proof.
    intros H. assert (Hb : NoDup (b ++ a ++ c)).
    { eapply Permutation_NoDup; [|exact H]. rewrite !app_assoc. apply Permutation_app_tail, Permutation_app_comm. }
    clear H. induction b as [|x b IH]; [split; [constructor|intros ? []]|]. cbn in Hb. apply NoDup_cons_iff in Hb.
    destruct Hb as (Nx & Hb). destruct (IH Hb) as (I1 & I2). rewrite !in_app_iff in Nx. split.
    - constructor; tauto.
    - intros y [<-|Hy]; [tauto|auto].
  Qed.

  Lemma rem_more L S_ (d : dec) : (forall id, fetched id S_ = [] /\ applied id S_ = []) -> rem L d -> rem (L ++ S_) d.
  Proof.
    intros H (rest & A & B). destruct (H (number d)) as (H1 & H2). exists rest.
    rewrite fetched_app, applied_app, H1, H2, !app_nil_r. auto.
  Qed.

  Lemma present_decoders n E ev s w L l X w' L' :
    good n E E s L -> Forall (fun d => (ev_tsc ev < sd_tsc d)%N) (ss_decoders s) ->
    pt_sb_event_present wops ev (ss_decoders s) (ss_removed s) (w, L) = (l, X, (w', L'), Ok tt) ->
    good n (E ++ [ev]) E (mk_session l (ss_waiting s) (ss_retired s) X) L' /\
    Forall (fun d => (ev_tsc ev < sd_tsc d)%N) l.
  Proof.
    intros G Hl Ep. pose proof (good_nodup _ _ _ _ _ G) as Nd.
    assert (Bd : forall d, In d (ss_decoders s) -> number d < n).
    { intros d Hd. eapply good_bound; [exact G|]. unfold members. apply in_or_app. now left. }
    destruct G as [Gp Gs Ga Gw Gr Gx Gf Gn Go]. unfold members in *. rewrite nums_app in Nd, Gp.
    rewrite <- app_assoc in Nd. destruct (nodup_mid [] _ _ Nd) as (Nd1 & Nd2).
    assert (Hi : Forall (idle_at ev) (ss_decoders s)).
    { rewrite Forall_forall in *. intros d Hd. destruct (Ga _ Hd) as (A & _). unfold idle_at. rewrite A. cbn.
      apply N.leb_gt. now apply Hl. }
    destruct (present_good act ev (fun L S_ E d => act_others L S_ E d) (fun L E d p => act_idle ev L E d p) act_rem
                _ _ _ _ _ _ _ _ _ Ep Nd1 Ga Hi) as (S_ & Y & -> & F1 & F2 & F3 & F4 & -> & F5 & F6 & F7 & F8 & F9).
    assert (O : forall x, In x (ss_waiting s ++ ss_retired s ++ ss_removed s) -> others (number x) S_).
    { intros x Hx. eapply Forall_impl; [|exact F1]. cbn. intros y Hy Ey. rewrite Ey in Hy. apply (proj2 (Nd2 _ Hy)).
      apply in_or_app. left. now apply in_map. }
    split.
    - constructor; cbn [ss_decoders ss_waiting ss_retired ss_removed].
      + unfold members. cbn [ss_decoders ss_waiting ss_retired ss_removed]. rewrite freed_app, F3, app_nil_r.
        eapply Permutation_trans; [|exact Gp]. rewrite !nums_app, <- !app_assoc.
        rewrite (app_assoc (nums (ss_decoders s))). rewrite !(app_assoc (nums l)).
        set (r := nums (ss_removed s) ++ freed L).
        rewrite !app_assoc. unfold r. rewrite !app_assoc. apply Permutation_app_tail. apply Permutation_app_tail.
        rewrite <- !app_assoc.
        eapply Permutation_trans; [apply Permutation_app_head; rewrite app_assoc; apply Permutation_app_comm|].
        rewrite app_assoc. apply Permutation_app_tail. exact F5.
      + now apply F8.
      + exact F6.
      + rewrite Forall_forall in *. intros x Hx. apply wait_others; [apply O; rewrite !in_app_iff; auto|now apply Gw].
      + rewrite Forall_forall in *. intros x Hx. apply ret_others; [apply O; rewrite !in_app_iff; auto|now apply Gr].
      + apply Forall_app. split; [exact F7|]. eapply Forall_impl; [|exact Gx]. intros x Hx. now apply rem_more.
      + rewrite freed_app, F3, app_nil_r. intros id Hid. destruct (Gf _ Hid) as (I1 & I2). destruct (F4 id) as (I3 & I4).
        now rewrite fetched_app, applied_app, I1, I2, I3, I4.
      + apply Forall_app. split; [exact Gn|]. eapply Forall_impl; [|exact F1]. cbn. intros x Hx. apply in_map_iff in Hx.
        destruct Hx as (d & <- & Hd). now apply Bd.
      + intros Mo. destruct (Go (mono_app _ _ Mo)) as (O1 & O2). rewrite all_app, F2, app_nil_r. split; [exact O1|].
        intros a t Ha Ht. apply (O2 _ _ Ha). now apply F9.
    - rewrite Forall_forall in *. intros d Hd. apply (in_map sd_tsc) in Hd. apply F9 in Hd. apply in_map_iff in Hd.
      destruct Hd as (c & <- & Hc). now apply Hl.
  Qed.

  Lemma present_retired n E E1 ev s w L l X w' L' :
    good n E1 E s L ->
    pt_sb_event_present wops ev (ss_retired s) (ss_removed s) (w, L) = (l, X, (w', L'), Ok tt) ->
    good n E1 (E ++ [ev]) (mk_session (ss_decoders s) (ss_waiting s) l X) L'.
  Proof.
    intros G Ep. pose proof (good_nodup _ _ _ _ _ G) as Nd.
    assert (Bd : forall d, In d (ss_retired s) -> number d < n).
    { intros d Hd. eapply good_bound; [exact G|]. unfold members. rewrite !in_app_iff. auto. }
    destruct G as [Gp Gs Ga Gw Gr Gx Gf Gn Go]. unfold members in *. rewrite !nums_app, <- !app_assoc in Nd, Gp.
    rewrite (app_assoc (nums (ss_decoders s))) in Nd. destruct (nodup_mid _ _ _ Nd) as (Nd1 & Nd2).
    assert (Hi : Forall (idle_at ev) (ss_retired s)).
    { rewrite Forall_forall in *. intros d Hd. destruct (Gr _ Hd) as (A & _). unfold idle_at. now rewrite A. }
    destruct (present_good ret ev (fun L S_ E d => ret_others L S_ E d) (fun L E d p => ret_idle ev L E d p) ret_rem
                _ _ _ _ _ _ _ _ _ Ep Nd1 Gr Hi) as (S_ & Y & -> & F1 & F2 & F3 & F4 & -> & F5 & F6 & F7 & F8 & F9).
    assert (O : forall x, In x (ss_decoders s ++ ss_waiting s) -> others (number x) S_).
    { intros x Hx. eapply Forall_impl; [|exact F1]. cbn. intros y Hy Ey. rewrite Ey in Hy. apply (proj1 (Nd2 _ Hy)).
      rewrite <- nums_app. now apply in_map. }
    constructor; cbn [ss_decoders ss_waiting ss_retired ss_removed].
    + unfold members. cbn [ss_decoders ss_waiting ss_retired ss_removed]. rewrite freed_app, F3, app_nil_r.
      eapply Permutation_trans; [|exact Gp]. rewrite !nums_app, <- !app_assoc.
      do 2 apply Permutation_app_head. rewrite (app_assoc (nums l)). now apply Permutation_app_tail.
    + exact Gs.
    + rewrite Forall_forall in *. intros x Hx. apply act_others; [apply O; rewrite !in_app_iff; auto|now apply Ga].
    + rewrite Forall_forall in *. intros x Hx. apply wait_others; [apply O; rewrite !in_app_iff; auto|now apply Gw].
    + exact F6.
    + apply Forall_app. split; [exact F7|]. eapply Forall_impl; [|exact Gx]. intros x Hx. now apply rem_more.
    + rewrite freed_app, F3, app_nil_r. intros id Hid. destruct (Gf _ Hid) as (I1 & I2). destruct (F4 id) as (I3 & I4).
      now rewrite fetched_app, applied_app, I1, I2, I3, I4.
    + apply Forall_app. split; [exact Gn|]. eapply Forall_impl; [|exact F1]. cbn. intros x Hx. apply in_map_iff in Hx.
      destruct Hx as (d & <- & Hd). now apply Bd.
    + intros Mo. destruct (Go (mono_app _ _ Mo)) as (O1 & O2). rewrite all_app, F2, app_nil_r. split; [exact O1|exact O2].
  Qed.

  Lemma event_good n E fuel printing ev s w L s' w' L' :
    good n E E s L -> pt_sb_event wops fuel printing ev s (w, L) = (s', (w', L'), Ok tt) ->
    good n (E ++ [ev]) (E ++ [ev]) s' L' /\ Forall (fun d => (ev_tsc ev < sd_tsc d)%N) (ss_decoders s') /\
    ss_waiting s' = ss_waiting s.
  Proof.
    intros G He. pose proof (event_waiting wops fuel printing ev s (w, L)) as Hw. rewrite He in Hw.
    split; [|split; [|exact Hw]]; revert He; unfold pt_sb_event;
    (destruct (first_round wops fuel printing ev s (w, L)) as ((s1, (w1, L1)), [[]|?|?]) eqn:E1; try discriminate);
    (destruct (first_good _ _ _ _ _ _ _ _ _ _ _ G E1) as (G1 & H1));
    (destruct (pt_sb_event_present wops ev (ss_decoders s1) (ss_removed s1) (w1, L1)) as (((l2, X2), (w2, L2)), [[]|?|?]) eqn:E2;
      try discriminate);
    (destruct (present_decoders _ _ _ _ _ _ _ _ _ _ G1 H1 E2) as (G2 & H2));
    cbn [ss_retired ss_removed ss_waiting ss_decoders];
    (destruct (pt_sb_event_present wops ev (ss_retired s1) X2 (w2, L2)) as (((l3, X3), (w3, L3)), r3) eqn:E3);
    intros H; injection H as <- <- -> ->.
    - exact (present_retired _ _ _ _ _ _ _ _ _ _ _ G2 E3).
    - exact H2.
  Qed.

  Lemma see_good n : forall l E s w L s' w' L',
    good n E E s L -> see wops l s (w, L) = (s', (w', L'), Ok tt) ->
    good n (E ++ map snd l) (E ++ map snd l) s' L' /\ ss_waiting s' = ss_waiting s /\
    (forall l' x, l = l' ++ [x] -> Forall (fun d => (ev_tsc (snd x) < sd_tsc d)%N) (ss_decoders s')).
  Proof.
    induction l as [|((fuel, printing), ev) l IH]; intros E s w L s' w' L' G H; cbn [see] in H.
    - injection H as <- <- <-. cbn [map]. rewrite app_nil_r. split; [exact G|]. split; [reflexivity|].
      intros [|? ?] x Hx; discriminate.
    - destruct (pt_sb_event wops fuel printing ev s (w, L)) as ((s1, (w1, L1)), [[]|?|?]) eqn:E1; try discriminate.
      destruct (event_good _ _ _ _ _ _ _ _ _ _ _ G E1) as (G1 & H1 & H2).
      destruct (IH _ _ _ _ _ _ _ G1 H) as (G2 & H3 & H4).
      cbn [map snd]. rewrite <- app_assoc in G2. split; [exact G2|]. split; [congruence|].
      intros [|y l'] x Hx; cbn in Hx; injection Hx as <- Hx.
      + subst l. cbn [see] in H. injection H as <- <- <-. exact H1.
      + now apply (H4 l').
  Qed.

  (** ** Starting *)

  Lemma attach_nums : forall l n (s : sess),
    ss_decoders (attach (numbered n l) s) = ss_decoders s /\ ss_retired (attach (numbered n l) s) = ss_retired s /\
    ss_removed (attach (numbered n l) s) = ss_removed s /\
    nums (ss_waiting (attach (numbered n l) s)) = rev (seq n (length l)) ++ nums (ss_waiting s).
  Proof.
    induction l as [|(p, b) l IH]; intros n s; [cbn; auto|]. cbn [numbered attach].
    destruct (IH (S n) (pt_sb_alloc_decoder (P := @watched P) (n, None, p) b s)) as (I1 & I2 & I3 & I4).
    rewrite I1, I2, I3, I4. repeat split. cbn. now rewrite <- app_assoc.
  Qed.

  Lemma init_good n : forall waiting (s : sess) w L s' w' L',
    ss_waiting s = waiting -> good n [] [] s L -> applied_all L = [] ->
    init_loop wops waiting s (w, L) = (s', (w', L'), Ok tt) ->
    good n [] [] s' L' /\ ss_waiting s' = [].
  Proof.
    induction waiting as [|d waiting IH]; intros s w L s' w' L' Ew G Al H; cbn [init_loop] in H.
    { injection H as <- <- <-. auto. }
    pose proof (good_nodup _ _ _ _ _ G) as Nd.
    assert (Bd : number d < n).
    { eapply good_bound; [exact G|]. unfold members. rewrite Ew, !in_app_iff. cbn. auto. }
    destruct G as [Gp Gs Ga Gw Gr Gx Gf Gn Go]. unfold members in *. rewrite Ew in *.
    assert (Pm : Permutation (nums (ss_decoders s ++ (d :: waiting) ++ ss_retired s ++ ss_removed s) ++ freed L)
                   (number d :: nums (ss_decoders s ++ waiting ++ ss_retired s ++ ss_removed s) ++ freed L)).
    { change (number d :: nums (ss_decoders s ++ waiting ++ ss_retired s ++ ss_removed s) ++ freed L) with
        ((number d :: nums (ss_decoders s ++ waiting ++ ss_retired s ++ ss_removed s)) ++ freed L).
      apply Permutation_app_tail.
      change (number d :: nums (ss_decoders s ++ waiting ++ ss_retired s ++ ss_removed s)) with
        (nums (d :: ss_decoders s ++ waiting ++ ss_retired s ++ ss_removed s)).
      apply Permutation_map. cbn [app]. apply Permutation_sym, Permutation_middle. }
    assert (Nd' : NoDup (number d :: nums (ss_decoders s ++ waiting ++ ss_retired s ++ ss_removed s) ++ freed L)).
    { eapply Permutation_NoDup; [exact Pm|exact Nd]. }
    apply NoDup_cons_iff in Nd'. destruct Nd' as (Nin & _).
    assert (Gp' : Permutation (number d :: nums (ss_decoders s ++ waiting ++ ss_retired s ++ ss_removed s) ++ freed L) (seq 0 n)).
    { eapply Permutation_trans; [apply Permutation_sym, Pm|exact Gp]. }
    clear Pm Nd Gp. apply Forall_cons_iff in Gw. destruct Gw as (Wd & Gw).
    assert (O : forall S_ x, from (number d) S_ -> In x (ss_decoders s ++ waiting ++ ss_retired s ++ ss_removed s) ->
                             others (number x) S_).
    { intros S_ x Fr Hx. apply (from_others _ _ _ Fr). intros Ex. apply Nin, in_or_app. left. rewrite Ex. now apply in_map. }
    assert (Of : forall S_ id, from (number d) S_ -> In id (freed L) -> others id S_).
    { intros S_ id Fr Hx. apply (from_others _ _ _ Fr). intros <-. apply Nin, in_or_app. now right. }
    destruct Wd as (Wd1 & Wd2 & Wd3).
    unfold pt_sb_fetch in H. cbn [watch so_fetch] in H. destruct d as (tsc, ((id, cur), p), pr).
    cbn [sd_priv] in H. destruct (so_fetch ops w p) as ((w1, p1), r1). unfold number in *. cbn [sd_priv fst] in *.
    destruct r1 as [t|e|u]; [| |discriminate].
    - apply (IH _ _ _ _ _ _) in H; [exact H|reflexivity| |rewrite all_app, Al; reflexivity].
      assert (Fr : from id [Fetched id (Some t)]) by (repeat constructor).
      constructor; cbn [ss_decoders ss_waiting ss_retired ss_removed].
      + unfold members. cbn [ss_decoders ss_waiting ss_retired ss_removed]. rewrite freed_app. cbn [freed flat_map].
        rewrite app_nil_r. eapply Permutation_trans; [|exact Gp'].
        change (id :: nums (ss_decoders s ++ waiting ++ ss_retired s ++ ss_removed s) ++ freed L) with
          (nums ((set_tsc (set_priv (mk_sbdec tsc (id, cur, p) pr) (id, Some t, p1)) t :: ss_decoders s) ++ waiting ++ ss_retired s ++ ss_removed s) ++ freed L).
        apply Permutation_app_tail, Permutation_map, Permutation_app_tail, Permutation_sym, add_perm.
      + now apply add_sorted.
      + eapply Permutation_Forall; [apply add_perm|]. constructor.
        * unfold act, number, current. cbn [sd_priv sd_tsc set_tsc set_priv fst snd].
          rewrite fetched_app, applied_app, seen_app, Wd1, Wd2, Wd3. cbn. rewrite Nat.eqb_refl. auto.
        * rewrite Forall_forall in *. intros x Hx. apply act_others; [apply (O _ x Fr); rewrite !in_app_iff; auto|now apply Ga].
      + rewrite Forall_forall in *. intros x Hx. apply wait_others; [apply (O _ x Fr); rewrite !in_app_iff; auto|now apply Gw].
      + rewrite Forall_forall in *. intros x Hx. apply ret_others; [apply (O _ x Fr); rewrite !in_app_iff; auto|now apply Gr].
      + rewrite Forall_forall in *. intros x Hx. apply rem_others; [apply (O _ x Fr); rewrite !in_app_iff; auto|now apply Gx].
      + rewrite freed_app. cbn [freed flat_map]. rewrite app_nil_r. intros i Hi. destruct (Gf _ Hi) as (I1 & I2).
        destruct (others_none _ _ (Of _ i Fr Hi)) as (I3 & I4 & _). now rewrite fetched_app, applied_app, I1, I2, I3, I4.
      + apply Forall_app. split; [exact Gn|]. repeat constructor. exact Bd.
      + intros _. rewrite all_app, Al. cbn. split; [constructor|intros ? ? []].
    - unfold set_priv in H. cbn [watch so_dtor sd_priv] in H. destruct (so_dtor ops w1 p1) as (w2, r2).
      assert (Fr : from id ([Fetched id None] ++ [Freed id])) by (repeat constructor).
      assert (H' : init_loop wops waiting (mk_session (ss_decoders s) waiting (ss_retired s) (ss_removed s))
                     (w2, L ++ [Fetched id None] ++ [Freed id]) = (s', (w', L'), Ok tt)).
      { rewrite app_assoc. destruct r2; [exact H|exact H|discriminate]. }
      apply (IH _ _ _ _ _ _) in H'; [exact H'|reflexivity| |rewrite all_app, Al; reflexivity].
      constructor; cbn [ss_decoders ss_waiting ss_retired ss_removed].
      + unfold members. cbn [ss_decoders ss_waiting ss_retired ss_removed]. rewrite freed_app. cbn [app freed flat_map].
        eapply Permutation_trans; [|exact Gp']. rewrite app_assoc. 
        eapply Permutation_trans; [apply Permutation_app_comm|]. reflexivity.
      + exact Gs.
      + rewrite Forall_forall in *. intros x Hx. apply act_others; [apply (O _ x Fr); rewrite !in_app_iff; auto|now apply Ga].
      + rewrite Forall_forall in *. intros x Hx. apply wait_others; [apply (O _ x Fr); rewrite !in_app_iff; auto|now apply Gw].
      + rewrite Forall_forall in *. intros x Hx. apply ret_others; [apply (O _ x Fr); rewrite !in_app_iff; auto|now apply Gr].
      + rewrite Forall_forall in *. intros x Hx. apply rem_others; [apply (O _ x Fr); rewrite !in_app_iff; auto|now apply Gx].
      + rewrite freed_app. cbn [app freed flat_map]. intros i Hi. apply in_app_or in Hi. destruct Hi as [Hi|[<-|[]]].
        * destruct (Gf _ Hi) as (I1 & I2). destruct (others_none _ _ (Of _ i Fr Hi)) as (I3 & I4 & _).
          cbn [app] in I3, I4. now rewrite fetched_app, applied_app, I1, I2, I3, I4.
        * rewrite fetched_app, applied_app, Wd1, Wd2. auto.
      + apply Forall_app. split; [exact Gn|]. repeat constructor; exact Bd.
      + intros _. rewrite all_app, Al. cbn. split; [constructor|intros ? ? []].
  Qed.

  Lemma session_good decoders w l s w' L :
    watch_session ops decoders w l = (s, (w', L), Ok tt) ->
    good (length decoders) (map snd l) (map snd l) s L /\ ss_waiting s = [] /\
    (forall l' x, l = l' ++ [x] -> Forall (fun d => (ev_tsc (snd x) < sd_tsc d)%N) (ss_decoders s)).
  Proof.
    unfold watch_session, run_session, pt_sb_init_decoders. set (s0 := attach (numbered 0 decoders) pt_sb_alloc).
    destruct (attach_nums decoders 0 pt_sb_alloc) as (A1 & A2 & A3 & A4). fold s0 in A1, A2, A3, A4.
    destruct (init_loop wops (ss_waiting s0) s0 (w, [])) as ((s1, (w1, L1)), [[]|?|?]) eqn:Ei; try discriminate.
    assert (G0 : good (length decoders) [] [] s0 []).
    { constructor; rewrite ?A1, ?A2, ?A3; try solve [cbn; constructor].
      - unfold members. rewrite A1, A2, A3. cbn [pt_sb_alloc ss_decoders ss_retired ss_removed app].
        rewrite !app_nil_r, A4. cbn. rewrite !app_nil_r. apply Permutation_sym, Permutation_rev.
      - apply Forall_forall. intros x _. repeat split.
      - cbn. intros _ [].
      - intros _. cbn. split; [constructor|intros _ _ []]. }
    destruct (init_good _ _ _ _ _ _ _ _ eq_refl G0 eq_refl Ei) as (G1 & W1).
    intros H. destruct (see_good _ _ _ _ _ _ _ _ _ G1 H) as (G2 & W2 & H2). cbn [app] in G2.
    rewrite W2. auto.
  Qed.

  Lemma free_notes : forall l w L w' L',
    free_decoders wops l (w, L) = ((w', L'), Ok tt) -> L' = L ++ map Freed (nums l).
  Proof.
    induction l as [|d l IH]; intros w L w' L' H; cbn [free_decoders] in H.
    - injection H as _ <-. now rewrite app_nil_r.
    - cbn [watch so_dtor] in H. destruct (sd_priv d) as ((id, t), p) eqn:Ep.
      destruct (so_dtor ops w p) as (w1, r1).
      assert (H' : free_decoders wops l (w1, L ++ [Freed id]) = (w', L', Ok tt)) by (destruct r1; [exact H|exact H|discriminate]).
      apply IH in H'. subst L'. cbn [nums map]. replace (number d) with id by (unfold number; now rewrite Ep). now rewrite <- app_assoc.
  Qed.
End ORDER.
