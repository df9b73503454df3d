(** Lemmas for the event queue. *)

From Verif Require Import Base M_evq S_core S_evq L_core.
From Coq Require Import List NArith ZArith PeanoNat Bool Lia ZifyBool ZifyNat ZifyN.
Import ListNotations.
Open Scope nat_scope.
Ltac Zify.zify_post_hook ::= Z.div_mod_to_equations.

Lemma inc_mod i : i < 16 -> pt_evq_inc i = (i + 1) mod 16.
Proof. intros H. unfold pt_evq_inc, evq_max. lia. Qed.

Lemma dec_mod i : i < 16 -> pt_evq_dec i = (i + 15) mod 16.
Proof. intros H. unfold pt_evq_dec, evq_max. lia. Qed.

Section LEM.
  Context {E : Type}.

  Definition entry_of (e : N * E) : evq_entry E := mk_entry (snd e) (fst e).

  (** The slots from [begin] hold the list [l]. *)
  Definition holds (arr : list (evq_entry E)) (begin : nat) (l : list (N * E)) : Prop :=
    forall i e, nth_error l i = Some e ->
           nth_error arr ((begin + i) mod 16) = Some (entry_of e).

  Lemma holds_cons arr begin e l : begin < 16 ->
    holds arr begin (e :: l) <->
    nth_error arr begin = Some (entry_of e) /\ holds arr ((begin + 1) mod 16) l.
  Proof.
    intros Hb. split.
    - intros H. split.
      + specialize (H 0 e eq_refl). rewrite Nat.add_0_r, Nat.mod_small in H by lia. exact H.
      + intros i e' Hi. specialize (H (S i) e' Hi). rewrite <- H. f_equal. lia.
    - intros [H0 H] i e' Hi. destruct i as [|i].
      + cbn in Hi. injection Hi as <-. rewrite Nat.add_0_r, Nat.mod_small by lia. exact H0.
      + cbn [nth_error] in Hi. rewrite <- (H i e' Hi). f_equal. lia.
  Qed.

  Definition evq_rep (c : evq E * option nat) (s : @spec_state E) : Prop :=
    let (q, hc) := c in
    let (l, hs) := s in
    length (evq_queue q) = 16 /\ evq_begin q < 16 /\ length l <= 14 /\
    evq_end q = (evq_begin q + length l) mod 16 /\
    holds (evq_queue q) (evq_begin q) l /\
    match hc, hs with
    | None, None => True
    | Some i, Some ev => i = (evq_begin q + 15) mod 16 /\ evq_at q i = Some ev
    | _, _ => False
    end.

  Lemma scan_spec arr hit fuel begin end_ l :
    begin < 16 -> length l <= 14 -> length l < fuel ->
    end_ = (begin + length l) mod 16 -> holds arr begin l ->
    match scan fuel arr begin end_ hit with
    | Some i => exists e, find (fun e => hit (entry_of e)) l = Some e /\
                     nth_error arr i = Some (entry_of e)
    | None => find (fun e => hit (entry_of e)) l = None
    end.
  Proof.
    revert begin l. induction fuel as [|fuel IH]; intros begin l Hb Hl Hf He Hh; [lia|].
    cbn [scan]. destruct l as [|e l]; cbn [length] in *.
    - destruct (Nat.eqb_spec begin end_); [reflexivity|lia].
    - destruct (Nat.eqb_spec begin end_); [lia|].
      apply holds_cons in Hh; [|exact Hb]. destruct Hh as [H0 Hh]. rewrite H0.
      cbn [find]. destruct (hit (entry_of e)) eqn:Ehit.
      + exists e. split; [reflexivity|exact H0].
      + rewrite inc_mod by exact Hb. apply IH; try assumption; lia.
  Qed.

  Lemma scan_queue_spec c s hit : evq_rep c s ->
    match scan_queue (fst c) hit with
    | Some i => exists e, find (fun e => hit (entry_of e)) (fst s) = Some e /\
                     nth_error (evq_queue (fst c)) i = Some (entry_of e)
    | None => find (fun e => hit (entry_of e)) (fst s) = None
    end.
  Proof.
    destruct c as [q hc], s as [l hs]. intros (Hlen & Hb & Hl & He & Hh & _).
    cbn [fst]. unfold scan_queue, evq_max.
    destruct (Nat.leb_spec 16 (evq_begin q)); [lia|].
    destruct (Nat.leb_spec 16 (evq_end q)); [lia|].
    apply scan_spec; try assumption; lia.
  Qed.

  Lemma find_existsb {A} (p : A -> bool) l :
    existsb p l = match find p l with Some _ => true | None => false end.
  Proof. induction l as [|a l IH]; [reflexivity|]. cbn. destruct (p a); [reflexivity|exact IH]. Qed.

  Lemma find_ext {A} (p p' : A -> bool) l : (forall a, p a = p' a) -> find p l = find p' l.
  Proof. intros H. induction l as [|a l IH]; [reflexivity|]. cbn. rewrite H, IH. reflexivity. Qed.

  (** The element found by the search, with its position. *)
  Fixpoint find_pos (p : N * E -> bool) (l : list (N * E)) : option nat :=
    match l with
    | [] => None
    | e :: l' => if p e then Some 0 else option_map S (find_pos p l')
    end.

  Lemma take_first_pos p l :
    take_first p l =
    match find_pos p l with
    | Some k => match nth_error l k with
                | Some e => Some (snd e, firstn k l ++ skipn (S k) l)
                | None => None
                end
    | None => None
    end.
  Proof.
    induction l as [|e l IH]; [reflexivity|]. cbn [take_first find_pos].
    destruct (p e); [reflexivity|]. rewrite IH.
    destruct (find_pos p l) as [k|]; [|reflexivity]. cbn [option_map nth_error].
    destruct (nth_error l k) as [x|]; reflexivity.
  Qed.

  Lemma find_pos_lt p l k : find_pos p l = Some k -> k < length l.
  Proof.
    revert k. induction l as [|e l IH]; intros k H; [discriminate|]. cbn in H.
    destruct (p e); [injection H as <-; cbn; lia|].
    destruct (find_pos p l) as [k'|]; [|discriminate]. cbn in H. injection H as <-.
    specialize (IH k' eq_refl). cbn. lia.
  Qed.

  Lemma slot_bound_holds arr i evb e : nth_error arr i = Some (entry_of e) ->
    slot_bound arr i evb = bound evb e.
  Proof. intros H. unfold slot_bound. rewrite H. reflexivity. Qed.

  (** The search loop starts behind [begin]. *)
  Lemma dequeue_find_spec arr evb fuel begin end_ e0 l :
    begin < 16 -> length l <= 13 -> length l < fuel ->
    end_ = (begin + 1 + length l) mod 16 -> holds arr begin (e0 :: l) ->
    dequeue_find fuel arr end_ begin evb
    = match find_pos (bound evb) l with
      | Some k => Some ((begin + 1 + k) mod 16)
      | None => None
      end.
  Proof.
    revert begin e0 l. induction fuel as [|fuel IH]; intros begin e0 l Hb Hl Hf He Hh; [lia|].
    cbn [dequeue_find]. rewrite inc_mod by exact Hb. apply holds_cons in Hh; [|exact Hb].
    destruct Hh as [H0 Hh]. destruct l as [|e l]; cbn [length find_pos] in *.
    - destruct (Nat.eqb_spec ((begin + 1) mod 16) end_); [reflexivity|lia].
    - destruct (Nat.eqb_spec ((begin + 1) mod 16) end_); [lia|].
      pose proof Hh as Hh'. apply holds_cons in Hh'; [|lia]. destruct Hh' as [H1 _].
      rewrite (slot_bound_holds _ _ _ _ H1).
      destruct (bound evb e).
      + f_equal. lia.
      + rewrite (IH ((begin + 1) mod 16) e l); try assumption; try lia.
        destruct (find_pos (bound evb) l) as [k|]; cbn [option_map]; [|reflexivity].
        f_equal. lia.
  Qed.

  Lemma dequeue_shift_spec fuel : forall (arr : list (evq_entry E)) begin k,
    length arr = 16 -> begin < 16 -> 1 <= k < 16 -> k <= fuel ->
    exists arr', dequeue_shift fuel arr begin ((begin + k) mod 16)
            = (arr', (begin + 1) mod 16) /\
      length arr' = 16 /\
      forall j, j < 16 ->
        nth_error arr' ((begin + j) mod 16)
        = if (1 <=? j) && (j <=? k) then nth_error arr ((begin + j - 1) mod 16)
          else nth_error arr ((begin + j) mod 16).
  Proof.
    induction fuel as [|fuel IH]; intros arr begin k Hlen Hb Hk Hf; [lia|].
    cbn [dequeue_shift]. rewrite dec_mod by lia.
    replace (((begin + k) mod 16 + 15) mod 16) with ((begin + (k - 1)) mod 16) by lia.
    destruct (nth_error arr ((begin + (k - 1)) mod 16)) as [e|] eqn:En.
    2: { apply nth_error_None in En. lia. }
    set (arr1 := set_at arr ((begin + k) mod 16) e).
    assert (Hlen1 : length arr1 = 16) by (unfold arr1; rewrite set_at_length; lia).
    assert (H1 : forall j, j < 16 ->
               nth_error arr1 ((begin + j) mod 16)
               = if j =? k then nth_error arr ((begin + (k - 1)) mod 16)
                 else nth_error arr ((begin + j) mod 16)).
    { intros j Hj. unfold arr1. destruct (Nat.eqb_spec j k) as [->|Hne].
      - rewrite En. apply set_at_nth_eq. lia.
      - apply set_at_nth_ne; lia. }
    destruct (Nat.eqb_spec ((begin + (k - 1)) mod 16) begin) as [Eb|Eb].
    - assert (k = 1) by lia. subst k. exists arr1. split; [reflexivity|].
      split; [exact Hlen1|]. intros j Hj. rewrite H1 by exact Hj.
      destruct (Nat.eqb_spec j 1) as [->|Hne].
      + cbn [Nat.leb andb]. f_equal. lia.
      + replace ((1 <=? j) && (j <=? 1)) with false by lia. reflexivity.
    - destruct (IH arr1 begin (k - 1)) as (arr' & Es & Hlen' & Hn); try assumption; try lia.
      exists arr'. split; [exact Es|]. split; [exact Hlen'|]. intros j Hj.
      rewrite Hn by exact Hj.
      destruct ((1 <=? j) && (j <=? k - 1)) eqn:Ej.
      + replace ((begin + j - 1) mod 16) with ((begin + (j - 1)) mod 16) by lia.
        rewrite H1 by lia. replace (j - 1 =? k) with false by lia.
        replace ((1 <=? j) && (j <=? k)) with true by lia. reflexivity.
      + rewrite H1 by exact Hj. destruct (Nat.eqb_spec j k) as [->|Hne].
        * replace ((1 <=? k) && (k <=? k)) with true by lia. f_equal. lia.
        * replace ((1 <=? j) && (j <=? k)) with false by lia. reflexivity.
  Qed.

  Lemma nth_error_app_mid (l r : list (N * E)) e i :
    nth_error (l ++ e :: r) i
    = if i <? length l then nth_error l i
      else if i =? length l then Some e else nth_error r (i - length l - 1).
  Proof.
    destruct (Nat.ltb_spec i (length l)).
    - apply nth_error_app1. assumption.
    - rewrite nth_error_app2 by assumption.
      destruct (Nat.eqb_spec i (length l)) as [->|].
      + rewrite Nat.sub_diag. reflexivity.
      + destruct (i - length l) as [|m] eqn:Em; [lia|]. cbn [nth_error]. f_equal. lia.
  Qed.

  Lemma deq_sim q hc l hs evb : evq_rep (q, hc) (l, hs) ->
    match take_first (bound evb) l with
    | Some (ev, l') =>
        exists q' i, pt_evq_dequeue q evb = (q', Some i) /\ evq_at q' i = Some ev /\
                evq_rep (q', Some i) (l', Some ev)
    | None => pt_evq_dequeue q evb = (q, None)
    end.
  Proof.
    intros (Hlen & Hb & Hl & He & Hh & Hheld). rewrite take_first_pos.
    unfold pt_evq_dequeue, evq_max.
    destruct (Nat.leb_spec 16 (evq_begin q)); [lia|].
    destruct (Nat.leb_spec 16 (evq_end q)); [lia|].
    destruct l as [|e0 l]; cbn [length] in *.
    { cbn [find_pos]. destruct (Nat.eqb_spec (evq_begin q) (evq_end q)); [reflexivity|lia]. }
    destruct (Nat.eqb_spec (evq_begin q) (evq_end q)); [lia|].
    pose proof Hh as Hh0. apply holds_cons in Hh0; [|exact Hb]. destruct Hh0 as [Hz0 Ht].
    rewrite (slot_bound_holds _ _ _ _ Hz0). cbn [find_pos].
    destruct (bound evb e0) eqn:Eb0.
    - cbn [nth_error firstn skipn app]. rewrite inc_mod by exact Hb.
      eexists. exists (evq_begin q). split; [reflexivity|].
      assert (Hat : evq_at (mk_evq (evq_queue q) ((evq_begin q + 1) mod 16) (evq_end q))
                           (evq_begin q) = Some (snd e0)).
      { unfold evq_at. cbn [evq_queue]. rewrite Hz0. reflexivity. }
      split; [exact Hat|]. unfold evq_rep. cbn [evq_queue evq_begin evq_end].
      split; [exact Hlen|]. split; [lia|]. split; [lia|]. split; [lia|].
      split; [exact Ht|]. split; [lia|exact Hat].
    - rewrite (dequeue_find_spec (evq_queue q) evb 16 (evq_begin q) (evq_end q) e0 l);
        try assumption; try lia.
      destruct (find_pos (bound evb) l) as [k|] eqn:Ek; cbn [option_map]; [|reflexivity].
      pose proof (find_pos_lt _ _ _ Ek) as Hk.
      cbn [nth_error]. destruct (nth_error l k) as [ek|] eqn:Enk.
      2: { apply nth_error_None in Enk. lia. }
      pose proof (Hh (S k) ek Enk) as Hslot.
      replace ((evq_begin q + 1 + k) mod 16) with ((evq_begin q + S k) mod 16) by lia.
      rewrite Hslot.
      destruct (dequeue_shift_spec 16 (evq_queue q) (evq_begin q) (S k))
        as (arr' & Es & Hlen' & Hn); try assumption; try lia.
      rewrite Es. eexists. exists (evq_begin q). split; [reflexivity|].
      assert (Hat : evq_at (mk_evq (set_at arr' (evq_begin q) (entry_of ek))
                                   ((evq_begin q + 1) mod 16) (evq_end q))
                           (evq_begin q) = Some (snd ek)).
      { unfold evq_at. cbn [evq_queue]. rewrite set_at_nth_eq by lia. reflexivity. }
      split; [exact Hat|]. unfold evq_rep. cbn [evq_queue evq_begin evq_end].
      rewrite set_at_length by lia.
      assert (Hl' : length (firstn (S k) (e0 :: l) ++ skipn (S (S k)) (e0 :: l)) = length l).
      { rewrite app_length, firstn_length, skipn_length. cbn [length]. lia. }
      rewrite Hl'.
      split; [exact Hlen'|]. split; [lia|]. split; [lia|]. split; [lia|].
      split; [|split; [lia|exact Hat]].
      intros i e Hi. rewrite set_at_nth_ne.
      2: lia.
      2: { assert (i < length l); [|lia].
           rewrite <- Hl'. apply nth_error_Some. congruence. }
      assert (Hil : i < length l)
        by (rewrite <- Hl'; apply nth_error_Some; congruence).
      replace (((evq_begin q + 1) mod 16 + i) mod 16)
        with ((evq_begin q + (i + 1)) mod 16) by lia.
      rewrite Hn by lia.
      destruct (Nat.lt_ge_cases i (S k)) as [Hlt|Hge].
      + replace ((1 <=? i + 1) && (i + 1 <=? S k)) with true by lia.
        replace (evq_begin q + (i + 1) - 1) with (evq_begin q + i) by lia.
        apply Hh. rewrite nth_error_app1 in Hi
          by (rewrite firstn_length; cbn [length]; lia).
        rewrite nth_error_firstn in Hi by exact Hlt. exact Hi.
      + replace ((1 <=? i + 1) && (i + 1 <=? S k)) with false by lia.
        apply Hh. rewrite nth_error_app2 in Hi
          by (rewrite firstn_length; cbn [length]; lia).
        rewrite firstn_length in Hi. cbn [length] in Hi.
        rewrite nth_error_skipn in Hi. rewrite <- Hi. f_equal. lia.
  Qed.

  Lemma enq_sim q hc l hs evb ev : evq_rep (q, hc) (l, hs) ->
    if length l <? 14
    then exists q', pt_evq_enqueue q evb ev = Some q' /\
               evq_rep (q', hc) (l ++ [(evb, ev)], hs) /\
               evq_queue q' = set_at (evq_queue q) (evq_end q) (mk_entry ev evb) /\
               evq_begin q' = evq_begin q
    else pt_evq_enqueue q evb ev = None.
  Proof.
    intros (Hlen & Hb & Hl & He & Hh & Hheld). unfold pt_evq_enqueue, evq_max.
    destruct (Nat.leb_spec 16 (evq_begin q)); [lia|].
    destruct (Nat.leb_spec 16 (evq_end q)); [lia|].
    rewrite !inc_mod by (try rewrite inc_mod; lia).
    destruct (Nat.ltb_spec (length l) 14) as [Hlt|Hge].
    - destruct (Nat.eqb_spec (evq_begin q) (((evq_end q + 1) mod 16 + 1) mod 16)); [lia|].
      eexists. split; [reflexivity|]. split; [|split; reflexivity].
      unfold evq_rep. cbn [evq_queue evq_begin evq_end].
      rewrite set_at_length by lia. rewrite app_length. cbn [length].
      split; [exact Hlen|]. split; [lia|]. split; [lia|]. split; [lia|]. split.
      + intros i e Hi. rewrite nth_error_app_mid in Hi.
        destruct (Nat.ltb_spec i (length l)) as [Hil|Hil].
        * rewrite set_at_nth_ne by lia. apply Hh. exact Hi.
        * destruct (Nat.eqb_spec i (length l)) as [->|Hne].
          -- injection Hi as <-. rewrite <- He. apply set_at_nth_eq. lia.
          -- destruct (i - length l - 1); discriminate Hi.
      + destruct hc as [i|], hs as [h|]; try assumption. destruct Hheld as [-> Hat].
        split; [reflexivity|]. unfold evq_at in *. cbn [evq_queue].
        rewrite set_at_nth_ne by lia. exact Hat.
    - destruct (Nat.eqb_spec (evq_begin q) (((evq_end q + 1) mod 16 + 1) mod 16));
        [reflexivity|lia].
  Qed.

  Lemma set_at_twice {A} (l : list A) i x y : i < length l ->
    set_at (set_at l i x) i y = set_at l i y.
  Proof.
    intros H. unfold set_at. rewrite firstn_app, firstn_firstn, firstn_length.
    replace (i - Nat.min i (length l)) with 0 by lia.
    rewrite Nat.min_id. cbn [firstn]. rewrite app_nil_r. f_equal. f_equal.
    rewrite skipn_app. rewrite firstn_length.
    replace (S i - Nat.min i (length l)) with 1 by lia.
    rewrite (skipn_all2 (firstn i l)) by (rewrite firstn_length; lia). reflexivity.
  Qed.

  Lemma evq_step_sim zero c s o : evq_rep c s ->
    snd (evq_step zero c o) = snd (evq_spec_step s o) /\
    evq_rep (fst (evq_step zero c o)) (fst (evq_spec_step s o)).
  Proof.
    destruct c as [q hc], s as [l hs]. intros HR. pose proof HR as HR0.
    destruct HR0 as (Hlen & Hb & Hl & He & Hh & Hheld).
    destruct o as [evb ev|evb|evb| |evb|evb ty|evb|evb|]; cbn [evq_step evq_spec_step].
    - pose proof (enq_sim q hc l hs evb ev HR) as H. destruct (length l <? 14).
      + destruct H as (q' & -> & HR' & _). split; [reflexivity|exact HR'].
      + rewrite H. split; [reflexivity|exact HR].
    - pose proof (deq_sim q hc l hs evb HR) as H.
      destruct (take_first (bound evb) l) as [[ev l']|].
      + destruct H as (q' & i & -> & Hat & HR'). rewrite Hat.
        split; [reflexivity|exact HR'].
      + rewrite H. split; [reflexivity|exact HR].
    - destruct hc as [i|], hs as [h|]; try contradiction; [|split; [reflexivity|exact HR]].
      destruct Hheld as [Hi Hat]. unfold pt_evq_requeue.
      pose proof (enq_sim q (Some i) l (Some h) evb zero HR) as H.
      pose proof (enq_sim q (Some i) l (Some h) evb h HR) as H'.
      destruct (Nat.ltb_spec (length l) 14) as [Hlt|Hge].
      + destruct H as (q' & -> & HR' & Eq & Eb). destruct H' as (q2 & E2 & HR2 & Eq2 & Eb2).
        assert (Hat' : evq_at q' i = Some h).
        { destruct HR' as (_ & _ & _ & _ & _ & [_ Hx]). exact Hx. }
        rewrite Hat'. cbn [fst snd].
        assert (Eq' : mk_evq (set_at (evq_queue q') (evq_end q) (mk_entry h evb))
                        (evq_begin q') (evq_end q') = q2).
        { destruct q2 as [qq bb ee]. cbn [evq_queue evq_begin] in *. subst qq bb.
          rewrite Eq, Eb. rewrite set_at_twice by lia. f_equal.
          destruct HR' as (_ & _ & _ & -> & _). destruct HR2 as (_ & _ & _ & He2 & _).
          cbn [evq_begin evq_end] in He2. rewrite He2, Eb, !app_length. reflexivity. }
        rewrite Eq'. split; [|exact HR2]. f_equal. unfold evq_at. rewrite Eq2.
        rewrite set_at_nth_eq by lia. reflexivity.
      + rewrite H. split; [reflexivity|exact HR].
    - cbn [fst snd]. split; [reflexivity|]. unfold evq_rep, pt_evq_clear.
      cbn [evq_queue evq_begin evq_end length].
      split; [exact Hlen|]. split; [lia|]. split; [lia|]. split; [reflexivity|].
      split; [|exact I]. intros i e Hi. destruct i; discriminate Hi.
    - cbn [fst snd]. split; [|exact HR]. f_equal. unfold pt_evq_peek.
      pose proof (scan_queue_spec _ _ (fun e => truth (N.land (en_binding e) evb)) HR) as H.
      cbn [fst] in H. destruct (scan_queue q _) as [i|].
      + destruct H as (e & Hf & Hn). change (find (bound evb) l) with
          (find (fun e => truth (N.land (en_binding (entry_of e)) evb)) l).
        rewrite Hf. unfold evq_at. rewrite Hn. reflexivity.
      + change (find (bound evb) l) with
          (find (fun e => truth (N.land (en_binding (entry_of e)) evb)) l).
        rewrite H. reflexivity.
    - cbn [fst snd]. split; [|exact HR]. f_equal. unfold pt_evq_find.
      pose proof (scan_queue_spec _ _
        (fun e => truth (N.land (en_binding e) evb) && ty (en_event e)) HR) as H.
      cbn [fst] in H. destruct (scan_queue q _) as [i|].
      + destruct H as (e & Hf & Hn).
        change (find (fun e => bound evb e && ty (snd e)) l) with
          (find (fun e => truth (N.land (en_binding (entry_of e)) evb)
                          && ty (en_event (entry_of e))) l).
        rewrite Hf. unfold evq_at. rewrite Hn. reflexivity.
      + change (find (fun e => bound evb e && ty (snd e)) l) with
          (find (fun e => truth (N.land (en_binding (entry_of e)) evb)
                          && ty (en_event (entry_of e))) l).
        rewrite H. reflexivity.
    - cbn [fst snd]. split; [|exact HR]. f_equal. unfold pt_evq_empty.
      pose proof (scan_queue_spec _ _ (fun e => truth (N.land (en_binding e) evb)) HR) as H.
      cbn [fst] in H. rewrite find_existsb.
      change (find (bound evb) l) with
        (find (fun e => truth (N.land (en_binding (entry_of e)) evb)) l).
      destruct (scan_queue q _) as [i|].
      + destruct H as (e & Hf & _). rewrite Hf. reflexivity.
      + rewrite H. reflexivity.
    - cbn [fst snd]. split; [|exact HR]. f_equal. unfold pt_evq_pending, pt_evq_empty.
      pose proof (scan_queue_spec _ _ (fun e => truth (N.land (en_binding e) evb)) HR) as H.
      cbn [fst] in H. rewrite find_existsb.
      change (find (bound evb) l) with
        (find (fun e => truth (N.land (en_binding (entry_of e)) evb)) l).
      destruct (scan_queue q _) as [i|].
      + destruct H as (e & Hf & _). rewrite Hf. reflexivity.
      + rewrite H. reflexivity.
    - cbn [fst snd]. split; [|exact HR]. f_equal.
      destruct hc as [i|], hs as [h|]; try contradiction; [|reflexivity].
      apply Hheld.
  Qed.

  Lemma evq_rep_init zero : evq_rep (pt_evq_init zero, None) ([], None).
  Proof.
    unfold evq_rep, pt_evq_init. cbn [evq_queue evq_begin evq_end length].
    rewrite repeat_length. repeat (split; [lia || reflexivity|]).
    split; [|exact I]. intros i e Hi. destruct i; discriminate Hi.
  Qed.

  (** Order per binding, on the specification. *)
  Definition own (b : N) (l : list (N * E)) : list E :=
    map snd (filter (fun e => N.eqb (fst e) b) l).

  Definition clean (b : N) (l : list (N * E)) : Prop :=
    Forall (fun e => fst e = b \/ N.land (fst e) b = 0%N) l.

  Lemma own_app b l r : own b (l ++ r) = own b l ++ own b r.
  Proof. unfold own. rewrite filter_app, map_app. reflexivity. Qed.

  Lemma take_first_own b l : b <> 0%N -> clean b l ->
    match take_first (bound b) l with
    | Some (ev, l') => own b l = ev :: own b l' /\ clean b l'
    | None => own b l = []
    end.
  Proof.
    intros Hb. induction l as [|e l IH]; intros Hc; [reflexivity|].
    inversion Hc as [|? ? He Hl]; subst. cbn [take_first].
    unfold own at 1. cbn [filter]. unfold bound at 1.
    destruct (N.eqb_spec (fst e) b) as [E0|E0].
    - rewrite E0, N.land_diag. destruct (N.eqb_spec b 0); [contradiction|]. cbn [negb].
      split; [reflexivity|exact Hl].
    - destruct He as [He|He]; [contradiction|]. rewrite He. cbn [N.eqb negb].
      specialize (IH Hl). destruct (take_first (bound b) l) as [[ev l']|].
      + destruct IH as [IH Hc']. split.
        * fold (own b l). rewrite IH. unfold own. cbn [filter].
          destruct (N.eqb_spec (fst e) b); [contradiction|]. reflexivity.
        * constructor; [right; exact He|exact Hc'].
      + unfold own in *. cbn [filter]. destruct (N.eqb_spec (fst e) b); [contradiction|]. exact IH.
  Qed.

  Lemma take_first_other b b' l : N.land b' b = 0%N -> b <> 0%N -> clean b l ->
    match take_first (bound b') l with
    | Some (_, l') => own b l' = own b l /\ clean b l'
    | None => True
    end.
  Proof.
    intros Hbb Hb. induction l as [|e l IH]; intros Hc; [exact I|].
    inversion Hc as [|? ? He Hl]; subst. cbn [take_first]. unfold bound at 1.
    destruct (negb (N.land (fst e) b' =? 0)%N) eqn:Eb.
    - unfold own. cbn [filter]. destruct (N.eqb_spec (fst e) b) as [E0|E0].
      + rewrite E0, N.land_comm, Hbb in Eb. discriminate.
      + split; [reflexivity|exact Hl].
    - specialize (IH Hl). destruct (take_first (bound b') l) as [[x l']|]; [|exact I].
      destruct IH as [IH Hc']. split; [|constructor; assumption].
      unfold own in *. cbn [filter]. destruct (N.eqb_spec (fst e) b); cbn [map];
        rewrite IH; reflexivity.
  Qed.

  Lemma spec_order b ops : b <> 0%N -> Forall (separate b) ops ->
    forall l held, clean b l ->
    exists l', clean b l' /\
      own b l ++ queued_for b ops (answers evq_spec_step (l, held) ops)
      = returned_for b ops (answers evq_spec_step (l, held) ops) ++ own b l'.
  Proof.
    intros Hb Hops. induction Hops as [|o ops Ho Hops IH]; intros l held Hc.
    { exists l. split; [exact Hc|]. cbn. apply app_nil_r. }
    cbn [answers].
    destruct o as [evb ev|evb|evb| |evb|evb ty|evb|evb|]; cbn [separate] in Ho;
      cbn [evq_spec_step]; try contradiction; try (apply IH; exact Hc).
    - destruct (length l <? 14).
      2: { apply IH; exact Hc. }
      cbn [queued_for returned_for].
      destruct (IH (l ++ [(evb, ev)]) held) as (l' & Hc' & E').
      { apply Forall_app. split; [exact Hc|]. constructor; [exact Ho|constructor]. }
      exists l'. split; [exact Hc'|]. rewrite own_app in E'.
      unfold own at 2 in E'. cbn [filter fst] in E'.
      destruct (N.eqb_spec evb b); cbn [map snd] in E'.
      + rewrite <- app_assoc in E'. exact E'.
      + rewrite app_nil_r in E'. exact E'.
    - destruct Ho as [->|Ho].
      + pose proof (take_first_own b l Hb Hc) as H.
        destruct (take_first (bound b) l) as [[ev l1]|].
        * destruct H as [Hown Hc1]. destruct (IH l1 (Some ev) Hc1) as (l' & Hc' & E').
          exists l'. split; [exact Hc'|]. cbn [queued_for returned_for].
          rewrite N.eqb_refl, Hown. cbn [app]. f_equal. exact E'.
        * apply IH; exact Hc.
      + pose proof (take_first_other b evb l Ho Hb Hc) as H.
        destruct (take_first (bound evb) l) as [[ev l1]|].
        * destruct H as [Hown Hc1]. destruct (IH l1 (Some ev) Hc1) as (l' & Hc' & E').
          exists l'. split; [exact Hc'|]. cbn [queued_for returned_for].
          destruct (N.eqb_spec evb b) as [->|_].
          { rewrite N.land_diag in Ho. contradiction. }
          rewrite <- Hown. exact E'.
        * apply IH; exact Hc.
    - destruct held as [h|]; [|apply IH; exact Hc].
      destruct (length l <? 14).
      2: { apply IH; exact Hc. }
      cbn [queued_for returned_for].
      destruct (IH (l ++ [(evb, h)]) (Some h)) as (l' & Hc' & E').
      { apply Forall_app. split; [exact Hc|]. constructor; [exact Ho|constructor]. }
      exists l'. split; [exact Hc'|]. rewrite own_app in E'.
      unfold own at 2 in E'. cbn [filter fst] in E'.
      destruct (N.eqb_spec evb b); cbn [map snd] in E'.
      + rewrite <- app_assoc in E'. exact E'.
      + rewrite app_nil_r in E'. exact E'.
  Qed.
End LEM.
