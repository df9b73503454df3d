(** The event queue by positions: what the pointers into the queue refer to. *)

From Verif Require Import Base M_evq S_core S_evq L_core L_evq.
From Coq Require Import List NArith ZArith PeanoNat Bool Lia ZifyBool ZifyNat ZifyN.
Import ListNotations.
Open Scope nat_scope.
Ltac Zify.zify_post_hook ::= Z.div_mod_to_equations.

Section POS.
  Context {E : Type}.

  (** The queue holds the list [l]. *)
  Definition qrep (q : evq E) (l : list (N * E)) : Prop := evq_rep (q, None) (l, None).

  (** The slot of the event dequeued last. *)
  Definition held (q : evq E) (i : nat) (e : E) : Prop :=
    i = (evq_begin q + 15) mod 16 /\ evq_at q i = Some e.

  (** The slot of the [k]-th event. *)
  Definition slot_of (q : evq E) (k : nat) : nat := (evq_begin q + k) mod 16.

  Lemma qrep_held q l i e : qrep q l -> held q i e <-> evq_rep (q, Some i) (l, Some e).
  Proof.
    intros (H1 & H2 & H3 & H4 & H5 & _). split.
    - intros H. repeat split; try assumption; apply H.
    - intros (_ & _ & _ & _ & _ & H). exact H.
  Qed.

  Lemma qrep_forget q l hc hs : evq_rep (q, hc) (l, hs) -> qrep q l.
  Proof. intros (H1 & H2 & H3 & H4 & H5 & _). repeat split; assumption. Qed.

  Lemma qrep_length q l : qrep q l -> length l <= 14.
  Proof. intros H. apply H. Qed.

  Lemma qrep_empty q : qrep q [] -> evq_begin q = evq_end q.
  Proof. intros (_ & H2 & _ & H4 & _). cbn [length] in H4. lia. Qed.

  Lemma qrep_init (z : E) : qrep (pt_evq_init z) [].
  Proof. apply evq_rep_init. Qed.

  Lemma qrep_end q l : qrep q l -> evq_end q = slot_of q (length l).
  Proof. intros H. apply H. Qed.

  Lemma qrep_at q l k b e : qrep q l -> nth_error l k = Some (b, e) ->
    evq_at q (slot_of q k) = Some e.
  Proof.
    intros (_ & _ & _ & _ & H & _) Hk. unfold evq_at, slot_of.
    rewrite (H k _ Hk). reflexivity.
  Qed.

  Definition put (q : evq E) (i : nat) (e : E) : evq E :=
    match nth_error (evq_queue q) i with
    | Some en => mk_evq (set_at (evq_queue q) i (mk_entry e (en_binding en)))
                        (evq_begin q) (evq_end q)
    | None => q
    end.

  Lemma put_begin q i e : evq_begin (put q i e) = evq_begin q.
  Proof. unfold put. destruct nth_error; reflexivity. Qed.

  Lemma held_at q i e : held q i e -> evq_at q i = Some e.
  Proof. intros H. apply H. Qed.

  Lemma put_held q l i e e' : qrep q l -> held q i e ->
    qrep (put q i e') l /\ held (put q i e') i e'.
  Proof.
    intros (H1 & H2 & H3 & H4 & H5 & _) [Hi Hat]. unfold put, evq_at in *.
    destruct (nth_error (evq_queue q) i) as [en|] eqn:En; [|discriminate].
    assert (Hlt : i < 16) by lia.
    split.
    - unfold qrep, evq_rep. cbn [evq_queue evq_begin evq_end].
      rewrite set_at_length by lia. repeat split; try assumption.
      intros k x Hk. assert (k < length l) by (apply nth_error_Some; congruence).
      rewrite set_at_nth_ne by lia. apply H5. exact Hk.
    - unfold held, evq_at. cbn [evq_queue evq_begin].
      rewrite set_at_nth_eq by lia. split; [exact Hi|reflexivity].
  Qed.

  (** Replace the event at a position; the binding stays. *)
  Fixpoint update (l : list (N * E)) (k : nat) (e : E) : list (N * E) :=
    match l, k with
    | [], _ => []
    | x :: l, O => (fst x, e) :: l
    | x :: l, S k => x :: update l k e
    end.

  Lemma update_length l k e : length (update l k e) = length l.
  Proof. revert k. induction l as [|x l IH]; intros [|k]; cbn; auto. Qed.

  Lemma update_nth l k e j : nth_error (update l k e) j =
    if j =? k then option_map (fun x => (fst x, e)) (nth_error l j) else nth_error l j.
  Proof.
    revert k j. induction l as [|x l IH]; intros k j; cbn [update].
    - rewrite (proj2 (nth_error_None [] j)) by (cbn; lia). destruct (j =? k); reflexivity.
    - destruct k as [|k], j as [|j]; cbn; try reflexivity.
      + apply IH.
  Qed.

  Lemma put_pos q l k e' : qrep q l -> k < length l ->
    qrep (put q (slot_of q k) e') (update l k e') /\
    forall i x, held q i x -> held (put q (slot_of q k) e') i x.
  Proof.
    intros (H1 & H2 & H3 & H4 & H5 & _) Hk. unfold put, slot_of.
    destruct (nth_error l k) as [y|] eqn:Ey.
    2: { apply nth_error_None in Ey. lia. }
    rewrite (H5 k y Ey). cbn [en_binding entry_of]. split.
    - unfold qrep, evq_rep. cbn [evq_queue evq_begin evq_end].
      rewrite set_at_length by lia. rewrite update_length.
      repeat split; try assumption.
      intros j x Hj. rewrite update_nth in Hj.
      destruct (Nat.eqb_spec j k) as [->|Hne].
      + rewrite Ey in Hj. cbn in Hj. injection Hj as <-.
        rewrite set_at_nth_eq by lia. reflexivity.
      + assert (j < length l) by (apply nth_error_Some; congruence).
        rewrite set_at_nth_ne by lia. apply H5. exact Hj.
    - intros i x [-> Hat]. unfold held, evq_at in *. cbn [evq_queue evq_begin].
      split; [reflexivity|]. rewrite set_at_nth_ne by lia. exact Hat.
  Qed.

  Lemma qrep_enqueue q l b e : qrep q l ->
    if length l <? 14 then
      exists q', pt_evq_enqueue q b e = Some q' /\ qrep q' (l ++ [(b, e)]) /\
            evq_begin q' = evq_begin q /\ (forall i x, held q i x -> held q' i x)
    else pt_evq_enqueue q b e = None.
  Proof.
    intros H. pose proof (enq_sim q None l None b e H) as H'.
    destruct (Nat.ltb_spec (length l) 14) as [Hl|Hl]; [|exact H'].
    destruct H' as (q' & E1 & H1 & E2 & E3). exists q'. repeat split; try apply H1; auto.
    - rewrite E3. apply H0.
    - destruct H as (G1 & G2 & G3 & G4 & G5 & _). destruct H0 as [-> Hat].
      unfold evq_at in *. rewrite E2. rewrite set_at_nth_ne by lia. exact Hat.
  Qed.

  Lemma dequeue_slot (q : evq E) b q' i : pt_evq_dequeue q b = (q', Some i) -> i = evq_begin q.
  Proof.
    unfold pt_evq_dequeue. destruct (Nat.leb _ _); [discriminate|].
    destruct (Nat.leb _ _); [discriminate|]. destruct (Nat.eqb _ _); [discriminate|].
    destruct (slot_bound _ _ _); [intros H; congruence|].
    destruct (dequeue_find _ _ _ _ _) as [idx|]; [|discriminate].
    destruct (nth_error _ _); [|discriminate].
    destruct (dequeue_shift _ _ _ _). congruence.
  Qed.

  Lemma qrep_dequeue q l b : qrep q l ->
    match take_first (bound b) l with
    | Some (e, l') =>
        exists q' i, pt_evq_dequeue q b = (q', Some i) /\ qrep q' l' /\ held q' i e /\
                i = evq_begin q /\ evq_begin q' = (evq_begin q + 1) mod 16
    | None => pt_evq_dequeue q b = (q, None)
    end.
  Proof.
    intros H. pose proof (deq_sim q None l None b H) as H'.
    destruct (take_first (bound b) l) as [[e l']|]; [|exact H'].
    destruct H' as (q' & i & E1 & E2 & H'). exists q', i.
    pose proof (dequeue_slot _ _ _ _ E1) as Ei.
    assert (Hq : qrep q' l') by (eapply qrep_forget; exact H').
    assert (Hh : held q' i e) by (apply (qrep_held q' l' i e Hq); exact H').
    split; [exact E1|]. split; [exact Hq|]. split; [exact Hh|]. split; [exact Ei|].
    destruct Hh as [Hi _]. destruct H as (_ & G2 & _). destruct Hq as (_ & F2 & _). lia.
  Qed.

  Lemma take_first_split p (l : list (N * E)) :
    match take_first p l with
    | Some (e, l') => exists a b c, l = a ++ (b, e) :: c /\ l' = a ++ c /\
                        p (b, e) = true /\ Forall (fun x => p x = false) a
    | None => Forall (fun x => p x = false) l
    end.
  Proof.
    induction l as [|[b0 e0] l IH]; cbn [take_first]; [constructor|].
    destruct (p (b0, e0)) eqn:Ep.
    - exists [], b0, l. cbn. repeat split; auto.
    - destruct (take_first p l) as [[e l']|].
      + destruct IH as (a & b & c & -> & -> & Hp & Ha).
        exists ((b0, e0) :: a), b, c. repeat split; auto.
      + constructor; assumption.
  Qed.

  Lemma scan_pos arr hit fuel begin end_ (l : list (N * E)) :
    begin < 16 -> length l <= 14 -> length l < fuel ->
    end_ = (begin + length l) mod 16 -> holds arr begin l ->
    scan fuel arr begin end_ hit =
    option_map (fun k => (begin + k) mod 16) (find_pos (fun e => hit (entry_of e)) l).
  Proof.
    revert begin l. induction fuel as [|fuel IH]; intros begin l Hb Hl Hf He Hh; [lia|].
    cbn [scan]. destruct l as [|e l]; cbn [length] in *.
    - destruct (Nat.eqb_spec begin end_); [reflexivity|lia].
    - destruct (Nat.eqb_spec begin end_); [lia|].
      apply holds_cons in Hh; [|exact Hb]. destruct Hh as [H0 Hh]. rewrite H0.
      cbn [find_pos]. destruct (hit (entry_of e)) eqn:Ehit.
      + cbn [option_map]. f_equal. lia.
      + rewrite inc_mod by exact Hb. rewrite (IH _ l); try assumption; try lia.
        destruct (find_pos _ l) as [k|]; [|reflexivity]. cbn [option_map]. f_equal. lia.
  Qed.

  Lemma qrep_scan q l hit : qrep q l ->
    scan_queue q hit =
    option_map (slot_of q) (find_pos (fun e => hit (entry_of e)) l).
  Proof.
    intros (H1 & H2 & H3 & H4 & H5 & _). unfold scan_queue, evq_max, slot_of.
    destruct (Nat.leb_spec 16 (evq_begin q)); [lia|].
    destruct (Nat.leb_spec 16 (evq_end q)); [lia|].
    apply scan_pos; try assumption; lia.
  Qed.

  Lemma find_pos_ext (p p' : N * E -> bool) l : (forall a, p a = p' a) ->
    find_pos p l = find_pos p' l.
  Proof. intros H. induction l as [|a l IH]; [reflexivity|]. cbn. rewrite H, IH. reflexivity. Qed.

  Lemma qrep_find q l b ty : qrep q l ->
    pt_evq_find q b ty =
    option_map (slot_of q) (find_pos (fun e => bound b e && ty (snd e)) l).
  Proof. intros H. unfold pt_evq_find. rewrite (qrep_scan q l _ H). reflexivity. Qed.

  Lemma qrep_peek q l b : qrep q l ->
    pt_evq_peek q b = option_map (slot_of q) (find_pos (bound b) l).
  Proof.
    intros H. unfold pt_evq_peek. rewrite (qrep_scan q l _ H).
    reflexivity.
  Qed.

  Lemma find_pos_existsb (p : N * E -> bool) l :
    match find_pos p l with Some _ => true | None => false end = existsb p l.
  Proof.
    induction l as [|a l IH]; [reflexivity|]. cbn. destruct (p a); [reflexivity|].
    rewrite <- IH. destruct (find_pos p l); reflexivity.
  Qed.

  Lemma qrep_pending q l b : qrep q l -> pt_evq_pending q b = existsb (bound b) l.
  Proof.
    intros H. unfold pt_evq_pending, pt_evq_empty. rewrite (qrep_scan q l _ H).
    rewrite <- find_pos_existsb.
    rewrite (find_pos_ext _ (bound b)) by reflexivity.
    destruct (find_pos (bound b) l); reflexivity.
  Qed.

  Lemma find_pos_some (p : N * E -> bool) l k : find_pos p l = Some k ->
    exists x, nth_error l k = Some x /\ p x = true.
  Proof.
    revert k. induction l as [|e l IH]; intros k H; [discriminate|]. cbn in H.
    destruct (p e) eqn:Ep; [injection H as <-; exists e; auto|].
    destruct (find_pos p l) as [k'|]; [|discriminate]. cbn in H. injection H as <-.
    apply (IH k' eq_refl).
  Qed.

  Lemma qrep_requeue z q l b i e : qrep q l ->
    (held q i e \/ exists k b', i = slot_of q k /\ nth_error l k = Some (b', e)) ->
    if length l <? 14 then
      exists q', pt_evq_requeue z q i b = Some q' /\ qrep q' (l ++ [(b, e)]) /\
            evq_begin q' = evq_begin q /\ (forall j x, held q j x -> held q' j x)
    else pt_evq_requeue z q i b = None.
  Proof.
    intros H Hi. unfold pt_evq_requeue.
    pose proof (enq_sim q None l None b z H) as Hz.
    pose proof (enq_sim q None l None b e H) as He.
    destruct (Nat.ltb_spec (length l) 14) as [Hl|Hl]; [|rewrite Hz; reflexivity].
    destruct Hz as (qz & Ez & Rz & Az & Bz). destruct He as (qe & Ee & Re & Ae & Be).
    rewrite Ez.
    assert (Hat : evq_at qz i = Some e).
    { destruct H as (G1 & G2 & G3 & G4 & G5 & _). unfold evq_at. rewrite Az.
      destruct Hi as [[-> Hat]|(k & b' & -> & Hk)].
      - rewrite set_at_nth_ne by lia. exact Hat.
      - assert (k < length l) by (apply nth_error_Some; congruence).
        unfold slot_of. rewrite set_at_nth_ne by lia. rewrite (G5 k _ Hk). reflexivity. }
    rewrite Hat.
    assert (Eq : mk_evq (set_at (evq_queue qz) (evq_end q) (mk_entry e b))
                        (evq_begin qz) (evq_end qz) = qe).
    { rewrite Az, Bz. destruct H as (G1 & G2 & G3 & G4 & G5 & _).
      rewrite set_at_twice by lia.
      destruct Rz as (_ & _ & _ & Fz & _). destruct Re as (_ & _ & _ & Fe & _).
      rewrite Fz, Bz. rewrite app_length in *. destruct qe. cbn in *. subst. reflexivity. }
    exists qe. rewrite Eq. split; [reflexivity|]. split; [exact Re|]. split; [exact Be|].
    intros j x Hj. destruct H as (G1 & G2 & G3 & G4 & G5 & _). destruct Hj as [-> Hat'].
    unfold held, evq_at in *. rewrite Ae, Be. rewrite set_at_nth_ne by lia. auto.
  Qed.
End POS.
