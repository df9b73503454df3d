(** The lock order and what follows from it. *)
From Coq Require Import List Arith Lia.
From Verif Require Import M_locks S_locks.
Import ListNotations.

(** Attach locks before cache locks before section locks; the lock of a file
    mapping is taken last. *)
Definition rank (l : lock) : nat :=
  match l with Alock _ => 0 | Clock _ => 1 | Slock _ => 2 | Flock _ => 3 end.

Definition guard (f : field) : lock :=
  match f with
  | Ucount s | Mcount s => Slock s
  | Acount s | Attached s => Alock s
  | Cdata c => Clock c
  | Fpos s => Flock s
  end.

Definition below (n : nat) (h : list lock) : Prop :=
  forall x, In x h -> rank x < n.

(** The program may run when the thread holds [h], the last one first. *)
Inductive good : list lock -> prog -> Prop :=
| g_done : good [] Done
| g_acq h l k : below (rank l) h -> good (l :: h) k -> good h (Acq l k)
| g_rel h l k : good h k -> good (l :: h) (Rel l k)
| g_rd h f k : (exists s, f = Attached s) \/ In (guard f) h ->
    good h k -> good h (Rd f k)
| g_wr h f k : In (guard f) h -> good h k -> good h (Wr f k)
| g_pick h k : (forall n, good h (k n)) -> good h (Pick k).

Lemma g_either h a b : good h a -> good h b -> good h (either a b).
Proof. intros A B. apply g_pick. intros [|n]; assumption. Qed.

Lemma below_nil n : below n [].
Proof. intros x []. Qed.

Lemma below_cons n l h : rank l < n -> below n h -> below n (l :: h).
Proof. intros A B x [<-|Hx]; auto. Qed.

Lemma below_le n m h : n <= m -> below n h -> below m h.
Proof. intros A B x Hx. specialize (B x Hx). lia. Qed.

Ltac bel :=
  cbn [rank];
  repeat first
    [ apply below_nil
    | apply below_cons; [cbn [rank]; lia|]
    | match goal with B : below _ ?h |- below _ ?h =>
        apply (fun L => below_le _ _ h L B); lia end ].

Ltac gd :=
  repeat first
    [ assumption
    | match goal with
      | K : forall b, good ?h (?k b) |- good ?h (?k _) => apply K
      | |- good _ (Acq _ _) => apply g_acq; [solve [bel]|]
      | |- good _ (Rel _ _) => apply g_rel
      | |- good _ (Rd _ _) =>
          apply g_rd; [solve [left; eexists; reflexivity
                             |right; cbn [guard In]; tauto]|]
      | |- good _ (Wr _ _) => apply g_wr; [solve [cbn [guard In]; tauto]|]
      | |- good _ (either _ _) => apply g_either
      end ].

Section Calls.

Lemma g_get h s k : below 2 h -> (forall b, good h (k b)) ->
  good h (sec_get s k).
Proof. intros B K. unfold sec_get. gd. Qed.

Lemma g_put h s k : below 2 h -> (forall b, good h (k b)) ->
  good h (sec_put s k).
Proof. intros B K. unfold sec_put. gd. Qed.

Lemma g_attach h s k : below 0 h -> (forall b, good h (k b)) ->
  good h (sec_attach s k).
Proof. intros B K. unfold sec_attach. gd. Qed.

Lemma g_detach h s k : below 0 h -> (forall b, good h (k b)) ->
  good h (sec_detach s k).
Proof. intros B K. unfold sec_detach. gd. Qed.

Lemma g_memsize h s k : below 2 h -> (forall b, good h (k b)) ->
  good h (sec_memsize s k).
Proof. intros B K. unfold sec_memsize. gd. Qed.

Lemma g_share h s k : below 2 h -> (forall b, good h (k b)) ->
  good h (sec_map_share s k).
Proof. intros B K. unfold sec_map_share. gd. Qed.

Lemma g_unmap h s k : below 2 h -> (forall b, good h (k b)) ->
  good h (sec_unmap s k).
Proof. intros B K. unfold sec_unmap. gd. Qed.

Lemma g_lru_free_n h n k : below 2 h -> (forall b, good h (k b)) ->
  good h (lru_free_n n k).
Proof.
  intros B K. induction n as [|n IH]; cbn [lru_free_n]; [apply K|].
  apply g_pick. intros s. apply g_unmap; [exact B|]. intros [|]; gd.
Qed.

Lemma g_lru_free h k : below 2 h -> (forall b, good h (k b)) ->
  good h (lru_free k).
Proof. intros B K. apply g_pick. intros n. now apply g_lru_free_n. Qed.

Lemma g_lru_new h c s k : below 2 (Clock c :: h) ->
  (forall b, good (Clock c :: h) (k b)) -> good (Clock c :: h) (lru_new c s k).
Proof.
  intros B K. unfold lru_new. apply g_memsize; [exact B|].
  intros [|]; gd. apply g_share; [exact B|]. intros [|]; gd.
  apply g_unmap; [exact B|]. intros b; gd.
Qed.

Lemma g_lru_add h c s k : below 2 (Clock c :: h) ->
  (forall b, good (Clock c :: h) (k b)) -> good (Clock c :: h) (lru_add c s k).
Proof. intros B K. unfold lru_add. gd. now apply g_lru_new. Qed.

Lemma g_lru_remove h c s k : below 2 (Clock c :: h) ->
  (forall b, good (Clock c :: h) (k b)) ->
  good (Clock c :: h) (lru_remove c s k).
Proof. intros B K. unfold lru_remove. gd. now apply g_unmap. Qed.

Lemma g_lru_resize h c s k : below 2 (Clock c :: h) ->
  (forall b, good (Clock c :: h) (k b)) ->
  good (Clock c :: h) (lru_resize c s k).
Proof.
  intros B K. unfold lru_resize. apply g_lru_add; [exact B|].
  intros [|]; gd.
Qed.

Lemma g_lru_prune h c k :
  (forall b, good (Clock c :: h) (k b)) ->
  good (Clock c :: h) (lru_prune c k).
Proof. intros K. unfold lru_prune. gd. Qed.

Lemma g_notify h (work : (bool -> prog) -> prog) c k : below 1 h ->
  (forall k', (forall b, good (Clock c :: h) (k' b)) ->
     good (Clock c :: h) (work k')) ->
  (forall b, good h (k b)) -> good h (notify work c k).
Proof.
  intros B W K. unfold notify. apply g_acq; [exact B|]. apply W.
  intros [|]; gd. apply g_lru_prune. intros [|]; gd.
  apply g_lru_free; [bel|exact K].
Qed.

Lemma g_notify_map h c s k : below 1 h -> (forall b, good h (k b)) ->
  good h (notify_map c s k).
Proof.
  intros B K. apply g_notify; [exact B| |exact K].
  intros k' K'. apply g_lru_add; [bel|exact K'].
Qed.

Lemma g_notify_resize h c s k : below 1 h -> (forall b, good h (k b)) ->
  good h (notify_resize c s k).
Proof.
  intros B K. apply g_notify; [exact B| |exact K].
  intros k' K'. apply g_lru_resize; [bel|exact K'].
Qed.

Lemma g_alloc h s k : below 0 h -> (forall b, good h (k b)) ->
  good h (sec_alloc_bcache s k).
Proof.
  intros B K. unfold sec_alloc_bcache. gd. apply g_pick. intros c.
  apply g_notify_resize; [bel|]. intros b. gd.
Qed.

Lemma g_on_map h s k : below 0 h -> (forall b, good h (k b)) ->
  good h (sec_on_map s k).
Proof.
  intros B K. unfold sec_on_map, sec_on_map_lock. gd. apply g_pick. intros c.
  apply g_notify_map; [bel|]. intros b. gd.
Qed.

Lemma g_map h s k : below 0 h -> (forall b, good h (k b)) ->
  good h (sec_map s k).
Proof.
  intros B K. unfold sec_map, sec_map_success. gd. apply g_on_map; [bel|].
  intros [|]; gd. apply g_unmap; [bel|]. intros b; gd.
Qed.

Lemma g_read h s k : below 3 h -> (forall b, good h (k b)) ->
  good h (sec_read s k).
Proof. intros B K. unfold sec_read. gd. Qed.

Lemma g_lru_clear h c k : below 1 h -> (forall b, good h (k b)) ->
  good h (lru_clear c k).
Proof. intros B K. unfold lru_clear. gd. apply g_lru_free; [bel|exact K]. Qed.

Lemma g_out_put h s k : below 0 h -> (forall b, good h (k b)) ->
  good h (isc_out_put s k).
Proof. intros B K. apply g_put; [bel|]. intros b. gd. Qed.

Lemma g_out_lru h c s k : below 0 h -> (forall b, good h (k b)) ->
  good h (isc_out_lru c s k).
Proof. intros B K. apply g_lru_clear; [bel|]. intros b. now apply g_out_put. Qed.

Lemma g_out_detach h c s k : below 0 h -> (forall b, good h (k b)) ->
  good h (isc_out_detach c s k).
Proof. intros B K. apply g_detach; [bel|]. intros b. now apply g_out_lru. Qed.

Lemma g_out_unlock h c s k : below 0 h -> (forall b, good h (k b)) ->
  good (Clock c :: h) (isc_out_unlock c s k).
Proof. intros B K. apply g_rel. now apply g_out_detach. Qed.

Lemma g_insert h c s k : below 0 h -> (forall b, good h (k b)) ->
  good (Clock c :: h) (isc_insert c s k).
Proof. intros B K. unfold isc_insert. gd. now apply g_out_unlock. Qed.

Lemma g_loop h c k n : below 0 h -> (forall b, good h (k b)) ->
  forall s, good (Clock c :: h) (isc_loop n c s k).
Proof.
  intros B K. induction n as [|n IH]; intros s; cbn [isc_loop];
    (apply g_rd; [right; cbn; tauto|]);
    (apply g_either; [now apply g_out_unlock|]);
    (apply g_either; [now apply g_insert|]);
    (apply g_either;
     [apply g_rel; apply g_detach; [exact B|];
      intros [|]; [apply g_put; [bel|exact K]|now apply g_out_lru]|]).
  - now apply g_insert.
  - apply g_pick. intros sec. apply g_get; [bel|].
    intros [|]; [|now apply g_out_unlock].
    apply g_rel. apply g_detach; [exact B|].
    assert (P : good h (sec_put sec (fun _ => isc_out_lru c s k))).
    { apply g_put; [bel|]. intros b. now apply g_out_lru. }
    intros [|]; [|exact P].
    apply g_attach; [exact B|]. intros [|]; [|exact P].
    apply g_acq; [bel|]. apply g_lru_remove; [bel|].
    intros [|]; (apply g_put; [bel|]).
    + intros [|]; [apply IH|now apply g_out_unlock].
    + intros b. now apply g_out_unlock.
Qed.

Lemma g_add h c s k : below 0 h -> (forall b, good h (k b)) ->
  good h (isc_add c s k).
Proof.
  intros B K. apply g_get; [bel|]. intros [|]; [|apply K].
  apply g_attach; [exact B|]. intros [|]; [|now apply g_out_put].
  apply g_acq; [bel|]. apply g_pick. intros n. now apply g_loop.
Qed.

Lemma g_lookup h c k : below 0 h -> (forall o, good h (k o)) ->
  good h (isc_lookup c k).
Proof.
  intros B K. unfold isc_lookup. gd. apply g_pick. intros s.
  apply g_get; [bel|]. intros [|]; gd.
Qed.

Lemma g_drop h n k : below 0 h -> (forall b, good h (k b)) ->
  good h (isc_drop n k).
Proof.
  intros B K. induction n as [|n IH]; cbn [isc_drop]; [apply K|].
  apply g_pick. intros s. apply g_detach; [exact B|]. intros [|]; [|apply K].
  apply g_put; [bel|]. intros [|]; gd.
Qed.

Lemma g_clear h c k : below 0 h -> (forall b, good h (k b)) ->
  good h (isc_clear c k).
Proof.
  intros B K. unfold isc_clear. gd. apply g_lru_free; [bel|].
  intros [|]; [|apply K]. apply g_pick. intros n. now apply g_drop.
Qed.

Lemma g_set_limit h c k : below 0 h -> (forall b, good h (k b)) ->
  good h (isc_set_limit c k).
Proof.
  intros B K. unfold isc_set_limit. gd. apply g_lru_prune.
  intros [|]; gd. apply g_lru_free; [bel|exact K].
Qed.

Lemma g_add_file h c k : below 0 h -> (forall b, good h (k b)) ->
  good h (isc_add_file c k).
Proof.
  intros B K. unfold isc_add_file. gd.
  - apply g_pick. intros s. apply g_get; [bel|]. intros [|]; gd.
    apply g_add; [bel|]. intros b. apply g_put; [bel|exact K].
  - apply g_pick. intros s. apply g_add; [bel|]. intros b.
    apply g_put; [bel|exact K].
Qed.

Lemma g_isc_read h c k : below 0 h -> (forall b, good h (k b)) ->
  good h (isc_read c k).
Proof.
  intros B K. apply g_lookup; [exact B|].
  intros [s|]; [|apply K]. apply g_either.
  - apply g_put; [bel|]. intros b; apply K.
  - apply g_map; [exact B|]. intros [|].
    + apply g_read; [bel|]. intros b. apply g_unmap; [bel|]. intros b'.
      apply g_put; [bel|exact K].
    + apply g_put; [bel|]. intros b; apply K.
Qed.

Lemma g_change h k : below 0 h -> good h k -> good h (img_change k).
Proof.
  intros B K. apply g_pick. intros n. induction n as [|n IH];
    cbn [img_shuffle]; [exact K|].
  apply g_pick. intros s. apply g_either.
  - apply g_get; [bel|]. intros b; exact IH.
  - apply g_put; [bel|]. intros b; exact IH.
Qed.

Lemma g_add_cached h c k : below 0 h -> (forall b, good h (k b)) ->
  good h (img_add_cached c k).
Proof.
  intros B K. apply g_lookup; [exact B|].
  intros [s|]; [|apply K]. apply g_either; [apply K|].
  apply g_change; [exact B|]. apply g_put; [bel|exact K].
Qed.

Lemma g_img_read h k : below 0 h -> (forall b, good h (k b)) ->
  good h (img_read k).
Proof.
  intros B K. unfold img_read. gd. apply g_pick. intros s.
  apply g_map; [exact B|]. intros [|]; [|apply K].
  apply g_read; [bel|]. intros b. apply g_unmap; [bel|exact K].
Qed.

Lemma g_invalidate h k : below 0 h -> (forall b, good h (k b)) ->
  good h (msec_invalidate k).
Proof.
  intros B K. unfold msec_invalidate. gd. apply g_pick. intros s.
  apply g_unmap; [bel|]. intros [|]; [|apply K]. apply g_put; [bel|exact K].
Qed.

Lemma g_fill h k : below 0 h -> (forall b, good h (k b)) ->
  good h (msec_fill k).
Proof.
  intros B K. apply g_invalidate; [exact B|]. intros [|]; [|apply K].
  gd. apply g_pick. intros s. apply g_get; [bel|]. intros [|]; [|apply K].
  apply g_map; [exact B|]. intros [|]; [apply K|].
  apply g_put; [bel|]. intros b; apply K.
Qed.

Lemma g_call o k : good [] k -> good [] (call_prog o k).
Proof.
  intros K. assert (K' : bool -> good [] k) by (intros _; exact K).
  assert (B : forall n, below n []) by (intros n; apply below_nil).
  destruct o; cbn [call_prog].
  - now apply g_get.
  - now apply g_put.
  - now apply g_attach.
  - now apply g_detach.
  - now apply g_memsize.
  - now apply g_map.
  - now apply g_share.
  - now apply g_unmap.
  - now apply g_read.
  - now apply g_alloc.
  - now apply g_add.
  - unfold isc_find. gd.
  - now apply g_lookup.
  - now apply g_clear.
  - now apply g_set_limit.
  - now apply g_add_file.
  - now apply g_isc_read.
  - now apply g_add_cached.
  - now apply g_change.
  - now apply g_img_read.
  - now apply g_invalidate.
  - now apply g_fill.
Qed.

Lemma g_thread l : good [] (thread l).
Proof.
  induction l as [|o l IH]; cbn [thread]; [constructor|now apply g_call].
Qed.

End Calls.

(** The invariant of running threads. *)
Definition inv (x : sys) : Prop :=
  exists h : nat -> list lock,
    (forall i p, nth_error (progs x) i = Some p ->
       good (h i) p /\ NoDup (h i)) /\
    (forall l i, owner x l = Some i <->
       i < length (progs x) /\ In l (h i)).

Lemma put_at_same i p ps : i < length ps -> nth_error (put_at i p ps) i = Some p.
Proof.
  revert i. induction ps as [|q ps IH]; intros i L; cbn in L; [lia|].
  destruct i; cbn; [reflexivity|]. apply IH. lia.
Qed.

Lemma put_at_other i j p ps : i <> j ->
  nth_error (put_at i p ps) j = nth_error ps j.
Proof.
  revert i j. induction ps as [|q ps IH]; intros i j N; cbn.
  - now destruct i.
  - destruct i, j; cbn; try reflexivity; [lia|]. apply IH. lia.
Qed.

Lemma put_at_length i p ps : length (put_at i p ps) = length ps.
Proof.
  revert i. induction ps as [|q ps IH]; intros [|i]; cbn; auto.
Qed.

Lemma nth_lt {A} (l : list A) i x : nth_error l i = Some x -> i < length l.
Proof. intros E. apply nth_error_Some. congruence. Qed.

Lemma inv_start ls : inv (start ls).
Proof.
  exists (fun _ => []). split.
  - cbn. intros i p E.
    rewrite nth_error_map in E. destruct (nth_error ls i); [|discriminate].
    injection E as <-. split; [apply g_thread|constructor].
  - cbn. intros l i. split; [discriminate|intros [_ []]].
Qed.

Lemma own_same o l v : own o l v l = v.
Proof. unfold own. now destruct lock_eq_dec. Qed.

Lemma own_other o l v x : x <> l -> own o l v x = o x.
Proof. unfold own. now destruct lock_eq_dec. Qed.

Lemma below_notin l h : below (rank l) h -> ~ In l h.
Proof. intros B I. specialize (B l I). lia. Qed.

Lemma inv_step x y : inv x -> step x y -> inv y.
Proof.
  intros (h & G & O) S. destruct S as [ps o i p q o' E A].
  cbn [progs owner] in *.
  pose proof (nth_lt _ _ _ E) as Li.
  destruct (G i p E) as [Gi Ni].
  assert (KEEP : forall g, g = h i -> good g q ->
     inv (mkSys (put_at i q ps) o)).
  { intros g -> Gq. exists h. cbn. rewrite put_at_length. split; [|exact O].
    intros j r Ej. destruct (Nat.eq_dec i j) as [<-|Nij].
    - rewrite put_at_same in Ej by exact Li. injection Ej as <-. auto.
    - rewrite put_at_other in Ej by exact Nij. now apply G. }
  destruct A as [l k Ho|l k Ho|f k|f k|k n].
  - inversion Gi as [|h0 l0 k0 B Gk| | | |]; subst.
    exists (fun j => if Nat.eq_dec j i then l :: h i else h j). cbn.
    rewrite put_at_length. split.
    + intros j r Ej. destruct (Nat.eq_dec j i) as [->|Nij].
      * rewrite put_at_same in Ej by exact Li. injection Ej as <-.
        split; [exact Gk|]. constructor; [now apply below_notin|exact Ni].
      * rewrite put_at_other in Ej by congruence. now apply G.
    + intros l' j. destruct (lock_eq_dec l' l) as [->|Nl].
      * rewrite own_same. split.
        -- intros [= <-]. split; [exact Li|].
           destruct Nat.eq_dec; [now left|congruence].
        -- intros [Lj Ij]. destruct (Nat.eq_dec j i) as [->|Nj]; [reflexivity|].
           exfalso. assert (o l = Some j) by (apply O; auto). congruence.
      * rewrite own_other by exact Nl. rewrite O.
        destruct (Nat.eq_dec j i) as [->|Nj]; [|reflexivity].
        cbn. split; [tauto|]. intros [? [?|?]]; [congruence|tauto].
  - inversion Gi as [| |h0 l0 k0 Gk EH| | |]; subst.
    rewrite <- EH in Ni. inversion Ni as [|? ? Nin Nd]; subst.
    exists (fun j => if Nat.eq_dec j i then h0 else h j). cbn.
    rewrite put_at_length. split.
    + intros j r Ej. destruct (Nat.eq_dec j i) as [->|Nij].
      * rewrite put_at_same in Ej by exact Li. injection Ej as <-. auto.
      * rewrite put_at_other in Ej by congruence. now apply G.
    + intros l' j. destruct (lock_eq_dec l' l) as [->|Nl].
      * rewrite own_same. split; [discriminate|].
        intros [Lj Ij]. exfalso. destruct (Nat.eq_dec j i) as [->|Nj]; [auto|].
        assert (o l = Some j) by (apply O; auto). congruence.
      * rewrite own_other by exact Nl. rewrite O.
        destruct (Nat.eq_dec j i) as [->|Nj]; [|reflexivity].
        rewrite <- EH. cbn. split; [|tauto].
        intros [? [?|?]]; [congruence|tauto].
  - inversion Gi; subst. now apply (KEEP (h i)).
  - inversion Gi; subst. now apply (KEEP (h i)).
  - inversion Gi; subst. now apply (KEEP (h i)).
Qed.

Lemma inv_reach x : reachable x -> inv x.
Proof.
  intros (ls & S). remember (start ls) as a eqn:E. revert E.
  induction S as [|a b c S IH T]; intros E.
  - subst. apply inv_start.
  - apply (inv_step b); auto.
Qed.

(** A waiting thread: something can run. *)
Lemma wait_runs x : inv x -> forall n i l k,
  4 - rank l <= n -> nth_error (progs x) i = Some (Acq l k) ->
  exists y, step x y.
Proof.
  intros (h & G & O) n. destruct x as [ps o]. cbn [progs owner] in *.
  induction n as [|n IH]; intros i l k R E; [destruct l; cbn in R; lia|].
  destruct (o l) as [j|] eqn:Ol; [|eexists; econstructor; [exact E|now constructor]].
  destruct (proj1 (O l j) Ol) as [Lj Ij].
  apply nth_error_Some in Lj. destruct (nth_error ps j) as [p|] eqn:Ej;
    [|congruence].
  destruct (G j p Ej) as [Gj _].
  destruct p as [|l' k'|l' k'|f k'|f k'|k'].
  - inversion Gj as [EH| | | | |]; subst. rewrite <- EH in Ij. destruct Ij.
  - inversion Gj as [|? ? ? B ?| | | |]; subst. specialize (B l Ij).
    apply (IH j l' k'); [lia|exact Ej].
  - inversion Gj as [| |h0 ? ? ? EH| | |]; subst.
    eexists. econstructor; [exact Ej|]. constructor. apply O.
    split; [now apply nth_lt in Ej|]. rewrite <- EH. now left.
  - eexists. econstructor; [exact Ej|constructor].
  - eexists. econstructor; [exact Ej|constructor].
  - eexists. econstructor; [exact Ej|apply (act_pick _ _ _ 0)].
Qed.

Lemma prog_done_dec (ps : list prog) :
  (forall i p, nth_error ps i = Some p -> p = Done) \/
  exists i p, nth_error ps i = Some p /\ p <> Done.
Proof.
  induction ps as [|q ps IH].
  - left. intros [|i] p; discriminate.
  - destruct IH as [IH|(i & p & E & N)].
    + destruct q; [|right; exists 0; eexists; split; [reflexivity|discriminate]..].
      left. intros [|i] p; cbn; [now intros [= <-]|apply IH].
    + right. now exists (S i), p.
Qed.

Lemma progress x : inv x -> finished x \/ exists y, step x y.
Proof.
  intros I. destruct (prog_done_dec (progs x)) as [D|(i & p & E & N)];
    [now left|right].
  destruct p as [|l k|l k|f k|f k|k]; [congruence| | | | |].
  - now apply (wait_runs x I _ i l k (le_n _)).
  - destruct I as (h & G & O). destruct x as [ps o]. cbn [progs owner] in *.
    destruct (G i _ E) as [Gi _]. inversion Gi as [| |h0 ? ? ? EH| | |]; subst.
    eexists. econstructor; [exact E|]. constructor. apply O.
    split; [now apply nth_lt in E|]. rewrite <- EH. now left.
  - destruct x. eexists. econstructor; [exact E|constructor].
  - destruct x. eexists. econstructor; [exact E|constructor].
  - destruct x. eexists. econstructor; [exact E|apply (act_pick _ _ _ 0)].
Qed.

(** Following the owners upwards. *)
Lemma no_deadlock x : inv x -> ~ deadlock x.
Proof.
  intros (h & G & O) (d & Nd & W).
  assert (R : forall n i l k, 4 - rank l <= n -> In i d ->
     nth_error (progs x) i = Some (Acq l k) -> False).
  { induction n as [|n IH]; intros i l k L Hi E; [destruct l; cbn in L; lia|].
    destruct (W i Hi) as (j & Hj & l1 & k1 & E1 & Ol).
    rewrite E in E1. injection E1 as <- <-.
    destruct (W j Hj) as (m & _ & l2 & k2 & E2 & _).
    apply O in Ol. destruct Ol as [_ Ij].
    destruct (G j _ E2) as [Gj _].
    inversion Gj as [|? ? ? B ?| | | |]; subst. specialize (B l Ij).
    apply (IH j l2 k2); [lia|exact Hj|exact E2]. }
  destruct d as [|i d]; [congruence|].
  destruct (W i (or_introl eq_refl)) as (j & _ & l & k & E & _).
  exact (R _ i l k (le_n _) (or_introl eq_refl) E).
Qed.

(** All ways to run end. *)
Definition child (q p : prog) : Prop := exists o o' i, action o i p q o'.

Lemma child_wf : forall p, Acc child p.
Proof.
  induction p; constructor; intros q (o & o' & i & A); inversion A; subst; auto.
Qed.

Lemma lstep_cons q ps : Acc child q ->
  Acc (fun b a => exists i p r, nth_error a i = Some p /\ child r p /\
         b = put_at i r a) ps ->
  Acc (fun b a => exists i p r, nth_error a i = Some p /\ child r p /\
         b = put_at i r a) (q :: ps).
Proof.
  intros Aq. revert ps. induction Aq as [q _ IHq].
  intros ps Ap. induction Ap as [ps Hps IHp].
  constructor. intros b (i & p & r & E & C & ->).
  destruct i as [|i]; cbn in E |- *.
  - injection E as ->. apply IHq; [exact C|]. now constructor.
  - apply IHp. now exists i, p, r.
Qed.

Lemma all_wf : forall ps, Acc (fun b a => exists i p r,
  nth_error a i = Some p /\ child r p /\ b = put_at i r a) ps.
Proof.
  induction ps as [|p ps IH].
  - constructor. intros b ([|i] & p & r & E & _); discriminate.
  - apply lstep_cons; [apply child_wf|exact IH].
Qed.

Lemma inv_gets_done x : inv x -> gets_done x.
Proof.
  destruct x as [ps o]. revert o.
  induction (all_wf ps) as [ps _ IH]. intros o I.
  constructor; [now apply progress|].
  intros y S. pose proof (inv_step _ _ I S) as J.
  remember (mkSys ps o) as x eqn:Ex. destruct S as [ps' o1 i p q o' E A].
  injection Ex as -> ->. apply IH; [|exact J].
  exists i, p, q. split; [exact E|]. split; [now exists o, o', i|reflexivity].
Qed.

Lemma no_race x f : inv x -> (forall s, f <> Attached s) -> ~ race x f.
Proof.
  intros (h & G & O) NA (i & j & k & k' & N & Ei & Ej).
  assert (Oi : owner x (guard f) = Some i).
  { apply O. split; [now apply nth_lt in Ei|].
    destruct (G i _ Ei) as [Gi _]. now inversion Gi. }
  assert (Oj : owner x (guard f) = Some j).
  { apply O. destruct Ej as [Ej|Ej]; (split; [now apply nth_lt in Ej|]);
      destruct (G j _ Ej) as [Gj _].
    - now inversion Gj.
    - inversion Gj as [| | |? ? ? [(s & F)|I] ?| |]; subst; [|exact I].
      exfalso. now apply (NA s). }
  congruence.
Qed.

Lemma no_wr_race x f : inv x -> forall i j k k', i <> j ->
  nth_error (progs x) i = Some (Wr f k) ->
  nth_error (progs x) j = Some (Wr f k') -> False.
Proof.
  intros (h & G & O) i j k k' N Ei Ej.
  assert (Oi : owner x (guard f) = Some i).
  { apply O. split; [now apply nth_lt in Ei|].
    destruct (G i _ Ei) as [Gi _]. now inversion Gi. }
  assert (Oj : owner x (guard f) = Some j).
  { apply O. split; [now apply nth_lt in Ej|].
    destruct (G j _ Ej) as [Gj _]. now inversion Gj. }
  congruence.
Qed.

Lemma no_misuse x : inv x -> ~ misuse x.
Proof.
  intros (h & G & O) [(i & l & k & E & N)|(i & l & E & N)].
  - apply N. apply O. split; [now apply nth_lt in E|].
    destruct (G i _ E) as [Gi _]. inversion Gi; subst. now left.
  - apply O in N. destruct N as [_ I]. destruct (G i _ E) as [Gi _].
    inversion Gi as [EH| | | | |]; subst. now rewrite <- EH in I.
Qed.
