(** Lemmas about the references an image holds. *)

From Verif Require Import Base M_asid M_section M_image S_config L_config S_image L_image.
From Coq Require Import List NArith ZArith Bool Lia ZifyBool ZifyNat ZifyN Permutation PeanoNat.
Import ListNotations.
Open Scope N_scope.
Ltac Zify.zify_post_hook ::= Z.div_mod_to_equations.

Lemma pieces_cons e l id : pieces (e :: l) id = (if Nat.eqb (en_id e) id then 1 else 0) + pieces l id.
Proof.
  unfold pieces, en_id, en_sec. cbn [filter]. destruct (Nat.eqb _ _); cbn [length]; lia.
Qed.
Lemma pieces_app l l' id : pieces (l ++ l') id = pieces l id + pieces l' id.
Proof. unfold pieces. rewrite filter_app, app_length. lia. Qed.
Lemma pieces_perm l l' id : Permutation l l' -> pieces l id = pieces l' id.
Proof.
  induction 1 as [|e l l' P IH|e e' l|l l' l'' P1 IH1 P2 IH2]; rewrite ?pieces_cons; lia.
Qed.

(** One reference per piece, besides the references of others. *)
Definition owned (f : refs) (w : world) (l : list entry) : Prop :=
  forall id, let n := f id + pieces l id in
    sn_freed (w id) = (n =? 0) /\ (n <> 0 -> sn_ucount (w id) = n) /\ n < 2 ^ 16 /\
    (f id = 0 -> sn_mcount (w id) = 0).

Lemma owned_perm f w l l' : Permutation l l' -> owned f w l -> owned f w l'.
Proof. intros P H id. rewrite <- (pieces_perm _ _ id P). apply H. Qed.

(** The world [w], with [d id] references more than in [w0]. *)
Definition plus (w0 : world) (d : nat -> N) (w : world) : Prop :=
  forall id, w id = set_ucount (w0 id) (sn_ucount (w0 id) + d id).

Lemma set_ucount_same s : set_ucount s (sn_ucount s) = s.
Proof. destruct s. reflexivity. Qed.

Lemma wset_same w id : wset w id (w id) id = w id.
Proof. unfold wset. rewrite Nat.eqb_refl. reflexivity. Qed.

(** *** Taking and dropping a reference *)

Lemma get_owned f w l id w' r : owned f w l -> f id + pieces l id <> 0 ->
  on_section w id pt_section_get = (w', r) ->
  (r = Ok tt /\ (forall j, w' j = if Nat.eqb j id then set_ucount (w j) (sn_ucount (w j) + 1) else w j) /\
   f id + pieces l id + 1 < 2 ^ 16) \/
  (r = Err pte_overflow /\ (forall j, w' j = w j)).
Proof.
  intros H Hn. destruct (H id) as (Hf & Hu & Hb & _). specialize (Hu Hn).
  unfold on_section, pt_section_get, alive. rewrite Hf.
  destruct (N.eqb_spec (f id + pieces l id) 0) as [|_]; [congruence|].
  rewrite Hu. unfold u16, trunc.
  destruct (N.eqb_spec ((f id + pieces l id + 1) mod 2 ^ 16) 0) as [E|E].
  - intros [= <- <-]. right. split; [reflexivity|]. intros j. unfold wset.
    destruct (Nat.eqb_spec j id) as [->|]; reflexivity.
  - assert (Hlt : f id + pieces l id + 1 < 2 ^ 16).
    { destruct (N.eq_dec (f id + pieces l id + 1) (2 ^ 16)) as [E2|]; [|lia].
      rewrite E2 in E. exfalso. apply E. reflexivity. }
    rewrite N.mod_small by exact Hlt.
    intros [= <- <-]. left. split; [reflexivity|]. split; [|exact Hlt].
    intros j. unfold wset. destruct (Nat.eqb_spec j id) as [->|]; [rewrite Hu|]; reflexivity.
Qed.

Lemma get_owned' f w l id w' (l' : list entry) :
  owned f w l -> f id + pieces l id <> 0 -> f id + pieces l id + 1 < 2 ^ 16 ->
  (forall j, w' j = if Nat.eqb j id then set_ucount (w j) (sn_ucount (w j) + 1) else w j) ->
  (forall j, pieces l' j = pieces l j + if Nat.eqb j id then 1 else 0) ->
  owned f w' l'.
Proof.
  intros H Hn Hlt Hw Hp j. cbv zeta. rewrite Hp, Hw. specialize (H j). cbv zeta in H.
  destruct (Nat.eqb_spec j id) as [->|].
  - cbn [set_ucount sn_freed sn_ucount sn_mcount]. destruct H as (H1 & H2 & H3 & H4).
    rewrite H1, H2 by exact Hn. repeat split; [lia|lia|lia|exact H4].
  - rewrite N.add_0_r. exact H.
Qed.

Lemma put_owned f w l e l' w' r : owned f w l ->
  Permutation l (e :: l') ->
  on_section w (en_id e) pt_section_put = (w', r) ->
  r = Ok tt /\ owned f w' l'.
Proof.
  intros H P. assert (Hp : forall id, pieces l id = pieces l' id + (if Nat.eqb (en_id e) id then 1 else 0))
    by (intros id; rewrite N.add_comm, <- pieces_cons; apply pieces_perm; exact P).
  destruct (H (en_id e)) as (Hf & Hu & Hb & Hm). cbv zeta in Hf, Hu, Hb.
  rewrite Hp, Nat.eqb_refl in Hf, Hu, Hb. specialize (Hu ltac:(lia)).
  unfold on_section, pt_section_put, alive. rewrite Hf, Hu.
  destruct (N.eqb_spec (f (en_id e) + (pieces l' (en_id e) + 1)) 0); [lia|].
  destruct (N.ltb_spec 1 (f (en_id e) + (pieces l' (en_id e) + 1))) as [Hg|Hg].
  - intros [= <- <-]. split; [reflexivity|]. intros j. cbv zeta. unfold wset.
    destruct (Nat.eqb_spec j (en_id e)) as [->|Hne].
    + cbn [set_ucount sn_freed sn_ucount sn_mcount]. rewrite Hf. split; [lia|]. split; [intros _; lia|]. split; [lia|exact Hm].
    + specialize (H j). cbv zeta in H. rewrite Hp in H.
      destruct (Nat.eqb_spec (en_id e) j); [congruence|]. rewrite N.add_0_r in H. exact H.
  - cbn [orb]. rewrite Hm by lia. unfold truth. cbn [N.eqb negb].
    intros [= <- <-]. split; [reflexivity|]. intros j. cbv zeta. unfold wset.
    destruct (Nat.eqb_spec j (en_id e)) as [->|Hne].
    + cbn [set_freed sn_freed sn_ucount sn_mcount]. repeat split; [lia|lia|lia|exact Hm].
    + specialize (H j). cbv zeta in H. rewrite Hp in H.
      destruct (Nat.eqb_spec (en_id e) j); [congruence|]. rewrite N.add_0_r in H. exact H.
Qed.

Lemma free_owned f w l e l' w' r : owned f w l -> Permutation l (e :: l') ->
  pt_section_list_free w e = (w', r) -> r = Ok tt /\ owned f w' l'.
Proof.
  intros H P. unfold pt_section_list_free.
  destruct (on_section w (en_id e) pt_section_put) as [w1 r1] eqn:E.
  destruct (put_owned _ _ _ _ _ _ _ H P E) as [-> H'].
  intros [= <- <-]. split; [reflexivity|exact H'].
Qed.
Lemma free_tail_owned l1 : forall f w l l2 w' r, owned f w l -> Permutation l (l1 ++ l2) ->
  pt_section_list_free_tail w l1 = (w', r) -> r = Ok tt /\ owned f w' l2.
Proof.
  induction l1 as [|e l1 IH]; intros f w l l2 w' r H P; cbn [pt_section_list_free_tail].
  - intros [= <- <-]. split; [reflexivity|]. eapply owned_perm; eassumption.
  - destruct (pt_section_list_free w e) as [w1 r1] eqn:E.
    destruct (free_owned _ _ _ _ (l1 ++ l2) _ _ H P E) as [-> H1].
    intros E2. eapply IH; [exact H1|apply Permutation_refl|exact E2].
Qed.

(** Freeing new pieces undoes taking their references. *)
Lemma free_tail_plus l1 : forall w0 w w' r,
  (forall e, In e l1 -> sn_freed (w0 (en_id e)) = false /\ 1 <= sn_ucount (w0 (en_id e))) ->
  plus w0 (pieces l1) w ->
  pt_section_list_free_tail w l1 = (w', r) -> r = Ok tt /\ forall id, w' id = w0 id.
Proof.
  induction l1 as [|e l1 IH]; intros w0 w w' r Ha Hp; cbn [pt_section_list_free_tail].
  - intros [= <- <-]. split; [reflexivity|]. intros id. rewrite Hp.
    cbn. rewrite N.add_0_r. apply set_ucount_same.
  - unfold pt_section_list_free, on_section.
    destruct (Ha e (or_introl eq_refl)) as [Hf Hu].
    assert (E : pt_section_put (w (en_id e))
                = (set_ucount (w (en_id e)) (sn_ucount (w (en_id e)) - 1), Ok tt)).
    { unfold pt_section_put, alive. rewrite (Hp (en_id e)). cbn [sn_freed sn_ucount set_ucount].
      rewrite Hf, pieces_cons, Nat.eqb_refl.
      destruct (N.ltb_spec 1 (sn_ucount (w0 (en_id e)) + (1 + pieces l1 (en_id e)))); [|lia].
      reflexivity. }
    rewrite E. cbn iota beta.
    apply IH.
    + intros e' Hin. apply Ha. right. exact Hin.
    + intros id. unfold wset. destruct (Nat.eqb_spec id (en_id e)) as [->|Hne].
      * rewrite (Hp (en_id e)). unfold set_ucount.
        cbn [sn_ucount sn_mcount sn_acount sn_iscache sn_mapped sn_bcache sn_freed].
        rewrite pieces_cons, Nat.eqb_refl. f_equal. lia.
      * rewrite (Hp id), pieces_cons. destruct (Nat.eqb_spec (en_id e) id); [congruence|].
        rewrite N.add_0_l. reflexivity.
Qed.

(** *** Adding *)

(** The loop of pt_image_add(): all sections, kept or removed, are still held, and each
    new piece has one more reference. *)
Record looping (f : refs) (w0 : world) (l : list entry) (st : adding) : Prop := mk_looping {
  lp_owned : owned f (ad_world st) (ad_next st ++ l ++ ad_kept st ++ ad_removed st);
  lp_plus : plus w0 (pieces (ad_next st)) (ad_world st);
  lp_alive : forall e, In e (ad_next st ++ l ++ ad_kept st ++ ad_removed st) ->
    sn_freed (w0 (en_id e)) = false /\ 1 <= sn_ucount (w0 (en_id e)) }.

Lemma mk_list_looping f w0 rest next w mem sec a v o s i w' mem' r :
  owned f w (next ++ rest) -> plus w0 (pieces next) w ->
  sn_freed (w0 (sc_id sec)) = false -> f (sc_id sec) + pieces (next ++ rest) (sc_id sec) <> 0 ->
  pt_mk_section_list w mem sec a v o s i = (w', mem', r) ->
  match r with
  | Ok e => e = mk_entry (mk_msec sec a v o s) i /\
            owned f w' ((e :: next) ++ rest) /\ plus w0 (pieces (e :: next)) w'
  | Err _ => owned f w' (next ++ rest) /\ plus w0 (pieces next) w'
  | UB _ => False
  end.
Proof.
  intros H Hp Hf Hn. unfold pt_mk_section_list.
  destruct (match mem with [] => (true, []) | b :: m => (b, m) end) as [ok mem1].
  destruct (negb ok); [intros [= <- <- <-]; split; assumption|].
  destruct (on_section w (sc_id sec) pt_section_get) as [w1 r1] eqn:E.
  destruct (get_owned _ _ _ _ _ _ H Hn E) as [(-> & Hw & Hlt)|(-> & Hw)];
    intros [= <- <- <-].
  - split; [reflexivity|]. split.
    + eapply get_owned'; [exact H|exact Hn|exact Hlt|exact Hw|].
      intros j. cbn [app]. rewrite pieces_cons. unfold en_id, en_sec. cbn [en_msec ms_sec].
      rewrite (Nat.eqb_sym j). destruct (Nat.eqb _ _); lia.
    + intros j. rewrite Hw, (Hp j), pieces_cons. unfold en_id, en_sec. cbn [en_msec ms_sec].
      rewrite (Nat.eqb_sym j). destruct (Nat.eqb _ _); [|rewrite N.add_0_l; reflexivity].
      unfold set_ucount. cbn [sn_ucount sn_mcount sn_acount sn_iscache sn_mapped sn_bcache sn_freed].
      f_equal. lia.
  - split; [intros j; cbv zeta; rewrite Hw; apply H|]. intros j. rewrite Hw. apply Hp.
Qed.

Lemma pieces_in l e : In e l -> pieces l (en_id e) <> 0.
Proof.
  induction l as [|e' l IH]; intros Hin; [destruct Hin|]; destruct Hin as [->|Hin]; rewrite pieces_cons.
  - rewrite Nat.eqb_refl. lia.
  - specialize (IH Hin). lia.
Qed.

Lemma add_piece_looping f w0 l st e v o s st' r :
  looping f w0 l st -> In e (l ++ ad_kept st ++ ad_removed st) ->
  add_piece st e v o s = (st', r) ->
  looping f w0 l st' /\ no_ub r.
Proof.
  intros [H Hp Ha] Hin. unfold add_piece.
  destruct (pt_mk_section_list _ _ _ _ _ _ _ _) as [[w' mem'] r1] eqn:E.
  assert (Hin' : In e (ad_next st ++ l ++ ad_kept st ++ ad_removed st))
    by (apply in_or_app; right; exact Hin).
  pose proof (mk_list_looping f w0 _ _ _ _ _ _ _ _ _ _ _ _ _ H Hp (proj1 (Ha e Hin'))
                ltac:(pose proof (pieces_in _ _ Hin') as Hc; unfold en_id in Hc; lia) E) as G.
  destruct r1 as [n| |]; [|intros [= <- <-]; destruct G as [G1 G2]|destruct G].
  - destruct G as (Hn & G1 & G2). intros [= <- <-]. split; [|intros x; discriminate].
    split; cbn [ad_world ad_next ad_kept ad_removed]; [exact G1|exact G2|].
    intros e' Hi. destruct Hi as [<-|Hi]; [|apply Ha; exact Hi].
    subst n. apply (Ha e Hin').
  - split; [|intros x; discriminate].
    split; cbn [ad_world ad_next ad_kept ad_removed]; assumption.
Qed.

Lemma looping_perm f w0 l l' st st' :
  Permutation (l ++ ad_kept st ++ ad_removed st) (l' ++ ad_kept st' ++ ad_removed st') ->
  ad_world st' = ad_world st -> ad_next st' = ad_next st ->
  looping f w0 l st -> looping f w0 l' st'.
Proof.
  intros P Ew En [H1 H2 H3]. split; rewrite ?Ew, ?En.
  - eapply owned_perm; [|exact H1]. apply Permutation_app_head. exact P.
  - exact H2.
  - intros e Hin. apply H3. eapply Permutation_in; [|exact Hin]. symmetry.
    apply Permutation_app_head. exact P.
Qed.

Lemma add_step_looping f w0 l st a begin end_ e st' r :
  looping f w0 (e :: l) st ->
  add_step st a begin end_ e = (st', r) ->
  looping f w0 l st' /\ no_ub r.
Proof.
  intros H. unfold add_step.
  assert (Hk : looping f w0 l (mk_adding (ad_world st) (ad_mem st) (e :: ad_kept st)
                                         (ad_removed st) (ad_next st))).
  { eapply looping_perm; [| | |exact H]; try reflexivity. cbn.
    apply Permutation_middle. }
  destruct (negb _); [intros [= <- <-]; split; [exact Hk|intros x; discriminate]|].
  destruct (_ || _); [intros [= <- <-]; split; [exact Hk|intros x; discriminate]|].
  clear Hk.
  set (st0 := mk_adding _ _ _ _ _).
  assert (H0 : looping f w0 l st0 /\ In e (l ++ ad_kept st0 ++ ad_removed st0)).
  { split.
    - eapply looping_perm; [| | |exact H]; try reflexivity. cbn.
      rewrite !app_assoc. apply Permutation_middle.
    - cbn. rewrite !in_app_iff. cbn. tauto. }
  destruct H0 as [H0 Hin0].
  destruct (if pt_msec_begin (en_msec e) <? begin then _ else _) as [st1 r1] eqn:E1.
  assert (Q : (looping f w0 l st1 /\ no_ub r1) /\ In e (l ++ ad_kept st1 ++ ad_removed st1)).
  { destruct (_ <? _) in E1.
    - split; [eapply add_piece_looping; eassumption|].
      apply add_piece_perm in E1. destruct E1 as [-> ->]. exact Hin0.
    - injection E1 as <- <-. split; [split; [exact H0|intros x; discriminate]|exact Hin0]. }
  clear E1. destruct Q as [[Q1 Q2] Q3].
  destruct r1 as [u1|e1|u1]; [|intros [= <- <-]; split; assumption..].
  destruct (_ <? _); [|intros [= <- <-]; split; [exact Q1|intros x; discriminate]].
  apply add_piece_looping; assumption.
Qed.

Lemma add_loop_looping l : forall f w0 st a begin end_ st' rest r,
  looping f w0 l st ->
  add_loop st a begin end_ l = (st', rest, r) ->
  looping f w0 rest st' /\ no_ub r.
Proof.
  induction l as [|e l IH]; intros f w0 st a begin end_ st' rest r H; cbn [add_loop].
  - intros [= <- <- <-]. split; [exact H|intros x; discriminate].
  - destruct (add_step st a begin end_ e) as [st1 r1] eqn:E.
    destruct (add_step_looping _ _ _ _ _ _ _ _ _ _ H E) as [H1 Hn].
    destruct r1 as [u1|e1|u1]; [|intros [= <- <- <-]; split; assumption..].
    intros E2. eapply IH; [exact H1|exact E2].
Qed.

Lemma free_alive f w l e : owned f w l -> In e l ->
  sn_freed (w (en_id e)) = false /\ 1 <= sn_ucount (w (en_id e)).
Proof.
  intros H Hin. destruct (H (en_id e)) as (H1 & H2 & _). apply pieces_in in Hin.
  rewrite H1, H2 by lia. split; lia.
Qed.

(** pt_image_add(), complete. *)
Lemma image_add_spec f w mem img sec a vaddr isid w' img' r :
  owned f w img -> 0 < f (sc_id sec) ->
  pt_image_add w mem img sec a vaddr isid = (w', img', r) ->
  match r with
  | Ok _ =>
      owned f w' img' /\
      (Forall wf img -> vaddr + sc_size sec < 2 ^ 64 ->
       Forall wf img' /\
       forall o x, facts img' o x <->
         (o = mk_added sec a vaddr isid /\ contains o x) \/
         (facts img o x /\
          ~ (compatible (ad_asid o) a /\ vaddr <= x < vaddr + sc_size sec))) /\
      (forall P, Forall wf img -> vaddr + sc_size sec < 2 ^ 64 -> ends P img ->
       (forall o, P o vaddr) -> P (mk_added sec a vaddr isid) (vaddr + sc_size sec) ->
       ends P img')
  | Err e => e = pte_nomem /\ Permutation img' img /\ (forall id, w' id = w id)
  | UB _ => False
  end.
Proof.
  intros H Hf. unfold pt_image_add.
  destruct (pt_mk_section_list w mem sec a vaddr 0 (sc_size sec) isid) as [[w1 mem1] r1] eqn:E1.
  assert (P0 : plus w (pieces []) w).
  { intros id. cbn. rewrite N.add_0_r. symmetry. apply set_ucount_same. }
  assert (Hid : sn_freed (w (sc_id sec)) = false /\ 1 <= sn_ucount (w (sc_id sec))).
  { destruct (H (sc_id sec)) as (G1 & G2 & _). rewrite G1, G2 by lia. split; lia. }
  pose proof (mk_list_looping f w img [] _ _ _ _ _ _ _ _ _ _ _ H P0 (proj1 Hid)
                ltac:(lia) E1) as G.
  destruct r1 as [n|e1|u1]; [|intros [= <- <- <-]; destruct G as [_ G]|destruct G].
  2:{ split; [reflexivity|]. split; [apply Permutation_refl|]. intros id. rewrite (G id).
      cbn. rewrite N.add_0_r. apply set_ucount_same. }
  destruct G as (Hn & G1 & G2).
  set (st0 := mk_adding w1 mem1 [] [] [n]).
  assert (L0 : looping f w img st0).
  { split; cbn [ad_world ad_next ad_kept ad_removed st0].
    - rewrite !app_nil_r. exact G1.
    - exact G2.
    - rewrite !app_nil_r. intros e [<-|Hin]; [subst n; exact Hid|].
      eapply free_alive; eassumption. }
  destruct (add_loop st0 a vaddr (add64 vaddr (sc_size sec)) img) as [[st rest] r2] eqn:E2.
  destruct (add_loop_looping _ _ _ _ _ _ _ _ _ _ L0 E2) as [L2 N2].
  destruct (add_loop_perm _ _ _ _ _ _ _ _ E2) as [P2 R2].
  cbn [st0 ad_kept ad_removed] in P2. rewrite !app_nil_r in P2.
  destruct r2 as [u2|e2|u2]; [| |exfalso; apply (N2 u2); reflexivity].
  - specialize (R2 u2 eq_refl). subst rest.
    destruct (pt_section_list_free_tail (ad_world st) (ad_removed st)) as [w3 r3] eqn:E3.
    assert (P3 : Permutation (ad_next st ++ [] ++ ad_kept st ++ ad_removed st)
                             (ad_removed st ++ rev (ad_kept st) ++ ad_next st)).
    { cbn [app]. rewrite <- (Permutation_rev (ad_kept st)).
      rewrite app_assoc, (Permutation_app_comm _ (ad_removed st)).
      apply Permutation_app_head. apply Permutation_app_comm. }
    destruct (free_tail_owned _ f _ _ _ _ _ (lp_owned _ _ _ _ L2) P3 E3) as [-> O3].
    intros [= <- <- <-]. split; [exact O3|]. split.
    2:{ intros P Hwf Hfit Pi Pb Pn.
        assert (Eend : add64 vaddr (sc_size sec) = vaddr + sc_size sec) by (unfold add64; lia).
        rewrite Eend in E2.
        destruct (add_loop_ends P img st0 a vaddr (vaddr + sc_size sec) st [] u2 Hwf ltac:(lia))
          as [K1 K2]; [constructor| |exact Pi|exact Pb|exact E2|].
        { cbn. subst n. constructor; [|constructor]. unfold eend, origin.
          cbn [en_msec ms_vaddr ms_size ms_sec ms_asid ms_offset en_isid].
          rewrite N.sub_0_r. exact Pn. }
        apply Forall_app. split; [apply Forall_rev; exact K1|exact K2]. }
    intros Hwf Hfit.
    assert (Eend : add64 vaddr (sc_size sec) = vaddr + sc_size sec) by (unfold add64; lia).
    rewrite Eend in E2.
    destruct (add_loop_ok img st0 a vaddr (vaddr + sc_size sec) st [] u2 Hwf ltac:(lia))
      as (K1 & K2 & K3); [constructor| |exact E2|].
    { cbn. subst n. constructor; [|constructor]. split; unfold en_sec; cbn; lia. }
    split; [apply Forall_app; split; [apply Forall_rev; exact K1|exact K2]|].
    intros o x. rewrite facts_app, facts_rev, <- facts_app, K3.
    cbn [st0 ad_kept ad_next app]. rewrite facts_cons, facts_nil. subst n.
    unfold ecovers, contains, inside, origin.
    cbn [en_msec ms_vaddr ms_size ms_sec ms_asid ms_offset en_isid].
    rewrite N.sub_0_r. split.
    + intros [[[<- Hx]|[]]|?]; [left; split; [reflexivity|exact Hx]|tauto].
    + intros [[-> Hx]|?]; [left; left; split; [reflexivity|exact Hx]|tauto].
  - destruct (pt_section_list_free_tail (ad_world st) (ad_next st)) as [w3 r3] eqn:E3.
    destruct (free_tail_plus _ w _ _ _ (fun e Hin => lp_alive _ _ _ _ L2 e
                (in_or_app _ _ _ (or_introl Hin))) (lp_plus _ _ _ _ L2) E3) as [-> W3].
    intros [= <- <- <-].
    assert (Ee : e2 = pte_nomem).
    { clear - E2. revert E2. generalize st0. induction img as [|e l IH]; intros st1; cbn [add_loop].
      - intros [= <- <-].
      - destruct (add_step st1 a vaddr _ e) as [st2 r2] eqn:E.
        assert (Hr : forall x, r2 = Err x -> x = pte_nomem).
        { intros x ->. revert E. unfold add_step. destruct (negb _); [discriminate|].
          destruct (_ || _); [discriminate|].
          assert (Q : forall st e v o s st' x, add_piece st e v o s = (st', Err x) -> x = pte_nomem).
          { clear. intros st e v o s st' x. unfold add_piece.
            destruct (pt_mk_section_list _ _ _ _ _ _ _ _) as [[w' mem'] [| |]]; congruence. }
          destruct (if pt_msec_begin (en_msec e) <? vaddr then _ else _)
            as [st3 [u3|x3|u3]] eqn:E3.
          - destruct (add64 vaddr (sc_size sec) <? pt_msec_end (en_msec e));
              [apply Q|discriminate].
          - intros [= _ <-]. destruct (pt_msec_begin (en_msec e) <? vaddr) in E3; [eapply Q; exact E3|discriminate].
          - discriminate. }
        destruct r2 as [u2|x2|u2]; [apply IH| |discriminate].
        intros [= _ _ <-]. apply Hr. reflexivity. }
    split; [exact Ee|]. split; [|exact W3].
    rewrite <- P2. apply Permutation_app_tail. symmetry. apply Permutation_rev.
Qed.
