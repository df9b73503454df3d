(** Lemmas about histories of image operations. *)

From Verif Require Import Base M_asid M_section M_image S_config L_config S_image L_image
  L_imgref.
From Coq Require Import List NArith ZArith Bool Lia ZifyBool ZifyNat ZifyN Permutation PeanoNat.
Import ListNotations.
Open Scope N_scope.
Ltac Zify.zify_post_hook ::= Z.div_mod_to_equations.

(** *** References of others *)

Lemma owned_ext f g w l : (forall id, f id = g id) -> owned f w l -> owned g w l.
Proof. intros E H id. rewrite <- E. apply H. Qed.

Lemma owned_world f w w' l : owned f w l ->
  (forall id, sn_freed (w' id) = sn_freed (w id) /\ sn_ucount (w' id) = sn_ucount (w id) /\
              (sn_mcount (w id) = 0 -> sn_mcount (w' id) = 0)) ->
  owned f w' l.
Proof.
  intros H E id. specialize (H id). specialize (E id). cbv zeta in *.
  destruct E as (E1 & E2 & E3), H as (H1 & H2 & H3 & H4). rewrite E1, E2.
  split; [exact H1|]. split; [exact H2|]. split; [exact H3|].
  intros H5. apply E3, H4, H5.
Qed.

Lemma user_get f w l id w' r : owned f w l -> f id + pieces l id <> 0 ->
  on_section w id pt_section_get = (w', r) ->
  (r = Ok tt /\ owned (bump f id true) w' l) \/ (r = Err pte_overflow /\ owned f w' l).
Proof.
  intros H Hn E. destruct (get_owned _ _ _ _ _ _ H Hn E) as [(-> & Hw & Hlt)|(-> & Hw)].
  - left. split; [reflexivity|]. intros j. cbv zeta. rewrite Hw. unfold bump.
    specialize (H j). cbv zeta in H. destruct (Nat.eqb_spec j id) as [->|]; [|exact H].
    cbn [set_ucount sn_freed sn_ucount sn_mcount]. destruct H as (H1 & H2 & H3 & H4).
    rewrite H1, H2 by exact Hn. split; [lia|]. split; [lia|]. split; lia.
  - right. split; [reflexivity|]. intros j. cbv zeta. rewrite Hw. apply H.
Qed.

Lemma user_put f w l id w' r : owned f w l -> 0 < f id ->
  (sn_mcount (w id) <> 0 -> 1 < f id) ->
  on_section w id pt_section_put = (w', r) ->
  r = Ok tt /\ owned (bump f id false) w' l.
Proof.
  intros H Hn Hm. destruct (H id) as (H1 & H2 & H3 & H4). cbv zeta in H1, H2, H3.
  specialize (H2 ltac:(lia)).
  unfold on_section, pt_section_put, alive. rewrite H1, H2.
  destruct (N.eqb_spec (f id + pieces l id) 0); [lia|].
  destruct (N.ltb_spec 1 (f id + pieces l id)) as [Hg|Hg].
  - intros [= <- <-]. split; [reflexivity|]. intros j. cbv zeta. unfold wset, bump.
    destruct (Nat.eqb_spec j id) as [->|Hne]; [|apply H].
    cbn [set_ucount sn_freed sn_ucount sn_mcount]. rewrite H1.
    split; [lia|]. split; [lia|]. split; [lia|]. lia.
  - assert (Hm0 : sn_mcount (w id) = 0) by (destruct (N.eq_dec (sn_mcount (w id)) 0); lia).
    cbn [orb]. rewrite Hm0. unfold truth. cbn [N.eqb negb].
    intros [= <- <-]. split; [reflexivity|]. intros j. cbv zeta. unfold wset, bump.
    destruct (Nat.eqb_spec j id) as [->|Hne]; [|apply H].
    cbn [set_freed sn_freed sn_ucount sn_mcount].
    split; [lia|]. split; [lia|]. split; [lia|]. intros _. exact Hm0.
Qed.

(** *** Removing *)

Lemma remove_where_spec p img : forall f w w' img' r,
  owned f w img -> remove_where p w img = (w', img', r) ->
  r = Ok (N.of_nat (length (filter p img))) /\
  img' = filter (fun e => negb (p e)) img /\ owned f w' img'.
Proof.
  enough (G : forall f w l w' img' r,
    owned f w (img ++ l) -> remove_where p w img = (w', img', r) ->
    r = Ok (N.of_nat (length (filter p img))) /\
    img' = filter (fun e => negb (p e)) img /\ owned f w' (img' ++ l)).
  { intros f w w' img' r H E. destruct (G f w [] w' img' r) as (A & B & C).
    - rewrite app_nil_r. exact H.
    - exact E.
    - rewrite app_nil_r in C. tauto. }
  induction img as [|e img IH]; intros f w l w' img' r H; cbn [remove_where filter].
  - intros [= <- <- <-]. repeat split; try reflexivity; apply H.
  - destruct (p e) eqn:Hp; cbn [negb].
    + destruct (pt_section_list_free w e) as [w1 r1] eqn:E1.
      destruct (free_owned f w ((e :: img) ++ l) e (img ++ l) w1 r1 H) as [-> H1];
        [apply Permutation_refl|exact E1|].
      destruct (remove_where p w1 img) as [[w2 img2] r2] eqn:E2.
      destruct (IH _ _ _ _ _ _ H1 E2) as (-> & -> & H2).
      intros [= <- <- <-]. cbn [bind length]. split; [f_equal; lia|]. split; [reflexivity|exact H2].
    + destruct (remove_where p w img) as [[w2 img2] r2] eqn:E2.
      destruct (IH f w (e :: l) w2 img2 r2) as (-> & -> & H2).
      * eapply owned_perm; [|exact H]. cbn. apply Permutation_middle.
      * exact E2.
      * intros [= <- <- <-]. split; [reflexivity|]. split; [reflexivity|].
        eapply owned_perm; [|exact H2]. cbn. symmetry. apply Permutation_middle.
Qed.

Lemma facts_filter p l a x : (forall e e', origin e = origin e' -> p e = p e') ->
  facts (filter p l) a x <-> facts l a x /\ forall e, origin e = a -> p e = true.
Proof.
  intros Hp. split.
  - intros (e & Hin & Ho & Hc). apply filter_In in Hin. destruct Hin as [Hin Hpe].
    split; [exists e; tauto|]. intros e' He'. rewrite <- Hpe. apply Hp. congruence.
  - intros [(e & Hin & Ho & Hc) H]. exists e. split; [|tauto].
    apply filter_In. split; [exact Hin|]. apply H. exact Ho.
Qed.

Lemma wf_filter p l : Forall wf l -> Forall wf (filter p l).
Proof.
  intros H. apply Forall_forall. intros e Hin. apply filter_In in Hin.
  rewrite Forall_forall in H. apply H, Hin.
Qed.

(** *** Looking up *)

Lemma find_split_spec p l : forall before,
  match find_split p before l with
  | Some (e, rest) =>
      p e = true /\ In e l /\ Permutation (e :: rest) (rev before ++ l) /\
      (exists l1 l2, l = l1 ++ e :: l2 /\ rest = rev before ++ l1 ++ l2 /\
                     Forall (fun e => p e = false) l1)
  | None => Forall (fun e => p e = false) l
  end.
Proof.
  induction l as [|e l IH]; intros before; cbn [find_split]; [constructor|].
  destruct (p e) eqn:Hp.
  - split; [exact Hp|]. split; [left; reflexivity|]. split; [apply Permutation_middle|].
    exists [], l. repeat split; constructor.
  - specialize (IH (e :: before)).
    destruct (find_split p (e :: before) l) as [[e' rest]|]; [|constructor; assumption].
    destruct IH as (H1 & H2 & H3 & l1 & l2 & -> & H4 & H5).
    split; [exact H1|]. split; [right; exact H2|]. cbn [rev] in *. rewrite <- !app_assoc in *.
    split; [exact H3|]. exists (e :: l1), l2. split; [reflexivity|]. split; [exact H4|].
    constructor; assumption.
Qed.

Lemma check_msec e q x : wf e ->
  pt_image_check_msec (en_msec e) q x = true <->
  ecovers e x /\ compatible (ms_asid (en_msec e)) q.
Proof.
  intros [_ He _]. unfold pt_image_check_msec, pt_msec_begin, pt_msec_end, ecovers.
  rewrite <- match_compat.
  replace (add64 (ms_vaddr (en_msec e)) (ms_size (en_msec e)))
    with (ms_vaddr (en_msec e) + ms_size (en_msec e)) by (unfold add64; lia).
  destruct (_ || _) eqn:E.
  - split; [discriminate|]. intros [Hc _]. lia.
  - split; [intros Hm; split; [lia|exact Hm]|]. intros [_ Hm]. exact Hm.
Qed.

Lemma fetch_spec img q x : Forall wf img ->
  match pt_image_fetch_section img q x with
  | (img', Ok e) =>
      Permutation img' img /\ In e img /\ ecovers e x /\
      compatible (ms_asid (en_msec e)) q /\ exists rest, img' = e :: rest
  | (img', Err e) =>
      e = pte_nomap /\ img' = img /\
      forall a, compatible (ad_asid a) q -> ~ facts img a x
  | _ => False
  end.
Proof.
  intros Hwf. unfold pt_image_fetch_section.
  pose proof (find_split_spec (fun e => pt_image_check_msec (en_msec e) q x) img []) as H.
  destruct (find_split _ [] img) as [[e rest]|].
  - destruct H as (H1 & H2 & H3 & _). rewrite Forall_forall in Hwf.
    apply check_msec in H1; [|apply Hwf; exact H2].
    split; [exact H3|]. split; [exact H2|]. split; [apply H1|]. split; [apply H1|].
    exists rest. reflexivity.
  - split; [reflexivity|]. split; [reflexivity|].
    intros a Hc (e & Hin & Ho & Hx). rewrite Forall_forall in H, Hwf. specialize (H e Hin).
    cbv beta in H. pose proof (check_msec e q x (Hwf e Hin)) as E. subst a. cbn in Hc.
    rewrite (proj2 E) in H; [discriminate|]. tauto.
Qed.

Lemma fetch_perm img q x : Permutation (fst (pt_image_fetch_section img q x)) img.
Proof.
  unfold pt_image_fetch_section.
  pose proof (find_split_spec (fun e => pt_image_check_msec (en_msec e) q x) img []) as H.
  destruct (find_split _ [] img) as [[e rest]|]; [apply H|apply Permutation_refl].
Qed.

(** *** Histories *)

Record hinv (f : refs) (h : history) (s : world * image) : Prop := mk_hinv {
  hi_owned : owned f (fst s) (snd s);
  hi_wf : Forall wf (snd s);
  hi_facts : forall a x, facts (snd s) a x <-> shows h a x;
  hi_ends : ends (fun a x => x = ad_vaddr a + sc_size (ad_sec a) \/ begins h x) (snd s) }.

Lemma begins_cons p h x : begins h x -> begins (p :: h) x.
Proof. intros (o & u & n & H1 & H2). exists o, u, n. split; [right; exact H1|exact H2]. Qed.
Lemma ends_cons p h l :
  ends (fun a x => x = ad_vaddr a + sc_size (ad_sec a) \/ begins h x) l ->
  ends (fun a x => x = ad_vaddr a + sc_size (ad_sec a) \/ begins (p :: h) x) l.
Proof.
  unfold ends. apply Forall_impl. intros e [H|H]; [left; exact H|right; apply begins_cons; exact H].
Qed.
Lemma ends_filter P p l : ends P l -> ends P (filter p l).
Proof.
  unfold ends. rewrite !Forall_forall. intros H e Hin. apply filter_In in Hin. apply H, Hin.
Qed.

Lemma hinv_same f h w img w' img' o r :
  hinv f h (w, img) -> Permutation img' img -> owned f w' img' ->
  (forall a x, shows ((o, r) :: h) a x <-> shows h a x) ->
  hinv f ((o, r) :: h) (w', img').
Proof.
  intros [H1 H2 H3 H4] P Ho Hs. split; cbn [fst snd] in *.
  - exact Ho.
  - eapply Permutation_Forall; [symmetry; exact P|exact H2].
  - intros a x. rewrite Hs, <- H3. split; apply facts_perm; [|symmetry]; exact P.
  - apply ends_cons. eapply Permutation_Forall; [symmetry; exact P|exact H4].
Qed.

Definition ans_ok (o : iop) (r : ians) : Prop :=
  match o, r with
  | IRead _ _ _ _ _ _, _ => True
  | _, ADone r => no_ub r
  | _, ACount r => no_ub r
  | _, AFound r => no_ub r
  | _, ABytes r => no_ub r
  end.

Lemma map_unmap_counts w id m w1 r1 :
  on_section w id (fun s => pt_section_map_count s m) = (w1, r1) ->
  (forall j, sn_freed (w1 j) = sn_freed (w j) /\ sn_ucount (w1 j) = sn_ucount (w j)) /\
  match r1 with
  | Ok _ =>
      forall w2 r2, on_section w1 id pt_section_unmap = (w2, r2) ->
      forall j, sn_freed (w2 j) = sn_freed (w j) /\ sn_ucount (w2 j) = sn_ucount (w j) /\
                (sn_mcount (w j) = 0 -> sn_mcount (w2 j) = 0)
  | _ => forall j, sn_mcount (w1 j) = sn_mcount (w j)
  end.
Proof.
  unfold on_section. destruct (pt_section_map_count (w id) m) as [s1 r] eqn:E.
  intros [= <- <-].
  assert (G : sn_freed s1 = sn_freed (w id) /\ sn_ucount s1 = sn_ucount (w id) /\
    match r with
    | Ok _ => sn_mcount (w id) = 0 -> sn_mcount s1 = 0 \/ sn_mcount s1 = 1
    | _ => sn_mcount s1 = sn_mcount (w id)
    end).
  { revert E. unfold pt_section_map_count, alive. destruct (sn_freed (w id)) eqn:Hf;
      [intros [= <- <-]; repeat split; [exact Hf]|].
    unfold truth. destruct (N.eqb_spec (sn_mcount (w id)) 0) as [Hz|Hz]; cbn [negb].
    - destruct (sn_mapped (w id)); [intros [= <- <-]; repeat split; [exact Hf|tauto]|].
      destruct m as [m| |]; [|intros [= <- <-]; repeat split; exact Hf..].
      cbn [set_mapped sn_mcount]. rewrite Hz. cbn.
      intros [= <- <-]. cbn. repeat split; [exact Hf|tauto].
    - destruct (_ =? 0); intros [= <- <-]; cbn; repeat split; try exact Hf. tauto. }
  destruct G as (G1 & G2 & G3). split.
  - intros j. unfold wset. destruct (Nat.eqb_spec j id) as [->|]; tauto.
  - destruct r as [u| |].
    2,3: intros j; unfold wset; destruct (Nat.eqb_spec j id) as [->|]; tauto.
    intros w2 r2. unfold wset at 1. rewrite Nat.eqb_refl.
    destruct (pt_section_unmap s1) as [s2 r3] eqn:E2. intros [= <- <-] j.
    unfold wset. destruct (Nat.eqb_spec j id) as [->|]; [|tauto].
    revert E2. unfold pt_section_unmap, alive. destruct (sn_freed s1) eqn:Hf1.
    { intros [= <- <-]. split; [congruence|]. split; [exact G2|].
      (* a freed section is not mapped at all *)
      intros Hz. exfalso. revert E. unfold pt_section_map_count, alive.
      rewrite <- G1. discriminate. }
    destruct (N.eqb_spec (sn_mcount s1) 0) as [Hz|Hz].
    { intros [= <- <-]. split; [congruence|]. split; [exact G2|]. tauto. }
    unfold truth. destruct (N.eqb_spec (sn_mcount s1 - 1) 0) as [Hz1|Hz1]; cbn [negb].
    + destruct (sn_mapped (set_mcount s1 (sn_mcount s1 - 1)));
        intros [= <- <-]; cbn; (split; [congruence|split; [exact G2|]]); lia.
    + intros [= <- <-]. cbn. split; [congruence|]. split; [exact G2|]. lia.
Qed.

Lemma hinv_step f h s o s' r :
  hinv f h s -> caller_may f (fst s) o -> istep s o = (s', r) ->
  hinv (refs_after f o r) ((o, r) :: h) s' /\ ans_ok o r.
Proof.
  intros H [Hfit Hmay]. destruct s as [w img]. cbn [fst] in Hmay.
  destruct o as [sec a vaddr isid mem|id name size_of offset size a vaddr mem|name q|q|q x
                |cb files map size q x|id|id]; cbn [istep].
  - (* add *)
    destruct (pt_image_add w mem img sec a vaddr isid) as [[w1 img1] r1] eqn:E.
    intros [= <- <-]. pose proof (image_add_spec f _ _ _ _ _ _ _ _ _ _ (hi_owned _ _ _ H) Hmay E) as G.
    destruct r1 as [u|e|u]; [| |destruct G].
    + destruct G as (G1 & G2 & G5).
      destruct (G2 (hi_wf _ _ _ H) (Hfit _ eq_refl)) as [G3 G4].
      split; [|intros y; discriminate]. cbn [refs_after].
      split; cbn [fst snd]; [exact G1|exact G3| |].
      2:{ apply G5; [apply H|exact (Hfit _ eq_refl)|apply ends_cons; apply H| |left; reflexivity].
          intros o. right. eexists _, _, _. split; [left; reflexivity|]. split; reflexivity. }
      intros o x. rewrite G4, (hi_facts _ _ _ H). cbn [shows adds ad_asid snd].
      unfold contains at 2. cbn [ad_vaddr ad_sec].
      split; (intros [[-> ?]|?]; [left; split; [reflexivity|assumption]|right; assumption]).
    + destruct G as (_ & P & W). split; [|intros y; discriminate]. cbn [refs_after].
      apply (hinv_same f h w img); [exact H|exact P| |intros; reflexivity].
      eapply owned_perm; [symmetry; exact P|]. intros j. rewrite W. apply (hi_owned _ _ _ H).
  - (* add file *)
    destruct Hmay as (Hnew & Hfs & Hub).
    unfold pt_image_add_file.
    destruct (pt_mk_section id name size_of offset size) as [sec|e|u] eqn:Es.
    2:{ intros [= <- <-]. split; [|intros y; discriminate]. cbn [refs_after].
        apply (hinv_same f h w img); [exact H|apply Permutation_refl|apply H|].
        intros a0 x. cbn. destruct size_of; [reflexivity|cbn; tauto..]. }
    2:{ exfalso. revert Es. unfold pt_mk_section. destruct size_of as [fs| |u'];
        cbn [bind]; [|discriminate|intros _; apply (Hub u'); reflexivity].
        destruct (_ <=? _); discriminate. }
    assert (Hsec : exists fs, size_of = Ok fs /\ sc_id sec = id /\
      sec = mk_section_info id name offset (N.min size (fs - offset))).
    { revert Es. unfold pt_mk_section. destruct size_of as [fs| |]; cbn [bind]; try discriminate.
      specialize (Hfs fs eq_refl). destruct (N.leb_spec fs offset); [discriminate|].
      intros [= <-]. exists fs. repeat split. f_equal.
      replace (sub64 fs offset) with (fs - offset) by (unfold sub64; lia).
      destruct (N.ltb_spec (fs - offset) size); lia. }
    destruct Hsec as (fs & -> & Hid & Hsec).
    set (w0 := wset w id new_scnt).
    assert (Hz : f id + pieces img id = 0).
    { destruct (hi_owned _ _ _ H id) as [G _]. cbn [fst snd] in G. rewrite Hnew in G.
      symmetry in G. apply N.eqb_eq in G. exact G. }
    assert (O0 : owned (bump f id true) w0 img).
    { intros j. cbv zeta. unfold w0, wset, bump. destruct (Nat.eqb_spec j id) as [->|].
      - cbn. split; [lia|]. split; [lia|]. split; [lia|]. lia.
      - apply (hi_owned _ _ _ H j). }
    destruct (pt_image_add w0 mem img sec a vaddr 0) as [[w1 img1] r1] eqn:E.
    assert (Hf0 : 0 < bump f id true id).
    { unfold bump. rewrite Nat.eqb_refl. lia. }
    assert (Hf' : 0 < bump f id true (sc_id sec)) by (rewrite Hid; exact Hf0).
    pose proof (image_add_spec _ _ _ _ _ _ _ _ _ _ _ O0 Hf' E) as G.
    assert (Hb : forall j, bump (bump f id true) id false j = f j).
    { intros j. unfold bump. destruct (Nat.eqb_spec j id); lia. }
    destruct r1 as [u|e|u]; [| |destruct G].
    + destruct G as (G1 & G2 & G5).
      destruct (G2 (hi_wf _ _ _ H)) as [G3 G4].
      { specialize (Hfit _ eq_refl). unfold fits in Hfit. cbn [ad_vaddr ad_sec] in Hfit.
        rewrite Hsec. exact Hfit. }
      destruct (on_section w1 id pt_section_put) as [w2 r2] eqn:E2.
      assert (Hm : sn_mcount (w1 id) <> 0 -> 1 < bump f id true id).
      { (* the new section is not mapped *)
        intros Hm. exfalso. apply Hm.
        assert (M : forall j, sn_mcount (w1 j) = sn_mcount (w0 j)).
        2:{ rewrite M. unfold w0, wset. rewrite Nat.eqb_refl. reflexivity. }
        clear - E.
        assert (Get : forall w id w' r, on_section w id pt_section_get = (w', r) ->
                  forall j, sn_mcount (w' j) = sn_mcount (w j)).
        { clear. intros w id w' r. unfold on_section, pt_section_get, alive.
          destruct (sn_freed (w id)); [|destruct (_ =? 0)]; intros [= <- <-] j; unfold wset;
            destruct (Nat.eqb_spec j id) as [->|]; reflexivity. }
        assert (Mk : forall w mem sec a v o s i w' mem' r,
                  pt_mk_section_list w mem sec a v o s i = (w', mem', r) ->
                  forall j, sn_mcount (w' j) = sn_mcount (w j)).
        { clear - Get. intros w mem sec a v o s i w' mem' r. unfold pt_mk_section_list.
          destruct (match mem with [] => (true, []) | b :: m => (b, m) end) as [ok m1].
          destruct (negb ok); [intros [= <- <- <-]; reflexivity|].
          destruct (on_section w (sc_id sec) pt_section_get) as [w2 [| |]] eqn:E2;
            intros [= <- <- <-]; eapply Get; exact E2. }
        assert (Pc : forall st e v o s st' r, add_piece st e v o s = (st', r) ->
                  forall j, sn_mcount (ad_world st' j) = sn_mcount (ad_world st j)).
        { clear - Mk. intros st e v o s st' r. unfold add_piece.
          destruct (pt_mk_section_list _ _ _ _ _ _ _ _) as [[w' mem'] r1] eqn:E1.
          destruct r1; intros [= <- <-]; cbn [ad_world]; eapply Mk; exact E1. }
        assert (St : forall st a b n e st' r, add_step st a b n e = (st', r) ->
                  forall j, sn_mcount (ad_world st' j) = sn_mcount (ad_world st j)).
        { clear - Pc. intros st a b n e st' r. unfold add_step.
          destruct (negb _); [intros [= <- <-]; reflexivity|].
          destruct (_ || _); [intros [= <- <-]; reflexivity|].
          set (st0 := mk_adding _ _ _ _ _).
          change (ad_world st) with (ad_world st0). clearbody st0.
          destruct (if pt_msec_begin (en_msec e) <? b then _ else _) as [st1 r1] eqn:E1.
          assert (Q : forall j, sn_mcount (ad_world st1 j) = sn_mcount (ad_world st0 j)).
          { destruct (_ <? _) in E1; [eapply Pc; exact E1|].
            injection E1 as <- <-. reflexivity. }
          clear E1. destruct r1; [|intros [= <- <-]; exact Q..].
          destruct (n <? pt_msec_end (en_msec e)); [|intros [= <- <-]; exact Q].
          intros E2 j. rewrite <- Q. eapply Pc. exact E2. }
        assert (Lp : forall l st a b n st' rest r, add_loop st a b n l = (st', rest, r) ->
                  forall j, sn_mcount (ad_world st' j) = sn_mcount (ad_world st j)).
        { clear - St. induction l as [|e l IH]; intros st a b n st' rest r; cbn [add_loop].
          - intros [= <- <- <-]. reflexivity.
          - destruct (add_step st a b n e) as [st1 r1] eqn:E1.
            pose proof (St _ _ _ _ _ _ _ E1) as Q.
            destruct r1; [|intros [= <- <- <-]; exact Q..].
            intros E2 j. rewrite <- Q. eapply IH. exact E2. }
        assert (Put : forall w id w' r, on_section w id pt_section_put = (w', r) ->
                  forall j, sn_mcount (w' j) = sn_mcount (w j)).
        { clear. intros w id w' r. unfold on_section, pt_section_put, alive.
          destruct (sn_freed (w id)); [|destruct (_ <? _); [|destruct (_ || _)]];
            intros [= <- <-] j; unfold wset; destruct (Nat.eqb_spec j id) as [->|]; reflexivity. }
        assert (Fr : forall l w w' r, pt_section_list_free_tail w l = (w', r) ->
                  forall j, sn_mcount (w' j) = sn_mcount (w j)).
        { clear - Put. induction l as [|e l IH]; intros w w' r; cbn [pt_section_list_free_tail].
          - intros [= <- <-]. reflexivity.
          - unfold pt_section_list_free.
            destruct (on_section w (en_id e) pt_section_put) as [w1 r1] eqn:E1.
            pose proof (Put _ _ _ _ E1) as Q.
            destruct r1; [| |intros [= <- <-]; exact Q];
              intros E2 j; rewrite <- Q; eapply IH; exact E2. }
        intros j. revert E. unfold pt_image_add.
        destruct (pt_mk_section_list w0 mem sec a vaddr 0 (sc_size sec) 0) as [[w2 mem2] r2] eqn:E2.
        pose proof (Mk _ _ _ _ _ _ _ _ _ _ _ E2 j) as Q.
        destruct r2; [|discriminate..].
        destruct (add_loop _ a vaddr _ img) as [[st rest] r3] eqn:E3.
        apply (fun E => Lp _ _ _ _ _ _ _ _ E j) in E3. cbn [ad_world] in E3.
        destruct r3; [|destruct (pt_section_list_free_tail _ _) as [? [| |]]; discriminate
                      |discriminate].
        destruct (pt_section_list_free_tail (ad_world st) (ad_removed st)) as [w4 r4] eqn:E4.
        apply (fun E => Fr _ _ _ _ E j) in E4.
        destruct r4; [|discriminate..]. intros [= <- _ _]. congruence. }
      destruct (user_put _ _ _ _ _ _ G1 Hf0 Hm E2) as [-> O2].
      intros [= <- <-]. split; [|intros y; discriminate]. cbn [refs_after].
      split; cbn [fst snd]; [eapply owned_ext; [exact Hb|exact O2]|exact G3| |].
      2:{ apply G5; [apply H| |apply ends_cons; apply H| |left; reflexivity].
          - rewrite Hsec. exact (Hfit _ eq_refl).
          - intros o. right. eexists _, _, _. split; [left; reflexivity|]. split; reflexivity. }
      intros o x. rewrite G4, (hi_facts _ _ _ H). cbn [shows adds ad_asid snd].
      rewrite <- Hsec.
      unfold contains at 2. cbn [ad_vaddr ad_sec].
      split; (intros [[-> ?]|?]; [left; split; [reflexivity|assumption]|right; assumption]).
    + destruct G as (_ & P & W).
      destruct (on_section w1 id pt_section_put) as [w2 r2] eqn:E2.
      assert (O1 : owned (bump f id true) w1 img1).
      { eapply owned_perm; [symmetry; exact P|]. intros j. rewrite W. apply O0. }
      assert (Hm : sn_mcount (w1 id) <> 0 -> 1 < bump f id true id).
      { rewrite W. unfold w0, wset. rewrite Nat.eqb_refl. cbn. lia. }
      destruct (user_put _ _ _ _ _ _ O1 Hf0 Hm E2) as [-> O2].
      intros [= <- <-]. split; [|intros y; discriminate]. cbn [refs_after].
      apply (hinv_same f h w img); [exact H|exact P| |intros; reflexivity].
      eapply owned_ext; [exact Hb|exact O2].
  - (* remove by file name *)
    unfold pt_image_remove_by_filename.
    destruct (remove_where _ w img) as [[w1 img1] r1] eqn:E.
    destruct (remove_where_spec _ _ _ _ _ _ _ (hi_owned _ _ _ H) E) as (-> & -> & O1).
    intros [= <- <-]. split; [|intros y; discriminate]. cbn [refs_after].
    split; cbn [fst snd]; [exact O1|apply wf_filter; apply (hi_wf _ _ _ H)|
                           |apply ends_cons, ends_filter; apply H].
    intros a x. rewrite facts_filter.
    2:{ intros e e' Eo. unfold origin in Eo. injection Eo as E1 E2 E3 E4.
        unfold en_sec. rewrite E1, E2. reflexivity. }
    rewrite (hi_facts _ _ _ H). cbn [shows adds removes].
    split; (intros [Hs Hn]; split; [exact Hs|]).
    + intros [Hnm Hc]. specialize (Hn (mk_entry (mk_msec (ad_sec a) (ad_asid a) (ad_vaddr a) 0 0)
                                               (ad_isid a))).
      unfold origin, en_sec in Hn. cbn [en_msec ms_sec ms_asid ms_vaddr ms_offset en_isid] in Hn.
      rewrite N.sub_0_r in Hn. specialize (Hn ltac:(destruct a; reflexivity)).
      apply match_compat in Hc. rewrite Hc, Hnm, N.eqb_refl in Hn. discriminate.
    + intros e He. unfold origin in He. subst a. cbn [ad_sec ad_asid] in Hn.
      unfold en_sec. apply negb_true_iff, not_true_iff_false. intros Hb.
      apply andb_true_iff in Hb. destruct Hb as [B1 B2]. apply Hn.
      split; [apply N.eqb_eq; exact B2|apply match_compat; exact B1].
  - (* remove by address space *)
    unfold pt_image_remove_by_asid.
    destruct (remove_where _ w img) as [[w1 img1] r1] eqn:E.
    destruct (remove_where_spec _ _ _ _ _ _ _ (hi_owned _ _ _ H) E) as (-> & -> & O1).
    intros [= <- <-]. split; [|intros y; discriminate]. cbn [refs_after].
    split; cbn [fst snd]; [exact O1|apply wf_filter; apply (hi_wf _ _ _ H)|
                           |apply ends_cons, ends_filter; apply H].
    intros a x. rewrite facts_filter.
    2:{ intros e e' Eo. unfold origin in Eo. injection Eo as E1 E2 E3 E4.
        rewrite E2. reflexivity. }
    rewrite (hi_facts _ _ _ H). cbn [shows adds removes].
    split; (intros [Hs Hn]; split; [exact Hs|]).
    + intros Hc. specialize (Hn (mk_entry (mk_msec (ad_sec a) (ad_asid a) (ad_vaddr a) 0 0)
                                               (ad_isid a))).
      unfold origin, en_sec in Hn. cbn [en_msec ms_sec ms_asid ms_vaddr ms_offset en_isid] in Hn.
      rewrite N.sub_0_r in Hn. specialize (Hn ltac:(destruct a; reflexivity)).
      apply match_compat in Hc. rewrite Hc in Hn. discriminate.
    + intros e He. unfold origin in He. subst a. cbn [ad_asid] in Hn.
      apply negb_true_iff, not_true_iff_false. intros Hb. apply Hn.
      apply match_compat; exact Hb.
  - (* find *)
    unfold pt_image_find. pose proof (fetch_spec img q x (hi_wf _ _ _ H)) as F.
    destruct (pt_image_fetch_section img q x) as [img1 [e|e|u]]; [| |destruct F].
    + destruct F as (P & Hin & _).
      destruct (on_section w (en_id e) pt_section_get) as [w1 r1] eqn:E.
      assert (O1 : owned f w img1) by (eapply owned_perm; [symmetry; exact P|apply H]).
      destruct (user_get f w img1 (en_id e) w1 r1 O1) as [[-> O2]|[-> O2]];
        [rewrite (pieces_perm _ _ _ P); apply pieces_in in Hin; lia|exact E| |].
      * intros [= <- <-]. split; [|intros y; discriminate]. cbn [refs_after].
        destruct H as [H1 H2 H3 H4]. cbn [fst snd] in *. split; cbn [fst snd].
        -- exact O2.
        -- eapply Permutation_Forall; [symmetry; exact P|exact H2].
        -- intros a y. cbn [shows adds removes]. rewrite <- H3.
           split; [intros Hf; split; [|tauto]|intros [Hf _]]; revert Hf; apply facts_perm;
             [|symmetry]; exact P.
        -- apply ends_cons. eapply Permutation_Forall; [symmetry; exact P|exact H4].
      * intros [= <- <-]. split; [|intros y; discriminate]. cbn [refs_after].
        apply (hinv_same f h w img); [exact H|exact P|exact O2|].
        intros a y. cbn. tauto.
    + destruct F as (-> & -> & _). intros [= <- <-]. split; [|intros y; discriminate].
      cbn [refs_after]. apply (hinv_same f h w img);
        [exact H|apply Permutation_refl|apply H|intros a y; cbn; tauto].
  - (* read *)
    unfold pt_image_read. pose proof (fetch_spec img q x (hi_wf _ _ _ H)) as F.
    assert (Keep : forall w1 img1 r1, Permutation img1 img ->
      (forall j, sn_freed (w1 j) = sn_freed (w j) /\ sn_ucount (w1 j) = sn_ucount (w j) /\
                 (sn_mcount (w j) = 0 -> sn_mcount (w1 j) = 0)) ->
      hinv f ((IRead cb files map size q x, r1) :: h) (w1, img1)).
    { intros w1 img1 r1 P Hw. apply (hinv_same f h w img); [exact H|exact P| |].
      - eapply owned_perm; [symmetry; exact P|]. eapply owned_world; [apply H|exact Hw].
      - intros a y. cbn. tauto. }
    destruct (pt_image_fetch_section img q x) as [img1 [e|e|u]]; [| |destruct F].
    + destruct F as (P & Hin & _).
      destruct (on_section w (en_id e) _) as [w1 r1] eqn:E1.
      destruct (map_unmap_counts _ _ _ _ _ E1) as [M1 M2].
      destruct r1 as [u| |].
      * destruct (on_section w1 (en_id e) pt_section_unmap) as [w2 r2] eqn:E2.
        specialize (M2 _ _ eq_refl).
        destruct r2; intros [= <- <-]; (split; [apply Keep; assumption|exact I]).
      * intros [= <- <-]. split; [|exact I]. apply Keep; [exact P|].
        intros j. rewrite (M2 j). destruct (M1 j). tauto.
      * intros [= <- <-]. split; [|exact I]. apply Keep; [exact P|].
        intros j. rewrite (M2 j). destruct (M1 j). tauto.
    + destruct F as (-> & -> & _). intros [= <- <-]. split; [|exact I].
      apply Keep; [apply Permutation_refl|tauto].
  - (* get *)
    destruct (on_section w id pt_section_get) as [w1 r1] eqn:E.
    destruct (user_get f w img id w1 r1 (hi_owned _ _ _ H)) as [[-> O2]|[-> O2]];
      [lia|exact E| |]; intros [= <- <-]; (split; [|intros y; discriminate]); cbn [refs_after].
    + destruct H as [H1 H2 H3 H4]. split; cbn [fst snd] in *;
      [exact O2|exact H2| |apply ends_cons; exact H4].
      intros a y. cbn. rewrite H3. tauto.
    + apply (hinv_same f h w img); [exact H|apply Permutation_refl|exact O2|].
      intros a y. cbn. tauto.
  - (* put *)
    destruct Hmay as [Hp Hm].
    destruct (on_section w id pt_section_put) as [w1 r1] eqn:E.
    destruct (user_put f w img id w1 r1 (hi_owned _ _ _ H) Hp Hm E) as [-> O2].
    intros [= <- <-]; (split; [|intros y; discriminate]); cbn [refs_after].
    destruct H as [H1 H2 H3 H4]. split; cbn [fst snd] in *;
      [exact O2|exact H2| |apply ends_cons; exact H4].
    intros a y. cbn. rewrite H3. tauto.
Qed.
