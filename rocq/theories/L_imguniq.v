(** Pieces of sections in one address space do not overlap. *)

From Verif Require Import Base M_asid M_section M_image S_config L_config S_image L_section
  L_image L_imgref L_imghist L_imgfind.
From Coq Require Import List NArith ZArith Bool Lia ZifyBool ZifyNat ZifyN Permutation PeanoNat.
Import ListNotations.
Open Scope N_scope.
Ltac Zify.zify_post_hook ::= Z.div_mod_to_equations.

Definition separate (l : list entry) : Prop :=
  forall e e' x, In e l -> In e' l -> compatible (ms_asid (en_msec e)) (ms_asid (en_msec e')) ->
    ecovers e x -> ecovers e' x -> e = e'.

Lemma separate_incl l l' : (forall e, In e l' -> In e l) -> separate l -> separate l'.
Proof. intros Hi H e e' x H1 H2. apply H; apply Hi; assumption. Qed.

(** What is left of [e] below and above the new section. *)
Definition below (b : N) (e : entry) : entry :=
  mk_entry (mk_msec (en_sec e) (ms_asid (en_msec e)) (ms_vaddr (en_msec e)) (ms_offset (en_msec e))
                    (sub64 b (ms_vaddr (en_msec e)))) (en_isid e).
Definition above (n : N) (e : entry) : entry :=
  mk_entry (mk_msec (en_sec e) (ms_asid (en_msec e)) n
                    (add64 (ms_offset (en_msec e)) (sub64 n (ms_vaddr (en_msec e))))
                    (sub64 (pt_msec_end (en_msec e)) n)) (en_isid e).
Definition hit (a : asid) (b n : N) (e : entry) : bool :=
  pt_asid_match (ms_asid (en_msec e)) a &&
  negb ((n <=? pt_msec_begin (en_msec e)) || (pt_msec_end (en_msec e) <=? b)).
Definition comes (a : asid) (b n : N) (e p : entry) : Prop :=
  if hit a b n e
  then (ms_vaddr (en_msec e) < b /\ p = below b e) \/ (n < pt_msec_end (en_msec e) /\ p = above n e)
  else p = e.

Lemma add_step_comes st a b n e st' u : add_step st a b n e = (st', Ok u) ->
  forall p, In p (ad_kept st' ++ ad_next st') -> In p (ad_kept st ++ ad_next st) \/ comes a b n e p.
Proof.
  unfold add_step, comes, hit. destruct (pt_asid_match (ms_asid (en_msec e)) a); cbn [negb andb].
  2:{ intros [= <- _] p Hp. cbn in Hp. destruct Hp as [<-|Hp]; [right; reflexivity|left; exact Hp]. }
  destruct (_ || _); cbn [negb].
  { intros [= <- _] p Hp. cbn in Hp. destruct Hp as [<-|Hp]; [right; reflexivity|left; exact Hp]. }
  set (st0 := mk_adding _ _ _ _ _).
  destruct (if pt_msec_begin (en_msec e) <? b then _ else _) as [st1 r1] eqn:E1.
  destruct r1 as [u1| |]; try discriminate.
  assert (G1 : ad_kept st1 = ad_kept st /\ forall p, In p (ad_next st1) -> In p (ad_next st) \/
                 (ms_vaddr (en_msec e) < b /\ p = below b e)).
  { unfold pt_msec_begin in E1. destruct (N.ltb_spec (ms_vaddr (en_msec e)) b) as [Hl|Hl].
    - apply add_piece_ok in E1. destruct E1 as (A & _ & B). split; [exact A|]. rewrite B.
      intros p [<-|Hp]; [right; split; [exact Hl|reflexivity]|left; exact Hp].
    - injection E1 as <- _. split; [reflexivity|]. intros p Hp. left. exact Hp. }
  destruct G1 as [K1 N1]. destruct (N.ltb_spec n (pt_msec_end (en_msec e))) as [Hl|Hl].
  - intros E2. apply add_piece_ok in E2. destruct E2 as (A & _ & B). intros p Hp.
    rewrite A, K1, B in Hp. apply in_app_or in Hp. destruct Hp as [Hp|[<-|Hp]].
    + left. apply in_or_app. left. exact Hp.
    + right. right. split; [exact Hl|reflexivity].
    + destruct (N1 p Hp) as [Hq|Hq]; [left; apply in_or_app; right; exact Hq|right; left; exact Hq].
  - intros [= <- _] p Hp. rewrite K1 in Hp. apply in_app_or in Hp. destruct Hp as [Hp|Hp].
    + left. apply in_or_app. left. exact Hp.
    + destruct (N1 p Hp) as [Hq|Hq]; [left; apply in_or_app; right; exact Hq|right; left; exact Hq].
Qed.

Lemma add_loop_comes l : forall st a b n st' rest u, add_loop st a b n l = (st', rest, Ok u) ->
  forall p, In p (ad_kept st' ++ ad_next st') ->
  In p (ad_kept st ++ ad_next st) \/ exists e, In e l /\ comes a b n e p.
Proof.
  induction l as [|e l IH]; intros st a b n st' rest u; cbn [add_loop].
  - intros [= <- _ _] p Hp. left. exact Hp.
  - destruct (add_step st a b n e) as [st1 [u1| |]] eqn:E; try discriminate. intros E2 p Hp.
    destruct (IH _ _ _ _ _ _ _ E2 p Hp) as [H|(e' & H1 & H2)].
    + destruct (add_step_comes _ _ _ _ _ _ _ E p H) as [H'|H']; [left; exact H'|].
      right. exists e. split; [left; reflexivity|exact H'].
    + right. exists e'. split; [right; exact H1|exact H2].
Qed.

Lemma comes_covers a b n e p x : wf e -> b <= n < 2 ^ 64 -> comes a b n e p -> ecovers p x ->
  ecovers e x /\ ms_asid (en_msec p) = ms_asid (en_msec e) /\
  (pt_asid_match (ms_asid (en_msec e)) a = true -> ~ inside b n x).
Proof.
  intros [H1 H2 H3] Hb. unfold comes, hit, below, above, ecovers, inside, pt_msec_begin, pt_msec_end.
  replace (add64 (ms_vaddr (en_msec e)) (ms_size (en_msec e)))
    with (ms_vaddr (en_msec e) + ms_size (en_msec e)) by (unfold add64; lia).
  destruct (pt_asid_match (ms_asid (en_msec e)) a); cbn [andb].
  2:{ intros -> Hx. split; [exact Hx|]. split; [reflexivity|discriminate]. }
  destruct (_ || _) eqn:Ed; cbn [negb].
  { intros -> Hx. split; [exact Hx|]. split; [reflexivity|]. lia. }
  intros [(Hl & ->)|(Hl & ->)]; cbn [en_msec ms_vaddr ms_size ms_asid]; intros Hx.
  - assert (Es : sub64 b (ms_vaddr (en_msec e)) = b - ms_vaddr (en_msec e)) by (unfold sub64; lia).
    rewrite Es in Hx. split; [lia|]. split; [reflexivity|]. lia.
  - assert (Es : sub64 (ms_vaddr (en_msec e) + ms_size (en_msec e)) n
                 = ms_vaddr (en_msec e) + ms_size (en_msec e) - n) by (unfold sub64; lia).
    rewrite Es in Hx. split; [lia|]. split; [reflexivity|]. lia.
Qed.

Lemma comes_same a b n e p p' x : wf e -> b <= n < 2 ^ 64 -> comes a b n e p -> comes a b n e p' ->
  ecovers p x -> ecovers p' x -> p = p'.
Proof.
  intros [H1 H2 H3] Hb. unfold comes, hit, below, above, ecovers, pt_msec_begin, pt_msec_end.
  replace (add64 (ms_vaddr (en_msec e)) (ms_size (en_msec e)))
    with (ms_vaddr (en_msec e) + ms_size (en_msec e)) by (unfold add64; lia).
  destruct (pt_asid_match (ms_asid (en_msec e)) a); cbn [andb]; [|congruence].
  destruct (_ || _) eqn:Ed; cbn [negb]; [congruence|].
  assert (Es : ms_vaddr (en_msec e) < b -> sub64 b (ms_vaddr (en_msec e)) = b - ms_vaddr (en_msec e))
    by (unfold sub64; lia).
  intros [(Hl & ->)|(Hl & ->)] [(Hl' & ->)|(Hl' & ->)]; cbn [en_msec ms_vaddr ms_size]; intros Hx Hx';
    try reflexivity; rewrite Es in * by assumption; exfalso; lia.
Qed.

Lemma image_add_separate w mem img sec a vaddr isid w' img' u :
  Forall wf img -> vaddr + sc_size sec < 2 ^ 64 -> separate img ->
  pt_image_add w mem img sec a vaddr isid = (w', img', Ok u) -> separate img'.
Proof.
  intros Hwf Hfit Hs. unfold pt_image_add.
  replace (add64 vaddr (sc_size sec)) with (vaddr + sc_size sec) by (unfold add64; lia).
  destruct (pt_mk_section_list w mem sec a vaddr 0 (sc_size sec) isid) as [[w1 mem1] [e| |]] eqn:E1; try discriminate.
  apply mk_list_ok in E1.
  destruct (add_loop _ a vaddr _ img) as [[st rest] r] eqn:E2. destruct r as [u2| |]; [| |discriminate].
  2:{ destruct (pt_section_list_free_tail _ _) as [? [| |]]; discriminate. }
  destruct (pt_section_list_free_tail _ _) as [w2 [u3| |]]; try discriminate. intros [= _ <- _].
  assert (Hall : forall p, In p (rev (ad_kept st) ++ ad_next st) ->
            p = e \/ exists o, In o img /\ comes a vaddr (vaddr + sc_size sec) o p).
  { intros p Hp. destruct (add_loop_comes _ _ _ _ _ _ _ _ E2 p) as [H|H].
    - apply in_or_app. apply in_app_or in Hp. destruct Hp as [Hp|Hp]; [left; apply in_rev; exact Hp|right; exact Hp].
    - cbn in H. destruct H as [<-|[]]. left. reflexivity.
    - right. exact H. }
  assert (Hb : vaddr <= vaddr + sc_size sec < 2 ^ 64) by lia.
  rewrite Forall_forall in Hwf.
  assert (New : forall o p x, In o img -> comes a vaddr (vaddr + sc_size sec) o p -> ecovers p x -> ecovers e x ->
            compatible (ms_asid (en_msec p)) a -> False).
  { intros o p x Ho Hc Hx He Hm. destruct (comes_covers _ _ _ _ _ x (Hwf o Ho) Hb Hc Hx) as (_ & A & B).
    rewrite A in Hm. apply match_compat in Hm. apply (B Hm). unfold inside.
    rewrite E1 in He. unfold ecovers in He. cbn [en_msec ms_vaddr ms_size] in He. exact He. }
  assert (Ea : ms_asid (en_msec e) = a) by (rewrite E1; reflexivity).
  intros p p' x Hp Hp' Hc Hx Hx'.
  destruct (Hall p Hp) as [->|(o & Ho & Hco)], (Hall p' Hp') as [->|(o' & Ho' & Hco')]; [reflexivity| | |].
  - exfalso. apply (New o' p' x Ho' Hco' Hx' Hx). apply compat_sym. rewrite Ea in Hc. exact Hc.
  - exfalso. apply (New o p x Ho Hco Hx Hx'). rewrite Ea in Hc. exact Hc.
  - destruct (comes_covers _ _ _ _ _ x (Hwf o Ho) Hb Hco Hx) as (C1 & A1 & _).
    destruct (comes_covers _ _ _ _ _ x (Hwf o' Ho') Hb Hco' Hx') as (C2 & A2 & _).
    rewrite A1, A2 in Hc. assert (o = o') by (apply (Hs o o' x); assumption). subst o'.
    apply (comes_same _ _ _ o p p' x (Hwf o Ho) Hb Hco Hco' Hx Hx').
Qed.

Lemma separate_perm l l' : Permutation l' l -> separate l -> separate l'.
Proof. intros P. apply separate_incl. intros e. apply Permutation_in. exact P. Qed.

Lemma separate_step f h s o s' r : hinv f h s -> caller_may f (fst s) o -> istep s o = (s', r) ->
  separate (snd s) -> separate (snd s').
Proof.
  intros H [Hfit Hmay]. destruct s as [w img]. cbn [fst snd] in *. intros E Hs.
  destruct o as [sec a vaddr isid mem|id name size_of offset size a vaddr mem|name q|q|q x
                |cb files map size q x|id|id]; cbn [istep] in E.
  - destruct (pt_image_add w mem img sec a vaddr isid) as [[w1 img1] r1] eqn:Ea. injection E as <- _. cbn [snd].
    pose proof (image_add_spec f _ _ _ _ _ _ _ _ _ _ (hi_owned _ _ _ H) Hmay Ea) as G.
    destruct r1 as [u|e|u]; [|apply (separate_perm img); [apply G|exact Hs]|destruct G].
    eapply image_add_separate; [apply H|exact (Hfit _ eq_refl)|exact Hs|exact Ea].
  - destruct Hmay as (Hnew & Hfs & Hub). revert E. unfold pt_image_add_file.
    destruct (pt_mk_section id name size_of offset size) as [sec|e|u] eqn:Es;
      [|intros [= <- _]; exact Hs|intros [= <- _]; exact Hs].
    assert (Hsec : exists fs, size_of = Ok fs /\ sc_id sec = id /\
      sec = mk_section_info id name offset (N.min size (fs - offset))).
    { revert Es. unfold pt_mk_section. destruct size_of as [fs| |]; cbn [bind]; try discriminate.
      specialize (Hfs fs eq_refl). destruct (N.leb_spec fs offset); [discriminate|].
      intros [= <-]. exists fs. repeat split. f_equal.
      replace (sub64 fs offset) with (fs - offset) by (unfold sub64; lia).
      destruct (N.ltb_spec (fs - offset) size); lia. }
    destruct Hsec as (fs & -> & Hid & Hsec). set (w0 := wset w id new_scnt).
    assert (Hz : f id + pieces img id = 0).
    { destruct (hi_owned _ _ _ H id) as [G _]. cbn [fst snd] in G. rewrite Hnew in G.
      symmetry in G. apply N.eqb_eq in G. exact G. }
    assert (O0 : owned (bump f id true) w0 img).
    { intros j. cbv zeta. unfold w0, wset, bump. destruct (Nat.eqb_spec j id) as [->|].
      - cbn. split; [lia|]. split; [lia|]. split; [lia|]. lia.
      - apply (hi_owned _ _ _ H j). }
    destruct (pt_image_add w0 mem img sec a vaddr 0) as [[w1 img1] r1] eqn:Ea.
    assert (Hf0 : 0 < bump f id true (sc_id sec)) by (rewrite Hid; unfold bump; rewrite Nat.eqb_refl; lia).
    pose proof (image_add_spec _ _ _ _ _ _ _ _ _ _ _ O0 Hf0 Ea) as G.
    assert (G' : separate img1).
    { destruct r1 as [u|e|u]; [|apply (separate_perm img); [apply G|exact Hs]|destruct G].
      eapply image_add_separate; [apply H| |exact Hs|exact Ea].
      specialize (Hfit _ eq_refl). unfold fits in Hfit. cbn [ad_vaddr ad_sec] in Hfit. rewrite Hsec. exact Hfit. }
    destruct r1; destruct (on_section w1 id pt_section_put) as [w2 [| |]]; intros [= <- _]; exact G'.
  - revert E. unfold pt_image_remove_by_filename. destruct (remove_where _ w img) as [[w1 img1] r1] eqn:Er.
    destruct (remove_where_spec _ _ _ _ _ _ _ (hi_owned _ _ _ H) Er) as (_ & -> & _). intros [= <- _]. cbn [snd].
    apply (separate_incl img); [|exact Hs]. intros e He. apply filter_In in He. apply He.
  - revert E. unfold pt_image_remove_by_asid. destruct (remove_where _ w img) as [[w1 img1] r1] eqn:Er.
    destruct (remove_where_spec _ _ _ _ _ _ _ (hi_owned _ _ _ H) Er) as (_ & -> & _). intros [= <- _]. cbn [snd].
    apply (separate_incl img); [|exact Hs]. intros e He. apply filter_In in He. apply He.
  - revert E. unfold pt_image_find. pose proof (fetch_perm img q x) as P.
    destruct (pt_image_fetch_section img q x) as [img1 r1]. cbn [fst] in P. apply (separate_perm _ _ P) in Hs.
    destruct r1 as [e| |]; [destruct (on_section w (en_id e) pt_section_get) as [w2 [| |]]| |]; intros [= <- _]; exact Hs.
  - revert E. unfold pt_image_read. pose proof (fetch_perm img q x) as P.
    destruct (pt_image_fetch_section img q x) as [img1 r1]. cbn [fst] in P. apply (separate_perm _ _ P) in Hs.
    destruct r1 as [e|y|y]; [| |intros [= <- _]; exact Hs].
    + destruct (on_section w (en_id e) _) as [w2 [| |]]; [|intros [= <- _]; exact Hs..].
      destruct (on_section w2 (en_id e) _) as [w3 [| |]]; intros [= <- _]; exact Hs.
    + destruct y; intros [= <- _]; exact Hs.
  - destruct (on_section w id pt_section_get) as [w1 r1]. injection E as <- _. exact Hs.
  - destruct (on_section w id pt_section_put) as [w1 r1]. injection E as <- _. exact Hs.
Qed.

Lemma separate_run ops : forall f h s, hinv f h s -> callers_may f s ops -> separate (snd s) ->
  separate (snd (fst (irun s h ops))).
Proof.
  induction ops as [|o ops IH]; intros f h s H Hc Hs; cbn [irun]; [exact Hs|].
  destruct Hc as [Hm Hc]. destruct (istep s o) as [s1 r1] eqn:E. cbn [fst snd] in Hc.
  destruct (hinv_step _ _ _ _ _ _ H Hm E) as [H1 _].
  apply (IH _ _ _ H1 Hc). exact (separate_step _ _ _ _ _ _ H Hm E Hs).
Qed.

Lemma separate_after f w ops : held f w -> callers_may f (w, []) ops -> separate (snd (fst (after w ops))).
Proof.
  intros H Hc. apply (separate_run ops f [] (w, []) (hinv_start f w H) Hc). intros e e' x [].
Qed.
