(** Lemmas about image lookups, reads and copies. *)

From Verif Require Import Base M_asid M_section M_image S_config L_config S_image L_section
  L_image L_imgref L_imghist.
From Coq Require Import List NArith ZArith Bool Lia ZifyBool ZifyNat ZifyN Permutation PeanoNat.
Import ListNotations.
Open Scope N_scope.
Ltac Zify.zify_post_hook ::= Z.div_mod_to_equations.

Lemma hinv_run ops : forall f h s,
  hinv f h s -> callers_may f s ops ->
  hinv (refs_run f s ops) (snd (irun s h ops)) (fst (irun s h ops)) /\
  Forall (fun p => ans_ok (fst p) (snd p)) (firstn (length ops) (snd (irun s h ops))).
Proof.
  enough (G : forall f h s,
    hinv f h s -> callers_may f s ops ->
    hinv (refs_run f s ops) (snd (irun s h ops)) (fst (irun s h ops)) /\
    exists h', snd (irun s h ops) = h' ++ h /\ length h' = length ops /\
               Forall (fun p => ans_ok (fst p) (snd p)) h').
  { intros f h s H Hc. destruct (G f h s H Hc) as [A (h' & B & C & D)].
    split; [exact A|]. rewrite B, <- C, firstn_app, Nat.sub_diag, firstn_all, app_nil_r. exact D. }
  induction ops as [|o ops IH]; intros f h s H Hc; cbn [irun refs_run].
  - split; [exact H|]. exists []. repeat split. constructor.
  - destruct Hc as [Hm Hc]. destruct (istep s o) as [s1 r1] eqn:E. cbn [fst snd] in Hc |- *.
    destruct (hinv_step _ _ _ _ _ _ H Hm E) as [H1 A1].
    destruct (IH _ _ _ H1 Hc) as [H2 (h' & B & C & D)]. split; [exact H2|].
    exists (h' ++ [(o, r1)]). rewrite <- app_assoc. split; [exact B|].
    split; [rewrite app_length, C; cbn; lia|]. apply Forall_app. split; [exact D|].
    constructor; [exact A1|constructor].
Qed.

Lemma hinv_start f w : held f w -> hinv f [] (w, []).
Proof.
  intros H. split; cbn [fst snd].
  - intros id. cbv zeta. cbn [pieces filter length N.of_nat]. rewrite N.add_0_r. apply H.
  - constructor.
  - intros a x. apply facts_nil.
  - constructor.
Qed.

Lemma hinv_after f w ops : held f w -> callers_may f (w, []) ops ->
  hinv (refs_run f (w, []) ops) (snd (after w ops)) (fst (after w ops)).
Proof. intros H Hc. apply (hinv_run ops _ _ _ (hinv_start f w H) Hc). Qed.

Lemma unmap_origin e x : wf e -> ecovers e x ->
  pt_msec_unmap (en_msec e) x = x - ad_vaddr (origin e).
Proof.
  intros [H1 H2 H3] Hx. unfold ecovers in Hx. unfold pt_msec_unmap, origin, add64, sub64.
  cbn [ad_vaddr]. lia.
Qed.

Record hcore (f : refs) (h : history) (s : world * image) : Prop := mk_hcore {
  hc_owned : owned f (fst s) (snd s);
  hc_wf : Forall wf (snd s);
  hc_facts : forall a x, facts (snd s) a x <-> shows h a x }.
Lemma hi_core f h s : hinv f h s -> hcore f h s.
Proof. intros [H1 H2 H3 _]. split; assumption. Qed.

Lemma find_char f h s q x : hcore f h s ->
  (exists a, shows h a x /\ compatible (ad_asid a) q /\
     (f (sc_id (ad_sec a)) + pieces (snd s) (sc_id (ad_sec a)) + 1 < 2 ^ 16 /\
      lookup_at s q x = place_of a x \/
      sn_ucount (fst s (sc_id (ad_sec a))) = 65535 /\
      f (sc_id (ad_sec a)) + pieces (snd s) (sc_id (ad_sec a)) = 65535 /\
      lookup_at s q x = Some (Err pte_overflow))) \/
  ((forall a, compatible (ad_asid a) q -> ~ shows h a x) /\
   lookup_at s q x = Some (Err pte_nomap)).
Proof.
  intros H. destruct s as [w img]. unfold lookup_at. cbn [istep].
  unfold pt_image_find. pose proof (fetch_spec img q x (hc_wf _ _ _ H)) as F.
  destruct (pt_image_fetch_section img q x) as [img1 [e|e|u]]; [| |destruct F].
  - left. destruct F as (P & Hin & Hx & Hc & _).
    exists (origin e). split; [|split; [exact Hc|]].
    { apply (hc_facts _ _ _ H). cbn [snd]. exists e. tauto. }
    assert (He : wf e) by (pose proof (hc_wf _ _ _ H) as G; rewrite Forall_forall in G; apply G, Hin).
    destruct (on_section w (en_id e) pt_section_get) as [w1 r1] eqn:E.
    destruct (get_owned f w img (en_id e) w1 r1 (hc_owned _ _ _ H)) as [(-> & _ & Hlt)|[-> Hw]];
      [apply pieces_in in Hin; lia|exact E| |].
    + left. split; [exact Hlt|].
      cbn [snd place]. unfold place_of. rewrite (unmap_origin _ _ He Hx). reflexivity.
    + right. change (sc_id (ad_sec (origin e))) with (en_id e). cbn [fst snd].
      destruct (hc_owned _ _ _ H (en_id e)) as (O1 & O2 & O3 & _). cbn [fst snd] in *.
      apply pieces_in in Hin.
      revert E. unfold on_section, pt_section_get, alive. rewrite O1.
      destruct (N.eqb_spec (f (en_id e) + pieces img (en_id e)) 0); [lia|].
      rewrite O2 by assumption.
      destruct (N.eqb_spec (u16 (f (en_id e) + pieces img (en_id e) + 1)) 0) as [E0|]; [|discriminate].
      intros _. unfold u16, trunc in E0.
      assert (En : f (en_id e) + pieces img (en_id e) = 65535).
      { change (2 ^ 16) with 65536 in *. lia. }
      split; [exact En|]. split; [exact En|reflexivity].
  - right. destruct F as (-> & -> & Hn). split; [|reflexivity].
    intros a Hc Hs. apply (Hn a Hc). apply (hc_facts _ _ _ H). exact Hs.
Qed.

Lemma shows_unique h a b x : shows h a x -> shows h b x ->
  compatible (ad_asid a) (ad_asid b) -> a = b.
Proof.
  revert a b. induction h as [|[o r] h IH]; intros a b; [intros []|].
  cbn [shows]. destruct (adds o) as [n|].
  2:{ intros [Ha _] [Hb _]. apply IH; assumption. }
  destruct r as [[u|e|u]| | |]; try (apply IH).
  intros [[-> Ha]|[Ha Hna]] [[-> Hb]|[Hb Hnb]] Hc; [reflexivity| | |].
  - exfalso. apply Hnb. split; [apply compat_sym; exact Hc|exact Ha].
  - exfalso. apply Hna. split; [exact Hc|exact Hb].
  - apply IH; assumption.
Qed.

Lemma specific_compat q a b : specific q -> compatible a q -> compatible b q -> compatible a b.
Proof. unfold specific, compatible, agree. intros [H1 H2] [A1 A2] [B1 B2]. intuition congruence. Qed.

(** *** Reading *)

(** What [mapped_well] and the result of mapping give. *)
Lemma map_unmap w sec m w1 r1 : sn_freed (w (sc_id sec)) = false ->
  mapped_well w sec ->
  (exists fs page u mm mem, sc_offset sec + sc_size sec <= fs < 2 ^ 63 /\
     m = map_file sec fs page u mm mem) ->
  on_section w (sc_id sec) (fun s => pt_section_map_count s m) = (w1, r1) ->
  (r1 = Ok tt /\
   (exists mp, sn_mapped (w1 (sc_id sec)) = Some mp /\ starts mp = sc_offset sec /\
               covers mp (sc_size sec)) /\
   exists w2, on_section w1 (sc_id sec) pt_section_unmap = (w2, Ok tt)) \/
  (r1 = Err pte_overflow /\ sn_mcount (w (sc_id sec)) = 65535) \/
  (exists e, m = Err e /\ r1 = Err e).
Proof.
  intros Hf Hw (fs & page & u & mm & mem & Hfs & Hm). unfold mapped_well in Hw.
  destruct (map_file_ok sec fs page u mm mem ltac:(lia) ltac:(lia)) as [Hno Hok].
  rewrite <- Hm in Hno, Hok.
  unfold on_section, pt_section_map_count, alive. rewrite Hf.
  destruct (sn_mapped (w (sc_id sec))) as [mp|] eqn:Emp.
  - destruct Hw as (Hc & fs' & page' & u' & mm' & mem' & Hfs' & Hmp).
    destruct (map_file_ok sec fs' page' u' mm' mem' ltac:(lia) ltac:(lia)) as [_ Hok'].
    destruct (Hok' _ Hmp) as [Hst Hcv].
    unfold truth. destruct (N.eqb_spec (sn_mcount (w (sc_id sec))) 0); [lia|]. cbn [negb].
    unfold u16, trunc. destruct (N.eqb_spec ((sn_mcount (w (sc_id sec)) + 1) mod 2 ^ 16) 0) as [E|E].
    + intros [= <- <-]. right; left. split; [reflexivity|]. change (2 ^ 16) with 65536 in *. lia.
    + intros [= <- <-]. left. split; [reflexivity|]. split.
      { exists mp. unfold wset. rewrite Nat.eqb_refl. cbn [set_mcount sn_mapped]. tauto. }
      unfold wset at 1. rewrite Nat.eqb_refl.
      unfold pt_section_unmap, alive. cbn [set_mcount sn_freed sn_mcount sn_mapped]. rewrite Hf.
      assert (Hlt : sn_mcount (w (sc_id sec)) + 1 < 2 ^ 16)
        by (change (2 ^ 16) with 65536 in *; lia).
      rewrite N.mod_small by exact Hlt.
      destruct (N.eqb_spec (sn_mcount (w (sc_id sec)) + 1) 0); [lia|].
      unfold truth. destruct (N.eqb_spec (sn_mcount (w (sc_id sec)) + 1 - 1) 0); [lia|]. cbn [negb].
      eexists. reflexivity.
  - rewrite Hw. unfold truth. cbn [N.eqb negb].
    destruct m as [mp|e|ub].
    + destruct (Hok mp eq_refl) as [Hst Hcv].
      cbn [set_mapped sn_mcount]. rewrite Hw. cbn [N.eqb].
      intros [= <- <-]. left. split; [reflexivity|]. split.
      { exists mp. unfold wset. rewrite Nat.eqb_refl. cbn [set_mcount set_mapped sn_mapped]. tauto. }
      unfold wset at 1. rewrite Nat.eqb_refl.
      unfold pt_section_unmap, alive.
      cbn [set_mcount set_mapped sn_freed sn_mcount sn_mapped]. rewrite Hf. cbn.
      eexists. reflexivity.
    + intros [= <- <-]. right; right. exists e. tauto.
    + exfalso. apply (Hno ub). reflexivity.
Qed.

Lemma msec_read_spec e mp (fl : file) size x : wf e -> ecovers e x -> 0 < size < 2 ^ 16 ->
  starts mp = sc_offset (en_sec e) -> covers mp (sc_size (en_sec e)) ->
  sc_offset (en_sec e) + sc_size (en_sec e) <= fsize fl < 2 ^ 63 ->
  pt_msec_read (en_msec e) (Some mp) fl size x
  = Ok (file_bytes fl (sc_offset (en_sec e) + (x - ad_vaddr (origin e)))
                   (N.min size (eend e - x))).
Proof.
  intros He Hx Hs Hst Hcv Hfs. pose proof (unmap_origin e x He Hx) as Hun.
  destruct He as [H1 H2 H3]. unfold ecovers in Hx. unfold pt_msec_read.
  unfold pt_msec_begin, pt_msec_end.
  replace (add64 (ms_vaddr (en_msec e)) (ms_size (en_msec e))) with (eend e)
    by (unfold add64, eend; lia).
  change (ms_vaddr (en_msec e) + ms_size (en_msec e)) with (eend e) in *.
  destruct (_ || _) eqn:E; [lia|]. clear E.
  match goal with |- pt_section_read _ _ _ ?n _ = _ => assert (En : n = N.min size (eend e - x)) end.
  { change (2 ^ 64) with 18446744073709551616 in *. change (2 ^ 16) with 65536 in *.
    assert (Hlt : N.min size (eend e - x) < 65536) by lia.
    assert (Ee : (if eend e <? (if add64 x size <? x then 18446744073709551616 - 1 else add64 x size)
                  then eend e else if add64 x size <? x then 18446744073709551616 - 1 else add64 x size)
                 = x + N.min size (eend e - x)).
    { unfold add64. change (2 ^ 64) with 18446744073709551616.
      destruct (N.lt_ge_cases (x + size) 18446744073709551616) as [Hl|Hl].
      - rewrite N.mod_small by exact Hl.
        destruct (N.ltb_spec (x + size) x); [lia|].
        destruct (N.ltb_spec (eend e) (x + size)); lia.
      - assert (Hmod : (x + size) mod 18446744073709551616 = x + size - 18446744073709551616).
        { lia. }
        rewrite Hmod. destruct (N.ltb_spec (x + size - 18446744073709551616) x); [|lia].
        destruct (N.ltb_spec (eend e) (18446744073709551616 - 1)); lia. }
    rewrite Ee. unfold u16, trunc, sub64. change (2 ^ 64) with 18446744073709551616.
    change (2 ^ 16) with 65536.
    replace ((x + N.min size (eend e - x) + (18446744073709551616 - x mod 18446744073709551616))
             mod 18446744073709551616) with (N.min size (eend e - x)) by lia.
    apply N.mod_small. exact Hlt. }
  rewrite En, Hun. clear En.
  fold (en_sec e).
  assert (Hmin : N.min size (eend e - x) < 2 ^ 16) by (change (2 ^ 16) with 65536 in *; lia).
  rewrite (section_read_spec (en_sec e) mp fl); [|exact Hst|exact Hcv|lia|lia|exact Hmin].
  assert (Hv : ad_vaddr (origin e) = ms_vaddr (en_msec e) - ms_offset (en_msec e)) by reflexivity.
  unfold eend in *.
  destruct (N.leb_spec (sc_size (en_sec e)) (x - ad_vaddr (origin e))); [lia|].
  do 2 f_equal. lia.
Qed.

Lemma read_char f h w img cb files map size q x :
  hinv f h (w, img) -> 0 < size < 2 ^ 16 ->
  (forall a, shows h a x -> compatible (ad_asid a) q ->
     mapped_well w (ad_sec a) /\
     sc_offset (ad_sec a) + sc_size (ad_sec a) <= fsize (files (sc_name (ad_sec a))) < 2 ^ 63 /\
     (exists fs page u mm mem, sc_offset (ad_sec a) + sc_size (ad_sec a) <= fs < 2 ^ 63 /\
        map (ad_sec a) = map_file (ad_sec a) fs page u mm mem)) ->
  let r := snd (istep (w, img) (IRead cb files map size q x)) in
  (exists a, shows h a x /\ compatible (ad_asid a) q /\
    ((exists n, 0 < n <= size /\ (forall i, i < n -> shows h a (x + i)) /\
        (n = size \/ x + n = ad_vaddr a + sc_size (ad_sec a) \/ begins h (x + n)) /\
        r = ABytes (Ok (ad_isid a, file_bytes (files (sc_name (ad_sec a)))
                                     (sc_offset (ad_sec a) + (x - ad_vaddr a)) n))) \/
     (sn_mcount (w (sc_id (ad_sec a))) = 65535 /\ r = ABytes (Err pte_overflow)) \/
     (exists e, map (ad_sec a) = Err e /\ r = ABytes (Err e)))) \/
  ((forall a, compatible (ad_asid a) q -> ~ shows h a x) /\
   r = ABytes (match cb with
               | None => Err pte_nomap
               | Some c => let* bytes := c size q x in Ok (0, bytes)
               end)).
Proof.
  intros H Hs Hm r. revert r. cbn [istep]. unfold pt_image_read.
  pose proof (fetch_spec img q x (hi_wf _ _ _ H)) as F.
  destruct (pt_image_fetch_section img q x) as [img1 [e|e|u]]; [| |destruct F].
  2:{ destruct F as (-> & -> & Hn). right. split; [|destruct cb; reflexivity].
      intros a Hc Ha. apply (Hn a Hc). apply (hi_facts _ _ _ H). exact Ha. }
  left. destruct F as (P & Hin & Hx & Hc & _).
  assert (Ha : shows h (origin e) x) by (apply (hi_facts _ _ _ H); exists e; tauto).
  destruct (Hm (origin e) Ha Hc) as (Hm1 & Hm2 & Hm3).
  exists (origin e). split; [exact Ha|]. split; [exact Hc|].
  assert (He : wf e) by (pose proof (hi_wf _ _ _ H) as G; rewrite Forall_forall in G; apply G, Hin).
  pose proof (hi_ends _ _ _ H) as Hends. unfold ends in Hends. rewrite Forall_forall in Hends.
  specialize (Hends e Hin). cbv beta in Hends.
  change (ad_sec (origin e)) with (en_sec e) in *.
  destruct (free_alive _ _ _ _ (hi_owned _ _ _ H) Hin) as [Hf _]. cbn [fst] in Hf.
  destruct (on_section w (en_id e) _) as [w1 r1] eqn:E1.
  destruct (map_unmap _ _ _ _ _ Hf Hm1 Hm3 E1) as [(-> & (mp & Emp & Hst & Hcv) & w2 & E2)
                                                   |[(-> & Ho)|(x1 & Hmap & ->)]].
  - left. change (sc_id (en_sec e)) with (en_id e) in E2, Emp. rewrite E2, Emp.
    rewrite (msec_read_spec e mp _ size x He Hx Hs Hst Hcv Hm2). cbn [snd].
    exists (N.min size (eend e - x)). unfold ecovers in Hx. unfold eend in *.
    split; [lia|]. split; [|split; [|reflexivity]].
    + intros i Hi. apply (hi_facts _ _ _ H). exists e. cbn [snd]. split; [exact Hin|].
      split; [reflexivity|]. unfold ecovers. lia.
    + destruct (N.le_gt_cases size (ms_vaddr (en_msec e) + ms_size (en_msec e) - x)); [left; lia|].
      right.
      replace (x + N.min size (ms_vaddr (en_msec e) + ms_size (en_msec e) - x))
        with (ms_vaddr (en_msec e) + ms_size (en_msec e)) by lia. exact Hends.
  - right; left. split; [exact Ho|reflexivity].
  - right; right. exists x1. split; [exact Hmap|reflexivity].
Qed.

(** *** Comparing two images *)

Lemma same_lookup f1 h1 s1 f2 h2 s2 q x : specific q ->
  hcore f1 h1 s1 -> hcore f2 h2 s2 ->
  (forall a, compatible (ad_asid a) q -> shows h1 a x <-> shows h2 a x) ->
  (forall a, shows h1 a x ->
     f2 (sc_id (ad_sec a)) + pieces (snd s2) (sc_id (ad_sec a))
     <= f1 (sc_id (ad_sec a)) + pieces (snd s1) (sc_id (ad_sec a))) ->
  lookup_at s2 q x = lookup_at s1 q x \/ lookup_at s1 q x = Some (Err pte_overflow).
Proof.
  intros Hq H1 H2 Hs Hle.
  destruct (find_char _ _ _ q x H1) as [(a & A1 & A2 & [[A3 A4]|(_ & _ & A3)])|[A1 A2]].
  - rewrite A4. destruct (find_char _ _ _ q x H2) as [(b & B1 & B2 & B3)|[B1 _]].
    + assert (a = b).
      { apply (shows_unique h2 a b x); [apply Hs; assumption|exact B1|].
        apply (specific_compat q); assumption. }
      subst b. destruct B3 as [[_ B3]|(_ & B3 & _)]; [left; exact B3|].
      specialize (Hle a A1). change (2 ^ 16) with 65536 in *. lia.
    + exfalso. apply (B1 a A2). apply Hs; assumption.
  - right. exact A3.
  - rewrite A2. destruct (find_char _ _ _ q x H2) as [(b & B1 & B2 & _)|[_ B2]].
    + exfalso. apply (A1 b B2). apply Hs; assumption.
    + left. exact B2.
Qed.

(** *** Copying *)


Lemma classic_range b n x : (b <= x < b + n) \/ ~ (b <= x < b + n).
Proof. lia. Qed.

Lemma copy_spec src : forall f w mems dst w' dst',
  owned f w dst -> Forall wf dst ->
  Forall (fun e => 0 < f (en_id e) /\ whole e /\ wf e) src ->
  (forall e o x, In e src -> facts dst o x \/ facts src o x ->
     compatible (ad_asid o) (ms_asid (en_msec e)) -> ecovers e x -> o = origin e) ->
  pt_image_copy w mems dst src = (w', dst', Ok 0) ->
  owned f w' dst' /\ Forall wf dst' /\
  forall o x, facts dst' o x <-> facts dst o x \/ facts src o x.
Proof.
  induction src as [|e src IH]; intros f w mems dst w' dst' Ho Hwf Hsrc Hcon; cbn [pt_image_copy].
  - intros [= <- <-]. split; [exact Ho|]. split; [exact Hwf|]. intros o x. rewrite facts_nil. tauto.
  - destruct (match mems with [] => ([], []) | m :: ms => (m, ms) end) as [mem mems'].
    inversion Hsrc as [|? ? (Hf & Hw & He) Hsrc']; subst.
    destruct (pt_image_add w mem dst (en_sec e) (ms_asid (en_msec e)) (ms_vaddr (en_msec e))
                (en_isid e)) as [[w1 dst1] r1] eqn:E1.
    pose proof (image_add_spec f _ _ _ _ _ _ _ _ _ _ Ho Hf E1) as G.
    destruct r1 as [u|x|u].
    2:{ destruct (pt_image_copy w1 mems' dst1 src) as [[w2 dst2] [n| |]]; cbn [bind];
        intros [= _ _ Hn]; lia. }
    2:{ discriminate. }
    destruct G as (G1 & G2 & _). destruct He as [He1 He2 He3], Hw as [Hw1 Hw2].
    fold (en_sec e) in Hw2.
    destruct (G2 Hwf) as [G3 G4]; [rewrite <- Hw2; exact He2|].
    assert (Horig : mk_added (en_sec e) (ms_asid (en_msec e)) (ms_vaddr (en_msec e)) (en_isid e)
                    = origin e).
    { unfold origin. rewrite Hw1, N.sub_0_r. reflexivity. }
    rewrite Horig in G4.
    assert (G5 : forall o x, facts dst1 o x <-> facts dst o x \/ (origin e = o /\ ecovers e x)).
    { intros o x. rewrite G4. unfold contains, ecovers. rewrite Hw2.
      assert (Hor : ad_vaddr (origin e) = ms_vaddr (en_msec e)) by (cbn; rewrite Hw1; lia).
      split.
      - intros [[-> Hx]|[Hd _]]; [right; rewrite Hor in Hx; split; [reflexivity|exact Hx]|left; exact Hd].
      - intros [Hd|[<- Hx]].
        + destruct (classic_range (ms_vaddr (en_msec e)) (sc_size (en_sec e)) x) as [Hr|Hr].
          * destruct (pt_asid_match (ad_asid o) (ms_asid (en_msec e))) eqn:Em.
            -- left. apply match_compat in Em.
               assert (o = origin e).
               { apply (Hcon e o x); [left; reflexivity|left; exact Hd|exact Em|].
                 unfold ecovers. rewrite Hw2. exact Hr. }
               subst o. split; [reflexivity|]. rewrite Hor. exact Hr.
            -- right. split; [exact Hd|]. intros [Hc _]. apply match_compat in Hc. congruence.
          * right. split; [exact Hd|]. tauto.
        + left. split; [reflexivity|]. rewrite Hor. exact Hx. }
    intros E2. destruct (IH f w1 mems' dst1 w' dst' G1 G3 Hsrc') as (K1 & K2 & K3); [|exact E2|].
    { intros e' o x Hin Hd. apply (Hcon e' o x); [right; exact Hin|].
      rewrite facts_cons. rewrite G5 in Hd. tauto. }
    split; [exact K1|]. split; [exact K2|]. intros o x. rewrite K3, G5, facts_cons. tauto.
Qed.
