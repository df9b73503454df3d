(** Lemmas about the image and the section cache of a decoder. *)

From Verif Require Import Base M_asid M_section M_insndec M_blk M_image M_imgdec S_config S_image S_insn S_drive S_blk
  S_imgdec L_config L_section L_image L_imgref L_imghist L_imgfind L_imguniq.
From Coq Require Import List NArith ZArith Bool Lia ZifyBool ZifyNat ZifyN Permutation PeanoNat.
Import ListNotations.
Open Scope N_scope.

(** ** One section *)

Definition good (s : section) (m : mapping) : Prop :=
  exists fs page u mm mem, sc_offset s + sc_size s <= fs < 2 ^ 63 /\ map_file s fs page u mm mem = Ok m.
Lemma good_map s m : good s m -> L_section.starts m = sc_offset s /\ L_section.covers m (sc_size s).
Proof. intros (fs & page & u & mm & mem & H & E). eapply map_file_ok; [apply H|apply H|exact E]. Qed.

(** The world [w'] differs in section [id] only, which has the given counts. *)
Record differs (w w' : world) (id : nat) (u m : N) (mp : option mapping) : Prop := {
  df_other : forall j, j <> id -> w' j = w j;
  df_freed : sn_freed (w' id) = sn_freed (w id);
  df_ucount : sn_ucount (w' id) = u;
  df_mcount : sn_mcount (w' id) = m;
  df_mapped : sn_mapped (w' id) = mp }.

Lemma wset_at w id s : wset w id s id = s.
Proof. unfold wset. rewrite Nat.eqb_refl. reflexivity. Qed.
Lemma wset_ne w id s j : j <> id -> wset w id s j = w j.
Proof. unfold wset. intros H. destruct (Nat.eqb_spec j id); [congruence|reflexivity]. Qed.

Lemma get_on w id : sn_freed (w id) = false -> sn_ucount (w id) < 65535 ->
  exists w', on_section w id pt_section_get = (w', Ok tt) /\
    differs w w' id (sn_ucount (w id) + 1) (sn_mcount (w id)) (sn_mapped (w id)).
Proof.
  intros Hf Hu. unfold on_section, pt_section_get, alive. rewrite Hf.
  unfold u16, trunc. change (2 ^ 16) with 65536. rewrite N.mod_small by lia.
  destruct (N.eqb_spec (sn_ucount (w id) + 1) 0); [lia|]. eexists. split; [reflexivity|].
  split; [intros j Hj; apply wset_ne; exact Hj|..]; rewrite wset_at; reflexivity.
Qed.
Lemma put_on w id : sn_freed (w id) = false -> 1 < sn_ucount (w id) ->
  exists w', on_section w id pt_section_put = (w', Ok tt) /\
    differs w w' id (sn_ucount (w id) - 1) (sn_mcount (w id)) (sn_mapped (w id)).
Proof.
  intros Hf Hu. unfold on_section, pt_section_put, alive. rewrite Hf.
  destruct (N.ltb_spec 1 (sn_ucount (w id))); [|lia]. eexists. split; [reflexivity|].
  split; [intros j Hj; apply wset_ne; exact Hj|..]; rewrite wset_at; reflexivity.
Qed.
Lemma map_on w s m : sn_freed (w (sc_id s)) = false -> sn_mcount (w (sc_id s)) < 65535 ->
  mapped_well w s -> good s m ->
  exists w' mp, on_section w (sc_id s) (fun c => pt_section_map_count c (Ok m)) = (w', Ok tt) /\ good s mp /\
    differs w w' (sc_id s) (sn_ucount (w (sc_id s))) (sn_mcount (w (sc_id s)) + 1) (Some mp).
Proof.
  intros Hf Hm Hw Hg. unfold on_section, pt_section_map_count, alive. rewrite Hf. unfold mapped_well in Hw.
  destruct (sn_mapped (w (sc_id s))) as [mp|] eqn:Emp.
  - destruct Hw as (Hc & Hg'). unfold truth. destruct (N.eqb_spec (sn_mcount (w (sc_id s))) 0); [lia|]. cbn [negb].
    unfold u16, trunc. change (2 ^ 16) with 65536. rewrite N.mod_small by lia.
    destruct (N.eqb_spec (sn_mcount (w (sc_id s)) + 1) 0); [lia|].
    eexists. exists mp. split; [reflexivity|]. split; [exact Hg'|].
    split; [intros j Hj; apply wset_ne; exact Hj|..]; rewrite wset_at; try reflexivity. exact Emp.
  - rewrite Hw. unfold truth. cbn [N.eqb negb set_mapped sn_mcount]. rewrite Hw. cbn.
    eexists. exists m. split; [reflexivity|]. split; [exact Hg|].
    split; [intros j Hj; apply wset_ne; exact Hj|..]; rewrite wset_at; reflexivity.
Qed.
Lemma unmap_on w id mp : sn_freed (w id) = false -> 0 < sn_mcount (w id) -> sn_mapped (w id) = Some mp ->
  exists w', on_section w id pt_section_unmap = (w', Ok tt) /\
    differs w w' id (sn_ucount (w id)) (sn_mcount (w id) - 1) (if sn_mcount (w id) - 1 =? 0 then None else Some mp).
Proof.
  intros Hf Hm Em. unfold on_section, pt_section_unmap, alive. rewrite Hf.
  destruct (N.eqb_spec (sn_mcount (w id)) 0); [lia|]. unfold truth.
  destruct (N.eqb_spec (sn_mcount (w id) - 1) 0) as [E|E]; cbn [negb set_mcount sn_mapped].
  - rewrite Em. eexists. split; [reflexivity|].
    split; [intros j Hj; apply wset_ne; exact Hj|..]; rewrite wset_at; reflexivity.
  - eexists. split; [reflexivity|].
    split; [intros j Hj; apply wset_ne; exact Hj|..]; rewrite wset_at; try reflexivity. exact Em.
Qed.

Lemma well_other w w' id u m mp s : differs w w' id u m mp -> sc_id s <> id -> mapped_well w s -> mapped_well w' s.
Proof. intros D Hn. unfold mapped_well. rewrite (df_other _ _ _ _ _ _ D _ Hn). tauto. Qed.

Lemma compat_refl a : compatible a a.
Proof. split; left; reflexivity. Qed.

(** ** The decoder *)

Section DEC.
  Context (files : N -> file) (map : section -> res mapping) (cb : option readmem).
  Context (h : history) (w0 : world) (img0 : image) (mem : asid -> memory).
  Hypothesis Wf : Forall wf img0.
  Hypothesis Fa : forall a x, facts img0 a x <-> shows h a x.
  Hypothesis Sep : separate img0.
  Hypothesis Own : forall e, In e img0 -> sn_freed (w0 (en_id e)) = false /\ 1 <= sn_ucount (w0 (en_id e)).
  Hypothesis U : usable files map h w0.
  Hypothesis Mo : memory_of files cb h mem.

  (** *** The section at an address *)
  Definition entry_at (a : asid) (x : N) : option entry :=
    find (fun e => pt_image_check_msec (en_msec e) a x) img0.

  Lemma wf_in e : In e img0 -> wf e.
  Proof. intros H. rewrite Forall_forall in Wf. apply Wf, H. Qed.
  Lemma shown_in e x : In e img0 -> ecovers e x -> shows h (origin e) x.
  Proof. intros H Hx. apply Fa. exists e. auto. Qed.

  Lemma entry_some a x e : entry_at a x = Some e ->
    In e img0 /\ ecovers e x /\ compatible (ms_asid (en_msec e)) a.
  Proof.
    unfold entry_at. intros H. apply find_some in H. destruct H as [Hin H].
    apply check_msec in H; [|apply wf_in; exact Hin]. tauto.
  Qed.
  Lemma entry_unique a x e : In e img0 -> ecovers e x -> compatible (ms_asid (en_msec e)) a ->
    entry_at a x = Some e.
  Proof.
    intros Hin Hx Hc. destruct (entry_at a x) as [e'|] eqn:E.
    - apply entry_some in E. destruct E as (Hin' & Hx' & Hc'). f_equal.
      pose proof (us_alone _ _ _ _ U _ _ x (shown_in e x Hin Hx) (shown_in e' x Hin' Hx')) as Ho.
      apply (Sep e' e x); try assumption.
      assert (Ea : ms_asid (en_msec e) = ms_asid (en_msec e')) by exact (f_equal ad_asid Ho).
      rewrite Ea. apply compat_refl.
    - exfalso. unfold entry_at in E. pose proof (find_none _ _ E e Hin) as K. cbv beta in K.
      rewrite (proj2 (check_msec e a x (wf_in e Hin))) in K; [discriminate|auto].
  Qed.
  Lemma entry_none a x : entry_at a x = None -> forall s, compatible (ad_asid s) a -> ~ shows h s x.
  Proof.
    intros E s Hc Hs. apply Fa in Hs. destruct Hs as (e & Hin & <- & Hx).
    rewrite (entry_unique a x e Hin Hx Hc) in E. discriminate.
  Qed.

  (** What looking up gives: *)
  Definition found (a : asid) (x : N) : res (N * msec) :=
    match entry_at a x with
    | Some e => Ok (en_isid e, en_msec e)
    | None => Err pte_nomap
    end.
  (** and reading. *)
  Definition content_at (e : entry) (x size : N) : list N :=
    file_bytes (files (sc_name (en_sec e))) (sc_offset (en_sec e) + (x - ad_vaddr (origin e)))
               (N.min size (eend e - x)).
  Definition reading (a : asid) (x : N) (size : N) : res (N * list N) :=
    match entry_at a x with
    | Some e => Ok (en_isid e, content_at e x size)
    | None => pt_image_read_callback cb size a x
    end.

  (** *** States *)

  Definition one (c : msec_cache) (id : nat) : N :=
    match mc_msec c with
    | Some m => if Nat.eqb (sc_id (ms_sec m)) id then 1 else 0
    | None => 0
    end.
  Record inv (s : lib) : Prop := {
    iv_perm : Permutation (lb_image s) img0;
    iv_cnt : forall id, sn_freed (lb_world s id) = sn_freed (w0 id) /\
      sn_ucount (lb_world s id) = sn_ucount (w0 id) + one (lb_cache s) id /\
      sn_mcount (lb_world s id) = sn_mcount (w0 id) + one (lb_cache s) id;
    iv_mapped : forall a x, shows h a x -> mapped_well (lb_world s) (ad_sec a);
    iv_cache : forall m, mc_msec (lb_cache s) = Some m ->
      exists e x, In e img0 /\ ecovers e x /\ en_msec e = m /\ en_isid e = mc_isid (lb_cache s) }.
  Definition allowed (s : lib) (a : asid) : Prop :=
    inv s /\ forall m, mc_msec (lb_cache s) = Some m -> compatible (ms_asid m) a.

  Lemma one_le c id : one c id <= 1.
  Proof. unfold one. destruct (mc_msec c) as [m|]; [destruct (Nat.eqb _ _)|]; clear; lia. Qed.

  Lemma fetch_at s a x : inv s ->
    match entry_at a x with
    | Some e => exists rest, pt_image_fetch_section (lb_image s) a x = (e :: rest, Ok e) /\
                             Permutation (e :: rest) img0
    | None => pt_image_fetch_section (lb_image s) a x = (lb_image s, Err pte_nomap)
    end.
  Proof.
    intros I. assert (Wi : Forall wf (lb_image s)).
    { eapply Permutation_Forall; [symmetry; apply (iv_perm _ I)|exact Wf]. }
    pose proof (fetch_spec (lb_image s) a x Wi) as F.
    destruct (pt_image_fetch_section (lb_image s) a x) as [img [e|e|u]]; [| |destruct F].
    - destruct F as (P & Hin & Hx & Hc & rest & ->).
      rewrite (entry_unique a x e); [|eapply Permutation_in; [apply (iv_perm _ I)|exact Hin]|exact Hx|exact Hc].
      exists rest. split; [reflexivity|]. etransitivity; [exact P|apply (iv_perm _ I)].
    - destruct F as (-> & -> & Hn). destruct (entry_at a x) as [e|] eqn:E; [|reflexivity].
      apply entry_some in E. destruct E as (Hin & Hx & Hc). exfalso. apply (Hn (origin e) Hc).
      exists e. split; [|auto]. eapply Permutation_in; [symmetry; apply (iv_perm _ I)|exact Hin].
  Qed.

  Lemma map_good e x : In e img0 -> ecovers e x -> exists m, map (en_sec e) = Ok m /\ good (en_sec e) m.
  Proof.
    intros Hin Hx. destruct (us_map _ _ _ _ U _ x (shown_in e x Hin Hx))
      as (m & fs & page & u & mm & mem' & H1 & H2 & H3).
    exists m. split; [exact H3|]. exists fs, page, u, mm, mem'. auto.
  Qed.

  Lemma content_ok e x n mp : In e img0 -> ecovers e x -> good (en_sec e) mp -> n < 2 ^ 16 ->
    pt_msec_read (en_msec e) (Some mp) (files (sc_name (en_sec e))) n x = Ok (content_at e x n).
  Proof.
    intros Hin Hx Hg Hn. destruct (good_map _ _ Hg) as [G1 G2].
    pose proof (us_file _ _ _ _ U _ x (shown_in e x Hin Hx)) as [F _]. cbn [ad_sec origin] in F.
    change (ms_sec (en_msec e)) with (en_sec e) in F.
    destruct (N.eq_dec n 0) as [->|Hn0].
    - destruct (wf_in e Hin) as [W1 W2 W3]. unfold pt_msec_read.
      rewrite (unmap_origin e x (wf_in e Hin) Hx).
      assert (Eb : pt_msec_begin (en_msec e) = ms_vaddr (en_msec e)) by reflexivity.
      assert (Ed : pt_msec_end (en_msec e) = eend e) by (apply N.mod_small; exact W2).
      rewrite Eb, Ed. unfold ecovers, eend in *. unfold add64. rewrite N.add_0_r, (N.mod_small x) by (clear - Hx W2; lia).
      destruct (N.ltb_spec x x) as [K|_]; [clear - K; lia|].
      destruct (N.ltb_spec x (ms_vaddr (en_msec e))) as [K|_]; [clear - K Hx; lia|].
      destruct (N.leb_spec (ms_vaddr (en_msec e) + ms_size (en_msec e)) x) as [K|_]; [clear - K Hx; lia|]. cbn [orb].
      destruct (N.ltb_spec (ms_vaddr (en_msec e) + ms_size (en_msec e)) x) as [K|_]; [clear - K Hx; lia|].
      assert (E0 : u16 (sub64 x x) = 0).
      { unfold sub64. rewrite (N.mod_small x) by (clear - Hx W2; lia).
        replace (x + (2 ^ 64 - x)) with (2 ^ 64) by (clear - Hx W2; lia). reflexivity. }
      rewrite E0. change (ms_sec (en_msec e)) with (en_sec e).
      rewrite section_read_spec; [|exact G1|exact G2|apply F|apply F|reflexivity].
      unfold origin. cbn [ad_vaddr].
      destruct (N.leb_spec (sc_size (en_sec e)) (x - (ms_vaddr (en_msec e) - ms_offset (en_msec e)))) as [K|_];
        [clear - K Hx W1 W3; lia|].
      unfold content_at. rewrite !(N.min_l 0) by (clear; lia). reflexivity.
    - apply msec_read_spec; [apply wf_in; exact Hin|exact Hx|clear - Hn Hn0; lia|exact G1|exact G2|exact F].
  Qed.

  (** A visible section: all sections that share its object are the same section. *)
  Lemma wells w w' e x u m mp : In e img0 -> ecovers e x -> differs w w' (en_id e) u m mp ->
    (match mp with Some p => 0 < m < 2 ^ 16 /\ good (en_sec e) p | None => m = 0 end) ->
    (forall a x, shows h a x -> mapped_well w (ad_sec a)) ->
    forall a x, shows h a x -> mapped_well w' (ad_sec a).
  Proof.
    intros Hin Hx D Hm Hw a y Ha.
    destruct (Nat.eq_dec (sc_id (ad_sec a)) (en_id e)) as [E|E]; [|eapply well_other; eauto].
    rewrite (us_object _ _ _ _ U _ _ _ _ Ha (shown_in e x Hin Hx) E). cbn [ad_sec origin].
    unfold mapped_well. change (sc_id (ms_sec (en_msec e))) with (en_id e).
    rewrite (df_mapped _ _ _ _ _ _ D), (df_mcount _ _ _ _ _ _ D). destruct mp as [p|]; exact Hm.
  Qed.
  Lemma wells_same w w' id u : differs w w' id u (sn_mcount (w id)) (sn_mapped (w id)) ->
    (forall a x, shows h a x -> mapped_well w (ad_sec a)) ->
    forall a x, shows h a x -> mapped_well w' (ad_sec a).
  Proof.
    intros D Hw a x Ha. specialize (Hw a x Ha).
    destruct (Nat.eq_dec (sc_id (ad_sec a)) id) as [E|E]; [|eapply well_other; eauto].
    unfold mapped_well in *. rewrite E in *. rewrite (df_mapped _ _ _ _ _ _ D), (df_mcount _ _ _ _ _ _ D). exact Hw.
  Qed.

  Lemma room_in e x : In e img0 -> ecovers e x ->
    sn_freed (w0 (en_id e)) = false /\ 1 <= sn_ucount (w0 (en_id e)) < 65535 /\ sn_mcount (w0 (en_id e)) < 65534.
  Proof.
    intros Hin Hx. destruct (Own e Hin) as [H1 H2].
    destruct (us_room _ _ _ _ U _ x (shown_in e x Hin Hx)) as [H3 H4].
    change (sc_id (ad_sec (origin e))) with (en_id e) in H3, H4. auto.
  Qed.

  (** *** Reading *)
  Lemma read_ok s a x n : inv s ->
    exists s', image_read files map cb s a x n = (s', reading a x (N.min (N.of_nat n) 65535)) /\ inv s' /\
               lb_cache s' = lb_cache s.
  Proof.
    intros I. unfold image_read, pt_image_read, reading.
    pose proof (fetch_at s a x I) as F. destruct (entry_at a x) as [e|] eqn:Ee.
    2:{ rewrite F. exists s. split; [destruct s; reflexivity|]. split; [exact I|reflexivity]. }
    destruct F as (rest & -> & P). apply entry_some in Ee. destruct Ee as (Hin & Hx & Hc).
    destruct (room_in e x Hin Hx) as (R1 & R2 & R3).
    destruct (iv_cnt _ I (en_id e)) as (C1 & C2 & C3). pose proof (one_le (lb_cache s) (en_id e)) as Ho.
    destruct (map_good e x Hin Hx) as (m & Em & Gm). rewrite Em.
    destruct (map_on (lb_world s) (en_sec e) m) as (w1 & mp & E1 & Gp & D1);
      [change (sc_id (en_sec e)) with (en_id e); congruence
      |change (sc_id (en_sec e)) with (en_id e); clear - C3 R3 Ho; lia
      |exact (iv_mapped _ I _ x (shown_in e x Hin Hx))|exact Gm|].
    change (sc_id (en_sec e)) with (en_id e) in *. rewrite E1.
    rewrite (df_mapped _ _ _ _ _ _ D1).
    rewrite (content_ok e x _ mp Hin Hx Gp) by (clear; lia).
    destruct (unmap_on w1 (en_id e) mp) as (w2 & E2 & D2);
      [rewrite (df_freed _ _ _ _ _ _ D1); congruence|rewrite (df_mcount _ _ _ _ _ _ D1); clear; lia
      |apply (df_mapped _ _ _ _ _ _ D1)|].
    rewrite E2. eexists. split; [reflexivity|]. split; [|reflexivity].
    rewrite (df_mcount _ _ _ _ _ _ D1) in D2.
    replace (sn_mcount (lb_world s (en_id e)) + 1 - 1) with (sn_mcount (lb_world s (en_id e))) in D2 by (clear; lia).
    rewrite (df_ucount _ _ _ _ _ _ D1) in D2.
    split; cbn [lb_image lb_world lb_cache].
    - exact P.
    - intros id. destruct (Nat.eq_dec id (en_id e)) as [->|Hne].
      + rewrite (df_freed _ _ _ _ _ _ D2), (df_freed _ _ _ _ _ _ D1), (df_ucount _ _ _ _ _ _ D2), (df_mcount _ _ _ _ _ _ D2).
        apply (iv_cnt _ I).
      + rewrite (df_other _ _ _ _ _ _ D2 _ Hne), (df_other _ _ _ _ _ _ D1 _ Hne). apply (iv_cnt _ I).
    - apply (wells w1 w2 e x _ _ _ Hin Hx D2).
      + destruct (N.eqb_spec (sn_mcount (lb_world s (en_id e))) 0) as [E|E]; [exact E|].
        split; [clear - E C3 R3 Ho; lia|exact Gp].
      + apply (wells (lb_world s) w1 e x _ _ _ Hin Hx D1).
        * split; [clear - C3 R3 Ho; lia|exact Gp].
        * apply (iv_mapped _ I).
    - apply (iv_cache _ I).
  Qed.

  (** *** The section cache *)
  Lemma forget_ok s : inv s ->
    exists s', msec_forget s = (s', Ok tt) /\ inv s' /\ mc_msec (lb_cache s') = None /\ lb_image s' = lb_image s.
  Proof.
    intros I. unfold msec_forget, pt_msec_cache_invalidate.
    destruct (mc_msec (lb_cache s)) as [m|] eqn:Em.
    2:{ exists s. destruct s as [w i c]. cbn [lb_cache] in *. auto. }
    destruct (iv_cache _ I m Em) as (e & x & Hin & Hx & <- & Hi).
    change (sc_id (ms_sec (en_msec e))) with (en_id e).
    destruct (room_in e x Hin Hx) as (R1 & R2 & R3).
    destruct (iv_cnt _ I (en_id e)) as (C1 & C2 & C3).
    assert (O1 : one (lb_cache s) (en_id e) = 1).
    { unfold one. rewrite Em. change (sc_id (ms_sec (en_msec e))) with (en_id e). rewrite Nat.eqb_refl. reflexivity. }
    rewrite O1 in C2, C3.
    pose proof (iv_mapped _ I _ x (shown_in e x Hin Hx)) as Hw. unfold mapped_well in Hw. cbn [ad_sec origin] in Hw.
    change (sc_id (ms_sec (en_msec e))) with (en_id e) in Hw. change (ms_sec (en_msec e)) with (en_sec e) in Hw.
    destruct (sn_mapped (lb_world s (en_id e))) as [mp|] eqn:Emp; [|exfalso; clear - Hw C3; lia].
    destruct Hw as [Hm Hg].
    destruct (unmap_on (lb_world s) (en_id e) mp) as (w1 & E1 & D1);
      [congruence|clear - C3; lia|exact Emp|]. rewrite E1.
    destruct (put_on w1 (en_id e)) as (w2 & E2 & D2);
      [rewrite (df_freed _ _ _ _ _ _ D1); congruence|rewrite (df_ucount _ _ _ _ _ _ D1); clear - C2 R2; lia|].
    rewrite E2. eexists. split; [reflexivity|]. split; [|auto].
    rewrite (df_ucount _ _ _ _ _ _ D1) in D2.
    split; cbn [lb_image lb_world lb_cache mc_msec].
    - apply (iv_perm _ I).
    - intros id. unfold one. cbn [mc_msec]. destruct (Nat.eq_dec id (en_id e)) as [->|Hne].
      + rewrite (df_freed _ _ _ _ _ _ D2), (df_freed _ _ _ _ _ _ D1), (df_ucount _ _ _ _ _ _ D2), (df_mcount _ _ _ _ _ _ D2),
          (df_mcount _ _ _ _ _ _ D1). split; [exact C1|]. clear - C2 C3; lia.
      + rewrite (df_other _ _ _ _ _ _ D2 _ Hne), (df_other _ _ _ _ _ _ D1 _ Hne).
        pose proof (iv_cnt _ I id) as K. unfold one in K. rewrite Em in K.
        change (sc_id (ms_sec (en_msec e))) with (en_id e) in K.
        destruct (Nat.eqb_spec (en_id e) id); [congruence|]. exact K.
    - apply (wells_same w1 w2 (en_id e) _ D2).
      apply (wells (lb_world s) w1 e x _ _ _ Hin Hx D1); [|apply (iv_mapped _ I)].
      destruct (N.eqb_spec (sn_mcount (lb_world s (en_id e)) - 1) 0) as [E|E]; [exact E|].
      split; [clear - E Hm; lia|exact Hg].
    - discriminate.
  Qed.

  (** Looking up gives the section at the address and its mapping. *)
  Lemma lookup_ok s a x : allowed s a ->
    exists s', msec_lookup map s a x = (s', found a x) /\ allowed s' a /\
      forall isid m, found a x = Ok (isid, m) ->
        exists mp, sn_mapped (lb_world s' (sc_id (ms_sec m))) = Some mp /\ good (ms_sec m) mp.
  Proof.
    intros (I & Hc). unfold msec_lookup, pt_msec_cache_read.
    assert (Fill : exists s',
      (let '(w, c, img, r) := pt_msec_cache_fill (lb_world s) (lb_cache s) (lb_image s) map a x in (mk_lib w img c, r))
        = (s', found a x) /\ allowed s' a /\
      forall isid m, found a x = Ok (isid, m) ->
        exists mp, sn_mapped (lb_world s' (sc_id (ms_sec m))) = Some mp /\ good (ms_sec m) mp).
    { unfold pt_msec_cache_fill. destruct (forget_ok s I) as (s1 & E1 & I1 & N1 & L1). revert E1. unfold msec_forget.
      destruct (pt_msec_cache_invalidate (lb_world s) (lb_cache s)) as [[w1 c1] r1]. intros [= <- ->].
      cbn [lb_cache lb_image] in N1, L1.
      unfold pt_image_find, found. pose proof (fetch_at _ a x I1) as F. cbn [lb_image] in F.
      destruct (entry_at a x) as [e|] eqn:Ee.
      2:{ rewrite F. eexists. split; [reflexivity|]. split; [|discriminate].
          split; [exact I1|]. cbn [lb_cache]. rewrite N1. discriminate. }
      destruct F as (rest & -> & P). pose proof Ee as Ee'. apply entry_some in Ee. destruct Ee as (Hin & Hx & Hcm).
      destruct (room_in e x Hin Hx) as (R1 & R2 & R3).
      destruct (iv_cnt _ I1 (en_id e)) as (C1 & C2 & C3). cbn [lb_world lb_cache] in C1, C2, C3.
      unfold one in C2, C3. rewrite N1 in C2, C3.
      destruct (get_on w1 (en_id e)) as (w2 & E2 & D2); [congruence|clear - C2 R2; lia|]. rewrite E2.
      destruct (map_good e x Hin Hx) as (mm & Em & Gm). rewrite Em.
      assert (W2 : forall a x, shows h a x -> mapped_well w2 (ad_sec a))
        by (apply (wells_same w1 w2 _ _ D2); apply (iv_mapped _ I1)).
      destruct (map_on w2 (en_sec e) mm) as (w3 & mp & E3 & Gp & D3);
        [change (sc_id (en_sec e)) with (en_id e); rewrite (df_freed _ _ _ _ _ _ D2); congruence
        |change (sc_id (en_sec e)) with (en_id e); rewrite (df_mcount _ _ _ _ _ _ D2); clear - C3 R3; lia
        |exact (W2 _ x (shown_in e x Hin Hx))|exact Gm|].
      change (sc_id (en_sec e)) with (en_id e) in *. rewrite E3.
      rewrite (df_ucount _ _ _ _ _ _ D2), (df_mcount _ _ _ _ _ _ D2) in D3.
      eexists. split; [reflexivity|]. split.
      - split; [|cbn [lb_cache mc_msec]; intros m [= <-]; exact Hcm].
        split; cbn [lb_image lb_world lb_cache mc_msec mc_isid].
        + exact P.
        + intros id. unfold one. cbn [mc_msec]. change (sc_id (ms_sec (en_msec e))) with (en_id e).
          destruct (Nat.eqb_spec (en_id e) id) as [<-|Hne].
          * rewrite (df_freed _ _ _ _ _ _ D3), (df_freed _ _ _ _ _ _ D2), (df_ucount _ _ _ _ _ _ D3), (df_mcount _ _ _ _ _ _ D3).
            split; [exact C1|]. clear - C2 C3; lia.
          * rewrite (df_other _ _ _ _ _ _ D3), (df_other _ _ _ _ _ _ D2) by congruence.
            pose proof (iv_cnt _ I1 id) as K. cbn [lb_world lb_cache] in K. unfold one in K. rewrite N1 in K. exact K.
        + apply (wells w2 w3 e x _ _ _ Hin Hx D3); [|exact W2]. split; [clear - C3 R3; lia|exact Gp].
        + intros m [= <-]. exists e, x. auto.
      - intros isid m [= <- <-]. cbn [lb_world]. change (sc_id (ms_sec (en_msec e))) with (en_id e).
        exists mp. split; [apply (df_mapped _ _ _ _ _ _ D3)|exact Gp]. }
    destruct (mc_msec (lb_cache s)) as [m|] eqn:Em; [|exact Fill].
    destruct (iv_cache _ I m Em) as (e & y & Hin & Hy & <- & Hi). specialize (Hc (en_msec e) eq_refl).
    unfold pt_image_validate.
    destruct ((x <? pt_msec_begin (en_msec e)) || (pt_msec_end (en_msec e) <=? x)) eqn:Er; [exact Fill|].
    destruct (lb_image s) as [|e1 img1] eqn:Ei; [exact Fill|].
    destruct (negb (en_isid e1 =? mc_isid (lb_cache s))); [exact Fill|].
    destruct (negb (msec_eqb (en_msec e1) (en_msec e))); [exact Fill|].
    cbn [bind]. exists s.
    assert (Hx : ecovers e x).
    { destruct (wf_in e Hin) as [W1 W2 W3]. revert Er. unfold pt_msec_begin, pt_msec_end, ecovers, add64.
      change (2 ^ 64) with 18446744073709551616 in *. rewrite N.mod_small by (clear - W2; lia). clear. lia. }
    unfold found. rewrite (entry_unique a x e Hin Hx Hc), <- Hi.
    split; [reflexivity|]. split; [split; [exact I|]; rewrite Em; intros m' [= <-]; exact Hc|].
    intros isid m' [= <- <-].
    pose proof (iv_mapped _ I _ x (shown_in e x Hin Hx)) as Hw. unfold mapped_well in Hw. cbn [ad_sec origin] in Hw.
    destruct (sn_mapped (lb_world s (sc_id (ms_sec (en_msec e))))) as [mp|].
    - exists mp. split; [reflexivity|]. apply Hw.
    - exfalso. destruct (iv_cnt _ I (sc_id (ms_sec (en_msec e)))) as (_ & _ & C3).
      unfold one in C3. rewrite Em, Nat.eqb_refl in C3. clear - C3 Hw. lia.
  Qed.

  (** *** What is read is memory *)
  Lemma nth_file_bytes (f : file) pos n k b : nth_error (file_bytes f pos n) k = Some b ->
    nth_error f (N.to_nat pos + k) = Some b /\ (k < N.to_nat n)%nat.
  Proof.
    unfold file_bytes. intros H. assert (Hk : (k < N.to_nat n)%nat).
    { assert (K : (k < length (firstn (N.to_nat n) (skipn (N.to_nat pos) f)))%nat) by (apply nth_error_Some; congruence).
      rewrite firstn_length in K. clear - K. lia. }
    split; [|exact Hk]. revert H Hk. generalize (N.to_nat n) as i, (N.to_nat pos) as p. intros i p. revert k i f.
    induction p as [|p IH]; intros k i f.
    - cbn [skipn Nat.add]. revert i f. induction k as [|k IHk]; intros [|i] [|c f] H Hi; try (clear - Hi; lia); try discriminate H.
      + exact H.
      + apply (IHk i f H). clear - Hi. lia.
    - intros H Hi. destruct f as [|c f]; [cbn [skipn] in H; rewrite firstn_nil in H; destruct k; discriminate H|].
      cbn [skipn Nat.add nth_error] in *. exact (IH k i f H Hi).
  Qed.

  Lemma eend_le e : In e img0 -> eend e <= ad_vaddr (origin e) + sc_size (en_sec e) /\ eend e < 2 ^ 64 /\
    ad_vaddr (origin e) = ms_vaddr (en_msec e) - ms_offset (en_msec e) /\ ms_offset (en_msec e) <= ms_vaddr (en_msec e).
  Proof. intros Hin. destruct (wf_in e Hin) as [W1 W2 W3]. unfold eend, origin. cbn [ad_vaddr]. clear - W1 W2 W3. lia. Qed.

  Lemma content_length e x n : In e img0 -> ecovers e x ->
    N.of_nat (length (content_at e x n)) = N.min n (eend e - x).
  Proof.
    intros Hin Hx. unfold content_at. apply file_bytes_length.
    pose proof (eend_le e Hin) as L.
    destruct (us_file _ _ _ _ U _ x (shown_in e x Hin Hx)) as [F _].
    cbn [ad_sec origin] in F. change (ms_sec (en_msec e)) with (en_sec e) in F.
    unfold ecovers in Hx. unfold eend in *. clear - F L Hx. lia.
  Qed.
  Lemma content_mem e a x n : In e img0 -> ecovers e x -> compatible (ms_asid (en_msec e)) a ->
    bytes_ok (content_at e x n) /\ bytes_at (mem a) x (content_at e x n) /\
    exists b, mem a x = Some (b, en_isid e).
  Proof.
    intros Hin Hx Hc. pose proof (eend_le e Hin) as L.
    destruct (us_file _ _ _ _ U _ x (shown_in e x Hin Hx)) as [_ B]. cbn [ad_sec origin] in B.
    change (ms_sec (en_msec e)) with (en_sec e) in B. split; [|split].
    - unfold content_at. apply Forall_forall. intros b Hb. apply In_nth_error in Hb. destruct Hb as (k & Hk).
      apply nth_file_bytes in Hk. destruct Hk as [Hk _]. apply nth_error_In in Hk.
      unfold bytes_ok in B. rewrite Forall_forall in B. apply B, Hk.
    - intros k b Hk. unfold content_at in Hk. apply nth_file_bytes in Hk. destruct Hk as [Hk Hl].
      unfold ecovers in Hx.
      assert (Hx' : ecovers e (x + N.of_nat k)) by (unfold ecovers, eend in *; clear - Hl Hx; lia).
      destruct (mo_section _ _ _ _ Mo a (origin e) (x + N.of_nat k) (shown_in e _ Hin Hx') Hc) as (b' & B1 & B2).
      assert (Eo : offset_ip x k = x + N.of_nat k).
      { unfold offset_ip. apply N.mod_small. unfold ecovers, eend in *. clear - Hx' L. lia. }
      rewrite Eo, B2. exists (ad_isid (origin e)). do 2 f_equal. revert B1. unfold byte_of. cbn [ad_sec origin].
      change (ms_sec (en_msec e)) with (en_sec e).
      replace (N.to_nat (sc_offset (en_sec e) + (x + N.of_nat k - ad_vaddr (origin e))))
        with (N.to_nat (sc_offset (en_sec e) + (x - ad_vaddr (origin e))) + k)%nat
        by (unfold ecovers, eend in *; clear - L Hx; lia).
      rewrite Hk. congruence.
    - destruct (mo_section _ _ _ _ Mo a (origin e) x (shown_in e _ Hin Hx) Hc) as (b' & B1 & B2).
      exists b'. exact B2.
  Qed.

  (** ** The interface *)
  Context (s0 : lib).
  Hypothesis Start : inv s0.

  Lemma library_shows : image_shows (library_image files map cb s0) mem allowed.
  Proof.
    split.
    - intros a x n Hn. cbn [im_read library_image].
      destruct (read_ok s0 a x n Start) as (s' & -> & _). cbn [snd]. unfold reading.
      destruct (entry_at a x) as [e|] eqn:Ee.
      + apply entry_some in Ee. destruct Ee as (Hin & Hx & Hc).
        destruct (content_mem e a x (N.min (N.of_nat n) 65535) Hin Hx Hc) as (B1 & B2 & b & B3). rewrite B3.
        eexists. split; [reflexivity|]. pose proof (content_length e x (N.min (N.of_nat n) 65535) Hin Hx) as L.
        split; [|auto]. unfold ecovers, eend in *. clear - L Hx Hn. lia.
      + pose proof (mo_other _ _ _ _ Mo a x (entry_none a x Ee)) as K. unfold pt_image_read_callback.
        destruct cb as [c|].
        * specialize (K (N.min (N.of_nat n) 65535) ltac:(clear - Hn; lia)).
          destruct (mem a x) as [[b isid]|]; [|rewrite K; reflexivity].
          destruct K as (-> & l & K1 & K2 & K3 & K4). exists l. rewrite K1. cbn [bind].
          split; [reflexivity|]. split; [clear - K2; lia|auto].
        * rewrite K. reflexivity.
    - intros s a x Hs. cbn [im_lookup library_image im_sread].
      destruct (lookup_ok s a x Hs) as (s' & -> & H1 & H2).
      unfold found in *. destruct (entry_at a x) as [e|] eqn:Ee; [|split; [exact H1|discriminate]].
      apply entry_some in Ee. destruct Ee as (Hin & Hx & Hc). split; [exact H1|].
      destruct (content_mem e a x 15 Hin Hx Hc) as (B1 & B2 & B3). split; [exact B3|].
      destruct (H2 _ _ eq_refl) as (mp & Em & Gm). exists (content_at e x 15).
      unfold view_read, view_of. cbn [fst snd]. rewrite Em.
      change (ms_sec (en_msec e)) with (en_sec e) in *.
      change (N.min (N.of_nat 15) 65535) with 15. rewrite (content_ok e x 15 mp Hin Hx Gm) by (clear; lia).
      split; [reflexivity|]. pose proof (content_length e x 15 Hin Hx) as L.
      split; [|auto]. unfold ecovers, eend in *. clear - L Hx. lia.
    - intros s a (I & _). cbn [im_invalidate library_image].
      destruct (forget_ok s I) as (s' & -> & I' & N' & _). intros a'. split; [exact I'|].
      rewrite N'. discriminate.
  Qed.

  Lemma library_total : image_total (library_image files map cb s0) allowed.
  Proof.
    split.
    - intros s a x e Hs. cbn [im_lookup library_image].
      destruct (lookup_ok s a x Hs) as (s' & -> & _). unfold found.
      destruct (entry_at a x); cbn [snd]; congruence.
    - intros s a e (I & _). cbn [im_invalidate library_image].
      destruct (forget_ok s I) as (s' & -> & _). discriminate.
  Qed.

  (** ** Any use *)

  Definition answer (u : use) : res (N * list N) :=
    match u with
    | Use_read a x n => reading a x (N.min (N.of_nat n) 65535)
    | Use_find a x n =>
        match entry_at a x with
        | Some e => Ok (en_isid e, content_at e x (N.min (N.of_nat n) 65535))
        | None => Err pte_nomap
        end
    | Use_forget => Ok (0, [])
    end.
  Definition fitting (s : lib) (space : option asid) : Prop :=
    inv s /\ match space with Some a => allowed s a | None => mc_msec (lb_cache s) = None end.

  Lemma step_ok s space u us : fitting s space -> proper space (u :: us) ->
    exists s' space', use_step files map cb s u = (s', answer u) /\ fitting s' space' /\ proper space' us /\
      (u = Use_forget -> mc_msec (lb_cache s') = None).
  Proof.
    intros (I & F). destruct u as [a x n|a x n|]; cbn [proper use_step answer].
    - intros P. destruct (read_ok s a x n I) as (s' & E & I' & Ec). exists s', space.
      split; [exact E|]. split; [|split; [exact P|discriminate]].
      split; [exact I'|]. unfold allowed in *. destruct space; rewrite Ec; [|exact F]. split; [exact I'|apply F].
    - intros (Hs & P).
      assert (A : allowed s a).
      { destruct space as [b|]; [rewrite (Hs b eq_refl); exact F|]. split; [exact I|]. rewrite F. discriminate. }
      destruct (lookup_ok s a x A) as (s' & E & A' & Hm). cbn [im_lookup library_image]. rewrite E.
      unfold found in *. destruct (entry_at a x) as [e|] eqn:Ee.
      + apply entry_some in Ee. destruct Ee as (Hin & Hx & Hc). destruct (Hm _ _ eq_refl) as (mp & Em & Gm).
        exists s', (Some a). split; [|split; [split; [apply A'|exact A']|split; [exact P|discriminate]]].
        unfold view_read, view_of. cbn [fst snd]. rewrite Em. change (ms_sec (en_msec e)) with (en_sec e) in *.
        rewrite (content_ok e x _ mp Hin Hx Gm) by (clear; lia). reflexivity.
      + exists s', (Some a). split; [reflexivity|]. split; [split; [apply A'|exact A']|split; [exact P|discriminate]].
    - intros P. destruct (forget_ok s I) as (s' & E & I' & N' & _). exists s', None. rewrite E.
      split; [reflexivity|]. split; [split; [exact I'|exact N']|]. split; [exact P|auto].
  Qed.

  Lemma run_ok us : forall s space u, fitting s space -> proper space (us ++ [u]) ->
    exists s', use_step files map cb (use_run files map cb s us) u = (s', answer u) /\ inv s' /\
      (u = Use_forget -> mc_msec (lb_cache s') = None).
  Proof.
    induction us as [|v us IH]; intros s space u F P.
    - destruct (step_ok s space u [] F P) as (s' & sp & E & F' & _ & Hf). exists s'. cbn [use_run].
      split; [exact E|]. split; [apply F'|exact Hf].
    - destruct (step_ok s space v (us ++ [u]) F P) as (s' & sp & E & F' & P' & _).
      cbn [use_run]. rewrite E. cbn [fst]. eapply IH; eassumption.
  Qed.

  (** ** Blocks *)

  Definition sec_of (k : N) : option entry := find (fun e => (0 <? ms_size (en_msec e)) && (N.of_nat (en_id e) =? k)) img0.
  Definition content_of (k o : N) : option N :=
    match sec_of k with
    | Some e => if o <? sc_size (en_sec e) then nth_error (files (sc_name (en_sec e))) (N.to_nat (sc_offset (en_sec e) + o))
                else None
    | None => None
    end.
  Definition place_at (a : asid) (x : N) : option S_blk.place :=
    match entry_at a x with
    | Some e => Some (mk_place (N.of_nat (en_id e)) (x - ad_vaddr (origin e)) (eend e - x))
    | None => None
    end.

  Lemma places_ok : places_of files h content_of place_at.
  Proof.
    split.
    - intros s x o Hs. pose proof Hs as Hs'. apply Fa in Hs. destruct Hs as (e & Hin & <- & Hx).
      unfold content_of, sec_of. destruct (find _ img0) as [e'|] eqn:Ef.
      + apply find_some in Ef. destruct Ef as [Hin' Ek]. apply andb_prop in Ek. destruct Ek as [Ep Ek].
        apply N.eqb_eq in Ek. apply N.ltb_lt in Ep.
        assert (Hx' : ecovers e' (ms_vaddr (en_msec e'))) by (unfold ecovers; clear - Ep; lia).
        assert (Es : en_sec e' = en_sec e).
        { apply (us_object _ _ _ _ U (origin e') (origin e) (ms_vaddr (en_msec e')) x); [apply shown_in; assumption..|].
          cbn [ad_sec origin]. cbn [ad_sec origin] in Ek. change (sc_id (ms_sec (en_msec e'))) with (en_id e').
          apply Nat2N.inj. exact Ek. }
        rewrite Es. reflexivity.
      + exfalso. pose proof (find_none _ _ Ef e Hin) as K. cbn beta in K.
        cbn [ad_sec origin] in K. change (sc_id (ms_sec (en_msec e))) with (en_id e) in K. rewrite N.eqb_refl in K.
        unfold ecovers in Hx. destruct (N.ltb_spec 0 (ms_size (en_msec e))); [discriminate|]. clear - Hx H. lia.
    - intros a x. unfold place_at. destruct (entry_at a x) as [e|] eqn:Ee; [|apply entry_none; exact Ee].
      apply entry_some in Ee. destruct Ee as (Hin & Hx & Hc). exists (origin e).
      split; [apply shown_in; assumption|]. split; [exact Hc|]. split; [reflexivity|]. split; [reflexivity|].
      cbn [pl_left]. split; [unfold ecovers, eend in *; clear - Hx; lia|].
      intros y Hy. apply shown_in; [exact Hin|]. unfold ecovers, eend in *; clear - Hx Hy; lia.
  Qed.

  Lemma blocks_ok size_of alloc kept mode_of :
    (forall k, snd (alloc k) <> Err pte_eos /\ forall u, snd (alloc k) <> UB u) ->
    (forall s x, shows h s x -> size_of (sc_id (ad_sec s)) = sc_size (ad_sec s)) ->
    blocks_show (library_blocks files map cb size_of alloc kept s0) mem allowed content_of place_at mode_of.
  Proof.
    intros Ha Hz. split.
    - exact library_shows.
    - intros s a x s' isid v Hs. cbn [library_blocks bi_image im_lookup library_image].
      destruct (lookup_ok s a x Hs) as (s1 & -> & A1 & Hm). unfold found in *.
      destruct (entry_at a x) as [e|] eqn:Ee; [|discriminate]. intros [= <- <- <-].
      destruct (Hm _ _ eq_refl) as (mp & Em & Gm). change (ms_sec (en_msec e)) with (en_sec e) in *.
      apply entry_some in Ee. destruct Ee as (Hin & Hx & Hc). pose proof (eend_le e Hin) as L.
      destruct (us_file _ _ _ _ U _ x (shown_in e x Hin Hx)) as [Fs _]. cbn [ad_sec origin] in Fs.
      change (ms_sec (en_msec e)) with (en_sec e) in Fs.
      unfold window. cbn [library_blocks bi_begin bi_end bi_offset bi_key bi_image im_sread library_image view_of fst].
      assert (Eb : pt_msec_begin (en_msec e) = ms_vaddr (en_msec e)) by reflexivity.
      assert (Ed : pt_msec_end (en_msec e) = eend e).
      { unfold pt_msec_end, add64, eend in *. apply N.mod_small. apply L. }
      rewrite Eb, Ed. split; [unfold ecovers, eend in *; exact Hx|]. split; [clear - L; lia|].
      destruct (wf_in e Hin) as [W1 W2 W3].
      split; [unfold eend in *; clear - L W1 W3 Fs; lia|].
      intros y Hy. assert (Hy' : ecovers e y) by (unfold ecovers, eend in *; exact Hy).
      assert (Eu : M_blk.pt_msec_unmap (library_blocks files map cb size_of alloc kept s0) (view_of s1 (en_msec e)) y
                   = y - ad_vaddr (origin e)).
      { rewrite <- (unmap_origin e y (wf_in e Hin) Hy'). reflexivity. }
      rewrite Eu. unfold place_at. rewrite (entry_unique a y e Hin Hy' Hc). split; [reflexivity|].
      destruct (content_mem e a y 15 Hin Hy' Hc) as (B1 & B2 & _). split.
      + destruct (mo_section _ _ _ _ Mo a (origin e) y (shown_in e _ Hin Hy') Hc) as (b & K1 & K2).
        exists b. split; [|exact K2]. change (sc_id (en_sec e)) with (sc_id (ad_sec (origin e))).
        rewrite (pc_content _ _ _ _ places_ok _ y _ (shown_in e y Hin Hy')).
        assert (Ho : y - ad_vaddr (origin e) < sc_size (ad_sec (origin e))).
        { cbn [ad_sec origin]. change (ms_sec (en_msec e)) with (en_sec e).
          unfold ecovers, eend in *. clear - Hy' L W1 W3. lia. }
        apply N.ltb_lt in Ho. rewrite Ho. exact K1.
      + exists (content_at e y 15). unfold view_read. cbn [view_of fst snd].
        change (ms_sec (en_msec e)) with (en_sec e). rewrite Em. change (N.min (N.of_nat 15) 65535) with 15.
        rewrite (content_ok e y 15 mp Hin Hy' Gm) by (clear; lia). split; [reflexivity|].
        pose proof (content_length e y 15 Hin Hy') as Ll. unfold ecovers, eend in *.
        split; [clear - Ll Hy; lia|]. split; [exact B1|]. split; [exact B2|]. clear - Ll Hy. lia.
    - intros a x p n isid l. unfold place_at. cbn [library_blocks bi_image im_read library_image].
      destruct (entry_at a x) as [e|] eqn:Ee; [|discriminate]. intros [= <-].
      destruct (read_ok s0 a x n Start) as (s' & -> & _). cbn [snd].
      unfold reading. rewrite Ee. intros [= <- <-]. apply entry_some in Ee. destruct Ee as (Hin & Hx & Hc).
      rewrite content_length by assumption. cbn [pl_left]. clear. lia.
    - intros k o b. unfold content_of, sec_of. destruct (find _ img0) as [e|] eqn:Ef; [|discriminate].
      apply find_some in Ef. destruct Ef as [Hin Ek]. apply andb_prop in Ek. destruct Ek as [Ep Ek].
      apply N.eqb_eq in Ek. apply N.ltb_lt in Ep.
      destruct (N.ltb_spec o (sc_size (en_sec e))) as [L|L]; [|discriminate]. intros _.
      cbn [library_blocks bi_size]. subst k. rewrite Nat2N.id.
      assert (Hx : ecovers e (ms_vaddr (en_msec e))) by (unfold ecovers; clear - Ep; lia).
      pose proof (Hz (origin e) _ (shown_in e _ Hin Hx)) as K. cbn [ad_sec origin] in K.
      change (sc_id (ms_sec (en_msec e))) with (en_id e) in K. rewrite K. exact L.
    - exact Ha.
    - intros c cs a H1 H2. cbn. auto.
  Qed.
End DEC.
