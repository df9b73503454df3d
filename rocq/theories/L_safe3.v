(** Lemmas for C68: the library's image is tame. *)

From Coq Require Import List NArith ZArith Bool PeanoNat Lia Permutation.
From Verif Require Import Base M_section M_blk M_image M_imgdec M_asid M_insndec S_core S_image S_config S_imgdec S_safe L_section L_image L_imgref
  L_imghist L_imgfind L_imguniq L_imgdec.
Import ListNotations.
Open Scope N_scope.

Section LIBRARY.
  Context (files : N -> file) (map : section -> res mapping) (cb : option readmem).
  Context (h : history) (w0 : world) (img0 : image).
  Hypothesis Wf : Forall wf img0.
  Hypothesis Fa : forall a x, facts img0 a x <-> shows h a x.
  Hypothesis Sep : separate img0.
  Hypothesis Own : forall e, In e img0 -> sn_freed (w0 (en_id e)) = false /\ 1 <= sn_ucount (w0 (en_id e)).
  Hypothesis U : usable files map h w0.
  Hypothesis Cb : forall c n a x, cb = Some c -> (n <= 15)%nat -> given (c (N.of_nat n) a x) (fun l => l) n.
  Notation inv := (L_imgdec.inv h w0 img0).
  Notation entry := M_image.entry.

  Definition sec (v : view) : Prop := exists (e : entry) x mp,
    In e img0 /\ ecovers e x /\ v = (en_msec e, Some mp) /\ good (en_sec e) mp.

  Lemma content_bytes (e : entry) x n : In e img0 -> ecovers e x -> bytes_ok (content_at files e x n).
  Proof.
    intros Hin Hx. destruct (us_file _ _ _ _ U _ x (shown_in h img0 Fa e x Hin Hx)) as [_ B].
    change (ad_sec (origin e)) with (en_sec e) in B.
    unfold content_at. apply Forall_forall. intros b Hb. apply In_nth_error in Hb. destruct Hb as (k & Hk).
    apply nth_file_bytes in Hk. destruct Hk as [Hk _]. apply nth_error_In in Hk.
    unfold bytes_ok in B. rewrite Forall_forall in B. apply B, Hk.
  Qed.

  (** A section is found, and it can be read, whatever section is cached. *)
  Lemma lookup_safe s a x : inv s ->
    match im_lookup (library_image files map cb s) s a x with
    | (s', Ok (_, v)) => inv s' /\ sec v
    | (s', Err _) => inv s'
    | (_, UB _) => False
    end.
  Proof.
    intros I. cbn [im_lookup library_image].
    destruct (pt_msec_cache_read (lb_cache s) (lb_image s) x) as [[isid m]|er|u] eqn:Er.
    - unfold msec_lookup. rewrite Er. split; [exact I|].
      assert (Em : mc_msec (lb_cache s) = Some m).
      { revert Er. unfold pt_msec_cache_read. destruct (mc_msec (lb_cache s)) as [m'|]; [|discriminate].
        destruct (pt_image_validate _ _ _ _); cbn; try discriminate. intros E. injection E as _ <-. reflexivity. }
      destruct (iv_cache _ _ _ _ I m Em) as (e & y & Hin & Hy & <- & Hi).
      pose proof (iv_mapped _ _ _ _ I _ y (shown_in h img0 Fa e y Hin Hy)) as Hw. unfold mapped_well in Hw. cbn [ad_sec origin] in Hw.
      unfold view_of. destruct (sn_mapped (lb_world s (sc_id (ms_sec (en_msec e))))) as [mp|].
      + exists e, y, mp. split; [exact Hin|]. split; [exact Hy|]. split; [reflexivity|]. apply Hw.
      + exfalso. destruct (iv_cnt _ _ _ _ I (sc_id (ms_sec (en_msec e)))) as (_ & _ & C3).
        unfold one in C3. rewrite Em, Nat.eqb_refl in C3. clear - C3 Hw. lia.
    - destruct (forget_ok files map h w0 img0 Fa Own U s I) as (s1 & E1 & I1 & N1 & L1).
      assert (E : msec_lookup map s a x = match er with pte_nomap => msec_lookup map s1 a x | _ => (s, Err er) end).
      { unfold msec_lookup. rewrite Er. destruct er; try reflexivity. unfold pt_msec_cache_read. rewrite N1.
        revert E1. unfold msec_forget, pt_msec_cache_fill.
        destruct (pt_msec_cache_invalidate (lb_world s) (lb_cache s)) as [[w1 c1] r1]. intros [= <- ->].
        cbn [lb_world lb_cache lb_image] in *. unfold pt_msec_cache_invalidate. rewrite N1. reflexivity. }
      rewrite E. destruct er; try exact I.
      destruct (lookup_ok files map h w0 img0 Wf Fa Sep Own U s1 a x) as (s2 & -> & (I2 & _) & H2).
      { split; [exact I1|]. rewrite N1. discriminate. }
      unfold found in *. destruct (entry_at img0 a x) as [e|] eqn:Ee; [|exact I2].
      apply (entry_some img0 Wf) in Ee. destruct Ee as (Hin & Hx & _). split; [exact I2|].
      destruct (H2 _ _ eq_refl) as (mp & Em & Gm). exists e, x, mp. unfold view_of. rewrite Em. auto.
    - exfalso. revert Er. unfold pt_msec_cache_read, pt_image_validate. destruct (mc_msec (lb_cache s)) as [m|]; [|discriminate].
      destruct (_ || _); [discriminate|]. destruct (lb_image s) as [|e1 img1]; [discriminate|].
      destruct (negb _); [discriminate|]. destruct (negb _); discriminate.
  Qed.

  Lemma sread_safe v x : sec v -> given (view_read files v x 15) (fun l => l) 15.
  Proof.
    intros (e & y & mp & Hin & Hy & -> & Hg). unfold view_read. cbn [fst snd].
    change (ms_sec (en_msec e)) with (en_sec e). change (N.min (N.of_nat 15) 65535) with 15.
    destruct ((pt_msec_begin (en_msec e) <=? x) && (x <? pt_msec_end (en_msec e))) eqn:Er.
    - assert (Hx : ecovers e x).
      { destruct (wf_in img0 Wf e Hin) as [W1 W2 W3]. revert Er. unfold pt_msec_begin, pt_msec_end, ecovers, eend, add64 in *.
        change (2 ^ 64) with 18446744073709551616 in *. rewrite N.mod_small by (clear - W2; lia). clear.
        intros E. apply andb_prop in E. destruct E as [E1 E2]. apply N.leb_le in E1. apply N.ltb_lt in E2. lia. }
      rewrite (content_ok files map h w0 img0 Wf Fa U e x 15 mp Hin Hx Hg) by reflexivity. cbn [given].
      split; [|apply content_bytes; assumption].
      pose proof (content_length files map h w0 img0 Wf Fa U e x 15 Hin Hx) as L. clear - L. lia.
    - unfold pt_msec_read. apply andb_false_iff in Er.
      assert (K : ((x <? pt_msec_begin (en_msec e)) || (pt_msec_end (en_msec e) <=? x)) = true).
      { apply orb_true_iff. destruct Er as [K|K]; [left; apply N.ltb_lt, N.leb_gt, K|right; apply N.leb_le, N.ltb_ge, K]. }
      rewrite K. exact I.
  Qed.

  Lemma read_safe s a x n : inv s -> (n <= 15)%nat -> given (snd (image_read files map cb s a x n)) snd n.
  Proof.
    intros I Hn. destruct (read_ok files map cb h w0 img0 Wf Fa Sep Own U s a x n I) as (s' & -> & _). cbn [snd].
    replace (N.min (N.of_nat n) 65535) with (N.of_nat n) by (clear - Hn; lia).
    unfold reading. destruct (entry_at img0 a x) as [e|] eqn:Ee.
    - apply (entry_some img0 Wf) in Ee. destruct Ee as (Hin & Hx & _). cbn [given snd].
      split; [|apply content_bytes; assumption].
      pose proof (content_length files map h w0 img0 Wf Fa U e x (N.of_nat n) Hin Hx) as L. clear - L. lia.
    - unfold pt_image_read_callback. destruct cb as [c|] eqn:Ec; [|constructor].
      specialize (Cb c n a x eq_refl Hn). destruct (c (N.of_nat n) a x) as [l|e|u]; exact Cb.
  Qed.

  Lemma library_tame s0 : inv s0 -> tame (library_image files map cb s0) inv sec.
  Proof.
    intros I0. split.
    - intros a ip n Hn. apply read_safe; assumption.
    - intros v ip Hv. apply sread_safe, Hv.
    - intros s a ip I. exact (lookup_safe s a ip I).
    - intros s I. cbn [im_invalidate library_image]. destruct (forget_ok files map h w0 img0 Fa Own U s I) as (s1 & -> & I1 & _).
      split; [exact I1|discriminate].
  Qed.
End LIBRARY.
