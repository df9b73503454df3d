(** Lemmas for sections. *)

From Verif Require Import Base M_section S_core S_section.
From Coq Require Import List NArith ZArith Bool Lia ZifyBool ZifyNat ZifyN.
Import ListNotations.
Open Scope N_scope.
Ltac Zify.zify_post_hook ::= Z.div_mod_to_equations.

(** The counters of a section agree with what its users hold. *)
Record holds (s : scnt) (u : usage) : Prop := {
  ho_freed : sn_freed s = (us_refs u =? 0);
  ho_refs : us_refs u = 0 \/ sn_ucount s = us_refs u;
  ho_max : us_refs u <= max_count;
  ho_maps : sn_mcount s = us_maps u;
  ho_mmax : us_maps u <= max_count;
  ho_mapped : (exists m, sn_mapped s = Some m) <-> us_maps u <> 0;
  ho_atts : sn_acount s = us_atts u;
  ho_cache : sn_iscache s = us_cache u;
  ho_null : us_cache u = None <-> us_atts u = 0;
  ho_own : us_atts u <= us_refs u;
  ho_last : us_refs u = 0 -> us_maps u = 0;
  ho_bcache : (exists n, sn_bcache s = Some n) <-> us_bcache u = true;
  ho_bmap : us_bcache u = true -> us_maps u <> 0 }.

Lemma holds_new : holds new_scnt new_usage.
Proof.
  split; cbn; try reflexivity; try lia; try tauto; try discriminate;
    try (split; [intros [? H]; discriminate|congruence]); split; reflexivity.
Qed.

Lemma u16_succ n : n < max_count -> u16 (n + 1) = n + 1.
Proof. unfold max_count. intros H. apply N.mod_small. lia. Qed.
Lemma u16_max : u16 (max_count + 1) = 0.
Proof. reflexivity. Qed.

Ltac cnt := cbn [fst snd us_refs us_maps us_atts us_cache us_bcache sn_ucount sn_mcount
  sn_acount sn_iscache sn_mapped sn_bcache sn_freed set_ucount set_mcount set_attach
  set_mapped set_bcache set_freed] in *.

Ltac arith := first [unfold max_count in *; lia
  | match goal with H : sn_freed _ = false |- _ => rewrite H; symmetry; apply N.eqb_neq; lia end].

Lemma holds_step s u o : holds s u -> may u o ->
  snd (sec_step s o) = snd (usage_step u o) /\
  holds (fst (sec_step s o)) (fst (usage_step u o)).
Proof.
  intros [H1 H2 H3 H4 H5 H6 H7 H8 H9 H10 H11 H12 H13] [Hr Hm].
  destruct u as [r m a c b]. cnt.
  destruct H2 as [H2|H2]; [lia|].
  assert (Hal : sn_freed s = false) by (rewrite H1; apply N.eqb_neq; lia).
  destruct o as [| |mm| | |x|x|csize n mem]; cbn [sec_step usage_step may] in *.
  - unfold pt_section_get, alive. rewrite Hal, H2.
    destruct (N.eqb_spec r max_count) as [->|Hn].
    + rewrite u16_max. change (0 =? 0) with true. cbn iota. split; [reflexivity|].
      split; cnt; tauto.
    + rewrite u16_succ by arith. destruct (N.eqb_spec (r + 1) 0); [lia|].
      split; [reflexivity|]. split; cnt; try assumption; try tauto; try arith.
  - unfold pt_section_put, alive. rewrite Hal, H2, H4. destruct Hm as [Ha Hl].
    destruct (N.ltb_spec 1 r) as [Hg|Hg].
    + split; [reflexivity|]. split; cnt; try assumption; try tauto; try arith.
    + assert (r = 1) as -> by lia. rewrite (Hl eq_refl) in *.
      change (1 =? 0) with false. change (truth 0) with false. cbn [orb].
      split; [reflexivity|]. change (1 - 1) with 0.
      split; cnt; try assumption; try tauto; try arith.
  - unfold pt_section_map_count, alive. rewrite Hal, H4. unfold truth.
    destruct (N.eqb_spec m 0) as [->|Hmz]; cbn [negb].
    + destruct (sn_mapped s) as [old|] eqn:Em.
      * exfalso. destruct H6 as [H6 _]. apply H6; [eexists; reflexivity|reflexivity].
      * destruct mm as [mp|e|x]; [|split; [reflexivity|split; cnt; try assumption; try tauto; rewrite Em; assumption]
                                  |exfalso; exact (Hm x eq_refl)].
        cnt. rewrite H4. change (u16 (0 + 1)) with 1. change (1 =? 0) with false. cbn iota.
        split; [reflexivity|]. split; cnt; try assumption; try tauto; try arith;
      try (split; [intros _; discriminate|intros _; eexists; reflexivity]).
    + destruct (N.eqb_spec m max_count) as [->|Hn].
      * rewrite u16_max. change (0 =? 0) with true. cbn iota. split; [reflexivity|].
        split; cnt; tauto.
      * rewrite u16_succ by arith. destruct (N.eqb_spec (m + 1) 0); [lia|].
        split; [reflexivity|]. split; cnt; try assumption; try tauto; try arith;
      try (split; [intros _; lia|intros _; apply H6; exact Hmz]).
  - unfold pt_section_map_share, alive. rewrite Hal, H4.
    destruct (N.eqb_spec m 0) as [->|Hmz].
    + split; [reflexivity|]. split; cnt; tauto.
    + destruct (N.eqb_spec m max_count) as [->|Hn].
      * rewrite u16_max. change (0 =? 0) with true. cbn iota. split; [reflexivity|].
        split; cnt; tauto.
      * rewrite u16_succ by arith. destruct (N.eqb_spec (m + 1) 0); [lia|].
        split; [reflexivity|]. split; cnt; try assumption; try tauto; try arith;
      try (split; [intros _; lia|intros _; apply H6; exact Hmz]).
  - unfold pt_section_unmap, alive. rewrite Hal, H4.
    destruct (N.eqb_spec m 0); [lia|]. unfold truth.
    destruct (N.eqb_spec m 1) as [->|Hn].
    + change (1 - 1 =? 0) with true. cbn [negb]. cnt.
      destruct H6 as [_ H6]. destruct (H6 ltac:(discriminate)) as [mp Em].
      rewrite Em. cnt. split; [reflexivity|]. change (1 - 1) with 0.
      split; cnt; try assumption; try tauto; try arith; try discriminate.
      * split; [intros [? H]; discriminate|congruence].
      * split; [intros [? H]; discriminate|discriminate].
    + destruct (N.eqb_spec (m - 1) 0); [lia|]. cbn [negb].
      split; [reflexivity|]. split; cnt; try assumption; try tauto; try arith;
      try (split; [intros _; lia|intros _; apply H6; lia]).
  - unfold pt_section_attach, alive. rewrite Hal, H7, H8, H2. destruct Hm as [Ha Hc].
    destruct (N.eqb_spec a 0) as [->|Hz].
    + destruct H9 as [_ H9]. rewrite (H9 eq_refl). destruct (N.eqb_spec r 0); [lia|].
      split; [reflexivity|]. split; cnt; try assumption; try reflexivity; try tauto; try arith;
      try (split; [discriminate|lia]).
    + destruct Hc as [Hc|Hc]; [exfalso; tauto|]. rewrite Hc in *.
      rewrite u16_succ by arith. destruct (N.eqb_spec (a + 1) 0); [lia|].
      cbv zeta. cbn iota. rewrite Nat.eqb_refl. cbn [negb]. destruct (N.ltb_spec r (a + 1)); [lia|].
      split; [reflexivity|]. split; cnt; try assumption; try reflexivity; try tauto; try arith;
      try (split; [discriminate|lia]).
  - unfold pt_section_detach, alive. rewrite Hal, H8, H7, H2, Hm. cbn iota. rewrite Nat.eqb_refl. cbn [negb].
    destruct (N.eqb_spec a 0) as [->|Hz]; [exfalso; destruct H9 as [_ H9]; rewrite H9 in Hm; [discriminate|reflexivity]|].
    destruct (N.ltb_spec r (a - 1)); [lia|]. split; [reflexivity|].
    destruct (N.eqb_spec a 1) as [->|Hn].
    + change (1 - 1) with 0. change (0 =? 0) with true. cbn iota.
      split; cnt; try assumption; try reflexivity; try tauto; try arith.
    + destruct (N.eqb_spec (a - 1) 0); [lia|].
      split; cnt; try assumption; try reflexivity; try tauto; try arith;
      try (split; [discriminate|lia]).
  - unfold pt_section_alloc_bcache, alive. unfold u32, trunc.
    destruct (N.leb_spec (2 ^ 32) csize) as [Hbig|Hsm].
    + destruct (N.eqb_spec (csize mod 2 ^ 32) csize) as [E|]; [exfalso; lia|]. cbn [negb].
      split; [reflexivity|]. split; cnt; tauto.
    + destruct (N.eqb_spec (csize mod 2 ^ 32) csize) as [|E]; [|exfalso; lia]. cbn [negb].
      rewrite Hal, H4. destruct (N.eqb_spec m 0) as [->|Hz].
      * split; [reflexivity|]. split; cnt; tauto.
      * destruct (sn_bcache s) as [k|] eqn:Eb.
        -- destruct H12 as [H12 _]. rewrite (H12 ltac:(eexists; reflexivity)) in *.
           split; [reflexivity|]. split; cnt; try tauto. rewrite Eb. split; [reflexivity|].
           intros _; eexists; reflexivity.
        -- destruct b; [exfalso; destruct H12 as [_ H12]; destruct (H12 eq_refl); discriminate|].
           destruct mem; cbn [negb].
           ++ unfold pt_section_memsize, alive. cnt. rewrite Hal.
              destruct H6 as [H6a H6b]. destruct (H6b Hz) as [mp Em]. rewrite Em. cnt.
              split; [reflexivity|]. split; cnt; try assumption; try tauto; try arith.
              split; [reflexivity|intros _; eexists; reflexivity].
           ++ split; [reflexivity|]. split; cnt; try tauto. rewrite Eb. tauto.
Qed.

Lemma holds_answers : forall ops s u, holds s u -> all_may u ops ->
  answers sec_step s ops = answers usage_step u ops.
Proof.
  induction ops as [|o ops IH]; intros s u H Hall; [reflexivity|].
  destruct Hall as [Hm Hall]. destruct (holds_step s u o H Hm) as [Hr Hs].
  cbn [answers]. destruct (sec_step s o) as [s' a], (usage_step u o) as [u' a'].
  cbn [fst snd] in *. subst. f_equal. apply IH; assumption.
Qed.

Lemma holds_run : forall ops s u, holds s u -> all_may u ops ->
  holds (sec_run s ops) (usage_run u ops).
Proof.
  induction ops as [|o ops IH]; intros s u H Hall; [exact H|].
  destruct Hall as [Hm Hall]. destruct (holds_step s u o H Hm) as [_ Hs].
  unfold sec_run, usage_run. cbn [fold_left].
  change (fold_left (fun s o => fst (sec_step s o)) ?l ?a) with (sec_run a l).
  change (fold_left (fun s o => fst (usage_step s o)) ?l ?a) with (usage_run a l).
  apply IH; assumption.
Qed.

(** ** Reading *)

Lemma file_bytes_length f pos n : pos + n <= fsize f -> N.of_nat (length (file_bytes f pos n)) = n.
Proof.
  unfold fsize, file_bytes. intros H. rewrite firstn_length, skipn_length. lia.
Qed.

(** Where the first byte of the section is in the file. *)
Definition starts (m : mapping) : N :=
  match m with MapPosix base _ begin => base + begin | MapFile begin _ => begin end.
Definition covers (m : mapping) (n : N) : Prop :=
  match m with MapPosix _ msize begin => begin + n <= msize | MapFile _ _ => True end.

Lemma map_file_ok s fs page u mm mem : sc_offset s + sc_size s <= fs -> fs < 2 ^ 63 ->
  no_ub (map_file s fs page u mm mem) /\
  forall m, map_file s fs page u mm mem = Ok m ->
  starts m = sc_offset s /\ covers m (sc_size s).
Proof.
  intros Hfit Hfs.
  assert (Hf : no_ub (pt_sec_file_map s fs mem) /\
    forall m, pt_sec_file_map s fs mem = Ok m ->
    starts m = sc_offset s /\ covers m (sc_size s)).
  { unfold pt_sec_file_map. destruct (N.leb_spec (2 ^ 63) (sc_offset s + sc_size s)); [lia|].
    destruct (_ <? _); [split; [intros x; discriminate|intros m Hm; discriminate Hm]|].
    destruct (negb mem); [split; [intros x; discriminate|intros m Hm; discriminate Hm]|].
    split; [intros x Hx; discriminate Hx|]. intros m [= <-]. cbn. split; [reflexivity|exact I]. }
  unfold map_file. destruct (negb u); [split; [intros x; discriminate|intros m Hm; discriminate Hm]|].
  destruct (pt_sec_posix_map s page mm) as [m|e|x] eqn:E; [|exact Hf|exact Hf].
  split; [intros x; discriminate|]. intros m' [= <-]. revert E. unfold pt_sec_posix_map.
  destruct (N.eqb_spec page 0) as [|Hp]; [discriminate|].
  assert (Ha : sc_offset s mod page <= sc_offset s) by (apply N.mod_le; exact Hp).
  revert Ha. generalize (sc_offset s mod page). intros a Ha.
  destruct (N.ltb_spec (add64 (sc_size s) a) (sc_size s)); [discriminate|].
  destruct (_ <? _); [discriminate|]. destruct (negb mm); [discriminate|].
  intros [= <-]. cbn [starts covers]. unfold sub64, add64 in *. lia.
Qed.

Lemma section_read_spec s m f size off :
  starts m = sc_offset s -> covers m (sc_size s) ->
  sc_offset s + sc_size s <= fsize f -> fsize f < 2 ^ 63 -> size < 2 ^ 16 ->
  pt_section_read s (Some m) f size off
  = if sc_size s <=? off then Err pte_nomap
    else Ok (file_bytes f (sc_offset s + off) (N.min size (sc_size s - off))).
Proof.
  intros Hs Hc Hfit Hfs Hsz. unfold pt_section_read.
  destruct (N.leb_spec (sc_size s) off) as [|Hlt]; [reflexivity|].
  assert (E : (if sub64 (sc_size s) off <? size then u16 (sub64 (sc_size s) off) else size)
              = N.min size (sc_size s - off)).
  { replace (sub64 (sc_size s) off) with (sc_size s - off) by (unfold sub64; lia).
    unfold u16, trunc. destruct (N.ltb_spec (sc_size s - off) size).
    - rewrite N.mod_small by lia. lia.
    - lia. }
  rewrite E. destruct m as [base msize begin|begin fend]; cbn [starts covers] in *.
  - unfold pt_sec_posix_read.
    destruct (N.ltb_spec msize (begin + off + N.min size (sc_size s - off))); [lia|].
    destruct (N.ltb_spec (fsize f) (base + begin + off + N.min size (sc_size s - off))); [lia|].
    rewrite Hs. reflexivity.
  - unfold pt_sec_file_read. destruct (N.leb_spec (2 ^ 63) (begin + off)); [lia|].
    rewrite Hs. reflexivity.
Qed.
