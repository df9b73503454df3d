(** Lemmas for the image section cache: sections and their users. *)

From Verif Require Import Base M_section M_image M_iscache S_core S_section L_section S_image S_iscache.
From Coq Require Import List NArith ZArith Bool Lia ZifyBool ZifyNat ZifyN PeanoNat.
Import ListNotations.
Open Scope N_scope.
Ltac Zify.zify_post_hook ::= Z.div_mod_to_equations.

(** ** One section *)

Definition hasb (s : scnt) : bool := match sn_bcache s with Some _ => true | None => false end.
Definition us (cid : nat) (s : scnt) (r m a : N) : usage :=
  mk_usage r m a (if a =? 0 then None else Some cid) (hasb s).
Definition small (s : scnt) : Prop :=
  (forall m, sn_mapped s = Some m -> mapping_size m < 2 ^ 47) /\
  (forall n, sn_bcache s = Some n -> n < 2 ^ 47).
Definition same_mem (s s' : scnt) : Prop :=
  sn_mapped s' = sn_mapped s /\ sn_bcache s' = sn_bcache s.

Lemma hasb_spec s u : holds s u -> us_bcache u = hasb s.
Proof.
  intros H. destruct (ho_bcache _ _ H) as [H1 H2]. unfold hasb.
  destruct (sn_bcache s) as [n|]; [apply H1; eexists; reflexivity|].
  destruct (us_bcache u); [|reflexivity]. destruct (H2 eq_refl); discriminate.
Qed.

Lemma holds_us cid s u r m a : holds s u -> us_refs u = r -> us_maps u = m -> us_atts u = a ->
  us_cache u = (if a =? 0 then None else Some cid) -> holds s (us cid s r m a).
Proof.
  intros H <- <- <- E. unfold us. rewrite <- E, <- (hasb_spec _ _ H). destruct u. exact H.
Qed.

Lemma same_small s s' : same_mem s s' -> small s -> small s'.
Proof. intros [E1 E2] [H1 H2]. split; [rewrite E1|rewrite E2]; assumption. Qed.

Section One.
  Context (cid : nat) (s : scnt) (r m a : N).
  Hypothesis H : holds s (us cid s r m a).

  Lemma one_alive : 0 < r -> sn_freed s = false /\ sn_ucount s = r.
  Proof.
    intros Hr. destruct H as [H1 H2 _ _ _ _ _ _ _ _ _ _ _]. cbn in H1, H2.
    split; [rewrite H1; apply N.eqb_neq; lia|]. destruct H2; [lia|assumption].
  Qed.

  Lemma one_get : 0 < r ->
    (r < max_count /\ pt_section_get s = (set_ucount s (r + 1), Ok tt) /\
     holds (set_ucount s (r + 1)) (us cid (set_ucount s (r + 1)) (r + 1) m a)) \/
    (r = max_count /\ pt_section_get s = (s, Err pte_overflow)).
  Proof.
    intros Hr. destruct (one_alive Hr) as [Hf Hu].
    destruct (holds_step _ _ SecGet H (conj Hr I)) as [S1 S2].
    cbn [sec_step usage_step us fst snd] in S1, S2.
    pose proof (ho_max _ _ H) as Hmax. cbn in Hmax.
    unfold pt_section_get, alive in *. rewrite Hf, Hu in *.
    destruct (N.eqb_spec r max_count) as [E|E].
    - right. split; [exact E|]. rewrite E. reflexivity.
    - left. assert (Hlt : r < max_count) by lia. split; [exact Hlt|].
      rewrite (u16_succ _ Hlt) in *. destruct (N.eqb_spec (r + 1) 0); [lia|].
      split; [reflexivity|]. cbn [fst] in S2. eapply holds_us; [exact S2|reflexivity..].
  Qed.

  Lemma one_put : a < r -> (r = 1 -> m = 0) ->
    exists s', pt_section_put s = (s', Ok tt) /\ holds s' (us cid s' (r - 1) m a) /\ same_mem s s'.
  Proof.
    intros Ha Hl. assert (Hr : 0 < r) by lia. destruct (one_alive Hr) as [Hf Hu].
    destruct (holds_step _ _ SecPut H (conj Hr (conj Ha Hl))) as [S1 S2].
    cbn [sec_step usage_step us fst snd] in S1, S2.
    destruct (pt_section_put s) as [s' x] eqn:E. cbn [fst snd] in S1, S2. subst x.
    exists s'. split; [reflexivity|]. split; [eapply holds_us; [exact S2|reflexivity..]|].
    unfold pt_section_put, alive in E. rewrite Hf in E.
    destruct (1 <? sn_ucount s); [injection E as <-; split; reflexivity|].
    destruct ((sn_ucount s =? 0) || truth (sn_mcount s)); [discriminate|].
    injection E as <-. split; reflexivity.
  Qed.

  Lemma one_attach : a < r ->
    exists s', pt_section_attach s cid = (s', Ok tt) /\ holds s' (us cid s' r m (a + 1)) /\
               same_mem s s'.
  Proof.
    intros Ha. assert (Hr : 0 < r) by lia.
    assert (Hc : us_cache (us cid s r m a) = None \/ us_cache (us cid s r m a) = Some cid)
      by (cbn; destruct (a =? 0); tauto).
    destruct (holds_step _ _ (SecAttach cid) H (conj Hr (conj Ha Hc))) as [S1 S2].
    cbn [sec_step usage_step us fst snd] in S1, S2.
    destruct (pt_section_attach s cid) as [s' x] eqn:E. cbn [fst snd] in S1, S2. subst x.
    exists s'. split; [reflexivity|]. split.
    { eapply holds_us; [exact S2|reflexivity..|]. cbn. destruct (N.eqb_spec (a + 1) 0); [lia|reflexivity]. }
    unfold pt_section_attach, alive in E. destruct (sn_freed s); [discriminate|].
    destruct (sn_acount s =? 0).
    - destruct (sn_iscache s); [discriminate|]. destruct (sn_ucount s =? 0); [discriminate|].
      injection E as <-. split; reflexivity.
    - cbv zeta in E. destruct (u16 (sn_acount s + 1) =? 0); [discriminate|].
      destruct (sn_iscache s); [|discriminate]. destruct (negb _); [discriminate|].
      destruct (sn_ucount s <? _); [discriminate|]. injection E as <-. split; reflexivity.
  Qed.

  Lemma one_detach : 0 < a ->
    exists s', pt_section_detach s cid = (s', Ok tt) /\ holds s' (us cid s' r m (a - 1)) /\
               same_mem s s'.
  Proof.
    intros Ha. pose proof (ho_own _ _ H) as Ho. cbn in Ho.
    assert (Hr : 0 < r) by lia.
    assert (Hc : us_cache (us cid s r m a) = Some cid)
      by (cbn; destruct (N.eqb_spec a 0); [lia|reflexivity]).
    destruct (holds_step _ _ (SecDetach cid) H (conj Hr Hc)) as [S1 S2].
    cbn [sec_step usage_step us fst snd] in S1, S2.
    destruct (pt_section_detach s cid) as [s' x] eqn:E. cbn [fst snd] in S1, S2. subst x.
    exists s'. split; [reflexivity|]. split.
    { eapply holds_us; [exact S2|reflexivity..|]. cbn.
      destruct (N.eqb_spec (a - 1) 0), (N.eqb_spec a 1); try lia; reflexivity. }
    unfold pt_section_detach, alive in E. destruct (sn_freed s); [discriminate|].
    destruct (sn_iscache s); [|discriminate]. destruct (negb _); [discriminate|].
    destruct (sn_acount s =? 0); [discriminate|]. cbv zeta in E.
    destruct (sn_ucount s <? _); [discriminate|]. injection E as <-. split; reflexivity.
  Qed.

  Lemma one_share : 0 < r -> 0 < m ->
    (m < max_count /\ pt_section_map_share s = (set_mcount s (m + 1), Ok tt) /\
     holds (set_mcount s (m + 1)) (us cid (set_mcount s (m + 1)) r (m + 1) a)) \/
    (m = max_count /\ pt_section_map_share s = (s, Err pte_overflow)).
  Proof.
    intros Hr Hm. destruct (one_alive Hr) as [Hf Hu].
    destruct (holds_step _ _ SecShare H (conj Hr I)) as [S1 S2].
    cbn [sec_step usage_step us fst snd] in S1, S2.
    pose proof (ho_mmax _ _ H) as Hmax. cbn in Hmax.
    pose proof (ho_maps _ _ H) as Hmc. cbn in Hmc.
    unfold pt_section_map_share, alive in *. rewrite Hf, Hmc in *.
    destruct (N.eqb_spec m 0); [lia|].
    destruct (N.eqb_spec m max_count) as [E|E].
    - right. split; [exact E|]. rewrite E. reflexivity.
    - left. assert (Hlt : m < max_count) by lia. split; [exact Hlt|].
      rewrite (u16_succ _ Hlt) in *. destruct (N.eqb_spec (m + 1) 0); [lia|].
      split; [reflexivity|]. cbn [fst] in S2. eapply holds_us; [exact S2|reflexivity..].
  Qed.

  Lemma one_unmap : 0 < r -> 0 < m ->
    exists s', pt_section_unmap s = (s', Ok tt) /\ holds s' (us cid s' r (m - 1) a) /\
      (small s -> small s') /\ (1 < m -> same_mem s s').
  Proof.
    intros Hr Hm. destruct (one_alive Hr) as [Hf Hu].
    destruct (holds_step _ _ SecUnmap H (conj Hr Hm)) as [S1 S2].
    cbn [sec_step usage_step us fst snd] in S1, S2.
    pose proof (ho_maps _ _ H) as Hmc. cbn in Hmc.
    destruct (pt_section_unmap s) as [s' x] eqn:E. cbn [fst snd] in S1, S2. subst x.
    exists s'. split; [reflexivity|]. split.
    { eapply holds_us; [exact S2|reflexivity..]. }
    unfold pt_section_unmap, alive in E. rewrite Hf, Hmc in E.
    destruct (m =? 0); [discriminate|]. cbv zeta in E. unfold truth in E.
    destruct (N.eqb_spec (m - 1) 0) as [E0|E0]; cbn [negb] in E.
    - destruct (sn_mapped (set_mcount s (m - 1))); [|discriminate]. injection E as <-.
      split; [|lia]. intros _. split; discriminate.
    - injection E as <-. split; [intros Hs; exact Hs|]. intros _. split; reflexivity.
  Qed.

  Lemma one_map mm : 0 < r -> map_small mm -> small s ->
    (exists s', pt_section_map_count s mm = (s', Ok tt) /\ holds s' (us cid s' r (m + 1) a) /\
       small s' /\ (0 < m -> same_mem s s') /\ (m = 0 -> exists x, mm = Ok x /\ sn_mapped s' = Some x /\ sn_bcache s' = None)) \/
    (m = max_count /\ pt_section_map_count s mm = (s, Err pte_overflow)) \/
    (m = 0 /\ exists e, mm = Err e /\ pt_section_map_count s mm = (s, Err e)).
  Proof.
    intros Hr Hmm Hs. destruct (one_alive Hr) as [Hf Hu].
    assert (Hnu : no_ub mm) by (intros x ->; exact Hmm).
    destruct (holds_step _ _ (SecMap mm) H (conj Hr Hnu)) as [S1 S2].
    cbn [sec_step usage_step us fst snd] in S1, S2.
    pose proof (ho_mmax _ _ H) as Hmax. pose proof (ho_maps _ _ H) as Hmc.
    pose proof (ho_mapped _ _ H) as Hmp. pose proof (ho_bcache _ _ H) as Hb.
    pose proof (ho_bmap _ _ H) as Hbm. cbn in Hmax, Hmc, Hmp, Hb, Hbm.
    unfold pt_section_map_count, alive in *. rewrite Hf, Hmc in *. unfold truth in *.
    destruct (N.eqb_spec m 0) as [E|E]; cbn [negb] in *.
    - destruct (sn_mapped s) as [mp|] eqn:Emp.
      { exfalso. apply Hmp; [eexists; reflexivity|exact E]. }
      assert (Eb : sn_bcache s = None).
      { destruct (sn_bcache s) as [n|] eqn:Eb; [|reflexivity]. exfalso.
        apply Hbm; [unfold hasb; rewrite Eb; reflexivity|exact E]. }
      destruct mm as [mp|e|x]; [|right; right; split; [exact E|exists e; split; reflexivity]|destruct Hmm].
      left. cbn [set_mapped sn_mcount] in *. rewrite Hmc, E in *. change (u16 (0 + 1)) with 1 in *.
      cbn [N.eqb] in *. eexists. split; [reflexivity|]. split; [|split].
      + eapply holds_us; [exact S2|reflexivity..].
      + split; cbn; [intros ? [= <-]; exact Hmm|rewrite Eb; discriminate].
      + split; [lia|]. intros _. exists mp. split; [reflexivity|]. split; [reflexivity|exact Eb].
    - destruct (N.eqb_spec m max_count) as [Em|Em].
      + right. left. split; [exact Em|]. rewrite Em. reflexivity.
      + left. assert (Hlt : m < max_count) by lia.
        rewrite (u16_succ _ Hlt) in *. destruct (N.eqb_spec (m + 1) 0); [lia|].
        eexists. split; [reflexivity|]. split; [eapply holds_us; [exact S2|reflexivity..]|].
        split; [exact Hs|]. split; [intros _; split; reflexivity|lia].
  Qed.

  Lemma one_memsize : 0 < r -> 0 < m -> small s ->
    pt_section_memsize s = (s, Ok (memory s)) /\ memory s < 2 ^ 48.
  Proof.
    intros Hr Hm [Hs1 Hs2]. destruct (one_alive Hr) as [Hf Hu].
    pose proof (ho_mapped _ _ H) as Hmp. cbn in Hmp.
    unfold pt_section_memsize, alive, memory. rewrite Hf.
    destruct Hmp as [_ Hmp]. destruct Hmp as [mp Emp]; [lia|]. rewrite Emp.
    specialize (Hs1 _ Emp).
    assert (Hb : match sn_bcache s with Some n => n | None => 0 end < 2 ^ 47).
    { destruct (sn_bcache s) as [n|]; [apply (Hs2 _ eq_refl)|reflexivity]. }
    revert Hb. generalize (match sn_bcache s with Some n => n | None => 0 end). intros b Hb.
    change (match mp with MapPosix _ msize _ => msize | MapFile _ _ => 0 end) with (mapping_size mp).
    change (2 ^ 48) with 281474976710656. change (2 ^ 47) with 140737488355328 in *.
    assert (E : add64 (mapping_size mp) b = mapping_size mp + b).
    { unfold add64, u64, trunc. change (2 ^ 64) with 18446744073709551616. lia. }
    rewrite E. split; [reflexivity|lia].
  Qed.

  Lemma one_bcache csize n mem : 0 < r -> small s -> n < 2 ^ 47 ->
    (exists s' k, pt_section_alloc_bcache s csize n mem = (s', Ok k) /\ 0 < m /\
       holds s' (us cid s' r m a) /\ small s' /\
       sn_mapped s' = sn_mapped s /\
       ((same_mem s s' /\ k = None /\ hasb s = true) \/
        (hasb s = false /\ sn_bcache s' = Some n /\
         k = if truth (memory s') then Some (memory s') else None))) \/
    exists e, pt_section_alloc_bcache s csize n mem = (s, Err e).
  Proof.
    intros Hr Hs Hn. destruct (one_alive Hr) as [Hf Hu].
    destruct (holds_step _ _ (SecAllocBcache csize n mem) H (conj Hr I)) as [S1 S2].
    cbn [sec_step usage_step us fst snd] in S1, S2.
    pose proof (ho_maps _ _ H) as Hmc. cbn in Hmc.
    destruct (pt_section_alloc_bcache s csize n mem) as [s' x] eqn:E. cbn [fst snd] in S1, S2.
    unfold pt_section_alloc_bcache, alive in E. rewrite Hf, Hmc in E.
    destruct (negb (u32 csize =? csize)) eqn:Ec.
    { injection E as <- <-. right. eexists. reflexivity. }
    destruct (N.eqb_spec m 0) as [E0|E0].
    { injection E as <- <-. right. eexists. reflexivity. }
    destruct (N.leb_spec (2 ^ 32) csize) as [Hbig|Hsm].
    { exfalso. apply negb_false_iff, N.eqb_eq in Ec. unfold u32, trunc in Ec.
      change (2 ^ 32) with 4294967296 in *. lia. }
    destruct (sn_bcache s) as [k|] eqn:Eb.
    - injection E as <- <-. left. exists s, None. split; [reflexivity|]. split; [lia|].
      split; [exact H|]. split; [exact Hs|]. split; [reflexivity|]. left.
      unfold hasb. rewrite Eb. repeat split.
    - assert (Hh : hasb s = false) by (unfold hasb; rewrite Eb; reflexivity).
      rewrite Hh in *. destruct mem; cbn [negb] in E; [|injection E as <- <-; right; eexists; reflexivity].
      cbn [fst snd] in S1, S2. set (s1 := set_bcache s (Some n)) in *.
      assert (Hs1 : small s1).
      { destruct Hs as [A B]. split; [exact A|]. cbn. intros ? [= <-]. exact Hn. }
      assert (Es : s' = s1).
      { destruct (snd (pt_section_memsize s1)); injection E as <- _; reflexivity. }
      subst s'.
      assert (Hm1 : holds s1 (us cid s1 r m a)).
      { eapply holds_us; [exact S2|reflexivity..]. }
      left. exists s1.
      assert (Emz : pt_section_memsize s1 = (s1, Ok (memory s1))).
      { clear E. unfold pt_section_memsize, alive, memory.
        pose proof (ho_freed _ _ Hm1) as Hf1. cbn [us_refs us] in Hf1. rewrite Hf1.
        destruct (N.eqb_spec r 0); [lia|].
        destruct (ho_mapped _ _ Hm1) as [_ Hmp]. cbn [us us_maps] in Hmp. destruct Hmp as [mp Emp]; [lia|].
        rewrite Emp. change (match mp with MapPosix _ msize _ => msize | MapFile _ _ => 0 end) with (mapping_size mp).
        change (sn_bcache s1) with (Some n). cbn iota.
        pose proof (proj1 Hs1 _ Emp) as B1. change (2 ^ 47) with 140737488355328 in *.
        replace (add64 (mapping_size mp) n) with (mapping_size mp + n); [reflexivity|].
        unfold add64, u64, trunc. change (2 ^ 64) with 18446744073709551616. lia. }
      rewrite Emz in E. cbn [snd] in E. injection E as <-. eexists. split; [reflexivity|].
      split; [lia|]. split; [exact Hm1|]. split; [exact Hs1|]. split; [reflexivity|]. right.
      split; [reflexivity|]. split; reflexivity.
  Qed.
End One.

(** ** All sections *)

Definition up (F : counts) (id : nat) (v : N) : counts :=
  fun j => if Nat.eqb j id then v else F j.
Lemma up_same F id v : up F id v id = v.
Proof. unfold up. rewrite Nat.eqb_refl. reflexivity. Qed.
Lemma up_other F id v j : j <> id -> up F id v j = F j.
Proof. unfold up. intros H. destruct (Nat.eqb_spec j id); [congruence|reflexivity]. Qed.

Definition wok (cid : nat) (R M A : counts) (w : world) : Prop :=
  forall id, holds (w id) (us cid (w id) (R id) (M id) (A id)) /\ small (w id).
Definition mem_same (w w' : world) : Prop := forall id, same_mem (w id) (w' id).
(** The memory of all sections that have a mapping afterwards is unchanged. *)
Definition mem_kept (M' : counts) (w w' : world) : Prop :=
  forall id, 0 < M' id -> same_mem (w id) (w' id).

Lemma mem_same_refl w : mem_same w w.
Proof. intros id. split; reflexivity. Qed.
Lemma same_mem_trans a b c : same_mem a b -> same_mem b c -> same_mem a c.
Proof. intros [H1 H2] [H3 H4]. split; congruence. Qed.
Lemma mem_same_trans a b c : mem_same a b -> mem_same b c -> mem_same a c.
Proof. intros H1 H2 id. eapply same_mem_trans; [apply H1|apply H2]. Qed.

Lemma wok_ext cid R M A R' M' A' w : wok cid R M A w ->
  (forall j, R' j = R j) -> (forall j, M' j = M j) -> (forall j, A' j = A j) -> wok cid R' M' A' w.
Proof. intros H E1 E2 E3 id. rewrite E1, E2, E3. apply H. Qed.

Lemma wok_set cid R M A w id s' r m a :
  wok cid R M A w -> holds s' (us cid s' r m a) -> small s' ->
  wok cid (up R id r) (up M id m) (up A id a) (wset w id s').
Proof.
  intros H H1 H2 j. unfold up, wset. destruct (Nat.eqb_spec j id) as [->|]; [split; assumption|apply H].
Qed.

Lemma mem_set w id s' : same_mem (w id) s' -> mem_same w (wset w id s').
Proof.
  intros H j. unfold wset. destruct (Nat.eqb_spec j id) as [->|]; [exact H|split; reflexivity].
Qed.

Lemma up_id F id j : up F id (F id) j = F j.
Proof. unfold up. destruct (Nat.eqb_spec j id) as [->|]; reflexivity. Qed.

Ltac ext := intros; first [reflexivity | apply up_id | symmetry; apply up_id].

Section All.
  Context (cid : nat) (R M A : counts) (w : world).
  Hypothesis H : wok cid R M A w.

  Lemma w_get id : 0 < R id ->
    exists w', mem_same w w' /\
      ((on_section w id pt_section_get = (w', Ok tt) /\ R id < max_count /\
        wok cid (up R id (R id + 1)) M A w') \/
       (on_section w id pt_section_get = (w', Err pte_overflow) /\ R id = max_count /\
        wok cid R M A w')).
  Proof.
    intros Hr. destruct (H id) as [H1 H2]. unfold on_section.
    destruct (one_get _ _ _ _ _ H1 Hr) as [(Hlt & -> & H3)|(Hm & ->)].
    - eexists. split; [|left; split; [reflexivity|split; [exact Hlt|]]].
      + apply mem_set. split; reflexivity.
      + eapply wok_ext; [apply (wok_set _ _ _ _ _ id _ _ _ _ H H3 H2)|ext..].
    - eexists. split; [|right; split; [reflexivity|split; [exact Hm|]]].
      + apply mem_set. split; reflexivity.
      + eapply wok_ext; [apply (wok_set _ _ _ _ _ id _ _ _ _ H H1 H2)|ext..].
  Qed.

  Lemma w_put id : A id < R id -> (R id = 1 -> M id = 0) ->
    exists w', on_section w id pt_section_put = (w', Ok tt) /\ mem_same w w' /\
      wok cid (up R id (R id - 1)) M A w'.
  Proof.
    intros Ha Hl. destruct (H id) as [H1 H2]. unfold on_section.
    destruct (one_put _ _ _ _ _ H1 Ha Hl) as (s' & -> & H3 & H4).
    eexists. split; [reflexivity|]. split; [apply mem_set; exact H4|].
    eapply wok_ext; [apply (wok_set _ _ _ _ _ id _ _ _ _ H H3)|ext..].
    apply (same_small _ _ H4 H2).
  Qed.

  Lemma w_attach id : A id < R id ->
    exists w', on_section w id (fun s => pt_section_attach s cid) = (w', Ok tt) /\
      mem_same w w' /\ wok cid R M (up A id (A id + 1)) w'.
  Proof.
    intros Ha. destruct (H id) as [H1 H2]. unfold on_section.
    destruct (one_attach _ _ _ _ _ H1 Ha) as (s' & -> & H3 & H4).
    eexists. split; [reflexivity|]. split; [apply mem_set; exact H4|].
    eapply wok_ext; [apply (wok_set _ _ _ _ _ id _ _ _ _ H H3)|ext..].
    apply (same_small _ _ H4 H2).
  Qed.

  Lemma w_detach id : 0 < A id ->
    exists w', on_section w id (fun s => pt_section_detach s cid) = (w', Ok tt) /\
      mem_same w w' /\ wok cid R M (up A id (A id - 1)) w'.
  Proof.
    intros Ha. destruct (H id) as [H1 H2]. unfold on_section.
    destruct (one_detach _ _ _ _ _ H1 Ha) as (s' & -> & H3 & H4).
    eexists. split; [reflexivity|]. split; [apply mem_set; exact H4|].
    eapply wok_ext; [apply (wok_set _ _ _ _ _ id _ _ _ _ H H3)|ext..].
    apply (same_small _ _ H4 H2).
  Qed.

  Lemma w_share id : 0 < R id -> 0 < M id ->
    exists w', mem_same w w' /\
      ((on_section w id pt_section_map_share = (w', Ok tt) /\ M id < max_count /\
        wok cid R (up M id (M id + 1)) A w') \/
       (on_section w id pt_section_map_share = (w', Err pte_overflow) /\ M id = max_count /\
        wok cid R M A w')).
  Proof.
    intros Hr Hm. destruct (H id) as [H1 H2]. unfold on_section.
    destruct (one_share _ _ _ _ _ H1 Hr Hm) as [(Hlt & -> & H3)|(Hx & ->)].
    - eexists. split; [|left; split; [reflexivity|split; [exact Hlt|]]].
      + apply mem_set. split; reflexivity.
      + eapply wok_ext; [apply (wok_set _ _ _ _ _ id _ _ _ _ H H3 H2)|ext..].
    - eexists. split; [|right; split; [reflexivity|split; [exact Hx|]]].
      + apply mem_set. split; reflexivity.
      + eapply wok_ext; [apply (wok_set _ _ _ _ _ id _ _ _ _ H H1 H2)|ext..].
  Qed.

  Lemma w_unmap id : 0 < R id -> 0 < M id ->
    exists w', on_section w id pt_section_unmap = (w', Ok tt) /\
      wok cid R (up M id (M id - 1)) A w' /\ mem_kept (up M id (M id - 1)) w w'.
  Proof.
    intros Hr Hm. destruct (H id) as [H1 H2]. unfold on_section.
    destruct (one_unmap _ _ _ _ _ H1 Hr Hm) as (s' & -> & H3 & H4 & H5).
    eexists. split; [reflexivity|]. split.
    - eapply wok_ext; [apply (wok_set _ _ _ _ _ id _ _ _ _ H H3 (H4 H2))|ext..].
    - intros j. unfold up, wset. destruct (Nat.eqb_spec j id) as [->|].
      + intros Hj. apply H5. lia.
      + intros _. split; reflexivity.
  Qed.

  Lemma w_memsize id : 0 < R id -> 0 < M id ->
    exists w', on_section w id pt_section_memsize = (w', Ok (memory (w id))) /\
      memory (w id) < 2 ^ 48 /\ mem_same w w' /\ wok cid R M A w'.
  Proof.
    intros Hr Hm. destruct (H id) as [H1 H2]. unfold on_section.
    destruct (one_memsize _ _ _ _ _ H1 Hr Hm H2) as [-> Hs].
    eexists. split; [reflexivity|]. split; [exact Hs|]. split; [apply mem_set; split; reflexivity|].
    eapply wok_ext; [apply (wok_set _ _ _ _ _ id _ _ _ _ H H1 H2)|ext..].
  Qed.

  Lemma w_map id mm : 0 < R id -> map_small mm ->
    exists w', (forall j, (j = id -> 0 < M id) -> same_mem (w j) (w' j)) /\
      ((on_section w id (fun s => pt_section_map_count s mm) = (w', Ok tt) /\
        M id < max_count /\ wok cid R (up M id (M id + 1)) A w' /\
        (M id = 0 -> exists x, mm = Ok x /\ sn_mapped (w' id) = Some x)) \/
       (exists e, on_section w id (fun s => pt_section_map_count s mm) = (w', Err e) /\
        wok cid R M A w' /\ mem_same w w' /\ (mm = Err e \/ e = pte_overflow /\ M id = max_count))).
  Proof.
    intros Hr Hmm. destruct (H id) as [H1 H2]. unfold on_section.
    destruct (one_map _ _ _ _ _ H1 mm Hr Hmm H2)
      as [(s' & -> & H3 & H4 & H5 & H6)|[(Hx & ->)|(Hz & e & He & ->)]].
    - exists (wset w id s'). split.
      + intros j Hj. unfold wset. destruct (Nat.eqb_spec j id) as [->|];
          [apply H5, Hj; reflexivity|split; reflexivity].
      + left. split; [reflexivity|]. split.
        { pose proof (ho_mmax _ _ H3) as Hmx. cbn in Hmx. lia. }
        split.
        * eapply wok_ext; [apply (wok_set _ _ _ _ _ id _ _ _ _ H H3 H4)|ext..].
        * intros Hz. destruct (H6 Hz) as (x & Ex & E1 & E2). exists x. split; [exact Ex|].
          unfold wset. rewrite Nat.eqb_refl. exact E1.
    - assert (Hms : mem_same w (wset w id (w id))) by (apply mem_set; split; reflexivity).
      exists (wset w id (w id)). split; [intros j _; apply Hms|].
      right. exists pte_overflow. split; [reflexivity|]. split; [|split; [exact Hms|right; tauto]].
      eapply wok_ext; [apply (wok_set _ _ _ _ _ id _ _ _ _ H H1 H2)|ext..].
    - assert (Hms : mem_same w (wset w id (w id))) by (apply mem_set; split; reflexivity).
      exists (wset w id (w id)). split; [intros j _; apply Hms|].
      right. exists e. split; [reflexivity|]. split; [|split; [exact Hms|left; exact He]].
      eapply wok_ext; [apply (wok_set _ _ _ _ _ id _ _ _ _ H H1 H2)|ext..].
  Qed.

  Lemma w_new id : R id = 0 ->
    wok cid (up R id 1) (up M id 0) (up A id 0) (wset w id new_scnt).
  Proof.
    intros _. apply wok_set; [exact H|exact holds_new|split; discriminate].
  Qed.

  Lemma w_zero id : R id = 0 -> M id = 0 /\ A id = 0.
  Proof.
    intros Hz. destruct (H id) as [H1 _]. split.
    - apply (ho_last _ _ H1). exact Hz.
    - pose proof (ho_own _ _ H1) as G. cbn in G. lia.
  Qed.

  Lemma w_max id : R id <= max_count /\ M id <= max_count /\ A id <= R id.
  Proof.
    destruct (H id) as [H1 _].
    exact (conj (ho_max _ _ H1) (conj (ho_mmax _ _ H1) (ho_own _ _ H1))).
  Qed.

  Lemma w_attached id c : ic_id c = cid -> attached_to (w id) c = negb (A id =? 0).
  Proof.
    intros <-. unfold attached_to. destruct (H id) as [H1 _]. rewrite (ho_cache _ _ H1). cbn.
    destruct (A id =? 0); [reflexivity|]. apply Nat.eqb_refl.
  Qed.

  Lemma w_freed id : sn_freed (w id) = (R id =? 0).
  Proof. destruct (H id) as [H1 _]. apply (ho_freed _ _ H1). Qed.
  Lemma w_mcount id : sn_mcount (w id) = M id.
  Proof. destruct (H id) as [H1 _]. apply (ho_maps _ _ H1). Qed.
End All.
