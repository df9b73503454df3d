(** Theorems about images: lookups (C24), failing updates (C25), copies (C26), removals
    (C27), reads (C28), the decoder's section cache (C43) and references (C44). *)

From Verif Require Import Base M_asid M_section M_image S_config S_image L_config L_section
  L_image L_imgref L_imghist L_imgfind.
From Coq Require Import List NArith ZArith Bool Lia ZifyBool ZifyNat ZifyN Permutation PeanoNat.
Import ListNotations.
Open Scope N_scope.
Ltac Zify.zify_post_hook ::= Z.div_mod_to_equations.

(** Example data: three sections, all held once by the caller. *)
Definition ex_sec (id : nat) (size : N) : section :=
  mk_section_info id (N.of_nat id) 0x100 size.
Definition ex_refs : refs := fun id => if Nat.ltb id 3 then 1 else 0.
Definition ex_world : world :=
  fun id => if Nat.ltb id 3 then new_scnt else mk_scnt 0 0 0 None None None true.
Lemma ex_held : held ex_refs ex_world.
Proof.
  intros id. unfold ex_refs, ex_world. destruct (Nat.ltb id 3); cbn; repeat split; try lia.
Qed.
Definition ex_any : asid := mk_asid pt_asid_no_cr3 pt_asid_no_vmcs.
Definition ex_q (cr3 : N) : asid := mk_asid cr3 0x7000.
Ltac may_tac :=
  repeat match goal with
  | |- callers_may _ _ (_ :: _) => split
  | |- callers_may _ _ [] => exact I
  | |- caller_may _ _ _ => split; [intros n [= <-]; reflexivity|]
  | |- _ => reflexivity
  end.
(** Section 1 covers the middle of section 0. *)
Definition ex_ops : list iop :=
  [IAdd (ex_sec 0 0x30) ex_any 0x1000 1 []; IAdd (ex_sec 1 0x10) (mk_asid 5 pt_asid_no_vmcs) 0x1010 2 []].
Lemma ex_may : callers_may ex_refs (ex_world, []) ex_ops.
Proof. unfold ex_ops. may_tac. Qed.
Lemma ex_specific c : c < 100 -> specific (ex_q c).
Proof. intros H. split; unfold unspecified; cbn; lia. Qed.

(** ** C24 *)

(** After every sequence of calls, looking up an address gives a section that the
    history says is visible, at the corresponding offset; and if it fails, there is none
    (or the section has the maximal number of references). *)
Theorem C24_lookup f w ops q x :
  held f w -> callers_may f (w, []) ops ->
  let s := fst (after w ops) in
  let h := snd (after w ops) in
  (exists a, shows h a x /\ compatible (ad_asid a) q /\
     (lookup_at s q x = place_of a x \/
      sn_ucount (fst s (sc_id (ad_sec a))) = 65535 /\ lookup_at s q x = Some (Err pte_overflow))) \/
  ((forall a, compatible (ad_asid a) q -> ~ shows h a x) /\
   lookup_at s q x = Some (Err pte_nomap)).
Proof.
  intros H Hc. cbv zeta.
  destruct (find_char _ _ _ q x (hi_core _ _ _ (hinv_after f w ops H Hc)))
    as [(a & A1 & A2 & A3)|A]; [left|right; exact A].
  exists a. split; [exact A1|]. split; [exact A2|]. tauto.
Qed.

(** In a fully specified address space there is at most one such section. *)
Theorem C24_unique h q a b x :
  specific q -> compatible (ad_asid a) q -> compatible (ad_asid b) q ->
  shows h a x -> shows h b x -> a = b.
Proof.
  intros Hq Ha Hb H1 H2. apply (shows_unique h a b x H1 H2).
  apply (specific_compat q); assumption.
Qed.

(** Visible sections, in closed form: successfully added, and since then neither removed
    nor covered at this address by the addition of a section in a compatible address
    space. *)
Theorem C24_latest h a x :
  shows h a x <->
  exists later o u earlier,
    h = later ++ (o, ADone (Ok u)) :: earlier /\ adds o = Some a /\ contains a x /\
    Forall (fun p => ~ removes (fst p) a /\
                     forall n v, adds (fst p) = Some n -> snd p = ADone (Ok v) ->
                                 contains n x -> ~ compatible (ad_asid a) (ad_asid n)) later.
Proof.
  induction h as [|[o r] h IH]; cbn [shows].
  - split; [intros []|]. intros ([|? ?] & ? & ? & ? & E & _); discriminate.
  - assert (Step : forall later o1 u1 earlier,
        ((o, r) :: h = later ++ (o1, ADone (Ok u1)) :: earlier) <->
        (later = [] /\ o = o1 /\ r = ADone (Ok u1) /\ h = earlier) \/
        (exists later', later = (o, r) :: later' /\ h = later' ++ (o1, ADone (Ok u1)) :: earlier)).
    { intros [|p later] o1 u1 earlier; cbn [app]; split.
      - intros [= -> -> ->]. left. tauto.
      - intros [(_ & -> & -> & ->)|(l' & E & _)]; [reflexivity|discriminate].
      - intros [= <- E]. right. exists later. tauto.
      - intros [(E & _)|(l' & [= -> ->] & ->)]; [discriminate|reflexivity]. }
    destruct (adds o) as [n|] eqn:Ho.
    + assert (Hrem : ~ removes o a) by (destruct o; try discriminate Ho; cbn; tauto).
      destruct r as [[u|e|u]| | |].
      1:{ split.
          - intros [[-> Hx]|[Hs Hn]].
            + exists [], o, u, h. repeat split; [exact Ho|apply Hx|apply Hx|constructor].
            + apply IH in Hs. destruct Hs as (l & o1 & u1 & e1 & -> & H1 & H2 & H3).
              exists ((o, ADone (Ok u)) :: l), o1, u1, e1. repeat split; try assumption; try apply H2.
              constructor; [|exact H3]. cbn [fst snd]. split; [exact Hrem|].
              intros n' v Hn' _ Hc1 Hc2. rewrite Ho in Hn'. injection Hn' as <-. tauto.
          - intros (l & o1 & u1 & e1 & E & H1 & H2 & H3). apply Step in E.
            destruct E as [(-> & -> & _ & _)|(l' & -> & E)].
            + left. rewrite Ho in H1. injection H1 as ->. tauto.
            + right. inversion H3 as [|? ? [_ H4] H5]; subst. cbn [fst snd] in H4. split.
              * apply IH. exists l', o1, u1, e1. tauto.
              * intros [Hc Hx]. apply (H4 n u Ho eq_refl Hx Hc). }
      all: rewrite IH; split;
        [ intros (l & o1 & u1 & e1 & -> & H1 & H2 & H3);
          eexists (_ :: l), o1, u1, e1; cbn [app]; repeat split; try assumption; try apply H2;
          constructor; [|exact H3]; cbn [fst snd]; split; [exact Hrem|]; intros; discriminate
        | intros (l & o1 & u1 & e1 & E & H1 & H2 & H3); apply Step in E;
          destruct E as [(_ & _ & E & _)|(l' & -> & E)]; [discriminate|];
          inversion H3; subst; exists l', o1, u1, e1; tauto ].
    + rewrite IH. split.
      * intros [(l & o1 & u1 & e1 & -> & H1 & H2 & H3) Hr].
        exists ((o, r) :: l), o1, u1, e1. repeat split; try assumption; try apply H2.
        constructor; [|exact H3]. cbn [fst snd]. split; [exact Hr|]. congruence.
      * intros (l & o1 & u1 & e1 & E & H1 & H2 & H3). apply Step in E.
        destruct E as [(-> & -> & _ & _)|(l' & -> & E)]; [congruence|].
        inversion H3 as [|? ? [H4 _] H5]; subst. cbn [fst] in H4.
        split; [|exact H4]. exists l', o1, u1, e1. tauto.
Qed.

(** "The most recently added matching section" is not the rule: adding a section for one
    address space hides a section that was added for all address spaces from all of
    them. *)
Theorem C24_most_recent_refuted :
  exists f w ops q x a,
    held f w /\ callers_may f (w, []) ops /\ specific q /\
    (forall o r n, In (o, r) (snd (after w ops)) -> adds o = Some n ->
       contains n x -> compatible (ad_asid n) q -> n = a) /\
    (exists o u, In (o, ADone (Ok u)) (snd (after w ops)) /\ adds o = Some a /\
                 contains a x /\ compatible (ad_asid a) q) /\
    lookup_at (fst (after w ops)) q x = Some (Err pte_nomap).
Proof.
  exists ex_refs, ex_world, ex_ops, (ex_q 6), 0x1018, (mk_added (ex_sec 0 0x30) ex_any 0x1000 1).
  split; [exact ex_held|]. split; [exact ex_may|]. split; [apply ex_specific; reflexivity|].
  split; [|split].
  - intros o r n Hin. vm_compute in Hin. destruct Hin as [[= <- _]|[[= <- _]|[]]]; intros [= <-].
    + intros _ [[H|[H|H]] _]; vm_compute in H; discriminate.
    + reflexivity.
  - exists (IAdd (ex_sec 0 0x30) ex_any 0x1000 1 []), tt.
    split; [right; left; reflexivity|]. split; [reflexivity|]. split; [split; vm_compute; congruence|].
    split; right; left; reflexivity.
  - reflexivity.
Qed.

(** A section that ends exactly at the end of the address space is never visible. *)
Theorem C24_end_refuted :
  exists f w ops q x a, held f w /\ specific q /\
    (forall n, In n ops -> adds n = Some a) /\ contains a x /\ compatible (ad_asid a) q /\
    Forall (fun p => snd p = ADone (Ok tt)) (snd (after w ops)) /\ ops <> [] /\
    ad_vaddr a + sc_size (ad_sec a) = 2 ^ 64 /\ 0 < f (sc_id (ad_sec a)) /\
    lookup_at (fst (after w ops)) q x = Some (Err pte_nomap).
Proof.
  exists ex_refs, ex_world, [IAdd (ex_sec 0 0x1000) ex_any 0xfffffffffffff000 1 []], (ex_q 1),
         0xfffffffffffff010, (mk_added (ex_sec 0 0x1000) ex_any 0xfffffffffffff000 1).
  split; [exact ex_held|]. split; [apply ex_specific; reflexivity|].
  split; [intros n [<-|[]]; reflexivity|]. split; [split; vm_compute; congruence|].
  split; [split; right; left; reflexivity|].
  split; [repeat constructor|]. split; [discriminate|]. repeat split; reflexivity.
Qed.

Print Assumptions C24_lookup.
Print Assumptions C24_unique.
Print Assumptions C24_latest.
Print Assumptions C24_most_recent_refuted.
Print Assumptions C24_end_refuted.

Example C24_case :
  held ex_refs ex_world /\ callers_may ex_refs (ex_world, []) ex_ops /\
  lookup_at (fst (after ex_world ex_ops)) (ex_q 5) 0x1008 = Some (Ok (ex_sec 0 0x30, 1, 0x8)) /\
  lookup_at (fst (after ex_world ex_ops)) (ex_q 5) 0x1018 = Some (Ok (ex_sec 1 0x10, 2, 0x8)) /\
  lookup_at (fst (after ex_world ex_ops)) (ex_q 6) 0x1028 = Some (Ok (ex_sec 0 0x30, 1, 0x28)) /\
  lookup_at (fst (after ex_world ex_ops)) (ex_q 5) 0x1030 = Some (Err pte_nomap).
Proof.
  split; [exact ex_held|]. split; [exact ex_may|]. repeat split; reflexivity.
Qed.

(** ** C25 *)

(** If adding a section fails, at whichever allocation, then all use counts are as
    before and so are all lookups. *)
Theorem C25_add_fails f w ops sec a vaddr isid mem e :
  held f w -> callers_may f (w, []) (ops ++ [IAdd sec a vaddr isid mem]) ->
  let s := fst (after w ops) in
  let s' := fst (istep s (IAdd sec a vaddr isid mem)) in
  snd (istep s (IAdd sec a vaddr isid mem)) = ADone (Err e) ->
  e = pte_nomem /\
  (forall id, fst s' id = fst s id) /\
  forall q x, specific q -> lookup_at s' q x = lookup_at s q x.
Proof.
  intros H Hc. cbv zeta. intros Hr.
  assert (Hops : callers_may f (w, []) ops /\
                 caller_may (refs_run f (w, []) ops) (fst (fst (after w ops)))
                            (IAdd sec a vaddr isid mem)).
  { clear Hr H. unfold after. revert Hc. generalize (w, @nil entry), f, (@nil (iop * ians)).
    induction ops as [|o ops IH]; intros s g h; cbn [app callers_may irun refs_run].
    - cbn [fst]. tauto.
    - intros [H1 H2]. destruct (istep s o) as [s1 r1] eqn:E. cbn [fst snd] in *.
      destruct (IH s1 _ ((o, r1) :: h) H2) as [A B]. tauto. }
  destruct Hops as [Hc1 [Hfit Hown]].
  pose proof (hinv_after f w ops H Hc1) as I.
  destruct (fst (after w ops)) as [w1 img1]. cbn [fst] in Hown.
  revert Hr. cbn [istep].
  destruct (pt_image_add w1 mem img1 sec a vaddr isid) as [[w2 img2] r2] eqn:E.
  cbn [fst snd]. intros [= ->].
  destruct (image_add_spec _ _ _ _ _ _ _ _ _ _ _ (hi_owned _ _ _ I) Hown E) as (-> & P & W).
  split; [reflexivity|]. split; [exact W|]. intros q x Hq.
  assert (I2 : hcore (refs_run f (w, []) ops) (snd (after w ops)) (w2, img2)).
  { split; cbn [fst snd].
    - eapply owned_perm; [symmetry; exact P|]. intros id. rewrite W. apply (hi_owned _ _ _ I).
    - eapply Permutation_Forall; [symmetry; exact P|apply (hi_wf _ _ _ I)].
    - intros o y. rewrite <- (hi_facts _ _ _ I). cbn [snd].
      split; apply facts_perm; [|symmetry]; exact P. }
  assert (Hpc : forall id, pieces img2 id = pieces img1 id) by (intros id; apply pieces_perm, P).
  destruct (same_lookup _ _ _ _ _ _ q x Hq (hi_core _ _ _ I) I2) as [E1|E1];
    [reflexivity|intros b _; cbn [snd]; rewrite Hpc; lia|exact E1|].
  destruct (same_lookup _ _ _ _ _ _ q x Hq I2 (hi_core _ _ _ I)) as [E2|E2];
    [reflexivity|intros b _; cbn [snd]; rewrite Hpc; lia|symmetry; exact E2|congruence].
Qed.

Print Assumptions C25_add_fails.

(** Allocating the second piece fails. *)
Example C25_case :
  let add := IAdd (ex_sec 2 8) (ex_q 5) 0x1004 3 [true; true; false] in
  callers_may ex_refs (ex_world, []) (ex_ops ++ [add]) /\
  snd (istep (fst (after ex_world ex_ops)) add) = ADone (Err pte_nomem).
Proof.
  cbv zeta. split; [|reflexivity]. unfold ex_ops. cbn [app]. may_tac.
Qed.

(** ** C26 *)

(** Copying an image none of whose sections has been split, without error, gives an
    image with the same lookups (unless the number of references overflows). *)
Theorem C26_copy f w ops mems w' img' q x :
  held f w -> callers_may f (w, []) ops ->
  let s := fst (after w ops) in
  Forall whole (snd s) ->
  pt_image_copy (fst s) mems [] (snd s) = (w', img', Ok 0) ->
  specific q ->
  lookup_at (w', img') q x = lookup_at s q x \/
  lookup_at (w', img') q x = Some (Err pte_overflow) \/ lookup_at s q x = Some (Err pte_overflow).
Proof.
  intros H Hc. cbv zeta. intros Hw E Hq.
  pose proof (hinv_after f w ops H Hc) as I.
  destruct (fst (after w ops)) as [w1 img1]. cbn [fst snd] in *.
  set (g := refs_run f (w, []) ops) in *. set (h := snd (after w ops)) in *.
  set (g2 := fun id => g id + pieces img1 id).
  assert (O1 : owned g2 w1 []).
  { intros id. cbv zeta. destruct (hi_owned _ _ _ I id) as (A & B & C & D). cbn [fst snd] in *.
    unfold g2. rewrite N.add_0_r. split; [exact A|]. split; [exact B|]. split; [exact C|].
    intros Hz. apply D. lia. }
  destruct (copy_spec img1 g2 w1 mems [] w' img' O1) as (K1 & K2 & K3).
  - constructor.
  - pose proof (hi_wf _ _ _ I) as Wf. cbn [snd] in Wf. rewrite Forall_forall in *.
    intros e Hin. split; [|split; [apply Hw; exact Hin|apply Wf; exact Hin]].
    apply pieces_in in Hin. unfold g2. lia.
  - intros e o y Hin Hf Hcm Hx. rewrite facts_nil in Hf. destruct Hf as [[]|Hf].
    apply (shows_unique h _ _ y).
    + apply (hi_facts _ _ _ I). exact Hf.
    + apply (hi_facts _ _ _ I). exists e. tauto.
    + exact Hcm.
  - exact E.
  - assert (I2 : hcore g2 h (w', img')).
    { split; cbn [fst snd]; [exact K1|exact K2|]. intros a y. rewrite K3, facts_nil.
      rewrite <- (hi_facts _ _ _ I). cbn [snd]. tauto. }
    destruct (find_char _ _ _ q x (hi_core _ _ _ I)) as [(a & A1 & A2 & A3)|[A1 A2]];
      destruct (find_char _ _ _ q x I2) as [(b & B1 & B2 & B3)|[B1 B2]].
    + assert (a = b).
      { apply (shows_unique h a b x A1 B1). apply (specific_compat q); assumption. }
      subst b. destruct A3 as [[_ A3]|(_ & _ & A3)], B3 as [[_ B3]|(_ & _ & B3)]; try tauto.
      left. congruence.
    + exfalso. apply (B1 a); assumption.
    + exfalso. apply (A1 b); assumption.
    + left. congruence.
Qed.

(** In general, copying changes lookups: the rear part of a split section is copied as if
    it was the beginning of the section. *)
Theorem C26_copy_refuted :
  exists f w ops q x,
    held f w /\ callers_may f (w, []) ops /\ specific q /\
    let copy := pt_image_copy (fst (fst (after w ops))) [] [] (snd (fst (after w ops))) in
    snd copy = Ok 0 /\
    lookup_at (fst copy) q x = Some (Ok (ex_sec 0 0x30, 1, 0x18)) /\
    lookup_at (fst (after w ops)) q x = Some (Err pte_nomap).
Proof.
  exists ex_refs, ex_world, ex_ops, (ex_q 5), 0x1038.
  split; [exact ex_held|]. split; [exact ex_may|]. split; [apply ex_specific; reflexivity|].
  cbv zeta. repeat split; reflexivity.
Qed.

Print Assumptions C26_copy.
Print Assumptions C26_copy_refuted.

Example C26_case :
  let ops := [IAdd (ex_sec 0 0x30) ex_any 0x1000 1 []; IAdd (ex_sec 1 0x10) (ex_q 5) 0x1030 2 []] in
  callers_may ex_refs (ex_world, []) ops /\ Forall whole (snd (fst (after ex_world ops))) /\
  snd (pt_image_copy (fst (fst (after ex_world ops))) [] [] (snd (fst (after ex_world ops)))) = Ok 0.
Proof.
  cbv zeta. split; [|split; [|reflexivity]].
  - may_tac.
  - repeat constructor.
Qed.

(** ** C27 *)

(** What a call removes, by file name and address space or by address space alone. *)
Definition matches (o : iop) (sec : section) (a : asid) : Prop :=
  match o with
  | IRemoveFile name q => sc_name sec = name /\ compatible a q
  | IRemoveAsid q => compatible a q
  | _ => False
  end.
Definition removing (o : iop) : Prop :=
  match o with IRemoveFile _ _ | IRemoveAsid _ => True | _ => False end.

Lemma pieces_filter p l id : pieces (filter p l) id <= pieces l id.
Proof.
  induction l as [|e l IH]; cbn [filter]; [lia|]. destruct (p e); rewrite !pieces_cons; lia.
Qed.

Lemma removing_spec f h s o s' r : hinv f h s -> removing o -> istep s o = (s', r) ->
  exists p, snd s' = filter p (snd s) /\
            r = ACount (Ok (N.of_nat (length (filter (fun e => negb (p e)) (snd s))))).
Proof.
  intros I Ho. destruct s as [w img]. destruct o; try destruct Ho; cbn [istep].
  - unfold pt_image_remove_by_filename.
    destruct (remove_where _ w img) as [[w1 img1] r1] eqn:E.
    destruct (remove_where_spec _ _ _ _ _ _ _ (hi_owned _ _ _ I) E) as (-> & -> & _).
    intros [= <- <-]. eexists. split; [reflexivity|].
    do 4 f_equal. apply filter_ext. intros e. rewrite negb_involutive. reflexivity.
  - unfold pt_image_remove_by_asid.
    destruct (remove_where _ w img) as [[w1 img1] r1] eqn:E.
    destruct (remove_where_spec _ _ _ _ _ _ _ (hi_owned _ _ _ I) E) as (-> & -> & _).
    intros [= <- <-]. eexists. split; [reflexivity|].
    do 4 f_equal. apply filter_ext. intros e. rewrite negb_involutive. reflexivity.
Qed.

(** After removing, a lookup that found a matching section finds nothing, and every other
    lookup gives the same as before.  The returned number is the number of image entries
    that went away. *)
Theorem C27_removal f w ops o q x :
  held f w -> callers_may f (w, []) ops -> removing o -> specific q ->
  let s := fst (after w ops) in
  let s' := fst (istep s o) in
  match snd (istep s (IFind q x)) with
  | AFound (Ok e) =>
      (matches o (ms_sec (en_msec e)) (ms_asid (en_msec e)) ->
       lookup_at s' q x = Some (Err pte_nomap)) /\
      (~ matches o (ms_sec (en_msec e)) (ms_asid (en_msec e)) ->
       lookup_at s' q x = lookup_at s q x)
  | AFound (Err pte_nomap) => lookup_at s' q x = Some (Err pte_nomap)
  | AFound (Err pte_overflow) => True
  | _ => False
  end /\
  exists n, snd (istep s o) = ACount (Ok n) /\
            N.of_nat (length (snd s)) = n + N.of_nat (length (snd s')).
Proof.
  intros H Hc Ho Hq. cbv zeta.
  pose proof (hinv_after f w ops H Hc) as I.
  destruct (after w ops) as [s h]. cbn [fst snd] in *.
  set (g := refs_run f (w, []) ops) in *.
  destruct (istep s o) as [s' r] eqn:E. cbn [fst snd].
  destruct (removing_spec _ _ _ _ _ _ I Ho E) as (p & Hp & Hr).
  assert (Hm : caller_may g (fst s) o).
  { destruct o; try destruct Ho; (split; [discriminate|exact I0 || exact Logic.I]). }
  destruct (hinv_step _ _ _ _ _ _ I Hm E) as [I' _].
  assert (Hg : refs_after g o r = g) by (destruct o; try destruct Ho; reflexivity).
  rewrite Hg in I'.
  assert (Hsh : forall a y, shows ((o, r) :: h) a y <-> shows h a y /\ ~ removes o a).
  { intros a y. destruct o; try destruct Ho; reflexivity. }
  split.
  - assert (Hrm : forall e, matches o (ms_sec (en_msec e)) (ms_asid (en_msec e)) <->
                            removes o (origin e)) by (destruct o; try destruct Ho; reflexivity).
    pose proof (find_char _ _ _ q x (hi_core _ _ _ I)) as F.
    assert (Found : forall e, snd (istep s (IFind q x)) = AFound (Ok e) ->
              shows h (origin e) x /\ compatible (ad_asid (origin e)) q).
    { intros e. destruct s as [w1 img1]. cbn [istep]. unfold pt_image_find.
      pose proof (fetch_spec img1 q x (hi_wf _ _ _ I)) as G.
      destruct (pt_image_fetch_section img1 q x) as [img2 [e1| |]]; [|discriminate..].
      destruct (on_section w1 (en_id e1) pt_section_get) as [w2 [| |]]; try discriminate.
      intros [= <-]. destruct G as (_ & G1 & G2 & G3 & _). split; [|exact G3].
      apply (hi_facts _ _ _ I). exists e1. tauto. }
    assert (Same : forall a, shows h a x -> compatible (ad_asid a) q -> ~ removes o a ->
              lookup_at s' q x = lookup_at s q x \/ lookup_at s q x = Some (Err pte_overflow)).
    { intros a A1 A2 A3. apply (same_lookup g h s g ((o, r) :: h) s' q x Hq);
        [apply hi_core; exact I|apply hi_core; exact I'| |].
      - intros b B. rewrite Hsh. split; [|tauto]. intros B1. split; [exact B1|].
        assert (a = b) by (apply (shows_unique h a b x A1 B1); apply (specific_compat q); assumption).
        subst b. exact A3.
      - intros b _. rewrite Hp. pose proof (pieces_filter p (snd s) (sc_id (ad_sec b))). lia. }
    assert (Gone : forall a, shows h a x -> compatible (ad_asid a) q -> removes o a ->
              lookup_at s' q x = Some (Err pte_nomap)).
    { intros a A1 A2 A3. destruct (find_char _ _ _ q x (hi_core _ _ _ I')) as [(b & B1 & B2 & _)|[_ B]];
        [|exact B]. exfalso. rewrite Hsh in B1. destruct B1 as [B1 B3].
      assert (a = b) by (apply (shows_unique h a b x A1 B1); apply (specific_compat q); assumption).
      subst b. tauto. }
    unfold lookup_at in F at 1 2 3.
    destruct (snd (istep s (IFind q x))) as [|? |[e|e|u]|] eqn:Ef; cbn [place] in F.
    1,2,5,6: exfalso; destruct F as [(a & _ & _ & [[_ F]|(_ & _ & F)])|[_ F]]; discriminate.
    + destruct (Found e eq_refl) as [F1 F2]. rewrite Hrm. split.
      * intros Hm1. apply (Gone _ F1 F2 Hm1).
      * intros Hm1. destruct (Same _ F1 F2 Hm1) as [S1|S1]; [exact S1|].
        exfalso. unfold lookup_at in S1. rewrite Ef in S1. discriminate.
    + destruct F as [(a & A1 & A2 & [[_ F]|(_ & _ & F)])|[F1 F]]; [discriminate| |];
        injection F as ->; [exact Logic.I|].
      destruct (find_char _ _ _ q x (hi_core _ _ _ I')) as [(b & B1 & B2 & _)|[_ B]]; [|exact B].
      exfalso. rewrite Hsh in B1. apply (F1 b B2). tauto.
  - eexists. split; [exact Hr|]. rewrite Hp. clear.
    induction (snd s) as [|e l IH]; [reflexivity|]. cbn [filter].
    destruct (p e); cbn [negb length]; lia.
Qed.

(** The number is not the number of removed sections: a split section counts once per
    fragment. *)
Theorem C27_count_refuted :
  exists f w ops o, held f w /\ callers_may f (w, []) ops /\ removing o /\
    snd (istep (fst (after w ops)) o) = ACount (Ok 2) /\
    forall n, In n (map (fun p => adds (fst p)) (snd (after w ops))) ->
      forall a, n = Some a -> matches o (ad_sec a) (ad_asid a) -> ad_sec a = ex_sec 0 0x30.
Proof.
  exists ex_refs, ex_world, ex_ops, (IRemoveFile 0 ex_any).
  split; [exact ex_held|]. split; [exact ex_may|]. split; [exact Logic.I|]. split; [reflexivity|].
  intros n [<-|[<-|[]]] a [= <-]; [|reflexivity]. intros [E _]. discriminate.
Qed.

(** Removing a single section: the first one with the given section, address space and
    address goes; without one, nothing changes. *)
Definition is_at (id : nat) (a : asid) (vaddr : N) (e : entry) : Prop :=
  compatible (ms_asid (en_msec e)) a /\ sc_id (ms_sec (en_msec e)) = id /\ ms_vaddr (en_msec e) = vaddr.
Theorem C27_remove_one w img id a vaddr w' img' r :
  pt_image_remove w img id a vaddr = (w', img', r) ->
  (r = Err pte_bad_image /\ w' = w /\ img' = img /\ Forall (fun e => ~ is_at id a vaddr e) img) \/
  (exists pre e post, img = pre ++ e :: post /\ img' = pre ++ post /\
     Forall (fun e => ~ is_at id a vaddr e) pre /\ is_at id a vaddr e /\
     pt_section_list_free w e = (w', r)).
Proof.
  revert w' img' r. induction img as [|e img IH]; intros w' img' r; cbn [pt_image_remove].
  - intros [= <- <- <-]. left. auto.
  - destruct (pt_asid_match (ms_asid (en_msec e)) a && Nat.eqb (en_id e) id &&
              (pt_msec_begin (en_msec e) =? vaddr)) eqn:Em.
    + destruct (pt_section_list_free w e) as [w1 r1] eqn:Ef. intros [= <- <- <-]. right.
      exists [], e, img. apply andb_true_iff in Em. destruct Em as [Em E3].
      apply andb_true_iff in Em. destruct Em as [E1 E2].
      apply Nat.eqb_eq in E2. apply N.eqb_eq in E3. apply match_compat in E1.
      split; [reflexivity|]. split; [reflexivity|]. split; [constructor|]. split; [|exact Ef].
      split; [exact E1|]. split; assumption.
    + assert (Hne : ~ is_at id a vaddr e).
      { intros (H1 & H2 & H3). apply match_compat in H1. unfold en_id, pt_msec_begin in Em.
        change (en_sec e) with (ms_sec (en_msec e)) in Em.
        rewrite H1, H2, H3, Nat.eqb_refl, N.eqb_refl in Em. discriminate. }
      destruct (pt_image_remove w img id a vaddr) as [[w1 img1] r1] eqn:Er. intros [= <- <- <-].
      destruct (IH _ _ _ eq_refl) as [(-> & -> & -> & Hf)|(pre & e' & post & -> & -> & Hf & Ha & Hl)].
      * left. auto.
      * right. exists (e :: pre), e', post. split; [reflexivity|]. split; [reflexivity|].
        split; [constructor; assumption|]. split; assumption.
Qed.
Example C27_remove_one_case :
  let s := fst (after ex_world ex_ops) in
  map (fun e => (en_id e, ms_vaddr (en_msec e))) (snd s) = [(0%nat, 0x1020); (0%nat, 0x1000); (1%nat, 0x1010)] /\
  (let '(_, img, r) := pt_image_remove (fst s) (snd s) 0 ex_any 0x1000 in
   map (fun e => (en_id e, ms_vaddr (en_msec e))) img = [(0%nat, 0x1020); (1%nat, 0x1010)] /\ r = Ok tt).
Proof. vm_compute. auto. Qed.
Print Assumptions C27_remove_one.
Print Assumptions C27_removal.
Print Assumptions C27_count_refuted.

Example C27_case :
  let s := fst (after ex_world ex_ops) in
  let s' := fst (istep s (IRemoveFile 1 (ex_q 5))) in
  lookup_at s (ex_q 5) 0x1018 = Some (Ok (ex_sec 1 0x10, 2, 8)) /\
  lookup_at s' (ex_q 5) 0x1018 = Some (Err pte_nomap) /\
  lookup_at s' (ex_q 5) 0x1028 = Some (Ok (ex_sec 0 0x30, 1, 0x28)) /\
  snd (istep s (IRemoveFile 1 (ex_q 5))) = ACount (Ok 1).
Proof. cbv zeta. repeat split; reflexivity. Qed.

(** ** C28 *)

(** Reading gives bytes of the visible section's file, as many as requested unless the
    section ends or another section was added right behind; or fails because mapping
    fails.  Where no section is visible, the callback decides. *)
Theorem C28_read f w ops cb files map size q x :
  held f w -> callers_may f (w, []) ops -> 0 < size < 2 ^ 16 ->
  let s := fst (after w ops) in
  let h := snd (after w ops) in
  (forall a, shows h a x -> compatible (ad_asid a) q ->
     mapped_well (fst s) (ad_sec a) /\
     sc_offset (ad_sec a) + sc_size (ad_sec a) <= fsize (files (sc_name (ad_sec a))) < 2 ^ 63 /\
     (exists fs page u mm mem, sc_offset (ad_sec a) + sc_size (ad_sec a) <= fs < 2 ^ 63 /\
        map (ad_sec a) = map_file (ad_sec a) fs page u mm mem)) ->
  let r := snd (istep s (IRead cb files map size q x)) in
  (exists a, shows h a x /\ compatible (ad_asid a) q /\
    ((exists bytes n, r = ABytes (Ok (ad_isid a, bytes)) /\
        length bytes = n /\ 0 < N.of_nat n <= size /\
        (forall i, i < N.of_nat n -> shows h a (x + i)) /\
        (N.of_nat n = size \/ x + N.of_nat n = ad_vaddr a + sc_size (ad_sec a) \/
         begins h (x + N.of_nat n)) /\
        forall i, (i < n)%nat ->
          nth_error bytes i = nth_error (files (sc_name (ad_sec a)))
            (N.to_nat (sc_offset (ad_sec a) + (x - ad_vaddr a)) + i)) \/
     (sn_mcount (fst s (sc_id (ad_sec a))) = 65535 /\ r = ABytes (Err pte_overflow)) \/
     (exists e, map (ad_sec a) = Err e /\ r = ABytes (Err e)))) \/
  ((forall a, compatible (ad_asid a) q -> ~ shows h a x) /\
   match cb with
   | None => r = ABytes (Err pte_nomap)
   | Some c =>
       match c size q x with
       | Ok bytes => r = ABytes (Ok (0, bytes))
       | Err e => r = ABytes (Err e)
       | UB u => r = ABytes (UB u)
       end
   end).
Proof.
  intros H Hc Hs. cbv zeta. intros Hm.
  pose proof (hinv_after f w ops H Hc) as I.
  destruct (after w ops) as [[w1 img1] h]. cbn [fst snd] in *.
  destruct (read_char _ _ _ _ cb files map size q x I Hs Hm) as [(a & A1 & A2 & A3)|[A1 A2]].
  2:{ right. split; [exact A1|]. rewrite A2. destruct cb as [c|]; [|reflexivity].
      destruct (c size q x); reflexivity. }
  left. exists a. split; [exact A1|]. split; [exact A2|].
  destruct A3 as [(n & N1 & N2 & N3 & N4)|A3]; [left|right; exact A3].
  destruct (Hm a A1 A2) as (_ & Hfs & _).
  assert (Hin : contains a (x + (n - 1))).
  { specialize (N2 (n - 1) ltac:(lia)). apply C24_latest in N2.
    destruct N2 as (_ & _ & _ & _ & _ & _ & G & _). exact G. }
  assert (Hin0 : contains a x).
  { apply C24_latest in A1. destruct A1 as (_ & _ & _ & _ & _ & _ & G & _). exact G. }
  unfold contains in Hin, Hin0.
  set (pos := sc_offset (ad_sec a) + (x - ad_vaddr a)) in *.
  assert (Hlen : N.of_nat (length (file_bytes (files (sc_name (ad_sec a))) pos n)) = n).
  { apply file_bytes_length. unfold pos. lia. }
  exists (file_bytes (files (sc_name (ad_sec a))) pos n),
         (length (file_bytes (files (sc_name (ad_sec a))) pos n)).
  rewrite !Hlen. split; [exact N4|]. split; [reflexivity|]. split; [exact N1|]. split; [exact N2|].
  split; [exact N3|]. intros i Hi. unfold file_bytes.
  revert Hi. unfold file_bytes. generalize (N.to_nat n), (N.to_nat pos), (files (sc_name (ad_sec a))).
  clear. intros k p l Hi. rewrite firstn_length in Hi.
  assert (Hk : (i < k)%nat) by lia. clear Hi.
  assert (G : forall (l : list N) k i, (i < k)%nat -> nth_error (firstn k l) i = nth_error l i).
  { clear. induction l as [|x l IH]; intros [|k] [|i] H; try lia; try reflexivity.
    cbn. apply IH. lia. }
  assert (G2 : forall (l : list N) p i, nth_error (skipn p l) i = nth_error l (p + i)).
  { clear. induction l as [|x l IH]; intros [|p] i; try reflexivity.
    - destruct i; reflexivity.
    - cbn. apply IH. }
  rewrite G by exact Hk. apply G2.
Qed.

Print Assumptions C28_read.

(** Reading across the beginning of another section. *)
Example C28_case :
  let file_of := fun name : N => map (fun i => N.of_nat i mod 256) (seq 0 0x200) in
  snd (istep (fst (after ex_world ex_ops))
         (IRead None file_of (fun s => map_file s 0x200 0x40 true true true) 8 (ex_q 5) 0x100c))
  = ABytes (Ok (1, [0xc; 0xd; 0xe; 0xf])) /\
  snd (istep (fst (after ex_world ex_ops))
         (IRead (Some (fun n _ _ => Ok (repeat 7 (N.to_nat n)))) file_of
                (fun s => map_file s 0x200 0x40 true true true) 2 (ex_q 5) 0x2000))
  = ABytes (Ok (0, [7; 7])).
Proof. cbv zeta. split; vm_compute; reflexivity. Qed.

(** ** C43 *)

(** A hit in a decoder's section cache, filled in address space [q], is what looking up
    the address in that address space would give now, whatever happened to the image
    since the cache was filled. *)
Theorem C43_hit f w ops c m isid q x :
  held f w -> callers_may f (w, []) ops ->
  (forall m', mc_msec c = Some m' -> compatible (ms_asid m') q) ->
  pt_msec_cache_read c (snd (fst (after w ops))) x = Ok (isid, m) ->
  exists e, pt_image_fetch_section (snd (fst (after w ops))) q x
            = (snd (fst (after w ops)), Ok e) /\
    sc_id (ms_sec (en_msec e)) = sc_id (ms_sec m) /\ ms_asid (en_msec e) = ms_asid m /\
    ms_vaddr (en_msec e) = ms_vaddr m /\ ms_offset (en_msec e) = ms_offset m /\
    ms_size (en_msec e) = ms_size m /\ en_isid e = isid.
Proof.
  intros H Hc Hq. pose proof (hinv_after f w ops H Hc) as I.
  destruct (fst (after w ops)) as [w1 img1]. cbn [snd].
  unfold pt_msec_cache_read. destruct (mc_msec c) as [m'|]; [|discriminate].
  specialize (Hq m' eq_refl). unfold pt_image_validate.
  destruct ((x <? pt_msec_begin m') || (pt_msec_end m' <=? x)) eqn:Er; [discriminate|].
  destruct img1 as [|e img1]; [discriminate|].
  destruct (N.eqb_spec (en_isid e) (mc_isid c)) as [Ei|]; [|discriminate].
  unfold msec_eqb, section_eqb.
  destruct (Nat.eqb_spec (sc_id (ms_sec (en_msec e))) (sc_id (ms_sec m'))) as [E1|]; [|discriminate].
  destruct (N.eqb_spec (as_cr3 (ms_asid (en_msec e))) (as_cr3 (ms_asid m'))) as [E2|]; [|discriminate].
  destruct (N.eqb_spec (as_vmcs (ms_asid (en_msec e))) (as_vmcs (ms_asid m'))) as [E3|]; [|discriminate].
  destruct (N.eqb_spec (ms_vaddr (en_msec e)) (ms_vaddr m')) as [E4|]; [|discriminate].
  destruct (N.eqb_spec (ms_offset (en_msec e)) (ms_offset m')) as [E5|]; [|discriminate].
  destruct (N.eqb_spec (ms_size (en_msec e)) (ms_size m')) as [E6|]; [|discriminate].
  cbn [andb negb bind]. intros [= <- <-].
  assert (Ea : ms_asid (en_msec e) = ms_asid m').
  { destruct (ms_asid (en_msec e)), (ms_asid m'). cbn in E2, E3. congruence. }
  exists e. split; [|tauto].
  unfold pt_image_fetch_section. cbn [find_split].
  assert (Ec : pt_image_check_msec (en_msec e) q x = true).
  { unfold pt_image_check_msec, pt_msec_begin, pt_msec_end in *. rewrite E4, E6, Er, Ea.
    apply match_compat. exact Hq. }
  rewrite Ec. reflexivity.
Qed.

(** Filling an empty cache gives what looking up gives; the section is then referenced
    and mapped, and invalidating the cache undoes both. *)
Theorem C43_fill f w ops c map q x w' c' img' isid m :
  held f w -> callers_may f (w, []) ops ->
  let s := fst (after w ops) in
  mc_msec c = None ->
  (forall a, shows (snd (after w ops)) a x -> mapped_well (fst s) (ad_sec a)) ->
  pt_msec_cache_fill (fst s) c (snd s) map q x = (w', c', img', Ok (isid, m)) ->
  lookup_at s q x = Some (Ok (ms_sec m, isid, pt_msec_unmap m x)) /\
  pt_msec_cache_read c' img' x = Ok (isid, m) /\ compatible (ms_asid m) q /\
  (let id := sc_id (ms_sec m) in
   sn_ucount (w' id) = sn_ucount (fst s id) + 1 /\
   sn_mcount (w' id) = sn_mcount (fst s id) + 1 /\ sn_mapped (w' id) <> None) /\
  exists w'', pt_msec_cache_invalidate w' c' = (w'', mk_msec_cache None isid, Ok tt) /\
    forall id, sn_ucount (w'' id) = sn_ucount (fst s id) /\
               sn_mcount (w'' id) = sn_mcount (fst s id) /\
               sn_freed (w'' id) = sn_freed (fst s id).
Proof.
  intros H Hc. cbv zeta. intros Hnone Hmw.
  pose proof (hinv_after f w ops H Hc) as I.
  destruct (after w ops) as [[w1 img1] h]. cbn [fst snd] in *.
  unfold pt_msec_cache_fill, pt_msec_cache_invalidate at 1. rewrite Hnone.
  unfold lookup_at. cbn [istep]. unfold pt_image_find.
  pose proof (fetch_spec img1 q x (hi_wf _ _ _ I)) as F.
  destruct (pt_image_fetch_section img1 q x) as [img2 [e| |]]; [|discriminate..].
  destruct F as (P & Hin & Hx & Hcm & rest & Himg).
  destruct (on_section w1 (en_id e) pt_section_get) as [w2 r2] eqn:E2.
  assert (Hn0 : refs_run f (w, []) ops (en_id e) + pieces img1 (en_id e) <> 0)
    by (pose proof (pieces_in _ _ Hin); lia).
  destruct (get_owned _ _ _ _ _ _ (hi_owned _ _ _ I) Hn0 E2) as [(-> & W2 & _)|(-> & _)];
    [|discriminate].
  destruct (free_alive _ _ _ _ (hi_owned _ _ _ I) Hin) as [Hf Hu]. cbn [fst] in Hf, Hu.
  assert (Hmw' : mapped_well w1 (en_sec e)).
  { apply (Hmw (origin e)). apply (hi_facts _ _ _ I). exists e. tauto. }
  unfold on_section at 1. set (s2 := w2 (en_id e)).
  assert (Es2 : s2 = set_ucount (w1 (en_id e)) (sn_ucount (w1 (en_id e)) + 1))
    by (unfold s2; rewrite W2, Nat.eqb_refl; reflexivity).
  assert (Hc2 : exists mp, (pt_section_map_count s2 (map (en_sec e))
     = (mk_scnt (sn_ucount s2) (sn_mcount (w1 (en_id e)) + 1) (sn_acount s2) (sn_iscache s2)
               (Some mp) (sn_bcache s2) false, Ok tt)) \/
     snd (pt_section_map_count s2 (map (en_sec e))) <> Ok tt).
  { unfold pt_section_map_count, alive. rewrite Es2.
    cbn [set_ucount sn_freed sn_mcount sn_mapped]. rewrite Hf.
    unfold mapped_well in Hmw'. change (sc_id (en_sec e)) with (en_id e) in Hmw'.
    destruct (sn_mapped (w1 (en_id e))) as [mp|] eqn:Emp.
    - destruct Hmw' as [Hmc _]. unfold truth.
      destruct (N.eqb_spec (sn_mcount (w1 (en_id e))) 0); [lia|]. cbn [negb].
      exists mp. destruct (N.eqb_spec (u16 (sn_mcount (w1 (en_id e)) + 1)) 0) as [|Hne];
        [right; discriminate|]. left.
      assert (Eu : u16 (sn_mcount (w1 (en_id e)) + 1) = sn_mcount (w1 (en_id e)) + 1).
      { unfold u16, trunc in *. change (2 ^ 16) with 65536 in *. lia. }
      rewrite Eu. unfold set_mcount, set_ucount.
      cbn [sn_ucount sn_mcount sn_acount sn_iscache sn_mapped sn_bcache sn_freed].
      rewrite Emp, Hf. reflexivity.
    - rewrite Hmw'. unfold truth. cbn [N.eqb negb].
      destruct (map (en_sec e)) as [mp|x1|x1].
      + exists mp. left. cbn [set_mapped set_ucount sn_mcount]. rewrite Hmw'.
        unfold set_mcount, set_ucount, set_mapped.
        cbn [sn_ucount sn_mcount sn_acount sn_iscache sn_mapped sn_bcache sn_freed].
        rewrite Hf. reflexivity.
      + exists (MapFile 0 0). right. discriminate.
      + exists (MapFile 0 0). right. discriminate. }
  destruct Hc2 as (mp & [Hc2|Hc2]).
  2:{ destruct (pt_section_map_count s2 (map (en_sec e))) as [s3 r3]. cbn [snd] in Hc2.
      destruct r3 as [[]| |]; [congruence| |discriminate].
      destruct (on_section (wset w2 (en_id e) s3) (en_id e) pt_section_put) as [w4 [| |]];
        discriminate. }
  rewrite Hc2. intros [= <- <- <- <- <-]. cbn [snd place].
  split; [reflexivity|]. split; [|split; [exact Hcm|split]].
  - unfold pt_msec_cache_read. cbn [mc_msec mc_isid]. unfold pt_image_validate.
    subst img2.
    assert (He : wf e) by (pose proof (hi_wf _ _ _ I) as G; rewrite Forall_forall in G; apply G, Hin).
    destruct He as [He1 He2 He3]. unfold ecovers in Hx.
    replace ((x <? pt_msec_begin (en_msec e)) || (pt_msec_end (en_msec e) <=? x)) with false.
    + unfold msec_eqb, section_eqb. rewrite Nat.eqb_refl, !N.eqb_refl. reflexivity.
    + unfold pt_msec_begin, pt_msec_end, add64. lia.
  - change (sc_id (ms_sec (en_msec e))) with (en_id e).
    unfold wset. rewrite Nat.eqb_refl. cbn [sn_ucount sn_mcount sn_mapped]. rewrite Es2.
    split; [reflexivity|]. split; [reflexivity|discriminate].
  - unfold pt_msec_cache_invalidate. cbn [mc_msec mc_isid].
    change (sc_id (ms_sec (en_msec e))) with (en_id e).
    unfold on_section at 1. unfold wset at 1. rewrite Nat.eqb_refl.
    set (s3 := mk_scnt _ _ _ _ _ _ _).
    assert (Hun : exists s4, pt_section_unmap s3 = (s4, Ok tt) /\ sn_ucount s4 = sn_ucount s3 /\
                    sn_mcount s4 = sn_mcount (w1 (en_id e)) /\ sn_freed s4 = false).
    { unfold pt_section_unmap, alive, s3. cbn [sn_freed sn_mcount].
      destruct (N.eqb_spec (sn_mcount (w1 (en_id e)) + 1) 0); [lia|].
      replace (sn_mcount (w1 (en_id e)) + 1 - 1) with (sn_mcount (w1 (en_id e))) by lia.
      unfold truth. destruct (N.eqb_spec (sn_mcount (w1 (en_id e))) 0) as [E0|E0]; cbn [negb].
      - cbn [set_mcount sn_mapped]. eexists. split; [reflexivity|].
        cbn [set_mcount set_mapped set_bcache sn_ucount sn_mcount sn_freed]. tauto.
      - eexists. split; [reflexivity|]. cbn [set_mcount sn_ucount sn_mcount sn_freed]. tauto. }
    destruct Hun as (s4 & -> & U1 & U2 & U3).
    unfold on_section. unfold wset at 1. rewrite Nat.eqb_refl.
    assert (Hput : pt_section_put s4 = (set_ucount s4 (sn_ucount (w1 (en_id e))), Ok tt)).
    { unfold pt_section_put, alive. rewrite U3, U1. unfold s3. cbn [sn_ucount]. rewrite Es2.
      cbn [set_ucount sn_ucount]. destruct (N.ltb_spec 1 (sn_ucount (w1 (en_id e)) + 1)); [|lia].
      do 2 f_equal. lia. }
    rewrite Hput. eexists. split; [reflexivity|]. intros j. unfold wset.
    destruct (Nat.eqb_spec j (en_id e)) as [->|Hj].
    + cbn [set_ucount sn_ucount sn_mcount sn_freed]. rewrite Hf. tauto.
    + rewrite W2. destruct (Nat.eqb_spec j (en_id e)); [congruence|]. tauto.
Qed.

(** If filling the cache fails, nothing is referenced or mapped, and the cache stays
    empty. *)
Theorem C43_fill_fails f w ops c map q x w' c' img' r :
  held f w -> callers_may f (w, []) ops ->
  let s := fst (after w ops) in
  mc_msec c = None ->
  pt_msec_cache_fill (fst s) c (snd s) map q x = (w', c', img', Err r) ->
  c' = c /\
  forall id, sn_ucount (w' id) = sn_ucount (fst s id) /\ sn_mcount (w' id) = sn_mcount (fst s id) /\
             sn_freed (w' id) = sn_freed (fst s id).
Proof.
  intros H Hc. cbv zeta. intros Hnone.
  pose proof (hinv_after f w ops H Hc) as I.
  destruct (after w ops) as [[w1 img1] h]. cbn [fst snd] in *.
  unfold pt_msec_cache_fill, pt_msec_cache_invalidate at 1. rewrite Hnone.
  unfold pt_image_find.
  pose proof (fetch_spec img1 q x (hi_wf _ _ _ I)) as F.
  destruct (pt_image_fetch_section img1 q x) as [img2 [e|y|u]]; [|intros [= <- <- _ _]; auto|discriminate].
  destruct F as (P & Hin & Hx & Hcm & rest & Himg).
  destruct (on_section w1 (en_id e) pt_section_get) as [w2 r2] eqn:E2.
  assert (Hn0 : refs_run f (w, []) ops (en_id e) + pieces img1 (en_id e) <> 0)
    by (pose proof (pieces_in _ _ Hin); lia).
  destruct (get_owned _ _ _ _ _ _ (hi_owned _ _ _ I) Hn0 E2) as [(-> & W2 & _)|(-> & W2)].
  2:{ intros [= <- <- _ _]. split; [reflexivity|]. intros id. rewrite W2. auto. }
  destruct (free_alive _ _ _ _ (hi_owned _ _ _ I) Hin) as [Hf Hu]. cbn [fst] in Hf, Hu.
  unfold on_section at 1.
  assert (Es2 : w2 (en_id e) = set_ucount (w1 (en_id e)) (sn_ucount (w1 (en_id e)) + 1))
    by (rewrite W2, Nat.eqb_refl; reflexivity).
  destruct (pt_section_map_count (w2 (en_id e)) (map (en_sec e))) as [s3 r3] eqn:E3.
  assert (H3 : r3 <> Ok tt -> sn_ucount s3 = sn_ucount (w1 (en_id e)) + 1 /\
               sn_mcount s3 = sn_mcount (w1 (en_id e)) /\ sn_freed s3 = false).
  { intros Hr. revert E3. unfold pt_section_map_count, alive. rewrite Es2.
    cbn [set_ucount sn_freed sn_mcount sn_mapped]. rewrite Hf.
    destruct (truth _); [destruct (_ =? 0)|destruct (sn_mapped _); [|destruct (map _); [destruct (_ =? 0)| |]]];
      intros [= <- <-]; cbn; auto; congruence. }
  destruct r3 as [[]|e3|u3]; [discriminate| |discriminate].
  destruct (H3 ltac:(discriminate)) as (A1 & A2 & A3).
  unfold on_section. unfold wset at 1. rewrite Nat.eqb_refl.
  assert (Hput : pt_section_put s3 = (set_ucount s3 (sn_ucount (w1 (en_id e))), Ok tt)).
  { unfold pt_section_put, alive. rewrite A3, A1.
    destruct (N.ltb_spec 1 (sn_ucount (w1 (en_id e)) + 1)); [|lia]. do 2 f_equal. lia. }
  rewrite Hput. intros [= <- <- _ _]. split; [reflexivity|]. intros j. unfold wset.
  destruct (Nat.eqb_spec j (en_id e)) as [->|Hj].
  - cbn [set_ucount sn_ucount sn_mcount sn_freed]. rewrite Hf. tauto.
  - rewrite W2. destruct (Nat.eqb_spec j (en_id e)); [congruence|]. tauto.
Qed.
Print Assumptions C43_fill_fails.
Example C43_fill_fails_case :
  let s := fst (after ex_world ex_ops) in
  let '(w, _, _, r) := pt_msec_cache_fill (fst s) pt_msec_cache_init (snd s) (fun _ => Err pte_bad_file)
                           (ex_q 5) 0x1018 in
  r = Err pte_bad_file /\ sn_ucount (w 1%nat) = 2.
Proof. vm_compute. auto. Qed.
Print Assumptions C43_hit.
Print Assumptions C43_fill.

Example C43_case :
  let s := fst (after ex_world ex_ops) in
  match pt_msec_cache_fill (fst s) pt_msec_cache_init (snd s) (fun _ => Ok (MapFile 0x100 0x130))
                           (ex_q 5) 0x1018 with
  | (w, c, img, Ok (isid, m)) =>
      isid = 2 /\ ms_sec m = ex_sec 1 0x10 /\ sn_ucount (w 1%nat) = 3 /\
      pt_msec_cache_read c img 0x101f = Ok (2, m) /\
      pt_msec_cache_read c img 0x1020 = Err pte_nomap /\
      pt_msec_cache_read c (snd (fst (istep (w, img) (IRemoveFile 1 ex_any)))) 0x101f = Err pte_nomap
  | _ => False
  end.
Proof. vm_compute. repeat split. Qed.

(** ** C44 *)

(** After every sequence of calls, each section has one reference for every piece in the
    image in addition to those of other users, it is destroyed exactly when there is
    neither, and no call (but reading, see C28) has undefined behaviour. *)
Theorem C44_references f w ops :
  held f w -> callers_may f (w, []) ops ->
  let s := fst (after w ops) in
  (forall id,
     let n := refs_run f (w, []) ops id + pieces (snd s) id in
     (sn_freed (fst s id) = true <-> n = 0) /\
     (n <> 0 -> sn_ucount (fst s id) = n) /\ n <= 65535) /\
  Forall (fun p => match fst p with
                   | IRead _ _ _ _ _ _ => True
                   | _ => match snd p with
                          | ADone r => no_ub r | ACount r => no_ub r
                          | AFound r => no_ub r | ABytes r => no_ub r
                          end
                   end) (snd (after w ops)).
Proof.
  intros H Hc. cbv zeta.
  pose proof (hinv_run ops _ _ _ (hinv_start f w H) Hc) as [I A].
  change (irun (w, []) [] ops) with (after w ops) in *.
  split.
  - intros id. destruct (hi_owned _ _ _ I id) as (A1 & A2 & A3 & _).
    split; [rewrite A1; apply N.eqb_eq|]. split; [exact A2|].
    cbv zeta in A3. change (2 ^ 16) with 65536 in A3. lia.
  - assert (L : forall ops s h, length (snd (irun s h ops)) = (length ops + length h)%nat).
    { clear. induction ops as [|o ops IH]; intros s h; cbn [irun]; [reflexivity|].
      destruct (istep s o). rewrite IH. cbn. lia. }
    specialize (L ops (w, []) []). change (irun (w, []) [] ops) with (after w ops) in L.
    cbn [length] in L. rewrite Nat.add_0_r in L. rewrite <- L, firstn_all in A.
    eapply Forall_impl; [|exact A]. intros [o r]. unfold ans_ok. cbn [fst snd].
    destruct o; destruct r; trivial.
Qed.

Print Assumptions C44_references.

(** The image keeps section 0 alive after the user has dropped it; removing it from the
    image destroys it. *)
Example C44_case :
  let ops := ex_ops ++ [IPut 0] in
  callers_may ex_refs (ex_world, []) ops /\
  let s := fst (after ex_world ops) in
  sn_freed (fst s 0%nat) = false /\ sn_ucount (fst s 0%nat) = 2 /\
  sn_freed (fst (fst (istep s (IRemoveFile 0 ex_any))) 0%nat) = true.
Proof.
  cbv zeta. split; [|repeat split; reflexivity].
  unfold ex_ops. cbn [app].
  split; [split; [intros n [= <-]; reflexivity|reflexivity]|].
  split; [split; [intros n [= <-]; reflexivity|reflexivity]|].
  split; [|exact Logic.I]. split; [discriminate|]. split; [reflexivity|].
  intros E. exfalso. apply E. reflexivity.
Qed.
