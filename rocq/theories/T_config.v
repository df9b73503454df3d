(** Theorems about address spaces (C15), versioned structures (C16), address filters
    (C17) and the errata table (C22). *)

From Verif Require Import Base M_config M_asid M_cpu S_config L_config.
From Coq Require Import List NArith ZArith PeanoNat Bool Lia ZifyBool ZifyNat ZifyN.
Import ListNotations.
Open Scope N_scope.
Ltac Zify.zify_post_hook ::= Z.div_mod_to_equations.

(** ** C15 *)

Theorem C15_asid_match a b :
  pt_asid_match a b = true <->
  agree (as_cr3 a) (as_cr3 b) /\ agree (as_vmcs a) (as_vmcs b).
Proof. apply match_spec. Qed.

Theorem C15_reflexive a : pt_asid_match a a = true.
Proof. apply match_spec. split; left; reflexivity. Qed.

Theorem C15_symmetric a b : pt_asid_match a b = pt_asid_match b a.
Proof.
  apply eq_true_iff_eq. rewrite !match_spec. unfold agree. intuition.
Qed.

(** Everything that matches a fully specified identifier matches each other. *)
Theorem C15_transitive_through_specified a b c :
  ~ unspecified (as_cr3 b) -> ~ unspecified (as_vmcs b) ->
  pt_asid_match a b = true -> pt_asid_match b c = true -> pt_asid_match a c = true.
Proof.
  rewrite !match_spec. unfold agree. intros H1 H2 [A1 A2] [B1 B2].
  split.
  - destruct A1 as [->|[A1|A1]], B1 as [B1|[B1|B1]]; intuition.
  - destruct A2 as [->|[A2|A2]], B2 as [B2|[B2|B2]]; intuition.
Qed.

(** Without that, matching is not transitive. *)
Theorem C15_transitive_refuted :
  exists a b c, pt_asid_match a b = true /\ pt_asid_match b c = true /\
           pt_asid_match a c = false.
Proof. exists (mk_asid 1 2), pt_asid_init, (mk_asid 3 2). repeat split. Qed.

Example C15_case : pt_asid_match (mk_asid 1 pt_asid_no_vmcs) (mk_asid 1 7) = true
                   /\ pt_asid_match (mk_asid 1 6) (mk_asid 1 7) = false.
Proof. split; reflexivity. Qed.

(** ** C16 *)

(** The declared size is all that is read: any memory that really has the declared
    size (and at least the size field) is enough. *)
Theorem C16_asid_from_user u size :
  declares u size -> (N.to_nat size <= length u)%nat ->
  exists m, pt_asid_from_user (Some u) = Ok m /\ length m = 24%nat /\
    field m 0 24 /\
    (forall off v, off = 8%nat \/ off = 16%nat ->
       (N.of_nat off + 8 <= size -> field u off v -> field m off v) /\
       (size <= N.of_nat off -> field m off (2 ^ 64 - 1))) /\
    (forall u', declares u' size -> firstn (Nat.min 24 (N.to_nat size)) u'
                               = firstn (Nat.min 24 (N.to_nat size)) u ->
            (N.to_nat size <= length u')%nat ->
            pt_asid_from_user (Some u') = Ok m).
Proof.
  intros (Hlen & Hb & Hsize) Hsz.
  assert (Hload : load64 u 0 = Ok size).
  { apply load64_field. split; [exact Hlen|]. cbn [skipn]. exact Hsize. }
  set (k := Nat.min 24 (N.to_nat size)).
  assert (Hk : N.to_nat (if 24 <? size then 24 else size) = k)
    by (unfold k; destruct (N.ltb_spec 24 size); lia).
  assert (Hrun : forall w, declares w size -> (N.to_nat size <= length w)%nat ->
            pt_asid_from_user (Some w)
            = Ok (store64 (firstn k w ++ skipn k asid_init_mem) 0 24)).
  { intros w (Hwl & Hwb & Hws) Hwsz. unfold pt_asid_from_user.
    assert (Hwload : load64 w 0 = Ok size).
    { apply load64_field. split; [exact Hwl|]. cbn [skipn]. exact Hws. }
    change off_asid_size with 0%nat. rewrite Hwload. cbn [bind].
    change (N.of_nat sizeof_asid) with 24. rewrite Hk.
    rewrite memcpy_ok; [reflexivity| |]; [change (length asid_init_mem) with 24%nat|]; lia. }
  set (m0 := firstn k u ++ skipn k asid_init_mem) in *.
  assert (Hm0 : length m0 = 24%nat).
  { unfold m0. rewrite app_length, firstn_length, skipn_length.
    change (length asid_init_mem) with 24%nat. lia. }
  exists (store64 m0 0 24). split; [|split; [|split; [|split]]].
  - apply Hrun; [|exact Hsz]. split; [exact Hlen|]. split; assumption.
  - rewrite store64_length; lia.
  - apply load64_field. apply load_store_same; [lia|reflexivity].
  - intros off v Hoff.
    assert (Hskip : skipn off (store64 m0 0 24)
                    = if Nat.leb off k then firstn (k - off) (skipn off u)
                                            ++ skipn k asid_init_mem
                      else skipn off asid_init_mem).
    { rewrite skipn_store64 by lia. unfold m0. apply skipn_overlay. lia. }
    split.
    + intros Hfit (Hfl & Hfv). split; [rewrite store64_length; lia|].
      rewrite Hskip. destruct (Nat.leb_spec off k); [|lia].
      rewrite firstn_app, firstn_firstn, firstn_length, skipn_length.
      replace (Nat.min 8 (k - off))%nat with 8%nat by lia.
      replace (8 - Nat.min (k - off) (length u - off))%nat with 0%nat by lia.
      cbn [firstn]. rewrite app_nil_r. exact Hfv.
    + intros Hout. split; [rewrite store64_length; lia|].
      rewrite Hskip.
      destruct (Nat.leb_spec off k) as [Hle|Hgt].
      * assert (k = off) by lia. replace (k - off)%nat with 0%nat by lia. cbn [firstn app].
        replace k with off. destruct Hoff as [-> | ->]; reflexivity.
      * destruct Hoff as [-> | ->]; reflexivity.
  - intros u' Hu' Heq Hl'. rewrite (Hrun u' Hu' Hl'). rewrite Heq. reflexivity.
Qed.

Theorem C16_asid_from_null :
  exists m, pt_asid_from_user None = Ok m /\
       field m 0 24 /\ field m 8 (2 ^ 64 - 1) /\ field m 16 (2 ^ 64 - 1).
Proof.
  eexists. split; [reflexivity|]. split; [|split]; apply load64_field; reflexivity.
Qed.

(** Copying to the user writes only the user's declared size and nothing behind it. *)
Theorem C16_asid_to_user user asid size :
  length asid = 24%nat -> (N.to_nat (N.min 24 size) <= length user)%nat ->
  (size < 8 -> pt_asid_to_user user asid size = (user, Err pte_invalid)) /\
  (8 <= size ->
   exists user', pt_asid_to_user user asid size = (user', Ok tt) /\
     length user' = length user /\
     field user' 0 (N.min 24 size) /\
     (forall i, (8 <= i < N.to_nat (N.min 24 size))%nat -> byte_at user' i = byte_at asid i) /\
     (forall i, (N.to_nat (N.min 24 size) <= i)%nat -> byte_at user' i = byte_at user i)).
Proof.
  intros Ha Hu. unfold pt_asid_to_user. change (N.of_nat sizeof_asid) with 24. split.
  - intros H. destruct (N.ltb_spec size 8); [reflexivity|lia].
  - intros H. destruct (N.ltb_spec size 8); [lia|].
    assert (Hk : (if 24 <? size then 24 else size) = N.min 24 size)
      by (destruct (N.ltb_spec 24 size); lia).
    rewrite Hk. set (k := N.to_nat (N.min 24 size)) in *.
    rewrite memcpy_ok by lia. change off_asid_size with 0%nat.
    set (m0 := firstn k asid ++ skipn k user).
    assert (Hm0 : length m0 = length user)
      by (unfold m0; rewrite app_length, firstn_length, skipn_length; lia).
    eexists. split; [reflexivity|]. split; [rewrite store64_length; lia|].
    split; [apply load64_field, load_store_same; lia|].
    assert (Hbyte : forall i, (8 <= i)%nat ->
              nth_error (store64 m0 0 (N.min 24 size)) i = nth_error m0 i).
    { intros i Hi. unfold store64. cbn [firstn app].
      change (le_bytes 8 (N.min 24 size) ++ skipn (0 + 8) m0) with
        (le_bytes 8 (N.min 24 size) ++ skipn 8 m0).
      rewrite nth_error_app2 by (rewrite le_bytes_length; lia). rewrite le_bytes_length.
      rewrite <- (firstn_skipn 8 m0) at 2.
      rewrite nth_error_app2 by (rewrite firstn_length; lia).
      rewrite firstn_length. f_equal. lia. }
    split.
    + intros i Hi. unfold byte_at. rewrite Hbyte by lia. unfold m0.
      rewrite nth_error_app1 by (rewrite firstn_length; lia).
      rewrite <- (firstn_skipn k asid) at 2.
      rewrite nth_error_app1 by (rewrite firstn_length; lia). reflexivity.
    + intros i Hi. unfold byte_at. rewrite Hbyte by lia. unfold m0.
      rewrite nth_error_app2 by (rewrite firstn_length; lia).
      rewrite <- (firstn_skipn k user) at 2.
      rewrite nth_error_app2 by (rewrite firstn_length; lia).
      rewrite !firstn_length. f_equal. lia.
Qed.

(** The configuration: valid exactly if it is large enough to contain the buffer and
    the buffer is not NULL and does not end before it begins.  The internal copy has
    the user's bytes as far as both structures go, and zeros behind. *)
Theorem C16_config_from_user sizeof config u size b e :
  (24 <= sizeof)%nat -> N.of_nat sizeof < 2 ^ 64 ->
  length config = sizeof -> declares u size -> (N.to_nat size <= length u)%nat ->
  (24 <= size -> field u 8 b /\ field u 16 e) ->
  (size < 24 \/ b = 0 \/ e = 0 \/ e < b ->
   pt_config_from_user sizeof config (Some u) = (config, Err pte_bad_config)) /\
  (24 <= size -> b <> 0 -> e <> 0 -> b <= e ->
   exists c, pt_config_from_user sizeof config (Some u) = (c, Ok tt) /\
     length c = sizeof /\
     field c 0 (N.min (N.of_nat sizeof) size) /\
     (forall i, (8 <= i < Nat.min sizeof (N.to_nat size))%nat -> byte_at c i = byte_at u i) /\
     (forall i, (N.to_nat size <= i < sizeof)%nat -> byte_at c i = Some 0)).
Proof.
  intros Hs24 Hs64 Hc (Hlen & Hb & Hsize) Hsz Hf.
  assert (Hload : load64 u 0 = Ok size).
  { apply load64_field. split; [exact Hlen|]. cbn [skipn]. exact Hsize. }
  unfold pt_config_from_user. change off_config_size with 0%nat. rewrite Hload.
  change (N.of_nat off_config_decode) with 24.
  change off_config_begin with 8%nat. change off_config_end with 16%nat.
  destruct (N.ltb_spec size 24) as [Hsmall|Hbig].
  { split; [reflexivity|lia]. }
  destruct (Hf Hbig) as [Hfb Hfe]. apply load64_field in Hfb, Hfe. rewrite Hfb, Hfe.
  split.
  - intros [H|H]; [lia|].
    destruct (N.eqb_spec b 0), (N.eqb_spec e 0), (N.ltb_spec e b); cbn [orb];
      try reflexivity; lia.
  - intros _ Hb0 He0 Hbe.
    destruct (N.eqb_spec b 0), (N.eqb_spec e 0), (N.ltb_spec e b); cbn [orb]; try lia.
    set (k := Nat.min sizeof (N.to_nat size)).
    set (cfg := if Nat.leb sizeof (N.to_nat size) then config
                else firstn (N.to_nat size) config ++ repeat 0 (sizeof - N.to_nat size)).
    assert (Hlc : length cfg = sizeof).
    { unfold cfg. destruct (Nat.leb_spec sizeof (N.to_nat size)); [exact Hc|].
      rewrite app_length, firstn_length, repeat_length. lia. }
    assert (Hsel : (if N.of_nat sizeof <=? size then (sizeof, config)
                    else (N.to_nat size, firstn (N.to_nat size) config
                                         ++ repeat 0 (sizeof - N.to_nat size))) = (k, cfg)).
    { unfold cfg, k. destruct (N.leb_spec (N.of_nat sizeof) size),
        (Nat.leb_spec sizeof (N.to_nat size)); try lia; f_equal; lia. }
    rewrite Hsel. rewrite memcpy_ok by lia.
    set (m0 := firstn k u ++ skipn k cfg).
    assert (Hm0 : length m0 = sizeof)
      by (unfold m0; rewrite app_length, firstn_length, skipn_length; lia).
    eexists. split; [reflexivity|]. split; [rewrite store64_length; lia|].
    split.
    { replace (N.min (N.of_nat sizeof) size) with (N.of_nat k) by lia.
      apply load64_field, load_store_same; lia. }
    assert (Hbyte : forall i, (8 <= i)%nat ->
              nth_error (store64 m0 0 (N.of_nat k)) i = nth_error m0 i).
    { intros i Hi. unfold store64. cbn [firstn app].
      change (le_bytes 8 (N.of_nat k) ++ skipn (0 + 8) m0) with
        (le_bytes 8 (N.of_nat k) ++ skipn 8 m0).
      rewrite nth_error_app2 by (rewrite le_bytes_length; lia). rewrite le_bytes_length.
      rewrite <- (firstn_skipn 8 m0) at 2.
      rewrite nth_error_app2 by (rewrite firstn_length; lia).
      rewrite firstn_length. f_equal. lia. }
    split.
    + intros i Hi. unfold byte_at. rewrite Hbyte by lia. unfold m0.
      rewrite nth_error_app1 by (rewrite firstn_length; lia).
      rewrite <- (firstn_skipn k u) at 2.
      rewrite nth_error_app1 by (rewrite firstn_length; lia). reflexivity.
    + intros i Hi. unfold byte_at. rewrite Hbyte by lia. unfold m0.
      rewrite nth_error_app2 by (rewrite firstn_length; lia).
      rewrite firstn_length. unfold cfg.
      destruct (Nat.leb_spec sizeof (N.to_nat size)); [lia|].
      rewrite skipn_app, skipn_all2 by (rewrite firstn_length; lia). cbn [app].
      rewrite firstn_length.
      replace (k - Nat.min (N.to_nat size) (length config))%nat with 0%nat by lia.
      cbn [skipn]. rewrite nth_error_repeat; [reflexivity|]. lia.
Qed.

(** A structure from an older library (16 bytes), a newer one (32 bytes). *)
Definition C16_old : list N := le_bytes 8 16 ++ le_bytes 8 0x1000.
Definition C16_new : list N := le_bytes 8 32 ++ le_bytes 8 0x1000 ++ le_bytes 8 0x2000
                               ++ le_bytes 8 0x3000.
Example C16_case :
  (let* m := pt_asid_from_user (Some C16_old) in asid_of_mem m)
  = Ok (mk_asid 0x1000 pt_asid_no_vmcs) /\
  (let* m := pt_asid_from_user (Some C16_new) in asid_of_mem m)
  = Ok (mk_asid 0x1000 0x2000) /\
  declares C16_old 16 /\ declares C16_new 32.
Proof.
  repeat split; try reflexivity; try (vm_compute; lia);
    repeat apply Forall_cons; try apply Forall_nil; reflexivity.
Qed.

Definition C16_config : list N :=
  le_bytes 8 40 ++ le_bytes 8 0x1000 ++ le_bytes 8 0x2000 ++ le_bytes 8 0 ++ le_bytes 8 5.
Example C16_config_case :
  declares C16_config 40 /\ field C16_config 8 0x1000 /\ field C16_config 16 0x2000 /\
  snd (pt_config_from_user 48 (repeat 9 48) (Some C16_config)) = Ok tt.
Proof.
  repeat split; try reflexivity; try (vm_compute; lia);
    repeat apply Forall_cons; try apply Forall_nil; reflexivity.
Qed.

Example C16_to_user_case :
  pt_asid_to_user (repeat 9 20) asid_init_mem 12
  = (le_bytes 8 12 ++ repeat 255 4 ++ repeat 9 8, Ok tt).
Proof. reflexivity. Qed.

(** ** C17 *)

(** The filter uses eight ranges: the four documented ones and four in the reserved
    part of the structure. *)
Theorem C17_filter f addr : pt_filter_addr_check f addr = true <-> traced 8 f addr.
Proof. apply filter_spec. Qed.

(** With the upper configuration bits clear only the four documented ranges count. *)
Theorem C17_filter_documented f addr :
  af_addr_cfg f < 2 ^ 16 -> (pt_filter_addr_check f addr = true <-> traced 4 f addr).
Proof. intros H. rewrite filter_spec. apply traced_four. exact H. Qed.

(** In general the reserved words do have an effect. *)
Theorem C17_reserved_refuted :
  exists f addr, pt_filter_addr_check f addr = false /\ traced 4 f addr.
Proof.
  exists (mk_filter 0x10000 (repeat 0 16)), 5. split; [reflexivity|].
  split; [|left]; intros n Hn; assert (Hn' : In n (seq 0 4)) by (apply in_seq; lia);
    destruct Hn' as [<-|[<-|[<-|[<-|[]]]]]; discriminate.
Qed.

Example C17_case :
  let f := mk_filter 0x21 ([0x1000; 0x2000; 0x1800; 0x1900] ++ repeat 0 12) in
  map (pt_filter_addr_check f) [0xfff; 0x1000; 0x17ff; 0x1800; 0x1900; 0x1901; 0x2000; 0x2001]
  = [false; true; true; false; false; true; true; false].
Proof. reflexivity. Qed.

(** ** C22 *)

Theorem C22_errata c :
  (forall x, enabled (fst (pt_cpu_errata c)) x = true <-> has_erratum c x) /\
  (snd (pt_cpu_errata c) = Ok tt <-> supported c) /\
  (~ supported c -> snd (pt_cpu_errata c) = Err pte_bad_cpu).
Proof.
  destruct c as [v fam m st]. unfold has_erratum, supported, pt_cpu_errata.
  cbn [cpu_vendor cpu_family cpu_model].
  destruct v as [| |k].
  1, 3: (split; [intros x; split; [destruct x; discriminate|intros [[=] _]]|];
         split; [split; [discriminate|intros [[=] _]]|reflexivity]).
  destruct (N.eqb_spec fam 0x6) as [->|H6].
  - assert (Hnone : forall l, is_one_of m l = false -> ~ In m l).
    { intros l Hl Hin. apply is_one_of_in in Hin. congruence. }
    assert (Hf : forall l, is_one_of m l = true -> In m l) by (intros l; apply is_one_of_in).
    repeat match goal with
    | |- context [is_one_of m ?l] =>
        let E := fresh "E" in
        destruct (is_one_of m l) eqn:E;
        [apply Hf in E; cbn [In] in E;
         repeat match goal with H : _ \/ _ |- _ => destruct H as [H|H] end;
         try contradiction; subst m;
         (split; [intros x; destruct x; cbn [fst enabled]; vm_compute; intuition discriminate|
                  split; [split; [intros _; split; [reflexivity|left; split; [reflexivity|]];
                                  vm_compute; tauto|reflexivity]|
                          intros H; exfalso; apply H; split; [reflexivity|left];
                          split; [reflexivity|]; vm_compute; tauto]]) |]
    end.
    assert (Hall : ~ In m known_models).
    { unfold known_models, big_core. rewrite !in_app_iff.
      repeat match goal with H : is_one_of m _ = false |- _ => apply Hnone in H end.
      tauto. }
    assert (Hx : forall x, ~ In m (models_with x)).
    { intros x Hin. apply Hall. unfold known_models, big_core.
      destruct x; cbn [models_with] in Hin; unfold big_core in Hin;
        rewrite ?in_app_iff in *; tauto. }
    split; [|split].
    + intros x. split; [destruct x; discriminate|].
      intros [_ [[_ H]|[[=] _]]]. exfalso. exact (Hx x H).
    + split; [discriminate|]. intros [_ [[_ H]|[[=] _]]]. contradiction.
    + reflexivity.
  - destruct (N.eqb_spec fam 0x13) as [->|H13].
    + destruct (N.eqb_spec m 1) as [->|Hm].
      * split; [|split].
        -- intros x. destruct x; cbn; split; try reflexivity; try discriminate;
             try (intros _; split; [reflexivity|right; auto]);
             intros [_ [[[=] _]|(_ & _ & [[=]|[[=]|[=]]])]].
        -- split; [intros _; split; [reflexivity|right; auto]|reflexivity].
        -- intros H. exfalso. apply H. split; [reflexivity|right; auto].
      * split; [|split].
        -- intros x. split; [destruct x; discriminate|].
           intros [_ [[[=] _]|(_ & Hm' & _)]]. contradiction.
        -- split; [discriminate|]. intros [_ [[[=] _]|(_ & Hm')]]. contradiction.
        -- reflexivity.
    + split; [|split].
      * intros x. split; [destruct x; discriminate|].
        intros [_ [[H _]|(H & _)]]; contradiction.
      * split; [discriminate|]. intros [_ [[H _]|(H & _)]]; contradiction.
      * reflexivity.
Qed.

Example C22_case : supported (mk_cpu pcv_intel 6 0x8e 9) /\
                   has_erratum (mk_cpu pcv_intel 6 0x8e 9) Skl168 /\
                   ~ has_erratum (mk_cpu pcv_intel 6 0x8e 9) Apl11.
Proof.
  split; [|split].
  - split; [reflexivity|left]. split; [reflexivity|]. vm_compute. tauto.
  - split; [reflexivity|left]. split; [reflexivity|]. vm_compute. tauto.
  - intros H. apply C22_errata in H. discriminate.
Qed.

Print Assumptions C15_asid_match.
Print Assumptions C15_reflexive.
Print Assumptions C15_symmetric.
Print Assumptions C15_transitive_through_specified.
Print Assumptions C15_transitive_refuted.
Print Assumptions C16_asid_from_user.
Print Assumptions C16_asid_from_null.
Print Assumptions C16_asid_to_user.
Print Assumptions C16_config_from_user.
Print Assumptions C17_filter.
Print Assumptions C17_filter_documented.
Print Assumptions C17_reserved_refuted.
Print Assumptions C22_errata.
