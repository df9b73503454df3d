(** The instruction length decoder accepts exactly the instruction texts:
    both directions. *)

From Coq Require Import List NArith ZArith Bool Lia.
From Coq Require Import ZifyBool ZifyNat ZifyN.
From Verif Require Import Base M_event M_ildtab M_ild S_x86 L_ild L_ild2 L_ild3
  L_ild4.
Import ListNotations.
Open Scope N_scope.

Lemma init_init_ok : forall raw size m,
  bytes_ok raw -> (size <= length raw)%nat -> init_ok m (ild_init raw size m).
Proof. intros raw size m H1 H2. repeat split; assumption. Qed.

Lemma at_prefix : forall raw l a b, at_pos raw l (a ++ b) -> at_pos raw l a.
Proof. intros raw l a b H. apply at_app in H. tauto. Qed.

Lemma not_prefix : forall m b,
  one_of [0x0f; 0xc4; 0xc5; 0x62; 0xd5] b = true -> prefix_byte m b = false.
Proof.
  intros m b H. unfold one_of in H. cbn [existsb] in H.
  assert (Hc : b = 0x0f \/ b = 0xc4 \/ b = 0xc5 \/ b = 0x62 \/ b = 0xd5) by lia.
  clear H. destruct Hc as [-> |[-> |[-> |[-> | ->]]]]; destruct m; reflexivity.
Qed.

Lemma byte_nth : forall raw l b, nth_error raw l = Some b -> byte_at raw l = b.
Proof. intros raw l b H. unfold byte_at. now apply nth_error_nth. Qed.

Lemma wf_head_ok : forall m x, x86_wf m x -> head_ok m x.
Proof.
  intros m x (W1 & W2 & _ & _ & _ & _ & W7). unfold head_ok.
  assert (Hb : bytes_ok (x_pfx x) /\ bytes_ok (enc_bytes (x_enc x))
    /\ x_opc x < 256).
  { unfold render, bytes_ok in *. apply Forall_app in W7. destruct W7 as [B1 W7].
    apply Forall_app in W7. destruct W7 as [B2 W7].
    apply Forall_app in W7. destruct W7 as [B3 W7].
    apply Forall_app in W7. destruct W7 as [B4 _].
    repeat split; try assumption. inversion B4; subst. assumption. }
  destruct Hb as (B1 & B2 & B3).
  split; [exact W1|]. split; [exact B3|].
  unfold enc_ok in W2. unfold bytes_ok in B2.
  assert (Q : forall l b, Forall byte_ok (b :: l) -> b < 256 /\ Forall byte_ok l)
    by (intros l b H; inversion H; subst; auto).
  destruct (x_enc x) as [|p|p|p1 p2|p1 p2 p3]; cbn [enc_bytes] in B2.
  - destruct W2 as (A & B & C). split; [exact A|]. split; [|exact C].
    intros H. apply (B H).
  - apply Q in B2. destruct B2 as [_ B2]. apply Q in B2. tauto.
  - apply Q in B2. destruct B2 as [_ B2]. apply Q in B2. tauto.
  - apply Q in B2. destruct B2 as [_ B2]. apply Q in B2. destruct B2 as [B2 B5].
    apply Q in B5. tauto.
  - apply Q in B2. destruct B2 as [_ B2]. apply Q in B2. destruct B2 as [B2 B5].
    apply Q in B5. tauto.
Qed.

Lemma fresh_init : forall raw size m, fresh (ild_init raw size m).
Proof. intros. repeat split. Qed.

Lemma head_complete : forall m x raw size,
  m <> ptem_unknown -> x86_wf m x -> bytes_ok raw -> (size <= length raw)%nat ->
  at_pos raw 0 (render x) -> (length (render x) <= size)%nat ->
  decode (ild_init raw size m)
  = modrm_dec (enc_state m x (pfx_state (ild_init raw size m) (x_pfx x)))
      (length (head_bytes x)).
Proof.
  intros m x raw size Hm Hwf Hb Hs Ha Hl.
  pose proof (wf_head_ok m x Hwf) as (Hp & Ho & He).
  destruct Hwf as (_ & W2 & W3 & _ & _ & _ & _).
  rewrite render_split in Ha, Hl. rewrite app_length in Hl.
  apply at_app in Ha. destruct Ha as [Ha Ht].
  unfold decode. set (i := ild_init raw size m).
  assert (Ei : i_raw i = raw /\ i_max_bytes i = size /\ i_mode i = m)
    by (repeat split).
  destruct Ei as (E1 & E2 & E3).
  assert (RUN : forall b, at_pos raw 0 (x_pfx x ++ [b]) ->
    prefix_byte m b = false -> (length (x_pfx x) < size)%nat ->
    prefix_decode (S (i_max_bytes i)) i 0 0
    = main_dec (pfx_state i (x_pfx x)) (length (x_pfx x)) (rex_of m (x_pfx x)) b).
  { intros b H1 H2 H3. rewrite <- (pfx_rex_eq m _ Hp).
    rewrite (prefix_run (x_pfx x) _ i 0 0 b); try assumption; try reflexivity.
    rewrite E2. lia. }
  pose proof (pfx_fresh (x_pfx x) i (fresh_init raw size m)) as Hf.
  destruct (pfx_state_keeps (x_pfx x) i) as (K1 & K2 & K3).
  rewrite E1 in K1. rewrite E2 in K2. rewrite E3 in K3.
  set (s := pfx_state i (x_pfx x)) in *. clearbody s.
  set (l := length (x_pfx x)) in *.
  assert (Hsb : bytes_ok (i_raw s)) by now rewrite K1.
  assert (Hsm : (i_max_bytes s <= length (i_raw s))%nat) by (rewrite K1, K2; exact Hs).
  unfold head_bytes, enc_state, enc_ok in *.
  rewrite !app_length in *. fold l in Hl |- *.
  destruct (x_enc x) as [|p|p|p1 p2|p1 p2 p3] eqn:Ee; cbn [enc_bytes app length] in *.
  - (* legacy *)
    destruct He as (L1 & L2 & L3). destruct W2 as (_ & M0 & _).
    assert (Hat : at_pos raw l (escape Legacy (x_map x) ++ [x_opc x])).
    { apply at_app in Ha. apply Ha. }
    set (b := hd 0 (escape Legacy (x_map x) ++ [x_opc x])).
    assert (Hb1 : at_pos raw 0 (x_pfx x ++ [b])).
    { apply at_app. split; [exact (at_prefix _ _ _ _ Ha)|].
      change (0 + length (x_pfx x))%nat with l. unfold b.
      destruct (x_map x) as [|[|[|[|k]]]]; cbn [escape app hd at_pos] in *; tauto. }
    assert (Hbb : b < 256).
    { unfold b. destruct (x_map x) as [|[|[|[|k]]]]; cbn; lia. }
    assert (Hnp : prefix_byte m b = false).
    { unfold b. destruct (x_map x) as [|[|[|[|k]]]]; cbn [escape app hd];
        try (now apply not_prefix); [now apply M0|lia]. }
    assert (Hsz : (l < size)%nat) by lia.
    rewrite (RUN b Hb1 Hnp Hsz).
    assert (HT : x_map x = 0%nat -> one_of [0x62; 0xc4; 0xc5] (x_opc x) = true ->
       (l + 1 < size)%nat /\ byte_at raw (l + 1) = hd 0 (x_modrm x)).
    { intros Hz Hone.
      assert (Hsize : length (x_modrm x) = 1%nat).
      { rewrite W3. unfold modrm_size, modrm_of, form_of. cbn [f_kind f_map f_opc].
        rewrite Ee, Hz. cbn [kind_of].
        assert (Hc : x_opc x = 0x62 \/ x_opc x = 0xc4 \/ x_opc x = 0xc5)
          by (unfold one_of in Hone; cbn [existsb] in Hone; lia).
        destruct Hc as [-> |[-> | ->]]; reflexivity. }
      unfold tail_bytes in *. rewrite Hz in *. cbn [escape length app] in *.
      destruct (x_modrm x) as [|mb [|? ?]]; try discriminate Hsize.
      cbn [hd app length at_pos] in *.
      split; [lia|]. apply byte_nth. destruct Ht as [Ht _]. rewrite <- Ht.
      f_equal. }
    rewrite (main_legacy m); try assumption.
    + unfold prefix_done. cbv zeta.
      rewrite (opcode_complete _ l (x_map x) (x_opc x));
        [|split; [exact L1|split; [exact L2|exact L3]]|exact Ho|cbn; rewrite K1; exact Hat|].
      * f_equal. rewrite app_length. reflexivity.
      * change (l + length (escape Legacy (x_map x) ++ [x_opc x])
                <= i_max_bytes s)%nat.
        rewrite K2, app_length. cbn [length]. lia.
    + intros H. now apply rex_of_non64.
    + split.
      * intros Hone. destruct (x_map x) as [|[|[|[|k]]]] eqn:Emap;
          try (unfold b in Hone; cbn in Hone; discriminate Hone); [|lia].
        destruct (M0 eq_refl) as (_ & _ & M1 & _). destruct (M1 Hone) as [M2 M3].
        split; [exact M2|]. rewrite K1. now rewrite (proj2 (HT eq_refl Hone)).
      * intros Hd. destruct (x_map x) as [|[|[|[|k]]]] eqn:Emap;
          try (unfold b in Hd; cbn in Hd; discriminate Hd); [|lia].
        now apply M0.
    + intros Hone. rewrite K2. destruct (x_map x) as [|[|[|[|k]]]] eqn:Emap;
          try (unfold b in Hone; cbn in Hone; discriminate Hone); [|lia].
      now apply HT.
  - (* REX2 *)
    destruct He as (L1 & L2 & L3).
    assert (Hat : at_pos raw l [0xd5; p; x_opc x]) by (apply at_app in Ha; apply Ha).
    destruct Hat as (A1 & A2 & A3 & _).
    rewrite (RUN 0xd5); [|apply at_app; split; [exact (at_prefix _ _ _ _ Ha)|split; [exact A1|exact I]]
      |now apply not_prefix|lia].
    change (main_dec s l (rex_of m (x_pfx x)) 0xd5) with (prefix_rex2 s l).
    unfold prefix_rex2. rewrite mode_64_eq, K3, L1. cbn [negb].
    replace (i_max_bytes s <? l + 2)%nat with false by lia.
    replace (S l) with (l + 1)%nat in * by lia.
    replace (S (l + 1)) with (l + 2)%nat in * by lia.
    rewrite <- K1 in A2, A3. rewrite (get_at _ _ _ A2). cbn [bind]. cbv zeta.
    unfold prefix_vex_done.
    match goal with |- context [get_byte ?j _] => rewrite (get_at j _ _ A3) end.
    cbn [bind escape length]. replace (l + 2 + 1)%nat with (l + 3)%nat by lia.
    reflexivity.
  - (* VEX2 *)
    destruct He as (L1 & L2). destruct W2 as [_ W2].
    assert (Hat : at_pos raw l [0xc5; p; x_opc x]) by (apply at_app in Ha; apply Ha).
    destruct Hat as (A1 & A2 & A3 & _).
    rewrite (RUN 0xc5); [|apply at_app; split; [exact (at_prefix _ _ _ _ Ha)|split; [exact A1|exact I]]
      |now apply not_prefix|lia].
    change (main_dec s l (rex_of m (x_pfx x)) 0xc5) with (prefix_vex_c5 s l).
    unfold prefix_vex_c5. rewrite mode_64_eq, K3.
    replace (i_max_bytes s <=? l + 1)%nat with false by lia.
    replace (i_max_bytes s <? l + 3)%nat with false by lia.
    replace (S l) with (l + 1)%nat in * by lia.
    replace (S (l + 1)) with (l + 2)%nat in * by lia.
    rewrite <- K1 in A2, A3. rewrite (get_at _ _ _ A2). cbn [bind].
    rewrite top2 by exact L2.
    replace (negb (is64 m) && negb (m_mod p =? 3)) with false
      by (destruct (is64 m); [reflexivity|rewrite (W2 eq_refl); reflexivity]).
    cbv zeta. unfold prefix_vex_done.
    match goal with |- context [get_byte ?j _] => rewrite (get_at j _ (x_opc x)) end.
    2: { unfold resolve_vex_pp.
         repeat (match goal with |- context [if ?c then _ else _] => destruct c end);
         exact A3. }
    cbn [bind escape length]. replace (l + 2 + 1)%nat with (l + 3)%nat by lia.
    reflexivity.
  - (* VEX3 *)
    destruct He as (L1 & L2 & L3 & L4). destruct W2 as (_ & _ & W2).
    assert (Hat : at_pos raw l [0xc4; p1; p2; x_opc x])
      by (apply at_app in Ha; apply Ha).
    destruct Hat as (A1 & A2 & A3 & A4 & _).
    rewrite (RUN 0xc4); [|apply at_app; split; [exact (at_prefix _ _ _ _ Ha)|split; [exact A1|exact I]]
      |now apply not_prefix|lia].
    change (main_dec s l (rex_of m (x_pfx x)) 0xc4) with (prefix_vex_c4 s l).
    unfold prefix_vex_c4. rewrite mode_64_eq, K3.
    replace (i_max_bytes s <=? l + 1)%nat with false by lia.
    replace (i_max_bytes s <? l + 4)%nat with false by lia.
    replace (S (S (S l))) with (l + 3)%nat in * by lia.
    replace (S (S l)) with (l + 2)%nat in * by lia.
    replace (S l) with (l + 1)%nat in * by lia.
    rewrite <- K1 in A2, A3, A4. rewrite (get_at _ _ _ A2). cbn [bind].
    rewrite top2 by exact L3.
    replace (negb (is64 m) && negb (m_mod p1 =? 3)) with false
      by (destruct (is64 m); [reflexivity|rewrite (W2 eq_refl); reflexivity]).
    rewrite (get_at _ _ _ A3). cbn [bind].
    cbv zeta. unfold prefix_vex_done.
    replace (map_invalid <=? N.to_nat (N.land p1 0x1f))%nat with false.
    2: { change 0x1f with (N.ones 5). rewrite N.land_ones. change (2 ^ 5) with 32.
         rewrite <- L1. unfold map_invalid. lia. }
    match goal with |- context [get_byte ?j _] => rewrite (get_at j _ (x_opc x)) end.
    2: { unfold resolve_vex_pp.
         repeat (match goal with |- context [if ?c then _ else _] => destruct c end);
         exact A4. }
    cbn [bind escape length]. replace (l + 3 + 1)%nat with (l + 4)%nat by lia.
    reflexivity.
  - (* EVEX *)
    destruct He as (L1 & L2 & L3 & L4). destruct W2 as (_ & _ & W2).
    assert (Hat : at_pos raw l [0x62; p1; p2; p3; x_opc x])
      by (apply at_app in Ha; apply Ha).
    destruct Hat as (A1 & A2 & A3 & _ & A4 & _).
    rewrite (RUN 0x62); [|apply at_app; split; [exact (at_prefix _ _ _ _ Ha)|split; [exact A1|exact I]]
      |now apply not_prefix|lia].
    change (main_dec s l (rex_of m (x_pfx x)) 0x62) with (prefix_evex s l).
    unfold prefix_evex. rewrite mode_64_eq, K3.
    replace (i_max_bytes s <=? l + 1)%nat with false by lia.
    replace (i_max_bytes s <? l + 5)%nat with false by lia.
    replace (S (S (S (S l)))) with (l + 4)%nat in * by lia.
    replace (S (S l)) with (l + 2)%nat in * by lia.
    replace (S l) with (l + 1)%nat in * by lia.
    rewrite <- K1 in A2, A3, A4. rewrite (get_at _ _ _ A2). cbn [bind].
    rewrite top2 by exact L3.
    replace (negb (is64 m) && negb (m_mod p1 =? 3)) with false
      by (destruct (is64 m); [reflexivity|rewrite (W2 eq_refl); reflexivity]).
    rewrite (get_at _ _ _ A3). cbn [bind].
    cbv zeta. unfold prefix_vex_done.
    match goal with |- context [get_byte ?j _] => rewrite (get_at j _ (x_opc x)) end.
    2: { unfold resolve_vex_pp.
         repeat (match goal with |- context [if ?c then _ else _] => destruct c end);
         exact A4. }
    cbn [bind escape length]. replace (l + 4 + 1)%nat with (l + 5)%nat by lia.
    reflexivity.
Qed.

Definition enc_cond (m : exec_mode) (raw : list N) (x : x86) : Prop :=
  match x_enc x with
  | Legacy =>
      x_map x = 0%nat ->
      prefix_byte m (x_opc x) = false
      /\ (one_of [0x62; 0xc4; 0xc5] (x_opc x) = true ->
          is64 m = false /\ m_mod (byte_at raw (length (head_bytes x))) <> 3)
      /\ (x_opc x = 0xd5 -> is64 m = false)
  | Rex2 _ => True
  | Vex2 p => is64 m = false -> m_mod p = 3
  | Vex3 p1 _ => is64 m = false -> m_mod p1 = 3
  | Evex p1 _ _ => is64 m = false -> m_mod p1 = 3
  end.

Definition head_of (pfx : list N) (e : enc) (map : nat) (opc : N) : x86 :=
  mk_x86 pfx e map opc [] [] [] [].

Lemma get_inv : forall i l b, get_byte i l = Ok b -> nth_error (i_raw i) l = Some b.
Proof.
  intros i l b H. unfold get_byte, rd in H.
  destruct (nth_error (i_raw i) l); [|discriminate]. congruence.
Qed.

Lemma nth_ok : forall raw l b, bytes_ok raw -> nth_error raw l = Some b -> b < 256.
Proof.
  intros raw l b H E. apply nth_error_In in E.
  unfold bytes_ok in H. rewrite Forall_forall in H. exact (H b E).
Qed.

Lemma vex_raw : forall p i, i_raw (resolve_vex_pp p i) = i_raw i.
Proof.
  intros p i. unfold resolve_vex_pp.
  repeat (match goal with |- context [if ?c then _ else _] => destruct c end);
    reflexivity.
Qed.
Lemma vex_disp : forall p i, i_disp_bytes (resolve_vex_pp p i) = i_disp_bytes i.
Proof.
  intros p i. unfold resolve_vex_pp.
  repeat (match goal with |- context [if ?c then _ else _] => destruct c end);
    reflexivity.
Qed.
Lemma vex_vex : forall p i, i_vex (resolve_vex_pp p i) = i_vex i.
Proof.
  intros p i. unfold resolve_vex_pp.
  repeat (match goal with |- context [if ?c then _ else _] => destruct c end);
    reflexivity.
Qed.

Lemma head_sound : forall m raw size r,
  bytes_ok raw -> (size <= length raw)%nat ->
  decode (ild_init raw size m) = Ok r ->
  exists pfx e map opc, let x := head_of pfx e map opc in
    head_ok m x /\ enc_cond m raw x /\ at_pos raw 0 (head_bytes x)
    /\ modrm_dec (enc_state m x (pfx_state (ild_init raw size m) pfx))
         (length (head_bytes x)) = Ok r.
Proof.
  intros m raw size r Hb Hs H. unfold decode in H.
  set (i := ild_init raw size m) in *.
  assert (Ei : i_raw i = raw /\ i_max_bytes i = size /\ i_mode i = m)
    by (repeat split).
  destruct Ei as (E1 & E2 & E3).
  apply prefix_sound in H; [|exact Hb|exact Hs].
  destruct H as (pfx & b & Hp & Ha & Hn & Hl & H).
  rewrite E1 in Ha. rewrite E2 in Hl. rewrite E3 in Hp, Hn.
  rewrite (pfx_rex_eq m pfx Hp) in H. cbn [Nat.add] in H, Hl.
  pose proof (pfx_fresh pfx i (fresh_init raw size m)) as Hf.
  destruct (pfx_state_keeps pfx i) as (K1 & K2 & K3).
  rewrite E1 in K1. rewrite E2 in K2. rewrite E3 in K3.
  set (s := pfx_state i pfx) in *.
  set (l := length pfx) in *.
  assert (Hsb : bytes_ok (i_raw s)) by (rewrite K1; exact Hb).
  assert (Hsm : (i_max_bytes s <= length (i_raw s))%nat)
    by (rewrite K1, K2; exact Hs).
  assert (Hsl : (l < i_max_bytes s)%nat) by (rewrite K2; exact Hl).
  apply at_app in Ha. destruct Ha as [Ha1 Ha2]. cbn [Nat.add] in Ha2.
  change (length pfx) with l in Ha2.
  assert (Eb : nth_error raw l = Some b) by apply Ha2.
  assert (Bb : b < 256) by (exact (nth_ok raw l b Hb Eb)).
  (* legacy *)
  assert (LEG : prefix_done s l (rex_of m pfx) = Ok r ->
    (one_of [0x62; 0xc4; 0xc5] b = true ->
      is64 m = false /\ m_mod (byte_at raw (l + 1)) <> 3) ->
    (b = 0xd5 -> is64 m = false) ->
    exists pfx e map opc, let x := head_of pfx e map opc in
    head_ok m x /\ enc_cond m raw x /\ at_pos raw 0 (head_bytes x)
    /\ modrm_dec (enc_state m x (pfx_state i pfx))
         (length (head_bytes x)) = Ok r).
  { intros H0 C1 C2. unfold prefix_done in H0. cbv zeta in H0.
    apply opcode_sound in H0; [|exact Hsb|exact Hsm|exact Hsl].
    destruct H0 as (map & opc & O1 & O2 & O3 & O4 & O5).
    exists pfx, Legacy, map, opc. cbv zeta.
    assert (O3' : at_pos raw l (escape Legacy map ++ [opc]))
      by (rewrite <- K1; exact O3).
    assert (LH : length (head_bytes (head_of pfx Legacy map opc))
      = (l + length (escape Legacy map ++ [opc]))%nat).
    { unfold head_bytes. cbn [x_pfx x_enc x_map x_opc head_of enc_bytes app].
      now rewrite app_length. }
    split; [|split; [|split]].
    - split; [exact Hp|split; [exact O2|exact O1]].
    - unfold enc_cond. rewrite LH. cbn [x_enc x_map x_opc head_of].
      intros Hz. subst map. cbn [escape app] in *.
      assert (Eo : opc = b).
      { destruct O3' as [O3' _]. congruence. }
      subst opc. split; [exact Hn|]. split; [exact C1|exact C2].
    - apply at_app. split; [exact Ha1|exact O3'].
    - rewrite LH. exact O5. }
  assert (R0 : is64 m = false -> rex_of m pfx = 0)
    by (apply rex_of_non64).
  pose proof (pfx_code_vals b Bb) as Hc.
  pose proof Hn as Hn'. rewrite prefix_code in Hn' by exact Bb.
  unfold main_dec in H.
  destruct (pfx_code b) eqn:Ec; try discriminate Hn'.
  - (* no prefix *)
    apply LEG; [exact H| |].
    + intros C. unfold one_of in Hc, C. cbn [existsb] in Hc, C. exfalso. clear - Hc C. lia.
    + intros C. unfold one_of in Hc. cbn [existsb] in Hc. exfalso. clear - Hc C. lia.
  - (* a REX byte outside of 64-bit mode *)
    apply LEG.
    + rewrite (R0 Hn'), prefix_done_0 by exact Hf. exact H.
    + intros C. exfalso. unfold one_of in C. cbn [existsb] in C.
      unfold rex_prefix, within in Hc. clear - Hc C. lia.
    + intros _. exact Hn'.
  - (* c4 *)
    subst b. unfold prefix_vex_c4 in H. rewrite mode_64_eq, K3 in H.
    destruct (i_max_bytes s <=? l + 1)%nat eqn:L1; [discriminate H|].
    assert (Hl1 : (l + 1 < i_max_bytes s)%nat) by (clear - L1; lia).
    destruct (nth_byte s (l + 1) Hsm Hl1 Hsb) as (p1 & A1 & B1).
    rewrite (get_at _ _ _ A1) in H. cbn [bind] in H. rewrite top2 in H by exact B1.
    rewrite K1 in A1.
    destruct (negb (is64 m) && negb (m_mod p1 =? 3)) eqn:E64.
    { apply andb_true_iff in E64. destruct E64 as [E64 Em].
      apply negb_true_iff in E64, Em. apply N.eqb_neq in Em.
      apply LEG.
      - rewrite (R0 E64), prefix_done_0 by exact Hf. exact H.
      - intros _. split; [exact E64|]. now rewrite (byte_nth _ _ _ A1).
      - intros _. exact E64. }
    destruct (i_max_bytes s <? l + 4)%nat eqn:L4; [discriminate H|].
    assert (Hl2 : (l + 2 < i_max_bytes s)%nat) by (clear - L4; lia).
    destruct (nth_byte s (l + 2) Hsm Hl2 Hsb) as (p2 & A2 & B2).
    rewrite (get_at _ _ _ A2) in H. cbn [bind] in H. cbv zeta in H.
    rewrite K1 in A2.
    destruct (map_invalid <=? N.to_nat (N.land p1 0x1f))%nat eqn:EM; [discriminate H|].
    unfold prefix_vex_done in H.
    assert (Hl3 : (l + 3 < i_max_bytes s)%nat) by (clear - L4; lia).
    destruct (nth_byte s (l + 3) Hsm Hl3 Hsb) as (o & A3 & B3).
    match type of H with context [get_byte ?j _] =>
      assert (Q : nth_error (i_raw j) (l + 3) = Some o)
        by (change (i_raw j) with (i_raw (resolve_vex_pp (N.land p2 3)
              (set_rex_w (truth (N.land (N.shiftr p2 7) 1))
                (set_rex_r (inv_bit p1 7) (set_vex 1 s)))));
            rewrite vex_raw; exact A3);
      rewrite (get_at j _ o Q) in H end.
    cbn [bind] in H. rewrite K1 in A3. clear Q.
    assert (ML : N.land p1 0x1f = p1 mod 32).
    { change 0x1f with (N.ones 5). now rewrite N.land_ones. }
    exists pfx, (Vex3 p1 p2), (N.to_nat (p1 mod 32)), o. cbv zeta.
    assert (LH : length (head_bytes (head_of pfx (Vex3 p1 p2) (N.to_nat (p1 mod 32)) o))
      = (l + 3 + 1)%nat).
    { unfold head_bytes. cbn [x_pfx x_enc x_map x_opc head_of enc_bytes escape].
      rewrite app_length. cbn [app length]. fold l. clear. lia. }
    destruct (Nat.eq_dec (N.to_nat (p1 mod 32)) 0) as [Z|Z].
    { exfalso. rewrite bad_map in H; [discriminate H|]. right.
      split; [left; cbn; rewrite vex_vex; reflexivity|].
      split; [cbn; rewrite ML; exact Z|]. cbn. rewrite vex_disp. cbn. apply Hf. }
    split; [|split; [|split]].
    + split; [exact Hp|]. split; [exact B3|]. cbn [x_enc x_map head_of].
      rewrite ML in EM. unfold map_invalid in EM.
      repeat split; try assumption; clear - EM Z; lia.
    + cbn. intros E. rewrite E in E64. cbn in E64.
      apply negb_false_iff in E64. now apply N.eqb_eq.
    + apply at_app. split; [exact Ha1|]. cbn [Nat.add].
      cbn [x_pfx x_enc x_map x_opc head_of enc_bytes escape app at_pos]. fold l.
      replace (S (S (S l))) with (l + 3)%nat by (clear; lia).
      replace (S (S l)) with (l + 2)%nat by (clear; lia).
      replace (S l) with (l + 1)%nat by (clear; lia). auto.
    + rewrite LH. exact H.
  - (* c5 *)
    subst b. unfold prefix_vex_c5 in H. rewrite mode_64_eq, K3 in H.
    destruct (i_max_bytes s <=? l + 1)%nat eqn:L1; [discriminate H|].
    assert (Hl1 : (l + 1 < i_max_bytes s)%nat) by (clear - L1; lia).
    destruct (nth_byte s (l + 1) Hsm Hl1 Hsb) as (p1 & A1 & B1).
    rewrite (get_at _ _ _ A1) in H. cbn [bind] in H. rewrite top2 in H by exact B1.
    rewrite K1 in A1.
    destruct (negb (is64 m) && negb (m_mod p1 =? 3)) eqn:E64.
    { apply andb_true_iff in E64. destruct E64 as [E64 Em].
      apply negb_true_iff in E64, Em. apply N.eqb_neq in Em.
      apply LEG.
      - rewrite (R0 E64), prefix_done_0 by exact Hf. exact H.
      - intros _. split; [exact E64|]. now rewrite (byte_nth _ _ _ A1).
      - intros _. exact E64. }
    destruct (i_max_bytes s <? l + 3)%nat eqn:L4; [discriminate H|].
    cbv zeta in H. unfold prefix_vex_done in H.
    assert (Hl3 : (l + 2 < i_max_bytes s)%nat) by (clear - L4; lia).
    destruct (nth_byte s (l + 2) Hsm Hl3 Hsb) as (o & A3 & B3).
    match type of H with context [get_byte ?j _] =>
      assert (Q : nth_error (i_raw j) (l + 2) = Some o)
        by (change (i_raw j) with (i_raw (resolve_vex_pp (N.land p1 3)
                (set_rex_r (inv_bit p1 7) (set_vex 1 s))));
            rewrite vex_raw; exact A3);
      rewrite (get_at j _ o Q) in H end.
    cbn [bind] in H. rewrite K1 in A3. clear Q.
    exists pfx, (Vex2 p1), 1%nat, o. cbv zeta.
    assert (LH : length (head_bytes (head_of pfx (Vex2 p1) 1 o)) = (l + 2 + 1)%nat).
    { unfold head_bytes. cbn [x_pfx x_enc x_map x_opc head_of enc_bytes escape].
      rewrite app_length. cbn [app length]. fold l. clear. lia. }
    split; [|split; [|split]].
    + split; [exact Hp|]. split; [exact B3|]. split; [reflexivity|exact B1].
    + cbn. intros E. rewrite E in E64. cbn in E64.
      apply negb_false_iff in E64. now apply N.eqb_eq.
    + apply at_app. split; [exact Ha1|]. cbn [Nat.add].
      cbn [x_pfx x_enc x_map x_opc head_of enc_bytes escape app at_pos]. fold l.
      replace (S (S l)) with (l + 2)%nat by (clear; lia).
      replace (S l) with (l + 1)%nat by (clear; lia). auto.
    + rewrite LH. exact H.
  - (* evex *)
    subst b. unfold prefix_evex in H. rewrite mode_64_eq, K3 in H.
    destruct (i_max_bytes s <=? l + 1)%nat eqn:L1; [discriminate H|].
    assert (Hl1 : (l + 1 < i_max_bytes s)%nat) by (clear - L1; lia).
    destruct (nth_byte s (l + 1) Hsm Hl1 Hsb) as (p1 & A1 & B1).
    rewrite (get_at _ _ _ A1) in H. cbn [bind] in H. rewrite top2 in H by exact B1.
    rewrite K1 in A1.
    destruct (negb (is64 m) && negb (m_mod p1 =? 3)) eqn:E64.
    { apply andb_true_iff in E64. destruct E64 as [E64 Em].
      apply negb_true_iff in E64, Em. apply N.eqb_neq in Em.
      apply LEG.
      - rewrite (R0 E64), prefix_done_0 by exact Hf. exact H.
      - intros _. split; [exact E64|]. now rewrite (byte_nth _ _ _ A1).
      - intros _. exact E64. }
    destruct (i_max_bytes s <? l + 5)%nat eqn:L4; [discriminate H|].
    assert (Hl2 : (l + 2 < i_max_bytes s)%nat) by (clear - L4; lia).
    destruct (nth_byte s (l + 2) Hsm Hl2 Hsb) as (p2 & A2 & B2).
    rewrite (get_at _ _ _ A2) in H. cbn [bind] in H. cbv zeta in H.
    rewrite K1 in A2.
    unfold prefix_vex_done in H.
    assert (Hl3 : (l + 3 < i_max_bytes s)%nat) by (clear - L4; lia).
    destruct (nth_byte s (l + 3) Hsm Hl3 Hsb) as (p3 & A3 & B3). rewrite K1 in A3.
    assert (Hl4 : (l + 4 < i_max_bytes s)%nat) by (clear - L4; lia).
    destruct (nth_byte s (l + 4) Hsm Hl4 Hsb) as (o & A4 & B4).
    match type of H with context [get_byte ?j _] =>
      assert (Q : nth_error (i_raw j) (l + 4) = Some o)
        by (change (i_raw j) with (i_raw (resolve_vex_pp (N.land p2 3)
              (set_rex_w (truth (N.land (N.shiftr p2 7) 1))
                (set_rex_r (N.lor (inv_bit p1 7) (2 * inv_bit p1 4))
                  (set_vex 2 s)))));
            rewrite vex_raw; exact A4);
      rewrite (get_at j _ o Q) in H end.
    cbn [bind] in H. rewrite K1 in A4. clear Q.
    assert (ML : N.land p1 7 = p1 mod 8).
    { change 7 with (N.ones 3). now rewrite N.land_ones. }
    exists pfx, (Evex p1 p2 p3), (N.to_nat (p1 mod 8)), o. cbv zeta.
    assert (LH : length (head_bytes (head_of pfx (Evex p1 p2 p3) (N.to_nat (p1 mod 8)) o))
      = (l + 4 + 1)%nat).
    { unfold head_bytes. cbn [x_pfx x_enc x_map x_opc head_of enc_bytes escape].
      rewrite app_length. cbn [app length]. fold l. clear. lia. }
    destruct (Nat.eq_dec (N.to_nat (p1 mod 8)) 0) as [Z|Z].
    { exfalso. rewrite bad_map in H; [discriminate H|]. right.
      split; [right; cbn; rewrite vex_vex; reflexivity|].
      split; [cbn; rewrite ML; exact Z|]. cbn. rewrite vex_disp. cbn. apply Hf. }
    split; [|split; [|split]].
    + split; [exact Hp|]. split; [exact B4|]. cbn [x_enc x_map head_of].
      repeat split; try assumption; clear - Z; lia.
    + cbn. intros E. rewrite E in E64. cbn in E64.
      apply negb_false_iff in E64. now apply N.eqb_eq.
    + apply at_app. split; [exact Ha1|]. cbn [Nat.add].
      cbn [x_pfx x_enc x_map x_opc head_of enc_bytes escape app at_pos]. fold l.
      replace (S (S (S (S l)))) with (l + 4)%nat by (clear; lia).
      replace (S (S (S l))) with (l + 3)%nat by (clear; lia).
      replace (S (S l)) with (l + 2)%nat by (clear; lia).
      replace (S l) with (l + 1)%nat by (clear; lia). auto 10.
    + rewrite LH. exact H.
  - (* rex2 *)
    subst b. unfold prefix_rex2 in H. rewrite mode_64_eq, K3 in H.
    destruct (is64 m) eqn:E64; cbn [negb] in H.
    2: { apply LEG.
         - rewrite (R0 eq_refl), prefix_done_0 by exact Hf. exact H.
         - discriminate.
         - reflexivity. }
    destruct (i_max_bytes s <? l + 2)%nat eqn:L1; [discriminate H|].
    assert (Hl1 : (l + 1 < i_max_bytes s)%nat) by (clear - L1; lia).
    destruct (nth_byte s (l + 1) Hsm Hl1 Hsb) as (p1 & A1 & B1).
    rewrite (get_at _ _ _ A1) in H. cbn [bind] in H. cbv zeta in H.
    rewrite K1 in A1. unfold prefix_vex_done in H.
    match type of H with context [get_byte ?j _] =>
      destruct (get_byte j (l + 2)) as [o|e|u] eqn:Eo end; try discriminate H.
    cbn [bind] in H. apply get_inv in Eo.
    assert (A3 : nth_error raw (l + 2) = Some o) by (rewrite <- K1; exact Eo).
    pose proof (nth_ok _ _ _ Hb A3) as B3.
    exists pfx, (Rex2 p1), (N.to_nat (p1 / 128)), o. cbv zeta.
    assert (LH : length (head_bytes (head_of pfx (Rex2 p1) (N.to_nat (p1 / 128)) o))
      = (l + 2 + 1)%nat).
    { unfold head_bytes. cbn [x_pfx x_enc x_map x_opc head_of enc_bytes escape].
      rewrite app_length. cbn [app length]. fold l. clear. lia. }
    split; [|split; [|split]].
    + split; [exact Hp|]. split; [exact B3|].
      split; [exact E64|]. split; [reflexivity|exact B1].
    + exact I.
    + apply at_app. split; [exact Ha1|]. cbn [Nat.add].
      cbn [x_pfx x_enc x_map x_opc head_of enc_bytes escape app at_pos]. fold l.
      replace (S (S l)) with (l + 2)%nat by (clear; lia).
      replace (S l) with (l + 1)%nat by (clear; lia). auto.
    + rewrite LH. exact H.
Qed.
