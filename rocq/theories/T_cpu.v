(** Theorems about processor strings (C39). *)

From Verif Require Import Base M_config M_asid M_cpu S_config L_config.
From Coq Require Import List NArith ZArith PeanoNat Bool Lia ZifyBool ZifyNat ZifyN.
Import ListNotations.
Open Scope N_scope.
Ltac Zify.zify_post_hook ::= Z.div_mod_to_equations.

(** ** C39 *)

(** A string family/model or family/model/stepping in any base of the C
    language gives exactly these
    numbers if they fit, and is refused otherwise. *)
Theorem C39_cpu_parse f fam m model s step :
  numeral f fam -> numeral m model -> numeral s step ->
  pt_cpu_parse (f ++ slash :: m ++ slash :: s)
  = (if (fam <=? 65535) && (model <=? 255) && (step <=? 255)
     then Ok (mk_cpu pcv_intel fam model step) else Err pte_invalid) /\
  pt_cpu_parse (f ++ slash :: m)
  = (if (fam <=? 65535) && (model <=? 255)
     then Ok (mk_cpu pcv_intel fam model 0) else Err pte_invalid).
Proof.
  intros Hf Hm Hs. unfold pt_cpu_parse, slash.
  assert (E1 : forall rest, strtol (f ++ 47 :: rest)
                       = (Z.min LONG_MAX (Z.of_N fam), 47 :: rest, true)).
  { intros rest. apply strtol_numeral; [exact Hf|]. right. exists rest. reflexivity. }
  assert (E2 : forall rest, strtol (m ++ 47 :: rest)
                       = (Z.min LONG_MAX (Z.of_N model), 47 :: rest, true)).
  { intros rest. apply strtol_numeral; [exact Hm|]. right. exists rest. reflexivity. }
  assert (E2' : strtol m = (Z.min LONG_MAX (Z.of_N model), [], true)).
  { rewrite <- (app_nil_r m). apply strtol_numeral; [exact Hm|]. left. reflexivity. }
  assert (E3 : strtol s = (Z.min LONG_MAX (Z.of_N step), [], true)).
  { rewrite <- (app_nil_r s). apply strtol_numeral; [exact Hs|]. left. reflexivity. }
  rewrite !E1, E2, E2'. change (negb (47 =? 47)) with false. cbn iota.
  cbn [negb]. rewrite E3. unfold LONG_MAX.
  split.
  - destruct (N.leb_spec fam 65535), (N.leb_spec model 255), (N.leb_spec step 255);
      cbn [andb];
      repeat match goal with |- context [(?a || ?b)%bool] =>
        let v := fresh in destruct (a || b)%bool eqn:v; try lia end;
      cbn [bind]; try reflexivity.
    f_equal. f_equal; lia.
  - destruct (N.leb_spec fam 65535), (N.leb_spec model 255);
      cbn [andb];
      repeat match goal with |- context [(?a || ?b)%bool] =>
        let v := fresh in destruct (a || b)%bool eqn:v; try lia end;
      cbn [bind]; try reflexivity.
    f_equal. f_equal; lia.
Qed.

(** Whatever the string, the result is in range. *)
Theorem C39_cpu_parse_range s c :
  pt_cpu_parse s = Ok c ->
  cpu_vendor c = pcv_intel /\ cpu_family c <= 65535 /\ cpu_model c <= 255 /\
  cpu_stepping c <= 255.
Proof.
  unfold pt_cpu_parse.
  destruct (strtol s) as [[fam e1] mv1]. destruct mv1; [|discriminate].
  destruct e1 as [|sep s1]; [discriminate|].
  destruct (negb (sep =? 47)); [discriminate|].
  destruct ((fam <? 0) || (65535 <? fam))%Z eqn:Ef; [discriminate|].
  destruct (strtol s1) as [[model e2] mv2]. destruct mv2; cbn [negb]; [|discriminate].
  destruct (match e2 with [] => false | c0 :: _ => negb (c0 =? 47) end); [discriminate|].
  destruct ((model <? 0) || (255 <? model))%Z eqn:Em; [discriminate|].
  destruct e2 as [|c2 s2].
  - cbn [bind]. intros [= <-]. cbn [cpu_vendor cpu_family cpu_model cpu_stepping].
    split; [reflexivity|]. split; [lia|]. split; lia.
  - destruct (strtol s2) as [[step e3] mv3]. destruct e3; [|discriminate].
    destruct ((step <? 0) || (255 <? step))%Z eqn:Es; [discriminate|].
    cbn [bind]. intros [= <-]. cbn [cpu_vendor cpu_family cpu_model cpu_stepping].
    split; [reflexivity|]. split; [lia|]. split; lia.
Qed.

(** The strings "6/142/9" and "6/61". *)
Example C39_case :
  pt_cpu_parse [54; 47; 49; 52; 50; 47; 57] = Ok (mk_cpu pcv_intel 6 142 9) /\
  pt_cpu_parse [54; 47; 54; 49] = Ok (mk_cpu pcv_intel 6 61 0) /\
  numeral [49; 52; 50] 142.
Proof.
  split; [reflexivity|]. split; [reflexivity|]. left. split; [discriminate|].
  split; [repeat apply Forall_cons; try apply Forall_nil; lia|].
  split; [right; discriminate|reflexivity].
Qed.

(** The string "0x6/0x8E/011". *)
Example C39_case_bases :
  pt_cpu_parse [48; 120; 54; 47; 48; 120; 56; 69; 47; 48; 49; 49]
  = Ok (mk_cpu pcv_intel 6 142 9) /\
  numeral [48; 120; 56; 69] 142 /\ numeral [48; 49; 49] 9.
Proof.
  split; [reflexivity|]. split.
  - right. right. exists 120, [56; 69]. split; [reflexivity|].
    split; [now left|]. split; [discriminate|]. exists [8; 14].
    split; [|reflexivity]. repeat apply Forall2_cons; try apply Forall2_nil;
      unfold digit; lia.
  - right. left. exists [49; 49]. split; [reflexivity|]. split; [discriminate|].
    exists [1; 1]. split; [|reflexivity].
    repeat apply Forall2_cons; try apply Forall2_nil; unfold digit; lia.
Qed.

(** A trailing slash without stepping is accepted although it is not a processor
    string; the stepping is then zero. *)
Theorem C39_trailing_slash_refuted :
  pt_cpu_parse [54; 47; 54; 49; 47] = Ok (mk_cpu pcv_intel 6 61 0).
Proof. reflexivity. Qed.

Print Assumptions C39_cpu_parse.
Print Assumptions C39_cpu_parse_range.
Print Assumptions C39_trailing_slash_refuted.
