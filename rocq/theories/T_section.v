(** Theorems about sections: use counts (C29) and contents (C42). *)

From Verif Require Import Base M_section S_core S_section L_section.
From Coq Require Import List NArith ZArith Bool Lia ZifyBool ZifyNat ZifyN.
Import ListNotations.
Open Scope N_scope.
Ltac Zify.zify_post_hook ::= Z.div_mod_to_equations.

(** ** C29 *)

(** For every history of users that drop only what they hold, all answers are as
    specified by unbounded bookkeeping with a limit of 65535; the section is destroyed
    exactly when no reference is left, it is mapped exactly while there are mappings,
    and its block cache lives at most as long as the mapping. *)
Theorem C29_life_time ops :
  all_may new_usage ops ->
  let s := sec_run new_scnt ops in
  let u := usage_run new_usage ops in
  answers sec_step new_scnt ops = answers usage_step new_usage ops /\
  (sn_freed s = true <-> us_refs u = 0) /\
  ((exists m, sn_mapped s = Some m) <-> us_maps u <> 0) /\
  ((exists n, sn_bcache s = Some n) -> us_maps u <> 0) /\
  (us_refs u = 0 -> us_maps u = 0 /\ us_atts u = 0) /\
  us_atts u <= us_refs u <= max_count /\ us_maps u <= max_count.
Proof.
  intros H. cbv zeta.
  pose proof (holds_run ops _ _ holds_new H) as [H1 H2 H3 H4 H5 H6 H7 H8 H9 H10 H11 H12 H13].
  split; [exact (holds_answers ops _ _ holds_new H)|].
  split; [rewrite H1; apply N.eqb_eq|]. split; [exact H6|].
  split; [intros Hb; apply H13, H12, Hb|].
  split; [intros H0; split; [apply H11; exact H0|lia]|].
  split; [split; assumption|assumption].
Qed.

Theorem C29_no_ub ops :
  all_may new_usage ops -> Forall no_ub (answers sec_step new_scnt ops).
Proof.
  intros H. rewrite (holds_answers ops _ _ holds_new H).
  revert H. generalize new_usage. induction ops as [|o ops IH]; intros u H; [constructor|].
  destruct H as [Hm Hall].
  cbn [answers]. destruct (usage_step u o) as [u' a] eqn:E. constructor.
  - intros x ->. destruct u as [r m t c b].
    destruct Hm as [_ Hm]. destruct o; cbn [usage_step may] in *;
      repeat match goal with
      | H : (if ?c then _ else _) = _ |- _ => destruct c
      | H : match ?c with _ => _ end = _ |- _ => destruct c
      | H : (_, _) = (_, _) |- _ => injection H as ? ?
      end; try discriminate. subst. apply (Hm x). reflexivity.
  - apply IH. exact Hall.
Qed.

(** In any state, also for users that break the rules, a section is only destroyed when
    the last reference is dropped and it is not mapped. *)
Theorem C29_not_while_used s :
  sn_freed s = false -> sn_freed (fst (pt_section_put s)) = true ->
  sn_ucount s = 1 /\ sn_mcount s = 0 /\ snd (pt_section_put s) = Ok tt.
Proof.
  intros Hf. unfold pt_section_put, alive. rewrite Hf.
  destruct (N.ltb_spec 1 (sn_ucount s)); [cbn; congruence|].
  destruct (N.eqb_spec (sn_ucount s) 0); [cbn; congruence|]. cbn [orb].
  unfold truth. destruct (N.eqb_spec (sn_mcount s) 0); cbn; [|congruence].
  intros _. repeat split; [lia|assumption].
Qed.

Theorem C29_get_put s s' :
  0 < sn_ucount s < 2 ^ 16 -> pt_section_get s = (s', Ok tt) -> pt_section_put s' = (s, Ok tt).
Proof.
  intros Hu. unfold pt_section_get, pt_section_put, alive.
  destruct (sn_freed s) eqn:Hf; [discriminate|].
  destruct (N.eqb_spec (u16 (sn_ucount s + 1)) 0) as [|Hn]; [discriminate|].
  intros [= <-]. cbn [sn_freed set_ucount sn_ucount sn_mcount]. rewrite Hf.
  assert (E : u16 (sn_ucount s + 1) = sn_ucount s + 1).
  { unfold u16, trunc in *. apply N.mod_small.
    destruct (N.eq_dec (sn_ucount s) (2 ^ 16 - 1)) as [E|]; [|lia].
    exfalso. apply Hn. rewrite E. reflexivity. }
  rewrite E. destruct (N.ltb_spec 1 (sn_ucount s + 1)); [|lia].
  replace (sn_ucount s + 1 - 1) with (sn_ucount s) by lia.
  destruct s. reflexivity.
Qed.

Print Assumptions C29_life_time.
Print Assumptions C29_no_ub.
Print Assumptions C29_not_while_used.
Print Assumptions C29_get_put.

Example C29_ex :
  let ops := [SecGet; SecAttach 1; SecMap (Ok (MapFile 0 10)); SecShare; SecUnmap; SecPut;
              SecAllocBcache 10 88 true; SecUnmap; SecDetach 1; SecPut] in
  all_may new_usage ops /\
  sn_freed (sec_run new_scnt ops) = true /\
  sn_freed (sec_run new_scnt (removelast ops)) = false.
Proof.
  cbv zeta. split; [|split; reflexivity].
  unfold new_usage, all_may, may; cbn; repeat split; try reflexivity; try lia; try discriminate;
    try (left; reflexivity); try (intros u; discriminate).
Qed.
(** Dropping the last reference of a mapped section is refused. *)
Example C29_mapped_ex :
  snd (pt_section_put (sec_run new_scnt [SecMap (Ok (MapFile 0 10))])) = Err pte_internal.
Proof. reflexivity. Qed.

(** ** C42 *)

(** A new section lies inside its file; its size is truncated only if needed. *)
Theorem C42_truncated id name fs offset size :
  fs < 2 ^ 64 ->
  match pt_mk_section id name (Ok fs) offset size with
  | Ok s => offset < fs /\ sc_offset s = offset /\ sc_size s = N.min size (fs - offset) /\
            sc_name s = name
  | Err e => e = pte_invalid /\ fs <= offset
  | UB _ => False
  end.
Proof.
  intros H. unfold pt_mk_section. cbn [bind].
  destruct (N.leb_spec fs offset); [split; [reflexivity|assumption]|].
  cbn [sc_offset sc_size sc_name]. split; [assumption|]. split; [reflexivity|].
  split; [|reflexivity].
  replace (sub64 fs offset) with (fs - offset) by (unfold sub64; lia).
  destruct (N.ltb_spec (fs - offset) size); lia.
Qed.

(** However the section is mapped, reading gives the bytes of the file at the section's
    offset, never beyond the section, and is free of undefined behaviour. *)
Theorem C42_section_read id name (f : file) offset size s page unchanged mmap mem n off :
  fsize f < 2 ^ 63 -> n < 2 ^ 16 ->
  pt_mk_section id name (Ok (fsize f)) offset size = Ok s ->
  no_ub (map_file s (fsize f) page unchanged mmap mem) /\
  forall m, map_file s (fsize f) page unchanged mmap mem = Ok m ->
  match pt_section_read s (Some m) f n off with
  | Ok bytes =>
      off < sc_size s /\ length bytes = N.to_nat (N.min n (sc_size s - off)) /\
      forall i, (i < length bytes)%nat ->
        nth_error bytes i = nth_error f (N.to_nat (offset + off) + i)
  | Err e => e = pte_nomap /\ sc_size s <= off
  | UB _ => False
  end.
Proof.
  intros Hfs Hn Hmk.
  pose proof (C42_truncated id name (fsize f) offset size ltac:(lia)) as Ht.
  rewrite Hmk in Ht. destruct Ht as (H1 & H2 & H3 & _).
  destruct (map_file_ok s (fsize f) page unchanged mmap mem) as [Hno Hok]; [lia|exact Hfs|].
  split; [exact Hno|]. intros m Hm. destruct (Hok m Hm) as [Hst Hcov].
  rewrite (section_read_spec s m f n off Hst Hcov) by lia.
  destruct (N.leb_spec (sc_size s) off); [split; [reflexivity|assumption]|].
  assert (Hlen : length (file_bytes f (sc_offset s + off) (N.min n (sc_size s - off)))
                 = N.to_nat (N.min n (sc_size s - off))).
  { rewrite <- (file_bytes_length f (sc_offset s + off) (N.min n (sc_size s - off))) at 2 by lia.
    rewrite Nnat.Nat2N.id. reflexivity. }
  split; [assumption|]. split; [exact Hlen|]. intros i Hi. rewrite Hlen in Hi.
  unfold file_bytes. rewrite H2.
  revert Hi. generalize (N.to_nat (N.min n (sc_size s - off))), (N.to_nat (offset + off)).
  clear. intros k p Hi.
  assert (G : forall (l : list N) k i, (i < k)%nat -> nth_error (firstn k l) i = nth_error l i).
  { clear. induction l as [|x l IH]; intros [|k] [|i] H; try lia; try reflexivity.
    cbn. apply IH. lia. }
  assert (G2 : forall (l : list N) p i, nth_error (skipn p l) i = nth_error l (p + i)).
  { clear. induction l as [|x l IH]; intros [|p] i; try reflexivity.
    - destruct i; reflexivity.
    - cbn. apply IH. }
  rewrite G by exact Hi. apply G2.
Qed.

Print Assumptions C42_truncated.
Print Assumptions C42_section_read.

Example C42_ex :
  match pt_mk_section 0 7 (Ok 6) 2 100 with
  | Ok s =>
      sc_size s = 4 /\
      map_file s 6 4 true true true = Ok (MapPosix 0 6 2) /\
      pt_section_read s (Some (MapPosix 0 6 2)) [10; 11; 12; 13; 14; 15] 3 2 = Ok [14; 15] /\
      map_file s 6 4 true false true = Ok (MapFile 2 6) /\
      pt_section_read s (Some (MapFile 2 6)) [10; 11; 12; 13; 14; 15] 3 0 = Ok [12; 13; 14]
  | _ => False
  end.
Proof. vm_compute. repeat split. Qed.
