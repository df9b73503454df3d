(** Decoded TNT packets hold fewer than 64 bits. *)

From Verif Require Import Base M_packet M_config M_pktdec L_bytes.
From Coq Require Import List NArith PeanoNat Bool Lia.
Import ListNotations.
Open Scope N_scope.

Lemma size_loop_le : forall fuel k pl size, pl < 2 ^ N.of_nat (S k) ->
  tnt_bit_size_loop fuel pl size <= size + N.of_nat k.
Proof.
  induction fuel as [|fuel IH]; intros k pl size H; cbn [tnt_bit_size_loop]; [lia|].
  rewrite N.shiftr_div_pow2. change (2 ^ 1) with 2.
  destruct (N.eqb_spec (pl / 2) 0) as [E|E]; [lia|].
  destruct k as [|k].
  - change (2 ^ N.of_nat 1) with 2 in H. apply N.div_small in H. lia.
  - specialize (IH k (pl / 2) (size + 1)).
    assert (pl / 2 < 2 ^ N.of_nat (S k)).
    { apply N.div_lt_upper_bound; [discriminate|].
      replace (N.of_nat (S (S k))) with (N.succ (N.of_nat (S k))) in H by lia.
      rewrite N.pow_succ_r' in H. exact H. }
    specialize (IH H0). lia.
Qed.

Definition given {A} (r : res A) (Q : A -> Prop) : Prop := match r with Ok x => Q x | _ => True end.
Lemma given_bind {A B} (r : res A) (k : A -> res B) Q :
  given r (fun a => given (k a) Q) -> given (bind r k) Q.
Proof. destruct r; auto. Qed.
Lemma given_any {A} (r : res A) (Q : A -> Prop) : (forall a, Q a) -> given r Q.
Proof. destruct r; cbn; auto. Qed.

Definition tnt_ok (p : payload) : Prop :=
  match p with P_tnt_8 t | P_tnt_64 t => 1 <= tnt_bit_size t < 64 | _ => True end.

Lemma read_value_64 : forall n buf pos idx val, val < 2 ^ 64 ->
  given (read_value_from buf pos idx n val) (fun v => v < 2 ^ 64).
Proof.
  induction n as [|n IH]; intros buf pos idx val H; cbn [read_value_from]; [exact H|].
  apply given_bind. destruct (rd buf pos) as [b|e|u]; cbn; auto. apply IH.
  assert (Hs : shl64 b (idx * 8) < 2 ^ 64) by (unfold shl64; apply N.mod_lt; discriminate).
  change (2 ^ 64) with 18446744073709551616 in *.
  destruct (N.eq_dec (N.lor val (shl64 b (idx * 8))) 0) as [->|Hne]; [reflexivity|].
  change 18446744073709551616 with (2 ^ 64) in *.
  apply N.log2_lt_pow2; [lia|]. rewrite N.log2_lor. apply N.max_lub_lt.
  - destruct (N.eq_dec val 0) as [->|]; [reflexivity|]. apply N.log2_lt_pow2; [lia|exact H].
  - destruct (N.eq_dec (shl64 b (idx * 8)) 0) as [->|]; [reflexivity|]. apply N.log2_lt_pow2; [lia|exact Hs].
Qed.

Lemma read_tnt_small pl : pl < 2 ^ 64 ->
  given (pt_pkt_read_tnt pl) (fun t => 1 <= tnt_bit_size t < 64).
Proof.
  intros H. unfold pt_pkt_read_tnt, pt_pkt_tnt_bit_size.
  pose proof (size_loop_le 64 63 pl 0 H) as Hl.
  destruct (N.eqb_spec (tnt_bit_size_loop 64 pl 0) 0) as [E|E]; cbn [given tnt_bit_size]; [exact I|].
  change (N.of_nat 63) with 63 in Hl. lia.
Qed.

Ltac given_step :=
  cbv zeta;
  lazymatch goal with
  | |- given (Ok _) _ => cbn [given dc_pl tnt_ok fst snd]; try exact I
  | |- given (Err _) _ => exact I
  | |- given (UB _) _ => exact I
  | |- given (bind _ _) _ => apply given_bind
  | |- given (plain _) _ => unfold plain
  | |- given (if ?b then _ else _) _ => destruct b
  | |- given (match ?x with _ => _ end) _ => destruct x
  | |- given (rd _ _) _ => apply given_any; intros ?
  | |- given (need _ _) _ => apply given_any; intros ?
  | |- given (pt_pkt_read_value _ _ _) _ => apply given_any; intros ?
  | |- given (pt_pkt_ip_size _) _ => apply given_any; intros ?
  | |- given (pt_ptw_size _) _ => apply given_any; intros ?
  | |- given (pt_pkt_read_ip _ _) _ => apply given_any; intros [? ?]
  | |- given (pt_pkt_read_cyc _ _) _ => apply given_any; intros [? ?]
  | |- given (?f _ _) _ => unfold f
  | |- given (?f _ _ _) _ => unfold f
  end.

Lemma decode_tnt_ok cf buf pos : bytes_ok buf ->
  given (pt_pkt_decode cf buf pos) (fun dc => tnt_ok (dc_pl dc)).
Proof.
  intros Hb. unfold pt_pkt_decode.
  repeat (given_step;
    lazymatch goal with
    | |- given (plain (pt_pkt_read_tnt_8 _ _)) _ =>
        unfold plain, pt_pkt_read_tnt_8; apply given_bind, given_bind;
        let E := fresh in destruct (rd buf pos) as [b| |] eqn:E; [|exact I|exact I];
        cbn [given]; apply given_bind;
        let H := fresh in
        assert (H : N.shiftr b pt_opm_tnt_8_shr < 2 ^ 64);
        [ apply N.le_lt_trans with b;
          [ rewrite N.shiftr_div_pow2; apply N.div_le_upper_bound; [discriminate|];
            change (2 ^ pt_opm_tnt_8_shr) with 2; lia
          | unfold rd in E; destruct (nth_error buf pos) eqn:Hn; [|discriminate]; injection E as <-;
            unfold bytes_ok in Hb; rewrite Forall_forall in Hb; apply nth_error_In in Hn; apply Hb in Hn;
            unfold byte_ok in Hn; change (2 ^ 64) with 18446744073709551616; lia ]
        | apply read_tnt_small in H; destruct (pt_pkt_read_tnt _); cbn in *; auto ]
    | |- given (plain (pt_pkt_read_tnt_64 _ _)) _ =>
        unfold plain, pt_pkt_read_tnt_64; apply given_bind, given_bind, given_any; intros _;
        apply given_bind;
        let H := fresh in
        pose proof (read_value_64 pt_pl_tnt_64_size buf (pos + pt_opcs_tnt_64) 0 0 eq_refl) as H;
        unfold pt_pkt_read_value; destruct (read_value_from _ _ _ _ _); cbn [given] in *; auto;
        apply given_bind; apply read_tnt_small in H; destruct (pt_pkt_read_tnt _); cbn in *; auto
    | |- _ => idtac
    end).
  all: try (unfold pt_pkt_read_unknown; repeat given_step).
  - apply given_any. intros _. repeat given_step.
  - unfold pt_pkt_decode_tma.
    assert (H : given (pt_pkt_read_tma buf pos) (fun r => tnt_ok (fst r))) by repeat given_step.
    destruct (pt_pkt_read_tma buf pos) as [[pl n]|e|u]; [exact H| |exact I].
    destruct e; try exact I. repeat given_step.
  - unfold pt_pkt_decode_cyc. apply given_bind, given_any. intros [v n]. apply given_bind.
    destruct (er_skd007 (cf_errata cf)).
    + unfold pt_pkt_handle_skd007. repeat given_step.
    + repeat given_step.
Qed.

Lemma next_tnt_ok pd pd' p : bytes_ok (pd_buf pd) -> pt_pkt_next pd = (pd', Ok p) -> tnt_ok (pkt_pl p).
Proof.
  intros Hb. unfold pt_pkt_next. destruct (pd_pos pd) as [pos|]; [|discriminate].
  pose proof (decode_tnt_ok (pd_config pd) (pd_buf pd) pos Hb) as H.
  destruct (pt_pkt_decode _ _ _); try discriminate. intros E. injection E as _ <-. exact H.
Qed.
