(** The instruction length decoder accepts exactly the instruction texts. *)

From Coq Require Import List NArith ZArith Bool Lia.
From Coq Require Import ZifyBool ZifyNat ZifyN.
From Verif Require Import Base M_event M_ildtab M_ild S_x86 L_ild.
Import ListNotations.
Open Scope N_scope.

(** The bytes [bs] are at position [l]. *)
Fixpoint at_pos (raw : list N) (l : nat) (bs : list N) : Prop :=
  match bs with
  | [] => True
  | b :: bs => nth_error raw l = Some b /\ at_pos raw (S l) bs
  end.

Lemma at_app : forall raw a b l,
  at_pos raw l (a ++ b) <-> at_pos raw l a /\ at_pos raw (l + length a) b.
Proof.
  intros raw a b. induction a as [|x a IH]; intros l; cbn [at_pos app length].
  - rewrite Nat.add_0_r. tauto.
  - rewrite IH. replace (l + S (length a))%nat with (S l + length a)%nat by lia.
    tauto.
Qed.

Lemma at_bound : forall raw bs l,
  at_pos raw l bs -> bs <> [] -> (l + length bs <= length raw)%nat.
Proof.
  intros raw bs. induction bs as [|b bs IH]; intros l H Hn; [congruence|].
  destruct H as [H1 H2].
  destruct bs as [|c bs].
  - cbn. enough (l < length raw)%nat by lia. apply nth_error_Some. congruence.
  - specialize (IH (S l) H2). cbn in *. lia || (assert (X : c :: bs <> []) by congruence; specialize (IH X); lia).
Qed.

Lemma at_byte : forall raw l b bs,
  at_pos raw l (b :: bs) -> byte_at raw l = b /\ (l < length raw)%nat.
Proof.
  intros raw l b bs [H _]. split.
  - unfold byte_at. now apply nth_error_nth.
  - apply nth_error_Some. congruence.
Qed.

Definition slice (raw : list N) (l n : nat) : list N := firstn n (skipn l raw).

Lemma slice_length : forall raw l n,
  (l + n <= length raw)%nat -> length (slice raw l n) = n.
Proof.
  intros raw l n H. unfold slice. rewrite firstn_length, skipn_length. lia.
Qed.

Lemma slice_S : forall raw l n,
  (l < length raw)%nat -> slice raw l (S n) = byte_at raw l :: slice raw (S l) n.
Proof.
  intros raw l n H. unfold slice, byte_at.
  revert l H. induction raw as [|b raw IH]; intros l H; [cbn in H; lia|].
  destruct l as [|l]; [reflexivity|].
  cbn [skipn nth]. apply IH. cbn in H. lia.
Qed.

Lemma at_slice : forall raw n l,
  (l + n <= length raw)%nat -> at_pos raw l (slice raw l n).
Proof.
  intros raw n. induction n as [|n IH]; intros l H.
  - unfold slice. cbn. exact I.
  - rewrite slice_S by lia. cbn [at_pos]. split.
    + unfold byte_at. apply nth_error_nth'. lia.
    + apply IH. lia.
Qed.

Lemma at_slice_eq : forall raw bs l,
  at_pos raw l bs -> slice raw l (length bs) = bs.
Proof.
  intros raw bs. induction bs as [|b bs IH]; intros l H; [reflexivity|].
  cbn [length]. destruct (at_byte _ _ _ _ H) as [Hb Hl].
  rewrite slice_S by exact Hl. rewrite Hb. destruct H as [_ H].
  now rewrite IH.
Qed.

Lemma at_firstn : forall raw bs,
  at_pos raw 0 bs -> firstn (length bs) raw = bs.
Proof. intros raw bs H. exact (at_slice_eq raw bs 0%nat H). Qed.

Lemma firstn_at : forall raw bs,
  firstn (length bs) raw = bs -> at_pos raw 0 bs.
Proof.
  intros raw bs H.
  assert (Hl : (length bs <= length raw)%nat).
  { rewrite <- H, firstn_length. lia. }
  rewrite <- H. exact (at_slice raw (length bs) 0%nat Hl).
Qed.

Lemma slice_ok : forall raw l n, bytes_ok raw -> bytes_ok (slice raw l n).
Proof.
  intros raw l n H. unfold slice, bytes_ok in *.
  rewrite Forall_forall in *. intros x Hx. apply H.
  rewrite <- (firstn_skipn l raw). apply in_or_app. right.
  rewrite <- (firstn_skipn n (skipn l raw)). apply in_or_app. now left.
Qed.

Lemma hd_slice : forall raw l n,
  (l + n <= length raw)%nat -> (n <= 1)%nat ->
  hd 0 (slice raw l n) = if (n =? 0)%nat then 0 else byte_at raw l.
Proof.
  intros raw l n H Hn. destruct n as [|[|n]]; [reflexivity| |lia].
  rewrite slice_S by lia. reflexivity.
Qed.

(** Prefixes. *)
Definition pfx_code (b : N) : prefix_fn :=
  if b =? 0x66 then Posz
  else if b =? 0x67 then Pasz
  else if b =? 0xf0 then Plock
  else if b =? 0xf2 then Pf2
  else if b =? 0xf3 then Pf3
  else if one_of [0x26; 0x2e; 0x36; 0x3e; 0x64; 0x65] b then Pign
  else if rex_prefix b then Prex
  else if b =? 0xc4 then Pc4
  else if b =? 0xc5 then Pc5
  else if b =? 0x62 then Pevex
  else if b =? 0xd5 then Prex2
  else Pdone.

Definition fn_eqb (a b : prefix_fn) : bool :=
  match a, b with
  | Pdone, Pdone | Posz, Posz | Pasz, Pasz | Plock, Plock | Pf2, Pf2
  | Pf3, Pf3 | Pign, Pign | Prex, Prex | Pc4, Pc4 | Pc5, Pc5
  | Pevex, Pevex | Prex2, Prex2 => true
  | _, _ => false
  end.
Lemma fn_eqb_eq : forall a b, fn_eqb a b = true -> a = b.
Proof. intros [] []; simpl; intros; congruence. Qed.

Lemma pfx_table : forall b, b < 256 ->
  at_ prefix_table (N.to_nat b) = Ok (pfx_code b).
Proof.
  intros b Hb.
  assert (E : all_bytes (fun b =>
    match nth_error prefix_table (N.to_nat b) with
    | Some c => fn_eqb c (pfx_code b) | None => false end) = true)
    by (vm_compute; reflexivity).
  apply (all_bytes_spec _ E) in Hb. cbv beta in Hb. unfold at_. clear E.
  revert Hb. generalize (nth_error prefix_table (N.to_nat b)).
  intros [c|] Hb; [|discriminate].
  apply fn_eqb_eq in Hb. now rewrite Hb.
Qed.

Definition pfx_step (i : ild) (b : N) : ild :=
  match pfx_code b with
  | Posz => set_osz true i
  | Pasz => set_asz true i
  | Plock => set_lock true i
  | Pf2 => set_last_f2f3 2 (set_f2 true i)
  | Pf3 => set_last_f2f3 3 (set_f3 true i)
  | _ => i
  end.

Definition rex_step (b : N) : N := if rex_prefix b then b else 0.

(** The decode of the first byte that is not a prefix. *)
Definition main_dec (i : ild) (l : nat) (rex b : N) : res (ild * nat) :=
  match pfx_code b with
  | Prex => opcode_dec i l
  | Pc4 => prefix_vex_c4 i l
  | Pc5 => prefix_vex_c5 i l
  | Pevex => prefix_evex i l
  | Prex2 => prefix_rex2 i l
  | _ => prefix_done i l rex
  end.

Lemma prefix_code : forall m b, b < 256 ->
  prefix_byte m b
  = match pfx_code b with
    | Posz | Pasz | Plock | Pf2 | Pf3 | Pign => true
    | Prex => is64 m
    | _ => false
    end.
Proof.
  intros m b Hb.
  assert (E : all_bytes (fun b =>
    eqb (prefix_byte ptem_64bit b)
      match pfx_code b with
      | Posz | Pasz | Plock | Pf2 | Pf3 | Pign | Prex => true
      | _ => false
      end
    && eqb (prefix_byte ptem_32bit b)
         match pfx_code b with
         | Posz | Pasz | Plock | Pf2 | Pf3 | Pign => true
         | _ => false
         end) = true) by (vm_compute; reflexivity).
  apply (all_bytes_spec _ E) in Hb. cbv beta in Hb.
  apply andb_true_iff in Hb. destruct Hb as [H1 H2].
  apply eqb_prop in H1, H2.
  destruct m; [exact H2 | exact H2 | exact H2 |].
  rewrite H1. destruct (pfx_code b); reflexivity.
Qed.

Lemma rex_code : forall b, b < 256 ->
  rex_step b = match pfx_code b with Prex => b | _ => 0 end.
Proof.
  intros b Hb.
  assert (E : all_bytes (fun b =>
    rex_step b =? match pfx_code b with Prex => b | _ => 0 end) = true)
    by (vm_compute; reflexivity).
  apply (all_bytes_spec _ E) in Hb. cbv beta in Hb. now apply N.eqb_eq.
Qed.

Lemma pfx_cases : forall b,
  (b = 0x66 \/ b = 0x67 \/ b = 0xf0 \/ b = 0xf2 \/ b = 0xf3)
  \/ (b <> 0x66 /\ b <> 0x67 /\ b <> 0xf2 /\ b <> 0xf3
      /\ forall i, pfx_step i b = i).
Proof.
  intros b. unfold pfx_step, pfx_code.
  destruct (b =? 0x66) eqn:E1; [left; lia|].
  destruct (b =? 0x67) eqn:E2; [left; lia|].
  destruct (b =? 0xf0) eqn:E3; [left; lia|].
  destruct (b =? 0xf2) eqn:E4; [left; lia|].
  destruct (b =? 0xf3) eqn:E5; [left; lia|].
  right. repeat split; try lia. intros i.
  repeat match goal with
         | |- context [if ?c then _ else _] => destruct c
         end; reflexivity.
Qed.

Lemma mode_64_eq : forall i, mode_64b i = is64 (i_mode i).
Proof. reflexivity. Qed.

Lemma pfx_step_keeps : forall i b,
  i_raw (pfx_step i b) = i_raw i
  /\ i_max_bytes (pfx_step i b) = i_max_bytes i
  /\ i_mode (pfx_step i b) = i_mode i.
Proof. intros i b. unfold pfx_step. destruct (pfx_code b); repeat split. Qed.

(** One step of the prefix decoder. *)
Lemma prefix_unfold : forall fuel i l rex,
  bytes_ok (i_raw i) -> (i_max_bytes i <= length (i_raw i))%nat ->
  prefix_decode (S fuel) i l rex
  = if (i_max_bytes i <=? l)%nat then Err pte_bad_insn
    else
      let b := byte_at (i_raw i) l in
      if prefix_byte (i_mode i) b
      then prefix_decode fuel (pfx_step i b) (l + 1) (rex_step b)
      else main_dec i l rex b.
Proof.
  intros fuel i l rex Hb Hl. cbn [prefix_decode].
  destruct (i_max_bytes i <=? l)%nat eqn:E; [reflexivity|].
  unfold get_byte. rewrite rd_at by lia. cbn [bind].
  set (b := byte_at (i_raw i) l).
  rewrite pfx_table by (apply byte_at_ok; exact Hb).
  assert (Hbb : b < 256) by (apply byte_at_ok; exact Hb).
  cbn [bind]. cbv zeta. rewrite prefix_code, rex_code by exact Hbb.
  unfold pfx_step, main_dec. rewrite mode_64_eq.
  destruct (pfx_code b) eqn:Ec; reflexivity.
Qed.

Definition pfx_state (i : ild) (pfx : list N) : ild := fold_left pfx_step pfx i.
Definition pfx_rex (rex : N) (pfx : list N) : N :=
  fold_left (fun _ b => rex_step b) pfx rex.

Lemma pfx_state_keeps : forall pfx i,
  i_raw (pfx_state i pfx) = i_raw i
  /\ i_max_bytes (pfx_state i pfx) = i_max_bytes i
  /\ i_mode (pfx_state i pfx) = i_mode i.
Proof.
  intros pfx. induction pfx as [|b pfx IH]; intros i; [repeat split|].
  cbn [pfx_state fold_left]. destruct (pfx_step_keeps i b) as (A & B & C).
  destruct (IH (pfx_step i b)) as (A' & B' & C').
  unfold pfx_state in *. repeat split; congruence.
Qed.

(** Prefix bytes are consumed one by one. *)
Lemma prefix_run : forall pfx fuel i l rex b,
  bytes_ok (i_raw i) -> (i_max_bytes i <= length (i_raw i))%nat ->
  Forall (fun b => prefix_byte (i_mode i) b = true) pfx ->
  at_pos (i_raw i) l (pfx ++ [b]) ->
  prefix_byte (i_mode i) b = false ->
  (l + length pfx < i_max_bytes i)%nat ->
  (length pfx < fuel)%nat ->
  prefix_decode fuel i l rex
  = main_dec (pfx_state i pfx) (l + length pfx) (pfx_rex rex pfx) b.
Proof.
  intros pfx. induction pfx as [|c pfx IH];
    intros fuel i l rex b Hb Hm Hp Ha Hn Hl Hf.
  - destruct fuel as [|fuel]; [cbn in Hf; lia|].
    rewrite prefix_unfold by assumption. cbn [length] in *.
    replace (i_max_bytes i <=? l)%nat with false by lia.
    destruct (at_byte _ _ _ _ Ha) as [Eb _]. cbv zeta. rewrite Eb, Hn.
    rewrite Nat.add_0_r. reflexivity.
  - destruct fuel as [|fuel]; [cbn in Hf; lia|].
    rewrite prefix_unfold by assumption. cbn [length] in *.
    replace (i_max_bytes i <=? l)%nat with false by lia.
    destruct (at_byte _ _ _ _ Ha) as [Eb _]. cbv zeta. rewrite Eb.
    inversion Hp as [|c' pfx' Hc Hp']; subst c' pfx'. rewrite Hc.
    destruct (pfx_step_keeps i c) as (E1 & E2 & E3).
    rewrite (IH fuel (pfx_step i c) (l + 1)%nat (rex_step c) b).
    + replace (l + S (length pfx))%nat with (l + 1 + length pfx)%nat by lia.
      reflexivity.
    + now rewrite E1.
    + now rewrite E1, E2.
    + now rewrite E3.
    + rewrite E1. destruct Ha as [_ Ha]. now replace (l + 1)%nat with (S l) by lia.
    + now rewrite E3.
    + rewrite E2. lia.
    + lia.
Qed.

Lemma prefix_sound : forall fuel i l rex r,
  bytes_ok (i_raw i) -> (i_max_bytes i <= length (i_raw i))%nat ->
  prefix_decode fuel i l rex = Ok r ->
  exists pfx b,
    Forall (fun b => prefix_byte (i_mode i) b = true) pfx
    /\ at_pos (i_raw i) l (pfx ++ [b])
    /\ prefix_byte (i_mode i) b = false
    /\ (l + length pfx < i_max_bytes i)%nat
    /\ main_dec (pfx_state i pfx) (l + length pfx) (pfx_rex rex pfx) b = Ok r.
Proof.
  intros fuel. induction fuel as [|fuel IH]; intros i l rex r Hb Hm H;
    [discriminate H|].
  rewrite prefix_unfold in H by assumption.
  destruct (i_max_bytes i <=? l)%nat eqn:El; [discriminate H|].
  cbv zeta in H. set (b := byte_at (i_raw i) l) in *.
  assert (Hat : nth_error (i_raw i) l = Some b)
    by (unfold b, byte_at; apply nth_error_nth'; lia).
  destruct (prefix_byte (i_mode i) b) eqn:Ep.
  - destruct (pfx_step_keeps i b) as (E1 & E2 & E3).
    apply IH in H; [|now rewrite E1|now rewrite E1, E2].
    destruct H as (pfx & c & H1 & H2 & H3 & H4 & H5).
    rewrite E1, E2, E3 in *.
    exists (b :: pfx), c. split; [now constructor|].
    split; [cbn [app at_pos]; split; [exact Hat|];
            now replace (S l) with (l + 1)%nat by lia|].
    split; [exact H3|]. cbn [length]. split; [lia|].
    replace (l + S (length pfx))%nat with (l + 1 + length pfx)%nat by lia.
    exact H5.
  - exists [], b. cbn [length app at_pos]. rewrite Nat.add_0_r.
    repeat split; try assumption; [constructor|lia].
Qed.

(** What the prefixes set. *)
Definition rep_code (r : option N) : N :=
  match r with Some b => if b =? 0xf2 then 2 else 3 | None => 0 end.

Definition fresh (i : ild) : Prop :=
  i_imm1 i = 0%nat /\ i_imm2 i = 0%nat /\ i_disp_bytes i = 0%nat
  /\ i_modrm i = 0 /\ i_vex i = 0%nat /\ i_rex2 i = false
  /\ i_rex_r i = 0 /\ i_rex_w i = false.

Lemma pfx_step_fresh : forall i b, fresh i -> fresh (pfx_step i b).
Proof.
  intros i b H. unfold pfx_step. destruct (pfx_code b); exact H.
Qed.

Lemma pfx_fresh : forall pfx i, fresh i -> fresh (pfx_state i pfx).
Proof.
  intros pfx. induction pfx as [|b pfx IH]; intros i H; [exact H|].
  cbn. apply IH. now apply pfx_step_fresh.
Qed.

Lemma pfx_flags : forall pfx i r,
  i_last_f2f3 i = rep_code r ->
  i_osz (pfx_state i pfx) = (i_osz i || one_of pfx 0x66)
  /\ i_asz (pfx_state i pfx) = (i_asz i || one_of pfx 0x67)
  /\ i_f3 (pfx_state i pfx) = (i_f3 i || one_of pfx 0xf3)
  /\ i_last_f2f3 (pfx_state i pfx) = rep_code (last_rep pfx r).
Proof.
  intros pfx. induction pfx as [|b pfx IH]; intros i r Hr.
  - cbn. rewrite !orb_false_r. repeat split. exact Hr.
  - cbn [pfx_state fold_left last_rep].
    set (r' := if one_of [0xf2; 0xf3] b then Some b else r).
    unfold one_of at 1 2 3. cbn [existsb].
    destruct (pfx_cases b) as [H|(N1 & N2 & N3 & N4 & Hid)].
    + assert (Hr' : i_last_f2f3 (pfx_step i b) = rep_code r')
        by (destruct H as [->|[->|[->|[->| ->]]]]; (exact Hr || reflexivity)).
      destruct (IH (pfx_step i b) r' Hr') as (A & B & C & D).
      unfold pfx_state in *. rewrite A, B, C, D. clear IH A B C D Hr Hr'.
      unfold one_of.
      destruct H as [->|[->|[->|[->| ->]]]]; cbn;
        rewrite ?orb_true_r; repeat split.
    + assert (Er : r' = r).
      { unfold r', one_of. cbn [existsb].
        replace (b =? 0xf2) with false by lia.
        replace (b =? 0xf3) with false by lia. reflexivity. }
      rewrite Er, Hid. destruct (IH i r Hr) as (A & B & C & D).
      unfold pfx_state in *. rewrite A, B, C, D.
      rewrite (proj2 (N.eqb_neq 0x66 b) (not_eq_sym N1)).
      rewrite (proj2 (N.eqb_neq 0x67 b) (not_eq_sym N2)).
      rewrite (proj2 (N.eqb_neq 0xf3 b) (not_eq_sym N4)). repeat split.
Qed.
