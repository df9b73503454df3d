(** C66: the size that the user declares for a structure does not change what they get. *)

From Coq Require Import List NArith Bool PeanoNat Lia.
From Verif Require Import Base M_config M_asid M_event M_insn M_insndec M_blk M_user S_user L_config.
Import ListNotations.
Open Scope N_scope.

(** ** Copies *)

Lemma nth_copy (a b : list N) k i : (k <= length a)%nat ->
  nth_error (firstn k a ++ b) i = if Nat.ltb i k then nth_error a i else nth_error b (i - k).
Proof.
  intros H. assert (L : length (firstn k a) = k) by (rewrite firstn_length; lia).
  destruct (Nat.ltb_spec i k) as [Hi|Hi].
  - rewrite nth_error_app1 by lia. clear - Hi. revert k i Hi. induction a as [|x a IH]; intros [|k] [|i] Hi; try lia; try reflexivity.
    cbn. apply IH. lia.
  - rewrite nth_error_app2 by lia. rewrite L. reflexivity.
Qed.
Lemma nth_skip (a : list N) k i : nth_error (skipn k a) i = nth_error a (k + i).
Proof. revert a. induction k as [|k IH]; intros [|x a]; try reflexivity; [destruct i; reflexivity|apply IH]. Qed.
Lemma nth_zero len i : (i < len)%nat -> nth_error (repeat 0 len) i = Some 0.
Proof. revert i. induction len as [|n IH]; intros [|i] H; try lia; [reflexivity|]. apply IH. lia. Qed.

Lemma zeroed u off len : (off + len <= length u)%nat -> exists u', memset_zero u off len = Ok u' /\ length u' = length u /\
  forall i, nth_error u' i = if (off <=? i)%nat && (i <? off + len)%nat then Some 0 else nth_error u i.
Proof.
  intros H. unfold memset_zero. destruct (Nat.ltb_spec (length u) (off + len)); [lia|]. eexists. split; [reflexivity|]. split.
  - rewrite !app_length, firstn_length, repeat_length, skipn_length. lia.
  - intros i. rewrite nth_copy by lia. destruct (Nat.ltb_spec i off), (Nat.leb_spec off i); try lia; cbn [andb]; [reflexivity|].
    destruct (Nat.ltb_spec i (off + len)).
    + rewrite nth_error_app1 by (rewrite repeat_length; lia). apply nth_zero. lia.
    + rewrite nth_error_app2 by (rewrite repeat_length; lia). rewrite repeat_length, nth_skip. f_equal. lia.
Qed.
Lemma copied_ok u src k : (k <= length u)%nat -> (k <= length src)%nat -> exists u', memcpy u src k = Ok u' /\ length u' = length u /\
  forall i, nth_error u' i = if (i <? k)%nat then nth_error src i else nth_error u i.
Proof.
  intros H1 H2. rewrite memcpy_ok by lia. eexists. split; [reflexivity|]. split.
  - rewrite app_length, firstn_length, skipn_length. lia.
  - intros i. rewrite nth_copy by lia. destruct (Nat.ltb_spec i k); [reflexivity|]. rewrite nth_skip. f_equal. lia.
Qed.

Lemma fill_ok n u size s : length s = n -> (size <= length u)%nat ->
  exists u', copied u (let* us := (if Nat.ltb n size then (let* u := memset_zero u n (size - n) in Ok (u, n)) else Ok (u, size)) in
                       memcpy (fst us) s (snd us)) = (u', Ok tt) /\ handed u size s u'.
Proof.
  intros Hs Hu. destruct (Nat.ltb_spec n size) as [L|L].
  - destruct (zeroed u n (size - n)) as (u1 & -> & L1 & Z1); [lia|]. cbn [Base.bind fst snd].
    destruct (copied_ok u1 s n) as (u2 & -> & L2 & Z2); [lia|lia|]. exists u2. split; [reflexivity|].
    split; [lia|]. split; [|split]; intros i; intros; rewrite Z2, ?Z1;
      destruct (Nat.ltb_spec i n), (Nat.leb_spec n i), (Nat.ltb_spec i (n + (size - n))); try lia; reflexivity.
  - cbn [Base.bind fst snd]. destruct (copied_ok u s size) as (u2 & -> & L2 & Z2); [lia|lia|]. exists u2. split; [reflexivity|].
    split; [lia|]. split; [|split]; intros i; intros; rewrite Z2; destruct (Nat.ltb_spec i size); try lia; reflexivity.
Qed.
Lemma part_ok n u size s : length s = n -> (Nat.min n size <= length u)%nat ->
  exists u', copied u (memcpy u s (if Nat.ltb n size then n else size)) = (u', Ok tt) /\ handed_part u size s u'.
Proof.
  intros Hs Hu. assert (E : (if Nat.ltb n size then n else size) = Nat.min n size) by (destruct (Nat.ltb_spec n size); lia).
  rewrite E. destruct (copied_ok u s (Nat.min n size)) as (u2 & -> & L2 & Z2); [lia|lia|]. exists u2. split; [reflexivity|].
  split; [lia|]. split; intros i; intros; rewrite Z2; destruct (Nat.ltb_spec i (Nat.min n size)); try lia; reflexivity.
Qed.

(** The user's memory has at least the declared size.  Then packets, events, instructions and
    blocks are handed over as described, for every size: no byte behind the user's structure
    is touched and no byte outside the library's structure is read. *)
Theorem C66_given n u size s : length s = n -> (size <= length u)%nat ->
  (exists u', pkt_to_user n false u size s = (u', Ok tt) /\ handed u size s u') /\
  (exists u', pt_evt_to_user n u size s = (u', Ok tt) /\ handed u size s u') /\
  (exists u', insn_to_user n false u size s = (u', Ok tt) /\ handed u size s u') /\
  (exists u', block_to_user n false u size s = (u', Ok tt) /\ handed u size s u').
Proof. intros Hs Hu. repeat split; apply fill_ok; assumption. Qed.

(** Events from the other three decoders.  The query decoder wants room for the fields that
    all events have. *)
Theorem C66_events n u size s : length s = n -> (Nat.min n size <= length u)%nat ->
  (exists u', insn_event_to_user n u size s = (u', Ok tt) /\ handed_part u size s u') /\
  (exists u', blk_event_to_user n u size s = (u', Ok tt) /\ handed_part u size s u') /\
  ((40 <= size)%nat -> exists u', qry_event_to_user n u size s = (u', Ok tt) /\ handed_part u size s u') /\
  ((size < 40)%nat -> qry_event_to_user n u size s = (u, Err pte_invalid)).
Proof.
  intros Hs Hu. split; [apply part_ok; assumption|]. split; [apply part_ok; assumption|].
  unfold qry_event_to_user, off_event_variant. split; intros H; destruct (Nat.ltb_spec size 40); try lia; [|reflexivity].
  apply part_ok; assumption.
Qed.

(** An event from the user.  What the user does not know of is zero; what the library does not
    know of is ignored; nothing but the declared size is read. *)
Theorem C66_taken n e u size : length e = n -> (Nat.min n size <= length u)%nat ->
  ((size < 24)%nat -> pt_sb_event_from_user n e u size = (e, Err pte_invalid)) /\
  ((24 <= size)%nat -> exists e', pt_sb_event_from_user n e u size = (e', Ok tt) /\ length e' = n /\
     forall i, (i < n)%nat -> nth_error e' i = if (i <? size)%nat then nth_error u i else Some 0).
Proof.
  intros He Hu. unfold pt_sb_event_from_user, off_event_reserved.
  split; intros H; destruct (Nat.ltb_spec size 24); try lia; [reflexivity|].
  destruct (Nat.ltb_spec n size) as [L|L].
  - cbn [Base.bind fst snd]. destruct (copied_ok e u n) as (u2 & -> & L2 & Z2); [lia|lia|]. exists u2. split; [reflexivity|].
    split; [lia|]. intros i Hi. rewrite Z2. destruct (Nat.ltb_spec i n), (Nat.ltb_spec i size); try lia. reflexivity.
  - destruct (zeroed e size (n - size)) as (u1 & -> & L1 & Z1); [lia|]. cbn [Base.bind fst snd].
    destruct (copied_ok u1 u size) as (u2 & -> & L2 & Z2); [lia|lia|]. exists u2. split; [reflexivity|].
    split; [lia|]. intros i Hi. rewrite Z2, Z1.
    destruct (Nat.ltb_spec i size), (Nat.leb_spec size i), (Nat.ltb_spec i (size + (n - size))); try lia; reflexivity.
Qed.

(** There and back again: an event that any of the decoders hands to a program and that the program
    hands to the sideband library, with any size that the program was built with, arrives
    with all that the program knows of it. *)
Theorem C66_round n e u size s u' :
  length e = n -> length s = n -> (24 <= size)%nat -> (size <= length u)%nat ->
  pt_evt_to_user n u size s = (u', Ok tt) \/ qry_event_to_user n u size s = (u', Ok tt) \/
  insn_event_to_user n u size s = (u', Ok tt) \/ blk_event_to_user n u size s = (u', Ok tt) ->
  exists e', pt_sb_event_from_user n e u' size = (e', Ok tt) /\ length e' = n /\
    forall i, (i < n)%nat -> nth_error e' i = if (i <? size)%nat then nth_error s i else Some 0.
Proof.
  intros He Hs H24 Hu G.
  assert (K : length u' = length u /\ forall i, (i < size)%nat -> (i < length s)%nat -> nth_error u' i = nth_error s i).
  { destruct (C66_events n u size s Hs) as ((u1 & E1 & H1) & (u2 & E2 & H2) & H3 & H4); [lia|].
    destruct (C66_given n u size s Hs Hu) as (_ & (u5 & E5 & H5) & _).
    destruct G as [G|[G|[G|G]]].
    - rewrite E5 in G. injection G as <-. split; apply H5.
    - destruct (Nat.le_gt_cases 40 size) as [X|X].
      + destruct (H3 X) as (u3 & E3 & H3'). rewrite E3 in G. injection G as <-. split; apply H3'.
      + rewrite (H4 X) in G. discriminate G.
    - rewrite E1 in G. injection G as <-. split; apply H1.
    - rewrite E2 in G. injection G as <-. split; apply H2. }
  destruct K as (K1 & K2).
  destruct (C66_taken n e u' size He) as (_ & T); [lia|]. destruct (T H24) as (e' & E & L & Z). exists e'. split; [exact E|].
  split; [exact L|]. intros i Hi. rewrite (Z i Hi). destruct (Nat.ltb_spec i size); [|reflexivity]. apply K2; lia.
Qed.

(** ** Decoders *)

Lemma handed_exact (u s : list N) : (length s <= length u)%nat -> handed u (length s) s (in_place u s).
Proof.
  intros H. unfold in_place. split; [rewrite app_length, skipn_length; lia|].
  split; [intros i _ Hi; apply nth_error_app1; exact Hi|]. split; [intros i Hi; lia|].
  intros i Hi. rewrite nth_error_app2 by lia. rewrite nth_skip. f_equal. lia.
Qed.

Section DECODERS.
  Context {S C : Type}.

  (** Blocks.  The decoder goes on in the same way and returns the same, and the block is handed
      over, also on errors, whatever size is declared. *)
  Theorem C66_block (bytes : block -> list N) n (im : blk_image S C) d u size d' b r :
    (forall b, length (bytes b) = n) -> (size <= length u)%nat -> pt_blk_next im d = (d', b, r) ->
    exists u', pt_blk_next_user bytes n im d u size = (d', u', r) /\ handed u size (bytes b) u'.
  Proof.
    intros Hb Hu E. unfold pt_blk_next_user. rewrite E. destruct (Nat.eqb_spec size n) as [->|Ne].
    - eexists. split; [reflexivity|]. rewrite <- (Hb b) at 1. apply handed_exact. rewrite Hb. exact Hu.
    - destruct (fill_ok n u size (bytes b) (Hb b) Hu) as (u' & F & H). unfold block_to_user. rewrite F. eauto.
  Qed.

  (** Instructions.  With tracing disabled there is no instruction and the memory does not
      change.  If the section lookup fails, then the user sees the instruction only if their
      structure has the library's size. *)
  Theorem C66_insn (bytes : insn -> list N) n (im : image_if S C) d u size d' i r :
    (forall i, length (bytes i) = n) -> (size <= length u)%nat -> pt_insn_next im d = (d', i, r) ->
    exists u', pt_insn_next_user bytes n im d u size = (d', u', r) /\
      match i with
      | None => u' = u
      | Some i => handed u size (bytes i) u' \/
          (size <> n /\ u' = u /\ exists e, snd (im_lookup im (id_scache d) (id_asid d) (id_ip d)) = e /\
             match e with Ok _ => False | Err e => r = Err e /\ e <> pte_nomap | UB x => r = UB x end)
      end.
  Proof.
    intros Hb Hu E. unfold pt_insn_next_user. rewrite E. destruct i as [i|]; [|eauto].
    unfold insn_lookup_failed.
    assert (F : match snd (im_lookup im (id_scache d) (id_asid d) (id_ip d)) with
                | Ok _ => True | Err pte_nomap => True | Err e => r = Err e | UB x => r = UB x end).
    { unfold pt_insn_next in E. destruct (negb (id_enabled d)); [discriminate E|].
      destruct (im_lookup im _ _ _) as [c [[isid s]|e|x]]; cbn [snd]; [exact I| |].
      - destruct e; try (injection E; intros; subst; reflexivity); exact I.
      - injection E; intros; subst; reflexivity. }
    assert (X : exists u', handed u size (bytes i) u' /\
      insn_to_user n (Nat.eqb size n) (if Nat.eqb size n then in_place u (bytes i) else u) size (bytes i) = (u', Ok tt)).
    { destruct (Nat.eqb_spec size n) as [->|Ne].
      - eexists. split; [|reflexivity]. rewrite <- (Hb i) at 1. apply handed_exact. rewrite Hb. exact Hu.
      - destruct (fill_ok n u size (bytes i) (Hb i) Hu) as (u' & F' & H). unfold insn_to_user. rewrite F'. eauto. }
    destruct X as (u' & Hd & X).
    destruct (snd (im_lookup im (id_scache d) (id_asid d) (id_ip d))) as [p|e|x] eqn:El.
    - rewrite X. eauto.
    - assert (D : e = pte_nomap \/ e <> pte_nomap) by (destruct e; (left; reflexivity) || (right; discriminate)).
      destruct D as [->|Ne]; [rewrite X; eauto|].
      assert (R : r = Err e) by (destruct e; try exact F; congruence).
      replace (match e with pte_nomap => false | _ => true end) with true by (destruct e; congruence).
      eexists. split; [reflexivity|]. destruct (Nat.eqb_spec size n) as [->|Nn].
      + left. rewrite <- (Hb i) at 1. apply handed_exact. rewrite Hb. exact Hu.
      + right. split; [exact Nn|]. split; [reflexivity|]. exists (Err e). auto.
    - eexists. split; [reflexivity|]. destruct (Nat.eqb_spec size n) as [->|Nn].
      + left. rewrite <- (Hb i) at 1. apply handed_exact. rewrite Hb. exact Hu.
      + right. split; [exact Nn|]. split; [reflexivity|]. exists (UB x). auto.
  Qed.
End DECODERS.

(** Packets.  Decoding leaves parts of the packet's memory as they were; [known] are the bytes that it
    writes.  The user gets those that they know of. *)
Theorem C66_packet n decode local pos u psize known size :
  (forall m, length m = n -> length (fst (decode m)) = n) -> length local = n -> (psize <= length u)%nat ->
  (forall m, length m = n -> snd (decode m) = Ok size /\
     forall i v, nth_error known i = Some (Some v) -> nth_error (fst (decode m)) i = Some v) ->
  length known = n ->
  exists u', pt_pkt_next_user n decode local pos u psize = (pos + size, u', Ok size) /\ length u' = length u /\
    (forall i v, (i < psize)%nat -> nth_error known i = Some (Some v) -> nth_error u' i = Some v) /\
    (forall i, (n <= i < psize)%nat -> nth_error u' i = Some 0) /\
    (forall i, (psize <= i)%nat -> nth_error u' i = nth_error u i).
Proof.
  intros Hl Hloc Hu Hd Hk. unfold pt_pkt_next_user.
  assert (Kn : forall i v, nth_error known i = Some (Some v) -> (i < n)%nat).
  { intros i v E. rewrite <- Hk. apply nth_error_Some. congruence. }
  destruct (Nat.eqb_spec psize n) as [->|Ne].
  - assert (L0 : length (firstn n u) = n) by (rewrite firstn_length; lia).
    pose proof (Hl _ L0) as L1. destruct (Hd _ L0) as (E & K). destruct (decode (firstn n u)) as [pkt r]. cbn [fst snd] in *.
    subst r. cbn [pkt_to_user]. eexists. split; [reflexivity|].
    pose proof (handed_exact u pkt ltac:(lia)) as (H1 & H2 & H3 & H4). rewrite L1 in *.
    split; [exact H1|]. split; [|split; [exact H3|exact H4]].
    intros i v Hi Ei. rewrite H2 by lia. apply K, Ei.
  - pose proof (Hl _ Hloc) as L1. destruct (Hd _ Hloc) as (E & K). destruct (decode local) as [pkt r]. cbn [fst snd] in *.
    subst r. destruct (fill_ok n u psize pkt L1 Hu) as (u' & F & (H1 & H2 & H3 & H4)).
    unfold pkt_to_user. rewrite F. eexists. split; [reflexivity|]. rewrite L1 in *.
    split; [exact H1|]. split; [|split; [exact H3|exact H4]].
    intros i v Hi Ei. pose proof (Kn i v Ei). rewrite H2 by lia. apply K, Ei.
Qed.

(** After an error, the decoder is where it was and nothing behind the user's structure was
    touched; a structure of another size is not touched at all. *)
Theorem C66_packet_error n decode local pos u psize e :
  (forall m, length m = n -> length (fst (decode m)) = n /\ snd (decode m) = Err e) ->
  length local = n -> (psize <= length u)%nat ->
  exists u', pt_pkt_next_user n decode local pos u psize = (pos, u', Err e) /\ length u' = length u /\
    (psize <> n -> u' = u) /\ (forall i, (psize <= i)%nat -> nth_error u' i = nth_error u i).
Proof.
  intros Hd Hloc Hu. unfold pt_pkt_next_user. destruct (Nat.eqb_spec psize n) as [->|Ne].
  - assert (L0 : length (firstn n u) = n) by (rewrite firstn_length; lia).
    destruct (Hd _ L0) as (L1 & E). destruct (decode (firstn n u)) as [pkt r]. cbn [fst snd] in *. subst r.
    eexists. split; [reflexivity|]. pose proof (handed_exact u pkt ltac:(lia)) as (H1 & _ & _ & H4). rewrite L1 in *.
    split; [exact H1|]. split; [congruence|exact H4].
  - destruct (Hd _ Hloc) as (L1 & E). destruct (decode local) as [pkt r]. cbn [fst snd] in *. subst r. eauto.
Qed.

Print Assumptions C66_given.
Print Assumptions C66_events.
Print Assumptions C66_taken.
Print Assumptions C66_round.
Print Assumptions C66_block.
Print Assumptions C66_insn.
Print Assumptions C66_packet.
Print Assumptions C66_packet_error.

(** ** Examples *)

(** A program that knows 32 bytes of the event, and one that knows more than the library. *)
Definition event48 : list N := map N.of_nat (seq 1 48).
Example C66_ex :
  pt_evt_to_user 48 (repeat 255 40) 32 event48 = (firstn 32 event48 ++ repeat 255 8, Ok tt) /\
  pt_evt_to_user 48 (repeat 255 64) 56 event48 = (event48 ++ repeat 0 8 ++ repeat 255 8, Ok tt) /\
  pt_sb_event_from_user 48 (repeat 9 48) (firstn 32 event48 ++ repeat 255 8) 32 = (firstn 32 event48 ++ repeat 0 16, Ok tt) /\
  pt_sb_event_from_user 48 (repeat 9 48) event48 23 = (repeat 9 48, Err pte_invalid) /\
  pt_pkt_next_user 8 (fun m => (1 :: skipn 1 m, Err pte_bad_opc)) (repeat 7 8) 100 (repeat 255 12) 8 =
    (100, 1 :: repeat 255 11, Err pte_bad_opc) /\
  pt_pkt_next_user 8 (fun m => (1 :: skipn 1 m, Err pte_bad_opc)) (repeat 7 8) 100 (repeat 255 12) 10 =
    (100, repeat 255 12, Err pte_bad_opc).
Proof. vm_compute. repeat split; reflexivity. Qed.

(** ** Findings *)

(** pt_evt_next() clears the fields that only the user knows, the other decoders leave in them
    whatever was there. *)
Theorem C66_tail_refuted :
  let u := repeat 255 56 in
  snd (pt_evt_to_user 48 u 56 event48) = Ok tt /\
  nth_error (fst (pt_evt_to_user 48 u 56 event48)) 50 = Some 0 /\
  map (fun f => nth_error (fst (f 48%nat u 56%nat event48 : list N * res unit)) 50)
    [qry_event_to_user; insn_event_to_user; blk_event_to_user] = [Some 255; Some 255; Some 255].
Proof. vm_compute. repeat split; reflexivity. Qed.
Print Assumptions C66_tail_refuted.

(** If the section lookup fails, for example because a section's file cannot be read any more, then
    the address of the instruction is in the user's structure only if that has the size
    the library was built with. *)
Definition failing_image : image_if unit unit :=
  mk_image_if _ _ (fun _ _ _ => Err pte_bad_image) (fun c _ _ => (c, Err pte_bad_image))
    (fun _ _ _ => Err pte_bad_image) (fun c => (c, Ok tt)).
Definition address_bytes (i : insn) : list N := le_bytes 8 (in_ip i) ++ repeat 0 8.
Definition stuck_dec : insndec unit :=
  id_set_ip (id_set_enabled (pt_insn_decoder_init config0 false [] None 0 (repeat 0 65) tt) true) 0x1234.
Theorem C66_lookup_refuted :
  let get size := match pt_insn_next_user address_bytes 16 failing_image stuck_dec (repeat 255 32) size with
                  | (_, u, r) => (firstn 2 u, r) end in
  get 16%nat = ([0x34; 0x12], Err pte_bad_image) /\ get 24%nat = ([255; 255], Err pte_bad_image).
Proof. vm_compute. split; reflexivity. Qed.
Print Assumptions C66_lookup_refuted.
