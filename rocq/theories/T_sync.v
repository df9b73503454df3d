(** Property theorems for synchronisation: C08-C12, C38. *)

From Verif Require Import Base M_packet M_config M_pktdec M_sync S_sync L_sync.
From Coq Require Import Sorted List NArith PeanoNat Lia.
Import ListNotations.
Open Scope nat_scope.

(** In all statements [base] is the address of the trace buffer, [pd_buf d] its
    contents, and a consistent decoder is one that has either been synchronised
    (both positions set) or not; C12 shows that all reachable decoders are. *)

(** ** C08: forward synchronisation only stops at a PSB *)

Theorem C08_forward_sound :
  forall (base : nat) (d d' : pktdec),
  bytes_ok (pd_buf d) -> (pd_pos d = None <-> pd_sync d = None) ->
  pt_pkt_sync_forward base d = (d', Ok tt) ->
  exists s,
    pt_pkt_get_sync_offset d' = Ok (N.of_nat s) /\
    pt_pkt_get_offset d' = Ok (N.of_nat s) /\
    search_start d <= s /\ s + 16 <= length (pd_buf d) /\ psb_at (pd_buf d) s /\
    snd (pt_pkt_next d') = Ok (mk_packet P_psb 16).
Proof.
  intros base d d' Hb Hc E.
  destruct (forward_sound base d d' Hb Hc E) as (s & -> & H1 & H2 & H3 & _).
  exists s. unfold set_sync. rewrite next_psb by exact H3. repeat split; auto.
Qed.
Print Assumptions C08_forward_sound.

(** An unaligned buffer with a PSB behind a TSC packet. *)
Definition C08_buf : list N := ([0x19; 1; 2; 3; 4; 5; 6; 7] ++ psb_bytes ++ [0x02; 0x23])%N.

Example C08_example :
  bytes_ok C08_buf /\
  snd (pt_pkt_sync_forward 1003 (pt_pkt_decoder_init config0 C08_buf)) = Ok tt /\
  pt_pkt_get_offset (fst (pt_pkt_sync_forward 1003
    (pt_pkt_decoder_init config0 C08_buf))) = Ok 8%N.
Proof. split; [repeat constructor | split; vm_compute; reflexivity]. Qed.

(** ** C09: forward synchronisation misses no PSB *)

Theorem C09_forward_complete :
  forall (base : nat) (d : pktdec),
  bytes_ok (pd_buf d) -> (pd_pos d = None <-> pd_sync d = None) ->
  search_start d <= length (pd_buf d) ->
  (pt_pkt_sync_forward base d = (d, Err pte_eos) /\
   forall j, search_start d <= j -> ~ psb_at (pd_buf d) j) \/
  (exists d', pt_pkt_sync_forward base d = (d', Ok tt) /\
   exists j, search_start d <= j /\ psb_at (pd_buf d) j).
Proof. exact forward_complete. Qed.
Print Assumptions C09_forward_complete.

Theorem C09_first_run :
  forall (base : nat) (d d' : pktdec) (s : nat),
  bytes_ok (pd_buf d) -> (pd_pos d = None <-> pd_sync d = None) ->
  pt_pkt_sync_forward base d = (d', Ok tt) ->
  pt_pkt_get_sync_offset d' = Ok (N.of_nat s) ->
  (forall j, search_start d <= j < s -> psb_at (pd_buf d) j ->
             pattern (pd_buf d) j (s + 16)) /\
  ~ pattern (pd_buf d) (s + 16) (s + 18).
Proof.
  intros base d d' s Hb Hc E Hs.
  destruct (forward_sound base d d' Hb Hc E) as (s' & -> & _ & _ & _ & H1 & H2).
  cbn in Hs. injection Hs as Hs. apply Nat2N.inj in Hs. subst s'. auto.
Qed.
Print Assumptions C09_first_run.

(** The search does skip a PSB that is directly followed by another one. *)
Example C09_adjacent :
  pt_pkt_get_offset (fst (pt_pkt_sync_forward 0
    (pt_pkt_decoder_init config0 (psb_bytes ++ psb_bytes)))) = Ok 16%N.
Proof. vm_compute. reflexivity. Qed.

(** The condition on the search start is needed: a decoder that was set to the very
    end of the buffer gets -pte_internal instead of -pte_eos. *)
Theorem C09_at_end_refuted :
  exists d d', pt_pkt_sync_set (pt_pkt_decoder_init config0 psb_bytes) 16%N = (d, Ok tt)
  /\ pt_pkt_sync_forward 0 d = (d', Err pte_internal).
Proof. do 2 eexists. split; vm_compute; reflexivity. Qed.
Print Assumptions C09_at_end_refuted.

(** ** C10: backward synchronisation is sound *)

(** The search position is the decoder's offset, or the end of the buffer before
    the first synchronisation. *)
Theorem C10_backward_sound :
  forall (base : nat) (d d' : pktdec),
  bytes_ok (pd_buf d) -> pt_pkt_sync_backward base d = (d', Ok tt) ->
  let start := match pd_pos d with Some p => p | None => length (pd_buf d) end in
  exists s,
    pt_pkt_get_sync_offset d' = Ok (N.of_nat s) /\
    pt_pkt_get_offset d' = Ok (N.of_nat s) /\
    s + 16 <= length (pd_buf d) /\ psb_at (pd_buf d) s /\
    (exists j, j < start /\ j <= s /\ psb_at (pd_buf d) j /\
               pattern (pd_buf d) j (s + 16)) /\
    (forall j, j + 16 <= start -> psb_at (pd_buf d) j -> j <= s).
Proof.
  intros base d d' Hb E start.
  destruct (backward_sound base d d' Hb E) as (s & p & -> & H1 & H2 & _ & _ & _ & _ & H3).
  destruct (backward_psb_before base d _ Hb E) as (j & s' & Ed & G).
  injection Ed as <-. exists s. repeat split; auto. now exists j.
Qed.
Print Assumptions C10_backward_sound.

Theorem C10_backward_complete :
  forall (base : nat) (d : pktdec),
  bytes_ok (pd_buf d) ->
  let start := match pd_pos d with Some p => p | None => length (pd_buf d) end in
  start <= length (pd_buf d) ->
  (pt_pkt_sync_backward base d = (d, Err pte_eos) /\
   forall j, j + 16 <= start -> ~ psb_at (pd_buf d) j) \/
  (exists d', pt_pkt_sync_backward base d = (d', Ok tt)).
Proof. exact backward_complete. Qed.
Print Assumptions C10_backward_complete.

(** No PSB starts before the position: -pte_eos. *)
Theorem C10_no_psb_eos :
  forall (base : nat) (d : pktdec),
  bytes_ok (pd_buf d) ->
  let start := match pd_pos d with Some p => p | None => length (pd_buf d) end in
  start <= length (pd_buf d) ->
  (forall j, j < start -> ~ psb_at (pd_buf d) j) ->
  pt_pkt_sync_backward base d = (d, Err pte_eos).
Proof.
  intros base d Hb start Hs Hn.
  destruct (backward_complete base d Hb Hs) as [[E _] | [d' E]]; [exact E | exfalso].
  destruct (backward_psb_before base d d' Hb E) as (j & s & _ & H1 & _ & H2 & _).
  exact (Hn j H1 H2).
Qed.
Print Assumptions C10_no_psb_eos.

Example C10_example :
  pt_pkt_get_offset (fst (pt_pkt_sync_backward 5
    (pt_pkt_decoder_init config0 (C08_buf ++ [0; 0; 0]%N ++ C08_buf)))) = Ok 37%N /\
  pt_pkt_sync_backward 5 (pt_pkt_decoder_init config0 [0; 0; 0]%N)
  = (pt_pkt_decoder_init config0 [0; 0; 0]%N, Err pte_eos).
Proof. vm_compute. split; reflexivity. Qed.

(** ** C11: repeated synchronisation makes progress *)

(** Forward: in every history of pt_pkt_sync_forward() and pt_pkt_next() calls on a
    fresh decoder, the offsets of the successful synchronisations increase
    strictly, there are at most as many as buffer bytes, and every other
    synchronisation returns -pte_eos. *)
Theorem C11_forward_progress :
  forall (base : nat) (cf : config) (buf : list N) (ops : list pkt_op)
         (d' : pktdec) (rs : list obs),
  bytes_ok buf ->
  Forall (fun o => o = Op_next \/ o = Op_sync_forward) ops ->
  pkt_run base (pt_pkt_decoder_init cf buf) ops = (d', rs) ->
  increasing (forward_offsets ops rs) /\
  length (forward_offsets ops rs) <= length buf /\
  Forall2 (fun o r => o = Op_sync_forward ->
                      ob_ret r = Ok tt \/ ob_ret r = Err pte_eos) ops rs.
Proof.
  intros base cf buf ops d' rs Hb Ho E.
  destruct (forward_run base ops (pt_pkt_decoder_init cf buf) d' rs Hb
              (or_introl (conj eq_refl eq_refl)) Ho E) as (G1 & _ & _ & G4).
  exact (conj G1 (conj (forward_finite base ops buf cf d' rs Hb Ho E) G4)).
Qed.
Print Assumptions C11_forward_progress.

Example C11_example :
  forward_offsets [Op_sync_forward; Op_next; Op_next; Op_sync_forward; Op_sync_forward]
    (snd (pkt_run 6 (pt_pkt_decoder_init config0 (C08_buf ++ C08_buf))
      [Op_sync_forward; Op_next; Op_next; Op_sync_forward; Op_sync_forward]))
  = [Ok 8%N; Ok 34%N].
Proof. vm_compute. reflexivity. Qed.

(** Backward: not true in general.  With two adjacent PSB's, synchronising backward
    from the second one finds the second one again, forever. *)
Theorem C11_backward_refuted :
  exists (base : nat) (buf : list N) (d : pktdec),
    pt_pkt_sync_backward base (pt_pkt_decoder_init config0 buf) = (d, Ok tt) /\
    pt_pkt_get_sync_offset d = Ok 16%N /\
    pt_pkt_sync_backward base d = (d, Ok tt).
Proof.
  exists 0, (psb_bytes ++ psb_bytes), (mk_pktdec config0 (psb_bytes ++ psb_bytes)
    (Some 16) (Some 16)).
  vm_compute. repeat split.
Qed.
Print Assumptions C11_backward_refuted.

(** It is true in buffers in which no PSB is directly followed by pattern bytes
    (in particular by another PSB). *)
Theorem C11_backward_step :
  forall (base : nat) (d d' : pktdec) (s : nat),
  bytes_ok (pd_buf d) ->
  pd_pos d = Some s -> psb_at (pd_buf d) s ->
  (forall j, psb_at (pd_buf d) j -> ~ psb_at (pd_buf d) (j + 2)) ->
  pt_pkt_sync_backward base d = (d', Ok tt) ->
  exists s', pt_pkt_get_sync_offset d' = Ok (N.of_nat s') /\
             pt_pkt_get_offset d' = Ok (N.of_nat s') /\ s' < s.
Proof.
  intros base d d' s Hb Hp Hs Hn E.
  destruct (backward_decreases base d d' s Hb Hp Hs Hn E) as (s' & -> & H).
  exists s'. auto.
Qed.
Print Assumptions C11_backward_step.

(** Hence in such buffers, synchronising backward again and again visits ever smaller
    offsets and then returns -pte_eos. *)
Theorem C11_backward_progress :
  forall (base : nat) (cf : config) (buf : list N) (n : nat) (d' : pktdec) (rs : list obs),
  bytes_ok buf ->
  (forall j, psb_at buf j -> ~ psb_at buf (j + 2)) ->
  pkt_run base (pt_pkt_decoder_init cf buf) (repeat Op_sync_backward n) = (d', rs) ->
  exists k offsets,
    map ob_ret rs = repeat (Ok tt) k ++ repeat (Err pte_eos) (n - k) /\
    map ob_sync (firstn k rs) = map Ok offsets /\
    StronglySorted (fun a b => b < a)%N offsets /\
    k <= length buf.
Proof.
  intros base cf buf n d' rs Hb Hn.
  assert (Stay : forall m d d' rs, pt_pkt_sync_backward base d = (d, Err pte_eos) ->
    pkt_run base d (repeat Op_sync_backward m) = (d', rs) -> map ob_ret rs = repeat (Err pte_eos) m).
  { induction m as [|m IH]; intros d d2 rs2 Hd; cbn [repeat pkt_run]; [intros [= <- <-]; reflexivity|].
    cbn [pkt_step]. rewrite Hd. destruct (pkt_run base d _) as [d3 rs3] eqn:E. intros [= <- <-].
    cbn [map observe ob_ret]. f_equal. eapply IH; eassumption. }
  assert (G : forall m d d' rs, pd_buf d = buf ->
    (exists s, pd_pos d = Some s /\ psb_at buf s /\ s + 16 <= length buf) ->
    pkt_run base d (repeat Op_sync_backward m) = (d', rs) ->
    exists k offsets,
      map ob_ret rs = repeat (Ok tt) k ++ repeat (Err pte_eos) (m - k) /\
      map ob_sync (firstn k rs) = map Ok offsets /\
      StronglySorted (fun a b => b < a)%N offsets /\
      (forall s, pd_pos d = Some s -> Forall (fun a => a < N.of_nat s)%N offsets /\ k <= s)).
  { clear d' rs. induction m as [|m IH]; intros d d2 rs2 Eb (s & Hp & Hs & Hl); cbn [repeat pkt_run].
    { intros [= <- <-]. exists 0, []. repeat split; auto; try constructor. lia. }
    cbn [pkt_step].
    assert (Hc := backward_complete base d). rewrite Eb in Hc. unfold back_start in Hc. rewrite Hp in Hc.
    destruct (Hc Hb ltac:(lia)) as [(E & _)|(d1 & E)].
    - destruct (pkt_run base d (repeat Op_sync_backward m)) as [d3 rs3] eqn:E3. rewrite E. rewrite E3.
      intros [= <- <-]. exists 0, []. cbn [map observe ob_ret repeat app Nat.sub firstn].
      rewrite (Stay m d d3 rs3 E E3). repeat split; auto; try constructor. lia.
    - assert (Hb' : bytes_ok (pd_buf d)) by (rewrite Eb; exact Hb).
      assert (Hs' : psb_at (pd_buf d) s) by (rewrite Eb; exact Hs).
      assert (Hn' : forall j, psb_at (pd_buf d) j -> ~ psb_at (pd_buf d) (j + 2)) by (rewrite Eb; exact Hn).
      destruct (backward_decreases base d d1 s Hb' Hp Hs' Hn' E) as (s1 & Ed1 & Hlt).
      destruct (C10_backward_sound base d d1 Hb' E) as (s2 & E1 & E2 & E3 & E4 & _).
      rewrite Eb in E3, E4. subst d1. cbn in E1. assert (s2 = s1) by (injection E1; lia). subst s2.
      rewrite E. destruct (pkt_run base (set_sync d s1) (repeat Op_sync_backward m)) as [d3 rs3] eqn:E5.
      intros [= <- <-].
      destruct (IH (set_sync d s1) d3 rs3 Eb (ex_intro _ s1 (conj eq_refl (conj E4 E3))) E5)
        as (k & offs & K1 & K2 & K3 & K4).
      destruct (K4 s1 eq_refl) as (K5 & K6).
      exists (S k), (N.of_nat s1 :: offs). cbn [map observe ob_ret ob_sync repeat app Nat.sub firstn].
      rewrite K1, K2. repeat split; auto.
      + constructor; [exact K3|exact K5].
      + rewrite Hp in H. injection H as <-. constructor; [lia|].
        eapply Forall_impl; [|exact K5]. intros a. cbv beta. lia.
      + rewrite Hp in H. injection H as <-. lia. }
  destruct n as [|n]; cbn [repeat pkt_run].
  { intros [= <- <-]. exists 0, []. repeat split; auto; try constructor. lia. }
  cbn [pkt_step].
  set (d0 := pt_pkt_decoder_init cf buf).
  destruct (backward_complete base d0 Hb (Nat.le_refl _)) as [(E & _)|(d1 & E)].
  - rewrite E. destruct (pkt_run base d0 (repeat Op_sync_backward n)) as [d3 rs3] eqn:E3.
    intros [= <- <-]. exists 0, []. cbn [map observe ob_ret repeat app Nat.sub firstn].
    rewrite (Stay n d0 d3 rs3 E E3). repeat split; auto; try constructor. lia.
  - destruct (C10_backward_sound base d0 d1 Hb E) as (s1 & E1 & E2 & E3 & E4 & _).
    destruct (backward_sound base d0 d1 Hb E) as (s2 & p & Ed & _). subst d1.
    cbn in E1. assert (s2 = s1) by (injection E1; lia). subst s2.
    rewrite E. destruct (pkt_run base (set_sync d0 s1) (repeat Op_sync_backward n)) as [d3 rs3] eqn:E5.
    intros [= <- <-].
    destruct (G n (set_sync d0 s1) d3 rs3 eq_refl (ex_intro _ s1 (conj eq_refl (conj E4 E3))) E5)
      as (k & offs & K1 & K2 & K3 & K4).
    destruct (K4 s1 eq_refl) as (K5 & K6). cbn in E3.
    exists (S k), (N.of_nat s1 :: offs). cbn [map observe ob_ret ob_sync repeat app Nat.sub firstn].
    rewrite K1, K2. repeat split; auto.
    + constructor; [exact K3|exact K5].
    + lia.
Qed.
Print Assumptions C11_backward_progress.
Example C11_backward_run :
  map (fun o => (ob_ret o, ob_sync o)) (snd (pkt_run 2 (pt_pkt_decoder_init config0 (C08_buf ++ C08_buf)) (repeat Op_sync_backward 3)))
  = [(Ok tt, Ok 34%N); (Ok tt, Ok 8%N); (Err pte_eos, Ok 8%N)].
Proof. vm_compute. reflexivity. Qed.

Example C11_backward_example :
  let d := mk_pktdec config0 (C08_buf ++ C08_buf) (Some 34) (Some 34) in
  psb_at (pd_buf d) 34 /\
  pt_pkt_get_offset (fst (pt_pkt_sync_backward 2 d)) = Ok 8%N /\
  (forall j, psb_at (pd_buf d) j -> ~ psb_at (pd_buf d) (j + 2)).
Proof.
  cbv zeta. split; [| split].
  - vm_compute. reflexivity.
  - vm_compute. reflexivity.
  - intros j. cbn [pd_buf].
    do 50 (destruct j as [| j]; [vm_compute; discriminate |]).
    intros H. apply psb_at_pattern in H. apply pattern_le in H; [| lia].
    cbn in H. lia.
Qed.

(** ** C12: sync and offset bookkeeping *)

Theorem C12_sync_set :
  forall (d : pktdec) (offset : N),
  (offset <= N.of_nat (length (pd_buf d)) ->
   exists d', pt_pkt_sync_set d offset = (d', Ok tt) /\
     pt_pkt_get_offset d' = Ok offset /\ pt_pkt_get_sync_offset d' = Ok offset /\
     pd_buf d' = pd_buf d)%N /\
  (N.of_nat (length (pd_buf d)) < offset ->
   pt_pkt_sync_set d offset = (d, Err pte_eos))%N.
Proof.
  intros d offset. unfold pt_pkt_sync_set. split; intros H.
  - rewrite (proj2 (N.ltb_ge _ _) H). eexists. split; [reflexivity |].
    cbn. rewrite N2Nat.id. auto.
  - rewrite (proj2 (N.ltb_lt _ _) H). reflexivity.
Qed.
Print Assumptions C12_sync_set.

(** One call: reads do not change the sync offset, successful synchronisation
    makes both offsets equal, failing calls change nothing. *)
Theorem C12_step :
  forall (base : nat) (d d' : pktdec) (o : pkt_op) (r : res unit),
  pkt_step base d o = (d', r) ->
  (o = Op_next -> pt_pkt_get_sync_offset d' = pt_pkt_get_sync_offset d) /\
  (is_sync_op o = true -> r = Ok tt ->
   exists s, pt_pkt_get_sync_offset d' = Ok s /\ pt_pkt_get_offset d' = Ok s) /\
  (forall e, r = Err e -> d' = d).
Proof.
  intros base d d' o r E.
  pose proof (step_fields base d o) as (_ & _ & F3 & F4 & F5 & _). rewrite E in *.
  cbn [fst snd] in *. split; [| split].
  - intros ->. unfold pt_pkt_get_sync_offset. now rewrite (F5 eq_refl).
  - intros Ho ->. destruct (F4 Ho eq_refl) as [s ->]. now exists (N.of_nat s).
  - intros e ->. now apply F3.
Qed.
Print Assumptions C12_step.

(** Every history on a fresh decoder: as long as no synchronisation succeeded, all
    of get_offset, get_sync_offset and next fail with -pte_nosync; afterwards both
    offsets are available. *)
Theorem C12_history :
  forall (base : nat) (cf : config) (buf : list N) (ops : list pkt_op)
         (d : pktdec) (rs : list obs),
  bytes_ok buf -> pkt_run base (pt_pkt_decoder_init cf buf) ops = (d, rs) ->
  (pd_pos d = None <-> pd_sync d = None) /\
  if synced ops rs then
    exists p s, pt_pkt_get_offset d = Ok p /\ pt_pkt_get_sync_offset d = Ok s
  else
    pt_pkt_get_offset d = Err pte_nosync /\
    pt_pkt_get_sync_offset d = Err pte_nosync /\
    pt_pkt_next d = (d, Err pte_nosync).
Proof.
  intros base cf buf ops d rs Hb E.
  destruct (run_synced base ops (pt_pkt_decoder_init cf buf) d rs Hb
              (conj (fun _ => eq_refl) (fun _ => eq_refl)) E) as (H1 & _ & H2).
  unfold consistent in H1. split; [exact H1 |].
  unfold pt_pkt_get_offset, pt_pkt_get_sync_offset, pt_pkt_next.
  destruct (synced ops rs).
  - destruct (pd_sync d) as [s |]; [| destruct (proj1 H2 eq_refl); discriminate].
    destruct (pd_pos d) as [p |]; [| discriminate (proj1 H1 eq_refl)].
    exists (N.of_nat p), (N.of_nat s). auto.
  - rewrite (proj2 H2 (conj eq_refl eq_refl)) in *.
    rewrite (proj2 H1 eq_refl). auto.
Qed.
Print Assumptions C12_history.

Example C12_example :
  let ops := [Op_next; Op_sync_set 99; Op_sync_set 8; Op_next; Op_sync_backward]%N in
  let r := pkt_run 3 (pt_pkt_decoder_init config0 C08_buf) ops in
  synced ops (snd r) = true /\ synced [Op_next; Op_sync_set 99]%N (firstn 2 (snd r)) = false
  /\ map ob_offset (snd r)
     = [Err pte_nosync; Err pte_nosync; Ok 8; Ok 24; Ok 8]%N.
Proof. vm_compute. repeat split. Qed.

(** ** C38: synchronisation terminates and stays inside the buffer *)

(** The model's loops run out of fuel, and its reads leave the buffer, only with an
    explicit [UB] result; there is none for any call on any decoder. *)
Theorem C38_no_ub :
  forall (base : nat) (d : pktdec) (o : pkt_op),
  bytes_ok (pd_buf d) -> no_ub (snd (pkt_step base d o)).
Proof. exact step_no_ub. Qed.
Print Assumptions C38_no_ub.

(** pt_sync_set(), which no decoder uses, accepts exactly the places where a whole PSB
    packet is, and never reads behind the end. *)
Theorem C38_sync_set : forall (buf : list N) (pos : nat),
  no_ub (pt_sync_set buf pos) /\
  (forall p, pt_sync_set buf pos = Ok p <-> psb_at buf pos /\ p = pos).
Proof.
  intros buf pos.
  assert (G : match pt_sync_set buf pos with
              | Ok p => pattern buf pos (pos + 16) /\ p = pos
              | Err _ => ~ pattern buf pos (pos + 16)
              | UB _ => False
              end).
  { unfold pt_sync_set.
    destruct (Nat.ltb_spec (length buf) pos).
    { intros P. apply pattern_le in P; lia. }
    destruct (Nat.ltb_spec (length buf) (pos + 2)).
    { intros P. apply pattern_le in P; lia. }
    unfold rd. destruct (nth_error buf pos) as [b0|] eqn:E0; [|apply nth_error_None in E0; lia].
    cbn [bind]. destruct (N.eqb_spec b0 pt_opc_ext) as [->|N0]; cbn [negb].
    2:{ intros P. specialize (P pos ltac:(lia)). rewrite E0, Nat.sub_diag in P. injection P as P. apply N0. exact P. }
    destruct (nth_error buf (pos + 1)) as [b1|] eqn:E1; [|apply nth_error_None in E1; lia].
    cbn [bind]. destruct (N.eqb_spec b1 pt_ext_psb) as [->|N1]; cbn [negb].
    2:{ intros P. specialize (P (pos + 1) ltac:(lia)). rewrite E1 in P.
        replace (pos + 1 - pos) with 1 in P by lia. injection P as P. apply N1. exact P. }
    destruct (Nat.ltb_spec (length buf) (pos + 16)) as [Hl|Hl].
    - unfold pt_pkt_read_psb, need, ptps_psb.
      destruct (Nat.ltb_spec (length buf) (pos + 16)); [|lia]. cbn [bind].
      intros P. apply pattern_le in P; lia.
    - destruct (psb_check buf pos Hl) as [(-> & P)|(-> & P)]; cbn [bind].
      + split; [|reflexivity]. intros i Hi.
        destruct (Nat.eq_dec i pos) as [->|]; [rewrite E0, Nat.sub_diag; reflexivity|].
        destruct (Nat.eq_dec i (pos + 1)) as [->|].
        { rewrite E1. replace (pos + 1 - pos) with 1 by lia. reflexivity. }
        rewrite P by lia. do 2 f_equal. replace (i - pos) with (S (S (i - (pos + 2)))) by lia. reflexivity.
      + intros Q. apply P. apply (pattern_sub _ pos (pos + 16)); auto; try lia. }
  split.
  - intros u E. rewrite E in G. exact G.
  - intros p. rewrite psb_at_pattern. destruct (pt_sync_set buf pos) as [p'|e|u]; split.
    + intros [= <-]. exact G.
    + intros (_ & ->). f_equal. apply G.
    + discriminate.
    + intros (P & _). destruct (G P).
    + discriminate.
    + destruct G.
Qed.
Print Assumptions C38_sync_set.
Example C38_sync_set_ex :
  pt_sync_set (0x00 :: psb_bytes)%N 1 = Ok 1 /\ pt_sync_set psb_bytes 15 = Err pte_eos /\
  pt_sync_set (firstn 15 psb_bytes) 0 = Err pte_eos /\ pt_sync_set psb_bytes 1 = Err pte_nosync.
Proof. vm_compute. auto. Qed.
