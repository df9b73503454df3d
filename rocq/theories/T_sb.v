(** Theorems about sideband sessions. *)
From Verif Require Import Base M_event M_pevent M_sb M_sbpev S_sb L_sb L_sbpev L_sbpev2 L_sb2.
From Coq Require Import List ZArith NArith Bool PeanoNat Lia.
Import ListNotations.
Open Scope nat_scope.

(** C60.  Whatever a client does with a session and its perf event decoders, and whatever the
    sideband data and the outside are, no process context is used after it was freed; the use count
    of a context is the number of references to it; and the image that was selected last is that
    of a context which is still there, in use by a decoder. *)
Theorem C60_references {E I} (out : outside E I) kernel e l :
  answers out -> Forall op_ok l ->
  let (cl, rs) := sb_run out (sb_start kernel e) l in
  let w := cl_world cl in
  let s := cl_session cl in
  Forall no_ub rs /\
  (forall c x, deref w c = Ok x ->
     cx_ucount x = N.of_nat (refs c (wd_contexts w) + refs c (in_use s) + refs c (wanted s) + refs c (cl_held cl)) /\
     (0 < cx_ucount x)%N) /\
  (forall c, In c (wd_contexts w ++ in_use s ++ wanted s ++ cl_held cl) -> alive w c) /\
  (forall c, wd_image w = Some c -> alive w c /\ In c (in_use s)).
Proof.
  intros ANS Hl. destruct (run_ok out ANS l _ Hl (start_ok kernel e)) as (((A & _ & C) & _) & N_).
  destruct (sb_run out (sb_start kernel e) l) as (cl, rs). cbn [fst snd] in *.
  split; [exact N_|]. split; [|split].
  - intros c x D. destruct (deref_uc _ _ _ D) as (U & _). pose proof (proj2 A c x D) as P_.
    pose proof (proj1 A c) as Q. rewrite U, !cnt_app in Q. split; [|lia]. rewrite <- Q. f_equal.
    unfold refs, in_use, wanted, every. unfold cnt, ctxs, nexts, privs, members, opt. lia.
  - intros c Hc. exact (Inv_alive _ _ _ A Hc).
  - intros c Hc. specialize (C eq_refl). rewrite Hc in C. split; [|exact C].
    apply (Inv_alive _ _ _ A). apply in_or_app. right. apply in_or_app. now left.
Qed.
Print Assumptions C60_references.

(** At the end, pt_sb_free() gives back all references of the session and of its decoders: exactly
    those contexts remain which the client still refers to. *)
Theorem C60_free {E I} (out : outside E I) kernel e l :
  answers out -> Forall op_ok l ->
  let (cl, _) := sb_run out (sb_start kernel e) l in
  let (w, r) := sb_end out cl in
  r = Ok tt /\ (forall c, alive w c <-> In c (cl_held cl)) /\
  (forall c x, deref w c = Ok x -> cx_ucount x = N.of_nat (refs c (cl_held cl))).
Proof.
  intros ANS Hl. destruct (run_ok out ANS l _ Hl (start_ok kernel e)) as (H & _).
  destruct (sb_run out (sb_start kernel e) l) as (cl, rs). cbn [fst snd] in *.
  destruct (end_ok out cl H) as (w & -> & (A & B)). split; [reflexivity|].
  assert (Q : forall c x, deref w c = Ok x -> cx_ucount x = N.of_nat (refs c (cl_held cl))).
  { intros c x D. destruct (deref_uc _ _ _ D) as (U & _). rewrite <- U. symmetry. exact (A c). }
  split; [|exact Q]. intros c. split.
  - intros (x & D). pose proof (B c x D) as P_. rewrite (Q c x D) in P_.
    apply (count_occ_In Nat.eq_dec). unfold refs in P_. lia.
  - intros Hc. exact (Inv_alive _ _ _ (conj A B) Hc).
Qed.
Print Assumptions C60_free.

(** An outside where everything works: images are lists of mapped files. *)
Definition file := (list N * N * N * N)%type.
Definition plain_outside : outside unit (list file) :=
  {| eo_alloc := fun e => (e, true);
     eo_new := [];
     eo_copy := fun e i j => (e, i ++ j, Ok tt);
     eo_iscache := false;
     eo_add_file := fun e i f o s v => (e, i ++ [(f, o, s, v)], Ok tt);
     eo_isc_add := fun e _ _ _ _ => (e, Err pte_internal);
     eo_add_cached := fun e i _ => (e, i, Err pte_internal);
     eo_abi := fun e _ => (e, None);
     eo_switch := None;
     eo_error := None |}.

Lemma plain_answers : answers plain_outside.
Proof. repeat split; intros; try discriminate; intros u H; discriminate. Qed.

(** Sideband data: process 1 is traced (time 10), forks process 2 (time 20), which is switched to
    (time 30), executes another program (time 40), and maps a file (time 50). *)
Definition sb_conf : pev_config :=
  {| pc_size := 48; pc_sample_type := 6; pc_shift := 0; pc_mult := 1; pc_zero := 0; pc_samples := None |}.
Definition sb_data : list N := (
  [12; 0; 0; 0; 0; 0; 32; 0; 1; 0; 0; 0; 1; 0; 0; 0; 1; 0; 0; 0; 1; 0; 0; 0; 10; 0; 0; 0; 0; 0; 0; 0] ++
  [7; 0; 0; 0; 0; 0; 48; 0; 2; 0; 0; 0; 1; 0; 0; 0; 2; 0; 0; 0; 1; 0; 0; 0; 20; 0; 0; 0; 0; 0; 0; 0; 1; 0; 0; 0; 1; 0; 0; 0; 20; 0; 0; 0; 0; 0; 0; 0] ++
  [14; 0; 0; 0; 0; 0; 24; 0; 2; 0; 0; 0; 2; 0; 0; 0; 30; 0; 0; 0; 0; 0; 0; 0] ++
  [3; 0; 0; 0; 0; 32; 40; 0; 2; 0; 0; 0; 2; 0; 0; 0; 108; 115; 0; 0; 0; 0; 0; 0; 2; 0; 0; 0; 2; 0; 0; 0; 40; 0; 0; 0; 0; 0; 0; 0] ++
  [1; 0; 0; 0; 2; 0; 64; 0; 2; 0; 0; 0; 2; 0; 0; 0; 0; 16; 0; 0; 0; 0; 0; 0; 0; 16; 0; 0; 0; 0; 0; 0; 0; 0; 0; 0; 0; 0; 0; 0; 47; 98; 105; 110; 47; 108; 115; 0; 2; 0; 0; 0; 2; 0; 0; 0; 50; 0; 0; 0; 0; 0; 0; 0])%N.
Definition sb_at (tsc : N) (v : evar) : event := mk_event v false false true tsc 0 0.
Definition sb_kernel : N := 0xffff800000000000.
Definition sb_calls : list sb_op :=
  [Attach sb_data [115%N] None None None None sb_conf sb_kernel 0 true; Init;
   Event false (sb_at 25 (Ev_enabled 0x1000 false));
   Use 2; Forget 1;
   Event false (sb_at 35 (Ev_async_branch 0x1010 (sb_kernel + 16)));
   Event false (sb_at 45 (Ev_enabled 0x1000 false));
   Event false (sb_at 55 (Ev_async_branch 0x1010 (sb_kernel + 16)))].

Example C60_example : answers plain_outside /\ Forall op_ok sb_calls.
Proof.
  split; [exact plain_answers|].
  repeat constructor; cbn; try lia; unfold FILENAME_MAX; apply Nat.ltb_lt; reflexivity.
Qed.

(** After all calls: process 1 and the first image of process 2 are gone but for the client's
    reference, the new image of process 2 is selected and has the file. *)
Definition shown (cl : client unit (list file)) :=
  (map (option_map (fun x => (cx_pid x, cx_ucount x, map (fun f => fst (fst (fst f))) (cx_image x)))) (wd_heap (cl_world cl)),
   wd_image (cl_world cl), cl_held cl).
Example C60_run : shown (fst (sb_run plain_outside (sb_start [] tt) sb_calls)) =
  ([None; Some (2, 1, []); Some (2, 2, [[47; 98; 105; 110; 47; 108; 115]])]%N, Some 2, [1]).
Proof. vm_compute. reflexivity. Qed.

(** Paths must be short: for a longer one, pt_sb_alloc_pevent_decoder() frees the private data
    of the decoder twice. *)
Theorem C60_path_refuted : exists buf filename sysroot pev,
  bytes_ok buf /\ (pc_shift pev < 64)%N /\
  snd (sb_step plain_outside (sb_start [] tt) (Attach buf filename sysroot None None None pev 0 0 true)) = UB ub_uaf.
Proof.
  exists [], [115%N], (Some (repeat 47%N FILENAME_MAX)), sb_conf.
  split; [constructor|]. split; [reflexivity|]. vm_compute. reflexivity.
Qed.
Print Assumptions C60_path_refuted.

(** C61.  The time at which a record is applied is its time stamp less the configured offset, a
    signed number, kept in the range of 64 bits.  This holds for all offsets that are not negative,
    and for negative ones as long as the sum is in range. *)
Definition signed64 (n : N) : Z := if (n <? 2 ^ 63)%N then Z.of_N n else (Z.of_N n - 2 ^ 64)%Z.
Definition clamp64 (z : Z) : N :=
  (if (z <? 0)%Z then 0 else if (2 ^ 64 <=? z)%Z then 2 ^ 64 - 1 else Z.to_N z)%N.

Lemma shifted_ok tsc offset : (tsc < 2 ^ 64)%N -> (offset < 2 ^ 64)%N ->
  (offset < 2 ^ 63)%N \/ (Z.of_N tsc - signed64 offset < 2 ^ 64)%Z ->
  shifted tsc offset = clamp64 (Z.of_N tsc - signed64 offset).
Proof.
  unfold shifted, clamp64, signed64, sub64.
  change (2 ^ 64)%N with 18446744073709551616%N. change (2 ^ 63)%N with 9223372036854775808%N.
  change (2 ^ 64)%Z with 18446744073709551616%Z. intros Ht Ho H.
  rewrite (N.mod_small offset) by exact Ho.
  destruct (N.leb_spec offset tsc), (N.ltb_spec offset 9223372036854775808).
  - destruct (Z.ltb_spec (Z.of_N tsc - Z.of_N offset) 0); [lia|].
    destruct (Z.leb_spec 18446744073709551616 (Z.of_N tsc - Z.of_N offset)); [lia|].
    replace (tsc + (18446744073709551616 - offset))%N with (tsc - offset + 1 * 18446744073709551616)%N by lia.
    rewrite N.mod_add by discriminate. rewrite N.mod_small by lia. lia.
  - lia.
  - destruct (Z.ltb_spec (Z.of_N tsc - Z.of_N offset) 0); [reflexivity|lia].
  - destruct (N.leb_spec tsc offset); [|lia].
    destruct (Z.ltb_spec (Z.of_N tsc - (Z.of_N offset - 18446744073709551616)) 0); [lia|].
    destruct (Z.leb_spec 18446744073709551616 (Z.of_N tsc - (Z.of_N offset - 18446744073709551616))); [lia|].
    rewrite N.mod_small by lia. lia.
Qed.

Theorem C61_time {E I} (out : outside E I) w p n r e :
  pev_read (skipn (pp_next p) (pp_buf p)) (pp_pev p) = Ok (n, r) ->
  view (firstn n (skipn (pp_next p) (pp_buf p))) r = Ok e ->
  let tsc := sm_tsc (pe_sample e) in
  let offset := pp_tsc_offset p in
  (tsc < 2 ^ 64)%N -> (offset < 2 ^ 64)%N ->
  (offset < 2 ^ 63)%N \/ (Z.of_N tsc - signed64 offset < 2 ^ 64)%Z ->
  snd (fetch_callback out w p) =
  Ok (match sm_time (pe_sample e) with
      | Some _ => clamp64 (Z.of_N tsc - signed64 offset)
      | None => 0%N
      end).
Proof.
  intros Hr Hv tsc offset Ht Ho H. unfold fetch_callback, pt_sb_pevent_fetch, mbind, private, update.
  cbn [fst snd]. rewrite Hr. cbn [bind]. rewrite Hv. cbn [bind].
  destruct (sm_time (pe_sample e)); [|reflexivity]. cbn. f_equal. now apply shifted_ok.
Qed.
Print Assumptions C61_time.

(** Beyond that, a negative offset makes the time wrap around to the beginning; the code that is
    meant to prevent this is never reached. *)
Theorem C61_wrap_refuted : exists tsc offset : N, (tsc < 2 ^ 64)%N /\ (offset < 2 ^ 64)%N /\
  clamp64 (Z.of_N tsc - signed64 offset) = (2 ^ 64 - 1)%N /\ shifted tsc offset = 0%N.
Proof.
  exists (2 ^ 64 - 1)%N, (2 ^ 64 - 1)%N. repeat split; reflexivity.
Qed.
Print Assumptions C61_wrap_refuted.

(** The first record of the data above, with an offset of 3. *)
Definition sb_priv (offset : N) : priv :=
  mk_priv sb_data None None None None sb_conf sb_kernel offset None 0 no_pev_event None None ploc_unknown.
Example C61_example :
  snd (fetch_callback plain_outside (cl_world (sb_start [] tt)) (sb_priv 3)) = Ok 7%N /\
  snd (fetch_callback plain_outside (cl_world (sb_start [] tt)) (sb_priv (2 ^ 64 - 3))) = Ok 13%N /\
  snd (fetch_callback plain_outside (cl_world (sb_start [] tt)) (sb_priv 11)) = Ok 0%N.
Proof. vm_compute. auto. Qed.
