(** C67: block decoders that share sections do not get in each other's way. *)

From Coq Require Import List NArith ZArith Bool PeanoNat Lia.
From Verif Require Import Base M_config M_time M_pktdec M_event M_evdec M_query M_retstack M_asid M_ildtab M_ild
  M_insn M_insndec M_blk M_share S_core S_sync S_evdec S_x86 S_insn S_query S_evtrace S_flow S_drive S_blk S_agree S_share L_core
  L_evdec L_evsafe L_evnext L_insn T_ild T_insn L_query L_query2 T_evdec T_evtrace L_flow L_flow2 L_flow3 L_flow4 L_flow5
  L_flow6 L_flow7 T_flow L_calm L_blk L_blk3 L_blk6 L_blk9 L_blk10 L_share T_blk L_agree T_agree T_blkall.
Import ListNotations.
Open Scope N_scope.

(** What other decoders may do to the section cache and to the block caches: if every
    entry describes the content of its section then this is so after it, and no block cache
    is taken away. *)
Definition fair {C} (cached : C -> asid -> Prop) content mode_of (act : C -> caches -> C * caches) : Prop :=
  forall c cs a, cached c a -> caches_ok content mode_of cs ->
    match act c cs with
    | (c', cs') => cached c' a /\ caches_ok content mode_of cs' /\ forall k, cs k <> None -> cs' k <> None
    end.

Section SHARED.
  Context (cf : config) (buf : list N) (base : nat).
  Hypothesis sized : callback_sized cf.
  Hypothesis freq : (cf_mtc_freq cf < 24)%N.
  Hypothesis small : (N.of_nat (length buf) + 1 < 2 ^ 31)%N.
  Hypothesis bytes : bytes_ok buf.
  Hypothesis no_bdm64 : er_bdm64 (cf_errata cf) = false.
  Hypothesis no_skd022 : er_skd022 (cf_errata cf) = false.
  Hypothesis no_skl014 : er_skl014 (cf_errata cf) = false.
  Context {S C : Type} (im : blk_image S C) (mem : asid -> memory) (cached : C -> asid -> Prop).
  Context (content : N -> N -> option N) (at_ : asid -> N -> option place) (mode_of : N -> exec_mode).
  Hypothesis shows : blocks_show im mem cached content at_ mode_of.
  Context (others : nat -> C -> caches -> C * caches).
  Hypothesis all_fair : forall n, fair cached content mode_of (others n).

  (** Whenever a block decoder is about to read or write an entry of a block cache, or looked
      up a section, other decoders may change any entries of any block caches and add block
      caches.  As long as their entries describe the content of the sections, what the loop
      shows is a flow of the trace, as for a decoder on its own.  In return, all the block
      caches that the others ever find, and those at the end, have only entries that
      describe the content, whether the last call succeeded or failed. *)
  Theorem C67_shared (d : blkdec (env C)) o d1 st :
    reachable base cf buf (bd_evdec d) -> length (rs_stack (bd_retstack d)) = 65%nat ->
    cached (en_cache (bd_scache d)) pt_asid_init -> en_seen (bd_scache d) = [] ->
    caches_ok content mode_of (bd_caches d) -> bd_ticks d = false ->
    blk_sync_step base (shared im others) d o = (d1, Ok st) ->
    exists q evs err ip, evt_sync_step base (bd_evdec d) o = (q, Ok tt) /\ stream q evs err /\ starts q evs ip /\
      (Forall plain_event evs ->
       sane mem content at_ mode_of err (mk_fstate (flow0 ip) None (flat_map facts_of evs)) ->
       forall n os d' r, blk_drive (shared im others) n d1 st = (os, d', r) ->
       (exists s, bruns mem err (mk_fstate (flow0 ip) None (flat_map facts_of evs)) os s /\
          match r with
          | Ok st' => flag st' pts_ip_suppressed = negb (f_on (fs_flow s)) /\
              (flag st' pts_eos = true -> err = pte_eos /\ fs_held s = None /\ fs_facts s = [])
          | Err e => e = pte_eos -> err = pte_eos /\ fs_held s = None /\ fs_facts s = []
          | UB u => u = ub_oob_read /\ exists is s1, bflows mem err s (map O_insn is) s1 /\
              rex2_hole (mem (f_asid (fs_flow s1))) (f_mode (fs_flow s1)) (f_ip (fs_flow s1))
          end) /\
       match r with
       | UB _ => True
       | _ => caches_ok content mode_of (bd_caches d') /\
              Forall (caches_ok content mode_of) (en_seen (bd_scache d'))
       end).
  Proof.
    intros Hr Hl Hc Hn Hcs Ht E.
    pose proof (shared_show im mem cached content at_ mode_of shows others all_fair) as Sh.
    assert (Hc' : cached_env cached content mode_of (bd_scache d) pt_asid_init) by (split; [exact Hc|rewrite Hn; constructor]).
    pose proof (sync_ok cf buf base sized freq small bytes no_bdm64 no_skd022 (shared im others) mem _ content at_ mode_of (fun _ => True)
      d o Hr Hl Hc' Hcs Ht) as K.
    pose proof (sync_caches (shared im others) base d o) as (Sc1 & Sc2).
    rewrite E in K, Sc1, Sc2. cbn [fst] in Sc1, Sc2.
    destruct (evt_sync_step base (bd_evdec d) o) as [q [[]|e|u]]; [|discriminate K|destruct K].
    destruct K as (evs & err & ip & Hf & Hs & K). exists q, evs, err, ip. split; [reflexivity|].
    split; [destruct Hf as (q0 & o0 & _ & _ & Hf); exact Hf|]. split; [exact Hs|].
    intros Hp Sn n os d' r Hd. destruct (K Hp Sn) as (s0 & F0 & B0). pose proof (sane_flow _ _ _ _ _ _ _ _ Sn F0) as Sn0. split.
    - pose proof (drive_ok cf buf base err sized freq small bytes no_bdm64 no_skd022 no_skl014 (shared im others) mem _ content at_ mode_of Sh
        (fun _ => True) I (fun _ _ _ _ _ _ _ => I) (fun _ _ _ _ _ => I) (fun _ _ _ => I)
        n d1 st s0 Sn0 B0) as D. rewrite Hd in D. destruct D as (s & R & O).
      exists s. split; [exact (bruns_silent mem err _ _ _ _ F0 R)|].
      destruct r as [st'|e|u]; [|exact (proj1 O)|exact O]. destruct O as [O1 O2 _]. auto.
    - assert (G : good (cached_env cached content mode_of) content mode_of d1).
      { split; [rewrite Sc1; exact Hcs|]. exists pt_asid_init. rewrite Sc2. exact Hc'. }
      pose proof (drive_good cf buf base err sized freq small bytes no_bdm64 no_skd022 no_skl014 (shared im others) mem _ content at_ mode_of Sh
        n d1 st s0 Sn0 B0 G) as D. rewrite Hd in D.
      destruct r as [st'|e|u]; [| |exact I]; destruct D as (D1 & a & D2 & D3); auto.
  Qed.
End SHARED.
Print Assumptions C67_shared.

(** ** Decoders that take turns *)

Section TOGETHER.
  Context (cf : nat -> config) (buf : nat -> list N) (base : nat -> nat) (n : nat).
  Context {S C : Type} (im : nat -> blk_image S C) (mem : nat -> asid -> memory) (cached : nat -> C -> asid -> Prop).
  (** The sections are the same for all of them, the images are not. *)
  Context (content : N -> N -> option N) (at_ : nat -> asid -> N -> option place) (mode_of : N -> exec_mode).
  Hypothesis fit : forall i, (i < n)%nat ->
    (callback_sized (cf i) /\ cf_mtc_freq (cf i) < 24 /\ N.of_nat (length (buf i)) + 1 < 2 ^ 31 /\ bytes_ok (buf i) /\
     er_bdm64 (cf_errata (cf i)) = false /\ er_skd022 (cf_errata (cf i)) = false /\ er_skl014 (cf_errata (cf i)) = false) /\
    blocks_show (im i) (mem i) (cached i) content (at_ i) mode_of.
  (** The decoders were synchronized. *)
  Context (d d1 : nat -> blkdec C) (o : nat -> blk_sync_op) (st : nat -> N).
  Hypothesis synced : forall i, (i < n)%nat ->
    reachable (base i) (cf i) (buf i) (bd_evdec (d i)) /\ length (rs_stack (bd_retstack (d i))) = 65%nat /\
    cached i (bd_scache (d i)) pt_asid_init /\ caches_ok content mode_of (bd_caches (d i)) /\ bd_ticks (d i) = false /\
    blk_sync_step (base i) (im i) (d i) (o i) = (d1 i, Ok (st i)).
  (** These are their traces. *)
  Context (q : nat -> evdec) (evs : nat -> list event) (err : nat -> pte) (ip : nat -> option N).
  Notation s0 i := (mk_fstate (flow0 (ip i)) None (flat_map facts_of (evs i))).
  Hypothesis traces : forall i, (i < n)%nat ->
    evt_sync_step (base i) (bd_evdec (d i)) (o i) = (q i, Ok tt) /\ stream (q i) (evs i) (err i) /\
    starts (q i) (evs i) (ip i) /\ Forall plain_event (evs i) /\
    sane (mem i) content (at_ i) mode_of (err i) (s0 i).

  Lemma begin_ok ex i : (i < n)%nat ->
    going cf buf base im mem cached content at_ mode_of err (fun i => s0 i) ex i (mk_part (d1 i) (Ok (st i)) []).
  Proof.
    intros Hi. destruct (fit i Hi) as ((F1 & F2 & F3 & F4 & F5 & F6 & F7) & Sh).
    destruct (synced i Hi) as (Hr & Hl & Hc & Hcs & Ht & E). destruct (traces i Hi) as (T1 & T2 & T3 & T4 & T5).
    pose proof (sync_ok (cf i) (buf i) (base i) F1 F2 F3 F4 F5 F6 (im i) (mem i) (cached i) content (at_ i) mode_of ex
      (d i) (o i) Hr Hl Hc Hcs Ht) as K.
    pose proof (sync_caches (im i) (base i) (d i) (o i)) as (_ & Sc). rewrite E in K, Sc. rewrite T1 in K. cbn [fst] in Sc.
    destruct K as (evs' & err' & ip' & Hf & Hs & K).
    assert (Ef : stream (q i) evs' err') by (destruct Hf as (q0 & o0 & _ & _ & Hf); exact Hf).
    destruct (stream_unique _ _ _ T2 _ _ Ef) as (<- & <-).
    pose proof (first_unique _ _ _ (proj1 T3) _ (proj1 Hs)). subst ip'.
    destruct (K T4 T5) as (s & F & B). constructor; cbn [pa_dec pa_last pa_seen].
    - exists s. split; [exact B|]. split; [eapply bruns_silent; [exact F|constructor]|].
      intros st' _. split; [eapply sane_flow; eassumption|]. intros os s2 R. cbn [app]. eapply bruns_silent; eassumption.
    - intros st' _. exists pt_asid_init. rewrite Sc. exact Hc.
  Qed.

  (** Let the decoders make their calls in any order, each in its own loop.  Then what each of
      them shows is a flow of its own trace, as if it was alone, and when the calls are done,
      all entries in the block caches describe the content of the sections.  An error of one
      decoder does not matter to the others. *)
  Theorem C67_together cs l : caches_ok content mode_of cs -> Forall (fun i => (i < n)%nat) l ->
    let s := turns im l (mk_system (fun i => mk_part (d1 i) (Ok (st i)) []) cs) in
    (forall i, (i < n)%nat -> exists f, bruns (mem i) (err i) (s0 i) (pa_seen (sy_part s i)) f /\
       match pa_last (sy_part s i) with
       | Ok st' => flag st' pts_ip_suppressed = negb (f_on (fs_flow f)) /\
           (flag st' pts_eos = true -> err i = pte_eos /\ fs_held f = None /\ fs_facts f = [])
       | Err e => e = pte_eos -> err i = pte_eos /\ fs_held f = None /\ fs_facts f = []
       | UB u => u = ub_oob_read /\ exists is f1, bflows (mem i) (err i) f (map O_insn is) f1 /\
           rex2_hole (mem i (f_asid (fs_flow f1))) (f_mode (fs_flow f1)) (f_ip (fs_flow f1))
       end) /\
    ((forall i u, (i < n)%nat -> pa_last (sy_part s i) <> UB u) -> caches_ok content mode_of (sy_caches s)).
  Proof.
    intros Hcs Hl s.
    destruct (turns_ok cf buf base n im mem cached content at_ mode_of err (fun i => s0 i) (fun _ => True) I
      (fun i Hi => conj (proj1 (fit i Hi)) (conj (proj2 (fit i Hi)) (conj (fun _ _ _ _ _ _ _ => I) (conj (fun _ _ _ _ _ => I) (fun _ _ _ => I)))))
      l (mk_system (fun i => mk_part (d1 i) (Ok (st i)) []) cs) Hl
      (conj (fun i Hi => begin_ok _ i Hi) Hcs)) as (T1 & T2).
    split; [|exact T2]. intros i Hi. destruct (T1 i Hi) as [(f & O & R & _) _]. exists f. split; [exact R|].
    fold s in O |- *. destruct (pa_last (sy_part s i)) as [st'|e|u]; [|exact (proj1 O)|exact O]. destruct O as [O1 O2 _]. auto.
  Qed.

  (** If the images and the memory for the block caches give no errors of their own, then each
      decoder that was stopped by an error has shown all of its flow. *)
  Theorem C67_whole cs l : (forall i, (i < n)%nat -> blocks_total (im i) (cached i)) ->
    caches_ok content mode_of cs -> Forall (fun i => (i < n)%nat) l ->
    let s := turns im l (mk_system (fun i => mk_part (d1 i) (Ok (st i)) []) cs) in
    forall i, (i < n)%nat -> exists os, unfolded (mem i) (pa_seen (sy_part s i)) os /\
      forall ws f, orderly_bflows (mem i) (err i) (s0 i) ws f ->
      (exists os1 os2, os = os1 ++ os2 /\ Forall2 same_obs os1 ws) \/
      (exists ws1 ws2, ws = ws1 ++ ws2 /\ Forall2 same_obs os ws1 /\
         forall e, pa_last (sy_part s i) = Err e -> excused e).
  Proof.
    intros Tot Hcs Hl s i Hi.
    destruct (turns_ok cf buf base n im mem cached content at_ mode_of err (fun i => s0 i) excused eq_refl
      (fun i Hi => let T := Tot i Hi in conj (proj1 (fit i Hi)) (conj (proj2 (fit i Hi))
        (conj (fun c a ip e X Y Z => False_ind _ (Z (proj1 (proj1 T) c a ip e X Y)))
        (conj (fun c a e X Y => False_ind _ (proj2 (proj1 T) c a e X Y)) (fun k e X => False_ind _ (proj2 T k e X))))))
      l (mk_system (fun i => mk_part (d1 i) (Ok (st i)) []) cs) Hl
      (conj (fun i Hi => begin_ok _ i Hi) Hcs)) as (T1 & _).
    destruct (T1 i Hi) as [(f & O & R & _) _]. fold s in O, R.
    destruct (runs_unfold _ _ _ _ _ R) as (zs & U & Fl). exists zs. split; [exact U|]. intros ws s2 W.
    destruct (traces i Hi) as (_ & _ & _ & _ & Sn). pose proof (sane_known _ _ _ _ _ _ Sn) as Kn.
    destruct (bflows_all _ _ _ _ _ Fl Kn _ _ W) as [(ws1 & ws2 & -> & K1 & K2)|X]; [|left; exact X].
    destruct (pa_last (sy_part s i)) as [st'|e|u].
    - right. exists ws1, ws2. split; [reflexivity|]. split; [exact K1|]. discriminate.
    - destruct O as (_ & s3 & F3 & [X|B]).
      + right. exists ws1, ws2. split; [reflexivity|]. split; [exact K1|]. intros e' [= <-]. exact X.
      + left. pose proof (bflows_app' _ _ _ _ _ _ _ Fl F3) as FF. rewrite app_nil_r in FF.
        destruct (bflows_all _ _ _ _ _ FF Kn _ _ W) as [(ws3 & ws4 & X1 & X2 & X3)|X]; [|exact X].
        rewrite (blocked_flows _ _ _ _ _ B X3), app_nil_r in X1. exists zs, []. rewrite app_nil_r, X1. auto.
    - right. exists ws1, ws2. split; [reflexivity|]. split; [exact K1|]. discriminate.
  Qed.
End TOGETHER.
Print Assumptions C67_together.
Print Assumptions C67_whole.

(** ** Examples *)

(** Two decoders for the program and the trace of C58 that share the section. *)
Definition ready1 : blkdec unit * N :=
  match blk_sync_step 0 blocks1 (block_dec trace_flow) Bs_forward with
  | (d, Ok st) => (d, st)
  | (d, _) => (d, 0)
  end.
Definition pair1 (l : list nat) : system unit :=
  turns (fun _ => blocks1) l (mk_system (fun _ => mk_part (fst ready1) (Ok (snd ready1)) []) (fun _ => None)).
(** What is shown by the decoder [i], its last result, and the mode in the entries of the block
    cache for the instructions of the program. *)
Definition told (l : list nat) (i : nat) :=
  let s := pair1 l in
  (map block_sight (pa_seen (sy_part s i)), pa_last (sy_part s i),
   map (fun o => match sy_caches s 1 with Some c => be_mode (bc_entry c o) | None => ptem_unknown end) [0; 5; 6; 8; 11]).
Definition all_shown := snd (fst (run_blocks blocks1 (block_dec trace_flow) Bs_forward 20)).
Definition fewer_blocks :=
  [inr (Ev_enabled 4096 true, true); inr (Ev_exec_mode ptem_64bit 4096, true);
   inl (inl (4096, 4104, 2, ptic_cond_jump, 0)); inl (inl (4107, 4107, 1, ptic_return, 0));
   inl (inl (4101, 4102, 2, ptic_far_call, pts_event_pending)); inr (Ev_disabled 0, false); inl (inr 0)].
Definition used1 := [ptem_64bit; ptem_unknown; ptem_unknown; ptem_64bit; ptem_64bit].
Example C67_together_ex :
  (forall i : nat, blk_sync_step 0 blocks1 (block_dec trace_flow) Bs_forward = (fst ready1, Ok (snd ready1))) /\
  caches_ok (flat_content program1) (fun _ => ptem_64bit) (fun _ => None) /\
  (exists q, evt_sync_step 0 (bd_evdec (block_dec trace_flow)) Bs_forward = (q, Ok tt) /\ stream q (fst all1) pte_eos /\
     starts q (fst all1) (Some 0x1000) /\ Forall plain_event (fst all1) /\
     sane mem1 (flat_content program1) (flat_place 0x1000 program1) (fun _ => ptem_64bit) pte_eos flow1) /\
  (* one after the other, and in turns: the second one uses entries of the first, so that its
     blocks are longer, but they stand for the same instructions *)
  told (repeat 0%nat 8 ++ repeat 1%nat 8) 0 = (all_shown, Err pte_eos, used1) /\
  told (repeat 0%nat 8 ++ repeat 1%nat 8) 1 = (fewer_blocks, Err pte_eos, used1) /\
  told [0; 1; 0; 1; 0; 0; 1; 1; 1; 0; 0; 1; 1; 1; 0; 0]%nat 0 = (all_shown, Err pte_eos, used1) /\
  told [0; 1; 0; 1; 0; 0; 1; 1; 1; 0; 0; 1; 1; 1; 0; 0]%nat 1 = (fewer_blocks, Err pte_eos, used1).
Proof.
  split; [intros _; vm_compute; reflexivity|]. split; [intros k c; discriminate|].
  split; [|vm_compute; repeat split; reflexivity].
  destruct (events_from_stream _ _ _ _ events1) as (q & Eq & E). exists q. split; [exact Eq|]. split; [exact E|].
  assert (L : let q := fst (evt_sync_step 0 (bd_evdec (block_dec trace_flow)) Bs_forward) in
              start_loop 20 (evt_pos q) q = Ok (Some 0x1000)) by (vm_compute; reflexivity).
  rewrite Eq in L. cbn [fst] in L.
  split; [split; [exact (start_loop_first _ _ _ _ L)|];
          exists []; do 3 eexists; split; [reflexivity|split; [repeat constructor|reflexivity]]|].
  split; [repeat constructor; discriminate|exact known1].
Qed.

(** Other decoders that make a block cache for the section and put an entry there for the
    conditional branch at the offset 8, from time to time. *)
Definition with_entry (e : entry) (n : nat) (c : unit) (cs : caches) : unit * caches :=
  (c, fun k => if k =? 1 then
                 let b := match cs 1 with Some b => b | None => mk_bcache 12 (fun _ => no_entry) end in
                 Some (mk_bcache (bc_n b) (fun o => if (o =? 8) && (n mod 2 =? 0)%nat then e else bc_entry b o))
               else cs k).
Definition right_entry : entry := mk_entry 0 1 ptem_64bit ptbq_cond 2.
Definition wrong_entry : entry := mk_entry 0 7 ptem_64bit ptbq_cond 2.
Definition shared_dec : blkdec (env unit) :=
  pt_blk_decoder_init config0 false false false trace_flow (repeat 0 65) (mk_env tt 0 []) (fun _ => None).
Definition run_shared (e : entry) :=
  match blk_sync_step 0 (shared blocks1 (with_entry e)) shared_dec Bs_forward with
  | (d, Ok st) => match blk_drive (shared blocks1 (with_entry e)) 20 d st with
                  | (os, d, r) => (map block_sight os, r, en_time (bd_scache d), length (en_seen (bd_scache d)))
                  end
  | (_, r) => ([], r, O, O)
  end.
Lemma in_content k l : forall o, (forall j b, nth_error l j = Some b -> nth_error program1 (o + j) = Some b) ->
  k = 1 -> forall j b, nth_error l j = Some b -> flat_content program1 k (N.of_nat o + N.of_nat j) = Some b.
Proof.
  intros o H -> j b E. unfold flat_content. cbn [N.eqb Pos.eqb]. rewrite <- Nat2N.inj_add, Nat2N.id. apply H, E.
Qed.
Example C67_shared_ex :
  (forall n, fair (fun _ _ => True) (flat_content program1) (fun _ => ptem_64bit) (with_entry right_entry n)) /\
  run_shared right_entry = (all_shown, Err pte_eos, 8%nat, 8%nat) /\
  (* others that are not fair *)
  fst (fst (fst (run_shared wrong_entry))) <> all_shown.
Proof.
  split; [|split; [vm_compute; reflexivity|vm_compute; discriminate]].
  intros n c cs a _ H. cbn [with_entry]. split; [exact I|]. split.
  - intros k b E. destruct (N.eqb_spec k 1) as [->|Nk]; [|exact (H k b E)].
    set (b0 := match cs 1 with Some b => b | None => _ end) in *.
    assert (Hb : (forall o x, flat_content program1 1 o = Some x -> o < bc_n b0) /\
                 forall o, o < bc_n b0 -> entry_ok (flat_content program1) (fun _ => ptem_64bit) 1 o (bc_entry b0 o)).
    { unfold b0. destruct (cs 1) as [b1|] eqn:E1; [exact (H 1 b1 E1)|]. cbn [bc_n bc_entry]. split.
      - intros o x. unfold flat_content. cbn [N.eqb Pos.eqb]. intros X.
        assert (K : nth_error program1 (N.to_nat o) <> None) by congruence. apply nth_error_Some in K. cbn in K. clear - K. lia.
      - intros o _ X. destruct (X eq_refl). }
    injection E as <-. cbn [bc_n bc_entry]. split; [apply Hb|]. intros o Ho.
    destruct (N.eqb_spec o 8) as [->|No]; [|apply Hb, Ho]. destruct (_ =? 0)%nat; [|apply Hb, Ho]. cbn [andb].
    intros _. cbn [right_entry be_mode be_ninsn be_disp be_qual be_isize]. split; [reflexivity|]. split; [lia|]. split; [lia|]. split.
    + constructor.
    + intros _. exists jcc1. split; [|split; [reflexivity|right; reflexivity]].
      split; [wf|]. split; [cbn; lia|]. apply (in_content 1 (render jcc1) 8); [|reflexivity].
      intros [|[|[|j]]] x X; [exact X|exact X|discriminate X..].
  - intros k X. destruct (k =? 1); [discriminate|exact X].
Qed.

(** That the others are fair is needed: one wrong entry, and the decoder shows another number of
    instructions than on its own. *)
Definition shown_with (others : nat -> unit -> caches -> unit * caches) :=
  match blk_sync_step 0 (shared blocks1 others) shared_dec Bs_forward with
  | (d, Ok st) => map block_sight (fst (fst (blk_drive (shared blocks1 others) 20 d st)))
  | _ => []
  end.
Definition insns_shown : list ((N * N * N * iclass * N) + N + (evar * bool)) -> N :=
  fold_right (fun x n => match x with inl (inl (_, _, k, _, _)) => k + n | inl (inr k) => k + n | _ => n end) 0.
Theorem C67_unfair_refuted :
  insns_shown (shown_with (fun _ c cs => (c, cs))) = insns_shown all_shown /\
  insns_shown (shown_with (with_entry right_entry)) = insns_shown all_shown /\
  ~ forall others, insns_shown (shown_with others) = insns_shown all_shown.
Proof.
  split; [vm_compute; reflexivity|]. split; [vm_compute; reflexivity|].
  intros H. specialize (H (with_entry wrong_entry)). revert H. vm_compute. discriminate.
Qed.
Print Assumptions C67_unfair_refuted.
