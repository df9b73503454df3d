(** C63: an image with its section cache is memory for a decoder. *)

From Coq Require Import List NArith ZArith Bool PeanoNat Lia ZifyBool ZifyNat ZifyN Permutation.
From Verif Require Import Base M_section M_blk M_image M_imgdec S_config S_image L_section L_image L_imgref L_imghist
  L_imgfind L_imguniq T_image.
From Verif Require Import M_config M_time M_pktdec M_event M_evdec M_query M_retstack M_asid M_ildtab M_ild
  M_insn M_insndec S_core S_sync S_evdec S_x86 S_insn S_query S_evtrace S_flow S_drive S_blk S_imgdec L_core L_evdec
  L_evsafe L_evnext L_insn T_ild T_insn L_query L_query2 T_evdec T_evtrace L_flow L_flow2 L_flow3 L_flow4 L_flow5 L_flow6 L_flow7 T_flow T_blk L_imgdec.
Import ListNotations.
Open Scope N_scope.

Section IMAGE.
  (** An image made by any sequence of calls that callers may do, the contents of files, and a
      callback for reading memory. *)
  Context (files : N -> file) (mp : section -> res mapping) (cb : option readmem).
  Context (f : refs) (w : world) (ops : list iop).
  Hypothesis Held : held f w.
  Hypothesis May : callers_may f (w, []) ops.
  Hypothesis Usable : usable files mp (snd (after w ops)) (fst (fst (after w ops))).

  Let Wf : Forall wf (snd (fst (after w ops))) := hi_wf _ _ _ (hinv_after f w ops Held May).
  Let Fa : forall a x, facts (snd (fst (after w ops))) a x <-> shows (snd (after w ops)) a x :=
    hi_facts _ _ _ (hinv_after f w ops Held May).
  Let Sep : separate (snd (fst (after w ops))) := separate_after f w ops Held May.
  Let Own : forall e, In e (snd (fst (after w ops))) ->
    sn_freed (fst (fst (after w ops)) (en_id e)) = false /\ 1 <= sn_ucount (fst (fst (after w ops)) (en_id e)) :=
    fun e He => free_alive _ _ _ _ (hi_owned _ _ _ (hinv_after f w ops Held May)) He.

  Lemma start_inv : inv (snd (after w ops)) (fst (fst (after w ops))) (snd (fst (after w ops))) (made w ops).
  Proof.
    split; cbn [made lb_image lb_world lb_cache pt_msec_cache_init mc_msec].
    - apply Permutation_refl.
    - intros id. unfold one. cbn [mc_msec]. rewrite !N.add_0_r. auto.
    - apply (us_mapped _ _ _ _ Usable).
    - discriminate.
  Qed.
  Lemma start_allowed a :
    allowed (snd (after w ops)) (fst (fst (after w ops))) (snd (fst (after w ops))) (made w ops) a.
  Proof. split; [exact start_inv|]. discriminate. Qed.

  (** Without a callback there is exactly one memory: the visible sections. *)
  Theorem C63_memory : exists mem, memory_of files None (snd (after w ops)) mem /\
    forall mem', memory_of files None (snd (after w ops)) mem' -> forall a x, mem' a x = mem a x.
  Proof.
    set (mem := fun (a : asid) (x : N) => match entry_at (snd (fst (after w ops))) a x with
      | Some e => match nth_error (files (sc_name (en_sec e))) (N.to_nat (sc_offset (en_sec e) + (x - ad_vaddr (origin e)))) with
                  | Some b => Some (b, en_isid e)
                  | None => None
                  end
      | None => None
      end).
    assert (M : memory_of files None (snd (after w ops)) mem).
    { split.
      - intros a s x Hs Hc. pose proof Hs as Hs'. apply Fa in Hs. destruct Hs as (e & Hin & <- & Hx).
        unfold mem. rewrite (entry_unique files mp _ _ _ Wf Fa Sep Usable a x e Hin Hx Hc).
        pose proof (eend_le _ Wf e Hin) as L. destruct (us_file _ _ _ _ Usable _ x Hs') as [K _].
        unfold byte_of. cbn [ad_sec origin] in *. change (ms_sec (en_msec e)) with (en_sec e) in *.
        destruct (nth_error _ _) as [b|] eqn:Eb; [eauto|]. exfalso. apply nth_error_None in Eb.
        unfold fsize in K. unfold origin in Eb. cbn [ad_vaddr] in Eb, L. unfold ecovers in Hx. unfold eend in L.
        clear - Eb K L Hx. lia.
      - intros a x Hn. unfold mem. destruct (entry_at (snd (fst (after w ops))) a x) as [e|] eqn:Ee; [|reflexivity].
        apply (entry_some _ Wf) in Ee. destruct Ee as (Hin & Hx & Hc). exfalso. apply (Hn (origin e) Hc).
        apply Fa. exists e. auto. }
    exists mem. split; [exact M|]. intros mem' M' a x.
    destruct (entry_at (snd (fst (after w ops))) a x) as [e|] eqn:Ee.
    - apply (entry_some _ Wf) in Ee. destruct Ee as (Hin & Hx & Hc).
      assert (Hs : shows (snd (after w ops)) (origin e) x) by (apply Fa; exists e; auto).
      destruct (mo_section _ _ _ _ M a _ x Hs Hc) as (b & B1 & ->).
      destruct (mo_section _ _ _ _ M' a _ x Hs Hc) as (b' & B1' & ->). congruence.
    - pose proof (entry_none files mp _ _ _ Wf Fa Sep Usable a x Ee) as Hn.
      rewrite (mo_other _ _ _ _ M a x Hn : mem a x = None). exact (mo_other _ _ _ _ M' a x Hn).
  Qed.

  (** Whatever was read, found and forgotten before, as long as the section is forgotten when
      the address space changes: the same question has the same answer.  The order of the
      image's sections, which changes all the time, and the section cache do not matter. *)
  Theorem C63_steady us1 us2 u : proper None (us1 ++ [u]) -> proper None (us2 ++ [u]) ->
    snd (use_step files mp cb (use_run files mp cb (made w ops) us1) u) =
    snd (use_step files mp cb (use_run files mp cb (made w ops) us2) u).
  Proof.
    assert (F : fitting (snd (after w ops)) (fst (fst (after w ops))) (snd (fst (after w ops))) (made w ops) None)
      by (split; [exact start_inv|reflexivity]).
    intros P1 P2.
    destruct (run_ok files mp cb _ _ _ Wf Fa Sep Own Usable us1 _ _ u F P1) as (s1 & -> & _).
    destruct (run_ok files mp cb _ _ _ Wf Fa Sep Own Usable us2 _ _ u F P2) as (s2 & -> & _). reflexivity.
  Qed.

  (** When the section is forgotten in the end, all sections have as many references and as
      many users of their mapping as in the beginning. *)
  Theorem C63_balance us : proper None (us ++ [Use_forget]) ->
    let s := fst (use_step files mp cb (use_run files mp cb (made w ops) us) Use_forget) in
    Permutation (lb_image s) (snd (fst (after w ops))) /\
    forall id, sn_freed (lb_world s id) = sn_freed (fst (fst (after w ops)) id) /\
      sn_ucount (lb_world s id) = sn_ucount (fst (fst (after w ops)) id) /\
      sn_mcount (lb_world s id) = sn_mcount (fst (fst (after w ops)) id).
  Proof.
    assert (F : fitting (snd (after w ops)) (fst (fst (after w ops))) (snd (fst (after w ops))) (made w ops) None)
      by (split; [exact start_inv|reflexivity]).
    intros P. destruct (run_ok files mp cb _ _ _ Wf Fa Sep Own Usable us _ _ _ F P) as (s & -> & V & N).
    cbn zeta. cbn [fst]. split; [apply (iv_perm _ _ _ _ V)|]. intros id. pose proof (iv_cnt _ _ _ _ V id) as K.
    unfold one in K. rewrite (N eq_refl) in K. rewrite !N.add_0_r in K. exact K.
  Qed.

  Context (mem : asid -> memory).
  Hypothesis Mem : memory_of files cb (snd (after w ops)) mem.

  (** The image is what C55 and C56 ask for: it shows the memory that is described by the
      history of the image, and looking up sections gives no errors of its own. *)
  Theorem C63_image : exists cached : lib -> asid -> Prop,
    image_shows (library_image files mp cb (made w ops)) mem cached /\
    image_total (library_image files mp cb (made w ops)) cached /\ forall a, cached (made w ops) a.
  Proof.
    eexists. split; [|split; [|exact start_allowed]].
    - apply library_shows; try assumption. exact start_inv.
    - apply library_total; try assumption. 
  Qed.

  (** It also is what C58 asks for, if block caches are as big as their section.  The content of sections and the places of addresses are
      those of the history. *)
  Theorem C63_blocks size_of alloc kept :
    (forall k, snd (alloc k) <> Err pte_eos /\ forall u, snd (alloc k) <> UB u) ->
    (forall s x, shows (snd (after w ops)) s x -> size_of (sc_id (ad_sec s)) = sc_size (ad_sec s)) ->
    exists cached content at_, places_of files (snd (after w ops)) content at_ /\
      (forall mode_of,
         blocks_show (library_blocks files mp cb size_of alloc kept (made w ops)) mem cached content at_ mode_of) /\
      forall a, cached (made w ops) a.
  Proof.
    intros Ha Hz. do 3 eexists. split; [|split; [|exact start_allowed]].
    - apply places_ok with (map := mp) (w0 := fst (fst (after w ops))) (img0 := snd (fst (after w ops))); assumption.
    - intros mode_of. apply blocks_ok; try assumption. exact start_inv.
  Qed.

  (** Together with C55: an instruction flow decoder with this image follows the flow that the
      events of the trace describe in this memory. *)
  Section FLOW.
    Context (cf : config) (buf : list N) (base : nat).
    Hypothesis sized : callback_sized cf.
    Hypothesis freq : (cf_mtc_freq cf < 24)%N.
    Hypothesis small : (N.of_nat (length buf) + 1 < 2 ^ 31)%N.
    Hypothesis bytes : bytes_ok buf.
    Hypothesis no_bdm64 : er_bdm64 (cf_errata cf) = false.
    Hypothesis no_skd022 : er_skd022 (cf_errata cf) = false.
    Hypothesis no_skl014 : er_skl014 (cf_errata cf) = false.

    Theorem C63_flow (d : insndec lib) o d1 st :
      reachable base cf buf (qd_evdec (id_query d)) -> length (rs_stack (id_retstack d)) = 65%nat ->
      id_scache d = made w ops -> o = Qs_forward \/ (exists off, o = Qs_set off) ->
      insn_sync_step base (library_image files mp cb (made w ops)) d o = (d1, Ok st) ->
      exists e evs err ip, synced_to base (qd_evdec (id_query d)) o e /\ stream e evs err /\ L_query2.starts e evs ip /\
        (Forall no_trig evs -> forall n os d' r,
         drive (library_image files mp cb (made w ops)) n d1 st = (os, d', r) ->
         Forall (fun o => match o with O_insn i => in_mode i <> ptem_unknown | O_event _ => True end) os ->
         exists s, flows mem (id_ticks d) err (mk_fstate (flow0 ip) None (flat_map facts_of evs)) os s /\
           (r = Err pte_eos -> filter not_bit (fs_facts s) = []) /\
           (forall u, r = UB u -> u = ub_oob_read /\
              rex2_hole (mem (f_asid (fs_flow s))) (f_mode (fs_flow s)) (f_ip (fs_flow s)))).
    Proof.
      intros Hr Hl Hc Ho E. destruct C63_image as (cached & Sh & _ & Ca).
      eapply (C55_flow cf buf base sized freq small bytes no_bdm64 no_skd022 no_skl014 _ mem cached Sh);
        [exact Hr|exact Hl|rewrite Hc; apply Ca|exact Ho|exact E].
    Qed.
  End FLOW.
End IMAGE.
Print Assumptions C63_memory.
Print Assumptions C63_steady.
Print Assumptions C63_balance.
Print Assumptions C63_image.
Print Assumptions C63_blocks.
Print Assumptions C63_flow.

(** ** An example

    The program of C55, from two files: the second one covers the end of the program. *)

Definition ex_files (name : N) : file :=
  repeat 0 0x100 ++ match name with
                    | 0 => firstn 8 program1 ++ repeat 0xcc 0x28
                    | _ => skipn 8 program1
                    end.
Definition ex_map (s : section) : res mapping :=
  map_file s (fsize (ex_files (sc_name s))) 4096 true true true.
Definition ex_make : list iop :=
  [IAdd (ex_sec 0 0x30) ex_any 0x1000 7 []; IAdd (ex_sec 1 4) ex_any 0x1008 8 []].
Definition ex_past : history :=
  [(IAdd (ex_sec 1 4) ex_any 0x1008 8 [], ADone (Ok tt)); (IAdd (ex_sec 0 0x30) ex_any 0x1000 7 [], ADone (Ok tt))].
Lemma ex_past_ok : snd (after ex_world ex_make) = ex_past.
Proof. vm_compute. reflexivity. Qed.
Lemma ex_make_may : callers_may ex_refs (ex_world, []) ex_make.
Proof. unfold ex_make. may_tac. Qed.
Lemma ex_shown s x : shows ex_past s x ->
  s = mk_added (ex_sec 1 4) ex_any 0x1008 8 \/ s = mk_added (ex_sec 0 0x30) ex_any 0x1000 7.
Proof. cbn. tauto. Qed.
Lemma ex_usable : usable ex_files ex_map (snd (after ex_world ex_make)) (fst (fst (after ex_world ex_make))).
Proof.
  rewrite ex_past_ok. split.
  - intros s s' x H H'. apply (shows_unique ex_past s s' x H H').
    apply ex_shown in H, H'. destruct H as [->| ->], H' as [->| ->]; apply compat_refl.
  - intros s s' x x' H H'. apply ex_shown in H, H'. destruct H as [->| ->], H' as [->| ->]; cbn; congruence.
  - intros s x H. apply ex_shown in H. destruct H as [->| ->]; cbn [ad_sec];
      (split; [split; [discriminate|reflexivity]|]);
      apply Forall_forall; intros b Hb; vm_compute in Hb; repeat (destruct Hb as [<-|Hb]; [reflexivity|]); destruct Hb.
  - intros s x H. apply ex_shown in H.
    destruct H as [->| ->]; cbn [ad_sec].
    + exists (MapPosix 0 260 256), 260, 4096, true, true, true. split; [split; [discriminate|reflexivity]|]. split; vm_compute; reflexivity.
    + exists (MapPosix 0 304 256), 304, 4096, true, true, true. split; [split; [discriminate|reflexivity]|]. split; vm_compute; reflexivity.
  - intros s x H. apply ex_shown in H. destruct H as [->| ->]; reflexivity.
  - intros s x H. apply ex_shown in H. destruct H as [->| ->]; split; reflexivity.
Qed.

Definition lib_image : image_if view lib := library_image ex_files ex_map None (made ex_world ex_make).
Definition lib_dec : insndec lib :=
  pt_insn_decoder_init config0 false trace_flow None 0 (repeat 0 65) (made ex_world ex_make).
Definition lib_loop : N * list ((N * iclass * exec_mode) + (evar * bool)) * res N :=
  match insn_sync_step 0 lib_image lib_dec Qs_forward with
  | (d, Ok st) => match drive lib_image 20 d st with (os, _, r) => (st, map sight os, r) end
  | (_, r) => (0, [], r)
  end.
(** The first bytes in two orders of asking. *)
Definition lib_uses : list use := [Use_read ex_any 0x1028 4; Use_find ex_any 0x100a 2; Use_forget; Use_find (ex_q 5) 0x1001 2].
Definition lib_after (us : list use) : res (N * list N) * list N * (N * N) :=
  let s := use_run ex_files ex_map None (made ex_world ex_make) us in
  (snd (use_step ex_files ex_map None s (Use_find (ex_q 5) 0x1006 4)), map en_isid (lb_image s),
   (sn_ucount (lb_world s 0%nat), sn_mcount (lb_world s 0%nat))).

Example C63_ex :
  held ex_refs ex_world /\ callers_may ex_refs (ex_world, []) ex_make /\
  usable ex_files ex_map (snd (after ex_world ex_make)) (fst (fst (after ex_world ex_make))) /\
  (exists mem, memory_of ex_files None (snd (after ex_world ex_make)) mem) /\
  callback_sized config0 /\ (cf_mtc_freq config0 < 24)%N /\ bytes_ok trace_flow /\
  reachable 0 config0 trace_flow (qd_evdec (id_query lib_dec)) /\
  length (rs_stack (id_retstack lib_dec)) = 65%nat /\ id_scache lib_dec = made ex_world ex_make /\
  lib_loop =
    (pts_event_pending,
     [inr (Ev_enabled 4096 true, true); inr (Ev_exec_mode ptem_64bit 4096, true);
      inl (4096, ptic_call, ptem_64bit); inl (4104, ptic_cond_jump, ptem_64bit);
      inl (4107, ptic_return, ptem_64bit); inl (4101, ptic_other, ptem_64bit);
      inl (4102, ptic_far_call, ptem_64bit); inr (Ev_disabled 0, false)],
     Err pte_eos) /\
  proper None (lib_uses ++ [Use_find (ex_q 5) 0x1006 4]) /\
  lib_after [] = (Ok (7, [0x0f; 0x05]), [7; 7; 8], (3, 0)) /\
  lib_after lib_uses = (Ok (7, [0x0f; 0x05]), [7; 8; 7], (4, 1)).
Proof.
  split; [exact ex_held|]. split; [exact ex_make_may|]. split; [exact ex_usable|].
  split; [destruct (C63_memory ex_files ex_map ex_refs ex_world ex_make ex_held ex_make_may ex_usable) as (m & M & _); eauto|].
  split; [exact I|]. split; [reflexivity|].
  split; [repeat (apply Forall_cons; [reflexivity|]); apply Forall_nil|].
  split; [constructor|]. split; [reflexivity|]. split; [reflexivity|]. split; [vm_compute; reflexivity|].
  split; [|split; vm_compute; reflexivity].
  cbn [lib_uses app proper]. repeat split; try discriminate. intros b [= <-]. reflexivity.
Qed.
