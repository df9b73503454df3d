(** Lemmas on the block decoder: synchronising, and the loop. *)

From Coq Require Import List NArith ZArith Bool PeanoNat Lia.
From Verif Require Import Base M_config M_time M_pktdec M_event M_evdec M_query M_retstack M_asid M_ildtab M_ild
  M_insn M_insndec M_blk L_calm S_core S_evdec S_x86 S_insn S_query S_evtrace S_flow S_drive S_blk L_core L_evdec L_evsafe L_evnext
  L_insn T_ild T_insn L_query L_query2 T_evdec T_evtrace L_flow L_flow2 L_flow3 L_flow4 L_flow5 L_flow6 L_blk L_blk2 L_blk3 L_blk4 L_blk5
  L_blk6 L_blk7 L_blk8.
Import ListNotations.
Open Scope N_scope.

Section BLOCKS.
  Context (cf : config) (buf : list N) (base : nat) (err : pte).
  Hypothesis sized : callback_sized cf.
  Hypothesis freq : (cf_mtc_freq cf < 24)%N.
  Hypothesis small : (N.of_nat (length buf) + 1 < 2 ^ 31)%N.
  Hypothesis bytes : bytes_ok buf.
  Hypothesis no_bdm64 : er_bdm64 (cf_errata cf) = false.
  Hypothesis no_skd022 : er_skd022 (cf_errata cf) = false.
  Hypothesis no_skl014 : er_skl014 (cf_errata cf) = false.
  Context {S C : Type} (im : blk_image S C) (mem : asid -> memory) (cached : C -> asid -> Prop).
  Context (content : N -> N -> option N) (at_ : asid -> N -> option place) (mode_of : N -> exec_mode).
  Hypothesis shows : blocks_show im mem cached content at_ mode_of.
  Notation dec := (blkdec C).
  Notation agrees := (agrees cached content mode_of).
  Notation rest := (rest cf buf base err).
  Notation bflows := (bflows mem err).
  Notation sane := (sane mem content at_ mode_of err).
  Notation walking := (walking cf buf base err mem cached content mode_of).
  Context (ex : pte -> Prop).
  Hypothesis ex_ovf : ex pte_overflow.
  Hypothesis ex_lookup : forall c a ip e, cached c a -> snd (im_lookup (bi_image im) c a ip) = Err e ->
    e <> pte_nomap -> ex e.
  Hypothesis ex_inval : forall c a e, cached c a -> snd (im_invalidate (bi_image im) c) = Err e -> ex e.
  Hypothesis ex_alloc : forall k e, snd (bi_alloc im k) = Err e -> ex e.
  Notation gives_up := (gives_up mem err ex).
  Notation errs := (errs err mem cached content mode_of ex).
  Notation ubs := (ubs err mem).
  Notation stopped := (stopped cf buf base err mem cached content at_ mode_of).
  Notation halted := (halted cf buf base err mem cached content mode_of).
  Notation ended := (ended cf buf base err mem cached content mode_of).
  Notation settled := (settled cf buf base err cached content mode_of).
  Notation idle := (idle cf buf base err cached content mode_of).
  Notation pends := (pends cf buf base err im mem cached content mode_of ex).
  Notation between := (between cf buf base err im mem cached content mode_of ex).
  Notation pend_here := (pend_here cf buf base err cached content mode_of).
  Notation pend_cause := (pend_cause cf buf base err cached content mode_of).
  Notation pend_end := (pend_end cf buf base err cached content mode_of).
  Notation goes := (goes cf buf base err im mem cached content mode_of ex).
  Notation pending := M_blk.pending.
  Notation gives := (gives cf buf base err im mem cached content mode_of ex).
  Notation fails := (fails err mem cached content mode_of ex).


  Notation bruns := (bruns mem err).

  (** ** The loop *)

  (** How the loop ends. *)
  Definition outcome (d : dec) (s : fstate) (r : res N) : Prop :=
    match r with
    | Ok st => between d st s
    | Err e => (e = pte_eos -> err = pte_eos /\ fs_held s = None /\ fs_facts s = []) /\ gives_up e s
    | UB u => u = ub_oob_read /\ exists is s1, bflows s (map O_insn is) s1 /\
        rex2_hole (mem (f_asid (fs_flow s1))) (f_mode (fs_flow s1)) (f_ip (fs_flow s1))
    end.

  Lemma drive_ok : forall n d st s, sane s -> between d st s ->
    match blk_drive im n d st with
    | (os, d', r) => exists s', bruns s os s' /\ outcome d' s' r
    end.
  Proof.
    induction n as [|n IH]; intros d st s Hs B.
    { exists s. split; [constructor|exact B]. }
    cbn [blk_drive]. unfold blk_drive1. destruct (flag st pts_event_pending) eqn:Ef.
    - assert (Hp : pends d s) by (destruct B as [_ _ B]; rewrite Ef in B; exact B).
      pose proof (event_ok cf buf base err sized freq small bytes no_bdm64 no_skd022 no_skl014 im mem cached content at_ mode_of shows ex ex_inval d s Hs Hp) as E.
      destruct (pt_blk_event im d) as [[d1 [e|]] [st1|er|u]]; cbn [event_result] in E; try (destruct E; fail).
      + destruct E as (s1 & F & B1). specialize (IH d1 st1 s1 (sane_flow _ _ _ _ _ _ _ _ Hs F) B1).
        destruct (blk_drive im n d1 st1) as [[os d'] r]. destruct IH as (s' & R & O).
        exists s'. split; [|exact O]. cbn [app]. eapply bruns_event; eassumption.
      + destruct E as (Ne & s1 & F & G). exists s1. split; [eapply bruns_event; [exact F|constructor]|]. split; [intros X; destruct (Ne X)|exact G].
      + destruct E as (Ne & G). exists s. split; [constructor|]. split; [intros X; destruct (Ne X)|exact G].
    - assert (Hi : idle d s) by (destruct B as [_ _ B]; rewrite Ef in B; exact B).
      pose proof (next_ok cf buf base err sized freq small bytes no_bdm64 no_skd022 no_skl014 im mem cached content at_ mode_of shows ex ex_ovf ex_lookup ex_alloc d s Hs Hi) as E.
      destruct (pt_blk_next im d) as [[d1 b] [st1|er|u]]; cbn [post] in E.
      + destruct E as (is & s1 & F & X & E1 & E2 & B1).
        specialize (IH d1 st1 s1 (sane_flow _ _ _ _ _ _ _ _ Hs F) B1).
        destruct (blk_drive im n d1 st1) as [[os d'] r]. destruct IH as (s' & R & O).
        exists s'. split; [|exact O]. cbn [app]. eapply bruns_block; eassumption.
      + destruct E as [(_ & Ne & is & s1 & F & X & G)|(-> & E & H1 & H2 & H3 & X)].
        * exists s1. split; [eapply bruns_last; eassumption|]. split; [intros Y; destruct (Ne Y)|exact G].
        * exists s. split; [eapply (bruns_last mem err s b []); [constructor|left; exact X]|]. split; [auto|].
          apply gives_blocked. destruct s as [f h fs]. cbn [fs_flow fs_held fs_facts] in *. subst h fs.
          intros o s' St _. inversion St; subst; cbn [fs_flow] in *; try congruence.
          match goal with K : executing _ _ |- _ => destruct K as (K & _); cbn [fs_flow] in K end. congruence.
      + exists s. split; [constructor|exact E].
  Qed.
End BLOCKS.

(** ** Synchronising *)

Section SYNC.
  Context (cf : config) (buf : list N) (base : nat).
  Hypothesis sized : callback_sized cf.
  Hypothesis freq : (cf_mtc_freq cf < 24)%N.
  Hypothesis small : (N.of_nat (length buf) + 1 < 2 ^ 31)%N.
  Hypothesis bytes : bytes_ok buf.
  Hypothesis no_bdm64 : er_bdm64 (cf_errata cf) = false.
  Hypothesis no_skd022 : er_skd022 (cf_errata cf) = false.
  Context {S C : Type} (im : blk_image S C) (mem : asid -> memory) (cached : C -> asid -> Prop).
  Context (content : N -> N -> option N) (at_ : asid -> N -> option place) (mode_of : N -> exec_mode).
  Context (ex : pte -> Prop).
  Notation dec := (blkdec C).
  Notation Reach := (reachable base cf buf).

  (** The two ways to synchronise that do not go backwards. *)
  Inductive blk_sync_op := Bs_forward | Bs_set (offset : N).
  Definition blk_sync_step (d : dec) (o : blk_sync_op) : dec * res N :=
    match o with
    | Bs_forward => pt_blk_sync_forward im base d
    | Bs_set off => pt_blk_sync_set im off d
    end.

  (** The same for an event decoder. *)
  Definition evt_sync_step (q : evdec) (o : blk_sync_op) : evdec * res unit :=
    match o with
    | Bs_forward => pt_evt_sync_forward base q
    | Bs_set off => pt_evt_sync_set off q
    end.

  Definition started (q : evdec) (r : dec * res N) : Prop :=
    match r with
    | (d', Err e) => exists evs err, fresh cf buf base q evs err /\
        (e = err /\ Forall (fun ev => ev_status_update ev = true) evs \/
         exists ip, starts q evs ip /\
           (Forall plain_event evs ->
            sane mem content at_ mode_of err (mk_fstate (flow0 ip) None (flat_map facts_of evs)) ->
            gives_up mem err ex e (mk_fstate (flow0 ip) None (flat_map facts_of evs))))
    | (d', r) => exists evs err ip, fresh cf buf base q evs err /\ starts q evs ip /\
        (Forall plain_event evs ->
         sane mem content at_ mode_of err (mk_fstate (flow0 ip) None (flat_map facts_of evs)) ->
         match r with
         | Ok st => exists s, bflows mem err (mk_fstate (flow0 ip) None (flat_map facts_of evs)) [] s /\
                              between cf buf base err im mem cached content mode_of ex d' st s
         | _ => False
         end)
    end.

  Lemma fresh_tnt q evs err : fresh cf buf base q evs err -> Forall tnt_ok evs.
  Proof.
    intros F. eapply Forall_impl; [|eapply fresh_full; eassumption].
    intros e. unfold full, is_tnt, bits_of, tnt_ok. destruct (ev_var e); auto. intros H.
    destruct (H eq_refl) as (H1 & _). assert (L := payload_length bits size). destruct (payload_bits bits size); [congruence|].
    cbn in L. clear - L. lia.
  Qed.

  Lemma start_ok (d0 : dec) q : Reach q -> (exists q0 o, Reach q0 /\ evt_step base q0 o = (q, Ok None)) ->
    length (rs_stack (bd_retstack d0)) = 65%nat -> cached (bd_scache d0) pt_asid_init -> caches_ok content mode_of (bd_caches d0) ->
    bd_ticks d0 = false ->
    started q (pt_blk_start im (bd_set_evdec (pt_blk_reset d0) q)).
  Proof.
    intros Hr (q0 & o & Hq0 & Eo) Hl Hc Hcs Ht. unfold pt_blk_start.
    cbn [bd_evdec bd_set_evdec].
    pose proof (reachable_ok cf buf sized freq small bytes base _ Hr) as Hok.
    destruct (stream_exists cf buf sized freq small _ Hok) as (evs & err & Hst).
    assert (Hf : fresh cf buf base q evs err) by (exists q0, o; auto).
    assert (Hb : pd_buf (ed_pd q) = buf) by (destruct Hok as ((_ & B & _) & _); exact B).
    rewrite Hb.
    pose proof (left_bound cf buf freq small _ Hok) as Hlb.
    assert (Hlt : (left_ buf q < 18 * (3 + length buf))%nat) by (clear - Hlb; lia).
    pose proof (start_loop_found cf buf sized freq small (evt_pos q) _ _ _ _ Hok Hlt Hst) as Hfound.
    destruct (start_loop _ _ _) as [ip|e|u] eqn:El; [|exists evs, err; split; [exact Hf|left; exact Hfound]|destruct Hfound].
    assert (Hss : starts q evs ip).
    { split; [exact (start_loop_first _ _ _ _ El)|]. destruct ip; [|exact I]. destruct Hfound as (pre & e & post & A & B & b & D). exists pre, e, post, b. auto. }
    set (d := match ip with Some a => _ | None => _ end).
    assert (Hd : agrees cached content mode_of d (flow0 ip) /\ bd_ip d = f_ip (flow0 ip) /\ closed d /\ bd_event d = None).
    { unfold d. destruct ip; (split; [constructor; cbn; try reflexivity; try assumption; apply rs_rep_init; exact Hl|]);
        repeat split. }
    clearbody d. destruct Hd as (Ha & Hi & Hcl & He).
    assert (Hcfg : forall q' r, pt_evt_next q = (q', r) -> Reach q' /\ ed_config q' = cf).
    { intros q' r E. pose proof (next_reach cf buf sized freq small bytes base _ _ _ Hr E) as R. split; [exact R|].
      destruct (reachable_ok cf buf sized freq small bytes base _ R) as ((K & _) & _). exact K. }
    assert (G : forall d1 h fs, agrees cached content mode_of d1 (flow0 ip) -> bd_ip d1 = f_ip (flow0 ip) -> closed d1 ->
              fullness d1 -> (Forall plain_event evs -> rest cf buf base err d1 h fs) ->
              (Forall plain_event evs ->
               bflows mem err (mk_fstate (flow0 ip) None (flat_map facts_of evs)) [] (mk_fstate (flow0 ip) h fs)) ->
              started q (without_block (pt_blk_proceed_trailing_event im false) d1)).
    { intros d1 h fs A1 I1 C1 F1 R1 Fl. unfold without_block.
      pose proof (fun Hp Hs => trailing_ok cf buf base err sized freq small bytes no_bdm64 no_skd022 im mem cached content at_ mode_of ex
          false d1 (new_block 0 ptem_unknown false) (flow0 ip) h fs (sane_flow _ _ _ _ _ _ _ _ Hs (Fl Hp)) A1 (R1 Hp) (or_introl F1)
          (phase_next d1 (flow0 ip) eq_refl I1 C1)) as P.
      destruct (pt_blk_proceed_trailing_event im false _) as [[d2 b2] [st|er|u]]; cbn [started].
      - exists evs, err, ip. split; [exact Hf|]. split; [exact Hss|]. intros Hp Hs.
        destruct (P Hp Hs) as (_ & s & F & B). exists s. split; [|exact B].
        exact (bflows_app _ _ _ [] _ [] _ (Fl Hp) F).
      - exists evs, err. split; [exact Hf|]. right. exists ip. split; [exact Hss|]. intros Hp Hs.
        destruct (P Hp Hs) as (_ & _ & X). eapply gives_later; [exact (Fl Hp)|exact X].
      - exists evs, err, ip. split; [exact Hf|]. split; [exact Hss|]. intros Hp Hs. exact (P Hp Hs). }
    pose proof (fresh_tnt _ _ _ Hf) as Hto.
    inversion Hst as [q1 q' e E|q1 q' ev evs' e E Hst']; subst; rewrite E; destruct (Hcfg _ _ E) as (Rq & Cq).
    - apply (G _ None []).
      + apply agrees_status, agrees_evdec, Ha.
      + exact Hi.
      + exact Hcl.
      + unfold fullness. cbn. rewrite He. exact I.
      + intros _. split; [exact Cq|]. cbn. rewrite He. auto.
      + intros _. constructor.
    - inversion Hto; subst. apply (G _ (fst (parted ev evs')) (snd (parted ev evs'))).
      + apply agrees_status, agrees_evdec, Ha.
      + exact Hi.
      + exact Hcl.
      + assumption.
      + intros Hp. inversion Hp; subst. split; [exact Cq|]. cbn. exists ev, evs'. split; [reflexivity|]. split; [assumption|].
        split; [split; [assumption|]; split; [assumption|]; split; assumption|]. destruct (parted ev evs'). reflexivity.
      + intros Hp. inversion Hp; subst. apply parted_flow; assumption.
  Qed.

  Lemma sync_ok (d : dec) o : Reach (bd_evdec d) -> length (rs_stack (bd_retstack d)) = 65%nat ->
    cached (bd_scache d) pt_asid_init -> caches_ok content mode_of (bd_caches d) -> bd_ticks d = false ->
    match evt_sync_step (bd_evdec d) o, blk_sync_step d o with
    | (q, Ok _), r => started q r
    | (q, Err e), (_, r) => r = Err e
    | (_, UB _), _ => False
    end.
  Proof.
    intros Hr Hl Hc Hcs Ht.
    assert (G : forall f eo, (forall d, evt_step base d eo = (fst (f d), let* _ := snd (f d) in Ok None)) ->
      (forall n, eo <> Evt_sync_backward n) ->
      match f (bd_evdec d), blk_sync im f d with
      | (q, Ok _), r => started q r
      | (q, Err e), (_, r) => r = Err e
      | (_, UB _), _ => False
      end).
    { intros f eo Ho Hn. unfold blk_sync. change (bd_evdec (pt_blk_reset d)) with (bd_evdec d).
      destruct (f (bd_evdec d)) as [q r] eqn:E.
      pose proof (evt_step_sync cf buf sized freq small bytes base f _ q r eo Hr E Ho) as K. destruct r as [[]|e|u].
      - destruct K as (K1 & K2). apply start_ok; assumption.
      - reflexivity.
      - destruct K as (_ & n & K). destruct (Hn n K). }
    destruct o as [|off].
    - apply (G _ Evt_sync_forward); [reflexivity|discriminate].
    - apply (G _ (Evt_sync_set off)); [reflexivity|discriminate].
  Qed.
End SYNC.
