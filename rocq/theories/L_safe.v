(** Lemmas for C68: no undefined behaviour in what both decoders use, and in the instruction flow
    decoder. *)

From Coq Require Import List NArith ZArith Bool PeanoNat Lia.
From Verif Require Import Base M_config M_time M_pktdec M_event M_evdec M_query M_retstack M_asid M_ildtab M_ild
  M_insn M_insndec M_blk S_core S_x86 S_evdec S_query S_safe L_core L_ild L_ild2 L_ild6 L_insn L_query L_query2 T_query.
Import ListNotations.
Open Scope N_scope.

(** ** The return stack *)

Definition rs_ok (r : retstack) : Prop :=
  (length (rs_stack r) = 65 /\ rs_top r < 65 /\ rs_bottom r < 65)%nat.

Lemma rs_init_ok r : rs_ok r -> rs_ok (pt_retstack_init (rs_stack r)).
Proof. intros (H & _). repeat split; cbn; lia. Qed.

Lemma push_ok r ip : rs_ok r -> rs_ok (fst (pt_retstack_push r ip)) /\ forall u, snd (pt_retstack_push r ip) <> UB u.
Proof.
  intros (H & T & B). unfold pt_retstack_push. destruct (Nat.leb_spec (length (rs_stack r)) (rs_top r)); [lia|].
  cbn [fst snd]. split; [|discriminate]. unfold rs_ok. cbn [rs_stack rs_top rs_bottom]. rewrite set_at_length by lia.
  unfold pt_retstack_size.
  destruct (Nat.eqb_spec (rs_top r) 64);
    (match goal with |- context [Nat.eqb ?a ?b] => destruct (Nat.eqb_spec a b) end);
    try (destruct (Nat.eqb_spec (rs_bottom r) 64)); lia.
Qed.

Lemma pop_ok r : rs_ok r -> rs_ok (fst (pt_retstack_pop r)) /\ forall u, snd (pt_retstack_pop r) <> UB u.
Proof.
  intros (H & T & B). unfold pt_retstack_pop. destruct (Nat.eqb_spec (rs_top r) (rs_bottom r)); cbn [fst snd].
  - repeat split; try assumption. discriminate.
  - set (t := match rs_top r with O => _ | _ => _ end).
    assert (Ht : (t < 65)%nat) by (unfold t, pt_retstack_size; destruct (rs_top r); lia).
    split; [repeat split; cbn; assumption|]. intros u. unfold rd.
    destruct (nth_error (rs_stack r) t) eqn:E; [discriminate|]. apply nth_error_None in E. lia.
Qed.

Lemma next_ip_ok i x u : pt_insn_next_ip i x <> UB u.
Proof. unfold pt_insn_next_ip. destruct (in_iclass i), (is_jmpabs x), (x_direct x); discriminate. Qed.

Lemma at_disabled_ok ev ip i x cf u : pt_insn_at_disabled_event ev ip i x cf <> UB u.
Proof.
  unfold pt_insn_at_disabled_event. destruct (ev_ip_suppressed ev).
  - match goal with |- (if ?b then _ else _) <> _ => destruct b end; discriminate.
  - destruct (in_iclass i), (x_direct x && negb (is_jmpabs x)); discriminate.
Qed.

(** ** Decoding an instruction *)

Section IMAGE.
  Context {S C : Type} (im : image_if S C) (held : C -> Prop) (sec : S -> Prop).
  Hypothesis Ht : tame im held sec.

  Definition stopped (u : ub) : Prop := u = ub_oob_read /\ rex2_text im.

  Definition raw_ok (i : insn) : Prop := length (in_raw i) = 15%nat /\ bytes_ok (in_raw i).
  Lemma new_raw ip m b : raw_ok (new_insn ip m b).
  Proof.
    split; [reflexivity|]. cbn [in_raw new_insn]. unfold bytes_ok. apply Forall_forall. intros x Hx.
    apply repeat_spec in Hx. subst x. reflexivity.
  Qed.

  (** The bytes read so far. *)
  Definition has (a : asid) (i : insn) : Prop :=
    raw_ok i /\ (in_size i <= 15)%nat /\ text im a (in_ip i) (firstn (in_size i) (in_raw i)).

  Lemma decode_text_safe a i : has a i ->
    match decode_text i with
    | (i', UB u) => stopped u
    | (i', r) => raw_ok i' /\ (r = Err pte_bad_insn -> has a i' /\ in_size i' = in_size i)
    end.
  Proof.
    intros ((L & B) & Z & T). unfold decode_text.
    destruct (ild_any (in_mode i) (in_raw i) (in_size i) B ltac:(lia)) as [(_ & [(n & [c x] & E & Hn)|E])|(R & E)]; rewrite E.
    - split; [split; assumption|discriminate].
    - split; [split; assumption|]. intros _. split; [|reflexivity]. split; [split; assumption|]. split; [exact Z|exact T].
    - split; [reflexivity|]. destruct R as (Hm & Hl & pfx & p & Er & Hp).
      assert (Em : in_mode i = ptem_64bit) by (destruct (in_mode i); try discriminate Hm; reflexivity).
      rewrite Em in Hp. exists a, (in_ip i), pfx, p. rewrite <- Hl in T. rewrite firstn_all in T.
      rewrite Er in T. split; [exact T|]. split; [|exact Hp].
      rewrite Er, app_length in L. cbn in L. lia.
  Qed.

  Lemma retry_safe a : forall fuel i, has a i -> (15 < fuel + in_size i)%nat ->
    match pt_insn_decode_retry (im_read im) a fuel i with
    | (i', UB u) => stopped u
    | (i', _) => raw_ok i'
    end.
  Proof.
    induction fuel as [|fuel IH]; intros i H Hf; [destruct H as (_ & Z & _); lia|].
    cbn [pt_insn_decode_retry]. destruct H as ((L & B) & Z & T).
    destruct (Nat.eqb_spec (15 - in_size i) 0); [split; assumption|].
    pose proof (tm_read im held sec Ht a (add64 (in_ip i) (N.of_nat (in_size i))) (15 - in_size i) ltac:(lia)) as G.
    destruct (im_read im a _ _) as [[isid bs]|e|u] eqn:E; [|destruct e; split; assumption|destruct G].
    destruct G as (Gl & Gb). cbn [snd] in Gl, Gb. destruct bs as [|b0 bs']; [split; assumption|].
    remember (b0 :: bs') as bs eqn:Ebs. assert (Hbs : (1 <= length bs)%nat) by (subst bs; cbn; lia). clear Ebs b0 bs'.
    set (i1 := in_set_text i _ _).
    assert (H1 : has a i1).
    { unfold i1, has, raw_ok. cbn [in_set_text in_raw in_size in_ip]. rewrite put_raw_length by lia.
      split; [split; [exact L|apply put_raw_bytes; assumption]|]. split; [lia|].
      rewrite put_raw_firstn by lia. econstructor 3; [exact T|].
      rewrite firstn_length, Nat.min_l by lia. exact E. }
    pose proof (decode_text_safe a i1 H1) as D. destruct (decode_text i1) as [i2 [x|e|u]]; [destruct D as (D & _); exact D| |exact D].
    destruct D as (D1 & D2). destruct e; try exact D1.
    destruct (D2 eq_refl) as (D3 & D4). rewrite D4, Nat.eqb_refl. cbn [negb]. apply IH; [exact D3|].
    rewrite D4. unfold i1. cbn [in_set_text in_size]. lia.
  Qed.

  Lemma decode_safe a i : raw_ok i ->
    match pt_insn_decode (im_read im) a i with
    | (i', UB u) => stopped u
    | (i', _) => raw_ok i'
    end.
  Proof.
    intros (L & B). unfold pt_insn_decode.
    pose proof (tm_read im held sec Ht a (in_ip i) 15 ltac:(lia)) as G.
    destruct (im_read im a _ _) as [[isid bs]|e|u] eqn:E; [|split; assumption|destruct G].
    destruct G as (Gl & Gb). cbn [snd] in Gl, Gb. set (i1 := in_set_text _ _ _).
    assert (H1 : has a i1).
    { unfold i1, has, raw_ok. cbn [in_set_text in_set_isid in_raw in_size in_ip]. rewrite put_raw_length by lia.
      split; [split; [exact L|apply put_raw_bytes; assumption]|]. split; [lia|].
      pose proof (put_raw_firstn (in_raw i) 0 bs ltac:(lia)) as F. cbn [Nat.add firstn app] in F. rewrite F.
      econstructor 1. exact E. }
    pose proof (decode_text_safe a i1 H1) as D. destruct (decode_text i1) as [i2 [x|e|u]]; [destruct D as (D & _); exact D| |exact D].
    destruct D as (D1 & D2). destruct e; try exact D1.
    destruct (D2 eq_refl) as (D3 & D4). rewrite D4, Nat.eqb_refl. cbn [negb]. apply retry_safe; [exact D3|]. lia.
  Qed.

  Lemma section_safe (a : asid) s i : sec s -> raw_ok i ->
    match im_sread im s (in_ip i) 15 with
    | UB u => False
    | Err _ => True
    | Ok bs =>
        match decode_text (in_set_text i (put_raw (in_raw i) 0 bs) (length bs)) with
        | (i', UB u) => stopped u
        | (i', _) => raw_ok i'
        end
    end.
  Proof.
    intros Hs (L & B). pose proof (tm_sread im held sec Ht s (in_ip i) Hs) as G.
    destruct (im_sread im s _ _) as [bs|e|u] eqn:E; [|exact I|destruct G]. destruct G as (Gl & Gb).
    set (i1 := in_set_text _ _ _).
    assert (H1 : has a i1).
    { unfold i1, has, raw_ok. cbn [in_set_text in_raw in_size in_ip]. rewrite put_raw_length by lia.
      split; [split; [exact L|apply put_raw_bytes; assumption]|]. split; [lia|].
      pose proof (put_raw_firstn (in_raw i) 0 bs ltac:(lia)) as F. cbn [Nat.add firstn app] in F. rewrite F.
      exact (tx_section im a _ s bs E). }
    pose proof (decode_text_safe a i1 H1) as D. destruct (decode_text i1) as [i2 [x|e|u]]; [destruct D as (D & _); exact D|destruct D as (D & _); exact D|exact D].
  Qed.

  Lemma range_safe a : forall steps i end_ u, raw_ok i -> range_loop (im_read im) a steps i end_ = UB u -> stopped u.
  Proof.
    induction steps as [|steps IH]; intros i end_ u Hi; cbn [range_loop]; (destruct (in_ip i =? end_); [discriminate|]); [discriminate|].
    pose proof (decode_safe a i Hi) as D. destruct (pt_insn_decode (im_read im) a i) as [i1 [x|e|u1]].
    - pose proof (next_ip_ok i1 x) as N. destruct (pt_insn_next_ip i1 x) as [ip|e|u1]; cbn [Base.bind]; [|discriminate|].
      + intros E. eapply IH; [|exact E]. exact D.
      + destruct (N u1 eq_refl).
    - discriminate.
    - intros E. injection E as <-. exact D.
  Qed.
  Lemma contiguous_safe a b e m steps u : pt_insn_range_is_contiguous (im_read im) a b e m steps = UB u -> stopped u.
  Proof. apply range_safe. apply new_raw. Qed.
End IMAGE.

(** ** The instruction flow decoder *)

Section INSN.
  Context (cf : config) (buf : list N) (base : nat).
  Hypothesis sized : callback_sized cf.
  Hypothesis freq : (cf_mtc_freq cf < 24)%N.
  Hypothesis small : (N.of_nat (length buf) + 1 < 2 ^ 31)%N.
  Hypothesis bytes : bytes_ok buf.
  Context {S C : Type} (im : image_if S C) (held : C -> Prop) (sec : S -> Prop).
  Hypothesis Ht : tame im held sec.
  Notation dec := (insndec C).

  Record fit (d : dec) : Prop := {
    ft_query : qry_reachable base cf buf (id_query d);
    ft_stack : rs_ok (id_retstack d);
    ft_held : held (id_scache d) }.

  Definition good {A} (r : dec * res A) : Prop :=
    match r with
    | (d, UB u) => stopped im u
    | (d, _) => fit d
    end.

  Lemma good_ok {A} d (a : A) : fit d -> good (d, Ok a).
  Proof. auto. Qed.
  Lemma good_err {A} d e : fit d -> @good A (d, Err e).
  Proof. auto. Qed.

  Ltac fits := match goal with H : fit _ |- fit _ => solve [destruct H; constructor; cbn; assumption] end.

  Lemma query_safe q o : qry_reachable base cf buf q ->
    qry_reachable base cf buf (fst (qry_step q o)) /\ answer_ub (snd (qry_step q o)) = None.
  Proof.
    intros H. split; [|apply (C34_safe cf buf base sized freq small bytes q H)].
    destruct (qry_step q o) eqn:E. eapply qreach_query; eassumption.
  Qed.

  Lemma tick_safe d ip : fit d -> good (pt_insn_tick d ip).
  Proof.
    intros F. unfold pt_insn_tick. destruct (negb _); [exact F|]. destruct (id_process_event d); [exact F|].
    destruct (pt_qry_time (id_query d)) as [[[tsc lm] lc] r] eqn:E.
    assert (U : forall u, r <> UB u).
    { intros u ->. revert E. unfold pt_qry_time, pt_time_query_tsc. repeat match goal with |- context [match ?x with _ => _ end] => destruct x end; discriminate. }
    destruct r as [v|e|u]; [| |destruct (U u eq_refl)].
    - destruct (match id_event d with Some _ => _ | None => _ end); [exact F|]. apply good_ok. fits.
    - destruct e; try exact F. destruct (match id_event d with Some _ => _ | None => _ end); [exact F|]. apply good_ok. fits.
  Qed.
  Lemma maybe_tick_safe d ip : fit d -> good (maybe_tick d ip).
  Proof.
    intros F. unfold maybe_tick. destruct (id_ticks d); [|exact F].
    pose proof (tick_safe d ip F) as G. destruct (pt_insn_tick d ip) as [d' [v|e|u]]; exact G.
  Qed.

  (** The rest of the function after a call that is good. *)
  Lemma good_then {A B} (m : dec * res A) (k : dec -> A -> dec * res B) (h : dec -> pte -> dec * res B) :
    good m -> (forall d a, fit d -> good (k d a)) -> (forall d e, fit d -> good (h d e)) ->
    good (match m with (d, Ok a) => k d a | (d, Err e) => h d e | (d, UB u) => (d, UB u) end).
  Proof. intros G K H. destruct m as [d [a|e|u]]; cbn in G; auto. Qed.

  Ltac chop := match goal with |- good (match ?x with _ => _ end) => destruct x end.
  Ltac done := cbn [good] in *; first [fits | assumption | apply good_ok; fits | apply good_err; fits | apply good_ok; assumption | apply good_err; assumption].

  Lemma indirect_safe d : fit d -> good (pt_insn_indirect_branch d).
  Proof.
    intros F. unfold pt_insn_indirect_branch.
    destruct (query_safe (id_query d) Q_indirect (ft_query d F)) as (R & U). cbn [qry_step] in R, U.
    destruct (pt_qry_indirect_branch (id_query d)) as [q [[ip st]|e|u]]; cbn [fst snd answer_ub] in R, U; [| |discriminate U].
    - set (d1 := match ip with Some a => _ | None => _ end).
      assert (F1 : fit d1) by (destruct F; unfold d1; destruct ip; constructor; cbn; assumption).
      apply (good_then _ (fun d _ => (d, Ok st)) (fun d e => (d, Err e))); [apply maybe_tick_safe; exact F1|intros; done|intros; done].
    - apply good_err. destruct F. constructor; cbn; assumption.
  Qed.
  Lemma cond_safe d : fit d -> good (pt_insn_cond_branch d).
  Proof.
    intros F. unfold pt_insn_cond_branch.
    destruct (query_safe (id_query d) Q_cond (ft_query d F)) as (R & U). cbn [qry_step] in R, U.
    destruct (pt_qry_cond_branch (id_query d)) as [q [[t st]|e|u]]; cbn [fst snd answer_ub] in R, U; [| |discriminate U].
    - assert (F1 : fit (id_set_query d q)) by (destruct F; constructor; cbn; assumption).
      apply (good_then _ (fun d _ => (d, Ok (t, st))) (fun d e => (d, Err e))); [apply maybe_tick_safe; exact F1|intros; done|intros; done].
    - apply good_err. destruct F. constructor; cbn; assumption.
  Qed.
  Lemma event_pending_safe d : fit d -> good (event_pending d).
  Proof.
    intros F. unfold event_pending. chop; [done|]. chop; [done|].
    destruct (query_safe (id_query d) Q_event (ft_query d F)) as (R & U). cbn [qry_step] in R, U.
    destruct (pt_qry_event (id_query d)) as [q [[ev st]|e|u]]; cbn [fst snd answer_ub] in R, U; [| |discriminate U];
      destruct F; constructor; cbn; assumption.
  Qed.

  Lemma skd022_safe d ev ip : fit d -> good (handle_erratum_skd022 im d ev ip).
  Proof.
    intros F. unfold handle_erratum_skd022, check_erratum_skd022.
    pose proof (decode_safe im held sec Ht (id_asid d) _ (new_raw (id_ip d) (id_mode d) false)) as D.
    destruct (pt_insn_decode _ _ _) as [i [x|e|u]]; [|done|exact D].
    destruct (match x_inst x with PTI_VMLAUNCH | PTI_VMRESUME => true | _ => false end); done.
  Qed.

  Lemma trig_safe d ip : fit d -> good (pt_insn_update_trig d ip).
  Proof. intros F. unfold pt_insn_update_trig. repeat chop; done. Qed.

  Lemma branch_safe d i x : fit d -> good (proceed_branch d i x).
  Proof.
    intros F. unfold proceed_branch. chop.
    - apply trig_safe. fits.
    - apply (good_then _ (fun d status => let d := id_set_status d status in
          if flag status pts_ip_suppressed then (d, Err pte_noip) else (anchor d, Ok tt)) (fun d e => (d, Err e)));
        [apply indirect_safe; exact F| |intros; done].
      intros d1 st F1. cbv zeta. destruct (flag st pts_ip_suppressed); done.
  Qed.

  Lemma proceed_safe d i x : fit d -> good (pt_insn_proceed d i x).
  Proof.
    intros F0. unfold pt_insn_proceed. set (d1 := id_set_ip d _). assert (F : fit d1) by (unfold d1; fits). clearbody d1. clear d F0.
    destruct (in_iclass i); try (apply branch_safe; exact F); try (apply trig_safe; exact F).
    - done.
    - destruct (negb _ || negb _); [|apply branch_safe; exact F].
      destruct (push_ok (id_retstack d1) (id_ip d1) (ft_stack d1 F)) as (P & U).
      destruct (pt_retstack_push (id_retstack d1) (id_ip d1)) as [r [v|e|u]]; cbn [fst snd] in P, U; [| |destruct (U u eq_refl)];
        (apply branch_safe; destruct F; constructor; cbn; assumption).
    - pose proof (cond_safe d1 F) as G. destruct (pt_insn_cond_branch d1) as [d2 [[t st]|e|u]]; [|apply branch_safe; exact G|exact G].
      cbn [good] in G. cbv zeta. destruct (negb t); [done|]. cbn [id_retstack id_set_status].
      destruct (pop_ok (id_retstack d2) (ft_stack d2 G)) as (P & U).
      destruct (pt_retstack_pop (id_retstack d2)) as [r [v|e|u]]; cbn [fst snd] in P, U; [| |destruct (U u eq_refl)];
        (destruct G; constructor; cbn; assumption).
    - pose proof (cond_safe d1 F) as G. destruct (pt_insn_cond_branch d1) as [d2 [[t st]|e|u]]; [|exact G|exact G].
      cbn [good] in G. cbv zeta. destruct t; done.
  Qed.

  Lemma proceed_postponed_safe d : fit d -> good (pt_insn_proceed_postponed d).
  Proof.
    intros F. unfold pt_insn_proceed_postponed. destruct (id_postponed d) as [[i x]|]; [|done]. chop; [done|].
    pose proof (proceed_safe d i x F) as G. destruct (pt_insn_proceed d i x) as [d1 [v|e|u]]; [done|done|exact G].
  Qed.

  Lemma bind_safe d i x a h b : fit d -> good (bind_event d i x a h b).
  Proof. intros F. unfold bind_event, pt_insn_postpone. repeat chop; done. Qed.

  Lemma check_insn_safe d i x : fit d -> good (pt_insn_check_insn_event d i x).
  Proof.
    intros F0. unfold pt_insn_check_insn_event. pose proof (event_pending_safe d F0) as G.
    destruct (event_pending d) as [d1 [[]|e|u]]; try exact G. clear F0. cbn [good] in G.
    destruct (id_event d1) as [ev|]; [|done]. cbv zeta.
    destruct (ev_var ev); try done; try (apply bind_safe; exact G).
    chop; [done|].
    match goal with |- context [pt_insn_at_disabled_event ?a ?b ?c ?e ?f] =>
      pose proof (at_disabled_ok a b c e f) as U; destruct (pt_insn_at_disabled_event a b c e f) as [[]|e1|u] end;
      [|done|done|destruct (U u eq_refl)].
    pose proof (next_ip_ok i x) as N. destruct (pt_insn_next_ip i x) as [ip'|e|u]; [done| |destruct (N u eq_refl)].
    destruct e; cbv zeta; done.
  Qed.

  Lemma indicate_safe d b : fit d -> good (M_insndec.indicate d b).
  Proof. intros F. apply good_ok. exact F. Qed.

  Lemma check_ip_safe d oi : fit d -> good (pt_insn_check_ip_event im d oi).
  Proof.
    intros F0. unfold pt_insn_check_ip_event. pose proof (event_pending_safe d F0) as G.
    destruct (event_pending d) as [d1 [[]|e|u]]; try exact G. clear F0. cbn [good] in G.
    destruct (id_event d1) as [ev|]; [|done]. cbv zeta.
    destruct (ev_var ev) eqn:Ev; try (apply indicate_safe; exact G); try done;
      try (destruct (ev_ip_suppressed ev); [apply indicate_safe; exact G|done]).
    - chop; [apply indicate_safe; exact G|]. chop; [|apply indicate_safe; exact G].
      apply (good_then _ (fun d hit => M_insndec.indicate d (negb hit)) (fun d e => (d, Err e))); [apply skd022_safe; exact G|intros; apply indicate_safe; assumption|intros; done].
    - apply (good_then _ (fun d later => M_insndec.indicate d (negb later)) (fun d e => (d, Err e))); [|intros; apply indicate_safe; assumption|intros; done].
      unfold pt_insn_postpone_tsx. chop; [done|].
      apply (good_then _ (fun d (_ : unit) => (d, Ok (negb (id_ip d =? ip)))) (fun d e => (d, Err e))); [|intros; done|intros; done].
      destruct oi as [i|]; [|done]. chop; [|done]. unfold handle_erratum_bdm64. chop; [done|]. chop; [done|].
      match goal with |- context [pt_insn_range_is_contiguous ?f ?a ?b ?c ?m ?n] =>
        pose proof (fun u => contiguous_safe im held sec Ht a b c m n u) as U; destruct (pt_insn_range_is_contiguous f a b c m n) as [[]|e1|u] end;
        [done|done|done|exact (U u eq_refl)].
    - unfold check_trig. chop; [apply indicate_safe; exact G|].
      match goal with |- context [if ?b then (if ?c then Err pte_bad_packet else (if ?g then _ else _)) else _] =>
        destruct b; [destruct c; [done|destruct g; [done|]]|] end;
        (chop; apply indicate_safe; done).
  Qed.

  Lemma sync_safe d o : fit d ->
    match insn_call im base d (I_sync o) with
    | (d', UB u) => stopped im u \/ (u = ub_fuel /\ exists n, o = Qs_backward n)
    | (d', _) => fit d'
    end.
  Proof.
    intros F. cbn [insn_call]. unfold insn_sync.
    assert (F1 : fit (pt_insn_reset d)).
    { destruct F. constructor; cbn; [assumption|apply rs_init_ok; assumption|assumption]. }
    pose proof (proj1 (C34_safe cf buf base sized freq small bytes _ (ft_query _ F1)) o) as U.
    destruct (qry_sync_step base (id_query (pt_insn_reset d)) o) as [q [[ip st]|e|u]] eqn:E; cbn [snd] in U.
    - assert (R : qry_reachable base cf buf q) by (eapply qreach_sync; [exact (ft_query _ F1)|exact E|discriminate]).
      unfold pt_insn_start. set (d1 := match ip with Some a => _ | None => _ end).
      assert (F2 : fit d1) by (destruct F1; unfold d1; destruct ip; constructor; cbn; assumption).
      set (d2 := if flag st pts_ip_suppressed then _ else _).
      assert (F3 : fit d2) by (unfold d2; destruct (flag st pts_ip_suppressed); destruct F2; constructor; cbn; assumption).
      pose proof (check_ip_safe d2 None F3) as G. destruct (pt_insn_check_ip_event im d2 None) as [d3 [v|e|u]]; [exact G|exact G|left; exact G].
    - assert (R : qry_reachable base cf buf q) by (eapply qreach_sync; [exact (ft_query _ F1)|exact E|discriminate]).
      destruct F1. constructor; cbn; assumption.
    - right. apply U. reflexivity.
  Qed.

  Lemma cached_safe d s i : (forall m, s = Some m -> sec m) -> raw_ok i ->
    match pt_insn_decode_cached im d s i with
    | (i', UB u) => stopped im u
    | (i', _) => True
    end.
  Proof.
    intros Hs Hi. unfold pt_insn_decode_cached.
    assert (W : forall i, raw_ok i -> match pt_insn_decode (im_read im) (id_asid d) i with (i', UB u) => stopped im u | (i', _) => True end).
    { intros j Hj. pose proof (decode_safe im held sec Ht (id_asid d) j Hj) as D. destruct (pt_insn_decode _ _ j) as [j' [x|e|u]]; auto. }
    destruct s as [m|]; [|apply W; exact Hi].
    pose proof (section_safe im held sec Ht (id_asid d) m i (Hs m eq_refl) Hi) as D.
    destruct (im_sread im m (in_ip i) 15) as [bs|e|u]; [|destruct e; try exact I; apply W; exact Hi|destruct D].
    destruct (decode_text _) as [i' [x|e|u]]; [exact I| |exact D].
    destruct e; try exact I. apply W. exact D.
  Qed.

  Lemma insn_next_safe d : fit d -> good (insn_call im base d I_next).
  Proof.
    intros F. cbn [insn_call]. unfold pt_insn_next. destruct (negb (id_enabled d)); [exact F|].
    pose proof (tm_lookup im held sec Ht (id_scache d) (id_asid d) (id_ip d) (ft_held d F)) as L.
    destruct (im_lookup im (id_scache d) (id_asid d) (id_ip d)) as [c l].
    assert (K : forall s i, (forall m, s = Some m -> sec m) -> raw_ok i -> held c ->
      good (let '(d, _, r) := match pt_insn_decode_cached im (id_set_scache d c) s i with
        | (i, Err e) => (id_set_scache d c, Some i, Err e)
        | (i, UB u) => (id_set_scache d c, Some i, UB u)
        | (i, Ok x) =>
            match pt_insn_check_insn_event (id_set_scache d c) i x with
            | (d, Err e) => (d, Some i, Err e)
            | (d, UB u) => (d, Some i, UB u)
            | (d, Ok status) =>
                if flag status pts_event_pending then (d, Some i, Ok status) else
                match pt_insn_proceed d i x with
                | (d, Err e) => (d, Some i, Err e)
                | (d, UB u) => (d, Some i, UB u)
                | (d, Ok _) =>
                    let (d, r) := pt_insn_check_ip_event im d (Some i) in (d, Some i, r)
                end
            end
        end in (d, r))).
    { intros s i Hs Hi Hc. assert (F1 : fit (id_set_scache d c)) by (destruct F; constructor; cbn; assumption).
      pose proof (cached_safe (id_set_scache d c) s i Hs Hi) as D.
      destruct (pt_insn_decode_cached im (id_set_scache d c) s i) as [i' [x|e|u]]; [|exact F1|exact D].
      pose proof (check_insn_safe (id_set_scache d c) i' x F1) as G.
      destruct (pt_insn_check_insn_event (id_set_scache d c) i' x) as [d1 [st|e|u]]; [|exact G|exact G].
      destruct (flag st pts_event_pending); [exact G|].
      pose proof (proceed_safe d1 i' x G) as P. destruct (pt_insn_proceed d1 i' x) as [d2 [v|e|u]]; [|exact P|exact P].
      pose proof (check_ip_safe d2 (Some i') P) as Q. destruct (pt_insn_check_ip_event im d2 (Some i')) as [d3 r3]. exact Q. }
    destruct l as [[isid s]|e|u].
    - destruct L as (L1 & L2). apply K; [intros m E; injection E as <-; exact L2| |exact L1].
      pose proof (new_raw (id_ip d) (id_mode d) (id_speculative d)) as R. exact R.
    - destruct e; try (cbn; destruct F; constructor; cbn; assumption).
      apply K; [discriminate|apply new_raw|exact L].
    - destruct L.
  Qed.

  Lemma new_space d a : fit d ->
    good (let (c, r) := im_invalidate im (id_scache d) in
          match r with Ok _ => (id_set_asid (id_set_scache d c) a, Ok tt) | r => (id_set_scache d c, r) end).
  Proof.
    intros F. pose proof (tm_invalidate im held sec Ht (id_scache d) (ft_held d F)) as L.
    destruct (im_invalidate im (id_scache d)) as [c r]. destruct L as (L1 & L2).
    destruct r as [v|e|u]; [| |destruct (L2 u eq_refl)]; destruct F; constructor; cbn; assumption.
  Qed.

  Lemma paging_safe d cr3 : fit d -> good (pt_insn_process_paging im d cr3).
  Proof. intros F. unfold pt_insn_process_paging. chop; [done|]. exact (new_space d (mk_asid cr3 (as_vmcs (id_asid d))) F). Qed.
  Lemma vmcs_safe d ev v : fit d -> good (pt_insn_process_vmcs im d ev v).
  Proof.
    intros F. unfold pt_insn_process_vmcs. cbv zeta. chop; [destruct (ev_ip_suppressed ev); done|].
    pose proof (new_space d (mk_asid (as_cr3 (id_asid d)) v) F) as G.
    destruct (im_invalidate im (id_scache d)) as [c [r|e|u]]; [destruct (ev_ip_suppressed ev); done|done|exact G].
  Qed.

  Lemma process_safe d ev : fit d -> good (process_event im d ev).
  Proof.
    intros F. unfold process_event. cbv zeta.
    assert (Gv : forall (ev : event) (r : dec * res unit), good r ->
      @good event (match r with (d, Ok _) => (d, Ok ev) | (d, Err e) => (d, Err e) | (d, UB u) => (d, UB u) end)).
    { intros e0 r G. apply (good_then r (fun d _ => (d, Ok e0)) (fun d e => (d, Err e))); [exact G|intros; done|intros; done]. }
    destruct (ev_var ev);
      repeat first [done | apply Gv | apply paging_safe | apply vmcs_safe |
        progress unfold pt_insn_process_enabled, pt_insn_process_disabled, pt_insn_process_async_branch, pt_insn_process_overflow,
          pt_insn_process_exec_mode, pt_insn_process_stop | chop]; cbv zeta.
    all: repeat chop; try (destruct (ev_ip_suppressed ev)); try done.
    all: match goal with |- good (_, if ?b then _ else _) => destruct b end; done.
  Qed.

  Lemma insn_event_safe d : fit d -> good (insn_call im base d I_event).
  Proof.
    intros F. cbn [insn_call]. unfold pt_insn_event. destruct (negb _); [exact F|].
    destruct (id_event d) as [ev|]; [|exact F].
    pose proof (process_safe d ev F) as G. destruct (process_event im d ev) as [d1 [ev1|e|u]]; [|exact G|exact G].
    set (d2 := id_set_event d1 false (id_event d1)). assert (F2 : fit d2) by (unfold d2; destruct G; constructor; cbn; assumption).
    clearbody d2. cbv zeta. destruct (id_postponed d2) as [[i x]|].
    - pose proof (check_insn_safe d2 i x F2) as G2. destruct (pt_insn_check_insn_event d2 i x) as [d3 [st|e|u]]; [|exact G2|exact G2].
      destruct (flag st pts_event_pending); [exact G2|].
      pose proof (proceed_postponed_safe d3 G2) as P. destruct (pt_insn_proceed_postponed d3) as [d4 [v|e|u]]; [|exact P|exact P].
      pose proof (check_ip_safe d4 None P) as Q. destruct (pt_insn_check_ip_event im d4 None) as [d5 r5]. exact Q.
    - pose proof (check_ip_safe d2 None F2) as Q. destruct (pt_insn_check_ip_event im d2 None) as [d5 r5]. exact Q.
  Qed.
End INSN.
