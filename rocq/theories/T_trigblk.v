(** C71: the block decoder ends blocks where TRIG events are to be reported. *)

From Coq Require Import List NArith ZArith Bool PeanoNat Lia.
From Verif Require Import Base M_config M_time M_pktdec M_event M_evdec M_query M_retstack M_asid M_ildtab M_ild
  M_insn M_insndec M_blk S_core S_evdec S_x86 S_insn S_query S_flow S_drive S_trig L_core L_evdec L_evsafe L_evnext
  L_insn T_ild T_insn L_query L_query2 T_evdec T_evtrace L_flow L_flow2 L_flow3 L_flow4 L_flow5 L_flow6 L_flow7 L_trig L_blk6
  S_blk L_blk9 T_flow T_blk T_agree T_trig.
Import ListNotations.
Open Scope N_scope.

Lemma call_not_jmpabs m t : fst (meaning m t) = ptic_call -> x_inst (snd (meaning m t)) <> PTI_JMPABS.
Proof.
  unfold meaning. pose proof (classify_in m t) as H. destruct (classify m t) as [[c k] d]. cbn in *.
  repeat (destruct H as [H|H]; [injection H as <- <- <-; intros E; first [discriminate | discriminate E]|]). destruct H.
Qed.

Definition site_at (m : exec_mode) (ip : N) (t : x86) : site :=
  mk_site ip (length (render t)) (fst (meaning m t)) (snd (meaning m t)).

Lemma next_ip_after m ip t i x nip : site_of_insn i x = site_at m ip t -> pt_insn_next_ip i x = Ok nip ->
  ~ traced (site_at m ip t) /\ nip = after (site_at m ip t).
Proof.
  intros Si E. pose proof (call_not_jmpabs m t) as J.
  assert (Ec : in_iclass i = fst (meaning m t)) by (injection Si; auto).
  assert (Ex : x = snd (meaning m t)) by (injection Si; auto). rewrite <- Ex, <- Ec in J. rewrite <- Si. clear - E J.
  unfold pt_insn_next_ip, ip_after in E. unfold traced, after. rewrite direct_is. cbn [si_class site_of_insn]. unfold is_jmpabs in *.
  destruct (in_iclass i); try discriminate E.
  - injection E as <-. split; [exact (fun X => X)|reflexivity].
  - destruct (x_direct x); [|discriminate E]. rewrite add64_disp in E. injection E as <-.
    split; [|reflexivity]. specialize (J eq_refl). destruct (x_inst x); try discriminate; congruence.
  - destruct (x_inst x); try discriminate E; (destruct (x_direct x); [|discriminate E]; rewrite add64_disp in E; injection E as <-;
      split; [discriminate|reflexivity]).
  - injection E as <-. split; [exact (fun X => X)|reflexivity].
Qed.

Section TRIG.
  Context {S C : Type} (im : blk_image S C) (mem : asid -> memory) (cached : C -> asid -> Prop).
  Hypothesis shows : image_shows (bi_image im) mem cached.
  Notation dec := (blkdec C).

  (** What stays while a block is filled. *)
  Definition steady (d d' : dec) : Prop :=
    bd_mode d' = bd_mode d /\ bd_status d' = bd_status d /\ bd_enabled d' = bd_enabled d /\ bd_asid d' = bd_asid d /\
    bd_has_icnt d' = bd_has_icnt d /\ bd_postponed d' = bd_postponed d.
  Definition counts (d : dec) (n : N) (d' : dec) : Prop :=
    bd_has_icnt d = true -> bd_icnt d + n < 2 ^ 32 -> bd_icnt d' = bd_icnt d + n.

  Lemma log_call_keeps i x (d : dec) b s r : pt_blk_log_call i x (d, b) = (s, r) ->
    snd s = b /\ exists rs, fst s = bd_set_retstack d rs.
  Proof.
    assert (Y : exists rs, d = bd_set_retstack d rs) by (exists (bd_retstack d); destruct d; reflexivity).
    unfold pt_blk_log_call, push, bind, state, change, lift, ret. destruct (in_iclass i); try (intros E; injection E as <- <-; auto).
    destruct (x_direct x && Z.eqb (x_disp x) 0); [intros E; injection E as <- <-; auto|]. cbn [fst].
    destruct (pt_retstack_push (bd_retstack d) (ip_after i)) as [rs p]. intros E. injection E as <- _. cbn. split; [reflexivity|eexists; reflexivity].
  Qed.

  Lemma one_parts (d : dec) b d1 b1 o : bd_mode d <> ptem_unknown -> b_ninsn b < 65536 ->
    pt_blk_proceed_one_insn im (d, b) = ((d1, b1), Ok o) ->
    match o with
    | None => d1 = d /\ b1 = b /\ (b_ninsn b = 0 -> b_truncated b = true)
    | Some (i, x) => b_ninsn b1 = b_ninsn b + 1 /\ b_ninsn b1 < 65536 /\ steady d d1 /\ counts d 1 d1 /\
        bd_ip d1 = bd_ip d /\ bd_event d1 = bd_event d /\
        exists t, text_at (mem (bd_asid d)) (bd_mode d) (bd_ip d) t /\ site_of_insn i x = site_at (bd_mode d) (bd_ip d) t
    end.
  Proof.
    intros Hm Hb E. unfold pt_blk_proceed_one_insn, bind at 1, blk in E. cbn [snd] in E.
    destruct (N.eqb_spec (u16 (b_ninsn b + 1)) 0) as [Z|Z].
    { injection E as <- <- <-. split; [reflexivity|]. split; [reflexivity|]. intros Z0. rewrite Z0 in Z. discriminate Z. }
    assert (En : u16 (b_ninsn b + 1) = b_ninsn b + 1 /\ b_ninsn b + 1 < 65536).
    { unfold u16 in *. change (2 ^ 16) with 65536 in *. destruct (N.eq_dec (b_ninsn b) 65535) as [X|X]; [rewrite X in Z; destruct (Z eq_refl)|].
      split; [apply N.mod_small|]; lia. }
    destruct En as (En & Lt).
    destruct (b_truncated b) eqn:Tr; [injection E as <- <- <-; auto|].
    unfold bind at 1, state in E. cbn [fst] in E. unfold decode_here in E.
    pose proof (whole_ok (bi_image im) mem cached shows
      (mk_flow true (bd_ip d) (bd_mode d) (bd_asid d) false [] None) (new_insn (bd_ip d) (bd_mode d) false)) as W.
    cbn [f_ip f_mode f_asid f_spec] in W. specialize (W eq_refl).
    assert (Zb : bytes_ok (in_raw (new_insn (bd_ip d) (bd_mode d) false))).
    { apply Forall_forall. intros z Hz. apply repeat_spec in Hz. subst z. reflexivity. }
    specialize (W Zb eq_refl eq_refl eq_refl eq_refl).
    destruct (pt_insn_decode _ _ _) as [i [x|e|u]]; unfold bind at 1, lift in E; [|discriminate E..].
    unfold fetched in W. destruct W as (_ & _ & W). destruct (W Hm) as (t & (T1 & _) & T2). cbn [f_asid f_mode f_ip] in T1.
    destruct (negb (in_isid i =? b_isid b) && negb (pt_blk_block_is_empty b)) eqn:Ei.
    { injection E as <- <- <-. split; [reflexivity|]. split; [reflexivity|]. intros Z0.
      apply andb_prop in Ei. destruct Ei as (_ & Ei). unfold pt_blk_block_is_empty in Ei. rewrite Z0 in Ei. discriminate Ei. }
    unfold bind at 1, change_blk in E. cbv beta iota in E. unfold bind at 1 in E. cbv beta iota in E. unfold bind at 1 in E.
    destruct (pt_blk_log_call i x (d, _)) as [[d2 b2] [[]|e|u]] eqn:Lc; [|discriminate E..].
    apply log_call_keeps in Lc. destruct Lc as (_ & rs & Ed2). cbn [fst snd] in Ed2. subst d2.
    unfold bind at 1 in E. cbv beta iota in E. unfold bind at 1 in E.
    unfold count, bind, state in E. cbn [fst] in E.
    change (bd_has_icnt (bd_set_retstack d rs)) with (bd_has_icnt d) in E. change (bd_icnt (bd_set_retstack d rs)) with (bd_icnt d) in E.
    destruct (bd_has_icnt d) eqn:Hi.
    - destruct (N.ltb_spec (add32 (bd_icnt d) 1) (bd_icnt d)); [discriminate E|]. unfold change in E. injection E as <- <- <-.
      cbn [b_set_end b_ninsn]. rewrite En. split; [reflexivity|]. split; [exact Lt|].
      split; [repeat split; cbn; auto|]. split; [|split; [reflexivity|]; split; [reflexivity|]; exists t; split; [exact T1|exact T2]].
      intros _ L. cbn. unfold add32, u32. apply N.mod_small. exact L.
    - unfold ret in E. injection E as <- <- <-. cbn [b_set_end b_ninsn]. rewrite En. split; [reflexivity|]. split; [exact Lt|].
      split; [repeat split; cbn; auto|]. split; [|split; [reflexivity|]; split; [reflexivity|]; exists t; split; [exact T1|exact T2]].
      intros X. congruence.
  Qed.

  Lemma steady_trans a b c : steady a b -> steady b c -> steady a c.
  Proof. unfold steady. intuition congruence. Qed.

  Definition told (ev : event) (trbv r : N) (mult : bool) (d : dec) : Prop :=
    bd_event d = Some (set_var ev (Ev_trig trbv r (bd_ip d) mult)).

  Lemma loop_parts ev trbv mult fuel : forall r (d : dec) b d1 b1 w, bd_mode d <> ptem_unknown -> b_ninsn b < 65536 ->
    told ev trbv r mult d -> trig_loop im fuel ev trbv r mult (d, b) = ((d1, b1), Ok w) ->
    match w with
    | W_trace _ _ => True
    | _ => exists n, b_ninsn b1 = b_ninsn b + N.of_nat n /\ N.of_nat n <= r /\ steady d d1 /\ counts d (N.of_nat n) d1 /\
        walks (mem (bd_asid d)) (bd_mode d) (bd_ip d) n (bd_ip d1) /\ told ev trbv (r - N.of_nat n) mult d1 /\
        match w with W_stop => N.of_nat n < r /\ (n = 0%nat -> b_ninsn b = 0 -> b_truncated b = true) | _ => N.of_nat n = r end
    end.
  Proof.
    induction fuel as [|fuel IH]; intros r d b d1 b1 w Hm Hb Ht E; cbn [trig_loop] in E.
    - destruct (N.eqb_spec r 0) as [->|]; [|discriminate E]. injection E as <- <- <-. exists 0%nat.
      split; [cbn; lia|]. split; [cbn; lia|]. split; [repeat split|]. split; [intros _ _; cbn; lia|]. split; [constructor|].
      split; [exact Ht|reflexivity].
    - destruct (N.eqb_spec r 0) as [->|Nz].
      { injection E as <- <- <-. exists 0%nat.
        split; [cbn; lia|]. split; [cbn; lia|]. split; [repeat split|]. split; [intros _ _; cbn; lia|]. split; [constructor|].
        split; [exact Ht|reflexivity]. }
      unfold bind at 1 in E. pose proof (fun d1 b1 o => one_parts d b d1 b1 o Hm Hb) as P.
      destruct (pt_blk_proceed_one_insn im (d, b)) as [[d2 b2] [o|e|u]]; [|discriminate E..]. specialize (P d2 b2 o eq_refl).
      destruct o as [[i x]|].
      2:{ injection E as <- <- <-. destruct P as (-> & -> & P). exists 0%nat.
          split; [cbn; lia|]. split; [cbn; lia|]. split; [repeat split|]. split; [intros _ _; cbn; lia|]. split; [constructor|].
          split; [cbn; rewrite N.sub_0_r; exact Ht|]. split; [cbn; lia|intros _; exact P]. }
      destruct P as (P1 & P2 & P3 & P4 & P5 & P6 & t & T1 & T2).
      destruct (pt_insn_next_ip i x) as [nip|e|u] eqn:Ni; [| |discriminate E].
      2:{ destruct e; try discriminate E. injection E as _ _ <-. exact I. }
      destruct (next_ip_after _ _ _ _ _ _ T2 Ni) as (Nt & ->).
      unfold bind, change in E. set (d3 := bd_set_event (bd_set_ip d2 _) _) in E.
      assert (S3 : steady d d3) by exact P3.
      destruct S3 as (S31 & S3r). pose proof (conj S31 S3r : steady d d3) as S3.
      specialize (IH (r - 1) d3 b2 d1 b1 w). rewrite S31 in IH. specialize (IH Hm P2 eq_refl E).
      assert (As : bd_asid d3 = bd_asid d) by apply S3. rewrite As in IH.
      destruct w as [| |]; [| |exact I].
      all: destruct IH as (n & I1 & I2 & I3 & I4 & I5 & I6 & I7); exists (Datatypes.S n);
        (split; [lia|]); (split; [lia|]); (split; [eapply steady_trans; eassumption|]); (split;
          [intros Hi L; assert (X : bd_icnt d3 = bd_icnt d + 1) by (apply P4; [exact Hi|lia]);
           rewrite (I4 ltac:(rewrite <- Hi; apply S3) ltac:(lia)), X; lia|]);
        (split; [eapply walks_more; [exact T1|exact Nt|exact I5]|]);
        (split; [unfold told in *; rewrite I6; do 3 f_equal; lia|]).
      all: try (destruct I7 as (I7 & I8); split; [lia|discriminate]); lia.
  Qed.

  (** A TRIG event lies the given number of instructions ahead. *)
  Definition due (d : dec) (ev : event) (trbv r : N) (mult : bool) : Prop :=
    bd_status d = None /\ ev_ip_suppressed ev = false /\ bd_enabled d = true /\ bd_mode d <> ptem_unknown /\
    told ev trbv r mult d.

  (** A block does not go past the event, and the event is indicated if and only if the block
      reaches it.  Otherwise the rest lies ahead. *)
  Theorem C71_block (d : dec) ev trbv r mult d' b st : due d ev trbv r mult -> bd_ip d <> 0 ->
    pt_blk_next im d = (d', b, Ok st) ->
    b_ninsn b <= r /\ (0 < r -> 0 < b_ninsn b) /\ flag st pts_event_pending = (b_ninsn b =? r) /\
    walks (mem (bd_asid d)) (bd_mode d) (bd_ip d) (N.to_nat (b_ninsn b)) (bd_ip d') /\
    due d' ev trbv (r - b_ninsn b) mult /\ bd_asid d' = bd_asid d /\ bd_mode d' = bd_mode d /\
    (bd_has_icnt d = true -> bd_icnt d + b_ninsn b < 2 ^ 32 ->
     bd_has_icnt d' = true /\ bd_icnt d' = bd_icnt d + b_ninsn b).
  Proof.
    intros (Hs & Hu & He & Hm & Ht) Hz E. unfold pt_blk_next, pt_blk_proceed, bind at 1, state in E. cbn [fst] in E.
    rewrite Hs, Ht in E. cbn [set_var ev_var] in E. unfold pt_blk_proceed_event, bind at 1, state in E. cbn [fst] in E.
    rewrite Ht in E. cbn [set_var ev_var ev_ip_suppressed] in E.
    unfold pt_blk_proceed_to_trig in E. cbn [set_var ev_ip_suppressed] in E. rewrite Hu in E.
    unfold pt_blk_provide_trig_anchor in E. cbn [set_var ev_ip_suppressed] in E. rewrite Hu in E.
    destruct (N.eqb_spec (bd_ip d) 0) as [X|_]; [destruct (Hz X)|]. cbn [negb] in E.
    unfold bind at 1 in E. unfold bind at 1 in E. unfold ret at 1 in E. cbv beta iota in E. unfold bind at 1, state at 1 in E. cbn [fst] in E.
    rewrite He in E. cbn [negb] in E. unfold pt_blk_proceed_to_ip, bind at 1 in E. unfold bind at 1, blk at 1 in E. cbn [snd] in E.
    unfold room at 1 in E. cbn [to_ip] in E. unfold bind at 1, state at 1 in E. cbn [fst] in E. rewrite N.eqb_refl in E.
    unfold ret at 1 in E. cbv beta iota in E. unfold bind at 1, blk at 1 in E. cbn [snd] in E.
    set (b0 := new_block (bd_ip d) (bd_mode d) (bd_spec d)) in *.
    set (ev' := set_var ev (Ev_trig trbv r (bd_ip d) mult)) in *.
    pose proof (fun d1 b1 w => loop_parts ev' trbv mult (room b0) r d b0 d1 b1 w Hm eq_refl Ht) as P.
    destruct (trig_loop im (room b0) ev' trbv r mult (d, b0)) as [[d1 b1] [w|e|u]]; [|discriminate E..].
    specialize (P d1 b1 w eq_refl). change (b_ninsn b0) with 0 in P.
    destruct w as [| |]; [| |discriminate E];
      destruct P as (n & P1 & P2 & (S1 & S2 & S3 & S4 & S5 & S6) & P4 & P5 & P6 & P7); rewrite N.add_0_l in P1; cbv beta iota in P7.
    - unfold ret in E. injection E as <- <- <-. destruct P7 as (P7 & P8).
      rewrite P1, Nat2N.id. split; [exact P2|].
      split; [intros _; destruct n; [exfalso|lia]|].
      { discriminate (P8 eq_refl eq_refl). }
      split; [symmetry; apply N.eqb_neq; lia|]. split; [exact P5|].
      split; [split; [congruence|]; split; [exact Hu|]; split; [congruence|]; split; [congruence|exact P6]|].
      split; [exact S4|]. split; [exact S1|]. intros Hi L. split; [congruence|exact (P4 Hi L)].
    - unfold pending, indicate, bind, state, ret in E. cbn [fst] in E. injection E as <- <- <-.
      rewrite P1, Nat2N.id. split; [exact P2|]. split; [lia|].
      split; [rewrite (status_event d1 true); symmetry; apply N.eqb_eq; exact P7|]. split; [exact P5|].
      split; [split; [congruence|]; split; [exact Hu|]; split; [congruence|]; split; [congruence|exact P6]|].
      split; [exact S4|]. split; [exact S1|]. intros Hi L. split; [congruence|exact (P4 Hi L)].
  Qed.

  (** Blocks in a row, up to the one at which an event is indicated. *)
  Inductive filled : dec -> list block -> dec -> N -> Prop :=
  | filled_one d b d' st : pt_blk_next im d = (d', b, Ok st) -> filled d [b] d' st
  | filled_more d b d1 st1 bs d' st : pt_blk_next im d = (d1, b, Ok st1) ->
      flag st1 pts_event_pending = false -> bd_ip d1 <> 0 -> filled d1 bs d' st -> filled d (b :: bs) d' st.
  Definition total (bs : list block) : N := fold_right (fun b n => b_ninsn b + n) 0 bs.

  Lemma walks_app m me n1 : forall ip n2 ip1 ip2, walks me m ip n1 ip1 -> walks me m ip1 n2 ip2 -> walks me m ip (n1 + n2) ip2.
  Proof.
    induction n1; intros ip n2 ip1 ip2 H; inversion H; subst; intros K; [exact K|].
    cbn [Nat.add]. eapply walks_more; [eassumption..|]. eapply IHn1; eassumption.
  Qed.

  (** However many blocks it takes: the event is indicated after as many instructions as it
      lies ahead, neither earlier nor later. *)
  Theorem C71_run (d : dec) bs d' st : filled d bs d' st -> forall ev trbv r mult,
    due d ev trbv r mult -> bd_ip d <> 0 ->
    total bs <= r /\ flag st pts_event_pending = (total bs =? r) /\
    walks (mem (bd_asid d)) (bd_mode d) (bd_ip d) (N.to_nat (total bs)) (bd_ip d') /\
    due d' ev trbv (r - total bs) mult.
  Proof.
    induction 1 as [d b d' st E|d b d1 st1 bs d' st E F Z R IH]; intros ev trbv r mult D Hz;
      destruct (C71_block _ _ _ _ _ _ _ _ D Hz E) as (A1 & A2 & A3 & A4 & A5 & A6 & A7 & _); cbn [total fold_right].
    - rewrite N.add_0_r. auto.
    - change (fold_right _ 0 bs) with (total bs). destruct (IH _ _ _ _ A5 Z) as (B1 & B2 & B3 & B4). rewrite A6, A7 in B3.
      split; [lia|]. split.
      + rewrite B2. rewrite F in A3. symmetry in A3. apply N.eqb_neq in A3.
        destruct (N.eqb_spec (total bs) (r - b_ninsn b)), (N.eqb_spec (b_ninsn b + total bs) r); try reflexivity; lia.
      + split; [rewrite N2Nat.inj_add; eapply walks_app; eassumption|].
        replace (r - (b_ninsn b + total bs)) with (r - b_ninsn b - total bs) by lia. exact B4.
  Qed.

  (** The event then carries the address at which the last block ended and no further count. *)
  Theorem C71_event (d : dec) ev trbv r mult : due d ev trbv r mult ->
    snd (fst (pt_blk_event im d)) = Some (set_var ev (Ev_trig trbv r (bd_ip d) mult)).
  Proof.
    intros (Hs & Hu & He & Hm & Ht). unfold pt_blk_event. rewrite Hs, Ht. cbn [set_var ev_var].
    unfold process, bind at 1, state. cbn [fst]. cbn [set_var ev_var ev_ip_suppressed]. rewrite He, Hu, N.eqb_refl. cbn [negb orb].
    unfold bind at 1, ret at 1. cbv beta iota. unfold ret at 1.
    match goal with |- snd (fst (match ?X with _ => _ end)) = _ => destruct X as [[d2 b2] r2] end. reflexivity.
  Qed.

  (** A TRIG event as the event decoder gives it: with a count and no address. *)
  Definition given (d : dec) (ev : event) (trbv c : N) (mult : bool) : Prop :=
    bd_status d = None /\ bd_event d = Some ev /\ ev_var ev = Ev_trig trbv c 0 mult /\ ev_ip_suppressed ev = false /\
    bd_enabled d = true /\ bd_mode d <> ptem_unknown /\ bd_postponed d = None.

  (** The count starts at the last instruction whose place the trace tells. *)
  Theorem C71_counted (d : dec) b g ev trbv c mult : given d ev trbv c mult ->
    bd_has_icnt d = true -> bd_icnt d <= c ->
    exists d' st, pt_blk_proceed_trailing_event im g (d, b) = ((d', b), Ok st) /\ bd_ip d' = bd_ip d /\
      due d' ev trbv (c - bd_icnt d) mult /\ flag st pts_event_pending = (bd_icnt d =? c).
  Proof.
    intros (Hs & Hv & Hx & Hu & He & Hm & Hp) Hi L. unfold pt_blk_proceed_trailing_event. cbn [trailing].
    unfold bind at 1, state at 1. cbn [fst]. rewrite Hs, Hv, Hx.
    unfold bind at 1, pt_blk_proceed_postponed_insn at 1, bind at 1, state at 1. cbn [fst]. rewrite Hp. unfold ret at 1. cbv beta iota.
    unfold bind at 1, state at 1. cbn [fst]. rewrite He, Hu. cbn [negb orb].
    unfold pt_blk_provide_trig_anchor. rewrite Hu. cbn [N.eqb negb].
    unfold bind at 1. unfold bind at 1, state at 1. cbn [fst]. rewrite Hi. cbn [negb].
    destruct (N.ltb_spec c (bd_icnt d)); [exfalso; lia|].
    unfold bind at 1, change at 1. unfold ret at 1. cbv beta iota.
    set (d1 := bd_set_event d _).
    assert (D : due d1 ev trbv (c - bd_icnt d) mult).
    { split; [exact Hs|]. split; [exact Hu|]. split; [exact He|]. split; [exact Hm|reflexivity]. }
    destruct (N.eqb_spec (c - bd_icnt d) 0) as [Z|Z]; cbn [negb].
    - unfold bind at 1, state at 1. cbn [fst]. change (bd_ip d1) with (bd_ip d). rewrite N.eqb_refl. cbn [negb].
      exists d1, (pt_blk_status d1 pts_event_pending). split; [reflexivity|]. split; [reflexivity|]. split; [exact D|].
      rewrite (status_event d1 true). symmetry. apply N.eqb_eq. lia.
    - unfold bind at 1, pt_blk_proceed_postponed_insn, bind at 1, state at 1. cbn [fst]. change (bd_postponed d1) with (bd_postponed d).
      rewrite Hp. exists d1, (pt_blk_status d1 0). split; [reflexivity|]. split; [reflexivity|]. split; [exact D|].
      rewrite (status_event d1 false). symmetry. apply N.eqb_neq. lia.
  Qed.

  (** A count that the trace gives no place for, or that lies behind, is refused. *)
  Theorem C71_refused (d : dec) b g ev trbv c mult : given d ev trbv c mult ->
    bd_has_icnt d = false \/ c < bd_icnt d ->
    snd (pt_blk_proceed_trailing_event im g (d, b)) = Err pte_bad_packet.
  Proof.
    intros (Hs & Hv & Hx & Hu & He & Hm & Hp) H. unfold pt_blk_proceed_trailing_event. cbn [trailing].
    unfold bind at 1, state at 1. cbn [fst]. rewrite Hs, Hv, Hx.
    unfold bind at 1, pt_blk_proceed_postponed_insn at 1, bind at 1, state at 1. cbn [fst]. rewrite Hp. unfold ret at 1. cbv beta iota.
    unfold bind at 1, state at 1. cbn [fst]. rewrite He, Hu. cbn [negb orb].
    unfold pt_blk_provide_trig_anchor. rewrite Hu. cbn [N.eqb negb].
    unfold bind at 1. unfold bind at 1, state at 1. cbn [fst].
    destruct (bd_has_icnt d) eqn:Hi; cbn [negb]; [|reflexivity]. destruct H as [H|H]; [discriminate H|].
    destruct (N.ltb_spec c (bd_icnt d)); [reflexivity|exfalso; lia].
  Qed.
End TRIG.

(** ** Where the decoders disagree *)

Definition ftrig_packet (n : N) : list N := [0xd9; 0xc0; 0x01; 0; 0;  0x3d; n; 0x10].

(** A TRIG event with an address of its own that is not reached yet.  The instruction flow
    decoder waits; the block decoder fails, if the event comes after other events
    (pt_block_decoder.c:3792-3820).  pt_blk_proceed_to_trig() would have waited. *)
Theorem C71_address_refuted :
  firstn 5 (fst (insn_view program_trig (at_1000 (ftrig_packet 2 ++ [0x2d; 0; 0x10])))) =
    [inr start; inr bits64; inl 4096; inl 4097; inr (Ev_trig 1 0 4098 false)] /\
  block_view program_trig (at_1000 (ftrig_packet 2 ++ [0x2d; 0; 0x10])) =
    ([inr start; inr bits64], Err pte_bad_packet) /\
  firstn 8 (fst (insn_view program_trig (at_1000 (trig_packet 1 ++ ftrig_packet 2 ++ [0x2d; 0; 0x10])))) =
    [inr start; inr bits64; inl 4096; inr (Ev_trig 1 0 4097 false); inl 4097; inr (Ev_trig 1 0 4098 false); inl 4098; inl 4102] /\
  block_view program_trig (at_1000 (trig_packet 1 ++ ftrig_packet 2 ++ [0x2d; 0; 0x10])) =
    ([inr start; inr bits64; inl (4096, 4096, 1); inr (Ev_trig 1 0 4097 false)], Err pte_bad_packet).
Proof. vm_compute. repeat split. Qed.

(** A TRIG event with a count while tracing is disabled.  There is nothing to count from; the
    instruction flow decoder fails, the block decoder reports address zero. *)
Theorem C71_off_refuted :
  insn_view [0x90; 0x0f; 0x05; 0x90] (at_1000 ([0x01] ++ trig_packet 0)) =
    ([inr start; inr bits64; inl 4096; inl 4097; inr (Ev_disabled 0)], Err pte_bad_packet) /\
  block_view [0x90; 0x0f; 0x05; 0x90] (at_1000 ([0x01] ++ trig_packet 0)) =
    ([inr start; inr bits64; inl (4096, 4097, 2); inr (Ev_disabled 0); inr (Ev_trig 1 0 0 false)], Err pte_eos).
Proof. vm_compute. repeat split. Qed.

(** ** A TRIG event after two instructions *)

Definition trig_blocks := flat_blocks 0x1000 program_trig 7.
(** After the status events: the decoder, with the TRIG event arrived. *)
Definition trig_blk0 (n : N) : blkdec unit :=
  match blk_sync_step 0 trig_blocks (block_dec (at_1000 (trig_packet n ++ [0x2d; 0; 0x10]))) Bs_forward with
  | (d, Ok st) => match blk_drive trig_blocks 2 d st with (_, d, _) => d end
  | (d, _) => d
  end.
Definition plain_trig (n : N) : event := mk_event (Ev_trig 1 n 0 false) false false false 0 0 0.
Definition next_view (d : blkdec unit) : N * N * bool * option evar * res bool :=
  match pt_blk_next trig_blocks d with
  | (d, b, r) => (bd_ip d, b_ninsn b, bd_has_icnt d, option_map ev_var (bd_event d),
                  match r with Ok st => Ok (flag st pts_event_pending) | Err e => Err e | UB u => UB u end)
  end.
Example C71_ex :
  (* the hypotheses *)
  image_shows (bi_image trig_blocks) (fun _ => flat_mem 0x1000 program_trig 7) (fun _ _ => True) /\
  due (trig_blk0 2) (plain_trig 2) 1 2 false /\ bd_ip (trig_blk0 2) <> 0 /\
  (exists b d st, filled trig_blocks (trig_blk0 2) [b] d st) /\
  (let d := bd_set_event (trig_blk0 2) (Some (plain_trig 2)) in
   given d (plain_trig 2) 1 2 false /\ bd_has_icnt d = true /\ bd_icnt d = 0) /\
  (let d := bd_set_icnt (bd_set_event (trig_blk0 2) (Some (plain_trig 2))) true 3 in
   given d (plain_trig 2) 1 2 false /\ 2 < bd_icnt d) /\
  (* the decoder on the trace *)
  next_view (trig_blk0 2) = (4098, 2, true, Some (Ev_trig 1 0 4098 false), Ok true) /\
  firstn 4 (fst (block_view program_trig (at_1000 (trig_packet 2 ++ [0x2d; 0; 0x10])))) =
    [inr start; inr bits64; inl (4096, 4097, 2); inr (Ev_trig 1 0 4098 false)].
Proof.
  split; [apply flat_shows; [discriminate|repeat (apply Forall_cons; [reflexivity|]); apply Forall_nil]|].
  split; [split; [vm_compute; reflexivity|]; split; [reflexivity|]; split; [vm_compute; reflexivity|];
          split; [vm_compute; discriminate|vm_compute; reflexivity]|].
  split; [vm_compute; discriminate|].
  split; [eexists; eexists; eexists; apply filled_one; vm_compute; reflexivity|].
  split; [cbv zeta; split; [repeat split; try (vm_compute; discriminate); vm_compute; reflexivity|split; vm_compute; reflexivity]|].
  split; [cbv zeta; split; [repeat split; try (vm_compute; discriminate); vm_compute; reflexivity|vm_compute; reflexivity]|].
  split; vm_compute; reflexivity.
Qed.

Print Assumptions C71_block.
Print Assumptions C71_run.
Print Assumptions C71_event.
Print Assumptions C71_counted.
Print Assumptions C71_refused.
Print Assumptions C71_address_refuted.
Print Assumptions C71_off_refuted.
