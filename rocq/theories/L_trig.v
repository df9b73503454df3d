(** Lemmas on the instruction flow decoder's instruction count. *)

From Coq Require Import List NArith ZArith Bool PeanoNat Lia.
From Verif Require Import Base M_config M_time M_pktdec M_event M_evdec M_query M_retstack M_asid M_ildtab M_ild
  M_insn M_insndec S_core S_evdec S_x86 S_insn S_query S_flow S_drive S_trig L_core L_evdec L_evsafe L_evnext
  L_insn T_insn L_query L_query2 T_evdec T_evtrace L_flow L_flow2 L_flow3 L_flow4 L_flow5 L_flow6 L_flow7.
Import ListNotations.
Open Scope N_scope.

Lemma direct_is i x : direct (site_of_insn i x) = x_direct x && negb (is_jmpabs x).
Proof. unfold direct, is_jmpabs. cbn. destruct (x_inst x); destruct (x_direct x); reflexivity. Qed.

Section TRIG.
  Context {S C : Type} (im : image_if S C) (mem : asid -> memory) (cached : C -> asid -> Prop).
  Hypothesis shows : image_shows im mem cached.
  Notation dec := (insndec C).

  (** What a successful call did. *)
  Lemma next_parts (d : dec) t i d' st : cached (id_scache d) (id_asid d) -> id_mode d <> ptem_unknown ->
    shown_at im mem d t i d' st ->
    id_enabled d = true /\
    exists c x d1 st1, cached c (id_asid d) /\ site_of_insn i x = site_of (here d) t /\
      pt_insn_check_insn_event (id_set_scache d c) i x = (d1, Ok st1) /\
      (flag st1 pts_event_pending = true /\ d1 = d' /\ st1 = st \/
       flag st1 pts_event_pending = false /\ exists d2, pt_insn_proceed d1 i x = (d2, Ok tt) /\
         pt_insn_check_ip_event im d2 (Some i) = (d', Ok st)).
  Proof.
    intros Hc Hm (E & Ho). unfold pt_insn_next in E. destruct (id_enabled d) eqn:En; cbn [negb] in E; [|discriminate E].
    split; [reflexivity|].
    pose proof (is_lookup im mem cached shows (id_scache d) (id_asid d) (id_ip d) Hc) as L.
    destruct (im_lookup im (id_scache d) (id_asid d) (id_ip d)) as [c l]. 
    set (d0 := id_set_scache d c) in *. set (i0 := new_insn (id_ip d) (id_mode d) (id_speculative d)) in *.
    assert (G : forall msec i1, cached c (id_asid d) -> fetched mem (here d) (pt_insn_decode_cached im d0 msec i1) ->
      match pt_insn_decode_cached im d0 msec i1 with
      | (i, Err e) => (d0, Some i, Err e)
      | (i, UB u) => (d0, Some i, UB u)
      | (i, Ok x) =>
          match pt_insn_check_insn_event d0 i x with
          | (d, Err e) => (d, Some i, Err e)
          | (d, UB u) => (d, Some i, UB u)
          | (d, Ok status) =>
              if flag status pts_event_pending then (d, Some i, Ok status) else
              match pt_insn_proceed d i x with
              | (d, Err e) => (d, Some i, Err e)
              | (d, UB u) => (d, Some i, UB u)
              | (d, Ok _) => let (d, r) := pt_insn_check_ip_event im d (Some i) in (d, Some i, r)
              end
          end
      end = (d', Some i, Ok st) ->
      exists c x d1 st1, cached c (id_asid d) /\ site_of_insn i x = site_of (here d) t /\
      pt_insn_check_insn_event (id_set_scache d c) i x = (d1, Ok st1) /\
      (flag st1 pts_event_pending = true /\ d1 = d' /\ st1 = st \/
       flag st1 pts_event_pending = false /\ exists d2, pt_insn_proceed d1 i x = (d2, Ok tt) /\
         pt_insn_check_ip_event im d2 (Some i) = (d', Ok st))).
    { intros msec i1 Hcc F X. destruct (pt_insn_decode_cached im d0 msec i1) as [i2 [x|e|u]]; [|discriminate X..].
      unfold fetched in F. destruct F as (_ & _ & F). destruct (F Hm) as (t2 & F1 & F2).
      destruct (pt_insn_check_insn_event d0 i2 x) as [d1 [st1|e|u]] eqn:K; [|discriminate X..].
      assert (i2 = i).
      { destruct (flag st1 _); [congruence|]. destruct (pt_insn_proceed d1 i2 x) as [d2 [[]|e|u]]; [|congruence..].
        destruct (pt_insn_check_ip_event im d2 (Some i2)). congruence. }
      subst i2. destruct (insn_unique mem (here d) t2 i t i Hm F1 Ho) as (Un & _). rewrite Un in F2.
      exists c, x, d1, st1. split; [exact Hcc|]. split; [exact F2|]. split; [exact K|].
      destruct (flag st1 _); [left; injection X as <- <-; auto|right]. split; [reflexivity|].
      destruct (pt_insn_proceed d1 i x) as [d2 [[]|e|u]]; [|discriminate X..]. exists d2. split; [reflexivity|].
      destruct (pt_insn_check_ip_event im d2 (Some i)) as [d3 r]. injection X as <- <-. reflexivity. }
    destruct l as [[isid s]|e|u]; [| |destruct L].
    - destruct L as (L0 & (b & Hb) & L2). refine (G (Some s) (in_set_isid i0 isid) L0 _ E).
      refine (cached_ok im mem cached shows d0 (here d) (Some s) (in_set_isid i0 isid) eq_refl eq_refl eq_refl eq_refl eq_refl eq_refl _ _).
      { apply Forall_forall. intros z Hz. apply repeat_spec in Hz. subst z. reflexivity. }
      split; [exists b; exact Hb|]. exact L2.
    - destruct L as (L & _). destruct e; try discriminate E. refine (G None i0 L _ E).
      refine (cached_ok im mem cached shows d0 (here d) None i0 eq_refl eq_refl eq_refl eq_refl eq_refl eq_refl _ I).
      apply Forall_forall. intros z Hz. apply repeat_spec in Hz. subst z. reflexivity.
  Qed.

  (** The instruction count of a decoder that executed another instruction. *)
  Definition counted (d : dec) (ip : N) (d' : dec) : Prop :=
    id_ip d' = ip /\ id_scache d' = id_scache d /\ id_asid d' = id_asid d /\ id_mode d' = id_mode d /\
    id_enabled d' = true /\ id_has_icnt d' = id_has_icnt d /\
    (id_has_icnt d = true -> id_icnt d' = u32 (id_icnt d + 1) /\ id_icnt d' <> 0) /\
    id_process_event d' = id_process_event d /\ id_postponed d' = id_postponed d.

  (** What happens to the event. *)
  Definition told (d : dec) (here : N) (d' : dec) : Prop :=
    match id_event d with
    | Some ev =>
        match ev_var ev with
        | Ev_trig trbv c a mult =>
            if id_has_icnt d && id_process_event d && (a =? here)
            then c <> 0 /\ id_event d' = Some (set_var ev (Ev_trig trbv (c - 1) (id_ip d') mult))
            else id_event d' = id_event d
        | _ => id_event d' = id_event d
        end
    | None => id_event d' = id_event d
    end.

  Lemma update_counts (d : dec) here d' : id_enabled d = true -> pt_insn_update_trig d here = (d', Ok tt) ->
    counted d (id_ip d) d' /\ told d here d'.
  Proof.
    intros En E. unfold pt_insn_update_trig in E. rewrite En in E. unfold counted, told.
    destruct (id_has_icnt d) eqn:Hi; cbn [negb] in E.
    2:{ injection E as <-. split; [repeat split; try assumption; discriminate|].
        cbn [andb]. destruct (id_event d) as [ev|]; [|reflexivity]. destruct (ev_var ev); reflexivity. }
    destruct (N.eqb_spec (add32 (id_icnt d) 1) 0) as [E0|E0]; [discriminate E|]. cbn [andb].
    cbn [id_process_event id_event id_set_icnt] in E. destruct (id_process_event d) eqn:Pr.
    2:{ injection E as <-. cbn. rewrite Pr. split; [repeat split; try assumption|].
        destruct (id_event d) as [ev|]; [|reflexivity]. destruct (ev_var ev); reflexivity. }
    cbn [andb]. destruct (id_event d) as [ev|] eqn:Ee.
    2:{ injection E as <-. cbn. rewrite Pr, Ee. repeat split; assumption. }
    destruct (ev_var ev) eqn:Ev;
      try (injection E as <-; cbn; rewrite Pr, Ee; repeat split; assumption).
    match type of E with context [?x =? here] => destruct (x =? here) end.
    2:{ injection E as <-. cbn. rewrite Pr, Ee. repeat split; assumption. }
    match type of E with context [?x =? 0] => destruct (N.eqb_spec x 0) as [Ez|Ez] end; [discriminate E|].
    injection E as <-. cbn. rewrite Pr. repeat split; assumption.
  Qed.

  Lemma proceed_straight (d : dec) i x d' : id_enabled d = true -> id_ip d = in_ip i ->
    in_iclass i <> ptic_unknown -> ~ traced (site_of_insn i x) -> pt_insn_proceed d i x = (d', Ok tt) ->
    counted d (after (site_of_insn i x)) d' /\ told d (in_ip i) d'.
  Proof.
    intros En Ip Nu Nt E. unfold pt_insn_proceed in E. unfold traced in Nt. rewrite direct_is in Nt. cbn [si_class site_of_insn] in Nt.
    unfold after. cbn [si_class site_of_insn].
    assert (B : forall r, x_direct x && negb (is_jmpabs x) = true ->
      proceed_branch (id_set_retstack (id_set_ip d (add64 (id_ip d) (N.of_nat (in_size i)))) r) i x = (d', Ok tt) ->
      counted d (target (site_of_insn i x)) d' /\ told d (in_ip i) d').
    { intros r Hd X. unfold proceed_branch in X. rewrite Hd in X. cbn [id_ip id_set_retstack id_set_ip] in X.
      rewrite add64_disp, Ip in X. apply update_counts in X; [|exact En]. exact X. }
    assert (B0 : x_direct x && negb (is_jmpabs x) = true ->
      proceed_branch (id_set_ip d (add64 (id_ip d) (N.of_nat (in_size i)))) i x = (d', Ok tt) ->
      counted d (target (site_of_insn i x)) d' /\ told d (in_ip i) d').
    { intros Hd X. unfold proceed_branch in X. rewrite Hd in X. cbn [id_ip id_set_retstack id_set_ip] in X.
      rewrite add64_disp, Ip in X. apply update_counts in X; [|exact En]. exact X. }
    assert (P : pt_insn_update_trig (id_set_ip d (add64 (id_ip d) (N.of_nat (in_size i)))) (in_ip i) = (d', Ok tt) ->
      counted d (next_insn (site_of_insn i x)) d' /\ told d (in_ip i) d').
    { intros X. rewrite Ip in X. apply update_counts in X; [|exact En]. exact X. }
    destruct (in_iclass i) eqn:Hk; try (exfalso; apply Nt; exact I); try (destruct (Nu eq_refl)).
    all: try (apply P; exact E).
    all: destruct (x_direct x && negb (is_jmpabs x)) eqn:Hd; [|destruct (Nt eq_refl)].
    all: try (apply B0; [reflexivity|exact E]).
    destruct (negb (Z.eqb (x_disp x) 0) || negb (x_direct x)); [|apply B0; [reflexivity|exact E]].
    destruct (pt_retstack_push _ _) as [r [[]|e|u]]; [apply (B r eq_refl E)|apply (B r eq_refl E)|discriminate E].
  Qed.
End TRIG.
