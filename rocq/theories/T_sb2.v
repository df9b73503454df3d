(** Sideband records are applied in the order of time. *)
From Verif Require Import Base M_event M_sb S_sb2 L_sb L_sb3 L_sb4.
From Coq Require Import List NArith Bool PeanoNat Sorted Permutation.
Import ListNotations.
Open Scope nat_scope.

(** C59.  A session with any sideband decoders, whatever their callbacks do, starts and sees any
    events.  At the end, every decoder that was not destroyed when the session started is in
    exactly one list and none waits.  Every decoder was told to apply the records it fetched, once,
    in order and without a gap, when they were due; at most the last one is outstanding.  That
    one is later than the last event for a decoder that is still active; there is none for a
    decoder that reached the end of its records.  Both have seen every event once after the
    records that were due.  If the records of every decoder are in the order of time then the
    records are applied in the order of time across all decoders. *)
Theorem C59_merge : forall (P W : Type) (ops : sbops P W) decoders w l s w' L,
  watch_session ops decoders w l = (s, (w', L), Ok tt) ->
  ss_waiting s = [] /\
  Permutation (map number (ss_decoders s ++ ss_retired s ++ ss_removed s) ++ freed L)
    (seq 0 (length decoders)) /\
  (forall id, exists rest, fetched id L = applied id L ++ rest /\ length rest <= 1) /\
  (forall d, In d (ss_decoders s) ->
     fetched (number d) L = applied (number d) L ++ [sd_tsc d] /\
     seen (number d) L = map snd l /\
     (forall l' fuel printing ev, l = l' ++ [(fuel, printing, ev)] -> (ev_tsc ev < sd_tsc d)%N)) /\
  (forall d, In d (ss_retired s) ->
     fetched (number d) L = applied (number d) L /\ seen (number d) L = map snd l) /\
  ((forall id, StronglySorted N.le (fetched id L)) -> StronglySorted N.le (applied_all L)).
Proof.
  intros P W ops decoders w l s w' L H. destruct (session_good _ _ _ _ _ _ _ H) as (G & Hw & Hl).
  destruct G as [Gp Gs Ga Gw Gr Gx Gf Gn Go]. unfold members in Gp. rewrite Hw in *. cbn [app] in Gp.
  rewrite Forall_forall in *. split; [reflexivity|]. split; [exact Gp|]. split; [|split; [|split]].
  - intros id. destruct (in_dec Nat.eq_dec id (seq 0 (length decoders))) as [Hi|Hi].
    + apply (Permutation_in _ (Permutation_sym Gp)) in Hi. apply in_app_or in Hi. destruct Hi as [Hi|Hi].
      * apply in_map_iff in Hi. destruct Hi as (d & <- & Hd). rewrite !in_app_iff in Hd.
        destruct Hd as [Hd|[Hd|Hd]].
        -- exact (act_rem _ _ _ (Ga _ Hd)).
        -- exact (ret_rem _ _ _ (Gr _ Hd)).
        -- exact (Gx _ Hd).
      * destruct (Gf _ Hi) as (-> & ->). exists []. auto.
    + assert (O : others id L).
      { apply Forall_forall. intros x Hx E. apply Hi, in_seq. rewrite <- E. split; [apply Nat.le_0_l|]. now apply Gn. }
      destruct (others_none _ _ O) as (-> & -> & _). exists []. auto.
  - intros d Hd. destruct (Ga _ Hd) as (_ & A & B). split; [exact A|]. split; [exact B|].
    intros l' fuel printing ev El. specialize (Hl l' _ El). rewrite Forall_forall in Hl. now apply Hl.
  - intros d Hd. destruct (Gr _ Hd) as (_ & A & B). auto.
  - intros Mo. exact (proj1 (Go Mo)).
Qed.
Print Assumptions C59_merge.

(** Taking notes does not change what the session does. *)
Theorem C59_watching : forall (P W : Type) (ops : sbops P W) decoders w l,
  run_session ops decoders w l =
  let '(s, (w', _), r) := watch_session ops decoders w l in (erase snd s, w', r).
Proof. exact @watch_erase. Qed.
Print Assumptions C59_watching.

(** When the session is freed, every decoder has been destroyed once. *)
Theorem C59_free : forall (P W : Type) (ops : sbops P W) decoders w l s w' L w'' L',
  watch_session ops decoders w l = (s, (w', L), Ok tt) ->
  pt_sb_free (watch ops) s (w', L) = ((w'', L'), Ok tt) ->
  Permutation (freed L') (seq 0 (length decoders)).
Proof.
  intros P W ops decoders w l s w' L w'' L' H F. destruct (session_good _ _ _ _ _ _ _ H) as (G & _ & _).
  apply g_perm in G. eapply Permutation_trans; [|exact G]. clear G H. unfold pt_sb_free in F.
  destruct (free_decoders (watch ops) (ss_decoders s) (w', L)) as ((w1, L1), [[]|?|?]) eqn:E1; try discriminate.
  destruct (free_decoders (watch ops) (ss_waiting s) (w1, L1)) as ((w2, L2), [[]|?|?]) eqn:E2; try discriminate.
  destruct (free_decoders (watch ops) (ss_retired s) (w2, L2)) as ((w3, L3), [[]|?|?]) eqn:E3; try discriminate.
  apply free_notes in E1, E2, E3, F. subst. rewrite !freed_app.
  assert (K : forall n, freed (map Freed n) = n).
  { induction n as [|x n IH]; [reflexivity|]. unfold freed in *. cbn [map flat_map app]. now rewrite IH. }
  rewrite !K. unfold members. rewrite !nums_app.
  eapply Permutation_trans; [|apply Permutation_app_comm]. now rewrite <- !app_assoc.
Qed.
Print Assumptions C59_free.

(** Decoders whose records are given by their times; a record with time 99 cannot be applied.  The
    callbacks count in the world. *)
Definition list_ops : sbops (list N * N) N :=
  mk_sbops
    (fun w '(l, t) => match l with [] => (w, ([], t), Err pte_eos) | x :: l => (w, (l, x), Ok x) end)
    (fun _ _ w '(l, t) => ((w + 1)%N, (l, t), if N.eqb t 99 then Err pte_bad_insn else Ok tt))
    (fun w p => (w, p, Ok tt))
    (fun w _ => (w, Ok tt)).
Definition an_event (t : N) : event := mk_event (Ev_overflow 0) false true true t 0 0.
Definition list_run :=
  watch_session list_ops [(([3; 5; 40]%N, 0%N), true); (([1; 5; 6]%N, 0%N), false); (([], 0%N), false);
                          (([2; 99]%N, 0%N), false)] 0%N
    [(10, true, an_event 4); (10, false, an_event 10); (10, false, an_event 100)].

Example C59_example :
  let '(s, (w, L), r) := list_run in
  (r, w, applied_all L, map number (ss_decoders s), map number (ss_retired s), map number (ss_removed s), freed L,
   fetched 0 L, fetched 1 L, fetched 2 L, fetched 3 L, applied 0 L, length (seen 1 L)) =
  (Ok tt, 14%N, [1; 2; 3; 5; 5; 6; 40]%N, [], [0; 1], [3], [2],
   [3; 5; 40]%N, [1; 5; 6]%N, [], [2; 99]%N, [3; 5; 40]%N, 3).
Proof. vm_compute. reflexivity. Qed.
