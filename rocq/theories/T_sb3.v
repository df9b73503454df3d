(** Theorem about the address space that a sideband session shows. *)
From Verif Require Import Base M_event M_pevent M_sb M_sbpev S_sb S_sb2 S_sb3 L_sb L_sbpev L_sbpev2 L_sb2 L_sb5 L_sb6 L_sb7 T_sb.
From Coq Require Import List NArith Bool PeanoNat Lia.
Import ListNotations.
Open Scope nat_scope.

(** C62.  A session of perf event decoders shows the address space that the rules of S_sb3.v tell,
    whatever the sideband data and the trace events are.  An observer beside the session does not
    change it; and when the session is done with some events, the user's image pointer is where the
    observer says, it points to a context that is there, every process has the context that the
    observer says, and every context has the image and the ABI that the observer has worked out.
    Every decoder uses the context, and wants to use the context, that the observer says. *)
Theorem C62_shown {E I} (out : outside E I) (t : tools I) kernel e decoders l :
  answers out -> works out t ->
  Forall (fun d => starts (fst d)) decoders -> (N.of_nat (length decoders) <= 30000)%N ->
  Forall (fun x => total decoders <= fst (fst x)) l ->
  let start := mk_world [] [] kernel None e in
  let '(s, (w, y), r) := run_session (observe t (eo_new out) kernel (pevent_ops out))
                           (map (fun d => ((fst d, no_view), snd d)) decoders) (start, no_table) l in
  run_session (pevent_ops out) decoders start l = (erase fst s, w, r) /\ no_ub r /\
  wd_image w = tb_shown y /\
  (forall c, wd_image w = Some c -> alive w c) /\
  (forall pid, pt_sb_find_context_by_pid w pid = Ok (tb_process y pid)) /\
  (forall c x, deref w c = Ok x -> nth_error (tb_spaces y) c = Some (mk_space (cx_image x) (cx_abi x))) /\
  (forall d, In d (ss_decoders s ++ ss_waiting s ++ ss_retired s ++ ss_removed s) ->
     let (p, v) := sd_priv d in
     pp_context p = cv_now v /\
     (match pp_next_context p with Some n => Some n | None => pp_context p end) = cv_goal v).
Proof.
  intros ANS WK Hs Hn Hl start.
  pose proof (run_JJ out t kernel (total decoders) ANS WK decoders e l Hs Hn (le_n _) Hl) as X.
  pose proof (run_plain out t kernel decoders start no_table l) as Y. fold start in X.
  destruct (run_session _ _ (start, no_table) l) as ((s, (w, y)), r). destruct X as ((A & Q & D & _) & N_).
  cbn [fst snd] in *. split; [exact Y|]. split; [exact N_|].
  pose proof Q as (_ & Q2 & _ & _ & _ & _ & Q7). split; [exact Q7|]. split; [|split; [|split]].
  - intros c Hc. destruct A as (A1 & _ & A3). specialize (A3 eq_refl). rewrite Hc in A3.
    apply (Inv_alive _ _ _ A1). apply in_or_app. right. apply in_or_app. now left.
  - intros pid. exact (find_ref kernel w y pid Q).
  - exact Q2.
  - intros d Hd. rewrite Forall_forall in D. specialize (D (sd_priv d)). destruct (sd_priv d) as (p, v) eqn:Ed.
    destruct D as (D1 & D2 & _); [unfold privs, members; rewrite <- Ed; now apply in_map|]. cbn [fst snd] in *.
    split; [congruence|]. now rewrite D2.
Qed.
Print Assumptions C62_shown.

(** A run with the sideband data of T_sb.v: at the last event, process 2, which has executed another
    program, is shown, with the file that it has mapped. *)
Definition plain_tools : tools (list file) :=
  {| tl_copy := fun i j => i ++ j; tl_map := fun i f o s v => i ++ [(f, o, s, v)]; tl_abi := fun _ => None |}.
Lemma plain_works : works plain_outside plain_tools.
Proof. repeat split; intros; discriminate. Qed.

Definition shown_decoder : priv :=
  mk_priv sb_data None None None None sb_conf sb_kernel 0 None 0 no_pev_event None None ploc_unknown.
Definition shown_events : list (nat * bool * event) :=
  [(300, false, sb_at 25 (Ev_enabled 0x1000 false));
   (300, false, sb_at 35 (Ev_enabled 0x2000 false));
   (300, false, sb_at 38 (Ev_async_branch 0x1010 (sb_kernel + 16)));
   (300, false, sb_at 45 (Ev_enabled 0x1000 false));
   (300, false, sb_at 55 (Ev_async_branch 0x1010 (sb_kernel + 16)))].
Definition shown_run (n : nat) :=
  let '(s, (w, y), r) := run_session (observe plain_tools [] [] (pevent_ops plain_outside))
                           [((shown_decoder, no_view), true)] (mk_world [] [] [] None tt, no_table) (firstn n shown_events) in
  (tb_shown y, map (tb_process y) [1; 2; 3]%N, map (fun x => map (fun f => fst (fst (fst f))) (sp_image x)) (tb_spaces y), r).

Example C62_example : answers plain_outside /\ works plain_outside plain_tools /\
  Forall (fun d => starts (fst d)) [(shown_decoder, true)] /\
  Forall (fun x => total [(shown_decoder, true)] <= fst (fst x)) shown_events /\
  (* after the second event, the switch to process 2 is known, but user mode was not left *)
  shown_run 2 = (Some 0, [Some 0; Some 1; None], [[]; []], Ok tt) /\
  shown_run 3 = (Some 1, [Some 0; Some 1; None], [[]; []], Ok tt) /\
  shown_run 5 = (Some 2, [Some 0; Some 2; None], [[]; []; [[47; 98; 105; 110; 47; 108; 115]%N]], Ok tt).
Proof.
  split; [exact plain_answers|]. split; [exact plain_works|].
  split; [repeat constructor; cbn; lia|]. split; [repeat constructor; apply Nat.leb_le; vm_compute; reflexivity|].
  split; [vm_compute; reflexivity|]. split; vm_compute; reflexivity.
Qed.
