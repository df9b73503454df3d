(** Theorems about the small stateful components: C07 (IP compression), C13 (TNT
    cache), C14 (return stack), C23 (block cache). *)

From Verif Require Import Base M_packet M_bcache M_tnt M_retstack M_lastip S_core L_core.
From Coq Require Import List NArith ZArith PeanoNat Bool Lia.
Import ListNotations.
Open Scope N_scope.

(** C07.  For every sequence of correctly compressed or suppressed IPs, asking for
    the IP after each packet gives exactly the original IP, or the documented error. *)
Theorem C07_last_ip_lossless ps ans :
  ip_history None ps ans -> answers last_ip_step pt_last_ip_init ps = ans.
Proof. intros H. eapply ip_history_answers; [exact H| | |]; reflexivity. Qed.

Example C07_case :
  answers last_ip_step pt_last_ip_init
    [mk_ip 0 0; mk_ip 6 0xffffffff81000000; mk_ip 1 0x1234; mk_ip 0 0; mk_ip 2 0x82005678;
     mk_ip 3 0x800000000000; mk_ip 4 0x7fff12345678]
  = [Err pte_noip; Ok 0xffffffff81000000; Ok 0xffffffff81001234; Err pte_ip_suppressed;
     Ok 0xffffffff82005678; Ok 0xffff800000000000; Ok 0xffff7fff12345678].
Proof.
  apply C07_last_ip_lossless.
  apply ih_suppressed; [reflexivity|].
  apply ih_ip; [split; [reflexivity|]; right; right; right; right; split; reflexivity|].
  apply ih_ip; [split; [reflexivity|]; left; repeat split; reflexivity|].
  apply (ih_suppressed (Some _)); [reflexivity|].
  apply ih_ip; [split; [reflexivity|]; right; left; repeat split; reflexivity|].
  apply ih_ip; [split; [reflexivity|]; right; right; left; split; [reflexivity|];
                split; [reflexivity|]; right; discriminate|].
  apply ih_ip; [split; [reflexivity|]; right; right; right; left; repeat split; reflexivity|].
  apply ih_nil.
Qed.

(** C07, errors: a payload with an unknown compression is refused and leaves the
    state as it was. *)
Theorem C07_bad_compression l p :
  ip_ipc p = 5 \/ 6 < ip_ipc p -> pt_last_ip_update_ip l p = (l, Err pte_bad_packet).
Proof.
  intros H. unfold pt_last_ip_update_ip.
  unfold pt_ipc_suppressed, pt_ipc_sext_48, pt_ipc_update_16, pt_ipc_update_32,
    pt_ipc_update_48, pt_ipc_full.
  repeat match goal with |- context [?a =? ?b] => destruct (N.eqb_spec a b); [lia|] end.
  reflexivity.
Qed.

Example C07_bad_compression_case :
  pt_last_ip_update_ip (mk_last_ip 7 true false) (mk_ip 5 1)
  = (mk_last_ip 7 true false, Err pte_bad_packet).
Proof. apply C07_bad_compression. left. reflexivity. Qed.

(** C13.  The TNT cache answers every sequence of requests like a FIFO of bits. *)
Theorem C13_tnt_fifo ops :
  Forall tnt_op_ok ops ->
  answers tnt_step pt_tnt_cache_init ops = answers fifo_step [] ops.
Proof.
  intros H. apply (answers_sim tnt_step fifo_step tnt_rep tnt_op_ok); [|  |exact H].
  - intros. apply tnt_step_sim; assumption.
  - split; [cbn; lia|]. split; reflexivity.
Qed.

Example C13_case :
  answers tnt_step pt_tnt_cache_init
    [TntAdd 5 3; TntQuery; TntAdd 0xff 1; TntQuery; TntQuery; TntQuery; TntQuery;
     TntAdd 0 47; TntAdd 0 47; TntIsEmpty]
  = [AnsAdd (Ok tt); AnsBit (Ok true); AnsAdd (Ok tt); AnsBit (Ok false);
     AnsBit (Ok true); AnsBit (Ok true); AnsBit (Err pte_bad_query); AnsAdd (Ok tt);
     AnsAdd (Err pte_overflow); AnsEmpty false].
Proof. rewrite C13_tnt_fifo; [reflexivity|]. repeat constructor. Qed.

(** C14.  The return stack answers every sequence of requests like a list of the
    newest 64 addresses.  The array may initially hold anything. *)
Theorem C14_retstack_lifo stack ops :
  length stack = 65%nat ->
  answers rs_step (pt_retstack_init stack) ops = answers lifo_step [] ops.
Proof.
  intros H. apply (answers_sim rs_step lifo_step rs_rep (fun _ => True)).
  - intros. apply rs_step_sim; assumption.
  - apply rs_rep_init. exact H.
  - clear. induction ops; constructor; trivial.
Qed.

Example C14_case :
  answers rs_step (pt_retstack_init (repeat 0 65))
    (map (fun n => RsPush (N.of_nat n)) (seq 0 66) ++ [RsPop; RsPop] ++ repeat RsPop 63)
  = repeat (RaPush (Ok tt)) 66 ++ [RaPop (Ok 65); RaPop (Ok 64)]
    ++ map (fun n => RaPop (Ok (N.of_nat n))) (rev (seq 2 62))
    ++ [RaPop (Err pte_retstack_empty)].
Proof. rewrite C14_retstack_lifo; reflexivity. Qed.

(** C23.  The block cache answers every sequence of requests like a finite map.  An
    addition or lookup is a single atomic access, so this covers every interleaving
    of the requests of several threads. *)
Theorem C23_bcache_map ok n c ops :
  pt_bcache_alloc ok n = Some c -> answers bc_step c ops = answers (map_step n) [] ops.
Proof.
  intros H. apply (answers_sim bc_step (map_step n) (bc_rep n) (fun _ => True)).
  - intros. apply bc_step_sim; assumption.
  - eapply bc_rep_init. exact H.
  - clear. induction ops; constructor; trivial.
Qed.

Theorem C23_alloc ok n :
  (exists c, pt_bcache_alloc ok n = Some c) <-> ok = true /\ 0 < n <= 0xffffffff.
Proof.
  unfold pt_bcache_alloc.
  destruct (N.eqb_spec n 0), (N.ltb_spec 0xffffffff n); cbn [orb].
  all: try (split; [intros [c [=]]|intros [_ H']; lia]).
  destruct ok; cbn [negb].
  - split; [intros _; split; [reflexivity|lia]|intros _; eexists; reflexivity].
  - split; [intros [c [=]]|intros [[=] _]].
Qed.

Example C23_case :
  let e := mk_bce 5%Z 2 3 1 2 in
  answers bc_step (repeat bce_zero 4)
    [BcLookup 1; BcAdd 1 e; BcLookup 1; BcLookup 2; BcAdd 4 e; BcLookup 4]
  = [BaLookup (Ok bce_zero); BaAdd (Ok tt); BaLookup (Ok e); BaLookup (Ok bce_zero);
     BaAdd (Err pte_internal); BaLookup (Err pte_internal)].
Proof. intros e. rewrite (C23_bcache_map true 4); reflexivity. Qed.

Print Assumptions C07_last_ip_lossless.
Print Assumptions C07_bad_compression.
Print Assumptions C13_tnt_fifo.
Print Assumptions C14_retstack_lifo.
Print Assumptions C23_bcache_map.
Print Assumptions C23_alloc.
