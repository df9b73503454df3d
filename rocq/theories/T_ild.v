(** The instruction length decoder recognises exactly the instruction texts of
    the architecture manual, with their length and class (C51), and is safe on
    any bytes (C52). *)

From Coq Require Import List NArith ZArith Bool Lia.
From Coq Require Import ZifyBool ZifyNat ZifyN.
From Verif Require Import Base M_event M_ildtab M_ild S_x86 L_ild L_ild2 L_ild3
  L_ild4 L_ild5 L_ild6.
Import ListNotations.
Open Scope N_scope.

(** C51.  Every instruction text is recognised wherever it ends before the end
    of the buffer, with its own length and class.  Nothing else is. *)
Theorem C51_recognised : forall m x rest size,
  m <> ptem_unknown -> x86_wf m x -> bytes_ok rest ->
  (length (render x) <= size <= length (render x ++ rest))%nat ->
  pt_ild_decode (render x ++ rest) size m
  = (length (render x), Ok (meaning m x)).
Proof.
  intros m x rest size Hm Hw Hr [H1 H2].
  apply ild_complete; try assumption.
  - unfold bytes_ok in *. apply Forall_app. split; [apply Hw|exact Hr].
  - apply firstn_at. rewrite firstn_app, firstn_all, Nat.sub_diag.
    cbn. apply app_nil_r.
Qed.

Theorem C51_only : forall m raw size n r,
  m <> ptem_unknown -> bytes_ok raw -> (size <= length raw)%nat ->
  pt_ild_decode raw size m = (n, Ok r) ->
  exists x, x86_wf m x /\ firstn n raw = render x /\ (n <= size)%nat
    /\ n = length (render x) /\ r = meaning m x.
Proof.
  intros m raw size n r Hm Hb Hs H.
  destruct (ild_sound m raw size n r Hm Hb Hs H) as (x & W & A & E & L & R).
  exists x. split; [exact W|]. split; [|split; [exact L|split; [exact E|exact R]]].
  rewrite E. now apply at_firstn.
Qed.

(** No instruction text is a proper prefix of another, and a text has only one
    reading as far as its class is concerned. *)
Theorem C51_unique : forall m x y rest,
  m <> ptem_unknown -> x86_wf m x -> x86_wf m y -> render y = render x ++ rest ->
  rest = [] /\ meaning m x = meaning m y.
Proof.
  intros m x y rest Hm Wx Wy E.
  assert (Hr : bytes_ok rest).
  { destruct Wy as (_ & _ & _ & _ & _ & _ & W). rewrite E in W.
    unfold bytes_ok in *. apply Forall_app in W. apply W. }
  assert (L : length (render y) = (length (render x) + length rest)%nat)
    by (rewrite E; apply app_length).
  pose proof (C51_recognised m x rest (length (render y)) Hm Wx Hr) as H1.
  rewrite <- E in H1. specialize (H1 ltac:(lia)).
  assert (Hn : bytes_ok []) by constructor.
  pose proof (C51_recognised m y [] (length (render y)) Hm Wy Hn) as H2.
  rewrite app_nil_r in H2. specialize (H2 ltac:(lia)).
  rewrite H1 in H2. injection H2 as H2 H3. split; [|exact H3].
  destruct rest; [reflexivity|]. cbn [length] in L. lia.
Qed.

(** C52.  On any bytes in any mode, the decoder answers with a size between one
    and the number of bytes given to it, or with -pte_bad_insn.  The one exception
    is stated exactly: the last two bytes of the buffer are a REX2 prefix. *)
Theorem C52_safe : forall m raw size,
  bytes_ok raw -> (size <= length raw)%nat -> ~ rex2_at_end m raw size ->
  (exists n r, pt_ild_decode raw size m = (n, Ok r) /\ (1 <= n <= size)%nat)
  \/ pt_ild_decode raw size m = (size, Err pte_bad_insn).
Proof.
  intros m raw size Hb Hs Hn.
  destruct (ild_any m raw size Hb Hs) as [[_ H]|[H _]]; [exact H|contradiction].
Qed.

Theorem C52_overread : forall m raw size,
  bytes_ok raw -> (size <= length raw)%nat ->
  (rex2_at_end m raw size <-> snd (pt_ild_decode raw size m) = UB ub_oob_read).
Proof.
  intros m raw size Hb Hs.
  destruct (ild_any m raw size Hb Hs) as [[H1 H2]|[H1 H2]].
  - split; [contradiction|]. intros E.
    destruct H2 as [(n & r & H2 & _)|H2]; rewrite H2 in E; discriminate E.
  - split; [|intros _; exact H1]. intros _. now rewrite H2.
Qed.

(** The bytes of struct pt_insn, of which there are 15, can end in REX2. *)
Theorem C52_overread_refuted :
  ~ (forall m raw size, bytes_ok raw -> length raw = 15%nat -> (size <= 15)%nat ->
     forall u, snd (pt_ild_decode raw size m) <> UB u).
Proof.
  intros H.
  specialize (H ptem_64bit (repeat 0x66 13 ++ [0xd5; 0]) 15%nat).
  refine (H _ _ _ ub_oob_read _); [|reflexivity|lia|vm_compute; reflexivity].
  repeat constructor.
Qed.

(** The answer depends only on the bytes given to the decoder. *)
Theorem C52_local : forall m raw1 raw2 size,
  m <> ptem_unknown -> bytes_ok raw1 -> bytes_ok raw2 ->
  (size < length raw1)%nat -> (size < length raw2)%nat ->
  firstn size raw1 = firstn size raw2 ->
  pt_ild_decode raw1 size m = pt_ild_decode raw2 size m.
Proof.
  assert (G : forall m raw1 raw2 size n r,
    m <> ptem_unknown -> bytes_ok raw1 -> bytes_ok raw2 ->
    (size <= length raw1)%nat -> (size <= length raw2)%nat ->
    firstn size raw1 = firstn size raw2 ->
    pt_ild_decode raw1 size m = (n, Ok r) -> pt_ild_decode raw2 size m = (n, Ok r)).
  { intros m raw1 raw2 size n r Hm B1 B2 L1 L2 E H.
    destruct (ild_sound m raw1 size n r Hm B1 L1 H) as (x & W & A & En & L & R).
    rewrite R, En. apply ild_complete; try assumption; [|rewrite <- En; exact L].
    apply firstn_at. apply at_firstn in A.
    rewrite <- A at 2. rewrite <- En in *.
    replace (firstn n raw2) with (firstn n (firstn size raw2))
      by (rewrite firstn_firstn; f_equal; lia).
    rewrite <- E, firstn_firstn. f_equal. lia. }
  intros m raw1 raw2 size Hm B1 B2 L1 L2 E.
  assert (N : forall raw, (size < length raw)%nat -> ~ rex2_at_end m raw size)
    by (intros raw L (_ & Q & _); lia).
  destruct (C52_safe m raw1 size B1 ltac:(lia) (N _ L1)) as [(n & r & H & _)|H].
  - rewrite H. symmetry. eapply G; [exact Hm|exact B1|exact B2| | |exact E|exact H]; lia.
  - destruct (C52_safe m raw2 size B2 ltac:(lia) (N _ L2)) as [(n & r & H' & _)|H'].
    + rewrite (G m raw2 raw1 size n r Hm B2 B1 ltac:(lia) ltac:(lia) (eq_sym E) H') in H.
      discriminate H.
    + congruence.
Qed.

(** An instruction of which the last bytes are missing is not recognised. *)
Theorem C52_truncated : forall m x rest size,
  m <> ptem_unknown -> x86_wf m x -> bytes_ok rest ->
  (size < length (render x))%nat ->
  pt_ild_decode (render x ++ rest) size m = (size, Err pte_bad_insn).
Proof.
  intros m x rest size Hm W Hr Hs.
  assert (B : bytes_ok (render x ++ rest)).
  { unfold bytes_ok in *. apply Forall_app. split; [apply W|exact Hr]. }
  assert (L : (size < length (render x ++ rest))%nat)
    by (rewrite app_length; lia).
  assert (N : ~ rex2_at_end m (render x ++ rest) size) by (intros (_ & Q & _); lia).
  destruct (C52_safe m (render x ++ rest) size B ltac:(lia) N)
    as [(n & r & H & _)|H]; [|exact H].
  exfalso.
  destruct (C51_only m _ size n r Hm B ltac:(lia) H) as (y & Wy & E & Ln & En & _).
  assert (Ex : render x = render y ++ skipn n (render x)).
  { rewrite <- E, firstn_app.
    replace (n - length (render x))%nat with 0%nat by lia.
    cbn [firstn]. rewrite app_nil_r. symmetry. apply firstn_skipn. }
  destruct (C51_unique m y x _ Hm Wy W Ex) as [Q _].
  rewrite Q, app_nil_r in Ex. rewrite Ex in Hs. lia.
Qed.

(** Nothing in the bytes is an instruction text if the decoder says so. *)
Theorem C52_rejected : forall m raw size,
  m <> ptem_unknown -> bytes_ok raw -> (size <= length raw)%nat ->
  snd (pt_ild_decode raw size m) = Err pte_bad_insn ->
  forall x, x86_wf m x -> (length (render x) <= size)%nat ->
  firstn (length (render x)) raw <> render x.
Proof.
  intros m raw size Hm Hb Hs H x W L E.
  rewrite (ild_complete m x raw size Hm W Hb Hs (firstn_at _ _ E) L) in H.
  discriminate H.
Qed.

(** Examples. *)
Definition mov_rax_imm64 : x86 :=
  mk_x86 [0x48] Legacy 0 0xb8 [] [] [] [1; 2; 3; 4; 5; 6; 7; 8].
Definition jz_minus2 : x86 := mk_x86 [0x2e] Legacy 0 0x74 [] [] [0xfe] [].
Definition call_mem_sib : x86 :=
  mk_x86 [0x66; 0x48] Legacy 0 0xff [0x94] [0xc8] [0; 1; 0; 0] [].
Definition vpcmp : x86 := mk_x86 [] (Evex 0xf3 0x75 0x48) 3 0x3e [0xc9] [] [] [4].
Definition jmpabs : x86 :=
  mk_x86 [] (Rex2 0) 0 0xa1 [] [] [8; 7; 6; 5; 4; 3; 2; 1] [].
Definition lds32 : x86 := mk_x86 [] Legacy 0 0xc5 [0x45] [] [0x10] [].
Definition call16 : x86 := mk_x86 [] Legacy 0 0xe8 [] [] [0x00; 0x80] [].

Ltac wf :=
  unfold x86_wf; repeat split; try (vm_compute; congruence);
  try (repeat constructor; fail); try (vm_compute; repeat constructor; discriminate).

Example C51_ex_mov : x86_wf ptem_64bit mov_rax_imm64.
Proof. wf. Qed.
Example C51_ex_jz : x86_wf ptem_64bit jz_minus2
  /\ meaning ptem_64bit jz_minus2 = (ptic_cond_jump, mk_iext PTI_JCC (-2) true).
Proof. split; [wf|reflexivity]. Qed.
Example C51_ex_call : x86_wf ptem_64bit call_mem_sib
  /\ fst (meaning ptem_64bit call_mem_sib) = ptic_call
  /\ length (render call_mem_sib) = 9%nat.
Proof. split; [wf|split; reflexivity]. Qed.
Example C51_ex_vpcmp : x86_wf ptem_64bit vpcmp
  /\ fst (meaning ptem_64bit vpcmp) = ptic_other.
Proof. split; [wf|reflexivity]. Qed.
Example C51_ex_jmpabs : x86_wf ptem_64bit jmpabs
  /\ meaning ptem_64bit jmpabs
     = (ptic_jump, mk_iext PTI_JMPABS 0x0102030405060708 true).
Proof. split; [wf|reflexivity]. Qed.
Example C51_ex_lds : x86_wf ptem_32bit lds32
  /\ pt_ild_decode (render lds32 ++ [0x90]) 4 ptem_32bit
     = (3%nat, Ok (ptic_other, mk_iext PTI_INVALID 0 false)).
Proof. split; [wf|reflexivity]. Qed.
Example C51_ex_call16 : x86_wf ptem_16bit call16
  /\ pt_ild_decode (render call16 ++ [0x90]) 4 ptem_16bit
     = (3%nat, Ok (ptic_call, mk_iext PTI_CALL_E8 (-32768) true)).
Proof. split; [wf|reflexivity]. Qed.
Example C52_ex_trunc :
  pt_ild_decode (render mov_rax_imm64 ++ [0x90]) 9 ptem_64bit
  = (9%nat, Err pte_bad_insn).
Proof. reflexivity. Qed.
Example C52_ex_unknown :
  pt_ild_decode [0xe8; 1; 2; 3; 4; 5] 6 ptem_unknown
  = (3%nat, Ok (ptic_call, mk_iext PTI_CALL_E8 513 true)).
Proof. reflexivity. Qed.
Example C52_ex_rejected :
  pt_ild_decode [0x0f; 0x39; 0; 0] 3 ptem_64bit = (3%nat, Err pte_bad_insn).
Proof. reflexivity. Qed.

Print Assumptions C51_recognised.
Print Assumptions C51_only.
Print Assumptions C51_unique.
Print Assumptions C52_safe.
Print Assumptions C52_overread.
Print Assumptions C52_overread_refuted.
Print Assumptions C52_local.
Print Assumptions C52_truncated.
Print Assumptions C52_rejected.
