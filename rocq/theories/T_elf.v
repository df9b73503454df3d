(** C69: an ELF file is loaded into the image as its program headers say. *)

From Coq Require Import List NArith Bool PeanoNat Lia.
From Verif Require Import Base M_asid M_section M_image M_elf S_config S_image S_imgdec L_imghist L_imgfind
  T_imgdec S_elf L_elf.
Import ListNotations.
Open Scope N_scope.

Lemma fread_some f pos n : pos + n <= fsize f -> exists l, fread f pos n = Some l.
Proof. intros H. unfold fread. destruct (N.leb_spec (pos + n) (fsize f)); [eauto|lia]. Qed.
Lemma fread_none f pos n : fread f pos n = None -> fsize f < pos + n.
Proof. unfold fread. destruct (N.leb_spec (pos + n) (fsize f)); [discriminate|auto]. Qed.
Lemma member_is f n l off w v : fread f 0 n = Some l -> N.of_nat off + N.of_nat w <= n ->
  holds f (N.of_nat off) w v -> member l off w = v.
Proof. intros R H Hv. apply (holds_fun f w (N.of_nat off)); [|exact Hv]. apply (holds_member f 0 n l off w R H). Qed.

Lemma placed_fun base all s a b : placed base all s a -> placed base all s b -> a = b.
Proof.
  intros (P1 & P2) (Q1 & Q2). destruct (N.eq_dec base 0) as [Z|Z]; [rewrite P1, Q1 by exact Z; reflexivity|].
  destruct (P2 Z) as (low & ((s1 & I1 & A1 & V1) & L1) & ->), (Q2 Z) as (low' & ((s2 & I2 & A2 & V2) & L2) & ->).
  specialize (L1 s2 I2 A2). specialize (L2 s1 I1 A1). replace low' with low by lia. reflexivity.
Qed.

Section LOADER.
  Context {E : Type} (load : E -> N -> N -> N -> E * res unit).

  Lemma header c f l : elf_file f c l -> exists phoff, segments_at c f phoff l /\
    forall base e, load_elf load (Some f) base e =
      load_phdrs load f base (segment_size c) (reads c) phoff (N.of_nat (length l)) e.
  Proof.
    intros (Hs & M0 & M1 & M2 & M3 & Hc & phoff & Hp & Hd & Hl). exists phoff. split; [exact Hl|]. intros base e.
    destruct (fread_some f 0 16) as (id & R); [destruct c; cbn [header_size] in Hs; lia|].
    unfold load_elf. rewrite R.
    rewrite (member_is f 16 id 0 1 _ R ltac:(cbn; lia) M0), (member_is f 16 id 1 1 _ R ltac:(cbn; lia) M1),
      (member_is f 16 id 2 1 _ R ltac:(cbn; lia) M2), (member_is f 16 id 3 1 _ R ltac:(cbn; lia) M3),
      (member_is f 16 id 4 1 _ R ltac:(cbn; lia) Hc).
    destruct c; cbn [negb andb N.eqb Pos.eqb header_size segment_size reads] in *; destruct Hd as (Hd1 & Hd2).
    - unfold load_elf32. destruct (fread_some f 0 52 Hs) as (h & Rh). rewrite Rh.
      rewrite (member_is f 52 h 28 4 _ Rh ltac:(cbn; lia) Hd1), (member_is f 52 h 44 2 _ Rh ltac:(cbn; lia) Hd2). reflexivity.
    - unfold load_elf64. destruct (fread_some f 0 64 Hs) as (h & Rh). rewrite Rh.
      rewrite (member_is f 64 h 32 8 _ Rh ltac:(cbn; lia) Hd1), (member_is f 64 h 56 2 _ Rh ltac:(cbn; lia) Hd2).
      destruct (N.ltb_spec LONG_MAX phoff) as [L|L]; [|reflexivity]. exfalso. unfold LONG_MAX in L.
      change (2 ^ 63) with 9223372036854775808 in *. lia.
  Qed.

  (** Every ELF file is loaded: the bytes of each segment that has any, in the order of the
      program headers, at the place that the file and the base say.  This holds whatever
      becomes of the single calls, unless they are undefined. *)
  Theorem C69_loads f c l base : bytes_ok f -> base < 2 ^ 64 -> elf_file f c l ->
    exists cs, loads base l l cs /\ forall e, along load e cs ->
      load_elf load (Some f) base e = (calls load e cs, Ok tt).
  Proof.
    intros Hf Hb He. destruct (header _ _ _ He) as (phoff & Hl & H).
    destruct (phdrs_all load _ _ _ _ _ Hf Hb Hl) as (cs & L & R). exists cs. split; [exact L|]. intros e A.
    rewrite H. exact (R e A).
  Qed.

  (** There are no other calls: the description gives the calls. *)
  Theorem C69_determined base all l cs cs' : loads base all l cs -> loads base all l cs' -> cs = cs'.
  Proof.
    intros H. revert cs'. induction H as [|s l cs Ns H IH|s l cs a Ls P H IH]; intros cs' H'; inversion H'; subst; auto; try contradiction.
    f_equal; [|auto]. f_equal. eapply placed_fun; eassumption.
  Qed.

  (** With a base, the lowest segment that is loaded is there. *)
  Theorem C69_base base all s a : base <> 0 -> base < 2 ^ 64 -> placed base all s a ->
    lowest all (sg_vaddr s) -> a = base.
  Proof.
    intros Z B (_ & P) (_ & L). destruct (P Z) as (low & ((s1 & I1 & A1 & <-) & L1) & ->).
    specialize (L s1 I1 A1). rewrite (proj2 (N.sub_0_le _ _) L), N.add_0_r. apply N.mod_small, B.
  Qed.

  Hypothesis fine : forall e o s a u, snd (load e o s a) <> UB u.

  Lemma header_bad f base e : bytes_ok f ->
    (exists c l, elf_file f c l) \/
    (exists e', load_elf load (Some f) base e = (e', Err pte_bad_config) /\ (base <> 0 -> e' = e)).
  Proof.
    intros Hf. unfold load_elf. destruct (fread f 0 16) as [id|] eqn:R; [|right; eauto].
    assert (W : forall off, (off <= 4)%nat -> holds f (N.of_nat off) 1 (member id off 1)).
    { intros off Ho. apply (holds_member f 0 16 id off 1 R). lia. }
    pose proof (W 0%nat ltac:(lia)) as W0. pose proof (W 1%nat ltac:(lia)) as W1. pose proof (W 2%nat ltac:(lia)) as W2.
    pose proof (W 3%nat ltac:(lia)) as W3. pose proof (W 4%nat ltac:(lia)) as W4. clear W.
    destruct (N.eqb_spec (member id 0 1) 127) as [E0|]; cbn [negb andb]; [|right; eauto].
    destruct (N.eqb_spec (member id 1 1) 69) as [E1|]; cbn [negb andb]; [|right; eauto].
    destruct (N.eqb_spec (member id 2 1) 76) as [E2|]; cbn [negb andb]; [|right; eauto].
    destruct (N.eqb_spec (member id 3 1) 70) as [E3|]; cbn [negb andb]; [|right; eauto].
    rewrite E0 in W0. rewrite E1 in W1. rewrite E2 in W2. rewrite E3 in W3.
    assert (K : forall c phoff phnum, (phoff < 2 ^ 63) -> holds f 4 1 (match c with C32 => 1 | C64 => 2 end) ->
      header_size c <= fsize f ->
      match c with C32 => holds f 28 4 phoff /\ holds f 44 2 phnum | C64 => holds f 32 8 phoff /\ holds f 56 2 phnum end ->
      (exists c l, elf_file f c l) \/
      (exists e', load_phdrs load f base (segment_size c) (reads c) phoff phnum e = (e', Err pte_bad_config) /\ (base <> 0 -> e' = e))).
    { intros c phoff phnum Hp Hc Hh Hd. destruct (read_all c f (N.to_nat phnum) phoff) as [(l & L & H)|(k & l & K & L & H & N0)].
      - left. exists c, l. repeat (split; [assumption|]). exists phoff. split; [exact Hp|]. rewrite L, N2Nat.id. split; assumption.
      - right. rewrite <- (N2Nat.id phnum). rewrite <- L in *. eapply phdrs_short; [exact fine|exact H|exact K|exact N0]. }
    destruct (N.eqb_spec (member id 4 1) 1) as [E4|].
    - rewrite E4 in W4. unfold load_elf32. destruct (fread f 0 52) as [h|] eqn:Rh; [|right; eauto].
      pose proof (holds_member f 0 52 h 28 4 Rh ltac:(cbn; lia)) as P1. pose proof (holds_member f 0 52 h 44 2 Rh ltac:(cbn; lia)) as P2.
      apply (K C32); [|exact W4| |split; [exact P1|exact P2]].
      + apply (holds_bound _ _ Hf) in P1. cbn in P1 |- *. lia.
      + unfold fread in Rh. destruct (N.leb_spec (0 + 52) (fsize f)); [cbn; lia|discriminate Rh].
    - destruct (N.eqb_spec (member id 4 1) 2) as [E5|]; [|right; eauto].
      rewrite E5 in W4. unfold load_elf64. destruct (fread f 0 64) as [h|] eqn:Rh; [|right; eauto].
      pose proof (holds_member f 0 64 h 32 8 Rh ltac:(cbn; lia)) as P1. pose proof (holds_member f 0 64 h 56 2 Rh ltac:(cbn; lia)) as P2.
      destruct (N.ltb_spec LONG_MAX (member h 32 8)) as [|B]; [right; eauto|].
      apply (K C64); [|exact W4| |split; [exact P1|exact P2]].
      + unfold LONG_MAX in B. change (2 ^ 63) with 9223372036854775808 in *. lia.
      + unfold fread in Rh. destruct (N.leb_spec (0 + 64) (fsize f)); [cbn; lia|discriminate Rh].
  Qed.

  (** Every other file is refused; with a base other than zero, nothing is loaded then. *)
  Theorem C69_refused f base e : bytes_ok f -> base < 2 ^ 64 ->
    let (e', r) := load_elf load (Some f) base e in
    (r = Ok tt /\ exists c l, elf_file f c l) \/
    (r = Err pte_bad_config /\ (~ exists c l, elf_file f c l) /\ (base <> 0 -> e' = e)).
  Proof.
    intros Hf Hb. destruct (header_bad f base e Hf) as [(c & l & He)|(e' & He & Hz)].
    - destruct (C69_loads f c l base Hf Hb He) as (cs & _ & R). rewrite R by (apply along_fine; exact fine). left. eauto.
    - rewrite He. right. split; [reflexivity|]. split; [|exact Hz]. intros (c & l & X).
      destruct (C69_loads f c l base Hf Hb X) as (cs & _ & R). rewrite R in He by (apply along_fine; exact fine). discriminate He.
  Qed.
End LOADER.

(** ** Images *)

Section IMAGE.
  Context (name : N) (fresh : nat -> nat) (mem : nat -> list bool) (size_of : nat -> res N).
  Notation load := (load_section_file name fresh mem size_of).
  Notation ops := (file_calls name fresh mem size_of).

  Lemma file_run : forall cs k rf h s, hinv rf h s -> callers_may rf s (ops k cs) ->
    along load (k, s) cs /\ calls load (k, s) cs = ((k + length cs)%nat, fst (irun s h (ops k cs))).
  Proof.
    induction cs as [|[[o n] a] cs IH]; intros k rf h [w img] Hi Hc.
    - split; [exact I|]. cbn. f_equal. lia.
    - cbn [file_calls callers_may] in Hc. destruct Hc as (Hm & Hc). cbn [file_calls irun along].
      destruct (istep (w, img) _) as [s' r] eqn:St. destruct (hinv_step _ _ _ _ _ _ Hi Hm St) as (Hi' & Ok').
      assert (Sl : load (k, (w, img)) o n a = ((S k, s'), match r with ADone r => r | _ => Ok tt end)).
      { cbn [istep] in St. unfold load_section_file. change pt_asid_init with (mk_asid (2 ^ 64 - 1) (2 ^ 64 - 1)).
        destruct (pt_image_add_file w (mem k) img (fresh k) name (size_of k) o n (mk_asid (2 ^ 64 - 1) (2 ^ 64 - 1)) a) as [[w' img'] r'].
        injection St as <- <-. reflexivity. }
      unfold calls. cbn [fold_left]. rewrite Sl. cbn [fst snd] in *. destruct (IH (S k) _ _ _ Hi' Hc) as (A & C).
      split; [split; [|exact A]|].
      + intros u Eu. destruct r as [r| | |]; try discriminate Eu. subst r. exact (Ok' u eq_refl).
      + unfold calls in C. rewrite C. cbn [length]. f_equal. lia.
  Qed.

  (** Without a section cache, the image afterwards is the one after calls of
      pt_image_add_file(), one for each segment. *)
  Theorem C69_image f c l base rf w : bytes_ok f -> base < 2 ^ 64 -> elf_file f c l -> held rf w ->
    exists cs, loads base l l cs /\ (callers_may rf (w, []) (ops 0 cs) ->
      load_elf load (Some f) base (O, (w, [])) = ((length cs, fst (after w (ops 0 cs))), Ok tt)).
  Proof.
    intros Hf Hb He Hw. destruct (C69_loads load f c l base Hf Hb He) as (cs & L & R). exists cs. split; [exact L|]. intros Hc.
    destruct (file_run cs O rf [] (w, []) (hinv_start _ _ Hw) Hc) as (A & C). etransitivity; [exact (R _ A)|]. rewrite C. reflexivity.
  Qed.

  (** What is visible: the latest segment that was added successfully. *)
  Definition section_of (k : nat) (o n a fs : N) : added :=
    mk_added (mk_section_info (fresh k) name o (N.min n (fs - o))) (mk_asid (2 ^ 64 - 1) (2 ^ 64 - 1)) a 0.

  Lemma any_compatible q : compatible (mk_asid (2 ^ 64 - 1) (2 ^ 64 - 1)) q.
  Proof. split; right; left; reflexivity. Qed.

  Lemma calls_app_end : forall cs k c, ops k (cs ++ [c]) = ops k cs ++ ops (k + length cs) [c].
  Proof.
    induction cs as [|[[o n] a] cs IH]; intros k c; cbn [app file_calls length].
    - destruct c as [[o n] a]. rewrite Nat.add_0_r. reflexivity.
    - rewrite IH. do 2 f_equal. replace (S k + length cs)%nat with (k + S (length cs))%nat by lia. reflexivity.
  Qed.
  Lemma irun_app : forall a b s h, irun s h (a ++ b) = irun (fst (irun s h a)) (snd (irun s h a)) b.
  Proof. induction a as [|o a IH]; intros b s h; [reflexivity|]. cbn [app irun]. destruct (istep s o). apply IH. Qed.
  Lemma irun_length : forall a s h, length (snd (irun s h a)) = (length a + length h)%nat.
  Proof. induction a as [|o a IH]; intros s h; [reflexivity|]. cbn [irun]. destruct (istep s o). rewrite IH. cbn. lia. Qed.
  Lemma ops_length : forall cs k, length (ops k cs) = length cs.
  Proof. induction cs as [|[[o n] a] cs IH]; intros k; cbn; [reflexivity|]. f_equal. apply IH. Qed.

  Theorem C69_visible w cs s x : let h := snd (after w (ops 0 cs)) in
    shows h s x <->
    exists k o n a fs, nth_error cs k = Some (o, n, a) /\ size_of k = Ok fs /\ went_well h k /\
      s = section_of k o n a fs /\ a <= x < a + N.min n (fs - o) /\
      forall k' o' n' a' fs', (k < k')%nat -> nth_error cs k' = Some (o', n', a') -> size_of k' = Ok fs' ->
        went_well h k' -> ~ a' <= x < a' + N.min n' (fs' - o').
  Proof.
    cbv zeta. unfold after. induction cs as [|c cs IH] using rev_ind.
    - cbn. split; [intros []|]. intros (k & o & n & a & fs & H & _). destruct k; discriminate H.
    - rewrite calls_app_end, irun_app. cbn [Nat.add].
      set (h := snd (irun (w, []) [] (ops 0 cs))) in *. set (st := fst (irun (w, []) [] (ops 0 cs))). destruct c as [[o n] a].
      assert (Lh : length h = length cs) by (unfold h; rewrite irun_length, ops_length; cbn; lia).
      cbn [file_calls irun]. destruct (istep st _) as [st' r] eqn:St. cbn [snd].
      set (op := IAddFile (fresh (length cs)) name (size_of (length cs)) o n (mk_asid (2 ^ 64 - 1) (2 ^ 64 - 1)) a (mem (length cs))) in *.
      assert (W : forall k, went_well ((op, r) :: h) k <-> (k < length cs)%nat /\ went_well h k \/ k = length cs /\ r = ADone (Ok tt)).
      { intros k. unfold went_well. cbn [rev]. split.
        - intros (p & Hp). destruct (Nat.lt_ge_cases k (length cs)) as [L|L].
          + left. split; [exact L|]. rewrite nth_error_app1 in Hp by (rewrite rev_length; lia). eauto.
          + right. assert (K := Hp). rewrite nth_error_app2 in Hp by (rewrite rev_length; lia). rewrite rev_length, Lh in Hp.
            destruct (k - length cs)%nat as [|j] eqn:J; [|destruct j; discriminate Hp]. cbn in Hp. split; [lia|congruence].
        - intros [(L & p & Hp)|(-> & ->)]; eexists.
          + rewrite nth_error_app1 by (rewrite rev_length; lia). exact Hp.
          + rewrite nth_error_app2 by (rewrite rev_length; lia). rewrite rev_length, Lh, Nat.sub_diag. reflexivity. }
      assert (Nx : forall k, nth_error (cs ++ [(o, n, a)]) k = if (k <? length cs)%nat then nth_error cs k else if (k =? length cs)%nat then Some (o, n, a) else None).
      { intros k. destruct (Nat.ltb_spec k (length cs)); [apply nth_error_app1; assumption|]. rewrite nth_error_app2 by assumption.
        destruct (Nat.eqb_spec k (length cs)) as [->|]; [rewrite Nat.sub_diag; reflexivity|].
        destruct (k - length cs)%nat as [|j] eqn:J; [lia|]. destruct j; reflexivity. }
      (* A call that adds nothing. *)
      assert (Same : (forall fs, size_of (length cs) = Ok fs -> r <> ADone (Ok tt)) ->
        (shows h s x <-> exists k o0 n0 a0 fs, nth_error (cs ++ [(o, n, a)]) k = Some (o0, n0, a0) /\ size_of k = Ok fs /\
          went_well ((op, r) :: h) k /\ s = section_of k o0 n0 a0 fs /\ a0 <= x < a0 + N.min n0 (fs - o0) /\
          forall k' o' n' a' fs', (k < k')%nat -> nth_error (cs ++ [(o, n, a)]) k' = Some (o', n', a') -> size_of k' = Ok fs' ->
            went_well ((op, r) :: h) k' -> ~ a' <= x < a' + N.min n' (fs' - o'))).
      { intros Nr. rewrite IH. split; intros (k & o0 & n0 & a0 & fs & H1 & H2 & H3 & H4 & H5 & H6).
        - assert (K : (k < length cs)%nat) by (apply nth_error_Some; congruence).
          exists k, o0, n0, a0, fs. rewrite Nx, (proj2 (Nat.ltb_lt _ _) K). repeat (split; [assumption|]).
          split; [apply W; left; auto|]. split; [exact H4|]. split; [exact H5|].
          intros k' o' n' a' fs' Hk Hn Hs Hw. apply W in Hw. destruct Hw as [(L & Hw)|(-> & ->)].
          + rewrite Nx, (proj2 (Nat.ltb_lt _ _) L) in Hn. exact (H6 k' o' n' a' fs' Hk Hn Hs Hw).
          + exfalso. exact (Nr _ Hs eq_refl).
        - apply W in H3. destruct H3 as [(L & H3)|(-> & ->)]; [|exfalso; exact (Nr _ H2 eq_refl)].
          rewrite Nx, (proj2 (Nat.ltb_lt _ _) L) in H1. exists k, o0, n0, a0, fs. repeat (split; [assumption|]).
          intros k' o' n' a' fs' Hk Hn Hs Hw. assert (K : (k' < length cs)%nat) by (apply nth_error_Some; congruence).
          apply (H6 k' o' n' a' fs' Hk); [rewrite Nx, (proj2 (Nat.ltb_lt _ _) K); exact Hn|exact Hs|apply W; left; auto]. }
      unfold op at 1. cbn [shows adds]. destruct (size_of (length cs)) as [fs|er|u] eqn:Sz.
      2,3: cbn [removes]; rewrite <- Same by (intros fs; discriminate); tauto.
      destruct r as [[[]|er|u]| | |]; try (apply Same; intros fs' _; discriminate).
      fold (section_of (length cs) o n a fs). split.
      + intros [(-> & Hc)|(Hs & Hn)].
        * exists (length cs), o, n, a, fs. rewrite Nx, Nat.ltb_irrefl, Nat.eqb_refl. split; [reflexivity|]. split; [exact Sz|].
          split; [apply W; right; auto|]. split; [reflexivity|]. split; [exact Hc|].
          intros k' o' n' a' fs' Hk Hn. rewrite Nx in Hn.
          destruct (Nat.ltb_spec k' (length cs)); [lia|]. destruct (Nat.eqb_spec k' (length cs)); [lia|discriminate Hn].
        * apply IH in Hs. destruct Hs as (k & o0 & n0 & a0 & fs0 & H1 & H2 & H3 & H4 & H5 & H6).
          assert (K : (k < length cs)%nat) by (apply nth_error_Some; congruence).
          exists k, o0, n0, a0, fs0. rewrite Nx, (proj2 (Nat.ltb_lt _ _) K). repeat (split; [assumption|]).
          split; [apply W; left; auto|]. split; [exact H4|]. split; [exact H5|].
          intros k' o' n' a' fs' Hk Hn' Hs' Hw. apply W in Hw. destruct Hw as [(L & Hw)|(-> & _)].
          -- rewrite Nx, (proj2 (Nat.ltb_lt _ _) L) in Hn'. exact (H6 k' o' n' a' fs' Hk Hn' Hs' Hw).
          -- rewrite Nx, Nat.ltb_irrefl, Nat.eqb_refl in Hn'. injection Hn' as <- <- <-. rewrite Sz in Hs'. injection Hs' as <-.
             intros X. apply Hn. split; [rewrite H4; apply any_compatible|exact X].
      + intros (k & o0 & n0 & a0 & fs0 & H1 & H2 & H3 & H4 & H5 & H6). apply W in H3. destruct H3 as [(L & H3)|(-> & _)].
        * right. rewrite Nx, (proj2 (Nat.ltb_lt _ _) L) in H1. split.
          -- apply IH. exists k, o0, n0, a0, fs0. repeat (split; [assumption|]).
             intros k' o' n' a' fs' Hk Hn Hs Hw. assert (K : (k' < length cs)%nat) by (apply nth_error_Some; congruence).
             apply (H6 k' o' n' a' fs' Hk); [rewrite Nx, (proj2 (Nat.ltb_lt _ _) K); exact Hn|exact Hs|apply W; left; auto].
          -- intros (_ & X). apply (H6 (length cs) o n a fs L); [rewrite Nx, Nat.ltb_irrefl, Nat.eqb_refl; reflexivity|exact Sz|apply W; right; auto|exact X].
        * left. rewrite Nx, Nat.ltb_irrefl, Nat.eqb_refl in H1. injection H1 as <- <- <-. rewrite Sz in H2. injection H2 as <-.
          split; [exact H4|exact H5].
  Qed.

  Lemma loads_in base all : forall l cs, loads base all l cs ->
    (forall k o n a, nth_error cs k = Some (o, n, a) -> exists s, In s l /\ loaded s /\ placed base all s a /\ sg_offset s = o /\ sg_filesz s = n) /\
    (forall s, In s l -> loaded s -> exists k a, nth_error cs k = Some (sg_offset s, sg_filesz s, a) /\ placed base all s a).
  Proof.
    intros l cs H. induction H as [|s l cs Ns H (I1 & I2)|s l cs a Ls P H (I1 & I2)].
    - split; [intros [|k] o n a X; discriminate X|intros s []].
    - split.
      + intros k o n a X. destruct (I1 k o n a X) as (s' & Hs & R). exists s'. split; [right; exact Hs|exact R].
      + intros s' [<-|Hs] Hl; [contradiction|exact (I2 s' Hs Hl)].
    - split.
      + intros [|k] o n b X.
        * injection X as <- <- <-. exists s. split; [left; reflexivity|auto].
        * destruct (I1 k o n b X) as (s' & Hs & R). exists s'. split; [right; exact Hs|exact R].
      + intros s' [<-|Hs] Hl; [exists O, a; split; [reflexivity|exact P]|].
        destruct (I2 s' Hs Hl) as (k & b & K). exists (S k), b. exact K.
  Qed.
  Lemma last_cover x : forall cs : list (N * N * N), (exists k o n a, nth_error cs k = Some (o, n, a) /\ a <= x < a + n) ->
    exists k o n a, nth_error cs k = Some (o, n, a) /\ a <= x < a + n /\
      forall k' o' n' a', (k < k')%nat -> nth_error cs k' = Some (o', n', a') -> ~ a' <= x < a' + n'.
  Proof.
    induction cs as [|[[o n] a] cs IH]; intros (k & o1 & n1 & a1 & H & Hx); [destruct k; discriminate H|].
    assert (D : (exists k o n a, nth_error cs k = Some (o, n, a) /\ a <= x < a + n) \/
                (forall k o n a, nth_error cs k = Some (o, n, a) -> ~ a <= x < a + n)).
    { clear. induction cs as [|[[o n] a] cs [IH|IH]].
      - right. intros [|k] o n a H; discriminate H.
      - left. destruct IH as (k & R). exists (S k). exact R.
      - destruct (N.le_gt_cases a x) as [A|A].
        + destruct (N.lt_ge_cases x (a + n)) as [B|B].
          * left. exists O, o, n, a. split; [reflexivity|lia].
          * right. intros [|k] o' n' a' H; [injection H as <- <- <-; lia|exact (IH k o' n' a' H)].
        + right. intros [|k] o' n' a' H; [injection H as <- <- <-; lia|exact (IH k o' n' a' H)]. }
    destruct D as [D|D].
    - destruct (IH D) as (k0 & o0 & n0 & a0 & R1 & R2 & R3). exists (S k0), o0, n0, a0. split; [exact R1|]. split; [exact R2|].
      intros [|k'] o' n' a' L X; [lia|]. apply (R3 k' o' n' a'); [lia|exact X].
    - destruct k as [|k]; [|exfalso; exact (D k o1 n1 a1 H Hx)]. injection H as <- <- <-. exists O, o, n, a. split; [reflexivity|].
      split; [exact Hx|]. intros [|k'] o' n' a' L X; [lia|]. exact (D k' o' n' a' X).
  Qed.

  (** The memory that a decoder sees.  If all calls were successful, each byte of a segment is
      at the segment's address, in every address space, unless another segment is there, too;
      where there is no segment, there is no memory. *)
  Theorem C69_memory f files base l w cs m :
    loads base l l cs -> files name = f -> (forall k, size_of k = Ok (fsize f)) ->
    let h := snd (after w (ops 0 cs)) in
    (forall k, (k < length cs)%nat -> went_well h k) ->
    memory_of files None h m ->
    (forall s a i q, In s l -> loaded s -> placed base l s a -> i < sg_filesz s ->
      sg_offset s + sg_filesz s <= fsize f ->
      (forall s' a', In s' l -> loaded s' -> placed base l s' a' -> a' <= a + i < a' + sg_filesz s' -> s' = s) ->
      exists b, nth_error f (N.to_nat (sg_offset s + i)) = Some b /\ m q (a + i) = Some (b, 0)) /\
    (forall x q, (forall s a, In s l -> loaded s -> placed base l s a -> ~ a <= x < a + sg_filesz s) -> m q x = None).
  Proof.
    intros Hl Hf Hs h Hw [M1 M2]. destruct (loads_in _ _ _ _ Hl) as (L1 & L2). split.
    - intros s a i q Hin Hld Hp Hi Ho Hn. destruct (L2 s Hin Hld) as (k0 & a0 & K0 & P0).
      rewrite (placed_fun _ _ _ _ _ P0 Hp) in K0.
      destruct (last_cover (a + i) cs) as (k & o & n & b & K & X & Hlast); [exists k0, (sg_offset s), (sg_filesz s), a; split; [exact K0|lia]|].
      destruct (L1 k o n b K) as (s' & Hin' & Hld' & Hp' & Eo & En). subst o n.
      assert (s' = s) by (exact (Hn s' b Hin' Hld' Hp' X)). subst s'. rewrite (placed_fun _ _ _ _ _ Hp' Hp) in *. clear b Hp' Hin' Hld'.
      assert (V : shows h (section_of k (sg_offset s) (sg_filesz s) a (fsize f)) (a + i)).
      { apply C69_visible. exists k, (sg_offset s), (sg_filesz s), a, (fsize f). split; [exact K|]. split; [apply Hs|].
        split; [apply Hw, nth_error_Some; congruence|]. split; [reflexivity|]. split; [lia|].
        intros k' o' n' a' fs' L Hk' _ _ Y. apply (Hlast k' o' n' a' L Hk'). lia. }
      destruct (M1 q _ _ V (any_compatible q)) as (b & B & Mb). exists b. split; [|exact Mb].
      unfold byte_of, section_of in B. cbn [ad_sec sc_name sc_offset ad_vaddr] in B. rewrite Hf in B. rewrite <- B. f_equal. lia.
    - intros x q Hn. apply M2. intros s _ Hx. apply C69_visible in Hx.
      destruct Hx as (k & o & n & a & fs & H1 & _ & _ & _ & H5 & _). destruct (L1 k o n a H1) as (s' & I' & Ld & P' & _ & En).
      apply (Hn s' a I' Ld P'). lia.
  Qed.
End IMAGE.

(** ** What does not hold *)

(** A loader that only writes down what it is asked for. *)
Definition log (e : list (N * N * N)) (o n a : N) : list (N * N * N) * res unit := (e ++ [(o, n, a)], Ok tt).

Fixpoint bytes_of (w : nat) (v : N) : list N :=
  match w with O => [] | S w => v mod 256 :: bytes_of w (v / 256) end.
Definition file_header (phoff phnum phentsize : N) : list N :=
  [127; 69; 76; 70; 2; 1; 1; 0; 0; 0; 0; 0; 0; 0; 0; 0] ++ bytes_of 2 2 ++ bytes_of 2 62 ++ bytes_of 4 1 ++ bytes_of 8 0x400000 ++
  bytes_of 8 phoff ++ bytes_of 8 0 ++ bytes_of 4 0 ++ bytes_of 2 64 ++ bytes_of 2 phentsize ++ bytes_of 2 phnum ++ bytes_of 6 0.
Definition program_header (s : segment) (memsz : N) : list N :=
  bytes_of 4 (sg_type s) ++ bytes_of 4 5 ++ bytes_of 8 (sg_offset s) ++ bytes_of 8 (sg_vaddr s) ++ bytes_of 8 (sg_vaddr s) ++
  bytes_of 8 (sg_filesz s) ++ bytes_of 8 memsz ++ bytes_of 8 4096.
Definition ex_segs : list segment :=
  [mk_segment 6 64 0x400040 224; mk_segment 1 288 0x401000 4; mk_segment 1 0 0x400000 0; mk_segment 1 292 0x402000 3].
Definition ex_elf : file :=
  file_header 64 4 56 ++ concat (map (fun s => program_header s (sg_filesz s)) ex_segs) ++ [0xe8; 1; 2; 3; 0xc3; 0x90; 0xcc].

Lemma holds_calc f pos w v : (N.to_nat pos + w <=? length f)%nat = true -> le (firstn w (skipn (N.to_nat pos) f)) = v -> holds f pos w v.
Proof. intros H <-. apply holds_at, Nat.leb_le, H. Qed.
Lemma okb f : forallb (fun b => b <? 256) f = true -> bytes_ok f.
Proof. intros H. apply Forall_forall. intros b Hb. rewrite forallb_forall in H. apply N.ltb_lt, (H b Hb). Qed.
Ltac calc := apply holds_calc; vm_compute; reflexivity.

Lemma ex_elf_is : elf_file ex_elf C64 ex_segs.
Proof.
  unfold elf_file. split; [vm_compute; discriminate|]. do 5 (split; [calc|]). exists 64. split; [reflexivity|].
  split; [split; calc|]. unfold ex_segs. cbn [segments_at segment_at].
  repeat match goal with |- _ /\ _ => split end; try calc; try exact I; vm_compute; discriminate.
Qed.

(** A file that is refused may have been loaded in part when no base is given. *)
Theorem C69_nothing_refuted : ~ (forall f base e, bytes_ok f -> base < 2 ^ 64 ->
  snd (load_elf log (Some f) base e) = Err pte_bad_config -> fst (load_elf log (Some f) base e) = e).
Proof.
  intros H. specialize (H (firstn 200 ex_elf) 0 []).
  assert (X : load_elf log (Some (firstn 200 ex_elf)) 0 [] = ([(288, 4, 0x401000)], Err pte_bad_config)) by (vm_compute; reflexivity).
  rewrite X in H. cbn [fst snd] in H. discriminate (H ltac:(apply okb; vm_compute; reflexivity) ltac:(reflexivity) eq_refl).
Qed.

(** The size of program headers that the file declares is not used: files with bigger ones are
    not loaded as they say. *)
Fixpoint segments_every (size : N) (f : file) (pos : N) (l : list segment) : Prop :=
  match l with
  | [] => True
  | s :: l => pos + size <= fsize f /\ segment_at C64 f pos s /\ segments_every size f (pos + size) l
  end.
Definition ex_wide : list segment := [mk_segment 1 64 0x1000 8; mk_segment 1 128 0x2000 8].
Definition ex_wide_elf : file :=
  file_header 64 2 64 ++ concat (map (fun s => program_header s (sg_filesz s) ++ repeat 0 8) ex_wide).
Theorem C69_stride_refuted : ~ (forall f l size, bytes_ok f ->
  header_size C64 <= fsize f -> holds f 0 1 127 -> holds f 1 1 69 -> holds f 2 1 76 -> holds f 3 1 70 -> holds f 4 1 2 ->
  holds f 54 2 size -> 56 <= size -> holds f 32 8 64 -> holds f 56 2 (N.of_nat (length l)) -> segments_every size f 64 l ->
  exists cs, loads 0 l l cs /\ load_elf log (Some f) 0 [] = (cs, Ok tt)).
Proof.
  intros H. destruct (H ex_wide_elf ex_wide 64) as (cs & L & R);
    try calc; try (apply okb; vm_compute; reflexivity); try (vm_compute; discriminate).
  - unfold ex_wide. cbn [segments_every segment_at]. repeat match goal with |- _ /\ _ => split end; try calc; try exact I; vm_compute; discriminate.
  - assert (X : load_elf log (Some ex_wide_elf) 0 [] = ([(64, 8, 0x1000)], Ok tt)) by (vm_compute; reflexivity).
    pose proof (eq_trans (eq_sym X) R) as Y. injection Y as <-. clear R X.
    assert (L' : loads 0 ex_wide ex_wide [(64, 8, 0x1000); (128, 8, 0x2000)]).
    { apply loads_take; [split; [reflexivity|discriminate]|split; [reflexivity|congruence]|].
      apply loads_take; [split; [reflexivity|discriminate]|split; [reflexivity|congruence]|]. constructor. }
    pose proof (C69_determined _ _ _ _ _ L L') as D. discriminate D.
Qed.

(** ** A case *)

(** A file with four program headers, two of which have bytes to load, moved to 0x7f0000000000.
    The lowest address is that of a segment without bytes. *)
Definition ex_fresh (k : nat) : nat := k.
Definition ex_mem (k : nat) : list bool := repeat true 8.
Definition ex_size (k : nat) : res N := Ok (fsize ex_elf).
Definition ex_w : world := fun _ => mk_scnt 0 0 0 None None None true.
Definition ex_calls : list (N * N * N) := [(288, 4, 0x7f0000001000); (292, 3, 0x7f0000002000)].
Definition ex_file_ops : list iop := file_calls 5 ex_fresh ex_mem ex_size 0 ex_calls.
Definition ex_none : refs := fun _ => 0.
Definition ex_disk (name : N) : file := if name =? 5 then ex_elf else [].
Definition ex_maps (s : section) : res mapping := map_file s (fsize (ex_disk (sc_name s))) 4096 true true true.
Definition ex_load : nat * list (N * N * N) * res unit * (list (N * N * N) * res unit) :=
  match load_elf (load_section_file 5 ex_fresh ex_mem ex_size) (Some ex_elf) 0x7f0000000000 (O, (ex_w, [])) with
  | ((k, (_, img)), r) =>
      (k, map (fun e => (ms_vaddr (en_msec e), sc_offset (ms_sec (en_msec e)), sc_size (ms_sec (en_msec e)))) img, r,
       load_elf log (Some ex_elf) 0 [])
  end.

Definition ex_s0 : added := section_of 5 ex_fresh 0 288 4 0x7f0000001000 295.
Definition ex_s1 : added := section_of 5 ex_fresh 1 292 3 0x7f0000002000 295.
Lemma ex_shown s x : shows (snd (after ex_w ex_file_ops)) s x -> s = ex_s0 \/ s = ex_s1.
Proof.
  intros H. apply C69_visible in H. destruct H as (k & o & n & a & fs & H1 & H2 & _ & -> & _).
  injection H2 as <-. destruct k as [|[|k]]; [| |destruct k; discriminate H1]; injection H1 as <- <- <-; [left|right]; reflexivity.
Qed.
Lemma ex_well k : (k < length ex_calls)%nat -> went_well (snd (after ex_w ex_file_ops)) k.
Proof.
  intros H. assert (X : forallb (fun p => match snd p with ADone (Ok _) => true | _ => false end) (snd (after ex_w ex_file_ops)) = true)
    by (vm_compute; reflexivity).
  assert (L : length (snd (after ex_w ex_file_ops)) = 2%nat) by (vm_compute; reflexivity).
  destruct (nth_error (rev (snd (after ex_w ex_file_ops))) k) as [[o r]|] eqn:En.
  - pose proof (nth_error_In _ _ En) as I0. apply in_rev in I0. rewrite forallb_forall in X. specialize (X _ I0). cbn [snd] in X.
    destruct r as [[[]| |]| | |]; try discriminate X. exists o. exact En.
  - apply nth_error_None in En. rewrite rev_length, L in En. cbn in H. lia.
Qed.
Lemma ex_may : callers_may ex_none (ex_w, []) ex_file_ops.
Proof.
  unfold ex_file_ops, ex_calls. cbn [file_calls callers_may].
  split; [|split; [|exact I]]; (split; [intros n Hn; injection Hn as <-; vm_compute; reflexivity|]);
    (split; [vm_compute; reflexivity|]); (split; [intros fs Hfs; injection Hfs as <-; vm_compute; reflexivity|intros u; discriminate]).
Qed.
Lemma ex_usable : usable ex_disk ex_maps (snd (after ex_w ex_file_ops)) (fst (fst (after ex_w ex_file_ops))).
Proof.
  split.
  - intros s s' x H H'. apply (shows_unique _ s s' x H H').
    apply ex_shown in H, H'. destruct H as [->| ->], H' as [->| ->]; apply any_compatible.
  - intros s s' x x' H H'. apply ex_shown in H, H'. destruct H as [->| ->], H' as [->| ->]; intros X; try reflexivity; vm_compute in X; discriminate X.
  - intros s x H. apply ex_shown in H. destruct H as [->| ->]; cbn [ad_sec ex_s0 ex_s1 section_of];
      (split; [split; [vm_compute; discriminate|vm_compute; reflexivity]|]); apply okb; vm_compute; reflexivity.
  - intros s x H. apply ex_shown in H.
    destruct H as [->| ->]; [exists (MapPosix 0 292 288)|exists (MapPosix 0 295 292)]; exists 295, 4096, true, true, true;
      (split; [split; [vm_compute; discriminate|vm_compute; reflexivity]|]); split; vm_compute; reflexivity.
  - intros s x H. apply ex_shown in H. destruct H as [->| ->]; vm_compute; reflexivity.
  - intros s x H. apply ex_shown in H. destruct H as [->| ->]; split; vm_compute; reflexivity.
Qed.
Lemma ex_lowest : lowest ex_segs 0x400000.
Proof.
  split; [exists (mk_segment 1 0 0x400000 0); split; [right; right; left; reflexivity|split; reflexivity]|].
  intros s Hs _. unfold ex_segs in Hs. repeat (destruct Hs as [<-|Hs]; [vm_compute; discriminate|]). destruct Hs.
Qed.
Lemma ex_loads : loads 0x7f0000000000 ex_segs ex_segs ex_calls.
Proof.
  unfold ex_segs at 2. apply loads_skip; [intros (P & _); discriminate P|].
  apply loads_take; [split; [reflexivity|discriminate]|split; [discriminate|intros _; exists 0x400000; split; [exact ex_lowest|reflexivity]]|].
  apply loads_skip; [intros (_ & P); apply P; reflexivity|].
  apply loads_take; [split; [reflexivity|discriminate]|split; [discriminate|intros _; exists 0x400000; split; [exact ex_lowest|reflexivity]]|].
  constructor.
Qed.

Example C69_ex :
  bytes_ok ex_elf /\ elf_file ex_elf C64 ex_segs /\ loads 0x7f0000000000 ex_segs ex_segs ex_calls /\
  held ex_none ex_w /\ callers_may ex_none (ex_w, []) ex_file_ops /\
  (forall k, (k < length ex_calls)%nat -> went_well (snd (after ex_w ex_file_ops)) k) /\
  (exists m, memory_of ex_disk None (snd (after ex_w ex_file_ops)) m /\
     forall q, m q 0x7f0000002001 = Some (0x90, 0) /\ m q 0x7f0000000000 = None) /\
  ex_load = (2%nat, [(0x7f0000001000, 288, 4); (0x7f0000002000, 292, 3)], Ok tt,
             ([(288, 4, 0x401000); (292, 3, 0x402000)], Ok tt)) /\
  load_elf log (Some (firstn 200 ex_elf)) 0x7f0000000000 [] = ([], Err pte_bad_config).
Proof.
  split; [apply okb; vm_compute; reflexivity|]. split; [exact ex_elf_is|]. split; [exact ex_loads|].
  assert (H : held ex_none ex_w) by (intros id; cbn; repeat split; lia).
  split; [exact H|]. split; [exact ex_may|]. split; [exact ex_well|].
  split; [|split; vm_compute; reflexivity].
  destruct (C63_memory ex_disk ex_maps ex_none ex_w ex_file_ops H ex_may ex_usable) as (m & M & _). exists m. split; [exact M|].
  destruct (C69_memory 5 ex_fresh ex_mem ex_size ex_elf ex_disk 0x7f0000000000 ex_segs ex_w ex_calls m ex_loads eq_refl
    (fun _ => eq_refl) ex_well M) as (A & B).
  assert (P : forall s a, In s ex_segs -> loaded s -> placed 0x7f0000000000 ex_segs s a ->
    s = mk_segment 1 288 0x401000 4 /\ a = 0x7f0000001000 \/ s = mk_segment 1 292 0x402000 3 /\ a = 0x7f0000002000).
  { intros s a Hs (Hp & Hl) (_ & Ha). destruct (Ha ltac:(discriminate)) as (low & Hlow & ->).
    assert (low = 0x400000).
    { destruct Hlow as ((s1 & I1 & A1 & V1) & L1), ex_lowest as ((s2 & I2 & A2 & V2) & L2).
      specialize (L1 s2 I2 A2). specialize (L2 s1 I1 A1). clear - V1 V2 L1 L2. lia. } subst low.
    unfold ex_segs in Hs. destruct Hs as [<-|[<-|[<-|[<-|[]]]]]; [discriminate Hp|left; split; reflexivity|exfalso; apply Hl; reflexivity|right; split; reflexivity]. }
  intros q. split.
  - destruct (A (mk_segment 1 292 0x402000 3) 0x7f0000002000 1 q) as (b & Hb & Mb).
    + right; right; right; left; reflexivity.
    + split; [reflexivity|discriminate].
    + split; [discriminate|intros _; exists 0x400000; split; [exact ex_lowest|reflexivity]].
    + reflexivity.
    + vm_compute. discriminate.
    + intros s' a' Hs Hl Hp X. destruct (P s' a' Hs Hl Hp) as [(-> & ->)|(-> & ->)]; [|reflexivity]. exfalso. cbn in X. lia.
    + change (0x7f0000002000 + 1) with 0x7f0000002001 in Mb. rewrite Mb. vm_compute in Hb. congruence.
  - apply B. intros s' a' Hs Hl Hp X. destruct (P s' a' Hs Hl Hp) as [(-> & ->)|(-> & ->)]; cbn in X; lia.
Qed.

Print Assumptions C69_loads.
Print Assumptions C69_determined.
Print Assumptions C69_base.
Print Assumptions C69_refused.
Print Assumptions C69_image.
Print Assumptions C69_visible.
Print Assumptions C69_memory.
Print Assumptions C69_nothing_refuted.
Print Assumptions C69_stride_refuted.
