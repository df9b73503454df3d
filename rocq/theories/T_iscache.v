(** Theorems about the image section cache: identifiers (C30), the limit (C31), reading
    (C45), and references and mappings (C46). *)

From Verif Require Import Base M_section M_image M_iscache S_core S_section L_section S_image
  S_iscache L_iscache L_isclru L_iscadd L_iscrun.
From Coq Require Import List NArith ZArith Bool Lia ZifyBool ZifyNat ZifyN PeanoNat.
Import ListNotations.
Open Scope N_scope.
Ltac Zify.zify_post_hook ::= Z.div_mod_to_equations.

Lemma known_step cid ops o :
  users_may (start cid) (ops ++ [o]) ->
  let t := run_all cid ops in
  let '((w', c'), r) := cstep (ru_state t) o in
  good cid t /\
  list_after (fst (ru_state t)) (snd (ru_state t)) w' c' o r /\
  answered (fst (ru_state t)) (snd (ru_state t)) o r.
Proof.
  intros H. apply users_may_app in H. destruct H as [H1 [H2 _]]. cbv zeta.
  fold (run_all cid ops) in H2. pose proof (good_run _ _ H1) as G. pose proof G as [C _].
  destruct (ru_state (run_all cid ops)) as [w c]. cbn [fst snd] in *.
  pose proof (step_ok _ _ _ _ _ o C H2) as S. destruct (cstep (w, c) o) as [[w' c'] r].
  destruct S as (_ & _ & S3 & S4). split; [exact G|]. split; assumption.
Qed.

Lemma names_meaning c isid :
  match meaning (map ident_of (ic_entries c)) isid with
  | Some i => exists s, names c isid s (id_laddr i) /\ section_for s i
  | None => forall s laddr, ~ names c isid s laddr
  end.
Proof.
  unfold meaning, names. destruct (Z.ltb_spec 0 isid).
  - rewrite nth_error_map. destruct (nth_error (ic_entries c) _) as [e|] eqn:E; cbn [option_map].
    + exists (ce_sec e). split; [|repeat split]. split; [lia|]. cbn. destruct e; reflexivity.
    + intros s l [_ X]. discriminate.
  - intros s l [X _]. lia.
Qed.

Lemma names_fun c isid s l s' l' : names c isid s l -> names c isid s' l' -> s = s' /\ l = l'.
Proof. intros [_ H1] [_ H2]. rewrite H1 in H2. injection H2 as -> ->. split; reflexivity. Qed.

(** ** C30 *)

(** Identifiers are handed out in order and without repetition; adding the same part of
    the same file at the same address gives the same identifier; finding and looking up
    agree with the identifiers that were handed out. *)
Theorem C30_identifiers cid ops o :
  users_may (start cid) (ops ++ [o]) ->
  let t := run_all cid ops in
  let l := idents (ru_hist t) in
  let r := snd (cstep (ru_state t) o) in
  NoDup l /\ N.of_nat (length l) <= 65528 /\
  match o with
  | KAddFile _ name size_of offset size vaddr _ =>
      (exists e, r = RIsid (Err e)) \/
      (exists isid, r = RIsid (Ok isid) /\ 0 < isid /\
         index_of (idents ((o, r) :: ru_hist t)) (requested l name size_of offset size vaddr)
         = Some (isid - 1) /\
         match index_of l (requested l name size_of offset size vaddr) with
         | Some k => isid = k + 1
         | None => isid = N.of_nat (length l) + 1
         end)
  | KFind name offset size laddr =>
      r = RIsid (Ok (match index_of l (mk_ident name offset size laddr) with
                     | Some k => k + 1 | None => 0 end))
  | KLookup isid =>
      match meaning l isid with
      | Some i => exists s, section_for s i /\
          (r = RSection (Ok (s, id_laddr i)) \/
           r = RSection (Err pte_overflow) /\ sn_ucount (fst (ru_state t) (sc_id s)) = 65535)
      | None => r = RSection (Err (if (isid <=? 65536)%Z then pte_bad_image else pte_internal))
      end
  | _ => True
  end.
Proof.
  intros H. cbv zeta. pose proof (known_step _ _ _ H) as K. cbv zeta in K.
  destruct (cstep (ru_state (run_all cid ops)) o) as [[w' c'] r]. cbn [snd].
  destruct K as ([C E] & _ & A). rewrite E.
  set (c := snd (ru_state (run_all cid ops))) in *.
  pose proof (ci_e _ _ _ _ _ C) as HE. pose proof (ei_nodup _ HE) as Hnd.
  pose proof (ei_cap _ HE) as (C1 & C2 & _). unfold ic_size in C1.
  split; [exact Hnd|]. split; [rewrite map_length; lia|].
  destruct o; try exact I; cbn [answered] in A.
  - destruct r as [r|r|r|r]; try contradiction. destruct r as [n|e|u]; [| |contradiction].
    2:{ left. exists e. reflexivity. }
    right. exists n. rewrite idents_cons, E. cbn [next_idents]. cbv zeta.
    set (i := requested _ _ _ _ _ _) in *.
    split; [reflexivity|]. destruct (index_of (map ident_of (ic_entries c)) i) as [k|] eqn:Ei.
    + split; [lia|]. split; [|exact A]. rewrite Ei. f_equal. lia.
    + split; [lia|]. split; [|exact A].
      rewrite (index_nth _ (length (map ident_of (ic_entries c))) i).
      * f_equal. lia.
      * apply (NoDup_Add (a := i) (l := map ident_of (ic_entries c))).
        -- rewrite <- (app_nil_r (map ident_of (ic_entries c))) at 1. apply Add_app.
        -- split; [exact Hnd|]. apply index_none, Ei.
      * rewrite nth_error_app2 by lia. rewrite Nat.sub_diag. reflexivity.
  - destruct r as [r|r|r|r]; try contradiction. rewrite A. reflexivity.
  - destruct r as [r|r|r|r]; try contradiction. pose proof (names_meaning c isid) as Nm.
    destruct (meaning _ isid) as [i|].
    + destruct Nm as (s & Ns & Fs). exists s. split; [exact Fs|].
      destruct A as [(s1 & l1 & -> & N1)|[(s1 & l1 & -> & N1 & U1)|(N1 & _)]].
      * destruct (names_fun _ _ _ _ _ _ Ns N1) as [-> ->]. left. reflexivity.
      * destruct (names_fun _ _ _ _ _ _ Ns N1) as [-> ->]. right. split; [reflexivity|exact U1].
      * exfalso. exact (N1 _ _ Ns).
    + destruct A as [(s1 & l1 & -> & N1)|[(s1 & l1 & -> & N1 & U1)|(_ & ->)]];
        [exfalso; exact (Nm _ _ N1)..|reflexivity].
Qed.

Lemma idents_grow ops : forall t, (forall o, In o ops -> o <> KClear) ->
  exists l, idents (ru_hist (fold_left run_step ops t)) = idents (ru_hist t) ++ l.
Proof.
  induction ops as [|o ops IH]; intros t Hn; [exists []; rewrite app_nil_r; reflexivity|].
  cbn [fold_left]. destruct (IH (run_step t o)) as [l ->]; [intros x Hx; apply Hn; right; exact Hx|].
  assert (G : exists l', idents (ru_hist (run_step t o)) = idents (ru_hist t) ++ l').
  { unfold run_step. destruct (cstep (ru_state t) o) as [s r]. cbn [ru_hist]. rewrite idents_cons.
    assert (Hc : o <> KClear) by (apply Hn; left; reflexivity).
    destruct o; cbn [next_idents]; try (exists []; rewrite app_nil_r; reflexivity); [|congruence].
    destruct r as [r|r|r|r]; try (exists []; rewrite app_nil_r; reflexivity).
    destruct r; try (exists []; rewrite app_nil_r; reflexivity). cbv zeta.
    destruct (index_of _ _); [exists []; rewrite app_nil_r; reflexivity|eexists; reflexivity]. }
  destruct G as [l' ->]. exists (l' ++ l). rewrite app_assoc. reflexivity.
Qed.

(** An identifier keeps its meaning until the cache is cleared. *)
Theorem C30_stable cid ops id name size_of offset size vaddr mem isid more :
  let add := KAddFile id name size_of offset size vaddr mem in
  let look := KLookup (Z.of_N isid) in
  users_may (start cid) (ops ++ [add] ++ more ++ [look]) ->
  (forall o, In o more -> o <> KClear) ->
  snd (cstep (ru_state (run_all cid ops)) add) = RIsid (Ok isid) ->
  let i := requested (idents (ru_hist (run_all cid ops))) name size_of offset size vaddr in
  let t := run_all cid (ops ++ [add] ++ more) in
  exists s, section_for s i /\
    (snd (cstep (ru_state t) look) = RSection (Ok (s, vaddr)) \/
     snd (cstep (ru_state t) look) = RSection (Err pte_overflow) /\
     sn_ucount (fst (ru_state t) (sc_id s)) = 65535).
Proof.
  cbv zeta. intros H Hn Ha.
  pose proof H as H0. rewrite app_assoc in H0. apply users_may_app in H0. destruct H0 as [H1 _].
  rewrite !app_assoc in H. pose proof (C30_identifiers _ _ _ H) as L.
  pose proof (C30_identifiers _ _ _ H1) as A. cbv zeta in A, L.
  set (add := KAddFile id name size_of offset size vaddr mem) in *.
  set (i := requested (idents (ru_hist (run_all cid ops))) name size_of offset size vaddr) in *.
  rewrite <- app_assoc in L. cbn beta iota in L.
  destruct A as (_ & _ & [(e & A)|(n & A & P & Ei & _)]); rewrite Ha in A; [discriminate|].
  injection A as <-. fold i in Ei.
  destruct L as (_ & _ & L). revert L.
  assert (Et : exists l', idents (ru_hist (run_all cid (ops ++ [add] ++ more)))
    = idents ((add, snd (cstep (ru_state (run_all cid ops)) add)) :: ru_hist (run_all cid ops)) ++ l').
  { unfold run_all. rewrite !fold_left_app. cbn [fold_left].
    destruct (idents_grow more (run_step (fold_left run_step ops (start cid)) add) Hn) as [l' ->].
    exists l'. f_equal. generalize (fold_left run_step ops (start cid)). intros t0. unfold run_step.
    destruct (cstep (ru_state t0) add). reflexivity. }
  destruct Et as [l' Et]. rewrite Et. apply index_some in Ei.
  assert (Em : meaning (idents ((add, snd (cstep (ru_state (run_all cid ops)) add)) :: ru_hist (run_all cid ops)) ++ l')
                 (Z.of_N isid) = Some i).
  { unfold meaning. destruct (Z.ltb_spec 0 (Z.of_N isid)); [|lia].
    replace (Z.to_nat (Z.of_N isid - 1)) with (N.to_nat (isid - 1)) by lia.
    rewrite nth_error_app1; [exact Ei|]. apply nth_error_Some. congruence. }
  rewrite Em. intros (s & S1 & S2). exists s. split; [exact S1|exact S2].
Qed.

Print Assumptions C30_identifiers.
Print Assumptions C30_stable.

(** ** C31 *)

(** The cache keeps sections mapped only as far as the limit allows, counting each
    section once with the memory it really takes. *)
Theorem C31_limit cid ops :
  users_may (start cid) ops ->
  let (w, c) := ru_state (run_all cid ops) in
  ic_used c = total (ic_lru c) /\ total (ic_lru c) <= ic_limit c /\
  NoDup (map lr_id (ic_lru c)) /\
  forall e, In e (ic_lru c) ->
    lr_size e = memory (w (lr_id e)) /\ in_cache c (lr_id e) /\
    exists m, sn_mapped (w (lr_id e)) = Some m.
Proof.
  intros H. pose proof (good_run _ _ H) as [C _].
  destruct (ru_state (run_all cid ops)) as [w c]. cbn [fst snd] in C.
  pose proof (ci_l _ _ _ _ _ C) as [[L1 L2 L3 L4 L5 L6 L7 L8 L9] L10].
  split; [exact L7|]. split; [exact L10|]. split; [exact L3|].
  intros e He. assert (Hin : In (lr_id e) (map lr_id (ic_lru c))) by (apply in_map, He).
  split; [apply L6, He|]. split; [apply in_cache_iff, L4, Hin|].
  destruct (L2 (lr_id e)) as [B _]. apply (ho_mapped _ _ B). cbn [us us_maps].
  apply inl_in in Hin. lia.
Qed.

(** Every call leaves the list of mapped sections as specified by [list_after]: the most
    recently used sections stay as far as they fit, the others are unmapped. *)
Theorem C31_replacement cid ops o :
  users_may (start cid) (ops ++ [o]) ->
  let (w, c) := ru_state (run_all cid ops) in
  let '((w', c'), r) := cstep (w, c) o in
  list_after w c w' c' o r.
Proof.
  intros H. pose proof (known_step _ _ _ H) as K. cbv zeta in K.
  destruct (ru_state (run_all cid ops)) as [w c]. cbn [fst snd] in K.
  destruct (cstep (w, c) o) as [[w' c'] r]. apply K.
Qed.

Print Assumptions C31_limit.
Print Assumptions C31_replacement.

(** ** C45 *)

(** Reading by identifier gives the bytes of the file. *)
Theorem C45_read cid ops files map mem size isid vaddr :
  users_may (start cid) (ops ++ [KRead files map mem size isid vaddr]) ->
  let t := run_all cid ops in
  let w := fst (ru_state t) in
  (forall e, In e (ic_entries (snd (ru_state t))) ->
     mapped_well w (ce_sec e) /\
     sc_offset (ce_sec e) + sc_size (ce_sec e) <= fsize (files (sc_name (ce_sec e))) < 2 ^ 63 /\
     (exists fs page u mm me, sc_offset (ce_sec e) + sc_size (ce_sec e) <= fs < 2 ^ 63 /\
        map (ce_sec e) = map_file (ce_sec e) fs page u mm me)) ->
  let r := snd (cstep (ru_state t) (KRead files map mem size isid vaddr)) in
  if size =? 0 then r = RBytes (Err pte_invalid) else
  match meaning (idents (ru_hist t)) isid with
  | None => r = RBytes (Err (if (isid <=? 65536)%Z then pte_bad_image else pte_internal))
  | Some i =>
      (exists s, section_for s i /\
         (sn_ucount (w (sc_id s)) = 65535 /\ r = RBytes (Err pte_overflow) \/
          id_laddr i <= vaddr /\
          exists e, r = RBytes (Err e) /\
            (map s = Err e \/ e = pte_overflow \/ e = pte_nomem /\ mem = false))) \/
      (if (id_laddr i <=? vaddr) && (vaddr - id_laddr i <? id_size i) then
         exists bytes, r = RBytes (Ok bytes) /\
           N.of_nat (length bytes) = N.min (N.min size 65535) (id_size i - (vaddr - id_laddr i)) /\
           forall k, (k < length bytes)%nat ->
             nth_error bytes k
             = nth_error (files (id_name i)) (N.to_nat (id_offset i + (vaddr - id_laddr i)) + k)
       else r = RBytes (Err pte_nomap))
  end.
Proof.
  cbv zeta. intros H Hw. apply users_may_app in H. destruct H as [H1 [H2 _]].
  fold (run_all cid ops) in H2. pose proof (good_run _ _ H1) as [C E].
  rewrite E. destruct (ru_state (run_all cid ops)) as [w c]. cbn [fst snd user_may cstep] in *.
  destruct (read_ok _ _ _ _ _ files map mem size isid vaddr C H2) as (w' & c' & r & -> & _ & _ & D).
  cbn [snd]. pose proof (names_meaning c isid) as Nm.
  destruct D as [(-> & _ & ->)|[(Hz & Hn & _ & ->)|(Hz & s & laddr & Hn & D)]].
  { reflexivity. }
  { destruct (N.eqb_spec size 0); [contradiction|].
    destruct (meaning _ isid) as [i|]; [|reflexivity]. destruct Nm as (s & Ns & _). exfalso. exact (Hn _ _ Ns). }
  destruct (N.eqb_spec size 0); [contradiction|].
  destruct (meaning _ isid) as [i|]; [|exfalso; exact (Nm _ _ Hn)].
  destruct Nm as (s' & Ns & Fs). destruct (names_fun _ _ _ _ _ _ Ns Hn) as [-> <-].
  destruct D as [(_ & Hu & ->)|[(_ & Hlt & ->)|[(_ & Hge & e & -> & He)|((Hge & _) & m & Hm1 & Hm2 & ->)]]].
  - left. exists s. split; [exact Fs|]. left. split; [exact Hu|reflexivity].
  - right. destruct (N.leb_spec (id_laddr i) vaddr); [lia|]. reflexivity.
  - left. exists s. split; [exact Fs|]. right. split; [exact Hge|]. exists e. split; [reflexivity|exact He].
  - right. destruct (N.leb_spec (id_laddr i) vaddr) as [_|]; [|lia]. cbn [andb].
    assert (Hin : In (mk_cached s (id_laddr i)) (ic_entries c)) by (destruct Hn as [_ Hn]; apply nth_error_In in Hn; exact Hn).
    destruct (Hw _ Hin) as (W1 & W2 & fs & page & u & mm & me & W3 & W4). cbn [ce_sec] in *.
    assert (Hm : starts m = sc_offset s /\ covers m (sc_size s)).
    { unfold mapped_well in W1. destruct (sn_mapped (w (sc_id s))) as [m0|] eqn:Em.
      - destruct W1 as (W1 & fs' & p' & u' & mm' & me' & W5 & W6). specialize (Hm1 ltac:(lia)). injection Hm1 as ->.
        apply (proj2 (map_file_ok s fs' p' u' mm' me' ltac:(lia) ltac:(lia)) _ W6).
      - specialize (Hm2 W1). rewrite W4 in Hm2.
        apply (proj2 (map_file_ok s fs page u mm me ltac:(lia) ltac:(lia)) _ Hm2). }
    destruct Hm as [Ms Mc].
    rewrite (section_read_spec s m _ (N.min size 65535) (vaddr - id_laddr i) Ms Mc); [|lia..].
    destruct Fs as (F1 & F2 & F3). rewrite F1, F2, F3 in *.
    destruct (N.leb_spec (id_size i) (vaddr - id_laddr i)) as [Hb|Hb];
      destruct (N.ltb_spec (vaddr - id_laddr i) (id_size i)); try lia; [reflexivity|].
    eexists. split; [reflexivity|].
    set (n0 := N.min (N.min size 65535) (id_size i - (vaddr - id_laddr i))).
    assert (Hl : N.of_nat (length (file_bytes (files (id_name i)) (id_offset i + (vaddr - id_laddr i)) n0)) = n0).
    { apply file_bytes_length. lia. }
    split; [exact Hl|]. intros k Hk.
    assert (Hk' : (k < N.to_nat n0)%nat) by lia. unfold file_bytes.
    revert Hk'. generalize (N.to_nat n0), (N.to_nat (id_offset i + (vaddr - id_laddr i))), (files (id_name i)).
    clear. intros q p l Hk.
    assert (G : forall (l : list N) k i, (i < k)%nat -> nth_error (firstn k l) i = nth_error l i).
    { clear. induction l as [|x l IH]; intros [|k] [|i] H; try lia; try reflexivity. cbn. apply IH. lia. }
    assert (G2 : forall (l : list N) p i, nth_error (skipn p l) i = nth_error l (p + i)).
    { clear. induction l as [|x l IH]; intros [|p] i; try reflexivity; [destruct i; reflexivity|]. cbn. apply IH. }
    rewrite G by exact Hk. apply G2.
Qed.

Print Assumptions C45_read.

(** ** C46 *)

(** Sections live exactly as long as users or the cache hold them, and are mapped exactly
    as long as users or the cache have them mapped. *)
Theorem C46_balance cid ops id :
  users_may (start cid) ops ->
  let t := run_all cid ops in
  let (w, c) := ru_state t in
  let refs := ru_refs t id + entries_of c id in
  let maps := ru_maps t id + cached_maps c id in
  (sn_freed (w id) = true <-> refs = 0) /\
  (0 < refs -> sn_ucount (w id) = refs) /\ sn_acount (w id) = entries_of c id /\
  sn_mcount (w id) = maps /\ ((exists m, sn_mapped (w id) = Some m) <-> maps <> 0) /\
  (refs = 0 -> maps = 0) /\ refs <= 65535 /\ maps <= 65535.
Proof.
  intros H. cbv zeta. pose proof (good_run _ _ H) as [C _].
  destruct (ru_state (run_all cid ops)) as [w c]. cbn [fst snd] in C.
  pose proof (ci_l _ _ _ _ _ C) as [[_ W _ _ _ _ _ _ _] _]. destruct (W id) as [B _].
  change (entries_of c id) with (occ (ic_entries c) id).
  change (cached_maps c id) with (inlru (ic_lru c) id).
  pose proof (ho_freed _ _ B) as B1. pose proof (ho_refs _ _ B) as B2. pose proof (ho_atts _ _ B) as B3.
  pose proof (ho_maps _ _ B) as B4. pose proof (ho_mapped _ _ B) as B5. pose proof (ho_last _ _ B) as B6.
  pose proof (ho_max _ _ B) as B7. pose proof (ho_mmax _ _ B) as B8. cbn [us us_refs us_maps us_atts] in *.
  split; [rewrite B1; apply N.eqb_eq|]. split; [intros Hp; destruct B2; [lia|assumption]|].
  split; [exact B3|]. split; [exact B4|]. split; [exact B5|]. split; [exact B6|].
  unfold max_count in *. lia.
Qed.

(** There is no undefined behaviour, no loop runs on, and dropping, clearing and setting
    the limit always succeed. *)
Theorem C46_answers cid ops o r :
  users_may (start cid) (ops ++ [o]) ->
  r = snd (cstep (ru_state (run_all cid ops)) o) ->
  match o, r with
  | KAddFile _ _ _ _ _ _ _, RIsid r | KFind _ _ _ _, RIsid r => no_ub r
  | KLookup _, RSection r => no_ub r
  | KGet _, RDone r => r = Ok tt \/ r = Err pte_overflow
  | KMap _ _ _, RDone r | KBcache _ _ _ _, RDone r => no_ub r
  | KSetLimit _, RDone r | KClear, RDone r | KPut _, RDone r | KUnmap _, RDone r => r = Ok tt
  | KRead _ _ _ _ _ _, RBytes _ => True
  | _, _ => False
  end.
Proof.
  intros H. pose proof (known_step _ _ _ H) as K. cbv zeta in K.
  destruct (cstep (ru_state (run_all cid ops)) o) as [[w' c'] r']. cbn [snd]. intros ->.
  destruct K as (_ & _ & A). revert A. generalize r'. clear r'. intros r A.
  destruct o; cbn [answered] in A; destruct r as [r|r|r|r]; try contradiction; try exact A; try exact I.
  - destruct r; [intros u Hu; discriminate Hu|intros u Hu; discriminate Hu|contradiction].
  - rewrite A. intros u Hu; discriminate Hu.
  - destruct A as [(s & l & -> & _)|[(s & l & -> & _)|(_ & ->)]]; intros u Hu; discriminate Hu.
  - tauto.
  - destruct A as [->|(e & -> & _)]; intros u Hu; discriminate Hu.
  - destruct A as [->|(e & ->)]; intros u Hu; discriminate Hu.
Qed.

(** After clearing, only users hold sections. *)
Theorem C46_clear cid ops id :
  users_may (start cid) (ops ++ [KClear]) ->
  let t := run_all cid (ops ++ [KClear]) in
  sn_mcount (fst (ru_state t) id) = ru_maps t id /\
  (sn_freed (fst (ru_state t) id) = true <-> ru_refs t id = 0).
Proof.
  intros H. cbv zeta. pose proof (C46_balance _ _ id H) as B. cbv zeta in B.
  assert (E : ic_entries (snd (ru_state (run_all cid (ops ++ [KClear])))) = [] /\
              ic_lru (snd (ru_state (run_all cid (ops ++ [KClear])))) = []).
  { unfold run_all. rewrite fold_left_app. cbn [fold_left].
    generalize (fold_left run_step ops (start cid)). intros t. unfold run_step.
    destruct (ru_state t) as [w c]. cbn [cstep].
    unfold pt_iscache_clear. cbv zeta. destruct (pt_iscache_lru_free w (ic_lru c)) as [w1 [x|x|x]];
      [destruct (clear_entries w1 (ic_id c) (ic_entries c)) as [w2 r2]|..]; split; reflexivity. }
  destruct (ru_state (run_all cid (ops ++ [KClear]))) as [w c]. cbn [fst snd] in *.
  destruct E as [E1 E2]. unfold entries_of, cached_maps in B. rewrite E1, E2 in B. cbn [filter length] in B.
  rewrite !N.add_0_r in B. tauto.
Qed.

Print Assumptions C46_balance.
Print Assumptions C46_answers.
Print Assumptions C46_clear.

(** ** A run *)

(** Three files of 0x40 bytes.  File 1 is added at two addresses, and twice at one of
    them; the limit allows to keep two of them mapped. *)
Definition ex_map : res mapping := Ok (MapPosix 0 0x40 0).
Definition ex_add (id : nat) (name vaddr : N) : cop :=
  KAddFile id name (Ok 0x40) 0 0x100 vaddr true.
Definition ex_run : list cop :=
  [ex_add 0 1 0x1000; ex_add 1 2 0x2000; ex_add 2 1 0x5000; ex_add 3 1 0x1000;
   ex_add 4 3 0x3000; KSetLimit 0x80;
   KLookup 1; KLookup 2; KLookup 4;
   KMap 0 ex_map true; KMap 1 ex_map true; KMap 0 ex_map true; KMap 4 ex_map true;
   KUnmap 1; KUnmap 0].

Ltac mays :=
  repeat match goal with
  | |- users_may _ (_ :: _) => split
  | |- users_may _ [] => exact I
  | |- user_may _ _ _ (KAddFile _ _ _ _ _ _ _) =>
      split; [vm_compute; reflexivity|split; [intros u Hu; discriminate Hu|intros fs [= <-]; reflexivity]]
  | |- user_may _ _ _ (KSetLimit _) => vm_compute; reflexivity
  | |- user_may _ _ _ (KLookup _) => exact I
  | |- user_may _ _ _ KClear => exact I
  | |- user_may _ _ _ (KFind _ _ _ _) => exact I
  | |- user_may _ _ _ (KMap _ _ _) => split; vm_compute; reflexivity
  | |- user_may _ _ _ (KUnmap _) => vm_compute; reflexivity
  | |- user_may _ _ _ (KBcache _ _ _ _) => split; [vm_compute; reflexivity|split; vm_compute; reflexivity]
  | |- user_may _ _ _ (KPut _) => split; [vm_compute; reflexivity|intros _; vm_compute; reflexivity]
  | |- user_may _ _ _ (KRead _ _ _ _ _ _) => intros s; vm_compute; reflexivity
  end.

Example ex_may : users_may (start 7) ex_run.
Proof. unfold ex_run, ex_add. mays. Qed.

(** C30: file 1 has identifiers 1 and 3, and its second addition at 0x1000 gives 1. *)
Example C30_case :
  idents (ru_hist (run_all 7 ex_run))
  = [mk_ident 1 0 0x40 0x1000; mk_ident 2 0 0x40 0x2000; mk_ident 1 0 0x40 0x5000;
     mk_ident 3 0 0x40 0x3000] /\
  snd (cstep (ru_state (run_all 7 ex_run)) (ex_add 5 1 0x5000)) = RIsid (Ok 3) /\
  snd (cstep (ru_state (run_all 7 ex_run)) (KFind 1 0 0x40 0x1000)) = RIsid (Ok 1) /\
  snd (cstep (ru_state (run_all 7 ex_run)) (KLookup 3)) = RSection (Ok (mk_section_info 0 1 0 0x40, 0x5000)) /\
  users_may (start 7) (ex_run ++ [ex_add 5 1 0x5000; KLookup 3]).
Proof.
  split; [vm_compute; reflexivity|]. split; [vm_compute; reflexivity|].
  split; [vm_compute; reflexivity|]. split; [vm_compute; reflexivity|].
  apply users_may_app. split; [exact ex_may|]. unfold ex_add. mays.
Qed.

(** C31: the third section replaces the least recently used one. *)
Example C31_case :
  let c := snd (ru_state (run_all 7 ex_run)) in
  ic_lru c = [mk_lru 4 0x40; mk_lru 0 0x40] /\ ic_used c = 0x80 /\ ic_limit c = 0x80 /\
  sn_mapped (fst (ru_state (run_all 7 ex_run)) 1%nat) = None /\
  ic_lru (snd (ru_state (run_all 7 (ex_run ++ [KSetLimit 0x7f])))) = [mk_lru 4 0x40].
Proof. vm_compute. repeat split; reflexivity. Qed.

(** C45: bytes 0x10 to 0x12 of file 2, whose section was loaded at 0x2000. *)
Example C45_case :
  let files := fun name => repeat name 0x10 ++ [0xa; 0xb; 0xc] ++ repeat name 0x2d in
  let map := fun s => if (sc_offset s =? 0) && (sc_size s =? 0x40)
                      then map_file s 0x40 0x1000 true true true else Err pte_nomap in
  let o := KRead files map true 3 2 0x2010 in
  let (w, c) := ru_state (run_all 7 ex_run) in
  users_may (start 7) (ex_run ++ [o]) /\
  snd (cstep (w, c) o) = RBytes (Ok [0xa; 0xb; 0xc]) /\
  snd (cstep (w, c) (KRead files map true 3 2 0x2040)) = RBytes (Err pte_nomap) /\
  forall e, In e (ic_entries c) ->
    mapped_well w (ce_sec e) /\
    sc_offset (ce_sec e) + sc_size (ce_sec e) <= fsize (files (sc_name (ce_sec e))) < 2 ^ 63 /\
    exists fs page u mm me, sc_offset (ce_sec e) + sc_size (ce_sec e) <= fs < 2 ^ 63 /\
        map (ce_sec e) = map_file (ce_sec e) fs page u mm me.
Proof.
  set (files := fun name => repeat name 0x10 ++ [0xa; 0xb; 0xc] ++ repeat name 0x2d).
  set (map := fun s => if (sc_offset s =? 0) && (sc_size s =? 0x40)
                      then map_file s 0x40 0x1000 true true true else Err pte_nomap).
  cbv zeta. destruct (ru_state (run_all 7 ex_run)) as [w c] eqn:E.
  assert (Ew : w = fst (ru_state (run_all 7 ex_run))) by (rewrite E; reflexivity).
  assert (Ec : c = snd (ru_state (run_all 7 ex_run))) by (rewrite E; reflexivity).
  rewrite <- E. split; [|split; [vm_compute; reflexivity|split; [vm_compute; reflexivity|]]].
  - apply users_may_app. split; [exact ex_may|]. split; [|exact I]. intros s. unfold map.
    destruct ((sc_offset s =? 0) && (sc_size s =? 0x40)) eqn:Es; [|exact I].
    apply andb_true_iff in Es. destruct Es as [E1 E2]. apply N.eqb_eq in E1, E2.
    unfold map_file, pt_sec_posix_map. rewrite E1, E2. vm_compute. reflexivity.
  - assert (El : ic_entries c = [mk_cached (mk_section_info 0 1 0 0x40) 0x1000; mk_cached (mk_section_info 1 2 0 0x40) 0x2000;
       mk_cached (mk_section_info 0 1 0 0x40) 0x5000; mk_cached (mk_section_info 4 3 0 0x40) 0x3000])
      by (rewrite Ec; vm_compute; reflexivity).
    assert (M0 : sn_mapped (w 0%nat) = Some (MapPosix 0 0x40 0) /\ sn_mcount (w 0%nat) = 2)
      by (rewrite Ew; split; vm_compute; reflexivity).
    assert (M4 : sn_mapped (w 4%nat) = Some (MapPosix 0 0x40 0) /\ sn_mcount (w 4%nat) = 2)
      by (rewrite Ew; split; vm_compute; reflexivity).
    assert (M1 : sn_mapped (w 1%nat) = None /\ sn_mcount (w 1%nat) = 0)
      by (rewrite Ew; split; vm_compute; reflexivity).
    clear E Ew Ec. intros e He. rewrite El in He.
    assert (Hs : exists n l id, e = mk_cached (mk_section_info id n 0 0x40) l /\ (id = 0 \/ id = 1 \/ id = 4)%nat).
    { destruct He as [<-|[<-|[<-|[<-|[]]]]]; do 3 eexists; (split; [reflexivity|tauto]). }
    clear He El. destruct Hs as (n & l & id & -> & Hid). cbn [ce_sec sc_offset sc_size sc_name].
    split; [|split].
    + unfold mapped_well. cbn [sc_id sc_offset sc_size].
      destruct Hid as [ -> | [ -> | -> ] ]; [destruct M0 as [-> ->]|destruct M1 as [-> ->]|destruct M4 as [-> ->]];
        try reflexivity; (split; [split; vm_compute; reflexivity|]);
        exists 0x40, 0x1000, true, true, true; (split; [split; vm_compute; congruence|vm_compute; reflexivity]).
    + split; vm_compute; congruence.
    + exists 0x40, 0x1000, true, true, true. split; [split; vm_compute; congruence|reflexivity].
Qed.

(** C46: section 0 has two entries, one reference of the user, one mapping of the user and
    one of the cache; section 1 is not mapped any more; clearing leaves what users hold. *)
Example C46_case :
  let s := fst (ru_state (run_all 7 ex_run)) in
  let s' := fst (ru_state (run_all 7 (ex_run ++ [KPut 1; KClear]))) in
  (sn_ucount (s 0%nat), sn_mcount (s 0%nat), sn_acount (s 0%nat)) = (3, 2, 2) /\
  (sn_ucount (s 1%nat), sn_mcount (s 1%nat), sn_acount (s 1%nat)) = (2, 0, 1) /\
  (sn_ucount (s' 0%nat), sn_mcount (s' 0%nat), sn_acount (s' 0%nat)) = (1, 1, 0) /\
  sn_freed (s' 1%nat) = true.
Proof. vm_compute. repeat split; reflexivity. Qed.
