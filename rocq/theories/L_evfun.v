(** The events of a trace as a function of its packets: what the decoder will return. *)

From Verif Require Import Base M_packet M_config M_pktdec M_lastip M_time
  M_evq M_event M_evdec S_evq S_evtrace S_evfun L_evq L_evqpos L_evdec L_evsafe L_evtrace.
From Coq Require Import List NArith ZArith PeanoNat Bool Lia ZifyBool ZifyNat ZifyN.
Import ListNotations.
Open Scope nat_scope.

(** * The queue *)

Definition mask (p : place) : N :=
  match p with
  | At_tip => evb_tip
  | At_fup => evb_fup
  | At_own_fup => evb_fup_bound
  | At_fup_or_tip => N.lor evb_tip evb_fup_bound
  | At_exstop => evb_exstop
  | At_cfe => evb_cfe
  end.
Definition q1 (w : place * event) : N * event := (mask (fst w), snd w).
Definition qs (l : list (place * event)) : list (N * event) := map q1 l.

Definition asks (b : N) (p : place * event -> bool) : Prop := forall w, bound b (q1 w) = p w.

Lemma asks_tip : asks evb_tip for_tip. Proof. intros [[] e]; reflexivity. Qed.
Lemma asks_fup : asks (N.lor evb_fup evb_fup_bound) for_fup. Proof. intros [[] e]; reflexivity. Qed.
Lemma asks_own : asks evb_fup_bound owns_fup. Proof. intros [[] e]; reflexivity. Qed.
Lemma asks_exstop : asks evb_exstop for_exstop. Proof. intros [[] e]; reflexivity. Qed.
Lemma asks_cfe : asks evb_cfe for_cfe. Proof. intros [[] e]; reflexivity. Qed.
Lemma asks_psbend : asks evb_psbend (fun _ => false). Proof. intros [[] e]; reflexivity. Qed.
Lemma asks_all : asks evb_all (fun _ => true). Proof. intros [[] e]; reflexivity. Qed.

Lemma take_pick b p l : asks b p ->
  take_first (bound b) (qs l) =
  match pick p l with Some (e, l') => Some (e, qs l') | None => None end.
Proof.
  intros H. induction l as [|w l IH]; [reflexivity|]. cbn [qs map take_first pick].
  fold (qs l). rewrite IH. unfold q1 at 1. specialize (H w). unfold q1 in H at 1. rewrite H.
  destruct (p w); [reflexivity|]. destruct (pick p l) as [[e l']|]; reflexivity.
Qed.

Lemma qs_existsb b p l : asks b p -> existsb (bound b) (qs l) = existsb p l.
Proof.
  intros H. induction l as [|w l IH]; [reflexivity|]. cbn [qs map existsb]. fold (qs l).
  rewrite IH, (H w). reflexivity.
Qed.

Lemma qs_app l l' : qs (l ++ l') = qs l ++ qs l'.
Proof. apply map_app. Qed.
Lemma qs_length l : length (qs l) = length l.
Proof. apply map_length. Qed.

Lemma pick_split p l :
  match pick p l with
  | Some (e, l') => exists a w c, l = a ++ w :: c /\ l' = a ++ c /\ e = snd w /\ p w = true /\
                      Forall (fun x => p x = false) a
  | None => Forall (fun x => p x = false) l
  end.
Proof.
  induction l as [|w l IH]; cbn [pick]; [constructor|]. destruct (p w) eqn:Ep.
  - exists [], w, l. cbn. repeat split; auto.
  - destruct (pick p l) as [[e l']|].
    + destruct IH as (a & x & c & -> & -> & -> & Hp & Ha).
      exists (w :: a), x, c. repeat split; auto.
    + constructor; assumption.
Qed.

Lemma filter_none {A} (p : A -> bool) l : Forall (fun x => p x = false) l -> filter p l = [].
Proof. induction 1 as [|x l H _ IH]; [reflexivity|]. cbn. rewrite H. exact IH. Qed.
Lemma filter_all {A} (p : A -> bool) l : Forall (fun x => p x = false) l ->
  filter (fun x => negb (p x)) l = l.
Proof. induction 1 as [|x l H _ IH]; [reflexivity|]. cbn. rewrite H. cbn. rewrite IH. reflexivity. Qed.
Lemma existsb_none {A} (p : A -> bool) l : Forall (fun x => p x = false) l -> existsb p l = false.
Proof. induction 1 as [|x l H _ IH]; [reflexivity|]. cbn. rewrite H. exact IH. Qed.

(** Which events wait for what. *)
Definition fits (w : place * event) : bool :=
  match fst w, ev_var (snd w) with
  | At_tip, (Ev_async_branch _ _ | Ev_async_paging _ _ _ | Ev_async_vmcs _ _) => true
  | At_fup_or_tip, (Ev_exec_mode _ _ | Ev_iflags _ _ | Ev_tick _) => true
  | At_own_fup, (Ev_tsx _ _ _ | Ev_exstop _ | Ev_mwait _ _ _ | Ev_ptwrite _ _ _ | Ev_overflow _
                | Ev_interrupt _ _ _ | Ev_iret _ | Ev_smi _ | Ev_init _ | Ev_vmentry _
                | Ev_vmexit _ _ _ _ | Ev_shutdown _ | Ev_uintr _ _ | Ev_uiret _
                | Ev_trig _ _ _ _ | Ev_tick _) => true
  | At_fup, (Ev_tsx _ _ _ | Ev_interrupt _ _ _ | Ev_smi _ | Ev_init _ | Ev_vmexit _ _ _ _
            | Ev_uintr _ _) => true
  | At_fup, (Ev_rsm | Ev_sipi _) => ev_ip_suppressed (snd w)
  | At_exstop, Ev_mwait _ _ _ => true
  | At_cfe, (Ev_interrupt _ _ _ | Ev_vmexit _ _ _ _) => true
  | _, _ => false
  end.

(** What waits for TIP follows an asynchronous branch, or comes from MODE. *)
Definition by_mode (w : place * event) : bool :=
  match fst w with At_fup_or_tip => true | _ => false end.
Definition ordered (l : list (place * event)) : bool :=
  match filter for_tip l with
  | [] => true
  | w :: r => is_async w || forallb by_mode (w :: r)
  end.

Lemma ordered_app l w : ordered l = true ->
  for_tip w = false \/ by_mode w = true \/ existsb is_async l = true \/
    (is_async w = true /\ existsb by_mode l = false) ->
  forallb fits l = true ->
  ordered (l ++ [w]) = true.
Proof.
  unfold ordered. rewrite filter_app. intros Ho H Hf. cbn [filter].
  destruct (for_tip w) eqn:Et; [|rewrite app_nil_r; exact Ho].
  destruct (filter for_tip l) as [|x r] eqn:Ef.
  - cbn [app forallb]. destruct H as [H|[H|[H|[H _]]]]; [discriminate| |exfalso|].
    + rewrite H. destruct (is_async w); reflexivity.
    + apply existsb_exists in H. destruct H as (y & Hy & Ha).
      rewrite forallb_forall in Hf. specialize (Hf y Hy).
      assert (Hin : In y (filter for_tip l)); [|rewrite Ef in Hin; destruct Hin].
      apply filter_In. split; [exact Hy|]. destruct y as [[] e]; unfold fits, is_async in *; cbn in *;
        auto; destruct (ev_var e); discriminate.
    + rewrite H. reflexivity.
  - cbn [app]. destruct (is_async x) eqn:Ea; [reflexivity|]. cbn [orb] in *.
    rewrite app_comm_cons, forallb_app, Ho. cbn [forallb andb].
    destruct H as [H|[H|[H|[_ H]]]]; [discriminate|rewrite H; reflexivity|exfalso|exfalso].
    + apply existsb_exists in H. destruct H as (y & Hy & Hb).
      rewrite forallb_forall in Hf. specialize (Hf y Hy).
      assert (Hin : In y (filter for_tip l)).
      { apply filter_In. split; [exact Hy|]. destruct y as [[] e]; unfold fits, is_async in *;
          cbn in *; auto; destruct (ev_var e); discriminate. }
      rewrite Ef in Hin. rewrite forallb_forall in Ho. specialize (Ho y Hin).
      destruct y as [[] e]; unfold fits, is_async, by_mode in *; cbn in *; try discriminate.
      destruct (ev_var e); discriminate.
    + cbn [forallb] in Ho. apply andb_prop in Ho as [Ho _].
      assert (Hin : In x l).
      { apply (proj1 (filter_In for_tip x l)). rewrite Ef. left. reflexivity. }
      assert (existsb by_mode l = true); [|congruence]. apply existsb_exists. eauto.
Qed.

(** Taking events away that wait for TIP together with all before them, or do not. *)
Lemma ordered_sub l p : (forall w, for_tip w = false -> p w = true \/ p w = false) ->
  (forall w, for_tip w = true -> p w = true) -> ordered l = true -> ordered (filter p l) = true.
Proof.
  intros _ Hp. unfold ordered. replace (filter for_tip (filter p l)) with (filter for_tip l); [auto|].
  induction l as [|w l IH]; [reflexivity|]. cbn [filter].
  destruct (for_tip w) eqn:Et.
  - rewrite (Hp w Et). cbn [filter]. rewrite Et. f_equal. exact IH.
  - destruct (p w); cbn [filter]; rewrite ?Et; exact IH.
Qed.

Lemma existsb_app1 {A} (p : A -> bool) l x : existsb p (l ++ [x]) = existsb p l || p x.
Proof. rewrite existsb_app. cbn. rewrite orb_false_r. reflexivity. Qed.

Lemma event_ip_time lip t e : event_ip lip (event_time t e) = event_time t (event_ip lip e).
Proof.
  unfold event_ip, event_time. destruct (pt_time_query_tsc t) as [[[a b] c] r].
  destruct (pt_last_ip_query lip); reflexivity.
Qed.
Lemma dated_is s e : dated s e = event_time (k_time s) e.
Proof.
  unfold dated, event_time, pt_time_query_tsc.
  destruct (tm_have_tsc (k_time s)); reflexivity.
Qed.
Lemma placed_is s e : placed s e = event_ip (k_ip s) e.
Proof. reflexivity. Qed.
Lemma suppressed_time t e b : set_suppressed (event_time t e) b = event_time t (set_suppressed e b).
Proof.
  unfold event_time. destruct (pt_time_query_tsc t) as [[[a x] c] r]. reflexivity.
Qed.

(** * What the decoder returns *)

Definition nextf (n : nat) : ST event :=
  run fetch_event n;
  do d <- get;
  run publish None;
  match ed_event d with
  | None => fail pte_internal
  | Some p => read_event p
  end.

Section YIELDS.
  Context (cf : config) (buf : list N) (err : pte).
  Hypothesis moves : callback_moves cf.
  Hypothesis freq : (cf_mtc_freq cf < 24)%N.
  Hypothesis small : (N.of_nat (length buf) + 1 < 2 ^ 31)%N.
  Hypothesis skip : no_skipping cf.

  Definition need (d : evdec) : nat :=
    match pkt_pl (ed_pkt d) with P_invalid => 1 | _ => rem buf (ed_pd d) + 2 end.

  Inductive yields : evdec -> outcome -> Prop :=
  | y_err d d' e : (forall n, need d <= n -> nextf n d = (d', Err e)) -> yields d ([], Err e)
  | y_event d d' e evs r : (forall n, need d <= n -> nextf n d = (d', Ok e)) ->
      yields d' (evs, r) -> yields d (e :: evs, r).

  (** What is left to do after a step of the packet decode functions. *)
  Definition Post (d : evdec) (o : outcome) (more : bool) (d' : evdec) : Prop :=
    if more then
      ed_event d' = None /\
      wp pt_evt_fetch_packet (fun _ d2 => need d2 < need d /\ yields d2 o) (fun _ _ => False)
         (set_bound d' false)
    else
      exists p e evs, ed_event d' = Some p /\
        read_event p (set_event d' None) = (set_event d' None, Ok e) /\
        fst o = e :: evs /\ yields (set_event d' None) (evs, snd o).
  Definition Fail (o : outcome) (e : pte) (_ : evdec) : Prop := o = ([], Err e).

  Lemma need_pos d : 1 <= need d.
  Proof. unfold need. destruct (pkt_pl _); lia. Qed.

  Lemma y_decode d o : wp pt_evt_decode_packet (Post d o) (Fail o) d -> yields d o.
  Proof.
    intros H. pose proof (need_pos d) as Hp.
    destruct (pt_evt_decode_packet d) as [d' [more|e|u]] eqn:Ed; unfold wp in H; rewrite Ed in H.
    - assert (Hn : forall n, nextf (S n) d =
        (do more <- ret more; run (if negb more then ret tt else
           do d <- get;
           match ed_event d with
           | Some _ => fail pte_internal
           | None =>
               run modify (fun d => set_bound d false);
               run pt_evt_fetch_packet;
               fetch_event n
           end);
         do d <- get;
         run publish None;
         match ed_event d with
         | None => fail pte_internal
         | Some p => read_event p
         end) d').
      { intros n. unfold nextf, sbind at 1. cbn [fetch_event]. unfold sbind at 1. rewrite Ed. reflexivity. }
      destruct more; cbn [Post negb] in H.
      + destruct H as [He Hf]. unfold wp in Hf.
        destruct (pt_evt_fetch_packet (set_bound d' false)) as [d2 [b|e|u]] eqn:Ef; [|destruct Hf..].
        destruct Hf as [Hlt Hy].
        assert (Hn2 : forall n, nextf (S n) d = nextf n d2).
        { intros n. rewrite Hn. unfold ret, sbind, get, modify. cbn [negb]. rewrite He.
          unfold nextf, sbind. rewrite Ef. reflexivity. }
        inversion Hy as [x d3 e Hx|x d3 e evs r Hx Hr]; subst.
        * apply y_err with d3. intros [|n] Hle; [lia|]. rewrite Hn2. apply Hx. lia.
        * apply y_event with d3; [|exact Hr]. intros [|n] Hle; [lia|]. rewrite Hn2. apply Hx. lia.
      + destruct H as (p & e & evs & He & Hr & Ho & Hy). destruct o as [o1 o2]. cbn [fst snd] in *.
        subst o1. apply y_event with (set_event d' None); [|exact Hy].
        intros [|n] Hle; [lia|]. rewrite Hn. unfold ret, sbind, get, publish, modify. cbn [negb].
        rewrite He. exact Hr.
    - red in H. subst o. apply y_err with d'. intros [|n] Hle; [lia|].
      unfold nextf, sbind at 1. cbn [fetch_event]. unfold sbind at 1. rewrite Ed. reflexivity.
    - destruct H.
  Qed.

  (** Two states that decode alike. *)
  Lemma y_same d1 d2 o : pt_evt_decode_packet d1 = pt_evt_decode_packet d2 -> need d2 <= need d1 ->
    yields d2 o -> yields d1 o.
  Proof.
    intros He Hn Hy. pose proof (need_pos d1) as H1. pose proof (need_pos d2) as H2.
    assert (Hs : forall n, 1 <= n -> nextf n d1 = nextf n d2).
    { intros [|n] Hle; [lia|]. unfold nextf, sbind at 1 5. cbn [fetch_event]. unfold sbind at 1 5.
      rewrite He. reflexivity. }
    inversion Hy as [x d3 e Hx|x d3 e evs r Hx Hr]; subst.
    - apply y_err with d3. intros n Hle. rewrite Hs by lia. apply Hx. lia.
    - apply y_event with d3; [|exact Hr]. intros n Hle. rewrite Hs by lia. apply Hx. lia.
  Qed.

  (** * The state between packets *)

  Definition modes (m : option (bool * bool * bool)) (ms : mode_state) : Prop :=
    match m with
    | None => ms_valid ms = false
    | Some (csl, csd, i) => ms_valid ms = true /\ ms_csl ms = csl /\ ms_csd ms = csd /\
                            (cf_enable_iflags_events cf = true -> ms_iflag ms = i)
    end.

  Record Core (s : track) (ps : list packet) (d : evdec) : Prop := mk_Core {
    c_pd : pd_ok cf buf (ed_pd d);
    c_whole : whole (ed_pd d) ps err;
    c_ip : ed_ip d = k_ip s;
    c_time : ed_time d = k_time s;
    c_cal : ed_tcal d = h_cal (k_hw s);
    c_on : ed_enabled d = k_on s;
    c_mode : modes (k_mode s) (ed_mode d);
    c_valid : Forall (fun p => pkt_pl p <> P_invalid) ps }.

  Record Waits (s : track) (d : evdec) : Prop := mk_Waits {
    w_queue : qrep (ed_evq d) (qs (k_wait s));
    w_fits : forallb fits (k_wait s) = true;
    w_ordered : ordered (k_wait s) = true }.

  Record Done (s : track) (ps : list packet) (d : evdec) : Prop := mk_Done {
    d_core : Core s ps d;
    d_waits : Waits s d;
    d_head : k_head s = None;
    d_psb : h_psb (k_hw s) = false }.

  Definition Next (ps : list packet) : Prop := forall s d, Done s ps d -> ed_bound d = false ->
    wp pt_evt_fetch_packet (fun _ d2 => need d2 <= rem buf (ed_pd d) + 1 /\
      ed_event d2 = ed_event d /\ ed_alone d2 = ed_alone d /\ ed_evq d2 = ed_evq d /\
      yields (set_event d2 None) (events_of cf s ps err)) (fun _ _ => False) d.

  (** The packet, and what follows. *)
  Definition andthen (o : outcome) (ps : list packet) : outcome :=
    match o with
    | (evs, Ok s) => (evs ++ fst (events_of cf s ps err), snd (events_of cf s ps err))
    | (evs, r) => (evs, r)
    end.

  Lemma events_cons s p ps :
    events_of cf s (p :: ps) err = andthen (packet_events cf s p ps err) ps.
  Proof.
    cbn [events_of]. unfold andthen. destruct (packet_events _ _ _ _ _) as [evs [s'|e|u]]; try reflexivity.
    destruct (events_of cf s' ps err). reflexivity.
  Qed.

  Definition valid_pkt (d : evdec) : Prop := pkt_pl (ed_pkt d) <> P_invalid.
  Lemma need_valid d : valid_pkt d -> need d = rem buf (ed_pd d) + 2.
  Proof. unfold valid_pkt, need. destruct (pkt_pl _); congruence. Qed.

  Lemma set_bound_done s ps d b : Done s ps d -> Done s ps (set_bound d b).
  Proof. intros [[] [] ? ?]. repeat (split; auto). Qed.
  Lemma set_event_done s ps d b : Done s ps d -> Done s ps (set_event d b).
  Proof. intros [[] [] ? ?]. repeat (split; auto). Qed.
  Lemma set_event_same d : ed_event d = None -> set_event d None = d.
  Proof. destruct d. cbn. intros ->. reflexivity. Qed.

  Lemma post_silent ps s d d' : Next ps -> Done s ps d' -> ed_event d' = None ->
    rem buf (ed_pd d') <= rem buf (ed_pd d) -> valid_pkt d ->
    Post d (andthen (gives s []) ps) true d'.
  Proof.
    intros HN HD He Hr Hv. split; [exact He|].
    eapply wp_mono; [apply (HN s _ (set_bound_done _ _ _ false HD) eq_refl)|cbv beta|auto].
    intros _ d2 (H1 & H2 & _ & _ & H5). rewrite (need_valid d Hv).
    cbn [ed_pd ed_event set_bound] in *. split; [lia|].
    rewrite set_event_same in H5 by congruence. cbn [andthen gives].
    destruct (events_of cf s ps err). exact H5.
  Qed.

  Lemma post_fetch ps s d d' p e F : Next ps -> Done s ps d' -> ed_bound d' = false ->
    ed_event d' = Some p -> snd (read_event p d') = Ok e ->
    wp pt_evt_fetch_packet (Post d (andthen (gives s [e]) ps)) F d'.
  Proof.
    intros HN HD Hb He Hr.
    unfold wp. pose proof (HN s d' HD Hb) as H. unfold wp in H.
    assert (Hf : forall d2 r, pt_evt_fetch_packet d' = (d2, Ok r) -> r = false).
    { intros d2 r. unfold pt_evt_fetch_packet. destruct (fetch_loop _ _) as [pd [x|x|x]]; congruence. }
    destruct (pt_evt_fetch_packet d') as [d2 [r|x|x]] eqn:Ef; [|destruct H..].
    rewrite (Hf d2 r eq_refl). destruct H as (H1 & H2 & H3 & H4 & H5).
    exists p, e, (fst (events_of cf s ps err)). split; [congruence|]. split.
    - unfold read_event in *. destruct p as [|i].
      + cbn [snd ed_alone set_event] in *. rewrite H3. injection Hr as ->. reflexivity.
      + cbn [snd ed_evq set_event] in *. rewrite H4. destruct (evq_at (ed_evq d') i); [|discriminate].
        cbn in Hr. injection Hr as ->. reflexivity.
    - cbn [andthen gives fst snd app]. split; [reflexivity|]. rewrite <- surjective_pairing. exact H5.
  Qed.

  Lemma post_now ps s d d' e F : Next ps -> Done s ps d' -> ed_bound d' = false ->
    wp (standalone_now e) (Post d (andthen (gives s [dated s e]) ps)) F d'.
  Proof.
    intros HN HD Hb. unfold standalone_now. apply wp_bind, wp_get, wp_bind, wp_standalone.
    apply post_fetch with (p := Alone); auto.
    - destruct HD as [[] [] ? ?]. repeat (split; auto).
    - cbn. rewrite dated_is. rewrite (c_time _ _ _ (d_core _ _ _ HD)). reflexivity.
  Qed.

  (** ** Fetching *)

  Lemma whole_cons pd p ps : whole pd (p :: ps) err ->
    exists pd', pt_pkt_next pd = (pd', Ok p) /\ whole pd' ps err.
  Proof.
    intros (pd2 & Hr & He). inversion Hr as [|x pd1 y q r E H]; subst. exists pd1. split; [exact E|].
    exists pd2. auto.
  Qed.
  Lemma whole_nil pd : whole pd [] err -> pt_pkt_next pd = (pd, Err err).
  Proof. intros (pd2 & Hr & He). inversion Hr; subst. exact He. Qed.

  Lemma fetch_whole ps : forall pd fuel, pd_ok cf buf pd -> whole pd ps err -> rem buf pd < fuel ->
    Forall (fun p => pkt_pl p <> P_invalid) ps ->
    exists pads ps', ps = pads ++ ps' /\ Forall is_pad pads /\
    match ps' with
    | [] => exists pd', fetch_loop fuel pd = (pd', Err err)
    | p :: r => exists pd', fetch_loop fuel pd = (pd', Ok p) /\ ~ is_pad p /\ pkt_pl p <> P_invalid /\
                  pd_ok cf buf pd' /\ whole pd' r err /\ rem buf pd' < rem buf pd /\
                  Forall (fun p => pkt_pl p <> P_invalid) r
    end.
  Proof.
    induction ps as [|p ps IH]; intros pd fuel Hok Hw Hf Hv; (destruct fuel as [|fuel]; [lia|]).
    - exists [], []. split; [reflexivity|]. split; [constructor|].
      exists pd. cbn [fetch_loop]. rewrite (whole_nil _ Hw). reflexivity.
    - destruct (whole_cons _ _ _ Hw) as (pd' & En & Hw'). inversion Hv as [|x y Hv1 Hv2]; subst.
      pose proof (next_step cf buf pd moves Hok) as Hn. rewrite En in Hn.
      destruct Hn as (G1 & G2 & G3 & _). assert (Hr : rem buf pd' < rem buf pd) by (unfold rem in *; lia).
      assert (Hp : is_pad p \/ ~ is_pad p) by (unfold is_pad; destruct (pkt_pl p); auto; right; discriminate).
      destruct Hp as [Hp|Hp].
      + destruct (IH pd' fuel G1 Hw' ltac:(lia) Hv2) as (pads & ps' & -> & Hpads & H).
        exists (p :: pads), ps'. split; [reflexivity|]. split; [constructor; auto|].
        assert (E : fetch_loop (S fuel) pd = fetch_loop fuel pd')
          by (cbn [fetch_loop]; rewrite En; unfold is_pad in Hp; rewrite Hp; reflexivity).
        rewrite E. destruct ps' as [|q r]; [exact H|].
        destruct H as (pd2 & H1 & H2 & H3 & H4 & H5 & H6 & H7). exists pd2. repeat (split; auto). lia.
      + exists [], (p :: ps). split; [reflexivity|]. split; [constructor|]. exists pd'.
        split; [|repeat (split; auto)]. cbn [fetch_loop]. rewrite En. unfold is_pad in Hp.
        destruct (pkt_pl p); congruence.
  Qed.

  Lemma events_pads s pads ps : Forall is_pad pads ->
    events_of cf s (pads ++ ps) err = events_of cf s ps err.
  Proof.
    induction 1 as [|p pads Hp _ IH]; [reflexivity|]. rewrite <- app_comm_cons, events_cons.
    unfold is_pad in Hp. unfold packet_events, outside, inside, header. rewrite Hp.
    destruct (k_head s); cbn [andthen gives quietly fst snd app]; rewrite IH;
      destruct (events_of cf s ps err); reflexivity.
  Qed.

  (** The next packet is to be decoded. *)
  Record Here (s : track) (p : packet) (ps : list packet) (d : evdec) : Prop := mk_Here {
    h_done : Done s ps d;
    h_pkt : ed_pkt d = p;
    h_valid : valid_pkt d;
    h_event : ed_event d = None;
    h_bound : ed_bound d = false }.

  Definition Decodes (p : packet) (ps : list packet) : Prop := forall s d, Here s p ps d ->
    yields d (events_of cf s (p :: ps) err).

  Lemma next_intro ps : (forall pads p ps', ps = pads ++ p :: ps' -> Decodes p ps') -> Next ps.
  Proof.
    intros H s d HD Hb. pose proof HD as [[Hpd Hw Hip Ht Hc Hon Hm Hv] HW Hh Hp].
    assert (Hf : rem buf (ed_pd d) < scan_fuel (ed_pd d)) by apply (scan_fuel_ok cf buf _ Hpd).
    destruct (fetch_whole ps (ed_pd d) _ Hpd Hw Hf Hv) as (pads & ps' & -> & Hpads & HF).
    unfold wp, pt_evt_fetch_packet. rewrite (events_pads _ _ _ Hpads). destruct ps' as [|p r].
    - destruct HF as (pd' & ->). split; [unfold need; cbn; lia|].
      split; [reflexivity|]. split; [reflexivity|]. split; [reflexivity|].
      cbn [events_of]. eapply y_err. intros [|n] Hn; [pose proof (need_pos (set_event
        (set_status (set_pkt (set_pd d pd') (mk_packet P_invalid 0)) (Some err)) None)); lia|].
      reflexivity.
    - destruct HF as (pd' & -> & H1 & H2 & H3 & H4 & H5 & H6).
      assert (Hneed : need (set_pkt (set_pd d pd') p) = rem buf pd' + 2)
        by (apply (need_valid (set_pkt (set_pd d pd') p)); exact H2).
      split; [rewrite Hneed; lia|]. split; [reflexivity|]. split; [reflexivity|]. split; [reflexivity|].
      apply (H pads p r eq_refl). split; auto.
      destruct HW as [W1 W2 W3]. split; auto; split; auto.
  Qed.
End YIELDS.
