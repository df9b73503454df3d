(** The events of a trace as a function of its packets.

    The events are given packet by packet, without the event queue, the pointers into it,
    and the repeated calls for the same packet of the event decoder.  A packet either gives
    events at once, or it makes events wait for a later packet. *)

From Verif Require Import Base M_packet M_config M_pktdec M_lastip M_time M_event M_evdec S_evtrace.
From Coq Require Import List NArith Bool.
Import ListNotations.
Open Scope N_scope.

(** What an event waits for: a TIP (also TIP.PGE and TIP.PGD), any FUP, a FUP that belongs
    to the event, the next FUP that belongs to it or TIP, an EXSTOP, or a CFE. *)
Inductive place := At_tip | At_fup | At_own_fup | At_fup_or_tip | At_exstop | At_cfe.

Definition for_tip (w : place * event) : bool :=
  match fst w with At_tip | At_fup_or_tip => true | _ => false end.
Definition for_fup (w : place * event) : bool :=
  match fst w with At_fup | At_own_fup | At_fup_or_tip => true | _ => false end.
Definition owns_fup (w : place * event) : bool :=
  match fst w with At_own_fup | At_fup_or_tip => true | _ => false end.
Definition for_exstop (w : place * event) : bool :=
  match fst w with At_exstop => true | _ => false end.
Definition for_cfe (w : place * event) : bool :=
  match fst w with At_cfe => true | _ => false end.

(** The state between packets: what the packets carry along, whether tracing is enabled, the
    last execution mode (CS.L, CS.D, and the interrupt flag), the events that are waiting,
    and inside of PSB+ the status so far. *)
Record track := mk_track {
  k_hw : hw;
  k_on : bool;
  k_mode : option (bool * bool * bool);
  k_wait : list (place * event);
  k_head : option (list event) }.

Definition k_time (s : track) : time := h_time (k_hw s).
Definition k_ip (s : track) : last_ip := h_ip (k_hw s).

Definition track0 : track := mk_track hw_init false None [] None.

Definition with_hw s h := mk_track h (k_on s) (k_mode s) (k_wait s) (k_head s).
Definition with_on s b := mk_track (k_hw s) b (k_mode s) (k_wait s) (k_head s).
Definition with_mode s m := mk_track (k_hw s) (k_on s) m (k_wait s) (k_head s).
Definition with_wait s l := mk_track (k_hw s) (k_on s) (k_mode s) l (k_head s).
Definition with_head s l := mk_track (k_hw s) (k_on s) (k_mode s) (k_wait s) l.

(** The event with the current time. *)
Definition dated (s : track) (e : event) : event :=
  let t := k_time s in
  mk_event (ev_var e) (ev_status_update e) (ev_ip_suppressed e) (ev_has_tsc e || tm_have_tsc t)
           (tm_tsc t) (tm_lost_mtc t) (tm_lost_cyc t).

(** The event at the last IP. *)
Definition placed (s : track) (e : event) : event :=
  match pt_last_ip_query (k_ip s) with
  | Ok ip => set_var e (var_set_ip (ev_var e) ip)
  | _ => set_suppressed (set_var e (var_set_ip (ev_var e) 0)) true
  end.

Definition now (s : track) (v : evar) : event := dated s (new_event v).
Definition nowhere (s : track) (v : evar) : event := dated s (set_suppressed (new_event v) true).

(** Events, and the state after that or an error. *)
Definition outcome := (list event * res track)%type.

Definition gives (s : track) (evs : list event) : outcome := (evs, Ok s).
Definition errs (e : pte) : outcome := ([], Err e).

(** At most 14 events can wait. *)
Definition waits (w : place) (e : event) (s : track) : res track :=
  if Nat.ltb (length (k_wait s)) 14 then Ok (with_wait s (k_wait s ++ [(w, e)]))
  else Err pte_nomem.
Definition quietly (r : res track) : outcome := ([], r).

(** An event that comes with its own FUP if [ip] is set, with the next FUP, or at once. *)
Definition later (s : track) (ip any_fup : bool) (v : evar) : outcome :=
  if ip then quietly (waits At_own_fup (new_event v) s)
  else if any_fup && k_on s then quietly (waits At_fup (new_event v) s)
  else gives s [nowhere s v].

Definition tolerate (r : res unit) : res unit :=
  match r with Err pte_bad_config => Ok tt | r => r end.

(** Whether a timing packet is accepted. *)
Definition time_check (cf : config) (h : hw) (p : payload) : res unit :=
  let t := h_time h in
  let l := h_cal h in
  let both (a b : res unit) := let* _ := tolerate a in tolerate b in
  match p with
  | P_tsc v => both (snd (if h_psb h then pt_tcal_header_tsc l v else pt_tcal_update_tsc l v))
                    (snd (pt_time_update_tsc t v))
  | P_cbr v => both (snd (if h_psb h then pt_tcal_header_cbr l v cf else pt_tcal_update_cbr l v cf))
                    (snd (pt_time_update_cbr t v))
  | P_tma ctc fc => both (snd (pt_tcal_update_tma l)) (snd (pt_time_update_tma t ctc fc cf))
  | P_mtc ctc => both (snd (pt_tcal_update_mtc l ctc cf)) (snd (pt_time_update_mtc t ctc cf))
  | P_cyc v =>
      let l' := fst (pt_tcal_update_cyc l v) in
      both (snd (pt_tcal_update_cyc l v))
           (snd (pt_time_update_cyc t v cf (match pt_tcal_fcr l' with Ok f => f | _ => 0 end)))
  | _ => Ok tt
  end.
Definition clock (cf : config) (s : track) (p : packet) : res track :=
  let* _ := time_check cf (k_hw s) (pkt_pl p) in Ok (with_hw s (hw_step cf (k_hw s) p)).

(** The last IP changes. *)
Definition moves_to (s : track) (ip : packet_ip) : res track :=
  let* _ := snd (pt_last_ip_update_ip (k_ip s) ip) in Ok (with_hw s (hw_set_ip (k_hw s) ip)).

(** ** PSB+ *)

Definition same_mode (cf : config) (m m' : bool * bool * bool) : bool :=
  let '(csl, csd, i) := m in
  let '(csl', csd', i') := m' in
  eqb csl csl' && eqb csd csd' && (negb (cf_enable_iflags_events cf) || eqb i i').

Definition notes (e : event) (s : track) : res track :=
  match k_head s with
  | Some l => if Nat.ltb (length l) 13 then Ok (with_head s (Some (l ++ [e]))) else Err pte_nomem
  | None => Err pte_internal
  end.

Definition status (v : evar) : event := set_status_update (new_event v).

(** One packet of PSB+ before its end. *)
Definition header (cf : config) (s : track) (p : packet) : res track :=
  match pkt_pl p with
  | P_fup ip =>
      if ip_ipc ip =? pt_ipc_suppressed then Ok (with_on s false)
      else let* s := moves_to s ip in Ok (with_on s true)
  | P_mode (Mode_exec csl csd i) =>
      let* s := match k_mode s with
                | Some m => if same_mode cf m (csl, csd, i) then Ok s
                            else Err pte_bad_status_update
                | None => Ok (with_mode s (Some (csl, csd, i)))
                end in
      let* s := notes (status (Ev_exec_mode (pt_get_exec_mode csl csd) 0)) s in
      if cf_enable_iflags_events cf then notes (status (Ev_iflags i 0)) s else Ok s
  | P_mode (Mode_tsx intx abrt) => notes (status (Ev_tsx 0 intx abrt)) s
  | P_mode (Mode_other _) | P_pad => Ok s
  | P_pip cr3 nr => notes (status (Ev_async_paging cr3 nr 0)) s
  | P_vmcs base => notes (status (Ev_async_vmcs base 0)) s
  | P_mnt v => notes (new_event (Ev_mnt v)) s
  | P_tsc _ | P_tma _ _ | P_mtc _ | P_cyc _ => clock cf s p
  | P_cbr v => let* s := clock cf s p in notes (status (Ev_cbr v)) s
  | _ => Err pte_bad_context
  end.

(** The status at the end of PSB+; the one about tracing comes first. *)
Definition shows (s : track) (e : event) : event :=
  match ev_var e with
  | Ev_cbr _ | Ev_mnt _ => dated s e
  | _ => dated s (placed s e)
  end.
Definition tracing (s : track) : event :=
  if k_on s then dated s (placed s (status (Ev_enabled 0 false)))
  else dated s (set_suppressed (status (Ev_disabled 0)) true).
Definition leaves_psb (cf : config) (s : track) (p : packet) : track :=
  with_head (with_hw s (hw_step cf (k_hw s) p)) None.

(** ** Overflow *)

(** What follows an OVF: a FUP where tracing resumes, something else, or a packet that
    cannot follow. *)
Inductive ahead := A_fup | A_none | A_error (e : pte).
Fixpoint looks (ps : list packet) (err : pte) : ahead :=
  match ps with
  | [] => match err with pte_eos => A_none | e => A_error e end
  | p :: ps =>
      match pkt_pl p with
      | P_fup _ => A_fup
      | P_unknown _ | P_pad | P_mnt _ | P_cbr _ | P_tsc _ | P_tma _ _ | P_mtc _ | P_cyc _
      | P_invalid => looks ps err
      | P_psbend | P_tip _ | P_tip_pgd _ | P_tnt_8 _ | P_tnt_64 _ => A_error pte_bad_context
      | _ => A_none
      end
  end.

(** Everything that waits is lost, and the state of the processor is not known. *)
Definition overflows (cf : config) (s : track) (p : packet) (ps : list packet) (err : pte) : outcome :=
  let s := mk_track (hw_step cf (k_hw s) p) false None [] None in
  match looks ps err with
  | A_fup => quietly (waits At_own_fup (now s (Ev_overflow 0)) s)
  | A_none => gives s [nowhere s (Ev_overflow 0)]
  | A_error e => errs e
  end.

(** ** FUP *)

Definition at_fup (s : track) (w : place * event) : list event :=
  if negb (for_fup w) then []
  else match ev_var (snd w) with
       | Ev_tick _ => []
       | Ev_overflow _ => [placed s (snd w)]
       | Ev_rsm | Ev_sipi _ => [dated s (snd w)]
       | _ => [placed s (dated s (snd w))]
       end.

(** If no event owns the FUP it is the source of an asynchronous branch. *)
Definition fup (s : track) (ip : packet_ip) : outcome :=
  match moves_to s ip with
  | Ok s =>
      let evs := flat_map (at_fup s) (k_wait s) in
      let on := k_on s || existsb (fun w => for_fup w && is_overflow (ev_var (snd w))) (k_wait s) in
      let s' := with_on (with_wait s (filter (fun w => negb (for_fup w)) (k_wait s))) on in
      (evs,
       if existsb owns_fup (k_wait s) then Ok s'
       else let* from := pt_last_ip_query (k_ip s') in
            waits At_tip (new_event (Ev_async_branch from 0)) s')
  | r => quietly r
  end.

(** ** TIP *)

Definition is_async (w : place * event) : bool :=
  match ev_var (snd w) with Ev_async_branch _ _ => true | _ => false end.

(** Events one after another, up to one that is not possible here. *)
Fixpoint in_turn (f : event -> res (list event)) (l : list (place * event)) : list event * option pte :=
  match l with
  | [] => ([], None)
  | w :: l =>
      if negb (for_tip w) then in_turn f l
      else match f (snd w) with
           | Ok evs => let (more, r) := in_turn f l in (evs ++ more, r)
           | Err e => ([], Some e)
           | UB _ => ([], None)
           end
  end.
Definition no_tip (s : track) : track :=
  with_wait s (filter (fun w => negb (for_tip w)) (k_wait s)).
Definition finishes (s : track) (first : list event) (r : list event * option pte) : outcome :=
  (first ++ fst r, match snd r with None => Ok (no_tip s) | Some e => Err e end).

(** The branch, with the events that came with it. *)
Definition at_tip (s : track) (e : event) : res (list event) :=
  match ev_var e with
  | Ev_async_branch _ _ => Err pte_internal
  | Ev_tick _ => Ok []
  | _ => Ok [dated s (placed s e)]
  end.
Definition tip (s : track) (ip : packet_ip) : outcome :=
  if negb (k_on s) then errs pte_bad_context else
  match moves_to s ip with
  | Ok s =>
      match k_wait s with
      | (w, e) :: l =>
          if is_async (w, e) then finishes s [dated s (placed s e)] (in_turn (at_tip s) l)
          else if existsb is_async l then errs pte_internal
          else finishes s [dated s (placed s (new_event (Ev_tip 0)))] (in_turn (at_tip s) (k_wait s))
      | [] => gives s [dated s (placed s (new_event (Ev_tip 0)))]
      end
  | r => quietly r
  end.

(** Tracing is enabled. *)
Definition at_pge (s : track) (e : event) : res (list event) :=
  match ev_var e with
  | Ev_exec_mode _ _ | Ev_iflags _ _ => Ok [dated s (placed s e)]
  | Ev_tick _ => Ok []
  | _ => Err pte_bad_context
  end.
Definition tip_pge (s : track) (ip : packet_ip) : outcome :=
  match moves_to s ip with
  | Ok s =>
      let s := with_on s true in
      finishes s [dated s (placed s (new_event (Ev_enabled 0 false)))] (in_turn (at_pge s) (k_wait s))
  | r => quietly r
  end.

(** Tracing is disabled; asynchronously if an asynchronous branch waits. *)
Definition at_pgd (s : track) (e : event) : res (list event) :=
  match ev_var e with
  | Ev_async_branch from _ => Ok [dated s (placed s (set_var e (Ev_async_disabled from 0)))]
  | Ev_async_paging _ _ _ | Ev_async_vmcs _ _ | Ev_exec_mode _ _ => Ok [dated s (set_suppressed e true)]
  | _ => Err pte_bad_context
  end.
Definition tip_pgd (s : track) (ip : packet_ip) : outcome :=
  match moves_to s ip with
  | Ok s =>
      let (evs, r) := in_turn (at_pgd s) (k_wait s) in
      let sync := if existsb is_async (k_wait s) then []
                  else [dated s (placed s (new_event (Ev_disabled 0)))] in
      match r with
      | None => (evs ++ sync, Ok (with_on (no_tip s) false))
      | Some e => (evs, Err e)
      end
  | r => quietly r
  end.

(** ** MODE, PIP, VMCS *)

(** A change of mode waits for the branch that it comes with; without a change, the packet
    still owns the next FUP. *)
Definition mode_exec (cf : config) (s : track) (csl csd i : bool) : res track :=
  let chg_mode := match k_mode s with
                  | Some (l, d, _) => negb (eqb l csl && eqb d csd)
                  | None => true
                  end in
  let chg_iflag := cf_enable_iflags_events cf &&
                   match k_mode s with Some (_, _, i') => negb (eqb i' i) | None => true end in
  let* s := if chg_mode then waits At_fup_or_tip
                               (new_event (Ev_exec_mode (pt_get_exec_mode csl csd) 0)) s
            else Ok s in
  let* s := if chg_iflag then waits At_fup_or_tip (new_event (Ev_iflags i 0)) s else Ok s in
  let* s := if chg_mode || chg_iflag then Ok s
            else waits At_fup_or_tip (new_event (Ev_tick 0)) s in
  Ok (with_mode s (Some (csl, csd, i))).

Definition mode (cf : config) (s : track) (m : packet_mode) : outcome :=
  match m with
  | Mode_exec csl csd i => quietly (mode_exec cf s csl csd i)
  | Mode_tsx intx abrt =>
      if k_on s then quietly (waits (if abrt then At_fup else At_own_fup)
                                    (new_event (Ev_tsx 0 intx abrt)) s)
      else gives s [nowhere s (Ev_tsx 0 intx abrt)]
  | Mode_other _ => errs pte_bad_opc
  end.

(** PIP and VMCS that come with an asynchronous branch wait for it. *)
Definition tip_async (f : evar -> bool) (w : place * event) : bool :=
  match fst w with At_tip => f (ev_var (snd w)) | _ => false end.
Definition a_branch (v : evar) : bool := match v with Ev_async_branch _ _ => true | _ => false end.
Definition a_paging (v : evar) : bool := match v with Ev_async_paging _ _ _ => true | _ => false end.

Definition pip (s : track) (cr3 : N) (nr : bool) : outcome :=
  if existsb (tip_async a_branch) (k_wait s)
  then quietly (waits At_tip (new_event (Ev_async_paging cr3 nr 0)) s)
  else gives s [now s (Ev_paging cr3 nr)].

(** The VMCS goes before the paging event that it comes with. *)
Fixpoint swap_in (v : evar) (l : list (place * event)) : option (list (place * event) * event) :=
  match l with
  | [] => None
  | w :: l =>
      if tip_async a_paging w then Some ((fst w, set_var (snd w) v) :: l, snd w)
      else match swap_in v l with
           | Some (l, e) => Some (w :: l, e)
           | None => None
           end
  end.
Definition vmcs (s : track) (base : N) : outcome :=
  match swap_in (Ev_async_vmcs base 0) (k_wait s) with
  | Some (l, e) => quietly (waits At_tip e (with_wait s l))
  | None =>
      if existsb (tip_async a_branch) (k_wait s)
      then quietly (waits At_tip (new_event (Ev_async_vmcs base 0)) s)
      else gives s [now s (Ev_vmcs base)]
  end.

(** ** Power events *)

Definition unplaced (e : event) : event :=
  set_suppressed (set_var e (var_set_ip (ev_var e) 0)) true.
(** The first event that waits for [p], and the others. *)
Fixpoint pick (p : place * event -> bool) (l : list (place * event))
  : option (event * list (place * event)) :=
  match l with
  | [] => None
  | w :: l => if p w then Some (snd w, l)
              else match pick p l with Some (e, r) => Some (e, w :: r) | None => None end
  end.
Definition exstop (s : track) (ip : bool) : outcome :=
  if ip then
    quietly (let* s := match pick for_exstop (k_wait s) with
                       | Some (e, l) => waits At_own_fup e (with_wait s l)
                       | None => Ok s
                       end in
             waits At_own_fup (new_event (Ev_exstop 0)) s)
  else
    gives (with_wait s (filter (fun w => negb (for_exstop w)) (k_wait s)))
          (map (fun w => dated s (unplaced (snd w))) (filter for_exstop (k_wait s))
           ++ [nowhere s (Ev_exstop 0)]).

(** ** Event tracing *)

(** An interrupt or a VM exit, with what was said about it before. *)
Definition announced (s : track) (ip : bool) (fresh : evar) (add : evar -> option evar) : outcome :=
  let (e, l) := match pick for_cfe (k_wait s) with
                | Some (e, l) => (e, l)
                | None => (new_event fresh, k_wait s)
                end in
  let s := with_wait s l in
  match add (ev_var e) with
  | None => errs pte_bad_context
  | Some v =>
      let e := set_var e v in
      if ip then quietly (waits At_own_fup e s)
      else if k_on s then quietly (waits At_fup e s)
      else gives s [dated s (set_suppressed e true)]
  end.
Definition unannounced (s : track) (o : outcome) : outcome :=
  match pick for_cfe (k_wait s) with Some _ => errs pte_bad_context | None => o end.
(** RSM and SIPI have no address. *)
Definition no_address (s : track) (ip : bool) (v : evar) : outcome :=
  if ip then errs pte_bad_packet
  else if k_on s then quietly (waits At_fup (set_suppressed (new_event v) true) s)
  else gives s [nowhere s v].

Definition cfe (s : track) (type vector : N) (ip : bool) : outcome :=
  match type with
  | 1 => announced s ip (Ev_interrupt 0 None 0)
           (fun v => match v with Ev_interrupt _ cr2 a => Some (Ev_interrupt vector cr2 a)
                                | _ => None end)
  | 2 => unannounced s (later s ip false (Ev_iret 0))
  | 3 => unannounced s (later s ip true (Ev_smi 0))
  | 4 => unannounced s (no_address s ip Ev_rsm)
  | 5 => unannounced s (no_address s ip (Ev_sipi vector))
  | 6 => unannounced s (later s ip true (Ev_init 0))
  | 7 => unannounced s (later s ip false (Ev_vmentry 0))
  | 8 => announced s ip (Ev_vmexit None None None 0)
           (fun v => match v with Ev_vmexit vec r q a => Some (Ev_vmexit vec r q a)
                                | _ => None end)
  | 9 => announced s ip (Ev_vmexit None None None 0)
           (fun v => match v with Ev_vmexit _ r q a => Some (Ev_vmexit (Some vector) r q a)
                                | _ => None end)
  | 10 => unannounced s (later s ip false (Ev_shutdown 0))
  | 12 => unannounced s (later s ip true (Ev_uintr vector 0))
  | 13 => unannounced s (later s ip false (Ev_uiret 0))
  | _ =>
      match pick for_cfe (k_wait s) with
      | Some _ => errs pte_internal
      | None => if ip then quietly (waits At_own_fup (new_event (Ev_tick 0)) s) else gives s []
      end
  end.

(** An EVD adds to the announcement of an interrupt or VM exit. *)
Fixpoint amend (add : evar -> option evar) (l : list (place * event))
  : option (option (list (place * event))) :=
  match l with
  | [] => None
  | w :: l =>
      if for_cfe w then Some (option_map (fun v => (fst w, set_var (snd w) v) :: l) (add (ev_var (snd w))))
      else option_map (option_map (cons w)) (amend add l)
  end.
Definition evd_exit (s : track) (add : evar -> option evar) (fresh : evar) : outcome :=
  match amend add (k_wait s) with
  | Some (Some l) => gives (with_wait s l) []
  | Some None => errs pte_bad_context
  | None => quietly (waits At_cfe (new_event fresh) s)
  end.
Definition evd (s : track) (type payload : N) : outcome :=
  match type with
  | 0 => if existsb for_cfe (k_wait s) then errs pte_bad_context
         else quietly (waits At_cfe (new_event (Ev_interrupt 0 (Some payload) 0)) s)
  | 1 => evd_exit s (fun v => match v with
                              | Ev_vmexit vec r None a => Some (Ev_vmexit vec r (Some payload) a)
                              | _ => None end) (Ev_vmexit None None (Some payload) 0)
  | 2 => evd_exit s (fun v => match v with
                              | Ev_vmexit vec None q a => Some (Ev_vmexit vec (Some payload) q a)
                              | _ => None end) (Ev_vmexit None (Some payload) None 0)
  | _ => gives s []
  end.

Definition trig (s : track) (trbv icnt : N) (ip icntv mult : bool) : outcome :=
  let counts := negb (icnt =? 0) in
  if ip then
    if negb icntv || counts then errs pte_bad_packet
    else quietly (waits At_own_fup (new_event (Ev_trig trbv 0 0 mult)) s)
  else if icntv then
    if counts && negb (k_on s) then errs pte_bad_packet else gives s [now s (Ev_trig trbv icnt 0 mult)]
  else gives s [nowhere s (Ev_trig trbv 0 0 mult)].

(** ** All packets *)

Definition outside (cf : config) (s : track) (p : packet) (ps : list packet) (err : pte) : outcome :=
  match pkt_pl p with
  | P_tnt_8 t | P_tnt_64 t =>
      if k_on s then gives s [now s (Ev_tnt (tnt_payload t) (tnt_bit_size t))] else errs pte_bad_context
  | P_tsc _ | P_tma _ _ | P_mtc _ | P_cyc _ => quietly (clock cf s p)
  | P_cbr v => match clock cf s p with Ok s => gives s [now s (Ev_cbr v)] | r => quietly r end
  | P_fup ip => fup s ip
  | P_tip ip => tip s ip
  | P_tip_pge ip => tip_pge s ip
  | P_tip_pgd ip => tip_pgd s ip
  | P_mode m => mode cf s m
  | P_pip cr3 nr => pip s cr3 nr
  | P_vmcs base => vmcs s base
  | P_psb => match k_wait s with
             | [] => gives (mk_track (hw_step cf (k_hw s) p) false (k_mode s) [] (Some [])) []
             | _ => errs pte_bad_context
             end
  | P_ovf => overflows cf s p ps err
  | P_exstop ip => exstop s ip
  | P_mwait h e => quietly (waits At_exstop (new_event (Ev_mwait 0 h e)) s)
  | P_pwre a b c => gives s [now s (Ev_pwre a b c)]
  | P_pwrx a b c d e => gives s [now s (Ev_pwrx a b c d e)]
  | P_ptw v plc ip =>
      match pt_ptw_size plc with
      | Ok n => later s ip false (Ev_ptwrite 0 (N.of_nat n) v)
      | Err e => errs e
      | UB u => ([], UB u)
      end
  | P_stop => gives s [now s Ev_stop]
  | P_mnt v => gives s [now s (Ev_mnt v)]
  | P_cfe ty v ip => cfe s ty v ip
  | P_evd ty v => evd s ty v
  | P_trig a b c d e => trig s a b c d e
  | P_pad | P_psbend | P_unknown _ | P_invalid => gives s []
  end.

Definition inside (cf : config) (s : track) (l : list event) (p : packet) (ps : list packet) (err : pte)
  : outcome :=
  match pkt_pl p with
  | P_psbend => gives (leaves_psb cf s p) (tracing s :: map (shows s) l)
  | P_ovf =>
      let (evs, r) := overflows cf s p ps err in
      ((if k_on s then [tracing s] else []) ++ map (shows s) l ++ evs, r)
  | _ => quietly (header cf s p)
  end.

(** The packet [p], before the packets [ps] and the error [err]. *)
Definition packet_events (cf : config) (s : track) (p : packet) (ps : list packet) (err : pte) : outcome :=
  match k_head s with
  | None => outside cf s p ps err
  | Some l => inside cf s l p ps err
  end.

(** The events of packets, and the error after that. *)
Fixpoint events_of (cf : config) (s : track) (ps : list packet) (err : pte) : list event * res track :=
  match ps with
  | [] => ([], Err err)
  | p :: ps =>
      match packet_events cf s p ps err with
      | (evs, Ok s) => let (more, r) := events_of cf s ps err in (evs ++ more, r)
      | (evs, r) => (evs, r)
      end
  end.

(** The packets up to the end of the trace or an error. *)
Definition whole (pd : pktdec) (ps : list packet) (err : pte) : Prop :=
  exists pd', reads pd ps pd' /\ pt_pkt_next pd' = (pd', Err err).
