(** What the events of a trace have to say, given the packets. *)

From Verif Require Import Base M_packet M_config M_pktdec M_lastip M_time M_event M_evdec.
From Coq Require Import List NArith Bool.
Import ListNotations.

(** The packets read on the way from one position to another. *)
Inductive reads : pktdec -> list packet -> pktdec -> Prop :=
| reads_nil pd : reads pd [] pd
| reads_cons pd pd1 pd2 p ps : pt_pkt_next pd = (pd1, Ok p) -> reads pd1 ps pd2 ->
    reads pd (p :: ps) pd2.

(** ** The state that packets carry from one to the next *)

(** Inside of PSB+, the last IP, the time, and its calibration. *)
Record hw := mk_hw { h_psb : bool; h_ip : last_ip; h_time : time; h_cal : tcal }.

Definition hw_init : hw := mk_hw false pt_last_ip_init pt_time_init pt_tcal_init.

Definition hw_set_ip (h : hw) (ip : packet_ip) : hw :=
  mk_hw (h_psb h) (fst (pt_last_ip_update_ip (h_ip h) ip)) (h_time h) (h_cal h).

(** One packet.  PSB and OVF invalidate the last IP; a FUP without IP inside of PSB+
    says that tracing is disabled.  The calibration handles TSC and CBR inside of PSB+
    differently. *)
Definition hw_step (cf : config) (h : hw) (p : packet) : hw :=
  let t := h_time h in
  let l := h_cal h in
  let set (l : tcal) (t : time) := mk_hw (h_psb h) (h_ip h) t l in
  match pkt_pl p with
  | P_psb => mk_hw true pt_last_ip_init t l
  | P_psbend => mk_hw false (h_ip h) t l
  | P_ovf => mk_hw false pt_last_ip_init t
               (if cf_keep_tcal_on_ovf cf then fst (pt_tcal_update_ovf l) else pt_tcal_init)
  | P_fup ip => if h_psb h && (ip_ipc ip =? pt_ipc_suppressed)%N then h else hw_set_ip h ip
  | P_tip ip | P_tip_pge ip | P_tip_pgd ip => hw_set_ip h ip
  | P_tsc v => set (fst (if h_psb h then pt_tcal_header_tsc l v else pt_tcal_update_tsc l v))
                   (fst (pt_time_update_tsc t v))
  | P_cbr v => set (fst (if h_psb h then pt_tcal_header_cbr l v cf else pt_tcal_update_cbr l v cf))
                   (fst (pt_time_update_cbr t v))
  | P_tma ctc fc => set (fst (pt_tcal_update_tma l)) (fst (pt_time_update_tma t ctc fc cf))
  | P_mtc ctc => set (fst (pt_tcal_update_mtc l ctc cf)) (fst (pt_time_update_mtc t ctc cf))
  | P_cyc v =>
      let l' := fst (pt_tcal_update_cyc l v) in
      set l' (fst (pt_time_update_cyc t v cf (match pt_tcal_fcr l' with Ok f => f | _ => 0%N end)))
  | _ => h
  end.

Definition hw_after (cf : config) (ps : list packet) : hw := fold_left (hw_step cf) ps hw_init.

(** ** Control flow *)

(** Conditional branches, indirect branches (also asynchronous ones), and enabling. *)
Inductive flow := Fl_tnt (bits size : N) | Fl_tip | Fl_enable.

Definition flow_of_packet (p : packet) : list flow :=
  match pkt_pl p with
  | P_tnt_8 t | P_tnt_64 t => [Fl_tnt (tnt_payload t) (tnt_bit_size t)]
  | P_tip _ => [Fl_tip]
  | P_tip_pge _ => [Fl_enable]
  | _ => []
  end.
Definition flow_of_event (e : event) : list flow :=
  match ev_var e with
  | Ev_tnt bits size => [Fl_tnt bits size]
  | Ev_tip _ | Ev_async_branch _ _ => [Fl_tip]
  | Ev_enabled _ _ => if ev_status_update e then [] else [Fl_enable]
  | _ => []
  end.
Definition flows (ps : list packet) : list flow := flat_map flow_of_packet ps.

Definition tnts (fs : list flow) : list flow :=
  filter (fun f => match f with Fl_tnt _ _ => true | _ => false end) fs.

(** ** Addresses and times *)

Definition last_packet (ps : list packet) : payload :=
  match rev ps with p :: _ => pkt_pl p | [] => P_invalid end.

(** The address that an event happens at, or leads to. *)
Definition address (v : evar) : option N :=
  match v with
  | Ev_enabled ip _ | Ev_disabled ip | Ev_async_disabled _ ip | Ev_async_branch _ ip
  | Ev_async_paging _ _ ip | Ev_overflow ip | Ev_exec_mode _ ip | Ev_tsx ip _ _
  | Ev_async_vmcs _ ip | Ev_exstop ip | Ev_mwait ip _ _ | Ev_ptwrite ip _ _ | Ev_tick ip
  | Ev_tip ip | Ev_iflags _ ip | Ev_interrupt _ _ ip | Ev_iret ip | Ev_smi ip
  | Ev_init ip | Ev_vmentry ip | Ev_vmexit _ _ _ ip | Ev_shutdown ip | Ev_uintr _ ip
  | Ev_uiret ip | Ev_trig _ _ ip _ => Some ip
  | _ => None
  end.

(** The address where an asynchronous event came from. *)
Definition source (v : evar) : option N :=
  match v with
  | Ev_async_disabled from _ | Ev_async_branch from _ => Some from
  | _ => None
  end.

Definition is_ovf (p : payload) : bool := match p with P_ovf => true | _ => false end.
Definition is_fup (p : payload) : bool := match p with P_fup _ => true | _ => false end.
Definition is_overflow (v : evar) : bool := match v with Ev_overflow _ => true | _ => false end.

(** The event has the time [t]. *)
Definition has_time (t : time) (e : event) : Prop :=
  ev_tsc e = tm_tsc t /\ ev_lost_mtc e = tm_lost_mtc t /\ ev_lost_cyc e = tm_lost_cyc t /\
  ev_has_tsc e = tm_have_tsc t.

(** The packets that an event may be reported at. *)
Definition bears (e : event) (p : payload) : bool :=
  let at_fup := match p with P_fup _ => true | _ => false end in
  let at_psbend := match p with P_psbend | P_ovf => true | _ => false end in
  let at_tip := match p with P_tip _ => true | _ => false end in
  let at_pge := match p with P_tip_pge _ => true | _ => false end in
  let at_pgd := match p with P_tip_pgd _ => true | _ => false end in
  let at_cfe := match p with P_cfe _ _ _ => true | _ => false end in
  match ev_var e with
  | Ev_enabled _ _ => if ev_status_update e then at_psbend else at_pge
  | Ev_disabled _ => if ev_status_update e then at_psbend else at_pgd
  | Ev_async_disabled _ _ => at_pgd
  | Ev_async_branch _ _ => at_tip
  | Ev_paging cr3 nr =>
      match p with P_pip cr3' nr' => (cr3 =? cr3')%N && eqb nr nr' | _ => false end
  | Ev_vmcs base => match p with P_vmcs base' => (base =? base')%N | _ => false end
  | Ev_async_paging _ _ _ | Ev_async_vmcs _ _ => at_tip || at_pgd || at_psbend
  | Ev_overflow _ => at_fup || is_ovf p
  | Ev_exec_mode _ _ | Ev_iflags _ _ => at_tip || at_pge || at_pgd || at_fup || at_psbend
  | Ev_tsx _ _ _ => match p with P_mode (Mode_tsx _ _) => true | _ => at_fup || at_psbend end
  | Ev_stop => match p with P_stop => true | _ => false end
  | Ev_exstop _ | Ev_mwait _ _ _ => match p with P_exstop _ => true | _ => at_fup end
  | Ev_pwre s ss h =>
      match p with P_pwre s' ss' h' => (s =? s')%N && (ss =? ss')%N && eqb h h' | _ => false end
  | Ev_pwrx _ _ _ _ _ => match p with P_pwrx _ _ _ _ _ => true | _ => false end
  | Ev_ptwrite _ _ v => match p with P_ptw v' _ _ => (v =? v')%N | _ => at_fup end
  | Ev_tick _ => false
  | Ev_cbr v => match p with P_cbr v' => (v =? v')%N | _ => at_psbend end
  | Ev_mnt v => match p with P_mnt v' => (v =? v')%N | _ => at_psbend end
  | Ev_tip _ => at_tip
  | Ev_tnt bits size =>
      match p with
      | P_tnt_8 t | P_tnt_64 t => (bits =? tnt_payload t)%N && (size =? tnt_bit_size t)%N
      | _ => false
      end
  | Ev_interrupt _ _ _ | Ev_iret _ | Ev_smi _ | Ev_rsm | Ev_sipi _ | Ev_init _ | Ev_vmentry _
  | Ev_vmexit _ _ _ _ | Ev_shutdown _ | Ev_uintr _ _ | Ev_uiret _ => at_cfe || at_fup
  | Ev_trig _ _ _ _ => match p with P_trig _ _ _ _ _ => true | _ => at_fup end
  end.

(** The packets at whose end the address of an event is valid: an overflow that
    interrupts PSB+ comes after the events of that PSB+. *)
Definition ip_packets (ps : list packet) : list packet :=
  if is_ovf (last_packet ps) then removelast ps else ps.

(** A trigger packet with an instruction count gives no address. *)
Definition counted_trigger (v : evar) (p : payload) : bool :=
  match v, p with Ev_trig _ _ _ _, P_trig _ _ _ _ _ => true | _, _ => false end.

(** What an event says beyond addresses, as demands on single packets. *)
Definition exec_mode_eqb (a b : exec_mode) : bool :=
  match a, b with
  | ptem_unknown, ptem_unknown | ptem_16bit, ptem_16bit | ptem_32bit, ptem_32bit
  | ptem_64bit, ptem_64bit => true
  | _, _ => false
  end.
Definition of_cfe (type : N) (p : payload) : bool :=
  match p with P_cfe ty _ _ => (ty =? type)%N | _ => false end.
Definition of_cfe_vector (type vector : N) (p : payload) : bool :=
  match p with P_cfe ty v _ => (ty =? type)%N && (v =? vector)%N | _ => false end.
Definition of_evd (type value : N) (p : payload) : bool :=
  match p with P_evd ty v => (ty =? type)%N && (v =? value)%N | _ => false end.
Definition of_evd_opt (type : N) (value : option N) : list (payload -> bool) :=
  match value with Some v => [of_evd type v] | None => [] end.

Definition pieces (v : evar) : list (payload -> bool) :=
  match v with
  | Ev_paging cr3 nr | Ev_async_paging cr3 nr _ =>
      [fun p => match p with P_pip c n => (c =? cr3)%N && eqb n nr | _ => false end]
  | Ev_vmcs base | Ev_async_vmcs base _ =>
      [fun p => match p with P_vmcs b => (b =? base)%N | _ => false end]
  | Ev_exec_mode m _ =>
      [fun p => match p with
                | P_mode (Mode_exec csl csd _) => exec_mode_eqb m (pt_get_exec_mode csl csd)
                | _ => false
                end]
  | Ev_iflags i _ => [fun p => match p with P_mode (Mode_exec _ _ f) => eqb f i | _ => false end]
  | Ev_tsx _ s a =>
      [fun p => match p with P_mode (Mode_tsx i b) => eqb i s && eqb b a | _ => false end]
  | Ev_stop => [fun p => match p with P_stop => true | _ => false end]
  | Ev_exstop _ => [fun p => match p with P_exstop _ => true | _ => false end]
  | Ev_mwait _ h e =>
      [fun p => match p with P_mwait h' e' => (h' =? h)%N && (e' =? e)%N | _ => false end]
  | Ev_pwre s ss h =>
      [fun p => match p with
                | P_pwre s' ss' h' => (s' =? s)%N && (ss' =? ss)%N && eqb h' h
                | _ => false
                end]
  | Ev_pwrx l d i s a =>
      [fun p => match p with
                | P_pwrx l' d' i' s' a' =>
                    (l' =? l)%N && (d' =? d)%N && eqb i' i && eqb s' s && eqb a' a
                | _ => false
                end]
  | Ev_ptwrite _ size v =>
      [fun p => match p with
                | P_ptw v' plc _ => (v' =? v)%N && match pt_ptw_size plc with
                                                   | Ok n => (N.of_nat n =? size)%N
                                                   | _ => false
                                                   end
                | _ => false
                end]
  | Ev_cbr r => [fun p => match p with P_cbr r' => (r' =? r)%N | _ => false end]
  | Ev_mnt v => [fun p => match p with P_mnt v' => (v' =? v)%N | _ => false end]
  | Ev_tnt bits size =>
      [fun p => match p with
                | P_tnt_8 t | P_tnt_64 t => (tnt_payload t =? bits)%N && (tnt_bit_size t =? size)%N
                | _ => false
                end]
  | Ev_interrupt v cr2 _ => of_cfe_vector pt_cfe_intr v :: of_evd_opt pt_evd_cr2 cr2
  | Ev_iret _ => [of_cfe pt_cfe_iret]
  | Ev_smi _ => [of_cfe pt_cfe_smi]
  | Ev_rsm => [of_cfe pt_cfe_rsm]
  | Ev_sipi v => [of_cfe_vector pt_cfe_sipi v]
  | Ev_init _ => [of_cfe pt_cfe_init]
  | Ev_vmentry _ => [of_cfe pt_cfe_vmentry]
  | Ev_vmexit vec r q _ =>
      match vec with Some v => of_cfe_vector pt_cfe_vmexit_intr v | None => of_cfe pt_cfe_vmexit end
      :: of_evd_opt pt_evd_vmxr r ++ of_evd_opt pt_evd_vmxq q
  | Ev_shutdown _ => [of_cfe pt_cfe_shutdown]
  | Ev_uintr v _ => [of_cfe_vector pt_cfe_uintr v]
  | Ev_uiret _ => [of_cfe pt_cfe_uiret]
  | Ev_trig trbv icnt _ mult =>
      [fun p => match p with
                | P_trig t i _ iv m => (t =? trbv)%N && ((if iv then i else 0) =? icnt)%N && eqb m mult
                | _ => false
                end]
  | Ev_enabled _ _ | Ev_disabled _ | Ev_async_disabled _ _ | Ev_async_branch _ _ | Ev_overflow _
  | Ev_tick _ | Ev_tip _ => []
  end.

(** A packet among [ps] meets the demand. *)
Definition prior (ps : list packet) (f : payload -> bool) : Prop :=
  exists ps1 ps2, ps = ps1 ++ ps2 /\ f (last_packet ps1) = true.

(** The event [e] is right after the packets [ps].  An overflow has the time of the OVF
    packet. *)
Definition stamped (cf : config) (ps : list packet) (e : event) : Prop :=
  bears e (last_packet ps) = true /\
  Forall (prior ps) (pieces (ev_var e)) /\
  (is_overflow (ev_var e) = false -> has_time (h_time (hw_after cf ps)) e) /\
  (is_overflow (ev_var e) = true -> exists ps1 ps2, ps = ps1 ++ ps2 /\
     is_ovf (last_packet ps1) = true /\ has_time (h_time (hw_after cf ps1)) e) /\
  (forall ip, ev_ip_suppressed e = false -> address (ev_var e) = Some ip ->
     counted_trigger (ev_var e) (last_packet ps) = false ->
     pt_last_ip_query (h_ip (hw_after cf (ip_packets ps))) = Ok ip) /\
  (forall ip, source (ev_var e) = Some ip -> exists ps1 ps2, ps = ps1 ++ ps2 /\
     is_fup (last_packet ps1) = true /\ pt_last_ip_query (h_ip (hw_after cf ps1)) = Ok ip).

(** None of the errata that make the decoder skip packets. *)
Definition no_skipping (cf : config) : Prop :=
  er_bdm70 (cf_errata cf) = false /\ er_skd010 (cf_errata cf) = false /\
  er_apl11 (cf_errata cf) = false /\ er_apl12 (cf_errata cf) = false.

(** ** Runs *)

(** The packet decoder at a synchronisation point. *)
Definition synced_at (cf : config) (buf : list N) (offset : N) : pktdec :=
  mk_pktdec cf buf (Some (N.to_nat offset)) (Some (N.to_nat offset)).

(** Calls of pt_evt_next() in a row that all deliver an event. *)
Inductive returns : evdec -> list event -> evdec -> Prop :=
| returns_nil d : returns d [] d
| returns_cons d e d1 evs d2 : pt_evt_next d = (d1, Ok e) -> returns d1 evs d2 ->
    returns d (e :: evs) d2.

(** The packets that can be read from [pd]. *)
Definition readable (pd : pktdec) (ps : list packet) : Prop := exists pd', reads pd ps pd'.

(** Each event comes with the packets up to the one that it is reported at.  [fs] and
    [ps] are the control flow and the packets so far. *)
Inductive explained (cf : config) (pd : pktdec) : list flow -> list packet -> list event -> Prop :=
| explained_nil fs ps : explained cf pd fs ps []
| explained_cons fs ps more e evs :
    readable pd (ps ++ more) -> stamped cf (ps ++ more) e ->
    fs ++ flow_of_event e = flows (ps ++ more) ->
    explained cf pd (fs ++ flow_of_event e) (ps ++ more) evs ->
    explained cf pd fs ps (e :: evs).
