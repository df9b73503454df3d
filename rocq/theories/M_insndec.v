(** The instruction flow decoder: /repo/libipt/src/pt_insn_decoder.c.

    The decoder state is [insndec]; the functions are state transformers that keep the
    changed state also when they return an error, since the user may go on.

    Simplifications: null-pointer checks are left out, and the user provides memory for a
    full event and a full instruction.  Memory is read through [image_if]: what
    pt_image_read() answers, and the lookup of a section through the decoder's section
    cache.  That these reorder the sections of the image is not shown (M_image has it). *)

From Coq Require Import List NArith ZArith Bool.
From Verif Require Import Base M_config M_cpu M_time M_event M_evdec M_query M_retstack M_asid
  M_ildtab M_ild M_insn.
Import ListNotations.
Open Scope N_scope.

(** Access to memory.  [im_lookup c a ip] is pt_msec_cache_read() and, if the cached section
    does not do, pt_msec_cache_fill() (pt_insn_msec_lookup(), pt_insn_decoder.c:1612-1637);
    [im_sread] is pt_msec_read() and [im_invalidate] is pt_msec_cache_invalidate(). *)
Record image_if (S C : Type) := mk_image_if {
  im_read : asid -> N -> nat -> res (N * list N);
  im_lookup : C -> asid -> N -> C * res (N * S);
  im_sread : S -> N -> nat -> res (list N);
  im_invalidate : C -> C * res unit }.
Arguments im_read {S C}. Arguments im_lookup {S C}. Arguments im_sread {S C}.
Arguments im_invalidate {S C}.

(** The events of which at most one is bound to an instruction. *)
Record bounds := mk_bounds {
  bo_paging : bool; bo_vmcs : bool; bo_ptwrite : bool; bo_iret : bool; bo_vmentry : bool;
  bo_uiret : bool }.
Definition no_bounds : bounds := mk_bounds false false false false false false.

(** struct pt_insn_decoder, internal/include/pt_insn_decoder.h:47-146.  The configuration is
    that of the query decoder.  [id_event] is [None] if it holds no known event. *)
Record insndec (C : Type) := mk_insndec {
  id_query : qrydec;
  id_ticks : bool;             (* flags.variant.insn.enable_tick_events *)
  id_mode : exec_mode;
  id_ip : N;
  id_status : N;
  id_enabled : bool;
  id_process_event : bool;
  id_event : option event;
  id_speculative : bool;
  id_has_icnt : bool;
  id_icnt : N;
  id_postponed : option (insn * insn_ext);  (* process_insn, insn and iext *)
  id_bound : bounds;
  id_retstack : retstack;
  id_asid : asid;
  id_scache : C }.
Arguments mk_insndec {C}. Arguments id_query {C}. Arguments id_ticks {C}. Arguments id_mode {C}.
Arguments id_ip {C}. Arguments id_status {C}. Arguments id_enabled {C}.
Arguments id_process_event {C}. Arguments id_event {C}. Arguments id_speculative {C}.
Arguments id_has_icnt {C}. Arguments id_icnt {C}. Arguments id_postponed {C}.
Arguments id_bound {C}. Arguments id_retstack {C}. Arguments id_asid {C}. Arguments id_scache {C}.

Section DECODER.
  Context {S C : Type} (im : image_if S C).
  Local Notation dec := (insndec C).

  Definition id_set_query (d : dec) x : dec := mk_insndec x (id_ticks d) (id_mode d) (id_ip d)
    (id_status d) (id_enabled d) (id_process_event d) (id_event d) (id_speculative d) (id_has_icnt d)
    (id_icnt d) (id_postponed d) (id_bound d) (id_retstack d) (id_asid d) (id_scache d).
  Definition id_set_mode (d : dec) x : dec := mk_insndec (id_query d) (id_ticks d) x (id_ip d)
    (id_status d) (id_enabled d) (id_process_event d) (id_event d) (id_speculative d) (id_has_icnt d)
    (id_icnt d) (id_postponed d) (id_bound d) (id_retstack d) (id_asid d) (id_scache d).
  Definition id_set_ip (d : dec) x : dec := mk_insndec (id_query d) (id_ticks d) (id_mode d) x
    (id_status d) (id_enabled d) (id_process_event d) (id_event d) (id_speculative d) (id_has_icnt d)
    (id_icnt d) (id_postponed d) (id_bound d) (id_retstack d) (id_asid d) (id_scache d).
  Definition id_set_status (d : dec) x : dec := mk_insndec (id_query d) (id_ticks d) (id_mode d)
    (id_ip d) x (id_enabled d) (id_process_event d) (id_event d) (id_speculative d) (id_has_icnt d)
    (id_icnt d) (id_postponed d) (id_bound d) (id_retstack d) (id_asid d) (id_scache d).
  Definition id_set_enabled (d : dec) x : dec := mk_insndec (id_query d) (id_ticks d) (id_mode d)
    (id_ip d) (id_status d) x (id_process_event d) (id_event d) (id_speculative d) (id_has_icnt d)
    (id_icnt d) (id_postponed d) (id_bound d) (id_retstack d) (id_asid d) (id_scache d).
  Definition id_set_event (d : dec) p x : dec := mk_insndec (id_query d) (id_ticks d) (id_mode d)
    (id_ip d) (id_status d) (id_enabled d) p x (id_speculative d) (id_has_icnt d)
    (id_icnt d) (id_postponed d) (id_bound d) (id_retstack d) (id_asid d) (id_scache d).
  Definition id_set_spec (d : dec) x : dec := mk_insndec (id_query d) (id_ticks d) (id_mode d)
    (id_ip d) (id_status d) (id_enabled d) (id_process_event d) (id_event d) x (id_has_icnt d)
    (id_icnt d) (id_postponed d) (id_bound d) (id_retstack d) (id_asid d) (id_scache d).
  Definition id_set_icnt (d : dec) h x : dec := mk_insndec (id_query d) (id_ticks d) (id_mode d)
    (id_ip d) (id_status d) (id_enabled d) (id_process_event d) (id_event d) (id_speculative d) h
    x (id_postponed d) (id_bound d) (id_retstack d) (id_asid d) (id_scache d).
  Definition id_set_postponed (d : dec) x b : dec := mk_insndec (id_query d) (id_ticks d) (id_mode d)
    (id_ip d) (id_status d) (id_enabled d) (id_process_event d) (id_event d) (id_speculative d)
    (id_has_icnt d) (id_icnt d) x b (id_retstack d) (id_asid d) (id_scache d).
  Definition id_set_retstack (d : dec) x : dec := mk_insndec (id_query d) (id_ticks d) (id_mode d)
    (id_ip d) (id_status d) (id_enabled d) (id_process_event d) (id_event d) (id_speculative d)
    (id_has_icnt d) (id_icnt d) (id_postponed d) (id_bound d) x (id_asid d) (id_scache d).
  Definition id_set_asid (d : dec) x : dec := mk_insndec (id_query d) (id_ticks d) (id_mode d)
    (id_ip d) (id_status d) (id_enabled d) (id_process_event d) (id_event d) (id_speculative d)
    (id_has_icnt d) (id_icnt d) (id_postponed d) (id_bound d) (id_retstack d) x (id_scache d).
  Definition id_set_scache (d : dec) x : dec := mk_insndec (id_query d) (id_ticks d) (id_mode d)
    (id_ip d) (id_status d) (id_enabled d) (id_process_event d) (id_event d) (id_speculative d)
    (id_has_icnt d) (id_icnt d) (id_postponed d) (id_bound d) (id_retstack d) (id_asid d) x.

  Definition flag (status bit : N) : bool := negb (N.land status bit =? 0).

  (** pt_insn_config(), internal/include/pt_insn_decoder.h:164-172. *)
  Definition pt_insn_config (d : dec) : config := ed_config (qd_evdec (id_query d)).

  (** pt_insn_reset(), pt_insn_decoder.c:47-70.  The section cache is kept. *)
  Definition pt_insn_reset (d : dec) : dec :=
    mk_insndec (id_query d) (id_ticks d) ptem_unknown 0 0 false false (id_event d) false false
      (id_icnt d) None no_bounds (pt_retstack_init (rs_stack (id_retstack d))) pt_asid_init
      (id_scache d).

  (** pt_insn_decoder_init(), pt_insn_decoder.c:116-155, on a valid configuration with the
      flags for the query decoder (99-114) in [cf].  The event, the instruction count and
      the stack are not initialised in C; they are parameters. *)
  Definition pt_insn_decoder_init (cf : config) (ticks : bool) (buf : list N) (ev : option event)
             (icnt : N) (stack : list N) (cache : C) : dec :=
    pt_insn_reset
      (mk_insndec (pt_qry_decoder_init cf buf) ticks ptem_unknown 0 0 false false ev false false
         icnt None no_bounds (mk_retstack stack 0 0) pt_asid_init cache).

  (** pt_insn_status(), pt_insn_decoder.c:72-97. *)
  Definition pt_insn_status (d : dec) (flags : N) : N :=
    let flags := if id_enabled d then flags else N.lor flags pts_ip_suppressed in
    if flag (id_status d) pts_eos && negb (id_process_event d) then N.lor flags pts_eos
    else flags.

  (** pt_insn_tick(), pt_insn_decoder.c:197-254. *)
  Definition pt_insn_tick (d : dec) (ip : N) : dec * res bool :=
    if negb (id_enabled d) then (d, Err pte_internal) else
    if id_process_event d then (d, Ok false) else
    let '(tsc, lost_mtc, lost_cyc, r) := pt_qry_time (id_query d) in
    match r with
    | Err pte_no_time | Ok _ =>
        if match id_event d with Some ev => tsc =? ev_tsc ev | None => false end
        then (d, Ok false)
        else
          let has := match r with Ok _ => true | _ => false end in
          (id_set_event d true
             (Some (mk_event (Ev_tick ip) false false has tsc lost_mtc lost_cyc)), Ok true)
    | Err e => (d, Err e)
    | UB u => (d, UB u)
    end.
  Definition maybe_tick (d : dec) (ip : N) : dec * res unit :=
    if id_ticks d then
      match pt_insn_tick d ip with
      | (d, Ok _) => (d, Ok tt)
      | (d, Err e) => (d, Err e)
      | (d, UB u) => (d, UB u)
      end
    else (d, Ok tt).

  (** pt_insn_indirect_branch(), pt_insn_decoder.c:256-284.  The address goes to the
      decoder's IP; it is [None], and the IP unchanged, if it is suppressed. *)
  Definition pt_insn_indirect_branch (d : dec) : dec * res N :=
    let evip := id_ip d in
    match pt_qry_indirect_branch (id_query d) with
    | (q, Err e) => (id_set_query d q, Err e)
    | (q, UB u) => (id_set_query d q, UB u)
    | (q, Ok (ip, status)) =>
        let d := id_set_query d q in
        let d := match ip with Some a => id_set_ip d a | None => d end in
        match maybe_tick d evip with
        | (d, Ok _) => (d, Ok status)
        | (d, Err e) => (d, Err e)
        | (d, UB u) => (d, UB u)
        end
    end.

  (** pt_insn_cond_branch(), pt_insn_decoder.c:286-309. *)
  Definition pt_insn_cond_branch (d : dec) : dec * res (bool * N) :=
    match pt_qry_cond_branch (id_query d) with
    | (q, Err e) => (id_set_query d q, Err e)
    | (q, UB u) => (id_set_query d q, UB u)
    | (q, Ok (taken, status)) =>
        let d := id_set_query d q in
        match maybe_tick d (id_ip d) with
        | (d, Ok _) => (d, Ok (taken, status))
        | (d, Err e) => (d, Err e)
        | (d, UB u) => (d, UB u)
        end
    end.

  (** event_pending(), pt_insn_decoder.c:439-462. *)
  Definition event_pending (d : dec) : dec * res bool :=
    if id_process_event d then (d, Ok true) else
    if negb (flag (id_status d) pts_event_pending) then (d, Ok false) else
    match pt_qry_event (id_query d) with
    | (q, Err e) => (id_set_query d q, Err e)
    | (q, UB u) => (id_set_query d q, UB u)
    | (q, Ok (ev, status)) =>
        (id_set_status (id_set_event (id_set_query d q) true ev) status, Ok true)
    end.

  (** check_erratum_skd022(), handle_erratum_skd022(), pt_insn_decoder.c:464-517.  The
      instruction on the stack is not initialised; pt_insn_decode() sets what is used. *)
  Definition check_erratum_skd022 (d : dec) : res bool :=
    match pt_insn_decode (im_read im) (id_asid d) (new_insn (id_ip d) (id_mode d) false) with
    | (_, Err _) => Ok false
    | (_, UB u) => UB u
    | (_, Ok x) =>
        Ok (match x_inst x with PTI_VMLAUNCH | PTI_VMRESUME => true | _ => false end)
    end.

  (** The event while it is in progress, changed. *)
  Definition put_event (d : dec) (ev : event) : dec := id_set_event d (id_process_event d) (Some ev).

  Definition handle_erratum_skd022 (d : dec) (ev : event) (ip : N) : dec * res bool :=
    match check_erratum_skd022 d with
    | Ok true => (put_event d (set_var ev (Ev_disabled ip)), Ok true)
    | r => (d, r)
    end.

  (** pt_insn_update_trig(), pt_insn_decoder.c:526-565. *)
  Definition pt_insn_update_trig (d : dec) (ip : N) : dec * res unit :=
    if negb (id_has_icnt d) then (d, Ok tt) else
    if negb (id_enabled d) then (d, Err pte_internal) else
    let icnt := add32 (id_icnt d) 1 in
    if icnt =? 0 then (d, Err pte_overflow) else
    let d := id_set_icnt d true icnt in
    if id_process_event d then
      match id_event d with
      | Some ev =>
          match ev_var ev with
          | Ev_trig trbv eicnt eip mult =>
              if eip =? ip then
                if eicnt =? 0 then (d, Err pte_internal)
                else (put_event d (set_var ev (Ev_trig trbv (eicnt - 1) (id_ip d) mult)), Ok tt)
              else (d, Ok tt)
          | _ => (d, Ok tt)
          end
      | None => (d, Ok tt)
      end
    else (d, Ok tt).

  (** has_icnt = 1 and icnt = 0: an anchor for TRIG. *)
  Definition anchor (d : dec) : dec := id_set_icnt d true 0.

  (** The end of pt_insn_proceed(), pt_insn_decoder.c:663-690: all branches that are not
      handled in the switch. *)
  Definition proceed_branch (d : dec) (i : insn) (x : insn_ext) : dec * res unit :=
    if x_direct x && negb (is_jmpabs x) then
      pt_insn_update_trig (id_set_ip d (add64 (id_ip d) (of_int64 (x_disp x)))) (in_ip i)
    else
      match pt_insn_indirect_branch d with
      | (d, Ok status) =>
          let d := id_set_status d status in
          if flag status pts_ip_suppressed then (d, Err pte_noip) else (anchor d, Ok tt)
      | (d, Err e) => (d, Err e)
      | (d, UB u) => (d, UB u)
      end.

  (** pt_insn_proceed(), pt_insn_decoder.c:567-691. *)
  Definition pt_insn_proceed (d : dec) (i : insn) (x : insn_ext) : dec * res unit :=
    let d := id_set_ip d (add64 (id_ip d) (N.of_nat (in_size i))) in
    match in_iclass i with
    | ptic_ptwrite | ptic_other => pt_insn_update_trig d (in_ip i)
    | ptic_cond_jump =>
        match pt_insn_cond_branch d with
        | (d, Ok (taken, status)) =>
            let d := id_set_status d status in
            let d := if taken : bool then id_set_ip d (add64 (id_ip d) (of_int64 (x_disp x)))
                     else d in
            (anchor d, Ok tt)
        | (d, Err e) => (d, Err e)
        | (d, UB u) => (d, UB u)
        end
    | ptic_call =>
        if negb (Z.eqb (x_disp x) 0) || negb (x_direct x) then
          let (r, p) := pt_retstack_push (id_retstack d) (id_ip d) in
          match p with
          | UB u => (id_set_retstack d r, UB u)
          | _ => proceed_branch (id_set_retstack d r) i x
          end
        else proceed_branch d i x
    | ptic_return =>
        match pt_insn_cond_branch d with
        | (d, Ok (taken, status)) =>
            let d := id_set_status d status in
            if negb taken then (d, Err pte_bad_retcomp) else
            match pt_retstack_pop (id_retstack d) with
            | (r, Ok ip) => (anchor (id_set_ip (id_set_retstack d r) ip), Ok tt)
            | (r, Err e) => (id_set_retstack d r, Err e)
            | (r, UB u) => (id_set_retstack d r, UB u)
            end
        | (d, Err _) => proceed_branch d i x
        | (d, UB u) => (d, UB u)
        end
    | ptic_jump | ptic_far_call | ptic_far_return | ptic_far_jump | ptic_indirect =>
        proceed_branch d i x
    | ptic_unknown => (d, Err pte_bad_insn)
    end.

  (** pt_insn_at_skl014(), pt_insn_decoder.c:693-735.  pt_filter_addr_check() does not
      fail. *)
  Definition pt_insn_at_skl014 (ev : event) (i : insn) (x : insn_ext) (cf : config) : bool :=
    if negb (ev_ip_suppressed ev) then false else
    match in_iclass i with
    | ptic_call | ptic_jump =>
        if negb (x_direct x) || is_jmpabs x then false
        else negb (pt_filter_addr_check (cf_addr_filter cf)
                     (add64 (ip_after i) (of_int64 (x_disp x))))
    | _ => false
    end.

  (** pt_insn_at_disabled_event(), pt_insn_decoder.c:737-806; [eip] is the event's address. *)
  Definition pt_insn_at_disabled_event (ev : event) (eip : N) (i : insn) (x : insn_ext)
             (cf : config) : res bool :=
    if ev_ip_suppressed ev then
      if pt_insn_is_far_branch i || pt_insn_changes_cpl x || pt_insn_changes_cr3 x then Ok true
      else Ok (truth (af_addr_cfg (cf_addr_filter cf)) && er_skl014 (cf_errata cf)
               && pt_insn_at_skl014 ev i x cf)
    else
      match in_iclass i with
      | ptic_ptwrite | ptic_other => Ok false
      | ptic_call | ptic_jump =>
          if x_direct x && negb (is_jmpabs x) then
            Ok (add64 (ip_after i) (of_int64 (x_disp x)) =? eip)
          else Ok true
      | ptic_return | ptic_far_call | ptic_far_return | ptic_far_jump | ptic_indirect
      | ptic_cond_jump => Ok true
      | ptic_unknown => Err pte_bad_insn
      end.

  (** pt_insn_postpone(), pt_insn_decoder.c:808-831. *)
  Definition pt_insn_postpone (d : dec) (i : insn) (x : insn_ext) (b : bounds) : dec * res N :=
    let d := id_set_postponed d (match id_postponed d with Some p => Some p | None => Some (i, x) end) b in
    (d, Ok (pt_insn_status d pts_event_pending)).

  (** pt_insn_clear_postponed(), pt_insn_decoder.c:833-851. *)
  Definition pt_insn_clear_postponed (d : dec) : dec := id_set_postponed d None no_bounds.

  (** pt_insn_proceed_postponed(), pt_insn_decoder.c:853-876. *)
  Definition pt_insn_proceed_postponed (d : dec) : dec * res unit :=
    match id_postponed d with
    | None => (d, Err pte_internal)
    | Some (i, x) =>
        if negb (id_enabled d) then (pt_insn_clear_postponed d, Ok tt) else
        match pt_insn_proceed d i x with
        | (d, Ok _) => (pt_insn_clear_postponed d, Ok tt)
        | (d, r) => (d, r)
        end
    end.

  (** An event that binds to an instruction at most once: the pattern of
      pt_insn_decoder.c:1009-1150.  [here] says whether it binds to this one. *)
  Definition bind_event (d : dec) (i : insn) (x : insn_ext) (already here : bool)
             (b : bounds) : dec * res N :=
    if already then (d, Ok 0) else
    if negb here then (d, Ok 0) else
    pt_insn_postpone d i x b.

  (** pt_insn_check_insn_event(), pt_insn_decoder.c:894-1107. *)
  Definition pt_insn_check_insn_event (d : dec) (i : insn) (x : insn_ext) : dec * res N :=
    match event_pending d with
    | (d, Err e) => (d, Err e)
    | (d, UB u) => (d, UB u)
    | (d, Ok false) => (d, Ok 0)
    | (d, Ok true) =>
        match id_event d with
        | None => (d, Ok (pt_insn_status d pts_event_pending))
        | Some ev =>
            let b := id_bound d in
            let at_ip ip := id_ip d =? ip in
            let here own ip := if ev_ip_suppressed ev then own else at_ip ip in
            match ev_var ev with
            | Ev_tip _ | Ev_tnt _ _ => (d, Err pte_internal)
            | Ev_disabled eip =>
                if ev_status_update ev then (d, Ok 0) else
                match pt_insn_at_disabled_event ev eip i x (pt_insn_config d) with
                | Err e => (d, Err e)
                | UB u => (d, UB u)
                | Ok false => (d, Ok 0)
                | Ok true =>
                    match pt_insn_next_ip i x with
                    | Ok ip =>
                        let d := id_set_ip d ip in
                        (d, Ok (pt_insn_status d pts_event_pending))
                    | Err pte_bad_query =>
                        let d := id_set_ip d (match in_iclass i with
                                              | ptic_call | ptic_far_call => ip_after i
                                              | _ => 0
                                              end) in
                        (d, Ok (pt_insn_status d pts_event_pending))
                    | Err e => (id_set_ip d 0, Err e)
                    | UB u => (d, UB u)
                    end
                end
            | Ev_paging _ _ =>
                bind_event d i x (bo_paging b) (pt_insn_binds_to_pip i x)
                  (mk_bounds true (bo_vmcs b) (bo_ptwrite b) (bo_iret b) (bo_vmentry b) (bo_uiret b))
            | Ev_vmcs _ =>
                bind_event d i x (bo_vmcs b) (pt_insn_binds_to_vmcs i x)
                  (mk_bounds (bo_paging b) true (bo_ptwrite b) (bo_iret b) (bo_vmentry b) (bo_uiret b))
            | Ev_ptwrite ip _ _ =>
                bind_event d i x (bo_ptwrite b) (here (pt_insn_is_ptwrite i) ip)
                  (mk_bounds (bo_paging b) (bo_vmcs b) true (bo_iret b) (bo_vmentry b) (bo_uiret b))
            | Ev_iret ip =>
                bind_event d i x (bo_iret b) (here (pt_insn_is_iret x) ip)
                  (mk_bounds (bo_paging b) (bo_vmcs b) (bo_ptwrite b) true (bo_vmentry b) (bo_uiret b))
            | Ev_vmentry ip =>
                bind_event d i x (bo_vmentry b) (here (pt_insn_is_vmentry x) ip)
                  (mk_bounds (bo_paging b) (bo_vmcs b) (bo_ptwrite b) (bo_iret b) true (bo_uiret b))
            | Ev_uiret ip =>
                bind_event d i x (bo_uiret b) (here (pt_insn_is_uiret x) ip)
                  (mk_bounds (bo_paging b) (bo_vmcs b) (bo_ptwrite b) (bo_iret b) (bo_vmentry b) true)
            | _ => (d, Ok 0)
            end
        end
    end.

  (** handle_erratum_bdm64(), pt_insn_decoder.c:1117-1173, with bdm64_max_steps.  A failing
      search counts as not reaching the event. *)
  Definition handle_erratum_bdm64 (d : dec) (ip : N) (aborted : bool) (i : insn)
    : dec * res unit :=
    if negb aborted then (d, Ok tt) else
    if negb (pt_insn_is_branch i) then (d, Ok tt) else
    match pt_insn_range_is_contiguous (im_read im) (id_asid d) (id_ip d) ip (id_mode d) 0x100 with
    | Ok true => (d, Ok tt)
    | UB u => (d, UB u)
    | _ => (id_set_ip d ip, Ok tt)
    end.

  (** pt_insn_postpone_tsx(), pt_insn_decoder.c:1175-1221. *)
  Definition pt_insn_postpone_tsx (d : dec) (oi : option insn) (ev : event) (ip : N)
             (aborted : bool) : dec * res bool :=
    if ev_ip_suppressed ev then (d, Ok false) else
    match (match oi with
           | Some i => if er_bdm64 (cf_errata (pt_insn_config d))
                       then handle_erratum_bdm64 d ip aborted i else (d, Ok tt)
           | None => (d, Ok tt)
           end) with
    | (d, Ok _) => (d, Ok (negb (id_ip d =? ip)))
    | (d, Err e) => (d, Err e)
    | (d, UB u) => (d, UB u)
    end.

  (** The result of pt_insn_check_ip_event() with and without an event. *)
  Definition indicate (d : dec) (pending : bool) : dec * res N :=
    (d, Ok (pt_insn_status d (if pending then pts_event_pending else 0))).

  (** The case of a TRIG event in pt_insn_check_ip_event(), pt_insn_decoder.c:1494-1537. *)
  Definition check_trig (d : dec) (ev : event) (trbv icnt ip : N) (mult : bool) : dec * res N :=
    if ev_ip_suppressed ev then indicate d true else
    match (if ip =? 0 then
             if negb (id_has_icnt d) then Err pte_bad_packet
             else if icnt <? id_icnt d then Err pte_bad_packet
             else Ok (put_event d (set_var ev (Ev_trig trbv (icnt - id_icnt d) (id_ip d) mult)),
                      icnt - id_icnt d, id_ip d)
           else Ok (d, icnt, ip)) with
    | Err e => (d, Err e)
    | UB u => (d, UB u)
    | Ok (d, icnt, ip) =>
        if negb (icnt =? 0) then indicate d false
        else indicate d (negb (id_enabled d && negb (ip =? id_ip d)))
    end.

  (** pt_insn_check_ip_event(), pt_insn_decoder.c:1223-1540; [oi] is the instruction before,
      if any. *)
  Definition pt_insn_check_ip_event (d : dec) (oi : option insn) : dec * res N :=
    match event_pending d with
    | (d, Err e) => (d, Err e)
    | (d, UB u) => (d, UB u)
    | (d, Ok false) => indicate d false
    | (d, Ok true) =>
        match id_event d with
        | None => indicate d false
        | Some ev =>
            let sup := ev_ip_suppressed ev in
            let off := negb (id_enabled d) in
            let at_ip ip := id_ip d =? ip in
            match ev_var ev with
            | Ev_disabled _ => indicate d (ev_status_update ev)
            | Ev_async_disabled at_ ip =>
                if negb (at_ip at_) then indicate d false else
                if er_skd022 (cf_errata (pt_insn_config d)) then
                  match handle_erratum_skd022 d ev ip with
                  | (d, Ok hit) => indicate d (negb hit)
                  | (d, Err e) => (d, Err e)
                  | (d, UB u) => (d, UB u)
                  end
                else indicate d true
            | Ev_tsx ip _ aborted =>
                match pt_insn_postpone_tsx d oi ev ip aborted with
                | (d, Ok later) => indicate d (negb later)
                | (d, Err e) => (d, Err e)
                | (d, UB u) => (d, UB u)
                end
            | Ev_async_branch from _ => indicate d (at_ip from)
            | Ev_exec_mode _ ip | Ev_exstop ip | Ev_mwait ip _ _ | Ev_iflags _ ip
            | Ev_interrupt _ _ ip | Ev_smi ip | Ev_init ip | Ev_vmexit _ _ _ ip
            | Ev_shutdown ip | Ev_uintr _ ip => indicate d (off || sup || at_ip ip)
            | Ev_paging _ _ | Ev_vmcs _ | Ev_ptwrite _ _ _ | Ev_iret _ | Ev_vmentry _
            | Ev_uiret _ => indicate d off
            | Ev_async_paging _ _ ip | Ev_async_vmcs _ ip => indicate d (sup || at_ip ip)
            | Ev_enabled _ _ | Ev_overflow _ | Ev_stop | Ev_pwre _ _ _ | Ev_pwrx _ _ _ _ _
            | Ev_tick _ | Ev_cbr _ | Ev_mnt _ => indicate d true
            | Ev_tip _ | Ev_tnt _ _ => (d, Err pte_internal)
            | Ev_rsm | Ev_sipi _ => if sup then indicate d true else (d, Err pte_internal)
            | Ev_trig trbv icnt ip mult => check_trig d ev trbv icnt ip mult
            end
        end
    end.

  (** pt_insn_start(), pt_insn_decoder.c:311-333, and the functions to synchronize, 335-373:
      [sync] is the function of the query decoder.  Its address is only written if it is
      not suppressed. *)
  Definition pt_insn_start (d : dec) (status : N) : dec * res N :=
    let d := id_set_status d status in
    let d := if flag status pts_ip_suppressed then d else id_set_enabled d true in
    pt_insn_check_ip_event d None.
  Definition insn_sync (sync : qrydec -> qrydec * res (option N * N)) (d : dec) : dec * res N :=
    let d := pt_insn_reset d in
    match sync (id_query d) with
    | (q, Ok (ip, status)) =>
        let d := id_set_query d q in
        let d := match ip with Some a => id_set_ip d a | None => d end in
        pt_insn_start d status
    | (q, Err e) => (id_set_query d q, Err e)
    | (q, UB u) => (id_set_query d q, UB u)
    end.
  Definition pt_insn_sync_forward (base : nat) := insn_sync (pt_qry_sync_forward base).
  Definition pt_insn_sync_backward (fuel base : nat) := insn_sync (pt_qry_sync_backward fuel base).
  Definition pt_insn_sync_set (offset : N) := insn_sync (pt_qry_sync_set offset).

  (** pt_insn_decode_cached(), pt_insn_decoder.c:1564-1612. *)
  Definition pt_insn_decode_cached (d : dec) (msec : option S) (i : insn) : insn * res insn_ext :=
    let whole i := pt_insn_decode (im_read im) (id_asid d) i in
    match msec with
    | None => whole i
    | Some s =>
        match im_sread im s (in_ip i) 15 with
        | Err pte_nomap => whole i
        | Err e => (i, Err e)
        | UB u => (i, UB u)
        | Ok bs =>
            match decode_text (in_set_text i (put_raw (in_raw i) 0 bs) (length bs)) with
            | (i, Err pte_bad_insn) => whole i
            | (i, r) => (i, r)
            end
        end
    end.

  (** pt_insn_next(), pt_insn_decoder.c:1640-1726.  The user's instruction is [None] if it
      was not written.  A negative section identifier is not modelled; it is zero. *)
  Definition pt_insn_next (d : dec) : dec * option insn * res N :=
    if negb (id_enabled d) then
      (d, None, Err (if flag (id_status d) pts_eos then pte_eos else pte_no_enable))
    else
    let i := new_insn (id_ip d) (id_mode d) (id_speculative d) in
    let (c, l) := im_lookup im (id_scache d) (id_asid d) (id_ip d) in
    let d := id_set_scache d c in
    match (match l with
           | Ok (isid, s) => Ok (in_set_isid i isid, Some s)
           | Err pte_nomap => Ok (i, None)
           | Err e => Err e
           | UB u => UB u
           end) with
    | Err e => (d, Some i, Err e)
    | UB u => (d, Some i, UB u)
    | Ok (i, msec) =>
        match pt_insn_decode_cached d msec i with
        | (i, Err e) => (d, Some i, Err e)
        | (i, UB u) => (d, Some i, UB u)
        | (i, Ok x) =>
            match pt_insn_check_insn_event d i x with
            | (d, Err e) => (d, Some i, Err e)
            | (d, UB u) => (d, Some i, UB u)
            | (d, Ok status) =>
                if flag status pts_event_pending then (d, Some i, Ok status) else
                match pt_insn_proceed d i x with
                | (d, Err e) => (d, Some i, Err e)
                | (d, UB u) => (d, Some i, UB u)
                | (d, Ok _) =>
                    let (d, r) := pt_insn_check_ip_event d (Some i) in (d, Some i, r)
                end
            end
        end
    end.

  (** ** Processing events *)

  (** pt_insn_process_enabled(), pt_insn_decoder.c:1728-1763. *)
  Definition pt_insn_process_enabled (d : dec) (ev : event) (ip : N) : dec * res unit :=
    if ev_status_update ev then
      (d, if id_enabled d then Ok tt else Err pte_bad_status_update)
    else if ev_ip_suppressed ev then (d, Err pte_noip)
    else if id_enabled d then (d, Err pte_bad_context)
    else (anchor (id_set_enabled (id_set_ip d ip) true), Ok tt).

  (** pt_insn_process_disabled(), pt_insn_decoder.c:1765-1801. *)
  Definition pt_insn_process_disabled (d : dec) (ev : event) : dec * res unit :=
    if ev_status_update ev then
      (d, if id_enabled d then Err pte_bad_status_update else Ok tt)
    else if negb (id_enabled d) then (d, Err pte_bad_context)
    else (id_set_icnt (id_set_enabled d false) false (id_icnt d), Ok tt).

  (** pt_insn_process_async_branch(), pt_insn_decoder.c:1803-1828. *)
  Definition pt_insn_process_async_branch (d : dec) (ev : event) (to : N) : dec * res unit :=
    if ev_status_update ev then (d, Err pte_bad_context)
    else if negb (id_enabled d) then (d, Err pte_bad_context)
    else (anchor (id_set_ip d to), Ok tt).

  (** pt_insn_process_paging(), pt_insn_decoder.c:1830-1849. *)
  Definition pt_insn_process_paging (d : dec) (cr3 : N) : dec * res unit :=
    if as_cr3 (id_asid d) =? cr3 then (d, Ok tt) else
    let (c, r) := im_invalidate im (id_scache d) in
    let d := id_set_scache d c in
    match r with
    | Ok _ => (id_set_asid d (mk_asid cr3 (as_vmcs (id_asid d))), Ok tt)
    | r => (d, r)
    end.

  (** pt_insn_process_overflow(), pt_insn_decoder.c:1851-1905. *)
  Definition pt_insn_process_overflow (d : dec) (ev : event) (ip : N) : dec * res unit :=
    if ev_status_update ev then (d, Err pte_bad_context) else
    let d := if ev_ip_suppressed ev
             then id_set_icnt (id_set_ip (id_set_enabled d false) 0) false (id_icnt d)
             else anchor (id_set_enabled (id_set_ip d ip) true) in
    (id_set_spec d false, Ok tt).

  Definition mode_eqb (a b : exec_mode) : bool :=
    match a, b with
    | ptem_unknown, ptem_unknown | ptem_16bit, ptem_16bit | ptem_32bit, ptem_32bit
    | ptem_64bit, ptem_64bit => true
    | _, _ => false
    end.

  (** pt_insn_process_exec_mode(), pt_insn_decoder.c:1907-1932. *)
  Definition pt_insn_process_exec_mode (d : dec) (ev : event) (mode : exec_mode) : dec * res unit :=
    if ev_status_update ev && id_enabled d && negb (mode_eqb (id_mode d) ptem_unknown)
       && negb (mode_eqb (id_mode d) mode) then (d, Err pte_bad_status_update)
    else (anchor (id_set_mode d mode), Ok tt).

  (** pt_insn_process_stop(), pt_insn_decoder.c:1948-1967. *)
  Definition pt_insn_process_stop (d : dec) (ev : event) : dec * res unit :=
    if ev_status_update ev then (d, Err pte_bad_context)
    else if id_enabled d then (d, Err pte_bad_context)
    else (d, Ok tt).

  (** pt_insn_process_vmcs(), pt_insn_decoder.c:1969-1994. *)
  Definition pt_insn_process_vmcs (d : dec) (ev : event) (vmcs : N) : dec * res unit :=
    let done d := (if ev_ip_suppressed ev then d else anchor d, Ok tt) in
    if as_vmcs (id_asid d) =? vmcs then done d else
    let (c, r) := im_invalidate im (id_scache d) in
    let d := id_set_scache d c in
    match r with
    | Ok _ => done (id_set_asid d (mk_asid (as_cr3 (id_asid d)) vmcs))
    | r => (d, r)
    end.

  (** The switch of pt_insn_event(), pt_insn_decoder.c:2010-2262: the event as it is given to
      the user. *)
  Definition process_event (d : dec) (ev : event) : dec * res event :=
    let sup := ev_ip_suppressed ev in
    let give ev (r : dec * res unit) :=
      match r with
      | (d, Ok _) => (d, Ok ev)
      | (d, Err e) => (d, Err e)
      | (d, UB u) => (d, UB u)
      end in
    (* events at an address that provide an anchor *)
    let at_ip ip := if sup then (d, Ok ev)
                    else if id_enabled d && negb (id_ip d =? ip) then (d, Err pte_bad_query)
                    else (anchor d, Ok ev) in
    match ev_var ev with
    | Ev_enabled ip _ =>
        let ev := if id_ip d =? ip then set_var ev (Ev_enabled ip true) else ev in
        give ev (pt_insn_process_enabled (put_event d ev) ev ip)
    | Ev_async_disabled at_ _ =>
        if negb sup && negb (id_ip d =? at_) then (d, Err pte_bad_query)
        else give ev (pt_insn_process_disabled d ev)
    | Ev_disabled _ => give ev (pt_insn_process_disabled d ev)
    | Ev_async_branch from to =>
        if negb (id_ip d =? from) then (d, Err pte_bad_query)
        else give ev (pt_insn_process_async_branch d ev to)
    | Ev_async_paging cr3 _ ip =>
        if negb sup && negb (id_ip d =? ip) then (d, Err pte_bad_query)
        else give ev (pt_insn_process_paging d cr3)
    | Ev_paging cr3 _ => give ev (pt_insn_process_paging d cr3)
    | Ev_async_vmcs base ip =>
        if negb sup && negb (id_ip d =? ip) then (d, Err pte_bad_query)
        else give ev (pt_insn_process_vmcs d ev base)
    | Ev_vmcs base => give ev (pt_insn_process_vmcs d ev base)
    | Ev_overflow ip => give ev (pt_insn_process_overflow d ev ip)
    | Ev_exec_mode mode _ => give ev (pt_insn_process_exec_mode d ev mode)
    | Ev_tsx _ spec _ => (anchor (id_set_spec d spec), Ok ev)
    | Ev_stop => give ev (pt_insn_process_stop d ev)
    | Ev_exstop ip | Ev_iflags _ ip | Ev_interrupt _ _ ip | Ev_smi ip | Ev_init ip
    | Ev_vmexit _ _ _ ip | Ev_shutdown ip | Ev_uintr _ ip => at_ip ip
    | Ev_mwait ip _ _ =>
        if negb sup && id_enabled d && negb (id_ip d =? ip) then (d, Err pte_bad_query)
        else (d, Ok ev)
    | Ev_pwre _ _ _ | Ev_pwrx _ _ _ _ _ | Ev_ptwrite _ _ _ | Ev_tick _ | Ev_cbr _ | Ev_mnt _
    | Ev_iret _ | Ev_vmentry _ | Ev_uiret _ => (d, Ok ev)
    | Ev_tip _ | Ev_tnt _ _ => (d, Err pte_internal)
    | Ev_rsm | Ev_sipi _ => if sup then (d, Ok ev) else (d, Err pte_internal)
    | Ev_trig _ icnt ip _ =>
        if sup then (d, Ok ev)
        else if id_enabled d && negb (ip =? id_ip d) then (d, Err pte_bad_query)
        else if negb (icnt =? 0) then (d, Err pte_internal)
        else (anchor d, Ok ev)
    end.

  (** pt_insn_event(), pt_insn_decoder.c:1996-2310.  The user's event is [None] if it was not
      written. *)
  Definition pt_insn_event (d : dec) : dec * option event * res N :=
    if negb (id_process_event d) then (d, None, Err pte_bad_query) else
    match id_event d with
    | None => (d, None, Err pte_bad_query)
    | Some ev =>
        match process_event d ev with
        | (d, Err e) => (d, None, Err e)
        | (d, UB u) => (d, None, UB u)
        | (d, Ok ev) =>
            let d := id_set_event d false (id_event d) in
            match id_postponed d with
            | None => let (d, r) := pt_insn_check_ip_event d None in (d, Some ev, r)
            | Some (i, x) =>
                match pt_insn_check_insn_event d i x with
                | (d, Err e) => (d, Some ev, Err e)
                | (d, UB u) => (d, Some ev, UB u)
                | (d, Ok status) =>
                    if flag status pts_event_pending then (d, Some ev, Ok status) else
                    match pt_insn_proceed_postponed d with
                    | (d, Err e) => (d, Some ev, Err e)
                    | (d, UB u) => (d, Some ev, UB u)
                    | (d, Ok _) =>
                        let (d, r) := pt_insn_check_ip_event d None in (d, Some ev, r)
                    end
                end
            end
        end
    end.
End DECODER.
