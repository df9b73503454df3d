(** Which address space is shown: the rules, without contexts and reference counts.

    An observer sees the records that sideband decoders are told to apply and the trace events
    that are presented to them.  It keeps a table of processes and, for every decoder, the address
    space in use and the one to use from the next time the processor is not known to be in user
    mode. *)
From Verif Require Import Base M_event M_pevent M_sb M_sbpev S_sb2.
From Coq Require Import List NArith Bool PeanoNat.
Import ListNotations.
Open Scope N_scope.

(** The user-visible effect of libipt's image functions, for an outside where allocation, copying
    and the notification of switches work. *)
Record tools (I : Type) := mk_tools {
  tl_copy : I -> I -> I;                       (* destination, source *)
  tl_map : I -> list N -> N -> N -> N -> I;    (* file, offset, size, address *)
  tl_abi : list N -> option sb_abi }.
Arguments tl_copy {I}. Arguments tl_map {I}. Arguments tl_abi {I}.

Definition works {E I} (out : outside E I) (t : tools I) : Prop :=
  (forall e, snd (eo_alloc out e) = true) /\
  (forall e i j, snd (fst (eo_copy out e i j)) = tl_copy t i j /\ snd (eo_copy out e i j) = Ok tt) /\
  (if eo_iscache out then
     forall e i f o s v,
       match eo_isc_add out e f o s v with
       | (e', Ok isid) => snd (fst (eo_add_cached out e' i isid)) = tl_map t i f o s v
       | _ => i = tl_map t i f o s v
       end
   else forall e i f o s v, snd (fst (eo_add_file out e i f o s v)) = tl_map t i f o s v) /\
  (forall e f, snd (eo_abi out e f) = tl_abi t f) /\
  (forall notify, eo_switch out = Some notify -> forall e c, snd (notify e c) = Ok tt).

(** An address space. *)
Record space (I : Type) := mk_space { sp_image : I; sp_abi : sb_abi }.
Arguments mk_space {I}. Arguments sp_image {I}. Arguments sp_abi {I}.

(** All address spaces so far, the address space of each process, and the one that is shown. *)
Record table (I : Type) := mk_table {
  tb_spaces : list (space I); tb_process : N -> option nat; tb_shown : option nat }.
Arguments mk_table {I}. Arguments tb_spaces {I}. Arguments tb_process {I}. Arguments tb_shown {I}.

Inductive mode := User | Kernel | Unknown.
Definition is_user (m : mode) : bool := match m with User => true | _ => false end.

(** What is known about the processor of a decoder: the address space in use, the one to use next,
    and the mode. *)
Record cpu_view := mk_cpu_view { cv_now : option nat; cv_goal : option nat; cv_mode : mode }.

Section RULES.
  Context {I : Type} (t : tools I) (new kernel : I).

  (** A new address space for a process; the address space of a process that was not seen before
      holds the kernel. *)
  Definition fresh (pid : N) (y : table I) : table I * nat :=
    let c := length (tb_spaces y) in
    (mk_table (tb_spaces y ++ [mk_space (tl_copy t new kernel) pt_sb_abi_unknown])
       (fun q => if q =? pid then Some c else tb_process y q) (tb_shown y), c).
  Definition look (pid : N) (y : table I) : table I * nat :=
    match tb_process y pid with Some c => (y, c) | None => fresh pid y end.

  Definition change (c : nat) (f : space I -> space I) (y : table I) : table I :=
    match nth_error (tb_spaces y) c with
    | Some x => mk_table (set_at (tb_spaces y) c (f x)) (tb_process y) (tb_shown y)
    | None => y
    end.

  Definition same (a b : option nat) : bool :=
    match a, b with
    | Some x, Some y => Nat.eqb x y
    | None, None => true
    | _, _ => false
    end.
  (** The address space to use next is used now. *)
  Definition arrive (y : table I) (v : cpu_view) : table I * cpu_view :=
    if same (cv_now v) (cv_goal v) then (y, v)
    else (mk_table (tb_spaces y) (tb_process y) (cv_goal v), mk_cpu_view (cv_goal v) (cv_goal v) (cv_mode v)).
  Definition aim (c : nat) (v : cpu_view) : cpu_view := mk_cpu_view (cv_now v) (Some c) (cv_mode v).

  (** The file to map for a name: special names have none, except that the vdso of the process is
      a configured file; others are below the root of the traced system. *)
  Definition file_for (p : priv) (abi : sb_abi) (name : list N) : option (list N) :=
    if streq name str_vdso then
      match abi with
      | pt_sb_abi_unknown => None
      | pt_sb_abi_x64 => pp_vdso_x64 p
      | pt_sb_abi_x32 => pp_vdso_x32 p
      | pt_sb_abi_ia32 => pp_vdso_ia32 p
      end
    else if starts_with name [91] || streq name str_anon || strstr name str_deleted then None
    else Some (match pp_sysroot p with Some root => firstn 4095 (root ++ name) | None => name end).

  Definition mapped (f : list N) (offset size vaddr : N) (x : space I) : space I :=
    mk_space (tl_map t (sp_image x) f offset size vaddr)
      (match sp_abi x, tl_abi t f with
       | pt_sb_abi_unknown, Some a => a
       | a, _ => a
       end).

  (** A record takes effect.  [given]: the decoder says what is shown. *)
  Definition on_record (given : bool) (p : priv) (r : pev_event) (y : table I) (v : cpu_view) :
    table I * cpu_view :=
    let to pid := if given then let (y, c) := look pid y in (y, aim c v) else (y, v) in
    let map pid name offset size vaddr :=
      if N.land (pe_misc r) 7 =? 1 then (y, v) else
      let (y, c) := look pid y in
      let abi := match nth_error (tb_spaces y) c with Some x => sp_abi x | None => pt_sb_abi_unknown end in
      match file_for p abi name with
      | Some f => (change c (mapped f offset size vaddr) y, v)
      | None => (y, v)
      end in
    match pe_record r with
    | RItrace pid _ => if given then (let (y, v) := to pid in arrive y v) else (y, v)
    | RFork pid ppid tid _ _ =>
        if (ppid =? pid) || negb (pid =? tid) then (y, v) else
        let (y, c) := fresh pid y in
        match tb_process y ppid with
        | None => (y, v)
        | Some parent =>
            match nth_error (tb_spaces y) parent with
            | Some q => (change c (fun x => mk_space (tl_copy t (sp_image x) (sp_image q)) (sp_abi x)) y, v)
            | None => (y, v)
            end
        end
    | RComm pid _ _ =>
        if N.testbit (pe_misc r) 13 then
          let (y, c) := fresh pid y in (y, if given then aim c v else v)
        else (y, v)
    | RSwitchWide next _ =>
        if N.testbit (pe_misc r) 13 then to next
        else match sm_pid (pe_sample r) with Some pid => to pid | None => (y, v) end
    | RMmap pid _ addr len pgoff name | RMmap2 pid _ addr len pgoff _ _ _ _ _ _ name =>
        map pid name pgoff len addr
    | RNone =>
        if (pe_type r =? PERF_RECORD_SWITCH) && negb (N.testbit (pe_misc r) 13) then
          match sm_pid (pe_sample r) with Some pid => to pid | None => (y, v) end
        else (y, v)
    | _ => (y, v)
    end.

  (** The mode after a trace event. *)
  Definition mode_at (start ip : N) : mode := if ip <? start then User else Kernel.
  Definition other (m : mode) : mode := match m with User => Kernel | Kernel => User | Unknown => Unknown end.
  Definition mode_after (start : N) (m : mode) (ev : event) : mode :=
    let sup := ev_ip_suppressed ev in
    let at_ ip := if sup then Unknown else mode_at start ip in
    match ev_var ev with
    | Ev_enabled ip _ | Ev_async_branch _ ip | Ev_tip ip => mode_at start ip
    | Ev_disabled ip => if sup then other m else mode_at start ip
    | Ev_async_disabled a ip => if sup then other (mode_at start a) else mode_at start ip
    | Ev_paging _ _ => Kernel
    | Ev_async_paging _ _ ip => if sup then Kernel else mode_at start ip
    | Ev_overflow ip | Ev_exec_mode _ ip | Ev_tsx ip _ _ | Ev_exstop ip | Ev_mwait ip _ _
    | Ev_ptwrite ip _ _ | Ev_tick ip | Ev_iflags _ ip | Ev_interrupt _ _ ip | Ev_iret ip | Ev_smi ip
    | Ev_init ip | Ev_vmentry ip | Ev_vmexit _ _ _ ip | Ev_shutdown ip | Ev_uintr _ ip | Ev_uiret ip =>
        at_ ip
    | _ => Unknown
    end.

  (** A trace event is presented: the processor passes through kernel mode unless it is known to be in
      user mode before and after. *)
  Definition on_event (given : bool) (p : priv) (ev : event) (y : table I) (v : cpu_view) : table I * cpu_view :=
    let m := mode_after (pp_kernel_start p) (cv_mode v) ev in
    let v' := mk_cpu_view (cv_now v) (cv_goal v) m in
    if given && negb (is_user (cv_mode v) && is_user m) then arrive y v' else (y, v').

  (** The record that a decoder has fetched and that is due. *)
  Definition due_record (p : priv) (ev : event) : option pev_event :=
    let fetched := match pp_current p with Some n => negb (Nat.eqb n (pp_next p)) | None => true end in
    let due := match sm_time (pe_sample (pp_event p)) with
               | None => true
               | Some _ => sm_tsc (pe_sample (pp_event p)) <=? ev_tsc ev
               end in
    if fetched && due then Some (pp_event p) else None.
  Definition on_apply (given : bool) (ev : event) (p : priv) (y : table I) (v : cpu_view) : table I * cpu_view :=
    match due_record p ev with
    | Some r => on_record given p r y v
    | None => on_event given p ev y v
    end.

  (** Callbacks with an observer. *)
  Definition observe {W} (ops : sbops priv W) : sbops (priv * cpu_view) (W * table I) :=
    mk_sbops
      (fun '(w, y) '(p, v) => let '(w, p, r) := so_fetch ops w p in ((w, y), (p, v), r))
      (fun given ev '(w, y) '(p, v) =>
         let (y, v) := on_apply given ev p y v in
         let '(w, p, r) := so_apply ops given ev w p in ((w, y), (p, v), r))
      (fun '(w, y) '(p, v) => let '(w, p, r) := so_print ops w p in ((w, y), (p, v), r))
      (fun '(w, y) '(p, v) => let (w, r) := so_dtor ops w p in ((w, y), r)).
End RULES.

(** The start: no address space, and nothing known about a processor. *)
Definition no_table {I} : table I := mk_table [] (fun _ => None) None.
Definition no_view : cpu_view := mk_cpu_view None None Unknown.

(** A decoder that was not used yet. *)
Definition starts (p : priv) : Prop :=
  bytes_ok (pp_buf p) /\ (pc_shift (pp_pev p) < 64)%N /\
  pp_context p = None /\ pp_next_context p = None /\ pp_location p = ploc_unknown.

(** A bound for the number of turns. *)
Definition total (decoders : list (priv * bool)) : nat :=
  list_sum (map (fun d => S (length (pp_buf (fst d)))) decoders).
