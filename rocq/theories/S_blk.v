(** The flow that a sequence of blocks and events stands for.

    The specification follows [S_flow]: the trace is a list of facts, memory gives the
    instructions.  It differs where the block decoder is meant to differ: a call is
    remembered when it is executed, even if tracing ends with it; tracing that ends at an
    address ends there between two instructions; an event with an address belongs to an
    instruction only if it is the first one of that instruction; and an event that is still
    to come does not let a branch use the trace. *)

From Coq Require Import List NArith ZArith Bool.
From Verif Require Import Base M_event M_asid M_ildtab M_ild M_insn M_query M_insndec M_blk
  S_x86 S_insn S_query S_flow S_drive.
Import ListNotations.
Open Scope N_scope.

(** ** Steps *)

Definition is_call (c : iclass) : bool := match c with ptic_call => true | _ => false end.
(** The calls after an instruction. *)
Definition called (s : site) (l : list N) : list N :=
  if is_call (si_class s) then remember s l else l.

(** A branch that needs the trace. *)
Definition branches (s : site) : bool :=
  match si_class s with
  | ptic_other | ptic_ptwrite | ptic_unknown => false
  | ptic_jump | ptic_call => negb (direct s)
  | _ => true
  end.

(** Completing an instruction: the calls and the facts before; then the next address, the
    calls and the facts after. *)
Inductive completes (s : site) : list N -> list fact -> N -> list N -> list fact -> Prop :=
| complete_other l fs : si_class s = ptic_other \/ si_class s = ptic_ptwrite ->
    completes s l fs (next_insn s) l fs
| complete_direct l fs : si_class s = ptic_jump \/ si_class s = ptic_call -> direct s = true ->
    completes s l fs (target s) l fs
| complete_cond (b : bool) l fs : si_class s = ptic_cond_jump ->
    completes s l (F_bit b :: fs) (if b then target s else next_insn s) l fs
| complete_compressed a l fs : si_class s = ptic_return ->
    completes s (a :: l) (F_bit true :: fs) a l fs
| complete_return a l fs : si_class s = ptic_return ->
    completes s l (F_tip (Some a) :: fs) a l fs
| complete_indirect a l fs fs' :
    (si_class s = ptic_jump \/ si_class s = ptic_call) /\ direct s = false \/
    si_class s = ptic_indirect \/ far (si_class s) = true -> takes fs a fs' ->
    completes s l fs a l fs'.

Definition moves_cr3 (s : site) : bool :=
  match x_inst (si_ext s) with PTI_MOV_CR3 => true | _ => false end.
(** Tracing ends with this instruction. *)
Definition ends (s : site) (e : event) : bool :=
  match ev_var e with
  | Ev_disabled _ =>
      negb (ev_status_update e) && (branches s || (ev_ip_suppressed e && moves_cr3 s))
  | _ => false
  end.
(** Where tracing is expected to resume. *)
Definition resumes (s : site) : N :=
  match si_class s with
  | ptic_call | ptic_far_call => next_insn s
  | _ => if branches s then 0 else si_ip s
  end.
(** The instruction, which caused the events [ks], causes this event, too. *)
Definition also_causes (s : site) (ks : list kind) (e : event) : bool :=
  causes s e &&
  match ev_var e with
  | Ev_paging _ _ | Ev_vmcs _ => true
  | _ => ev_ip_suppressed e || match ks with [] => true | _ => false end
  end.
Definition belongs (s : site) (ks : list kind) (e : event) : Prop :=
  ends s e = true \/ exists k, kind_of e = Some k /\ ~ In k ks /\ also_causes s ks e = true.

(** The event happens here, between instructions. *)
Definition here (f : flow) (e : event) : bool :=
  match ev_var e with
  | Ev_disabled ip =>
      ev_status_update e || (f_on f && negb (ev_ip_suppressed e) && (f_ip f =? ip))
  | _ => located f e
  end.

(** The next thing in the flow is an instruction. *)
Definition executing (err : pte) (s : fstate) : Prop :=
  f_on (fs_flow s) = true /\ f_cur (fs_flow s) = None /\
  quiet err (fun e => here (fs_flow s) e = true) (fs_held s) (fs_facts s).

(** [err]: the error that ends the trace. *)
Inductive bstep (mem : asid -> memory) (err : pte) : fstate -> list obs -> fstate -> Prop :=
| bs_take f e fs :
    bstep mem err (mk_fstate f None (F_event e :: fs)) [] (mk_fstate f (Some e) fs)
| bs_insn f h fs t i :
    executing err (mk_fstate f h fs) -> insn_of mem f t i ->
    bstep mem err (mk_fstate f h fs) [O_insn i]
      (mk_fstate (at_site (calls f (called (site_of f t) (f_calls f))) (Some (site_of f t, []))) h fs)
| bs_cause f s ks k e f' fs :
    f_on f = true -> f_cur f = Some (s, ks) -> kind_of e = Some k -> ~ In k ks ->
    also_causes s ks e = true -> effect f e = Some f' ->
    bstep mem err (mk_fstate f (Some e) fs) [O_event e]
      (mk_fstate (at_site f' (Some (s, k :: ks))) None fs)
| bs_end f s ks e fs :
    f_on f = true -> f_cur f = Some (s, ks) -> ends s e = true ->
    bstep mem err (mk_fstate f (Some e) fs) [O_event e]
      (mk_fstate (at_site (turn f false (resumes s)) None) None fs)
| bs_leave f s ks h fs ip l fs' :
    f_on f = true -> f_cur f = Some (s, ks) -> quiet err (belongs s ks) h fs ->
    branches s = false \/ h = None -> completes s (f_calls f) fs ip l fs' ->
    bstep mem err (mk_fstate f h fs) []
      (mk_fstate (at_site (go (calls f l) ip) None) h fs')
| bs_event f e f' fs :
    f_cur f = None -> here f e = true -> effect f e = Some f' ->
    bstep mem err (mk_fstate f (Some e) fs) [O_event (shown f e)] (mk_fstate f' None fs).

Inductive bflows (mem : asid -> memory) (err : pte) : fstate -> list obs -> fstate -> Prop :=
| bflows_nil s : bflows mem err s [] s
| bflows_cons s o s1 os s' : bstep mem err s o s1 -> bflows mem err s1 os s' ->
    bflows mem err s (o ++ os) s'.

(** The flow cannot go on, or there are outcomes of conditional branches left over at an
    indirect branch. *)
Definition blocked (mem : asid -> memory) (err : pte) (s : fstate) : Prop :=
  forall o s', bstep mem err s o s' -> ~ orderly s.
(** A flow without left-over outcomes. *)
Inductive orderly_bflows (mem : asid -> memory) (err : pte) : fstate -> list obs -> fstate -> Prop :=
| obf_nil s : orderly_bflows mem err s [] s
| obf_cons s o s1 os s' : orderly s -> bstep mem err s o s1 -> orderly_bflows mem err s1 os s' ->
    orderly_bflows mem err s (o ++ os) s'.

(** ** Blocks *)

(** The class of a block that ends with an instruction of class [c]. *)
Definition class_of_block (b : block) (c : iclass) : Prop :=
  b_iclass b = c \/
  b_iclass b = ptic_indirect /\ (c = ptic_jump \/ far c = true).

(** The block stands for these instructions: starting at the block's address, each one
    leads to the next without trace.  The last one is at the block's end. *)
Record expands (mem : memory) (b : block) (is : list insn) : Prop := {
  ex_count : b_ninsn b = N.of_nat (length is);
  ex_all : Forall (fun i => in_isid i = b_isid b /\ in_mode i = b_mode b /\
                            in_speculative i = b_speculative b) is;
  ex_last : forall l i, is = l ++ [i] ->
    straight mem (b_mode b) (b_ip b) (length l) (in_ip i) /\
    (b_iclass b <> ptic_unknown -> b_end_ip b = in_ip i /\ class_of_block b (in_iclass i)) /\
    (b_truncated b = true -> b_size b = in_size i /\
                             firstn (b_size b) (b_raw b) = firstn (in_size i) (in_raw i)) }.

(** What the user sees: a block with the status, a block with an error, and an event. *)
Inductive bobs := B_block (b : block) (st : N) | B_last (b : block) | B_event (e : event).

(** A run of the flow in blocks. *)
Inductive bruns (mem : asid -> memory) (err : pte) : fstate -> list bobs -> fstate -> Prop :=
| bruns_nil s : bruns mem err s [] s
| bruns_silent s s1 bs s' : bflows mem err s [] s1 -> bruns mem err s1 bs s' ->
    bruns mem err s bs s'
| bruns_block s b st is s1 bs s' :
    bflows mem err s (map O_insn is) s1 -> expands (mem (f_asid (fs_flow s))) b is ->
    (* a block is only empty if there is an event *)
    (is = [] -> flag st pts_event_pending = true) ->
    (* the class is only unknown if the block is about to overflow *)
    (b_iclass b = ptic_unknown -> is = [] \/ 65280 < b_ninsn b) ->
    bruns mem err s1 bs s' -> bruns mem err s (B_block b st :: bs) s'
(** On errors, the block may count an instruction that cannot be decoded. *)
| bruns_last s b is s1 :
    bflows mem err s (map O_insn is) s1 ->
    expands (mem (f_asid (fs_flow s))) b is \/
    (b_ninsn b = N.of_nat (length is) + 1 /\ b_end_ip b = f_ip (fs_flow s1)) ->
    bruns mem err s [B_last b] s1
| bruns_event s e s1 bs s' :
    bflows mem err s [O_event e] s1 -> bruns mem err s1 bs s' ->
    bruns mem err s (B_event e :: bs) s'.

(** ** The image *)

(** The place of an address in a section: the section, the offset in the section, and
    how many bytes of the section follow from there on. *)
Record place := mk_place { pl_key : N; pl_off : N; pl_left : N }.

(** The content of sections as memory; [content k o] is the byte of section [k] at offset
    [o]. *)
Definition as_memory (content : N -> N -> option N) (k : N) : memory :=
  fun o => match content k o with Some b => Some (b, 0) | None => None end.
(** An instruction in the content of a section. *)
Definition section_text (content : N -> N -> option N) (m : exec_mode) (k o : N) (t : x86) : Prop :=
  x86_wf m t /\ (length (render t) <= 15)%nat /\
  forall j b, nth_error (render t) j = Some b -> content k (o + N.of_nat j) = Some b.

Section BLOCKS.
  Context {S C : Type} (im : blk_image S C) (mem : asid -> memory) (cached : C -> asid -> Prop).
  Context (content : N -> N -> option N) (at_ : asid -> N -> option place).

  Definition window (s : S) (ip : N) : Prop := bi_begin im s <= ip < bi_end im s.

  (** States of the flow in which the block decoder is known to go wrong. [mode_of k] is the
      execution mode for the code in section [k]. *)
  Inductive strange (mode_of : N -> exec_mode) (err : pte) : fstate -> Prop :=
  (** the execution mode is not known, *)
  | strange_mode s : executing err s -> f_mode (fs_flow s) = ptem_unknown ->
      strange mode_of err s
  (** a section is executed in different modes, *)
  | strange_modes s p : executing err s ->
      at_ (f_asid (fs_flow s)) (f_ip (fs_flow s)) = Some p ->
      f_mode (fs_flow s) <> mode_of (pl_key p) -> strange mode_of err s
  (** only a part of a section is in memory and ends in the middle of an instruction, *)
  | strange_split s p t : executing err s ->
      at_ (f_asid (fs_flow s)) (f_ip (fs_flow s)) = Some p ->
      section_text content (f_mode (fs_flow s)) (pl_key p) (pl_off p) t ->
      pl_left p < N.of_nat (length (render t)) -> strange mode_of err s
  (** a conditional branch or a compressed return caused an event, *)
  | strange_cause s si k ks b fs : f_cur (fs_flow s) = Some (si, k :: ks) -> fs_held s = None ->
      fs_facts s = F_bit b :: fs -> si_class si = ptic_cond_jump \/ si_class si = ptic_return ->
      strange mode_of err s
  (** and an event that cannot happen while tracing is off. *)
  | strange_off s e : f_on (fs_flow s) = false -> fs_held s = Some e ->
      here (fs_flow s) e = false -> strange mode_of err s.

  (** No flow gets there. *)
  Definition sane (mode_of : N -> exec_mode) (err : pte) (s : fstate) : Prop :=
    forall os s', bflows mem err s os s' -> ~ strange mode_of err s'.

  (** ** Block caches *)

  (** [n] instructions of a section, from one offset to another.  They only go forwards. *)
  Inductive chain (m : exec_mode) (k : N) : N -> nat -> N -> Prop :=
  | chain_here o : chain m k o 0 o
  | chain_step o t o1 n o' : section_text content m k o t ->
      fst (meaning m t) = ptic_other \/ fst (meaning m t) = ptic_ptwrite ->
      o1 = o + N.of_nat (length (render t)) ->
      chain m k o1 n o' -> chain m k o (Datatypes.S n) o'
  | chain_jump o t o1 n o' : section_text content m k o t ->
      fst (meaning m t) = ptic_jump ->
      x_inst (snd (meaning m t)) <> PTI_JMPABS -> x_direct (snd (meaning m t)) = true ->
      (0 <= x_disp (snd (meaning m t)))%Z ->
      o1 = o + N.of_nat (length (render t)) + Z.to_N (x_disp (snd (meaning m t))) ->
      chain m k o1 n o' -> chain m k o (Datatypes.S n) o'.

  (** What the qualifier says about the instruction that needs trace. *)
  Definition qualifies (m : exec_mode) (t : x86) (q : qualifier) : Prop :=
    let c := fst (meaning m t) in
    let x := snd (meaning m t) in
    let direct := match x_inst x with PTI_JMPABS => false | _ => x_direct x end in
    match q with
    | ptbq_again | ptbq_decode => True
    | ptbq_cond => c = ptic_cond_jump
    | ptbq_ind_call => c = ptic_call /\ x_direct x = false
    | ptbq_return => c = ptic_return
    | ptbq_indirect => c = ptic_jump /\ direct = false \/ c = ptic_indirect \/ far c = true
    end.
  (** A valid entry describes the content of its section. *)
  Definition entry_ok (mode_of : N -> exec_mode) (k o : N) (e : entry) : Prop :=
    be_mode e <> ptem_unknown ->
    be_mode e = mode_of k /\ 1 <= be_ninsn e < 256 /\ (0 <= be_disp e < 2 ^ 15)%Z /\
    match be_qual e with
    | ptbq_again => chain (mode_of k) k o (N.to_nat (be_ninsn e)) (o + Z.to_N (be_disp e))
    | q =>
        chain (mode_of k) k o (N.to_nat (be_ninsn e) - 1) (o + Z.to_N (be_disp e)) /\
        (q <> ptbq_decode -> exists t, section_text content (mode_of k) k (o + Z.to_N (be_disp e)) t /\
           qualifies (mode_of k) t q /\
           (be_isize e = 0 \/ be_isize e = N.of_nat (length (render t))))
    end.
  Definition caches_ok (mode_of : N -> exec_mode) (cs : caches) : Prop :=
    forall k c, cs k = Some c ->
      (forall o b, content k o = Some b -> o < bc_n c) /\
      forall o, o < bc_n c -> entry_ok mode_of k o (bc_entry c o).

  (** ** The image with its block caches *)

  (** The image shows memory as [image_shows] says.  A mapped section shows a part of the
      section's content at each of its addresses, in all address spaces it may be used in.
      Other decoders leave block caches there, with entries that describe the content. *)
  Record blocks_show (mode_of : N -> exec_mode) : Prop := {
    bl_image : image_shows (bi_image im) mem cached;
    bl_window : forall c a ip c' isid s, cached c a ->
      im_lookup (bi_image im) c a ip = (c', Ok (isid, s)) ->
      window s ip /\ bi_end im s <= 2 ^ 64 /\ bi_offset im s + (bi_end im s - bi_begin im s) < 2 ^ 63 /\
      forall ip', window s ip' ->
        at_ a ip' = Some (mk_place (bi_key im s) (pt_msec_unmap im s ip') (bi_end im s - ip')) /\
        (exists b, content (bi_key im s) (pt_msec_unmap im s ip') = Some b /\
                   mem a ip' = Some (b, isid)) /\
        (exists l, im_sread (bi_image im) s ip' 15 = Ok l /\ (1 <= length l <= 15)%nat /\
                   bytes_ok l /\ bytes_at (mem a) ip' l /\
                   length l = Nat.min 15 (N.to_nat (bi_end im s - ip')));
    bl_read : forall a ip p n isid l, at_ a ip = Some p ->
      im_read (bi_image im) a ip n = Ok (isid, l) -> N.of_nat (length l) <= pl_left p;
    bl_size : forall k o b, content k o = Some b -> o < bi_size im k;
    bl_alloc : forall k, snd (bi_alloc im k) <> Err pte_eos /\ forall u, snd (bi_alloc im k) <> UB u;
    bl_others : forall c cs a, cached c a -> caches_ok mode_of cs ->
      match bi_others im c cs with
      | (c', cs') => cached c' a /\ caches_ok mode_of cs' /\ forall k, cs k <> None -> cs' k <> None
      end }.

  (** ** The loop *)

  (** One call, as documented (doc/howto_libipt.md:1101-1124, 1177-1209): events first. *)
  Definition blk_drive1 (d : blkdec C) (st : N) : blkdec C * list bobs * res N :=
    if flag st pts_event_pending then
      match pt_blk_event im d with
      | (d, e, r) => (d, match e with Some e => [B_event e] | None => [] end, r)
      end
    else
      match pt_blk_next im d with
      | (d, b, Ok st) => (d, [B_block b st], Ok st)
      | (d, b, Err e) => (d, [B_last b], Err e)
      | (d, b, UB u) => (d, [], UB u)
      end.
  (** At most [n] calls: what is seen, and the last status. *)
  Fixpoint blk_drive (n : nat) (d : blkdec C) (st : N) : list bobs * blkdec C * res N :=
    match n with
    | O => ([], d, Ok st)
    | Datatypes.S n =>
        match blk_drive1 d st with
        | (d, o, Ok st) => match blk_drive n d st with (os, d, r) => (o ++ os, d, r) end
        | (d, o, r) => (o, d, r)
        end
    end.
End BLOCKS.

(** Events as block decoding needs them: branches, and tracing that begins, come with an address,
    a note that tracing is off does not, and there are no trigger events. *)
Definition plain_event (e : event) : Prop :=
  match ev_var e with
  | Ev_trig _ _ _ _ => False
  | Ev_tip _ | Ev_tnt _ _ | Ev_enabled _ _ | Ev_async_branch _ _ => ev_ip_suppressed e = false
  | Ev_disabled _ => ev_status_update e = true -> ev_ip_suppressed e = true
  | _ => True
  end.
