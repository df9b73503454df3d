(** Time tracking and calibration: /repo/libipt/src/pt_time.c.

    Packet payloads are passed as numbers.  Shifts by the width of the type or more
    and divisions by zero are undefined behaviour. *)

From Verif Require Import Base M_config.
From Coq Require Import NArith Bool.
Open Scope N_scope.

(** Unsigned 32-bit arithmetic. *)
Definition shl32 (v n : N) : res N :=
  if 32 <=? n then UB ub_shift else Ok (u32 (N.shiftl v n)).
Definition add32 (a b : N) : N := u32 (a + b).
Definition sub32 (a b : N) : N := u32 (a + 2 ^ 32 - b).
Definition not32 (v : N) : N := N.lxor v (N.ones 32).

(** Unsigned 64-bit division. *)
Definition div64 (a b : N) : res N := if b =? 0 then UB ub_div_zero else Ok (a / b).

(** pt_opcodes.h:201, 230-233, 242-245. *)
Definition pt_pl_tsc_bit_size : N := 56.
Definition pt_pl_tma_ctc_bit_size : N := 16.
Definition pt_pl_tma_ctc_mask : N := 0xffff.
Definition pt_pl_mtc_bit_size : N := 8.
Definition pt_pl_mtc_mask : N := 0xff.

(** pt_tcal_fcr_shr, internal/include/pt_time.h:162-170. *)
Definition pt_tcal_fcr_shr : N := 8.

(** struct pt_time, internal/include/pt_time.h:43-81. *)
Record time := mk_time {
  tm_tsc : N; tm_base : N; tm_fc : N; tm_ctc : N; tm_ctc_cyc : N;
  tm_lost_mtc : N; tm_lost_cyc : N; tm_cbr : N;
  tm_have_tsc : bool; tm_have_cbr : bool; tm_have_tma : bool; tm_have_mtc : bool }.

(** pt_time_init(), pt_time.c:39-45. *)
Definition pt_time_init : time := mk_time 0 0 0 0 0 0 0 0 false false false false.

(** pt_time_query_tsc(), pt_time.c:47-64.  The time and the number of lost packets
    are provided in any case. *)
Definition pt_time_query_tsc (t : time) : N * N * N * res unit :=
  (tm_tsc t, tm_lost_mtc t, tm_lost_cyc t,
   if tm_have_tsc t then Ok tt else Err pte_no_time).

(** pt_time_query_cbr(), pt_time.c:66-77. *)
Definition pt_time_query_cbr (t : time) : res N :=
  if tm_have_cbr t then Ok (tm_cbr t) else Err pte_no_cbr.

(** pt_time_ctc_delta(), pt_time.c:85-106. *)
Definition pt_time_ctc_delta (ctc last_ctc : N) (c : config) : res N :=
  if ctc <? last_ctc then
    let* wrap := shl32 1 (cf_mtc_freq c + pt_pl_mtc_bit_size) in
    let ctc := add32 ctc wrap in
    if ctc <? last_ctc then Err pte_bad_packet else Ok (sub32 ctc last_ctc)
  else Ok (sub32 ctc last_ctc).

(** pt_time_ctc_fc(), pt_time.c:112-129. *)
Definition pt_time_ctc_fc (ctc : N) (c : config) : res N :=
  let eax := cf_cpuid_0x15_eax c in
  let ebx := cf_cpuid_0x15_ebx c in
  if (eax =? 0) || (ebx =? 0) then Err pte_bad_config
  else div64 (u64 (ctc * ebx)) eax.

(** pt_time_update_tsc(), pt_time.c:131-152. *)
Definition pt_time_update_tsc (t : time) (tsc : N) : time * res unit :=
  (mk_time tsc tsc 0 0 (tm_ctc_cyc t) 0 0 (tm_cbr t) true (tm_have_cbr t) false false,
   Ok tt).

(** pt_time_update_cbr(), pt_time.c:154-173. *)
Definition pt_time_update_cbr (t : time) (ratio : N) : time * res unit :=
  if ratio =? 0 then (t, Err pte_bad_packet)
  else (mk_time (tm_tsc t) (tm_base t) (tm_fc t) (tm_ctc t) (tm_ctc_cyc t)
                (tm_lost_mtc t) (tm_lost_cyc t) ratio
                (tm_have_tsc t) true (tm_have_tma t) (tm_have_mtc t), Ok tt).

(** pt_time_update_tma(), pt_time.c:175-233. *)
Definition pt_time_update_tma (t : time) (ctc fc : N) (c : config) : time * res unit :=
  if negb (tm_have_tsc t) then (t, Err pte_bad_context) else
  if tm_have_tma t then (t, Err pte_bad_context) else
  if tm_have_mtc t then (t, Err pte_internal) else
  let mtc_hi := cf_mtc_freq c + pt_pl_mtc_bit_size in
  match shl32 1 mtc_hi with
  | Ok v =>
      let ctc_mask := sub32 v 1 in
      let ctc := N.land ctc ctc_mask in
      (mk_time (tm_tsc t) (sub64 (tm_base t) fc) (add64 (tm_fc t) fc) ctc ctc
               (tm_lost_mtc t) (tm_lost_cyc t) (tm_cbr t)
               (tm_have_tsc t) (tm_have_cbr t) true
               (if mtc_hi <=? pt_pl_tma_ctc_bit_size then true else tm_have_mtc t),
       Ok tt)
  | Err e => (t, Err e)
  | UB u => (t, UB u)
  end.

(** The estimate of the last CTC at the first MTC after TMA, pt_time.c:283-319. *)
Definition mtc_last_ctc (ctc last_ctc : N) (c : config) : res N :=
  if truth (N.land last_ctc (not32 pt_pl_tma_ctc_mask)) then Err pte_internal else
  let ctc_lo := N.land ctc pt_pl_tma_ctc_mask in
  let ctc_hi := N.land ctc (not32 pt_pl_tma_ctc_mask) in
  let* ctc_hi :=
    (if ctc_lo <? last_ctc then
       let* mask := shl32 pt_pl_mtc_mask (cf_mtc_freq c) in
       Ok (N.land (sub32 ctc_hi (2 ^ pt_pl_tma_ctc_bit_size)) mask)
     else Ok ctc_hi) in
  Ok (N.lor last_ctc ctc_hi).

(** pt_time_update_mtc(), pt_time.c:235-340. *)
Definition pt_time_update_mtc (t : time) (payload : N) (c : config) : time * res unit :=
  let have_tma := tm_have_tma t in
  let have_mtc := tm_have_mtc t in
  if tm_have_tsc t && negb have_tma then (t, Ok tt) else
  let base := tm_base t in
  let last_ctc := tm_ctc t in
  match shl32 payload (cf_mtc_freq c) with
  | Ok ctc =>
      let ctc_cyc := if truth (tm_fc t) || truth (tm_lost_cyc t) || negb have_mtc
                     then ctc else tm_ctc_cyc t in
      let t := mk_time (tm_tsc t) (tm_base t) 0 ctc ctc_cyc (tm_lost_mtc t) 0 (tm_cbr t)
                       (tm_have_tsc t) (tm_have_cbr t) have_tma true in
      if negb have_mtc && negb have_tma then (t, Ok tt) else
      match (if negb have_mtc then mtc_last_ctc ctc last_ctc c else Ok last_ctc) with
      | Ok last_ctc =>
          match pt_time_ctc_delta ctc last_ctc c with
          | Ok ctc_delta =>
              match pt_time_ctc_fc ctc_delta c with
              | Ok tsc =>
                  let base := add64 base tsc in
                  (mk_time base base (tm_fc t) (tm_ctc t) (tm_ctc_cyc t) (tm_lost_mtc t)
                           (tm_lost_cyc t) (tm_cbr t) (tm_have_tsc t) (tm_have_cbr t)
                           (tm_have_tma t) (tm_have_mtc t), Ok tt)
              | Err e => (t, Err e)
              | UB u => (t, UB u)
              end
          | Err e =>
              (mk_time (tm_tsc t) (tm_base t) (tm_fc t) (tm_ctc t) (tm_ctc_cyc t)
                       (add32 (tm_lost_mtc t) 1) (tm_lost_cyc t) (tm_cbr t)
                       (tm_have_tsc t) (tm_have_cbr t) (tm_have_tma t) (tm_have_mtc t),
               Err e)
          | UB u => (t, UB u)
          end
      | Err e => (t, Err e)
      | UB u => (t, UB u)
      end
  | Err e => (t, Err e)
  | UB u => (t, UB u)
  end.

(** pt_time_adjust_cyc(), pt_time.c:360-407. *)
Definition pt_time_adjust_cyc (cyc : N) (t : time) (c : config) (fcr : N) : res N :=
  if fcr =? 0 then Err pte_internal else
  let last_ctc := tm_ctc_cyc t in
  let ctc := tm_ctc t in
  if ctc =? last_ctc then Ok cyc else
  let* ctc_delta := pt_time_ctc_delta ctc last_ctc c in
  let* fc := pt_time_ctc_fc ctc_delta c in
  let* old_cyc := div64 (shl64 fc pt_tcal_fcr_shr) fcr in
  let total_cyc := if cyc <? old_cyc then old_cyc else cyc in
  Ok (sub64 total_cyc old_cyc).

(** pt_time_update_cyc(), pt_time.c:409-439. *)
Definition pt_time_update_cyc (t : time) (value : N) (c : config) (fcr : N)
  : time * res unit :=
  if fcr =? 0 then
    (mk_time (tm_tsc t) (tm_base t) (tm_fc t) (tm_ctc t) (tm_ctc_cyc t) (tm_lost_mtc t)
             (add32 (tm_lost_cyc t) 1) (tm_cbr t) (tm_have_tsc t) (tm_have_cbr t)
             (tm_have_tma t) (tm_have_mtc t), Ok tt)
  else
  match (if tm_fc t =? 0 then pt_time_adjust_cyc value t c fcr else Ok value) with
  | Ok cyc =>
      let fc := add64 (tm_fc t) (N.shiftr (u64 (cyc * fcr)) pt_tcal_fcr_shr) in
      (mk_time (add64 (tm_base t) fc) (tm_base t) fc (tm_ctc t) (tm_ctc_cyc t)
               (tm_lost_mtc t) (tm_lost_cyc t) (tm_cbr t) (tm_have_tsc t)
               (tm_have_cbr t) (tm_have_tma t) (tm_have_mtc t), Ok tt)
  | Err e => (t, Err e)
  | UB u => (t, UB u)
  end.

(** ** Calibration *)

(** struct pt_time_cal, internal/include/pt_time.h:122-160. *)
Record tcal := mk_tcal {
  tl_fcr : N; tl_min_fcr : N; tl_max_fcr : N; tl_tsc : N; tl_cyc_tsc : N; tl_cyc_mtc : N;
  tl_ctc : N; tl_lost_mtc : N; tl_have_mtc : bool; tl_check_skl168 : bool }.

(** pt_tcal_init(), pt_time.c:441-449. *)
Definition pt_tcal_init : tcal :=
  mk_tcal 0 0xffffffffffffffff 0 0 0 0 0 0 false false.

(** pt_tcal_have_fcr(), pt_tcal_fcr(), pt_time.c:451-470. *)
Definition pt_tcal_have_fcr (l : tcal) : bool := tl_min_fcr l <=? tl_max_fcr l.
Definition pt_tcal_fcr (l : tcal) : res N :=
  if pt_tcal_have_fcr l then Ok (tl_fcr l) else Err pte_no_time.

(** pt_tcal_set_fcr(), pt_time.c:472-486. *)
Definition pt_tcal_set_fcr (l : tcal) (fcr : N) : tcal :=
  mk_tcal fcr (if fcr <? tl_min_fcr l then fcr else tl_min_fcr l)
          (if tl_max_fcr l <? fcr then fcr else tl_max_fcr l)
          (tl_tsc l) (tl_cyc_tsc l) (tl_cyc_mtc l) (tl_ctc l) (tl_lost_mtc l)
          (tl_have_mtc l) (tl_check_skl168 l).

(** pt_tcal_update_psb(), pt_time.c:488-498. *)
Definition pt_tcal_update_psb (l : tcal) (c : config) : tcal * res unit :=
  if er_skl168 (cf_errata c) then
    (mk_tcal (tl_fcr l) (tl_min_fcr l) (tl_max_fcr l) (tl_tsc l) (tl_cyc_tsc l)
             (tl_cyc_mtc l) (tl_ctc l) (tl_lost_mtc l) (tl_have_mtc l) true, Ok tt)
  else (l, Ok tt).

(** pt_tcal_update_tsc(), pt_time.c:500-517. *)
Definition pt_tcal_update_tsc (l : tcal) (tsc : N) : tcal * res unit :=
  (mk_tcal (tl_fcr l) (tl_min_fcr l) (tl_max_fcr l) tsc 0 (tl_cyc_mtc l) (tl_ctc l)
           (tl_lost_mtc l) (tl_have_mtc l) (tl_check_skl168 l), Ok tt).

(** The overflow test [v & ~(~0ull >> pt_tcal_fcr_shr)], pt_time.c:560 and 674. *)
Definition fcr_overflow (v : N) : bool :=
  truth (N.land v (N.lxor (N.shiftr (N.ones 64) pt_tcal_fcr_shr) (N.ones 64))).

(** pt_tcal_header_tsc(), pt_time.c:519-566. *)
Definition pt_tcal_header_tsc (l : tcal) (tsc : N) : tcal * res unit :=
  let last_tsc := tl_tsc l in
  let cyc := tl_cyc_tsc l in
  let l := fst (pt_tcal_update_tsc l tsc) in
  if (last_tsc =? 0) || (cyc =? 0) then (l, Ok tt) else
  if tl_have_mtc l then (l, Ok tt) else
  let tsc' := if tsc <? last_tsc then add64 tsc (2 ^ pt_pl_tsc_bit_size) else tsc in
  if (tsc <? last_tsc) && (tsc' <? last_tsc) then (l, Err pte_bad_packet) else
  let tsc_delta := sub64 tsc' last_tsc in
  if fcr_overflow tsc_delta then (l, Err pte_internal) else
  match div64 (shl64 tsc_delta pt_tcal_fcr_shr) cyc with
  | Ok fcr => (pt_tcal_set_fcr l fcr, Ok tt)
  | Err e => (l, Err e)
  | UB u => (l, UB u)
  end.

(** pt_tcal_header_cbr(), pt_time.c:580-601. *)
Definition pt_tcal_header_cbr (l : tcal) (ratio : N) (c : config) : tcal * res unit :=
  let p1 := cf_nom_freq c in
  if p1 =? 0 then (l, Ok tt) else
  if ratio =? 0 then (l, Err pte_bad_packet) else
  match div64 (shl64 p1 pt_tcal_fcr_shr) ratio with
  | Ok fcr => (pt_tcal_set_fcr l fcr, Ok tt)
  | Err e => (l, Err e)
  | UB u => (l, UB u)
  end.

(** pt_tcal_update_cbr(), pt_time.c:568-578. *)
Definition pt_tcal_update_cbr (l : tcal) (ratio : N) (c : config) : tcal * res unit :=
  pt_tcal_header_cbr pt_tcal_init ratio c.

(** pt_tcal_update_tma(), pt_time.c:603-613. *)
Definition pt_tcal_update_tma (l : tcal) : tcal * res unit := (l, Ok tt).

(** The SKL168 test of pt_tcal_update_mtc(), pt_time.c:687-719: true if the packet is
    counted as lost. *)
Definition skl168_lost (l : tcal) (cyc ctc_delta fc : N) (c : config) : res bool :=
  let* period := shl32 1 (cf_mtc_freq c) in
  if period <? ctc_delta then Ok true else
  if (cf_mtc_freq c <? 10) && pt_tcal_have_fcr l then
    let dfc := N.shiftr (u64 (tl_fcr l * add64 cyc 0xf00)) pt_tcal_fcr_shr in
    Ok (dfc <? fc)
  else Ok false.

(** pt_tcal_update_mtc(), pt_time.c:615-728. *)
Definition pt_tcal_update_mtc (l : tcal) (payload : N) (c : config) : tcal * res unit :=
  let last_ctc := tl_ctc l in
  let cyc := tl_cyc_mtc l in
  let check_skl168 := tl_check_skl168 l in
  match shl32 payload (cf_mtc_freq c) with
  | Ok ctc =>
      if negb (tl_have_mtc l) then
        (mk_tcal (tl_fcr l) (tl_min_fcr l) (tl_max_fcr l) (tl_tsc l) (tl_cyc_tsc l) 0 ctc
                 (tl_lost_mtc l) true false, Ok tt)
      else if cyc =? 0 then
        (mk_tcal (tl_fcr l) (tl_min_fcr l) (tl_max_fcr l) (tl_tsc l) (tl_cyc_tsc l)
                 (tl_cyc_mtc l) (tl_ctc l) (tl_lost_mtc l) (tl_have_mtc l) false, Ok tt)
      else
        let l := mk_tcal (tl_fcr l) (tl_min_fcr l) (tl_max_fcr l) (tl_tsc l) (tl_cyc_tsc l)
                         0 ctc (add32 (tl_lost_mtc l) 1) true false in
        match pt_time_ctc_delta ctc last_ctc c with
        | Ok ctc_delta =>
            match pt_time_ctc_fc ctc_delta c with
            | Ok fc =>
                if fcr_overflow fc then (l, Err pte_internal) else
                match div64 (shl64 fc pt_tcal_fcr_shr) cyc with
                | Ok fcr =>
                    match (if check_skl168 then skl168_lost l cyc ctc_delta fc c
                           else Ok false) with
                    | Ok true => (l, Ok tt)
                    | Ok false =>
                        let l := pt_tcal_set_fcr l fcr in
                        (mk_tcal (tl_fcr l) (tl_min_fcr l) (tl_max_fcr l) (tl_tsc l)
                                 (tl_cyc_tsc l) (tl_cyc_mtc l) (tl_ctc l) 0
                                 (tl_have_mtc l) (tl_check_skl168 l), Ok tt)
                    | Err e => (l, Err e)
                    | UB u => (l, UB u)
                    end
                | Err e => (l, Err e)
                | UB u => (l, UB u)
                end
            | Err e => (l, Err e)
            | UB u => (l, UB u)
            end
        | Err e => (l, Err e)
        | UB u => (l, UB u)
        end
  | Err e => (l, Err e)
  | UB u => (l, UB u)
  end.

(** pt_tcal_update_cyc(), pt_time.c:730-746. *)
Definition pt_tcal_update_cyc (l : tcal) (value : N) : tcal * res unit :=
  (mk_tcal (tl_fcr l) (tl_min_fcr l) (tl_max_fcr l) (tl_tsc l)
           (add64 (tl_cyc_tsc l) value) (add64 (tl_cyc_mtc l) value) (tl_ctc l)
           (tl_lost_mtc l) (tl_have_mtc l) (tl_check_skl168 l), Ok tt).

(** pt_tcal_update_ovf(), pt_time.c:748-761. *)
Definition pt_tcal_update_ovf (l : tcal) : tcal * res unit :=
  (mk_tcal (tl_fcr l) (tl_min_fcr l) (tl_max_fcr l) 0 0 0 0 (tl_lost_mtc l) false
           (tl_check_skl168 l), Ok tt).
