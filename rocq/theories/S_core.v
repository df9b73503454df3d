(** Specifications for the small stateful components: last-IP, TNT cache, return
    stack and block cache.  Each one is an abstract machine over lists. *)

From Verif Require Import Base M_packet M_bcache M_tnt M_retstack M_lastip.
From Coq Require Import List NArith ZArith PeanoNat Bool.
Import ListNotations.
Open Scope N_scope.

(** The answers of a machine to a sequence of requests. *)
Fixpoint answers {S O A : Type} (step : S -> O -> S * A) (s : S) (ops : list O)
  : list A :=
  match ops with
  | [] => []
  | o :: ops' => let (s', a) := step s o in a :: answers step s' ops'
  end.

(** ** IP compression *)

(** [compresses prev p ip]: the packet payload [p] is a correct compression of [ip]
    given that the previous IP was [prev]: it keeps the low part of [ip], and the part
    that it drops is recoverable. *)
Definition compresses (prev : N) (p : packet_ip) (ip : N) : Prop :=
  ip < 2 ^ 64 /\
  ((ip_ipc p = 1 /\ ip_ip p = ip mod 2 ^ 16 /\ ip / 2 ^ 16 = prev / 2 ^ 16) \/
   (ip_ipc p = 2 /\ ip_ip p = ip mod 2 ^ 32 /\ ip / 2 ^ 32 = prev / 2 ^ 32) \/
   (ip_ipc p = 3 /\ ip_ip p = ip mod 2 ^ 48 /\ (ip < 2 ^ 47 \/ 2 ^ 64 - 2 ^ 47 <= ip)) \/
   (ip_ipc p = 4 /\ ip_ip p = ip mod 2 ^ 48 /\ ip / 2 ^ 48 = prev / 2 ^ 48) \/
   (ip_ipc p = 6 /\ ip_ip p = ip)).

(** [ip_history last ps answers]: processing the packets [ps] after the last known IP
    was [last] (if any), [answers] are the answers to asking for the IP after each
    packet.  Before the first IP, upper bits are compressed against zero. *)
Inductive ip_history : option N -> list packet_ip -> list (res N) -> Prop :=
| ih_nil last : ip_history last [] []
| ih_ip last p ip ps ans :
    compresses (match last with Some l => l | None => 0 end) p ip ->
    ip_history (Some ip) ps ans ->
    ip_history last (p :: ps) (Ok ip :: ans)
| ih_suppressed last p ps ans :
    ip_ipc p = 0 ->
    ip_history last ps ans ->
    ip_history last (p :: ps)
               ((match last with
                 | Some _ => Err pte_ip_suppressed
                 | None => Err pte_noip
                 end) :: ans).

(** The component under test: update, then query. *)
Definition last_ip_step (l : last_ip) (p : packet_ip) : last_ip * res N :=
  let (l', r) := pt_last_ip_update_ip l p in
  (l', match r with
       | Ok _ => pt_last_ip_query l'
       | Err e => Err e
       | UB u => UB u
       end).

(** ** TNT cache: a FIFO of at most 64 bits *)

Inductive tnt_op := TntAdd (tnt size : N) | TntQuery | TntIsEmpty.
Inductive tnt_answer := AnsAdd (r : res unit) | AnsBit (r : res bool) | AnsEmpty (b : bool).

(** The bits of a TNT payload, most significant (oldest) first. *)
Definition payload_bits (tnt size : N) : list bool :=
  map (fun i => N.testbit tnt (N.of_nat i)) (rev (seq 0 (N.to_nat size))).

Definition fifo_step (q : list bool) (o : tnt_op) : list bool * tnt_answer :=
  match o with
  | TntAdd tnt size =>
      let q' := q ++ payload_bits tnt size in
      if Nat.leb (length q') 64 then (q', AnsAdd (Ok tt))
      else (q, AnsAdd (Err pte_overflow))
  | TntQuery =>
      match q with
      | b :: q' => (q', AnsBit (Ok b))
      | [] => ([], AnsBit (Err pte_bad_query))
      end
  | TntIsEmpty => (q, AnsEmpty (match q with [] => true | _ => false end))
  end.

Definition tnt_step (c : tnt_cache) (o : tnt_op) : tnt_cache * tnt_answer :=
  match o with
  | TntAdd tnt size => let (c', r) := pt_tnt_cache_add c tnt size in (c', AnsAdd r)
  | TntQuery => let (c', r) := pt_tnt_cache_query c in (c', AnsBit r)
  | TntIsEmpty => (c, AnsEmpty (pt_tnt_cache_is_empty c))
  end.

(** The payload size of a TNT packet is far below 64. *)
Definition tnt_op_ok (o : tnt_op) : Prop :=
  match o with TntAdd _ size => size < 64 | _ => True end.

(** ** Return stack: a LIFO that forgets the oldest beyond 64 *)

Inductive rs_op := RsPush (ip : N) | RsPop | RsIsEmpty.
Inductive rs_answer := RaPush (r : res unit) | RaPop (r : res N) | RaEmpty (b : bool).

Definition lifo_step (l : list N) (o : rs_op) : list N * rs_answer :=
  match o with
  | RsPush ip => (firstn 64 (ip :: l), RaPush (Ok tt))
  | RsPop =>
      match l with
      | ip :: l' => (l', RaPop (Ok ip))
      | [] => ([], RaPop (Err pte_retstack_empty))
      end
  | RsIsEmpty => (l, RaEmpty (match l with [] => true | _ => false end))
  end.

Definition rs_step (r : retstack) (o : rs_op) : retstack * rs_answer :=
  match o with
  | RsPush ip => let (r', x) := pt_retstack_push r ip in (r', RaPush x)
  | RsPop => let (r', x) := pt_retstack_pop r in (r', RaPop x)
  | RsIsEmpty => (r, RaEmpty (pt_retstack_is_empty r))
  end.

(** ** Block cache: a finite map *)

Inductive bc_op := BcAdd (index : N) (e : bcache_entry) | BcLookup (index : N).
Inductive bc_answer := BaAdd (r : res unit) | BaLookup (r : res bcache_entry).

(** The state is the log of successful additions, newest first. *)
Fixpoint newest (log : list (N * bcache_entry)) (index : N) : option bcache_entry :=
  match log with
  | [] => None
  | (i, e) :: log' => if i =? index then Some e else newest log' index
  end.

Definition map_step (nentries : N) (log : list (N * bcache_entry)) (o : bc_op)
  : list (N * bcache_entry) * bc_answer :=
  match o with
  | BcAdd index e =>
      if index <? nentries then ((index, e) :: log, BaAdd (Ok tt))
      else (log, BaAdd (Err pte_internal))
  | BcLookup index =>
      (log, BaLookup
              (if index <? nentries
               then Ok (match newest log index with
                        | Some e => e
                        | None => mk_bce 0%Z 0 0 0 0
                        end)
               else Err pte_internal))
  end.

Definition bc_step (c : bcache) (o : bc_op) : bcache * bc_answer :=
  match o with
  | BcAdd index e => let (c', r) := pt_bcache_add c index e in (c', BaAdd r)
  | BcLookup index => (c, BaLookup (pt_bcache_lookup c index))
  end.
