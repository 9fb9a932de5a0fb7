(** * PQueue: network/priority_queue.pyx, class PriorityQueue *)
From Coq Require Import List ZArith Lia Bool Arith.
From Verif Require Import Base Heap.
Import ListNotations.

(** The object's fields (priority_queue.pyx:9-16).  The parallel arrays
    [sorted_times]/[sorted_edges] always get the same indices, so they are
    one array of pairs, [pq_store]; its length is the allocated length.
    [pq_junk] is whatever uninitialised memory contains after a resize
    (priority_queue.pyx:87-88).  Simplification: [next_time], [next_node]
    are not fields but results. *)
Record pq : Type := mkPq {
  pq_store : list (ext * nat);
  pq_size : nat;
  pq_actual : nat;
  pq_qtimes : list ext;
  pq_junk : ext * nat
}.

(** [self.q_times[key[1]] = key[0]] for each key, in order
    (priority_queue.pyx:39-40; this loop is bounds-checked). *)
Fixpoint assign_all (qt : list ext) (keys : list (ext * nat)) : res (list ext) :=
  match keys with
  | [] => Ok qt
  | (t, k) :: rest =>
    let* qt' := of_option IndexError (set qt k t) in
    assign_all qt' rest
  end.

(** [PriorityQueue(keys, n)] (priority_queue.pyx:20-40). *)
Definition pq_new (junk : ext * nat) (keys : list (ext * nat)) (n : nat) : res pq :=
  let* st := of_option UB (heapify fst keys (length keys)) in
  let* qt := assign_all (repeat Inf n) keys in
  Ok (mkPq st (length keys) (length keys) qt junk).

(** [times]/[edges] zipped (priority_queue.pyx:42-48). *)
Definition pq_entries (h : pq) : list (ext * nat) := firstn (pq_size h) (pq_store h).

(** [heappop] (priority_queue.pyx:104-125); [size] is never negative on
    entry except after popping an empty queue, which reads
    [sorted_times[-1]]: [UB]. *)
Definition pq_heappop (h : pq) : res ((ext * nat) * pq) :=
  match pq_size h with
  | O => Err UB
  | S n =>
    let* lst := of_option UB (get (pq_store h) n) in
    if 0 <? n then
      let* ret := of_option UB (get (pq_store h) 0) in
      let* st1 := of_option UB (set (pq_store h) 0 lst) in
      let* st2 := of_option UB (siftup fst st1 0 n) in
      Ok (ret, mkPq st2 n (pq_actual h) (pq_qtimes h) (pq_junk h))
    else Ok (lst, mkPq (pq_store h) n (pq_actual h) (pq_qtimes h) (pq_junk h))
  end.

(** The while loop of [pop] (priority_queue.pyx:66-75).  [nxt] is
    (next_time, next_node).  When the queue is exhausted the code sets
    [size] to -1 and then back to 0, returning None.  Fuel exhaustion is
    [Err UB]; it never happens (PQueueProofs.v). *)
Fixpoint pq_pop_loop (fuel : nat) (nxt : ext * nat) (h : pq)
  : res (option (ext * nat) * pq) :=
  match fuel with
  | O => Err UB
  | S f =>
    let* qt := of_option UB (get (pq_qtimes h) (snd nxt)) in
    if eeqb (fst nxt) qt then Ok (Some nxt, h)
    else if pq_size h =? 0 then Ok (None, h)
    else
      let* (nxt', h') := pq_heappop h in
      pq_pop_loop f nxt' h'
  end.

(** [pop] (priority_queue.pyx:60-75). *)
Definition pq_pop (h : pq) : res (option (ext * nat) * pq) :=
  let* (nxt, h') := pq_heappop h in
  pq_pop_loop (S (pq_size h')) nxt h'.

(** [push(t, k)] (priority_queue.pyx:80-99).  The resize makes both arrays
    [2 * size] long; [actual_size] is doubled. *)
Definition pq_push (h : pq) (t : ext) (k : nat) : res pq :=
  let* qt := of_option UB (set (pq_qtimes h) k t) in
  let grow := negb (pq_size h <? pq_actual h) in
  let st0 := if grow
             then firstn (2 * pq_size h)
                    (pq_store h ++ repeat (pq_junk h) (2 * pq_size h))
             else pq_store h in
  let act := if grow then 2 * pq_actual h else pq_actual h in
  let* st1 := of_option UB (set st0 (pq_size h) (t, k)) in
  let sz := S (pq_size h) in
  let* st2 := of_option UB (siftdown fst st1 0 (sz - 1)) in
  Ok (mkPq st2 sz act qt (pq_junk h)).

(** Histories of calls. *)
Inductive pqop : Type := Push (t : ext) (k : nat) | Pop.

Fixpoint pq_run (h : pq) (ops : list pqop) : res (list (option (ext * nat)) * pq) :=
  match ops with
  | [] => Ok ([], h)
  | Push t k :: rest =>
    let* h' := pq_push h t k in pq_run h' rest
  | Pop :: rest =>
    let* (r, h') := pq_pop h in
    let* (rs, h'') := pq_run h' rest in
    Ok (r :: rs, h'')
  end.
