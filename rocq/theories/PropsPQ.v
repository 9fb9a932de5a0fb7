(** * PropsPQ: claims C01 and C02 about network/priority_queue.pyx *)
From Coq Require Import List ZArith Bool Permutation Arith.
From Verif Require Import Base PQueue SpecPQ PQHist.
Import ListNotations.

(** C01.  Any run of a PriorityQueue is a run of the scheduler of SpecPQ:
    pop returns a live entry of least time, drops only superseded ones, and
    returns None exactly when all entries are superseded. *)
Theorem C01_pop_earliest_live : forall junk keys n h ops rs h',
  keys <> [] -> (forall t k, In (t, k) keys -> k < n) -> Forall (push_ok n) ops ->
  pq_new junk keys n = Ok h -> pq_run h ops = Ok (rs, h') ->
  exists b c c0, spec_run keys c0 ops rs b c /\
    (forall k, k < n -> c0 k = assigned keys k) /\
    Permutation b (pq_entries h') /\ (forall k, c k = nth k (pq_qtimes h') Inf).
Proof. exact pq_history_refines. Qed.
Print Assumptions C01_pop_earliest_live.

Definition ex_keys := [(Fin 5, 0); (Fin 3, 1); (Inf, 2); (Fin 3, 3)].
Definition ex_ops := [Push (Fin 1) 0; Pop; Push (Fin 9) 1; Push (Fin 4) 0; Pop; Pop; Pop; Pop].

Example C01_example : exists h h',
  pq_new (Fin 77, 9) ex_keys 4 = Ok h /\
  pq_run h ex_ops =
    Ok ([Some (Fin 1, 0); Some (Fin 3, 3); Some (Fin 4, 0); Some (Fin 9, 1); Some (Inf, 2)], h').
Proof. eexists; eexists; split; vm_compute; reflexivity. Qed.

(** C02.  No access outside the arrays: an error occurs only at a pop of an
    empty queue. *)
Theorem C02_memory_safe : forall junk keys n h ops e,
  keys <> [] -> (forall t k, In (t, k) keys -> k < n) -> Forall (push_ok n) ops ->
  pq_new junk keys n = Ok h -> pq_run h ops = Err e ->
  exists ops1 ops2 rs h1, ops = ops1 ++ Pop :: ops2 /\
    pq_run h ops1 = Ok (rs, h1) /\ pq_entries h1 = [].
Proof. exact pq_memory_safe. Qed.
Print Assumptions C02_memory_safe.

(** Construction never fails on such keys. *)
Theorem C02_new_total : forall junk keys n,
  keys <> [] -> (forall t k, In (t, k) keys -> k < n) -> exists h, pq_new junk keys n = Ok h.
Proof. exact pq_new_total. Qed.
Print Assumptions C02_new_total.

(** The exception named in C02: built from no keys, the first push writes
    outside the array. *)
Theorem C02_empty_refuted : forall junk t, exists h,
  pq_new junk [] 1 = Ok h /\ pq_run h [Push t 0] = Err UB.
Proof. intros junk t. eexists; split; reflexivity. Qed.
Print Assumptions C02_empty_refuted.

Example C02_example : exists h,
  pq_new (Inf, 0) ex_keys 4 = Ok h /\
  pq_run h [Pop; Pop; Push (Fin 2) 1; Pop; Pop; Pop; Pop] = Err UB /\
  exists r h', pq_run h [Pop; Pop; Push (Fin 2) 1; Push (Fin 8) 1; Push (Fin 1) 2; Push (Fin 6) 3] = Ok (r, h')
   /\ pq_actual h' = 8.
Proof.
  eexists; split; [vm_compute; reflexivity|]. split; [vm_compute; reflexivity|].
  eexists; eexists; split; vm_compute; reflexivity.
Qed.
