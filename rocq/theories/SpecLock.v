(** * SpecLock: notions for the statements about blocked networks *)
From Coq Require Import List ZArith Permutation.
From Verif Require Import Base Queue SpecQueue Network SpecNet.
Import ListNotations.
Open Scope Z_scope.

(** How many agents left a queue after service, all queues together. *)
Definition departures (n : net) : Z := zsum (map q_departed (nt_queues n)).

(** Queues that turn agents away when they are full. *)
Definition limited (q : queue) : Prop := c_class (q_cfg q) = CLoss \/ c_class (q_cfg q) = CInfo.
(** As many agents as servers and places in the line. *)
Definition full (q : queue) : Prop := eLe (eadd (q_servers q) (c_buffer (q_cfg q))) (Fin (serving q + zlen (waiting q))).

(** Every queue of [D] is full, and from it one can only go to other queues
    of [D]. *)
Definition locked (n : net) (D : nat -> Prop) : Prop :=
  forall k, D k -> exists q l, get (nt_queues n) k = Some q /\ limited q /\ full q /\
    get (nt_out n) (c_tgt (q_cfg q)) = Some l /\ forall e, In e l -> D e /\ e <> k.

(** The same agents wait in the same order, the same agents are in service,
    and nobody left. *)
Definition frozen (q q' : queue) : Prop :=
  ids (waiting q') = ids (waiting q) /\ Permutation (ids (in_service q')) (ids (in_service q)) /\ q_departed q' = q_departed q.

(** No way leads from a limited queue through limited queues back to it;
    loops at one queue do not count. *)
Definition no_ring (n : net) : Prop :=
  exists r : nat -> nat, forall k e q, follows n k e -> get (nt_queues n) e = Some q -> limited q -> e <> k -> (r e < r k)%nat.

(** No ResourceQueues; limited queues have a server and no negative buffer;
    services come to an end. *)
Definition staffed (n : net) : Prop :=
  forall k q, get (nt_queues n) k = Some q -> c_class (q_cfg q) <> CResource /\
    (limited q -> eLe (Fin 1) (q_servers q) /\ eLe (Fin 0) (c_buffer (q_cfg q))) /\
    forall i t, t <> Inf -> c_srv (q_cfg q) i t <> Inf.

(** Somebody is in service somewhere. *)
Definition busy (n : net) : Prop := exists k q, get (nt_queues n) k = Some q /\ in_service q <> [].
