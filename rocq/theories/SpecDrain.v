(** * SpecDrain: notions for networks whose queues are off *)
From Coq Require Import List ZArith.
From Verif Require Import Base PQueue Queue SpecQueue Network SpecNet.
Import ListNotations.
Open Scope Z_scope.

(** Every queue is off, is a QueueServer or a NullQueue, has a server, and
    its arrival and service functions return finite times. *)
Definition closing (n : net) : Prop :=
  forall k q, get (nt_queues n) k = Some q -> q_active q = false /\
    (c_class (q_cfg q) = CServer /\ eLe (Fin 1) (q_servers q) \/ c_class (q_cfg q) = CNull) /\
    (forall i z, c_arr (q_cfg q) i (Fin z) <> Inf) /\ (forall i z, c_srv (q_cfg q) i (Fin z) <> Inf).

(** Nobody comes or leaves at the time infinity. *)
Definition timed (n : net) : Prop :=
  forall k q a, get (nt_queues n) k = Some q -> In a (scheduled q ++ in_service q) -> ag_time a <> Inf.

(** Every way leads down: from a queue that is no exit one gets to queues of
    a lower rank only. *)
Definition downward (r : nat -> nat) (n : net) : Prop :=
  forall k e q, get (nt_queues n) k = Some q -> c_class (q_cfg q) <> CNull -> follows n k e -> (r e < r k)%nat.

(** The most that is left to do for those at queue [k]: two events for each
    queue that may be ahead, one more for those who did not yet arrive. *)
Definition load (r : nat -> nat) (k : nat) (q : queue) : Z := 2 * Z.of_nat (r k) * zlen (held q) + zlen (scheduled q).
Fixpoint loads (r : nat -> nat) (k : nat) (qs : list queue) : Z :=
  match qs with
  | [] => 0
  | q :: qs => load r k q + loads r (S k) qs
  end.

(** Every queue is off and a QueueServer: nobody comes, nobody is turned
    away, and there is no exit. *)
Definition sealed (n : net) : Prop :=
  forall k q, get (nt_queues n) k = Some q -> q_active q = false /\ c_class (q_cfg q) = CServer.
