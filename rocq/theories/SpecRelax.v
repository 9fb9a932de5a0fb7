(** * SpecRelax: LossQueues that never get full *)
From Coq Require Import List ZArith Bool.
From Verif Require Import Base Queue Network SpecNet SpecQueue NetExamples.
Import ListNotations.
Open Scope Z_scope.

(** A LossQueue as a QueueServer, which counts no turned away agents. *)
Definition as_plain (q : queue) : queue :=
  match c_class (q_cfg q) with CLoss => set_q_blocked 0 (as_server q) | _ => q end.

(** A network with all its LossQueues replaced by QueueServers. *)
Definition plain_net (n : net) : net := set_nt_queues (map as_plain (nt_queues n)) n.

(** A LossQueue with room for another agent. *)
Definition has_room (q : queue) : Prop :=
  c_class (q_cfg q) = CLoss -> eLt (Fin (q_nsys q)) (eadd (q_servers q) (c_buffer (q_cfg q))).

(** There is room before each operation, or before each call in each queue. *)
Fixpoint roomy_ops (l : list qop) (q : queue) : Prop :=
  match l with
  | [] => True
  | o :: l => has_room q /\ (forall q', run_op o q = Ok q' -> roomy_ops l q')
  end.
Fixpoint roomy_calls (l : list ncall) (n : net) : Prop :=
  match l with
  | [] => True
  | c :: l => Forall has_room (nt_queues n) /\ (forall n', run_call c n = Ok n' -> roomy_calls l n')
  end.

(** LossQueues without a limit. *)
Definition unlimited (c : qcfg) : Prop := c_class c = CLoss -> c_buffer c = Inf.

(** In an event no LossQueue turns an agent away or blocks one. *)
Definition unhindered (n n' : net) : Prop :=
  forall k q q', get (nt_queues n) k = Some q -> get (nt_queues n') k = Some q' -> c_class (q_cfg q) = CLoss -> q_blocked q' = q_blocked q.
Fixpoint nobody_lost (l : list ncall) (n : net) : Prop :=
  match l with
  | [] => True
  | c :: l => forall n', run_call c n = Ok n' -> (c = KOp NSim -> unhindered n n') /\ nobody_lost l n'
  end.
