(** * SpecStop: networks in which time goes on *)
From Coq Require Import List ZArith.
From Verif Require Import Base Queue SpecQueue Network SpecNet.
Open Scope Z_scope.

(** Arrivals and services take time. *)
Definition brisk (c : qcfg) : Prop := forall i t, eLt (Fin t) (c_arr c i (Fin t)) /\ eLt (Fin t) (c_srv c i (Fin t)).

(** All queues are brisk; a blocked agent tries again after, not at, the
    departure that it waits for. *)
Definition lively (n : net) : Prop :=
  (forall k q, get (nt_queues n) k = Some q -> brisk (q_cfg q)) /\ forall i, 0 < nt_eps n i.

(** [k] is the queue with the earliest next event, the first of them. *)
Definition foremost (n : net) (k : nat) (q : queue) : Prop :=
  get (nt_queues n) k = Some q /\
  forall j qj, get (nt_queues n) j = Some qj -> eLt (q_time q) (q_time qj) \/ q_time q = q_time qj /\ (k <= j)%nat.

(** What the next event of queue [q] is: 0 nothing, 1 an arrival, 2 a
    departure.  An arrival comes before a departure at the same time. *)
Definition next_kind (q : queue) (d : Z) : Prop :=
  d = 0 /\ q_time q = Inf \/
  d = 1 /\ q_time q <> Inf /\ (exists a, In a (scheduled q) /\ ag_time a = q_time q) \/
  d = 2 /\ q_time q <> Inf /\ (exists a, In a (in_service q) /\ ag_time a = q_time q) /\
    forall a, In a (scheduled q) -> eLt (q_time q) (ag_time a).

(** The queues that initialize may start. *)
Definition eligible (n : net) : list queue := filter (fun q => negb (c_type (q_cfg q) =? 0)) (nt_queues n).

(** [np.random.choice(l, size=m, replace=False)] *)
Definition draws (pick : list nat -> nat -> list nat) : Prop :=
  forall l m, NoDup l -> (m <= length l)%nat -> NoDup (pick l m) /\ incl (pick l m) l /\ length (pick l m) = m.
