(** * SpecTrail: the way of an agent through a network

    The rows that the queues of a network collect about one agent, put in
    the order in which the agent went. *)
From Coq Require Import List ZArith Bool Arith.
From Verif Require Import Base Queue SpecQueue Network SpecNet.
Import ListNotations.
Open Scope Z_scope.

(** The rows of a way that were collected at queue [k]. *)
Definition at_queue (k : nat) (p : list (nat * row)) : list row :=
  map snd (filter (fun x => Nat.eqb (fst x) k) p).

(** The agent waits or is served at [q]. *)
Definition inside (q : queue) (i : aid) : Prop := In i (ids (waiting q)) \/ In i (ids (in_service q)).

(** [p], a list of queues with one row each, is the way of agent [i]. *)
Record trail (n : net) (i : aid) (p : list (nat * row)) : Prop := mkTrail {
  (** it has all the rows of the agent, those of one queue in the order in
      which they were collected *)
  tl_rows : forall k q, get (nt_queues n) k = Some q -> at_queue k p = rows_of (q_data q) i;
  tl_in : forall x, In x p -> (fst x < length (nt_queues n))%nat;
  (** it begins at the queue that created the agent *)
  tl_first : forall x p', p = x :: p' -> fst x = fst i;
  (** from every queue it goes on to a queue that follows, which it reaches
      when it departs, not before it came *)
  tl_next : forall p1 x y p2, p = p1 ++ x :: y :: p2 ->
    follows n (fst x) (fst y) /\ r_arr (snd y) = r_dep (snd x) /\ eLe (r_arr (snd x)) (r_dep (snd x));
  (** where the agent is due, it is either on its first visit or arrives
      when it departed, at a queue that follows *)
  tl_coming : forall k q a, get (nt_queues n) k = Some q -> In a (scheduled q) -> ag_id a = i ->
    p = [] /\ k = fst i \/
    exists p0 x, p = p0 ++ [x] /\ follows n (fst x) k /\ r_dep (snd x) = ag_time a;
  (** where the agent waits or is served, the way ends, without a departure *)
  tl_inside : forall k q, get (nt_queues n) k = Some q -> inside q i ->
    exists p0 x, p = p0 ++ [x] /\ fst x = k /\ r_dep (snd x) = Fin 0;
  (** an agent that is not in the network (any more) did not depart from its
      last queue *)
  tl_gone : ~ In i (everyone n) -> p = [] \/ exists p0 x, p = p0 ++ [x] /\ r_dep (snd x) = Fin 0
}.

(** Every queue collects data and has none yet; nobody waits or is served,
    and only agents of their own are due at the queues. *)
Definition unvisited (n : net) : Prop :=
  forall k q, get (nt_queues n) k = Some q ->
    q_collect q = true /\ q_data q = [] /\ nobody q /\ (forall a, In a (scheduled q) -> fst (ag_id a) = k).
