(** * SpecQueue: notions used in the statements about queues

    Everything here is defined from what can be read off a queue object
    before and after a call; nothing refers to the methods' helpers. *)
From Coq Require Import List ZArith QArith Bool Permutation Arith.
From Verif Require Import Base Queue.
Import ListNotations.
Open Scope Z_scope.

(** ** Who is where *)

Definition zlen {A} (l : list A) : Z := Z.of_nat (length l).

Definition agents_in (h : list item) : list agent :=
  flat_map (fun i => match i with Sentinel => [] | Ag a => [a] end) h.

(** Agents whose arrival is scheduled, agents being served, agents in line. *)
Definition scheduled (q : queue) : list agent := agents_in (q_arr q).
Definition in_service (q : queue) : list agent := agents_in (q_dep q).
Definition waiting (q : queue) : list agent := q_line q.

Definition ids (l : list agent) : list aid := map ag_id l.

(** All agents the queue holds. *)
Definition held (q : queue) : list aid := ids (scheduled q) ++ ids (in_service q) ++ ids (waiting q).

(** The number of agents being served. *)
Definition serving (q : queue) : Z := Z.of_nat (length (in_service q)).

(** ** Reachable states *)

(** States reachable from [q0] by calls that do not raise, each allowed by
    [ok] in the state in which it is made. *)
Inductive reach (ok : queue -> qop -> Prop) (q0 : queue) : queue -> Prop :=
| reach_here : reach ok q0 q0
| reach_step q o q' : reach ok q0 q -> ok q o -> run_op o q = Ok q' -> reach ok q0 q'.

Definition anything : queue -> qop -> Prop := fun _ _ => True.

(** ** Logs *)

(** One call: the operation, the queue before, what next_event returned,
    the queue after. *)
Definition entry : Type := (qop * queue * option agent * queue)%type.

Definition step (o : qop) (q : queue) : res (option agent * queue) :=
  match o with
  | ONext => next_event q
  | _ => let* q' := run_op o q in Ok (None, q')
  end.

Fixpoint exec (ops : list qop) (q : queue) : res (list entry * queue) :=
  match ops with
  | [] => Ok ([], q)
  | o :: rest =>
    let* (r, q1) := step o q in
    let* (log, q') := exec rest q1 in
    Ok ((o, q, r, q1) :: log, q')
  end.

(** The agent that next_event will let arrive, if that is what it
    announces. *)
Definition arriving (q : queue) : option agent :=
  match next_event_description q, q_arr q with
  | Ok 1, Ag a :: _ => Some a
  | _, _ => None
  end.

(** The agent returned by next_event. *)
Definition departed1 (e : entry) : list aid :=
  match e with (_, _, Some a, _) => [ag_id a] | _ => [] end.

(** The arriving agent, if num_system grew / did not grow. *)
Definition admitted1 (e : entry) : list aid :=
  match e with
  | (ONext, q, _, q') =>
    match arriving q with
    | Some a => if q_nsys q' =? q_nsys q + 1 then [ag_id a] else []
    | None => []
    end
  | _ => []
  end.
Definition turned_away1 (e : entry) : list aid :=
  match e with
  | (ONext, q, _, q') =>
    match arriving q with
    | Some a => if q_nsys q' =? q_nsys q + 1 then [] else [ag_id a]
    | None => []
    end
  | _ => []
  end.
Definition sent1 (e : entry) : list aid :=
  match e with (OArrive a, _, _, _) => [ag_id a] | _ => [] end.

Definition departed (log : list entry) : list aid := flat_map departed1 log.
Definition admitted (log : list entry) : list aid := flat_map admitted1 log.
Definition turned_away (log : list entry) : list aid := flat_map turned_away1 log.
(** Agents handed over by the network. *)
Definition sent (log : list entry) : list aid := flat_map sent1 log.

(** The agents created so far: (edge index, 0), (edge index, 1), ... *)
Definition created (q : queue) : list aid :=
  map (fun k => (c_idx (q_cfg q), Z.of_nat k)) (seq 0 (Z.to_nat (q_oarr q))).

(** A queue on which nothing has happened: newly constructed, or cleared. *)
Definition pristine (q : queue) : Prop :=
  (exists c s col n, q = new_queue c s col n) \/
  (exists c s col n q1, reach anything (new_queue c s col n) q1 /\ c_class c <> CNull /\ q = clear q1).

Definition no_clear (o : qop) : Prop := match o with OClear => False | _ => True end.

(** ** Conditions on histories *)

(** The number of servers is never lowered. *)
Definition never_lowers (q : queue) (o : qop) : Prop :=
  match o with
  | OServers (PInt z) => eLe (q_servers q) (Fin z)
  | _ => True
  end.

(** arrival_f and service_f never return a time before their argument. *)
Definition forward (c : qcfg) : Prop :=
  (forall n t, eLe t (c_arr c n t)) /\ (forall n t, eLe t (c_srv c n t)).

(** No call that goes back in time. *)
Definition no_past (q : queue) (o : qop) : Prop :=
  match o with
  | OArrive a => eLe (q_now q) (ag_time a)
  | ODelay (Some t) => eLe (q_now q) t
  | OClear => False
  | _ => True
  end.

(** [t] is the least of the times of the given agents; infinity if there
    are none. *)
Definition least_time (l : list agent) (t : ext) : Prop :=
  (forall a, In a l -> eLe t (ag_time a)) /\
  (t = Inf \/ exists a, In a l /\ ag_time a = t).

(** Only ResourceAgents without a resource are sent in. *)
Definition resource_less (q : queue) (o : qop) : Prop :=
  match o with OArrive a => ag_kind a = KResource /\ ag_has a = false | _ => True end.

(** The number of set_active calls. *)
Definition activations (ops : list qop) : Z :=
  zlen (filter (fun o => match o with OActive => true | _ => false end) ops).

(** A queue that receives nothing from elsewhere. *)
Definition alone (q : queue) (o : qop) : Prop := match o with OArrive _ => False | _ => True end.

(** Number of events a queue has seen. *)
Definition events (q : queue) : Z := q_narr q + q_departed q + q_blocked q.

(** ** Calls that should not raise *)

(** An agent that fits a network with [n] edges. *)
Definition aok (n : nat) (a : agent) : Prop :=
  ag_kind a = KInfo -> length (ag_stats a) = n /\ length (ag_net a) = n.

(** A configuration that fits a network with [n] edges. *)
Definition cfg_ok (n : nat) (c : qcfg) : Prop :=
  (c_idx c < n)%nat /\
  (c_class c = CInfo -> c_factory c = KInfo /\ forall k t, eLt (c_arr c k t) (c_deactive_t c)) /\
  (c_class c <> CInfo -> c_factory c <> KInfo).

(** The calls that are allowed. *)
Definition legal (n : nat) (q : queue) (o : qop) : Prop :=
  match o with
  | OServers m =>
      match c_class (q_cfg q), m with
      | CNull, _ => True
      | CResource, POther => False
      | CResource, _ => True
      | _, PInt z => 0 < z
      | _, PInf => q_servers q <> Inf
      | _, POther => False
      end
  | ODelay _ =>
      c_class (q_cfg q) = CNull \/ in_service q = [] \/
      exists a, In a (in_service q) /\ ag_time a <> Inf
  | OArrive a => aok n a
  | _ => True
  end.


(** ** Collected data *)

(** The rows collected about agent [i]. *)
Definition rows_of (d : qdata) (i : aid) : list row :=
  match find (fun e => aid_eqb (fst e) i) d with Some e => snd e | None => [] end.

(** The last row changed. *)
Definition last_upd (f : row -> row) (l : list row) : list row :=
  match rev l with [] => [] | r :: rs => rev rs ++ [f r] end.

Definition memb (i : aid) (l : list agent) : bool := existsb (fun a => aid_eqb (ag_id a) i) l.

(** Service of agent [i] began between [q] and [q']. *)
Definition began (q q' : queue) (i : aid) : bool :=
  memb i (in_service q') && negb (memb i (in_service q)).

(** Agents sent here are not here already, and have no identifier that this
    queue is still to give away. *)
Definition fresh (q : queue) (o : qop) : Prop :=
  match o with
  | OArrive a => ~ In (ag_id a) (held q) /\ (fst (ag_id a) = c_idx (q_cfg q) -> snd (ag_id a) < q_oarr q)
  | _ => True
  end.

(** Data collection is switched on and off, and data is discarded, only
    while nobody waits or is served. *)
Definition nobody (q : queue) : Prop := waiting q = [] /\ in_service q = [].
Definition collecting (q : queue) (o : qop) : Prop :=
  match o with
  | OCollect b => b = q_collect q \/ nobody q
  | OClearData => nobody q
  | OClear => False
  | _ => True
  end.

(** A visit that has ended: served, or turned away. *)
Definition row_served (r : row) : Prop := eLe (r_arr r) (r_srv r) /\ eLe (r_srv r) (r_dep r).
Definition row_away (r : row) : Prop := r_srv r = Fin 0 /\ r_dep r = Fin 0.
Definition row_ended (r : row) : Prop := row_served r \/ row_away r.
(** A visit still going on. *)
Definition row_waiting (r : row) : Prop := r_srv r = Fin 0 /\ r_dep r = Fin 0.
Definition row_in_service (r : row) : Prop := eLe (r_arr r) (r_srv r) /\ r_dep r = Fin 0.

(** ** LossQueue and QueueServer *)

(** The same queue as a QueueServer. *)
Definition as_server_cfg (c : qcfg) : qcfg :=
  mkCfg CServer (c_src c) (c_tgt c) (c_idx c) (c_type c) (c_arr c) (c_srv c) (c_factory c)
        (c_active_cap c) (c_deactive_t c) (c_buffer c) (c_max_servers c).
Definition as_server (q : queue) : queue := set_q_cfg (as_server_cfg (q_cfg q)) q.
Definition entry_as_server (e : entry) : entry :=
  match e with (o, q, r, q') => (o, as_server q, r, as_server q') end.

(** ** NullQueue *)

(** The agents handed over by the calls. *)
Definition received (ops : list qop) : list agent :=
  flat_map (fun o => match o with OArrive a => [a] | _ => [] end) ops.

(** ** Servers of a ResourceQueue *)

(** [k] fewer servers. *)
Definition fewer (s : ext) (k : nat) : ext := eadd s (Fin (- Z.of_nat k)).

(** How many of the numbers s-1, ..., s-k exceed [m]. *)
Definition exceeding (m s : ext) (k : nat) : Z :=
  zlen (filter (fun j => eltb m (fewer s j)) (seq 1 k)).

(** ** Information *)

(** Row [j] of an array. *)
Definition info_at (l : list netrow) (j : nat) : netrow := nth j l norow.

(** No stamp is older than "nothing known". *)
Definition stamped (l : list netrow) : Prop := forall r, In r l -> eLe (Fin (-1)) (nr_time r).

(** ** Classes of histories, and one call *)

Definition careful (q : queue) (o : qop) : Prop := no_past q o /\ fresh q o /\ collecting q o.

(** What one call does to times. *)
Definition times_step (o : qop) (q : queue) (r : option agent) (q' : queue) : Prop :=
  (forall b, In b (in_service q') -> In b (in_service q) \/
     exists n, (q_is q <= n < q_is q')%nat /\ ag_time b = c_srv (q_cfg q) n (q_now q')) /\
  (length (in_service q') + length (departed1 (o, q, r, q')) + q_is q = length (in_service q) + q_is q')%nat /\
  (forall b, In b (scheduled q') -> In b (scheduled q) \/ o = OArrive b \/
     ag_id b = (c_idx (q_cfg q), q_oarr q) /\
     exists n, (q_ia q <= n < q_ia q')%nat /\ ag_time b = c_arr (q_cfg q) n (q_now q')).

(** The classes with a finite buffer. *)
Definition lossy (c : qcfg) : Prop := c_class c = CLoss \/ c_class c = CInfo.

(** The next event is the arrival of a ResourceAgent that holds a resource. *)
Definition returns (q : queue) : Prop :=
  exists a, arriving q = Some a /\ ag_kind a = KResource /\ ag_has a = true.

(** [z] is the fresher of [x] and [y], and [x] unless [y] is strictly
    fresher (or nothing is known). *)
Definition newer_of (x y z : netrow) : Prop :=
  eLe (nr_time x) (nr_time z) /\ eLe (nr_time y) (nr_time z) /\ (z = x \/ (z = y /\ (eLt (nr_time x) (nr_time y) \/ nr_time x = Fin (-1) /\ nr_time y = Fin (-1)))).
