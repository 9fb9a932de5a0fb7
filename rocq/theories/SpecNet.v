(** * SpecNet: notions used in the statements about networks

    Everything here is defined from what can be read off a network before
    and after a call; nothing refers to the methods' helpers. *)
From Coq Require Import List ZArith QArith Bool Permutation Arith.
From Verif Require Import Base PQueue Queue SpecQueue Network.
Import ListNotations.
Open Scope Z_scope.

(** ** Histories *)

(** What a user can do with a network. *)
Inductive ncall : Type :=
| KInit (sel : list nat)     (* initialize, for the selected queues *)
| KClear                     (* clear *)
| KCopy                      (* copy, carrying on with the copy *)
| KOp (o : nop).             (* simulate one event, or change a setting *)

Definition run_call (c : ncall) (n : net) : res net :=
  match c with
  | KInit sel => initialize_queues sel n
  | KClear => Ok (net_clear n)
  | KCopy => net_copy n
  | KOp o => run_nop o n
  end.

(** States reachable from [n0] by calls that do not raise, each allowed by
    [ok] in the state in which it is made. *)
Inductive nreach (ok : net -> ncall -> Prop) (n0 : net) : net -> Prop :=
| nreach_here : nreach ok n0 n0
| nreach_step n c n' : nreach ok n0 n -> ok n c -> run_call c n = Ok n' -> nreach ok n0 n'.

(** initialize is called once on a new or cleared network; simulate is
    called after it (otherwise it raises). *)
Definition usual (n : net) (c : ncall) : Prop :=
  match c with
  | KInit _ => nt_init n = false
  | KOp NSim => nt_init n = true
  | _ => True
  end.

(** As [usual], and max_agents is not set below the number of agents in the
    network. *)
Definition roomy (n : net) (c : ncall) : Prop :=
  usual n c /\ forall m, c = KOp (NMax m) -> eLe (Fin (zsum (nt_nagents n))) m.

(** [m] events in a row. *)
Fixpoint nruns (m : nat) (n : net) : res net :=
  match m with
  | O => Ok n
  | S m' => let* n' := simulate_event n in nruns m' n'
  end.

(** A newly built network: queue [k] is a new queue on edge [k], and all
    functions go forward in time. *)
Definition well_made (n0 : net) : Prop :=
  exists qs out max bas junk u eps, n0 = new_net qs out max bas junk u eps /\
    (forall k q, get qs k = Some q -> exists c s col nE, q = new_queue c s col nE /\ c_idx c = k /\ forward c) /\
    (forall i, 0 <= eps i).

(** ** Times *)

(** [t] is the least next event time of all queues; infinity if there is
    no event at all. *)
Definition next_time (qs : list queue) (t : ext) : Prop :=
  (forall q, In q qs -> eLe t (q_time q)) /\ (t = Inf \/ exists q, In q qs /\ q_time q = t).

(** ** Who is where *)

(** Everybody in the network. *)
Definition everyone (n : net) : list aid := flat_map held (nt_queues n).

(** Queue [e] is on an edge that begins where the edge of queue [k] ends. *)
Definition follows (n : net) (k e : nat) : Prop :=
  exists q l, get (nt_queues n) k = Some q /\ get (nt_out n) (c_tgt (q_cfg q)) = Some l /\ In e l.

(** ** Routing *)

(** The sum of the first [k] probabilities, and the interval that belongs
    to the [k]-th. *)
Definition psum (pr : list Q) (k : nat) : Q := fold_right Qplus 0%Q (firstn k pr).
Definition slot (pr : list Q) (k : nat) (u : Q) : Prop :=
  (k < length pr)%nat /\ (psum pr k < u)%Q /\ (u <= psum pr k + nth k pr 0)%Q.

(** Non-negative numbers with sum one. *)
Definition distribution (pr : list Q) : Prop :=
  (forall p, In p pr -> (0 <= p)%Q) /\ (psum pr (length pr) == 1)%Q.

(** Where agent [a], at vertex [v], wants to go next: a greedy agent to the
    first of the shortest lines; any other agent along the only edge, or
    else along the edge in whose interval the random number lies.  A random
    number is drawn only where there is a choice; it is not used again in
    the network [n'] that comes after. *)
Definition chooses (n n' : net) (a : agent) (v e : nat) : Prop :=
  exists l d, get (nt_out n) v = Some l /\ get l d = Some e /\
    (ag_kind a = KGreedy -> forall i e' q q', get (nt_queues n) e = Some q -> get l i = Some e' -> get (nt_queues n) e' = Some q' ->
       number_queued q <= number_queued q' /\ ((i < d)%nat -> number_queued q < number_queued q')) /\
    (ag_kind a <> KGreedy -> forall pr, (2 <= length l)%nat -> get (nt_probs n) v = Some pr -> length pr = length l -> distribution pr ->
       (0 < nt_u n (nt_iu n))%Q -> (nt_u n (nt_iu n) <= 1)%Q -> slot pr d (nt_u n (nt_iu n))) /\
    (ag_kind a = KGreedy \/ (length l <= 1)%nat -> nt_iu n' = nt_iu n) /\
    (ag_kind a <> KGreedy -> (2 <= length l)%nat -> nt_iu n' = S (nt_iu n)).

(** At most one agent is created at queue [k]: an active queue gives it its
    next number. *)
Definition comes (k : nat) (q : queue) (new : list aid) : Prop :=
  new = [] \/ new = [(k, q_oarr q)] /\ q_active q = true.

(** Queue [q] does not let agent [a] in: it is full, or [a] returns a
    resource, or there is no resource for [a]. *)
Definition refuses (q : queue) (a : agent) : Prop :=
  at_capacity q = true \/
  c_class (q_cfg q) = CResource /\ ag_kind a = KResource /\ (ag_has a = true \/ eLe (q_servers q) (Fin (q_nsys q))).

(** At most one agent disappears at queue [q]: one whose arrival is
    scheduled, or the agent [ids] that comes in. *)
Definition leaves (q : queue) (comer : list aid) (gone : list aid) : Prop :=
  gone = [] \/ exists a, gone = [ag_id a] /\ (In a (scheduled q) \/ In (ag_id a) comer) /\ refuses q a.

(** What an event may do to the places of agents. *)
Inductive transit (n n' : net) : Prop :=
(** nothing *)
| tr_nothing : nt_queues n' = nt_queues n -> transit n n'
(** an arrival at [k] *)
| tr_arrival k q q' new gone : get (nt_queues n) k = Some q -> nt_queues n' = upd (nt_queues n) k q' ->
    Permutation (held q ++ new) (held q' ++ gone) -> comes k q new -> q_oarr q' = q_oarr q + zlen new ->
    leaves q [] gone -> transit n n'
(** an agent at [k] cannot go on to [e] *)
| tr_blocked k e q q' q2 q2' : get (nt_queues n) k = Some q -> get (nt_queues n) e = Some q2 -> k <> e ->
    follows n k e -> at_capacity q2 = true ->
    nt_queues n' = upd (upd (nt_queues n) e q2') k q' ->
    Permutation (held q) (held q') -> held q2 = held q2' -> q_oarr q' = q_oarr q -> q_oarr q2' = q_oarr q2 -> transit n n'
(** agent [a] goes from [k] to [e] *)
| tr_move k e a q q' q2 q2' new gone : get (nt_queues n) k = Some q -> In a (in_service q) -> follows n k e ->
    chooses n n' a (c_tgt (q_cfg q)) e -> Permutation (held q) (ag_id a :: held q') ->
    get (upd (nt_queues n) k q') e = Some q2 ->
    Permutation (ag_id a :: held q2 ++ new) (held q2' ++ gone) ->
    nt_queues n' = upd (upd (nt_queues n) k q') e q2' ->
    q_oarr q' = q_oarr q -> comes e q2 new -> q_oarr q2' = q_oarr q2 + zlen new ->
    at_capacity q2 = false \/ e = k ->
    (leaves q2 [ag_id a] gone \/ c_class (q_cfg q2) = CNull /\ gone = [ag_id a]) -> transit n n'.

(** ** What happens in one event *)

(** An agent that is due at queue [k] cannot go on to the full queue [e]
    and stays. *)
Definition stays (n n' : net) (k e : nat) : Prop :=
  exists q q' q2 a t' rest,
    get (nt_queues n) k = Some q /\ get (nt_queues n) e = Some q2 /\ k <> e /\ follows n k e /\
    chooses n n' a (c_tgt (q_cfg q)) e /\ at_capacity q2 = true /\ q_time q = nt_t n' /\ ag_time a = nt_t n' /\
    nt_queues n' = upd (upd (nt_queues n) e (set_q_blocked (q_blocked q2 + 1) q2)) k q' /\
    nt_nagents n' = nt_nagents n /\ scheduled q' = scheduled q /\ waiting q' = waiting q /\
    Permutation (in_service q) (a :: rest) /\
    Permutation (in_service q') (set_ag_time t' (set_ag_blocked (ag_blocked a + 1) a) :: rest) /\
    (* blocking after service: after the next departure there *)
    (nt_bas n = true -> (exists td, least_time (in_service q2) td /\ t' = eadd td (Fin (nt_eps n (nt_ie n)))) /\ nt_ie n' = S (nt_ie n)) /\
    (* repetitive service: another service *)
    (nt_bas n = false -> t' = c_srv (q_cfg q) (q_is q) (nt_t n') /\ nt_ie n' = nt_ie n).

Inductive happening (n n' : net) : Prop :=
(** the agent due at [k] arrives there *)
| hp_arrival k q q' a rest new : get (nt_queues n) k = Some q -> get (nt_queues n') k = Some q' ->
    q_time q = nt_t n' -> arriving q = Some a -> ag_time a = nt_t n' ->
    Permutation (ids (scheduled q)) (ag_id a :: rest) -> Permutation (ids (scheduled q')) (rest ++ new) ->
    comes k q new -> nt_iu n' = nt_iu n -> nt_ie n' = nt_ie n -> happening n n'
(** an agent due at [k] departs for a queue that is not full, or for the
    same queue *)
| hp_departure k e q q' q2 a : get (nt_queues n) k = Some q -> get (nt_queues n') k = Some q' ->
    get (nt_queues n) e = Some q2 -> follows n k e -> chooses n n' a (c_tgt (q_cfg q)) e -> at_capacity q2 = false \/ e = k ->
    q_time q = nt_t n' -> In a (in_service q) -> ag_time a = nt_t n' ->
    q_departed q' = q_departed q + 1 -> nt_ie n' = nt_ie n -> happening n n'
| hp_blocked k e : stays n n' k e -> happening n n'.

(** ** The scheduler *)

(** The scheduler holds the next event of every queue that has one, once,
    and nothing else. *)
Definition scheduled_exactly (n : net) : Prop :=
  NoDup (pq_entries (nt_heap n)) /\
  forall t k, In (t, k) (pq_entries (nt_heap n)) <-> exists q, get (nt_queues n) k = Some q /\ q_time q = t /\ t <> Inf.

(** ** initialize *)

(** The selected queues that are not of edge type 0, at most [max] of them. *)
Definition starts (sel : list nat) (n : net) : list nat :=
  let l := filter (fun e => match get (nt_queues n) e with Some q => negb (c_type (q_cfg q) =? 0) | None => true end) sel in
  match nt_max n with Inf => l | Fin m => firstn (Z.to_nat m) l end.

(** ** Networks in which nothing can go wrong *)

(** Every edge that is not an exit leads to a vertex with out-edges. *)
Definition connected (n : net) : Prop :=
  forall k q, get (nt_queues n) k = Some q -> c_class (q_cfg q) <> CNull ->
    exists l, get (nt_out n) (c_tgt (q_cfg q)) = Some l /\ l <> [] /\ forall e, In e l -> (e < length (nt_queues n))%nat.

(** No queue that is not an exit follows itself. *)
Definition no_loop (n : net) : Prop :=
  forall k q l, get (nt_queues n) k = Some q -> c_class (q_cfg q) <> CNull ->
    get (nt_out n) (c_tgt (q_cfg q)) = Some l -> ~ In k l.

(** A queue that follows itself and is not an exit is no ResourceQueue, has
    no negative buffer, and its service times are finite. *)
Definition mild_loops (n : net) : Prop :=
  forall k q l, get (nt_queues n) k = Some q -> c_class (q_cfg q) <> CNull ->
    get (nt_out n) (c_tgt (q_cfg q)) = Some l -> In k l ->
    c_class (q_cfg q) <> CResource /\ (c_class (q_cfg q) <> CServer -> eLe (Fin 0) (c_buffer (q_cfg q))) /\
    forall i t, t <> Inf -> c_srv (q_cfg q) i t <> Inf.

(** There is a probability for every out-edge. *)
Definition fits (out : list (list nat)) (p : list (list Q)) : Prop :=
  forall v l, get out v = Some l -> exists pr, get p v = Some pr /\ (length l <= length pr)%nat.

(** The queues were made for this network. *)
Definition made_for (n : net) : Prop :=
  forall k q, get (nt_queues n) k = Some q -> exists c s col, q = new_queue c s col (length (nt_queues n)) /\
    cfg_ok (length (nt_queues n)) c /\ (c_class c = CInfo -> s <> Fin 0).

(** As [usual], and new routing probabilities fit the graph. *)
Definition tidy (n : net) (c : ncall) : Prop :=
  usual n c /\ forall p, c = KOp (NProbs p) -> fits (nt_out n) p.
