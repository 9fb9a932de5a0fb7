(** * Network: network/queue_network.py, class QueueNetwork, the part that
      simulates; desired_destination (queues/agents.py) and queues/choice.pyx *)
From Coq Require Import List ZArith QArith Lia Bool Arith.
From Verif Require Import Base Heap PQueue Queue.
Import ListNotations.
Open Scope Z_scope.

(** ** Random choice (queues/choice.pyx) *)

(** The loop of [_choice] (choice.pyx:18-22), at index [k] with partial sum
    [z]; [m] iterations are left.  Without a break the C variable keeps its
    last value.  Simplification: exact rational numbers instead of
    doubles. *)
Fixpoint choice_loop (m : nat) (pr : list Q) (u z : Q) (k : nat) : res nat :=
  let* p := of_option UB (get pr k) in
  if Qle_bool u (z + p) then Ok k
  else match m with
       | O => Ok k
       | S m' => choice_loop m' pr u (z + p) (S k)
       end.

(** [_choice(pr, u, n)] (choice.pyx:9-24), with bounds checks off.  It is
    only called with n >= 2; for n <= 1 and u > pr[0] the result is an
    uninitialised variable ([UB]). *)
Definition choice (pr : list Q) (u : Q) (n : nat) : res nat :=
  let* p0 := of_option UB (get pr 0) in
  if Qle_bool u p0 then Ok 0%nat
  else match n with
       | S (S m) => choice_loop m pr u p0 1
       | _ => Err UB
       end.

(** The loop of [_argmin] (choice.pyx:34-37): [k] is the index of the head
    of [l] in the original list. *)
Fixpoint argmin_loop (l : list Z) (k best : nat) (minv : Z) : nat :=
  match l with
  | [] => best
  | v :: r => if v <? minv then argmin_loop r (S k) k v else argmin_loop r (S k) best minv
  end.

(** [_argmin(a)] (choice.pyx:30-38), with bounds checks off. *)
Definition argmin (a : list Z) : res nat :=
  match a with
  | [] => Err UB
  | v :: r => Ok (argmin_loop r 1 0 v)
  end.

(** ** The network object *)

(** Fields (queue_network.py:314-365): edge2queue, out_edges,
    _route_probs, num_agents, _t, num_events, max_agents, _initialized,
    _fancy_heap, _blocking (true: BAS).  [nt_u n] is the value of the n-th
    call of [uniform()] made by an agent (agents.py:100), [nt_eps n] that of
    [EPS * uniform(0.33, 0.66)] (queue_network.py:1326), [nt_iu] and [nt_ie]
    count those calls.  nV and nE are the lengths of [nt_out] and
    [nt_queues].  Not modelled here: the graph (see Routing.v), colours,
    in_edges, _prev_edge, _qkey. *)
Set Primitive Projections.
Record net : Type := mkNet {
  nt_queues : list queue;
  nt_out : list (list nat);
  nt_probs : list (list Q);
  nt_nagents : list Z;
  nt_t : ext;
  nt_events : Z;
  nt_max : ext;
  nt_init : bool;
  nt_heap : pq;
  nt_bas : bool;
  nt_u : nat -> Q;
  nt_iu : nat;
  nt_eps : nat -> Z;
  nt_ie : nat
}.
Unset Primitive Projections.

Definition set_nt_queues (x : list queue) (n : net) : net :=
  mkNet x (nt_out n) (nt_probs n) (nt_nagents n) (nt_t n) (nt_events n) (nt_max n) (nt_init n) (nt_heap n) (nt_bas n) (nt_u n) (nt_iu n) (nt_eps n) (nt_ie n).
Definition set_nt_out (x : list (list nat)) (n : net) : net :=
  mkNet (nt_queues n) x (nt_probs n) (nt_nagents n) (nt_t n) (nt_events n) (nt_max n) (nt_init n) (nt_heap n) (nt_bas n) (nt_u n) (nt_iu n) (nt_eps n) (nt_ie n).
Definition set_nt_probs (x : list (list Q)) (n : net) : net :=
  mkNet (nt_queues n) (nt_out n) x (nt_nagents n) (nt_t n) (nt_events n) (nt_max n) (nt_init n) (nt_heap n) (nt_bas n) (nt_u n) (nt_iu n) (nt_eps n) (nt_ie n).
Definition set_nt_nagents (x : list Z) (n : net) : net :=
  mkNet (nt_queues n) (nt_out n) (nt_probs n) x (nt_t n) (nt_events n) (nt_max n) (nt_init n) (nt_heap n) (nt_bas n) (nt_u n) (nt_iu n) (nt_eps n) (nt_ie n).
Definition set_nt_t (x : ext) (n : net) : net :=
  mkNet (nt_queues n) (nt_out n) (nt_probs n) (nt_nagents n) x (nt_events n) (nt_max n) (nt_init n) (nt_heap n) (nt_bas n) (nt_u n) (nt_iu n) (nt_eps n) (nt_ie n).
Definition set_nt_events (x : Z) (n : net) : net :=
  mkNet (nt_queues n) (nt_out n) (nt_probs n) (nt_nagents n) (nt_t n) x (nt_max n) (nt_init n) (nt_heap n) (nt_bas n) (nt_u n) (nt_iu n) (nt_eps n) (nt_ie n).
Definition set_nt_max (x : ext) (n : net) : net :=
  mkNet (nt_queues n) (nt_out n) (nt_probs n) (nt_nagents n) (nt_t n) (nt_events n) x (nt_init n) (nt_heap n) (nt_bas n) (nt_u n) (nt_iu n) (nt_eps n) (nt_ie n).
Definition set_nt_init (x : bool) (n : net) : net :=
  mkNet (nt_queues n) (nt_out n) (nt_probs n) (nt_nagents n) (nt_t n) (nt_events n) (nt_max n) x (nt_heap n) (nt_bas n) (nt_u n) (nt_iu n) (nt_eps n) (nt_ie n).
Definition set_nt_heap (x : pq) (n : net) : net :=
  mkNet (nt_queues n) (nt_out n) (nt_probs n) (nt_nagents n) (nt_t n) (nt_events n) (nt_max n) (nt_init n) x (nt_bas n) (nt_u n) (nt_iu n) (nt_eps n) (nt_ie n).
Definition set_nt_bas (x : bool) (n : net) : net :=
  mkNet (nt_queues n) (nt_out n) (nt_probs n) (nt_nagents n) (nt_t n) (nt_events n) (nt_max n) (nt_init n) (nt_heap n) x (nt_u n) (nt_iu n) (nt_eps n) (nt_ie n).
Definition set_nt_u (x : nat -> Q) (n : net) : net :=
  mkNet (nt_queues n) (nt_out n) (nt_probs n) (nt_nagents n) (nt_t n) (nt_events n) (nt_max n) (nt_init n) (nt_heap n) (nt_bas n) x (nt_iu n) (nt_eps n) (nt_ie n).
Definition set_nt_iu (x : nat) (n : net) : net :=
  mkNet (nt_queues n) (nt_out n) (nt_probs n) (nt_nagents n) (nt_t n) (nt_events n) (nt_max n) (nt_init n) (nt_heap n) (nt_bas n) (nt_u n) x (nt_eps n) (nt_ie n).
Definition set_nt_eps (x : nat -> Z) (n : net) : net :=
  mkNet (nt_queues n) (nt_out n) (nt_probs n) (nt_nagents n) (nt_t n) (nt_events n) (nt_max n) (nt_init n) (nt_heap n) (nt_bas n) (nt_u n) (nt_iu n) x (nt_ie n).
Definition set_nt_ie (x : nat) (n : net) : net :=
  mkNet (nt_queues n) (nt_out n) (nt_probs n) (nt_nagents n) (nt_t n) (nt_events n) (nt_max n) (nt_init n) (nt_heap n) (nt_bas n) (nt_u n) (nt_iu n) (nt_eps n) x.

(** [self.edge2queue[k]]: an object; reading it again sees all changes made
    through any reference. *)
Definition queue_at (k : nat) (n : net) : res queue := of_option IndexError (get (nt_queues n) k).
Definition put_queue (k : nat) (q : queue) (n : net) : net := set_nt_queues (upd (nt_queues n) k q) n.

(** [self.num_agents[k] = z] *)
Definition set_count (k : nat) (z : Z) (n : net) : res net :=
  let* l := of_option IndexError (set (nt_nagents n) k z) in Ok (set_nt_nagents l n).

(** [np.sum(self.num_agents)] *)
Definition zsum (l : list Z) : Z := fold_right Z.add 0 l.

(** ** Routing (agents.py:67-109, 140-167) *)

Fixpoint numbers_queued (l : list nat) (n : net) : res (list Z) :=
  match l with
  | [] => Ok []
  | e :: r =>
    let* q := queue_at e n in
    let* zs := numbers_queued r n in
    Ok (number_queued q :: zs)
  end.

(** [agent.desired_destination(network, edge)]: Agent (agents.py:67-109,
    also used by ResourceAgent and InfoAgent), GreedyAgent
    (agents.py:140-167).  [v] is [edge[1]]. *)
Definition desired_destination (a : agent) (v : nat) (n : net) : res (nat * net) :=
  let* l := of_option IndexError (get (nt_out n) v) in
  match ag_kind a with
  | KGreedy =>
    let* zs := numbers_queued l n in
    let* d := argmin zs in
    let* e := of_option IndexError (get l d) in
    Ok (e, n)
  | _ =>
    if (length l <=? 1)%nat then
      let* e := of_option IndexError (get l 0) in Ok (e, n)
    else
      let u := nt_u n (nt_iu n) in
      let n1 := set_nt_iu (S (nt_iu n)) n in
      let* pr := of_option IndexError (get (nt_probs n) v) in
      let* k := choice pr u (length l) in
      let* e := of_option IndexError (get l k) in
      Ok (e, n1)
  end.

(** ** One event (queue_network.py:1302-1379) *)

(** [self._fancy_heap.push( *key )] *)
Definition net_push (key : ext * nat) (n : net) : res net :=
  let* h := pq_push (nt_heap n) (fst key) (snd key) in Ok (set_nt_heap h n).

(** [self.max_agents < np.infty and np.sum(self.num_agents) > self.max_agents - 1] *)
Definition full (n : net) : bool :=
  match nt_max n with Inf => false | Fin m => m - 1 <? zsum (nt_nagents n) end.

(** [if q._active and <full>: q._active = False]
    (queue_network.py:1342-1344, 1366-1368). *)
Definition stop_if_full (q : queue) (n : net) : queue :=
  if q_active q && full n then set_q_active false q else q.

(** [q1._departures[0]] used as an agent. *)
Definition first_departure (q : queue) : res agent :=
  match q_dep q with
  | [] => Err IndexError
  | Sentinel :: _ => Err AttributeError
  | Ag a :: _ => Ok a
  end.

(** [q1._departures[0].blocked += 1] *)
Definition mark_blocked (q : queue) : res queue :=
  let* a := first_departure q in
  Ok (set_q_dep (Ag (set_ag_blocked (ag_blocked a + 1) a) :: tl (q_dep q)) q).

(** The target is full (queue_network.py:1322-1329). *)
Definition block_agent (k e2 : nat) (n : net) : res net :=
  let* q2 := queue_at e2 n in
  let n1 := put_queue e2 (set_q_blocked (q_blocked q2 + 1) q2) n in
  let* q1 := queue_at k n1 in
  let* q1' := mark_blocked q1 in
  let n2 := put_queue k q1' n1 in
  if nt_bas n2 then
    let* q2' := queue_at e2 n2 in
    let* td := root_time (q_dep q2') in
    let t := eadd td (Fin (nt_eps n2 (nt_ie n2))) in
    let n3 := set_nt_ie (S (nt_ie n2)) n2 in
    let* q1 := queue_at k n3 in
    let* q1' := delay_service (Some t) q1 in
    Ok (put_queue k q1' n3)
  else
    let* q1 := queue_at k n2 in
    let* q1' := delay_service None q1 in
    Ok (put_queue k q1' n2).

(** The agent moves (queue_network.py:1330-1347); [t] is the time of the
    event, [e1] is [q1.edge[2]]. *)
Definition move_agent (k e1 e2 : nat) (t : ext) (n : net) : res net :=
  let* q1 := queue_at k n in
  let* (r, q1') := next_event q1 in
  match r with
  | None => Err AttributeError
  | Some a =>
    let n1 := put_queue k q1' n in
    let* q2 := queue_at e2 n1 in
    let* q2' := add_arrival (set_ag_time t a) q2 in
    let n2 := put_queue e2 q2' n1 in
    let* q1 := queue_at k n2 in
    let* n3 := set_count e1 (q_total q1) n2 in
    let* n4 := set_count e2 (q_total q2') n3 in
    let n5 := put_queue e2 (stop_if_full q2' n4) n4 in
    let* q2 := queue_at e2 n5 in
    let* (_, q2') := next_event q2 in
    let n6 := put_queue e2 q2' n5 in
    set_count e2 (q_total q2') n6
  end.

(** Putting the new keys into the heap (queue_network.py:1353-1363);
    [old] is the time of the target before the event. *)
Definition reschedule (k e2 : nat) (old : ext) (n : net) : res net :=
  let* q1 := queue_at k n in
  let* q2 := queue_at e2 n in
  let k1 := qkey q1 in
  let k2 := qkey q2 in
  if negb (eeqb (fst k2) old) then
    let* n1 := net_push k2 n in
    if eltb (fst k1) Inf && negb (eeqb (fst k1) (fst k2) && Nat.eqb (snd k1) (snd k2))
    then net_push k1 n1 else Ok n1
  else if eltb (fst k1) Inf then net_push k1 n else Ok n.

(** The branch [event == 2] (queue_network.py:1317-1363). *)
Definition net_departure (k : nat) (t : ext) (n : net) : res net :=
  let* q1 := queue_at k n in
  let e1 := c_idx (q_cfg q1) in
  let* a := first_departure q1 in
  let* (e2, n1) := desired_destination a (c_tgt (q_cfg q1)) n in
  let* q2 := queue_at e2 n1 in
  let old := q_time q2 in
  let* n2 := if at_capacity q2 && negb (Nat.eqb e2 e1)
             then block_agent k e2 n1
             else move_agent k e1 e2 t n1 in
  reschedule k e2 old n2.

(** The branch [event == 1] (queue_network.py:1365-1379). *)
Definition net_arrival (k : nat) (n : net) : res net :=
  let* q1 := queue_at k n in
  let q1' := stop_if_full q1 n in
  let* (_, q1'') := next_event q1' in
  let n1 := put_queue k q1'' n in
  let* n2 := set_count (c_idx (q_cfg q1)) (q_total q1'') n1 in
  if eltb (q_time q1'') Inf then net_push (qkey q1'') n2 else Ok n2.

(** [_simulate_next_event(slow=False)] (queue_network.py:1302-1379); with
    slow=True colours change as well (Animate.v).  If the scheduler returns None,
    subscripting it raises TypeError. *)
Definition simulate_event (n : net) : res net :=
  if (pq_size (nt_heap n) =? 0)%nat then Ok (set_nt_t Inf n)
  else
    let* (r, h) := pq_pop (nt_heap n) in
    match r with
    | None => Err TypeError
    | Some (t, k) =>
      let n1 := set_nt_heap h n in
      let* q1 := queue_at k n1 in
      let* event := next_event_description q1 in
      let n2 := set_nt_events (nt_events n1 + 1) (set_nt_t t n1) in
      if event =? 2 then net_departure k t n2
      else if event =? 1 then net_arrival k n2
      else Ok n2
    end.

(** ** simulate (queue_network.py:1239-1300) *)

Fixpoint net_simulate_n (m : nat) (n : net) : res net :=
  match m with
  | O => Ok n
  | S m' => let* n' := simulate_event n in net_simulate_n m' n'
  end.

(** [while self._t < stop: ...]; [None]: the fuel ran out. *)
Fixpoint net_simulate_while (fuel : nat) (stop : ext) (n : net) : option (res net) :=
  if eltb (nt_t n) stop then
    match fuel with
    | O => None
    | S f =>
      match simulate_event n with
      | Err e => Some (Err e)
      | Ok n' => net_simulate_while f stop n'
      end
    end
  else Some (Ok n).

(** [simulate(n=m)] and [simulate(t=t)]. *)
Definition simulate_events (m : nat) (n : net) : res net :=
  if nt_init n then net_simulate_n m n else Err QueueingToolError.
Definition simulate_time (fuel : nat) (t : ext) (n : net) : option (res net) :=
  if nt_init n then net_simulate_while fuel (eadd (nt_t n) t) n
  else Some (Err QueueingToolError).

(** ** initialize (queue_network.py:906-985) *)

(** [[q._key() for q in self.edge2queue if q._time < np.infty]]
    (queue_network.py:662, 983). *)
Definition finite_keys (qs : list queue) : list (ext * nat) :=
  map qkey (filter (fun q => eltb (q_time q) Inf) qs).

(** [[e for e in queues if self.edge2queue[e].edge[3] != 0]]
    (queue_network.py:971).  Simplification: indices are not negative. *)
Fixpoint not_null (l : list nat) (n : net) : res (list nat) :=
  match l with
  | [] => Ok []
  | e :: r =>
    let* q := queue_at e n in
    let* r' := not_null r n in
    Ok (if Z.eqb (c_type (q_cfg q)) 0 then r' else e :: r')
  end.

(** [queues[:m]] *)
Definition slice_to {A} (l : list A) (m : Z) : list A :=
  if 0 <=? m then firstn (Z.to_nat m) l else firstn (length l - Z.to_nat (- m)) l.

Definition truncate {A} (l : list A) (m : ext) : list A :=
  match m with
  | Inf => l
  | Fin m => if m <? Z.of_nat (length l) then slice_to l m else l
  end.

(** The loop of lines 979-981. *)
Fixpoint activate (l : list nat) (n : net) : res net :=
  match l with
  | [] => Ok n
  | e :: r =>
    let* q := queue_at e n in
    let* q' := set_active q in
    let* n' := set_count e (q_total q') (put_queue e q' n) in
    activate r n'
  end.

(** Lines 971-985, for the list of selected queues. *)
Definition initialize_queues (sel : list nat) (n : net) : res net :=
  let* qs := not_null sel n in
  if (length qs =? 0)%nat then Err QueueingToolError
  else
    let* n1 := activate (truncate qs (nt_max n)) n in
    let* h := pq_new (pq_junk (nt_heap n)) (finite_keys (nt_queues n1)) (length (nt_queues n1)) in
    Ok (set_nt_init true (set_nt_heap h n1)).

(** [qs] of line 958 and the draw of line 960.  [pick] stands for the
    result of [np.random.choice(qs, size=m, replace=False)]. *)
Definition candidates (n : net) : list nat :=
  map (fun q => c_idx (q_cfg q)) (filter (fun q => negb (Z.eqb (c_type (q_cfg q)) 0)) (nt_queues n)).
Definition initialize_active (nActive : pynum) (pick : list nat -> nat -> list nat) (n : net) : res net :=
  match nActive with
  | PInt z =>
    if 1 <=? z then
      let qs := candidates n in
      initialize_queues (pick qs (Nat.min (Z.to_nat z) (length qs))) n
    else Err ValueError
  | PInf => Err TypeError
  | POther => Err TypeError
  end.

(** ** The other methods *)

(** [PriorityQueue()] (priority_queue.pyx:20-40). *)
Definition empty_heap (junk : ext * nat) : pq := mkPq [] 0 0 [] junk.

(** [clear] (queue_network.py:589-610). *)
Definition net_clear (n : net) : net :=
  mkNet (map clear (nt_queues n)) (nt_out n) (nt_probs n)
        (repeat 0 (length (nt_queues n))) (Fin 0) 0 (nt_max n) false
        (empty_heap (pq_junk (nt_heap n))) (nt_bas n) (nt_u n) (nt_iu n) (nt_eps n) (nt_ie n).

(** [copy] (queue_network.py:642-665).  The random number generator is
    global, so the copy continues with the same draws. *)
Definition net_copy (n : net) : res net :=
  if nt_init n then
    let* h := pq_new (pq_junk (nt_heap n)) (finite_keys (nt_queues n)) (length (nt_queues n)) in
    Ok (set_nt_heap h n)
  else Ok (set_nt_heap (empty_heap (pq_junk (nt_heap n))) n).

(** The property [time] (queue_network.py:402-409). *)
Definition net_time (n : net) : res ext :=
  if (0 <? pq_size (nt_heap n))%nat then
    let* e := of_option IndexError (get (pq_entries (nt_heap n)) 0) in
    let* q := queue_at (snd e) n in
    Ok (q_time q)
  else Ok Inf.

(** [s.sort(); s[0]] on keys (queue_network.py:1006-1007): the least pair
    in lexicographic order. *)
Definition key_ltb (a b : ext * nat) : bool :=
  eltb (fst a) (fst b) || eeqb (fst a) (fst b) && (snd a <? snd b)%nat.
Fixpoint least_key (l : list (ext * nat)) : option (ext * nat) :=
  match l with
  | [] => None
  | k :: r =>
    match least_key r with
    | None => Some k
    | Some m => Some (if key_ltb m k then m else k)
    end
  end.

(** [next_event_description] (queue_network.py:987-1012); the first
    component is 0 for Nothing, 1 for Arrival, 2 for Departure. *)
Definition net_next_description (n : net) : res (Z * option nat) :=
  if (pq_size (nt_heap n) =? 0)%nat then Ok (0, None)
  else
    let* k := of_option IndexError (least_key (map qkey (nt_queues n))) in
    let* q := queue_at (snd k) n in
    let* d := next_event_description q in
    Ok (if d =? 1 then 1 else 2, Some (c_idx (q_cfg q))).

(** [start_collecting_data]/[stop_collecting_data]
    (queue_network.py:1381-1440) and [clear_data] (612-640) for the
    selected queues. *)
Fixpoint on_queues (f : queue -> queue) (l : list nat) (n : net) : res net :=
  match l with
  | [] => Ok n
  | e :: r => let* q := queue_at e n in on_queues f r (put_queue e (f q) n)
  end.
Definition net_collect (b : bool) : list nat -> net -> res net := on_queues (set_q_collect b).
Definition net_clear_data : list nat -> net -> res net := on_queues (set_q_data []).

(** [QueueNetwork(g, ...)] (queue_network.py:307-370) after the queues have
    been made: counts 0, clock 0, not initialized, uniform routing
    probabilities. *)
Definition uniform_probs (out : list (list nat)) : list (list Q) :=
  map (fun l => repeat (1 / inject_Z (Z.of_nat (length l)))%Q (length l)) out.
Definition new_net (qs : list queue) (out : list (list nat)) (max : ext) (bas : bool)
    (junk : ext * nat) (u : nat -> Q) (eps : nat -> Z) : net :=
  mkNet qs out (uniform_probs out) (repeat 0 (length qs)) (Fin 0) 0 max false
        (empty_heap junk) bas u 0 eps 0.

(** ** Histories of calls *)

(** What a user can do with an initialized network: simulate, switch data
    collection, drop data, change routing probabilities, max_agents or
    the blocking rule. *)
Inductive nop : Type :=
| NSim | NCollect (b : bool) (l : list nat) | NClearData (l : list nat)
| NProbs (p : list (list Q)) | NMax (m : ext) | NBlocking (b : bool).

Definition run_nop (o : nop) (n : net) : res net :=
  match o with
  | NSim => simulate_event n
  | NCollect b l => net_collect b l n
  | NClearData l => net_clear_data l n
  | NProbs p => Ok (set_nt_probs p n)
  | NMax m => Ok (set_nt_max m n)
  | NBlocking b => Ok (set_nt_bas b n)
  end.
