(** * Queue: queues/queue_servers.py, queues/queue_extentions.py and
      queues/agents.py *)
From Coq Require Import List ZArith QArith Lia Bool Arith.
From Verif Require Import Base Heap.
Import ListNotations.
Open Scope Z_scope.

(** ** Agents *)

(** [agent_id]: (edge index of the creating queue, number of the agent)
    (queue_servers.py:371; agents.py:21-26). *)
Definition aid : Type := (nat * Z)%type.
Definition aid_eqb (a b : aid) : bool := Nat.eqb (fst a) (fst b) && Z.eqb (snd a) (snd b).

(** The agent class: Agent (agents.py:7), GreedyAgent (agents.py:123),
    ResourceAgent (queue_extentions.py:10), InfoAgent
    (queue_extentions.py:211). *)
Inductive kind : Type := KAgent | KGreedy | KResource | KInfo.

(** A row of [net_data] (queue_extentions.py:236, 259, 300): time stamp,
    number of servers, load.  The time stamp -1 ("nothing known") is
    [Fin (-1)]; clocks are never negative. *)
Record netrow : Type := mkRow { nr_time : ext; nr_servers : ext; nr_load : Q }.
Definition norow : netrow := mkRow (Fin (-1)) (Fin (-1)) (-(1#1))%Q.

(** Fields of an agent (agents.py:38-41; queue_extentions.py:22-25,
    232-236).  [ag_has]/[ag_had] are only used by ResourceAgent,
    [ag_stats]/[ag_net] only by InfoAgent.  Simplification: the first
    column of [stats] is exact, not truncated to int32. *)
Record agent : Type := mkAgent {
  ag_id : aid;
  ag_kind : kind;
  ag_time : ext;
  ag_blocked : Z;
  ag_has : bool;
  ag_had : bool;
  ag_stats : list (Z * Z * Z);
  ag_net : list netrow
}.

Definition set_ag_id (x : aid) (a : agent) : agent :=
  mkAgent x (ag_kind a) (ag_time a) (ag_blocked a) (ag_has a) (ag_had a) (ag_stats a) (ag_net a).
Definition set_ag_kind (x : kind) (a : agent) : agent :=
  mkAgent (ag_id a) x (ag_time a) (ag_blocked a) (ag_has a) (ag_had a) (ag_stats a) (ag_net a).
Definition set_ag_time (x : ext) (a : agent) : agent :=
  mkAgent (ag_id a) (ag_kind a) x (ag_blocked a) (ag_has a) (ag_had a) (ag_stats a) (ag_net a).
Definition set_ag_blocked (x : Z) (a : agent) : agent :=
  mkAgent (ag_id a) (ag_kind a) (ag_time a) x (ag_has a) (ag_had a) (ag_stats a) (ag_net a).
Definition set_ag_has (x : bool) (a : agent) : agent :=
  mkAgent (ag_id a) (ag_kind a) (ag_time a) (ag_blocked a) x (ag_had a) (ag_stats a) (ag_net a).
Definition set_ag_had (x : bool) (a : agent) : agent :=
  mkAgent (ag_id a) (ag_kind a) (ag_time a) (ag_blocked a) (ag_has a) x (ag_stats a) (ag_net a).
Definition set_ag_stats (x : list (Z * Z * Z)) (a : agent) : agent :=
  mkAgent (ag_id a) (ag_kind a) (ag_time a) (ag_blocked a) (ag_has a) (ag_had a) x (ag_net a).
Definition set_ag_net (x : list netrow) (a : agent) : agent :=
  mkAgent (ag_id a) (ag_kind a) (ag_time a) (ag_blocked a) (ag_has a) (ag_had a) (ag_stats a) x.


(** An entry of [_arrivals] or [_departures]: the InftyAgent put there by
    the constructor (queue_servers.py:314-316; agents.py:170-189) or an
    agent. *)
Inductive item : Type := Sentinel | Ag (a : agent).

(** [item._time]. *)
Definition itime (i : item) : ext :=
  match i with Sentinel => Inf | Ag a => ag_time a end.

(** ** Queues *)

(** The queue class: QueueServer, LossQueue, NullQueue
    (queue_servers.py:81, 786, 885), ResourceQueue, InfoQueue
    (queue_extentions.py:57, 262). *)
Inductive qclass : Type := CServer | CLoss | CNull | CResource | CInfo.

Definition is_resource (c : qclass) : bool := match c with CResource => true | _ => false end.
Definition is_info (c : qclass) : bool := match c with CInfo => true | _ => false end.

(** Attributes fixed by the constructor (queue_servers.py:291-312, 829;
    queue_extentions.py:96).  [c_arr n t] is the value returned by the n-th
    call of [arrival_f], made with argument [t]; likewise [c_srv]. *)
Record qcfg : Type := mkCfg {
  c_class : qclass;
  c_src : nat;  c_tgt : nat;  c_idx : nat;  c_type : Z;
  c_arr : nat -> ext -> ext;
  c_srv : nat -> ext -> ext;
  c_factory : kind;
  c_active_cap : ext;
  c_deactive_t : ext;
  c_buffer : ext;
  c_max_servers : ext
}.

(** A row of [data[agent_id]]: arrival, service start, departure, number
    queued, number in system (queue_servers.py:615-622). *)
Record row : Type := mkData { r_arr : ext; r_srv : ext; r_dep : ext; r_nq : Z; r_ns : Z }.
Definition qdata : Type := list (aid * list row).

(** The mutable fields (queue_servers.py:292-323, 828;
    queue_extentions.py:97, 300): num_servers, num_departures, num_system,
    data, queue, collect_data, _arrivals, _departures, _num_arrivals,
    _oArrivals, _num_total, _active, _current_t, _time, _next_ct,
    num_blocked, over_max, net_data; plus [q_ia]/[q_is], the numbers of
    calls of [arrival_f]/[service_f] made so far. *)
Set Primitive Projections.
Record queue : Type := mkQueue {
  q_cfg : qcfg;
  q_servers : ext;
  q_departed : Z;
  q_nsys : Z;
  q_data : qdata;
  q_line : list agent;
  q_collect : bool;
  q_arr : list item;
  q_dep : list item;
  q_narr : Z;
  q_oarr : Z;
  q_total : Z;
  q_active : bool;
  q_now : ext;
  q_time : ext;
  q_next_ct : ext;
  q_blocked : Z;
  q_over : Z;
  q_net : list netrow;
  q_ia : nat;
  q_is : nat
}.
Unset Primitive Projections.

Definition set_q_cfg (x : qcfg) (q : queue) : queue :=
  mkQueue x (q_servers q) (q_departed q) (q_nsys q) (q_data q) (q_line q) (q_collect q) (q_arr q) (q_dep q) (q_narr q) (q_oarr q) (q_total q) (q_active q) (q_now q) (q_time q) (q_next_ct q) (q_blocked q) (q_over q) (q_net q) (q_ia q) (q_is q).
Definition set_q_servers (x : ext) (q : queue) : queue :=
  mkQueue (q_cfg q) x (q_departed q) (q_nsys q) (q_data q) (q_line q) (q_collect q) (q_arr q) (q_dep q) (q_narr q) (q_oarr q) (q_total q) (q_active q) (q_now q) (q_time q) (q_next_ct q) (q_blocked q) (q_over q) (q_net q) (q_ia q) (q_is q).
Definition set_q_departed (x : Z) (q : queue) : queue :=
  mkQueue (q_cfg q) (q_servers q) x (q_nsys q) (q_data q) (q_line q) (q_collect q) (q_arr q) (q_dep q) (q_narr q) (q_oarr q) (q_total q) (q_active q) (q_now q) (q_time q) (q_next_ct q) (q_blocked q) (q_over q) (q_net q) (q_ia q) (q_is q).
Definition set_q_nsys (x : Z) (q : queue) : queue :=
  mkQueue (q_cfg q) (q_servers q) (q_departed q) x (q_data q) (q_line q) (q_collect q) (q_arr q) (q_dep q) (q_narr q) (q_oarr q) (q_total q) (q_active q) (q_now q) (q_time q) (q_next_ct q) (q_blocked q) (q_over q) (q_net q) (q_ia q) (q_is q).
Definition set_q_data (x : qdata) (q : queue) : queue :=
  mkQueue (q_cfg q) (q_servers q) (q_departed q) (q_nsys q) x (q_line q) (q_collect q) (q_arr q) (q_dep q) (q_narr q) (q_oarr q) (q_total q) (q_active q) (q_now q) (q_time q) (q_next_ct q) (q_blocked q) (q_over q) (q_net q) (q_ia q) (q_is q).
Definition set_q_line (x : list agent) (q : queue) : queue :=
  mkQueue (q_cfg q) (q_servers q) (q_departed q) (q_nsys q) (q_data q) x (q_collect q) (q_arr q) (q_dep q) (q_narr q) (q_oarr q) (q_total q) (q_active q) (q_now q) (q_time q) (q_next_ct q) (q_blocked q) (q_over q) (q_net q) (q_ia q) (q_is q).
Definition set_q_collect (x : bool) (q : queue) : queue :=
  mkQueue (q_cfg q) (q_servers q) (q_departed q) (q_nsys q) (q_data q) (q_line q) x (q_arr q) (q_dep q) (q_narr q) (q_oarr q) (q_total q) (q_active q) (q_now q) (q_time q) (q_next_ct q) (q_blocked q) (q_over q) (q_net q) (q_ia q) (q_is q).
Definition set_q_arr (x : list item) (q : queue) : queue :=
  mkQueue (q_cfg q) (q_servers q) (q_departed q) (q_nsys q) (q_data q) (q_line q) (q_collect q) x (q_dep q) (q_narr q) (q_oarr q) (q_total q) (q_active q) (q_now q) (q_time q) (q_next_ct q) (q_blocked q) (q_over q) (q_net q) (q_ia q) (q_is q).
Definition set_q_dep (x : list item) (q : queue) : queue :=
  mkQueue (q_cfg q) (q_servers q) (q_departed q) (q_nsys q) (q_data q) (q_line q) (q_collect q) (q_arr q) x (q_narr q) (q_oarr q) (q_total q) (q_active q) (q_now q) (q_time q) (q_next_ct q) (q_blocked q) (q_over q) (q_net q) (q_ia q) (q_is q).
Definition set_q_narr (x : Z) (q : queue) : queue :=
  mkQueue (q_cfg q) (q_servers q) (q_departed q) (q_nsys q) (q_data q) (q_line q) (q_collect q) (q_arr q) (q_dep q) x (q_oarr q) (q_total q) (q_active q) (q_now q) (q_time q) (q_next_ct q) (q_blocked q) (q_over q) (q_net q) (q_ia q) (q_is q).
Definition set_q_oarr (x : Z) (q : queue) : queue :=
  mkQueue (q_cfg q) (q_servers q) (q_departed q) (q_nsys q) (q_data q) (q_line q) (q_collect q) (q_arr q) (q_dep q) (q_narr q) x (q_total q) (q_active q) (q_now q) (q_time q) (q_next_ct q) (q_blocked q) (q_over q) (q_net q) (q_ia q) (q_is q).
Definition set_q_total (x : Z) (q : queue) : queue :=
  mkQueue (q_cfg q) (q_servers q) (q_departed q) (q_nsys q) (q_data q) (q_line q) (q_collect q) (q_arr q) (q_dep q) (q_narr q) (q_oarr q) x (q_active q) (q_now q) (q_time q) (q_next_ct q) (q_blocked q) (q_over q) (q_net q) (q_ia q) (q_is q).
Definition set_q_active (x : bool) (q : queue) : queue :=
  mkQueue (q_cfg q) (q_servers q) (q_departed q) (q_nsys q) (q_data q) (q_line q) (q_collect q) (q_arr q) (q_dep q) (q_narr q) (q_oarr q) (q_total q) x (q_now q) (q_time q) (q_next_ct q) (q_blocked q) (q_over q) (q_net q) (q_ia q) (q_is q).
Definition set_q_now (x : ext) (q : queue) : queue :=
  mkQueue (q_cfg q) (q_servers q) (q_departed q) (q_nsys q) (q_data q) (q_line q) (q_collect q) (q_arr q) (q_dep q) (q_narr q) (q_oarr q) (q_total q) (q_active q) x (q_time q) (q_next_ct q) (q_blocked q) (q_over q) (q_net q) (q_ia q) (q_is q).
Definition set_q_time (x : ext) (q : queue) : queue :=
  mkQueue (q_cfg q) (q_servers q) (q_departed q) (q_nsys q) (q_data q) (q_line q) (q_collect q) (q_arr q) (q_dep q) (q_narr q) (q_oarr q) (q_total q) (q_active q) (q_now q) x (q_next_ct q) (q_blocked q) (q_over q) (q_net q) (q_ia q) (q_is q).
Definition set_q_next_ct (x : ext) (q : queue) : queue :=
  mkQueue (q_cfg q) (q_servers q) (q_departed q) (q_nsys q) (q_data q) (q_line q) (q_collect q) (q_arr q) (q_dep q) (q_narr q) (q_oarr q) (q_total q) (q_active q) (q_now q) (q_time q) x (q_blocked q) (q_over q) (q_net q) (q_ia q) (q_is q).
Definition set_q_blocked (x : Z) (q : queue) : queue :=
  mkQueue (q_cfg q) (q_servers q) (q_departed q) (q_nsys q) (q_data q) (q_line q) (q_collect q) (q_arr q) (q_dep q) (q_narr q) (q_oarr q) (q_total q) (q_active q) (q_now q) (q_time q) (q_next_ct q) x (q_over q) (q_net q) (q_ia q) (q_is q).
Definition set_q_over (x : Z) (q : queue) : queue :=
  mkQueue (q_cfg q) (q_servers q) (q_departed q) (q_nsys q) (q_data q) (q_line q) (q_collect q) (q_arr q) (q_dep q) (q_narr q) (q_oarr q) (q_total q) (q_active q) (q_now q) (q_time q) (q_next_ct q) (q_blocked q) x (q_net q) (q_ia q) (q_is q).
Definition set_q_net (x : list netrow) (q : queue) : queue :=
  mkQueue (q_cfg q) (q_servers q) (q_departed q) (q_nsys q) (q_data q) (q_line q) (q_collect q) (q_arr q) (q_dep q) (q_narr q) (q_oarr q) (q_total q) (q_active q) (q_now q) (q_time q) (q_next_ct q) (q_blocked q) (q_over q) x (q_ia q) (q_is q).
Definition set_q_ia (x : nat) (q : queue) : queue :=
  mkQueue (q_cfg q) (q_servers q) (q_departed q) (q_nsys q) (q_data q) (q_line q) (q_collect q) (q_arr q) (q_dep q) (q_narr q) (q_oarr q) (q_total q) (q_active q) (q_now q) (q_time q) (q_next_ct q) (q_blocked q) (q_over q) (q_net q) x (q_is q).
Definition set_q_is (x : nat) (q : queue) : queue :=
  mkQueue (q_cfg q) (q_servers q) (q_departed q) (q_nsys q) (q_data q) (q_line q) (q_collect q) (q_arr q) (q_dep q) (q_narr q) (q_oarr q) (q_total q) (q_active q) (q_now q) (q_time q) (q_next_ct q) (q_blocked q) (q_over q) (q_net q) (q_ia q) x.


(** ** Dictionaries *)

(** [id in data]. *)
Definition dget (d : qdata) (i : aid) : option (list row) :=
  match find (fun e => aid_eqb (fst e) i) d with Some e => Some (snd e) | None => None end.

(** [data[id] = rows]. *)
Fixpoint dset (d : qdata) (i : aid) (rows : list row) : qdata :=
  match d with
  | [] => [(i, rows)]
  | (j, r) :: d' => if aid_eqb j i then (j, rows) :: d' else (j, r) :: dset d' i rows
  end.

(** [data[id] = [row]] if absent, else [data[id].append(row)]
    (queue_servers.py:615-622, 873-877, 929-932;
    queue_extentions.py:145-148, 166-169). *)
Definition dappend (d : qdata) (i : aid) (r : row) : qdata :=
  match dget d i with
  | None => dset d i [r]
  | Some rows => dset d i (rows ++ [r])
  end.

(** [data[id][-1][col] = x]; KeyError if absent, IndexError if no rows. *)
Definition dlast (d : qdata) (i : aid) (f : row -> row) : res qdata :=
  match dget d i with
  | None => Err KeyError
  | Some rows =>
    match rev rows with
    | [] => Err IndexError
    | r :: rs => Ok (dset d i (rev rs ++ [f r]))
    end
  end.

Definition row_set_srv (t : ext) (r : row) : row := mkData (r_arr r) t (r_dep r) (r_nq r) (r_ns r).
Definition row_set_dep (t : ext) (r : row) : row := mkData (r_arr r) (r_srv r) t (r_nq r) (r_ns r).

(** [if collect_data and id in data: data[id][-1][col] = x]
    (queue_servers.py:493-494, 588-589). *)
Definition dlast_if (q : queue) (i : aid) (f : row -> row) : res queue :=
  if q_collect q then
    match dget (q_data q) i with
    | None => Ok q
    | Some _ => let* d := dlast (q_data q) i f in Ok (set_q_data d q)
    end
  else Ok q.

(** ** Small methods *)

(** [h[0]._time] *)
Definition root_time (h : list item) : res ext :=
  match h with [] => Err IndexError | i :: _ => Ok (itime i) end.

Definition push_item (h : list item) (a : agent) : res (list item) :=
  of_option IndexError (heappush itime h (Ag a)).

(** heappop of a heap whose root is about to be used as an agent; a
    Sentinel has no such attributes. *)
Definition pop_agent (h : list item) : res (agent * list item) :=
  match heappop itime h with
  | None => Err IndexError
  | Some (Sentinel, _) => Err AttributeError
  | Some (Ag a, h') => Ok (a, h')
  end.

(** [_update_time] (queue_servers.py:779-783). *)
Definition update_time (q : queue) : res queue :=
  let* ta := root_time (q_arr q) in
  let* td := root_time (q_dep q) in
  Ok (set_q_time (if eltb ta td then ta else td) q).

(** The tail of [_add_arrival] (queue_servers.py:380-381). *)
Definition update_time_if (q : queue) : res queue :=
  let* ta := root_time (q_arr q) in
  let* td := root_time (q_dep q) in
  Ok (if eltb ta td then set_q_time ta q else q).

(** [at_capacity] (queue_servers.py:383-392 and 838-848). *)
Definition at_capacity (q : queue) : bool :=
  match c_class (q_cfg q) with
  | CServer | CNull => false
  | CLoss | CResource | CInfo =>
      eleb (eadd (q_servers q) (c_buffer (q_cfg q))) (Fin (q_nsys q))
  end.

(** [number_queued] (queue_servers.py:556-564, 924-925). *)
Definition number_queued (q : queue) : Z :=
  match c_class (q_cfg q) with CNull => 0 | _ => Z.of_nat (length (q_line q)) end.

(** [_key] (queue_servers.py:553-554). *)
Definition qkey (q : queue) : ext * nat := (q_time q, c_idx (q_cfg q)).

(** [next_event_description] (queue_servers.py:638-655, 937-938). *)
Definition next_event_description (q : queue) : res Z :=
  match c_class (q_cfg q) with
  | CNull => Ok 0
  | _ =>
    let* ta := root_time (q_arr q) in
    let* td := root_time (q_dep q) in
    Ok (if eltb td ta then 2 else if eltb ta Inf then 1 else 0)
  end.

(** ** Agent actions *)

(** ResourceQueue.set_num_servers (queue_extentions.py:106-109). *)
Definition rq_set_num_servers (n : ext) (q : queue) : queue :=
  let q1 := set_q_servers n q in
  if eltb (c_max_servers (q_cfg q)) n then set_q_over (q_over q + 1) q1 else q1.

(** ResourceAgent.queue_action (queue_extentions.py:30-54).  It ignores its
    second argument (0, 1 or 2). *)
Definition resource_action (a : agent) (q : queue) : agent * queue :=
  if is_resource (c_class (q_cfg q)) then
    if ag_has a then (set_ag_had true (set_ag_has false a), q)
    else if eltb (Fin 0) (q_servers q) then
      (set_ag_had false (set_ag_has true a),
       rq_set_num_servers (eadd (q_servers q) (Fin (-1))) q)
    else (a, q)
  else (a, q).

(** [mask = logical_or(mine < theirs, mine == -1); mine[mask] = theirs[mask]]
    (queue_extentions.py:250-251). *)
Definition info_take (mine theirs : netrow) : netrow :=
  if eltb (nr_time mine) (nr_time theirs) || eeqb (nr_time mine) (Fin (-1))
  then theirs else mine.

(** [mask = mine < theirs; mine[mask] = theirs[mask]]
    (queue_extentions.py:304-305). *)
Definition info_give (mine theirs : netrow) : netrow :=
  if eltb (nr_time mine) (nr_time theirs) then theirs else mine.

(** Pointwise over two arrays of the same length; numpy raises (IndexError
    or ValueError; modelled as IndexError) if the lengths differ. *)
Fixpoint zip_rows (f : netrow -> netrow -> netrow) (a b : list netrow) : res (list netrow) :=
  match a, b with
  | [], [] => Ok []
  | x :: a', y :: b' => let* r := zip_rows f a' b' in Ok (f x y :: r)
  | _, _ => Err IndexError
  end.

(** [num_system / num_servers] (queue_extentions.py:259). *)
Definition load (q : queue) : res Q :=
  match q_servers q with
  | Inf => Ok 0%Q
  | Fin 0 => Err ZeroDivisionError
  | Fin s => Ok (inject_Z (q_nsys q) / inject_Z s)%Q
  end.

(** The statistics part of InfoAgent.queue_action
    (queue_extentions.py:255-258).  Times in rows are finite when this is
    called; an infinite one is outside the model ([Corrupt]). *)
Definition info_stats (a : agent) (q : queue) : res (list (Z * Z * Z)) :=
  match dget (q_data q) (ag_id a) with
  | None => Ok (ag_stats a)
  | Some rows =>
    match rev rows with
    | [] => Err IndexError
    | r :: _ =>
      match r_srv r, r_arr r with
      | Fin s, Fin t =>
        let tmp := s - t in
        let* st := of_option IndexError (get (ag_stats a) (c_idx (q_cfg q))) in
        let '(x, y, z) := st in
        of_option IndexError
          (set (ag_stats a) (c_idx (q_cfg q)) (x + tmp, y + (if 0 <? tmp then 1 else 0), z))
      | _, _ => Err Corrupt
      end
    end
  end.

(** InfoAgent.queue_action (queue_extentions.py:247-259).  It ignores its
    second argument. *)
Definition info_action (a : agent) (q : queue) : res (agent * queue) :=
  if is_info (c_class (q_cfg q)) then
    let* nd := zip_rows info_take (ag_net a) (q_net q) in
    let* st := info_stats a q in
    let* ld := load q in
    let* nd' := of_option IndexError (set nd (c_idx (q_cfg q)) (mkRow (q_now q) (q_servers q) ld)) in
    Ok (set_ag_net nd' (set_ag_stats st a), q)
  else Ok (a, q).

(** [agent.queue_action(queue, action)] (agents.py:111-120;
    queue_extentions.py:30-54, 247-259).  No implementation looks at the
    action, so it is not an argument. *)
Definition queue_action (a : agent) (q : queue) : res (agent * queue) :=
  match ag_kind a with
  | KAgent | KGreedy => Ok (a, q)
  | KResource => Ok (resource_action a q)
  | KInfo => info_action a q
  end.

(** [agent.add_loss(qedge)] (agents.py:61-65; queue_extentions.py:241-242). *)
Definition add_loss (a : agent) (q : queue) : res agent :=
  match ag_kind a with
  | KInfo =>
    let* st := of_option IndexError (get (ag_stats a) (c_idx (q_cfg q))) in
    let '(x, y, z) := st in
    let* s := of_option IndexError (set (ag_stats a) (c_idx (q_cfg q)) (x, y, z + 1)) in
    Ok (set_ag_stats s a)
  | _ => Ok (set_ag_blocked (ag_blocked a + 1) a)
  end.

(** InfoQueue.extract_information (queue_extentions.py:302-305). *)
Definition extract_information (q : queue) (i : item) : res queue :=
  match i with
  | Sentinel => Ok q
  | Ag a =>
    match ag_kind a with
    | KInfo => let* nd := zip_rows info_give (q_net q) (ag_net a) in Ok (set_q_net nd q)
    | _ => Ok q
    end
  end.

(** ** Arrivals *)

(** [AgentFactory((edge[2], _oArrivals))] with [_time] set
    (queue_servers.py:371-372), or with the extra argument
    [len(net_data)] for an InfoQueue (queue_extentions.py:320-321): then
    every class except InfoAgent raises TypeError. *)
Definition new_agent (q : queue) (t : ext) : res agent :=
  let mk k n := mkAgent (c_idx (q_cfg q), q_oarr q) k t 0 false false
                        (repeat (0, 0, 0) n) (repeat norow n) in
  match c_class (q_cfg q), c_factory (q_cfg q) with
  | CInfo, KInfo => Ok (mk KInfo (length (q_net q)))
  | CInfo, _ => Err TypeError
  | _, k => Ok (mk k 1%nat)
  end.

(** [_add_arrival()] without an agent (queue_servers.py:362-381;
    queue_extentions.py:311-330).  An InfoQueue assigns to the read-only
    property [active] when [deactive_t] is reached
    (queue_extentions.py:315-317): AttributeError. *)
Definition add_arrival_new (q : queue) : res queue :=
  if eleb (q_next_ct q) (q_now q) then
    let nct := c_arr (q_cfg q) (q_ia q) (q_now q) in
    let q1 := set_q_ia (S (q_ia q)) (set_q_next_ct nct q) in
    if eleb (c_deactive_t (q_cfg q)) nct then
      if is_info (c_class (q_cfg q)) then Err AttributeError
      else Ok (set_q_active false q1)
    else
      let q2 := set_q_total (q_total q1 + 1) q1 in
      let* a := new_agent q2 nct in
      let* h := push_item (q_arr q2) a in
      let q3 := set_q_oarr (q_oarr q2 + 1) (set_q_arr h q2) in
      let q4 := if eleb (c_active_cap (q_cfg q)) (Fin (q_oarr q3))
                then set_q_active false q3 else q3 in
      update_time_if q4
  else update_time_if q.

(** [_add_arrival(agent)] (queue_servers.py:358-361, 380-381;
    queue_extentions.py:308-310, 329-330; NullQueue:
    queue_servers.py:927-932). *)
Definition add_arrival (a : agent) (q : queue) : res queue :=
  match c_class (q_cfg q) with
  | CNull =>
    Ok (if q_collect q
        then set_q_data (dappend (q_data q) (ag_id a) (mkData (ag_time a) (Fin 0) (Fin 0) 0 0)) q
        else q)
  | _ =>
    let q1 := set_q_total (q_total q + 1) q in
    let* h := push_item (q_arr q1) a in
    update_time_if (set_q_arr h q1)
  end.

(** [self._add_arrival()] with dispatch; NullQueue's does nothing without
    an agent (queue_servers.py:927-928). *)
Definition add_arrival_self (q : queue) : res queue :=
  match c_class (q_cfg q) with CNull => Ok q | _ => add_arrival_new q end.

(** ** Service *)

(** One call of [service_f]. *)
Definition call_srv (q : queue) (t : ext) : ext * queue :=
  (c_srv (q_cfg q) (q_is q) t, set_q_is (S (q_is q)) q).

(** [_service_from_queue] (queue_servers.py:491-498). *)
Definition service_from_queue (q : queue) : res queue :=
  match q_line q with
  | [] => Err IndexError
  | a :: line =>
    let q1 := set_q_line line q in
    let* q2 := dlast_if q1 (ag_id a) (row_set_srv (q_now q1)) in
    let '(t, q3) := call_srv q2 (q_now q2) in
    let* (a', q4) := queue_action (set_ag_time t a) q3 in
    let* h := push_item (q_dep q4) a' in
    Ok (set_q_dep h q4)
  end.

(** [delay_service(t)] (queue_servers.py:469-489, 934-935).  If the root is
    the Sentinel (only when every departure time is infinite) Python would
    overwrite the time of the InftyAgent shared by both heaps:
    [Corrupt]. *)
Definition delay_service (t : option ext) (q : queue) : res queue :=
  match c_class (q_cfg q) with
  | CNull => Ok q
  | _ =>
    if (1 <? length (q_dep q))%nat then
      match heappop itime (q_dep q) with
      | None => Err IndexError
      | Some (Sentinel, _) => Err Corrupt
      | Some (Ag a, h) =>
        let '(t', q1) := match t with
                         | None => call_srv q (ag_time a)
                         | Some t => (t, q)
                         end in
        let* h' := push_item h (set_ag_time t' a) in
        update_time (set_q_dep h' q1)
      end
    else Ok q
  end.

(** ** next_event *)

(** The departure branch of QueueServer.next_event
    (queue_servers.py:581-603). *)
Definition qs_departure (q : queue) : res (option agent * queue) :=
  let* (a, h) := pop_agent (q_dep q) in
  let q1 := set_q_departed (q_departed q + 1)
              (set_q_nsys (q_nsys q - 1)
                (set_q_total (q_total q - 1)
                  (set_q_now (ag_time a) (set_q_dep h q)))) in
  let* q2 := dlast_if q1 (ag_id a) (row_set_dep (q_now q1)) in
  let num_queued := Z.of_nat (length (q_line q2)) in
  let num_servicing := q_nsys q2 - num_queued in
  let* q3 := if (0 <? num_queued) && eltb (Fin num_servicing) (q_servers q2)
             then service_from_queue q2 else Ok q2 in
  let* (a', q4) := queue_action a q3 in
  let* q5 := update_time q4 in
  Ok (Some a', q5).

(** The arrival branch of QueueServer.next_event
    (queue_servers.py:605-636). *)
Definition qs_arrival (q : queue) : res (option agent * queue) :=
  let* (a, h) := pop_agent (q_arr q) in
  let q1 := set_q_now (ag_time a) (set_q_arr h q) in
  let* q2 := if q_active q1 then add_arrival_self q1 else Ok q1 in
  let q3 := set_q_narr (q_narr q2 + 1) (set_q_nsys (q_nsys q2 + 1) q2) in
  let b := if eleb (Fin (q_nsys q3)) (q_servers q3) then 0 else 1 in
  let q4 := if q_collect q3 then
              set_q_data (dappend (q_data q3) (ag_id a)
                (mkData (ag_time a) (Fin 0) (Fin 0) (Z.of_nat (length (q_line q3)) + b) (q_nsys q3))) q3
            else q3 in
  let* (a1, q5) := queue_action a q4 in
  if eleb (Fin (q_nsys q5)) (q_servers q5) then
    let* q6 := if q_collect q5 then
                 let* d := dlast (q_data q5) (ag_id a1) (row_set_srv (ag_time a1)) in
                 Ok (set_q_data d q5)
               else Ok q5 in
    let '(t, q7) := call_srv q6 (ag_time a1) in
    let* (a2, q8) := queue_action (set_ag_time t a1) q7 in
    let* h2 := push_item (q_dep q8) a2 in
    let* q9 := update_time (set_q_dep h2 q8) in
    Ok (None, q9)
  else
    let* q6 := update_time (set_q_line (q_line q5 ++ [a1]) q5) in
    Ok (None, q6).

(** QueueServer.next_event (queue_servers.py:566-636). *)
Definition qs_next_event (q : queue) : res (option agent * queue) :=
  let* ta := root_time (q_arr q) in
  let* td := root_time (q_dep q) in
  if eltb td ta then qs_departure q
  else if eltb ta Inf then qs_arrival q
  else Ok (None, q).

(** The blocked branch of LossQueue.next_event
    (queue_servers.py:862-882). *)
Definition loss_blocked (q : queue) : res (option agent * queue) :=
  let q0 := set_q_total (q_total q - 1) (set_q_blocked (q_blocked q + 1) q) in
  let* (a, h) := pop_agent (q_arr q0) in
  let* _a' := add_loss a q0 in
  let q1 := set_q_now (ag_time a) (set_q_arr h q0) in
  let* q2 := if q_active q1 then add_arrival_self q1 else Ok q1 in
  let q3 := if q_collect q2 then
              set_q_data (dappend (q_data q2) (ag_id a)
                (mkData (ag_time a) (Fin 0) (Fin 0) (Z.of_nat (length (q_line q2))) (q_nsys q2))) q2
            else q2 in
  let* q4 := update_time q3 in
  Ok (None, q4).

(** LossQueue.next_event (queue_servers.py:854-882). *)
Definition loss_next_event (q : queue) : res (option agent * queue) :=
  let* ta := root_time (q_arr q) in
  let* td := root_time (q_dep q) in
  if eltb td ta then qs_next_event q
  else if eltb ta Inf then
    if eltb (Fin (q_nsys q)) (eadd (q_servers q) (c_buffer (q_cfg q)))
    then let* (_, q') := qs_next_event q in Ok (None, q')
    else loss_blocked q
  else Ok (None, q).

(** The branch of ResourceQueue.next_event that returns a resource
    (queue_extentions.py:137-153). *)
Definition rq_return (q : queue) : res (option agent * queue) :=
  let* (a, h) := pop_agent (q_arr q) in
  let q1 := set_q_total (q_total q - 1) (set_q_now (ag_time a) (set_q_arr h q)) in
  let q2 := rq_set_num_servers (eadd (q_servers q1) (Fin 1)) q1 in
  let t := ag_time a in
  let q3 := if q_collect q2 then
              set_q_data (dappend (q_data q2) (ag_id a)
                (mkData t t t (Z.of_nat (length (q_line q2))) (q_nsys q2))) q2
            else q2 in
  let* q4 := update_time q3 in
  Ok (None, q4).

(** The branch of ResourceQueue.next_event that blocks
    (queue_extentions.py:158-174). *)
Definition rq_blocked (q : queue) : res (option agent * queue) :=
  let q0 := set_q_total (q_total q - 1)
              (set_q_narr (q_narr q + 1) (set_q_blocked (q_blocked q + 1) q)) in
  let* (a, h) := pop_agent (q_arr q0) in
  let q1 := set_q_now (ag_time a) (set_q_arr h q0) in
  let q2 := if q_collect q1 then
              set_q_data (dappend (q_data q1) (ag_id a)
                (mkData (ag_time a) (Fin 0) (Fin 0) (Z.of_nat (length (q_line q1))) (q_nsys q1))) q1
            else q1 in
  let* q3 := update_time q2 in
  Ok (None, q3).

(** ResourceQueue.next_event (queue_extentions.py:111-176). *)
Definition rq_next_event (q : queue) : res (option agent * queue) :=
  match q_arr q with
  | [] => Err IndexError
  | Ag a :: _ =>
    match ag_kind a with
    | KResource =>
      let* td := root_time (q_dep q) in
      if eltb td (ag_time a) then loss_next_event q
      else if eltb (ag_time a) Inf then
        if ag_has a then rq_return q
        else if eltb (Fin (q_nsys q)) (q_servers q)
        then let* (_, q') := loss_next_event q in Ok (None, q')
        else rq_blocked q
      else Ok (None, q)
    | _ => loss_next_event q
    end
  | Sentinel :: _ => loss_next_event q
  end.

(** InfoQueue.next_event (queue_extentions.py:332-336). *)
Definition info_next_event (q : queue) : res (option agent * queue) :=
  match q_arr q with
  | [] => Err IndexError
  | i :: _ =>
    let* td := root_time (q_dep q) in
    let* q1 := if eltb (itime i) td then extract_information q i else Ok q in
    loss_next_event q1
  end.

(** [next_event] with dispatch; NullQueue's is [pass]
    (queue_servers.py:940-941). *)
Definition next_event (q : queue) : res (option agent * queue) :=
  match c_class (q_cfg q) with
  | CServer => qs_next_event q
  | CLoss => loss_next_event q
  | CNull => Ok (None, q)
  | CResource => rq_next_event q
  | CInfo => info_next_event q
  end.

(** ** Other methods *)

(** [set_active] (queue_servers.py:657-663). *)
Definition set_active (q : queue) : res queue :=
  if q_active q then Ok q else add_arrival_self (set_q_active true q).

(** [set_inactive] (queue_servers.py:665-667). *)
Definition set_inactive (q : queue) : queue := set_q_active false q.

(** The argument of [set_num_servers]: a Python integer, the object
    [numpy.infty], or anything else. *)
Inductive pynum : Type := PInt (z : Z) | PInf | POther.

Fixpoint repeat_service (k : nat) (q : queue) : res queue :=
  match k with
  | O => Ok q
  | S k' => let* q' := service_from_queue q in repeat_service k' q'
  end.

(** QueueServer.set_num_servers (queue_servers.py:669-701).  [n - num_servers]
    is NaN when both are infinite, and [range(nan)] raises TypeError. *)
Definition qs_set_num_servers (n : pynum) (q : queue) : res queue :=
  let go (m : ext) (to_queue : Z) :=
    let* q1 := repeat_service (Z.to_nat to_queue) q in
    let* q2 := if 0 <? to_queue then update_time q1 else Ok q1 in
    Ok (set_q_servers m q2) in
  let waiting := Z.of_nat (length (q_line q)) in
  match n with
  | POther => Err TypeError
  | PInt z =>
    if z <=? 0 then Err ValueError
    else match q_servers q with
         | Fin s => go (Fin z) (Z.max (Z.min (z - s) waiting) 0)
         | Inf => go (Fin z) 0
         end
  | PInf =>
    match q_servers q with
    | Fin _ => go Inf (Z.max waiting 0)
    | Inf => Err TypeError
    end
  end.

(** [set_num_servers] with dispatch (ResourceQueue:
    queue_extentions.py:106-109, no validation, [POther] not modelled there;
    NullQueue: queue_servers.py:921-922). *)
Definition set_num_servers (n : pynum) (q : queue) : res queue :=
  match c_class (q_cfg q) with
  | CNull => Ok q
  | CResource =>
    match n with
    | PInt z => Ok (rq_set_num_servers (Fin z) q)
    | PInf => Ok (rq_set_num_servers Inf q)
    | POther => Err TypeError
    end
  | _ => qs_set_num_servers n q
  end.

(** QueueServer.clear (queue_servers.py:394-414). *)
Definition qs_clear (q : queue) : queue :=
  mkQueue (q_cfg q) (q_servers q) 0 0 [] [] (q_collect q) [Sentinel] [Sentinel]
          0 0 0 false (Fin 0) Inf (Fin 0) (q_blocked q) (q_over q) (q_net q)
          (q_ia q) (q_is q).

(** [clear] with dispatch (LossQueue: queue_servers.py:850-852; NullQueue:
    955-956; ResourceQueue: queue_extentions.py:205-208; InfoQueue:
    338-340). *)
Definition clear (q : queue) : queue :=
  match c_class (q_cfg q) with
  | CServer => qs_clear q
  | CLoss => set_q_blocked 0 (qs_clear q)
  | CNull => q
  | CResource => set_q_over 0 (set_q_blocked 0 (qs_clear q))
  | CInfo => set_q_net (repeat norow (length (q_net q))) (set_q_blocked 0 (qs_clear q))
  end.

(** The constructors (queue_servers.py:278-333, 825-829, 908-913;
    queue_extentions.py:88-97, 287-290).  The check of [num_servers] is
    [ctor_ok]; [nServers] is not modelled.  [max_servers] is part of the
    configuration. *)
Definition ctor_ok (n : pynum) : res ext :=
  match n with
  | POther => Err TypeError
  | PInf => Ok Inf
  | PInt z => if z <=? 0 then Err ValueError else Ok (Fin z)
  end.
Definition new_queue (c : qcfg) (servers : ext) (collect : bool) (net_size : nat) : queue :=
  mkQueue c (match c_class c with CNull => Fin 0 | _ => servers end) 0 0 [] [] collect
          [Sentinel] [Sentinel] 0 0 0 false (Fin 0) Inf (Fin 0) 0 0
          (match c_class c with CInfo => repeat norow net_size | _ => [] end) 0%nat 0%nat.

(** ** simulate (queue_servers.py:703-777) *)

(** [for dummy in range(n): self.next_event()] *)
Fixpoint simulate_n (n : nat) (q : queue) : res queue :=
  match n with
  | O => Ok q
  | S n' => let* (_, q') := next_event q in simulate_n n' q'
  end.

(** [while cond and self._time < infty: self.next_event()]; [None] means
    that the fuel ran out before the loop ended. *)
Fixpoint simulate_while (fuel : nat) (cond : queue -> bool) (q : queue) : option (res queue) :=
  if cond q && eltb (q_time q) Inf then
    match fuel with
    | O => None
    | S f =>
      match next_event q with
      | Err e => Some (Err e)
      | Ok (_, q') => simulate_while f cond q'
      end
    end
  else Some (Ok q).

Definition simulate_t (fuel : nat) (t : ext) (q : queue) : option (res queue) :=
  let thn := eadd (q_now q) t in
  simulate_while fuel (fun q' => eltb (q_now q') thn) q.
Definition simulate_nD (fuel : nat) (nD : Z) (q : queue) : option (res queue) :=
  let target := q_departed q + nD in
  simulate_while fuel (fun q' => q_departed q' <? target) q.
Definition simulate_nA (fuel : nat) (nA : Z) (q : queue) : option (res queue) :=
  let target := q_oarr q + nA in
  simulate_while fuel (fun q' => q_oarr q' <? target) q.

(** ** Histories of calls *)

(** A call on a queue.  [OArrive a] is what the network does when an agent
    moves here ([_add_arrival(agent)]); [OCollect b] sets [collect_data];
    [OClearData] is [q.data = {}] (queue_network.py:639-640). *)
Inductive qop : Type :=
| ONext | OActive | OInactive | OServers (n : pynum) | ODelay (t : option ext)
| OArrive (a : agent) | OCollect (b : bool) | OClear | OClearData.

Definition run_op (o : qop) (q : queue) : res queue :=
  match o with
  | ONext => let* (_, q') := next_event q in Ok q'
  | OActive => set_active q
  | OInactive => Ok (set_inactive q)
  | OServers n => set_num_servers n q
  | ODelay t => delay_service t q
  | OArrive a => add_arrival a q
  | OCollect b => Ok (set_q_collect b q)
  | OClear => Ok (clear q)
  | OClearData => Ok (set_q_data [] q)
  end.

Fixpoint run_ops (ops : list qop) (q : queue) : res queue :=
  match ops with
  | [] => Ok q
  | o :: rest => let* q' := run_op o q in run_ops rest q'
  end.
