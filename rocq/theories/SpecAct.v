(** * SpecAct: notions used in the statements about what agents do to queues *)
From Coq Require Import List ZArith QArith Bool Permutation Arith.
From Verif Require Import Base Queue SpecQueue.
Import ListNotations.
Open Scope Z_scope.

(** ** Resources *)

(** What a ResourceAgent does at a ResourceQueue with [s] servers: with a
    resource in hand it lays it down (and the queue does not get it back);
    otherwise it takes a server, if there is one.  [has] and [has'] say
    whether it holds a resource before and after, [s'] is the number of
    servers after.  Other agents do nothing. *)
Definition toggles (a : agent) (has : bool) (s : ext) (has' : bool) (s' : ext) : Prop :=
  match ag_kind a with
  | KResource =>
      (has = true /\ has' = false /\ s' = s) \/
      (has = false /\ eLt (Fin 0) s /\ has' = true /\ s' = fewer s 1) \/
      (has = false /\ eLe s (Fin 0) /\ has' = false /\ s' = s)
  | _ => has' = has /\ s' = s
  end.

(** Somebody waits and a server is free after one agent has left. *)
Definition can_start (q : queue) : bool :=
  (0 <? zlen (waiting q)) && eltb (Fin (q_nsys q - 1 - zlen (waiting q))) (q_servers q).

(** An arriving agent is turned away: every agent if servers and buffer are
    full, a ResourceAgent already if all servers are busy. *)
Definition refused (q : queue) (a : agent) : bool :=
  eleb (eadd (q_servers q) (c_buffer (q_cfg q))) (Fin (q_nsys q)) ||
  match ag_kind a with
  | KResource => eleb (q_servers q) (Fin (q_nsys q))
  | _ => false
  end.

(** The same agents wait, the same are served. *)
Definition same_agents (q q' : queue) : Prop := waiting q' = waiting q /\ in_service q' = in_service q.

(** One event at a ResourceQueue. *)
Definition resource_step (q : queue) (r : option agent) (q' : queue) : Prop :=
  match arriving q, r with
  | None, None => q_servers q' = q_servers q /\ same_agents q q'
  | None, Some a' =>
      exists a s1, In a (in_service q) /\ ag_id a' = ag_id a /\ ag_kind a' = ag_kind a /\
        toggles a (ag_has a) s1 (ag_has a') (q_servers q') /\
        if can_start q then
          exists b b', waiting q = b :: waiting q' /\ ag_id b' = ag_id b /\ ag_kind b' = ag_kind b /\
            toggles b (ag_has b) (q_servers q) (ag_has b') s1 /\
            Permutation (a :: in_service q') (b' :: in_service q)
        else s1 = q_servers q /\ waiting q' = waiting q /\ Permutation (a :: in_service q') (in_service q)
  | Some a, _ =>
      r = None /\
      if match ag_kind a with KResource => ag_has a | _ => false end
      then q_servers q' = eadd (q_servers q) (Fin 1) /\ same_agents q q'
      else if refused q a then q_servers q' = q_servers q /\ same_agents q q'
      else exists has s1, toggles a (ag_has a) (q_servers q) has s1 /\
        if eleb (Fin (q_nsys q + 1)) s1 then
          exists b, ag_id b = ag_id a /\ ag_kind b = ag_kind a /\ toggles a has s1 (ag_has b) (q_servers q') /\
            waiting q' = waiting q /\ Permutation (in_service q') (b :: in_service q)
        else
          exists b, ag_id b = ag_id a /\ ag_kind b = ag_kind a /\ ag_has b = has /\ q_servers q' = s1 /\
            waiting q' = waiting q ++ [b] /\ in_service q' = in_service q
  end.

(** Only ResourceAgents come, and num_servers is not set by hand. *)
Definition resources_only (o : qop) : Prop :=
  match o with
  | OArrive a => ag_kind a = KResource
  | OServers _ | OClear => False
  | _ => True
  end.

(** Agents that left with a resource in hand; agents that brought one back. *)
Definition carrying (log : list entry) : Z :=
  zlen (filter (fun e : entry => match e with (_, _, Some a, _) => ag_has a | _ => false end) log).
Definition returned (log : list entry) : Z :=
  zlen (filter (fun e : entry => match e with
                  (ONext, q, _, _) => match arriving q with
                                      | Some a => match ag_kind a with KResource => ag_has a | _ => false end
                                      | None => false end
                | _ => false end) log).

(** ** Information *)

(** [after] is what an agent knows that knew [before], has talked to a queue
    that knows [theirs], and has stamped row [k] with the state of that
    queue: its clock, its number of servers, and agents per server. *)
Definition learned (before theirs : list netrow) (k : nat) (now servers : ext) (nsys : Z) (after : list netrow) : Prop :=
  length theirs = length before /\ length after = length before /\ (k < length before)%nat /\
  nr_time (info_at after k) = now /\ nr_servers (info_at after k) = servers /\
  nr_load (info_at after k) = match servers with Fin s => (inject_Z nsys / inject_Z s)%Q | Inf => 0%Q end /\
  (forall j, (j < length before)%nat -> j <> k -> newer_of (info_at before j) (info_at theirs j) (info_at after j)).

(** The statistics of an InfoAgent about queue [k]: [w] is added to the time
    waited, and one to the number of waits if [w] is positive. *)
Definition stat_add (k : nat) (w : Z) (before after : list (Z * Z * Z)) : Prop :=
  (k < length before)%nat /\ length after = length before /\
  exists x y z, nth k before (0, 0, 0) = (x, y, z) /\
    nth k after (0, 0, 0) = (x + w, y + (if 0 <? w then 1 else 0), z) /\
    forall j, j <> k -> nth j after (0, 0, 0) = nth j before (0, 0, 0).

(** The time between arrival and start of service in a row. *)
Definition wait_of (r : row) (w : Z) : Prop := exists s t, r_srv r = Fin s /\ r_arr r = Fin t /\ w = s - t.

(** The wait recorded in the last row is added; without rows nothing
    changes. *)
Definition stat_step (k : nat) (rows : list row) (before after : list (Z * Z * Z)) : Prop :=
  match rev rows with
  | [] => after = before
  | r :: _ => exists w, wait_of r w /\ stat_add k w before after
  end.

(** ** Rows *)

(** The row that the arrival of [a] at a ResourceQueue adds for agent [i]:
    the numbers queued and in the system are right for agents that bring a
    resource back and for refused agents; for admitted agents num_queued is
    what it would be if the agent took no server. *)
Definition resource_row (q : queue) (a : agent) (q' : queue) (i : aid) : list row :=
  let t := q_now q' in
  if aid_eqb (ag_id a) i then
    [if match ag_kind a with KResource => ag_has a | _ => false end then mkData t t t (zlen (waiting q)) (q_nsys q)
     else if refused q a then mkData t (Fin 0) (Fin 0) (zlen (waiting q)) (q_nsys q)
     else mkData t (if memb i (in_service q') then t else Fin 0) (Fin 0)
            (zlen (waiting q) + if eleb (Fin (q_nsys q + 1)) (q_servers q) then 0 else 1) (q_nsys q + 1)]
  else [].
