(** * View: comparing agents, the blocking property, what objects print *)
From Coq Require Import List ZArith Bool Arith Ascii String DecimalString.
From Verif Require Import Base Heap PQueue Queue Network UnionFind.
Import ListNotations.
Open Scope Z_scope.

(** ** Comparing agents *)

(** The six comparisons of Python. *)
Inductive cmpop : Type := PLt | PGt | PEq | PNe | PLe | PGe.

(** Which of them the class of [x] defines: Agent defines [<], [>], [==],
    [<=] and [>=] (agents.py:46-59), InftyAgent [<], [>] and [==]
    (agents.py:182-189); GreedyAgent, ResourceAgent and InfoAgent inherit
    those of Agent.  [!=] is object's: the negation of [==]. *)
Definition defines (x : item) (o : cmpop) : bool :=
  match x, o with
  | _, (PLt | PGt | PEq | PNe) => true
  | Ag _, (PLe | PGe) => true
  | Sentinel, (PLe | PGe) => false
  end.

(** The body of the method: compares [self._time] with [b._time]
    (agents.py:46-59, 182-189). *)
Definition cmp_times (o : cmpop) (s t : ext) : bool :=
  match o with
  | PLt => eltb s t | PGt => eltb t s | PEq => eeqb s t | PNe => negb (eeqb s t)
  | PLe => eleb s t | PGe => eleb t s
  end.

(** The method of the right-hand object that Python tries when the left-hand
    object does not have one. *)
Definition reflected (o : cmpop) : cmpop :=
  match o with PLt => PGt | PGt => PLt | PEq => PEq | PNe => PNe | PLe => PGe | PGe => PLe end.

(** [x o y] for two agents (agents.py:46-59, 182-189, with Python's rule for
    missing methods).  Simplification: if the class of [y] is a subclass of
    that of [x], Python tries the reflected method first; it is inherited
    and gives the same answer. *)
Definition compare_agents (o : cmpop) (x y : item) : res bool :=
  if defines x o then Ok (cmp_times o (itime x) (itime y))
  else if defines y (reflected o) then Ok (cmp_times (reflected o) (itime y) (itime x))
  else Err TypeError.

(** ** The blocking property *)

(** A Python value: a str or something else. *)
Inductive pyval : Type := PyStr (s : string) | PyOther.

(** [c.lower()] for one character.  Simplification: characters are ASCII; no
    other character becomes an r or an s. *)
Definition lower_ascii (c : ascii) : ascii :=
  let k := nat_of_ascii c in
  if (65 <=? k)%nat && (k <=? 90)%nat then ascii_of_nat (k + 32) else c.

(** [s.lower()]. *)
Fixpoint lower (s : string) : string :=
  match s with EmptyString => EmptyString | String c r => String (lower_ascii c) (lower r) end.

(** What the constructor and the setter make of the value
    (queue_network.py:310-311, 320, 382-384). *)
Definition blocking_of (v : pyval) : res bool :=
  match v with
  | PyStr s => Ok (if String.eqb (lower s) "rs" then false else true)
  | PyOther => Err TypeError
  end.

(** The getter (queue_network.py:376-378). *)
Definition get_blocking (n : net) : string := if nt_bas n then "BAS"%string else "RS"%string.

(** The setter (queue_network.py:380-384). *)
Definition set_blocking (v : pyval) (n : net) : res net :=
  let* b := blocking_of v in Ok (set_nt_bas b n).

(** The constructor with its argument [blocking] (queue_network.py:307-320);
    the other arguments as in [new_net]. *)
Definition net_with (v : pyval) (qs : list queue) (out : list (list nat)) (max : ext)
    (junk : ext * nat) (u : nat -> QArith_base.Q) (eps : nat -> Z) : res net :=
  let* b := blocking_of v in Ok (new_net qs out max b junk u eps).

(** ** What objects print *)

(** [format] of an integer. *)
Definition show_int (z : Z) : string := NilZero.string_of_int (Z.to_int z).

(** [format] of a number of servers: an integer or [inf]. *)
Definition show_num (x : ext) : string := match x with Fin z => show_int z | Inf => "inf"%string end.

(** [format] of an agent_id, a tuple. *)
Definition show_id (i : aid) : string :=
  ("(" ++ show_int (Z.of_nat (fst i)) ++ ", " ++ show_int (snd i) ++ ")")%string.

(** [Agent.__repr__] and those of its subclasses and of InftyAgent
    (agents.py:43-44, 136-138, 179-180; queue_extentions.py:27-28, 238-239).
    [shown] prints [round(self._time, 3)]. *)
Definition show_agent (shown : ext -> string) (x : item) : string :=
  match x with
  | Sentinel => "InftyAgent"%string
  | Ag a =>
    let body (name time : string) :=
      (name ++ "; agent_id:" ++ show_id (ag_id a) ++ ". " ++ time ++ ": " ++ shown (ag_time a))%string in
    match ag_kind a with
    | KAgent => body "Agent"%string "time"%string
    | KGreedy => body "GreedyAgent"%string "time"%string
    | KResource => body "ResourceAgent"%string "Time"%string
    | KInfo => body "InfoAgent"%string "Time"%string
    end
  end.

(** [num_arrivals] (queue_servers.py:347-349). *)
Definition num_arrivals (q : queue) : Z * Z := (q_narr q, q_oarr q).

(** [__repr__] of the five classes of queues (queue_servers.py:351-356,
    831-836, 915-916; queue_extentions.py:99-104, 292-297). *)
Definition show_queue (shown : ext -> string) (q : queue) : string :=
  let c := q_cfg q in
  let arr := ("[" ++ show_int (fst (num_arrivals q)) ++ ", " ++ show_int (snd (num_arrivals q)) ++ "]")%string in
  let tail := (", arrivals: " ++ arr ++ ", departures: " ++ show_int (q_departed q) ++
               ", next time: " ++ shown (q_time q))%string in
  let usual (name : string) :=
    (name ++ ":" ++ show_int (Z.of_nat (c_idx c)) ++ ". Servers: " ++ show_num (q_servers q) ++
     ", queued: " ++ show_int (Z.of_nat (List.length (q_line q))) ++ tail)%string in
  match c_class c with
  | CServer => usual "QueueServer"%string
  | CLoss => usual "LossQueue"%string
  | CInfo => usual "InfoQueue"%string
  | CResource =>
    ("ResourceQueue:" ++ show_int (Z.of_nat (c_idx c)) ++ ". Servers: " ++ show_num (q_servers q) ++
     ", max servers: " ++ show_num (c_max_servers c) ++ tail)%string
  | CNull => ("NullQueue:" ++ show_int (Z.of_nat (c_idx c)) ++ ".")%string
  end.

(** [nV], [nE] (queue_network.py:352-353, 386-396). *)
Definition num_nodes (n : net) : Z := Z.of_nat (List.length (nt_out n)).
Definition num_edges (n : net) : Z := Z.of_nat (List.length (nt_queues n)).

(** [QueueNetwork.__repr__] (queue_network.py:372-374). *)
Definition show_net (n : net) : string :=
  ("QueueNetwork. # nodes: " ++ show_int (num_nodes n) ++ ", edges: " ++ show_int (num_edges n) ++
   ", agents: " ++ show_int (zsum (nt_nagents n)))%string.

(** [UnionFind.__repr__] (union_find.py:28-29). *)
Definition show_uf (u : uf) : string := ("UnionFind: contains " ++ show_int (uf_clusters u) ++ " clusters.")%string.
