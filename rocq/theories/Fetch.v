(** * Fetch: QueueServer.fetch_data and the data methods of QueueNetwork *)
From Coq Require Import List ZArith QArith Lia Bool Arith.
From Verif Require Import Base Queue.
Import ListNotations.
Open Scope Z_scope.

(** A row of the result: a collected row and an edge index
    (queue_servers.py:533-534). *)
Definition drow : Type := (row * nat)%type.

(** The comparison used by [np.sort(dat, order='a')] on a structured array
    (queue_servers.py:536-546): field 'a' first, ties broken by the other
    fields in the order of the dtype (s, d, q, n, id). *)
Definition ecmp (x y : ext) : comparison :=
  if eltb x y then Lt else if eltb y x then Gt else Eq.
Definition lexc (c d : comparison) : comparison := match c with Eq => d | _ => c end.
Definition drow_cmp (x y : drow) : comparison :=
  let '(r, i) := x in
  let '(s, j) := y in
  lexc (ecmp (r_arr r) (r_arr s))
    (lexc (ecmp (r_srv r) (r_srv s))
      (lexc (ecmp (r_dep r) (r_dep s))
        (lexc (r_nq r ?= r_nq s) (lexc (r_ns r ?= r_ns s) (Nat.compare i j))))).
Definition drow_leb (x y : drow) : bool := match drow_cmp x y with Gt => false | _ => true end.

(** [np.sort]; the order is total, so every sorting algorithm gives the
    same array.  Simplification: insertion sort. *)
Fixpoint dinsert (x : drow) (l : list drow) : list drow :=
  match l with
  | [] => [x]
  | y :: t => if drow_leb x y then x :: l else y :: dinsert x t
  end.
Fixpoint dsort (l : list drow) : list drow :=
  match l with [] => [] | x :: t => dinsert x (dsort t) end.

(** [fetch_data()] (queue_servers.py:500-551); the header string is not
    modelled.  [for d in self.data.values(): qdata.extend(d)], then the edge
    index is added as a sixth column and the array sorted. *)
Definition fetch_data (q : queue) : list drow :=
  dsort (map (fun r => (r, c_idx (q_cfg q))) (concat (map snd (q_data q)))).

(** One step of the loop of [get_agent_data] (queue_network.py:796-803):
    the rows of one agent in one queue are appended to those seen before. *)
Definition agent_rows : Type := list (aid * list drow).
Fixpoint ar_add (i : aid) (rows : list drow) (d : agent_rows) : agent_rows :=
  match d with
  | [] => [(i, rows)]
  | (j, old) :: t => if aid_eqb j i then (j, old ++ rows) :: t else (j, old) :: ar_add i rows t
  end.

(** [get_agent_data] for the given queues (queue_network.py:792-821). *)
Definition get_agent_data (qs : list queue) : agent_rows :=
  let collected :=
    fold_left (fun d q =>
      fold_left (fun d e => ar_add (fst e) (map (fun r => (r, c_idx (q_cfg q))) (snd e)) d) (q_data q) d) qs [] in
  map (fun e => (fst e, dsort (snd e))) collected.

(** [get_queue_data] for the given queues (queue_network.py:892-904). *)
Definition get_queue_data (qs : list queue) : list drow := concat (map fetch_data qs).
