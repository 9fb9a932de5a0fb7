(** * Graph: directed graphs (networkx) and adjacency conversions

    A [networkx.DiGraph] is the dictionary of its successors: vertex to
    (neighbour to edge properties), in insertion order.  Simplifications:
    vertices are natural numbers; the only edge property is [edge_type]
    ([None] if it is missing or None); two edges never share a property
    dictionary.  networkx is not part of /repo: [g_node], [g_edge],
    [from_dod] follow its documented behaviour. *)
From Coq Require Import List ZArith Bool Arith Lia.
From Verif Require Import Base Dict UnionFind.
Import ListNotations.
Open Scope Z_scope.

Notation nbrs := (list (nat * option Z)) (only parsing).
Notation graph := (list (nat * list (nat * option Z))) (only parsing).

(** [add_node] of networkx. *)
Definition g_node (g : graph) (v : nat) : graph := if mhas Nat.eqb g v then g else g ++ [(v, [])].

(** [datadict.update(dd)] of networkx on the properties of an edge. *)
Definition merge (old : option (option Z)) (a : option Z) : option Z :=
  match a with
  | Some t => Some t
  | None => match old with Some o => o | None => None end
  end.

Definition row_of (g : graph) (u : nat) : nbrs := match mget Nat.eqb g u with Some r => r | None => [] end.

(** [add_edge] of networkx (directed). *)
Definition g_edge (g : graph) (u v : nat) (a : option Z) : graph :=
  let g1 := g_node (g_node g u) v in
  let r := row_of g1 u in
  nput g1 u (nput r v (merge (mget Nat.eqb r v) a)).

(** [g.nodes()], [g.edges()]. *)
Definition g_nodes (g : graph) : list nat := mkeys g.
Definition g_edges (g : graph) : list (nat * nat) := flat_map (fun p => map (fun e => (fst p, fst e)) (snd p)) g.

(** [nx.from_dict_of_dicts(d, create_using=nx.DiGraph())]. *)
Definition add_row (g : graph) (u : nat) (r : nbrs) : graph := fold_left (fun g e => g_edge g u (fst e) (snd e)) r g.
Definition from_dod (d : graph) : graph :=
  fold_left (fun g p => add_row g (fst p) (snd p)) d (fold_left g_node (mkeys d) []).

(** [_matrix2dict] (graph_wrapper.py:15-24).  [val] makes the value that is
    stored for an entry: [{}] or the entry itself. *)
Definition mat_at (m : list (list Z)) (k j : nat) : res Z :=
  let* r := of_option IndexError (get m k) in of_option IndexError (get r j).
Fixpoint mat_row {V} (val : Z -> V) (m : list (list Z)) (k : nat) (js : list nat) (acc : list (nat * V)) : res (list (nat * V)) :=
  match js with
  | [] => Ok acc
  | j :: js' =>
    let* x := mat_at m k j in
    mat_row val m k js' (if x =? 0 then acc else nput acc j (val x))
  end.
Fixpoint mat_rows {V} (val : Z -> V) (m : list (list Z)) (ks js : list nat) : res (list (nat * list (nat * V))) :=
  match ks with
  | [] => Ok []
  | k :: ks' =>
    let* r := mat_row val m k js [] in
    let* d := mat_rows val m ks' js in
    Ok ((k, r) :: d)
  end.
Definition matrix2dict {V} (val : Z -> V) (m : list (list Z)) : res (list (nat * list (nat * V))) :=
  mat_rows val m (seq 0 (length m)) (seq 0 (length m)).

(** The documented shapes of the arguments of [adjacency2graph]
    (graph_wrapper.py:83-99).  In a dictionary all values are dictionaries, or
    all values are lists. *)
Inductive adj_in : Type :=
| AMatrix (m : list (list Z))
| ADicts (d : graph)
| ALists (d : list (nat * list nat))
| AOther.
Inductive type_in : Type :=
| TNone
| TMatrix (m : list (list Z))
| TDicts (d : list (nat * list (nat * Z))).

(** [_dict2dict] (graph_wrapper.py:27-39): [popitem] raises KeyError on an
    empty dictionary, otherwise the last item is put back at its place. *)
Definition dict2dict (d : graph) : res graph := match d with [] => Err KeyError | _ => Ok d end.
Definition lists2dict (d : list (nat * list nat)) : res graph :=
  match d with
  | [] => Err KeyError
  | _ => Ok (map (fun p => (fst p, mof Nat.eqb (map (fun v => (v, None)) (snd p)))) d)
  end.
Definition types2dict (d : list (nat * list (nat * Z))) : res (list (nat * list (nat * Z))) :=
  match d with [] => Err KeyError | _ => Ok d end.

(** [adjacency[u][v]['edge_type'] = et] (graph_wrapper.py:175). *)
Definition put_type (g : graph) (u v : nat) (t : Z) : res graph :=
  let* r := nget g u in
  let* _ := nget r v in
  Ok (nput g u (nput r v (Some t))).
Fixpoint put_row (g : graph) (u : nat) (l : list (nat * Z)) : res graph :=
  match l with
  | [] => Ok g
  | (v, t) :: l' => let* g' := put_type g u v t in put_row g' u l'
  end.
(** The loops (graph_wrapper.py:173-175). *)
Fixpoint put_types (g : graph) (l : list (nat * list (nat * Z))) : res graph :=
  match l with
  | [] => Ok g
  | (u, r) :: l' => let* g' := put_row g u r in put_types g' l'
  end.

(** [_adjacency_adjust] (graph_wrapper.py:42-70) with [is_directed] true. *)
Definition typed (a : option Z) : option Z := match a with None => Some 1 | Some t => Some t end.
Definition defaults (g : graph) : graph := map (fun p => (fst p, map (fun e => (fst e, typed (snd e))) (snd p))) g.
Definition null_nodes (g : graph) : list nat := map fst (filter (fun p => match snd p with [] => true | _ => false end) g).
Definition mem (x : nat) (l : list nat) : bool := existsb (Nat.eqb x) l.
Definition adjacency_adjust (g : graph) (adjust : Z) : graph :=
  let g1 := defaults g in
  if adjust =? 2 then
    let nulls := null_nodes g1 in
    map (fun p => (fst p, map (fun e => (fst e, if mem (fst e) nulls then Some 0 else snd e)) (snd p))) g1
  else
    map (fun p => (fst p, match snd p with [] => [(fst p, Some 0)] | r => r end)) g1.

(** [adjacency2graph] (graph_wrapper.py:73-181). *)
Definition to_adjacency (a : adj_in) : res graph :=
  match a with
  | AMatrix m => matrix2dict (fun _ => None) m
  | ADicts d => dict2dict d
  | ALists d => lists2dict d
  | AOther => Err TypeError
  end.
Definition to_types (t : type_in) : res (list (nat * list (nat * Z))) :=
  match t with
  | TNone => Ok []
  | TMatrix m => matrix2dict (fun x => x) m
  | TDicts d => types2dict d
  end.
Definition adjacency2graph (a : adj_in) (ty : type_in) (adjust : Z) : res graph :=
  let* d := to_adjacency a in
  let* t := to_types ty in
  let* d1 := put_types d t in
  let g := from_dod d1 in
  Ok (from_dod (adjacency_adjust g adjust)).

(** [graph2dict] (graph_functions.py:46-88) of a DiGraph. *)
Definition graph2dict (g : graph) : graph := g.
Definition graph2lists (g : graph) : list (nat * list nat) := map (fun p => (fst p, mkeys (snd p))) g.
