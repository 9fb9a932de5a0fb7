(** * Routing: selection of queues, routing probabilities and transition
      matrices *)
From Coq Require Import List ZArith QArith Qabs Qround Bool Arith Lia.
From Verif Require Import Base Dict UnionFind Graph GraphNet.
Import ListNotations.
Open Scope Z_scope.

(** ** _get_queues (queue_network.py:1605-1636) *)

(** The shapes of the arguments. *)
Inductive queues_arg : Type :=
| QsNone
| QsInt (k : nat)
| QsIter (l : list nat).
Inductive edge_arg : Type :=
| EdNone
| EdInts (l : list nat)             (* a tuple of integers *)
| EdTuples (l : list (list nat))    (* a tuple of tuples *)
| EdListTuples (l : list (list nat))   (* a list of tuples *)
| EdListLists (l : list (list nat))    (* a list of lists *)
| EdListInts (l : list nat).        (* a list of integers *)
Inductive types_arg : Type :=
| TyNone
| TyInt (t : Z)
| TyIter (l : list Z).

Definition as_pair (l : list nat) : option (nat * nat) := match l with [u; v] => Some (u, v) | _ => None end.
(** [g.edge_index[e]] for a tuple [e]. *)
Definition tuple_index (d : dgraph) (l : list nat) : res nat :=
  match as_pair l with Some e => index_of d e | None => Err KeyError end.
Fixpoint tuple_indices (d : dgraph) (l : list (list nat)) : res (list nat) :=
  match l with
  | [] => Ok []
  | e :: r => let* k := tuple_index d e in let* ks := tuple_indices d r in Ok (k :: ks)
  end.
(** [g.edge_index[e]] for a list [e] raises TypeError (not hashable). *)
Definition len2 (l : list nat) : bool := Nat.eqb (length l) 2.

(** Lines 1612-1621: [None] if [queues] is left None. *)
Definition queues_by_edge (d : dgraph) (e : edge_arg) : res (option (list nat)) :=
  match e with
  | EdNone => Ok None
  | EdInts [] => Err IndexError
  | EdInts [_] => Err IndexError
  | EdInts l => let* k := tuple_index d l in Ok (Some [k])
  | EdTuples [] => Err IndexError
  | EdTuples _ => Ok None
  | EdListTuples [] => Err IndexError
  | EdListTuples l => if forallb len2 l then let* ks := tuple_indices d l in Ok (Some ks) else Ok None
  | EdListLists [] => Err IndexError
  | EdListLists l => if forallb len2 l then Err TypeError else Ok None
  | EdListInts [] => Err IndexError
  | EdListInts _ => Err TypeError
  end.

(** Lines 1622-1632.  [None in edge_type] is false. *)
Definition zmem (x : Z) (l : list Z) : bool := existsb (Z.eqb x) l.
Fixpoint queues_by_type (d : dgraph) (ts : list Z) (es : list (nat * nat)) : res (list nat) :=
  match es with
  | [] => Ok []
  | e :: r =>
    let* t := ep_type d e in
    let* ks := (if match t with Some x => zmem x ts | None => false end then (let* k := index_of d e in Ok [k]) else Ok []) in
    let* rest := queues_by_type d ts r in
    Ok (ks ++ rest)
  end.

Definition get_queues (d : dgraph) (qs : queues_arg) (e : edge_arg) (t : types_arg) : res (list nat) :=
  let all := seq 0 (length (g_edges (dg_g d))) in
  match qs with
  | QsInt k => Ok [k]
  | QsIter l => Ok l
  | QsNone =>
    match e with
    | EdNone =>
      match t with
      | TyNone => Ok all
      | TyInt x => queues_by_type d [x] (g_edges (dg_g d))
      | TyIter l => queues_by_type d l (g_edges (dg_g d))
      end
    | _ => let* o := queues_by_edge d e in Ok (match o with Some l => l | None => all end)
    end
  end.

(** ** Routing probabilities *)

(** [np.isclose(x, y)]: |x - y| <= 1e-8 + 1e-5 * |y|. *)
Definition isclose (x y : Q) : bool := Qle_bool (Qabs (x - y)) ((1 # 100000000) + (1 # 100000) * Qabs y).
Definition qsum (l : list Q) : Q := fold_right Qplus 0%Q l.
Definition qneg (x : Q) : bool := negb (Qle_bool 0 x).

(** The targets of the out-edges of [v], [e[1] for e in sorted(g.out_edges(v))]. *)
Definition targets_of (g : graph) (v : nat) : list nat := map snd (psort (out_pairs g v)).

(** [for k, e in enumerate(...): self._route_probs[key][k] = f(e[1])]
    (queue_network.py:1117-1118, 1132-1134). *)
Fixpoint put_probs (f : nat -> Q) (ts : list nat) (k : nat) (row : list Q) : res (list Q) :=
  match ts with
  | [] => Ok row
  | t :: r => let* row' := of_option IndexError (set row k (f t)) in put_probs f r (S k) row'
  end.
Definition put_vertex (d : dgraph) (f : nat -> Q) (v : nat) (p : list (list Q)) : res (list (list Q)) :=
  let* row := of_option IndexError (get p v) in
  let* row' := put_probs f (targets_of (dg_g d) v) 0 row in
  of_option IndexError (set p v row').

Definition qget (r : list (nat * Q)) (k : nat) : Q := match mget Nat.eqb r k with Some x => x | None => 0%Q end.

(** [set_transitions] with a dictionary (queue_network.py:1103-1118).  The
    result is the new [_route_probs], also when an exception is raised, and
    the exception.  [out] is [self.out_edges]. *)
Fixpoint set_dict (d : dgraph) (out : list (list nat)) (m : list (nat * list (nat * Q))) (p : list (list Q)) : list (list Q) * res unit :=
  match m with
  | [] => (p, Ok tt)
  | (key, value) :: r =>
    let probs := map snd value in
    if negb (mhas Nat.eqb (dg_g d) key) then (p, Err ValueError)
    else
      match get out key with
      | None => (p, Err IndexError)
      | Some l =>
        if (0 <? length l)%nat && negb (isclose (qsum probs) 1) then (p, Err ValueError)
        else if existsb qneg probs then (p, Err ValueError)
        else
          match put_vertex d (qget value) key p with
          | Ok p' => set_dict d out r p'
          | Err x => (p, Err x)
          end
      end
  end.

(** [mat[non_terminal, :]]: the rows at the positions where the mask is true. *)
Fixpoint masked (mask : list bool) (m : list (list Q)) : list (list Q) :=
  match mask, m with
  | b :: mask', r :: m' => if b then r :: masked mask' m' else masked mask' m'
  | _, _ => []
  end.
Definition mat_get (m : list (list Q)) (k j : nat) : Q := nth j (nth k m []) 0%Q.
(** The loop over the vertices (queue_network.py:1132-1134). *)
Fixpoint put_matrix (d : dgraph) (m : list (list Q)) (vs : list nat) (p : list (list Q)) : list (list Q) * res unit :=
  match vs with
  | [] => (p, Ok tt)
  | v :: r =>
    match put_vertex d (mat_get m v) v p with
    | Ok p' => put_matrix d m r p'
    | Err x => (p, Err x)
    end
  end.
(** [set_transitions] with a matrix (queue_network.py:1120-1134); a matrix is
    the list of its rows, all of the same length. *)
Definition set_matrix (d : dgraph) (m : list (list Q)) (p : list (list Q)) : list (list Q) * res unit :=
  let nV := length (g_nodes (dg_g d)) in
  let mask := map (fun v => (0 <? length (out_pairs (dg_g d) v))%nat) (g_nodes (dg_g d)) in
  if negb (Nat.eqb (length m) nV && forallb (fun r => Nat.eqb (length r) nV) m) then (p, Err ValueError)
  else if negb (forallb (fun r => isclose (qsum r) 1) (masked mask m)) then (p, Err ValueError)
  else if existsb (existsb qneg) m then (p, Err ValueError)
  else put_matrix d m (seq 0 nV) p.

(** [transitions(False)] (queue_network.py:1527-1530). *)
Definition transitions_dict (d : dgraph) (p : list (list Q)) : list (nat * list (nat * Q)) :=
  map (fun x => (fst x, mof Nat.eqb (combine (targets_of (dg_g d) (fst x)) (snd x)))) (combine (seq 0 (length p)) p).

(** [mat[v, ind] = values] for distinct indices; numpy raises ValueError if
    the lengths differ (unless there is one value) and IndexError if an
    index is too large. *)
Fixpoint put_row_at (row : list Q) (ind : list nat) (vals : list Q) : res (list Q) :=
  match ind, vals with
  | [], [] => Ok row
  | i :: ind', x :: vals' => let* row' := of_option IndexError (set row i x) in put_row_at row' ind' vals'
  | _, _ => Err ValueError
  end.
Definition put_mat_at (m : list (list Q)) (v : nat) (ind : list nat) (vals : list Q) : res (list (list Q)) :=
  let* row := of_option IndexError (get m v) in
  let* row' := put_row_at row ind vals in
  of_option IndexError (set m v row').
Definition zeros (n : nat) : list (list Q) := repeat (repeat 0%Q n) n.
(** [transitions()] (queue_network.py:1521-1525). *)
Fixpoint transitions_rows (d : dgraph) (p : list (list Q)) (vs : list nat) (m : list (list Q)) : res (list (list Q)) :=
  match vs with
  | [] => Ok m
  | v :: r =>
    let* pr := of_option IndexError (get p v) in
    let* m' := put_mat_at m v (targets_of (dg_g d) v) pr in
    transitions_rows d p r m'
  end.
Definition transitions_mat (d : dgraph) (p : list (list Q)) : res (list (list Q)) :=
  transitions_rows d p (g_nodes (dg_g d)) (zeros (length (g_nodes (dg_g d)))).

(** ** generate_transition_matrix (graph_generation.py:12-51)

    [rand i] is the i-th number drawn by [np.random.rand], [pick v] the value
    of [np.random.randint] if it is called for vertex [v]. *)
Definition percent (x : Q) : Q := (inject_Z (Qceiling (x * 100)) / 100)%Q.
Definition draw_row (rand : nat -> Q) (i deg pick : nat) : res (list Q) :=
  let probs := map (fun j => percent (rand j)) (seq i deg) in
  let* probs' := if isclose (qsum probs) 0 then of_option IndexError (set probs pick 1%Q) else Ok probs in
  Ok (map (fun x => x / qsum probs')%Q probs').
Fixpoint gen_rows (d : dgraph) (rand : nat -> Q) (pick : nat -> nat) (i : nat) (vs : list nat) (m : list (list Q)) : res (list (list Q)) :=
  match vs with
  | [] => Ok m
  | v :: r =>
    let ind := targets_of (dg_g d) v in
    match length ind with
    | O => gen_rows d rand pick i r m
    | 1%nat => let* m' := put_mat_at m v ind [1%Q] in gen_rows d rand pick i r m'
    | deg =>
      let* vals := draw_row rand i deg (pick v) in
      let* m' := put_mat_at m v ind vals in
      gen_rows d rand pick (i + deg) r m'
    end
  end.
Definition generate_transition_matrix (gi : graph_in) (rand : nat -> Q) (pick : nat -> nat) : res (list (list Q)) :=
  let* d := test_graph gi in
  gen_rows d rand pick 0 (g_nodes (dg_g d)) (zeros (length (g_nodes (dg_g d)))).
