(** * GraphGen: graph_generation.py (generate_transition_matrix is in
      Routing.v) *)
From Coq Require Import List ZArith QArith Qabs Qround Bool Arith Lia.
From Verif Require Import Base Dict UnionFind Graph GraphNet Routing.
Import ListNotations.
Open Scope Z_scope.

(** ** minimal_random_graph (graph_generation.py:181-235)

    [dist k j] is the squared distance between the points [k < j], as the
    code computes it; the positions themselves are not part of the result. *)

(** The array [edges]: distance, then the two ends. *)
Definition dedge : Type := Z * (nat * nat).
Definition row_edges (dist : nat -> nat -> Z) (n k : nat) : list dedge := map (fun j => (dist k j, (k, j))) (seq (S k) (n - S k)).
Definition all_edges (dist : nat -> nat -> Z) (n : nat) : list dedge := flat_map (row_edges dist n) (seq 0 (n - 1)).
(** [np.sort(edges, order='distance')]: by distance, ties by the other fields. *)
Definition deleb (a b : dedge) : bool := (fst a <? fst b) || ((fst a =? fst b) && pleb (snd a) (snd b)).
Fixpoint dinsert (a : dedge) (l : list dedge) : list dedge :=
  match l with
  | [] => [a]
  | b :: r => if deleb a b then a :: l else b :: dinsert a r
  end.
Definition esort (l : list dedge) : list dedge := fold_right dinsert [] l.

(** [add_edge] of an undirected graph. *)
Definition u_edge (g : graph) (x y : nat) : graph := g_edge (g_edge g x y None) y x None.
(** The loop (lines 224-229). *)
Fixpoint grow (es : list dedge) (u : uf) (g : graph) : res graph :=
  match es with
  | [] => Ok g
  | (_, (n1, n2)) :: r =>
    let* u' := uf_union n1 n2 u in
    let g' := u_edge g n1 n2 in
    if uf_clusters u' =? 1 then Ok g' else grow r u' g'
  end.
Definition minimal_graph (n : nat) (dist : nat -> nat -> Z) : res dgraph :=
  let* g := grow (esort (all_edges dist n)) (uf_new (seq 0 n)) [] in
  Ok (dg_new g).

(** ** Edge types *)

(** [g.set_ep(e, 'edge_type', t)] (graph_wrapper.py:274-278): the graph has no attribute
    [edge_type]. *)
Definition set_type (e : nat * nat) (t : Z) (d : dgraph) : res dgraph :=
  let* r := nget (dg_g d) (fst e) in
  let* _ := nget r (snd e) in
  Ok (mkDg (nput (dg_g d) (fst e) (nput r (snd e) (Some t))) (dg_index d) (dg_next d)).
(** [g.new_edge_property('edge_type')] (graph_wrapper.py:306-310). *)
Definition no_types (d : dgraph) : dgraph :=
  mkDg (map (fun p => (fst p, map (fun e => (fst e, None)) (snd p))) (dg_g d)) (dg_index d) (dg_next d).

(** ** set_types_random (graph_generation.py:238-326) *)

(** [np.random.choice(keys, size=n, p=props)]: negative probabilities and a sum
    that is not 1 (within the square root of the float epsilon) are
    rejected; otherwise each draw takes the first key whose cumulated
    probability exceeds the uniform number.  [u i] is the i-th uniform number. *)
Fixpoint searchsorted (keys : list (Z * Q)) (acc x : Q) : res Z :=
  match keys with
  | [] => Err IndexError
  | (k, p) :: r => if negb (Qle_bool (acc + p) x) then Ok k else searchsorted r (acc + p)%Q x
  end.
Fixpoint draws (keys : list (Z * Q)) (s : Q) (u : nat -> Q) (i n : nat) : res (list Z) :=
  match n with
  | O => Ok []
  | S m => let* t := searchsorted keys 0 (u i * s) in let* r := draws keys s u (S i) m in Ok (t :: r)
  end.
Definition np_choice (keys : list (Z * Q)) (u : nat -> Q) (i n : nat) : res (list Z) :=
  let ps := map snd keys in
  if existsb qneg ps then Err ValueError
  else if negb (Qle_bool (Qabs (qsum ps - 1)) (1 # 67108864)) then Err ValueError
  else draws keys (qsum ps) u i n.

(** [for k, e in enumerate(es): eTypes[e] = values[k]], then all types are set. *)
Fixpoint set_types (l : list ((nat * nat) * Z)) (d : dgraph) : res dgraph :=
  match l with
  | [] => Ok d
  | (e, t) :: r => let* d' := set_type e t d in set_types r d'
  end.
Definition loop_edge (e : nat * nat) : bool := Nat.eqb (fst e) (snd e).
Definition third : Q := 1 # 3.
Definition quarter : Q := 1 # 4.
Definition default_props : list (Z * Q) := [(1, third); (2, third); (3, third)].
Definition default_loop_props : list (Z * Q) := [(0, quarter); (1, quarter); (2, quarter); (3, quarter)].
Fixpoint typed_edges (ts : list ((nat * nat) * Z)) (es : list (nat * nat)) : res (list ((nat * nat) * Z)) :=
  match es with
  | [] => Ok []
  | e :: r => let* t := of_option KeyError (mget peqb ts e) in let* l := typed_edges ts r in Ok ((e, t) :: l)
  end.
Definition types_random (d : dgraph) (props lprops : option (list (Z * Q))) (u : nat -> Q) : res dgraph :=
  let props := match props with Some p => p | None => default_props end in
  let lprops := match lprops with Some p => p | None => default_loop_props end in
  let es := filter (fun e => negb (loop_edge e)) (g_edges (dg_g d)) in
  let ls := filter loop_edge (g_edges (dg_g d)) in
  if negb (isclose (qsum (map snd props)) 1) then Err ValueError
  else if negb (isclose (qsum (map snd lprops)) 1) then Err ValueError
  else
    let* v1 := np_choice props u 0 (length es) in
    let* v2 := np_choice lprops u (length es) (length ls) in
    let types := combine es v1 ++ combine ls v2 in
    let* l := typed_edges types (g_edges (dg_g d)) in
    set_types l (no_types d).
Definition set_types_random (gi : graph_in) (props lprops : option (list (Z * Q))) (u : nat -> Q) : res dgraph :=
  let* d := test_graph gi in types_random d props lprops u.

(** ** generate_random_graph (graph_generation.py:54-116).

    [u i] is the i-th uniform number after the positions have been drawn;
    [w] are the numbers that [set_types_random] draws, which may have been
    seeded again. *)
Fixpoint add_loops (vs : list nat) (prob : Q) (u : nat -> Q) (i : nat) (d : dgraph) : nat * dgraph :=
  match vs with
  | [] => (i, d)
  | v :: r =>
    if is_edge d (v, v) then add_loops r prob u i d
    else add_loops r prob u (S i) (if negb (Qle_bool prob (u i)) then dg_add d v v else d)
  end.
Definition generate_random_graph (n : nat) (prob : Q) (dist : nat -> nat -> Z) (props lprops : option (list (Z * Q))) (u w : nat -> Q) : res dgraph :=
  let* d := minimal_graph n dist in
  let '(_, d') := add_loops (g_nodes (dg_g d)) prob u 0 d in
  types_random d' props lprops w.

(** ** set_types_rank (graph_generation.py:329-426)

    [near v k] is the distance between vertex [v] and the k-th random point
    (lines 387-394), as the code computes it; the positions come from the
    graph or from [nx.spring_layout] and are not modelled.  Vertices are
    indices into [rank]. *)
Fixpoint zinsert (x : Z) (l : list Z) : list Z :=
  match l with
  | [] => [x]
  | y :: r => if x <=? y then x :: l else y :: zinsert x r
  end.
Definition zsort (l : list Z) : list Z := fold_right zinsert [] l.
(** [l[i]] for an integer that may be negative. *)
Definition pyget {A} (l : list A) (i : Z) : res A :=
  let j := if i <? 0 then i + Z.of_nat (length l) else i in
  if j <? 0 then Err IndexError else of_option IndexError (get l (Z.to_nat j)).
(** [np.where(rank >= x)[0]] *)
Definition where_ge (rank : list Z) (x : Z) : list nat :=
  map fst (filter (fun p => x <=? snd p) (combine (seq 0 (length rank)) rank)).
Definition memn (x : nat) (l : list nat) : bool := existsb (Nat.eqb x) l.
(** The loop of lines 396-400 for one point: the last vertex, in the order of
    [g.nodes()], among the nearest that are not destinations.  The entry
    starts as 1. *)
Fixpoint nearest (near : nat -> ext) (dests vs : list nat) (best : ext) (ind : nat) : nat :=
  match vs with
  | [] => ind
  | v :: r =>
    if memn v dests then nearest near dests r best ind
    else let m := emin (near v) best in
         nearest near dests r m (if eeqb m (near v) then v else ind)
  end.
(** Lines 405-413. *)
Fixpoint rank_loops (vs dests fcqs : list nat) (d : dgraph) : dgraph :=
  match vs with
  | [] => d
  | v :: r =>
    rank_loops r dests fcqs (if memn v dests || memn v fcqs then (if is_edge d (v, v) then d else dg_add d v v) else d)
  end.
(** Lines 415-417. *)
Fixpoint all_one (es : list (nat * nat)) (d : dgraph) : res dgraph :=
  match es with
  | [] => Ok d
  | e :: r => let* d' := set_type e 1 d in all_one r d'
  end.
(** Lines 419-425; the property [loop_type] of [v] is 3, 2 or None. *)
Fixpoint loop_types (vs dests fcqs : list nat) (d : dgraph) : res dgraph :=
  match vs with
  | [] => Ok d
  | v :: r =>
    let* d' := if memn v dests then set_type (v, v) 3 d else if memn v fcqs then set_type (v, v) 2 d else Ok d in
    loop_types r dests fcqs d'
  end.
Definition set_types_rank (gi : graph_in) (rank : list Z) (p2 p3 : Q) (near : nat -> nat -> ext) : res dgraph :=
  let* d := test_graph gi in
  let nV := g_nodes (dg_g d) in
  let n := inject_Z (Z.of_nat (length nV)) in
  let tmp := zsort rank in
  let nDests := Qceiling (n * p2) in
  let* x := pyget tmp (- nDests) in
  let dests := where_ge rank x in
  let* _ := if forallb (fun v => mhas Nat.eqb (dg_g d) v) dests then Ok tt else Err KeyError in
  let nF := Z.quot (Qnum (p3 * n)) (Zpos (Qden (p3 * n))) in
  let* _ := if nF <? 0 then Err ValueError else Ok tt in
  let fcqs := map (fun k => nearest (fun v => near v k) dests nV Inf 1%nat) (seq 0 (Z.to_nat nF)) in
  let d1 := rank_loops nV dests fcqs d in
  let* d2 := all_one (g_edges (dg_g d1)) (no_types d1) in
  loop_types nV dests fcqs d2.

(** ** generate_pagerank_graph (graph_generation.py:119-178)

    [pr] is [nx.pagerank], not modelled: a dictionary from vertices to
    numbers. *)
Fixpoint put_ranks (l : list (nat * Z)) (r : list Z) : res (list Z) :=
  match l with
  | [] => Ok r
  | (k, x) :: l' => let* r' := of_option IndexError (set r k x) in put_ranks l' r'
  end.
Definition generate_pagerank_graph (n : nat) (dist : nat -> nat -> Z) (pr : dgraph -> list (nat * Z)) (p2 p3 : Q) (near : nat -> nat -> ext) : res dgraph :=
  let* d := minimal_graph n dist in
  let* r := put_ranks (pr d) (repeat 0 n) in
  set_types_rank (GIndexed d) r p2 p3 near.
