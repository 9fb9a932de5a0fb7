(** * GraphNet: QueueNetworkDiGraph, _prepare_graph and the construction of
      a QueueNetwork *)
From Coq Require Import List ZArith QArith Bool Arith Lia.
From Verif Require Import Base Dict UnionFind Graph Heap PQueue Queue Network.
Import ListNotations.
Open Scope Z_scope.

(** ** Edge indices *)

Definition peqb (p q : nat * nat) : bool := Nat.eqb (fst p) (fst q) && Nat.eqb (snd p) (snd q).
(** The order of Python on pairs. *)
Definition pleb (p q : nat * nat) : bool :=
  (fst p <? fst q)%nat || (Nat.eqb (fst p) (fst q) && (snd p <=? snd q)%nat).
(** [sorted] on a list of pairs. *)
Fixpoint pinsert (p : nat * nat) (l : list (nat * nat)) : list (nat * nat) :=
  match l with
  | [] => [p]
  | q :: r => if pleb p q then p :: l else q :: pinsert p r
  end.
Definition psort (l : list (nat * nat)) : list (nat * nat) := fold_right pinsert [] l.

(** [enumerate] as a dictionary from elements to positions. *)
Definition enumerate_dict (l : list (nat * nat)) : list ((nat * nat) * nat) := combine l (seq 0 (length l)).

(** A QueueNetworkDiGraph: the graph, [edge_index] and [_nE]. *)
Record dgraph : Type := mkDg {
  dg_g : list (nat * list (nat * option Z));
  dg_index : list ((nat * nat) * nat);
  dg_next : nat
}.

(** [QueueNetworkDiGraph(data)] for a DiGraph (graph_wrapper.py:231-250). *)
Definition dg_new (g : graph) : dgraph :=
  let g1 := from_dod g in
  mkDg g1 (enumerate_dict (psort (g_edges g1))) (length (g_edges g1)).

(** [is_edge], [edge_index[e]], [ep(e, 'edge_type')] (graph_wrapper.py:255-269). *)
Definition is_edge (d : dgraph) (e : nat * nat) : bool := mhas peqb (dg_index d) e.
Definition index_of (d : dgraph) (e : nat * nat) : res nat := of_option KeyError (mget peqb (dg_index d) e).
Definition ep_type (d : dgraph) (e : nat * nat) : res (option Z) :=
  let* r := nget (dg_g d) (fst e) in nget r (snd e).

(** [add_edge] (graph_wrapper.py:258-263). *)
Definition dg_add (d : dgraph) (u v : nat) : dgraph :=
  let g := g_edge (dg_g d) u v None in
  if mhas peqb (dg_index d) (u, v) then mkDg g (dg_index d) (dg_next d)
  else mkDg g (mput peqb (dg_index d) (u, v) (dg_next d)) (S (dg_next d)).
Definition dg_adds (d : dgraph) (l : list (nat * nat)) : dgraph := fold_left (fun d e => dg_add d (fst e) (snd e)) l d.

(** [get_edge_type] (graph_wrapper.py:318-354). *)
Definition get_edge_type (d : dgraph) (t : Z) : list (nat * nat) :=
  filter (fun e => match ep_type d e with Ok (Some x) => x =? t | _ => false end) (g_edges (dg_g d)).

(** ** Queues on the edges *)

(** The keyword arguments of one edge type: [num_servers] if it is there,
    and the others.  The functions are given per queue, because in Python
    their values depend on the random state and hence on the call. *)
Record qargs : Type := mkArgs {
  qa_servers : option pynum;
  qa_arr : nat -> nat -> ext -> ext;
  qa_srv : nat -> nat -> ext -> ext;
  qa_factory : option kind;
  qa_active_cap : ext;
  qa_deactive_t : ext;
  qa_buffer : option ext;
  qa_collect : bool;
  qa_net_size : nat
}.
Definition with_servers (n : pynum) (a : qargs) : qargs :=
  mkArgs (Some n) (qa_arr a) (qa_srv a) (qa_factory a) (qa_active_cap a) (qa_deactive_t a) (qa_buffer a) (qa_collect a) (qa_net_size a).

(** The constructors with their default arguments (queue_servers.py:278-282,
    825-829, 908-913; queue_extentions.py:88-97, 287-290). *)
Definition default_servers (c : qclass) : pynum := match c with CResource => PInt 10 | _ => PInt 1 end.
Definition default_factory (c : qclass) : kind :=
  match c with CResource => KResource | CInfo => KInfo | _ => KAgent end.
Definition default_buffer (c : qclass) : ext := match c with CInfo => Inf | _ => Fin 0 end.
Definition double (e : ext) : ext := match e with Fin z => Fin (2 * z) | Inf => Inf end.
Definition make_queue (c : qclass) (a : qargs) (u v idx : nat) (t : Z) : res queue :=
  let* s := ctor_ok (match qa_servers a with Some n => n | None => default_servers c end) in
  let cfg := mkCfg c u v idx t (qa_arr a idx) (qa_srv a idx)
    (match qa_factory a with Some k => k | None => default_factory c end)
    (qa_active_cap a) (qa_deactive_t a)
    (match qa_buffer a with Some b => b | None => default_buffer c end) (double s) in
  Ok (new_queue cfg s (qa_collect a) (qa_net_size a)).

Definition zget {V} (d : list (Z * V)) (k : Z) : res V := of_option KeyError (mget Z.eqb d k).

(** The body of the loop of [_set_queues] (graph_preparation.py:162-170).
    [caps] are the values of the vertex property [cap]. *)
Definition cap_of (caps : list (nat * Z)) (v : nat) : Z := match mget Nat.eqb caps v with Some c => c | None => 0 end.
Definition queue_on (d : dgraph) (cls : list (Z * qclass)) (caps : list (nat * Z)) (e : nat * nat)
    (args : list (Z * qargs)) (qs : list (option queue)) : res (list (Z * qargs) * list (option queue)) :=
  let* t := ep_type d e in
  let* t := of_option KeyError t in
  let* k := index_of d e in
  let* a := zget args t in
  let has_cap := match caps with [] => false | _ => true end in
  let a' := match qa_servers a with
            | None => if has_cap then with_servers (PInt (Z.max (cap_of caps (snd e)) 1)) a else a
            | Some _ => a
            end in
  let args' := mput Z.eqb args t a' in
  let* c := zget cls t in
  let* q := make_queue c a' (fst e) (snd e) k t in
  let* qs' := of_option IndexError (set qs k (Some q)) in
  Ok (args', qs').
Fixpoint queues_on (d : dgraph) (cls : list (Z * qclass)) (caps : list (nat * Z)) (es : list (nat * nat))
    (args : list (Z * qargs)) (qs : list (option queue)) : res (list (option queue)) :=
  match es with
  | [] => Ok qs
  | e :: r =>
    let* (args', qs') := queue_on d cls caps e args qs in
    queues_on d cls caps r args' qs'
  end.
(** The placeholders [0] of line 160 are [None]; one that is left is Corrupt. *)
Fixpoint all_some {A} (l : list (option A)) : res (list A) :=
  match l with
  | [] => Ok []
  | o :: r => let* x := of_option Corrupt o in let* r' := all_some r in Ok (x :: r')
  end.
Definition set_queues (d : dgraph) (cls : list (Z * qclass)) (caps : list (nat * Z)) (args : list (Z * qargs)) : res (list queue) :=
  let n := length (g_edges (dg_g d)) in
  let* l := queues_on d cls caps (g_edges (dg_g d)) args (repeat None n) in
  all_some l.

(** [_test_graph] (graph_functions.py:20-43) on a QueueNetworkDiGraph, on
    another DiGraph and on a dictionary (which goes through
    [adjacency2graph], graph_wrapper.py:232-235).  Matrices, which networkx
    converts, are not modelled. *)
Inductive graph_in : Type :=
| GIndexed (d : dgraph)
| GGraph (g : list (nat * list (nat * option Z)))
| GDict (a : adj_in).
Definition test_graph (g : graph_in) : res dgraph :=
  match g with
  | GIndexed d => Ok d
  | GGraph g => Ok (dg_new g)
  | GDict a => let* g := adjacency2graph a TNone 1 in Ok (dg_new g)
  end.

(** The first part of [_prepare_graph] (graph_preparation.py:112-119): the
    graph of the network.  [adjacency2graph] with [adjust=2]. *)
Definition network_graph (gi : graph_in) (adjust : bool) : res dgraph :=
  let* d := test_graph gi in
  if adjust then (let* g := adjacency2graph (ADicts (dg_g d)) TNone 2 in Ok (dg_new g)) else Ok d.

(** [_prepare_graph] (graph_preparation.py:49-155).  [adjacency2graph] makes
    a graph without vertex properties, so [caps] is only there if the graph
    is not adjusted.  Colours and positions are not part of the result: every
    queue has all colours of its class (queue_servers.py:328-333), which are
    assumed to have four components (the colours are in Colors.v). *)
Definition prepare_graph (gi : graph_in) (adjust : bool) (cls : list (Z * qclass)) (caps : list (nat * Z)) (args : list (Z * qargs)) : res (dgraph * list queue) :=
  let* d := network_graph gi adjust in
  let* qs := set_queues d cls (if adjust then [] else caps) args in
  Ok (d, qs).

(** Out-edges and in-edges of all vertices (queue_network.py:356-367):
    [out_edges[v]] needs [v < nV]. *)
Definition out_pairs (g : graph) (v : nat) : list (nat * nat) := filter (fun e => Nat.eqb (fst e) v) (g_edges g).
Definition in_pairs (g : graph) (v : nat) : list (nat * nat) := filter (fun e => Nat.eqb (snd e) v) (g_edges g).
Fixpoint indices (d : dgraph) (l : list (nat * nat)) : res (list nat) :=
  match l with
  | [] => Ok []
  | e :: r => let* k := index_of d e in let* ks := indices d r in Ok (k :: ks)
  end.
Fixpoint wire (pairs_of : graph -> nat -> list (nat * nat)) (d : dgraph) (vs : list nat) (acc : list (list nat)) : res (list (list nat)) :=
  match vs with
  | [] => Ok acc
  | v :: r =>
    let* ks := indices d (psort (pairs_of (dg_g d) v)) in
    let* acc' := of_option IndexError (set acc v ks) in
    wire pairs_of d r acc'
  end.

(** [default_classes] and the completion of the arguments
    (queue_network.py:291-297, 331-345).  The order of keys does not matter. *)
Definition default_classes : list (Z * qclass) := [(0, CNull); (1, CServer); (2, CLoss); (3, CLoss); (4, CLoss)].
Definition with_defaults {V} (d dflt : list (Z * V)) : list (Z * V) :=
  d ++ filter (fun p => negb (mhas Z.eqb d (fst p))) dflt.

(** [QueueNetwork(g, ...)] (queue_network.py:307-370) for a graph [g], the
    vertex property [cap], [q_classes] ([[]] for None), [q_args] and the
    arguments [no_args] that an empty dictionary stands for.  The in-edges
    are returned too. *)
Definition complete_args (cls : list (Z * qclass)) (args : option (list (Z * qargs))) (no_args : qargs) : list (Z * qargs) :=
  match args with
  | None => map (fun k => (k, no_args)) [0; 1; 2; 3; 4]
  | Some l => with_defaults l (map (fun p => (fst p, no_args)) cls)
  end.
Definition make_network (gi : graph_in) (adjust : bool) (cls : list (Z * qclass)) (caps : list (nat * Z)) (args : option (list (Z * qargs))) (no_args : qargs)
    (max : ext) (bas : bool) (junk : ext * nat) (u : nat -> Q) (eps : nat -> Z) : res (net * dgraph * list (list nat)) :=
  let cls' := with_defaults cls default_classes in
  let* (d, qs) := prepare_graph gi adjust cls' caps (complete_args cls' args no_args) in
  let nV := length (g_nodes (dg_g d)) in
  let* out := wire out_pairs d (g_nodes (dg_g d)) (repeat [] nV) in
  let* ins := wire in_pairs d (g_nodes (dg_g d)) (repeat [] nV) in
  Ok (new_net qs out max bas junk u eps, d, ins).
