(** * GraphRead: functions that read graphs and agents *)
From Coq Require Import List ZArith QArith Bool Arith.
From Verif Require Import Base Dict Graph GraphNet Queue Network Colors Drawing.
Import ListNotations.
Open Scope Z_scope.

(** [out_neighbours] (graph_wrapper.py:265-266) of a vertex.  For anything
    else networkx raises; this is not modelled. *)
Definition out_neighbours (d : dgraph) (v : nat) : list nat := map snd (out_pairs (dg_g d) v).

(** [props.update(keys)] for a set of names. *)
Definition add_names (acc l : list pname) : list pname :=
  fold_left (fun acc p => if existsb (pn_eqb p) acc then acc else acc ++ [p]) l acc.

(** [vertex_properties] (graph_wrapper.py:286-290). *)
Definition vertex_properties (d : dgraph) (s : gprops) : list pname :=
  fold_left (fun acc v => add_names acc (map fst (attrs_v s v))) (g_nodes (dg_g d)) [].

(** [edge_properties] (graph_wrapper.py:292-296).  The type of an edge is kept
    in the graph: the result is whether 'edge_type' is among the names, and
    the other names.  As everywhere, a type None counts as missing. *)
Definition edge_properties (d : dgraph) (s : gprops) : bool * list pname :=
  (existsb (fun e => match ep_type d e with Ok (Some _) => true | _ => false end) (g_edges (dg_g d)),
   fold_left (fun acc e => add_names acc (map fst (attrs_e s e))) (g_edges (dg_g d)) []).

(** [InfoAgent.get_beliefs] (queue_extentions.py:244-245). *)
Definition get_beliefs (a : agent) : list Q := map nr_load (ag_net a).
