(** * Drawing: properties of edges and vertices, positions, what is drawn *)
From Coq Require Import List ZArith QArith Bool Arith.
From Verif Require Import Base Dict Graph GraphNet Queue Network Colors.
Import ListNotations.
Open Scope Z_scope.

(** Names of properties.  The first four are also attributes of the class
    (graph_wrapper.py:240-249).  Simplification: no other name is an attribute
    of DiGraph. *)
Inductive pname : Type := NPos | NEdgeColor | NVertexColor | NFillColor | NName (k : nat).
Definition pn_eqb (x y : pname) : bool :=
  match x, y with
  | NPos, NPos | NEdgeColor, NEdgeColor | NVertexColor, NVertexColor | NFillColor, NFillColor => true
  | NName a, NName b => Nat.eqb a b
  | _, _ => false
  end.

(** Values: None, or numbers (a position, a colour, a length) as in Colors. *)
Inductive pval : Type := VNone | VNum (l : list comp).

(** The attribute dictionaries of the edges and vertices, and the arrays
    [pos], [edge_color], [vertex_color], [vertex_fill_color]; an array is
    [None] until it is made.  Simplification: rows of a numpy array are not
    checked to have the right length. *)
Record gprops : Type := mkProps {
  gp_ep : list ((nat * nat) * list (pname * pval));
  gp_vp : list (nat * list (pname * pval));
  gp_pos : option (list pval);
  gp_ecol : option (list pval);
  gp_vcol : option (list pval);
  gp_fill : option (list pval)
}.
(** [self.adj[u][v]], [self.nodes[v]] *)
Definition attrs_e (s : gprops) (e : nat * nat) : list (pname * pval) := match mget peqb (gp_ep s) e with Some l => l | None => [] end.
Definition attrs_v (s : gprops) (v : nat) : list (pname * pval) := match mget Nat.eqb (gp_vp s) v with Some l => l | None => [] end.
Definition put_e (e : nat * nat) (p : pname) (x : pval) (s : gprops) : gprops :=
  mkProps (mput peqb (gp_ep s) e (mput pn_eqb (attrs_e s e) p x)) (gp_vp s) (gp_pos s) (gp_ecol s) (gp_vcol s) (gp_fill s).
Definition put_v (v : nat) (p : pname) (x : pval) (s : gprops) : gprops :=
  mkProps (gp_ep s) (mput Nat.eqb (gp_vp s) v (mput pn_eqb (attrs_v s v) p x)) (gp_pos s) (gp_ecol s) (gp_vcol s) (gp_fill s).

(** [hasattr(self, p)] and [getattr(self, p)] (graph_wrapper.py:276-278). *)
Definition array_of (p : pname) (s : gprops) : option (option (list pval)) :=
  match p with
  | NPos => Some (gp_pos s) | NEdgeColor => Some (gp_ecol s) | NVertexColor => Some (gp_vcol s) | NFillColor => Some (gp_fill s)
  | NName _ => None
  end.
Definition put_array (p : pname) (l : list pval) (s : gprops) : gprops :=
  match p with
  | NPos => mkProps (gp_ep s) (gp_vp s) (Some l) (gp_ecol s) (gp_vcol s) (gp_fill s)
  | NEdgeColor => mkProps (gp_ep s) (gp_vp s) (gp_pos s) (Some l) (gp_vcol s) (gp_fill s)
  | NVertexColor => mkProps (gp_ep s) (gp_vp s) (gp_pos s) (gp_ecol s) (Some l) (gp_fill s)
  | NFillColor => mkProps (gp_ep s) (gp_vp s) (gp_pos s) (gp_ecol s) (gp_vcol s) (Some l)
  | NName _ => s
  end.
(** [attr[i] = value]; None cannot be indexed: TypeError. *)
Definition write_row (p : pname) (i : res nat) (x : pval) (s : gprops) : res gprops :=
  match array_of p s with
  | None => Ok s
  | Some o =>
    let* i := i in
    match o with
    | None => Err TypeError
    | Some l => let* l' := of_option IndexError (set l i x) in Ok (put_array p l' s)
    end
  end.

(** [ep], [vp] (graph_wrapper.py:268-272). *)
Definition ep (d : dgraph) (e : nat * nat) (p : pname) (s : gprops) : res pval :=
  let* _ := ep_type d e in Ok (match mget pn_eqb (attrs_e s e) p with Some x => x | None => VNone end).
Definition vp (d : dgraph) (v : nat) (p : pname) (s : gprops) : res pval :=
  if mhas Nat.eqb (dg_g d) v then Ok (match mget pn_eqb (attrs_v s v) p with Some x => x | None => VNone end) else Err KeyError.
(** [set_ep], [set_vp] (graph_wrapper.py:274-284). *)
Definition set_ep (d : dgraph) (e : nat * nat) (p : pname) (x : pval) (s : gprops) : res gprops :=
  let* _ := ep_type d e in write_row p (index_of d e) x (put_e e p x s).
Definition set_vp (d : dgraph) (v : nat) (p : pname) (x : pval) (s : gprops) : res gprops :=
  if mhas Nat.eqb (dg_g d) v then write_row p (Ok v) x (put_v v p x s) else Err KeyError.

(** [new_vertex_property] (graph_wrapper.py:298-304), [new_edge_property]
    (306-310). *)
Definition zeros (n : nat) : pval := VNum (repeat (Some 0%Q) n).
Definition new_vertex_property (d : dgraph) (p : pname) (s : gprops) : gprops :=
  let s1 := fold_left (fun s v => put_v v p VNone s) (g_nodes (dg_g d)) s in
  match p with
  | NVertexColor | NFillColor => put_array p (repeat (zeros 1) (length (g_nodes (dg_g d)))) s1
  | _ => s1
  end.
Definition new_edge_property (d : dgraph) (p : pname) (s : gprops) : gprops :=
  let s1 := fold_left (fun s e => put_e e p VNone s) (g_edges (dg_g d)) s in
  match p with
  | NEdgeColor => put_array p (repeat (zeros 4) (length (g_edges (dg_g d)))) s1
  | _ => s1
  end.

(** [[pos[v] for v in self.nodes()]] *)
Fixpoint in_node_order (pos : list (nat * pval)) (vs : list nat) : res (list pval) :=
  match vs with
  | [] => Ok []
  | v :: r => let* x := of_option KeyError (mget Nat.eqb pos v) in let* l := in_node_order pos r in Ok (x :: l)
  end.
(** [set_pos(pos)] (graph_wrapper.py:312-316) with a dictionary [pos].
    [nx.set_node_attributes] passes over keys that are not vertices. *)
Definition set_pos (d : dgraph) (pos : list (nat * pval)) (s : gprops) : res gprops :=
  let s1 := fold_left (fun s e => if mhas Nat.eqb (dg_g d) (fst e) then put_v (fst e) NPos (snd e) s else s) pos s in
  let* l := in_node_order pos (g_nodes (dg_g d)) in
  Ok (put_array NPos l s1).

(** What is drawn: the segments and colours of the LineCollection, the points,
    fill colours and borders of the scatter. *)
Record picture : Type := mkPicture {
  pi_segments : list (pval * pval);
  pi_lines : option (list pval);
  pi_points : list pval;
  pi_fills : option (list pval);
  pi_borders : option (list pval)
}.
(** The loop over the edges (graph_wrapper.py:462-465); [edge_pos] starts with
    zeros. *)
Fixpoint put_segments (d : dgraph) (pos : list pval) (es : list (nat * nat)) (acc : list (pval * pval)) : res (list (pval * pval)) :=
  match es with
  | [] => Ok acc
  | e :: r =>
    let* i := index_of d e in
    let* a := of_option IndexError (get pos (fst e)) in
    let* b := of_option IndexError (get pos (snd e)) in
    let* acc := of_option IndexError (set acc i (a, b)) in
    put_segments d pos r acc
  end.
(** [lines_scatter_args(pos=pos)] (graph_wrapper.py:427-512); [layout] is what
    [nx.spring_layout] returns.  The entries of [line_kwargs] and
    [scatter_kwargs] that replace the defaults are in Options.v. *)
Definition lines_scatter_args (d : dgraph) (layout : list (nat * pval)) (pos : option (list (nat * pval))) (s : gprops) : res (picture * gprops) :=
  let* s := match pos, gp_pos s with
            | Some p, _ => set_pos d p s
            | None, None => set_pos d layout s
            | None, Some _ => Ok s
            end in
  let* arr := of_option TypeError (gp_pos s) in
  let* segs := put_segments d arr (g_edges (dg_g d)) (repeat (VNone, VNone) (length (g_edges (dg_g d)))) in
  Ok (mkPicture segs (gp_ecol s) arr (gp_fill s) (gp_vcol s), s).

(** [add_edge_lengths] (graph_preparation.py:11-46) on a graph with the
    properties [s]; [dist] is [np.round(_calculate_distance(x, y), 3)]
    (graph_functions.py:7-17), which raises for None.  'edge_length' is the
    name number 0. *)
Definition n_length : pname := NName 0.
Fixpoint put_lengths (d : dgraph) (dist : pval -> pval -> res pval) (es : list (nat * nat)) (s : gprops) : res gprops :=
  match es with
  | [] => Ok s
  | e :: r =>
    let* a := vp d (snd e) NPos s in
    let* b := vp d (fst e) NPos s in
    let* x := dist a b in
    let* s := set_ep d e n_length x s in
    put_lengths d dist r s
  end.
Definition add_edge_lengths (d : dgraph) (dist : pval -> pval -> res pval) (s : gprops) : res gprops :=
  put_lengths d dist (g_edges (dg_g d)) (new_edge_property d n_length s).

(** ** The properties of the graph of a network *)

(** [QueueNetworkDiGraph(g)] (graph_wrapper.py:240-249): [pos] is made if every
    vertex has a position. *)
Definition pos_attrs (d : dgraph) (s : gprops) : list (nat * pval) :=
  flat_map (fun v => match mget pn_eqb (attrs_v s v) NPos with Some x => [(v, x)] | None => [] end) (g_nodes (dg_g d)).
Definition new_arrays (d : dgraph) (s : gprops) : res gprops :=
  let pos := pos_attrs d s in
  let* arr := if (length pos =? length (g_nodes (dg_g d)))%nat then (let* l := in_node_order pos (g_nodes (dg_g d)) in Ok (Some l)) else Ok None in
  Ok (mkProps (gp_ep s) (gp_vp s) arr None None None).
(** [_prepare_graph] (graph_preparation.py:112-135) for the properties: with
    [adjust] the graph [d] is made anew from the edges of the graph [d0], and
    only the positions are kept.  'vertex_pen_width', 'vertex_size',
    'edge_control_points', 'edge_marker_size' and 'edge_pen_width' are the
    names 1 to 5.  Edge properties other than the type are not kept here. *)
Definition no_props : gprops := mkProps [] [] None None None None.
Definition prepare_props (adjust : bool) (d0 d : dgraph) (layout : list (nat * pval)) (s : gprops) : res gprops :=
  let* s := if adjust then
              match pos_attrs d0 s with
              | [] => Ok no_props
              | pos => set_pos d pos no_props
              end
            else Ok s in
  let s := new_vertex_property d NVertexColor s in
  let s := new_vertex_property d NFillColor s in
  let s := new_vertex_property d (NName 1) s in
  let s := new_vertex_property d (NName 2) s in
  let s := new_edge_property d (NName 3) s in
  let s := new_edge_property d NEdgeColor s in
  let s := new_edge_property d (NName 4) s in
  let s := new_edge_property d (NName 5) s in
  match pos_attrs d s with
  | [] => set_pos d layout s
  | _ => Ok s
  end.

(** One assignment of a colour, as Colors makes them to a [paint], made to the
    properties. *)
Inductive write : Type := WEdge (e : nat * nat) (c : color) | WVertex (v : nat) (c : color) | WFill (v : nat) (c : color).
Definition write_paint (d : dgraph) (w : write) (p : paint) : res paint :=
  match w with WEdge e c => set_edge d e c p | WVertex v c => set_vertex d v c p | WFill v c => set_fill d v c p end.
Definition write_props (d : dgraph) (w : write) (s : gprops) : res gprops :=
  match w with
  | WEdge e c => set_ep d e NEdgeColor (VNum c) s
  | WVertex v c => set_vp d v NVertexColor (VNum c) s
  | WFill v c => set_vp d v NFillColor (VNum c) s
  end.
Fixpoint writes {A} (f : write -> A -> res A) (ws : list write) (x : A) : res A :=
  match ws with [] => Ok x | w :: r => let* x := f w x in writes f r x end.
