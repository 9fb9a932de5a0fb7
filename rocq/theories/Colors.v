(** * Colors: the colours of queues, edges and vertices *)
From Coq Require Import List ZArith QArith Bool Arith Lia.
From Verif Require Import Base Dict Graph GraphNet Queue Network.
Import ListNotations.
Open Scope Z_scope.

(** ** Colours of a queue *)

(** A component of a colour: an exact rational, or [None] for a float NaN. *)
Definition comp : Type := option Q.
Definition color : Type := list comp.
Definition plain_color (l : list Q) : color := map Some l.

(** [colors] and [coloring_sensitivity] of a queue (queue_servers.py:323,
    328-333): by then every colour of the class is there. *)
Record look : Type := mkLook {
  lk_loop : list Q;    (** edge_loop_color *)
  lk_vertex : list Q;  (** vertex_color *)
  lk_fill : list Q;    (** vertex_fill_color *)
  lk_edge : list Q;    (** edge_color *)
  lk_pen : list Q;     (** vertex_pen_color, used by ResourceQueue *)
  lk_sens : Q
}.

(** Python's [min(x, y)]. *)
Definition py_min (x y : Q) : Q := if negb (Qle_bool x y) then y else x.

(** [div] and [tmp] of QueueServer._current_color (queue_servers.py:457-458).
    With infinitely many servers [div] is infinite, or NaN if the sensitivity
    is 0; [min(nan, 1)] is NaN. *)
Definition load_shade (s : Q) (servers : ext) (nsys : Z) : res comp :=
  match servers with
  | Fin n =>
      let div := (s * inject_Z n + 1)%Q in
      if Qeq_bool div 0 then Err ZeroDivisionError else Ok (Some (1 - py_min (inject_Z nsys / div) 1)%Q)
  | Inf => if Qeq_bool s 0 then Ok None else Ok (Some (1 - py_min 0 1)%Q)
  end.
(** [[i * tmp for i in c]] and [color[3] = a]. *)
Definition scaled (tmp : comp) (c : list Q) : color := map (fun i => option_map (fun x => (i * x)%Q) tmp) c.
Definition with_alpha (c : color) (a : Q) : res color := of_option IndexError (set c 3 (Some a)).

(** [tmp / 0.9] of ResourceQueue._current_color (queue_extentions.py:180-183,
    191-194); here inf / inf is NaN. *)
Definition nine : Q := 9 # 10.
Definition server_shade (servers cap : ext) : comp :=
  match servers, cap with
  | Inf, Inf => None
  | Inf, Fin _ => Some ((nine - nine) / nine)%Q
  | Fin _, Inf => Some ((nine - py_min 0 nine) / nine)%Q
  | Fin n, Fin c =>
      let div := if c <=? 1 then 5%Q else (3 * inject_Z c)%Q in
      Some ((nine - py_min (inject_Z n / div) nine) / nine)%Q
  end.

Definition on_loop (q : queue) : bool := Nat.eqb (c_src (q_cfg q)) (c_tgt (q_cfg q)).
(** [_current_color(which)]: QueueServer (queue_servers.py:420-467; also for
    LossQueue and InfoQueue), NullQueue (943-953), ResourceQueue
    (queue_extentions.py:178-203). *)
Definition current_color (l : look) (q : queue) (which : nat) : res color :=
  match c_class (q_cfg q) with
  | CNull =>
      Ok (plain_color match which with
                      | 1%nat => lk_loop l
                      | 2%nat => lk_vertex l
                      | _ => if on_loop q then lk_fill l else lk_edge l
                      end)
  | CResource =>
      let tmp := server_shade (q_servers q) (c_max_servers (q_cfg q)) in
      match which with
      | 1%nat => with_alpha (scaled tmp (lk_loop l)) 0
      | 2%nat => Ok (plain_color (lk_pen l))
      | _ => if on_loop q then with_alpha (scaled tmp (lk_fill l)) 1
             else with_alpha (scaled tmp (lk_edge l)) (1 # 2)
      end
  | _ =>
      match which with
      | 1%nat => Ok (plain_color (lk_loop l))
      | 2%nat => Ok (plain_color (lk_vertex l))
      | _ => let* tmp := load_shade (lk_sens l) (q_servers q) (q_nsys q) in
             if on_loop q then with_alpha (scaled tmp (lk_fill l)) 1
             else with_alpha (scaled tmp (lk_edge l)) (1 # 2)
      end
  end.

(** ** Colours of the graph *)

(** The edge property [edge_color], the vertex properties [vertex_color] and
    [vertex_fill_color].  The lists of the same name that [set_ep] and
    [set_vp] keep beside the properties are in Drawing.v; here a vertex number
    must be below the number of vertices. *)
Record paint : Type := mkPaint {
  pa_edge : list ((nat * nat) * color);
  pa_vertex : list (nat * color);
  pa_fill : list (nat * color)
}.
(** [set_ep(e, 'edge_color', c)], [set_vp(v, ..., c)] (graph_wrapper.py:274-284). *)
Definition set_edge (d : dgraph) (e : nat * nat) (c : color) (p : paint) : res paint :=
  let* _ := ep_type d e in Ok (mkPaint (mput peqb (pa_edge p) e c) (pa_vertex p) (pa_fill p)).
Definition vertex_check (d : dgraph) (v : nat) : res unit :=
  if negb (mhas Nat.eqb (dg_g d) v) then Err KeyError
  else if (v <? length (g_nodes (dg_g d)))%nat then Ok tt else Err IndexError.
Definition set_vertex (d : dgraph) (v : nat) (c : color) (p : paint) : res paint :=
  let* _ := vertex_check d v in Ok (mkPaint (pa_edge p) (mput Nat.eqb (pa_vertex p) v c) (pa_fill p)).
Definition set_fill (d : dgraph) (v : nat) (c : color) (p : paint) : res paint :=
  let* _ := vertex_check d v in Ok (mkPaint (pa_edge p) (pa_vertex p) (mput Nat.eqb (pa_fill p) v c)).

(** The entries [vertex_color] and [vertex_fill_color] of [colors] of the
    network (queue_network.py:279-289, 318-329). *)
Record netlook : Type := mkNetlook { nk_vertex : list Q; nk_fill : list Q }.

(** The loop over the edges of [_prepare_graph] (graph_preparation.py:137-143)
    and of [reset_colors] (queue_network.py:1016-1017): the k-th edge in the
    order of [g.edges()] with [queues[k]].  [lk k] is the look of the queue
    with number [k]. *)
Fixpoint paint_edges (loops : bool) (d : dgraph) (qs : list queue) (lk : nat -> look) (k : nat) (es : list (nat * nat)) (p : paint) : res paint :=
  match es with
  | [] => Ok p
  | e :: r =>
      let* _ := of_option IndexError (get qs k) in
      let c := if loops && Nat.eqb (fst e) (snd e) then lk_loop (lk k) else lk_edge (lk k) in
      let* p := set_edge d e (plain_color c) p in
      paint_edges loops d qs lk (S k) r p
  end.
(** The loop over the vertices (graph_preparation.py:145-154). *)
Fixpoint paint_vertices (d : dgraph) (qs : list queue) (lk : nat -> look) (nl : netlook) (vs : list nat) (p : paint) : res paint :=
  match vs with
  | [] => Ok p
  | v :: r =>
      let* p :=
        if is_edge d (v, v) then
          let* k := index_of d (v, v) in
          let* q := of_option IndexError (get qs k) in
          let* c2 := current_color (lk k) q 2 in
          let* p := set_vertex d v c2 p in
          let* c0 := current_color (lk k) q 0 in
          set_fill d v c0 p
        else
          let* p := set_vertex d v (plain_color (nk_vertex nl)) p in
          set_fill d v (plain_color (nk_fill nl)) p in
      paint_vertices d qs lk nl r p
  end.
Definition prepare_colors (d : dgraph) (qs : list queue) (lk : nat -> look) (nl : netlook) (p : paint) : res paint :=
  let* p := paint_edges true d qs lk 0 (g_edges (dg_g d)) p in
  paint_vertices d qs lk nl (g_nodes (dg_g d)) p.

(** [reset_colors] (queue_network.py:1014-1019). *)
Fixpoint fill_vertices (d : dgraph) (nl : netlook) (vs : list nat) (p : paint) : res paint :=
  match vs with
  | [] => Ok p
  | v :: r => let* p := set_fill d v (plain_color (nk_fill nl)) p in fill_vertices d nl r p
  end.
Definition reset_colors (d : dgraph) (qs : list queue) (lk : nat -> look) (nl : netlook) (p : paint) : res paint :=
  let* p := paint_edges false d qs lk 0 (g_edges (dg_g d)) p in
  fill_vertices d nl (g_nodes (dg_g d)) p.

(** [_update_vertex_color(v)] (queue_network.py:1554-1573); [ins] is
    [in_edges]. *)
Fixpoint in_totals (qs : list queue) (ks : list nat) (nsys : Z) (cap : ext) : res (Z * ext) :=
  match ks with
  | [] => Ok (nsys, cap)
  | k :: r =>
      let* q := of_option IndexError (get qs k) in
      in_totals qs r (nsys + q_nsys q) (eadd cap (q_servers q))
  end.
Definition vertex_shade (nsys : Z) (cap : ext) : res Q :=
  match cap with
  | Fin c =>
      let div := (2 * inject_Z c + 2)%Q in
      if Qeq_bool div 0 then Err ZeroDivisionError else Ok (1 - py_min (inject_Z nsys / div) 1)%Q
  | Inf => Ok (1 - py_min 0 1)%Q
  end.
Definition update_vertex (d : dgraph) (qs : list queue) (ins : list (list nat)) (nl : netlook) (v : nat) (p : paint) : res paint :=
  let loop := is_edge d (v, v) in
  let* k := if loop then index_of d (v, v) else Ok 0%nat in
  let* null := if loop then (let* q := of_option IndexError (get qs k) in Ok (c_type (q_cfg q) =? 0)) else Ok false in
  if negb loop || (loop && null) then
    let* ks := of_option IndexError (get ins v) in
    let* (nsys, cap) := in_totals qs ks 0 (Fin 0) in
    let* tmp := vertex_shade nsys cap in
    let* c := with_alpha (scaled (Some tmp) (nk_fill nl)) 1 in
    let* p := set_fill d v c p in
    if negb loop then set_vertex d v (plain_color (nk_vertex nl)) p else Ok p
  else Ok p.

(** The colours of one edge (the first branches of queue_network.py:1540-1544,
    1582-1591, 1594-1602): [w] is the vertex whose fill colour is set. *)
Definition update_loop (d : dgraph) (l : look) (q : queue) (e : nat * nat) (v w : nat) (p : paint) : res paint :=
  let* c1 := current_color l q 1 in
  let* p := set_edge d e c1 p in
  let* c2 := current_color l q 2 in
  let* p := set_vertex d v c2 p in
  if c_type (q_cfg q) =? 0 then Ok p
  else let* c0 := current_color l q 0 in set_fill d w c0 p.

(** [_update_all_colors] (queue_network.py:1534-1552). *)
Definition update_unless (d : dgraph) (qs : list queue) (ins : list (list nat)) (nl : netlook) (v : nat) (todo : list bool) (p : paint)
    : res (list bool * paint) :=
  let* b := of_option IndexError (get todo v) in
  if b then
    let* p := update_vertex d qs ins nl v p in
    let* todo := of_option IndexError (set todo v false) in
    Ok (todo, p)
  else Ok (todo, p).
Fixpoint update_queues (d : dgraph) (qs : list queue) (lk : nat -> look) (ins : list (list nat)) (nl : netlook) (k : nat) (l : list queue)
    (todo : list bool) (p : paint) : res paint :=
  match l with
  | [] => Ok p
  | q :: r =>
      let u := c_src (q_cfg q) in
      let v := c_tgt (q_cfg q) in
      let* (todo, p) :=
        if Nat.eqb u v then
          let* p := update_loop d (lk k) q (u, v) v v p in
          let* todo := of_option IndexError (set todo v false) in
          Ok (todo, p)
        else
          let* c := current_color (lk k) q 0 in
          let* p := set_edge d (u, v) c p in
          let* (todo, p) := update_unless d qs ins nl v todo p in
          update_unless d qs ins nl u todo p in
      update_queues d qs lk ins nl (S k) r todo p
  end.
Definition update_all_colors (d : dgraph) (qs : list queue) (lk : nat -> look) (ins : list (list nat)) (nl : netlook) (p : paint) : res paint :=
  update_queues d qs lk ins nl 0 qs (repeat true (length (g_nodes (dg_g d)))) p.

(** [_update_graph_colors(qedge)] (queue_network.py:1575-1602); [prev] and
    [cur] are the numbers of the queues at [_prev_edge] and [qedge] (edges are
    always taken from a queue, so source, target and type are the queue's).
    Line 1587 sets the fill colour of [v], the target of the current edge. *)
Definition update_one (d : dgraph) (qs : list queue) (lk : nat -> look) (ins : list (list nat)) (nl : netlook) (k w : nat) (p : paint) : res paint :=
  let* q := of_option IndexError (get qs k) in
  let u := c_src (q_cfg q) in
  let v := c_tgt (q_cfg q) in
  if Nat.eqb u v then update_loop d (lk k) q (u, v) v w p
  else
    let* c := current_color (lk k) q 0 in
    let* p := set_edge d (u, v) c p in
    update_vertex d qs ins nl v p.
Definition update_graph_colors (d : dgraph) (qs : list queue) (lk : nat -> look) (ins : list (list nat)) (nl : netlook)
    (prev : option nat) (cur : nat) (p : paint) : res paint :=
  let* q := of_option IndexError (get qs cur) in
  let v := c_tgt (q_cfg q) in
  let* p := match prev with
            | None => Ok p
            | Some k => update_one d qs lk ins nl k v p
            end in
  update_one d qs lk ins nl cur v p.
