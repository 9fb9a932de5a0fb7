(** * Animate: events with colours, animations, highlighted drawings *)
From Coq Require Import List ZArith QArith Bool Arith.
From Verif Require Import Base Heap PQueue Queue Graph GraphNet Network Colors.
Import ListNotations.
Open Scope Z_scope.

(** A network with the colours of its graph.  [sc_prev] is the number of the
    queue on [_prev_edge] (queue_network.py:318). *)
Record scene : Type := mkScene {
  sc_net : net;
  sc_paint : paint;
  sc_prev : option nat
}.
(** The network of the scene changes, the colours do not. *)
Definition with_net (n : net) (s : scene) : scene := mkScene n (sc_paint s) (sc_prev s).

Section Animation.
  (** The graph, the looks of the queues, [in_edges] and the colours of the
      network; they do not change. *)
  Context (d : dgraph) (lk : nat -> look) (ins : list (list nat)) (nl : netlook).

  (** [self._update_graph_colors(qedge=q.edge); self._prev_edge = q.edge]
      (queue_network.py:1339-1340, 1350-1351, 1374-1375) for the queue [q] with
      number [k]. *)
  Definition recolor (k : nat) (s : scene) : res scene :=
    let* q := queue_at k (sc_net s) in
    let i := c_idx (q_cfg q) in
    let* p := update_graph_colors d (nt_queues (sc_net s)) lk ins nl (sc_prev s) i (sc_paint s) in
    Ok (mkScene (sc_net s) p (Some i)).

  (** The agent moves (queue_network.py:1330-1351 with slow=True). *)
  Definition slow_move (k e1 e2 : nat) (t : ext) (s : scene) : res scene :=
    let n := sc_net s in
    let* q1 := queue_at k n in
    let* (r, q1') := next_event q1 in
    match r with
    | None => Err AttributeError
    | Some a =>
      let n1 := put_queue k q1' n in
      let* q2 := queue_at e2 n1 in
      let* q2' := add_arrival (set_ag_time t a) q2 in
      let n2 := put_queue e2 q2' n1 in
      let* q1 := queue_at k n2 in
      let* n3 := set_count e1 (q_total q1) n2 in
      let* n4 := set_count e2 (q_total q2') n3 in
      let* s4 := recolor k (with_net n4 s) in
      let n5 := put_queue e2 (stop_if_full q2' n4) n4 in
      let* q2 := queue_at e2 n5 in
      let* (_, q2') := next_event q2 in
      let n6 := put_queue e2 q2' n5 in
      let* n7 := set_count e2 (q_total q2') n6 in
      recolor e2 (with_net n7 s4)
    end.

  (** The branch [event == 2] (queue_network.py:1317-1363); a blocked agent
      changes no colours. *)
  Definition slow_departure (k : nat) (t : ext) (s : scene) : res scene :=
    let n := sc_net s in
    let* q1 := queue_at k n in
    let e1 := c_idx (q_cfg q1) in
    let* a := first_departure q1 in
    let* (e2, n1) := desired_destination a (c_tgt (q_cfg q1)) n in
    let* q2 := queue_at e2 n1 in
    let old := q_time q2 in
    let* s2 := if at_capacity q2 && negb (Nat.eqb e2 e1)
               then let* n2 := block_agent k e2 n1 in Ok (with_net n2 s)
               else slow_move k e1 e2 t (with_net n1 s) in
    let* n3 := reschedule k e2 old (sc_net s2) in
    Ok (with_net n3 s2).

  (** The branch [event == 1] (queue_network.py:1365-1379). *)
  Definition slow_arrival (k : nat) (s : scene) : res scene :=
    let n := sc_net s in
    let* q1 := queue_at k n in
    let q1' := stop_if_full q1 n in
    let* (_, q1'') := next_event q1' in
    let n1 := put_queue k q1'' n in
    let* n2 := set_count (c_idx (q_cfg q1)) (q_total q1'') n1 in
    let* s2 := recolor k (with_net n2 s) in
    if eltb (q_time q1'') Inf then let* n3 := net_push (qkey q1'') n2 in Ok (with_net n3 s2) else Ok s2.

  (** [_simulate_next_event(slow=True)] (queue_network.py:1302-1379). *)
  Definition slow_event (s : scene) : res scene :=
    let n := sc_net s in
    if (pq_size (nt_heap n) =? 0)%nat then Ok (with_net (set_nt_t Inf n) s)
    else
      let* (r, h) := pq_pop (nt_heap n) in
      match r with
      | None => Err TypeError
      | Some (t, k) =>
        let n1 := set_nt_heap h n in
        let* q1 := queue_at k n1 in
        let* event := next_event_description q1 in
        let n2 := set_nt_events (nt_events n1 + 1) (set_nt_t t n1) in
        if event =? 2 then slow_departure k t (with_net n2 s)
        else if event =? 1 then slow_arrival k (with_net n2 s)
        else Ok (with_net n2 s)
      end.

  (** [m] frames of [update] in [animate] (queue_network.py:529-540); [stop] is
      [now + t]. *)
  Fixpoint frames (m : nat) (stop : ext) (s : scene) : res scene :=
    match m with
    | O => Ok s
    | S m' =>
      let* s' := if eltb stop (nt_t (sc_net s)) then Ok s else slow_event s in
      frames m' stop s'
    end.

  (** [animate(t=t)] (queue_network.py:411-587) up to the frame [m]; [t] is
      infinity if it is not given.  The figure itself (matplotlib) is not
      modelled: it shows the colours of the graph. *)
  Definition animate (m : nat) (t : ext) (s : scene) : res scene :=
    if nt_init (sc_net s) then
      let* p := update_all_colors d (nt_queues (sc_net s)) lk ins nl (sc_paint s) in
      frames m (eadd (nt_t (sc_net s)) t) (mkScene (sc_net s) p (sc_prev s))
    else Err QueueingToolError.

  (** The entries [vertex_active], [vertex_inactive], [vertex_highlight],
      [edge_active] and [edge_inactive] of [colors] of the network
      (queue_network.py:279-289). *)
  Record marks : Type := mkMarks {
    mk_vactive : list Q; mk_vinactive : list Q; mk_highlight : list Q; mk_eactive : list Q; mk_einactive : list Q
  }.
  (** [[0, 0, 0, 0.9]] *)
  Definition dark : color := plain_color [0; 0; 0; 9 # 10]%Q.

  (** The inner loop of [show_active] (queue_network.py:1164-1169) over the
      edges [es]. *)
  Fixpoint any_active (qs : list queue) (es : list (nat * nat)) : res bool :=
    match es with
    | [] => Ok false
    | e :: r =>
        let* k := index_of d e in
        let* q := of_option IndexError (get qs k) in
        if q_active q then Ok true else any_active qs r
    end.
  (** [g.in_edges(v)].  Simplification: in the order of [g.edges()]; only
      membership matters. *)
  Definition in_edges_of (v : nat) : list (nat * nat) := filter (fun e => Nat.eqb (snd e) v) (g_edges (dg_g d)).
  (** The loop over the vertices of [show_active] (queue_network.py:1161-1173). *)
  Fixpoint mark_active_vertices (qs : list queue) (mk : marks) (vs : list nat) (p : paint) : res paint :=
    match vs with
    | [] => Ok p
    | v :: r =>
        let* p := set_vertex d v dark p in
        let* b := any_active qs (in_edges_of v) in
        let* p := set_fill d v (plain_color (if b then mk_vactive mk else mk_vinactive mk)) p in
        mark_active_vertices qs mk r p
    end.
  (** The loop over the edges of [show_active] (queue_network.py:1175-1180). *)
  Fixpoint mark_active_edges (qs : list queue) (mk : marks) (es : list (nat * nat)) (p : paint) : res paint :=
    match es with
    | [] => Ok p
    | e :: r =>
        let* k := index_of d e in
        let* q := of_option IndexError (get qs k) in
        let* p := set_edge d e (plain_color (if q_active q then mk_eactive mk else mk_einactive mk)) p in
        mark_active_edges qs mk r p
    end.
  (** [show_active] (queue_network.py:1138-1183): the colours that are drawn
      and the colours afterwards. *)
  Definition show_active (qs : list queue) (mk : marks) (p : paint) : res (paint * paint) :=
    let* p := mark_active_vertices qs mk (g_nodes (dg_g d)) p in
    let* shown := mark_active_edges qs mk (g_edges (dg_g d)) p in
    let* p := update_all_colors d qs lk ins nl shown in
    Ok (shown, p).

  (** The loop over the vertices of [show_type] (queue_network.py:1220-1228). *)
  Fixpoint mark_type_vertices (qs : list queue) (mk : marks) (ty : Z) (vs : list nat) (p : paint) : res paint :=
    match vs with
    | [] => Ok p
    | v :: r =>
        let* b := if is_edge d (v, v) then (let* o := ep_type d (v, v) in Ok match o with Some x => x =? ty | None => false end) else Ok false in
        let* p :=
          if b then
            let* k := index_of d (v, v) in
            let* p := set_fill d v (plain_color (mk_highlight mk)) p in
            let* _ := of_option IndexError (get qs k) in
            set_vertex d v (plain_color (lk_vertex (lk k))) p
          else
            let* p := set_fill d v (plain_color (mk_vinactive mk)) p in
            set_vertex d v dark p in
        mark_type_vertices qs mk ty r p
    end.
  (** The loop over the edges of [show_type] (queue_network.py:1230-1234). *)
  Fixpoint mark_type_edges (mk : marks) (ty : Z) (es : list (nat * nat)) (p : paint) : res paint :=
    match es with
    | [] => Ok p
    | e :: r =>
        let* o := ep_type d e in
        let b := match o with Some x => x =? ty | None => false end in
        let* p := set_edge d e (plain_color (if b then mk_eactive mk else mk_einactive mk)) p in
        mark_type_edges mk ty r p
    end.
  (** [show_type] (queue_network.py:1185-1237). *)
  Definition show_type (qs : list queue) (mk : marks) (ty : Z) (p : paint) : res (paint * paint) :=
    let* p := mark_type_vertices qs mk ty (g_nodes (dg_g d)) p in
    let* shown := mark_type_edges mk ty (g_edges (dg_g d)) p in
    let* p := update_all_colors d qs lk ins nl shown in
    Ok (shown, p).
End Animation.
