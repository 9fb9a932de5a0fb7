(** * PropsDrawing: claims about properties, positions and pictures (C73-C76) *)
From Coq Require Import List ZArith QArith Qabs Bool Arith Lia.
From Verif Require Import Base Dict UnionFind UnionFindProofs Graph SpecGraph GraphProofs GraphClaims GraphNet GraphIndex Queue SpecQueue Network NetSteps SpecNet SpecBuild GraphBuild PropsBuild Colors ColorProofs PaintProofs PropsColor Animate AnimateProofs PropsAnimate Drawing DrawProofs DrawNet DrawMake.
Import ListNotations.
Open Scope Z_scope.

(** ** C73: the picture of a graph *)

(** A picture with positions [pos]: every edge is a line from the place of its
    source to the place of its target, every vertex a point at its place, and
    the places are kept.  Missing: vertices that [g.nodes()] does not give in
    the order 0, 1, 2, ... ([C73_order_refuted], [C73_labels_refuted]). *)
Theorem C73_picture_partial d layout pos P s : dwf d -> nodes_in_order d -> covers d pos P -> exists pic s',
  lines_scatter_args d layout (Some pos) s = Ok (pic, s') /\
  length (pi_segments pic) = length (g_edges (dg_g d)) /\ (forall u v k, In ((u, v), k) (dg_index d) -> get (pi_segments pic) k = Some (P u, P v)) /\
  length (pi_points pic) = length (g_nodes (dg_g d)) /\ (forall v, vertex (dg_g d) v -> get (pi_points pic) v = Some (P v) /\ vp d v NPos s' = Ok (P v)) /\
  (forall e p, ep d e p s' = ep d e p s) /\ (forall v p, p <> NPos -> vp d v p s' = vp d v p s) /\
  pi_lines pic = gp_ecol s /\ pi_fills pic = gp_fill s /\ pi_borders pic = gp_vcol s /\ (forall layout', lines_scatter_args d layout' None s' = Ok (pic, s')).
Proof.
  intros W IO CV. destruct (set_pos_ok d pos P s CV) as (s' & l & E & A & F & B & C & D & G).
  assert (AL : gp_pos s' = Some l) by (cbn in A; congruence).
  assert (L : length l = length (g_nodes (dg_g d))) by (symmetry; apply (Forall2_len _ _ _ F)).
  destruct (picture_ok d l s' W (nodes_small d IO) AL L layout) as (segs & E1 & L1 & S1).
  exists (mkPicture segs (gp_ecol s') l (gp_fill s') (gp_vcol s')), s'. cbn [pi_segments pi_points pi_lines pi_fills pi_borders].
  split; [rewrite picture_with, E; exact E1|]. split; [exact L1|]. split; [|split; [exact L|split; [|split; [|split; [|split; [|split; [|split]]]]]]].
  - intros u v k I. destruct (S1 u v k I) as (a & b & X & Y & Z). assert (R := index_arc _ _ _ _ W I).
    assert (Vu : vertex (dg_g d) u) by (destruct R as (x & r & R & _); apply in_map_iff; exists (u, r); auto).
    assert (Vv : vertex (dg_g d) v) by (destruct R as (x & R); apply (dw_closed _ W) in R; exact R).
    rewrite (rows_at d P l u F IO Vu) in X. rewrite (rows_at d P l v F IO Vv) in Y. congruence.
  - intros v V. split; [apply (rows_at d P l v F IO V)|]. rewrite vp_ok by exact V. rewrite G by exact V. reflexivity.
  - intros e p. apply ep_same. apply B.
  - intros v p N. apply vp_same. apply D. exact N.
  - assert (X := C NEdgeColor). cbn in X. specialize (X ltac:(discriminate)). congruence.
  - assert (X := C NFillColor). cbn in X. specialize (X ltac:(discriminate)). congruence.
  - assert (X := C NVertexColor). cbn in X. specialize (X ltac:(discriminate)). congruence.
  - intro layout'. unfold lines_scatter_args in *. rewrite AL in *. cbn [bind] in *. rewrite AL in *. exact E1.
Qed.
Print Assumptions C73_picture_partial.

(** In any order of the vertices, if they are called 0, ..., n-1: lines and
    points fit, but vertex [v] is drawn at the place of the [v]-th vertex. *)
Theorem C73_any_partial d layout pos P s : dwf d -> (forall v, vertex (dg_g d) v -> (v < length (g_nodes (dg_g d)))%nat) -> covers d pos P -> exists pic s',
  lines_scatter_args d layout (Some pos) s = Ok (pic, s') /\
  let at_ v := P (nth v (g_nodes (dg_g d)) 0%nat) in
  (forall u v k, In ((u, v), k) (dg_index d) -> get (pi_segments pic) k = Some (at_ u, at_ v)) /\ (forall v, vertex (dg_g d) v -> get (pi_points pic) v = Some (at_ v)).
Proof.
  intros W SM CV. destruct (set_pos_ok d pos P s CV) as (s' & l & E & A & F & B & C & D & G).
  assert (R : rows_are d P s') by (eapply rows_array; eassumption). destruct (located_any d P s' SM R) as (l' & AL & L & AT).
  destruct (picture_ok d l' s' W SM AL L layout) as (segs & E1 & L1 & S1). exists (mkPicture segs (gp_ecol s') l' (gp_fill s') (gp_vcol s')), s'.
  split; [rewrite picture_with, E; exact E1|]. cbv zeta. cbn [pi_segments pi_points]. split; [|exact AT].
  intros u v k I. destruct (S1 u v k I) as (a & b & X & Y & Z). assert (K := index_arc _ _ _ _ W I).
  assert (Vu : vertex (dg_g d) u) by (destruct K as (x & r & K & _); apply in_map_iff; exists (u, r); auto).
  assert (Vv : vertex (dg_g d) v) by (destruct K as (x & K); apply (dw_closed _ W) in K; exact K).
  rewrite (AT u Vu) in X. rewrite (AT v Vv) in Y. congruence.
Qed.
Print Assumptions C73_any_partial.

(** Without positions the layout of networkx is used, once. *)
Theorem C73_layout d layout s : gp_pos s = None -> lines_scatter_args d layout None s = lines_scatter_args d layout (Some layout) s.
Proof. apply picture_first. Qed.
Print Assumptions C73_layout.

Definition at_xy (x y : Z) : pval := VNum [Some (inject_Z x); Some (inject_Z y)].
Definition pos3 : list (nat * pval) := [(0%nat, at_xy 0 0); (1%nat, at_xy 1 0); (2%nat, at_xy 0 1)].
Definition d73 : dgraph := dg_new [(0, [(1, Some 1%Z)]); (1, [(2, Some 1%Z)]); (2, [(0, Some 1%Z)])]%nat.
Example C73_ex : dwf d73 /\ nodes_in_order d73 /\ covers d73 pos3 (fun v => nth v (map snd pos3) VNone) /\
  match lines_scatter_args d73 [] (Some pos3) no_props with
  | Ok (pic, _) => get (pi_segments pic) 1 = Some (at_xy 1 0, at_xy 0 1)
  | Err _ => False
  end.
Proof.
  split; [|split; [reflexivity|split; [split|vm_compute; reflexivity]]].
  - apply dg_new_ok. split; [repeat constructor; cbn; intuition congruence|]. intros u r [H|[H|[H|[]]]]; injection H as <- <-; repeat constructor; intros [].
  - repeat constructor; cbn; intuition congruence.
  - intros v [<-|[<-|[<-|[]]]]; cbn; auto.
Qed.

(** [nx.DiGraph([(0, 2), (2, 1)])] has the vertices 0, 2, 1 in this order: the
    vertices 1 and 2 are drawn at each other's place. *)
Theorem C73_order_refuted : exists d pos pic s' v, dwf d /\ (forall v, vertex (dg_g d) v <-> (v < 3)%nat) /\ covers d pos (fun v => nth v (map snd pos) VNone) /\
  lines_scatter_args d [] (Some pos) no_props = Ok (pic, s') /\ vertex (dg_g d) v /\ vp d v NPos s' <> of_option KeyError (get (pi_points pic) v).
Proof.
  exists (dg_new [(0, [(2, Some 1%Z)]); (2, [(1, Some 1%Z)]); (1, [])]%nat), pos3. eexists. eexists. exists 1%nat.
  split; [|split; [|split; [split|split; [vm_compute; reflexivity|split; [cbn; auto|vm_compute; discriminate]]]]].
  - apply dg_new_ok. split; [repeat constructor; cbn; intuition congruence|]. intros u r [H|[H|[H|[]]]]; injection H as <- <-; repeat constructor; intros [].
  - intro v. cbn. lia.
  - repeat constructor; cbn; intuition congruence.
  - intros v [<-|[<-|[<-|[]]]]; cbn; auto.
Qed.
Print Assumptions C73_order_refuted.

(** Vertices 1 and 2: drawing raises IndexError. *)
Theorem C73_labels_refuted : exists d pos P, dwf d /\ covers d pos P /\ forall layout s, lines_scatter_args d layout (Some pos) s = Err IndexError.
Proof.
  exists (dg_new [(1, [(2, Some 1%Z)]); (2, [])]%nat), [(1%nat, at_xy 0 0); (2%nat, at_xy 1 0)], (fun v => if Nat.eqb v 1 then at_xy 0 0 else at_xy 1 0).
  split; [|split; [split|reflexivity]].
  - apply dg_new_ok. split; [repeat constructor; cbn; intuition congruence|]. intros u r [H|[H|[]]]; injection H as <- <-; repeat constructor; intros [].
  - repeat constructor; cbn; intuition congruence.
  - intros v [<-|[<-|[]]]; cbn; auto.
Qed.
Print Assumptions C73_labels_refuted.

(** ** C74: properties of edges and vertices *)

(** What is set is read; nothing else changes. *)
Theorem C74_edge d e p x s s' : set_ep d e p x s = Ok s' ->
  ep d e p s' = Ok x /\ (forall e' p', (e', p') <> (e, p) -> ep d e' p' s' = ep d e' p' s) /\ (forall v p', vp d v p' s' = vp d v p' s).
Proof. intro H. destruct (set_ep_reads _ _ _ _ _ _ H) as (A & B & C & _). auto. Qed.
Print Assumptions C74_edge.
Theorem C74_vertex d v p x s s' : set_vp d v p x s = Ok s' ->
  vp d v p s' = Ok x /\ (forall v' p', (v', p') <> (v, p) -> vp d v' p' s' = vp d v' p' s) /\ (forall e p', ep d e p' s' = ep d e p' s).
Proof. intro H. destruct (set_vp_reads _ _ _ _ _ _ H) as (A & B & C & _). auto. Qed.
Print Assumptions C74_vertex.

(** Whatever is set, made and drawn: every row of [edge_color],
    [vertex_color] and [vertex_fill_color] is the property of its edge or
    vertex, unless that is None; so is every row of [pos] if the vertices are
    in order.  Missing: names of the other kind ([C74_kind_refuted]), edges
    that are added ([C74_added_refuted]). *)
Theorem C74_arrays_partial d cs s s' : dwf d -> tied d s -> Forall decent_call cs -> run_pcalls d cs s = Ok s' -> tied d s'.
Proof. intros W T F H. exact (calls_tied d cs W s s' T F H). Qed.
Print Assumptions C74_arrays_partial.

(** A new graph has no arrays; once they are made colours can be set on every
    edge and every vertex 0, ..., n-1. *)
Theorem C74_sets d s e v x : dwf d -> tied d s -> In e (g_edges (dg_g d)) -> vertex (dg_g d) v -> (v < length (g_nodes (dg_g d)))%nat ->
  (exists l, gp_ecol s = Some l) -> (exists l, gp_vcol s = Some l) -> (exists l, gp_fill s = Some l) ->
  (exists s', set_ep d e NEdgeColor x s = Ok s') /\ (exists s', set_vp d v NVertexColor x s = Ok s') /\ (exists s', set_vp d v NFillColor x s = Ok s').
Proof.
  intros W T I V L (a & A) (b & B) (c & C). split; [|split].
  - destruct (set_ep_total d e NEdgeColor x s a W T I eq_refl) as (s' & _ & E & _); [cbn; congruence|eauto].
  - destruct (set_vp_total d v NVertexColor x s b V) as (s' & _ & E & _); [rewrite (proj1 (ti_vertex _ _ T b ltac:(cbn; congruence))); exact L|reflexivity|cbn; congruence|eauto].
  - destruct (set_vp_total d v NFillColor x s c V) as (s' & _ & E & _); [rewrite (proj1 (ti_fill _ _ T c ltac:(cbn; congruence))); exact L|reflexivity|cbn; congruence|eauto].
Qed.
Print Assumptions C74_sets.

Definition red : pval := VNum [Some 1; Some 0; Some 0; Some 1]%Q.
Definition calls74 : list pcall := [PNewE NEdgeColor; PNewV NVertexColor; PSetE (1, 2)%nat NEdgeColor red; PSetV 2 NVertexColor red; PSetV 1 (NName 7) red; PPos pos3; PDraw [] None].
Example C74_ex : tied d73 no_props /\ Forall decent_call calls74 /\
  match run_pcalls d73 calls74 no_props with Ok s => gp_ecol s = Some [zeros 4; red; zeros 4] /\ gp_vcol s = Some [zeros 1; zeros 1; red] | Err _ => False end.
Proof.
  split; [apply tied_none|]. split; [|vm_compute; auto]. unfold calls74. repeat (apply Forall_cons || apply Forall_nil); cbn [decent_call]; try exact Logic.I; try (repeat split; discriminate); try discriminate.
  - repeat constructor; cbn; intuition congruence.
  - split; [constructor|exact Logic.I].
Qed.

Lemma wf73 : dwf d73.
Proof. exact (proj1 C73_ex). Qed.

(** Before [new_edge_property('edge_color')] setting a colour raises. *)
Theorem C74_fresh_refuted : exists d e, dwf d /\ In e (g_edges (dg_g d)) /\ tied d no_props /\ set_ep d e NEdgeColor red no_props = Err TypeError.
Proof. exists d73, (0, 1)%nat. split; [exact wf73|]. split; [cbn; auto|]. split; [apply tied_none|vm_compute; reflexivity]. Qed.
Print Assumptions C74_fresh_refuted.

(** Setting 'vertex_color' on an edge changes the colour a vertex is drawn
    with. *)
Theorem C74_kind_refuted : exists d e s s', dwf d /\ tied d s /\ set_ep d e NVertexColor red s = Ok s' /\ ~ tied d s' /\ gp_vcol s' <> gp_vcol s.
Proof.
  set (s := match run_pcalls d73 [PNewV NVertexColor; PSetV 1 NVertexColor (zeros 4)] no_props with Ok s => s | Err _ => no_props end).
  exists d73, (1, 2)%nat, s. destruct (set_ep d73 (1, 2)%nat NVertexColor red s) as [s'|] eqn:E; [|vm_compute in E; discriminate E]. exists s'.
  split; [exact wf73|]. split; [|split; [reflexivity|]].
  - apply (C74_arrays_partial d73 [PNewV NVertexColor; PSetV 1 NVertexColor (zeros 4)] no_props s); [exact wf73|apply tied_none| |vm_compute; reflexivity].
    repeat constructor; discriminate.
  - vm_compute in E. injection E as <-. split; [|vm_compute; discriminate]. intro T. assert (X := ti_vertex _ _ T _ eq_refl). destruct X as (_ & X).
    destruct (X 1%nat (zeros 4) eq_refl) as [H|H]; vm_compute in H; discriminate H.
Qed.
Print Assumptions C74_kind_refuted.

(** [add_edge] does not make room in [edge_color]. *)
Theorem C74_added_refuted : exists d s, dwf d /\ tied d s /\ dwf (dg_add d 0 2) /\ In (0, 2)%nat (g_edges (dg_g (dg_add d 0 2))) /\
  (exists l, gp_ecol s = Some l) /\ set_ep (dg_add d 0 2) (0, 2)%nat NEdgeColor red s = Err IndexError.
Proof.
  exists d73, (new_edge_property d73 NEdgeColor no_props). assert (W : dwf d73) by exact wf73. split; [exact W|]. split; [apply new_e_tied; [exact W|apply tied_none]|].
  split; [apply dg_add_ok; exact W|]. split; [vm_compute; auto|]. split; [eexists; vm_compute; reflexivity|vm_compute; reflexivity].
Qed.
Print Assumptions C74_added_refuted.

(** ** C75: lengths of edges *)

(** [add_edge_lengths] gives every edge the distance of the positions of its
    target and source, and changes no other property; without a position, if
    distances from nowhere cannot be computed, it raises. *)
Theorem C75_lengths d dist s P : dwf d -> (forall v, vertex (dg_g d) v -> vp d v NPos s = Ok (P v)) -> (forall u v, arc (dg_g d) u v -> exists x, dist (P v) (P u) = Ok x) ->
  exists s', add_edge_lengths d dist s = Ok s' /\
    (forall u v, arc (dg_g d) u v -> ep d (u, v) n_length s' = dist (P v) (P u)) /\
    (forall e p, p <> n_length -> ep d e p s' = ep d e p s) /\ (forall v p, vp d v p s' = vp d v p s) /\
    gp_pos s' = gp_pos s /\ gp_ecol s' = gp_ecol s /\ gp_vcol s' = gp_vcol s /\ gp_fill s' = gp_fill s.
Proof.
  intros W PV DI. assert (VAL : forall v, vertex (dg_g d) v -> val (av s v NPos) = P v) by (intros v V; specialize (PV v V); apply vp_read in PV as (_ & ->); reflexivity).
  assert (ENDS : forall u v, arc (dg_g d) u v -> val (av s u NPos) = P u /\ val (av s v NPos) = P v).
  { intros u v K. split; apply VAL; [destruct K as (x & r & K & _); apply in_map_iff; exists (u, r); auto|destruct K as (x & K); apply (dw_closed _ W) in K; exact K]. }
  destruct (lengths_ok d dist s W) as (s' & E & A & B & C & D).
  { intros u v K. destruct (ENDS u v K) as (-> & ->). apply DI. exact K. }
  exists s'. split; [exact E|]. split; [|split; [|split]].
  - intros u v K. destruct (D u v K) as (x & X & Y). destruct (ENDS u v K) as (Q1 & Q2). rewrite Q1, Q2 in X. rewrite (ep_ok d u v _ _ W K), Y, X. reflexivity.
  - intros e p N. apply ep_same. apply C. exact N.
  - intros v p. apply vp_same. apply A.
  - assert (X1 := B NPos). assert (X2 := B NEdgeColor). assert (X3 := B NVertexColor). assert (X4 := B NFillColor). cbn in X1, X2, X3, X4. repeat split; congruence.
Qed.
Print Assumptions C75_lengths.
Theorem C75_nowhere d dist s u v x : dwf d -> arc (dg_g d) u v -> dist (val (av s v NPos)) (val (av s u NPos)) = Err x -> exists y, add_edge_lengths d dist s = Err y.
Proof.
  intros W A E. unfold add_edge_lengths. destruct (new_e_ok d n_length s) as (B & _). apply (put_lengths_err d dist x _ _ u v); [auto|exact W|apply g_edges_in; exact A|].
  rewrite !B. exact E.
Qed.
Print Assumptions C75_nowhere.

(** Manhattan distances, for the example. *)
Definition manhattan (a b : pval) : res pval :=
  match a, b with
  | VNum [Some x; Some y], VNum [Some x'; Some y'] => Ok (VNum [Some (Qred (Qabs.Qabs (x - x') + Qabs.Qabs (y - y')))])
  | _, _ => Err TypeError
  end.
Definition s75 : gprops := match set_pos d73 pos3 no_props with Ok s => s | Err _ => no_props end.
Example C75_ex : (forall v, vertex (dg_g d73) v -> vp d73 v NPos s75 = Ok (nth v (map snd pos3) VNone)) /\
  (forall u v, arc (dg_g d73) u v -> exists x, manhattan (nth v (map snd pos3) VNone) (nth u (map snd pos3) VNone) = Ok x) /\
  match add_edge_lengths d73 manhattan s75 with Ok s => ep d73 (1, 2)%nat n_length s = Ok (VNum [Some 2%Q]) /\ ep d73 (0, 1)%nat n_length s = Ok (VNum [Some 1%Q]) | Err _ => False end.
Proof.
  split; [intros v [<-|[<-|[<-|[]]]]; vm_compute; reflexivity|]. split; [|vm_compute; auto].
  intros u v A. apply g_edges_in in A. cbn in A. destruct A as [A|[A|[A|[]]]]; injection A as <- <-; eexists; vm_compute; reflexivity.
Qed.
Example C75_ex2 : match add_edge_lengths d73 manhattan no_props with Ok _ => False | Err e => e = TypeError end.
Proof. vm_compute. reflexivity. Qed.

(** ** C76: the pictures of a network *)

(** The properties have the colours [p], and the places [P]; they are changed
    by the assignments that lead from [p] to [p'].  Then they have the colours
    [p'], and the picture shows [p'] at the places [P]. *)
Theorem C76_colors d P p p' s ws : dwf d -> (forall v, vertex (dg_g d) v -> (v < length (g_nodes (dg_g d)))%nat) -> mirrors d p s -> located d P s ->
  writes (write_paint d) ws p = Ok p' ->
  exists s', writes (write_props d) ws s = Ok s' /\ mirrors d p' s' /\ located d P s' /\
    forall layout, exists pic, lines_scatter_args d layout None s' = Ok (pic, s') /\ pictured d P p' pic.
Proof.
  intros W SM M L H. destruct (writes_mirrors d ws W p p' s M H) as (s' & E & M' & A). exists s'. split; [exact E|]. split; [exact M'|].
  assert (L' : located d P s') by (destruct L as (l & AL & R); exists l; split; [cbn in A; congruence|exact R]). split; [exact L'|].
  intro layout. apply mirrors_picture; assumption.
Qed.
Print Assumptions C76_colors.

(** All functions that change colours do it by such assignments. *)
Theorem C76_writes d lk ins nl qs :
  (forall p p', prepare_colors d qs lk nl p = Ok p' -> exists ws, writes (write_paint d) ws p = Ok p') /\
  (forall p p', reset_colors d qs lk nl p = Ok p' -> exists ws, writes (write_paint d) ws p = Ok p') /\
  (forall p p', update_all_colors d qs lk ins nl p = Ok p' -> exists ws, writes (write_paint d) ws p = Ok p') /\
  (forall prev k p p', update_graph_colors d qs lk ins nl prev k p = Ok p' -> exists ws, writes (write_paint d) ws p = Ok p') /\
  (forall mk p pd p', show_active d lk ins nl qs mk p = Ok (pd, p') -> (exists ws, writes (write_paint d) ws p = Ok pd) /\ exists ws, writes (write_paint d) ws pd = Ok p') /\
  (forall mk ty p pd p', show_type d lk ins nl qs mk ty p = Ok (pd, p') -> (exists ws, writes (write_paint d) ws p = Ok pd) /\ exists ws, writes (write_paint d) ws pd = Ok p') /\
  (forall m t s s', animate d lk ins nl m t s = Ok s' -> exists ws, writes (write_paint d) ws (sc_paint s) = Ok (sc_paint s')).
Proof.
  split; [intros p p'; apply leads_prepare|]. split; [intros p p'; apply leads_reset|]. split; [intros p p'; apply leads_all|].
  split; [intros prev k p p'; apply leads_graph_colors|]. split; [intros mk p pd p'; apply leads_show_active|]. split; [intros mk ty p pd p'; apply leads_show_type|].
  intros m t s s'. apply leads_animate.
Qed.
Print Assumptions C76_writes.

(** A new network of a graph whose vertices all have positions, drawn: the
    picture has the places of the graph and the colours of the queues.
    Missing: as in C73, and graphs where some vertices have positions
    ([C76_some_refuted]). *)
Theorem C76_new_partial gi d0 d qs lk ins nl layout s P : test_graph gi = Ok d0 -> dwf d0 -> network_graph gi true = Ok d -> dressed d qs lk ins nl -> dg_g d <> [] ->
  nodes_in_order d0 -> (forall v, vertex (dg_g d0) v -> placed s v (P v)) ->
  exists s1 p1 p2, prepare_props true d0 d layout s = Ok s1 /\ prepare_colors d qs lk nl blank = Ok p1 /\ update_all_colors d qs lk ins nl p1 = Ok p2 /\
    shown d lk ins nl qs p2 /\ (forall v, vertex (dg_g d) v -> vp d v NPos s1 = Ok (P v)) /\
    forall ws1 ws2, writes (write_paint d) ws1 blank = Ok p1 -> writes (write_paint d) ws2 p1 = Ok p2 ->
      exists s2 s3, writes (write_props d) ws1 s1 = Ok s2 /\ writes (write_props d) ws2 s2 = Ok s3 /\ mirrors d p2 s3 /\ located d P s3 /\
        forall layout', exists pic, lines_scatter_args d layout' None s3 = Ok (pic, s3) /\ pictured d P p2 pic.
Proof.
  intros E0 W0 E1 D NE IO PL. assert (W := dr_wf _ _ _ _ _ D). assert (K := nodes_kept d0 gi d E0 W0 E1).
  assert (VV : forall v, vertex (dg_g d) v <-> vertex (dg_g d0) v) by (intro v; unfold vertex; change (In v (g_nodes (dg_g d)) <-> In v (g_nodes (dg_g d0))); rewrite K; reflexivity).
  assert (IO' : nodes_in_order d) by (unfold nodes_in_order in *; rewrite K; exact IO).
  destruct (prepare_placed d0 d layout s P W0 W VV NE) as (s1 & S1 & M1 & R1 & V1); [intros v V; apply PL; apply VV; exact V|].
  destruct (C55_prepared_order d qs lk ins nl blank D) as (p1 & P1 & _). destruct (all_shown d lk ins nl qs p1 D) as (p2 & P2 & SH).
  exists s1, p1, p2. repeat (split; [assumption|]). intros ws1 ws2 H1 H2.
  destruct (C76_colors d P blank p1 s1 ws1 W (nodes_small d IO') M1 (located_rows d P s1 IO' R1) H1) as (s2 & A2 & M2 & L2 & _).
  destruct (C76_colors d P p1 p2 s2 ws2 W (nodes_small d IO') M2 L2 H2) as (s3 & A3 & M3 & L3 & PIC). exists s2, s3. auto.
Qed.
Print Assumptions C76_new_partial.

(** If no vertex has a position, the layout of networkx gives the places. *)
Theorem C76_unplaced gi d0 d layout s P : test_graph gi = Ok d0 -> dwf d0 -> network_graph gi true = Ok d -> dwf d ->
  (forall v x, vertex (dg_g d0) v -> ~ In (NPos, x) (attrs_v s v)) -> covers d layout P ->
  exists s1, prepare_props true d0 d layout s = Ok s1 /\ mirrors d blank s1 /\ (forall v, vertex (dg_g d) v -> vp d v NPos s1 = Ok (P v)) /\ (nodes_in_order d -> located d P s1).
Proof.
  intros E0 W0 E1 W N CV. destruct (prepare_unplaced d0 d layout s P W0 W) as (s1 & S1 & M1 & R1 & V1); [|exact CV|].
  - intros v V. destruct (av s v NPos) as [x|] eqn:A; [|reflexivity]. apply (mget_In _ pn_eqb_eq) in A. destruct (N v x V A).
  - exists s1. repeat (split; [assumption|]). intro IO. apply located_rows; assumption.
Qed.
Print Assumptions C76_unplaced.

(** If some vertices have positions and others not, no network is made. *)
Theorem C76_some gi d0 d layout s v w x : test_graph gi = Ok d0 -> dwf d0 -> network_graph gi true = Ok d -> vertex (dg_g d0) v -> vertex (dg_g d0) w ->
  placed s v x -> (forall y, ~ In (NPos, y) (attrs_v s w)) -> prepare_props true d0 d layout s = Err KeyError.
Proof.
  intros E0 W0 E1 V Vw PL N. assert (K := nodes_kept d0 gi d E0 W0 E1).
  assert (VV : forall v, vertex (dg_g d) v <-> vertex (dg_g d0) v) by (intro u; unfold vertex; change (In u (g_nodes (dg_g d)) <-> In u (g_nodes (dg_g d0))); rewrite K; reflexivity).
  apply (prepare_some d0 d layout s v w x VV); [apply VV; exact V|apply VV; exact Vw|exact PL|].
  destruct (av s w NPos) as [y|] eqn:A; [|reflexivity]. apply (mget_In _ pn_eqb_eq) in A. destruct (N y A).
Qed.
Print Assumptions C76_some.

Definition pos2 : list (nat * pval) := [(0%nat, at_xy 0 0); (1%nat, at_xy 1 0)].
Definition d71 : dgraph := match test_graph g71 with Ok d => d | Err _ => dg_new [] end.
Definition s76 : gprops := match set_pos d71 pos2 no_props with Ok s => s | Err _ => no_props end.
Definition part76 : gprops := put_v 0 NPos (at_xy 0 0) no_props.
Example C76_ex : let d := graph_of n71 in let qs := nt_queues (net_of n71) in
  test_graph g71 = Ok d71 /\ dwf d71 /\ network_graph g71 true = Ok d /\ dressed d qs (by_type qs) (ins_of n71) grey /\ dg_g d <> [] /\ nodes_in_order d71 /\
  (forall v, vertex (dg_g d71) v -> placed s76 v (nth v (map snd pos2) VNone)).
Proof.
  cbv zeta. split; [vm_compute; reflexivity|]. split.
  { destruct (test_graph_ok g71) as (d & E & W & _); [two|]. unfold d71. rewrite E. exact W. }
  split; [vm_compute; reflexivity|]. split; [apply good71|]. split; [vm_compute; discriminate|]. split; [vm_compute; reflexivity|].
  intros v V. vm_compute in V. destruct V as [<-|[<-|[]]]; vm_compute; (split; [auto|repeat constructor; intros []]).
Qed.
Example C76_ex2 : vertex (dg_g d71) 0 /\ vertex (dg_g d71) 1 /\ placed part76 0 (at_xy 0 0) /\ forall y, ~ In (NPos, y) (attrs_v part76 1).
Proof. split; [vm_compute; auto|]. split; [vm_compute; auto|]. split; [split; [vm_compute; auto|vm_compute; repeat constructor; intros []]|]. intros y H. vm_compute in H. exact H. Qed.

Theorem C76_some_refuted : exists gi d0 d s v x, test_graph gi = Ok d0 /\ dwf d0 /\ network_graph gi true = Ok d /\ vertex (dg_g d0) v /\ placed s v x /\
  forall layout, prepare_props true d0 d layout s = Err KeyError.
Proof.
  destruct C76_ex as (A & B & C & _). destruct C76_ex2 as (V & Vw & PL & N). exists g71, d71, (graph_of n71), part76, 0%nat, (at_xy 0 0).
  repeat (split; [assumption|]). intro layout. exact (C76_some g71 d71 (graph_of n71) layout part76 0%nat 1%nat (at_xy 0 0) A B C V Vw PL N).
Qed.
Print Assumptions C76_some_refuted.
