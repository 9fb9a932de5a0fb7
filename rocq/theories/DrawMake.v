(** * DrawMake: positions and properties of a new network; lengths of edges *)
From Coq Require Import List ZArith QArith Bool Arith Lia.
From Verif Require Import Base Dict UnionFind UnionFindProofs Graph SpecGraph GraphProofs GraphClaims GraphNet GraphIndex Heap PQueue Queue SpecQueue Network NetSteps SpecNet SpecBuild GraphBuild Colors PaintProofs Animate AnimateProofs Drawing DrawProofs DrawNet.
Import ListNotations.
Open Scope Z_scope.

(** ** The vertices keep their order *)

Lemma adjust2_keys g : map fst (adjacency_adjust g 2) = map fst g.
Proof. unfold adjacency_adjust. cbn [Z.eqb Pos.eqb]. rewrite map_map. cbn [fst]. unfold defaults. rewrite map_map. reflexivity. Qed.
Lemma adjust2_row g u r : In (u, r) (adjacency_adjust g 2) -> exists r0, In (u, r0) g /\ map fst r = map fst r0.
Proof.
  unfold adjacency_adjust. cbn [Z.eqb Pos.eqb]. intro H. apply in_map_iff in H as ((u1 & r1) & Q & H). cbn [fst snd] in Q. injection Q as <- <-.
  unfold defaults in H. apply in_map_iff in H as ((u2 & r2) & Q & H). cbn [fst snd] in Q. injection Q as <- <-. exists r2. split; [exact H|].
  rewrite !map_map. reflexivity.
Qed.
Lemma adjust2_ok g : proper g -> closed g -> proper (adjacency_adjust g 2) /\ closed (adjacency_adjust g 2).
Proof.
  intros [P1 P2] C. split; [split|].
  - rewrite adjust2_keys. exact P1.
  - intros u r H. apply adjust2_row in H as (r0 & I & ->). eauto.
  - intros u v a (r & H & J). unfold vertex. rewrite adjust2_keys. apply adjust2_row in H as (r0 & I & E).
    assert (K : In v (map fst r0)) by (rewrite <- E; apply in_map_iff; exists (v, a); auto). apply in_map_iff in K as ((w & b) & Q & K). cbn in Q. subst w.
    apply (C u v b). exists r0. auto.
Qed.
Lemma nodes_kept d0 gi d : test_graph gi = Ok d0 -> dwf d0 -> network_graph gi true = Ok d -> g_nodes (dg_g d) = g_nodes (dg_g d0).
Proof.
  intros E W H. unfold network_graph in H. rewrite E in H. cbn [bind] in H. unfold adjacency2graph, to_adjacency, dict2dict, to_types in H.
  assert (P := dw_proper _ W). assert (C := dw_closed _ W). destruct (dg_g d0) as [|x g] eqn:G; [discriminate|]. rewrite <- G in *. cbn [bind put_types] in H. injection H as <-.
  unfold dg_new. cbn [dg_g]. rewrite (from_dod_id (dg_g d0) P C). destruct (adjust2_ok _ P C) as (P' & C'). rewrite (from_dod_id _ P' C'). rewrite (from_dod_id _ P' C').
  apply adjust2_keys.
Qed.

(** ** Positions of a new network *)

Lemma pos_attrs_in d s v x : In (v, x) (pos_attrs d s) <-> vertex (dg_g d) v /\ av s v NPos = Some x.
Proof.
  unfold pos_attrs. rewrite in_flat_map. split.
  - intros (w & I & H). change (mget pn_eqb (attrs_v s w) NPos) with (av s w NPos) in H. destruct (av s w NPos) as [y|] eqn:E; [|destruct H].
    destruct H as [Q|[]]. injection Q as <- <-. auto.
  - intros (V & H). exists v. split; [exact V|]. change (mget pn_eqb (attrs_v s v) NPos) with (av s v NPos). rewrite H. left. reflexivity.
Qed.
Lemma pos_attrs_nodup d s : proper (dg_g d) -> NoDup (map fst (pos_attrs d s)).
Proof.
  intros [P _]. unfold pos_attrs. change (NoDup (g_nodes (dg_g d))) in P. induction (g_nodes (dg_g d)) as [|v vs IH]; [constructor|].
  apply NoDup_cons_iff in P as (NI & P). cbn [flat_map]. rewrite map_app. specialize (IH P). destruct (mget pn_eqb (attrs_v s v) NPos) as [x|]; [|exact IH].
  cbn [map app fst]. constructor; [|exact IH]. intro H. apply NI. apply in_map_iff in H as ((w & y) & Q & H). cbn in Q. subst w. apply in_flat_map in H as (w & I & H).
  destruct (mget pn_eqb (attrs_v s w) NPos); [|destruct H]. destruct H as [Q|[]]. injection Q as <- _. exact I.
Qed.
Lemma tied_none d ep vp : tied d (mkProps ep vp None None None None).
Proof. split; try intros _; intros l H; discriminate. Qed.

(** The eight new properties. *)
Definition eight (d : dgraph) (s : gprops) : gprops :=
  new_edge_property d (NName 5) (new_edge_property d (NName 4) (new_edge_property d NEdgeColor (new_edge_property d (NName 3)
    (new_vertex_property d (NName 2) (new_vertex_property d (NName 1) (new_vertex_property d NFillColor (new_vertex_property d NVertexColor s))))))).
Lemma eight_ok d s : dwf d -> tied d s -> mirrors d (mkPaint [] [] []) (eight d s) /\ array_of NPos (eight d s) = array_of NPos s /\
  (forall v, av (eight d s) v NPos = av s v NPos).
Proof.
  intros W T. unfold eight.
  destruct (new_v_ok d NVertexColor s) as (A1 & B1 & C1 & D1 & E1). assert (T1 := new_v_tied d NVertexColor s W T). set (s1 := new_vertex_property d NVertexColor s) in *.
  destruct (new_v_ok d NFillColor s1) as (A2 & B2 & C2 & D2 & E2). assert (T2 := new_v_tied d NFillColor s1 W T1). set (s2 := new_vertex_property d NFillColor s1) in *.
  destruct (new_v_ok d (NName 1) s2) as (A3 & B3 & C3 & D3 & E3). assert (T3 := new_v_tied d (NName 1) s2 W T2). set (s3 := new_vertex_property d (NName 1) s2) in *.
  destruct (new_v_ok d (NName 2) s3) as (A4 & B4 & C4 & D4 & E4). assert (T4 := new_v_tied d (NName 2) s3 W T3). set (s4 := new_vertex_property d (NName 2) s3) in *.
  destruct (new_e_ok d (NName 3) s4) as (A5 & B5 & C5 & D5 & E5). assert (T5 := new_e_tied d (NName 3) s4 W T4). set (s5 := new_edge_property d (NName 3) s4) in *.
  destruct (new_e_ok d NEdgeColor s5) as (A6 & B6 & C6 & D6 & E6). assert (T6 := new_e_tied d NEdgeColor s5 W T5). set (s6 := new_edge_property d NEdgeColor s5) in *.
  destruct (new_e_ok d (NName 4) s6) as (A7 & B7 & C7 & D7 & E7). assert (T7 := new_e_tied d (NName 4) s6 W T6). set (s7 := new_edge_property d (NName 4) s6) in *.
  destruct (new_e_ok d (NName 5) s7) as (A8 & B8 & C8 & D8 & E8). assert (T8 := new_e_tied d (NName 5) s7 W T7). set (s8 := new_edge_property d (NName 5) s7) in *.
  clearbody s1 s2 s3 s4 s5 s6 s7 s8.
  split; [|split].
  - split; [exact T8| | | |intros e c _ H; discriminate H|intros v c _ H; discriminate H|intros v c _ H; discriminate H].
    + rewrite D8, D7 by (left; discriminate). rewrite E6 by reflexivity. eauto.
    + rewrite D8, D7, D6, D5, D4, D3, D2 by (left; discriminate). rewrite E1 by reflexivity. eauto.
    + rewrite D8, D7, D6, D5, D4, D3 by (left; discriminate). rewrite E2 by reflexivity. eauto.
  - rewrite D8, D7, D6, D5, D4, D3, D2, D1 by (left; discriminate). reflexivity.
  - intro v. rewrite A8, A7, A6, A5. rewrite B4, B3, B2, B1 by (left; discriminate). reflexivity.
Qed.
Lemma prepare_unfold adjust d0 d layout s : prepare_props adjust d0 d layout s =
  let* s := if adjust then match pos_attrs d0 s with [] => Ok no_props | pos => set_pos d pos no_props end else Ok s in
  match pos_attrs d (eight d s) with [] => set_pos d layout (eight d s) | _ => Ok (eight d s) end.
Proof. reflexivity. Qed.

(** The vertex has the position [x]. *)
Definition placed (s : gprops) (v : nat) (x : pval) : Prop := In (NPos, x) (attrs_v s v) /\ NoDup (map fst (attrs_v s v)).
Lemma placed_av s v x : placed s v x -> av s v NPos = Some x.
Proof. intros (I & N). apply (mget_nodup _ pn_eqb_eq); assumption. Qed.
(** Row [i] of [pos] is the place of the [i]-th vertex of [g.nodes()]. *)
Definition rows_are (d : dgraph) (P : nat -> pval) (s : gprops) : Prop :=
  exists l, gp_pos s = Some l /\ Forall2 (fun v x => x = P v) (g_nodes (dg_g d)) l.
Lemma rows_array d P s l : array_of NPos s = Some (Some l) -> Forall2 (fun v x => x = P v) (g_nodes (dg_g d)) l -> rows_are d P s.
Proof. intros A F. exists l. split; [cbn in A; congruence|exact F]. Qed.

Lemma mirrors_pos d pos P s : dwf d -> covers d pos P -> mirrors d (mkPaint [] [] []) s ->
  exists s', set_pos d pos s = Ok s' /\ mirrors d (mkPaint [] [] []) s' /\ rows_are d P s' /\ forall v, vertex (dg_g d) v -> vp d v NPos s' = Ok (P v).
Proof.
  intros W CV M. destruct (set_pos_ok d pos P s CV) as (s' & l & E & A & F & B & C & D & G). exists s'. split; [exact E|]. split; [|split].
  - destruct M as [T (le & Ae) (lv & Av) (lf & Af) ME MV MF]. split; [eapply set_pos_tied; [exact W|apply CV|exact T|exact E]| | | |intros e c _ H; discriminate H|intros v c _ H; discriminate H|intros v c _ H; discriminate H].
    + rewrite C by discriminate. eauto.
    + rewrite C by discriminate. eauto.
    + rewrite C by discriminate. eauto.
  - eapply rows_array; eassumption.
  - intros v V. rewrite vp_ok by exact V. rewrite G by exact V. reflexivity.
Qed.
(** All vertices have positions: these are kept. *)
Lemma prepare_placed d0 d layout s P : dwf d0 -> dwf d -> (forall v, vertex (dg_g d) v <-> vertex (dg_g d0) v) -> dg_g d <> [] -> (forall v, vertex (dg_g d) v -> placed s v (P v)) ->
  exists s', prepare_props true d0 d layout s = Ok s' /\ mirrors d (mkPaint [] [] []) s' /\ rows_are d P s' /\ forall v, vertex (dg_g d) v -> vp d v NPos s' = Ok (P v).
Proof.
  intros W0 W V NE PL. rewrite prepare_unfold.
  assert (CV : covers d (pos_attrs d0 s) P).
  { split; [apply pos_attrs_nodup; apply W0|]. intros v Vv. apply pos_attrs_in. split; [apply V; exact Vv|]. apply placed_av. apply PL. exact Vv. }
  destruct (dg_g d) as [|[v r] g] eqn:G; [congruence|]. rewrite <- G in *. assert (Vv : vertex (dg_g d) v) by (rewrite G; left; reflexivity).
  assert (I := proj2 CV v Vv). destruct (pos_attrs d0 s) as [|x0 l0]; [destruct I|]. set (pos := x0 :: l0) in *.
  destruct (set_pos_ok d pos P no_props CV) as (s1 & l & E & A & F & B & C & D & H). rewrite E. cbn [bind].
  assert (T1 : tied d s1) by (eapply set_pos_tied; [exact W|apply CV|apply tied_none|exact E]). destruct (eight_ok d s1 W T1) as (M & A8 & P8). set (s2 := eight d s1) in *. clearbody s2.
  assert (I2 : In (v, P v) (pos_attrs d s2)) by (apply pos_attrs_in; split; [exact Vv|]; rewrite P8; apply H; exact Vv).
  destruct (pos_attrs d s2) as [|y l2]; [destruct I2|]. exists s2. split; [reflexivity|]. split; [exact M|]. split.
  - eapply rows_array; [rewrite A8; exact A|exact F].
  - intros w Vw. rewrite vp_ok by exact Vw. rewrite P8, H by exact Vw. reflexivity.
Qed.
(** No vertex has a position: the layout is used. *)
Lemma prepare_unplaced d0 d layout s P : dwf d0 -> dwf d -> (forall v, vertex (dg_g d0) v -> av s v NPos = None) -> covers d layout P ->
  exists s', prepare_props true d0 d layout s = Ok s' /\ mirrors d (mkPaint [] [] []) s' /\ rows_are d P s' /\ forall v, vertex (dg_g d) v -> vp d v NPos s' = Ok (P v).
Proof.
  intros W0 W N CV. rewrite prepare_unfold. assert (E : pos_attrs d0 s = []).
  { destruct (pos_attrs d0 s) as [|[v x] l] eqn:E; [reflexivity|]. assert (I : In (v, x) (pos_attrs d0 s)) by (rewrite E; left; reflexivity).
    apply pos_attrs_in in I as (V & I). rewrite N in I by exact V. discriminate. }
  rewrite E. cbn [bind]. destruct (eight_ok d no_props W (tied_none _ _ _)) as (M & _ & P8). set (s2 := eight d no_props) in *. clearbody s2.
  assert (E2 : pos_attrs d s2 = []).
  { destruct (pos_attrs d s2) as [|[v x] l] eqn:E2; [reflexivity|]. assert (I : In (v, x) (pos_attrs d s2)) by (rewrite E2; left; reflexivity).
    apply pos_attrs_in in I as (V & I). rewrite P8 in I. discriminate. }
  rewrite E2. apply mirrors_pos; assumption.
Qed.
(** Some vertices have positions, others do not: KeyError. *)
Lemma prepare_some d0 d layout s v w x : (forall v, vertex (dg_g d) v <-> vertex (dg_g d0) v) -> vertex (dg_g d) v -> vertex (dg_g d) w -> placed s v x -> av s w NPos = None ->
  prepare_props true d0 d layout s = Err KeyError.
Proof.
  intros V Vv Vw PL N. rewrite prepare_unfold. assert (I : In (v, x) (pos_attrs d0 s)) by (apply pos_attrs_in; split; [apply V; exact Vv|apply placed_av; exact PL]).
  assert (NI : ~ In w (map fst (pos_attrs d0 s))).
  { intro H. apply in_map_iff in H as ((w' & y) & Q & H). cbn in Q. subst w'. apply pos_attrs_in in H as (_ & H). congruence. }
  destruct (pos_attrs d0 s) as [|y l]; [destruct I|]. rewrite (set_pos_err d (y :: l) w no_props Vw NI). reflexivity.
Qed.

Lemma located_rows d P s : nodes_in_order d -> rows_are d P s -> located d P s.
Proof.
  intros IO (l & E & F). exists l. split; [exact E|]. split; [symmetry; apply (Forall2_len _ _ _ F)|]. intros v V. apply (rows_at d P l v F IO V).
Qed.
(** In any order of the vertices: vertex [v] is drawn at the place of the
    [v]-th vertex. *)
Lemma located_any d P s : labels_small d -> rows_are d P s -> located d (fun v => P (nth v (g_nodes (dg_g d)) 0%nat)) s.
Proof.
  intros SM (l & E & F). exists l. split; [exact E|]. split; [symmetry; apply (Forall2_len _ _ _ F)|]. intros v V. assert (L := SM v V).
  destruct (get_ex l v) as (x & X); [rewrite <- (Forall2_len _ _ _ F); exact L|]. rewrite X. f_equal.
  exact (Forall2_nth _ _ _ v _ x F (nth_error_nth' _ 0%nat L) X).
Qed.

(** ** Lengths *)

Lemma put_lengths_ok d dist : dwf d -> forall es s, (forall e, In e es -> In e (g_edges (dg_g d))) -> NoDup es ->
  (forall u v, In (u, v) es -> exists x, dist (val (av s v NPos)) (val (av s u NPos)) = Ok x) ->
  exists s', put_lengths d dist es s = Ok s' /\ (forall v p, av s' v p = av s v p) /\ (forall q, array_of q s' = array_of q s) /\
    (forall e p, (p <> n_length \/ ~ In e es) -> ae s' e p = ae s e p) /\
    (forall u v, In (u, v) es -> exists x, dist (val (av s v NPos)) (val (av s u NPos)) = Ok x /\ ae s' (u, v) n_length = Some x).
Proof.
  intro W. induction es as [|[u v] es IH]; intros s SUB ND DI; cbn [put_lengths].
  - exists s. repeat split; auto. intros u v [].
  - apply NoDup_cons_iff in ND as (NI & ND). assert (A : arc (dg_g d) u v) by (apply g_edges_in; apply SUB; left; reflexivity).
    assert (Vu : vertex (dg_g d) u) by (destruct A as (x & r & R & _); apply in_map_iff; exists (u, r); auto).
    assert (Vv : vertex (dg_g d) v) by (destruct A as (x & R); apply (dw_closed _ W) in R; exact R).
    cbn [fst snd]. rewrite (vp_ok d v NPos s Vv), (vp_ok d u NPos s Vu). cbn [bind]. destruct (DI u v) as (x & X); [left; reflexivity|]. rewrite X. cbn [bind].
    destruct A as (a & A). unfold set_ep. rewrite (ep_type_ok d u v a W A). cbn [bind]. unfold write_row. cbn [array_of n_length bind]. set (s1 := put_e (u, v) n_length x s).
    destruct (IH s1) as (s' & E & R1 & R2 & R3 & R4); [intros e I; apply SUB; right; exact I|exact ND|intros u' v' I; apply (DI u' v'); right; exact I|].
    exists s'. split; [exact E|]. split; [|split; [|split]].
    + intros w p. rewrite R1. reflexivity.
    + intro q. rewrite R2. apply arr_put_e.
    + intros e p O. rewrite R3; [apply ae_put_neq|]; (destruct O as [O|O]; [try congruence; left; exact O|]).
      * intro Q. injection Q as -> _. apply O. left. reflexivity.
      * right. intro J. apply O. right. exact J.
    + intros u' v' [Q|J]; [|apply (R4 u' v' J)]. injection Q as <- <-. exists x. split; [exact X|]. rewrite R3 by (right; exact NI). apply ae_put_eq.
Qed.
Lemma lengths_ok d dist s : dwf d -> (forall u v, arc (dg_g d) u v -> exists x, dist (val (av s v NPos)) (val (av s u NPos)) = Ok x) ->
  exists s', add_edge_lengths d dist s = Ok s' /\ (forall v p, av s' v p = av s v p) /\ (forall q, array_of q s' = array_of q s) /\
    (forall e p, p <> n_length -> ae s' e p = ae s e p) /\
    (forall u v, arc (dg_g d) u v -> exists x, dist (val (av s v NPos)) (val (av s u NPos)) = Ok x /\ ae s' (u, v) n_length = Some x).
Proof.
  intros W DI. unfold add_edge_lengths. destruct (new_e_ok d n_length s) as (A & B & C & D & _). set (s0 := new_edge_property d n_length s) in *. clearbody s0.
  destruct (put_lengths_ok d dist W (g_edges (dg_g d)) s0) as (s' & E & R1 & R2 & R3 & R4); [auto|apply g_edges_nodup; apply W| |].
  - intros u v I. rewrite !A. apply DI. apply g_edges_in. exact I.
  - exists s'. split; [exact E|]. split; [|split; [|split]].
    + intros v p. rewrite R1. apply A.
    + intro q. rewrite R2. apply D. right. reflexivity.
    + intros e p N. rewrite R3 by (left; exact N). apply B. left. exact N.
    + intros u v K. destruct (R4 u v) as (x & X & Y); [apply g_edges_in; exact K|]. rewrite !A in X. eauto.
Qed.
(** The first edge whose length cannot be computed decides. *)
Lemma put_lengths_err d dist x : forall es s u v, (forall e, In e es -> In e (g_edges (dg_g d))) -> dwf d -> In (u, v) es -> dist (val (av s v NPos)) (val (av s u NPos)) = Err x ->
  exists y, put_lengths d dist es s = Err y.
Proof.
  induction es as [|[a b] es IH]; intros s u v SUB W I D; [destruct I|]. cbn [put_lengths fst snd].
  assert (A : arc (dg_g d) a b) by (apply g_edges_in; apply SUB; left; reflexivity).
  assert (Vu : vertex (dg_g d) a) by (destruct A as (z & r & R & _); apply in_map_iff; exists (a, r); auto).
  assert (Vv : vertex (dg_g d) b) by (destruct A as (z & R); apply (dw_closed _ W) in R; exact R).
  rewrite (vp_ok d b NPos s Vv), (vp_ok d a NPos s Vu). cbn [bind]. destruct (dist (val (av s b NPos)) (val (av s a NPos))) as [l|y] eqn:E; [|exists y; reflexivity].
  cbn [bind]. destruct A as (t & A). unfold set_ep. rewrite (ep_type_ok d a b t W A). cbn [bind]. unfold write_row. cbn [array_of n_length bind].
  destruct I as [Q|I]; [injection Q as -> ->; congruence|]. apply (IH _ u v); [intros e J; apply SUB; right; exact J|exact W|exact I|exact D].
Qed.
