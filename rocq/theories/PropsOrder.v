(** * PropsOrder: claim C90: graphs in order *)
From Coq Require Import List ZArith QArith Bool Arith Lia Sorted.
From Verif Require Import Base Dict UnionFind UnionFindProofs Graph SpecGraph GraphProofs GraphClaims GraphNet GraphIndex Queue SpecQueue Network NetSteps SpecNet SpecBuild GraphBuild PropsBuild Routing SpecRoute RoutingProofs RoutingGen PropsRoute Colors ColorProofs PaintProofs PropsColor Animate AnimateProofs PropsAnimate Drawing DrawProofs DrawNet DrawMake PropsDrawing SpecOrder OrderProofs.
Import ListNotations.
Open Scope Z_scope.

(** The graph of a matrix, or of a dictionary in order, has its vertices and
    edges in order, whatever types are given and whatever is adjusted. *)
Theorem C90_graph a ty adjust g : tidy_in a -> adjacency2graph a ty adjust = Ok g ->
  g_nodes g = seq 0 (size a) /\ StronglySorted before (g_edges g) /\ tidy g.
Proof.
  intros T H. destruct (adjacency_tidy _ _ _ _ T H) as [A L].
  split; [rewrite <- L; apply A|]. split; [apply tidy_edges; exact A|exact A].
Qed.
Print Assumptions C90_graph.

Example C90_graph_ex : tidy_in (AMatrix [[0; 2; 0]; [1; 0; 3]; [0; 0; 0]]) /\
  adjacency2graph (AMatrix [[0; 2; 0]; [1; 0; 3]; [0; 0; 0]]) (TDicts [(1%nat, [(2%nat, 4)])]) 1 =
    Ok [(0, [(1, Some 1%Z)]); (1, [(0, Some 1%Z); (2, Some 4%Z)]); (2, [(2, Some 0%Z)])]%nat.
Proof. split; [intros r [<-|[<-|[<-|[]]]]; cbn; lia|vm_compute; reflexivity]. Qed.

(** A dictionary out of order is a graph out of order. *)
Example C90_out_of_order : adjacency2graph (ALists [(1, [0]); (0, [1])]%nat) TNone 1 = Ok [(1, [(0, Some 1%Z)]); (0, [(1, Some 1%Z)])]%nat.
Proof. vm_compute. reflexivity. Qed.

(** Such graphs are proper descriptions. *)
Definition graph_size (gi : graph_in) : nat := size (as_adj gi).

Lemma tidy_listed g : tidy g -> forall v, (In v (map fst g) \/ exists u o, edge g u v o) <-> (v < length g)%nat.
Proof.
  intros T v. split.
  - intros [I|(u & o & E)]; [|apply (tidy_closed _ T) in E; unfold vertex in E]; rewrite (proj1 T) in *; apply in_seq in I || apply in_seq in E; lia.
  - intro L. left. rewrite (proj1 T). apply in_seq. lia.
Qed.

Lemma tidy_described gi : tidy_graph gi -> (0 < graph_size gi)%nat -> proper_graph gi /\ forall v, mentioned (as_adj gi) v <-> (v < graph_size gi)%nat.
Proof.
  unfold graph_size. destruct gi as [d|g|a]; cbn [tidy_graph as_adj proper_graph size mentioned].
  - intros (g & -> & T) S. destruct (tidy_new g T) as (E & _). rewrite E in *. split; [|apply tidy_listed; exact T].
    split; [destruct g; [cbn in S; lia|discriminate]|]. exists g, []. split; [apply tidy_proper; exact T|reflexivity].
  - intros T S. split; [|apply tidy_listed; exact T]. split; [destruct g; [cbn in S; lia|discriminate]|apply tidy_proper; exact T].
  - intros T S.
    assert (M : forall v, mentioned a v <-> (v < size a)%nat).
    { destruct a as [m|d|d|]; cbn [mentioned size tidy_in] in *; [reflexivity|apply tidy_listed; apply T| |destruct T].
      intro v. destruct T as (_ & A & B). split.
      - intros [I|(u & l & I & J)]; [rewrite A in I; apply in_seq in I; lia|]. destruct (B _ _ I) as [_ F]. rewrite Forall_forall in F. exact (F _ J).
      - intro L. left. rewrite A. apply in_seq. lia. }
    split; [|exact M]. split; [|exists 0%nat; apply M; exact S].
    destruct a as [m|d|d|]; cbn [proper_in tidy_in] in *; [exact T| | |destruct T].
    + split; [apply T|apply tidy_proper; apply T].
    + split; [apply T|]. rewrite (proj1 (proj2 T)). apply seq_NoDup.
Qed.

Lemma made_graph gi cls caps args no_args max bas junk u eps n d ins :
  make_network gi true cls caps args no_args max bas junk u eps = Ok (n, d, ins) -> network_graph gi true = Ok d.
Proof.
  unfold make_network, prepare_graph. destruct (network_graph gi true) as [d'|]; cbn [bind]; [|discriminate].
  destruct (set_queues _ _ _ _); cbn [bind]; [|discriminate]. destruct (wire out_pairs _ _ _); cbn [bind]; [|discriminate].
  destruct (wire in_pairs _ _ _); cbn [bind]; [|discriminate]. intro H.
  f_equal. exact (f_equal (fun r : res (net * dgraph * list (list nat)) => match r with Ok (_, x, _) => x | Err _ => d' end) H).
Qed.

(** In a network made from such a graph the number of every vertex, edge and
    queue is its place in g.nodes(), g.edges() and edge2queue.  So nothing
    that goes by place instead of number (C48, C55, C73, C76) goes wrong. *)
Theorem C90_network gi cls caps args no_args max bas junk u eps :
  let cls' := with_defaults cls default_classes in
  let args' := complete_args cls' args no_args in
  tidy_graph gi -> (0 < graph_size gi)%nat ->
  usable cls' args' 0 -> (forall x y o, listed (as_adj gi) x y o -> usable cls' args' (dflt o)) ->
  exists n d ins, make_network gi true cls caps args no_args max bas junk u eps = Ok (n, d, ins) /\
    g_nodes (dg_g d) = seq 0 (graph_size gi) /\
    (forall k e, nth_error (g_edges (dg_g d)) k = Some e <-> In (e, k) (dg_index d)) /\
    (forall k q, get (nt_queues n) k = Some q -> nth_error (g_edges (dg_g d)) k = Some (c_src (q_cfg q), c_tgt (q_cfg q))).
Proof.
  intros cls' args' T S U0 UT. destruct (tidy_described gi T S) as [PG VN].
  destruct (network_ok gi cls caps args no_args max bas junk u eps _ PG VN U0 UT) as (n & d & ins & qs & out & M & W & V & A & TY & LO & B & Q).
  exists n, d, ins. split; [exact M|]. destruct (network_tidy _ _ _ T (made_graph _ _ _ _ _ _ _ _ _ _ _ _ _ M)) as (g & TG & E).
  assert (X := tidy_new g TG). cbn zeta in X. rewrite <- E in X. destruct X as (DG & ND & PL).
  assert (ORD : forall k e, nth_error (g_edges (dg_g d)) k = Some e <-> In (e, k) (dg_index d)).
  { intros k e. split; [apply PL|]. apply in_order_all; assumption. }
  split; [|split; [exact ORD|]].
  - rewrite ND. f_equal. assert (L : forall v, (v < length g)%nat <-> (v < graph_size gi)%nat).
    { intro v. rewrite <- V. unfold vertex. rewrite DG, (proj1 TG), in_seq. lia. }
    destruct (L (length g)), (L (graph_size gi)). lia.
  - intros k q G. assert (K : exists e, In (e, k) (dg_index d)) by (apply (bu_count _ _ _ _ B); apply (get_lt _ _ _ G)).
    destruct K as ([x y] & I). destruct (index_arc d x y k W I) as (o & ED).
    assert (O : exists t, o = Some t) by (destruct (TY x y o ED) as [->|(o' & _ & ->)]; eauto). destruct O as (t & ->).
    destruct (bu_queue _ _ _ _ B x y k t I ED) as (q' & c & G' & _ & S1 & S2 & _). replace q' with q in * by congruence. rewrite S1, S2. apply ORD. exact I.
Qed.
Print Assumptions C90_network.

Definition g90 : list (nat * list (nat * option Z)) := [(0, [(1, Some 1%Z)]); (1, [(0, Some 1%Z); (2, Some 4%Z)]); (2, [(2, Some 0%Z)])]%nat.
Example C90_network_ex : tidy_graph (GGraph g90) /\
  exists n d ins, make_network (GGraph g90) true [] [] None plain Inf true (Inf, 0%nat) (fun _ => 1 # 2)%Q (fun _ => 1) = Ok (n, d, ins) /\
    g_edges (dg_g d) = [(0, 1); (1, 0); (1, 2); (2, 2)]%nat /\ map (fun q => (c_src (q_cfg q), c_tgt (q_cfg q))) (nt_queues n) = [(0, 1); (1, 0); (1, 2); (2, 2)]%nat /\
    nt_out n = [[0]; [1; 2]; [3]]%nat.
Proof.
  split; [|do 3 eexists; split; vm_compute; auto].
  split; [reflexivity|]. intros u r [H|[H|[H|[]]]]; injection H as <- <-; (split; [repeat constructor|repeat constructor; cbn; lia]).
Qed.

(** [set_transitions] with a matrix and [transitions] return what was
    accepted (C48), without a condition on dead ends. *)
Theorem C90_transitions gi d m p : tidy_graph gi -> network_graph gi true = Ok d -> dwf d -> shaped d p ->
  (square (length p) m /\ rows_ok d m /\ nonneg m ->
    exists p', set_matrix d m p = (p', Ok tt) /\ shaped d p' /\ forall v w x, route (transitions_dict d p') v w x <-> arc (dg_g d) v w /\ entry m v w x) /\
  (~ (square (length p) m /\ rows_ok d m /\ nonneg m) -> set_matrix d m p = (p, Err ValueError)).
Proof.
  intros T N W S. apply C48_matrix_partial; [exact W|exact S|]. left. destruct (network_tidy _ _ _ T N) as (g & TG & ->).
  destruct (tidy_new g TG) as (DG & ND & _). rewrite ND, seq_length. reflexivity.
Qed.
Print Assumptions C90_transitions.

(** Every edge shows the colour of its own queue in a new network and after
    [reset_colors] (C55). *)
Theorem C90_colors gi d qs lk ins nl p : tidy_graph gi -> network_graph gi true = Ok d -> dressed d qs lk ins nl ->
  (exists p', prepare_colors d qs lk nl p = Ok p' /\
     forall e k, In (e, k) (dg_index d) -> edge_shows p' e (plain_color (base_color (lk k) e))) /\
  (exists p', reset_colors d qs lk nl p = Ok p' /\
     (forall u v k, In ((u, v), k) (dg_index d) -> u <> v -> edge_shows p' (u, v) (plain_color (base_color (lk k) (u, v)))) /\
     (forall v, vertex (dg_g d) v -> fill_shows p' v (plain_color (nk_fill nl)))).
Proof.
  intros T N D. destruct (network_tidy _ _ _ T N) as (g & TG & E). assert (X := tidy_new g TG). cbn zeta in X. rewrite <- E in X. destruct X as (_ & _ & PL).
  split; [apply (C55_prepared_partial d qs lk ins nl p D PL)|apply (C55_reset_partial d qs lk ins nl p D PL)].
Qed.
Print Assumptions C90_colors.

(** The picture of a new network has every vertex in its place (C76). *)
Theorem C90_picture gi d0 d qs lk ins nl layout s P : tidy_graph gi -> test_graph gi = Ok d0 -> network_graph gi true = Ok d -> dressed d qs lk ins nl -> dg_g d <> [] ->
  (forall v, vertex (dg_g d0) v -> placed s v (P v)) ->
  exists s1 p1 p2, prepare_props true d0 d layout s = Ok s1 /\ prepare_colors d qs lk nl blank = Ok p1 /\ update_all_colors d qs lk ins nl p1 = Ok p2 /\
    shown d lk ins nl qs p2 /\ (forall v, vertex (dg_g d) v -> vp d v NPos s1 = Ok (P v)) /\
    forall ws1 ws2, writes (write_paint d) ws1 blank = Ok p1 -> writes (write_paint d) ws2 p1 = Ok p2 ->
      exists s2 s3, writes (write_props d) ws1 s1 = Ok s2 /\ writes (write_props d) ws2 s2 = Ok s3 /\ mirrors d p2 s3 /\ located d P s3 /\
        forall layout', exists pic, lines_scatter_args d layout' None s3 = Ok (pic, s3) /\ pictured d P p2 pic.
Proof.
  intros T T0 N D NE PL. destruct (test_tidy _ _ T T0) as (g & TG & E).
  apply (C76_new_partial gi d0 d qs lk ins nl layout s P T0); try assumption.
  - rewrite E. apply dg_new_ok. apply tidy_proper. exact TG.
  - rewrite E. destruct (tidy_new g TG) as (DG & ND & _). unfold nodes_in_order. rewrite ND, seq_length. reflexivity.
Qed.
Print Assumptions C90_picture.
