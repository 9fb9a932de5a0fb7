(** * PropsRoute: claims about the selection of queues and about routing
      probabilities (C42, C48, C49) *)
From Coq Require Import List ZArith QArith Qabs Bool Arith Lia Lqa.
From Verif Require Import Base Dict UnionFind Graph SpecGraph GraphProofs GraphClaims GraphNet GraphIndex.
From Verif Require Import Queue Network SpecBuild GraphBuild PropsBuild Routing SpecRoute RoutingProofs RoutingGen.
Import ListNotations.
Open Scope Z_scope.

(** The graphs here are those made by [QueueNetworkDiGraph] and changed by
    [add_edge] ([dwf]; see [C48_built] and C47). *)

(** ** C42: selection by index, edge or type *)

Theorem C42_select d : dwf d ->
  (forall k e t, get_queues d (QsInt k) e t = Ok [k]) /\
  (forall l e t, get_queues d (QsIter l) e t = Ok l) /\
  (forall u v k t, In ((u, v), k) (dg_index d) -> get_queues d QsNone (EdInts [u; v]) t = Ok [k]) /\
  (forall u v t, ~ arc (dg_g d) u v -> get_queues d QsNone (EdInts [u; v]) t = Err KeyError) /\
  (forall es t, es <> [] -> (forall u v, In (u, v) es -> arc (dg_g d) u v) ->
    exists ks, get_queues d QsNone (EdListTuples (map (fun e => [fst e; snd e]) es)) t = Ok ks /\ Forall2 (fun e k => In (e, k) (dg_index d)) es ks) /\
  (forall es t u v, In (u, v) es -> ~ arc (dg_g d) u v -> get_queues d QsNone (EdListTuples (map (fun e => [fst e; snd e]) es)) t = Err KeyError) /\
  (forall ts, exists ks, get_queues d QsNone EdNone (TyIter ts) = Ok ks /\ NoDup ks /\
    forall k, In k ks <-> exists u v t, In ((u, v), k) (dg_index d) /\ edge (dg_g d) u v (Some t) /\ In t ts) /\
  (forall x, exists ks, get_queues d QsNone EdNone (TyInt x) = Ok ks /\ NoDup ks /\
    forall k, In k ks <-> exists u v, In ((u, v), k) (dg_index d) /\ edge (dg_g d) u v (Some x)) /\
  (exists ks, get_queues d QsNone EdNone TyNone = Ok ks /\ NoDup ks /\ forall k, In k ks <-> exists e, In (e, k) (dg_index d)).
Proof.
  intro W. split; [reflexivity|]. split; [reflexivity|]. split; [|split; [|split; [|split; [|split; [|split]]]]].
  - intros u v k t I. cbn -[tuple_index]. rewrite (tuple_index_ok d u v k W I). reflexivity.
  - intros u v t NA. cbn -[tuple_index]. rewrite (tuple_index_err d u v W NA). reflexivity.
  - intros es t NE A. destruct (tuple_indices_ok d W es A) as (ks & E & F). exists ks. split; [|exact F]. destruct es as [|e es]; [congruence|].
    cbn [map] in *. cbn [get_queues queues_by_edge]. rewrite (len2_pairs (e :: es) : forallb len2 ([fst e; snd e] :: map (fun e => [fst e; snd e]) es) = true). rewrite E. reflexivity.
  - intros es t u v I NA. assert (E := tuple_indices_err d W es u v I NA). destruct es as [|e es]; [destruct I|].
    cbn [map] in *. cbn [get_queues queues_by_edge]. rewrite (len2_pairs (e :: es) : forallb len2 ([fst e; snd e] :: map (fun e => [fst e; snd e]) es) = true). rewrite E. reflexivity.
  - intro ts. destruct (by_type_ok d ts W (g_edges (dg_g d)) (g_edges_nodup _ (dw_proper _ W))) as (ks & E & N & M); [intros u v; apply g_edges_in|].
    exists ks. split; [exact E|]. split; [exact N|]. intro k. rewrite M. split; intros (u & v & t & H); exists u, v, t; [tauto|]. split; [|exact H]. apply g_edges_in. eapply index_arc; [exact W|apply H].
  - intro x. destruct (by_type_ok d [x] W (g_edges (dg_g d)) (g_edges_nodup _ (dw_proper _ W))) as (ks & E & N & M); [intros u v; apply g_edges_in|].
    exists ks. split; [exact E|]. split; [exact N|]. intro k. rewrite M. split.
    + intros (u & v & t & _ & I & X & [<-|[]]). exists u, v. auto.
    + intros (u & v & I & X). exists u, v, x. split; [apply g_edges_in; eapply index_arc; [exact W|exact I]|]. cbn. auto.
  - eexists. split; [reflexivity|]. split; [apply seq_NoDup|]. intro k. apply all_queues; exact W.
Qed.
Print Assumptions C42_select.

(** The network of C60: edges 0-1, 1-0, 1-2 and the loop 2-2 of type 0. *)
Definition net60 : net := match n60 with Ok (n, _, _) => n | _ => new_net [] [] Inf true (Inf, 0%nat) (fun _ => 0)%Q (fun _ => 0) end.
Definition d60 : dgraph := match n60 with Ok (_, d, _) => d | _ => dg_new [] end.

(** ** C48: the probabilities that were set are returned *)

(** Networks built by [QueueNetwork] satisfy the conditions of the theorems
    below; so do the results of [set_transitions]. *)
Theorem C48_built gi cls caps args no_args max bas junk u eps N :
  let cls' := with_defaults cls default_classes in
  let args' := complete_args cls' args no_args in
  proper_graph gi -> (forall v, mentioned (as_adj gi) v <-> (v < N)%nat) ->
  usable cls' args' 0 -> (forall x y o, listed (as_adj gi) x y o -> usable cls' args' (dflt o)) ->
  exists n d ins, make_network gi true cls caps args no_args max bas junk u eps = Ok (n, d, ins) /\
    dwf d /\ shaped d (nt_probs n) /\ out_fits d (nt_out n) /\ sound (nt_probs n).
Proof.
  intros cls' args' PG VN U0 UT.
  destruct (network_ok gi cls caps args no_args max bas junk u eps N PG VN U0 UT) as (n & d & ins & qs & out & M & W & V & A & TY & LO & B & _).
  exists n, d, ins. split; [exact M|]. split; [exact W|]. eapply built_shaped; [exact W| |exact B].
  intros v Vv. rewrite (sub_seq_length (g_nodes (dg_g d)) N); [apply V; exact Vv|apply W|exact V].
Qed.
Print Assumptions C48_built.

Lemma built60 : dwf d60 /\ shaped d60 (nt_probs net60) /\ out_fits d60 (nt_out net60) /\ sound (nt_probs net60).
Proof.
  destruct C60_ex as (H1 & H2 & _).
  destruct (C48_built g60 [] [] None plain (Fin 100) true (Inf, 0%nat) (fun _ => 1 # 2)%Q (fun _ => 1) 3 H1 H2) as (n & d & ins & M & K).
  - exists CNull, plain. repeat split.
  - intros x y o L. cbn in L. destruct L as [-> _]. exists CServer, plain; repeat split.
  - assert (D : d = d60) by (unfold d60, n60; rewrite M; reflexivity). assert (Nn : n = net60) by (unfold net60, n60; rewrite M; reflexivity). subst. exact K.
Qed.

Definition dwf60 : dwf d60 := proj1 built60.
Definition shaped60 : shaped d60 (nt_probs net60) := proj1 (proj2 built60).
Definition fits60 : out_fits d60 (nt_out net60) := proj1 (proj2 (proj2 built60)).
Definition sound60 : sound (nt_probs net60) := proj2 (proj2 (proj2 built60)).

Example C42_ex : dwf d60 /\ get_queues d60 QsNone (EdListTuples [[1; 2]; [0; 1]]%nat) TyNone = Ok [2; 0]%nat /\
  get_queues d60 QsNone EdNone (TyIter [0; 7]) = Ok [3]%nat /\ get_queues d60 QsNone (EdInts [0; 2]%nat) TyNone = Err KeyError /\ ~ arc (dg_g d60) 0 2.
Proof.
  split; [exact dwf60|]. split; [vm_compute; reflexivity|]. split; [vm_compute; reflexivity|]. split; [vm_compute; reflexivity|]. intro A. apply g_edges_in in A. vm_compute in A. intuition discriminate.
Qed.

(** If a member of the list is not a pair, all queues are selected, whatever
    the other members and the types say. *)
Theorem C42_not_pairs : forall d l t e, In e l -> length e <> 2%nat ->
  get_queues d QsNone (EdListTuples l) t = Ok (seq 0 (length (g_edges (dg_g d)))) /\
  get_queues d QsNone (EdListLists l) t = Ok (seq 0 (length (g_edges (dg_g d)))).
Proof.
  intros d l t e I N. destruct l as [|x l]; [destruct I|]. cbn [get_queues queues_by_edge].
  assert (F : forallb len2 (x :: l) = false).
  { apply not_true_is_false. intro F. rewrite forallb_forall in F. apply F in I. apply Nat.eqb_eq in I. contradiction. }
  rewrite F. split; reflexivity.
Qed.
Print Assumptions C42_not_pairs.
Example C42_not_pairs_ex : In [0; 1; 2]%nat [[0; 1]; [0; 1; 2]]%nat /\ get_queues d60 QsNone (EdListTuples [[0; 1]; [0; 1; 2]]%nat) (TyInt 0) = Ok [0; 1; 2; 3]%nat.
Proof. split; [right; left; reflexivity|]. vm_compute. reflexivity. Qed.

(** The documentation of [edge] allows "an iterable of 2-tuples".  A tuple of
    tuples selects all queues; a list of lists is a TypeError. *)
Theorem C42_tuple_of_tuples_refuted : exists d u v ks k, dwf d /\ arc (dg_g d) u v /\
  get_queues d QsNone (EdTuples [[u; v]]) TyNone = Ok ks /\ In k ks /\ ~ In ((u, v), k) (dg_index d).
Proof.
  exists d60, 0%nat, 1%nat, [0; 1; 2; 3]%nat, 3%nat. split; [exact dwf60|]. split; [|split; [vm_compute; reflexivity|split; [cbn; auto|]]].
  - apply g_edges_in. vm_compute. auto.
  - vm_compute. intuition discriminate.
Qed.
Print Assumptions C42_tuple_of_tuples_refuted.
Theorem C42_list_of_lists_refuted : exists d u v, dwf d /\ arc (dg_g d) u v /\ get_queues d QsNone (EdListLists [[u; v]]) TyNone = Err TypeError.
Proof. exists d60, 0%nat, 1%nat. split; [exact dwf60|]. split; [|vm_compute; reflexivity]. apply g_edges_in. vm_compute. auto. Qed.
Print Assumptions C42_list_of_lists_refuted.

(** A dictionary: the given vertices get what it says, 0 for neighbours it
    does not mention; the others keep their probabilities. *)
Theorem C48_dict d out m p : dwf d -> out_fits d out -> shaped d p -> dict_ok m -> (forall v r, In (v, r) m -> good_row d v r) ->
  exists p', set_dict d out m p = (p', Ok tt) /\ shaped d p' /\
  forall v w x, route (transitions_dict d p') v w x <->
    (exists r, In (v, r) m /\ arc (dg_g d) v w /\ says r w x) \/ ((forall r, ~ In (v, r) m) /\ route (transitions_dict d p) v w x).
Proof. intros W OF SH. exact (set_dict_ok d out W OF m p SH). Qed.
Print Assumptions C48_dict.

Definition m48 : list (nat * list (nat * Q)) := [(1%nat, [(2%nat, 3 # 4); (0%nat, 1 # 4)])].
Example C48_dict_ex : out_fits d60 (nt_out net60) /\ dict_ok m48 /\ (forall v r, In (v, r) m48 -> good_row d60 v r) /\
  exists p', set_dict d60 (nt_out net60) m48 (nt_probs net60) = (p', Ok tt) /\
    transitions_dict d60 p' = [(0%nat, [(1%nat, 1 / 1)]); (1%nat, [(0%nat, 1 # 4); (2%nat, 3 # 4)]); (2%nat, [(2%nat, 1 / 1)])]%Q.
Proof.
  split; [exact fits60|]. split; [|split].
  - split; [repeat constructor; cbn; tauto|]. intros v r [Q|[]]. injection Q as <- <-. repeat constructor; cbn; intuition discriminate.
  - intros v r [Q|[]]. injection Q as <- <-. split; [vm_compute; auto|]. split; [intros _; vm_compute; discriminate|]. intros w x [Q|[Q|[]]]; injection Q as <- <-; discriminate.
  - eexists. split; vm_compute; reflexivity.
Qed.

(** What [transitions] returns is what the agents use. *)
Theorem C48_used d cls n ins p v w x : dwf d -> built d cls n ins -> shaped d p ->
  beside d (nt_out n) p v w x <-> route (transitions_dict d p) v w x.
Proof. exact (beside_route d cls n ins p v w x). Qed.
Print Assumptions C48_used.

Example C48_used_ex : (exists ins, built d60 (with_defaults [] default_classes) net60 ins) /\ shaped d60 (nt_probs net60) /\
  exists p', set_dict d60 (nt_out net60) m48 (nt_probs net60) = (p', Ok tt) /\ beside d60 (nt_out net60) p' 1 2 (3 # 4) /\ beside d60 (nt_out net60) p' 1 0 (1 # 4).
Proof.
  split; [|split; [exact shaped60|]].
  - destruct C60_ex as (H1 & H2 & _). destruct (C60_network g60 [] [] None plain (Fin 100) true (Inf, 0%nat) (fun _ => 1 # 2)%Q (fun _ => 1) 3 H1 H2) as (n & d & ins & M & _ & _ & _ & _ & _ & B).
    + exists CNull, plain. repeat split.
    + intros x y o L. cbn in L. destruct L as [-> _]. exists CServer, plain; repeat split.
    + exists ins. assert (D : d = d60) by (unfold d60, n60; rewrite M; reflexivity). assert (Nn : n = net60) by (unfold net60, n60; rewrite M; reflexivity). subst. exact B.
  - eexists. split; [vm_compute; reflexivity|]. split.
    + exists [1; 2]%nat. eexists. exists 1%nat, 2%nat. vm_compute. auto 10.
    + exists [1; 2]%nat. eexists. exists 0%nat, 1%nat. vm_compute. auto 10.
Qed.

(** A matrix is accepted exactly when its shape is right, the rows of the
    vertices with out-edges add up to one and nothing is negative, provided
    that the vertices are listed in order or all have out-edges. *)
Theorem C48_matrix_partial d m p : dwf d -> shaped d p -> in_order d ->
  (square (length p) m /\ rows_ok d m /\ nonneg m ->
    exists p', set_matrix d m p = (p', Ok tt) /\ shaped d p' /\ forall v w x, route (transitions_dict d p') v w x <-> arc (dg_g d) v w /\ entry m v w x) /\
  (~ (square (length p) m /\ rows_ok d m /\ nonneg m) -> set_matrix d m p = (p, Err ValueError)).
Proof.
  intros W SH O. split.
  - intros (SQ & R & NN). apply set_matrix_ok; auto. apply (order_checked d p m W SH SQ O). exact R.
  - intro H. destruct (set_matrix_spec d m p W SH) as [(SQ & CH & NN & _)|(_ & E)]; [|exact E]. exfalso. apply H. split; [exact SQ|]. split; [|exact NN]. apply (order_checked d p m W SH SQ O). exact CH.
Qed.
Print Assumptions C48_matrix_partial.

(** [transitions()] gives a square matrix with the same probabilities and 0
    where there is no edge. *)
Theorem C48_transitions d p : dwf d -> shaped d p -> exists m, transitions_mat d p = Ok m /\ square (length p) m /\
  (forall v w x, route (transitions_dict d p) v w x -> entry m v w x) /\
  (forall v w, arc (dg_g d) v w -> exists x, route (transitions_dict d p) v w x) /\
  (forall v w, (v < length p)%nat -> (w < length p)%nat -> ~ arc (dg_g d) v w -> entry m v w 0%Q).
Proof.
  intros W SH. destruct (transitions_mat_ok d p W SH) as (m & E & SQ & A & B). exists m. split; [exact E|]. split; [exact SQ|]. split; [exact A|]. split; [|exact B].
  intros v w. apply route_ex; assumption.
Qed.
Print Assumptions C48_transitions.

(** [generate_transition_matrix] gives probabilities on the edges ... *)
Theorem C48_generate gi d N rand pick : test_graph gi = Ok d -> dwf d -> (forall v, vertex (dg_g d) v <-> (v < N)%nat) -> (forall j, 0 <= rand j)%Q ->
  (forall v, (2 <= length (targets_of (dg_g d) v))%nat -> (pick v < length (targets_of (dg_g d) v))%nat) ->
  exists m, generate_transition_matrix gi rand pick = Ok m /\ square N m /\ nonneg m /\
  (forall v r, (exists w, arc (dg_g d) v w) -> nth_error m v = Some r -> total r == 1)%Q /\
  (forall v w, (v < N)%nat -> (w < N)%nat -> ~ arc (dg_g d) v w -> entry m v w 0%Q).
Proof. exact (gen_ok gi d N rand pick). Qed.
Print Assumptions C48_generate.

(** ... which a network with the same vertices and edges accepts, and gives
    back unchanged. *)
Theorem C48_generated_accepted_partial gi d0 d p rand pick : test_graph gi = Ok d0 -> dwf d0 -> dwf d -> shaped d p ->
  (forall v, vertex (dg_g d0) v <-> vertex (dg_g d) v) -> (forall v w, arc (dg_g d0) v w <-> arc (dg_g d) v w) -> in_order d ->
  (forall j, 0 <= rand j)%Q -> (forall v ws, NoDup ws -> (forall w, In w ws <-> arc (dg_g d) v w) -> (2 <= length ws)%nat -> (pick v < length ws)%nat) ->
  exists m p', generate_transition_matrix gi rand pick = Ok m /\ set_matrix d m p = (p', Ok tt) /\ shaped d p' /\ transitions_mat d p' = Ok m.
Proof. exact (generated_accepted gi d0 d p rand pick). Qed.
Print Assumptions C48_generated_accepted_partial.

Definition rand48 (j : nat) : Q := (Z.of_nat j + 1) # 10.
Example C48_ex : in_order d60 /\ (forall j, 0 <= rand48 j)%Q /\ exists m p', generate_transition_matrix (GIndexed d60) rand48 (fun _ => 0%nat) = Ok m /\
  (forall v w x, entry m v w x -> ~ x == 0 -> (v, w, Qred x) = (0%nat, 1%nat, 1%Q) \/ (v, w, Qred x) = (1%nat, 0%nat, 1 # 3) \/ (v, w, Qred x) = (1%nat, 2%nat, 2 # 3) \/ (v, w, Qred x) = (2%nat, 2%nat, 1%Q))%Q /\
  set_matrix d60 m (nt_probs net60) = (p', Ok tt) /\ transitions_mat d60 p' = Ok m.
Proof.
  split; [|split; [|do 2 eexists; split; [vm_compute; reflexivity|split; [|split; vm_compute; reflexivity]]]].
  - right. intros v V. vm_compute in V. assert (v = 1 \/ v = 0 \/ v = 2)%nat as [->|[->| ->]] by lia; eexists; apply g_edges_in; vm_compute; auto.
  - intro j. unfold rand48, Qle. cbn. lia.
  - intros v w x (r & G & K) NZ. destruct v as [|[|[|v]]]; cbn in G; try (destruct v; discriminate); injection G as <-; destruct w as [|[|[|w]]]; cbn in K; try (destruct w; discriminate); injection K as <-;
      vm_compute; auto; exfalso; apply NZ; reflexivity.
Qed.

(** Not so when the order of the vertices is another one: the test whether a
    vertex has out-edges is made in the order of [g.nodes()], but used for the
    rows (queue_network.py:1121, 1126).  The vertices of this graph
    are listed as 1, 0, and 0 is a dead end. *)
Definition g48 : graph := [(1%nat, [(0%nat, Some 0)]); (0%nat, [])].
Definition n48 := make_network (GGraph g48) true [] [] None plain (Fin 100) true (Inf, 0%nat) (fun _ => 1 # 2)%Q (fun _ => 1).
Theorem C48_generated_refuted : exists g n d ins m p',
  make_network (GGraph g) true [] [] None plain (Fin 100) true (Inf, 0%nat) (fun _ => 1 # 2)%Q (fun _ => 1) = Ok (n, d, ins) /\
  shaped d (nt_probs n) /\ generate_transition_matrix (GGraph g) rand48 (fun _ => 0%nat) = Ok m /\ set_matrix d m (nt_probs n) = (p', Err ValueError).
Proof.
  assert (X : exists n d ins, n48 = Ok (n, d, ins) /\ dwf d /\ shaped d (nt_probs n) /\ out_fits d (nt_out n) /\ sound (nt_probs n)).
  { apply (C48_built (GGraph g48) [] [] None plain (Fin 100) true (Inf, 0%nat) (fun _ => 1 # 2)%Q (fun _ => 1) 2).
    - split; [discriminate|]. split; [repeat constructor; cbn; intuition discriminate|]. intros v r [Q|[Q|[]]]; injection Q as <- <-; repeat constructor; cbn; tauto.
    - intro v. cbn. split; [|intro L; assert (v = 0 \/ v = 1)%nat as [->| ->] by lia; auto]. intros [H|(x & o & r & [Q|[Q|[]]] & J)]; [lia| |]; injection Q as <- <-; cbn in J; [|tauto]. destruct J as [J|[]]. injection J as <- _. lia.
    - exists CNull, plain. repeat split.
    - intros x y o (r & [Q|[Q|[]]] & J); injection Q as <- <-; cbn in J; [|tauto]. destruct J as [J|[]]. injection J as <- <-. exists CNull, plain. repeat split. }
  destruct X as (n & d & ins & E & _ & SH & _). exists g48, n, d, ins, [[0; 0]; [1; 0]]%Q, (nt_probs n).
  split; [exact E|]. split; [exact SH|]. split; [vm_compute; reflexivity|].
  assert (D : d = match n48 with Ok (_, d, _) => d | _ => d60 end) by (rewrite E; reflexivity). assert (Nn : n = match n48 with Ok (n, _, _) => n | _ => n end) by (rewrite E; reflexivity).
  rewrite D, Nn. vm_compute. reflexivity.
Qed.
Print Assumptions C48_generated_refuted.

(** ** C49: a rejected set_transitions changes nothing *)

Theorem C49_matrix_atomic d m p p' e : dwf d -> shaped d p -> set_matrix d m p = (p', Err e) -> p' = p /\ e = ValueError.
Proof. exact (set_matrix_err d m p p' e). Qed.
Print Assumptions C49_matrix_atomic.

(** Of a dictionary, the keys before the first bad one are set. *)
Theorem C49_dict_partial d out m p p' e : dwf d -> out_fits d out -> shaped d p -> set_dict d out m p = (p', Err e) ->
  e = ValueError /\ exists pre key value post, m = pre ++ (key, value) :: post /\ ~ good_row d key value /\ (forall v r, In (v, r) pre -> good_row d v r) /\
    set_dict d out pre p = (p', Ok tt) /\ (pre = [] -> p' = p).
Proof.
  intros W OF SH E. destruct (set_dict_err d out W OF m p p' e SH E) as (H & pre & key & value & post & H1 & H2 & H3 & H4). split; [exact H|].
  exists pre, key, value, post. repeat (split; [assumption|]). intros ->. cbn in H4. congruence.
Qed.
Print Assumptions C49_dict_partial.

(** Exactly the dictionaries all of whose rows are good are accepted. *)
Theorem C49_dict_accepts d out m p : dwf d -> out_fits d out -> shaped d p -> dict_ok m ->
  (exists p', set_dict d out m p = (p', Ok tt)) <-> forall v r, In (v, r) m -> good_row d v r.
Proof.
  intros W O SH D. split.
  - intros (p' & E). exact (set_dict_accepts d out W O m p p' SH E).
  - intro G. destruct (set_dict_ok d out W O m p SH D G) as (p' & E & _). exists p'. exact E.
Qed.
Print Assumptions C49_dict_accepts.
Example C49_accepts_ex : dict_ok [(0%nat, [(1%nat, 1 # 2)])]%Q /\ (exists e, snd (set_dict d60 (nt_out net60) [(0%nat, [(1%nat, 1 # 2)])]%Q (nt_probs net60)) = Err e) /\
  dict_ok m48 /\ exists p', set_dict d60 (nt_out net60) m48 (nt_probs net60) = (p', Ok tt).
Proof.
  split; [split; [repeat constructor; intros []|]; intros v r [Q|[]]; injection Q as <- <-; repeat constructor; intros []|].
  split; [eexists; vm_compute; reflexivity|]. split; [exact (proj1 (proj2 C48_dict_ex))|]. eexists. vm_compute. reflexivity.
Qed.

Theorem C49_dict_refuted : exists d out m p p' e, dwf d /\ out_fits d out /\ shaped d p /\ set_dict d out m p = (p', Err e) /\ transitions_dict d p' <> transitions_dict d p.
Proof.
  exists d60, (nt_out net60), (m48 ++ [(0%nat, [(1%nat, 1 # 2)])]), (nt_probs net60). do 2 eexists. split; [exact dwf60|]. split; [exact fits60|]. split; [exact shaped60|].
  split; [vm_compute; reflexivity|]. vm_compute. discriminate.
Qed.
Print Assumptions C49_dict_refuted.

(** If the keys are neighbours, the stored probabilities add up to one. *)
Theorem C49_dict_sums_partial d out m p p' : dwf d -> out_fits d out -> shaped d p -> dict_ok m ->
  (forall v r w x, In (v, r) m -> In (w, x) r -> (exists w', arc (dg_g d) v w') -> arc (dg_g d) v w) -> sound p ->
  set_dict d out m p = (p', Ok tt) -> sound p'.
Proof.
  intros W O SH D NB SP E. exact (set_dict_sound d out m p p' W O SH D (set_dict_accepts d out W O m p p' SH E) NB SP E).
Qed.
Print Assumptions C49_dict_sums_partial.
Theorem C49_matrix_sums_partial d m p p' : dwf d -> shaped d p -> in_order d ->
  (forall v w x, (exists w', arc (dg_g d) v w') -> ~ arc (dg_g d) v w -> entry m v w x -> x == 0)%Q ->
  set_matrix d m p = (p', Ok tt) -> sound p'.
Proof. exact (set_matrix_sound d m p p'). Qed.
Print Assumptions C49_matrix_sums_partial.

Example C49_ex : sound (nt_probs net60) /\ (forall v r w x, In (v, r) m48 -> In (w, x) r -> (exists w', arc (dg_g d60) v w') -> arc (dg_g d60) v w) /\
  set_matrix d60 [[0; 1; 0]; [1; 0; 0]; [0; 0; 1]]%Q (nt_probs net60) = ([[1]; [1; 0]; [1]]%Q, Ok tt) /\
  set_matrix d60 [[0; 1; 0]; [1; 0; 1]; [0; 0; 1]]%Q (nt_probs net60) = (nt_probs net60, Err ValueError).
Proof.
  split; [exact sound60|]. split; [|split; vm_compute; reflexivity].
  intros v r w x [Q|[]] I _. injection Q as <- <-. apply g_edges_in. vm_compute. destruct I as [Q|[Q|[]]]; injection Q as <- <-; auto.
Qed.

(** Keys that are not neighbours count in the sum but are not stored. *)
Theorem C49_neighbours_refuted : exists d out m p p', dwf d /\ out_fits d out /\ shaped d p /\ sound p /\ set_dict d out m p = (p', Ok tt) /\ ~ sound p'.
Proof.
  exists d60, (nt_out net60), [(0%nat, [(2%nat, 1%Q)])], (nt_probs net60). eexists. split; [exact dwf60|]. split; [exact fits60|]. split; [exact shaped60|]. split; [exact sound60|].
  split; [vm_compute; reflexivity|]. intro S. destruct (S 0%nat [0%Q]) as [H _]; [vm_compute; reflexivity|discriminate|]. vm_compute in H. apply H. reflexivity.
Qed.
Print Assumptions C49_neighbours_refuted.
Theorem C49_off_edge_refuted : exists d m p p', dwf d /\ in_order d /\ shaped d p /\ sound p /\ set_matrix d m p = (p', Ok tt) /\ ~ sound p'.
Proof.
  exists d60, [[1; 0; 0]; [1; 0; 0]; [0; 0; 1]]%Q, (nt_probs net60). eexists. split; [exact dwf60|]. split; [exact (proj1 C48_ex)|]. split; [exact shaped60|]. split; [exact sound60|].
  split; [vm_compute; reflexivity|]. intro S. destruct (S 0%nat [0%Q]) as [H _]; [vm_compute; reflexivity|discriminate|]. vm_compute in H. apply H. reflexivity.
Qed.
Print Assumptions C49_off_edge_refuted.
(** With the vertices listed as 1, 0, a matrix whose row for vertex 1 is
    zero is accepted. *)
Theorem C49_order_refuted : exists n d ins p', n48 = Ok (n, d, ins) /\ sound (nt_probs n) /\
  set_matrix d [[1; 0]; [0; 0]]%Q (nt_probs n) = (p', Ok tt) /\ ~ sound p'.
Proof.
  assert (X : exists n d ins, n48 = Ok (n, d, ins) /\ nt_probs n = [[]; [1 / 1]]%Q /\ set_matrix d [[1; 0]; [0; 0]]%Q (nt_probs n) = ([[]; [0]]%Q, Ok tt)).
  { do 3 eexists. split; [vm_compute; reflexivity|]. split; vm_compute; reflexivity. }
  destruct X as (n & d & ins & E & P & M). exists n, d, ins, [[]; [0]]%Q. split; [exact E|]. split; [|split; [exact M|]].
  - rewrite P. intros v row G NE. destruct v as [|[|v]]; cbn in G; [congruence| |destruct v; discriminate]. injection G as <-. split; [vm_compute; discriminate|]. intros x [<-|[]]. discriminate.
  - intro S. destruct (S 1%nat [0%Q]) as [H _]; [vm_compute; reflexivity|discriminate|]. vm_compute in H. apply H. reflexivity.
Qed.
Print Assumptions C49_order_refuted.
