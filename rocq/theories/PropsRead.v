(** * PropsRead: claim C91: reading graphs and agents *)
From Coq Require Import List ZArith QArith Bool Arith Lia.
From Verif Require Import Base Dict UnionFind UnionFindProofs Graph SpecGraph GraphProofs GraphClaims GraphNet GraphIndex GraphBuild Queue NetSteps QueueClaims5 Network Colors Drawing DrawProofs DrawMake GraphRead.
Import ListNotations.
Open Scope Z_scope.

(** ** Edges *)

(** [get_edge_type(t)] gives exactly the edges of type [t], each once. *)
Theorem C91_types d t : dwf d -> NoDup (get_edge_type d t) /\ forall u v, In (u, v) (get_edge_type d t) <-> edge (dg_g d) u v (Some t).
Proof.
  intro W. split; [apply NoDup_filter; apply g_edges_nodup; apply W|]. intros u v. unfold get_edge_type. rewrite filter_In, g_edges_in.
  assert (E : forall x, ep_type d (u, v) = Ok x <-> edge (dg_g d) u v x).
  { intro x. split; [|apply ep_type_ok; exact W]. unfold ep_type. cbn [fst snd]. intro H.
    destruct (nget (dg_g d) u) as [r|] eqn:R; cbn [bind] in H; [|discriminate]. apply nget_Ok in R, H. exists r.
    split; apply (mget_In _ neq_eq); assumption. }
  split.
  - intros [_ H]. apply E. destruct (ep_type d (u, v)) as [[x|]|]; try discriminate. apply Z.eqb_eq in H. congruence.
  - intro H. split; [exists (Some t); exact H|]. apply E in H. rewrite H. apply Z.eqb_refl.
Qed.
Print Assumptions C91_types.

(** [out_neighbours] and the dictionary of lists give exactly the vertices
    that an edge leads to, each once. *)
Theorem C91_neighbours d v : dwf d -> vertex (dg_g d) v -> NoDup (out_neighbours d v) /\ forall w, In w (out_neighbours d v) <-> arc (dg_g d) v w.
Proof.
  intros W _. unfold out_neighbours, out_pairs. assert (N := g_edges_nodup _ (dw_proper _ W)).
  assert (IN : forall l w, In w (map snd (filter (fun e : nat * nat => Nat.eqb (fst e) v) l)) <-> In (v, w) l).
  { intros l w. rewrite in_map_iff. split.
    - intros ([x y] & E & I). cbn in E. subst y. apply filter_In in I as [I Q]. apply Nat.eqb_eq in Q. cbn in Q. subst x. exact I.
    - intro I. exists (v, w). split; [reflexivity|]. apply filter_In. split; [exact I|apply Nat.eqb_refl]. }
  split.
  - induction (g_edges (dg_g d)) as [|[x y] l IH]; cbn [filter map]; [constructor|]. inversion N as [|? ? NI N']; subst. cbn [fst].
    destruct (Nat.eqb x v) eqn:E; [|apply IH; exact N']. apply Nat.eqb_eq in E. subst x. cbn [map snd]. constructor; [|apply IH; exact N'].
    intro I. apply NI. apply IN. exact I.
  - intro w. rewrite IN. apply g_edges_in.
Qed.
Print Assumptions C91_neighbours.

Theorem C91_lists g : proper g -> map fst (graph2lists g) = g_nodes g /\
  (forall v l, In (v, l) (graph2lists g) -> NoDup l /\ forall w, In w l <-> arc g v w) /\
  (forall u v o, listed (ALists (graph2lists g)) u v o <-> o = None /\ arc g u v).
Proof.
  intro P. assert (R : forall v l, In (v, l) (graph2lists g) -> NoDup l /\ forall w, In w l <-> arc g v w).
  { intros v l I. unfold graph2lists in I. apply in_map_iff in I as ((v0 & r) & E & I). cbn in E. injection E as <- <-. split; [apply (proj2 P _ _ I)|].
    intro w. split.
    - intro J. apply in_map_iff in J as ((w0 & a) & E & J). cbn in E. subst w0. exists a, r. auto.
    - intros (a & r' & I' & J). assert (r' = r).
      { assert (X := mget_nodup _ neq_eq _ _ _ (proj1 P) I). assert (Y := mget_nodup _ neq_eq _ _ _ (proj1 P) I'). congruence. }
      subst r'. apply in_map_iff. exists (w, a). auto. }
  split; [unfold graph2lists; rewrite map_map; reflexivity|]. split; [exact R|].
  intros u v o. cbn [listed]. split.
  - intros (-> & l & I & J). split; [reflexivity|]. apply (proj2 (R _ _ I)). exact J.
  - intros (-> & A). split; [reflexivity|]. destruct A as (a & r & I & J). exists (map fst r). split.
    + unfold graph2lists. apply in_map_iff. exists (u, r). auto.
    + apply in_map_iff. exists (v, a). auto.
Qed.
Print Assumptions C91_lists.

(** ** Properties *)

Lemma add_names_spec l : forall acc, NoDup acc -> NoDup (add_names acc l) /\ forall p, In p (add_names acc l) <-> In p acc \/ In p l.
Proof.
  induction l as [|x l IH]; intros acc N; cbn [add_names fold_left]; [cbn; tauto|].
  assert (X : existsb (pn_eqb x) acc = true <-> In x acc).
  { rewrite existsb_exists. split; [intros (y & I & E); apply pn_eqb_eq in E; congruence|]. intro I. exists x. split; [exact I|apply pn_eqb_eq; reflexivity]. }
  destruct (existsb (pn_eqb x) acc) eqn:E.
  - destruct (IH acc N) as [A B]. split; [exact A|]. intro p. fold (add_names acc l). rewrite B. cbn. assert (In x acc) by (apply X; reflexivity). intuition congruence.
  - assert (NI : ~ In x acc) by (intro I; apply X in I; discriminate). destruct (IH (acc ++ [x])) as [A B].
    + apply (Permutation.Permutation_NoDup (Permutation.Permutation_cons_append acc x)). constructor; assumption.
    + split; [exact A|]. intro p. fold (add_names (acc ++ [x]) l). rewrite B, in_app_iff. cbn. tauto.
Qed.

Lemma names_of {A} (f : A -> list pname) l : forall acc, NoDup acc ->
  NoDup (fold_left (fun acc v => add_names acc (f v)) l acc) /\
  forall p, In p (fold_left (fun acc v => add_names acc (f v)) l acc) <-> In p acc \/ exists v, In v l /\ In p (f v).
Proof.
  induction l as [|x l IH]; intros acc N; cbn [fold_left].
  - split; [exact N|]. intro p. split; [auto|]. intros [H|(v & [] & _)]. exact H.
  - destruct (add_names_spec (f x) acc N) as [N1 A1]. destruct (IH _ N1) as [N2 B]. split; [exact N2|]. intro p. rewrite B, A1. split.
    + intros [[H|H]|(v & I & H)]; [left; exact H|right; exists x; cbn; auto|right; exists v; cbn; auto].
    + intros [H|(v & [->|I] & H)]; [auto|auto|right; eauto].
Qed.

(** [vertex_properties] and [edge_properties]: the names that some vertex or
    edge has. *)
Theorem C91_properties d s : dwf d ->
  NoDup (vertex_properties d s) /\ NoDup (snd (edge_properties d s)) /\
  (forall p, In p (vertex_properties d s) <-> exists v x, vertex (dg_g d) v /\ In (p, x) (attrs_v s v)) /\
  (forall p, In p (snd (edge_properties d s)) <-> exists u v x, arc (dg_g d) u v /\ In (p, x) (attrs_e s (u, v))) /\
  (fst (edge_properties d s) = true <-> exists u v t, edge (dg_g d) u v (Some t)) /\
  (In NPos (vertex_properties d s) <-> pos_attrs d s <> []).
Proof.
  intro W. destruct (names_of (fun v => map fst (attrs_v s v)) (g_nodes (dg_g d)) [] (NoDup_nil _)) as [NV V].
  destruct (names_of (fun e => map fst (attrs_e s e)) (g_edges (dg_g d)) [] (NoDup_nil _)) as [NE E].
  assert (VP : forall p, In p (vertex_properties d s) <-> exists v x, vertex (dg_g d) v /\ In (p, x) (attrs_v s v)).
  { intro p. unfold vertex_properties. rewrite V. split.
    - intros [[]|(v & I & J)]. apply in_map_iff in J as ((p0 & x) & Q & J). cbn in Q. subst p0. exists v, x. auto.
    - intros (v & x & I & J). right. exists v. split; [exact I|]. apply in_map_iff. exists (p, x). auto. }
  split; [exact NV|]. split; [exact NE|]. split; [exact VP|]. split; [|split].
  - intro p. unfold edge_properties. cbn [snd]. rewrite E. split.
    + intros [[]|([u v] & I & J)]. apply in_map_iff in J as ((p0 & x) & Q & J). cbn in Q. subst p0. exists u, v, x. split; [apply g_edges_in; exact I|exact J].
    + intros (u & v & x & I & J). right. exists (u, v). split; [apply g_edges_in; exact I|]. apply in_map_iff. exists (p, x). auto.
  - unfold edge_properties. cbn [fst]. rewrite existsb_exists. split.
    + intros ([u v] & I & H). destruct (ep_type d (u, v)) as [[t|]|] eqn:ET; try discriminate. exists u, v, t.
      apply (C91_types d t W). unfold get_edge_type. apply filter_In. split; [exact I|]. rewrite ET. apply Z.eqb_refl.
    + intros (u & v & t & ED). apply (C91_types d t W) in ED. unfold get_edge_type in ED. apply filter_In in ED as [I H]. exists (u, v). split; [exact I|].
      destruct (ep_type d (u, v)) as [[x|]|]; try discriminate. reflexivity.
  - rewrite VP. split.
    + intros (v & x & I & J). assert (X : exists y, mget pn_eqb (attrs_v s v) NPos = Some y) by (apply (mget_in _ pn_eqb_eq); apply in_map_iff; exists (NPos, x); auto).
      destruct X as (y & X). assert (K : In (v, y) (pos_attrs d s)) by (apply pos_attrs_in; auto). intro Z. rewrite Z in K. destruct K.
    + intro H. destruct (pos_attrs d s) as [|[v x] l] eqn:PA; [congruence|]. assert (K : In (v, x) (pos_attrs d s)) by (rewrite PA; left; reflexivity).
      apply pos_attrs_in in K as [K1 K2]. exists v, x. split; [exact K1|]. apply (mget_In _ pn_eqb_eq). exact K2.
Qed.
Print Assumptions C91_properties.

(** A new QueueNetworkDiGraph has the array [pos] if and only if every vertex
    has a position; then row [i] is the position of vertex [i] of g.nodes(). *)
Theorem C91_arrays d s : dwf d -> exists s', new_arrays d s = Ok s' /\ gp_ep s' = gp_ep s /\ gp_vp s' = gp_vp s /\
  gp_ecol s' = None /\ gp_vcol s' = None /\ gp_fill s' = None /\
  ((exists l, gp_pos s' = Some l) <-> forall v, vertex (dg_g d) v -> exists x, av s v NPos = Some x) /\
  (forall l, gp_pos s' = Some l -> Forall2 (fun v x => av s v NPos = Some x) (g_nodes (dg_g d)) l).
Proof.
  intro W. assert (ND := pos_attrs_nodup d s (dw_proper _ W)). assert (NN := proj1 (dw_proper _ W)). change (NoDup (g_nodes (dg_g d))) in NN.
  assert (INC : incl (map fst (pos_attrs d s)) (g_nodes (dg_g d))).
  { intros v I. apply in_map_iff in I as ((v0 & x) & Q & I). cbn in Q. subst v0. apply pos_attrs_in in I. apply I. }
  assert (AT : forall v x, mget Nat.eqb (pos_attrs d s) v = Some x <-> vertex (dg_g d) v /\ av s v NPos = Some x).
  { intros v x. rewrite <- pos_attrs_in. split; [apply (mget_In _ neq_eq)|apply (mget_nodup _ neq_eq); exact ND]. }
  assert (FULL : (length (pos_attrs d s) = length (g_nodes (dg_g d))) <-> forall v, vertex (dg_g d) v -> exists x, av s v NPos = Some x).
  { split.
    - intros L v V. assert (I : In v (map fst (pos_attrs d s))).
      { refine (NoDup_length_incl ND _ INC v V). rewrite map_length. lia. }
      apply in_map_iff in I as ((v0 & x) & Q & I). cbn in Q. subst v0. apply pos_attrs_in in I as [_ I]. eauto.
    - intro H. apply Nat.le_antisymm; [rewrite <- (map_length fst); apply NoDup_incl_length; assumption|]. rewrite <- (map_length fst (pos_attrs d s)).
      apply NoDup_incl_length; [exact NN|]. intros v V. destruct (H v V) as (x & X). apply in_map_iff. exists (v, x). split; [reflexivity|]. apply pos_attrs_in. auto. }
  unfold new_arrays. destruct (length (pos_attrs d s) =? length (g_nodes (dg_g d)))%nat eqn:EL.
  - apply Nat.eqb_eq in EL. destruct (in_node_order_ok (pos_attrs d s) (g_nodes (dg_g d))) as (l & E & F).
    { intros v V. destruct (proj1 FULL EL v V) as (x & X). exists x. apply AT. auto. }
    rewrite E. cbn [bind]. eexists. split; [reflexivity|]. cbn. repeat (split; [reflexivity|]). split; [split; [intros _; apply FULL; exact EL|eauto]|].
    intros l' Q. injection Q as <-. clear E. clear -F AT. induction F as [|v x vs l H F IH]; [constructor|]. constructor; [apply AT in H; apply H|exact IH].
  - apply Nat.eqb_neq in EL. cbn [bind]. eexists. split; [reflexivity|]. cbn. repeat (split; [reflexivity|]). split; [split; [intros (l & Q); discriminate|]|discriminate].
    intro H. exfalso. apply EL. apply FULL. exact H.
Qed.
Print Assumptions C91_arrays.

(** ** Beliefs *)

(** What an InfoAgent believes after [queue_action]: the load of the queue
    itself, and about every other queue what it or the queue believed. *)
Theorem C91_beliefs a q a' q' : is_info (c_class (q_cfg q)) = true -> info_action a q = Ok (a', q') ->
  (forall s, q_servers q = Fin s -> s <> 0 /\ get (get_beliefs a') (c_idx (q_cfg q)) = Some (inject_Z (q_nsys q) / inject_Z s)%Q) /\
  (q_servers q = Inf -> get (get_beliefs a') (c_idx (q_cfg q)) = Some 0%Q) /\
  (forall j, j <> c_idx (q_cfg q) -> get (get_beliefs a') j = get (get_beliefs a) j \/ get (get_beliefs a') j = get (map nr_load (q_net q)) j).
Proof.
  intros CI H. unfold info_action in H. rewrite CI in H.
  destruct (zip_rows info_take (ag_net a) (q_net q)) as [nd|] eqn:Z; cbn [bind] in H; [|discriminate].
  destruct (info_stats a q) as [st|]; cbn [bind] in H; [|discriminate]. destruct (load q) as [ld|] eqn:L; cbn [bind] in H; [|discriminate].
  destruct (set nd (c_idx (q_cfg q)) (mkRow (q_now q) (q_servers q) ld)) as [nd'|] eqn:S; cbn [of_option bind] in H; [|discriminate].
  assert (EA : get_beliefs a' = map nr_load nd') by (exact (f_equal (fun r : res (agent * queue) => match r with Ok (x, _) => get_beliefs x | Err _ => [] end) (eq_sym H))).
  destruct (Base.set_Some _ _ _ _ S) as [LT SU]. clear H S. rewrite EA. subst nd'.
  assert (AT : get (map nr_load (upd nd (c_idx (q_cfg q)) (mkRow (q_now q) (q_servers q) ld))) (c_idx (q_cfg q)) = Some ld).
  { unfold get. rewrite nth_error_map. fold (get (upd nd (c_idx (q_cfg q)) (mkRow (q_now q) (q_servers q) ld)) (c_idx (q_cfg q))). rewrite NetSteps.get_upd_eq by exact LT. reflexivity. }
  split; [|split].
  - intros s ES. unfold load in L. rewrite ES in L. split; [intros ->; discriminate|]. rewrite AT. f_equal. destruct s; [discriminate| |]; congruence.
  - intro ES. unfold load in L. rewrite ES in L. rewrite AT. congruence.
  - intros j J. unfold get, get_beliefs. rewrite !nth_error_map. change (nth_error (upd nd (c_idx (q_cfg q)) ?x) j) with (get (upd nd (c_idx (q_cfg q)) x) j).
    rewrite NetSteps.get_upd_neq by exact J. clear - Z. revert j nd Z. generalize (q_net q) as l2. induction (ag_net a) as [|x l IH]; intros [|y l2] j nd Z; cbn in Z; try discriminate.
    + injection Z as <-. auto.
    + destruct (zip_rows info_take l l2) as [r|] eqn:E; cbn in Z; [|discriminate]. injection Z as <-. destruct j as [|j]; cbn; [|apply (IH _ _ _ E)].
      unfold info_take. destruct (_ || _); auto.
Qed.
Print Assumptions C91_beliefs.

(** ** Resources *)

(** The calls of [queue_action] that change a ResourceAgent, out of calls
    with the queues in [l] one after the other: it takes a resource where
    there is one, or brings back the one it has.  Starts with the flag
    _has_resource. *)
Fixpoint trades (has : bool) (l : list queue) : nat :=
  match l with
  | [] => 0
  | q :: l =>
    if is_resource (c_class (q_cfg q)) && (has || eltb (Fin 0) (q_servers q))
    then S (trades (negb has) l) else trades has l
  end.

Fixpoint acts (a : agent) (l : list queue) : res agent :=
  match l with
  | [] => Ok a
  | q :: l => let* r := queue_action a q in acts (fst r) l
  end.

Lemma trades_flags l : forall a, ag_kind a = KResource -> ag_has a && ag_had a = false -> exists a', acts a l = Ok a' /\
  ag_has a' = xorb (ag_has a) (Nat.odd (trades (ag_has a) l)) /\
  ag_had a' = if (trades (ag_has a) l =? 0)%nat then ag_had a else negb (ag_has a').
Proof.
  induction l as [|q l IH]; intros a K B; cbn [acts trades].
  - exists a. split; [reflexivity|]. cbn. rewrite xorb_false_r. auto.
  - unfold queue_action, resource_action. rewrite K. cbn [bind]. destruct (is_resource (c_class (q_cfg q))) eqn:C; cbn [andb fst]; [|apply IH; assumption].
    destruct (ag_has a) eqn:H; cbn [orb negb].
    + cbn [fst]. destruct (IH (set_ag_had true (set_ag_has false a)) K eq_refl) as (a' & E & F & G).
      change (ag_has (set_ag_had true (set_ag_has false a))) with false in F, G. change (ag_had (set_ag_had true (set_ag_has false a))) with true in G.
      exists a'. split; [exact E|]. split; [rewrite F, Nat.odd_succ, <- Nat.negb_odd; destruct (Nat.odd _); reflexivity|]. cbn [Nat.eqb].
      rewrite G. destruct (trades false l) as [|k]; [|reflexivity]. rewrite F. reflexivity.
    + destruct (eltb (Fin 0) (q_servers q)) eqn:S; cbn [fst].
      * destruct (IH (set_ag_had false (set_ag_has true a)) K eq_refl) as (a' & E & F & G).
        change (ag_has (set_ag_had false (set_ag_has true a))) with true in F, G. change (ag_had (set_ag_had false (set_ag_has true a))) with false in G.
        exists a'. split; [exact E|]. split; [rewrite F, Nat.odd_succ, <- Nat.negb_odd; destruct (Nat.odd _); reflexivity|]. cbn [Nat.eqb].
        rewrite G. destruct (trades true l) as [|k]; [|reflexivity]. rewrite F. reflexivity.
      * destruct (IH a K) as (a' & E & F & G); [rewrite H; reflexivity|]. rewrite H in F, G. eauto.
Qed.

(** A ResourceAgent has a resource after an odd number of trades, has had one
    (and has none) after an even number that is not 0. *)
Theorem C91_resources a l : ag_kind a = KResource -> ag_has a = false -> ag_had a = false -> exists a', acts a l = Ok a' /\
  (ag_has a' = true <-> Nat.Odd (trades false l)) /\
  (ag_had a' = true <-> Nat.Even (trades false l) /\ trades false l <> 0%nat).
Proof.
  intros K H1 H2. destruct (trades_flags l a K) as (a' & E & F & G); [rewrite H1; reflexivity|]. exists a'. split; [exact E|]. rewrite H1 in F, G. rewrite H2 in G.
  rewrite <- Nat.odd_spec, <- Nat.even_spec, <- Nat.negb_odd, F. cbn [xorb]. split; [destruct (Nat.odd _); tauto|]. rewrite G, F.
  destruct (trades false l) as [|k]; cbn [Nat.eqb]; [split; [discriminate|intros [_ X]; congruence]|]. destruct (Nat.odd (S k)); cbn; split; try tauto; try discriminate; try (intros [X _]; discriminate). auto.
Qed.
Print Assumptions C91_resources.

(** ** Examples *)

(** The graph in the documentation of [get_edge_type], with some attributes. *)
Definition g91 : graph := [(0, [(1, Some 2%Z)]); (1, [(2, Some 1%Z); (3, Some 4%Z)]); (2, [(0, Some 2%Z)]); (3, [(3, Some 0%Z)])]%nat.
Definition at91 (x y : Z) : pval := VNum [Some (inject_Z x); Some (inject_Z y)].
Definition s91 (last : list (pname * pval)) : gprops :=
  mkProps [((1, 2)%nat, [(NName 7, at91 1 1)]); ((0, 2)%nat, [(NName 8, at91 1 1)])]
    [(2%nat, [(NName 3, VNone); (NPos, at91 0 1)]); (0%nat, [(NPos, at91 0 0); (NVertexColor, VNone)]); (1%nat, [(NPos, at91 1 0)]); (3%nat, last)] None None None None.
Lemma proper91 : proper g91.
Proof.
  split; [repeat constructor; cbn; intuition congruence|].
  intros u r H. cbn in H. destruct H as [H|[H|[H|[H|[]]]]]; injection H as <- <-; repeat constructor; cbn; intuition congruence.
Qed.
Example C91_graph_example : dwf (dg_new g91) /\ proper g91 /\ vertex g91 1%nat /\
  get_edge_type (dg_new g91) 2 = [(0, 1); (2, 0)]%nat /\ get_edge_type (dg_new g91) 3 = [] /\
  out_neighbours (dg_new g91) 1 = [2; 3]%nat /\
  graph2lists g91 = [(0, [1]); (1, [2; 3]); (2, [0]); (3, [3])]%nat /\
  vertex_properties (dg_new g91) (s91 []) = [NPos; NVertexColor; NName 3] /\
  edge_properties (dg_new g91) (s91 []) = (true, [NName 7]) /\
  (exists s', new_arrays (dg_new g91) (s91 []) = Ok s' /\ gp_pos s' = None) /\
  (exists s', new_arrays (dg_new g91) (s91 [(NPos, at91 5 5)]) = Ok s' /\ gp_pos s' = Some [at91 0 0; at91 1 0; at91 0 1; at91 5 5]).
Proof.
  split; [apply dg_new_ok; exact proper91|]. split; [exact proper91|]. split; [cbn; auto|].
  do 6 (split; [vm_compute; reflexivity|]). split; eexists; split; vm_compute; reflexivity.
Qed.

Definition info91 : qcfg := mkCfg CInfo 0%nat 1%nat 1%nat 1 (fun n t => eadd t (Fin 1)) (fun n t => eadd t (Fin 5)) KInfo Inf Inf Inf (Fin 4).
Definition told91 : list netrow := [mkRow (Fin 4) (Fin 2) (1 # 2); mkRow (Fin 1) (Fin 3) (1 # 3); norow].
(** An agent that knows about queue 2 comes to queue 1, which knows about
    queue 0 and has four agents for two servers. *)
Example C91_beliefs_example : let q := set_q_net told91 (set_q_nsys 4 (set_q_now (Fin 9) (new_queue info91 (Fin 2) true 3))) in
  let a := mkAgent (1%nat, 0) KInfo (Fin 3) 0 false false (repeat (0, 0, 0) 3) [norow; norow; mkRow (Fin 5) (Fin 7) (3 # 7)] in
  is_info (c_class (q_cfg q)) = true /\ exists a' q', info_action a q = Ok (a', q') /\ Forall2 Qeq (get_beliefs a') [1 # 2; 2; 3 # 7]%Q.
Proof. split; [reflexivity|]. eexists _, _. split; [vm_compute; reflexivity|]. repeat constructor. Qed.

Definition res91 (s : Z) : queue := new_queue (mkCfg CResource 0%nat 1%nat 1%nat 1 (fun n t => eadd t (Fin 1)) (fun n t => eadd t (Fin 5)) KResource Inf Inf Inf (Fin 4)) (Fin s) true 3.
(** Nothing to take, a resource taken, an InfoQueue, brought back, and one
    taken again. *)
Example C91_resources_example : let a := mkAgent (1%nat, 0) KResource (Fin 3) 0 false false [] [] in
  let l := [res91 0; res91 2; new_queue info91 (Fin 2) true 3; res91 0] in
  trades false l = 2%nat /\ trades false (l ++ [res91 1]) = 3%nat /\
  (exists a', acts a l = Ok a' /\ ag_has a' = false /\ ag_had a' = true) /\
  (exists a', acts a (l ++ [res91 1]) = Ok a' /\ ag_has a' = true /\ ag_had a' = false).
Proof. split; [vm_compute; reflexivity|]. split; [vm_compute; reflexivity|]. split; eexists; vm_compute; auto. Qed.
