(** * PropsColor: claims about colours (C54, C55) *)
From Coq Require Import List ZArith QArith Qfield Bool Arith Lia Lqa.
From Verif Require Import Base Dict UnionFind UnionFindProofs Graph SpecGraph GraphProofs GraphClaims GraphNet GraphIndex.
From Verif Require Import Queue SpecQueue Network SpecNet SpecBuild GraphBuild PropsBuild PropsQueue1 Colors ColorProofs PaintProofs.
Import ListNotations.
Open Scope Z_scope.

(** ** C54: colours of queues *)

(** Every colour of a queue has four components between 0 and 1. *)
Theorem C54_valid l q which : decent l -> servers_show l q -> 0 <= q_nsys q ->
  exists c, current_color l q which = Ok c /\ valid c.
Proof. apply color_ok. Qed.
Print Assumptions C54_valid.

(** With more agents (and the same number of servers) no component is
    greater; at a ResourceQueue this is so with more servers. *)
Theorem C54_darker l q q' which c c' : decent l -> servers_show l q -> servers_show l q' -> q_cfg q' = q_cfg q ->
  0 <= q_nsys q <= q_nsys q' ->
  (match c_class (q_cfg q) with CResource => eLe (q_servers q) (q_servers q') | _ => q_servers q' = q_servers q end) ->
  current_color l q which = Ok c -> current_color l q' which = Ok c' -> darker c' c.
Proof. apply color_mono. Qed.
Print Assumptions C54_darker.

(** The ends of the scale: an empty queue shows its base colour, one with
    [sensitivity * servers + 1] agents is black. *)
Theorem C54_ends l q n : decent l -> c_class (q_cfg q) <> CNull -> c_class (q_cfg q) <> CResource -> q_servers q = Fin n -> 0 <= n ->
  let base := if on_loop q then lk_fill l else lk_edge l in
  (q_nsys q = 0 -> exists r g b a r' g' b' a', base = [r; g; b; a] /\ current_color l q 0 = Ok [Some r'; Some g'; Some b'; Some a'] /\ (r' == r)%Q /\ (g' == g)%Q /\ (b' == b)%Q) /\
  ((lk_sens l * inject_Z n + 1 <= inject_Z (q_nsys q))%Q -> exists r' g' b' a', current_color l q 0 = Ok [Some r'; Some g'; Some b'; Some a'] /\ (r' == 0)%Q /\ (g' == 0)%Q /\ (b' == 0)%Q).
Proof.
  intros DE NN NR SV N base. destruct DE as [D1 D2 D3 D4 D5 D6].
  assert (RB : rgba base) by (unfold base; destruct (on_loop q); assumption). destruct (rgba_four base RB) as (r & g & b & a & EB & _).
  assert (CC : forall x, load_shade (lk_sens l) (q_servers q) (q_nsys q) = Ok (Some x) ->
     current_color l q 0 = Ok [Some (r * x)%Q; Some (g * x)%Q; Some (b * x)%Q; Some (if on_loop q then 1 else 1 # 2)%Q]).
  { intros x H. unfold current_color. rewrite H. unfold base in EB. destruct (on_loop q); rewrite EB; destruct (c_class (q_cfg q)); try congruence; reflexivity. }
  split; intro H.
  - destruct (load_ok (lk_sens l) (q_servers q) (q_nsys q) D6) as (x & E & _ & X1); [rewrite SV; exact N|lia|rewrite SV; discriminate|]. specialize (X1 H).
    exists r, g, b, a. do 4 eexists. split; [exact EB|]. split; [apply CC; exact E|]. rewrite X1. repeat split; ring.
  - destruct (load_full (lk_sens l) n (q_nsys q) D6 N H) as (x & E & X1). rewrite <- SV in E. do 4 eexists. split; [apply CC; exact E|]. rewrite X1. repeat split; ring.
Qed.
Print Assumptions C54_ends.

(** The exact colour of every kind of queue. *)
Theorem C54_exact l q which : decent l -> servers_show l q ->
  exists c, current_color l q which = Ok c /\ right_color l q which c.
Proof. apply color_exact. Qed.
Print Assumptions C54_exact.

(** Every queue reached from a new one by calls that never ask for a negative
    number of servers can be drawn. *)
Theorem C54_reached c s col n l q which : eLe (Fin 0) s -> decent l ->
  reach (fun _ o => match o with OServers (PInt z) => 0 <= z | _ => True end) (new_queue c s col n) q ->
  (q_servers q = Inf -> match c_class c with CResource => c_max_servers c <> Inf | CNull => True | _ => ~ (lk_sens l == 0)%Q end) ->
  exists k, current_color l q which = Ok k /\ valid k.
Proof.
  intros P DE R I. assert (R' : reach anything (new_queue c s col n) q) by (clear - R; induction R; [constructor|econstructor; eauto; exact Logic.I]).
  apply color_ok; [exact DE| |eapply nsys_nonneg; exact R']. split.
  - eapply servers_nonneg; [exact P|exact R].
  - assert (B := QueueHist.basics_reach _ _ _ _ _ _ R'). rewrite (QueueHist.ba_cfg _ _ _ B). exact I.
Qed.
Print Assumptions C54_reached.

(** The default colours of QueueServer (queue_servers.py:271-276) and
    sensitivity 2. *)
Definition look54 : look :=
  mkLook [0; 0; 0; 0]%Q [0; 1 # 2; 1; 1]%Q [9 # 10; 9 # 10; 9 # 10; 1]%Q [9 # 10; 9 # 10; 9 # 10; 1 # 2]%Q [0; 1 # 2; 1; 1]%Q 2.
Lemma look54_decent : decent look54.
Proof. split; [split; [reflexivity|]; repeat constructor; discriminate..|discriminate]. Qed.
(** Two servers and four agents: the edge is at a fifth of its brightness. *)
Example C54_ex : exists q c, run_ops (OActive :: repeat ONext 4) (ex_queue CServer) = Ok q /\ decent look54 /\ servers_show look54 q /\ q_nsys q = 4 /\
  current_color look54 q 0 = Ok c /\ c = [Some ((9 # 10) * (1 - (4 / 5)))%Q; Some ((9 # 10) * (1 - (4 / 5)))%Q; Some ((9 # 10) * (1 - (4 / 5)))%Q; Some (1 # 2)%Q].
Proof.
  do 2 eexists. split; [vm_compute; reflexivity|]. split; [apply look54_decent|]. split; [split; [vm_compute; intro; discriminate|discriminate]|]. split; [reflexivity|].
  split; vm_compute; reflexivity.
Qed.

(** [C54_exact] at that queue, and at a ResourceQueue on a loop that has one
    of its ten servers: 1 - 1/27 of the base colour. *)
Example C54_exact_ex : exists q c, run_ops (OActive :: repeat ONext 4) (ex_queue CServer) = Ok q /\ decent look54 /\ servers_show look54 q /\
  current_color look54 q 0 = Ok c /\ load_left look54 q (1 # 5) /\ shaded (lk_edge look54) (1 # 5) (1 # 2) c.
Proof.
  do 2 eexists. split; [vm_compute; reflexivity|]. split; [apply look54_decent|]. split; [split; [vm_compute; intro; discriminate|discriminate]|].
  split; [vm_compute; reflexivity|]. split; [split; vm_compute; [reflexivity|intro H; exfalso; apply H; reflexivity]|].
  do 7 eexists. split; [reflexivity|]. split; [reflexivity|]. repeat split; reflexivity.
Qed.
Example C54_exact_ex2 : exists c, let q := new_queue (mkCfg CResource 3 3 0 2 (fun _ t => t) (fun _ t => t) KResource Inf Inf (Fin 0) (Fin 10)) (Fin 1) true 0 in
  decent look54 /\ servers_show look54 q /\ current_color look54 q 0 = Ok c /\ servers_left q (26 # 27) /\ shaded (lk_fill look54) (26 # 27) 1 c.
Proof.
  eexists. cbv zeta. split; [apply look54_decent|]. split; [split; [vm_compute; intro; discriminate|discriminate]|].
  split; [vm_compute; reflexivity|]. split; [split; vm_compute; [reflexivity|intro H; exfalso; apply H; reflexivity]|].
  do 7 eexists. split; [reflexivity|]. split; [reflexivity|]. repeat split; vm_compute; reflexivity.
Qed.

(** A ResourceQueue with infinitely many servers (the constructor then sets
    the maximum to infinity as well): all three components are NaN. *)
Theorem C54_resource_refuted : exists c l which k, decent l /\ c_class c = CResource /\
  current_color l (new_queue c Inf true 0) which = Ok k /\ ~ valid k.
Proof.
  exists (mkCfg CResource 0 1 0 2 (fun _ t => t) (fun _ t => t) KResource Inf Inf (Fin 0) Inf), look54, 0%nat. eexists.
  split; [apply look54_decent|]. split; [reflexivity|]. split; [vm_compute; reflexivity|]. intros (l & E & _). destruct l; discriminate.
Qed.
Print Assumptions C54_resource_refuted.

(** The same with sensitivity 0 at a QueueServer. *)
Theorem C54_infinite_refuted : exists c l which k, rgba (lk_edge l) /\ rgba (lk_fill l) /\ (0 <= lk_sens l)%Q /\ c_class c = CServer /\
  current_color l (new_queue c Inf true 0) which = Ok k /\ ~ valid k.
Proof.
  exists (mkCfg CServer 0 1 0 1 (fun _ t => t) (fun _ t => t) KAgent Inf Inf (Fin 0) Inf), (mkLook [] [] [1; 1; 1; 1]%Q [1; 1; 1; 1]%Q [] 0), 0%nat. eexists.
  split; [split; [reflexivity|]; repeat constructor; discriminate|]. split; [split; [reflexivity|]; repeat constructor; discriminate|]. split; [discriminate|]. split; [reflexivity|].
  split; [vm_compute; reflexivity|]. intros (l & E & _). destruct l; discriminate.
Qed.
Print Assumptions C54_infinite_refuted.

(** ** C55: colours of edges and vertices *)

(** The queues of a built network, in any later state, fit the graph. *)
Theorem C55_built d cls n ins qs lk nl : dwf d -> built d cls n ins ->
  (forall v, vertex (dg_g d) v -> (v < length (g_nodes (dg_g d)))%nat) -> (forall u v o, edge (dg_g d) u v o -> exists t, o = Some t) ->
  map q_cfg qs = map q_cfg (nt_queues n) ->
  (forall k q, get qs k = Some q -> decent (lk k) /\ servers_show (lk k) q /\ 0 <= q_nsys q) ->
  rgba (nk_vertex nl) /\ rgba (nk_fill nl) -> dressed d qs lk ins nl.
Proof.
  intros W B SM TY SC LK NL. assert (LQ : length qs = length (nt_queues n)) by (rewrite <- (map_length q_cfg qs), SC; apply map_length).
  assert (GC : forall k q, get (nt_queues n) k = Some q -> exists q', get qs k = Some q' /\ q_cfg q' = q_cfg q).
  { intros k q G. assert (X : nth_error (map q_cfg qs) k = Some (q_cfg q)) by (rewrite SC; apply map_nth_error; exact G).
    destruct (nth_error qs k) as [q'|] eqn:E; [|apply nth_error_None in E; assert (nth_error (map q_cfg qs) k = None) by (apply nth_error_None; rewrite map_length; exact E); congruence].
    rewrite (map_nth_error q_cfg k qs E) in X. exists q'. split; [exact E|congruence]. }
  split; auto.
  - intros [u v] k I. destruct (index_arc d u v k W I) as (o & E). destruct (TY u v o E) as (t & ->). destruct (bu_queue _ _ _ _ B u v k t I E) as (q & c & G & _ & S1 & S2 & _).
    destruct (GC k q G) as (q' & G' & C'). exists q'. rewrite C'. auto.
  - intro k. rewrite LQ. apply (bu_count _ _ _ _ B).
  - intros v V. destruct (bu_in _ _ _ _ B v V) as (ks & G & ws & _ & _ & F). exists ks. split; [exact G|]. intros k I.
    clear - F I B LQ. rewrite LQ. apply (bu_count _ _ _ _ B). induction F as [|w k' ws ks H F IH]; [destruct I|]. destruct I as [->|I]; eauto.
Qed.
Print Assumptions C55_built.

(** When the network is made, the edge at place [k] of [g.edges()] gets the
    colour of queue [k], and every vertex gets its colours. *)
Theorem C55_prepared_order d qs lk ins nl p : dressed d qs lk ins nl ->
  exists p', prepare_colors d qs lk nl p = Ok p' /\
    (forall k e, nth_error (g_edges (dg_g d)) k = Some e -> edge_shows p' e (plain_color (base_color (lk k) e))) /\
    (forall v, vertex (dg_g d) v -> forall k q, In ((v, v), k) (dg_index d) -> get qs k = Some q -> loop_right lk p' k q) /\
    (forall v, vertex (dg_g d) v -> ~ arc (dg_g d) v v -> vertex_shows p' v (plain_color (nk_vertex nl)) /\ fill_shows p' v (plain_color (nk_fill nl))).
Proof.
  intro D. assert (W := dr_wf _ _ _ _ _ D). unfold prepare_colors.
  destruct (paint_edges_ok d qs lk ins nl D true (g_edges (dg_g d)) 0 p) as (p1 & E1 & _ & _ & S1 & _).
  - rewrite (edges_count d qs lk ins nl D). lia.
  - apply g_edges_nodup, W.
  - intros [u v] I. apply g_edges_in. exact I.
  - rewrite E1. cbn [bind]. destruct (paint_vertices_ok d qs lk ins nl D (g_nodes (dg_g d)) p1) as (p2 & E2 & PE & L1 & L2 & _).
    + apply (dw_proper _ W).
    + auto.
    + exists p2. split; [exact E2|]. split; [|split].
      * intros k e H. unfold edge_shows. rewrite PE. apply (S1 k e H).
      * intros v V k q I G. destruct (L1 v V k q I G) as (c2 & c0 & A1 & A2 & A3 & A4). destruct (dr_queue _ _ _ _ _ D _ _ I) as (q' & G' & _ & T). replace q' with q in T by congruence. cbn in T.
        exists c2, c0. rewrite T. auto.
      * exact L2.
Qed.
Print Assumptions C55_prepared_order.

(** Full statement: every edge gets the colour of its own queue.  This holds
    if [g.edges()] lists the edges in the order of their numbers. *)
Definition in_order (d : dgraph) : Prop := forall k e, nth_error (g_edges (dg_g d)) k = Some e -> In (e, k) (dg_index d).
Lemma in_order_all d e k : dwf d -> in_order d -> In (e, k) (dg_index d) -> nth_error (g_edges (dg_g d)) k = Some e.
Proof.
  intros W O I. assert (L : (k < length (g_edges (dg_g d)))%nat) by (rewrite (dw_count _ W); apply (index_onto d k W); eauto).
  destruct (nth_error (g_edges (dg_g d)) k) as [e'|] eqn:E; [|apply nth_error_None in E; lia]. apply O in E. f_equal. eapply (nb_inj _ _ (dwf_numbering d W)); eauto.
Qed.
Theorem C55_prepared_partial d qs lk ins nl p : dressed d qs lk ins nl -> in_order d ->
  exists p', prepare_colors d qs lk nl p = Ok p' /\
    forall e k, In (e, k) (dg_index d) -> edge_shows p' e (plain_color (base_color (lk k) e)).
Proof.
  intros D O. destruct (C55_prepared_order d qs lk ins nl p D) as (p' & E & S & _). exists p'. split; [exact E|]. intros e k I. apply S. apply in_order_all; [apply D|exact O|exact I].
Qed.
Print Assumptions C55_prepared_partial.

(** The same for reset_colors, except for loops. *)
Theorem C55_reset_partial d qs lk ins nl p : dressed d qs lk ins nl -> in_order d ->
  exists p', reset_colors d qs lk nl p = Ok p' /\
    (forall u v k, In ((u, v), k) (dg_index d) -> u <> v -> edge_shows p' (u, v) (plain_color (base_color (lk k) (u, v)))) /\
    (forall v, vertex (dg_g d) v -> fill_shows p' v (plain_color (nk_fill nl))).
Proof.
  intros D O. assert (W := dr_wf _ _ _ _ _ D). unfold reset_colors.
  destruct (paint_edges_ok d qs lk ins nl D false (g_edges (dg_g d)) 0 p) as (p1 & E1 & _ & _ & S1 & _).
  - rewrite (edges_count d qs lk ins nl D). lia.
  - apply g_edges_nodup, W.
  - intros [u v] I. apply g_edges_in. exact I.
  - rewrite E1. cbn [bind]. destruct (fill_vertices_ok d qs lk ins nl D (g_nodes (dg_g d)) p1) as (p2 & E2 & PE & _ & F); [auto|].
    exists p2. split; [exact E2|]. split; [|intros v V; apply F; left; exact V]. intros u v k I N. unfold edge_shows. rewrite PE.
    assert (H := in_order_all d (u, v) k W O I). specialize (S1 k (u, v) H). cbn [Nat.add] in S1. unfold base_color. cbn [fst snd]. destruct (Nat.eqb_spec u v); [contradiction|exact S1].
Qed.
Print Assumptions C55_reset_partial.

(** The update of all colours shows every edge in the current colour of its
    own queue, in any order of the edges; a vertex with a loop of non-zero
    type shows the colours of that queue, a vertex of an edge without a loop
    is darkened by the agents on its in-edges. *)
Theorem C55_update_all d qs lk ins nl p : dressed d qs lk ins nl ->
  exists p', update_all_colors d qs lk ins nl p = Ok p' /\
    forall k q, get qs k = Some q ->
      own_color lk p' k q /\
      (on_loop q = true -> c_type (q_cfg q) <> 0 -> loop_right lk p' k q) /\
      (forall v, v = c_src (q_cfg q) \/ v = c_tgt (q_cfg q) -> ~ arc (dg_g d) v v -> vertex_right qs ins nl p' v).
Proof.
  intro D. destruct (update_all_ok d qs lk ins nl D p) as (p' & todo & E & [P1 P2 P3 P4 P5]). exists p'. split; [exact E|]. intros k q G.
  assert (L : (k < length qs)%nat) by (apply nth_error_Some; unfold get in G; congruence). split; [apply P2; assumption|]. split; [intros; apply P5; assumption|].
  intros v Hv NA. apply P4; [eapply P3; eauto| |exact NA]. destruct (queue_ends d qs lk ins nl D k q G). destruct Hv as [->| ->]; assumption.
Qed.
Print Assumptions C55_update_all.

(** The update after an event: the edges of the event and of the event before
    show the current colours, the other edges are left alone.  The target of
    the current edge is right afterwards. *)
Theorem C55_update_event d qs lk ins nl p prev cur q : dressed d qs lk ins nl -> get qs cur = Some q ->
  (forall k, prev = Some k -> (k < length qs)%nat) ->
  exists p', update_graph_colors d qs lk ins nl prev cur p = Ok p' /\
    own_color lk p' cur q /\
    (forall k q', prev = Some k -> get qs k = Some q' -> own_color lk p' k q') /\
    (forall e k, In (e, k) (dg_index d) -> k <> cur -> prev <> Some k -> mget peqb (pa_edge p') e = mget peqb (pa_edge p) e) /\
    (on_loop q = true -> c_type (q_cfg q) <> 0 -> loop_right lk p' cur q) /\
    (~ arc (dg_g d) (c_tgt (q_cfg q)) (c_tgt (q_cfg q)) -> vertex_right qs ins nl p' (c_tgt (q_cfg q))).
Proof.
  intros D G PV. assert (W := dr_wf _ _ _ _ _ D). destruct (queue_ends d qs lk ins nl D cur q G) as [_ Vv].
  assert (NE : forall e k j q', In (e, k) (dg_index d) -> get qs j = Some q' -> k <> j -> e <> (c_src (q_cfg q'), c_tgt (q_cfg q'))).
  { intros e k j q' I Gj N X. subst e. apply N. eapply (nb_fun _ _ (dwf_numbering d W)); [exact I|]. eapply queue_edge; eauto. }
  unfold update_graph_colors. rewrite G. cbn [of_option bind]. destruct prev as [k|].
  - specialize (PV k eq_refl). destruct (get qs k) as [q'|] eqn:Gk; [|apply nth_error_None in Gk; lia].
    destruct (update_one_ok d qs lk ins nl D k q' (c_tgt (q_cfg q)) p Gk Vv) as (p1 & E1 & O1 & X1 & _). rewrite E1. cbn [bind].
    destruct (update_one_ok d qs lk ins nl D cur q (c_tgt (q_cfg q)) p1 G Vv) as (p2 & E2 & O2 & X2 & R2). destruct (R2 eq_refl) as (_ & R3 & R4).
    exists p2. split; [exact E2|]. split; [exact O2|]. split; [|split; [|auto]].
    + intros j q'' Hj Gj. injection Hj as <-. replace q'' with q' by congruence. destruct (Nat.eq_dec k cur) as [->|N]; [replace q' with q by congruence; exact O2|].
      destruct O1 as (c & A & B). exists c. split; [exact A|]. unfold edge_shows. rewrite X2; [exact B|]. eapply NE; [eapply queue_edge; [exact D|exact Gk]|exact G|exact N].
    + intros e j I N1 N2. rewrite X2 by (eapply NE; eauto). apply X1. eapply NE; [exact I|exact Gk|congruence].
  - cbn [bind]. destruct (update_one_ok d qs lk ins nl D cur q (c_tgt (q_cfg q)) p G Vv) as (p2 & E2 & O2 & X2 & R2). destruct (R2 eq_refl) as (_ & R3 & R4).
    exists p2. split; [exact E2|]. split; [exact O2|]. split; [intros k q' H; discriminate|]. split; [|auto]. intros e j I N1 _. apply X2. eapply NE; eauto.
Qed.
Print Assumptions C55_update_event.

(** *** Witnesses *)

(** Each type has its own base colour; network colours are grey. *)
Definition hue (t : Z) : look := let x := (inject_Z t / 10)%Q in mkLook [x; 0; 0; 1]%Q [0; x; 0; 1]%Q [0; 0; x; 1]%Q [x; x; x; 1]%Q [0; x; 0; 1]%Q 2.
Definition grey : netlook := mkNetlook [1 # 2; 1 # 2; 1 # 2; 1]%Q [1 # 2; 1 # 2; 1 # 2; 1]%Q.
Definition blank : paint := mkPaint [] [] [].
(** The look of queue [k] by the type of its edge. *)
Definition by_type (qs : list queue) (k : nat) : look := match get qs k with Some q => hue (c_type (q_cfg q)) | None => hue 0 end.

(** A dictionary with vertex 1 before vertex 0: the edges 1-0 (type 2) and
    0-1 (type 1) change colours, when the network is made and when the colours
    are reset. *)
Definition g55 : graph_in := GDict (ADicts [(1%nat, [(0%nat, Some 2)]); (0%nat, [(1%nat, Some 1)])]).
Definition n55 := make_network g55 true [] [] None plain (Fin 100) true (Inf, 0%nat) (fun _ => 1 # 2)%Q (fun _ => 1).
Definition some_net : net := new_net [] [] Inf true (Inf, 0%nat) (fun _ => 0)%Q (fun _ => 0).
Definition net_of (r : res (net * dgraph * list (list nat))) : net := match r with Ok (n, _, _) => n | _ => some_net end.
Definition graph_of (r : res (net * dgraph * list (list nat))) : dgraph := match r with Ok (_, d, _) => d | _ => dg_new [] end.
Definition ins_of (r : res (net * dgraph * list (list nat))) : list (list nat) := match r with Ok (_, _, i) => i | _ => [] end.

(** Networks whose types are 0, ..., 4 fit the theorems above when they are
    new. *)
Lemma hue_decent t : 0 <= t <= 9 -> decent (hue t).
Proof.
  intro T. assert (U : unit_range (inject_Z t / 10)).
  { assert (0 <= inject_Z t)%Q by (apply inj_nonneg; lia). assert (inject_Z t <= 9)%Q by (change 9%Q with (inject_Z 9); rewrite <- Zle_Qle; lia). split; [apply Qle_shift_div_l|apply Qle_shift_div_r]; lra. }
  assert (U0 : unit_range 0) by (split; discriminate). assert (U1 : unit_range 1) by (split; discriminate).
  split; try (split; [reflexivity|]; cbn [hue lk_loop lk_vertex lk_fill lk_edge lk_pen]; cbv zeta; repeat apply Forall_cons; auto). discriminate.
Qed.
Lemma dressed_example gi n d ins : proper_graph gi -> (forall v, mentioned (as_adj gi) v <-> (v < 2)%nat) ->
  (forall x y o, listed (as_adj gi) x y o -> In (dflt o) [0; 1; 2; 3; 4]) ->
  make_network gi true [] [] None plain (Fin 100) true (Inf, 0%nat) (fun _ => 1 # 2)%Q (fun _ => 1) = Ok (n, d, ins) ->
  forallb (fun q => (0 <=? c_type (q_cfg q)) && (c_type (q_cfg q) <=? 9) && (q_nsys q =? 0) && (eeqb (q_servers q) (Fin 0) || eeqb (q_servers q) (Fin 1))) (nt_queues n) = true ->
  dressed d (nt_queues n) (by_type (nt_queues n)) ins grey.
Proof.
  intros PG VN TY MK ST.
  destruct (network_ok gi [] [] None plain (Fin 100) true (Inf, 0%nat) (fun _ => 1 # 2)%Q (fun _ => 1) 2 PG VN) as (n1 & d1 & ins1 & qs & out & M & W & V & _ & TE & _ & B & _).
  - exists CNull, plain. repeat split.
  - intros x y o L. apply TY in L. cbn in L. destruct L as [<-|[<-|[<-|[<-|[<-|[]]]]]]; eexists; exists plain; repeat split.
  - rewrite MK in M. injection M as <- <- <-. apply (C55_built d _ n ins _ _ _ W B).
    + intros v Vv. rewrite (sub_seq_length (g_nodes (dg_g d)) 2); [apply V; exact Vv|apply W|exact V].
    + intros x y o E. destruct (TE x y o E) as [->|(o' & _ & ->)]; eauto.
    + reflexivity.
    + intros k q G. assert (T : 0 <= c_type (q_cfg q) <= 9 /\ q_nsys q = 0 /\ (q_servers q = Fin 0 \/ q_servers q = Fin 1)).
      { rewrite forallb_forall in ST. specialize (ST q (nth_error_In _ _ G)). rewrite !andb_true_iff, orb_true_iff, !eeqb_eq, !Z.leb_le, Z.eqb_eq in ST. tauto. }
      destruct T as (T & N & S). unfold by_type. rewrite G. split; [apply hue_decent; exact T|]. split; [|lia].
      split; [destruct S as [-> | ->]; cbn; lia|]. destruct S as [-> | ->]; discriminate.
    + split; (split; [reflexivity|]); repeat constructor; discriminate.
Qed.

Lemma made55 : n55 = Ok (net_of n55, graph_of n55, ins_of n55). Proof. vm_compute. reflexivity. Qed.
Example C55_ex : dressed (graph_of n55) (nt_queues (net_of n55)) (by_type (nt_queues (net_of n55))) (ins_of n55) grey /\
  g_edges (dg_g (graph_of n55)) = [(1, 0); (0, 1)]%nat.
Proof.
  split; [|vm_compute; reflexivity]. apply (dressed_example g55 _ _ _); [| | |exact made55|vm_compute; reflexivity].
  - split; [split; [discriminate|split; [repeat constructor; cbn; intuition congruence|]; intros x r [H|[H|[]]]; injection H as <- <-; repeat constructor; cbn; intuition congruence]|]. exists 0%nat. cbn. auto.
  - intro v. cbn. split; [|intro H; lia]. intros [H|(x & o & r & [H|[H|[]]] & J)]; [lia| |]; injection H as <- <-; cbn in J; destruct J as [J|[]]; injection J as <- <-; lia.
  - intros x y o H. cbn in H. destruct H as (r & [H|[H|[]]] & J); injection H as <- <-; cbn in J; destruct J as [J|[]]; injection J as <- <-; cbn; auto.
Qed.

Theorem C55_prepared_refuted : exists n d ins p p' e k,
  n55 = Ok (n, d, ins) /\ let qs := nt_queues n in let lk := by_type qs in
  dressed d qs lk ins grey /\
  prepare_colors d qs lk grey p = Ok p' /\ In (e, k) (dg_index d) /\ ~ edge_shows p' e (plain_color (base_color (lk k) e)).
Proof.
  exists (net_of n55), (graph_of n55), (ins_of n55), blank. eexists. exists (0, 1)%nat, 0%nat.
  split; [exact made55|]. cbv zeta. split; [exact (proj1 C55_ex)|].
  split; [vm_compute; reflexivity|]. split; [vm_compute; auto|]. vm_compute. discriminate.
Qed.
Print Assumptions C55_prepared_refuted.

Theorem C55_reset_refuted : exists n d ins p p' e k,
  n55 = Ok (n, d, ins) /\ let qs := nt_queues n in let lk := by_type qs in
  dressed d qs lk ins grey /\
  reset_colors d qs lk grey p = Ok p' /\ In (e, k) (dg_index d) /\ ~ edge_shows p' e (plain_color (base_color (lk k) e)).
Proof.
  exists (net_of n55), (graph_of n55), (ins_of n55), blank. eexists. exists (0, 1)%nat, 0%nat.
  split; [exact made55|]. cbv zeta. split; [exact (proj1 C55_ex)|].
  split; [vm_compute; reflexivity|]. split; [vm_compute; auto|]. vm_compute. discriminate.
Qed.
Print Assumptions C55_reset_refuted.

(** Two vertices with loops of type 1 and 2 and edges between them. *)
Definition g55b : graph_in := GDict (ADicts [(0%nat, [(0%nat, Some 1); (1%nat, Some 1)]); (1%nat, [(0%nat, Some 1); (1%nat, Some 2)])]).
Definition n55b := make_network g55b true [] [] None plain (Fin 100) true (Inf, 0%nat) (fun _ => 1 # 2)%Q (fun _ => 1).
Lemma made55b : n55b = Ok (net_of n55b, graph_of n55b, ins_of n55b). Proof. vm_compute. reflexivity. Qed.

Example C55_ex_order : dressed (graph_of n55b) (nt_queues (net_of n55b)) (by_type (nt_queues (net_of n55b))) (ins_of n55b) grey /\ in_order (graph_of n55b).
Proof.
  split.
  - apply (dressed_example g55b _ _ _); [| | |exact made55b|vm_compute; reflexivity].
    + split; [split; [discriminate|split; [repeat constructor; cbn; intuition congruence|]; intros x r [H|[H|[]]]; injection H as <- <-; repeat constructor; cbn; intuition congruence]|]. exists 0%nat. cbn. auto.
    + intro v. cbn. split; [|intro H; lia]. intros [H|(x & o & r & [H|[H|[]]] & J)]; [lia| |]; injection H as <- <-; cbn in J; destruct J as [J|[J|[]]]; injection J as <- <-; lia.
    + intros x y o H. cbn in H. destruct H as (r & [H|[H|[]]] & J); injection H as <- <-; cbn in J; destruct J as [J|[J|[]]]; injection J as <- <-; cbn; auto.
  - assert (E : dg_index (graph_of n55b) = [((0, 0), 0); ((0, 1), 1); ((1, 0), 2); ((1, 1), 3)]%nat) by (vm_compute; reflexivity).
    assert (F : g_edges (dg_g (graph_of n55b)) = [(0, 0); (0, 1); (1, 0); (1, 1)]%nat) by (vm_compute; reflexivity).
    intros k e H. rewrite E. rewrite F in H. clear E F. destruct k as [|[|[|[|[|k]]]]]; cbn in H; try discriminate H; injection H as <-; cbn; auto 6.
Qed.

(** reset_colors gives a loop the colour of an ordinary edge, which the
    preparation of the graph does not. *)
Theorem C55_reset_loop_refuted : exists n d ins p p' v k,
  n55b = Ok (n, d, ins) /\ let qs := nt_queues n in let lk := by_type qs in
  dressed d qs lk ins grey /\ in_order d /\
  reset_colors d qs lk grey p = Ok p' /\ In ((v, v), k) (dg_index d) /\ ~ edge_shows p' (v, v) (plain_color (base_color (lk k) (v, v))).
Proof.
  exists (net_of n55b), (graph_of n55b), (ins_of n55b), blank. eexists. exists 0%nat, 0%nat.
  split; [exact made55b|]. cbv zeta. split; [exact (proj1 C55_ex_order)|]. split; [exact (proj2 C55_ex_order)|].
  split; [vm_compute; reflexivity|]. split; [vm_compute; auto|]. vm_compute. discriminate.
Qed.
Print Assumptions C55_reset_loop_refuted.

(** Line 1587: after an event on the loop at vertex 0 and one on the edge 0-1
    vertex 1 shows the colour of the queue at vertex 0, though all colours
    were right and no queue has changed. *)
Theorem C55_vertex_refuted : exists n d ins p p' p'' prev cur k q,
  n55b = Ok (n, d, ins) /\ let qs := nt_queues n in let lk := by_type qs in
  dressed d qs lk ins grey /\
  update_all_colors d qs lk ins grey p = Ok p' /\ update_graph_colors d qs lk ins grey (Some prev) cur p' = Ok p'' /\
  get qs k = Some q /\ on_loop q = true /\ c_type (q_cfg q) <> 0 /\ loop_right lk p' k q /\ ~ loop_right lk p'' k q.
Proof.
  exists (net_of n55b), (graph_of n55b), (ins_of n55b), blank. do 2 eexists. exists 0%nat, 1%nat, 3%nat. eexists. split; [exact made55b|]. cbv zeta. split; [exact (proj1 C55_ex_order)|].
  split; [vm_compute; reflexivity|]. split; [vm_compute; reflexivity|].
  split; [vm_compute; reflexivity|]. split; [vm_compute; reflexivity|]. split; [vm_compute; discriminate|]. split.
  - do 2 eexists. split; [vm_compute; reflexivity|]. split; [vm_compute; reflexivity|]. split; vm_compute; reflexivity.
  - intros (c2 & c0 & A & B & C & F). vm_compute in B. injection B as <-. vm_compute in F. discriminate.
Qed.
Print Assumptions C55_vertex_refuted.

(** A vertex with a loop of type 0 whose number is below that of the other
    edges is passed over by the update of all colours: updating that vertex
    by itself gives another colour. *)
Definition g55c : graph_in := GDict (ADicts [(0%nat, [(0%nat, Some 0); (1%nat, Some 1)]); (1%nat, [(0%nat, Some 1)])]).
Definition n55c := make_network g55c true [] [] None plain (Fin 100) true (Inf, 0%nat) (fun _ => 1 # 2)%Q (fun _ => 1).
Theorem C55_null_loop_refuted : exists n d ins p p' p'' v c,
  n55c = Ok (n, d, ins) /\ let qs := nt_queues n in let lk := by_type qs in
  prepare_colors d qs lk grey blank = Ok p /\ update_all_colors d qs lk ins grey p = Ok p' /\ update_vertex d qs ins grey v p' = Ok p'' /\
  fill_shows p'' v c /\ ~ fill_shows p' v c.
Proof.
  exists (net_of n55c), (graph_of n55c), (ins_of n55c). do 3 eexists. exists 0%nat. eexists. split; [vm_compute; reflexivity|]. cbv zeta. split; [vm_compute; reflexivity|]. split; [vm_compute; reflexivity|]. split; [vm_compute; reflexivity|].
  split; [vm_compute; reflexivity|]. vm_compute. discriminate.
Qed.
Print Assumptions C55_null_loop_refuted.
