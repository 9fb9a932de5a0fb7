(** * PropsBuild: claims about the construction of networks (C60-C63) *)
From Coq Require Import List ZArith QArith Bool Arith Lia.
From Verif Require Import Base Dict UnionFind Graph SpecGraph GraphProofs GraphClaims GraphNet GraphIndex.
From Verif Require Import PQueue Queue SpecQueue Network SpecNet NetReach NetTotal SpecBuild GraphBuild.
Import ListNotations.
Open Scope Z_scope.

(** ** C60: every edge has its queue, every vertex its edges *)

Theorem C60_network gi cls caps args no_args max bas junk u eps N :
  let cls' := with_defaults cls default_classes in
  let args' := complete_args cls' args no_args in
  proper_graph gi -> (forall v, mentioned (as_adj gi) v <-> (v < N)%nat) ->
  usable cls' args' 0 -> (forall x y o, listed (as_adj gi) x y o -> usable cls' args' (dflt o)) ->
  exists n d ins, make_network gi true cls caps args no_args max bas junk u eps = Ok (n, d, ins) /\
    numbering (dg_g d) (dg_index d) /\
    (forall v, vertex (dg_g d) v <-> (v < N)%nat) /\
    (forall x y, arc (dg_g d) x y <-> (exists o, listed (as_adj gi) x y o) \/ (exists a, gi = GDict a /\ x = y /\ mentioned a x /\ dead_end a x)) /\
    (forall x y o, edge (dg_g d) x y o -> o = Some 0 \/ exists o', listed (as_adj gi) x y o' /\ o = Some (dflt o')) /\
    leads_on (dg_g d) /\ built d cls' n ins.
Proof.
  intros cls' args' PG VN U0 UT.
  destruct (network_ok gi cls caps args no_args max bas junk u eps N PG VN U0 UT) as (n & d & ins & qs & out & M & W & V & A & TY & LO & B & _).
  exists n, d, ins. assert (NB := dwf_numbering d W). auto 12.
Qed.
Print Assumptions C60_network.

Definition plain : qargs := mkArgs None (fun _ _ t => eadd t (Fin 10)) (fun _ _ t => eadd t (Fin 3)) None Inf Inf None true 0.
Definition g60 : graph_in := GDict (ALists [(1%nat, [0%nat; 2%nat]); (0%nat, [1%nat])]).
Definition n60 := make_network g60 true [] [] None plain (Fin 100) true (Inf, 0%nat) (fun _ => 1 # 2)%Q (fun _ => 1).
Lemma plain_forward k i t : eLe t (qa_arr plain k i t) /\ eLe t (qa_srv plain k i t).
Proof. destruct t as [z|]; cbn; auto. split; apply Z.leb_le; lia. Qed.

Example C60_ex : proper_graph g60 /\ (forall v, mentioned (as_adj g60) v <-> (v < 3)%nat) /\
  exists n d ins, n60 = Ok (n, d, ins) /\ dg_index d = [((0, 1), 0); ((1, 0), 1); ((1, 2), 2); ((2, 2), 3)]%nat /\
    nt_out n = [[0]; [1; 2]; [3]]%nat /\ ins = [[1]; [0]; [2; 3]]%nat /\
    map (fun q => c_class (q_cfg q)) (nt_queues n) = [CServer; CServer; CServer; CNull].
Proof.
  split; [|split; [|do 3 eexists; split; [vm_compute; reflexivity|]; vm_compute; auto]].
  - split; [split; [discriminate|repeat constructor; cbn; intuition congruence]|]. exists 0%nat. cbn. auto.
  - intro v. cbn. split.
    + intros [H|(x & l & [H|[H|[]]] & J)]; [lia| |]; injection H as <- <-; cbn in J; lia.
    + intro H. assert (v = 0 \/ v = 1 \/ v = 2)%nat as [->|[->| ->]] by lia; auto. right. exists 1%nat, [0%nat; 2%nat]. cbn. auto.
Qed.

(** Every queue is of the class, and made with the arguments, that were given
    or documented for the type of its edge. *)
Theorem C60_queues gi cls caps args no_args max bas junk u eps N :
  proper_graph gi -> (forall v, mentioned (as_adj gi) v <-> (v < N)%nat) ->
  (forall t, t = 0 \/ (exists x y o, listed (as_adj gi) x y o /\ t = dflt o) -> exists c a, class_for cls t c /\ args_for cls args no_args t a /\ servers_ok a) ->
  exists n d ins, make_network gi true cls caps args no_args max bas junk u eps = Ok (n, d, ins) /\
    forall k q, get (nt_queues n) k = Some q -> exists x y t a, In ((x, y), k) (dg_index d) /\ edge (dg_g d) x y (Some t) /\
      class_for cls t (c_class (q_cfg q)) /\ args_for cls args no_args t a /\ as_asked a k q.
Proof.
  intros PG VN US.
  assert (US' : forall t, t = 0 \/ (exists x y o, listed (as_adj gi) x y o /\ t = dflt o) -> usable (with_defaults cls default_classes) (complete_args (with_defaults cls default_classes) args no_args) t).
  { intros t H. destruct (US t H) as (c & a & H1 & H2 & H3). exists c, a. split; [apply class_for_get; exact H1|]. split; [apply args_for_get; exact H2|exact H3]. }
  destruct (network_ok gi cls caps args no_args max bas junk u eps N PG VN) as (n & d & ins & qs & out & M & W & V & A & TY & LO & B & Q & L & R); [apply US'; auto|intros x y o X; apply US'; right; eauto|].
  exists n, d, ins. split; [exact M|]. intros k q G. rewrite Q in G. cbn [nt_queues new_net] in G. destruct (right_asked _ _ _ _ _ (R k q G)) as (x & y & t & a & I & X & Cc & Ca & AA).
  exists x, y, t, a. split; [exact I|]. split; [exact X|]. split; [apply class_for_get; exact Cc|]. split; [apply args_for_get; exact Ca|exact AA].
Qed.
Print Assumptions C60_queues.

(** Four kinds of edges: type 1 with two servers, type 2 and 7 without
    arguments, type 0. *)
Definition g60b : graph_in := GDict (ADicts [(0%nat, [(1%nat, Some 1); (2%nat, Some 2)]); (1%nat, [(0%nat, Some 7)])]).
Definition args60 : option (list (Z * qargs)) := Some [(1, with_servers (PInt 2) plain)].
Example C60_queues_ex : proper_graph g60b /\ (forall v, mentioned (as_adj g60b) v <-> (v < 3)%nat) /\
  (forall t, t = 0 \/ (exists x y o, listed (as_adj g60b) x y o /\ t = dflt o) -> exists c a, class_for [(7, CResource)] t c /\ args_for [(7, CResource)] args60 plain t a /\ servers_ok a) /\
  exists n d ins, make_network g60b true [(7, CResource)] [] args60 plain Inf true (Inf, 0%nat) (fun _ => 1 # 2)%Q (fun _ => 1) = Ok (n, d, ins) /\
    map (fun q => (c_class (q_cfg q), q_servers q, c_factory (q_cfg q))) (nt_queues n) =
      [(CServer, Fin 2, KAgent); (CLoss, Fin 1, KAgent); (CResource, Fin 10, KResource); (CNull, Fin 0, KAgent)].
Proof.
  split; [|split; [|split; [|do 3 eexists; split; vm_compute; reflexivity]]].
  - split; [split; [discriminate|split; [repeat constructor; cbn; intuition congruence|intros x r [H|[H|[]]]; injection H as <- <-; repeat constructor; cbn; intuition congruence]]|]. exists 0%nat. cbn. auto.
  - intro v. cbn. split.
    + intros [H|(x & o & r & [H|[H|[]]] & J)]; [lia| |]; injection H as <- <-; cbn in J; repeat destruct J as [J|J]; try contradiction; injection J as <- <-; lia.
    + intro H. assert (v = 0 \/ v = 1 \/ v = 2)%nat as [->|[->| ->]] by lia; auto. right. exists 0%nat, (Some 2), [(1%nat, Some 1); (2%nat, Some 2)]. cbn. auto.
  - assert (T : forall t, t = 0 \/ (exists x y o, listed (as_adj g60b) x y o /\ t = dflt o) -> t = 0 \/ t = 1 \/ t = 2 \/ t = 7).
    { intros t [->|(x & y & o & (r & [H|[H|[]]] & J) & ->)]; [auto| |]; injection H as <- <-; cbn in J; repeat destruct J as [J|J]; try contradiction; injection J as <- <-; cbn; auto. }
    intros t H. apply T in H as [->|[->|[->| ->]]].
    + exists CNull, plain. split; [right; split; [reflexivity|auto]|]. split; [right; split; [reflexivity|]; split; [exists CNull; right; split; [reflexivity|auto]|reflexivity]|exact Logic.I].
    + exists CServer, (with_servers (PInt 2) plain). split; [right; split; [reflexivity|auto]|]. split; [left; reflexivity|reflexivity].
    + exists CLoss, plain. split; [right; split; [reflexivity|right; right; split; [lia|reflexivity]]|]. split; [right; split; [reflexivity|]; split; [exists CLoss; right; split; [reflexivity|right; right; split; [lia|reflexivity]]|reflexivity]|exact Logic.I].
    + exists CResource, plain. split; [left; reflexivity|]. split; [right; split; [reflexivity|]; split; [exists CResource; left; reflexivity|reflexivity]|exact Logic.I].
Qed.

(** ** C61: the vertex property 'cap' gives the number of servers *)

(** Full statement: a queue whose arguments have no [num_servers] has
    [max(cap(target), 1)] servers.  True: this is so for the first edge of
    each type; all later edges of the type get the same number. *)
Theorem C61_cap_partial d cls caps args no_args max bas junk u eps :
  let cls' := with_defaults cls default_classes in
  let args' := complete_args cls' args no_args in
  network_graph (GIndexed d) false = Ok d -> (exists g l, proper g /\ d = dg_adds (dg_new g) l) ->
  (forall v, vertex (dg_g d) v -> (v < length (g_nodes (dg_g d)))%nat) -> caps <> [] ->
  (forall x y, arc (dg_g d) x y -> exists t, edge (dg_g d) x y (Some t) /\ usable cls' args' t) ->
  exists n ins, make_network (GIndexed d) false cls caps args no_args max bas junk u eps = Ok (n, d, ins) /\ built d cls' n ins /\
    forall k q a, get (nt_queues n) k = Some q -> c_class (q_cfg q) <> CNull -> mget Z.eqb args' (c_type (q_cfg q)) = Some a ->
      exists f, first_edge d (c_type (q_cfg q)) f /\
        match qa_servers a with
        | None => q_servers q = Fin (Z.max (cap_of caps (snd f)) 1)
        | Some (PInt z) => q_servers q = Fin z
        | Some PInf => q_servers q = Inf
        | Some POther => False
        end.
Proof.
  intros cls' args' G (g & l & P & Dd) NV NC T. assert (W : dwf d) by (rewrite Dd; apply dg_adds_ok, dg_new_ok; exact P).
  destruct (make_ok (GIndexed d) false cls caps args no_args max bas junk u eps d G W NV) as (n & ins & qs & out & M & B & Q & L & R).
  - intros x y A. destruct (T x y A) as (t & X & c & a & U1 & U2 & U3). exists t, c, a. auto.
  - exists n, ins. split; [exact M|]. split; [exact B|]. intros k q a Gk NN Ca. subst n. cbn [nt_queues new_net] in Gk.
    destruct (right_cfg _ _ _ _ _ _ (R k q Gk)) as (x & y & t & c & a' & f & s & I & X & Cc & Ca' & Ff & NS & Es & Eq).
    rewrite Eq in *. cbn [q_cfg new_queue c_type c_class q_servers] in *.
    assert (a' = a) by (subst cls' args'; congruence). subst a'. exists f. split.
    + unfold first_of in Ff. apply find_split in Ff as (pre & post & E1 & E2 & E3). assert (Hf : edge (dg_g d) (fst f) (snd f) (Some t)).
      { unfold has_type in E2. assert (A : arc (dg_g d) (fst f) (snd f)) by (apply g_edges_in; rewrite <- surjective_pairing, E1; apply in_app_iff; cbn; auto).
        destruct A as (o & A). destruct f as [f1 f2]. cbn [fst snd] in *. rewrite (ep_type_ok d f1 f2 o W A) in E2. destruct o as [z|]; [|discriminate]. apply Z.eqb_eq in E2. subst. exact A. }
      split; [exact Hf|]. exists pre, post. split; [exact E1|]. intros [x' y'] J H. cbn [fst snd] in H. specialize (E3 _ J). unfold has_type in E3. rewrite (ep_type_ok d x' y' _ W H), Z.eqb_refl in E3. discriminate.
    + unfold eff in Es. destruct c; try congruence; destruct (qa_servers a) as [[z| |]|] eqn:QS; try rewrite QS in Es; cbn in Es; try discriminate; try congruence;
        try (destruct (z <=? 0); [discriminate|injection Es as <-; reflexivity]);
        (destruct caps; [congruence|]; cbn [qa_servers with_servers] in Es; unfold ctor_ok in Es; match type of Es with context [if ?b then _ else _] => destruct b end; [discriminate|injection Es as <-; reflexivity]).
Qed.
Print Assumptions C61_cap_partial.

Definition g61 : dgraph := dg_new [(0%nat, [(1%nat, Some 1); (2%nat, Some 1)]); (1%nat, [(0%nat, Some 0)]); (2%nat, [(0%nat, Some 0)])].
Definition cap61 : list (nat * Z) := [(1%nat, 2); (2%nat, 5)].
(** Vertex 2 has capacity 5, but its queue has 2 servers. *)
Theorem C61_cap_refuted : exists d caps n ins k q,
  make_network (GIndexed d) false [] caps None plain Inf true (Inf, 0%nat) (fun _ => 1 # 2)%Q (fun _ => 1) = Ok (n, d, ins) /\
  get (nt_queues n) k = Some q /\ c_class (q_cfg q) = CServer /\ qa_servers plain = None /\
  q_servers q <> Fin (Z.max (cap_of caps (c_tgt (q_cfg q))) 1).
Proof. exists g61, cap61. do 2 eexists. exists 1%nat. eexists. split; [vm_compute; reflexivity|]. split; [vm_compute; reflexivity|]. vm_compute. repeat split. discriminate. Qed.
Print Assumptions C61_cap_refuted.
(** With [adjust_graph=True] the property is ignored. *)
Theorem C61_cap_adjusted_refuted : exists d caps n d' ins k q,
  make_network (GIndexed d) true [] caps None plain Inf true (Inf, 0%nat) (fun _ => 1 # 2)%Q (fun _ => 1) = Ok (n, d', ins) /\
  get (nt_queues n) k = Some q /\ c_class (q_cfg q) = CServer /\ qa_servers plain = None /\
  q_servers q <> Fin (Z.max (cap_of caps (c_tgt (q_cfg q))) 1).
Proof. exists g61, cap61. do 3 eexists. exists 1%nat. eexists. split; [vm_compute; reflexivity|]. split; [vm_compute; reflexivity|]. vm_compute. repeat split. discriminate. Qed.
Print Assumptions C61_cap_adjusted_refuted.

(** ** C62: any class on any edge *)

(** True if [q_args] is given: every type that occurs is among the keys of
    [q_classes] or 0, ..., 4, and no bad [num_servers] is given. *)
Theorem C62_any_class_partial gi cls caps l no_args max bas junk u eps N :
  proper_graph gi -> (forall v, mentioned (as_adj gi) v <-> (v < N)%nat) ->
  (forall x y o, listed (as_adj gi) x y o -> In (dflt o) [0; 1; 2; 3; 4] \/ exists c, In (dflt o, c) cls) ->
  (forall t a, In (t, a) l -> servers_ok a) -> servers_ok no_args ->
  exists n d ins, make_network gi true cls caps (Some l) no_args max bas junk u eps = Ok (n, d, ins) /\ built d (with_defaults cls default_classes) n ins.
Proof.
  intros PG VN TY SL SN. set (cls' := with_defaults cls default_classes). set (args' := complete_args cls' (Some l) no_args).
  assert (US : forall t, In t (map fst cls') -> usable cls' args' t).
  { intros t I. assert (M := I). apply (mget_in _ Z.eqb_eq) in M as (c & M). assert (J : In t (map fst args')).
    { unfold args', complete_args, with_defaults. rewrite map_app, in_app_iff. destruct (mhas Z.eqb l t) eqn:H; [left; apply (mhas_in _ Z.eqb_eq); exact H|right].
      apply in_map_iff. exists (t, no_args). split; [reflexivity|]. apply filter_In. cbn [fst]. rewrite H. split; [|reflexivity]. apply in_map_iff in I as ((t' & c') & Q & I). cbn in Q. subst t'. apply in_map_iff. exists (t, c'). auto. }
    apply (mget_in _ Z.eqb_eq) in J as (a & J). exists c, a. split; [exact M|]. split; [exact J|]. apply (mget_In _ Z.eqb_eq) in J. unfold args', complete_args, with_defaults in J. apply in_app_iff in J as [J|J]; [eapply SL; exact J|].
    apply filter_In in J as [J _]. apply in_map_iff in J as (p & Q & _). injection Q as _ <-. exact SN. }
  assert (KEY : forall t, In t [0; 1; 2; 3; 4] \/ (exists c, In (t, c) cls) -> In t (map fst cls')).
  { intros t H. unfold cls', with_defaults. rewrite map_app, in_app_iff. destruct (mhas Z.eqb cls t) eqn:E; [left; apply (mhas_in _ Z.eqb_eq); exact E|]. destruct H as [H|(c & H)].
    - right. assert (D : exists c, In (t, c) default_classes) by (cbn in H; destruct H as [<-|[<-|[<-|[<-|[<-|[]]]]]]; eexists; cbn; auto 8). destruct D as (c & D). apply in_map_iff. exists (t, c). split; [reflexivity|]. apply filter_In. cbn [fst]. rewrite E. auto.
    - exfalso. assert (X : In t (map fst cls)) by (apply in_map_iff; exists (t, c); auto). apply (mhas_in _ Z.eqb_eq) in X. congruence. }
  destruct (C60_network gi cls caps (Some l) no_args max bas junk u eps N PG VN) as (n & d & ins & M & _ & _ & _ & _ & _ & B).
  - apply US, KEY. left. cbn. auto.
  - intros x y o L. apply US, KEY. eapply TY. exact L.
  - exists n, d, ins. auto.
Qed.
Print Assumptions C62_any_class_partial.

(** A ResourceQueue on a loop. *)
Definition g62 : graph_in := GGraph [(0%nat, [(1%nat, Some 1)]); (1%nat, [(1%nat, Some 7); (0%nat, Some 1)])].
Lemma g62_ok : proper_graph g62 /\ (forall v, mentioned (as_adj g62) v <-> (v < 2)%nat).
Proof.
  split; [split; [discriminate|split; [repeat constructor; cbn; intuition congruence|]; intros x r [H|[H|[]]]; injection H as <- <-; repeat constructor; cbn; intuition congruence]|].
  intro v. cbn. split.
  - intros [H|(x & l & r & [H|[H|[]]] & J)]; [lia| |]; injection H as <- <-; cbn in J; intuition (try congruence); match goal with H : (_, _) = (_, _) |- _ => injection H as <- <-; lia end.
  - intro H. assert (v = 0 \/ v = 1)%nat as [->| ->] by lia; auto.
Qed.
Example C62_ex : proper_graph g62 /\ (forall v, mentioned (as_adj g62) v <-> (v < 2)%nat) /\
  (forall x y o, listed (as_adj g62) x y o -> In (dflt o) [0; 1; 2; 3; 4] \/ exists c, In (dflt o, c) [(7, CResource)]) /\ servers_ok plain /\
  exists n d ins, make_network g62 true [(7, CResource)] [] (Some []) plain Inf true (Inf, 0%nat) (fun _ => 1 # 2)%Q (fun _ => 1) = Ok (n, d, ins) /\ map (fun q => c_class (q_cfg q)) (nt_queues n) = [CServer; CServer; CResource].
Proof.
  split; [apply g62_ok|]. split; [apply g62_ok|]. split; [|split; [exact Logic.I|do 3 eexists; split; vm_compute; reflexivity]].
  intros x y o (r & [H|[H|[]]] & J); injection H as <- <-; cbn in J; destruct J as [J|J]; try destruct J as [J|[]]; try contradiction; injection J as <- <-; cbn; eauto 8.
Qed.

(** If [q_args] is not given, a class for a type other than 0, ..., 4 is of
    no use. *)
Theorem C62_no_args_refuted : exists gi cls, proper_graph gi /\ (forall v, mentioned (as_adj gi) v <-> (v < 2)%nat) /\
  (forall x y o, listed (as_adj gi) x y o -> In (dflt o) [0; 1; 2; 3; 4] \/ exists c, In (dflt o, c) cls) /\ servers_ok plain /\
  make_network gi true cls [] None plain Inf true (Inf, 0%nat) (fun _ => 1 # 2)%Q (fun _ => 1) = Err KeyError.
Proof.
  exists g62, [(7, CResource)]. destruct C62_ex as (H1 & H2 & H3 & H4 & _). split; [exact H1|]. split; [exact H2|]. split; [exact H3|]. split; [exact H4|]. vm_compute. reflexivity.
Qed.
Print Assumptions C62_no_args_refuted.

(** An edge type that is not in [q_classes] or [q_args]. *)
Theorem C62_unknown_type_refuted : exists gi, proper_graph gi /\ (forall v, mentioned (as_adj gi) v <-> (v < 2)%nat) /\
  make_network gi true [] [] None plain Inf true (Inf, 0%nat) (fun _ => 1 # 2)%Q (fun _ => 1) = Err KeyError.
Proof.
  exists (GGraph [(0%nat, [(1%nat, Some 7)]); (1%nat, [(0%nat, Some 1)])]).
  split; [split; [discriminate|split; [repeat constructor; cbn; intuition congruence|]; intros x r [H|[H|[]]]; injection H as <- <-; repeat constructor; cbn; intuition congruence]|].
  split; [|vm_compute; reflexivity].
  intro v. cbn. split.
  - intros [H|(x & l & r & [H|[H|[]]] & J)]; [lia| |]; injection H as <- <-; cbn in J; intuition (try congruence); match goal with H : (_, _) = (_, _) |- _ => injection H as <- <-; lia end.
  - intro H. assert (v = 0 \/ v = 1)%nat as [->| ->] by lia; auto.
Qed.
Print Assumptions C62_unknown_type_refuted.

(** ** C63: a network that is built with [adjust_graph=True] runs for ever *)

(** Queues on loops are exits, or as in [mild_args]: no ResourceQueues, and no
    infinite service times. *)
Theorem C63_runs gi cls caps args no_args max bas junk u eps N n d ins n' m :
  let cls' := with_defaults cls default_classes in
  let args' := complete_args cls' args no_args in
  proper_graph gi -> (forall v, mentioned (as_adj gi) v <-> (v < N)%nat) ->
  usable cls' args' 0 -> mget Z.eqb cls' 0 = Some CNull -> (forall x y o, listed (as_adj gi) x y o -> usable cls' args' (dflt o)) ->
  (forall x o c a, listed (as_adj gi) x x o -> mget Z.eqb cls' (dflt o) = Some c -> mget Z.eqb args' (dflt o) = Some a -> c = CNull \/ mild_args c a) ->
  make_network gi true cls caps args no_args max bas junk u eps = Ok (n, d, ins) ->
  (forall t c a, mget Z.eqb cls' t = Some c -> mget Z.eqb args' t = Some a -> args_ok (length (nt_queues n)) c a) -> (forall i, 0 <= eps i) ->
  nreach tidy n n' -> exists n'', nruns m n' = Ok n''.
Proof.
  intros cls' args' PG VN U0 R0 UT NL MK AO EP RE.
  destruct (network_ok gi cls caps args no_args max bas junk u eps N PG VN U0) as (n1 & d1 & ins1 & qs & out & M & W & V & A & TY & LO & B & Q & L & R).
  - exact UT.
  - rewrite MK in M. injection M as <- <- <-. assert (AO' : forall t c a, mget Z.eqb cls' t = Some c -> mget Z.eqb args' t = Some a -> args_ok (length qs) c a) by (rewrite Q in AO; exact AO).
    rewrite Q in B. destruct (built_runs d cls' [] args' qs out max bas junk u eps ins W B L R AO' EP LO R0) as (H1 & H2 & H3 & H4).
    + intros v t c a X Cc Ca. destruct (TY v v _ X) as [H|(o & LX & H)]; injection H as ->; [left; congruence|]. exact (NL v o c a LX Cc Ca).
    + rewrite <- Q in *. exact (simulate_total n n' m H1 H2 H3 H4 RE).
Qed.
Print Assumptions C63_runs.

Example C63_ex : let cls' := with_defaults [] default_classes in let args' := complete_args cls' None plain in
  exists n d ins n1 n2, n60 = Ok (n, d, ins) /\ mget Z.eqb cls' 0 = Some CNull /\ usable cls' args' 0 /\ usable cls' args' 1 /\
  (forall x y o, listed (as_adj g60) x y o -> dflt o = 1 /\ x <> y) /\
  (forall t c a, mget Z.eqb cls' t = Some c -> mget Z.eqb args' t = Some a -> args_ok (length (nt_queues n)) c a) /\
  initialize_queues [0; 1; 2; 3]%nat n = Ok n1 /\ nreach tidy n n1 /\ nruns 40 n1 = Ok n2 /\ nt_events n2 = 40.
Proof.
  cbv zeta. do 5 eexists. split; [vm_compute; reflexivity|]. split; [reflexivity|].
  split; [do 2 eexists; (split; [reflexivity|]; split; [reflexivity|exact Logic.I])|].
  split; [do 2 eexists; (split; [reflexivity|]; split; [reflexivity|exact Logic.I])|].
  split. { intros x y o [-> (l & [H|[H|[]]] & J)]; injection H as <- <-; cbn in J; (split; [reflexivity|lia]). }
  split.
  { intros t c a C A. apply (mget_In _ zeq_eq) in C, A. assert (a = plain) by (cbn in A; intuition congruence). subst a.
    assert (c <> CInfo) by (cbn in C; intuition congruence). split; [apply plain_forward|]. split; [apply plain_forward|].
    split; [contradiction|]. discriminate. }
  split; [vm_compute; reflexivity|]. split; [|split; [vm_compute; reflexivity|vm_compute; reflexivity]].
  eapply (nreach_step _ _ _ (KInit [0; 1; 2; 3]%nat)); [apply nreach_here|split; [vm_compute; reflexivity|discriminate]|vm_compute; reflexivity].
Qed.
