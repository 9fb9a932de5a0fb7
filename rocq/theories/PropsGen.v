(** * PropsGen: claims about graph generation (C51, C52, C64) *)
From Coq Require Import List ZArith QArith Qabs Bool Arith Lia Permutation.
From Verif Require Import Base Dict UnionFind Graph SpecGraph GraphProofs GraphNet GraphIndex Routing SpecRoute GraphGen SpecGen GraphGenProofs GraphRankProofs.
Import ListNotations.
Open Scope Z_scope.

(** ** C51: the graph is connected, at the smallest radius *)

Theorem C51_minimal n dist : (2 <= n)%nat -> exists d r, minimal_graph n dist = Ok d /\ dwf d /\
  (forall v, vertex (dg_g d) v <-> (v < n)%nat) /\
  (forall x y, arc (dg_g d) x y -> arc (dg_g d) y x /\ x <> y /\ edge (dg_g d) x y None) /\
  (forall x y, (x < n)%nat -> (y < n)%nat -> path (dg_g d) x y) /\
  (exists x y, arc (dg_g d) x y /\ apart dist x y = r) /\
  (forall x y, arc (dg_g d) x y -> apart dist x y <= r) /\
  (forall x y, within n dist r x y -> arc (dg_g d) x y) /\
  exists x y, (x < n)%nat /\ (y < n)%nat /\ ~ linked (within n dist r) x y.
Proof. exact (minimal_ok n dist). Qed.
Print Assumptions C51_minimal.

(** The documentation: "all other vertices with Euclidean distance less or
    equal to r are connected".  This holds if no two pairs are equally far
    apart ... *)
Theorem C51_radius n dist : (2 <= n)%nat ->
  (forall x y x' y', (x < y < n)%nat -> (x' < y' < n)%nat -> dist x y = dist x' y' -> x = x' /\ y = y') ->
  exists d r, minimal_graph n dist = Ok d /\ (forall x y, arc (dg_g d) x y <-> (x < n)%nat /\ (y < n)%nat /\ x <> y /\ apart dist x y <= r) /\
    (forall x y, (x < n)%nat -> (y < n)%nat -> path (dg_g d) x y) /\ exists x y, (x < n)%nat /\ (y < n)%nat /\ ~ linked (within n dist r) x y.
Proof.
  intros L D. destruct (minimal_ok n dist L) as (d & r & E & W & V & S & C & (a & b & AB & R) & LE & LT & NL). exists d, r. split; [exact E|]. split; [|auto].
  assert (VS : forall x y, arc (dg_g d) x y -> (x < n)%nat /\ (y < n)%nat).
  { intros x y A. split; apply V; [destruct A as (o & r0 & J & _); apply in_map_iff; exists (x, r0); auto|]. destruct A as (o & A). eapply (dw_closed _ W). exact A. }
  intros x y. split.
  - intro A. destruct (VS x y A). destruct (S x y A) as (_ & NE & _). auto.
  - intros (Lx & Ly & NE & G). destruct (Z.eq_dec (apart dist x y) r) as [Q|Q]; [|apply LT; repeat split; auto; lia].
    destruct (VS a b AB) as [La Lb]. destruct (S a b AB) as (BA & NE' & _). assert (P : (x = a /\ y = b) \/ (x = b /\ y = a)).
    { rewrite <- R in Q. unfold apart in Q. destruct (Nat.ltb_spec x y), (Nat.ltb_spec a b); apply D in Q; lia. }
    destruct P as [[-> ->]|[-> ->]]; assumption.
Qed.
Print Assumptions C51_radius.

(** Three points on a line at 0, 1 and 3: the squared distances. *)
Definition line3 (x y : nat) : Z := match x, y with O, S O => 1 | O, S (S O) => 9 | S O, S (S O) => 4 | _, _ => 0 end.
Example C51_ex : (2 <= 3)%nat /\ (forall x y x' y', (x < y < 3)%nat -> (x' < y' < 3)%nat -> line3 x y = line3 x' y' -> x = x' /\ y = y') /\
  exists d, minimal_graph 3 line3 = Ok d /\ g_edges (dg_g d) = [(0, 1); (1, 0); (1, 2); (2, 1)]%nat.
Proof.
  split; [lia|]. split.
  - intros x y x' y' H H'. destruct x as [|[|x]], x' as [|[|x']], y as [|[|[|y]]], y' as [|[|[|y']]]; try lia; cbn; intro; try discriminate; auto.
  - eexists. split; vm_compute; reflexivity.
Qed.

(** ... but not in general: in a unit square the fourth side is missing. *)
Definition square4 (x y : nat) : Z := match x, y with O, S (S O) => 2 | S O, S (S (S O)) => 2 | _, _ => 1 end.
Theorem C51_ties_refuted : exists n dist d, (2 <= n)%nat /\ minimal_graph n dist = Ok d /\
  exists x y a b, (x < n)%nat /\ (y < n)%nat /\ x <> y /\ arc (dg_g d) a b /\ apart dist x y <= apart dist a b /\ ~ arc (dg_g d) x y.
Proof.
  exists 4%nat, square4. eexists. split; [lia|]. split; [vm_compute; reflexivity|]. exists 2%nat, 3%nat, 0%nat, 1%nat. split; [lia|]. split; [lia|]. split; [lia|]. split; [|split; [vm_compute; discriminate|]].
  - apply g_edges_in. vm_compute. auto.
  - intro A. apply g_edges_in in A. vm_compute in A. repeat destruct A as [A|A]; try discriminate; contradiction.
Qed.
Print Assumptions C51_ties_refuted.
(** With one vertex the graph has no vertices. *)
Theorem C51_one_refuted : exists dist d, minimal_graph 1 dist = Ok d /\ ~ vertex (dg_g d) 0.
Proof. exists line3. eexists. split; [vm_compute; reflexivity|]. intros []. Qed.
Print Assumptions C51_one_refuted.

(** ** C52: set_types_random *)

(** The i-th edge that is not a loop gets the type whose interval contains
    the i-th number, and the loops get theirs from the numbers after that.  By
    default the types 1, 2, 3 are equally likely, for loops 0, 1, 2, 3. *)
Theorem C52_random gi d po lo u : test_graph gi = Ok d -> dwf d ->
  let props := or_equal po [1; 2; 3] in let lprops := or_equal lo [0; 1; 2; 3] in
  proportions props -> proportions lprops -> (forall i, (0 <= u i)%Q /\ (u i < 1)%Q) ->
  exists d', set_types_random gi po lo u = Ok d' /\ same_arcs d d' /\ typed_by props lprops u d'.
Proof.
  intros T W props lprops P1 P2 U. unfold set_types_random. rewrite T. destruct (types_random_ok d po lo u W P1 P2 U) as (d' & es & ls & E & SA & N1 & N2 & IE & IL & TE & TL).
  exists d'. split; [exact E|]. split; [exact SA|]. assert (A := proj2 (proj2 (proj2 SA))). exists es, ls.
  split; [exact N1|]. split; [exact N2|]. split; [intros x y; rewrite A; apply IE|]. split; [intros x y; rewrite A; apply IL|]. split; [exact TE|exact TL].
Qed.
Print Assumptions C52_random.
(** In particular every type has a positive proportion. *)
Theorem C52_positive keys x t : proportions keys -> chosen keys x t -> exists p, In (t, p) keys /\ (0 < p)%Q.
Proof. intros [H _]. exact (chosen_in keys x t H). Qed.
Print Assumptions C52_positive.
(** Other proportions are rejected. *)
Theorem C52_random_rejects gi d po lo u : test_graph gi = Ok d -> (forall i, (0 <= u i)%Q /\ (u i < 1)%Q) ->
  ~ (proportions (or_equal po [1; 2; 3]) /\ proportions (or_equal lo [0; 1; 2; 3])) -> set_types_random gi po lo u = Err ValueError.
Proof. intros T U H. unfold set_types_random. rewrite T. exact (types_random_bad d po lo u U H). Qed.
Print Assumptions C52_random_rejects.

Definition g52 : list (nat * list (nat * option Z)) := [(0%nat, [(1%nat, None); (0%nat, Some 7)]); (1%nat, [(2%nat, None)]); (2%nat, [(1%nat, None); (0%nat, None)])].
Lemma dwf52 : dwf (dg_new g52).
Proof. apply dg_new_ok. split; [vm_compute; repeat constructor; cbn; intuition discriminate|]. intros u r I. cbn in I. repeat destruct I as [Q|I]; try contradiction; injection Q as <- <-; repeat constructor; cbn; intuition discriminate. Qed.
Definition u52 (i : nat) : Q := match i with O => 0 | S O => 1 # 4 | S (S O) => 2 # 3 | S (S (S O)) => 99 # 100 | _ => 1 # 2 end.
Definition p52 : list (Z * Q) := [(1, 1 # 4); (5, 1 # 2); (6, 0%Q); (9, 1 # 4)].
Example C52_random_ex : test_graph (GGraph g52) = Ok (dg_new g52) /\ dwf (dg_new g52) /\ proportions p52 /\ proportions default_loop_props /\ (forall i, (0 <= u52 i)%Q /\ (u52 i < 1)%Q) /\
  exists d', set_types_random (GGraph g52) (Some p52) None u52 = Ok d' /\
    dg_g d' = [(0%nat, [(1%nat, Some 1); (0%nat, Some 2)]); (1%nat, [(2%nat, Some 5)]); (2%nat, [(1%nat, Some 5); (0%nat, Some 9)])].
Proof.
  split; [reflexivity|]. split; [exact dwf52|]. split; [split; [intros t p I; cbn in I; repeat destruct I as [Q|I]; try contradiction; injection Q as <- <-; discriminate|discriminate]|].
  split; [apply defaults_proportions|]. split; [intros [|[|[|[|i]]]]; split; (discriminate || reflexivity)|]. eexists. split; vm_compute; reflexivity.
Qed.
Example C52_rejects_ex : ~ proportions [(1, 1 # 2); (2, 1 # 3)] /\ set_types_random (GGraph g52) (Some [(1, 1 # 2); (2, 1 # 3)]) None u52 = Err ValueError /\
  ~ proportions [(1, (-1) # 2); (2, 3 # 2)] /\ set_types_random (GGraph g52) None (Some [(1, (-1) # 2); (2, 3 # 2)]) u52 = Err ValueError.
Proof.
  split; [intros [_ H]; vm_compute in H; apply H; reflexivity|]. split; [vm_compute; reflexivity|]. split; [|vm_compute; reflexivity].
  intros [H _]. specialize (H 1 ((-1) # 2) (or_introl eq_refl)). apply H. reflexivity.
Qed.

(** ** C52: set_types_rank *)

(** [k] is the number of vertices to choose by rank and [m] the number of
    random points; the j-th point selects the vertex [f j]. *)
Theorem C52_rank gi d rank p2 p3 near k m : test_graph gi = Ok d -> dwf d -> (forall v, vertex (dg_g d) v <-> (v < length rank)%nat) ->
  let n := inject_Z (Z.of_nat (length rank)) in
  (1 <= k <= length rank)%nat -> (n * p2 <= inject_Z (Z.of_nat k))%Q -> (inject_Z (Z.of_nat k) < n * p2 + 1)%Q ->
  (inject_Z (Z.of_nat m) <= p3 * n)%Q -> (p3 * n < inject_Z (Z.of_nat m) + 1)%Q ->
  exists d' f, set_types_rank gi rank p2 p3 near = Ok d' /\ dwf d' /\ (forall v, vertex (dg_g d') v <-> vertex (dg_g d) v) /\
    (forall e i, In (e, i) (dg_index d) -> In (e, i) (dg_index d')) /\
    (forall j, (j < m)%nat -> (exists w, (w < length rank)%nat /\ ~ top rank k w) ->
      (f j < length rank)%nat /\ ~ top rank k (f j) /\ forall w, (w < length rank)%nat -> ~ top rank k w -> eLe (near (f j) j) (near w j)) /\
    (forall x y, arc (dg_g d') x y <-> arc (dg_g d) x y \/ (x = y /\ (x < length rank)%nat /\ (top rank k x \/ exists j, (j < m)%nat /\ f j = x))) /\
    (forall x y t, edge (dg_g d') x y t -> x <> y -> t = Some 1) /\
    (forall x t, edge (dg_g d') x x t ->
      (top rank k x -> t = Some 3) /\ (~ top rank k x -> (exists j, (j < m)%nat /\ f j = x) -> t = Some 2) /\ (~ top rank k x -> ~ (exists j, (j < m)%nat /\ f j = x) -> t = Some 1)).
Proof. exact (rank_ok gi d rank p2 p3 near k m). Qed.
Print Assumptions C52_rank.
(** Different ranks select exactly [k] vertices. *)
Theorem C52_top_count rank k : NoDup rank -> (1 <= k <= length rank)%nat -> exists l, NoDup l /\ length l = k /\ forall v, In v l <-> top rank k v.
Proof. exact (top_count rank k). Qed.
Print Assumptions C52_top_count.

Definition near52 (v j : nat) : ext := Fin (Z.of_nat (v * v)).
Example C52_rank_ex : (forall v, vertex (dg_g (dg_new g52)) v <-> (v < length [5; 9; 4])%nat) /\ (inject_Z 3 * (1 # 3) <= inject_Z 1)%Q /\ (inject_Z 1 < inject_Z 3 * (1 # 3) + 1)%Q /\
  (inject_Z 1 <= (1 # 2) * inject_Z 3)%Q /\ ((1 # 2) * inject_Z 3 < inject_Z 1 + 1)%Q /\ NoDup [5; 9; 4] /\ top [5; 9; 4] 1 1 /\ ~ top [5; 9; 4] 1 0 /\
  exists d', set_types_rank (GGraph g52) [5; 9; 4] (1 # 3) (1 # 2) near52 = Ok d' /\
    dg_g d' = [(0%nat, [(1%nat, Some 1); (0%nat, Some 2)]); (1%nat, [(2%nat, Some 1); (1%nat, Some 3)]); (2%nat, [(1%nat, Some 1); (0%nat, Some 1)])].
Proof.
  split; [intro v; unfold vertex; assert (E : map fst (dg_g (dg_new g52)) = [0; 1; 2]%nat) by (vm_compute; reflexivity); rewrite E; destruct v as [|[|[|v]]]; cbn; intuition lia|]. split; [discriminate|]. split; [reflexivity|]. split; [discriminate|]. split; [reflexivity|].
  split; [repeat constructor; cbn; intuition discriminate|]. split; [split; vm_compute; lia|]. split; [intros [_ H]; vm_compute in H; lia|]. eexists. split; vm_compute; reflexivity.
Qed.

(** The documentation gives type 2 to the loops of the top-ranked vertices
    and type 3 to the ones nearby; it is the other way round. *)
Theorem C52_documentation_refuted : exists gi rank p2 p3 near d', set_types_rank gi rank p2 p3 near = Ok d' /\ top rank 1 1 /\ ~ top rank 1 0 /\
  (inject_Z (Z.of_nat (length rank)) * p2 == 1)%Q /\ edge (dg_g d') 1 1 (Some 3) /\ edge (dg_g d') 0 0 (Some 2).
Proof.
  exists (GGraph g52), [5; 9; 4], (1 # 3)%Q, (1 # 2)%Q, near52. eexists. split; [vm_compute; reflexivity|]. split; [split; vm_compute; lia|]. split; [intros [_ H]; vm_compute in H; lia|]. split; [reflexivity|].
  split; eexists; (split; [cbn; tauto|]); cbn; tauto.
Qed.
Print Assumptions C52_documentation_refuted.
(** With [pType2 = 0] every vertex counts as top-ranked: [tmp[-0]] is the
    smallest rank. *)
Theorem C52_zero_refuted : exists gi rank p3 near d', set_types_rank gi rank 0 p3 near = Ok d' /\ forall x, (x < length rank)%nat -> edge (dg_g d') x x (Some 3).
Proof.
  exists (GGraph g52), [5; 9; 4], (1 # 2)%Q, near52. eexists. split; [vm_compute; reflexivity|]. intros x L. cbn in L. destruct x as [|[|[|x]]]; [| | |lia]; eexists; (split; [cbn; tauto|]); cbn; tauto.
Qed.
Print Assumptions C52_zero_refuted.

(** ** C64: generate_random_graph and generate_pagerank_graph *)

Theorem C64_random n prob dist po lo u w : (2 <= n)%nat -> let props := or_equal po [1; 2; 3] in let lprops := or_equal lo [0; 1; 2; 3] in
  proportions props -> proportions lprops -> (forall i, (0 <= w i)%Q /\ (w i < 1)%Q) ->
  exists m d vs, minimal_graph n dist = Ok m /\ generate_random_graph n prob dist po lo u w = Ok d /\ dwf d /\
    (forall v, vertex (dg_g d) v <-> (v < n)%nat) /\ (forall x y, x <> y -> arc (dg_g d) x y <-> arc (dg_g m) x y) /\
    Permutation vs (seq 0 n) /\ (forall i v, nth_error vs i = Some v -> arc (dg_g d) v v <-> (u i < prob)%Q) /\
    typed_by props lprops w d.
Proof. exact (generate_ok n prob dist po lo u w). Qed.
Print Assumptions C64_random.
(** The result has the properties of C52_rank for the ranks that pagerank
    gives to the vertices of the connected graph of C51. *)
Theorem C64_pagerank n dist pr p2 p3 near k m : (2 <= n)%nat -> (forall d, dwf d -> NoDup (map fst (pr d)) /\ forall v, In v (map fst (pr d)) <-> vertex (dg_g d) v) ->
  let N := inject_Z (Z.of_nat n) in
  (1 <= k <= n)%nat -> (N * p2 <= inject_Z (Z.of_nat k))%Q -> (inject_Z (Z.of_nat k) < N * p2 + 1)%Q ->
  (inject_Z (Z.of_nat m) <= p3 * N)%Q -> (p3 * N < inject_Z (Z.of_nat m) + 1)%Q ->
  exists g rank d, minimal_graph n dist = Ok g /\ dwf g /\ length rank = n /\ (forall v, vertex (dg_g g) v <-> (v < n)%nat) /\ (forall v x, In (v, x) (pr g) -> nth_error rank v = Some x) /\
    generate_pagerank_graph n dist pr p2 p3 near = Ok d /\ set_types_rank (GIndexed g) rank p2 p3 near = Ok d.
Proof. exact (pagerank_ok n dist pr p2 p3 near k m). Qed.
Print Assumptions C64_pagerank.

Definition pr64 (d : dgraph) : list (nat * Z) := map (fun v => (v, Z.of_nat (2 * v + 1))) (g_nodes (dg_g (d))).
Example C64_ex : exists d d', generate_random_graph 3 (1 # 2) line3 None None u52 u52 = Ok d /\
  dg_g d = [(0%nat, [(1%nat, Some 1); (0%nat, Some 2)]); (1%nat, [(0%nat, Some 1); (2%nat, Some 3); (1%nat, Some 2)]); (2%nat, [(1%nat, Some 3)])] /\
  generate_pagerank_graph 3 line3 pr64 (1 # 3) (1 # 2) near52 = Ok d' /\
  dg_g d' = [(0%nat, [(1%nat, Some 1); (0%nat, Some 2)]); (1%nat, [(0%nat, Some 1); (2%nat, Some 1)]); (2%nat, [(1%nat, Some 1); (2%nat, Some 3)])].
Proof. do 2 eexists. split; [vm_compute; reflexivity|]. split; [reflexivity|]. split; vm_compute; reflexivity. Qed.
Example C64_pr_ex : forall d, dwf d -> NoDup (map fst (pr64 d)) /\ forall v, In v (map fst (pr64 d)) <-> vertex (dg_g d) v.
Proof. intros d W. unfold pr64. rewrite map_map. cbn [fst]. rewrite map_id. split; [apply W|reflexivity]. Qed.
