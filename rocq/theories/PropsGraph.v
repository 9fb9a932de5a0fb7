(** * PropsGraph: claims about graphs (C45-C47, C56) *)
From Coq Require Import List ZArith Bool Arith Lia.
From Verif Require Import Base Dict UnionFind Graph SpecGraph GraphProofs GraphClaims GraphNet GraphIndex.
Import ListNotations.
Open Scope Z_scope.

(** ** C45 *)

(** [adj] is anything but 2. *)
Theorem C45_adjust_1 a ty adj : adj <> 2 -> proper_in a -> proper_ty ty -> (forall u v t, given ty u v t -> exists o, listed a u v o) ->
  exists g, adjacency2graph a ty adj = Ok g /\ proper g /\ closed g /\
  (forall v, vertex g v <-> mentioned a v) /\
  (forall u v x, edge g u v x <->
    (exists o t, listed a u v o /\ kept ty o u v t /\ x = Some t) \/ (u = v /\ x = Some 0 /\ mentioned a u /\ dead_end a u)) /\
  (forall v, vertex g v -> exists w x, edge g v w x).
Proof.
  intros NA PA PT W. destruct (adjacency2graph_1 a ty adj NA PA PT W) as (g & E & P & C & V & ED). exists g. repeat (split; [assumption|]).
  eapply adjacency2graph_out; eassumption.
Qed.
Print Assumptions C45_adjust_1.

Theorem C45_wrong_type a ty adj u v t : proper_in a -> proper_ty ty -> given ty u v t -> (forall o, ~ listed a u v o) ->
  adjacency2graph a ty adj = Err KeyError.
Proof. exact (adjacency2graph_bad a ty adj u v t). Qed.
Print Assumptions C45_wrong_type.

Definition a45 : adj_in := ADicts [(0%nat, [(1%nat, None); (2%nat, Some 4)]); (1%nat, [(0%nat, None)])].
Definition ty45 : type_in := TDicts [(1%nat, [(0%nat, 3)])].
Example C45_ex : proper_in a45 /\ proper_ty ty45 /\ (forall u v t, given ty45 u v t -> exists o, listed a45 u v o) /\
  adjacency2graph a45 ty45 1 = Ok [(0%nat, [(1%nat, Some 1); (2%nat, Some 4)]); (1%nat, [(0%nat, Some 3)]); (2%nat, [(2%nat, Some 0)])].
Proof.
  split.
  { split; [discriminate|]. split; [repeat constructor; cbn; intuition congruence|]. intros u r [H|[H|[]]]; injection H as <- <-; repeat constructor; cbn; intuition congruence. }
  split. { split; [discriminate|]. split; [repeat constructor; cbn; intuition congruence|]. intros u r [H|[]]; injection H as <- <-; repeat constructor; cbn; intuition congruence. }
  split; [|vm_compute; reflexivity]. intros u v t (r & [H|[]] & J). injection H as <- <-. destruct J as [J|[]]. injection J as <- <-.
  exists None, [(0%nat, None)]. cbn. auto.
Qed.
Example C45_wrong_ex : given (TDicts [(0%nat, [(5%nat, 3)])]) 0 5 3 /\ adjacency2graph a45 (TDicts [(0%nat, [(5%nat, 3)])]) 1 = Err KeyError.
Proof. split; [exists [(5%nat, 3)]; cbn; auto|]. vm_compute. reflexivity. Qed.

(** Types given as a matrix: an entry 0 does not give the type 0. *)
Theorem C45_matrix_zero_refuted : exists m t u v r g,
  nth_error t u = Some r /\ nth_error r v = Some 0 /\ listed (AMatrix m) u v None /\
  adjacency2graph (AMatrix m) (TMatrix t) 1 = Ok g /\ edge g u v (Some 1) /\ ~ edge g u v (Some 0).
Proof.
  exists [[0; 1]; [1; 0]], [[0; 0]; [2; 0]], 0%nat, 1%nat, [0; 0], [(0%nat, [(1%nat, Some 1)]); (1%nat, [(0%nat, Some 2)])].
  split; [reflexivity|]. split; [reflexivity|]. split; [cbn; repeat split; [lia|]; exists [0; 1], 1; cbn; repeat split; lia|].
  split; [vm_compute; reflexivity|]. split; [exists [(1%nat, Some 1)]; cbn; auto|]. intros (r & [H|[H|[]]] & J); injection H as <- ; subst; destruct J as [J|[]]; discriminate.
Qed.
Print Assumptions C45_matrix_zero_refuted.

(** No types at all given as a dictionary: an error. *)
Theorem C45_no_types_refuted : exists a, proper_in a /\ adjacency2graph a (TDicts []) 1 = Err KeyError.
Proof. exists a45. split; [exact (proj1 C45_ex)|]. vm_compute. reflexivity. Qed.
Print Assumptions C45_no_types_refuted.

(** ** C46 *)

Theorem C46_adjust_2 a ty : proper_in a -> proper_ty ty -> (forall u v t, given ty u v t -> exists o, listed a u v o) ->
  exists g, adjacency2graph a ty 2 = Ok g /\ proper g /\ closed g /\
  (forall v, vertex g v <-> mentioned a v) /\
  (forall u v x, edge g u v x <-> exists o, listed a u v o /\
    ((dead_end a v /\ x = Some 0) \/ (~ dead_end a v /\ exists t, kept ty o u v t /\ x = Some t))) /\
  (forall u v x, edge g u v x -> x <> Some 0 -> exists w y, edge g v w y).
Proof.
  intros PA PT W. destruct (adjacency2graph_2 a ty PA PT W) as (g & E & P & C & V & ED). exists g. repeat (split; [assumption|]).
  eapply adjacency2graph_on; eassumption.
Qed.
Print Assumptions C46_adjust_2.

Example C46_ex : adjacency2graph a45 ty45 2 = Ok [(0%nat, [(1%nat, Some 1); (2%nat, Some 0)]); (1%nat, [(0%nat, Some 3)]); (2%nat, [])].
Proof. vm_compute. reflexivity. Qed.

(** ** C47 *)

(** After any additions of edges the index is a numbering with [_nE]
    numbers; old edges keep their numbers; at first the order is that of the
    pairs. *)
Theorem C47_edge_index g l : proper g ->
  let d := dg_adds (dg_new g) l in
  numbering (dg_g d) (dg_index d) /\ length (dg_index d) = dg_next d /\ length (g_edges (dg_g d)) = dg_next d /\
  (forall l', let d' := dg_adds d l' in
     (forall e k, In (e, k) (dg_index d) -> In (e, k) (dg_index d')) /\
     (forall u v, arc (dg_g d') u v <-> arc (dg_g d) u v \/ In (u, v) l')) /\
  (forall e e' k k', In (e, k) (dg_index (dg_new g)) -> In (e', k') (dg_index (dg_new g)) -> before e e' -> (k < k')%nat).
Proof.
  intros P d. assert (W : dwf d) by (apply dg_adds_ok, dg_new_ok; exact P).
  split; [apply dwf_numbering; exact W|]. split. { rewrite <- (map_length snd), (proj2 (dw_index _ W)). apply seq_length. }
  split; [apply W|]. split; [|intros; eapply dg_new_sorted; eassumption].
  clearbody d. intros l' d'. split; [intros; apply dg_adds_keeps; assumption|]. subst d'. revert d W. induction l' as [|[u v] l' IH]; intros d W x y; cbn [dg_adds fold_left]; [cbn; tauto|].
  change (fold_left _ l' (dg_add d u v)) with (dg_adds (dg_add d u v) l'). cbn [fst snd]. rewrite (IH _ (dg_add_ok d u v W)).
  replace (dg_g (dg_add d u v)) with (g_edge (dg_g d) u v None) by (unfold dg_add; cbv zeta; destruct (mhas peqb (dg_index d) (u, v)); reflexivity).
  rewrite (proj1 (proj2 (proj2 (gedge_ok _ u v None (dw_proper _ W)))) x y). cbn [In]. split.
  - intros [[H|[-> ->]]|H]; auto.
  - intros [H|[H|H]]; auto. injection H as -> ->. auto.
Qed.
Print Assumptions C47_edge_index.

Example C47_ex : let g := [(2%nat, [(0%nat, Some 1); (1%nat, Some 1)]); (0%nat, [(2%nat, Some 2)])] in proper g /\
  dg_index (dg_adds (dg_new g) [(1, 1)%nat; (0, 2)%nat; (0, 1)%nat]) = [((0, 2), 0); ((2, 0), 1); ((2, 1), 2); ((1, 1), 3); ((0, 1), 4)]%nat.
Proof.
  cbv zeta. split; [|vm_compute; reflexivity]. split; [repeat constructor; cbn; intuition congruence|].
  intros u r [H|[H|[]]]; injection H as <- <-; repeat constructor; cbn; intuition congruence.
Qed.

(** ** C56 *)

Theorem C56_matrix m : (forall r, In r m -> (length m <= length r)%nat) ->
  exists d, matrix2dict (fun x => x) m = Ok d /\ map fst d = seq 0 (length m) /\ (forall k l, In (k, l) d -> NoDup (map fst l)) /\
  forall k j x, (exists l, In (k, l) d /\ In (j, x) l) <-> (j < length m)%nat /\ x <> 0 /\ exists r, nth_error m k = Some r /\ nth_error r j = Some x.
Proof.
  intro S. destruct (matrix_spec (fun x => x) m S) as (d & E & K & N & H). exists d. split; [exact E|]. split; [exact K|]. split; [exact N|].
  intros k j x. rewrite H. split.
  - intros (L & r & y & A & B & C & ->). split; [exact L|]. split; [exact C|]. eauto.
  - intros (L & C & r & A & B). split; [exact L|]. exists r, x. auto.
Qed.
Print Assumptions C56_matrix.

(** A graph made from any input, written as a dictionary and read again is
    the same graph, in the same order. *)
Theorem C56_round_trip a ty adj g : proper_in a -> proper_ty ty -> (forall u v t, given ty u v t -> exists o, listed a u v o) ->
  adjacency2graph a ty adj = Ok g -> g <> [] -> adjacency2graph (ADicts (graph2dict g)) TNone adj = Ok g.
Proof.
  intros PA PT W E NE. destruct (Z.eq_dec adj 2) as [->|NA].
  - destruct (C46_adjust_2 a ty PA PT W) as (g' & E' & P & C & V & ED & O). assert (g' = g) by congruence. subst g'.
    apply round_trip_2; auto.
    + intros u v x X. apply ED in X as (o & _ & [[_ ->]|(_ & t & _ & ->)]); discriminate.
    + intros u v x X D. destruct (proj1 (ED u v x) X) as (o & L & [[_ ->]|(ND & t & KT & ->)]); [reflexivity|].
      destruct (Z.eq_dec t 0) as [->|NT]; [reflexivity|]. exfalso. destruct (O u v (Some t) X) as (w & y & Y); [congruence|]. exact (D w y Y).
  - destruct (C45_adjust_1 a ty adj NA PA PT W) as (g' & E' & P & C & V & ED & O). assert (g' = g) by congruence. subst g'.
    apply round_trip_1; auto. intros u v x X. apply ED in X as [(o & t & _ & _ & ->)|(_ & -> & _)]; discriminate.
Qed.
Print Assumptions C56_round_trip.

Example C56_ex : matrix2dict (fun x => x) [[0; 2; 0]; [0; 0; 0]; [1; 0; 3]] = Ok [(0%nat, [(1%nat, 2)]); (1%nat, []); (2%nat, [(0%nat, 1); (2%nat, 3)])] /\
  exists g, adjacency2graph (AMatrix [[0; 2; 0]; [0; 0; 0]; [1; 0; 3]]) TNone 2 = Ok g /\ g <> [] /\ graph2dict g = [(0%nat, [(1%nat, Some 0)]); (1%nat, []); (2%nat, [(0%nat, Some 1); (2%nat, Some 1)])].
Proof. split; [vm_compute; reflexivity|]. eexists. split; [vm_compute; reflexivity|]. split; [discriminate|reflexivity]. Qed.
