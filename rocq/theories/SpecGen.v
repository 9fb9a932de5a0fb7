(** * SpecGen: notions used in the statements about graph generation *)
From Coq Require Import List ZArith QArith Qabs Bool Arith.
From Verif Require Import Base Dict UnionFind Graph SpecGraph GraphNet GraphIndex SpecRoute.
Import ListNotations.
Open Scope Z_scope.

(** One can walk from [x] to [y] along the edges. *)
Inductive path (g : graph) : nat -> nat -> Prop :=
| path_here x : path g x x
| path_step x y z : arc g x y -> path g y z -> path g x z.

(** The equivalence generated by a relation. *)
Inductive linked (R : nat -> nat -> Prop) : nat -> nat -> Prop :=
| linked_refl x : linked R x x
| linked_step x y : R x y -> linked R x y
| linked_sym x y : linked R x y -> linked R y x
| linked_trans x y z : linked R x y -> linked R y z -> linked R x z.

(** The distance between two points, given for [x < y]. *)
Definition apart (dist : nat -> nat -> Z) (x y : nat) : Z := if (x <? y)%nat then dist x y else dist y x.
(** Two different points of the first [n] at a distance smaller than [r]. *)
Definition within (n : nat) (dist : nat -> nat -> Z) (r : Z) (x y : nat) : Prop :=
  (x < n)%nat /\ (y < n)%nat /\ x <> y /\ apart dist x y < r.

(** The vertices and edges of [d'] are those of [d], with the same numbers. *)
Definition same_arcs (d d' : dgraph) : Prop :=
  dwf d' /\ dg_index d' = dg_index d /\ (forall v, vertex (dg_g d') v <-> vertex (dg_g d) v) /\ (forall x y, arc (dg_g d') x y <-> arc (dg_g d) x y).

(** A uniform number scaled to the sum of the proportions falls into the
    interval of type [t]; the intervals have the lengths of the proportions. *)
Definition chosen (keys : list (Z * Q)) (x : Q) (t : Z) : Prop :=
  exists pre p post, keys = pre ++ (t, p) :: post /\ (total (map snd pre) <= x)%Q /\ (x < total (map snd pre) + p)%Q.
(** What [np.random.choice] accepts: no negative proportions, and a sum of 1
    up to the square root of the float epsilon. *)
Definition proportions (keys : list (Z * Q)) : Prop :=
  (forall t p, In (t, p) keys -> (0 <= p)%Q) /\ (Qabs (total (map snd keys) - 1) <= 1 # 67108864)%Q.

(** Fewer than [k] vertices have a higher rank than [v]. *)
Definition higher (rank : list Z) (v : nat) : nat := length (filter (fun r => nth v rank 0 <? r) rank).
Definition top (rank : list Z) (k v : nat) : Prop := (v < length rank)%nat /\ (higher rank v < k)%nat.

(** The given proportions, or equal ones for the given types. *)
Definition or_equal (o : option (list (Z * Q))) (ts : list Z) : list (Z * Q) :=
  match o with Some p => p | None => map (fun t => (t, 1 # Pos.of_nat (length ts))) ts end.
(** The edges of [d] have types chosen by the numbers [u]: the i-th edge that is
    not a loop by the i-th number, the loops by the numbers after that. *)
Definition typed_by (props lprops : list (Z * Q)) (u : nat -> Q) (d : dgraph) : Prop :=
  exists es ls, NoDup es /\ NoDup ls /\
    (forall x y, In (x, y) es <-> arc (dg_g d) x y /\ x <> y) /\ (forall x y, In (x, y) ls <-> arc (dg_g d) x y /\ x = y) /\
    (forall i x y, nth_error es i = Some (x, y) -> exists t, edge (dg_g d) x y (Some t) /\ chosen props (u i * total (map snd props))%Q t) /\
    (forall i x y, nth_error ls i = Some (x, y) -> exists t, edge (dg_g d) x y (Some t) /\ chosen lprops (u (length es + i)%nat * total (map snd lprops))%Q t).
