(** * SpecRoute: notions used in the statements about routing *)
From Coq Require Import List ZArith QArith Qabs Bool Arith.
From Verif Require Import Base Dict UnionFind Graph SpecGraph GraphNet.
Import ListNotations.
Open Scope Z_scope.

(** A dictionary of dictionaries says that the probability of going from
    [v] to [w] is [x]. *)
Definition route (t : list (nat * list (nat * Q))) (v w : nat) (x : Q) : Prop := exists r, In (v, r) t /\ In (w, x) r.

(** There is one list of probabilities per vertex, one probability per
    out-edge. *)
Definition shaped (d : dgraph) (p : list (list Q)) : Prop :=
  (forall v, vertex (dg_g d) v <-> (v < length p)%nat) /\
  forall v row, get p v = Some row -> exists ws, NoDup ws /\ (forall w, In w ws <-> arc (dg_g d) v w) /\ length row = length ws.

Definition total (l : list Q) : Q := fold_right Qplus 0%Q l.
(** Within the tolerance of [np.isclose]. *)
Definition about_one (x : Q) : Prop := (Qabs (x - 1) <= (1001 # 100000000))%Q.

(** A dictionary of routing probabilities that [set_transitions] should accept. *)
Definition good_row (d : dgraph) (v : nat) (r : list (nat * Q)) : Prop :=
  vertex (dg_g d) v /\ ((exists w, arc (dg_g d) v w) -> about_one (total (map snd r))) /\ forall w x, In (w, x) r -> (0 <= x)%Q.

(** What is stored for the edge from [v] to [w] according to [r]: 0 if [r] does not
    speak about [w]. *)
Definition says (r : list (nat * Q)) (w : nat) (x : Q) : Prop := In (w, x) r \/ ((forall y, ~ In (w, y) r) /\ x = 0%Q).

(** A matrix with [n] rows and columns. *)
Definition square (n : nat) (m : list (list Q)) : Prop := length m = n /\ forall r, In r m -> length r = n.
Definition entry (m : list (list Q)) (v w : nat) (x : Q) : Prop := exists r, nth_error m v = Some r /\ nth_error r w = Some x.

(** [out] lists the out-edges of every vertex ([QueueNetwork.out_edges]). *)
Definition out_fits (d : dgraph) (out : list (list nat)) : Prop :=
  forall v, vertex (dg_g d) v -> exists l, get out v = Some l /\ ((0 < length l)%nat <-> exists w, arc (dg_g d) v w).

(** The keys of a dictionary are different. *)
Definition dict_ok (m : list (nat * list (nat * Q))) : Prop := NoDup (map fst m) /\ forall v r, In (v, r) m -> NoDup (map fst r).

Definition nonneg (m : list (list Q)) : Prop := forall r x, In r m -> In x r -> (0 <= x)%Q.
(** All rows of non-terminal vertices are probabilities. *)
Definition sound (p : list (list Q)) : Prop := forall v row, get p v = Some row -> row <> [] -> about_one (total row) /\ forall x, In x row -> (0 <= x)%Q.

(** The rows that belong to vertices with out-edges. *)
Definition rows_ok (d : dgraph) (m : list (list Q)) : Prop :=
  forall v r, (exists w, arc (dg_g d) v w) -> nth_error m v = Some r -> about_one (total r).
(** The vertices are listed in increasing order, or all have out-edges. *)
Definition in_order (d : dgraph) : Prop := g_nodes (dg_g d) = seq 0 (length (g_nodes (dg_g d))) \/ forall v, vertex (dg_g d) v -> exists w, arc (dg_g d) v w.

(** The probability that is stored beside the out-edge from [v] to [w]: agents
    at [v] choose among the positions of [out_edges[v]] with the
    probabilities at the same positions. *)
Definition beside (d : dgraph) (out : list (list nat)) (p : list (list Q)) (v w : nat) (x : Q) : Prop :=
  exists l row i k, get out v = Some l /\ get p v = Some row /\ nth_error l i = Some k /\ In ((v, w), k) (dg_index d) /\ nth_error row i = Some x.
