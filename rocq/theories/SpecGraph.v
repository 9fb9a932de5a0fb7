(** * SpecGraph: notions used in the statements about graphs *)
From Coq Require Import List ZArith Arith.
From Verif Require Import Base Graph.
Import ListNotations.
Open Scope Z_scope.

(** Every vertex and every edge once, as in Python dictionaries. *)
Definition proper (g : graph) : Prop := NoDup (map fst g) /\ forall u r, In (u, r) g -> NoDup (map fst r).
Definition vertex (g : graph) (v : nat) : Prop := In v (map fst g).
Definition edge (g : graph) (u v : nat) (a : option Z) : Prop := exists r, In (u, r) g /\ In (v, a) r.
Definition closed (g : graph) : Prop := forall u v a, edge g u v a -> vertex g v.

(** ** Input *)

(** The input lists an edge, with its type if it has one. *)
Definition listed (a : adj_in) (u v : nat) (o : option Z) : Prop :=
  match a with
  | AMatrix m => o = None /\ (v < length m)%nat /\ exists r x, nth_error m u = Some r /\ nth_error r v = Some x /\ x <> 0
  | ADicts d => edge d u v o
  | ALists d => o = None /\ exists l, In (u, l) d /\ In v l
  | AOther => False
  end.
(** The input speaks about a vertex. *)
Definition mentioned (a : adj_in) (v : nat) : Prop :=
  match a with
  | AMatrix m => (v < length m)%nat
  | ADicts d => In v (map fst d) \/ exists u o, edge d u v o
  | ALists d => In v (map fst d) \/ exists u l, In (u, l) d /\ In v l
  | AOther => False
  end.
Definition proper_in (a : adj_in) : Prop :=
  match a with
  | AMatrix m => forall r, In r m -> (length m <= length r)%nat
  | ADicts d => d <> [] /\ proper d
  | ALists d => d <> [] /\ NoDup (map fst d)
  | AOther => False
  end.

(** A type is given for a pair. *)
Definition given (ty : type_in) (u v : nat) (t : Z) : Prop :=
  match ty with
  | TNone => False
  | TMatrix m => (v < length m)%nat /\ exists r, nth_error m u = Some r /\ nth_error r v = Some t /\ t <> 0
  | TDicts d => exists r, In (u, r) d /\ In (v, t) r
  end.
Definition proper_ty (ty : type_in) : Prop :=
  match ty with
  | TNone => True
  | TMatrix m => forall r, In r m -> (length m <= length r)%nat
  | TDicts d => d <> [] /\ NoDup (map fst d) /\ forall u r, In (u, r) d -> NoDup (map fst r)
  end.

(** The type of a listed edge: the given one, else the one it has in the
    adjacency list, else 1. *)
Definition kept (ty : type_in) (o : option Z) (u v : nat) (t : Z) : Prop :=
  given ty u v t \/ ((forall t', ~ given ty u v t') /\ match o with Some z => t = z | None => t = 1 end).

(** Nothing leads away. *)
Definition dead_end (a : adj_in) (v : nat) : Prop := forall w o, ~ listed a v w o.

(** ** Edge indices *)

Definition arc (g : graph) (u v : nat) : Prop := exists a, edge g u v a.
(** The order of pairs. *)
Definition before (p q : nat * nat) : Prop := (fst p < fst q)%nat \/ (fst p = fst q /\ (snd p < snd q)%nat).

(** [l] numbers the edges of [g] from 0 without gaps and repetitions. *)
Record numbering (g : graph) (l : list ((nat * nat) * nat)) : Prop := {
  nb_edges : forall u v, (exists k, In ((u, v), k) l) <-> arc g u v;
  nb_fun : forall e k k', In (e, k) l -> In (e, k') l -> k = k';
  nb_inj : forall e e' k, In (e, k) l -> In (e', k) l -> e = e';
  nb_gaps : forall k e j, In (e, k) l -> (j <= k)%nat -> exists e', In (e', j) l
}.
