(** * SpecUF: notions used in the statements about UnionFind *)
From Coq Require Import List ZArith Arith.
From Verif Require Import Base UnionFind.
Import ListNotations.

(** The equivalence generated by pairs. *)
Inductive conn (ps : list (nat * nat)) : nat -> nat -> Prop :=
| conn_refl x : conn ps x x
| conn_pair x y : In (x, y) ps -> conn ps x y
| conn_sym x y : conn ps x y -> conn ps y x
| conn_trans x y z : conn ps x y -> conn ps y z -> conn ps x z.

(** The pairs united by some calls. *)
Definition pairs (l : list uop) : list (nat * nat) :=
  flat_map (fun o => match o with UUnion a b => [(a, b)] | _ => [] end) l.

(** The arguments of a call are elements of the universe. *)
Definition uwithin (s : list nat) (o : uop) : Prop :=
  match o with
  | UUnion a b => In a s /\ In b s
  | UFind a => In a s
  | USize a => In a s
  end.

(** [l] lists the class of [a] in [s]. *)
Definition class_of (s : list nat) (ps : list (nat * nat)) (a : nat) (l : list nat) : Prop :=
  NoDup l /\ forall x, In x l <-> In x s /\ conn ps x a.

(** [l] has one member of every class. *)
Definition one_of_each (s : list nat) (ps : list (nat * nat)) (l : list nat) : Prop :=
  NoDup l /\ (forall x, In x l -> In x s) /\
  (forall x, In x s -> exists r, In r l /\ conn ps x r) /\
  (forall r r', In r l -> In r' l -> conn ps r r' -> r = r').

(** [y] is reached from [x] by [n] steps to the leader in force. *)
Inductive walk (u : uf) : nat -> nat -> nat -> Prop :=
| walk_here x : walk u x x 0
| walk_up x y z n : In (x, y) (uf_leader u) -> x <> y -> walk u y z n -> walk u x z (S n).
