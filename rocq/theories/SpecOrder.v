(** * SpecOrder: graphs in order *)
From Coq Require Import List ZArith Arith Sorted.
From Verif Require Import Base Dict Graph SpecGraph GraphNet.
Import ListNotations.

(** Vertices 0, 1, 2, ... in this order, each with its neighbours in
    increasing order. *)
Definition increasing (n : nat) (l : list nat) : Prop := StronglySorted lt l /\ Forall (fun v => (v < n)%nat) l.
Definition tidy (g : graph) : Prop :=
  map fst g = seq 0 (length g) /\ forall u r, In (u, r) g -> increasing (length g) (map fst r).

(** Descriptions of such graphs: every matrix, and dictionaries that are
    written down in order. *)
Definition tidy_in (a : adj_in) : Prop :=
  match a with
  | AMatrix m => forall r, In r m -> (length m <= length r)%nat
  | ADicts d => d <> [] /\ tidy d
  | ALists d => d <> [] /\ map fst d = seq 0 (length d) /\ forall u l, In (u, l) d -> increasing (length d) l
  | AOther => False
  end.
Definition size (a : adj_in) : nat :=
  match a with AMatrix m => length m | ADicts d => length d | ALists d => length d | AOther => 0 end.

(** What a network can be made from. *)
Definition tidy_graph (gi : graph_in) : Prop :=
  match gi with
  | GIndexed d => exists g, d = dg_new g /\ tidy g
  | GGraph g => tidy g
  | GDict a => tidy_in a
  end.
