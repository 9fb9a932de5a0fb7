(** * SpecPQ: what a scheduler with lazily superseded entries should do.
    Independent of heaps and arrays: the state is a bag of entries and the
    time most recently assigned to each edge. *)
From Coq Require Import List ZArith Bool Permutation Arith.
From Verif Require Import Base PQueue.
Import ListNotations.

Definition bag := list (ext * nat).

(** Time most recently assigned to edge [k] by a list of keys. *)
Definition assigned (keys : list (ext * nat)) (k : nat) : ext :=
  fold_left (fun c e => if snd e =? k then fst e else c) keys Inf.

Definition live (cur : nat -> ext) (e : ext * nat) : Prop := cur (snd e) = fst e.

(** [b] becomes [b'] when popping returns [r]. *)
Inductive spec_pop (cur : nat -> ext) (b : bag) : option (ext * nat) -> bag -> Prop :=
| SPop_some e dropped b' :
    Permutation b (e :: dropped ++ b') ->
    live cur e ->
    (forall x, In x b -> live cur x -> eLe (fst e) (fst x)) ->
    (forall x, In x dropped -> ~ live cur x) ->
    spec_pop cur b (Some e) b'
| SPop_none :
    (forall x, In x b -> ~ live cur x) ->
    spec_pop cur b None [].

Inductive spec_run : bag -> (nat -> ext) -> list pqop ->
                     list (option (ext * nat)) -> bag -> (nat -> ext) -> Prop :=
| SRun_nil b c : spec_run b c [] [] b c
| SRun_push b b1 c t k ops rs b' c' :
    Permutation b1 ((t, k) :: b) ->
    spec_run b1 (fun j => if j =? k then t else c j) ops rs b' c' ->
    spec_run b c (Push t k :: ops) rs b' c'
| SRun_pop b c r b1 ops rs b' c' :
    spec_pop c b r b1 ->
    spec_run b1 c ops rs b' c' ->
    spec_run b c (Pop :: ops) (r :: rs) b' c'.

Definition push_ok (n : nat) (o : pqop) : Prop :=
  match o with Push _ k => k < n | Pop => True end.
