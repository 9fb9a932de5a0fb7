(** * UnionFind: union_find.py

    Simplification: the elements are natural numbers (in Python: any
    hashable objects). *)
From Coq Require Import List ZArith Bool Arith Lia.
From Verif Require Import Base Dict.
Import ListNotations.
Open Scope Z_scope.

Definition ndict (V : Type) : Type := list (nat * V).
Definition nget {V} (d : ndict V) (k : nat) : res V := of_option KeyError (mget Nat.eqb d k).
Definition nput {V} (d : ndict V) (k : nat) (v : V) : ndict V := mput Nat.eqb d k v.

Record uf : Type := mkUf {
  uf_leader : ndict nat;     (* self._leader *)
  uf_size : ndict Z;         (* self._size *)
  uf_rank : ndict Z;         (* self._rank *)
  uf_clusters : Z            (* self.nClusters *)
}.

(** [UnionFind(S)] (union_find.py:21-25). *)
Definition uf_new (l : list nat) : uf :=
  let leader := mof Nat.eqb (map (fun s => (s, s)) l) in
  mkUf leader (mof Nat.eqb (map (fun s => (s, 1)) l)) (mof Nat.eqb (map (fun s => (s, 0)) l)) (Z.of_nat (length leader)).

(** The loop of [find] (union_find.py:65-67).  [fuel] bounds the number of
    iterations; running out of fuel is [Err Corrupt] (in Python: a loop that
    goes on). *)
Fixpoint uf_climb (fuel : nat) (leader : ndict nat) (pset : list nat) (parent : nat) : res (list nat * nat) :=
  let* up := nget leader parent in
  if Nat.eqb parent up then Ok (pset, parent)
  else match fuel with
       | O => Err Corrupt
       | S f => uf_climb f leader (pset ++ [parent]) up
       end.

(** [find] (union_find.py:49-73). *)
Definition uf_find (s : nat) (u : uf) : res (nat * uf) :=
  let* p := nget (uf_leader u) s in
  let* (pset, parent) := uf_climb (length (uf_leader u)) (uf_leader u) [s] p in
  let leader := if (1 <? length pset)%nat then fold_left (fun d a => nput d a parent) pset (uf_leader u) else uf_leader u in
  Ok (parent, mkUf leader (uf_size u) (uf_rank u) (uf_clusters u)).

(** [size] (union_find.py:32-46). *)
Definition uf_size_of (s : nat) (u : uf) : res (Z * uf) :=
  let* (l, u1) := uf_find s u in
  let* z := nget (uf_size u1) l in
  Ok (z, u1).

(** [union] (union_find.py:76-95), once the leaders are known. *)
Definition uf_link (s1 s2 : nat) (u : uf) : res uf :=
  let* r1 := nget (uf_rank u) s1 in
  let* r2 := nget (uf_rank u) s2 in
  let '(ra, rb, sa, sb) := if r1 <? r2 then (r2, r1, s2, s1) else (r1, r2, s1, s2) in
  let rank := if ra =? rb then nput (uf_rank u) sa (ra + 1) else uf_rank u in
  let* za := nget (uf_size u) sa in
  let* zb := nget (uf_size u) sb in
  Ok (mkUf (nput (uf_leader u) sb sa) (nput (uf_size u) sa (za + zb)) rank (uf_clusters u - 1)).
Definition uf_union (a b : nat) (u : uf) : res uf :=
  let* (s1, u1) := uf_find a u in
  let* (s2, u2) := uf_find b u1 in
  if Nat.eqb s1 s2 then Ok u2 else uf_link s1 s2 u2.

(** Histories of calls. *)
Inductive uop : Type := UUnion (a b : nat) | UFind (a : nat) | USize (a : nat).
Definition run_uop (o : uop) (u : uf) : res uf :=
  match o with
  | UUnion a b => uf_union a b u
  | UFind a => let* (_, u') := uf_find a u in Ok u'
  | USize a => let* (_, u') := uf_size_of a u in Ok u'
  end.
Fixpoint run_uops (l : list uop) (u : uf) : res uf :=
  match l with
  | [] => Ok u
  | o :: r => let* u' := run_uop o u in run_uops r u'
  end.
