(** * PropsUF: claim C50 *)
From Coq Require Import List ZArith Bool Arith Lia.
From Verif Require Import Base Dict UnionFind SpecUF UnionFindProofs.
Import ListNotations.
Open Scope Z_scope.

(** C50. After any calls with elements of the universe nothing raises (so
    every loop ends); two elements have the same leader exactly when the
    unions connect them; a call of [find] changes no later answer; [size] is
    the size of the class and [nClusters] the number of classes. *)
Theorem C50_union_find : forall s l, Forall (uwithin s) l -> exists u, run_uops l (uf_new s) = Ok u /\
  (forall a b, In a s -> In b s -> exists ra rb ua ub, uf_find a u = Ok (ra, ua) /\ uf_find b u = Ok (rb, ub) /\
     (ra = rb <-> conn (pairs l) a b)) /\
  (forall a c, In a s -> In c s -> exists ra ua rc uc uc',
     uf_find a u = Ok (ra, ua) /\ uf_find c u = Ok (rc, uc) /\ uf_find c ua = Ok (rc, uc')) /\
  (forall a, In a s -> exists z u' c, uf_size_of a u = Ok (z, u') /\ class_of s (pairs l) a c /\ z = Z.of_nat (length c)) /\
  (exists c, one_of_each s (pairs l) c /\ uf_clusters u = Z.of_nat (length c)).
Proof. exact uf_exact. Qed.
Print Assumptions C50_union_find.

(** Seven elements; the unions make the classes {0,1,2,3}, {4,5} and {6},
    the leader of 1 is found through two steps, and compression happens. *)
Definition uf_calls : list uop :=
  [UUnion 0 1; UUnion 2 3; UFind 1; UUnion 1 3; USize 4; UUnion 4 5; UUnion 0 2; UFind 3]%nat.
Example C50_ex : Forall (uwithin (seq 0 7)) uf_calls /\
  exists u, run_uops uf_calls (uf_new (seq 0 7)) = Ok u /\ uf_clusters u = 3 /\
    map fst (map (fun k => match uf_find k u with Ok p => p | Err _ => (99%nat, u) end) (seq 0 7)) = [0; 0; 0; 0; 4; 4; 6]%nat /\
    map fst (map (fun k => match uf_size_of k u with Ok p => p | Err _ => (99, u) end) (seq 0 7)) = [4; 4; 4; 4; 2; 2; 1].
Proof.
  split.
  - apply Forall_forall. intros o H. cbn in H. repeat destruct H as [<-|H]; try contradiction; cbn; repeat split; auto 12.
  - eexists. split; [vm_compute; reflexivity|]. vm_compute. auto.
Qed.

(** ** C70: find takes at most logarithmically many steps *)

(** The way from an element to its leader has at most log2 of the size of its
    class many steps (union by rank), and [find] makes all ways it has
    walked one step long (path compression). *)
Theorem C70_depth s l u a : Forall (uwithin s) l -> run_uops l (uf_new s) = Ok u -> In a s ->
  exists r n c u', walk u a r n /\ class_of s (pairs l) a c /\ (2 ^ n <= length c)%nat /\
    uf_find a u = Ok (r, u') /\ forall x k, walk u a x k -> In (x, r) (uf_leader u').
Proof. exact (uf_depth s l u a). Qed.
Print Assumptions C70_depth.

(** In a class of eight the bound is reached: three steps from 7 to 0. *)
Definition deep_calls : list uop := [UUnion 0 1; UUnion 2 3; UUnion 4 5; UUnion 6 7; UUnion 0 2; UUnion 4 6; UUnion 0 4]%nat.
Example C70_ex : Forall (uwithin (seq 0 8)) deep_calls /\ exists u u', run_uops deep_calls (uf_new (seq 0 8)) = Ok u /\ walk u 7 0 3 /\
  uf_leader u = combine (seq 0 8) [0; 0; 0; 2; 0; 4; 4; 6]%nat /\
  uf_find 7 u = Ok (0%nat, u') /\ uf_leader u' = combine (seq 0 8) [0; 0; 0; 2; 0; 4; 0; 0]%nat.
Proof.
  split; [apply Forall_forall; intros o H; cbn in H; repeat destruct H as [<-|H]; try contradiction; cbn; repeat split; auto 12|].
  do 2 eexists. split; [vm_compute; reflexivity|]. split; [|split; [reflexivity|split; vm_compute; reflexivity]].
  apply walk_up with 6%nat; [cbn; auto 12|discriminate|]. apply walk_up with 4%nat; [cbn; auto 12|discriminate|]. apply walk_up with 0%nat; [cbn; auto 12|discriminate|]. constructor.
Qed.
