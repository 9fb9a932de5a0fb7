(** * SpecParts: a part of a network from which and into which nothing leads *)
From Coq Require Import List ZArith Bool.
From Verif Require Import Base Queue Network.
Import ListNotations.
Open Scope Z_scope.

(** The queues [A] are a part of the network: whoever leaves a queue of the
    part goes on to a queue of the part, whoever leaves another queue to
    another one.  The part has no use for what is shared: at its vertices
    nobody has a choice, the number of agents is not limited and the waiting
    time before the next try under BAS is always the same. *)
Record part (A : nat -> bool) (n : net) : Prop := mkPart {
  pa_closed : forall k q l e, get (nt_queues n) k = Some q -> get (nt_out n) (c_tgt (q_cfg q)) = Some l -> In e l -> A e = A k;
  pa_one : forall k q l, A k = true -> get (nt_queues n) k = Some q -> get (nt_out n) (c_tgt (q_cfg q)) = Some l -> (length l <= 1)%nat;
  pa_max : nt_max n = Inf;
  pa_eps : nt_bas n = true -> forall i, nt_eps n i = nt_eps n 0%nat
}.

(** The part is in the same state in both networks: same queues (functions,
    agents, data, everything), followed by the same queues. *)
Record same_part (A : nat -> bool) (n m : net) : Prop := mkSame {
  sp_bas : nt_bas m = nt_bas n;
  sp_eps : nt_bas n = true -> nt_eps m 0%nat = nt_eps n 0%nat;
  sp_queues : forall k, A k = true -> get (nt_queues m) k = get (nt_queues n) k;
  sp_out : forall k q, A k = true -> get (nt_queues n) k = Some q -> get (nt_out m) (c_tgt (q_cfg q)) = get (nt_out n) (c_tgt (q_cfg q))
}.

(** Queue [k] has the first event of the part. *)
Definition first_in (A : nat -> bool) (n : net) (k : nat) : Prop :=
  A k = true /\ exists q, get (nt_queues n) k = Some q /\ q_time q <> Inf /\
    forall j qj, A j = true -> get (nt_queues n) j = Some qj -> eLe (q_time q) (q_time qj).

(** No two queues of the part have the first event together. *)
Definition untied_in (A : nat -> bool) (n : net) : Prop := forall i j, first_in A n i -> first_in A n j -> i = j.

(** All events of the part up to [s] are over. *)
Definition done_until (A : nat -> bool) (s : ext) (n : net) : Prop :=
  eLe (nt_t n) s /\ forall k q, A k = true -> get (nt_queues n) k = Some q -> eLt s (q_time q).
