(** * SpecCopy: two networks in the same state *)
From Coq Require Import List ZArith Bool.
From Verif Require Import Base Queue Network.
Import ListNotations.
Open Scope Z_scope.

(** Two networks with the same queues, graph, settings and coming random
    numbers.  They may differ in the clock, the number of events counted and
    in what the scheduler holds. *)
Definition alike (n m : net) : Prop :=
  nt_queues m = nt_queues n /\ nt_out m = nt_out n /\ nt_probs m = nt_probs n /\ nt_nagents m = nt_nagents n /\
  nt_max m = nt_max n /\ nt_init m = nt_init n /\ nt_bas m = nt_bas n /\
  nt_u m = nt_u n /\ nt_iu m = nt_iu n /\ nt_eps m = nt_eps n /\ nt_ie m = nt_ie n.

(** Queue [k] has an event, and no queue has an earlier one. *)
Definition due_first (n : net) (k : nat) : Prop :=
  exists q, get (nt_queues n) k = Some q /\ q_time q <> Inf /\
    forall j qj, get (nt_queues n) j = Some qj -> eLe (q_time q) (q_time qj).

(** The next event is the event of one queue only. *)
Definition untied (n : net) : Prop := forall i j, due_first n i -> due_first n j -> i = j.
