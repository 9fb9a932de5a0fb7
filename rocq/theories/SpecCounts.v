(** * SpecCounts: what the counters of a network count *)
From Coq Require Import List ZArith Arith.
From Verif Require Import Base Queue SpecQueue Network SpecNet SpecLittleNet.
Import ListNotations.
Open Scope Z_scope.

(** What one call does: an agent arrives at queue [k] from outside or by
    itself; agent [i] goes from [k] to [e]; agent [i] wants to go from [k] to
    [e] and may not; none of this. *)
Inductive label : Type :=
| Comes (k : nat) (i : aid)
| Goes (k e : nat) (i : aid)
| Halts (k e : nat) (i : aid)
| Rests.

(** Nothing changes at the other queues. *)
Definition only (ks : list nat) (n n' : net) : Prop := forall j, ~ In j ks -> get (nt_queues n') j = get (nt_queues n) j.

(** How a label shows in the states before and after the call.  Nothing is
    said here about counters. *)
Definition saw (n n' : net) (l : label) : Prop :=
  match l with
  | Comes k i => nt_events n' = nt_events n + 1 /\ exists q a, get (nt_queues n) k = Some q /\ q_time q = nt_t n' /\ arriving q = Some a /\ ag_id a = i /\ ag_time a = nt_t n' /\ only [k] n n'
  | Goes k e i => nt_events n' = nt_events n + 1 /\ exists q q' q2 a, get (nt_queues n) k = Some q /\ get (nt_queues n') k = Some q' /\ get (nt_queues n) e = Some q2 /\
      q_time q = nt_t n' /\ In a (in_service q) /\ ag_id a = i /\ ag_time a = nt_t n' /\ follows n k e /\ chooses n n' a (c_tgt (q_cfg q)) e /\
      (at_capacity q2 = false \/ e = k) /\ (e <> k -> ~ In i (held q')) /\ only [k; e] n n'
  | Halts k e i => nt_events n' = nt_events n + 1 /\ exists q q' q2 a a', get (nt_queues n) k = Some q /\ get (nt_queues n') k = Some q' /\ get (nt_queues n) e = Some q2 /\
      q_time q = nt_t n' /\ In a (in_service q) /\ ag_id a = i /\ ag_time a = nt_t n' /\ follows n k e /\ chooses n n' a (c_tgt (q_cfg q)) e /\
      at_capacity q2 = true /\ e <> k /\ In a' (in_service q') /\ ag_id a' = i /\ only [k; e] n n'
  | Rests => nt_queues n' = nt_queues n \/ nt_events n' = nt_events n
  end.

(** The labels of a history through the states [p], which ends in [n]. *)
Fixpoint story (p : list net) (n : net) (ls : list label) : Prop :=
  match p, ls with
  | [], [] => True
  | m :: p', l :: ls' => saw m (hd n p') l /\ story p' n ls'
  | _, _ => False
  end.

(** How many labels there are of some sort. *)
Definition many (f : label -> bool) (ls : list label) : Z := Z.of_nat (length (filter f ls)).
Definition out_of (k : nat) (l : label) : bool := match l with Goes k' _ _ => Nat.eqb k' k | _ => false end.
Definition into (k : nat) (l : label) : bool := match l with Goes _ e _ => Nat.eqb e k | _ => false end.
Definition kept_from (k : nat) (l : label) : bool := match l with Halts _ e _ => Nat.eqb e k | _ => false end.
Definition who_halts (i : aid) (l : label) : bool := match l with Halts _ _ i' => aid_eqb i' i | _ => false end.

(** All agents at a queue. *)
Definition agents_at (q : queue) : list agent := scheduled q ++ in_service q ++ waiting q.
