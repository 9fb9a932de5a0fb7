(** * PropsDrain: a network whose queues are off (C99) *)
From Coq Require Import List ZArith Lia Permutation Arith.
From Verif Require Import Base Heap PQueue Queue SpecQueue Network SpecNet NetReach NetTotal NetClaims1 NetExamples SpecDrain Drain.
Import ListNotations.
Open Scope Z_scope.

(** If every queue is off, nobody is turned away, and every way leads to an
    exit, then simulate(n = m) leaves nobody in the network as soon as [m] is
    three times the load and one for each entry of the scheduler. *)
Theorem C99_empties : forall n0 n1 r m n, well_made n0 -> nreach usual n0 n1 -> nt_init n1 = true -> closing n1 -> timed n1 -> downward r n1 ->
  nruns m n1 = Ok n -> 3 * loads r 0 (nt_queues n1) + Z.of_nat (pq_size (nt_heap n1)) <= Z.of_nat m ->
  everyone n = [] /\ forall k q, get (nt_queues n) k = Some q -> q_time q = Inf.
Proof. exact drained. Qed.
Print Assumptions C99_empties.

(** One event more, and the clock shows infinity: simulate(t = …) comes to
    an end. *)
Theorem C99_rests : forall n0 n1 r m n, well_made n0 -> nreach usual n0 n1 -> closing n1 -> timed n1 -> downward r n1 ->
  nruns m n1 = Ok n -> 3 * loads r 0 (nt_queues n1) + Z.of_nat (pq_size (nt_heap n1)) < Z.of_nat m -> nt_t n = Inf.
Proof. exact rests. Qed.
Print Assumptions C99_rests.

(** Without an exit and without arrivals nobody comes and nobody leaves, ever. *)
Theorem C99_sealed : forall n0 n1 m n, well_made n0 -> nreach usual n0 n1 -> sealed n1 -> nruns m n1 = Ok n -> Permutation (everyone n1) (everyone n).
Proof. intros n0 n1 m n W R SE H. destruct (ngood_reach _ _ W R) as [I _]. apply (sealed_runs m n1 n I SE H). Qed.
Print Assumptions C99_sealed.

(** [overtaking4] after six events: agents (0, 3), (0, 2) and (0, 0) are
    left; the load is 11 for the ranks 2, 1, 0 and the scheduler holds three
    entries.  The bound is 36; 13 events were enough. *)
Definition down (k : nat) : nat := 2 - k.
Definition ending4 : net := reached (KInit [0%nat] :: sims 6) overtaking4.
Lemma ending4_closes : closing ending4 /\ timed ending4 /\ downward down ending4.
Proof.
  assert (O : nt_out ending4 = [[0]; [1]; [2]; []]%nat) by (vm_compute; reflexivity).
  assert (Q : exists a b c, nt_queues ending4 = [a; b; c] /\ map (fun q => c_tgt (q_cfg q)) [a; b; c] = [1; 2; 3]%nat /\
    (q_active a = false /\ (c_class (q_cfg a) = CServer /\ eLe (Fin 1) (q_servers a)) /\ (forall i z, c_arr (q_cfg a) i (Fin z) <> Inf) /\ forall i z, c_srv (q_cfg a) i (Fin z) <> Inf) /\
    (q_active b = false /\ (c_class (q_cfg b) = CServer /\ eLe (Fin 1) (q_servers b)) /\ (forall i z, c_arr (q_cfg b) i (Fin z) <> Inf) /\ forall i z, c_srv (q_cfg b) i (Fin z) <> Inf) /\
    (q_active c = false /\ c_class (q_cfg c) = CNull /\ (forall i z, c_arr (q_cfg c) i (Fin z) <> Inf) /\ forall i z, c_srv (q_cfg c) i (Fin z) <> Inf) /\
    map (fun q => map ag_time (scheduled q ++ in_service q)) [a; b; c] = [[Fin 12; Fin 6]; [Fin 10]; []]).
  { do 3 eexists. split; [vm_compute; reflexivity|].
    repeat match goal with |- _ /\ _ => split end; try (vm_compute; reflexivity); try (vm_compute; discriminate); intros; vm_compute; discriminate. }
  destruct Q as (a & b & c & Q & TG & (A1 & A2 & A3) & (B1 & B2 & B3) & (C1 & C2 & C3) & TM). cbn [map] in TG, TM. injection TG as TG1 TG2 TG3. injection TM as TM1 TM2 TM3.
  split; [|split].
  - intros k q G. rewrite Q in G. destruct k as [|[|[|k]]]; [injection G as <-|injection G as <-|injection G as <-|destruct k; discriminate]; auto.
  - intros k q x G X. rewrite Q in G. apply (in_map ag_time) in X. destruct k as [|[|[|k]]]; [injection G as <-; rewrite TM1 in X|injection G as <-; rewrite TM2 in X|injection G as <-; rewrite TM3 in X|destruct k; discriminate];
      cbn [In] in X; intuition congruence.
  - intros k e q G N (q0 & l & G0 & L & IN). rewrite Q in G, G0. rewrite O in L.
    destruct k as [|[|[|k]]]; [injection G as <-; injection G0 as <-; rewrite TG1 in L|injection G as <-; injection G0 as <-; rewrite TG2 in L|injection G as <-; congruence|destruct k; discriminate];
      injection L as <-; destruct IN as [<-|[]]; cbn; lia.
Qed.
Example C99_example :
  (well_made overtaking4 /\ nreach usual overtaking4 ending4 /\ nt_init ending4 = true /\ closing ending4 /\ timed ending4 /\ downward down ending4) /\
  (everyone ending4, loads down 0 (nt_queues ending4), pq_size (nt_heap ending4)) = ([(0%nat, 3); (0%nat, 2); (0%nat, 0)], 11, 3%nat) /\
  (exists n, nruns 36 ending4 = Ok n /\ everyone n = []) /\
  (exists n, nruns 6 ending4 = Ok n /\ everyone n = []) /\ exists n, nruns 5 ending4 = Ok n /\ everyone n = [(0%nat, 2)].
Proof.
  split; [split; [exact overtaking4_made|]; split; [apply reached_usual; vm_compute; reflexivity|]; split; [vm_compute; reflexivity|exact ending4_closes]|].
  split; [vm_compute; reflexivity|]. repeat split; eexists; (split; [vm_compute; reflexivity|reflexivity]).
Qed.

(** Two QueueServers in a circle; two agents go round for ever, although
    both queues are off. *)
Definition carousel : net :=
  build [ (net_cfg CServer 0 1 0 1 (steps [] 1) (steps [] 1) KAgent (Fin 2), Fin 1);
          (net_cfg CServer 1 0 1 1 (steps [] 1) (steps [] 2) KAgent Inf, Fin 1) ]
        [[0]; [1]]%nat Inf true half.
Lemma carousel_made : well_made carousel.
Proof. apply build_made. made. Qed.
Example C99_sealed_example : exists n1, reached (KInit [0%nat] :: sims 4) carousel = n1 /\ nreach usual carousel n1 /\ sealed n1 /\
  everyone n1 = [(0%nat, 0); (0%nat, 1)] /\ exists n, nruns 50 n1 = Ok n /\ Permutation (everyone n1) (everyone n) /\ nt_events n = nt_events n1 + 50.
Proof.
  eexists. split; [reflexivity|]. split; [apply reached_usual; vm_compute; reflexivity|]. split.
  { assert (Q : exists a b, nt_queues (reached (KInit [0%nat] :: sims 4) carousel) = [a; b] /\ (q_active a = false /\ c_class (q_cfg a) = CServer) /\ (q_active b = false /\ c_class (q_cfg b) = CServer)).
    { do 2 eexists. split; [vm_compute; reflexivity|]. split; split; reflexivity. }
    destruct Q as (a & b & Q & A & B). intros k q G. rewrite Q in G. destruct k as [|[|k]]; [injection G as <-; exact A|injection G as <-; exact B|destruct k; discriminate]. }
  split; [vm_compute; reflexivity|]. eexists. split; [vm_compute; reflexivity|]. split; [|vm_compute; reflexivity]. vm_compute. apply Permutation_refl || apply perm_swap.
Qed.
