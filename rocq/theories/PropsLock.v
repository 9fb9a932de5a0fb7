(** * PropsLock: blocking and the progress of a network (C85) *)
From Coq Require Import List ZArith QArith Bool Permutation Arith Lia.
From Verif Require Import Base Queue SpecQueue Network SpecNet NetReach NetInv NetClaims1 NetTotal SpecRefine SpecStop SpecLock LockProofs LockFree NetExamples PropsNet2 PropsNet3.
Import ListNotations.
Open Scope Z_scope.

(** ** Networks for the examples *)

(** A queue with one server on (0, 1); from 1 an agent goes on through a
    LossQueue back to 0, or leaves. *)
Definition round_trip : net :=
  build [ (net_cfg CServer 0 1 0 1 (steps [] 1) (steps [] 1) KAgent Inf, Fin 1);
          (net_cfg CLoss 1 0 1 2 (steps [] 1) (steps [] 5) KAgent Inf, Fin 1);
          (net_cfg CNull 1 2 2 0 (steps [] 1) (steps [] 1) KAgent Inf, Fin 1) ]
        [[0]; [1; 2]; []]%nat Inf true (fun _ => 1 # 4).
(** Two LossQueues with one place each, one after the other in a circle. *)
Definition circle (bas : bool) : net :=
  build [ (net_cfg CLoss 0 1 0 1 (steps [] 1) (steps [] 3) KAgent Inf, Fin 1);
          (net_cfg CLoss 1 0 1 1 (steps [] 1) (steps [] 3) KAgent Inf, Fin 1) ]
        [[0]; [1]]%nat Inf bas half.

Ltac each k G := unfold get in G; cbn in G; repeat (destruct k as [|k]; [injection G as <-|]); try (destruct k; discriminate G).

Lemma steps_later l last : forallb (Z.ltb 0) (last :: l) = true -> forall n t, eLt (Fin t) (steps l last n (Fin t)).
Proof.
  intros F n t. unfold steps. cbn [eadd]. rewrite forallb_forall in F. enough (0 < nth n l last) by (cbn; lia). apply Z.ltb_lt, F.
  destruct (Nat.lt_ge_cases n (length l)) as [L|L]; [right; apply nth_In; exact L|left; symmetry; apply nth_overflow; exact L].
Qed.
Lemma steps_finite l last n t : t <> Inf -> steps l last n t <> Inf.
Proof. destruct t; [discriminate|congruence]. Qed.

Lemma round_trip_good : well_made round_trip /\ lively round_trip /\ made_for round_trip /\ connected round_trip /\ mild_loops round_trip /\
  staffed round_trip /\ no_ring round_trip.
Proof.
  split; [apply build_made; made|]. split.
  { split; [|intro; reflexivity]. intros k q G. each k G; intros i t; split; apply steps_later; reflexivity. }
  split. { intros k q G. each k G; do 3 eexists; (split; [reflexivity|]); (split; [|intros X; vm_compute in X; discriminate X]); (split; [cbn; lia|split; [intros X; vm_compute in X; discriminate X|intros _; discriminate]]). }
  split. { intros k q G N. each k G; try (exfalso; apply N; reflexivity); eexists; (split; [reflexivity|]); (split; [discriminate|]); intros e E; cbn in E |- *; intuition lia. }
  split. { intros k q l G N O E. each k G; try (exfalso; apply N; reflexivity); injection O as <-; exfalso; cbn in E; intuition congruence. }
  split. { intros k q G. each k G; (split; [discriminate|]); (split; [|intros; apply steps_finite; assumption]); intros [L|L]; try discriminate; split; cbn; lia. }
  exists (fun k => match k with O => 1%nat | _ => 0%nat end). intros k e q (q0 & l & G0 & O & E) G L NE.
  each e G; destruct L as [L|L]; try discriminate. each k G0; injection O as <-; cbn in E; intuition (try lia; try congruence).
Qed.

Lemma circle_good bas : well_made (circle bas) /\ lively (circle bas) /\ made_for (circle bas) /\ connected (circle bas) /\ mild_loops (circle bas) /\
  staffed (circle bas).
Proof.
  split; [apply build_made; made|]. split.
  { split; [|intro; reflexivity]. intros k q G. each k G; intros i t; split; apply steps_later; reflexivity. }
  split. { intros k q G. each k G; do 3 eexists; (split; [reflexivity|]); (split; [|intros X; vm_compute in X; discriminate X]); (split; [cbn; lia|split; [intros X; vm_compute in X; discriminate X|intros _; discriminate]]). }
  split. { intros k q G N. each k G; try (exfalso; apply N; reflexivity); eexists; (split; [reflexivity|]); (split; [discriminate|]); intros e E; cbn in E |- *; intuition lia. }
  split. { intros k q l G N O E. each k G; try (exfalso; apply N; reflexivity); injection O as <-; exfalso; cbn in E; intuition congruence. }
  intros k q G. each k G; (split; [discriminate|]); (split; [|intros; apply steps_finite; assumption]); intros [L|L]; try discriminate; split; cbn; lia.
Qed.

(** Initialize, copies and events only. *)
Lemma plain_tidy l n0 : usual_calls l n0 = true -> forallb plain_call l = true -> nreach tidy n0 (reached l n0).
Proof.
  intros U P. destruct (usual_calls_Ok _ _ U) as (n & E). unfold reached. rewrite E. clear - U P E.
  assert (R : nreach tidy n0 n0) by apply nreach_here. revert R U P E. generalize n0 at 2 3 4.
  induction l as [|c l IH]; intros n1 R U P E; cbn [usual_calls calls forallb] in *; [injection E as <-; exact R|].
  apply andb_true_iff in U as [U1 U2]. apply andb_true_iff in P as [P1 P2]. destruct (run_call c n1) as [n2|] eqn:C; [|discriminate].
  apply (IH n2); [|assumption..]. apply (nreach_step _ _ n1 c); [exact R| |exact C]. split.
  - destruct c as [sel| | |[]]; cbn [usual usualb] in *; try exact Logic.I; [destruct (nt_init n1); [discriminate|reflexivity]|exact U1].
  - intros p ->. discriminate.
Qed.

(** ** C85: while somebody is served, somebody will leave *)

(** In full: for all networks in which arrivals and services take time and
    services end, in every reached state with somebody in service there is a
    number of events after which more agents have left their queue.  This is
    false (C85_refuted).  It is true if no way leads from a limited queue
    through limited queues back to it. *)
Theorem C85_progress_partial : forall n0 n, well_made n0 -> lively n0 -> made_for n0 -> connected n0 -> mild_loops n0 -> staffed n0 -> no_ring n0 ->
  nreach tidy n0 n -> nt_init n = true -> busy n -> exists m n', nruns m n = Ok n' /\ departures n < departures n'.
Proof. exact somebody_leaves. Qed.
Print Assumptions C85_progress_partial.

(** Any number of agents leave, unless at some time nobody is served. *)
Theorem C85_many_partial : forall n0 n, well_made n0 -> lively n0 -> made_for n0 -> connected n0 -> mild_loops n0 -> staffed n0 -> no_ring n0 ->
  nreach tidy n0 n -> nt_init n = true -> forall N : nat, exists m n', nruns m n = Ok n' /\ (departures n + Z.of_nat N <= departures n' \/ ~ busy n').
Proof. exact many_leave. Qed.
Print Assumptions C85_many_partial.

(** Events 5 and 14 block the server of queue 0 at the LossQueue; the
    departure at event 9 is the next one after event 5. *)
Example C85_example : let n := reached (KInit [0%nat] :: sims 5) round_trip in
  (well_made round_trip /\ lively round_trip /\ made_for round_trip /\ connected round_trip /\ mild_loops round_trip /\ staffed round_trip /\ no_ring round_trip) /\
  nreach tidy round_trip n /\ nt_init n = true /\ busy n /\ (map q_blocked (nt_queues n), departures n) = ([0; 1; 0], 1) /\
  (exists n', nruns 3 n = Ok n' /\ departures n' = 1) /\ exists n', nruns 4 n = Ok n' /\ departures n' = 2.
Proof.
  cbv zeta. split; [exact round_trip_good|]. split; [apply plain_tidy; vm_compute; reflexivity|]. split; [vm_compute; reflexivity|].
  split; [exists 0%nat; eexists; split; [vm_compute; reflexivity|vm_compute; discriminate]|].
  split; [vm_compute; reflexivity|]. split; eexists; split; vm_compute; reflexivity.
Qed.

(** Full queues that only lead to each other stay as they are: until clear
    is called nobody leaves them and nobody comes in, whatever happens in the
    rest of the network. *)
Theorem C85_locked : forall n0 n n' D, well_made n0 -> nreach usual n0 n -> locked n D -> nreach unbroken n n' ->
  locked n' D /\ forall k q, D k -> get (nt_queues n) k = Some q -> exists q', get (nt_queues n') k = Some q' /\ frozen q q'.
Proof. exact locked_forever. Qed.
Print Assumptions C85_locked.

(** The circle after the first arrivals. *)
Definition jam (bas : bool) : net := reached (KInit [0; 1]%nat :: sims 2) (circle bas).
Lemma jam_locked bas : nreach tidy (circle bas) (jam bas) /\ locked (jam bas) (fun k => (k < 2)%nat).
Proof.
  split; [unfold jam; apply plain_tidy; destruct bas; vm_compute; reflexivity|]. intros k K.
  destruct k as [|[|k]]; [| |lia]; destruct bas; eexists; eexists; (split; [vm_compute; reflexivity|]);
    (split; [left; reflexivity|]); (split; [vm_compute; discriminate|]); (split; [reflexivity|]); intros e [<-|[]]; lia.
Qed.
Example C85_locked_example : nreach usual (circle true) (jam true) /\ locked (jam true) (fun k => (k < 2)%nat) /\
  exists n', nruns 9 (jam true) = Ok n' /\ map q_blocked (nt_queues n') = [4; 5] /\ map q_nsys (nt_queues n') = [1; 1].
Proof.
  split; [apply tidy_usual, jam_locked|]. split; [apply jam_locked|]. eexists. split; [vm_compute; reflexivity|]. split; reflexivity.
Qed.

Lemma runs_unbroken m : forall n n', ninv n -> nt_init n = true -> nruns m n = Ok n' -> nreach unbroken n n'.
Proof.
  intros n n' I IN H. assert (R : nreach unbroken n n) by constructor. revert R I IN H. generalize n at 2 3 4 5.
  induction m as [|m IH]; intros n1 R I IN H; cbn [nruns] in H; [injection H as <-; exact R|].
  destruct (simulate_event n1) as [n2|] eqn:E; [|discriminate]. apply (IH n2); [|eapply runs_good with (m := 1%nat); [exact I|cbn; rewrite E; reflexivity]| |exact H].
  - apply nreach_step with n1 (KOp NSim); [exact R|split; [exact IN|discriminate]|exact E].
  - rewrite (sim_init _ _ I E). exact IN.
Qed.

(** With either blocking rule: in the circle two agents are in service, and
    after any number of events - simulate goes on without end - nobody has
    left. *)
Theorem C85_refuted : forall bas, exists n0 n, well_made n0 /\ lively n0 /\ made_for n0 /\ connected n0 /\ mild_loops n0 /\ staffed n0 /\
  nt_bas n0 = bas /\ nreach tidy n0 n /\ nt_init n = true /\ busy n /\
  forall m, exists n', nruns m n = Ok n' /\ departures n' = departures n.
Proof.
  intro bas. exists (circle bas), (jam bas). destruct (circle_good bas) as (W & LV & MF & CN & ML & ST). destruct (jam_locked bas) as [R L].
  assert (IN : nt_init (jam bas) = true) by (destruct bas; vm_compute; reflexivity).
  do 6 (split; [assumption|]). split; [reflexivity|]. split; [exact R|]. split; [exact IN|].
  split; [exists 0%nat; eexists; split; [destruct bas; vm_compute; reflexivity|destruct bas; vm_compute; discriminate]|].
  intro m. destruct (simulate_total _ _ m W MF CN ML R) as (n' & H). exists n'. split; [exact H|].
  assert (U := tidy_usual _ _ R). destruct (ngood_reach _ _ W U) as [I _].
  destruct (locked_forever _ _ _ _ W U L (runs_unbroken _ _ _ I IN H)) as [_ F].
  assert (LN : length (nt_queues n') = 2%nat).
  { destruct (C66_keeps _ _ _ H) as (_ & _ & _ & _ & _ & _ & _ & X & _). rewrite X. destruct bas; vm_compute; reflexivity. }
  assert (L2 : length (nt_queues (jam bas)) = 2%nat) by (destruct bas; vm_compute; reflexivity).
  unfold departures. destruct (nt_queues (jam bas)) as [|a [|b [|c r]]] eqn:QS; try discriminate L2.
  destruct (F 0%nat a) as (a' & GA & _ & _ & DA); [lia|reflexivity|]. destruct (F 1%nat b) as (b' & GB & _ & _ & DB); [lia|reflexivity|].
  destruct (nt_queues n') as [|x [|y [|z r]]]; try discriminate LN. injection GA as <-. injection GB as <-.
  exact (f_equal2 Z.add DA (f_equal2 Z.add DB eq_refl)).
Qed.
Print Assumptions C85_refuted.
