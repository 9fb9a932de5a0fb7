(** * PropsPortions: claim C92: simulating in portions *)
From Coq Require Import List ZArith Bool Arith Lia.
From Verif Require Import Base Heap PQueue Queue SpecQueue Network SpecNet NetExamples Portions PropsQueue1 PropsNet1.
Import ListNotations.
Open Scope Z_scope.

(** Calls of [simulate(n=...)] one after the other. *)
Fixpoint queue_portions (l : list nat) (q : queue) : res queue :=
  match l with [] => Ok q | m :: l => let* q' := simulate_n m q in queue_portions l q' end.
Fixpoint net_portions (l : list nat) (n : net) : res net :=
  match l with [] => Ok n | m :: l => let* n' := simulate_events m n in net_portions l n' end.

(** ** Numbers of events *)

Theorem C92_queue_events l q : queue_portions l q = simulate_n (list_sum l) q.
Proof.
  revert q. induction l as [|m l IH]; intro q; [reflexivity|]. cbn [queue_portions]. change (list_sum (m :: l)) with (m + list_sum l)%nat. rewrite qportions_n.
  destruct (simulate_n m q); cbn [bind]; [apply IH|reflexivity].
Qed.
Print Assumptions C92_queue_events.

Theorem C92_network_events l n : l <> [] -> net_portions l n = simulate_events (list_sum l) n.
Proof.
  revert n. induction l as [|m l IH]; intros n H; [congruence|]. cbn [net_portions]. change (list_sum (m :: l)) with (m + list_sum l)%nat. rewrite nportions_n.
  destruct (simulate_events m n) as [n'|] eqn:E; cbn [bind]; [|reflexivity]. destruct l as [|m' l]; [|apply IH; discriminate]. cbn.
  unfold simulate_events in *. destruct (nt_init n) eqn:I; [|discriminate]. assert (X : nt_init n' = true).
  { clear IH H. revert n I E. induction m as [|m IH]; intros n I E; cbn in E; [congruence|]. destruct (simulate_event n) as [x|] eqn:S; [|discriminate].
    apply (IH x); [rewrite (event_init _ _ S); exact I|exact E]. }
  rewrite X. reflexivity.
Qed.
Print Assumptions C92_network_events.

(** ** Numbers of departures and arrivals *)

Theorem C92_departures : forall c s col n q f1 f2 a b q1 q2, reach anything (new_queue c s col n) q -> 0 <= a -> 0 <= b ->
  simulate_nD f1 a q = Some (Ok q1) -> simulate_nD f2 b q1 = Some (Ok q2) -> simulate_nD (f1 + f2) (a + b) q = Some (Ok q2).
Proof. exact qportions_nD. Qed.
Print Assumptions C92_departures.

Theorem C92_arrivals : forall c s col n q f1 f2 a b q1 q2, reach anything (new_queue c s col n) q -> 0 <= a -> 0 <= b ->
  simulate_nA f1 a q = Some (Ok q1) -> simulate_nA f2 b q1 = Some (Ok q2) -> simulate_nA (f1 + f2) (a + b) q = Some (Ok q2).
Proof. exact qportions_nA. Qed.
Print Assumptions C92_arrivals.

(** ** Times *)

(** simulate(t=a) and then simulate(t=b) performs the events of
    simulate(t=a+b), possibly followed by others; there are none if the first
    call stopped at its time exactly, or at the end. *)
Theorem C92_queue_time : forall q f1 f2 a b q1 q2, eLe (Fin 0) b ->
  simulate_t f1 a q = Some (Ok q1) -> simulate_t f2 b q1 = Some (Ok q2) ->
  exists q' k, simulate_t (f1 + f2) (eadd a b) q = Some (Ok q') /\ simulate_n k q' = Ok q2 /\
    (q_now q1 = eadd (q_now q) a \/ q_time q1 = Inf -> q' = q2).
Proof. exact qportions_t. Qed.
Print Assumptions C92_queue_time.

Theorem C92_network_time : forall n f1 f2 a b n1 n2, eLe (Fin 0) b ->
  simulate_time f1 a n = Some (Ok n1) -> simulate_time f2 b n1 = Some (Ok n2) ->
  exists n' k, simulate_time (f1 + f2) (eadd a b) n = Some (Ok n') /\ simulate_events k n' = Ok n2 /\
    (nt_t n1 = eadd (nt_t n) a \/ nt_t n1 = Inf -> n' = n2).
Proof. exact nportions_t. Qed.
Print Assumptions C92_network_time.

(** Two calls whose ends are the same time of the clock as that of one longer
    call give the same state; and every longer call can be cut at any time. *)
Theorem C92_queue_clock : forall q f1 f2 a b c q1 q2, eadd (q_now q1) b = eadd (q_now q) c -> eLe (eadd (q_now q) a) (eadd (q_now q) c) ->
  simulate_t f1 a q = Some (Ok q1) -> simulate_t f2 b q1 = Some (Ok q2) -> simulate_t (f1 + f2) c q = Some (Ok q2).
Proof. exact qportions_clock. Qed.
Print Assumptions C92_queue_clock.

Theorem C92_network_clock : forall n f1 f2 a b c n1 n2, eadd (nt_t n1) b = eadd (nt_t n) c -> eLe (eadd (nt_t n) a) (eadd (nt_t n) c) ->
  simulate_time f1 a n = Some (Ok n1) -> simulate_time f2 b n1 = Some (Ok n2) -> simulate_time (f1 + f2) c n = Some (Ok n2).
Proof. exact nportions_clock. Qed.
Print Assumptions C92_network_clock.

Theorem C92_queue_cut : forall q f a c q2, eLe (eadd (q_now q) a) (eadd (q_now q) c) -> simulate_t f c q = Some (Ok q2) ->
  exists q1, simulate_t f a q = Some (Ok q1) /\ forall b, eadd (q_now q1) b = eadd (q_now q) c -> simulate_t f b q1 = Some (Ok q2).
Proof. exact qcut. Qed.
Print Assumptions C92_queue_cut.

Theorem C92_network_cut : forall n f a c n2, eLe (eadd (nt_t n) a) (eadd (nt_t n) c) -> simulate_time f c n = Some (Ok n2) ->
  exists n1, simulate_time f a n = Some (Ok n1) /\ forall b, eadd (nt_t n1) b = eadd (nt_t n) c -> simulate_time f b n1 = Some (Ok n2).
Proof. exact ncut. Qed.
Print Assumptions C92_network_cut.

(** ** Counterexamples and examples *)

(** Every call may go on past its time, and the next one starts there: two
    calls are not one call. *)
Definition slow_cfg : qcfg := mkCfg CServer 0%nat 1%nat 0%nat 1 (fun n t => eadd t (Fin 3)) (fun n t => eadd t (Fin 1)) KAgent Inf Inf Inf (Fin 1).
Definition slow_queue : queue := match set_active (new_queue slow_cfg (Fin 1) true 1) with Ok q => q | Err _ => new_queue slow_cfg (Fin 1) true 1 end.
Theorem C92_queue_time_refuted : exists q f q1 q2 q', reach anything (new_queue slow_cfg (Fin 1) true 1) q /\
  simulate_t f (Fin 1) q = Some (Ok q1) /\ simulate_t f (Fin 1) q1 = Some (Ok q2) /\ simulate_t f (Fin 2) q = Some (Ok q') /\
  q_now q' = Fin 3 /\ q_now q2 = Fin 4 /\ q_departed q' = 0 /\ q_departed q2 = 1.
Proof.
  exists slow_queue, 9%nat. do 3 eexists. split.
  - eapply reach_step with (o := OActive); [apply reach_here|exact Logic.I|vm_compute; reflexivity].
  - split; [vm_compute; reflexivity|]. split; [vm_compute; reflexivity|]. split; [vm_compute; reflexivity|]. vm_compute. auto.
Qed.
Print Assumptions C92_queue_time_refuted.

Definition slow_net : net := reached [KInit [0%nat]]
  (build [ (net_cfg CServer 0 1 0 1 (steps [] 3) (steps [] 1) KAgent Inf, Fin 1); (net_cfg CNull 1 2 1 0 (steps [] 1) (steps [] 1) KAgent Inf, Fin 1) ]
         [[0]; [1]; []]%nat Inf true half).
Theorem C92_network_time_refuted : exists n f n1 n2 n', nt_init n = true /\
  simulate_time f (Fin 1) n = Some (Ok n1) /\ simulate_time f (Fin 1) n1 = Some (Ok n2) /\ simulate_time f (Fin 2) n = Some (Ok n') /\
  nt_t n' = Fin 3 /\ nt_t n2 = Fin 4 /\ nt_events n' = 1 /\ nt_events n2 = 2.
Proof.
  exists slow_net, 9%nat. do 3 eexists. split; [vm_compute; reflexivity|]. split; [vm_compute; reflexivity|]. split; [vm_compute; reflexivity|]. split; [vm_compute; reflexivity|]. vm_compute. auto.
Qed.
Print Assumptions C92_network_time_refuted.

(** A queue where both portions exist, for every kind of bound; with times the
    state is reached on the dot. *)
Example C92_queue_example : exists q q1 q2 q3 q4 q5 q6,
  reach anything (ex_queue CLoss) q /\
  simulate_nD 100 2 q = Some (Ok q1) /\ simulate_nD 100 3 q1 = Some (Ok q2) /\ q_departed q2 = q_departed q + 5 /\
  simulate_nA 100 2 q = Some (Ok q3) /\ simulate_nA 100 3 q3 = Some (Ok q4) /\ q_oarr q4 = q_oarr q + 5 /\
  simulate_t 100 (Fin 4) q = Some (Ok q5) /\ q_now q5 = eadd (q_now q) (Fin 4) /\ simulate_t 100 (Fin 6) q5 = Some (Ok q6) /\ q_now q6 = eadd (q_now q) (Fin 10).
Proof.
  destruct (set_active (ex_queue CLoss)) as [q|] eqn:E; [|vm_compute in E; discriminate]. exists q. do 6 eexists.
  split; [eapply reach_step with (o := OActive); [apply reach_here|exact Logic.I|exact E]|]. vm_compute in E. injection E as <-.
  split; [vm_compute; reflexivity|]. split; [vm_compute; reflexivity|]. split; [vm_compute; reflexivity|].
  split; [vm_compute; reflexivity|]. split; [vm_compute; reflexivity|]. split; [vm_compute; reflexivity|].
  split; [vm_compute; reflexivity|]. split; [vm_compute; reflexivity|]. split; vm_compute; reflexivity.
Qed.

(** A network: three events and four are seven; the time 6 is cut at 3. *)
Example C92_network_example : exists n1 n2 n3, simulate_events 3 (ex_at 2) = Ok n1 /\ simulate_events 4 n1 = Ok n2 /\ net_portions [3; 4]%nat (ex_at 2) = Ok n2 /\
  nt_events n2 = nt_events (ex_at 2) + 7 /\
  simulate_time 30 (Fin 6) (ex_at 2) = Some (Ok n3) /\ nt_t (ex_at 2) = Fin 2 /\ nt_t n3 = Fin 8.
Proof.
  do 3 eexists. split; [vm_compute; reflexivity|]. split; [vm_compute; reflexivity|]. split; [vm_compute; reflexivity|].
  split; [vm_compute; reflexivity|]. split; [vm_compute; reflexivity|]. split; vm_compute; reflexivity.
Qed.
