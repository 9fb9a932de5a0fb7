(** * PropsQueue2: claims C10-C16 and C57 about queues *)
From Coq Require Import List ZArith QArith Bool Permutation Arith Lia.
From Verif Require Import Base Queue SpecQueue QueueHist QueueClaims1 QueueClaims2 QueueTotal PropsQueue1.
Import ListNotations.
Open Scope Z_scope.

(** ** C10 *)

Theorem C10_active_cap : forall c s col n cap ops q,
  1 <= cap -> c_active_cap c = Fin cap -> run_ops ops (new_queue c s col n) = Ok q ->
  zlen (created q) = q_oarr q /\
  (activations ops = 0 -> q_oarr q = 0) /\
  (0 < activations ops -> q_oarr q <= cap + activations ops - 1).
Proof. exact capped. Qed.
Print Assumptions C10_active_cap.

Definition ex_capped (cl : qclass) (cap : Z) : qcfg :=
  mkCfg cl 0%nat 1%nat 7%nat 1
    (fun n t => eadd t (Fin 1)) (fun n t => eadd t (Fin 5)) KAgent (Fin cap) Inf (Fin 1) (Fin 4).
(** The bound is reached, with one and with two activations. *)
Example C10_example : exists q q2,
  run_ops (OActive :: nexts 20) (new_queue (ex_capped CServer 3) (Fin 2) false 0%nat) = Ok q /\ q_oarr q = 3 /\
  q_departed q = 3 /\
  run_ops (OActive :: nexts 20 ++ OActive :: nexts 20) (new_queue (ex_capped CServer 3) (Fin 2) false 0%nat) = Ok q2 /\
  q_oarr q2 = 4.
Proof.
  eexists; eexists; split; [vm_compute; reflexivity|]. split; [reflexivity|]. split; [reflexivity|].
  split; [vm_compute; reflexivity|]. reflexivity.
Qed.

(** Without the condition on the cap: a cap of zero lets one agent in. *)
Theorem C10_cap_zero_refuted : exists c s q,
  c_active_cap c = Fin 0 /\ run_ops [OActive] (new_queue c s false 0%nat) = Ok q /\ zlen (created q) = 1.
Proof.
  exists (ex_capped CServer 0), (Fin 2). eexists. split; [reflexivity|]. split; [vm_compute; reflexivity|]. reflexivity.
Qed.
Print Assumptions C10_cap_zero_refuted.

(** ** C11 *)

(** Whatever is scheduled after a call was scheduled before, or was handed
    over by the network, or comes before [deactive_t]; if the last value drawn
    from arrival_f reaches [deactive_t], the queue is inactive and no agent
    was created. *)
Theorem C11_deactive_t : forall c s col n q o q',
  reach anything (new_queue c s col n) q -> no_clear o -> run_op o q = Ok q' ->
  (forall a, In a (scheduled q') -> In a (scheduled q) \/ o = OArrive a \/ eLt (ag_time a) (c_deactive_t c)) /\
  (q_ia q' <> q_ia q -> eLe (c_deactive_t c) (q_next_ct q') -> q_active q' = false /\ q_oarr q' = q_oarr q).
Proof. exact deactivated. Qed.
Print Assumptions C11_deactive_t.

Theorem C11_all_before : forall c s col n q a,
  reach alone (new_queue c s col n) q -> In a (scheduled q) -> eLt (ag_time a) (c_deactive_t c).
Proof. exact all_before. Qed.
Print Assumptions C11_all_before.

Definition ex_deactive : qcfg :=
  mkCfg CLoss 0%nat 1%nat 7%nat 1
    (fun n t => eadd t (Fin 2)) (fun n t => eadd t (Fin 5)) KAgent Inf (Fin 9) (Fin 1) (Fin 4).
Example C11_example : exists q q2,
  run_ops (OActive :: nexts 2) (new_queue ex_deactive (Fin 2) false 0%nat) = Ok q /\
  map ag_time (scheduled q) = [Fin 6] /\
  run_ops (OActive :: nexts 6) (new_queue ex_deactive (Fin 2) false 0%nat) = Ok q2 /\
  q_active q2 = false /\ q_next_ct q2 = Fin 10 /\ q_oarr q2 = 4 /\ scheduled q2 = [].
Proof.
  eexists; eexists; split; [vm_compute; reflexivity|]. split; [reflexivity|].
  split; [vm_compute; reflexivity|]. vm_compute. auto 6.
Qed.

(** ** C12 *)

Theorem C12_idle : forall c s col n q k,
  reach anything (new_queue c s col n) q -> q_time q = Inf ->
  next_event q = Ok (None, q) /\ simulate_n k q = Ok q.
Proof. exact idle_simulate. Qed.
Print Assumptions C12_idle.

Example C12_example : exists q,
  run_ops (OActive :: nexts 12) (new_queue ex_deactive (Fin 2) false 0%nat) = Ok q /\
  q_time q = Inf /\ q_now q = Fin 14 /\ q_departed q = 4 /\ q_oarr q = 4.
Proof. eexists; split; [vm_compute; reflexivity|]. vm_compute. auto 6. Qed.

(** ** C13 *)

Theorem C13_simulate_n : forall c s col n q k q',
  c_class c <> CNull -> c_class c <> CResource ->
  reach anything (new_queue c s col n) q -> simulate_n k q = Ok q' ->
  (q_time q' <> Inf -> events q' = events q + Z.of_nat k) /\ events q <= events q' <= events q + Z.of_nat k.
Proof. exact simulate_n_exact. Qed.
Print Assumptions C13_simulate_n.

Theorem C13_simulate_nD : forall c s col n q fuel k q',
  reach anything (new_queue c s col n) q -> 0 <= k -> simulate_nD fuel k q = Some (Ok q') ->
  q_departed q' = q_departed q + k \/ (q_time q' = Inf /\ q_departed q' < q_departed q + k).
Proof. exact simulate_nD_exact. Qed.
Print Assumptions C13_simulate_nD.

Theorem C13_simulate_nA : forall c s col n q fuel k q',
  reach anything (new_queue c s col n) q -> 0 <= k -> simulate_nA fuel k q = Some (Ok q') ->
  q_oarr q' = q_oarr q + k \/ (q_time q' = Inf /\ q_oarr q' < q_oarr q + k).
Proof. exact simulate_nA_exact. Qed.
Print Assumptions C13_simulate_nA.

(** The last event performed is the first one that reaches the time. *)
Theorem C13_simulate_t : forall c s col n q fuel t q',
  reach anything (new_queue c s col n) q -> simulate_t fuel t q = Some (Ok q') ->
  (eLe (eadd (q_now q) t) (q_now q') \/ q_time q' = Inf) /\
  (q' = q \/ exists q1 r, eLt (q_now q1) (eadd (q_now q) t) /\ q_time q1 <> Inf /\ next_event q1 = Ok (r, q')).
Proof. exact simulate_t_exact. Qed.
Print Assumptions C13_simulate_t.

Example C13_example : exists q q1 q2 q3 q4,
  run_ops (OActive :: nexts 3) (ex_queue CLoss) = Ok q /\
  simulate_n 7%nat q = Ok q1 /\ events q1 = events q + 7 /\
  simulate_nD 100%nat 4 q = Some (Ok q2) /\ q_departed q2 = 4 /\
  simulate_nA 100%nat 4 q = Some (Ok q3) /\ q_oarr q3 = q_oarr q + 4 /\
  simulate_t 100%nat (Fin 10) q = Some (Ok q4) /\ q_now q = Fin 3 /\ q_now q4 = Fin 13.
Proof.
  do 5 eexists. split; [vm_compute; reflexivity|].
  split; [vm_compute; reflexivity|]. split; [reflexivity|].
  split; [vm_compute; reflexivity|]. split; [reflexivity|].
  split; [vm_compute; reflexivity|]. split; [reflexivity|].
  split; [vm_compute; reflexivity|]. split; reflexivity.
Qed.

(** ** C14 *)

(** All fields agree, apart from the numbers of calls of arrival_f and
    service_f made so far. *)
Theorem C14_clear : forall c s col n q,
  c_class c = CServer \/ c_class c = CLoss \/ c_class c = CInfo ->
  reach anything (new_queue c s col n) q ->
  clear q = set_q_is (q_is q) (set_q_ia (q_ia q) (new_queue c (q_servers q) (q_collect q) n)).
Proof. exact clear_like_new. Qed.
Print Assumptions C14_clear.

Example C14_example : exists q,
  run_ops (OActive :: nexts 9 ++ [OServers (PInt 5)]) (ex_queue CLoss) = Ok q /\
  q_blocked q = 3 /\ zlen (q_data q) = 7 /\ q_servers q = Fin 5 /\ q_ia q = 8%nat /\ q_now q = Fin 7.
Proof. eexists; split; [vm_compute; reflexivity|]. vm_compute. auto 6. Qed.

(** ** C15 *)

Theorem C15_delay_service : forall c s col n q t q',
  c_class c <> CNull -> reach anything (new_queue c s col n) q -> delay_service t q = Ok q' ->
  (in_service q = [] /\ q' = q) \/
  exists a rest, let t' := match t with Some t => t | None => c_srv c (q_is q) (ag_time a) end in
    Permutation (in_service q) (a :: rest) /\ (forall b, In b (in_service q) -> eLe (ag_time a) (ag_time b)) /\
    Permutation (in_service q') (set_ag_time t' a :: rest) /\
    scheduled q' = scheduled q /\ waiting q' = waiting q /\ q_nsys q' = q_nsys q /\ q_narr q' = q_narr q /\
    q_departed q' = q_departed q /\ q_blocked q' = q_blocked q /\ q_servers q' = q_servers q /\
    q_now q' = q_now q /\ q_data q' = q_data q /\ least_time (scheduled q' ++ in_service q') (q_time q').
Proof. exact delay_touches. Qed.
Print Assumptions C15_delay_service.

Example C15_example : exists q q' q'',
  run_ops (OActive :: nexts 3) (ex_queue CServer) = Ok q /\
  map (fun a => (ag_id a, ag_time a)) (in_service q) = [((7%nat, 0), Fin 6); ((7%nat, 1), Fin 7)] /\ q_time q = Fin 4 /\
  delay_service (Some (Fin 20)) q = Ok q' /\
  map (fun a => (ag_id a, ag_time a)) (in_service q') = [((7%nat, 1), Fin 7); ((7%nat, 0), Fin 20)] /\
  delay_service None q = Ok q'' /\
  map (fun a => (ag_id a, ag_time a)) (in_service q'') = [((7%nat, 1), Fin 7); ((7%nat, 0), Fin 11)].
Proof.
  do 3 eexists. split; [vm_compute; reflexivity|]. split; [reflexivity|]. split; [reflexivity|].
  split; [vm_compute; reflexivity|]. split; [reflexivity|]. split; [vm_compute; reflexivity|]. reflexivity.
Qed.

(** ** C16 *)

Theorem C16_rejected : forall q z,
  c_class (q_cfg q) <> CNull -> c_class (q_cfg q) <> CResource -> z <= 0 ->
  set_num_servers (PInt z) q = Err ValueError.
Proof. exact servers_rejected. Qed.
Print Assumptions C16_rejected.

Theorem C16_set : forall c s col n q m q',
  c_class c <> CNull -> c_class c <> CResource ->
  reach anything (new_queue c s col n) q -> set_num_servers m q = Ok q' ->
  exists k,
    (m = PInf /\ q_servers q' = Inf /\ q_servers q <> Inf /\ k = length (waiting q) \/
     exists z, m = PInt z /\ 0 < z /\ q_servers q' = Fin z /\
       Z.of_nat k = match q_servers q with Fin old => Z.max 0 (Z.min (z - old) (zlen (waiting q))) | Inf => 0 end) /\
    waiting q' = skipn k (waiting q) /\
    Permutation (ids (in_service q')) (ids (firstn k (waiting q)) ++ ids (in_service q)) /\
    scheduled q' = scheduled q /\ q_nsys q' = q_nsys q /\ q_narr q' = q_narr q /\
    q_departed q' = q_departed q /\ q_blocked q' = q_blocked q /\ q_now q' = q_now q /\
    least_time (scheduled q' ++ in_service q') (q_time q').
Proof. exact servers_set. Qed.
Print Assumptions C16_set.

(** It does return for a positive number, and for infinity if the number of
    servers was finite. *)
Theorem C16_accepts_partial : forall c s col n q m,
  cfg_ok n c -> (c_class c = CInfo -> s <> Fin 0) -> c_class c <> CNull -> c_class c <> CResource ->
  reach (legal n) (new_queue c s col n) q ->
  (exists z, m = PInt z /\ 0 < z) \/ (m = PInf /\ q_servers q <> Inf) ->
  exists q', set_num_servers m q = Ok q'.
Proof.
  intros c s col n q m C S N NR R M. assert (L := live_reach _ _ _ _ _ C S R).
  assert (CQ : q_cfg q = c).
  { assert (A : reach anything (new_queue c s col n) q)
      by (clear -R; induction R; [apply reach_here | eapply reach_step; [eassumption | exact Logic.I | eassumption]]).
    apply basics_reach in A as [_ A _ _ _]. exact A. }
  destruct (servers_tot n m q L) as (q' & E & _); [|eauto].
  cbn [legal]. rewrite CQ. destruct (c_class c); try congruence; destruct M as [(z & -> & P)|[-> P]]; assumption.
Qed.
Print Assumptions C16_accepts_partial.

(** ... but not from infinity to infinity. *)
Theorem C16_infinity_refuted : exists q,
  reach anything (new_queue (ex_cfg CServer) Inf false 0%nat) q /\ set_num_servers PInf q = Err TypeError.
Proof. eexists. split; [apply reach_here|]. vm_compute. reflexivity. Qed.
Print Assumptions C16_infinity_refuted.

Example C16_example : exists q q' q'',
  run_ops (OActive :: nexts 8) (ex_queue CServer) = Ok q /\
  zlen (waiting q) = 4 /\ q_servers q = Fin 2 /\
  set_num_servers (PInt 4) q = Ok q' /\ zlen (waiting q') = 2 /\ serving q' = 4 /\
  set_num_servers PInf q = Ok q'' /\ zlen (waiting q'') = 0 /\ serving q'' = 6.
Proof.
  do 3 eexists. split; [vm_compute; reflexivity|]. split; [reflexivity|]. split; [reflexivity|].
  split; [vm_compute; reflexivity|]. split; [reflexivity|]. split; [reflexivity|].
  split; [vm_compute; reflexivity|]. split; reflexivity.
Qed.

(** ** C57 *)

Theorem C57_no_raise : forall c s col n q o,
  cfg_ok n c -> (c_class c = CInfo -> s <> Fin 0) ->
  reach (legal n) (new_queue c s col n) q -> legal n q o -> exists r q', step o q = Ok (r, q').
Proof. exact no_raise. Qed.
Print Assumptions C57_no_raise.

Theorem C57_simulate : forall c s col n q k,
  cfg_ok n c -> (c_class c = CInfo -> s <> Fin 0) ->
  reach (legal n) (new_queue c s col n) q -> exists q', simulate_n k q = Ok q'.
Proof. exact simulate_no_raise. Qed.
Print Assumptions C57_simulate.

(** An InfoQueue among nine edges meets the conditions, and its history
    exercises blocking, data collection and information exchange. *)
Definition ex_info : qcfg :=
  mkCfg CInfo 0%nat 1%nat 7%nat 1
    (fun n t => match t with Fin z => Fin (z + 1) | Inf => Fin 0 end) (fun n t => eadd t (Fin 5)) KInfo Inf Inf (Fin 1) (Fin 4).
Example C57_example : cfg_ok 9%nat ex_info /\ exists q,
  run_ops (OActive :: nexts 9 ++ [ODelay None; OServers (PInt 4); ONext]) (new_queue ex_info (Fin 2) true 9%nat) = Ok q /\
  q_blocked q = 3 /\ q_departed q = 2 /\ zlen (q_data q) = 8 /\
  map (fun r => nr_time r) (flat_map ag_net (in_service q)) <> repeat (Fin (-1)) 27%nat.
Proof.
  split.
  - split; [cbn; lia|]. split; [|cbn; congruence]. intros _. split; [reflexivity|]. intros k t. destruct t; exact Logic.I.
  - eexists. split; [vm_compute; reflexivity|]. vm_compute. repeat split. discriminate.
Qed.
