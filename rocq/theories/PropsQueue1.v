(** * PropsQueue1: claims C03-C09 about queues *)
From Coq Require Import List ZArith QArith Bool Permutation Arith Lia.
From Verif Require Import Base Queue SpecQueue QueueHist QueueClaims1.
Import ListNotations.
Open Scope Z_scope.

(** Two servers, an arrival every time unit, service takes five. *)
Definition ex_cfg (cl : qclass) : qcfg :=
  mkCfg cl 0%nat 1%nat 7%nat 1
    (fun n t => eadd t (Fin 1)) (fun n t => eadd t (Fin 5)) KAgent (Fin 100) Inf (Fin 1) (Fin 4).
Definition ex_queue (cl : qclass) : queue := new_queue (ex_cfg cl) (Fin 2) true 9%nat.
Definition nexts (n : nat) : list qop := repeat ONext n.
Definition ex_agent : agent := mkAgent (2%nat, 5) KAgent (Fin 3) 0 false false [] [].

(** ** C03 *)

Theorem C03_counts : forall c s col n q, reach anything (new_queue c s col n) q ->
  q_nsys q = serving q + zlen (waiting q) /\
  q_total q = q_nsys q + zlen (scheduled q).
Proof. exact counts_reach. Qed.
Print Assumptions C03_counts.

(** The agents sent here and the agents created here are those held, those
    that departed and those turned away; num_departures, num_arrivals[0] and
    num_blocked count them. *)
Theorem C03_conservation : forall ops q0 log q,
  pristine q0 -> c_class (q_cfg q0) <> CNull -> Forall no_clear ops -> exec ops q0 = Ok (log, q) ->
  Permutation (sent log ++ created q) (held q ++ departed log ++ turned_away log) /\
  q_departed q = zlen (departed log) /\ q_nsys q = zlen (admitted log) - zlen (departed log) /\
  (c_class (q_cfg q) <> CResource ->
     q_narr q = q_nsys q + q_departed q /\ q_blocked q = zlen (turned_away log)) /\
  q_nsys q + q_departed q <= q_narr q <= q_nsys q + q_departed q + q_blocked q.
Proof. exact conservation. Qed.
Print Assumptions C03_conservation.

Theorem C03_never_twice : forall ops q0 log q,
  pristine q0 -> c_class (q_cfg q0) <> CNull -> Forall no_clear ops -> exec ops q0 = Ok (log, q) ->
  NoDup (sent log) -> (forall i, In i (sent log) -> fst i <> c_idx (q_cfg q0)) ->
  NoDup (held q ++ departed log ++ turned_away log).
Proof. exact never_twice. Qed.
Print Assumptions C03_never_twice.

Theorem C03_resource : forall c s col n q,
  c_class c = CResource -> c_factory c = KResource -> eLe (Fin 0) (c_buffer c) ->
  reach resource_less (new_queue c s col n) q ->
  q_narr q = q_nsys q + q_departed q + q_blocked q.
Proof. exact resource_counts. Qed.
Print Assumptions C03_resource.

(** A LossQueue with an agent from the network: two served, one waiting, the
    later ones blocked. *)
Example C03_example : exists log q,
  exec (OActive :: ONext :: ONext :: OArrive ex_agent :: nexts 9) (ex_queue CLoss) = Ok (log, q) /\
  q_departed q = 2 /\ q_blocked q = 4 /\ q_nsys q = 3 /\ q_narr q = 5 /\ zlen (scheduled q) = 1 /\
  sent log = [(2%nat, 5)] /\ zlen (created q) = 9.
Proof. eexists; eexists; split; [vm_compute; reflexivity|]. vm_compute. auto 10. Qed.

Definition ex_rcfg : qcfg :=
  mkCfg CResource 0%nat 1%nat 7%nat 1 (fun n t => eadd t (Fin 1)) (fun n t => eadd t (Fin 5))
    KResource Inf Inf (Fin 0) (Fin 4).
Example C03_resource_example : exists q,
  run_ops (OActive :: nexts 6) (new_queue ex_rcfg (Fin 3) false 0%nat) = Ok q /\
  q_narr q = 3 /\ q_blocked q = 1 /\ q_nsys q = 0 /\ q_departed q = 2.
Proof. eexists; split; [vm_compute; reflexivity|]. vm_compute. auto. Qed.

(** ** C04 *)

(** The agents whose service has begun are exactly an initial part of the
    arrival order, the line is the rest in the same order. *)
Theorem C04_fcfs : forall ops q0 log q,
  pristine q0 -> c_class (q_cfg q0) <> CNull -> c_class (q_cfg q0) <> CResource ->
  Forall no_clear ops -> exec ops q0 = Ok (log, q) ->
  exists st, admitted log = st ++ ids (waiting q) /\
             Permutation st (ids (in_service q) ++ departed log).
Proof. exact fcfs. Qed.
Print Assumptions C04_fcfs.

Example C04_example : exists log q,
  exec (OActive :: nexts 8 ++ [OServers (PInt 3); ONext]) (ex_queue CServer) = Ok (log, q) /\
  admitted log = [(7%nat,0);(7%nat,1);(7%nat,2);(7%nat,3);(7%nat,4);(7%nat,5);(7%nat,6)] /\
  ids (waiting q) = [(7%nat,5);(7%nat,6)] /\ departed log = [(7%nat, 0);(7%nat,1)].
Proof. eexists; eexists; split; [vm_compute; reflexivity|]. vm_compute. auto 10. Qed.

(** ** C05 *)

Theorem C05_work_conserving : forall c s col n q,
  c_class c <> CNull -> c_class c <> CResource ->
  reach anything (new_queue c s col n) q -> waiting q <> [] -> eLe (q_servers q) (Fin (serving q)).
Proof. exact work_conserving. Qed.
Print Assumptions C05_work_conserving.

Example C05_example : exists q,
  run_ops (OActive :: nexts 8 ++ [OServers (PInt 4); ONext; OServers (PInt 1); ONext]) (ex_queue CServer) = Ok q /\
  zlen (waiting q) = 2 /\ q_servers q = Fin 1 /\ serving q = 4.
Proof. eexists; split; [vm_compute; reflexivity|]. vm_compute. auto. Qed.

(** ** C06 *)

Theorem C06_no_overfill : forall c s col n q,
  c_class c <> CNull -> c_class c <> CResource -> eLe (Fin 0) s ->
  reach never_lowers (new_queue c s col n) q -> eLe (Fin (serving q)) (q_servers q).
Proof. exact no_overfill. Qed.
Print Assumptions C06_no_overfill.

(** In every history: an event leaves at most as many agents in service as
    there are servers, or starts no service. *)
Theorem C06_drains : forall c s col n q r q',
  c_class c <> CNull -> c_class c <> CResource ->
  reach anything (new_queue c s col n) q -> next_event q = Ok (r, q') ->
  q_servers q' = q_servers q /\
  (eLe (Fin (serving q')) (q_servers q') \/
   serving q' = serving q - match r with Some _ => 1 | None => 0 end).
Proof. exact drains. Qed.
Print Assumptions C06_drains.

Example C06_drains_example : exists q a q' q'',
  run_ops (OActive :: nexts 4 ++ [OServers (PInt 1); ONext]) (ex_queue CServer) = Ok q /\
  serving q = 2 /\ zlen (waiting q) = 3 /\ next_event q = Ok (None, q') /\ serving q' = 2 /\
  next_event q' = Ok (Some a, q'') /\ serving q'' = 1 /\ q_servers q'' = Fin 1.
Proof.
  do 4 eexists. split; [vm_compute; reflexivity|]. split; [reflexivity|]. split; [reflexivity|].
  split; [vm_compute; reflexivity|]. split; [reflexivity|]. split; [vm_compute; reflexivity|]. split; reflexivity.
Qed.

Example C06_example : exists q,
  run_ops (OActive :: nexts 8 ++ [OServers (PInt 4); ONext]) (ex_queue CServer) = Ok q /\
  zlen (waiting q) = 1 /\ q_servers q = Fin 4 /\ serving q = 4.
Proof. eexists; split; [vm_compute; reflexivity|]. vm_compute. auto. Qed.

(** ** C07 *)

(** Lowering to 1 and raising to 2 again with two agents in service starts
    a third one. *)
Theorem C07_raise_refuted : exists q q',
  reach anything (ex_queue CServer) q /\ set_num_servers (PInt 2) q = Ok q' /\
  serving q' > Z.max 2 (serving q).
Proof.
  destruct (run_ops (OActive :: nexts 6 ++ [OServers (PInt 1)]) (ex_queue CServer)) as [q|] eqn:E;
    [|vm_compute in E; discriminate].
  assert (R : reach anything (ex_queue CServer) q).
  { revert E. generalize (OActive :: nexts 6 ++ [OServers (PInt 1)]). intros ops.
    assert (G : forall q0 q1, reach anything q0 q1 -> run_ops ops q1 = Ok q -> reach anything q0 q).
    { induction ops as [|o ops IH]; intros q0 q1 R H; cbn [run_ops] in H; [inversion H; subst; exact R|].
      destruct (run_op o q1) as [q2|] eqn:E2; [|discriminate]. cbn [bind] in H.
      eapply IH; [|exact H]. eapply reach_step; [exact R | exact Logic.I | exact E2]. }
    apply G. apply reach_here. }
  exists q. vm_compute in E. inversion E; subst q. eexists. split; [exact R|].
  split; [vm_compute; reflexivity|]. vm_compute. reflexivity.
Qed.
Print Assumptions C07_raise_refuted.

(** What holds: exactly the agents at the front of the line that fit into
    the added servers start. *)
Theorem C07_raise_partial : forall c s col n q z q',
  c_class c <> CNull -> c_class c <> CResource -> reach anything (new_queue c s col n) q ->
  set_num_servers (PInt z) q = Ok q' ->
  exists k, serving q' = serving q + k /\ zlen (waiting q') = zlen (waiting q) - k /\
    match q_servers q with
    | Fin old => k = Z.max 0 (Z.min (z - old) (zlen (waiting q)))
    | Inf => k = 0
    end.
Proof. exact raise_starts. Qed.
Print Assumptions C07_raise_partial.

(** ** C08 *)

Theorem C08_time : forall c s col n q, reach anything (new_queue c s col n) q ->
  least_time (scheduled q ++ in_service q) (q_time q).
Proof. exact time_least. Qed.
Print Assumptions C08_time.

(** What next_event_description announces happens, at the announced time:
    0 nothing, 1 an arrival (admitted, blocked or returning a resource),
    2 a departure. *)
Theorem C08_description : forall c s col n q d r q', reach anything (new_queue c s col n) q ->
  next_event_description q = Ok d -> next_event q = Ok (r, q') ->
  (d = 0 /\ r = None /\ q' = q) \/
  (d = 1 /\ r = None /\ q_time q <> Inf /\ q_now q' = q_time q /\ q_departed q' = q_departed q /\
   exists a, In a (scheduled q) /\ ag_time a = q_time q /\
   ((q_nsys q' = q_nsys q + 1 /\ q_narr q' = q_narr q + 1 /\ q_blocked q' = q_blocked q) \/
    (q_nsys q' = q_nsys q /\ q_blocked q' = q_blocked q + 1 /\ c_class (q_cfg q) <> CServer) \/
    (q_nsys q' = q_nsys q /\ q_servers q' = eadd (q_servers q) (Fin 1) /\ ag_kind a = KResource /\ ag_has a = true /\
     c_class (q_cfg q) = CResource))) \/
  (d = 2 /\ q_time q <> Inf /\ q_now q' = q_time q /\ q_departed q' = q_departed q + 1 /\
   q_nsys q' = q_nsys q - 1 /\ q_narr q' = q_narr q /\ q_blocked q' = q_blocked q /\
   exists a b, r = Some a /\ In b (in_service q) /\ ag_id a = ag_id b /\ ag_time a = q_time q /\ ag_time b = q_time q).
Proof. exact description_reach. Qed.
Print Assumptions C08_description.

Example C08_example : exists q q',
  run_ops (OActive :: nexts 5) (ex_queue CLoss) = Ok q /\ next_event_description q = Ok 1 /\
  q_time q = Fin 6 /\ next_event q = Ok (None, q') /\ q_blocked q' = q_blocked q + 1 /\
  next_event_description q' = Ok 2 /\ exists a q'', next_event q' = Ok (Some a, q'') /\ ag_id a = (7%nat, 0).
Proof.
  eexists; eexists; split; [vm_compute; reflexivity|]. split; [vm_compute; reflexivity|].
  split; [vm_compute; reflexivity|]. split; [vm_compute; reflexivity|]. split; [vm_compute; reflexivity|].
  split; [vm_compute; reflexivity|]. eexists; eexists; split; vm_compute; reflexivity.
Qed.

(** ** C09 *)

Theorem C09_clock : forall c s col n q, forward c -> reach no_past (new_queue c s col n) q ->
  eLe (q_now q) (q_time q) /\
  (forall a, In a (scheduled q) \/ In a (in_service q) -> eLe (q_now q) (ag_time a)) /\
  (forall o q', no_past q o -> run_op o q = Ok q' -> eLe (q_now q) (q_now q')).
Proof. exact clock. Qed.
Print Assumptions C09_clock.

Example C09_example : forward (ex_cfg CLoss) /\ exists q,
  run_ops (OActive :: nexts 9 ++ [ODelay (Some (Fin 20)); ONext; ODelay None]) (ex_queue CLoss) = Ok q /\
  q_now q = Fin 8 /\ q_time q = Fin 9.
Proof.
  split.
  - split; intros n t; destruct t; cbn; try exact Logic.I; lia.
  - eexists; split; [vm_compute; reflexivity|]. vm_compute. auto.
Qed.
