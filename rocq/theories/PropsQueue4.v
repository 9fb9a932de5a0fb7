(** * PropsQueue4: exact statements for C24, C27, C29 and C59 *)
From Coq Require Import List ZArith QArith Bool Permutation Arith Lia.
From Verif Require Import Base Queue SpecQueue QueueEffects QueueInv QueueHist QueueData QueueRows QueueClaims3 SpecAct QueueActs PropsQueue1 PropsQueue3.
Import ListNotations.
Open Scope Z_scope.

(** ** C24 *)

(** Exactly what one event does to the number of servers and to the
    resources in the hands of the agents. *)
Theorem C24_exact : forall c s col n q r q',
  c_class c = CResource -> reach anything (new_queue c s col n) q -> next_event q = Ok (r, q') ->
  resource_step q r q'.
Proof.
  intros c s col n q r q' C R H. apply basics_reach in R as [IV CF _ _ _]. apply resource_exact; [congruence|exact IV|exact H].
Qed.
Print Assumptions C24_exact.

(** Where the servers are: if only ResourceAgents come, then every agent
    that waits has one (taken when it arrived), no agent in service has one
    (it took one when it arrived and laid it down when service began; the
    queue did not get it back), and every visit that ended has cost one
    server.  Agents that left with a server in hand have taken a second
    one. *)
Theorem C24_account : forall c s col n ops log q,
  c_class c = CResource -> c_factory c = KResource ->
  (forall o, In o ops -> resources_only o) ->
  exec ops (new_queue c s col n) = Ok (log, q) ->
  s = eadd (q_servers q)
        (Fin (zlen (waiting q) + zlen (in_service q) + zlen (departed log) + carrying log - returned log)) /\
  Forall (fun a => ag_has a = true) (waiting q) /\ Forall (fun a => ag_has a = false) (in_service q).
Proof.
  intros c s col n ops log q C F OK H.
  assert (R0 : rstate (new_queue c s col n)).
  { constructor; try assumption; try (intros a []). exact (ba_inv _ _ _ (basics_new c s col n)). }
  destruct (resource_account ops _ _ _ R0 OK H) as (R & E). split.
  - unfold new_queue in E at 1. rewrite C in E. qch E. rewrite E. f_equal. f_equal. unfold here. cbn. lia.
  - split; apply Forall_forall; intros a A; [apply (rs_wait _ R a A)|apply (rs_serv _ R a A)].
Qed.
Print Assumptions C24_account.

(** Four servers; one agent has left with one, one is served, the servers
    that both took first are lost. *)
Example C24_account_example : exists log q,
  exec [OArrive ex_ra; ONext; ONext; OArrive (set_ag_time (Fin 9) ex_ra); ONext] (new_queue ex_rc (Fin 4) false 0%nat) = Ok (log, q) /\
  q_servers q = Fin 1 /\ zlen (in_service q) = 1 /\ zlen (departed log) = 1 /\ carrying log = 1 /\ returned log = 0.
Proof. eexists; eexists. split; [vm_compute; reflexivity|]. vm_compute. auto 12. Qed.

(** ** C27 *)

(** An InfoAgent that leaves an InfoQueue knows the state of the queue at
    this moment, and otherwise the newer of what it and the queue knew. *)
Theorem C27_departs : forall c s col n q a' q',
  c_class c = CInfo -> reach anything (new_queue c s col n) q -> stamped (q_net q') ->
  next_event q = Ok (Some a', q') -> ag_kind a' = KInfo ->
  exists a, In a (in_service q) /\ ag_id a' = ag_id a /\
    learned (ag_net a) (q_net q') (c_idx c) (q_now q') (q_servers q') (q_nsys q') (ag_net a').
Proof.
  intros c s col n q a' q' C R ST H K. apply basics_reach in R as [IV CF _ _ _]. subst c. apply info_departs; assumption.
Qed.
Print Assumptions C27_departs.

(** So does an InfoAgent that has been admitted. *)
Theorem C27_arrives : forall c s col n q a r q',
  c_class c = CInfo -> reach anything (new_queue c s col n) q -> stamped (q_net q') -> arriving q = Some a -> ag_kind a = KInfo ->
  next_event q = Ok (r, q') -> q_nsys q' = q_nsys q + 1 ->
  exists a', (In a' (waiting q') \/ In a' (in_service q')) /\ ag_id a' = ag_id a /\
    learned (ag_net a) (q_net q') (c_idx c) (q_now q') (q_servers q') (q_nsys q') (ag_net a').
Proof.
  intros c s col n q a r q' C R. apply basics_reach in R as [IV CF _ _ _]. subst c. apply info_arrives; assumption.
Qed.
Print Assumptions C27_arrives.

(** The agent of [C27_example] leaves: it arrived at 4 and leaves at 8. *)
Example C27_departs_example : exists q a q',
  run_ops [OActive; ONext; OArrive (ex_ia 4); ONext; ONext] (new_queue ex_ic (Fin 2) false 3%nat) = Ok q /\
  map nr_time (q_net q) = [Fin (-1); Fin 2; Fin (-1)] /\
  next_event q = Ok (Some a, q') /\ ag_id a = (2%nat, 0) /\ ag_kind a = KInfo /\ map nr_time (ag_net a) = [Fin 8; Fin 2; Fin (-1)] /\ map nr_load (ag_net a) = [(0 # 2)%Q; (1 # 5)%Q; (-1 # 1)%Q].
Proof. do 3 eexists. split; [vm_compute; reflexivity|]. split; [reflexivity|]. split; [vm_compute; reflexivity|]. vm_compute. auto. Qed.

(** ** C29 *)

(** When an InfoAgent leaves, and when it enters service after waiting, the
    wait that its last row shows is added to its statistics. *)
Theorem C29_departure_partial : forall c s col n q a' q',
  c_class c = CInfo -> reach anything (new_queue c s col n) q -> next_event q = Ok (Some a', q') ->
  (ag_kind a' = KInfo -> exists a, In a (in_service q) /\ ag_id a' = ag_id a /\
    stat_step (c_idx c) (rows_of (q_data q') (ag_id a)) (ag_stats a) (ag_stats a')) /\
  (forall b, waiting q = b :: waiting q' -> ag_kind b = KInfo -> exists b', In b' (in_service q') /\ ag_id b' = ag_id b /\
    stat_step (c_idx c) (rows_of (q_data q') (ag_id b)) (ag_stats b) (ag_stats b')).
Proof.
  intros c s col n q a' q' C R. apply basics_reach in R as [IV CF _ _ _]. subst c. apply info_stats_departs; assumption.
Qed.
Print Assumptions C29_departure_partial.

(** When it is admitted, the negative of its arrival time is added.  So a
    visit adds twice the wait (if it waited) minus the arrival time: the
    claim would need the wait alone. *)
Theorem C29_arrival_partial : forall c s col n q a r q',
  c_class c = CInfo -> reach anything (new_queue c s col n) q -> q_collect q = true ->
  arriving q = Some a -> ag_kind a = KInfo -> next_event q = Ok (r, q') -> q_nsys q' = q_nsys q + 1 ->
  exists a' t, (In a' (waiting q') \/ In a' (in_service q')) /\ ag_id a' = ag_id a /\ ag_time a = Fin t /\
    stat_add (c_idx c) (- t) (ag_stats a) (ag_stats a').
Proof.
  intros c s col n q a r q' C R. apply basics_reach in R as [IV CF _ _ _]. subst c. apply info_stats_arrives; assumption.
Qed.
Print Assumptions C29_arrival_partial.

(** One server: the agent that arrives at 4 waits until 5 and leaves at 9;
    its wait is recorded as -4 + 1 + 1, with two waits counted. *)
Example C29_visit_example : exists q1 q2 q3 q4 a2 a3 a4,
  run_ops [OActive; ONext; OArrive (ex_ia 4)] (new_queue ex_ic (Fin 1) true 3%nat) = Ok q1 /\ arriving q1 = Some (ex_ia 4) /\
  next_event q1 = Ok (None, q2) /\ waiting q2 = [a2] /\ nth 0 (ag_stats a2) (0, 0, 0) = (-4, 0, 0) /\
  (exists a0, next_event q2 = Ok (Some a0, q3)) /\ waiting q3 = [] /\ in_service q3 = [a3] /\ nth 0 (ag_stats a3) (0, 0, 0) = (-3, 1, 0) /\
  next_event q3 = Ok (Some a4, q4) /\ nth 0 (ag_stats a4) (0, 0, 0) = (-2, 2, 0) /\
  rows_of (q_data q4) (ag_id a4) = [mkData (Fin 4) (Fin 5) (Fin 9) 1 2].
Proof.
  do 7 eexists. split; [vm_compute; reflexivity|]. split; [reflexivity|]. split; [vm_compute; reflexivity|]. split; [reflexivity|].
  split; [reflexivity|]. split; [eexists; vm_compute; reflexivity|]. split; [reflexivity|]. split; [reflexivity|]. split; [reflexivity|].
  split; [vm_compute; reflexivity|]. split; reflexivity.
Qed.

(** ** C59 at a ResourceQueue *)

(** Every arrival adds exactly one row, for the agent that arrives. *)
Theorem C59_resource_rows : forall c s col n q a r q',
  c_class c = CResource -> reach (fun q o => no_clear o /\ fresh q o) (new_queue c s col n) q ->
  q_collect q = true -> arriving q = Some a -> next_event q = Ok (r, q') ->
  forall i, rows_of (q_data q') i = rows_of (q_data q) i ++ resource_row q a q' i.
Proof.
  intros c s col n q a r q' C R CO AR H. assert (N : c_class c <> CNull) by congruence.
  destruct (dinv_reach _ _ _ _ _ N R) as (D & _). apply basics_reach in R as [IV CF _ _ _].
  apply (rows_resource q a r); auto. congruence.
Qed.
Print Assumptions C59_resource_rows.

(** The rows of departures and of starts of service are as in the other
    queues. *)
Theorem C59_resource_departures : forall c s col n q r q',
  c_class c = CResource -> reach (fun q o => no_clear o /\ fresh q o) (new_queue c s col n) q ->
  q_collect q = true -> arriving q = None -> next_event q = Ok (r, q') ->
  forall i, rows_of (q_data q') i =
    match r with
    | Some a =>
      if aid_eqb (ag_id a) i then last_upd (row_set_dep (q_now q')) (rows_of (q_data q) i)
      else if began q q' i then last_upd (row_set_srv (q_now q')) (rows_of (q_data q) i)
      else rows_of (q_data q) i
    | None => rows_of (q_data q) i
    end.
Proof.
  intros c s col n q r q' C R CO AR H i. assert (N : c_class c <> CNull) by congruence.
  destruct (dinv_reach _ _ _ _ _ N R) as (D & _). apply basics_reach in R as [IV CF _ _ _].
  assert (X : row_step q r q' i (rows_of (q_data q) i) (rows_of (q_data q') i)) by (apply rows_next; auto; congruence).
  unfold row_step in X. rewrite AR in X. destruct r as [a|]; [|exact X].
  destruct (aid_eqb (ag_id a) i); [exact X|]. destruct (began q q' i); exact X.
Qed.
Print Assumptions C59_resource_departures.

(** The row of an agent that took the last server, and so has to wait,
    shows an empty line, although the agent itself is in it. *)
Definition ex_rb : qcfg :=
  mkCfg CResource 0%nat 1%nat 7%nat 1 (fun n t => eadd t (Fin 1)) (fun n t => eadd t (Fin 5))
    KResource Inf Inf (Fin 3) (Fin 6).
Theorem C59_resource_refuted : exists q q',
  run_op (OArrive ex_ra) (new_queue ex_rb (Fin 1) true 0%nat) = Ok q /\ arriving q = Some ex_ra /\
  run_op ONext q = Ok q' /\ ids (waiting q') = [ag_id ex_ra] /\ in_service q' = [] /\
  rows_of (q_data q') (ag_id ex_ra) = [mkData (Fin 3) (Fin 0) (Fin 0) 0 1].
Proof. eexists; eexists. split; [vm_compute; reflexivity|]. split; [reflexivity|]. split; [vm_compute; reflexivity|]. vm_compute. auto. Qed.
Print Assumptions C59_resource_refuted.

(** A return, and after two more arrivals a refused agent. *)
Example C59_resource_example : exists q q1 q2,
  run_ops [OArrive ex_ra; ONext; OArrive (mkAgent (3%nat, 0) KResource (Fin 4) 0 true false [] []); OArrive (mkAgent (4%nat, 0) KResource (Fin 5) 0 false false [] []);
           OArrive (mkAgent (5%nat, 0) KResource (Fin 6) 0 false false [] [])]
    (new_queue ex_rb (Fin 2) true 0%nat) = Ok q /\
  run_op ONext q = Ok q1 /\ q_servers q1 = Fin 2 /\ rows_of (q_data q1) (3%nat, 0) = [mkData (Fin 4) (Fin 4) (Fin 4) 0 1] /\
  run_ops [ONext; ONext] q1 = Ok q2 /\ rows_of (q_data q2) (5%nat, 0) = [mkData (Fin 6) (Fin 0) (Fin 0) 1 2].
Proof. do 3 eexists. split; [vm_compute; reflexivity|]. split; [vm_compute; reflexivity|]. split; [reflexivity|]. split; [reflexivity|]. split; [vm_compute; reflexivity|]. reflexivity. Qed.
