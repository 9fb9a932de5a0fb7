(** * PropsNet2: queues in networks (C65; C04, C05, C06, C17, C20, C24, C25
    inside networks) *)
From Coq Require Import List ZArith QArith Lia Bool Permutation Arith.
From Verif Require Import Base Heap Queue QueueInv SpecQueue QueueHist QueueClaims1 QueueClaims2 QueueClaims3 QueueClaims4 QueueClaims5 Network SpecNet NetInv NetReach NetTotal
  SpecRefine NetRefine NetExamples PropsNet1.
Import ListNotations.
Open Scope Z_scope.

(** ** C65: a queue inside a network has a history of its own *)

Theorem C65_refines : forall n0 n1 n2 k q, well_made n0 -> nreach usual n0 n1 -> nreach usual n1 n2 ->
  get (nt_queues n2) k = Some q ->
  exists q1 q2, get (nt_queues n1) k = Some q1 /\ reach indoors q1 q2 /\ bare q2 = bare q.
Proof. exact refines. Qed.
Print Assumptions C65_refines.

Theorem C65_unbroken : forall n0 n1 n2 k q, well_made n0 -> nreach usual n0 n1 -> nreach unbroken n1 n2 ->
  get (nt_queues n2) k = Some q ->
  exists q1 q2, get (nt_queues n1) k = Some q1 /\ reach (fun q o => indoors q o /\ no_clear o) q1 q2 /\ bare q2 = bare q.
Proof. exact refines_unbroken. Qed.
Print Assumptions C65_unbroken.

Theorem C65_attentive : forall n0 n1 n2 k q, well_made n0 -> nreach usual n0 n1 -> nreach attentive n1 n2 ->
  get (nt_queues n2) k = Some q ->
  exists q1 q2, get (nt_queues n1) k = Some q1 /\ reach (fun q o => indoors q o /\ careful q o) q1 q2 /\ bare q2 = bare q.
Proof. exact refines_attentive. Qed.
Print Assumptions C65_attentive.

(** Calls that are events, initialize or copy only. *)
Definition plain_call (c : ncall) : bool := match c with KInit _ | KCopy | KOp NSim => true | _ => false end.
Lemma plain_reach l n0 : usual_calls l n0 = true -> forallb plain_call l = true -> nreach attentive n0 (reached l n0).
Proof.
  intros U P. destruct (usual_calls_Ok _ _ U) as (n & E). unfold reached. rewrite E. clear - U P E.
  assert (R : nreach attentive n0 n0) by apply nreach_here. revert R U P E. generalize n0 at 2 3 4.
  induction l as [|c l IH]; intros n1 R U P E; cbn [usual_calls calls forallb] in *; [injection E as <-; exact R|].
  apply andb_true_iff in U as [U1 U2]. apply andb_true_iff in P as [P1 P2]. destruct (run_call c n1) as [n2|] eqn:C; [|discriminate].
  apply (IH n2); [|assumption..]. apply (nreach_step _ _ n1 c); [exact R| |exact C].
  split; [split|].
  - destruct c as [sel| | |[]]; cbn [usual usualb] in *; try exact Logic.I; [destruct (nt_init n1); [discriminate|reflexivity]|exact U1].
  - intros ->. discriminate.
  - destruct c as [sel| | |[]]; try exact Logic.I; discriminate.
Qed.
Lemma attentive_unbroken n0 n : nreach attentive n0 n -> nreach unbroken n0 n.
Proof. apply nreach_weak. intros ? ? [X _]. exact X. Qed.

(** Queue 0 after six events: its agents arrived, one departed, the second
    was kept until 10 because the LossQueue was full. *)
Example C65_example : well_made (two_ways_net Inf true) /\ nreach usual (two_ways_net Inf true) (ex_at 6) /\
  exists q q0, get (nt_queues (ex_at 6)) 0 = Some q /\ ids (waiting q) = [(0%nat, 3)] /\
    ids (in_service q) = [(0%nat, 1); (0%nat, 2)] /\ map ag_blocked (in_service q) = [0; 1] /\
    run_ops [OActive; ONext; ONext; ONext; ONext; ONext; ODelay (Some (Fin 10))]
      (new_queue (net_cfg CServer 0 1 0 1 (steps [] 1) (steps [2; 3; 1; 2] 2) KAgent Inf) (Fin 2) true 4) = Ok q0 /\
    bare q0 = bare q /\ map ag_blocked (in_service q0) = [0; 0].
Proof.
  split; [apply two_ways_made|]. split; [apply reached_usual; vm_compute; reflexivity|].
  do 2 eexists. split; [vm_compute; reflexivity|]. split; [reflexivity|]. split; [reflexivity|]. split; [reflexivity|].
  split; [vm_compute; reflexivity|]. split; reflexivity.
Qed.

Example C65_attentive_example : nreach attentive (ex_at 5) (reached (sims 9) (ex_at 5)) /\ nreach usual (two_ways_net Inf true) (ex_at 5) /\
  (exists n', run_call (KOp (NCollect false [1%nat])) (two_ways_net Inf true) = Ok n' /\ nreach attentive (two_ways_net Inf true) n') /\
  (exists n' q, run_call (KOp (NCollect false [1%nat])) (ex_at 5) = Ok n' /\ get (nt_queues (ex_at 5)) 1 = Some q /\ ~ attentive (ex_at 5) (KOp (NCollect false [1%nat]))).
Proof.
  split; [apply plain_reach; vm_compute; reflexivity|]. split; [apply reached_usual; vm_compute; reflexivity|]. split.
  - eexists. split; [vm_compute; reflexivity|]. apply (nreach_step _ _ (two_ways_net Inf true) (KOp (NCollect false [1%nat]))); [apply nreach_here| |vm_compute; reflexivity].
    split; [split; [exact Logic.I|discriminate]|]. intros k q [<-|[]] G. injection G as <-. right. split; reflexivity.
  - do 2 eexists. split; [vm_compute; reflexivity|]. split; [vm_compute; reflexivity|]. intros [_ X].
    edestruct (X 1%nat) as [Y|[_ Y]]; [left; reflexivity|vm_compute; reflexivity|discriminate..].
Qed.

(** What [bare] forgets, and nothing else. *)
Theorem C65_bare : forall q q', bare q = bare q' ->
  q_cfg q = q_cfg q' /\ q_servers q = q_servers q' /\ q_departed q = q_departed q' /\ q_nsys q = q_nsys q' /\ q_data q = q_data q' /\
  q_collect q = q_collect q' /\ q_narr q = q_narr q' /\ q_oarr q = q_oarr q' /\ q_total q = q_total q' /\ q_active q = q_active q' /\
  q_now q = q_now q' /\ q_time q = q_time q' /\ ids (scheduled q) = ids (scheduled q') /\
  ids (in_service q) = ids (in_service q') /\ ids (waiting q) = ids (waiting q').
Proof.
  intros q q' B. destruct (bare_ids _ _ B) as (? & ? & ?). assert (D := bare_fields _ _ B). decompose [and] D. repeat split; assumption.
Qed.
Print Assumptions C65_bare.

Lemma start_of n0 n k q : well_made n0 -> nreach usual n0 n -> get (nt_queues n) k = Some q ->
  exists c s col nE q0, get (nt_queues n0) k = Some (new_queue c s col nE) /\ forward c /\ reach indoors (new_queue c s col nE) q0 /\ bare q0 = bare q /\ q_cfg q = c.
Proof.
  intros W R G. destruct (refines n0 n0 n k q W (nreach_here _ _) R G) as (q1 & q0 & G1 & R1 & B).
  destruct (made_new _ _ _ W G1) as (c & s & col & nE & -> & _ & F). exists c, s, col, nE, q0. split; [exact G1|]. split; [exact F|].
  split; [exact R1|]. split; [exact B|]. assert (D := bare_fields _ _ B). destruct D as [<- _].
  apply reach_weaken with (ok' := anything) in R1; [|intros; exact Logic.I]. apply basics_reach in R1 as [_ C _ _ _]. exact C.
Qed.

Theorem C05_network : forall n0 n k q, well_made n0 -> nreach usual n0 n -> get (nt_queues n) k = Some q ->
  c_class (q_cfg q) <> CNull -> c_class (q_cfg q) <> CResource ->
  waiting q <> [] -> eLe (q_servers q) (Fin (serving q)).
Proof.
  intros n0 n k q W R G N NR WT. destruct (start_of _ _ _ _ W R G) as (c & s & col & nE & q0 & _ & _ & R0 & B & C). rewrite C in N, NR.
  apply reach_weaken with (ok' := anything) in R0; [|intros; exact Logic.I].
  destruct (bare_serving _ _ B) as [<- WL]. assert (D := bare_fields _ _ B). destruct D as (_ & <- & _).
  apply (work_conserving c s col nE); auto. intro E. rewrite E in WL. destruct (waiting q); [congruence|]. discriminate.
Qed.
Print Assumptions C05_network.

Example C05_network_example : nreach usual (two_ways_net Inf true) (ex_at 8) /\ exists q, get (nt_queues (ex_at 8)) 0 = Some q /\
  ids (waiting q) = [(0%nat, 4)] /\ q_servers q = Fin 2 /\ serving q = 2.
Proof. split; [apply reached_usual; vm_compute; reflexivity|]. eexists. split; [vm_compute; reflexivity|]. vm_compute. auto. Qed.

Theorem C06_network : forall n0 n k q, well_made n0 -> nreach usual n0 n -> get (nt_queues n) k = Some q ->
  c_class (q_cfg q) <> CNull -> c_class (q_cfg q) <> CResource ->
  exists q00, get (nt_queues n0) k = Some q00 /\ q_servers q = q_servers q00 /\
    (eLe (Fin 0) (q_servers q00) -> eLe (Fin (serving q)) (q_servers q)).
Proof.
  intros n0 n k q W R G N NR. destruct (start_of _ _ _ _ W R G) as (c & s & col & nE & q0 & G0 & _ & R0 & B & C). rewrite C in N, NR.
  exists (new_queue c s col nE). split; [exact G0|]. destruct (bare_serving _ _ B) as [<- _]. assert (D := bare_fields _ _ B). destruct D as (_ & <- & _).
  assert (S0 : q_servers (new_queue c s col nE) = s) by (unfold new_queue; destruct (c_class c); try reflexivity; congruence).
  split.
  - clear - R0 N NR. induction R0 as [|q1 o q2 R0 IH OK H]; [reflexivity|]. rewrite <- IH.
    apply reach_weaken with (ok' := anything) in R0; [|intros; exact Logic.I]. assert (X := R0). apply basics_reach in X as [IV CF _ _ _].
    destruct o; cbn in OK; try tauto.
    + cbn [run_op] in H. destruct (next_event q1) as [[r x]|] eqn:E; [|discriminate]. injection H as <-.
      apply (drains c s col nE _ _ _ N NR R0 E).
    + refine (proj2 (proj2 (proj2 (other_sizes OActive _ _ _ _ _ _ IV H)))); [discriminate|exact Logic.I|congruence|congruence].
    + refine (proj2 (proj2 (proj2 (other_sizes OInactive _ _ _ _ _ _ IV H)))); [discriminate|exact Logic.I|congruence|congruence].
    + refine (proj2 (proj2 (proj2 (other_sizes (ODelay t) _ _ _ _ _ _ IV H)))); [discriminate|exact Logic.I|congruence|congruence].
    + refine (proj2 (proj2 (proj2 (other_sizes (OArrive a) _ _ _ _ _ _ IV H)))); [discriminate|exact Logic.I|congruence|congruence].
    + refine (proj2 (proj2 (proj2 (other_sizes (OCollect b) _ _ _ _ _ _ IV H)))); [discriminate|exact Logic.I|congruence|congruence].
    + cbn [run_op] in H. injection H as <-. unfold clear. destruct (c_class (q_cfg q1)); reflexivity.
    + cbn [run_op] in H. injection H as <-. reflexivity.
  - rewrite S0. intro S. apply (no_overfill c s col nE); auto.
    apply (reach_weaken indoors); [|exact R0]. intros q1 o X. destruct o; cbn in *; tauto.
Qed.
Print Assumptions C06_network.

Example C06_network_example : well_made (two_ways_net Inf true) /\ nreach usual (two_ways_net Inf true) (ex_at 12) /\
  map serving (nt_queues (ex_at 12)) = [2; 1; 0; 0] /\ map q_servers (nt_queues (ex_at 12)) = [Fin 2; Fin 1; Fin 0; Fin 0].
Proof. split; [apply two_ways_made|]. split; [apply reached_usual; vm_compute; reflexivity|]. vm_compute. auto. Qed.

Theorem C04_network : forall n0 n1 n2 k q1 q2, well_made n0 -> nreach usual n0 n1 -> nreach unbroken n1 n2 ->
  get (nt_queues n1) k = Some q1 -> get (nt_queues n2) k = Some q2 ->
  c_class (q_cfg q1) <> CNull -> c_class (q_cfg q1) <> CResource -> in_turn q1 q2.
Proof.
  intros n0 n1 n2 k q1 q2 W R1 R2 G1 G2 N NR.
  destruct (refines_unbroken _ _ _ _ _ W R1 R2 G2) as (q1' & q0 & G1' & R0 & B). rewrite G1 in G1'. injection G1' as <-.
  apply (bare_turn _ _ q0); [exact B|]. apply (turn_reach (fun q o => indoors q o /\ no_clear o)); try assumption.
  - intros q o [_ X]. exact X.
  - destruct (ngood_reach _ _ W R1) as [I _]. destruct (ni_q _ I _ _ G1) as [X _]. apply X.
  - intro LN. apply (C05_network n0 n1 k q1); assumption.
Qed.
Print Assumptions C04_network.

Example C04_network_example : nreach usual (two_ways_net Inf true) (ex_at 5) /\ nreach unbroken (ex_at 5) (reached (sims 9) (ex_at 5)) /\
  exists q q', get (nt_queues (ex_at 5)) 0 = Some q /\ get (nt_queues (reached (sims 9) (ex_at 5))) 0 = Some q' /\
    ids (waiting q) = [(0%nat, 3)] /\ ids (in_service q) = [(0%nat, 2); (0%nat, 1)] /\ ids (in_service q') = [(0%nat, 2); (0%nat, 3)] /\
    ids (waiting q') = [(0%nat, 4); (0%nat, 5); (0%nat, 6); (0%nat, 7); (0%nat, 8)] /\ q_departed q = 1 /\ q_departed q' = 2.
Proof.
  split; [apply reached_usual; vm_compute; reflexivity|]. split; [apply attentive_unbroken; apply plain_reach; vm_compute; reflexivity|].
  do 2 eexists. split; [vm_compute; reflexivity|]. split; [vm_compute; reflexivity|]. vm_compute. auto 12.
Qed.

Theorem C17_network : forall n0 n k q, well_made n0 -> nreach attentive n0 n -> get (nt_queues n) k = Some q ->
  c_class (q_cfg q) <> CNull ->
  forall i, let rows := rows_of (q_data q) i in
  (~ In i (ids (waiting q)) -> ~ In i (ids (in_service q)) -> Forall row_ended rows) /\
  (q_collect q = false -> Forall row_ended rows) /\
  (q_collect q = true ->
  (In i (ids (waiting q)) -> exists old l, rows = old ++ [l] /\ Forall row_ended old /\ row_waiting l /\ eLe (r_arr l) (q_now q)) /\
  (In i (ids (in_service q)) -> exists old l, rows = old ++ [l] /\ Forall row_ended old /\ row_in_service l /\ eLe (r_srv l) (q_now q))).
Proof.
  intros n0 n k q W R G N. destruct (refines_attentive _ n0 _ _ _ W (nreach_here _ _) R G) as (q1 & q0 & G1 & R0 & B).
  destruct (made_new _ _ _ W G1) as (c & s & col & nE & -> & _ & F). assert (D := bare_fields _ _ B).
  destruct D as (C & _ & _ & _ & <- & <- & _ & _ & _ & _ & <- & _). destruct (bare_ids _ _ B) as (_ & <- & <-).
  apply (reach_weaken _ careful) in R0; [|intros ? ? [_ X]; exact X].
  assert (C0 : q_cfg q0 = c). { apply reach_weaken with (ok' := anything) in R0; [|intros; exact Logic.I]. apply basics_reach in R0 as [_ X _ _ _]. exact X. }
  apply (rows_ordered c s col nE); auto. congruence.
Qed.
Print Assumptions C17_network.

Example C17_network_example : nreach attentive (two_ways_net Inf true) (ex_at 8) /\ exists q, get (nt_queues (ex_at 8)) 0 = Some q /\
  q_collect q = true /\ ids (waiting q) = [(0%nat, 4)] /\ rows_of (q_data q) (0%nat, 4) = [mkData (Fin 5) (Fin 0) (Fin 0) 2 4].
Proof. split; [apply plain_reach; vm_compute; reflexivity|]. eexists. split; [vm_compute; reflexivity|]. vm_compute. auto. Qed.

Theorem C20_network : forall n0 n k q, well_made n0 -> nreach usual n0 n -> get (nt_queues n) k = Some q ->
  lossy (q_cfg q) ->
  exists q00, get (nt_queues n0) k = Some q00 /\
    (eLe (Fin 0) (eadd (q_servers q00) (c_buffer (q_cfg q))) ->
     eLe (Fin (q_nsys q)) (eadd (q_servers q) (c_buffer (q_cfg q))) /\
     (at_capacity q = true <-> Fin (q_nsys q) = eadd (q_servers q) (c_buffer (q_cfg q)))).
Proof.
  intros n0 n k q W R G LO. destruct (start_of _ _ _ _ W R G) as (c & s & col & nE & q0 & G0 & _ & R0 & B & C). rewrite C in *.
  exists (new_queue c s col nE). split; [exact G0|].
  assert (S0 : q_servers (new_queue c s col nE) = s) by (unfold new_queue; destruct LO as [-> | ->]; reflexivity). rewrite S0. intro S.
  assert (AC : at_capacity q0 = at_capacity q) by exact (f_equal at_capacity B). rewrite <- AC.
  assert (D := bare_fields _ _ B). destruct D as (_ & <- & _ & <- & _).
  apply (loss_capacity c s col nE); auto. apply (reach_weaken indoors); [|exact R0]. intros q1 o X. destruct o; cbn in *; tauto.
Qed.
Print Assumptions C20_network.

Example C20_network_example : nreach usual (two_ways_net Inf true) (ex_at 8) /\ exists q, get (nt_queues (ex_at 8)) 1 = Some q /\
  lossy (q_cfg q) /\ at_capacity q = true /\ q_nsys q = 1 /\ q_blocked q = 1 /\ c_buffer (q_cfg q) = Fin 0.
Proof. split; [apply reached_usual; vm_compute; reflexivity|]. eexists. split; [vm_compute; reflexivity|]. split; [left; reflexivity|]. vm_compute. auto. Qed.

Theorem C24_network : forall n0 n k q, well_made n0 -> nreach usual n0 n -> get (nt_queues n) k = Some q ->
  c_class (q_cfg q) = CResource ->
  exists q00, get (nt_queues n0) k = Some q00 /\ (eLe (Fin 0) (q_servers q00) -> eLe (Fin 0) (q_servers q)).
Proof.
  intros n0 n k q W R G CR. destruct (start_of _ _ _ _ W R G) as (c & s & col & nE & q0 & G0 & _ & R0 & B & C). rewrite C in *.
  exists (new_queue c s col nE). split; [exact G0|].
  assert (S0 : q_servers (new_queue c s col nE) = s) by (unfold new_queue; rewrite CR; reflexivity). rewrite S0. intro S.
  assert (D := bare_fields _ _ B). destruct D as (_ & <- & _).
  apply (resource_nonneg c s col nE); auto. apply (reach_weaken indoors); [|exact R0]. intros q1 o X. destruct o; cbn in *; tauto.
Qed.
Print Assumptions C24_network.

Example C24_network_example : well_made returning /\ nreach usual returning (reached (KInit [1%nat] :: sims 6) returning) /\
  exists q, get (nt_queues (reached (KInit [1%nat] :: sims 6) returning)) 0 = Some q /\ c_class (q_cfg q) = CResource /\ q_servers q = Fin 0 /\
    map q_servers (nt_queues returning) = [Fin 3; Fin 1; Fin 0].
Proof. split; [apply returning_made|]. split; [apply reached_usual; vm_compute; reflexivity|]. eexists. split; [vm_compute; reflexivity|]. vm_compute. auto. Qed.

Theorem C25_network : forall n0 n k q, well_made n0 -> nreach unbroken n0 n -> get (nt_queues n) k = Some q ->
  c_class (q_cfg q) <> CNull -> c_class (q_cfg q) <> CResource -> q_active q = true ->
  (exists a, In a (scheduled q) /\ ag_id a = (c_idx (q_cfg q), q_oarr q - 1) /\ ag_time a = q_next_ct q) \/
  eLe (c_deactive_t (q_cfg q)) (q_next_ct q).
Proof.
  intros n0 n k q W R G N NR AC. destruct (refines_unbroken _ n0 _ _ _ W (nreach_here _ _) R G) as (q1 & q0 & G1 & R0 & B).
  destruct (made_new _ _ _ W G1) as (c & s & col & nE & -> & _ & F). assert (D := bare_fields _ _ B).
  apply (reach_weaken _ no_past) in R0; [|intros ? o [X Y]; destruct o; cbn in *; tauto].
  assert (C0 : q_cfg q0 = c). { assert (R1 := R0). apply reach_weaken with (ok' := anything) in R1; [|intros; exact Logic.I]. apply basics_reach in R1 as [_ X _ _ _]. exact X. }
  destruct D as (C & _ & _ & _ & _ & _ & _ & OA & _ & AQ & _ & _ & NC & _).
  assert (C1 : q_cfg q = c) by congruence. rewrite C1 in *. rewrite <- OA, <- NC. rewrite <- AQ in AC.
  destruct (arrivals_go_on c s col nE q0 N NR F R0 AC) as [(a & IN & ID & T)|X]; [left|right; exact X].
  destruct (bare_agents _ _ B) as (E1 & _ & _). assert (IN' : In (unmark a) (map unmark (scheduled q))) by (rewrite <- E1; apply in_map; exact IN).
  apply in_map_iff in IN' as (a' & E & IN'). exists a'. split; [exact IN'|]. split.
  - rewrite <- ID. exact (f_equal ag_id E).
  - rewrite <- T. exact (f_equal ag_time E).
Qed.
Print Assumptions C25_network.

Example C25_network_example : nreach unbroken (two_ways_net Inf true) (ex_at 8) /\ exists q, get (nt_queues (ex_at 8)) 0 = Some q /\
  q_active q = true /\ c_deactive_t (q_cfg q) = Inf /\ ids (scheduled q) = [(0%nat, 5)] /\ q_next_ct q = Fin 6.
Proof.
  split; [apply attentive_unbroken; apply plain_reach; vm_compute; reflexivity|]. eexists. split; [vm_compute; reflexivity|]. vm_compute. auto.
Qed.
