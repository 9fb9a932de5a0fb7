(** * PropsLine: the recursion for the times of a queue with several servers
    (C77-C80) *)
From Coq Require Import List ZArith QArith Bool Permutation Arith Lia.
From Verif Require Import Base Queue SpecQueue QueueHist QueueClaims1 PropsQueue1 SpecLine LineClaims LineRows LineSolo LineNet
  Network SpecNet SpecRefine NetRefine NetExamples PropsNet1 PropsNet2.
Import ListNotations.
Open Scope Z_scope.

(** Two servers, room for one more in a LossQueue, an arrival every time
    unit; the services take 5, 1, 7, 2 and then 4 units. *)
Definition cfg77 (cl : qclass) : qcfg :=
  mkCfg cl 0%nat 1%nat 7%nat 1 (steps [] 1) (steps [5; 1; 7; 2] 4) KAgent (Fin 100) Inf (Fin 1) (Fin 4).
Definition queue77 (cl : qclass) : queue := new_queue (cfg77 cl) (Fin 2) true 9%nat.
Definition ops77 : list qop := OActive :: nexts 12.

Lemma queue77_new cl : cl = CServer \/ cl = CLoss -> pristine (queue77 cl) /\ forward (q_cfg (queue77 cl)) /\ eLt (Fin 0) (q_servers (queue77 cl)) /\ c_class (q_cfg (queue77 cl)) = cl.
Proof.
  intros CL. split; [left; repeat eexists|]. split; [split; apply steps_forward; reflexivity|]. split; [apply eltb_lt; destruct CL as [-> | ->]; reflexivity|reflexivity].
Qed.

(** ** C77: service begins at the first moment a server is free *)

Theorem C77_recursion : forall ops q0 log q n v, pristine q0 -> c_class (q_cfg q0) <> CNull -> c_class (q_cfg q0) <> CResource -> forward (q_cfg q0) ->
  eLt (Fin 0) (q_servers q0) -> exec ops q0 = Ok (log, q) -> all_calls orderly log ->
  nth_error (visits log) n = Some v -> v_in v = true ->
  first_free (q_servers q0) (ends (firstn n (visits log))) (v_arr v) (since v).
Proof. exact recursion. Qed.
Print Assumptions C77_recursion.

(** There is only one such time, and it can be computed. *)
Theorem C77_unique : forall c E a, eLt (Fin 0) c ->
  first_free c E a (free_time c E a) /\ forall s, first_free c E a s -> s = free_time c E a.
Proof.
  intros c E a C. split; [exact (free_time_first c E a C)|]. intros s H. exact (first_free_unique _ _ _ _ _ H (free_time_first c E a C)).
Qed.
Print Assumptions C77_unique.

Definition show77 (v : visit) := (snd (v_id v), v_arr v, v_in v, v_srv v, v_dep v).

(** The third agent comes at 3, when the second leaves: they begin at 3; the
    fourth waits from 4 to 6. *)
Example C77_example : exists log q, exec ops77 (queue77 CServer) = Ok (log, q) /\ all_calls orderly log /\ all_calls undelayed log /\
  map show77 (visits log) =
    [(0, Fin 1, true, Some (Fin 1), Some (Fin 6)); (1, Fin 2, true, Some (Fin 2), Some (Fin 3));
     (2, Fin 3, true, Some (Fin 3), None); (3, Fin 4, true, Some (Fin 6), Some (Fin 8));
     (4, Fin 5, true, Some (Fin 8), None); (5, Fin 6, true, None, None);
     (6, Fin 7, true, None, None); (7, Fin 8, true, None, None); (8, Fin 9, true, None, None)] /\
  ends (firstn 3 (visits log)) = [Fin 6; Fin 3; Inf] /\
  free_time (Fin 2) [Fin 6; Fin 3; Inf] (Fin 4) = Fin 6.
Proof.
  do 2 eexists. split; [vm_compute; reflexivity|]. split; [repeat constructor; vm_compute; tauto|]. split; [repeat constructor; vm_compute; tauto|].
  vm_compute. auto.
Qed.

(** The observer misses nobody: the visits are those of the agents that were
    let in and of those that were turned away, each in their order. *)
Theorem C77_visits : forall log,
  map v_id (filter v_in (visits log)) = admitted log /\ map v_id (filter (fun v => negb (v_in v)) (visits log)) = turned_away log.
Proof. exact visits_ids. Qed.
Print Assumptions C77_visits.

(** The end of the service of the n-th agent let in is the n-th value of
    service_f, asked at the moment the service begins. *)
Theorem C77_services : forall ops q0 log q n v s, pristine q0 -> c_class (q_cfg q0) <> CNull -> c_class (q_cfg q0) <> CResource -> forward (q_cfg q0) ->
  eLe (Fin 0) (q_servers q0) -> exec ops q0 = Ok (log, q) -> all_calls undelayed log ->
  nth_error (visits log) n = Some v -> v_srv v = Some s ->
  let d := c_srv (q_cfg q0) (q_is q0 + length (filter v_in (firstn n (visits log))))%nat s in
  match v_dep v with Some e => e = d | None => eLe (q_now q) d end.
Proof. exact services. Qed.
Print Assumptions C77_services.

(** All times of service, from the times of arrival alone. *)
Theorem C77_plan : forall ops q0 log q, pristine q0 -> c_class (q_cfg q0) <> CNull -> c_class (q_cfg q0) <> CResource -> forward (q_cfg q0) ->
  eLt (Fin 0) (q_servers q0) -> exec ops q0 = Ok (log, q) -> all_calls undelayed log ->
  Forall2 (on_plan (q_now q)) (filter v_in (visits log))
    (plan (q_servers q0) (c_srv (q_cfg q0)) (q_is q0) [] (map v_arr (filter v_in (visits log)))).
Proof. exact planned. Qed.
Print Assumptions C77_plan.

Example C77_plan_example : exists log q, exec ops77 (queue77 CServer) = Ok (log, q) /\ q_now q = Fin 9 /\ q_is (queue77 CServer) = 0%nat /\
  plan (Fin 2) (c_srv (cfg77 CServer)) 0 [] (map v_arr (visits log)) =
    [(Fin 1, Fin 6); (Fin 2, Fin 3); (Fin 3, Fin 10); (Fin 6, Fin 8); (Fin 8, Fin 12); (Fin 10, Fin 14); (Fin 12, Fin 16); (Fin 14, Fin 18); (Fin 16, Fin 20)].
Proof. do 2 eexists. split; [vm_compute; reflexivity|]. vm_compute. auto. Qed.

(** ** C78: who is turned away *)

(** An agent is let in only if fewer than the capacity of those who came
    before leave later, and turned away only if at least so many leave not
    before they come. *)
Theorem C78_room : forall ops q0 log q n v, pristine q0 -> c_class (q_cfg q0) <> CNull -> c_class (q_cfg q0) <> CResource -> forward (q_cfg q0) ->
  eLe (Fin 0) (q_servers q0) -> exec ops q0 = Ok (log, q) -> all_calls orderly log ->
  nth_error (visits log) n = Some v ->
  if v_in v then eLt (Fin (after (ends (firstn n (visits log))) (v_arr v))) (room q0)
  else eLe (room q0) (Fin (from (ends (firstn n (visits log))) (v_arr v))).
Proof. exact losses. Qed.
Print Assumptions C78_room.

(** Agents 4, 5 and 7 find three others; agents 5 and 7 come at the moment
    at which one of these leaves, and are still turned away. *)
Example C78_example : exists log q, exec ops77 (queue77 CLoss) = Ok (log, q) /\ all_calls orderly log /\ room (queue77 CLoss) = Fin 3 /\
  map show77 (visits log) =
    [(0, Fin 1, true, Some (Fin 1), Some (Fin 6)); (1, Fin 2, true, Some (Fin 2), Some (Fin 3));
     (2, Fin 3, true, Some (Fin 3), None); (3, Fin 4, true, Some (Fin 6), Some (Fin 8));
     (4, Fin 5, false, None, None); (5, Fin 6, false, None, None);
     (6, Fin 7, true, Some (Fin 8), None); (7, Fin 8, false, None, None); (8, Fin 9, true, None, None)].
Proof.
  do 2 eexists. split; [vm_compute; reflexivity|]. split; [repeat constructor; vm_compute; tauto|]. vm_compute. auto.
Qed.

(** ** C79: the collected data are the times of the visits *)

Theorem C79_rows : forall ops q0 log q i, pristine q0 -> c_class (q_cfg q0) <> CNull -> c_class (q_cfg q0) <> CResource -> forward (q_cfg q0) ->
  eLe (Fin 0) (q_servers q0) -> q_collect q0 = true -> exec ops q0 = Ok (log, q) -> all_calls orderly log -> Forall keeps_data ops ->
  map row_times (rows_of (q_data q) i) = map visit_times (visits_of i (visits log)).
Proof. exact rows_visits. Qed.
Print Assumptions C79_rows.

(** A queue that is simulated on its own: row j of the data is given by the
    recursion, from arrival_f and service_f alone. *)
Theorem C79_alone : forall n q0 log q, pristine q0 -> c_class (q_cfg q0) <> CNull -> c_class (q_cfg q0) <> CResource -> forward (q_cfg q0) ->
  eLt (Fin 0) (q_servers q0) -> q_collect q0 = true -> exec (OActive :: repeat ONext n) q0 = Ok (log, q) ->
  let m := (length (admitted log) + length (turned_away log))%nat in
  let times := map (chain (c_arr (q_cfg q0)) (q_ia q0) (Fin 0)) (seq 0 m) in
  let ps := lplan (q_servers q0) (room q0) (c_srv (q_cfg q0)) (q_is q0) [] times in
  forall j a p, nth_error times j = Some a -> nth_error ps j = Some p ->
  exists r, rows_of (q_data q) (c_idx (q_cfg q0), Z.of_nat j) = [r] /\ r_arr r = a /\ row_planned (q_now q) r p.
Proof. exact solo_rows. Qed.
Print Assumptions C79_alone.

Example C79_example : exists log q, exec ops77 (queue77 CLoss) = Ok (log, q) /\ ops77 = OActive :: repeat ONext 12 /\
  all_calls orderly log /\ Forall keeps_data ops77 /\ q_collect (queue77 CLoss) = true /\ length (admitted log) = 6%nat /\ length (turned_away log) = 3%nat /\ q_now q = Fin 9 /\
  map (chain (c_arr (cfg77 CLoss)) 0 (Fin 0)) (seq 0 9) = map Fin [1; 2; 3; 4; 5; 6; 7; 8; 9] /\
  lplan (Fin 2) (Fin 3) (c_srv (cfg77 CLoss)) 0 [] (map Fin [1; 2; 3; 4; 5; 6; 7; 8; 9]) =
    [Some (Fin 1, Fin 6); Some (Fin 2, Fin 3); Some (Fin 3, Fin 10); Some (Fin 6, Fin 8); None; None; Some (Fin 8, Fin 12); None; Some (Fin 10, Fin 14)] /\
  map row_times (flat_map (fun j => rows_of (q_data q) (7%nat, j)) [0; 1; 2; 3; 4; 5; 6; 7; 8]) =
    [(Fin 1, Fin 1, Fin 6); (Fin 2, Fin 2, Fin 3); (Fin 3, Fin 3, Fin 0); (Fin 4, Fin 6, Fin 8); (Fin 5, Fin 0, Fin 0); (Fin 6, Fin 0, Fin 0); (Fin 7, Fin 8, Fin 0); (Fin 8, Fin 0, Fin 0); (Fin 9, Fin 0, Fin 0)].
Proof.
  do 2 eexists. split; [vm_compute; reflexivity|]. split; [reflexivity|]. split; [repeat constructor; vm_compute; tauto|]. split; [repeat constructor|].
  vm_compute. repeat split.
Qed.

(** ** C80: the queues of a network *)

(** For every queue of a network that collects data from the start there is
    a list of visits that obeys the recursion and whose times are the
    collected data; who waits and who is served are those whose visits are
    not finished. *)
Theorem C80_network : forall n0 n1 n2 k q1 q, well_made n0 -> nreach usual n0 n1 -> get (nt_queues n1) k = Some q1 ->
  pristine q1 -> c_class (q_cfg q1) <> CNull -> c_class (q_cfg q1) <> CResource -> eLt (Fin 0) (q_servers q1) -> q_collect q1 = true ->
  nreach recording n1 n2 -> get (nt_queues n2) k = Some q ->
  exists l, lawful (q_servers q1) (room q1) l /\
    (forall i, map row_times (rows_of (q_data q) i) = map visit_times (visits_of i l)) /\
    ids (waiting q) = map v_id (filter v_waits l) /\ Permutation (ids (in_service q)) (map v_id (filter v_served l)).
Proof. exact network_visits. Qed.
Print Assumptions C80_network.

Lemma plain_recording l n0 : usual_calls l n0 = true -> forallb plain_call l = true -> nreach recording n0 (reached l n0).
Proof.
  intros U P. destruct (usual_calls_Ok _ _ U) as (n & E). unfold reached. rewrite E. clear - U P E.
  assert (R : nreach recording n0 n0) by apply nreach_here. revert R U P E. generalize n0 at 2 3 4.
  induction l as [|c l IH]; intros n1 R U P E; cbn [usual_calls calls forallb] in *; [injection E as <-; exact R|].
  apply andb_true_iff in U as [U1 U2]. apply andb_true_iff in P as [P1 P2]. destruct (run_call c n1) as [n2|] eqn:C; [|discriminate].
  apply (IH n2); [|assumption..]. apply (nreach_step _ _ n1 c); [exact R| |exact C].
  split; [split|].
  - destruct c as [sel| | |[]]; cbn [usual usualb] in *; try exact Logic.I; [destruct (nt_init n1); [discriminate|reflexivity]|exact U1].
  - intros ->. discriminate.
  - destruct c as [sel| | |[]]; try exact Logic.I; discriminate.
Qed.

(** Queue 0 has two servers and feeds a LossQueue without a buffer: the
    third agent is kept from 4 to 10. *)
Example C80_example : well_made (two_ways_net Inf true) /\ nreach recording (two_ways_net Inf true) (ex_at 16) /\
  exists q1 q, get (nt_queues (two_ways_net Inf true)) 0 = Some q1 /\ pristine q1 /\ q_servers q1 = Fin 2 /\ q_collect q1 = true /\
    get (nt_queues (ex_at 16)) 0 = Some q /\
    map row_times (flat_map (fun j => rows_of (q_data q) (0%nat, j)) [0; 1; 2; 3; 4; 5]) =
      [(Fin 1, Fin 1, Fin 3); (Fin 2, Fin 2, Fin 5); (Fin 3, Fin 3, Fin 10); (Fin 4, Fin 5, Fin 0); (Fin 5, Fin 10, Fin 0); (Fin 6, Fin 0, Fin 0)].
Proof.
  split; [apply two_ways_made|]. split; [apply (plain_recording (KInit [0%nat] :: sims 16)); vm_compute; reflexivity|].
  do 2 eexists. split; [reflexivity|]. split; [left; repeat eexists|]. split; [reflexivity|]. split; [reflexivity|].
  split; [vm_compute; reflexivity|]. vm_compute. reflexivity.
Qed.
