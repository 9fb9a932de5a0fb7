(** * PropsLine2: one server and infinitely many (C77), Little's law (C81)
    and more servers (C82) *)
From Coq Require Import List ZArith QArith Bool Permutation Arith Lia.
From Verif Require Import Base Queue SpecQueue QueueHist QueueClaims1 PropsQueue1 SpecLine LineClaims SpecLittle LineMore NetExamples PropsLine.
Import ListNotations.
Open Scope Z_scope.

(** ** C77 with one server: Lindley's recursion *)

Theorem C77_lindley : forall ops q0 log q n v, pristine q0 -> c_class (q_cfg q0) <> CNull -> c_class (q_cfg q0) <> CResource -> forward (q_cfg q0) ->
  q_servers q0 = Fin 1 -> exec ops q0 = Ok (log, q) -> all_calls orderly log ->
  nth_error (visits log) n = Some v -> v_in v = true ->
  since v = match before (firstn n (visits log)) with Some w => later (v_arr v) (until w) | None => v_arr v end.
Proof. exact lindley. Qed.
Print Assumptions C77_lindley.

(** Arrivals at 1, 2, 3, ...; services of 5, 1, 7, 2, 4, ... units; the
    second service is delayed until 8. *)
Definition single : queue := new_queue (cfg77 CLoss) (Fin 1) true 9%nat.
Definition ops_single : list qop := OActive :: nexts 8 ++ [ODelay (Some (Fin 8))] ++ nexts 11.
Example C77_lindley_example : pristine single /\ forward (q_cfg single) /\ exists log q, exec ops_single single = Ok (log, q) /\ all_calls orderly log /\
  map show77 (visits log) =
    [(0, Fin 1, true, Some (Fin 1), Some (Fin 6)); (1, Fin 2, true, Some (Fin 6), Some (Fin 8)); (2, Fin 3, false, None, None);
     (3, Fin 4, false, None, None); (4, Fin 5, false, None, None); (5, Fin 6, false, None, None); (6, Fin 7, true, Some (Fin 8), Some (Fin 15));
     (7, Fin 8, false, None, None); (8, Fin 9, true, Some (Fin 15), None)] ++ skipn 9 (map show77 (visits log)).
Proof.
  split; [left; repeat eexists|]. split; [split; apply steps_forward; reflexivity|]. do 2 eexists. split; [vm_compute; reflexivity|].
  split; [unfold all_calls; repeat (apply Forall_cons; [vm_compute; intuition discriminate|]); apply Forall_nil|]. vm_compute. reflexivity.
Qed.

(** With infinitely many servers nobody waits. *)
Theorem C77_unlimited : forall ops q0 log q n v, pristine q0 -> c_class (q_cfg q0) <> CNull -> c_class (q_cfg q0) <> CResource -> forward (q_cfg q0) ->
  q_servers q0 = Inf -> exec ops q0 = Ok (log, q) -> all_calls orderly log ->
  nth_error (visits log) n = Some v -> v_in v = true -> v_srv v = Some (v_arr v).
Proof. exact unlimited. Qed.
Print Assumptions C77_unlimited.

Example C77_unlimited_example : let q0 := new_queue (cfg77 CServer) Inf true 9%nat in pristine q0 /\ q_servers q0 = Inf /\
  exists log q, exec ops77 q0 = Ok (log, q) /\ all_calls orderly log /\ q_nsys q = 6 /\ length (visits log) = 9%nat.
Proof.
  split; [left; repeat eexists|]. split; [reflexivity|]. do 2 eexists. split; [vm_compute; reflexivity|].
  split; [repeat constructor; vm_compute; tauto|]. vm_compute. auto.
Qed.

(** ** C81: Little's law *)

(** The area under the number of agents in the queue, in the line and in
    service is the sum of the times that they spend in the queue, in the
    line and in service. *)
Theorem C81_areas : forall ops q0 log q, pristine q0 -> c_class (q_cfg q0) <> CNull -> c_class (q_cfg q0) <> CResource -> forward (q_cfg q0) ->
  eLe (Fin 0) (q_servers q0) -> exec ops q0 = Ok (log, q) -> all_calls orderly log ->
  area q_nsys log = total (stay (q_now q)) (visits log) /\
  area nwaiting log = total (wait (q_now q)) (visits log) /\
  area serving log = total (work (q_now q)) (visits log).
Proof. exact areas. Qed.
Print Assumptions C81_areas.

(** All times are finite. *)
Theorem C81_finite : forall ops q0 log q, pristine q0 -> c_class (q_cfg q0) <> CNull -> c_class (q_cfg q0) <> CResource -> forward (q_cfg q0) ->
  eLe (Fin 0) (q_servers q0) -> exec ops q0 = Ok (log, q) -> all_calls orderly log ->
  q_now q <> Inf /\ forall v, In v (visits log) -> v_arr v <> Inf /\ v_srv v <> Some Inf /\ v_dep v <> Some Inf.
Proof. exact finite_times. Qed.
Print Assumptions C81_finite.

Example C81_example : exists log q, exec ops77 (queue77 CLoss) = Ok (log, q) /\ all_calls orderly log /\
  area q_nsys log = 18 /\ area nwaiting log = 3 /\ area serving log = 15 /\ q_now q = Fin 9 /\
  map (stay (q_now q)) (visits log) = [5; 1; 6; 4; 0; 0; 2; 0; 0].
Proof.
  do 2 eexists. split; [vm_compute; reflexivity|]. split; [repeat constructor; vm_compute; tauto|]. vm_compute. repeat split.
Qed.

(** When nobody is left the area is the sum of the times from arrival to
    departure. *)
Theorem C81_little : forall ops q0 log q, pristine q0 -> c_class (q_cfg q0) <> CNull -> c_class (q_cfg q0) <> CResource -> forward (q_cfg q0) ->
  eLe (Fin 0) (q_servers q0) -> exec ops q0 = Ok (log, q) -> all_calls orderly log -> q_nsys q = 0 ->
  (forall v, In v (visits log) -> v_in v = true -> exists s e, v_srv v = Some s /\ v_dep v = Some e) /\
  area q_nsys log = total (fun v => fin (or_zero (v_dep v)) - fin (v_arr v)) (filter v_in (visits log)).
Proof. exact little. Qed.
Print Assumptions C81_little.

(** The same from the collected data of a QueueServer; [D] are the agents
    that have rows. *)
Theorem C81_data : forall ops q0 log q D, pristine q0 -> c_class (q_cfg q0) = CServer -> forward (q_cfg q0) ->
  eLe (Fin 0) (q_servers q0) -> q_collect q0 = true -> exec ops q0 = Ok (log, q) -> all_calls orderly log -> Forall keeps_data ops -> q_nsys q = 0 ->
  NoDup D -> (forall i, rows_of (q_data q) i <> [] -> In i D) ->
  area q_nsys log = total (fun i => total (fun r => fin (r_dep r) - fin (r_arr r)) (rows_of (q_data q) i)) D.
Proof. exact little_data. Qed.
Print Assumptions C81_data.

(** Five arrivals, then the queue is made inactive and runs empty. *)
Definition ops_empty : list qop := OActive :: nexts 5 ++ [OInactive] ++ nexts 12.
Example C81_little_example : exists log q, exec ops_empty (queue77 CServer) = Ok (log, q) /\ all_calls orderly log /\ Forall keeps_data ops_empty /\
  q_nsys q = 0 /\ q_departed q = 5 /\ area q_nsys log = 24 /\
  map show77 (visits log) =
    [(0, Fin 1, true, Some (Fin 1), Some (Fin 6)); (1, Fin 2, true, Some (Fin 2), Some (Fin 3)); (2, Fin 3, true, Some (Fin 3), Some (Fin 10));
     (3, Fin 4, true, Some (Fin 6), Some (Fin 8)); (4, Fin 5, true, Some (Fin 8), Some (Fin 12))].
Proof.
  do 2 eexists. split; [vm_compute; reflexivity|]. split; [repeat constructor; vm_compute; tauto|]. split; [repeat constructor|].
  vm_compute. repeat split.
Qed.

(** ** C82: more servers, shorter services or earlier arrivals delay nobody *)

Theorem C82_sooner : forall ops q0 log q ops' q0' log' q' n v v',
  pristine q0 -> c_class (q_cfg q0) <> CNull -> c_class (q_cfg q0) <> CResource -> forward (q_cfg q0) ->
  pristine q0' -> c_class (q_cfg q0') <> CNull -> c_class (q_cfg q0') <> CResource -> forward (q_cfg q0') ->
  eLt (Fin 0) (q_servers q0) -> eLe (q_servers q0) (q_servers q0') ->
  (forall i s s', eLe s' s -> eLe (c_srv (q_cfg q0') (q_is q0' + i)%nat s') (c_srv (q_cfg q0) (q_is q0 + i)%nat s)) ->
  exec ops q0 = Ok (log, q) -> all_calls undelayed log -> exec ops' q0' = Ok (log', q') -> all_calls undelayed log' ->
  (forall m w w', (m <= n)%nat -> nth_error (filter v_in (visits log)) m = Some w -> nth_error (filter v_in (visits log')) m = Some w' -> eLe (v_arr w') (v_arr w)) ->
  nth_error (filter v_in (visits log)) n = Some v -> nth_error (filter v_in (visits log')) n = Some v' ->
  (forall s, v_srv v = Some s -> match v_srv v' with Some s' => eLe s' s | None => eLe (q_now q') s end) /\
  (forall e, v_dep v = Some e -> match v_dep v' with Some e' => eLe e' e | None => eLe (q_now q') e end).
Proof. exact sooner. Qed.
Print Assumptions C82_sooner.

(** Two servers and three: agent 3 begins at 6 and at 4. *)
Example C82_example : exists log q log' q', exec ops77 (queue77 CServer) = Ok (log, q) /\ exec ops77 (new_queue (cfg77 CServer) (Fin 3) true 9%nat) = Ok (log', q') /\
  all_calls undelayed log /\ all_calls undelayed log' /\
  map v_arr (visits log) = map Fin [1; 2; 3; 4; 5; 6; 7; 8; 9] /\ map v_srv (visits log) = map (option_map Fin) [Some 1; Some 2; Some 3; Some 6; Some 8; None; None; None; None] /\
  map v_srv (visits log') = map (option_map Fin) [Some 1; Some 2; Some 3; Some 4; Some 6; Some 6; None; None; None].
Proof.
  do 4 eexists. split; [vm_compute; reflexivity|]. split; [vm_compute; reflexivity|]. split; [repeat constructor; vm_compute; tauto|]. split; [repeat constructor; vm_compute; tauto|].
  vm_compute. repeat split.
Qed.
