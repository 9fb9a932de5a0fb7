(** * PropsTraffic: what goes on between the queues of a network (C95, C96) *)
From Coq Require Import List ZArith QArith Bool Permutation Arith Lia Sorted.
From Verif Require Import Base Queue SpecQueue QueueData SpecLine SpecLittle Network SpecNet SpecRefine SpecTraffic Traffic Tandem NetExamples PropsNet1 PropsNet2 PropsLine.
Import ListNotations.
Open Scope Z_scope.

(** ** C95: whoever leaves a queue comes to a next one at once *)

(** There is one list of moves, in the order of time, along the edges of the
    graph, that says for every queue, by the history of its calls, who left
    it and when, and, if the queue made no agents of its own, who came to it
    and when. *)
Theorem C95_moves : forall n0 n1 n, well_made n0 -> nreach usual n0 n1 -> nreach recording n1 n ->
  exists M logs, StronglySorted in_order M /\ (forall m, In m M -> eLe (m_when m) (nt_t n) /\ follows n (m_from m) (m_to m)) /\
  forall k q1 q, get (nt_queues n1) k = Some q1 -> get (nt_queues n) k = Some q -> pristine q1 -> c_class (q_cfg q1) <> CNull ->
    exists q2, exec (calls_of (logs k)) q1 = Ok (logs k, q2) /\ bare q2 = bare q /\
      all_calls orderly (logs k) /\ Forall keeps_data (calls_of (logs k)) /\ (limitless (nt_queues n1) -> all_calls undelayed (logs k)) /\
      went (logs k) = sent_by k M /\ (q_oarr q = 0 -> came (logs k) = sent_to k M).
Proof. exact traffic. Qed.
Print Assumptions C95_moves.

(** By the collected data: if all that goes to the queues [B] comes from the
    queues [A] (for example: all edges into a vertex, and edges out of it),
    the agents that came to [B] are agents that left [A], at the moments at
    which they left; all of them, if there is nowhere else to go. *)
Theorem C95_crossing : forall n0 n1 n, well_made n0 -> nreach usual n0 n1 -> nreach recording n1 n ->
  exists V : nat -> list visit,
  (forall k q1 q, get (nt_queues n1) k = Some q1 -> get (nt_queues n) k = Some q -> pristine q1 -> c_class (q_cfg q1) <> CNull -> c_class (q_cfg q1) <> CResource ->
     eLt (Fin 0) (q_servers q1) -> q_collect q1 = true ->
     lawful (q_servers q1) (room q1) (V k) /\ (forall i, map row_times (rows_of (q_data q) i) = map visit_times (visits_of i (V k)))) /\
  forall A B, NoDup A -> NoDup B ->
    (forall k, In k A -> exists q1, get (nt_queues n1) k = Some q1 /\ pristine q1 /\ c_class (q_cfg q1) <> CNull /\ c_class (q_cfg q1) <> CResource /\ eLt (Fin 0) (q_servers q1)) ->
    (forall k, In k B -> exists q1 q, get (nt_queues n1) k = Some q1 /\ get (nt_queues n) k = Some q /\ pristine q1 /\ c_class (q_cfg q1) <> CNull /\ q_oarr q = 0) ->
    (forall k b, In b B -> follows n k b -> In k A) ->
    exists rest, Permutation (flat_map (fun k => goings (V k)) A) (flat_map (fun k => comings (V k)) B ++ rest) /\
      ((forall k b, In k A -> follows n k b -> In b B) -> rest = []).
Proof. exact crossing. Qed.
Print Assumptions C95_crossing.

(** ** C96: stations with one server in a row *)

(** Agent [j] comes to station [s + 1] when it leaves station [s]; its service
    begins there when it has come and its predecessor has gone, and ends when
    the service function says so. The collected data are these times. *)
Theorem C96_tandem : forall n0 n1 n ks, well_made n0 -> nreach usual n0 n1 -> limitless (nt_queues n1) -> nreach recording n1 n ->
  in_a_row n ks -> (forall s, (s < length ks)%nat -> exists q1 q, station_at n1 n ks s q1 q /\
    pristine q1 /\ c_class (q_cfg q1) = CServer /\ q_servers q1 = Fin 1 /\ q_collect q1 = true /\ ((0 < s)%nat -> q_oarr q = 0)) ->
  exists (L : nat -> list visit) (a : nat -> ext), forall srv : nat -> nat -> ext -> ext,
  (forall s q1 q j, station_at n1 n ks s q1 q -> srv s j = c_srv (q_cfg q1) (q_is q1 + j)%nat) ->
  forall s q1 q, station_at n1 n ks s q1 q ->
    (forall i, map row_times (rows_of (q_data q) i) = map visit_times (visits_of i (L s))) /\
    (forall j v, nth_error (L s) j = Some v -> v_in v = true /\ v_arr v = moment srv a s j /\ on_plan (nt_t n) v (begins srv a s j, moment srv a (S s) j)) /\
    ((S s < length ks)%nat -> (length (L (S s)) <= length (L s))%nat /\ forall j v, nth_error (L s) j = Some v ->
      match nth_error (L (S s)) j with Some w => v_id w = v_id v /\ v_dep v = Some (v_arr w) | None => v_dep v = None end).
Proof. exact tandem. Qed.
Print Assumptions C96_tandem.

(** ** Examples *)

(** What [follows] says, from the ends of the edges. *)
Lemma follows_ends n k e tg out : map (fun q => c_tgt (q_cfg q)) (nt_queues n) = tg -> nt_out n = out -> follows n k e ->
  exists t l, nth_error tg k = Some t /\ nth_error out t = Some l /\ In e l.
Proof. intros <- <- (q & l & G & O & I). exists (c_tgt (q_cfg q)), l. split; [unfold get in G; rewrite nth_error_map, G; reflexivity|]. split; [exact O|exact I]. Qed.

(** Two edges into vertex 2, a LossQueue, a QueueServer and an exit out of it. *)
Definition crossroads : net :=
  build [ (net_cfg CServer 0 2 0 1 (steps [] 2) (steps [] 3) KAgent Inf, Fin 2);
          (net_cfg CServer 1 2 1 1 (steps [] 3) (steps [1; 4] 2) KAgent Inf, Fin 1);
          (net_cfg CLoss 2 3 2 1 (steps [] 1) (steps [] 6) KAgent Inf, Fin 1);
          (net_cfg CServer 2 4 3 1 (steps [] 1) (steps [] 3) KAgent Inf, Fin 1);
          (net_cfg CNull 3 5 4 0 (steps [] 1) (steps [] 1) KAgent Inf, Fin 1);
          (net_cfg CNull 4 5 5 0 (steps [] 1) (steps [] 1) KAgent Inf, Fin 1) ]
        [[0]; [1]; [2; 3]; [4]; [5]; []]%nat Inf true half.
Lemma crossroads_made : well_made crossroads.
Proof. apply build_made. made. Qed.
Definition crossed : net := reached (KInit [0; 1]%nat :: sims 24) crossroads.
Definition rows_at (n : net) (k : nat) (ids : list aid) : list (aid * (ext * ext * ext)) :=
  match get (nt_queues n) k with Some q => flat_map (fun i => map (fun r => (i, row_times r)) (rows_of (q_data q) i)) ids | None => [] end.
Definition seen95 : list aid := map (fun j => (0%nat, Z.of_nat j)) (seq 0 10) ++ map (fun j => (1%nat, Z.of_nat j)) (seq 0 10).
Example C95_example_data : nt_t crossed = Fin 16 /\ map (fun k => rows_at crossed k seen95) [0; 1; 2; 3]%nat =
  [ [(0%nat, 0, (Fin 2, Fin 2, Fin 11)); (0%nat, 1, (Fin 4, Fin 4, Fin 7)); (0%nat, 2, (Fin 6, Fin 7, Fin 0)); (0%nat, 3, (Fin 8, Fin 11, Fin 0));
     (0%nat, 4, (Fin 10, Fin 0, Fin 0)); (0%nat, 5, (Fin 12, Fin 0, Fin 0)); (0%nat, 6, (Fin 14, Fin 0, Fin 0))];
    [(1%nat, 0, (Fin 3, Fin 3, Fin 4)); (1%nat, 1, (Fin 6, Fin 6, Fin 10)); (1%nat, 2, (Fin 9, Fin 10, Fin 0)); (1%nat, 3, (Fin 12, Fin 0, Fin 0)); (1%nat, 4, (Fin 15, Fin 0, Fin 0))];
    [(1%nat, 0, (Fin 4, Fin 4, Fin 10)); (1%nat, 1, (Fin 10, Fin 10, Fin 16))];
    [(0%nat, 0, (Fin 11, Fin 11, Fin 14)); (0%nat, 1, (Fin 7, Fin 7, Fin 10))] ].
Proof. vm_compute. split; reflexivity. Qed.

Example C95_example : well_made crossroads /\ nreach recording crossroads crossed /\
  (forall k, In k [0; 1]%nat -> exists q1, get (nt_queues crossroads) k = Some q1 /\ pristine q1 /\ c_class (q_cfg q1) <> CNull /\ c_class (q_cfg q1) <> CResource /\ eLt (Fin 0) (q_servers q1)) /\
  (forall k, In k [2; 3]%nat -> exists q1 q, get (nt_queues crossroads) k = Some q1 /\ get (nt_queues crossed) k = Some q /\ pristine q1 /\ c_class (q_cfg q1) <> CNull /\ q_oarr q = 0) /\
  (forall k b, In b [2; 3]%nat -> follows crossed k b -> In k [0; 1]%nat) /\ (forall k b, In k [0; 1]%nat -> follows crossed k b -> In b [2; 3]%nat).
Proof.
  assert (TG : map (fun q => c_tgt (q_cfg q)) (nt_queues crossed) = [2; 2; 3; 4; 5; 5]%nat) by (vm_compute; reflexivity).
  assert (OU : nt_out crossed = [[0]; [1]; [2; 3]; [4]; [5]; []]%nat) by (vm_compute; reflexivity).
  split; [exact crossroads_made|]. split; [apply plain_recording; vm_compute; reflexivity|]. split; [|split; [|split]].
  - intros k [<-|[<-|[]]]; eexists; (split; [reflexivity|]); (split; [left; repeat eexists|]); (split; [discriminate|]); (split; [discriminate|apply eltb_lt; reflexivity]).
  - intros k K. destruct (get (nt_queues crossed) k) as [q|] eqn:G; [|destruct K as [<-|[<-|[]]]; vm_compute in G; discriminate].
    assert (X : option_map q_oarr (get (nt_queues crossed) k) = Some 0) by (destruct K as [<-|[<-|[]]]; vm_compute; reflexivity). rewrite G in X.
    assert (O : q_oarr q = 0) by (cbn in X; congruence).
    destruct K as [<-|[<-|[]]]; do 2 eexists; (split; [reflexivity|]); (split; [reflexivity|]); (split; [left; repeat eexists|]); (split; [discriminate|exact O]).
  - intros k b B F. destruct (follows_ends _ _ _ _ _ TG OU F) as (t & l & T & O & I). clear - B T O I.
    do 6 (destruct k as [|k]; [injection T as <-; injection O as <-; cbn in *; intuition lia|]). destruct k; discriminate.
  - intros k b B F. destruct (follows_ends _ _ _ _ _ TG OU F) as (t & l & T & O & I). clear - B T O I.
    do 6 (destruct k as [|k]; [injection T as <-; injection O as <-; cbn in *; intuition lia|]). destruct k; discriminate.
Qed.

(** Three stations with one server. *)
Definition three_stations : net :=
  build [ (net_cfg CServer 0 1 0 1 (steps [1; 1; 4] 1) (steps [3; 1] 2) KAgent (Fin 5), Fin 1);
          (net_cfg CServer 1 2 1 1 (steps [] 1) (steps [2; 5] 1) KAgent Inf, Fin 1);
          (net_cfg CServer 2 3 2 1 (steps [] 1) (steps [1; 1; 6] 4) KAgent Inf, Fin 1);
          (net_cfg CNull 3 4 3 0 (steps [] 1) (steps [] 1) KAgent Inf, Fin 1) ]
        [[0]; [1]; [2]; [3]; []]%nat Inf true half.
Lemma three_stations_made : well_made three_stations.
Proof. apply build_made. made. Qed.
Definition passed : net := reached (KInit [0%nat] :: sims 15) three_stations.
Example C96_example_data : nt_t passed = Fin 12 /\ map (fun k => rows_at passed k seen95) [0; 1; 2]%nat =
  [ [(0%nat, 0, (Fin 1, Fin 1, Fin 4)); (0%nat, 1, (Fin 2, Fin 4, Fin 5)); (0%nat, 2, (Fin 6, Fin 6, Fin 8)); (0%nat, 3, (Fin 7, Fin 8, Fin 10)); (0%nat, 4, (Fin 8, Fin 10, Fin 12))];
    [(0%nat, 0, (Fin 4, Fin 4, Fin 6)); (0%nat, 1, (Fin 5, Fin 6, Fin 11)); (0%nat, 2, (Fin 8, Fin 11, Fin 12)); (0%nat, 3, (Fin 10, Fin 12, Fin 0)); (0%nat, 4, (Fin 12, Fin 0, Fin 0))];
    [(0%nat, 0, (Fin 6, Fin 6, Fin 7)); (0%nat, 1, (Fin 11, Fin 11, Fin 12)); (0%nat, 2, (Fin 12, Fin 12, Fin 0))] ].
Proof. vm_compute. split; reflexivity. Qed.

Definition srv96 (s j : nat) : ext -> ext := match s with O => steps [3; 1] 2 j | 1%nat => steps [2; 5] 1 j | _ => steps [1; 1; 6] 4 j end.
Definition first96 (j : nat) : ext := Fin (nth j [1; 2; 6; 7; 8] 0).
(** The recursion, agent by agent: when it comes to the stations, and when it
    leaves the last one. *)
Example C96_example_times : map (fun j => map (fun s => moment srv96 first96 s j) [0; 1; 2; 3]%nat) [0; 1; 2; 3; 4]%nat =
  [[Fin 1; Fin 4; Fin 6; Fin 7]; [Fin 2; Fin 5; Fin 11; Fin 12]; [Fin 6; Fin 8; Fin 12; Fin 18]; [Fin 7; Fin 10; Fin 13; Fin 22]; [Fin 8; Fin 12; Fin 14; Fin 26]] /\
  map (fun j => map (fun s => begins srv96 first96 s j) [0; 1; 2]%nat) [0; 1; 2; 3; 4]%nat =
  [[Fin 1; Fin 4; Fin 6]; [Fin 4; Fin 6; Fin 11]; [Fin 6; Fin 11; Fin 12]; [Fin 8; Fin 12; Fin 18]; [Fin 10; Fin 13; Fin 22]].
Proof. vm_compute. split; reflexivity. Qed.

Example C96_example : well_made three_stations /\ limitless (nt_queues three_stations) /\ nreach recording three_stations passed /\ in_a_row passed [0; 1; 2]%nat /\
  (forall s, (s < 3)%nat -> exists q1 q, station_at three_stations passed [0; 1; 2]%nat s q1 q /\
    pristine q1 /\ c_class (q_cfg q1) = CServer /\ q_servers q1 = Fin 1 /\ q_collect q1 = true /\ ((0 < s)%nat -> q_oarr q = 0)) /\
  (forall s q1 q j, station_at three_stations passed [0; 1; 2]%nat s q1 q -> srv96 s j = c_srv (q_cfg q1) (q_is q1 + j)%nat).
Proof.
  assert (TG : map (fun q => c_tgt (q_cfg q)) (nt_queues passed) = [1; 2; 3; 4]%nat) by (vm_compute; reflexivity).
  assert (OU : nt_out passed = [[0]; [1]; [2]; [3]; []]%nat) by (vm_compute; reflexivity).
  split; [exact three_stations_made|]. split; [|split; [apply plain_recording; vm_compute; reflexivity|split; [|split]]].
  - intros q [<-|[<-|[<-|[<-|[]]]]]; [left|left|left|right]; reflexivity.
  - intros s k k' K K'. split; intros x F; destruct (follows_ends _ _ _ _ _ TG OU F) as (t & l & T & O & I); clear - K K' T O I.
    + destruct s as [|[|s]]; [| |destruct s as [|[|s]]; discriminate]; injection K as <-; injection K' as <-; injection T as <-; injection O as <-; cbn in I; lia.
    + destruct s as [|[|s]]; [injection K as <-; injection K' as <-|injection K as <-; injection K' as <-|destruct s as [|[|s]]; discriminate];
        (do 4 (destruct x as [|x]; [injection T as <-; injection O as <-; cbn in I; intuition lia|])); destruct x; discriminate.
  - intros s LT. destruct (get (nt_queues passed) s) as [q|] eqn:G; [|do 3 (destruct s as [|s]; [vm_compute in G; discriminate|]); lia].
    assert (X : (0 < s)%nat -> option_map q_oarr (get (nt_queues passed) s) = Some 0) by (intro P; destruct s as [|[|[|s]]]; [lia|vm_compute; reflexivity|vm_compute; reflexivity|lia]). rewrite G in X.
    assert (O : (0 < s)%nat -> q_oarr q = 0) by (intro P; specialize (X P); cbn in X; congruence).
    destruct s as [|[|[|s]]]; [| | |lia]; do 2 eexists; (split; [eexists; split; [reflexivity|]; split; [reflexivity|exact G]|]); (split; [left; repeat eexists|]); repeat (split; [reflexivity|]); exact O.
  - intros s q1 q j (k & K & G1 & _). destruct s as [|[|[|s]]]; [injection K as <-|injection K as <-|injection K as <-|destruct s; discriminate]; injection G1 as <-; reflexivity.
Qed.
