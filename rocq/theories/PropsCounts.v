(** * PropsCounts: what the counters of a network count (C97) *)
From Coq Require Import List ZArith QArith Lia Bool.
From Verif Require Import Base Queue SpecQueue Network SpecNet SpecRefine SpecLittleNet SpecCounts QueueInv Marks GraphBuild Counts NetExamples PropsNet1 PropsNet2 PropsLittleNet PropsLine.
Import ListNotations.
Open Scope Z_scope.

(** The calls of a history can be labelled: who came, who went from where to
    where, who was kept.  [num_departures] (queue_servers.py:586) of a queue
    is the number of those who went out of it; [num_arrivals] and
    [num_blocked] together (queue_servers.py:613, 862,
    queue_network.py:1323) are the queue's own agents and those who went
    into it or were kept from it, but for the agents that are still to come;
    the [blocked] of an agent (queue_network.py:1324) is how often it was
    kept. *)
Theorem C97_counters : forall n0 n1 p n, well_made n0 -> nreach usual n0 n1 ->
  (forall k q, get (nt_queues n1) k = Some q -> c_class (q_cfg q) <> CNull -> pristine q) -> passes unbroken n1 p n ->
  exists ls, story p n ls /\
    (forall k q, get (nt_queues n) k = Some q -> c_class (q_cfg q) <> CNull ->
       q_departed q = many (out_of k) ls /\
       (c_class (q_cfg q) <> CResource ->
        q_narr q + q_blocked q + Z.of_nat (length (scheduled q)) = q_oarr q + many (into k) ls + many (kept_from k) ls)) /\
    (forall k q a, get (nt_queues n) k = Some q -> In a (agents_at q) -> ag_blocked a = many (who_halts (ag_id a)) ls).
Proof.
  intros n0 n1 p n W R PR PA. destruct (counters_count _ _ _ _ W R PR PA) as (ls & ST & [TQ TM _]). exists ls. split; [exact ST|]. split.
  - intros k q G N. destruct (TQ _ _ G N) as [T1 T2]. split; [exact T1|]. intro NR. specialize (T2 NR). unfold load, zlen in T2. lia.
  - intros k q a G IA. destruct (TM _ _ G) as [_ _ A D L]. unfold agents_at in IA. rewrite !in_app_iff in IA.
    destruct IA as [IA|[IA|IA]]; [exact (A _ IA)|exact (D _ IA)|exact (L _ IA)].
Qed.
Print Assumptions C97_counters.

(** An agent that is turned away by a queue notes it: an InfoAgent in the statistics of that edge
    (queue_extentions.py:241-242), any other agent in [blocked]
    (agents.py:61-65).  Nothing else about the agent changes. *)
Theorem C97_turned_away : forall a q b, add_loss a q = Ok b ->
  ag_id b = ag_id a /\ ag_time b = ag_time a /\ ag_kind b = ag_kind a /\
  (ag_kind a <> KInfo -> ag_blocked b = ag_blocked a + 1 /\ ag_stats b = ag_stats a) /\
  (ag_kind a = KInfo -> ag_blocked b = ag_blocked a /\
     exists x y z, get (ag_stats a) (c_idx (q_cfg q)) = Some (x, y, z) /\ get (ag_stats b) (c_idx (q_cfg q)) = Some (x, y, z + 1) /\
       forall j, j <> c_idx (q_cfg q) -> get (ag_stats b) j = get (ag_stats a) j).
Proof.
  intros a q b H. unfold add_loss in H. destruct (ag_kind a) eqn:K;
    try (injection H as <-; repeat split; try assumption; try reflexivity; discriminate).
  destruct (get (ag_stats a) (c_idx (q_cfg q))) as [[[x y] z]|] eqn:G; [|discriminate]. cbn [of_option bind] in H.
  destruct (set (ag_stats a) (c_idx (q_cfg q)) (x, y, z + 1)) as [s|] eqn:E0; [|discriminate]. cbn [of_option bind] in H. injection H as <-.
  apply Base.set_Some in E0 as [L ->].
  do 2 (split; [reflexivity|]). split; [exact K|]. split; [congruence|]. intros _. split; [reflexivity|]. exists x, y, z. split; [reflexivity|].
  split; [apply get_upd_eq; exact L|]. intros j N. apply get_upd_neq. congruence.
Qed.
Print Assumptions C97_turned_away.

(** ** Examples *)

(** [two_ways_net] after thirty events: four times someone wanted to the
    LossQueue with one place and was kept; three got in, one of them had been
    kept once. *)
Definition calls97 : list ncall := KInit [0%nat] :: sims 30.
Example C97_example : well_made (two_ways_net Inf true) /\
  (forall k q, get (nt_queues (two_ways_net Inf true)) k = Some q -> c_class (q_cfg q) <> CNull -> pristine q) /\
  passes unbroken (two_ways_net Inf true) (along calls97 (two_ways_net Inf true)) (ex_at 30) /\
  map (fun q => (q_departed q, q_narr q, q_blocked q, q_oarr q, length (scheduled q))) (nt_queues (ex_at 30)) =
    [(6, 18, 0, 19, 1%nat); (2, 3, 4, 0, 0%nat); (0, 0, 0, 0, 0%nat); (0, 0, 0, 0, 0%nat)] /\
  map (fun q => map ag_blocked (in_service q)) (nt_queues (ex_at 30)) = [[0; 0]; [1]; []; []].
Proof.
  split; [apply two_ways_made|]. split.
  { intros k q G _. destruct k as [|[|[|[|[|k]]]]]; try discriminate; injection G as <-; left; repeat eexists. }
  split.
  { assert (X : passes recording (two_ways_net Inf true) (along calls97 (two_ways_net Inf true)) (ex_at 30)) by (apply (along_passes calls97); vm_compute; reflexivity).
    clear - X. induction X as [|l n c n' X IH OK H]; [constructor|]. eapply passes_step; [exact IH|apply OK|exact H]. }
  split; vm_compute; reflexivity.
Qed.

Example C97_turned_away_example : exists a q b, add_loss a q = Ok b /\ ag_kind a = KInfo /\ ag_stats a = [(1, 0, 0); (3, 2, 5)]%Z /\ ag_stats b = [(1, 0, 0); (3, 2, 6)]%Z.
Proof.
  exists (mkAgent (0%nat, 0) KInfo (Fin 4) 0 false false [(1, 0, 0); (3, 2, 5)] []), (new_queue (net_cfg CInfo 0 1 1 1 (steps [] 1) (steps [] 1) KInfo Inf) (Fin 1) true 2).
  eexists. repeat split; reflexivity.
Qed.
