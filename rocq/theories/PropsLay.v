(** * PropsLay: claim C103: what is known about queues has no influence *)
From Coq Require Import List ZArith QArith Bool Arith Lia.
From Verif Require Import Base Heap PQueue Queue QueueEffects Network SpecQueue SpecNet NetInv NetReach NetExamples SpecLay Lay LayNet.
Import ListNotations.
Open Scope Z_scope.

(** Whatever is done with an InfoQueue (or any other queue), the same can be
    done with the LossQueue, with Agents in place of InfoAgents, and comes to
    the same, collected data included. *)
Theorem C103_queue : forall l q q', run_ops l q = Ok q' -> run_ops (map lay_op l) (lay q) = Ok (lay q').
Proof. intros l q. exact (ops_lay l q). Qed.
Print Assumptions C103_queue.

Theorem C103_leaves : forall q r q', next_event q = Ok (r, q') -> next_event (lay q) = Ok (option_map lay_agent r, lay q').
Proof. intros q r q' H. exact (next_lay q (r, q') H). Qed.
Print Assumptions C103_leaves.

(** Who is where, and when: agents with their identities and times. *)
Definition faces (l : list agent) : list (aid * ext) := map (fun a => (ag_id a, ag_time a)) l.
Definition item_faces (l : list item) : list (option (aid * ext)) := map (fun i => match i with Sentinel => None | Ag a => Some (ag_id a, ag_time a) end) l.
Lemma faces_lay l : faces (map lay_agent l) = faces l.
Proof. unfold faces. rewrite map_map. apply map_ext. intro a. rewrite lay_id, lay_time. reflexivity. Qed.
Lemma item_faces_lay l : item_faces (map lay_item l) = item_faces l.
Proof. unfold item_faces. rewrite map_map. apply map_ext. intros [|a]; [reflexivity|]. cbn [lay_item]. rewrite lay_id, lay_time. reflexivity. Qed.

Theorem C103_observers : forall l q q', run_ops l q = Ok q' -> exists p, run_ops (map lay_op l) (lay q) = Ok p /\
  (c_class (q_cfg q) = CInfo -> c_class (q_cfg (lay q)) = CLoss) /\
  q_time p = q_time q' /\ q_now p = q_now q' /\ q_data p = q_data q' /\ q_servers p = q_servers q' /\ q_active p = q_active q' /\
  q_nsys p = q_nsys q' /\ q_narr p = q_narr q' /\ q_oarr p = q_oarr q' /\ q_total p = q_total q' /\ q_departed p = q_departed q' /\ q_blocked p = q_blocked q' /\
  number_queued p = number_queued q' /\ at_capacity p = at_capacity q' /\ next_event_description p = next_event_description q' /\
  faces (q_line p) = faces (q_line q') /\ item_faces (q_arr p) = item_faces (q_arr q') /\ item_faces (q_dep p) = item_faces (q_dep q') /\
  q_ia p = q_ia q' /\ q_is p = q_is q'.
Proof.
  intros l q q' H. exists (lay q'). split; [exact (ops_lay l q q' H)|]. split; [intro C; cbn [lay q_cfg lay_cfg c_class]; rewrite C; reflexivity|]. do 11 (split; [reflexivity|]).
  split; [apply number_lay|]. split; [apply capacity_lay|]. split; [apply description_lay|]. split; [apply faces_lay|]. split; [apply item_faces_lay|]. split; [apply item_faces_lay|]. split; reflexivity.
Qed.
Print Assumptions C103_observers.

(** Networks: every sequence of calls. *)
Theorem C103_network : forall l n n', calls l n = Ok n' -> calls l (lay_net n) = Ok (lay_net n').
Proof.
  induction l as [|c l IH]; intros n n' H; cbn [calls] in *; [injection H as <-; reflexivity|]. apply bind_Ok in H as (n1 & E & H). rewrite (call_lay c n n1 E). exact (IH _ _ H).
Qed.
Print Assumptions C103_network.

Theorem C103_net_observers : forall l n n', calls l n = Ok n' -> exists m, calls l (lay_net n) = Ok m /\
  nt_t m = nt_t n' /\ nt_events m = nt_events n' /\ nt_nagents m = nt_nagents n' /\ nt_heap m = nt_heap n' /\ nt_iu m = nt_iu n' /\ nt_ie m = nt_ie n' /\
  map q_data (nt_queues m) = map q_data (nt_queues n') /\ map q_time (nt_queues m) = map q_time (nt_queues n') /\ map q_blocked (nt_queues m) = map q_blocked (nt_queues n') /\
  map (fun q => faces (q_line q)) (nt_queues m) = map (fun q => faces (q_line q)) (nt_queues n') /\
  map (fun q => item_faces (q_arr q)) (nt_queues m) = map (fun q => item_faces (q_arr q)) (nt_queues n') /\
  map (fun q => item_faces (q_dep q)) (nt_queues m) = map (fun q => item_faces (q_dep q)) (nt_queues n').
Proof.
  intros l n n' H. exists (lay_net n'). split; [exact (C103_network l n n' H)|]. do 6 (split; [reflexivity|]). cbn [lay_net set_nt_queues nt_queues].
  do 5 (split; [rewrite map_map; apply map_ext; intro q; first [reflexivity|apply faces_lay|apply item_faces_lay]|]). rewrite map_map. apply map_ext. intro q. apply item_faces_lay.
Qed.
Print Assumptions C103_net_observers.

(** What somebody knows has no influence: states that differ in knowledge
    only lead to states that differ in knowledge only. *)
Theorem C103_no_influence : forall l n m n' m', lay_net n = lay_net m -> calls l n = Ok n' -> calls l m = Ok m' -> lay_net n' = lay_net m'.
Proof. intros l n m n' m' E H G. apply C103_network in H. apply C103_network in G. rewrite E, G in H. symmetry. exact (f_equal (fun r => match r with Ok x => x | Err _ => lay_net m' end) H). Qed.
Print Assumptions C103_no_influence.

(** A new network of InfoQueues becomes the new network of LossQueues. *)
Theorem C103_made : forall l out max bas u, lay_net (build l out max bas u) = build (map (fun p => (lay_cfg (fst p), snd p)) l) out max bas u.
Proof.
  intros l out max bas u.
  assert (Q : map lay (map (fun p => new_queue (fst p) (snd p) true (length l)) l) = map (fun p => new_queue (fst p) (snd p) true (length (map (fun p => (lay_cfg (fst p), snd p)) l))) (map (fun p => (lay_cfg (fst p), snd p)) l)).
  { rewrite !map_map, map_length. apply map_ext. intros [c s]. cbn [fst snd]. unfold new_queue, lay. cbn [q_cfg q_servers q_departed q_nsys q_data q_line q_collect q_arr q_dep q_narr q_oarr q_total q_active q_now q_time q_next_ct q_blocked q_over q_ia q_is lay_cfg c_class map lay_item].
    destruct (c_class c); reflexivity. }
  unfold build at 2. rewrite <- Q. unfold build, lay_net, new_net. cbn [set_nt_queues nt_queues]. rewrite !map_length. reflexivity.
Qed.
Print Assumptions C103_made.

(** ** Example *)

(** Two InfoQueues in a row, the second with one place and services of 6,
    and an exit.  Agents wait at the first one and are blocked by the second. *)
Definition informed : net :=
  build [ (net_cfg CInfo 0 1 0 1 (steps [1; 2] 3) (steps [2; 5] 1) KInfo Inf, Fin 1);
          (net_cfg CInfo 1 2 1 1 (steps [] 1) (steps [] 6) KInfo Inf, Fin 1);
          (net_cfg CNull 2 3 2 0 (steps [] 1) (steps [] 1) KAgent Inf, Fin 1) ]
        [[0]; [1]; [2]; []]%nat Inf true half.
Definition simple : net :=
  build [ (net_cfg CLoss 0 1 0 1 (steps [1; 2] 3) (steps [2; 5] 1) KAgent Inf, Fin 1);
          (net_cfg CLoss 1 2 1 1 (steps [] 1) (steps [] 6) KAgent Inf, Fin 1);
          (net_cfg CNull 2 3 2 0 (steps [] 1) (steps [] 1) KAgent Inf, Fin 1) ]
        [[0]; [1]; [2]; []]%nat Inf true half.

Definition with_net (r : res net) (f : net -> Prop) : Prop := match r with Ok n => f n | Err _ => False end.

Example C103_example :
  lay_net informed = simple /\
  with_net (calls (KInit [0%nat] :: sims 14) informed) (fun n => with_net (calls (KInit [0%nat] :: sims 14) simple) (fun m =>
    lay_net n = m /\ map q_data (nt_queues n) = map q_data (nt_queues m) /\ map q_blocked (nt_queues n) = [4; 1; 0] /\ map q_blocked (nt_queues m) = [4; 1; 0] /\
    map (fun q => map nr_time (q_net q)) (nt_queues n) = [[Fin (-1); Fin (-1); Fin (-1)]; [Fin 18; Fin (-1); Fin (-1)]; []] /\
    map q_net (nt_queues m) = [[]; []; []])).
Proof. split; [unfold informed; rewrite C103_made; reflexivity|]. vm_compute. repeat split. Qed.

(** The converse is false: an InfoQueue raises an exception at [deactive_t]
    (C28) where the LossQueue stops making agents. *)
Definition stops_at_3 : queue :=
  new_queue (mkCfg CInfo 0 1 0 1 (fun _ t => eadd t (Fin 1)) (fun _ t => eadd t (Fin 4)) KInfo Inf (Fin 3) Inf (Fin 6)) (Fin 2) true 3.
Theorem C103_refuted : exists l q p, run_ops (map lay_op l) (lay q) = Ok p /\ q_data p <> [] /\ run_ops l q = Err AttributeError.
Proof. exists [OActive; ONext; ONext], stops_at_3. eexists. split; [vm_compute; reflexivity|]. split; [vm_compute; discriminate|vm_compute; reflexivity]. Qed.
Print Assumptions C103_refuted.
