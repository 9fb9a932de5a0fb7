(** * PropsSwitch: switching queues on and off (C98) *)
From Coq Require Import List ZArith Lia Permutation Arith.
From Verif Require Import Base Queue SpecQueue QueueEffects NetQueue Network SpecNet SpecRefine Switch NetExamples PropsQueue1 PropsNet1.
Import ListNotations.
Open Scope Z_scope.

(** set_active (queue_servers.py:657-663) does nothing to a queue that is
    on.  Otherwise it asks arrival_f for one time, unless the time it got last
    is still to come; one agent is made for that time unless it is too late
    for deactive_t; active_cap counts that agent.  Nothing else changes. *)
Theorem C98_on : forall c s col n q q', reach anything (new_queue c s col n) q -> c_class c <> CNull -> run_op OActive q = Ok q' ->
  (q_active q = true -> q' = q) /\
  (q_active q = false ->
   waiting q' = waiting q /\ in_service q' = in_service q /\ q_now q' = q_now q /\ q_nsys q' = q_nsys q /\ q_departed q' = q_departed q /\
   q_narr q' = q_narr q /\ q_blocked q' = q_blocked q /\ q_data q' = q_data q /\ q_servers q' = q_servers q /\
   let t := c_arr c (q_ia q) (q_now q) in
   (eLt (q_now q) (q_next_ct q) -> q_active q' = true /\ scheduled q' = scheduled q /\ q_oarr q' = q_oarr q /\ q_ia q' = q_ia q /\ q_next_ct q' = q_next_ct q) /\
   (eLe (q_next_ct q) (q_now q) -> q_ia q' = S (q_ia q) /\ q_next_ct q' = t /\
     (eLe (c_deactive_t c) t -> q_active q' = false /\ scheduled q' = scheduled q /\ q_oarr q' = q_oarr q) /\
     (eLt t (c_deactive_t c) -> q_oarr q' = q_oarr q + 1 /\ (q_active q' = true <-> eLt (Fin (q_oarr q + 1)) (c_active_cap c)) /\
       exists a, Permutation (scheduled q') (a :: scheduled q) /\ ag_id a = (c_idx c, q_oarr q) /\ ag_time a = t /\ ag_kind a = c_factory c))).
Proof.
  intros c s col n q q' R N H. split.
  - intro A. cbn [run_op] in H. unfold set_active in H. rewrite A in H. injection H as <-. reflexivity.
  - intro A. eapply switched_on; eauto.
Qed.
Print Assumptions C98_on.

(** set_inactive (queue_servers.py:665-667) changes nothing but the switch:
    whoever is there or on the way stays. *)
Theorem C98_off : forall q q', run_op OInactive q = Ok q' -> q_active q' = false /\ set_q_active (q_active q) q' = q.
Proof. intros q q' H. cbn [run_op] in H. injection H as <-. split; reflexivity. Qed.
Print Assumptions C98_off.

(** While a queue is off, nothing but set_active makes agents: arrival_f is
    not called, the queue stays off. *)
Theorem C98_stays : forall ops c s col n q q', reach anything (new_queue c s col n) q -> run_ops ops q = Ok q' -> q_active q = false ->
  Forall no_clear ops -> ~ In OActive ops -> q_active q' = false /\ q_ia q' = q_ia q /\ q_oarr q' = q_oarr q.
Proof. exact stays_off. Qed.
Print Assumptions C98_stays.

(** A queue that is off serves those who are there and then rests:
    [simulate(n)] with [n] at least two for each agent on the way and one for
    each other agent leaves nobody, and everybody has departed or was turned
    away, each once. *)
Theorem C98_empties : forall m c s col n q q', reach anything (new_queue c s col n) q -> c_class c <> CNull -> c_class c <> CResource -> q_active q = false ->
  eLe (Fin 1) (q_servers q) -> (forall k z, c_arr c k (Fin z) <> Inf) -> (forall k z, c_srv c k (Fin z) <> Inf) ->
  (forall a, In a (scheduled q ++ in_service q) -> ag_time a <> Inf) ->
  2 * zlen (scheduled q) + zlen (in_service q) + zlen (waiting q) <= Z.of_nat m -> simulate_n m q = Ok q' ->
  held q' = [] /\ q_time q' = Inf /\ q_active q' = false /\
  exists log, exec (repeat ONext m) q = Ok (log, q') /\ Permutation (held q) (departed log ++ turned_away log).
Proof.
  intros m c s col n q q' R N NR A SV FA FS FT L H. apply simulate_exec in H as (log & H).
  assert (FT' : finite_times q).
  { intros x X. unfold pend in X. rewrite <- map_app in X. apply in_map_iff in X as (a & <- & X). apply FT. exact X. }
  destruct (empties _ _ _ _ _ _ _ _ R N NR A SV FA FS FT' H) as (_ & A' & _ & _ & P & E). destruct (E L) as [E1 E2].
  split; [exact E1|]. split; [exact E2|]. split; [exact A'|]. exists log. split; [exact H|]. rewrite E1 in P. exact P.
Qed.
Print Assumptions C98_empties.

(** In a network a queue that is off makes no agents until initialize is
    called. *)
Theorem C98_network : forall n0 n1 n k q1 q, well_made n0 -> nreach usual n0 n1 ->
  nreach (fun m c => unbroken m c /\ (forall sel, c <> KInit sel)) n1 n ->
  get (nt_queues n1) k = Some q1 -> get (nt_queues n) k = Some q -> q_active q1 = false ->
  q_active q = false /\ q_ia q = q_ia q1 /\ q_oarr q = q_oarr q1.
Proof. exact off_network. Qed.
Print Assumptions C98_network.

(** ** Examples *)

(** Arrivals at 1, 2, ...; two servers, services take five. *)
Definition from98 : queue := ex_queue CServer.
Definition off98 : queue := match run_ops (OActive :: nexts 5 ++ [OInactive]) from98 with Ok q => q | Err _ => from98 end.

Example C98_on_example : exists q, run_op OActive off98 = Ok q /\ q_active off98 = false /\ eLt (q_now off98) (q_next_ct off98) /\ q_active q = true /\ zlen (scheduled q) = 1 /\
  exists q1, run_op OActive from98 = Ok q1 /\ eLe (q_next_ct from98) (q_now from98) /\ map ag_time (scheduled q1) = [Fin 1] /\ q_oarr q1 = 1.
Proof. eexists. split; [vm_compute; reflexivity|]. repeat (split; [vm_compute; reflexivity|]). eexists. repeat split; vm_compute; try reflexivity; discriminate. Qed.

Example C98_empties_example : reach anything from98 off98 /\ q_active off98 = false /\
  (zlen (scheduled off98), zlen (in_service off98), zlen (waiting off98)) = (1, 2, 3) /\
  exists q', simulate_n 7 off98 = Ok q' /\ held q' = [] /\ q_now q' = Fin 17 /\ q_departed q' = 6.
Proof.
  split.
  { assert (X : forall ops q, reach anything from98 q -> forall q', run_ops ops q = Ok q' -> reach anything from98 q').
    { induction ops as [|o ops IH]; intros q R q' H; cbn [run_ops] in H; [injection H as <-; exact R|]. mbind H. eapply IH; [|exact H]. eapply reach_step; [exact R|exact Logic.I|exact E]. }
    apply (X (OActive :: nexts 5 ++ [OInactive]) from98 (reach_here _ _)). vm_compute. reflexivity. }
  split; [reflexivity|]. split; [vm_compute; reflexivity|]. eexists. split; [vm_compute; reflexivity|]. repeat split; vm_compute; reflexivity.
Qed.

(** [overtaking4] makes four agents (active_cap = 4); then its first queue is
    off, and stays off. *)
Definition off98_net (m : nat) : net := reached (KInit [0%nat] :: sims m) overtaking4.
Example C98_network_example : well_made overtaking4 /\ nreach usual overtaking4 (off98_net 7) /\
  map q_active (nt_queues (off98_net 7)) = [false; false; false] /\ map q_oarr (nt_queues (off98_net 7)) = [4; 0; 0] /\
  map q_oarr (nt_queues (off98_net 12)) = [4; 0; 0] /\ map q_departed (nt_queues (off98_net 12)) = [4; 4; 0].
Proof.
  split; [apply overtaking4_made|]. split; [apply reached_usual; vm_compute; reflexivity|]. repeat split; vm_compute; reflexivity.
Qed.
