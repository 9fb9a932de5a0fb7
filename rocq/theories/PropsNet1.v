(** * PropsNet1: claims C30-C41, C43 and C44 about networks *)
From Coq Require Import List ZArith QArith Bool Permutation Arith Lia Sorted.
From Verif Require Import Base PQueue Queue SpecQueue Fetch FetchProofs Network NetReach NetInv SpecNet NetFlow NetClaims1 NetClaims2 NetClaims3 NetClaims4 NetTotal NetData NetExamples.
Import ListNotations.
Open Scope Z_scope.

(** The state after [m] events of the example network, started at queue 0. *)
Definition ex_at (m : nat) : net := reached (KInit [0%nat] :: sims m) (two_ways_net Inf true).

(** ** C30 *)

Theorem C30_never_late : forall n0 n, well_made n0 -> nreach usual n0 n ->
  forall q, In q (nt_queues n) -> eLe (q_now q) (nt_t n) /\ eLe (nt_t n) (q_time q).
Proof. exact never_late. Qed.
Print Assumptions C30_never_late.

Theorem C30_time_order : forall n0 n n', well_made n0 -> nreach usual n0 n -> simulate_event n = Ok n' ->
  eLe (nt_t n) (nt_t n') /\ (nt_queues n' = nt_queues n \/ next_time (nt_queues n) (nt_t n') /\ nt_t n' <> Inf).
Proof. exact time_order. Qed.
Print Assumptions C30_time_order.

Theorem C30_clock : forall n0 n m n', well_made n0 -> nreach usual n0 n -> nruns m n = Ok n' -> eLe (nt_t n) (nt_t n').
Proof. exact clock_runs. Qed.
Print Assumptions C30_clock.

Example C30_example : well_made (two_ways_net Inf true) /\ nreach usual (two_ways_net Inf true) (ex_at 4) /\
  map q_time (nt_queues (ex_at 4)) = [Fin 4; Fin 9; Inf; Inf] /\ nt_t (ex_at 4) = Fin 3 /\
  exists n', nruns 4 (ex_at 4) = Ok n' /\ nt_t n' = Fin 5 /\ nt_events n' = 8.
Proof.
  split; [apply two_ways_made|]. split; [apply reached_usual; vm_compute; reflexivity|].
  split; [vm_compute; reflexivity|]. split; [vm_compute; reflexivity|].
  eexists. split; [vm_compute; reflexivity|]. split; reflexivity.
Qed.

(** A second initialize without clear can send the clock back, which is why
    the histories above ([usual]) call it once. *)
Theorem C30_twice_refuted : exists n0 l n n', well_made n0 /\ calls l n0 = Ok n /\ nt_init n = true /\
  simulate_event n = Ok n' /\ eLt (nt_t n') (nt_t n).
Proof.
  exists (two_ways_net Inf true), (KInit [0%nat] :: sims 3 ++ [KInit [1%nat]]). eexists. eexists.
  split; [apply two_ways_made|]. split; [vm_compute; reflexivity|]. split; [reflexivity|]. split; [vm_compute; reflexivity|]. reflexivity.
Qed.
Print Assumptions C30_twice_refuted.

(** ** C31 *)

(** Queues may follow themselves, but not ResourceQueues, and not with
    infinite service times. *)
Theorem C31_simulate_total_partial : forall n0 n m,
  well_made n0 -> made_for n0 -> connected n0 -> mild_loops n0 -> nreach tidy n0 n -> exists n', nruns m n = Ok n'.
Proof. exact simulate_total. Qed.
Print Assumptions C31_simulate_total_partial.

Lemma two_ways_for max bas : made_for (two_ways_net max bas).
Proof.
  intros k q G. repeat (destruct k as [|k]; [injection G as <-; do 3 eexists; split; [reflexivity|]; split; [|discriminate];
    split; [cbn; lia|]; split; [discriminate|intros _; discriminate]|]). destruct k; discriminate.
Qed.
Lemma two_ways_connected max bas : connected (two_ways_net max bas).
Proof.
  intros k q G N. destruct k as [|[|[|[|k]]]]; [injection G as <-|injection G as <-|injection G as <-; cbn in N; congruence|injection G as <-; cbn in N; congruence|destruct k; discriminate].
  all: eexists; split; [reflexivity|]; split; [discriminate|]; intros e E; cbn in *; intuition lia.
Qed.
Lemma two_ways_mild max bas : mild_loops (two_ways_net max bas).
Proof.
  apply no_loop_mild.
  intros k q l G N E. destruct k as [|[|[|[|k]]]]; [injection G as <-|injection G as <-|injection G as <-; cbn in N; congruence|injection G as <-; cbn in N; congruence|destruct k; discriminate].
  all: injection E as <-; cbn; intuition lia.
Qed.

Example C31_example : let n0 := two_ways_net (Fin 3) true in
  well_made n0 /\ made_for n0 /\ connected n0 /\ mild_loops n0 /\ nreach tidy n0 n0 /\
  exists n n', initialize_queues [0%nat; 1%nat] n0 = Ok n /\ tidy n0 (KInit [0%nat; 1%nat]) /\ nruns 6 n = Ok n' /\ nt_nagents n' = [0; 1; 0; 0].
Proof.
  cbv zeta. split; [apply two_ways_made|]. split; [apply two_ways_for|]. split; [apply two_ways_connected|]. split; [apply two_ways_mild|].
  split; [constructor|]. eexists. eexists. split; [vm_compute; reflexivity|]. split; [split; [reflexivity|discriminate]|].
  split; vm_compute; reflexivity.
Qed.

(** Agents come back to the queue they leave. *)
Lemma coming_back_mild : mild_loops coming_back.
Proof.
  intros k q l G N E K. destruct k as [|[|k]]; [injection G as <-|injection G as <-; cbn in N; congruence|destruct k; discriminate].
  split; [discriminate|]. split; [intro X; destruct X; reflexivity|]. intros i [z|] T; [discriminate|congruence].
Qed.
Example C31_loop_example : well_made coming_back /\ made_for coming_back /\ connected coming_back /\ mild_loops coming_back /\
  follows coming_back 0 0 /\ nreach tidy coming_back coming_back /\
  exists n n', initialize_queues [0%nat] coming_back = Ok n /\ nruns 8 n = Ok n' /\ map q_departed (nt_queues n') = [5; 0] /\ nt_nagents n' = [2; 0].
Proof.
  split; [apply coming_back_made|]. split.
  { intros k q G. repeat (destruct k as [|k]; [injection G as <-; do 3 eexists; split; [reflexivity|]; split; [|discriminate];
      split; [cbn; lia|]; split; [discriminate|intros _; discriminate]|]). destruct k; discriminate. }
  split.
  { intros k q G N. destruct k as [|[|k]]; [injection G as <-|injection G as <-; cbn in N; congruence|destruct k; discriminate].
    eexists; split; [reflexivity|]; split; [discriminate|]; intros e E; cbn in *; intuition lia. }
  split; [apply coming_back_mild|]. split; [do 2 eexists; split; [reflexivity|]; split; [reflexivity|left; reflexivity]|].
  split; [constructor|]. eexists. eexists. split; [vm_compute; reflexivity|]. split; [vm_compute; reflexivity|]. split; reflexivity.
Qed.

(** The full claim is false: a ResourceQueue whose edge is a loop takes back
    the resource of its own agent and becomes idle; the scheduler is given
    an event at time infinity for it, and later returns None. *)
Theorem C31_loop_refuted : exists n0 l n, well_made n0 /\ made_for n0 /\ connected n0 /\
  usual_calls l n0 = true /\ calls l n0 = Ok n /\ simulate_event n = Err TypeError.
Proof.
  exists returning, (KInit [1%nat] :: sims 6). eexists. split; [apply returning_made|]. split; [|split; [|split; [vm_compute; reflexivity|split; [vm_compute; reflexivity|vm_compute; reflexivity]]]].
  - intros k q G. repeat (destruct k as [|k]; [injection G as <-; do 3 eexists; split; [reflexivity|]; split; [|discriminate];
      split; [cbn; lia|]; split; [discriminate|intros _; discriminate]|]). destruct k; discriminate.
  - intros k q G N. destruct k as [|[|[|k]]]; [injection G as <-|injection G as <-|injection G as <-; cbn in N; congruence|destruct k; discriminate].
    all: eexists; split; [reflexivity|]; split; [discriminate|]; intros e E; cbn in *; intuition lia.
Qed.
Print Assumptions C31_loop_refuted.

(** Nor must service times on a loop be infinite. *)
Theorem C31_infinite_refuted : exists n0 l n, well_made n0 /\ made_for n0 /\ connected n0 /\
  (forall k q, get (nt_queues n0) k = Some q -> c_class (q_cfg q) <> CResource) /\
  usual_calls l n0 = true /\ calls l n0 = Ok n /\ simulate_event n = Err TypeError.
Proof.
  exists stuck, (KInit [2%nat] :: sims 6). eexists. split; [apply stuck_made|].
  split; [|split; [|split; [|split; [vm_compute; reflexivity|split; [vm_compute; reflexivity|vm_compute; reflexivity]]]]].
  - intros k q G. repeat (destruct k as [|k]; [injection G as <-; do 3 eexists; split; [reflexivity|]; split; [|discriminate];
      split; [cbn; lia|]; split; [discriminate|intros _; discriminate]|]). destruct k; discriminate.
  - intros k q G N. destruct k as [|[|[|k]]]; [injection G as <-|injection G as <-; cbn in N; congruence|injection G as <-|destruct k; discriminate].
    all: eexists; split; [reflexivity|]; split; [discriminate|]; intros e E; cbn in *; intuition lia.
  - intros k q G. repeat (destruct k as [|k]; [injection G as <-; discriminate|]). destruct k; discriminate.
Qed.
Print Assumptions C31_infinite_refuted.

(** ** C32 *)

Theorem C32_counted : forall n0 n k q, well_made n0 -> nreach usual n0 n -> get (nt_queues n) k = Some q ->
  get (nt_nagents n) k = Some (zlen (held q)).
Proof. exact counted. Qed.
Print Assumptions C32_counted.

Theorem C32_transit : forall n0 n n', well_made n0 -> nreach usual n0 n -> simulate_event n = Ok n' -> transit n n'.
Proof. exact step_transit. Qed.
Print Assumptions C32_transit.

Theorem C32_flow : forall n0 n n', well_made n0 -> nreach usual n0 n -> simulate_event n = Ok n' ->
  exists new gone, Permutation (everyone n ++ new) (everyone n' ++ gone) /\ (length new <= 1)%nat /\ (length gone <= 1)%nat.
Proof. exact step_flows. Qed.
Print Assumptions C32_flow.

Theorem C32_one_place : forall n0 n, well_made n0 -> nreach usual n0 n -> NoDup (everyone n).
Proof. exact one_place. Qed.
Print Assumptions C32_one_place.

(** Agent (0, 0) goes from queue 0 to queue 1; later agent (0, 1) leaves
    through the exit. *)
Example C32_example : nreach usual (two_ways_net Inf true) (ex_at 8) /\
  map (fun m => map held (nt_queues (ex_at m))) [3; 4; 7; 8]%nat =
   [[[(0%nat, 3); (0%nat, 0); (0%nat, 1); (0%nat, 2)]; []; []; []];
    [[(0%nat, 3); (0%nat, 2); (0%nat, 1)]; [(0%nat, 0)]; []; []];
    [[(0%nat, 5); (0%nat, 1); (0%nat, 2); (0%nat, 3); (0%nat, 4)]; [(0%nat, 0)]; []; []];
    [[(0%nat, 5); (0%nat, 3); (0%nat, 2); (0%nat, 4)]; [(0%nat, 0)]; []; []]] /\
  map (fun m => nt_nagents (ex_at m)) [3; 4; 7; 8]%nat = [[4; 0; 0; 0]; [3; 1; 0; 0]; [5; 1; 0; 0]; [4; 1; 0; 0]].
Proof. split; [apply reached_usual; vm_compute; reflexivity|]. split; vm_compute; reflexivity. Qed.

(** ** C33 *)

Theorem C33_max_agents : forall n0 n, well_made n0 -> eLe (Fin 0) (nt_max n0) -> nreach roomy n0 n ->
  eLe (Fin (zsum (nt_nagents n))) (nt_max n).
Proof. exact max_respected. Qed.
Print Assumptions C33_max_agents.

Example C33_example : let n0 := two_ways_net (Fin 3) true in
  well_made n0 /\ eLe (Fin 0) (nt_max n0) /\
  map (fun m => nt_nagents (reached (KInit [0%nat; 1%nat] :: sims m) n0)) (seq 0 7) =
    [[1; 1; 0; 0]; [1; 2; 0; 0]; [1; 2; 0; 0]; [1; 1; 0; 0]; [1; 1; 0; 0]; [1; 0; 0; 0]; [0; 1; 0; 0]].
Proof. cbv zeta. split; [apply two_ways_made|]. split; [cbn; lia|]. vm_compute. reflexivity. Qed.

(** A second initialize can exceed max_agents. *)
Theorem C33_twice_refuted : exists n0 l n, well_made n0 /\ nt_max n0 = Fin 3 /\ calls l n0 = Ok n /\ nt_max n = Fin 3 /\
  zsum (nt_nagents n) = 4.
Proof.
  exists (two_ways_net (Fin 3) true), (KInit [0%nat] :: sims 5 ++ [KInit [1%nat]]). eexists.
  split; [apply two_ways_made|]. split; [reflexivity|]. split; [vm_compute; reflexivity|]. split; reflexivity.
Qed.
Print Assumptions C33_twice_refuted.

(** ** C34 *)

(** Every step counted in num_events is an arrival, a departure or a blocked
    departure, or it throws away a leftover entry of the scheduler for a
    queue that has become idle.  num_events is not changed otherwise, and
    without leftovers the claim holds. *)
Theorem C34_events_partial : forall n0 n n', well_made n0 -> nreach usual n0 n -> simulate_event n = Ok n' ->
  (n' = set_nt_t Inf n /\ pq_size (nt_heap n) = 0%nat /\ forall q, In q (nt_queues n) -> q_time q = Inf) \/
  (nt_events n' = nt_events n + 1 /\
   ((exists k q, get (nt_queues n) k = Some q /\ q_time q = Inf /\ nt_queues n' = nt_queues n /\ nt_nagents n' = nt_nagents n /\
       (pq_size (nt_heap n') < pq_size (nt_heap n))%nat) \/
    happening n n')).
Proof.
  intros n0 n n' W R H. apply ngood_reach in R as [I _]; [|exact W]. apply nst_happening; [exact I|]. apply sim_nst; assumption.
Qed.
Print Assumptions C34_events_partial.

Example C34_example : nreach usual (two_ways_net Inf true) (ex_at 5) /\
  exists n', simulate_event (ex_at 5) = Ok n' /\ nt_events (ex_at 5) = 5 /\ nt_events n' = 6 /\
    map q_time (nt_queues (ex_at 5)) = [Fin 4; Fin 9; Inf; Inf] /\ nt_t n' = Fin 4 /\
    map q_blocked (nt_queues n') = [0; 1; 0; 0].
Proof.
  split; [apply reached_usual; vm_compute; reflexivity|]. eexists. split; [vm_compute; reflexivity|]. vm_compute. auto 6.
Qed.

(** An event is counted although every queue is idle and nothing happens. *)
Theorem C34_refuted : exists n0 l n n', well_made n0 /\ usual_calls l n0 = true /\ calls l n0 = Ok n /\
  (forall q, In q (nt_queues n) -> q_time q = Inf) /\
  simulate_event n = Ok n' /\ nt_events n' = nt_events n + 1 /\ nt_queues n' = nt_queues n.
Proof.
  exists overtaking, (KInit [0%nat] :: sims 6). eexists. eexists. split; [apply overtaking_made|].
  split; [vm_compute; reflexivity|]. split; [vm_compute; reflexivity|].
  split; [intros q [<-|[<-|[<-|[]]]]; reflexivity|]. split; [vm_compute; reflexivity|]. split; reflexivity.
Qed.
Print Assumptions C34_refuted.

(** ** C35 *)

(** network.time does not raise; it is the time of the next event, or the
    scheduler begins with a leftover entry at the current time. *)
Theorem C35_time_partial : forall n0 n, well_made n0 -> nreach usual n0 n ->
  exists t, net_time n = Ok t /\ eLe (nt_t n) t /\
  (next_time (nt_queues n) t \/
   exists k q, get (pq_entries (nt_heap n)) 0 = Some (nt_t n, k) /\ get (nt_queues n) k = Some q /\ q_time q = t /\ nt_t n <> t).
Proof.
  intros n0 n W R. apply ngood_reach in R as [I _]; [|exact W]. destruct (time_total _ I) as (t & E). exists t. split; [exact E|].
  apply time_exact; assumption.
Qed.
Print Assumptions C35_time_partial.

Example C35_example : nreach usual (two_ways_net Inf true) (ex_at 6) /\ net_time (ex_at 6) = Ok (Fin 5) /\
  map q_time (nt_queues (ex_at 6)) = [Fin 5; Fin 9; Inf; Inf] /\ nt_t (ex_at 6) = Fin 4.
Proof. split; [apply reached_usual; vm_compute; reflexivity|]. vm_compute. auto. Qed.

Theorem C35_refuted : exists n0 l n, well_made n0 /\ usual_calls l n0 = true /\ calls l n0 = Ok n /\
  net_time n = Ok (Fin 15) /\ ~ next_time (nt_queues n) (Fin 15) /\ next_time (nt_queues n) (Fin 12).
Proof.
  exists overtaking4, (KInit [0%nat] :: sims 8). eexists. split; [apply overtaking4_made|].
  split; [vm_compute; reflexivity|]. split; [vm_compute; reflexivity|]. split; [vm_compute; reflexivity|]. split.
  - intros [L _]. assert (X := L _ (or_introl eq_refl)). vm_compute in X. apply X. reflexivity.
  - split; [|right; eexists; split; [left; reflexivity|reflexivity]].
    intros q [<-|[<-|[<-|[]]]]; cbn; lia || auto.
Qed.
Print Assumptions C35_refuted.

(** ** C36 *)

(** An event that is not an arrival, not a move and not a leftover is a
    blocked departure with all its consequences ([stays]); and nobody
    enters a full queue on another edge. *)
Theorem C36_blocking : forall n0 n n', well_made n0 -> nreach usual n0 n -> simulate_event n = Ok n' ->
  (nt_queues n' = nt_queues n \/ happening n n') /\
  forall k e q q' q2 x, get (nt_queues n) k = Some q -> In x (held q) -> get (nt_queues n) e = Some q2 ->
    get (nt_queues n') e = Some q' -> In x (held q') -> k <> e -> at_capacity q2 = false.
Proof.
  intros n0 n n' W R H. split.
  - destruct (C34_events_partial _ _ _ W R H) as [(-> & _)|(_ & [(k & q & _ & _ & E & _)|P])]; [left; reflexivity|left; exact E|right; exact P].
  - intros k e q q' q2 x G X G2 G' X' NE.
    destruct (moves_follow _ _ _ _ _ _ _ _ W R H G X G' X' NE) as (_ & _ & F). apply F; exact G2.
Qed.
Print Assumptions C36_blocking.

(** The agent (0, 2) is due at queue 0 at time 4 and draws the LossQueue 1,
    which is full; its departure is put off to one time unit after the next
    departure from there. *)
Example C36_example : nreach usual (two_ways_net Inf true) (ex_at 5) /\
  exists n', simulate_event (ex_at 5) = Ok n' /\ map at_capacity (nt_queues (ex_at 5)) = [false; true; false; false] /\
    map (fun q => map (fun a => (ag_id a, ag_time a, ag_blocked a)) (in_service q)) (nt_queues (ex_at 5)) =
      [[((0%nat, 2), Fin 4, 0); ((0%nat, 1), Fin 5, 0)]; [((0%nat, 0), Fin 9, 0)]; []; []] /\
    map (fun q => map (fun a => (ag_id a, ag_time a, ag_blocked a)) (in_service q)) (nt_queues n') =
      [[((0%nat, 1), Fin 5, 0); ((0%nat, 2), Fin 10, 1)]; [((0%nat, 0), Fin 9, 0)]; []; []] /\
    map q_blocked (nt_queues n') = [0; 1; 0; 0] /\ nt_nagents n' = nt_nagents (ex_at 5).
Proof.
  split; [apply reached_usual; vm_compute; reflexivity|]. eexists. split; [vm_compute; reflexivity|]. vm_compute. auto 8.
Qed.

(** ** C37 *)

Theorem C37_follows : forall n0 n n' k e q q' x, well_made n0 -> nreach usual n0 n -> simulate_event n = Ok n' ->
  get (nt_queues n) k = Some q -> In x (held q) -> get (nt_queues n') e = Some q' -> In x (held q') -> k <> e ->
  follows n k e.
Proof. intros n0 n n' k e q q' x W R H G X G' X' NE. apply (moves_follow _ _ _ _ _ _ _ _ W R H G X G' X' NE). Qed.
Print Assumptions C37_follows.

Example C37_example : nreach usual (two_ways_net Inf true) (ex_at 3) /\ simulate_event (ex_at 3) = Ok (ex_at 4) /\
  exists q q', get (nt_queues (ex_at 3)) 0 = Some q /\ In (0%nat, 0) (held q) /\
    get (nt_queues (ex_at 4)) 1 = Some q' /\ In (0%nat, 0) (held q').
Proof.
  split; [apply reached_usual; vm_compute; reflexivity|]. split; [vm_compute; reflexivity|].
  eexists. eexists. split; [vm_compute; reflexivity|]. split; [vm_compute; auto|]. split; [vm_compute; reflexivity|]. vm_compute. auto.
Qed.

(** ** C38 *)

(** The draw [u] selects edge [k] exactly if it lies in the [k]-th interval,
    which is as long as the [k]-th probability. *)
Theorem C38_slots : forall pr u, (2 <= length pr)%nat -> distribution pr -> (0 < u)%Q -> (u <= 1)%Q ->
  (exists k, choice pr u (length pr) = Ok k) /\ forall k, choice pr u (length pr) = Ok k <-> slot pr k u.
Proof. exact choice_slot. Qed.
Print Assumptions C38_slots.

Theorem C38_one_slot : forall pr u j k, (forall p, In p pr -> (0 <= p)%Q) -> slot pr j u -> slot pr k u -> j = k.
Proof. exact slot_unique. Qed.
Print Assumptions C38_one_slot.

Theorem C38_route : forall a v n l pr, ag_kind a <> KGreedy -> get (nt_out n) v = Some l -> get (nt_probs n) v = Some pr ->
  length pr = length l -> (2 <= length l)%nat -> distribution pr ->
  let u := nt_u n (nt_iu n) in (0 < u)%Q -> (u <= 1)%Q ->
  (exists e, desired_destination a v n = Ok (e, set_nt_iu (S (nt_iu n)) n)) /\
  forall k e, get l k = Some e -> slot pr k u -> desired_destination a v n = Ok (e, set_nt_iu (S (nt_iu n)) n).
Proof. exact agent_route. Qed.
Print Assumptions C38_route.

(** In the network: whoever moves goes where it chose to go. *)
Theorem C38_moves : forall n0 n n' k e q q' x, well_made n0 -> nreach usual n0 n -> simulate_event n = Ok n' ->
  get (nt_queues n) k = Some q -> In x (held q) -> get (nt_queues n') e = Some q' -> In x (held q') -> k <> e ->
  exists a, In a (in_service q) /\ ag_id a = x /\ chooses n n' a (c_tgt (q_cfg q)) e.
Proof. intros n0 n n' k e q q' x W R H G X G' X' NE. apply (moves_follow _ _ _ _ _ _ _ _ W R H G X G' X' NE). Qed.
Print Assumptions C38_moves.

Definition ex_pr : list Q := [1 # 4; 0; 3 # 4]%Q.
Example C38_example : distribution ex_pr /\ choice ex_pr (1 # 4) 3 = Ok 0%nat /\ choice ex_pr (1 # 3) 3 = Ok 2%nat /\
  slot ex_pr 2 (1 # 3) /\ ~ slot ex_pr 1 (1 # 3).
Proof.
  split; [split; [intros p [<-|[<-|[<-|[]]]]; discriminate|reflexivity]|]. split; [reflexivity|]. split; [reflexivity|].
  split; [repeat split; cbn; lia || reflexivity || discriminate|]. intros (_ & A & B). vm_compute in A, B. apply B. reflexivity.
Qed.

(** The draw 0, which numpy's generator can return, selects the first edge
    even if its probability is zero. *)
Theorem C38_zero_refuted : exists pr, distribution pr /\ get pr 0 = Some 0%Q /\ choice pr 0 (length pr) = Ok 0%nat.
Proof.
  exists [0; 1]%Q. split; [split; [intros p [<-|[<-|[]]]; discriminate|reflexivity]|]. split; reflexivity.
Qed.
Print Assumptions C38_zero_refuted.

(** The numbers of random choices and of blocked departures in the first
    events of a run: the fourth event is the first choice; the second choice
    finds a full queue. *)
Example C38_draws : map (fun m => (nt_iu (ex_at m), nt_ie (ex_at m))) (seq 0 9) =
  [(0, 0); (0, 0); (0, 0); (0, 0); (1, 0); (1, 0); (2, 1); (2, 1); (3, 1)]%nat.
Proof. vm_compute. reflexivity. Qed.

(** ** C39 *)

Theorem C39_greedy : forall a v n e n1, ag_kind a = KGreedy -> desired_destination a v n = Ok (e, n1) ->
  n1 = n /\ exists l d q, get (nt_out n) v = Some l /\ get l d = Some e /\ get (nt_queues n) e = Some q /\
    (forall i e' q', get l i = Some e' -> get (nt_queues n) e' = Some q' ->
       number_queued q <= number_queued q' /\ ((i < d)%nat -> number_queued q < number_queued q')).
Proof. exact greedy_route. Qed.
Print Assumptions C39_greedy.

Theorem C39_moves : forall n0 n n' k e q q' x, well_made n0 -> nreach usual n0 n -> simulate_event n = Ok n' ->
  get (nt_queues n) k = Some q -> In x (held q) -> get (nt_queues n') e = Some q' -> In x (held q') -> k <> e ->
  (forall a, In a (in_service q) -> ag_kind a = KGreedy) ->
  exists l d q2, get (nt_out n) (c_tgt (q_cfg q)) = Some l /\ get l d = Some e /\ get (nt_queues n) e = Some q2 /\
    forall i e' q'', get l i = Some e' -> get (nt_queues n) e' = Some q'' ->
      number_queued q2 <= number_queued q'' /\ ((i < d)%nat -> number_queued q2 < number_queued q'').
Proof.
  intros n0 n n' k e q q' x W R H G X G' X' NE K. destruct (moves_follow n0 n n' k e q q' x W R H G X G' X' NE) as (_ & (a & A & _ & C) & _).
  destruct C as (l & d & OUT & GD & GR & _). specialize (GR (K a A)).
  assert (exists q2, get (nt_queues n) e = Some q2) as (q2 & G2).
  { assert (LE : length (nt_queues n') = length (nt_queues n)).
    { destruct (step_transit _ _ _ W R H); rewrite ?upd_length in *;
      repeat match goal with E : nt_queues n' = _ |- _ => rewrite E; clear E end; rewrite ?upd_length; reflexivity. }
    apply NetSteps.get_ex. rewrite <- LE. eapply NetSteps.get_lt; exact G'. }
  exists l, d, q2. split; [exact OUT|]. split; [exact GD|]. split; [exact G2|]. intros i e' q'' GI G''. eapply GR; eauto.
Qed.
Print Assumptions C39_moves.

(** The third agent finds one agent waiting at queue 1 and nobody at queue
    2. *)
Example C39_example : let at_ m := reached (KInit [0%nat] :: sims m) tills in
  well_made tills /\ nreach usual tills (at_ 6%nat) /\ simulate_event (at_ 6%nat) = Ok (at_ 7%nat) /\
  map number_queued (nt_queues (at_ 6%nat)) = [0; 1; 0; 0; 0] /\ map held (nt_queues (at_ 6%nat)) =
    [[(0%nat, 4); (0%nat, 2); (0%nat, 3)]; [(0%nat, 0); (0%nat, 1)]; []; []; []] /\
  map held (nt_queues (at_ 7%nat)) = [[(0%nat, 4); (0%nat, 3)]; [(0%nat, 0); (0%nat, 1)]; [(0%nat, 2)]; []; []].
Proof.
  cbv zeta. split; [apply tills_made|]. split; [apply reached_usual; vm_compute; reflexivity|].
  split; [vm_compute; reflexivity|]. split; [vm_compute; reflexivity|]. split; vm_compute; reflexivity.
Qed.

(** ** C40 *)

Theorem C40_copy : forall n0 n, well_made n0 -> nreach usual n0 n ->
  exists n', net_copy n = Ok n' /\ n' = set_nt_heap (nt_heap n') n /\ (nt_init n = true -> scheduled_exactly n').
Proof.
  intros n0 n W R. apply ngood_reach in R as [I _]; [|exact W]. destruct (copy_total _ I) as (n' & E). exists n'. split; [exact E|].
  apply copy_exact; assumption.
Qed.
Print Assumptions C40_copy.

Example C40_example : nreach usual (two_ways_net Inf true) (ex_at 6) /\ nt_init (ex_at 6) = true /\
  exists n', net_copy (ex_at 6) = Ok n' /\ pq_entries (nt_heap n') = [(Fin 5, 0%nat); (Fin 9, 1%nat)].
Proof.
  split; [apply reached_usual; vm_compute; reflexivity|]. split; [vm_compute; reflexivity|].
  eexists. split; [vm_compute; reflexivity|]. reflexivity.
Qed.

(** ** C41 *)

Theorem C41_initialize : forall n0 n sel n', well_made n0 -> nreach usual n0 n -> nt_init n = false ->
  NoDup sel -> eLe (Fin 0) (nt_max n) -> initialize_queues sel n = Ok n' ->
  (forall k q, get (nt_queues n) k = Some q ->
    (~ In k (starts sel n) -> get (nt_queues n') k = Some q) /\
    (In k (starts sel n) -> exists q', set_active q = Ok q' /\ get (nt_queues n') k = Some q')) /\
  length (nt_queues n') = length (nt_queues n) /\ scheduled_exactly n' /\ nt_init n' = true /\ nt_t n' = Fin 0 /\
  (exists k q, In k sel /\ get (nt_queues n) k = Some q /\ c_type (q_cfg q) <> 0).
Proof. intros n0 n sel n' W R IN. apply ngood_reach in R as [I B]; [|exact W]. apply initialize_exact; auto. Qed.
Print Assumptions C41_initialize.

Theorem C41_raises : forall sel n, (forall k, In k sel -> exists q, get (nt_queues n) k = Some q /\ c_type (q_cfg q) = 0) ->
  initialize_queues sel n = Err QueueingToolError.
Proof. exact initialize_raises. Qed.
Print Assumptions C41_raises.

(** max_agents = 1: of the queues 2 (an exit), 1 and 0 only 1 is started. *)
Example C41_example : let n0 := two_ways_net (Fin 1) true in
  exists n', initialize_queues [2%nat; 1%nat; 0%nat] n0 = Ok n' /\ nt_init n0 = false /\
    starts [2%nat; 1%nat; 0%nat] n0 = [1%nat] /\ map q_active (nt_queues n') = [false; true; false; false] /\
    pq_entries (nt_heap n') = [(Fin 1, 1%nat)] /\ initialize_queues [2%nat; 3%nat] n0 = Err QueueingToolError.
Proof. cbv zeta. eexists. split; [vm_compute; reflexivity|]. vm_compute. auto 8. Qed.

(** With max_agents = 0 initialize does not raise although nothing is
    started. *)
Theorem C41_none_refuted : exists n0 n', well_made n0 /\ initialize_queues [0%nat] n0 = Ok n' /\ nt_queues n' = nt_queues n0.
Proof. exists (two_ways_net (Fin 0) true). eexists. split; [apply two_ways_made|]. split; [vm_compute; reflexivity|]. reflexivity. Qed.
Print Assumptions C41_none_refuted.

(** ** C43 *)

(** The clock, the counts and the scheduler; of NullQueues the data remain. *)
Theorem C43_clear_partial : forall n0 n, well_made n0 -> nreach usual n0 n -> let n' := net_clear n in
  nt_t n' = Fin 0 /\ nt_events n' = 0 /\ nt_init n' = false /\ pq_size (nt_heap n') = 0%nat /\ everyone n' = [] /\
  length (nt_queues n') = length (nt_queues n) /\ length (nt_nagents n') = length (nt_queues n) /\
  (forall z, In z (nt_nagents n') -> z = 0) /\ net_time n' = Ok Inf /\
  forall k q, get (nt_queues n) k = Some q -> exists q', get (nt_queues n') k = Some q' /\ q_cfg q' = q_cfg q /\
    q_time q' = Inf /\ q_now q' = Fin 0 /\ number_queued q' = 0 /\
    (c_class (q_cfg q) <> CNull -> q_data q' = [] /\ q_active q' = false /\ q_oarr q' = 0 /\ q_departed q' = 0 /\
      (c_class (q_cfg q) <> CServer -> q_blocked q' = 0)).
Proof.
  intros n0 n W R n'. apply ngood_reach in R as [I _]; [|exact W]. destruct (clear_ok _ I) as [I' B']. fold n' in I', B'.
  assert (BB := B'). destruct BB as [_ BQ].
  split; [reflexivity|]. split; [reflexivity|]. split; [reflexivity|]. split; [reflexivity|]. split; [apply blank_empty; exact B'|].
  split; [apply map_length|]. split; [apply repeat_length|]. split; [intros z Z; apply (repeat_spec _ _ _ Z)|]. split; [reflexivity|].
  intros k q G. exists (clear q). assert (G' : get (nt_queues n') k = Some (clear q)).
  { unfold get in *. cbn. rewrite nth_error_map, G. reflexivity. }
  split; [exact G'|]. destruct (BQ _ _ G') as (NO & TI & _ & _ & _ & L).
  split; [unfold clear, qs_clear; destruct (c_class (q_cfg q)); reflexivity|]. split; [exact TI|]. split; [exact NO|].
  split; [unfold number_queued, waiting; rewrite L; destruct (c_class (q_cfg (clear q))); reflexivity|].
  intro N. unfold clear. destruct (c_class (q_cfg q)); try congruence; cbn; repeat split; congruence.
Qed.
Print Assumptions C43_clear_partial.

Example C43_example : nreach usual (two_ways_net Inf true) (ex_at 8) /\ nt_t (ex_at 8) = Fin 5 /\
  map (fun q => length (q_data q)) (nt_queues (ex_at 8)) = [5; 1; 1; 0]%nat /\
  map (fun q => length (q_data q)) (nt_queues (net_clear (ex_at 8))) = [0; 0; 1; 0]%nat.
Proof. split; [apply reached_usual; vm_compute; reflexivity|]. vm_compute. auto. Qed.

Theorem C43_refuted : exists n0 l n k q, well_made n0 /\ usual_calls l n0 = true /\ calls l n0 = Ok n /\
  get (nt_queues (net_clear n)) k = Some q /\ q_data q <> [].
Proof.
  exists (two_ways_net Inf true), (KInit [0%nat] :: sims 8). eexists. exists 2%nat. eexists. split; [apply two_ways_made|].
  split; [vm_compute; reflexivity|]. split; [vm_compute; reflexivity|]. split; [vm_compute; reflexivity|]. discriminate.
Qed.
Print Assumptions C43_refuted.

(** ** C44 *)

(** The rows of agent [i] in the result of get_agent_data. *)
Definition rows_for (d : agent_rows) (i : aid) : list drow :=
  match find (fun e => aid_eqb (fst e) i) d with Some e => snd e | None => [] end.
(** All rows of a queue, with its edge index. *)
Definition tagged (q : queue) (rows : list row) : list drow := map (fun r => (r, c_idx (q_cfg q))) rows.

Theorem C44_data : forall n0 n l, well_made n0 -> nreach usual n0 n -> (forall q, In q l -> In q (nt_queues n)) ->
  Permutation (get_queue_data l) (flat_map (fun q => tagged q (concat (map snd (q_data q)))) l) /\
  (exists parts, get_queue_data l = concat parts /\
     Forall2 (fun q part => Permutation part (tagged q (concat (map snd (q_data q)))) /\ StronglySorted (fun x y => eLe (r_arr (fst x)) (r_arr (fst y))) part) l parts) /\
  forall i, Permutation (rows_for (get_agent_data l) i) (flat_map (fun q => tagged q (rows_of (q_data q) i)) l) /\
    StronglySorted (fun x y => eLe (r_arr (fst x)) (r_arr (fst y))) (rows_for (get_agent_data l) i).
Proof.
  intros n0 n l W R IN. split; [apply queue_data_exact|]. split.
  - exists (map fetch_data l). split; [reflexivity|]. clear. induction l as [|q l IH]; constructor; [|exact IH].
    split; [apply dsort_perm|apply fetch_exact].
  - intro i. apply agent_data_exact. eapply selected_keyed; eauto.
Qed.
Print Assumptions C44_data.

Example C44_example : nreach usual (two_ways_net Inf true) (ex_at 8) /\
  map snd (get_queue_data (nt_queues (ex_at 8))) = [0; 0; 0; 0; 0; 1; 2]%nat /\
  rows_for (get_agent_data (nt_queues (ex_at 8))) (0%nat, 0) =
    [(mkData (Fin 1) (Fin 1) (Fin 3) 0 1, 0%nat); (mkData (Fin 3) (Fin 3) (Fin 0) 0 1, 1%nat)].
Proof. split; [apply reached_usual; vm_compute; reflexivity|]. vm_compute. auto. Qed.
