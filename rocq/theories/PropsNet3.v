(** * PropsNet3: running a network (C66 - C69) *)
From Coq Require Import List ZArith QArith Lia Bool Permutation Arith.
From Verif Require Import Base Heap PQueue Queue SpecQueue Network SpecNet NetReach NetTotal NetClaims1 NetClaims3 NetInv NetSteps SpecStop NetStop NetNext NetActive NetExamples PropsNet1.
Import ListNotations.
Open Scope Z_scope.

(** ** C66: simulate *)

(** [simulate(n=m)]: [m] events are counted, unless there is nothing left to
    do. *)
Theorem C66_counts : forall n0 n m n', well_made n0 -> nreach usual n0 n -> simulate_events m n = Ok n' ->
  nt_events n' = nt_events n + Z.of_nat m \/ nt_t n' = Inf /\ nt_events n' < nt_events n + Z.of_nat m.
Proof. exact events_counted. Qed.
Print Assumptions C66_counts.

Example C66_counts_example : well_made (two_ways_net Inf true) /\ nreach usual (two_ways_net Inf true) (ex_at 2) /\
  (exists n', simulate_events 5 (ex_at 2) = Ok n' /\ nt_events (ex_at 2) = 2 /\ nt_events n' = 7) /\
  well_made overtaking /\ nreach usual overtaking (reached (KInit [0%nat] :: sims 5) overtaking) /\
  exists n', simulate_events 5 (reached (KInit [0%nat] :: sims 5) overtaking) = Ok n' /\ nt_t n' = Inf /\ nt_events n' = 7.
Proof.
  split; [apply two_ways_made|]. split; [apply reached_usual; vm_compute; reflexivity|].
  split; [eexists; split; [vm_compute; reflexivity|split; reflexivity]|].
  split; [apply overtaking_made|]. split; [apply reached_usual; vm_compute; reflexivity|].
  eexists. split; [vm_compute; reflexivity|]. split; reflexivity.
Qed.

(** [simulate(t=d)] is a number of events: the first after which the clock
    has moved on by [d] or more. *)
Theorem C66_until : forall fuel d n n', simulate_time fuel d n = Some (Ok n') ->
  exists m, nruns m n = Ok n' /\ eLe (eadd (nt_t n) d) (nt_t n') /\
    forall j, (j < m)%nat -> exists nj, nruns j n = Ok nj /\ eLt (nt_t nj) (eadd (nt_t n) d).
Proof.
  intros fuel d n n' H. unfold simulate_time in H. destruct (nt_init n); [|discriminate]. apply while_runs in H. exact H.
Qed.
Print Assumptions C66_until.

Example C66_until_example : exists n', simulate_time 20 (Fin 4) (ex_at 2) = Some (Ok n') /\ nt_t (ex_at 2) = Fin 2 /\ nt_t n' = Fin 6 /\
  nt_events n' = 9 /\ exists nj, nruns 6 (ex_at 2) = Ok nj /\ nt_t nj = Fin 5.
Proof. eexists. split; [vm_compute; reflexivity|]. split; [reflexivity|]. split; [reflexivity|]. split; [reflexivity|]. eexists. split; vm_compute; reflexivity. Qed.

(** It comes to an end if arrivals and services take time. *)
Theorem C66_stops : forall n0 n d, well_made n0 -> lively n0 -> nreach usual n0 n ->
  exists fuel r, simulate_time fuel (Fin d) n = Some r.
Proof. exact time_stops. Qed.
Print Assumptions C66_stops.

Theorem C66_total : forall n0 n d, well_made n0 -> lively n0 -> made_for n0 -> connected n0 -> mild_loops n0 ->
  nreach tidy n0 n -> nt_init n = true ->
  exists fuel n', simulate_time fuel (Fin d) n = Some (Ok n').
Proof. exact time_total_stops. Qed.
Print Assumptions C66_total.

(** Before initialize, and after clear, simulate raises and changes nothing
    that it would need; initialize is what makes it work. *)
Theorem C66_uninitialized : forall n0 n m fuel d, (well_made n0 \/ exists n1, n0 = net_clear n1) ->
  nreach (fun _ c => match c with KInit _ => False | _ => True end) n0 n ->
  simulate_events m n = Err QueueingToolError /\ simulate_time fuel d n = Some (Err QueueingToolError).
Proof.
  intros n0 n m fuel d W R. assert (X : nt_init n = false).
  { induction R as [|n c n' R IH OK H].
    - destruct W as [W|[n1 ->]]; [apply (well_made_ok _ W)|reflexivity].
    - apply call_init in H. rewrite H. destruct c; [destruct OK|reflexivity|exact IH|exact IH]. }
  unfold simulate_events, simulate_time. rewrite X. auto.
Qed.
Print Assumptions C66_uninitialized.

Theorem C66_initialized : forall n1 sel n0 n m, initialize_queues sel n1 = Ok n0 ->
  nreach (fun _ c => c <> KClear) n0 n -> simulate_events m n = nruns m n.
Proof.
  intros n1 sel n0 n m H R. assert (X : nt_init n = true).
  { induction R as [|n c n' R IH OK H']; [exact (call_init (KInit sel) _ _ H)|].
    apply call_init in H'. rewrite H'. destruct c; [reflexivity|congruence|exact IH|exact IH]. }
  unfold simulate_events. rewrite X. apply simulate_n_runs.
Qed.
Print Assumptions C66_initialized.

Example C66_initialized_example : let n0 := two_ways_net Inf true in
  simulate_events 3 n0 = Err QueueingToolError /\ simulate_time 3 (Fin 1) (net_clear (ex_at 4)) = Some (Err QueueingToolError) /\
  (exists n, calls [KInit [0%nat]; KOp (NMax (Fin 5)); KCopy] n0 = Ok n /\ exists n', simulate_events 3 n = Ok n' /\ nt_events n' = 3) /\
  exists n, calls [KOp (NMax (Fin 5)); KOp (NCollect true [1%nat]); KCopy] n0 = Ok n /\ simulate_events 3 n = Err QueueingToolError.
Proof.
  cbv zeta. split; [reflexivity|]. split; [vm_compute; reflexivity|]. split; eexists; (split; [vm_compute; reflexivity|]); [|reflexivity].
  eexists. split; vm_compute; reflexivity.
Qed.

(** A run changes the queues, the counts, the clock and the scheduler only. *)
Theorem C66_keeps : forall m n n', nruns m n = Ok n' ->
  nt_out n' = nt_out n /\ nt_probs n' = nt_probs n /\ nt_max n' = nt_max n /\ nt_bas n' = nt_bas n /\ nt_init n' = nt_init n /\
  nt_u n' = nt_u n /\ nt_eps n' = nt_eps n /\
  length (nt_queues n') = length (nt_queues n) /\ length (nt_nagents n') = length (nt_nagents n).
Proof. intros m n n' H. destruct (nframe_runs _ _ _ H). auto 12. Qed.
Print Assumptions C66_keeps.

Example C66_keeps_example : exists n', nruns 4 (ex_at 2) = Ok n' /\ nt_out n' = nt_out (ex_at 2) /\ map q_departed (nt_queues n') <> map q_departed (nt_queues (ex_at 2)).
Proof. eexists. split; [vm_compute; reflexivity|]. split; [reflexivity|vm_compute; discriminate]. Qed.

(** ** C33: a queue is switched off only for a reason *)

(** A queue stops creating agents in an event only if the network is full,
    or its next arrival would come after deactive_t, or it has created
    active_cap agents. *)
Theorem C33_only : forall n0 n n' k q q', well_made n0 -> nreach usual n0 n -> simulate_event n = Ok n' ->
  get (nt_queues n) k = Some q -> get (nt_queues n') k = Some q' -> q_active q = true -> q_active q' = false ->
  eLe (nt_max n) (Fin (zsum (nt_nagents n))) \/ eLe (c_deactive_t (q_cfg q)) (q_next_ct q') \/ eLe (c_active_cap (q_cfg q)) (Fin (q_oarr q')).
Proof.
  intros n0 n n' k q q' W R H G G' A A'. apply ngood_reach in R as [I _]; [|exact W]. apply sim_nst in H; [|exact I].
  eapply active_step; eauto.
Qed.
Print Assumptions C33_only.

Example C33_only_example : let n0 := two_ways_net (Fin 3) true in let at_ m := reached (KInit [0%nat; 1%nat] :: sims m) n0 in
  well_made n0 /\ nreach usual n0 (at_ 1%nat) /\ simulate_event (at_ 1%nat) = Ok (at_ 2%nat) /\
  map (fun m => (map q_active (nt_queues (at_ m)), zsum (nt_nagents (at_ m)))) [0; 1; 2]%nat =
    [([true; true; false; false], 2); ([true; true; false; false], 3); ([false; true; false; false], 3)].
Proof. cbv zeta. split; [apply two_ways_made|]. split; [apply reached_usual; vm_compute; reflexivity|]. split; vm_compute; reflexivity. Qed.

Lemma steps_brisk l last : forallb (Z.ltb 0) (last :: l) = true -> forall i t, eLt (Fin t) (steps l last i (Fin t)).
Proof.
  intros H i t. unfold steps. cbn [eadd]. assert (0 < nth i l last); [|cbn; lia]. rewrite forallb_forall in H.
  apply Z.ltb_lt. apply H. destruct (nth_in_or_default i l last) as [X|X]; [right; exact X|left; symmetry; exact X].
Qed.
Lemma two_ways_lively max bas : lively (two_ways_net max bas).
Proof.
  split; [|intro; reflexivity]. intros k q G. destruct k as [|[|[|[|k]]]]; [injection G as <-..|destruct k; discriminate];
    (split; apply steps_brisk; reflexivity).
Qed.
Example C66_stops_example : well_made (two_ways_net Inf true) /\ lively (two_ways_net Inf true) /\ made_for (two_ways_net Inf true) /\
  connected (two_ways_net Inf true) /\ mild_loops (two_ways_net Inf true) /\ nreach tidy (two_ways_net Inf true) (reached [KInit [0%nat]] (two_ways_net Inf true)) /\
  nt_init (reached [KInit [0%nat]] (two_ways_net Inf true)) = true /\
  simulate_time 10 (Fin 9) (reached [KInit [0%nat]] (two_ways_net Inf true)) = None /\
  exists n', simulate_time 30 (Fin 9) (reached [KInit [0%nat]] (two_ways_net Inf true)) = Some (Ok n') /\ nt_t n' = Fin 9 /\ nt_events n' = 13.
Proof.
  split; [apply two_ways_made|]. split; [apply two_ways_lively|]. split; [apply two_ways_for|]. split; [apply two_ways_connected|].
  split; [apply two_ways_mild|]. split.
  { apply nreach_step with (n := two_ways_net Inf true) (c := KInit [0%nat]); [constructor| |vm_compute; reflexivity]. split; [reflexivity|discriminate]. }
  split; [vm_compute; reflexivity|]. split; [vm_compute; reflexivity|]. eexists. split; [vm_compute; reflexivity|]. split; reflexivity.
Qed.

(** Without that it may not. *)
Definition same_time (_ : nat) (t : ext) : ext := t.
Definition zeno : net :=
  build [ (mkCfg CLoss 0 1 0 1 same_time same_time KAgent Inf Inf (Fin 0) (Fin 4), Fin 0);
          (mkCfg CNull 1 2 1 0 same_time same_time KAgent Inf Inf (Fin 0) (Fin 4), Fin 1) ] [[0]; [1]; []]%nat Inf true half.
Definition zeno_start : list ncall := [KOp (NCollect false [0; 1]%nat); KInit [0%nat]].
(** The states that follow. *)
Definition zeno_at (o b ev : Z) (i : nat) : net :=
  let n := reached zeno_start zeno in
  set_nt_events ev (match nt_queues n with
  | q :: r => set_nt_queues (set_q_arr [Ag (mkAgent (0%nat, o) KAgent (Fin 0) 0 false false [(0, 0, 0)] [norow]); Sentinel]
      (set_q_oarr (o + 1) (set_q_blocked b (set_q_ia i q))) :: r) n
  | [] => n
  end).
Lemma zeno_step o b ev i : simulate_event (zeno_at o b ev i) = Ok (zeno_at (o + 1) (b + 1) (ev + 1) (S i)).
Proof. vm_compute. reflexivity. Qed.

Theorem C66_stops_refuted : exists n0 l n, well_made n0 /\ usual_calls l n0 = true /\ calls l n0 = Ok n /\
  forall fuel, simulate_time fuel (Fin 1) n = None.
Proof.
  exists zeno, zeno_start, (zeno_at 0 0 0 1). split; [apply build_made; intros k p G; destruct k as [|[|[|k]]]; try discriminate;
    injection G as <-; (split; [reflexivity|split; intros; apply eLe_refl])|].
  split; [vm_compute; reflexivity|]. split; [vm_compute; reflexivity|]. intro fuel.
  change (net_simulate_while fuel (Fin 1) (zeno_at 0 0 0 1) = None). generalize 0 at 1, 0 at 1, 0 at 1, 1%nat.
  induction fuel as [|f IH]; intros o b ev i; [reflexivity|]. cbn [net_simulate_while].
  change (eltb (nt_t (zeno_at o b ev i)) (Fin 1)) with true. cbn [negb]. rewrite zeno_step. apply IH.
Qed.
Print Assumptions C66_stops_refuted.

(** ** C67: next_event_description *)

(** On an initialized network it does not raise.  If it says Nothing then no
    queue has an event.  If some queue has an event, it names the queue with
    the earliest one, the first of several, and says whether an arrival or a
    departure is next there. *)
Theorem C67_describes_partial : forall n0 n, well_made n0 -> nreach usual n0 n ->
  exists d e, net_next_description n = Ok (d, e) /\
   ((forall q, In q (nt_queues n) -> q_time q = Inf) \/
    exists k q, e = Some k /\ foremost n k q /\ q_time q <> Inf /\ next_kind q d).
Proof.
  intros n0 n W R. apply ngood_reach in R as [I _]; [|exact W]. destruct (net_description _ I) as [(_ & H & X)|(k & q & d & FM & _ & NK & H)].
  - do 2 eexists. split; [exact H|left; exact X].
  - do 2 eexists. split; [exact H|]. destruct (q_time q) as [z|] eqn:T.
    + right. exists k, q. split; [reflexivity|]. split; [exact FM|]. split; [congruence|].
      destruct NK as [[-> X]|[[-> X]|[-> X]]]; [congruence|right; left; auto|right; right; auto].
    + left. intros q' IN. apply In_nth_error in IN as (j & G). destruct FM as [_ FM]. destruct (FM j q' G) as [X|[X _]]; [rewrite T in X; destruct X|congruence].
Qed.
Print Assumptions C67_describes_partial.

Example C67_example : map q_time (nt_queues (ex_at 4)) = [Fin 4; Fin 9; Inf; Inf] /\ net_next_description (ex_at 4) = Ok (1, Some 0%nat) /\
  exists q, foremost (ex_at 4) 0 q /\ next_kind q 1.
Proof.
  split; [vm_compute; reflexivity|]. split; [vm_compute; reflexivity|]. eexists. split.
  - split; [vm_compute; reflexivity|]. intros j qj G. destruct j as [|[|[|[|j]]]]; [..|vm_compute in G; destruct j; discriminate]; vm_compute in G; injection G as <-; vm_compute; auto with arith.
  - right; left. split; [reflexivity|]. split; [vm_compute; discriminate|]. eexists. split; [left; reflexivity|reflexivity].
Qed.

(** If it says Departure, there may be none: every queue is idle. *)
Theorem C67_refuted : exists n0 l n, well_made n0 /\ usual_calls l n0 = true /\ calls l n0 = Ok n /\
  (forall q, In q (nt_queues n) -> q_time q = Inf) /\ net_next_description n = Ok (2, Some 0%nat).
Proof.
  exists overtaking, (KInit [0%nat] :: sims 6). eexists. split; [apply overtaking_made|].
  split; [vm_compute; reflexivity|]. split; [vm_compute; reflexivity|].
  split; [intros q [<-|[<-|[<-|[]]]]; reflexivity|]. vm_compute. reflexivity.
Qed.
Print Assumptions C67_refuted.

(** If no other queue has an event at that time, the described event is what
    simulate does next, or simulate throws away a leftover entry. *)
Theorem C67_next : forall n0 n n' d k q, well_made n0 -> nreach usual n0 n ->
  net_next_description n = Ok (d, Some k) -> get (nt_queues n) k = Some q ->
  (forall j qj, get (nt_queues n) j = Some qj -> j <> k -> q_time qj <> q_time q) ->
  simulate_event n = Ok n' ->
  nt_queues n' = nt_queues n \/
  nt_t n' = q_time q /\ exists q', get (nt_queues n') k = Some q' /\
   (d = 1 /\ (forall j, j <> k -> get (nt_queues n') j = get (nt_queues n) j) /\ q_departed q' = q_departed q \/
    d = 2 /\ (q_departed q' = q_departed q + 1 \/ exists e, stays n n' k e)).
Proof.
  intros n0 n n' d k q W R H G U S. apply ngood_reach in R as [I _]; [|exact W].
  destruct (net_description _ I) as [(_ & X & _)|(k' & q' & d' & [G' FM] & D & _ & X)]; [congruence|].
  rewrite X in H. injection H as <- <-. rewrite G' in G. injection G as ->.
  destruct (nst_kind n n' k' q I G') as [Y|(T & qn & GN & Y)].
  - intros j qj GJ NE. destruct (FM _ _ GJ) as [Z|[Z _]]; [exact Z|]. exfalso. apply (U _ _ GJ NE). symmetry; exact Z.
  - apply sim_nst; assumption.
  - left; exact Y.
  - right. split; [exact T|]. exists qn. split; [exact GN|].
    destruct Y as [(DS & A & B)|(DS & A)]; rewrite D in DS; injection DS as ->; [left|right]; auto.
Qed.
Print Assumptions C67_next.

Example C67_next_example : net_next_description (ex_at 4) = Ok (1, Some 0%nat) /\
  (exists n', simulate_event (ex_at 4) = Ok n' /\ nt_t n' = Fin 4 /\ map q_narr (nt_queues (ex_at 4)) = [3; 1; 0; 0] /\ map q_narr (nt_queues n') = [4; 1; 0; 0]) /\
  net_next_description (ex_at 7) = Ok (2, Some 0%nat).
Proof. split; [vm_compute; reflexivity|]. split; [eexists; split; [vm_compute; reflexivity|]; vm_compute; auto|]. vm_compute; reflexivity. Qed.

(** With ties the event may be at another queue. *)
Definition tied : net :=
  build [ (net_cfg CServer 0 2 0 1 (steps [2] 1) (steps [] 9) KAgent Inf, Fin 3);
          (net_cfg CServer 1 2 1 1 (steps [1] 2) (steps [] 9) KAgent Inf, Fin 3);
          (net_cfg CNull 2 3 2 0 (steps [] 1) (steps [] 1) KAgent Inf, Fin 1) ]
        [[0]; [1]; [2]; []]%nat Inf true half.
Theorem C67_tie_refuted : exists n0 l n n', well_made n0 /\ usual_calls l n0 = true /\ calls l n0 = Ok n /\
  map q_time (nt_queues n) = [Fin 3; Fin 3; Inf] /\ net_next_description n = Ok (1, Some 0%nat) /\
  simulate_event n = Ok n' /\ get (nt_queues n') 0 = get (nt_queues n) 0 /\ map q_narr (nt_queues n) = [1; 1; 0] /\ map q_narr (nt_queues n') = [1; 2; 0].
Proof.
  exists tied, (KInit [0%nat; 1%nat] :: sims 2). do 2 eexists. split; [apply build_made; made|].
  split; [vm_compute; reflexivity|]. split; [vm_compute; reflexivity|]. split; [reflexivity|]. split; [vm_compute; reflexivity|].
  split; [vm_compute; reflexivity|]. split; [reflexivity|]. split; reflexivity.
Qed.
Print Assumptions C67_tie_refuted.

(** ** C68: initialize(nActive) *)

Theorem C68_active : forall n0 n z pick n', well_made n0 -> nreach usual n0 n -> nt_init n = false -> eLe (Fin 0) (nt_max n) ->
  draws pick -> initialize_active (PInt z) pick n = Ok n' ->
  1 <= z /\ exists sel, NoDup sel /\ Fin (zlen sel) = emin (Fin (Z.min z (zlen (eligible n)))) (nt_max n) /\
    (forall k, In k sel -> exists q, get (nt_queues n) k = Some q /\ c_type (q_cfg q) <> 0) /\
    (forall k q, get (nt_queues n) k = Some q ->
      (~ In k sel -> get (nt_queues n') k = Some q) /\ (In k sel -> exists q', set_active q = Ok q' /\ get (nt_queues n') k = Some q')) /\
    scheduled_exactly n' /\ nt_init n' = true.
Proof. intros n0 n z pick n' W R NI. apply ngood_reach in R as [I B]; [|exact W]. apply active_exact; auto. Qed.
Print Assumptions C68_active.

(** It works if there is something to start, and raises otherwise. *)
Theorem C68_works : forall n0 n z pick, well_made n0 -> made_for n0 -> connected n0 -> mild_loops n0 -> nreach tidy n0 n -> nt_init n = false ->
  draws pick -> 1 <= z -> eligible n <> [] -> exists n', initialize_active (PInt z) pick n = Ok n'.
Proof.
  intros n0 n z pick W MF CN NL R NI DR Z1 EL. assert (LV := live_reach _ _ W MF CN NL R). assert (R' := R). apply (nreach_weak _ usual) in R'; [|intros ? ? [X _]; exact X].
  assert (GD := ngood_reach _ _ W R'). unfold initialize_active. rewrite (proj2 (Z.leb_le 1 z) Z1).
  destruct (candidates_exact _ (proj1 GD)) as (ND & CI & CL). destruct (DR (candidates n) (Nat.min (Z.to_nat z) (length (candidates n))) ND) as (P1 & P2 & P3); [lia|].
  apply initialize_total; auto.
  - intros k K. apply P2, CI in K as (q & G & _). exact (get_lt _ _ _ G).
  - destruct (pick (candidates n) (Nat.min (Z.to_nat z) (length (candidates n)))) as [|k l] eqn:E.
    + exfalso. cbn in P3. unfold eligible in EL. rewrite CL in P3. destruct (filter _ _); [congruence|]. cbn in P3. lia.
    + assert (K : In k (k :: l)) by (left; reflexivity). destruct (proj1 (CI k) (P2 _ K)) as (q & G & T). exists k, q. auto.
Qed.
Print Assumptions C68_works.

Theorem C68_raises : forall n pick,
  (forall z, z < 1 -> initialize_active (PInt z) pick n = Err ValueError) /\
  initialize_active PInf pick n = Err TypeError /\ initialize_active POther pick n = Err TypeError /\
  (forall z, 1 <= z -> draws pick -> eligible n = [] -> initialize_active (PInt z) pick n = Err QueueingToolError).
Proof.
  intros n pick. split; [|split; [reflexivity|split; [reflexivity|]]].
  - intros z Z1. unfold initialize_active. destruct (Z.leb_spec 1 z); [lia|reflexivity].
  - intros z Z1 DR EL. unfold initialize_active. apply Z.leb_le in Z1 as ->. unfold candidates. unfold eligible in EL. rewrite EL. cbn [map length].
    rewrite Nat.min_0_r. destruct (DR [] 0%nat (NoDup_nil _) (Nat.le_refl _)) as (_ & _ & L). destruct (pick [] 0%nat); [|discriminate]. apply initialize_raises. intros k [].
Qed.
Print Assumptions C68_raises.

Lemma firstn_draws : draws (fun l m => firstn m l).
Proof.
  intros l m N L. split; [apply NetClaims3.firstn_nodup; exact N|]. split; [intros x X; eapply in_firstn; exact X|]. rewrite firstn_length. lia.
Qed.
Example C68_example : draws (fun l m => firstn m l) /\ length (eligible (two_ways_net Inf true)) = 2%nat /\
  (exists n', initialize_active (PInt 7) (fun l m => firstn m l) (two_ways_net Inf true) = Ok n' /\ map q_active (nt_queues n') = [true; true; false; false]) /\
  (exists n', initialize_active (PInt 1) (fun l m => firstn m l) (two_ways_net Inf true) = Ok n' /\ map q_active (nt_queues n') = [true; false; false; false]) /\
  exists n', initialize_active (PInt 7) (fun l m => firstn m l) (two_ways_net (Fin 1) true) = Ok n' /\ map q_active (nt_queues n') = [true; false; false; false].
Proof.
  split; [apply firstn_draws|]. split; [reflexivity|]. split; [eexists; split; vm_compute; reflexivity|].
  split; [eexists; split; vm_compute; reflexivity|]. eexists; split; vm_compute; reflexivity.
Qed.

(** initialize on selected queues works, too, if one of them is not an exit
    (see C41). *)
Theorem C41_works : forall n0 n sel, well_made n0 -> made_for n0 -> connected n0 -> mild_loops n0 -> nreach tidy n0 n -> nt_init n = false ->
  (forall k, In k sel -> (k < length (nt_queues n))%nat) ->
  (exists k q, In k sel /\ get (nt_queues n) k = Some q /\ c_type (q_cfg q) <> 0) ->
  exists n', initialize_queues sel n = Ok n'.
Proof.
  intros n0 n sel W MF CN NL R NI. assert (LV := live_reach _ _ W MF CN NL R). assert (R' := R). apply (nreach_weak _ usual) in R'; [|intros ? ? [X _]; exact X].
  apply initialize_total; auto. apply (ngood_reach _ _ W R').
Qed.
Print Assumptions C41_works.

Example C41_works_example : exists q, get (nt_queues (two_ways_net Inf true)) 1 = Some q /\ c_type (q_cfg q) <> 0 /\
  exists n', initialize_queues [3%nat; 1%nat] (two_ways_net Inf true) = Ok n' /\ map q_active (nt_queues n') = [false; true; false; false].
Proof. eexists. split; [reflexivity|]. split; [discriminate|]. eexists. split; vm_compute; reflexivity. Qed.

(** ** C69: start_collecting_data, stop_collecting_data and clear_data *)

(** They act on the selected queues and on nothing else. *)
Theorem C69_collect : forall b l n n', net_collect b l n = Ok n' ->
  n' = set_nt_queues (nt_queues n') n /\ length (nt_queues n') = length (nt_queues n) /\
  forall k q, get (nt_queues n) k = Some q ->
    (In k l -> get (nt_queues n') k = Some (set_q_collect b q)) /\ (~ In k l -> get (nt_queues n') k = Some q).
Proof. intros b l n n' H. apply on_queues_exact in H as (A & B & _ & C); [auto|reflexivity]. Qed.
Print Assumptions C69_collect.

Theorem C69_clear_data : forall l n n', net_clear_data l n = Ok n' ->
  n' = set_nt_queues (nt_queues n') n /\ length (nt_queues n') = length (nt_queues n) /\
  forall k q, get (nt_queues n) k = Some q ->
    (In k l -> get (nt_queues n') k = Some (set_q_data [] q)) /\ (~ In k l -> get (nt_queues n') k = Some q).
Proof. intros l n n' H. apply on_queues_exact in H as (A & B & _ & C); [auto|reflexivity]. Qed.
Print Assumptions C69_clear_data.

(** They raise only IndexError, exactly if there is no such queue. *)
Theorem C69_raises : forall b l n,
  ((exists x, net_collect b l n = Err x) <-> exists k, In k l /\ (length (nt_queues n) <= k)%nat) /\
  ((exists x, net_clear_data l n = Err x) <-> exists k, In k l /\ (length (nt_queues n) <= k)%nat) /\
  (forall x, net_collect b l n = Err x -> x = IndexError) /\ (forall x, net_clear_data l n = Err x -> x = IndexError).
Proof.
  assert (A : forall f l n, (forall q : queue, f (f q) = f q) -> (exists x, on_queues f l n = Err x) <-> exists k, In k l /\ (length (nt_queues n) <= k)%nat).
  { intros f l n F. split; [intros (x & H); apply on_queues_err in H; tauto|]. intros (k & IN & L). destruct (on_queues f l n) as [n'|x] eqn:E; [|eauto].
    apply on_queues_exact in E as (_ & _ & X & _); [|exact F]. apply X in IN. lia. }
  intros b l n. split; [apply A; reflexivity|]. split; [apply A; reflexivity|].
  split; intros x H; apply on_queues_err in H; tauto.
Qed.
Print Assumptions C69_raises.

(** Where collection is off, the data do not change during a simulation; and
    simulation never switches it. *)
Theorem C69_off : forall n0 n m n' k q, well_made n0 -> nreach usual n0 n -> nruns m n = Ok n' -> get (nt_queues n) k = Some q ->
  exists q', get (nt_queues n') k = Some q' /\ q_collect q' = q_collect q /\ (q_collect q = false -> q_data q' = q_data q).
Proof.
  intros n0 n m n' k q W R H G. apply ngood_reach in R as [I _]; [|exact W]. destruct (keeps_runs _ _ _ I H _ _ G) as (q' & G' & K & D). eauto.
Qed.
Print Assumptions C69_off.

Example C69_example : exists n1 n2, net_collect false [0%nat; 2%nat; 0%nat] (ex_at 3) = Ok n1 /\ nruns 9 n1 = Ok n2 /\
  map q_collect (nt_queues (ex_at 3)) = [true; true; true; true] /\ map q_collect (nt_queues n1) = [false; true; false; true] /\
  map q_collect (nt_queues n2) = [false; true; false; true] /\
  map (fun q => length (q_data q)) (nt_queues n1) = [3; 0; 0; 0]%nat /\ map (fun q => length (q_data q)) (nt_queues n2) = [3; 1; 0; 0]%nat /\
  map q_departed (nt_queues n2) = [2; 0; 0; 0] /\ net_collect false [0%nat; 4%nat] (ex_at 3) = Err IndexError /\
  exists n3, net_clear_data [1%nat] n2 = Ok n3 /\ map (fun q => length (q_data q)) (nt_queues n3) = [3; 0; 0; 0]%nat.
Proof.
  do 2 eexists. split; [vm_compute; reflexivity|]. split; [vm_compute; reflexivity|]. repeat (split; [vm_compute; reflexivity|]).
  eexists. split; vm_compute; reflexivity.
Qed.

(** ** C37, C41, C43: what stays *)

(** The graph and the parameters of the queues are fixed: no call changes
    them. *)
Theorem C37_fixed : forall n0 n, well_made n0 -> nreach usual n0 n ->
  nt_out n = nt_out n0 /\ map q_cfg (nt_queues n) = map q_cfg (nt_queues n0).
Proof. exact same_graph. Qed.
Print Assumptions C37_fixed.

Example C37_fixed_example : nreach usual (two_ways_net Inf true) (ex_at 8) /\ nt_out (ex_at 8) = [[0]; [1; 2]; [3]; []; []]%nat /\
  map (fun q => c_tgt (q_cfg q)) (nt_queues (ex_at 8)) = [1; 2; 3; 4]%nat.
Proof. split; [apply reached_usual; vm_compute; reflexivity|]. split; vm_compute; reflexivity. Qed.

(** initialize changes neither the routing, nor the options, nor the random
    numbers. *)
Theorem C41_keeps : forall sel n n', initialize_queues sel n = Ok n' ->
  nt_out n' = nt_out n /\ nt_probs n' = nt_probs n /\ nt_max n' = nt_max n /\ nt_bas n' = nt_bas n /\ nt_t n' = nt_t n /\ nt_events n' = nt_events n /\
  nt_u n' = nt_u n /\ nt_iu n' = nt_iu n /\ nt_eps n' = nt_eps n /\ nt_ie n' = nt_ie n.
Proof. exact initialize_keeps. Qed.
Print Assumptions C41_keeps.

(** clear changes neither the routing nor the options. *)
Theorem C43_keeps : forall n, let n' := net_clear n in
  nt_out n' = nt_out n /\ nt_probs n' = nt_probs n /\ nt_max n' = nt_max n /\ nt_bas n' = nt_bas n /\
  nt_u n' = nt_u n /\ nt_iu n' = nt_iu n /\ nt_eps n' = nt_eps n /\ nt_ie n' = nt_ie n /\
  map q_cfg (nt_queues n') = map q_cfg (nt_queues n) /\ map q_collect (nt_queues n') = map q_collect (nt_queues n).
Proof.
  intro n. cbv zeta. repeat (split; [reflexivity|]). unfold net_clear. nc. rewrite !map_map.
  split; apply map_ext; intro q; unfold clear, qs_clear; destruct (c_class (q_cfg q)); reflexivity.
Qed.
Print Assumptions C43_keeps.

Example C41_keeps_example : exists n n', initialize_queues [0%nat] (two_ways_net (Fin 5) false) = Ok n /\ nruns 8 n = Ok n' /\
  nt_max (net_clear n') = Fin 5 /\ nt_bas (net_clear n') = false /\ nt_iu (net_clear n') = nt_iu n' /\ (0 < nt_iu n')%nat.
Proof. do 2 eexists. split; [vm_compute; reflexivity|]. split; [vm_compute; reflexivity|]. vm_compute. repeat split; lia. Qed.
