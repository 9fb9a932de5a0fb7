(** * PropsCalls: claim C110, how often the functions of the user are called *)
From Coq Require Import List ZArith QArith Bool Arith Lia Permutation.
From Verif Require Import Base Heap Queue SpecQueue QueueHist QueueClaims1 Network NetReach NetInv NetActive SpecNet SpecRefine NetRefine NetExamples NetBare LineNet PropsNet2 SpecCalls Calls CallsNet.
Import ListNotations.
Open Scope Z_scope.

(** ** C110 *)

(** [service_f] is called once for each service: for every agent that has
    left or is served, and once more for each service that was repeated. *)
Theorem C110_services : forall c s col n q0 ops log q, c_class c <> CNull -> reach anything (new_queue c s col n) q0 ->
  Forall no_clear ops -> exec ops q0 = Ok (log, q) ->
  (length (in_service q) + length (departed log) + q_is q0 + agains log = length (in_service q0) + q_is q)%nat.
Proof. intros c s col n q0 ops log q N R. eapply served_exec; [exact N|]. eapply basics_reach. exact R. Qed.
Print Assumptions C110_services.

(** From the start: the number of calls is that of the agents that have
    departed, of those served, and of the repeated services. *)
Theorem C110_from_start : forall c s col n ops log q, c_class c <> CNull -> Forall no_clear ops -> exec ops (new_queue c s col n) = Ok (log, q) ->
  Z.of_nat (q_is q) = q_departed q + serving q + Z.of_nat (agains log).
Proof.
  intros c s col n ops log q N F H. assert (X := C110_services c s col n _ ops log q N (reach_here _ _) F H).
  destruct (conservation ops _ log q (or_introl (ex_intro _ c (ex_intro _ s (ex_intro _ col (ex_intro _ n eq_refl))))) N F H) as (_ & D & _).
  rewrite D. unfold serving, zlen. change (in_service (new_queue c s col n)) with (@nil agent) in X. change (q_is (new_queue c s col n)) with 0%nat in X. cbn [length] in X. lia.
Qed.
Print Assumptions C110_from_start.

(** [arrival_f]: what one call of a method does. *)
Theorem C110_arrival : forall c s col n q o q', c_class c <> CNull -> reach anything (new_queue c s col n) q -> no_clear o -> run_op o q = Ok q' -> asked_step q q'.
Proof. intros c s col n q o q' N R. apply basics_reach in R as [IV C _ _ _]. apply asked_op; [exact IV|congruence]. Qed.
Print Assumptions C110_arrival.

(** There are at most as many outside arrivals as calls of [arrival_f], and
    exactly as many if all its values are before [deactive_t]. *)
Theorem C110_arrivals : forall c s col n q0 ops log q, c_class c <> CNull -> reach anything (new_queue c s col n) q0 ->
  Forall no_clear ops -> exec ops q0 = Ok (log, q) ->
  q_oarr q0 <= q_oarr q <= q_oarr q0 + Z.of_nat (q_ia q) - Z.of_nat (q_ia q0) /\
  ((forall i t, (q_ia q0 <= i < q_ia q)%nat -> eLt (c_arr c i t) (c_deactive_t c)) -> q_oarr q = q_oarr q0 + Z.of_nat (q_ia q) - Z.of_nat (q_ia q0)).
Proof. intros c s col n q0 ops log q N R. eapply asked_exec; [exact N|]. eapply basics_reach. exact R. Qed.
Print Assumptions C110_arrivals.

(** The queues of a network. *)
Theorem C110_network : forall n0 n k q, well_made n0 -> nreach unbroken n0 n -> get (nt_queues n) k = Some q -> c_class (q_cfg q) <> CNull ->
  q_departed q + serving q <= Z.of_nat (q_is q) /\ 0 <= q_oarr q <= Z.of_nat (q_ia q) /\
  ((forall i t, (i < q_ia q)%nat -> eLt (c_arr (q_cfg q) i t) (c_deactive_t (q_cfg q))) -> q_oarr q = Z.of_nat (q_ia q)).
Proof.
  intros n0 n k q W R G N. destruct (refines_unbroken n0 n0 n k q W ltac:(constructor) R G) as (q1 & q2 & G1 & R2 & B).
  destruct (made_new _ _ _ W G1) as (c & s & col & nE & -> & _). destruct (reach_exec _ _ _ R2) as (ops & log & E & A & M).
  assert (F : Forall no_clear ops). { rewrite M. clear -A. induction A as [|[[[o x] r] y] log H _ IH]; constructor; [exact (proj2 H)|exact IH]. }
  assert (D := bare_fields _ _ B). destruct (bare_ids _ _ B) as (_ & I2 & _).
  destruct D as (D1 & _ & D3 & _ & _ & _ & _ & D8 & _ & _ & _ & _ & _ & _ & _ & D16 & D17).
  assert (C : q_cfg q2 = c) by (apply basics_reach in R2 as [_ C _ _ _]; exact C).
  assert (N' : c_class c <> CNull) by congruence.
  assert (S1 := C110_from_start c s col nE ops log q2 N' F E). assert (S2 := C110_arrivals c s col nE _ ops log q2 N' (reach_here _ _) F E).
  change (q_oarr (new_queue c s col nE)) with 0 in S2. change (q_ia (new_queue c s col nE)) with 0%nat in S2. rewrite <- D1, <- D3, <- D8, <- D16, <- D17, C.
  assert (L : serving q = serving q2). { unfold serving. apply (f_equal (@length aid)) in I2. unfold ids in I2. rewrite !map_length in I2. congruence. } rewrite L.
  split; [lia|]. destruct S2 as [S2 S3]. split; [lia|]. intro H. rewrite S3; [lia|]. intros i t X. apply H. lia.
Qed.
Print Assumptions C110_network.

(** A network with blocking 'BAS' repeats no service: blocked agents are
    delayed to a given time. *)
Theorem C110_once : forall n0 n k q, well_made n0 -> nreach served_once n0 n -> get (nt_queues n) k = Some q -> c_class (q_cfg q) <> CNull ->
  Z.of_nat (q_is q) = q_departed q + serving q.
Proof. intros n0 n k q W R G. exact (proj2 (exact_reach n0 n W R k q G)). Qed.
Print Assumptions C110_once.

(** *** Examples *)

(** Two servers, arrivals every 2, services of 5, arrivals until 20: agents
    depart, two services are repeated, and the queue switches itself off. *)
Definition cfg110 : qcfg := mkCfg CServer 0 1 0 1 (steps [] 2) (steps [] 5) KAgent Inf (Fin 20) Inf Inf.
Definition ops110 : list qop := [ODelay None; OActive] ++ repeat ONext 6 ++ [ODelay None; ONext; ODelay (Some (Fin 12)); ONext; ODelay None] ++ repeat ONext 7.
Definition look110 (r : res (list entry * queue)) :=
  match r with
  | Ok (log, q) => Ok (q_is q, length (in_service q), length (departed log), agains log, (q_ia q, q_oarr q, q_active q, q_next_ct q))
  | Err e => Err e
  end.
Example C110_example : c_class cfg110 <> CNull /\ Forall no_clear ops110 /\
  look110 (exec ops110 (new_queue cfg110 (Fin 2) true 1)) = Ok (10%nat, 2%nat, 6%nat, 2%nat, (10%nat, 9, false, Fin 20)).
Proof. split; [discriminate|]. split; [repeat constructor|]. vm_compute. reflexivity. Qed.

(** The queues of a network in which agents are blocked (their delays come
    with a time, so no service is repeated). *)
Definition at110 : net := reached (KInit [0%nat] :: sims 16) (two_ways_net Inf true).
Fixpoint bas110 (l : list ncall) (n : net) : bool :=
  match l with [] => true | c :: l' => nt_bas n && match run_call c n with Ok n' => bas110 l' n' | Err _ => false end end.
Lemma once110 l : forall n0 n n', nreach served_once n0 n -> bas110 l n = true -> usual_calls l n = true -> forallb plain_call l = true -> calls l n = Ok n' -> nreach served_once n0 n'.
Proof.
  induction l as [|c l IH]; intros n0 n1 n' R B U P E; cbn [usual_calls calls forallb bas110] in *; [injection E as <-; exact R|].
  apply andb_true_iff in U as [U1 U2]. apply andb_true_iff in P as [P1 P2]. apply andb_true_iff in B as [B1 B2]. destruct (run_call c n1) as [n2|] eqn:C; [|discriminate].
  apply (IH n0 n2); [|assumption..]. apply (nreach_step _ _ n1 c); [exact R| |exact C].
  split; [split|exact B1]; [destruct c as [sel| | |[]]; cbn [usual usualb] in *; try exact Logic.I; [destruct (nt_init n1); [discriminate|reflexivity]|exact U1]|intros ->; discriminate].
Qed.
Example C110_network_example : well_made (two_ways_net Inf true) /\ nreach unbroken (two_ways_net Inf true) at110 /\ nreach served_once (two_ways_net Inf true) at110 /\
  map (fun q => (q_departed q, serving q, q_is q, q_oarr q, q_ia q)) (nt_queues at110) =
  [(3, 2, 5%nat, 11, 11%nat); (1, 1, 2%nat, 0, 0%nat); (0, 0, 0%nat, 0, 0%nat); (0, 0, 0%nat, 0, 0%nat)].
Proof.
  split; [apply two_ways_made|]. split; [|split; [eapply once110; [constructor| | | |unfold at110, reached; destruct (usual_calls_Ok (KInit [0%nat] :: sims 16) (two_ways_net Inf true) ltac:(vm_compute; reflexivity)) as (n & ->); reflexivity]; vm_compute; reflexivity|vm_compute; reflexivity]].
  apply attentive_unbroken, plain_reach; vm_compute; reflexivity.
Qed.

(** There need not be as many outside arrivals as calls of [arrival_f]: the
    value that is not before [deactive_t] is lost. *)
Theorem C110_refuted : exists ops log q, exec ops (new_queue cfg110 (Fin 2) true 1) = Ok (log, q) /\ Forall no_clear ops /\ q_oarr q <> Z.of_nat (q_ia q).
Proof.
  exists ops110. destruct C110_example as (_ & F & E). destruct (exec ops110 (new_queue cfg110 (Fin 2) true 1)) as [[log q]|e]; [|discriminate].
  exists log, q. split; [reflexivity|]. split; [exact F|]. injection E as _ _ _ _ I O _ _. rewrite I, O. discriminate.
Qed.
Print Assumptions C110_refuted.

(** With blocking 'RS' a blocked agent is served again. *)
Theorem C110_once_refuted : exists n0 n q, well_made n0 /\ nreach unbroken n0 n /\ get (nt_queues n) 0 = Some q /\ c_class (q_cfg q) <> CNull /\
  Z.of_nat (q_is q) <> q_departed q + serving q.
Proof.
  exists (two_ways_net Inf false), (reached (KInit [0%nat] :: sims 16) (two_ways_net Inf false)).
  assert (U : usual_calls (KInit [0%nat] :: sims 16) (two_ways_net Inf false) = true) by (vm_compute; reflexivity).
  assert (X : match get (nt_queues (reached (KInit [0%nat] :: sims 16) (two_ways_net Inf false))) 0 with
              | Some q => (match c_class (q_cfg q) with CNull => false | _ => true end) && negb (Z.eqb (Z.of_nat (q_is q)) (q_departed q + serving q)) | None => false end = true) by (vm_compute; reflexivity).
  destruct (get (nt_queues (reached (KInit [0%nat] :: sims 16) (two_ways_net Inf false))) 0) as [q|]; [|discriminate].
  exists q. apply andb_prop in X as [X Y]. split; [apply two_ways_made|]. split; [apply attentive_unbroken, plain_reach; [exact U|reflexivity]|]. split; [reflexivity|].
  split; [intro Z; rewrite Z in X; discriminate|]. intro Z. rewrite Z, Z.eqb_refl in Y. discriminate.
Qed.
Print Assumptions C110_once_refuted.
