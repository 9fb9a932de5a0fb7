(** * PropsAgain: claim C104, a cleared network goes on like a new one *)
From Coq Require Import List ZArith QArith Bool Arith Lia.
From Verif Require Import Base PQueue Queue SpecQueue Network NetReach SpecNet NetExamples NetBare SpecAgain Again AgainNet SpecRenew Renew.
Import ListNotations.
Open Scope Z_scope.

(** ** C104 *)

(** A queue in the same state whose functions have been called more often
    behaves in the same way if they answer the same from there on. *)
Theorem C104_queue : forall A B I J ops q, goes_on A B I J (q_cfg q) ->
  run_ops ops (late A B I J q) = match run_ops ops q with Ok q' => Ok (late A B I J q') | Err e => Err e end.
Proof. intros A B I J ops q F. rewrite (ops_late A B I J ops q F). destruct (run_ops ops q); reflexivity. Qed.
Print Assumptions C104_queue.

(** Likewise a network. *)
Theorem C104_network : forall A B I J U a E b l n, net_goes_on A B I J U a E b n ->
  calls l (late_net A B I J U a E b n) = match calls l n with Ok n' => Ok (late_net A B I J U a E b n') | Err e => Err e end.
Proof. intros A B I J U a E b l n F. rewrite (calls_late A B I J U a E b l n F). destruct (calls l n); reflexivity. Qed.
Print Assumptions C104_network.

(** A cleared network is a new one after as many draws. *)
Theorem C104_clear : forall n0 n, well_made n0 -> nreach usual n0 n -> tidy_exits n -> net_clear n = as_late_as n (renew n).
Proof. exact clear_renewed. Qed.
Print Assumptions C104_clear.

(** initialize never makes an exit of type 0 active, so that only the data
    have to be dropped. *)
Theorem C104_exits : forall n0 n, well_made n0 -> nreach usual n0 n ->
  (forall q, In q (nt_queues n) -> c_class (q_cfg q) = CNull -> c_type (q_cfg q) = 0 /\ q_data q = []) -> tidy_exits n.
Proof. intros n0 n. apply exits_tidy. Qed.
Print Assumptions C104_exits.

(** The new network can be made: the constructor, then
    set_transitions. *)
Theorem C104_made : forall n0 n, well_made n0 -> nreach usual n0 n -> exists m, well_made m /\ run_call (KOp (NProbs (nt_probs n))) m = Ok (renew n).
Proof.
  intros n0 n W R. apply ngood_reach in R as [V _]; [|exact W]. eexists. split; [|reflexivity]. exists (map renew_q (nt_queues n)). do 6 eexists. split; [reflexivity|]. split.
  - intros k q G. unfold get in G. rewrite nth_error_map in G. destruct (nth_error (nt_queues n) k) as [q0|] eqn:G0; [|discriminate]. injection G as <-. assert (K := NetInv.ni_q _ V k q0 G0).
    exists (rest_cfg q0), (q_servers q0), (q_collect q0), (length (q_net q0)). split; [reflexivity|]. split; [exact (NetInv.qk_idx _ _ _ K)|].
    destruct (NetInv.qk_fwd _ _ _ K) as [F1 F2]. split; intros j t; [apply F1|apply F2].
  - intro i. apply (NetInv.ni_eps _ V).
Qed.
Print Assumptions C104_made.

(** Whatever is done with the cleared network has the same results, errors
    included, as with the new one. *)
Theorem C104_again : forall n0 n l, well_made n0 -> nreach usual n0 n -> tidy_exits n ->
  face_of (calls l (net_clear n)) = face_of (calls l (renew n)).
Proof.
  intros n0 n l W R T. rewrite (clear_renewed n0 n W R T). unfold as_late_as. rewrite (calls_late _ _ _ _ _ _ _ _ l (renew n) (renew_goes_on n0 n W R)). apply face_rmap.
Qed.
Print Assumptions C104_again.

(** If the answers do not depend on how many were given before, a simulation
    after clear is the first one once more. *)
Theorem C104_repeats : forall n0 n l, well_made n0 -> nreach usual n0 n -> tidy_exits n -> unnumbered n0 -> same_settings n0 n ->
  face_of (calls l (net_clear n)) = face_of (calls l n0).
Proof.
  intros n0 n l W R T NU SS. destruct (clear_repeats n0 n W R T NU SS) as [-> F]. unfold as_late_as. rewrite (calls_late _ _ _ _ _ _ _ _ l n0 F). apply face_rmap.
Qed.
Print Assumptions C104_repeats.

(** Without dropping the data of the exits first, it is not. *)
Theorem C104_refuted : exists n0 l n, well_made n0 /\ usual_calls l n0 = true /\ calls l n0 = Ok n /\
  map q_data (nt_queues (face (net_clear n))) <> map q_data (nt_queues (face (renew n))).
Proof.
  exists (two_ways_net Inf true), (KInit [0%nat] :: sims 8). eexists. split; [apply two_ways_made|].
  split; [vm_compute; reflexivity|]. split; [vm_compute; reflexivity|]. vm_compute. discriminate.
Qed.
Print Assumptions C104_refuted.

(** *** Examples *)

Definition tidyb (n : net) : bool :=
  forallb (fun q => match c_class (q_cfg q) with CNull => match q_data q with [] => negb (q_active q) | _ => false end | _ => true end) (nt_queues n).
Lemma tidyb_ok n : tidyb n = true -> tidy_exits n.
Proof.
  intros X q IN K. unfold tidyb in X. rewrite forallb_forall in X. specialize (X q IN). rewrite K in X. destruct (q_data q); [|discriminate]. destruct (q_active q); [discriminate|auto].
Qed.

(** Two servers, a LossQueue and two exits: eight events, then the data of
    the exits are dropped. *)
Definition used104 : net := reached (KInit [0%nat] :: sims 8 ++ [KOp (NClearData [2; 3]%nat)]) (two_ways_net Inf true).
Example C104_used : nreach usual (two_ways_net Inf true) used104 /\ tidy_exits used104 /\
  map q_ia (nt_queues used104) = [6; 0; 0; 0]%nat /\ map q_is (nt_queues used104) = [4; 1; 0; 0]%nat /\ nt_iu used104 = 3%nat /\
  map (fun q => zlen (q_data q)) (nt_queues used104) = [5; 1; 0; 0].
Proof.
  split; [apply reached_usual; vm_compute; reflexivity|]. split; [apply tidyb_ok; vm_compute; reflexivity|].
  split; [vm_compute; reflexivity|]. split; [vm_compute; reflexivity|]. split; vm_compute; reflexivity.
Qed.
(** The second simulation: the same as with a new network that goes on with
    the draws, not the same as the first. *)
Definition data104 (n : net) : list (list (aid * list row)) := map q_data (nt_queues (reached (KInit [0%nat] :: sims 12) n)).
Example C104_runs : data104 (net_clear used104) = data104 (renew used104) /\ data104 (two_ways_net Inf true) <> data104 (renew used104).
Proof. split; [vm_compute; reflexivity|]. vm_compute. discriminate. Qed.

(** One server, then a LossQueue that blocks it or an InfoQueue; all answers
    are the same at all times.  After sixteen events and a clear, the second
    simulation has the results of the first. *)
Definition even104 : net :=
  build [ (net_cfg CServer 0 1 0 1 (steps [] 2) (steps [] 3) KAgent Inf, Fin 1);
          (net_cfg CLoss 1 2 1 2 (steps [] 1) (steps [] 6) KAgent Inf, Fin 1);
          (net_cfg CInfo 1 2 2 2 (steps [] 1) (steps [] 6) KGreedy Inf, Fin 1);
          (net_cfg CNull 2 3 3 0 (steps [] 1) (steps [] 1) KAgent Inf, Fin 1) ]
        [[0]; [1; 2]; [3]; []]%nat (Fin 5) true (fun _ => 1 # 4)%Q.
Definition done104 : net := reached (KInit [0%nat] :: sims 16 ++ [KOp (NClearData [3]%nat)]) even104.
Example C104_even : well_made even104 /\ nreach usual even104 done104 /\ tidy_exits done104 /\ unnumbered even104 /\ same_settings even104 done104 /\
  nt_t done104 = Fin 29 /\ map q_blocked (nt_queues done104) = [0; 4; 0; 0] /\
  forall l, face_of (calls l (net_clear done104)) = face_of (calls l even104).
Proof.
  assert (W : well_made even104) by (apply build_made; made).
  assert (R : nreach usual even104 done104) by (apply reached_usual; vm_compute; reflexivity).
  assert (T : tidy_exits done104) by (apply tidyb_ok; vm_compute; reflexivity).
  assert (NU : unnumbered even104).
  { split; [|intros; split; reflexivity]. intros q IN j k t. cbn [even104 build new_net nt_queues map fst snd] in IN. unfold steps.
    destruct IN as [<-|[<-|[<-|[<-|[]]]]]; cbn [new_queue q_cfg net_cfg c_arr c_srv]; unfold steps; destruct j, k; split; reflexivity. }
  assert (SS : same_settings even104 done104) by (repeat split; vm_compute; reflexivity).
  split; [exact W|]. split; [exact R|]. split; [exact T|]. split; [exact NU|]. split; [exact SS|]. split; [vm_compute; reflexivity|]. split; [vm_compute; reflexivity|].
  intro l. exact (C104_repeats even104 done104 l W R T NU SS).
Qed.
