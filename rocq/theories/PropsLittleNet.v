(** * PropsLittleNet: Little's law for networks (C94) *)
From Coq Require Import List ZArith QArith Bool Permutation Arith Lia.
From Verif Require Import Base Queue SpecQueue QueueData SpecLine SpecLittle Network SpecNet SpecRefine SpecLittleNet LittleNet NetExamples PropsNet1 PropsNet2 PropsLine.
Import ListNotations.
Open Scope Z_scope.

(** ** C94: Little's law for the queues of a network *)

(** The integrals, by the clock of the network, of the numbers of agents at
    queue [k], in its line and in service there are the sums of the times
    that the visits in its collected data spend there until now. *)
Theorem C94_areas : forall n0 n1 n2 k q1 q p, well_made n0 -> nreach usual n0 n1 -> get (nt_queues n1) k = Some q1 ->
  pristine q1 -> c_class (q_cfg q1) <> CNull -> c_class (q_cfg q1) <> CResource -> eLt (Fin 0) (q_servers q1) -> q_collect q1 = true ->
  passes recording n1 p n2 -> get (nt_queues n2) k = Some q ->
  exists l, lawful (q_servers q1) (room q1) l /\
    (forall i, map row_times (rows_of (q_data q) i) = map visit_times (visits_of i l)) /\
    ids (waiting q) = map v_id (filter v_waits l) /\ Permutation (ids (in_service q)) (map v_id (filter v_served l)) /\
    integral (at_queue q_nsys k) (p ++ [n2]) = total (stay (nt_t n2)) l /\
    integral (at_queue nwaiting k) (p ++ [n2]) = total (wait (nt_t n2)) l /\
    integral (at_queue serving k) (p ++ [n2]) = total (work (nt_t n2)) l.
Proof. exact network_areas. Qed.
Print Assumptions C94_areas.

(** The same from the collected data of a QueueServer that nobody is left
    in; [D] are the agents that have rows. *)
Theorem C94_data : forall n0 n1 n2 k q1 q p D, well_made n0 -> nreach usual n0 n1 -> get (nt_queues n1) k = Some q1 ->
  pristine q1 -> c_class (q_cfg q1) = CServer -> eLe (Fin 0) (q_servers q1) -> q_collect q1 = true ->
  passes recording n1 p n2 -> get (nt_queues n2) k = Some q -> q_nsys q = 0 ->
  NoDup D -> (forall i, rows_of (q_data q) i <> [] -> In i D) ->
  integral (at_queue q_nsys k) (p ++ [n2]) = total (fun i => total (fun r => fin (r_dep r) - fin (r_arr r)) (rows_of (q_data q) i)) D.
Proof. exact network_data. Qed.
Print Assumptions C94_data.

(** Several queues together, for example all QueueServers of a network. *)
Theorem C94_together : forall n0 n1 n2 ks p (D : nat -> list aid), well_made n0 -> nreach usual n0 n1 -> passes recording n1 p n2 ->
  (forall k, In k ks -> exists q1 q, get (nt_queues n1) k = Some q1 /\ pristine q1 /\ c_class (q_cfg q1) = CServer /\ eLe (Fin 0) (q_servers q1) /\ q_collect q1 = true /\
     get (nt_queues n2) k = Some q /\ q_nsys q = 0 /\ NoDup (D k) /\ forall i, rows_of (q_data q) i <> [] -> In i (D k)) ->
  integral (fun n => total (fun k => at_queue q_nsys k n) ks) (p ++ [n2]) =
    total (fun k => total (fun i => at_queue (fun q => total (fun r => fin (r_dep r) - fin (r_arr r)) (rows_of (q_data q) i)) k n2) (D k)) ks.
Proof. exact network_together. Qed.
Print Assumptions C94_together.

(** ** Examples *)

Fixpoint along (l : list ncall) (n : net) : list net :=
  match l with [] => [] | c :: r => n :: match run_call c n with Ok n' => along r n' | Err _ => [] end end.

Lemma along_passes l n0 : usual_calls l n0 = true -> forallb plain_call l = true -> passes recording n0 (along l n0) (reached l n0).
Proof.
  intros U P. destruct (usual_calls_Ok _ _ U) as (n & E). unfold reached. rewrite E.
  cut (forall pre n1, passes recording n0 pre n1 -> usual_calls l n1 = true -> calls l n1 = Ok n -> passes recording n0 (pre ++ along l n1) n).
  { intro X. exact (X [] n0 (passes_here _ _) U E). }
  clear U E. induction l as [|c l IH]; intros pre n1 R U E; cbn [usual_calls calls forallb along] in *; [injection E as <-; rewrite app_nil_r; exact R|].
  apply andb_true_iff in U as [U1 U2]. apply andb_true_iff in P as [P1 P2]. destruct (run_call c n1) as [n2|] eqn:C; [|discriminate].
  change (n1 :: along l n2) with ([n1] ++ along l n2). rewrite app_assoc. apply IH; [exact P2| |exact U2|exact E].
  apply (passes_step _ _ _ n1 c); [exact R| |exact C]. split; [split|].
  - destruct c as [sel| | |[]]; cbn [usual usualb] in *; try exact Logic.I; [destruct (nt_init n1); [discriminate|reflexivity]|exact U1].
  - intros ->. discriminate.
  - destruct c as [sel| | |[]]; try exact Logic.I; discriminate.
Qed.

(** At queue 0 of [two_ways_net] after sixteen events, at time 10. *)
Definition calls94 : list ncall := KInit [0%nat] :: sims 16.
Example C94_areas_example : well_made (two_ways_net Inf true) /\ passes recording (two_ways_net Inf true) (along calls94 (two_ways_net Inf true)) (ex_at 16) /\
  exists q1 q, get (nt_queues (two_ways_net Inf true)) 0 = Some q1 /\ pristine q1 /\ c_class (q_cfg q1) = CServer /\ q_servers q1 = Fin 2 /\ q_collect q1 = true /\
    get (nt_queues (ex_at 16)) 0 = Some q /\ nt_t (ex_at 16) = Fin 10 /\
    map row_times (flat_map (fun j => rows_of (q_data q) (0%nat, j)) [0; 1; 2; 3; 4; 5; 6; 7; 8; 9]) =
      [(Fin 1, Fin 1, Fin 3); (Fin 2, Fin 2, Fin 5); (Fin 3, Fin 3, Fin 10); (Fin 4, Fin 5, Fin 0); (Fin 5, Fin 10, Fin 0); (Fin 6, Fin 0, Fin 0);
       (Fin 7, Fin 0, Fin 0); (Fin 8, Fin 0, Fin 0); (Fin 9, Fin 0, Fin 0); (Fin 10, Fin 0, Fin 0)] /\
    integral (at_queue q_nsys 0) (along calls94 (two_ways_net Inf true) ++ [ex_at 16]) = 33 /\
    integral (at_queue nwaiting 0) (along calls94 (two_ways_net Inf true) ++ [ex_at 16]) = 16 /\
    integral (at_queue serving 0) (along calls94 (two_ways_net Inf true) ++ [ex_at 16]) = 17.
Proof.
  split; [apply two_ways_made|]. split; [apply (along_passes calls94); vm_compute; reflexivity|].
  do 2 eexists. split; [reflexivity|]. split; [left; repeat eexists|]. split; [reflexivity|]. split; [reflexivity|]. split; [reflexivity|].
  split; [vm_compute; reflexivity|]. vm_compute. repeat split.
Qed.

Lemma rows_keys d i : rows_of d i <> [] -> In i (map fst d).
Proof.
  unfold rows_of. destruct (find _ d) as [e|] eqn:F; [|congruence]. intros _. apply find_some in F as [F E].
  apply QueueData.aid_eqb_eq in E. subst i. apply in_map. exact F.
Qed.

(** Four agents pass two queues in a row; after twelve events, at 15,
    nobody is left. *)
Definition n94 : net := reached (KInit [0%nat] :: sims 12) overtaking4.
Definition p94 : list net := along (KInit [0%nat] :: sims 12) overtaking4.
Definition keys94 (k : nat) : list aid := match get (nt_queues n94) k with Some q => map fst (q_data q) | None => [] end.
Definition rows94 (k : nat) : list row :=
  match get (nt_queues n94) k with Some q => flat_map (fun j => rows_of (q_data q) (0%nat, j)) [0; 1; 2; 3] | None => [] end.

Example C94_together_example : well_made overtaking4 /\ passes recording overtaking4 p94 n94 /\
  (forall k, In k [0; 1]%nat -> exists q1 q, get (nt_queues overtaking4) k = Some q1 /\ pristine q1 /\ c_class (q_cfg q1) = CServer /\ eLe (Fin 0) (q_servers q1) /\ q_collect q1 = true /\
     get (nt_queues n94) k = Some q /\ q_nsys q = 0 /\ NoDup (keys94 k) /\ forall i, rows_of (q_data q) i <> [] -> In i (keys94 k)) /\
  nt_t n94 = Fin 15 /\ map row_times (rows94 0) = [(Fin 1, Fin 1, Fin 2); (Fin 3, Fin 3, Fin 4); (Fin 5, Fin 5, Fin 6); (Fin 12, Fin 12, Fin 13)] /\
  map row_times (rows94 1) = [(Fin 2, Fin 2, Fin 10); (Fin 4, Fin 4, Fin 5); (Fin 6, Fin 6, Fin 15); (Fin 13, Fin 13, Fin 14)] /\
  integral (fun n => total (fun k => at_queue q_nsys k n) [0; 1]%nat) (p94 ++ [n94]) = 23.
Proof.
  split; [apply overtaking4_made|]. split; [apply along_passes; vm_compute; reflexivity|]. split; [|vm_compute; repeat split].
  assert (X : forall k q, get (nt_queues n94) k = Some q -> forall i, rows_of (q_data q) i <> [] -> In i (keys94 k)).
  { intros k q G i R. unfold keys94. rewrite G. apply rows_keys. exact R. }
  assert (Y : keys94 0 = [(0%nat, 0); (0%nat, 1); (0%nat, 2); (0%nat, 3)] /\ keys94 1 = [(0%nat, 0); (0%nat, 1); (0%nat, 2); (0%nat, 3)]) by (vm_compute; split; reflexivity).
  destruct Y as [Y0 Y1].
  assert (ND : NoDup [(0%nat, 0); (0%nat, 1); (0%nat, 2); (0%nat, 3)]) by (repeat constructor; cbn; intuition discriminate).
  intros k [<-|[<-|[]]].
  - destruct (get (nt_queues n94) 0) as [q|] eqn:G; [|vm_compute in G; discriminate]. do 2 eexists. split; [reflexivity|]. split; [left; repeat eexists|].
    split; [reflexivity|]. split; [cbn; lia|]. split; [reflexivity|]. split; [reflexivity|]. split; [|split; [rewrite Y0; exact ND|exact (X _ _ G)]].
    assert (Z0 : option_map q_nsys (get (nt_queues n94) 0) = Some 0) by (vm_compute; reflexivity). rewrite G in Z0. cbn in Z0. congruence.
  - destruct (get (nt_queues n94) 1) as [q|] eqn:G; [|vm_compute in G; discriminate]. do 2 eexists. split; [reflexivity|]. split; [left; repeat eexists|].
    split; [reflexivity|]. split; [cbn; lia|]. split; [reflexivity|]. split; [reflexivity|]. split; [|split; [rewrite Y1; exact ND|exact (X _ _ G)]].
    assert (Z0 : option_map q_nsys (get (nt_queues n94) 1) = Some 0) by (vm_compute; reflexivity). rewrite G in Z0. cbn in Z0. congruence.
Qed.
