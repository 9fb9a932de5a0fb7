(** * PropsTrail: the way of an agent through a network (C83, C84) *)
From Coq Require Import List ZArith QArith Bool Permutation Arith Lia.
From Verif Require Import Base Queue SpecQueue Fetch Network SpecNet NetReach NetInv SpecRefine SpecTrail TrailNet TrailData NetExamples PropsNet1 PropsNet2 PropsLine.
Import ListNotations.
Open Scope Z_scope.

(** A queue with one server on (0, 1); from 1 an agent goes back through a
    LossQueue on (1, 0) or leaves on (1, 2). *)
Definition there_and_back : net :=
  build [ (net_cfg CServer 0 1 0 1 (steps [] 4) (steps [2; 1] 1) KAgent Inf, Fin 1);
          (net_cfg CLoss 1 0 1 2 (steps [] 1) (steps [] 2) KAgent Inf, Fin 1);
          (net_cfg CNull 1 2 2 0 (steps [] 1) (steps [] 1) KAgent Inf, Fin 1) ]
        [[0]; [1; 2]; []]%nat Inf true half.
Lemma there_and_back_made : well_made there_and_back.
Proof. apply build_made. made. Qed.
Definition begin83 : list ncall := [KInit [0%nat]; KOp (NCollect true [0; 1; 2]%nat)].
Definition begun83 : net := reached begin83 there_and_back.
Definition later83 (m : nat) : net := reached (sims m) begun83.

(** ** C83: the rows of an agent are a way through the network *)

Theorem C83_trail : forall n0 n1 n i, well_made n0 -> nreach usual n0 n1 -> unvisited n1 ->
  (forall k q, get (nt_queues n1) k = Some q -> c_class (q_cfg q) <> CResource) -> nreach recording n1 n ->
  exists p, trail n i p.
Proof. exact trails. Qed.
Print Assumptions C83_trail.

(** The premise holds after initialize and start_collecting_data. *)
Theorem C83_start : forall n0 sel l n1 n2, well_made n0 -> run_call (KInit sel) n0 = Ok n1 -> run_call (KOp (NCollect true l)) n1 = Ok n2 ->
  (forall k, (k < length (nt_queues n0))%nat -> In k l) -> unvisited n2.
Proof. exact start_unvisited. Qed.
Print Assumptions C83_start.

Lemma begun83_usual : nreach usual there_and_back begun83.
Proof. apply reached_usual. vm_compute. reflexivity. Qed.
Lemma begun83_unvisited : unvisited begun83.
Proof.
  destruct (run_call (KInit [0%nat]) there_and_back) as [n1|] eqn:E1; [|vm_compute in E1; discriminate E1].
  destruct (run_call (KOp (NCollect true [0; 1; 2]%nat)) n1) as [n2|] eqn:E2.
  - assert (E : begun83 = n2) by (unfold begun83, reached, begin83; cbn [calls]; rewrite E1; cbn [bind]; rewrite E2; reflexivity).
    rewrite E. apply (C83_start _ _ _ _ _ there_and_back_made E1 E2). intros k K. change (length (nt_queues there_and_back)) with 3%nat in K.
    cbn. lia.
  - exfalso. assert (X : calls begin83 there_and_back = Err e) by (unfold begin83; cbn [calls]; rewrite E1; cbn [bind]; rewrite E2; reflexivity).
    vm_compute in X. discriminate X.
Qed.
Lemma later83_recording m : usual_calls (sims m) begun83 = true -> nreach recording begun83 (later83 m).
Proof. intro U. apply plain_recording; [exact U|]. unfold sims. clear. induction m; [reflexivity|exact IHm]. Qed.
Lemma recording_usual n0 n1 n : nreach usual n0 n1 -> nreach recording n1 n -> nreach usual n0 n.
Proof. intros R1 R. induction R as [|n c n' R IH OK H]; [exact R1|]. eapply nreach_step; [exact IH|apply OK|exact H]. Qed.
Lemma later83_usual m : usual_calls (sims m) begun83 = true -> nreach usual there_and_back (later83 m).
Proof. intro U. eapply recording_usual; [apply begun83_usual|apply later83_recording; exact U]. Qed.
Lemma begun83_plain k q : get (nt_queues begun83) k = Some q -> c_class (q_cfg q) <> CResource.
Proof.
  intro G. assert (X : forallb (fun q => match c_class (q_cfg q) with CResource => false | _ => true end) (nt_queues begun83) = true) by (vm_compute; reflexivity).
  rewrite forallb_forall in X. apply nth_error_In, X in G. destruct (c_class (q_cfg q)); congruence.
Qed.

(** The second agent goes back twice; now it waits at queue 0. *)
Definition way83 : list (nat * row) :=
  [(0%nat, mkData (Fin 8) (Fin 8) (Fin 9) 0 1); (1%nat, mkData (Fin 9) (Fin 9) (Fin 11) 0 1); (0%nat, mkData (Fin 11) (Fin 11) (Fin 12) 0 1);
   (1%nat, mkData (Fin 12) (Fin 12) (Fin 14) 0 1); (0%nat, mkData (Fin 14) (Fin 15) (Fin 16) 1 2); (1%nat, mkData (Fin 16) (Fin 16) (Fin 18) 0 1);
   (0%nat, mkData (Fin 18) (Fin 0) (Fin 0) 1 2)].
Example C83_example : well_made there_and_back /\ nreach usual there_and_back begun83 /\ unvisited begun83 /\
  (forall k q, get (nt_queues begun83) k = Some q -> c_class (q_cfg q) <> CResource) /\ nreach recording begun83 (later83 16) /\
  trail (later83 16) (0%nat, 1) way83 /\
  map (fun q => ids (waiting q)) (nt_queues (later83 16)) = [[(0%nat, 1)]; []; []].
Proof.
  split; [apply there_and_back_made|]. split; [apply begun83_usual|]. split; [apply begun83_unvisited|]. split; [apply begun83_plain|].
  split; [apply later83_recording; vm_compute; reflexivity|]. split.
  - destruct (C83_trail _ _ (later83 16) (0%nat, 1) there_and_back_made begun83_usual begun83_unvisited begun83_plain) as (p & T);
      [apply later83_recording; vm_compute; reflexivity|].
    assert (E : rows_for (get_agent_data (nt_queues (later83 16))) (0%nat, 1) = map tag way83) by (vm_compute; reflexivity).
    assert (R : nreach usual there_and_back (later83 16)) by (apply (later83_usual 16); vm_compute; reflexivity).
    assert (S1 := trail_shown _ _ _ _ there_and_back_made R (fun k q => indices _ _ k q there_and_back_made R) T).
    rewrite E in S1. assert (p = way83); [|congruence]. apply tag_inj, S1. clear.
    repeat constructor; cbn [In way83 map tag fst snd r_arr]; intuition congruence.
  - vm_compute. reflexivity.
Qed.

(** ** C84: get_agent_data lists the way of every agent in order *)

Definition as_row (x : nat * row) : drow := (snd x, fst x).

(** The array of an agent has exactly the rows of the way, with the numbers
    of the queues in the last column; the column of the arrivals is that of
    the way; and the array is the way itself unless some visit before the
    last took no time. *)
Theorem C84_agent_data_partial : forall n0 n1 n i p, well_made n0 -> nreach usual n0 n1 -> nreach recording n1 n -> trail n i p ->
  Permutation (rows_for (get_agent_data (nt_queues n)) i) (map as_row p) /\
  map (fun x => r_arr (fst x)) (rows_for (get_agent_data (nt_queues n)) i) = map (fun x => r_arr (snd x)) p /\
  ((forall p1 x y p2, p = p1 ++ x :: y :: p2 -> r_arr (snd x) <> r_dep (snd x)) -> rows_for (get_agent_data (nt_queues n)) i = map as_row p).
Proof.
  intros n0 n1 n i p W R1 R T. assert (RU := recording_usual _ _ _ R1 R). exact (trail_data n0 n i p W RU (fun k q => indices n0 n k q W RU) T).
Qed.
Print Assumptions C84_agent_data_partial.

Example C84_example : well_made there_and_back /\ nreach usual there_and_back begun83 /\ nreach recording begun83 (later83 16) /\
  trail (later83 16) (0%nat, 1) way83 /\
  (forall p1 x y p2, way83 = p1 ++ x :: y :: p2 -> r_arr (snd x) <> r_dep (snd x)) /\
  rows_for (get_agent_data (nt_queues (later83 16))) (0%nat, 1) = map as_row way83.
Proof.
  destruct C83_example as (A & B & _ & _ & C & D & _). repeat (split; [assumption|]). split; [|vm_compute; reflexivity].
  intros p1 x y p2 E X. repeat (destruct p1 as [|? p1]; [injection E as <- <- <-; vm_compute in X; discriminate X|injection E as _ E]); destruct p1 as [|? [|? p1]]; discriminate E.
Qed.

(** A server who needs no time, and an exit. *)
Definition at_once : net :=
  build [ (net_cfg CServer 0 1 0 1 (steps [] 3) (steps [] 0) KAgent Inf, Fin 1);
          (net_cfg CNull 1 2 1 0 (steps [] 1) (steps [] 1) KAgent Inf, Fin 1) ]
        [[0]; [1]; []]%nat Inf true half.
Lemma at_once_made : well_made at_once.
Proof. apply build_made. made. Qed.
Definition at_once_5 : net := reached (KInit [0%nat] :: sims 5) at_once.
Lemma at_once_unvisited : unvisited at_once.
Proof.
  intros k q G. destruct k as [|[|k]]; [injection G as <-|injection G as <-|destruct k; discriminate G];
    (split; [reflexivity|split; [reflexivity|split; [split; reflexivity|intros a []]]]).
Qed.
Lemma at_once_plain k q : get (nt_queues at_once) k = Some q -> c_class (q_cfg q) <> CResource.
Proof. intro G. destruct k as [|[|k]]; [injection G as <-|injection G as <-|destruct k; discriminate G]; discriminate. Qed.

(** The exit is listed before the queue: both rows have the arrival time 3,
    and np.sort compares the times of service next, 0 at the exit. *)
Theorem C84_agent_data_refuted : exists n0 n i p, well_made n0 /\ unvisited n0 /\ nreach recording n0 n /\ trail n i p /\
  p = [(0%nat, mkData (Fin 3) (Fin 3) (Fin 3) 0 1); (1%nat, mkData (Fin 3) (Fin 0) (Fin 0) 0 0)] /\
  rows_for (get_agent_data (nt_queues n)) i = [(mkData (Fin 3) (Fin 0) (Fin 0) 0 0, 1%nat); (mkData (Fin 3) (Fin 3) (Fin 3) 0 1, 0%nat)].
Proof.
  assert (R : nreach recording at_once at_once_5) by (apply plain_recording; vm_compute; reflexivity).
  destruct (C83_trail at_once at_once at_once_5 (0%nat, 0) at_once_made ltac:(constructor) at_once_unvisited at_once_plain R) as (p & T).
  exists at_once, at_once_5, (0%nat, 0), p.
  split; [apply at_once_made|]. split; [apply at_once_unvisited|]. split; [exact R|]. split; [exact T|].
  assert (E : rows_for (get_agent_data (nt_queues at_once_5)) (0%nat, 0) = [(mkData (Fin 3) (Fin 0) (Fin 0) 0 0, 1%nat); (mkData (Fin 3) (Fin 3) (Fin 3) 0 1, 0%nat)])
    by (vm_compute; reflexivity).
  split; [|exact E].
  destruct (C84_agent_data_partial at_once at_once at_once_5 (0%nat, 0) p at_once_made ltac:(constructor) R T) as (P & _ & _). rewrite E in P. clear E.
  assert (L := Permutation_length P). rewrite map_length in L. destruct p as [|x [|y [|z p]]]; cbn in L; try discriminate L.
  assert (F := tl_first _ _ _ T x [y] eq_refl). cbn [fst] in F. cbn [map] in P. destruct x as [k r], y as [k' r']. cbn [fst] in F. subst k. cbn [as_row fst snd] in P.
  assert (I1 := Permutation_in _ (Permutation_sym P) (or_introl eq_refl)). destruct I1 as [I1|[I1|[]]]; [discriminate I1|]. injection I1 as <-.
  assert (I2 := Permutation_in _ P (or_introl eq_refl)). destruct I2 as [I2|[I2|[]]]; [discriminate I2|]. injection I2 as -> ->. reflexivity.
Qed.
Print Assumptions C84_agent_data_refuted.
