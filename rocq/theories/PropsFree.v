(** * PropsFree: claim C107, limits that have not switched a queue off *)
From Coq Require Import List ZArith QArith Bool Arith Lia.
From Verif Require Import Base PQueue Queue SpecQueue Network NetReach SpecNet NetExamples NetBare SpecFree Free FreeNet.
Import ListNotations.
Open Scope Z_scope.

(** ** C107 *)

(** As long as a queue is not spent, it does what it does without limits. *)
Theorem C107_queue : forall ops q q', lively_ops ops q -> run_ops ops q = Ok q' -> run_ops ops (free q) = Ok (free q').
Proof. intros ops q q' K H. apply ops_free; assumption. Qed.
Print Assumptions C107_queue.

(** Likewise in networks. *)
Theorem C107_network : forall l n n', lively l n -> calls l n = Ok n' -> calls l (free_net n) = Ok (free_net n').
Proof. intros l n n' K H. apply calls_alive; assumption. Qed.
Print Assumptions C107_network.

(** So two networks that differ only in limits, none of them with a spent
    queue, differ only in these limits for ever. *)
Theorem C107_two : forall l n1 n2 n1' n2', free_net n1 = free_net n2 -> lively l n1 -> lively l n2 ->
  calls l n1 = Ok n1' -> calls l n2 = Ok n2' -> free_net n1' = free_net n2'.
Proof.
  intros l n1 n2 n1' n2' E A B H1 H2. apply (C107_network _ _ _ A) in H1. apply (C107_network _ _ _ B) in H2. congruence.
Qed.
Print Assumptions C107_two.

(** The network without limits can be made. *)
Theorem C107_made : forall n, well_made n -> well_made (free_net n).
Proof.
  intros n (qs & out & max & bas & junk & u & eps & -> & Q & EP). exists (map free qs), out, max, bas, junk, u, eps. split.
  - unfold free_net, new_net. rewrite map_length. reflexivity.
  - split; [|exact EP]. intros k q G. unfold get in G. rewrite nth_error_map in G. destruct (nth_error qs k) as [q0|] eqn:G0; [|discriminate]. injection G as <-.
    destruct (Q k q0 G0) as (c & s & col & nE & -> & I & F). exists (free_cfg c), s, col, nE. split; [reflexivity|split; [exact I|exact F]].
Qed.
Print Assumptions C107_made.

(** *** Examples *)

Definition spentb (q : queue) : bool :=
  negb (q_active q) && (eleb (c_active_cap (q_cfg q)) (Fin (q_oarr q)) || (eleb (c_deactive_t (q_cfg q)) (q_next_ct q) && eltb (c_deactive_t (q_cfg q)) Inf)).
Lemma spentb_ok q : spentb q = false -> ~ spent q.
Proof.
  intros H [A B]. unfold spentb in H. rewrite A in H. cbn [negb andb] in H. apply orb_false_iff in H as [X Y]. destruct B as [B|[B C]].
  - apply eleb_le in B. congruence.
  - apply eleb_le in B. apply eltb_lt in C. rewrite B, C in Y. discriminate.
Qed.
Fixpoint livelyb (l : list ncall) (n : net) : bool :=
  match l with
  | [] => true
  | c :: l => match c with KInit (_ :: _ :: _) => false | _ => true end &&
    match run_call c n with Ok n' => forallb (fun q => negb (spentb q)) (nt_queues n') && livelyb l n' | Err _ => true end
  end.
Lemma livelyb_ok l : forall n, livelyb l n = true -> lively l n.
Proof.
  induction l as [|c l IH]; intros n H; cbn [livelyb] in H; [exact I|]. apply andb_prop in H as [O H]. split.
  - destruct c as [[|x [|y sel]]| | |o]; cbn [once]; try exact I; try discriminate; repeat constructor. intros [].
  - intros n' E. rewrite E in H. apply andb_prop in H as [A B]. split; [|apply IH; exact B]. intros q Q. rewrite forallb_forall in A. specialize (A q Q). apply spentb_ok. destruct (spentb q); [discriminate|reflexivity].
Qed.

(** Arrivals at one queue with at most [cap] agents, until [d]; two ways on,
    one of them a LossQueue; room for [m] agents in the network. *)
Definition doors107 (cap d m : ext) : net :=
  build [ (mkCfg CServer 0 1 0 1 (steps [] 2) (steps [] 3) KAgent cap d Inf (Fin 4), Fin 2);
          (mkCfg CLoss 1 2 1 2 (steps [] 1) (steps [5; 1; 3] 4) KAgent cap d (Fin 1) (Fin 4), Fin 1);
          (net_cfg CInfo 1 2 2 2 (steps [] 1) (steps [] 6) KGreedy Inf, Fin 1);
          (net_cfg CNull 2 3 3 0 (steps [] 1) (steps [] 1) KAgent Inf, Fin 1) ]
        [[0]; [1; 2]; [3]; []]%nat m true half.
Definition run107 : list ncall := KInit [0%nat] :: sims 25.
Definition look107 (n : net) := (nt_t n, map q_oarr (nt_queues n), map q_nsys (nt_queues n), map q_active (nt_queues n), map q_blocked (nt_queues n)).
Example C107_doors : well_made (doors107 (Fin 30) (Fin 100) Inf) /\ lively run107 (doors107 (Fin 30) (Fin 100) Inf) /\
  look107 (reached run107 (doors107 (Fin 30) (Fin 100) Inf)) = (Fin 21, [11; 0; 0; 0], [1; 2; 1; 0], [true; false; false; false], [0; 0; 0; 0]) /\
  free_net (doors107 (Fin 30) (Fin 100) Inf) <> doors107 (Fin 30) (Fin 100) Inf /\
  calls run107 (free_net (doors107 (Fin 30) (Fin 100) Inf)) = Ok (free_net (reached run107 (doors107 (Fin 30) (Fin 100) Inf))).
Proof.
  assert (R : lively run107 (doors107 (Fin 30) (Fin 100) Inf)) by (apply livelyb_ok; vm_compute; reflexivity).
  split; [apply build_made; made|]. split; [exact R|]. split; [vm_compute; reflexivity|]. split.
  - intro E. apply (f_equal (fun n => map (fun q => c_active_cap (q_cfg q)) (nt_queues n))) in E. vm_compute in E. discriminate.
  - apply (C107_network _ _ _ R). unfold reached. vm_compute. reflexivity.
Qed.
(** With [max_agents] 4 the network switches the queue off before its limits
    do, so these have no influence either. *)
Example C107_few : lively run107 (doors107 (Fin 30) (Fin 100) (Fin 4)) /\
  map q_active (nt_queues (reached run107 (doors107 (Fin 30) (Fin 100) (Fin 4)))) = [false; false; false; false] /\
  calls run107 (free_net (doors107 (Fin 30) (Fin 100) (Fin 4))) = Ok (free_net (reached run107 (doors107 (Fin 30) (Fin 100) (Fin 4)))).
Proof.
  assert (R : lively run107 (doors107 (Fin 30) (Fin 100) (Fin 4))) by (apply livelyb_ok; vm_compute; reflexivity).
  split; [exact R|]. split; [vm_compute; reflexivity|]. apply (C107_network _ _ _ R). unfold reached. vm_compute. reflexivity.
Qed.
(** One queue: seven arrivals of at most nine. *)
Definition alone107 : queue := new_queue (mkCfg CServer 0 1 0 1 (steps [] 2) (steps [] 5) KAgent (Fin 9) (Fin 40) Inf (Fin 4)) (Fin 1) true 0.
Fixpoint lively_opsb (l : list qop) (q : queue) : bool :=
  match l with [] => true | o :: l => match run_op o q with Ok q' => negb (spentb q') && lively_opsb l q' | Err _ => true end end.
Lemma lively_opsb_ok l : forall q, lively_opsb l q = true -> lively_ops l q.
Proof.
  induction l as [|o l IH]; intros q H; cbn [lively_opsb] in H; [exact I|]. intros q' E. rewrite E in H. apply andb_prop in H as [A B]. split; [|apply IH; exact B].
  apply spentb_ok. destruct (spentb q'); [discriminate|reflexivity].
Qed.
Example C107_alone : lively_ops (OActive :: repeat ONext 7) alone107 /\
  match run_ops (OActive :: repeat ONext 7) alone107 with Ok q => (q_now q, q_oarr q, q_nsys q) = (Fin 12, 7, 5) | Err _ => False end.
Proof. split; [apply lively_opsb_ok; vm_compute; reflexivity|]. vm_compute. reflexivity. Qed.

(** A limit that switches the queue off does have influence: four agents come
    instead of eleven.  So it is for [active_cap] and for [deactive_t]. *)
Theorem C107_refuted : exists n m l n1 n2 m1, well_made n /\ well_made m /\ usual_calls l n = true /\ usual_calls l m = true /\ free_net n = free_net m /\
  calls l n = Ok n1 /\ calls l m = Ok m1 /\ calls l (free_net n) = Ok n2 /\
  map q_oarr (nt_queues n1) <> map q_oarr (nt_queues n2) /\ map q_oarr (nt_queues m1) <> map q_oarr (nt_queues n2).
Proof.
  exists (doors107 (Fin 4) Inf Inf), (doors107 Inf (Fin 9) Inf), run107. do 3 eexists. split; [apply build_made; made|]. split; [apply build_made; made|].
  split; [vm_compute; reflexivity|]. split; [vm_compute; reflexivity|]. split; [reflexivity|].
  split; [vm_compute; reflexivity|]. split; [vm_compute; reflexivity|]. split; [vm_compute; reflexivity|]. split; vm_compute; discriminate.
Qed.
Print Assumptions C107_refuted.
