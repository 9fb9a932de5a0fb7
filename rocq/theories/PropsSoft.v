(** * PropsSoft: claim C108, max_servers is a soft maximum *)
From Coq Require Import List ZArith QArith Bool Arith Lia.
From Verif Require Import Base PQueue Queue SpecQueue Network NetReach SpecNet NetExamples NetBare Colors SpecSoft Soft.
Import ListNotations.
Open Scope Z_scope.

(** ** C108 *)

(** Without [max_servers] a queue does the same, [over_max] aside. *)
Theorem C108_queue : forall ops q, run_ops ops (soft q) = match run_ops ops q with Ok q' => Ok (soft q') | Err e => Err e end.
Proof. intros ops q. rewrite ops_soft. destruct (run_ops ops q); reflexivity. Qed.
Print Assumptions C108_queue.
Theorem C108_network : forall l n, calls l (soft_net n) = match calls l n with Ok n' => Ok (soft_net n') | Err e => Err e end.
Proof. intros l n. rewrite calls_soft. destruct (calls l n); reflexivity. Qed.
Print Assumptions C108_network.

(** So [max_servers] of the queues may be anything: networks that differ in it
    raise the same exceptions and go through the same states, [over_max]
    aside. *)
Theorem C108_any : forall w l n,
  match calls l n, calls l (with_max w n) with
  | Ok a, Ok b => soft_net a = soft_net b
  | Err e, Err f => e = f
  | _, _ => False
  end.
Proof.
  intros w l n. assert (A := C108_network l n). assert (B := C108_network l (with_max w n)). rewrite soft_max, A in B.
  destruct (calls l n), (calls l (with_max w n)); congruence.
Qed.
Print Assumptions C108_any.

(** [soft] hides [max_servers] and [over_max] and nothing else. *)
Theorem C108_soft : forall q q', soft q = soft q' <-> exists w z, q' = set_q_over z (set_q_cfg (max_cfg w (q_cfg q)) q).
Proof.
  intros q q'. split.
  - intro E. exists (c_max_servers (q_cfg q')), (q_over q'). destruct q as [c ? ? ? ? ? ? ? ? ? ? ? ? ? ? ? ? ? ? ? ?], q' as [c' ? ? ? ? ? ? ? ? ? ? ? ? ? ? ? ? ? ? ? ?], c, c'. unfold soft, max_cfg in *. 
    cbn in *.
    injection E; intros; subst; reflexivity.
  - intros (w & z & ->). reflexivity.
Qed.
Print Assumptions C108_soft.

(** *** Examples *)

(** Agents take resources at one ResourceQueue, with at most [w 0] servers, and
    leave them at another, with at most [w 1]. *)
Definition rent108 : net :=
  build [ (net_cfg CResource 0 1 0 1 (steps [] 2) (steps [] 3) KResource Inf, Fin 6);
          (net_cfg CResource 1 2 1 1 (steps [] 1) (steps [] 1) KResource Inf, Fin 2);
          (net_cfg CNull 2 3 2 0 (steps [] 1) (steps [] 1) KAgent Inf, Fin 1) ]
        [[0]; [1]; [2]; []]%nat Inf true half.
Definition run108 : list ncall := KInit [0%nat] :: sims 16.
Definition look108 (n : net) := (nt_t n, map q_servers (nt_queues n), map q_blocked (nt_queues n), map q_over (nt_queues n)).
Example C108_rent : well_made rent108 /\
  look108 (reached run108 rent108) = (Inf, [Fin 0; Fin 5; Fin 0], [1; 0; 0], [1; 1; 0]) /\
  look108 (reached run108 (with_max (fun _ => Fin 5) rent108)) = (Inf, [Fin 0; Fin 5; Fin 0], [1; 0; 0], [0; 0; 0]) /\
  look108 (reached run108 (with_max (fun k => Fin (Z.of_nat k + 1)) rent108)) = (Inf, [Fin 0; Fin 5; Fin 0], [1; 0; 0], [4; 3; 0]).
Proof. split; [apply build_made; made|]. split; [|split]; vm_compute; reflexivity. Qed.
(** The same for one queue; an exception does not depend on it either. *)
Definition store108 (w : ext) : queue := new_queue (max_cfg w (net_cfg CResource 0 1 0 1 (steps [] 2) (steps [] 3) KResource Inf)) (Fin 2) true 0.
Example C108_store : soft (store108 (Fin 1)) = soft (store108 (Fin 9)) /\
  match run_ops [OServers (PInt 5); OActive; ONext; ONext; ONext] (store108 (Fin 1)), run_ops [OServers (PInt 5); OActive; ONext; ONext; ONext] (store108 (Fin 9)) with
  | Ok a, Ok b => soft a = soft b /\ q_servers a = Fin 2 /\ q_over a = 4 /\ q_over b = 0 | _, _ => False end /\
  run_ops [OServers POther] (store108 (Fin 1)) = Err TypeError.
Proof. split; [reflexivity|]. split; [|reflexivity]. vm_compute. repeat split. Qed.

(** The documentation says that [max_servers] is only used to count
    overflows.  The colour of a ResourceQueue depends on it too. *)
Theorem C108_color_refuted : exists l q w x y a b, q = new_queue (q_cfg q) (q_servers q) true 0 /\ c_class (q_cfg q) = CResource /\
  current_color l q 0 = Ok (Some x :: a) /\ current_color l (set_q_cfg (max_cfg w (q_cfg q)) q) 0 = Ok (Some y :: b) /\ ~ (x == y)%Q /\
  soft (set_q_cfg (max_cfg w (q_cfg q)) q) = soft q.
Proof.
  exists (mkLook [1; 1; 1; 1]%Q [1; 1; 1; 1]%Q [1; 1; 1; 1]%Q [1; 1; 1; 1]%Q [1; 1; 1; 1]%Q 2%Q), (store108 (Fin 4)), (Fin 9). do 4 eexists.
  split; [reflexivity|]. split; [reflexivity|]. split; [vm_compute; reflexivity|]. split; [vm_compute; reflexivity|]. split; [vm_compute; discriminate|reflexivity].
Qed.
Print Assumptions C108_color_refuted.
