(** * NetExamples: concrete networks for the examples beside the theorems *)
From Coq Require Import List ZArith QArith Bool Arith Lia.
From Verif Require Import Base Heap PQueue Queue SpecQueue Network SpecNet.
Import ListNotations.
Open Scope Z_scope.

(** arrival_f and service_f: the n-th call adds the n-th number of a list,
    then [last]. *)
Definition steps (l : list Z) (last : Z) (n : nat) (t : ext) : ext := eadd t (Fin (nth n l last)).

(** Class, source, target, index, edge type, arrivals, services, kind of
    agents and active_cap. *)
Definition net_cfg (cl : qclass) (s t k : nat) (ty : Z) (arr srv : nat -> ext -> ext) (kind : kind) (cap : ext) : qcfg :=
  mkCfg cl s t k ty arr srv kind cap Inf (Fin 0) (Fin 4).

(** Two servers on (0, 1); then, with equal probability, a LossQueue with one
    place on (1, 2) or an exit on (1, 3); from 2 an exit on (2, 4). *)
Definition two_ways : list queue :=
  [ new_queue (net_cfg CServer 0 1 0 1 (steps [] 1) (steps [2; 3; 1; 2] 2) KAgent Inf) (Fin 2) true 4;
    new_queue (net_cfg CLoss 1 2 1 2 (steps [] 1) (steps [] 6) KAgent Inf) (Fin 1) true 4;
    new_queue (net_cfg CNull 1 3 2 0 (steps [] 1) (steps [] 1) KAgent Inf) (Fin 1) true 4;
    new_queue (net_cfg CNull 2 4 3 0 (steps [] 1) (steps [] 1) KAgent Inf) (Fin 1) true 4 ].
Definition two_ways_out : list (list nat) := [[0]; [1; 2]; [3]; []; []]%nat.
Definition half (n : nat) : Q := match (n mod 3)%nat with O => 1 # 4 | 1%nat => 1 # 4 | _ => 3 # 4 end.
Definition two_ways_net (max : ext) (bas : bool) : net :=
  new_net two_ways two_ways_out max bas (Inf, 0%nat) half (fun _ => 1).

(** Calls in a row. *)
Fixpoint calls (l : list ncall) (n : net) : res net :=
  match l with
  | [] => Ok n
  | c :: r => let* n' := run_call c n in calls r n'
  end.
Definition sims (m : nat) : list ncall := repeat (KOp NSim) m.

Lemma calls_reach (ok : net -> ncall -> Prop) n0 : forall l n n', nreach ok n0 n -> (forall n c, In c l -> ok n c) -> calls l n = Ok n' -> nreach ok n0 n'.
Proof.
  induction l as [|c l IH]; intros n n' R OK H; cbn [calls] in H; [injection H as <-; exact R|].
  destruct (run_call c n) as [n1|] eqn:E; [|discriminate]. cbn [bind] in H.
  apply IH with n1; [|intros m d D; apply OK; right; exact D|exact H]. econstructor; [exact R|apply OK; left; reflexivity|exact E].
Qed.

(** Boolean version of [usual] for a list of calls. *)
Definition usualb (n : net) (c : ncall) : bool :=
  match c with KInit _ => negb (nt_init n) | KOp NSim => nt_init n | _ => true end.
Fixpoint usual_calls (l : list ncall) (n : net) : bool :=
  match l with
  | [] => true
  | c :: r => usualb n c && match run_call c n with Ok n' => usual_calls r n' | Err _ => false end
  end.

Lemma usual_reach n0 : forall l n n', nreach usual n0 n -> usual_calls l n = true -> calls l n = Ok n' -> nreach usual n0 n'.
Proof.
  induction l as [|c l IH]; intros n n' R U H; cbn [calls usual_calls] in *; [injection H as <-; exact R|].
  apply andb_true_iff in U as [U1 U2]. destruct (run_call c n) as [n1|] eqn:E; [|discriminate]. cbn [bind] in H.
  apply IH with n1; [|exact U2|exact H]. econstructor; [exact R| |exact E].
  destruct c as [sel| | |[]]; cbn [usual usualb] in *; try exact Logic.I; [destruct (nt_init n); [discriminate|reflexivity]|exact U1].
Qed.

Lemma eadd_forward t z : 0 <= z -> eLe t (eadd t (Fin z)).
Proof. destruct t; cbn; [lia|auto]. Qed.

Lemma steps_forward l last : forallb (Z.leb 0) (last :: l) = true -> forall n t, eLe t (steps l last n t).
Proof.
  intros F n t. apply eadd_forward. rewrite forallb_forall in F. apply Z.leb_le. apply F.
  destruct (Nat.lt_ge_cases n (length l)) as [L|L]; [right; apply nth_In; exact L|left; symmetry; apply nth_overflow; exact L].
Qed.

(** Newly built networks from lists of configurations and numbers of
    servers. *)
Definition build (l : list (qcfg * ext)) (out : list (list nat)) (max : ext) (bas : bool) (u : nat -> Q) : net :=
  new_net (map (fun p => new_queue (fst p) (snd p) true (length l)) l) out max bas (Inf, 0%nat) u (fun _ => 1).

Lemma build_made l out max bas u : (forall k p, get l k = Some p -> c_idx (fst p) = k /\ forward (fst p)) -> well_made (build l out max bas u).
Proof.
  intro H. unfold well_made, build. do 7 eexists. split; [reflexivity|]. split; [|intro; lia].
  intros k q G. unfold get in G. rewrite nth_error_map in G. destruct (nth_error l k) as [[c s]|] eqn:E; [|discriminate].
  injection G as <-. destruct (H k (c, s) E). exists c, s, true, (length l). auto.
Qed.

(** Two queues in a row; services at the second take 8, 1 and 9. *)
Definition overtaking : net :=
  build [ (net_cfg CServer 0 1 0 1 (steps [1; 2] 1) (steps [] 1) KAgent (Fin 2), Fin 3);
          (net_cfg CServer 1 2 1 1 (steps [] 1) (steps [8; 1; 9] 1) KAgent Inf, Fin 3);
          (net_cfg CNull 2 3 2 0 (steps [] 1) (steps [] 1) KAgent Inf, Fin 1) ]
        [[0]; [1]; [2]; []]%nat Inf true half.
(** The same with four agents. *)
Definition overtaking4 : net :=
  build [ (net_cfg CServer 0 1 0 1 (steps [1; 2; 2; 7] 1) (steps [] 1) KAgent (Fin 4), Fin 3);
          (net_cfg CServer 1 2 1 1 (steps [] 1) (steps [8; 1; 9] 1) KAgent Inf, Fin 3);
          (net_cfg CNull 2 3 2 0 (steps [] 1) (steps [] 1) KAgent Inf, Fin 1) ]
        [[0]; [1]; [2]; []]%nat Inf true half.
(** A ResourceQueue whose edge is a loop, fed by a queue that makes two
    ResourceAgents. *)
Definition returning : net :=
  build [ (net_cfg CResource 0 0 0 1 (steps [] 1) (steps [] 1) KResource Inf, Fin 3);
          (net_cfg CServer 1 0 1 1 (steps [1; 9] 1) (steps [] 1) KResource (Fin 2), Fin 1);
          (net_cfg CNull 0 2 2 0 (steps [] 1) (steps [] 1) KAgent Inf, Fin 1) ]
        [[0; 2]; [1]; []]%nat Inf true (fun n => if (n <? 3)%nat then 1 # 4 else 3 # 4).

(** An ordinary queue whose edge is a loop. *)
Definition coming_back : net :=
  build [ (net_cfg CServer 0 0 0 1 (steps [] 2) (steps [] 3) KAgent (Fin 3), Fin 1);
          (net_cfg CNull 0 1 1 0 (steps [] 1) (steps [] 1) KAgent Inf, Fin 1) ]
        [[0; 1]; []]%nat Inf true half.
(** A loop on which the second service never ends. *)
Definition second_never (n : nat) (t : ext) : ext := match n with 1%nat => Inf | _ => eadd t (Fin 1) end.
Definition stuck : net :=
  build [ (net_cfg CServer 0 0 0 1 (steps [] 1) second_never KAgent Inf, Fin 2);
          (net_cfg CNull 0 1 1 0 (steps [] 1) (steps [] 1) KAgent Inf, Fin 1);
          (net_cfg CServer 1 0 2 1 (steps [] 4) (steps [] 1) KAgent (Fin 2), Fin 2) ]
        [[0; 1]; []]%nat Inf true (fun n => if (n <? 3)%nat then 1 # 4 else 3 # 4).

(** The state after some calls. *)
Definition reached (l : list ncall) (n0 : net) : net := match calls l n0 with Ok n => n | Err _ => n0 end.

Lemma usual_calls_Ok : forall l n, usual_calls l n = true -> exists n', calls l n = Ok n'.
Proof.
  induction l as [|c l IH]; intros n U; cbn [usual_calls calls] in *; [eauto|].
  apply andb_true_iff in U as [_ U]. destruct (run_call c n) as [n1|]; [|discriminate]. cbn [bind]. apply IH; exact U.
Qed.
Lemma reached_usual l n0 : usual_calls l n0 = true -> nreach usual n0 (reached l n0).
Proof.
  intro U. destruct (usual_calls_Ok _ _ U) as (n & E). unfold reached. rewrite E. eapply usual_reach; [constructor|exact U|exact E].
Qed.

Ltac made := intros k p G; repeat (destruct k as [|k]; [injection G as <-; split; [reflexivity|split; apply steps_forward; reflexivity]|]); destruct k; discriminate.

Lemma overtaking_made : well_made overtaking.
Proof. apply build_made. made. Qed.
Lemma overtaking4_made : well_made overtaking4.
Proof. apply build_made. made. Qed.
Lemma returning_made : well_made returning.
Proof. apply build_made. made. Qed.
Lemma coming_back_made : well_made coming_back.
Proof. apply build_made. made. Qed.
Lemma stuck_made : well_made stuck.
Proof.
  apply build_made. intros k p G. destruct k as [|k].
  { injection G as <-. split; [reflexivity|]. split; [apply steps_forward; reflexivity|].
    intros i [t|]; destruct i as [|[|i]]; cbn; auto; lia. }
  repeat (destruct k as [|k]; [injection G as <-; split; [reflexivity|split; apply steps_forward; reflexivity]|]); destruct k; discriminate.
Qed.
Lemma two_ways_made max bas : well_made (two_ways_net max bas).
Proof.
  apply (build_made
   [ (net_cfg CServer 0 1 0 1 (steps [] 1) (steps [2; 3; 1; 2] 2) KAgent Inf, Fin 2);
     (net_cfg CLoss 1 2 1 2 (steps [] 1) (steps [] 6) KAgent Inf, Fin 1);
     (net_cfg CNull 1 3 2 0 (steps [] 1) (steps [] 1) KAgent Inf, Fin 1);
     (net_cfg CNull 2 4 3 0 (steps [] 1) (steps [] 1) KAgent Inf, Fin 1) ] two_ways_out max bas half). made.
Qed.

(** A queue of greedy agents before two slow queues with one server each. *)
Definition tills : net :=
  build [ (net_cfg CServer 0 1 0 1 (steps [] 1) (steps [] 1) KGreedy Inf, Fin 2);
          (net_cfg CServer 1 2 1 2 (steps [] 1) (steps [] 9) KAgent Inf, Fin 1);
          (net_cfg CServer 1 3 2 2 (steps [] 1) (steps [] 8) KAgent Inf, Fin 1);
          (net_cfg CNull 2 4 3 0 (steps [] 1) (steps [] 1) KAgent Inf, Fin 1);
          (net_cfg CNull 3 4 4 0 (steps [] 1) (steps [] 1) KAgent Inf, Fin 1) ]
        [[0]; [1; 2]; [3]; [4]; []]%nat Inf true half.
Lemma tills_made : well_made tills.
Proof. apply build_made. made. Qed.
