(** * PropsRelax: claim C105, a LossQueue that never gets full is a QueueServer *)
From Coq Require Import List ZArith QArith Bool Arith Lia.
From Verif Require Import Base PQueue Queue SpecQueue Network NetReach SpecNet NetExamples NetBare SpecRelax Relax RelaxNet RelaxMore.
Import ListNotations.
Open Scope Z_scope.

(** ** C105 *)

(** A LossQueue with room before each operation does what the QueueServer
    does. *)
Theorem C105_queue : forall ops q, roomy_ops ops q ->
  run_ops ops (as_plain q) = match run_ops ops q with Ok q' => Ok (as_plain q') | Err e => Err e end.
Proof. intros ops q R. rewrite (ops_all ops q R). destruct (run_ops ops q); reflexivity. Qed.
Print Assumptions C105_queue.

(** Likewise in networks: nobody is turned away, nobody waits for a place. *)
Theorem C105_network : forall l n, roomy_calls l n ->
  calls l (plain_net n) = match calls l n with Ok n' => Ok (plain_net n') | Err e => Err e end.
Proof. intros l n R. rewrite (calls_plain l n R). destruct (calls l n); reflexivity. Qed.
Print Assumptions C105_network.

(** A LossQueue may even get full, as long as it turns nobody away and blocks
    nobody. *)
Theorem C105_nobody_lost : forall l n n', nobody_lost l n -> calls l n = Ok n' -> calls l (plain_net n) = Ok (plain_net n').
Proof. intros l n n' K H. apply calls_still; assumption. Qed.
Print Assumptions C105_nobody_lost.

(** With unlimited buffers there is always room. *)
Theorem C105_unlimited_queue : forall ops q, unlimited (q_cfg q) ->
  run_ops ops (as_plain q) = match run_ops ops q with Ok q' => Ok (as_plain q') | Err e => Err e end.
Proof. intros ops q U. apply C105_queue. apply unlimited_ops. exact U. Qed.
Print Assumptions C105_unlimited_queue.
Theorem C105_unlimited : forall l n, (forall q, In q (nt_queues n) -> unlimited (q_cfg q)) ->
  calls l (plain_net n) = match calls l n with Ok n' => Ok (plain_net n') | Err e => Err e end.
Proof. intros l n U. apply C105_network. apply unlimited_calls. apply Forall_forall. exact U. Qed.
Print Assumptions C105_unlimited.

(** The network of QueueServers can be made. *)
Theorem C105_made : forall n, well_made n -> well_made (plain_net n).
Proof.
  intros n (qs & out & max & bas & junk & u & eps & -> & Q & EP). exists (map as_plain qs), out, max, bas, junk, u, eps. split.
  - unfold plain_net, new_net. rewrite map_length. reflexivity.
  - split; [|exact EP]. intros k q G. unfold get in G. rewrite nth_error_map in G. destruct (nth_error qs k) as [q0|] eqn:G0; [|discriminate]. injection G as <-.
    destruct (Q k q0 G0) as (c & s & col & nE & -> & I & F). destruct (c_class c) eqn:C.
    2: { exists (as_server_cfg c), s, col, nE. split; [|split; [exact I|exact F]]. unfold as_plain, new_queue. cbn [q_cfg]. rewrite C. reflexivity. }
    all: exists c, s, col, nE; split; [|split; [exact I|exact F]]; unfold as_plain, new_queue; cbn [q_cfg]; rewrite C; reflexivity.
Qed.
Print Assumptions C105_made.

(** A LossQueue that does get full is something else: here it blocks the
    server before it, which the QueueServer does not. *)
Theorem C105_refuted : exists n l n1 n2, well_made n /\ usual_calls l n = true /\ calls l n = Ok n1 /\ calls l (plain_net n) = Ok n2 /\
  map q_nsys (nt_queues n2) <> map q_nsys (nt_queues (plain_net n1)).
Proof.
  exists (two_ways_net Inf true), (KInit [0%nat] :: sims 14). do 2 eexists. split; [apply two_ways_made|].
  split; [vm_compute; reflexivity|]. split; [vm_compute; reflexivity|]. split; [vm_compute; reflexivity|]. vm_compute. discriminate.
Qed.
Print Assumptions C105_refuted.

(** *** Examples *)

Definition roomb (q : queue) : bool :=
  match c_class (q_cfg q) with CLoss => eltb (Fin (q_nsys q)) (eadd (q_servers q) (c_buffer (q_cfg q))) | _ => true end.
Fixpoint roomyb (l : list ncall) (n : net) : bool :=
  match l with
  | [] => true
  | c :: l => forallb roomb (nt_queues n) && match run_call c n with Ok n' => roomyb l n' | Err _ => true end
  end.
Lemma roomyb_ok l : forall n, roomyb l n = true -> roomy_calls l n.
Proof.
  induction l as [|c l IH]; intros n H; cbn [roomyb] in H; [exact I|]. apply andb_prop in H as [A B]. split.
  - apply Forall_forall. intros q IN. rewrite forallb_forall in A. specialize (A q IN). unfold roomb in A. intro F. rewrite F in A. apply eltb_lt. exact A.
  - intros n' E. rewrite E in B. apply IH. exact B.
Qed.

(** A LossQueue of its own with arrivals before two more, the first with a
    buffer of [b] places; agents return from the last. *)
Definition loss_cfg (s t k : nat) (ty : Z) (arr srv : nat -> ext -> ext) (b : ext) : qcfg :=
  mkCfg CLoss s t k ty arr srv KAgent Inf Inf b (Fin 4).
Definition shop105 (b : ext) : net :=
  build [ (loss_cfg 0 1 0 1 (steps [] 2) (steps [] 3) (Fin 9), Fin 2);
          (loss_cfg 1 2 1 2 (steps [] 1) (steps [5; 1; 3] 4) b, Fin 1);
          (net_cfg CInfo 1 2 2 2 (steps [] 1) (steps [] 6) KGreedy Inf, Fin 1);
          (loss_cfg 2 1 3 2 (steps [] 1) (steps [] 1) (Fin 5), Fin 1);
          (net_cfg CNull 2 4 4 0 (steps [] 1) (steps [] 1) KAgent Inf, Fin 1) ]
        [[0]; [1; 2]; [3; 4]; []; []]%nat Inf true half.
Definition run105 : list ncall := KInit [0%nat] :: sims 30.
Definition look105 (n : net) := (nt_t n, map q_nsys (nt_queues n), map (fun q => zlen (q_data q)) (nt_queues n), map (fun q => length (q_line q)) (nt_queues n), map q_blocked (nt_queues n)).
Example C105_shop : well_made (shop105 (Fin 5)) /\ roomy_calls run105 (shop105 (Fin 5)) /\
  look105 (reached run105 (shop105 (Fin 5))) = (Fin 22, [2; 4; 0; 2; 0], [11; 8; 1; 3; 3], [0; 3; 0; 1; 0]%nat, [0; 0; 1; 0; 0]) /\
  map (fun q => c_class (q_cfg q)) (nt_queues (plain_net (shop105 (Fin 5)))) = [CServer; CServer; CInfo; CServer; CNull] /\
  calls run105 (plain_net (shop105 (Fin 5))) = Ok (plain_net (reached run105 (shop105 (Fin 5)))).
Proof.
  assert (R : roomy_calls run105 (shop105 (Fin 5))) by (apply roomyb_ok; vm_compute; reflexivity).
  split; [apply build_made; made|]. split; [exact R|]. split; [vm_compute; reflexivity|]. split; [vm_compute; reflexivity|].
  rewrite (C105_network _ _ R). unfold reached. vm_compute. reflexivity.
Qed.
(** With one place less a LossQueue gets full, but nobody comes just then;
    with no place it blocks the queue before it four times. *)
Example C105_tight : roomyb run105 (shop105 (Fin 4)) = false /\ look105 (reached run105 (shop105 (Fin 4))) = look105 (reached run105 (shop105 (Fin 5))) /\
  roomyb run105 (shop105 (Fin 0)) = false /\ map q_blocked (nt_queues (reached run105 (shop105 (Fin 0)))) = [0; 4; 3; 0; 0].
Proof. split; [|split; [|split]]; vm_compute; reflexivity. Qed.
Fixpoint unhinderedb (l l' : list queue) : bool :=
  match l, l' with
  | q :: l, q' :: l' => match c_class (q_cfg q) with CLoss => Z.eqb (q_blocked q') (q_blocked q) | _ => true end && unhinderedb l l'
  | _, _ => true
  end.
Lemma unhinderedb_ok l : forall l', unhinderedb l l' = true ->
  forall k q q', get l k = Some q -> get l' k = Some q' -> c_class (q_cfg q) = CLoss -> q_blocked q' = q_blocked q.
Proof.
  induction l as [|x l IH]; intros l' H k q q' G G' F; [destruct k; discriminate|]. destruct l' as [|x' l']; [destruct k; discriminate|]. cbn [unhinderedb] in H. apply andb_prop in H as [A B].
  destruct k as [|k]; [injection G as <-; injection G' as <-; rewrite F in A; apply Z.eqb_eq; exact A|]. exact (IH l' B k q q' G G' F).
Qed.
Fixpoint nobodyb (l : list ncall) (n : net) : bool :=
  match l with
  | [] => true
  | c :: l => match run_call c n with Ok n' => unhinderedb (nt_queues n) (nt_queues n') && nobodyb l n' | Err _ => true end
  end.
Lemma nobodyb_ok l : forall n, nobodyb l n = true -> nobody_lost l n.
Proof.
  induction l as [|c l IH]; intros n H; cbn [nobodyb] in H; [exact I|]. intros n' E. rewrite E in H. apply andb_prop in H as [A B]. split; [|apply IH; exact B].
  intros _ k q q'. apply (unhinderedb_ok _ _ A).
Qed.
Example C105_just : well_made (shop105 (Fin 4)) /\ nobody_lost run105 (shop105 (Fin 4)) /\ roomyb run105 (shop105 (Fin 4)) = false /\
  calls run105 (plain_net (shop105 (Fin 4))) = Ok (plain_net (reached run105 (shop105 (Fin 4)))).
Proof.
  assert (R : nobody_lost run105 (shop105 (Fin 4))) by (apply nobodyb_ok; vm_compute; reflexivity).
  split; [apply build_made; made|]. split; [exact R|]. split; [vm_compute; reflexivity|].
  apply (C105_nobody_lost _ _ _ R). unfold reached. vm_compute. reflexivity.
Qed.
(** One queue: seven agents, room for all. *)
Definition alone105 : queue := new_queue (loss_cfg 0 1 0 1 (steps [] 2) (steps [] 5) Inf) (Fin 1) true 0.
Example C105_alone : unlimited (q_cfg alone105) /\ match run_ops (OActive :: repeat ONext 9) alone105 with Ok q => (q_now q, q_nsys q, zlen (q_data q)) = (Fin 14, 5, 7) | Err _ => False end.
Proof. split; [intros _; reflexivity|]. vm_compute. reflexivity. Qed.
