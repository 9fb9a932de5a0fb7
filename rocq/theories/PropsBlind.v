(** * PropsBlind: collecting data changes nothing else (C101) *)
From Coq Require Import List ZArith QArith Lia Bool Arith.
From Verif Require Import Base Heap PQueue Queue SpecQueue Network SpecNet QueueEffects NetBare NetActive NetExamples SpecBlind Clock ClockNet Blind BlindNet.
Import ListNotations.
Open Scope Z_scope.

(** The result of calls, without the data. *)
Definition result_blind {X} (f : X -> X) (r : res X) : res X := match r with Ok x => Ok (f x) | Err e => Err e end.

(** Any calls on a queue, with the collecting switched on and off and data
    thrown away in between: without all that, the same happens, and it raises
    in the same cases. *)
Theorem C101_queue : forall ops q, listed q -> run_ops (not_about_data ops) (blind q) = result_blind blind (run_ops ops q).
Proof. intros ops q L. apply (ops_b ops q L). Qed.
Print Assumptions C101_queue.

(** So two observers of the same queue see the same events. *)
Theorem C101_observers : forall c s col col' k ops ops' q, c_class c <> CInfo -> not_about_data ops = not_about_data ops' ->
  run_ops ops (new_queue c s col k) = Ok q -> exists q', run_ops ops' (new_queue c s col' k) = Ok q' /\ blind q' = blind q.
Proof.
  intros c s col col' k ops ops' q N E H.
  assert (L : forall b, listed (new_queue c s b k)) by (intro b; split; [exact N|intros i rows X; discriminate X]).
  assert (A := C101_queue ops _ (L col)). assert (B := C101_queue ops' _ (L col')). rewrite H in A. cbn [result_blind] in A.
  change (blind (new_queue c s col' k)) with (blind (new_queue c s col k)) in B. rewrite <- E, A in B.
  destruct (run_ops ops' (new_queue c s col' k)) as [q'|]; [|discriminate]. exists q'. split; [reflexivity|]. symmetry. exact (f_equal (fun r => match r with Ok x => x | Err _ => blind q end) B).
Qed.
Print Assumptions C101_observers.

(** ** Networks *)

Lemma activate_len l : forall n n', activate l n = Ok n' -> length (nt_queues n') = length (nt_queues n).
Proof.
  induction l as [|e l IH]; intros n n' H; cbn [activate] in H; [injection H as <-; reflexivity|].
  apply bind_Ok in H as (q & _ & H). apply bind_Ok in H as (q' & _ & H). apply bind_Ok in H as (n1 & C & H). rewrite (IH _ _ H). unfold set_count in C. mbind C. injection C as <-.
  cbn [set_nt_nagents put_queue set_nt_queues nt_queues]. apply upd_length.
Qed.
Lemma on_queues_len f l : forall n n', on_queues f l n = Ok n' -> length (nt_queues n') = length (nt_queues n).
Proof.
  induction l as [|e l IH]; intros n n' H; cbn [on_queues] in H; [injection H as <-; reflexivity|]. apply bind_Ok in H as (q & _ & H). rewrite (IH _ _ H). apply upd_length.
Qed.
Lemma call_len c n n' : run_call c n = Ok n' -> length (nt_queues n') = length (nt_queues n).
Proof.
  intro H. destruct c as [sel| | |o]; cbn [run_call] in H.
  - unfold initialize_queues in H. mbind H. destruct (length x =? 0)%nat; [discriminate|]. apply bind_Ok in H as (n1 & Ea & H). mbind H. injection H as <-. exact (activate_len _ _ _ Ea).
  - injection H as <-. apply map_length.
  - unfold net_copy in H. destruct (nt_init n); [mbind H|]; injection H as <-; reflexivity.
  - destruct o as [|b m|m|p|m|b]; cbn [run_nop] in H; try (injection H as <-; reflexivity).
    + assert (N := nframe_runs 1 n n'). cbn [nruns] in N. rewrite H in N. destruct (N eq_refl). assumption.
    + exact (on_queues_len _ _ _ _ H).
    + exact (on_queues_len _ _ _ _ H).
Qed.

(** Any calls on a network that do not raise do the same without those about
    data. *)
Theorem C101_network : forall l n n', Forall listed (nt_queues n) -> calls l n = Ok n' ->
  calls (net_not_about_data l) (blind_net n) = Ok (blind_net n').
Proof.
  induction l as [|c l IH]; intros n n' F H; cbn [calls] in H; [injection H as <-; reflexivity|]. apply bind_Ok in H as (n1 & E & H). assert (F1 := call_l _ _ _ F E).
  unfold net_not_about_data in *. cbn [filter]. destruct (net_about_data c) eqn:D; cbn [negb].
  - rewrite <- (call_data _ _ _ D E). exact (IH _ _ F1 H).
  - cbn [calls]. rewrite (call_b c n F D), E. cbn [rmap bind]. exact (IH _ _ F1 H).
Qed.
Print Assumptions C101_network.

(** And the calls about data make nothing raise, as long as they name queues
    of the network. *)
Definition named (k : nat) (c : ncall) : Prop :=
  match c with KOp (NCollect _ l) | KOp (NClearData l) => forall e, In e l -> (e < k)%nat | _ => True end.
Theorem C101_no_raise : forall l n m, Forall listed (nt_queues n) -> Forall (named (length (nt_queues n))) l ->
  calls (net_not_about_data l) (blind_net n) = Ok m -> exists n', calls l n = Ok n' /\ blind_net n' = m.
Proof.
  induction l as [|c l IH]; intros n m F N H; cbn [calls]; [injection H as <-; exists n; split; reflexivity|].
  inversion N as [|? ? N1 N2]. subst. unfold net_not_about_data in *. cbn [filter] in H. destruct (net_about_data c) eqn:D; cbn [negb] in H.
  - assert (E : exists n1, run_call c n = Ok n1) by (destruct c as [sel| | |[|b x|x|p|x|b]]; try discriminate D; apply on_queues_ok; exact N1).
    destruct E as [n1 E]. rewrite E. cbn [bind]. rewrite <- (call_data _ _ _ D E) in H. apply (IH n1 m (call_l _ _ _ F E)); [|exact H]. rewrite (call_len _ _ _ E). exact N2.
  - cbn [calls] in H. rewrite (call_b c n F D) in H. destruct (run_call c n) as [n1|] eqn:E; cbn [rmap bind] in *; [|discriminate].
    apply (IH n1 m (call_l _ _ _ F E)); [|exact H]. rewrite (call_len _ _ _ E). exact N2.
Qed.
Print Assumptions C101_no_raise.

(** Two networks that differ in the data only, and the same calls but for
    those about data: everything else stays equal. *)
Theorem C101_net_observers : forall l l' n m n', Forall listed (nt_queues n) -> Forall listed (nt_queues m) -> blind_net n = blind_net m ->
  net_not_about_data l = net_not_about_data l' -> Forall (named (length (nt_queues m))) l' -> calls l n = Ok n' ->
  exists m', calls l' m = Ok m' /\ nt_t m' = nt_t n' /\ nt_events m' = nt_events n' /\ nt_nagents m' = nt_nagents n' /\ nt_heap m' = nt_heap n' /\
    nt_iu m' = nt_iu n' /\ nt_ie m' = nt_ie n' /\ map held (nt_queues m') = map held (nt_queues n') /\ map q_time (nt_queues m') = map q_time (nt_queues n') /\
    map (fun q => (q_departed q, q_narr q, q_blocked q, q_active q, q_servers q, q_nsys q)) (nt_queues m') = map (fun q => (q_departed q, q_narr q, q_blocked q, q_active q, q_servers q, q_nsys q)) (nt_queues n') /\
    blind_net m' = blind_net n'.
Proof.
  intros l l' n m n' F G E EL N H. assert (A := C101_network l n n' F H). rewrite E, EL in A. destruct (C101_no_raise l' m _ G N A) as (m' & R & B). exists m'. split; [exact R|].
  assert (P : forall X (f : net -> X), (forall x, f x = f (blind_net x)) -> f m' = f n') by (intros X f Hf; rewrite (Hf m'), (Hf n'), B; reflexivity).
  assert (Q : forall X (f : queue -> X), (forall q, f q = f (blind q)) -> map f (nt_queues m') = map f (nt_queues n')).
  { intros X f Hf. apply (P _ (fun x => map f (nt_queues x))). intro x. cbn [blind_net set_nt_queues nt_queues]. rewrite map_map. apply map_ext. exact Hf. }
  repeat (split; [first [apply (P _ nt_t) | apply (P _ nt_events) | apply (P _ nt_nagents) | apply (P _ nt_heap) | apply (P _ nt_iu) | apply (P _ nt_ie) | apply Q]; intro; reflexivity|]). exact B.
Qed.
Print Assumptions C101_net_observers.

(** Networks as they are made have such queues. *)
Theorem C101_made : forall n, well_made n -> (forall q, In q (nt_queues n) -> c_class (q_cfg q) <> CInfo) -> Forall listed (nt_queues n).
Proof.
  intros n (qs & out & max & bas & junk & u & eps & -> & M & _) N. apply Forall_forall. intros q I. split; [exact (N q I)|].
  cbn [new_net nt_queues] in I. apply In_nth_error in I as [k G]. destruct (M k q G) as (c & s & col & nE & -> & _). intros i rows X. discriminate X.
Qed.
Print Assumptions C101_made.

(** ** InfoQueues *)

Definition stats_of (q : queue) : list (list (Z * Z * Z)) := map ag_stats (in_service q).
Definition info101 : qcfg := mkCfg CInfo 0%nat 1%nat 0%nat 1 (fun n t => eadd t (Fin 1)) (fun n t => eadd t (Fin 5)) KInfo Inf Inf Inf (Fin 4).

(** False with InfoQueues: agents take their statistics from the collected
    data (queue_extentions.py:255-258), so an agent that is served at time 1
    knows something else if somebody has switched the collecting on. *)
Theorem C101_refuted : exists c s ops q q', run_ops ops (new_queue c s true 1) = Ok q /\ run_ops ops (new_queue c s false 1) = Ok q' /\
  c_class c = CInfo /\ held q = held q' /\ stats_of q <> stats_of q'.
Proof.
  exists info101, (Fin 1), [OActive; ONext]. do 2 eexists. split; [vm_compute; reflexivity|]. split; [vm_compute; reflexivity|]. split; [reflexivity|]. split; [reflexivity|]. vm_compute. discriminate.
Qed.
Print Assumptions C101_refuted.

(** ** Examples *)

(** Someone collects data of queue 1 for five events, throws part of it away
    and stops; someone else collects everywhere all the time. *)
Definition nosy : list ncall := [KOp (NCollect false [0%nat; 2%nat]); KInit [0%nat]] ++ sims 5 ++ [KOp (NClearData [1%nat]); KOp (NCollect true [0%nat])] ++ sims 3 ++ [KOp (NCollect false [1%nat])] ++ sims 1.
Definition plain : list ncall := KInit [0%nat] :: sims 9.
Definition rows_seen (n : net) : list nat := map (fun q => length (concat (map snd (q_data q)))) (nt_queues n).
Lemma overtaking4_listed : Forall listed (nt_queues overtaking4).
Proof. repeat (apply Forall_cons; [split; [discriminate|intros i rows X; discriminate X]|]). apply Forall_nil. Qed.
Example C101_example : Forall listed (nt_queues overtaking4) /\ net_not_about_data nosy = net_not_about_data plain /\ Forall (named 3) nosy /\
  exists n n', calls nosy overtaking4 = Ok n /\ calls plain overtaking4 = Ok n' /\ rows_seen n = [2; 1; 0]%nat /\ rows_seen n' = [4; 3; 2]%nat /\
    nt_t n = Fin 12 /\ nt_t n' = Fin 12 /\ map held (nt_queues n) = [[(0%nat, 3)]; [(0%nat, 2)]; []] /\ map held (nt_queues n') = [[(0%nat, 3)]; [(0%nat, 2)]; []].
Proof.
  split; [exact overtaking4_listed|]. split; [reflexivity|]. split.
  - repeat (apply Forall_cons; [cbn; try exact I; intros e J; repeat destruct J as [<-|J]; try lia; contradiction|]). apply Forall_nil.
  - do 2 eexists. split; [vm_compute; reflexivity|]. split; [vm_compute; reflexivity|]. repeat split.
Qed.
(** One queue: collecting from the second event on. *)
Definition cfg101 : qcfg := net_cfg CLoss 0 1 0 1 (steps [1; 1; 1] 9) (steps [] 4) KAgent Inf.
Example C101_queue_example : listed (new_queue cfg101 (Fin 1) false 1) /\ not_about_data [OActive; ONext; OCollect true; ONext; OClearData; ONext; ODelay None] = not_about_data [OCollect true; OActive; ONext; ONext; ONext; ODelay None] /\
  exists q q', run_ops [OActive; ONext; OCollect true; ONext; OClearData; ONext; ODelay None] (new_queue cfg101 (Fin 1) false 1) = Ok q /\
    run_ops [OCollect true; OActive; ONext; ONext; ONext; ODelay None] (new_queue cfg101 (Fin 1) false 1) = Ok q' /\
    blind q = blind q' /\ q_blocked q = 2 /\ held q = [(0%nat, 3); (0%nat, 0)] /\ q_data q <> q_data q'.
Proof.
  split; [split; [discriminate|intros i rows X; discriminate X]|]. split; [reflexivity|]. do 2 eexists. split; [vm_compute; reflexivity|]. split; [vm_compute; reflexivity|].
  split; [reflexivity|]. split; [reflexivity|]. split; [reflexivity|]. discriminate.
Qed.
Example C101_made_example : well_made overtaking4 /\ forall q, In q (nt_queues overtaking4) -> c_class (q_cfg q) <> CInfo.
Proof. split; [exact overtaking4_made|]. intros q I. repeat destruct I as [<-|I]; try discriminate. contradiction. Qed.
