(** * PropsPast: claim C109, what has not been drawn yet has no influence *)
From Coq Require Import List ZArith QArith Bool Arith Lia.
From Verif Require Import Base PQueue Queue SpecQueue Network NetReach NetActive SpecNet NetExamples NetBare ClockNet SpecPast Past PastNet.
Import ListNotations.
Open Scope Z_scope.

(** ** C109 *)

(** A queue that has gone from [q] to [q'] would have done the same with any
    other [arrival_f] and [service_f] that give the same values in the calls
    made so far. *)
Theorem C109_queue : forall d l q q', run_ops l q = Ok q' -> same_past_queue d q' -> run_ops l (redraw d q) = Ok (redraw d q').
Proof. intros d l q q' H S. destruct (ops_past d l q q' H) as [[E|F] _]; [exact E|]. destruct (not_late _ _ S F). Qed.
Print Assumptions C109_queue.
(** The same for networks, with the draws for the routing and the delays. *)
Theorem C109_network : forall d l n n', calls l n = Ok n' -> same_past d n' -> calls l (redraw_net d n) = Ok (redraw_net d n').
Proof. intros d l n n' H S. destruct (calls_past d l n n' H) as [[E|F] _]; [exact E|]. destruct (not_late_net _ _ S F). Qed.
Print Assumptions C109_network.

(** Draws are not taken back: what has been drawn before a call has been drawn
    after it. *)
Theorem C109_made : forall d l n n', calls l n = Ok n' -> same_past d n' -> same_past d n.
Proof.
  intros d l n n' H S. assert (M : ~ late_net d n) by (intro X; apply (not_late_net _ _ S); exact (proj2 (calls_past d l n n' H) X)).
  split; [|split].
  - intros q I. apply In_nth_error in I as (k & G). split; intros i t B.
    + destruct (eeqb (dr_arr d (c_idx (q_cfg q)) i t) (c_arr (q_cfg q) i t)) eqn:E; [apply eeqb_eq; exact E|]. exfalso. apply M. left. exists k, q. split; [exact G|]. left. exists i, t. split; [exact B|].
      intro X. apply eeqb_eq in X. congruence.
    + destruct (eeqb (dr_srv d (c_idx (q_cfg q)) i t) (c_srv (q_cfg q) i t)) eqn:E; [apply eeqb_eq; exact E|]. exfalso. apply M. left. exists k, q. split; [exact G|]. right. exists i, t. split; [exact B|].
      intro X. apply eeqb_eq in X. congruence.
  - intros i B. destruct (qeqb (dr_u d i) (nt_u n i)) eqn:E; [apply qeqb_eq; exact E|]. exfalso. apply M. right; left. exists i. split; [exact B|]. intro X. apply qeqb_eq in X. congruence.
  - intros i B. destruct (Z.eqb (dr_eps d i) (nt_eps n i)) eqn:E; [apply Z.eqb_eq; exact E|]. exfalso. apply M. right; right. exists i. split; [exact B|]. apply Z.eqb_neq. exact E.
Qed.
Print Assumptions C109_made.

Lemma same_cfg n0 n' : well_made n0 -> nreach usual n0 n' -> forall k q, get (nt_queues n') k = Some q -> exists q0, get (nt_queues n0) k = Some q0 /\ q_cfg q = q_cfg q0.
Proof.
  intros W R k q G. destruct (same_graph n0 n' W R) as [_ CF]. assert (Z : nth_error (map q_cfg (nt_queues n')) k = Some (q_cfg q)) by (apply map_nth_error; exact G). rewrite CF in Z.
  unfold get. destruct (nth_error (nt_queues n0) k) as [q0|] eqn:E0; [|apply nth_error_None in E0; assert (nth_error (map q_cfg (nt_queues n0)) k = None) by (apply nth_error_None; rewrite map_length; exact E0); congruence].
  exists q0. split; [reflexivity|]. rewrite (map_nth_error _ _ _ E0) in Z. congruence.
Qed.
(** Random numbers the network has not used have no influence: if nobody has
    had a choice and nobody has been delayed, it depends on none. *)
Theorem C109_unused : forall n0 l n' u eps, well_made n0 -> usual_calls l n0 = true -> calls l n0 = Ok n' -> nt_iu n' = 0%nat -> nt_ie n' = 0%nat ->
  calls l (set_nt_u u (set_nt_eps eps n0)) = Ok (set_nt_u u (set_nt_eps eps n')).
Proof.
  intros n0 l n' u eps W U H I J. assert (R : nreach usual n0 n') by (eapply usual_reach; [constructor|exact U|exact H]).
  set (d := mkDraws (fun k i t => match get (nt_queues n0) k with Some q => c_arr (q_cfg q) i t | None => Inf end)
                    (fun k i t => match get (nt_queues n0) k with Some q => c_srv (q_cfg q) i t | None => Inf end) u eps).
  assert (X : forall k q, get (nt_queues n0) k = Some q -> c_idx (q_cfg q) = k).
  { destruct W as (qs & out & max & bas & junk & u0 & e0 & -> & Q & _). intros k q G. destruct (Q k q G) as (c & s & col & nE & -> & E & _). exact E. }
  assert (Y := same_cfg n0 n' W R).
  assert (RC : forall q k q0, get (nt_queues n0) k = Some q0 -> q_cfg q = q_cfg q0 -> redraw d q = q).
  { intros q k q0 G E. assert (C : redraw_cfg d (q_cfg q) = q_cfg q).
    { rewrite E. unfold redraw_cfg, d. cbn [dr_arr dr_srv]. rewrite (X k q0 G), G. destruct (q_cfg q0) eqn:EC. assert (Z := X k q0 G). rewrite EC in Z. cbn in Z. rewrite <- Z. reflexivity. }
    unfold redraw. rewrite C. reflexivity. }
  assert (S : same_past d n').
  { split; [|rewrite I, J; split; intros i B; lia]. intros q IN. apply In_nth_error in IN as (k & G). destruct (Y k q G) as (q0 & G0 & E0). split; intros i t _; rewrite E0, (X k q0 G0); unfold d; cbn [dr_arr dr_srv]; rewrite G0; reflexivity. }
  assert (Z := C109_network d l n0 n' H S).
  assert (MAP : forall m, (forall k q, get (nt_queues m) k = Some q -> redraw d q = q) -> redraw_net d m = set_nt_u u (set_nt_eps eps m)).
  { intros m F. unfold redraw_net. replace (map (redraw d) (nt_queues m)) with (nt_queues m); [reflexivity|].
    rewrite <- (map_id (nt_queues m)) at 1. apply map_ext_in. intros q IN. apply In_nth_error in IN as (k & G). symmetry. exact (F k q G). }
  rewrite (MAP n0), (MAP n') in Z; [exact Z| |].
  - intros k q G. destruct (Y k q G) as (q0 & G0 & E0). exact (RC q k q0 G0 E0).
  - intros k q G. exact (RC q k q G eq_refl).
Qed.
Print Assumptions C109_unused.

(** *** Examples *)

(** Other draws, the same up to a number [m]: from then on agents go the other
    way, arrivals come later, services take longer and blocked agents wait
    longer. *)
Definition other109 (a m : nat) : draws := mkDraws
  (fun k i t => if (i <? a)%nat then steps [] 1 i t else steps [] 9 i t)
  (fun k i t => if (i <? m + 6)%nat then match k with O => steps [2; 3; 1; 2] 2 i t | 1%nat => steps [] 6 i t | _ => steps [] 1 i t end else steps [] 7 i t)
  (fun i => if (i <? m)%nat then half i else 9 # 10) (fun i => if (i <? m)%nat then 1 else 5).
Definition run109 (m : nat) : list ncall := KInit [0%nat] :: sims m.
Definition net109 : net := two_ways_net Inf true.
Definition look109 (n : net) := (nt_t n, map q_narr (nt_queues n), map q_time (nt_queues n), (nt_iu n, nt_ie n), map q_ia (nt_queues n), map q_is (nt_queues n)).

Lemma past109 a m n' : nreach usual net109 n' -> forall q, In q (nt_queues n') ->
  (forall i t, (i < a)%nat -> dr_arr (other109 a m) (c_idx (q_cfg q)) i t = c_arr (q_cfg q) i t) /\
  (forall i t, (i < m + 6)%nat -> dr_srv (other109 a m) (c_idx (q_cfg q)) i t = c_srv (q_cfg q) i t).
Proof.
  intros R q I. apply In_nth_error in I as (k & G). destruct (same_cfg net109 n' (two_ways_made Inf true) R k q G) as (q0 & G0 & ->).
  assert (D : forall b i, (i < b)%nat -> (i <? b)%nat = true) by (intros b i B; apply Nat.ltb_lt; exact B).
  split; intros i t B; unfold other109; cbn [dr_arr dr_srv]; rewrite (D _ _ B); (do 4 (destruct k as [|k]; [injection G0 as <-; reflexivity|])); destruct k; discriminate.
Qed.
Lemma counts109 n : forallb (fun q => (q_ia q <=? 9)%nat && (q_is q <=? 9)%nat) (nt_queues n) = true -> forall q, In q (nt_queues n) -> (q_ia q <= 9 /\ q_is q <= 9)%nat.
Proof. intros H q I. rewrite forallb_forall in H. specialize (H q I). apply andb_prop in H as [A B]. apply Nat.leb_le in A, B. auto. Qed.
Definition at109 : net := reached (run109 12) net109.
Lemma reach109 : nreach usual net109 at109.
Proof. apply reached_usual. vm_compute. reflexivity. Qed.

Example C109_so_far : well_made net109 /\ usual_calls (run109 12) net109 = true /\ same_past (other109 10 4) at109 /\
  look109 at109 = (Fin 8, [8; 1; 0; 0], [Fin 9; Fin 9; Inf; Inf], (4, 2)%nat, [9; 0; 0; 0]%nat, [4; 1; 0; 0]%nat) /\
  look109 (reached (run109 12) (redraw_net (other109 10 4) net109)) = look109 at109 /\
  look109 (reached (run109 40) (redraw_net (other109 10 4) net109)) <> look109 (reached (run109 40) net109).
Proof.
  split; [apply two_ways_made|]. split; [vm_compute; reflexivity|]. split; [|split; [vm_compute; reflexivity|split; [vm_compute; reflexivity|vm_compute; discriminate]]].
  assert (F : forall i, nt_u at109 i = half i /\ nt_eps at109 i = 1) by (intro i; split; reflexivity).
  split; [|split].
  - intros q I. destruct (counts109 at109 ltac:(vm_compute; reflexivity) q I). destruct (past109 10 4 at109 reach109 q I) as [A B]. split; intros i t L; [apply A|apply B]; lia.
  - intros i L. rewrite (proj1 (F i)). assert (E : nt_iu at109 = 4%nat) by (vm_compute; reflexivity). rewrite E in L. unfold other109. cbn [dr_u]. rewrite (proj2 (Nat.ltb_lt i 4) L). reflexivity.
  - intros i L. rewrite (proj2 (F i)). assert (E : nt_ie at109 = 2%nat) by (vm_compute; reflexivity). rewrite E in L. unfold other109. cbn [dr_eps]. rewrite (proj2 (Nat.ltb_lt i 4)) by lia. reflexivity.
Qed.
(** In a row of queues nobody has a choice. *)
Example C109_row : well_made overtaking /\ usual_calls (KInit [0%nat] :: sims 12) overtaking = true /\
  (nt_iu (reached (KInit [0%nat] :: sims 12) overtaking), nt_ie (reached (KInit [0%nat] :: sims 12) overtaking), nt_events (reached (KInit [0%nat] :: sims 12) overtaking)) = (0%nat, 0%nat, 7).
Proof. split; [apply overtaking_made|]. split; vm_compute; reflexivity. Qed.
(** One queue: the sixth arrival and the fourth service may be anything. *)
Definition queue109 : queue := new_queue (net_cfg CServer 0 1 0 1 (steps [] 2) (steps [] 3) KAgent Inf) (Fin 1) true 1.
Definition anything109 (z : ext) : draws := mkDraws (fun _ i t => if (i <? 5)%nat then steps [] 2 i t else z) (fun _ i t => if (i <? 3)%nat then steps [] 3 i t else z) (fun _ => 0%Q) (fun _ => 0).
Definition ops109 : list qop := [OActive; ONext; ONext; ONext; ONext; ONext].
Lemma ops_cfg l : forall q q', run_ops l q = Ok q' -> q_cfg q' = q_cfg q.
Proof. induction l as [|o l IH]; intros q q' H; cbn [run_ops] in H; [injection H as <-; reflexivity|]. apply QueueEffects.bind_Ok in H as (q1 & E & H). rewrite (IH _ _ H). exact (op_cfg _ _ _ E). Qed.
Example C109_one : forall z, exists q, run_ops ops109 queue109 = Ok q /\ q_ia q = 5%nat /\ q_is q = 2%nat /\ same_past_queue (anything109 z) q.
Proof.
  intro z. assert (C : match run_ops ops109 queue109 with Ok q => (q_ia q, q_is q) | Err _ => (0, 0)%nat end = (5, 2)%nat) by (vm_compute; reflexivity).
  destruct (run_ops ops109 queue109) as [q|e] eqn:E; [|discriminate]. injection C as C1 C2. apply ops_cfg in E. exists q. split; [reflexivity|]. split; [exact C1|]. split; [exact C2|].
  split; intros i t B; rewrite E; unfold anything109; cbn [dr_arr dr_srv]; [rewrite C1 in B|rewrite C2 in B]; rewrite (proj2 (Nat.ltb_lt i _)) by lia; reflexivity.
Qed.

(** The last value drawn does matter: it is not enough that all others
    agree. *)
Theorem C109_last_refuted : exists d l n n', well_made n /\ usual_calls l n = true /\ calls l n = Ok n' /\
  (forall q, In q (nt_queues n') -> (forall i t, (S i < q_ia q)%nat -> dr_arr d (c_idx (q_cfg q)) i t = c_arr (q_cfg q) i t) /\
    (forall i t, (i < q_is q)%nat -> dr_srv d (c_idx (q_cfg q)) i t = c_srv (q_cfg q) i t)) /\
  (forall i, (i < nt_iu n')%nat -> dr_u d i = nt_u n' i) /\ (forall i, (i < nt_ie n')%nat -> dr_eps d i = nt_eps n' i) /\
  calls l (redraw_net d n) <> Ok (redraw_net d n').
Proof.
  exists (other109 8 4), (run109 12), net109, at109. destruct C109_so_far as (W & U & (_ & P2 & P3) & _).
  assert (E : calls (run109 12) net109 = Ok at109). { unfold at109, reached. destruct (usual_calls_Ok _ _ U) as (n & ->). reflexivity. }
  split; [exact W|]. split; [exact U|]. split; [exact E|]. split; [|split; [exact P2|split; [exact P3|]]].
  - intros q I. destruct (counts109 at109 ltac:(vm_compute; reflexivity) q I). destruct (past109 8 4 at109 reach109 q I) as [A B]. split; intros i t L; [apply A|apply B]; lia.
  - intro H. apply (f_equal (fun r => match r with Ok m => look109 m | Err _ => look109 net109 end)) in H. vm_compute in H. discriminate.
Qed.
Print Assumptions C109_last_refuted.
