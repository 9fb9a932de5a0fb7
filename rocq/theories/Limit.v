(** * Limit: a limit of agents that is not reached has no influence *)
From Coq Require Import List ZArith QArith Lia Bool Arith.
From Verif Require Import Base Heap PQueue Queue SpecQueue QueueEffects Network SpecNet NetSteps NetInv NetBare Clock ClockNet NetReach NetClaims1 NetExamples SpecLimit.
Import ListNotations.
Open Scope Z_scope.

(** ** Numbers of agents in an event *)

Definition tot (q q' : queue) : Prop := q_total q' = q_total q.
Lemma tot_dlast q i f q' : dlast_if q i f = Ok q' -> tot q q'.
Proof. unfold dlast_if. destruct (q_collect q); [|intro H; injection H as <-; reflexivity]. destruct (dget (q_data q) i); intro H; [mbind H|]; injection H as <-; reflexivity. Qed.
Lemma tot_update q q' : update_time q = Ok q' -> tot q q'.
Proof. unfold update_time. intro H. do 2 (mbind H). injection H as <-. reflexivity. Qed.
Lemma tot_update_if q q' : update_time_if q = Ok q' -> tot q q'.
Proof. unfold update_time_if. intro H. do 2 (mbind H). injection H as <-. destruct (eltb _ _); reflexivity. Qed.
Lemma tot_action a q a' q' : queue_action a q = Ok (a', q') -> tot q q'.
Proof.
  intros H. unfold queue_action in H. destruct (ag_kind a).
  all: try (injection H as _ <-; reflexivity).
  - unfold resource_action in H. destruct (is_resource _) in H; [|injection H as _ <-; reflexivity]. destruct (ag_has a) in H; [injection H as _ <-; reflexivity|].
    destruct (eltb (Fin 0) (q_servers q)) in H; [|injection H as _ <-; reflexivity]. injection H as _ <-. unfold rq_set_num_servers. destruct (eltb _ _); reflexivity.
  - unfold info_action in H. destruct (is_info _) in H; [|injection H as _ <-; reflexivity]. do 4 (mbind H). injection H as _ <-. reflexivity.
Qed.
Lemma tot_service q q' : service_from_queue q = Ok q' -> tot q q'.
Proof.
  intros H. unfold service_from_queue in H. destruct (q_line q) as [|a l]; [discriminate|]. apply bind_Ok in H as (q2 & D & H). apply tot_dlast in D. 
  unfold call_srv in H. apply bind_Ok in H as ([a' q4] & X & H). apply tot_action in X. mbind H. injection H as <-. unfold tot in *. qca. congruence.
Qed.
Lemma tot_departure q r q' : qs_departure q = Ok (r, q') -> q_total q' = q_total q - 1.
Proof.
  intro H. unfold qs_departure in H. apply bind_Ok in H as ([a h] & _ & H). apply bind_Ok in H as (q2 & D & H). apply tot_dlast in D. cbv zeta in H.
  apply bind_Ok in H as (q3 & T & H). assert (K3 : tot q2 q3). { destruct (_ && _) in T; [apply tot_service in T; assumption | injection T as <-; reflexivity]. }
  apply bind_Ok in H as ([a' q4] & X & H). apply tot_action in X. apply bind_Ok in H as (q5 & U & H). apply tot_update in U. injection H as _ <-. unfold tot in *. qca. congruence.
Qed.
Lemma arrival_nobody q r q' : qs_arrival q = Ok (r, q') -> r = None.
Proof.
  unfold qs_arrival. intro H. apply bind_Ok in H as ([a h] & _ & H). cbv zeta in H. apply bind_Ok in H as (q2 & _ & H). apply bind_Ok in H as ([a1 q5] & _ & H).
  destruct (eleb _ _) in H; [apply bind_Ok in H as (q6 & _ & H)|mbind H; injection H as <- _; reflexivity].
  destruct (call_srv q6 (ag_time a1)) as [t q7]. apply bind_Ok in H as ([a2 q8] & _ & H). do 2 (mbind H). injection H as <- _. reflexivity.
Qed.
Lemma tot_qs q x q' : qs_next_event q = Ok (Some x, q') -> q_total q' = q_total q - 1.
Proof.
  unfold qs_next_event. intro H. do 2 (mbind H). destruct (eltb _ _) in H; [apply tot_departure in H; exact H|]. destruct (eltb _ _) in H; [apply arrival_nobody in H|]; discriminate.
Qed.
Lemma tot_loss q x q' : loss_next_event q = Ok (Some x, q') -> q_total q' = q_total q - 1.
Proof.
  unfold loss_next_event. intro H. do 2 (mbind H). destruct (eltb _ _) in H; [apply tot_qs in H; exact H|]. destruct (eltb _ _) in H; [|discriminate]. destruct (eltb _ _) in H.
  - apply bind_Ok in H as ([r q1] & _ & H). discriminate.
  - unfold loss_blocked in H. apply bind_Ok in H as ([a h] & _ & H). apply bind_Ok in H as (y & _ & H). cbv zeta in H. do 2 (mbind H). discriminate.
Qed.
Lemma tot_next q x q' : next_event q = Ok (Some x, q') -> q_total q' = q_total q - 1.
Proof.
  unfold next_event. destruct (c_class (q_cfg q)); intro H.
  - exact (tot_qs _ _ _ H).
  - exact (tot_loss _ _ _ H).
  - discriminate.
  - unfold rq_next_event in H. destruct (q_arr q) as [|[|a] h]; [discriminate|exact (tot_loss _ _ _ H)|].
    destruct (ag_kind a); try exact (tot_loss _ _ _ H).
    mbind H. destruct (eltb _ _) in H; [exact (tot_loss _ _ _ H)|]. destruct (eltb _ _) in H; [|discriminate].
    destruct (ag_has a) in H; [unfold rq_return in H; apply bind_Ok in H as ([b h'] & _ & H); cbv zeta in H; mbind H; discriminate|].
    destruct (eltb _ _) in H; [apply bind_Ok in H as ([r q1] & _ & H); discriminate|].
    unfold rq_blocked in H. apply bind_Ok in H as ([b h'] & _ & H). cbv zeta in H. mbind H. discriminate.
  - unfold info_next_event in H. destruct (q_arr q) as [|i h]; [discriminate|]. mbind H. apply bind_Ok in H as (q1 & X & H). apply tot_loss in H.
    assert (E1 : tot q q1).
    { destruct (eltb (itime i) x0) in X; [|injection X as <-; reflexivity]. unfold extract_information in X. destruct i as [|a]; [injection X as <-; reflexivity|].
      destruct (ag_kind a); try (injection X as <-; reflexivity). mbind X. injection X as <-. reflexivity. }
    unfold tot in E1. congruence.
Qed.
Lemma tot_add a q q' : add_arrival a q = Ok q' -> q_total q' <= q_total q + 1.
Proof.
  unfold add_arrival. assert (G : forall r, (let q1 := set_q_total (q_total q + 1) q in let* h := push_item (q_arr q1) a in update_time_if (set_q_arr h q1)) = Ok r -> q_total r <= q_total q + 1).
  { intros r H. cbv zeta in H. mbind H. apply tot_update_if in H. unfold tot in H. qca. lia. }
  destruct (c_class (q_cfg q)); intro H; try (apply G; exact H). injection H as <-. destruct (q_collect q); qc; lia.
Qed.

(** ** Networks *)

(** num_agents holds the numbers of agents of the queues. *)
Definition tallied (n : net) : Prop :=
  forall k q, get (nt_queues n) k = Some q -> get (nt_nagents n) k = Some (q_total q) /\ c_idx (q_cfg q) = k.
Definition calmly (n : net) : Prop := tallied n /\ full n = false.

Lemma at_get k n q : queue_at k n = Ok q <-> get (nt_queues n) k = Some q.
Proof. unfold queue_at. destruct (get (nt_queues n) k); cbn; split; congruence. Qed.
Lemma count_upd k z n n' : set_count k z n = Ok n' -> n' = set_nt_nagents (upd (nt_nagents n) k z) n.
Proof.
  unfold set_count. intro H. apply bind_Ok in H as (l & E & H). injection H as <-. apply of_option_Ok in E. f_equal.
  destruct (Nat.ltb_spec k (length (nt_nagents n))) as [B|B]; [rewrite set_upd in E by exact B; congruence|]. apply set_Some in E as [X _]. lia.
Qed.

Section Limit.
Context (w : ext) (w_pos : eLe (Fin 0) w).
Notation M := (allow_more w).

Lemma full_more n : full n = false -> full (M n) = false.
Proof.
  unfold full, allow_more. cbn [set_nt_max nt_max nt_nagents]. destruct (nt_max n) as [m|], w as [v|]; cbn [eadd]; try reflexivity. cbn in w_pos. intro H. apply Z.ltb_ge in H. apply Z.ltb_ge. lia.
Qed.
Lemma stop_never q n : full n = false -> stop_if_full q n = q.
Proof. intro F. unfold stop_if_full. rewrite F, andb_false_r. reflexivity. Qed.
Lemma count_more k z n : set_count k z (M n) = rmap M (set_count k z n).
Proof. unfold set_count. change (nt_nagents (M n)) with (nt_nagents n). destruct (set (nt_nagents n) k z); reflexivity. Qed.
Lemma push_more k n : net_push k (M n) = rmap M (net_push k n).
Proof. unfold net_push. change (nt_heap (M n)) with (nt_heap n). destruct (pq_push (nt_heap n) (fst k) (snd k)); reflexivity. Qed.
Lemma queued_more l n : numbers_queued l (M n) = numbers_queued l n.
Proof. induction l as [|e l IH]; [reflexivity|]. cbn [numbers_queued]. rewrite IH. reflexivity. Qed.
Definition dm (x : nat * net) : nat * net := (fst x, M (snd x)).
Lemma desired_more x v n : desired_destination x v (M n) = rmap dm (desired_destination x v n).
Proof.
  unfold desired_destination. change (nt_out (M n)) with (nt_out n). rewrite rmap_bind. apply bind_ext. intros l _.
  rewrite queued_more. change (nt_u (M n) (nt_iu (M n))) with (nt_u n (nt_iu n)). change (set_nt_iu (Datatypes.S (nt_iu (M n))) (M n)) with (M (set_nt_iu (Datatypes.S (nt_iu n)) n)). change (nt_probs (M n)) with (nt_probs n). cbv zeta.
  destruct (ag_kind x).
  all: try (rewrite rmap_if; destruct (length l <=? 1)%nat; [destruct (get l 0); reflexivity|]; rewrite rmap_bind; apply bind_ext; intros pr _; rewrite rmap_bind; apply bind_ext; intros k _;
    rewrite rmap_bind; apply bind_ext; intros e _; reflexivity).
  rewrite rmap_bind. apply bind_ext. intros zs _. rewrite rmap_bind. apply bind_ext. intros d _. rewrite rmap_bind. apply bind_ext. intros e _. reflexivity.
Qed.
Lemma desired_same x v n e n' : desired_destination x v n = Ok (e, n') -> nt_queues n' = nt_queues n /\ nt_nagents n' = nt_nagents n /\ nt_max n' = nt_max n.
Proof.
  unfold desired_destination. intros H. mbind H. destruct (ag_kind x).
  all: try (destruct (length _ <=? 1)%nat; [mbind H; injection H as _ <-; auto|]; cbv zeta in H; do 3 (mbind H); injection H as _ <-; auto).
  do 3 (mbind H). injection H as _ <-. auto.
Qed.
Lemma block_more k e2 n : block_agent k e2 (M n) = rmap M (block_agent k e2 n).
Proof.
  unfold block_agent. change (queue_at e2 (M n)) with (queue_at e2 n). rewrite rmap_bind. apply bind_ext. intros q2 _. cbv zeta.
  change (put_queue e2 (set_q_blocked (q_blocked q2 + 1) q2) (M n)) with (M (put_queue e2 (set_q_blocked (q_blocked q2 + 1) q2) n)). set (n1 := put_queue e2 _ n).
  change (queue_at k (M n1)) with (queue_at k n1). rewrite rmap_bind. apply bind_ext. intros q1 _. rewrite rmap_bind. apply bind_ext. intros q1' _.
  change (put_queue k q1' (M n1)) with (M (put_queue k q1' n1)). set (n2 := put_queue k q1' n1). change (nt_bas (M n2)) with (nt_bas n2). rewrite rmap_if. destruct (nt_bas n2).
  - change (queue_at e2 (M n2)) with (queue_at e2 n2). rewrite rmap_bind. apply bind_ext. intros q3 _. rewrite rmap_bind. apply bind_ext. intros td _.
    change (nt_eps (M n2) (nt_ie (M n2))) with (nt_eps n2 (nt_ie n2)). change (set_nt_ie (Datatypes.S (nt_ie (M n2))) (M n2)) with (M (set_nt_ie (Datatypes.S (nt_ie n2)) n2)).
    set (n3 := set_nt_ie (Datatypes.S (nt_ie n2)) n2). change (queue_at k (M n3)) with (queue_at k n3). rewrite rmap_bind. apply bind_ext. intros q4 _. rewrite rmap_bind. apply bind_ext. intros q5 _. reflexivity.
  - change (queue_at k (M n2)) with (queue_at k n2). rewrite rmap_bind. apply bind_ext. intros q4 _. rewrite rmap_bind. apply bind_ext. intros q5 _. reflexivity.
Qed.
Lemma full_less n n' : full n = false -> nt_max n' = nt_max n -> zsum (nt_nagents n') <= zsum (nt_nagents n) -> full n' = false.
Proof. unfold full. intros F E L. rewrite E. destruct (nt_max n); [|reflexivity]. apply Z.ltb_ge in F. apply Z.ltb_ge. lia. Qed.

(** After the agent has moved there are no more agents than before. *)
Lemma moved_sum k e2 n q1 x q1' q2 y q2' q1b :
  tallied n -> get (nt_queues n) k = Some q1 -> next_event q1 = Ok (Some x, q1') -> get (upd (nt_queues n) k q1') e2 = Some q2 -> add_arrival y q2 = Ok q2' ->
  get (upd (upd (nt_queues n) k q1') e2 q2') k = Some q1b ->
  zsum (upd (upd (nt_nagents n) (c_idx (q_cfg q1)) (q_total q1b)) e2 (q_total q2')) <= zsum (nt_nagents n).
Proof.
  intros T G1 N1 G2 A2 GB. destruct (T k q1 G1) as [C1 I1]. rewrite I1. apply tot_next in N1. apply tot_add in A2.
  assert (K : (k < length (nt_queues n))%nat) by (apply nth_error_Some; unfold get in G1; congruence).
  assert (KN : (k < length (nt_nagents n))%nat) by (apply nth_error_Some; unfold get in C1; congruence).
  destruct (Nat.eq_dec e2 k) as [->|NE].
  - rewrite get_upd_eq in G2 by exact K. injection G2 as <-. rewrite get_upd_eq in GB by (rewrite upd_length; exact K). injection GB as <-.
    rewrite upd_upd, (zsum_upd _ _ _ _ C1). lia.
  - rewrite get_upd_neq in G2 by exact NE. rewrite get_upd_neq in GB by auto. rewrite get_upd_eq in GB by exact K. injection GB as <-.
    destruct (T e2 q2 G2) as [C2 _]. rewrite (zsum_upd (upd (nt_nagents n) k (q_total q1')) e2 (q_total q2)), (zsum_upd _ _ _ _ C1); [lia|]. rewrite get_upd_neq by exact NE. exact C2.
Qed.
Lemma move_more k e1 e2 t n : calmly n -> (forall q1, queue_at k n = Ok q1 -> e1 = c_idx (q_cfg q1)) -> move_agent k e1 e2 t (M n) = rmap M (move_agent k e1 e2 t n).
Proof.
  intros [T F] I1. unfold move_agent. change (queue_at k (M n)) with (queue_at k n). rewrite rmap_bind. apply bind_ext. intros q1 E1. specialize (I1 q1 E1). apply at_get in E1.
  rewrite rmap_bind. apply bind_ext. intros [[x|] q1'] N1; [|reflexivity]. cbv zeta.
  change (put_queue k q1' (M n)) with (M (put_queue k q1' n)). set (n1 := put_queue k q1' n). change (queue_at e2 (M n1)) with (queue_at e2 n1). rewrite rmap_bind. apply bind_ext. intros q2 E2. apply at_get in E2.
  rewrite rmap_bind. apply bind_ext. intros q2' A2. change (put_queue e2 q2' (M n1)) with (M (put_queue e2 q2' n1)). set (n2 := put_queue e2 q2' n1).
  change (queue_at k (M n2)) with (queue_at k n2). rewrite rmap_bind. apply bind_ext. intros q1b EB. apply at_get in EB.
  rewrite count_more, bind_rmap, rmap_bind. apply bind_ext. intros n3 E3. rewrite count_more, bind_rmap, rmap_bind. apply bind_ext. intros n4 E4.
  apply count_upd in E3. apply count_upd in E4.
  assert (F4 : full n4 = false).
  { apply (full_less n); [exact F|subst n4 n3; reflexivity|]. subst n4 n3 e1. exact (moved_sum k e2 n q1 x q1' q2 _ q2' q1b T E1 N1 E2 A2 EB). }
  rewrite (stop_never q2' (M n4) (full_more _ F4)), (stop_never q2' n4 F4).
  change (put_queue e2 q2' (M n4)) with (M (put_queue e2 q2' n4)). set (n5 := put_queue e2 q2' n4). change (queue_at e2 (M n5)) with (queue_at e2 n5).
  rewrite rmap_bind. apply bind_ext. intros q2b _. rewrite rmap_bind. apply bind_ext. intros [r q2c] _. change (put_queue e2 q2c (M n5)) with (M (put_queue e2 q2c n5)). apply count_more.
Qed.
Lemma reschedule_more k e2 t n : reschedule k e2 t (M n) = rmap M (reschedule k e2 t n).
Proof.
  unfold reschedule. change (queue_at k (M n)) with (queue_at k n). change (queue_at e2 (M n)) with (queue_at e2 n). rewrite rmap_bind. apply bind_ext. intros q1 _. rewrite rmap_bind. apply bind_ext. intros q2 _. cbv zeta.
  rewrite !push_more, rmap_if. destruct (negb _).
  - rewrite bind_rmap, rmap_bind. apply bind_ext. intros n1 _. rewrite rmap_if, push_more. reflexivity.
  - rewrite rmap_if. reflexivity.
Qed.
Lemma departs_more k t n : calmly n -> net_departure k t (M n) = rmap M (net_departure k t n).
Proof.
  intros [T F]. unfold net_departure. change (queue_at k (M n)) with (queue_at k n). rewrite rmap_bind. apply bind_ext. intros q1 E1. cbv zeta. rewrite rmap_bind. apply bind_ext. intros x _.
  rewrite desired_more, bind_rmap, rmap_bind. apply bind_ext. intros [e2 n1] D. apply desired_same in D as (DQ & DN & DM). cbn [dm fst snd].
  assert (C1 : calmly n1). { split; [unfold tallied in *; rewrite DQ, DN; exact T|]. apply (full_less n); [exact F|exact DM|rewrite DN; lia]. }
  change (queue_at e2 (M n1)) with (queue_at e2 n1). rewrite rmap_bind. apply bind_ext. intros q2 _.
  rewrite block_more, (move_more _ _ _ _ _ C1), <- rmap_if, bind_rmap, rmap_bind; [apply bind_ext; intros n2 _; apply reschedule_more|].
  intros q E. apply at_get in E1. apply at_get in E. rewrite DQ in E. congruence.
Qed.
Lemma arrives_more k n : full n = false -> net_arrival k (M n) = rmap M (net_arrival k n).
Proof.
  intro F. unfold net_arrival. change (queue_at k (M n)) with (queue_at k n). rewrite rmap_bind. apply bind_ext. intros q1 _. cbv zeta.
  rewrite (stop_never q1 (M n) (full_more _ F)), (stop_never q1 n F). rewrite rmap_bind. apply bind_ext. intros [r q2] _.
  change (put_queue k q2 (M n)) with (M (put_queue k q2 n)). rewrite count_more, bind_rmap, rmap_bind. apply bind_ext. intros n2 _. rewrite push_more, rmap_if. reflexivity.
Qed.
Lemma event_more n : calmly n -> simulate_event (M n) = rmap M (simulate_event n).
Proof.
  intros [T F]. unfold simulate_event. change (nt_heap (M n)) with (nt_heap n). rewrite rmap_if. destruct (pq_size (nt_heap n) =? 0)%nat; [reflexivity|].
  rewrite rmap_bind. apply bind_ext. intros [[[t k]|] h] _; [|reflexivity].
  cbv zeta. change (set_nt_heap h (M n)) with (M (set_nt_heap h n)). set (n1 := set_nt_heap h n). change (queue_at k (M n1)) with (queue_at k n1). rewrite rmap_bind. apply bind_ext. intros q1 _.
  rewrite rmap_bind. apply bind_ext. intros d _.
  change (set_nt_events (nt_events (M n1) + 1) (set_nt_t t (M n1))) with (M (set_nt_events (nt_events n1 + 1) (set_nt_t t n1))).
  set (n2 := set_nt_events (nt_events n1 + 1) (set_nt_t t n1)). assert (C2 : calmly n2) by (split; assumption). rewrite !rmap_if, (departs_more _ _ _ C2), (arrives_more _ n2 F). reflexivity.
Qed.
Lemma not_null_more l n : not_null l (M n) = not_null l n.
Proof. induction l as [|e l IH]; [reflexivity|]. cbn [not_null]. rewrite IH. reflexivity. Qed.
Lemma not_null_length l n : forall l', not_null l n = Ok l' -> (length l' <= length l)%nat.
Proof.
  induction l as [|e l IH]; intros l' H; cbn [not_null] in H; [injection H as <-; reflexivity|]. apply bind_Ok in H as (q & _ & H). apply bind_Ok in H as (r & E & H). specialize (IH r E).
  injection H as <-. destruct (Z.eqb (c_type (q_cfg q)) 0); cbn [length]; lia.
Qed.
Lemma activate_more l : forall n, activate l (M n) = rmap M (activate l n).
Proof.
  induction l as [|e l IH]; intros n; cbn [activate]; [reflexivity|]. change (queue_at e (M n)) with (queue_at e n). rewrite rmap_bind. apply bind_ext. intros q _. rewrite rmap_bind. apply bind_ext. intros q' _.
  change (put_queue e q' (M n)) with (M (put_queue e q' n)). rewrite count_more, bind_rmap, rmap_bind. apply bind_ext. intros n1 _. apply IH.
Qed.
Lemma truncate_below {A} (l : list A) m : eLe (Fin (Z.of_nat (length l))) m -> truncate l m = l.
Proof. intro H. unfold truncate. destruct m as [m|]; [|reflexivity]. cbn in H. destruct (Z.ltb_spec m (Z.of_nat (length l))); [lia|reflexivity]. Qed.
Lemma init_more sel n : eLe (Fin (zlen sel)) (nt_max n) -> initialize_queues sel (M n) = rmap M (initialize_queues sel n).
Proof.
  intro B. unfold initialize_queues. rewrite not_null_more, rmap_bind. apply bind_ext. intros qs E. rewrite rmap_if. destruct (length qs =? 0)%nat; [reflexivity|].
  apply not_null_length in E. unfold zlen in B.
  rewrite (truncate_below qs (nt_max n)) by (destruct (nt_max n); cbn in *; [lia|exact Logic.I]).
  rewrite (truncate_below qs (nt_max (M n))) by (unfold allow_more; cbn [set_nt_max nt_max]; destruct (nt_max n), w; cbn in *; try exact Logic.I; lia).
  rewrite activate_more, bind_rmap, rmap_bind. apply bind_ext. intros n1 _. change (nt_queues (M n1)) with (nt_queues n1). change (nt_heap (M n)) with (nt_heap n). rewrite rmap_bind. apply bind_ext. intros h _. reflexivity.
Qed.
Lemma on_queues_more f : forall l n, on_queues f l (M n) = rmap M (on_queues f l n).
Proof.
  induction l as [|e l IH]; intros n; cbn [on_queues]; [reflexivity|]. change (queue_at e (M n)) with (queue_at e n). rewrite rmap_bind. apply bind_ext. intros q _. apply (IH (put_queue e (f q) n)).
Qed.
Lemma call_more_ok c n : tallied n -> below_limit c n -> run_call (call_more w c) (M n) = rmap M (run_call c n).
Proof.
  intros T B. destruct c as [sel| | |o]; cbn [call_more run_call]; [apply init_more; exact B|reflexivity| |].
  - unfold net_copy. change (nt_init (M n)) with (nt_init n). rewrite rmap_if. destruct (nt_init n); [|reflexivity].
    change (nt_queues (M n)) with (nt_queues n). change (nt_heap (M n)) with (nt_heap n). rewrite rmap_bind. apply bind_ext. intros h _. reflexivity.
  - destruct o as [|c l|l|p|m|c]; cbn [run_call run_nop]; try reflexivity; try apply on_queues_more.
    apply event_more. split; [exact T|]. cbn [below_limit] in B. unfold full. destruct (nt_max n); [|reflexivity]. cbn in B. apply Z.ltb_ge. lia.
Qed.
Lemma calls_more n0 l : well_made n0 -> forall n, nreach usual n0 n -> stays_below l n -> calls (map (call_more w) l) (M n) = rmap M (calls l n).
Proof.
  intro W. induction l as [|c l IH]; intros n R ST; cbn [map calls]; [reflexivity|]. destruct ST as ((US & B) & K).
  assert (T : tallied n). { destruct (ngood_reach n0 n W R) as [V _]. intros k q G. split; [exact (ni_count _ V k q G)|]. exact (qk_idx _ _ _ (ni_q _ V k q G)). }
  rewrite (call_more_ok c n T B), bind_rmap, rmap_bind. apply bind_ext. intros n1 E. apply IH; [|exact (K n1 E)]. econstructor; eassumption.
Qed.
End Limit.
