(** * RelaxMore: LossQueues that turn nobody away are QueueServers *)
From Coq Require Import List ZArith QArith Lia Bool Arith.
From Verif Require Import Base Heap Queue PQueue Network SpecNet SpecQueue QueueEffects NetSteps NetBare Clock ClockNet NetExamples SpecRelax Relax RelaxNet.
Import ListNotations.
Open Scope Z_scope.

(** ** Counts of blocked agents *)

Notation bl q q' := (q_blocked q' = q_blocked q).
Lemma bl_dlast q i f q' : dlast_if q i f = Ok q' -> bl q q'.
Proof. unfold dlast_if. destruct (q_collect q); [|intro H; injection H as <-; reflexivity]. destruct (dget (q_data q) i); intro H; [mbind H|]; injection H as <-; reflexivity. Qed.
Lemma bl_update q q' : update_time q = Ok q' -> bl q q'.
Proof. unfold update_time. intro H. do 2 (mbind H). injection H as <-. reflexivity. Qed.
Lemma bl_update_if q q' : update_time_if q = Ok q' -> bl q q'.
Proof. unfold update_time_if. intro H. do 2 (mbind H). injection H as <-. destruct (eltb _ _); reflexivity. Qed.
Lemma bl_action a q a' q' : queue_action a q = Ok (a', q') -> bl q q'.
Proof.
  intros H. unfold queue_action in H. destruct (ag_kind a).
  all: try (injection H as _ <-; reflexivity).
  - unfold resource_action in H. destruct (is_resource _) in H; [|injection H as _ <-; reflexivity]. destruct (ag_has a) in H; [injection H as _ <-; reflexivity|].
    destruct (eltb (Fin 0) (q_servers q)) in H; [|injection H as _ <-; reflexivity]. injection H as _ <-. unfold rq_set_num_servers. destruct (eltb _ _); reflexivity.
  - unfold info_action in H. destruct (is_info _) in H; [|injection H as _ <-; reflexivity]. do 4 (mbind H). injection H as _ <-. reflexivity.
Qed.
Lemma bl_service q q' : service_from_queue q = Ok q' -> bl q q'.
Proof.
  intros H. unfold service_from_queue in H. destruct (q_line q) as [|a l]; [discriminate|]. apply bind_Ok in H as (q2 & D & H). apply bl_dlast in D. 
  unfold call_srv in H. apply bind_Ok in H as ([a' q4] & X & H). apply bl_action in X. mbind H. injection H as <-. qca. congruence.
Qed.
Lemma bl_departure q r q' : qs_departure q = Ok (r, q') -> bl q q'.
Proof.
  intro H. unfold qs_departure in H. apply bind_Ok in H as ([a h] & _ & H). apply bind_Ok in H as (q2 & D & H). apply bl_dlast in D. cbv zeta in H.
  apply bind_Ok in H as (q3 & T & H). assert (K3 : bl q2 q3). { destruct (_ && _) in T; [apply bl_service in T; assumption | injection T as <-; reflexivity]. }
  apply bind_Ok in H as ([a' q4] & X & H). apply bl_action in X. apply bind_Ok in H as (q5 & U & H). apply bl_update in U. injection H as _ <-. qca. congruence.
Qed.
Lemma bl_new q q' : add_arrival_new q = Ok q' -> bl q q'.
Proof.
  unfold add_arrival_new. destruct (eleb (q_next_ct q) (q_now q)); [|apply bl_update_if]. cbv zeta. destruct (eleb _ _).
  - destruct (is_info _); intro H; [discriminate|injection H as <-; reflexivity].
  - intro H. do 2 (mbind H). apply bl_update_if in H. destruct (eleb _ _) in H; exact H.
Qed.
Lemma bl_self q q' : add_arrival_self q = Ok q' -> bl q q'.
Proof. unfold add_arrival_self. destruct (c_class (q_cfg q)); try apply bl_new. intro H. injection H as <-. reflexivity. Qed.
Lemma bl_add a q q' : add_arrival a q = Ok q' -> bl q q'.
Proof.
  unfold add_arrival. destruct (c_class (q_cfg q)); intro H; try (cbv zeta in H; mbind H; apply bl_update_if in H; exact H). injection H as <-. destruct (q_collect q); reflexivity.
Qed.
Lemma bl_arrival q r q' : qs_arrival q = Ok (r, q') -> bl q q'.
Proof.
  unfold qs_arrival. intro H. apply bind_Ok in H as ([a h] & _ & H). cbv zeta in H. apply bind_Ok in H as (q2 & E2 & H).
  assert (B2 : bl q q2). { destruct (q_active _) in E2; [apply bl_self in E2; exact E2|injection E2 as <-; reflexivity]. }
  apply bind_Ok in H as ([a1 q5] & X5 & H). apply bl_action in X5.
  assert (B5 : bl q q5). { rewrite X5. destruct (q_collect _); exact B2. }
  destruct (eleb _ _) in H; [apply bind_Ok in H as (q6 & E6 & H)|mbind H; injection H as _ <-; apply bl_update in E; rewrite E; exact B5].
  assert (B6 : bl q q6). { destruct (q_collect q5) in E6; [mbind E6|]; injection E6 as <-; exact B5. }
  unfold call_srv in H. apply bind_Ok in H as ([a2 q8] & X & H). apply bl_action in X. mbind H. apply bind_Ok in H as (q9 & U & H). apply bl_update in U. injection H as _ <-.
  rewrite U. qc. rewrite X. exact B6.
Qed.
Lemma bl_qs q r q' : qs_next_event q = Ok (r, q') -> bl q q'.
Proof.
  unfold qs_next_event. intro H. do 2 (mbind H). destruct (eltb _ _) in H; [apply bl_departure in H; exact H|]. destruct (eltb _ _) in H; [apply bl_arrival in H; exact H|]. injection H as _ <-. reflexivity.
Qed.
Lemma bl_lost q r q' : loss_blocked q = Ok (r, q') -> q_blocked q' = q_blocked q + 1.
Proof.
  unfold loss_blocked. intro H. apply bind_Ok in H as ([a h] & _ & H). apply bind_Ok in H as (y & _ & H). cbv zeta in H. apply bind_Ok in H as (q2 & E2 & H).
  assert (B2 : q_blocked q2 = q_blocked q + 1). { destruct (q_active _) in E2; [apply bl_self in E2; exact E2|injection E2 as <-; reflexivity]. }
  apply bind_Ok in H as (q4 & U & H). injection H as _ <-. apply bl_update in U. rewrite U. destruct (q_collect q2); exact B2.
Qed.

(** ** One event of a LossQueue *)

(** If the count of blocked agents does not change, LossQueue.next_event does
    what QueueServer.next_event does; it never decreases. *)
Lemma loss_one q r q' : loss_next_event q = Ok (r, q') -> q_blocked q <= q_blocked q' /\ (q_blocked q' <= q_blocked q -> qs_next_event q = Ok (r, q')).
Proof.
  unfold loss_next_event. intro H. destruct (root_time (q_arr q)) as [ta|] eqn:TA; [|discriminate]. cbn [bind] in H. destruct (root_time (q_dep q)) as [td|] eqn:TD; [|discriminate]. cbn [bind] in H.
  destruct (eltb td ta) eqn:E; [split; [rewrite (bl_qs _ _ _ H); lia|intros _; exact H]|].
  destruct (eltb ta Inf) eqn:E2; [|injection H as <- <-; split; [lia|intros _; unfold qs_next_event; rewrite TA, TD; cbn [bind]; rewrite E, E2; reflexivity]].
  destruct (eltb _ _) in H.
  - apply bind_Ok in H as ([r1 q1] & X & H). injection H as <- <-. split; [rewrite (bl_qs _ _ _ X); lia|]. intros _. rewrite X.
    unfold qs_next_event in X. rewrite TA, TD in X. cbn [bind] in X. rewrite E, E2 in X. apply arrival_none in X. subst r1. reflexivity.
  - apply bl_lost in H. split; lia.
Qed.
Notation grows q q' := (c_class (q_cfg q) = CLoss -> q_blocked q <= q_blocked q').
Notation still q q' := (c_class (q_cfg q) = CLoss -> q_blocked q' <= q_blocked q).
Lemma next_grows q r q' : next_event q = Ok (r, q') -> grows q q'.
Proof. intros H F. unfold next_event in H. rewrite F in H. apply (loss_one _ _ _ H). Qed.
Lemma next_still q r q' : next_event q = Ok (r, q') -> still q q' -> next_event (as_plain q) = Ok (r, as_plain q').
Proof.
  intros H B. assert (C := next_cfg _ _ _ H). destruct (loss_dec q) as [F|M].
  - rewrite (plain_loss q F), (plain_loss q') by (rewrite C; exact F). unfold next_event in H. rewrite F in H. apply (loss_one _ _ _ H) in B; [|exact F].
    unfold next_event. rewrite class_plain, (qs_plain q F), B. reflexivity.
  - rewrite (plain_other q M), (plain_other q') by (rewrite C; exact M). exact H.
Qed.

(** ** Events *)

Lemma at_get k n q : queue_at k n = Ok q <-> get (nt_queues n) k = Some q.
Proof. unfold queue_at. destruct (get (nt_queues n) k); cbn; split; congruence. Qed.
Lemma at_Ok k n q : queue_at k n = Ok q -> queue_at k (N n) = Ok (as_plain q).
Proof. intro H. rewrite at_plain, H. reflexivity. Qed.
Lemma count_queues k z n n' : set_count k z n = Ok n' -> nt_queues n' = nt_queues n.
Proof. unfold set_count. intro H. mbind H. injection H as <-. reflexivity. Qed.
Lemma count_Ok k z n n' : set_count k z n = Ok n' -> set_count k z (N n) = Ok (N n').
Proof. intro H. rewrite count_plain, H. reflexivity. Qed.
Lemma push_queues k n n' : net_push k n = Ok n' -> nt_queues n' = nt_queues n.
Proof. unfold net_push. intro H. mbind H. injection H as <-. reflexivity. Qed.
Lemma reschedule_queues k e2 t n n' : reschedule k e2 t n = Ok n' -> nt_queues n' = nt_queues n.
Proof.
  unfold reschedule. intro H. do 2 (mbind H). cbv zeta in H. destruct (negb _).
  - apply bind_Ok in H as (n1 & X & H). apply push_queues in X. destruct (_ && _); [apply push_queues in H; congruence|injection H as <-; exact X].
  - destruct (eltb _ _); [exact (push_queues _ _ _ H)|injection H as <-; reflexivity].
Qed.
Lemma stop_blocked q n : q_blocked (stop_if_full q n) = q_blocked q.
Proof. unfold stop_if_full. destruct (_ && _); reflexivity. Qed.
Lemma get_len {A} (l : list A) k x : get l k = Some x -> (k < length l)%nat.
Proof. unfold get. intro H. apply nth_error_Some. congruence. Qed.

Lemma move_still k e1 e2 t n n' : move_agent k e1 e2 t n = Ok n' -> unhindered n n' -> move_agent k e1 e2 t (N n) = Ok (N n').
Proof.
  unfold move_agent. intros H UH. apply bind_Ok in H as (q1 & E1 & H). apply bind_Ok in H as ([[x|] q1'] & N1 & H); [|discriminate]. cbv zeta in H.
  set (n1 := put_queue k q1' n) in H. apply bind_Ok in H as (q2 & E2 & H). apply bind_Ok in H as (q2' & A2 & H). set (n2 := put_queue e2 q2' n1) in H.
  apply bind_Ok in H as (q1b & EB & H). apply bind_Ok in H as (n3 & E3 & H). apply bind_Ok in H as (n4 & E4 & H).
  set (n5 := put_queue e2 (stop_if_full q2' n4) n4) in H. apply bind_Ok in H as (q2b & E2b & H). apply bind_Ok in H as ([r q2c] & N2 & H).
  assert (G1 := proj1 (at_get _ _ _) E1). assert (G2 := proj1 (at_get _ _ _) E2). assert (G2b := proj1 (at_get _ _ _) E2b). cbn [n1 put_queue set_nt_queues nt_queues] in G2.
  assert (Q4 : nt_queues n4 = upd (upd (nt_queues n) k q1') e2 q2') by (rewrite (count_queues _ _ _ _ E4), (count_queues _ _ _ _ E3); reflexivity).
  assert (K1 := get_len _ _ _ G1). assert (K2 := get_len _ _ _ G2). rewrite upd_length in K2.
  assert (Q5 : nt_queues n5 = upd (upd (nt_queues n) k q1') e2 (stop_if_full q2' n4)) by (unfold n5, put_queue; cbn [set_nt_queues nt_queues]; rewrite Q4, upd_upd; reflexivity).
  rewrite Q5, get_upd_eq in G2b by (rewrite upd_length; exact K2). injection G2b as <-.
  assert (Q6 : nt_queues n' = upd (upd (nt_queues n) k q1') e2 q2c). { rewrite (count_queues _ _ _ _ H). unfold put_queue. cbn [set_nt_queues nt_queues]. rewrite Q5, upd_upd. reflexivity. }
  assert (C1 := next_cfg _ _ _ N1). assert (C2 := add_cfg _ _ _ A2). assert (C3 := next_cfg _ _ _ N2). rewrite stop_cfg in C3.
  assert (B1 := next_grows _ _ _ N1). assert (B2 := bl_add _ _ _ A2). assert (B3 := next_grows _ _ _ N2). rewrite stop_cfg, stop_blocked in B3.
  assert (S12 : still q1 q1' /\ still (stop_if_full q2' n4) q2c).
  { rewrite stop_cfg, stop_blocked. destruct (Nat.eq_dec e2 k) as [->|NE].
    - rewrite get_upd_eq in G2 by exact K1. injection G2 as <-.
      assert (X : c_class (q_cfg q1) = CLoss -> q_blocked q2c = q_blocked q1). { intro F. apply (UH k q1 q2c G1); [|exact F]. rewrite Q6. apply get_upd_eq. rewrite upd_length. exact K1. }
      split; intro F.
      + specialize (B1 F). rewrite C2, C1 in B3. specialize (B3 F). specialize (X F). rewrite B2 in B3. lia.
      + rewrite C2, C1 in F, B3. specialize (B1 F). specialize (B3 F). specialize (X F). lia.
    - rewrite get_upd_neq in G2 by exact NE. split; intro F.
      + assert (X := UH k q1 q1' G1). rewrite X; [lia| |exact F]. rewrite Q6, get_upd_neq by auto. apply get_upd_eq. exact K1.
      + rewrite C2 in F. assert (X := UH e2 q2 q2c G2). rewrite X; [lia| |exact F]. rewrite Q6. apply get_upd_eq. rewrite upd_length. exact K2. }
  destruct S12 as [S1 S2].
  rewrite (at_Ok _ _ _ E1). cbn [bind]. rewrite (next_still _ _ _ N1 S1). cbn [bind]. cbv zeta. rewrite put_plain. fold n1. rewrite (at_Ok _ _ _ E2). cbn [bind]. rewrite add_all, A2. cbn [bind rmap].
  rewrite put_plain. fold n2. rewrite (at_Ok _ _ _ EB). cbn [bind]. rewrite total_plain, (count_Ok _ _ _ _ E3). cbn [bind]. rewrite total_plain, (count_Ok _ _ _ _ E4). cbn [bind].
  rewrite stop_plain, put_plain. fold n5. rewrite (at_Ok _ _ _ E2b). cbn [bind]. rewrite (next_still _ _ _ N2 S2). cbn [bind]. rewrite put_plain, total_plain. apply count_Ok. exact H.
Qed.
Lemma mark_bl q q' : mark_blocked q = Ok q' -> bl q q'.
Proof. unfold mark_blocked. intro H. mbind H. injection H as <-. reflexivity. Qed.
Lemma delay_bl t q q' : delay_service t q = Ok q' -> bl q q'.
Proof.
  unfold delay_service. intro H. assert (G : forall r, (if (1 <? length (q_dep q))%nat then match heappop itime (q_dep q) with
      | None => Err IndexError | Some (Sentinel, _) => Err Corrupt
      | Some (Ag a, h) => let '(t', q1) := match t with None => call_srv q (ag_time a) | Some t => (t, q) end in
        let* h' := push_item h (set_ag_time t' a) in update_time (set_q_dep h' q1) end else Ok q) = Ok r -> bl q r).
  { clear. intros r H. destruct (1 <? length (q_dep q))%nat; [|injection H as <-; reflexivity]. destruct (heappop itime (q_dep q)) as [[[|a] h]|]; try discriminate.
    destruct t as [t|]; [|unfold call_srv in H]; mbind H; apply bl_update in H; exact H. }
  destruct (c_class (q_cfg q)); try (apply G; exact H). injection H as <-. reflexivity.
Qed.
(** A block is counted at the target. *)
Lemma block_counts k e2 n n' q2 : block_agent k e2 n = Ok n' -> queue_at e2 n = Ok q2 -> exists q2', get (nt_queues n') e2 = Some q2' /\ q_blocked q2' = q_blocked q2 + 1.
Proof.
  unfold block_agent. intros H E2. rewrite E2 in H. cbn [bind] in H. cbv zeta in H. set (n1 := put_queue e2 (set_q_blocked (q_blocked q2 + 1) q2) n) in H.
  apply at_get in E2. assert (K2 := get_len _ _ _ E2).
  assert (P1 : exists q, get (nt_queues n1) e2 = Some q /\ q_blocked q = q_blocked q2 + 1).
  { eexists. split; [apply get_upd_eq; exact K2|reflexivity]. }
  assert (PUT : forall m j q q', (exists q, get (nt_queues m) e2 = Some q /\ q_blocked q = q_blocked q2 + 1) -> queue_at j m = Ok q -> bl q q' ->
    exists q, get (nt_queues (put_queue j q' m)) e2 = Some q /\ q_blocked q = q_blocked q2 + 1).
  { intros m j q q' (x & X & Y) Q B. apply at_get in Q. unfold put_queue. cbn [set_nt_queues nt_queues]. destruct (Nat.eq_dec e2 j) as [->|NE].
    - exists q'. split; [apply get_upd_eq; eapply get_len; exact Q|]. rewrite B. congruence.
    - exists x. rewrite get_upd_neq by exact NE. auto. }
  apply bind_Ok in H as (q1 & E1 & H). apply bind_Ok in H as (q1' & Mk & H). apply mark_bl in Mk. assert (P2 := PUT _ _ _ _ P1 E1 Mk). set (n2 := put_queue k q1' n1) in *.
  destruct (nt_bas n2).
  - apply bind_Ok in H as (q3 & _ & H). apply bind_Ok in H as (td & _ & H). set (n3 := set_nt_ie (Datatypes.S (nt_ie n2)) n2) in H. apply bind_Ok in H as (q4 & E4 & H). apply bind_Ok in H as (q5 & D & H). injection H as <-.
    apply delay_bl in D. apply (PUT n3 k q4 q5 P2 E4 D).
  - apply bind_Ok in H as (q4 & E4 & H). apply bind_Ok in H as (q5 & D & H). injection H as <-. apply delay_bl in D. apply (PUT n2 k q4 q5 P2 E4 D).
Qed.
Lemma departs_still k t n n' : net_departure k t n = Ok n' -> unhindered n n' -> net_departure k t (N n) = Ok (N n').
Proof.
  unfold net_departure. intros H UH. apply bind_Ok in H as (q1 & E1 & H). cbv zeta in H. apply bind_Ok in H as (x & X & H). apply bind_Ok in H as ([e2 n1] & D & H).
  apply bind_Ok in H as (q2 & E2 & H). apply bind_Ok in H as (n2 & MV & H). assert (DQ := desired_room _ _ _ _ _ D). assert (RQ := reschedule_queues _ _ _ _ _ H).
  assert (U1 : unhindered n1 n2). { intros j q q' G G'. rewrite DQ in G. rewrite <- RQ in G'. apply (UH j q q' G G'). }
  rewrite (at_Ok _ _ _ E1). cbn [bind]. cbv zeta. rewrite first_plain, X. cbn [bind]. rewrite tgt_plain, idx_plain, desired_plain, D. cbn [bind rmap dp fst snd]. rewrite (at_Ok _ _ _ E2). cbn [bind].
  assert (MV' : (if at_capacity (as_plain q2) && negb (Nat.eqb e2 (c_idx (q_cfg q1))) then block_agent k e2 (N n1) else move_agent k (c_idx (q_cfg q1)) e2 t (N n1)) = Ok (N n2)).
  { destruct (loss_dec q2) as [F|M].
    - rewrite (plain_loss q2 F). change (at_capacity (lp q2)) with false. cbn [andb]. destruct (at_capacity q2 && negb (Nat.eqb e2 (c_idx (q_cfg q1)))).
      + exfalso. destruct (block_counts _ _ _ _ _ MV E2) as (q2' & G & B). apply at_get in E2. assert (Y := U1 e2 q2 q2' E2 G F). lia.
      + apply move_still; assumption.
    - rewrite (plain_other q2 M). destruct (at_capacity q2 && negb (Nat.eqb e2 (c_idx (q_cfg q1)))).
      + rewrite block_plain, MV; [reflexivity|]. intros q Q. rewrite E2 in Q. injection Q as <-. exact M.
      + apply move_still; assumption. }
  rewrite MV'. cbn [bind]. rewrite time_plain, reschedule_plain, H. reflexivity.
Qed.
Lemma arrives_still k n n' : net_arrival k n = Ok n' -> unhindered n n' -> net_arrival k (N n) = Ok (N n').
Proof.
  unfold net_arrival. intros H UH. apply bind_Ok in H as (q1 & E1 & H). cbv zeta in H. apply bind_Ok in H as ([r q2] & N1 & H). apply bind_Ok in H as (n2 & C & H).
  assert (G1 := proj1 (at_get _ _ _) E1). assert (Q2 := count_queues _ _ _ _ C). assert (Q3 : nt_queues n' = nt_queues n2) by (destruct (eltb _ _) in H; [exact (push_queues _ _ _ H)|injection H as <-; reflexivity]).
  assert (ST : still (stop_if_full q1 n) q2).
  { rewrite stop_cfg, stop_blocked. intro F. rewrite (UH k q1 q2 G1); [lia| |exact F]. rewrite Q3, Q2. unfold put_queue. cbn [set_nt_queues nt_queues]. apply get_upd_eq. eapply get_len. exact G1. }
  rewrite (at_Ok _ _ _ E1). cbn [bind]. cbv zeta. rewrite stop_plain, (next_still _ _ _ N1 ST). cbn [bind]. rewrite put_plain, idx_plain, total_plain, (count_Ok _ _ _ _ C). cbn [bind].
  rewrite time_plain, key_plain. destruct (eltb (q_time q2) Inf); [rewrite push_plain, H; reflexivity|]. injection H as <-. reflexivity.
Qed.
Lemma event_still n n' : simulate_event n = Ok n' -> unhindered n n' -> simulate_event (N n) = Ok (N n').
Proof.
  unfold simulate_event. change (nt_heap (N n)) with (nt_heap n). intros H UH. destruct (pq_size (nt_heap n) =? 0)%nat; [injection H as <-; reflexivity|].
  apply bind_Ok in H as ([[[t k]|] h] & P & H); [|discriminate]. rewrite P. cbn [bind]. cbv zeta in *. change (set_nt_heap h (N n)) with (N (set_nt_heap h n)). set (n1 := set_nt_heap h n) in *.
  apply bind_Ok in H as (q1 & E1 & H). rewrite (at_Ok _ _ _ E1). cbn [bind]. rewrite describe_plain. apply bind_Ok in H as (d & Dd & H). rewrite Dd. cbn [bind].
  change (set_nt_events (nt_events (N n1) + 1) (set_nt_t t (N n1))) with (N (set_nt_events (nt_events n1 + 1) (set_nt_t t n1))).
  set (n2 := set_nt_events (nt_events n1 + 1) (set_nt_t t n1)) in *. assert (U2 : unhindered n2 n') by exact UH.
  destruct (d =? 2); [apply departs_still; assumption|]. destruct (d =? 1); [apply arrives_still; assumption|]. injection H as <-. reflexivity.
Qed.
Lemma calls_still l : forall n n', calls l n = Ok n' -> nobody_lost l n -> calls l (N n) = Ok (N n').
Proof.
  induction l as [|c l IH]; intros n n' H K; cbn [calls] in *; [injection H as <-; reflexivity|]. apply bind_Ok in H as (n1 & E & H). destruct (K n1 E) as [UH K1].
  assert (X : run_call c (N n) = Ok (N n1)).
  { destruct c as [sel| | |o]; cbn [run_call] in *.
    - rewrite init_plain, E. reflexivity.
    - injection E as <-. f_equal. unfold net_clear, plain_net. cbn [set_nt_queues nt_queues nt_out nt_probs nt_nagents nt_t nt_events nt_max nt_init nt_heap nt_bas nt_u nt_iu nt_eps nt_ie].
      rewrite map_length. unfold set_nt_queues. cbn [nt_queues nt_out nt_probs nt_nagents nt_t nt_events nt_max nt_init nt_heap nt_bas nt_u nt_iu nt_eps nt_ie].
      f_equal. rewrite !map_map. apply map_ext. intro q. apply clear_all.
    - unfold net_copy in *. change (nt_init (N n)) with (nt_init n). destruct (nt_init n); [|injection E as <-; reflexivity].
      change (nt_queues (N n)) with (map as_plain (nt_queues n)). rewrite map_length, finite_plain. change (nt_heap (N n)) with (nt_heap n). apply bind_Ok in E as (h & P & E). rewrite P. cbn [bind]. injection E as <-. reflexivity.
    - destruct o as [|c l'|l'|p|m|c]; cbn [run_nop] in *; try (injection E as <-; reflexivity).
      + apply event_still; [exact E|apply UH; reflexivity].
      + unfold net_collect in *. rewrite on_queues_plain, E; [reflexivity|]. intro q. unfold as_plain. qc. destruct (c_class (q_cfg q)); reflexivity.
      + unfold net_clear_data in *. rewrite on_queues_plain, E; [reflexivity|]. intro q. unfold as_plain. qc. destruct (c_class (q_cfg q)); reflexivity. }
  rewrite X. cbn [bind]. apply IH; assumption.
Qed.
