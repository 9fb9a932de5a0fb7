(** * RelaxNet: networks of LossQueues with room *)
From Coq Require Import List ZArith QArith Lia Bool Arith.
From Verif Require Import Base Heap Queue PQueue Network SpecNet SpecQueue QueueEffects NetBare Clock ClockNet NetExamples SpecRelax Relax.
Import ListNotations.
Open Scope Z_scope.

Notation N := plain_net.
Notation rn n := (Forall has_room (nt_queues n)).

Lemma at_plain k n : queue_at k (N n) = rmap as_plain (queue_at k n).
Proof. unfold queue_at, plain_net. cbn [set_nt_queues nt_queues]. rewrite get_map, of_option_map. reflexivity. Qed.
Lemma put_plain k q n : put_queue k (as_plain q) (N n) = N (put_queue k q n).
Proof. unfold put_queue, plain_net. cbn [set_nt_queues nt_queues]. rewrite upd_map. reflexivity. Qed.
Lemma at_room k n q : rn n -> queue_at k n = Ok q -> has_room q.
Proof. intros F H. unfold queue_at in H. destruct (get (nt_queues n) k) as [x|] eqn:G; [|discriminate]. injection H as <-. apply (Forall_get _ _ _ _ F G). Qed.
Lemma put_room k q n : rn n -> has_room q -> rn (put_queue k q n).
Proof. intros F H. apply Forall_upd; assumption. Qed.
Lemma count_room k z n n' : rn n -> set_count k z n = Ok n' -> rn n'.
Proof. unfold set_count. intros F H. mbind H. injection H as <-. exact F. Qed.
Lemma view_plain {A} (f : queue -> A) q : f (lp q) = f q -> f (as_plain q) = f q.
Proof. intro E. unfold as_plain. destruct (c_class (q_cfg q)); auto. Qed.
Lemma number_plain q : number_queued (as_plain q) = number_queued q.
Proof. unfold as_plain. destruct (c_class (q_cfg q)) eqn:C; try reflexivity. unfold number_queued. rewrite C. reflexivity. Qed.
Lemma first_plain q : first_departure (as_plain q) = first_departure q.
Proof. apply view_plain. reflexivity. Qed.
Lemma tgt_plain q : c_tgt (q_cfg (as_plain q)) = c_tgt (q_cfg q).
Proof. apply (view_plain (fun q => c_tgt (q_cfg q))). reflexivity. Qed.
Lemma idx_plain q : c_idx (q_cfg (as_plain q)) = c_idx (q_cfg q).
Proof. apply (view_plain (fun q => c_idx (q_cfg q))). reflexivity. Qed.
Lemma time_plain q : q_time (as_plain q) = q_time q.
Proof. apply view_plain. reflexivity. Qed.
Lemma total_plain q : q_total (as_plain q) = q_total q.
Proof. apply view_plain. reflexivity. Qed.
Lemma dep_plain q : q_dep (as_plain q) = q_dep q.
Proof. apply view_plain. reflexivity. Qed.
Lemma key_plain q : qkey (as_plain q) = qkey q.
Proof. apply view_plain. reflexivity. Qed.
Lemma describe_plain q : next_event_description (as_plain q) = next_event_description q.
Proof. unfold as_plain. destruct (c_class (q_cfg q)) eqn:C; try reflexivity. unfold next_event_description. rewrite C. reflexivity. Qed.
Lemma capacity_plain q : has_room q -> at_capacity (as_plain q) = at_capacity q.
Proof.
  intro R. destruct (loss_dec q) as [F|M]; [|rewrite plain_other by exact M; reflexivity]. rewrite (plain_loss q F). unfold at_capacity at 2. rewrite F.
  symmetry. apply eleb_gt. apply R. exact F.
Qed.
Lemma stop_plain q n : stop_if_full (as_plain q) (N n) = as_plain (stop_if_full q n).
Proof.
  unfold stop_if_full. change (full (N n)) with (full n). assert (E : q_active (as_plain q) = q_active q) by (unfold as_plain; destruct (c_class (q_cfg q)); reflexivity). rewrite E. destruct (q_active q && full n); [|reflexivity].
  unfold as_plain. qc. destruct (c_class (q_cfg q)); reflexivity.
Qed.
Lemma mark_plain q : mark_blocked (as_plain q) = rmap as_plain (mark_blocked q).
Proof.
  apply lift_queue; [intros q' H; exact (mark_cfg _ _ H)|]. intros _. unfold mark_blocked. change (first_departure (lp q)) with (first_departure q). rewrite rmap_bind. apply bind_ext. intros x _. reflexivity.
Qed.
Lemma stop_room q n : has_room q -> has_room (stop_if_full q n).
Proof. intro R. unfold stop_if_full. destruct (_ && _); exact R. Qed.
Lemma add_room a q q' : has_room q -> add_arrival a q = Ok q' -> has_room q'.
Proof.
  intros R H. assert (C := add_cfg _ _ _ H). destruct (loss_dec q) as [F|M]; [|intro F; rewrite C in F; congruence].
  destruct (calm_add _ _ _ F H) as (_ & B & D). apply (room_left q); try assumption. lia.
Qed.
Lemma next_room q x q' : has_room q -> next_event q = Ok (Some x, q') -> has_room q'.
Proof.
  intros R H. assert (C := next_cfg _ _ _ H). destruct (loss_dec q) as [F|M]; [|intro F; rewrite C in F; congruence].
  destruct (departed_room _ _ _ F H) as (_ & B & D). apply (room_left q); assumption.
Qed.

Lemma count_plain k z n : set_count k z (N n) = rmap N (set_count k z n).
Proof. unfold set_count. unfold plain_net. cbn [set_nt_queues nt_nagents]. destruct (set (nt_nagents n) k z); reflexivity. Qed.
Lemma push_plain k n : net_push k (N n) = rmap N (net_push k n).
Proof. unfold net_push. unfold plain_net. cbn [set_nt_queues nt_heap]. destruct (pq_push (nt_heap n) (fst k) (snd k)); reflexivity. Qed.
Lemma queued_plain l n : numbers_queued l (N n) = numbers_queued l n.
Proof.
  induction l as [|e l IH]; [reflexivity|]. cbn [numbers_queued]. rewrite at_plain, bind_rmap, IH. apply bind_ext. intros q _. rewrite number_plain. reflexivity.
Qed.
Definition dp (x : nat * net) : nat * net := (fst x, N (snd x)).
Lemma desired_plain x v n : desired_destination x v (N n) = rmap dp (desired_destination x v n).
Proof.
  unfold desired_destination. change (nt_out (N n)) with (nt_out n). rewrite rmap_bind. apply bind_ext. intros l _.
  rewrite queued_plain. change (nt_u (N n) (nt_iu (N n))) with (nt_u n (nt_iu n)). change (set_nt_iu (Datatypes.S (nt_iu (N n))) (N n)) with (N (set_nt_iu (Datatypes.S (nt_iu n)) n)). change (nt_probs (N n)) with (nt_probs n). cbv zeta.
  destruct (ag_kind x).
  all: try (rewrite rmap_if; destruct (length l <=? 1)%nat; [destruct (get l 0); reflexivity|]; rewrite rmap_bind; apply bind_ext; intros pr _; rewrite rmap_bind; apply bind_ext; intros k _;
    rewrite rmap_bind; apply bind_ext; intros e _; reflexivity).
  rewrite rmap_bind. apply bind_ext. intros zs _. rewrite rmap_bind. apply bind_ext. intros d _. rewrite rmap_bind. apply bind_ext. intros e _. reflexivity.
Qed.
Lemma desired_room x v n e n' : desired_destination x v n = Ok (e, n') -> nt_queues n' = nt_queues n.
Proof.
  unfold desired_destination. intros H. mbind H. destruct (ag_kind x).
  all: try (destruct (length _ <=? 1)%nat; [mbind H; injection H as _ <-; reflexivity|]; cbv zeta in H; do 3 (mbind H); injection H as _ <-; reflexivity).
  do 3 (mbind H). injection H as _ <-. reflexivity.
Qed.
Lemma block_plain k e2 n : (forall q, queue_at e2 n = Ok q -> c_class (q_cfg q) <> CLoss) -> block_agent k e2 (N n) = rmap N (block_agent k e2 n).
Proof.
  intro F. unfold block_agent. rewrite at_plain, bind_rmap, rmap_bind. apply bind_ext. intros q2 E2. cbv zeta. specialize (F q2 E2).
  set (n1 := put_queue e2 (set_q_blocked (q_blocked q2 + 1) q2) n).
  assert (X : put_queue e2 (set_q_blocked (q_blocked (as_plain q2) + 1) (as_plain q2)) (N n) = N n1).
  { unfold n1. rewrite <- put_plain. rewrite (plain_other q2 F), plain_other; [reflexivity|exact F]. }
  rewrite X. clear X. rewrite at_plain, bind_rmap, rmap_bind. apply bind_ext. intros q1 E1. rewrite mark_plain, bind_rmap, rmap_bind. apply bind_ext. intros q1' M.
  rewrite put_plain. set (n2 := put_queue k q1' n1).
  change (nt_bas (N n2)) with (nt_bas n2). rewrite rmap_if. destruct (nt_bas n2) eqn:BAS.
  - rewrite at_plain, bind_rmap, rmap_bind. apply bind_ext. intros q3 _. rewrite dep_plain. rewrite rmap_bind. apply bind_ext. intros td _.
    change (nt_eps (N n2) (nt_ie (N n2))) with (nt_eps n2 (nt_ie n2)). change (set_nt_ie (Datatypes.S (nt_ie (N n2))) (N n2)) with (N (set_nt_ie (Datatypes.S (nt_ie n2)) n2)).
    set (n3 := set_nt_ie (Datatypes.S (nt_ie n2)) n2). rewrite at_plain, bind_rmap, rmap_bind. apply bind_ext. intros q4 E4.
    rewrite delay_all, bind_rmap, rmap_bind. apply bind_ext. intros q5 _. cbn [rmap]. rewrite put_plain. reflexivity.
  - rewrite at_plain, bind_rmap, rmap_bind. apply bind_ext. intros q4 E4. rewrite delay_all, bind_rmap, rmap_bind.
    apply bind_ext. intros q5 _. cbn [rmap]. rewrite put_plain. reflexivity.
Qed.
Lemma move_plain k e1 e2 t n : rn n -> move_agent k e1 e2 t (N n) = rmap N (move_agent k e1 e2 t n).
Proof.
  intro F. unfold move_agent. rewrite at_plain, bind_rmap, rmap_bind. apply bind_ext. intros q1 E1. assert (Q1 := at_room _ _ _ F E1).
  rewrite (next_all q1 Q1), bind_rmap, rmap_bind. apply bind_ext. intros [[x|] q1'] N1; cbn [ep fst snd]; [|reflexivity]. apply next_room in N1; [|exact Q1].
  cbv zeta. rewrite put_plain. set (n1 := put_queue k q1' n). assert (F1 : rn n1) by (apply put_room; assumption).
  rewrite at_plain, bind_rmap, rmap_bind. apply bind_ext. intros q2 E2. assert (Q2 := at_room _ _ _ F1 E2).
  rewrite add_all, bind_rmap, rmap_bind. apply bind_ext. intros q2' A2. apply add_room in A2; [|exact Q2].
  rewrite put_plain. set (n2 := put_queue e2 q2' n1). assert (F2 : rn n2) by (apply put_room; assumption).
  rewrite at_plain, bind_rmap, rmap_bind. apply bind_ext. intros q1b _. rewrite total_plain, count_plain, bind_rmap, rmap_bind. apply bind_ext. intros n3 E3.
  assert (F3 := count_room _ _ _ _ F2 E3). rewrite total_plain, count_plain, bind_rmap, rmap_bind. apply bind_ext. intros n4 E4.
  assert (F4 := count_room _ _ _ _ F3 E4). rewrite stop_plain, put_plain. set (n5 := put_queue e2 (stop_if_full q2' n4) n4).
  assert (F5 : rn n5) by (apply put_room; [exact F4|apply stop_room; exact A2]).
  rewrite at_plain, bind_rmap, rmap_bind. apply bind_ext. intros q2b E2b. rewrite (next_all q2b (at_room _ _ _ F5 E2b)), bind_rmap, rmap_bind. apply bind_ext. intros [r q2c] _.
  cbn [ep fst snd]. rewrite put_plain, total_plain. apply count_plain.
Qed.
Lemma reschedule_plain k e2 t n : reschedule k e2 t (N n) = rmap N (reschedule k e2 t n).
Proof.
  unfold reschedule. rewrite at_plain, bind_rmap, rmap_bind. apply bind_ext. intros q1 _. rewrite at_plain, bind_rmap, rmap_bind. apply bind_ext. intros q2 _. cbv zeta.
  rewrite !key_plain, !push_plain, rmap_if. destruct (negb _).
  - rewrite bind_rmap, rmap_bind. apply bind_ext. intros n1 _. rewrite rmap_if, push_plain. reflexivity.
  - rewrite rmap_if. reflexivity.
Qed.
Lemma full_not_loss q : has_room q -> at_capacity q = true -> c_class (q_cfg q) <> CLoss.
Proof. intros R A F. unfold at_capacity in A. rewrite F in A. apply eleb_le in A. specialize (R F). destruct (eadd _ _); cbn in *; [lia|exact A]. Qed.
Lemma departs_plain k t n : rn n -> net_departure k t (N n) = rmap N (net_departure k t n).
Proof.
  intro F. unfold net_departure. rewrite at_plain, bind_rmap, rmap_bind. apply bind_ext. intros q1 _. cbv zeta. rewrite first_plain, rmap_bind. apply bind_ext. intros x _.
  rewrite tgt_plain, idx_plain, desired_plain, bind_rmap, rmap_bind. apply bind_ext. intros [e2 n1] D.
  apply desired_room in D. assert (F1 : rn n1) by (rewrite D; exact F). cbn [dp fst snd]. rewrite at_plain, bind_rmap, rmap_bind. apply bind_ext. intros q2 E2.
  assert (R2 := at_room _ _ _ F1 E2). rewrite (capacity_plain q2 R2), time_plain, (move_plain _ _ _ _ _ F1).
  assert (B : (if at_capacity q2 && negb (Nat.eqb e2 (c_idx (q_cfg q1))) then block_agent k e2 (N n1) else rmap N (move_agent k (c_idx (q_cfg q1)) e2 t n1)) =
    rmap N (if at_capacity q2 && negb (Nat.eqb e2 (c_idx (q_cfg q1))) then block_agent k e2 n1 else move_agent k (c_idx (q_cfg q1)) e2 t n1)).
  { destruct (at_capacity q2) eqn:A; cbn [andb]; [|reflexivity]. destruct (negb _); [|reflexivity]. apply block_plain. intros q Q. rewrite E2 in Q. injection Q as <-. apply full_not_loss; assumption. }
  rewrite B, bind_rmap, rmap_bind. apply bind_ext. intros n2 _. apply reschedule_plain.
Qed.
Lemma arrives_plain k n : rn n -> net_arrival k (N n) = rmap N (net_arrival k n).
Proof.
  intro F. unfold net_arrival. rewrite at_plain, bind_rmap, rmap_bind. apply bind_ext. intros q1 E1. cbv zeta. rewrite stop_plain.
  assert (Q1 := at_room _ _ _ F E1). rewrite (next_all _ (stop_room _ n Q1)), bind_rmap, rmap_bind. apply bind_ext. intros [r q2] _. cbn [ep fst snd].
  rewrite put_plain, idx_plain, total_plain, count_plain, bind_rmap, rmap_bind. apply bind_ext. intros n2 _. rewrite time_plain, key_plain, push_plain, rmap_if. reflexivity.
Qed.
Lemma event_plain n : rn n -> simulate_event (N n) = rmap N (simulate_event n).
Proof.
  intro F. unfold simulate_event. change (nt_heap (N n)) with (nt_heap n). rewrite rmap_if. destruct (pq_size (nt_heap n) =? 0)%nat; [reflexivity|].
  rewrite rmap_bind. apply bind_ext. intros [[[t k]|] h] _; [|reflexivity].
  cbv zeta. change (set_nt_heap h (N n)) with (N (set_nt_heap h n)). set (n1 := set_nt_heap h n). rewrite at_plain, bind_rmap, rmap_bind. apply bind_ext. intros q1 _.
  rewrite describe_plain, rmap_bind. apply bind_ext. intros d _.
  change (set_nt_events (nt_events (N n1) + 1) (set_nt_t t (N n1))) with (N (set_nt_events (nt_events n1 + 1) (set_nt_t t n1))).
  set (n2 := set_nt_events (nt_events n1 + 1) (set_nt_t t n1)). assert (F2 : rn n2) by exact F. rewrite !rmap_if, (departs_plain _ _ _ F2), (arrives_plain _ _ F2). reflexivity.
Qed.

(** ** Calls *)

Lemma finite_plain qs : finite_keys (map as_plain qs) = finite_keys qs.
Proof.
  unfold finite_keys. induction qs as [|q qs IH]; [reflexivity|]. cbn [map filter]. rewrite time_plain. destruct (eltb (q_time q) Inf); cbn [map]; rewrite IH, ?key_plain; reflexivity.
Qed.
Lemma not_null_plain l n : not_null l (N n) = not_null l n.
Proof.
  induction l as [|e l IH]; [reflexivity|]. cbn [not_null]. rewrite at_plain, bind_rmap, IH. apply bind_ext. intros q _.
  unfold as_plain. destruct (c_class (q_cfg q)) eqn:C; rewrite ?C; reflexivity.
Qed.
Lemma activate_plain l : forall n, activate l (N n) = rmap N (activate l n).
Proof.
  induction l as [|e l IH]; intros n; cbn [activate]; [reflexivity|].
  rewrite at_plain, bind_rmap, rmap_bind. apply bind_ext. intros q Eq. rewrite active_all, bind_rmap, rmap_bind. apply bind_ext. intros q' Ea.
  rewrite put_plain, total_plain, count_plain, bind_rmap, rmap_bind. apply bind_ext. intros n1 C. apply IH.
Qed.
Lemma init_plain sel n : initialize_queues sel (N n) = rmap N (initialize_queues sel n).
Proof.
  unfold initialize_queues. rewrite not_null_plain, rmap_bind. apply bind_ext. intros qs _. rewrite rmap_if. destruct (length qs =? 0)%nat; [reflexivity|].
  change (nt_max (N n)) with (nt_max n). rewrite activate_plain, bind_rmap, rmap_bind. apply bind_ext. intros n1 _.
  change (nt_queues (N n1)) with (map as_plain (nt_queues n1)). rewrite map_length, finite_plain. change (nt_heap (N n)) with (nt_heap n). rewrite rmap_bind. apply bind_ext. intros h _. reflexivity.
Qed.
Lemma on_queues_plain f : (forall q, f (as_plain q) = as_plain (f q)) -> forall l n, on_queues f l (N n) = rmap N (on_queues f l n).
Proof.
  intros Hf. induction l as [|e l IH]; intros n; cbn [on_queues]; [reflexivity|].
  rewrite at_plain, bind_rmap, rmap_bind. apply bind_ext. intros q Eq. rewrite Hf, put_plain. apply IH.
Qed.
Lemma call_plain c n : rn n -> run_call c (N n) = rmap N (run_call c n).
Proof.
  intro F. destruct c as [sel| | |o]; cbn [run_call]; [apply init_plain| | |].
  - cbn [rmap]. f_equal. unfold net_clear, plain_net. cbn [set_nt_queues nt_queues nt_out nt_probs nt_nagents nt_t nt_events nt_max nt_init nt_heap nt_bas nt_u nt_iu nt_eps nt_ie].
    rewrite map_length. unfold set_nt_queues. cbn [nt_queues nt_out nt_probs nt_nagents nt_t nt_events nt_max nt_init nt_heap nt_bas nt_u nt_iu nt_eps nt_ie].
    f_equal. rewrite !map_map. apply map_ext. intro q. apply clear_all.
  - unfold net_copy. change (nt_init (N n)) with (nt_init n). rewrite rmap_if. destruct (nt_init n); [|reflexivity].
    change (nt_queues (N n)) with (map as_plain (nt_queues n)). rewrite map_length, finite_plain. change (nt_heap (N n)) with (nt_heap n). rewrite rmap_bind. apply bind_ext. intros h _. reflexivity.
  - destruct o as [|c l|l|p|m|c]; cbn [run_nop]; try reflexivity.
    + apply event_plain. exact F.
    + apply on_queues_plain. intro q. unfold as_plain. qc. destruct (c_class (q_cfg q)); reflexivity.
    + apply on_queues_plain. intro q. unfold as_plain. qc. destruct (c_class (q_cfg q)); reflexivity.
Qed.
Lemma calls_plain l : forall n, roomy_calls l n -> calls l (N n) = rmap N (calls l n).
Proof.
  induction l as [|c l IH]; intros n R; cbn [calls]; [reflexivity|]. destruct R as (R & K). rewrite (call_plain c n R), bind_rmap, rmap_bind. apply bind_ext. intros n1 E. apply IH, K, E.
Qed.

(** ** What holds for all configurations goes on to hold *)

Section Fit.
Context (FF : qcfg -> Prop).
Definition nf (n : net) : Prop := Forall (fun q => FF (q_cfg q)) (nt_queues n).
Lemma at_fit k n q : nf n -> queue_at k n = Ok q -> FF (q_cfg q).
Proof. intros F H. unfold queue_at in H. destruct (get (nt_queues n) k) as [x|] eqn:G; [|discriminate]. injection H as <-. apply (Forall_get _ _ _ _ F G). Qed.
Lemma put_fit k q n : nf n -> FF (q_cfg q) -> nf (put_queue k q n).
Proof. intros F H. apply Forall_upd; assumption. Qed.
Lemma put_like k q q' n : nf n -> FF (q_cfg q) -> q_cfg q' = q_cfg q -> nf (put_queue k q' n).
Proof. intros F H C. apply put_fit; [exact F|]. rewrite C. exact H. Qed.
Lemma count_fit k z n n' : nf n -> set_count k z n = Ok n' -> nf n'.
Proof. unfold set_count. intros F H. mbind H. injection H as <-. exact F. Qed.
Lemma push_fit k n n' : nf n -> net_push k n = Ok n' -> nf n'.
Proof. unfold net_push. intros F H. mbind H. injection H as <-. exact F. Qed.
Lemma desired_fit x v n e n' : nf n -> desired_destination x v n = Ok (e, n') -> nf n'.
Proof.
  unfold desired_destination. intros F H. mbind H. destruct (ag_kind x).
  all: try (destruct (length _ <=? 1)%nat; [mbind H; injection H as _ <-; exact F|]; cbv zeta in H; do 3 (mbind H); injection H as _ <-; exact F).
  do 3 (mbind H). injection H as _ <-. exact F.
Qed.
Lemma block_fit k e2 n n' : nf n -> block_agent k e2 n = Ok n' -> nf n'.
Proof.
  intro F. unfold block_agent. intro H. apply bind_Ok in H as (q2 & E2 & H). cbv zeta in H.
  set (n1 := put_queue e2 (set_q_blocked (q_blocked q2 + 1) q2) n) in H.
  assert (F1 : nf n1) by (apply put_fit; [exact F | exact (at_fit _ _ _ F E2)]).
  apply bind_Ok in H as (q1 & E1 & H). apply bind_Ok in H as (q1' & M & H). apply mark_cfg in M.
  set (n2 := put_queue k q1' n1) in H. assert (F2 : nf n2) by (eapply put_like; [exact F1 | exact (at_fit _ _ _ F1 E1) | exact M]).
  destruct (nt_bas n2).
  - apply bind_Ok in H as (q3 & _ & H). apply bind_Ok in H as (td & _ & H). set (n3 := set_nt_ie (Datatypes.S (nt_ie n2)) n2) in H. assert (F3 : nf n3) by exact F2.
    apply bind_Ok in H as (q4 & E4 & H). apply bind_Ok in H as (q5 & D & H). injection H as <-. apply delay_cfg in D. eapply put_like; [exact F3 | exact (at_fit _ _ _ F3 E4) | exact D].
  - apply bind_Ok in H as (q4 & E4 & H). apply bind_Ok in H as (q5 & D & H). injection H as <-. apply delay_cfg in D. eapply put_like; [exact F2 | exact (at_fit _ _ _ F2 E4) | exact D].
Qed.
Lemma move_fit k e1 e2 t n n' : nf n -> move_agent k e1 e2 t n = Ok n' -> nf n'.
Proof.
  intro F. unfold move_agent. intro H. apply bind_Ok in H as (q1 & E1 & H). assert (Q1 := at_fit _ _ _ F E1). apply bind_Ok in H as ([[x|] q1'] & N1 & H); [|discriminate].
  apply next_cfg in N1. cbv zeta in H. set (n1 := put_queue k q1' n) in H. assert (F1 : nf n1) by (eapply put_like; eassumption).
  apply bind_Ok in H as (q2 & E2 & H). assert (Q2 := at_fit _ _ _ F1 E2). apply bind_Ok in H as (q2' & A2 & H). apply add_cfg in A2.
  set (n2 := put_queue e2 q2' n1) in H. assert (F2 : nf n2) by (eapply put_like; eassumption).
  apply bind_Ok in H as (q1b & _ & H). apply bind_Ok in H as (n3 & E3 & H). assert (F3 := count_fit _ _ _ _ F2 E3). apply bind_Ok in H as (n4 & E4 & H). assert (F4 := count_fit _ _ _ _ F3 E4).
  set (n5 := put_queue e2 (stop_if_full q2' n4) n4) in H. assert (F5 : nf n5) by (eapply put_like; [exact F4 | exact Q2 | rewrite stop_cfg; exact A2]).
  apply bind_Ok in H as (q2b & E2b & H). apply bind_Ok in H as ([r q2c] & N2 & H). apply next_cfg in N2. eapply count_fit; [|exact H].
  eapply put_like; [exact F5 | exact (at_fit _ _ _ F5 E2b) | exact N2].
Qed.
Lemma reschedule_fit k e2 t n n' : nf n -> reschedule k e2 t n = Ok n' -> nf n'.
Proof.
  unfold reschedule. intros F H. do 2 (mbind H). cbv zeta in H. destruct (negb _).
  - apply bind_Ok in H as (n1 & P & H). assert (F1 := push_fit _ _ _ F P). destruct (_ && _); [exact (push_fit _ _ _ F1 H) | injection H as <-; exact F1].
  - destruct (eltb _ _); [exact (push_fit _ _ _ F H) | injection H as <-; exact F].
Qed.
Lemma departs_fit k t n n' : nf n -> net_departure k t n = Ok n' -> nf n'.
Proof.
  intro F. unfold net_departure. intro H. mbind H. cbv zeta in H. mbind H. apply bind_Ok in H as ([e2 n1] & D & H). assert (F1 := desired_fit _ _ _ _ _ F D).
  apply bind_Ok in H as (q2 & _ & H). apply bind_Ok in H as (n2 & M & H). apply (reschedule_fit _ _ _ _ _) with (2 := H).
  destruct (_ && _) in M; [exact (block_fit _ _ _ _ F1 M) | exact (move_fit _ _ _ _ _ _ F1 M)].
Qed.
Lemma arrives_fit k n n' : nf n -> net_arrival k n = Ok n' -> nf n'.
Proof.
  intro F. unfold net_arrival. intro H. apply bind_Ok in H as (q1 & E1 & H). cbv zeta in H. apply bind_Ok in H as ([r q2] & M & H). apply next_cfg in M. rewrite stop_cfg in M.
  apply bind_Ok in H as (n2 & C & H). assert (F1 : nf (put_queue k q2 n)) by (eapply put_like; [exact F | exact (at_fit _ _ _ F E1) | exact M]).
  assert (F2 := count_fit _ _ _ _ F1 C). destruct (eltb _ _); [exact (push_fit _ _ _ F2 H) | injection H as <-; exact F2].
Qed.
Lemma event_fit n n' : nf n -> simulate_event n = Ok n' -> nf n'.
Proof.
  intro F. unfold simulate_event. destruct (pq_size (nt_heap n) =? 0)%nat; [intro H; injection H as <-; exact F|]. intro H. apply bind_Ok in H as ([[[t k]|] h] & _ & H); [|discriminate].
  cbv zeta in H. do 2 (mbind H). destruct (_ =? 2); [eapply departs_fit; [|exact H]; exact F|]. destruct (_ =? 1); [eapply arrives_fit; [|exact H]; exact F|]. injection H as <-. exact F.
Qed.
Lemma activate_fit l : forall n n', nf n -> activate l n = Ok n' -> nf n'.
Proof.
  induction l as [|e l IH]; intros n n' F H; cbn [activate] in H; [injection H as <-; exact F|].
  apply bind_Ok in H as (q & Eq & H). apply bind_Ok in H as (q' & Ea & H). apply bind_Ok in H as (n1 & C & H). apply active_cfg in Ea.
  eapply IH; [|exact H]. eapply count_fit; [|exact C]. eapply put_like; [exact F | exact (at_fit _ _ _ F Eq) | exact Ea].
Qed.
Lemma init_fit sel n n' : nf n -> initialize_queues sel n = Ok n' -> nf n'.
Proof.
  intro F. unfold initialize_queues. intro H. mbind H. destruct (length x =? 0)%nat; [discriminate|]. apply bind_Ok in H as (n1 & Ea & H). mbind H. injection H as <-. exact (activate_fit _ _ _ F Ea).
Qed.
Lemma on_queues_fit f : (forall q, q_cfg (f q) = q_cfg q) -> forall l n n', nf n -> on_queues f l n = Ok n' -> nf n'.
Proof.
  intro Hc. induction l as [|e l IH]; intros n n' F H; cbn [on_queues] in H; [injection H as <-; exact F|].
  apply bind_Ok in H as (q & Eq & H). eapply IH; [|exact H]. eapply put_like; [exact F | exact (at_fit _ _ _ F Eq) | apply Hc].
Qed.
Lemma call_fit c n n' : nf n -> run_call c n = Ok n' -> nf n'.
Proof.
  intros F H. destruct c as [sel| | |o]; cbn [run_call] in H; [eapply init_fit; eassumption| | |].
  - injection H as <-. unfold nf in *. cbn [net_clear nt_queues]. apply Forall_map. eapply Forall_impl; [|exact F]. intros q Q. cbn beta in *. rewrite clear_cfg. exact Q.
  - unfold net_copy in H. destruct (nt_init n); [mbind H|]; injection H as <-; exact F.
  - destruct o as [|c l|l|p|m|c]; cbn [run_nop] in H; try (injection H as <-; exact F).
    + eapply event_fit; eassumption.
    + eapply (on_queues_fit (set_q_collect c)); [reflexivity|exact F|exact H].
    + eapply (on_queues_fit (set_q_data [])); [reflexivity|exact F|exact H].
Qed.
End Fit.

Lemma unlimited_room q : unlimited (q_cfg q) -> has_room q.
Proof. intros U F. rewrite (U F). destruct (q_servers q); exact I. Qed.
Lemma unlimited_ops l : forall q, unlimited (q_cfg q) -> roomy_ops l q.
Proof.
  induction l as [|o l IH]; intros q U; [exact I|]. split; [apply unlimited_room; exact U|]. intros q' H. apply IH. rewrite (op_cfg _ _ _ H). exact U.
Qed.
Lemma unlimited_calls l : forall n, nf unlimited n -> roomy_calls l n.
Proof.
  induction l as [|c l IH]; intros n U; [exact I|]. split; [eapply Forall_impl; [|exact U]; intros q; apply unlimited_room|].
  intros n' H. apply IH. eapply call_fit; eassumption.
Qed.
