(** * LayNet: a network without the information does the same *)
From Coq Require Import List ZArith QArith Lia Bool Arith.
From Verif Require Import Base Heap Queue PQueue Network SpecNet QueueEffects NetBare Clock ClockNet SpecLay Lay.
Import ListNotations.
Open Scope Z_scope.

Lemma at_lay k n : queue_at k (lay_net n) = rmap lay (queue_at k n).
Proof. unfold queue_at. cbn [lay_net set_nt_queues nt_queues]. rewrite get_map, of_option_map. reflexivity. Qed.
Lemma put_lay k q n : put_queue k (lay q) (lay_net n) = lay_net (put_queue k q n).
Proof. unfold put_queue, lay_net. cbn [set_nt_queues nt_queues]. rewrite upd_map. reflexivity. Qed.
Lemma count_lay k z n : set_count k z (lay_net n) = rmap lay_net (set_count k z n).
Proof. unfold set_count. change (nt_nagents (lay_net n)) with (nt_nagents n). destruct (set (nt_nagents n) k z); reflexivity. Qed.
Lemma net_push_lay k n : net_push k (lay_net n) = rmap lay_net (net_push k n).
Proof. unfold net_push. change (nt_heap (lay_net n)) with (nt_heap n). destruct (pq_push (nt_heap n) (fst k) (snd k)); reflexivity. Qed.
Lemma number_lay q : number_queued (lay q) = number_queued q.
Proof. unfold number_queued. lch. rewrite map_length. destruct (c_class (q_cfg q)); reflexivity. Qed.
Lemma capacity_lay q : at_capacity (lay q) = at_capacity q.
Proof. unfold at_capacity. lch. destruct (c_class (q_cfg q)); reflexivity. Qed.
Lemma description_lay q : next_event_description (lay q) = next_event_description q.
Proof. unfold next_event_description. lch. rewrite ?root_lay. destruct (c_class (q_cfg q)); reflexivity. Qed.
Lemma queued_lay l n : numbers_queued l (lay_net n) = numbers_queued l n.
Proof. induction l as [|e l IH]; [reflexivity|]. cbn [numbers_queued]. rewrite at_lay, bind_rmap, IH. apply bind_ext. intros q _. apply bind_ext. intros zs _. rewrite number_lay. reflexivity. Qed.
Definition dest_lay (x : nat * net) : nat * net := (fst x, lay_net (snd x)).
Lemma desired_lay a v n : desired_destination (lay_agent a) v (lay_net n) = rmap dest_lay (desired_destination a v n).
Proof.
  unfold desired_destination. change (nt_out (lay_net n)) with (nt_out n). rewrite rmap_bind. apply bind_ext. intros l _.
  assert (G : (if (length l <=? 1)%nat then let* e := of_option IndexError (get l 0) in Ok (e, lay_net n)
    else let u := nt_u (lay_net n) (nt_iu (lay_net n)) in let n1 := set_nt_iu (Datatypes.S (nt_iu (lay_net n))) (lay_net n) in
      let* pr := of_option IndexError (get (nt_probs (lay_net n)) v) in let* k := choice pr u (length l) in let* e := of_option IndexError (get l k) in Ok (e, n1)) =
    rmap dest_lay (if (length l <=? 1)%nat then let* e := of_option IndexError (get l 0) in Ok (e, n)
    else let u := nt_u n (nt_iu n) in let n1 := set_nt_iu (Datatypes.S (nt_iu n)) n in
      let* pr := of_option IndexError (get (nt_probs n) v) in let* k := choice pr u (length l) in let* e := of_option IndexError (get l k) in Ok (e, n1))).
  { rewrite rmap_if. destruct (length l <=? 1)%nat; [destruct (get l 0); reflexivity|]. cbv zeta. change (nt_probs (lay_net n)) with (nt_probs n).
    change (nt_u (lay_net n) (nt_iu (lay_net n))) with (nt_u n (nt_iu n)). rewrite rmap_bind. apply bind_ext. intros pr _. rewrite rmap_bind. apply bind_ext. intros k _.
    rewrite rmap_bind. apply bind_ext. intros e _. reflexivity. }
  rewrite lay_kind_of. destruct (ag_kind a); cbn [lay_kind]; try exact G.
  rewrite queued_lay, rmap_bind. apply bind_ext. intros zs _. rewrite rmap_bind. apply bind_ext. intros d _. rewrite rmap_bind. apply bind_ext. intros e _. reflexivity.
Qed.
Lemma stop_lay q n : stop_if_full (lay q) (lay_net n) = lay (stop_if_full q n).
Proof. unfold stop_if_full. change (full (lay_net n)) with (full n). lch. destruct (q_active q && full n); reflexivity. Qed.
Lemma first_lay q : first_departure (lay q) = rmap lay_agent (first_departure q).
Proof. unfold first_departure. lch. destruct (q_dep q) as [|[|a] h]; reflexivity. Qed.
Lemma mark_lay q : mark_blocked (lay q) = rmap lay (mark_blocked q).
Proof.
  unfold mark_blocked. rewrite first_lay, bind_rmap, rmap_bind. apply bind_ext. intros a F. cbn [rmap]. f_equal. unfold first_departure in F. destruct (q_dep q) as [|[|a0] h] eqn:D; try discriminate. injection F as <-.
  lch. rewrite D. cbn [map tl].
  assert (E : set_ag_blocked (ag_blocked (lay_agent a0) + 1) (lay_agent a0) = lay_agent (set_ag_blocked (ag_blocked a0 + 1) a0)) by (unfold lay_agent; cbn [ag_kind set_ag_blocked]; destruct (ag_kind a0); reflexivity).
  rewrite E. reflexivity.
Qed.

(** ** Events *)

Ltac att := eapply fwd_bind; [apply fwd_eq, at_lay|].
Lemma block_lay k e2 n : fwd lay_net (block_agent k e2 n) (block_agent k e2 (lay_net n)).
Proof.
  unfold block_agent. att. intros q2 _. cbv zeta.
  change (set_q_blocked (q_blocked (lay q2) + 1) (lay q2)) with (lay (set_q_blocked (q_blocked q2 + 1) q2)). rewrite put_lay. set (n1 := put_queue e2 (set_q_blocked (q_blocked q2 + 1) q2) n).
  att. intros q1 _. eapply fwd_bind; [apply fwd_eq, mark_lay|]. intros q1' _. rewrite put_lay. set (n2 := put_queue k q1' n1). change (nt_bas (lay_net n2)) with (nt_bas n2). apply fwd_if.
  - att. intros q3 _. lch. rewrite root_lay. eapply fwd_bind; [apply fwd_id|]. intros td _. change (nt_eps (lay_net n2) (nt_ie (lay_net n2))) with (nt_eps n2 (nt_ie n2)).
    change (set_nt_ie (Datatypes.S (nt_ie (lay_net n2))) (lay_net n2)) with (lay_net (set_nt_ie (Datatypes.S (nt_ie n2)) n2)).
    att. intros q4 _. eapply fwd_bind; [apply fwd_eq, delay_lay|]. intros q5 _. apply fwd_ok. apply put_lay.
  - att. intros q4 _. eapply fwd_bind; [apply fwd_eq, delay_lay|]. intros q5 _. apply fwd_ok. apply put_lay.
Qed.
Lemma move_lay k e1 e2 t n : fwd lay_net (move_agent k e1 e2 t n) (move_agent k e1 e2 t (lay_net n)).
Proof.
  unfold move_agent. att. intros q1 _. eapply fwd_bind; [apply next_lay|]. intros [[a|] q1'] _; cbn [ev fst snd option_map]; [|intros x H; discriminate H].
  cbv zeta. rewrite put_lay. att. intros q2 _. rewrite lay_at. eapply fwd_bind; [apply fwd_eq, add_lay|]. intros q2' _. rewrite put_lay. att. intros q1b _. lch.
  eapply fwd_bind; [apply fwd_eq, count_lay|]. intros n3 _. eapply fwd_bind; [apply fwd_eq, count_lay|]. intros n4 _. rewrite stop_lay, put_lay. att. intros q2b _.
  eapply fwd_bind; [apply next_lay|]. intros [r q2c] _. cbn [ev fst snd]. rewrite put_lay. lch. apply fwd_eq, count_lay.
Qed.
Lemma reschedule_lay k e2 t n : fwd lay_net (reschedule k e2 t n) (reschedule k e2 t (lay_net n)).
Proof.
  unfold reschedule. att. intros q1 _. att. intros q2 _. cbv zeta. change (qkey (lay q1)) with (qkey q1). change (qkey (lay q2)) with (qkey q2). apply fwd_if.
  - eapply fwd_bind; [apply fwd_eq, net_push_lay|]. intros n1 _. apply fwd_if; [apply fwd_eq, net_push_lay|apply fwd_ok; reflexivity].
  - apply fwd_if; [apply fwd_eq, net_push_lay|apply fwd_ok; reflexivity].
Qed.
Lemma departs_lay k t n : fwd lay_net (net_departure k t n) (net_departure k t (lay_net n)).
Proof.
  unfold net_departure. att. intros q1 _. cbv zeta. eapply fwd_bind; [apply fwd_eq, first_lay|]. intros a _. lch. eapply fwd_bind; [apply fwd_eq, desired_lay|]. intros [e2 n1] _.
  cbn [dest_lay fst snd]. att. intros q2 _. rewrite capacity_lay. lch. eapply fwd_bind; [apply fwd_if; [apply block_lay|apply move_lay]|]. intros n2 _. apply reschedule_lay.
Qed.
Lemma arrives_lay k n : fwd lay_net (net_arrival k n) (net_arrival k (lay_net n)).
Proof.
  unfold net_arrival. att. intros q1 _. cbv zeta. rewrite stop_lay. eapply fwd_bind; [apply next_lay|]. intros [r q2] _. cbn [ev fst snd]. rewrite put_lay. lch.
  eapply fwd_bind; [apply fwd_eq, count_lay|]. intros n2 _. change (qkey (lay q2)) with (qkey q2). apply fwd_if; [apply fwd_eq, net_push_lay|apply fwd_ok; reflexivity].
Qed.
Lemma event_lay n : fwd lay_net (simulate_event n) (simulate_event (lay_net n)).
Proof.
  unfold simulate_event. change (nt_heap (lay_net n)) with (nt_heap n). apply fwd_if; [apply fwd_ok; reflexivity|]. eapply fwd_bind; [apply fwd_id|]. intros [[[t k]|] h] _; [|intros x H; discriminate H].
  cbv zeta. change (set_nt_heap h (lay_net n)) with (lay_net (set_nt_heap h n)). set (n1 := set_nt_heap h n). att. intros q1 _. rewrite description_lay. eapply fwd_bind; [apply fwd_id|]. intros d _. cbn beta.
  change (set_nt_events (nt_events (lay_net n1) + 1) (set_nt_t t (lay_net n1))) with (lay_net (set_nt_events (nt_events n1 + 1) (set_nt_t t n1))).
  repeat apply fwd_if; [apply departs_lay|apply arrives_lay|apply fwd_ok; reflexivity].
Qed.

(** ** Calls *)

Lemma finite_lay qs : finite_keys (map lay qs) = finite_keys qs.
Proof. unfold finite_keys. induction qs as [|q qs IH]; [reflexivity|]. cbn [map filter]. lch. destruct (eltb (q_time q) Inf); cbn [map]; rewrite IH; reflexivity. Qed.
Lemma not_null_lay l n : not_null l (lay_net n) = not_null l n.
Proof. induction l as [|e l IH]; [reflexivity|]. cbn [not_null]. rewrite at_lay, bind_rmap, IH. apply bind_ext. intros q _. reflexivity. Qed.
Lemma activate_lay l : forall n, fwd lay_net (activate l n) (activate l (lay_net n)).
Proof.
  induction l as [|e l IH]; intro n; cbn [activate]; [apply fwd_ok; reflexivity|]. att. intros q _. eapply fwd_bind; [apply active_lay|]. intros q' _. rewrite put_lay. lch.
  eapply fwd_bind; [apply fwd_eq, count_lay|]. intros n1 _. apply IH.
Qed.
Lemma init_lay sel n : fwd lay_net (initialize_queues sel n) (initialize_queues sel (lay_net n)).
Proof.
  unfold initialize_queues. rewrite not_null_lay. eapply fwd_bind; [apply fwd_id|]. intros qs _. cbn beta. apply fwd_if; [intros x H; discriminate H|].
  change (nt_max (lay_net n)) with (nt_max n). eapply fwd_bind; [apply activate_lay|]. intros n1 _.
  change (nt_queues (lay_net n1)) with (map lay (nt_queues n1)). rewrite map_length, finite_lay. change (nt_heap (lay_net n)) with (nt_heap n). eapply fwd_bind; [apply fwd_id|]. intros h _. apply fwd_ok. reflexivity.
Qed.
Lemma on_queues_lay f : (forall q, lay (f q) = f (lay q)) -> forall l n, fwd lay_net (on_queues f l n) (on_queues f l (lay_net n)).
Proof.
  intro F. induction l as [|e l IH]; intro n; cbn [on_queues]; [apply fwd_ok; reflexivity|]. att. intros q _. rewrite <- F, put_lay. apply IH.
Qed.
Lemma call_lay c n : fwd lay_net (run_call c n) (run_call c (lay_net n)).
Proof.
  destruct c as [sel| | |o]; cbn [run_call]; [apply init_lay| | |].
  - apply fwd_ok. unfold net_clear, lay_net. cbn [set_nt_queues nt_queues nt_out nt_probs nt_nagents nt_t nt_events nt_max nt_init nt_heap nt_bas nt_u nt_iu nt_eps nt_ie].
    rewrite map_length, !map_map, (map_ext _ _ clear_lay). reflexivity.
  - unfold net_copy. change (nt_init (lay_net n)) with (nt_init n). apply fwd_if; [|apply fwd_ok; reflexivity].
    change (nt_queues (lay_net n)) with (map lay (nt_queues n)). rewrite map_length, finite_lay. change (nt_heap (lay_net n)) with (nt_heap n). eapply fwd_bind; [apply fwd_id|]. intros h _. apply fwd_ok. reflexivity.
  - destruct o as [|b l|l|p|m|b]; cbn [run_nop]; try (apply fwd_ok; reflexivity); [apply event_lay| |]; apply on_queues_lay; reflexivity.
Qed.
