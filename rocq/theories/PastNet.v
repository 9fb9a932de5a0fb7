(** * PastNet: the same for networks *)
From Coq Require Import List ZArith QArith Lia Bool Arith.
From Verif Require Import Base Heap Queue PQueue Network SpecNet SpecQueue QueueEffects NetSteps NetBare Clock ClockNet NetExamples SpecPast Past.
Import ListNotations.
Open Scope Z_scope.

Section PastNet.
Context (d : draws).
Notation L := (redraw d).
Notation N := (redraw_net d).

Definition late_net (n : net) : Prop :=
  (exists k q, get (nt_queues n) k = Some q /\ late d q) \/
  (exists i, (i < nt_iu n)%nat /\ dr_u d i <> nt_u n i) \/
  (exists i, (i < nt_ie n)%nat /\ dr_eps d i <> nt_eps n i).
Lemma not_late_net n : same_past d n -> ~ late_net n.
Proof.
  intros (A & B & C) [(k & q & G & X)|[(i & H & X)|(i & H & X)]].
  - revert X. apply not_late, A. apply (nth_error_In _ k). exact G.
  - apply X, B, H.
  - apply X, C, H.
Qed.
Notation GN n := (good (late_net n) N late_net).
Definition dl (x : nat * net) : nat * net := (fst x, N (snd x)).
Definition ldl (x : nat * net) : Prop := late_net (snd x).

(** ** Reading and writing queues *)

Lemma at_past {B} (P : Prop) g (lg : B -> Prop) k n K K' :
  (forall q, get (nt_queues n) k = Some q -> good P g lg (K q) (K' (L q))) -> good P g lg (bind (queue_at k n) K) (bind (queue_at k (N n)) K').
Proof.
  intro H. unfold queue_at. change (nt_queues (N n)) with (map L (nt_queues n)). rewrite get_map. destruct (get (nt_queues n) k) as [q|]; [|apply good_err]. exact (H q eq_refl).
Qed.
Lemma put_past k q n : put_queue k (L q) (N n) = N (put_queue k q n).
Proof. unfold put_queue, redraw_net. cbn [set_nt_queues set_nt_u set_nt_eps nt_queues]. rewrite upd_map. reflexivity. Qed.
Lemma get_len {A} (l : list A) k x : get l k = Some x -> (k < length l)%nat.
Proof. unfold get. intro H. apply nth_error_Some. congruence. Qed.
Lemma put_get k q q' n : get (nt_queues n) k = Some q -> get (nt_queues (put_queue k q' n)) k = Some q'.
Proof. intro H. unfold put_queue. cbn [set_nt_queues nt_queues]. apply get_upd_eq. eapply get_len. exact H. Qed.
Lemma late_put k q q' n : get (nt_queues n) k = Some q -> (late d q -> late d q') -> late_net n \/ late d q' -> late_net (put_queue k q' n).
Proof.
  intros H M [[(j & p & J & X)|X]|X].
  - left. destruct (Nat.eq_dec j k) as [->|NE].
    + exists k, q'. split; [eapply put_get; exact H|]. apply M. congruence.
    + exists j, p. split; [|exact X]. unfold put_queue. cbn [set_nt_queues nt_queues]. rewrite get_upd_neq by exact NE. exact J.
  - right. exact X.
  - left. exists k, q'. split; [eapply put_get; exact H|exact X].
Qed.
Lemma late_put0 k q q' n : get (nt_queues n) k = Some q -> (late d q -> late d q') -> late_net n -> late_net (put_queue k q' n).
Proof. intros H M X. eapply late_put; eauto. Qed.
Lemma stop_past q n : stop_if_full (L q) (N n) = L (stop_if_full q n).
Proof. unfold stop_if_full. change (full (N n)) with (full n). change (q_active (L q)) with (q_active q). destruct (q_active q && full n); reflexivity. Qed.
Lemma late_stop q n : late d q -> late d (stop_if_full q n).
Proof. unfold stop_if_full. destruct (_ && _); exact (fun H => H). Qed.
Lemma mark_past q : good (late d q) L (late d) (mark_blocked q) (mark_blocked (L q)).
Proof.
  unfold mark_blocked. change (first_departure (L q)) with (first_departure q). apply good_same. intros a _.
  apply (good_ret _ L (late d) (set_q_dep (Ag (set_ag_blocked (ag_blocked a + 1) a) :: tl (q_dep q)) q)). exact (fun H => H).
Qed.
Lemma count_past k z n : GN n (set_count k z n) (set_count k z (N n)).
Proof. unfold set_count. apply good_same. intros l _. apply (good_ret _ N late_net (set_nt_nagents l n)). exact (fun H => H). Qed.
Lemma push_past k n : GN n (net_push k n) (net_push k (N n)).
Proof. unfold net_push. apply good_same. intros l _. apply (good_ret _ N late_net (set_nt_heap l n)). exact (fun H => H). Qed.
Lemma count_queues k z n n' : set_count k z n = Ok n' -> nt_queues n' = nt_queues n.
Proof. unfold set_count. intro H. mbind H. injection H as <-. reflexivity. Qed.
Lemma queued_past l n : numbers_queued l (N n) = numbers_queued l n.
Proof.
  induction l as [|e l IH]; [reflexivity|]. cbn [numbers_queued]. rewrite IH. unfold queue_at. change (nt_queues (N n)) with (map L (nt_queues n)). rewrite get_map. destruct (get (nt_queues n) e); reflexivity.
Qed.

(** ** Events *)

Definition qeqb (a b : Q) : bool := Z.eqb (Qnum a) (Qnum b) && Pos.eqb (Qden a) (Qden b).
Lemma qeqb_eq a b : qeqb a b = true <-> a = b.
Proof.
  unfold qeqb. rewrite andb_true_iff, Z.eqb_eq, Pos.eqb_eq. destruct a, b; cbn. split; [intros [-> ->]; reflexivity|intro H; injection H as -> ->; auto].
Qed.
Lemma desired_past x v n : good (late_net n) dl ldl (desired_destination x v n) (desired_destination x v (N n)).
Proof.
  unfold desired_destination. change (nt_out (N n)) with (nt_out n). apply good_same. intros l _. rewrite queued_past. change (nt_probs (N n)) with (nt_probs n).
  assert (X : good (late_net n) dl ldl
    (if (length l <=? 1)%nat then let* e := of_option IndexError (get l 0) in Ok (e, n)
     else let u := nt_u n (nt_iu n) in let n1 := set_nt_iu (S (nt_iu n)) n in let* pr := of_option IndexError (get (nt_probs n) v) in let* k := choice pr u (length l) in let* e := of_option IndexError (get l k) in Ok (e, n1))
    (if (length l <=? 1)%nat then let* e := of_option IndexError (get l 0) in Ok (e, N n)
     else let u := nt_u (N n) (nt_iu (N n)) in let n1 := set_nt_iu (S (nt_iu (N n))) (N n) in let* pr := of_option IndexError (get (nt_probs n) v) in let* k := choice pr u (length l) in let* e := of_option IndexError (get l k) in Ok (e, n1))).
  { destruct (length l <=? 1)%nat.
    { apply good_same. intros e _. apply (good_ret _ dl ldl (e, n)). exact (fun H => H). }
    cbv zeta. change (nt_iu (N n)) with (nt_iu n). change (nt_u (N n) (nt_iu n)) with (dr_u d (nt_iu n)).
    assert (M : late_net n -> late_net (set_nt_iu (S (nt_iu n)) n)).
    { intros [H|[(i & H & Y)|H]]; [left; exact H| |right; right; exact H]. right; left. exists i. split; [cbn; lia|exact Y]. }
    apply (good_draw _ _ _ (qeqb (dr_u d (nt_iu n)) (nt_u n (nt_iu n)))).
    - intro E. apply qeqb_eq in E. rewrite E. apply good_same. intros pr _. apply good_same. intros k _. apply good_same. intros e _.
      apply (good_ret _ dl ldl (e, set_nt_iu (S (nt_iu n)) n)). exact M.
    - intros E b H. do 3 (apply bind_Ok in H as (? & _ & H)). injection H as <-. right; left. exists (nt_iu n). cbn. split; [lia|]. intro Y. apply qeqb_eq in Y. congruence. }
  destruct (ag_kind x); try exact X. apply good_same. intros zs _. apply good_same. intros k _. apply good_same. intros e _. apply (good_ret _ dl ldl (e, n)). exact (fun H => H).
Qed.
Lemma block_past k e2 n : GN n (block_agent k e2 n) (block_agent k e2 (N n)).
Proof.
  unfold block_agent. apply at_past. intros q2 E2. cbv zeta.
  change (set_q_blocked (q_blocked (L q2) + 1) (L q2)) with (L (set_q_blocked (q_blocked q2 + 1) q2)). rewrite put_past.
  set (n1 := put_queue e2 (set_q_blocked (q_blocked q2 + 1) q2) n). apply (good_weak (late_net n1)); [exact (late_put0 e2 q2 (set_q_blocked (q_blocked q2 + 1) q2) n E2 (fun H => H))|].
  apply at_past. intros q1 E1. apply (good_bind _ _ L (late d) _ _ _ _ _ _ (mark_past q1)). intros q1' _ M1. rewrite put_past. set (n2 := put_queue k q1' n1).
  apply (good_weak (late_net n2)); [exact (late_put k q1 q1' n1 E1 M1)|]. change (nt_bas (N n2)) with (nt_bas n2). destruct (nt_bas n2).
  - apply at_past. intros q3 _. apply good_same. intros td _. change (nt_ie (N n2)) with (nt_ie n2). change (nt_eps (N n2) (nt_ie n2)) with (dr_eps d (nt_ie n2)).
    change (set_nt_ie (S (nt_ie n2)) (N n2)) with (N (set_nt_ie (S (nt_ie n2)) n2)). set (n3 := set_nt_ie (S (nt_ie n2)) n2).
    assert (M : late_net n2 -> late_net n3).
    { intros [H|[H|(i & H & Y)]]; [left; exact H|right; left; exact H|]. right; right. exists i. split; [change (i < S (nt_ie n2))%nat; lia|exact Y]. }
    assert (K : forall t, GN n3 (let* q1 := queue_at k n3 in let* q1' := delay_service (Some t) q1 in Ok (put_queue k q1' n3)) (let* q1 := queue_at k (N n3) in let* q1' := delay_service (Some t) q1 in Ok (put_queue k q1' (N n3)))).
    { intro t. apply at_past. intros q4 E4. apply (good_bind _ _ L (late d) _ _ _ _ _ _ (delay_past d (Some t) q4)). intros q5 _ M5. rewrite put_past. apply good_ret. exact (late_put k q4 q5 n3 E4 M5). }
    apply (good_draw _ _ _ (Z.eqb (dr_eps d (nt_ie n2)) (nt_eps n2 (nt_ie n2)))).
    + intro E. apply Z.eqb_eq in E. rewrite E. apply (good_weak (late_net n3)); [exact M|apply K].
    + intros E b H. apply (K _ b H). right; right. exists (nt_ie n2). split; [change (nt_ie n2 < S (nt_ie n2))%nat; lia|]. apply Z.eqb_neq in E. exact E.
  - apply at_past. intros q4 E4. apply (good_bind _ _ L (late d) _ _ _ _ _ _ (delay_past d None q4)). intros q5 _ M5. rewrite put_past. apply good_ret. exact (late_put k q4 q5 n2 E4 M5).
Qed.
Lemma reschedule_past k e2 t n : GN n (reschedule k e2 t n) (reschedule k e2 t (N n)).
Proof.
  unfold reschedule. apply at_past. intros q1 _. apply at_past. intros q2 _. cbv zeta. change (qkey (L q1)) with (qkey q1). change (qkey (L q2)) with (qkey q2). destruct (negb _).
  - apply (good_step _ N late_net); [apply push_past|]. intros n1. destruct (_ && _); [apply push_past|apply good_ret; exact (fun H => H)].
  - destruct (eltb _ _); [apply push_past|apply good_ret; exact (fun H => H)].
Qed.
Lemma move_past k e1 e2 t n : GN n (move_agent k e1 e2 t n) (move_agent k e1 e2 t (N n)).
Proof.
  unfold move_agent. apply at_past. intros q1 E1. apply (good_bind _ _ _ _ _ _ _ _ _ _ (next_past d q1)). intros [r q1'] _ M1. unfold el, le' in *. cbn [fst snd] in *.
  destruct r as [x|]; [|apply good_err]. cbv zeta. rewrite put_past. set (n1 := put_queue k q1' n). apply (good_weak (late_net n1)); [exact (late_put k q1 q1' n E1 M1)|].
  apply at_past. intros q2 E2. apply (good_bind _ _ L (late d) _ _ _ _ _ _ (add_past d (set_ag_time t x) q2)). intros q2' _ M2. rewrite put_past. set (n2 := put_queue e2 q2' n1).
  apply (good_weak (late_net n2)); [exact (late_put e2 q2 q2' n1 E2 M2)|]. assert (G2 : get (nt_queues n2) e2 = Some q2') by exact (put_get e2 q2 q2' n1 E2).
  apply at_past. intros q1b _. change (q_total (L q1b)) with (q_total q1b). change (q_total (L q2')) with (q_total q2').
  apply (good_bind _ _ N late_net _ _ _ _ _ _ (count_past e1 (q_total q1b) n2)). intros n3 C3 M3. apply (good_weak (late_net n3)); [tauto|]. apply count_queues in C3.
  apply (good_bind _ _ N late_net _ _ _ _ _ _ (count_past e2 (q_total q2') n3)). intros n4 C4 M4. apply (good_weak (late_net n4)); [tauto|]. apply count_queues in C4.
  rewrite stop_past, put_past. set (n5 := put_queue e2 (stop_if_full q2' n4) n4).
  assert (G4 : get (nt_queues n4) e2 = Some q2') by congruence.
  apply (good_weak (late_net n5)); [exact (late_put0 e2 q2' _ n4 G4 (late_stop q2' n4))|].
  apply at_past. intros q2b E5. apply (good_bind _ _ _ _ _ _ _ _ _ _ (next_past d q2b)). intros [r q2c] _ M5. unfold el, le' in *. cbn [fst snd] in *.
  rewrite put_past. change (q_total (L q2c)) with (q_total q2c). set (n6 := put_queue e2 q2c n5). apply (good_weak (late_net n6)); [exact (late_put e2 q2b q2c n5 E5 M5)|]. apply count_past.
Qed.
Lemma departs_past k t n : GN n (net_departure k t n) (net_departure k t (N n)).
Proof.
  unfold net_departure. apply at_past. intros q1 _. cbv zeta. change (first_departure (L q1)) with (first_departure q1). apply good_same. intros x _.
  change (c_tgt (q_cfg (L q1))) with (c_tgt (q_cfg q1)). change (c_idx (q_cfg (L q1))) with (c_idx (q_cfg q1)).
  apply (good_step _ dl ldl); [apply desired_past|]. intros [e2 n1]. unfold dl, ldl. cbn [fst snd].
  apply at_past. intros q2 _. change (at_capacity (L q2)) with (at_capacity q2). change (q_time (L q2)) with (q_time q2).
  apply (good_step _ N late_net); [destruct (_ && _); [apply block_past|apply move_past]|]. intros n2. apply reschedule_past.
Qed.
Lemma arrives_past k n : GN n (net_arrival k n) (net_arrival k (N n)).
Proof.
  unfold net_arrival. apply at_past. intros q1 E1. cbv zeta. rewrite stop_past. apply (good_bind _ _ _ _ _ _ _ _ _ _ (next_past d (stop_if_full q1 n))). intros [r q2] _ M2. unfold el, le' in *. cbn [fst snd] in *.
  rewrite put_past. change (c_idx (q_cfg (L q1))) with (c_idx (q_cfg q1)). change (q_total (L q2)) with (q_total q2). change (q_time (L q2)) with (q_time q2). change (qkey (L q2)) with (qkey q2).
  apply (good_weak (late_net (put_queue k q2 n))); [apply (late_put k q1 q2 n E1); intro H; apply M2, late_stop, H|].
  apply (good_step _ N late_net); [apply count_past|]. intros n2. destruct (eltb _ _); [apply push_past|apply good_ret; exact (fun H => H)].
Qed.
Lemma event_past n : GN n (simulate_event n) (simulate_event (N n)).
Proof.
  unfold simulate_event. change (nt_heap (N n)) with (nt_heap n). destruct (pq_size (nt_heap n) =? 0)%nat; [apply (good_ret _ N late_net (set_nt_t Inf n)); exact (fun H => H)|].
  apply good_same. intros [[[t k]|] h] _; [|apply good_err]. cbv zeta. change (set_nt_heap h (N n)) with (N (set_nt_heap h n)). set (n1 := set_nt_heap h n).
  apply (good_weak (late_net n1)); [exact (fun H => H)|]. apply at_past. intros q1 _.
  change (next_event_description (L q1)) with (next_event_description q1). apply good_same. intros e _.
  change (set_nt_events (nt_events (N n1) + 1) (set_nt_t t (N n1))) with (N (set_nt_events (nt_events n1 + 1) (set_nt_t t n1))). set (n2 := set_nt_events (nt_events n1 + 1) (set_nt_t t n1)).
  apply (good_weak (late_net n2)); [exact (fun H => H)|].
  destruct (e =? 2); [apply departs_past|]. destruct (e =? 1); [apply arrives_past|]. apply good_ret. exact (fun H => H).
Qed.

(** ** Calls *)

Lemma finite_past qs : finite_keys (map L qs) = finite_keys qs.
Proof.
  unfold finite_keys. induction qs as [|q qs IH]; [reflexivity|]. cbn [map filter]. change (q_time (L q)) with (q_time q). destruct (eltb (q_time q) Inf); cbn [map]; rewrite IH; reflexivity.
Qed.
Lemma not_null_past l n : not_null l (N n) = not_null l n.
Proof.
  induction l as [|e l IH]; [reflexivity|]. cbn [not_null]. rewrite IH. unfold queue_at. change (nt_queues (N n)) with (map L (nt_queues n)). rewrite get_map. destruct (get (nt_queues n) e); reflexivity.
Qed.
Lemma activate_past l : forall n, GN n (activate l n) (activate l (N n)).
Proof.
  induction l as [|e l IH]; intros n; cbn [activate]; [apply good_ret; exact (fun H => H)|].
  apply at_past. intros q E. apply (good_bind _ _ L (late d) _ _ _ _ _ _ (active_past d q)). intros q' _ M. rewrite put_past. change (q_total (L q')) with (q_total q').
  apply (good_weak (late_net (put_queue e q' n))); [exact (late_put e q q' n E M)|]. apply (good_step _ N late_net); [apply count_past|exact IH].
Qed.
Lemma init_past sel n : GN n (initialize_queues sel n) (initialize_queues sel (N n)).
Proof.
  unfold initialize_queues. rewrite not_null_past. apply good_same. intros qs _. destruct (length qs =? 0)%nat; [apply good_err|]. change (nt_max (N n)) with (nt_max n). change (nt_heap (N n)) with (nt_heap n).
  apply (good_step _ N late_net); [apply activate_past|]. intros n1. change (nt_queues (N n1)) with (map L (nt_queues n1)). rewrite map_length, finite_past. apply good_same. intros h _.
  apply (good_ret _ N late_net (set_nt_init true (set_nt_heap h n1))). exact (fun H => H).
Qed.
Lemma on_queues_past f : (forall q, f (L q) = L (f q)) -> (forall q, late d q -> late d (f q)) -> forall l n, GN n (on_queues f l n) (on_queues f l (N n)).
Proof.
  intros Hf Hl. induction l as [|e l IH]; intros n; cbn [on_queues]; [apply good_ret; exact (fun H => H)|].
  apply at_past. intros q E. rewrite Hf, put_past. apply (good_weak (late_net (put_queue e (f q) n))); [exact (late_put0 e q (f q) n E (Hl q))|]. apply IH.
Qed.
Lemma call_past c n : GN n (run_call c n) (run_call c (N n)).
Proof.
  destruct c as [sel| | |o]; cbn [run_call]; [apply init_past| | |].
  - assert (E : net_clear (N n) = N (net_clear n)).
    { unfold net_clear, redraw_net. cbn [set_nt_queues set_nt_u set_nt_eps nt_queues nt_out nt_probs nt_nagents nt_t nt_events nt_max nt_init nt_heap nt_bas nt_u nt_iu nt_eps nt_ie].
      rewrite map_length. unfold set_nt_queues, set_nt_u, set_nt_eps. cbn [nt_queues nt_out nt_probs nt_nagents nt_t nt_events nt_max nt_init nt_heap nt_bas nt_u nt_iu nt_eps nt_ie].
      f_equal. rewrite !map_map. apply map_ext. intro q. apply clear_past. }
    rewrite E. apply good_ret. intros [(k & q & G & X)|X]; [|right; exact X]. left. exists k, (clear q). split; [|apply clear_past; exact X].
    unfold net_clear. cbn [nt_queues]. rewrite get_map, G. reflexivity.
  - unfold net_copy. change (nt_init (N n)) with (nt_init n). change (nt_heap (N n)) with (nt_heap n). destruct (nt_init n).
    + change (nt_queues (N n)) with (map L (nt_queues n)). rewrite map_length, finite_past. apply good_same. intros h _. apply (good_ret _ N late_net (set_nt_heap h n)). exact (fun H => H).
    + apply (good_ret _ N late_net (set_nt_heap (empty_heap (pq_junk (nt_heap n))) n)). exact (fun H => H).
  - destruct o as [|c l|l|p|m|c]; cbn [run_nop].
    + apply event_past.
    + apply on_queues_past; [reflexivity|]. intros q H. exact H.
    + apply on_queues_past; [reflexivity|]. intros q H. exact H.
    + apply (good_ret _ N late_net (set_nt_probs p n)). exact (fun H => H).
    + apply (good_ret _ N late_net (set_nt_max m n)). exact (fun H => H).
    + apply (good_ret _ N late_net (set_nt_bas c n)). exact (fun H => H).
Qed.
Lemma calls_past l : forall n, GN n (calls l n) (calls l (N n)).
Proof. induction l as [|c l IH]; intros n; cbn [calls]; [apply good_ret; exact (fun H => H)|]. apply (good_step _ N late_net); [apply call_past|exact IH]. Qed.
End PastNet.
