(** * CopyProofs: what happens does not depend on the scheduler's memory *)
From Coq Require Import List ZArith QArith Lia Bool Permutation Arith.
From Verif Require Import Base Heap HeapProofs PQueue PQueueProofs SpecPQ PQHist Queue QueueEffects QueueEvents QueueSteps QueueInv SpecQueue QueueFlow QueueHist QueueClaims1 Network NetQueue NetSteps NetInv SpecNet NetReach NetClaims1 NetTotal NetStop SpecCopy.
Import ListNotations.
Open Scope Z_scope.

(** The network with another scheduler, clock and count. *)
Definition swap (h : pq) (t : ext) (e : Z) (n : net) : net :=
  mkNet (nt_queues n) (nt_out n) (nt_probs n) (nt_nagents n) t e (nt_max n) (nt_init n) h (nt_bas n) (nt_u n) (nt_iu n) (nt_eps n) (nt_ie n).

Lemma alike_swap n m : alike n m -> m = swap (nt_heap m) (nt_t m) (nt_events m) n.
Proof. intros (A & B & C & D & E & F & G & H & I & J & K). apply net_ext; cbn; assumption || reflexivity. Qed.

Lemma swap_alike h t e n : alike n (swap h t e n).
Proof. repeat split. Qed.

Definition rmap {A B} (f : A -> B) (r : res A) : res B := match r with Ok x => Ok (f x) | Err e => Err e end.

Section Swap.
Variables (h : pq) (t : ext) (e : Z).
Let sw := swap h t e.

Lemma numbers_swap l n : numbers_queued l (sw n) = numbers_queued l n.
Proof. induction l as [|k l IH]; [reflexivity|]. cbn [numbers_queued]. rewrite IH. reflexivity. Qed.

Lemma desired_swap a v n : desired_destination a v (sw n) = rmap (fun p => (fst p, sw (snd p))) (desired_destination a v n).
Proof.
  unfold desired_destination. change (nt_out (sw n)) with (nt_out n). destruct (of_option IndexError (get (nt_out n) v)) as [l|]; [|reflexivity]. cbn [bind].
  assert (G : (if (length l <=? 1)%nat then let* x := of_option IndexError (get l 0) in Ok (x, sw n)
     else let u := nt_u (sw n) (nt_iu (sw n)) in let n1 := set_nt_iu (S (nt_iu (sw n))) (sw n) in
       let* pr := of_option IndexError (get (nt_probs (sw n)) v) in let* k := choice pr u (length l) in
       let* x := of_option IndexError (get l k) in Ok (x, n1)) =
    rmap (fun p => (fst p, sw (snd p))) (if (length l <=? 1)%nat then let* x := of_option IndexError (get l 0) in Ok (x, n)
     else let u := nt_u n (nt_iu n) in let n1 := set_nt_iu (S (nt_iu n)) n in
       let* pr := of_option IndexError (get (nt_probs n) v) in let* k := choice pr u (length l) in
       let* x := of_option IndexError (get l k) in Ok (x, n1))).
  { destruct (length l <=? 1)%nat; [destruct (get l 0); reflexivity|]. cbv zeta.
    change (nt_probs (sw n)) with (nt_probs n). change (nt_u (sw n) (nt_iu (sw n))) with (nt_u n (nt_iu n)).
    destruct (get (nt_probs n) v) as [pr|]; [|reflexivity]. cbn [of_option bind].
    destruct (choice pr (nt_u n (nt_iu n)) (length l)) as [k|]; [|reflexivity]. cbn [bind].
    destruct (get l k); reflexivity. }
  destruct (ag_kind a); try exact G. rewrite numbers_swap. destruct (numbers_queued l n) as [zs|]; [|reflexivity]. cbn [bind].
  destruct (argmin zs) as [d|]; [|reflexivity]. cbn [bind]. destruct (get l d); reflexivity.
Qed.

Lemma block_swap k e2 n : block_agent k e2 (sw n) = rmap sw (block_agent k e2 n).
Proof.
  unfold block_agent. change (queue_at e2 (sw n)) with (queue_at e2 n). destruct (queue_at e2 n) as [q2|]; [|reflexivity]. cbn [bind].
  set (n1 := put_queue e2 _ n). change (put_queue e2 (set_q_blocked (q_blocked q2 + 1) q2) (sw n)) with (sw n1).
  change (queue_at k (sw n1)) with (queue_at k n1). destruct (queue_at k n1) as [q1|]; [|reflexivity]. cbn [bind].
  destruct (mark_blocked q1) as [q1'|]; [|reflexivity]. cbn [bind]. cbv zeta.
  change (put_queue k q1' (sw n1)) with (sw (put_queue k q1' n1)). set (n2 := put_queue k q1' n1).
  change (nt_bas (sw n2)) with (nt_bas n2). destruct (nt_bas n2).
  - change (queue_at e2 (sw n2)) with (queue_at e2 n2). destruct (queue_at e2 n2) as [q2'|]; [|reflexivity]. cbn [bind].
    destruct (root_time (q_dep q2')) as [td|]; [|reflexivity]. cbn [bind].
    change (nt_eps (sw n2) (nt_ie (sw n2))) with (nt_eps n2 (nt_ie n2)).
    change (set_nt_ie (S (nt_ie (sw n2))) (sw n2)) with (sw (set_nt_ie (S (nt_ie n2)) n2)). set (n3 := set_nt_ie (S (nt_ie n2)) n2).
    change (queue_at k (sw n3)) with (queue_at k n3). destruct (queue_at k n3) as [x|]; [|reflexivity]. cbn [bind].
    destruct (delay_service _ x) as [y|]; reflexivity.
  - change (queue_at k (sw n2)) with (queue_at k n2). destruct (queue_at k n2) as [x|]; [|reflexivity]. cbn [bind].
    destruct (delay_service _ x) as [y|]; reflexivity.
Qed.

Lemma count_swap k z n : set_count k z (sw n) = rmap sw (set_count k z n).
Proof. unfold set_count. change (nt_nagents (sw n)) with (nt_nagents n). destruct (set (nt_nagents n) k z); reflexivity. Qed.

Lemma move_swap k e1 e2 s n : move_agent k e1 e2 s (sw n) = rmap sw (move_agent k e1 e2 s n).
Proof.
  unfold move_agent. change (queue_at k (sw n)) with (queue_at k n). destruct (queue_at k n) as [q1|]; [|reflexivity]. cbn [bind].
  destruct (next_event q1) as [[[a|] q1']|]; [|reflexivity|reflexivity]. cbn [bind]. cbv zeta.
  change (put_queue k q1' (sw n)) with (sw (put_queue k q1' n)). set (n1 := put_queue k q1' n).
  change (queue_at e2 (sw n1)) with (queue_at e2 n1). destruct (queue_at e2 n1) as [q2|]; [|reflexivity]. cbn [bind].
  destruct (add_arrival _ q2) as [q2'|]; [|reflexivity]. cbn [bind].
  change (put_queue e2 q2' (sw n1)) with (sw (put_queue e2 q2' n1)). set (n2 := put_queue e2 q2' n1).
  change (queue_at k (sw n2)) with (queue_at k n2). destruct (queue_at k n2) as [x|]; [|reflexivity]. cbn [bind].
  rewrite count_swap. destruct (set_count e1 (q_total x) n2) as [n3|]; [|reflexivity]. cbn [rmap bind].
  rewrite count_swap. destruct (set_count e2 (q_total q2') n3) as [n4|]; [|reflexivity]. cbn [rmap bind].
  change (stop_if_full q2' (sw n4)) with (stop_if_full q2' n4).
  change (put_queue e2 (stop_if_full q2' n4) (sw n4)) with (sw (put_queue e2 (stop_if_full q2' n4) n4)). set (n5 := put_queue e2 (stop_if_full q2' n4) n4).
  change (queue_at e2 (sw n5)) with (queue_at e2 n5). destruct (queue_at e2 n5) as [y|]; [|reflexivity]. cbn [bind].
  destruct (next_event y) as [[r z]|]; [|reflexivity]. cbn [bind].
  change (put_queue e2 z (sw n5)) with (sw (put_queue e2 z n5)). apply count_swap.
Qed.

End Swap.

Lemma swap_self n : n = swap (nt_heap n) (nt_t n) (nt_events n) n.
Proof. reflexivity. Qed.

Lemma block_heap k e2 n n' : block_agent k e2 n = Ok n' -> nt_heap n' = nt_heap n.
Proof.
  intro H. assert (X := block_swap (nt_heap n) (nt_t n) (nt_events n) k e2 n). rewrite <- (swap_self n), H in X. cbn [rmap] in X.
  assert (Y : n' = swap (nt_heap n) (nt_t n) (nt_events n) n') by exact (f_equal (fun r : res net => match r with Ok x => x | Err _ => n end) X). exact (f_equal nt_heap Y).
Qed.

Lemma move_heap k e1 e2 s n n' : move_agent k e1 e2 s n = Ok n' -> nt_heap n' = nt_heap n.
Proof.
  intro H. assert (X := move_swap (nt_heap n) (nt_t n) (nt_events n) k e1 e2 s n). rewrite <- (swap_self n), H in X. cbn [rmap] in X.
  assert (Y : n' = swap (nt_heap n) (nt_t n) (nt_events n) n') by exact (f_equal (fun r : res net => match r with Ok x => x | Err _ => n end) X). exact (f_equal nt_heap Y).
Qed.

(** ** Pushing into both *)

Lemma push_both L h1 h2 t k h1' : pq_wf L h1 -> pq_wf L h2 -> pq_push h1 t k = Ok h1' ->
  pq_wf L h1' /\ exists h2', pq_push h2 t k = Ok h2' /\ pq_wf L h2'.
Proof.
  intros W1 W2 P. assert (K : (k < L)%nat).
  { unfold pq_push in P. mbind P. apply of_option_Ok in E. rewrite <- (wf_q _ _ W1). apply set_Some in E. apply E. }
  destruct (pq_push_spec _ h1 t k W1 K) as (x & E & W & _). rewrite P in E. injection E as <-. split; [exact W|].
  destruct (pq_push_spec _ h2 t k W2 K) as (y & E & W' & _). eauto.
Qed.

Lemma net_push_both L h t e key n n' : pq_wf L (nt_heap n) -> pq_wf L h -> net_push key n = Ok n' ->
  pq_wf L (nt_heap n') /\ exists h', net_push key (swap h t e n) = Ok (swap h' t e n') /\ pq_wf L h'.
Proof.
  intros W1 W2 P. unfold net_push in *. mbind P. injection P as <-. destruct (push_both _ _ _ _ _ _ W1 W2 E) as (A & y & B & C).
  split; [exact A|]. exists y. split; [|exact C]. change (nt_heap (swap h t e n)) with h. rewrite B. reflexivity.
Qed.

Lemma reschedule_both L h t e k e2 old n n' : pq_wf L (nt_heap n) -> pq_wf L h -> reschedule k e2 old n = Ok n' ->
  pq_wf L (nt_heap n') /\ exists h', reschedule k e2 old (swap h t e n) = Ok (swap h' t e n') /\ pq_wf L h'.
Proof.
  intros W1 W2 H. unfold reschedule in *. change (queue_at k (swap h t e n)) with (queue_at k n). change (queue_at e2 (swap h t e n)) with (queue_at e2 n).
  mbind H. mbind H. rewrite E, E0. cbn [bind]. cbv zeta in *. destruct (negb _).
  - mbind H. destruct (net_push_both _ _ t e _ _ _ W1 W2 E1) as (A & h1 & B & C). rewrite B. cbn [bind].
    destruct (_ && _); [exact (net_push_both _ _ t e _ _ _ A C H)|]. injection H as <-. eauto.
  - destruct (eltb _ _); [exact (net_push_both _ _ t e _ _ _ W1 W2 H)|]. injection H as <-. eauto.
Qed.

Lemma departure_both L h t e k s n n' : pq_wf L (nt_heap n) -> pq_wf L h -> net_departure k s n = Ok n' ->
  exists h', net_departure k s (swap h t e n) = Ok (swap h' t e n').
Proof.
  intros W1 W2 H. unfold net_departure in *. change (queue_at k (swap h t e n)) with (queue_at k n).
  mbind H. rewrite E. cbn [bind]. mbind H. rewrite E0. cbn [bind]. cbv zeta in *. mbind H. destruct x1 as [e2 n1]. rewrite desired_swap, E1. cbn [rmap fst snd bind].
  assert (HP : nt_heap n1 = nt_heap n) by (apply desired_Ok in E1 as (? & ? & _ & _ & ->); reflexivity).
  change (queue_at e2 (swap h t e n1)) with (queue_at e2 n1). mbind H. rewrite E2. cbn [bind].
  destruct (at_capacity x1 && _).
  - rewrite block_swap. mbind H. rewrite E3. cbn [rmap bind].
    assert (HX : nt_heap x2 = nt_heap n1) by (apply block_heap in E3; exact E3).
    rewrite <- HP, <- HX in W1. destruct (reschedule_both _ _ t e _ _ _ _ _ W1 W2 H) as (_ & h' & B & _). eauto.
  - rewrite move_swap. mbind H. rewrite E3. cbn [rmap bind].
    assert (HX : nt_heap x2 = nt_heap n1) by (apply move_heap in E3; exact E3).
    rewrite <- HP, <- HX in W1. destruct (reschedule_both _ _ t e _ _ _ _ _ W1 W2 H) as (_ & h' & B & _). eauto.
Qed.

Lemma arrival_both L h t e k n n' : pq_wf L (nt_heap n) -> pq_wf L h -> net_arrival k n = Ok n' ->
  exists h', net_arrival k (swap h t e n) = Ok (swap h' t e n').
Proof.
  intros W1 W2 H. unfold net_arrival in *. change (queue_at k (swap h t e n)) with (queue_at k n). mbind H. rewrite E. cbn [bind]. cbv zeta in *.
  change (stop_if_full x (swap h t e n)) with (stop_if_full x n). mbind H. rewrite E0. destruct x0 as [r q']. cbn [bind].
  change (put_queue k q' (swap h t e n)) with (swap h t e (put_queue k q' n)). rewrite count_swap. mbind H. rewrite E1. cbn [rmap bind].
  assert (HX : nt_heap x0 = nt_heap n) by (unfold set_count in E1; mbind E1; injection E1 as <-; reflexivity).
  destruct (eltb (q_time q') Inf).
  - rewrite <- HX in W1. destruct (net_push_both _ _ t e _ _ _ W1 W2 H) as (_ & h' & B & _). eauto.
  - injection H as <-. eauto.
Qed.

(** ** One event *)

Lemma sim_cases n n' : simulate_event n = Ok n' ->
  pq_size (nt_heap n) = 0%nat /\ n' = set_nt_t Inf n \/
  exists t k h q d, (0 < pq_size (nt_heap n))%nat /\ pq_pop (nt_heap n) = Ok (Some (t, k), h) /\ get (nt_queues n) k = Some q /\
    next_event_description q = Ok d /\
    (if d =? 2 then net_departure k t (swap h t (nt_events n + 1) n) else
     if d =? 1 then net_arrival k (swap h t (nt_events n + 1) n) else Ok (swap h t (nt_events n + 1) n)) = Ok n'.
Proof.
  unfold simulate_event. destruct (Nat.eqb_spec (pq_size (nt_heap n)) 0) as [Z|Z]; intro H.
  - left. split; [exact Z|]. exact (eq_sym (f_equal (fun r : res net => match r with Ok x => x | Err _ => n end) H)).
  - right. mbind H. destruct x as [[[t k]|] h]; [|discriminate]. cbv zeta in H. mbind H. mbind H. apply queue_at_Ok in E0.
    exists t, k, h, x, x0. split; [lia|]. split; [exact E|]. split; [exact E0|]. split; [exact E1|]. exact H.
Qed.

Lemma sim_from n t k h q d : (0 < pq_size (nt_heap n))%nat -> pq_pop (nt_heap n) = Ok (Some (t, k), h) -> get (nt_queues n) k = Some q ->
  next_event_description q = Ok d -> simulate_event n =
    (if d =? 2 then net_departure k t (swap h t (nt_events n + 1) n) else
     if d =? 1 then net_arrival k (swap h t (nt_events n + 1) n) else Ok (swap h t (nt_events n + 1) n)).
Proof.
  intros Z PO G D. unfold simulate_event. destruct (Nat.eqb_spec (pq_size (nt_heap n)) 0); [lia|]. rewrite PO. cbn [bind]. cbv zeta.
  unfold queue_at. change (nt_queues (set_nt_heap h n)) with (nt_queues n). rewrite G. cbn [of_option bind]. rewrite D. reflexivity.
Qed.

Lemma pop_live n k q : ninv n -> get (nt_queues n) k = Some q -> q_time q <> Inf ->
  (0 < pq_size (nt_heap n))%nat /\ exists t j h, pq_pop (nt_heap n) = Ok (Some (t, j), h).
Proof.
  intros I G F. destruct (ni_heap _ I) as [[_ X]|[W HB]]; [destruct (F (X _ _ G))|].
  destruct (ha_a _ _ _ _ _ HB k q Logic.I G F) as [A B].
  assert (SZ : (0 < pq_size (nt_heap n))%nat).
  { assert (L : length (pq_entries (nt_heap n)) = pq_size (nt_heap n)) by (apply pq_entries_length; assert (Z := wf_size _ _ W); assert (Z2 := wf_store _ _ W); lia).
    rewrite <- L. destruct (pq_entries (nt_heap n)); [destruct A|cbn; lia]. }
  split; [exact SZ|]. destruct (pq_pop_spec _ _ W SZ) as ([[t j]|] & h & dr & E & _ & _ & _ & DR & X); [eauto|]. exfalso.
  destruct X as [PM _]. apply (Permutation_in _ PM) in A. apply (DR _ A). exact B.
Qed.

(** A live entry that is popped belongs to a queue that is first. *)
Lemma popped_first n t k h q d : ninv n -> (0 < pq_size (nt_heap n))%nat -> pq_pop (nt_heap n) = Ok (Some (t, k), h) ->
  get (nt_queues n) k = Some q -> next_event_description q = Ok d -> d <> 0 -> due_first n k /\ q_time q = t.
Proof.
  intros I SZ PO G D ND. destruct (popped _ _ _ _ I SZ PO) as (_ & _ & _ & _ & _ & _ & KS & TT & _).
  assert (F : q_time q <> Inf).
  { assert (IQ := qk_inv _ _ _ (ni_q _ I _ _ G)). intro X.
    destruct (Z.eq_dec d 1) as [->|N1]; [apply (description_1 _ IQ D); exact X|].
    destruct (Z.eq_dec d 2) as [->|N2]; [apply (description_2 _ IQ D); exact X|].
    unfold next_event_description in D. destruct (c_class (q_cfg q)); try congruence; repeat (mbind D; [idtac..]);
      repeat match type of D with context [if ?c then _ else _] => destruct c end; congruence. }
  destruct (TT _ G) as [T|T]; [|congruence]. split; [|exact T]. exists q. split; [exact G|]. split; [exact F|].
  intros j qj GJ. rewrite T. apply (qok_time _ _ _ (KS _ _ GJ)).
Qed.

Lemma idle_step n t k h q : (0 < pq_size (nt_heap n))%nat -> pq_pop (nt_heap n) = Ok (Some (t, k), h) ->
  get (nt_queues n) k = Some q -> next_event_description q = Ok 0 -> simulate_event n = Ok (swap h t (nt_events n + 1) n).
Proof. intros Z PO G D. rewrite (sim_from _ _ _ _ _ _ Z PO G D). reflexivity. Qed.

Lemma description_some T k q : qok T k q -> exists d, next_event_description q = Ok d.
Proof.
  intro K. assert (I := qk_inv _ _ _ K). unfold next_event_description. rewrite (wfh_root_time _ (qi_arr _ I)), (wfh_root_time _ (qi_dep _ I)). cbn [bind].
  destruct (c_class (q_cfg q)); eauto; destruct (eltb _ _); eauto; destruct (eltb _ _); eauto.
Qed.

(** The same event happens in a network that is alike, after leftover
    entries. *)
Lemma event_follows s : forall n m t k h q d n', (pq_size (nt_heap m) <= s)%nat -> ninv n -> ninv m -> alike n m -> untied n ->
  (0 < pq_size (nt_heap n))%nat -> pq_pop (nt_heap n) = Ok (Some (t, k), h) -> get (nt_queues n) k = Some q ->
  next_event_description q = Ok d -> d <> 0 -> simulate_event n = Ok n' ->
  exists i m', nruns i m = Ok m' /\ alike n' m' /\ ninv m' /\ nt_t m' = nt_t n'.
Proof.
  induction s as [|s IH]; intros n m t k h q d n' LS I J AL UN SZ PO G D ND H;
    destruct (popped_first _ _ _ _ _ _ I SZ PO G D ND) as [DF TM];
    assert (F : q_time q <> Inf) by (destruct DF as (q0 & G0 & F0 & _); congruence);
    (assert (GM : get (nt_queues m) k = Some q) by (rewrite (proj1 AL); exact G));
    destruct (pop_live _ _ _ J GM F) as (SM & t2 & k2 & h2 & PM); [lia|].
  destruct (popped _ _ _ _ J SM PM) as (W2 & _ & LK & _ & _ & _ & KS & _).
  destruct (get_ex _ _ LK) as (q2 & G2). destruct (description_some _ _ _ (KS _ _ G2)) as (d2 & D2).
  destruct (Z.eq_dec d2 0) as [->|ND2].
  - assert (ST := idle_step _ _ _ _ _ SM PM G2 D2). set (m1 := swap h2 t2 (nt_events m + 1) m) in *.
    assert (J1 : ninv m1) by (apply (ninv_step _ _ J); exact (sim_nst _ _ J ST)).
    assert (A1 : alike n m1) by exact AL.
    assert (S1 : (pq_size (nt_heap m1) <= s)%nat) by (assert (X := pop_smaller _ _ _ _ J SM PM); change (nt_heap m1) with h2; lia).
    destruct (IH _ _ _ _ _ _ _ _ S1 I J1 A1 UN SZ PO G D ND H) as (i & m' & R & B). exists (S i), m'. split; [|exact B].
    cbn [nruns]. rewrite ST. exact R.
  - destruct (popped_first _ _ _ _ _ _ J SM PM G2 D2 ND2) as [DF2 TM2].
    assert (DF2' : due_first n k2). { destruct DF2 as (x & X1 & X2 & X3). exists x. rewrite (proj1 AL) in X1, X3. auto. }
    assert (k2 = k) by (apply UN; assumption). subst k2. assert (q2 = q) by congruence. subst q2. assert (d2 = d) by congruence. subst d2.
    assert (ET : t2 = t) by congruence. clear TM2. subst t2.
    rewrite (sim_from _ _ _ _ _ _ SZ PO G D) in H.
    destruct (popped _ _ _ _ I SZ PO) as (W1 & _). rewrite (proj1 AL) in W2.
    assert (EM : swap h2 t (nt_events m + 1) m = swap h2 t (nt_events m + 1) (swap h t (nt_events n + 1) n)) by (rewrite (alike_swap _ _ AL); reflexivity).
    assert (SMm := sim_from _ _ _ _ _ _ SM PM GM D). rewrite EM in SMm.
    assert (X : exists h', simulate_event m = Ok (swap h' t (nt_events m + 1) n')).
    { rewrite SMm. destruct (d =? 2); [exact (departure_both _ h2 t (nt_events m + 1) k t (swap h t (nt_events n + 1) n) n' W1 W2 H)|].
      destruct (d =? 1); [exact (arrival_both _ h2 t (nt_events m + 1) k (swap h t (nt_events n + 1) n) n' W1 W2 H)|].
      exists h2. do 2 f_equal. exact (f_equal (fun r : res net => match r with Ok x => x | Err _ => n end) H). }
    assert (Y : nt_t n' = t).
    { assert (Y : exists h', Ok n' = Ok (swap h' t (nt_events n + 1) n')).
      { assert (Z : exists h', (if d =? 2 then net_departure k t (swap h t (nt_events n + 1) n) else if d =? 1 then net_arrival k (swap h t (nt_events n + 1) n) else Ok (swap h t (nt_events n + 1) n)) = Ok (swap h' t (nt_events n + 1) n')); [|destruct Z as (h' & Z); exists h'; rewrite <- Z; symmetry; exact H].
        destruct (d =? 2); [exact (departure_both _ h t (nt_events n + 1) k t (swap h t (nt_events n + 1) n) n' W1 W1 H)|].
        destruct (d =? 1); [exact (arrival_both _ h t (nt_events n + 1) k (swap h t (nt_events n + 1) n) n' W1 W1 H)|].
        exists h. assert (EN : n' = (swap h t (nt_events n + 1) n)) by exact (eq_sym (f_equal (fun r : res net => match r with Ok x => x | Err _ => n end) H)). rewrite EN. reflexivity. }
      destruct Y as (h' & Y). exact (f_equal (fun r : res net => match r with Ok x => nt_t x | Err _ => t end) Y). }
    destruct X as (h' & X). exists 1%nat. eexists. split; [cbn [nruns]; rewrite X; reflexivity|]. split; [apply swap_alike|].
    split; [apply (ninv_step _ _ J); exact (sim_nst _ _ J X)|]. rewrite Y. reflexivity.
Qed.

Lemma alike_trans n m k : alike n m -> alike m k -> alike n k.
Proof. unfold alike. intuition congruence. Qed.

Lemma step_follows n m n' : ninv n -> ninv m -> alike n m -> untied n -> simulate_event n = Ok n' ->
  exists i m', nruns i m = Ok m' /\ alike n' m' /\ ninv m' /\ (nt_t m' = nt_t n' \/ i = 0%nat /\ nt_queues n' = nt_queues n).
Proof.
  intros I J AL UN H. destruct (sim_cases _ _ H) as [[SZ ->]|(t & k & h & q & d & SZ & PO & G & D & H')].
  - exists 0%nat, m. split; [reflexivity|]. split; [exact AL|]. split; [exact J|]. right. auto.
  - destruct (Z.eq_dec d 0) as [->|ND].
    + exists 0%nat, m. cbn [Z.eqb] in H'.
      assert (E : n' = swap h t (nt_events n + 1) n) by exact (eq_sym (f_equal (fun r : res net => match r with Ok x => x | Err _ => n end) H')).
      split; [reflexivity|]. subst n'. split; [exact AL|]. split; [exact J|]. right. auto.
    + destruct (event_follows _ _ _ _ _ _ _ _ _ (le_n _) I J AL UN SZ PO G D ND H) as (i & m' & R & B & C & T). exists i, m'. auto 6.
Qed.

Lemma nruns_add i : forall j n n', nruns i n = Ok n' -> nruns (i + j) n = nruns j n'.
Proof.
  induction i as [|i IH]; intros j n n' H; cbn [nruns Nat.add] in *; [f_equal; exact (f_equal (fun r : res net => match r with Ok x => x | Err _ => n end) H)|].
  mbind H. rewrite E. cbn [bind]. apply IH. exact H.
Qed.

Lemma nruns_later j : forall n n', ninv n -> nruns j n = Ok n' -> ninv n' /\ eLe (nt_t n) (nt_t n').
Proof.
  induction j as [|j IH]; intros n n' I H; cbn [nruns] in H.
  - assert (n' = n) by exact (eq_sym (f_equal (fun r : res net => match r with Ok x => x | Err _ => n end) H)). subst. split; [exact I|apply eLe_refl].
  - mbind H. destruct (ninv_step _ _ I (sim_nst _ _ I E)) as [I1 L]. destruct (IH _ _ I1 H) as [I2 L2]. split; [exact I2|exact (eLe_trans _ _ _ L L2)].
Qed.

Lemma nruns_last j n n' : nruns (S j) n = Ok n' -> exists n1, nruns j n = Ok n1 /\ simulate_event n1 = Ok n'.
Proof.
  revert n. induction j as [|j IH]; intros n H.
  - cbn [nruns] in H. mbind H. exists n. split; [reflexivity|]. rewrite E. exact H.
  - change (nruns (S (S j)) n) with (let* x := simulate_event n in nruns (S j) x) in H. mbind H. destruct (IH _ H) as (n1 & A & B).
    exists n1. split; [|exact B]. cbn [nruns]. rewrite E. exact A.
Qed.

(** Many events. *)
Lemma runs_follow j : forall n m nj, ninv n -> ninv m -> alike n m -> nruns j n = Ok nj ->
  (forall i ni, (i < j)%nat -> nruns i n = Ok ni -> untied ni) ->
  exists i mi, nruns i m = Ok mi /\ alike nj mi /\ ninv mi /\ (eLe (nt_t m) (nt_t n) -> eLe (nt_t mi) (nt_t nj)) /\
    (forall p np, j = S p -> nruns p n = Ok np -> nt_queues nj <> nt_queues np -> nt_t mi = nt_t nj).
Proof.
  induction j as [|j IH]; intros n m nj I J AL H UN.
  - cbn [nruns] in H. assert (nj = n) by exact (eq_sym (f_equal (fun r : res net => match r with Ok x => x | Err _ => n end) H)). subst nj.
    exists 0%nat, m. split; [reflexivity|]. split; [exact AL|]. split; [exact J|]. split; [auto|]. discriminate.
  - destruct (nruns_last _ _ _ H) as (n1 & R1 & S1).
    destruct (IH n m n1 I J AL R1) as (i & m1 & RM & A1 & J1 & T1 & _); [intros i ni L; apply UN; lia|].
    destruct (nruns_later _ _ _ I R1) as [I1 _].
    destruct (step_follows _ _ _ I1 J1 A1 (UN j n1 (Nat.lt_succ_diag_r j) R1) S1) as (i2 & m2 & R2 & A2 & J2 & T2).
    destruct (ninv_step _ _ I1 (sim_nst _ _ I1 S1)) as [_ L1].
    exists (i + i2)%nat, m2. split; [rewrite (nruns_add _ _ _ _ RM); exact R2|]. split; [exact A2|]. split; [exact J2|]. split.
    + intro L. destruct T2 as [->|[-> _]]; [apply eLe_refl|]. cbn [nruns] in R2.
      assert (m2 = m1) by exact (eq_sym (f_equal (fun r : res net => match r with Ok x => x | Err _ => m end) R2)). subst m2. exact (eLe_trans _ _ _ (T1 L) L1).
    + intros p np EP RP NQ. injection EP as <-. rewrite R1 in RP.
      assert (np = n1) by exact (eq_sym (f_equal (fun r : res net => match r with Ok x => x | Err _ => n end) RP)). subst np.
      destruct T2 as [T2|[_ X]]; [exact T2|destruct (NQ X)].
Qed.

Lemma reached_follow a n b m j nj : well_made a -> nreach usual a n -> well_made b -> nreach usual b m -> alike n m -> nruns j n = Ok nj ->
  (forall i ni, (i < j)%nat -> nruns i n = Ok ni -> untied ni) ->
  exists i mi, nruns i m = Ok mi /\ alike nj mi /\ (eLe (nt_t m) (nt_t n) -> eLe (nt_t mi) (nt_t nj)) /\
    (forall p np, j = S p -> nruns p n = Ok np -> nt_queues nj <> nt_queues np -> nt_t mi = nt_t nj).
Proof.
  intros WA RA WB RB AL H UN. destruct (ngood_reach _ _ WA RA) as [I _]. destruct (ngood_reach _ _ WB RB) as [J _].
  destruct (runs_follow _ _ _ _ I J AL H UN) as (i & mi & A & B & _ & C). eauto.
Qed.
