(** * ClockNet: nothing a network does depends on more than the order of times *)
From Coq Require Import List ZArith QArith Lia Bool Arith.
From Verif Require Import Base Heap Queue PQueue Network SpecNet SpecClock QueueEffects NetBare Clock.
Import ListNotations.
Open Scope Z_scope.

(** ** What calls on queues leave alone *)

Lemma departure_cfg q r q' : qs_departure q = Ok (r, q') -> q_cfg q' = q_cfg q.
Proof.
  unfold qs_departure. intro H. apply bind_Ok in H as ([a h] & _ & H). apply bind_Ok in H as (q2 & E2 & H). apply bind_Ok in H as (q3 & E3 & H).
  apply bind_Ok in H as ([a' q4] & E4 & H). apply bind_Ok in H as (q5 & E5 & H). injection H as _ <-.
  apply dlast_if_cfg in E2. change (q_cfg q2 = q_cfg q) in E2. apply action_cfg in E4. apply update_time_cfg in E5. rewrite E5, E4.
  destruct (_ && _) in E3; [apply service_cfg in E3; congruence | injection E3 as <-; exact E2].
Qed.
Lemma arrival_cfg q r q' : qs_arrival q = Ok (r, q') -> q_cfg q' = q_cfg q.
Proof.
  unfold qs_arrival. intro H. apply bind_Ok in H as ([a h] & _ & H). apply bind_Ok in H as (q2 & E2 & H). apply bind_Ok in H as ([a1 q5] & E5 & H).
  assert (C2 : q_cfg q2 = q_cfg q) by (destruct (q_active _) in E2; [apply add_self_cfg in E2; exact E2 | injection E2 as <-; reflexivity]).
  apply action_cfg in E5. assert (C5 : q_cfg q5 = q_cfg q) by (rewrite E5, <- C2; destruct (q_collect _); reflexivity). clear E5.
  destruct (eleb (Fin (q_nsys q5)) (q_servers q5)).
  - apply bind_Ok in H as (q6 & E6 & H). unfold call_srv in H. apply bind_Ok in H as ([a2 q8] & E8 & H). apply bind_Ok in H as (h2 & _ & H).
    apply bind_Ok in H as (q9 & E9 & H). injection H as _ <-. apply update_time_cfg in E9. apply action_cfg in E8. rewrite E9. cbn [set_q_dep q_cfg].
    rewrite E8. cbn [set_q_is q_cfg]. destruct (q_collect q5); [|injection E6 as <-; exact C5].
    apply bind_Ok in E6 as (d & _ & E6). injection E6 as <-. exact C5.
  - apply bind_Ok in H as (q6 & E6 & H). injection H as _ <-. apply update_time_cfg in E6. rewrite E6. exact C5.
Qed.
Lemma qs_cfg q r q' : qs_next_event q = Ok (r, q') -> q_cfg q' = q_cfg q.
Proof.
  unfold qs_next_event. intro H. do 2 (mbind H). destruct (eltb _ _); [eapply departure_cfg; exact H|].
  destruct (eltb _ _); [eapply arrival_cfg; exact H|]. injection H as _ <-. reflexivity.
Qed.
Lemma loss_cfg q r q' : loss_next_event q = Ok (r, q') -> q_cfg q' = q_cfg q.
Proof.
  unfold loss_next_event. intro H. do 2 (mbind H). destruct (eltb _ _); [eapply qs_cfg; exact H|].
  destruct (eltb _ _); [|injection H as _ <-; reflexivity]. destruct (eltb _ _).
  - apply bind_Ok in H as ([o q1] & E1 & H). injection H as _ <-. eapply qs_cfg. exact E1.
  - unfold loss_blocked in H. apply bind_Ok in H as ([a h] & _ & H). apply bind_Ok in H as (z & _ & H). apply bind_Ok in H as (q2 & E2 & H).
    apply bind_Ok in H as (q4 & E4 & H). injection H as _ <-. apply update_time_cfg in E4. rewrite E4.
    assert (C2 : q_cfg q2 = q_cfg q) by (destruct (q_active _) in E2; [apply add_self_cfg in E2; exact E2 | injection E2 as <-; reflexivity]).
    rewrite <- C2. destruct (q_collect q2); reflexivity.
Qed.
Lemma rq_cfg q r q' : rq_next_event q = Ok (r, q') -> q_cfg q' = q_cfg q.
Proof.
  unfold rq_next_event. destruct (q_arr q) as [|[|a] h]; [discriminate|apply loss_cfg|]. destruct (ag_kind a); try apply loss_cfg.
  intro H. mbind H. destruct (eltb _ _); [eapply loss_cfg; exact H|]. destruct (eltb _ _); [|injection H as _ <-; reflexivity].
  destruct (ag_has a).
  - unfold rq_return in H. apply bind_Ok in H as ([a1 h1] & _ & H). apply bind_Ok in H as (q4 & E4 & H). injection H as _ <-. apply update_time_cfg in E4. rewrite E4.
    match goal with |- context [rq_set_num_servers ?z ?q1] => assert (C := rq_servers_cfg z q1) end. match type of C with q_cfg ?z = _ => transitivity (q_cfg z); [|exact C] end.
    destruct (q_collect _); reflexivity.
  - destruct (eltb _ _); [apply bind_Ok in H as ([o q1] & E1 & H); injection H as _ <-; eapply loss_cfg; exact E1|].
    unfold rq_blocked in H. apply bind_Ok in H as ([a1 h1] & _ & H). apply bind_Ok in H as (q4 & E4 & H). injection H as _ <-. apply update_time_cfg in E4. rewrite E4.
    destruct (q_collect _); reflexivity.
Qed.
Lemma extract_cfg q i q' : extract_information q i = Ok q' -> q_cfg q' = q_cfg q.
Proof.
  unfold extract_information. destruct i as [|a]; [intro H; injection H as <-; reflexivity|].
  destruct (ag_kind a); intro H; try (injection H as <-; reflexivity). mbind H. injection H as <-. reflexivity.
Qed.
Lemma next_cfg q r q' : next_event q = Ok (r, q') -> q_cfg q' = q_cfg q.
Proof.
  unfold next_event. destruct (c_class (q_cfg q)); [apply qs_cfg|apply loss_cfg|intro H; injection H as _ <-; reflexivity|apply rq_cfg|].
  unfold info_next_event. destruct (q_arr q) as [|i h]; [discriminate|]. intro H. mbind H. apply bind_Ok in H as (q1 & E1 & H). apply loss_cfg in H. rewrite H.
  destruct (eltb _ _); [eapply extract_cfg; exact E1 | injection E1 as <-; reflexivity].
Qed.
Lemma add_cfg a q q' : add_arrival a q = Ok q' -> q_cfg q' = q_cfg q.
Proof.
  unfold add_arrival. destruct (c_class (q_cfg q)); intro H.
  3:{ injection H as <-. destruct (q_collect q); reflexivity. }
  all: mbind H; apply update_time_if_cfg in H; rewrite H; reflexivity.
Qed.
Lemma delay_cfg t q q' : delay_service t q = Ok q' -> q_cfg q' = q_cfg q.
Proof.
  unfold delay_service. destruct (c_class (q_cfg q)).
  3:{ intro H. injection H as <-. reflexivity. }
  all: destruct (1 <? length (q_dep q))%nat; [|intro H; injection H as <-; reflexivity];
    destruct (heappop itime (q_dep q)) as [[[|a] h]|]; try discriminate;
    destruct t as [t|]; unfold call_srv; intro H; mbind H; apply update_time_cfg in H; rewrite H; reflexivity.
Qed.
Lemma active_cfg q q' : set_active q = Ok q' -> q_cfg q' = q_cfg q.
Proof.
  unfold set_active. destruct (q_active q); [intro H; injection H as <-; reflexivity|]. intro H. apply add_self_cfg in H. exact H.
Qed.
Lemma clear_cfg q : q_cfg (clear q) = q_cfg q.
Proof. unfold clear. destruct (c_class (q_cfg q)); reflexivity. Qed.
Lemma mark_cfg q q' : mark_blocked q = Ok q' -> q_cfg q' = q_cfg q.
Proof. unfold mark_blocked. intro H. mbind H. injection H as <-. reflexivity. Qed.
Lemma stop_cfg q n : q_cfg (stop_if_full q n) = q_cfg q.
Proof. unfold stop_if_full. destruct (_ && _); reflexivity. Qed.

Lemma of_option_map {X Y} e (g : X -> Y) o : of_option e (option_map g o) = rmap g (of_option e o).
Proof. destruct o; reflexivity. Qed.
Lemma Forall_upd {X} (P : X -> Prop) l k x : Forall P l -> P x -> Forall P (upd l k x).
Proof.
  intros F Px. revert k. induction F as [|y l Py F IH]; intros [|k]; cbn; constructor; auto.
Qed.
Lemma Forall_get {X} (P : X -> Prop) l k x : Forall P l -> get l k = Some x -> P x.
Proof. intros F G. unfold get in G. apply nth_error_In in G. rewrite Forall_forall in F. apply F. exact G. Qed.

Section ClockNet.
Context (w : ext -> ext) (W : clock w) (A B : nat -> nat -> ext -> ext) (E : nat -> Z).
Notation by_q := (queue_by w A B).
Notation by_n := (net_by w A B E).
Notation by_h := (heap_by w).
Notation by_k := (key_by w).
Notation fit := (fits w A B).
Notation nf := (net_fits w A B E).

(** ** The scheduler *)

Lemma klt_key x y : klt fst (by_k x) (by_k y) = klt fst x y.
Proof. unfold klt. cbn [key_by fst]. apply w_lt. exact W. Qed.
Lemma wset l n x : set (map w l) n (w x) = option_map (map w) (set l n x).
Proof. apply set_map. Qed.
Lemma assign_by keys : forall qt, assign_all (map w qt) (map by_k keys) = rmap (map w) (assign_all qt keys).
Proof.
  induction keys as [|[t k] keys IH]; intro qt; [reflexivity|]. cbn [map key_by fst snd assign_all]. rewrite wset, of_option_map, bind_rmap, rmap_bind.
  apply bind_ext. intros qt' _. apply IH.
Qed.
Lemma repeat_inf n : map w (repeat Inf n) = repeat Inf n.
Proof. induction n as [|n IH]; cbn; [reflexivity|]. rewrite IH, (w_inf w W). reflexivity. Qed.
Lemma pq_new_by j keys n : pq_new (by_k j) (map by_k keys) n = rmap by_h (pq_new j keys n).
Proof.
  unfold pq_new, heapify. rewrite map_length, (heapify_loop_by fst by_k klt_key), of_option_map, bind_rmap, rmap_bind. apply bind_ext. intros st _.
  rewrite <- (repeat_inf n) at 1. rewrite assign_by, bind_rmap, rmap_bind. apply bind_ext. intros qt _. reflexivity.
Qed.
Lemma kget l n : get (map by_k l) n = option_map by_k (get l n).
Proof. apply get_map. Qed.
Lemma wget l n : get (map w l) n = option_map w (get l n).
Proof. apply get_map. Qed.
Lemma kset l n x : set (map by_k l) n (by_k x) = option_map (map by_k) (set l n x).
Proof. apply set_map. Qed.
Definition popped_by (x : (ext * nat) * pq) : (ext * nat) * pq := (by_k (fst x), by_h (snd x)).
Definition found_by (x : option (ext * nat) * pq) : option (ext * nat) * pq := (option_map by_k (fst x), by_h (snd x)).
Lemma pq_heappop_by h : pq_heappop (by_h h) = rmap popped_by (pq_heappop h).
Proof.
  unfold pq_heappop. cbn [heap_by pq_size pq_store pq_actual pq_qtimes pq_junk]. destruct (pq_size h) as [|m]; [reflexivity|].
  rewrite kget, of_option_map, bind_rmap, rmap_bind. apply bind_ext. intros l _. rewrite rmap_if. destruct (0 <? m)%nat; [|reflexivity].
  rewrite kget, of_option_map, bind_rmap, rmap_bind. apply bind_ext. intros r _. rewrite kset, of_option_map, bind_rmap, rmap_bind. apply bind_ext. intros s1 _.
  rewrite (siftup_by fst by_k klt_key), of_option_map, bind_rmap, rmap_bind. apply bind_ext. intros s2 _. reflexivity.
Qed.
Lemma pop_loop_by fuel : forall x h, pq_pop_loop fuel (by_k x) (by_h h) = rmap found_by (pq_pop_loop fuel x h).
Proof.
  induction fuel as [|f IH]; intros x h; cbn [pq_pop_loop]; [reflexivity|]. cbn [heap_by pq_qtimes key_by snd fst].
  rewrite wget, of_option_map, bind_rmap, rmap_bind. apply bind_ext. intros qt _. rewrite (w_eq w W), rmap_if. destruct (eeqb (fst x) qt); [reflexivity|].
  change (pq_size (by_h h)) with (pq_size h). rewrite rmap_if. destruct (pq_size h =? 0)%nat; [reflexivity|]. change (mkPq (map by_k (pq_store h)) (pq_size h) (pq_actual h) (map w (pq_qtimes h)) (by_k (pq_junk h))) with (by_h h).
  rewrite pq_heappop_by, bind_rmap, rmap_bind. apply bind_ext. intros [x' h'] _. apply IH.
Qed.
Lemma pq_pop_by h : pq_pop (by_h h) = rmap found_by (pq_pop h).
Proof. unfold pq_pop. rewrite pq_heappop_by, bind_rmap, rmap_bind. apply bind_ext. intros [x h'] _. apply pop_loop_by. Qed.
Lemma repeat_map {X Y} (g : X -> Y) x n : repeat (g x) n = map g (repeat x n).
Proof. induction n as [|n IH]; cbn; [reflexivity|]. rewrite IH. reflexivity. Qed.
Lemma pq_push_by h t k : pq_push (by_h h) (w t) k = rmap by_h (pq_push h t k).
Proof.
  unfold pq_push. cbn [heap_by pq_size pq_store pq_actual pq_qtimes pq_junk]. rewrite wset, of_option_map, bind_rmap, rmap_bind. apply bind_ext. intros qt _. cbv zeta.
  set (g := negb (pq_size h <? pq_actual h)%nat). rewrite repeat_map, <- map_app, firstn_map.
  set (s0 := firstn (2 * pq_size h) (pq_store h ++ repeat (pq_junk h) (2 * pq_size h))).
  replace (if g then map by_k s0 else map by_k (pq_store h)) with (map by_k (if g then s0 else pq_store h)) by (destruct g; reflexivity).
  change (w t, k) with (by_k (t, k)). rewrite kset, of_option_map, bind_rmap, rmap_bind. apply bind_ext. intros s1 _.
  rewrite (siftdown_by fst by_k klt_key), of_option_map, bind_rmap, rmap_bind. apply bind_ext. intros s2 _. reflexivity.
Qed.

(** ** Queues of a network *)

Lemma at_by k n : queue_at k (by_n n) = rmap by_q (queue_at k n).
Proof. unfold queue_at. cbn [net_by nt_queues]. rewrite get_map, of_option_map. reflexivity. Qed.
Lemma put_by k q n : put_queue k (by_q q) (by_n n) = by_n (put_queue k q n).
Proof. unfold put_queue. cbn [net_by nt_queues]. rewrite upd_map. reflexivity. Qed.
Lemma at_fits k n q : nf n -> queue_at k n = Ok q -> fit (q_cfg q).
Proof.
  intros [F _] H. unfold queue_at in H. destruct (get (nt_queues n) k) as [x|] eqn:G; [|discriminate]. injection H as <-.
  apply (Forall_get _ _ _ _ F G).
Qed.
Lemma put_fits k q n : nf n -> fit (q_cfg q) -> nf (put_queue k q n).
Proof. intros [F G] H. split; [|exact G]. apply Forall_upd; assumption. Qed.
Lemma put_same k q q' n : nf n -> fit (q_cfg q) -> q_cfg q' = q_cfg q -> nf (put_queue k q' n).
Proof. intros F H C. apply put_fits; [exact F|]. rewrite C. exact H. Qed.
Lemma count_by k z n : set_count k z (by_n n) = rmap by_n (set_count k z n).
Proof. unfold set_count. cbn [net_by nt_nagents]. destruct (set (nt_nagents n) k z); reflexivity. Qed.
Lemma count_fits k z n n' : nf n -> set_count k z n = Ok n' -> nf n'.
Proof. unfold set_count. intros F H. mbind H. injection H as <-. exact F. Qed.
Lemma net_push_by t k n : net_push (w t, k) (by_n n) = rmap by_n (net_push (t, k) n).
Proof. unfold net_push. cbn [net_by nt_heap fst snd]. rewrite pq_push_by. destruct (pq_push (nt_heap n) t k); reflexivity. Qed.
Lemma push_fits k n n' : nf n -> net_push k n = Ok n' -> nf n'.
Proof. unfold net_push. intros F H. mbind H. injection H as <-. exact F. Qed.
Lemma queued_by l n : numbers_queued l (by_n n) = numbers_queued l n.
Proof.
  induction l as [|e l IH]; [reflexivity|]. cbn [numbers_queued]. rewrite at_by, bind_rmap, IH. apply bind_ext. intros q _. apply bind_ext. intros zs _.
  unfold number_queued. cbn [queue_by q_line q_cfg cfg_by c_class]. rewrite map_length. reflexivity.
Qed.
Definition dest_by (x : nat * net) : nat * net := (fst x, by_n (snd x)).
Lemma desired_by a v n : desired_destination (by_clock w a) v (by_n n) = rmap dest_by (desired_destination a v n).
Proof.
  unfold desired_destination. change (nt_out (by_n n)) with (nt_out n). rewrite rmap_bind. apply bind_ext. intros l _.
  assert (G : (if (length l <=? 1)%nat then let* e := of_option IndexError (get l 0) in Ok (e, by_n n)
    else let u := nt_u (by_n n) (nt_iu (by_n n)) in let n1 := set_nt_iu (Datatypes.S (nt_iu (by_n n))) (by_n n) in
      let* pr := of_option IndexError (get (nt_probs (by_n n)) v) in let* k := choice pr u (length l) in let* e := of_option IndexError (get l k) in Ok (e, n1)) =
    rmap dest_by (if (length l <=? 1)%nat then let* e := of_option IndexError (get l 0) in Ok (e, n)
    else let u := nt_u n (nt_iu n) in let n1 := set_nt_iu (Datatypes.S (nt_iu n)) n in
      let* pr := of_option IndexError (get (nt_probs n) v) in let* k := choice pr u (length l) in let* e := of_option IndexError (get l k) in Ok (e, n1))).
  { rewrite rmap_if. destruct (length l <=? 1)%nat; [destruct (get l 0); reflexivity|]. cbv zeta. change (nt_probs (by_n n)) with (nt_probs n).
    change (nt_u (by_n n) (nt_iu (by_n n))) with (nt_u n (nt_iu n)). rewrite rmap_bind. apply bind_ext. intros pr _. rewrite rmap_bind. apply bind_ext. intros k _.
    rewrite rmap_bind. apply bind_ext. intros e _. reflexivity. }
  change (ag_kind (by_clock w a)) with (ag_kind a). destruct (ag_kind a); try exact G.
  rewrite queued_by, rmap_bind. apply bind_ext. intros zs _. rewrite rmap_bind. apply bind_ext. intros d _. rewrite rmap_bind. apply bind_ext. intros e _. reflexivity.
Qed.
Lemma desired_fits a v n e n' : nf n -> desired_destination a v n = Ok (e, n') -> nf n'.
Proof.
  unfold desired_destination. intros F H. mbind H.
  assert (G : (if (length x <=? 1)%nat then let* e := of_option IndexError (get x 0) in Ok (e, n)
    else let u := nt_u n (nt_iu n) in let n1 := set_nt_iu (Datatypes.S (nt_iu n)) n in
      let* pr := of_option IndexError (get (nt_probs n) v) in let* k := choice pr u (length x) in let* e := of_option IndexError (get x k) in Ok (e, n1)) = Ok (e, n') -> nf n').
  { clear H. intro H. destruct (length x <=? 1)%nat; [mbind H; injection H as _ <-; exact F|]. cbv zeta in H. do 3 (mbind H). injection H as _ <-. exact F. }
  destruct (ag_kind a); try (exact (G H)). do 3 (mbind H). injection H as _ <-. exact F.
Qed.
Lemma full_by n : full (by_n n) = full n.
Proof. reflexivity. Qed.
Lemma stop_by q n : stop_if_full (by_q q) (by_n n) = by_q (stop_if_full q n).
Proof. unfold stop_if_full. rewrite full_by. change (q_active (by_q q)) with (q_active q). destruct (q_active q && full n); reflexivity. Qed.
Lemma first_by q : first_departure (by_q q) = rmap (by_clock w) (first_departure q).
Proof. unfold first_departure. cbn [queue_by q_dep]. destruct (q_dep q) as [|[|a] h]; reflexivity. Qed.
Lemma mark_by q : mark_blocked (by_q q) = rmap by_q (mark_blocked q).
Proof.
  unfold mark_blocked. rewrite first_by, bind_rmap, rmap_bind. apply bind_ext. intros a _. cbn [rmap]. f_equal.
  change (q_dep (by_q q)) with (map (item_by w) (q_dep q)). unfold queue_by. cbn. f_equal. f_equal. destruct (q_dep q); reflexivity.
Qed.

(** ** Events *)

Lemma block_by k e2 n : nf n -> block_agent k e2 (by_n n) = rmap by_n (block_agent k e2 n).
Proof.
  intro F. unfold block_agent. rewrite at_by, bind_rmap, rmap_bind. apply bind_ext. intros q2 E2. cbv zeta.
  set (n1 := put_queue e2 (set_q_blocked (q_blocked q2 + 1) q2) n).
  assert (F1 : nf n1) by (apply put_fits; [exact F | exact (at_fits _ _ _ F E2)]).
  change (set_q_blocked (q_blocked (by_q q2) + 1) (by_q q2)) with (by_q (set_q_blocked (q_blocked q2 + 1) q2)). rewrite put_by. fold n1.
  rewrite at_by, bind_rmap, rmap_bind. apply bind_ext. intros q1 E1. rewrite mark_by, bind_rmap, rmap_bind. apply bind_ext. intros q1' M.
  rewrite put_by. set (n2 := put_queue k q1' n1). apply mark_cfg in M. assert (F2 : nf n2) by (eapply put_same; [exact F1 | exact (at_fits _ _ _ F1 E1) | exact M]).
  change (nt_bas (by_n n2)) with (nt_bas n2). rewrite rmap_if. destruct (nt_bas n2) eqn:BAS.
  - assert (P := proj2 F2 BAS). rewrite at_by, bind_rmap, rmap_bind. apply bind_ext. intros q3 _. change (q_dep (by_q q3)) with (map (item_by w) (q_dep q3)).
    rewrite (root_by w W), bind_rmap, rmap_bind. apply bind_ext. intros td _. change (nt_eps (by_n n2) (nt_ie (by_n n2))) with (E (nt_ie n2)).
    rewrite <- P. change (set_nt_ie (Datatypes.S (nt_ie (by_n n2))) (by_n n2)) with (by_n (set_nt_ie (Datatypes.S (nt_ie n2)) n2)).
    set (n3 := set_nt_ie (Datatypes.S (nt_ie n2)) n2). assert (F3 : nf n3) by exact F2. rewrite at_by, bind_rmap, rmap_bind. apply bind_ext. intros q4 E4.
    set (t := eadd td (Fin (nt_eps n2 (nt_ie n2)))). assert (D := delay_by w W A B (Some t) q4 (at_fits _ _ _ F3 E4)). cbn [option_map] in D. rewrite D, bind_rmap, rmap_bind. apply bind_ext. intros q5 _. cbn [rmap].
    rewrite put_by. reflexivity.
  - rewrite at_by, bind_rmap, rmap_bind. apply bind_ext. intros q4 E4. assert (D := delay_by w W A B None q4 (at_fits _ _ _ F2 E4)). cbn [option_map] in D. rewrite D, bind_rmap, rmap_bind.
    apply bind_ext. intros q5 _. cbn [rmap]. rewrite put_by. reflexivity.
Qed.
Lemma block_fits k e2 n n' : nf n -> block_agent k e2 n = Ok n' -> nf n'.
Proof.
  intro F. unfold block_agent. intro H. apply bind_Ok in H as (q2 & E2 & H). cbv zeta in H.
  set (n1 := put_queue e2 (set_q_blocked (q_blocked q2 + 1) q2) n) in H.
  assert (F1 : nf n1) by (apply put_fits; [exact F | exact (at_fits _ _ _ F E2)]).
  apply bind_Ok in H as (q1 & E1 & H). apply bind_Ok in H as (q1' & M & H). apply mark_cfg in M.
  set (n2 := put_queue k q1' n1) in H. assert (F2 : nf n2) by (eapply put_same; [exact F1 | exact (at_fits _ _ _ F1 E1) | exact M]).
  destruct (nt_bas n2).
  - apply bind_Ok in H as (q3 & _ & H). apply bind_Ok in H as (td & _ & H). set (n3 := set_nt_ie (Datatypes.S (nt_ie n2)) n2) in H. assert (F3 : nf n3) by exact F2.
    apply bind_Ok in H as (q4 & E4 & H). apply bind_Ok in H as (q5 & D & H). injection H as <-. apply delay_cfg in D.
    eapply put_same; [exact F3 | exact (at_fits _ _ _ F3 E4) | exact D].
  - apply bind_Ok in H as (q4 & E4 & H). apply bind_Ok in H as (q5 & D & H). injection H as <-. apply delay_cfg in D.
    eapply put_same; [exact F2 | exact (at_fits _ _ _ F2 E4) | exact D].
Qed.
Lemma move_by k e1 e2 t n : nf n -> move_agent k e1 e2 (w t) (by_n n) = rmap by_n (move_agent k e1 e2 t n).
Proof.
  intro F. unfold move_agent. rewrite at_by, bind_rmap, rmap_bind. apply bind_ext. intros q1 E1. assert (Q1 := at_fits _ _ _ F E1).
  rewrite (next_by w W A B q1 Q1), bind_rmap, rmap_bind. apply bind_ext. intros [[a|] q1'] N1; cbn [ev_by fst snd option_map]; [|reflexivity]. apply next_cfg in N1.
  cbv zeta. rewrite put_by. set (n1 := put_queue k q1' n). assert (F1 : nf n1) by (eapply put_same; eassumption).
  rewrite at_by, bind_rmap, rmap_bind. apply bind_ext. intros q2 E2. assert (Q2 := at_fits _ _ _ F1 E2).
  change (set_ag_time (w t) (by_clock w a)) with (by_clock w (set_ag_time t a)). rewrite (add_by w W A B), bind_rmap, rmap_bind. apply bind_ext. intros q2' A2. apply add_cfg in A2.
  rewrite put_by. set (n2 := put_queue e2 q2' n1). assert (F2 : nf n2) by (eapply put_same; eassumption).
  rewrite at_by, bind_rmap, rmap_bind. apply bind_ext. intros q1b _. change (q_total (by_q q1b)) with (q_total q1b). rewrite count_by, bind_rmap, rmap_bind. apply bind_ext. intros n3 E3.
  assert (F3 := count_fits _ _ _ _ F2 E3). change (q_total (by_q q2')) with (q_total q2'). rewrite count_by, bind_rmap, rmap_bind. apply bind_ext. intros n4 E4.
  assert (F4 := count_fits _ _ _ _ F3 E4). rewrite stop_by, put_by. set (n5 := put_queue e2 (stop_if_full q2' n4) n4).
  assert (F5 : nf n5) by (eapply put_same; [exact F4 | exact Q2 | rewrite stop_cfg; exact A2]).
  rewrite at_by, bind_rmap, rmap_bind. apply bind_ext. intros q2b E2b. rewrite (next_by w W A B q2b (at_fits _ _ _ F5 E2b)), bind_rmap, rmap_bind. apply bind_ext. intros [r q2c] _.
  cbn [ev_by fst snd]. rewrite put_by. apply count_by.
Qed.
Lemma move_fits k e1 e2 t n n' : nf n -> move_agent k e1 e2 t n = Ok n' -> nf n'.
Proof.
  intro F. unfold move_agent. intro H. apply bind_Ok in H as (q1 & E1 & H). assert (Q1 := at_fits _ _ _ F E1). apply bind_Ok in H as ([[a|] q1'] & N1 & H); [|discriminate].
  apply next_cfg in N1. cbv zeta in H. set (n1 := put_queue k q1' n) in H. assert (F1 : nf n1) by (eapply put_same; eassumption).
  apply bind_Ok in H as (q2 & E2 & H). assert (Q2 := at_fits _ _ _ F1 E2). apply bind_Ok in H as (q2' & A2 & H). apply add_cfg in A2.
  set (n2 := put_queue e2 q2' n1) in H. assert (F2 : nf n2) by (eapply put_same; eassumption).
  apply bind_Ok in H as (q1b & _ & H). apply bind_Ok in H as (n3 & E3 & H). assert (F3 := count_fits _ _ _ _ F2 E3). apply bind_Ok in H as (n4 & E4 & H). assert (F4 := count_fits _ _ _ _ F3 E4).
  set (n5 := put_queue e2 (stop_if_full q2' n4) n4) in H. assert (F5 : nf n5) by (eapply put_same; [exact F4 | exact Q2 | rewrite stop_cfg; exact A2]).
  apply bind_Ok in H as (q2b & E2b & H). apply bind_Ok in H as ([r q2c] & N2 & H). apply next_cfg in N2. eapply count_fits; [|exact H].
  eapply put_same; [exact F5 | exact (at_fits _ _ _ F5 E2b) | exact N2].
Qed.
Lemma qkey_by q : qkey (by_q q) = (w (fst (qkey q)), snd (qkey q)).
Proof. reflexivity. Qed.
Lemma net_push_q q n : net_push (qkey (by_q q)) (by_n n) = rmap by_n (net_push (qkey q) n).
Proof. rewrite qkey_by, net_push_by. reflexivity. Qed.
Lemma reschedule_by k e2 t n : reschedule k e2 (w t) (by_n n) = rmap by_n (reschedule k e2 t n).
Proof.
  unfold reschedule. rewrite at_by, bind_rmap, rmap_bind. apply bind_ext. intros q1 _. rewrite at_by, bind_rmap, rmap_bind. apply bind_ext. intros q2 _. cbv zeta.
  change (fst (qkey (by_q q2))) with (w (fst (qkey q2))). change (fst (qkey (by_q q1))) with (w (fst (qkey q1))).
  change (snd (qkey (by_q q2))) with (snd (qkey q2)). change (snd (qkey (by_q q1))) with (snd (qkey q1)).
  rewrite !(w_eq w W), (w_lt_inf w W), !net_push_q, rmap_if. destruct (negb (eeqb (fst (qkey q2)) t)).
  - rewrite bind_rmap, rmap_bind. apply bind_ext. intros n1 _. rewrite rmap_if, net_push_q. reflexivity.
  - rewrite rmap_if. reflexivity.
Qed.
Lemma reschedule_fits k e2 t n n' : nf n -> reschedule k e2 t n = Ok n' -> nf n'.
Proof.
  unfold reschedule. intros F H. do 2 (mbind H). cbv zeta in H. destruct (negb _).
  - apply bind_Ok in H as (n1 & P & H). assert (F1 := push_fits _ _ _ F P). destruct (_ && _); [exact (push_fits _ _ _ F1 H) | injection H as <-; exact F1].
  - destruct (eltb _ _); [exact (push_fits _ _ _ F H) | injection H as <-; exact F].
Qed.
Lemma cap_by q : at_capacity (by_q q) = at_capacity q.
Proof. reflexivity. Qed.
Lemma departs_by k t n : nf n -> net_departure k (w t) (by_n n) = rmap by_n (net_departure k t n).
Proof.
  intro F. unfold net_departure. rewrite at_by, bind_rmap, rmap_bind. apply bind_ext. intros q1 _. cbv zeta. rewrite first_by, bind_rmap, rmap_bind. apply bind_ext. intros a _.
  change (c_tgt (q_cfg (by_q q1))) with (c_tgt (q_cfg q1)). change (c_idx (q_cfg (by_q q1))) with (c_idx (q_cfg q1)). rewrite desired_by, bind_rmap, rmap_bind. apply bind_ext. intros [e2 n1] D.
  assert (F1 := desired_fits _ _ _ _ _ F D). cbn [dest_by fst snd]. rewrite at_by, bind_rmap, rmap_bind. apply bind_ext. intros q2 _. rewrite cap_by.
  rewrite (block_by _ _ _ F1), (move_by _ _ _ _ _ F1), <- rmap_if, bind_rmap, rmap_bind. apply bind_ext. intros n2 _. change (q_time (by_q q2)) with (w (q_time q2)). apply reschedule_by.
Qed.
Lemma departs_fits k t n n' : nf n -> net_departure k t n = Ok n' -> nf n'.
Proof.
  intro F. unfold net_departure. intro H. mbind H. cbv zeta in H. mbind H. apply bind_Ok in H as ([e2 n1] & D & H). assert (F1 := desired_fits _ _ _ _ _ F D).
  apply bind_Ok in H as (q2 & _ & H). apply bind_Ok in H as (n2 & M & H). apply (reschedule_fits _ _ _ _ _) with (2 := H).
  destruct (_ && _) in M; [exact (block_fits _ _ _ _ F1 M) | exact (move_fits _ _ _ _ _ _ F1 M)].
Qed.
Lemma arrives_by k n : nf n -> net_arrival k (by_n n) = rmap by_n (net_arrival k n).
Proof.
  intro F. unfold net_arrival. rewrite at_by, bind_rmap, rmap_bind. apply bind_ext. intros q1 E1. cbv zeta. rewrite stop_by.
  assert (Q1 := at_fits _ _ _ F E1). assert (Q2 : fit (q_cfg (stop_if_full q1 n))) by (rewrite stop_cfg; exact Q1).
  rewrite (next_by w W A B _ Q2), bind_rmap, rmap_bind. apply bind_ext. intros [r q2] _. cbn [ev_by fst snd]. rewrite put_by. change (c_idx (q_cfg (by_q q1))) with (c_idx (q_cfg q1)).
  change (q_total (by_q q2)) with (q_total q2). rewrite count_by, bind_rmap, rmap_bind. apply bind_ext. intros n2 _. change (q_time (by_q q2)) with (w (q_time q2)).
  rewrite (w_lt_inf w W), net_push_q, rmap_if. reflexivity.
Qed.
Lemma arrives_fits k n n' : nf n -> net_arrival k n = Ok n' -> nf n'.
Proof.
  intro F. unfold net_arrival. intro H. apply bind_Ok in H as (q1 & E1 & H). cbv zeta in H. apply bind_Ok in H as ([r q2] & N & H). apply next_cfg in N. rewrite stop_cfg in N.
  apply bind_Ok in H as (n2 & C & H). assert (F1 : nf (put_queue k q2 n)) by (eapply put_same; [exact F | exact (at_fits _ _ _ F E1) | exact N]).
  assert (F2 := count_fits _ _ _ _ F1 C). destruct (eltb _ _); [exact (push_fits _ _ _ F2 H) | injection H as <-; exact F2].
Qed.
Lemma description_by q : next_event_description (by_q q) = next_event_description q.
Proof.
  unfold next_event_description. change (c_class (q_cfg (by_q q))) with (c_class (q_cfg q)). change (q_arr (by_q q)) with (map (item_by w) (q_arr q)).
  change (q_dep (by_q q)) with (map (item_by w) (q_dep q)). rewrite !(root_by w W).
  destruct (c_class (q_cfg q)); try reflexivity; rewrite bind_rmap; apply bind_ext; intros ta _; rewrite bind_rmap; apply bind_ext; intros td _; rewrite (w_lt w W), (w_lt_inf w W); reflexivity.
Qed.
Lemma event_by n : nf n -> simulate_event (by_n n) = rmap by_n (simulate_event n).
Proof.
  intro F. unfold simulate_event. change (pq_size (nt_heap (by_n n))) with (pq_size (nt_heap n)). rewrite rmap_if.
  destruct (pq_size (nt_heap n) =? 0)%nat.
  { cbn [rmap]. unfold net_by at 2. cbn [set_nt_t nt_queues nt_out nt_probs nt_nagents nt_t nt_events nt_max nt_init nt_heap nt_bas nt_u nt_iu nt_eps nt_ie]. rewrite (w_inf w W). reflexivity. }
  change (nt_heap (by_n n)) with (by_h (nt_heap n)). rewrite pq_pop_by, bind_rmap, rmap_bind. apply bind_ext. intros [[[t k]|] h] _; cbn [found_by fst snd option_map key_by]; [|reflexivity].
  cbv zeta. change (set_nt_heap (by_h h) (by_n n)) with (by_n (set_nt_heap h n)). set (n1 := set_nt_heap h n). rewrite at_by, bind_rmap, rmap_bind. apply bind_ext. intros q1 _.
  rewrite description_by, rmap_bind. apply bind_ext. intros d _. change (set_nt_events (nt_events (by_n n1) + 1) (set_nt_t (w t) (by_n n1))) with (by_n (set_nt_events (nt_events n1 + 1) (set_nt_t t n1))).
  set (n2 := set_nt_events (nt_events n1 + 1) (set_nt_t t n1)). assert (F2 : nf n2) by exact F. rewrite !rmap_if, (departs_by _ _ _ F2), (arrives_by _ _ F2). reflexivity.
Qed.
Lemma event_fits n n' : nf n -> simulate_event n = Ok n' -> nf n'.
Proof.
  intro F. unfold simulate_event. destruct (pq_size (nt_heap n) =? 0)%nat; [intro H; injection H as <-; exact F|]. intro H. apply bind_Ok in H as ([[[t k]|] h] & _ & H); [|discriminate].
  cbv zeta in H. do 2 (mbind H). destruct (_ =? 2); [eapply departs_fits; [|exact H]; exact F|]. destruct (_ =? 1); [eapply arrives_fits; [|exact H]; exact F|]. injection H as <-. exact F.
Qed.

(** ** Calls *)

Lemma finite_by qs : finite_keys (map by_q qs) = map by_k (finite_keys qs).
Proof.
  unfold finite_keys. induction qs as [|q qs IH]; [reflexivity|]. cbn [map filter]. change (q_time (by_q q)) with (w (q_time q)). rewrite (w_lt_inf w W).
  destruct (eltb (q_time q) Inf); cbn [map]; rewrite IH; reflexivity.
Qed.
Lemma not_null_by l n : not_null l (by_n n) = not_null l n.
Proof.
  induction l as [|e l IH]; [reflexivity|]. cbn [not_null]. rewrite at_by, bind_rmap, IH. apply bind_ext. intros q _. reflexivity.
Qed.
Lemma activate_by l : forall n, nf n -> activate l (by_n n) = rmap by_n (activate l n) /\ (forall n', activate l n = Ok n' -> nf n').
Proof.
  induction l as [|e l IH]; intros n F; cbn [activate]; [split; [reflexivity|]; intros n' H; injection H as <-; exact F|]. split.
  - rewrite at_by, bind_rmap, rmap_bind. apply bind_ext. intros q Eq. assert (Q := at_fits _ _ _ F Eq). rewrite (active_by w W A B q Q), bind_rmap, rmap_bind. apply bind_ext. intros q' Ea. apply active_cfg in Ea.
    rewrite put_by. change (q_total (by_q q')) with (q_total q'). rewrite count_by, bind_rmap, rmap_bind. apply bind_ext. intros n1 C.
    apply IH. eapply count_fits; [|exact C]. eapply put_same; eassumption.
  - intros n' H. apply bind_Ok in H as (q & Eq & H). apply bind_Ok in H as (q' & Ea & H). apply bind_Ok in H as (n1 & C & H). apply active_cfg in Ea.
    assert (F1 : nf n1) by (eapply count_fits; [|exact C]; eapply put_same; [exact F | exact (at_fits _ _ _ F Eq) | exact Ea]). exact (proj2 (IH n1 F1) n' H).
Qed.
Lemma init_by sel n : nf n -> initialize_queues sel (by_n n) = rmap by_n (initialize_queues sel n).
Proof.
  intro F. unfold initialize_queues. rewrite not_null_by, rmap_bind. apply bind_ext. intros qs _. rewrite rmap_if. destruct (length qs =? 0)%nat; [reflexivity|].
  change (nt_max (by_n n)) with (nt_max n). rewrite (proj1 (activate_by _ n F)), bind_rmap, rmap_bind. apply bind_ext. intros n1 _.
  change (nt_queues (by_n n1)) with (map by_q (nt_queues n1)). rewrite map_length, finite_by. change (pq_junk (nt_heap (by_n n))) with (by_k (pq_junk (nt_heap n))).
  rewrite pq_new_by, bind_rmap, rmap_bind. apply bind_ext. intros h _. reflexivity.
Qed.
Lemma init_fits sel n n' : nf n -> initialize_queues sel n = Ok n' -> nf n'.
Proof.
  intro F. unfold initialize_queues. intro H. mbind H. destruct (length x =? 0)%nat; [discriminate|]. apply bind_Ok in H as (n1 & Ea & H). mbind H. injection H as <-.
  exact (proj2 (activate_by _ n F) n1 Ea).
Qed.
Lemma on_queues_by f : (forall q, f (by_q q) = by_q (f q)) -> (forall q, q_cfg (f q) = q_cfg q) ->
  forall l n, nf n -> on_queues f l (by_n n) = rmap by_n (on_queues f l n) /\ (forall n', on_queues f l n = Ok n' -> nf n').
Proof.
  intros Hf Hc. induction l as [|e l IH]; intros n F; cbn [on_queues]; [split; [reflexivity|]; intros n' H; injection H as <-; exact F|]. split.
  - rewrite at_by, bind_rmap, rmap_bind. apply bind_ext. intros q Eq. rewrite Hf, put_by. apply IH. eapply put_same; [exact F | exact (at_fits _ _ _ F Eq) | apply Hc].
  - intros n' H. apply bind_Ok in H as (q & Eq & H). assert (F1 : nf (put_queue e (f q) n)) by (eapply put_same; [exact F | exact (at_fits _ _ _ F Eq) | apply Hc]). exact (proj2 (IH _ F1) n' H).
Qed.
Lemma call_by c n : nf n -> run_call c (by_n n) = rmap by_n (run_call c n).
Proof.
  intro F. destruct c as [sel| | |o]; cbn [run_call]; [apply init_by; exact F| | |].
  - cbn [rmap]. f_equal. unfold net_clear, net_by. cbn [nt_queues nt_out nt_probs nt_nagents nt_t nt_events nt_max nt_init nt_heap nt_bas nt_u nt_iu nt_eps nt_ie].
    rewrite (w_0 w W), map_length. f_equal. rewrite !map_map. destruct F as [F _]. induction F as [|q l Q F IH]; [reflexivity|]. cbn [map]. rewrite IH, (clear_by w W A B q (proj1 Q)). reflexivity.
  - unfold net_copy. change (nt_init (by_n n)) with (nt_init n). rewrite rmap_if. destruct (nt_init n); [|reflexivity].
    change (nt_queues (by_n n)) with (map by_q (nt_queues n)). rewrite map_length, finite_by. change (pq_junk (nt_heap (by_n n))) with (by_k (pq_junk (nt_heap n))).
    rewrite pq_new_by, bind_rmap, rmap_bind. apply bind_ext. intros h _. reflexivity.
  - destruct o as [|b l|l|p|m|b]; cbn [run_nop]; try reflexivity.
    + apply event_by. exact F.
    + apply on_queues_by; [reflexivity|reflexivity|exact F].
    + apply on_queues_by; [reflexivity|reflexivity|exact F].
Qed.
Lemma call_fits c n n' : nf n -> (c = KOp (NBlocking true) -> pauses w (nt_eps n) E) -> run_call c n = Ok n' -> nf n'.
Proof.
  intros F P H. destruct c as [sel| | |o]; cbn [run_call] in H; [eapply init_fits; eassumption| | |].
  - injection H as <-. destruct F as [F G]. split; [|exact G]. cbn [net_clear nt_queues]. apply Forall_map. eapply Forall_impl; [|exact F]. intros q Q. cbn beta in *. rewrite clear_cfg. exact Q.
  - unfold net_copy in H. destruct (nt_init n); [mbind H|]; injection H as <-; exact F.
  - destruct o as [|b l|l|p|m|b]; cbn [run_nop] in H; try (injection H as <-; exact F).
    + eapply event_fits; eassumption.
    + eapply (on_queues_by (set_q_collect b)); [reflexivity|reflexivity|exact F|exact H].
    + eapply (on_queues_by (set_q_data [])); [reflexivity|reflexivity|exact F|exact H].
    + injection H as <-. destruct F as [F G]. split; [exact F|]. cbn [set_nt_bas nt_bas nt_eps]. intro X. subst b. apply P. reflexivity.
Qed.
End ClockNet.

(** ** Histories *)

Lemma repeat_cfg k : forall q q', repeat_service k q = Ok q' -> q_cfg q' = q_cfg q.
Proof.
  induction k as [|k IH]; intros q q' H; cbn [repeat_service] in H; [injection H as <-; reflexivity|]. apply bind_Ok in H as (q1 & E & H).
  apply service_cfg in E. apply IH in H. congruence.
Qed.
Lemma servers_cfg z q q' : set_num_servers z q = Ok q' -> q_cfg q' = q_cfg q.
Proof.
  assert (G : qs_set_num_servers z q = Ok q' -> q_cfg q' = q_cfg q).
  { unfold qs_set_num_servers. cbv zeta.
    assert (GO : forall m k, (let* q1 := repeat_service (Z.to_nat k) q in let* q2 := if 0 <? k then update_time q1 else Ok q1 in Ok (set_q_servers m q2)) = Ok q' -> q_cfg q' = q_cfg q).
    { intros m k H. apply bind_Ok in H as (q1 & E1 & H). apply bind_Ok in H as (q2 & E2 & H). injection H as <-. apply repeat_cfg in E1. cbn [set_q_servers q_cfg]. rewrite <- E1.
      destruct (0 <? k); [apply update_time_cfg; exact E2 | injection E2 as <-; reflexivity]. }
    destruct z as [z| |]; [|destruct (q_servers q); [apply GO|discriminate]|discriminate].
    destruct (z <=? 0); [discriminate|]. destruct (q_servers q); apply GO. }
  unfold set_num_servers. destruct (c_class (q_cfg q)); try exact G; [intro H; injection H as <-; reflexivity|].
  destruct z; intro H; try discriminate; injection H as <-; apply rq_servers_cfg.
Qed.
Lemma op_cfg o q q' : run_op o q = Ok q' -> q_cfg q' = q_cfg q.
Proof.
  destruct o as [| | |z|t|a|b| |]; cbn [run_op]; try (intro H; injection H as <-; reflexivity).
  - intro H. apply bind_Ok in H as ([r q1] & E & H). injection H as <-. eapply next_cfg. exact E.
  - apply active_cfg.
  - apply servers_cfg.
  - apply delay_cfg.
  - apply add_cfg.
  - intro H. injection H as <-. apply clear_cfg.
Qed.
Lemma ops_by w A B : clock w -> forall ops q, fits w A B (q_cfg q) -> run_ops (map (op_by w) ops) (queue_by w A B q) = rmap (queue_by w A B) (run_ops ops q).
Proof.
  intros W. induction ops as [|o ops IH]; intros q F; cbn [map run_ops]; [reflexivity|]. rewrite (op_by_run w W A B o q F), bind_rmap, rmap_bind. apply bind_ext. intros q1 E.
  apply IH. rewrite (op_cfg _ _ _ E). exact F.
Qed.
