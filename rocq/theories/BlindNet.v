(** * BlindNet: nothing a network does depends on the collected data *)
From Coq Require Import List ZArith QArith Lia Bool Arith.
From Verif Require Import Base Heap Queue PQueue Network SpecNet QueueEffects NetBare Clock ClockNet SpecBlind Blind.
Import ListNotations.
Open Scope Z_scope.

Definition nl (n : net) : Prop := Forall listed (nt_queues n).

Lemma at_b k n : queue_at k (blind_net n) = rmap blind (queue_at k n).
Proof. unfold queue_at. cbn [blind_net set_nt_queues nt_queues]. rewrite get_map, of_option_map. reflexivity. Qed.
Lemma put_b k q n : put_queue k (blind q) (blind_net n) = blind_net (put_queue k q n).
Proof. unfold put_queue, blind_net. cbn [set_nt_queues nt_queues]. rewrite upd_map. reflexivity. Qed.
Lemma at_l k n q : nl n -> queue_at k n = Ok q -> listed q.
Proof. intros F H. unfold queue_at in H. destruct (get (nt_queues n) k) as [x|] eqn:G; [|discriminate]. injection H as <-. apply (Forall_get _ _ _ _ F G). Qed.
Lemma put_l k q n : nl n -> listed q -> nl (put_queue k q n).
Proof. intros F H. apply Forall_upd; assumption. Qed.
Lemma count_b k z n : set_count k z (blind_net n) = rmap blind_net (set_count k z n).
Proof. unfold set_count. change (nt_nagents (blind_net n)) with (nt_nagents n). destruct (set (nt_nagents n) k z); reflexivity. Qed.
Lemma count_l k z n n' : nl n -> set_count k z n = Ok n' -> nl n'.
Proof. unfold set_count. intros F H. mbind H. injection H as <-. exact F. Qed.
Lemma push_b k n : net_push k (blind_net n) = rmap blind_net (net_push k n).
Proof. unfold net_push. change (nt_heap (blind_net n)) with (nt_heap n). destruct (pq_push (nt_heap n) (fst k) (snd k)); reflexivity. Qed.
Lemma push_l k n n' : nl n -> net_push k n = Ok n' -> nl n'.
Proof. unfold net_push. intros F H. mbind H. injection H as <-. exact F. Qed.
Lemma queued_b l n : numbers_queued l (blind_net n) = numbers_queued l n.
Proof. induction l as [|e l IH]; [reflexivity|]. cbn [numbers_queued]. rewrite at_b, bind_rmap, IH. apply bind_ext. intros q _. apply bind_ext. intros zs _. reflexivity. Qed.
Definition dest_b (x : nat * net) : nat * net := (fst x, blind_net (snd x)).
Lemma desired_b a v n : desired_destination a v (blind_net n) = rmap dest_b (desired_destination a v n).
Proof.
  unfold desired_destination. change (nt_out (blind_net n)) with (nt_out n). rewrite rmap_bind. apply bind_ext. intros l _.
  assert (G : (if (length l <=? 1)%nat then let* e := of_option IndexError (get l 0) in Ok (e, blind_net n)
    else let u := nt_u (blind_net n) (nt_iu (blind_net n)) in let n1 := set_nt_iu (Datatypes.S (nt_iu (blind_net n))) (blind_net n) in
      let* pr := of_option IndexError (get (nt_probs (blind_net n)) v) in let* k := choice pr u (length l) in let* e := of_option IndexError (get l k) in Ok (e, n1)) =
    rmap dest_b (if (length l <=? 1)%nat then let* e := of_option IndexError (get l 0) in Ok (e, n)
    else let u := nt_u n (nt_iu n) in let n1 := set_nt_iu (Datatypes.S (nt_iu n)) n in
      let* pr := of_option IndexError (get (nt_probs n) v) in let* k := choice pr u (length l) in let* e := of_option IndexError (get l k) in Ok (e, n1))).
  { rewrite rmap_if. destruct (length l <=? 1)%nat; [destruct (get l 0); reflexivity|]. cbv zeta. change (nt_probs (blind_net n)) with (nt_probs n).
    change (nt_u (blind_net n) (nt_iu (blind_net n))) with (nt_u n (nt_iu n)). rewrite rmap_bind. apply bind_ext. intros pr _. rewrite rmap_bind. apply bind_ext. intros k _.
    rewrite rmap_bind. apply bind_ext. intros e _. reflexivity. }
  destruct (ag_kind a); try exact G.
  rewrite queued_b, rmap_bind. apply bind_ext. intros zs _. rewrite rmap_bind. apply bind_ext. intros d _. rewrite rmap_bind. apply bind_ext. intros e _. reflexivity.
Qed.
Lemma desired_l a v n e n' : nl n -> desired_destination a v n = Ok (e, n') -> nl n'.
Proof.
  unfold desired_destination. intros F H. mbind H.
  assert (G : (if (length x <=? 1)%nat then let* e := of_option IndexError (get x 0) in Ok (e, n)
    else let u := nt_u n (nt_iu n) in let n1 := set_nt_iu (Datatypes.S (nt_iu n)) n in
      let* pr := of_option IndexError (get (nt_probs n) v) in let* k := choice pr u (length x) in let* e := of_option IndexError (get x k) in Ok (e, n1)) = Ok (e, n') -> nl n').
  { clear H. intro H. destruct (length x <=? 1)%nat; [mbind H; injection H as _ <-; exact F|]. cbv zeta in H. do 3 (mbind H). injection H as _ <-. exact F. }
  destruct (ag_kind a); try (exact (G H)). do 3 (mbind H). injection H as _ <-. exact F.
Qed.
Lemma stop_b q n : stop_if_full (blind q) (blind_net n) = blind (stop_if_full q n).
Proof. unfold stop_if_full. change (full (blind_net n)) with (full n). change (q_active (blind q)) with (q_active q). destruct (q_active q && full n); reflexivity. Qed.
Lemma stop_l q n : listed q -> listed (stop_if_full q n).
Proof. unfold stop_if_full. destruct (_ && _); auto. Qed.
Lemma mark_b q : mark_blocked (blind q) = rmap blind (mark_blocked q).
Proof. unfold mark_blocked. change (first_departure (blind q)) with (first_departure q). rewrite rmap_bind. apply bind_ext. intros a _. reflexivity. Qed.
Lemma mark_l q q' : mark_blocked q = Ok q' -> listed q -> listed q'.
Proof. unfold mark_blocked. intros H L. mbind H. injection H as <-. exact L. Qed.

(** ** Events *)

Lemma block_b k e2 n : block_agent k e2 (blind_net n) = rmap blind_net (block_agent k e2 n).
Proof.
  unfold block_agent. rewrite at_b, bind_rmap, rmap_bind. apply bind_ext. intros q2 E2. cbv zeta.
  set (n1 := put_queue e2 (set_q_blocked (q_blocked q2 + 1) q2) n).
  change (set_q_blocked (q_blocked (blind q2) + 1) (blind q2)) with (blind (set_q_blocked (q_blocked q2 + 1) q2)). rewrite put_b. fold n1.
  rewrite at_b, bind_rmap, rmap_bind. apply bind_ext. intros q1 E1. rewrite mark_b, bind_rmap, rmap_bind. apply bind_ext. intros q1' M.
  rewrite put_b. set (n2 := put_queue k q1' n1). change (nt_bas (blind_net n2)) with (nt_bas n2). rewrite rmap_if. destruct (nt_bas n2) eqn:BAS.
  - rewrite at_b, bind_rmap, rmap_bind. apply bind_ext. intros q3 _. change (q_dep (blind q3)) with (q_dep q3).
    rewrite rmap_bind. apply bind_ext. intros td _. change (nt_eps (blind_net n2) (nt_ie (blind_net n2))) with (nt_eps n2 (nt_ie n2)).
    change (set_nt_ie (Datatypes.S (nt_ie (blind_net n2))) (blind_net n2)) with (blind_net (set_nt_ie (Datatypes.S (nt_ie n2)) n2)).
    rewrite at_b, bind_rmap, rmap_bind. apply bind_ext. intros q4 E4. rewrite delay_b, bind_rmap, rmap_bind. apply bind_ext. intros q5 _. cbn [rmap]. rewrite put_b. reflexivity.
  - rewrite at_b, bind_rmap, rmap_bind. apply bind_ext. intros q4 E4. rewrite delay_b, bind_rmap, rmap_bind. apply bind_ext. intros q5 _. cbn [rmap]. rewrite put_b. reflexivity.
Qed.
Lemma block_l k e2 n n' : nl n -> block_agent k e2 n = Ok n' -> nl n'.
Proof.
  intro F. unfold block_agent. intro H. apply bind_Ok in H as (q2 & E2 & H). cbv zeta in H.
  set (n1 := put_queue e2 (set_q_blocked (q_blocked q2 + 1) q2) n) in H.
  assert (F1 : nl n1) by (apply put_l; [exact F | exact (at_l _ _ _ F E2)]).
  apply bind_Ok in H as (q1 & E1 & H). apply bind_Ok in H as (q1' & M & H). apply mark_l in M; [|exact (at_l _ _ _ F1 E1)].
  set (n2 := put_queue k q1' n1) in H. assert (F2 : nl n2) by (apply put_l; assumption).
  destruct (nt_bas n2).
  - apply bind_Ok in H as (q3 & _ & H). apply bind_Ok in H as (td & _ & H). set (n3 := set_nt_ie (Datatypes.S (nt_ie n2)) n2) in H. assert (F3 : nl n3) by exact F2.
    apply bind_Ok in H as (q4 & E4 & H). apply bind_Ok in H as (q5 & D & H). injection H as <-. apply put_l; [exact F3|]. eapply delay_listed; [exact D|exact (at_l _ _ _ F3 E4)].
  - apply bind_Ok in H as (q4 & E4 & H). apply bind_Ok in H as (q5 & D & H). injection H as <-. apply put_l; [exact F2|]. eapply delay_listed; [exact D|exact (at_l _ _ _ F2 E4)].
Qed.
Lemma move_b k e1 e2 t n : nl n -> move_agent k e1 e2 t (blind_net n) = rmap blind_net (move_agent k e1 e2 t n).
Proof.
  intro F. unfold move_agent. rewrite at_b, bind_rmap, rmap_bind. apply bind_ext. intros q1 E1. assert (Q1 := at_l _ _ _ F E1).
  rewrite (next_b q1 Q1), bind_rmap, rmap_bind. apply bind_ext. intros [[a|] q1'] N1; cbn [ev_b fst snd]; [|reflexivity]. apply next_listed in N1; [|exact Q1].
  cbv zeta. rewrite put_b. set (n1 := put_queue k q1' n). assert (F1 : nl n1) by (apply put_l; assumption).
  rewrite at_b, bind_rmap, rmap_bind. apply bind_ext. intros q2 E2. assert (Q2 := at_l _ _ _ F1 E2).
  rewrite add_b, bind_rmap, rmap_bind. apply bind_ext. intros q2' A2. apply add_listed in A2; [|exact Q2].
  rewrite put_b. set (n2 := put_queue e2 q2' n1). assert (F2 : nl n2) by (apply put_l; assumption).
  rewrite at_b, bind_rmap, rmap_bind. apply bind_ext. intros q1b _. change (q_total (blind q1b)) with (q_total q1b). rewrite count_b, bind_rmap, rmap_bind. apply bind_ext. intros n3 E3.
  assert (F3 := count_l _ _ _ _ F2 E3). change (q_total (blind q2')) with (q_total q2'). rewrite count_b, bind_rmap, rmap_bind. apply bind_ext. intros n4 E4.
  assert (F4 := count_l _ _ _ _ F3 E4). rewrite stop_b, put_b. set (n5 := put_queue e2 (stop_if_full q2' n4) n4).
  assert (F5 : nl n5) by (apply put_l; [exact F4|apply stop_l; exact A2]).
  rewrite at_b, bind_rmap, rmap_bind. apply bind_ext. intros q2b E2b. rewrite (next_b q2b (at_l _ _ _ F5 E2b)), bind_rmap, rmap_bind. apply bind_ext. intros [r q2c] _.
  cbn [ev_b fst snd]. rewrite put_b. apply count_b.
Qed.
Lemma move_l k e1 e2 t n n' : nl n -> move_agent k e1 e2 t n = Ok n' -> nl n'.
Proof.
  intro F. unfold move_agent. intro H. apply bind_Ok in H as (q1 & E1 & H). assert (Q1 := at_l _ _ _ F E1). apply bind_Ok in H as ([[a|] q1'] & N1 & H); [|discriminate].
  apply next_listed in N1; [|exact Q1]. cbv zeta in H. set (n1 := put_queue k q1' n) in H. assert (F1 : nl n1) by (apply put_l; assumption).
  apply bind_Ok in H as (q2 & E2 & H). assert (Q2 := at_l _ _ _ F1 E2). apply bind_Ok in H as (q2' & A2 & H). apply add_listed in A2; [|exact Q2].
  set (n2 := put_queue e2 q2' n1) in H. assert (F2 : nl n2) by (apply put_l; assumption).
  apply bind_Ok in H as (q1b & _ & H). apply bind_Ok in H as (n3 & E3 & H). assert (F3 := count_l _ _ _ _ F2 E3). apply bind_Ok in H as (n4 & E4 & H). assert (F4 := count_l _ _ _ _ F3 E4).
  set (n5 := put_queue e2 (stop_if_full q2' n4) n4) in H. assert (F5 : nl n5) by (apply put_l; [exact F4|apply stop_l; exact A2]).
  apply bind_Ok in H as (q2b & E2b & H). apply bind_Ok in H as ([r q2c] & N2 & H). apply next_listed in N2; [|exact (at_l _ _ _ F5 E2b)]. eapply count_l; [|exact H].
  apply put_l; assumption.
Qed.
Lemma reschedule_b k e2 t n : reschedule k e2 t (blind_net n) = rmap blind_net (reschedule k e2 t n).
Proof.
  unfold reschedule. rewrite at_b, bind_rmap, rmap_bind. apply bind_ext. intros q1 _. rewrite at_b, bind_rmap, rmap_bind. apply bind_ext. intros q2 _. cbv zeta.
  change (qkey (blind q1)) with (qkey q1). change (qkey (blind q2)) with (qkey q2). rewrite rmap_if, !push_b. destruct (negb _).
  - rewrite bind_rmap, rmap_bind. apply bind_ext. intros n1 _. rewrite rmap_if, push_b. reflexivity.
  - rewrite rmap_if. reflexivity.
Qed.
Lemma reschedule_l k e2 t n n' : nl n -> reschedule k e2 t n = Ok n' -> nl n'.
Proof.
  unfold reschedule. intros F H. do 2 (mbind H). cbv zeta in H. destruct (negb _).
  - apply bind_Ok in H as (n1 & P & H). assert (F1 := push_l _ _ _ F P). destruct (_ && _); [exact (push_l _ _ _ F1 H) | injection H as <-; exact F1].
  - destruct (eltb _ _); [exact (push_l _ _ _ F H) | injection H as <-; exact F].
Qed.
Lemma departs_b k t n : nl n -> net_departure k t (blind_net n) = rmap blind_net (net_departure k t n).
Proof.
  intro F. unfold net_departure. rewrite at_b, bind_rmap, rmap_bind. apply bind_ext. intros q1 _. cbv zeta. change (first_departure (blind q1)) with (first_departure q1).
  rewrite rmap_bind. apply bind_ext. intros a _. change (q_cfg (blind q1)) with (q_cfg q1). rewrite desired_b, bind_rmap, rmap_bind. apply bind_ext. intros [e2 n1] D.
  assert (F1 := desired_l _ _ _ _ _ F D). cbn [dest_b fst snd]. rewrite at_b, bind_rmap, rmap_bind. apply bind_ext. intros q2 _. change (at_capacity (blind q2)) with (at_capacity q2).
  change (q_cfg (blind q2)) with (q_cfg q2). rewrite block_b, (move_b _ _ _ _ _ F1), <- rmap_if, bind_rmap, rmap_bind. apply bind_ext. intros n2 _. apply reschedule_b.
Qed.
Lemma departs_l k t n n' : nl n -> net_departure k t n = Ok n' -> nl n'.
Proof.
  intro F. unfold net_departure. intro H. mbind H. cbv zeta in H. mbind H. apply bind_Ok in H as ([e2 n1] & D & H). assert (F1 := desired_l _ _ _ _ _ F D).
  apply bind_Ok in H as (q2 & _ & H). apply bind_Ok in H as (n2 & M & H). apply (reschedule_l _ _ _ _ _) with (2 := H).
  destruct (_ && _) in M; [exact (block_l _ _ _ _ F1 M) | exact (move_l _ _ _ _ _ _ F1 M)].
Qed.
Lemma arrives_b k n : nl n -> net_arrival k (blind_net n) = rmap blind_net (net_arrival k n).
Proof.
  intro F. unfold net_arrival. rewrite at_b, bind_rmap, rmap_bind. apply bind_ext. intros q1 E1. cbv zeta. rewrite stop_b.
  rewrite (next_b _ (stop_l _ n (at_l _ _ _ F E1))), bind_rmap, rmap_bind. apply bind_ext. intros [r q2] _. cbn [ev_b fst snd]. rewrite put_b. change (q_cfg (blind q1)) with (q_cfg q1).
  change (q_total (blind q2)) with (q_total q2). rewrite count_b, bind_rmap, rmap_bind. apply bind_ext. intros n2 _. change (q_time (blind q2)) with (q_time q2). change (qkey (blind q2)) with (qkey q2).
  rewrite push_b, rmap_if. reflexivity.
Qed.
Lemma arrives_l k n n' : nl n -> net_arrival k n = Ok n' -> nl n'.
Proof.
  intro F. unfold net_arrival. intro H. apply bind_Ok in H as (q1 & E1 & H). cbv zeta in H. apply bind_Ok in H as ([r q2] & N & H). apply next_listed in N; [|apply stop_l; exact (at_l _ _ _ F E1)].
  apply bind_Ok in H as (n2 & C & H). assert (F1 : nl (put_queue k q2 n)) by (apply put_l; assumption).
  assert (F2 := count_l _ _ _ _ F1 C). destruct (eltb _ _); [exact (push_l _ _ _ F2 H) | injection H as <-; exact F2].
Qed.
Lemma event_b n : nl n -> simulate_event (blind_net n) = rmap blind_net (simulate_event n).
Proof.
  intro F. unfold simulate_event. change (nt_heap (blind_net n)) with (nt_heap n). rewrite rmap_if. destruct (pq_size (nt_heap n) =? 0)%nat; [reflexivity|].
  rewrite rmap_bind. apply bind_ext. intros [[[t k]|] h] _; [|reflexivity].
  cbv zeta. change (set_nt_heap h (blind_net n)) with (blind_net (set_nt_heap h n)). set (n1 := set_nt_heap h n). rewrite at_b, bind_rmap, rmap_bind. apply bind_ext. intros q1 _.
  change (next_event_description (blind q1)) with (next_event_description q1). rewrite rmap_bind. apply bind_ext. intros d _.
  change (set_nt_events (nt_events (blind_net n1) + 1) (set_nt_t t (blind_net n1))) with (blind_net (set_nt_events (nt_events n1 + 1) (set_nt_t t n1))).
  set (n2 := set_nt_events (nt_events n1 + 1) (set_nt_t t n1)). assert (F2 : nl n2) by exact F. rewrite !rmap_if, (departs_b _ _ _ F2), (arrives_b _ _ F2). reflexivity.
Qed.
Lemma event_l n n' : nl n -> simulate_event n = Ok n' -> nl n'.
Proof.
  intro F. unfold simulate_event. destruct (pq_size (nt_heap n) =? 0)%nat; [intro H; injection H as <-; exact F|]. intro H. apply bind_Ok in H as ([[[t k]|] h] & _ & H); [|discriminate].
  cbv zeta in H. do 2 (mbind H). destruct (_ =? 2); [eapply departs_l; [|exact H]; exact F|]. destruct (_ =? 1); [eapply arrives_l; [|exact H]; exact F|]. injection H as <-. exact F.
Qed.

(** ** Calls *)

Lemma finite_b qs : finite_keys (map blind qs) = finite_keys qs.
Proof.
  unfold finite_keys. induction qs as [|q qs IH]; [reflexivity|]. cbn [map filter]. change (q_time (blind q)) with (q_time q).
  destruct (eltb (q_time q) Inf); cbn [map]; rewrite IH; reflexivity.
Qed.
Lemma not_null_b l n : not_null l (blind_net n) = not_null l n.
Proof. induction l as [|e l IH]; [reflexivity|]. cbn [not_null]. rewrite at_b, bind_rmap, IH. apply bind_ext. intros q _. reflexivity. Qed.
Lemma activate_b l : forall n, activate l (blind_net n) = rmap blind_net (activate l n).
Proof.
  induction l as [|e l IH]; intros n; cbn [activate]; [reflexivity|].
  rewrite at_b, bind_rmap, rmap_bind. apply bind_ext. intros q Eq. rewrite active_b, bind_rmap, rmap_bind. apply bind_ext. intros q' Ea.
  rewrite put_b. change (q_total (blind q')) with (q_total q'). rewrite count_b, bind_rmap, rmap_bind. apply bind_ext. intros n1 C. apply IH.
Qed.
Lemma activate_l l : forall n n', nl n -> activate l n = Ok n' -> nl n'.
Proof.
  induction l as [|e l IH]; intros n n' F H; cbn [activate] in H; [injection H as <-; exact F|].
  apply bind_Ok in H as (q & Eq & H). apply bind_Ok in H as (q' & Ea & H). apply bind_Ok in H as (n1 & C & H). apply active_listed in Ea; [|exact (at_l _ _ _ F Eq)].
  eapply IH; [|exact H]. eapply count_l; [|exact C]. apply put_l; assumption.
Qed.
Lemma init_b sel n : initialize_queues sel (blind_net n) = rmap blind_net (initialize_queues sel n).
Proof.
  unfold initialize_queues. rewrite not_null_b, rmap_bind. apply bind_ext. intros qs _. rewrite rmap_if. destruct (length qs =? 0)%nat; [reflexivity|].
  change (nt_max (blind_net n)) with (nt_max n). rewrite activate_b, bind_rmap, rmap_bind. apply bind_ext. intros n1 _.
  change (nt_queues (blind_net n1)) with (map blind (nt_queues n1)). rewrite map_length, finite_b. change (nt_heap (blind_net n)) with (nt_heap n).
  rewrite rmap_bind. apply bind_ext. intros h _. reflexivity.
Qed.
Lemma init_l sel n n' : nl n -> initialize_queues sel n = Ok n' -> nl n'.
Proof.
  intro F. unfold initialize_queues. intro H. mbind H. destruct (length x =? 0)%nat; [discriminate|]. apply bind_Ok in H as (n1 & Ea & H). mbind H. injection H as <-.
  exact (activate_l _ _ _ F Ea).
Qed.
Lemma put_at k q n : queue_at k n = Ok q -> put_queue k q n = n.
Proof.
  intro H. unfold queue_at in H. destruct (get (nt_queues n) k) as [x|] eqn:G; [|discriminate]. injection H as <-. unfold put_queue.
  assert (U : upd (nt_queues n) k x = nt_queues n). { clear -G. revert k G. generalize (nt_queues n). induction l as [|y l IH]; intros [|k] G; cbn in *; try discriminate; [congruence|]. rewrite (IH k G). reflexivity. }
  rewrite U. reflexivity.
Qed.
Lemma on_queues_b f : (forall q, blind (f q) = blind q) -> forall l n n', on_queues f l n = Ok n' -> blind_net n' = blind_net n.
Proof.
  intros Hf. induction l as [|e l IH]; intros n n' H; cbn [on_queues] in H; [injection H as <-; reflexivity|].
  apply bind_Ok in H as (q & Eq & H). rewrite (IH _ _ H), <- put_b, Hf. apply put_at. rewrite at_b, Eq. reflexivity.
Qed.
Lemma on_queues_l f : (forall q, listed q -> listed (f q)) -> forall l n n', nl n -> on_queues f l n = Ok n' -> nl n'.
Proof.
  intros Hf. induction l as [|e l IH]; intros n n' F H; cbn [on_queues] in H; [injection H as <-; exact F|].
  apply bind_Ok in H as (q & Eq & H). eapply IH; [|exact H]. apply put_l; [exact F|]. apply Hf. exact (at_l _ _ _ F Eq).
Qed.
Lemma on_queues_ok f l : forall n, (forall e, In e l -> (e < length (nt_queues n))%nat) -> exists n', on_queues f l n = Ok n'.
Proof.
  induction l as [|e l IH]; intros n H; cbn [on_queues]; [eauto|]. unfold queue_at. destruct (get (nt_queues n) e) as [q|] eqn:G.
  - cbn [of_option bind]. apply IH. intros e' I. unfold put_queue. cbn [set_nt_queues nt_queues]. rewrite upd_length. apply H. right. exact I.
  - exfalso. apply nth_error_None in G. specialize (H e (or_introl eq_refl)). lia.
Qed.
Lemma call_b c n : nl n -> net_about_data c = false -> run_call c (blind_net n) = rmap blind_net (run_call c n).
Proof.
  intros F ND. destruct c as [sel| | |o]; cbn [run_call]; [apply init_b| | |].
  - cbn [rmap]. f_equal. unfold net_clear, blind_net. cbn [set_nt_queues nt_queues nt_out nt_probs nt_nagents nt_t nt_events nt_max nt_init nt_heap nt_bas nt_u nt_iu nt_eps nt_ie].
    rewrite map_length, !map_map, (map_ext _ _ clear_b). reflexivity.
  - unfold net_copy. change (nt_init (blind_net n)) with (nt_init n). rewrite rmap_if. destruct (nt_init n); [|reflexivity].
    change (nt_queues (blind_net n)) with (map blind (nt_queues n)). rewrite map_length, finite_b. change (nt_heap (blind_net n)) with (nt_heap n).
    rewrite rmap_bind. apply bind_ext. intros h _. reflexivity.
  - destruct o as [|b l|l|p|m|b]; cbn [run_nop]; try reflexivity; try discriminate ND. apply event_b. exact F.
Qed.
Lemma call_data c n n' : net_about_data c = true -> run_call c n = Ok n' -> blind_net n' = blind_net n.
Proof. destruct c as [sel| | |[|b l|l|p|m|b]]; try discriminate; intros _; apply on_queues_b; reflexivity. Qed.
Lemma call_l c n n' : nl n -> run_call c n = Ok n' -> nl n'.
Proof.
  intros F H. destruct c as [sel| | |o]; cbn [run_call] in H; [eapply init_l; eassumption| | |].
  - injection H as <-. unfold nl. cbn [net_clear nt_queues]. apply Forall_map. eapply Forall_impl; [|exact F]. intros q Q. apply clear_listed. exact Q.
  - unfold net_copy in H. destruct (nt_init n); [mbind H|]; injection H as <-; exact F.
  - destruct o as [|b l|l|p|m|b]; cbn [run_nop] in H; try (injection H as <-; exact F).
    + eapply event_l; eassumption.
    + eapply (on_queues_l (set_q_collect b)); [|exact F|exact H]. auto.
    + eapply (on_queues_l (set_q_data [])); [|exact F|exact H]. intros q L. split; [exact (proj1 L)|]. intros i rows X. discriminate X.
Qed.
