(** * AgainNet: networks later in the sequences of random numbers *)
From Coq Require Import List ZArith QArith Lia Bool Arith.
From Verif Require Import Base Heap Queue PQueue Network SpecNet QueueEffects NetBare Clock ClockNet SpecAgain Again.
Import ListNotations.
Open Scope Z_scope.

Section AgainNet.
Context (A B : nat -> nat -> ext -> ext) (I J : nat -> nat) (U : nat -> Q) (a : nat) (E : nat -> Z) (b : nat).
Notation L := (late A B I J).
Notation N := (late_net A B I J U a E b).
Notation fit := (goes_on A B I J).
Notation nf := (net_goes_on A B I J U a E b).

Lemma at_late k n : queue_at k (N n) = rmap L (queue_at k n).
Proof. unfold queue_at. cbn [late_net nt_queues]. rewrite get_map, of_option_map. reflexivity. Qed.
Lemma put_late k q n : put_queue k (L q) (N n) = N (put_queue k q n).
Proof. unfold put_queue. cbn [late_net nt_queues]. rewrite upd_map. reflexivity. Qed.
Lemma at_fit k n q : nf n -> queue_at k n = Ok q -> fit (q_cfg q).
Proof. intros [F _] H. unfold queue_at in H. destruct (get (nt_queues n) k) as [x|] eqn:G; [|discriminate]. injection H as <-. apply (Forall_get _ _ _ _ F G). Qed.
Lemma put_fit k q n : nf n -> fit (q_cfg q) -> nf (put_queue k q n).
Proof. intros [F G] H. split; [|exact G]. apply Forall_upd; assumption. Qed.
Lemma put_like k q q' n : nf n -> fit (q_cfg q) -> q_cfg q' = q_cfg q -> nf (put_queue k q' n).
Proof. intros F H C. apply put_fit; [exact F|]. rewrite C. exact H. Qed.
Lemma count_late k z n : set_count k z (N n) = rmap N (set_count k z n).
Proof. unfold set_count. cbn [late_net nt_nagents]. destruct (set (nt_nagents n) k z); reflexivity. Qed.
Lemma count_fit k z n n' : nf n -> set_count k z n = Ok n' -> nf n'.
Proof. unfold set_count. intros F H. mbind H. injection H as <-. exact F. Qed.
Lemma push_late k n : net_push k (N n) = rmap N (net_push k n).
Proof. unfold net_push. cbn [late_net nt_heap]. destruct (pq_push (nt_heap n) (fst k) (snd k)); reflexivity. Qed.
Lemma push_fit k n n' : nf n -> net_push k n = Ok n' -> nf n'.
Proof. unfold net_push. intros F H. mbind H. injection H as <-. exact F. Qed.
Lemma queued_late l n : numbers_queued l (N n) = numbers_queued l n.
Proof.
  induction l as [|e l IH]; [reflexivity|]. cbn [numbers_queued]. rewrite at_late, bind_rmap, IH. apply bind_ext. intros q _. reflexivity.
Qed.
Definition dl (x : nat * net) : nat * net := (fst x, N (snd x)).
Lemma iu_late n : set_nt_iu (Datatypes.S (nt_iu (N n))) (N n) = N (set_nt_iu (Datatypes.S (nt_iu n)) n).
Proof. unfold late_net. cbn [set_nt_iu nt_queues nt_out nt_probs nt_nagents nt_t nt_events nt_max nt_init nt_heap nt_bas nt_u nt_iu nt_eps nt_ie]. rewrite <- plus_n_Sm. reflexivity. Qed.
Lemma ie_late n : set_nt_ie (Datatypes.S (nt_ie (N n))) (N n) = N (set_nt_ie (Datatypes.S (nt_ie n)) n).
Proof. unfold late_net. cbn [set_nt_ie nt_queues nt_out nt_probs nt_nagents nt_t nt_events nt_max nt_init nt_heap nt_bas nt_u nt_iu nt_eps nt_ie]. rewrite <- plus_n_Sm. reflexivity. Qed.
Lemma desired_late x v n : nf n -> desired_destination x v (N n) = rmap dl (desired_destination x v n).
Proof.
  intros (_ & FU & _). unfold desired_destination. change (nt_out (N n)) with (nt_out n). rewrite rmap_bind. apply bind_ext. intros l _.
  rewrite iu_late, queued_late. change (nt_u (N n) (nt_iu (N n))) with (U (a + nt_iu n)%nat). rewrite FU. change (nt_probs (N n)) with (nt_probs n). cbv zeta.
  destruct (ag_kind x).
  all: try (rewrite rmap_if; destruct (length l <=? 1)%nat; [destruct (get l 0); reflexivity|]; rewrite rmap_bind; apply bind_ext; intros pr _; rewrite rmap_bind; apply bind_ext; intros k _;
    rewrite rmap_bind; apply bind_ext; intros e _; reflexivity).
  rewrite rmap_bind. apply bind_ext. intros zs _. rewrite rmap_bind. apply bind_ext. intros d _. rewrite rmap_bind. apply bind_ext. intros e _. reflexivity.
Qed.
Lemma desired_fit x v n e n' : nf n -> desired_destination x v n = Ok (e, n') -> nf n'.
Proof.
  unfold desired_destination. intros F H. mbind H. destruct (ag_kind x).
  all: try (destruct (length _ <=? 1)%nat; [mbind H; injection H as _ <-; exact F|]; cbv zeta in H; do 3 (mbind H); injection H as _ <-; exact F).
  do 3 (mbind H). injection H as _ <-. exact F.
Qed.
Lemma stop_late q n : stop_if_full (L q) (N n) = L (stop_if_full q n).
Proof. unfold stop_if_full. change (full (N n)) with (full n). change (q_active (L q)) with (q_active q). destruct (q_active q && full n); reflexivity. Qed.
Lemma mark_late q : mark_blocked (L q) = rmap L (mark_blocked q).
Proof. unfold mark_blocked. change (first_departure (L q)) with (first_departure q). rewrite rmap_bind. apply bind_ext. intros x _. reflexivity. Qed.

Lemma block_late k e2 n : nf n -> block_agent k e2 (N n) = rmap N (block_agent k e2 n).
Proof.
  intro F. unfold block_agent. rewrite at_late, bind_rmap, rmap_bind. apply bind_ext. intros q2 E2. cbv zeta.
  set (n1 := put_queue e2 (set_q_blocked (q_blocked q2 + 1) q2) n).
  assert (F1 : nf n1) by (apply put_fit; [exact F | exact (at_fit _ _ _ F E2)]).
  change (set_q_blocked (q_blocked (L q2) + 1) (L q2)) with (L (set_q_blocked (q_blocked q2 + 1) q2)). rewrite put_late. fold n1.
  rewrite at_late, bind_rmap, rmap_bind. apply bind_ext. intros q1 E1. rewrite mark_late, bind_rmap, rmap_bind. apply bind_ext. intros q1' M.
  rewrite put_late. set (n2 := put_queue k q1' n1). apply mark_cfg in M. assert (F2 : nf n2) by (eapply put_like; [exact F1 | exact (at_fit _ _ _ F1 E1) | exact M]).
  change (nt_bas (N n2)) with (nt_bas n2). rewrite rmap_if. destruct (nt_bas n2) eqn:BAS.
  - rewrite at_late, bind_rmap, rmap_bind. apply bind_ext. intros q3 _. change (q_dep (L q3)) with (q_dep q3). rewrite rmap_bind. apply bind_ext. intros td _.
    change (nt_eps (N n2) (nt_ie (N n2))) with (E (b + nt_ie n2)%nat). rewrite (proj2 (proj2 F2)), ie_late.
    set (n3 := set_nt_ie (Datatypes.S (nt_ie n2)) n2). assert (F3 : nf n3) by exact F2. rewrite at_late, bind_rmap, rmap_bind. apply bind_ext. intros q4 E4.
    rewrite (delay_late A B I J _ q4 (at_fit _ _ _ F3 E4)), bind_rmap, rmap_bind. apply bind_ext. intros q5 _. cbn [rmap]. rewrite put_late. reflexivity.
  - rewrite at_late, bind_rmap, rmap_bind. apply bind_ext. intros q4 E4. rewrite (delay_late A B I J _ q4 (at_fit _ _ _ F2 E4)), bind_rmap, rmap_bind.
    apply bind_ext. intros q5 _. cbn [rmap]. rewrite put_late. reflexivity.
Qed.
Lemma block_fit k e2 n n' : nf n -> block_agent k e2 n = Ok n' -> nf n'.
Proof.
  intro F. unfold block_agent. intro H. apply bind_Ok in H as (q2 & E2 & H). cbv zeta in H.
  set (n1 := put_queue e2 (set_q_blocked (q_blocked q2 + 1) q2) n) in H.
  assert (F1 : nf n1) by (apply put_fit; [exact F | exact (at_fit _ _ _ F E2)]).
  apply bind_Ok in H as (q1 & E1 & H). apply bind_Ok in H as (q1' & M & H). apply mark_cfg in M.
  set (n2 := put_queue k q1' n1) in H. assert (F2 : nf n2) by (eapply put_like; [exact F1 | exact (at_fit _ _ _ F1 E1) | exact M]).
  destruct (nt_bas n2).
  - apply bind_Ok in H as (q3 & _ & H). apply bind_Ok in H as (td & _ & H). set (n3 := set_nt_ie (Datatypes.S (nt_ie n2)) n2) in H. assert (F3 : nf n3) by exact F2.
    apply bind_Ok in H as (q4 & E4 & H). apply bind_Ok in H as (q5 & D & H). injection H as <-. apply delay_cfg in D. eapply put_like; [exact F3 | exact (at_fit _ _ _ F3 E4) | exact D].
  - apply bind_Ok in H as (q4 & E4 & H). apply bind_Ok in H as (q5 & D & H). injection H as <-. apply delay_cfg in D. eapply put_like; [exact F2 | exact (at_fit _ _ _ F2 E4) | exact D].
Qed.
Lemma move_late k e1 e2 t n : nf n -> move_agent k e1 e2 t (N n) = rmap N (move_agent k e1 e2 t n).
Proof.
  intro F. unfold move_agent. rewrite at_late, bind_rmap, rmap_bind. apply bind_ext. intros q1 E1. assert (Q1 := at_fit _ _ _ F E1).
  rewrite (next_late A B I J q1 Q1), bind_rmap, rmap_bind. apply bind_ext. intros [[x|] q1'] N1; cbn [el fst snd]; [|reflexivity]. apply next_cfg in N1.
  cbv zeta. rewrite put_late. set (n1 := put_queue k q1' n). assert (F1 : nf n1) by (eapply put_like; eassumption).
  rewrite at_late, bind_rmap, rmap_bind. apply bind_ext. intros q2 E2. assert (Q2 := at_fit _ _ _ F1 E2).
  rewrite (add_late A B I J), bind_rmap, rmap_bind. apply bind_ext. intros q2' A2. apply add_cfg in A2.
  rewrite put_late. set (n2 := put_queue e2 q2' n1). assert (F2 : nf n2) by (eapply put_like; eassumption).
  rewrite at_late, bind_rmap, rmap_bind. apply bind_ext. intros q1b _. change (q_total (L q1b)) with (q_total q1b). rewrite count_late, bind_rmap, rmap_bind. apply bind_ext. intros n3 E3.
  assert (F3 := count_fit _ _ _ _ F2 E3). change (q_total (L q2')) with (q_total q2'). rewrite count_late, bind_rmap, rmap_bind. apply bind_ext. intros n4 E4.
  assert (F4 := count_fit _ _ _ _ F3 E4). rewrite stop_late, put_late. set (n5 := put_queue e2 (stop_if_full q2' n4) n4).
  assert (F5 : nf n5) by (eapply put_like; [exact F4 | exact Q2 | rewrite stop_cfg; exact A2]).
  rewrite at_late, bind_rmap, rmap_bind. apply bind_ext. intros q2b E2b. rewrite (next_late A B I J q2b (at_fit _ _ _ F5 E2b)), bind_rmap, rmap_bind. apply bind_ext. intros [r q2c] _.
  cbn [el fst snd]. rewrite put_late. apply count_late.
Qed.
Lemma move_fit k e1 e2 t n n' : nf n -> move_agent k e1 e2 t n = Ok n' -> nf n'.
Proof.
  intro F. unfold move_agent. intro H. apply bind_Ok in H as (q1 & E1 & H). assert (Q1 := at_fit _ _ _ F E1). apply bind_Ok in H as ([[x|] q1'] & N1 & H); [|discriminate].
  apply next_cfg in N1. cbv zeta in H. set (n1 := put_queue k q1' n) in H. assert (F1 : nf n1) by (eapply put_like; eassumption).
  apply bind_Ok in H as (q2 & E2 & H). assert (Q2 := at_fit _ _ _ F1 E2). apply bind_Ok in H as (q2' & A2 & H). apply add_cfg in A2.
  set (n2 := put_queue e2 q2' n1) in H. assert (F2 : nf n2) by (eapply put_like; eassumption).
  apply bind_Ok in H as (q1b & _ & H). apply bind_Ok in H as (n3 & E3 & H). assert (F3 := count_fit _ _ _ _ F2 E3). apply bind_Ok in H as (n4 & E4 & H). assert (F4 := count_fit _ _ _ _ F3 E4).
  set (n5 := put_queue e2 (stop_if_full q2' n4) n4) in H. assert (F5 : nf n5) by (eapply put_like; [exact F4 | exact Q2 | rewrite stop_cfg; exact A2]).
  apply bind_Ok in H as (q2b & E2b & H). apply bind_Ok in H as ([r q2c] & N2 & H). apply next_cfg in N2. eapply count_fit; [|exact H].
  eapply put_like; [exact F5 | exact (at_fit _ _ _ F5 E2b) | exact N2].
Qed.
Lemma reschedule_late k e2 t n : reschedule k e2 t (N n) = rmap N (reschedule k e2 t n).
Proof.
  unfold reschedule. rewrite at_late, bind_rmap, rmap_bind. apply bind_ext. intros q1 _. rewrite at_late, bind_rmap, rmap_bind. apply bind_ext. intros q2 _. cbv zeta.
  change (qkey (L q1)) with (qkey q1). change (qkey (L q2)) with (qkey q2). rewrite !push_late, rmap_if. destruct (negb _).
  - rewrite bind_rmap, rmap_bind. apply bind_ext. intros n1 _. rewrite rmap_if, push_late. reflexivity.
  - rewrite rmap_if. reflexivity.
Qed.
Lemma reschedule_fit k e2 t n n' : nf n -> reschedule k e2 t n = Ok n' -> nf n'.
Proof.
  unfold reschedule. intros F H. do 2 (mbind H). cbv zeta in H. destruct (negb _).
  - apply bind_Ok in H as (n1 & P & H). assert (F1 := push_fit _ _ _ F P). destruct (_ && _); [exact (push_fit _ _ _ F1 H) | injection H as <-; exact F1].
  - destruct (eltb _ _); [exact (push_fit _ _ _ F H) | injection H as <-; exact F].
Qed.
Lemma departs_late k t n : nf n -> net_departure k t (N n) = rmap N (net_departure k t n).
Proof.
  intro F. unfold net_departure. rewrite at_late, bind_rmap, rmap_bind. apply bind_ext. intros q1 _. cbv zeta. change (first_departure (L q1)) with (first_departure q1). rewrite rmap_bind. apply bind_ext. intros x _.
  change (c_tgt (q_cfg (L q1))) with (c_tgt (q_cfg q1)). change (c_idx (q_cfg (L q1))) with (c_idx (q_cfg q1)). rewrite desired_late by exact F. rewrite bind_rmap, rmap_bind. apply bind_ext. intros [e2 n1] D.
  assert (F1 := desired_fit _ _ _ _ _ F D). cbn [dl fst snd]. rewrite at_late, bind_rmap, rmap_bind. apply bind_ext. intros q2 _. change (at_capacity (L q2)) with (at_capacity q2).
  rewrite (block_late _ _ _ F1), (move_late _ _ _ _ _ F1), <- rmap_if, bind_rmap, rmap_bind. apply bind_ext. intros n2 _. apply reschedule_late.
Qed.
Lemma departs_fit k t n n' : nf n -> net_departure k t n = Ok n' -> nf n'.
Proof.
  intro F. unfold net_departure. intro H. mbind H. cbv zeta in H. mbind H. apply bind_Ok in H as ([e2 n1] & D & H). assert (F1 := desired_fit _ _ _ _ _ F D).
  apply bind_Ok in H as (q2 & _ & H). apply bind_Ok in H as (n2 & M & H). apply (reschedule_fit _ _ _ _ _) with (2 := H).
  destruct (_ && _) in M; [exact (block_fit _ _ _ _ F1 M) | exact (move_fit _ _ _ _ _ _ F1 M)].
Qed.
Lemma arrives_late k n : nf n -> net_arrival k (N n) = rmap N (net_arrival k n).
Proof.
  intro F. unfold net_arrival. rewrite at_late, bind_rmap, rmap_bind. apply bind_ext. intros q1 E1. cbv zeta. rewrite stop_late.
  assert (Q1 := at_fit _ _ _ F E1). assert (Q2 : fit (q_cfg (stop_if_full q1 n))) by (rewrite stop_cfg; exact Q1).
  rewrite (next_late A B I J _ Q2), bind_rmap, rmap_bind. apply bind_ext. intros [r q2] _. cbn [el fst snd]. rewrite put_late. change (c_idx (q_cfg (L q1))) with (c_idx (q_cfg q1)).
  change (q_total (L q2)) with (q_total q2). rewrite count_late, bind_rmap, rmap_bind. apply bind_ext. intros n2 _. change (q_time (L q2)) with (q_time q2). change (qkey (L q2)) with (qkey q2).
  rewrite push_late, rmap_if. reflexivity.
Qed.
Lemma arrives_fit k n n' : nf n -> net_arrival k n = Ok n' -> nf n'.
Proof.
  intro F. unfold net_arrival. intro H. apply bind_Ok in H as (q1 & E1 & H). cbv zeta in H. apply bind_Ok in H as ([r q2] & M & H). apply next_cfg in M. rewrite stop_cfg in M.
  apply bind_Ok in H as (n2 & C & H). assert (F1 : nf (put_queue k q2 n)) by (eapply put_like; [exact F | exact (at_fit _ _ _ F E1) | exact M]).
  assert (F2 := count_fit _ _ _ _ F1 C). destruct (eltb _ _); [exact (push_fit _ _ _ F2 H) | injection H as <-; exact F2].
Qed.
Lemma event_late n : nf n -> simulate_event (N n) = rmap N (simulate_event n).
Proof.
  intro F. unfold simulate_event. change (nt_heap (N n)) with (nt_heap n). rewrite rmap_if. destruct (pq_size (nt_heap n) =? 0)%nat; [reflexivity|].
  rewrite rmap_bind. apply bind_ext. intros [[[t k]|] h] _; [|reflexivity].
  cbv zeta. change (set_nt_heap h (N n)) with (N (set_nt_heap h n)). set (n1 := set_nt_heap h n). rewrite at_late, bind_rmap, rmap_bind. apply bind_ext. intros q1 _.
  change (next_event_description (L q1)) with (next_event_description q1). rewrite rmap_bind. apply bind_ext. intros d _.
  change (set_nt_events (nt_events (N n1) + 1) (set_nt_t t (N n1))) with (N (set_nt_events (nt_events n1 + 1) (set_nt_t t n1))).
  set (n2 := set_nt_events (nt_events n1 + 1) (set_nt_t t n1)). assert (F2 : nf n2) by exact F. rewrite !rmap_if, (departs_late _ _ _ F2), (arrives_late _ _ F2). reflexivity.
Qed.
Lemma event_fit n n' : nf n -> simulate_event n = Ok n' -> nf n'.
Proof.
  intro F. unfold simulate_event. destruct (pq_size (nt_heap n) =? 0)%nat; [intro H; injection H as <-; exact F|]. intro H. apply bind_Ok in H as ([[[t k]|] h] & _ & H); [|discriminate].
  cbv zeta in H. do 2 (mbind H). destruct (_ =? 2); [eapply departs_fit; [|exact H]; exact F|]. destruct (_ =? 1); [eapply arrives_fit; [|exact H]; exact F|]. injection H as <-. exact F.
Qed.

(** ** Calls *)

Lemma finite_late qs : finite_keys (map L qs) = finite_keys qs.
Proof.
  unfold finite_keys. induction qs as [|q qs IH]; [reflexivity|]. cbn [map filter]. change (q_time (L q)) with (q_time q). destruct (eltb (q_time q) Inf); cbn [map]; rewrite IH; reflexivity.
Qed.
Lemma not_null_late l n : not_null l (N n) = not_null l n.
Proof. induction l as [|e l IH]; [reflexivity|]. cbn [not_null]. rewrite at_late, bind_rmap, IH. apply bind_ext. intros q _. reflexivity. Qed.
Lemma activate_late l : forall n, nf n -> activate l (N n) = rmap N (activate l n) /\ (forall n', activate l n = Ok n' -> nf n').
Proof.
  induction l as [|e l IH]; intros n F; cbn [activate]; [split; [reflexivity|]; intros n' H; injection H as <-; exact F|]. split.
  - rewrite at_late, bind_rmap, rmap_bind. apply bind_ext. intros q Eq. assert (Q := at_fit _ _ _ F Eq). rewrite (active_late A B I J q Q), bind_rmap, rmap_bind. apply bind_ext. intros q' Ea. apply active_cfg in Ea.
    rewrite put_late. change (q_total (L q')) with (q_total q'). rewrite count_late, bind_rmap, rmap_bind. apply bind_ext. intros n1 C.
    apply IH. eapply count_fit; [|exact C]. eapply put_like; eassumption.
  - intros n' H. apply bind_Ok in H as (q & Eq & H). apply bind_Ok in H as (q' & Ea & H). apply bind_Ok in H as (n1 & C & H). apply active_cfg in Ea.
    assert (F1 : nf n1) by (eapply count_fit; [|exact C]; eapply put_like; [exact F | exact (at_fit _ _ _ F Eq) | exact Ea]). exact (proj2 (IH n1 F1) n' H).
Qed.
Lemma init_late sel n : nf n -> initialize_queues sel (N n) = rmap N (initialize_queues sel n).
Proof.
  intro F. unfold initialize_queues. rewrite not_null_late, rmap_bind. apply bind_ext. intros qs _. rewrite rmap_if. destruct (length qs =? 0)%nat; [reflexivity|].
  change (nt_max (N n)) with (nt_max n). rewrite (proj1 (activate_late _ n F)), bind_rmap, rmap_bind. apply bind_ext. intros n1 _.
  change (nt_queues (N n1)) with (map L (nt_queues n1)). rewrite map_length, finite_late. change (nt_heap (N n)) with (nt_heap n). rewrite rmap_bind. apply bind_ext. intros h _. reflexivity.
Qed.
Lemma init_fit sel n n' : nf n -> initialize_queues sel n = Ok n' -> nf n'.
Proof.
  intro F. unfold initialize_queues. intro H. mbind H. destruct (length x =? 0)%nat; [discriminate|]. apply bind_Ok in H as (n1 & Ea & H). mbind H. injection H as <-. exact (proj2 (activate_late _ n F) n1 Ea).
Qed.
Lemma on_queues_late f : (forall q, f (L q) = L (f q)) -> (forall q, q_cfg (f q) = q_cfg q) ->
  forall l n, nf n -> on_queues f l (N n) = rmap N (on_queues f l n) /\ (forall n', on_queues f l n = Ok n' -> nf n').
Proof.
  intros Hf Hc. induction l as [|e l IH]; intros n F; cbn [on_queues]; [split; [reflexivity|]; intros n' H; injection H as <-; exact F|]. split.
  - rewrite at_late, bind_rmap, rmap_bind. apply bind_ext. intros q Eq. rewrite Hf, put_late. apply IH. eapply put_like; [exact F | exact (at_fit _ _ _ F Eq) | apply Hc].
  - intros n' H. apply bind_Ok in H as (q & Eq & H). assert (F1 : nf (put_queue e (f q) n)) by (eapply put_like; [exact F | exact (at_fit _ _ _ F Eq) | apply Hc]). exact (proj2 (IH _ F1) n' H).
Qed.
Lemma call_late c n : nf n -> run_call c (N n) = rmap N (run_call c n).
Proof.
  intro F. destruct c as [sel| | |o]; cbn [run_call]; [apply init_late; exact F| | |].
  - cbn [rmap]. f_equal. unfold net_clear, late_net. cbn [nt_queues nt_out nt_probs nt_nagents nt_t nt_events nt_max nt_init nt_heap nt_bas nt_u nt_iu nt_eps nt_ie].
    rewrite map_length. f_equal. rewrite !map_map. apply map_ext. intro q. apply clear_late.
  - unfold net_copy. change (nt_init (N n)) with (nt_init n). rewrite rmap_if. destruct (nt_init n); [|reflexivity].
    change (nt_queues (N n)) with (map L (nt_queues n)). rewrite map_length, finite_late. change (nt_heap (N n)) with (nt_heap n). rewrite rmap_bind. apply bind_ext. intros h _. reflexivity.
  - destruct o as [|c l|l|p|m|c]; cbn [run_nop]; try reflexivity.
    + apply event_late. exact F.
    + apply on_queues_late; [reflexivity|reflexivity|exact F].
    + apply on_queues_late; [reflexivity|reflexivity|exact F].
Qed.
Lemma call_fit c n n' : nf n -> run_call c n = Ok n' -> nf n'.
Proof.
  intros F H. destruct c as [sel| | |o]; cbn [run_call] in H; [eapply init_fit; eassumption| | |].
  - injection H as <-. destruct F as [F G]. split; [|exact G]. cbn [net_clear nt_queues]. apply Forall_map. eapply Forall_impl; [|exact F]. intros q Q. cbn beta in *. rewrite clear_cfg. exact Q.
  - unfold net_copy in H. destruct (nt_init n); [mbind H|]; injection H as <-; exact F.
  - destruct o as [|c l|l|p|m|c]; cbn [run_nop] in H; try (injection H as <-; exact F).
    + eapply event_fit; eassumption.
    + eapply (on_queues_late (set_q_collect c)); [reflexivity|reflexivity|exact F|exact H].
    + eapply (on_queues_late (set_q_data [])); [reflexivity|reflexivity|exact F|exact H].
Qed.
End AgainNet.
