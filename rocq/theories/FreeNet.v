(** * FreeNet: networks whose queues are not spent *)
From Coq Require Import List ZArith QArith Lia Bool Arith.
From Verif Require Import Base Heap Queue PQueue Network SpecNet SpecQueue QueueEffects NetSteps NetBare Clock ClockNet NetExamples SpecFree Free.
Import ListNotations.
Open Scope Z_scope.

Notation N := free_net.
Notation L := free.

(** ** Parts of an event that do not look at the limits *)

Lemma at_free k n : queue_at k (N n) = rmap L (queue_at k n).
Proof. unfold queue_at, free_net. cbn [set_nt_queues nt_queues]. rewrite get_map, of_option_map. reflexivity. Qed.
Lemma put_free k q n : put_queue k (L q) (N n) = N (put_queue k q n).
Proof. unfold put_queue, free_net. cbn [set_nt_queues nt_queues]. rewrite upd_map. reflexivity. Qed.
Lemma stop_free q n : stop_if_full (L q) (N n) = L (stop_if_full q n).
Proof. unfold stop_if_full. change (full (N n)) with (full n). change (q_active (L q)) with (q_active q). destruct (q_active q && full n); reflexivity. Qed.
Lemma mark_free q : mark_blocked (L q) = rmap L (mark_blocked q).
Proof. unfold mark_blocked. change (first_departure (L q)) with (first_departure q). rewrite rmap_bind. apply bind_ext. intros x _. reflexivity. Qed.
Lemma count_free k z n : set_count k z (N n) = rmap N (set_count k z n).
Proof. unfold set_count. unfold free_net. cbn [set_nt_queues nt_nagents]. destruct (set (nt_nagents n) k z); reflexivity. Qed.
Lemma push_free k n : net_push k (N n) = rmap N (net_push k n).
Proof. unfold net_push. unfold free_net. cbn [set_nt_queues nt_heap]. destruct (pq_push (nt_heap n) (fst k) (snd k)); reflexivity. Qed.
Lemma queued_free l n : numbers_queued l (N n) = numbers_queued l n.
Proof.
  induction l as [|e l IH]; [reflexivity|]. cbn [numbers_queued]. rewrite at_free, bind_rmap, IH. apply bind_ext. intros q _. reflexivity.
Qed.
Definition df (x : nat * net) : nat * net := (fst x, N (snd x)).
Lemma desired_free x v n : desired_destination x v (N n) = rmap df (desired_destination x v n).
Proof.
  unfold desired_destination. change (nt_out (N n)) with (nt_out n). rewrite rmap_bind. apply bind_ext. intros l _.
  rewrite queued_free. change (nt_u (N n) (nt_iu (N n))) with (nt_u n (nt_iu n)). change (set_nt_iu (Datatypes.S (nt_iu (N n))) (N n)) with (N (set_nt_iu (Datatypes.S (nt_iu n)) n)). change (nt_probs (N n)) with (nt_probs n). cbv zeta.
  destruct (ag_kind x).
  all: try (rewrite rmap_if; destruct (length l <=? 1)%nat; [destruct (get l 0); reflexivity|]; rewrite rmap_bind; apply bind_ext; intros pr _; rewrite rmap_bind; apply bind_ext; intros k _;
    rewrite rmap_bind; apply bind_ext; intros e _; reflexivity).
  rewrite rmap_bind. apply bind_ext. intros zs _. rewrite rmap_bind. apply bind_ext. intros d _. rewrite rmap_bind. apply bind_ext. intros e _. reflexivity.
Qed.
Lemma desired_queues x v n e n' : desired_destination x v n = Ok (e, n') -> nt_queues n' = nt_queues n.
Proof.
  unfold desired_destination. intros H. mbind H. destruct (ag_kind x).
  all: try (destruct (length _ <=? 1)%nat; [mbind H; injection H as _ <-; reflexivity|]; cbv zeta in H; do 3 (mbind H); injection H as _ <-; reflexivity).
  do 3 (mbind H). injection H as _ <-. reflexivity.
Qed.
Lemma block_free k e2 n : block_agent k e2 (N n) = rmap N (block_agent k e2 n).
Proof.
  unfold block_agent. rewrite at_free, bind_rmap, rmap_bind. apply bind_ext. intros q2 E2. cbv zeta.
  change (set_q_blocked (q_blocked (L q2) + 1) (L q2)) with (L (set_q_blocked (q_blocked q2 + 1) q2)). rewrite put_free.
  set (n1 := put_queue e2 (set_q_blocked (q_blocked q2 + 1) q2) n). rewrite at_free, bind_rmap, rmap_bind. apply bind_ext. intros q1 E1. rewrite mark_free, bind_rmap, rmap_bind. apply bind_ext. intros q1' M.
  rewrite put_free. set (n2 := put_queue k q1' n1).
  change (nt_bas (N n2)) with (nt_bas n2). rewrite rmap_if. destruct (nt_bas n2) eqn:BAS.
  - rewrite at_free, bind_rmap, rmap_bind. apply bind_ext. intros q3 _. change (q_dep (L q3)) with (q_dep q3). rewrite rmap_bind. apply bind_ext. intros td _.
    change (nt_eps (N n2) (nt_ie (N n2))) with (nt_eps n2 (nt_ie n2)). change (set_nt_ie (Datatypes.S (nt_ie (N n2))) (N n2)) with (N (set_nt_ie (Datatypes.S (nt_ie n2)) n2)).
    set (n3 := set_nt_ie (Datatypes.S (nt_ie n2)) n2). rewrite at_free, bind_rmap, rmap_bind. apply bind_ext. intros q4 E4.
    rewrite delay_free, bind_rmap, rmap_bind. apply bind_ext. intros q5 _. cbn [rmap]. rewrite put_free. reflexivity.
  - rewrite at_free, bind_rmap, rmap_bind. apply bind_ext. intros q4 E4. rewrite delay_free, bind_rmap, rmap_bind.
    apply bind_ext. intros q5 _. cbn [rmap]. rewrite put_free. reflexivity.
Qed.
Lemma reschedule_free k e2 t n : reschedule k e2 t (N n) = rmap N (reschedule k e2 t n).
Proof.
  unfold reschedule. rewrite at_free, bind_rmap, rmap_bind. apply bind_ext. intros q1 _. rewrite at_free, bind_rmap, rmap_bind. apply bind_ext. intros q2 _. cbv zeta.
  change (qkey (L q1)) with (qkey q1). change (qkey (L q2)) with (qkey q2). rewrite !push_free, rmap_if. change (q_time (L q1)) with (q_time q1). change (q_time (L q2)) with (q_time q2). destruct (negb _).
  - rewrite bind_rmap, rmap_bind. apply bind_ext. intros n1 _. rewrite rmap_if, push_free. reflexivity.
  - rewrite rmap_if. reflexivity.
Qed.

(** ** Events *)

Definition alive (n : net) : Prop := forall q, In q (nt_queues n) -> ~ spent q.
Lemma alive_get n k q : alive n -> get (nt_queues n) k = Some q -> ~ spent q.
Proof. intros A G. apply A. apply (nth_error_In _ k). exact G. Qed.
Lemma at_get k n q : queue_at k n = Ok q <-> get (nt_queues n) k = Some q.
Proof. unfold queue_at. destruct (get (nt_queues n) k); cbn; split; congruence. Qed.
Lemma at_Ok k n q : queue_at k n = Ok q -> queue_at k (N n) = Ok (L q).
Proof. intro H. rewrite at_free, H. reflexivity. Qed.
Lemma count_queues k z n n' : set_count k z n = Ok n' -> nt_queues n' = nt_queues n.
Proof. unfold set_count. intro H. mbind H. injection H as <-. reflexivity. Qed.
Lemma count_Ok k z n n' : set_count k z n = Ok n' -> set_count k z (N n) = Ok (N n').
Proof. intro H. rewrite count_free, H. reflexivity. Qed.
Lemma push_queues k n n' : net_push k n = Ok n' -> nt_queues n' = nt_queues n.
Proof. unfold net_push. intro H. mbind H. injection H as <-. reflexivity. Qed.
Lemma reschedule_queues k e2 t n n' : reschedule k e2 t n = Ok n' -> nt_queues n' = nt_queues n.
Proof.
  unfold reschedule. intro H. do 2 (mbind H). cbv zeta in H. destruct (negb _).
  - apply bind_Ok in H as (n1 & X & H). apply push_queues in X. destruct (_ && _); [apply push_queues in H; congruence|injection H as <-; exact X].
  - destruct (eltb _ _); [exact (push_queues _ _ _ H)|injection H as <-; reflexivity].
Qed.
Lemma get_len {A} (l : list A) k x : get l k = Some x -> (k < length l)%nat.
Proof. unfold get. intro H. apply nth_error_Some. congruence. Qed.
Lemma stop_spent q n : spent q -> spent (stop_if_full q n).
Proof. intros [A B]. unfold stop_if_full. destruct (_ && _); [split; [reflexivity|exact B]|split; assumption]. Qed.

Lemma move_alive k e1 e2 t n n' : move_agent k e1 e2 t n = Ok n' -> alive n' -> move_agent k e1 e2 t (N n) = Ok (N n').
Proof.
  unfold move_agent. intros H AL. apply bind_Ok in H as (q1 & E1 & H). apply bind_Ok in H as ([[x|] q1'] & N1 & H); [|discriminate]. cbv zeta in H.
  set (n1 := put_queue k q1' n) in H. apply bind_Ok in H as (q2 & E2 & H). apply bind_Ok in H as (q2' & A2 & H). set (n2 := put_queue e2 q2' n1) in H.
  apply bind_Ok in H as (q1b & EB & H). apply bind_Ok in H as (n3 & E3 & H). apply bind_Ok in H as (n4 & E4 & H).
  set (n5 := put_queue e2 (stop_if_full q2' n4) n4) in H. apply bind_Ok in H as (q2b & E2b & H). apply bind_Ok in H as ([r q2c] & N2 & H).
  assert (G1 := proj1 (at_get _ _ _) E1). assert (G2 := proj1 (at_get _ _ _) E2). assert (G2b := proj1 (at_get _ _ _) E2b). cbn [n1 put_queue set_nt_queues nt_queues] in G2.
  assert (Q4 : nt_queues n4 = upd (upd (nt_queues n) k q1') e2 q2') by (rewrite (count_queues _ _ _ _ E4), (count_queues _ _ _ _ E3); reflexivity).
  assert (K1 := get_len _ _ _ G1). assert (K2 := get_len _ _ _ G2). rewrite upd_length in K2.
  assert (Q5 : nt_queues n5 = upd (upd (nt_queues n) k q1') e2 (stop_if_full q2' n4)) by (unfold n5, put_queue; cbn [set_nt_queues nt_queues]; rewrite Q4, upd_upd; reflexivity).
  rewrite Q5, get_upd_eq in G2b by (rewrite upd_length; exact K2). injection G2b as <-.
  assert (Q6 : nt_queues n' = upd (upd (nt_queues n) k q1') e2 q2c). { rewrite (count_queues _ _ _ _ H). unfold put_queue. cbn [set_nt_queues nt_queues]. rewrite Q5, upd_upd. reflexivity. }
  apply next_free in N1 as [N1 _]. assert (A2k := k_add _ _ _ A2). apply next_free in N2 as [N2 P2].
  assert (Z2 : ~ spent q2c). { apply (alive_get n' e2); [exact AL|]. rewrite Q6. apply get_upd_eq. rewrite upd_length. exact K2. }
  assert (Z1 : ~ spent q1').
  { destruct (Nat.eq_dec e2 k) as [->|NE].
    - rewrite get_upd_eq in G2 by exact K1. injection G2 as <-. intro F. apply Z2, P2, stop_spent, (kept_spent _ _ A2k F).
    - apply (alive_get n' k); [exact AL|]. rewrite Q6, get_upd_neq by auto. apply get_upd_eq. exact K1. }
  destruct N1 as [N1|F]; [|contradiction]. destruct N2 as [N2|F]; [|contradiction].
  rewrite (at_Ok _ _ _ E1). cbn [bind]. rewrite N1. cbn [bind]. cbv zeta. rewrite put_free. fold n1. rewrite (at_Ok _ _ _ E2). cbn [bind]. rewrite add_free, A2. cbn [bind rmap].
  rewrite put_free. fold n2. rewrite (at_Ok _ _ _ EB). cbn [bind]. change (q_total (L q1b)) with (q_total q1b). rewrite (count_Ok _ _ _ _ E3). cbn [bind]. change (q_total (L q2')) with (q_total q2'). rewrite (count_Ok _ _ _ _ E4). cbn [bind].
  rewrite stop_free, put_free. fold n5. rewrite (at_Ok _ _ _ E2b). cbn [bind]. rewrite N2. cbn [bind]. rewrite put_free. apply count_Ok. exact H.
Qed.
Lemma departs_alive k t n n' : net_departure k t n = Ok n' -> alive n' -> net_departure k t (N n) = Ok (N n').
Proof.
  unfold net_departure. intros H AL. apply bind_Ok in H as (q1 & E1 & H). cbv zeta in H. apply bind_Ok in H as (x & X & H). apply bind_Ok in H as ([e2 n1] & D & H).
  apply bind_Ok in H as (q2 & E2 & H). apply bind_Ok in H as (n2 & MV & H). assert (RQ := reschedule_queues _ _ _ _ _ H).
  assert (U1 : alive n2). { unfold alive. rewrite <- RQ. exact AL. }
  rewrite (at_Ok _ _ _ E1). cbn [bind]. cbv zeta. change (first_departure (L q1)) with (first_departure q1). rewrite X. cbn [bind].
  change (c_tgt (q_cfg (L q1))) with (c_tgt (q_cfg q1)). change (c_idx (q_cfg (L q1))) with (c_idx (q_cfg q1)). rewrite desired_free, D. cbn [bind rmap df fst snd]. rewrite (at_Ok _ _ _ E2). cbn [bind].
  change (at_capacity (L q2)) with (at_capacity q2).
  assert (MV' : (if at_capacity q2 && negb (Nat.eqb e2 (c_idx (q_cfg q1))) then block_agent k e2 (N n1) else move_agent k (c_idx (q_cfg q1)) e2 t (N n1)) = Ok (N n2)).
  { destruct (at_capacity q2 && negb (Nat.eqb e2 (c_idx (q_cfg q1)))); [rewrite block_free, MV; reflexivity|apply move_alive; assumption]. }
  rewrite MV'. cbn [bind]. change (q_time (L q2)) with (q_time q2). rewrite reschedule_free, H. reflexivity.
Qed.
Lemma arrives_alive k n n' : net_arrival k n = Ok n' -> alive n' -> net_arrival k (N n) = Ok (N n').
Proof.
  unfold net_arrival. intros H AL. apply bind_Ok in H as (q1 & E1 & H). cbv zeta in H. apply bind_Ok in H as ([r q2] & N1 & H). apply bind_Ok in H as (n2 & C & H).
  assert (G1 := proj1 (at_get _ _ _) E1). assert (Q2 := count_queues _ _ _ _ C). assert (Q3 : nt_queues n' = nt_queues n2) by (destruct (eltb _ _) in H; [exact (push_queues _ _ _ H)|injection H as <-; reflexivity]).
  assert (Z2 : ~ spent q2). { apply (alive_get n' k); [exact AL|]. rewrite Q3, Q2. unfold put_queue. cbn [set_nt_queues nt_queues]. apply get_upd_eq. eapply get_len. exact G1. }
  apply next_free in N1 as [[N1|F] _]; [|contradiction].
  rewrite (at_Ok _ _ _ E1). cbn [bind]. cbv zeta. rewrite stop_free, N1. cbn [bind]. rewrite put_free. change (c_idx (q_cfg (L q1))) with (c_idx (q_cfg q1)). change (q_total (L q2)) with (q_total q2). rewrite (count_Ok _ _ _ _ C). cbn [bind].
  change (q_time (L q2)) with (q_time q2). change (qkey (L q2)) with (qkey q2). destruct (eltb (q_time q2) Inf); [rewrite push_free, H; reflexivity|]. injection H as <-. reflexivity.
Qed.
Lemma event_alive n n' : simulate_event n = Ok n' -> alive n' -> simulate_event (N n) = Ok (N n').
Proof.
  unfold simulate_event. change (nt_heap (N n)) with (nt_heap n). intros H UH. destruct (pq_size (nt_heap n) =? 0)%nat; [injection H as <-; reflexivity|].
  apply bind_Ok in H as ([[[t k]|] h] & P & H); [|discriminate]. rewrite P. cbn [bind]. cbv zeta in *. change (set_nt_heap h (N n)) with (N (set_nt_heap h n)). set (n1 := set_nt_heap h n) in *.
  apply bind_Ok in H as (q1 & E1 & H). rewrite (at_Ok _ _ _ E1). cbn [bind]. change (next_event_description (L q1)) with (next_event_description q1). apply bind_Ok in H as (d & Dd & H). rewrite Dd. cbn [bind].
  change (set_nt_events (nt_events (N n1) + 1) (set_nt_t t (N n1))) with (N (set_nt_events (nt_events n1 + 1) (set_nt_t t n1))).
  set (n2 := set_nt_events (nt_events n1 + 1) (set_nt_t t n1)) in *.
  destruct (d =? 2); [apply departs_alive; assumption|]. destruct (d =? 1); [apply arrives_alive; assumption|]. injection H as <-. reflexivity.
Qed.

(** ** Calls *)

Lemma finite_free qs : finite_keys (map L qs) = finite_keys qs.
Proof.
  unfold finite_keys. induction qs as [|q qs IH]; [reflexivity|]. cbn [map filter]. change (q_time (L q)) with (q_time q). destruct (eltb (q_time q) Inf); cbn [map]; rewrite IH; reflexivity.
Qed.
Lemma not_null_free l n : not_null l (N n) = not_null l n.
Proof. induction l as [|e l IH]; [reflexivity|]. cbn [not_null]. rewrite at_free, bind_rmap, IH. apply bind_ext. intros q _. reflexivity. Qed.
Lemma activate_other l : forall n n' k, activate l n = Ok n' -> ~ In k l -> get (nt_queues n') k = get (nt_queues n) k.
Proof.
  induction l as [|e l IH]; intros n n' k H NI; cbn [activate] in H; [injection H as <-; reflexivity|]. apply bind_Ok in H as (q & E & H). apply bind_Ok in H as (q' & A & H). apply bind_Ok in H as (n1 & C & H).
  rewrite (IH _ _ k H) by (intro I; apply NI; right; exact I). rewrite (count_queues _ _ _ _ C). unfold put_queue. cbn [set_nt_queues nt_queues]. apply get_upd_neq. intro X. apply NI. left. congruence.
Qed.
Lemma activate_alive l : forall n n', NoDup l -> activate l n = Ok n' -> alive n' -> activate l (N n) = Ok (N n').
Proof.
  induction l as [|e l IH]; intros n n' ND H AL; cbn [activate] in *; [injection H as <-; reflexivity|]. inversion ND as [|? ? NI ND']; subst.
  apply bind_Ok in H as (q & E & H). apply bind_Ok in H as (q' & A & H). apply bind_Ok in H as (n1 & C & H).
  assert (G : get (nt_queues n') e = Some q').
  { rewrite (activate_other _ _ _ _ H NI), (count_queues _ _ _ _ C). unfold put_queue. cbn [set_nt_queues nt_queues]. apply get_upd_eq. apply at_get in E. eapply get_len. exact E. }
  apply active_free in A as [A|F]; [|destruct (alive_get _ _ _ AL G F)].
  rewrite (at_Ok _ _ _ E). cbn [bind]. rewrite A. cbn [bind]. rewrite put_free. change (q_total (L q')) with (q_total q'). rewrite (count_Ok _ _ _ _ C). cbn [bind]. apply IH; assumption.
Qed.
Lemma not_null_incl l n : forall l', not_null l n = Ok l' -> NoDup l -> NoDup l' /\ incl l' l.
Proof.
  induction l as [|e l IH]; intros l' H ND; cbn [not_null] in H; [injection H as <-; split; [constructor|apply incl_refl]|]. inversion ND as [|? ? NI ND']; subst.
  apply bind_Ok in H as (q & E & H). apply bind_Ok in H as (r & R & H). destruct (IH r R ND') as [A B]. destruct (_ =? _); injection H as <-; split.
  all: try assumption. all: try (apply incl_tl; assumption).
  - constructor; [|exact A]. intro I. apply NI, B, I.
  - intros y [->|I]; [left; reflexivity|right; apply B, I].
Qed.
Lemma firstn_nodup {A} (l : list A) : forall m, NoDup l -> NoDup (firstn m l).
Proof.
  induction l as [|x l IH]; intros m ND; [rewrite firstn_nil; constructor|]. destruct m as [|m]; [constructor|]. inversion ND as [|? ? NI ND']; subst. cbn [firstn]. constructor; [|apply IH; exact ND'].
  intro I. apply NI. rewrite <- (firstn_skipn m l). apply in_or_app. left. exact I.
Qed.
Lemma on_queues_free f : (forall q, f (L q) = L (f q)) -> forall l n, on_queues f l (N n) = rmap N (on_queues f l n).
Proof.
  intros Hf. induction l as [|e l IH]; intros n; cbn [on_queues]; [reflexivity|].
  rewrite at_free, bind_rmap, rmap_bind. apply bind_ext. intros q Eq. rewrite Hf, put_free. apply IH.
Qed.
Lemma init_alive sel n n' : NoDup sel -> initialize_queues sel n = Ok n' -> alive n' -> initialize_queues sel (N n) = Ok (N n').
Proof.
  unfold initialize_queues. intros ND H AL. rewrite not_null_free. apply bind_Ok in H as (qs & NN & H). rewrite NN. cbn [bind]. destruct (length qs =? 0)%nat; [discriminate|].
  change (nt_max (N n)) with (nt_max n). apply bind_Ok in H as (n1 & AC & H). apply bind_Ok in H as (h & PQ & H). injection H as <-.
  rewrite (activate_alive _ n n1); [| |exact AC|exact AL].
  - cbn [bind]. change (nt_queues (N n1)) with (map L (nt_queues n1)). rewrite map_length, finite_free. change (nt_heap (N n)) with (nt_heap n). rewrite PQ. reflexivity.
  - apply not_null_incl in NN as [A _]; [|exact ND]. unfold truncate. destruct (nt_max n); [|exact A]. destruct (_ <? _); [|exact A].
    unfold slice_to. destruct (0 <=? z); apply firstn_nodup; exact A.
Qed.
Lemma call_alive c n n' : once c -> run_call c n = Ok n' -> alive n' -> run_call c (N n) = Ok (N n').
Proof.
  intros O E AL. destruct c as [sel| | |o]; cbn [run_call once] in *.
  - apply init_alive; assumption.
  - injection E as <-. f_equal. unfold net_clear, free_net. cbn [set_nt_queues nt_queues nt_out nt_probs nt_nagents nt_t nt_events nt_max nt_init nt_heap nt_bas nt_u nt_iu nt_eps nt_ie].
    rewrite map_length. unfold set_nt_queues. cbn [nt_queues nt_out nt_probs nt_nagents nt_t nt_events nt_max nt_init nt_heap nt_bas nt_u nt_iu nt_eps nt_ie].
    f_equal. rewrite !map_map. apply map_ext. intro q. apply clear_free.
  - unfold net_copy in *. change (nt_init (N n)) with (nt_init n). destruct (nt_init n); [|injection E as <-; reflexivity].
    change (nt_queues (N n)) with (map L (nt_queues n)). rewrite map_length, finite_free. change (nt_heap (N n)) with (nt_heap n). apply bind_Ok in E as (h & P & E). rewrite P. cbn [bind]. injection E as <-. reflexivity.
  - destruct o as [|c l'|l'|p|m|c]; cbn [run_nop] in *; try (injection E as <-; reflexivity).
    + apply event_alive; assumption.
    + unfold net_collect in *. rewrite on_queues_free, E; reflexivity.
    + unfold net_clear_data in *. rewrite on_queues_free, E; reflexivity.
Qed.
Lemma calls_alive l : forall n n', calls l n = Ok n' -> lively l n -> calls l (N n) = Ok (N n').
Proof.
  induction l as [|c l IH]; intros n n' H K; cbn [calls] in *; [injection H as <-; reflexivity|]. apply bind_Ok in H as (n1 & E & H). destruct K as (O & K). destruct (K n1 E) as [A B].
  rewrite (call_alive _ _ _ O E A). cbn [bind]. apply IH; assumption.
Qed.
