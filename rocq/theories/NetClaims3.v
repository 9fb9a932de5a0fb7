(** * NetClaims3: network.time, copy, initialize, clear *)
From Coq Require Import List ZArith QArith Lia Bool Permutation Arith.
From Verif Require Import Base Heap HeapProofs PQueue PQueueProofs SpecPQ PQHist Queue QueueEffects QueueEvents QueueSteps QueueInv SpecQueue QueueFlow QueueHist QueueClaims1 Network NetQueue NetSteps NetInv SpecNet NetReach NetFlow NetClaims1 NetClaims2.
Import ListNotations.
Open Scope Z_scope.

(** ** network.time *)

Lemma root_min n h e : pq_wf n h -> get (pq_entries h) 0 = Some e -> forall x, In x (pq_entries h) -> eLe (fst e) (fst x).
Proof.
  intros W G x X. assert (SP : (0 < pq_size h)%nat) by (rewrite (pw_size _ _ W); eapply get_lt; exact G).
  assert (E : e = nth 0 (pq_store h) d0).
  { rewrite <- (nth_firstn (pq_store h) (pq_size h)) by exact SP. symmetry. apply nth_error_nth. exact G. }
  apply In_nth with (d := d0) in X as (i & Hi & <-). rewrite <- (pw_size _ _ W) in Hi.
  unfold pq_entries. rewrite nth_firstn by exact Hi. rewrite E.
  apply (hp_min fst d0 (pq_store h) (pq_size h) i (wf_heap _ _ W) Hi).
Qed.

Lemma time_total n : ninv n -> exists t, net_time n = Ok t.
Proof.
  intro I. unfold net_time. destruct (0 <? pq_size (nt_heap n))%nat eqn:S; [|eauto]. apply Nat.ltb_lt in S.
  destruct (ni_heap _ I) as [[X _]|[W HB]]; [lia|].
  destruct (get_ex (pq_entries (nt_heap n)) 0) as ([t k] & G); [rewrite <- (pw_size _ _ W); exact S|]. rewrite G. cbn [of_option bind snd].
  assert (L := wf_edges _ _ W t k ltac:(eapply nth_error_In; exact G)).
  destruct (get_ex _ _ L) as (q & GQ). unfold queue_at. rewrite GQ. cbn. eauto.
Qed.

Lemma time_exact n t : ninv n -> net_time n = Ok t ->
  eLe (nt_t n) t /\
  (next_time (nt_queues n) t \/
   exists k q, get (pq_entries (nt_heap n)) 0 = Some (nt_t n, k) /\ get (nt_queues n) k = Some q /\ q_time q = t /\ nt_t n <> t).
Proof.
  intros I H. unfold net_time in H.
  assert (LB : forall q, In q (nt_queues n) -> eLe (nt_t n) (q_time q)).
  { intros q X. apply in_get in X as (k & G). apply (qok_time _ k). apply (ni_q _ I _ _ G). }
  destruct (0 <? pq_size (nt_heap n))%nat eqn:S.
  - apply Nat.ltb_lt in S. destruct (ni_heap _ I) as [[X _]|[W HB]]; [lia|].
    mbind H. destruct x as [t0 k]. apply of_option_Ok in E. mbind H. rename x into q. apply queue_at_Ok in E0. injection H as <-. cbn [snd] in *.
    assert (INQ : In q (nt_queues n)) by (eapply nth_error_In; exact E0). split; [apply LB; exact INQ|].
    assert (INE : In (t0, k) (pq_entries (nt_heap n))) by (eapply nth_error_In; exact E).
    assert (MIN := root_min _ _ _ W E). cbn [fst] in MIN.
    assert (LOW : forall q0, In q0 (nt_queues n) -> eLe t0 (q_time q0)).
    { intros q0 X. apply in_get in X as (j & G). destruct (q_time q0) eqn:T; [|apply eLe_Inf]. rewrite <- T.
      destruct (ha_a _ _ _ _ _ HB j q0 Logic.I G ltac:(congruence)) as [X _]. apply (MIN _ X). }
    destruct (ext_eq_dec t0 (q_time q)) as [EQ|NE].
    + left. split; [rewrite <- EQ; exact LOW|]. right. exists q. auto.
    + destruct (ha_b _ _ _ _ _ HB _ _ INE) as (_ & LT & [TE|[TE|(q0 & G0 & PE)]]).
      * right. exists k, q. rewrite TE in *. auto 6.
      * left. assert (X := LOW q INQ). rewrite TE in X. apply eLe_Inf_l in X. split; [|auto]. rewrite X, <- TE. exact LOW.
      * exfalso. assert (q0 = q) by congruence. subst q0. apply NE. apply eLe_antisym; [apply LOW; exact INQ|].
        apply pend_min; [apply (ni_q _ I _ _ E0)|exact PE].
  - apply Nat.ltb_ge in S. injection H as <-. split; [apply eLe_Inf|]. left. destruct (ni_heap _ I) as [[_ X]|[W HB]].
    + split; [|auto]. intros q IN. apply in_get in IN as (k & G). rewrite (X _ _ G). apply eLe_refl.
    + split; [|auto]. intros q IN. apply in_get in IN as (k & G). destruct (q_time q) eqn:T; [|apply eLe_refl]. exfalso.
      destruct (ha_a _ _ _ _ _ HB k q Logic.I G ltac:(congruence)) as [X _].
      assert (Y := pw_size _ _ W). destruct (pq_entries (nt_heap n)); [destruct X|cbn in Y; lia].
Qed.

(** ** copy *)

Lemma copy_total n : ninv n -> exists n', net_copy n = Ok n'.
Proof.
  intro I. unfold net_copy. destruct (nt_init n); [|eauto].
  assert (IX : indexed (nt_queues n)) by (intros k q G; apply (ni_q _ I _ _ G)).
  set (keys := finite_keys (nt_queues n)).
  assert (LT : forall t k, In (t, k) keys -> (k < length (nt_queues n))%nat).
  { intros t k H. apply finite_keys_in in H as (q & G & _); [|exact IX]. eapply get_lt; exact G. }
  destruct keys as [|e keys'] eqn:EK; [rewrite pq_new_empty; cbn; eauto|]. rewrite <- EK in *.
  destruct (pq_new_spec (pq_junk (nt_heap n)) keys (length (nt_queues n))) as (h2 & E & _); [congruence|exact LT|]. rewrite E. cbn. eauto.
Qed.

Lemma heap_exact n h : (forall k q, get (nt_queues n) k = Some q -> qok (nt_t n) k q) ->
  pq_new (pq_junk (nt_heap n)) (finite_keys (nt_queues n)) (length (nt_queues n)) = Ok h -> scheduled_exactly (set_nt_heap h n).
Proof.
  intros KS H. destruct (heap_new _ _ KS H) as (_ & P & _). assert (IX : indexed (nt_queues n)) by (intros k q G; apply (KS k q G)).
  split; nc.
  - apply (Permutation_NoDup (Permutation_sym P)). apply (NoDup_map_inv snd). apply finite_keys_nodup; exact IX.
  - intros t k. rewrite <- (finite_keys_in _ t k IX). split; apply Permutation_in; [exact P|apply Permutation_sym; exact P].
Qed.

Lemma copy_exact n n' : ninv n -> net_copy n = Ok n' -> n' = set_nt_heap (nt_heap n') n /\ (nt_init n = true -> scheduled_exactly n').
Proof.
  intros I H. unfold net_copy in H. destruct (nt_init n).
  - mbind H. injection H as <-. split; [reflexivity|]. intros _. apply heap_exact; [apply I|exact E].
  - injection H as <-. split; [reflexivity|discriminate].
Qed.

(** ** initialize *)

Lemma not_null_filter sel n l : not_null sel n = Ok l ->
  l = filter (fun e => match get (nt_queues n) e with Some q => negb (c_type (q_cfg q) =? 0) | None => true end) sel.
Proof.
  revert l. induction sel as [|e sel IH]; intros l H; cbn [not_null] in H; [injection H as <-; reflexivity|].
  mbind H. mbind H. injection H as <-. apply queue_at_Ok in E. cbn [filter]. rewrite E, <- (IH _ E0). destruct (c_type (q_cfg x) =? 0); reflexivity.
Qed.

Lemma not_null_in sel n : forall l, not_null sel n = Ok l -> forall e, In e sel -> exists q, get (nt_queues n) e = Some q.
Proof.
  induction sel as [|s sel IH]; intros l H e X; [destruct X|]. cbn [not_null] in H. mbind H. mbind H. apply queue_at_Ok in E.
  destruct X as [<-|X]; [eauto|]. eapply IH; eauto.
Qed.

Lemma truncate_firstn {A} (l : list A) m : eLe (Fin 0) m -> truncate l m = match m with Inf => l | Fin m => firstn (Z.to_nat m) l end.
Proof.
  destruct m as [m|]; [|reflexivity]. cbn [eLe]. intro P. unfold truncate, slice_to. destruct (m <? Z.of_nat (length l)) eqn:C.
  - destruct (0 <=? m) eqn:D; [reflexivity|apply Z.leb_gt in D; lia].
  - apply Z.ltb_ge in C. symmetry. apply firstn_all2. lia.
Qed.

Lemma activate_each l : forall n n', NoDup l -> activate l n = Ok n' ->
  length (nt_queues n') = length (nt_queues n) /\
  forall k q, get (nt_queues n) k = Some q ->
    (~ In k l -> get (nt_queues n') k = Some q) /\
    (In k l -> exists q', set_active q = Ok q' /\ get (nt_queues n') k = Some q').
Proof.
  induction l as [|e l IH]; intros n n' ND H; cbn [activate] in H; [injection H as <-; split; [reflexivity|]; intros k q G; split; [auto|intros []]|].
  inversion ND as [|? ? NI ND']; subst. mbind H. rename x into q0. apply queue_at_Ok in E. mbind H. rename x into q1. mbind H.
  apply set_count_Ok in E1 as [LC ->]. assert (L := get_lt _ _ _ E). apply IH in H as [LN HH]; [|exact ND']. nch HH. nch LN. rewrite upd_length in LN.
  split; [exact LN|]. intros k q G. destruct (Nat.eq_dec k e) as [->|NE].
  - assert (q0 = q) by congruence. subst q0. split; [intro X; destruct X; left; reflexivity|]. intros _. exists q1. split; [exact E0|].
    destruct (HH e q1) as [A _]; [apply get_upd_eq; exact L|]. apply A; exact NI.
  - destruct (HH k q) as [A B]; [rewrite get_upd_neq by exact NE; exact G|]. split.
    + intro X. apply A. intro Y. apply X. right; exact Y.
    + intros [X|X]; [congruence|]. apply B; exact X.
Qed.

Lemma firstn_nodup {A} (l : list A) m : NoDup l -> NoDup (firstn m l).
Proof. intro N. rewrite <- (firstn_skipn m l) in N. apply nodup_l in N. exact N. Qed.

Lemma initialize_exact sel n n' : ninv n -> blank n -> NoDup sel -> eLe (Fin 0) (nt_max n) -> initialize_queues sel n = Ok n' ->
  (forall k q, get (nt_queues n) k = Some q ->
    (~ In k (starts sel n) -> get (nt_queues n') k = Some q) /\
    (In k (starts sel n) -> exists q', set_active q = Ok q' /\ get (nt_queues n') k = Some q')) /\
  length (nt_queues n') = length (nt_queues n) /\ scheduled_exactly n' /\ nt_init n' = true /\ nt_t n' = Fin 0 /\
  (exists k q, In k sel /\ get (nt_queues n) k = Some q /\ c_type (q_cfg q) <> 0).
Proof.
  intros I B ND MX H. unfold initialize_queues in H. mbind H. rename x into l. destruct (length l =? 0)%nat eqn:LZ; [discriminate|].
  mbind H. rename x into n1. mbind H. injection H as <-. rewrite truncate_firstn in E0 by exact MX.
  assert (EL := not_null_filter _ _ _ E).
  assert (ST : starts sel n = match nt_max n with Inf => l | Fin m => firstn (Z.to_nat m) l end) by (unfold starts; rewrite <- EL; reflexivity).
  assert (NDL : NoDup (starts sel n)).
  { rewrite ST. assert (NoDup l) by (rewrite EL; apply NoDup_filter; exact ND). destruct (nt_max n); [apply firstn_nodup|]; assumption. }
  rewrite <- ST in E0. destruct (activate_each _ _ _ NDL E0) as [LN HH]. nc. split; [exact HH|]. split; [exact LN|].
  destruct B as [BT BQ].
  assert (CA : calm n1).
  { eapply activate_ok; [|exact E0]. split; [apply I|exact BT| |apply I|apply I]. intros k q G. split; [|apply (BQ k q G)]. rewrite <- BT. apply (ni_q _ I _ _ G). }
  destruct CA as [D1 D2 D3 D4 D5].
  split; [|split; [reflexivity|split; [exact D2|]]].
  - destruct (activate_same _ _ _ E0) as (_ & _ & _ & _ & _ & _ & HJ & _). rewrite <- HJ in E1.
    assert (SE : scheduled_exactly (set_nt_heap x n1)) by (apply heap_exact; [intros k q G; rewrite D2; apply D3; exact G|exact E1]).
    exact SE.
  - destruct l as [|e l]; [discriminate|]. assert (X : In e (e :: l)) by (left; reflexivity). rewrite EL in X. apply filter_In in X as [X Y].
    assert (G := not_null_in _ _ _ E e X).
    destruct G as (q & G). rewrite G in Y. exists e, q. split; [exact X|]. split; [exact G|]. apply negb_true_iff, Z.eqb_neq in Y. exact Y.
Qed.

Lemma initialize_raises sel n : (forall k, In k sel -> exists q, get (nt_queues n) k = Some q /\ c_type (q_cfg q) = 0) ->
  initialize_queues sel n = Err QueueingToolError.
Proof.
  intro H. assert (E : not_null sel n = Ok []).
  { induction sel as [|e sel IH]; [reflexivity|]. cbn [not_null]. destruct (H e (or_introl eq_refl)) as (q & G & T). unfold queue_at. rewrite G. cbn [of_option bind].
    rewrite IH by (intros k X; apply H; right; exact X). cbn [bind]. rewrite T. reflexivity. }
  unfold initialize_queues. rewrite E. reflexivity.
Qed.
