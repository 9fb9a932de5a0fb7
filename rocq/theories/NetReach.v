(** * NetReach: the invariant holds in every reachable network *)
From Coq Require Import List ZArith QArith Lia Bool Permutation Arith.
From Verif Require Import Base Heap HeapProofs PQueue PQueueProofs SpecPQ PQHist Queue QueueEffects QueueEvents QueueSteps QueueInv SpecQueue QueueFlow QueueHist QueueClaims1 Network NetQueue NetSteps NetInv SpecNet.
Import ListNotations.
Open Scope Z_scope.

(** ** The scheduler built from the queues *)

Definition sched_ok (n : net) : Prop :=
  (pq_size (nt_heap n) = 0%nat /\ forall k q, get (nt_queues n) k = Some q -> q_time q = Inf) \/
  (pq_wf (length (nt_queues n)) (nt_heap n) /\
   hab (nt_t n) (nt_queues n) (pq_entries (nt_heap n)) (qmap (nt_heap n)) all).

Definition indexed (qs : list queue) : Prop := forall k q, get qs k = Some q -> c_idx (q_cfg q) = k.

Lemma finite_keys_in qs t k : indexed qs ->
  In (t, k) (finite_keys qs) <-> exists q, get qs k = Some q /\ q_time q = t /\ t <> Inf.
Proof.
  intro IX. unfold finite_keys. rewrite in_map_iff. split.
  - intros (q & E & H). apply filter_In in H as [IN FI]. apply In_nth_error in IN as (j & G). unfold qkey in E. inversion E; subst.
    exists q. rewrite (IX j q G). split; [exact G|]. split; [reflexivity|]. intro X. rewrite X in FI. discriminate.
  - intros (q & G & <- & NI). exists q. unfold qkey. rewrite (IX k q G). split; [reflexivity|].
    apply filter_In. split; [eapply nth_error_In; exact G|]. destruct (q_time q); [reflexivity|congruence].
Qed.

Lemma list_ext {A} (l l' : list A) : (forall i, nth_error l i = nth_error l' i) -> l = l'.
Proof.
  revert l'. induction l as [|x l IH]; intros [|y l'] H; [reflexivity|discriminate (H 0%nat)|discriminate (H 0%nat)|].
  assert (E := H 0%nat). cbn in E. injection E as ->. f_equal. apply IH. intro i. exact (H (S i)).
Qed.

Lemma indexed_map qs : indexed qs -> map (fun q => c_idx (q_cfg q)) qs = seq 0 (length qs).
Proof.
  intro IX. apply list_ext. intro i. rewrite nth_error_map.
  destruct (nth_error qs i) eqn:G; cbn [option_map].
  - rewrite (IX i q G). assert (L : (i < length qs)%nat) by (apply nth_error_Some; congruence).
    rewrite (nth_error_nth' (seq 0 (length qs)) 0%nat) by (rewrite seq_length; exact L). rewrite seq_nth by exact L. reflexivity.
  - symmetry. apply nth_error_None. rewrite seq_length. apply nth_error_None. exact G.
Qed.

Lemma NoDup_filter_map {A B} (f : A -> B) (p : A -> bool) l : NoDup (map f l) -> NoDup (map f (filter p l)).
Proof.
  induction l as [|x l IH]; cbn; intro H; [constructor|]. inversion H; subst. destruct (p x); cbn; [|auto].
  constructor; [|auto]. intro X. apply in_map_iff in X as (y & E & Y). apply filter_In in Y as [Y _]. apply H2. rewrite <- E. apply in_map; exact Y.
Qed.

Lemma finite_keys_nodup qs : indexed qs -> NoDup (map snd (finite_keys qs)).
Proof.
  intro IX. unfold finite_keys. rewrite map_map. cbn [snd qkey].
  change (fun x : queue => c_idx (q_cfg x)) with (fun q => c_idx (q_cfg q)).
  apply (NoDup_filter_map (fun q => c_idx (q_cfg q))). rewrite indexed_map by exact IX. apply seq_NoDup.
Qed.

Lemma assigned_in keys k t : NoDup (map snd keys) -> In (t, k) keys -> assigned keys k = t.
Proof.
  intros ND IN. unfold assigned.
  assert (G : forall (keys : list (ext * nat)) acc, NoDup (map snd keys) -> In (t, k) keys ->
     fold_left (fun c e => if (snd e =? k)%nat then fst e else c) keys acc = t).
  { clear. induction keys as [|[t0 k0] keys IH]; intros acc ND IN; [destruct IN|]. cbn in *. inversion ND; subst.
    destruct IN as [E|IN].
    - inversion E; subst. rewrite Nat.eqb_refl. clear IH ND E H2. revert t H1. induction keys as [|[t1 k1] keys IH]; intros t H1; [reflexivity|]. cbn in *.
      destruct (k1 =? k)%nat eqn:X; [apply Nat.eqb_eq in X; subst; tauto|]. apply IH. tauto.
    - destruct (k0 =? k)%nat; apply IH; assumption. }
  apply G; assumption.
Qed.

Lemma heap_new n h : (forall k q, get (nt_queues n) k = Some q -> qok (nt_t n) k q) ->
  pq_new (pq_junk (nt_heap n)) (finite_keys (nt_queues n)) (length (nt_queues n)) = Ok h ->
  sched_ok (set_nt_heap h n) /\ Permutation (pq_entries h) (finite_keys (nt_queues n)) /\
  (forall t k, In (t, k) (pq_entries h) -> qmap h k = t).
Proof.
  intros KS PN. assert (IX : indexed (nt_queues n)) by (intros k q G; apply (KS k q G)).
  set (keys := finite_keys (nt_queues n)) in *.
  assert (LT : forall t k, In (t, k) keys -> (k < length (nt_queues n))%nat).
  { intros t k H. apply finite_keys_in in H as (q & G & _); [|exact IX]. eapply get_lt; exact G. }
  destruct keys as [|e keys'] eqn:EK.
  - rewrite pq_new_empty in PN. injection PN as <-. split; [|split; [reflexivity|intros t k []]]. left. nc. split; [reflexivity|].
    intros k q G. destruct (q_time q) eqn:T; [|reflexivity]. exfalso.
    assert (X : In (q_time q, k) keys) by (apply finite_keys_in; [exact IX|]; exists q; split; [exact G|]; split; [reflexivity|congruence]).
    rewrite EK in X. destruct X.
  - rewrite <- EK in *. destruct (pq_new_spec (pq_junk (nt_heap n)) keys (length (nt_queues n))) as (h2 & E & W & PM & _); [congruence|exact LT|].
    rewrite PN in E. injection E as <-.
    assert (QM : forall t k, In (t, k) (pq_entries h) -> qmap h k = t).
    { intros t k H. apply (Permutation_in _ PM) in H. rewrite (pq_new_qmap _ _ _ _ k LT (LT _ _ H) PN).
      apply assigned_in; [apply finite_keys_nodup; exact IX|exact H]. }
    split; [|split; [exact PM|exact QM]]. right. nc. split; [exact W|]. split.
    + intros k q _ G NI. assert (X : In (q_time q, k) (pq_entries h)).
      { apply (Permutation_in _ (Permutation_sym PM)). apply finite_keys_in; [exact IX|]. exists q; auto. }
      split; [exact X|apply QM; exact X].
    + intros t k H. apply (Permutation_in _ PM) in H. split; [eapply LT; exact H|].
      apply finite_keys_in in H as (q & G & <- & NI); [|exact IX]. assert (K := KS k q G).
      split; [apply (qok_time _ _ _ K)|]. right; right. exists q. split; [exact G|]. apply pend_in; [apply K|exact NI].
Qed.

(** ** Blank networks *)

Definition blank (n : net) : Prop :=
  nt_t n = Fin 0 /\ (forall k q, get (nt_queues n) k = Some q -> q_now q = Fin 0 /\ q_time q = Inf /\ q_total q = 0 /\
    agents_of (q_arr q) = [] /\ agents_of (q_dep q) = [] /\ q_line q = []).

Lemma qok_init k q : q_arr q = [Sentinel] -> q_dep q = [Sentinel] -> q_line q = [] -> q_nsys q = 0 -> q_total q = 0 ->
  q_time q = Inf -> q_now q = Fin 0 -> c_idx (q_cfg q) = k -> forward (q_cfg q) -> qok (Fin 0) k q.
Proof.
  intros A D L N T TI NO IX FW. split; auto.
  - split; rewrite ?A, ?D, ?L, ?N, ?T, ?TI; auto using wfh_init.
  - rewrite NO. apply eLe_refl.
  - unfold pend. rewrite A, D. intros x [].
  - intros _. rewrite A, D, L, NO. auto.
Qed.

Lemma well_made_ok n0 : well_made n0 -> ninv n0 /\ blank n0 /\ nt_init n0 = false.
Proof.
  intros (qs & out & max & bas & junk & u & eps & -> & QS & EP).
  assert (KS : forall k q, get qs k = Some q -> qok (Fin 0) k q /\ q_now q = Fin 0 /\ q_time q = Inf /\ q_total q = 0 /\
    agents_of (q_arr q) = [] /\ agents_of (q_dep q) = [] /\ q_line q = []).
  { intros k q G. destruct (QS k q G) as (c & s & col & nE & -> & IX & FW). split; [|auto 10]. apply qok_init; auto. }
  unfold new_net. split; [|split; [|reflexivity]].
  - split; nc.
    + rewrite repeat_length. reflexivity.
    + intros k q G. apply KS; exact G.
    + left. split; [reflexivity|]. intros k q G. destruct (KS k q G) as (_ & _ & X & _); exact X.
    + intros k q G. assert (L := get_lt _ _ _ G). destruct (KS k q G) as (_ & _ & _ & -> & _).
      unfold get. rewrite (nth_error_nth' _ 0) by (rewrite repeat_length; exact L). f_equal. apply nth_repeat.
    + exact EP.
  - split; [reflexivity|]. nc. intros k q G. destruct (KS k q G) as (_ & X). tauto.
Qed.

Lemma clear_ok n : ninv n -> ninv (net_clear n) /\ blank (net_clear n).
Proof.
  intro I. assert (KS : forall k q, get (map clear (nt_queues n)) k = Some q -> qok (Fin 0) k q /\ q_now q = Fin 0 /\ q_time q = Inf /\ q_total q = 0 /\
    agents_of (q_arr q) = [] /\ agents_of (q_dep q) = [] /\ q_line q = []).
  { intros k q G. unfold get in G. rewrite nth_error_map in G. destruct (nth_error (nt_queues n) k) as [q0|] eqn:G0; [|discriminate].
    cbn in G. injection G as <-. assert (K := ni_q _ I _ _ G0). unfold clear. destruct (c_class (q_cfg q0)) eqn:C.
    3:{ destruct (null_idle _ _ _ K C) as [T P]. destruct (qk_null _ _ _ K C) as (A & D & L & NO).
        assert (TO : q_total q0 = 0).
        { assert (Q := qk_inv _ _ _ K). rewrite (qi_total _ Q), (qi_sys _ Q). unfold na. rewrite A, D, L. reflexivity. }
        split; [|auto 10]. destruct K as [K1 K2 K3 K4 K5 K6]. split; auto; [rewrite NO; apply eLe_refl|rewrite P; intros x []]. }
    all: split; [apply qok_init; try reflexivity; apply K|cbn; auto 10]. }
  unfold net_clear. split.
  - split; nc.
    + rewrite repeat_length, map_length. reflexivity.
    + intros k q G. apply KS; exact G.
    + left. split; [reflexivity|]. intros k q G. destruct (KS k q G) as (_ & _ & X & _); exact X.
    + intros k q G. assert (L := get_lt _ _ _ G). rewrite map_length in L. destruct (KS k q G) as (_ & _ & _ & -> & _).
      unfold get. rewrite (nth_error_nth' _ 0) by (rewrite repeat_length; exact L). f_equal. apply nth_repeat.
    + apply I.
  - split; [reflexivity|]. nc. intros k q G. destruct (KS k q G) as (_ & X). tauto.
Qed.

(** ** initialize *)

Lemma active_ok k q q' : qok (Fin 0) k q -> q_now q = Fin 0 -> set_active q = Ok q' ->
  qok (Fin 0) k q' /\ q_now q' = Fin 0.
Proof.
  intros K NO SA. assert (IV := qinv_set_active _ _ (qk_inv _ _ _ K) SA).
  assert (CF : q_cfg q' = q_cfg q).
  { assert (F := op_frame OActive q q' ltac:(discriminate) (qk_inv _ _ _ K) SA). apply F. }
  destruct (active_pend _ _ (qk_fwd _ _ _ K) (qk_inv _ _ _ K) SA) as (new & P & N1 & N2 & _ & _ & NU & D & L).
  destruct K as [K1 K2 K3 K4 K5 K6]. split; [|congruence]. split.
  - exact IV.
  - congruence.
  - rewrite CF; exact K3.
  - rewrite N2; exact K4.
  - intros x X. apply (Permutation_in x P) in X. apply in_app_or in X as [X|X]; [rewrite <- NO; apply N1; exact X|apply K5; exact X].
  - rewrite CF. intro C. destruct (K6 C) as (A1 & A2 & A3 & A4). rewrite D, L, N2. repeat split; auto.
    rewrite (NU C) in P. unfold pend in P. rewrite A1, D, A2 in P. cbn [map app] in P. apply Permutation_sym, Permutation_nil in P.
    rewrite app_nil_r in P. destruct (agents_of (q_arr q')); [reflexivity|discriminate].
Qed.

(** Everything but the scheduler. *)
Record calm (n : net) : Prop := mkCalm {
  ca_len : length (nt_nagents n) = length (nt_queues n);
  ca_t : nt_t n = Fin 0;
  ca_q : forall k q, get (nt_queues n) k = Some q -> qok (Fin 0) k q /\ q_now q = Fin 0;
  ca_count : forall k q, get (nt_queues n) k = Some q -> get (nt_nagents n) k = Some (q_total q);
  ca_eps : forall i, 0 <= nt_eps n i
}.

Lemma activate_ok l : forall n n', calm n -> activate l n = Ok n' -> calm n'.
Proof.
  induction l as [|e l IH]; intros n n' C H; cbn [activate] in H; [injection H as <-; exact C|].
  mbind H. apply queue_at_Ok in E. mbind H. mbind H. apply set_count_Ok in E1 as [LC ->]. nch H. nch LC.
  apply IH in H; [exact H|]. destruct C as [C1 C2 C3 C4 C5]. assert (L := get_lt _ _ _ E).
  destruct (C3 _ _ E) as [K NO]. destruct (active_ok _ _ _ K NO E0) as [K' NO'].
  split; nc.
  - rewrite !upd_length. exact C1.
  - exact C2.
  - intros k q G. apply get_upd in G as [[-> ->]|[NE G]]; [auto|auto|exact L].
  - apply counts_upd; assumption.
  - exact C5.
Qed.

Lemma activate_same l : forall n n', activate l n = Ok n' ->
  length (nt_queues n') = length (nt_queues n) /\ nt_out n' = nt_out n /\ nt_probs n' = nt_probs n /\ nt_t n' = nt_t n /\ nt_events n' = nt_events n /\
  nt_max n' = nt_max n /\ nt_heap n' = nt_heap n /\ nt_bas n' = nt_bas n /\ nt_init n' = nt_init n /\ nt_u n' = nt_u n /\ nt_eps n' = nt_eps n.
Proof.
  induction l as [|e l IH]; intros n n' H; cbn [activate] in H; [injection H as <-; auto 12|].
  mbind H. mbind H. mbind H. apply set_count_Ok in E1 as [LC ->]. apply IH in H. nch H. rewrite upd_length in H. exact H.
Qed.

Lemma initialize_ok sel n n' : ninv n -> blank n -> initialize_queues sel n = Ok n' -> ninv n' /\ nt_init n' = true.
Proof.
  intros I [BT BQ] H. unfold initialize_queues in H. mbind H. destruct (length x =? 0)%nat; [discriminate|].
  mbind H. rename x0 into n1. mbind H. rename x0 into h. injection H as <-. split; [|reflexivity].
  assert (C : calm n).
  { split; [apply I|exact BT| |apply I|apply I]. intros k q G. split; [|apply (BQ k q G)]. rewrite <- BT. apply (ni_q _ I _ _ G). }
  apply activate_ok in E0 as C1; [|exact C]. destruct (activate_same _ _ _ E0) as (_ & _ & _ & _ & _ & _ & HE & _).
  destruct C1 as [D1 D2 D3 D4 D5]. rewrite <- HE in E1.
  destruct (heap_new n1 h) as [HO _]; [rewrite D2; intros k q G; apply D3; exact G|exact E1|].
  split; nc; auto. intros k q G. rewrite D2. apply D3; exact G.
Qed.

(** ** The other calls *)

Lemma copy_ok n n' : ninv n -> net_copy n = Ok n' -> (nt_init n = false -> blank n) -> ninv n' /\ nt_init n' = nt_init n /\ (nt_init n' = false -> blank n').
Proof.
  intros I H B. unfold net_copy in H. destruct (nt_init n) eqn:IN.
  - mbind H. injection H as <-. destruct (heap_new n x (ni_q _ I) E) as [HO _].
    split; [|split; [exact IN|nc; congruence]]. destruct I as [I1 I2 I3 I4 I5]. split; nc; auto.
  - injection H as <-. split; [|split; [exact IN|intro X; apply B; reflexivity]].
    destruct I as [I1 I2 I3 I4 I5]. split; nc; auto. left. split; [reflexivity|]. intros k q G. destruct (B eq_refl) as [_ X]. apply (X k q G).
Qed.

(** Changing only data of a queue. *)
Definition quiet (q q' : queue) : Prop :=
  q_cfg q' = q_cfg q /\ q_arr q' = q_arr q /\ q_dep q' = q_dep q /\ q_line q' = q_line q /\
  q_now q' = q_now q /\ q_time q' = q_time q /\ q_nsys q' = q_nsys q /\ q_total q' = q_total q.

Lemma put_ok k q q' n : quiet q q' -> get (nt_queues n) k = Some q -> ninv n -> ninv (put_queue k q' n) /\ (blank n -> blank (put_queue k q' n)).
Proof.
  intros (E1 & E2 & E3 & E4 & E5 & E6 & E7 & E8) G I. assert (L := get_lt _ _ _ G). split.
  - destruct I as [I1 I2 I3 I4 I5]. split; nc.
    + rewrite upd_length. exact I1.
    + intros j q0 GJ. apply get_upd in GJ as [[-> ->]|[NE GJ]]; [|auto|exact L]. eapply qok_same; eauto.
    + rewrite upd_length. destruct I3 as [[S0 I3]|[W HB]].
      * left. split; [exact S0|]. intros j q0 GJ. apply get_upd in GJ as [[-> ->]|[NE GJ]]; [|eauto|exact L]. rewrite E6. eauto.
      * right. split; [exact W|]. destruct HB as [A B]. split.
        -- intros j q0 _ GJ NI. apply get_upd in GJ as [[-> ->]|[NE GJ]]; [|apply A; auto; exact Logic.I|exact L].
           rewrite E6 in *. apply A; auto. exact Logic.I.
        -- intros t j X. destruct (B t j X) as (LJ & TT & D). rewrite upd_length. split; [exact LJ|]. split; [exact TT|].
           destruct D as [D|[D|(q0 & G0 & D)]]; [auto|auto|]. right; right. destruct (Nat.eq_dec j k) as [->|NE].
           ++ exists q'. split; [apply get_upd_eq; exact L|]. assert (q0 = q) by congruence. subst q0. rewrite (pend_same _ _ E2 E3). exact D.
           ++ exists q0. rewrite get_upd_neq by exact NE. auto.
    + intros j q0 GJ. apply get_upd in GJ as [[-> ->]|[NE GJ]]; [|auto|exact L]. rewrite E8. auto.
    + exact I5.
  - intros [BT BQ]. split; [exact BT|]. nc. intros j q0 GJ. apply get_upd in GJ as [[-> ->]|[NE GJ]]; [|eauto|exact L].
    destruct (BQ k q G) as (B1 & B2 & B3 & B4 & B5 & B6). rewrite E2, E3, E4, E5, E6, E8. auto 8.
Qed.

Lemma on_queues_ok f l : (forall q, quiet q (f q)) -> forall n n', ninv n -> on_queues f l n = Ok n' ->
  ninv n' /\ (blank n -> blank n') /\ nt_init n' = nt_init n.
Proof.
  intro F. induction l as [|e l IH]; intros n n' I H; cbn [on_queues] in H; [injection H as <-; auto|].
  mbind H. apply queue_at_Ok in E. destruct (put_ok e x (f x) n (F x) E I) as [I1 B1].
  apply IH in H as (I2 & B2 & B3); [|exact I1]. auto.
Qed.

Definition ngood (n : net) : Prop := ninv n /\ (nt_init n = false -> blank n).

Lemma sim_init n n' : ninv n -> simulate_event n = Ok n' -> nt_init n' = nt_init n.
Proof. intros I H. apply simulate_event_Ok in H; [|apply ninv_idx; exact I]. destruct H; subst; reflexivity. Qed.

Lemma ngood_call n c n' : ngood n -> usual n c -> run_call c n = Ok n' -> ngood n'.
Proof.
  intros [I B] US H. destruct c as [sel| | |o]; cbn [run_call] in H.
  - cbn [usual] in US. destruct (initialize_ok _ _ _ I (B US) H) as [I' N]. split; [exact I'|congruence].
  - injection H as <-. destruct (clear_ok n I) as [I' B']. split; auto.
  - destruct (copy_ok _ _ I H B) as (I' & _ & B'). split; assumption.
  - destruct o as [|b l|l|p|m|b]; cbn [run_nop] in H.
    + cbn [usual] in US. assert (N := sim_init _ _ I H). apply simulate_event_Ok in H; [|apply ninv_idx; exact I].
      apply ninv_step in H as [I' _]; [|exact I]. split; [exact I'|congruence].
    + apply on_queues_ok in H as (I' & B' & N); [|intro q; repeat split|exact I]. split; [exact I'|]. rewrite N. auto.
    + apply on_queues_ok in H as (I' & B' & N); [|intro q; repeat split|exact I]. split; [exact I'|]. rewrite N. auto.
    + injection H as <-. destruct I. split; [split; assumption|exact B].
    + injection H as <-. destruct I. split; [split; assumption|exact B].
    + injection H as <-. destruct I. split; [split; assumption|exact B].
Qed.

Lemma ngood_reach n0 n : well_made n0 -> nreach usual n0 n -> ngood n.
Proof.
  intros W R. induction R as [|n c n' R IH US H]; [destruct (well_made_ok _ W) as (I & B & _); split; auto|].
  eapply ngood_call; eauto.
Qed.
