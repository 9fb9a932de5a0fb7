(** * NetData: the data of a network *)
From Coq Require Import List ZArith QArith Lia Bool Permutation Arith.
From Verif Require Import Base Heap HeapProofs PQueue Queue QueueEffects QueueEvents QueueSteps QueueInv SpecQueue QueueData QueueFlow QueueHist QueueClaims1 Fetch FetchProofs Network NetQueue NetSteps NetInv SpecNet NetReach NetFlow NetClaims1.
Import ListNotations.
Open Scope Z_scope.

Definition keyed (qs : list queue) : Prop := forall k q, get qs k = Some q -> NoDup (map fst (q_data q)).

Lemma keyed_upd qs k q' : keyed qs -> NoDup (map fst (q_data q')) -> keyed (upd qs k q').
Proof.
  intros K N j q G. destruct (Nat.lt_ge_cases k (length qs)) as [L|L].
  - apply get_upd in G as [[-> ->]|[_ G]]; [exact N|eapply K; exact G|exact L].
  - rewrite upd_ge in G by exact L. eapply K; exact G.
Qed.

Lemma keyed_next q r q' : qinv q -> next_event q = Ok (r, q') -> NoDup (map fst (q_data q)) -> NoDup (map fst (q_data q')).
Proof. intros I H. apply (keys_op ONext); [exact I|]. cbn [run_op]. rewrite H. reflexivity. Qed.

Lemma keyed_stopped max ag q : NoDup (map fst (q_data q)) -> NoDup (map fst (q_data (stopped max ag q))).
Proof. unfold stopped. destruct (_ && _); auto. Qed.

Lemma nst_keyed n n' : ninv n -> nst n n' -> keyed (nt_queues n) -> keyed (nt_queues n').
Proof.
  intros I ST K. destruct ST as [SZ ->|t k h q SZ PO G DS ->|t k h q r q' h' SZ PO G DS NX PU LC ->|
    t k h q a h0 l e2 q2 qm q' d h' iu ie td SZ PO G DS DP OUT IN DD G2 NE CA MB RT DE DL NK PU ->|
    t k h q a h0 l e2 q2old b q' q2 q2a r q2' h' iu SZ PO G DS DP OUT IN DD G2 CA NX GE AD NX2 PU LA LB ->].
  - exact K.
  - exact K.
  - unfold after. nc. apply keyed_upd; [exact K|]. apply (keyed_next (stopped (nt_max n) (nt_nagents n) q) r); [|exact NX|apply keyed_stopped; eapply K; exact G].
    apply (qok_stopped _ _ _ _ _ (ni_q _ I _ _ G)).
  - unfold after. nc. assert (KM : qok (nt_t n) k qm /\ q_data qm = q_data q).
    { split; [apply (qok_mark _ _ _ _ (ni_q _ I _ _ G) MB)|]. unfold mark_blocked in MB. mbind MB. injection MB as <-. reflexivity. }
    destruct KM as [KM DM]. apply keyed_upd; [apply keyed_upd; [exact K|exact (K _ _ G2)]|].
    apply (keys_op (ODelay d) qm); [apply KM|exact DL|]. rewrite DM. eapply K; exact G.
  - unfold after. nc. destruct (popped _ _ _ _ I SZ PO) as (W & LE & LK & QK & QM & (dr & PM) & KS & TT & HB & _).
    assert (KQ := KS _ _ G). destruct (description_2 _ (qk_inv _ _ _ KQ) DS) as (NN & _ & _ & FT).
    assert (I' := qinv_next _ _ _ (qk_inv _ _ _ KQ) NX).
    assert (K1 : keyed (upd (nt_queues n) k q')) by (apply keyed_upd; [exact K|apply (keyed_next q (Some b)); [apply KQ|exact NX|eapply K; exact G]]).
    assert (I2 : qinv q2) by (apply get_upd in GE as [[-> ->]|[_ GE]]; [exact I'|apply (ni_q _ I _ _ GE)|exact LK]).
    apply keyed_upd; [exact K1|].
    apply (keyed_next (stopped (nt_max n) (upd (upd (nt_nagents n) k (q_total q')) e2 (q_total q2a)) q2a) r); [|exact NX2|].
    + destruct (stopped_same (nt_max n) (upd (upd (nt_nagents n) k (q_total q')) e2 (q_total q2a)) q2a) as (E1 & E2 & E3 & E4 & E5 & E6 & E7 & E8 & _).
      destruct (qinv_add_arrival _ _ _ I2 AD). split; congruence.
    + apply keyed_stopped. apply (keys_op (OArrive (set_ag_time t b)) q2); [exact I2|exact AD|eapply K1; exact GE].
Qed.

Lemma activate_keyed l : forall n n', calm n -> keyed (nt_queues n) -> activate l n = Ok n' -> keyed (nt_queues n').
Proof.
  induction l as [|e l IH]; intros n n' C K H; cbn [activate] in H; [injection H as <-; exact K|].
  mbind H. apply queue_at_Ok in E. mbind H. mbind H.
  assert (C1 : calm x1).
  { apply (activate_ok [e] n); [exact C|]. cbn [activate]. unfold queue_at. rewrite E. cbn [of_option bind]. rewrite E0. cbn [bind]. rewrite E1. reflexivity. }
  apply set_count_Ok in E1 as [_ ->]. apply IH in H; [exact H|exact C1|]. nc. apply keyed_upd; [exact K|].
  apply (keys_op OActive x); [apply (ca_q _ C _ _ E)|exact E0|eapply K; exact E].
Qed.

Lemma on_queues_keyed f l : (forall q, NoDup (map fst (q_data q)) -> NoDup (map fst (q_data (f q)))) ->
  forall n n', keyed (nt_queues n) -> on_queues f l n = Ok n' -> keyed (nt_queues n').
Proof.
  intro F. induction l as [|e l IH]; intros n n' K H; cbn [on_queues] in H; [injection H as <-; exact K|].
  mbind H. apply queue_at_Ok in E. apply IH in H; [exact H|]. nc. apply keyed_upd; [exact K|]. apply F. eapply K; exact E.
Qed.

Lemma keyed_reach n0 n : well_made n0 -> nreach usual n0 n -> keyed (nt_queues n).
Proof.
  intros W R. induction R as [|n c n' R IH US H].
  - destruct W as (qs & out & max & bas & junk & u & eps & -> & QS & _). intros k q G. destruct (QS k q G) as (c & s & col & nE & -> & _). constructor.
  - destruct (ngood_reach _ _ W R) as [I B]. destruct c as [sel| | |o]; cbn [run_call] in H.
    + unfold initialize_queues in H. mbind H. destruct (length x =? 0)%nat; [discriminate|]. mbind H. mbind H. injection H as <-. nc.
      apply activate_keyed in E0; [exact E0| |exact IH]. cbn [usual] in US. destruct (B US) as [BT BQ].
      destruct I as [I1 I2 I3 I4 I5]. split; auto. intros k q G. split; [rewrite <- BT; apply I2; exact G|apply (BQ _ _ G)].
    + injection H as <-. intros k q G. unfold net_clear in G. nch G. unfold get in G. rewrite nth_error_map in G.
      destruct (nth_error (nt_queues n) k) as [q0|] eqn:G0; [|discriminate]. injection G as <-.
      apply (keys_op OClear q0); [apply (ni_q _ I _ _ G0)|reflexivity|eapply IH; exact G0].
    + unfold net_copy in H. destruct (nt_init n); [mbind H|]; injection H as <-; exact IH.
    + destruct o as [|b l|l|p|m|b]; cbn [run_nop] in H; try (injection H as <-; exact IH).
      * apply sim_nst in H; [|exact I]. eapply nst_keyed; eassumption.
      * eapply on_queues_keyed; [|exact IH|exact H]. auto.
      * eapply on_queues_keyed; [|exact IH|exact H]. intros; constructor.
Qed.

Lemma selected_keyed n0 n l : well_made n0 -> nreach usual n0 n -> (forall q, In q l -> In q (nt_queues n)) -> Forall (fun q => NoDup (map fst (q_data q))) l.
Proof.
  intros W R H. apply Forall_forall. intros q X. apply H, in_get in X as (k & G). eapply keyed_reach; eassumption.
Qed.
