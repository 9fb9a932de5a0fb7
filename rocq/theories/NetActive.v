(** * NetActive: why a queue of a network stops creating agents *)
From Coq Require Import List ZArith QArith Lia Bool Permutation Arith.
From Verif Require Import Base Heap HeapProofs PQueue PQueueProofs SpecPQ PQHist Queue QueueEffects QueueEvents QueueSteps QueueInv SpecQueue QueueFlow QueueHist QueueClaims1 QueueClaims2 Network NetQueue NetSteps NetInv SpecNet NetReach NetFlow NetClaims1 NetClaims2 NetTotal.
Import ListNotations.
Open Scope Z_scope.

Lemma op_reason o q q' : qinv q -> no_clear o -> o <> OActive -> o <> OInactive -> run_op o q = Ok q' -> q_active q = true -> q_active q' = false ->
  eLe (c_deactive_t (q_cfg q)) (q_next_ct q') \/ eLe (c_active_cap (q_cfg q)) (Fin (q_oarr q')).
Proof.
  intros I NC NA NI H A A'. destruct (op_arrproc _ _ _ I NC H) as ([AP] & SA & _).
  destruct AP as [(E & _)|[(_ & _ & _ & D & _)|(_ & O & C & _)]].
  - apply SA in E. destruct o; congruence.
  - left. exact D.
  - right. rewrite O. destruct (eleb (c_active_cap (q_cfg q)) (Fin (q_oarr q + 1))) eqn:X; [apply eleb_le; exact X|congruence].
Qed.

Lemma next_reason q r q' : qinv q -> next_event q = Ok (r, q') -> q_active q = true -> q_active q' = false ->
  eLe (c_deactive_t (q_cfg q)) (q_next_ct q') \/ eLe (c_active_cap (q_cfg q)) (Fin (q_oarr q')).
Proof.
  intros I H A A'. apply (op_reason ONext q q'); try assumption; try discriminate; [exact Logic.I|]. cbn [run_op]. rewrite H. reflexivity.
Qed.

Lemma stopped_reason m ag q : q_active q = true -> q_active (stopped m ag q) = false -> eLe m (Fin (zsum ag)).
Proof.
  unfold stopped. intros A B. rewrite A in B. destruct m as [m|]; [|cbn [andb] in B; congruence]. cbn [andb] in B.
  destruct (m - 1 <? zsum ag) eqn:E; [|congruence]. apply Z.ltb_lt in E. cbn [eLe]. lia.
Qed.

Lemma after_stop m ag q r q' : qinv q -> next_event (stopped m ag q) = Ok (r, q') -> q_active q = true -> q_active q' = false ->
  eLe m (Fin (zsum ag)) \/ eLe (c_deactive_t (q_cfg q)) (q_next_ct q') \/ eLe (c_active_cap (q_cfg q)) (Fin (q_oarr q')).
Proof.
  intros I H A A'. destruct (q_active (stopped m ag q)) eqn:B; [|left; eapply stopped_reason; eauto].
  right. rewrite <- (cfg_stopped m ag q). eapply next_reason; eauto. apply qinv_stopped; exact I.
Qed.

Lemma delay_active d q q' : qinv q -> c_class (q_cfg q) <> CNull -> delay_service d q = Ok q' -> q_active q' = q_active q.
Proof.
  intros I N H. apply delay_service_Ok in H; [|exact N|apply I|apply I]. destruct H as [(_ & ->)|(a & h & h' & m & H)]; [reflexivity|].
  cbv zeta in H. destruct H as (_ & -> & _). reflexivity.
Qed.

Lemma active_step n n' k q q' : ninv n -> nst n n' -> get (nt_queues n) k = Some q -> get (nt_queues n') k = Some q' ->
  q_active q = true -> q_active q' = false ->
  eLe (nt_max n) (Fin (zsum (nt_nagents n))) \/ eLe (c_deactive_t (q_cfg q)) (q_next_ct q') \/ eLe (c_active_cap (q_cfg q)) (Fin (q_oarr q')).
Proof.
  intros I S G0 G0' A A'.
  destruct S as [SZ ->|t j h q1 SZ PO G DS ->|t j h q1 r q1' h' SZ PO G DS NX PU LC ->|
    t j h q1 a h0 l e2 q2 qm q1' d h' iu ie td SZ PO G DS DP OUT IN DD G2 NE CA MB RT DE DL NK PU ->|
    t j h q1 a h0 l e2 q2old b q1' q2 q2a r q2' h' iu SZ PO G DS DP OUT IN DD G2 CA NX GE AD NX2 PU LA LB ->]; unfold after in G0'; nch G0'.
  - congruence.
  - congruence.
  - destruct (popped _ _ _ _ I SZ PO) as (W & LE & LK & QK & QM & _ & KS & TT & HB & _).
    apply get_upd in G0' as [[-> ->]|[X Y]]; [|congruence|exact LK]. assert (q1 = q) by congruence. subst q1.
    eapply after_stop; [|exact NX|exact A|exact A']. apply (KS _ _ G).
  - destruct (popped _ _ _ _ I SZ PO) as (W & LE & LK & QK & QM & _ & KS & TT & HB & _).
    assert (K := KS _ _ G). destruct (description_2 _ (qk_inv _ _ _ K) DS) as (NN & _ & _ & FI).
    destruct (qok_mark _ _ _ _ K MB) as (KM & _ & _ & CM & _). assert (AM : q_active qm = q_active q1).
    { destruct (mark_facts _ _ (qi_dep _ (qk_inv _ _ _ K)) MB) as (? & ? & ? & _ & _ & -> & _). reflexivity. }
    apply get_upd in G0' as [[-> ->]|[X Y]]; [| |rewrite upd_length; exact LK].
    + assert (q1 = q) by congruence. subst q1. apply delay_active in DL; [congruence|apply KM|congruence].
    + apply get_upd in Y as [[-> ->]|[X' Y]]; [|congruence|eapply get_lt; exact G2]. assert (q2 = q) by congruence. subst q2. qch A'. congruence.
  - destruct (popped _ _ _ _ I SZ PO) as (W & LE & LK & QK & QM & _ & KS & TT & HB & _).
    assert (K := KS _ _ G). destruct (description_2 _ (qk_inv _ _ _ K) DS) as (NN & _ & _ & FI).
    assert (TQ : q_time q1 = t) by (destruct (TT _ G); [assumption|congruence]). assert (FT : t <> Inf) by congruence.
    destruct (dep_event _ _ _ _ _ (qk_inv _ _ _ K) DS DP NX) as (b0 & EB & IDB & _ & HH & OA & AC & CF & TO & _).
    destruct (qok_next t j _ _ _ K TQ FT NX) as (K' & _).
    assert (K2 : qok t e2 q2).
    { apply get_upd in GE as [[-> ->]|[NE GE]]; [exact K'|apply KS; exact GE|exact LK]. }
    apply get_upd in G0' as [[-> ->]|[X Y]]; [| |rewrite upd_length; eapply get_lt; exact G2].
    + assert (C2 : q_active q2 = true /\ q_cfg q2 = q_cfg q).
      { apply get_upd in GE as [[-> ->]|[NE GE]]; [|assert (q2 = q) by congruence; subst; auto|exact LK]. assert (q1 = q) by congruence. subst q1. split; congruence. }
      destruct C2 as [A2 C2].
      assert (RO : run_op (OArrive (set_ag_time t b)) q2 = Ok q2a) by exact AD.
      assert (I2a : qinv q2a) by exact (qinv_op _ _ _ (qk_inv _ _ _ K2) RO).
      assert (C1 : get (upd (nt_nagents n) j (q_total q1')) e2 = Some (q_total q2)).
      { apply get_upd in GE as [[-> ->]|[NE2 GE]]; [apply get_upd_eq; exact LA| |exact LK].
        rewrite get_upd_neq by exact NE2. apply (ni_count _ I _ _ GE). }
      assert (TA : q_total q2a <= q_total q2 + 1 /\ q_cfg q2a = q_cfg q2 /\ q_active q2a = q_active q2).
      { destruct (c_class (q_cfg q2)) eqn:CL.
        3:{ apply add_arrival_null in AD as (d & -> & _); [|exact CL]. qc. split; [lia|auto]. }
        all: unfold add_arrival in AD; rewrite CL in AD; mbind AD; unfold update_time_if in AD; repeat mbind AD; qch AD;
          repeat match goal with X : context [if ?c then _ else _] |- _ => destruct c end; injection AD as <-; qc; repeat split; lia. }
      destruct TA as (TA & C2a & A2a). rewrite <- C2, <- C2a.
      destruct (after_stop _ _ _ _ _ I2a NX2 ltac:(congruence) A') as [X|X]; [|right; exact X].
      left. rewrite (zsum_upd _ _ _ _ C1), (zsum_upd _ _ _ _ (ni_count _ I _ _ G)) in X.
      destruct (nt_max n) as [m|]; cbn [eLe] in *; lia.
    + apply get_upd in Y as [[-> ->]|[X' Y]]; [|congruence|exact LK]. assert (q1 = q) by congruence. subst q1. congruence.
Qed.

(** ** What an event leaves alone *)

Record nframe (n n' : net) : Prop := mkNframe {
  nf_out : nt_out n' = nt_out n; nf_probs : nt_probs n' = nt_probs n; nf_max : nt_max n' = nt_max n;
  nf_bas : nt_bas n' = nt_bas n; nf_init : nt_init n' = nt_init n; nf_u : nt_u n' = nt_u n; nf_eps : nt_eps n' = nt_eps n;
  nf_len : length (nt_queues n') = length (nt_queues n); nf_nag : length (nt_nagents n') = length (nt_nagents n) }.

Lemma nframe_refl n : nframe n n.
Proof. split; reflexivity. Qed.
Lemma nframe_trans n1 n2 n3 : nframe n1 n2 -> nframe n2 n3 -> nframe n1 n3.
Proof. intros [] []. split; congruence. Qed.
Lemma nframe_push key n n' : net_push key n = Ok n' -> nframe n n'.
Proof. intro H. apply net_push_Ok in H as (h & _ & ->). split; reflexivity. Qed.
Lemma nframe_count k z n n' : set_count k z n = Ok n' -> nframe n n'.
Proof. intro H. apply set_count_Ok in H as (_ & ->). split; nc; rewrite ?upd_length; reflexivity. Qed.
Lemma nframe_put k q n : nframe n (put_queue k q n).
Proof. split; nc; rewrite ?upd_length; reflexivity. Qed.

Lemma nframe_reschedule k e old n n' : reschedule k e old n = Ok n' -> nframe n n'.
Proof. intro H. apply reschedule_Ok in H as (q1 & q2 & h & _ & _ & _ & ->). split; reflexivity. Qed.

Lemma nframe_block k e n n' : block_agent k e n = Ok n' -> nframe n n'.
Proof.
  intro H. unfold block_agent in H. mbind H. mbind H. mbind H. nch H. destruct (nt_bas n) eqn:B.
  - mbind H. mbind H. mbind H. mbind H. injection H as <-. split; nc; rewrite ?upd_length; auto.
  - mbind H. mbind H. injection H as <-. split; nc; rewrite ?upd_length; auto.
Qed.

Lemma nframe_move k e1 e2 t n n' : move_agent k e1 e2 t n = Ok n' -> nframe n n'.
Proof.
  intro H. unfold move_agent in H. mbind H. mbind H. destruct x0 as [[a|] q]; [|discriminate]. mbind H. mbind H. mbind H. mbind H. mbind H. mbind H. mbind H.
  destruct x6 as [r q6]. apply nframe_count in E5, E4, H.
  eapply nframe_trans; [|exact H]. eapply nframe_trans; [|apply nframe_put]. eapply nframe_trans; [|apply nframe_put].
  eapply nframe_trans; [|exact E5]. eapply nframe_trans; [|exact E4]. eapply nframe_trans; apply nframe_put.
Qed.

Lemma nframe_event n n' : simulate_event n = Ok n' -> nframe n n'.
Proof.
  unfold simulate_event. intro H. destruct (pq_size (nt_heap n) =? 0)%nat; [injection H as <-; split; reflexivity|].
  mbind H. destruct x as [[[t k]|] h]; [|discriminate]. mbind H. mbind H. cbv zeta in H.
  assert (F : nframe n (set_nt_events (nt_events (set_nt_heap h n) + 1) (set_nt_t t (set_nt_heap h n)))) by (split; reflexivity).
  eapply nframe_trans; [exact F|]. destruct (x0 =? 2); [|destruct (x0 =? 1)].
  - unfold net_departure in H. mbind H. mbind H. mbind H. destruct x3 as [e2 n1]. mbind H. mbind H.
    apply desired_Ok in E4 as (l & iu & _ & _ & ->). apply nframe_reschedule in H. eapply nframe_trans; [|exact H].
    assert (F1 : forall m, nframe m (set_nt_iu iu m)) by (intro m; split; reflexivity).
    eapply nframe_trans; [apply F1|]. destruct (at_capacity x3 && _); [apply nframe_block in E6|apply nframe_move in E6]; exact E6.
  - unfold net_arrival in H. mbind H. mbind H. destruct x2 as [r q']. mbind H. apply nframe_count in E4.
    eapply nframe_trans; [apply nframe_put|]. eapply nframe_trans; [exact E4|].
    destruct (eltb (q_time q') Inf); [apply nframe_push in H; exact H|injection H as <-; apply nframe_refl].
  - injection H as <-. apply nframe_refl.
Qed.

Lemma nframe_runs m : forall n n', nruns m n = Ok n' -> nframe n n'.
Proof.
  induction m as [|m IH]; intros n n' H; cbn [nruns] in H; [injection H as <-; apply nframe_refl|].
  mbind H. apply nframe_event in E. apply IH in H. eapply nframe_trans; eauto.
Qed.

(** ** initialize comes first *)

Lemma on_queues_init f l : forall n n', on_queues f l n = Ok n' -> nt_init n' = nt_init n.
Proof.
  induction l as [|e l IH]; intros n n' H; cbn [on_queues] in H; [injection H as <-; reflexivity|].
  mbind H. apply IH in H. exact H.
Qed.

Lemma call_init c n n' : run_call c n = Ok n' ->
  nt_init n' = match c with KInit _ => true | KClear => false | _ => nt_init n end.
Proof.
  intro H. destruct c as [sel| | |o]; cbn [run_call] in H.
  - unfold initialize_queues in H. mbind H. destruct (length x =? 0)%nat; [discriminate|]. mbind H. mbind H. injection H as <-. reflexivity.
  - injection H as <-. reflexivity.
  - unfold net_copy in H. destruct (nt_init n) eqn:E; [mbind H|]; injection H as <-; exact E.
  - destruct o as [|b l|l|p|m|b]; cbn [run_nop] in H.
    + apply nframe_event in H. apply H.
    + exact (on_queues_init _ _ _ _ H).
    + exact (on_queues_init _ _ _ _ H).
    + injection H as <-. reflexivity.
    + injection H as <-. reflexivity.
    + injection H as <-. reflexivity.
Qed.

Lemma simulate_n_runs m : forall n, net_simulate_n m n = nruns m n.
Proof. induction m as [|m IH]; intro n; cbn; [reflexivity|]. destruct (simulate_event n); cbn; auto. Qed.

(** ** The graph and the queues' parameters never change *)

Lemma on_queues_same f l n n' : (forall q, q_cfg (f q) = q_cfg q) -> on_queues f l n = Ok n' ->
  nt_out n' = nt_out n /\ length (nt_queues n') = length (nt_queues n) /\
  forall k q', get (nt_queues n') k = Some q' -> exists q, get (nt_queues n) k = Some q /\ q_cfg q' = q_cfg q.
Proof.
  intro F. revert n. induction l as [|e l IH]; intros n H; cbn [on_queues] in H.
  - injection H as <-. split; [reflexivity|]. split; [reflexivity|]. intros k q G. eauto.
  - mbind H. apply queue_at_Ok in E. apply IH in H as (A & B & C). nch A. nch B. rewrite upd_length in B.
    split; [exact A|]. split; [exact B|]. intros k q' G. destruct (C k q' G) as (q & G1 & E1). nch G1.
    apply get_upd in G1 as [[-> ->]|[_ G1]]; [|eauto|eapply get_lt; exact E]. exists x. split; [exact E|]. rewrite E1. apply F.
Qed.

Lemma call_same c n n' : ngood n -> usual n c -> run_call c n = Ok n' ->
  nt_out n' = nt_out n /\ length (nt_queues n') = length (nt_queues n) /\
  forall k q', get (nt_queues n') k = Some q' -> exists q, get (nt_queues n) k = Some q /\ q_cfg q' = q_cfg q.
Proof.
  intros [I BL] US H.
  assert (WEAK : same_frame n n' -> nt_out n' = nt_out n /\ length (nt_queues n') = length (nt_queues n) /\
    forall k q', get (nt_queues n') k = Some q' -> exists q, get (nt_queues n) k = Some q /\ q_cfg q' = q_cfg q).
  { intros (A & B & C). split; [exact A|]. split; [exact B|]. intros k q' G. destruct (C k q' G) as (q & G0 & E & _). eauto. }
  assert (SAME : nt_out n = nt_out n /\ length (nt_queues n) = length (nt_queues n) /\
    forall k q', get (nt_queues n) k = Some q' -> exists q, get (nt_queues n) k = Some q /\ q_cfg q' = q_cfg q) by eauto.
  destruct c as [sel| | |o]; cbn [run_call] in H.
  - apply WEAK. unfold initialize_queues in H. mbind H. destruct (length x =? 0)%nat; [discriminate|]. mbind H. rename x0 into n1. mbind H.
    injection H as <-. cbn [usual] in US. destruct (BL US) as [BT BQ].
    assert (CA : calm n).
    { destruct I as [I1 I2 I3 I4 I5]. split; auto. intros k q G. split; [rewrite <- BT; apply I2; exact G|apply (BQ _ _ G)]. }
    exact (activate_frame _ _ _ CA E0).
  - injection H as <-. split; [reflexivity|]. unfold net_clear. nc. rewrite map_length. split; [reflexivity|]. intros k q' G.
    unfold get in G. rewrite nth_error_map in G. destruct (nth_error (nt_queues n) k) as [q|] eqn:G0; [|discriminate]. injection G as <-.
    exists q. split; [exact G0|]. unfold clear, qs_clear. destruct (c_class (q_cfg q)); reflexivity.
  - unfold net_copy in H. destruct (nt_init n) eqn:E; [mbind H|]; injection H as <-; exact SAME.
  - destruct o as [|b l|l|p|m|b]; cbn [run_nop] in H.
    + apply WEAK. apply simulate_event_Ok in H; [|apply ninv_idx; exact I]. apply (nst_frame _ _ I H).
    + apply on_queues_same in H; [exact H|reflexivity].
    + apply on_queues_same in H; [exact H|reflexivity].
    + injection H as <-. exact SAME.
    + injection H as <-. exact SAME.
    + injection H as <-. exact SAME.
Qed.

Lemma same_graph n0 n : well_made n0 -> nreach usual n0 n ->
  nt_out n = nt_out n0 /\ map q_cfg (nt_queues n) = map q_cfg (nt_queues n0).
Proof.
  intros W R. assert (X : nt_out n = nt_out n0 /\ length (nt_queues n) = length (nt_queues n0) /\
    forall k q', get (nt_queues n) k = Some q' -> exists q, get (nt_queues n0) k = Some q /\ q_cfg q' = q_cfg q).
  { induction R as [|n c n' R IH US H]; [eauto|]. destruct IH as (A & B & C).
    destruct (call_same _ _ _ (ngood_reach _ _ W R) US H) as (A' & B' & C'). split; [congruence|]. split; [congruence|].
    intros k q' G. destruct (C' _ _ G) as (q1 & G1 & E1). destruct (C _ _ G1) as (q & G0 & E0). exists q. split; [exact G0|congruence]. }
  destruct X as (A & B & C). split; [exact A|]. clear -B C. unfold get in C.
  revert B C. generalize (nt_queues n) as l, (nt_queues n0) as l0. induction l as [|q l IH]; intros [|q0 l0] B C; cbn in *; try lia; [reflexivity|].
  f_equal.
  - destruct (C 0%nat q eq_refl) as (q1 & G & E). injection G as <-. exact E.
  - apply IH; [lia|]. intros k q' G. apply (C (S k) q' G).
Qed.

(** ** What initialize leaves alone *)

Lemma initialize_keeps sel n n' : initialize_queues sel n = Ok n' ->
  nt_out n' = nt_out n /\ nt_probs n' = nt_probs n /\ nt_max n' = nt_max n /\ nt_bas n' = nt_bas n /\ nt_t n' = nt_t n /\ nt_events n' = nt_events n /\
  nt_u n' = nt_u n /\ nt_iu n' = nt_iu n /\ nt_eps n' = nt_eps n /\ nt_ie n' = nt_ie n.
Proof.
  intro H. unfold initialize_queues in H. mbind H. destruct (length x =? 0)%nat; [discriminate|]. mbind H. mbind H. injection H as <-. nc. clear E E1.
  revert E0. generalize (truncate x (nt_max n)) as l. intro l. revert n. induction l as [|e l IH]; intros n H; cbn [activate] in H; [injection H as <-; auto 12|].
  mbind H. mbind H. mbind H. apply set_count_Ok in E1 as (_ & ->). apply IH in H. exact H.
Qed.
