(** * NetLoop: agents that come back to the queue they leave *)
From Coq Require Import List ZArith QArith Lia Bool Permutation Arith.
From Verif Require Import Base Heap HeapProofs Queue QueueEffects QueueEvents QueueSteps QueueInv SpecQueue QueueData QueueFlow Network NetQueue NetSteps NetInv SpecNet QueueHist QueueClaims1 QueueClaims2.
Import ListNotations.
Open Scope Z_scope.

(** Nobody is served, or at most as many as there are servers. *)
Definition limited (q : queue) : Prop := na (q_dep q) <= 0 \/ cinv q.

Definition allowed (o : qop) : Prop := match o with OServers _ => False | _ => True end.

Lemma na_nonneg h : 0 <= na h.
Proof. unfold na. lia. Qed.

Lemma limited_op o q q' : qinv q -> c_class (q_cfg q) <> CNull -> c_class (q_cfg q) <> CResource ->
  allowed o -> limited q -> run_op o q = Ok q' -> limited q'.
Proof.
  intros I N NR AL W H.
  assert (SPLIT : eLe (Fin 0) (q_servers q) \/ eLt (q_servers q) (Fin 0)) by (destruct (q_servers q); cbn; lia).
  destruct SPLIT as [Z|Z].
  { assert (C : cinv q) by (destruct W as [W|W]; [unfold cinv; destruct (q_servers q); cbn in *; lia|exact W]).
    right. refine (proj1 (cinv_op o q q' I N NR _ Z C H)). destruct o; cbn in *; tauto. }
  assert (W0 : na (q_dep q) = 0) by (assert (G := na_nonneg (q_dep q)); destruct W as [W|W]; [lia|unfold cinv in W; destruct (q_servers q); cbn in *; lia]).
  clear W. left. destruct o; cbn [run_op] in H; cbn in AL; try tauto.
  - mbind H. destruct x as [r q1]. inversion H; subst q1. clear H.
    apply next_event_event in E as (qe & PE & EV); [|apply I|apply I].
    destruct (pre_event_net _ _ PE) as (nd & ->).
    assert (IE : qinv (set_q_net nd q)) by (destruct I; split; assumption).
    destruct EV as [? ? -> _|? ? R|NN ? ? ? _ R|NN NS ? ? ? _ R|CR ? ? ? _ R|CR ? ? ? _ ? R]; try congruence.
    + lia.
    + apply qs_departure_Ok in R as (a & h & a' & h' & line' & m & d1 & d & s & o & PA & _); [|apply IE|apply IE].
      qch PA. apply pop_agent_Ok in PA as (_ & P & _); [|apply I]. unfold na in W0. rewrite P in W0. cbn in W0. lia.
    + apply flow_arrival in R as (a & h & new & st & -> & PA & FL & D1 & D2 & D3 & D4 & D5 & D6 & D7); [|exact NN|exact IE].
      qch D7. destruct (D7 NR) as (_ & C).
      apply fl_dep in FL. apply Permutation_length in FL. rewrite !app_length in FL. unfold ids in FL.
      rewrite !map_length in FL. unfold in_service in FL. qch FL. cbn [length] in FL.
      assert (SY := qi_sys _ I). unfold na in *. change agents_in with agents_of in FL.
      destruct C as [(-> & _ & _)|(-> & C & _)]; cbn [length] in FL; [lia|]. destruct (q_servers q); cbn in *; lia.
    + apply flow_blocked in R as (a & h & new & -> & PA & FL & D1 & D2 & D3 & D4 & D5 & D6 & D7 & D8 & D9); [|exact NN|exact IE].
      qch D7. qch D9. unfold na in *. congruence || (rewrite D7; lia) || (rewrite D9; lia).
  - unfold set_active in H. destruct (q_active q); [inversion H; subst; lia|].
    assert (H' : add_arrival_new (set_q_active true q) = Ok q').
    { unfold add_arrival_self in H. qch H. destruct (c_class (q_cfg q)); congruence. }
    apply add_arrival_new_Ok in H'; [|apply I|apply I]. cbv zeta in H'.
    destruct H' as [(_ & ->)|[(_ & _ & _ & ->)|(_ & _ & a & h & act & -> & _)]]; qc; lia.
  - injection H as <-. change (na (q_dep q) <= 0). lia.
  - apply delay_service_Ok in H; [|exact N|apply I|apply I].
    destruct H as [(_ & ->)|(a & h & h' & m & H)]; [lia|].
    cbv zeta in H. destruct H as (_ & -> & _ & _ & _ & P & P' & _). qc.
    rewrite (na_perm _ _ P'). rewrite (na_perm _ _ P) in W0. cbn [length] in *. lia.
  - apply add_arrival_Ok in H as (h & -> & _ & _); [|exact N|apply I|apply I]. qc. lia.
  - injection H as <-. change (na (q_dep q) <= 0). lia.
  - inversion H; subst. unfold clear, qs_clear. destruct (c_class (q_cfg q)); try congruence; cbn; lia.
  - injection H as <-. change (na (q_dep q) <= 0). lia.
Qed.

Lemma limited_next q r q' : qinv q -> next_event q = Ok (r, q') -> c_class (q_cfg q) <> CNull -> c_class (q_cfg q) <> CResource -> limited q -> limited q'.
Proof. intros I H N NR L. apply (limited_op ONext q q' I N NR Logic.I L). cbn [run_op]. rewrite H. reflexivity. Qed.

Lemma limited_stopped max ag q : limited q -> limited (stopped max ag q).
Proof. intro L. unfold stopped. destruct (_ && _); exact L. Qed.

(** An agent that departs and comes straight back leaves the queue with an
    event to come. *)
Lemma loop_busy t k max ag q a h0 b q' q2a r q2' :
  qok t k q -> t <> Inf -> q_time q = t -> c_class (q_cfg q) <> CResource ->
  (c_class (q_cfg q) <> CServer -> eLe (Fin 0) (c_buffer (q_cfg q))) ->
  (forall i s, s <> Inf -> c_srv (q_cfg q) i s <> Inf) -> limited q ->
  next_event_description q = Ok 2 -> q_dep q = Ag a :: h0 -> next_event q = Ok (Some b, q') ->
  add_arrival (set_ag_time t b) q' = Ok q2a -> next_event (stopped max ag q2a) = Ok (r, q2') -> q_time q2' <> Inf.
Proof.
  intros K NI TQ NR BUF FIN LIM DS DP NX AD NX2. assert (I := qk_inv _ _ _ K). destruct (description_2 _ I DS) as (N & LT & TD & _).
  assert (K' := proj1 (qok_next _ _ _ _ _ K TQ NI NX)). assert (I' := qk_inv _ _ _ K'). assert (CF := next_cfg _ _ _ I NX).
  destruct (qok_enter t k max ag q' (set_ag_time t b) _ _ _ K' NI eq_refl AD NX2) as (K2 & (new & PN & _) & CF2).
  assert (SOME : forall x, In x (pend q2') -> x <> Inf -> q_time q2' <> Inf).
  { intros x X NX0 T. assert (Y := pend_min _ (qk_inv _ _ _ K2) _ X). rewrite T in Y. apply eLe_Inf_l in Y. congruence. }
  assert (NX' := NX). apply next_event_event in NX as (qe & PE & EV); [|apply I|apply I].
  destruct (pre_event_net _ _ PE) as (nd & ->).
  destruct EV as [? ? X|? ? R|? L1|? ? L1|? L1|? L1]; try (exfalso; apply (eLt_irrefl (hmin (q_dep q))); eapply eLt_le_trans; [exact LT|exact L1]); try congruence.
  apply qs_departure_Ok in R as (a0 & h & a' & h' & line' & m & d1 & d & s & o & PA & _ & _ & _ & _ & _ & Q' & _ & W' & SO & ST); [|apply I|apply I].
  cbv zeta in ST. qch ST. qch PA. qch Q'.
  apply pop_agent_Ok in PA as (_ & PD & TA & _); [|apply I]. 
  assert (TA' : ag_time a0 = t) by congruence.
  destruct ST as [(ST & -> & -> & -> & ->)|(ST & b1 & b1' & _ & _ & TB & _ & PH & _)].
  2:{ apply SOME with (ag_time b1').
      - apply (Permutation_in _ (Permutation_sym PN)). apply in_or_app. right. rewrite Q'. unfold pend. qc. apply in_or_app. right.
        apply in_map. apply (Permutation_in _ (Permutation_sym PH)). left; reflexivity.
      - rewrite TB. apply FIN. congruence. }
  (* nobody was waiting and a server is free *)
  assert (SY := qi_sys _ I). assert (NA : na (q_dep q) = na h + 1) by (unfold na; rewrite PD; cbn [length]; lia).
  assert (C : eLe (Fin (na (q_dep q))) (q_servers q)) by (destruct LIM as [X|X]; [assert (Y := na_nonneg h); lia|exact X]).
  assert (SE : s = q_servers q) by (apply SO; exact NR).
  assert (FREE : eLe (Fin (q_nsys q' + 1)) (q_servers q')).
  { rewrite Q'. qc. rewrite SE. apply andb_false_iff in ST as [ST|ST].
    - apply Z.ltb_ge in ST. destruct (q_servers q); cbn in *; lia.
    - exfalso. apply eltb_ge in ST. destruct (q_servers q); cbn in *; lia. }
  clear ST Q' PD NA C SE LIM SY PE LT TD TA TA' DP DS W' SO.
  assert (N' : c_class (q_cfg q') <> CNull) by congruence.
  destruct (add_pend _ _ _ I' N' AD) as (P1 & _). assert (IA := qinv_add_arrival _ _ _ I' AD).
  assert (F : q_nsys q2a = q_nsys q' /\ q_servers q2a = q_servers q' /\ q_cfg q2a = q_cfg q' /\ eLe (hmin (q_arr q2a)) t).
  { assert (WA := qi_arr _ IA). apply add_arrival_Ok in AD as (ha & -> & _ & PA); [|exact N'|apply I'|apply I']. repeat split.
    qc. qch WA. change t with (ag_time (set_ag_time t b)). apply wfh_min; [exact WA|]. apply (Permutation_in _ (Permutation_sym PA)). left; reflexivity. }
  destruct F as (F1 & F2 & F3 & F4). set (qs := stopped max ag q2a) in *.
  assert (IS : qinv qs) by (unfold qs, stopped; destruct (_ && _); [destruct IA; split; assumption|exact IA]).
  assert (G : q_nsys qs = q_nsys q2a /\ q_servers qs = q_servers q2a /\ q_cfg qs = q_cfg q2a /\ pend qs = pend q2a /\ q_arr qs = q_arr q2a).
  { unfold qs, stopped. destruct (_ && _); auto. }
  destruct G as (G1 & G2 & G3 & G4 & G5).
  apply next_event_event in NX2 as (qe & PE & EV); [|apply IS|apply IS].
  destruct (pre_event_net _ _ PE) as (nd2 & ->).
  assert (CQ : q_cfg qs = q_cfg q) by congruence. assert (N'' : c_class (q_cfg (set_q_net nd2 qs)) <> CNull) by (qc; congruence).
  assert (INS : In t (pend qs)) by (rewrite G4; apply (Permutation_in _ (Permutation_sym P1)); left; reflexivity).
  assert (TS : q_time qs = t).
  { apply eLe_antisym; [apply pend_min; assumption|]. assert (X : q_time qs <> Inf).
    { intro X. assert (Y := pend_min _ IS _ INS). rewrite X in Y. apply eLe_Inf_l in Y. congruence. }
    apply (pend_in _ IS) in X. rewrite G4 in X. apply (Permutation_in _ P1) in X as [<-|X]; [apply eLe_refl|]. apply (qk_pend _ _ _ K'). exact X. }
  assert (ARR : hmin (q_arr qs) = t).
  { rewrite G5. apply eLe_antisym; [exact F4|]. rewrite <- TS, <- G5, (qi_time _ IS). apply emin_le_l. }
  destruct EV as [X _ _ _|_ L1 R|NN L1 L2 _ _ R|NN NS _ _ L1 _ R|CR|CR]; try congruence.
  - exfalso. destruct X as [X|[X _]]; congruence.
  - exfalso. assert (X := emin_le_r (hmin (q_arr qs)) (hmin (q_dep qs))). rewrite <- (qi_time _ IS), TS, <- ARR in X.
    apply (eLt_irrefl (hmin (q_dep qs))). eapply eLt_le_trans; [exact L1|exact X].
  - apply qs_arrival_Ok in R as (a3 & h3 & q3 & new3 & h' & line' & m & d3 & d4 & s1 & o1 & s3 & o3 & a1 & _ & PA & _ & _ & _ & _ & Q2 & _ & _ & SO1 & _ & ST); [|exact N''|apply IS|apply IS].
    qch PA. qch SO1. qch ST. apply pop_agent_Ok in PA as (_ & _ & TA & _); [|apply IS].
    assert (S1 : s1 = q_servers qs) by (apply SO1; qc; congruence).
    destruct ST as [(_ & _ & _ & (a2 & _ & T2 & _ & PH) & _)|(B & _)].
    + apply SOME with (ag_time a2).
      * rewrite Q2. unfold pend. qc. apply in_or_app. right. apply in_map. apply (Permutation_in _ (Permutation_sym PH)). left; reflexivity.
      * rewrite T2, CQ. apply FIN. congruence.
    + exfalso. apply eleb_gt in B. subst s1. rewrite G1, G2, F1, F2 in B. apply (eLt_irrefl (q_servers q')). eapply eLt_le_trans; eassumption.
  - exfalso. rewrite G1, G2, F1, F2, CQ in L1. rewrite CQ in NS. specialize (BUF NS).
    destruct (q_servers q'); destruct (c_buffer (q_cfg q)); cbn in *; try tauto; lia.
Qed.
