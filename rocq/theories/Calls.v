(** * Calls: how often the functions of the user are called, proofs *)
From Coq Require Import List ZArith QArith Lia Bool Permutation Arith.
From Verif Require Import Base Heap HeapProofs Queue QueueEffects QueueEvents QueueSteps QueueInv SpecQueue QueueFlow QueueHist QueueData QueueClaims1 QueueRows QueueClaims3 SpecCalls.
Import ListNotations.
Open Scope Z_scope.

(** ** Services *)

Lemma served_op o q r q' : qinv q -> c_class (q_cfg q) <> CNull -> no_clear o -> step o q = Ok (r, q') ->
  (length (in_service q') + length (departed1 (o, q, r, q')) + q_is q + again1 (o, q, r, q') = length (in_service q) + q_is q')%nat.
Proof.
  intros IV N NC H. assert (D : (exists t, o = ODelay t) \/ (forall t, o <> ODelay t)) by (destruct o; eauto; right; discriminate).
  destruct D as [(t & ->)|ND].
  - cbn [step run_op] in H. mbind H. injection H as <- <-. apply delay_service_Ok in E; [|exact N|apply IV|apply IV].
    unfold again1, departed1, in_service. change agents_in with agents_of. destruct E as [(Z & ->)|(a & h & h' & n & E)].
    + rewrite Z. destruct t; cbn [length]; lia.
    + cbv zeta in E. destruct E as (_ & -> & -> & _ & _ & P & P' & _). qc. apply Permutation_length in P, P'. cbn [length] in P, P'.
      destruct (agents_of (q_dep q)) as [|b l] eqn:A; [discriminate P|]. cbn [length] in *. destruct t; lia.
  - destruct (times_op o q r q' IV N NC ND H) as (_ & E & _). assert (Z : again1 (o, q, r, q') = 0%nat) by (destruct o; try reflexivity; destruct (ND t eq_refl)). lia.
Qed.

Lemma step_run o q r q' : step o q = Ok (r, q') -> run_op o q = Ok q'.
Proof.
  intro H. destruct o; cbn [step] in H; try (mbind H; congruence). cbn [run_op]. rewrite H. reflexivity.
Qed.

Lemma served_exec c n ops : c_class c <> CNull -> forall q0 log q, basics c n q0 -> Forall no_clear ops -> exec ops q0 = Ok (log, q) ->
  (length (in_service q) + length (departed log) + q_is q0 + agains log = length (in_service q0) + q_is q)%nat.
Proof.
  intro N. induction ops as [|o ops IH]; intros q0 log q B F H; cbn [exec] in H.
  - injection H as <- <-. cbn. lia.
  - mbind H. destruct x as [r q1]. mbind H. destruct x as [log1 q2]. injection H as <- <-. inversion F as [|? ? F1 F2]; subst.
    assert (B1 := basics_op _ _ _ _ _ B (step_run _ _ _ _ E)). assert (X := IH _ _ _ B1 F2 E0). destruct B as [IV C _ _ _].
    assert (Y := served_op o q0 r q1 IV ltac:(congruence) F1 E). unfold departed, agains in *. cbn [flat_map map list_sum fold_right]. rewrite app_length. unfold list_sum in X. lia.
Qed.

(** ** Arrivals *)

Lemma asked_same q q' : q_ia q' = q_ia q -> q_next_ct q' = q_next_ct q -> q_oarr q' = q_oarr q -> asked_step q q'.
Proof. intros. left. auto. Qed.

Lemma asked_draw q0 q q2 new q' : draw q q2 new -> q_ia q0 = q_ia q -> q_next_ct q0 = q_next_ct q -> q_oarr q0 = q_oarr q -> q_cfg q0 = q_cfg q ->
  q_ia q' = q_ia q2 -> q_next_ct q' = q_next_ct q2 -> q_oarr q' = q_oarr q2 -> q_now q' = q_now q -> q_active q' = q_active q2 -> q_arr q' = q_arr q2 -> asked_step q0 q'.
Proof.
  intros (tm & act & h & i & ct & -> & W & P & C) A1 A2 A3 A4 B1 B2 B3 B4 B5 B6. qch B1. qch B2. qch B3. qch B5. qch B6. unfold asked_step.
  destruct C as [(-> & -> & -> & -> & -> & _)|[(-> & -> & _ & -> & -> & -> & L & D & _)|(a & -> & _ & -> & -> & L & D & I & T & _)]]; cbn [length] in B3.
  - left. rewrite A1, A2, A3, B1, B2, B3. split; [reflexivity|]. split; [reflexivity|lia].
  - right. rewrite A1, A2, A3, A4, B1, B2, B3, B4, B5. split; [reflexivity|]. split; [reflexivity|]. split; [exact L|]. right. split; [exact D|]. split; [lia|reflexivity].
  - right. rewrite A1, A2, A3, A4, B1, B2, B3, B4. split; [reflexivity|]. split; [reflexivity|]. split; [exact L|]. left. split; [exact D|]. split; [lia|].
    exists a. split; [|split; [exact I|exact T]]. unfold scheduled. change agents_in with agents_of. rewrite B6. eapply Permutation_in; [symmetry; exact P|]. left. reflexivity.
Qed.

Lemma repeat_asked k : forall q q', wfh (q_dep q) -> repeat_service k q = Ok q' -> q_ia q' = q_ia q /\ q_next_ct q' = q_next_ct q /\ q_oarr q' = q_oarr q.
Proof.
  induction k as [|k IH]; intros q q' W H; cbn [repeat_service] in H; [injection H as <-; auto|].
  mbind H. apply service_from_queue_Ok in E as (a & line & a' & h & d & s & o & _ & -> & _ & _ & _ & W' & _); [|exact W]. apply IH in H; [exact H|exact W'].
Qed.
Lemma update_asked q q' : update_time q = Ok q' -> q_ia q' = q_ia q /\ q_next_ct q' = q_next_ct q /\ q_oarr q' = q_oarr q.
Proof. intro H. unfold update_time in H. repeat mbind H. injection H as <-. auto. Qed.
Lemma servers_asked n q q' : wfh (q_dep q) -> set_num_servers n q = Ok q' -> q_ia q' = q_ia q /\ q_next_ct q' = q_next_ct q /\ q_oarr q' = q_oarr q.
Proof.
  intros W H. assert (RQ : forall m, rq_set_num_servers m q = q' -> q_ia q' = q_ia q /\ q_next_ct q' = q_next_ct q /\ q_oarr q' = q_oarr q).
  { intros m <-. unfold rq_set_num_servers. destruct (eltb _ _); auto. }
  assert (QS : qs_set_num_servers n q = Ok q' -> q_ia q' = q_ia q /\ q_next_ct q' = q_next_ct q /\ q_oarr q' = q_oarr q).
  { clear H. intro H. unfold qs_set_num_servers in H. cbv zeta in H.
    assert (GO : forall m k, (let* q1 := repeat_service (Z.to_nat k) q in let* q2 := (if 0 <? k then update_time q1 else Ok q1) in Ok (set_q_servers m q2)) = Ok q' ->
              q_ia q' = q_ia q /\ q_next_ct q' = q_next_ct q /\ q_oarr q' = q_oarr q).
    { intros m k G. mbind G. mbind G. injection G as <-. apply repeat_asked in E as (R1 & R2 & R3); [|exact W]. qc.
      destruct (0 <? k); [apply update_asked in E0 as (U1 & U2 & U3); split; [congruence|split; congruence]|injection E0 as <-; auto]. }
    destruct n as [z| |]; [|destruct (q_servers q); [eapply GO; exact H|discriminate]|discriminate].
    destruct (z <=? 0); [discriminate|]. destruct (q_servers q); eapply GO; exact H. }
  unfold set_num_servers in H. destruct (c_class (q_cfg q)); auto; [injection H as <-; auto|]. destruct n; try discriminate; injection H as H; eapply RQ; exact H.
Qed.

Lemma asked_op o q q' : qinv q -> c_class (q_cfg q) <> CNull -> no_clear o -> run_op o q = Ok q' -> asked_step q q'.
Proof.
  intros IV N NC H. assert (Wa := qi_arr _ IV). assert (Wd := qi_dep _ IV).
  destruct o; cbn [run_op] in H.
  - mbind H. destruct x as [r q1]. injection H as <-. rename q1 into q'. apply next_event_event in E as (qe & PE & EV); [|exact Wa|exact Wd].
    destruct (pre_event_net _ _ PE) as (nd & ->).
    destruct EV as [ID _ -> ->|_ LT R|_ LE NI CAP _ R|_ NS LE NI CAP _ R|CR LE NI RT _ R|CR LE NI RT _ CAP R].
    + apply asked_same; reflexivity.
    + apply qs_departure_Ok in R; [|exact Wa|exact Wd].
      destruct R as (a & h & a' & h' & line' & n & d1 & d & s & o & PA & -> & I1 & T1 & K1 & B1 & -> & _). apply asked_same; reflexivity.
    + apply qs_arrival_Ok in R; [|exact N|exact Wa|exact Wd].
      destruct R as (a & h & q2 & new & h' & line' & n & d1 & d & s1 & o1 & s & o & a1 & -> & PA & DR & I1 & T1 & K1 & -> & _).
      eapply asked_draw; try exact DR; try reflexivity. apply draw_new in DR. qc. apply DR.
    + apply loss_blocked_Ok in R; [|exact N|exact Wa|exact Wd].
      destruct R as (a & h & q2 & new & d & -> & PA & DR & -> & D). eapply asked_draw; try exact DR; try reflexivity. apply draw_new in DR. qc. apply DR.
    + apply rq_return_Ok in R; [|exact Wa|exact Wd]. destruct R as (a & h & o & d & -> & PA & Wh & -> & O & D). apply asked_same; reflexivity.
    + apply rq_blocked_Ok in R; [|exact Wa|exact Wd]. destruct R as (a & h & d & -> & PA & Wh & -> & D). apply asked_same; reflexivity.
  - unfold set_active in H. destruct (q_active q) eqn:A; [injection H as <-; apply asked_same; reflexivity|].
    assert (H' : (if q_active (set_q_active true q) then add_arrival_self (set_q_active true q) else Ok q) = Ok q') by exact H.
    destruct (draw_Ok (set_q_active true q) q' N Wa Wd H) as (new & DR). eapply asked_draw; try exact DR; try reflexivity. apply draw_new in DR. apply DR.
  - injection H as <-. apply asked_same; reflexivity.
  - apply servers_asked in H as (? & ? & ?); [|exact Wd]. apply asked_same; assumption.
  - apply delay_service_Ok in H; [|exact N|exact Wa|exact Wd]. destruct H as [(_ & ->)|(a & h & h' & n & E)]; [apply asked_same; reflexivity|].
    cbv zeta in E. destruct E as (_ & -> & _). apply asked_same; reflexivity.
  - apply add_arrival_Ok in H as (h & -> & _); [|exact N|exact Wa|exact Wd]. apply asked_same; reflexivity.
  - injection H as <-. apply asked_same; reflexivity.
  - destruct NC.
  - injection H as <-. apply asked_same; reflexivity.
Qed.

Lemma asked_exec c n ops : c_class c <> CNull -> forall q0 log q, basics c n q0 -> Forall no_clear ops -> exec ops q0 = Ok (log, q) ->
  q_oarr q0 <= q_oarr q <= q_oarr q0 + Z.of_nat (q_ia q) - Z.of_nat (q_ia q0) /\
  ((forall i t, (q_ia q0 <= i < q_ia q)%nat -> eLt (c_arr c i t) (c_deactive_t c)) -> q_oarr q = q_oarr q0 + Z.of_nat (q_ia q) - Z.of_nat (q_ia q0)).
Proof.
  intro N. induction ops as [|o ops IH]; intros q0 log q B F H; cbn [exec] in H.
  - injection H as <- <-. split; [lia|]. intros _. lia.
  - mbind H. destruct x as [r q1]. mbind H. destruct x as [log1 q2]. injection H as <- <-. inversion F as [|? ? F1 F2]; subst.
    apply step_run in E. assert (B1 := basics_op _ _ _ _ _ B E). destruct (IH _ _ _ B1 F2 E0) as [X Y]. destruct B as [IV C _ _ _].
    assert (Z := asked_op o q0 q1 IV ltac:(congruence) F1 E). unfold asked_step in Z. rewrite C in Z.
    destruct Z as [(Z1 & _ & Z3)|(Z1 & Z2 & _ & [(_ & Z3 & _)|(D & Z3 & _)])]; rewrite Z1, Z3 in *.
    + split; [lia|exact Y].
    + split; [lia|]. intro L. rewrite Y; [lia|]. intros i t G. apply L. lia.
    + split; [lia|]. intro L. exfalso. rewrite Z2 in D. assert (G : (q_ia q0 <= q_ia q0 < q_ia q2)%nat) by lia. assert (L' := L _ (q_now q1) G).
      apply (proj1 (eLt_not_le _ _) L' D).
Qed.
