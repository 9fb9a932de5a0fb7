(** * QueueClaims2: proofs of C10-C16 *)
From Coq Require Import List ZArith QArith Lia Bool Permutation Arith.
From Verif Require Import Base Heap HeapProofs Queue QueueEffects QueueEvents QueueSteps QueueInv SpecQueue QueueFlow QueueHist QueueClaims1.
Import ListNotations.
Open Scope Z_scope.

(** ** Effect of one call on the arrival process *)

(** One call draws at most one arrival time. *)
Record arrproc (q q' : queue) : Prop := mkArrproc {
  ap_cases :
   (* no draw *)
   (q_ia q' = q_ia q /\ q_oarr q' = q_oarr q /\ q_next_ct q' = q_next_ct q) \/
   (* deactive_t reached *)
   (q_ia q' = S (q_ia q) /\ q_oarr q' = q_oarr q /\ q_active q' = false /\
    eLe (c_deactive_t (q_cfg q)) (q_next_ct q') /\ q_next_ct q' = c_arr (q_cfg q) (q_ia q) (q_now q')) \/
   (* an agent is created *)
   (q_ia q' = S (q_ia q) /\ q_oarr q' = q_oarr q + 1 /\
    q_active q' = (if eleb (c_active_cap (q_cfg q)) (Fin (q_oarr q + 1)) then false else true) /\
    eLt (q_next_ct q') (c_deactive_t (q_cfg q)) /\ q_next_ct q' = c_arr (q_cfg q) (q_ia q) (q_now q') /\
    exists a, In a (agents_of (q_arr q')) /\ ag_id a = (c_idx (q_cfg q), q_oarr q) /\ ag_time a = q_next_ct q')
}.

Lemma draw_arrproc q q2 new : draw q q2 new ->
  (q_active q = false -> q_active q2 = false /\ q_ia q2 = q_ia q) /\
  (q_active q = true -> q_ia q2 = q_ia q -> q_active q2 = true) /\ arrproc q q2 /\
  (forall a, In a (agents_of (q_arr q2)) -> In a (agents_of (q_arr q)) \/ eLt (ag_time a) (c_deactive_t (q_cfg q))).
Proof.
  intros (tm & act & h & i & ct & -> & W & P & C). qc.
  destruct C as [(-> & -> & -> & -> & -> & _)|[(-> & -> & A & -> & -> & -> & LE & DT & _)|(a & -> & A & -> & -> & LE & DT & IA & TA & _ & _ & _ & ->)]].
  - split; [auto|]. split; [auto|]. split; [split; left; cbn; rewrite Z.add_0_r; auto|].
    intros a X. left. exact X.
  - split; [congruence|]. split; [intros _ X; lia|]. split; [split; right; left; cbn; rewrite Z.add_0_r; auto 6|].
    intros a X. left. exact X.
  - split; [congruence|]. split; [intros _ X; lia|]. split.
    + split; right; right; cbn. do 3 (split; [reflexivity|]). split; [exact DT|]. split; [reflexivity|].
      exists a. split; [apply (Permutation_in a (Permutation_sym P)); left; reflexivity|]. auto.
    + intros b X. apply (in_perm_cons _ _ _ P) in X. destruct X as [<-|X]; [right; rewrite TA; exact DT | left; exact X].
Qed.

(** Summary for any call except clear. *)
Lemma op_arrproc o q q' : qinv q -> no_clear o -> run_op o q = Ok q' ->
  arrproc q q' /\
  (q_ia q' = q_ia q -> q_active q' = match o with
      | OActive => true | OInactive => false | _ => q_active q end) /\
  (o <> OActive -> q_active q = false -> q_active q' = false /\ q_ia q' = q_ia q) /\
  (forall a, In a (agents_of (q_arr q')) ->
     In a (agents_of (q_arr q)) \/ o = OArrive a \/ eLt (ag_time a) (c_deactive_t (q_cfg q))).
Proof.
  intros I NC H. assert (Wa := qi_arr _ I). assert (Wd := qi_dep _ I).
  assert (SAME : forall q1, q_ia q1 = q_ia q -> q_oarr q1 = q_oarr q -> q_next_ct q1 = q_next_ct q -> arrproc q q1).
  { intros q1 A B C. split. left. auto. }
  assert (POP : forall a h x, pop_agent (q_arr q) = Ok (a, h) -> In x (agents_of h) -> In x (agents_of (q_arr q))).
  { intros a h x P X. apply pop_agent_Ok in P as (_ & P & _ & _); [|exact Wa].
    apply (Permutation_in x (Permutation_sym P)). right; exact X. }
  destruct o; cbn [run_op] in H.
  - mbind H. destruct x as [r q1]. inversion H; subst q1. clear H.
    apply next_event_event in E as (qe & PE & EV); [|exact Wa|exact Wd].
    destruct (pre_event_net _ _ PE) as (nd & ->).
    destruct EV as [ID QE -> _|NN LT R|NN LE NI CAP _ R|NN NS LE NI CAP _ R|CR LE NI RT _ R|CR LE NI RT _ CAP R].
    + split; [apply SAME; reflexivity|]. split; [auto|]. split; [auto|]. auto.
    + apply qs_departure_Ok in R; [|exact Wa|exact Wd]. qch R.
      destruct R as (a & h & a' & h' & line' & n & d1 & dd & s & o & P & _ & _ & _ & _ & _ & -> & _).
      split; [apply SAME; reflexivity|]. split; [auto|]. split; [auto|]. auto.
    + apply qs_arrival_Ok in R; [|exact NN|exact Wa|exact Wd]. qch R.
      destruct R as (a & h & q2 & new & h' & line' & n & d1 & d & s1 & o1 & s & o & a1 & _ & P & DR & _ & _ & _ & -> & _).
      assert (DR' := DR). apply draw_arrproc in DR as (A1 & A2 & [A3] & A4). qch A1; qch A2; qch A3; qch A4.
      split; [split; qc; exact A3|]. qc. split.
      { intro X. destruct (q_active q) eqn:AC; [apply A2; auto|]. apply A1; reflexivity. }
      split; [intros _; exact A1|]. intros b B. destruct (A4 b B) as [X|X]; [left; eapply POP; eauto | auto].
    + apply loss_blocked_Ok in R; [|exact NN|exact Wa|exact Wd]. qch R.
      destruct R as (a & h & q2 & new & d & _ & P & DR & -> & _).
      assert (DR' := DR). apply draw_arrproc in DR as (A1 & A2 & [A3] & A4). qch A1; qch A2; qch A3; qch A4.
      split; [split; qc; exact A3|]. qc. split.
      { intro X. destruct (q_active q) eqn:AC; [apply A2; auto|]. apply A1; reflexivity. }
      split; [intros _; exact A1|]. intros b B. destruct (A4 b B) as [X|X]; [left; eapply POP; eauto | auto].
    + apply rq_return_Ok in R; [|exact Wa|exact Wd]. destruct R as (a & h & o & d & _ & P & _ & -> & _).
      split; [apply SAME; reflexivity|]. split; [auto|]. split; [auto|]. qc. intros b B. left; eapply POP; eauto.
    + apply rq_blocked_Ok in R; [|exact Wa|exact Wd]. destruct R as (a & h & d & _ & P & _ & -> & _).
      split; [apply SAME; reflexivity|]. split; [auto|]. split; [auto|]. qc. intros b B. left; eapply POP; eauto.
  - unfold set_active in H. destruct (q_active q) eqn:AC.
    { inversion H; subst. split; [apply SAME; reflexivity|]. split; [auto|]. split; [congruence|]. auto. }
    unfold add_arrival_self in H. qch H.
    assert (G : add_arrival_new (set_q_active true q) = Ok q' -> arrproc q q' /\ (q_ia q' = q_ia q -> q_active q' = true) /\
      (forall a, In a (agents_of (q_arr q')) -> In a (agents_of (q_arr q)) \/ OActive = OArrive a \/ eLt (ag_time a) (c_deactive_t (q_cfg q)))).
    { clear H. intro H. apply add_arrival_new_Ok in H; [|exact Wa|exact Wd]. cbv zeta in H. qch H.
      destruct H as [(_ & ->)|[(_ & DT & _ & ->)|(_ & DT & a & h & act & -> & IA & TB & _ & _ & _ & _ & P & ->)]].
      - split; [apply SAME; reflexivity|]. qc. auto.
      - split; [split; right; left; qc; auto 6|]. qc. split; [intro; lia|auto].
      - split; [split; right; right; qc|].
        + do 3 (split; [reflexivity|]). split; [exact DT|]. split; [reflexivity|]. exists a.
          split; [apply (Permutation_in a (Permutation_sym P)); left; reflexivity|]. auto.
        + qc. split; [intro; lia|]. intros b B. apply (in_perm_cons _ _ _ P) in B. destruct B as [<-|B]; [|auto].
          right; right. rewrite TB. exact DT. }
    assert (G2 : q' = set_q_active true q \/ add_arrival_new (set_q_active true q) = Ok q')
      by (destruct (c_class (q_cfg q)); auto; left; congruence).
    destruct G2 as [->|G2].
    + split; [apply SAME; reflexivity|]. split; [auto|]. split; [congruence|]. auto.
    + destruct (G G2) as (B1 & B2 & B3). split; [exact B1|]. split; [exact B2|]. split; [congruence|]. exact B3.
  - inversion H; subst. split; [apply SAME; reflexivity|]. split; [auto|]. split; [auto|]. auto.
  - assert (G : q_ia q' = q_ia q /\ q_oarr q' = q_oarr q /\ q_next_ct q' = q_next_ct q /\ q_active q' = q_active q /\ q_arr q' = q_arr q).
    { unfold set_num_servers in H.
      assert (G : c_class (q_cfg q) <> CResource -> qs_set_num_servers n q = Ok q' ->
         q_ia q' = q_ia q /\ q_oarr q' = q_oarr q /\ q_next_ct q' = q_next_ct q /\ q_active q' = q_active q /\ q_arr q' = q_arr q).
      { clear H. intros NR H. apply qs_set_num_servers_Ok in H; [|exact I|exact NR].
        destruct H as (m & k & h & d & new & _ & _ & _ & _ & _ & -> & _). qc. auto 6. }
      assert (RI : forall m, q' = rq_set_num_servers m q ->
         q_ia q' = q_ia q /\ q_oarr q' = q_oarr q /\ q_next_ct q' = q_next_ct q /\ q_active q' = q_active q /\ q_arr q' = q_arr q).
      { intros m ->. unfold rq_set_num_servers. destruct (eltb (c_max_servers (q_cfg q)) m); qc; auto 6. }
      destruct (c_class (q_cfg q)) eqn:C; try (apply G; [congruence | exact H]).
      - inversion H; subst q'. auto 6.
      - destruct n; inversion H; subst; eapply RI; reflexivity. }
    destruct G as (G1 & G2 & G3 & G4 & G5).
    split; [apply SAME; assumption|]. split; [auto|]. split; [rewrite G4; auto|]. rewrite G5. auto.
  - assert (G : exists h k tm, q' = set_q_time tm (set_q_dep h (set_q_is k q))).
    { destruct (c_class (q_cfg q)) eqn:C.
      3:{ unfold delay_service in H. rewrite C in H. inversion H; subst. exists (q_dep q'), (q_is q'), (q_time q'). reflexivity. }
      all: (apply delay_service_Ok in H; [|congruence|exact Wa|exact Wd]);
        (destruct H as [(_ & ->)|(a & h & h' & n & H)]; [exists (q_dep q), (q_is q), (q_time q); reflexivity|]);
        cbv zeta in H; destruct H as (_ & -> & _); eauto. }
    destruct G as (h & k & tm & ->).
    split; [apply SAME; reflexivity|]. split; [auto|]. split; [auto|]. auto.
  - destruct (c_class (q_cfg q)) eqn:C.
    3:{ apply add_arrival_null in H as (d & -> & _); [|exact C].
        split; [apply SAME; reflexivity|]. split; [auto|]. split; [auto|]. auto. }
    all: (apply add_arrival_Ok in H as (h & -> & _ & P); [|congruence|exact Wa|exact Wd]);
      (split; [apply SAME; reflexivity|]); (split; [auto|]); (split; [auto|]); qc;
      intros b B; apply (in_perm_cons _ _ _ P) in B; (destruct B as [<-|B]; auto).
  - inversion H; subst. split; [apply SAME; reflexivity|]. split; [auto|]. split; [auto|]. auto.
  - destruct NC.
  - inversion H; subst. split; [apply SAME; reflexivity|]. split; [auto|]. split; [auto|]. auto.
Qed.

(** ** C10 *)

Definition capinv (cap m : Z) (q : queue) : Prop :=
  0 <= q_oarr q /\
  (m = 0 -> q_oarr q = 0 /\ q_active q = false) /\
  (0 < m -> q_oarr q <= cap + m - 1 /\ (q_active q = true -> q_oarr q < cap + m - 1)).

Lemma capinv_op cap m o q q' : 1 <= cap -> 0 <= m -> c_active_cap (q_cfg q) = Fin cap -> qinv q ->
  capinv cap m q -> run_op o q = Ok q' -> capinv cap (m + activations [o]) q'.
Proof.
  intros CP M CC I (A0 & A1 & A2) H. destruct (clear_dec o) as [->|NC].
  - cbn [run_op] in H. inversion H; subst. cbn. rewrite Z.add_0_r. unfold capinv, clear, qs_clear.
    destruct (c_class (q_cfg q)); cbn; try (split; [lia|]; split; [auto|]; intros; split; [lia|discriminate]).
    split; [exact A0|]. split; assumption.
  - destruct (op_arrproc o q q' I NC H) as ([AP] & B1 & B2 & _).
    assert (ACT : activations [o] = if match o with OActive => true | _ => false end then 1 else 0) by (destruct o; reflexivity).
    rewrite ACT. rewrite CC in AP.
    assert (D : o = OActive \/ o <> OActive) by (destruct o; auto; right; discriminate).
    destruct D as [->|NA].
    + destruct AP as [(P1 & P2 & _)|[(P1 & P2 & P3 & _)|(P1 & P2 & P3 & _)]]; unfold capinv.
      * rewrite P2. split; [exact A0|]. split; [intro; lia|]. intros _.
        destruct (Z.eq_dec m 0) as [->|NZ]; [destruct (A1 eq_refl); lia|]. assert (0 < m) by lia. destruct (A2 H0). lia.
      * rewrite P2, P3. split; [exact A0|]. split; [intro; lia|]. intros _. split; [|discriminate].
        destruct (Z.eq_dec m 0) as [->|NZ]; [destruct (A1 eq_refl); lia|]. assert (0 < m) by lia. destruct (A2 H0). lia.
      * rewrite P2, P3. split; [lia|]. split; [intro; lia|]. intros _.
        assert (X : q_oarr q + 1 <= cap + m).
        { destruct (Z.eq_dec m 0) as [->|NZ]; [destruct (A1 eq_refl); lia|]. assert (0 < m) by lia. destruct (A2 H0). lia. }
        split; [lia|]. destruct (eleb (Fin cap) (Fin (q_oarr q + 1))) eqn:C; [discriminate|].
        apply eleb_gt in C. cbn in C. lia.
    + replace (if match o with OActive => true | _ => false end then 1 else 0) with 0 by (destruct o; congruence).
      rewrite Z.add_0_r. unfold capinv.
      destruct AP as [(P1 & P2 & _)|[(P1 & P2 & P3 & _)|(P1 & P2 & P3 & _)]].
      * rewrite P2. split; [exact A0|]. split.
        { intro M0. destruct (A1 M0) as (X & Y). split; [exact X|]. apply (B2 NA Y). }
        intro M1. destruct (A2 M1) as (X & Y). split; [exact X|]. intro AC.
        apply Y. destruct (q_active q) eqn:E; [reflexivity|]. destruct (B2 NA eq_refl). congruence.
      * rewrite P2, P3. split; [exact A0|]. split; [intro M0; split; [apply A1; exact M0 | reflexivity]|].
        intro M1. split; [apply A2; exact M1 | discriminate].
      * rewrite P2, P3.
        assert (AC : q_active q = true).
        { destruct (q_active q) eqn:E; [reflexivity|]. destruct (B2 NA eq_refl). lia. }
        assert (M1 : 0 < m).
        { destruct (Z.eq_dec m 0) as [->|NZ]; [|lia]. destruct (A1 eq_refl). congruence. }
        destruct (A2 M1) as (X & Y). specialize (Y AC).
        split; [lia|]. split; [lia|]. intros _. split; [lia|].
        destruct (eleb (Fin cap) (Fin (q_oarr q + 1))) eqn:C; [discriminate|].
        apply eleb_gt in C. cbn in C. lia.
Qed.

Lemma activations_nonneg ops : 0 <= activations ops.
Proof. unfold activations, zlen. lia. Qed.

Lemma activations_cons o ops : activations (o :: ops) = activations [o] + activations ops.
Proof. unfold activations, zlen. cbn [filter]. destruct o; cbn [length]; lia. Qed.

Lemma capped c s col n cap ops q : 1 <= cap -> c_active_cap c = Fin cap ->
  run_ops ops (new_queue c s col n) = Ok q ->
  zlen (created q) = q_oarr q /\
  (activations ops = 0 -> q_oarr q = 0) /\ (0 < activations ops -> q_oarr q <= cap + activations ops - 1).
Proof.
  intros CP CC H.
  assert (G : forall ops m q0, 0 <= m -> basics c n q0 -> capinv cap m q0 -> run_ops ops q0 = Ok q ->
              capinv cap (m + activations ops) q).
  { clear H ops. induction ops as [|o ops IH]; intros m q0 M B K H; cbn [run_ops] in H.
    - inversion H; subst. cbn. rewrite Z.add_0_r. exact K.
    - mbind H. rewrite activations_cons, Z.add_assoc. eapply IH; [|eapply basics_op; eauto| |exact H].
      + assert (X := activations_nonneg [o]). lia.
      + destruct B. eapply capinv_op; eauto. congruence. }
  assert (K : capinv cap (0 + activations ops) q).
  { eapply G; [lia|apply basics_new| |exact H]. unfold capinv. cbn. split; [lia|]. split; [auto | intro; lia]. }
  destruct K as (A0 & A1 & A2). rewrite Z.add_0_l in *.
  split; [|split; [intro X; apply A1; exact X | intro X; apply A2; exact X]].
  unfold zlen, created. rewrite map_length, seq_length. lia.
Qed.

(** ** C11 *)

Lemma deactivated c s col n q o q' : reach anything (new_queue c s col n) q -> no_clear o -> run_op o q = Ok q' ->
  (forall a, In a (scheduled q') -> In a (scheduled q) \/ o = OArrive a \/ eLt (ag_time a) (c_deactive_t c)) /\
  (q_ia q' <> q_ia q -> eLe (c_deactive_t c) (q_next_ct q') -> q_active q' = false /\ q_oarr q' = q_oarr q).
Proof.
  intros R NC H. apply basics_reach in R as [I C _ _ _]. subst c.
  destruct (op_arrproc o q q' I NC H) as ([AP] & _ & _ & B). split; [exact B|].
  intros D LE. destruct AP as [(P1 & P2 & _)|[(P1 & P2 & P3 & _)|(P1 & P2 & P3 & P4 & _)]]; [congruence|auto|].
  exfalso. exact (eLt_irrefl _ (eLt_le_trans _ _ _ P4 LE)).
Qed.

(** Stand-alone: every scheduled arrival lies before deactive_t. *)
Lemma all_before c s col n q a : reach alone (new_queue c s col n) q -> In a (scheduled q) ->
  eLt (ag_time a) (c_deactive_t c).
Proof.
  intro R. revert a. induction R as [|q o q' R IH OK H]; [intros a []|].
  apply basics_reach in R as [I C _ _ _]. subst c. intros a X.
  destruct (clear_dec o) as [->|NC].
  - cbn [run_op] in H. inversion H; subst. unfold scheduled, clear in *.
    destruct (c_class (q_cfg q)); try destruct X. apply IH. exact X.
  - destruct (op_arrproc o q q' I NC H) as (_ & _ & _ & B). destruct (B a X) as [Y|[->|Y]]; [apply IH; exact Y|destruct OK|exact Y].
Qed.

(** ** C12 *)

Lemma emin_Inf a b : emin a b = Inf -> a = Inf /\ b = Inf.
Proof. unfold emin. destruct a, b; cbn; auto; try discriminate. destruct (z <? z0); discriminate. Qed.

Lemma idle_event q : qinv q -> q_time q = Inf -> next_event q = Ok (None, q).
Proof.
  intros I T. assert (Wa := qi_arr _ I). assert (Wd := qi_dep _ I). rewrite (qi_time _ I) in T.
  apply emin_Inf in T as (A & D).
  assert (Q : qs_next_event q = Ok (None, q)).
  { unfold qs_next_event. rewrite (wfh_root_time _ Wa), (wfh_root_time _ Wd), A, D. reflexivity. }
  assert (L : loss_next_event q = Ok (None, q)).
  { unfold loss_next_event. rewrite (wfh_root_time _ Wa), (wfh_root_time _ Wd), A, D. reflexivity. }
  destruct (wfh_nonempty _ Wa) as (i & h & E). destruct (wfh_nonempty _ Wd) as (i2 & h2 & E2).
  unfold next_event. destruct (c_class (q_cfg q)); auto.
  - unfold rq_next_event. rewrite E. destruct i as [|a]; [exact L|].
    destruct (ag_kind a); try exact L. rewrite (wfh_root_time _ Wd), D. cbn [bind].
    rewrite E in A. cbn in A. rewrite A. reflexivity.
  - unfold info_next_event. rewrite E. rewrite (wfh_root_time _ Wd), D. cbn [bind].
    rewrite E in A. cbn in A. rewrite A. cbn [bind eltb]. exact L.
Qed.

Lemma idle_simulate c s col n q k : reach anything (new_queue c s col n) q -> q_time q = Inf ->
  next_event q = Ok (None, q) /\ simulate_n k q = Ok q.
Proof.
  intros R T. apply basics_reach in R as [I _ _ _ _]. assert (E := idle_event q I T).
  split; [exact E|]. induction k as [|k IH]; [reflexivity|]. cbn [simulate_n]. rewrite E. exact IH.
Qed.

(** ** C13 *)

Lemma one_event q r q' : qinv q -> c_class (q_cfg q) <> CNull -> c_class (q_cfg q) <> CResource ->
  next_event q = Ok (r, q') ->
  (q_time q = Inf /\ q' = q) \/ (q_time q <> Inf /\ events q' = events q + 1).
Proof.
  intros I N NR H. assert (Wa := qi_arr _ I). assert (Wd := qi_dep _ I).
  assert (H0 := H). apply next_event_event in H as (qe & PE & EV); [|exact Wa|exact Wd].
  destruct (pre_event_net _ _ PE) as (nd & ->).
  assert (IE : qinv (set_q_net nd q)) by (destruct I; split; assumption).
  assert (TM := qi_time _ I).
  destruct EV as [ID QE -> _|NN LT R|NN LE NI CAP _ R|NN NS LE NI CAP _ R|CR LE NI RT _ R|CR LE NI RT _ CAP R]; try congruence.
  - left. split; [|reflexivity]. destruct ID as [X|(A & D)]; [congruence|]. rewrite TM, A, D. reflexivity.
  - right. apply flow_departure in R as (a & st & -> & FL & SZ & D1 & D2 & D3 & D4 & _); [|exact IE].
    qch D1. qch D3. qch D4. split; [|unfold events; lia].
    rewrite TM, (emin_eq_ge _ _ (eLt_le _ _ LT)). intro X; rewrite X in LT; exact LT.
  - right. apply flow_arrival in R as (a & h & new & st & -> & PA & FL & D1 & D2 & D3 & D4 & _); [|exact NN|exact IE].
    qch D1. qch D3. qch D4. split; [|unfold events; lia].
    rewrite TM. intro X. apply emin_Inf in X as (X & _). contradiction.
  - right. apply flow_blocked in R as (a & h & new & -> & PA & FL & D1 & D2 & D3 & D4 & _); [|exact NN|exact IE].
    qch D1. qch D3. qch D4. split; [|unfold events; lia].
    rewrite TM. intro X. apply emin_Inf in X as (X & _). contradiction.
Qed.

Lemma next_cfg q r q' : qinv q -> next_event q = Ok (r, q') -> q_cfg q' = q_cfg q.
Proof. intros I H. apply next_frame in H as [F _ _ _]; [exact F | exact I]. Qed.

Lemma simulate_n_events k : forall q q', qinv q -> c_class (q_cfg q) <> CNull -> c_class (q_cfg q) <> CResource ->
  simulate_n k q = Ok q' ->
  (q_time q' <> Inf -> events q' = events q + Z.of_nat k) /\ events q <= events q' <= events q + Z.of_nat k.
Proof.
  induction k as [|k IH]; intros q q' I N NR H; cbn [simulate_n] in H.
  - inversion H; subst. lia.
  - mbind H. destruct x as [r q1].
    assert (I1 := qinv_next _ _ _ I E). assert (C1 := next_cfg _ _ _ I E).
    destruct (IH q1 q' I1 ltac:(congruence) ltac:(congruence) H) as (A & B).
    destruct (one_event _ _ _ I N NR E) as [(T & ->)|(T & EV)].
    + split; [|lia]. intro X. exfalso. apply X.
      assert (S : simulate_n k q = Ok q).
      { clear - T I. assert (E := idle_event q I T). induction k as [|k IH]; [reflexivity|]. cbn [simulate_n]. rewrite E. exact IH. }
      rewrite S in H. inversion H; subst. exact T.
    + split; [|lia]. intro X. specialize (A X). lia.
Qed.

(** A loop that ends has left its condition or has nothing to do; every state
    it went through before satisfied the condition. *)
Lemma while_spec fuel cond : forall q q' (P : queue -> Prop),
  simulate_while fuel cond q = Some (Ok q') -> P q ->
  (forall q1 r q2, P q1 -> cond q1 = true -> q_time q1 <> Inf -> next_event q1 = Ok (r, q2) -> P q2) ->
  P q' /\ (cond q' = false \/ q_time q' = Inf).
Proof.
  induction fuel as [|fuel IH]; intros q q' P H PQ ST; cbn [simulate_while] in H.
  - destruct (cond q && eltb (q_time q) Inf) eqn:C; [discriminate|]. inversion H; subst. split; [exact PQ|].
    apply andb_false_iff in C as [C|C]; [left; exact C|]. right. destruct (q_time q'); [discriminate | reflexivity].
  - destruct (cond q && eltb (q_time q) Inf) eqn:C.
    + apply andb_true_iff in C as [C1 C2].
      destruct (next_event q) as [[r q1]|] eqn:E; [|discriminate].
      eapply IH; [exact H| |exact ST]. eapply ST; eauto. intro X. rewrite X in C2. discriminate.
    + inversion H; subst. split; [exact PQ|].
      apply andb_false_iff in C as [C|C]; [left; exact C|]. right. destruct (q_time q'); [discriminate | reflexivity].
Qed.

Lemma next_departed q r q' : qinv q -> next_event q = Ok (r, q') -> q_departed q' <= q_departed q + 1.
Proof.
  intros I H. destruct (c_class (q_cfg q)) eqn:C.
  3:{ unfold next_event in H. rewrite C in H. inversion H; subst. lia. }
  all: destruct (step_flow ONext q r q' I) as ([_ F _ _] & _); [congruence|exact Logic.I|exact H|];
    cbn in F; destruct r; cbn in F; lia.
Qed.

Lemma next_oarr q r q' : qinv q -> next_event q = Ok (r, q') -> q_oarr q' <= q_oarr q + 1.
Proof.
  intros I H. destruct (op_arrproc ONext q q' I Logic.I) as ([AP] & _).
  { cbn [run_op]. rewrite H. reflexivity. }
  destruct AP as [(P1 & P2 & _)|[(P1 & P2 & P3 & _)|(P1 & P2 & P3 & _)]]; lia.
Qed.

Lemma simulate_nD_exact c s col n q fuel k q' : reach anything (new_queue c s col n) q -> 0 <= k ->
  simulate_nD fuel k q = Some (Ok q') ->
  q_departed q' = q_departed q + k \/ (q_time q' = Inf /\ q_departed q' < q_departed q + k).
Proof.
  intros R K H. apply basics_reach in R as [I _ _ _ _]. unfold simulate_nD in H.
  apply while_spec with (P := fun x => qinv x /\ q_departed x <= q_departed q + k) in H.
  - destruct H as ((_ & A) & [C|C]).
    + apply Z.ltb_ge in C. left. lia.
    + destruct (Z.eq_dec (q_departed q') (q_departed q + k)); [left; assumption | right; split; [exact C | lia]].
  - split; [exact I | lia].
  - intros q1 r q2 (I1 & A) C _ E. split; [eapply qinv_next; eauto|]. apply Z.ltb_lt in C.
    apply next_departed in E; [lia | exact I1].
Qed.

Lemma simulate_nA_exact c s col n q fuel k q' : reach anything (new_queue c s col n) q -> 0 <= k ->
  simulate_nA fuel k q = Some (Ok q') ->
  q_oarr q' = q_oarr q + k \/ (q_time q' = Inf /\ q_oarr q' < q_oarr q + k).
Proof.
  intros R K H. apply basics_reach in R as [I _ _ _ _]. unfold simulate_nA in H.
  apply while_spec with (P := fun x => qinv x /\ q_oarr x <= q_oarr q + k) in H.
  - destruct H as ((_ & A) & [C|C]).
    + apply Z.ltb_ge in C. left. lia.
    + destruct (Z.eq_dec (q_oarr q') (q_oarr q + k)); [left; assumption | right; split; [exact C | lia]].
  - split; [exact I | lia].
  - intros q1 r q2 (I1 & A) C _ E. split; [eapply qinv_next; eauto|]. apply Z.ltb_lt in C.
    apply next_oarr in E; [lia | exact I1].
Qed.

(** simulate(t): ends at or after the requested time or with nothing
    scheduled, and every event it performed began before that time. *)
Lemma simulate_t_exact c s col n q fuel t q' : reach anything (new_queue c s col n) q ->
  simulate_t fuel t q = Some (Ok q') ->
  (eLe (eadd (q_now q) t) (q_now q') \/ q_time q' = Inf) /\
  (q' = q \/ exists q1 r, eLt (q_now q1) (eadd (q_now q) t) /\ q_time q1 <> Inf /\ next_event q1 = Ok (r, q')).
Proof.
  intros R H. unfold simulate_t in H.
  apply while_spec with (P := fun x => x = q \/ exists q1 r, eLt (q_now q1) (eadd (q_now q) t) /\
     q_time q1 <> Inf /\ next_event q1 = Ok (r, x)) in H; auto.
  - destruct H as (P & [C|C]); (split; [|exact P]); [left; apply eltb_ge; exact C | right; exact C].
  - intros q1 r q2 _ C T E. right. exists q1, r. apply eltb_lt in C. auto.
Qed.

Lemma simulate_n_exact c s col n q k q' : c_class c <> CNull -> c_class c <> CResource ->
  reach anything (new_queue c s col n) q -> simulate_n k q = Ok q' ->
  (q_time q' <> Inf -> events q' = events q + Z.of_nat k) /\ events q <= events q' <= events q + Z.of_nat k.
Proof. intros N NR R. apply basics_reach in R as [I C _ _ _]. subst c. apply simulate_n_events; assumption. Qed.

(** ** C14 *)

Lemma clear_like_new c s col n q : c_class c = CServer \/ c_class c = CLoss \/ c_class c = CInfo ->
  reach anything (new_queue c s col n) q ->
  clear q = set_q_is (q_is q) (set_q_ia (q_ia q) (new_queue c (q_servers q) (q_collect q) n)).
Proof.
  intros K R. apply basics_reach in R as [I C L O B]. unfold clear, new_queue, qs_clear. rewrite C.
  destruct K as [K|[K|K]]; rewrite K in *; cbn; rewrite O by congruence.
  - rewrite B by auto. destruct (q_net q); [reflexivity | discriminate].
  - destruct (q_net q); [reflexivity | discriminate].
  - rewrite L. reflexivity.
Qed.

(** ** C15 *)

Lemma delay_touches c s col n q t q' : c_class c <> CNull -> reach anything (new_queue c s col n) q ->
  delay_service t q = Ok q' ->
  (in_service q = [] /\ q' = q) \/
  exists a rest, let t' := match t with Some t => t | None => c_srv c (q_is q) (ag_time a) end in
    Permutation (in_service q) (a :: rest) /\ (forall b, In b (in_service q) -> eLe (ag_time a) (ag_time b)) /\
    Permutation (in_service q') (set_ag_time t' a :: rest) /\
    scheduled q' = scheduled q /\ waiting q' = waiting q /\ q_nsys q' = q_nsys q /\ q_narr q' = q_narr q /\
    q_departed q' = q_departed q /\ q_blocked q' = q_blocked q /\ q_servers q' = q_servers q /\
    q_now q' = q_now q /\ q_data q' = q_data q /\ least_time (scheduled q' ++ in_service q') (q_time q').
Proof.
  intros N R H. apply basics_reach in R as [I C _ _ _]. subst c.
  assert (I' := qinv_delay _ _ _ I H).
  apply delay_service_Ok in H; [|exact N|apply I|apply I].
  destruct H as [(A & ->)|(a & h & h' & m & H)]; [left; auto|right].
  cbv zeta in H. destruct H as (PA & Q & _ & W & W' & P & P' & T). subst q'.
  exists a, (agents_of h). split; [exact P|]. split.
  { intros b B. rewrite T. apply wfh_min; [apply I | exact B]. }
  split; [destruct t; exact P'|]. do 9 (split; [reflexivity|]).
  rewrite (qi_time _ I'). apply least_min; apply I'.
Qed.

(** ** C16 *)

Lemma servers_rejected q z : c_class (q_cfg q) <> CNull -> c_class (q_cfg q) <> CResource -> z <= 0 ->
  set_num_servers (PInt z) q = Err ValueError.
Proof.
  intros N NR Z0. unfold set_num_servers. assert (X : qs_set_num_servers (PInt z) q = Err ValueError).
  { unfold qs_set_num_servers. destruct (Z.leb_spec z 0); [reflexivity | lia]. }
  destruct (c_class (q_cfg q)); congruence.
Qed.

Lemma servers_set c s col n q m q' : c_class c <> CNull -> c_class c <> CResource ->
  reach anything (new_queue c s col n) q -> set_num_servers m q = Ok q' ->
  exists k,
    (m = PInf /\ q_servers q' = Inf /\ q_servers q <> Inf /\ k = length (waiting q) \/
     exists z, m = PInt z /\ 0 < z /\ q_servers q' = Fin z /\
       Z.of_nat k = match q_servers q with Fin old => Z.max 0 (Z.min (z - old) (zlen (waiting q))) | Inf => 0 end) /\
    waiting q' = skipn k (waiting q) /\
    Permutation (ids (in_service q')) (ids (firstn k (waiting q)) ++ ids (in_service q)) /\
    scheduled q' = scheduled q /\ q_nsys q' = q_nsys q /\ q_narr q' = q_narr q /\
    q_departed q' = q_departed q /\ q_blocked q' = q_blocked q /\ q_now q' = q_now q /\
    least_time (scheduled q' ++ in_service q') (q_time q').
Proof.
  intros N NR R H. apply basics_reach in R as [I C _ _ _]. subst c.
  assert (I' := qinv_set_num_servers _ _ _ I H).
  assert (H' : qs_set_num_servers m q = Ok q') by (unfold set_num_servers in H; destruct (c_class (q_cfg q)); congruence).
  clear H. apply qs_set_num_servers_Ok in H'; [|exact I|exact NR].
  destruct H' as (mm & k & h & d & new & ME & NO & POS & NI & K & Q & W' & P & MM & _).
  exists k. split.
  { subst q'. qc. unfold waiting, zlen. destruct m as [z| |]; [right|left|congruence]; subst mm.
    - exists z. split; [reflexivity|]. split; [exact POS|]. split; [reflexivity|]. destruct (q_servers q); lia.
    - split; [reflexivity|]. split; [reflexivity|]. split; [intro X; exact (NI X eq_refl)|]. lia. }
  rewrite (qi_time _ I'). split; [subst q'; reflexivity|]. split.
  { subst q'. change (Permutation (ids (agents_of h)) (ids (firstn k (q_line q)) ++ ids (agents_of (q_dep q)))).
    unfold ids in *. rewrite <- MM, <- map_app. apply Permutation_map. exact P. }
  split; [subst q'; reflexivity|]. do 5 (split; [subst q'; reflexivity|]). apply least_min; apply I'.
Qed.
