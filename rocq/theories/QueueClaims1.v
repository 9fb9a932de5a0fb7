(** * QueueClaims1: proofs of C03-C09 *)
From Coq Require Import List ZArith QArith Lia Bool Permutation Arith.
From Verif Require Import Base Heap HeapProofs Queue QueueEffects QueueEvents QueueSteps QueueInv SpecQueue QueueFlow QueueHist.
Import ListNotations.
Open Scope Z_scope.

Lemma run_op_step o q q' : run_op o q = Ok q' -> exists r, step o q = Ok (r, q').
Proof.
  intro H. destruct o; unfold step; try (rewrite H; cbn [bind]; eauto).
  cbn [run_op] in H. mbind H. destruct x as [r q1]. inversion H; subst. eauto.
Qed.

Lemma clear_dec o : o = OClear \/ no_clear o.
Proof. destruct o; cbn; auto. Qed.

(** ** C03, C04 *)

Lemma counts_reach c s col n q : reach anything (new_queue c s col n) q ->
  q_nsys q = serving q + Z.of_nat (length (waiting q)) /\
  q_total q = q_nsys q + Z.of_nat (length (scheduled q)).
Proof. intro R. apply basics_reach in R as [I _ _ _ _]. split; apply I. Qed.

Lemma conservation ops q0 log q :
  pristine q0 -> c_class (q_cfg q0) <> CNull -> Forall no_clear ops -> exec ops q0 = Ok (log, q) ->
  Permutation (sent log ++ created q) (held q ++ departed log ++ turned_away log) /\
  q_departed q = zlen (departed log) /\ q_nsys q = zlen (admitted log) - zlen (departed log) /\
  (c_class (q_cfg q) <> CResource ->
     q_narr q = q_nsys q + q_departed q /\ q_blocked q = zlen (turned_away log)) /\
  q_nsys q + q_departed q <= q_narr q <= q_nsys q + q_departed q + q_blocked q.
Proof.
  intros P N NC H. apply pristine_facts in P as [I W A D L O NS DP NA B].
  destruct (exec_flow ops q0 log q NC I N ltac:(lia) H) as (_ & C & _ & (nw & CR & PM) & H1 & H2 & H3 & H4 & H5 & _).
  assert (HE : held q0 = []) by (unfold held, scheduled, in_service, waiting; rewrite A, D, L; reflexivity).
  assert (CE : created q0 = []) by (unfold created; rewrite O; reflexivity).
  rewrite HE in PM. rewrite CE in CR. cbn [app] in PM, CR. subst nw.
  split; [exact PM|]. rewrite C. split; [lia|]. split; [lia|]. split; [intro NR; specialize (H3 NR); lia | lia].
Qed.

(** Agents are never in two places: with distinct agents coming in, all held
    and departed ones are distinct. *)
Lemma created_NoDup q : NoDup (created q).
Proof.
  unfold created. apply FinFun.Injective_map_NoDup; [|apply seq_NoDup].
  intros x y E. inversion E. lia.
Qed.

Lemma never_twice ops q0 log q :
  pristine q0 -> c_class (q_cfg q0) <> CNull -> Forall no_clear ops -> exec ops q0 = Ok (log, q) ->
  NoDup (sent log) -> (forall i, In i (sent log) -> fst i <> c_idx (q_cfg q0)) ->
  NoDup (held q ++ departed log ++ turned_away log).
Proof.
  intros P N NC H ND F. assert (P' := P). apply pristine_facts in P' as [I _ _ _ _ O _ _ _ _].
  destruct (conservation _ _ _ _ P N NC H) as (PM & _).
  destruct (exec_flow ops q0 log q NC I N ltac:(lia) H) as (_ & C & _).
  eapply Permutation_NoDup; [exact PM|].
  assert (G : forall l, NoDup l -> (forall i, In i l -> fst i <> c_idx (q_cfg q0)) -> NoDup (l ++ created q)).
  { clear - C. induction l as [|i l IH]; intros ND F; [apply created_NoDup|].
    inversion ND; subst. cbn [app]. constructor; [|apply IH; auto; intros j J; apply F; right; exact J].
    intro X. apply in_app_or in X as [X|X]; [contradiction|].
    apply (F i (or_introl eq_refl)). unfold created in X. apply in_map_iff in X as (k & <- & _).
    cbn. rewrite C. reflexivity. }
  apply G; assumption.
Qed.

Lemma fcfs ops q0 log q :
  pristine q0 -> c_class (q_cfg q0) <> CNull -> c_class (q_cfg q0) <> CResource ->
  Forall no_clear ops -> exec ops q0 = Ok (log, q) ->
  exists st, admitted log = st ++ ids (waiting q) /\
             Permutation st (ids (in_service q) ++ departed log).
Proof.
  intros P N NR NC H. apply pristine_facts in P as [I W A D L O NS DP NA B].
  destruct (exec_flow ops q0 log q NC I N ltac:(lia) H) as (_ & _ & _ & _ & _ & _ & _ & _ & _ & X).
  destruct (X NR W) as (_ & st & E & PM).
  unfold waiting, in_service in *. rewrite L in E. rewrite D in PM. cbn in E, PM. eauto.
Qed.

(** ** C05 *)

Lemma winv_op o q q' : qinv q -> c_class (q_cfg q) <> CNull -> c_class (q_cfg q) <> CResource ->
  winv q -> run_op o q = Ok q' -> winv q'.
Proof.
  intros I N NR W H. destruct (clear_dec o) as [->|NC].
  - cbn [run_op] in H. inversion H; subst. unfold clear, qs_clear, winv.
    destruct (c_class (q_cfg q)); try congruence; intro X; contradiction X; reflexivity.
  - apply run_op_step in H as (r & H). destruct (step_flow _ _ _ _ I N NC H) as ([F _ _ _] & _).
    destruct F as (new & st & _ & F). apply (F NR W).
Qed.

Lemma work_conserving c s col n q :
  c_class c <> CNull -> c_class c <> CResource ->
  reach anything (new_queue c s col n) q -> waiting q <> [] -> eLe (q_servers q) (Fin (serving q)).
Proof.
  intros N NR R. change (winv q).
  induction R as [|q o q' R IH _ H]; [intro X; contradiction X; reflexivity|].
  apply basics_reach in R as [I C _ _ _]. subst c. eapply winv_op; eauto.
Qed.

(** ** C06 *)

Definition cinv (q : queue) : Prop := eLe (Fin (na (q_dep q))) (q_servers q).

Lemma cinv_op o q q' : qinv q -> c_class (q_cfg q) <> CNull -> c_class (q_cfg q) <> CResource ->
  never_lowers q o -> eLe (Fin 0) (q_servers q) ->
  cinv q -> run_op o q = Ok q' -> cinv q' /\ eLe (q_servers q) (q_servers q').
Proof.
  intros I N NR NL Z W H. unfold cinv in *. destruct o; cbn [run_op] in H.
  - mbind H. destruct x as [r q1]. inversion H; subst q1. clear H.
    apply next_event_event in E as (qe & PE & EV); [|apply I|apply I].
    destruct (pre_event_net _ _ PE) as (nd & ->).
    assert (IE : qinv (set_q_net nd q)) by (destruct I; split; assumption).
    destruct EV as [? ? -> _|? ? R|NN ? ? ? _ R|NN NS ? ? ? _ R|CR ? ? ? _ R|CR ? ? ? _ ? R]; try congruence.
    + split; [exact W | apply eLe_refl].
    + apply flow_departure in R as (a & st & -> & FL & SZ & _ & _ & _ & _ & _ & _ & _ & SV & _ & ST); [|exact IE].
      qch SV. qch ST. rewrite (SV NR). split; [|apply eLe_refl].
      apply fl_dep in FL. apply Permutation_length in FL. rewrite !app_length in FL. unfold ids in FL.
      rewrite !map_length in FL. unfold in_service in FL. qch FL. cbn [length] in FL. unfold na in *.
      change agents_in with agents_of in FL.
      destruct SZ as [->|(x & ->)]; cbn [length] in FL.
      * elia.
      * assert (X : eLt (Fin (Z.of_nat (length (agents_of (q_dep q))) - 1)) (q_servers q)) by (apply ST; discriminate).
        elia.
    + apply flow_arrival in R as (a & h & new & st & -> & PA & FL & D1 & D2 & D3 & D4 & D5 & D6 & D7); [|exact NN|exact IE].
      qch D7. destruct (D7 NR) as (-> & C). split; [|apply eLe_refl].
      apply fl_dep in FL. apply Permutation_length in FL. rewrite !app_length in FL. unfold ids in FL.
      rewrite !map_length in FL. unfold in_service in FL. qch FL. cbn [length] in FL.
      assert (SY := qi_sys _ I). unfold na in *. change agents_in with agents_of in FL.
      destruct C as [(-> & _ & _)|(-> & C & _)]; cbn [length] in FL; elia.
    + apply flow_blocked in R as (a & h & new & -> & PA & FL & D1 & D2 & D3 & D4 & D5 & D6 & D7 & D8 & D9); [|exact NN|exact IE].
      rewrite D7, D9. split; [exact W | apply eLe_refl].
  - unfold set_active in H. destruct (q_active q); [inversion H; subst; split; [exact W | apply eLe_refl]|].
    assert (H' : add_arrival_new (set_q_active true q) = Ok q').
    { unfold add_arrival_self in H. qch H. destruct (c_class (q_cfg q)); congruence. }
    apply add_arrival_new_Ok in H'; [|apply I|apply I]. cbv zeta in H'.
    destruct H' as [(_ & ->)|[(_ & _ & _ & ->)|(_ & _ & a & h & act & -> & _)]]; (split; [exact W | apply eLe_refl]).
  - inversion H; subst. split; [exact W | apply eLe_refl].
  - unfold set_num_servers in H.
    assert (H' : qs_set_num_servers n q = Ok q') by (destruct (c_class (q_cfg q)); congruence). clear H.
    apply qs_set_num_servers_Ok in H'; [|exact I|exact NR].
    destruct H' as (m & k & h & d & new & ME & NO & POS & NI & K & -> & W' & P & MM & _). qc.
    assert (NN := na_perm _ _ P). rewrite app_length in NN.
    assert (LN : (length new <= k)%nat).
    { rewrite <- (map_length ag_id), MM, map_length, firstn_length. lia. }
    rewrite NN. unfold na in *. destruct n as [z| |]; cbn [never_lowers] in NL; subst m; [| |congruence].
    + destruct (q_servers q) as [s|]; cbn in *; [|tauto]. lia.
    + split; apply eLe_Inf.
  - apply delay_service_Ok in H; [|exact N|apply I|apply I].
    destruct H as [(_ & ->)|(a & h & h' & n & H)]; [split; [exact W | apply eLe_refl]|].
    cbv zeta in H. destruct H as (_ & -> & _ & _ & _ & P & P' & _). qc. split; [|apply eLe_refl].
    rewrite (na_perm _ _ P'). rewrite (na_perm _ _ P) in W. exact W.
  - apply add_arrival_Ok in H as (h & -> & _ & _); [|exact N|apply I|apply I]. split; [exact W | apply eLe_refl].
  - inversion H; subst. split; [exact W | apply eLe_refl].
  - inversion H; subst. unfold clear, qs_clear. destruct (c_class (q_cfg q)); try congruence; cbn; (split; [exact Z | apply eLe_refl]).
  - inversion H; subst. split; [exact W | apply eLe_refl].
Qed.

Lemma no_overfill c s col n q :
  c_class c <> CNull -> c_class c <> CResource -> eLe (Fin 0) s ->
  reach never_lowers (new_queue c s col n) q -> eLe (Fin (serving q)) (q_servers q).
Proof.
  intros N NR Z R.
  assert (G : cinv q /\ eLe (Fin 0) (q_servers q)); [|apply G].
  induction R as [|q o q' R IH OK H].
  - unfold new_queue, cinv. cbn. destruct (c_class c); try congruence; auto.
  - apply basics_reach in R as [I C _ _ _]. subst c. destruct IH as (IH1 & IH2).
    destruct (cinv_op o q q' I N NR OK IH2 IH1 H) as (X & Y). split; [exact X|].
    eapply eLe_trans; eauto.
Qed.

(** No event starts a service when all servers are taken. *)
Lemma drains c s col n q r q' : c_class c <> CNull -> c_class c <> CResource ->
  reach anything (new_queue c s col n) q -> next_event q = Ok (r, q') ->
  q_servers q' = q_servers q /\
  (eLe (Fin (serving q')) (q_servers q') \/
   serving q' = serving q - match r with Some _ => 1 | None => 0 end).
Proof.
  intros N NR R E. apply basics_reach in R as [I C _ _ _]. subst c.
  change (q_servers q' = q_servers q /\ (eLe (Fin (na (q_dep q'))) (q_servers q') \/
    na (q_dep q') = na (q_dep q) - match r with Some _ => 1 | None => 0 end)).
  apply next_event_event in E as (qe & PE & EV); [|apply I|apply I].
  destruct (pre_event_net _ _ PE) as (nd & ->).
  assert (IE : qinv (set_q_net nd q)) by (destruct I; split; assumption).
  destruct EV as [? ? -> ->|? ? R|NN ? ? ? _ R|NN NS ? ? ? _ R|CR ? ? ? _ R|CR ? ? ? _ ? R]; try congruence.
  + split; [reflexivity | right; lia].
  + apply flow_departure in R as (a & st & -> & FL & SZ & _ & _ & _ & _ & _ & _ & _ & SV & _ & ST); [|exact IE].
    qch SV. qch ST. rewrite (SV NR). split; [reflexivity|].
    apply fl_dep in FL. apply Permutation_length in FL. rewrite !app_length in FL. unfold ids in FL.
    rewrite !map_length in FL. unfold in_service in FL. qch FL. cbn [length] in FL. unfold na in *.
    change agents_in with agents_of in FL.
    destruct SZ as [->|(x & ->)]; cbn [length] in FL.
    * right. lia.
    * assert (X : eLt (Fin (Z.of_nat (length (agents_of (q_dep q))) - 1)) (q_servers q)) by (apply ST; discriminate).
      left. elia.
  + apply flow_arrival in R as (a & h & new & st & -> & PA & FL & D1 & D2 & D3 & D4 & D5 & D6 & D7); [|exact NN|exact IE].
    qch D7. destruct (D7 NR) as (-> & C). split; [reflexivity|].
    apply fl_dep in FL. apply Permutation_length in FL. rewrite !app_length in FL. unfold ids in FL.
    rewrite !map_length in FL. unfold in_service in FL. qch FL. cbn [length] in FL.
    assert (SY := qi_sys _ I). unfold na in *. change agents_in with agents_of in FL.
    destruct C as [(-> & _ & _)|(-> & C & _)]; cbn [length] in FL; [right; lia | left; elia].
  + apply flow_blocked in R as (a & h & new & -> & PA & FL & D1 & D2 & D3 & D4 & D5 & D6 & D7 & D8 & D9); [|exact NN|exact IE].
    rewrite D7, D9. split; [reflexivity | right]. qc. lia.
Qed.

(** ** C08 *)

Lemma least_min arr dep : wfh arr -> wfh dep ->
  least_time (agents_of arr ++ agents_of dep) (emin (hmin arr) (hmin dep)).
Proof.
  intros Wa Wd. split.
  - intros a X. apply in_app_or in X as [X|X].
    + eapply eLe_trans; [apply emin_le_l | apply wfh_min; assumption].
    + eapply eLe_trans; [apply emin_le_r | apply wfh_min; assumption].
  - destruct (emin_cases (hmin arr) (hmin dep)) as [-> | ->].
    + destruct (wfh_min_cases _ Wa) as [->|(a & X & <-)]; [auto|]. right. exists a. split; [apply in_or_app; auto | reflexivity].
    + destruct (wfh_min_cases _ Wd) as [->|(a & X & <-)]; [auto|]. right. exists a. split; [apply in_or_app; auto | reflexivity].
Qed.

Lemma time_least c s col n q : reach anything (new_queue c s col n) q ->
  least_time (scheduled q ++ in_service q) (q_time q).
Proof.
  intro R. apply basics_reach in R as [I _ _ _ _]. rewrite (qi_time _ I). apply least_min; apply I.
Qed.

Lemma description_true q r q' d : qinv q -> next_event_description q = Ok d -> next_event q = Ok (r, q') ->
  (d = 0 /\ r = None /\ q' = q) \/
  (d = 1 /\ r = None /\ q_time q <> Inf /\ q_now q' = q_time q /\ q_departed q' = q_departed q /\
   exists a, In a (scheduled q) /\ ag_time a = q_time q /\
   ((q_nsys q' = q_nsys q + 1 /\ q_narr q' = q_narr q + 1 /\ q_blocked q' = q_blocked q) \/
    (q_nsys q' = q_nsys q /\ q_blocked q' = q_blocked q + 1 /\ c_class (q_cfg q) <> CServer) \/
    (q_nsys q' = q_nsys q /\ q_servers q' = eadd (q_servers q) (Fin 1) /\ ag_kind a = KResource /\ ag_has a = true /\
     c_class (q_cfg q) = CResource))) \/
  (d = 2 /\ q_time q <> Inf /\ q_now q' = q_time q /\ q_departed q' = q_departed q + 1 /\
   q_nsys q' = q_nsys q - 1 /\ q_narr q' = q_narr q /\ q_blocked q' = q_blocked q /\
   exists a b, r = Some a /\ In b (in_service q) /\ ag_id a = ag_id b /\ ag_time a = q_time q /\ ag_time b = q_time q).
Proof.
  intros I D H. assert (Wa := qi_arr _ I). assert (Wd := qi_dep _ I). assert (TM := qi_time _ I).
  assert (IH : forall a h, pop_agent (q_arr q) = Ok (a, h) -> In a (scheduled q) /\ ag_time a = hmin (q_arr q)).
  { intros a h P. apply pop_agent_Ok in P as (_ & P & T & _); [|exact Wa]. split; [|exact T].
    change (In a (agents_of (q_arr q))). apply (Permutation_in a (Permutation_sym P)). left; reflexivity. }
  assert (DQ : forall b h, pop_agent (q_dep q) = Ok (b, h) -> In b (in_service q)).
  { intros a h P. apply pop_agent_Ok in P as (_ & P & T & _); [|exact Wd].
    change (In a (agents_of (q_dep q))). apply (Permutation_in a (Permutation_sym P)). left; reflexivity. }
  apply next_event_event in H as (qe & PE & EV); [|exact Wa|exact Wd].
  destruct (pre_event_net _ _ PE) as (nd & ->).
  assert (IE : qinv (set_q_net nd q)) by (destruct I; split; assumption).
  unfold next_event_description in D. rewrite (wfh_root_time _ Wa), (wfh_root_time _ Wd) in D. cbn [bind] in D.
  destruct EV as [ID QE Q R|NN LT R|NN LE NI CAP _ R|NN NS LE NI CAP _ R|CR LE NI RT _ R|CR LE NI RT _ CAP R].
  - left. subst. assert (d = 0); [|auto].
    destruct ID as [C|[A B]]; [rewrite C in D; congruence|]. rewrite A, B in D. cbn in D.
    destruct (c_class (q_cfg q)); congruence.
  - right; right. assert (LT' := LT). apply eltb_lt in LT'. rewrite LT' in D.
    assert (d = 2) by (destruct (c_class (q_cfg q)); congruence). subst d.
    assert (QT : q_time q = hmin (q_dep q)) by (rewrite TM; apply emin_eq_ge; apply eLt_le; exact LT).
    assert (R' := R). apply flow_departure in R as (a & st & -> & FL & SZ & D1 & D2 & D3 & D4 & D5 & D6 & D7 & _); [|exact IE].
    apply qs_departure_Ok in R' as (b & h & a' & h' & line' & n & d1 & dd & s & o & P & E & I1 & T1 & _); [|exact Wa|exact Wd].
    inversion E; subst a'. qch D7. rewrite QT.
    split; [reflexivity|]. split; [intro X; rewrite X in LT; exact LT|]. rewrite D5. do 5 (split; [auto|]).
    exists a, b. split; [reflexivity|]. split; [apply (DQ b h P)|]. split; [exact I1|]. split; [exact D7|]. congruence.
  - right; left.
    assert (QT : q_time q = hmin (q_arr q)).
    { rewrite TM. destruct (eLe_cases _ _ LE) as [X|X]; [apply emin_eq_lt; exact X|].
      rewrite X. apply emin_eq_ge. apply eLe_refl. }
    assert (d = 1).
    { apply eltb_ge in LE. rewrite LE in D. assert (X := eLt_Inf _ NI). apply eltb_lt in X. rewrite X in D.
      destruct (c_class (q_cfg q)); congruence. }
    subst d. apply flow_arrival in R as (a & h & new & st & -> & PA & FL & D1 & D2 & D3 & D4 & D5 & D6 & _); [|exact NN|exact IE].
    qch PA. qch D6. rewrite QT, D5. split; [reflexivity|]. split; [reflexivity|]. split; [exact NI|]. split; [exact D6|].
    split; [exact D1|]. exists a. split; [apply (IH a h PA)|]. split; [exact D6|]. left. auto.
  - right; left.
    assert (QT : q_time q = hmin (q_arr q)).
    { rewrite TM. destruct (eLe_cases _ _ LE) as [X|X]; [apply emin_eq_lt; exact X|].
      rewrite X. apply emin_eq_ge. apply eLe_refl. }
    assert (d = 1).
    { apply eltb_ge in LE. rewrite LE in D. assert (X := eLt_Inf _ NI). apply eltb_lt in X. rewrite X in D.
      destruct (c_class (q_cfg q)); congruence. }
    subst d. apply flow_blocked in R as (a & h & new & -> & PA & FL & D1 & D2 & D3 & D4 & D5 & D6 & _); [|exact NN|exact IE].
    qch PA. qch D6. rewrite QT, D5. split; [reflexivity|]. split; [reflexivity|]. split; [exact NI|]. split; [exact D6|].
    split; [exact D1|]. exists a. split; [apply (IH a h PA)|]. split; [exact D6|]. right; left. auto.
  - right; left.
    assert (QT : q_time q = hmin (q_arr q)).
    { rewrite TM. destruct (eLe_cases _ _ LE) as [X|X]; [apply emin_eq_lt; exact X|].
      rewrite X. apply emin_eq_ge. apply eLe_refl. }
    assert (d = 1).
    { apply eltb_ge in LE. rewrite LE in D. assert (X := eLt_Inf _ NI). apply eltb_lt in X. rewrite X in D.
      destruct (c_class (q_cfg q)); congruence. }
    subst d. apply flow_rq_return in R as (a & h & -> & PA & FL & D1 & D2 & D3 & D4 & D5 & D6 & D7 & _); [|exact I].
    rewrite QT, D5. split; [reflexivity|]. split; [reflexivity|]. split; [exact NI|]. split; [exact D6|].
    split; [exact D1|]. exists a. split; [apply (IH a h PA)|]. split; [exact D6|]. right; right.
    destruct RT as (b & t & QA & K1 & K2). apply pop_agent_Ok in PA as (_ & _ & _ & t' & QA'); [|exact Wa].
    rewrite QA in QA'. inversion QA'; subst b. auto.
  - right; left.
    assert (QT : q_time q = hmin (q_arr q)).
    { rewrite TM. destruct (eLe_cases _ _ LE) as [X|X]; [apply emin_eq_lt; exact X|].
      rewrite X. apply emin_eq_ge. apply eLe_refl. }
    assert (d = 1).
    { apply eltb_ge in LE. rewrite LE in D. assert (X := eLt_Inf _ NI). apply eltb_lt in X. rewrite X in D.
      destruct (c_class (q_cfg q)); congruence. }
    subst d. apply flow_rq_blocked in R as (a & h & -> & PA & FL & D1 & D2 & D3 & D4 & D5 & D6 & _); [|exact I].
    rewrite QT, D5. split; [reflexivity|]. split; [reflexivity|]. split; [exact NI|]. split; [exact D6|].
    split; [exact D1|]. exists a. split; [apply (IH a h PA)|]. split; [exact D6|]. right; left. split; [exact D2|]. split; [exact D4|]. congruence.
Qed.

(** ** C09 *)

Definition tinv (q : queue) : Prop :=
  (forall a, In a (agents_of (q_arr q)) -> eLe (q_now q) (ag_time a)) /\
  (forall a, In a (agents_of (q_dep q)) -> eLe (q_now q) (ag_time a)).

Lemma in_perm_cons {A} (l l' : list A) x : Permutation l l' -> In x l -> In x l'.
Proof. intros P X. eapply Permutation_in; eauto. Qed.

Lemma draw_times q q2 new a : draw q q2 new -> In a (agents_of (q_arr q2)) ->
  In a (agents_of (q_arr q)) \/ exists n, ag_time a = c_arr (q_cfg q) n (q_now q).
Proof.
  intros (tm & act & h & i & ct & -> & W & P & C) X. qch X.
  apply (in_perm_cons _ _ _ P) in X. apply in_app_or in X as [X|X]; [|auto].
  destruct C as [(-> & _)|[(-> & _)|(b & -> & _ & _ & _ & _ & _ & _ & T & _)]]; [destruct X|destruct X|].
  destruct X as [<-|[]]. right. eauto.
Qed.

Lemma tinv_op o q q' : forward (q_cfg q) -> qinv q -> tinv q -> no_past q o -> run_op o q = Ok q' ->
  tinv q' /\ eLe (q_now q) (q_now q').
Proof.
  intros (FA & FS) I (TA & TD) NP H. assert (Wa := qi_arr _ I). assert (Wd := qi_dep _ I).
  assert (MINA : forall a h, pop_agent (q_arr q) = Ok (a, h) ->
     eLe (q_now q) (ag_time a) /\ (forall b, In b (agents_of h) -> eLe (ag_time a) (ag_time b)) /\ ag_time a = hmin (q_arr q)).
  { intros a h P. apply pop_agent_Ok in P as (_ & P & T & _); [|exact Wa]. split; [|split; [|exact T]].
    - apply TA. apply (Permutation_in a (Permutation_sym P)). left; reflexivity.
    - intros b B. rewrite T. apply wfh_min; [exact Wa|]. apply (Permutation_in b (Permutation_sym P)). right; exact B. }
  assert (MIND : forall a h, pop_agent (q_dep q) = Ok (a, h) ->
     eLe (q_now q) (ag_time a) /\ (forall b, In b (agents_of h) -> eLe (ag_time a) (ag_time b)) /\ ag_time a = hmin (q_dep q)).
  { intros a h P. apply pop_agent_Ok in P as (_ & P & T & _); [|exact Wd]. split; [|split; [|exact T]].
    - apply TD. apply (Permutation_in a (Permutation_sym P)). left; reflexivity.
    - intros b B. rewrite T. apply wfh_min; [exact Wd|]. apply (Permutation_in b (Permutation_sym P)). right; exact B. }
  destruct o; cbn [run_op] in H.
  - mbind H. destruct x as [r q1]. inversion H; subst q1. clear H.
    apply next_event_event in E as (qe & PE & EV); [|exact Wa|exact Wd].
    destruct (pre_event_net _ _ PE) as (nd & ->).
    destruct EV as [ID QE -> _|NN LT R|NN LE NI CAP _ R|NN NS LE NI CAP _ R|CR LE NI RT _ R|CR LE NI RT _ CAP R].
    + split; [split; assumption | apply eLe_refl].
    + apply qs_departure_Ok in R; [|exact Wa|exact Wd]. qch R.
      destruct R as (a & h & a' & h' & line' & n & d1 & dd & s & o & P & _ & _ & _ & _ & _ & -> & _ & _ & _ & C).
      destruct (MIND _ _ P) as (M1 & M2 & M3). unfold tinv. qc. split; [split|exact M1].
      * intros b B. apply eLe_trans with (hmin (q_arr q)); [rewrite M3; apply eLt_le; exact LT|]. apply wfh_min; assumption.
      * cbv zeta in C. destruct C as [(_ & _ & -> & _)|(_ & b & b' & _ & _ & TB & _ & PP & _)]; [exact M2|].
        intros x X. apply (in_perm_cons _ _ _ PP) in X. destruct X as [<-|X]; [rewrite TB; apply FS | apply M2; exact X].
    + apply qs_arrival_Ok in R; [|exact NN|exact Wa|exact Wd]. qch R.
      destruct R as (a & h & q2 & new & h' & line' & n & d1 & d & s1 & o1 & s & o & a1 & _ & P & DR & _ & _ & _ & -> & _ & _ & _ & _ & C).
      destruct (MINA _ _ P) as (M1 & M2 & M3).
      assert (F := draw_new _ _ _ DR). qch F.
      destruct F as (_ & _ & _ & F3 & _ & _ & _ & _ & _ & _ & _ & _ & F12 & _). unfold tinv. qc. rewrite F12.
      split; [split|exact M1].
      * intros b B. destruct (draw_times _ _ _ _ DR B) as [X|(m & X)]; qch X.
        -- apply M2; exact X.
        -- rewrite X. apply FA.
      * assert (DD : forall x, In x (agents_of (q_dep q)) -> eLe (ag_time a) (ag_time x)).
        { intros x X. apply eLe_trans with (hmin (q_dep q)); [rewrite M3; exact LE|]. apply wfh_min; assumption. }
        destruct C as [(_ & _ & _ & (a2 & _ & TB & _ & PP) & _)|(_ & _ & _ & -> & _)]; [|exact DD].
        intros x X. apply (in_perm_cons _ _ _ PP) in X. destruct X as [<-|X]; [rewrite TB; apply FS | apply DD; exact X].
    + apply loss_blocked_Ok in R; [|exact NN|exact Wa|exact Wd]. qch R.
      destruct R as (a & h & q2 & new & d & _ & P & DR & -> & _).
      destruct (MINA _ _ P) as (M1 & M2 & M3).
      assert (F := draw_new _ _ _ DR). qch F.
      destruct F as (_ & _ & _ & F3 & _ & _ & _ & _ & _ & _ & _ & _ & F12 & _). unfold tinv. qc. rewrite F12, F3.
      split; [split|exact M1].
      * intros b B. destruct (draw_times _ _ _ _ DR B) as [X|(m & X)]; qch X.
        -- apply M2; exact X.
        -- rewrite X. apply FA.
      * intros x X. apply eLe_trans with (hmin (q_dep q)); [rewrite M3; exact LE|]. apply wfh_min; assumption.
    + apply rq_return_Ok in R; [|exact Wa|exact Wd]. destruct R as (a & h & o & d & _ & P & _ & -> & _).
      destruct (MINA _ _ P) as (M1 & M2 & M3). unfold tinv. qc. split; [split; [exact M2|]|exact M1].
      intros x X. apply eLe_trans with (hmin (q_dep q)); [rewrite M3; exact LE|]. apply wfh_min; assumption.
    + apply rq_blocked_Ok in R; [|exact Wa|exact Wd]. destruct R as (a & h & d & _ & P & _ & -> & _).
      destruct (MINA _ _ P) as (M1 & M2 & M3). unfold tinv. qc. split; [split; [exact M2|]|exact M1].
      intros x X. apply eLe_trans with (hmin (q_dep q)); [rewrite M3; exact LE|]. apply wfh_min; assumption.
  - unfold set_active in H. destruct (q_active q); [inversion H; subst; split; [split; assumption | apply eLe_refl]|].
    unfold add_arrival_self in H. qch H.
    assert (G : add_arrival_new (set_q_active true q) = Ok q' -> tinv q' /\ eLe (q_now q) (q_now q')).
    { clear H. intro H. apply add_arrival_new_Ok in H; [|exact Wa|exact Wd]. cbv zeta in H. qch H.
      destruct H as [(_ & ->)|[(_ & _ & _ & ->)|(_ & _ & a & h & act & -> & _ & TB & _ & _ & _ & _ & P & _)]];
        unfold tinv; qc; (split; [split; try assumption|apply eLe_refl]).
      intros x X. apply (in_perm_cons _ _ _ P) in X. destruct X as [<-|X]; [rewrite TB; apply FA | apply TA; exact X]. }
    destruct (c_class (q_cfg q)); try (apply G; exact H). inversion H; subst. split; [split; assumption | apply eLe_refl].
  - inversion H; subst. split; [split; assumption | apply eLe_refl].
  - unfold set_num_servers in H.
    assert (G : c_class (q_cfg q) <> CResource -> qs_set_num_servers n q = Ok q' -> tinv q' /\ eLe (q_now q) (q_now q')).
    { clear H. intros NR H. apply qs_set_num_servers_Ok in H; [|exact I|exact NR].
      destruct H as (m & k & h & d & new & _ & _ & _ & _ & _ & -> & _ & P & _ & F). unfold tinv. qc.
      split; [split; [exact TA|]|apply eLe_refl].
      intros x X. apply (in_perm_cons _ _ _ P) in X. apply in_app_or in X as [X|X]; [|apply TD; exact X].
      rewrite Forall_forall in F. destruct (F x X) as (j & ->). apply FS. }
    destruct (c_class (q_cfg q)) eqn:C; try (apply G; [congruence | exact H]).
    + inversion H; subst. split; [split; assumption | apply eLe_refl].
    + assert (RI : forall m, tinv (rq_set_num_servers m q) /\ eLe (q_now q) (q_now (rq_set_num_servers m q))).
      { intro m. unfold rq_set_num_servers. destruct (eltb (c_max_servers (q_cfg q)) m); (split; [split; assumption | apply eLe_refl]). }
      destruct n; inversion H; subst; apply RI.
  - destruct (c_class (q_cfg q)) eqn:C.
    3:{ unfold delay_service in H. rewrite C in H. inversion H; subst. split; [split; assumption | apply eLe_refl]. }
    all: (apply delay_service_Ok in H; [|congruence|exact Wa|exact Wd]);
      (destruct H as [(_ & ->)|(a & h & h' & n & H)]; [split; [split; assumption | apply eLe_refl]|]);
      cbv zeta in H; destruct H as (P & -> & _ & _ & _ & _ & PP & _);
      destruct (MIND _ _ P) as (M1 & M2 & M3); unfold tinv; qc;
      (split; [split; [exact TA|]|apply eLe_refl]);
      intros x X; apply (in_perm_cons _ _ _ PP) in X; (destruct X as [<-|X];
        [qc; destruct t as [t|]; [exact NP | eapply eLe_trans; [exact M1 | apply FS]]
        |eapply eLe_trans; [exact M1 | apply M2; exact X]]).
  - destruct (c_class (q_cfg q)) eqn:C.
    3:{ apply add_arrival_null in H as (d & -> & _); [|exact C]. split; [split; assumption | apply eLe_refl]. }
    all: (apply add_arrival_Ok in H as (h & -> & _ & P); [|congruence|exact Wa|exact Wd]);
      unfold tinv; qc; (split; [split; [|exact TD]|apply eLe_refl]);
      intros x X; apply (in_perm_cons _ _ _ P) in X; (destruct X as [<-|X]; [exact NP | apply TA; exact X]).
  - inversion H; subst. split; [split; assumption | apply eLe_refl].
  - destruct NP.
  - inversion H; subst. split; [split; assumption | apply eLe_refl].
Qed.

Lemma tinv_reach c s col n q : forward c -> reach no_past (new_queue c s col n) q -> tinv q.
Proof.
  intros F R. induction R as [|q o q' R IH OK H].
  - split; intros a [].
  - apply basics_reach in R as [I C _ _ _]. subst c. eapply tinv_op; eauto.
Qed.

Lemma clock c s col n q : forward c -> reach no_past (new_queue c s col n) q ->
  eLe (q_now q) (q_time q) /\
  (forall a, In a (scheduled q) \/ In a (in_service q) -> eLe (q_now q) (ag_time a)) /\
  (forall o q', no_past q o -> run_op o q = Ok q' -> eLe (q_now q) (q_now q')).
Proof.
  intros F R. assert (T := tinv_reach _ _ _ _ _ F R). apply basics_reach in R as [I C _ _ _]. subst c.
  assert (T' := T). destruct T' as (TA & TD).
  split; [|split].
  - rewrite (qi_time _ I). apply emin_le_both.
    + destruct (wfh_min_cases _ (qi_arr _ I)) as [->|(a & X & <-)]; [apply eLe_Inf | apply TA; exact X].
    + destruct (wfh_min_cases _ (qi_dep _ I)) as [->|(a & X & <-)]; [apply eLe_Inf | apply TD; exact X].
  - intros a [X|X]; [apply TA | apply TD]; exact X.
  - intros o q' NP H. eapply tinv_op; eauto.
Qed.

(** ** C03 for a ResourceQueue *)

Definition rinv (q : queue) : Prop :=
  Forall (fun a => ag_kind a = KResource /\ ag_has a = false) (agents_of (q_arr q)) /\
  q_narr q = q_nsys q + q_departed q + q_blocked q.

Lemma Forall_perm {A} (P : A -> Prop) l l' : Permutation l l' -> Forall P l -> Forall P l'.
Proof. intros PM F. rewrite Forall_forall in *. intros x X. apply F. apply (Permutation_in x (Permutation_sym PM)). exact X. Qed.

Lemma draw_resource q q2 new : c_factory (q_cfg q) = KResource -> draw q q2 new ->
  Forall (fun a => ag_kind a = KResource /\ ag_has a = false) new.
Proof.
  intros K (tm & act & h & i & ct & _ & _ & _ & C).
  destruct C as [(-> & _)|[(-> & _)|(b & -> & _ & _ & _ & _ & _ & _ & _ & KB & _ & HB & _)]]; try constructor.
  - split; congruence.
  - constructor.
Qed.

Lemma rinv_op o q q' : qinv q -> c_class (q_cfg q) = CResource -> c_factory (q_cfg q) = KResource ->
  eLe (Fin 0) (c_buffer (q_cfg q)) -> rinv q -> resource_less q o -> run_op o q = Ok q' -> rinv q'.
Proof.
  intros I CR FK BF (RA & RC) OK H. assert (Wa := qi_arr _ I). assert (Wd := qi_dep _ I).
  assert (N : c_class (q_cfg q) <> CNull) by congruence.
  assert (POP : forall a h, pop_agent (q_arr q) = Ok (a, h) ->
    Forall (fun a => ag_kind a = KResource /\ ag_has a = false) (agents_of h)).
  { intros a h P. apply pop_agent_Ok in P as (_ & P & _ & _); [|exact Wa].
    apply (Forall_perm _ _ _ P) in RA. inversion RA; assumption. }
  destruct (clear_dec o) as [->|NC].
  { cbn [run_op] in H. inversion H; subst. unfold clear. rewrite CR. split; [constructor | reflexivity]. }
  unfold rinv. destruct o; cbn [run_op] in H.
  - mbind H. destruct x as [r q1]. inversion H; subst q1. clear H.
    apply next_event_event in E as (qe & PE & EV); [|exact Wa|exact Wd].
    destruct PE as [->|(X & _)]; [|congruence].
    destruct EV as [ID QE -> _|NN LT R|NN LE NI CAP RT R|NN NS LE NI CAP RT R|_ LE NI RT _ R|_ LE NI RT _ CAP R].
    + split; assumption.
    + assert (R' := R). apply flow_departure in R as (a & st & -> & _ & _ & D1 & D2 & D3 & D4 & _); [|exact I].
      apply qs_departure_Ok in R'; [|exact Wa|exact Wd].
      destruct R' as (b & h & a' & h' & line' & n & d1 & dd & s & o & P & _ & _ & _ & _ & _ & -> & _).
      qch D1. qch D2. qch D3. qch D4. qc. split; [exact RA | lia].
    + assert (R' := R). apply flow_arrival in R as (a & h & new & st & -> & PA & _ & D1 & D2 & D3 & D4 & _); [|exact N|exact I].
      apply qs_arrival_Ok in R'; [|exact N|exact Wa|exact Wd].
      destruct R' as (a0 & h0 & q2 & new0 & h' & line' & n & d1 & d & s1 & o1 & s & o & a1 & _ & P & DR & _ & _ & _ & -> & _).
      split; [|lia]. assert (F := draw_new _ _ _ DR). destruct F as (PD & _). qch PD. qc.
      apply (Forall_perm _ _ _ (Permutation_sym PD)). apply Forall_app. split; [eapply draw_resource; [|exact DR]; exact FK | eapply POP; eauto].
    + exfalso. destruct (RT CR) as (b & t & QA & X).
      assert (RA' := RA). rewrite QA in RA'. inversion RA' as [|? ? (K & _) _]; subst. destruct (X K) as (_ & X2). elia.
    + exfalso. destruct RT as (b & t & QA & K & HB). rewrite QA in RA. inversion RA as [|? ? (_ & X) _]; subst. congruence.
    + assert (R' := R). apply flow_rq_blocked in R as (a & h & -> & PA & _ & D1 & D2 & D3 & D4 & _); [|exact I].
      apply rq_blocked_Ok in R'; [|exact Wa|exact Wd]. destruct R' as (a0 & h0 & d & _ & P & _ & -> & _).
      split; [|lia]. qc. eapply POP; eauto.
  - unfold set_active in H. destruct (q_active q); [inversion H; subst; split; assumption|].
    unfold add_arrival_self in H. qch H. rewrite CR in H.
    apply add_arrival_new_Ok in H; [|exact Wa|exact Wd]. cbv zeta in H. qch H.
    destruct H as [(_ & ->)|[(_ & _ & _ & ->)|(_ & _ & a & h & act & -> & _ & _ & K & _ & HA & _ & P & _)]];
      (split; [|exact RC]); qc; try exact RA.
    apply (Forall_perm _ _ _ (Permutation_sym P)). constructor; [split; congruence | exact RA].
  - inversion H; subst. split; assumption.
  - unfold set_num_servers in H. rewrite CR in H.
    assert (RI : forall m, rinv (rq_set_num_servers m q)).
    { intro m. unfold rq_set_num_servers. destruct (eltb (c_max_servers (q_cfg q)) m); split; assumption. }
    destruct n; inversion H; subst; apply RI.
  - apply delay_service_Ok in H; [|exact N|exact Wa|exact Wd].
    destruct H as [(_ & ->)|(a & h & h' & n & H)]; [split; assumption|].
    cbv zeta in H; destruct H as (_ & -> & _); split; assumption.
  - apply add_arrival_Ok in H as (h & -> & _ & P); [|exact N|exact Wa|exact Wd].
    split; [|exact RC]. qc. apply (Forall_perm _ _ _ (Permutation_sym P)). constructor; [exact OK | exact RA].
  - inversion H; subst. split; assumption.
  - destruct NC.
  - inversion H; subst. split; assumption.
Qed.

Lemma resource_counts c s col n q :
  c_class c = CResource -> c_factory c = KResource -> eLe (Fin 0) (c_buffer c) ->
  reach resource_less (new_queue c s col n) q ->
  q_narr q = q_nsys q + q_departed q + q_blocked q.
Proof.
  intros CR FK BF R. assert (G : rinv q); [|apply G].
  induction R as [|q o q' R IH OK H].
  - split; [constructor | reflexivity].
  - apply basics_reach in R as [I C _ _ _]. subst c. eapply rinv_op; eauto.
Qed.

Lemma description_reach c s col n q d r q' : reach anything (new_queue c s col n) q ->
  next_event_description q = Ok d -> next_event q = Ok (r, q') ->
  (d = 0 /\ r = None /\ q' = q) \/
  (d = 1 /\ r = None /\ q_time q <> Inf /\ q_now q' = q_time q /\ q_departed q' = q_departed q /\
   exists a, In a (scheduled q) /\ ag_time a = q_time q /\
   ((q_nsys q' = q_nsys q + 1 /\ q_narr q' = q_narr q + 1 /\ q_blocked q' = q_blocked q) \/
    (q_nsys q' = q_nsys q /\ q_blocked q' = q_blocked q + 1 /\ c_class (q_cfg q) <> CServer) \/
    (q_nsys q' = q_nsys q /\ q_servers q' = eadd (q_servers q) (Fin 1) /\ ag_kind a = KResource /\ ag_has a = true /\
     c_class (q_cfg q) = CResource))) \/
  (d = 2 /\ q_time q <> Inf /\ q_now q' = q_time q /\ q_departed q' = q_departed q + 1 /\
   q_nsys q' = q_nsys q - 1 /\ q_narr q' = q_narr q /\ q_blocked q' = q_blocked q /\
   exists a b, r = Some a /\ In b (in_service q) /\ ag_id a = ag_id b /\ ag_time a = q_time q /\ ag_time b = q_time q).
Proof. intros R. apply basics_reach in R as [I _ _ _ _]. apply description_true. exact I. Qed.

Lemma raise_starts c s col n q z q' :
  c_class c <> CNull -> c_class c <> CResource -> reach anything (new_queue c s col n) q ->
  set_num_servers (PInt z) q = Ok q' ->
  exists k, serving q' = serving q + k /\ zlen (waiting q') = zlen (waiting q) - k /\
    match q_servers q with
    | Fin old => k = Z.max 0 (Z.min (z - old) (zlen (waiting q)))
    | Inf => k = 0
    end.
Proof.
  intros N NR R H. apply basics_reach in R as [I C _ _ _]. subst c.
  assert (H' : qs_set_num_servers (PInt z) q = Ok q') by (unfold set_num_servers in H; destruct (c_class (q_cfg q)); congruence).
  apply qs_set_num_servers_Ok in H'; [|exact I|exact NR].
  destruct H' as (m & k & h & d & new & ME & NO & POS & NI & K & -> & W' & P & MM & _).
  assert (NN := na_perm _ _ P). rewrite app_length in NN.
  assert (LN : length new = Nat.min k (length (q_line q))).
  { rewrite <- (map_length ag_id), MM, map_length, firstn_length. reflexivity. }
  exists (Z.of_nat (length new)). unfold serving, in_service, waiting, zlen. qc.
  change agents_in with agents_of. unfold na in NN. rewrite skipn_length.
  split; [lia|]. split; [lia|]. subst m. destruct (q_servers q); lia.
Qed.
