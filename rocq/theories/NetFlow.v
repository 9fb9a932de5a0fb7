(** * NetFlow: who goes where in a network event *)
From Coq Require Import List ZArith QArith Lia Bool Permutation Arith.
From Verif Require Import Base Heap HeapProofs PQueue PQueueProofs SpecPQ PQHist Queue QueueEffects QueueEvents QueueSteps QueueInv SpecQueue QueueFlow QueueHist QueueClaims1 Network NetQueue NetSteps NetInv SpecNet NetReach NetClaims4.
Import ListNotations.
Open Scope Z_scope.

Lemma flow_held q q' new st se ad de lo : flow q q' new st se ad de lo ->
  Permutation (held q ++ se ++ new) (held q' ++ de ++ lo).
Proof.
  intros [A L D _ _]. unfold held. apply (Permutation_count_occ aid_dec). intro x.
  apply (Permutation_count_occ aid_dec) with (x := x) in A. apply (Permutation_count_occ aid_dec) with (x := x) in D.
  rewrite !count_occ_app in *.
  destruct L as [L|(y & -> & -> & L)].
  - apply (f_equal (fun l => count_occ aid_dec l x)) in L. rewrite !count_occ_app in L. lia.
  - rewrite L. lia.
Qed.

(** The total is the number of agents held. *)
Lemma total_held q : qinv q -> q_total q = zlen (held q).
Proof.
  intro I. rewrite (qi_total _ I), (qi_sys _ I). unfold held, zlen, na, ids, scheduled, in_service, waiting.
  change agents_in with agents_of. rewrite !app_length, !map_length. lia.
Qed.

(** ** A departure *)

Lemma dep_event q a h0 r q' : qinv q -> next_event_description q = Ok 2 -> q_dep q = Ag a :: h0 -> next_event q = Ok (r, q') ->
  exists b, r = Some b /\ ag_id b = ag_id a /\ ag_kind b = ag_kind a /\ Permutation (held q) (ag_id a :: held q') /\
    q_oarr q' = q_oarr q /\ q_active q' = q_active q /\ q_cfg q' = q_cfg q /\ q_total q' = q_total q - 1 /\
    Permutation (scheduled q') (scheduled q) /\ q_departed q' = q_departed q + 1 /\ q_blocked q' = q_blocked q.
Proof.
  intros I DS DP H. destruct (description_2 _ I DS) as (N & LT & _ & _).
  assert (SF : flow_ok (ONext, q, r, q') /\ qinv q') by (apply step_flow; auto; exact Logic.I).
  destruct SF as [SF I'].
  assert (F := fo_flow _ SF). cbn beta iota in F. destruct F as (new & st & F & _).
  assert (A : arriving q = None) by (unfold arriving; rewrite DS; reflexivity).
  assert (AD : admitted1 (ONext, q, r, q') = [] /\ turned_away1 (ONext, q, r, q') = []) by (unfold admitted1, turned_away1; rewrite A; auto).
  destruct AD as [AD TU]. rewrite AD, TU in F.
  assert (CF := fl_cfg _ _ _ _ _ _ _ _ F). assert (HH := flow_held _ _ _ _ _ _ _ _ F).
  assert (TQ := total_held _ I). assert (TQ' := total_held _ I').
  apply next_event_event in H as (qe & PE & EV); [|apply I|apply I].
  destruct (pre_event_net _ _ PE) as (nd & ->).
  assert (X : eLe (hmin (q_arr q)) (hmin (q_dep q)) -> False) by (intro LE; apply (eLt_irrefl (hmin (q_dep q))); eapply eLt_le_trans; eassumption).
  destruct EV as [ID _ _ _|NN _ R|NN LE NI CAP _ R|NN NS LE NI CAP _ R|CR LE NI RT _ R|CR LE NI RT _ CAP R]; try (destruct (X LE)).
  - destruct ID as [ID|[_ ID]]; [congruence|]. rewrite ID in LT. destruct (hmin (q_arr q)); destruct LT.
  - apply qs_departure_Ok in R; [|apply I|apply I].
    destruct R as (a0 & h & a' & h' & line' & m & d1 & d & s & o & P & -> & IDA & TA & KA & BA & -> & _).
    qch P. apply pop_agent_Ok in P as (_ & P & _ & t & E); [|apply I]. rewrite DP in E. inversion E; subst a0 t.
    exists a'. split; [reflexivity|]. split; [exact IDA|]. split; [exact KA|].
    assert (NEW : new = []).
    { destruct (fl_new _ _ _ _ _ _ _ _ F) as [[X1 _]|[_ X1]]; [exact X1|]. qch X1. lia. }
    subst new. cbn [sent1 departed1 app] in HH. rewrite IDA in HH. rewrite ?app_nil_r in HH.
    assert (HP : forall q1, Permutation (held q) (held q1 ++ [ag_id a]) -> Permutation (held q) (ag_id a :: held q1)).
    { intros q1 Y. rewrite Y. symmetry. apply Permutation_cons_append. }
    apply HP in HH. split; [exact HH|].
    qc. split; [reflexivity|]. split; [reflexivity|]. split; [reflexivity|]. split; [reflexivity|]. split; [reflexivity|]. split; reflexivity.
Qed.

(** ** An arrival *)

Lemma draw_active q q2 new : draw q q2 new -> ids new <> [] -> q_active q = true.
Proof. intros (tm & act & h & i & ct & _ & _ & _ & [(-> & _)|[(-> & _)|(a & _ & A & _)]]) NE; [destruct NE; reflexivity|destruct NE; reflexivity|exact A]. Qed.

Lemma arr_event q r q' : qinv q -> next_event_description q = Ok 1 -> next_event q = Ok (r, q') ->
  r = None /\ q_cfg q' = q_cfg q /\ exists new gone, Permutation (held q ++ new) (held q' ++ gone) /\
    (new = [] /\ q_oarr q' = q_oarr q \/ new = [(c_idx (q_cfg q), q_oarr q)] /\ q_oarr q' = q_oarr q + 1 /\ q_active q = true) /\
    (gone = [] \/ exists a, arriving q = Some a /\ gone = [ag_id a] /\ refuses q a).
Proof.
  intros I DS H. destruct (description_1 _ I DS) as (N & LE0 & _ & TI).
  assert (SF : flow_ok (ONext, q, r, q') /\ qinv q') by (apply step_flow; auto; exact Logic.I).
  destruct SF as [SF I'].
  assert (F := fo_flow _ SF). cbn beta iota in F. destruct F as (new & st & F & _).
  assert (CF := fl_cfg _ _ _ _ _ _ _ _ F). assert (HH := flow_held _ _ _ _ _ _ _ _ F). cbn [sent1 app] in HH.
  assert (ACT : forall q1 q2 nw, draw q1 q2 nw -> q_oarr q1 = q_oarr q -> q_oarr q' = q_oarr q2 -> q_active q1 = q_active q ->
     new = [] /\ q_oarr q' = q_oarr q \/ new = [(c_idx (q_cfg q), q_oarr q)] /\ q_oarr q' = q_oarr q + 1 /\ q_active q = true).
  { intros q1 q2 nw DR E1 E2 E3. destruct (fl_new _ _ _ _ _ _ _ _ F) as [X|[X Y]]; [auto|]. right. split; [exact X|]. split; [exact Y|].
    rewrite <- E3. eapply draw_active; [exact DR|]. intro Z. apply draw_new in DR. destruct DR as (_ & _ & _ & _ & _ & _ & _ & _ & _ & _ & _ & _ & _ & _ & [[_ O]|[O _]]); [lia|congruence]. }
  assert (NON : q_oarr q' = q_oarr q -> new = [] /\ q_oarr q' = q_oarr q \/ new = [(c_idx (q_cfg q), q_oarr q)] /\ q_oarr q' = q_oarr q + 1 /\ q_active q = true).
  { intro E. destruct (fl_new _ _ _ _ _ _ _ _ F) as [X|[X Y]]; [auto|lia]. }
  assert (TW : turned_away1 (ONext, q, r, q') = [] \/ exists a, arriving q = Some a /\ turned_away1 (ONext, q, r, q') = [ag_id a] /\ q_nsys q' <> q_nsys q + 1).
  { unfold turned_away1. destruct (arriving q) as [a|]; [|auto]. destruct (q_nsys q' =? q_nsys q + 1) eqn:C; [auto|].
    right. exists a. split; [reflexivity|]. split; [reflexivity|]. apply Z.eqb_neq; exact C. }
  assert (CL : (forall a, arriving q = Some a -> refuses q a) -> r = None ->
    (new = [] /\ q_oarr q' = q_oarr q \/ new = [(c_idx (q_cfg q), q_oarr q)] /\ q_oarr q' = q_oarr q + 1 /\ q_active q = true) ->
     r = None /\ q_cfg q' = q_cfg q /\ exists new gone, Permutation (held q ++ new) (held q' ++ gone) /\
    (new = [] /\ q_oarr q' = q_oarr q \/ new = [(c_idx (q_cfg q), q_oarr q)] /\ q_oarr q' = q_oarr q + 1 /\ q_active q = true) /\
    (gone = [] \/ exists a, arriving q = Some a /\ gone = [ag_id a] /\ refuses q a)).
  { intros RF R NW. subst r. split; [reflexivity|]. split; [exact CF|]. exists new, (turned_away1 (ONext, q, None, q')).
    cbn [departed1 app] in HH. split; [exact HH|]. split; [exact NW|]. destruct TW as [TW|(a & A & TW & _)]; [auto|]. right. exists a. auto. }
  apply next_event_event in H as (qe & PE & EV); [|apply I|apply I].
  destruct (pre_event_net _ _ PE) as (nd & QE).
  assert (FQ : q_oarr qe = q_oarr q /\ q_active qe = q_active q /\ q_nsys qe = q_nsys q /\ q_arr qe = q_arr q /\ q_dep qe = q_dep q /\ q_cfg qe = q_cfg q)
    by (subst qe; auto 8).
  destruct FQ as (F1 & F2 & F3 & F4 & F5 & F6). clear PE QE.
  destruct EV as [ID QQ QQ2 QQ3|NN LT R|NN LE NI CAP RC R|NN NS LE NI CAP RC R|CR LE NI RT QQ R|CR LE NI RT QQ CAP R].
  - exfalso. destruct ID as [ID|[ID1 ID2]]; [congruence|]. apply TI. rewrite (qi_time _ I). rewrite ID1, ID2. reflexivity.
  - exfalso. apply (eLt_irrefl (hmin (q_dep q))). eapply eLt_le_trans; eassumption.
  - apply qs_arrival_Ok in R; [|congruence|rewrite F4; apply I|rewrite F5; apply I].
    destruct R as (a & h & q2 & nw & h' & line' & m & d1 & d & s1 & o1 & s & o & a1 & -> & P & DR & _ & _ & _ & Q' & _).
    assert (DN := draw_new _ _ _ DR). qch DN.
    assert (NS : q_nsys q' = q_nsys q + 1) by (rewrite Q'; qc; lia).
    assert (OA : q_oarr q' = q_oarr q2) by (rewrite Q'; reflexivity).
    split; [reflexivity|]. split; [exact CF|]. exists new, []. cbn [departed1 app] in HH. split; [|split; [|auto]].
    + destruct TW as [TW|(b & _ & _ & X)]; [rewrite TW in HH; exact HH|congruence].
    + eapply ACT; [exact DR|exact F1|exact OA|exact F2].
  - apply loss_blocked_Ok in R; [|congruence|rewrite F4; apply I|rewrite F5; apply I].
    destruct R as (a & h & q2 & nw & d & R0 & P & DR & Q' & _).
    apply CL; [|exact R0|].
    + intros b _. left. unfold at_capacity. destruct (c_class (q_cfg q)) eqn:C; try congruence; apply eleb_le; exact CAP.
    + eapply ACT; [exact DR|exact F1|rewrite Q'; reflexivity|exact F2].
  - apply rq_return_Ok in R; [|apply I|apply I].
    destruct R as (a & h & o & d & R0 & P & _ & Q' & _).
    apply CL; [|exact R0|apply NON; rewrite Q'; reflexivity].
    intros b B. destruct RT as (a0 & t & E & K1 & K2). unfold arriving in B. rewrite DS, E in B. injection B as <-.
    right. split; [exact CR|]. split; [exact K1|]. left; exact K2.
  - apply rq_blocked_Ok in R; [|apply I|apply I].
    destruct R as (a & h & d & R0 & P & _ & Q' & _).
    apply CL; [|exact R0|apply NON; rewrite Q'; reflexivity].
    intros b B. destruct RT as (a0 & t & E & K1 & K2). unfold arriving in B. rewrite DS, E in B. injection B as <-.
    right. split; [exact CR|]. split; [exact K1|]. right; exact CAP.
Qed.

(** ** Another service *)

Lemma delay_held d q q' : qinv q -> c_class (q_cfg q) <> CNull -> delay_service d q = Ok q' ->
  Permutation (held q') (held q) /\ q_oarr q' = q_oarr q.
Proof.
  intros I N H. assert (E : step (ODelay d) q = Ok (None, q')) by (cbn [step run_op]; rewrite H; reflexivity).
  destruct (step_flow (ODelay d) q None q' I N Logic.I E) as [SF I'].
  assert (F := fo_flow _ SF). cbn beta iota in F. destruct F as (new & st & F & _).
  assert (OA : q_oarr q' = q_oarr q).
  { apply delay_service_Ok in H; [|exact N|apply I|apply I]. destruct H as [(_ & ->)|(a & h & h' & m & DL)]; [auto|].
    cbv zeta in DL. destruct DL as (_ & -> & _). auto. }
  split; [|exact OA]. assert (HH := flow_held _ _ _ _ _ _ _ _ F). cbn [sent1 departed1 turned_away1 app] in HH.
  destruct (fl_new _ _ _ _ _ _ _ _ F) as [[-> _]|[_ X]]; [|lia]. rewrite !app_nil_r in HH. symmetry; exact HH.
Qed.

Lemma mark_held q qm : wfh (q_dep q) -> mark_blocked q = Ok qm -> held qm = held q.
Proof.
  intros W M. apply mark_facts in M as (a & h & b & D & B & -> & _ & _ & A1 & A2); [|exact W].
  unfold held, in_service, ids. change agents_in with agents_of. qc. qch A2. rewrite A1, A2. subst b. reflexivity.
Qed.

(** ** Somebody comes in *)

Lemma add_held a q q' : qinv q -> c_class (q_cfg q) <> CNull -> add_arrival a q = Ok q' ->
  Permutation (held q') (ag_id a :: held q) /\ q_oarr q' = q_oarr q /\ q_active q' = q_active q /\ q_cfg q' = q_cfg q.
Proof.
  intros I N H. apply add_arrival_Ok in H as (h & -> & _ & P); [|exact N|apply I|apply I].
  split; [|auto]. unfold held, scheduled, ids. change agents_in with agents_of. qc. rewrite P. reflexivity.
Qed.

Lemma stopped_held max ag q : held (stopped max ag q) = held q.
Proof. unfold stopped. destruct (q_active q && _); reflexivity. Qed.

Lemma stopped_active max ag q : q_active (stopped max ag q) = true -> q_active q = true /\
  match max with Inf => True | Fin m => zsum ag <= m - 1 end.
Proof.
  unfold stopped. destruct (q_active q) eqn:A; cbn [andb]; [|congruence]. destruct max as [m|]; [|auto].
  destruct (m - 1 <? zsum ag) eqn:C; [cbn; discriminate|]. apply Z.ltb_ge in C. auto.
Qed.

Lemma stopped_desc max ag q : next_event_description (stopped max ag q) = next_event_description q.
Proof. unfold stopped. destruct (q_active q && _); reflexivity. Qed.
Lemma stopped_arriving max ag q : arriving (stopped max ag q) = arriving q.
Proof. unfold stopped. destruct (q_active q && _); reflexivity. Qed.
Lemma stopped_refuses max ag q a : refuses (stopped max ag q) a <-> refuses q a.
Proof. unfold stopped. destruct (q_active q && _); reflexivity. Qed.
Lemma stopped_oarr max ag q : q_oarr (stopped max ag q) = q_oarr q.
Proof. unfold stopped. destruct (q_active q && _); reflexivity. Qed.


Lemma arriving_in q b : arriving q = Some b -> In b (scheduled q).
Proof.
  unfold arriving. destruct (next_event_description q) as [z|]; [|discriminate]. destruct z as [|p|p]; try discriminate. destruct p; try discriminate.
  destruct (q_arr q) as [|[|a] h] eqn:E; try discriminate. intro H. injection H as <-. unfold scheduled. rewrite E. left; reflexivity.
Qed.

Lemma desc_arrival s q : qinv q -> c_class (q_cfg q) <> CNull -> s <> Inf -> (exists a, In a (scheduled q) /\ ag_time a = s) ->
  (forall b, In b (in_service q) -> eLe s (ag_time b)) -> next_event_description q = Ok 1.
Proof.
  intros I N NI (a & A & TA) DP. unfold next_event_description. rewrite (wfh_root_time _ (qi_arr _ I)), (wfh_root_time _ (qi_dep _ I)). cbn [bind].
  assert (M : eLe (hmin (q_arr q)) s) by (rewrite <- TA; apply wfh_min; [apply I|exact A]).
  assert (D : eLe s (hmin (q_dep q))).
  { destruct (wfh_min_cases _ (qi_dep _ I)) as [X|(b & B & T)]; [rewrite X; apply eLe_Inf|]. rewrite <- T. apply DP; exact B. }
  assert (E1 : eltb (hmin (q_dep q)) (hmin (q_arr q)) = false).
  { destruct (eltb (hmin (q_dep q)) (hmin (q_arr q))) eqn:C; [|reflexivity]. apply eltb_lt in C. exfalso.
    apply (eLt_irrefl (hmin (q_dep q))). eapply eLt_le_trans; [exact C|]. eapply eLe_trans; eassumption. }
  assert (E2 : eltb (hmin (q_arr q)) Inf = true).
  { destruct (hmin (q_arr q)); [reflexivity|]. destruct s; [destruct M|congruence]. }
  rewrite E1, E2. destruct (c_class (q_cfg q)); congruence.
Qed.

Lemma qinv_stopped max ag q : qinv q -> qinv (stopped max ag q).
Proof. intro I. unfold stopped. destruct (q_active q && _); [|exact I]. destruct I; split; assumption. Qed.

Definition entered (k : nat) (max : ext) (ag : list Z) (q : queue) (a : agent) (q2 : queue) : Prop :=
  exists new gone, Permutation (ag_id a :: held q ++ new) (held q2 ++ gone) /\
    (new = [] /\ q_oarr q2 = q_oarr q \/ new = [(k, q_oarr q)] /\ q_oarr q2 = q_oarr q + 1 /\ q_active q = true /\
       match max with Inf => True | Fin m => zsum ag <= m - 1 end) /\
    (leaves q [ag_id a] gone \/ c_class (q_cfg q) = CNull /\ gone = [ag_id a]).

Lemma enter_nonnull s k max ag q a q1 r q2 : qok s k q -> c_class (q_cfg q) <> CNull -> s <> Inf -> ag_time a = s ->
  add_arrival a q = Ok q1 -> next_event (stopped max ag q1) = Ok (r, q2) -> entered k max ag q a q2.
Proof.
  intros K N NI TA AD NX. assert (I := qk_inv _ _ _ K).
  destruct (add_held _ _ _ I N AD) as (HA & OA & AA & CA). destruct (add_pend _ _ _ I N AD) as (PP & _ & DD & _).
  assert (IV := qinv_add_arrival _ _ _ I AD).
  assert (SC : Permutation (scheduled q1) (a :: scheduled q) /\ q_nsys q1 = q_nsys q /\ q_servers q1 = q_servers q).
  { apply add_arrival_Ok in AD as (h & -> & _ & P); [split; [exact P|split; reflexivity]|exact N|apply I|apply I]. }
  destruct SC as (SC & SN & SS).
  assert (DS : next_event_description q1 = Ok 1).
  { apply desc_arrival with s; [exact IV|congruence|exact NI| |].
    - exists a. split; [|exact TA]. apply (Permutation_in _ (Permutation_sym SC)). left; reflexivity.
    - intros b B. apply (qk_pend _ _ _ K). unfold pend. apply in_or_app. right. apply in_map. unfold in_service in B. rewrite DD in B. exact B. }
  assert (DS1 := DS). rewrite <- (stopped_desc max ag) in DS1.
  destruct (arr_event _ _ _ (qinv_stopped _ _ _ IV) DS1 NX) as (_ & _ & new & gone & HH & NW & GO).
  rewrite stopped_held, HA in HH. rewrite stopped_oarr, OA in NW. rewrite cfg_stopped, CA, (qk_idx _ _ _ K) in NW. exists new, gone.
  split; [exact HH|]. split.
  - destruct NW as [NW|(NW1 & NW2 & NW3)]; [left; exact NW|]. right. apply stopped_active in NW3. rewrite AA in NW3. tauto.
  - left. destruct GO as [GO|(b & AB & GO & RF)]; [left; exact GO|]. right. exists b. split; [exact GO|].
    rewrite stopped_arriving in AB. rewrite stopped_refuses in RF. split.
    + apply arriving_in in AB. apply (Permutation_in _ SC) in AB. destruct AB as [<-|AB]; [right; left; reflexivity|left; exact AB].
    + unfold refuses, at_capacity in *. rewrite CA, SN, SS in RF. exact RF.
Qed.

Lemma enter_event s k max ag q a q1 r q2 : qok s k q -> s <> Inf -> ag_time a = s ->
  add_arrival a q = Ok q1 -> next_event (stopped max ag q1) = Ok (r, q2) -> entered k max ag q a q2.
Proof.
  intros K NI TA AD NX. destruct (c_class (q_cfg q)) eqn:C.
  3:{ apply add_arrival_null in AD as (d & -> & _); [|exact C].
      assert (q2 = stopped max ag (set_q_data d q)).
      { unfold next_event in NX. rewrite cfg_stopped in NX. cbn [q_cfg set_q_data] in NX. rewrite C in NX. injection NX as _ <-. reflexivity. }
      subst q2. exists [], [ag_id a]. rewrite stopped_held, stopped_oarr. change (held (set_q_data d q)) with (held q).
      split; [|split; [left; auto|right; auto]]. rewrite app_nil_r. apply Permutation_cons_append. }
  all: eapply enter_nonnull; eauto; congruence.
Qed.

(** ** Everybody *)

Lemma everyone_upd qs k q q' A B : get qs k = Some q -> Permutation (held q ++ A) (held q' ++ B) ->
  Permutation (flat_map held qs ++ A) (flat_map held (upd qs k q') ++ B).
Proof.
  revert k. induction qs as [|q0 qs IH]; intros [|k] G P; try discriminate.
  - cbn in G. injection G as ->. cbn [flat_map upd]. rewrite <- !app_assoc.
    rewrite (Permutation_app_comm (flat_map held qs) A), (Permutation_app_comm (flat_map held qs) B), !app_assoc. rewrite P. reflexivity.
  - cbn [flat_map upd]. rewrite <- !app_assoc. apply Permutation_app_head. apply IH; assumption.
Qed.

(** A step, with the creation of agents and the counts. *)
Lemma nst_transit n n' : ninv n -> nst n n' -> transit n n' /\ nt_out n' = nt_out n.
Proof.
  intros I S. destruct S as [SZ ->|t k h q SZ PO G DS ->|t k h q r q' h' SZ PO G DS NX PU LC ->|
    t k h q a h0 l e2 q2 qm q' d h' iu ie td SZ PO G DS DP OUT IN DD G2 NE CA MB RT DE DL NK PU ->|
    t k h q a h0 l e2 q2old b q' q2 q2a r q2' h' iu SZ PO G DS DP OUT IN DD G2 CA NX GE AD NX2 PU LA LB ->]; (split; [|reflexivity]).
  - apply tr_nothing. reflexivity.
  - apply tr_nothing. reflexivity.
  - destruct (popped _ _ _ _ I SZ PO) as (W & LE & LK & QK & QM & _ & KS & TT & HB & _).
    assert (K := KS _ _ G). assert (I1 := qinv_stopped (nt_max n) (nt_nagents n) q (qk_inv _ _ _ K)).
    assert (DS1 := DS). rewrite <- (stopped_desc (nt_max n) (nt_nagents n)) in DS1.
    destruct (arr_event _ _ _ I1 DS1 NX) as (_ & _ & new & gone & HH & NW & GO).
    rewrite stopped_held in HH. rewrite stopped_oarr, cfg_stopped, (qk_idx _ _ _ K) in NW.
    eapply tr_arrival; [exact G|reflexivity|exact HH| | |].
    + destruct NW as [[NW _]|(NW & _ & NA)]; [left; exact NW|]. right. split; [exact NW|]. apply stopped_active in NA. tauto.
    + destruct NW as [(-> & ->)|(-> & -> & _)]; unfold zlen; cbn [length]; lia.
    + destruct GO as [GO|(c & AC & GO & RF)]; [left; exact GO|]. right. exists c. split; [exact GO|].
      rewrite stopped_arriving in AC. rewrite stopped_refuses in RF. split; [left; apply arriving_in; exact AC|exact RF].
  - destruct (popped _ _ _ _ I SZ PO) as (W & LE & LK & QK & QM & _ & KS & TT & HB & _).
    assert (K := KS _ _ G). destruct (qok_mark _ _ _ _ K MB) as (KM & _ & _ & CM & _).
    destruct (description_2 _ (qk_inv _ _ _ K) DS) as (NN & _).
    destruct (delay_held d qm q' (qk_inv _ _ _ KM) ltac:(congruence) DL) as [HD OD].
    rewrite (mark_held _ _ (qi_dep _ (qk_inv _ _ _ K)) MB) in HD.
    eapply (tr_blocked _ _ k e2 q q' q2 (set_q_blocked (q_blocked q2 + 1) q2)); eauto.
    + exists q, l. auto.
    + symmetry; exact HD.
    + rewrite OD. apply (qok_mark _ _ _ _ K MB).
  - destruct (popped _ _ _ _ I SZ PO) as (W & LE & LK & QK & QM & _ & KS & TT & HB & _).
    assert (K := KS _ _ G). destruct (description_2 _ (qk_inv _ _ _ K) DS) as (NN & _ & _ & FI).
    assert (TQ : q_time q = t) by (destruct (TT _ G); [assumption|congruence]). assert (FT : t <> Inf) by congruence.
    destruct (dep_event _ _ _ _ _ (qk_inv _ _ _ K) DS DP NX) as (b0 & EB & IDB & _ & HH & OB & _). injection EB as <-.
    destruct (qok_next t k _ _ _ K TQ FT NX) as (K' & _).
    assert (K2 : qok t e2 q2).
    { apply get_upd in GE as [[-> ->]|[NE GE]]; [exact K'|apply KS; exact GE|exact LK]. }
    destruct (enter_event _ _ _ _ _ _ _ _ _ K2 FT (eq_refl : ag_time (set_ag_time t b) = t) AD NX2) as (new & gone & HE & NW & GO).
    change (ag_id (set_ag_time t b)) with (ag_id b) in *. rewrite IDB in *.
    eapply (tr_move _ _ k e2 a q q' q2 q2' new gone); eauto.
    + unfold in_service. rewrite DP. left; reflexivity.
    + exists q, l. auto.
    + destruct DD as [n1 [DD IU]]. refine (desired_chooses _ _ _ _ _ _ DD _). symmetry; exact IU.
    + destruct NW as [[NW _]|(NW & _ & NA & _)]; [left; exact NW|]. right. auto.
    + destruct NW as [(-> & ->)|(-> & -> & _)]; unfold zlen; cbn [length]; lia.
    + destruct CA as [CA|CA]; [|right; exact CA]. destruct (Nat.eq_dec e2 k) as [->|NE2]; [right; reflexivity|].
      left. rewrite get_upd_neq in GE by exact NE2. congruence.
Qed.
