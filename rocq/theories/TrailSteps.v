(** * TrailSteps: what a call does to the rows and the place of one agent *)
From Coq Require Import List ZArith QArith Lia Bool Permutation Arith.
From Verif Require Import Base Heap HeapProofs PQueue PQueueProofs SpecPQ PQHist Queue QueueEffects QueueEvents QueueSteps QueueInv SpecQueue QueueFlow QueueHist QueueData QueueRows QueueClaims1 QueueClaims3 Network NetQueue NetSteps NetInv SpecNet NetReach NetFlow NetClaims1 SpecTrail.
Import ListNotations.
Open Scope Z_scope.

Inductive eff (q q' : queue) (i : aid) : Prop :=
| ef_same : rows_of (q_data q') i = rows_of (q_data q) i -> (inside q' i <-> inside q i) ->
    (forall a, ag_id a = i -> (In a (scheduled q') <-> In a (scheduled q))) -> eff q q' i
| ef_begin s : rows_of (q_data q') i = last_upd (row_set_srv s) (rows_of (q_data q) i) -> inside q i -> inside q' i ->
    ~ In i (ids (scheduled q')) -> eff q q' i
| ef_new : i = (c_idx (q_cfg q), q_oarr q) -> rows_of (q_data q') i = rows_of (q_data q) i -> ~ inside q' i ->
    In i (ids (scheduled q')) -> eff q q' i
| ef_arrive a rw : In a (scheduled q) -> ag_id a = i -> rows_of (q_data q') i = rows_of (q_data q) i ++ [rw] ->
    r_arr rw = ag_time a -> r_arr rw = q_now q' -> r_dep rw = Fin 0 -> ~ In i (ids (scheduled q')) -> eff q q' i.

Lemma in_ids (l : list agent) a : In a l -> In (ag_id a) (ids l).
Proof. apply in_map. Qed.

(** ** An arrival *)

Lemma draw_first q q2 new : draw q q2 new -> Permutation (scheduled q2) (new ++ scheduled q) /\
  (ids new = [] \/ ids new = [(c_idx (q_cfg q), q_oarr q)]) /\ q_oarr q <= q_oarr q2.
Proof.
  intro D. apply draw_new in D as (P & _ & _ & _ & _ & _ & _ & _ & _ & _ & _ & _ & _ & _ & N). split; [exact P|].
  destruct N as [[N O]|[N O]]; (split; [auto|lia]).
Qed.

Lemma arr_sched q r q' : qinv q -> c_class (q_cfg q) <> CResource -> next_event_description q = Ok 1 -> next_event q = Ok (r, q') ->
  exists a rest new, arriving q = Some a /\ Permutation (scheduled q) (a :: rest) /\ Permutation (scheduled q') (new ++ rest) /\
    (ids new = [] \/ ids new = [(c_idx (q_cfg q), q_oarr q)]) /\ q_oarr q <= q_oarr q' /\ q_now q' = ag_time a /\ q_collect q' = q_collect q.
Proof.
  intros I NR DS H. destruct (description_1 _ I DS) as (N & LE0 & _ & TI).
  assert (Wa := qi_arr _ I). assert (Wd := qi_dep _ I).
  apply next_event_event in H as (qe & PE & EV); [|exact Wa|exact Wd].
  destruct (pre_event_net _ _ PE) as (nd & QE).
  assert (FQ : q_oarr qe = q_oarr q /\ q_arr qe = q_arr q /\ q_dep qe = q_dep q /\ q_cfg qe = q_cfg q /\ q_collect qe = q_collect q) by (subst qe; auto 8).
  destruct FQ as (F1 & F4 & F5 & F6 & F7). clear PE QE.
  assert (AR : forall a h, pop_agent (q_arr qe) = Ok (a, h) -> arriving q = Some a).
  { intros a h P. rewrite F4 in P. apply pop_agent_Ok in P as (_ & _ & _ & t & E); [|exact Wa]. unfold arriving. rewrite DS, E. reflexivity. }
  assert (PP : forall a h, pop_agent (q_arr qe) = Ok (a, h) -> Permutation (scheduled q) (a :: agents_of h)).
  { intros a h P. rewrite F4 in P. apply pop_agent_Ok in P as (_ & P & _ & _); [|exact Wa]. exact P. }
  destruct EV as [ID QQ QQ2 QQ3|NN LT R|NN LE NI CAP RC R|NN NS LE NI CAP RC R|CR LE NI RT QQ R|CR LE NI RT QQ CAP R]; try congruence.
  - exfalso. destruct ID as [ID|[ID1 ID2]]; [congruence|]. apply TI. rewrite (qi_time _ I). rewrite ID1, ID2. reflexivity.
  - exfalso. apply (eLt_irrefl (hmin (q_dep q))). eapply eLt_le_trans; eassumption.
  - apply qs_arrival_Ok in R; [|congruence|rewrite F4; apply I|rewrite F5; apply I].
    destruct R as (a & h & q2 & nw & h' & line' & m & d1 & d & s1 & o1 & s & o & a1 & -> & P & DR & _ & _ & _ & Q' & _).
    exists a, (agents_of h), nw. split; [eauto|]. split; [eauto|]. assert (DF := draw_first _ _ _ DR). destruct DF as (P2 & P3 & P4).
    assert (S2 : scheduled q' = scheduled q2 /\ q_oarr q' = q_oarr q2 /\ q_now q' = q_now q2 /\ q_collect q' = q_collect q2) by (rewrite Q'; auto).
    destruct S2 as (S2 & S3 & S4 & S5). rewrite S2, S3, S4, S5. split; [exact P2|]. qch P3. qch P4. rewrite F6, F1 in P3. rewrite F1 in P4. split; [exact P3|].
    split; [exact P4|]. assert (DN := draw_new _ _ _ DR). qch DN. split; [apply DN|]. rewrite <- F7. apply DN.
  - apply loss_blocked_Ok in R; [|congruence|rewrite F4; apply I|rewrite F5; apply I].
    destruct R as (a & h & q2 & nw & d & R0 & P & DR & Q' & _).
    exists a, (agents_of h), nw. split; [eauto|]. split; [eauto|]. assert (DF := draw_first _ _ _ DR). destruct DF as (P2 & P3 & P4).
    assert (S2 : scheduled q' = scheduled q2 /\ q_oarr q' = q_oarr q2 /\ q_now q' = q_now q2 /\ q_collect q' = q_collect q2) by (rewrite Q'; auto).
    destruct S2 as (S2 & S3 & S4 & S5). rewrite S2, S3, S4, S5. split; [exact P2|]. qch P3. qch P4. rewrite F6, F1 in P3. rewrite F1 in P4. split; [exact P3|].
    split; [exact P4|]. assert (DN := draw_new _ _ _ DR). qch DN. split; [apply DN|]. rewrite <- F7. apply DN.
Qed.

Lemma ids_cons (a : agent) l : ids (a :: l) = ag_id a :: ids l. Proof. reflexivity. Qed.
Lemma ids_app (l m : list agent) : ids (l ++ m) = ids l ++ ids m. Proof. apply map_app. Qed.
Lemma ids_perm (l m : list agent) : Permutation l m -> Permutation (ids l) (ids m). Proof. apply Permutation_map. Qed.

Lemma inside_held q i : inside q i -> In i (held q).
Proof. unfold inside, held. rewrite !in_app_iff. tauto. Qed.
Lemma sched_held q i : In i (ids (scheduled q)) -> In i (held q).
Proof. unfold held. rewrite !in_app_iff. tauto. Qed.
Lemma held_cases q i : In i (held q) -> inside q i \/ In i (ids (scheduled q)).
Proof. unfold inside, held. rewrite !in_app_iff. tauto. Qed.

Lemma eff_arr q r q' : qinv q -> dinv q -> c_class (q_cfg q) <> CNull -> c_class (q_cfg q) <> CResource -> q_collect q = true ->
  next_event_description q = Ok 1 -> next_event q = Ok (r, q') -> (forall i, eff q q' i) /\ q_oarr q <= q_oarr q' /\ q_collect q' = true.
Proof.
  intros I [ND BD] N NR CO DS H. destruct (arr_sched _ _ _ I NR DS H) as (a & rest & new & AR & P1 & P2 & NW & OA & NOW & CC).
  split; [|split; [exact OA|congruence]]. intro i.
  assert (RR := rows_record _ _ _ I N NR ND CO H i). rewrite AR in RR.
  assert (M := mem_next _ _ _ I N ND H i). unfold mem_step in M. rewrite AR in M. destruct M as (_ & M).
  destruct (held_split _ ND) as (S1 & S2 & N1 & N2 & N3).
  assert (IP1 := ids_perm _ _ P1). assert (IP2 := ids_perm _ _ P2). rewrite ids_cons in IP1. rewrite ids_app in IP2.
  assert (FR : ~ In (c_idx (q_cfg q), q_oarr q) (held q)) by (intro X; apply BD in X; [cbn in X; lia|reflexivity]).
  assert (NDR := Permutation_NoDup IP1 N1). inversion NDR as [|? ? NA _]; subst.
  destruct (aid_eqb (ag_id a) i) eqn:E.
  - apply aid_eqb_eq in E. subst i. apply (ef_arrive q q' _ a _) with (3 := RR); auto.
    + apply (Permutation_in _ (Permutation_sym P1)). left. reflexivity.
    + intro X. apply (Permutation_in _ IP2) in X. apply in_app_or in X as [X|X]; [|contradiction].
      destruct NW as [NW|NW]; rewrite NW in X; [destruct X|]. destruct X as [X|[]]. apply FR. rewrite X.
      apply sched_held. apply (Permutation_in _ (Permutation_sym IP1)). left. reflexivity.
  - assert (NE : i <> ag_id a) by (intros ->; rewrite aid_eqb_refl in E; discriminate). destruct (M NE) as (M1 & M2).
    assert (IS : inside q' i <-> inside q i) by (unfold inside; tauto).
    destruct (in_dec aid_dec i (ids new)) as [X|X].
    + destruct NW as [NW|NW]; rewrite NW in X; [destruct X|]. destruct X as [<-|[]]. apply ef_new; auto.
      * intro Y. apply FR, inside_held, IS, Y.
      * apply (Permutation_in _ (Permutation_sym IP2)). rewrite NW. left. reflexivity.
    + apply ef_same; auto. intros b B. split; intro Y.
      * apply (Permutation_in _ P2) in Y. apply (Permutation_in _ (Permutation_sym P1)). apply in_app_or in Y as [Y|Y]; [|right; exact Y].
        apply in_ids in Y. rewrite B in Y. contradiction.
      * apply (Permutation_in _ (Permutation_sym P2)). apply (Permutation_in _ P1) in Y. apply in_or_app. right.
        destruct Y as [->|Y]; [congruence|exact Y].
Qed.

(** ** A departure *)

Lemma eff_dep q a h0 r q' : qinv q -> dinv q -> c_class (q_cfg q) <> CResource -> q_collect q = true ->
  next_event_description q = Ok 2 -> q_dep q = Ag a :: h0 -> next_event q = Ok (r, q') ->
  exists b, r = Some b /\ ag_id b = ag_id a /\ (forall i, i <> ag_id a -> eff q q' i) /\
    inside q (ag_id a) /\ ~ In (ag_id a) (held q') /\
    rows_of (q_data q') (ag_id a) = last_upd (row_set_dep (q_now q')) (rows_of (q_data q) (ag_id a)) /\
    q_oarr q' = q_oarr q /\ Permutation (held q) (ag_id a :: held q') /\ q_collect q' = true.
Proof.
  intros I [ND BD] NR CO DS DP H. destruct (description_2 _ I DS) as (N & LT & _ & _).
  destruct (dep_event _ _ _ _ _ I DS DP H) as (b & -> & IDB & _ & HH & OA & _ & _ & _ & SC & _).
  assert (AR : arriving q = None) by (unfold arriving; rewrite DS; reflexivity).
  exists b. split; [reflexivity|]. split; [exact IDB|].
  assert (RR := rows_record _ _ _ I N NR ND CO H). rewrite AR in RR.
  assert (M := mem_next _ _ _ I N ND H). unfold mem_step in M. rewrite AR in M.
  destruct (held_split _ ND) as (S1 & S2 & N1 & N2 & N3).
  assert (NH : ~ In (ag_id a) (held q')) by (assert (X := Permutation_NoDup HH ND); inversion X; assumption).
  split.
  - intros i NE. specialize (RR i). destruct (M i) as (_ & M2). rewrite IDB in *. specialize (M2 NE).
    assert (E : aid_eqb (ag_id a) i = false) by (apply aid_eqb_neq; congruence). rewrite E in RR.
    destruct (began q q' i) eqn:B.
    + destruct M2 as (M2 & M3). apply (ef_begin q q' i (q_now q')); auto.
      * left. exact M2.
      * right. apply began_true in B. apply B.
      * intro X. apply (Permutation_in _ (ids_perm _ _ SC)) in X. destruct (S1 _ X). contradiction.
    + apply ef_same; auto.
      * unfold inside. tauto.
      * intros c _. split; apply Permutation_in; [exact SC|symmetry; exact SC].
  - split; [right; apply (M (ag_id a)); congruence|]. split; [exact NH|].
    split; [rewrite (RR (ag_id a)), IDB, aid_eqb_refl; reflexivity|]. split; [exact OA|]. split; [exact HH|].
    assert (X := collect_op ONext q q' I N ltac:(discriminate)). cbn [run_op] in X. rewrite H in X. cbn [bind snd] in X.
    destruct (X eq_refl) as (Y & _). congruence.
Qed.

(** ** The others *)

Lemma eff_quiet q q' : q_data q' = q_data q -> ids (waiting q') = ids (waiting q) ->
  (forall i, In i (ids (in_service q')) <-> In i (ids (in_service q))) -> scheduled q' = scheduled q -> forall i, eff q q' i.
Proof.
  intros D W S0 A i. apply ef_same; [rewrite D; reflexivity| |].
  - unfold inside. rewrite W, S0. reflexivity.
  - intros a _. rewrite A. reflexivity.
Qed.

Lemma eff_mark q qm : wfh (q_dep q) -> mark_blocked q = Ok qm -> q_data qm = q_data q /\ waiting qm = waiting q /\
  ids (in_service qm) = ids (in_service q) /\ scheduled qm = scheduled q /\ q_cfg qm = q_cfg q /\ q_collect qm = q_collect q.
Proof.
  intros W M. apply mark_facts in M as (a & h & b & D & B & -> & _ & _ & A1 & A2); [|exact W].
  unfold in_service, ids. change agents_in with agents_of. qc. qch A2. rewrite A1, A2. subst b. repeat split.
Qed.

Lemma eff_delay d q q' : qinv q -> c_class (q_cfg q) <> CNull -> delay_service d q = Ok q' -> q_data q' = q_data q /\ waiting q' = waiting q /\
  Permutation (ids (in_service q')) (ids (in_service q)) /\ scheduled q' = scheduled q /\ q_collect q' = q_collect q.
Proof.
  intros I N H. apply delay_service_Ok in H; [|exact N|apply I|apply I]. destruct H as [(_ & ->)|(a & h & h' & m & DL)]; [repeat split; reflexivity|].
  cbv zeta in DL. destruct DL as (_ & -> & _ & _ & _ & P1 & P2 & _). repeat split. unfold in_service. change agents_in with agents_of. qc.
  rewrite (ids_perm _ _ P2), (ids_perm _ _ P1). reflexivity.
Qed.

Lemma eff_active q q' : qinv q -> dinv q -> set_active q = Ok q' -> (forall i, eff q q' i) /\ q_oarr q <= q_oarr q' /\ q_collect q' = q_collect q /\ q_now q' = q_now q.
Proof.
  intros I [ND BD] H. unfold set_active in H. destruct (q_active q).
  { injection H as <-. split; [|split; [lia|auto]]. apply eff_quiet; auto. tauto. }
  unfold add_arrival_self in H. qch H. destruct (c_class (q_cfg q)) eqn:C.
  3:{ injection H as <-. split; [|split; [qc; lia|auto]]. apply eff_quiet; auto. tauto. }
  all: apply add_arrival_new_Ok in H; [|apply I|apply I]; qch H; cbv zeta in H;
    destruct H as [(T & ->)|[(T & D & CI & ->)|(T & D & a & h & act & -> & I1 & T1 & K1 & B1 & H1 & W & P & AC)]];
    [split; [apply eff_quiet; auto; tauto|qc; split; [lia|auto]]|split; [apply eff_quiet; auto; tauto|qc; split; [lia|auto]]|];
    (split; [|qc; split; [lia|auto]]); intro i; qch P; qch I1;
    destruct (aid_dec i (ag_id a)) as [->|NE];
    [apply ef_new; [exact I1|reflexivity| |]
    |apply ef_same; [reflexivity|reflexivity|]; intros b B; split; intro X;
      [apply (Permutation_in _ P) in X; destruct X as [->|X]; [congruence|exact X]
      |apply (Permutation_in _ (Permutation_sym P)); right; exact X]];
    [intro X; assert (Y : In (ag_id a) (held q)) by (apply inside_held; exact X); rewrite I1 in Y; apply BD in Y; [cbn in Y; lia|reflexivity]
    |apply in_ids; apply (Permutation_in _ (Permutation_sym P)); left; reflexivity].
Qed.
