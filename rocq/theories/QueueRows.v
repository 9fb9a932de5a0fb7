(** * QueueRows: what an event does to the collected rows and to times *)
From Coq Require Import List ZArith QArith Lia Bool Permutation Arith.
From Verif Require Import Base Heap HeapProofs Queue QueueEffects QueueEvents QueueSteps QueueInv SpecQueue QueueFlow QueueHist QueueData.
Import ListNotations.
Open Scope Z_scope.

(** ** Identifiers are distinct *)

Definition dinv (q : queue) : Prop :=
  NoDup (held q) /\ forall i, In i (held q) -> fst i = c_idx (q_cfg q) -> snd i < q_oarr q.

Lemma flow_held q q' new st se ad de lo : flow q q' new st se ad de lo ->
  Permutation (held q ++ se ++ new) (held q' ++ de ++ lo).
Proof.
  intros [A L D _ _]. apply perm_of_cnt. intro x. unfold held.
  assert (PA := perm_cnt _ _ A x). assert (PD := perm_cnt _ _ D x).
  assert (PL : (cnt (ids (waiting q)) x + cnt ad x = cnt st x + cnt (ids (waiting q')) x)%nat).
  { destruct L as [L|(y & -> & -> & L)].
    - rewrite <- !count_occ_app, L. reflexivity.
    - rewrite L. lia. }
  rewrite !count_occ_app in *. lia.
Qed.

Lemma sent1_one o q r q' : sent1 (o, q, r, q') = [] \/ exists i, sent1 (o, q, r, q') = [i].
Proof. unfold sent1. destruct o; auto. right. eauto. Qed.

Lemma NoDup_app_left {A} (l l' : list A) : NoDup (l ++ l') -> NoDup l.
Proof.
  induction l as [|x l IH]; intro H; [constructor|]. inversion H; subst. constructor; [|auto].
  intro X. apply H2. apply in_or_app; left; exact X.
Qed.

Lemma NoDup_snoc {A} (l : list A) x : NoDup l -> ~ In x l -> NoDup (l ++ [x]).
Proof.
  intros N H. apply (Permutation_NoDup (l := x :: l)); [apply Permutation_cons_append|]. constructor; assumption.
Qed.

Lemma dinv_op o q q' : qinv q -> c_class (q_cfg q) <> CNull -> no_clear o -> fresh q o ->
  dinv q -> run_op o q = Ok q' -> dinv q'.
Proof.
  intros I N NC FR (ND & LT) H.
  assert (X : exists r, step o q = Ok (r, q')).
  { destruct o; unfold step; try (rewrite H; cbn [bind]; eauto; fail). cbn [run_op] in H. mbind H. destruct x as [r q1].
    inversion H; subst. eauto. }
  destruct X as (r & E). destruct (step_flow _ _ _ _ I N NC E) as ([F _ _ _] & _).
  destruct F as (new & st & FL & _). assert (P := flow_held _ _ _ _ _ _ _ _ FL).
  destruct FL as [_ _ _ NW CF].
  assert (SE : forall i, In i (sent1 (o, q, r, q')) -> ~ In i (held q) /\ (fst i = c_idx (q_cfg q) -> snd i < q_oarr q)).
  { intros i X. unfold sent1 in X. destruct o; try destruct X as [<-|[]]; try destruct X. exact FR. }
  assert (G : NoDup (held q ++ sent1 (o, q, r, q')) /\
              forall i, In i (held q ++ sent1 (o, q, r, q')) -> fst i = c_idx (q_cfg q) -> snd i < q_oarr q).
  { destruct (sent1_one o q r q') as [Y|(i & Y)]; rewrite Y in *.
    - rewrite app_nil_r. auto.
    - destruct (SE i (or_introl eq_refl)) as (S1 & S2). split; [apply NoDup_snoc; assumption|].
      intros j J. apply in_app_or in J as [J|[<-|[]]]; auto. }
  destruct G as (G1 & G2).
  assert (K : NoDup (held q ++ sent1 (o, q, r, q') ++ new) /\
              forall i, In i (held q ++ sent1 (o, q, r, q') ++ new) -> fst i = c_idx (q_cfg q) -> snd i < q_oarr q').
  { rewrite app_assoc. destruct NW as [(-> & O)|(-> & O)]; rewrite O.
    - rewrite app_nil_r. auto.
    - split.
      + apply NoDup_snoc; [exact G1|]. intro X. apply G2 in X; cbn in *; [lia | reflexivity].
      + intros j J F. apply in_app_or in J as [J|[<-|[]]]; [|cbn; lia]. specialize (G2 j J F). lia. }
  destruct K as (K1 & K2). split.
  - apply (Permutation_NoDup P) in K1. rewrite ?app_assoc in K1.
    apply NoDup_app_left in K1. apply NoDup_app_left in K1. exact K1.
  - intros i X F. rewrite CF in F. apply K2; [|exact F]. apply (Permutation_in i (Permutation_sym P)).
    apply in_or_app. left; exact X.
Qed.

Lemma held_split q : NoDup (held q) ->
  (forall a, In a (ids (scheduled q)) -> ~ In a (ids (in_service q)) /\ ~ In a (ids (waiting q))) /\
  (forall a, In a (ids (in_service q)) -> ~ In a (ids (waiting q))) /\
  NoDup (ids (scheduled q)) /\ NoDup (ids (in_service q)) /\ NoDup (ids (waiting q)).
Proof.
  unfold held. intro ND.
  assert (D : forall (l l' : list aid), NoDup (l ++ l') -> NoDup l /\ NoDup l' /\ forall x, In x l -> ~ In x l').
  { induction l as [|x l IH]; intros l' H; cbn in H; [split; [constructor|]; split; [exact H|]; intros ? []|].
    inversion H; subst. destruct (IH l' H3) as (A & B & C). split; [|split; [exact B|]].
    - constructor; [|exact A]. intro X. apply H2. apply in_or_app; left; exact X.
    - intros y [<-|Y]; [|auto]. intro X. apply H2. apply in_or_app; right; exact X. }
  apply D in ND as (A & B & C). apply D in B as (E & F & G). split; [|auto].
  intros a X. specialize (C a X). rewrite in_app_iff in C. tauto.
Qed.

Lemma ids_perm_iff l l' : Permutation l l' -> forall i, In i (ids l) <-> In i (ids l').
Proof.
  intros P i. unfold ids. split; intro X; [apply (Permutation_in i (Permutation_map ag_id P) X)|].
  apply (Permutation_in i (Permutation_sym (Permutation_map ag_id P)) X).
Qed.

(** ** Rows after an event *)

(** What the rows of agent [i] become in one event. *)
Definition row_step (q : queue) (r : option agent) (q' : queue) (i : aid) (rows rows' : list row) : Prop :=
  match arriving q with
  | Some a =>
    if aid_eqb (ag_id a) i then
      exists nw, rows' = rows ++ [nw] /\ r_arr nw = q_now q' /\
        (r_srv nw = (if memb i (in_service q') then q_now q' else Fin 0) /\ r_dep nw = Fin 0 /\
         (c_class (q_cfg q) <> CResource -> r_nq nw = zlen (waiting q') /\ r_ns nw = q_nsys q') \/
         c_class (q_cfg q) = CResource /\ memb i (in_service q') = false /\ memb i (waiting q') = false /\
         r_srv nw = q_now q' /\ r_dep nw = q_now q')
    else rows' = rows
  | None =>
    match r with
    | Some a =>
      if aid_eqb (ag_id a) i then rows' = last_upd (row_set_dep (q_now q')) rows
      else if began q q' i then rows' = last_upd (row_set_srv (q_now q')) rows
      else rows' = rows
    | None => rows' = rows
    end
  end.

Lemma pop_ids h a h' : wfh h -> pop_agent h = Ok (a, h') -> forall i, In i (ids (agents_of h)) <-> i = ag_id a \/ In i (ids (agents_of h')).
Proof.
  intros W P i. apply pop_agent_Ok in P as (_ & P & _); [|exact W].
  rewrite (ids_perm_iff _ _ P i). unfold ids. cbn [map In]. intuition congruence.
Qed.

Lemma rows_next q r q' : qinv q -> c_class (q_cfg q) <> CNull -> NoDup (held q) -> q_collect q = true ->
  next_event q = Ok (r, q') ->
  forall i, row_step q r q' i (rows_of (q_data q) i) (rows_of (q_data q') i).
Proof.
  intros I N ND CO H i. assert (Wa := qi_arr _ I). assert (Wd := qi_dep _ I).
  destruct (held_split _ ND) as (S1 & S2 & N1 & N2 & N3).
  apply next_event_event in H as (qe & PE & EV); [|exact Wa|exact Wd].
  destruct (pre_event_net _ _ PE) as (nd & ->).
  unfold row_step.
  destruct EV as [ID _ -> ->|_ LT R|_ LE NI CAP _ R|_ NS LE NI CAP _ R|CR LE NI RT _ R|CR LE NI RT _ CAP R].
  - rewrite (idle_not_arriving q Wa Wd ID). reflexivity.
  - rewrite (departing_not_arriving q Wa Wd LT).
    apply qs_departure_Ok in R; [|exact Wa|exact Wd].
    destruct R as (a & h & a' & h' & line' & n & d1 & d & s & o & PA & -> & I1 & T1 & K1 & B1 & Q & D1 & Wh' & SO & ST).
    qch PA. qch D1. qch ST. rewrite I1. rewrite CO in *. subst q'. qc.
    assert (PI := pop_ids _ _ _ Wd PA).
    unfold began. unfold in_service at 1. qc. change (agents_in h') with (agents_of h').
    assert (IA : In (ag_id a) (ids (in_service q))) by (apply PI; left; reflexivity).
    destruct ST as [(_ & -> & -> & _ & ->)|(_ & b & b' & LB & I2 & T2 & _ & Pb & _ & D2)].
    + rewrite (rows_dmod _ _ _ _ i D1). destruct (aid_eqb (ag_id a) i) eqn:E; [reflexivity|].
      destruct (memb i (agents_of h)) eqn:M1; cbn [andb]; [|reflexivity].
      destruct (memb i (in_service q)) eqn:M2; cbn [negb]; [reflexivity|].
      apply memb_in in M1. apply memb_not in M2. exfalso. apply M2. apply PI. right; exact M1.
    + rewrite (rows_dmod _ _ _ _ i D2), (rows_dmod _ _ _ _ i D1).
      assert (IB : In (ag_id b) (ids (waiting q))) by (unfold waiting, ids; rewrite LB; left; reflexivity).
      destruct (aid_eqb (ag_id a) i) eqn:E.
      * apply aid_eqb_eq in E. subst i. replace (aid_eqb (ag_id b) (ag_id a)) with false; [reflexivity|].
        symmetry. apply aid_eqb_neq. intro X. rewrite X in IB. apply (S2 _ IA IB).
      * destruct (aid_eqb (ag_id b) i) eqn:E2.
        -- apply aid_eqb_eq in E2. subst i.
           replace (memb (ag_id b) (agents_of h')) with true.
           ++ replace (memb (ag_id b) (in_service q)) with false; [reflexivity|].
              symmetry. apply memb_not. intro X. apply (S2 _ X IB).
           ++ symmetry. apply memb_in. rewrite (ids_perm_iff _ _ Pb). left. exact I2.
        -- destruct (memb i (agents_of h')) eqn:M1; cbn [andb]; [|reflexivity].
           destruct (memb i (in_service q)) eqn:M2; cbn [negb]; [reflexivity|].
           apply memb_in in M1. apply memb_not in M2. exfalso. apply M2.
           rewrite (ids_perm_iff _ _ Pb) in M1. destruct M1 as [M1|M1].
           ++ rewrite I2 in M1. apply aid_eqb_neq in E2. congruence.
           ++ apply PI. right; exact M1.
  - apply qs_arrival_Ok in R; [|exact N|exact Wa|exact Wd].
    destruct R as (a & h & q2 & new & h' & line' & n & d1 & d & s1 & o1 & s & o & a1 & -> & PA & DR & I1 & T1 & K1 & Q & D1 & Wh' & SO1 & SO & C).
    qch PA. qch DR. qch D1. qch C. unfold so_ok in SO1, SO. qch SO1. qch SO. rewrite CO in *.
    rewrite (nonnull_arriving q N Wa Wd LE NI a h PA).
    assert (PI := pop_ids _ _ _ Wa PA).
    apply draw_new in DR. qch DR. destruct DR as (_ & _ & F1 & F2 & _ & _ & F3 & F4 & _ & _ & F5 & F6 & F7 & _).
    assert (QD : q_data q' = d /\ q_now q' = ag_time a /\ in_service q' = agents_of h' /\ q_nsys q' = q_nsys q + 1 /\ waiting q' = line').
    { rewrite Q. unfold in_service, waiting. qc. rewrite F7. auto. }
    destruct QD as (-> & -> & -> & -> & ->).
    assert (IA : In (ag_id a) (ids (scheduled q))) by (apply PI; left; reflexivity).
    destruct C as [(C1 & -> & -> & (a2 & I2 & T2 & K2 & P2) & D)|(C1 & -> & -> & -> & -> & -> & ->)].
    + rewrite (rows_dlast _ _ _ _ i D), D1, rows_append.
      destruct (aid_eqb (ag_id a) i) eqn:E; [|reflexivity]. apply aid_eqb_eq in E. subst i.
      rewrite last_upd_snoc. eexists. split; [reflexivity|]. cbn. split; [reflexivity|].
      left. replace (memb (ag_id a) (agents_of h')) with true.
      * split; [reflexivity|]. split; [reflexivity|]. intro NR. destruct (SO1 NR) as [-> _]. rewrite C1.
        unfold zlen. split; [lia | reflexivity].
      * symmetry. apply memb_in. rewrite (ids_perm_iff _ _ P2). left; exact I2.
    + rewrite D1, rows_append. destruct (aid_eqb (ag_id a) i) eqn:E; [|reflexivity]. apply aid_eqb_eq in E. subst i.
      eexists. split; [reflexivity|]. cbn. split; [reflexivity|].
      left. replace (memb (ag_id a) (agents_of (q_dep q))) with false.
      * split; [reflexivity|]. split; [reflexivity|]. intro NR. destruct (SO1 NR) as [-> _]. rewrite C1.
        unfold zlen. rewrite app_length. cbn. split; [lia | reflexivity].
      * symmetry. apply memb_not. apply S1. exact IA.
  - apply loss_blocked_Ok in R; [|exact N|exact Wa|exact Wd].
    destruct R as (a & h & q2 & new & d & -> & PA & DR & Q & D). qch PA. qch DR. qch D. rewrite CO in D.
    rewrite (nonnull_arriving q N Wa Wd LE NI a h PA).
    assert (PI := pop_ids _ _ _ Wa PA).
    apply draw_new in DR. qch DR. destruct DR as (_ & _ & F1 & F2 & _ & _ & F3 & F4 & _ & _ & F5 & F6 & F7 & _).
    assert (QD : q_data q' = d /\ q_now q' = ag_time a /\ in_service q' = in_service q /\ q_nsys q' = q_nsys q /\ waiting q' = waiting q).
    { rewrite Q. unfold in_service, waiting. qc. rewrite F7, F3, F1, F2. auto. }
    destruct QD as (-> & -> & -> & -> & ->).
    assert (IA : In (ag_id a) (ids (scheduled q))) by (apply PI; left; reflexivity).
    rewrite D, rows_append. destruct (aid_eqb (ag_id a) i) eqn:E; [|reflexivity]. apply aid_eqb_eq in E. subst i.
    eexists. split; [reflexivity|]. cbn. split; [reflexivity|]. left.
    replace (memb (ag_id a) (in_service q)) with false; [auto|].
    symmetry. apply memb_not. apply S1. exact IA.
  - apply rq_return_Ok in R; [|exact Wa|exact Wd].
    destruct R as (a & h & o & d & -> & PA & Wh & Q & O & D). rewrite CO in D.
    rewrite (nonnull_arriving q N Wa Wd LE NI a h PA).
    assert (PI := pop_ids _ _ _ Wa PA).
    assert (QD : q_data q' = d /\ q_now q' = ag_time a /\ in_service q' = in_service q /\ waiting q' = waiting q).
    { rewrite Q. unfold in_service, waiting. qc. auto. }
    destruct QD as (-> & -> & -> & ->).
    assert (IA : In (ag_id a) (ids (scheduled q))) by (apply PI; left; reflexivity).
    rewrite D, rows_append. destruct (aid_eqb (ag_id a) i) eqn:E; [|reflexivity]. apply aid_eqb_eq in E. subst i.
    eexists. split; [reflexivity|]. cbn. split; [reflexivity|]. right. destruct (S1 _ IA) as (X1 & X2).
    split; [exact CR|]. split; [apply memb_not; exact X1|]. split; [apply memb_not; exact X2|]. auto.
  - apply rq_blocked_Ok in R; [|exact Wa|exact Wd].
    destruct R as (a & h & d & -> & PA & Wh & Q & D). rewrite CO in D.
    rewrite (nonnull_arriving q N Wa Wd LE NI a h PA).
    assert (PI := pop_ids _ _ _ Wa PA).
    assert (QD : q_data q' = d /\ q_now q' = ag_time a /\ in_service q' = in_service q /\ q_nsys q' = q_nsys q /\ waiting q' = waiting q).
    { rewrite Q. unfold in_service, waiting. qc. auto. }
    destruct QD as (-> & -> & -> & -> & ->).
    assert (IA : In (ag_id a) (ids (scheduled q))) by (apply PI; left; reflexivity).
    rewrite D, rows_append. destruct (aid_eqb (ag_id a) i) eqn:E; [|reflexivity]. apply aid_eqb_eq in E. subst i.
    eexists. split; [reflexivity|]. cbn. split; [reflexivity|]. left. destruct (S1 _ IA) as (X1 & X2).
    replace (memb (ag_id a) (in_service q)) with false; [|symmetry; apply memb_not; exact X1].
    split; [reflexivity|]. split; [reflexivity|]. congruence.
Qed.

(** Who waits and who is in service after an event. *)
Definition mem_step (q : queue) (r : option agent) (q' : queue) (i : aid) : Prop :=
  let same := (In i (ids (waiting q')) <-> In i (ids (waiting q))) /\
              (In i (ids (in_service q')) <-> In i (ids (in_service q))) in
  match arriving q with
  | Some a => r = None /\ (i <> ag_id a -> same)
  | None =>
    match r with
    | Some a => (i = ag_id a -> In i (ids (in_service q)) /\ ~ In i (ids (waiting q')) /\ ~ In i (ids (in_service q'))) /\
                (i <> ag_id a -> if began q q' i then In i (ids (waiting q)) /\ ~ In i (ids (waiting q')) else same)
    | None => q' = q
    end
  end.

Lemma snoc_iff l (a : agent) i : i <> ag_id a -> In i (ids (l ++ [a])) <-> In i (ids l).
Proof.
  intro N. unfold ids. rewrite map_app, in_app_iff. cbn. intuition congruence.
Qed.
Lemma cons_iff l (a : agent) i : i <> ag_id a -> In i (ids (a :: l)) <-> In i (ids l).
Proof. intro N. unfold ids. cbn. intuition congruence. Qed.

Lemma began_false q q' i : began q q' i = false -> In i (ids (in_service q')) -> In i (ids (in_service q)).
Proof.
  unfold began. intros H X. apply memb_in in X. rewrite X in H. cbn in H.
  apply memb_in. destruct (memb i (in_service q)); [reflexivity | discriminate].
Qed.
Lemma began_true q q' i : began q q' i = true <-> In i (ids (in_service q')) /\ ~ In i (ids (in_service q)).
Proof.
  unfold began. rewrite andb_true_iff, negb_true_iff, memb_in, memb_not. reflexivity.
Qed.

Lemma mem_next q r q' : qinv q -> c_class (q_cfg q) <> CNull -> NoDup (held q) ->
  next_event q = Ok (r, q') -> forall i, mem_step q r q' i.
Proof.
  intros I N ND H i. assert (Wa := qi_arr _ I). assert (Wd := qi_dep _ I).
  destruct (held_split _ ND) as (S1 & S2 & N1 & N2 & N3).
  apply next_event_event in H as (qe & PE & EV); [|exact Wa|exact Wd].
  destruct (pre_event_net _ _ PE) as (nd & ->).
  unfold mem_step.
  destruct EV as [ID _ -> ->|_ LT R|_ LE NI CAP _ R|_ NS LE NI CAP _ R|CR LE NI RT _ R|CR LE NI RT _ CAP R].
  - rewrite (idle_not_arriving q Wa Wd ID). reflexivity.
  - rewrite (departing_not_arriving q Wa Wd LT).
    apply qs_departure_Ok in R; [|exact Wa|exact Wd].
    destruct R as (a & h & a' & h' & line' & n & d1 & d & s & o & PA & -> & I1 & T1 & K1 & B1 & Q & D1 & Wh' & SO & ST).
    qch PA. qch ST. rewrite I1.
    assert (PI := pop_ids _ _ _ Wd PA).
    assert (IA : In (ag_id a) (ids (in_service q))) by (apply PI; left; reflexivity).
    assert (QS : in_service q' = agents_of h' /\ waiting q' = line') by (rewrite Q; auto).
    destruct QS as (Q1 & Q2). rewrite Q1, Q2.
    assert (NH : ~ In (ag_id a) (ids (agents_of h))).
    { apply pop_agent_Ok in PA as (_ & P & _); [|exact Wd].
      assert (X : NoDup (ids (a :: agents_of h))) by (apply (Permutation_NoDup (Permutation_map ag_id P)); exact N2).
      inversion X; assumption. }
    destruct ST as [(_ & -> & -> & _ & ->)|(_ & b & b' & LB & I2 & T2 & _ & Pb & _ & D2)].
    + split; intro Y.
      * subst i. split; [exact IA|]. split; [apply S2; exact IA | exact NH].
      * destruct (began q q' i) eqn:B.
        -- apply began_true in B as (B2 & B3). rewrite Q1 in B2. exfalso. apply B3. apply PI. right; exact B2.
        -- split; [reflexivity|]. split; intro X; [apply PI; right; exact X|].
           apply PI in X as [X|X]; [congruence | exact X].
    + assert (IB : In (ag_id b) (ids (waiting q))) by (unfold waiting, ids; rewrite LB; left; reflexivity).
      assert (NB : ~ In (ag_id b) (ids line')).
      { unfold waiting, ids in N3. rewrite LB in N3. inversion N3; assumption. }
      assert (LI : forall j, In j (ids line') -> In j (ids (waiting q))).
      { intros j J. unfold waiting, ids. rewrite LB. right; exact J. }
      split; intro Y.
      * subst i. split; [exact IA|]. split; [intro X; apply (S2 _ IA); apply LI; exact X|].
        rewrite (ids_perm_iff _ _ Pb). intros [X|X]; [|exact (NH X)].
        rewrite I2 in X. rewrite X in IB. exact (S2 _ IA IB).
      * destruct (began q q' i) eqn:B.
        -- apply began_true in B as (B2 & B3). rewrite Q1, (ids_perm_iff _ _ Pb) in B2.
           destruct B2 as [B2|B2]; [|exfalso; apply B3; apply PI; right; exact B2].
           subst i. rewrite I2. auto.
        -- assert (NE : i <> ag_id b).
           { intro X. subst i. rewrite <- not_true_iff_false, began_true in B. apply B.
             split; [rewrite Q1, (ids_perm_iff _ _ Pb); left; exact I2|]. intro X. exact (S2 _ X IB). }
           split.
           ++ unfold waiting. rewrite LB, cons_iff by exact NE. reflexivity.
           ++ rewrite (ids_perm_iff _ _ Pb), cons_iff by (rewrite I2; exact NE).
              split; intro X; [apply PI; right; exact X|].
              apply PI in X as [X|X]; [congruence | exact X].
  - apply qs_arrival_Ok in R; [|exact N|exact Wa|exact Wd].
    destruct R as (a & h & q2 & new & h' & line' & n & d1 & d & s1 & o1 & s & o & a1 & -> & PA & DR & I1 & T1 & K1 & Q & D1 & Wh' & SO1 & SO & C).
    qch PA. qch C.
    rewrite (nonnull_arriving q N Wa Wd LE NI a h PA). split; [reflexivity|]. intro NE.
    assert (QD : in_service q' = agents_of h' /\ waiting q' = line') by (rewrite Q; auto).
    destruct QD as (-> & ->).
    destruct C as [(C1 & -> & -> & (a2 & I2 & T2 & K2 & P2) & D)|(C1 & -> & -> & -> & -> & -> & ->)].
    + split; [reflexivity|]. rewrite (ids_perm_iff _ _ P2), cons_iff by congruence. reflexivity.
    + split; [|reflexivity]. rewrite snoc_iff by congruence. reflexivity.
  - apply loss_blocked_Ok in R; [|exact N|exact Wa|exact Wd].
    destruct R as (a & h & q2 & new & d & -> & PA & DR & Q & D). qch PA. qch DR.
    rewrite (nonnull_arriving q N Wa Wd LE NI a h PA). split; [reflexivity|]. intros _.
    apply draw_new in DR. qch DR. destruct DR as (_ & _ & F1 & F2 & _).
    rewrite Q. unfold in_service, waiting. qc. rewrite F1, F2. split; reflexivity.
  - apply rq_return_Ok in R; [|exact Wa|exact Wd].
    destruct R as (a & h & o & d & -> & PA & Wh & Q & O & D).
    rewrite (nonnull_arriving q N Wa Wd LE NI a h PA). rewrite Q. split; [reflexivity|]. intros _. split; reflexivity.
  - apply rq_blocked_Ok in R; [|exact Wa|exact Wd].
    destruct R as (a & h & d & -> & PA & Wh & Q & D).
    rewrite (nonnull_arriving q N Wa Wd LE NI a h PA). rewrite Q. split; [reflexivity|]. intros _. split; reflexivity.
Qed.

(** ** Several services at once *)

Lemma repeat_service_more k : forall q q', wfh (q_dep q) -> repeat_service k q = Ok q' ->
  exists new, Permutation (agents_of (q_dep q')) (new ++ agents_of (q_dep q)) /\
    ids new = ids (firstn k (q_line q)) /\ length new = k /\
    map ag_time new = map (fun j => c_srv (q_cfg q) (j + q_is q)%nat (q_now q)) (seq 0 k) /\
    q_is q' = (k + q_is q)%nat /\
    (q_collect q = true -> NoDup (ids (q_line q)) -> forall i,
      rows_of (q_data q') i =
      if memb i (firstn k (q_line q)) then last_upd (row_set_srv (q_now q)) (rows_of (q_data q) i)
      else rows_of (q_data q) i).
Proof.
  induction k as [|k IH]; intros q q' W H; cbn [repeat_service] in H.
  - inversion H; subst. exists []. cbn. auto 8.
  - mbind H. rename x into q1.
    apply service_from_queue_Ok in E; [|exact W].
    destruct E as (a & line & a' & h1 & d1 & s1 & o1 & L & -> & I1 & T1 & K1 & W1 & P1 & D1 & SO1).
    apply IH in H; [|exact W1]. qch H.
    destruct H as (new & P & M & LN & TN & IS & RW).
    rewrite L. cbn [firstn].
    exists (a' :: new). split; [rewrite P, P1; cbn [app]; symmetry; apply Permutation_middle|].
    split; [unfold ids in *; cbn [map]; rewrite I1, M; reflexivity|].
    split; [cbn [length]; lia|]. split.
    { cbn [seq map]. rewrite T1, TN. f_equal.
      rewrite <- seq_shift, map_map. apply map_ext. intro j. f_equal. lia. }
    split; [lia|].
    intros CO ND i. change (NoDup (ag_id a :: ids line)) in ND. apply NoDup_cons_iff in ND as (H1 & H2).
    rewrite (RW CO H2). rewrite (rows_dmod (q_data q) (ag_id a) (row_set_srv (q_now q)) d1 i).
    2:{ rewrite <- CO. unfold dmod. rewrite CO in *. exact D1. }
    unfold memb. cbn [existsb]. destruct (aid_eqb (ag_id a) i) eqn:E; cbn [orb].
    + apply aid_eqb_eq in E. subst i. fold (memb (ag_id a) (firstn k line)).
      replace (memb (ag_id a) (firstn k line)) with false; [reflexivity|].
      symmetry. apply memb_not. intro X. apply H1. unfold ids in X |- *.
      rewrite <- (firstn_skipn k line), map_app. apply in_or_app; left; exact X.
    + reflexivity.
Qed.

(** What set_num_servers does, apart from the number of servers itself. *)
Lemma servers_more n q q' : qinv q -> c_class (q_cfg q) <> CNull -> set_num_servers n q = Ok q' ->
  exists k new, (k <= length (q_line q))%nat /\
    q_arr q' = q_arr q /\ q_line q' = skipn k (q_line q) /\ q_now q' = q_now q /\ q_ia q' = q_ia q /\
    q_collect q' = q_collect q /\ q_cfg q' = q_cfg q /\
    Permutation (agents_of (q_dep q')) (new ++ agents_of (q_dep q)) /\
    ids new = ids (firstn k (q_line q)) /\ length new = k /\
    map ag_time new = map (fun j => c_srv (q_cfg q) (j + q_is q)%nat (q_now q)) (seq 0 k) /\
    q_is q' = (k + q_is q)%nat /\
    (q_collect q = true -> NoDup (ids (q_line q)) -> forall i,
      rows_of (q_data q') i =
      if memb i (firstn k (q_line q)) then last_upd (row_set_srv (q_now q)) (rows_of (q_data q) i)
      else rows_of (q_data q) i).
Proof.
  intros IV N H. assert (Wa := qi_arr _ IV). assert (Wd := qi_dep _ IV).
  assert (SAME : forall q1, q_arr q1 = q_arr q -> q_line q1 = q_line q -> q_now q1 = q_now q -> q_ia q1 = q_ia q ->
            q_collect q1 = q_collect q -> q_cfg q1 = q_cfg q -> q_dep q1 = q_dep q -> q_is q1 = q_is q -> q_data q1 = q_data q ->
            q' = q1 -> exists k new, (k <= length (q_line q))%nat /\
    q_arr q' = q_arr q /\ q_line q' = skipn k (q_line q) /\ q_now q' = q_now q /\ q_ia q' = q_ia q /\
    q_collect q' = q_collect q /\ q_cfg q' = q_cfg q /\
    Permutation (agents_of (q_dep q')) (new ++ agents_of (q_dep q)) /\
    ids new = ids (firstn k (q_line q)) /\ length new = k /\
    map ag_time new = map (fun j => c_srv (q_cfg q) (j + q_is q)%nat (q_now q)) (seq 0 k) /\
    q_is q' = (k + q_is q)%nat /\
    (q_collect q = true -> NoDup (ids (q_line q)) -> forall i,
      rows_of (q_data q') i =
      if memb i (firstn k (q_line q)) then last_upd (row_set_srv (q_now q)) (rows_of (q_data q) i)
      else rows_of (q_data q) i)).
  { intros q1 A B C D E F G HH J ->. exists 0%nat, []. rewrite A, B, C, D, E, F, G, HH, J. cbn. auto 20 with arith. }
  assert (GO : c_class (q_cfg q) <> CResource -> forall m tq,
    (let* q1 := repeat_service (Z.to_nat tq) q in
     let* q2 := if 0 <? tq then update_time q1 else Ok q1 in Ok (set_q_servers m q2)) = Ok q' ->
    exists k new, (k <= length (q_line q))%nat /\
    q_arr q' = q_arr q /\ q_line q' = skipn k (q_line q) /\ q_now q' = q_now q /\ q_ia q' = q_ia q /\
    q_collect q' = q_collect q /\ q_cfg q' = q_cfg q /\
    Permutation (agents_of (q_dep q')) (new ++ agents_of (q_dep q)) /\
    ids new = ids (firstn k (q_line q)) /\ length new = k /\
    map ag_time new = map (fun j => c_srv (q_cfg q) (j + q_is q)%nat (q_now q)) (seq 0 k) /\
    q_is q' = (k + q_is q)%nat /\
    (q_collect q = true -> NoDup (ids (q_line q)) -> forall i,
      rows_of (q_data q') i =
      if memb i (firstn k (q_line q)) then last_upd (row_set_srv (q_now q)) (rows_of (q_data q) i)
      else rows_of (q_data q) i)).
  { clear H. intros NR m tq H. mbind H.
    assert (M := repeat_service_more _ _ _ Wd E). destruct M as (new & P & M1 & M2 & M3 & M4 & M5).
    apply repeat_service_Ok in E as (LE & h & d & s & o & new2 & -> & W & _); [|exact Wd].
    mbind H.
    assert (X : exists t, x = set_q_time t (set_q_dep h
         (set_q_over o (set_q_servers s (set_q_is (Z.to_nat tq + q_is q)%nat
             (set_q_data d (set_q_line (skipn (Z.to_nat tq) (q_line q)) q))))))).
    { destruct (0 <? tq).
      - apply update_time_Ok in E; [|exact Wa|exact W]. eauto.
      - inversion E. exists (q_time q). destruct q; reflexivity. }
    destruct X as (t & ->). inversion H. exists (Z.to_nat tq), new. qc. qch P. qch M5. auto 20. }
  unfold set_num_servers, qs_set_num_servers in H. cbv zeta in H.
  destruct (c_class (q_cfg q)) eqn:CL; [| |congruence| |].
  1,2,4: specialize (GO ltac:(congruence));
    destruct n as [z| |]; [destruct (z <=? 0); [discriminate|]; destruct (q_servers q); apply GO in H; exact H
                          |destruct (q_servers q); [apply GO in H; exact H | discriminate]
                          |discriminate].
  destruct n; [| |discriminate]; unfold rq_set_num_servers in H;
    (match type of H with Ok (if ?b then _ else _) = _ => destruct b end; injection H as H';
     refine (SAME _ _ _ _ _ _ _ _ _ _ (eq_sym H')); reflexivity).
Qed.

(** ** All calls *)

Definition member_same (q q' : queue) (i : aid) : Prop :=
  (In i (ids (waiting q')) <-> In i (ids (waiting q))) /\
  (In i (ids (in_service q')) <-> In i (ids (in_service q))).

Lemma servers_members n q q' : qinv q -> c_class (q_cfg q) <> CNull -> NoDup (held q) ->
  set_num_servers n q = Ok q' -> forall i,
  (if began q q' i then In i (ids (waiting q)) /\ ~ In i (ids (waiting q')) else member_same q q' i) /\
  (q_collect q = true ->
   rows_of (q_data q') i = if began q q' i then last_upd (row_set_srv (q_now q')) (rows_of (q_data q) i)
                           else rows_of (q_data q) i).
Proof.
  intros IV N ND H i. destruct (held_split _ ND) as (S1 & S2 & N1 & N2 & N3).
  apply servers_more in H as (k & new & LE & A & L & NW & IA & CO & CF & P & M1 & M2 & M3 & M4 & M5); [|exact IV|exact N].
  assert (B : began q q' i = memb i (firstn k (q_line q))).
  { destruct (memb i (firstn k (q_line q))) eqn:M.
    - apply began_true. apply memb_in in M. split.
      + change (In i (ids (agents_of (q_dep q')))). rewrite (ids_perm_iff _ _ P).
        unfold ids in *. rewrite map_app, M1. apply in_or_app; left; exact M.
      + intro X. apply (S2 _ X). unfold ids, waiting in *. rewrite <- (firstn_skipn k (q_line q)), map_app.
        apply in_or_app; left; exact M.
    - rewrite <- not_true_iff_false, began_true. intros (X & Y). apply memb_not in M.
      change (In i (ids (agents_of (q_dep q')))) in X. rewrite (ids_perm_iff _ _ P) in X.
      unfold ids in *. rewrite map_app, M1 in X. apply in_app_or in X as [X|X]; [exact (M X) | exact (Y X)]. }
  rewrite B, NW. split; [|intro C; apply M5; [exact C | exact N3]].
  assert (LS : ids (q_line q) = ids (firstn k (q_line q)) ++ ids (skipn k (q_line q))).
  { unfold ids. rewrite <- map_app, firstn_skipn. reflexivity. }
  unfold member_same, waiting. rewrite L. unfold waiting in N3. rewrite LS in N3.
  destruct (memb i (firstn k (q_line q))) eqn:M.
  - apply memb_in in M. split; [rewrite LS; apply in_or_app; left; exact M|].
    intro X. clear -N3 M X. induction (ids (firstn k (q_line q))) as [|y l IH]; [destruct M|].
    inversion N3; subst. destruct M as [->|M]; [apply H1; apply in_or_app; right; exact X | auto].
  - apply memb_not in M. split.
    + rewrite LS, in_app_iff. tauto.
    + change (In i (ids (agents_of (q_dep q'))) <-> In i (ids (agents_of (q_dep q)))).
      rewrite (ids_perm_iff _ _ P). unfold ids in *. rewrite map_app, M1, in_app_iff. tauto.
Qed.

Lemma op_other o q q' : o <> ONext -> no_clear o -> o <> OClearData -> qinv q -> c_class (q_cfg q) <> CNull ->
  NoDup (held q) -> run_op o q = Ok q' -> forall i,
  (if began q q' i then In i (ids (waiting q)) /\ ~ In i (ids (waiting q')) else member_same q q' i) /\
  (q_collect q = true ->
   rows_of (q_data q') i = if began q q' i then last_upd (row_set_srv (q_now q')) (rows_of (q_data q) i)
                           else rows_of (q_data q) i) /\
  q_now q' = q_now q.
Proof.
  intros O1 O2 O3 IV N ND H i.
  assert (Wa := qi_arr _ IV). assert (Wd := qi_dep _ IV).
  assert (SAME : forall q1, (forall j, In j (ids (in_service q1)) <-> In j (ids (in_service q))) ->
     q_line q1 = q_line q -> q_data q1 = q_data q -> q_now q1 = q_now q -> q' = q1 ->
     (if began q q' i then In i (ids (waiting q)) /\ ~ In i (ids (waiting q')) else member_same q q' i) /\
     (q_collect q = true ->
      rows_of (q_data q') i = if began q q' i then last_upd (row_set_srv (q_now q')) (rows_of (q_data q) i)
                              else rows_of (q_data q) i) /\ q_now q' = q_now q).
  { intros q1 A B C D ->. assert (E : began q q1 i = false).
    { rewrite <- not_true_iff_false, began_true, A. tauto. }
    rewrite E. unfold member_same, waiting. rewrite B, C, A. tauto. }
  destruct o; cbn [run_op] in H; try congruence.
  - unfold set_active in H. destruct (q_active q).
    { injection H as H'. refine (SAME _ _ _ _ _ (eq_sym H')); reflexivity. }
    assert (H' : add_arrival_new (set_q_active true q) = Ok q').
    { unfold add_arrival_self in H. qch H. destruct (c_class (q_cfg q)); congruence. }
    clear H. apply add_arrival_new_Ok in H'; [|exact Wa|exact Wd]. cbv zeta in H'. qch H'.
    destruct H' as [(_ & H)|[(_ & _ & _ & H)|(_ & _ & a & h & act & H & _)]];
      (refine (SAME _ _ _ _ _ H); reflexivity).
  - injection H as H'. refine (SAME _ _ _ _ _ (eq_sym H')); reflexivity.
  - destruct (servers_members _ _ _ IV N ND H i) as (A & B). split; [exact A|]. split; [exact B|].
    apply servers_more in H as (k & new & _ & _ & _ & NW & _); [exact NW|exact IV|exact N].
  - apply delay_service_Ok in H; [|exact N|exact Wa|exact Wd].
    destruct H as [(_ & H)|(a & h & h' & n & H)]; [refine (SAME _ _ _ _ _ H); reflexivity|].
    cbv zeta in H. destruct H as (_ & H & _ & W & W' & P & P' & _).
    refine (SAME _ _ _ _ _ H); try reflexivity.
    intro j. change (In j (ids (agents_of h')) <-> In j (ids (agents_of (q_dep q)))).
    rewrite (ids_perm_iff _ _ P), (ids_perm_iff _ _ P'). reflexivity.
  - apply add_arrival_Ok in H as (h & H & W & P); [|exact N|exact Wa|exact Wd].
    refine (SAME _ _ _ _ _ H); reflexivity.
  - injection H as H'. refine (SAME _ _ _ _ _ (eq_sym H')); reflexivity.
  - destruct O2.
Qed.
