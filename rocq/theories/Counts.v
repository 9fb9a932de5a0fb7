(** * Counts: the counters of a network against its history *)
From Coq Require Import List ZArith QArith Lia Bool Permutation Arith.
From Verif Require Import Base Heap HeapProofs PQueue Queue QueueEffects QueueEvents QueueSteps QueueInv SpecQueue QueueFlow QueueHist QueueClaims1
  Network SpecNet NetQueue NetSteps NetInv NetReach NetFlow NetActive NetClaims1 NetClaims2 NetClaims4 SpecRefine SpecLittleNet LittleNet Traffic Marks SpecCounts QueueData.
Import ListNotations.
Open Scope Z_scope.

(** ** One queue *)

(** What has come from elsewhere. *)
Definition load (q : queue) : Z := q_narr q + q_blocked q + zlen (scheduled q) - q_oarr q.

Definition counts (q : queue) (d m : Z) (q' : queue) : Prop :=
  q_departed q' = q_departed q + d /\ q_oarr q <= q_oarr q' /\ q_cfg q' = q_cfg q /\
  (c_class (q_cfg q) <> CResource -> load q' = load q + m).

Lemma counts_refl q : counts q 0 0 q.
Proof. repeat split; lia. Qed.
Lemma counts_trans q1 d1 m1 q2 d2 m2 q3 : counts q1 d1 m1 q2 -> counts q2 d2 m2 q3 -> counts q1 (d1 + d2) (m1 + m2) q3.
Proof.
  intros (A & B & C & D) (E & F & G & H). split; [lia|]. split; [lia|]. split; [congruence|]. intro N. rewrite C in H. specialize (D N). specialize (H N). lia.
Qed.

Lemma step_counts o q r q' : qinv q -> c_class (q_cfg q) <> CNull -> no_clear o -> step o q = Ok (r, q') ->
  counts q (zlen (departed1 (o, q, r, q'))) (zlen (sent1 (o, q, r, q'))) q'.
Proof.
  intros I N NC H. destruct (step_flow _ _ _ _ I N NC H) as [F _]. assert (FD := fo_dep _ F). assert (FA := fo_arr _ F). cbn beta iota in FD, FA.
  assert (FF := fo_flow _ F). cbn beta iota in FF. destruct FF as (new & st & FF & _).
  assert (PL := Permutation_length (fl_arr _ _ _ _ _ _ _ _ FF)). rewrite !app_length in PL.
  assert (LN : q_oarr q' = q_oarr q + zlen new) by (destruct (fl_new _ _ _ _ _ _ _ _ FF) as [[-> X]|[-> X]]; rewrite X; unfold zlen; cbn [length]; lia).
  split; [exact FD|]. split; [unfold zlen in LN; lia|]. split; [exact (fl_cfg _ _ _ _ _ _ _ _ FF)|]. intro NR. destruct (FA NR) as [A1 A2]. unfold load.
  rewrite A1, A2, LN. unfold ids in PL. rewrite !map_length in PL. unfold zlen. lia.
Qed.

Lemma next_counts q r q' : qinv q -> c_class (q_cfg q) <> CNull -> next_event q = Ok (r, q') ->
  counts q (match r with Some _ => 1 | None => 0 end) 0 q'.
Proof. intros I N H. assert (X := step_counts ONext q r q' I N Logic.I H). destruct r; exact X. Qed.
Lemma arrive_counts a q q' : qinv q -> c_class (q_cfg q) <> CNull -> add_arrival a q = Ok q' -> counts q 0 1 q'.
Proof. intros I N H. apply (step_counts (OArrive a) q None q' I N Logic.I). cbn [step run_op]. rewrite H. reflexivity. Qed.
Lemma active_counts q q' : qinv q -> c_class (q_cfg q) <> CNull -> set_active q = Ok q' -> counts q 0 0 q'.
Proof. intros I N H. apply (step_counts OActive q None q' I N Logic.I). cbn [step run_op]. rewrite H. reflexivity. Qed.
Lemma stopped_counts max ag q : counts q 0 0 (stopped max ag q).
Proof. unfold stopped. destruct (q_active q && _); [|apply counts_refl]. split; [cbn; lia|]. split; [cbn; lia|]. split; [reflexivity|]. intros _. rewrite Z.add_0_r. reflexivity. Qed.

(** ** One event of the network *)

Definition b2z (b : bool) : Z := if b then 1 else 0.

(** All counters move as the label says. *)
Definition counted (n n' : net) (l : label) : Prop :=
  forall k q, get (nt_queues n) k = Some q -> c_class (q_cfg q) <> CNull ->
    exists q', get (nt_queues n') k = Some q' /\ counts q (b2z (out_of k l)) (b2z (into k l) + b2z (kept_from k l)) q'.

(** The marks after a label. *)
Definition shift (P : aid -> Z -> Prop) (l : label) : aid -> Z -> Prop := fun i z => P i (z - b2z (who_halts i l)).

Definition fresh_marks (P : aid -> Z -> Prop) (qs : list queue) : Prop := forall k q i, get qs k = Some q -> q_oarr q <= i -> P (k, i) 0.

Definition carried (n n' : net) (l : label) : Prop :=
  forall P, fresh_marks P (nt_queues n) -> (forall k q, get (nt_queues n) k = Some q -> okm P q) ->
    forall k q, get (nt_queues n') k = Some q -> okm (shift P l) q.

Lemma okm_ext (P P' : aid -> Z -> Prop) q : (forall i z, P i z -> P' i z) -> okm P q -> okm P' q.
Proof. intros X [A B C D E]. constructor; try assumption; intros a I; apply X; first [exact (C _ I)|exact (D _ I)|exact (E _ I)]. Qed.
Lemma shift_0 P l q : (forall i, who_halts i l = false) -> okm P q -> okm (shift P l) q.
Proof. intros X. apply okm_ext. intros i z H. unfold shift. rewrite X. cbn [b2z]. rewrite Z.sub_0_r. exact H. Qed.

Lemma arriving_first q : qinv q -> next_event_description q = Ok 1 -> exists a, arriving q = Some a /\ ag_time a = q_time q.
Proof.
  intros I DS. destruct (description_1 _ I DS) as (_ & _ & TA & FI). unfold arriving. rewrite DS.
  destruct (wfh_nonempty _ (qi_arr _ I)) as (i & h & E). rewrite E in *. destruct i as [|a].
  - exfalso. apply FI. rewrite TA. reflexivity.
  - exists a. split; [reflexivity|]. rewrite TA. reflexivity.
Qed.

Lemma enter_arrives s k q a q1 : qok s k q -> c_class (q_cfg q) <> CNull -> s <> Inf -> ag_time a = s -> add_arrival a q = Ok q1 ->
  q_time q1 = s /\ next_event_description q1 = Ok 1.
Proof.
  intros K N NI TA AD. assert (I1 := qk_inv _ _ _ K). destruct (add_pend _ _ _ I1 N AD) as (P1 & NOW & _).
  assert (IV := qinv_add_arrival _ _ _ I1 AD).
  apply add_arrival_Ok in AD as (h & Q1 & WH & PA); [|exact N|apply I1|apply I1].
  assert (CF : q_cfg q1 = q_cfg q) by (rewrite Q1; reflexivity).
  assert (PA0 : Permutation (agents_of (q_arr q1)) (a :: agents_of (q_arr q))) by (rewrite Q1; exact PA).
  assert (K1 : qok s k q1).
  { destruct K as [A1 A2 A3 A4 A5 A6]. split; [exact IV|congruence|congruence|congruence| |congruence].
    intros x X. apply (Permutation_in x P1) in X. destruct X as [<-|X]; [rewrite TA; apply eLe_refl|apply A5; exact X]. }
  assert (TS : q_time q1 = s) by (apply eLe_antisym; [apply pend_min; [exact IV|]; apply (Permutation_in _ (Permutation_sym P1)); left; exact TA|apply (qok_time _ _ _ K1)]).
  split; [exact TS|].
  assert (IA : In a (agents_of (q_arr q1))).
  { apply (Permutation_in a (Permutation_sym PA0)). left; reflexivity. }
  assert (HA : hmin (q_arr q1) = s).
  { apply eLe_antisym; [rewrite <- TA; apply wfh_min; [apply IV|exact IA]|].
    destruct (wfh_min_cases _ (qi_arr _ IV)) as [Y|(b & B & T)]; [rewrite Y; apply eLe_Inf|].
    rewrite <- T. apply (qk_pend _ _ _ K1). unfold pend. apply in_or_app. left. apply in_map. exact B. }
  assert (HD : eLe s (hmin (q_dep q1))).
  { destruct (wfh_min_cases _ (qi_dep _ IV)) as [Y|(b & B & T)]; [rewrite Y; apply eLe_Inf|].
    rewrite <- T. apply (qk_pend _ _ _ K1). unfold pend. apply in_or_app. right. apply in_map. exact B. }
  unfold next_event_description. rewrite (wfh_root_time _ (qi_arr _ IV)), (wfh_root_time _ (qi_dep _ IV)). cbn [bind].
  rewrite HA. assert (L1 : eltb (hmin (q_dep q1)) s = false) by (apply eltb_ge; exact HD). rewrite L1.
  assert (L2 : eltb s Inf = true) by (destruct s; [reflexivity|congruence]). rewrite L2. rewrite CF. destruct (c_class (q_cfg q)); congruence.
Qed.

Lemma held_nodup qs : NoDup (flat_map held qs) -> forall j q, get qs j = Some q -> NoDup (held q).
Proof.
  induction qs as [|q0 qs IH]; intros ND j q G; [destruct j; discriminate|].
  cbn in ND. destruct j as [|j]; [injection G as ->; apply nodup_l in ND; exact ND|]. apply nodup_r in ND. eapply IH; eassumption.
Qed.

Lemma shift_other P l i q : (forall j, who_halts j l = aid_eqb i j) -> ~ In i (held q) -> okm P q -> okm (shift P l) q.
Proof.
  intros X NI [A B C D E].
  assert (Y : forall a, In a (agents_at q) -> marked P a -> marked (shift P l) a).
  { intros a IA M. unfold marked, shift. rewrite X. destruct (aid_eqb i (ag_id a)) eqn:EQ.
    - apply aid_eqb_eq in EQ. subst i. exfalso. apply NI. unfold held, agents_at, ids in *. rewrite <- !map_app. apply in_map. exact IA.
    - cbn [b2z]. rewrite Z.sub_0_r. exact M. }
  constructor; try assumption; intros a IA; (apply Y; [|first [exact (C _ IA)|exact (D _ IA)|exact (E _ IA)]]); unfold agents_at, scheduled, in_service, waiting; change agents_in with agents_of; rewrite !in_app_iff; auto.
Qed.

Lemma event_counts n n' : ninv n -> uniq n -> nst n n' -> exists l, saw n n' l /\ counted n n' l /\ carried n n' l.
Proof.
  intros I U S. destruct S as [SZ ->|t j h q1 SZ PO G DS ->|t j h q1 r q1' h' SZ PO G DS NX PU LC ->|
    t j h q1 a h0 l e2 q2 qm q1' d h' iu ie td SZ PO G DS DP OUT IN DD G2 NE CA MB RT DE DL NK PU ->|
    t j h q1 a h0 l e2 q2old b q1' q2 q2a r q2' h' iu SZ PO G DS DP OUT IN DD G2 CA NX GE AD NX2 PU LA LB ->].
  - exists Rests. split; [left; reflexivity|]. split.
    + intros k q GK _. exists q. split; [exact GK|apply counts_refl].
    + intros P F O k q GK. apply shift_0; [reflexivity|]. eapply O; exact GK.
  - exists Rests. split; [left; reflexivity|]. split.
    + intros k q GK _. exists q. split; [exact GK|apply counts_refl].
    + intros P F O k q GK. apply shift_0; [reflexivity|]. eapply O; exact GK.
  - destruct (popped _ _ _ _ I SZ PO) as (W & LE & LK & QK & QM & _ & KS & TT & HB & _).
    assert (K := KS _ _ G). destruct (description_1 _ (qk_inv _ _ _ K) DS) as (NN & _ & TA & FI).
    assert (TQ : q_time q1 = t) by (destruct (TT _ G); [assumption|congruence]).
    assert (KS1 := qok_stopped t j (nt_max n) (nt_nagents n) _ K).
    destruct (arriving_first _ (qk_inv _ _ _ K) DS) as (a & AR & AT).
    assert (RN : r = None).
    { destruct (stopped_own (nt_max n) (nt_nagents n) q1) as (O1 & O2 & O3). rewrite <- O3 in DS. apply (arr_event _ _ _ (qk_inv _ _ _ KS1) DS NX). }
    exists (Comes j (ag_id a)). unfold after. split; [|split].
    + split; [reflexivity|]. exists q1, a. nc. repeat (split; [solve [auto|congruence]|]).
      intros i NI. nc. apply get_upd_neq. intros ->. apply NI. left; reflexivity.
    + intros k q GK NK. nc. destruct (Nat.eq_dec j k) as [->|NJ].
      * assert (q1 = q) by congruence. subst q1. exists q1'. split; [apply get_upd_eq; exact LK|].
        apply (counts_trans _ 0 0 _ 0 0 _ (stopped_counts (nt_max n) (nt_nagents n) q)).
        assert (X := next_counts _ _ _ (qk_inv _ _ _ KS1) ltac:(rewrite cfg_stopped; exact NK) NX). rewrite RN in X. exact X.
      * exists q. rewrite get_upd_neq by congruence. split; [exact GK|apply counts_refl].
    + intros P F O k q GK. cbn [nt_queues] in GK. apply shift_0; [reflexivity|]. apply get_upd in GK as [[-> ->]|[NE GK]]; [|eapply O; exact GK|exact LK].
      apply (next_m P) in NX; [apply NX| |].
      * specialize (O _ _ G). unfold stopped. destruct (q_active q1 && _); [destruct O; constructor; assumption|exact O].
      * rewrite cfg_stopped, (qk_idx _ _ _ K). destruct (stopped_own (nt_max n) (nt_nagents n) q1) as (-> & _). eapply F; [exact G|lia].
  - destruct (popped _ _ _ _ I SZ PO) as (W & LE & LK & QK & QM & _ & KS & TT & HB & _).
    assert (K := KS _ _ G). assert (K2 := KS _ _ G2). destruct (description_2 _ (qk_inv _ _ _ K) DS) as (NN & _ & TD & FI).
    assert (TQ : q_time q1 = t) by (destruct (TT _ G); [assumption|congruence]).
    destruct (qok_mark _ _ _ _ K MB) as (KM & _ & _ & CM & HM & AM & _ & _ & LM & NM & OM & _).
    assert (MF := mark_facts _ _ (qi_dep _ (qk_inv _ _ _ K)) MB).
    destruct MF as (a0 & ht & b & D0 & B & QMM & WM & _ & A1 & A2). assert (a0 = a) by congruence. subst a0.
    assert (TA : ag_time a = t).
    { rewrite <- TQ, TD, DP. reflexivity. }
    assert (DL' := DL). apply delay_service_Ok in DL'; [|congruence|apply KM|exact WM].
    destruct DL' as [[DL' _]|(a1 & h1 & h2 & m & DL')]; [rewrite A2 in DL'; discriminate|]. cbv zeta in DL'.
    destruct DL' as (PA & QN & _ & _ & _ & P1 & P2 & T1).
    assert (IDA : forall x, In x (ids (in_service q1')) <-> In x (ids (in_service q1))).
    { intro x. unfold in_service, ids. change agents_in with agents_of. rewrite A1. rewrite QN. qc.
      rewrite (Permutation_map ag_id P2). cbn [map]. change (ag_id (set_ag_time _ a1)) with (ag_id a1).
      assert (X := Permutation_map ag_id P1). cbn [map] in X. rewrite A2 in X. subst b. cbn [map ag_id] in X.
      split; intro Y; [apply (Permutation_in x (Permutation_sym X)) in Y|apply (Permutation_in x X)]; exact Y. }
    assert (INA : In a (in_service q1)) by (unfold in_service; change agents_in with agents_of; rewrite A1; left; reflexivity).
    assert (IN1 : In (ag_id a) (held q1)).
    { unfold held. apply in_or_app. right. apply in_or_app. left. apply in_map. exact INA. }
    exists (Halts j e2 (ag_id a)). unfold after. split; [|split].
    + assert (X : In (ag_id a) (ids (in_service q1'))) by (apply IDA; apply in_map; exact INA).
      apply in_map_iff in X as (a' & IA' & INA').
      split; [reflexivity|]. exists q1, q1', q2, a, a'. nc.
      split; [exact G|]. split; [apply get_upd_eq; rewrite upd_length; exact LK|]. split; [exact G2|]. split; [exact TQ|]. split; [exact INA|].
      split; [reflexivity|]. split; [exact TA|]. split; [exists q1, l; auto|]. split.
      { destruct DD as [[n1 [DD IU]] _]. refine (desired_chooses _ _ _ _ _ _ DD _). symmetry; exact IU. }
      split; [exact CA|]. split; [exact NK|]. split; [exact INA'|]. split; [exact IA'|].
      intros i NI. nc. rewrite !get_upd_neq; [reflexivity| |]; intros ->; apply NI; [right; left|left]; reflexivity.
    + intros k q GK NK0. nc. cbn [out_of into kept_from b2z]. destruct (Nat.eq_dec j k) as [->|NJ]; [|destruct (Nat.eq_dec e2 k) as [->|NE2]].
      * assert (q1 = q) by congruence. subst q1. exists q1'. split; [apply get_upd_eq; rewrite upd_length; exact LK|].
        rewrite (proj2 (Nat.eqb_neq e2 k)) by congruence. rewrite QN, QMM. unfold counts, load, scheduled. qc. cbn [b2z]. repeat split; lia.
      * assert (q2 = q) by congruence. subst q2. exists (set_q_blocked (q_blocked q + 1) q). rewrite get_upd_neq by congruence. split; [apply get_upd_eq; eapply get_lt; exact G2|].
        rewrite Nat.eqb_refl. unfold counts, load, scheduled. qc. cbn [b2z]. repeat split; lia.
      * exists q. rewrite !get_upd_neq by congruence. split; [exact GK|]. rewrite (proj2 (Nat.eqb_neq e2 k)) by congruence. apply counts_refl.
    + intros P F O k q GK. cbn [nt_queues] in GK. destruct U as [ND BD].
      apply get_upd in GK as [[-> ->]|[NE1 GK]]; [| |rewrite upd_length; exact LK].
      * assert (ND1 := held_nodup _ ND _ _ G). apply (delay_m _ d qm); [|exact DL].
        destruct (O _ _ G) as [V1 V2 VA VD VL].
        assert (OTH : forall x, ag_id x <> ag_id a -> marked P x -> marked (shift P (Halts j e2 (ag_id a))) x).
        { intros x NX M. unfold marked, shift. cbn [who_halts]. destruct (aid_eqb (ag_id a) (ag_id x)) eqn:EQ; [apply aid_eqb_eq in EQ; congruence|].
          cbn [b2z]. rewrite Z.sub_0_r. exact M. }
        unfold held, scheduled, in_service, waiting in ND1. change agents_in with agents_of in ND1. rewrite A1 in ND1. cbn [ids map] in ND1.
        assert (ND2 : NoDup (ag_id a :: ids (agents_of (q_arr q1)) ++ ids (agents_of ht) ++ ids (q_line q1))).
        { eapply Permutation_NoDup; [|exact ND1]. rewrite <- app_comm_cons. symmetry. apply Permutation_middle. }
        inversion ND2 as [|? ? NIN _]; subst. rewrite !in_app_iff in NIN.
        assert (NQ : forall x lx, ~ In (ag_id a) (ids lx) -> In x lx -> ag_id x <> ag_id a).
        { intros x lx X Y Z. apply X. rewrite <- Z. apply in_map. exact Y. }
        constructor; qc.
        -- exact V1.
        -- exact WM.
        -- intros x X. apply OTH; [eapply NQ; [|exact X]; tauto|auto].
        -- qch A2. rewrite A2. intros x [<-|X].
           ++ unfold marked, shift. cbn [who_halts ag_id ag_blocked]. change (ag_id (set_ag_blocked (ag_blocked a + 1) a)) with (ag_id a).
              change (ag_blocked (set_ag_blocked (ag_blocked a + 1) a)) with (ag_blocked a + 1).
              rewrite aid_eqb_refl. cbn [b2z]. replace (ag_blocked a + 1 - 1) with (ag_blocked a) by lia. apply VD. rewrite A1. left; reflexivity.
           ++ apply OTH; [eapply NQ; [|exact X]; tauto|]. apply VD. rewrite A1. right; exact X.
        -- intros x X. apply OTH; [eapply NQ; [|exact X]; tauto|auto].
      * assert (NH : forall q0, get (nt_queues n) k = Some q0 -> ~ In (ag_id a) (held q0)).
        { intros q0 G0 X. apply NE1. symmetry. eapply one_queue; [exact ND|exact G|exact G0|exact IN1|exact X]. }
        apply get_upd in GK as [[-> ->]|[NE3 GK]]; [| |eapply get_lt; exact G2].
        -- apply (shift_other P _ (ag_id a)); [reflexivity|exact (NH _ G2)|]. destruct (O _ _ G2). constructor; assumption.
        -- apply (shift_other P _ (ag_id a)); [reflexivity|exact (NH _ GK)|]. eapply O; exact GK.
  - destruct (popped _ _ _ _ I SZ PO) as (W & LE & LK & QK & QM & _ & KS & TT & HB & _).
    assert (K := KS _ _ G). destruct (description_2 _ (qk_inv _ _ _ K) DS) as (NN & _ & TD & FI).
    assert (TQ : q_time q1 = t) by (destruct (TT _ G); [assumption|congruence]). assert (FT : t <> Inf) by congruence.
    destruct (dep_event _ _ _ _ _ (qk_inv _ _ _ K) DS DP NX) as (b0 & EB & IDB & _ & HH & OB & _ & _ & _ & SB & _). injection EB as <-.
    destruct (qok_next t j _ _ _ K TQ FT NX) as (K' & _). assert (CF' := next_cfg _ _ _ (qk_inv _ _ _ K) NX).
    assert (TA : ag_time a = t).
    { rewrite <- TQ, TD, DP. reflexivity. }
    assert (INA : In a (in_service q1)) by (unfold in_service; rewrite DP; left; reflexivity).
    assert (K2 : qok t e2 q2).
    { apply get_upd in GE as [[-> ->]|[NE GE]]; [exact K'|apply KS; exact GE|exact LK]. }
    assert (IA := qinv_add_arrival _ _ _ (qk_inv _ _ _ K2) AD).
    set (ms := upd (upd (nt_nagents n) j (q_total q1')) e2 (q_total q2a)) in *.
    assert (IS : qinv (stopped (nt_max n) ms q2a)) by (unfold stopped; destruct (q_active q2a && _); [destruct IA; constructor; assumption|exact IA]).
    assert (C1 := next_counts _ _ _ (qk_inv _ _ _ K) NN NX).
    assert (C2 : c_class (q_cfg q2) <> CNull -> counts q2 0 1 q2').
    { intro N2. assert (X1 := arrive_counts _ _ _ (qk_inv _ _ _ K2) N2 AD). assert (CA2 : q_cfg q2a = q_cfg q2) by apply X1.
      assert (X2 := stopped_counts (nt_max n) ms q2a).
      assert (X3 := next_counts _ _ _ IS ltac:(rewrite cfg_stopped, CA2; exact N2) NX2).
      assert (RN : r = None).
      { destruct r as [x|]; [exfalso|reflexivity].
        assert (TM : q_time q2a = t /\ next_event_description q2a = Ok 1).
        { eapply enter_arrives; [exact K2|exact N2|exact FT| |exact AD]. reflexivity. }
        destruct TM as [TM DM]. destruct (stopped_own (nt_max n) ms q2a) as (_ & _ & O3). rewrite <- O3 in DM.
        destruct (arr_event _ _ _ IS DM NX2) as (X & _). discriminate. }
      rewrite RN in X3. exact (counts_trans _ _ _ _ _ _ _ X1 (counts_trans _ _ _ _ _ _ _ X2 X3)). }
    exists (Goes j e2 (ag_id a)). unfold after. split; [|split].
    + split; [reflexivity|]. nc. cbn [saw].
      assert (GJ : exists q', get (upd (upd (nt_queues n) j q1') e2 q2') j = Some q' /\ (e2 <> j -> q' = q1')).
      { destruct (Nat.eq_dec e2 j) as [->|NE]; [exists q2'; split; [apply get_upd_eq; rewrite upd_length; exact LK|congruence]|].
        exists q1'. rewrite get_upd_neq by congruence. split; [apply get_upd_eq; exact LK|auto]. }
      destruct GJ as (q' & GJ & QJ). exists q1, q', q2old, a. nc.
      split; [exact G|]. split; [exact GJ|]. split; [exact G2|]. split; [exact TQ|]. split; [exact INA|].
      split; [reflexivity|]. split; [exact TA|]. split; [exists q1, l; auto|]. split.
      { destruct DD as [n1 [DD IU]]. refine (desired_chooses _ _ _ _ _ _ DD _). symmetry; exact IU. }
      split; [exact CA|]. split.
      { intro NE. rewrite (QJ NE). destruct U as [ND BD]. assert (ND1 := held_nodup _ ND _ _ G). apply (Permutation_NoDup HH) in ND1. inversion ND1; assumption. }
      intros i NI. nc. rewrite !get_upd_neq; [reflexivity| |]; intros ->; apply NI; [left|right; left]; reflexivity.
    + intros k q GK NK0. nc. cbn [out_of into kept_from b2z]. rewrite Z.add_0_r. destruct (Nat.eq_dec e2 k) as [->|NE2].
      * rewrite Nat.eqb_refl. exists q2'. split; [apply get_upd_eq; rewrite upd_length; eapply get_lt; exact G2|].
        apply get_upd in GE as [[-> ->]|[NE GE]]; [| |exact LK].
        -- rewrite Nat.eqb_refl. assert (q1 = q) by congruence. subst q1. apply (counts_trans _ 1 0 _ 0 1 _ C1). apply C2. congruence.
        -- rewrite (proj2 (Nat.eqb_neq j k)) by congruence. assert (q2 = q) by congruence. subst q2. apply C2. exact NK0.
      * rewrite get_upd_neq by congruence. rewrite (proj2 (Nat.eqb_neq e2 k)) by congruence. destruct (Nat.eq_dec j k) as [->|NJ].
        -- assert (q1 = q) by congruence. subst q1. rewrite Nat.eqb_refl. exists q1'. split; [apply get_upd_eq; exact LK|exact C1].
        -- rewrite (proj2 (Nat.eqb_neq j k)) by congruence. exists q. rewrite get_upd_neq by congruence. split; [exact GK|apply counts_refl].
    + intros P F O k q GK. cbn [nt_queues] in GK. apply shift_0; [reflexivity|].
      assert (M1 := next_m P _ _ _ (O _ _ G) ltac:(rewrite (qk_idx _ _ _ K); eapply F; [exact G|lia]) NX). destruct M1 as [M1 MB]. specialize (MB _ eq_refl).
      assert (O2 : okm P q2 /\ P (e2, q_oarr q2) 0).
      { apply get_upd in GE as [[-> ->]|[NE GE]]; [| |exact LK]; [split; [exact M1|rewrite OB; eapply F; [exact G|lia]]|split; [eapply O; exact GE|eapply F; [exact GE|lia]]]. }
      destruct O2 as [O2 F2].
      apply get_upd in GK as [[-> ->]|[NE1 GK]]; [| |rewrite upd_length; eapply get_lt; exact G2].
      * assert (O2A := arrive_m P (set_ag_time t b) q2 q2a O2 MB AD).
        apply (next_m P) in NX2; [apply NX2| |].
        -- unfold stopped. destruct (q_active q2a && _); [destruct O2A; constructor; assumption|exact O2A].
        -- rewrite cfg_stopped. destruct (stopped_own (nt_max n) ms q2a) as (-> & _).
           assert (X : q_cfg q2a = q_cfg q2 /\ q_oarr q2a = q_oarr q2).
           { destruct (c_class (q_cfg q2)) eqn:CC; try (apply add_arrival_Ok in AD as (hh & -> & _); [split; reflexivity|congruence|apply K2|apply K2]).
             apply add_arrival_null in AD as (dd & -> & _); [split; reflexivity|exact CC]. }
           destruct X as [-> ->]. rewrite (qk_idx _ _ _ K2). exact F2.
      * apply get_upd in GK as [[-> ->]|[NE3 GK]]; [exact M1|eapply O; exact GK|exact LK].
Qed.

(** ** The other calls *)

Definition quietly (k : nat) (q q' : queue) : Prop :=
  (c_class (q_cfg q) <> CNull -> counts q 0 0 q') /\ q_oarr q <= q_oarr q' /\ q_cfg q' = q_cfg q /\
  forall P : aid -> Z -> Prop, (forall i, q_oarr q <= i -> P (k, i) 0) -> okm P q -> okm P q'.
Definition quiet (n n' : net) : Prop :=
  length (nt_queues n') = length (nt_queues n) /\
  forall k q q', get (nt_queues n) k = Some q -> get (nt_queues n') k = Some q' -> quietly k q q'.

Lemma quietly_refl k q : quietly k q q.
Proof. split; [intros _; apply counts_refl|]. split; [lia|auto]. Qed.
Lemma quietly_trans k q1 q2 q3 : quietly k q1 q2 -> quietly k q2 q3 -> quietly k q1 q3.
Proof.
  intros (A & B & C & D) (A' & B' & C' & D'). split; [|split; [lia|split; [congruence|]]].
  - intro N. rewrite C in A'. exact (counts_trans _ _ _ _ _ _ _ (A N) (A' N)).
  - intros P F O. apply D'; [|apply D; assumption]. intros i LE. apply F. lia.
Qed.
Lemma quiet_same n n' : nt_queues n' = nt_queues n -> quiet n n'.
Proof. intro E. split; [congruence|]. intros k q q' G G'. rewrite E in G'. assert (q' = q) by congruence. subst. apply quietly_refl. Qed.
Lemma quiet_upd n n1 n' e q q' : get (nt_queues n) e = Some q -> nt_queues n1 = upd (nt_queues n) e q' -> quietly e q q' -> quiet n1 n' -> quiet n n'.
Proof.
  intros G E QQ [L Q]. split; [rewrite L, E, upd_length; reflexivity|]. intros k x x' GX GX'. destruct (Nat.eq_dec e k) as [->|NE].
  - assert (x = q) by congruence. subst x. eapply quietly_trans; [exact QQ|]. apply (Q k q' x'); [|exact GX']. rewrite E. apply get_upd_eq. eapply get_lt; exact G.
  - apply (Q k x x'); [|exact GX']. rewrite E, get_upd_neq by congruence. exact GX.
Qed.

Lemma active_quietly k q q' : qinv q -> c_idx (q_cfg q) = k -> set_active q = Ok q' -> quietly k q q'.
Proof.
  intros I IX E. destruct (active_held _ _ I E) as (new & _ & _ & O & CF). split; [|split; [unfold zlen in O; lia|split; [exact CF|]]].
  - intro N. eapply active_counts; eassumption.
  - intros P F OK. eapply active_m; [exact OK| |exact E]. rewrite IX. apply F. lia.
Qed.
Lemma activate_quiet l : forall n n', (forall k q, get (nt_queues n) k = Some q -> qinv q /\ c_idx (q_cfg q) = k) -> activate l n = Ok n' ->
  quiet n n' /\ nt_events n' = nt_events n.
Proof.
  induction l as [|e l IH]; intros n n' Q H; cbn [activate] in H; [injection H as <-; split; [apply quiet_same|]; reflexivity|].
  mbind H. rename x into q. apply queue_at_Ok in E. mbind H. rename x into q'. mbind H. apply set_count_Ok in E1 as [LC ->].
  destruct (Q _ _ E) as [I IX]. assert (QQ := active_quietly _ _ _ I IX E0). assert (L := get_lt _ _ _ E).
  apply IH in H as [H EV].
  - split; [|exact EV]. refine (quiet_upd _ _ _ _ _ _ E _ QQ H). reflexivity.
  - nc. intros k q0 G. apply get_upd in G as [[-> ->]|[NE G]]; [|auto|exact L].
    split; [eapply qinv_set_active; eauto|]. destruct QQ as (_ & _ & CF & _). congruence.
Qed.
Lemma on_quiet f l : (forall k q, quietly k q (f q)) -> forall n n', on_queues f l n = Ok n' -> quiet n n' /\ nt_events n' = nt_events n.
Proof.
  intro F. induction l as [|e l IH]; intros n n' H; cbn [on_queues] in H; [injection H as <-; split; [apply quiet_same|]; reflexivity|].
  mbind H. rename x into q. apply queue_at_Ok in E. apply IH in H as [H EV]. split; [|exact EV]. refine (quiet_upd _ _ _ _ _ _ E _ (F _ _) H). reflexivity.
Qed.

Lemma call_counts n0 n c n' : well_made n0 -> nreach usual n0 n -> unbroken n c -> run_call c n = Ok n' ->
  exists l, saw n n' l /\ counted n n' l /\ carried n n' l /\
    (forall x, bound (nt_queues n) x -> bound (nt_queues n') x) /\ forall i, who_halts i l = true -> In i (everyone n).
Proof.
  intros W R [US NC] H. assert (GD := ngood_reach _ _ W R). destruct GD as [I _]. assert (U := uniq_reach _ _ W R).
  assert (KS : forall k q, get (nt_queues n) k = Some q -> qinv q /\ c_idx (q_cfg q) = k) by (intros k q G; split; apply (ni_q _ I _ _ G)).
  assert (CALM : quiet n n' -> nt_events n' = nt_events n -> exists l, saw n n' l /\ counted n n' l /\ carried n n' l /\
    (forall x, bound (nt_queues n) x -> bound (nt_queues n') x) /\ forall i, who_halts i l = true -> In i (everyone n)).
  { intros [L Q] EV. exists Rests. split; [right; exact EV|].
    assert (GO : forall k q, get (nt_queues n) k = Some q -> exists q', get (nt_queues n') k = Some q' /\ quietly k q q').
    { intros k q G. destruct (get (nt_queues n') k) as [q'|] eqn:G'; [exists q'; eauto|]. exfalso. unfold get in G'. apply nth_error_None in G'. apply get_lt in G. lia. }
    split; [|split; [|split; [|discriminate]]].
    - intros k q G N. destruct (GO _ _ G) as (q' & G' & C & _). exists q'. split; [exact G'|apply C; exact N].
    - intros P F O k q' G'. apply shift_0; [reflexivity|].
      assert (LT := get_lt _ _ _ G'). rewrite L in LT. destruct (get (nt_queues n) k) as [q|] eqn:G; [|unfold get in G; apply nth_error_None in G; lia].
      destruct (Q _ _ _ G G') as (_ & _ & _ & X). apply X; [intros i LE; eapply F; [exact G|exact LE]|eapply O; exact G].
    - intros x (q & G & LT). destruct (GO _ _ G) as (q' & G' & _ & LE & _). exists q'. split; [exact G'|lia]. }
  destruct c as [sel| | |o]; cbn [run_call] in H.
  - unfold initialize_queues in H. mbind H. destruct (length x =? 0)%nat; [discriminate|]. mbind H. mbind H. injection H as <-.
    apply activate_quiet in E0 as [[L Q] EV]; [|exact KS]. apply CALM; [|exact EV]. split; [exact L|exact Q].
  - congruence.
  - unfold net_copy in H. apply CALM; [apply quiet_same|]; (destruct (nt_init n); [mbind H|]; injection H as <-; reflexivity).
  - destruct o as [|b l|l|p|m|b]; cbn [run_nop] in H.
    + apply sim_nst in H; [|exact I]. destruct (event_counts _ _ I U H) as (l & SW & CO & CA). exists l. split; [exact SW|]. split; [exact CO|]. split; [exact CA|].
      assert (T := nst_transit _ _ I H). destruct T as [T _]. apply transit_flow in T as (new & gone & _ & _ & _ & _ & BD). split.
      * intros x X. apply BD. left; exact X.
      * intros i WI. destruct l as [| |k e j|]; try discriminate. cbn [who_halts] in WI. apply aid_eqb_eq in WI. subst j.
        destruct SW as (_ & q & q' & q2 & a & a' & G & _ & _ & _ & IA & <- & _). apply (held_everyone _ _ _ _ G). unfold held. rewrite !in_app_iff. right; left. apply in_map. exact IA.
    + apply on_quiet in H as [H EV]; [apply CALM; assumption|]. intros k q. split; [intros _|split; [cbn; lia|split; [reflexivity|]]].
      * split; [cbn; lia|]. split; [cbn; lia|]. split; [reflexivity|]. intros _. rewrite Z.add_0_r. reflexivity.
      * intros P _ []. constructor; assumption.
    + apply on_quiet in H as [H EV]; [apply CALM; assumption|]. intros k q. split; [intros _|split; [cbn; lia|split; [reflexivity|]]].
      * split; [cbn; lia|]. split; [cbn; lia|]. split; [reflexivity|]. intros _. rewrite Z.add_0_r. reflexivity.
      * intros P _ []. constructor; assumption.
    + injection H as <-. apply CALM; [apply quiet_same|]; reflexivity.
    + injection H as <-. apply CALM; [apply quiet_same|]; reflexivity.
    + injection H as <-. apply CALM; [apply quiet_same|]; reflexivity.
Qed.

(** ** The whole history *)

Lemma many_snoc f ls l : many f (ls ++ [l]) = many f ls + b2z (f l).
Proof. unfold many. rewrite filter_app, app_length. cbn [filter]. destruct (f l); cbn [length b2z]; lia. Qed.
Lemma story_snoc p : forall n1 n2 l ls, story p n1 ls -> saw n1 n2 l -> story (p ++ [n1]) n2 (ls ++ [l]).
Proof.
  induction p as [|m p IH]; intros n1 n2 l ls H SW; destruct ls as [|l0 ls]; try destruct H.
  - cbn. auto.
  - cbn [app story]. split; [|apply IH; assumption]. destruct p; exact H.
Qed.

Record tally (n : net) (ls : list label) : Prop := mkTally {
  ty_q : forall k q, get (nt_queues n) k = Some q -> c_class (q_cfg q) <> CNull -> q_departed q = many (out_of k) ls /\
    (c_class (q_cfg q) <> CResource -> load q = many (into k) ls + many (kept_from k) ls);
  ty_m : forall k q, get (nt_queues n) k = Some q -> okm (fun i z => z = many (who_halts i) ls) q;
  ty_b : forall i, many (who_halts i) ls <> 0 -> bound (nt_queues n) i
}.

Lemma tally_step n n' l ls : tally n ls -> uniq n -> counted n n' l -> carried n n' l -> map q_cfg (nt_queues n') = map q_cfg (nt_queues n) ->
  (forall x, bound (nt_queues n) x -> bound (nt_queues n') x) -> (forall i, who_halts i l = true -> In i (everyone n)) -> tally n' (ls ++ [l]).
Proof.
  intros [TQ TM TB] U CO CA CF BD WH. assert (L := f_equal (@length _) CF). rewrite !map_length in L. constructor.
  - intros k q' G' N'. assert (LT := get_lt _ _ _ G'). rewrite L in LT.
    destruct (get (nt_queues n) k) as [q|] eqn:G; [|unfold get in G; apply nth_error_None in G; lia].
    assert (N : c_class (q_cfg q) = CNull \/ c_class (q_cfg q) <> CNull) by (destruct (c_class (q_cfg q)); auto; right; discriminate).
    destruct N as [N|N].
    + exfalso. apply N'. rewrite <- N. f_equal. assert (X : nth_error (map q_cfg (nt_queues n')) k = nth_error (map q_cfg (nt_queues n)) k) by (rewrite CF; reflexivity).
      rewrite !nth_error_map in X. unfold get in G, G'. rewrite G, G' in X. injection X as X. exact X.
    + destruct (CO _ _ G N) as (q0 & G0 & C1 & C2 & C3 & C4). assert (q0 = q') by congruence. subst q0. destruct (TQ _ _ G N) as [T1 T2].
      rewrite !many_snoc. split; [lia|]. intro NR. rewrite C3 in NR. specialize (T2 NR). specialize (C4 NR). lia.
  - intros k q' G'. refine (okm_ext _ _ _ _ (CA _ _ TM k q' G')).
    + intros i z X. unfold shift in X. rewrite many_snoc. lia.
    + intros k0 q i G LE. cbn beta. destruct (Z.eq_dec (many (who_halts (k0, i)) ls) 0) as [E|E]; [congruence|]. exfalso.
      apply TB in E as (q0 & G0 & LT). cbn [fst snd] in *. assert (q0 = q) by congruence. subst. lia.
  - intros i X. apply BD. rewrite many_snoc in X. destruct (who_halts i l) eqn:WI.
    + apply U. apply WH. exact WI.
    + apply TB. cbn [b2z] in X. lia.
Qed.

Lemma tally_start n0 n1 : well_made n0 -> nreach usual n0 n1 -> (forall k q, get (nt_queues n1) k = Some q -> c_class (q_cfg q) <> CNull -> pristine q) -> tally n1 [].
Proof.
  intros W R PR. destruct (ngood_reach _ _ W R) as [I _]. constructor.
  - intros k q G N. apply PR in G; [|exact N]. apply pristine_facts in G as [IQ WQ A D L O NS DP NA B]. rewrite DP. split; [reflexivity|]. intros _.
    unfold load, scheduled. rewrite A, O, NA, B. reflexivity.
  - intros k q G. assert (K := ni_q _ I _ _ G). assert (IQ := qk_inv _ _ _ K).
    assert (N : c_class (q_cfg q) = CNull \/ c_class (q_cfg q) <> CNull) by (destruct (c_class (q_cfg q)); auto; right; discriminate).
    destruct N as [N|N].
    + destruct (qk_null _ _ _ K N) as (A & D & L & _). constructor; [apply IQ|apply IQ|rewrite A|rewrite D|rewrite L]; intros x [].
    + apply PR in G; [|exact N]. apply pristine_facts in G as [_ WQ A D L O NS DP NA B]. constructor; [apply IQ|apply IQ|rewrite A|rewrite D|rewrite L]; intros x [].
  - intros i X. contradiction X. reflexivity.
Qed.

Theorem counters_count n0 n1 p n : well_made n0 -> nreach usual n0 n1 ->
  (forall k q, get (nt_queues n1) k = Some q -> c_class (q_cfg q) <> CNull -> pristine q) -> passes unbroken n1 p n ->
  exists ls, story p n ls /\ tally n ls.
Proof.
  intros W R PR PA. induction PA as [|p n c n' PA IH OK H].
  - exists []. split; [exact Logic.I|]. eapply tally_start; eassumption.
  - destruct IH as (ls & ST & TY).
    assert (RN : nreach usual n0 n).
    { apply passes_reach in PA. clear - PA R. induction PA as [|n c n' R' IH OK H]; [exact R|]. eapply nreach_step; [exact IH|apply OK|exact H]. }
    assert (RN' : nreach usual n0 n') by (eapply nreach_step; [exact RN|apply OK|exact H]).
    destruct (call_counts _ _ _ _ W RN OK H) as (l & SW & CO & CA & BD & WH).
    exists (ls ++ [l]). split; [eapply story_snoc; eassumption|]. eapply tally_step; try eassumption; [eapply uniq_reach; eassumption|].
    destruct (same_graph _ _ W RN) as [_ C1]. destruct (same_graph _ _ W RN') as [_ C2]. congruence.
Qed.
