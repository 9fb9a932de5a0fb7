(** * TrailNet: ways through networks, in histories *)
From Coq Require Import List ZArith QArith Lia Bool Permutation Arith Sorted.
From Verif Require Import Base Heap HeapProofs PQueue PQueueProofs SpecPQ PQHist Queue QueueEffects QueueEvents QueueSteps QueueInv SpecQueue QueueFlow QueueHist QueueData QueueRows QueueClaims1 QueueClaims3 Network NetQueue NetSteps NetInv SpecNet NetReach NetFlow NetClaims1 SpecRefine SpecTrail TrailSteps TrailProofs.
Import ListNotations.
Open Scope Z_scope.

Lemma tr_mono (fl fl' : nat -> nat -> Prop) T qs air i p : (forall j k, fl j k -> fl' j k) -> tr fl T qs air i p -> tr fl' T qs air i p.
Proof.
  intros F [A1 A2 A3 A4 A5 A6 A7 A8 A9]. split; auto.
  - intros p1 x y p2 E. destruct (A4 _ _ _ _ E) as (X & Y). auto.
  - intros k a X ID. destruct (A6 _ _ X ID) as [Y|(p0 & x & Y1 & Y2 & Y3)]; [auto|]. right. exists p0, x. auto.
Qed.

Lemma cfgs_upd qs k q q' : get qs k = Some q -> q_cfg q' = q_cfg q -> map q_cfg (upd qs k q') = map q_cfg qs.
Proof.
  revert k. induction qs as [|x qs IH]; intros [|k] G C; try discriminate; cbn [map upd].
  - injection G as ->. f_equal. exact C.
  - f_equal. apply IH; auto.
Qed.
Lemma cfgs_get qs qs' k q : map q_cfg qs' = map q_cfg qs -> get qs k = Some q -> exists q', get qs' k = Some q' /\ q_cfg q' = q_cfg q.
Proof.
  intros E G. assert (X : get (map q_cfg qs') k = Some (q_cfg q)) by (rewrite E; unfold get in *; rewrite nth_error_map, G; reflexivity).
  unfold get in *. rewrite nth_error_map in X. destruct (nth_error qs' k) as [q'|]; [|discriminate]. injection X as X. eauto.
Qed.
Lemma follows_mono n n' : nt_out n' = nt_out n -> map q_cfg (nt_queues n') = map q_cfg (nt_queues n) -> forall j k, follows n j k -> follows n' j k.
Proof.
  intros O C j k (q & l & G & L & X). destruct (cfgs_get _ _ _ _ C G) as (q' & G' & CF). exists q', l. rewrite O, CF. auto.
Qed.

(** All queues collect data, and none is a ResourceQueue. *)
Definition plainly (qs : list queue) : Prop :=
  forall k q, get qs k = Some q -> q_collect q = true /\ c_class (q_cfg q) <> CResource.

Definition ways (n : net) : Prop :=
  plainly (nt_queues n) /\ forall i, exists p, tr (follows n) (nt_t n) (nt_queues n) [] i p.

Lemma plainly_upd qs k q q' : plainly qs -> get qs k = Some q -> q_cfg q' = q_cfg q -> q_collect q' = true -> plainly (upd qs k q').
Proof.
  intros P G C CO j qj GJ. apply get_upd in GJ as [[-> ->]|[_ GJ]]; [|eauto|exact (get_lt _ _ _ G)].
  split; [exact CO|]. rewrite C. eapply P; exact G.
Qed.

Lemma uniq_sole n : uniq n -> sole (nt_queues n) []. Proof. intros [A _]. exact A. Qed.
Lemma uniq_bounds n : uniq n -> forall x, In x (flat_map held (nt_queues n)) -> bound (nt_queues n) x. Proof. intros [_ B]. exact B. Qed.

Lemma uniq_dinv qs k q : NoDup (flat_map held qs) -> (forall x, In x (flat_map held qs) -> bound qs x) -> get qs k = Some q -> c_idx (q_cfg q) = k -> dinv q.
Proof.
  intros ND BD G IX. split.
  - clear BD IX. revert k G. induction qs as [|q0 qs IH]; intros [|k] G; try discriminate; cbn in ND.
    + injection G as ->. apply nodup_l in ND. exact ND.
    + apply nodup_r in ND. eapply IH; eassumption.
  - intros i X F. assert (Y := BD i (held_in _ _ _ _ G X)). destruct Y as (q0 & G0 & LT). rewrite F, IX in G0. assert (q0 = q) by congruence. subst. exact LT.
Qed.

Lemma eff_stopped max ag q q' i : eff (stopped max ag q) q' i -> eff q q' i.
Proof. unfold stopped. destruct (q_active q && _); [|auto]. intros [A B C|s A B C D|A B C D|a rw A B C D E F G];
  [apply ef_same|apply (ef_begin _ _ _ s)|apply ef_new|apply (ef_arrive _ _ _ a rw)]; assumption. Qed.
Lemma dinv_stopped max ag q : dinv q -> dinv (stopped max ag q).
Proof. unfold stopped. destruct (q_active q && _); auto. Qed.
Lemma stopped_plain max ag q : q_collect (stopped max ag q) = q_collect q /\ q_data (stopped max ag q) = q_data q /\ waiting (stopped max ag q) = waiting q /\
  in_service (stopped max ag q) = in_service q /\ scheduled (stopped max ag q) = scheduled q.
Proof. unfold stopped. destruct (q_active q && _); auto. Qed.

Lemma perm_nodup_held qs k q q' A B : get qs k = Some q -> Permutation (held q ++ A) (held q' ++ B) -> NoDup (flat_map held qs ++ A) -> NoDup (flat_map held (upd qs k q') ++ B).
Proof. intros G P ND. eapply Permutation_NoDup; [|exact ND]. eapply everyone_upd; eassumption. Qed.

Lemma ways_step n n' : ninv n -> uniq n -> nst n n' -> ways n -> ways n'.
Proof.
  intros IV U ST [PL WY].
  assert (SO := uniq_sole _ U). assert (BD := uniq_bounds _ U).
  destruct ST as [SZ ->|t k h q SZ PO G DS ->|t k h q r q' h' SZ PO G DS NX PU LC ->|
    t k h q a h0 l e2 q2 qm q' d h' iu ie td SZ PO G DS DP OUT IN DD G2 NE CA MB RT DE DL NK PU ->|
    t k h q a h0 l e2 q2old b q' q2 q2a r q2' h' iu SZ PO G DS DP OUT IN DD G2 CA NX GE AD NX2 PU LA LB ->].
  - split; [exact PL|]. intro i. destruct (WY i) as (p & R). exists p. nc.
    refine (tr_mono _ _ _ _ _ _ _ _ (tr_later _ _ _ _ _ _ _ (eLe_Inf _) R)). intros j k0 F. exact F.
  - split; [exact PL|]. intro i. destruct (WY i) as (p & R). exists p. destruct (popped _ _ _ _ IV SZ PO) as (_ & LE & _).
    unfold after. nc. refine (tr_mono _ _ _ _ _ _ _ _ (tr_later _ _ _ _ _ _ _ LE R)). intros j k0 F. exact F.
  - (* an arrival *)
    destruct (popped _ _ _ _ IV SZ PO) as (W & LE & LK & QK & QM & _ & KS & TT & HB & _). assert (K := KS _ _ G).
    destruct (description_1 _ (qk_inv _ _ _ K) DS) as (NN & _ & _ & TI). destruct (PL _ _ G) as (CO & NR).
    assert (TQ : q_time q = t) by (destruct (TT _ G); [assumption|congruence]). assert (FT : t <> Inf) by congruence.
    assert (D := uniq_dinv _ _ _ SO BD G (qk_idx _ _ _ K)).
    assert (KS1 := qok_stopped _ _ (nt_max n) (nt_nagents n) _ K).
    destruct (qok_next t k _ _ _ KS1 (eq_trans (time_stopped _ _ q) TQ) FT NX) as (K' & _).
    assert (CF := next_cfg _ _ _ (qk_inv _ _ _ KS1) NX). rewrite cfg_stopped in CF.
    assert (DS1 := DS). rewrite <- (stopped_desc (nt_max n) (nt_nagents n)) in DS1.
    destruct (eff_arr _ _ _ (qk_inv _ _ _ KS1) (dinv_stopped _ _ _ D) ltac:(rewrite cfg_stopped; exact NN) ltac:(rewrite cfg_stopped; exact NR)
      ltac:(rewrite (proj1 (stopped_plain _ _ _)); exact CO) DS1 NX) as (EF & OA & CO').
    rewrite stopped_oarr in OA.
    split; [unfold after; nc; eapply plainly_upd; eauto|]. intro i. destruct (WY i) as (p & R).
    destruct (tr_eff _ t _ _ _ _ k q q' (tr_later _ _ _ _ _ _ _ LE R) SO BD G (qk_idx _ _ _ K) OA (qk_now _ _ _ K') (eff_stopped _ _ _ _ _ (EF i))) as (p' & R').
    exists p'. refine (tr_mono _ _ _ _ _ _ _ _ R'). apply follows_mono; [reflexivity|]. unfold after. nc. eapply cfgs_upd; eauto.
  - (* an agent has to stay *)
    destruct (popped _ _ _ _ IV SZ PO) as (W & LE & LK & QK & QM & _ & KS & TT & HB & _). assert (K := KS _ _ G).
    destruct (description_2 _ (qk_inv _ _ _ K) DS) as (NN & _ & _ & FI). destruct (PL _ _ G) as (CO & NR). destruct (PL _ _ G2) as (CO2 & NR2).
    destruct (qok_mark _ _ _ _ K MB) as (KM & _).
    destruct (eff_mark _ _ (qi_dep _ (qk_inv _ _ _ K)) MB) as (M1 & M2 & M3 & M4 & M5 & M6).
    destruct (eff_delay _ _ _ (qk_inv _ _ _ KM) ltac:(congruence) DL) as (D1 & D2 & D3 & D4 & D5).
    assert (C' : q_cfg q' = q_cfg q).
    { assert (X := DL). apply delay_service_Ok in X; [|congruence|apply KM|apply KM].
      destruct X as [(_ & ->)|(a1 & h1 & h1' & m1 & X)]; [congruence|]. cbv zeta in X. destruct X as (_ & -> & _). qc. exact M5. }
    destruct (delay_held d qm q' (qk_inv _ _ _ KM) ltac:(congruence) DL) as (HD & OD).
    assert (OM : q_oarr qm = q_oarr q) by apply (qok_mark _ _ _ _ K MB).
    set (q2' := set_q_blocked (q_blocked q2 + 1) q2).
    set (qs1 := upd (nt_queues n) e2 q2'). assert (G1 : get qs1 k = Some q) by (unfold qs1; rewrite get_upd_neq by congruence; exact G).
    assert (CE : map q_cfg qs1 = map q_cfg (nt_queues n)) by (eapply cfgs_upd; [exact G2|reflexivity]).
    assert (P1 : plainly qs1) by (apply (plainly_upd _ _ q2); auto).
    split; [unfold after; nc; apply (plainly_upd _ _ q); [exact P1|exact G1|exact C'|congruence]|].
    intro i. destruct (WY i) as (p & R).
    assert (E2 : eff q2 q2' i) by (apply eff_quiet; reflexivity).
    assert (K2 := KS _ _ G2).
    destruct (tr_eff _ t _ _ _ _ e2 q2 q2' (tr_later _ _ _ _ _ _ _ LE R) SO BD G2 (qk_idx _ _ _ K2) ltac:(unfold q2'; qc; lia) (qk_now _ _ _ K2) E2) as (p1 & R1).
    fold qs1 in R1.
    assert (HE : flat_map held qs1 = flat_map held (nt_queues n)).
    { unfold qs1, q2'. clear - G2. revert e2 G2. induction (nt_queues n) as [|x qs IH]; intros [|e2] G2; try discriminate; cbn.
      - injection G2 as ->. reflexivity.
      - rewrite (IH e2 G2). reflexivity. }
    assert (SO1 : sole qs1 []) by (unfold sole; rewrite HE; exact SO).
    assert (BD1 : forall x, In x (flat_map held qs1) -> bound qs1 x).
    { intros x X. rewrite HE in X. apply (bound_upd _ _ q2); [exact G2|unfold q2'; qc; lia|apply BD; exact X]. }
    assert (EK : eff q q' i).
    { apply eff_quiet; try congruence. intro x. assert (Y : forall x, In x (ids (in_service q')) <-> In x (ids (in_service qm))).
      { intro y. split; apply Permutation_in; [exact D3|symmetry; exact D3]. } rewrite Y, M3. reflexivity. }
    assert (NQ : eLe (q_now q') t).
    { assert (X := DL). apply delay_service_Ok in X; [|congruence|apply KM|apply KM].
      destruct X as [(_ & ->)|(a1 & h1 & h1' & m1 & X)]; [exact (qk_now _ _ _ KM)|]. cbv zeta in X. destruct X as (_ & -> & _). qc. exact (qk_now _ _ _ KM). }
    destruct (tr_eff _ t _ _ _ _ k q q' R1 SO1 BD1 G1 (qk_idx _ _ _ K) ltac:(lia) NQ EK) as (p2 & R2).
    exists p2. refine (tr_mono _ _ _ _ _ _ _ _ R2). apply follows_mono; [reflexivity|]. unfold after. nc. fold q2' qs1. rewrite (cfgs_upd _ _ q); auto.
  - (* an agent goes on *)
    destruct (popped _ _ _ _ IV SZ PO) as (W & LE & LK & QK & QM & _ & KS & TT & HB & _). assert (K := KS _ _ G).
    destruct (description_2 _ (qk_inv _ _ _ K) DS) as (NN & _ & _ & FI). destruct (PL _ _ G) as (CO & NR).
    assert (TQ : q_time q = t) by (destruct (TT _ G); [assumption|congruence]). assert (FT : t <> Inf) by congruence.
    assert (D := uniq_dinv _ _ _ SO BD G (qk_idx _ _ _ K)).
    destruct (eff_dep _ _ _ _ _ (qk_inv _ _ _ K) D NR CO DS DP NX) as (b0 & EB & IDB & EF & I0 & NH & RW & OA & HH & CO'). injection EB as <-.
    destruct (qok_next t k _ _ _ K TQ FT NX) as (K' & _).
    assert (CF := next_cfg _ _ _ (qk_inv _ _ _ K) NX).
    assert (NOW : q_now q' = t).
    { assert (X := NX). apply next_pend in X; [|apply K|apply K]. destruct X as [([C|C] & _)|(_ & _ & _ & _ & _ & _ & _ & Y)]; congruence. }
    set (b1 := set_ag_time t b) in *. assert (IB1 : ag_id b1 = ag_id a) by exact IDB.
    set (qs1 := upd (nt_queues n) k q') in *.
    assert (FK : follows n k e2) by (exists q, l; auto).
    assert (K2 : qok t e2 q2).
    { apply get_upd in GE as [[-> ->]|[NE GE]]; [exact K'|apply KS; exact GE|exact LK]. }
    assert (CE : map q_cfg qs1 = map q_cfg (nt_queues n)) by (eapply cfgs_upd; eauto).
    assert (P1 : plainly qs1) by (apply (plainly_upd _ _ q); auto). destruct (P1 _ _ GE) as (CO2 & NR2).
    assert (SO1 : sole qs1 [(e2, b1)]).
    { unfold sole. cbn [map ids snd app]. apply (Permutation_NoDup (l := flat_map held qs1 ++ [ag_id b1])); [symmetry; apply Permutation_cons_append|].
      unfold qs1. apply (perm_nodup_held _ _ q q' []); [exact G| |rewrite app_nil_r; exact SO]. rewrite app_nil_r, HH, IB1. apply Permutation_cons_append. }
    assert (B1 : forall x, bound (nt_queues n) x -> bound qs1 x) by (intros x X; apply (bound_upd _ _ q); [exact G|lia|exact X]).
    assert (HE1 : forall x, In x (flat_map held qs1) -> bound qs1 x).
    { intros x X. apply B1, BD. apply in_flat_map in X as (q0 & X0 & X). apply in_get in X0 as (j & GJ).
      apply get_upd in GJ as [[-> ->]|[_ GJ]]; [|eapply held_in; eassumption|exact LK].
      apply (held_in _ k q); [exact G|]. apply (Permutation_in _ (Permutation_sym HH)). right. exact X. }
    assert (BB : bound qs1 (ag_id b1)).
    { apply B1, BD. rewrite IB1. apply (held_in _ k q); [exact G|apply inside_held; exact I0]. }
    assert (STEP1 : forall i, exists p, tr (follows n) t qs1 [(e2, b1)] i p).
    { intro i. destruct (WY i) as (p & R). apply (tr_depart _ (nt_t n) t _ i p k q q' e2 b1); auto; rewrite ?IB1; auto.
      exact (qk_idx _ _ _ K). }
    assert (CC : c_class (q_cfg q2) = CNull \/ c_class (q_cfg q2) <> CNull) by (destruct (c_class (q_cfg q2)); auto; right; discriminate).
    destruct CC as [C2|N2].
    { apply add_arrival_null in AD as (d & -> & DD2); [|exact C2]. rewrite CO2 in DD2.
      assert (EQ : q2' = stopped (nt_max n) (upd (upd (nt_nagents n) k (q_total q')) e2 (q_total (set_q_data d q2))) (set_q_data d q2)).
      { unfold next_event in NX2. rewrite cfg_stopped in NX2. cbn [q_cfg set_q_data] in NX2. rewrite C2 in NX2. injection NX2 as _ <-. reflexivity. }
      destruct (stopped_plain (nt_max n) (upd (upd (nt_nagents n) k (q_total q')) e2 (q_total (set_q_data d q2))) (set_q_data d q2)) as (X1 & X2 & X3 & X4 & X5).
      rewrite <- EQ in X1, X2, X3, X4, X5.
      assert (C2' : q_cfg q2' = q_cfg q2) by (rewrite EQ, cfg_stopped; reflexivity).
      assert (O2 : q_oarr q2' = q_oarr q2) by (rewrite EQ, stopped_oarr; reflexivity).
      split; [unfold after; nc; eapply plainly_upd; [exact P1|exact GE|exact C2'|rewrite X1; exact CO2]|].
      intro i. destruct (STEP1 i) as (p & R).
      destruct (tr_exit (follows n) t qs1 i p e2 q2 q2' b1 (mkData (ag_time b1) (Fin 0) (Fin 0) 0 0)) as (p' & R'); auto.
      - intro j. rewrite X2. cbn [q_data set_q_data]. rewrite DD2, rows_append. destruct (aid_eqb (ag_id b1) j); [reflexivity|rewrite app_nil_r; reflexivity].
      - apply eLe_refl.
      - exists p'. refine (tr_mono _ _ _ _ _ _ _ _ R'). apply follows_mono; [reflexivity|]. unfold after. nc. fold qs1. rewrite (cfgs_upd _ _ q2); auto. }
    assert (I2 := qk_inv _ _ _ K2).
      assert (IA := qinv_add_arrival _ _ _ I2 AD).
      assert (SC : Permutation (scheduled q2a) (b1 :: scheduled q2) /\ q_oarr q2a = q_oarr q2 /\ q_data q2a = q_data q2 /\ waiting q2a = waiting q2 /\
         in_service q2a = in_service q2 /\ q_cfg q2a = q_cfg q2 /\ q_collect q2a = q_collect q2)
        by (apply add_arrival_Ok in AD as (h1 & -> & _ & P); [split; [exact P|auto 8]|exact N2|apply I2|apply I2]).
      destruct SC as (SC & OA2 & DA2 & WA2 & SA2 & CA2 & COA).
      set (qs2 := upd qs1 e2 q2a).
      assert (LE2 := get_lt _ _ _ GE).
      assert (GA : get qs2 e2 = Some q2a) by (apply get_upd_eq; exact LE2).
      assert (HA : Permutation (held q2a) (ag_id b1 :: held q2)) by (unfold held; rewrite WA2, SA2, (ids_perm _ _ SC); reflexivity).
      assert (PE : Permutation (flat_map held qs2) (ag_id b1 :: flat_map held qs1)) by
        (assert (X := everyone_upd _ _ _ q2a [ag_id b1] [] GE); rewrite app_nil_r in X; fold qs2 in X;
         assert (Y : Permutation (held q2 ++ [ag_id b1]) (held q2a ++ [])) by (rewrite app_nil_r, HA; symmetry; apply Permutation_cons_append);
         specialize (X ltac:(rewrite app_nil_r in Y; exact Y)); rewrite app_nil_r in X; rewrite <- X; symmetry; apply Permutation_cons_append).
      assert (SO2 : sole qs2 []) by (unfold sole; cbn; apply (Permutation_NoDup (Permutation_sym PE)); exact SO1).
      assert (BD2 : forall x, In x (flat_map held qs2) -> bound qs2 x) by
        (intros x X; apply (bound_upd _ _ q2); [exact GE|lia|]; apply (Permutation_in _ PE) in X; destruct X as [<-|X]; [exact BB|apply HE1; exact X]);
      assert (D2 := uniq_dinv _ _ _ SO2 BD2 GA ltac:(rewrite CA2; exact (qk_idx _ _ _ K2))).
      destruct (qok_enter _ _ _ _ _ _ _ _ _ K2 FT (eq_refl : ag_time (set_ag_time t b) = t) AD NX2) as (K3 & _ & C3).
      set (ag := upd (upd (nt_nagents n) k (q_total q')) e2 (q_total q2a)) in *.
      assert (DS2 : next_event_description q2a = Ok 1) by
        (apply desc_arrival with t; [exact IA|congruence|exact FT|exists b1; split; [apply (Permutation_in _ (Permutation_sym SC)); left; reflexivity|reflexivity]|];
         intros c B; apply (qk_pend _ _ _ K2); unfold pend; apply in_or_app; right; apply in_map; rewrite SA2 in B; exact B).
      assert (DS3 := DS2); rewrite <- (stopped_desc (nt_max n) ag) in DS3.
      destruct (eff_arr _ _ _ (qinv_stopped (nt_max n) ag _ IA) (dinv_stopped _ _ _ D2) ltac:(rewrite cfg_stopped; congruence) ltac:(rewrite cfg_stopped; congruence)
        ltac:(rewrite (proj1 (stopped_plain _ _ _)); congruence) DS3 NX2) as (EF2 & OB2 & COB).
      rewrite stopped_oarr in OB2.
      (split; [unfold after; nc; eapply plainly_upd; [exact P1|exact GE|exact C3|exact COB]|]).
      intro i; destruct (STEP1 i) as (p & R).
      assert (R2 := tr_join _ _ _ _ _ _ _ q2a _ R GE OA2 DA2 WA2 SA2 SC); fold qs2 in R2.
      destruct (tr_eff _ t _ _ _ _ e2 q2a q2' R2 SO2 BD2 GA ltac:(rewrite CA2; exact (qk_idx _ _ _ K2)) OB2 (qk_now _ _ _ K3) (eff_stopped _ _ _ _ _ (EF2 i))) as (p' & R').
      unfold qs2 in R'; rewrite upd_upd in R'; exists p'; refine (tr_mono _ _ _ _ _ _ _ _ R'); apply follows_mono; [reflexivity|]; unfold after; nc; fold qs1;
      rewrite (cfgs_upd _ _ q2); auto.
Qed.

Lemma ways_activate l : forall n n', (forall k q, get (nt_queues n) k = Some q -> qinv q /\ c_idx (q_cfg q) = k /\ eLe (q_now q) (nt_t n)) -> uniq n -> ways n ->
  activate l n = Ok n' -> ways n'.
Proof.
  induction l as [|e l IH]; intros n n' Q U W H; cbn [activate] in H; [injection H as <-; exact W|].
  mbind H. rename x into q. apply queue_at_Ok in E. mbind H. rename x into q'. mbind H. assert (E1' := E1). apply set_count_Ok in E1 as [LC ->].
  destruct (Q _ _ E) as (I & IX & NO). assert (L := get_lt _ _ _ E). destruct W as (PL & WY). destruct (PL _ _ E) as (CO & NR).
  assert (D := uniq_dinv _ _ _ (uniq_sole _ U) (uniq_bounds _ U) E IX). destruct (eff_active _ _ I D E0) as (EF & OA & CO' & NOW).
  destruct (active_held _ _ I E0) as (new & P & NW & O & CF).
  apply IH in H; [exact H| | |].
  - nc. intros k q0 G. apply get_upd in G as [[-> ->]|[NE G]]; [|apply Q; exact G|exact L].
    split; [eapply qinv_set_active; eauto|]. split; [congruence|rewrite NOW; exact NO].
  - assert (A : activate [e] n = Ok (set_nt_nagents (upd (nt_nagents (put_queue e q' n)) e (q_total q')) (put_queue e q' n))).
    { cbn [activate]. unfold queue_at. rewrite E. cbn [of_option bind]. rewrite E0. cbn [bind]. rewrite E1'. reflexivity. }
    apply (activate_uniq [e] n _); [intros k q0 G; split; apply (Q _ _ G)|exact U|exact A].
  - split; [nc; apply (plainly_upd _ _ q); [exact PL|exact E|exact CF|congruence]|]. intro i. destruct (WY i) as (p & R).
    destruct (tr_eff _ _ _ _ _ _ e q q' R (uniq_sole _ U) (uniq_bounds _ U) E IX OA ltac:(rewrite NOW; exact NO) (EF i)) as (p' & R').
    exists p'. nc. refine (tr_mono _ _ _ _ _ _ _ _ R'). apply follows_mono; [reflexivity|]. nc. eapply cfgs_upd; eauto.
Qed.

Lemma ways_collect l : forall n n', (forall k q, get (nt_queues n) k = Some q -> c_idx (q_cfg q) = k /\ eLe (q_now q) (nt_t n)) -> uniq n -> ways n ->
  on_queues (set_q_collect true) l n = Ok n' -> ways n'.
Proof.
  induction l as [|e l IH]; intros n n' Q U W H; cbn [on_queues] in H; [injection H as <-; exact W|].
  mbind H. rename x into q. apply queue_at_Ok in E. destruct (Q _ _ E) as (IX & NO). destruct W as (PL & WY). assert (L := get_lt _ _ _ E).
  apply IH in H; [exact H| | |].
  - nc. intros k q0 G. apply get_upd in G as [[-> ->]|[NE G]]; [|apply Q; exact G|exact L]. split; [exact IX|exact NO].
  - apply (on_queues_held (set_q_collect true) [e] ltac:(intro; split; reflexivity) n); [|exact U]. cbn [on_queues]. unfold queue_at. rewrite E. reflexivity.
  - split; [nc; apply (plainly_upd _ _ q); [exact PL|exact E|reflexivity|reflexivity]|]. intro i. destruct (WY i) as (p & R).
    destruct (tr_eff _ _ _ _ _ _ e q (set_q_collect true q) R (uniq_sole _ U) (uniq_bounds _ U) E IX (Z.le_refl _) NO) as (p' & R').
    { apply eff_quiet; reflexivity. }
    exists p'. nc. refine (tr_mono _ _ _ _ _ _ _ _ R'). apply follows_mono; [reflexivity|]. nc. eapply cfgs_upd; eauto.
Qed.

Lemma ways_start n : unvisited n -> (forall k q, get (nt_queues n) k = Some q -> c_class (q_cfg q) <> CResource) -> ways n.
Proof.
  intros UV NR. split.
  - intros k q G. split; [apply (UV _ _ G)|apply (NR _ _ G)].
  - intro i. exists []. split.
    + intros k q G. destruct (UV _ _ G) as (_ & -> & _). reflexivity.
    + intros x [].
    + discriminate.
    + intros p1 x y p2 E. destruct p1; discriminate.
    + intros x [].
    + intros k a [[]|(q & G & X)] ID. left. split; [reflexivity|]. destruct (UV _ _ G) as (_ & _ & _ & Y). rewrite <- ID. symmetry. apply Y; exact X.
    + intros k q G [X|X]; destruct (UV _ _ G) as (_ & _ & (Y1 & Y2) & _); [rewrite Y1 in X|rewrite Y2 in X]; destruct X.
    + auto.
    + auto.
Qed.

Lemma ways_reach n0 n1 n : well_made n0 -> nreach usual n0 n1 -> ways n1 -> nreach recording n1 n -> ways n.
Proof.
  intros W R1 W1 R. induction R as [|n c n' R IH OK H]; [exact W1|].
  assert (RU : nreach usual n0 n).
  { clear - R R1. induction R as [|n c n' R IH OK H]; [exact R1|]. eapply nreach_step; [exact IH|apply OK|exact H]. }
  assert (U := uniq_reach _ _ W RU). destruct (ngood_reach _ _ W RU) as [I _].
  assert (Q : forall k q, get (nt_queues n) k = Some q -> qinv q /\ c_idx (q_cfg q) = k /\ eLe (q_now q) (nt_t n)).
  { intros k q G. assert (K := ni_q _ I _ _ G). split; [apply K|]. split; apply K. }
  destruct OK as ((US & NC) & OK). destruct c as [sel| | |o]; cbn [run_call] in H.
  - unfold initialize_queues in H. mbind H. destruct (length x =? 0)%nat; [discriminate|]. mbind H. mbind H. injection H as <-.
    exact (ways_activate _ _ _ Q U IH E0).
  - congruence.
  - unfold net_copy in H. destruct (nt_init n); [mbind H|]; injection H as <-; exact IH.
  - destruct o as [|b l|l|p|m|b]; cbn [run_nop] in H.
    + apply sim_nst in H; [|exact I]. eapply ways_step; eauto.
    + subst b. apply (ways_collect l n); auto. intros k q G. split; apply (Q _ _ G).
    + destruct OK.
    + injection H as <-. exact IH.
    + injection H as <-. exact IH.
    + injection H as <-. exact IH.
Qed.

Lemma tr_trail n i p : tr (follows n) (nt_t n) (nt_queues n) [] i p -> trail n i p.
Proof.
  intros [A1 A2 A3 A4 A5 A6 A7 A8 A9]. split; auto.
  intros k q a G X ID. destruct (A6 k a ltac:(right; eauto) ID) as [Y|(p0 & x & Y1 & Y2 & Y3 & _)]; [auto|]. right. exists p0, x. auto.
Qed.

Theorem trails n0 n1 n i : well_made n0 -> nreach usual n0 n1 -> unvisited n1 ->
  (forall k q, get (nt_queues n1) k = Some q -> c_class (q_cfg q) <> CResource) -> nreach recording n1 n -> exists p, trail n i p.
Proof.
  intros W R1 UV NR R. destruct (ways_reach _ _ _ W R1 (ways_start _ UV NR) R) as (_ & WY). destruct (WY i) as (p & T). exists p. apply tr_trail; exact T.
Qed.

(** ** The usual beginning: initialize and collect *)

Definition unseen (k : nat) (q : queue) : Prop := q_data q = [] /\ nobody q /\ (forall a, In a (scheduled q) -> fst (ag_id a) = k).

Lemma active_unseen k q q' : qinv q -> c_idx (q_cfg q) = k -> set_active q = Ok q' -> unseen k q -> unseen k q'.
Proof.
  intros I IX H (D & (W & SV) & SC). unfold set_active in H. destruct (q_active q).
  { injection H as <-. split; [exact D|]. split; [split; assumption|exact SC]. }
  unfold add_arrival_self in H. qch H. destruct (c_class (q_cfg q)) eqn:C.
  3:{ injection H as <-. split; [exact D|]. split; [split; assumption|exact SC]. }
  all: apply add_arrival_new_Ok in H; [|apply I|apply I]; qch H; cbv zeta in H;
    destruct H as [(T & ->)|[(T & DT & CI & ->)|(T & DT & a & h & act & -> & I1 & T1 & K1 & B1 & H1 & WH & P & AC)]];
    [split; [exact D|split; [split; assumption|exact SC]]|split; [exact D|split; [split; assumption|exact SC]]|];
    (split; [exact D|split; [split; assumption|]]); intros b X; qch P; qch I1; apply (Permutation_in _ P) in X;
    destruct X as [<-|X]; [rewrite I1; exact IX|apply SC; exact X].
Qed.

Lemma activate_unseen l : forall n n', (forall k q, get (nt_queues n) k = Some q -> qinv q /\ c_idx (q_cfg q) = k /\ unseen k q) -> activate l n = Ok n' ->
  forall k q, get (nt_queues n') k = Some q -> unseen k q.
Proof.
  induction l as [|e l IH]; intros n n' Q H; cbn [activate] in H; [injection H as <-; intros k q G; apply (Q _ _ G)|].
  mbind H. rename x into q. apply queue_at_Ok in E. mbind H. rename x into q'. mbind H. apply set_count_Ok in E1 as [LC ->].
  destruct (Q _ _ E) as (I & IX & US). destruct (active_held _ _ I E0) as (new & P & NW & O & CF). assert (L := get_lt _ _ _ E).
  refine (IH _ _ _ H). nc. intros k q0 G. apply get_upd in G as [[-> ->]|[NE G]]; [|auto|exact L].
  split; [eapply qinv_set_active; eauto|]. split; [congruence|]. apply (active_unseen _ q); auto.
Qed.

Lemma collect_unseen l : forall n n', (forall k q, get (nt_queues n) k = Some q -> unseen k q) -> on_queues (set_q_collect true) l n = Ok n' ->
  (forall k q, get (nt_queues n') k = Some q -> unseen k q) /\ length (nt_queues n') = length (nt_queues n) /\
  forall k q, get (nt_queues n') k = Some q -> In k l \/ (exists q0, get (nt_queues n) k = Some q0 /\ q_collect q0 = true) -> q_collect q = true.
Proof.
  induction l as [|e l IH]; intros n n' Q H; cbn [on_queues] in H.
  { injection H as <-. split; [exact Q|]. split; [reflexivity|]. intros k q G [[]|(q0 & G0 & X)]. congruence. }
  mbind H. rename x into q. apply queue_at_Ok in E. assert (L := get_lt _ _ _ E).
  apply IH in H; [destruct H as (A & B & C)|].
  - split; [exact A|]. split; [rewrite B; nc; apply upd_length|]. intros k qk G X. apply (C _ _ G). nc. destruct X as [[->|X]|(q0 & G0 & X)].
    + right. exists (set_q_collect true q). rewrite get_upd_eq by exact L. split; reflexivity.
    + left; exact X.
    + right. destruct (Nat.eq_dec e k) as [->|NE]; [exists (set_q_collect true q); rewrite get_upd_eq by exact L; split; reflexivity|].
      exists q0. rewrite get_upd_neq by congruence. auto.
  - nc. intros k q0 G. apply get_upd in G as [[-> ->]|[NE G]]; [|auto|exact L]. destruct (Q _ _ E) as (X & Y & Z). split; [exact X|]. split; [exact Y|exact Z].
Qed.

Theorem start_unvisited n0 sel l n1 n2 : well_made n0 -> run_call (KInit sel) n0 = Ok n1 -> run_call (KOp (NCollect true l)) n1 = Ok n2 ->
  (forall k, (k < length (nt_queues n0))%nat -> In k l) -> unvisited n2.
Proof.
  intros W H1 H2 ALL. destruct (ngood_reach n0 n0 W ltac:(constructor)) as [I _].
  cbn [run_call] in H1. unfold initialize_queues in H1. mbind H1. destruct (length x =? 0)%nat; [discriminate|]. mbind H1. mbind H1. injection H1 as <-.
  assert (U : forall k q, get (nt_queues x0) k = Some q -> unseen k q).
  { refine (activate_unseen _ _ _ _ E0). intros k q G. assert (K := ni_q _ I _ _ G). split; [apply K|]. split; [apply K|].
    destruct W as (qs & out & max & bas & junk & u & eps & -> & Q & _). unfold new_net in G. nch G. destruct (Q _ _ G) as (c & s & col & nE & -> & IX & F).
    split; [reflexivity|]. split; [split; reflexivity|]. intros a X. destruct X. }
  assert (LN : length (nt_queues x0) = length (nt_queues n0)).
  { clear -E0. revert E0. generalize (truncate x (nt_max n0)). intro l. revert n0 x0. induction l as [|e l IH]; intros n n' H; cbn [activate] in H; [injection H as <-; reflexivity|].
    mbind H. mbind H. mbind H. apply set_count_Ok in E1 as [LC ->]. apply IH in H. rewrite H. nc. apply upd_length. }
  cbn [run_call run_nop] in H2. nch H2.
  apply (collect_unseen l) in H2; [|nc; exact U]. destruct H2 as (A & B & C). intros k q G. split; [|apply A; exact G].
  apply (C _ _ G). left. apply ALL. apply get_lt in G. rewrite B in G. nch G. lia.
Qed.
