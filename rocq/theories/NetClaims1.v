(** * NetClaims1: time order, conservation, max_agents, places of agents *)
From Coq Require Import List ZArith QArith Lia Bool Permutation Arith.
From Verif Require Import Base Heap HeapProofs PQueue PQueueProofs SpecPQ PQHist Queue QueueEffects QueueEvents QueueSteps QueueInv SpecQueue QueueFlow QueueHist QueueClaims1 Network NetQueue NetSteps NetInv SpecNet NetReach NetFlow.
Import ListNotations.
Open Scope Z_scope.

(** ** Time *)

Lemma in_get {A} (l : list A) x : In x l -> exists k, get l k = Some x.
Proof. intro H. apply In_nth_error in H as (k & H). exists k. exact H. Qed.

Lemma nst_next n n' : ninv n -> nst n n' -> nt_queues n' = nt_queues n \/ next_time (nt_queues n) (nt_t n') /\ nt_t n' <> Inf.
Proof.
  intros I S.
  assert (G0 : forall t k h q, (0 < pq_size (nt_heap n))%nat -> pq_pop (nt_heap n) = Ok (Some (t, k), h) -> get (nt_queues n) k = Some q ->
     q_time q <> Inf -> next_time (nt_queues n) t /\ t <> Inf).
  { intros t k h q SZ PO G NI. destruct (popped _ _ _ _ I SZ PO) as (W & LE & LK & QK & QM & _ & KS & TT & _).
    destruct (TT _ G) as [E|E]; [|congruence]. split; [|congruence]. split.
    - intros q0 IN. apply in_get in IN as (j & GJ). apply (qok_time _ j). apply KS; exact GJ.
    - right. exists q. split; [eapply nth_error_In; exact G|exact E]. }
  destruct S as [SZ ->|t k h q SZ PO G DS ->|t k h q r q' h' SZ PO G DS NX PU LC ->|
    t k h q a h0 l e2 q2 qm q' d h' iu ie td SZ PO G DS DP OUT IN DD G2 NE CA MB RT DE DL NK PU ->|
    t k h q a h0 l e2 q2old b q' q2 q2a r q2' h' iu SZ PO G DS DP OUT IN DD G2 CA NX GE AD NX2 PU LA LB ->]; [left; reflexivity|left; reflexivity|right..];
    unfold after; nc; eapply G0; eauto.
  - apply description_1; [|exact DS]. apply (ni_q _ I _ _ G).
  - apply description_2; [|exact DS]. apply (ni_q _ I _ _ G).
  - apply description_2; [|exact DS]. apply (ni_q _ I _ _ G).
Qed.

Lemma sim_nst n n' : ninv n -> simulate_event n = Ok n' -> nst n n'.
Proof. intros I H. apply simulate_event_Ok; [apply ninv_idx; exact I|exact H]. Qed.

Lemma never_late n0 n : well_made n0 -> nreach usual n0 n ->
  forall q, In q (nt_queues n) -> eLe (q_now q) (nt_t n) /\ eLe (nt_t n) (q_time q).
Proof.
  intros W R q IN. apply ngood_reach in R as [I _]; [|exact W]. apply in_get in IN as (k & G).
  assert (K := ni_q _ I _ _ G). split; [apply K|apply (qok_time _ _ _ K)].
Qed.

Lemma time_order n0 n n' : well_made n0 -> nreach usual n0 n -> simulate_event n = Ok n' ->
  eLe (nt_t n) (nt_t n') /\ (nt_queues n' = nt_queues n \/ next_time (nt_queues n) (nt_t n') /\ nt_t n' <> Inf).
Proof.
  intros W R H. apply ngood_reach in R as [I _]; [|exact W]. apply sim_nst in H; [|exact I].
  split; [apply (ninv_step _ _ I H)|apply nst_next; assumption].
Qed.

Lemma runs_good m : forall n n', ninv n -> nruns m n = Ok n' -> ninv n' /\ eLe (nt_t n) (nt_t n').
Proof.
  induction m as [|m IH]; intros n n' I H; cbn [nruns] in H; [injection H as <-; split; [exact I|apply eLe_refl]|].
  mbind H. apply sim_nst in E; [|exact I]. destruct (ninv_step _ _ I E) as [I1 L1].
  apply IH in H as [I2 L2]; [|exact I1]. split; [exact I2|eapply eLe_trans; eassumption].
Qed.

Lemma clock_runs n0 n m n' : well_made n0 -> nreach usual n0 n -> nruns m n = Ok n' -> eLe (nt_t n) (nt_t n').
Proof. intros W R H. apply ngood_reach in R as [I _]; [|exact W]. apply runs_good in H; [apply H|exact I]. Qed.

(** ** Places of agents *)

Definition bound (qs : list queue) (x : aid) : Prop := exists q, get qs (fst x) = Some q /\ snd x < q_oarr q.

Record uniq (n : net) : Prop := mkUniq {
  un_nodup : NoDup (everyone n);
  un_bound : forall x, In x (everyone n) -> bound (nt_queues n) x
}.

Lemma nodup_l {A} (l l' : list A) : NoDup (l ++ l') -> NoDup l.
Proof.
  induction l as [|x l IH]; intro N; [constructor|]. inversion N; subst. constructor; [|auto].
  intro X. apply H1. apply in_or_app. left; exact X.
Qed.
Lemma nodup_r {A} (l l' : list A) : NoDup (l ++ l') -> NoDup l'.
Proof. induction l as [|x l IH]; intro N; [exact N|]. inversion N; auto. Qed.

Lemma bound_upd qs k q q' x : get qs k = Some q -> q_oarr q <= q_oarr q' -> bound qs x -> bound (upd qs k q') x.
Proof.
  intros G LE (q0 & G0 & B). assert (L := get_lt _ _ _ G). destruct (Nat.eq_dec (fst x) k) as [E|NE].
  - exists q'. rewrite E, get_upd_eq by exact L. split; [reflexivity|]. rewrite E in G0. assert (q0 = q) by congruence. subst. lia.
  - exists q0. rewrite get_upd_neq by exact NE. auto.
Qed.

Lemma transit_flow n n' : transit n n' -> exists new gone,
  Permutation (everyone n ++ new) (everyone n' ++ gone) /\ (length new <= 1)%nat /\ (length gone <= 1)%nat /\
  (new = [] \/ exists k q, get (nt_queues n) k = Some q /\ new = [(k, q_oarr q)]) /\
  (forall x, bound (nt_queues n) x \/ In x new -> bound (nt_queues n') x).
Proof.
  assert (LV : forall q l gone, leaves q l gone -> (length gone <= 1)%nat).
  { intros q l gone [->|(a & -> & _)]; cbn; lia. }
  assert (CM : forall k q new, comes k q new -> (length new <= 1)%nat).
  { intros k q new [->|(-> & _)]; cbn; lia. }
  intros [E|k q q' new gone G E P C O L|k e q q' q2 q2' G G2 NE F CA E P P2 O O2|k e a q q' q2 q2' new gone G IN F CH P G2 P2 E O C O2 CA L].
  - exists [], []. unfold everyone. rewrite E. split; [reflexivity|]. split; [cbn; lia|]. split; [cbn; lia|]. split; [auto|].
    intros x [X|[]]; exact X.
  - exists new, gone. unfold everyone. rewrite E. split; [eapply everyone_upd; eauto|]. split; [eauto|]. split; [eauto|].
    assert (LG := get_lt _ _ _ G). split.
    + destruct C as [->|[-> _]]; [auto|]. right. exists k, q. auto.
    + intros x [X|X]; [eapply bound_upd; eauto; unfold zlen in O; lia|].
      destruct C as [->|[-> _]]; [destruct X|]. destruct X as [<-|[]]. exists q'. cbn [fst snd]. rewrite get_upd_eq by exact LG.
      split; [reflexivity|]. unfold zlen in O. cbn in O. lia.
  - exists [], []. unfold everyone. rewrite E, !app_nil_r. assert (G' : get (upd (nt_queues n) e q2') k = Some q) by (rewrite get_upd_neq by exact NE; exact G).
    split; [|split; [cbn; lia|split; [cbn; lia|split; [auto|]]]].
    + assert (X1 := everyone_upd _ _ _ q2' [] [] G2). rewrite !app_nil_r in X1. rewrite X1 by (rewrite P2; reflexivity).
      assert (X2 := everyone_upd _ _ _ q' [] [] G'). rewrite !app_nil_r in X2. apply X2. exact P.
    + intros x [X|[]]. apply (bound_upd _ _ _ _ _ G'); [lia|]. apply (bound_upd _ _ _ _ _ G2); [lia|exact X].
  - exists new, gone. unfold everyone. rewrite E.
    assert (LG := get_lt _ _ _ G). assert (LG2 := get_lt _ _ _ G2).
    split; [|split; [eauto|split; [|split]]].
    + assert (X1 := everyone_upd _ _ _ q' [] [ag_id a] G). rewrite !app_nil_r in X1. specialize (X1 ltac:(rewrite P; apply Permutation_cons_append)). rewrite X1. rewrite <- app_assoc. cbn [app].
      apply (everyone_upd _ _ _ q2' (ag_id a :: new) gone G2). rewrite <- Permutation_middle. exact P2.
    + destruct L as [L|[_ ->]]; [eauto|cbn; lia].
    + destruct C as [->|[-> _]]; [auto|]. right. destruct (Nat.eq_dec e k) as [->|NE].
      * exists k, q. split; [exact G|]. rewrite get_upd_eq in G2 by exact LG. injection G2 as <-. rewrite O. reflexivity.
      * exists e, q2. rewrite get_upd_neq in G2 by exact NE. auto.
    + intros x [X|X].
      * apply (bound_upd _ _ _ _ _ G2); [unfold zlen in O2; lia|]. apply (bound_upd _ _ _ _ _ G); [lia|exact X].
      * destruct C as [->|[-> _]]; [destruct X|]. destruct X as [<-|[]]. exists q2'. cbn [fst snd]. rewrite get_upd_eq by exact LG2.
        split; [reflexivity|]. unfold zlen in O2. cbn in O2. lia.
Qed.

Lemma uniq_flow n n' new gone : uniq n -> Permutation (everyone n ++ new) (everyone n' ++ gone) ->
  (new = [] \/ exists k q, get (nt_queues n) k = Some q /\ new = [(k, q_oarr q)]) ->
  (forall x, bound (nt_queues n) x \/ In x new -> bound (nt_queues n') x) -> uniq n'.
Proof.
  intros [ND B] P NW BD. split.
  - assert (X : NoDup (everyone n ++ new)).
    { destruct NW as [->|(k & q & G & ->)]; [rewrite app_nil_r; exact ND|].
      apply (Permutation_NoDup (l := (k, q_oarr q) :: everyone n)); [apply Permutation_cons_append|].
      constructor; [|exact ND]. intro X. apply B in X as (q0 & G0 & LT). cbn [fst snd] in *. assert (q0 = q) by congruence. subst. lia. }
    apply (Permutation_NoDup P) in X. apply nodup_l in X. exact X.
  - intros x X. apply BD. assert (Y : In x (everyone n ++ new)).
    { apply (Permutation_in _ (Permutation_sym P)). apply in_or_app. left; exact X. }
    apply in_app_or in Y as [Y|Y]; [left; apply B; exact Y|right; exact Y].
Qed.

Lemma uniq_nothing n : everyone n = [] -> uniq n.
Proof. intro E. split; rewrite E; [constructor|intros x []]. Qed.

Lemma blank_empty n : blank n -> everyone n = [].
Proof.
  intros [_ B]. unfold everyone. assert (G : forall q, In q (nt_queues n) -> held q = []).
  { intros q IN. apply in_get in IN as (k & G). destruct (B _ _ G) as (_ & _ & _ & A & D & L).
    unfold held, scheduled, in_service, waiting, ids. change agents_in with agents_of. rewrite A, D, L. reflexivity. }
  induction (nt_queues n) as [|q qs IH]; [reflexivity|]. cbn. rewrite (G q) by (left; reflexivity). apply IH.
  - intros k q0 GK. exact (B (S k) q0 GK).
  - intros q0 X. apply G. right; exact X.
Qed.

Lemma active_held q q' : qinv q -> set_active q = Ok q' ->
  exists new, Permutation (held q ++ new) (held q') /\ (new = [] \/ new = [(c_idx (q_cfg q), q_oarr q)]) /\ q_oarr q' = q_oarr q + zlen new /\
    q_cfg q' = q_cfg q.
Proof.
  intros I H. destruct (c_class (q_cfg q)) eqn:C.
  3:{ unfold set_active in H. destruct (q_active q); [injection H as <-; exists []; rewrite app_nil_r; unfold zlen; cbn; repeat split; auto; lia|].
      unfold add_arrival_self in H. qch H. rewrite C in H. injection H as <-. exists []. rewrite app_nil_r. unfold zlen. cbn. repeat split; auto; lia. }
  all: assert (N : c_class (q_cfg q) <> CNull) by congruence; clear C;
    assert (E : step OActive q = Ok (None, q')) by (cbn [step run_op]; rewrite H; reflexivity);
    destruct (step_flow OActive q None q' I N Logic.I E) as [SF _];
    assert (F := fo_flow _ SF); cbn beta iota in F; destruct F as (new & st & F & _);
    assert (HH := flow_held _ _ _ _ _ _ _ _ F); cbn [sent1 departed1 turned_away1 app] in HH; rewrite ?app_nil_r in HH;
    exists new; (split; [exact HH|]); destruct (fl_new _ _ _ _ _ _ _ _ F) as [[-> ->]|[-> ->]]; unfold zlen; cbn [length];
    assert (CF := fl_cfg _ _ _ _ _ _ _ _ F); repeat split; auto; lia.
Qed.

Lemma activate_uniq l : forall n n', (forall k q, get (nt_queues n) k = Some q -> qinv q /\ c_idx (q_cfg q) = k) -> uniq n -> activate l n = Ok n' -> uniq n'.
Proof.
  induction l as [|e l IH]; intros n n' Q U H; cbn [activate] in H; [injection H as <-; exact U|].
  mbind H. rename x into q. apply queue_at_Ok in E. mbind H. rename x into q'. mbind H. apply set_count_Ok in E1 as [LC ->].
  destruct (Q _ _ E) as [I IX]. destruct (active_held _ _ I E0) as (new & P & NW & O & CF). assert (L := get_lt _ _ _ E).
  apply IH in H; [exact H| |].
  - nc. intros k q0 G. apply get_upd in G as [[-> ->]|[NE G]]; [|auto|exact L].
    split; [eapply qinv_set_active; eauto|congruence].
  - apply (uniq_flow n _ new []); [exact U| | |].
    + unfold everyone. nc. eapply everyone_upd; [exact E|]. rewrite app_nil_r. exact P.
    + destruct NW as [->| ->]; [auto|]. right. exists e, q. rewrite IX. auto.
    + nc. intros x [X|X].
      * eapply bound_upd; eauto. unfold zlen in O. lia.
      * destruct NW as [->| ->]; [destruct X|]. destruct X as [<-|[]]. exists q'. cbn [fst snd]. rewrite IX, get_upd_eq by exact L.
        split; [reflexivity|]. unfold zlen in O. cbn in O. lia.
Qed.

Lemma on_queues_held f l : (forall q, held (f q) = held q /\ q_oarr (f q) = q_oarr q) -> forall n n', on_queues f l n = Ok n' -> uniq n -> uniq n'.
Proof.
  intro F. induction l as [|e l IH]; intros n n' H U; cbn [on_queues] in H; [injection H as <-; exact U|].
  mbind H. apply queue_at_Ok in E. apply IH in H; [exact H|]. destruct (F x) as [F1 F2].
  apply (uniq_flow n _ [] []); [exact U| |auto|].
  - unfold everyone. nc. eapply everyone_upd; [exact E|]. rewrite F1. reflexivity.
  - nc. intros y [X|[]]. eapply bound_upd; eauto. lia.
Qed.

Lemma uniq_reach n0 n : well_made n0 -> nreach usual n0 n -> uniq n.
Proof.
  intros W R. induction R as [|n c n' R IH US H].
  - destruct (well_made_ok _ W) as (_ & B & _). apply uniq_nothing, blank_empty; exact B.
  - assert (GD := ngood_reach _ _ W R). destruct GD as [I B]. destruct c as [sel| | |o]; cbn [run_call] in H.
    + unfold initialize_queues in H. mbind H. destruct (length x =? 0)%nat; [discriminate|]. mbind H. mbind H. injection H as <-.
      apply activate_uniq in E0; [|intros k q G; split; apply (ni_q _ I _ _ G)|exact IH]. destruct E0; split; assumption.
    + injection H as <-. apply uniq_nothing, blank_empty. apply clear_ok; exact I.
    + unfold net_copy in H. destruct (nt_init n); [mbind H|]; injection H as <-; destruct IH; split; assumption.
    + destruct o as [|b l|l|p|m|b]; cbn [run_nop] in H.
      * apply sim_nst in H; [|exact I]. apply nst_transit in H as [T _]; [|exact I].
        apply transit_flow in T as (new & gone & P & _ & _ & NW & BD). eapply uniq_flow; eauto.
      * eapply on_queues_held; [|exact H|exact IH]. intro q; split; reflexivity.
      * eapply on_queues_held; [|exact H|exact IH]. intro q; split; reflexivity.
      * injection H as <-. destruct IH; split; assumption.
      * injection H as <-. destruct IH; split; assumption.
      * injection H as <-. destruct IH; split; assumption.
Qed.

Lemma step_transit n0 n n' : well_made n0 -> nreach usual n0 n -> simulate_event n = Ok n' -> transit n n'.
Proof.
  intros W R H. apply ngood_reach in R as [I _]; [|exact W]. apply sim_nst in H; [|exact I]. apply nst_transit; assumption.
Qed.

Lemma step_flows n0 n n' : well_made n0 -> nreach usual n0 n -> simulate_event n = Ok n' ->
  exists new gone, Permutation (everyone n ++ new) (everyone n' ++ gone) /\ (length new <= 1)%nat /\ (length gone <= 1)%nat.
Proof.
  intros W R H. apply (step_transit _ _ _ W R) in H. apply transit_flow in H as (new & gone & P & A & B & _). eauto.
Qed.

Lemma counted n0 n k q : well_made n0 -> nreach usual n0 n -> get (nt_queues n) k = Some q ->
  get (nt_nagents n) k = Some (zlen (held q)).
Proof.
  intros W R G. apply ngood_reach in R as [I _]; [|exact W]. rewrite (ni_count _ I _ _ G). f_equal. apply total_held. apply (ni_q _ I _ _ G).
Qed.

Lemma one_place n0 n : well_made n0 -> nreach usual n0 n -> NoDup (everyone n).
Proof. intros W R. apply (uniq_reach _ _ W R). Qed.

(** ** Moves follow the graph *)

Lemma held_everyone qs k q x : get qs k = Some q -> In x (held q) -> In x (flat_map held qs).
Proof. intros G X. apply in_flat_map. exists q. split; [eapply nth_error_In; exact G|exact X]. Qed.

Lemma one_queue qs : NoDup (flat_map held qs) -> forall k e q q2 x, get qs k = Some q -> get qs e = Some q2 -> In x (held q) -> In x (held q2) -> k = e.
Proof.
  induction qs as [|q0 qs IH]; intros ND k e q q2 x G G2 X X2; [destruct k; discriminate|].
  cbn in ND. assert (ND2 := ND). apply nodup_r in ND2.
  assert (DJ : forall y j qj, get qs j = Some qj -> In y (held q0) -> In y (held qj) -> False).
  { intros y j qj GJ Y0 YJ. apply (held_everyone _ _ _ _ GJ) in YJ.
    apply in_split in YJ as (l1 & l2 & E). rewrite E in ND. rewrite app_assoc in ND. apply NoDup_remove_2 in ND. apply ND.
    apply in_or_app. left. apply in_or_app. left; exact Y0. }
  destruct k as [|k], e as [|e]; cbn in G, G2; [reflexivity| | |].
  - injection G as ->. exfalso. eapply DJ; eauto.
  - injection G2 as ->. exfalso. eapply DJ; eauto.
  - f_equal. eapply IH; eauto.
Qed.

Lemma moves_follow n0 n n' k e q q' x : well_made n0 -> nreach usual n0 n -> simulate_event n = Ok n' ->
  get (nt_queues n) k = Some q -> In x (held q) -> get (nt_queues n') e = Some q' -> In x (held q') -> k <> e ->
  follows n k e /\ (exists a, In a (in_service q) /\ ag_id a = x /\ chooses n n' a (c_tgt (q_cfg q)) e) /\
  forall q2, get (nt_queues n) e = Some q2 -> at_capacity q2 = false.
Proof.
  intros W R H G X G' X' NE. assert (U := uniq_reach _ _ W R). assert (ND := un_nodup _ U).
  assert (T := step_transit _ _ _ W R H). clear H.
  assert (OLD : forall q0, get (nt_queues n) e = Some q0 -> In x (held q0) -> False).
  { intros q0 G0 X0. apply NE. eapply one_queue; eauto. }
  assert (FRESH : forall j qj, get (nt_queues n) j = Some qj -> x <> (j, q_oarr qj)).
  { intros j qj GJ ->. assert (Y := held_everyone _ _ _ _ G X). apply (un_bound _ U) in Y as (q0 & G0 & LT). cbn [fst snd] in *.
    assert (q0 = qj) by congruence. subst. lia. }
  destruct T as [E|k0 q0 q0' new gone G0 E P C O L|k0 e0 q0 q0' q2 q2' G0 G2 NE0 F CA E P P2 O O2|k0 e0 a q0 q0' q2 q2' new gone G0 IN F CH P G2 P2 E O C O2 CA L].
  - rewrite E in G'. exfalso. eapply OLD; eauto.
  - rewrite E in G'. apply get_upd in G' as [[-> ->]|[NE' G']]; [|exfalso; eapply OLD; eauto|eapply get_lt; exact G0].
    exfalso. assert (Y : In x (held q0 ++ new)) by (apply (Permutation_in _ (Permutation_sym P)); apply in_or_app; left; exact X').
    apply in_app_or in Y as [Y|Y]; [eapply OLD; eauto|]. destruct C as [->|[-> _]]; [destruct Y|]. destruct Y as [Y|[]]. eapply FRESH; [exact G0|auto].
  - rewrite E in G'. apply get_upd in G' as [[-> ->]|[NE' G']]; [| |rewrite upd_length; eapply get_lt; exact G0].
    + exfalso. eapply OLD; [exact G0|]. apply (Permutation_in _ (Permutation_sym P)). exact X'.
    + exfalso. apply get_upd in G' as [[-> ->]|[NE'' G']]; [|eapply OLD; eauto|eapply get_lt; exact G2].
      eapply OLD; [exact G2|]. rewrite P2. exact X'.
  - rewrite E in G'. assert (L2 := get_lt _ _ _ G2). assert (L0 := get_lt _ _ _ G0).
    assert (K0 : forall y, In y (held q0') -> In y (held q0)) by (intros y Y; apply (Permutation_in _ (Permutation_sym P)); right; exact Y).
    apply get_upd in G' as [[-> ->]|[NE' G']]; [| |exact L2].
    + assert (Y : In x (ag_id a :: held q2 ++ new)) by (apply (Permutation_in _ (Permutation_sym P2)); apply in_or_app; left; exact X').
      destruct Y as [Y|Y].
      * assert (k0 = k); [|subst k0; assert (q0 = q) by congruence; subst q0; split; [exact F|]; split; [exists a; auto|]; intros q3 G3; rewrite get_upd_neq in G2 by congruence; destruct CA as [CA|CA]; congruence].
        eapply one_queue; [exact ND|exact G0|exact G| |exact X].
        apply (Permutation_in _ (Permutation_sym P)). left; exact Y.
      * exfalso. apply in_app_or in Y as [Y|Y].
        -- apply get_upd in G2 as [[-> ->]|[N2 G2]]; [|eapply OLD; eauto|exact L0]. eapply OLD; [exact G0|apply K0; exact Y].
        -- destruct C as [->|[-> _]]; [destruct Y|]. destruct Y as [Y|[]].
           apply get_upd in G2 as [[-> ->]|[N2 G2]]; [|eapply FRESH; [exact G2|auto]|exact L0]. eapply FRESH; [exact G0|]. rewrite <- O. auto.
    + exfalso. apply get_upd in G' as [[-> ->]|[NE'' G']]; [|eapply OLD; eauto|exact L0].
      eapply OLD; [exact G0|apply K0; exact X'].
Qed.

(** ** max_agents *)

Lemma zsum_upd l k x y : get l k = Some x -> zsum (upd l k y) = zsum l - x + y.
Proof.
  revert k; induction l as [|z l IH]; intros [|k] G; try discriminate; cbn in G; unfold zsum in *; cbn [upd fold_right]; [injection G as ->; lia|]. rewrite (IH k) by exact G. lia.
Qed.

Lemma zlen_perm {A} (l l' : list A) : Permutation l l' -> zlen l = zlen l'.
Proof. intro P. unfold zlen. rewrite (Permutation_length P). reflexivity. Qed.
Lemma zlen_app {A} (l l' : list A) : zlen (l ++ l') = zlen l + zlen l'.
Proof. unfold zlen. rewrite app_length. lia. Qed.
Lemma zlen_cons {A} (x : A) l : zlen (x :: l) = zlen l + 1.
Proof. unfold zlen. cbn. lia. Qed.
Lemma zlen_nil {A} : zlen (@nil A) = 0.
Proof. reflexivity. Qed.
Lemma zlen_pos {A} (l : list A) : 0 <= zlen l.
Proof. unfold zlen. lia. Qed.

Definition within (n : net) : Prop := eLe (Fin (zsum (nt_nagents n))) (nt_max n).

Lemma within_step n n' : ninv n -> within n -> nst n n' -> within n' /\ nt_max n' = nt_max n.
Proof.
  intros I WI S. assert (I' := proj1 (ninv_step _ _ I S)).
  destruct S as [SZ ->|t k h q SZ PO G DS ->|t k h q r q' h' SZ PO G DS NX PU LC ->|
    t k h q a h0 l e2 q2 qm q' d h' iu ie td SZ PO G DS DP OUT IN DD G2 NE CA MB RT DE DL NK PU ->|
    t k h q a h0 l e2 q2old b q' q2 q2a r q2' h' iu SZ PO G DS DP OUT IN DD G2 CA NX GE AD NX2 PU LA LB ->];
    (split; [|reflexivity]); unfold within, after in *; nc; [exact WI|exact WI| |exact WI|].
  - destruct (popped _ _ _ _ I SZ PO) as (W & LE & LK & QK & QM & _ & KS & TT & HB & _).
    assert (K := KS _ _ G). assert (I1 := qinv_stopped (nt_max n) (nt_nagents n) q (qk_inv _ _ _ K)).
    assert (DS1 := DS). rewrite <- (stopped_desc (nt_max n) (nt_nagents n)) in DS1.
    assert (I2 := qinv_next _ _ _ I1 NX).
    destruct (arr_event _ _ _ I1 DS1 NX) as (_ & _ & new & gone & HH & NW & _).
    rewrite stopped_held in HH. apply zlen_perm in HH. rewrite !zlen_app in HH.
    assert (TQ := total_held _ (qk_inv _ _ _ K)). assert (TQ' := total_held _ I2).
    rewrite (qk_idx _ _ _ K), (zsum_upd _ _ _ _ (ni_count _ I _ _ G)). assert (GP := zlen_pos gone).
    destruct (nt_max n) as [m|]; cbn [eLe] in *; [|exact Logic.I].
    destruct NW as [[-> _]|(-> & _ & NA)].
    + rewrite ?zlen_cons, ?zlen_nil in HH. lia.
    + apply stopped_active in NA as [_ NA]. rewrite ?zlen_cons, ?zlen_nil in HH. lia.
  - destruct (popped _ _ _ _ I SZ PO) as (W & LE & LK & QK & QM & _ & KS & TT & HB & _).
    assert (K := KS _ _ G). destruct (description_2 _ (qk_inv _ _ _ K) DS) as (NN & _ & _ & FI).
    assert (TQ : q_time q = t) by (destruct (TT _ G); [assumption|congruence]). assert (FT : t <> Inf) by congruence.
    destruct (dep_event _ _ _ _ _ (qk_inv _ _ _ K) DS DP NX) as (b0 & EB & IDB & _ & HH & _ & _ & _ & TO & _).
    destruct (qok_next t k _ _ _ K TQ FT NX) as (K' & _).
    assert (K2 : qok t e2 q2).
    { apply get_upd in GE as [[-> ->]|[NE GE]]; [exact K'|apply KS; exact GE|exact LK]. }
    destruct (enter_event _ _ _ _ _ _ _ _ _ K2 FT (eq_refl : ag_time (set_ag_time t b) = t) AD NX2) as (new & gone & HE & NW & GO).
    destruct (qok_enter _ _ _ _ _ _ _ _ _ K2 FT (eq_refl : ag_time (set_ag_time t b) = t) AD NX2) as (K2' & _).
    apply zlen_perm in HE. rewrite zlen_cons, !zlen_app in HE.
    assert (T2 := total_held _ (qk_inv _ _ _ K2)). assert (T2' := total_held _ (qk_inv _ _ _ K2')).
    assert (C1 : get (upd (nt_nagents n) k (q_total q')) e2 = Some (q_total q2)).
    { apply get_upd in GE as [[-> ->]|[NE2 GE]]; [apply get_upd_eq; exact LA| |exact LK].
      rewrite get_upd_neq by exact NE2. apply (ni_count _ I _ _ GE). }
    rewrite (zsum_upd _ _ _ _ C1), (zsum_upd _ _ _ _ (ni_count _ I _ _ G)). assert (GP := zlen_pos gone).
    destruct (nt_max n) as [m|]; cbn [eLe] in *; [|exact Logic.I].
    destruct NW as [[-> _]|(-> & _ & _ & NA)].
    + rewrite ?zlen_cons, ?zlen_nil in HE. lia.
    + rewrite (zsum_upd _ _ _ _ C1), (zsum_upd _ _ _ _ (ni_count _ I _ _ G)) in NA. rewrite ?zlen_cons, ?zlen_nil in HE.
      assert (TA : q_total q2a >= q_total q2 + 1 \/ gone <> []).
      { destruct (c_class (q_cfg q2)) eqn:C2.
        3:{ right. destruct GO as [[->|(a0 & -> & _)]|[_ ->]]; try discriminate. exfalso.
            apply add_arrival_null in AD as (d & -> & _); [|exact C2].
            assert (q2' = stopped (Fin m) (upd (upd (nt_nagents n) k (q_total q')) e2 (q_total (set_q_data d q2))) (set_q_data d q2)).
            { unfold next_event in NX2. rewrite cfg_stopped in NX2. cbn [q_cfg set_q_data] in NX2. rewrite C2 in NX2. injection NX2 as _ <-. reflexivity. }
            assert (HX : held q2' = held q2) by (subst q2'; rewrite stopped_held; reflexivity). rewrite HX in HE. unfold zlen in HE. cbn [length] in HE. lia. }
        all: left; destruct (add_pend _ _ _ (qk_inv _ _ _ K2) ltac:(congruence) AD) as (_ & _ & _ & _ & ->); lia. }
      destruct TA as [TA|TA]; [lia|]. assert (zlen gone >= 1) by (destruct gone; [congruence|unfold zlen; cbn; lia]). lia.
Qed.

Lemma activate_within l : forall n n', (forall k q, get (nt_queues n) k = Some q -> qok (nt_t n) k q /\ get (nt_nagents n) k = Some (q_total q)) ->
  length (nt_nagents n) = length (nt_queues n) -> calm n ->
  activate l n = Ok n' -> zsum (nt_nagents n') <= zsum (nt_nagents n) + zlen l.
Proof.
  induction l as [|e l IH]; intros n n' Q LN CA H; cbn [activate] in H; [injection H as <-; unfold zlen; cbn; lia|].
  assert (H0 : activate [e] n = Ok (let n1 := n in n1) \/ True) by (right; exact Logic.I). clear H0.
  mbind H. rename x into q. apply queue_at_Ok in E. mbind H. rename x into q'. mbind H. apply set_count_Ok in E1 as [LC ->].
  destruct (Q _ _ E) as [K CN]. assert (L := get_lt _ _ _ E).
  destruct (active_held _ _ (qk_inv _ _ _ K) E0) as (new & P & NW & O & CF).
  assert (CALM : calm (set_nt_nagents (upd (nt_nagents (put_queue e q' n)) e (q_total q')) (put_queue e q' n))).
  { apply (activate_ok [e] n); [exact CA|]. cbn [activate]. unfold queue_at. rewrite E. cbn [of_option bind]. rewrite E0. cbn [bind].
    unfold set_count. rewrite set_upd by exact LC. reflexivity. }
  apply IH in H; [| |nc; rewrite !upd_length; exact LN|exact CALM].
  - nch H. rewrite (zsum_upd _ _ _ _ CN) in H. rewrite zlen_cons.
    assert (T := total_held _ (qk_inv _ _ _ K)). assert (T' := total_held _ (qinv_set_active _ _ (qk_inv _ _ _ K) E0)).
    apply zlen_perm in P. rewrite zlen_app in P. destruct NW as [->| ->]; rewrite ?zlen_cons, ?zlen_nil in P; lia.
  - destruct CALM as [D1 D2 D3 D4 D5]. intros k q0 G. split; [rewrite D2; apply D3; exact G|apply D4; exact G].
Qed.

Lemma truncate_len {A} (l : list A) m : 0 <= m -> zlen (truncate l (Fin m)) <= m.
Proof.
  intro P. unfold truncate. destruct (m <? Z.of_nat (length l)) eqn:C; [|apply Z.ltb_ge in C; exact C].
  unfold slice_to. destruct (0 <=? m) eqn:D; [|apply Z.leb_gt in D; lia]. unfold zlen. rewrite firstn_length. lia.
Qed.

Lemma zsum_zero l : (forall k x, get l k = Some x -> x = 0) -> zsum l = 0.
Proof. induction l as [|z l IH]; intro H; [reflexivity|]. change (z + zsum l = 0). rewrite (H 0%nat z eq_refl), IH; [reflexivity|]. intros k x G. exact (H (S k) x G). Qed.

Lemma blank_sum n : ninv n -> blank n -> zsum (nt_nagents n) = 0.
Proof.
  intros I [_ B]. apply zsum_zero. intros k x G. destruct (get_ex (nt_queues n) k) as (q & GQ); [rewrite <- (ni_len _ I); eapply get_lt; exact G|].
  assert (C := ni_count _ I _ _ GQ). rewrite C in G. injection G as <-. apply (B _ _ GQ).
Qed.

Lemma zsum_pos l : (forall k x, get l k = Some x -> 0 <= x) -> 0 <= zsum l.
Proof. induction l as [|z l IH]; intro H; [cbn; lia|]. change (0 <= z + zsum l). assert (X := H 0%nat z eq_refl). assert (0 <= zsum l); [|lia]. apply IH. intros k x G. exact (H (S k) x G). Qed.

Lemma sum_pos n : ninv n -> 0 <= zsum (nt_nagents n).
Proof.
  intro I. apply zsum_pos. intros k x G. destruct (get_ex (nt_queues n) k) as (q & GQ); [rewrite <- (ni_len _ I); eapply get_lt; exact G|].
  assert (C := ni_count _ I _ _ GQ). rewrite C in G. injection G as <-. rewrite total_held by apply (ni_q _ I _ _ GQ). apply zlen_pos.
Qed.

Lemma on_queues_same f l : forall n n', on_queues f l n = Ok n' ->
  nt_nagents n' = nt_nagents n /\ nt_max n' = nt_max n /\ nt_out n' = nt_out n /\ nt_heap n' = nt_heap n /\ nt_t n' = nt_t n /\ nt_probs n' = nt_probs n.
Proof.
  induction l as [|e l IH]; intros n n' H; cbn [on_queues] in H; [injection H as <-; auto 8|].
  mbind H. apply IH in H. nch H. exact H.
Qed.

Lemma max_respected n0 n : well_made n0 -> eLe (Fin 0) (nt_max n0) -> nreach roomy n0 n -> eLe (Fin (zsum (nt_nagents n))) (nt_max n).
Proof.
  intros W M0 R. assert (G : nreach usual n0 n /\ within n /\ eLe (Fin 0) (nt_max n)); [|apply G].
  induction R as [|n c n' R IH [US RM] H].
  - destruct (well_made_ok _ W) as (I & B & _). split; [constructor|]. unfold within. rewrite (blank_sum _ I B). auto.
  - destruct IH as (RU & WI & MP). split; [econstructor; eauto|]. destruct (ngood_reach _ _ W RU) as [I B].
    destruct c as [sel| | |o]; cbn [run_call] in H.
    + cbn [usual] in US. assert (BL := B US).
      unfold initialize_queues in H. mbind H. destruct (length x =? 0)%nat; [discriminate|]. mbind H. rename x0 into n1. mbind H. injection H as <-. unfold within. nc.
      destruct (activate_same _ _ _ E0) as (_ & _ & _ & _ & _ & MX & _). rewrite MX. split; [|exact MP].
      destruct (nt_max n) as [m|] eqn:EM; [|exact Logic.I]. cbn [eLe] in *.
      apply activate_within in E0; [|intros k q G; split; [apply (ni_q _ I _ _ G)|apply (ni_count _ I _ _ G)]|apply I|].
      * rewrite (blank_sum _ I BL) in E0. assert (X := truncate_len x m MP). lia.
      * destruct BL as [BT BQ]. split; [apply I|exact BT| |apply I|apply I]. intros k q G. split; [|apply (BQ k q G)]. rewrite <- BT. apply (ni_q _ I _ _ G).
    + injection H as <-. destruct (clear_ok _ I) as [I' B']. unfold within. rewrite (blank_sum _ I' B'). auto.
    + unfold net_copy in H. destruct (nt_init n); [mbind H|]; injection H as <-; auto.
    + destruct o as [|b l|l|p|m|b]; cbn [run_nop] in H.
      * apply sim_nst in H; [|exact I]. apply within_step in H as [X Y]; auto. rewrite Y. auto.
      * apply on_queues_same in H as (X & Y & _). unfold within. rewrite X, Y. auto.
      * apply on_queues_same in H as (X & Y & _). unfold within. rewrite X, Y. auto.
      * injection H as <-. auto.
      * injection H as <-. unfold within. nc. specialize (RM m eq_refl). split; [exact RM|].
        eapply eLe_trans; [|exact RM]. cbn. apply sum_pos; exact I.
      * injection H as <-. auto.
Qed.
