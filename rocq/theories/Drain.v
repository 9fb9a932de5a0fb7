(** * Drain: a network whose queues are off empties itself *)
From Coq Require Import List ZArith QArith Lia Bool Permutation Arith.
From Verif Require Import Base Heap HeapProofs PQueue PQueueProofs SpecPQ PQHist Queue QueueEffects QueueEvents QueueSteps QueueInv SpecQueue QueueFlow QueueHist QueueClaims1 QueueClaims2 QueueClaims3 Network NetQueue NetSteps NetInv SpecNet NetReach NetFlow NetClaims1 NetClaims2 NetTotal NetActive SpecRefine NetStop PropsNet2 SpecLock LockProofs LockFree Switch SpecDrain.
Import ListNotations.
Open Scope Z_scope.

(** ** The scheduler *)

Lemma push_size h t k h' : pq_push h t k = Ok h' -> pq_size h' = Datatypes.S (pq_size h).
Proof. unfold pq_push. intro H. mbind H. mbind H. mbind H. injection H as <-. reflexivity. Qed.
Lemma pushes_size h l h' : pushes h l h' -> pq_size h' = (pq_size h + length l)%nat.
Proof. induction 1 as [h|h t k h1 l h' P _ IH]; [cbn; lia|]. apply push_size in P. cbn [length]. lia. Qed.
Lemma key_list_short k e q1 q2 old : (length (key_list k e q1 q2 old) <= 2)%nat.
Proof. unfold key_list. destruct (negb _); [destruct (_ && _)|destruct (eltb _ _)]; cbn [length]; lia. Qed.
Lemma pop_size n t k h : ninv n -> (0 < pq_size (nt_heap n))%nat -> pq_pop (nt_heap n) = Ok (Some (t, k), h) -> (pq_size h < pq_size (nt_heap n))%nat.
Proof.
  intros I SZ PO. destruct (popped _ _ _ _ I SZ PO) as (W & _ & _ & _ & _ & (dr & PM) & _).
  destruct (ni_heap _ I) as [[X _]|[W0 _]]; [lia|]. apply Permutation_length in PM. cbn [length] in PM. rewrite app_length in PM.
  rewrite !pq_entries_length in PM; [lia| |]; [assert (Z := wf_size _ _ W); assert (Z2 := wf_store _ _ W)|assert (Z := wf_size _ _ W0); assert (Z2 := wf_store _ _ W0)]; lia.
Qed.

(** ** Loads *)

Lemma loads_upd r q' : forall qs j k q, get qs k = Some q ->
  loads r j (upd qs k q') = loads r j qs - load r (j + k) q + load r (j + k) q'.
Proof.
  induction qs as [|q0 qs IH]; intros j [|k] q G; try discriminate; cbn [upd loads].
  - injection G as ->. rewrite Nat.add_0_r. lia.
  - rewrite (IH (Datatypes.S j) k q G). replace (Datatypes.S j + k)%nat with (j + Datatypes.S k)%nat by lia. lia.
Qed.
Lemma load_pos r k q : 0 <= load r k q.
Proof. unfold load. assert (A := zlen_pos (held q)). assert (B := zlen_pos (scheduled q)). nia. Qed.
Lemma loads_pos r : forall qs k, 0 <= loads r k qs.
Proof. induction qs as [|q qs IH]; intro k; cbn [loads]; [lia|]. assert (A := load_pos r k q). specialize (IH (Datatypes.S k)). lia. Qed.

(** ** One queue that is off *)

Lemma off_less q r q' : qinv q -> c_class (q_cfg q) <> CNull -> q_active q = false -> next_event q = Ok (r, q') ->
  zlen (held q) = zlen (held q') + zlen (departed1 (ONext, q, r, q')) + zlen (turned_away1 (ONext, q, r, q')) /\
  zlen (scheduled q) = zlen (scheduled q') + zlen (admitted1 (ONext, q, r, q')) + zlen (turned_away1 (ONext, q, r, q')).
Proof.
  intros I N A H. destruct (off_next _ _ _ I H A) as (_ & _ & OA). destruct (step_Next_flow _ _ _ I N H) as [(new & st & FL & _) _ _ _].
  assert (FH := flow_held _ _ _ _ _ _ _ _ FL). destruct FL as [F1 _ _ F4 _].
  assert (NW : new = []) by (destruct F4 as [[X _]|[_ X]]; [exact X|lia]). subst new. cbn [sent1 app] in F1, FH. rewrite !app_nil_r in *.
  apply zlen_perm in F1. apply zlen_perm in FH. rewrite !zlen_app, ?zlen_ids in *. lia.
Qed.

Lemma off_load q r q' w k : qinv q -> c_class (q_cfg q) <> CNull -> q_active q = false -> next_event q = Ok (r, q') -> load w k q' <= load w k q.
Proof.
  intros I N A H. destruct (off_less _ _ _ I N A H) as [X Y]. unfold load.
  assert (P1 := zlen_pos (departed1 (ONext, q, r, q'))). assert (P2 := zlen_pos (turned_away1 (ONext, q, r, q'))). assert (P3 := zlen_pos (admitted1 (ONext, q, r, q'))). nia.
Qed.

Lemma off_load_arr q r q' w k : qinv q -> q_active q = false -> next_event_description q = Ok 1 -> next_event q = Ok (r, q') -> load w k q' <= load w k q - 1.
Proof.
  intros I A DS H. destruct (description_1 _ I DS) as (N & LE & TQ & TI). destruct (off_less _ _ _ I N A H) as [X Y]. unfold load.
  assert (P1 := zlen_pos (departed1 (ONext, q, r, q'))). assert (P2 := zlen_pos (turned_away1 (ONext, q, r, q'))). assert (P3 := zlen_pos (admitted1 (ONext, q, r, q'))).
  assert (Z : zlen (admitted1 (ONext, q, r, q')) + zlen (turned_away1 (ONext, q, r, q')) = 1).
  { unfold admitted1, turned_away1, arriving. rewrite DS. destruct (wfh_nonempty _ (qi_arr _ I)) as (i & h & QA). rewrite QA in *. destruct i as [|a].
    - exfalso. apply TI. rewrite TQ. reflexivity.
    - destruct (q_nsys q' =? q_nsys q + 1); reflexivity. }
  nia.
Qed.

Definition finite_draws (q : queue) : Prop := (forall i z, c_arr (q_cfg q) i (Fin z) <> Inf) /\ (forall i z, c_srv (q_cfg q) i (Fin z) <> Inf).

Lemma fin_next q r q' : qinv q -> finite_draws q -> finite_times q -> next_event q = Ok (r, q') -> finite_times q'.
Proof.
  intros I [FA FS] FT H. destruct (next_drawn _ _ _ I H) as [(_ & -> & _)|(_ & TF & rest & new & P1 & P2 & DR & _)]; [exact FT|].
  intros x X. apply (Permutation_in _ P2) in X. apply in_app_or in X as [X|X].
  - destruct (q_time q) as [z|] eqn:TQ; [|congruence]. destruct (DR _ X) as (k & [->| ->]); rewrite TQ; auto.
  - apply FT. apply (Permutation_in _ (Permutation_sym P1)). right. exact X.
Qed.

(** Somebody comes over. *)
Lemma enter_less s k q a q1 r q2 w : qok s k q -> q_active q = false -> finite_draws q -> finite_times q -> s <> Inf -> ag_time a = s ->
  add_arrival a q = Ok q1 -> next_event q1 = Ok (r, q2) ->
  finite_times q2 /\ load w k q2 <= load w k q + 2 * Z.of_nat (w k) + 1.
Proof.
  intros K A FD FT NI TA AD NX. destruct (c_class (q_cfg q)) eqn:C.
  3:{ apply add_arrival_null in AD as (d & -> & _); [|exact C]. unfold next_event in NX. cbn [q_cfg set_q_data] in NX. rewrite C in NX. injection NX as _ <-.
      split; [exact FT|]. change (load w k (set_q_data d q)) with (load w k q). lia. }
  all: assert (N : c_class (q_cfg q) <> CNull) by congruence; assert (I1 := qk_inv _ _ _ K);
    destruct (add_pend _ _ _ I1 N AD) as (P1 & _ & _ & A1 & _); assert (IV := qinv_add_arrival _ _ _ I1 AD);
    destruct (add_held _ _ _ I1 N AD) as (PH & _ & _ & CF);
    assert (SC : zlen (scheduled q1) = zlen (scheduled q) + 1) by
      (apply add_arrival_Ok in AD as (h & -> & _ & P); [|exact N|apply I1|apply I1]; unfold scheduled; change agents_in with agents_of; qc; apply zlen_perm in P; rewrite P; unfold zlen; cbn [length]; lia);
    apply zlen_perm in PH; assert (HL : zlen (ag_id a :: held q) = zlen (held q) + 1) by (unfold zlen; cbn [length]; lia); rewrite HL in PH;
    (split; [eapply fin_next; [exact IV|unfold finite_draws; rewrite CF; exact FD| |exact NX];
       intros x X; apply (Permutation_in x P1) in X; destruct X as [<-|X]; [congruence|apply FT; exact X]|]);
    assert (L := off_load q1 r q2 w k IV ltac:(congruence) ltac:(congruence) NX); unfold load in *; rewrite PH, SC in L; nia.
Qed.

(** ** One event *)

Definition timely (n : net) : Prop := forall k q, get (nt_queues n) k = Some q -> finite_times q.

Lemma closing_staffed n : closing n -> staffed n.
Proof.
  intros C k q G. destruct (C k q G) as (_ & CL & _ & FS). split; [destruct CL as [[-> _]| ->]; discriminate|].
  split; [intros [X|X]; destruct CL as [[CL _]|CL]; congruence|]. intros i [z|] T; [apply FS|congruence].
Qed.
Lemma closing_room n k q : closing n -> get (nt_queues n) k = Some q -> at_capacity q = false.
Proof. intros C G. destruct (C k q G) as (_ & CL & _). unfold at_capacity. destruct CL as [[-> _]| ->]; reflexivity. Qed.
Lemma timely_ending n k q : timely n -> get (nt_queues n) k = Some q -> ending q.
Proof. intros T G a A. apply (T _ _ G). unfold pend. apply in_or_app. right. apply in_map. exact A. Qed.

Lemma step_less r n n' : ninv n -> closing n -> timely n -> downward r n -> nst n n' ->
  closing n' /\ timely n' /\ downward r n' /\
  (pq_size (nt_heap n) = 0%nat /\ pq_size (nt_heap n') = 0%nat /\ nt_queues n' = nt_queues n /\ nt_t n' = Inf \/
   3 * loads r 0 (nt_queues n') + Z.of_nat (pq_size (nt_heap n')) < 3 * loads r 0 (nt_queues n) + Z.of_nat (pq_size (nt_heap n))).
Proof.
  intros I C T D S.
  assert (KP : keeps n n').
  { refine (proj1 (step_kept n n' I (closing_staffed _ C) _ (fun k q => timely_ending n k q T) S)).
    intros k q G X. rewrite (closing_room _ _ _ C G) in X. discriminate. }
  split; [|split; [|split]].
  - intros k q' G'. destruct (keeps_back _ _ KP _ _ G') as (q & G & A & B & _). destruct (C k q G) as (C1 & C2).
    split; [apply (off_nst _ _ _ _ _ I S G G'); exact C1|]. rewrite A, B. exact C2.
  - destruct S as [SZ ->|t k h q SZ PO G DS ->|t k h q b q' h' SZ PO G DS NX PU LC ->|
      t k h q a h0 l e2 q2 qm q' d h' iu ie td SZ PO G DS DP OUT IN DD G2 NE CA MB RT DE DL NK PU ->|
      t k h q a h0 l e2 q2old b q' q2 q2a o q2' h' iu SZ PO G DS DP OUT IN DD G2 CA NX GE AD NX2 PU LA LB ->]; [exact T|exact T| |rewrite (closing_room _ _ _ C G2) in CA; discriminate|].
    + destruct (popped _ _ _ _ I SZ PO) as (W & LE & LK & QK & QM & _ & KS & TT & HB & _). unfold timely, after. nc.
      intros j qj GJ. apply get_upd in GJ as [[-> ->]|[X GJ]]; [|exact (T _ _ GJ)|exact LK].
      destruct (C _ _ G) as (A & _ & FD). rewrite off_stopped in NX by exact A. eapply fin_next; [apply (KS _ _ G)|exact FD|exact (T _ _ G)|exact NX].
    + destruct (popped _ _ _ _ I SZ PO) as (W & LE & LK & QK & QM & _ & KS & TT & HB & _). assert (K := KS _ _ G).
      destruct (description_2 _ (qk_inv _ _ _ K) DS) as (N & LT & _ & FI).
      assert (TQ : q_time q = t) by (destruct (TT _ G); [assumption|congruence]). assert (NI : t <> Inf) by congruence.
      destruct (qok_next t k _ _ _ K TQ NI NX) as (K' & _). destruct (C _ _ G) as (A & _ & FD).
      assert (F' := fin_next _ _ _ (qk_inv _ _ _ K) FD (T _ _ G) NX).
      assert (CF := next_cfg _ _ _ (qk_inv _ _ _ K) NX). destruct (off_next _ _ _ (qk_inv _ _ _ K) NX A) as (A' & _).
      assert (K2 : qok t e2 q2 /\ q_active q2 = false /\ finite_draws q2 /\ finite_times q2).
      { apply get_upd in GE as [[-> ->]|[X GE]]; [split; [exact K'|split; [exact A'|split; [unfold finite_draws; rewrite CF; exact FD|exact F']]]| |exact LK].
        destruct (C _ _ GE) as (B1 & _ & B2). split; [apply KS; exact GE|]. split; [exact B1|]. split; [exact B2|exact (T _ _ GE)]. }
      destruct K2 as (K2 & B1 & B2 & B3).
      assert (A2 : q_active q2a = false) by (apply (off_op (OArrive (set_ag_time t b)) q2 q2a (qk_inv _ _ _ K2) Logic.I ltac:(discriminate) AD B1)).
      rewrite off_stopped in NX2 by exact A2.
      destruct (enter_less t e2 q2 (set_ag_time t b) q2a o q2' r K2 B1 B2 B3 NI eq_refl AD NX2) as [F2 _].
      unfold timely, after. nc. intros j qj GJ. apply get_upd in GJ as [[-> ->]|[X GJ]]; [exact F2| |rewrite upd_length; eapply get_lt; exact G2].
      apply get_upd in GJ as [[-> ->]|[X' GJ]]; [exact F'|exact (T _ _ GJ)|exact LK].
  - intros k e q' G' N F. destruct (keeps_back _ _ KP _ _ G') as (q & G & A & _). apply (D k e q G); [rewrite <- A; exact N|]. apply (keeps_follows _ _ KP). exact F.
  - destruct S as [SZ ->|t k h q SZ PO G DS ->|t k h q b q' h' SZ PO G DS NX PU LC ->|
      t k h q a h0 l e2 q2 qm q' d h' iu ie td SZ PO G DS DP OUT IN DD G2 NE CA MB RT DE DL NK PU ->|
      t k h q a h0 l e2 q2old b q' q2 q2a o q2' h' iu SZ PO G DS DP OUT IN DD G2 CA NX GE AD NX2 PU LA LB ->].
    + left. auto.
    + right. assert (Z := pop_size _ _ _ _ I SZ PO). unfold after. nc. lia.
    + right. assert (Z := pop_size _ _ _ _ I SZ PO). unfold after. nc. apply pushes_size in PU.
      assert (LL : (length (if eltb (q_time q') Inf then [qkey q'] else []) <= 1)%nat) by (destruct (eltb _ _); cbn [length]; lia).
      destruct (popped _ _ _ _ I SZ PO) as (W & LE & LK & QK & QM & _ & KS & TT & HB & _).
      destruct (C _ _ G) as (A & _). rewrite off_stopped in NX by exact A.
      assert (L := off_load_arr _ _ _ r k (qk_inv _ _ _ (KS _ _ G)) A DS NX). rewrite (loads_upd r q' _ 0%nat k q G). cbn [Nat.add]. lia.
    + rewrite (closing_room _ _ _ C G2) in CA; discriminate.
    + right. assert (Z := pop_size _ _ _ _ I SZ PO). unfold after. nc. apply pushes_size in PU.
      match type of PU with context [key_list ?a ?b ?c ?d ?e] => assert (LL := key_list_short a b c d e) end.
      destruct (popped _ _ _ _ I SZ PO) as (W & LE & LK & QK & QM & _ & KS & TT & HB & _). assert (K := KS _ _ G).
      destruct (description_2 _ (qk_inv _ _ _ K) DS) as (N & LT & _ & FI).
      assert (TQ : q_time q = t) by (destruct (TT _ G); [assumption|congruence]). assert (NI : t <> Inf) by congruence.
      destruct (qok_next t k _ _ _ K TQ NI NX) as (K' & _). destruct (C _ _ G) as (A & _ & FD).
      assert (F' := fin_next _ _ _ (qk_inv _ _ _ K) FD (T _ _ G) NX).
      assert (CF := next_cfg _ _ _ (qk_inv _ _ _ K) NX). destruct (off_next _ _ _ (qk_inv _ _ _ K) NX A) as (A' & _).
      assert (K2 : qok t e2 q2 /\ q_active q2 = false /\ finite_draws q2 /\ finite_times q2).
      { apply get_upd in GE as [[-> ->]|[X GE]]; [split; [exact K'|split; [exact A'|split; [unfold finite_draws; rewrite CF; exact FD|exact F']]]| |exact LK].
        destruct (C _ _ GE) as (B1 & _ & B2). split; [apply KS; exact GE|]. split; [exact B1|]. split; [exact B2|exact (T _ _ GE)]. }
      destruct K2 as (K2 & B1 & B2 & B3).
      assert (A2 : q_active q2a = false) by (apply (off_op (OArrive (set_ag_time t b)) q2 q2a (qk_inv _ _ _ K2) Logic.I ltac:(discriminate) AD B1)).
      rewrite off_stopped in NX2 by exact A2.
      destruct (enter_less t e2 q2 (set_ag_time t b) q2a o q2' r K2 B1 B2 B3 NI eq_refl AD NX2) as [_ L2].
      rewrite (loads_upd r q2' _ 0%nat e2 q2 GE), (loads_upd r q' _ 0%nat k q G). cbn [Nat.add].
      assert (RK : (r e2 < r k)%nat) by (apply (D k e2 q G N); exists q, l; auto).
      destruct (dep_event q a h0 (Some b) q' (qk_inv _ _ _ K) DS DP NX) as (b' & _ & _ & _ & PH & _ & _ & _ & _ & PS & _).
      apply zlen_perm in PH. apply zlen_perm in PS. assert (HL : zlen (ag_id a :: held q') = zlen (held q') + 1) by (unfold zlen; cbn [length]; lia).
      assert (L1 : load r k q' = load r k q - 2 * Z.of_nat (r k)) by (unfold load; rewrite PS, PH, HL; nia). lia.
Qed.

(** ** All events *)

Lemma runs_less r : forall m n n', ninv n -> closing n -> timely n -> downward r n -> nruns m n = Ok n' ->
  ninv n' /\ closing n' /\ timely n' /\ downward r n' /\
  (3 * loads r 0 (nt_queues n) + Z.of_nat (pq_size (nt_heap n)) <= Z.of_nat m -> pq_size (nt_heap n') = 0%nat) /\
  (3 * loads r 0 (nt_queues n) + Z.of_nat (pq_size (nt_heap n)) < Z.of_nat m -> nt_t n' = Inf).
Proof.
  induction m as [|m IH]; intros n n' I C T D H.
  - injection H as <-. assert (P := loads_pos r (nt_queues n) 0). repeat (split; [assumption|]). split; intro X; lia.
  - assert (H0 := H). cbn [nruns] in H. mbind H. rename x into n1. assert (S := sim_nst _ _ I E). destruct (ninv_step _ _ I S) as [I1 _].
    destruct (step_less r _ _ I C T D S) as (C1 & T1 & D1 & L). destruct (IH _ _ I1 C1 T1 D1 H) as (I2 & C2 & T2 & D2 & X & Y).
    repeat (split; [assumption|]). destruct L as [(Z0 & Z1 & QE & TI)|L].
    + assert (P := loads_pos r (nt_queues n) 0).
      assert (R : forall j x y, pq_size (nt_heap x) = 0%nat -> nruns j x = Ok y -> pq_size (nt_heap y) = 0%nat).
      { induction j as [|j IJ]; intros x y SZ RJ; [injection RJ as <-; exact SZ|]. cbn [nruns] in RJ. unfold simulate_event in RJ. rewrite SZ in RJ. cbn [Nat.eqb bind] in RJ.
        apply (IJ (set_nt_t Inf x) y SZ RJ). }
      split; intros _; [exact (R _ _ _ Z0 H0)|]. exact (proj1 (empty_stays _ Z0 _ _ H0 ltac:(lia))).
    + split; intro LE; [apply X|apply Y]; lia.
Qed.

Lemma runs_usual n0 : well_made n0 -> forall m n n', nreach usual n0 n -> nt_init n = true -> nruns m n = Ok n' -> nreach usual n0 n' /\ nt_init n' = true.
Proof.
  intro W. induction m as [|m IH]; intros n n' R IN H; [injection H as <-; auto|]. cbn [nruns] in H. mbind H. rename x into n1.
  assert (R1 : nreach usual n0 n1) by (apply (nreach_step usual n0 n (KOp NSim) n1 R IN); exact E).
  destruct (ngood_reach _ _ W R) as [I _]. assert (S := sim_nst _ _ I E). apply (IH n1 n' R1); [|exact H].
  destruct S; subst; assumption.
Qed.

Theorem drained n0 n1 r m n : well_made n0 -> nreach usual n0 n1 -> nt_init n1 = true -> closing n1 -> timed n1 -> downward r n1 ->
  nruns m n1 = Ok n -> 3 * loads r 0 (nt_queues n1) + Z.of_nat (pq_size (nt_heap n1)) <= Z.of_nat m ->
  everyone n = [] /\ (forall k q, get (nt_queues n) k = Some q -> q_time q = Inf).
Proof.
  intros W R IN C T D H M. destruct (ngood_reach _ _ W R) as [I _].
  assert (TM : timely n1).
  { intros k q G x X. unfold pend in X. rewrite <- map_app in X. apply in_map_iff in X as (a & <- & A). apply (T _ _ _ G A). }
  destruct (runs_less r m _ _ I C TM D H) as (I' & C' & T' & _ & SZ & _). specialize (SZ M).
  destruct (runs_usual _ W _ _ _ R IN H) as [R' _].
  assert (Q : forall k q, get (nt_queues n) k = Some q -> q_time q = Inf).
  { intros k q G. destruct (q_time q) as [z|] eqn:TQ; [|reflexivity]. exfalso. destruct (ni_heap _ I') as [[_ X]|[_ HB]]; [rewrite (X _ _ G) in TQ; discriminate|].
    destruct (ha_a _ _ _ _ _ HB k q Logic.I G) as [A _]; [congruence|]. unfold pq_entries in A. rewrite SZ in A. destruct A. }
  split; [|exact Q].
  assert (E : forall k q, get (nt_queues n) k = Some q -> held q = []).
  { intros k q G. assert (K := ni_q _ I' _ _ G). destruct (C' _ _ G) as (_ & [[CL SV]|CL] & _).
    2:{ destruct (qk_null _ _ _ K CL) as (A & B & L & _). unfold held, scheduled, in_service, waiting. change agents_in with agents_of. rewrite A, B, L. reflexivity. }
    assert (P : pend q = []).
    { destruct (pend q) as [|x l] eqn:E; [reflexivity|]. exfalso. assert (X : In x (pend q)) by (rewrite E; left; reflexivity).
      assert (Y := pend_min _ (qk_inv _ _ _ K) _ X). rewrite (Q _ _ G) in Y. apply (T' _ _ G _ X). destruct x; [destruct Y|reflexivity]. }
    unfold pend in P. apply app_eq_nil in P as [P1 P2]. apply map_eq_nil in P1. apply map_eq_nil in P2.
    assert (WQ : waiting q = []).
    { destruct (waiting q) as [|a l] eqn:E; [reflexivity|]. exfalso.
      assert (X := C05_network _ _ _ _ W R' G ltac:(congruence) ltac:(congruence) ltac:(rewrite E; discriminate)). unfold serving, in_service in X.
      change (agents_in (q_dep q)) with (agents_of (q_dep q)) in X. rewrite P2 in X. cbn [length] in X. elia. }
    unfold held. rewrite WQ. unfold scheduled, in_service. change agents_in with agents_of. rewrite P1, P2. reflexivity. }
  unfold everyone. clear -E. revert E. generalize (nt_queues n). intros qs E. assert (F : forall q, In q qs -> held q = []).
  { intros q Q. apply In_nth_error in Q as (k & Q). apply (E k q). unfold get. exact Q. }
  clear E. induction qs as [|q qs IH]; [reflexivity|]. cbn [flat_map]. rewrite (F q) by (left; reflexivity). apply IH. intros x X. apply F. right; exact X.
Qed.

(** ** No way out *)

Lemma server_admits q a : c_class (q_cfg q) = CServer -> ~ refuses q a.
Proof. intros C [X|[X _]]; [unfold at_capacity in X; rewrite C in X; discriminate|congruence]. Qed.

Lemma sealed_step n n' : ninv n -> sealed n -> nst n n' -> sealed n' /\ Permutation (everyone n) (everyone n').
Proof.
  intros I SE S. split.
  - intros k q' G'. destruct (nst_frame _ _ I S) as [(_ & _ & FR) _]. destruct (FR k q' G') as (q & G & CF & _). destruct (SE k q G) as [A C].
    split; [apply (off_nst _ _ _ _ _ I S G G'); exact A|congruence].
  - destruct S as [SZ ->|t k h q SZ PO G DS ->|t k h q b q' h' SZ PO G DS NX PU LC ->|
      t k h q a h0 l e2 q2 qm q' d h' iu ie td SZ PO G DS DP OUT IN DD G2 NE CA MB RT DE DL NK PU ->|
      t k h q a h0 l e2 q2old b q' q2 q2a o q2' h' iu SZ PO G DS DP OUT IN DD G2 CA NX GE AD NX2 PU LA LB ->]; unfold everyone, after; nc; [reflexivity|reflexivity| | |].
    + destruct (popped _ _ _ _ I SZ PO) as (W & LE & LK & QK & QM & _ & KS & TT & HB & _).
      destruct (SE _ _ G) as [A C]. rewrite off_stopped in NX by exact A.
      destruct (arr_event _ _ _ (qk_inv _ _ _ (KS _ _ G)) DS NX) as (_ & _ & new & gone & P & [[-> _]|(_ & _ & X0)] & [->|(a & _ & _ & X)]); try congruence;
        [|destruct (server_admits _ _ C X)].
      assert (E := everyone_upd _ _ _ _ _ _ G P). rewrite !app_nil_r in E. exact E.
    + exfalso. destruct (SE _ _ G2) as [_ C]. unfold at_capacity in CA. rewrite C in CA. discriminate.
    + destruct (popped _ _ _ _ I SZ PO) as (W & LE & LK & QK & QM & _ & KS & TT & HB & _). assert (K := KS _ _ G).
      destruct (description_2 _ (qk_inv _ _ _ K) DS) as (N & LT & _ & FI).
      assert (TQ : q_time q = t) by (destruct (TT _ G); [assumption|congruence]). assert (NI : t <> Inf) by congruence.
      destruct (qok_next t k _ _ _ K TQ NI NX) as (K' & _). destruct (SE _ _ G) as [A C].
      destruct (dep_event q a h0 (Some b) q' (qk_inv _ _ _ K) DS DP NX) as (b' & BE & BI & _ & PH & _ & AC & CF & _). injection BE as <-.
      assert (K2 : qok t e2 q2 /\ q_active q2 = false /\ c_class (q_cfg q2) = CServer).
      { apply get_upd in GE as [[-> ->]|[X GE]]; [split; [exact K'|split; congruence]| |exact LK]. split; [apply KS; exact GE|exact (SE _ _ GE)]. }
      destruct K2 as (K2 & A2 & C2).
      destruct (enter_event t e2 _ _ q2 (set_ag_time t b) q2a o q2' K2 NI eq_refl AD NX2) as (new & gone & P & NW & GO).
      assert (N0 : new = []) by (destruct NW as [[-> _]|(_ & _ & X & _)]; [reflexivity|congruence]).
      assert (G0 : gone = []).
      { destruct GO as [[->|(x & _ & _ & X)]|[X _]]; [reflexivity|destruct (server_admits _ _ C2 X)|congruence]. }
      subst new gone. rewrite !app_nil_r in P. change (ag_id (set_ag_time t b)) with (ag_id b) in P.
      assert (E1 := everyone_upd _ _ _ q' [] [ag_id b] G). rewrite !app_nil_r in E1. specialize (E1 ltac:(rewrite PH, BI; apply Permutation_cons_append)).
      assert (E2 := everyone_upd _ _ _ q2' [ag_id b] [] GE). rewrite !app_nil_r in E2. rewrite E1. apply E2. rewrite <- P. symmetry. apply Permutation_cons_append.
Qed.

Lemma sealed_runs : forall m n n', ninv n -> sealed n -> nruns m n = Ok n' -> sealed n' /\ Permutation (everyone n) (everyone n').
Proof.
  induction m as [|m IH]; intros n n' I SE H; [injection H as <-; auto|]. cbn [nruns] in H. mbind H. assert (S := sim_nst _ _ I E).
  destruct (sealed_step _ _ I SE S) as [S1 P1]. destruct (IH _ _ (proj1 (ninv_step _ _ I S)) S1 H) as [S2 P2]. split; [exact S2|]. rewrite P1. exact P2.
Qed.

Lemma timed_timely n : timed n -> timely n.
Proof. intros T k q G x X. unfold pend in X. rewrite <- map_app in X. apply in_map_iff in X as (a & <- & A). apply (T _ _ _ G A). Qed.

Theorem rests n0 n1 r m n : well_made n0 -> nreach usual n0 n1 -> closing n1 -> timed n1 -> downward r n1 ->
  nruns m n1 = Ok n -> 3 * loads r 0 (nt_queues n1) + Z.of_nat (pq_size (nt_heap n1)) < Z.of_nat m -> nt_t n = Inf.
Proof.
  intros W R C T D H M. destruct (ngood_reach _ _ W R) as [I _]. destruct (runs_less r m _ _ I C (timed_timely _ T) D H) as (_ & _ & _ & _ & _ & X). exact (X M).
Qed.
