(** * LockFree: without a ring of limited queues somebody always gets on *)
From Coq Require Import List ZArith QArith Lia Bool Permutation Arith.
From Verif Require Import Base Heap HeapProofs PQueue PQueueProofs SpecPQ PQHist Queue QueueEffects QueueEvents QueueSteps QueueInv SpecQueue QueueFlow QueueHist QueueClaims1 QueueClaims3 Network NetQueue NetSteps NetInv SpecNet NetReach NetFlow NetClaims1 NetTotal SpecRefine NetBare NetRefine SpecStop NetStop PropsNet2 TrailSteps TrailNet SpecLock LockProofs.
Import ListNotations.
Open Scope Z_scope.

(** ** Departures are counted *)
Lemma dep_upd q' : forall qs k q, get qs k = Some q ->
  zsum (map q_departed (upd qs k q')) = zsum (map q_departed qs) - q_departed q + q_departed q'.
Proof.
  induction qs as [|q0 qs IH]; intros [|k] q G; try discriminate; cbn [upd map zsum fold_right].
  - injection G as ->. lia.
  - specialize (IH k q G). unfold zsum in IH. lia.
Qed.
Lemma dep_le : forall qs qs', length qs' = length qs -> (forall k q, get qs k = Some q -> exists q', get qs' k = Some q' /\ q_departed q <= q_departed q') ->
  zsum (map q_departed qs) <= zsum (map q_departed qs').
Proof.
  induction qs as [|q qs IH]; intros [|q' qs'] L H; try discriminate. cbn [map zsum fold_right].
  destruct (H 0%nat q eq_refl) as (x & X & LE). injection X as <-. assert (Y := IH qs' ltac:(cbn in L; lia) (fun k => H (Datatypes.S k))). unfold zsum in Y. lia.
Qed.

(** ** What is kept *)
Definition ending (q : queue) : Prop := forall a, In a (in_service q) -> ag_time a <> Inf.
Definition kq (q q' : queue) : Prop :=
  q_cfg q' = q_cfg q /\ q_servers q' = q_servers q /\ q_departed q <= q_departed q' /\ (ending q -> ending q').
Definition keeps (n n' : net) : Prop :=
  nt_out n' = nt_out n /\ length (nt_queues n') = length (nt_queues n) /\
  forall k q, get (nt_queues n) k = Some q -> exists q', get (nt_queues n') k = Some q' /\ kq q q'.

Lemma kq_refl q : kq q q.
Proof. repeat split; auto. lia. Qed.
Lemma kq_trans q1 q2 q3 : kq q1 q2 -> kq q2 q3 -> kq q1 q3.
Proof. intros (A & B & C & D) (E & F & G & H). split; [congruence|]. split; [congruence|]. split; [lia|auto]. Qed.
Lemma kq_dep q q' : q_cfg q' = q_cfg q -> q_servers q' = q_servers q -> q_departed q' = q_departed q -> q_dep q' = q_dep q -> kq q q'.
Proof. intros A B C D. split; [exact A|]. split; [exact B|]. split; [lia|]. unfold ending, in_service. rewrite D. auto. Qed.
Lemma keeps_same n n' : nt_out n' = nt_out n -> nt_queues n' = nt_queues n -> keeps n n'.
Proof. intros A B. split; [exact A|]. rewrite B. split; [reflexivity|]. intros k q G. exists q. split; [exact G|apply kq_refl]. Qed.
Lemma keeps_trans n1 n2 n3 : keeps n1 n2 -> keeps n2 n3 -> keeps n1 n3.
Proof.
  intros (A1 & A2 & A3) (B1 & B2 & B3). split; [congruence|]. split; [congruence|]. intros k q G. destruct (A3 k q G) as (q' & G' & F). destruct (B3 k q' G') as (q2 & G2 & F2).
  exists q2. split; [exact G2|eapply kq_trans; eassumption].
Qed.
Lemma keeps_upd n n' k q q' : nt_out n' = nt_out n -> get (nt_queues n) k = Some q -> nt_queues n' = upd (nt_queues n) k q' -> kq q q' -> keeps n n'.
Proof.
  intros O G E F. split; [exact O|]. rewrite E. split; [apply upd_length|]. intros j qj GJ. destruct (Nat.eq_dec j k) as [->|NE].
  - exists q'. split; [apply get_upd_eq; exact (get_lt _ _ _ G)|]. assert (qj = q) by congruence. subst qj. auto.
  - exists qj. rewrite get_upd_neq by exact NE. split; [exact GJ|apply kq_refl].
Qed.
Lemma keeps_back n n' : keeps n n' -> forall k q', get (nt_queues n') k = Some q' -> exists q, get (nt_queues n) k = Some q /\ kq q q'.
Proof.
  intros (_ & L & H) k q' G. assert (LT := get_lt _ _ _ G). rewrite L in LT. destruct (get_ex _ _ LT) as (q & GQ).
  exists q. split; [exact GQ|]. destruct (H _ _ GQ) as (q0 & G0 & K). replace q' with q0 by congruence. exact K.
Qed.
Lemma keeps_departures n n' : keeps n n' -> departures n <= departures n'.
Proof. intros (_ & L & H). apply dep_le; [exact L|]. intros k q G. destruct (H k q G) as (q' & G' & K). exists q'. split; [exact G'|apply K]. Qed.
Lemma keeps_staffed n n' : keeps n n' -> staffed n -> staffed n'.
Proof.
  intros K S k q' G. destruct (keeps_back _ _ K _ _ G) as (q & GQ & A & B & _). destruct (S k q GQ) as (S1 & S2 & S3).
  unfold limited in *. rewrite A, B. auto.
Qed.
Lemma keeps_follows n n' : keeps n n' -> forall k e, follows n' k e <-> follows n k e.
Proof.
  intros K k e. destruct K as (O & L & H). assert (K : keeps n n') by (split; [exact O|split; assumption]). split.
  - intros (q' & l & G & GO & IN). destruct (keeps_back _ _ K _ _ G) as (q & GQ & A & _). exists q, l. rewrite <- O, <- A. auto.
  - intros (q & l & G & GO & IN). destruct (H _ _ G) as (q' & G' & A & _). exists q', l. rewrite O, A. auto.
Qed.
Lemma keeps_ring n n' r : keeps n n' ->
  (forall k e q, follows n k e -> get (nt_queues n) e = Some q -> limited q -> e <> k -> (r e < r k)%nat) ->
  (forall k e q, follows n' k e -> get (nt_queues n') e = Some q -> limited q -> e <> k -> (r e < r k)%nat).
Proof.
  intros K R k e q' F G L NE. destruct (keeps_back _ _ K _ _ G) as (q & GQ & A & _). apply (R k e q); auto.
  - apply (keeps_follows _ _ K). exact F.
  - unfold limited in *. rewrite <- A. exact L.
Qed.

(** ** One event *)
Definition fine (q : queue) : Prop := c_class (q_cfg q) <> CResource /\ forall i t, t <> Inf -> c_srv (q_cfg q) i t <> Inf.

Lemma next_kq q r q' : qinv q -> c_class (q_cfg q) <> CNull -> fine q -> q_time q <> Inf -> next_event q = Ok (r, q') -> kq q q'.
Proof.
  intros I N [NR SV] TI H. assert (C := next_cfg _ _ _ I H). apply next_kinds in H; auto. destruct H as (A & B & D).
  split; [exact C|]. split; [exact A|]. split; [destruct D as [(_ & D & _)|(_ & D)]; lia|].
  intros E x X. destruct (B x X) as [Y|(i & ->)]; [apply E; exact Y|apply SV; exact TI].
Qed.

Lemma stopped_kq max ag q : kq q (stopped max ag q).
Proof. unfold stopped. destruct (q_active q && _); apply kq_dep; reflexivity. Qed.

Lemma enter_kq s k max ag q a q1 r q2 : fine q -> qok s k q -> s <> Inf -> ag_time a = s ->
  add_arrival a q = Ok q1 -> next_event (stopped max ag q1) = Ok (r, q2) -> kq q q2.
Proof.
  intros F K NI TA AD NX. destruct (c_class (q_cfg q)) eqn:C.
  3:{ apply add_arrival_null in AD as (d & -> & _); [|exact C].
      assert (q2 = stopped max ag (set_q_data d q)).
      { unfold next_event in NX. rewrite cfg_stopped in NX. cbn [q_cfg set_q_data] in NX. rewrite C in NX. injection NX as _ <-. reflexivity. }
      subst q2. eapply kq_trans; [|apply stopped_kq]. apply kq_dep; reflexivity. }
  all: assert (N : c_class (q_cfg q) <> CNull) by congruence; assert (I1 := qk_inv _ _ _ K);
    destruct (add_pend _ _ _ I1 N AD) as (P1 & NOW & _ & _ & _);
    assert (IV := qinv_add_arrival _ _ _ I1 AD);
    assert (CF : q_cfg q1 = q_cfg q /\ kq q q1) by (apply add_arrival_Ok in AD as (h & -> & _); [split; [reflexivity|apply kq_dep; reflexivity]|exact N|apply I1|apply I1]);
    destruct CF as [CF KQ];
    assert (K1 : qok s k q1) by (destruct K as [A1 A2 A3 A4 A5 A6]; split;
      [exact IV|congruence|congruence|congruence|intros x X; apply (Permutation_in x P1) in X; destruct X as [<-|X]; [rewrite TA; apply eLe_refl|apply A5; exact X]
      |congruence]);
    assert (TS : q_time q1 = s) by (apply eLe_antisym; [apply pend_min; [exact IV|]; apply (Permutation_in _ (Permutation_sym P1)); left; exact TA|apply (qok_time _ _ _ K1)]);
    (eapply kq_trans; [exact KQ|]); (eapply kq_trans; [apply (stopped_kq max ag)|]); eapply next_kq; [|..|exact NX];
    [apply (qk_inv _ _ _ (qok_stopped _ _ max ag _ K1))|rewrite cfg_stopped, CF; exact N|unfold fine; rewrite cfg_stopped, CF; exact F|rewrite time_stopped, TS; exact NI].
Qed.

(** Full queues have somebody in service. *)
Definition manned (n : net) : Prop := forall k q, get (nt_queues n) k = Some q -> at_capacity q = true -> in_service q <> [].

Lemma fine_of n k q : staffed n -> get (nt_queues n) k = Some q -> fine q.
Proof. intros S G. destruct (S k q G) as (A & _ & B). split; assumption. Qed.

Lemma block_kq q qm d q' : qinv q -> c_class (q_cfg q) <> CNull -> fine q -> mark_blocked q = Ok qm -> delay_service d qm = Ok q' ->
  (ending q -> forall t, d = Some t -> t <> Inf) -> kq q q'.
Proof.
  intros I N [_ SV] MB DL TD. assert (Z := fz_block _ _ _ _ I N MB DL). destruct Z as (Z1 & Z2 & _ & _ & Z5 & _).
  split; [exact Z1|]. split; [exact Z2|]. split; [lia|]. intros E x X. specialize (TD E).
  apply mark_facts in MB as (a & h & b & DP & B & -> & W & HM & A1 & A2); [|apply I].
  assert (EM : forall y, In y (agents_of (q_dep (set_q_dep (Ag b :: h) q))) -> ag_time y <> Inf).
  { intros y Y. rewrite A2 in Y. destruct Y as [<-|Y]; [rewrite B; apply (E a)|apply (E y)]; unfold in_service; change agents_in with agents_of; rewrite A1; [left; reflexivity|right; exact Y]. }
  apply delay_service_Ok in DL; [|exact N|apply I|exact W]. destruct DL as [(_ & ->)|(a' & h1 & h1' & m & DL)]; [apply EM; exact X|].
  cbv zeta in DL. destruct DL as (_ & -> & _ & _ & _ & P1 & P2 & _). unfold in_service in X. change agents_in with agents_of in X. qch X.
  apply (Permutation_in _ P2) in X. destruct X as [<-|X]; [|apply EM; apply (Permutation_in _ (Permutation_sym P1)); right; exact X].
  change (ag_time (set_ag_time (match d with None => c_srv (q_cfg q) (q_is q) (ag_time a') | Some t => t end) a')) with (match d with None => c_srv (q_cfg q) (q_is q) (ag_time a') | Some t => t end).
  destruct d as [t|]; [apply TD; reflexivity|]. apply SV, EM. apply (Permutation_in _ (Permutation_sym P1)). left; reflexivity.
Qed.

Lemma step_kept n n' : ninv n -> staffed n -> manned n -> (forall k q, get (nt_queues n) k = Some q -> ending q) -> nst n n' ->
  keeps n n' /\
  (departures n < departures n' \/
   forall k q a, get (nt_queues n) k = Some q -> In a (in_service q) ->
     (exists q', get (nt_queues n') k = Some q' /\ In a (in_service q')) \/
     (exists e q2, follows n k e /\ e <> k /\ get (nt_queues n') e = Some q2 /\ limited q2 /\ in_service q2 <> [])).
Proof.
  intros I ST MA EN S. destruct S as [SZ ->|t k h q SZ PO G DS ->|t k h q r q' h' SZ PO G DS NX PU LC ->|
    t k h q a h0 l e2 q2 qm q' d h' iu ie td SZ PO G DS DP OUT IN DD G2 NE CA MB RT DE DL NK PU ->|
    t k h q a h0 l e2 q2old b q' q2 q2a r q2' h' iu SZ PO G DS DP OUT IN DD G2 CA NX GE AD NX2 PU LA LB ->].
  - split; [apply keeps_same; reflexivity|]. right. intros k q a G A. left. exists q. auto.
  - split; [apply keeps_same; reflexivity|]. right. intros k0 q0 a G0 A. left. exists q0. auto.
  - destruct (popped _ _ _ _ I SZ PO) as (W & LE & LK & QK & QM & _ & KS & TT & HB & _). assert (K := KS _ _ G).
    destruct (description_1 _ (qk_inv _ _ _ K) DS) as (N & LEQ & _ & FI).
    assert (KS' := qok_stopped _ _ (nt_max n) (nt_nagents n) _ K).
    destruct (stopped_same (nt_max n) (nt_nagents n) q) as (S1 & S2 & S3 & S4 & S5 & S6 & _).
    assert (F := fine_of _ _ _ ST G).
    split.
    + apply keeps_upd with k q q'; [reflexivity|exact G|reflexivity|]. eapply kq_trans; [apply (stopped_kq (nt_max n) (nt_nagents n))|].
      eapply next_kq; [apply KS'|rewrite S1; exact N|unfold fine; rewrite S1; exact F|rewrite S6; exact FI|exact NX].
    + right. intros j qj a GJ A. left. unfold after. nc. destruct (Nat.eq_dec j k) as [->|NE].
      2:{ exists qj. rewrite get_upd_neq by exact NE. auto. }
      exists q'. split; [apply get_upd_eq; exact LK|]. assert (qj = q) by congruence. subst qj.
      apply next_kinds in NX; [|apply KS'|rewrite S1; assumption|rewrite S1; apply F|rewrite S6; assumption].
      destruct NX as (X1 & _ & [(_ & X2 & X3 & _)|(X2 & _)]).
      * apply X3. unfold in_service in *. rewrite S3. exact A.
      * exfalso. rewrite S2, S3 in X2. exact (proj1 (eLt_not_le _ _) X2 LEQ).
  - destruct (popped _ _ _ _ I SZ PO) as (W & LE & LK & QK & QM & _ & KS & TT & HB & _). assert (K := KS _ _ G). assert (K2 := KS _ _ G2).
    destruct (description_2 _ (qk_inv _ _ _ K) DS) as (N & _).
    assert (OC := MA _ _ G2 CA). assert (F := fine_of _ _ _ ST G). assert (F2 := fine_of _ _ _ ST G2).
    assert (GU : get (upd (nt_queues n) e2 (set_q_blocked (q_blocked q2 + 1) q2)) k = Some q) by (rewrite get_upd_neq by congruence; exact G).
    split.
    + apply keeps_trans with (set_nt_queues (upd (nt_queues n) e2 (set_q_blocked (q_blocked q2 + 1) q2)) n).
      * apply keeps_upd with e2 q2 (set_q_blocked (q_blocked q2 + 1) q2); [reflexivity|exact G2|reflexivity|]. apply kq_dep; reflexivity.
      * apply keeps_upd with k q q'; [reflexivity|exact GU|reflexivity|]. eapply block_kq; eauto; [apply K|].
        intros E x ->. destruct (nt_bas n); [|discriminate]. injection DE as ->.
        rewrite (wfh_root_time _ (qi_dep _ (qk_inv _ _ _ K2))) in RT. injection RT as <-.
        destruct (wfh_min_cases _ (qi_dep _ (qk_inv _ _ _ K2))) as [Y|(b & B & T)].
        -- exfalso. unfold in_service in OC. change agents_in with agents_of in OC. destruct (agents_of (q_dep q2)) as [|b bs] eqn:AB; [congruence|].
           assert (X : In b (agents_of (q_dep q2))) by (rewrite AB; left; reflexivity).
           assert (Y2 := wfh_min _ _ (qi_dep _ (qk_inv _ _ _ K2)) X). rewrite Y in Y2. apply (EN _ _ G2 b X). destruct (ag_time b); [destruct Y2|reflexivity].
        -- rewrite <- T. assert (X := EN _ _ G2 b B). destruct (ag_time b); [discriminate|congruence].
    + right. intros j qj x GJ A. unfold after. nc. destruct (Nat.eq_dec j k) as [->|NEJ].
      * right. exists e2, (set_q_blocked (q_blocked q2 + 1) q2). split; [exists q, l; auto|]. split; [exact NK|].
        split; [rewrite get_upd_neq by congruence; apply get_upd_eq; exact (get_lt _ _ _ G2)|]. split; [|exact OC].
        unfold limited. qc. unfold at_capacity in CA. destruct (c_class (q_cfg q2)) eqn:C; try discriminate; auto. exfalso. apply (proj1 F2). exact C.
      * left. rewrite get_upd_neq by exact NEJ. destruct (Nat.eq_dec j e2) as [->|NEE].
        -- exists (set_q_blocked (q_blocked q2 + 1) q2). split; [apply get_upd_eq; exact (get_lt _ _ _ G2)|]. assert (qj = q2) by congruence. subst qj. exact A.
        -- exists qj. rewrite get_upd_neq by exact NEE. auto.
  - destruct (popped _ _ _ _ I SZ PO) as (W & LE & LK & QK & QM & _ & KS & TT & HB & _). assert (K := KS _ _ G).
    destruct (description_2 _ (qk_inv _ _ _ K) DS) as (N & LT & _ & FI).
    assert (TQ : q_time q = t) by (destruct (TT _ G); [assumption|congruence]). assert (NI : t <> Inf) by congruence.
    assert (CF := next_cfg _ _ _ (qk_inv _ _ _ K) NX). destruct (qok_next t k _ _ _ K TQ NI NX) as (K' & _).
    assert (F := fine_of _ _ _ ST G). assert (KQ := next_kq _ _ _ (qk_inv _ _ _ K) N F FI NX).
    assert (K2 : qok t e2 q2 /\ fine q2).
    { apply get_upd in GE as [[-> ->]|[NE GE]]; [split; [exact K'|unfold fine; rewrite CF; exact F]|split; [apply KS; exact GE|eapply fine_of; eassumption]|exact LK]. }
    destruct K2 as [K2 F2].
    assert (KQ2 := enter_kq t e2 (nt_max n) _ q2 (set_ag_time t b) q2a r q2' F2 K2 NI eq_refl AD NX2).
    split.
    + apply keeps_trans with (set_nt_queues (upd (nt_queues n) k q') n).
      * eapply keeps_upd; [reflexivity|exact G|reflexivity|exact KQ].
      * eapply keeps_upd; [reflexivity|exact GE|reflexivity|exact KQ2].
    + left. unfold departures, after. nc. rewrite (dep_upd _ _ _ _ GE), (dep_upd _ _ _ _ G).
      apply next_kinds in NX; [|apply K|assumption|apply F|assumption]. destruct NX as (_ & _ & [(X & _)|(_ & X)]).
      * exfalso. exact (proj1 (eLt_not_le _ _) LT X).
      * assert (Y := proj1 (proj2 (proj2 KQ2))). lia.
Qed.

(** ** Reached networks *)
Definition shape (n n' : net) : Prop :=
  nt_out n' = nt_out n /\
  forall k q', get (nt_queues n') k = Some q' -> exists q, get (nt_queues n) k = Some q /\ q_cfg q' = q_cfg q /\ q_servers q' = q_servers q.
Definition ring (r : nat -> nat) (n : net) : Prop :=
  forall k e q, follows n k e -> get (nt_queues n) e = Some q -> limited q -> e <> k -> (r e < r k)%nat.

Lemma keeps_shape n n' : keeps n n' -> shape n n'.
Proof. intro K. split; [apply K|]. intros k q' G. destruct (keeps_back _ _ K _ _ G) as (q & GQ & A & B & _). eauto. Qed.
Lemma shape_staffed n n' : shape n n' -> staffed n -> staffed n'.
Proof.
  intros [_ K] S k q' G. destruct (K _ _ G) as (q & GQ & A & B). destruct (S k q GQ) as (S1 & S2 & S3).
  unfold limited in *. rewrite A, B. auto.
Qed.
Lemma shape_ring r n n' : shape n n' -> ring r n -> ring r n'.
Proof.
  intros [O K] R k e q2' (q' & l & G & GO & IN) G2 L NE. destruct (K _ _ G) as (q & GQ & A & _). destruct (K _ _ G2) as (q2 & GQ2 & A2 & _).
  apply (R k e q2); auto; [|unfold limited in *; rewrite <- A2; exact L]. exists q, l. rewrite <- O, <- A. auto.
Qed.

Lemma active_kq q q' : qinv q -> set_active q = Ok q' -> kq q q'.
Proof.
  intros I H. unfold set_active in H. destruct (q_active q). { injection H as <-. apply kq_refl. }
  unfold add_arrival_self in H. qch H. destruct (c_class (q_cfg q)) eqn:C.
  3:{ injection H as <-. apply kq_dep; reflexivity. }
  all: apply add_arrival_new_Ok in H; [|apply I|apply I]; qch H; cbv zeta in H;
    destruct H as [(T & ->)|[(T & D & CI & ->)|(T & D & a & h & act & -> & _)]]; apply kq_dep; reflexivity.
Qed.
Lemma activate_keeps l : forall n n', (forall k q, get (nt_queues n) k = Some q -> qinv q) -> activate l n = Ok n' -> keeps n n'.
Proof.
  induction l as [|e l IH]; intros n n' Q H; cbn [activate] in H; [injection H as <-; apply keeps_same; reflexivity|].
  mbind H. rename x into q. apply queue_at_Ok in E. mbind H. rename x into q'. mbind H. apply set_count_Ok in E1 as [LC ->].
  apply keeps_trans with (put_queue e q' n).
  - eapply keeps_upd; [reflexivity|exact E|reflexivity|]. apply active_kq; [exact (Q _ _ E)|exact E0].
  - apply IH in H; [exact H|]. nc. intros j qj GJ. apply get_upd in GJ as [[-> ->]|[_ GJ]]; [|exact (Q _ _ GJ)|exact (get_lt _ _ _ E)].
    apply (qinv_set_active _ _ (Q _ _ E) E0).
Qed.
Lemma on_queues_keeps f l : (forall q, kq q (f q)) -> forall n n', on_queues f l n = Ok n' -> keeps n n'.
Proof.
  intro F. induction l as [|e l IH]; intros n n' H; cbn [on_queues] in H; [injection H as <-; apply keeps_same; reflexivity|].
  mbind H. apply queue_at_Ok in E. apply keeps_trans with (put_queue e (f x) n); [|apply IH; exact H].
  eapply keeps_upd; [reflexivity|exact E|reflexivity|]. apply F.
Qed.
Lemma call_keeps n c n' : ninv n -> c <> KClear -> (forall o, c = KOp o -> o <> NSim) -> run_call c n = Ok n' -> keeps n n'.
Proof.
  intros I NC NS H. destruct c as [sel| | |o]; cbn [run_call] in H.
  - unfold initialize_queues in H. mbind H. destruct (length x =? 0)%nat; [discriminate|]. mbind H. rename x0 into n1. mbind H. injection H as <-.
    apply activate_keeps in E0; [|intros k q G; apply (ni_q _ I _ _ G)]. destruct E0 as (A & B & C). split; [exact A|]. split; [exact B|exact C].
  - congruence.
  - unfold net_copy in H. destruct (nt_init n); [mbind H|]; injection H as <-; apply keeps_same; reflexivity.
  - destruct o as [|b l|l|p|m|b]; cbn [run_nop] in H; [exfalso; apply (NS _ eq_refl); reflexivity| | |injection H as <-; apply keeps_same; reflexivity..].
    + eapply on_queues_keeps; [|exact H]. intro q. apply kq_dep; reflexivity.
    + eapply on_queues_keeps; [|exact H]. intro q. apply kq_dep; reflexivity.
Qed.

Lemma manned_reach n0 n : well_made n0 -> nreach usual n0 n -> staffed n -> manned n.
Proof.
  intros W R S k q G CA NO. destruct (ngood_reach _ _ W R) as [I _]. assert (K := qk_inv _ _ _ (ni_q _ I _ _ G)).
  destruct (S k q G) as (NR & LI & _).
  assert (L : limited q) by (unfold at_capacity in CA; unfold limited; destruct (c_class (q_cfg q)); try discriminate; auto; congruence).
  destruct (LI L) as [S1 B0]. destruct (limited_not _ L) as [NN _].
  assert (SY := qi_sys _ K). unfold na in SY. unfold in_service in NO. change agents_in with agents_of in NO. rewrite NO in SY. cbn [length] in SY.
  assert (X := proj1 (full_capacity q K L)).
  assert (FU : full q) by (apply full_capacity; assumption).
  assert (SV : serving q = 0) by (unfold serving, zlen, in_service; change agents_in with agents_of; rewrite NO; reflexivity).
  unfold full in FU. rewrite SV in FU.
  destruct (waiting q) as [|w ws] eqn:WT.
  - destruct (q_servers q) as [s|], (c_buffer (q_cfg q)) as [bf|]; cbn in *; try contradiction; lia.
  - assert (Y := C05_network n0 n k q W R G NN NR). rewrite WT, SV in Y. specialize (Y ltac:(discriminate)).
    destruct (q_servers q) as [s|]; cbn in *; [lia|contradiction].
Qed.

Lemma nice_reach r n0 n : well_made n0 -> staffed n0 -> ring r n0 -> nreach usual n0 n ->
  staffed n /\ ring r n /\ forall k q, get (nt_queues n) k = Some q -> ending q.
Proof.
  intros W S RI R. induction R as [|n c n' R IH US H].
  - split; [exact S|]. split; [exact RI|]. intros k q G a A. exfalso.
    destruct W as (qs & out & max & bas & junk & u & eps & -> & QS & _). destruct (QS _ _ G) as (c & s & col & nE & -> & _). exact A.
  - destruct IH as (ST & RN & EN). destruct (ngood_reach _ _ W R) as [I _].
    assert (KEEP : keeps n n' -> staffed n' /\ ring r n' /\ forall k q, get (nt_queues n') k = Some q -> ending q).
    { intro K. split; [eapply shape_staffed; [apply keeps_shape|]; eassumption|]. split; [eapply shape_ring; [apply keeps_shape|]; eassumption|].
      intros k q G. destruct (keeps_back _ _ K _ _ G) as (q0 & G0 & _ & _ & _ & X). apply X, (EN _ _ G0). }
    destruct c as [sel| | |[]]; try (apply KEEP; eapply call_keeps; [exact I| | |exact H]; congruence).
    + cbn [run_call] in H. injection H as <-.
      assert (SH : shape n (net_clear n)).
      { split; [reflexivity|]. unfold net_clear. nc. intros k q' G. unfold get in G. rewrite nth_error_map in G. destruct (nth_error (nt_queues n) k) as [q|] eqn:E; [|discriminate].
        injection G as <-. exists q. split; [exact E|]. unfold clear. destruct (c_class (q_cfg q)); split; reflexivity. }
      split; [eapply shape_staffed; eassumption|]. split; [eapply shape_ring; eassumption|].
      unfold net_clear. nc. intros k q' G. unfold get in G. rewrite nth_error_map in G. destruct (nth_error (nt_queues n) k) as [q|] eqn:E; [|discriminate].
      injection G as <-. intros a A. assert (EQ := EN k q E). unfold clear in A. destruct (c_class (q_cfg q)); try (exfalso; exact A). apply EQ; exact A.
    + apply KEEP. eapply step_kept; [exact I|exact ST|eapply manned_reach; eassumption|exact EN|]. apply sim_nst; assumption.
Qed.

(** ** Somebody gets on *)
Lemma tidy_usual n0 n : nreach tidy n0 n -> nreach usual n0 n.
Proof. intro R. eapply nreach_weak; [|exact R]. intros m c X. apply X. Qed.
Lemma tidy_sim n0 n n' : well_made n0 -> nreach tidy n0 n -> nt_init n = true -> simulate_event n = Ok n' -> nreach tidy n0 n' /\ nt_init n' = true.
Proof.
  intros W R IN E. split.
  - apply nreach_step with n (KOp NSim); [exact R| |exact E]. split; [exact IN|]. intros p X. discriminate.
  - destruct (ngood_reach _ _ W (tidy_usual _ _ R)) as [I _]. rewrite (sim_init _ _ I E). exact IN.
Qed.

Section Free.
Context (r : nat -> nat) (n0 : net) (W : well_made n0) (S0 : staffed n0) (R0 : ring r n0).

Definition onward (n : net) (k : nat) (a : agent) (m : nat) (n' : net) : Prop :=
  (exists j nj, nruns j n = Ok nj /\ departures n < departures nj) \/
  (exists q', get (nt_queues n') k = Some q' /\ In a (in_service q')) \/
  (exists j nj e q2, nruns j n = Ok nj /\ departures n <= departures nj /\ (r e < r k)%nat /\
     get (nt_queues nj) e = Some q2 /\ in_service q2 <> [] /\ nreach tidy n0 nj /\ nt_init nj = true).

Lemma run_onward : forall m n n' k q a, nreach tidy n0 n -> nt_init n = true -> nruns m n = Ok n' ->
  get (nt_queues n) k = Some q -> In a (in_service q) -> onward n k a m n'.
Proof.
  induction m as [|m IH]; intros n n' k q a R IN H G A; [injection H as <-; right; left; exists q; auto|].
  cbn [nruns] in H. mbind H. rename x into n1. destruct (tidy_sim _ _ _ W R IN E) as [R1 IN1].
  assert (U := tidy_usual _ _ R). destruct (ngood_reach _ _ W U) as [I _]. destruct (nice_reach r _ _ W S0 R0 U) as (ST & RN & EN).
  assert (SN := sim_nst _ _ I E). destruct (step_kept _ _ I ST (manned_reach _ _ W U ST) EN SN) as [KP [D|D]].
  { left. exists 1%nat, n1. cbn [nruns]. rewrite E. auto. }
  assert (KD := keeps_departures _ _ KP). destruct (D _ _ _ G A) as [(q' & G' & A')|(e & q2 & F & NE & G2 & L & O)].
  - destruct (IH _ _ _ _ _ R1 IN1 H G' A') as [(j & nj & X1 & X2)|[X|(j & nj & e & q2 & X1 & X2 & X3)]].
    + left. exists (S j), nj. cbn [nruns]. rewrite E. split; [exact X1|lia].
    + right; left. exact X.
    + right; right. exists (S j), nj, e, q2. cbn [nruns]. rewrite E. split; [exact X1|]. split; [lia|exact X3].
  - right; right. exists 1%nat, n1, e, q2. cbn [nruns]. rewrite E. split; [reflexivity|]. split; [exact KD|]. split; [|auto].
    assert (R2 := shape_ring _ _ _ (keeps_shape _ _ KP) RN). apply (R2 k e q2); auto. apply (keeps_follows _ _ KP). exact F.
Qed.

Lemma runs_app : forall j m n n1, nruns j n = Ok n1 -> nruns (j + m) n = nruns m n1.
Proof.
  induction j as [|j IH]; intros m n n1 H; [injection H as <-; reflexivity|]. cbn [nruns Nat.add] in *. mbind H. rewrite E. cbn [bind]. apply IH; exact H.
Qed.

Context (LV : lively n0) (MF : made_for n0) (CN : connected n0) (ML : mild_loops n0).

Lemma gets_on : forall b n k q, (r k < b)%nat -> nreach tidy n0 n -> nt_init n = true -> get (nt_queues n) k = Some q -> in_service q <> [] ->
  exists m n', nruns m n = Ok n' /\ departures n < departures n'.
Proof.
  induction b as [|b IH]; intros n k q LT R IN G O; [lia|].
  destruct (in_service q) as [|a rest] eqn:SQ; [congruence|]. assert (A : In a (in_service q)) by (rewrite SQ; left; reflexivity).
  assert (U := tidy_usual _ _ R). destruct (ngood_reach _ _ W U) as [I _]. destruct (nice_reach r _ _ W S0 R0 U) as (ST & RN & EN).
  assert (TA := EN _ _ G a A).
  assert (PA : forall n2 q2, ninv n2 -> get (nt_queues n2) k = Some q2 -> In a (in_service q2) -> eLe (nt_t n2) (ag_time a)).
  { intros n2 q2 I2 G2 A2. apply (qk_pend _ _ _ (ni_q _ I2 _ _ G2)). unfold pend. apply in_or_app. right. apply in_map. exact A2. }
  assert (TN := PA _ _ I G A). destruct (ag_time a) as [z|] eqn:EA; [|congruence]. destruct (nt_t n) as [T|] eqn:ET; [|contradiction].
  destruct (time_total_stops n0 n (z - T + 1) W LV MF CN ML R IN) as (f & n' & H). unfold simulate_time in H. rewrite IN, ET in H.
  apply while_runs in H as (m & RU & LE & _).
  destruct (run_onward _ _ _ _ _ _ R IN RU G A) as [(j & nj & X1 & X2)|[(q' & G' & A')|(j & nj & e & q2 & X1 & X2 & X3 & X4 & X5 & X6 & X7)]].
  - eauto.
  - exfalso. destruct (runs_good _ _ _ I RU) as [I' _]. assert (X := PA _ _ I' G' A'). assert (Y := eLe_trans _ _ _ LE X). cbn in Y. lia.
  - destruct (IH nj e q2 ltac:(lia) X6 X7 X4 X5) as (m2 & n2 & Y1 & Y2). exists (j + m2)%nat, n2. rewrite (runs_app _ _ _ _ X1). split; [exact Y1|lia].
Qed.
End Free.

Theorem somebody_leaves n0 n : well_made n0 -> lively n0 -> made_for n0 -> connected n0 -> mild_loops n0 -> staffed n0 -> no_ring n0 ->
  nreach tidy n0 n -> nt_init n = true -> busy n -> exists m n', nruns m n = Ok n' /\ departures n < departures n'.
Proof.
  intros W LV MF CN ML ST (r & RI) R IN (k & q & G & O). exact (gets_on r n0 W ST RI LV MF CN ML (S (r k)) n k q ltac:(lia) R IN G O).
Qed.

Lemma tidy_runs n0 : well_made n0 -> forall m n n', nreach tidy n0 n -> nt_init n = true -> nruns m n = Ok n' -> nreach tidy n0 n' /\ nt_init n' = true.
Proof.
  intro W. induction m as [|m IH]; intros n n' R IN H; [injection H as <-; auto|]. cbn [nruns] in H. mbind H.
  destruct (tidy_sim _ _ _ W R IN E) as [R1 IN1]. exact (IH _ _ R1 IN1 H).
Qed.

Theorem many_leave n0 n : well_made n0 -> lively n0 -> made_for n0 -> connected n0 -> mild_loops n0 -> staffed n0 -> no_ring n0 ->
  nreach tidy n0 n -> nt_init n = true -> forall N : nat, exists m n', nruns m n = Ok n' /\ (departures n + Z.of_nat N <= departures n' \/ ~ busy n').
Proof.
  intros W LV MF CN ML ST RI R IN. induction N as [|N (m & n1 & H & D)]; [exists 0%nat, n; split; [reflexivity|left; lia]|].
  destruct D as [D|D]; [|exists m, n1; auto].
  destruct (tidy_runs _ W _ _ _ R IN H) as [R1 IN1].
  assert (DEC : busy n1 \/ ~ busy n1).
  { destruct (existsb (fun q => match in_service q with [] => false | _ => true end) (nt_queues n1)) eqn:E.
    - left. apply existsb_exists in E as (q & IQ & B). apply in_get in IQ as (k & G). exists k, q. split; [exact G|]. destruct (in_service q); [discriminate|congruence].
    - right. intros (k & q & G & O). assert (X : existsb (fun q => match in_service q with [] => false | _ => true end) (nt_queues n1) = true); [|congruence].
      apply existsb_exists. exists q. split; [exact (nth_error_In _ _ G)|]. destruct (in_service q); [congruence|reflexivity]. }
  destruct DEC as [B|B]; [|exists m, n1; auto].
  destruct (somebody_leaves n0 n1 W LV MF CN ML ST RI R1 IN1 B) as (m2 & n2 & H2 & L2).
  exists (m + m2)%nat, n2. rewrite (runs_app _ _ _ _ H). split; [exact H2|left; lia].
Qed.
