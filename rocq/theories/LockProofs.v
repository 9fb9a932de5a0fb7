(** * LockProofs: full queues that wait for each other, and networks without them *)
From Coq Require Import List ZArith QArith Lia Bool Permutation Arith.
From Verif Require Import Base Heap HeapProofs PQueue PQueueProofs SpecPQ PQHist Queue QueueEffects QueueEvents QueueSteps QueueInv SpecQueue QueueFlow QueueHist QueueClaims1 QueueClaims3 Network NetQueue NetSteps NetInv SpecNet NetReach NetFlow NetClaims1 NetTotal SpecRefine NetBare NetRefine SpecStop NetStop PropsNet2 TrailSteps TrailNet SpecLock.
Import ListNotations.
Open Scope Z_scope.

(** ** One queue *)

Lemma full_capacity q : qinv q -> limited q -> (full q <-> at_capacity q = true).
Proof.
  intros I L. unfold full, at_capacity. assert (E : serving q + zlen (waiting q) = q_nsys q) by (rewrite (qi_sys _ I); reflexivity).
  rewrite E. destruct L as [-> | ->]; symmetry; apply eleb_le.
Qed.

Lemma draw_fields q q2 new : draw q q2 new -> q_servers q2 = q_servers q /\ q_departed q2 = q_departed q /\ q_nsys q2 = q_nsys q /\
  q_line q2 = q_line q /\ q_dep q2 = q_dep q.
Proof. intros (tm & act & h & i & ct & -> & _). repeat split. Qed.

Lemma next_kinds q r q' : qinv q -> c_class (q_cfg q) <> CNull -> c_class (q_cfg q) <> CResource -> q_time q <> Inf -> next_event q = Ok (r, q') ->
  q_servers q' = q_servers q /\
  (forall x, In x (in_service q') -> In x (in_service q) \/ exists i, ag_time x = c_srv (q_cfg q) i (q_time q)) /\
  (eLe (hmin (q_arr q)) (hmin (q_dep q)) /\ q_departed q' = q_departed q /\ incl (in_service q) (in_service q') /\
     (at_capacity q = true -> q_nsys q' = q_nsys q /\ q_line q' = q_line q /\ q_dep q' = q_dep q) \/
   eLt (hmin (q_dep q)) (hmin (q_arr q)) /\ q_departed q' = q_departed q + 1).
Proof.
  intros I N NR TI H. assert (Wa := qi_arr _ I). assert (Wd := qi_dep _ I).
  apply next_event_event in H as (qe & PE & EV); [|exact Wa|exact Wd].
  destruct (pre_event_net _ _ PE) as (nd & QE).
  assert (FQ : q_servers qe = q_servers q /\ q_arr qe = q_arr q /\ q_dep qe = q_dep q /\ q_cfg qe = q_cfg q /\ q_departed qe = q_departed q /\
               q_nsys qe = q_nsys q /\ q_line qe = q_line q /\ q_is qe = q_is q) by (subst qe; auto 10).
  destruct FQ as (F1 & F2 & F3 & F4 & F5 & F6 & F7 & F8). clear PE QE.
  unfold in_service in *. change agents_in with agents_of in *.
  destruct EV as [ID QQ QQ2 QQ3|NN LT R|NN LE NI CAP RC R|NN NS LE NI CAP RC R|CR LE NI RT QQ R|CR LE NI RT QQ CAP R]; try congruence.
  - exfalso. destruct ID as [ID|[ID1 ID2]]; [congruence|]. apply TI. rewrite (qi_time _ I). rewrite ID1, ID2. reflexivity.
  - apply qs_departure_Ok in R; [|rewrite F2; exact Wa|rewrite F3; exact Wd].
    destruct R as (a & h & a' & h' & line' & m & d1 & d & s & o & P & _ & _ & _ & _ & _ & Q' & _ & _ & SO & ST).
    rewrite F3 in P. destruct (pend_pop_dep _ _ _ I LT P) as (ET & _). destruct (pop_agent_Ok _ _ _ Wd P) as (_ & PP & _ & _).
    destruct SO as [S1 _]; [congruence|].
    split; [rewrite Q'; qc; congruence|]. split; [|right; split; [exact LT|rewrite Q'; qc; congruence]].
    assert (D' : q_dep q' = h') by (rewrite Q'; reflexivity). rewrite D'. intros x X.
    assert (KEEP : In x (agents_of h) -> In x (agents_of (q_dep q))) by (intro Y; apply (Permutation_in _ (Permutation_sym PP)); right; exact Y).
    cbv zeta in ST. destruct ST as [(_ & _ & -> & _)|(_ & b & b' & _ & _ & TB & _ & PB & _)]; [left; auto|].
    apply (Permutation_in _ PB) in X. destruct X as [<-|X]; [|left; auto]. right. exists (q_is q). rewrite TB, F4, F8, ET. reflexivity.
  - apply qs_arrival_Ok in R; [|congruence|rewrite F2; exact Wa|rewrite F3; exact Wd].
    destruct R as (a & h & q2 & nw & h' & line' & m & d1 & d & s1 & o1 & s & o & a1 & _ & P & DR & _ & _ & _ & Q' & _ & _ & _ & SO & ST).
    rewrite F2 in P. destruct (pend_pop_arr _ _ _ I LE P) as (ET & _). destruct (draw_fields _ _ _ DR) as (G1 & G2 & G3 & G4 & G5). qch G1. qch G2. qch G3. qch G4. qch G5.
    destruct SO as [S1 _]; [congruence|].
    split; [rewrite Q'; qc; congruence|]. assert (D' : q_dep q' = h') by (rewrite Q'; reflexivity). rewrite D'.
    assert (CA : at_capacity q = false).
    { unfold at_capacity. destruct (c_class (q_cfg q)) eqn:C; try reflexivity; apply eleb_gt, CAP; congruence. }
    assert (DE : q_departed q' = q_departed q) by (rewrite Q'; qc; congruence).
    destruct ST as [(_ & _ & _ & (a2 & _ & T2 & _ & PB) & _)|(_ & _ & _ & E2 & _)].
    + rewrite F3 in PB. rewrite F4, F8 in T2. split.
      * intros x X. apply (Permutation_in _ PB) in X. destruct X as [<-|X]; [right; exists (q_is q); rewrite T2, ET; reflexivity|left; exact X].
      * left. split; [exact LE|]. split; [exact DE|]. split; [|congruence]. intros x X. apply (Permutation_in _ (Permutation_sym PB)). right; exact X.
    + rewrite E2, F3. split; [auto|]. left. split; [exact LE|]. split; [exact DE|]. split; [intros x X; exact X|congruence].
  - apply loss_blocked_Ok in R; [|congruence|rewrite F2; exact Wa|rewrite F3; exact Wd].
    destruct R as (a & h & q2 & nw & d & _ & P & DR & Q' & _).
    destruct (draw_fields _ _ _ DR) as (G1 & G2 & G3 & G4 & G5). qch G1. qch G2. qch G3. qch G4. qch G5.
    assert (D' : q_dep q' = q_dep q) by (rewrite Q'; qc; congruence). split; [rewrite Q'; qc; congruence|]. rewrite D'. split; [auto|].
    left. split; [exact LE|]. split; [rewrite Q'; qc; congruence|]. split; [intros x X; exact X|]. intros _. rewrite Q'. qc. split; [congruence|split; congruence].
Qed.

(** Nothing that matters to others changes. *)
Definition fz (q q' : queue) : Prop :=
  q_cfg q' = q_cfg q /\ q_servers q' = q_servers q /\ q_nsys q' = q_nsys q /\ q_line q' = q_line q /\ q_departed q' = q_departed q /\
  Permutation (ids (in_service q')) (ids (in_service q)).
Lemma fz_refl q : fz q q.
Proof. repeat split; reflexivity. Qed.
Lemma fz_trans q1 q2 q3 : fz q1 q2 -> fz q2 q3 -> fz q1 q3.
Proof.
  intros (A1 & A2 & A3 & A4 & A5 & A6) (B1 & B2 & B3 & B4 & B5 & B6).
  split; [congruence|]. split; [congruence|]. split; [congruence|]. split; [congruence|]. split; [congruence|]. rewrite B6. exact A6.
Qed.
Lemma fz_capacity q q' : fz q q' -> at_capacity q' = at_capacity q.
Proof. intros (A1 & A2 & A3 & _). unfold at_capacity. rewrite A1, A2, A3. reflexivity. Qed.
Lemma fz_dep q q' : q_cfg q' = q_cfg q -> q_servers q' = q_servers q -> q_nsys q' = q_nsys q -> q_line q' = q_line q -> q_departed q' = q_departed q ->
  q_dep q' = q_dep q -> fz q q'.
Proof. intros A B C D E F. repeat split; auto. unfold in_service. rewrite F. reflexivity. Qed.
Lemma fz_stopped max ag q : fz q (stopped max ag q).
Proof. unfold stopped. destruct (q_active q && _); apply fz_dep; reflexivity. Qed.

Lemma fz_block q qm d q' : qinv q -> c_class (q_cfg q) <> CNull -> mark_blocked q = Ok qm -> delay_service d qm = Ok q' -> fz q q'.
Proof.
  intros I N M D. assert (IM : qinv qm).
  { apply mark_facts in M as (a & h & b & DP & B & -> & W & HM & A1 & A2); [|apply I]. destruct I as [I1 I2 I3 I4 I5]. qch W. qch A2. qch HM.
    split; qc; auto; [|congruence]. unfold na in *. rewrite A2. rewrite A1 in I3. exact I3. }
  assert (M0 := M). apply eff_mark in M0 as (_ & _ & M3 & _ & M5 & _); [|apply I].
  apply mark_facts in M as (a & h & b & DP & B & EM & _); [|apply I].
  assert (F1 : q_servers qm = q_servers q /\ q_nsys qm = q_nsys q /\ q_line qm = q_line q /\ q_departed qm = q_departed q) by (rewrite EM; auto).
  destruct F1 as (F1 & F2 & F3 & F4).
  assert (D0 := D). apply eff_delay in D0 as (_ & _ & D3 & _); [|exact IM|congruence].
  apply delay_service_Ok in D; [|congruence|apply IM|apply IM]. destruct D as [(_ & ->)|(a' & h1 & h1' & m & DL)].
  - split; [exact M5|]. repeat (split; [assumption|]). rewrite M3. reflexivity.
  - cbv zeta in DL. destruct DL as (_ & Q' & _). rewrite Q' in *. qc. qch D3. unfold fz. qc. split; [exact M5|]. repeat (split; [assumption|]). rewrite <- M3. exact D3.
Qed.

(** ** Locked queues stay locked *)
Definition locked_at (n : net) (D : nat -> Prop) : Prop :=
  forall k, D k -> exists q l, get (nt_queues n) k = Some q /\ limited q /\ at_capacity q = true /\
    get (nt_out n) (c_tgt (q_cfg q)) = Some l /\ forall e, In e l -> D e /\ e <> k.
(** Queue by queue, nothing happened in [D]. *)
Definition still (D : nat -> Prop) (n n' : net) : Prop :=
  nt_out n' = nt_out n /\ forall k q, D k -> get (nt_queues n) k = Some q -> exists q', get (nt_queues n') k = Some q' /\ fz q q'.
Lemma still_refl D n : still D n n.
Proof. split; [reflexivity|]. intros k q _ G. exists q. split; [exact G|apply fz_refl]. Qed.
Lemma still_same D n n' : nt_out n' = nt_out n -> nt_queues n' = nt_queues n -> still D n n'.
Proof. intros A B. split; [exact A|]. rewrite B. intros k q _ G. exists q. split; [exact G|apply fz_refl]. Qed.
Lemma still_trans D n1 n2 n3 : still D n1 n2 -> still D n2 n3 -> still D n1 n3.
Proof.
  intros [A1 A2] [B1 B2]. split; [congruence|]. intros k q K G. destruct (A2 k q K G) as (q' & G' & F). destruct (B2 k q' K G') as (q2 & G2 & F2).
  exists q2. split; [exact G2|eapply fz_trans; eassumption].
Qed.
Lemma still_locked D n n' : still D n n' -> locked_at n D -> locked_at n' D.
Proof.
  intros [A B] L k K. destruct (L k K) as (q & l & G & LI & CA & O & F). destruct (B k q K G) as (q' & G' & Z).
  exists q', l. split; [exact G'|]. assert (C := proj1 Z). split; [unfold limited; rewrite C; exact LI|].
  split; [rewrite (fz_capacity _ _ Z); exact CA|]. split; [rewrite A, C; exact O|exact F].
Qed.
Lemma still_upd (D : nat -> Prop) n n' k q q' : nt_out n' = nt_out n -> get (nt_queues n) k = Some q -> nt_queues n' = upd (nt_queues n) k q' -> (D k -> fz q q') -> still D n n'.
Proof.
  intros O G E F. split; [exact O|]. rewrite E. intros j qj DJ GJ. destruct (Nat.eq_dec j k) as [->|NE].
  - exists q'. split; [apply get_upd_eq; exact (get_lt _ _ _ G)|]. assert (qj = q) by congruence. subst qj. auto.
  - exists qj. rewrite get_upd_neq by exact NE. split; [exact GJ|apply fz_refl].
Qed.

Lemma limited_not q : limited q -> c_class (q_cfg q) <> CNull /\ c_class (q_cfg q) <> CResource.
Proof. intros [-> | ->]; split; discriminate. Qed.

Lemma still_step D n n' : ninv n -> locked_at n D -> nst n n' -> still D n n'.
Proof.
  intros I L S. destruct S as [SZ ->|t k h q SZ PO G DS ->|t k h q r q' h' SZ PO G DS NX PU LC ->|
    t k h q a h0 l e2 q2 qm q' d h' iu ie td SZ PO G DS DP OUT IN DD G2 NE CA MB RT DE DL NK PU ->|
    t k h q a h0 l e2 q2old b q' q2 q2a r q2' h' iu SZ PO G DS DP OUT IN DD G2 CA NX GE AD NX2 PU LA LB ->].
  - apply still_same; reflexivity.
  - apply still_same; reflexivity.
  - destruct (popped _ _ _ _ I SZ PO) as (W & LE & LK & QK & QM & _ & KS & TT & HB & _). assert (K := KS _ _ G).
    apply still_upd with k q q'; [reflexivity|exact G|reflexivity|]. intro DK. destruct (L k DK) as (q0 & l & G0 & LI & CA & _).
    assert (q0 = q) by congruence. subst q0. destruct (limited_not _ LI) as [NN NR].
    destruct (description_1 _ (qk_inv _ _ _ K) DS) as (_ & LEQ & _ & FI).
    apply fz_trans with (stopped (nt_max n) (nt_nagents n) q); [apply fz_stopped|].
    assert (KS' := qok_stopped _ _ (nt_max n) (nt_nagents n) _ K). assert (CF := next_cfg _ _ _ (qk_inv _ _ _ KS') NX).
    destruct (stopped_same (nt_max n) (nt_nagents n) q) as (S1 & S2 & S3 & S4 & S5 & S6 & _).
    apply next_kinds in NX; [|apply KS'|rewrite S1; assumption|rewrite S1; assumption|rewrite S6; assumption].
    destruct NX as (X1 & _ & [(_ & X2 & _ & X3)|(X2 & _)]).
    + destruct X3 as (X3 & X4 & X5); [rewrite (fz_capacity _ _ (fz_stopped _ _ q)); exact CA|]. apply fz_dep; assumption.
    + exfalso. rewrite S2, S3 in X2. exact (proj1 (eLt_not_le _ _) X2 LEQ).
  - destruct (popped _ _ _ _ I SZ PO) as (W & LE & LK & QK & QM & _ & KS & TT & HB & _). assert (K := KS _ _ G).
    destruct (description_2 _ (qk_inv _ _ _ K) DS) as (N & _).
    apply still_trans with (set_nt_queues (upd (nt_queues n) e2 (set_q_blocked (q_blocked q2 + 1) q2)) n).
    + apply still_upd with e2 q2 (set_q_blocked (q_blocked q2 + 1) q2); [reflexivity|exact G2|reflexivity|]. intros _. apply fz_dep; reflexivity.
    + apply still_upd with k q q'; [reflexivity|nc; rewrite get_upd_neq by congruence; exact G|reflexivity|]. intros _. eapply fz_block; eauto. apply K.
  - assert (ND : ~ D k).
    { intro DK. destruct (L k DK) as (q0 & l0 & G0 & _ & _ & O0 & F). assert (q0 = q) by congruence. subst q0. rewrite OUT in O0. injection O0 as <-.
      destruct (F e2 IN) as [DE NEK]. destruct CA as [CA|CA]; [|congruence]. destruct (L e2 DE) as (q0 & l0 & G0' & _ & C0 & _). congruence. }
    assert (ND2 : ~ D e2).
    { intro DK. destruct (L e2 DK) as (q0 & l0 & G0 & _ & C0 & _). destruct CA as [CA| ->]; [congruence|auto]. }
    split; [reflexivity|]. intros j qj DJ GJ. unfold after. nc. exists qj. split; [|apply fz_refl].
    rewrite get_upd_neq by (intros ->; auto). rewrite get_upd_neq by (intros ->; auto). exact GJ.
Qed.

Lemma active_fz q q' : qinv q -> set_active q = Ok q' -> fz q q'.
Proof.
  intros I H. unfold set_active in H. destruct (q_active q). { injection H as <-. apply fz_refl. }
  unfold add_arrival_self in H. qch H. destruct (c_class (q_cfg q)) eqn:C.
  3:{ injection H as <-. apply fz_dep; reflexivity. }
  all: apply add_arrival_new_Ok in H; [|apply I|apply I]; qch H; cbv zeta in H;
    destruct H as [(T & ->)|[(T & D & CI & ->)|(T & D & a & h & act & -> & _)]]; apply fz_dep; reflexivity.
Qed.

Lemma activate_still D l : forall n n', (forall k q, get (nt_queues n) k = Some q -> qinv q) -> activate l n = Ok n' -> still D n n'.
Proof.
  induction l as [|e l IH]; intros n n' Q H; cbn [activate] in H; [injection H as <-; apply still_refl|].
  mbind H. rename x into q. apply queue_at_Ok in E. mbind H. rename x into q'. mbind H. apply set_count_Ok in E1 as [LC ->].
  apply still_trans with (put_queue e q' n).
  - eapply still_upd; [reflexivity|exact E|reflexivity|]. intros _. apply active_fz; [exact (Q _ _ E)|exact E0].
  - apply IH in H; [exact H|]. nc. intros j qj GJ. apply get_upd in GJ as [[-> ->]|[_ GJ]]; [|exact (Q _ _ GJ)|exact (get_lt _ _ _ E)].
    apply (qinv_set_active _ _ (Q _ _ E) E0).
Qed.
Lemma on_queues_still D f l : (forall q, fz q (f q)) -> forall n n', on_queues f l n = Ok n' -> still D n n'.
Proof.
  intro F. induction l as [|e l IH]; intros n n' H; cbn [on_queues] in H; [injection H as <-; apply still_refl|].
  mbind H. apply queue_at_Ok in E. apply still_trans with (put_queue e (f x) n); [|apply IH; exact H].
  eapply still_upd; [reflexivity|exact E|reflexivity|]. intros _. apply F.
Qed.

(** All calls but clear and simulate leave everybody where they are. *)
Lemma call_still D n c n' : ninv n -> c <> KClear -> (forall o, c = KOp o -> o <> NSim) -> run_call c n = Ok n' -> still D n n'.
Proof.
  intros I NC NS H. destruct c as [sel| | |o]; cbn [run_call] in H.
  - unfold initialize_queues in H. mbind H. destruct (length x =? 0)%nat; [discriminate|]. mbind H. rename x0 into n1. mbind H. injection H as <-.
    apply activate_still with (D := D) in E0; [|intros k q G; apply (ni_q _ I _ _ G)]. destruct E0 as [A B]. split; [exact A|exact B].
  - congruence.
  - unfold net_copy in H. destruct (nt_init n); [mbind H|]; injection H as <-; apply still_same; reflexivity.
  - destruct o as [|b l|l|p|m|b]; cbn [run_nop] in H; [exfalso; apply (NS _ eq_refl); reflexivity| | |injection H as <-; apply still_same; reflexivity..].
    + eapply on_queues_still; [|exact H]. intro q. apply fz_dep; reflexivity.
    + eapply on_queues_still; [|exact H]. intro q. apply fz_dep; reflexivity.
Qed.
Lemma still_call D n c n' : ninv n -> locked_at n D -> c <> KClear -> run_call c n = Ok n' -> still D n n'.
Proof.
  intros I L NC H. destruct c as [sel| | |[]]; try (apply (call_still D _ _ _ I NC) in H; [exact H|congruence]).
  apply still_step; [exact I|exact L|]. apply sim_nst; assumption.
Qed.

Lemma locked_is n D : ninv n -> (locked n D <-> locked_at n D).
Proof.
  intro I. split; intros L k K; destruct (L k K) as (q & l & G & LI & CA & O & F); exists q, l; (split; [exact G|]); (split; [exact LI|]); split; auto;
    apply (full_capacity q (qk_inv _ _ _ (ni_q _ I _ _ G)) LI); exact CA.
Qed.

Theorem locked_forever n0 n n' D : well_made n0 -> nreach usual n0 n -> locked n D -> nreach unbroken n n' ->
  locked n' D /\ forall k q, D k -> get (nt_queues n) k = Some q -> exists q', get (nt_queues n') k = Some q' /\ frozen q q'.
Proof.
  intros W R L R2. assert (X : ninv n' /\ nreach usual n0 n' /\ locked_at n' D /\ still D n n').
  { destruct (ngood_reach _ _ W R) as [I _]. induction R2 as [|n1 c n2 R2 IH US H].
    - split; [exact I|]. split; [exact R|]. split; [apply locked_is; assumption|apply still_refl].
    - destruct IH as (I1 & R1 & L1 & S1). assert (R' : nreach usual n0 n2) by (econstructor; [exact R1|apply US|exact H]).
      destruct (ngood_reach _ _ W R') as [I2 _]. assert (S2 := still_call _ _ _ _ I1 L1 (proj2 US) H).
      split; [exact I2|]. split; [exact R'|]. split; [eapply still_locked; eassumption|eapply still_trans; eassumption]. }
  destruct X as (I' & _ & L' & S). split; [apply locked_is; assumption|]. intros k q K G. destruct (proj2 S k q K G) as (q' & G' & Z).
  exists q'. split; [exact G'|]. destruct Z as (_ & _ & _ & Z4 & Z5 & Z6). split; [|split; assumption]. unfold waiting. rewrite Z4. reflexivity.
Qed.
