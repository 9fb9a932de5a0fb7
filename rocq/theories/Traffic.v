(** * Traffic: who leaves one queue comes to the next *)
From Coq Require Import List ZArith QArith Lia Bool Permutation Arith Sorted.
From Verif Require Import Base Heap HeapProofs PQueue Queue QueueEffects QueueEvents QueueSteps QueueInv SpecQueue QueueFlow QueueHist QueueData QueueRows QueueClaims1 QueueClaims3 SpecLine SpecLittle LineSteps LineProofs LineClaims LineRows LineMore LineNet
  Network NetQueue NetInv SpecNet SpecRefine NetSteps NetReach NetFlow NetActive NetClaims1 NetBare NetRefine NetTotal PropsNet2 SpecLittleNet LittleNet SpecTrail TrailProofs TrailSteps TrailNet SpecTraffic.
Import ListNotations.
Open Scope Z_scope.

(** ** What one call adds *)

Definition came1 (e : entry) : list (aid * ext) := let '(_, _, _, q') := e in map (fun i => (i, q_now q')) (admitted1 e ++ turned_away1 e).
Definition went1 (e : entry) : list (aid * ext) := let '(_, _, _, q') := e in map (fun i => (i, q_now q')) (departed1 e).

Lemma came_snoc log e : came (log ++ [e]) = came log ++ came1 e.
Proof. unfold came. rewrite flat_map_app. cbn [flat_map]. rewrite app_nil_r. reflexivity. Qed.
Lemma went_snoc log e : went (log ++ [e]) = went log ++ went1 e.
Proof. unfold went. rewrite flat_map_app. cbn [flat_map]. rewrite app_nil_r. reflexivity. Qed.

Lemma came1_next q r q' : came1 (ONext, q, r, q') = match arriving q with Some a => [(ag_id a, q_now q')] | None => [] end.
Proof. unfold came1, admitted1, turned_away1. destruct (arriving q); [|reflexivity]. destruct (_ =? _); reflexivity. Qed.

(** The same for a queue that differs by marks only. *)
Lemma root_unmark h : root_time (map unmark_item h) = root_time h.
Proof. destruct h as [|[|a] h]; reflexivity. Qed.
Lemma description_bare q q0 : bare q0 = bare q -> next_event_description q0 = next_event_description q.
Proof.
  intro B. assert (X := f_equal next_event_description B). unfold next_event_description in *. unfold bare in X.
  cbn [set_q_blocked set_q_line set_q_arr set_q_dep q_arr q_dep q_cfg] in X. rewrite !root_unmark in X. exact X.
Qed.
Lemma arriving_bare q q0 : bare q0 = bare q -> option_map ag_id (arriving q0) = option_map ag_id (arriving q).
Proof.
  intro B. unfold arriving. rewrite (description_bare _ _ B). assert (X := f_equal q_arr B). unfold bare in X.
  cbn [set_q_blocked set_q_line set_q_arr set_q_dep q_arr q_dep q_cfg] in X.
  destruct (next_event_description q) as [d|]; [|reflexivity]. destruct d as [|[p|p|]|p]; try reflexivity.
  destruct (q_arr q0) as [|[|a] h], (q_arr q) as [|[|b] h']; cbn in X; try discriminate; try reflexivity.
  cbn. injection X as X. f_equal. exact X.
Qed.
Lemma came1_bare q q0 r r0 q' q0' : bare q0 = bare q -> bare q0' = bare q' -> came1 (ONext, q0, r0, q0') = came1 (ONext, q, r, q').
Proof.
  intros B B'. rewrite !came1_next. assert (X := arriving_bare _ _ B). assert (Y := f_equal q_now B'). cbn in Y.
  destruct (arriving q0), (arriving q); cbn in X; try discriminate; [|reflexivity]. injection X as ->. rewrite Y. reflexivity.
Qed.
Lemma went1_bare q q0 r r0 q' q0' : bare q0' = bare q' -> option_map unmark r0 = option_map unmark r -> went1 (ONext, q0, r0, q0') = went1 (ONext, q, r, q').
Proof.
  intros B' R. unfold went1. assert (Y := f_equal q_now B'). cbn in Y. rewrite Y. f_equal.
  destruct r0, r; cbn in R; try discriminate; [|reflexivity]. cbn. injection R as R. f_equal. exact R.
Qed.

(** ** Histories with traffic *)

Section Told.
Variable SP : Prop.

Definition okt (q : queue) (o : qop) : Prop := okl q o /\ (SP -> match o with ODelay _ => False | _ => True end).

Definition told_log (q00 : queue) (log : list entry) (q : queue) : Prop :=
  exists q0, exec (calls_of log) q00 = Ok (log, q0) /\ all_calls okt log /\ bare q0 = bare q.

Definition told (q : queue) (C W : list (aid * ext)) (q' : queue) : Prop :=
  forall q00 log, told_log q00 log q -> exists log', told_log q00 log' q' /\ came log' = came log ++ C /\ went log' = went log ++ W.

Lemma told_same q q' : bare q' = bare q -> told q [] [] q'.
Proof.
  intros B q00 log (q0 & E & A & B0). exists log. split; [|rewrite !app_nil_r; auto]. exists q0. split; [exact E|]. split; [exact A|]. congruence.
Qed.
Lemma told_after q1 C1 W1 q2 C2 W2 q3 : told q1 C1 W1 q2 -> told q2 C2 W2 q3 -> told q1 (C1 ++ C2) (W1 ++ W2) q3.
Proof.
  intros T1 T2 q00 log H. destruct (T1 _ _ H) as (log1 & H1 & C & W). destruct (T2 _ _ H1) as (log2 & H2 & C' & W').
  exists log2. split; [exact H2|]. rewrite C', C, W', W, !app_assoc. auto.
Qed.
Lemma told_op o q C W q' : (forall q0, bare q0 = bare q -> okt q0 o) ->
  (forall q0, bare q0 = bare q -> exists r0 q0', step o q0 = Ok (r0, q0') /\ bare q0' = bare q' /\ came1 (o, q0, r0, q0') = C /\ went1 (o, q0, r0, q0') = W) -> told q C W q'.
Proof.
  intros OK ST q00 log (q0 & E & A & B0). destruct (ST _ B0) as (r0 & q0' & S1 & B' & C1 & W1).
  exists (log ++ [(o, q0, r0, q0')]). split; [|rewrite came_snoc, went_snoc, C1, W1; auto].
  exists q0'. split; [|split; [|exact B']].
  - unfold calls_of. rewrite map_app. cbn [map fst]. eapply exec_snoc; eassumption.
  - apply Forall_app. split; [exact A|]. constructor; [exact (OK _ B0)|constructor].
Qed.

Lemma okt_calm q o : okl q o -> match o with ODelay _ => False | _ => True end -> okt q o.
Proof. intros A B. split; auto. Qed.

Lemma told_next q r q' : next_event q = Ok (r, q') -> told q (came1 (ONext, q, r, q')) (went1 (ONext, q, r, q')) q'.
Proof.
  intro H. apply (told_op ONext); [intros; apply okt_calm; [split|]; cbn; auto|].
  intros q0 B. destruct (next_same _ _ _ _ B H) as (r0 & q0' & E0 & B' & R). exists r0, q0'. split; [exact E0|]. split; [exact B'|].
  split; [apply came1_bare; assumption|apply went1_bare; assumption].
Qed.
Lemma told_active q q' : set_active q = Ok q' -> told q [] [] q'.
Proof.
  intro H. apply (told_op OActive); [intros; apply okt_calm; [split|]; cbn; auto|].
  intros q0 B. destruct (veil_same _ active_bare _ _ _ B H) as (q0' & E0 & B'). exists None, q0'. cbn [step run_op]. rewrite E0. auto.
Qed.
Lemma told_stopped max ag q : told q [] [] (stopped max ag q).
Proof.
  unfold stopped. destruct (q_active q && _); [|apply told_same; reflexivity].
  apply (told_op OInactive); [intros; apply okt_calm; [split|]; cbn; auto|].
  intros q0 B. exists None, (set_q_active false q0). split; [reflexivity|]. split; [|split; reflexivity].
  assert (E : set_q_active false (bare q0) = set_q_active false (bare q)) by (rewrite B; reflexivity). exact E.
Qed.
Lemma told_add a q q' : eLe (q_now q) (ag_time a) -> fresh q (OArrive a) -> add_arrival a q = Ok q' -> told q [] [] q'.
Proof.
  intros LE FR H. assert (OK : forall q0, bare q0 = bare q -> okt q0 (OArrive a)).
  { intros q0 B. destruct (bare_fields _ _ B) as (C & _ & _ & _ & _ & _ & _ & O & _ & _ & N & _).
    apply okt_calm; [|exact Logic.I]. apply okl_inner; [exact Logic.I|cbn; rewrite N; exact LE|]. cbn in *. rewrite (bare_held _ _ B), C, O. exact FR. }
  apply (told_op (OArrive a)); [exact OK|].
  intros q0 B. destruct (add_same _ _ _ _ B H) as (q0' & E0 & B'). exists None, q0'. cbn [step run_op]. rewrite E0. auto.
Qed.
Lemma told_delay t q q' : ~ SP -> (forall x, t = Some x -> eLe (q_now q) x) -> delay_service t q = Ok q' -> told q [] [] q'.
Proof.
  intros NS LE H. assert (OK : forall q0, bare q0 = bare q -> okt q0 (ODelay t)).
  { intros q0 B. destruct (bare_fields _ _ B) as (_ & _ & _ & _ & _ & _ & _ & _ & _ & _ & N & _).
    split; [|intro X; destruct (NS X)]. apply okl_inner; [exact Logic.I| |exact Logic.I]. cbn. destruct t; [rewrite N; auto|exact Logic.I]. }
  apply (told_op (ODelay t)); [exact OK|].
  intros q0 B. destruct (veil_same _ (fun d => delay_bare d t) _ _ _ B H) as (q0' & E0 & B'). exists None, q0'. cbn [step run_op]. rewrite E0. auto.
Qed.

(** ** Nobody of its own *)

(** A queue that does not create agents has nobody under way to it. *)
Definition bound_in (q q' : queue) : Prop := q_oarr q <= q_oarr q' /\ (q_oarr q' = q_oarr q -> scheduled q = [] -> scheduled q' = []).

Lemma ids_nil l : ids l = [] -> l = [].
Proof. destruct l; [reflexivity|discriminate]. Qed.

Lemma next_own q r q' : qinv q -> c_class (q_cfg q) <> CNull -> next_event q = Ok (r, q') ->
  q_oarr q <= q_oarr q' /\
  (q_oarr q' = q_oarr q -> Permutation (ids (scheduled q)) (ids (scheduled q') ++ admitted1 (ONext, q, r, q') ++ turned_away1 (ONext, q, r, q'))).
Proof.
  intros I N H. assert (SF : flow_ok (ONext, q, r, q') /\ qinv q') by (apply step_flow; auto; exact Logic.I).
  destruct SF as [SF _]. assert (F := fo_flow _ SF). cbn beta iota in F. destruct F as (new & st & F & _).
  assert (P := fl_arr _ _ _ _ _ _ _ _ F). cbn [sent1 app] in P. destruct (fl_new _ _ _ _ _ _ _ _ F) as [[-> E]|[_ E]]; [|split; lia].
  rewrite app_nil_r in P. split; [lia|]. intros _. exact P.
Qed.

Lemma next_bound q r q' : qinv q -> c_class (q_cfg q) <> CNull -> next_event q = Ok (r, q') -> bound_in q q'.
Proof.
  intros I N H. destruct (next_own _ _ _ I N H) as (L & P). split; [exact L|]. intros E S0. specialize (P E). rewrite S0 in P. cbn in P.
  apply Permutation_nil in P. apply app_eq_nil in P as [P _]. apply ids_nil. exact P.
Qed.

(** The agent that is handed over to such a queue comes at once. *)
Lemma enter_told s k max ag q a q1 r q2 : qok s k q -> c_class (q_cfg q) <> CNull -> s <> Inf -> ag_time a = s -> fresh q (OArrive a) ->
  add_arrival a q = Ok q1 -> next_event (stopped max ag q1) = Ok (r, q2) ->
  q_oarr q <= q_oarr q2 /\ exists C, told q C [] q2 /\
    (q_oarr q2 = q_oarr q -> scheduled q = [] -> C = [(ag_id a, s)] /\ scheduled q2 = []).
Proof.
  intros K N NI TA FR AD NX. assert (I1 := qk_inv _ _ _ K). destruct (add_pend _ _ _ I1 N AD) as (P1 & NOW & _).
  assert (IV := qinv_add_arrival _ _ _ I1 AD). assert (AD0 := AD).
  apply add_arrival_Ok in AD as (h & Q1 & WH & PA); [|exact N|apply I1|apply I1].
  assert (CF : q_cfg q1 = q_cfg q) by (rewrite Q1; reflexivity). assert (OA : q_oarr q1 = q_oarr q) by (rewrite Q1; reflexivity).
  assert (PA0 : Permutation (agents_of (q_arr q1)) (a :: agents_of (q_arr q))) by (rewrite Q1; exact PA).
  assert (K1 : qok s k q1).
  { destruct K as [A1 A2 A3 A4 A5 A6]. split; [exact IV|congruence|congruence|congruence| |congruence].
    intros x X. apply (Permutation_in x P1) in X. destruct X as [<-|X]; [rewrite TA; apply eLe_refl|apply A5; exact X]. }
  assert (TS : q_time q1 = s) by (apply eLe_antisym; [apply pend_min; [exact IV|]; apply (Permutation_in _ (Permutation_sym P1)); left; exact TA|apply (qok_time _ _ _ K1)]).
  assert (KS := qok_stopped s k max ag _ K1). assert (CS : q_cfg (stopped max ag q1) = q_cfg q) by (rewrite cfg_stopped; exact CF).
  assert (OS : q_oarr (stopped max ag q1) = q_oarr q) by (unfold stopped; destruct (q_active q1 && _); exact OA).
  assert (SS : scheduled (stopped max ag q1) = scheduled q1) by (unfold stopped; destruct (q_active q1 && _); reflexivity).
  destruct (next_own _ _ _ (qk_inv _ _ _ KS) ltac:(congruence) NX) as (LO & PO).
  assert (IA : In a (agents_of (q_arr q1))).
  { apply (Permutation_in a (Permutation_sym PA0)). left; reflexivity. }
  assert (HA : hmin (q_arr q1) = s).
  { apply eLe_antisym; [rewrite <- TA; apply wfh_min; [apply IV|exact IA]|].
    destruct (wfh_min_cases _ (qi_arr _ IV)) as [Y|(b & B & T)]; [rewrite Y; apply eLe_Inf|].
    rewrite <- T. apply (qk_pend _ _ _ K1). unfold pend. apply in_or_app. left. apply in_map. exact B. }
  assert (HD : eLe s (hmin (q_dep q1))).
  { destruct (wfh_min_cases _ (qi_dep _ IV)) as [Y|(b & B & T)]; [rewrite Y; apply eLe_Inf|].
    rewrite <- T. apply (qk_pend _ _ _ K1). unfold pend. apply in_or_app. right. apply in_map. exact B. }
  assert (DS : next_event_description (stopped max ag q1) = Ok 1).
  { assert (D1 : next_event_description q1 = Ok 1).
    { unfold next_event_description. rewrite (wfh_root_time _ (qi_arr _ IV)), (wfh_root_time _ (qi_dep _ IV)). cbn [bind].
      rewrite HA. assert (L1 : eltb (hmin (q_dep q1)) s = false) by (apply eltb_ge; exact HD). rewrite L1.
      assert (L2 : eltb s Inf = true) by (destruct s; [reflexivity|congruence]). rewrite L2. rewrite CF. destruct (c_class (q_cfg q)); congruence. }
    rewrite <- D1. unfold stopped. destruct (q_active q1 && _); reflexivity. }
  destruct (arr_event _ _ _ (qk_inv _ _ _ KS) DS NX) as (RN & _).
  split; [lia|]. exists (came1 (ONext, stopped max ag q1, r, q2)). split.
  - assert (L : told q [] [] q1) by (apply (told_add a); [rewrite TA; apply K|exact FR|exact AD0]).
    assert (L2 := told_stopped max ag q1). assert (L3 := told_next _ _ _ NX). rewrite RN in L3 at 2. rewrite RN in *.
    exact (told_after _ _ _ _ _ _ _ L (told_after _ _ _ _ _ _ _ L2 L3)).
  - intros E S0. specialize (PO ltac:(lia)). rewrite SS in PO.
    assert (S1 : ids (scheduled q1) = [ag_id a]).
    { assert (X : Permutation (scheduled q1) (a :: scheduled q)) by exact PA0. rewrite S0 in X.
      apply Permutation_sym, Permutation_length_1_inv in X. rewrite X. reflexivity. }
    assert (NOW2 : q_now q2 = s).
    { eapply next_now; [exact KS|congruence| |exact NI|exact NX]. rewrite time_stopped. exact TS. }
    assert (AR : admitted1 (ONext, stopped max ag q1, r, q2) ++ turned_away1 (ONext, stopped max ag q1, r, q2) = [ag_id a]).
    { rewrite S1 in PO. assert (QA : q_arr (stopped max ag q1) = q_arr q1) by (unfold stopped; destruct (q_active q1 && _); reflexivity).
      destruct (arriving (stopped max ag q1)) as [b|] eqn:AB.
      - assert (X : admitted1 (ONext, stopped max ag q1, r, q2) ++ turned_away1 (ONext, stopped max ag q1, r, q2) = [ag_id b]).
        { unfold admitted1, turned_away1. rewrite AB. destruct (_ =? _); reflexivity. }
        rewrite X in *. assert (IB : In (ag_id b) [ag_id a]) by (apply (Permutation_in _ (Permutation_sym PO)); apply in_or_app; right; left; reflexivity).
        destruct IB as [->|[]]. reflexivity.
      - exfalso. unfold arriving in AB. rewrite DS, QA in AB. destruct (q_arr q1) as [|[|x] h1] eqn:QQ; [| |discriminate].
        + destruct (wfh_nonempty _ (qi_arr _ IV)) as (x & h1 & X). congruence.
        +
          unfold next_event_description in DS. rewrite QA in DS. cbn [root_time bind] in DS.
          destruct (c_class (q_cfg (stopped max ag q1))); destruct (root_time (q_dep (stopped max ag q1))) as [d|]; cbn [bind] in DS; try discriminate DS; destruct d; cbn in DS; discriminate DS. }
    split.
    + unfold came1. rewrite AR, NOW2. reflexivity.
    + rewrite AR, S1 in PO. change [ag_id a] with ([] ++ [ag_id a]) in PO at 1. apply Permutation_app_inv_r, Permutation_nil in PO. apply ids_nil. exact PO.
Qed.
(** ** One event of the network *)

Definition moves_ok (n n' : net) (M1 : list move) : Prop :=
  (M1 = [] \/ exists m, M1 = [m] /\ m_when m = nt_t n' /\ follows n (m_from m) (m_to m)) /\
  forall k q, get (nt_queues n) k = Some q -> c_class (q_cfg q) <> CNull ->
    exists q' C, get (nt_queues n') k = Some q' /\ told q C (sent_by k M1) q' /\ q_oarr q <= q_oarr q' /\
      (q_oarr q' = q_oarr q -> scheduled q = [] -> C = sent_to k M1 /\ scheduled q' = []).

Lemma unmoved (n n' : net) k q : get (nt_queues n') k = Some q ->
  exists q' C, get (nt_queues n') k = Some q' /\ told q C (sent_by k []) q' /\ q_oarr q <= q_oarr q' /\
      (q_oarr q' = q_oarr q -> scheduled q = [] -> C = sent_to k [] /\ scheduled q' = []).
Proof. intros G. exists q, []. split; [exact G|]. split; [apply told_same; reflexivity|]. split; [lia|]. auto. Qed.

Lemma no_moves n n' : nt_queues n' = nt_queues n -> moves_ok n n' [].
Proof. intro Q. split; [auto|]. intros k q G _. apply (unmoved n). rewrite Q. exact G. Qed.

Lemma stopped_own max ag q : q_oarr (stopped max ag q) = q_oarr q /\ scheduled (stopped max ag q) = scheduled q /\ next_event_description (stopped max ag q) = next_event_description q.
Proof. unfold stopped. destruct (q_active q && _); repeat split; reflexivity. Qed.

Lemma event_told n n' : ninv n -> uniq n -> nst n n' -> (SP -> limitless (nt_queues n)) -> exists M1, moves_ok n n' M1.
Proof.
  intros I U S LM. destruct S as [SZ ->|t j h q1 SZ PO G DS ->|t j h q1 r q1' h' SZ PO G DS NX PU LC ->|
    t j h q1 a h0 l e2 q2 qm q1' d h' iu ie td SZ PO G DS DP OUT IN DD G2 NE CA MB RT DE DL NK PU ->|
    t j h q1 a h0 l e2 q2old b q1' q2 q2a r q2' h' iu SZ PO G DS DP OUT IN DD G2 CA NX GE AD NX2 PU LA LB ->].
  - exists []. apply no_moves. reflexivity.
  - exists []. apply no_moves. reflexivity.
  - exists []. split; [auto|]. intros k q GK NK0. destruct (popped _ _ _ _ I SZ PO) as (W & LE & LK & QK & QM & _ & KS & TT & HB & _).
    destruct (Nat.eq_dec j k) as [->|NJ]; [|apply (unmoved n); unfold after; nc; rewrite get_upd_neq by congruence; exact GK].
    assert (q1 = q) by congruence. subst q1. assert (K := KS _ _ G).
    destruct (description_1 _ (qk_inv _ _ _ K) DS) as (_ & _ & TA & FI).
    destruct (stopped_own (nt_max n) (nt_nagents n) q) as (O1 & O2 & O3). rewrite <- O3 in DS.
    assert (KS1 := qok_stopped t k (nt_max n) (nt_nagents n) _ K).
    destruct (arr_event _ _ _ (qk_inv _ _ _ KS1) DS NX) as (RN & _). subst r.
    exists q1', (came1 (ONext, stopped (nt_max n) (nt_nagents n) q, None, q1')). unfold after. nc. split; [apply get_upd_eq; exact LK|]. split; [|split].
    + assert (L2 := told_stopped (nt_max n) (nt_nagents n) q). assert (L3 := told_next _ _ _ NX). exact (told_after _ _ _ _ _ _ _ L2 L3).
    + assert (X := next_own _ _ _ (qk_inv _ _ _ KS1) ltac:(rewrite cfg_stopped; exact NK0) NX). lia.
    + intros _ S0. exfalso. destruct (wfh_min_cases _ (qi_arr _ (qk_inv _ _ _ K))) as [Y|(b & B & T)]; [congruence|].
      assert (X : In b (scheduled q)) by exact B. rewrite S0 in X. destruct X.
  - destruct (popped _ _ _ _ I SZ PO) as (W & LE & LK & QK & QM & _ & KS & TT & HB & _).
    assert (K := KS _ _ G). assert (K2 := KS _ _ G2). destruct (qok_mark _ _ _ _ K MB) as (KM & _ & _ & CM & _).
    exists []. split; [auto|]. intros k q GK NK0. unfold after. nc.
    assert (NSP : ~ SP).
    { intro X. assert (Y := LM X q2 ltac:(unfold get in G2; eapply nth_error_In; exact G2)). unfold at_capacity in CA. destruct Y as [Y|Y]; rewrite Y in CA; discriminate. }
    destruct (Nat.eq_dec j k) as [->|NJ]; [|destruct (Nat.eq_dec e2 k) as [->|NE2]].
    + assert (q1 = q) by congruence. subst q1. exists q1', []. split; [apply get_upd_eq; rewrite upd_length; exact LK|].
      assert (BM := bare_mark _ _ MB). assert (OM : q_oarr qm = q_oarr q) by exact (f_equal q_oarr BM).
      destruct (bare_ids _ _ BM) as (SM & _).
      assert (DO : q_oarr q1' = q_oarr qm /\ scheduled q1' = scheduled qm).
      { apply delay_service_Ok in DL; [|congruence|apply KM|apply KM]. destruct DL as [(_ & ->)|(x & y & y' & m & DL)]; [auto|].
        cbv zeta in DL. destruct DL as (_ & -> & _). split; reflexivity. }
      destruct DO as [DO1 DO2]. split; [|split; [lia|]].
      * apply (told_after _ [] [] qm [] []); [apply told_same; exact BM|]. apply (told_delay d); [exact NSP| |exact DL].
        intros x ->. destruct (nt_bas n); [|discriminate]. injection DE as ->.
        apply eLe_trans with t; [apply (qk_now _ _ _ KM)|].
        apply eLe_trans with td; [|apply eadd_ge; apply I].
        rewrite (wfh_root_time _ (qi_dep _ (qk_inv _ _ _ K2))) in RT. injection RT as <-.
        destruct (wfh_min_cases _ (qi_dep _ (qk_inv _ _ _ K2))) as [Y|(b & B & T)]; [rewrite Y; apply eLe_Inf|].
        rewrite <- T. apply (qk_pend _ _ _ K2). unfold pend. apply in_or_app. right. apply in_map; exact B.
      * intros _ S0. split; [reflexivity|]. rewrite DO2. rewrite S0 in SM. apply ids_nil. exact SM.
    + assert (q2 = q) by congruence. subst q2. exists (set_q_blocked (q_blocked q + 1) q), [].
      rewrite get_upd_neq by congruence. split; [apply get_upd_eq; eapply get_lt; exact G2|].
      assert (B : bare (set_q_blocked (q_blocked q + 1) q) = bare q) by reflexivity.
      split; [apply told_same; exact B|]. split; [cbn; lia|]. intros _ S0. split; [reflexivity|exact S0].
    + exists q, []. rewrite !get_upd_neq by congruence. split; [exact GK|]. split; [apply told_same; reflexivity|]. split; [lia|auto].
  - destruct (popped _ _ _ _ I SZ PO) as (W & LE & LK & QK & QM & _ & KS & TT & HB & _).
    assert (K := KS _ _ G). destruct (description_2 _ (qk_inv _ _ _ K) DS) as (NN & _ & _ & FI).
    assert (TQ : q_time q1 = t) by (destruct (TT _ G); [assumption|congruence]). assert (FT : t <> Inf) by congruence.
    destruct (dep_event _ _ _ _ _ (qk_inv _ _ _ K) DS DP NX) as (b0 & EB & IDB & _ & HH & OB & _ & _ & _ & SB & _). injection EB as <-.
    destruct (qok_next t j _ _ _ K TQ FT NX) as (K' & _). assert (CF' := next_cfg _ _ _ (qk_inv _ _ _ K) NX).
    assert (NOW1 : q_now q1' = t) by (eapply next_now; [exact K|exact NN|exact TQ|exact FT|exact NX]).
    assert (T1 : told q1 [] [(ag_id a, t)] q1').
    { assert (X := told_next _ _ _ NX). rewrite came1_next in X. assert (AN : arriving q1 = None) by (unfold arriving; rewrite DS; reflexivity).
      rewrite AN in X. unfold went1 in X. cbn [departed1 map] in X. rewrite NOW1, IDB in X. exact X. }
    assert (K2 : qok t e2 q2).
    { apply get_upd in GE as [[-> ->]|[NE GE]]; [exact K'|apply KS; exact GE|exact LK]. }
    exists [mkMove j e2 (ag_id a) t]. unfold after. split.
    { right. exists (mkMove j e2 (ag_id a) t). split; [reflexivity|]. cbn [m_when m_from m_to]. nc. split; [reflexivity|]. exists q1, l. auto. }
    intros k q GK NK0. nc. unfold sent_by, sent_to. cbn [filter m_from m_to].
    destruct (Nat.eq_dec e2 k) as [->|NE2].
    + rewrite Nat.eqb_refl.
      assert (N2 : c_class (q_cfg q2) <> CNull).
      { apply get_upd in GE as [[-> ->]|[NE GE]]; [congruence|congruence|exact LK]. }
      assert (FR : fresh q2 (OArrive (set_ag_time t b))).
      { destruct U as [ND BD]. assert (IN1 : In (ag_id a) (held q1)).
        { apply (Permutation_in (ag_id a) (Permutation_sym HH)). left; reflexivity. }
        assert (EV : In (ag_id a) (everyone n)) by exact (held_everyone _ _ _ _ G IN1).
        assert (NQ : ~ In (ag_id a) (held q1')).
        { assert (N1 : NoDup (held q1)).
          { clear - ND G. unfold everyone in ND. revert j G. induction (nt_queues n) as [|q0 qs IH]; intros j G; [destruct j; discriminate|].
            cbn in ND. destruct j as [|j]; [injection G as ->; apply nodup_l in ND; exact ND|]. apply nodup_r in ND. eapply IH; eassumption. }
          apply (Permutation_NoDup HH) in N1. inversion N1; assumption. }
        cbn [fresh]. change (ag_id (set_ag_time t b)) with (ag_id b). rewrite IDB. rewrite (qk_idx _ _ _ K2). split.
        - apply get_upd in GE as [[-> ->]|[NE GE]]; [exact NQ| |exact LK].
          intro X2. apply NE. symmetry. eapply one_queue; [exact ND|exact G|exact GE|exact IN1|exact X2].
        - intro FE. destruct (BD _ EV) as (q3 & G3 & LT). rewrite FE in G3.
          apply get_upd in GE as [[-> ->]|[NE GE]]; [| |exact LK].
          * assert (q3 = q1) by congruence. subst q3. rewrite OB. exact LT.
          * assert (q3 = q2) by congruence. subst q3. exact LT. }
      destruct (enter_told t _ _ _ _ (set_ag_time t b) _ _ _ K2 N2 FT eq_refl FR AD NX2) as (LO & C & T2 & QU).
      change (ag_id (set_ag_time t b)) with (ag_id b) in QU. rewrite IDB in QU.
      apply get_upd in GE as [[-> ->]|[NE GE]]; [| |exact LK].
      * assert (q1 = q) by congruence. subst q1. rewrite Nat.eqb_refl. cbn [map m_who m_when].
        exists q2', C. split; [apply get_upd_eq; rewrite upd_length; exact LK|].
        split; [exact (told_after _ _ _ _ _ _ _ T1 T2)|]. split; [lia|]. intros E S0. apply QU; [lia|].
        rewrite S0 in SB. apply Permutation_sym, Permutation_nil in SB. exact SB.
      * assert (q2 = q) by congruence. subst q2. rewrite (proj2 (Nat.eqb_neq j k)) by congruence. cbn [map m_who m_when].
        exists q2', C. split; [apply get_upd_eq; rewrite upd_length; eapply get_lt; exact G2|]. auto.
    + rewrite get_upd_neq by congruence. rewrite (proj2 (Nat.eqb_neq e2 k)) by congruence. destruct (Nat.eq_dec j k) as [->|NJ].
      * assert (q1 = q) by congruence. subst q1. rewrite Nat.eqb_refl. cbn [map m_who m_when].
        exists q1', []. split; [apply get_upd_eq; exact LK|]. split; [exact T1|]. split; [lia|]. intros _ S0. split; [reflexivity|].
        rewrite S0 in SB. apply Permutation_sym, Permutation_nil in SB. exact SB.
      * rewrite (proj2 (Nat.eqb_neq j k)) by congruence. cbn [map].
        exists q, []. rewrite get_upd_neq by congruence. split; [exact GK|]. split; [apply told_same; reflexivity|]. split; [lia|auto].
Qed.
(** ** The other calls *)

Lemma active_bound q q' : qinv q -> set_active q = Ok q' -> bound_in q q'.
Proof.
  intros I H. unfold set_active in H. destruct (q_active q); [injection H as <-; split; [lia|auto]|]. unfold add_arrival_self in H. qch H.
  assert (X : add_arrival_new (set_q_active true q) = Ok q' -> bound_in q q').
  { intro E. apply add_arrival_new_Ok in E; [|apply I|apply I]. cbv zeta in E. qch E.
    destruct E as [(_ & ->)|[(_ & _ & _ & ->)|(_ & _ & a & h & act & -> & _)]]; split; qc; try lia; auto. }
  destruct (c_class (q_cfg q)); try (apply X; exact H). injection H as <-. split; [qc; lia|auto].
Qed.

Lemma bound_trans q1 q2 q3 : bound_in q1 q2 -> bound_in q2 q3 -> bound_in q1 q3.
Proof. intros (A & B) (C & D). split; [lia|]. intros E S. apply D; [lia|]. apply B; [lia|exact S]. Qed.

Lemma activate_told l : forall n n' k q, (forall k q, get (nt_queues n) k = Some q -> qinv q) -> activate l n = Ok n' -> get (nt_queues n) k = Some q ->
  exists q', get (nt_queues n') k = Some q' /\ told q [] [] q' /\ bound_in q q'.
Proof.
  induction l as [|e l IH]; intros n n' k q I E G; cbn [activate] in E.
  - injection E as <-. exists q. split; [exact G|]. split; [apply told_same; reflexivity|split; [lia|auto]].
  - mbind E. rename x into qe. apply queue_at_Ok in E0. mbind E. rename x into qe'. mbind E. apply set_count_Ok in E2 as [LC ->].
    assert (LT := get_lt _ _ _ E0). assert (IE := I _ _ E0).
    assert (I' : forall j w, get (upd (nt_queues n) e qe') j = Some w -> qinv w).
    { intros j w GW. apply get_upd in GW as [[-> ->]|[_ GW]]; [|eapply I; exact GW|exact LT]. exact (qinv_op OActive _ _ IE E1). }
    destruct (Nat.eq_dec e k) as [->|NE].
    + assert (qe = q) by congruence. subst qe. apply IH with (k := k) (q := qe') in E; [|nc; exact I'|nc; apply get_upd_eq; exact LT].
      destruct E as (q' & G' & L & V). exists q'. split; [exact G'|].
      assert (L1 := told_active _ _ E1). assert (V1 := active_bound _ _ IE E1).
      split; [exact (told_after _ _ _ _ _ _ _ L1 L)|eapply bound_trans; eassumption].
    + apply IH with (k := k) (q := q) in E; [|nc; exact I'|nc; rewrite get_upd_neq by congruence; exact G]. exact E.
Qed.

Lemma activate_time l : forall n n', activate l n = Ok n' -> nt_t n' = nt_t n.
Proof.
  induction l as [|e l IH]; intros n n' E; cbn [activate] in E; [injection E as <-; reflexivity|].
  mbind E. mbind E. mbind E. apply set_count_Ok in E2 as [_ ->]. apply IH in E. exact E.
Qed.

Lemma collect_told l : forall n n' k q, on_queues (set_q_collect true) l n = Ok n' -> get (nt_queues n) k = Some q ->
  exists q', get (nt_queues n') k = Some q' /\ told q [] [] q' /\ bound_in q q'.
Proof.
  induction l as [|e l IH]; intros n n' k q E G; cbn [on_queues] in E.
  - injection E as <-. exists q. split; [exact G|]. split; [apply told_same; reflexivity|split; [lia|auto]].
  - mbind E. rename x into qe. apply queue_at_Ok in E0. assert (LT := get_lt _ _ _ E0).
    destruct (Nat.eq_dec e k) as [->|NE].
    + assert (qe = q) by congruence. subst qe. apply IH with (k := k) (q := set_q_collect true q) in E; [|nc; apply get_upd_eq; exact LT].
      destruct E as (q' & G' & L & V). exists q'. split; [exact G'|].
      assert (L1 : told q [] [] (set_q_collect true q)).
      { apply (told_op (OCollect true)); [intros; apply okt_calm; [split|]; cbn; auto|]. intros q0 B. exists None, (set_q_collect true q0). split; [reflexivity|].
        split; [|split; reflexivity]. assert (X : set_q_collect true (bare q0) = set_q_collect true (bare q)) by (rewrite B; reflexivity). exact X. }
      split; [exact (told_after _ _ _ _ _ _ _ L1 L)|exact V].
    + apply IH with (k := k) (q := q) in E; [|nc; rewrite get_upd_neq by congruence; exact G]. exact E.
Qed.

Lemma call_told n0 n c n' : well_made n0 -> nreach usual n0 n -> recording n c -> run_call c n = Ok n' -> (SP -> limitless (nt_queues n)) ->
  eLe (nt_t n) (nt_t n') /\ exists M1, moves_ok n n' M1.
Proof.
  intros W R [[US NC] RC] H LM. assert (GD := ngood_reach _ _ W R). destruct GD as [I _]. assert (U := uniq_reach _ _ W R).
  assert (CALM : nt_t n' = nt_t n -> (forall k q, get (nt_queues n) k = Some q -> exists q', get (nt_queues n') k = Some q' /\ told q [] [] q' /\ bound_in q q') ->
    eLe (nt_t n) (nt_t n') /\ exists M1, moves_ok n n' M1).
  { intros T Q. split; [rewrite T; apply eLe_refl|]. exists []. split; [auto|]. intros k q G _. destruct (Q _ _ G) as (q' & G' & TD & B1 & B2).
    exists q', []. split; [exact G'|]. split; [exact TD|]. split; [exact B1|]. auto. }
  assert (SAME : nt_t n' = nt_t n -> nt_queues n' = nt_queues n -> eLe (nt_t n) (nt_t n') /\ exists M1, moves_ok n n' M1).
  { intros T Q. apply CALM; [exact T|]. intros k q G. exists q. rewrite Q. split; [exact G|]. split; [apply told_same; reflexivity|split; [lia|auto]]. }
  destruct c as [sel| | |o]; cbn [run_call] in H.
  - unfold initialize_queues in H. mbind H. destruct (length x =? 0)%nat; [discriminate|]. mbind H. mbind H. injection H as <-. nc.
    assert (TE : nt_t x0 = nt_t n).
    { eapply activate_time; exact E0. }
    split; [rewrite TE; apply eLe_refl|]. apply CALM; [exact TE|].
    intros k q G. apply (activate_told _ _ _ k q) in E0 as (q' & G' & L & V); [|intros j w GW; apply (ni_q _ I _ _ GW)|exact G]. eauto 6.
  - congruence.
  - unfold net_copy in H. apply SAME; (destruct (nt_init n); [mbind H|]; injection H as <-; reflexivity).
  - destruct o as [|b l|l|p|m|b]; cbn [run_nop] in H.
    + apply sim_nst in H; [|exact I]. split; [apply (ninv_step _ _ I H)|]. apply event_told; assumption.
    + cbn in RC. subst b. apply CALM; [eapply on_time; exact H|]. intros k q G. eapply collect_told; eassumption.
    + destruct RC.
    + injection H as <-. apply SAME; reflexivity.
    + injection H as <-. apply SAME; reflexivity.
    + injection H as <-. apply SAME; reflexivity.
Qed.

(** ** The whole history *)

Lemma sent_by_app k M N : sent_by k (M ++ N) = sent_by k M ++ sent_by k N.
Proof. unfold sent_by. rewrite filter_app, map_app. reflexivity. Qed.
Lemma sent_to_app k M N : sent_to k (M ++ N) = sent_to k M ++ sent_to k N.
Proof. unfold sent_to. rewrite filter_app, map_app. reflexivity. Qed.

Lemma logs_choice (P : nat -> list entry -> Prop) m : (forall k, exists log, P k log) -> exists logs, forall k, (k < m)%nat -> P k (logs k).
Proof.
  intro H. induction m as [|m (logs & IH)]; [exists (fun _ => []); intros; lia|]. destruct (H m) as (log & L).
  exists (fun k => if Nat.eqb k m then log else logs k). intros k K. destruct (Nat.eqb_spec k m) as [->|N]; [exact L|]. apply IH. lia.
Qed.

Lemma sorted_snoc M m : StronglySorted in_order M -> (forall x, In x M -> in_order x m) -> StronglySorted in_order (M ++ [m]).
Proof.
  induction M as [|x M IH]; intros SS L; cbn [app]; [constructor; constructor|]. inversion SS; subst. constructor.
  - apply IH; [assumption|]. intros y Y. apply L. right; exact Y.
  - apply Forall_app. split; [assumption|]. constructor; [|constructor]. apply L. left; reflexivity.
Qed.

Definition tale (n1 n : net) (M : list move) (logs : nat -> list entry) : Prop :=
  StronglySorted in_order M /\ (forall m, In m M -> eLe (m_when m) (nt_t n) /\ follows n (m_from m) (m_to m)) /\
  forall k q1, get (nt_queues n1) k = Some q1 -> c_class (q_cfg q1) <> CNull ->
    exists q, get (nt_queues n) k = Some q /\ told_log q1 (logs k) q /\ went (logs k) = sent_by k M /\
      q_oarr q1 <= q_oarr q /\ (q_oarr q = q_oarr q1 -> scheduled q1 = [] -> came (logs k) = sent_to k M /\ scheduled q = []).

Lemma tale_reach n0 n1 n : well_made n0 -> nreach usual n0 n1 -> (SP -> limitless (nt_queues n1)) -> nreach recording n1 n ->
  nreach usual n0 n /\ exists M logs, tale n1 n M logs.
Proof.
  intros W R1 LM R. induction R as [|n c n' R (RU & M & logs & ST & MO & Q) OK H].
  - split; [exact R1|]. exists [], (fun _ => []). split; [constructor|]. split; [intros m []|]. intros k q1 G N. exists q1. split; [exact G|].
    split; [|split; [reflexivity|split; [lia|auto]]]. exists q1. split; [reflexivity|]. split; [constructor|reflexivity].
  - assert (RU' : nreach usual n0 n') by (eapply nreach_step; [exact RU|apply OK|exact H]). split; [exact RU'|].
    destruct (same_graph _ _ W R1) as (O1 & C1). destruct (same_graph _ _ W RU) as (O2 & C2). destruct (same_graph _ _ W RU') as (O3 & C3).
    assert (LM' : SP -> limitless (nt_queues n)).
    { intros X q IQ. apply LM in X. assert (IC : In (q_cfg q) (map q_cfg (nt_queues n1))) by (rewrite C1, <- C2; apply in_map; exact IQ).
      apply in_map_iff in IC as (q1 & E & IC). rewrite <- E. apply X. exact IC. }
    destruct (call_told _ _ _ _ W RU OK H LM') as (TL & M1 & MS & QS).
    assert (FM : forall j k, follows n j k -> follows n' j k) by (apply follows_mono; congruence).
    exists (M ++ M1).
    assert (QN : forall k, exists log', forall q1, get (nt_queues n1) k = Some q1 -> c_class (q_cfg q1) <> CNull ->
      exists q, get (nt_queues n') k = Some q /\ told_log q1 log' q /\ went log' = sent_by k (M ++ M1) /\
      q_oarr q1 <= q_oarr q /\ (q_oarr q = q_oarr q1 -> scheduled q1 = [] -> came log' = sent_to k (M ++ M1) /\ scheduled q = [])).
    { intro k. destruct (get (nt_queues n1) k) as [q1|] eqn:G1; [|exists []; intros q1 X; discriminate].
      assert (DN : c_class (q_cfg q1) = CNull \/ c_class (q_cfg q1) <> CNull) by (destruct (c_class (q_cfg q1)); auto; right; discriminate).
      destruct DN as [DN|DN]; [exists []; intros q2 X; congruence|].
      destruct (Q _ _ G1 DN) as (q & G & TD & WE & OL & QU).
      assert (CF : q_cfg q = q_cfg q1).
      { assert (X := f_equal (fun l => nth_error l k) C1). assert (Y := f_equal (fun l => nth_error l k) C2). cbn beta in X, Y.
        rewrite !nth_error_map in X, Y. unfold get in G, G1. rewrite G1 in X. rewrite G in Y. destruct (nth_error (nt_queues n0) k); cbn in *; congruence. }
      destruct (QS _ _ G ltac:(congruence)) as (q' & C & G' & TD' & OL' & QU'). destruct (TD' _ _ TD) as (log' & TL' & CE & WT).
      exists log'. intros q2 X NX. assert (q2 = q1) by congruence. subst q2. exists q'. split; [exact G'|]. split; [exact TL'|].
      split; [rewrite sent_by_app, WT, WE; reflexivity|]. split; [lia|]. intros E S0. destruct (QU ltac:(lia) S0) as (CM & SQ). destruct (QU' ltac:(lia) SQ) as (-> & S').
      split; [rewrite sent_to_app, CE, CM; reflexivity|exact S']. }
    apply (logs_choice _ (length (nt_queues n1))) in QN as (logs' & QN). exists logs'. split; [|split].
    + destruct MS as [->|(m & -> & MW & _)]; [rewrite app_nil_r; exact ST|]. apply sorted_snoc; [exact ST|].
      intros x X. unfold in_order. rewrite MW. eapply eLe_trans; [apply (MO x X)|exact TL].
    + intros m IM. apply in_app_or in IM as [IM|IM].
      * destruct (MO _ IM) as (A & B). split; [eapply eLe_trans; eassumption|auto].
      * destruct MS as [->|(m' & -> & MW & F)]; [destruct IM|]. destruct IM as [<-|[]]. rewrite MW. split; [apply eLe_refl|auto].
    + intros k q1 GQ. apply QN; [eapply get_lt; exact GQ|exact GQ].
Qed.
End Told.
