(** * LittleNet: Little's law at the queues of a network *)
From Coq Require Import List ZArith QArith Lia Bool Permutation Arith.
From Verif Require Import Base Heap HeapProofs PQueue Queue QueueEffects QueueEvents QueueSteps QueueInv SpecQueue QueueFlow QueueHist QueueData QueueRows QueueClaims1 QueueClaims3 SpecLine SpecLittle LineSteps LineProofs LineClaims LineRows LineMore LineNet
  Network NetQueue NetInv SpecNet SpecRefine NetSteps NetReach NetFlow NetClaims1 NetBare NetRefine NetTotal PropsNet2 SpecLittleNet.
Import ListNotations.
Open Scope Z_scope.

(** ** The three numbers *)

Definition plain (f : queue -> Z) : Prop := f = q_nsys \/ f = nwaiting \/ f = serving.

(** Neither the time nor the numbers change. *)
Definition level (q q' : queue) : Prop := q_now q' = q_now q /\ forall f, plain f -> f q' = f q.

Lemma level_refl q : level q q.
Proof. split; auto. Qed.
Lemma level_trans q1 q2 q3 : level q1 q2 -> level q2 q3 -> level q1 q3.
Proof. intros (A & B) (C & D). split; [congruence|]. intros f F. rewrite (D f F). auto. Qed.
Lemma level_make q q' : q_now q' = q_now q -> q_nsys q' = q_nsys q -> q_line q' = q_line q -> serving q' = serving q -> level q q'.
Proof. intros A B C D. split; [exact A|]. intros f [->|[->| ->]]; [exact B| |exact D]. unfold nwaiting, waiting. rewrite C. reflexivity. Qed.

Lemma level_bare q q' : bare q' = bare q -> level q q'.
Proof.
  intro B. assert (F := bare_fields _ _ B). destruct (bare_serving _ _ B) as (S1 & S2). split; [apply F|].
  intros f [->|[->| ->]]; [apply F|exact S2|exact S1].
Qed.
Lemma level_stopped max ag q : level q (stopped max ag q).
Proof. unfold stopped. destruct (q_active q && _); [|apply level_refl]. apply level_make; reflexivity. Qed.
Lemma level_add a q q' : qinv q -> c_class (q_cfg q) <> CNull -> add_arrival a q = Ok q' -> level q q'.
Proof. intros I N H. apply add_arrival_Ok in H as (h & -> & _); [|exact N|apply I|apply I]. apply level_make; reflexivity. Qed.
Lemma level_active q q' : qinv q -> set_active q = Ok q' -> level q q'.
Proof.
  intros I H. unfold set_active in H. destruct (q_active q); [injection H as <-; apply level_refl|]. unfold add_arrival_self in H. qch H.
  assert (X : add_arrival_new (set_q_active true q) = Ok q' -> level q q').
  { intro E. apply add_arrival_new_Ok in E; [|apply I|apply I]. cbv zeta in E. qch E.
    destruct E as [(_ & ->)|[(_ & _ & _ & ->)|(_ & _ & a & h & act & -> & _)]]; apply level_make; reflexivity. }
  destruct (c_class (q_cfg q)); try (apply X; exact H). injection H as <-. apply level_make; reflexivity.
Qed.
Lemma level_delay d q q' : qinv q -> c_class (q_cfg q) <> CNull -> delay_service d q = Ok q' -> level q q'.
Proof.
  intros I N H. apply delay_service_Ok in H; [|exact N|apply I|apply I]. destruct H as [(_ & ->)|(a & h & h' & m & H)]; [apply level_refl|].
  cbv zeta in H. destruct H as (_ & -> & _ & _ & _ & P1 & P2 & _). apply level_make; try reflexivity.
  unfold serving, in_service. change agents_in with agents_of. qc. rewrite (Permutation_length P1), (Permutation_length P2). reflexivity.
Qed.

(** ** Histories with areas *)

Definition okl (q : queue) (o : qop) : Prop := orderly q o /\ keeps_data o.
Lemma okl_inner q o : inner o -> no_past q o -> fresh q o -> okl q o.
Proof. intros IN NP FR. unfold okl. destruct o; cbn in *; tauto. Qed.

Definition harea (q00 : queue) (V : (queue -> Z) -> Z) (q : queue) : Prop :=
  exists ops log q0, exec ops q00 = Ok (log, q0) /\ all_calls okl log /\ ops = map (fun e => fst (fst (fst e))) log /\ bare q0 = bare q /\
    forall f, plain f -> area f log = V f.

Lemma area_snoc f log e : area f (log ++ [e]) = area f log + area f [e].
Proof. unfold area. rewrite total_app. reflexivity. Qed.

Lemma harea_op q00 V q o q' :
  (forall q0, bare q0 = bare q -> okl q0 o /\ exists r0 q0'', step o q0 = Ok (r0, q0'') /\ bare q0'' = bare q') ->
  harea q00 V q -> harea q00 (fun f => V f + f q * (fin (q_now q') - fin (q_now q))) q'.
Proof.
  intros H (ops & log & q0 & E & A & M & B & AR). destruct (H _ B) as (OK & r0 & q1 & ST & B1).
  exists (ops ++ [o]), (log ++ [(o, q0, r0, q1)]), q1. split; [eapply exec_snoc; eassumption|]. split; [|split; [|split; [exact B1|]]].
  - apply Forall_app. split; [exact A|]. constructor; [exact OK|constructor].
  - rewrite map_app, M. reflexivity.
  - intros f F. rewrite area_snoc, (AR f F). unfold area at 1. cbn [total fold_right].
    assert (X := level_bare _ _ B). assert (Y := level_bare _ _ B1). destruct X as [X1 X2], Y as [Y1 Y2]. rewrite (X2 f F), X1, Y1. lia.
Qed.
Lemma harea_ext q00 V V' q : (forall f, plain f -> V f = V' f) -> harea q00 V q -> harea q00 V' q.
Proof. intros X (ops & log & q0 & E & A & M & B & AR). exists ops, log, q0. repeat (split; [assumption|]). intros f F. rewrite (AR f F). auto. Qed.
Lemma harea_same q00 V q q' : bare q' = bare q -> harea q00 V q -> harea q00 V q'.
Proof. intros X (ops & log & q0 & E & A & M & B & AR). exists ops, log, q0. repeat (split; [assumption|]). split; [congruence|exact AR]. Qed.

(** From [q] to [q'] by calls of the queue, at most one of which moves the
    clock and that one first changes the numbers. *)
Definition led (q q' : queue) : Prop :=
  forall q00 V, harea q00 V q -> harea q00 (fun f => V f + f q * (fin (q_now q') - fin (q_now q))) q'.

Lemma led_same q q' : bare q' = bare q -> led q q'.
Proof.
  intros B q00 V HA. apply (harea_same _ _ q); [exact B|]. apply (harea_ext _ V); [|exact HA]. intros f F.
  destruct (level_bare _ _ B) as [-> _]. lia.
Qed.
Lemma led_after q1 q2 q3 : led q1 q2 -> led q2 q3 -> level q1 q2 \/ q_now q3 = q_now q2 -> led q1 q3.
Proof.
  intros L1 L2 C q00 V HA. apply L1, L2 in HA. refine (harea_ext _ _ _ _ _ HA). intros f F. cbn beta. destruct C as [[C1 C2]| ->]; [rewrite (C2 f F), C1|]; lia.
Qed.
Lemma led_op o q q' : (forall q0, bare q0 = bare q -> okl q0 o) ->
  (forall q0, bare q0 = bare q -> exists r0 q0'', step o q0 = Ok (r0, q0'') /\ bare q0'' = bare q') -> led q q'.
Proof. intros OK ST q00 V HA. apply (harea_op _ _ q o q'); auto. Qed.

Lemma led_next q r q' : next_event q = Ok (r, q') -> led q q'.
Proof.
  intro H. apply (led_op ONext); [intros; split; cbn; auto|].
  intros q0 B. destruct (next_same _ _ _ _ B H) as (r0 & q0' & E0 & B' & _). exists r0, q0'. split; [exact E0|exact B'].
Qed.
Lemma led_active q q' : set_active q = Ok q' -> led q q'.
Proof.
  intro H. apply (led_op OActive); [intros; split; cbn; auto|].
  intros q0 B. destruct (veil_same _ active_bare _ _ _ B H) as (q0' & E0 & B'). exists None, q0'. cbn [step run_op]. rewrite E0. split; [reflexivity|exact B'].
Qed.
Lemma led_stopped max ag q : led q (stopped max ag q).
Proof.
  unfold stopped. destruct (q_active q && _); [|apply led_same; reflexivity].
  apply (led_op OInactive); [intros; split; cbn; auto|].
  intros q0 B. exists None, (set_q_active false q0). split; [reflexivity|].
  assert (E : set_q_active false (bare q0) = set_q_active false (bare q)) by (rewrite B; reflexivity). exact E.
Qed.
Lemma led_add a q q' : eLe (q_now q) (ag_time a) -> fresh q (OArrive a) -> add_arrival a q = Ok q' -> led q q'.
Proof.
  intros LE FR H. assert (OK : forall q0, bare q0 = bare q -> okl q0 (OArrive a)).
  { intros q0 B. destruct (bare_fields _ _ B) as (C & _ & _ & _ & _ & _ & _ & O & _ & _ & N & _).
    apply okl_inner; [exact Logic.I|cbn; rewrite N; exact LE|]. cbn in *. rewrite (bare_held _ _ B), C, O. exact FR. }
  apply (led_op (OArrive a)); [exact OK|].
  intros q0 B. destruct (add_same _ _ _ _ B H) as (q0' & E0 & B'). exists None, q0'. cbn [step run_op]. rewrite E0. split; [reflexivity|exact B'].
Qed.
Lemma led_delay t q q' : (forall x, t = Some x -> eLe (q_now q) x) -> delay_service t q = Ok q' -> led q q'.
Proof.
  intros LE H. assert (OK : forall q0, bare q0 = bare q -> okl q0 (ODelay t)).
  { intros q0 B. destruct (bare_fields _ _ B) as (_ & _ & _ & _ & _ & _ & _ & _ & _ & _ & N & _).
    apply okl_inner; [exact Logic.I| |exact Logic.I]. cbn. destruct t; [rewrite N; auto|exact Logic.I]. }
  apply (led_op (ODelay t)); [exact OK|].
  intros q0 B. destruct (veil_same _ (fun d => delay_bare d t) _ _ _ B H) as (q0' & E0 & B'). exists None, q0'. cbn [step run_op]. rewrite E0. split; [reflexivity|exact B'].
Qed.
Lemma bare_mark q qm : mark_blocked q = Ok qm -> bare qm = bare q.
Proof.
  intro E. unfold mark_blocked, first_departure in E. destruct (q_dep q) as [|[|a] h] eqn:D; try discriminate.
  cbn [bind tl] in E. injection E as <-. unfold bare. cbn [set_q_dep set_q_arr set_q_line set_q_blocked q_dep q_arr q_line].
  rewrite D. reflexivity.
Qed.

(** ** One event of the network *)

Definition moved (T : ext) (q q' : queue) : Prop := led q q' /\ (level q q' \/ q_now q' = T).

Lemma moved_refl T q : moved T q q.
Proof. split; [apply led_same; reflexivity|left; apply level_refl]. Qed.

Lemma next_now s k q r q' : qok s k q -> c_class (q_cfg q) <> CNull -> q_time q = s -> s <> Inf -> next_event q = Ok (r, q') -> q_now q' = s.
Proof.
  intros K N TS NI H. apply next_pend in H; [|apply K|apply K]. destruct H as [([C|C] & _)|(_ & _ & rest & new & _ & _ & _ & NOW)]; congruence.
Qed.


Lemma enter_moved s k max ag q a q1 r q2 : qok s k q -> c_class (q_cfg q) <> CNull -> s <> Inf -> ag_time a = s -> fresh q (OArrive a) ->
  add_arrival a q = Ok q1 -> next_event (stopped max ag q1) = Ok (r, q2) -> led q q2 /\ q_now q2 = s.
Proof.
  intros K N NI TA FR AD NX. assert (I1 := qk_inv _ _ _ K). destruct (add_pend _ _ _ I1 N AD) as (P1 & NOW & _).
  assert (IV := qinv_add_arrival _ _ _ I1 AD).
  assert (CF : q_cfg q1 = q_cfg q) by (apply add_arrival_Ok in AD as (h & -> & _); [reflexivity|exact N|apply I1|apply I1]).
  assert (K1 : qok s k q1).
  { destruct K as [A1 A2 A3 A4 A5 A6]. split; [exact IV|congruence|congruence|congruence| |congruence].
    intros x X. apply (Permutation_in x P1) in X. destruct X as [<-|X]; [rewrite TA; apply eLe_refl|apply A5; exact X]. }
  assert (TS : q_time q1 = s) by (apply eLe_antisym; [apply pend_min; [exact IV|]; apply (Permutation_in _ (Permutation_sym P1)); left; exact TA|apply (qok_time _ _ _ K1)]).
  assert (L : led q q1) by (apply (led_add a); [rewrite TA; apply K|exact FR|exact AD]).
  split.
  - apply (led_after _ (stopped max ag q1)); [apply (led_after _ q1); [exact L|apply led_stopped|]|eapply led_next; exact NX|]; left.
    + eapply level_add; eassumption.
    + eapply level_trans; [eapply level_add; eassumption|apply level_stopped].
  - eapply next_now; [apply qok_stopped; exact K1| | |exact NI|exact NX]; [rewrite cfg_stopped, CF; exact N|rewrite time_stopped; exact TS].
Qed.

Lemma event_moved n n' k q : ninv n -> uniq n -> nst n n' -> get (nt_queues n) k = Some q -> c_class (q_cfg q) <> CNull ->
  exists q', get (nt_queues n') k = Some q' /\ moved (nt_t n') q q'.
Proof.
  intros I U S GK NK0. destruct S as [SZ ->|t j h q1 SZ PO G DS ->|t j h q1 r q1' h' SZ PO G DS NX PU LC ->|
    t j h q1 a h0 l e2 q2 qm q1' d h' iu ie td SZ PO G DS DP OUT IN DD G2 NE CA MB RT DE DL NK PU ->|
    t j h q1 a h0 l e2 q2old b q1' q2 q2a r q2' h' iu SZ PO G DS DP OUT IN DD G2 CA NX GE AD NX2 PU LA LB ->].
  - exists q. nc. split; [exact GK|apply moved_refl].
  - exists q. unfold after. nc. split; [exact GK|apply moved_refl].
  - destruct (popped _ _ _ _ I SZ PO) as (W & LE & LK & QK & QM & _ & KS & TT & HB & _). unfold after. nc.
    destruct (Nat.eq_dec j k) as [->|NJ]; [|exists q; rewrite get_upd_neq by congruence; split; [exact GK|apply moved_refl]].
    assert (q1 = q) by congruence. subst q1. exists q1'. split; [apply get_upd_eq; exact LK|]. assert (K := KS _ _ G).
    destruct (description_1 _ (qk_inv _ _ _ K) DS) as (_ & _ & _ & FI).
    assert (TQ : q_time q = t) by (destruct (TT _ G); [assumption|congruence]). split.
    + apply (led_after _ (stopped (nt_max n) (nt_nagents n) q)); [apply led_stopped|eapply led_next; exact NX|left; apply level_stopped].
    + right. eapply next_now; [apply qok_stopped; exact K| | | |exact NX]; [rewrite cfg_stopped; exact NK0|rewrite time_stopped; exact TQ|congruence].
  - destruct (popped _ _ _ _ I SZ PO) as (W & LE & LK & QK & QM & _ & KS & TT & HB & _). unfold after. nc.
    assert (K := KS _ _ G). assert (K2 := KS _ _ G2). destruct (qok_mark _ _ _ _ K MB) as (KM & _ & _ & CM & _).
    destruct (Nat.eq_dec j k) as [->|NJ]; [|destruct (Nat.eq_dec e2 k) as [->|NE2]].
    + assert (q1 = q) by congruence. subst q1. exists q1'. split; [apply get_upd_eq; rewrite upd_length; exact LK|].
      assert (BM := bare_mark _ _ MB). assert (LV : level q q1').
      { eapply level_trans; [apply level_bare; exact BM|]. eapply level_delay; [apply KM|congruence|exact DL]. }
      split; [|left; exact LV]. apply (led_after _ qm); [apply led_same; exact BM| |left; apply level_bare; exact BM].
      apply (led_delay d); [|exact DL].
      intros x ->. destruct (nt_bas n); [|discriminate]. injection DE as ->.
      apply eLe_trans with t; [apply (qk_now _ _ _ KM)|].
      apply eLe_trans with td; [|apply eadd_ge; apply I].
      rewrite (wfh_root_time _ (qi_dep _ (qk_inv _ _ _ K2))) in RT. injection RT as <-.
      destruct (wfh_min_cases _ (qi_dep _ (qk_inv _ _ _ K2))) as [Y|(b & B & T)]; [rewrite Y; apply eLe_Inf|].
      rewrite <- T. apply (qk_pend _ _ _ K2). unfold pend. apply in_or_app. right. apply in_map; exact B.
    + assert (q2 = q) by congruence. subst q2. exists (set_q_blocked (q_blocked q + 1) q).
      rewrite get_upd_neq by congruence. split; [apply get_upd_eq; eapply get_lt; exact G2|].
      assert (B : bare (set_q_blocked (q_blocked q + 1) q) = bare q) by reflexivity.
      split; [apply led_same; exact B|left; apply level_bare; exact B].
    + exists q. rewrite !get_upd_neq by congruence. split; [exact GK|apply moved_refl].
  - destruct (popped _ _ _ _ I SZ PO) as (W & LE & LK & QK & QM & _ & KS & TT & HB & _). unfold after. nc.
    assert (K := KS _ _ G). destruct (description_2 _ (qk_inv _ _ _ K) DS) as (NN & _ & _ & FI).
    assert (TQ : q_time q1 = t) by (destruct (TT _ G); [assumption|congruence]). assert (FT : t <> Inf) by congruence.
    destruct (dep_event _ _ _ _ _ (qk_inv _ _ _ K) DS DP NX) as (b0 & EB & IDB & _ & HH & OB & _). injection EB as <-.
    destruct (qok_next t j _ _ _ K TQ FT NX) as (K' & _). assert (CF' := next_cfg _ _ _ (qk_inv _ _ _ K) NX).
    assert (NOW1 : q_now q1' = t) by (eapply next_now; [exact K|exact NN|exact TQ|exact FT|exact NX]).
    assert (K2 : qok t e2 q2).
    { apply get_upd in GE as [[-> ->]|[NE GE]]; [exact K'|apply KS; exact GE|exact LK]. }
    destruct (Nat.eq_dec e2 k) as [->|NE2].
    + exists q2'. split; [apply get_upd_eq; rewrite upd_length; eapply get_lt; exact G2|].
      assert (N2 : c_class (q_cfg q2) <> CNull).
      { apply get_upd in GE as [[-> ->]|[NE GE]]; [congruence|congruence|exact LK]. }
      assert (FR : fresh q2 (OArrive (set_ag_time t b))).
      { destruct U as [ND BD]. assert (IN1 : In (ag_id a) (held q1)).
        { apply (Permutation_in (ag_id a) (Permutation_sym HH)). left; reflexivity. }
        assert (EV : In (ag_id a) (everyone n)) by exact (held_everyone _ _ _ _ G IN1).
        assert (NQ : ~ In (ag_id a) (held q1')).
        { assert (N1 : NoDup (held q1)).
          { clear - ND G. unfold everyone in ND. revert j G. induction (nt_queues n) as [|q0 qs IH]; intros j G; [destruct j; discriminate|].
            cbn in ND. destruct j as [|j]; [injection G as ->; apply nodup_l in ND; exact ND|]. apply nodup_r in ND. eapply IH; eassumption. }
          apply (Permutation_NoDup HH) in N1. inversion N1; assumption. }
        assert (OE : q_oarr q1' = q_oarr q1) by exact OB.
        cbn [fresh]. change (ag_id (set_ag_time t b)) with (ag_id b). rewrite IDB. rewrite (qk_idx _ _ _ K2). split.
        - apply get_upd in GE as [[-> ->]|[NE GE]]; [exact NQ| |exact LK].
          intro X2. apply NE. symmetry. eapply one_queue; [exact ND|exact G|exact GE|exact IN1|exact X2].
        - intro FE. destruct (BD _ EV) as (q3 & G3 & LT). rewrite FE in G3.
          apply get_upd in GE as [[-> ->]|[NE GE]]; [| |exact LK].
          * assert (q3 = q1) by congruence. subst q3. rewrite OE. exact LT.
          * assert (q3 = q2) by congruence. subst q3. exact LT. }
      destruct (enter_moved t _ _ _ _ (set_ag_time t b) _ _ _ K2 N2 FT eq_refl FR AD NX2) as (LD & NOW2).
      split; [|right; exact NOW2].
      apply get_upd in GE as [[-> ->]|[NE GE]]; [| |exact LK].
      * assert (q1 = q) by congruence. subst q1. apply (led_after _ q1'); [eapply led_next; exact NX|exact LD|right; congruence].
      * assert (q2 = q) by congruence. subst q2. exact LD.
    + rewrite get_upd_neq by congruence. destruct (Nat.eq_dec j k) as [->|NJ].
      * assert (q1 = q) by congruence. subst q1. exists q1'. split; [apply get_upd_eq; exact LK|].
        split; [eapply led_next; exact NX|right; exact NOW1].
      * exists q. rewrite get_upd_neq by congruence. split; [exact GK|apply moved_refl].
Qed.

Lemma activate_moved l : forall n n' k q, (forall k q, get (nt_queues n) k = Some q -> qinv q) -> activate l n = Ok n' -> get (nt_queues n) k = Some q ->
  exists q', get (nt_queues n') k = Some q' /\ led q q' /\ level q q'.
Proof.
  induction l as [|e l IH]; intros n n' k q I E G; cbn [activate] in E.
  - injection E as <-. exists q. split; [exact G|]. split; [apply led_same; reflexivity|apply level_refl].
  - mbind E. rename x into qe. apply queue_at_Ok in E0. mbind E. rename x into qe'. mbind E. apply set_count_Ok in E2 as [LC ->].
    assert (LT := get_lt _ _ _ E0). assert (IE := I _ _ E0).
    assert (I' : forall j w, get (upd (nt_queues n) e qe') j = Some w -> qinv w).
    { intros j w GW. apply get_upd in GW as [[-> ->]|[_ GW]]; [|eapply I; exact GW|exact LT]. exact (qinv_op OActive _ _ IE E1). }
    destruct (Nat.eq_dec e k) as [->|NE].
    + assert (qe = q) by congruence. subst qe. apply IH with (k := k) (q := qe') in E; [|nc; exact I'|nc; apply get_upd_eq; exact LT].
      destruct E as (q' & G' & L & V). exists q'. split; [exact G'|].
      assert (L1 := led_active _ _ E1). assert (V1 := level_active _ _ IE E1).
      split; [apply (led_after _ qe'); auto|eapply level_trans; eassumption].
    + apply IH with (k := k) (q := q) in E; [|nc; exact I'|nc; rewrite get_upd_neq by congruence; exact G]. exact E.
Qed.

Lemma on_moved (f : queue -> queue) (o : qop) l : (forall q q', bare q = bare q' -> bare (f q) = bare (f q')) -> (forall q, level q (f q)) -> (forall q, okl q o) -> (forall q, run_op o q = Ok (f q)) -> (o <> ONext) ->
  forall n n' k q, on_queues f l n = Ok n' -> get (nt_queues n) k = Some q ->
  exists q', get (nt_queues n') k = Some q' /\ led q q' /\ level q q'.
Proof.
  intros FB FL OK FO NO. induction l as [|e l IH]; intros n n' k q E G; cbn [on_queues] in E.
  - injection E as <-. exists q. split; [exact G|]. split; [apply led_same; reflexivity|apply level_refl].
  - mbind E. rename x into qe. apply queue_at_Ok in E0. assert (LT := get_lt _ _ _ E0).
    destruct (Nat.eq_dec e k) as [->|NE].
    + assert (qe = q) by congruence. subst qe. apply IH with (k := k) (q := f q) in E; [|nc; apply get_upd_eq; exact LT].
      destruct E as (q' & G' & L & V). exists q'. split; [exact G'|].
      assert (L1 : led q (f q)).
      { apply (led_op o); [auto|]. intros q0 B. exists None, (f q0). split; [|apply FB; exact B].
        specialize (FO q0). destruct o; try congruence; cbn [step]; rewrite FO; reflexivity. }
      split; [apply (led_after _ (f q)); auto|eapply level_trans; [apply FL|exact V]].
    + apply IH with (k := k) (q := q) in E; [|nc; rewrite get_upd_neq by congruence; exact G]. exact E.
Qed.

Lemma on_time (f : queue -> queue) l : forall n n', on_queues f l n = Ok n' -> nt_t n' = nt_t n.
Proof. induction l as [|e l IH]; intros n n' E; cbn [on_queues] in E; [injection E as <-; reflexivity|]. mbind E. apply IH in E. exact E. Qed.

(** One call of the network. *)
Lemma call_moved n0 n c n' k q : well_made n0 -> nreach usual n0 n -> recording n c -> run_call c n = Ok n' -> get (nt_queues n) k = Some q -> c_class (q_cfg q) <> CNull ->
  exists q', get (nt_queues n') k = Some q' /\ led q q' /\ (level q q' \/ q_now q' = nt_t n').
Proof.
  intros W R [[US NC] RC] H G N. assert (GD := ngood_reach _ _ W R). destruct GD as [I _]. assert (U := uniq_reach _ _ W R).
  destruct c as [sel| | |o]; cbn [run_call] in H.
  - unfold initialize_queues in H. mbind H. destruct (length x =? 0)%nat; [discriminate|]. mbind H. mbind H. injection H as <-. nc.
    apply (activate_moved _ _ _ k q) in E0 as (q' & G' & L & V); [|intros j w GW; apply (ni_q _ I _ _ GW)|exact G]. eauto 6.
  - congruence.
  - unfold net_copy in H. exists q. assert (Q : nt_queues n' = nt_queues n) by (destruct (nt_init n); [mbind H|]; injection H as <-; reflexivity).
    rewrite Q. split; [exact G|]. split; [apply led_same; reflexivity|]. left. apply level_refl.
  - destruct o as [|b l|l|p|m|b]; cbn [run_nop] in H.
    + apply sim_nst in H; [|exact I]. destruct (event_moved _ _ _ _ I U H G N) as (q' & G' & L & D). exists q'. tauto.
    + cbn in RC. subst b. destruct (on_moved (set_q_collect true) (OCollect true) l) with (n := n) (n' := n') (k := k) (q := q) as (q' & G' & L & V); auto.
      * intros w w' B. assert (E : set_q_collect true (bare w) = set_q_collect true (bare w')) by (rewrite B; reflexivity). exact E.
      * intro w. apply level_make; reflexivity.
      * intro w. split; cbn; auto.
      * discriminate.
      * eauto 6.
    + destruct RC.
    + injection H as <-. exists q. split; [exact G|]. split; [apply led_same; reflexivity|]. left. apply level_refl.
    + injection H as <-. exists q. split; [exact G|]. split; [apply led_same; reflexivity|]. left. apply level_refl.
    + injection H as <-. exists q. split; [exact G|]. split; [apply led_same; reflexivity|]. left. apply level_refl.
Qed.

(** ** The whole history *)

Lemma passes_reach ok n1 l n : passes ok n1 l n -> nreach ok n1 n.
Proof. induction 1 as [|l n c n' _ IH OK H]; [apply nreach_here|]. eapply nreach_step; eassumption. Qed.

Lemma integral_snoc g l : forall n n', integral g ((l ++ [n]) ++ [n']) = integral g (l ++ [n]) + g n * (fin (nt_t n') - fin (nt_t n)).
Proof.
  induction l as [|m l IH]; intros n n'; [cbn [app integral]; lia|]. cbn [app]. specialize (IH n n').
  destruct l as [|m2 l]; cbn [app] in *.
  - cbn [integral] in *. lia.
  - change (integral g (m :: m2 :: (l ++ [n]) ++ [n'])) with (g m * (fin (nt_t m2) - fin (nt_t m)) + integral g (m2 :: (l ++ [n]) ++ [n'])).
    change (integral g (m :: m2 :: l ++ [n])) with (g m * (fin (nt_t m2) - fin (nt_t m)) + integral g (m2 :: l ++ [n])). rewrite IH. lia.
Qed.

Lemma pristine_plain q : pristine q -> qinv q -> forall f, plain f -> f q = 0.
Proof.
  intros P I f F. assert (L := lined_start _ P). destruct (lined_counts _ _ L) as (A & B). assert (C := lined_nsys _ _ I L).
  destruct F as [->|[->| ->]]; [exact C|exact A|exact B].
Qed.

Lemma keeps_ok log : all_calls okl log -> all_calls orderly log /\ Forall keeps_data (map (fun e => fst (fst (fst e))) log).
Proof.
  intro A. split; [unfold all_calls in *; eapply Forall_impl; [|exact A]; intros [[[o x] r] y]; unfold okl; tauto|].
  induction A as [|[[[o x] r] y] log H _ IH]; constructor; [exact (proj2 H)|exact IH].
Qed.

Lemma passes_area n0 n1 k q1 l n : well_made n0 -> nreach usual n0 n1 -> get (nt_queues n1) k = Some q1 ->
  pristine q1 -> c_class (q_cfg q1) <> CNull -> c_class (q_cfg q1) <> CResource -> eLe (Fin 0) (q_servers q1) -> forward (q_cfg q1) ->
  passes recording n1 l n ->
  exists q, get (nt_queues n) k = Some q /\ harea q1 (fun f => integral (at_queue f k) (l ++ [n]) - f q * (fin (nt_t n) - fin (q_now q))) q.
Proof.
  intros W R1 G1 P N NR S0 F PA. induction PA as [|l n c n' PA (q & G & HA) OK H].
  - exists q1. split; [exact G1|]. exists [], [], q1. split; [reflexivity|]. split; [constructor|]. split; [reflexivity|]. split; [reflexivity|].
    intros f PF. cbn [app integral]. change (area f []) with 0. 
    assert (I := ngood_reach _ _ W R1). destruct I as [I _]. rewrite (pristine_plain _ P (qk_inv _ _ _ (ni_q _ I _ _ G1)) f PF). lia.
  - assert (RU : nreach usual n0 n).
    { apply passes_reach in PA. clear - PA R1. induction PA as [|n c n' R IH OK H]; [exact R1|]. eapply nreach_step; [exact IH|apply OK|exact H]. }
    assert (CF : q_cfg q = q_cfg q1).
    { destruct HA as (ops & log & q0 & E & A & _ & B & _). destruct (keeps_ok _ A) as [A1 _].
      destruct (exec_start _ _ _ _ P N NR F S0 E A1) as (_ & _ & _ & C). destruct (bare_fields _ _ B) as (C2 & _). congruence. }
    destruct (call_moved _ _ _ _ _ _ W RU OK H G ltac:(congruence)) as (q' & G' & L & D). exists q'. split; [exact G'|].
    apply L in HA. refine (harea_ext _ _ _ _ _ HA). intros f PF. cbn beta. rewrite integral_snoc. assert (AQ : at_queue f k n = f q) by (unfold at_queue; rewrite G; reflexivity). rewrite AQ.
    destruct D as [[D1 D2]|D]; [rewrite (D2 f PF), D1; lia|rewrite D; lia].
Qed.

Lemma later_totals q l T : qinv q -> lined q l ->
  total (stay T) l = total (stay (q_now q)) l + q_nsys q * (fin T - fin (q_now q)) /\
  total (wait T) l = total (wait (q_now q)) l + nwaiting q * (fin T - fin (q_now q)) /\
  total (work T) l = total (work (q_now q)) l + serving q * (fin T - fin (q_now q)).
Proof.
  intros I L. rewrite (lined_nsys _ _ I L). destruct (lined_counts _ _ L) as (-> & ->). set (d := fin T - fin (q_now q)).
  rewrite <- !total_count. split; [|split]; apply total_add; intros v V; unfold d.
  - unfold stay, v_open, till. destruct (v_in v); [|reflexivity]. destruct (v_dep v); cbn [never andb]; lia.
  - unfold wait, v_waits, till. destruct (v_in v); [|reflexivity]. destruct (v_srv v); cbn [never andb]; lia.
  - unfold work, v_served. destruct (v_srv v) as [s|]; [|rewrite andb_false_r; reflexivity]. cbn [never negb]. destruct (v_in v); [|reflexivity]. cbn [andb]. unfold till.
    destruct (v_dep v); cbn [never andb]; lia.
Qed.

Lemma start_forward n0 n1 k q1 : well_made n0 -> nreach usual n0 n1 -> get (nt_queues n1) k = Some q1 -> forward (q_cfg q1).
Proof.
  intros W R1 G1. destruct (start_of _ _ _ _ W R1 G1) as (c & s & col & nE & q0 & G0 & _ & _ & _ & C). rewrite C.
  destruct (made_new _ _ _ W G0) as (c' & s' & col' & nE' & E & _ & F). apply (f_equal q_cfg) in E. cbn in E. subst c'. exact F.
Qed.

Theorem network_areas n0 n1 n2 k q1 q p : well_made n0 -> nreach usual n0 n1 -> get (nt_queues n1) k = Some q1 ->
  pristine q1 -> c_class (q_cfg q1) <> CNull -> c_class (q_cfg q1) <> CResource -> eLt (Fin 0) (q_servers q1) -> q_collect q1 = true ->
  passes recording n1 p n2 -> get (nt_queues n2) k = Some q ->
  exists l, lawful (q_servers q1) (room q1) l /\
    (forall i, map row_times (rows_of (q_data q) i) = map visit_times (visits_of i l)) /\
    ids (waiting q) = map v_id (filter v_waits l) /\ Permutation (ids (in_service q)) (map v_id (filter v_served l)) /\
    integral (at_queue q_nsys k) (p ++ [n2]) = total (stay (nt_t n2)) l /\
    integral (at_queue nwaiting k) (p ++ [n2]) = total (wait (nt_t n2)) l /\
    integral (at_queue serving k) (p ++ [n2]) = total (work (nt_t n2)) l.
Proof.
  intros W R1 G1 P N NR S0 CO PA G. assert (F := start_forward _ _ _ _ W R1 G1).
  destruct (passes_area _ _ _ _ _ _ W R1 G1 P N NR (eLt_le _ _ S0) F PA) as (q' & G' & ops & log & q2 & E & A & M & B & AR).
  assert (q' = q) by congruence. subst q'. destruct (keeps_ok _ A) as [OK KD]. rewrite <- M in KD.
  exists (visits log). destruct (lawful_visits _ _ _ _ P N NR F S0 E OK) as (X1 & X2 & X3).
  assert (D := bare_fields _ _ B). destruct (bare_ids _ _ B) as (_ & I2 & I3).
  split; [exact X1|]. split; [|split; [|split]].
  - intro i. assert (Y := rows_visits _ _ _ _ i P N NR F (eLt_le _ _ S0) CO E OK KD).
    assert (QD : q_data q = q_data q2) by (symmetry; apply D). rewrite QD. exact Y.
  - rewrite <- I3. exact X2.
  - rewrite <- I2. exact X3.
  - destruct (areas _ _ _ _ P N NR F (eLt_le _ _ S0) E OK) as (A1 & A2 & A3).
    destruct (exec_start _ _ _ _ P N NR F (eLt_le _ _ S0) E OK) as (GD & L & _).
    destruct (later_totals _ _ (nt_t n2) (gd_inv _ GD) L) as (T1 & T2 & T3).
    assert (Y1 := AR q_nsys ltac:(unfold plain; auto)). assert (Y2 := AR nwaiting ltac:(unfold plain; auto)). assert (Y3 := AR serving ltac:(unfold plain; auto)).
    cbn beta in Y1, Y2, Y3. destruct (level_bare _ _ B) as [NW LV]. rewrite <- NW, <- (LV q_nsys) in Y1 by (unfold plain; auto). rewrite <- NW, <- (LV nwaiting) in Y2 by (unfold plain; auto).
    rewrite <- NW, <- (LV serving) in Y3 by (unfold plain; auto). split; [|split]; lia.
Qed.

(** The same from the collected data, when nobody is left. *)
Theorem network_data n0 n1 n2 k q1 q p D : well_made n0 -> nreach usual n0 n1 -> get (nt_queues n1) k = Some q1 ->
  pristine q1 -> c_class (q_cfg q1) = CServer -> eLe (Fin 0) (q_servers q1) -> q_collect q1 = true ->
  passes recording n1 p n2 -> get (nt_queues n2) k = Some q -> q_nsys q = 0 ->
  NoDup D -> (forall i, rows_of (q_data q) i <> [] -> In i D) ->
  integral (at_queue q_nsys k) (p ++ [n2]) = total (fun i => total (fun r => fin (r_dep r) - fin (r_arr r)) (rows_of (q_data q) i)) D.
Proof.
  intros W R1 G1 P CL S0 CO PA G Z0 ND CV. assert (F := start_forward _ _ _ _ W R1 G1).
  assert (N : c_class (q_cfg q1) <> CNull) by congruence. assert (NR : c_class (q_cfg q1) <> CResource) by congruence.
  destruct (passes_area _ _ _ _ _ _ W R1 G1 P N NR S0 F PA) as (q' & G' & ops & log & q2 & E & A & M & B & AR).
  assert (q' = q) by congruence. subst q'. destruct (keeps_ok _ A) as [OK KD]. rewrite <- M in KD.
  assert (DF := bare_fields _ _ B). assert (QD : q_data q2 = q_data q) by apply DF. assert (NS : q_nsys q2 = q_nsys q) by apply DF.
  assert (Y1 : area q_nsys log = integral (at_queue q_nsys k) (p ++ [n2]) - q_nsys q * (fin (nt_t n2) - fin (q_now q))) by exact (AR q_nsys ltac:(unfold plain; auto)).
  rewrite Z0 in Y1.
  rewrite <- QD in CV |- *. rewrite <- (little_data _ _ _ _ D P CL F S0 CO E OK KD ltac:(congruence) ND CV). lia.
Qed.

Lemma integral_total (A : Type) (f : A -> net -> Z) l p : integral (fun n => total (fun k => f k n) l) p = total (fun k => integral (f k) p) l.
Proof.
  assert (Z0 : total (fun _ : A => 0) l = 0) by (induction l as [|k l IHl]; [reflexivity|rewrite total_cons, IHl; reflexivity]).
  induction p as [|n p IH]; [cbn [integral]; rewrite Z0; reflexivity|]. destruct p as [|n' p]; [cbn [integral]; rewrite Z0; reflexivity|].
  change (integral (fun n => total (fun k => f k n) l) (n :: n' :: p)) with
    (total (fun k => f k n) l * (fin (nt_t n') - fin (nt_t n)) + integral (fun n => total (fun k => f k n) l) (n' :: p)).
  rewrite IH. clear IH Z0. induction l as [|k l IHl]; [reflexivity|]. rewrite !total_cons, <- IHl.
  change (integral (f k) (n :: n' :: p)) with (f k n * (fin (nt_t n') - fin (nt_t n)) + integral (f k) (n' :: p)). lia.
Qed.

(** Several queues together. *)
Theorem network_together n0 n1 n2 ks p (D : nat -> list aid) : well_made n0 -> nreach usual n0 n1 -> passes recording n1 p n2 ->
  (forall k, In k ks -> exists q1 q, get (nt_queues n1) k = Some q1 /\ pristine q1 /\ c_class (q_cfg q1) = CServer /\ eLe (Fin 0) (q_servers q1) /\ q_collect q1 = true /\
     get (nt_queues n2) k = Some q /\ q_nsys q = 0 /\ NoDup (D k) /\ forall i, rows_of (q_data q) i <> [] -> In i (D k)) ->
  integral (fun n => total (fun k => at_queue q_nsys k n) ks) (p ++ [n2]) =
    total (fun k => total (fun i => at_queue (fun q => total (fun r => fin (r_dep r) - fin (r_arr r)) (rows_of (q_data q) i)) k n2) (D k)) ks.
Proof.
  intros W R1 PA H. rewrite integral_total. induction ks as [|k ks IH]; [reflexivity|]. rewrite !total_cons, IH by (intros; apply H; right; assumption). f_equal.
  destruct (H k (or_introl eq_refl)) as (q1 & q & G1 & P & CL & S0 & CO & G & Z0 & ND & CV).
  change (fun n => at_queue q_nsys k n) with (at_queue q_nsys k).
  rewrite (network_data _ _ _ _ _ _ _ _ W R1 G1 P CL S0 CO PA G Z0 ND CV). unfold at_queue. rewrite G. reflexivity.
Qed.
