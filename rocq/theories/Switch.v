(** * Switch: queues that are switched on and off *)
From Coq Require Import List ZArith QArith Lia Bool Permutation Arith.
From Verif Require Import Base Heap HeapProofs PQueue PQueueProofs SpecPQ PQHist Queue QueueEffects QueueEvents QueueSteps QueueInv SpecQueue QueueFlow QueueHist QueueClaims1 QueueClaims2 Network NetQueue NetSteps NetInv SpecNet NetReach NetFlow NetClaims1 NetClaims2 NetTotal NetActive SpecRefine.
Import ListNotations.
Open Scope Z_scope.

(** ** set_active *)

Lemma switched_on c s col n q q' : reach anything (new_queue c s col n) q -> c_class c <> CNull -> run_op OActive q = Ok q' -> q_active q = false ->
  waiting q' = waiting q /\ in_service q' = in_service q /\ q_now q' = q_now q /\ q_nsys q' = q_nsys q /\ q_departed q' = q_departed q /\
  q_narr q' = q_narr q /\ q_blocked q' = q_blocked q /\ q_data q' = q_data q /\ q_servers q' = q_servers q /\
  let t := c_arr c (q_ia q) (q_now q) in
  (eLt (q_now q) (q_next_ct q) -> q_active q' = true /\ scheduled q' = scheduled q /\ q_oarr q' = q_oarr q /\ q_ia q' = q_ia q /\ q_next_ct q' = q_next_ct q) /\
  (eLe (q_next_ct q) (q_now q) -> q_ia q' = S (q_ia q) /\ q_next_ct q' = t /\
    (eLe (c_deactive_t c) t -> q_active q' = false /\ scheduled q' = scheduled q /\ q_oarr q' = q_oarr q) /\
    (eLt t (c_deactive_t c) -> q_oarr q' = q_oarr q + 1 /\ (q_active q' = true <-> eLt (Fin (q_oarr q + 1)) (c_active_cap c)) /\
      exists a, Permutation (scheduled q') (a :: scheduled q) /\ ag_id a = (c_idx c, q_oarr q) /\ ag_time a = t /\ ag_kind a = c_factory c)).
Proof.
  intros R N H A. apply basics_reach in R as [I C _ _ _]. subst c. cbn [run_op] in H. unfold set_active in H. rewrite A in H.
  assert (H' : add_arrival_new (set_q_active true q) = Ok q').
  { unfold add_arrival_self in H. qch H. destruct (c_class (q_cfg q)); congruence. }
  clear H. apply add_arrival_new_Ok in H'; [|apply I|apply I]. cbv zeta in H'. qch H'.
  destruct H' as [(T & ->)|[(T & D & _ & ->)|(T & D & a & h & act & -> & IA & TA & KA & _ & _ & W & P & AC)]];
    unfold waiting, in_service, scheduled; qc; repeat (split; [reflexivity|]); cbv zeta.
  - split; [auto 6|]. intro X. exfalso. elia.
  - split; [intro X; exfalso; elia|]. intros _. do 2 (split; [reflexivity|]). split; [auto|]. intro X. exfalso. elia.
  - split; [intro X; exfalso; elia|]. intros _. do 2 (split; [reflexivity|]). split; [intro X; exfalso; elia|]. intros _.
    split; [reflexivity|]. split.
    + rewrite AC. destruct (eleb (c_active_cap (q_cfg q)) (Fin (q_oarr q + 1))) eqn:E.
      * apply eleb_le in E. split; [discriminate|]. intro X. exfalso. elia.
      * apply eleb_gt in E. split; [intros _; exact E|reflexivity].
    + exists a. split; [exact P|]. auto.
Qed.

(** ** Nobody comes to a queue that is switched off *)

Lemma off_op o q q' : qinv q -> no_clear o -> o <> OActive -> run_op o q = Ok q' -> q_active q = false ->
  q_active q' = false /\ q_ia q' = q_ia q /\ q_oarr q' = q_oarr q.
Proof.
  intros I NC NA H A. destruct (op_arrproc _ _ _ I NC H) as ([AP] & _ & OFF & _). destruct (OFF NA A) as [A' IA].
  split; [exact A'|]. split; [exact IA|]. destruct AP as [(_ & E & _)|[(E & _)|(E & _)]]; [exact E|lia|lia].
Qed.

Lemma stays_off ops : forall c s col n q q', reach anything (new_queue c s col n) q -> run_ops ops q = Ok q' -> q_active q = false ->
  Forall no_clear ops -> ~ In OActive ops -> q_active q' = false /\ q_ia q' = q_ia q /\ q_oarr q' = q_oarr q.
Proof.
  induction ops as [|o ops IH]; intros c s col n q q' R H A NC NA; cbn [run_ops] in H.
  - injection H as <-. auto.
  - mbind H. inversion NC as [|? ? N1 N2]; subst. assert (I := ba_inv _ _ _ (basics_reach _ _ _ _ _ _ R)).
    destruct (off_op o _ _ I N1 ltac:(intros ->; apply NA; left; reflexivity) E A) as (A1 & B1 & C1).
    destruct (IH c s col n x q') as (A2 & B2 & C2); auto.
    { eapply reach_step; [exact R|exact Logic.I|exact E]. }
    { intro X. apply NA. right. exact X. }
    split; [exact A2|]. split; congruence.
Qed.

(** ** A queue that is switched off empties itself *)

(** Two events for each agent that is still to arrive, one for each other. *)
Definition work (q : queue) : Z := 2 * zlen (scheduled q) + zlen (in_service q) + zlen (waiting q).

Lemma zlen_ids l : zlen (ids l) = zlen l.
Proof. unfold zlen, ids. rewrite map_length. reflexivity. Qed.
Lemma zlen_perm {A} (l l' : list A) : Permutation l l' -> zlen l = zlen l'.
Proof. intro P. unfold zlen. rewrite (Permutation_length P). reflexivity. Qed.
Lemma zlen_nil {A} (l : list A) : zlen l = 0 -> l = [].
Proof. unfold zlen. destruct l; [reflexivity|cbn [length]; lia]. Qed.
Lemma zlen_pos {A} (l : list A) : 0 <= zlen l.
Proof. unfold zlen. lia. Qed.

Definition finite_times (q : queue) : Prop := forall x, In x (pend q) -> x <> Inf.

Lemma off_step c s col n q r q' : reach anything (new_queue c s col n) q -> c_class c <> CNull -> c_class c <> CResource -> q_active q = false ->
  (forall k z, c_arr c k (Fin z) <> Inf) -> (forall k z, c_srv c k (Fin z) <> Inf) -> finite_times q ->
  next_event q = Ok (r, q') ->
  reach anything (new_queue c s col n) q' /\ q_active q' = false /\ finite_times q' /\ q_servers q' = q_servers q /\
  Permutation (held q) (held q' ++ departed1 (ONext, q, r, q') ++ turned_away1 (ONext, q, r, q')) /\
  (q_time q = Inf /\ q' = q \/ q_time q <> Inf /\ work q' < work q).
Proof.
  intros R N NR A FA FS FT H. assert (B := basics_reach _ _ _ _ _ _ R). destruct B as [I C _ _ _]. subst c.
  assert (HO : run_op ONext q = Ok q') by (cbn [run_op]; rewrite H; reflexivity).
  assert (R' : reach anything (new_queue (q_cfg q) s col n) q') by (eapply reach_step; [exact R|exact Logic.I|exact HO]).
  destruct (off_op ONext _ _ I Logic.I ltac:(discriminate) HO A) as (A' & _ & OA).
  destruct (drains _ _ _ _ _ _ _ N NR R H) as [SV _].
  split; [exact R'|]. split; [exact A'|]. split.
  { destruct (next_drawn _ _ _ I H) as [(_ & -> & _)|(_ & TF & rest & new & P1 & P2 & DR & _)]; [exact FT|].
    intros x X. apply (Permutation_in _ P2) in X. apply in_app_or in X as [X|X].
    - destruct (q_time q) as [z|] eqn:TQ; [|congruence]. destruct (DR _ X) as (k & [->| ->]); rewrite TQ; auto.
    - apply FT. apply (Permutation_in _ (Permutation_sym P1)). right. exact X. }
  split; [exact SV|].
  destruct (step_Next_flow _ _ _ I N H) as [(new & st & FL & WI) FD FR _].
  assert (WV : winv q) by exact (work_conserving _ _ _ _ _ N NR R).
  destruct (WI NR WV) as [_ LN]. clear WI. destruct FL as [F1 F2 F3 F4 F5].
  assert (NW : new = []).
  { destruct F4 as [[X _]|[_ X]]; [exact X|lia]. }
  subst new. cbn [sent1 app] in F1. specialize (FR NR). destruct FR as [FN FB].
  assert (Z1 := zlen_perm _ _ F1). assert (Z3 := zlen_perm _ _ F3). assert (Z2 := f_equal (@zlen aid) LN).
  rewrite !zlen_app, ?zlen_ids in Z1, Z2, Z3. change (zlen (@nil aid)) with 0 in Z1.
  split.
  - unfold held. set (ad := admitted1 _) in *. set (tw := turned_away1 _) in *. set (dp := departed1 _) in *.
    apply perm_of_cnt. intro x. assert (Y1 := proj1 (Permutation_count_occ aid_dec _ _) F1 x).
    assert (Y3 := proj1 (Permutation_count_occ aid_dec _ _) F3 x).
    assert (Y2 := f_equal (fun l => count_occ aid_dec l x) LN). cbv beta in Y2. rewrite ?count_occ_app in *. cbn [count_occ] in *. lia.
  - destruct (one_event _ _ _ I N NR H) as [(T & ->)|(T & EV)]; [left; auto|]. right. split; [exact T|].
    unfold work. unfold events in EV. assert (P1 := zlen_pos (turned_away1 (ONext, q, r, q'))). rewrite zlen_app in Z1. lia.
Qed.

Lemma simulate_exec m : forall q q', simulate_n m q = Ok q' -> exists log, exec (repeat ONext m) q = Ok (log, q').
Proof.
  induction m as [|m IH]; intros q q' H; cbn [simulate_n] in H.
  - injection H as <-. exists []. reflexivity.
  - mbind H. destruct x as [r q1]. destruct (IH _ _ H) as (log & L). exists ((ONext, q, r, q1) :: log).
    cbn [repeat exec step]. rewrite E. cbn [bind]. rewrite L. reflexivity.
Qed.

Lemma idle_empty c s col n q : reach anything (new_queue c s col n) q -> c_class c <> CNull -> c_class c <> CResource ->
  eLe (Fin 1) (q_servers q) -> finite_times q -> q_time q = Inf -> held q = [].
Proof.
  intros R N NR SV FT T. assert (I := ba_inv _ _ _ (basics_reach _ _ _ _ _ _ R)).
  assert (P : pend q = []).
  { destruct (pend q) as [|x l] eqn:E; [reflexivity|]. exfalso. assert (X : In x (pend q)) by (rewrite E; left; reflexivity).
    assert (Y := pend_min _ I _ X). rewrite T in Y. apply (FT _ X). destruct x; [destruct Y|reflexivity]. }
  unfold pend in P. apply app_eq_nil in P as [P1 P2]. apply map_eq_nil in P1. apply map_eq_nil in P2.
  assert (W : waiting q = []).
  { destruct (waiting q) as [|a l] eqn:E; [reflexivity|]. exfalso.
    assert (X := work_conserving _ _ _ _ _ N NR R ltac:(rewrite E; discriminate)). unfold serving, in_service in X.
    change (agents_in (q_dep q)) with (agents_of (q_dep q)) in X. rewrite P2 in X. cbn [length] in X. elia. }
  unfold held. rewrite W. unfold scheduled, in_service. change agents_in with agents_of. rewrite P1, P2. reflexivity.
Qed.

Lemma empties m : forall c s col n q log q', reach anything (new_queue c s col n) q -> c_class c <> CNull -> c_class c <> CResource -> q_active q = false ->
  eLe (Fin 1) (q_servers q) -> (forall k z, c_arr c k (Fin z) <> Inf) -> (forall k z, c_srv c k (Fin z) <> Inf) -> finite_times q ->
  exec (repeat ONext m) q = Ok (log, q') ->
  reach anything (new_queue c s col n) q' /\ q_active q' = false /\ finite_times q' /\ eLe (Fin 1) (q_servers q') /\
  Permutation (held q) (held q' ++ departed log ++ turned_away log) /\
  (work q <= Z.of_nat m -> held q' = [] /\ q_time q' = Inf).
Proof.
  induction m as [|m IH]; intros c s col n q log q' R N NR A SV FA FS FT H; cbn [repeat] in H.
  - injection H as <- <-. do 4 (split; [assumption|]). split; [cbn [departed turned_away flat_map]; rewrite !app_nil_r; reflexivity|].
    intro L. assert (HQ : held q = [] /\ pend q = []).
    { unfold work in L. assert (X1 := zlen_pos (scheduled q)). assert (X2 := zlen_pos (in_service q)). assert (X3 := zlen_pos (waiting q)).
      assert (E1 := zlen_nil (scheduled q) ltac:(lia)). assert (E2 := zlen_nil (in_service q) ltac:(lia)). assert (E3 := zlen_nil (waiting q) ltac:(lia)).
      split; [unfold held; rewrite E1, E2, E3; reflexivity|]. unfold pend. change agents_of with agents_in.
      unfold scheduled, in_service in E1, E2. rewrite E1, E2. reflexivity. }
    split; [apply HQ|]. apply pend_time; [apply (ba_inv _ _ _ (basics_reach _ _ _ _ _ _ R))|apply HQ].
  - cbn [exec step] in H. mbind H. destruct x as [r q1]. mbind H. destruct x as [log1 q2]. injection H as <- <-.
    destruct (off_step _ _ _ _ _ _ _ R N NR A FA FS FT E) as (R1 & A1 & F1 & S1 & P1 & W1).
    destruct (IH c s col n q1 log1 q2 R1 N NR A1 ltac:(rewrite S1; exact SV) FA FS F1 E0) as (R2 & A2 & F2 & S2 & P2 & W2).
    do 4 (split; [assumption|]). split.
    + cbn [departed turned_away flat_map]. fold (departed log1) (turned_away log1).
      apply perm_of_cnt. intro x. assert (Y1 := perm_cnt _ _ P1 x). assert (Y2 := perm_cnt _ _ P2 x).
      rewrite ?count_occ_app in *. lia.
    + intro L. destruct W1 as [[T ->]|[T W1]]; [|apply W2; lia].
      assert (E1 : held q = []) by (eapply idle_empty; eauto).
      rewrite E1 in P2. apply Permutation_nil in P2. apply app_eq_nil in P2 as [P2 _]. split; [exact P2|].
      assert (B2 := ba_inv _ _ _ (basics_reach _ _ _ _ _ _ R2)). apply pend_time; [exact B2|].
      unfold held in P2. apply app_eq_nil in P2 as [X Y]. apply app_eq_nil in Y as [Y _]. unfold ids in X, Y. apply map_eq_nil in X. apply map_eq_nil in Y.
      unfold pend. change agents_of with agents_in. unfold scheduled in X. unfold in_service in Y. rewrite X, Y. reflexivity.
Qed.

(** ** In a network *)

Lemma off_next q r q' : qinv q -> next_event q = Ok (r, q') -> q_active q = false -> q_active q' = false /\ q_ia q' = q_ia q /\ q_oarr q' = q_oarr q.
Proof. intros I H A. apply (off_op ONext); auto; [exact Logic.I|discriminate|]. cbn [run_op]. rewrite H. reflexivity. Qed.

Lemma off_stopped m ag q : q_active q = false -> stopped m ag q = q.
Proof. unfold stopped. intros ->. reflexivity. Qed.

Definition off (q q' : queue) : Prop := q_active q = false -> q_active q' = false /\ q_ia q' = q_ia q /\ q_oarr q' = q_oarr q.
Lemma off_refl q : off q q.
Proof. unfold off. auto. Qed.
Lemma off_trans q1 q2 q3 : off q1 q2 -> off q2 q3 -> off q1 q3.
Proof. unfold off. intros X Y A. destruct (X A) as (X1 & X2 & X3). destruct (Y X1) as (Y1 & Y2 & Y3). split; [exact Y1|]. split; congruence. Qed.

Lemma off_nst n n' k q q' : ninv n -> nst n n' -> get (nt_queues n) k = Some q -> get (nt_queues n') k = Some q' -> off q q'.
Proof.
  intros I S G0 G0'.
  destruct S as [SZ ->|t j h q1 SZ PO G DS ->|t j h q1 r q1' h' SZ PO G DS NX PU LC ->|
    t j h q1 a h0 l e2 q2 qm q1' d h' iu ie td SZ PO G DS DP OUT IN DD G2 NE CA MB RT DE DL NK PU ->|
    t j h q1 a h0 l e2 q2old b q1' q2 q2a r q2' h' iu SZ PO G DS DP OUT IN DD G2 CA NX GE AD NX2 PU LA LB ->]; unfold after in G0'; nch G0'.
  - assert (q' = q) by congruence. subst. apply off_refl.
  - assert (q' = q) by congruence. subst. apply off_refl.
  - destruct (popped _ _ _ _ I SZ PO) as (W & LE & LK & QK & QM & _ & KS & TT & HB & _).
    apply get_upd in G0' as [[-> ->]|[X Y]]; [|assert (q' = q) by congruence; subst; apply off_refl|exact LK]. assert (q1 = q) by congruence. subst q1.
    intro A. rewrite off_stopped in NX by exact A. eapply off_next; [|exact NX|exact A]. apply (KS _ _ G).
  - destruct (popped _ _ _ _ I SZ PO) as (W & LE & LK & QK & QM & _ & KS & TT & HB & _).
    assert (K := KS _ _ G). destruct (description_2 _ (qk_inv _ _ _ K) DS) as (NN & _ & _ & FI).
    destruct (qok_mark _ _ _ _ K MB) as (KM & _ & _ & CM & _). assert (AM : off q1 qm).
    { destruct (mark_facts _ _ (qi_dep _ (qk_inv _ _ _ K)) MB) as (? & ? & ? & _ & _ & -> & _). unfold off. qc. auto. }
    apply get_upd in G0' as [[-> ->]|[X Y]]; [| |rewrite upd_length; exact LK].
    + assert (q1 = q) by congruence. subst q1. eapply off_trans; [exact AM|]. intro A. apply (off_op (ODelay d)); auto; [apply KM|exact Logic.I|discriminate].
    + apply get_upd in Y as [[-> ->]|[X' Y]]; [|assert (q' = q) by congruence; subst; apply off_refl|eapply get_lt; exact G2].
      assert (q2 = q) by congruence. subst q2. unfold off. qc. auto.
  - destruct (popped _ _ _ _ I SZ PO) as (W & LE & LK & QK & QM & _ & KS & TT & HB & _).
    assert (K := KS _ _ G). destruct (description_2 _ (qk_inv _ _ _ K) DS) as (NN & _ & _ & FI).
    assert (TQ : q_time q1 = t) by (destruct (TT _ G); [assumption|congruence]). assert (FT : t <> Inf) by congruence.
    destruct (qok_next t j _ _ _ K TQ FT NX) as (K' & _).
    assert (K2 : qok t e2 q2).
    { apply get_upd in GE as [[-> ->]|[NE GE]]; [exact K'|apply KS; exact GE|exact LK]. }
    assert (O1 : off q1 q1') by (intro A; eapply off_next; [apply K|exact NX|exact A]).
    assert (RO : run_op (OArrive (set_ag_time t b)) q2 = Ok q2a) by exact AD.
    assert (I2a : qinv q2a) by exact (qinv_op _ _ _ (qk_inv _ _ _ K2) RO).
    assert (O2 : off q2 q2').
    { apply off_trans with q2a; [intro A; apply (off_op (OArrive (set_ag_time t b)) _ _ (qk_inv _ _ _ K2) Logic.I ltac:(discriminate) RO A)|].
      intro A. rewrite off_stopped in NX2 by exact A. eapply off_next; [exact I2a|exact NX2|exact A]. }
    apply get_upd in G0' as [[-> ->]|[X Y]]; [| |rewrite upd_length; eapply get_lt; exact G2].
    + apply get_upd in GE as [[-> ->]|[NE GE]]; [|assert (q2 = q) by congruence; subst; exact O2|exact LK].
      assert (q1 = q) by congruence. subst q1. eapply off_trans; [exact O1|exact O2].
    + apply get_upd in Y as [[-> ->]|[X' Y]]; [|assert (q' = q) by congruence; subst; apply off_refl|exact LK]. assert (q1 = q) by congruence. subst q1. exact O1.
Qed.

(** Calls that do not start anything anew. *)
Lemma off_on (f : queue -> queue) l : (forall q, off q (f q)) -> forall n n', on_queues f l n = Ok n' -> forall k q q', get (nt_queues n) k = Some q -> get (nt_queues n') k = Some q' -> off q q'.
Proof.
  intro F. induction l as [|e l IH]; intros n n' H k q q' G G'; cbn [on_queues] in H.
  - injection H as <-. assert (q' = q) by congruence. subst. apply off_refl.
  - mbind H. unfold queue_at in E. apply of_option_Ok in E.
    destruct (Nat.eq_dec e k) as [->|NE].
    + assert (x = q) by congruence. subst x. eapply off_trans; [apply F|]. eapply IH; [exact H| |exact G'].
      unfold put_queue. nc. apply get_upd_eq. eapply get_lt; exact E.
    + eapply IH; [exact H| |exact G']. unfold put_queue. nc. rewrite get_upd_neq by congruence. exact G.
Qed.

Lemma off_network n0 n1 n k q1 q : well_made n0 -> nreach usual n0 n1 -> nreach (fun m c => unbroken m c /\ (forall sel, c <> KInit sel)) n1 n ->
  get (nt_queues n1) k = Some q1 -> get (nt_queues n) k = Some q -> q_active q1 = false -> q_active q = false /\ q_ia q = q_ia q1 /\ q_oarr q = q_oarr q1.
Proof.
  intros W R1 R G1. revert q. induction R as [|m c n R IH [[US NC] NI] H]; intros q G A.
  - assert (q = q1) by congruence. subst. auto.
  - assert (RU : nreach usual n0 m).
    { clear - R R1. induction R as [|n c n' R IH OK H]; [exact R1|]. eapply nreach_step; [exact IH|apply OK|exact H]. }
    destruct (ngood_reach _ _ W RU) as [I _].
    assert (KEY : forall qm, get (nt_queues m) k = Some qm -> off qm q -> q_active q = false /\ q_ia q = q_ia q1 /\ q_oarr q = q_oarr q1).
    { intros qm Gm O. destruct (IH _ Gm A) as (X1 & X2 & X3). destruct (O X1) as (Y1 & Y2 & Y3). split; [exact Y1|]. split; congruence. }
    assert (Gm : exists qm, get (nt_queues m) k = Some qm).
    { destruct (call_same _ _ _ (ngood_reach _ _ W RU) US H) as (_ & _ & X). destruct (X _ _ G) as (qm & Gm & _). eauto. }
    destruct Gm as [qm Gm]. apply (KEY qm Gm).
    destruct c as [sel| | |o]; cbn [run_call] in H.
    + destruct (NI sel eq_refl).
    + destruct (NC eq_refl).
    + unfold net_copy in H. assert (E : get (nt_queues n) k = get (nt_queues m) k) by (destruct (nt_init m); [mbind H|]; injection H as <-; reflexivity).
      assert (qm = q) by congruence. subst. apply off_refl.
    + destruct o as [|b l|l|p|x|b]; cbn [run_nop] in H; [| | |injection H as <-; nch G; assert (qm = q) by congruence; subst; apply off_refl..].
      * apply sim_nst in H; [|exact I]. eapply off_nst; eauto.
      * eapply (off_on _ l); [|exact H|exact Gm|exact G]. intro z. unfold off. qc. auto.
      * eapply (off_on _ l); [|exact H|exact Gm|exact G]. intro z. unfold off. qc. auto.
Qed.
