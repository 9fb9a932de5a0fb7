(** * NetRefine: every queue of a network has a history of its own *)
From Coq Require Import List ZArith QArith Lia Bool Permutation Arith.
From Verif Require Import Base Heap HeapProofs PQueue PQueueProofs SpecPQ PQHist Queue QueueEffects QueueEvents QueueSteps QueueInv SpecQueue QueueFlow QueueHist QueueClaims1 QueueClaims2 QueueClaims3 Network NetQueue NetSteps NetInv SpecNet NetReach NetFlow NetClaims1 SpecRefine NetBare.
Import ListNotations.
Open Scope Z_scope.

(** ** What bare queues have in common *)

Lemma agents_unmark h : agents_in (map unmark_item h) = map unmark (agents_in h).
Proof. induction h as [|[|a] h IH]; cbn; [reflexivity|exact IH|]. change (a :: ?x) with ([a] ++ x). cbn. f_equal. exact IH. Qed.
Lemma ids_unmark l : ids (map unmark l) = ids l.
Proof. unfold ids. rewrite map_map. reflexivity. Qed.

Lemma bare_fields q q' : bare q = bare q' ->
  q_cfg q = q_cfg q' /\ q_servers q = q_servers q' /\ q_departed q = q_departed q' /\ q_nsys q = q_nsys q' /\ q_data q = q_data q' /\
  q_collect q = q_collect q' /\ q_narr q = q_narr q' /\ q_oarr q = q_oarr q' /\ q_total q = q_total q' /\ q_active q = q_active q' /\
  q_now q = q_now q' /\ q_time q = q_time q' /\ q_next_ct q = q_next_ct q' /\ q_over q = q_over q' /\ q_net q = q_net q' /\
  q_ia q = q_ia q' /\ q_is q = q_is q'.
Proof.
  intro B. split; [exact (f_equal q_cfg B)|]. split; [exact (f_equal q_servers B)|]. split; [exact (f_equal q_departed B)|]. split; [exact (f_equal q_nsys B)|].
  split; [exact (f_equal q_data B)|]. split; [exact (f_equal q_collect B)|]. split; [exact (f_equal q_narr B)|]. split; [exact (f_equal q_oarr B)|].
  split; [exact (f_equal q_total B)|]. split; [exact (f_equal q_active B)|]. split; [exact (f_equal q_now B)|]. split; [exact (f_equal q_time B)|].
  split; [exact (f_equal q_next_ct B)|]. split; [exact (f_equal q_over B)|]. split; [exact (f_equal q_net B)|]. split; [exact (f_equal q_ia B)|exact (f_equal q_is B)].
Qed.
Lemma bare_agents q q' : bare q = bare q' ->
  map unmark (scheduled q) = map unmark (scheduled q') /\ map unmark (in_service q) = map unmark (in_service q') /\
  map unmark (waiting q) = map unmark (waiting q').
Proof.
  intro B. unfold scheduled, in_service, waiting. rewrite <- !agents_unmark.
  split; [exact (f_equal (fun x => agents_in (q_arr x)) B)|]. split; [exact (f_equal (fun x => agents_in (q_dep x)) B)|exact (f_equal q_line B)].
Qed.
Lemma bare_ids q q' : bare q = bare q' ->
  ids (scheduled q) = ids (scheduled q') /\ ids (in_service q) = ids (in_service q') /\ ids (waiting q) = ids (waiting q').
Proof.
  intro B. destruct (bare_agents _ _ B) as (E1 & E2 & E3).
  rewrite <- (ids_unmark (scheduled q)), <- (ids_unmark (in_service q)), <- (ids_unmark (waiting q)), E1, E2, E3, !ids_unmark. auto.
Qed.
Lemma bare_held q q' : bare q = bare q' -> held q = held q'.
Proof. intro B. destruct (bare_ids _ _ B) as (E1 & E2 & E3). unfold held. rewrite E1, E2, E3. reflexivity. Qed.
Lemma bare_serving q q' : bare q = bare q' -> serving q = serving q' /\ zlen (waiting q) = zlen (waiting q').
Proof.
  intro B. destruct (bare_ids _ _ B) as (_ & E2 & E3). unfold serving, zlen.
  rewrite <- (map_length ag_id (in_service q)), <- (map_length ag_id (in_service q')), <- (map_length ag_id (waiting q)), <- (map_length ag_id (waiting q')).
  unfold ids in *. rewrite E2, E3. auto.
Qed.

(** ** Histories *)

(** Calls made during an event or by initialize. *)
Definition inner (o : qop) : Prop :=
  match o with ONext | OActive | OInactive | ODelay _ | OArrive _ => True | _ => False end.

Section History.
Context (okq : queue -> qop -> Prop) (H : forall q o, inner o -> no_past q o -> fresh q o -> okq q o) (q00 : queue).

Definition hist (q : queue) : Prop := exists q0, reach okq q00 q0 /\ bare q0 = bare q.

Lemma hist_same q q' : hist q -> bare q' = bare q -> hist q'.
Proof. intros (q0 & R & B) E. exists q0. split; [exact R|congruence]. Qed.
Lemma hist_next q r q' : hist q -> next_event q = Ok (r, q') -> hist q'.
Proof.
  intros (q0 & R & B) E. destruct (next_same _ _ _ _ B E) as (r0 & q0' & E0 & B' & _). exists q0'. split; [|exact B'].
  apply (reach_step _ _ q0 ONext); [exact R|apply H; exact Logic.I|]. cbn [run_op]. rewrite E0. reflexivity.
Qed.
Lemma hist_active q q' : hist q -> set_active q = Ok q' -> hist q'.
Proof.
  intros (q0 & R & B) E. destruct (veil_same _ active_bare _ _ _ B E) as (q0' & E0 & B'). exists q0'. split; [|exact B'].
  apply (reach_step _ _ q0 OActive); [exact R|apply H; exact Logic.I|exact E0].
Qed.
Lemma hist_stopped max ag q : hist q -> hist (stopped max ag q).
Proof.
  intros (q0 & R & B). unfold stopped. destruct (q_active q && _); [|exists q0; auto].
  exists (set_q_active false q0). split; [apply (reach_step _ _ q0 OInactive); [exact R|apply H; exact Logic.I|reflexivity]|].
  assert (E : set_q_active false (bare q0) = set_q_active false (bare q)) by (rewrite B; reflexivity). exact E.
Qed.
Lemma hist_add a q q' : hist q -> eLe (q_now q) (ag_time a) -> fresh q (OArrive a) -> add_arrival a q = Ok q' -> hist q'.
Proof.
  intros (q0 & R & B) LE FR E. destruct (add_same _ _ _ _ B E) as (q0' & E0 & B'). exists q0'. split; [|exact B'].
  destruct (bare_fields _ _ B) as (C & _ & _ & _ & _ & _ & _ & O & _ & _ & N & _).
  apply (reach_step _ _ q0 (OArrive a)); [exact R| |exact E0]. apply H; [exact Logic.I|cbn; rewrite N; exact LE|].
  cbn in *. rewrite (bare_held _ _ B), C, O. exact FR.
Qed.
Lemma hist_delay t q q' : hist q -> (forall x, t = Some x -> eLe (q_now q) x) -> delay_service t q = Ok q' -> hist q'.
Proof.
  intros (q0 & R & B) LE E. destruct (veil_same _ (fun d => delay_bare d t) _ _ _ B E) as (q0' & E0 & B'). exists q0'. split; [|exact B'].
  destruct (bare_fields _ _ B) as (_ & _ & _ & _ & _ & _ & _ & _ & _ & _ & N & _).
  apply (reach_step _ _ q0 (ODelay t)); [exact R| |exact E0]. apply H; [exact Logic.I| |exact Logic.I]. cbn. destruct t; [rewrite N; auto|exact Logic.I].
Qed.
Lemma hist_mark q qm : mark_blocked q = Ok qm -> hist q -> hist qm.
Proof.
  intros E Q. apply (hist_same q); [exact Q|]. unfold mark_blocked, first_departure in E. destruct (q_dep q) as [|[|a] h] eqn:D; try discriminate.
  cbn [bind tl] in E. injection E as <-. unfold bare. cbn [set_q_dep set_q_arr set_q_line set_q_blocked q_dep q_arr q_line].
  rewrite D. reflexivity.
Qed.
End History.

Section Net.
Context (okq : queue -> qop -> Prop) (H : forall q o, inner o -> no_past q o -> fresh q o -> okq q o) (qs0 : list queue).

(** Every queue has a history that starts with the queue of [qs0] in the
    same place. *)
Definition hists (qs : list queue) : Prop :=
  forall k q, get qs k = Some q -> exists q00, get qs0 k = Some q00 /\ hist okq q00 q.

Lemma hists_upd qs k q q' : hists qs -> get qs k = Some q -> (forall q00, hist okq q00 q -> hist okq q00 q') -> hists (upd qs k q').
Proof.
  intros HS G F j qj GJ. apply get_upd in GJ as [[-> ->]|[_ GJ]]; [|apply HS; exact GJ|exact (get_lt _ _ _ G)].
  destruct (HS _ _ G) as (q00 & G0 & X). exists q00. auto.
Qed.

Lemma hists_step n n' : ninv n -> uniq n -> nst n n' -> hists (nt_queues n) -> hists (nt_queues n').
Proof.
  intros I U S HS. destruct S as [SZ ->|t k h q SZ PO G DS ->|t k h q r q' h' SZ PO G DS NX PU LC ->|
    t k h q a h0 l e2 q2 qm q' d h' iu ie td SZ PO G DS DP OUT IN DD G2 NE CA MB RT DE DL NK PU ->|
    t k h q a h0 l e2 q2old b q' q2 q2a r q2' h' iu SZ PO G DS DP OUT IN DD G2 CA NX GE AD NX2 PU LA LB ->].
  - exact HS.
  - exact HS.
  - unfold after. nc. apply (hists_upd _ _ q); [exact HS|exact G|]. intros q00 X. eapply hist_next; [exact H| |exact NX]. apply hist_stopped; assumption.
  - destruct (popped _ _ _ _ I SZ PO) as (W & LE & LK & QK & QM & _ & KS & TT & HB & _).
    assert (K := KS _ _ G). assert (K2 := KS _ _ G2).
    destruct (qok_mark _ _ _ _ K MB) as (KM & _).
    unfold after. nc. apply (hists_upd _ _ q); [|rewrite get_upd_neq by congruence; exact G|].
    + apply (hists_upd _ _ q2); [exact HS|exact G2|]. intros q00 X. apply (hist_same _ _ q2); [exact X|reflexivity].
    + intros q00 X. eapply hist_delay; [exact H| | |exact DL].
      * eapply hist_mark; eassumption.
      * intros x ->. destruct (nt_bas n); [|discriminate]. injection DE as ->.
        apply eLe_trans with t; [apply (qk_now _ _ _ KM)|].
        apply eLe_trans with td; [|apply eadd_ge; apply I].
        rewrite (wfh_root_time _ (qi_dep _ (qk_inv _ _ _ K2))) in RT. injection RT as <-.
        destruct (wfh_min_cases _ (qi_dep _ (qk_inv _ _ _ K2))) as [Y|(b & B & T)]; [rewrite Y; apply eLe_Inf|].
        rewrite <- T. apply (qk_pend _ _ _ K2). unfold pend. apply in_or_app. right. apply in_map; exact B.
  - destruct (popped _ _ _ _ I SZ PO) as (W & LE & LK & QK & QM & _ & KS & TT & HB & _).
    assert (K := KS _ _ G). destruct (description_2 _ (qk_inv _ _ _ K) DS) as (NN & _ & _ & FI).
    assert (TQ : q_time q = t) by (destruct (TT _ G); [assumption|congruence]). assert (FT : t <> Inf) by congruence.
    destruct (dep_event _ _ _ _ _ (qk_inv _ _ _ K) DS DP NX) as (b0 & EB & IDB & _ & HH & OB & _). injection EB as <-.
    destruct (qok_next t k _ _ _ K TQ FT NX) as (K' & _).
    assert (K2 : qok t e2 q2).
    { apply get_upd in GE as [[-> ->]|[NE GE]]; [exact K'|apply KS; exact GE|exact LK]. }
    unfold after. nc. assert (HS1 : hists (upd (nt_queues n) k q')).
    { apply (hists_upd _ _ q); [exact HS|exact G|]. intros q00 X. eapply hist_next; [exact H|exact X|exact NX]. }
    apply (hists_upd _ _ q2); [exact HS1|exact GE|]. intros q00 X. eapply hist_next; [exact H| |exact NX2]. apply hist_stopped; [exact H|].
    apply (hist_add _ H _ (set_ag_time t b) q2 q2a); [exact X|exact (qk_now _ _ _ K2)| |exact AD].
    (* the agent is new there *)
    destruct U as [ND BD]. assert (IN1 : In (ag_id a) (held q)).
    { apply (Permutation_in (ag_id a) (Permutation_sym HH)). left; reflexivity. }
    assert (EV : In (ag_id a) (everyone n)) by exact (held_everyone _ _ _ _ G IN1).
    assert (NQ : ~ In (ag_id a) (held q')).
    { assert (N1 : NoDup (held q)).
      { clear - ND G. unfold everyone in ND. revert k G. induction (nt_queues n) as [|q0 qs IH]; intros k G; [destruct k; discriminate|].
        cbn in ND. destruct k as [|k]; [injection G as ->; apply nodup_l in ND; exact ND|]. apply nodup_r in ND. eapply IH; eassumption. }
      apply (Permutation_NoDup HH) in N1. inversion N1; assumption. }
    assert (OE : q_oarr q' = q_oarr q) by exact OB.
    cbn [fresh]. change (ag_id (set_ag_time t b)) with (ag_id b). rewrite IDB. rewrite (qk_idx _ _ _ K2). split.
    + apply get_upd in GE as [[-> ->]|[NE GE]]; [exact NQ| |exact LK].
      intro X2. apply NE. symmetry. eapply one_queue; [exact ND|exact G|exact GE|exact IN1|exact X2].
    + intro FE. destruct (BD _ EV) as (q3 & G3 & LT). rewrite FE in G3.
      apply get_upd in GE as [[-> ->]|[NE GE]]; [| |exact LK].
      * assert (q3 = q) by congruence. subst q3. rewrite OE. exact LT.
      * assert (q3 = q2) by congruence. subst q3. exact LT.
Qed.

Lemma hists_activate l : forall n n', hists (nt_queues n) -> activate l n = Ok n' -> hists (nt_queues n').
Proof.
  induction l as [|e l IH]; intros n n' HS E; cbn [activate] in E; [injection E as <-; exact HS|].
  mbind E. rename x into q. apply queue_at_Ok in E0. mbind E. rename x into q'. mbind E. apply set_count_Ok in E2 as [LC ->].
  apply IH in E; [exact E|]. nc. apply (hists_upd _ _ q); [exact HS|exact E0|]. intros q00 X. eapply hist_active; eauto.
Qed.

Lemma hists_on (f : queue -> queue) (o : qop) l :
  (forall q q', bare q = bare q' -> bare (f q) = bare (f q')) -> (forall q, f (f q) = f q) -> (forall q, run_op o q = Ok (f q)) ->
  forall n1 n n', (forall k q, In k l -> get (nt_queues n1) k = Some q -> forall q0, bare q0 = bare q \/ bare q0 = bare (f q) -> okq q0 o) ->
  (forall k q, get (nt_queues n) k = Some q -> exists q1, get (nt_queues n1) k = Some q1 /\ (q = q1 \/ q = f q1)) ->
  hists (nt_queues n) -> on_queues f l n = Ok n' -> hists (nt_queues n').
Proof.
  intros FB FF FO n1. induction l as [|e l IH]; intros n n' OK RL HS E; cbn [on_queues] in E; [injection E as <-; exact HS|].
  mbind E. apply queue_at_Ok in E0. rename x into q. destruct (RL _ _ E0) as (q1 & G1 & D). assert (L := get_lt _ _ _ E0).
  apply IH in E; [exact E|intros; eapply OK; [right|..]; eassumption| |].
  - nc. intros k qk GK. apply get_upd in GK as [[-> ->]|[NE GK]]; [|apply RL; exact GK|exact L].
    exists q1. split; [exact G1|]. right. destruct D as [->| ->]; [reflexivity|apply FF].
  - nc. apply (hists_upd _ _ q); [exact HS|exact E0|]. intros q00 (q0 & R & B). exists (f q0). split; [|apply FB; exact B].
    apply (reach_step _ _ q0 o); [exact R| |apply FO]. apply (OK e q1 (or_introl eq_refl) G1).
    destruct D as [->| ->]; auto.
Qed.
End Net.

(** The histories of queues in a history of the network. *)
Lemma hists_reach (okq : queue -> qop -> Prop) (okn : net -> ncall -> Prop) n0 n1 n : well_made n0 -> nreach usual n0 n1 ->
  (forall q o, inner o -> no_past q o -> fresh q o -> okq q o) ->
  (forall n c, okn n c -> usual n c) ->
  (forall n, okn n KClear -> forall q0, okq q0 OClear) ->
  (forall n b l, okn n (KOp (NCollect b l)) -> forall k q, In k l -> get (nt_queues n) k = Some q ->
     forall q0, bare q0 = bare q \/ bare q0 = bare (set_q_collect b q) -> okq q0 (OCollect b)) ->
  (forall n l, okn n (KOp (NClearData l)) -> forall k q, In k l -> get (nt_queues n) k = Some q ->
     forall q0, bare q0 = bare q \/ bare q0 = bare (set_q_data [] q) -> okq q0 OClearData) ->
  nreach okn n1 n -> hists okq (nt_queues n1) (nt_queues n).
Proof.
  intros W R1 OI OU OC OB OD R. induction R as [|n c n' R IH US H].
  - intros k q G. exists q. split; [exact G|]. exists q. split; [apply reach_here|reflexivity].
  - assert (RU : nreach usual n0 n).
    { clear - R R1 OU. induction R as [|n c n' R IH OK H]; [exact R1|]. eapply nreach_step; [exact IH|apply OU; exact OK|exact H]. }
    assert (U := uniq_reach _ _ W RU). assert (GD := ngood_reach _ _ W RU). destruct GD as [I _].
    assert (SELF : forall (f : queue -> queue) k q, get (nt_queues n) k = Some q -> exists q1, get (nt_queues n) k = Some q1 /\ (q = q1 \/ q = f q1)) by eauto.
    destruct c as [sel| | |o]; cbn [run_call] in H.
    + unfold initialize_queues in H. mbind H. destruct (length x =? 0)%nat; [discriminate|]. mbind H. mbind H. injection H as <-. nc.
      eapply hists_activate; eauto.
    + injection H as <-. unfold net_clear. nc. intros k q G. unfold get in G. rewrite nth_error_map in G.
      destruct (nth_error (nt_queues n) k) as [q1|] eqn:G1; [|discriminate]. injection G as <-. destruct (IH _ _ G1) as (q00 & G0 & q0 & R0 & B).
      exists q00. split; [exact G0|]. exists (clear q0). split; [|apply clear_same; exact B].
      apply (reach_step _ _ q0 OClear); [exact R0|apply (OC _ US)|reflexivity].
    + unfold net_copy in H. destruct (nt_init n); [mbind H|]; injection H as <-; exact IH.
    + destruct o as [|b l|l|p|m|b]; cbn [run_nop] in H; [| | |injection H as <-; exact IH..].
      * apply sim_nst in H; [|exact I]. eapply hists_step; eauto.
      * refine (hists_on okq (nt_queues n1) (set_q_collect b) (OCollect b) l _ _ _ n n n' (OB _ _ _ US) (SELF _) IH H); try reflexivity.
        intros q q' B. assert (E : set_q_collect b (bare q) = set_q_collect b (bare q')) by (rewrite B; reflexivity). exact E.
      * refine (hists_on okq (nt_queues n1) (set_q_data []) OClearData l _ _ _ n n n' (OD _ _ US) (SELF _) IH H); try reflexivity.
        intros q q' B. assert (E : set_q_data [] (bare q) = set_q_data [] (bare q')) by (rewrite B; reflexivity). exact E.
Qed.

Lemma made_new n0 k q : well_made n0 -> get (nt_queues n0) k = Some q -> exists c s col nE, q = new_queue c s col nE /\ c_idx c = k /\ forward c.
Proof. intros (qs & out & max & bas & junk & u & eps & -> & MK & _) G. unfold new_net in G. nch G. exact (MK _ _ G). Qed.

Lemma refines n0 n1 n2 k q : well_made n0 -> nreach usual n0 n1 -> nreach usual n1 n2 -> get (nt_queues n2) k = Some q ->
  exists q1 q2, get (nt_queues n1) k = Some q1 /\ reach indoors q1 q2 /\ bare q2 = bare q.
Proof.
  intros W R1 R G. assert (HS : hists indoors (nt_queues n1) (nt_queues n2)).
  { apply (hists_reach indoors usual n0); auto; try (intros; exact Logic.I).
    - intros q1 o IN NP FR. destruct o; cbn in *; tauto.
    - intros. cbn. auto.
    - intros. cbn. auto. }
  destruct (HS _ _ G) as (q1 & G1 & q2 & R2 & B). eauto.
Qed.
Lemma refines_unbroken n0 n1 n2 k q : well_made n0 -> nreach usual n0 n1 -> nreach unbroken n1 n2 -> get (nt_queues n2) k = Some q ->
  exists q1 q2, get (nt_queues n1) k = Some q1 /\ reach (fun q o => indoors q o /\ no_clear o) q1 q2 /\ bare q2 = bare q.
Proof.
  intros W R1 R G. assert (HS : hists (fun q o => indoors q o /\ no_clear o) (nt_queues n1) (nt_queues n2)).
  { apply (hists_reach _ unbroken n0); auto.
    - intros q1 o IN NP FR. destruct o; cbn in *; tauto.
    - intros n c [U _]. exact U.
    - intros n [_ X]. congruence.
    - intros. cbn. auto.
    - intros. cbn. auto. }
  destruct (HS _ _ G) as (q1 & G1 & q2 & R2 & B). eauto.
Qed.
Lemma bare_nobody q q' : bare q = bare q' -> nobody q' -> nobody q.
Proof.
  intros B [W S]. destruct (bare_agents _ _ B) as (_ & E2 & E3). rewrite S in E2. rewrite W in E3. split; eapply map_eq_nil; eassumption.
Qed.
Lemma refines_attentive n0 n1 n2 k q : well_made n0 -> nreach usual n0 n1 -> nreach attentive n1 n2 -> get (nt_queues n2) k = Some q ->
  exists q1 q2, get (nt_queues n1) k = Some q1 /\ reach (fun q o => indoors q o /\ careful q o) q1 q2 /\ bare q2 = bare q.
Proof.
  intros W R1 R G. assert (HS : hists (fun q o => indoors q o /\ careful q o) (nt_queues n1) (nt_queues n2)).
  { apply (hists_reach _ attentive n0); auto.
    - intros q1 o IN NP FR. unfold careful. destruct o; cbn in *; tauto.
    - intros n c [[U _] _]. exact U.
    - intros n [[_ X] _]. congruence.
    - intros n b l [_ X] j q1 IN GJ q0 [B|B]; (split; [cbn; auto|]); (split; [exact Logic.I|]); (split; [exact Logic.I|]); cbn.
      + destruct (X _ _ IN GJ) as [->|NB]; [left; symmetry; apply (bare_fields _ _ B)|right; eapply bare_nobody; eassumption].
      + left. symmetry. assert (E := bare_fields _ _ B). apply E.
    - intros n l [_ X] j q1 IN GJ q0 [B|B]; (split; [cbn; auto|]); (split; [exact Logic.I|]); (split; [exact Logic.I|]); cbn.
      + eapply bare_nobody; [exact B|exact (X _ _ IN GJ)].
      + eapply bare_nobody; [exact B|exact (X _ _ IN GJ)]. }
  destruct (HS _ _ G) as (q1 & G1 & q2 & R2 & B). eauto.
Qed.

(** ** What holds of stand-alone queues, in networks *)
Lemma turn_refl q : in_turn q q.
Proof. exists [], [], []. rewrite !app_nil_r. cbn. unfold zlen. cbn. repeat split; auto; lia. Qed.
Lemma turn_trans q1 q2 q3 : in_turn q1 q2 -> in_turn q2 q3 -> in_turn q1 q3.
Proof.
  intros (j1 & s1 & l1 & A1 & B1 & C1) (j2 & s2 & l2 & A2 & B2 & C2).
  exists (j1 ++ j2), (s1 ++ s2), (l1 ++ l2). split; [|split].
  - rewrite app_assoc, A1, <- !app_assoc, A2. reflexivity.
  - rewrite app_assoc. etransitivity; [apply Permutation_app_tail; exact B1|]. rewrite <- app_assoc.
    etransitivity; [apply Permutation_app_head; apply Permutation_app_comm|]. rewrite app_assoc.
    etransitivity; [apply Permutation_app_tail; exact B2|]. rewrite <- app_assoc. apply Permutation_app_head. apply Permutation_app_comm.
  - rewrite C2, C1. unfold zlen. rewrite app_length. lia.
Qed.
Lemma turn_reach (ok : queue -> qop -> Prop) q q' : (forall q o, ok q o -> no_clear o) -> qinv q -> c_class (q_cfg q) <> CNull -> c_class (q_cfg q) <> CResource ->
  winv q -> reach ok q q' -> in_turn q q'.
Proof.
  intros NC I N NR W R. cut (qinv q' /\ q_cfg q' = q_cfg q /\ winv q' /\ in_turn q q'); [tauto|].
  induction R as [|q1 o q2 R (I1 & C1 & W1 & T1) OK H]; [auto using turn_refl|].
  assert (exists r, step o q1 = Ok (r, q2)) as [r ST].
  { destruct o; cbn [step run_op] in *; try (rewrite H; eexists; reflexivity). mbind H. destruct x as [r0 q0]. injection H as <-. rewrite E. eexists; reflexivity. }
  rewrite <- C1 in N, NR. destruct (step_flow _ _ _ _ I1 N (NC _ _ OK) ST) as [[FF FD _ _] I2].
  destruct FF as (new & st & FL & X). destruct (X NR W1) as [W2 L].
  split; [exact I2|]. split; [rewrite (fl_cfg _ _ _ _ _ _ _ _ FL); exact C1|]. split; [exact W2|].
  eapply turn_trans; [exact T1|]. eexists _, st, _. split; [exact L|]. split; [exact (fl_dep _ _ _ _ _ _ _ _ FL)|exact FD].
Qed.
Lemma bare_turn q q' q0 : bare q0 = bare q' -> in_turn q q0 -> in_turn q q'.
Proof.
  intros B (j & s & l & A1 & B1 & C1). destruct (bare_ids _ _ B) as (E1 & E2 & E3). exists j, s, l.
  assert (D := bare_fields _ _ B). decompose [and] D. rewrite <- E3, <- E2. repeat split; congruence.
Qed.
