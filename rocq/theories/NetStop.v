(** * NetStop: simulate(t=...) comes to an end *)
From Coq Require Import List ZArith QArith Lia Bool Permutation Arith.
From Verif Require Import Base Heap HeapProofs PQueue PQueueProofs SpecPQ PQHist Queue QueueEffects QueueEvents QueueSteps QueueInv SpecQueue QueueFlow QueueHist QueueClaims1 QueueClaims3 Network NetQueue NetSteps NetInv SpecNet NetReach NetFlow NetClaims1 NetTotal SpecRefine NetBare NetRefine SpecStop.
Import ListNotations.
Open Scope Z_scope.

(** ** What is due *)
Definition isdue (t : ext) (x : ext) : bool := eleb x t.
Definition due (t : ext) (l : list ext) : nat := length (filter (isdue t) l).
Definition total (t : ext) (qs : list queue) : nat := fold_right (fun q s => (due t (pend q) + s)%nat) 0%nat qs.

Lemma due_app t l l' : due t (l ++ l') = (due t l + due t l')%nat.
Proof. unfold due. rewrite filter_app, app_length. reflexivity. Qed.
Lemma due_perm t l l' : Permutation l l' -> due t l = due t l'.
Proof.
  unfold due. intro P. induction P; cbn [filter]; [reflexivity|destruct (isdue t x); cbn [length]; congruence|
    destruct (isdue t x), (isdue t y); reflexivity|congruence].
Qed.
Lemma due_later t l : (forall x, In x l -> eLt t x) -> due t l = 0%nat.
Proof.
  unfold due. induction l as [|x l IH]; intro H; [reflexivity|]. cbn [filter]. unfold isdue at 1.
  destruct (eleb x t) eqn:E; [|apply IH; intros y Y; apply H; right; exact Y].
  apply eleb_le in E. exfalso. exact (proj1 (eLt_not_le _ _) (H x (or_introl eq_refl)) E).
Qed.
Lemma due_now t l : due t (t :: l) = Datatypes.S (due t l).
Proof. unfold due. cbn [filter]. unfold isdue at 1. rewrite (proj2 (eleb_le t t) (eLe_refl t)). reflexivity. Qed.

Lemma total_upd t q' : forall qs k q, get qs k = Some q ->
  (total t (upd qs k q') + due t (pend q) = total t qs + due t (pend q'))%nat.
Proof.
  unfold total. induction qs as [|q0 qs IH]; intros [|k] q G; try discriminate; cbn [upd fold_right].
  - injection G as ->. lia.
  - specialize (IH k q G). lia.
Qed.

(** ** One event *)
Local Notation quick := lively.

Lemma drawn_later q t x : brisk (q_cfg q) -> q_time q = t -> t <> Inf -> drawn q x -> eLt t x.
Proof.
  intros B <- F (i & D). destruct (q_time q) as [z|]; [|congruence]. destruct (B i z) as [X Y]. destruct D as [-> | ->]; assumption.
Qed.

Lemma next_due q r q' t : brisk (q_cfg q) -> qinv q -> c_class (q_cfg q) <> CNull -> q_time q = t -> t <> Inf -> next_event q = Ok (r, q') ->
  due t (pend q) = Datatypes.S (due t (pend q')).
Proof.
  intros B I N T F H. destruct (next_drawn _ _ _ I H) as [([X|X] & _)|(_ & _ & rest & new & P1 & P2 & D & _)]; [congruence|congruence|].
  rewrite (due_perm _ _ _ P1), (due_perm _ _ _ P2), T, due_now, due_app, (due_later t new); [reflexivity|].
  intros x X. eapply drawn_later; eauto.
Qed.

Lemma enter_due s k max ag q a q1 r q2 : brisk (q_cfg q) -> qok s k q -> s <> Inf -> ag_time a = s ->
  add_arrival a q = Ok q1 -> next_event (stopped max ag q1) = Ok (r, q2) -> due s (pend q2) = due s (pend q).
Proof.
  intros B K NI TA AD NX. destruct (c_class (q_cfg q)) eqn:C.
  3:{ destruct (null_idle _ _ _ K C) as [T P]. destruct (qok_enter _ _ _ _ _ _ _ _ _ K NI TA AD NX) as (K2 & _ & CF).
      destruct (null_idle _ _ _ K2) as [_ P2]; [congruence|]. rewrite P, P2. reflexivity. }
  all: assert (N : c_class (q_cfg q) <> CNull) by congruence; assert (I1 := qk_inv _ _ _ K);
    destruct (add_pend _ _ _ I1 N AD) as (P1 & NOW & _ & _ & _);
    assert (IV := qinv_add_arrival _ _ _ I1 AD);
    assert (CF : q_cfg q1 = q_cfg q) by (apply add_arrival_Ok in AD as (h & -> & _); [reflexivity|exact N|apply I1|apply I1]);
    assert (K1 : qok s k q1) by (destruct K as [A1 A2 A3 A4 A5 A6]; split;
      [exact IV|congruence|congruence|congruence|intros x X; apply (Permutation_in x P1) in X; destruct X as [<-|X]; [rewrite TA; apply eLe_refl|apply A5; exact X]
      |congruence]);
    assert (TS : q_time q1 = s) by (apply eLe_antisym; [apply pend_min; [exact IV|]; apply (Permutation_in _ (Permutation_sym P1)); left; exact TA|apply (qok_time _ _ _ K1)]);
    assert (X := next_due (stopped max ag q1) r q2 s); rewrite cfg_stopped, CF, time_stopped, pend_stopped in X;
    specialize (X B (qk_inv _ _ _ (qok_stopped _ _ max ag _ K1)) N TS NI NX); rewrite (due_perm _ _ _ P1), TA, due_now in X; congruence.
Qed.

Lemma delay_due s k q d q' : brisk (q_cfg q) -> qok s k q -> q_time q = s -> s <> Inf -> next_event_description q = Ok 2 ->
  delay_service d q = Ok q' -> (forall t, d = Some t -> eLt s t) -> due s (pend q) = Datatypes.S (due s (pend q')).
Proof.
  intros B K TS NI DS DL TD.
  destruct (qok_delay _ _ _ _ _ K TS DS DL) as (_ & (rest & t' & P1 & P2 & _ & D1 & D2) & _); [intros t E; apply eLt_le; auto|].
  rewrite (due_perm _ _ _ P1), (due_perm _ _ _ P2), due_now. change (t' :: rest) with ([t'] ++ rest). rewrite due_app, (due_later s [t']); [reflexivity|].
  intros x [<-|[]]. destruct d as [t|]; [rewrite (D1 _ eq_refl); auto|]. destruct (D2 eq_refl) as (i & ->).
  destruct s as [z|]; [|congruence]. apply (B i z).
Qed.

Lemma pop_smaller n t k h : ninv n -> (0 < pq_size (nt_heap n))%nat -> pq_pop (nt_heap n) = Ok (Some (t, k), h) ->
  (pq_size h < pq_size (nt_heap n))%nat.
Proof.
  intros I SZ PO. destruct (popped _ _ _ _ I SZ PO) as (W & _ & _ & _ & _ & (dr & P) & _).
  destruct (ni_heap _ I) as [[X _]|[W0 _]]; [lia|]. apply Permutation_length in P. cbn [length] in P. rewrite app_length in P.
  rewrite !pq_entries_length in P by (first [assert (Z := wf_size _ _ W0); assert (Z2 := wf_store _ _ W0); lia | assert (Z := wf_size _ _ W); assert (Z2 := wf_store _ _ W); lia]). lia.
Qed.

Lemma step_due n n' : ninv n -> quick n -> nst n n' -> nt_t n' <> Inf ->
  (total (nt_t n') (nt_queues n') < total (nt_t n') (nt_queues n))%nat \/
  nt_queues n' = nt_queues n /\ (pq_size (nt_heap n') < pq_size (nt_heap n))%nat.
Proof.
  intros I [BR EP] S NI. destruct S as [SZ ->|t k h q SZ PO G DS ->|t k h q r q' h' SZ PO G DS NX PU LC ->|
    t k h q a h0 l e2 q2 qm q' d h' iu ie td SZ PO G DS DP OUT IN DD G2 NE CA MB RT DE DL NK PU ->|
    t k h q a h0 l e2 q2old b q' q2 q2a r q2' h' iu SZ PO G DS DP OUT IN DD G2 CA NX GE AD NX2 PU LA LB ->].
  - exfalso. apply NI. reflexivity.
  - right. unfold after. nc. split; [reflexivity|]. eapply pop_smaller; eauto.
  - left. unfold after in *. nc. nch NI. destruct (popped _ _ _ _ I SZ PO) as (W & LE & LK & QK & QM & _ & KS & TT & HB & _).
    assert (K := KS _ _ G). destruct (description_1 _ (qk_inv _ _ _ K) DS) as (N & _ & _ & FI).
    assert (TQ : q_time q = t) by (destruct (TT _ G); [assumption|congruence]).
    assert (X := next_due (stopped (nt_max n) (nt_nagents n) q) r q' t). rewrite cfg_stopped, time_stopped, pend_stopped in X.
    specialize (X (BR _ _ G) (qk_inv _ _ _ (qok_stopped _ _ _ _ _ K)) N TQ NI NX).
    assert (Y := total_upd t q' _ _ _ G). lia.
  - left. unfold after in *. nc. nch NI. destruct (popped _ _ _ _ I SZ PO) as (W & LE & LK & QK & QM & _ & KS & TT & HB & _).
    assert (K := KS _ _ G). assert (K2 := KS _ _ G2). destruct (description_2 _ (qk_inv _ _ _ K) DS) as (N & _ & _ & FI).
    assert (TQ : q_time q = t) by (destruct (TT _ G); [assumption|congruence]).
    destruct (qok_mark _ _ _ _ K MB) as (KM & PM & TM & CM & HM & AM & _).
    assert (DM : next_event_description qm = Ok 2).
    { rewrite <- DS. apply description_same; auto; [apply (qk_inv _ _ _ K)|apply (qk_inv _ _ _ KM)]. }
    assert (X := delay_due t k qm d q'). rewrite CM, TM, PM in X. specialize (X (BR _ _ G) KM TQ NI DM DL).
    assert (Y := total_upd t q' (upd (nt_queues n) e2 (set_q_blocked (q_blocked q2 + 1) q2)) k q). rewrite get_upd_neq in Y by congruence. specialize (Y G).
    assert (Y2 := total_upd t (set_q_blocked (q_blocked q2 + 1) q2) _ _ _ G2). change (pend (set_q_blocked (q_blocked q2 + 1) q2)) with (pend q2) in Y2.
    enough (forall x, d = Some x -> eLt t x) as Z by (specialize (X Z); lia).
    intros x ->. destruct (nt_bas n); [|discriminate]. injection DE as ->.
    rewrite (wfh_root_time _ (qi_dep _ (qk_inv _ _ _ K2))) in RT. injection RT as <-.
    assert (TL : eLe t (hmin (q_dep q2))).
    { destruct (wfh_min_cases _ (qi_dep _ (qk_inv _ _ _ K2))) as [Y3|(b & B & T)]; [rewrite Y3; apply eLe_Inf|].
      rewrite <- T. apply (qk_pend _ _ _ K2). unfold pend. apply in_or_app. right. apply in_map; exact B. }
    assert (E := EP (nt_ie n)). destruct t as [z|]; [|congruence]. destruct (hmin (q_dep q2)); cbn in *; [lia|exact Logic.I].
  - left. unfold after in *. nc. nch NI. destruct (popped _ _ _ _ I SZ PO) as (W & LE & LK & QK & QM & _ & KS & TT & HB & _).
    assert (K := KS _ _ G). destruct (description_2 _ (qk_inv _ _ _ K) DS) as (N & _ & _ & FI).
    assert (TQ : q_time q = t) by (destruct (TT _ G); [assumption|congruence]).
    assert (X := next_due _ _ _ t (BR _ _ G) (qk_inv _ _ _ K) N TQ NI NX).
    assert (CF := next_cfg _ _ _ (qk_inv _ _ _ K) NX).
    destruct (qok_next t k _ _ _ K TQ NI NX) as (K' & _).
    assert (K2 : qok t e2 q2 /\ brisk (q_cfg q2)).
    { apply get_upd in GE as [[-> ->]|[NE GE]]; [split; [exact K'|rewrite CF; exact (BR _ _ G)]|split; [apply KS; exact GE|exact (BR _ _ GE)]|exact LK]. }
    destruct K2 as [K2 B2].
    assert (X2 := enter_due t e2 (nt_max n) _ q2 (set_ag_time t b) q2a r q2' B2 K2 NI eq_refl AD NX2).
    assert (Y := total_upd t q' _ _ _ G). assert (Y2 := total_upd t q2' _ _ _ GE). lia.
Qed.

Lemma quick_step n n' : ninv n -> quick n -> nst n n' -> quick n'.
Proof.
  intros I [BR EP] S. destruct S as [SZ ->|t k h q SZ PO G DS ->|t k h q r q' h' SZ PO G DS NX PU LC ->|
    t k h q a h0 l e2 q2 qm q' d h' iu ie td SZ PO G DS DP OUT IN DD G2 NE CA MB RT DE DL NK PU ->|
    t k h q a h0 l e2 q2old b q' q2 q2a r q2' h' iu SZ PO G DS DP OUT IN DD G2 CA NX GE AD NX2 PU LA LB ->].
  - split; assumption.
  - split; assumption.
  - unfold after. split; nc; [|exact EP]. intros j qj GJ. apply get_upd in GJ as [[-> ->]|[_ GJ]]; [|exact (BR _ _ GJ)|exact (get_lt _ _ _ G)].
    destruct (popped _ _ _ _ I SZ PO) as (W & LE & LK & QK & QM & _ & KS & TT & HB & _). assert (K := KS _ _ G).
    rewrite (next_cfg _ _ _ (qk_inv _ _ _ (qok_stopped _ _ (nt_max n) (nt_nagents n) _ K)) NX), cfg_stopped. exact (BR _ _ G).
  - destruct (popped _ _ _ _ I SZ PO) as (W & LE & LK & QK & QM & _ & KS & TT & HB & _). assert (K := KS _ _ G). assert (K2 := KS _ _ G2).
    destruct (description_2 _ (qk_inv _ _ _ K) DS) as (N & _ & _ & FI).
    destruct (qok_mark _ _ _ _ K MB) as (KM & PM & TM & CM & HM & AM & _).
    assert (CQ : q_cfg q' = q_cfg q).
    { apply delay_service_Ok in DL; [|rewrite CM; exact N|apply KM|apply KM]. destruct DL as [(_ & ->)|(a' & h1 & h1' & m & DL)]; [exact CM|].
      cbv zeta in DL. destruct DL as (_ & -> & _). exact CM. }
    unfold after. split; nc; [|exact EP]. intros j qj GJ. apply get_upd in GJ as [[-> ->]|[_ GJ]]; [rewrite CQ; exact (BR _ _ G)| |rewrite upd_length; exact LK].
    apply get_upd in GJ as [[-> ->]|[_ GJ]]; [exact (BR _ _ G2)|exact (BR _ _ GJ)|exact (get_lt _ _ _ G2)].
  - destruct (popped _ _ _ _ I SZ PO) as (W & LE & LK & QK & QM & _ & KS & TT & HB & _). assert (K := KS _ _ G).
    destruct (description_2 _ (qk_inv _ _ _ K) DS) as (N & _ & _ & FI).
    assert (TQ : q_time q = t) by (destruct (TT _ G); [assumption|congruence]). assert (NI : t <> Inf) by congruence.
    assert (CF := next_cfg _ _ _ (qk_inv _ _ _ K) NX). destruct (qok_next t k _ _ _ K TQ NI NX) as (K' & _).
    assert (K2 : qok t e2 q2 /\ brisk (q_cfg q2)).
    { apply get_upd in GE as [[-> ->]|[NE GE]]; [split; [exact K'|rewrite CF; exact (BR _ _ G)]|split; [apply KS; exact GE|exact (BR _ _ GE)]|exact LK]. }
    destruct K2 as [K2 B2]. destruct (qok_enter t e2 _ _ q2 (set_ag_time t b) q2a r q2' K2 NI eq_refl AD NX2) as (_ & _ & C2).
    unfold after. split; nc; [|exact EP]. intros j qj GJ. apply get_upd in GJ as [[-> ->]|[_ GJ]]; [rewrite C2; exact B2| |rewrite upd_length; exact (get_lt _ _ _ G2)].
    apply get_upd in GJ as [[-> ->]|[_ GJ]]; [rewrite CF; exact (BR _ _ G)|exact (BR _ _ GJ)|exact LK].
Qed.

(** ** The loop *)
Lemma while_step f stop n n' r : eLt (nt_t n) stop -> simulate_event n = Ok n' -> net_simulate_while f stop n' = Some r -> net_simulate_while (Datatypes.S f) stop n = Some r.
Proof. intros L E W. cbn [net_simulate_while]. rewrite (proj2 (eltb_lt _ _) L), E. exact W. Qed.

Lemma while_ends stop : forall a b c n T, ninv n -> quick n -> nt_t n = Fin T -> (Z.to_nat (stop - T) <= a)%nat ->
  (total (Fin T) (nt_queues n) <= b)%nat -> (pq_size (nt_heap n) <= c)%nat -> exists f r, net_simulate_while f (Fin stop) n = Some r.
Proof.
  induction a as [a IHa] using lt_wf_ind. induction b as [b IHb] using lt_wf_ind. induction c as [c IHc] using lt_wf_ind.
  intros n T I QU TN LA LB LC. destruct (eltb (nt_t n) (Fin stop)) eqn:E.
  2:{ exists 0%nat, (Ok n). cbn [net_simulate_while]. rewrite E. reflexivity. }
  apply eltb_lt in E. assert (TS : T < stop) by (rewrite TN in E; exact E).
  destruct (simulate_event n) as [n'|e] eqn:SE.
  2:{ exists 1%nat, (Err e). cbn [net_simulate_while]. rewrite (proj2 (eltb_lt _ _) E), SE. reflexivity. }
  enough (exists f r, net_simulate_while f (Fin stop) n' = Some r) as (f & r & X) by (exists (Datatypes.S f), r; eapply while_step; eauto).
  apply sim_nst in SE; [|exact I]. destruct (ninv_step _ _ I SE) as [I' LE]. assert (QU' := quick_step _ _ I QU SE).
  destruct (nt_t n') as [T'|] eqn:TN'.
  2:{ exists 0%nat, (Ok n'). cbn [net_simulate_while]. rewrite TN'. reflexivity. }
  rewrite TN in LE. cbn in LE. destruct (Z.eq_dec T T') as [->|NE].
  - destruct (step_due _ _ I QU SE) as [X|[X Y]]; [congruence| |].
    + rewrite TN' in X. apply (IHb (total (Fin T') (nt_queues n')) ltac:(lia) (pq_size (nt_heap n')) n' T'); auto.
    + apply (IHc (pq_size (nt_heap n')) ltac:(lia) n' T'); auto. rewrite X. exact LB.
  - apply (IHa (Z.to_nat (stop - T')) ltac:(lia) (total (Fin T') (nt_queues n')) (pq_size (nt_heap n')) n' T'); auto.
Qed.

(** Running until a time is running some number of events. *)
Lemma while_runs stop : forall f n n', net_simulate_while f stop n = Some (Ok n') ->
  exists m, nruns m n = Ok n' /\ eLe stop (nt_t n') /\ forall j, (j < m)%nat -> exists nj, nruns j n = Ok nj /\ eLt (nt_t nj) stop.
Proof.
  induction f as [|f IH]; intros n n' H; cbn [net_simulate_while] in H; destruct (eltb (nt_t n) stop) eqn:E; try discriminate.
  - injection H as <-. exists 0%nat. split; [reflexivity|]. split; [apply eltb_ge; exact E|intros j J; lia].
  - destruct (simulate_event n) as [n1|] eqn:SE; [|discriminate]. destruct (IH _ _ H) as (m & R & L & J).
    exists (Datatypes.S m). split; [cbn [nruns]; rewrite SE; exact R|]. split; [exact L|].
    intros [|j] LJ; [exists n; split; [reflexivity|apply eltb_lt; exact E]|]. destruct (J j ltac:(lia)) as (nj & RJ & LT).
    exists nj. split; [cbn [nruns]; rewrite SE; exact RJ|exact LT].
  - injection H as <-. exists 0%nat. split; [reflexivity|]. split; [apply eltb_ge; exact E|intros j J; lia].
Qed.
Lemma while_err stop : forall f n e, net_simulate_while f stop n = Some (Err e) -> exists m, nruns m n = Err e.
Proof.
  induction f as [|f IH]; intros n e H; cbn [net_simulate_while] in H; destruct (eltb (nt_t n) stop) eqn:E; try discriminate.
  destruct (simulate_event n) as [n1|e1] eqn:SE.
  - destruct (IH _ _ H) as (m & R). exists (Datatypes.S m). cbn [nruns]. rewrite SE. exact R.
  - injection H as ->. exists 1%nat. cbn [nruns]. rewrite SE. reflexivity.
Qed.

(** ** Reached networks *)
Lemma on_queues_eps f l : forall n n', on_queues f l n = Ok n' -> nt_eps n' = nt_eps n.
Proof.
  induction l as [|e l IH]; intros n n' H; cbn [on_queues] in H; [injection H as <-; reflexivity|].
  mbind H. apply IH in H. rewrite H. reflexivity.
Qed.
Lemma nst_eps n n' : nst n n' -> nt_eps n' = nt_eps n.
Proof. intro S. destruct S; subst; reflexivity. Qed.
Lemma lively_reach n0 n : well_made n0 -> lively n0 -> nreach usual n0 n -> lively n.
Proof.
  intros W [B E] R. split.
  - intros k q G. destruct (refines n0 n0 n k q W (nreach_here _ _) R G) as (q1 & q0 & G1 & R1 & X).
    destruct (made_new _ _ _ W G1) as (c & s & col & nE & -> & _ & F). specialize (B _ _ G1).
    destruct (bare_fields _ _ X) as [<- _]. apply reach_weaken with (ok' := anything) in R1; [|intros; exact Logic.I].
    apply basics_reach in R1 as [_ C _ _ _]. rewrite C. replace c with (q_cfg (new_queue c s col nE)); [exact B|]. unfold new_queue; destruct (c_class c); reflexivity.
  - cut (nt_eps n = nt_eps n0); [intro X; rewrite X; exact E|]. clear B E. induction R as [|n c n' R IH US H]; [reflexivity|].
    rewrite <- IH. destruct (ngood_reach _ _ W R) as [I _]. destruct c as [sel| | |o]; cbn [run_call] in H.
    + unfold initialize_queues in H. mbind H. destruct (length x =? 0)%nat; [discriminate|]. mbind H. mbind H. injection H as <-. nc.
      apply activate_same in E0. apply E0.
    + injection H as <-. reflexivity.
    + unfold net_copy in H. destruct (nt_init n); [mbind H|]; injection H as <-; reflexivity.
    + destruct o; cbn [run_nop] in H; [apply nst_eps; apply sim_nst; assumption|eapply on_queues_eps; exact H|eapply on_queues_eps; exact H|injection H as <-; reflexivity..].
Qed.

Lemma time_stops n0 n d : well_made n0 -> lively n0 -> nreach usual n0 n -> exists fuel r, simulate_time fuel (Fin d) n = Some r.
Proof.
  intros W L R. unfold simulate_time. destruct (nt_init n); [|exists 0%nat; eexists; reflexivity]. destruct (ngood_reach _ _ W R) as [I _].
  destruct (nt_t n) as [T|] eqn:E.
  - cbn [eadd]. apply (while_ends (T + d) (Z.to_nat (T + d - T)) (total (Fin T) (nt_queues n)) (pq_size (nt_heap n)) n T); auto. exact (lively_reach _ _ W L R).
  - exists 0%nat, (Ok n). cbn [eadd net_simulate_while]. rewrite E. reflexivity.
Qed.
Lemma time_total_stops n0 n d : well_made n0 -> lively n0 -> made_for n0 -> connected n0 -> mild_loops n0 ->
  nreach tidy n0 n -> nt_init n = true -> exists fuel n', simulate_time fuel (Fin d) n = Some (Ok n').
Proof.
  intros W L M C N R IN. destruct (time_stops n0 n d W L) as (f & [n'|e] & E); [apply (nreach_weak tidy); [intros ? ? X; apply X|exact R]|eauto|].
  exfalso. unfold simulate_time in E. rewrite IN in E. apply while_err in E as (m & E).
  destruct (simulate_total n0 n m W M C N R) as (n' & E'). congruence.
Qed.

(** ** Events that are counted *)
Lemma empty_stays n : pq_size (nt_heap n) = 0%nat -> forall m n', nruns m n = Ok n' -> (0 < m)%nat -> nt_t n' = Inf /\ nt_events n' = nt_events n.
Proof.
  intros SZ m. revert n SZ. induction m as [|m IH]; intros n SZ n' H L; [lia|]. cbn [nruns] in H.
  unfold simulate_event in H. rewrite SZ in H. cbn [Nat.eqb bind] in H. destruct m as [|m]; [injection H as <-; auto|].
  destruct (IH (set_nt_t Inf n) SZ n' H ltac:(lia)) as [A B]. auto.
Qed.
Lemma runs_same m : forall n, net_simulate_n m n = nruns m n.
Proof. induction m as [|m IH]; intro n; [reflexivity|]. cbn [net_simulate_n nruns]. destruct (simulate_event n); [apply IH|reflexivity]. Qed.
Lemma runs_counted : forall m n n', ninv n -> nruns m n = Ok n' ->
  nt_events n' = nt_events n + Z.of_nat m \/ nt_t n' = Inf /\ nt_events n' < nt_events n + Z.of_nat m.
Proof.
  induction m as [|m IH]; intros n n' I H; [injection H as <-; left; lia|]. assert (H0 := H). cbn [nruns] in H. mbind H. rename x into n1.
  assert (S := sim_nst _ _ I E). destruct (ninv_step _ _ I S) as [I1 _].
  assert (C : pq_size (nt_heap n) = 0%nat \/ nt_events n1 = nt_events n + 1) by (destruct S; subst; auto).
  destruct C as [C|C].
  - right. destruct (empty_stays _ C _ _ H0) as [A B]; [lia|]. split; [exact A|lia].
  - destruct (IH _ _ I1 H) as [X|[X Y]]; [left|right; split; [exact X|]]; lia.
Qed.
Lemma events_counted n0 n m n' : well_made n0 -> nreach usual n0 n -> simulate_events m n = Ok n' ->
  nt_events n' = nt_events n + Z.of_nat m \/ nt_t n' = Inf /\ nt_events n' < nt_events n + Z.of_nat m.
Proof.
  intros W R H. unfold simulate_events in H. destruct (nt_init n); [|discriminate]. rewrite runs_same in H.
  destruct (ngood_reach _ _ W R) as [I _]. apply runs_counted; assumption.
Qed.
