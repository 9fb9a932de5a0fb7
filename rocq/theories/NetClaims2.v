(** * NetClaims2: events, blocking, network.time, copy, initialize, clear *)
From Coq Require Import List ZArith QArith Lia Bool Permutation Arith.
From Verif Require Import Base Heap HeapProofs PQueue PQueueProofs SpecPQ PQHist Queue QueueEffects QueueEvents QueueSteps QueueInv SpecQueue QueueFlow QueueHist QueueClaims1 Network NetQueue NetSteps NetInv SpecNet NetReach NetFlow NetClaims1 NetClaims4.
Import ListNotations.
Open Scope Z_scope.

Lemma pw_size n h : pq_wf n h -> pq_size h = length (pq_entries h).
Proof. intro W. unfold pq_entries. rewrite firstn_length. assert (A := wf_size _ _ W). assert (B := wf_store _ _ W). lia. Qed.

(** ** What happens in one event *)

Lemma arr_counts q r q' : qinv q -> next_event_description q = Ok 1 -> next_event q = Ok (r, q') ->
  q_departed q' = q_departed q /\ q_now q' = q_time q /\
  exists a rest new, arriving q = Some a /\ ag_time a = q_time q /\ Permutation (ids (scheduled q)) (ag_id a :: rest) /\
    Permutation (ids (scheduled q')) (rest ++ new) /\
    (new = [] \/ new = [(c_idx (q_cfg q), q_oarr q)] /\ q_active q = true).
Proof.
  intros I DS H. destruct (description_1 _ I DS) as (N & LE0 & TM & TI).
  destruct (arr_event _ _ _ I DS H) as (R0 & CF & nw & gone & _ & NW & _).
  assert (SF : flow_ok (ONext, q, r, q') /\ qinv q') by (apply step_flow; auto; exact Logic.I).
  destruct SF as [SF I'].
  assert (F := fo_flow _ SF). cbn beta iota in F. destruct F as (new & st & F & _).
  assert (NE : new = nw).
  { destruct (fl_new _ _ _ _ _ _ _ _ F) as [[X Y]|[X Y]], NW as [[A B]|(A & B & _)]; try lia; congruence. }
  subst nw.
  assert (AR : exists a h, q_arr q = Ag a :: h /\ ag_time a = q_time q).
  { rewrite TM. destruct (q_arr q) as [|i h] eqn:E.
    - exfalso. destruct (wfh_nonempty _ (qi_arr _ I)) as (i & h & X). congruence.
    - assert (W := qi_arr _ I). rewrite E in W. destruct i as [|a].
      + exfalso. apply TI. rewrite TM. reflexivity.
      + exists a, h. split; reflexivity. }
  destruct AR as (a & h & EA & TA).
  assert (AR : arriving q = Some a) by (unfold arriving; rewrite DS, EA; reflexivity).
  assert (FA := fl_arr _ _ _ _ _ _ _ _ F). cbn [sent1 app] in FA.
  assert (AL : admitted1 (ONext, q, r, q') ++ turned_away1 (ONext, q, r, q') = [ag_id a]).
  { unfold admitted1, turned_away1. rewrite AR. destruct (q_nsys q' =? q_nsys q + 1); reflexivity. }
  rewrite AL in FA.
  assert (SQ : ids (scheduled q) = ag_id a :: ids (agents_in h)) by (unfold scheduled; rewrite EA; reflexivity).
  assert (REST : exists a rest new, arriving q = Some a /\ ag_time a = q_time q /\ Permutation (ids (scheduled q)) (ag_id a :: rest) /\
    Permutation (ids (scheduled q')) (rest ++ new) /\
    (new = [] \/ new = [(c_idx (q_cfg q), q_oarr q)] /\ q_active q = true)).
  { exists a, (ids (agents_in h)), new. split; [exact AR|]. split; [exact TA|]. rewrite SQ. split; [reflexivity|].
    split; [|destruct NW as [[A _]|(A & _ & B)]; auto].
    rewrite SQ in FA. cbn [app] in FA. rewrite <- Permutation_cons_append in FA. apply Permutation_cons_inv in FA. symmetry; exact FA. }
  split; [|split; [|exact REST]]; clear REST F FA AL NW.
  all: apply next_event_event in H as (qe & PE & EV); [|apply I|apply I];
    destruct (pre_event_net _ _ PE) as (nd & QE);
    assert (FQ : q_departed qe = q_departed q /\ q_nsys qe = q_nsys q /\ q_arr qe = q_arr q /\ q_dep qe = q_dep q /\ q_cfg qe = q_cfg q)
      by (subst qe; auto 8);
    destruct FQ as (F1 & F3 & F4 & F5 & F6); clear PE QE;
    assert (PA : forall b hb, pop_agent (q_arr qe) = Ok (b, hb) -> ag_time b = q_time q)
      by (intros b hb X; rewrite F4 in X; apply pop_agent_Ok in X as (_ & _ & X & _); [congruence|apply I]);
    destruct EV as [ID QQ QQ2 QQ3|NN LT R|NN LE NI CAP RC R|NN NS LE NI CAP RC R|CR LE NI RT QQ R|CR LE NI RT QQ CAP R];
    [exfalso; destruct ID as [ID|[ID1 ID2]]; [congruence|]; apply TI; rewrite (qi_time _ I); rewrite ID1, ID2; reflexivity
    |exfalso; apply (eLt_irrefl (hmin (q_dep q))); eapply eLt_le_trans; eassumption
    |apply qs_arrival_Ok in R; [|congruence|rewrite F4; apply I|rewrite F5; apply I];
      destruct R as (b & hb & q2 & nw & h' & line' & m & d1 & d & s1 & o1 & s & o & a1 & _ & P & DR & _ & _ & _ & Q' & _);
      assert (DN := draw_new _ _ _ DR); qch DN; rewrite Q'; qc
    |apply loss_blocked_Ok in R; [|congruence|rewrite F4; apply I|rewrite F5; apply I];
      destruct R as (b & hb & q2 & nw & d & _ & P & DR & Q' & _); assert (DN := draw_new _ _ _ DR); qch DN; rewrite Q'; qc
    |apply rq_return_Ok in R; [|rewrite ?F4; apply I|rewrite ?F5; apply I]; destruct R as (b & hb & o & d & _ & P & _ & Q' & _); rewrite Q'; qc
    |apply rq_blocked_Ok in R; [|rewrite ?F4; apply I|rewrite ?F5; apply I]; destruct R as (b & hb & d & _ & P & _ & Q' & _); rewrite Q'; qc ].
  1,2: destruct DN as (_ & _ & _ & _ & DN & _); congruence.
  1,2: congruence.
  1,2: destruct DN as (_ & _ & _ & _ & _ & _ & _ & _ & _ & _ & _ & _ & DN & _); rewrite DN; apply (PA _ _ P).
  1,2: rewrite ?F4 in *; apply pop_agent_Ok in P as (_ & _ & P & _); [congruence|apply I].
Qed.

Lemma enter_departed s k max ag q a q1 r q2 : qok s k q -> s <> Inf -> ag_time a = s ->
  add_arrival a q = Ok q1 -> next_event (stopped max ag q1) = Ok (r, q2) -> q_departed q2 = q_departed q.
Proof.
  intros K NI TA AD NX. assert (SD : forall p, q_departed (stopped max ag p) = q_departed p) by (intro p; unfold stopped; destruct (q_active p && _); reflexivity).
  destruct (c_class (q_cfg q)) eqn:C.
  3:{ apply add_arrival_null in AD as (d & -> & _); [|exact C].
      unfold next_event in NX. rewrite cfg_stopped in NX. cbn [q_cfg set_q_data] in NX. rewrite C in NX. injection NX as _ <-. rewrite SD. reflexivity. }
  all: assert (N : c_class (q_cfg q) <> CNull) by congruence; clear C; assert (I := qk_inv _ _ _ K);
    assert (IV := qinv_add_arrival _ _ _ I AD);
    assert (DD : q_dep q1 = q_dep q) by (apply (add_pend _ _ _ I N AD));
    assert (SC : Permutation (scheduled q1) (a :: scheduled q) /\ q_departed q1 = q_departed q /\ q_cfg q1 = q_cfg q) by
      (apply add_arrival_Ok in AD as (h & -> & _ & P); [split; [exact P|split; reflexivity]|exact N|apply I|apply I]);
    destruct SC as (SC & SE & CF);
    assert (DS : next_event_description (stopped max ag q1) = Ok 1) by
     (rewrite stopped_desc; apply desc_arrival with s; [exact IV|congruence|exact NI| |];
      [exists a; split; [|exact TA]; apply (Permutation_in _ (Permutation_sym SC)); left; reflexivity
      |intros b B; apply (qk_pend _ _ _ K); unfold pend; apply in_or_app; right; apply in_map; unfold in_service in B; rewrite DD in B; exact B]);
    apply arr_counts in NX as (ND & _); [|apply qinv_stopped; exact IV|exact DS];
    rewrite ND, SD; exact SE.
Qed.

Lemma stays_intro n t k h q a h0 l e2 q2 qm q' d h' iu ie td : ninv n ->
    (0 < pq_size (nt_heap n))%nat -> pq_pop (nt_heap n) = Ok (Some (t, k), h) ->
    get (nt_queues n) k = Some q -> next_event_description q = Ok 2 -> q_dep q = Ag a :: h0 ->
    get (nt_out n) (c_tgt (q_cfg q)) = Some l -> In e2 l ->
    ((exists n1, desired_destination a (c_tgt (q_cfg q)) (set_nt_events (nt_events n + 1) (set_nt_t t (set_nt_heap h n))) = Ok (e2, n1) /\ nt_iu n1 = iu) /\ ie = if nt_bas n then S (nt_ie n) else nt_ie n) ->
    get (nt_queues n) e2 = Some q2 ->
    at_capacity q2 = true -> mark_blocked q = Ok qm -> root_time (q_dep q2) = Ok td ->
    d = (if nt_bas n then Some (eadd td (Fin (nt_eps n (nt_ie n)))) else None) ->
    delay_service d qm = Ok q' -> e2 <> k ->
    stays n (after n (upd (upd (nt_queues n) e2 (set_q_blocked (q_blocked q2 + 1) q2)) k q') (nt_nagents n) t h' iu ie) k e2.
Proof.
  intros I SZ PO G DS DP OUT IN [[n1 [DD IU]] IE] G2 CA MB RT DE DL NK.
  destruct (popped _ _ _ _ I SZ PO) as (W & LE & LK & QK & QM & _ & KS & TT & HB & _).
  assert (K := KS _ _ G). assert (K2 := KS _ _ G2). destruct (description_2 _ (qk_inv _ _ _ K) DS) as (NN & _ & TD & FI).
  assert (TQ : q_time q = t) by (destruct (TT _ G); [assumption|congruence]).
  destruct (qok_mark _ _ _ _ K MB) as (KM & _ & _ & CM & HM & AM & _ & _ & LM & NM & _).
  assert (MF := mark_facts _ _ (qi_dep _ (qk_inv _ _ _ K)) MB).
  destruct MF as (a0 & ht & b & D0 & B & QMM & WM & _ & A1 & A2). assert (a0 = a) by congruence. subst a0.
  apply delay_service_Ok in DL; [|congruence|apply (qi_arr _ (qk_inv _ _ _ KM))|exact WM].
  destruct DL as [[DL _]|(a1 & h1 & h2 & m & DL)]; [rewrite A2 in DL; discriminate|]. cbv zeta in DL.
  destruct DL as (PA & QN & _ & _ & _ & P1 & P2 & T1).
  assert (AB : a1 = b /\ Permutation (agents_of h1) (agents_of ht)).
  { apply pop_agent_Ok in PA as (_ & PX & _ & tl & PE); [|exact WM]. subst qm. qch PE. injection PE as PE _. split; [congruence|].
    rewrite A2, <- PE in P1. apply Permutation_cons_inv in P1. symmetry; exact P1. }
  destruct AB as [-> PH].
  set (t' := match d with Some t0 => t0 | None => c_srv (q_cfg qm) (q_is qm) (ag_time b) end) in *.
  exists q, q', q2, a, t', (agents_of ht). unfold after. nc.
  split; [exact G|]. split; [exact G2|]. split; [congruence|]. split; [exists q, l; auto|]. split; [refine (desired_chooses _ _ _ _ _ _ DD _); symmetry; exact IU|]. split; [exact CA|]. split; [exact TQ|].
  assert (TA : ag_time a = t).
  { rewrite <- TQ, TD.     rewrite <- HM, <- T1. subst b. reflexivity. }
  split; [exact TA|]. split; [reflexivity|]. split; [reflexivity|].
  split; [unfold scheduled; rewrite QN; qc; rewrite AM; reflexivity|]. split; [unfold waiting; rewrite QN; qc; exact LM|].
  split; [unfold in_service; change agents_in with agents_of; rewrite A1; reflexivity|].
  split; [unfold in_service; change agents_in with agents_of; rewrite QN; qc; rewrite P2, PH; subst b; reflexivity|].
  split.
  - intro B1. rewrite B1 in DE, IE. split; [|exact IE]. exists td. split; [|subst t' d; reflexivity].
    rewrite (wfh_root_time _ (qi_dep _ (qk_inv _ _ _ K2))) in RT. injection RT as <-. split.
    + intros c C. apply wfh_min; [apply K2|exact C].
    + destruct (wfh_min_cases _ (qi_dep _ (qk_inv _ _ _ K2))) as [X|(c & X & Y)]; [left; exact X|right; exists c; auto].
  - intro B1. rewrite B1 in DE, IE. split; [|exact IE]. subst t' d. rewrite CM. subst qm b. qc. rewrite <- TA. reflexivity.
Qed.

(** A step of simulate_event: the heap is empty, a leftover entry for an
    idle queue is thrown away, or there is an event. *)
Lemma nst_happening n n' : ninv n -> nst n n' ->
  (n' = set_nt_t Inf n /\ pq_size (nt_heap n) = 0%nat /\ forall q, In q (nt_queues n) -> q_time q = Inf) \/
  (nt_events n' = nt_events n + 1 /\
   ((exists k q, get (nt_queues n) k = Some q /\ q_time q = Inf /\ nt_queues n' = nt_queues n /\ nt_nagents n' = nt_nagents n /\
       (pq_size (nt_heap n') < pq_size (nt_heap n))%nat) \/
    happening n n')).
Proof.
  intros I S. assert (I' := proj1 (ninv_step _ _ I S)).
  destruct S as [SZ ->|t k h q SZ PO G DS ->|t k h q r q' h' SZ PO G DS NX PU LC ->|
    t k h q a h0 l e2 q2 qm q' d h' iu ie td SZ PO G DS DP OUT IN DD G2 NE CA MB RT DE DL NK PU ->|
    t k h q a h0 l e2 q2old b q' q2 q2a r q2' h' iu SZ PO G DS DP OUT IN DD G2 CA NX GE AD NX2 PU LA LB ->];
    [left; split; [reflexivity|]; split; [exact SZ|]|right; (split; [reflexivity|])..].
  - intros q IN. apply in_get in IN as (k & G). destruct (ni_heap _ I) as [[_ X]|[W HB]]; [eapply X; exact G|].
    destruct (q_time q) eqn:T; [|reflexivity]. exfalso.
    destruct (ha_a _ _ _ _ _ HB k q Logic.I G ltac:(congruence)) as [X _].
    destruct (pq_entries (nt_heap n)) as [|y ys] eqn:E; [destruct X|].
    assert (Y := pw_size _ _ W). rewrite E in Y. cbn in Y. lia.
  - left. destruct (popped _ _ _ _ I SZ PO) as (W & LE & LK & QK & QM & (dr & PM) & KS & TT & HB & _).
    exists k, q. split; [exact G|]. split.
    + apply (description_0 _ _ _ (ni_q _ I _ _ G) DS).
    + split; [reflexivity|]. split; [reflexivity|]. unfold after. nc. rewrite (pw_size _ _ W). apply Permutation_length in PM.
      cbn in PM. rewrite app_length in PM.
      destruct (ni_heap _ I) as [[X _]|[W0 _]]; [lia|]. rewrite (pw_size _ _ W0). lia.
  - right. destruct (popped _ _ _ _ I SZ PO) as (W & LE & LK & QK & QM & _ & KS & TT & HB & _).
    assert (K := KS _ _ G). destruct (description_1 _ (qk_inv _ _ _ K) DS) as (_ & _ & _ & TI).
    assert (TQ : q_time q = t) by (destruct (TT _ G); [assumption|congruence]).
    assert (I1 := qinv_stopped (nt_max n) (nt_nagents n) q (qk_inv _ _ _ K)).
    rewrite <- (stopped_desc (nt_max n) (nt_nagents n)) in DS.
    destruct (arr_counts _ _ _ I1 DS NX) as (_ & _ & a & rest & new & AR & TA & P1 & P2 & NW).
    assert (SS : scheduled (stopped (nt_max n) (nt_nagents n) q) = scheduled q) by (unfold scheduled; f_equal; apply stopped_same).
    rewrite SS in P1. rewrite time_stopped in TA. rewrite stopped_arriving in AR. rewrite stopped_oarr, cfg_stopped, (qk_idx _ _ _ K) in NW.
    apply (hp_arrival _ _ k q q' a rest new); unfold after; nc; [exact G| |exact TQ|exact AR| |exact P1|exact P2| |reflexivity|reflexivity].
    + apply get_upd_eq; exact LK.
    + congruence.
    + destruct NW as [->|[-> NA]]; [left; reflexivity|]. right. split; [reflexivity|]. apply stopped_active in NA. tauto.
  - right. apply hp_blocked with k e2. eapply stays_intro; eauto.
  - right. destruct (popped _ _ _ _ I SZ PO) as (W & LE & LK & QK & QM & _ & KS & TT & HB & _).
    assert (K := KS _ _ G). destruct (description_2 _ (qk_inv _ _ _ K) DS) as (NN & _ & TM & FI).
    assert (TQ : q_time q = t) by (destruct (TT _ G); [assumption|congruence]). assert (FT : t <> Inf) by congruence.
    destruct (dep_event _ _ _ _ _ (qk_inv _ _ _ K) DS DP NX) as (b0 & EB & IDB & _ & _ & _ & _ & _ & _ & _ & DE & _).
    destruct (qok_next t k _ _ _ K TQ FT NX) as (K' & _).
    assert (K2 : qok t e2 q2).
    { apply get_upd in GE as [[-> ->]|[NE GE]]; [exact K'|apply KS; exact GE|exact LK]. }
    assert (DE2 := enter_departed _ _ _ _ _ _ _ _ _ K2 FT (eq_refl : ag_time (set_ag_time t b) = t) AD NX2).
    assert (TA : ag_time a = t).
    { rewrite <- TQ, TM. rewrite DP. reflexivity. }
    assert (ISV : In a (in_service q)) by (unfold in_service; rewrite DP; left; reflexivity).
    assert (FO : follows n k e2) by (exists q, l; auto). destruct DD as [n1 [DD IU]].
    assert (CH : forall n', nt_iu n' = iu -> chooses n n' a (c_tgt (q_cfg q)) e2) by (intros n' IU'; refine (desired_chooses _ _ _ _ _ _ DD _); congruence).
    destruct (Nat.eq_dec e2 k) as [->|NE].
    + apply (hp_departure _ _ k k q q2' q2old a); unfold after; nc; [exact G| |exact G2|exact FO|apply CH; reflexivity|right; reflexivity|exact TQ|exact ISV|exact TA| |reflexivity].
      * apply get_upd_eq. rewrite upd_length; exact LK.
      * rewrite get_upd_eq in GE by exact LK. injection GE as <-. congruence.
    + destruct CA as [CA|CA]; [|congruence].
      apply (hp_departure _ _ k e2 q q' q2old a); unfold after; nc; [exact G| |exact G2|exact FO|apply CH; reflexivity|left; exact CA|exact TQ|exact ISV|exact TA|exact DE|reflexivity].
      rewrite get_upd_neq by congruence. apply get_upd_eq; exact LK.
Qed.
