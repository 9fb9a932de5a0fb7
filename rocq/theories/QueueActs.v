(** * QueueActs: which agents act on the queue in one event, and when *)
From Coq Require Import List ZArith QArith Lia Bool Permutation Arith.
From Verif Require Import Base Heap HeapProofs Queue QueueEffects QueueEvents QueueSteps QueueInv SpecQueue QueueFlow QueueHist QueueData QueueClaims1 QueueClaims5 QueueRows SpecAct.
Import ListNotations.
Open Scope Z_scope.

(** The parts of a queue that an agent's action can see. *)
Definition seen (q qa : queue) : Prop := q_cfg qa = q_cfg q /\ q_net qa = q_net q.

Lemma departure_acts q r q' :
  wfh (q_arr q) -> wfh (q_dep q) -> qs_departure q = Ok (r, q') ->
  exists a h a' qa qb,
    pop_agent (q_dep q) = Ok (a, h) /\ r = Some a' /\ queue_action a qa = Ok (a', qb) /\
    q_servers q' = q_servers qb /\ q_data q' = q_data qa /\ q_now q' = q_now qa /\ q_nsys q' = q_nsys qa /\
    q_net q' = q_net q /\ q_cfg q' = q_cfg q /\
    seen q qa /\ q_now qa = ag_time a /\ q_nsys qa = q_nsys q - 1 /\
    ((((0 <? Z.of_nat (length (q_line q))) && eltb (Fin (q_nsys q - 1 - Z.of_nat (length (q_line q)))) (q_servers q)) = false /\
      q_servers qa = q_servers q /\ q_line q' = q_line q /\ q_dep q' = h) \/
     (((0 <? Z.of_nat (length (q_line q))) && eltb (Fin (q_nsys q - 1 - Z.of_nat (length (q_line q)))) (q_servers q)) = true /\
      exists b b' qc qd, q_line q = b :: q_line q' /\ Permutation (agents_of (q_dep q')) (b' :: agents_of h) /\
        queue_action (set_ag_time (c_srv (q_cfg q) (q_is q) (ag_time a)) b) qc = Ok (b', qd) /\
        seen q qc /\ q_servers qc = q_servers q /\ q_now qc = ag_time a /\ q_servers qa = q_servers qd /\ q_data qc = q_data q')).
Proof.
  intros Wa Wd H. unfold qs_departure in H. mbind H. destruct x as [a h].
  destruct (pop_agent_Ok _ _ _ Wd E) as (Wh & Ph & Th & _).
  mbind H. apply dlast_if_Ok in E0 as (d1 & -> & D1). qch H. qch D1.
  mbind H. mbind H. destruct x0 as [a' qb]. mbind H. injection H as <- <-.
  set (started := (0 <? Z.of_nat (length (q_line q))) &&
                   eltb (Fin (q_nsys q - 1 - Z.of_nat (length (q_line q)))) (q_servers q)) in *.
  assert (Q := queue_action_Ok _ _ _ _ E1). destruct Q as (_ & _ & _ & _ & s & o & QB & _).
  destruct started.
  - unfold service_from_queue in E0. qch E0. destruct (q_line q) as [|b line] eqn:L; [discriminate|].
    mbind E0. apply dlast_if_Ok in E3 as (d2 & -> & D2). qch E0. qch D2.
    unfold call_srv in E0. qch E0. mbind E0. destruct x1 as [b' qd]. mbind E0. qch E4. injection E0 as <-.
    assert (Q2 := queue_action_Ok _ _ _ _ E3). destruct Q2 as (_ & _ & _ & _ & s2 & o2 & QD & _). subst qd. qch QB. qch E4.
    apply push_item_Ok in E4 as [W2 P2]; [|exact Wh].
    subst qb. apply update_time_Ok in E2; [|exact Wa|exact W2]. subst x0. qc.
    eexists a, h, a', _, _. split; [exact E|]. split; [reflexivity|]. split; [exact E1|]. qc.
    do 6 (split; [reflexivity|]). split; [split; reflexivity|]. split; [reflexivity|]. split; [reflexivity|].
    right. split; [reflexivity|]. eexists b, b', _, _. split; [reflexivity|]. split; [exact P2|].
    split; [exact E3|]. qc. split; [split; reflexivity|]. auto 6.
  - injection E0 as <-. qch QB. subst qb. apply update_time_Ok in E2; [|exact Wa|exact Wh]. subst x0. qc.
    eexists a, h, a', _, _. split; [exact E|]. split; [reflexivity|]. split; [exact E1|]. qc.
    do 6 (split; [reflexivity|]). split; [split; reflexivity|]. split; [reflexivity|]. split; [reflexivity|].
    left. auto.
Qed.

Lemma arrival_acts q r q' :
  c_class (q_cfg q) <> CNull ->
  wfh (q_arr q) -> wfh (q_dep q) -> qs_arrival q = Ok (r, q') ->
  exists a h a1 qa qb,
    pop_agent (q_arr q) = Ok (a, h) /\ r = None /\ queue_action a qa = Ok (a1, qb) /\
    q_net q' = q_net q /\ q_cfg q' = q_cfg q /\ q_now q' = ag_time a /\ q_nsys q' = q_nsys q + 1 /\
    seen q qa /\ q_servers qa = q_servers q /\ q_now qa = ag_time a /\ q_nsys qa = q_nsys q + 1 /\
    q_data qa = (if q_collect q then
            dappend (q_data q) (ag_id a) (mkData (ag_time a) (Fin 0) (Fin 0)
              (Z.of_nat (length (q_line q)) + (if eleb (Fin (q_nsys q + 1)) (q_servers q) then 0 else 1))
              (q_nsys q + 1))
          else q_data q) /\
    ((eleb (Fin (q_nsys q + 1)) (q_servers qb) = true /\ q_line q' = q_line q /\
      exists a2 qc qd, Permutation (agents_of (q_dep q')) (a2 :: agents_of (q_dep q)) /\
        queue_action (set_ag_time (c_srv (q_cfg q) (q_is q) (ag_time a)) a1) qc = Ok (a2, qd) /\
        seen q qc /\ q_servers qc = q_servers qb /\ q_now qc = ag_time a /\ q_nsys qc = q_nsys q + 1 /\
        (if q_collect q then dlast (q_data qa) (ag_id a) (row_set_srv (ag_time a)) = Ok (q_data qc) else q_data qc = q_data qa) /\
        q_servers q' = q_servers qd /\ q_data q' = q_data qc) \/
     (eleb (Fin (q_nsys q + 1)) (q_servers qb) = false /\ q_line q' = q_line q ++ [a1] /\ q_dep q' = q_dep q /\
      q_servers q' = q_servers qb /\ q_data q' = q_data qa)).
Proof.
  intros N Wa Wd H. unfold qs_arrival in H. mbind H. destruct x as [a h].
  destruct (pop_agent_Ok _ _ _ Wa E) as (Wh & Ph & Th & _).
  mbind H. rename x into q2.
  assert (K3 := draw_3 _ _ E0). destruct K3 as (_ & _ & _ & K3). qch K3.
  apply draw_Ok in E0 as (new & DR); [|exact N|exact Wh|exact Wd].
  unfold draw in DR. destruct DR as (tm & act & ha & i & ct & Q2 & Wha & Pha & _).
  qch Q2.
  assert (F : q_narr q2 = q_narr q /\ q_nsys q2 = q_nsys q /\ q_servers q2 = q_servers q /\
              q_collect q2 = q_collect q /\ q_data q2 = q_data q /\ q_line q2 = q_line q /\
              q_dep q2 = q_dep q /\ q_is q2 = q_is q /\ q_cfg q2 = q_cfg q /\ q_arr q2 = ha /\ q_now q2 = ag_time a).
  { rewrite Q2. qc. auto 12. }
  destruct F as (F1 & F2 & F3 & F4 & F5 & F6 & F7 & F8 & F9 & F10 & F11). clear Q2.
  mbind H. destruct x as [a1 qb].
  set (qa := if q_collect (set_q_narr _ _) then _ else _) in E0.
  assert (QA : q_cfg qa = q_cfg q /\ q_net qa = q_net q /\ q_servers qa = q_servers q /\ q_now qa = ag_time a /\
               q_nsys qa = q_nsys q + 1 /\ q_collect qa = q_collect q /\ q_line qa = q_line q /\ q_dep qa = q_dep q /\ q_is qa = q_is q /\ q_arr qa = ha /\
               q_data qa = (if q_collect q then
            dappend (q_data q) (ag_id a) (mkData (ag_time a) (Fin 0) (Fin 0)
              (Z.of_nat (length (q_line q)) + (if eleb (Fin (q_nsys q + 1)) (q_servers q) then 0 else 1))
              (q_nsys q + 1))
          else q_data q)).
  { unfold qa. qc. destruct (q_collect q2) eqn:CO; qc; rewrite ?CO, ?F1, ?F2, ?F3, <- ?F4, ?F5, ?F6, ?F7, ?F8, ?F9, ?F10, ?F11, ?K3;
      auto 15. }
  clearbody qa. destruct QA as (A1 & A2 & A3 & A4 & A5 & A6 & A7 & A8 & A9 & A10 & A11).
  assert (Q1 := queue_action_Ok _ _ _ _ E0). destruct Q1 as (B1 & B2 & B3 & B4 & s1 & o1 & QB & _).
  assert (QB' : q_cfg qb = q_cfg qa /\ q_net qb = q_net qa /\ q_now qb = q_now qa /\ q_nsys qb = q_nsys qa /\ q_collect qb = q_collect qa /\
                q_line qb = q_line qa /\ q_dep qb = q_dep qa /\ q_is qb = q_is qa /\ q_arr qb = q_arr qa /\ q_data qb = q_data qa)
    by (rewrite QB; qc; auto 12).
  clear QB. destruct QB' as (C1 & C2 & C3 & C4 & C5 & C6 & C7 & C8 & C9 & C10).
  rewrite C4, A5 in H. destruct (eleb (Fin (q_nsys q + 1)) (q_servers qb)) eqn:SV.
  - mbind H. rewrite C5, A6, C10 in E1.
    assert (X6 : q_cfg x = q_cfg qb /\ q_net x = q_net qb /\ q_now x = q_now qb /\ q_nsys x = q_nsys qb /\ q_collect x = q_collect qb /\
                q_line x = q_line qb /\ q_dep x = q_dep qb /\ q_is x = q_is qb /\ q_arr x = q_arr qb /\ q_servers x = q_servers qb /\
                (if q_collect q then dlast (q_data qa) (ag_id a) (row_set_srv (ag_time a)) = Ok (q_data x) else q_data x = q_data qa)).
    { destruct (q_collect q).
      - mbind E1. rewrite B1, B2 in E2. injection E1 as <-. qc. auto 15.
      - injection E1 as <-. auto 15. }
    clear E1. destruct X6 as (D1 & D2 & D3 & D4 & D5 & D6 & D7 & D8 & D9 & D10 & D11).
    unfold call_srv in H. mbind H. destruct x0 as [a2 qd]. rewrite B2, D1, C1, A1, D8, C8, A9 in E1.
    assert (Q2 := queue_action_Ok _ _ _ _ E1). destruct Q2 as (G1 & G2 & G3 & G4 & s2 & o2 & QD & _). qch QD.
    mbind H. assert (DE : q_dep qd = q_dep q) by (rewrite QD; qc; congruence). rewrite DE in E2.
    apply push_item_Ok in E2 as [W2 P2]; [|exact Wd].
    mbind H. assert (AE : q_arr qd = ha) by (rewrite QD; qc; congruence).
    apply update_time_Ok in E2; [|qc; rewrite AE; exact Wha|exact W2]. injection H as <- <-.
    exists a, h, a1, qa, qb. split; [exact E|]. split; [reflexivity|]. split; [exact E0|].
    split; [rewrite E2, QD; qc; congruence|]. split; [rewrite E2, QD; qc; congruence|]. split; [rewrite E2, QD; qc; congruence|]. split; [rewrite E2, QD; qc; congruence|].
    split; [split; congruence|]. do 4 (split; [assumption|]).
    left. split; [exact SV|]. split; [rewrite E2, QD; qc; congruence|].
    exists a2, (set_q_is (S (q_is x)) x), qd. split; [rewrite E2; exact P2|].
    split; [rewrite D8, C8, A9; exact E1|]. qc. split; [split; qc; congruence|]. split; [congruence|]. split; [congruence|]. split; [congruence|].
    split; [exact D11|]. rewrite E2. qc. split; [reflexivity|]. rewrite QD. reflexivity.
  - mbind H. apply update_time_Ok in E1; [|qc; rewrite C9, A10; exact Wha|qc; rewrite C7, A8; exact Wd]. injection H as <- <-.
    exists a, h, a1, qa, qb. split; [exact E|]. split; [reflexivity|]. split; [exact E0|].
    split; [rewrite E1; qc; congruence|]. split; [rewrite E1; qc; congruence|]. split; [rewrite E1; qc; congruence|]. split; [rewrite E1; qc; congruence|].
    split; [split; congruence|]. do 4 (split; [assumption|]).
    right. split; [exact SV|]. rewrite E1. qc. rewrite C6, A7. split; [reflexivity|]. split; [congruence|]. split; [reflexivity|]. exact C10.
Qed.

(** ** Resources *)

Lemma action_toggles a q a' q' : c_class (q_cfg q) = CResource -> queue_action a q = Ok (a', q') ->
  ag_id a' = ag_id a /\ ag_kind a' = ag_kind a /\ toggles a (ag_has a) (q_servers q) (ag_has a') (q_servers q').
Proof.
  intros C H. assert (Q := queue_action_Ok _ _ _ _ H). destruct Q as (I1 & _ & I3 & _). split; [exact I1|]. split; [exact I3|].
  unfold toggles. unfold queue_action in H. destruct (ag_kind a).
  - injection H as <- <-. auto.
  - injection H as <- <-. auto.
  - unfold resource_action in H. rewrite C in H. cbn [is_resource] in H. destruct (ag_has a) eqn:HA.
    + injection H as <- <-. left. auto.
    + destruct (eltb (Fin 0) (q_servers q)) eqn:L; injection H as <- <-.
      * right. left. apply eltb_lt in L. split; [reflexivity|]. split; [exact L|]. split; [reflexivity|].
        unfold rq_set_num_servers. destruct (eltb _ _); reflexivity.
      * right. right. apply eltb_ge in L. auto.
  - unfold info_action in H. rewrite C in H. cbn [is_info] in H. injection H as <- <-. auto.
Qed.

Lemma toggles_ext a b has s has' s' : ag_kind a = ag_kind b -> toggles a has s has' s' -> toggles b has s has' s'.
Proof. unfold toggles. intros ->. auto. Qed.

Lemma resource_exact q r q' : c_class (q_cfg q) = CResource -> qinv q -> next_event q = Ok (r, q') -> resource_step q r q'.
Proof.
  intros C I H. assert (Wa := qi_arr _ I). assert (Wd := qi_dep _ I).
  assert (NN : c_class (q_cfg q) <> CNull) by congruence.
  apply next_event_event in H as (qe & PE & EV); [|exact Wa|exact Wd].
  assert (QE : qe = q) by (destruct PE as [->|(X & _)]; [reflexivity|congruence]). subst qe.
  unfold resource_step. destruct EV as [ID _ -> ->|_ LT H|_ LE NI CP RC H|_ NS LE NI CP RC H|_ LE NI RT _ H|_ LE NI RT _ CP H].
  - rewrite (idle_not_arriving q Wa Wd ID). unfold same_agents. auto.
  - rewrite (departing_not_arriving q Wa Wd LT).
    apply departure_acts in H; [|exact Wa|exact Wd].
    destruct H as (a & h & a' & qa & qb & P & -> & AC & S1 & S2 & S3 & S4 & S5 & S6 & (S7 & _) & S8 & S9 & CS).
    destruct (pop_agent_Ok _ _ _ Wd P) as (Wh & Ph & _).
    apply action_toggles in AC as (T1 & T2 & T3); [|congruence].
    exists a, (q_servers qa). split.
    { unfold in_service. apply (Permutation_in a (Permutation_sym Ph)). left. reflexivity. }
    split; [exact T1|]. split; [exact T2|]. split; [rewrite S1; exact T3|].
    change (agents_in (q_dep q)) with (agents_of (q_dep q)) in *.
    unfold can_start, zlen, waiting. destruct CS as [(-> & E1 & E2 & E3)|(-> & b & b' & qc & qd & E1 & E2 & E3 & (E4 & _) & E5 & E6 & E7 & _)].
    + split; [exact E1|]. split; [exact E2|]. unfold in_service. rewrite E3. apply Permutation_sym. exact Ph.
    + apply action_toggles in E3 as (U1 & U2 & U3); [|congruence]. qch U1; qch U2; qch U3.
      exists b, b'. split; [exact E1|]. split; [exact U1|]. split; [exact U2|]. split; [rewrite E7, <- E5; exact U3|].
      unfold in_service. change (agents_in (q_dep q')) with (agents_of (q_dep q')).
      rewrite E2. etransitivity; [apply perm_swap|]. apply perm_skip. apply Permutation_sym. exact Ph.
  - destruct (RC C) as (a & t & QA & RA).
    apply arrival_acts in H; [|exact NN|exact Wa|exact Wd].
    destruct H as (a0 & h & a1 & qa & qb & P & -> & AC & S1 & S2 & S3 & S4 & (S5 & _) & S6 & S7 & S8 & S9 & CS).
    assert (AR := nonnull_arriving q NN Wa Wd LE NI a0 h P). rewrite AR.
    apply pop_agent_Ok in P as (_ & _ & _ & t' & QA'); [|exact Wa]. rewrite QA in QA'. injection QA' as <- <-.
    split; [reflexivity|].
    assert (G1 : match ag_kind a with KResource => ag_has a | _ => false end = false).
    { destruct (ag_kind a); auto. apply RA. reflexivity. }
    rewrite G1.
    assert (G2 : refused q a = false).
    { unfold refused. assert (X : eleb (eadd (q_servers q) (c_buffer (q_cfg q))) (Fin (q_nsys q)) = false) by (apply eleb_gt; apply CP; congruence).
      rewrite X. cbn [orb]. destruct (ag_kind a); auto. apply eleb_gt. apply RA. reflexivity. }
    rewrite G2. apply action_toggles in AC as (T1 & T2 & T3); [|congruence]. rewrite S6 in T3.
    exists (ag_has a1), (q_servers qb). split; [exact T3|].
    destruct CS as [(-> & E1 & a2 & qc & qd & E2 & E3 & (E4 & _) & E5 & E6 & E7 & E8 & E9 & E10)|(-> & E1 & E2 & E3 & E4)].
    + apply action_toggles in E3 as (U1 & U2 & U3); [|congruence]. qch U1; qch U2; qch U3.
      exists a2. split; [congruence|]. split; [congruence|]. split; [|split; [exact E1|exact E2]].
      rewrite E9, <- E5. apply (toggles_ext (set_ag_time (c_srv (q_cfg q) (q_is q) (ag_time a)) a1)); [exact T2|exact U3].
    + exists a1. split; [exact T1|]. split; [exact T2|]. split; [reflexivity|]. split; [exact E3|]. split; [exact E1|].
      unfold in_service. rewrite E2. reflexivity.
  - destruct (RC C) as (a & t & QA & RA).
    apply loss_blocked_Ok in H; [|exact NN|exact Wa|exact Wd].
    destruct H as (a0 & h & q2 & new & d & -> & P & DR & -> & _).
    assert (AR := nonnull_arriving q NN Wa Wd LE NI a0 h P). rewrite AR.
    apply pop_agent_Ok in P as (_ & _ & _ & t' & QA'); [|exact Wa]. rewrite QA in QA'. injection QA' as <- <-.
    split; [reflexivity|].
    assert (G1 : match ag_kind a with KResource => ag_has a | _ => false end = false).
    { destruct (ag_kind a); auto. apply RA. reflexivity. }
    rewrite G1. apply draw_new in DR. qch DR. destruct DR as (_ & _ & D3 & D4 & _ & _ & _ & D8 & _).
    unfold same_agents, waiting, in_service.
    unfold refused. assert (X : eleb (eadd (q_servers q) (c_buffer (q_cfg q))) (Fin (q_nsys q)) = true) by (apply eleb_le; exact CP).
    rewrite X. cbn [orb]. qc. rewrite D3, D4, D8. auto.
  - destruct RT as (a & t & QA & RA).
    apply rq_return_Ok in H; [|exact Wa|exact Wd]. destruct H as (a0 & h & o & d & -> & P & Wh & -> & _).
    assert (AR := nonnull_arriving q NN Wa Wd LE NI a0 h P). rewrite AR.
    apply pop_agent_Ok in P as (_ & _ & _ & t' & QA'); [|exact Wa]. rewrite QA in QA'. injection QA' as <- <-.
    split; [reflexivity|]. destruct RA as (-> & ->). qc. unfold same_agents. auto.
  - destruct RT as (a & t & QA & RA).
    apply rq_blocked_Ok in H; [|exact Wa|exact Wd]. destruct H as (a0 & h & d & -> & P & Wh & -> & _).
    assert (AR := nonnull_arriving q NN Wa Wd LE NI a0 h P). rewrite AR.
    apply pop_agent_Ok in P as (_ & _ & _ & t' & QA'); [|exact Wa]. rewrite QA in QA'. injection QA' as <- <-.
    split; [reflexivity|]. destruct RA as (RA1 & RA2). unfold refused. rewrite RA1, RA2.
    assert (X : eleb (q_servers q) (Fin (q_nsys q)) = true) by (apply eleb_le; exact CP). rewrite X, orb_true_r. qc. unfold same_agents. auto.
Qed.

(** *** Where the resources are *)

Definition kinds (P : agent -> Prop) (l : list agent) : Prop := forall a, In a l -> P a.

Lemma kinds_perm P l l' : Permutation l l' -> kinds P l -> kinds P l'.
Proof. intros X K a A. apply K. apply (Permutation_in a (Permutation_sym X)). exact A. Qed.
Lemma kinds_cons P a l : kinds P (a :: l) <-> P a /\ kinds P l.
Proof. unfold kinds. split; [intro H; split; [apply H; left; reflexivity|intros x X; apply H; right; exact X]|intros (A & B) x [<-|X]; auto]. Qed.
Lemma kinds_app P l m : kinds P l -> kinds P m -> kinds P (l ++ m).
Proof. intros A B x X. apply in_app_iff in X as [X|X]; auto. Qed.

Definition isr (a : agent) : Prop := ag_kind a = KResource.

Lemma draw_isr q q2 new : c_factory (q_cfg q) = KResource -> draw q q2 new -> kinds isr (agents_of (q_arr q)) -> kinds isr (agents_of (q_arr q2)).
Proof.
  intros F (tm & act & h & i & ct & -> & W & P & CS) K. qc. apply (kinds_perm _ _ _ (Permutation_sym P)). apply kinds_app; [|exact K].
  destruct CS as [(-> & _)|[(-> & _)|(a & -> & _ & _ & _ & _ & _ & _ & _ & KA & _)]]; intros x X; [destruct X|destruct X|].
  destruct X as [<-|[]]. unfold isr. congruence.
Qed.

(** Scheduled agents stay ResourceAgents. *)
Lemma next_isr q r q' : c_class (q_cfg q) = CResource -> c_factory (q_cfg q) = KResource -> qinv q -> next_event q = Ok (r, q') ->
  kinds isr (scheduled q) -> kinds isr (scheduled q').
Proof.
  intros C F I H K. assert (Wa := qi_arr _ I). assert (Wd := qi_dep _ I). unfold scheduled in *.
  change (agents_in (q_arr q)) with (agents_of (q_arr q)) in K. change (agents_in (q_arr q')) with (agents_of (q_arr q')).
  assert (NN : c_class (q_cfg q) <> CNull) by congruence.
  assert (POP : forall a h, pop_agent (q_arr q) = Ok (a, h) -> kinds isr (agents_of h)).
  { intros a h P. apply pop_agent_Ok in P as (_ & P & _); [|exact Wa]. apply (kinds_perm _ _ _ P) in K. apply kinds_cons in K. apply K. }
  apply next_event_event in H as (qe & PE & EV); [|exact Wa|exact Wd].
  assert (QE : qe = q) by (destruct PE as [->|(X & _)]; [reflexivity|congruence]). subst qe.
  destruct EV as [ID _ -> ->|_ LT H|_ LE NI CP RC H|_ NS LE NI CP RC H|_ LE NI RT _ H|_ LE NI RT _ CP H].
  - exact K.
  - apply qs_departure_Ok in H; [|exact Wa|exact Wd].
    destruct H as (a & h & a' & h' & line' & n & d1 & d & s & o & P & _ & _ & _ & _ & _ & -> & _). exact K.
  - apply qs_arrival_Ok in H; [|exact NN|exact Wa|exact Wd].
    destruct H as (a & h & q2 & new & h' & line' & n & d1 & d & s1 & o1 & s & o & a1 & _ & P & DR & _ & _ & _ & -> & _). qc.
    refine (draw_isr _ _ _ _ DR _); [exact F|exact (POP _ _ P)].
  - apply loss_blocked_Ok in H; [|exact NN|exact Wa|exact Wd].
    destruct H as (a0 & h & q2 & new & d & -> & P & DR & -> & _). qc. refine (draw_isr _ _ _ _ DR _); [exact F|exact (POP _ _ P)].
  - apply rq_return_Ok in H; [|exact Wa|exact Wd]. destruct H as (a0 & h & o & d & -> & P & Wh & -> & _). exact (POP _ _ P).
  - apply rq_blocked_Ok in H; [|exact Wa|exact Wd]. destruct H as (a0 & h & d & -> & P & Wh & -> & _). exact (POP _ _ P).
Qed.

(** ResourceAgents only; those in line hold a resource, those being served
    do not. *)
Record rstate (q : queue) : Prop := mkRstate {
  rs_inv : qinv q;
  rs_class : c_class (q_cfg q) = CResource;
  rs_factory : c_factory (q_cfg q) = KResource;
  rs_sched : kinds isr (scheduled q);
  rs_wait : kinds (fun a => isr a /\ ag_has a = true) (waiting q);
  rs_serv : kinds (fun a => isr a /\ ag_has a = false) (in_service q)
}.

Definition here (q : queue) : Z := zlen (waiting q) + zlen (in_service q).

Lemma zlen_perm {A} (l m : list A) : Permutation l m -> zlen l = zlen m.
Proof. intro P. unfold zlen. rewrite (Permutation_length P). reflexivity. Qed.
Lemma zlen_cons {A} (a : A) l : zlen (a :: l) = zlen l + 1.
Proof. unfold zlen. cbn [length]. lia. Qed.

Lemma arriving_in q a : arriving q = Some a -> In a (scheduled q).
Proof.
  unfold arriving, scheduled, agents_in. intro H.
  destruct (next_event_description q) as [[|[]|]|]; try discriminate. destruct (q_arr q) as [|[|b] t]; try discriminate.
  injection H as <-. left. reflexivity.
Qed.

Definition b2z (b : bool) : Z := if b then 1 else 0.

Lemma resource_balance q r q' : rstate q -> next_event q = Ok (r, q') ->
  kinds (fun a => isr a /\ ag_has a = true) (waiting q') /\ kinds (fun a => isr a /\ ag_has a = false) (in_service q') /\
  q_servers q = eadd (q_servers q') (Fin (here q' - here q + zlen (departed1 (ONext, q, r, q')) +
     b2z (match r with Some a => ag_has a | None => false end) -
     b2z (match arriving q with Some a => match ag_kind a with KResource => ag_has a | _ => false end | None => false end))).
Proof.
  intros [I C F KS KW KD] H. apply resource_exact in H; [|exact C|exact I]. unfold resource_step in H.
  assert (PL : q_nsys q = here q).
  { rewrite (qi_sys _ I). unfold here, na, zlen, waiting, in_service. change (agents_in (q_dep q)) with (agents_of (q_dep q)). lia. }
  assert (NNG : 0 <= here q) by (unfold here, zlen; lia).
  assert (SAME : same_agents q q' -> here q' = here q /\ kinds (fun a => isr a /\ ag_has a = true) (waiting q') /\ kinds (fun a => isr a /\ ag_has a = false) (in_service q')).
  { unfold same_agents, here. intros (-> & ->). auto. }
  destruct (arriving q) as [a|] eqn:AR.
  - destruct H as (-> & H). assert (KA : isr a) by (apply KS, arriving_in, AR). unfold isr in KA. rewrite KA in H. rewrite KA. cbn [departed1 b2z].
    destruct (ag_has a) eqn:HA.
    + destruct H as (H1 & H2). apply SAME in H2 as (H3 & H4 & H5). rewrite H3, H1. split; [exact H4|]. split; [exact H5|].
      destruct (q_servers q); cbn; [f_equal; lia|reflexivity].
    + destruct (refused q a) eqn:RF.
      * destruct H as (H1 & H2). apply SAME in H2 as (H3 & H4 & H5). rewrite H3, H1. split; [exact H4|]. split; [exact H5|].
        destruct (q_servers q); cbn; [f_equal; lia|reflexivity].
      * unfold refused in RF. rewrite KA in RF. apply orb_false_iff in RF as (_ & RF). apply eleb_gt in RF. rewrite PL in RF.
        destruct H as (has & s1 & T & H). unfold toggles in T. rewrite KA in T.
        assert (SP : eLt (Fin 0) (q_servers q)) by (destruct (q_servers q); cbn in *; [lia|exact Logic.I]).
        destruct T as [(X & _)|[(_ & _ & -> & ->)|(_ & X & _)]]; [discriminate| |exfalso; exact (proj1 (eLt_not_le _ _) SP X)].
        destruct (eleb (Fin (q_nsys q + 1)) (fewer (q_servers q) 1)).
        -- destruct H as (b & B1 & B2 & T & W & P). unfold toggles in T. rewrite KA in T.
           destruct T as [(_ & T1 & T2)|[(X & _)|(X & _)]]; try discriminate.
           split; [rewrite W; exact KW|]. split.
           { apply (kinds_perm _ _ _ (Permutation_sym P)). apply kinds_cons. split; [|exact KD]. unfold isr. split; congruence. }
           assert (HH : here q' = here q + 1) by (unfold here; rewrite W, (zlen_perm _ _ P), zlen_cons; lia).
           rewrite HH, T2. unfold fewer, zlen. destruct (q_servers q); cbn; [f_equal; lia|reflexivity].
        -- destruct H as (b & B1 & B2 & B3 & S & W & D).
           split; [rewrite W; apply kinds_app; [exact KW|]; intros x [<-|[]]; unfold isr; split; congruence|].
           split; [rewrite D; exact KD|].
           assert (HH : here q' = here q + 1) by (unfold here; rewrite W, D, zlen_app, zlen_cons; unfold zlen; cbn; lia).
           rewrite HH, S. unfold fewer, zlen. destruct (q_servers q); cbn; [f_equal; lia|reflexivity].
  - destruct r as [a'|].
    + destruct H as (a & s1 & IA & A1 & A2 & T & H). destruct (KD a IA) as (KA & HA). unfold isr in KA. unfold toggles in T. rewrite KA, HA in T.
      assert (G : s1 = q_servers q /\ here q' = here q - 1 /\ kinds (fun a => isr a /\ ag_has a = true) (waiting q') /\
                  kinds (fun a => isr a /\ ag_has a = false) (in_service q')).
      { destruct (can_start q).
        - destruct H as (b & b' & W & B1 & B2 & U & P). rewrite W in KW. apply kinds_cons in KW as ((KB & HB) & KW).
          unfold isr in KB. unfold toggles in U. rewrite KB, HB in U.
          destruct U as [(_ & U1 & U2)|[(X & _)|(X & _)]]; try discriminate.
          split; [exact U2|]. split.
          { apply zlen_perm in P. rewrite !zlen_cons in P. unfold here. rewrite W, zlen_cons. lia. }
          split; [exact KW|].
          assert (K2 : kinds (fun a => isr a /\ ag_has a = false) (a :: in_service q')).
          { apply (kinds_perm _ _ _ (Permutation_sym P)). apply kinds_cons. split; [|exact KD]. unfold isr. split; congruence. }
          apply kinds_cons in K2. apply K2.
        - destruct H as (S & W & P). split; [exact S|]. split.
          { apply zlen_perm in P. rewrite !zlen_cons in P. unfold here. rewrite W. lia. }
          split; [rewrite W; exact KW|].
          apply (kinds_perm _ _ _ (Permutation_sym P)) in KD. apply kinds_cons in KD. apply KD. }
      destruct G as (-> & G2 & G3 & G4). split; [exact G3|]. split; [exact G4|]. rewrite G2. cbn [departed1].
      destruct T as [(X & _)|[(_ & _ & T1 & T2)|(_ & _ & T1 & T2)]]; [discriminate| |]; rewrite T1, T2; unfold fewer, zlen; destruct (q_servers q); cbn; try reflexivity; f_equal; lia.
    + destruct H as (H1 & H2). apply SAME in H2 as (H3 & H4 & H5). rewrite H3, H1. split; [exact H4|]. split; [exact H5|].
      destruct (q_servers q); cbn; [f_equal; lia|reflexivity].
Qed.

Lemma rstate_step o q r q' : rstate q -> resources_only o -> step o q = Ok (r, q') ->
  rstate q' /\
  q_servers q = eadd (q_servers q') (Fin (here q' - here q + zlen (departed [(o, q, r, q')]) + carrying [(o, q, r, q')] - returned [(o, q, r, q')])).
Proof.
  intros R OK H. assert (R' := R). destruct R' as [I C F KS KW KD]. assert (Wa := qi_arr _ I). assert (Wd := qi_dep _ I).
  assert (NN : c_class (q_cfg q) <> CNull) by congruence.
  assert (RO : run_op o q = Ok q').
  { unfold step in H. destruct o; try (mbind H; injection H as _ <-; exact E). cbn [run_op]. rewrite H. reflexivity. }
  assert (I' : qinv q') by (eapply qinv_op; eauto).
  assert (F' : q_cfg q' = q_cfg q).
  { apply op_frame in RO; [destruct RO; assumption| |exact I]. destruct o; try discriminate. destruct OK. }
  assert (DONE : kinds isr (scheduled q') -> waiting q' = waiting q -> kinds (fun a => isr a /\ ag_has a = false) (in_service q') ->
                 zlen (in_service q') = zlen (in_service q) -> q_servers q' = q_servers q -> r = None -> o <> ONext ->
     rstate q' /\
  q_servers q = eadd (q_servers q') (Fin (here q' - here q + zlen (departed [(o, q, r, q')]) + carrying [(o, q, r, q')] - returned [(o, q, r, q')]))).
  { intros E1 E2 E3 E4 E5 -> NX. split; [split; [exact I'|congruence|congruence|exact E1|rewrite E2; exact KW|exact E3]|]. rewrite E5.
    unfold here. rewrite E2, E4. unfold departed, carrying, returned, zlen. destruct o; try congruence; cbn; destruct (q_servers q); cbn; try reflexivity; f_equal; lia. }
  destruct o; cbn [step run_op] in H; try (mbind H; injection H as <- ->); cbn [run_op] in RO.
  - assert (B := resource_balance q r q' R H). destruct B as (B1 & B2 & B3). split.
    + assert (KS' := next_isr q r q' C F I H KS). split; [exact I'|congruence|congruence|exact KS'|exact B1|exact B2].
    + rewrite B3. f_equal. f_equal. unfold departed, carrying, returned. cbn [flat_map filter]. rewrite app_nil_r.
      destruct r as [a|]; [destruct (ag_has a)|]; (destruct (arriving q) as [b|]; [destruct (ag_kind b); try destruct (ag_has b)|]); unfold zlen; cbn; lia.
  - unfold set_active in E. destruct (q_active q); [injection E as <-; apply DONE; auto; discriminate|].
    unfold add_arrival_self in E. qch E. rewrite C in E.
    apply add_arrival_new_Ok in E; [|exact Wa|exact Wd]. cbv zeta in E. qch E.
    destruct E as [(_ & ->)|[(_ & _ & _ & ->)|(_ & _ & a & h & act & -> & _ & _ & K & _ & HA & _ & P & _)]]; apply DONE; auto; try discriminate.
    unfold scheduled. qc. change (agents_in h) with (agents_of h). apply (kinds_perm _ _ _ (Permutation_sym P)). apply kinds_cons. split; [unfold isr; congruence|exact KS].
  - injection RO as <-. apply DONE; auto; discriminate.
  - destruct OK.
  - apply delay_service_Ok in E; [|exact NN|exact Wa|exact Wd].
    destruct E as [(_ & ->)|(a & h & h' & n & E)]; [apply DONE; auto; discriminate|].
    cbv zeta in E. destruct E as (_ & -> & _ & _ & _ & P1 & P2 & _).
    apply DONE; auto; try discriminate; unfold in_service; qc; change (agents_in h') with (agents_of h').
    + apply (kinds_perm _ _ _ (Permutation_sym P2)). apply (kinds_perm _ _ _ P1) in KD. apply kinds_cons in KD. apply kinds_cons. exact KD.
    + change (agents_in (q_dep q)) with (agents_of (q_dep q)). rewrite (zlen_perm _ _ P1), (zlen_perm _ _ P2), !zlen_cons. reflexivity.
  - apply add_arrival_Ok in E as (h & -> & _ & P); [|exact NN|exact Wa|exact Wd].
    apply DONE; auto; try discriminate. unfold scheduled. qc. change (agents_in h) with (agents_of h). apply (kinds_perm _ _ _ (Permutation_sym P)). apply kinds_cons. split; [exact OK|exact KS].
  - injection RO as <-. apply DONE; auto; discriminate.
  - destruct OK.
  - injection RO as <-. apply DONE; auto; discriminate.
Qed.

Lemma departed_app l m : zlen (departed (l ++ m)) = zlen (departed l) + zlen (departed m).
Proof. unfold departed. rewrite flat_map_app, zlen_app. reflexivity. Qed.
Lemma carrying_app l m : carrying (l ++ m) = carrying l + carrying m.
Proof. unfold carrying. rewrite filter_app, zlen_app. reflexivity. Qed.
Lemma returned_app l m : returned (l ++ m) = returned l + returned m.
Proof. unfold returned. rewrite filter_app, zlen_app. reflexivity. Qed.

Lemma resource_account ops : forall q log q', rstate q -> (forall o, In o ops -> resources_only o) -> exec ops q = Ok (log, q') ->
  rstate q' /\ q_servers q = eadd (q_servers q') (Fin (here q' - here q + zlen (departed log) + carrying log - returned log)).
Proof.
  induction ops as [|o ops IH]; intros q log q' R OK H.
  - cbn in H. injection H as <- <-. split; [exact R|]. unfold departed, carrying, returned, zlen. cbn. destruct (q_servers q); cbn; [f_equal; lia|reflexivity].
  - apply exec_cons in H as (r & q1 & log1 & H1 & H2 & ->).
    destruct (rstate_step o q r q1 R (OK o (or_introl eq_refl)) H1) as (R1 & B1).
    destruct (IH q1 log1 q' R1) as (R2 & B2); [intros x X; apply (OK x); right; exact X|exact H2|].
    split; [exact R2|]. rewrite B1, B2. clear.
    change ((o, q, r, q1) :: log1) with ([(o, q, r, q1)] ++ log1). rewrite departed_app, carrying_app, returned_app.
    destruct (q_servers q'); cbn [eadd]; [f_equal; lia|reflexivity].
Qed.

(** ** Information *)

Lemma learned_action a q a' q' : ag_kind a = KInfo -> c_class (q_cfg q) = CInfo -> stamped (q_net q) ->
  queue_action a q = Ok (a', q') ->
  ag_id a' = ag_id a /\ ag_kind a' = KInfo /\ q' = q /\ learned (ag_net a) (q_net q) (c_idx (q_cfg q)) (q_now q) (q_servers q) (q_nsys q) (ag_net a').
Proof.
  intros K C ST H. assert (Q := queue_action_Ok _ _ _ _ H). destruct Q as (I1 & _ & I3 & _).
  assert (L := agent_learns _ _ _ _ K C ST H). destruct L as (L1 & L2 & L3 & (L4 & L5) & L6).
  split; [exact I1|]. split; [congruence|]. split; [exact L1|]. unfold learned.
  split; [exact L3|]. split; [exact L2|]. assert (LD : (c_idx (q_cfg q) < length (ag_net a))%nat /\
    nr_load (info_at (ag_net a') (c_idx (q_cfg q))) = match q_servers q with Fin s => (inject_Z (q_nsys q) / inject_Z s)%Q | Inf => 0%Q end); [|destruct LD; auto 6].
  clear L1 L2 L3 L4 L5 L6.
  unfold queue_action in H. rewrite K in H. unfold info_action in H. rewrite C in H. cbn [is_info] in H.
  mbind H. mbind H. mbind H. mbind H. unfold of_option in E2. destruct (set x _ _) eqn:SE; [|discriminate].
  apply set_Some in SE as (SL & ->). injection E2 as <-. injection H as <- <-. qc. apply zip_len in E as (_ & E). split; [lia|].
  unfold info_at. rewrite nth_upd_eq by exact SL. cbn [nr_load]. unfold load in E1. destruct (q_servers q) as [[|z|z]|]; [discriminate| | |]; injection E1 as <-; reflexivity.
Qed.

Lemma newer_twice x t y z : newer_of x t y -> newer_of y t z -> newer_of x t z.
Proof.
  unfold newer_of. intros (A1 & A2 & A3) (B1 & B2 & B3). split; [exact (eLe_trans _ _ _ A1 B1)|]. split; [exact B2|].
  destruct B3 as [->|(-> & B3)]; [exact A3|].
  destruct A3 as [->|(-> & A3)]; [right; auto|]. right. auto.
Qed.

Lemma learned_twice x t k now s m y z : learned x t k now s m y -> learned y t k now s m z -> learned x t k now s m z.
Proof.
  intros (A1 & A2 & A3 & A4 & A5 & A7 & A6) (B1 & B2 & B3 & B4 & B5 & B7 & B6). unfold learned.
  split; [exact A1|]. split; [congruence|]. split; [exact A3|]. split; [exact B4|]. split; [exact B5|]. split; [exact B7|].
  intros j J N. rewrite A2 in B6. exact (newer_twice _ _ _ _ (A6 j J N) (B6 j J N)).
Qed.

Definition infos (a : agent) : Prop := ag_kind a = KInfo.

Lemma info_departs q a' q' : c_class (q_cfg q) = CInfo -> qinv q -> stamped (q_net q') -> next_event q = Ok (Some a', q') -> ag_kind a' = KInfo ->
  exists a, In a (in_service q) /\ ag_id a' = ag_id a /\
    learned (ag_net a) (q_net q') (c_idx (q_cfg q)) (q_now q') (q_servers q') (q_nsys q') (ag_net a').
Proof.
  intros C I ST H K. assert (Wa := qi_arr _ I). assert (Wd := qi_dep _ I).
  assert (NR : c_class (q_cfg q) <> CResource) by congruence.
  apply next_event_event in H as (qe & PE & EV); [|exact Wa|exact Wd].
  apply pre_event_net in PE as (nd & ->).
  destruct EV as [ID _ _ X|_ LT H|_ LE NI CP RC H|_ NS LE NI CP RC H|X _ _ _ _ _|X _ _ _ _ _ _]; try congruence.
  - apply departure_acts in H; [|exact Wa|exact Wd]. qch H.
    destruct H as (a & h & a0 & qa & qb & P & R & AC & S1 & S2 & S3 & S4 & S5 & S6 & (S7 & S7') & S8 & S9 & CS). injection R as <-. qch S7; qch S7'.
    destruct (pop_agent_Ok _ _ _ Wd P) as (Wh & Ph & _).
    assert (KA : ag_kind a = KInfo) by (apply queue_action_Ok in AC as (_ & _ & X & _); congruence).
    apply learned_action in AC; [|exact KA|congruence|rewrite S7', <- S5; exact ST]. destruct AC as (T1 & _ & -> & T2).
    exists a. split; [apply (Permutation_in a (Permutation_sym Ph)); left; reflexivity|]. split; [exact T1|].
    rewrite S3, S1, S4, S5. rewrite S7', S7 in T2. exact T2.
  - apply qs_arrival_None in H. discriminate.
  - apply loss_blocked_Ok in H; [|qc; congruence|exact Wa|exact Wd]. destruct H as (a0 & h & q2 & new & d & X & _). discriminate.
Qed.

Lemma info_arrives q a r q' : c_class (q_cfg q) = CInfo -> qinv q -> stamped (q_net q') -> arriving q = Some a -> ag_kind a = KInfo ->
  next_event q = Ok (r, q') -> q_nsys q' = q_nsys q + 1 ->
  exists a', (In a' (waiting q') \/ In a' (in_service q')) /\ ag_id a' = ag_id a /\
    learned (ag_net a) (q_net q') (c_idx (q_cfg q)) (q_now q') (q_servers q') (q_nsys q') (ag_net a').
Proof.
  intros C I ST AR K H NS. assert (Wa := qi_arr _ I). assert (Wd := qi_dep _ I).
  assert (NN : c_class (q_cfg q) <> CNull) by congruence.
  apply next_event_event in H as (qe & PE & EV); [|exact Wa|exact Wd].
  apply pre_event_net in PE as (nd & ->).
  destruct EV as [ID _ -> _|_ LT H|_ LE NI CP RC H|_ NS' LE NI CP RC H|X _ _ _ _ _|X _ _ _ _ _ _]; try congruence; try lia.
  - rewrite (departing_not_arriving q Wa Wd LT) in AR. discriminate.
  - apply arrival_acts in H; [|exact NN|exact Wa|exact Wd]. qch H.
    destruct H as (a0 & h & a1 & qa & qb & P & -> & AC & S1 & S2 & S3 & S4 & (S5 & S5') & S6 & S7 & S8 & S9 & CS). qch S5; qch S5'.
    assert (AR' := nonnull_arriving q NN Wa Wd LE NI a0 h P). rewrite AR in AR'. injection AR' as <-.
    assert (A1 := AC). apply learned_action in A1; [|exact K|congruence|rewrite S5', <- S1; exact ST]. destruct A1 as (T1 & T2 & T3 & T4). subst qb.
    rewrite S5', S5, S7, S6, S8 in T4.
    destruct CS as [(_ & E1 & a2 & qc & qd & E2 & E3 & (E4 & E4') & E5 & E6 & E7 & E8 & E9 & E10)|(_ & E1 & E2 & E3 & E4)].
    + qch E4; qch E4'. apply learned_action in E3; [|exact T2|congruence|rewrite E4', <- S1; exact ST]. destruct E3 as (U1 & U2 & -> & U4). qch U1; qch U4.
      exists a2. split; [right; apply (Permutation_in a2 (Permutation_sym E2)); left; reflexivity|]. split; [congruence|].
      rewrite S1, S3, S4, E9, E5, S6. rewrite E4', E4, E6, E5, S6, E7 in U4. exact (learned_twice _ _ _ _ _ _ _ _ T4 U4).
    + exists a1. split; [left; unfold waiting; rewrite E1; apply in_or_app; right; left; reflexivity|]. split; [exact T1|].
      rewrite S1, S3, S4, E3, S6. exact T4.
  - exfalso. apply loss_blocked_Ok in H; [|exact NN|exact Wa|exact Wd]. destruct H as (a0 & h & q2 & new & d & _ & _ & DR & -> & _).
    apply draw_new in DR. qch DR. qch NS. destruct DR as (_ & _ & _ & _ & _ & _ & DR & _). lia.
Qed.

(** *** Statistics *)

Lemma stats_action a q a' q' : ag_kind a = KInfo -> c_class (q_cfg q) = CInfo -> queue_action a q = Ok (a', q') ->
  stat_step (c_idx (q_cfg q)) (rows_of (q_data q) (ag_id a)) (ag_stats a) (ag_stats a').
Proof.
  intros K C H. unfold queue_action in H. rewrite K in H. unfold info_action in H. rewrite C in H. cbn [is_info] in H.
  mbind H. mbind H. mbind H. mbind H. injection H as <- <-. qc. clear E E1 E2.
  unfold info_stats in E0. unfold stat_step. rewrite rows_of_dget. destruct (dget (q_data q) (ag_id a)) as [rows|]; [|injection E0 as <-; reflexivity].
  destruct (rev rows) as [|r rs]; [discriminate|].
  destruct (r_srv r) as [s|] eqn:R1; [|discriminate]. destruct (r_arr r) as [t|] eqn:R2; [|discriminate]. cbv zeta in E0.
  mbind E0. destruct x3 as ((u & v) & w). unfold of_option in E, E0.
  destruct (get (ag_stats a) (c_idx (q_cfg q))) as [g|] eqn:G; [|discriminate]. injection E as ->.
  destruct (set _ _ _) eqn:SE; [|discriminate]. injection E0 as <-. apply set_Some in SE as (SL & ->).
  exists (s - t). split; [exists s, t; auto|]. unfold stat_add. split; [exact SL|]. split; [apply upd_length|].
  exists u, v, w. split; [apply nth_error_nth with (d := (0, 0, 0)) in G; exact G|].
  split; [apply nth_upd_eq; exact SL|]. intros j N. apply nth_upd_neq. congruence.
Qed.

Lemma info_stats_departs q a' q' : c_class (q_cfg q) = CInfo -> qinv q -> next_event q = Ok (Some a', q') ->
  (ag_kind a' = KInfo -> exists a, In a (in_service q) /\ ag_id a' = ag_id a /\
    stat_step (c_idx (q_cfg q)) (rows_of (q_data q') (ag_id a)) (ag_stats a) (ag_stats a')) /\
  (forall b, waiting q = b :: waiting q' -> ag_kind b = KInfo -> exists b', In b' (in_service q') /\ ag_id b' = ag_id b /\
    stat_step (c_idx (q_cfg q)) (rows_of (q_data q') (ag_id b)) (ag_stats b) (ag_stats b')).
Proof.
  intros C I H. assert (Wa := qi_arr _ I). assert (Wd := qi_dep _ I).
  apply next_event_event in H as (qe & PE & EV); [|exact Wa|exact Wd].
  apply pre_event_net in PE as (nd & ->).
  destruct EV as [ID _ _ X|_ LT H|_ LE NI CP RC H|_ NS LE NI CP RC H|X _ _ _ _ _|X _ _ _ _ _ _]; try congruence.
  - apply departure_acts in H; [|exact Wa|exact Wd]. qch H.
    destruct H as (a & h & a0 & qa & qb & P & R & AC & S1 & S2 & S3 & S4 & S5 & S6 & (S7 & S7') & S8 & S9 & CS). injection R as <-. qch S7.
    destruct (pop_agent_Ok _ _ _ Wd P) as (Wh & Ph & _). split.
    + intro K. assert (Q := queue_action_Ok _ _ _ _ AC). destruct Q as (Q1 & _ & Q3 & _).
      apply stats_action in AC; [|congruence|congruence]. exists a. split; [apply (Permutation_in a (Permutation_sym Ph)); left; reflexivity|].
      split; [exact Q1|]. rewrite S2, <- S7. exact AC.
    + intros b W K. destruct CS as [(_ & _ & E2 & _)|(_ & b0 & b' & qc & qd & E1 & E2 & E3 & (E4 & _) & E5 & E6 & E7 & E8)].
      { exfalso. unfold waiting in W. rewrite E2 in W. assert (X := f_equal (@length agent) W). cbn in X. lia. }
      unfold waiting in W. rewrite W in E1. injection E1 as <-. qch E4.
      assert (Q := queue_action_Ok _ _ _ _ E3). destruct Q as (Q1 & _ & Q3 & _). qch Q1.
      apply stats_action in E3; [|exact K|congruence]. qch E3.
      exists b'. split; [apply (Permutation_in b' (Permutation_sym E2)); left; reflexivity|]. split; [exact Q1|].
      rewrite <- E8, <- E4. exact E3.
  - apply qs_arrival_None in H. discriminate.
  - apply loss_blocked_Ok in H; [|qc; congruence|exact Wa|exact Wd]. destruct H as (a0 & h & q2 & new & d & X & _). discriminate.
Qed.

Lemma stat_add_0 k w x y z : stat_add k w x y -> stat_add k 0 y z -> stat_add k w x z.
Proof.
  intros (A1 & A2 & u & v & t & A3 & A4 & A5) (B1 & B2 & u' & v' & t' & B3 & B4 & B5). unfold stat_add.
  split; [exact A1|]. split; [congruence|]. exists u, v, t. split; [exact A3|]. rewrite A4 in B3. injection B3 as <- <- <-.
  split; [rewrite B4; change (0 <? 0) with false; cbv iota; rewrite !Z.add_0_r; reflexivity|]. intros j N. rewrite B5; auto.
Qed.

Lemma info_stats_arrives q a r q' : c_class (q_cfg q) = CInfo -> qinv q -> q_collect q = true -> arriving q = Some a -> ag_kind a = KInfo ->
  next_event q = Ok (r, q') -> q_nsys q' = q_nsys q + 1 ->
  exists a' t, (In a' (waiting q') \/ In a' (in_service q')) /\ ag_id a' = ag_id a /\ ag_time a = Fin t /\
    stat_add (c_idx (q_cfg q)) (- t) (ag_stats a) (ag_stats a').
Proof.
  intros C I CO AR K H NS. assert (Wa := qi_arr _ I). assert (Wd := qi_dep _ I).
  assert (NN : c_class (q_cfg q) <> CNull) by congruence.
  apply next_event_event in H as (qe & PE & EV); [|exact Wa|exact Wd].
  apply pre_event_net in PE as (nd & ->).
  destruct EV as [ID _ -> _|_ LT H|_ LE NI CP RC H|_ NS' LE NI CP RC H|X _ _ _ _ _|X _ _ _ _ _ _]; try congruence; try lia.
  - rewrite (departing_not_arriving q Wa Wd LT) in AR. discriminate.
  - apply arrival_acts in H; [|exact NN|exact Wa|exact Wd]. qch H.
    destruct H as (a0 & h & a1 & qa & qb & P & -> & AC & S1 & S2 & S3 & S4 & (S5 & S5') & S6 & S7 & S8 & S9 & CS). qch S5; qch S5'.
    assert (AR' := nonnull_arriving q NN Wa Wd LE NI a0 h P). rewrite AR in AR'. injection AR' as <-.
    assert (Q := queue_action_Ok _ _ _ _ AC). destruct Q as (Q1 & _ & Q3 & _).
    assert (A1 := AC). apply stats_action in A1; [|exact K|congruence]. rewrite CO in S9.
    unfold stat_step in A1. rewrite S9, rows_append, (proj2 (aid_eqb_eq _ _) eq_refl), rev_app_distr in A1. cbn [rev app] in A1.
    destruct A1 as (w & (s & t & A1 & A2 & A3) & A4). cbn in A1, A2. injection A1 as <-. replace w with (- t) in A4 by lia. clear A3 w.
    rewrite S5 in A4. destruct CS as [(_ & E1 & a2 & qc & qd & E2 & E3 & (E4 & E4') & E5 & E6 & E7 & E8 & E9 & E10)|(_ & E1 & E2 & E3 & E4)].
    + qch E4. rewrite CO in E8. assert (Q := queue_action_Ok _ _ _ _ E3). destruct Q as (Q1' & _ & Q3' & _). qch Q1'.
      apply stats_action in E3; [|qc; congruence|congruence]. qch E3. unfold stat_step in E3. rewrite Q1, (rows_dlast _ _ _ _ (ag_id a) E8), S9, rows_append, (proj2 (aid_eqb_eq _ _) eq_refl), last_upd_snoc, rev_app_distr in E3.
      cbn [rev app] in E3. destruct E3 as (w & (s' & t' & B1 & B2 & B3) & B4). cbn in B1, B2. rewrite A2 in B1, B2. injection B1 as <-. injection B2 as <-.
      replace w with 0 in B4 by lia. rewrite E4 in B4.
      exists a2, t. split; [right; apply (Permutation_in a2 (Permutation_sym E2)); left; reflexivity|]. split; [congruence|]. split; [exact A2|].
      exact (stat_add_0 _ _ _ _ _ A4 B4).
    + exists a1, t. split; [left; unfold waiting; rewrite E1; apply in_or_app; right; left; reflexivity|]. auto.
  - exfalso. apply loss_blocked_Ok in H; [|exact NN|exact Wa|exact Wd]. destruct H as (a0 & h & q2 & new & d & _ & _ & DR & -> & _).
    apply draw_new in DR. qch DR. qch NS. destruct DR as (_ & _ & _ & _ & _ & _ & DR & _). lia.
Qed.

(** ** Rows at a ResourceQueue *)

Lemma arriving_head q a : arriving q = Some a -> exists h, q_arr q = Ag a :: h.
Proof.
  unfold arriving. destruct (next_event_description q) as [[|[| |]|]|]; try discriminate.
  destruct (q_arr q) as [|[|b] h]; try discriminate. intro X. injection X as ->. eauto.
Qed.

Lemma head_agent h a : (exists h', h = Ag a :: h') -> In a (agents_in h).
Proof. intros (h' & ->). left. reflexivity. Qed.

Lemma rows_resource q a r q' : c_class (q_cfg q) = CResource -> qinv q -> NoDup (held q) -> q_collect q = true -> arriving q = Some a ->
  next_event q = Ok (r, q') ->
  forall i, rows_of (q_data q') i = rows_of (q_data q) i ++ resource_row q a q' i.
Proof.
  intros C I ND CO AR H i. assert (Wa := qi_arr _ I). assert (Wd := qi_dep _ I).
  assert (NN : c_class (q_cfg q) <> CNull) by congruence. destruct (held_split _ ND) as (S1 & S2 & N1 & N2 & N3).
  assert (IA : In (ag_id a) (ids (scheduled q))).
  { apply in_map. apply arriving_head in AR. unfold scheduled. apply head_agent. exact AR. }
  apply next_event_event in H as (qe & PE & EV); [|exact Wa|exact Wd].
  assert (QE : qe = q) by (destruct PE as [->|(X & _)]; [reflexivity|congruence]). subst qe.
  unfold resource_row. destruct EV as [ID _ -> ->|_ LT H|_ LE NI CP RC H|_ NS LE NI CP RC H|_ LE NI RT _ H|_ LE NI RT _ CP H].
  - rewrite (idle_not_arriving q Wa Wd ID) in AR. discriminate.
  - rewrite (departing_not_arriving q Wa Wd LT) in AR. discriminate.
  - destruct (RC C) as (a' & t & QA & RA).
    apply arrival_acts in H; [|exact NN|exact Wa|exact Wd].
    destruct H as (a0 & h & a1 & qa & qb & P & -> & AC & T1 & T2 & T3 & T4 & (T5 & _) & T6 & T7 & T8 & T9 & CS).
    assert (AR' := nonnull_arriving q NN Wa Wd LE NI a0 h P). rewrite AR in AR'. injection AR' as <-.
    apply pop_agent_Ok in P as (_ & _ & _ & t' & QA'); [|exact Wa]. rewrite QA in QA'. injection QA' as -> <-.
    assert (G1 : match ag_kind a with KResource => ag_has a | _ => false end = false).
    { destruct (ag_kind a); auto. apply RA. reflexivity. }
    rewrite G1.
    assert (G2 : refused q a = false).
    { unfold refused. assert (X : eleb (eadd (q_servers q) (c_buffer (q_cfg q))) (Fin (q_nsys q)) = false) by (apply eleb_gt; apply CP; congruence).
      rewrite X. cbn [orb]. destruct (ag_kind a); auto. apply eleb_gt. apply RA. reflexivity. }
    rewrite G2. rewrite CO in *. apply queue_action_Ok in AC as (Q1 & _).
    destruct CS as [(_ & E1 & a2 & qc & qd & E2 & E3 & (E4 & _) & E5 & E6 & E7 & E8 & E9 & E10)|(_ & E1 & E2 & E3 & E4)].
    + rewrite E10, (rows_dlast _ _ _ _ i E8), T9, rows_append.
      destruct (aid_eqb (ag_id a) i) eqn:E; [|rewrite app_nil_r; reflexivity]. apply aid_eqb_eq in E. subst i.
      rewrite last_upd_snoc. replace (memb (ag_id a) (in_service q')) with true; [unfold zlen, waiting; rewrite T3; reflexivity|].
      symmetry. apply memb_in. apply queue_action_Ok in E3 as (Q2 & _). qch Q2. rewrite <- Q1, <- Q2. apply in_map.
      apply (Permutation_in a2 (Permutation_sym E2)); left; reflexivity.
    + rewrite E4, T9, rows_append.
      destruct (aid_eqb (ag_id a) i) eqn:E; [|rewrite app_nil_r; reflexivity]. apply aid_eqb_eq in E. subst i.
      replace (memb (ag_id a) (in_service q')) with false; [unfold zlen, waiting; rewrite T3; reflexivity|].
      symmetry. apply memb_not. unfold in_service. rewrite E2. apply S1. exact IA.
  - destruct (RC C) as (a' & t & QA & RA).
    apply loss_blocked_Ok in H; [|exact NN|exact Wa|exact Wd].
    destruct H as (a0 & h & q2 & new & d & -> & P & DR & -> & D). rewrite CO in D.
    assert (AR' := nonnull_arriving q NN Wa Wd LE NI a0 h P). rewrite AR in AR'. injection AR' as <-.
    apply pop_agent_Ok in P as (_ & _ & _ & t' & QA'); [|exact Wa]. rewrite QA in QA'. injection QA' as -> <-.
    assert (G1 : match ag_kind a with KResource => ag_has a | _ => false end = false).
    { destruct (ag_kind a); auto. apply RA. reflexivity. }
    rewrite G1. unfold refused. assert (X : eleb (eadd (q_servers q) (c_buffer (q_cfg q))) (Fin (q_nsys q)) = true) by (apply eleb_le; exact CP).
    rewrite X. cbn [orb]. qc. apply draw_new in DR. qch DR. destruct DR as (_ & _ & F1 & F2 & _ & _ & F3 & F4 & _ & _ & F5 & F6 & F7 & _).
    rewrite F7, D, rows_append. destruct (aid_eqb (ag_id a) i) eqn:E; [|rewrite app_nil_r; reflexivity]. reflexivity.
  - destruct RT as (a' & t & QA & RA).
    apply rq_return_Ok in H; [|exact Wa|exact Wd]. destruct H as (a0 & h & o & d & -> & P & Wh & -> & _ & D). rewrite CO in D.
    assert (AR' := nonnull_arriving q NN Wa Wd LE NI a0 h P). rewrite AR in AR'. injection AR' as <-.
    apply pop_agent_Ok in P as (_ & _ & _ & t' & QA'); [|exact Wa]. rewrite QA in QA'. injection QA' as -> <-.
    destruct RA as (-> & ->). qc. rewrite D, rows_append. destruct (aid_eqb (ag_id a) i) eqn:E; [|rewrite app_nil_r; reflexivity]. reflexivity.
  - destruct RT as (a' & t & QA & RA).
    apply rq_blocked_Ok in H; [|exact Wa|exact Wd]. destruct H as (a0 & h & d & -> & P & Wh & -> & D). rewrite CO in D.
    assert (AR' := nonnull_arriving q NN Wa Wd LE NI a0 h P). rewrite AR in AR'. injection AR' as <-.
    apply pop_agent_Ok in P as (_ & _ & _ & t' & QA'); [|exact Wa]. rewrite QA in QA'. injection QA' as -> <-.
    destruct RA as (RA1 & RA2). unfold refused. rewrite RA1, RA2.
    assert (X : eleb (q_servers q) (Fin (q_nsys q)) = true) by (apply eleb_le; exact CP). rewrite X, orb_true_r. qc.
    rewrite D, rows_append. destruct (aid_eqb (ag_id a) i) eqn:E; [|rewrite app_nil_r; reflexivity]. reflexivity.
Qed.
