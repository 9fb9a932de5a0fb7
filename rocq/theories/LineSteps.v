(** * LineSteps: one call, as far as the line and the servers are concerned *)
From Coq Require Import List ZArith QArith Lia Bool Permutation Arith.
From Verif Require Import Base Heap HeapProofs Queue QueueEffects QueueEvents QueueSteps QueueInv SpecQueue QueueFlow QueueHist QueueData QueueRows QueueClaims1 SpecLine.
Import ListNotations.
Open Scope Z_scope.

Inductive turn (o : qop) (q : queue) (r : option agent) (q' : queue) : Prop :=
| t_rest : departed1 (o, q, r, q') = [] -> admitted1 (o, q, r, q') = [] -> turned_away1 (o, q, r, q') = [] ->
    q_line q' = q_line q -> q_now q' = q_now q ->
    Permutation (ids (in_service q')) (ids (in_service q)) ->
    (undelayed q o -> Permutation (in_service q') (in_service q) /\ q_is q' = q_is q) -> turn o q r q'
| t_away i : departed1 (o, q, r, q') = [] -> admitted1 (o, q, r, q') = [] -> turned_away1 (o, q, r, q') = [i] ->
    q_line q' = q_line q -> q_dep q' = q_dep q -> q_is q' = q_is q ->
    eLe (room q) (Fin (q_nsys q)) -> turn o q r q'
| t_join i : departed1 (o, q, r, q') = [] -> admitted1 (o, q, r, q') = [i] -> turned_away1 (o, q, r, q') = [] ->
    In i (ids (scheduled q)) ->
    ids (waiting q') = ids (waiting q) ++ [i] -> q_dep q' = q_dep q -> q_is q' = q_is q ->
    eLt (Fin (q_nsys q)) (room q) -> eLt (q_servers q) (Fin (q_nsys q + 1)) -> turn o q r q'
| t_serve i b : departed1 (o, q, r, q') = [] -> admitted1 (o, q, r, q') = [i] -> turned_away1 (o, q, r, q') = [] ->
    In i (ids (scheduled q)) ->
    ag_id b = i -> ag_time b = c_srv (q_cfg q) (q_is q) (q_now q') ->
    Permutation (in_service q') (b :: in_service q) -> q_line q' = [] -> q_line q = [] -> q_is q' = S (q_is q) ->
    eLt (Fin (q_nsys q)) (room q) -> eLe (Fin (q_nsys q + 1)) (q_servers q) -> turn o q r q'
| t_leave a : departed1 (o, q, r, q') = [ag_id a] -> admitted1 (o, q, r, q') = [] -> turned_away1 (o, q, r, q') = [] ->
    Permutation (in_service q) (a :: in_service q') -> ag_time a = q_now q' ->
    q_line q = [] -> q_line q' = [] -> q_is q' = q_is q -> turn o q r q'
| t_next a b b' l : departed1 (o, q, r, q') = [ag_id a] -> admitted1 (o, q, r, q') = [] -> turned_away1 (o, q, r, q') = [] ->
    Permutation (in_service q) (a :: l) -> ag_time a = q_now q' ->
    q_line q = b :: q_line q' -> ag_id b' = ag_id b -> ag_time b' = c_srv (q_cfg q) (q_is q) (q_now q') ->
    Permutation (in_service q') (b' :: l) -> q_is q' = S (q_is q) -> turn o q r q'.

Lemma step_turn o q r q' : c_class (q_cfg q) <> CNull -> c_class (q_cfg q) <> CResource ->
  qinv q -> winv q -> cinv q -> orderly q o -> step o q = Ok (r, q') -> turn o q r q' /\ q_servers q' = q_servers q /\ q_cfg q' = q_cfg q.
Proof.
  intros N NR IV W C OK H. assert (Wa := qi_arr _ IV). assert (Wd := qi_dep _ IV).
  assert (SAME : forall q1, q' = q1 -> r = None -> o <> ONext -> q_dep q1 = q_dep q -> q_line q1 = q_line q -> q_now q1 = q_now q ->
    q_is q1 = q_is q -> q_servers q1 = q_servers q -> q_cfg q1 = q_cfg q -> turn o q r q' /\ q_servers q' = q_servers q /\ q_cfg q' = q_cfg q).
  { intros q1 -> -> NO A1 A2 A3 A4 A5 A6. split; [|auto].
    assert (X : departed1 (o, q, None, q1) = [] /\ admitted1 (o, q, None, q1) = [] /\ turned_away1 (o, q, None, q1) = []).
    { destruct o; try congruence; auto. }
    destruct X as (X1 & X2 & X3). unfold in_service. apply t_rest; try assumption; unfold in_service; rewrite A1; auto. }
  destruct o; cbn [step run_op] in H.
  - (* ONext *)
    apply next_event_event in H as (qe & PE & EV); [|exact Wa|exact Wd].
    destruct (pre_event_net _ _ PE) as (nd & ->).
    destruct EV as [ID _ -> ->|_ LT R|_ LE NI CAP _ R|_ NS LE NI CAP _ R|CR LE NI RT _ R|CR LE NI RT _ CAP R]; try congruence.
    + split; [|auto]. assert (A := idle_not_arriving q Wa Wd ID).
      apply t_rest; unfold admitted1, turned_away1; rewrite ?A; auto.
    + assert (A := departing_not_arriving q Wa Wd LT).
      apply qs_departure_Ok in R; [|exact Wa|exact Wd].
      destruct R as (a & h & a' & h' & line' & n & d1 & d & s & o & PA & -> & I1 & T1 & K1 & B1 & Q & D1 & Wh' & SO & ST).
      qch PA. qch ST. apply pop_agent_Ok in PA as (Wh & Ph & Th & _); [|exact Wd].
      destruct (SO NR) as [-> _].
      assert (QS : in_service q' = agents_of h' /\ q_line q' = line' /\ q_now q' = ag_time a /\ q_is q' = n /\ q_servers q' = q_servers q /\ q_cfg q' = q_cfg q)
        by (rewrite Q; auto 8).
      destruct QS as (Q1 & Q2 & Q3 & Q4 & Q5 & Q6). split; [|auto].
      assert (DD : departed1 (ONext, q, Some a', q') = [ag_id a]) by (cbn; rewrite I1; reflexivity).
      assert (AD : admitted1 (ONext, q, Some a', q') = []) by (cbn; rewrite A; reflexivity).
      assert (TU : turned_away1 (ONext, q, Some a', q') = []) by (cbn; rewrite A; reflexivity).
      destruct ST as [(S1 & -> & -> & -> & ->)|(S1 & b & b' & LB & I2 & T2 & _ & Pb & -> & D2)].
      * assert (L : q_line q = []).
        { destruct (q_line q) as [|x l] eqn:LQ; [reflexivity|exfalso].
          assert (SY := qi_sys _ IV). unfold cinv in C.
          apply andb_false_iff in S1 as [S1|S1].
          - apply Z.ltb_ge in S1. cbn [length] in S1. lia.
          - apply eltb_ge in S1. rewrite SY, LQ in S1. elia. }
        eapply (t_leave _ _ _ _ a); try assumption; [rewrite Q1; exact Ph|symmetry; exact Q3|rewrite Q2; exact L].
      * eapply (t_next _ _ _ _ a b b' (agents_of h)); try assumption; [symmetry; exact Q3|rewrite Q2; exact LB|rewrite Q3; exact T2|rewrite Q1; exact Pb].
    + apply qs_arrival_Ok in R; [|exact N|exact Wa|exact Wd].
      destruct R as (a & h & q2 & new & h' & line' & n & d1 & d & s1 & o1 & s & o & a1 & -> & PA & DR & I1 & T1 & K1 & Q & D1 & Wh' & SO1 & SO & CC).
      qch PA. qch CC. assert (A := nonnull_arriving q N Wa Wd LE NI a h PA).
      apply pop_agent_Ok in PA as (Wh & Ph & Th & _); [|exact Wa].
      apply draw_new in DR. qch DR. destruct DR as (_ & CF & F2 & F3 & F4 & F5 & F6 & F7 & F8 & F9 & F10 & F11 & F12 & F13 & _).
      destruct (SO NR) as [-> _]. destruct (SO1 NR) as [-> _].
      assert (QS : in_service q' = agents_of h' /\ q_line q' = line' /\ q_now q' = ag_time a /\ q_is q' = n /\ q_servers q' = q_servers q /\ q_cfg q' = q_cfg q /\ q_nsys q' = q_nsys q + 1 /\ q_dep q' = h').
      { rewrite Q. qc. auto 12. }
      destruct QS as (Q1 & Q2 & Q3 & Q4 & Q5 & Q6 & Q7 & Q8). split; [|auto].
      assert (E1 : (q_nsys q' =? q_nsys q + 1) = true) by (apply Z.eqb_eq; exact Q7).
      assert (DD : departed1 (ONext, q, None, q') = []) by reflexivity.
      assert (AD : admitted1 (ONext, q, None, q') = [ag_id a]) by (cbn; rewrite A, E1; reflexivity).
      assert (TU : turned_away1 (ONext, q, None, q') = []) by (cbn; rewrite A, E1; reflexivity).
      assert (SC : In (ag_id a) (ids (scheduled q))).
      { apply in_map. apply (Permutation_in a (Permutation_sym Ph)). left; reflexivity. }
      assert (RM : eLt (Fin (q_nsys q)) (room q)).
      { unfold room. destruct (c_class (q_cfg q)) eqn:CL; try (apply CAP; congruence). exact Logic.I. }
      destruct CC as [(C1 & -> & -> & (a2 & I2 & T2 & K2 & P2) & D)|(C1 & -> & -> & -> & -> & _ & _)].
      * qch C1. apply eleb_le in C1.
        assert (L : q_line q = []).
        { destruct (q_line q) as [|x l] eqn:LQ; [reflexivity|exfalso]. assert (SY := qi_sys _ IV). rewrite LQ in SY. cbn [length] in SY.
          assert (X : eLe (q_servers q) (Fin (na (q_dep q)))) by (apply W; rewrite LQ; discriminate). elia. }
        apply (t_serve _ _ _ _ (ag_id a) a2); try assumption; [rewrite Q3; exact T2|rewrite Q1; exact P2|rewrite Q2; exact L].
      * qch C1. apply eleb_gt in C1. apply (t_join _ _ _ _ (ag_id a)); try assumption.
        unfold waiting, ids. rewrite Q2, map_app. cbn. rewrite I1. reflexivity.
    + apply loss_blocked_Ok in R; [|exact N|exact Wa|exact Wd].
      destruct R as (a & h & q2 & new & d & -> & PA & DR & Q & D). qch PA. qch DR.
      assert (A := nonnull_arriving q N Wa Wd LE NI a h PA).
      apply draw_new in DR. qch DR. destruct DR as (_ & CF & F2 & F3 & F4 & F5 & F6 & F7 & F8 & F9 & F10 & F11 & F12 & F13 & _).
      assert (QS : q_dep q' = q_dep q /\ q_line q' = q_line q /\ q_is q' = q_is q /\ q_servers q' = q_servers q /\ q_cfg q' = q_cfg q /\ q_nsys q' = q_nsys q).
      { rewrite Q. qc. auto 12. }
      destruct QS as (Q1 & Q2 & Q3 & Q4 & Q5 & Q6). split; [|auto].
      assert (E1 : (q_nsys q' =? q_nsys q + 1) = false) by (apply Z.eqb_neq; lia).
      apply (t_away _ _ _ _ (ag_id a)); try assumption; unfold admitted1, turned_away1; rewrite ?A, ?E1; auto.
      unfold room. destruct (c_class (q_cfg q)) eqn:CL; try exact CAP. congruence.
  - mbind H. injection H as H1 H2. subst x r. unfold set_active in E. destruct (q_active q).
    { injection E as H'. refine (SAME _ (eq_sym H') _ _ _ _ _ _ _ _); (reflexivity || discriminate). }
    assert (H' : add_arrival_new (set_q_active true q) = Ok q').
    { unfold add_arrival_self in E. qch E. destruct (c_class (q_cfg q)); congruence. }
    clear E. apply add_arrival_new_Ok in H'; [|exact Wa|exact Wd]. cbv zeta in H'. qch H'.
    destruct H' as [(_ & H)|[(_ & _ & _ & H)|(_ & _ & a & h & act & H & _)]];
      (refine (SAME _ H _ _ _ _ _ _ _ _); (reflexivity || discriminate)).
  - injection H as H1 H2. refine (SAME _ (eq_sym H2) (eq_sym H1) _ _ _ _ _ _ _); (reflexivity || discriminate).
  - destruct OK.
  - mbind H. injection H as H1 H2. subst x r. assert (E' := E).
    apply delay_service_Ok in E; [|exact N|exact Wa|exact Wd].
    destruct E as [(_ & H)|(a & h & h' & n & H)]; [refine (SAME _ H _ _ _ _ _ _ _ _); (reflexivity || discriminate)|].
    cbv zeta in H. destruct H as (_ & H & _ & W1 & W' & P & P' & _).
    split; [|rewrite H; auto].
    apply t_rest; try reflexivity; try (rewrite H; reflexivity).
    + unfold in_service. rewrite H. qc. change agents_in with agents_of. apply Permutation_map with (f := ag_id) in P. apply Permutation_map with (f := ag_id) in P'.
      unfold ids. eapply Permutation_trans; [exact P'|]. cbn [map]. qc. symmetry. exact P.
    + intros X. destruct X.
  - mbind H. injection H as H1 H2. subst x r.
    apply add_arrival_Ok in E as (h & H & W1 & P); [|exact N|exact Wa|exact Wd].
    refine (SAME _ H _ _ _ _ _ _ _ _); (reflexivity || discriminate).
  - injection H as H1 H2. refine (SAME _ (eq_sym H2) (eq_sym H1) _ _ _ _ _ _ _); (reflexivity || discriminate).
  - destruct OK.
  - injection H as H1 H2. refine (SAME _ (eq_sym H2) (eq_sym H1) _ _ _ _ _ _ _); (reflexivity || discriminate).
Qed.
