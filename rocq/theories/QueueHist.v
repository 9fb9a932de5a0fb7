(** * QueueHist: invariants over whole histories of calls *)
From Coq Require Import List ZArith QArith Lia Bool Permutation Arith.
From Verif Require Import Base Heap HeapProofs Queue QueueEffects QueueEvents QueueSteps QueueInv SpecQueue QueueFlow.
Import ListNotations.
Open Scope Z_scope.

(** ** Work conservation: nobody waits while a server is free *)
Definition winv (q : queue) : Prop := q_line q <> [] -> eLe (q_servers q) (Fin (na (q_dep q))).

Lemma ids_nil_waiting q q' : ids (waiting q') = ids (waiting q) -> (q_line q' <> [] <-> q_line q <> []).
Proof.
  unfold ids, waiting. intro H. split; intros N E; apply N.
  - destruct (q_line q'); [reflexivity|]. rewrite E in H. discriminate.
  - destruct (q_line q); [reflexivity|]. rewrite E in H. discriminate.
Qed.

Lemma na_ids h : na h = zlen (ids (agents_of h)).
Proof. unfold zlen, ids. rewrite map_length. reflexivity. Qed.

(** Counters and locations of one call. *)
Record flow_ok (e : entry) : Prop := mkFlowOk {
  fo_flow : let '(o, q, r, q') := e in
    exists new st, flow q q' new st (sent1 e) (admitted1 e) (departed1 e) (turned_away1 e) /\
      (c_class (q_cfg q) <> CResource -> winv q ->
        winv q' /\ ids (waiting q) ++ admitted1 e = st ++ ids (waiting q'));
  fo_dep : let '(o, q, r, q') := e in q_departed q' = q_departed q + zlen (departed1 e);
  fo_arr : let '(o, q, r, q') := e in c_class (q_cfg q) <> CResource ->
    q_narr q' = q_narr q + zlen (admitted1 e) /\ q_blocked q' = q_blocked q + zlen (turned_away1 e);
  fo_res : let '(o, q, r, q') := e in
    (q_blocked q' = q_blocked q \/ q_blocked q' = q_blocked q + 1) /\
    q_blocked q' <= q_blocked q + zlen (turned_away1 e) /\
    (q_narr q' = q_narr q + zlen (admitted1 e) \/
     c_class (q_cfg q) = CResource /\ admitted1 e = [] /\ q_narr q' = q_narr q + (q_blocked q' - q_blocked q))
}.

Lemma flow_same q q' : q_arr q' = q_arr q -> q_dep q' = q_dep q -> q_line q' = q_line q ->
  q_oarr q' = q_oarr q -> q_cfg q' = q_cfg q -> flow q q' [] [] [] [] [] [].
Proof.
  intros E1 E2 E3 E4 E5. apply mkFlow; auto; unfold scheduled, in_service, waiting.
  - rewrite E1. reflexivity.
  - left. rewrite E3, app_nil_r. reflexivity.
  - rewrite E2. reflexivity.
Qed.

(** A call that moves nobody. *)
Lemma flow_ok_same o q q' :
  o <> ONext -> (forall a, o <> OArrive a) ->
  q_arr q' = q_arr q -> q_dep q' = q_dep q -> q_line q' = q_line q ->
  q_oarr q' = q_oarr q -> q_cfg q' = q_cfg q -> q_departed q' = q_departed q ->
  q_narr q' = q_narr q -> q_blocked q' = q_blocked q ->
  (c_class (q_cfg q) <> CResource -> q_servers q' = q_servers q) ->
  flow_ok (o, q, None, q').
Proof.
  intros N1 N2 E1 E2 E3 E4 E5 E6 E7 E8 E9.
  assert (S : sent1 (o, q, None, q') = [] /\ admitted1 (o, q, None, q') = [] /\
              departed1 (o, q, None, q') = [] /\ turned_away1 (o, q, None, q') = []).
  { destruct o; try congruence; auto. }
  destruct S as (S1 & S2 & S3 & S4).
  split; rewrite ?S1, ?S2, ?S3, ?S4.
  - exists [], []. split; [apply flow_same; assumption|]. intros NR W. split.
    + unfold winv in *. rewrite E3, E2, (E9 NR). exact W.
    + unfold waiting. rewrite E3, app_nil_r. reflexivity.
  - cbn. lia.
  - intros _. cbn. lia.
  - cbn. lia.
Qed.

Lemma step_Next_flow q r q' : qinv q -> c_class (q_cfg q) <> CNull ->
  next_event q = Ok (r, q') -> flow_ok (ONext, q, r, q').
Proof.
  intros I N H. apply next_event_event in H as (qe & PE & EV); [|apply I|apply I].
  destruct (pre_event_net _ _ PE) as (nd & QE).
  assert (IE : qinv qe) by (subst qe; destruct I; split; assumption).
  assert (CE : q_cfg qe = q_cfg q) by (subst qe; reflexivity).
  assert (FE : forall q'' new st se ad de lo, flow qe q'' new st se ad de lo -> flow q q'' new st se ad de lo).
  { intros q'' new st se ad de lo F. subst qe. destruct F; apply mkFlow; assumption. }
  assert (NE : c_class (q_cfg qe) <> CNull) by (rewrite CE; exact N).
  destruct EV as [ID _ QQ R|ND LT R|_ LE NI CAP _ R|_ NS LE NI CAP _ R|CR LE NI RT QQ R|CR LE NI RT QQ CAP R].
  - subst q' r. assert (A : arriving q = None) by (apply idle_not_arriving; [apply I|apply I|exact ID]).
    split; unfold sent1, admitted1, departed1, turned_away1; rewrite ?A.
    + exists [], []. split; [apply flow_same; reflexivity|]. intros _ W. split; [exact W|].
      rewrite app_nil_r; reflexivity.
    + cbn; lia.
    + cbn; lia.
    + cbn. split; [auto|lia].
  - apply flow_departure in R as (a & st & -> & FL & SZ & D1 & D2 & D3 & D4 & D5 & D6 & D7 & D8 & D9 & _); [|exact IE].
    apply FE in FL.
    assert (A : arriving q = None) by (apply departing_not_arriving; [apply I|apply I|exact LT]).
    assert (F : q_departed qe = q_departed q /\ q_nsys qe = q_nsys q /\ q_narr qe = q_narr q /\
                q_blocked qe = q_blocked q /\ q_servers qe = q_servers q) by (subst qe; auto).
    destruct F as (F1 & F2 & F3 & F4 & F5).
    split; unfold sent1, admitted1, departed1, turned_away1; rewrite ?A.
    + exists [], st. split; [exact FL|]. intros NR W.
      assert (L : ids (waiting q) ++ [] = st ++ ids (waiting q')).
      { destruct FL as [_ [X|(x & X & _)] _ _ _]; [exact X | discriminate]. }
      split; [|exact L]. unfold winv in *. rewrite D8, F5 by (rewrite CE; exact NR). intro LN.
      (* counts *)
      assert (P := fl_dep _ _ _ _ _ _ _ _ FL). apply Permutation_length in P.
      rewrite !app_length in P. unfold ids in P. rewrite !map_length in P. cbn [length] in P.
      change (in_service q) with (agents_of (q_dep q)) in P.
      change (in_service q') with (agents_of (q_dep q')) in P.
      assert (LQ : q_line q <> []).
      { intro X. unfold waiting, ids in L. rewrite X in L. cbn in L. destruct st; [|discriminate].
        cbn in L. destruct (q_line q'); [congruence | discriminate]. }
      specialize (W LQ). unfold na in *.
      assert (QD : q_dep qe = q_dep q /\ q_line qe = q_line q) by (subst qe; auto).
      destruct QD as [QD QL]. rewrite QD, QL, F5 in D9.
      destruct SZ as [->|[x ->]].
      * specialize (D9 LQ eq_refl). cbn [length] in P. elia.
      * cbn [length] in P. elia.
    + cbn. lia.
    + intros _. cbn. lia.
    + cbn. lia.
  - apply flow_arrival in R as (a & h & new & st & -> & PA & FL & D1 & D2 & D3 & D4 & D5 & D6 & D7); [|exact NE|exact IE].
    apply FE in FL.
    assert (F : q_arr qe = q_arr q /\ q_departed qe = q_departed q /\ q_nsys qe = q_nsys q /\ q_narr qe = q_narr q /\
                q_blocked qe = q_blocked q /\ q_servers qe = q_servers q /\ waiting qe = waiting q) by (subst qe; auto 8).
    destruct F as (F0 & F1 & F2 & F3 & F4 & F5 & F6). rewrite F0 in PA.
    assert (A : arriving q = Some a) by (eapply nonnull_arriving; eauto; apply I).
    assert (C : (q_nsys q' =? q_nsys q + 1) = true) by (apply Z.eqb_eq; lia).
    split; unfold sent1, admitted1, departed1, turned_away1; rewrite ?A, ?C.
    + exists new, st. split; [exact FL|]. intros NR W. rewrite CE in D7. destruct (D7 NR) as (S1 & CS).
      rewrite F5, F2, F6 in *.
      assert (P := fl_dep _ _ _ _ _ _ _ _ FL). apply Permutation_length in P.
      rewrite !app_length in P. unfold ids in P. rewrite !map_length in P. cbn [length] in P.
      change (in_service q) with (agents_of (q_dep q)) in P.
      change (in_service q') with (agents_of (q_dep q')) in P.
      assert (SY := qi_sys _ I). unfold winv in *. rewrite S1. unfold na in *.
      destruct CS as [(-> & C1 & L)|(-> & C1 & L)]; cbn [length] in P.
      * split; [|rewrite L; reflexivity].
        intros _. destruct (q_line q) as [|b l].
        -- cbn [length] in SY. elia.
        -- assert (W' : eLe (q_servers q) (Fin (Z.of_nat (length (agents_of (q_dep q)))))) by (apply W; discriminate). elia.
      * assert (LQ : q_line q = []).
        { destruct (q_line q) as [|b l]; [reflexivity|].
          assert (W' : eLe (q_servers q) (Fin (Z.of_nat (length (agents_of (q_dep q)))))) by (apply W; discriminate).
          cbn [length] in SY. elia. }
        unfold waiting in *. rewrite LQ in L. split.
        -- intro X. exfalso. apply X. destruct (q_line q'); [reflexivity | discriminate].
        -- rewrite LQ, L. reflexivity.
    + cbn. lia.
    + intros _. cbn. lia.
    + cbn. lia.
  - apply flow_blocked in R as (a & h & new & -> & PA & FL & D1 & D2 & D3 & D4 & D5 & D6 & D7 & D8 & D9); [|exact NE|exact IE].
    apply FE in FL.
    assert (F : q_arr qe = q_arr q /\ q_departed qe = q_departed q /\ q_nsys qe = q_nsys q /\ q_narr qe = q_narr q /\
                q_blocked qe = q_blocked q /\ q_servers qe = q_servers q /\ q_line qe = q_line q /\ q_dep qe = q_dep q) by (subst qe; auto 8).
    destruct F as (F0 & F1 & F2 & F3 & F4 & F5 & F6 & F7). rewrite F0 in PA.
    assert (A : arriving q = Some a) by (eapply nonnull_arriving; eauto; apply I).
    assert (C : (q_nsys q' =? q_nsys q + 1) = false) by (apply Z.eqb_neq; lia).
    split; unfold sent1, admitted1, departed1, turned_away1; rewrite ?A, ?C.
    + exists new, []. split; [exact FL|]. intros _ W. unfold winv, waiting in *.
      rewrite D7, D8, D9, F5, F6, F7, app_nil_r. split; [exact W | reflexivity].
    + cbn. lia.
    + intros _. cbn. lia.
    + cbn. lia.
  - subst qe. apply flow_rq_return in R as (a & h & -> & PA & FL & D1 & D2 & D3 & D4 & D5 & D6 & D7 & D8 & D9); [|exact I].
    assert (A : arriving q = Some a) by (eapply nonnull_arriving; eauto; apply I).
    assert (C : (q_nsys q' =? q_nsys q + 1) = false) by (apply Z.eqb_neq; lia).
    split; unfold sent1, admitted1, departed1, turned_away1; rewrite ?A, ?C.
    + exists [], []. split; [exact FL|]. intro NR. congruence.
    + cbn. lia.
    + intros NR. congruence.
    + cbn. lia.
  - subst qe. apply flow_rq_blocked in R as (a & h & -> & PA & FL & D1 & D2 & D3 & D4 & D5 & D6 & D7 & D8 & D9); [|exact I].
    assert (A : arriving q = Some a) by (eapply nonnull_arriving; eauto; apply I).
    assert (C : (q_nsys q' =? q_nsys q + 1) = false) by (apply Z.eqb_neq; lia).
    split; unfold sent1, admitted1, departed1, turned_away1; rewrite ?A, ?C.
    + exists [], []. split; [exact FL|]. intro NR. congruence.
    + cbn. lia.
    + intros NR. congruence.
    + cbn. split; [auto|]. split; [lia|]. right. auto with zarith.
Qed.

(** set_active. *)
Lemma step_Active_flow q q' : qinv q -> c_class (q_cfg q) <> CNull ->
  set_active q = Ok q' -> flow_ok (OActive, q, None, q').
Proof.
  intros I N H. unfold set_active in H. destruct (q_active q).
  { inversion H; subst. apply flow_ok_same; auto; congruence. }
  assert (H' : add_arrival_new (set_q_active true q) = Ok q').
  { unfold add_arrival_self in H. qch H. destruct (c_class (q_cfg q)); congruence. }
  clear H. apply add_arrival_new_Ok in H'; [|apply I|apply I]. cbv zeta in H'. qch H'.
  destruct H' as [(_ & ->)|[(_ & _ & _ & ->)|(_ & _ & a & h & act & -> & IA & _ & _ & _ & _ & W & P & _)]].
  - apply flow_ok_same; auto; congruence.
  - apply flow_ok_same; auto; congruence.
  - split; unfold sent1, admitted1, departed1, turned_away1.
    + exists [ag_id a], []. split.
      * apply mkFlow.
        -- change (Permutation (ids (agents_of (q_arr q)) ++ [] ++ [ag_id a]) (ids (agents_of h) ++ [] ++ [])).
           apply perm_of_cnt. intro x. assert (Y := perm_ids _ _ P x). cbn [app]. ccount. lia.
        -- left. rewrite app_nil_r. reflexivity.
        -- reflexivity.
        -- right. rewrite IA. auto.
        -- reflexivity.
      * intros _ X. split; [exact X|]. rewrite app_nil_r. reflexivity.
    + cbn. lia.
    + cbn. lia.
    + cbn. lia.
Qed.

Lemma step_Arrive_flow a q q' : qinv q -> c_class (q_cfg q) <> CNull ->
  add_arrival a q = Ok q' -> flow_ok (OArrive a, q, None, q').
Proof.
  intros I N H. apply add_arrival_Ok in H as (h & -> & W & P); [|exact N|apply I|apply I].
  split; unfold sent1, admitted1, departed1, turned_away1.
  - exists [], []. split.
    + apply mkFlow.
      * change (Permutation (ids (agents_of (q_arr q)) ++ [ag_id a] ++ []) (ids (agents_of h) ++ [] ++ [])).
        apply perm_of_cnt. intro x. assert (Y := perm_ids _ _ P x). cbn [app]. ccount. lia.
      * left. rewrite app_nil_r. reflexivity.
      * reflexivity.
      * left. auto.
      * reflexivity.
    + intros _ X. split; [exact X|]. rewrite app_nil_r. reflexivity.
  - cbn. lia.
  - cbn. lia.
  - cbn. lia.
Qed.

Lemma step_Delay_flow t q q' : qinv q -> c_class (q_cfg q) <> CNull ->
  delay_service t q = Ok q' -> flow_ok (ODelay t, q, None, q').
Proof.
  intros I N H. apply delay_service_Ok in H; [|exact N|apply I|apply I].
  destruct H as [(_ & ->)|(a & h & h' & n & H)]; [apply flow_ok_same; auto; congruence|].
  cbv zeta in H. destruct H as (_ & -> & _ & W & W' & P & P' & _).
  assert (PP : Permutation (ids (agents_of (q_dep q))) (ids (agents_of h'))).
  { apply perm_of_cnt. intro x. assert (Y := perm_ids _ _ P x). assert (Y' := perm_ids _ _ P' x).
    ccount. qch Y'. lia. }
  split; unfold sent1, admitted1, departed1, turned_away1.
  - exists [], []. split.
    + apply mkFlow.
      * reflexivity.
      * left. rewrite app_nil_r. reflexivity.
      * rewrite !app_nil_r. exact PP.
      * left. auto.
      * reflexivity.
    + intros _ X. split.
      * unfold winv in *. qc. apply Permutation_length in PP. unfold ids in PP. rewrite !map_length in PP.
        unfold na in *. rewrite <- PP. exact X.
      * rewrite app_nil_r. reflexivity.
  - cbn. lia.
  - cbn. lia.
  - cbn. lia.
Qed.

Lemma step_Servers_flow n q q' : qinv q -> c_class (q_cfg q) <> CNull ->
  set_num_servers n q = Ok q' -> flow_ok (OServers n, q, None, q').
Proof.
  intros I N H. unfold set_num_servers in H.
  assert (G : c_class (q_cfg q) <> CResource -> qs_set_num_servers n q = Ok q' -> flow_ok (OServers n, q, None, q')).
  { clear H. intros NR H. apply qs_set_num_servers_Ok in H; [|exact I|exact NR].
    destruct H as (m & k & h & d & new & ME & NO & POS & NI & K & -> & W & P & MM & _).
    assert (LL : ids (waiting q) = ids new ++ ids (skipn k (q_line q))).
    { unfold waiting, ids. rewrite MM, <- map_app, firstn_skipn. reflexivity. }
    split; unfold sent1, admitted1, departed1, turned_away1.
    - exists [], (ids new). split.
      + apply mkFlow.
        * reflexivity.
        * left. rewrite app_nil_r. exact LL.
        * change (Permutation (ids (agents_of (q_dep q)) ++ ids new) (ids (agents_of h) ++ [])).
          apply perm_of_cnt. intro x. assert (Y := perm_ids _ _ P x). ccount. lia.
        * left. auto.
        * reflexivity.
      + intros _ X. split; [|rewrite app_nil_r; exact LL].
        unfold winv in *. qc. intro LN.
        assert (LK : (k < length (q_line q))%nat).
        { destruct (Nat.le_gt_cases (length (q_line q)) k) as [C|C]; [|exact C].
          exfalso. apply LN. apply skipn_all2. exact C. }
        assert (LQ : q_line q <> []) by (intro E; rewrite E in LK; simpl in LK; lia).
        specialize (X LQ).
        assert (NN := na_perm _ _ P). rewrite app_length in NN.
        assert (LN2 : length new = k).
        { rewrite <- (map_length ag_id), MM, map_length, firstn_length. lia. }
        rewrite NN, LN2. unfold na in *. destruct m as [z|]; destruct (q_servers q) as [s|]; cbn in *; try lia.
    - cbn. lia.
    - cbn. lia.
    - cbn. lia. }
  destruct (c_class (q_cfg q)) eqn:C; try (apply G; [congruence | exact H]); [congruence|].
  assert (G2 : forall m, flow_ok (OServers n, q, None, rq_set_num_servers m q)).
  { intro m. unfold rq_set_num_servers. destruct (eltb (c_max_servers (q_cfg q)) m);
      apply flow_ok_same; auto; congruence. }
  destruct n; inversion H; subst; apply G2.
Qed.

Lemma step_flow o q r q' : qinv q -> c_class (q_cfg q) <> CNull -> no_clear o ->
  step o q = Ok (r, q') -> flow_ok (o, q, r, q') /\ qinv q'.
Proof.
  intros I N NC H.
  destruct o; cbn [step run_op] in H; try (mbind H; inversion H; subst; clear H).
  - split; [apply step_Next_flow; assumption | eapply qinv_next; eauto].
  - split; [apply step_Active_flow; assumption | eapply qinv_set_active; eauto].
  - inversion E; subst. split; [apply flow_ok_same; auto; congruence | destruct I; split; assumption].
  - split; [apply step_Servers_flow; assumption | eapply qinv_set_num_servers; eauto].
  - split; [apply step_Delay_flow; assumption | eapply qinv_delay; eauto].
  - split; [apply step_Arrive_flow; assumption | eapply qinv_add_arrival; eauto].
  - inversion E; subst. split; [apply flow_ok_same; auto; congruence | destruct I; split; assumption].
  - destruct NC.
  - inversion E; subst. split; [apply flow_ok_same; auto; congruence | destruct I; split; assumption].
Qed.

(** ** What never changes *)

Record frame (q q' : queue) : Prop := mkFrame {
  fr_cfg : q_cfg q' = q_cfg q;
  fr_net : length (q_net q') = length (q_net q);
  fr_over : c_class (q_cfg q) <> CResource -> q_over q' = q_over q;
  fr_blocked : c_class (q_cfg q) = CServer \/ c_class (q_cfg q) = CNull -> q_blocked q' = q_blocked q
}.

Lemma zip_rows_length f a b c : zip_rows f a b = Ok c -> length c = length a.
Proof.
  revert b c. induction a as [|x a IH]; intros [|y b] c H; cbn [zip_rows] in H; try discriminate.
  - inversion H; reflexivity.
  - mbind H. inversion H; subst. cbn [length]. f_equal. eapply IH; eauto.
Qed.

Lemma draw_frame q q2 new : draw q q2 new ->
  q_cfg q2 = q_cfg q /\ q_net q2 = q_net q /\ q_over q2 = q_over q /\ q_blocked q2 = q_blocked q.
Proof. intros (tm & act & h & i & ct & -> & _). auto. Qed.

Lemma frame_refl q : frame q q.
Proof. split; auto. Qed.

Lemma next_frame q r q' : qinv q -> next_event q = Ok (r, q') -> frame q q'.
Proof.
  intros I H. apply next_event_event in H as (qe & PE & EV); [|apply I|apply I].
  assert (NL : exists nd, qe = set_q_net nd q /\ length nd = length (q_net q)).
  { destruct PE as [->|(_ & nd & a & t & _ & Z & ->)]; [exists (q_net q); auto|].
    exists nd. split; [reflexivity|]. eapply zip_rows_length; eauto. }
  destruct NL as (nd & -> & NL).
  destruct EV as [? ? -> _|? ? R|NN ? ? ? _ R|NN NS ? ? ? _ R|CR ? ? ? _ R|CR ? ? ? _ ? R].
  - apply frame_refl.
  - apply qs_departure_Ok in R; [|apply I|apply I].
    destruct R as (a & h & a' & h' & line' & n & d1 & d & s & o & _ & _ & _ & _ & _ & _ & -> & _ & _ & SO & _).
    split; qc; auto. intro NR. apply SO; exact NR.
  - apply qs_arrival_Ok in R; [|exact NN|apply I|apply I].
    destruct R as (a & h & q2 & new & h' & line' & n & d1 & d & s1 & o1 & s & o & a1 & _ & _ & DR & _ & _ & _ & -> & _ & _ & _ & SO & _).
    apply draw_frame in DR. qch DR. destruct DR as (D1 & D2 & D3 & D4).
    split; qc; try congruence. intro NR. apply SO; exact NR.
  - apply loss_blocked_Ok in R; [|exact NN|apply I|apply I].
    destruct R as (a & h & q2 & new & d & _ & _ & DR & -> & _).
    apply draw_frame in DR. qch DR. destruct DR as (D1 & D2 & D3 & D4).
    split; qc; try congruence. intros [X|X]; congruence.
  - apply rq_return_Ok in R; [|apply I|apply I]. destruct R as (a & h & o & d & _ & _ & _ & -> & _).
    split; qc; auto. intro; congruence.
  - apply rq_blocked_Ok in R; [|apply I|apply I]. destruct R as (a & h & d & _ & _ & _ & -> & _).
    split; qc; auto. intros [X|X]; congruence.
Qed.

Lemma op_frame o q q' : o <> OClear -> qinv q -> run_op o q = Ok q' -> frame q q'.
Proof.
  intros NC I H. destruct o; cbn [run_op] in H.
  - mbind H. destruct x as [r q1]. inversion H; subst. eapply next_frame; eauto.
  - unfold set_active in H. destruct (q_active q); [inversion H; subst; apply frame_refl|].
    unfold add_arrival_self in H. qch H.
    assert (G : add_arrival_new (set_q_active true q) = Ok q' -> frame q q').
    { clear H. intro H. apply add_arrival_new_Ok in H; [|apply I|apply I]. cbv zeta in H. qch H.
      destruct H as [(_ & ->)|[(_ & _ & _ & ->)|(_ & _ & a & h & act & -> & _)]]; split; auto. }
    destruct (c_class (q_cfg q)); try (apply G; exact H). inversion H; subst. split; auto.
  - inversion H; subst. split; auto.
  - unfold set_num_servers in H.
    assert (G : c_class (q_cfg q) <> CResource -> qs_set_num_servers n q = Ok q' -> frame q q').
    { clear H. intros NR H. apply qs_set_num_servers_Ok in H; [|exact I|exact NR].
      destruct H as (m & k & h & d & new & _ & _ & _ & _ & _ & -> & _). split; auto. }
    destruct (c_class (q_cfg q)) eqn:C; try (apply G; [congruence | exact H]).
    + inversion H; subst. apply frame_refl.
    + assert (RI : forall m, frame q (rq_set_num_servers m q)).
      { intro m. unfold rq_set_num_servers. destruct (eltb (c_max_servers (q_cfg q)) m); split; auto; congruence. }
      destruct n; inversion H; subst; apply RI.
  - destruct (c_class (q_cfg q)) eqn:C.
    3:{ unfold delay_service in H. rewrite C in H. inversion H; subst. apply frame_refl. }
    all: (apply delay_service_Ok in H; [|congruence|apply I|apply I]);
      (destruct H as [(_ & ->)|(a & h & h' & n & H)]; [apply frame_refl|]);
      cbv zeta in H; destruct H as (_ & -> & _); split; auto.
  - destruct (c_class (q_cfg q)) eqn:C.
    3:{ apply add_arrival_null in H as (d & -> & _); [|exact C]. split; auto. }
    all: (apply add_arrival_Ok in H as (h & -> & W & P); [|congruence|apply I|apply I]); split; auto.
  - inversion H; subst. split; auto.
  - congruence.
  - inversion H; subst. split; auto.
Qed.

Lemma clear_cfg q : q_cfg (clear q) = q_cfg q.
Proof. unfold clear. destruct (c_class (q_cfg q)); reflexivity. Qed.

(** Facts about every reachable state. *)
Record basics (c : qcfg) (n : nat) (q : queue) : Prop := mkBasics {
  ba_inv : qinv q;
  ba_cfg : q_cfg q = c;
  ba_net : length (q_net q) = match c_class c with CInfo => n | _ => 0%nat end;
  ba_over : c_class c <> CResource -> q_over q = 0;
  ba_blocked : c_class c = CServer \/ c_class c = CNull -> q_blocked q = 0
}.

Lemma basics_new c s col n : basics c n (new_queue c s col n).
Proof.
  split; auto; [apply qinv_new|]. cbn. destruct (c_class c); try reflexivity. apply repeat_length.
Qed.

Lemma basics_op c n o q q' : basics c n q -> run_op o q = Ok q' -> basics c n q'.
Proof.
  intros [I C L O B] H.
  assert (I' := qinv_op _ _ _ I H).
  assert (D : o = OClear \/ o <> OClear) by (destruct o; auto; right; discriminate).
  destruct D as [->|NC].
  - cbn [run_op] in H. inversion H; subst q'. split; auto.
    + rewrite clear_cfg. exact C.
    + unfold clear. rewrite C. destruct (c_class c); cbn; auto. rewrite repeat_length. exact L.
    + intro NR. unfold clear. rewrite C. destruct (c_class c); cbn; auto.
    + intro NB. unfold clear. rewrite C. destruct (c_class c); cbn; auto.
  - apply op_frame in H as [F1 F2 F3 F4]; [|exact NC|exact I]. rewrite C in *.
    split; auto; [congruence| |]; intro X; [rewrite F3|rewrite F4]; auto.
Qed.

Lemma basics_reach ok c s col n q : reach ok (new_queue c s col n) q -> basics c n q.
Proof. induction 1; [apply basics_new | eapply basics_op; eauto]. Qed.

(** ** Histories *)

Record fresh_facts (q : queue) : Prop := mkFresh {
  ff_inv : qinv q; ff_winv : winv q; ff_sch : q_arr q = [Sentinel]; ff_dep : q_dep q = [Sentinel];
  ff_line : q_line q = []; ff_oarr : q_oarr q = 0; ff_nsys : q_nsys q = 0; ff_departed : q_departed q = 0;
  ff_narr : q_narr q = 0; ff_blocked : q_blocked q = 0
}.

Lemma pristine_facts q : pristine q -> fresh_facts q.
Proof.
  intros [(c & s & col & n & ->)|(c & s & col & n & q1 & R & N & ->)].
  - split; auto; [apply qinv_new|]. intro X; contradiction X; reflexivity.
  - apply basics_reach in R as [I C L O B].
    assert (IC := qinv_clear _ I). unfold clear in *. rewrite C in *. unfold qs_clear in *.
    destruct (c_class c); try congruence; split; auto; cbn [q_line set_q_blocked set_q_net set_q_over]; intro X; contradiction X; reflexivity.
Qed.

Lemma exec_cons o ops q log q' : exec (o :: ops) q = Ok (log, q') ->
  exists r q1 log1, step o q = Ok (r, q1) /\ exec ops q1 = Ok (log1, q') /\ log = (o, q, r, q1) :: log1.
Proof.
  intro H. cbn [exec] in H. mbind H. destruct x as [r q1]. mbind H. destruct x as [log1 q2].
  inversion H; subst. eauto 6.
Qed.

Lemma zlen_app {A} (l m : list A) : zlen (l ++ m) = zlen l + zlen m.
Proof. unfold zlen. rewrite app_length. lia. Qed.

Lemma created_step q q' new : 0 <= q_oarr q -> q_cfg q' = q_cfg q ->
  (new = [] /\ q_oarr q' = q_oarr q \/ new = [(c_idx (q_cfg q), q_oarr q)] /\ q_oarr q' = q_oarr q + 1) ->
  created q' = created q ++ new.
Proof.
  intros P C [(-> & E)|(-> & E)]; unfold created; rewrite C, E.
  - rewrite app_nil_r. reflexivity.
  - rewrite Z2Nat.inj_add by lia. change (Z.to_nat 1) with 1%nat. rewrite seq_app, map_app. cbn [seq map].
    rewrite Nat.add_0_l, Z2Nat.id by lia. reflexivity.
Qed.

(** Everything the history theorems need, from any start. *)
Lemma exec_flow ops : forall q log q', Forall no_clear ops -> qinv q -> c_class (q_cfg q) <> CNull ->
  0 <= q_oarr q -> exec ops q = Ok (log, q') ->
  qinv q' /\ q_cfg q' = q_cfg q /\ 0 <= q_oarr q' /\
  (exists nw, created q' = created q ++ nw /\
    Permutation (held q ++ sent log ++ nw) (held q' ++ departed log ++ turned_away log)) /\
  q_departed q' = q_departed q + zlen (departed log) /\
  q_nsys q' = q_nsys q + zlen (admitted log) - zlen (departed log) /\
  (c_class (q_cfg q) <> CResource -> q_narr q' = q_narr q + zlen (admitted log) /\
     q_blocked q' = q_blocked q + zlen (turned_away log)) /\
  (q_blocked q <= q_blocked q' <= q_blocked q + zlen (turned_away log)) /\
  (q_narr q + zlen (admitted log) <= q_narr q' <= q_narr q + zlen (admitted log) + (q_blocked q' - q_blocked q)) /\
  (c_class (q_cfg q) <> CResource -> winv q -> winv q' /\ exists st,
     ids (waiting q) ++ admitted log = st ++ ids (waiting q') /\
     Permutation (ids (in_service q) ++ st) (ids (in_service q') ++ departed log)).
Proof.
  induction ops as [|o ops IH]; intros q log q' NC I N PO H.
  - cbn in H. inversion H; subst. split; [exact I|]. split; [reflexivity|]. split; [exact PO|].
    split. { exists []. rewrite !app_nil_r. auto. }
    cbn. do 2 (split; [lia|]). split; [intros _; lia|]. do 2 (split; [lia|]).
    intros _ W. split; [exact W|]. exists []. rewrite !app_nil_r. auto.
  - apply exec_cons in H as (r & q1 & log1 & S & E & ->).
    inversion NC as [|? ? NC1 NC2]; subst.
    destruct (step_flow _ _ _ _ I N NC1 S) as (F & I1).
    destruct F as [(new & st & FL & WL) FD FA FR].
    assert (C1 : q_cfg q1 = q_cfg q) by (apply FL).
    assert (CR : created q1 = created q ++ new) by (apply created_step; [exact PO|exact C1|apply FL]).
    assert (PO1 : 0 <= q_oarr q1) by (destruct (fl_new _ _ _ _ _ _ _ _ FL) as [(_ & X)|(_ & X)]; lia).
    specialize (IH q1 log1 q' NC2 I1). rewrite C1 in IH. specialize (IH N PO1 E).
    destruct IH as (H1 & H2 & H3 & (nw & H4 & H5) & H6 & H7 & H8 & H9 & H10 & H11).
    set (e := (o, q, r, q1)) in *.
    change (departed (e :: log1)) with (departed1 e ++ departed log1).
    change (admitted (e :: log1)) with (admitted1 e ++ admitted log1).
    change (turned_away (e :: log1)) with (turned_away1 e ++ turned_away log1).
    change (sent (e :: log1)) with (sent1 e ++ sent log1).
    rewrite !zlen_app.
    split; [exact H1|]. split; [exact H2|]. split; [exact H3|].
    split.
    { exists (new ++ nw). split; [rewrite H4, CR, app_assoc; reflexivity|].
      destruct FL as [A1 A2 A3 _ _]. unfold held in *.
      apply perm_of_cnt. intro x. assert (Y := perm_cnt _ _ H5 x).
      assert (Y1 := perm_cnt _ _ A1 x). assert (Y3 := perm_cnt _ _ A3 x).
      rewrite !count_occ_app in *.
      assert (Y2 : (cnt (ids (waiting q)) x + cnt (admitted1 e) x = cnt st x + cnt (ids (waiting q1)) x)%nat).
      { destruct A2 as [A2|(y & -> & -> & A2)].
        - rewrite <- !count_occ_app, A2. reflexivity.
        - rewrite A2. lia. }
      lia. }
    split; [lia|].
    split.
    { assert (SY := qi_sys _ I). assert (SY1 := qi_sys _ I1).
      destruct FL as [_ A2 A3 _ _].
      apply Permutation_length in A3. rewrite !app_length in A3.
      assert (X : (length (ids (waiting q)) + length (admitted1 e) = length st + length (ids (waiting q1)))%nat).
      { destruct A2 as [A2|(y & -> & -> & A2)].
        - rewrite <- !app_length, A2. reflexivity.
        - rewrite A2. lia. }
      unfold na in SY, SY1. unfold ids, waiting in X, A3. rewrite !map_length in X, A3.
      change (agents_of (q_dep q)) with (in_service q) in SY.
      change (agents_of (q_dep q1)) with (in_service q1) in SY1.
      unfold zlen in *. lia. }
    split.
    { intro NR. specialize (FA NR). specialize (H8 NR). lia. }
    destruct FR as (R1 & R2 & R3).
    split; [lia|]. split.
    { destruct R3 as [R3|(_ & R4 & R3)]; [lia|]. rewrite R4 in *. unfold zlen in *. cbn [length] in *. lia. }
    intros NR W. destruct (WL NR W) as (W1 & L1). destruct (H11 NR W1) as (W' & st' & L2 & P2).
    split; [exact W'|]. exists (st ++ st'). split.
    + rewrite app_assoc, L1, <- !app_assoc. f_equal. exact L2.
    + destruct FL as [_ _ A3 _ _]. apply perm_of_cnt. intro x. assert (Y := perm_cnt _ _ A3 x).
      assert (Y2 := perm_cnt _ _ P2 x). rewrite !count_occ_app in *. lia.
Qed.
