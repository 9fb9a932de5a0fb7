(** * QueueClaims3: collected rows and the times drawn *)
From Coq Require Import List ZArith QArith Lia Bool Permutation Arith.
From Verif Require Import Base Heap HeapProofs Queue QueueEffects QueueEvents QueueSteps QueueInv SpecQueue QueueFlow QueueHist QueueData QueueClaims1 QueueRows.
Import ListNotations.
Open Scope Z_scope.

(** ** C59 *)

Lemma rows_record q r q' : qinv q -> c_class (q_cfg q) <> CNull -> c_class (q_cfg q) <> CResource ->
  NoDup (held q) -> q_collect q = true -> next_event q = Ok (r, q') ->
  forall i, rows_of (q_data q') i =
    match arriving q, r with
    | Some a, _ =>
      if aid_eqb (ag_id a) i then
        rows_of (q_data q) i ++
          [mkData (q_now q') (if memb i (in_service q') then q_now q' else Fin 0) (Fin 0)
             (zlen (waiting q')) (q_nsys q')]
      else rows_of (q_data q) i
    | None, Some a =>
      if aid_eqb (ag_id a) i then last_upd (row_set_dep (q_now q')) (rows_of (q_data q) i)
      else if began q q' i then last_upd (row_set_srv (q_now q')) (rows_of (q_data q) i)
      else rows_of (q_data q) i
    | None, None => rows_of (q_data q) i
    end.
Proof.
  intros IV N NR ND CO H i. assert (R := rows_next _ _ _ IV N ND CO H i). unfold row_step in R.
  destruct (arriving q) as [a|].
  - destruct (aid_eqb (ag_id a) i); [|exact R]. destruct R as (nw & -> & A & [(B & C & D)|(X & _)]); [|congruence].
    destruct (D NR) as (E & F). destruct nw as [na ns nd nq nn]. cbn in *. subst. reflexivity.
  - destruct r as [a|]; [|exact R]. destruct (aid_eqb (ag_id a) i); [exact R|].
    destruct (began q q' i); exact R.
Qed.

Lemma rows_record_other o q q' : qinv q -> c_class (q_cfg q) <> CNull -> NoDup (held q) -> q_collect q = true ->
  o <> ONext -> o <> OClear -> o <> OClearData -> run_op o q = Ok q' ->
  forall i, rows_of (q_data q') i =
    if began q q' i then last_upd (row_set_srv (q_now q')) (rows_of (q_data q) i) else rows_of (q_data q) i.
Proof.
  intros IV N ND CO O1 O2 O3 H i.
  assert (NC : no_clear o) by (destruct o; try exact Logic.I; congruence).
  destruct (op_other o q q' O1 NC O3 IV N ND H i) as (_ & R & _). exact (R CO).
Qed.

(** Identifiers are never duplicated. *)
Lemma dinv_new c s col n : dinv (new_queue c s col n).
Proof. split; [constructor | intros i []]. Qed.

Lemma dinv_reach c s col n q : c_class c <> CNull ->
  reach (fun q o => no_clear o /\ fresh q o) (new_queue c s col n) q -> dinv q.
Proof.
  intros N R. induction R as [|q o q' R IH OK H].
  - apply dinv_new.
  - destruct OK as (NC & F). apply basics_reach in R as [I C _ _ _]. eapply dinv_op; eauto. congruence.
Qed.

Lemma reach_weaken (ok ok' : queue -> qop -> Prop) q0 q : (forall q o, ok q o -> ok' q o) -> reach ok q0 q -> reach ok' q0 q.
Proof. intros W R. induction R; [constructor | econstructor; eauto]. Qed.

(** ** C17 *)

Definition visit_ok (now : ext) (w s : Prop) (rows : list row) : Prop :=
  (w -> exists old l, rows = old ++ [l] /\ Forall row_ended old /\ row_waiting l /\ eLe (r_arr l) now) /\
  (s -> exists old l, rows = old ++ [l] /\ Forall row_ended old /\ row_in_service l /\ eLe (r_srv l) now) /\
  (~ w -> ~ s -> Forall row_ended rows).

Definition rinv (q : queue) : Prop :=
  (q_collect q = true -> forall i,
     visit_ok (q_now q) (In i (ids (waiting q))) (In i (ids (in_service q))) (rows_of (q_data q) i)) /\
  (q_collect q = false -> forall i, Forall row_ended (rows_of (q_data q) i)).

Lemma visit_ext now (w s w' s' : Prop) rows : (w' <-> w) -> (s' <-> s) -> visit_ok now w s rows -> visit_ok now w' s' rows.
Proof. unfold visit_ok. tauto. Qed.

Lemma visit_later now now' w s rows : eLe now now' -> visit_ok now w s rows -> visit_ok now' w s rows.
Proof.
  intros L (A & B & C). split; [|split; [|exact C]].
  - intro X. destruct (A X) as (old & l & -> & F & W & T). exists old, l. repeat (split; [assumption || reflexivity|]).
    eapply eLe_trans; eauto.
  - intro X. destruct (B X) as (old & l & -> & F & W & T). exists old, l. repeat (split; [assumption || reflexivity|]).
    eapply eLe_trans; eauto.
Qed.

(** Service begins. *)
Lemma visit_begin now now' (w s w' s' : Prop) rows : eLe now now' -> w -> ~ w' -> s' ->
  visit_ok now w s rows -> visit_ok now' w' s' (last_upd (row_set_srv now') rows).
Proof.
  intros L HW NW HS (A & B & C). destruct (A HW) as (old & l & -> & F & (W1 & W2) & T).
  rewrite last_upd_snoc. split; [tauto|]. split; [|tauto].
  intros _. exists old, (row_set_srv now' l). split; [reflexivity|]. split; [exact F|].
  split; [split; cbn; [eapply eLe_trans; eauto | exact W2]|]. cbn. apply eLe_refl.
Qed.

(** Service ends. *)
Lemma visit_end now now' (w s w' s' : Prop) rows : eLe now now' -> s -> ~ w' -> ~ s' ->
  visit_ok now w s rows -> visit_ok now' w' s' (last_upd (row_set_dep now') rows).
Proof.
  intros L HS NW NS (A & B & C). destruct (B HS) as (old & l & -> & F & (W1 & W2) & T).
  rewrite last_upd_snoc. split; [tauto|]. split; [tauto|].
  intros _ _. apply Forall_app. split; [exact F|]. constructor; [|constructor].
  left. split; cbn; [exact W1|]. eapply eLe_trans; eauto.
Qed.

(** The switch. *)
Lemma collect_op o q q' : qinv q -> c_class (q_cfg q) <> CNull -> (forall b, o <> OCollect b) ->
  run_op o q = Ok q' -> q_collect q' = q_collect q /\
  (no_clear o -> o <> OClearData -> q_collect q = false -> q_data q' = q_data q).
Proof.
  intros IV N NB H. assert (Wa := qi_arr _ IV). assert (Wd := qi_dep _ IV).
  assert (DM : forall d i f d', dmod false d i f d' -> d' = d).
  { intros d i f d' [(-> & _)|(X & _)]; [reflexivity | discriminate]. }
  destruct o; cbn [run_op] in H.
  - mbind H. destruct x as [r q1]. inversion H; subst q1. clear H.
    apply next_event_event in E as (qe & PE & EV); [|exact Wa|exact Wd].
    destruct (pre_event_net _ _ PE) as (nd & ->).
    destruct EV as [_ _ -> _|_ _ R|_ _ _ _ _ R|_ _ _ _ _ _ R|_ _ _ _ _ R|_ _ _ _ _ _ R]; [auto| | | | |].
    + apply qs_departure_Ok in R; [|exact Wa|exact Wd].
      destruct R as (a & h & a' & h' & line' & n & d1 & d & s & o & _ & _ & _ & _ & _ & _ & -> & D1 & _ & _ & ST).
      qc. qch D1. qch ST. split; [reflexivity|]. intros _ _ C. rewrite C in *. apply DM in D1. subst d1.
      destruct ST as [(_ & _ & _ & _ & ->)|(_ & b & b' & _ & _ & _ & _ & _ & _ & D2)]; [reflexivity | eapply DM; eauto].
    + apply qs_arrival_Ok in R; [|exact N|exact Wa|exact Wd].
      destruct R as (a & h & q2 & new & h' & line' & n & d1 & d & s1 & o1 & s & o & a1 & _ & _ & DR & _ & _ & _ & -> & D1 & _ & _ & _ & C).
      apply draw_new in DR. qch DR. destruct DR as (_ & _ & _ & _ & _ & _ & _ & _ & _ & _ & F1 & F2 & _).
      qc. qch D1. qch C. split; [exact F1|]. intros _ _ X. rewrite X in *. subst d1.
      destruct C as [(_ & _ & _ & _ & ->)|(_ & _ & _ & _ & -> & _)]; reflexivity.
    + apply loss_blocked_Ok in R; [|exact N|exact Wa|exact Wd].
      destruct R as (a & h & q2 & new & d & _ & _ & DR & -> & D).
      apply draw_new in DR. qch DR. destruct DR as (_ & _ & _ & _ & _ & _ & _ & _ & _ & _ & F1 & F2 & _).
      qc. qch D. split; [exact F1|]. intros _ _ X. rewrite X in *. exact D.
    + apply rq_return_Ok in R; [|exact Wa|exact Wd].
      destruct R as (a & h & o & d & _ & _ & _ & -> & _ & D). qc. qch D. split; [reflexivity|]. intros _ _ X. rewrite X in *. exact D.
    + apply rq_blocked_Ok in R; [|exact Wa|exact Wd].
      destruct R as (a & h & d & _ & _ & _ & -> & D). qc. qch D. split; [reflexivity|]. intros _ _ X. rewrite X in *. exact D.
  - unfold set_active in H. destruct (q_active q); [inversion H; subst; auto|].
    assert (H' : add_arrival_new (set_q_active true q) = Ok q').
    { unfold add_arrival_self in H. qch H. destruct (c_class (q_cfg q)); congruence. }
    clear H. apply add_arrival_new_Ok in H'; [|exact Wa|exact Wd]. cbv zeta in H'. qch H'.
    destruct H' as [(_ & ->)|[(_ & _ & _ & ->)|(_ & _ & a & h & act & -> & _)]]; auto.
  - inversion H; subst; auto.
  - assert (G : c_class (q_cfg q) <> CResource -> qs_set_num_servers n q = Ok q' ->
       q_collect q' = q_collect q /\ (q_collect q = false -> q_data q' = q_data q)).
    { clear H. intros NR H. unfold qs_set_num_servers in H. cbv zeta in H.
      assert (GO : forall m tq,
        (let* q1 := repeat_service (Z.to_nat tq) q in
         let* q2 := if 0 <? tq then update_time q1 else Ok q1 in Ok (set_q_servers m q2)) = Ok q' ->
        q_collect q' = q_collect q /\ (q_collect q = false -> q_data q' = q_data q)).
      { clear H. intros m tq H. mbind H.
        apply repeat_service_Ok in E as (LE & h & d & s & o & new2 & -> & W & _ & _ & _ & _ & D); [|exact Wd].
        mbind H.
        assert (X : exists t, x = set_q_time t (set_q_dep h
             (set_q_over o (set_q_servers s (set_q_is (Z.to_nat tq + q_is q)%nat
                 (set_q_data d (set_q_line (skipn (Z.to_nat tq) (q_line q)) q))))))).
        { destruct (0 <? tq).
          - apply update_time_Ok in E; [|exact Wa|exact W]. eauto.
          - inversion E. exists (q_time q). destruct q; reflexivity. }
        destruct X as (t & ->). inversion H. qc. auto. }
      destruct n as [z| |]; [destruct (z <=? 0); [discriminate|]; destruct (q_servers q); apply GO in H; exact H
                            |destruct (q_servers q); [apply GO in H; exact H | discriminate]
                            |discriminate]. }
    unfold set_num_servers in H. destruct (c_class (q_cfg q)) eqn:CL; [| |congruence| |].
    1,2,4: destruct (G ltac:(congruence) H); auto.
    destruct n; [| |discriminate]; unfold rq_set_num_servers in H;
      (match type of H with Ok (if ?b then _ else _) = _ => destruct b end; inversion H; subst; auto).
  - apply delay_service_Ok in H; [|exact N|exact Wa|exact Wd].
    destruct H as [(_ & ->)|(a & h & h' & n & H)]; [auto|]. cbv zeta in H. destruct H as (_ & -> & _). auto.
  - apply add_arrival_Ok in H as (h & -> & _); [auto|exact N|exact Wa|exact Wd].
  - exfalso. eapply NB. reflexivity.
  - inversion H; subst. unfold clear. destruct (c_class (q_cfg q)); (split; [reflexivity|]; intros []).
  - inversion H; subst. split; [reflexivity|]. congruence.
Qed.

Lemma nobody_visits q : nobody q -> forall i, ~ In i (ids (waiting q)) /\ ~ In i (ids (in_service q)).
Proof. intros (A & B) i. rewrite A, B. split; intros []. Qed.

Lemma rinv_on o q q' : forward (q_cfg q) -> qinv q -> c_class (q_cfg q) <> CNull -> dinv q -> tinv q ->
  no_past q o -> no_clear o -> o <> OClearData -> q_collect q = true ->
  (forall i, visit_ok (q_now q) (In i (ids (waiting q))) (In i (ids (in_service q))) (rows_of (q_data q) i)) ->
  run_op o q = Ok q' ->
  forall i, visit_ok (q_now q') (In i (ids (waiting q'))) (In i (ids (in_service q'))) (rows_of (q_data q') i).
Proof.
  intros FW IV N DV0 TI NP NC NCD CL RI H. assert (ND := proj1 DV0).
  assert (TM : eLe (q_now q) (q_now q')) by (eapply tinv_op; eauto).
  intro i. specialize (RI i).
  assert (OD : o = ONext \/ o <> ONext) by (destruct o; auto; right; discriminate).
  destruct OD as [->|NX].
  - cbn [run_op] in H. mbind H. destruct x as [r q1]. inversion H; subst q1. clear H.
    assert (RS := rows_next _ _ _ IV N ND CL E i). assert (MS := mem_next _ _ _ IV N ND E i).
    unfold row_step in RS. unfold mem_step in MS. cbv zeta in MS.
    destruct (arriving q) as [a|] eqn:A.
    + destruct (aid_eqb (ag_id a) i) eqn:EI.
      * apply aid_eqb_eq in EI. subst i.
        assert (SC : In (ag_id a) (ids (scheduled q))).
        { assert (X : In a (scheduled q)).
          { clear -A. unfold arriving in A. destruct (next_event_description q) as [[|[]|]|]; try discriminate.
            destruct (q_arr q) as [|[|b] t] eqn:Q; try discriminate. inversion A; subst.
            unfold scheduled. rewrite Q. left; reflexivity. }
          unfold ids. apply in_map. exact X. }
        destruct (held_split _ ND) as (S1 & _). destruct (S1 _ SC) as (X1 & X2).
        destruct RI as (_ & _ & RI). specialize (RI X2 X1).
        destruct RS as (nw & -> & NA & [(NS & NDp & _)|(_ & M1 & M2 & NS & NDp)]).
        -- split; [|split].
           ++ intro X. exists (rows_of (q_data q) (ag_id a)), nw. split; [reflexivity|]. split; [exact RI|].
              assert (DI : ~ In (ag_id a) (ids (in_service q'))).
              { assert (DV : NoDup (held q')).
                { apply (dinv_op ONext q q' IV N Logic.I Logic.I DV0). cbn [run_op]. rewrite E. reflexivity. }
                destruct (held_split _ DV) as (_ & S2 & _). intro Y. exact (S2 _ Y X). }
              apply memb_not in DI. rewrite DI in NS. split; [split; assumption|]. rewrite NA. apply eLe_refl.
           ++ intro X. exists (rows_of (q_data q) (ag_id a)), nw. split; [reflexivity|]. split; [exact RI|].
              apply memb_in in X. rewrite X in NS. split; [split; [rewrite NA, NS; apply eLe_refl | exact NDp]|].
              rewrite NS. apply eLe_refl.
           ++ intros _ X. apply Forall_app. split; [exact RI|]. constructor; [|constructor].
              right. apply memb_not in X. rewrite X in NS. split; assumption.
        -- apply memb_not in M1. apply memb_not in M2. split; [tauto|]. split; [tauto|].
           intros _ _. apply Forall_app. split; [exact RI|]. constructor; [|constructor].
           left. split; rewrite ?NA, ?NS, ?NDp; apply eLe_refl.
      * rewrite RS. apply aid_eqb_neq in EI. destruct MS as (_ & MS). destruct MS as (M1 & M2); [congruence|].
        eapply visit_ext; [exact M1|exact M2|]. eapply visit_later; eauto.
    + destruct r as [a|].
      * destruct MS as (MS1 & MS2). destruct (aid_eqb (ag_id a) i) eqn:EI.
        -- apply aid_eqb_eq in EI. destruct (MS1 (eq_sym EI)) as (X1 & X2 & X3). rewrite RS.
           eapply visit_end; [exact TM|exact X1|exact X2|exact X3|exact RI].
        -- apply aid_eqb_neq in EI. specialize (MS2 ltac:(congruence)). destruct (began q q' i) eqn:B.
           ++ rewrite RS. apply began_true in B as (B1 & _). destruct MS2 as (X1 & X2).
              eapply visit_begin; [exact TM|exact X1|exact X2|exact B1|exact RI].
           ++ rewrite RS. destruct MS2 as (M1 & M2). eapply visit_ext; [exact M1|exact M2|]. eapply visit_later; eauto.
      * subst q'. exact RI.
  - destruct (op_other o q q' NX NC NCD IV N ND H i) as (MS & RS & _). rewrite (RS CL).
    destruct (began q q' i) eqn:B.
    + apply began_true in B as (B1 & _). destruct MS as (X1 & X2).
      eapply visit_begin; [exact TM|exact X1|exact X2|exact B1|exact RI].
    + destruct MS as (M1 & M2). eapply visit_ext; [exact M1|exact M2|]. eapply visit_later; eauto.
Qed.


Lemma rinv_op o q q' : forward (q_cfg q) -> qinv q -> c_class (q_cfg q) <> CNull -> dinv q -> tinv q ->
  no_past q o -> collecting q o -> rinv q -> run_op o q = Ok q' -> rinv q'.
Proof.
  intros FW IV N DV0 TI NP CO (RI1 & RI2) H.
  assert (NC : no_clear o) by (destruct o; try exact Logic.I; destruct CO).
  assert (OD : (exists b, o = OCollect b) \/ o = OClearData \/ ((forall b, o <> OCollect b) /\ o <> OClearData)).
  { destruct o; eauto; right; right; split; intros; discriminate. }
  destruct OD as [(b & ->)|[->|(NB & NCD)]].
  - cbn [run_op] in H. inversion H; subst. unfold rinv, waiting, in_service. qc. cbn in CO.
    destruct CO as [->|CO].
    + split; intro X; [apply RI1; exact X | apply RI2; exact X].
    + assert (NO := nobody_visits q CO).
      assert (EN : forall i, Forall row_ended (rows_of (q_data q) i)).
      { destruct (q_collect q); [|auto]. intro i. destruct (RI1 eq_refl i) as (_ & _ & C). apply C; apply NO. }
      split; intros _ i; [|apply EN]. split; [intro X; destruct (proj1 (NO i) X)|].
      split; [intro X; destruct (proj2 (NO i) X)|]. intros _ _. apply EN.
  - cbn [run_op] in H. inversion H; subst. unfold rinv, waiting, in_service. qc.
    assert (NO := nobody_visits q CO). split; intros _ i; [|constructor].
    split; [intro X; destruct (proj1 (NO i) X)|]. split; [intro X; destruct (proj2 (NO i) X)|]. intros _ _. constructor.
  - destruct (collect_op o q q' IV N NB H) as (C1 & C2). specialize (C2 NC NCD). unfold rinv. rewrite C1. split; intro X.
    + exact (rinv_on o q q' FW IV N DV0 TI NP NC NCD X (RI1 X) H).
    + rewrite (C2 X). apply RI2. exact X.
Qed.


Lemma rows_ordered c s col n q : c_class c <> CNull -> forward c -> reach careful (new_queue c s col n) q ->
  forall i, let rows := rows_of (q_data q) i in
  (~ In i (ids (waiting q)) -> ~ In i (ids (in_service q)) -> Forall row_ended rows) /\
  (q_collect q = false -> Forall row_ended rows) /\
  (q_collect q = true ->
  (In i (ids (waiting q)) -> exists old l, rows = old ++ [l] /\ Forall row_ended old /\ row_waiting l /\ eLe (r_arr l) (q_now q)) /\
  (In i (ids (in_service q)) -> exists old l, rows = old ++ [l] /\ Forall row_ended old /\ row_in_service l /\ eLe (r_srv l) (q_now q))).
Proof.
  intros N FW R.
  assert (X : rinv q).
  { induction R as [|q o q' R IH OK H].
    - split; intros _ i; [|constructor]. split; [intros []|]. split; [intros []|]. intros _ _. constructor.
    - destruct OK as (NP & F & CO).
      assert (R1 : reach no_past (new_queue c s col n) q) by (eapply reach_weaken; [|exact R]; intros ? ? (? & _); assumption).
      assert (R2 : reach (fun q o => no_clear o /\ fresh q o) (new_queue c s col n) q).
      { eapply reach_weaken; [|exact R]. intros ? o0 (_ & F' & CO'). split; [|exact F']. destruct o0; try exact Logic.I; destruct CO'. }
      assert (TI := tinv_reach _ _ _ _ _ FW R1). assert (DI := dinv_reach _ _ _ _ _ N R2).
      apply basics_reach in R as [I C _ _ _]. subst c. eapply rinv_op; eauto. }
  destruct X as (X1 & X2). intros i rows. split; [|split].
  - intros A B. destruct (q_collect q); [|apply X2; reflexivity]. apply (X1 eq_refl i); assumption.
  - intro A. apply X2. exact A.
  - intro A. specialize (X1 A i). split; apply X1.
Qed.

(** ** C58 *)

Lemma times_same o q r q' : agents_of (q_dep q') = agents_of (q_dep q) -> agents_of (q_arr q') = agents_of (q_arr q) ->
  q_is q' = q_is q -> departed1 (o, q, r, q') = [] -> times_step o q r q'.
Proof.
  intros A B C D. unfold times_step, in_service, scheduled.
  change agents_in with agents_of. rewrite A, B, C, D. split; [auto|]. split; [cbn; lia|auto].
Qed.

Lemma draw_sched q q2 new : draw q q2 new -> forall b, In b (agents_of (q_arr q2)) ->
  In b (agents_of (q_arr q)) \/ ag_id b = (c_idx (q_cfg q), q_oarr q) /\
     exists n, (q_ia q <= n < q_ia q2)%nat /\ ag_time b = c_arr (q_cfg q) n (q_now q).
Proof.
  intros (tm & act & h & i & ct & -> & W & P & C) b X. qch X.
  apply (in_perm_cons _ _ _ P) in X. apply in_app_or in X as [X|X]; [|auto].
  destruct C as [(-> & _)|[(-> & _)|(a & -> & _ & -> & _ & _ & _ & IA & T & _)]]; [destruct X|destruct X|].
  destruct X as [<-|[]]. right. split; [exact IA|]. qc. exists (q_ia q). split; [lia | exact T].
Qed.

Lemma pop_in h a h' b : wfh h -> pop_agent h = Ok (a, h') -> In b (agents_of h') -> In b (agents_of h).
Proof.
  intros W P X. apply pop_agent_Ok in P as (_ & P & _); [|exact W].
  apply (in_perm_cons _ _ _ (Permutation_sym P)). right; exact X.
Qed.
Lemma pop_len h a h' : wfh h -> pop_agent h = Ok (a, h') -> length (agents_of h) = S (length (agents_of h')).
Proof. intros W P. apply pop_agent_Ok in P as (_ & P & _); [|exact W]. apply (Permutation_length P). Qed.

Lemma times_op o q r q' : qinv q -> c_class (q_cfg q) <> CNull -> no_clear o -> (forall t, o <> ODelay t) ->
  step o q = Ok (r, q') -> times_step o q r q'.
Proof.
  intros IV N NC ND H. assert (Wa := qi_arr _ IV). assert (Wd := qi_dep _ IV).
  destruct o; cbn [step run_op] in H; try (mbind H; inversion H; subst; clear H; rename E into H).
  - apply next_event_event in H as (qe & PE & EV); [|exact Wa|exact Wd].
    destruct (pre_event_net _ _ PE) as (nd & ->).
    destruct EV as [ID _ -> ->|_ LT R|_ LE NI CAP _ R|_ NS LE NI CAP _ R|CR LE NI RT _ R|CR LE NI RT _ CAP R].
    + apply times_same; reflexivity.
    + apply qs_departure_Ok in R; [|exact Wa|exact Wd].
      destruct R as (a & h & a' & h' & line' & n & d1 & d & s & o & PA & -> & I1 & T1 & K1 & B1 & -> & D1 & Wh' & SO & ST).
      qch PA. qch ST. unfold times_step, in_service, scheduled. change agents_in with agents_of. qc.
      assert (PL := pop_len _ _ _ Wd PA). unfold departed1. cbn [length].
      destruct ST as [(_ & -> & -> & -> & ->)|(_ & b & b' & LB & I2 & T2 & _ & Pb & -> & D2)].
      * split; [intros x X; left; eapply pop_in; eauto|]. split; [lia|auto].
      * split; [|split; [apply Permutation_length in Pb; cbn [length] in Pb; lia|auto]].
        intros x X. apply (in_perm_cons _ _ _ Pb) in X as [<-|X]; [|left; eapply pop_in; eauto].
        right. exists (q_is q). split; [lia|exact T2].
    + apply qs_arrival_Ok in R; [|exact N|exact Wa|exact Wd].
      destruct R as (a & h & q2 & new & h' & line' & n & d1 & d & s1 & o1 & s & o & a1 & -> & PA & DR & I1 & T1 & K1 & -> & D1 & Wh' & SO1 & SO & C).
      qch PA. qch C. unfold times_step, in_service, scheduled. change agents_in with agents_of. qc.
      assert (DS := draw_sched _ _ _ DR). qch DS. apply draw_new in DR. qch DR.
      destruct DR as (_ & _ & F1 & F2 & _ & _ & F3 & F4 & _ & _ & F5 & F6 & F7 & _). rewrite F7. cbn [length departed1].
      split; [|split].
      * destruct C as [(C1 & -> & -> & (a2 & I2 & T2 & K2 & P2) & D)|(C1 & -> & -> & -> & _)]; [|auto].
        intros x X. apply (in_perm_cons _ _ _ P2) in X as [<-|X]; [|auto].
        right. exists (q_is q). split; [lia | exact T2].
      * destruct C as [(C1 & -> & -> & (a2 & I2 & T2 & K2 & P2) & D)|(C1 & -> & -> & -> & _)]; [|lia].
        apply Permutation_length in P2. cbn [length] in P2. lia.
      * intros b X. apply DS in X as [X|(X & Y)]; [left; eapply pop_in; eauto|auto].
    + apply loss_blocked_Ok in R; [|exact N|exact Wa|exact Wd].
      destruct R as (a & h & q2 & new & d & -> & PA & DR & -> & D). qch PA.
      unfold times_step, in_service, scheduled. change agents_in with agents_of. qc.
      assert (DS := draw_sched _ _ _ DR). qch DS. apply draw_new in DR. qch DR.
      destruct DR as (_ & _ & F1 & F2 & _ & _ & F3 & F4 & F8 & _ & F5 & F6 & F7 & F9 & _). rewrite F7, F2, F9. cbn [length departed1].
      split; [auto|]. split; [|intros b X; apply DS in X as [X|(X & Y)]; [left; eapply pop_in; eauto|auto]].
      lia.
    + apply rq_return_Ok in R; [|exact Wa|exact Wd].
      destruct R as (a & h & o & d & -> & PA & Wh & -> & O & D).
      split; [auto|]. split; [change (length (agents_of (q_dep q)) + 0 + q_is q = length (agents_of (q_dep q)) + q_is q)%nat; lia|]. intros b X. left. exact (pop_in _ _ _ _ Wa PA X).
    + apply rq_blocked_Ok in R; [|exact Wa|exact Wd].
      destruct R as (a & h & d & -> & PA & Wh & -> & D).
      split; [auto|]. split; [change (length (agents_of (q_dep q)) + 0 + q_is q = length (agents_of (q_dep q)) + q_is q)%nat; lia|]. intros b X. left. exact (pop_in _ _ _ _ Wa PA X).
  - unfold set_active in H. destruct (q_active q); [inversion H; subst; apply times_same; reflexivity|].
    assert (H' : add_arrival_new (set_q_active true q) = Ok q').
    { unfold add_arrival_self in H. qch H. destruct (c_class (q_cfg q)); congruence. }
    clear H. apply add_arrival_new_Ok in H'; [|exact Wa|exact Wd]. cbv zeta in H'. qch H'.
    destruct H' as [(_ & ->)|[(_ & _ & _ & ->)|(_ & _ & a & h & act & -> & IA & T & _ & _ & _ & W & P & _)]];
      try (apply times_same; reflexivity).
    split; [auto|]. split; [change (length (agents_of (q_dep q)) + 0 + q_is q = length (agents_of (q_dep q)) + q_is q)%nat; lia|]. intros b X. change (In b (agents_of h)) in X.
    apply (in_perm_cons _ _ _ P) in X as [<-|X]; [|auto]. right; right. split; [exact IA|].
    qc. exists (q_ia q). split; [lia | exact T].
  - inversion H; subst. apply times_same; reflexivity.
  - apply servers_more in H as (k & new & LE & A & L & NW & IA & CO & CF & P & M1 & M2 & M3 & M4 & M5); [|exact IV|exact N].
    split; [|split].
    + intros b X. change (In b (agents_of (q_dep q'))) in X. apply (in_perm_cons _ _ _ P) in X.
      apply in_app_or in X as [X|X]; [|auto]. right.
      assert (Y : In (ag_time b) (map ag_time new)) by (apply in_map; exact X).
      rewrite M3 in Y. apply in_map_iff in Y as (j & Y & Z). apply in_seq in Z.
      exists (j + q_is q)%nat. rewrite NW. split; [lia | congruence].
    + apply Permutation_length in P. rewrite app_length in P.
      change (length (agents_of (q_dep q')) + 0 + q_is q = length (agents_of (q_dep q)) + q_is q')%nat. lia.
    + unfold scheduled. rewrite A. auto.
  - exfalso. eapply ND. reflexivity.
  - apply add_arrival_Ok in H as (h & -> & W & P); [|exact N|exact Wa|exact Wd].
    split; [auto|]. split; [change (length (agents_of (q_dep q)) + 0 + q_is q = length (agents_of (q_dep q)) + q_is q)%nat; lia|]. intros b X. change (In b (agents_of h)) in X.
    apply (in_perm_cons _ _ _ P) in X as [<-|X]; auto.
  - inversion H; subst. apply times_same; reflexivity.
  - destruct NC.
  - inversion H; subst. apply times_same; reflexivity.
Qed.
