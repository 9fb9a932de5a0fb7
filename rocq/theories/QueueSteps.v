(** * QueueSteps: next_event as a choice among six kinds of event *)
From Coq Require Import List ZArith QArith Lia Bool Permutation Arith.
From Verif Require Import Base Heap HeapProofs Queue QueueEffects QueueEvents.
Import ListNotations.
Open Scope Z_scope.

(** The queue on which the event is performed: an InfoQueue first takes
    over the information of the arriving agent. *)
Definition pre_event (q qe : queue) : Prop :=
  qe = q \/ (c_class (q_cfg q) = CInfo /\ exists nd a t, q_arr q = Ag a :: t /\
             zip_rows info_give (q_net q) (ag_net a) = Ok nd /\ qe = set_q_net nd q).

(** The root of the arrivals is a ResourceAgent with a resource. *)
Definition root_is (q : queue) (P : agent -> Prop) : Prop :=
  exists a t, q_arr q = Ag a :: t /\ P a.

(** At a ResourceQueue only agents without a resource are let in, and only
    while there are fewer agents than servers. *)
Definition res_cond (q : queue) : Prop :=
  c_class (q_cfg q) = CResource ->
  root_is q (fun a => ag_kind a = KResource -> ag_has a = false /\ eLt (Fin (q_nsys q)) (q_servers q)).

Inductive event (q qe : queue) (r : option agent) (q' : queue) : Prop :=
| ev_idle : c_class (q_cfg q) = CNull \/ (hmin (q_arr q) = Inf /\ hmin (q_dep q) = Inf) ->
    qe = q -> q' = q -> r = None -> event q qe r q'
| ev_dep : c_class (q_cfg q) <> CNull -> eLt (hmin (q_dep q)) (hmin (q_arr q)) ->
    qs_departure qe = Ok (r, q') -> event q qe r q'
| ev_arr : c_class (q_cfg q) <> CNull -> eLe (hmin (q_arr q)) (hmin (q_dep q)) -> hmin (q_arr q) <> Inf ->
    (c_class (q_cfg q) <> CServer -> eLt (Fin (q_nsys q)) (eadd (q_servers q) (c_buffer (q_cfg q)))) ->
    res_cond q -> qs_arrival qe = Ok (r, q') -> event q qe r q'
| ev_block : c_class (q_cfg q) <> CNull -> c_class (q_cfg q) <> CServer ->
    eLe (hmin (q_arr q)) (hmin (q_dep q)) -> hmin (q_arr q) <> Inf ->
    eLe (eadd (q_servers q) (c_buffer (q_cfg q))) (Fin (q_nsys q)) ->
    res_cond q -> loss_blocked qe = Ok (r, q') -> event q qe r q'
| ev_return : c_class (q_cfg q) = CResource -> eLe (hmin (q_arr q)) (hmin (q_dep q)) -> hmin (q_arr q) <> Inf ->
    root_is q (fun a => ag_kind a = KResource /\ ag_has a = true) -> qe = q ->
    rq_return q = Ok (r, q') -> event q qe r q'
| ev_rblock : c_class (q_cfg q) = CResource -> eLe (hmin (q_arr q)) (hmin (q_dep q)) -> hmin (q_arr q) <> Inf ->
    root_is q (fun a => ag_kind a = KResource /\ ag_has a = false) -> qe = q ->
    eLe (q_servers q) (Fin (q_nsys q)) ->
    rq_blocked q = Ok (r, q') -> event q qe r q'.

Lemma qs_arrival_None q r q' : qs_arrival q = Ok (r, q') -> r = None.
Proof.
  unfold qs_arrival. intro H. mbind H. destruct x as [a h]. mbind H. mbind H. destruct x0 as [a1 q5].
  destruct (eleb (Fin (q_nsys q5)) (q_servers q5)).
  - mbind H. destruct (call_srv x0 (ag_time a1)) as [t q7]. mbind H. destruct x1 as [a2 q8].
    mbind H. mbind H. inversion H; reflexivity.
  - mbind H. inversion H; reflexivity.
Qed.

Lemma loss_event q qe r q' :
  c_class (q_cfg q) <> CNull -> c_class (q_cfg q) <> CServer ->
  wfh (q_arr q) -> wfh (q_dep q) ->
  (qe = q \/ exists nd, qe = set_q_net nd q) ->
  (hmin (q_arr q) = Inf -> qe = q) ->
  (eLe (hmin (q_arr q)) (hmin (q_dep q)) -> hmin (q_arr q) <> Inf -> res_cond q) ->
  loss_next_event qe = Ok (r, q') -> event q qe r q'.
Proof.
  intros N N2 Wa Wd QE QI RC H.
  assert (F : q_arr qe = q_arr q /\ q_dep qe = q_dep q /\ q_nsys qe = q_nsys q /\
              q_servers qe = q_servers q /\ q_cfg qe = q_cfg q).
  { destruct QE as [->|[nd ->]]; auto. }
  destruct F as (F1 & F2 & F3 & F4 & F5).
  unfold loss_next_event, qs_next_event in H.
  rewrite F1, F2, F3, F4, F5, (wfh_root_time _ Wa), (wfh_root_time _ Wd) in H. cbn [bind] in H.
  destruct (eltb (hmin (q_dep q)) (hmin (q_arr q))) eqn:C1.
  - apply eltb_lt in C1. apply ev_dep; assumption.
  - apply eltb_ge in C1. destruct (eltb (hmin (q_arr q)) Inf) eqn:C2.
    + assert (NI : hmin (q_arr q) <> Inf) by (intro X; rewrite X in C2; discriminate).
      destruct (eltb (Fin (q_nsys q)) (eadd (q_servers q) (c_buffer (q_cfg q)))) eqn:C3.
      * apply eltb_lt in C3. apply ev_arr; auto.
        mbind H. destruct x as [r0 q0]. apply qs_arrival_None in E as R. subst r0.
        inversion H; subst. exact E.
      * apply eltb_ge in C3. apply ev_block; auto.
    + assert (X : hmin (q_arr q) = Inf) by (destruct (hmin (q_arr q)); [discriminate | reflexivity]).
      inversion H; subst. apply ev_idle; auto. right. split; [exact X|].
      rewrite X in C1. destruct (hmin (q_dep q)); [destruct C1 | reflexivity].
Qed.

Lemma next_event_event q r q' :
  wfh (q_arr q) -> wfh (q_dep q) -> next_event q = Ok (r, q') ->
  exists qe, pre_event q qe /\ event q qe r q'.
Proof.
  intros Wa Wd H. unfold next_event in H.
  destruct (c_class (q_cfg q)) eqn:C.
  - exists q. split; [left; reflexivity|]. unfold qs_next_event in H.
    rewrite (wfh_root_time _ Wa), (wfh_root_time _ Wd) in H. cbn [bind] in H.
    assert (N : c_class (q_cfg q) <> CNull) by congruence.
    destruct (eltb (hmin (q_dep q)) (hmin (q_arr q))) eqn:C1.
    + apply eltb_lt in C1. apply ev_dep; assumption.
    + apply eltb_ge in C1. destruct (eltb (hmin (q_arr q)) Inf) eqn:C2.
      * apply ev_arr; auto; [|congruence|intro; congruence]. intro X; rewrite X in C2; discriminate.
      * assert (X : hmin (q_arr q) = Inf) by (destruct (hmin (q_arr q)); [discriminate | reflexivity]).
        inversion H; subst. apply ev_idle; auto. right. split; [exact X|].
        rewrite X in C1. destruct (hmin (q_dep q')); [destruct C1 | reflexivity].
  - exists q. split; [left; reflexivity|]. apply loss_event; auto; try congruence.
  - exists q. split; [left; reflexivity|]. inversion H; subst. apply ev_idle; auto.
  - exists q. split; [left; reflexivity|]. unfold rq_next_event in H.
    assert (LE : (eLe (hmin (q_arr q)) (hmin (q_dep q)) -> hmin (q_arr q) <> Inf -> res_cond q) ->
                 forall r0 q0, loss_next_event q = Ok (r0, q0) -> event q q r0 q0)
      by (intros RC r0 q0 X; apply loss_event; auto; congruence).
    destruct (q_arr q) as [|[|a] t] eqn:QA; [discriminate | apply LE; [|exact H] |].
    { cbn. congruence. }
    assert (RT : forall P : agent -> Prop, P a -> root_is q P) by (intros P X; exists a, t; auto).
    destruct (ag_kind a) eqn:K; try (apply LE; [|exact H]; intros _ _ _; apply RT; congruence).
    rewrite (wfh_root_time _ Wd) in H. cbn [bind] in H.
    destruct (eltb (hmin (q_dep q)) (ag_time a)) eqn:C1.
    { apply LE; [|exact H]. cbn [hmin itime]. apply eltb_lt in C1. intro X.
      exfalso. exact (eLt_irrefl _ (eLt_le_trans _ _ _ C1 X)). }
    apply eltb_ge in C1.
    destruct (eltb (ag_time a) Inf) eqn:C2.
    + assert (NI : hmin (q_arr q) <> Inf)
        by (rewrite QA; cbn [hmin itime]; intro X; rewrite X in C2; discriminate).
      assert (AD : eLe (hmin (q_arr q)) (hmin (q_dep q))) by (rewrite QA; exact C1).
      destruct (ag_has a) eqn:HA.
      * apply ev_return; auto.
      * destruct (eltb (Fin (q_nsys q)) (q_servers q)) eqn:C3.
        -- assert (RC : eLe (hmin (Ag a :: t)) (hmin (q_dep q)) -> hmin (Ag a :: t) <> Inf -> res_cond q).
           { intros _ _ _. apply RT. intros _. apply eltb_lt in C3. auto. }
           apply (LE RC). mbind H. destruct x as [r0 q0]. inversion H; subst. rewrite E.
           assert (E' := E). apply (LE RC) in E'. destruct E' as [? ? ? R|? X|? ? ? ? ? R|? ? ? ? ? ? R|? ? ? ? ? R|? ? ? ? ? ? R].
           ++ rewrite R; reflexivity.
           ++ exfalso. rewrite QA in X. cbn [hmin itime] in X.
              exact (eLt_irrefl _ (eLt_le_trans _ _ _ X C1)).
           ++ apply qs_arrival_None in R. rewrite R; reflexivity.
           ++ unfold loss_blocked in R. mbind R. destruct x as [? ?]. mbind R. mbind R. mbind R.
              inversion R; reflexivity.
           ++ unfold rq_return in R. mbind R. destruct x as [? ?]. mbind R. inversion R; reflexivity.
           ++ unfold rq_blocked in R. mbind R. destruct x as [? ?]. mbind R. inversion R; reflexivity.
        -- apply eltb_ge in C3. apply ev_rblock; auto.
    + inversion H; subst.
      assert (X : ag_time a = Inf) by (destruct (ag_time a); [discriminate | reflexivity]).
      apply ev_idle; auto. right. rewrite QA. cbn [hmin itime]. split; [exact X|].
      rewrite X in C1. destruct (hmin (q_dep q')); [destruct C1 | reflexivity].
  - unfold info_next_event in H. destruct (q_arr q) as [|i t] eqn:QA; [discriminate|].
    rewrite (wfh_root_time _ Wd) in H. cbn [bind] in H.
    assert (N : c_class (q_cfg q) <> CNull) by congruence.
    assert (N2 : c_class (q_cfg q) <> CServer) by congruence.
    rewrite <- QA in Wa.
    assert (RC : eLe (hmin (q_arr q)) (hmin (q_dep q)) -> hmin (q_arr q) <> Inf -> res_cond q) by (intros _ _ X; congruence).
    destruct (eltb (itime i) (hmin (q_dep q))) eqn:C1.
    + mbind H. rename x into qe. exists qe.
      unfold extract_information in E. destruct i as [|a]; [discriminate|].
      assert (FIN : hmin (q_arr q) <> Inf) by (rewrite QA; simpl in *; intro X; rewrite X in C1; discriminate).
      destruct (ag_kind a).
      1-3: inversion E; subst; split; [left; reflexivity|]; apply loss_event; auto.
      mbind E. inversion E; subst qe. split.
      * right. split; [exact C|]. exists x, a, t. auto.
      * apply loss_event; auto. { right; eauto. } intro X; congruence.
    + cbn [bind] in H. exists q. split; [left; reflexivity|]. apply loss_event; auto.
Qed.
