(** * QueueLoss: a LossQueue with an infinite buffer is a QueueServer *)
From Coq Require Import List ZArith QArith Lia Bool Permutation Arith.
From Verif Require Import Base Heap HeapProofs Queue QueueEffects QueueEvents SpecQueue.
Import ListNotations.
Open Scope Z_scope.

Definition wm {A B} (f : A -> B) (r : res A) : res B := match r with Ok x => Ok (f x) | Err e => Err e end.
Definition wp {A} (p : A * queue) : A * queue := (fst p, as_server (snd p)).

(** [q] is a LossQueue with an infinite buffer that has blocked nobody. *)
Definition unb (q : queue) : Prop := c_class (q_cfg q) = CLoss /\ c_buffer (q_cfg q) = Inf /\ q_blocked q = 0.

Definition WQ (f : queue -> res queue) (q : queue) : Prop :=
  unb q -> f (as_server q) = wm as_server (f q) /\ (forall q', f q = Ok q' -> unb q').
Definition WP {A} (f : queue -> res (A * queue)) (q : queue) : Prop :=
  unb q -> f (as_server q) = wm wp (f q) /\ (forall a q', f q = Ok (a, q') -> unb q').

Lemma w_update_time q : WQ update_time q.
Proof.
  intro U. unfold update_time. change (q_arr (as_server q)) with (q_arr q); change (q_dep (as_server q)) with (q_dep q). destruct (root_time (q_arr q)); cbn; [|split; [reflexivity|congruence]].
  destruct (root_time (q_dep q)); cbn; split; try reflexivity; try congruence. intros q' H; injection H as <-. exact U.
Qed.

Lemma w_update_time_if q : WQ update_time_if q.
Proof.
  intro U. unfold update_time_if. change (q_arr (as_server q)) with (q_arr q); change (q_dep (as_server q)) with (q_dep q). destruct (root_time (q_arr q)); cbn; [|split; [reflexivity|congruence]].
  destruct (root_time (q_dep q)); cbn; [|split; [reflexivity|congruence]].
  destruct (eltb _ _); (split; [reflexivity|]; intros q' H; injection H as <-; exact U).
Qed.

Lemma w_dlast_if i f q : WQ (fun q => dlast_if q i f) q.
Proof.
  intro U. unfold dlast_if. change (q_collect (as_server q)) with (q_collect q); change (q_data (as_server q)) with (q_data q). destruct (q_collect q); [|split; [reflexivity|intros q' H; injection H as <-; exact U]].
  destruct (dget (q_data q) i); [|split; [reflexivity|intros q' H; injection H as <-; exact U]].
  destruct (dlast (q_data q) i f); (split; [reflexivity|intros q' H; try discriminate; injection H as <-; exact U]).
Qed.

Lemma w_action a q : WP (queue_action a) q.
Proof.
  intro U. assert (C := proj1 U). unfold queue_action, resource_action, info_action.
  change (c_class (q_cfg (as_server q))) with CServer. rewrite C. cbn.
  destruct (ag_kind a); (split; [reflexivity|intros a' q' H; injection H as <- <-; exact U]).
Qed.

(** One step of a paired computation. *)
Lemma wq_bind {B} (f : queue -> res queue) (g g' : queue -> res B) (h : B -> B) (P : B -> Prop) q :
  WQ f q -> unb q -> (forall q1, unb q1 -> g' (as_server q1) = wm h (g q1) /\ (forall y, g q1 = Ok y -> P y)) ->
  bind (f (as_server q)) g' = wm h (bind (f q) g) /\ (forall y, bind (f q) g = Ok y -> P y).
Proof.
  intros F U G. destruct (F U) as (-> & F2). destruct (f q); cbn; [apply G; apply F2; reflexivity|]. split; [reflexivity|congruence].
Qed.
Lemma wp_bind {A B} (f : queue -> res (A * queue)) (g g' : A * queue -> res B) (h : B -> B) (P : B -> Prop) q :
  WP f q -> unb q -> (forall a q1, unb q1 -> g' (a, as_server q1) = wm h (g (a, q1)) /\ (forall y, g (a, q1) = Ok y -> P y)) ->
  bind (f (as_server q)) g' = wm h (bind (f q) g) /\ (forall y, bind (f q) g = Ok y -> P y).
Proof.
  intros F U G. destruct (F U) as (-> & F2). destruct (f q) as [[a q1]|]; cbn; [apply G; eapply F2; reflexivity|]. split; [reflexivity|congruence].
Qed.
Lemma wx_bind {A B} (x : res A) (g g' : A -> res B) (h : B -> B) (P : B -> Prop) :
  (forall a, g' a = wm h (g a) /\ (forall y, g a = Ok y -> P y)) ->
  bind x g' = wm h (bind x g) /\ (forall y, bind x g = Ok y -> P y).
Proof. intro G. destruct x; cbn; [apply G|]. split; [reflexivity|congruence]. Qed.

Lemma wp_of {A} (f : queue -> res (A * queue)) q :
  (unb q -> f (as_server q) = wm wp (f q) /\ (forall y, f q = Ok y -> unb (snd y))) -> WP f q.
Proof. intros F U. destruct (F U) as (F1 & F2). split; [exact F1|]. intros a q' H. exact (F2 _ H). Qed.

Lemma w_service q : WQ service_from_queue q.
Proof.
  intro U. unfold service_from_queue. change (q_line (as_server q)) with (q_line q).
  destruct (q_line q) as [|a line]; [split; [reflexivity|congruence]|].
  change (set_q_line line (as_server q)) with (as_server (set_q_line line q)).
  change (q_now (as_server (set_q_line line q))) with (q_now (set_q_line line q)).
  apply (wq_bind (fun q1 => dlast_if q1 (ag_id a) (row_set_srv (q_now (set_q_line line q))))).
  - apply w_dlast_if.
  - exact U.
  - intros q2 U2. unfold call_srv. cbv zeta iota beta.
    change (c_srv (q_cfg (as_server q2)) (q_is (as_server q2)) (q_now (as_server q2))) with (c_srv (q_cfg q2) (q_is q2) (q_now q2)).
    change (set_q_is (S (q_is (as_server q2))) (as_server q2)) with (as_server (set_q_is (S (q_is q2)) q2)).
    apply (wp_bind (queue_action (set_ag_time (c_srv (q_cfg q2) (q_is q2) (q_now q2)) a))).
    + apply w_action.
    + exact U2.
    + intros a' q4 U4. cbv iota beta. change (q_dep (as_server q4)) with (q_dep q4). apply wx_bind. intro h.
      split; [reflexivity|]. intros y H; injection H as <-. exact U4.
Qed.

Lemma w_new q : WQ add_arrival_new q.
Proof.
  intro U. unfold add_arrival_new. assert (C := proj1 U).
  change (c_class (q_cfg (as_server q))) with CServer. rewrite C. cbn [is_info].
  change (eleb (q_next_ct (as_server q)) (q_now (as_server q))) with (eleb (q_next_ct q) (q_now q)).
  destruct (eleb (q_next_ct q) (q_now q)); [|apply w_update_time_if; exact U].
  change (c_arr (q_cfg (as_server q)) (q_ia (as_server q)) (q_now (as_server q))) with (c_arr (q_cfg q) (q_ia q) (q_now q)).
  change (c_deactive_t (q_cfg (as_server q))) with (c_deactive_t (q_cfg q)). cbv zeta.
  destruct (eleb (c_deactive_t (q_cfg q)) (c_arr (q_cfg q) (q_ia q) (q_now q))).
  - split; [reflexivity|]. intros q' H; injection H as <-. exact U.
  - set (t := c_arr (q_cfg q) (q_ia q) (q_now q)).
    assert (NA : new_agent (as_server (set_q_total (q_total (set_q_ia (S (q_ia q)) (set_q_next_ct t q)) + 1) (set_q_ia (S (q_ia q)) (set_q_next_ct t q)))) t
                 = new_agent (set_q_total (q_total (set_q_ia (S (q_ia q)) (set_q_next_ct t q)) + 1) (set_q_ia (S (q_ia q)) (set_q_next_ct t q))) t).
    { unfold new_agent. change (c_class (q_cfg (as_server (set_q_total (q_total (set_q_ia (S (q_ia q)) (set_q_next_ct t q)) + 1) (set_q_ia (S (q_ia q)) (set_q_next_ct t q)))))) with CServer.
      qc. rewrite C. reflexivity. }
    change (set_q_total (q_total (set_q_ia (S (q_ia (as_server q))) (set_q_next_ct t (as_server q))) + 1) (set_q_ia (S (q_ia (as_server q))) (set_q_next_ct t (as_server q))))
      with (as_server (set_q_total (q_total (set_q_ia (S (q_ia q)) (set_q_next_ct t q)) + 1) (set_q_ia (S (q_ia q)) (set_q_next_ct t q)))).
    rewrite NA. clear NA. apply wx_bind. intro a. 
    apply (wx_bind (push_item (q_arr (set_q_total (q_total (set_q_ia (S (q_ia q)) (set_q_next_ct t q)) + 1) (set_q_ia (S (q_ia q)) (set_q_next_ct t q)))) a)). intro h.
    match goal with |- update_time_if (if ?b then _ else _) = wm _ (update_time_if (if ?b' then _ else _)) /\ _ => change b' with b; destruct b end.
    + match goal with |- _ = wm _ (update_time_if ?x) /\ _ => exact (w_update_time_if x U) end.
    + match goal with |- _ = wm _ (update_time_if ?x) /\ _ => exact (w_update_time_if x U) end.
Qed.

Lemma w_self q : WQ add_arrival_self q.
Proof.
  intro U. unfold add_arrival_self. assert (C := proj1 U).
  change (c_class (q_cfg (as_server q))) with CServer. rewrite C. apply w_new. exact U.
Qed.

Lemma w_draw q : WQ (fun q => if q_active q then add_arrival_self q else Ok q) q.
Proof.
  intro U. change (q_active (as_server q)) with (q_active q). destruct (q_active q); [apply w_self; exact U|].
  split; [reflexivity|]. intros q' H; injection H as <-. exact U.
Qed.

Lemma w_departure q : WP qs_departure q.
Proof.
  apply wp_of. intro U. unfold qs_departure. change (q_dep (as_server q)) with (q_dep q). apply wx_bind. intros [a h]. cbv zeta.
  set (q1 := set_q_departed (q_departed q + 1) (set_q_nsys (q_nsys q - 1) (set_q_total (q_total q - 1) (set_q_now (ag_time a) (set_q_dep h q))))).
  apply (wq_bind (fun q1' => dlast_if q1' (ag_id a) (row_set_dep (q_now q1))) _ _ _ _ q1); [apply w_dlast_if|exact U|].
  intros q2 U2. change (q_line (as_server q2)) with (q_line q2). change (q_nsys (as_server q2)) with (q_nsys q2).
  change (q_servers (as_server q2)) with (q_servers q2).
  apply (wq_bind (fun q2' => if (0 <? Z.of_nat (length (q_line q2))) && eltb (Fin (q_nsys q2 - Z.of_nat (length (q_line q2)))) (q_servers q2)
                            then service_from_queue q2' else Ok q2')); [|exact U2|].
  - intro U2'. destruct (_ && _); [apply w_service; exact U2|]. split; [reflexivity|]. intros q' H; injection H as <-. exact U2.
  - intros q3 U3. apply (wp_bind (queue_action a)); [apply w_action|exact U3|]. intros a' q4 U4. cbv iota beta.
    apply (wq_bind update_time); [apply w_update_time|exact U4|]. intros q5 U5. split; [reflexivity|]. intros y H; injection H as <-. exact U5.
Qed.

Lemma w_arrival q : WP qs_arrival q.
Proof.
  apply wp_of. intro U. unfold qs_arrival. change (q_arr (as_server q)) with (q_arr q). apply wx_bind. intros [a h]. cbv zeta.
  apply (wq_bind (fun q => if q_active q then add_arrival_self q else Ok q) _ _ _ _ (set_q_now (ag_time a) (set_q_arr h q))); [apply w_draw|exact U|].
  intros q2 U2.
  set (q3 := set_q_narr (q_narr q2 + 1) (set_q_nsys (q_nsys q2 + 1) q2)).
  change (set_q_narr (q_narr (as_server q2) + 1) (set_q_nsys (q_nsys (as_server q2) + 1) (as_server q2))) with (as_server q3).
  change (q_nsys (as_server q3)) with (q_nsys q3). change (q_servers (as_server q3)) with (q_servers q3).
  change (q_data (as_server q3)) with (q_data q3). change (q_line (as_server q3)) with (q_line q3). change (q_collect (as_server q3)) with (q_collect q3).
  match goal with |- context [set_q_data ?d (as_server q3)] => set (dd := d); 
    change (if q_collect q3 then set_q_data dd (as_server q3) else as_server q3) with (if q_collect q3 then as_server (set_q_data dd q3) else as_server q3) end.
  replace (if q_collect q3 then as_server (set_q_data dd q3) else as_server q3) with (as_server (if q_collect q3 then set_q_data dd q3 else q3)) by (destruct (q_collect q3); reflexivity).
  assert (U4 : unb (if q_collect q3 then set_q_data dd q3 else q3)) by (destruct (q_collect q3); exact U2).
  set (q4 := if q_collect q3 then set_q_data dd q3 else q3) in *. clearbody q4.
  apply (wp_bind (queue_action a)); [apply w_action|exact U4|]. intros a1 q5 U5. cbv iota beta.
  change (q_nsys (as_server q5)) with (q_nsys q5). change (q_servers (as_server q5)) with (q_servers q5).
  destruct (eleb (Fin (q_nsys q5)) (q_servers q5)).
  - apply (wq_bind (fun q5 => if q_collect q5 then let* d := dlast (q_data q5) (ag_id a1) (row_set_srv (ag_time a1)) in Ok (set_q_data d q5) else Ok q5)).
    + intro U5'. change (q_collect (as_server q5)) with (q_collect q5); change (q_data (as_server q5)) with (q_data q5). destruct (q_collect q5); [|split; [reflexivity|intros q' H; injection H as <-; exact U5]].
      destruct (dlast _ _ _); (split; [reflexivity|intros q' H; try discriminate; injection H as <-; exact U5]).
    + exact U5.
    + intros q6 U6. unfold call_srv. cbv iota beta.
      change (c_srv (q_cfg (as_server q6)) (q_is (as_server q6)) (ag_time a1)) with (c_srv (q_cfg q6) (q_is q6) (ag_time a1)).
      change (set_q_is (S (q_is (as_server q6))) (as_server q6)) with (as_server (set_q_is (S (q_is q6)) q6)).
      apply (wp_bind (queue_action (set_ag_time (c_srv (q_cfg q6) (q_is q6) (ag_time a1)) a1))); [apply w_action|exact U6|].
      intros a2 q8 U8. cbv iota beta. change (q_dep (as_server q8)) with (q_dep q8). apply wx_bind. intro h2.
      apply (wq_bind update_time _ _ _ _ (set_q_dep h2 q8)); [apply w_update_time|exact U8|].
      intros q9 U9. split; [reflexivity|]. intros y H; injection H as <-. exact U9.
  - apply (wq_bind update_time _ _ _ _ (set_q_line (q_line q5 ++ [a1]) q5)); [apply w_update_time|exact U5|].
    intros q9 U9. split; [reflexivity|]. intros y H; injection H as <-. exact U9.
Qed.

Lemma w_qs_next q : WP qs_next_event q.
Proof.
  apply wp_of. intro U. unfold qs_next_event. change (q_arr (as_server q)) with (q_arr q). change (q_dep (as_server q)) with (q_dep q).
  apply wx_bind. intro ta. apply wx_bind. intro td. destruct (eltb td ta).
  - destruct (w_departure q U) as (W1 & W2). split; [exact W1|]. intros [a q'] H. eapply W2; eauto.
  - destruct (eltb ta Inf).
    + destruct (w_arrival q U) as (W1 & W2). split; [exact W1|]. intros [a q'] H. eapply W2; eauto.
    + split; [reflexivity|]. intros y H; injection H as <-. exact U.
Qed.

(** With an infinite buffer LossQueue.next_event is QueueServer.next_event. *)
Lemma qs_arrival_none q r q' : qs_arrival q = Ok (r, q') -> r = None.
Proof.
  unfold qs_arrival. intro H. mbind H. destruct x as [a h]. mbind H. mbind H. destruct x0 as [a1 q5].
  destruct (eleb (Fin (q_nsys q5)) (q_servers q5)).
  - mbind H. destruct (call_srv _ _). mbind H. destruct x1 as [a2 q8]. mbind H. mbind H. congruence.
  - mbind H. congruence.
Qed.

Lemma loss_inf q : c_buffer (q_cfg q) = Inf -> loss_next_event q = qs_next_event q.
Proof.
  intro B. unfold loss_next_event, qs_next_event. destruct (root_time (q_arr q)) as [ta|]; [cbn [bind]|reflexivity].
  destruct (root_time (q_dep q)) as [td|]; [cbn [bind]|reflexivity]. destruct (eltb td ta); [reflexivity|].
  destruct (eltb ta Inf); [|reflexivity]. rewrite B. destruct (q_servers q); cbn [eadd eltb].
  all: destruct (qs_arrival q) as [[r q']|] eqn:E; cbn; [apply qs_arrival_none in E as ->; reflexivity|reflexivity].
Qed.

Lemma w_step o q : WP (step o) q.
Proof.
  apply wp_of. intro U. assert (C := proj1 U). assert (B := proj1 (proj2 U)).
  assert (L : forall f, WQ f q -> (let* q' := f (as_server q) in Ok (@None agent, q')) = wm wp (let* q' := f q in Ok (None, q')) /\
                     (forall y, (let* q' := f q in Ok (@None agent, q')) = Ok y -> unb (snd y))).
  { intros f F. apply (wq_bind f); [exact F|exact U|]. intros q1 U1. split; [reflexivity|]. intros y H; injection H as <-. exact U1. }
  destruct o; cbn [step].
  - unfold next_event. change (c_class (q_cfg (as_server q))) with CServer. rewrite C, (loss_inf q B).
    destruct (w_qs_next q U) as (W1 & W2). split; [exact W1|]. intros [a q'] H. eapply W2; eauto.
  - apply (L (run_op OActive)). intro U'. cbn [run_op]. unfold set_active. change (q_active (as_server q)) with (q_active q).
    destruct (q_active q); [split; [reflexivity|intros q' H; injection H as <-; exact U]|]. refine (w_self (set_q_active true q) _). exact U.
  - apply (L (run_op OInactive)). intro U'. split; [reflexivity|intros q' H; injection H as <-; exact U].
  - apply (L (run_op (OServers n))). intro U'. cbn [run_op]. unfold set_num_servers. change (c_class (q_cfg (as_server q))) with CServer. rewrite C.
    unfold qs_set_num_servers. change (q_line (as_server q)) with (q_line q). change (q_servers (as_server q)) with (q_servers q).
    assert (RS : forall k, WQ (repeat_service k) q).
    { intro k. clear U'. revert U. generalize q as q0. induction k; intros q0 U' _.
      - split; [reflexivity|intros q' H; injection H as <-; exact U'].
      - cbn [repeat_service]. apply (wq_bind service_from_queue); [apply w_service|exact U'|]. intros q1 U1. apply IHk; exact U1. }
    assert (GO : forall m k, WQ (fun q => let* q1 := repeat_service (Z.to_nat k) q in let* q2 := if 0 <? k then update_time q1 else Ok q1 in Ok (set_q_servers m q2)) q).
    { intros m k _. apply (wq_bind (repeat_service (Z.to_nat k))); [apply RS|exact U|]. intros q1 U1.
      apply (wq_bind (fun q1 => if 0 <? k then update_time q1 else Ok q1)); [|exact U1|].
      - intros _. destruct (0 <? k); [apply w_update_time; exact U1|]. split; [reflexivity|intros q' H; injection H as <-; exact U1].
      - intros q2 U2. split; [reflexivity|intros q' H; injection H as <-; exact U2]. }
    destruct n.
    + destruct (z <=? 0); [split; [reflexivity|congruence]|]. destruct (q_servers q); apply (GO _ _ U).
    + destruct (q_servers q); [apply (GO _ _ U)|split; [reflexivity|congruence]].
    + split; [reflexivity|congruence].
  - apply (L (run_op (ODelay t))). intro U'. cbn [run_op]. unfold delay_service. change (c_class (q_cfg (as_server q))) with CServer. rewrite C.
    change (q_dep (as_server q)) with (q_dep q). destruct (1 <? length (q_dep q))%nat; [|split; [reflexivity|intros q' H; injection H as <-; exact U]].
    destruct (heappop itime (q_dep q)) as [[[|a] h]|]; [split; [reflexivity|congruence]| |split; [reflexivity|congruence]].
    destruct t as [t|]; unfold call_srv; cbv iota beta.
    + apply wx_bind. intro h'. refine (w_update_time (set_q_dep h' q) _). exact U.
    + apply wx_bind. intro h'. refine (w_update_time (set_q_dep h' (set_q_is (S (q_is q)) q)) _). exact U.
  - apply (L (run_op (OArrive a))). intro U'. cbn [run_op]. unfold add_arrival. change (c_class (q_cfg (as_server q))) with CServer. rewrite C.
    cbv zeta. apply (wx_bind (push_item (q_arr (set_q_total (q_total q + 1) q)) a)). intro h.
    refine (w_update_time_if (set_q_arr h (set_q_total (q_total q + 1) q)) _). exact U.
  - apply (L (run_op (OCollect b))). intro U'. split; [reflexivity|intros q' H; injection H as <-; exact U].
  - apply (L (run_op OClear)). intro U'. cbn [run_op]. unfold clear. change (c_class (q_cfg (as_server q))) with CServer. rewrite C.
    destruct U as (U1 & U2 & U3). split.
    + cbn [wm]. unfold qs_clear, as_server. qc. rewrite U3. reflexivity.
    + intros q' H; injection H as <-. split; [exact C|]. split; [exact B|reflexivity].
  - apply (L (run_op OClearData)). intro U'. split; [reflexivity|intros q' H; injection H as <-; exact U].
Qed.

(** Whole histories. *)
Lemma loss_is_server ops q : unb q ->
  exec ops (as_server q) = wm (fun p => (map entry_as_server (fst p), as_server (snd p))) (exec ops q) /\
  (forall log q', exec ops q = Ok (log, q') -> q_blocked q' = 0).
Proof.
  revert q. induction ops as [|o ops IH]; intros q U.
  - split; [reflexivity|]. intros log q' H; injection H as <- <-. exact (proj2 (proj2 U)).
  - cbn [exec]. destruct (w_step o q U) as (W1 & W2). rewrite W1. destruct (step o q) as [[r q1]|] eqn:E; [|split; [reflexivity|discriminate]].
    cbn [wm bind wp fst snd]. assert (U1 := W2 _ _ eq_refl). destruct (IH q1 U1) as (I1 & I2). rewrite I1.
    destruct (exec ops q1) as [[log q']|] eqn:E2; [|split; [reflexivity|discriminate]].
    cbn [wm bind fst snd map entry_as_server]. split; [reflexivity|]. intros log' q'' H; injection H as <- <-. eapply I2; reflexivity.
Qed.
