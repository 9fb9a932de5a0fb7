(** * Relax: LossQueues with room are QueueServers *)
From Coq Require Import List ZArith QArith Lia Bool Arith.
From Verif Require Import Base Heap Queue PQueue Network SpecNet SpecQueue QueueEffects NetBare Clock ClockNet SpecRelax.
Import ListNotations.
Open Scope Z_scope.

(** ** One LossQueue *)

Definition lp (q : queue) : queue := set_q_blocked 0 (as_server q).
Notation L := lp.
Definition fit (c : qcfg) : Prop := c_class c = CLoss.
Definition pl (x : agent * queue) : agent * queue := (fst x, L (snd x)).
Definition el (x : option agent * queue) : option agent * queue := (fst x, L (snd x)).
Lemma class_plain q : c_class (q_cfg (L q)) = CServer.
Proof. reflexivity. Qed.

Lemma dlast_plain q i f : dlast_if (L q) i f = rmap L (dlast_if q i f).
Proof.
  unfold dlast_if. change (q_collect (L q)) with (q_collect q). change (q_data (L q)) with (q_data q). destruct (q_collect q); [|reflexivity].
  destruct (dget (q_data q) i); [|reflexivity]. destruct (dlast (q_data q) i f); reflexivity.
Qed.
Lemma update_plain q : update_time (L q) = rmap L (update_time q).
Proof.
  unfold update_time. change (q_arr (L q)) with (q_arr q). change (q_dep (L q)) with (q_dep q). destruct (root_time (q_arr q)); [|reflexivity]. cbn [bind]. destruct (root_time (q_dep q)); reflexivity.
Qed.
Lemma update_if_plain q : update_time_if (L q) = rmap L (update_time_if q).
Proof.
  unfold update_time_if. change (q_arr (L q)) with (q_arr q). change (q_dep (L q)) with (q_dep q). destruct (root_time (q_arr q)); [|reflexivity]. cbn [bind]. destruct (root_time (q_dep q)); [|reflexivity].
  cbn [bind rmap]. destruct (eltb _ _); reflexivity.
Qed.
Lemma action_plain a q : fit (q_cfg q) -> queue_action a (L q) = rmap pl (queue_action a q).
Proof.
  intro F. unfold queue_action. destruct (ag_kind a); try reflexivity.
  - unfold resource_action. rewrite class_plain, F. reflexivity.
  - unfold info_action. rewrite class_plain, F. reflexivity.
Qed.
Lemma new_plain q t : fit (q_cfg q) -> new_agent (L q) t = new_agent q t.
Proof. intro F. unfold new_agent. rewrite class_plain, F. reflexivity. Qed.
Lemma add_new_plain q : fit (q_cfg q) -> add_arrival_new (L q) = rmap L (add_arrival_new q).
Proof.
  intro F. unfold add_arrival_new. change (q_next_ct (L q)) with (q_next_ct q). change (q_now (L q)) with (q_now q).
  destruct (eleb (q_next_ct q) (q_now q)); [|apply update_if_plain].
  change (c_arr (q_cfg (L q)) (q_ia (L q)) (q_now q)) with (c_arr (q_cfg q) (q_ia q) (q_now q)).
  set (t := c_arr (q_cfg q) (q_ia q) (q_now q)). cbv zeta. change (c_deactive_t (q_cfg (L q))) with (c_deactive_t (q_cfg q)).
  rewrite class_plain, F. cbn [is_info].
  set (q1 := set_q_ia (Datatypes.S (q_ia q)) (set_q_next_ct t q)).
  change (set_q_ia (Datatypes.S (q_ia (L q))) (set_q_next_ct t (L q))) with (L q1).
  destruct (eleb (c_deactive_t (q_cfg q)) t); [reflexivity|].
  set (q2 := set_q_total (q_total q1 + 1) q1). change (set_q_total (q_total (L q1) + 1) (L q1)) with (L q2).
  rewrite (new_plain q2 t F). rewrite rmap_bind. apply bind_ext. intros a _. change (q_arr (L q2)) with (q_arr q2). rewrite rmap_bind. apply bind_ext. intros h _.
  rewrite <- update_if_plain. f_equal. change (c_active_cap (q_cfg (L q))) with (c_active_cap (q_cfg q)). 
  set (q3 := set_q_oarr (q_oarr q2 + 1) (set_q_arr h q2)). change (set_q_oarr (q_oarr (L q2) + 1) (set_q_arr h (L q2))) with (L q3). change (q_oarr (L q3)) with (q_oarr q3). destruct (eleb _ _); reflexivity.
Qed.
Lemma add_self_plain q : fit (q_cfg q) -> add_arrival_self (L q) = rmap L (add_arrival_self q).
Proof. intro F. unfold add_arrival_self. rewrite class_plain, F. apply add_new_plain. exact F. Qed.
Lemma add_plain a q : fit (q_cfg q) -> add_arrival a (L q) = rmap L (add_arrival a q).
Proof.
  intro F.
  assert (G : (let q1 := set_q_total (q_total (L q) + 1) (L q) in let* h := push_item (q_arr q1) a in update_time_if (set_q_arr h q1)) =
    rmap L (let q1 := set_q_total (q_total q + 1) q in let* h := push_item (q_arr q1) a in update_time_if (set_q_arr h q1))).
  { cbv zeta. change (q_arr (set_q_total (q_total (L q) + 1) (L q))) with (q_arr q). change (q_arr (set_q_total (q_total q + 1) q)) with (q_arr q).
    rewrite rmap_bind. apply bind_ext. intros h _. rewrite <- update_if_plain. reflexivity. }
  unfold add_arrival. rewrite class_plain, F. exact G.
Qed.
Lemma srv_plain q t : call_srv (L q) t = (fst (call_srv q t), L (snd (call_srv q t))).
Proof. reflexivity. Qed.
Lemma service_plain q : fit (q_cfg q) -> service_from_queue (L q) = rmap L (service_from_queue q).
Proof.
  intros F. unfold service_from_queue. change (q_line (L q)) with (q_line q). destruct (q_line q) as [|a l]; [reflexivity|].
  change (set_q_line l (L q)) with (L (set_q_line l q)). change (q_now (L (set_q_line l q))) with (q_now (set_q_line l q)).
  rewrite dlast_plain, bind_rmap, rmap_bind. apply bind_ext. intros q2 E2. apply dlast_if_cfg in E2. cbn [set_q_line q_cfg] in E2. rewrite <- E2 in F.
  rewrite srv_plain. change (q_now (L q2)) with (q_now q2). change (q_cfg q2) with (q_cfg (snd (call_srv q2 (q_now q2)))) in F. destruct (call_srv q2 (q_now q2)) as [t q3]. cbn [fst snd] in *.
  rewrite (action_plain _ _ F), bind_rmap, rmap_bind. apply bind_ext. intros [a' q4] _. cbn [pl fst snd]. change (q_dep (L q4)) with (q_dep q4). rewrite rmap_bind. apply bind_ext. intros h _. reflexivity.
Qed.
Lemma delay_plain t q : fit (q_cfg q) -> delay_service t (L q) = rmap L (delay_service t q).
Proof.
  intros F. unfold delay_service. rewrite class_plain, F. change (q_dep (L q)) with (q_dep q).
  destruct (1 <? length (q_dep q))%nat; [|reflexivity]; destruct (heappop itime (q_dep q)) as [[[|a] h]|]; try reflexivity; destruct t as [t|];
    [|rewrite srv_plain; destruct (call_srv q (ag_time a)) as [t q1]; cbn [fst snd]]; rewrite rmap_bind; apply bind_ext; intros h' _; rewrite <- update_plain; reflexivity.
Qed.
Lemma departure_plain q : fit (q_cfg q) -> qs_departure (L q) = rmap el (qs_departure q).
Proof.
  intro F. unfold qs_departure. change (q_dep (L q)) with (q_dep q). rewrite rmap_bind. apply bind_ext. intros [a h] _.
  set (q1 := set_q_departed _ (set_q_nsys _ (set_q_total _ (set_q_now _ (set_q_dep h q))))).
  change (set_q_departed _ (set_q_nsys _ (set_q_total _ (set_q_now _ (set_q_dep h (L q)))))) with (L q1).
  change (q_now (L q1)) with (q_now q1). rewrite dlast_plain, bind_rmap, rmap_bind. apply bind_ext. intros q2 E2.
  apply dlast_if_cfg in E2. change (q_cfg q1) with (q_cfg q) in E2. rewrite <- E2 in F.
  cbv zeta. change (q_line (L q2)) with (q_line q2). change (q_nsys (L q2)) with (q_nsys q2). change (q_servers (L q2)) with (q_servers q2).
  rewrite service_plain by exact F. change (Ok (L q2)) with (rmap L (Ok q2)). rewrite <- rmap_if, bind_rmap, rmap_bind. apply bind_ext. intros q3 E3.
  assert (F3 : fit (q_cfg q3)).
  { destruct (_ && _) in E3; [apply service_cfg in E3; rewrite E3; exact F | injection E3 as <-; exact F]. }
  rewrite (action_plain _ _ F3), bind_rmap, rmap_bind. apply bind_ext. intros [a' q4] _. cbn [pl fst snd]. rewrite update_plain, bind_rmap, rmap_bind. apply bind_ext. intros q5 _. reflexivity.
Qed.
Lemma arrival_plain q : fit (q_cfg q) -> qs_arrival (L q) = rmap el (qs_arrival q).
Proof.
  intro F. unfold qs_arrival. change (q_arr (L q)) with (q_arr q). rewrite rmap_bind. apply bind_ext. intros [a h] _.
  set (q1 := set_q_now (ag_time a) (set_q_arr h q)). change (set_q_now (ag_time a) (set_q_arr h (L q))) with (L q1).
  cbv zeta. change (q_active (L q1)) with (q_active q1). rewrite add_self_plain by exact F. change (Ok (L q1)) with (rmap L (Ok q1)).
  rewrite <- rmap_if, bind_rmap, rmap_bind. apply bind_ext. intros q2 E2.
  assert (C2 : q_cfg q2 = q_cfg q1). { destruct (q_active q1); [apply add_self_cfg; exact E2 | injection E2 as <-; reflexivity]. }
  change (q_cfg q1) with (q_cfg q) in C2. rewrite <- C2 in F.
  set (q3 := set_q_narr (q_narr q2 + 1) (set_q_nsys (q_nsys q2 + 1) q2)). change (set_q_narr (q_narr (L q2) + 1) (set_q_nsys (q_nsys (L q2) + 1) (L q2))) with (L q3).
  change (q_line (L q3)) with (q_line q3). change (q_nsys (L q3)) with (q_nsys q3). change (q_servers (L q3)) with (q_servers q3).
  set (q4 := if q_collect q3 then _ else q3).
  match goal with |- bind (queue_action a ?x) _ = _ => assert (E : x = L q4) end.
  { unfold q4. change (q_collect (L q3)) with (q_collect q3). destruct (q_collect q3); reflexivity. }
  rewrite E. clear E. assert (C4 : q_cfg q4 = q_cfg q2) by (unfold q4; destruct (q_collect q3); reflexivity). rewrite <- C4 in F.
  rewrite (action_plain _ _ F), bind_rmap, rmap_bind. apply bind_ext. intros [a1 q5] E5. cbn [pl fst snd]. apply action_cfg in E5. rewrite <- E5 in F.
  change (q_nsys (L q5)) with (q_nsys q5). change (q_servers (L q5)) with (q_servers q5). rewrite rmap_if.
  destruct (eleb (Fin (q_nsys q5)) (q_servers q5)).
  - change (q_collect (L q5)) with (q_collect q5). change (q_data (L q5)) with (q_data q5).
    match goal with |- bind ?x _ = _ => assert (E : x = rmap L (if q_collect q5 then let* d := dlast (q_data q5) (ag_id a1) (row_set_srv (ag_time a1)) in Ok (set_q_data d q5) else Ok q5)) end.
    { destruct (q_collect q5); [|reflexivity]. destruct (dlast (q_data q5) (ag_id a1) (row_set_srv (ag_time a1))); reflexivity. }
    rewrite E. clear E. rewrite bind_rmap, rmap_bind. apply bind_ext. intros q6 E6.
    assert (C6 : q_cfg q6 = q_cfg q5). { destruct (q_collect q5); [|injection E6 as <-; reflexivity]. mbind E6. injection E6 as <-. reflexivity. }
    rewrite <- C6 in F. rewrite srv_plain. change (q_cfg q6) with (q_cfg (snd (call_srv q6 (ag_time a1)))) in F. destruct (call_srv q6 (ag_time a1)) as [t q7]. cbn [fst snd] in *.
    rewrite (action_plain _ _ F), bind_rmap, rmap_bind. apply bind_ext. intros [a2 q8] _. cbn [pl fst snd]. change (q_dep (L q8)) with (q_dep q8).
    rewrite rmap_bind. apply bind_ext. intros h2 _. change (set_q_dep h2 (L q8)) with (L (set_q_dep h2 q8)).
    rewrite update_plain, bind_rmap, rmap_bind. apply bind_ext. intros q9 _. reflexivity.
  - change (set_q_line (q_line (L q5) ++ [a1]) (L q5)) with (L (set_q_line (q_line q5 ++ [a1]) q5)).
    rewrite update_plain, bind_rmap, rmap_bind. apply bind_ext. intros q6 _. reflexivity.
Qed.
Lemma qs_plain q : fit (q_cfg q) -> qs_next_event (L q) = rmap el (qs_next_event q).
Proof.
  intro F. unfold qs_next_event. change (q_arr (L q)) with (q_arr q). change (q_dep (L q)) with (q_dep q). rewrite rmap_bind. apply bind_ext. intros ta _. rewrite rmap_bind. apply bind_ext. intros td _.
  rewrite !rmap_if, departure_plain, arrival_plain by exact F. reflexivity.
Qed.
Lemma active_plain q : fit (q_cfg q) -> set_active (L q) = rmap L (set_active q).
Proof.
  intro F. unfold set_active. change (q_active (L q)) with (q_active q). destruct (q_active q); [reflexivity|].
  change (set_q_active true (L q)) with (L (set_q_active true q)). apply add_self_plain. exact F.
Qed.
Lemma repeat_plain k : forall q, fit (q_cfg q) -> repeat_service k (L q) = rmap L (repeat_service k q).
Proof.
  induction k as [|k IH]; intros q F; cbn [repeat_service]; [reflexivity|]. rewrite service_plain by exact F. rewrite bind_rmap, rmap_bind.
  apply bind_ext. intros q' E. apply IH. apply service_cfg in E. rewrite E. exact F.
Qed.
Lemma servers_plain z q : fit (q_cfg q) -> set_num_servers z (L q) = rmap L (set_num_servers z q).
Proof.
  intro F. assert (G : qs_set_num_servers z (L q) = rmap L (qs_set_num_servers z q)).
  { unfold qs_set_num_servers. cbv zeta. change (q_line (L q)) with (q_line q). change (q_servers (L q)) with (q_servers q).
    assert (GO : forall m k, (let* q1 := repeat_service (Z.to_nat k) (L q) in let* q2 := if 0 <? k then update_time q1 else Ok q1 in Ok (set_q_servers m q2)) =
      rmap L (let* q1 := repeat_service (Z.to_nat k) q in let* q2 := if 0 <? k then update_time q1 else Ok q1 in Ok (set_q_servers m q2))).
    { intros m k. rewrite repeat_plain by exact F. rewrite bind_rmap, rmap_bind. apply bind_ext. intros q1 _. rewrite update_plain.
      change (Ok (L q1)) with (rmap L (Ok q1)). rewrite <- rmap_if, bind_rmap, rmap_bind. apply bind_ext. intros q2 _. reflexivity. }
    destruct z as [z| |]; [|destruct (q_servers q); [apply GO|reflexivity]|reflexivity].
    destruct (z <=? 0); [reflexivity|]. destruct (q_servers q); apply GO. }
  unfold set_num_servers. rewrite class_plain, F. exact G.
Qed.
Lemma clear_plain q : fit (q_cfg q) -> clear (L q) = L (clear q).
Proof. intro F. unfold clear. rewrite class_plain, F. reflexivity. Qed.

Lemma arrival_none q r q' : qs_arrival q = Ok (r, q') -> r = None.
Proof.
  unfold qs_arrival. intro H. apply bind_Ok in H as ([a h] & _ & H). cbv zeta in H. apply bind_Ok in H as (q2 & _ & H). apply bind_Ok in H as ([a1 q5] & _ & H).
  destruct (eleb _ _) in H; [apply bind_Ok in H as (q6 & _ & H)|mbind H; injection H as <- _; reflexivity].
  destruct (call_srv q6 (ag_time a1)) as [t q7]. apply bind_Ok in H as ([a2 q8] & _ & H). do 2 (mbind H). injection H as <- _. reflexivity.
Qed.
(** With room, LossQueue.next_event does what QueueServer.next_event does. *)
Lemma loss_roomy q : eLt (Fin (q_nsys q)) (eadd (q_servers q) (c_buffer (q_cfg q))) -> loss_next_event q = qs_next_event q.
Proof.
  intro R. unfold loss_next_event. apply eltb_lt in R. rewrite R. unfold qs_next_event.
  destruct (root_time (q_arr q)) as [ta|]; [|reflexivity]. cbn [bind]. destruct (root_time (q_dep q)) as [td|]; [|reflexivity]. cbn [bind].
  destruct (eltb td ta) eqn:E; [reflexivity|]. destruct (eltb ta Inf); [|reflexivity].
  destruct (qs_arrival q) as [[r q']|] eqn:A; [|reflexivity]. cbn [bind]. apply arrival_none in A. subst r. reflexivity.
Qed.
Lemma next_plain q : fit (q_cfg q) -> has_room q -> next_event (L q) = rmap el (next_event q).
Proof. intros F R. unfold next_event. rewrite class_plain, F, (loss_roomy q (R F)). apply qs_plain. exact F. Qed.

(** ** All queues *)

Definition ep (x : option agent * queue) : option agent * queue := (fst x, as_plain (snd x)).
Lemma plain_loss q : fit (q_cfg q) -> as_plain q = L q.
Proof. intro F. unfold as_plain. rewrite F. reflexivity. Qed.
Lemma plain_other q : c_class (q_cfg q) <> CLoss -> as_plain q = q.
Proof. intro N. unfold as_plain. destruct (c_class (q_cfg q)); try reflexivity. congruence. Qed.
Lemma loss_dec q : {fit (q_cfg q)} + {c_class (q_cfg q) <> CLoss}.
Proof. unfold fit. destruct (c_class (q_cfg q)); ((left; reflexivity) || (right; discriminate)). Qed.
Lemma lift_queue (f : queue -> res queue) q : (forall q', f q = Ok q' -> q_cfg q' = q_cfg q) -> (fit (q_cfg q) -> f (L q) = rmap L (f q)) ->
  f (as_plain q) = rmap as_plain (f q).
Proof.
  intros C H. destruct (loss_dec q) as [F|N].
  - rewrite (plain_loss q F), (H F). destruct (f q) as [q'|] eqn:E; [|reflexivity]. cbn [rmap]. rewrite plain_loss; [reflexivity|]. rewrite (C q' eq_refl). exact F.
  - rewrite (plain_other q N). destruct (f q) as [q'|] eqn:E; [|reflexivity]. cbn [rmap]. rewrite plain_other; [reflexivity|]. rewrite (C q' eq_refl). exact N.
Qed.
Lemma next_all q : has_room q -> next_event (as_plain q) = rmap ep (next_event q).
Proof.
  intro R. destruct (loss_dec q) as [F|N].
  - rewrite (plain_loss q F), (next_plain q F R). destruct (next_event q) as [[r q']|] eqn:E; [|reflexivity]. cbn [rmap]. unfold el, ep. cbn [fst snd]. rewrite plain_loss; [reflexivity|].
    rewrite (next_cfg _ _ _ E). exact F.
  - rewrite (plain_other q N). destruct (next_event q) as [[r q']|] eqn:E; [|reflexivity]. cbn [rmap]. unfold ep. cbn [fst snd]. rewrite plain_other; [reflexivity|].
    rewrite (next_cfg _ _ _ E). exact N.
Qed.
Lemma add_all a q : add_arrival a (as_plain q) = rmap as_plain (add_arrival a q).
Proof. apply (lift_queue (add_arrival a)); [intros q' H; exact (add_cfg _ _ _ H)|apply add_plain]. Qed.
Lemma delay_all t q : delay_service t (as_plain q) = rmap as_plain (delay_service t q).
Proof. apply (lift_queue (delay_service t)); [intros q' H; exact (delay_cfg _ _ _ H)|apply delay_plain]. Qed.
Lemma active_all q : set_active (as_plain q) = rmap as_plain (set_active q).
Proof. apply lift_queue; [intros q' H; exact (active_cfg _ _ H)|apply active_plain]. Qed.
Lemma servers_all z q : set_num_servers z (as_plain q) = rmap as_plain (set_num_servers z q).
Proof. apply (lift_queue (set_num_servers z)); [intros q' H; exact (servers_cfg _ _ _ H)|apply servers_plain]. Qed.
Lemma clear_all q : clear (as_plain q) = as_plain (clear q).
Proof.
  destruct (loss_dec q) as [F|N].
  - rewrite (plain_loss q F), (clear_plain q F), plain_loss; [reflexivity|]. rewrite clear_cfg. exact F.
  - rewrite (plain_other q N), plain_other; [reflexivity|]. rewrite clear_cfg. exact N.
Qed.
Lemma op_all o q : has_room q -> run_op o (as_plain q) = rmap as_plain (run_op o q).
Proof.
  intro R. assert (G : forall f : queue -> queue, (forall x, q_cfg (f x) = q_cfg x) -> (f (L q) = L (f q)) -> Ok (f (as_plain q)) = rmap as_plain (Ok (f q))).
  { intros f C H. apply (lift_queue (fun x => Ok (f x))); [intros q' X; injection X as <-; apply C|]. intros _. cbn [rmap]. rewrite H. reflexivity. }
  destruct o as [| | |z|t|a|b| |]; cbn [run_op].
  - rewrite next_all by exact R. destruct (next_event q) as [[r q']|]; reflexivity.
  - apply active_all.
  - apply (G (set_q_active false)); reflexivity.
  - apply servers_all.
  - apply delay_all.
  - apply add_all.
  - apply (G (set_q_collect b)); reflexivity.
  - cbn [rmap]. rewrite clear_all. reflexivity.
  - apply (G (set_q_data [])); reflexivity.
Qed.
Lemma ops_all l : forall q, roomy_ops l q -> run_ops l (as_plain q) = rmap as_plain (run_ops l q).
Proof.
  induction l as [|o l IH]; intros q R; cbn [run_ops]; [reflexivity|]. destruct R as (R & N). rewrite (op_all o q R), bind_rmap, rmap_bind. apply bind_ext. intros q1 E. apply IH. apply N. exact E.
Qed.

(** ** Departures make room *)

Definition calm (q q' : queue) : Prop := q_cfg q' = q_cfg q /\ q_nsys q' = q_nsys q /\ q_servers q' = q_servers q.
Lemma calm_trans a b c : calm a b -> calm b c -> calm a c.
Proof. intros (A & B & C) (A' & B' & C'). repeat split; congruence. Qed.
Lemma calm_dlast q i f q' : dlast_if q i f = Ok q' -> calm q q'.
Proof. unfold dlast_if. destruct (q_collect q); [|intro H; injection H as <-; repeat split]. destruct (dget (q_data q) i); intro H; [mbind H|]; injection H as <-; repeat split. Qed.
Lemma calm_update q q' : update_time q = Ok q' -> calm q q'.
Proof. unfold update_time. intro H. do 2 (mbind H). injection H as <-. repeat split. Qed.
Lemma calm_update_if q q' : update_time_if q = Ok q' -> calm q q'.
Proof. unfold update_time_if. intro H. do 2 (mbind H). injection H as <-. destruct (eltb _ _); repeat split. Qed.
Lemma calm_action a q a' q' : fit (q_cfg q) -> queue_action a q = Ok (a', q') -> calm q q'.
Proof.
  intros F H. unfold queue_action in H. destruct (ag_kind a).
  all: try (injection H as _ <-; repeat split; fail).
  - unfold resource_action in H. rewrite F in H. cbn [is_resource] in H. injection H as _ <-; repeat split.
  - unfold info_action in H. rewrite F in H. cbn [is_info] in H. injection H as _ <-; repeat split.
Qed.
Lemma calm_add a q q' : fit (q_cfg q) -> add_arrival a q = Ok q' -> calm q q'.
Proof. intros F H. unfold add_arrival in H. rewrite F in H. cbv zeta in H. mbind H. apply calm_update_if in H. exact H. Qed.
Lemma calm_service q q' : fit (q_cfg q) -> service_from_queue q = Ok q' -> calm q q'.
Proof.
  intros F H. unfold service_from_queue in H. destruct (q_line q) as [|a l]; [discriminate|]. apply bind_Ok in H as (q2 & D & H). apply calm_dlast in D. 
  assert (K : calm q q2) by exact D. assert (F2 : fit (q_cfg q2)) by (rewrite (proj1 K); exact F).
  unfold call_srv in H. apply bind_Ok in H as ([a' q4] & X & H). apply calm_action in X; [|exact F2]. mbind H. injection H as <-. 
  apply (calm_trans q q2); [exact K|]. exact X.
Qed.
Lemma departed_room q x q' : fit (q_cfg q) -> next_event q = Ok (Some x, q') -> q_cfg q' = q_cfg q /\ q_nsys q' <= q_nsys q /\ q_servers q' = q_servers q.
Proof.
  intros F H. unfold next_event in H. rewrite F in H.
  assert (G : forall q0 r q0', fit (q_cfg q0) -> qs_departure q0 = Ok (r, q0') -> q_cfg q0' = q_cfg q0 /\ q_nsys q0' <= q_nsys q0 /\ q_servers q0' = q_servers q0).
  { clear. intros q r q' F H. unfold qs_departure in H. apply bind_Ok in H as ([a h] & _ & H).
    set (q1 := set_q_departed _ (set_q_nsys _ (set_q_total _ (set_q_now _ (set_q_dep h q))))) in H.
    apply bind_Ok in H as (q2 & D & H). apply calm_dlast in D. assert (F2 : fit (q_cfg q2)) by (rewrite (proj1 D); exact F). cbv zeta in H.
    apply bind_Ok in H as (q3 & T & H). assert (K3 : calm q2 q3). { destruct (_ && _) in T; [apply calm_service in T; assumption | injection T as <-; repeat split]. }
    assert (F3 : fit (q_cfg q3)) by (rewrite (proj1 K3); exact F2). apply bind_Ok in H as ([a' q4] & X & H). apply calm_action in X; [|exact F3].
    apply bind_Ok in H as (q5 & U & H). apply calm_update in U. injection H as _ <-.
    assert (K : calm q1 q5) by (apply (calm_trans _ q2); [exact D|]; apply (calm_trans _ q3); [exact K3|]; apply (calm_trans _ q4); assumption).
    destruct K as (K1 & K2 & K4). rewrite K1, K2, K4. unfold q1. qc. repeat split. lia. }
  unfold loss_next_event in H. destruct (root_time (q_arr q)) as [ta|] eqn:TA; [|discriminate]. cbn [bind] in H. destruct (root_time (q_dep q)) as [td|] eqn:TD; [|discriminate]. cbn [bind] in H.
  destruct (eltb td ta) eqn:E.
  - unfold qs_next_event in H. rewrite TA, TD in H. cbn [bind] in H. rewrite E in H. eapply G; eassumption.
  - destruct (eltb ta Inf); [|discriminate]. destruct (eltb _ _) in H.
    + apply bind_Ok in H as ([r q1] & _ & H). discriminate.
    + unfold loss_blocked in H. apply bind_Ok in H as ([a h] & _ & H). apply bind_Ok in H as (y & _ & H). cbv zeta in H. do 2 (mbind H). discriminate.
Qed.
Lemma room_left q q' : has_room q -> q_cfg q' = q_cfg q -> q_nsys q' <= q_nsys q -> q_servers q' = q_servers q -> has_room q'.
Proof. intros R C N E F. rewrite C, E in *. specialize (R F). destruct (eadd (q_servers q) (c_buffer (q_cfg q))); cbn in *; [lia|exact I]. Qed.
