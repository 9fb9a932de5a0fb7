(** * Again: nothing depends on how many random numbers have been used *)
From Coq Require Import List ZArith QArith Lia Bool Arith.
From Verif Require Import Base Heap Queue PQueue Network SpecNet QueueEffects NetBare Clock ClockNet SpecAgain.
Import ListNotations.
Open Scope Z_scope.

Section Again.
Context (A B : nat -> nat -> ext -> ext) (I J : nat -> nat).
Notation L := (late A B I J).
Notation fit := (goes_on A B I J).
Definition pl (x : agent * queue) : agent * queue := (fst x, L (snd x)).
Definition el (x : option agent * queue) : option agent * queue := (fst x, L (snd x)).

Lemma dlast_late q i f : dlast_if (L q) i f = rmap L (dlast_if q i f).
Proof.
  unfold dlast_if. change (q_collect (L q)) with (q_collect q). change (q_data (L q)) with (q_data q). destruct (q_collect q); [|reflexivity].
  destruct (dget (q_data q) i); [|reflexivity]. destruct (dlast (q_data q) i f); reflexivity.
Qed.
Lemma update_late q : update_time (L q) = rmap L (update_time q).
Proof.
  unfold update_time. change (q_arr (L q)) with (q_arr q). change (q_dep (L q)) with (q_dep q). destruct (root_time (q_arr q)); [|reflexivity]. cbn [bind]. destruct (root_time (q_dep q)); reflexivity.
Qed.
Lemma update_if_late q : update_time_if (L q) = rmap L (update_time_if q).
Proof.
  unfold update_time_if. change (q_arr (L q)) with (q_arr q). change (q_dep (L q)) with (q_dep q). destruct (root_time (q_arr q)); [|reflexivity]. cbn [bind]. destruct (root_time (q_dep q)); [|reflexivity].
  cbn [bind rmap]. destruct (eltb _ _); reflexivity.
Qed.
Lemma rq_servers_late z q : rq_set_num_servers z (L q) = L (rq_set_num_servers z q).
Proof. unfold rq_set_num_servers. change (c_max_servers (q_cfg (L q))) with (c_max_servers (q_cfg q)). destruct (eltb _ _); reflexivity. Qed.
Lemma resource_late a q : resource_action a (L q) = pl (resource_action a q).
Proof.
  unfold resource_action. change (c_class (q_cfg (L q))) with (c_class (q_cfg q)). destruct (is_resource _); [|reflexivity]. destruct (ag_has a); [reflexivity|].
  change (q_servers (L q)) with (q_servers q). destruct (eltb (Fin 0) (q_servers q)); [|reflexivity]. rewrite rq_servers_late. reflexivity.
Qed.
Lemma info_late a q : info_action a (L q) = rmap pl (info_action a q).
Proof.
  unfold info_action. change (c_class (q_cfg (L q))) with (c_class (q_cfg q)). destruct (is_info _); [|reflexivity]. change (q_net (L q)) with (q_net q). rewrite rmap_bind. apply bind_ext. intros nd _.
  change (info_stats a (L q)) with (info_stats a q). rewrite rmap_bind. apply bind_ext. intros st _. change (load (L q)) with (load q). rewrite rmap_bind. apply bind_ext. intros ld _.
  change (c_idx (q_cfg (L q))) with (c_idx (q_cfg q)). change (q_now (L q)) with (q_now q). change (q_servers (L q)) with (q_servers q). rewrite rmap_bind. apply bind_ext. intros nd' _. reflexivity.
Qed.
Lemma action_late a q : queue_action a (L q) = rmap pl (queue_action a q).
Proof. unfold queue_action. destruct (ag_kind a); try reflexivity; [rewrite resource_late; reflexivity|apply info_late]. Qed.

Lemma add_new_late q : fit (q_cfg q) -> add_arrival_new (L q) = rmap L (add_arrival_new q).
Proof.
  intros (FA & FB). unfold add_arrival_new. change (q_next_ct (L q)) with (q_next_ct q). change (q_now (L q)) with (q_now q).
  destruct (eleb (q_next_ct q) (q_now q)); [|apply update_if_late].
  change (c_arr (q_cfg (L q)) (q_ia (L q)) (q_now q)) with (A (c_idx (q_cfg q)) (I (c_idx (q_cfg q)) + q_ia q)%nat (q_now q)). rewrite FA.
  set (t := c_arr (q_cfg q) (q_ia q) (q_now q)). cbv zeta. change (c_deactive_t (q_cfg (L q))) with (c_deactive_t (q_cfg q)).
  change (c_class (q_cfg (L q))) with (c_class (q_cfg q)).
  set (q1 := set_q_ia (Datatypes.S (q_ia q)) (set_q_next_ct t q)).
  assert (E : set_q_ia (Datatypes.S (q_ia (L q))) (set_q_next_ct t (L q)) = L q1).
  { unfold q1, late. cbn [set_q_ia set_q_next_ct q_cfg q_servers q_departed q_nsys q_data q_line q_collect q_arr q_dep q_narr q_oarr q_total q_active q_now q_time q_next_ct q_blocked q_over q_net q_ia q_is].
    rewrite <- plus_n_Sm. reflexivity. }
  rewrite E. destruct (eleb (c_deactive_t (q_cfg q)) t); [destruct (is_info (c_class (q_cfg q))); reflexivity|].
  set (q2 := set_q_total (q_total q1 + 1) q1). change (set_q_total (q_total (L q1) + 1) (L q1)) with (L q2).
  change (new_agent (L q2) t) with (new_agent q2 t). rewrite rmap_bind. apply bind_ext. intros a _. change (q_arr (L q2)) with (q_arr q2). rewrite rmap_bind. apply bind_ext. intros h _.
  rewrite <- update_if_late. f_equal. change (c_active_cap (q_cfg (L q))) with (c_active_cap (q_cfg q)). 
  set (q3 := set_q_oarr (q_oarr q2 + 1) (set_q_arr h q2)). change (set_q_oarr (q_oarr (L q2) + 1) (set_q_arr h (L q2))) with (L q3). change (q_oarr (L q3)) with (q_oarr q3). destruct (eleb _ _); reflexivity.
Qed.
Lemma add_self_late q : fit (q_cfg q) -> add_arrival_self (L q) = rmap L (add_arrival_self q).
Proof.
  intro F. unfold add_arrival_self. change (c_class (q_cfg (L q))) with (c_class (q_cfg q)). destruct (c_class (q_cfg q)); try (apply add_new_late; exact F). reflexivity.
Qed.
Lemma add_late a q : add_arrival a (L q) = rmap L (add_arrival a q).
Proof.
  assert (G : (let q1 := set_q_total (q_total (L q) + 1) (L q) in let* h := push_item (q_arr q1) a in update_time_if (set_q_arr h q1)) =
    rmap L (let q1 := set_q_total (q_total q + 1) q in let* h := push_item (q_arr q1) a in update_time_if (set_q_arr h q1))).
  { cbv zeta. change (q_arr (set_q_total (q_total (L q) + 1) (L q))) with (q_arr q). change (q_arr (set_q_total (q_total q + 1) q)) with (q_arr q).
    rewrite rmap_bind. apply bind_ext. intros h _. rewrite <- update_if_late. reflexivity. }
  unfold add_arrival. change (c_class (q_cfg (L q))) with (c_class (q_cfg q)). destruct (c_class (q_cfg q)); try exact G.
  cbn [rmap]. change (q_collect (L q)) with (q_collect q). destruct (q_collect q); reflexivity.
Qed.
Lemma srv_late q t : fit (q_cfg q) -> call_srv (L q) t = (fst (call_srv q t), L (snd (call_srv q t))).
Proof.
  intros (FA & FB). unfold call_srv. cbn [fst snd]. change (c_srv (q_cfg (L q)) (q_is (L q)) t) with (B (c_idx (q_cfg q)) (J (c_idx (q_cfg q)) + q_is q)%nat t). rewrite FB. f_equal.
  unfold late. cbn [set_q_is q_cfg q_servers q_departed q_nsys q_data q_line q_collect q_arr q_dep q_narr q_oarr q_total q_active q_now q_time q_next_ct q_blocked q_over q_net q_ia q_is].
  rewrite <- plus_n_Sm. reflexivity.
Qed.
Lemma service_late q : fit (q_cfg q) -> service_from_queue (L q) = rmap L (service_from_queue q).
Proof.
  intros F. unfold service_from_queue. change (q_line (L q)) with (q_line q). destruct (q_line q) as [|a l]; [reflexivity|].
  change (set_q_line l (L q)) with (L (set_q_line l q)). change (q_now (L (set_q_line l q))) with (q_now (set_q_line l q)).
  rewrite dlast_late, bind_rmap, rmap_bind. apply bind_ext. intros q2 E2. apply dlast_if_cfg in E2. cbn [set_q_line q_cfg] in E2. rewrite <- E2 in F.
  rewrite (srv_late q2 _ F). change (q_now (L q2)) with (q_now q2). destruct (call_srv q2 (q_now q2)) as [t q3]. cbn [fst snd].
  rewrite action_late, bind_rmap, rmap_bind. apply bind_ext. intros [a' q4] _. cbn [pl fst snd]. change (q_dep (L q4)) with (q_dep q4). rewrite rmap_bind. apply bind_ext. intros h _. reflexivity.
Qed.
Lemma delay_late t q : fit (q_cfg q) -> delay_service t (L q) = rmap L (delay_service t q).
Proof.
  intros F. unfold delay_service. change (c_class (q_cfg (L q))) with (c_class (q_cfg q)). change (q_dep (L q)) with (q_dep q).
  destruct (c_class (q_cfg q)); try reflexivity.
  all: destruct (1 <? length (q_dep q))%nat; [|reflexivity]; destruct (heappop itime (q_dep q)) as [[[|a] h]|]; try reflexivity; destruct t as [t|];
    [|rewrite (srv_late q _ F); destruct (call_srv q (ag_time a)) as [t q1]; cbn [fst snd]]; rewrite rmap_bind; apply bind_ext; intros h' _; rewrite <- update_late; reflexivity.
Qed.
Lemma departure_late q : fit (q_cfg q) -> qs_departure (L q) = rmap el (qs_departure q).
Proof.
  intro F. unfold qs_departure. change (q_dep (L q)) with (q_dep q). rewrite rmap_bind. apply bind_ext. intros [a h] _.
  set (q1 := set_q_departed _ (set_q_nsys _ (set_q_total _ (set_q_now _ (set_q_dep h q))))).
  change (set_q_departed _ (set_q_nsys _ (set_q_total _ (set_q_now _ (set_q_dep h (L q)))))) with (L q1).
  change (q_now (L q1)) with (q_now q1). rewrite dlast_late, bind_rmap, rmap_bind. apply bind_ext. intros q2 E2.
  apply dlast_if_cfg in E2. change (q_cfg q1) with (q_cfg q) in E2. rewrite <- E2 in F.
  cbv zeta. change (q_line (L q2)) with (q_line q2). change (q_nsys (L q2)) with (q_nsys q2). change (q_servers (L q2)) with (q_servers q2).
  rewrite service_late by exact F. change (Ok (L q2)) with (rmap L (Ok q2)). rewrite <- rmap_if, bind_rmap, rmap_bind. apply bind_ext. intros q3 _.
  rewrite action_late, bind_rmap, rmap_bind. apply bind_ext. intros [a' q4] _. cbn [pl fst snd]. rewrite update_late, bind_rmap, rmap_bind. apply bind_ext. intros q5 _. reflexivity.
Qed.
Lemma arrival_late q : fit (q_cfg q) -> qs_arrival (L q) = rmap el (qs_arrival q).
Proof.
  intro F. unfold qs_arrival. change (q_arr (L q)) with (q_arr q). rewrite rmap_bind. apply bind_ext. intros [a h] _.
  set (q1 := set_q_now (ag_time a) (set_q_arr h q)). change (set_q_now (ag_time a) (set_q_arr h (L q))) with (L q1).
  cbv zeta. change (q_active (L q1)) with (q_active q1). rewrite add_self_late by exact F. change (Ok (L q1)) with (rmap L (Ok q1)).
  rewrite <- rmap_if, bind_rmap, rmap_bind. apply bind_ext. intros q2 E2.
  assert (C2 : q_cfg q2 = q_cfg q1). { destruct (q_active q1); [apply add_self_cfg; exact E2 | injection E2 as <-; reflexivity]. }
  change (q_cfg q1) with (q_cfg q) in C2. rewrite <- C2 in F.
  set (q3 := set_q_narr (q_narr q2 + 1) (set_q_nsys (q_nsys q2 + 1) q2)). change (set_q_narr (q_narr (L q2) + 1) (set_q_nsys (q_nsys (L q2) + 1) (L q2))) with (L q3).
  change (q_line (L q3)) with (q_line q3). change (q_nsys (L q3)) with (q_nsys q3). change (q_servers (L q3)) with (q_servers q3).
  set (q4 := if q_collect q3 then _ else q3).
  match goal with |- bind (queue_action a ?x) _ = _ => assert (E : x = L q4) end.
  { unfold q4. change (q_collect (L q3)) with (q_collect q3). destruct (q_collect q3); reflexivity. }
  rewrite E. clear E. assert (C4 : q_cfg q4 = q_cfg q2) by (unfold q4; destruct (q_collect q3); reflexivity). rewrite <- C4 in F.
  rewrite action_late, bind_rmap, rmap_bind. apply bind_ext. intros [a1 q5] E5. cbn [pl fst snd]. apply action_cfg in E5. rewrite <- E5 in F.
  change (q_nsys (L q5)) with (q_nsys q5). change (q_servers (L q5)) with (q_servers q5). rewrite rmap_if.
  destruct (eleb (Fin (q_nsys q5)) (q_servers q5)).
  - change (q_collect (L q5)) with (q_collect q5). change (q_data (L q5)) with (q_data q5).
    match goal with |- bind ?x _ = _ => assert (E : x = rmap L (if q_collect q5 then let* d := dlast (q_data q5) (ag_id a1) (row_set_srv (ag_time a1)) in Ok (set_q_data d q5) else Ok q5)) end.
    { destruct (q_collect q5); [|reflexivity]. destruct (dlast (q_data q5) (ag_id a1) (row_set_srv (ag_time a1))); reflexivity. }
    rewrite E. clear E. rewrite bind_rmap, rmap_bind. apply bind_ext. intros q6 E6.
    assert (C6 : q_cfg q6 = q_cfg q5). { destruct (q_collect q5); [|injection E6 as <-; reflexivity]. mbind E6. injection E6 as <-. reflexivity. }
    rewrite <- C6 in F. rewrite (srv_late q6 _ F). destruct (call_srv q6 (ag_time a1)) as [t q7]. cbn [fst snd].
    rewrite action_late, bind_rmap, rmap_bind. apply bind_ext. intros [a2 q8] _. cbn [pl fst snd]. change (q_dep (L q8)) with (q_dep q8).
    rewrite rmap_bind. apply bind_ext. intros h2 _. change (set_q_dep h2 (L q8)) with (L (set_q_dep h2 q8)).
    rewrite update_late, bind_rmap, rmap_bind. apply bind_ext. intros q9 _. reflexivity.
  - change (set_q_line (q_line (L q5) ++ [a1]) (L q5)) with (L (set_q_line (q_line q5 ++ [a1]) q5)).
    rewrite update_late, bind_rmap, rmap_bind. apply bind_ext. intros q6 _. reflexivity.
Qed.
Lemma qs_late q : fit (q_cfg q) -> qs_next_event (L q) = rmap el (qs_next_event q).
Proof.
  intro F. unfold qs_next_event. change (q_arr (L q)) with (q_arr q). change (q_dep (L q)) with (q_dep q). rewrite rmap_bind. apply bind_ext. intros ta _. rewrite rmap_bind. apply bind_ext. intros td _.
  rewrite !rmap_if, departure_late, arrival_late by exact F. reflexivity.
Qed.
Lemma blocked_late q : fit (q_cfg q) -> loss_blocked (L q) = rmap el (loss_blocked q).
Proof.
  intro F. unfold loss_blocked. cbv zeta. set (q0 := set_q_total (q_total q - 1) (set_q_blocked (q_blocked q + 1) q)).
  change (set_q_total (q_total (L q) - 1) (set_q_blocked (q_blocked (L q) + 1) (L q))) with (L q0). change (q_arr (L q0)) with (q_arr q0).
  rewrite rmap_bind. apply bind_ext. intros [a h] _. change (add_loss a (L q0)) with (add_loss a q0). rewrite rmap_bind. apply bind_ext. intros x _.
  set (q1 := set_q_now (ag_time a) (set_q_arr h q0)). change (set_q_now (ag_time a) (set_q_arr h (L q0))) with (L q1).
  change (q_active (L q1)) with (q_active q1). rewrite add_self_late by exact F. change (Ok (L q1)) with (rmap L (Ok q1)).
  rewrite <- rmap_if, bind_rmap, rmap_bind. apply bind_ext. intros q2 _.
  set (q3 := if q_collect q2 then _ else q2).
  match goal with |- bind (update_time ?x) _ = _ => assert (E : x = L q3) end.
  { unfold q3. change (q_collect (L q2)) with (q_collect q2). destruct (q_collect q2); reflexivity. }
  rewrite E. clear E. rewrite update_late, bind_rmap, rmap_bind. apply bind_ext. intros q4 _. reflexivity.
Qed.
Lemma drop_late (r : res (option agent * queue)) :
  (let* x := rmap el r in (let '(_, q') := x in Ok (@None agent, q'))) = rmap el (let* x := r in (let '(_, q') := x in Ok (@None agent, q'))).
Proof. destruct r as [[o q]|]; reflexivity. Qed.
Lemma loss_late q : fit (q_cfg q) -> loss_next_event (L q) = rmap el (loss_next_event q).
Proof.
  intro F. unfold loss_next_event. change (q_arr (L q)) with (q_arr q). change (q_dep (L q)) with (q_dep q). rewrite rmap_bind. apply bind_ext. intros ta _. rewrite rmap_bind. apply bind_ext. intros td _.
  rewrite !rmap_if, blocked_late, qs_late, drop_late by exact F. reflexivity.
Qed.
Lemma return_late q : rq_return (L q) = rmap el (rq_return q).
Proof.
  unfold rq_return. change (q_arr (L q)) with (q_arr q). rewrite rmap_bind. apply bind_ext. intros [a h] _.
  set (q1 := set_q_total _ (set_q_now _ (set_q_arr h q))). change (set_q_total _ (set_q_now _ (set_q_arr h (L q)))) with (L q1).
  cbv zeta. change (q_servers (L q1)) with (q_servers q1). rewrite rq_servers_late. set (q2 := rq_set_num_servers _ q1). set (q3 := if q_collect q2 then _ else q2).
  match goal with |- bind (update_time ?x) _ = _ => assert (E : x = L q3) end.
  { unfold q3. change (q_collect (L q2)) with (q_collect q2). destruct (q_collect q2); reflexivity. }
  rewrite E. clear E. rewrite update_late, bind_rmap, rmap_bind. apply bind_ext. intros q4 _. reflexivity.
Qed.
Lemma rq_blocked_late q : rq_blocked (L q) = rmap el (rq_blocked q).
Proof.
  unfold rq_blocked. cbv zeta. set (q0 := set_q_total _ (set_q_narr _ (set_q_blocked (q_blocked q + 1) q))).
  change (set_q_total _ (set_q_narr _ (set_q_blocked _ (L q)))) with (L q0). change (q_arr (L q0)) with (q_arr q0).
  rewrite rmap_bind. apply bind_ext. intros [a h] _.
  set (q1 := set_q_now (ag_time a) (set_q_arr h q0)). change (set_q_now (ag_time a) (set_q_arr h (L q0))) with (L q1). set (q3 := if q_collect q1 then _ else q1).
  match goal with |- bind (update_time ?x) _ = _ => assert (E : x = L q3) end.
  { unfold q3. change (q_collect (L q1)) with (q_collect q1). destruct (q_collect q1); reflexivity. }
  rewrite E. clear E. rewrite update_late, bind_rmap, rmap_bind. apply bind_ext. intros q4 _. reflexivity.
Qed.
Lemma rq_late q : fit (q_cfg q) -> rq_next_event (L q) = rmap el (rq_next_event q).
Proof.
  intro F. unfold rq_next_event. change (q_arr (L q)) with (q_arr q). destruct (q_arr q) as [|[|a] h]; [reflexivity|apply loss_late; exact F|].
  destruct (ag_kind a); try (apply loss_late; exact F). change (q_dep (L q)) with (q_dep q). rewrite rmap_bind. apply bind_ext. intros td _.
  rewrite !rmap_if, loss_late, return_late, rq_blocked_late, drop_late by exact F. reflexivity.
Qed.
Lemma extract_late q i : extract_information (L q) i = rmap L (extract_information q i).
Proof. unfold extract_information. destruct i as [|a]; [reflexivity|]. destruct (ag_kind a); try reflexivity. change (q_net (L q)) with (q_net q). rewrite rmap_bind. apply bind_ext. intros nd _. reflexivity. Qed.
Lemma info_next_late q : fit (q_cfg q) -> info_next_event (L q) = rmap el (info_next_event q).
Proof.
  intro F. unfold info_next_event. change (q_arr (L q)) with (q_arr q). change (q_dep (L q)) with (q_dep q). destruct (q_arr q) as [|i h]; [reflexivity|]. rewrite rmap_bind. apply bind_ext. intros td _.
  rewrite extract_late. change (Ok (L q)) with (rmap L (Ok q)). rewrite <- rmap_if, bind_rmap, rmap_bind. apply bind_ext. intros q1 E. apply loss_late.
  replace (q_cfg q1) with (q_cfg q); [exact F|]. destruct (eltb _ _); [symmetry; exact (extract_cfg _ _ _ E)|injection E as <-; reflexivity].
Qed.
Lemma next_late q : fit (q_cfg q) -> next_event (L q) = rmap el (next_event q).
Proof.
  intro F. unfold next_event. change (c_class (q_cfg (L q))) with (c_class (q_cfg q)).
  destruct (c_class (q_cfg q)) eqn:E; [apply qs_late|apply loss_late|reflexivity|apply rq_late|apply info_next_late]; exact F.
Qed.
Lemma active_late q : fit (q_cfg q) -> set_active (L q) = rmap L (set_active q).
Proof.
  intro F. unfold set_active. change (q_active (L q)) with (q_active q). destruct (q_active q); [reflexivity|].
  change (set_q_active true (L q)) with (L (set_q_active true q)). apply add_self_late. exact F.
Qed.
Lemma repeat_late k : forall q, fit (q_cfg q) -> repeat_service k (L q) = rmap L (repeat_service k q).
Proof.
  induction k as [|k IH]; intros q F; cbn [repeat_service]; [reflexivity|]. rewrite service_late by exact F. rewrite bind_rmap, rmap_bind.
  apply bind_ext. intros q' E. apply IH. apply service_cfg in E. rewrite E. exact F.
Qed.
Lemma servers_late z q : fit (q_cfg q) -> set_num_servers z (L q) = rmap L (set_num_servers z q).
Proof.
  intro F. assert (G : qs_set_num_servers z (L q) = rmap L (qs_set_num_servers z q)).
  { unfold qs_set_num_servers. cbv zeta. change (q_line (L q)) with (q_line q). change (q_servers (L q)) with (q_servers q).
    assert (GO : forall m k, (let* q1 := repeat_service (Z.to_nat k) (L q) in let* q2 := if 0 <? k then update_time q1 else Ok q1 in Ok (set_q_servers m q2)) =
      rmap L (let* q1 := repeat_service (Z.to_nat k) q in let* q2 := if 0 <? k then update_time q1 else Ok q1 in Ok (set_q_servers m q2))).
    { intros m k. rewrite repeat_late by exact F. rewrite bind_rmap, rmap_bind. apply bind_ext. intros q1 _. rewrite update_late.
      change (Ok (L q1)) with (rmap L (Ok q1)). rewrite <- rmap_if, bind_rmap, rmap_bind. apply bind_ext. intros q2 _. reflexivity. }
    destruct z as [z| |]; [|destruct (q_servers q); [apply GO|reflexivity]|reflexivity].
    destruct (z <=? 0); [reflexivity|]. destruct (q_servers q); apply GO. }
  unfold set_num_servers. change (c_class (q_cfg (L q))) with (c_class (q_cfg q)). destruct (c_class (q_cfg q)); try exact G; [reflexivity|].
  destruct z; try reflexivity; rewrite rq_servers_late; reflexivity.
Qed.
Lemma clear_late q : clear (L q) = L (clear q).
Proof. unfold clear. change (c_class (q_cfg (L q))) with (c_class (q_cfg q)). destruct (c_class (q_cfg q)); reflexivity. Qed.
Lemma op_late o q : fit (q_cfg q) -> run_op o (L q) = rmap L (run_op o q).
Proof.
  intro F. destruct o as [| | |z|t|a|b| |]; cbn [run_op]; try reflexivity.
  - rewrite next_late by exact F. destruct (next_event q) as [[r q']|]; reflexivity.
  - apply active_late. exact F.
  - apply servers_late. exact F.
  - apply delay_late. exact F.
  - apply add_late.
  - cbn [rmap]. rewrite clear_late. reflexivity.
Qed.
Lemma ops_late l : forall q, fit (q_cfg q) -> run_ops l (L q) = rmap L (run_ops l q).
Proof.
  induction l as [|o l IH]; intros q F; cbn [run_ops]; [reflexivity|]. rewrite (op_late o q F), bind_rmap, rmap_bind. apply bind_ext. intros q1 E. apply IH. rewrite (op_cfg _ _ _ E). exact F.
Qed.
End Again.
