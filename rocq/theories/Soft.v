(** * Soft: max_servers only counts *)
From Coq Require Import List ZArith QArith Lia Bool Arith.
From Verif Require Import Base Heap Queue PQueue Network SpecNet SpecQueue QueueEffects NetBare Clock ClockNet NetExamples SpecSoft.
Import ListNotations.
Open Scope Z_scope.

Notation L := soft.
Definition ps (x : agent * queue) : agent * queue := (fst x, L (snd x)).
Definition es (x : option agent * queue) : option agent * queue := (fst x, L (snd x)).

(** ** One queue *)


Lemma dlast_soft q i f : dlast_if (L q) i f = rmap L (dlast_if q i f).
Proof.
  unfold dlast_if. change (q_collect (L q)) with (q_collect q). change (q_data (L q)) with (q_data q). destruct (q_collect q); [|reflexivity].
  destruct (dget (q_data q) i); [|reflexivity]. destruct (dlast (q_data q) i f); reflexivity.
Qed.
Lemma update_soft q : update_time (L q) = rmap L (update_time q).
Proof.
  unfold update_time. change (q_arr (L q)) with (q_arr q). change (q_dep (L q)) with (q_dep q). destruct (root_time (q_arr q)); [|reflexivity]. cbn [bind]. destruct (root_time (q_dep q)); reflexivity.
Qed.
Lemma update_if_soft q : update_time_if (L q) = rmap L (update_time_if q).
Proof.
  unfold update_time_if. change (q_arr (L q)) with (q_arr q). change (q_dep (L q)) with (q_dep q). destruct (root_time (q_arr q)); [|reflexivity]. cbn [bind]. destruct (root_time (q_dep q)); [|reflexivity].
  cbn [bind rmap]. destruct (eltb _ _); reflexivity.
Qed.
Lemma rq_servers_soft z q : rq_set_num_servers z (L q) = L (rq_set_num_servers z q).
Proof. unfold rq_set_num_servers. change (c_max_servers (q_cfg (L q))) with Inf. assert (E : eltb Inf z = false) by (destruct z; reflexivity). rewrite E. destruct (eltb (c_max_servers (q_cfg q)) z); reflexivity. Qed.
Lemma action_soft a q : queue_action a (L q) = rmap ps (queue_action a q).
Proof.
  unfold queue_action. destruct (ag_kind a); try reflexivity.
  - unfold resource_action. change (c_class (q_cfg (L q))) with (c_class (q_cfg q)). destruct (is_resource _); [|reflexivity]. destruct (ag_has a); [reflexivity|].
    change (q_servers (L q)) with (q_servers q). destruct (eltb (Fin 0) (q_servers q)); [|reflexivity]. rewrite rq_servers_soft. reflexivity.
  - unfold info_action. change (c_class (q_cfg (L q))) with (c_class (q_cfg q)). destruct (is_info _); [|reflexivity].
    change (q_net (L q)) with (q_net q). rewrite rmap_bind. apply bind_ext. intros nd _. change (info_stats a (L q)) with (info_stats a q). rewrite rmap_bind. apply bind_ext. intros st _.
    change (load (L q)) with (load q). rewrite rmap_bind. apply bind_ext. intros ld _. change (c_idx (q_cfg (L q))) with (c_idx (q_cfg q)). change (q_now (L q)) with (q_now q). change (q_servers (L q)) with (q_servers q).
    rewrite rmap_bind. apply bind_ext. intros nd' _. reflexivity.
Qed.
Lemma add_soft a q : add_arrival a (L q) = rmap L (add_arrival a q).
Proof.
  assert (G : (let q1 := set_q_total (q_total (L q) + 1) (L q) in let* h := push_item (q_arr q1) a in update_time_if (set_q_arr h q1)) =
    rmap L (let q1 := set_q_total (q_total q + 1) q in let* h := push_item (q_arr q1) a in update_time_if (set_q_arr h q1))).
  { cbv zeta. change (q_arr (set_q_total (q_total (L q) + 1) (L q))) with (q_arr q). change (q_arr (set_q_total (q_total q + 1) q)) with (q_arr q).
    rewrite rmap_bind. apply bind_ext. intros h _. rewrite <- update_if_soft. reflexivity. }
  unfold add_arrival. change (c_class (q_cfg (L q))) with (c_class (q_cfg q)). destruct (c_class (q_cfg q)); try exact G.
  change (q_collect (L q)) with (q_collect q). destruct (q_collect q); reflexivity.
Qed.
Lemma srv_soft q t : call_srv (L q) t = (fst (call_srv q t), L (snd (call_srv q t))).
Proof. reflexivity. Qed.
Lemma service_soft q : service_from_queue (L q) = rmap L (service_from_queue q).
Proof.
  unfold service_from_queue. change (q_line (L q)) with (q_line q). destruct (q_line q) as [|a l]; [reflexivity|].
  change (set_q_line l (L q)) with (L (set_q_line l q)). change (q_now (L (set_q_line l q))) with (q_now (set_q_line l q)).
  rewrite dlast_soft, bind_rmap, rmap_bind. apply bind_ext. intros q2 _.
  rewrite srv_soft. change (q_now (L q2)) with (q_now q2). destruct (call_srv q2 (q_now q2)) as [t q3]. cbn [fst snd] in *.
  rewrite action_soft, bind_rmap, rmap_bind. apply bind_ext. intros [a' q4] _. cbn [ps fst snd]. change (q_dep (L q4)) with (q_dep q4). rewrite rmap_bind. apply bind_ext. intros h _. reflexivity.
Qed.
Lemma delay_soft t q : delay_service t (L q) = rmap L (delay_service t q).
Proof.
  unfold delay_service. change (c_class (q_cfg (L q))) with (c_class (q_cfg q)). change (q_dep (L q)) with (q_dep q).
  destruct (c_class (q_cfg q)); try reflexivity;
  (destruct (1 <? length (q_dep q))%nat; [|reflexivity]; destruct (heappop itime (q_dep q)) as [[[|a] h]|]; try reflexivity; destruct t as [t|];
    [|rewrite srv_soft; destruct (call_srv q (ag_time a)) as [t q1]; cbn [fst snd]]; rewrite rmap_bind; apply bind_ext; intros h' _; rewrite <- update_soft; reflexivity).
Qed.
Lemma departure_soft q : qs_departure (L q) = rmap es (qs_departure q).
Proof.
  unfold qs_departure. change (q_dep (L q)) with (q_dep q). rewrite rmap_bind. apply bind_ext. intros [a h] _.
  set (q1 := set_q_departed _ (set_q_nsys _ (set_q_total _ (set_q_now _ (set_q_dep h q))))).
  change (set_q_departed _ (set_q_nsys _ (set_q_total _ (set_q_now _ (set_q_dep h (L q)))))) with (L q1).
  change (q_now (L q1)) with (q_now q1). rewrite dlast_soft, bind_rmap, rmap_bind. apply bind_ext. intros q2 _.
  cbv zeta. change (q_line (L q2)) with (q_line q2). change (q_nsys (L q2)) with (q_nsys q2). change (q_servers (L q2)) with (q_servers q2).
  rewrite service_soft. change (Ok (L q2)) with (rmap L (Ok q2)). rewrite <- rmap_if, bind_rmap, rmap_bind. apply bind_ext. intros q3 _.
  rewrite action_soft, bind_rmap, rmap_bind. apply bind_ext. intros [a' q4] _. cbn [ps fst snd]. rewrite update_soft, bind_rmap, rmap_bind. apply bind_ext. intros q5 _. reflexivity.
Qed.
Lemma repeat_soft k : forall q, repeat_service k (L q) = rmap L (repeat_service k q).
Proof.
  induction k as [|k IH]; intros q; cbn [repeat_service]; [reflexivity|]. rewrite service_soft. rewrite bind_rmap, rmap_bind. apply bind_ext. intros q' _. apply IH.
Qed.
Lemma servers_soft z q : set_num_servers z (L q) = rmap L (set_num_servers z q).
Proof.
  assert (G : qs_set_num_servers z (L q) = rmap L (qs_set_num_servers z q)).
  { unfold qs_set_num_servers. cbv zeta. change (q_line (L q)) with (q_line q). change (q_servers (L q)) with (q_servers q).
    assert (GO : forall m k, (let* q1 := repeat_service (Z.to_nat k) (L q) in let* q2 := if 0 <? k then update_time q1 else Ok q1 in Ok (set_q_servers m q2)) =
      rmap L (let* q1 := repeat_service (Z.to_nat k) q in let* q2 := if 0 <? k then update_time q1 else Ok q1 in Ok (set_q_servers m q2))).
    { intros m k. rewrite repeat_soft. rewrite bind_rmap, rmap_bind. apply bind_ext. intros q1 _. rewrite update_soft.
      change (Ok (L q1)) with (rmap L (Ok q1)). rewrite <- rmap_if, bind_rmap, rmap_bind. apply bind_ext. intros q2 _. reflexivity. }
    destruct z as [z| |]; [|destruct (q_servers q); [apply GO|reflexivity]|reflexivity].
    destruct (z <=? 0); [reflexivity|]. destruct (q_servers q); apply GO. }
  unfold set_num_servers. change (c_class (q_cfg (L q))) with (c_class (q_cfg q)). destruct (c_class (q_cfg q)); try exact G; [reflexivity|].
  destruct z; cbn [rmap]; rewrite ?rq_servers_soft; reflexivity.
Qed.
Lemma clear_soft q : clear (L q) = L (clear q).
Proof. unfold clear. change (c_class (q_cfg (L q))) with (c_class (q_cfg q)). destruct (c_class (q_cfg q)); reflexivity. Qed.

Lemma new_soft q t : new_agent (L q) t = new_agent q t.
Proof. reflexivity. Qed.
Lemma add_new_soft q : add_arrival_new (L q) = rmap L (add_arrival_new q).
Proof.
  unfold add_arrival_new. change (q_next_ct (L q)) with (q_next_ct q). change (q_now (L q)) with (q_now q).
  destruct (eleb (q_next_ct q) (q_now q)); [|apply update_if_soft].
  change (c_arr (q_cfg (L q)) (q_ia (L q)) (q_now q)) with (c_arr (q_cfg q) (q_ia q) (q_now q)).
  set (t := c_arr (q_cfg q) (q_ia q) (q_now q)). cbv zeta. change (c_deactive_t (q_cfg (L q))) with (c_deactive_t (q_cfg q)). change (c_class (q_cfg (L q))) with (c_class (q_cfg q)).
  set (q1 := set_q_ia (Datatypes.S (q_ia q)) (set_q_next_ct t q)).
  change (set_q_ia (Datatypes.S (q_ia (L q))) (set_q_next_ct t (L q))) with (L q1).
  destruct (eleb (c_deactive_t (q_cfg q)) t); [destruct (is_info _); reflexivity|].
  set (q2 := set_q_total (q_total q1 + 1) q1). change (set_q_total (q_total (L q1) + 1) (L q1)) with (L q2).
  rewrite (new_soft q2 t). rewrite rmap_bind. apply bind_ext. intros a _. change (q_arr (L q2)) with (q_arr q2). rewrite rmap_bind. apply bind_ext. intros h _.
  rewrite <- update_if_soft. f_equal. change (c_active_cap (q_cfg (L q))) with (c_active_cap (q_cfg q)). 
  set (q3 := set_q_oarr (q_oarr q2 + 1) (set_q_arr h q2)). change (set_q_oarr (q_oarr (L q2) + 1) (set_q_arr h (L q2))) with (L q3). change (q_oarr (L q3)) with (q_oarr q3). destruct (eleb _ _); reflexivity.
Qed.
Lemma add_self_soft q : add_arrival_self (L q) = rmap L (add_arrival_self q).
Proof. unfold add_arrival_self. change (c_class (q_cfg (L q))) with (c_class (q_cfg q)). destruct (c_class (q_cfg q)); try apply add_new_soft. reflexivity. Qed.
Lemma arrival_soft q : qs_arrival (L q) = rmap es (qs_arrival q).
Proof.
  unfold qs_arrival. change (q_arr (L q)) with (q_arr q). rewrite rmap_bind. apply bind_ext. intros [a h] _.
  set (q1 := set_q_now (ag_time a) (set_q_arr h q)). change (set_q_now (ag_time a) (set_q_arr h (L q))) with (L q1).
  cbv zeta. change (q_active (L q1)) with (q_active q1). rewrite add_self_soft. change (Ok (L q1)) with (rmap L (Ok q1)).
  rewrite <- rmap_if, bind_rmap, rmap_bind. apply bind_ext. intros q2 _.
  set (q3 := set_q_narr (q_narr q2 + 1) (set_q_nsys (q_nsys q2 + 1) q2)). change (set_q_narr (q_narr (L q2) + 1) (set_q_nsys (q_nsys (L q2) + 1) (L q2))) with (L q3).
  change (q_line (L q3)) with (q_line q3). change (q_nsys (L q3)) with (q_nsys q3). change (q_servers (L q3)) with (q_servers q3).
  set (q4 := if q_collect q3 then _ else q3).
  match goal with |- bind (queue_action a ?x) _ = _ => assert (E : x = L q4) end.
  { unfold q4. change (q_collect (L q3)) with (q_collect q3). destruct (q_collect q3); reflexivity. }
  rewrite E. clear E. rewrite action_soft, bind_rmap, rmap_bind. apply bind_ext. intros [a1 q5] _. cbn [ps fst snd].
  change (q_nsys (L q5)) with (q_nsys q5). change (q_servers (L q5)) with (q_servers q5). rewrite rmap_if.
  destruct (eleb (Fin (q_nsys q5)) (q_servers q5)).
  - change (q_collect (L q5)) with (q_collect q5). change (q_data (L q5)) with (q_data q5).
    match goal with |- bind ?x _ = _ => assert (E : x = rmap L (if q_collect q5 then let* d := dlast (q_data q5) (ag_id a1) (row_set_srv (ag_time a1)) in Ok (set_q_data d q5) else Ok q5)) end.
    { destruct (q_collect q5); [|reflexivity]. destruct (dlast (q_data q5) (ag_id a1) (row_set_srv (ag_time a1))); reflexivity. }
    rewrite E. clear E. rewrite bind_rmap, rmap_bind. apply bind_ext. intros q6 _.
    rewrite srv_soft. destruct (call_srv q6 (ag_time a1)) as [t q7]. cbn [fst snd] in *.
    rewrite action_soft, bind_rmap, rmap_bind. apply bind_ext. intros [a2 q8] _. cbn [ps fst snd]. change (q_dep (L q8)) with (q_dep q8).
    rewrite rmap_bind. apply bind_ext. intros h2 _. change (set_q_dep h2 (L q8)) with (L (set_q_dep h2 q8)).
    rewrite update_soft, bind_rmap, rmap_bind. apply bind_ext. intros q9 _. reflexivity.
  - change (set_q_line (q_line (L q5) ++ [a1]) (L q5)) with (L (set_q_line (q_line q5 ++ [a1]) q5)).
    rewrite update_soft, bind_rmap, rmap_bind. apply bind_ext. intros q6 _. reflexivity.
Qed.
Lemma qs_soft q : qs_next_event (L q) = rmap es (qs_next_event q).
Proof.
  unfold qs_next_event. change (q_arr (L q)) with (q_arr q). change (q_dep (L q)) with (q_dep q). rewrite rmap_bind. apply bind_ext. intros ta _. rewrite rmap_bind. apply bind_ext. intros td _.
  rewrite !rmap_if, departure_soft, arrival_soft. reflexivity.
Qed.
Lemma active_soft q : set_active (L q) = rmap L (set_active q).
Proof.
  unfold set_active. change (q_active (L q)) with (q_active q). destruct (q_active q); [reflexivity|].
  change (set_q_active true (L q)) with (L (set_q_active true q)). apply add_self_soft.
Qed.
Lemma note_soft q i r : (if q_collect (L q) then set_q_data (dappend (q_data (L q)) i r) (L q) else L q) = L (if q_collect q then set_q_data (dappend (q_data q) i r) q else q).
Proof. change (q_collect (L q)) with (q_collect q). destruct (q_collect q); reflexivity. Qed.
Lemma lost_soft q : loss_blocked (L q) = rmap es (loss_blocked q).
Proof.
  unfold loss_blocked. cbv zeta. set (q0 := set_q_total (q_total q - 1) (set_q_blocked (q_blocked q + 1) q)). change (set_q_total (q_total (L q) - 1) (set_q_blocked (q_blocked (L q) + 1) (L q))) with (L q0).
  change (q_arr (L q0)) with (q_arr q0). rewrite rmap_bind. apply bind_ext. intros [a h] _. change (add_loss a (L q0)) with (add_loss a q0). rewrite rmap_bind. apply bind_ext. intros y _.
  set (q1 := set_q_now (ag_time a) (set_q_arr h q0)) in *. change (set_q_now (ag_time a) (set_q_arr h (L q0))) with (L q1).
  change (q_active (L q1)) with (q_active q1). rewrite add_self_soft. change (Ok (L q1)) with (rmap L (Ok q1)). rewrite <- rmap_if, bind_rmap, rmap_bind. apply bind_ext. intros q2 _.
  rewrite note_soft. change (q_line (L q2)) with (q_line q2). change (q_nsys (L q2)) with (q_nsys q2). rewrite update_soft, bind_rmap, rmap_bind. apply bind_ext. intros q4 _. reflexivity.
Qed.
Lemma drop_soft (x : res (option agent * queue)) : (let* (_, q') := rmap es x in Ok (None, q')) = rmap es (let* (_, q') := x in Ok (None, q')).
Proof. destruct x as [[r q]|]; reflexivity. Qed.
Lemma loss_soft q : loss_next_event (L q) = rmap es (loss_next_event q).
Proof.
  unfold loss_next_event. change (q_arr (L q)) with (q_arr q). change (q_dep (L q)) with (q_dep q). rewrite rmap_bind. apply bind_ext. intros ta _. rewrite rmap_bind. apply bind_ext. intros td _.
  change (q_nsys (L q)) with (q_nsys q). change (q_servers (L q)) with (q_servers q). change (c_buffer (q_cfg (L q))) with (c_buffer (q_cfg q)).
  rewrite qs_soft, lost_soft, drop_soft, !rmap_if. reflexivity.
Qed.
Lemma rq_soft q : rq_next_event (L q) = rmap es (rq_next_event q).
Proof.
  assert (R : rq_return (L q) = rmap es (rq_return q)).
  { unfold rq_return. change (q_arr (L q)) with (q_arr q). rewrite rmap_bind. apply bind_ext. intros [b h] _. cbv zeta.
    set (q1 := set_q_total (q_total q - 1) (set_q_now (ag_time b) (set_q_arr h q))) in *. change (set_q_total (q_total (L q) - 1) (set_q_now (ag_time b) (set_q_arr h (L q)))) with (L q1).
    change (q_servers (L q1)) with (q_servers q1). rewrite rq_servers_soft. set (q2 := rq_set_num_servers (eadd (q_servers q1) (Fin 1)) q1) in *.
    rewrite note_soft. change (q_line (L q2)) with (q_line q2). change (q_nsys (L q2)) with (q_nsys q2). rewrite update_soft, bind_rmap, rmap_bind. apply bind_ext. intros q4 _. reflexivity. }
  assert (B : rq_blocked (L q) = rmap es (rq_blocked q)).
  { unfold rq_blocked. cbv zeta. set (q0 := set_q_total (q_total q - 1) (set_q_narr (q_narr q + 1) (set_q_blocked (q_blocked q + 1) q))) in *.
    change (set_q_total (q_total (L q) - 1) (set_q_narr (q_narr (L q) + 1) (set_q_blocked (q_blocked (L q) + 1) (L q)))) with (L q0). change (q_arr (L q0)) with (q_arr q0).
    rewrite rmap_bind. apply bind_ext. intros [b h] _. set (q1 := set_q_now (ag_time b) (set_q_arr h q0)) in *. change (set_q_now (ag_time b) (set_q_arr h (L q0))) with (L q1).
    rewrite note_soft. change (q_line (L q1)) with (q_line q1). change (q_nsys (L q1)) with (q_nsys q1). rewrite update_soft, bind_rmap, rmap_bind. apply bind_ext. intros q4 _. reflexivity. }
  unfold rq_next_event. change (q_arr (L q)) with (q_arr q). change (q_dep (L q)) with (q_dep q). change (q_nsys (L q)) with (q_nsys q). change (q_servers (L q)) with (q_servers q).
  destruct (q_arr q) as [|[|a] l] eqn:AR; [reflexivity|apply loss_soft|]. destruct (ag_kind a); try apply loss_soft.
  rewrite rmap_bind. apply bind_ext. intros td _. rewrite loss_soft, R, B, drop_soft, !rmap_if. reflexivity.
Qed.
Lemma info_soft q : info_next_event (L q) = rmap es (info_next_event q).
Proof.
  unfold info_next_event. change (q_arr (L q)) with (q_arr q). change (q_dep (L q)) with (q_dep q). destruct (q_arr q) as [|i l] eqn:AR; [reflexivity|]. rewrite rmap_bind. apply bind_ext. intros td _.
  assert (X : extract_information (L q) i = rmap L (extract_information q i)).
  { unfold extract_information. destruct i as [|a]; [reflexivity|]. destruct (ag_kind a); try reflexivity. change (q_net (L q)) with (q_net q). rewrite rmap_bind. apply bind_ext. intros nd _. reflexivity. }
  rewrite X. change (Ok (L q)) with (rmap L (Ok q)). rewrite <- rmap_if, bind_rmap, rmap_bind. apply bind_ext. intros q1 _. apply loss_soft.
Qed.
Lemma next_soft q : next_event (L q) = rmap es (next_event q).
Proof.
  unfold next_event. change (c_class (q_cfg (L q))) with (c_class (q_cfg q)). destruct (c_class (q_cfg q)); [apply qs_soft|apply loss_soft|reflexivity|apply rq_soft|apply info_soft].
Qed.
Lemma op_soft o q : run_op o (L q) = rmap L (run_op o q).
Proof.
  destruct o as [| | |z|t|a|b| |]; cbn [run_op]; try reflexivity.
  - rewrite next_soft. destruct (next_event q) as [[r q']|]; reflexivity.
  - apply active_soft.
  - apply servers_soft.
  - apply delay_soft.
  - apply add_soft.
  - cbn [rmap]. rewrite clear_soft. reflexivity.
Qed.
Lemma ops_soft l : forall q, run_ops l (L q) = rmap L (run_ops l q).
Proof.
  induction l as [|o l IH]; intros q; cbn [run_ops]; [reflexivity|]. rewrite op_soft, bind_rmap, rmap_bind. apply bind_ext. intros q1 _. apply IH.
Qed.

(** ** Networks *)

Notation N := soft_net.

Lemma at_soft k n : queue_at k (N n) = rmap L (queue_at k n).
Proof. unfold queue_at, soft_net. cbn [set_nt_queues nt_queues]. rewrite get_map, of_option_map. reflexivity. Qed.
Lemma put_soft k q n : put_queue k (L q) (N n) = N (put_queue k q n).
Proof. unfold put_queue, soft_net. cbn [set_nt_queues nt_queues]. rewrite upd_map. reflexivity. Qed.
Lemma stop_soft q n : stop_if_full (L q) (N n) = L (stop_if_full q n).
Proof. unfold stop_if_full. change (full (N n)) with (full n). change (q_active (L q)) with (q_active q). destruct (q_active q && full n); reflexivity. Qed.
Lemma mark_soft q : mark_blocked (L q) = rmap L (mark_blocked q).
Proof. unfold mark_blocked. change (first_departure (L q)) with (first_departure q). rewrite rmap_bind. apply bind_ext. intros x _. reflexivity. Qed.
Lemma count_soft k z n : set_count k z (N n) = rmap N (set_count k z n).
Proof. unfold set_count. unfold soft_net. cbn [set_nt_queues nt_nagents]. destruct (set (nt_nagents n) k z); reflexivity. Qed.
Lemma push_soft k n : net_push k (N n) = rmap N (net_push k n).
Proof. unfold net_push. unfold soft_net. cbn [set_nt_queues nt_heap]. destruct (pq_push (nt_heap n) (fst k) (snd k)); reflexivity. Qed.
Lemma queued_soft l n : numbers_queued l (N n) = numbers_queued l n.
Proof.
  induction l as [|e l IH]; [reflexivity|]. cbn [numbers_queued]. rewrite at_soft, bind_rmap, IH. apply bind_ext. intros q _. reflexivity.
Qed.
Definition ds (x : nat * net) : nat * net := (fst x, N (snd x)).
Lemma desired_soft x v n : desired_destination x v (N n) = rmap ds (desired_destination x v n).
Proof.
  unfold desired_destination. change (nt_out (N n)) with (nt_out n). rewrite rmap_bind. apply bind_ext. intros l _.
  rewrite queued_soft. change (nt_u (N n) (nt_iu (N n))) with (nt_u n (nt_iu n)). change (set_nt_iu (Datatypes.S (nt_iu (N n))) (N n)) with (N (set_nt_iu (Datatypes.S (nt_iu n)) n)). change (nt_probs (N n)) with (nt_probs n). cbv zeta.
  destruct (ag_kind x).
  all: try (rewrite rmap_if; destruct (length l <=? 1)%nat; [destruct (get l 0); reflexivity|]; rewrite rmap_bind; apply bind_ext; intros pr _; rewrite rmap_bind; apply bind_ext; intros k _;
    rewrite rmap_bind; apply bind_ext; intros e _; reflexivity).
  rewrite rmap_bind. apply bind_ext. intros zs _. rewrite rmap_bind. apply bind_ext. intros d _. rewrite rmap_bind. apply bind_ext. intros e _. reflexivity.
Qed.
Lemma block_soft k e2 n : block_agent k e2 (N n) = rmap N (block_agent k e2 n).
Proof.
  unfold block_agent. rewrite at_soft, bind_rmap, rmap_bind. apply bind_ext. intros q2 E2. cbv zeta.
  change (set_q_blocked (q_blocked (L q2) + 1) (L q2)) with (L (set_q_blocked (q_blocked q2 + 1) q2)). rewrite put_soft.
  set (n1 := put_queue e2 (set_q_blocked (q_blocked q2 + 1) q2) n). rewrite at_soft, bind_rmap, rmap_bind. apply bind_ext. intros q1 E1. rewrite mark_soft, bind_rmap, rmap_bind. apply bind_ext. intros q1' M.
  rewrite put_soft. set (n2 := put_queue k q1' n1).
  change (nt_bas (N n2)) with (nt_bas n2). rewrite rmap_if. destruct (nt_bas n2) eqn:BAS.
  - rewrite at_soft, bind_rmap, rmap_bind. apply bind_ext. intros q3 _. change (q_dep (L q3)) with (q_dep q3). rewrite rmap_bind. apply bind_ext. intros td _.
    change (nt_eps (N n2) (nt_ie (N n2))) with (nt_eps n2 (nt_ie n2)). change (set_nt_ie (Datatypes.S (nt_ie (N n2))) (N n2)) with (N (set_nt_ie (Datatypes.S (nt_ie n2)) n2)).
    set (n3 := set_nt_ie (Datatypes.S (nt_ie n2)) n2). rewrite at_soft, bind_rmap, rmap_bind. apply bind_ext. intros q4 E4.
    rewrite delay_soft, bind_rmap, rmap_bind. apply bind_ext. intros q5 _. cbn [rmap]. rewrite put_soft. reflexivity.
  - rewrite at_soft, bind_rmap, rmap_bind. apply bind_ext. intros q4 E4. rewrite delay_soft, bind_rmap, rmap_bind.
    apply bind_ext. intros q5 _. cbn [rmap]. rewrite put_soft. reflexivity.
Qed.
Lemma reschedule_soft k e2 t n : reschedule k e2 t (N n) = rmap N (reschedule k e2 t n).
Proof.
  unfold reschedule. rewrite at_soft, bind_rmap, rmap_bind. apply bind_ext. intros q1 _. rewrite at_soft, bind_rmap, rmap_bind. apply bind_ext. intros q2 _. cbv zeta.
  change (qkey (L q1)) with (qkey q1). change (qkey (L q2)) with (qkey q2). rewrite !push_soft, rmap_if. change (q_time (L q1)) with (q_time q1). change (q_time (L q2)) with (q_time q2). destruct (negb _).
  - rewrite bind_rmap, rmap_bind. apply bind_ext. intros n1 _. rewrite rmap_if, push_soft. reflexivity.
  - rewrite rmap_if. reflexivity.
Qed.

Lemma move_soft k e1 e2 t n : move_agent k e1 e2 t (N n) = rmap N (move_agent k e1 e2 t n).
Proof.
  unfold move_agent. rewrite at_soft, bind_rmap, rmap_bind. apply bind_ext. intros q1 _.
  rewrite next_soft, bind_rmap, rmap_bind. apply bind_ext. intros [[x|] q1'] _; cbn [es fst snd]; [|reflexivity].
  cbv zeta. rewrite put_soft. set (n1 := put_queue k q1' n).
  rewrite at_soft, bind_rmap, rmap_bind. apply bind_ext. intros q2 _.
  rewrite add_soft, bind_rmap, rmap_bind. apply bind_ext. intros q2' _.
  rewrite put_soft. set (n2 := put_queue e2 q2' n1).
  rewrite at_soft, bind_rmap, rmap_bind. apply bind_ext. intros q1b _. change (q_total (L q1b)) with (q_total q1b). rewrite count_soft, bind_rmap, rmap_bind. apply bind_ext. intros n3 _.
  change (q_total (L q2')) with (q_total q2'). rewrite count_soft, bind_rmap, rmap_bind. apply bind_ext. intros n4 _.
  rewrite stop_soft, put_soft. set (n5 := put_queue e2 (stop_if_full q2' n4) n4).
  rewrite at_soft, bind_rmap, rmap_bind. apply bind_ext. intros q2b _. rewrite next_soft, bind_rmap, rmap_bind. apply bind_ext. intros [r q2c] _.
  cbn [es fst snd]. rewrite put_soft. apply count_soft.
Qed.
Lemma departs_soft k t n : net_departure k t (N n) = rmap N (net_departure k t n).
Proof.
  unfold net_departure. rewrite at_soft, bind_rmap, rmap_bind. apply bind_ext. intros q1 _. cbv zeta. change (first_departure (L q1)) with (first_departure q1). rewrite rmap_bind. apply bind_ext. intros x _.
  change (c_tgt (q_cfg (L q1))) with (c_tgt (q_cfg q1)). change (c_idx (q_cfg (L q1))) with (c_idx (q_cfg q1)). rewrite desired_soft, bind_rmap, rmap_bind. apply bind_ext. intros [e2 n1] _.
  cbn [ds fst snd]. rewrite at_soft, bind_rmap, rmap_bind. apply bind_ext. intros q2 _. change (at_capacity (L q2)) with (at_capacity q2). change (q_time (L q2)) with (q_time q2).
  rewrite move_soft, block_soft, <- rmap_if, bind_rmap, rmap_bind. apply bind_ext. intros n2 _. apply reschedule_soft.
Qed.
Lemma arrives_soft k n : net_arrival k (N n) = rmap N (net_arrival k n).
Proof.
  unfold net_arrival. rewrite at_soft, bind_rmap, rmap_bind. apply bind_ext. intros q1 _. cbv zeta. rewrite stop_soft, next_soft, bind_rmap, rmap_bind. apply bind_ext. intros [r q2] _. cbn [es fst snd].
  rewrite put_soft. change (c_idx (q_cfg (L q1))) with (c_idx (q_cfg q1)). change (q_total (L q2)) with (q_total q2). rewrite count_soft, bind_rmap, rmap_bind. apply bind_ext. intros n2 _.
  change (q_time (L q2)) with (q_time q2). change (qkey (L q2)) with (qkey q2). rewrite push_soft, rmap_if. reflexivity.
Qed.
Lemma event_soft n : simulate_event (N n) = rmap N (simulate_event n).
Proof.
  unfold simulate_event. change (nt_heap (N n)) with (nt_heap n). rewrite rmap_if. destruct (pq_size (nt_heap n) =? 0)%nat; [reflexivity|].
  rewrite rmap_bind. apply bind_ext. intros [[[t k]|] h] _; [|reflexivity].
  cbv zeta. change (set_nt_heap h (N n)) with (N (set_nt_heap h n)). set (n1 := set_nt_heap h n). rewrite at_soft, bind_rmap, rmap_bind. apply bind_ext. intros q1 _.
  change (next_event_description (L q1)) with (next_event_description q1). rewrite rmap_bind. apply bind_ext. intros d _.
  change (set_nt_events (nt_events (N n1) + 1) (set_nt_t t (N n1))) with (N (set_nt_events (nt_events n1 + 1) (set_nt_t t n1))).
  set (n2 := set_nt_events (nt_events n1 + 1) (set_nt_t t n1)). rewrite !rmap_if, departs_soft, arrives_soft. reflexivity.
Qed.
Lemma finite_soft qs : finite_keys (map L qs) = finite_keys qs.
Proof.
  unfold finite_keys. induction qs as [|q qs IH]; [reflexivity|]. cbn [map filter]. change (q_time (L q)) with (q_time q). destruct (eltb (q_time q) Inf); cbn [map]; rewrite IH; reflexivity.
Qed.
Lemma not_null_soft l n : not_null l (N n) = not_null l n.
Proof. induction l as [|e l IH]; [reflexivity|]. cbn [not_null]. rewrite at_soft, bind_rmap, IH. apply bind_ext. intros q _. reflexivity. Qed.
Lemma activate_soft l : forall n, activate l (N n) = rmap N (activate l n).
Proof.
  induction l as [|e l IH]; intros n; cbn [activate]; [reflexivity|].
  rewrite at_soft, bind_rmap, rmap_bind. apply bind_ext. intros q _. rewrite active_soft, bind_rmap, rmap_bind. apply bind_ext. intros q' _.
  rewrite put_soft. change (q_total (L q')) with (q_total q'). rewrite count_soft, bind_rmap, rmap_bind. apply bind_ext. intros n1 _. apply IH.
Qed.
Lemma init_soft sel n : initialize_queues sel (N n) = rmap N (initialize_queues sel n).
Proof.
  unfold initialize_queues. rewrite not_null_soft, rmap_bind. apply bind_ext. intros qs _. rewrite rmap_if. destruct (length qs =? 0)%nat; [reflexivity|].
  change (nt_max (N n)) with (nt_max n). rewrite activate_soft, bind_rmap, rmap_bind. apply bind_ext. intros n1 _.
  change (nt_queues (N n1)) with (map L (nt_queues n1)). rewrite map_length, finite_soft. change (nt_heap (N n)) with (nt_heap n). rewrite rmap_bind. apply bind_ext. intros h _. reflexivity.
Qed.
Lemma on_queues_soft f : (forall q, f (L q) = L (f q)) -> forall l n, on_queues f l (N n) = rmap N (on_queues f l n).
Proof.
  intros Hf. induction l as [|e l IH]; intros n; cbn [on_queues]; [reflexivity|].
  rewrite at_soft, bind_rmap, rmap_bind. apply bind_ext. intros q Eq. rewrite Hf, put_soft. apply IH.
Qed.
Lemma call_soft c n : run_call c (N n) = rmap N (run_call c n).
Proof.
  destruct c as [sel| | |o]; cbn [run_call]; [apply init_soft| | |].
  - cbn [rmap]. f_equal. unfold net_clear, soft_net. cbn [set_nt_queues nt_queues nt_out nt_probs nt_nagents nt_t nt_events nt_max nt_init nt_heap nt_bas nt_u nt_iu nt_eps nt_ie].
    rewrite map_length. unfold set_nt_queues. cbn [nt_queues nt_out nt_probs nt_nagents nt_t nt_events nt_max nt_init nt_heap nt_bas nt_u nt_iu nt_eps nt_ie].
    f_equal. rewrite !map_map. apply map_ext. intro q. apply clear_soft.
  - unfold net_copy. change (nt_init (N n)) with (nt_init n). rewrite rmap_if. destruct (nt_init n); [|reflexivity].
    change (nt_queues (N n)) with (map L (nt_queues n)). rewrite map_length, finite_soft. change (nt_heap (N n)) with (nt_heap n). rewrite rmap_bind. apply bind_ext. intros h _. reflexivity.
  - destruct o as [|c l|l|p|m|c]; cbn [run_nop]; try reflexivity.
    + apply event_soft.
    + apply on_queues_soft. reflexivity.
    + apply on_queues_soft. reflexivity.
Qed.
Lemma calls_soft l : forall n, calls l (N n) = rmap N (calls l n).
Proof.
  induction l as [|c l IH]; intros n; cbn [calls]; [reflexivity|]. rewrite call_soft, bind_rmap, rmap_bind. apply bind_ext. intros n1 _. apply IH.
Qed.
Lemma soft_max w n : N (with_max w n) = N n.
Proof. unfold soft_net, with_max. cbn [set_nt_queues nt_queues]. rewrite map_map. reflexivity. Qed.
