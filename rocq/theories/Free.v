(** * Free: limits that have not switched a queue off *)
From Coq Require Import List ZArith QArith Lia Bool Arith.
From Verif Require Import Base Heap Queue PQueue Network SpecNet SpecQueue QueueEffects NetBare Clock ClockNet SpecFree.
Import ListNotations.
Open Scope Z_scope.

Notation L := free.
Definition pf (x : agent * queue) : agent * queue := (fst x, L (snd x)).
Definition ef (x : option agent * queue) : option agent * queue := (fst x, L (snd x)).

(** ** Methods that do not look at the limits *)

Lemma dlast_free q i f : dlast_if (L q) i f = rmap L (dlast_if q i f).
Proof.
  unfold dlast_if. change (q_collect (L q)) with (q_collect q). change (q_data (L q)) with (q_data q). destruct (q_collect q); [|reflexivity].
  destruct (dget (q_data q) i); [|reflexivity]. destruct (dlast (q_data q) i f); reflexivity.
Qed.
Lemma update_free q : update_time (L q) = rmap L (update_time q).
Proof.
  unfold update_time. change (q_arr (L q)) with (q_arr q). change (q_dep (L q)) with (q_dep q). destruct (root_time (q_arr q)); [|reflexivity]. cbn [bind]. destruct (root_time (q_dep q)); reflexivity.
Qed.
Lemma update_if_free q : update_time_if (L q) = rmap L (update_time_if q).
Proof.
  unfold update_time_if. change (q_arr (L q)) with (q_arr q). change (q_dep (L q)) with (q_dep q). destruct (root_time (q_arr q)); [|reflexivity]. cbn [bind]. destruct (root_time (q_dep q)); [|reflexivity].
  cbn [bind rmap]. destruct (eltb _ _); reflexivity.
Qed.
Lemma rq_servers_free z q : rq_set_num_servers z (L q) = L (rq_set_num_servers z q).
Proof. unfold rq_set_num_servers. change (c_max_servers (q_cfg (L q))) with (c_max_servers (q_cfg q)). destruct (eltb _ _); reflexivity. Qed.
Lemma action_free a q : queue_action a (L q) = rmap pf (queue_action a q).
Proof.
  unfold queue_action. destruct (ag_kind a); try reflexivity.
  - unfold resource_action. change (c_class (q_cfg (L q))) with (c_class (q_cfg q)). destruct (is_resource _); [|reflexivity]. destruct (ag_has a); [reflexivity|].
    change (q_servers (L q)) with (q_servers q). destruct (eltb (Fin 0) (q_servers q)); [|reflexivity]. rewrite rq_servers_free. reflexivity.
  - unfold info_action. change (c_class (q_cfg (L q))) with (c_class (q_cfg q)). destruct (is_info _); [|reflexivity].
    change (q_net (L q)) with (q_net q). rewrite rmap_bind. apply bind_ext. intros nd _. change (info_stats a (L q)) with (info_stats a q). rewrite rmap_bind. apply bind_ext. intros st _.
    change (load (L q)) with (load q). rewrite rmap_bind. apply bind_ext. intros ld _. change (c_idx (q_cfg (L q))) with (c_idx (q_cfg q)). change (q_now (L q)) with (q_now q). change (q_servers (L q)) with (q_servers q).
    rewrite rmap_bind. apply bind_ext. intros nd' _. reflexivity.
Qed.
Lemma add_free a q : add_arrival a (L q) = rmap L (add_arrival a q).
Proof.
  assert (G : (let q1 := set_q_total (q_total (L q) + 1) (L q) in let* h := push_item (q_arr q1) a in update_time_if (set_q_arr h q1)) =
    rmap L (let q1 := set_q_total (q_total q + 1) q in let* h := push_item (q_arr q1) a in update_time_if (set_q_arr h q1))).
  { cbv zeta. change (q_arr (set_q_total (q_total (L q) + 1) (L q))) with (q_arr q). change (q_arr (set_q_total (q_total q + 1) q)) with (q_arr q).
    rewrite rmap_bind. apply bind_ext. intros h _. rewrite <- update_if_free. reflexivity. }
  unfold add_arrival. change (c_class (q_cfg (L q))) with (c_class (q_cfg q)). destruct (c_class (q_cfg q)); try exact G.
  change (q_collect (L q)) with (q_collect q). destruct (q_collect q); reflexivity.
Qed.
Lemma srv_free q t : call_srv (L q) t = (fst (call_srv q t), L (snd (call_srv q t))).
Proof. reflexivity. Qed.
Lemma service_free q : service_from_queue (L q) = rmap L (service_from_queue q).
Proof.
  unfold service_from_queue. change (q_line (L q)) with (q_line q). destruct (q_line q) as [|a l]; [reflexivity|].
  change (set_q_line l (L q)) with (L (set_q_line l q)). change (q_now (L (set_q_line l q))) with (q_now (set_q_line l q)).
  rewrite dlast_free, bind_rmap, rmap_bind. apply bind_ext. intros q2 _.
  rewrite srv_free. change (q_now (L q2)) with (q_now q2). destruct (call_srv q2 (q_now q2)) as [t q3]. cbn [fst snd] in *.
  rewrite action_free, bind_rmap, rmap_bind. apply bind_ext. intros [a' q4] _. cbn [pf fst snd]. change (q_dep (L q4)) with (q_dep q4). rewrite rmap_bind. apply bind_ext. intros h _. reflexivity.
Qed.
Lemma delay_free t q : delay_service t (L q) = rmap L (delay_service t q).
Proof.
  unfold delay_service. change (c_class (q_cfg (L q))) with (c_class (q_cfg q)). change (q_dep (L q)) with (q_dep q).
  destruct (c_class (q_cfg q)); try reflexivity;
  (destruct (1 <? length (q_dep q))%nat; [|reflexivity]; destruct (heappop itime (q_dep q)) as [[[|a] h]|]; try reflexivity; destruct t as [t|];
    [|rewrite srv_free; destruct (call_srv q (ag_time a)) as [t q1]; cbn [fst snd]]; rewrite rmap_bind; apply bind_ext; intros h' _; rewrite <- update_free; reflexivity).
Qed.
Lemma departure_free q : qs_departure (L q) = rmap ef (qs_departure q).
Proof.
  unfold qs_departure. change (q_dep (L q)) with (q_dep q). rewrite rmap_bind. apply bind_ext. intros [a h] _.
  set (q1 := set_q_departed _ (set_q_nsys _ (set_q_total _ (set_q_now _ (set_q_dep h q))))).
  change (set_q_departed _ (set_q_nsys _ (set_q_total _ (set_q_now _ (set_q_dep h (L q)))))) with (L q1).
  change (q_now (L q1)) with (q_now q1). rewrite dlast_free, bind_rmap, rmap_bind. apply bind_ext. intros q2 _.
  cbv zeta. change (q_line (L q2)) with (q_line q2). change (q_nsys (L q2)) with (q_nsys q2). change (q_servers (L q2)) with (q_servers q2).
  rewrite service_free. change (Ok (L q2)) with (rmap L (Ok q2)). rewrite <- rmap_if, bind_rmap, rmap_bind. apply bind_ext. intros q3 _.
  rewrite action_free, bind_rmap, rmap_bind. apply bind_ext. intros [a' q4] _. cbn [pf fst snd]. rewrite update_free, bind_rmap, rmap_bind. apply bind_ext. intros q5 _. reflexivity.
Qed.
Lemma repeat_free k : forall q, repeat_service k (L q) = rmap L (repeat_service k q).
Proof.
  induction k as [|k IH]; intros q; cbn [repeat_service]; [reflexivity|]. rewrite service_free. rewrite bind_rmap, rmap_bind. apply bind_ext. intros q' _. apply IH.
Qed.
Lemma servers_free z q : set_num_servers z (L q) = rmap L (set_num_servers z q).
Proof.
  assert (G : qs_set_num_servers z (L q) = rmap L (qs_set_num_servers z q)).
  { unfold qs_set_num_servers. cbv zeta. change (q_line (L q)) with (q_line q). change (q_servers (L q)) with (q_servers q).
    assert (GO : forall m k, (let* q1 := repeat_service (Z.to_nat k) (L q) in let* q2 := if 0 <? k then update_time q1 else Ok q1 in Ok (set_q_servers m q2)) =
      rmap L (let* q1 := repeat_service (Z.to_nat k) q in let* q2 := if 0 <? k then update_time q1 else Ok q1 in Ok (set_q_servers m q2))).
    { intros m k. rewrite repeat_free. rewrite bind_rmap, rmap_bind. apply bind_ext. intros q1 _. rewrite update_free.
      change (Ok (L q1)) with (rmap L (Ok q1)). rewrite <- rmap_if, bind_rmap, rmap_bind. apply bind_ext. intros q2 _. reflexivity. }
    destruct z as [z| |]; [|destruct (q_servers q); [apply GO|reflexivity]|reflexivity].
    destruct (z <=? 0); [reflexivity|]. destruct (q_servers q); apply GO. }
  unfold set_num_servers. change (c_class (q_cfg (L q))) with (c_class (q_cfg q)). destruct (c_class (q_cfg q)); try exact G; [reflexivity|].
  destruct z; cbn [rmap]; rewrite ?rq_servers_free; reflexivity.
Qed.
Lemma clear_free q : clear (L q) = L (clear q).
Proof. unfold clear. change (c_class (q_cfg (L q))) with (c_class (q_cfg q)). destruct (c_class (q_cfg q)); reflexivity. Qed.

(** ** What they keep *)

Definition kept (q q' : queue) : Prop := q_cfg q' = q_cfg q /\ q_active q' = q_active q /\ q_next_ct q' = q_next_ct q /\ q_oarr q' = q_oarr q.
Lemma kept_refl q : kept q q.
Proof. repeat split. Qed.
Lemma kept_trans a b c : kept a b -> kept b c -> kept a c.
Proof. intros (A & B & C & D) (A' & B' & C' & D'). repeat split; congruence. Qed.
Lemma kept_spent q q' : kept q q' -> spent q -> spent q'.
Proof. intros (A & B & C & D) X. unfold spent in *. rewrite A, B, C, D. exact X. Qed.
Lemma k_dlast q i f q' : dlast_if q i f = Ok q' -> kept q q'.
Proof. unfold dlast_if. destruct (q_collect q); [|intro H; injection H as <-; repeat split]. destruct (dget (q_data q) i); intro H; [mbind H|]; injection H as <-; repeat split. Qed.
Lemma k_update q q' : update_time q = Ok q' -> kept q q'.
Proof. unfold update_time. intro H. do 2 (mbind H). injection H as <-. repeat split. Qed.
Lemma k_update_if q q' : update_time_if q = Ok q' -> kept q q'.
Proof. unfold update_time_if. intro H. do 2 (mbind H). injection H as <-. destruct (eltb _ _); repeat split. Qed.
Lemma k_rq z q : kept q (rq_set_num_servers z q).
Proof. unfold rq_set_num_servers. destruct (eltb _ _); repeat split. Qed.
Lemma k_action a q a' q' : queue_action a q = Ok (a', q') -> kept q q'.
Proof.
  intros H. unfold queue_action in H. destruct (ag_kind a).
  all: try (injection H as _ <-; apply kept_refl).
  - unfold resource_action in H. destruct (is_resource _) in H; [|injection H as _ <-; apply kept_refl]. destruct (ag_has a) in H; [injection H as _ <-; apply kept_refl|].
    destruct (eltb (Fin 0) (q_servers q)) in H; injection H as _ <-; [apply k_rq|apply kept_refl].
  - unfold info_action in H. destruct (is_info _) in H; [|injection H as _ <-; apply kept_refl]. do 4 (mbind H). injection H as _ <-. apply kept_refl.
Qed.
Lemma k_add a q q' : add_arrival a q = Ok q' -> kept q q'.
Proof.
  unfold add_arrival. destruct (c_class (q_cfg q)); intro H; try (cbv zeta in H; mbind H; apply k_update_if in H; exact H). injection H as <-. destruct (q_collect q); repeat split.
Qed.
Lemma k_service q q' : service_from_queue q = Ok q' -> kept q q'.
Proof.
  intros H. unfold service_from_queue in H. destruct (q_line q) as [|a l]; [discriminate|]. apply bind_Ok in H as (q2 & D & H). apply k_dlast in D. 
  unfold call_srv in H. apply bind_Ok in H as ([a' q4] & X & H). apply k_action in X. mbind H. injection H as <-. apply (kept_trans _ q2); [exact D|exact X].
Qed.
Lemma k_departure q r q' : qs_departure q = Ok (r, q') -> kept q q'.
Proof.
  intro H. unfold qs_departure in H. apply bind_Ok in H as ([a h] & _ & H). apply bind_Ok in H as (q2 & D & H). apply k_dlast in D. cbv zeta in H.
  apply bind_Ok in H as (q3 & T & H). assert (K3 : kept q2 q3). { destruct (_ && _) in T; [apply k_service in T; assumption | injection T as <-; apply kept_refl]. }
  apply bind_Ok in H as ([a' q4] & X & H). apply k_action in X. apply bind_Ok in H as (q5 & U & H). apply k_update in U. injection H as _ <-.
  apply (kept_trans _ q2); [exact D|]. apply (kept_trans _ q3); [exact K3|]. apply (kept_trans _ q4); assumption.
Qed.

(** ** The next arrival *)

Lemma new_free q t : new_agent (L q) t = new_agent q t.
Proof. reflexivity. Qed.
(** [_add_arrival] does the same without limits, or the queue is spent. *)
Lemma add_new_free q q' : add_arrival_new q = Ok q' -> add_arrival_new (L q) = Ok (L q') \/ spent q'.
Proof.
  unfold add_arrival_new. change (q_next_ct (L q)) with (q_next_ct q). change (q_now (L q)) with (q_now q).
  destruct (eleb (q_next_ct q) (q_now q)); [|intro H; left; rewrite update_if_free, H; reflexivity].
  change (c_arr (q_cfg (L q)) (q_ia (L q)) (q_now q)) with (c_arr (q_cfg q) (q_ia q) (q_now q)).
  set (t := c_arr (q_cfg q) (q_ia q) (q_now q)). cbv zeta. change (c_deactive_t (q_cfg (L q))) with Inf. change (c_class (q_cfg (L q))) with (c_class (q_cfg q)). change (c_active_cap (q_cfg (L q))) with Inf.
  set (q1 := set_q_ia (Datatypes.S (q_ia q)) (set_q_next_ct t q)). change (set_q_ia (Datatypes.S (q_ia (L q))) (set_q_next_ct t (L q))) with (L q1).
  destruct (eleb (c_deactive_t (q_cfg q)) t) eqn:DT.
  - destruct (is_info (c_class (q_cfg q))); intro H; [discriminate|]. injection H as <-. destruct (c_deactive_t (q_cfg q)) as [d|] eqn:CD.
    + right. split; [reflexivity|]. right. change (q_cfg (set_q_active false q1)) with (q_cfg q). change (q_next_ct (set_q_active false q1)) with t. rewrite CD. split; [apply eleb_le; exact DT|exact I].
    + left. rewrite DT. reflexivity.
  - assert (IT : eleb Inf t = false). { destruct t; [reflexivity|]. destruct (c_deactive_t (q_cfg q)); discriminate. } rewrite IT.
    set (q2 := set_q_total (q_total q1 + 1) q1). change (set_q_total (q_total (L q1) + 1) (L q1)) with (L q2). rewrite new_free. intro H.
    apply bind_Ok in H as (a & Ea & H). apply bind_Ok in H as (h & Eh & H). rewrite Ea. cbn [bind]. change (q_arr (L q2)) with (q_arr q2). rewrite Eh. cbn [bind].
    set (q3 := set_q_oarr (q_oarr q2 + 1) (set_q_arr h q2)) in *. change (set_q_oarr (q_oarr (L q2) + 1) (set_q_arr h (L q2))) with (L q3).
    change (eleb Inf (Fin (q_oarr (L q3)))) with false. cbv iota. destruct (eleb (c_active_cap (q_cfg q)) (Fin (q_oarr q3))) eqn:CP.
    + right. apply k_update_if in H. apply (kept_spent _ _ H). split; [reflexivity|]. left. apply eleb_le. exact CP.
    + left. rewrite update_if_free, H. reflexivity.
Qed.
Lemma add_self_free q q' : add_arrival_self q = Ok q' -> add_arrival_self (L q) = Ok (L q') \/ spent q'.
Proof.
  unfold add_arrival_self. change (c_class (q_cfg (L q))) with (c_class (q_cfg q)). destruct (c_class (q_cfg q)); try apply add_new_free. intro H. injection H as <-. left. reflexivity.
Qed.
(** The common part of [next_event]: a spent queue stays spent. *)
Lemma refill_free q q' : (if q_active q then add_arrival_self q else Ok q) = Ok q' ->
  ((if q_active (L q) then add_arrival_self (L q) else Ok (L q)) = Ok (L q') \/ spent q') /\ (spent q -> spent q').
Proof.
  intro H. change (q_active (L q)) with (q_active q). destruct (q_active q) eqn:A.
  - split; [apply add_self_free; exact H|]. intros [F _]. congruence.
  - injection H as <-. split; [left; reflexivity|auto].
Qed.
Definition fine (q : queue) (f : res (option agent * queue)) (r : option agent) (q' : queue) : Prop := (f = Ok (r, L q') \/ spent q') /\ (spent q -> spent q').
Lemma arrival_free q r q' : qs_arrival q = Ok (r, q') -> fine q (qs_arrival (L q)) r q'.
Proof.
  unfold qs_arrival. change (q_arr (L q)) with (q_arr q). intro H. apply bind_Ok in H as ([a h] & P & H). rewrite P. cbn [bind].
  set (q1 := set_q_now (ag_time a) (set_q_arr h q)) in *. change (set_q_now (ag_time a) (set_q_arr h (L q))) with (L q1).
  cbv zeta in *. apply bind_Ok in H as (q2 & E2 & H). apply refill_free in E2 as [E2 S2].
  set (q3 := set_q_narr (q_narr q2 + 1) (set_q_nsys (q_nsys q2 + 1) q2)) in *.
  set (q4 := if q_collect q3 then _ else q3) in H.
  assert (K : kept q2 q').
  { assert (K4 : kept q2 q4) by (unfold q4; destruct (q_collect q3); repeat split). apply bind_Ok in H as ([a1 q5] & X5 & H). apply k_action in X5. assert (K5 := kept_trans _ _ _ K4 X5).
    destruct (eleb _ _) in H; [apply bind_Ok in H as (q6 & E6 & H)|mbind H; injection H as _ <-; apply k_update in E; exact (kept_trans _ _ _ K5 E)].
    assert (K6 : kept q5 q6). { destruct (q_collect q5) in E6; [mbind E6|]; injection E6 as <-; repeat split. }
    unfold call_srv in H. apply bind_Ok in H as ([a2 q8] & X & H). apply k_action in X. mbind H. apply bind_Ok in H as (q9 & U & H). apply k_update in U. injection H as _ <-.
    apply (kept_trans _ _ _ K5). apply (kept_trans _ _ _ K6). apply (kept_trans _ q8); [exact X|exact U]. }
  split; [|intro F; apply (kept_spent _ _ K), S2; exact F].
  destruct E2 as [E2|F]; [|right; apply (kept_spent _ _ K F)]. left. rewrite E2. cbn [bind].
  replace (Ok (r, L q')) with (rmap ef (Ok (r, q'))) by reflexivity. rewrite <- H. clear H K.
  change (set_q_narr (q_narr (L q2) + 1) (set_q_nsys (q_nsys (L q2) + 1) (L q2))) with (L q3).
  change (q_line (L q3)) with (q_line q3). change (q_nsys (L q3)) with (q_nsys q3). change (q_servers (L q3)) with (q_servers q3).
  match goal with |- bind (queue_action a ?x) _ = _ => assert (E : x = L q4) end.
  { unfold q4. change (q_collect (L q3)) with (q_collect q3). destruct (q_collect q3); reflexivity. }
  rewrite E. clear E. rewrite action_free, bind_rmap, rmap_bind. apply bind_ext. intros [a1 q5] _. cbn [pf fst snd].
  change (q_nsys (L q5)) with (q_nsys q5). change (q_servers (L q5)) with (q_servers q5). rewrite rmap_if.
  destruct (eleb (Fin (q_nsys q5)) (q_servers q5)).
  - change (q_collect (L q5)) with (q_collect q5). change (q_data (L q5)) with (q_data q5).
    match goal with |- bind ?x _ = _ => assert (E : x = rmap L (if q_collect q5 then let* d := dlast (q_data q5) (ag_id a1) (row_set_srv (ag_time a1)) in Ok (set_q_data d q5) else Ok q5)) end.
    { destruct (q_collect q5); [|reflexivity]. destruct (dlast (q_data q5) (ag_id a1) (row_set_srv (ag_time a1))); reflexivity. }
    rewrite E. clear E. rewrite bind_rmap, rmap_bind. apply bind_ext. intros q6 _.
    rewrite srv_free. destruct (call_srv q6 (ag_time a1)) as [t q7]. cbn [fst snd] in *.
    rewrite action_free, bind_rmap, rmap_bind. apply bind_ext. intros [a2 q8] _. cbn [pf fst snd]. change (q_dep (L q8)) with (q_dep q8).
    rewrite rmap_bind. apply bind_ext. intros h2 _. change (set_q_dep h2 (L q8)) with (L (set_q_dep h2 q8)).
    rewrite update_free, bind_rmap, rmap_bind. apply bind_ext. intros q9 _. reflexivity.
  - change (set_q_line (q_line (L q5) ++ [a1]) (L q5)) with (L (set_q_line (q_line q5 ++ [a1]) q5)).
    rewrite update_free, bind_rmap, rmap_bind. apply bind_ext. intros q6 _. reflexivity.
Qed.
Lemma qs_free q r q' : qs_next_event q = Ok (r, q') -> fine q (qs_next_event (L q)) r q'.
Proof.
  unfold qs_next_event. change (q_arr (L q)) with (q_arr q). change (q_dep (L q)) with (q_dep q). intro H. apply bind_Ok in H as (ta & TA & H). apply bind_Ok in H as (td & TD & H).
  rewrite TA, TD. cbn [bind]. destruct (eltb td ta).
  - split; [left; rewrite departure_free, H; reflexivity|]. apply kept_spent. exact (k_departure _ _ _ H).
  - destruct (eltb ta Inf); [apply arrival_free; exact H|]. injection H as <- <-. split; [left; reflexivity|auto].
Qed.
Lemma lost_free q r q' : loss_blocked q = Ok (r, q') -> fine q (loss_blocked (L q)) r q'.
Proof.
  unfold loss_blocked. cbv zeta. set (q0 := set_q_total (q_total q - 1) (set_q_blocked (q_blocked q + 1) q)). change (set_q_total (q_total (L q) - 1) (set_q_blocked (q_blocked (L q) + 1) (L q))) with (L q0).
  change (q_arr (L q0)) with (q_arr q0). intro H. apply bind_Ok in H as ([a h] & P & H). rewrite P. cbn [bind]. change (add_loss a (L q0)) with (add_loss a q0). apply bind_Ok in H as (y & Y & H). rewrite Y. cbn [bind].
  set (q1 := set_q_now (ag_time a) (set_q_arr h q0)) in *. change (set_q_now (ag_time a) (set_q_arr h (L q0))) with (L q1).
  apply bind_Ok in H as (q2 & E2 & H). apply refill_free in E2 as [E2 S2]. apply bind_Ok in H as (q4 & U & H). injection H as <- <-.
  assert (K : kept q2 q4). { apply k_update in U. destruct (q_collect q2); exact U. }
  split; [|intro F; apply (kept_spent _ _ K), S2; exact F]. destruct E2 as [E2|F]; [|right; apply (kept_spent _ _ K F)]. left. rewrite E2. cbn [bind].
  match goal with |- bind (update_time ?x) _ = _ => assert (E : x = L (if q_collect q2 then set_q_data (dappend (q_data q2) (ag_id a) (mkData (ag_time a) (Fin 0) (Fin 0) (Z.of_nat (length (q_line q2))) (q_nsys q2))) q2 else q2)) end.
  { change (q_collect (L q2)) with (q_collect q2). destruct (q_collect q2); reflexivity. }
  rewrite E, update_free, U. reflexivity.
Qed.
Lemma loss_free q r q' : loss_next_event q = Ok (r, q') -> fine q (loss_next_event (L q)) r q'.
Proof.
  unfold loss_next_event. change (q_arr (L q)) with (q_arr q). change (q_dep (L q)) with (q_dep q). intro H. apply bind_Ok in H as (ta & TA & H). apply bind_Ok in H as (td & TD & H).
  rewrite TA, TD. cbn [bind]. destruct (eltb td ta); [apply qs_free; exact H|]. destruct (eltb ta Inf); [|injection H as <- <-; split; [left; reflexivity|auto]].
  change (q_nsys (L q)) with (q_nsys q). change (q_servers (L q)) with (q_servers q). change (c_buffer (q_cfg (L q))) with (c_buffer (q_cfg q)). destruct (eltb _ _); [|apply lost_free; exact H].
  apply bind_Ok in H as ([r1 q1] & X & H). injection H as <- <-. apply qs_free in X as [X S1]. split; [|exact S1]. destruct X as [X|F]; [left; rewrite X; reflexivity|right; exact F].
Qed.
Lemma rq_free q r q' : rq_next_event q = Ok (r, q') -> fine q (rq_next_event (L q)) r q'.
Proof.
  unfold rq_next_event. change (q_arr (L q)) with (q_arr q). change (q_dep (L q)) with (q_dep q). destruct (q_arr q) as [|[|a] l] eqn:AR; [discriminate|apply loss_free|]. destruct (ag_kind a); try apply loss_free.
  intro H. apply bind_Ok in H as (td & TD & H). rewrite TD. cbn [bind]. destruct (eltb td (ag_time a)); [apply loss_free; exact H|]. destruct (eltb (ag_time a) Inf); [|injection H as <- <-; split; [left; reflexivity|auto]].
  destruct (ag_has a).
  - unfold rq_return in *. change (q_arr (L q)) with (q_arr q). apply bind_Ok in H as ([b h] & P & H). rewrite P. cbn [bind]. cbv zeta in *.
    set (q1 := set_q_total (q_total q - 1) (set_q_now (ag_time b) (set_q_arr h q))) in *. change (set_q_total (q_total (L q) - 1) (set_q_now (ag_time b) (set_q_arr h (L q)))) with (L q1).
    change (q_servers (L q1)) with (q_servers q1). rewrite rq_servers_free. assert (K1 := k_rq (eadd (q_servers q1) (Fin 1)) q1). set (q2 := rq_set_num_servers (eadd (q_servers q1) (Fin 1)) q1) in *.
    apply bind_Ok in H as (q4 & U & H). injection H as <- <-. change (q_collect (L q2)) with (q_collect q2). split.
    + left. destruct (q_collect q2).
      * match goal with |- bind (update_time ?x) _ = _ => match type of U with update_time ?y = _ => change x with (L y) end end. rewrite update_free, U. reflexivity.
      * rewrite update_free, U. reflexivity.
    + apply kept_spent. apply k_update in U. apply (kept_trans _ q2); [exact K1|]. destruct (q_collect q2); exact U.
  - change (q_nsys (L q)) with (q_nsys q). change (q_servers (L q)) with (q_servers q). destruct (eltb _ _).
    + apply bind_Ok in H as ([r1 q1] & X & H). injection H as <- <-. apply loss_free in X as [X S1]. split; [|exact S1]. destruct X as [X|F]; [left; rewrite X; reflexivity|right; exact F].
    + unfold rq_blocked in *. cbv zeta in *. set (q0 := set_q_total (q_total q - 1) (set_q_narr (q_narr q + 1) (set_q_blocked (q_blocked q + 1) q))) in *.
      change (set_q_total (q_total (L q) - 1) (set_q_narr (q_narr (L q) + 1) (set_q_blocked (q_blocked (L q) + 1) (L q)))) with (L q0). change (q_arr (L q0)) with (q_arr q0).
      apply bind_Ok in H as ([b h] & P & H). rewrite P. cbn [bind]. set (q1 := set_q_now (ag_time b) (set_q_arr h q0)) in *. change (set_q_now (ag_time b) (set_q_arr h (L q0))) with (L q1).
      apply bind_Ok in H as (q4 & U & H). injection H as <- <-. change (q_collect (L q1)) with (q_collect q1). split.
      * left. destruct (q_collect q1).
        -- match goal with |- bind (update_time ?x) _ = _ => match type of U with update_time ?y = _ => change x with (L y) end end. rewrite update_free, U. reflexivity.
        -- rewrite update_free, U. reflexivity.
      * apply kept_spent. apply k_update in U. apply (kept_trans _ q1); [repeat split|]. destruct (q_collect q1); exact U.
Qed.
Lemma info_free q r q' : info_next_event q = Ok (r, q') -> fine q (info_next_event (L q)) r q'.
Proof.
  unfold info_next_event. change (q_arr (L q)) with (q_arr q). change (q_dep (L q)) with (q_dep q). destruct (q_arr q) as [|i l] eqn:AR; [discriminate|]. intro H. apply bind_Ok in H as (td & TD & H). rewrite TD. cbn [bind].
  apply bind_Ok in H as (q1 & X & H).
  assert (G : (if eltb (itime i) td then extract_information (L q) i else Ok (L q)) = Ok (L q1) /\ kept q q1).
  { destruct (eltb (itime i) td); [|injection X as <-; split; [reflexivity|apply kept_refl]]. unfold extract_information in *. destruct i as [|a]; [injection X as <-; split; [reflexivity|apply kept_refl]|].
    destruct (ag_kind a); try (injection X as <-; split; [reflexivity|apply kept_refl]). change (q_net (L q)) with (q_net q). mbind X. injection X as <-. rewrite E. split; [reflexivity|repeat split]. }
  destruct G as [G K]. rewrite G. cbn [bind]. apply loss_free in H as [A B]. split; [exact A|]. intro F. apply B, (kept_spent _ _ K F).
Qed.
Lemma next_free q r q' : next_event q = Ok (r, q') -> fine q (next_event (L q)) r q'.
Proof.
  unfold next_event. change (c_class (q_cfg (L q))) with (c_class (q_cfg q)). destruct (c_class (q_cfg q)); [apply qs_free|apply loss_free| |apply rq_free|apply info_free].
  intro H. injection H as <- <-. split; [left; reflexivity|auto].
Qed.
Lemma active_free q q' : set_active q = Ok q' -> set_active (L q) = Ok (L q') \/ spent q'.
Proof.
  unfold set_active. change (q_active (L q)) with (q_active q). destruct (q_active q); [intro H; injection H as <-; left; reflexivity|].
  change (set_q_active true (L q)) with (L (set_q_active true q)). apply add_self_free.
Qed.

(** ** Operations of one queue *)

Lemma op_free o q q' : run_op o q = Ok q' -> run_op o (L q) = Ok (L q') \/ spent q'.
Proof.
  destruct o as [| | |z|t|a|b| |]; cbn [run_op]; intro H; try (injection H as <-; left; reflexivity).
  - apply bind_Ok in H as ([r q1] & X & H). injection H as <-. apply next_free in X as [[X|F] _]; [left; rewrite X; reflexivity|right; exact F].
  - apply active_free. exact H.
  - left. rewrite servers_free, H. reflexivity.
  - left. rewrite delay_free, H. reflexivity.
  - left. rewrite add_free, H. reflexivity.
  - injection H as <-. left. rewrite clear_free. reflexivity.
Qed.
Lemma ops_free l : forall q q', run_ops l q = Ok q' -> lively_ops l q -> run_ops l (L q) = Ok (L q').
Proof.
  induction l as [|o l IH]; intros q q' H K; cbn [run_ops] in *; [injection H as <-; reflexivity|]. apply bind_Ok in H as (q1 & E & H). destruct (K q1 E) as [A B].
  destruct (op_free _ _ _ E) as [X|F]; [|contradiction]. rewrite X. cbn [bind]. apply IH; assumption.
Qed.
