(** * Lay: what InfoQueues and InfoAgents know has no influence *)
From Coq Require Import List ZArith QArith Lia Bool Arith.
From Verif Require Import Base Heap Queue PQueue Network SpecNet QueueEffects NetBare Clock ClockNet SpecLay.
Import ListNotations.
Open Scope Z_scope.

(** If the first succeeds, so does the second, with the image of the result. *)
Definition fwd {A B} (g : A -> B) (r : res A) (r' : res B) : Prop := forall x, r = Ok x -> r' = Ok (g x).
Lemma fwd_bind {A B C D} (g : A -> B) (h : C -> D) r r' k k' : fwd g r r' -> (forall x, r = Ok x -> fwd h (k x) (k' (g x))) -> fwd h (bind r k) (bind r' k').
Proof. intros F K x H. apply bind_Ok in H as (y & E & H). rewrite (F y E). exact (K y E x H). Qed.
Lemma fwd_eq {A B} (g : A -> B) r r' : r' = rmap g r -> fwd g r r'.
Proof. intros -> x ->. reflexivity. Qed.
Lemma fwd_ok {A B} (g : A -> B) x y : y = g x -> fwd g (Ok x) (Ok y).
Proof. intros ->. apply fwd_eq. reflexivity. Qed.
Lemma fwd_if {A B} (g : A -> B) (b : bool) r r' s s' : fwd g r r' -> fwd g s s' -> fwd g (if b then r else s) (if b then r' else s').
Proof. destruct b; auto. Qed.
Lemma fwd_id {A} (r : res A) : fwd (fun x => x) r r.
Proof. intros x H. exact H. Qed.

(** ** Queues *)

Lemma lay_id a : ag_id (lay_agent a) = ag_id a.
Proof. unfold lay_agent. destruct (ag_kind a); reflexivity. Qed.
Lemma lay_time a : ag_time (lay_agent a) = ag_time a.
Proof. unfold lay_agent. destruct (ag_kind a); reflexivity. Qed.
Lemma lay_at t a : set_ag_time t (lay_agent a) = lay_agent (set_ag_time t a).
Proof. unfold lay_agent. cbn [set_ag_time ag_kind]. destruct (ag_kind a); reflexivity. Qed.
Lemma itime_lay i : itime (lay_item i) = itime i.
Proof. destruct i; [reflexivity|]. apply lay_time. Qed.
Lemma push_lay h a : push_item (map lay_item h) (lay_agent a) = rmap (map lay_item) (push_item h a).
Proof. unfold push_item. change (Ag (lay_agent a)) with (lay_item (Ag a)). rewrite (heappush_map itime lay_item itime_lay). destruct (heappush itime h (Ag a)); reflexivity. Qed.
Lemma pop_lay h : pop_agent (map lay_item h) = rmap (fun x => (lay_agent (fst x), map lay_item (snd x))) (pop_agent h).
Proof. unfold pop_agent. rewrite (heappop_map itime lay_item itime_lay). destruct (heappop itime h) as [[[|a] h']|]; reflexivity. Qed.
Lemma root_lay h : root_time (map lay_item h) = root_time h.
Proof. destruct h as [|i h]; cbn; [reflexivity|]. rewrite itime_lay. reflexivity. Qed.

Definition two (x : agent * queue) : agent * queue := (lay_agent (fst x), lay (snd x)).
Definition ev (x : option agent * queue) : option agent * queue := (option_map lay_agent (fst x), lay (snd x)).

Lemma update_time_lay q : update_time (lay q) = rmap lay (update_time q).
Proof. unfold update_time. change (q_arr (lay q)) with (map lay_item (q_arr q)). change (q_dep (lay q)) with (map lay_item (q_dep q)). rewrite !root_lay. destruct (root_time (q_arr q)); cbn; [|reflexivity]. destruct (root_time (q_dep q)); reflexivity. Qed.
Lemma update_time_if_lay q : update_time_if (lay q) = rmap lay (update_time_if q).
Proof.
  unfold update_time_if. change (q_arr (lay q)) with (map lay_item (q_arr q)). change (q_dep (lay q)) with (map lay_item (q_dep q)). rewrite !root_lay. destruct (root_time (q_arr q)) as [ta|]; cbn [bind rmap]; [|reflexivity].
  destruct (root_time (q_dep q)) as [td|]; cbn [bind rmap]; [|reflexivity]. destruct (eltb ta td); reflexivity.
Qed.
Lemma new_agent_lay q t : fwd lay_agent (new_agent q t) (new_agent (lay q) t).
Proof.
  intros a H. unfold new_agent in *. change (q_cfg (lay q)) with (lay_cfg (q_cfg q)). change (q_oarr (lay q)) with (q_oarr q). cbn [lay_cfg c_class c_factory c_idx].
  destruct (c_class (q_cfg q)), (c_factory (q_cfg q)); cbn [lay_class lay_kind]; try discriminate H; injection H as <-; reflexivity.
Qed.
Lemma dlast_if_lay q i f : dlast_if (lay q) i f = rmap lay (dlast_if q i f).
Proof.
  unfold dlast_if. change (q_collect (lay q)) with (q_collect q). change (q_data (lay q)) with (q_data q). destruct (q_collect q); [|reflexivity]. destruct (dget (q_data q) i); [|reflexivity].
  destruct (dlast (q_data q) i f); reflexivity.
Qed.
Lemma is_info_lay c : is_info (lay_class c) = false.
Proof. destruct c; reflexivity. Qed.
Lemma is_resource_lay c : is_resource (lay_class c) = is_resource c.
Proof. destruct c; reflexivity. Qed.
Lemma rq_servers_lay z q : rq_set_num_servers z (lay q) = lay (rq_set_num_servers z q).
Proof. unfold rq_set_num_servers. change (c_max_servers (q_cfg (lay q))) with (c_max_servers (q_cfg q)). destruct (eltb (c_max_servers (q_cfg q)) z); reflexivity. Qed.
Lemma action_lay a q : fwd two (queue_action a q) (queue_action (lay_agent a) (lay q)).
Proof.
  intros [b p] H. unfold queue_action in *. destruct (ag_kind a) eqn:K.
  - unfold lay_agent. rewrite K, K. injection H as <- <-. unfold two, lay_agent. cbn [fst snd]. rewrite K. reflexivity.
  - unfold lay_agent. rewrite K, K. injection H as <- <-. unfold two, lay_agent. cbn [fst snd]. rewrite K. reflexivity.
  - unfold lay_agent. rewrite K, K. unfold resource_action in *. change (q_cfg (lay q)) with (lay_cfg (q_cfg q)). change (c_class (lay_cfg (q_cfg q))) with (lay_class (c_class (q_cfg q))). rewrite is_resource_lay.
    change (q_servers (lay q)) with (q_servers q).
    destruct (is_resource (c_class (q_cfg q))); [|injection H as <- <-; unfold two, lay_agent; cbn [fst snd]; rewrite K; reflexivity].
    destruct (ag_has a); [injection H as <- <-; unfold two, lay_agent; cbn [fst snd ag_kind set_ag_had set_ag_has]; rewrite K; reflexivity|].
    destruct (eltb (Fin 0) (q_servers q)); injection H as <- <-; unfold two, lay_agent; cbn [fst snd ag_kind set_ag_had set_ag_has]; rewrite K; [|reflexivity].
    rewrite rq_servers_lay. reflexivity.
  - assert (E : lay_agent b = lay_agent a /\ p = q).
    { unfold info_action in H. destruct (is_info (c_class (q_cfg q))); [|injection H as <- <-; auto]. do 4 (mbind H). injection H as <- <-. split; [|reflexivity].
      unfold lay_agent. cbn [ag_kind set_ag_net set_ag_stats]. rewrite K. reflexivity. }
    destruct E as [E ->]. unfold two. cbn [fst snd]. rewrite E. unfold lay_agent. rewrite K. reflexivity.
Qed.
Lemma add_loss_lay a q x : add_loss a q = Ok x -> exists y, add_loss (lay_agent a) (lay q) = Ok y.
Proof. intros _. unfold add_loss, lay_agent. destruct (ag_kind a) eqn:K; rewrite ?K; cbn [ag_kind]; eauto. Qed.
Lemma extract_lay q i x : extract_information q i = Ok x -> lay x = lay q.
Proof. unfold extract_information. destruct i as [|a]; [intro H; injection H as <-; reflexivity|]. destruct (ag_kind a); intro H; try (injection H as <-; reflexivity). mbind H. injection H as <-. reflexivity. Qed.

Ltac lch := repeat match goal with
  | |- context [q_servers (lay ?q)] => change (q_servers (lay q)) with (q_servers q)
  | |- context [q_departed (lay ?q)] => change (q_departed (lay q)) with (q_departed q)
  | |- context [q_nsys (lay ?q)] => change (q_nsys (lay q)) with (q_nsys q)
  | |- context [q_data (lay ?q)] => change (q_data (lay q)) with (q_data q)
  | |- context [q_collect (lay ?q)] => change (q_collect (lay q)) with (q_collect q)
  | |- context [q_narr (lay ?q)] => change (q_narr (lay q)) with (q_narr q)
  | |- context [q_oarr (lay ?q)] => change (q_oarr (lay q)) with (q_oarr q)
  | |- context [q_total (lay ?q)] => change (q_total (lay q)) with (q_total q)
  | |- context [q_active (lay ?q)] => change (q_active (lay q)) with (q_active q)
  | |- context [q_now (lay ?q)] => change (q_now (lay q)) with (q_now q)
  | |- context [q_time (lay ?q)] => change (q_time (lay q)) with (q_time q)
  | |- context [q_next_ct (lay ?q)] => change (q_next_ct (lay q)) with (q_next_ct q)
  | |- context [q_ia (lay ?q)] => change (q_ia (lay q)) with (q_ia q)
  | |- context [q_is (lay ?q)] => change (q_is (lay q)) with (q_is q)
  | |- context [q_line (lay ?q)] => change (q_line (lay q)) with (map lay_agent (q_line q))
  | |- context [q_arr (lay ?q)] => change (q_arr (lay q)) with (map lay_item (q_arr q))
  | |- context [q_dep (lay ?q)] => change (q_dep (lay q)) with (map lay_item (q_dep q))
  | |- context [c_arr (q_cfg (lay ?q))] => change (c_arr (q_cfg (lay q))) with (c_arr (q_cfg q))
  | |- context [c_srv (q_cfg (lay ?q))] => change (c_srv (q_cfg (lay q))) with (c_srv (q_cfg q))
  | |- context [c_deactive_t (q_cfg (lay ?q))] => change (c_deactive_t (q_cfg (lay q))) with (c_deactive_t (q_cfg q))
  | |- context [c_active_cap (q_cfg (lay ?q))] => change (c_active_cap (q_cfg (lay q))) with (c_active_cap (q_cfg q))
  | |- context [c_buffer (q_cfg (lay ?q))] => change (c_buffer (q_cfg (lay q))) with (c_buffer (q_cfg q))
  | |- context [c_idx (q_cfg (lay ?q))] => change (c_idx (q_cfg (lay q))) with (c_idx (q_cfg q))
  | |- context [c_tgt (q_cfg (lay ?q))] => change (c_tgt (q_cfg (lay q))) with (c_tgt (q_cfg q))
  | |- context [c_class (q_cfg (lay ?q))] => change (c_class (q_cfg (lay q))) with (lay_class (c_class (q_cfg q)))
  end.

Lemma add_new_lay q : fwd lay (add_arrival_new q) (add_arrival_new (lay q)).
Proof.
  unfold add_arrival_new. lch. destruct (eleb (q_next_ct q) (q_now q)); [|apply fwd_eq, update_time_if_lay].
  destruct (eleb (c_deactive_t (q_cfg q)) (c_arr (q_cfg q) (q_ia q) (q_now q))).
  { rewrite is_info_lay. destruct (is_info (c_class (q_cfg q))); [intros x H; discriminate H|]. apply fwd_ok. reflexivity. }
  cbv zeta. set (q2 := set_q_total (q_total (set_q_ia (S (q_ia q)) (set_q_next_ct (c_arr (q_cfg q) (q_ia q) (q_now q)) q)) + 1) (set_q_ia (S (q_ia q)) (set_q_next_ct (c_arr (q_cfg q) (q_ia q) (q_now q)) q))).
  change (set_q_total _ (set_q_ia _ (set_q_next_ct _ (lay q)))) with (lay q2).
  eapply fwd_bind; [apply new_agent_lay|]. intros a _. lch. eapply fwd_bind; [apply fwd_eq, push_lay|]. intros h _.
  assert (X := update_time_if_lay (if eleb (c_active_cap (q_cfg q)) (Fin (q_oarr (set_q_oarr (q_oarr q2 + 1) (set_q_arr h q2)))) then set_q_active false (set_q_oarr (q_oarr q2 + 1) (set_q_arr h q2)) else set_q_oarr (q_oarr q2 + 1) (set_q_arr h q2))).
  apply fwd_eq. rewrite <- X. f_equal. cbn [q_oarr set_q_oarr set_q_arr lay]. destruct (eleb (c_active_cap (q_cfg q)) (Fin (q_oarr q2 + 1))); reflexivity.
Qed.
Lemma add_self_lay q : fwd lay (add_arrival_self q) (add_arrival_self (lay q)).
Proof. unfold add_arrival_self. lch. destruct (c_class (q_cfg q)); cbn [lay_class]; try apply add_new_lay. apply fwd_ok. reflexivity. Qed.
Lemma add_lay a q : add_arrival (lay_agent a) (lay q) = rmap lay (add_arrival a q).
Proof.
  assert (G : (let q1 := set_q_total (q_total (lay q) + 1) (lay q) in let* h := push_item (q_arr q1) (lay_agent a) in update_time_if (set_q_arr h q1)) =
    rmap lay (let q1 := set_q_total (q_total q + 1) q in let* h := push_item (q_arr q1) a in update_time_if (set_q_arr h q1))).
  { cbv zeta. change (q_arr (set_q_total (q_total (lay q) + 1) (lay q))) with (map lay_item (q_arr q)). change (q_arr (set_q_total (q_total q + 1) q)) with (q_arr q).
    rewrite push_lay, bind_rmap, rmap_bind. apply bind_ext. intros h _. rewrite <- update_time_if_lay. reflexivity. }
  unfold add_arrival. lch. rewrite lay_id, lay_time. destruct (c_class (q_cfg q)); cbn [lay_class]; try exact G. cbn [rmap]. destruct (q_collect q); reflexivity.
Qed.
Lemma service_lay q : fwd lay (service_from_queue q) (service_from_queue (lay q)).
Proof.
  unfold service_from_queue. lch. destruct (q_line q) as [|a l]; cbn [map]; [intros x H; discriminate H|].
  change (set_q_line (map lay_agent l) (lay q)) with (lay (set_q_line l q)). rewrite lay_id. lch. eapply fwd_bind; [apply fwd_eq, dlast_if_lay|]. intros q2 _.
  unfold call_srv. lch. rewrite lay_at. change (set_q_is (S (q_is q2)) (lay q2)) with (lay (set_q_is (S (q_is q2)) q2)).
  eapply fwd_bind; [apply action_lay|]. intros [a' q4] _. cbn [two fst snd]. lch. eapply fwd_bind; [apply fwd_eq, push_lay|]. intros h _. apply fwd_ok. reflexivity.
Qed.
Lemma delay_lay t q : delay_service t (lay q) = rmap lay (delay_service t q).
Proof.
  unfold delay_service. lch. rewrite map_length. rewrite (heappop_map itime lay_item itime_lay).
  destruct (c_class (q_cfg q)); cbn [lay_class]; try reflexivity; (destruct (1 <? length (q_dep q))%nat; [|reflexivity]);
    (destruct (heappop itime (q_dep q)) as [[[|a] h]|]; cbn [option_map fst snd lay_item]; try reflexivity);
    (destruct t as [t|]; [|unfold call_srv]); lch; rewrite ?lay_time, lay_at, push_lay, bind_rmap, rmap_bind; apply bind_ext; intros h' _; rewrite <- update_time_lay; reflexivity.
Qed.
Lemma qs_departure_lay q : fwd ev (qs_departure q) (qs_departure (lay q)).
Proof.
  unfold qs_departure. lch. eapply fwd_bind; [apply fwd_eq, pop_lay|]. intros [a h] _. cbn [fst snd]. rewrite lay_time, lay_id.
  set (q1 := set_q_departed _ (set_q_nsys _ (set_q_total _ (set_q_now _ (set_q_dep h q))))).
  change (set_q_departed _ (set_q_nsys _ (set_q_total _ (set_q_now _ (set_q_dep _ (lay q)))))) with (lay q1). lch.
  eapply fwd_bind; [apply fwd_eq, dlast_if_lay|]. intros q2 _. cbv zeta. lch. rewrite map_length.
  eapply fwd_bind; [apply fwd_if; [apply service_lay|apply fwd_ok; reflexivity]|]. intros q3 _.
  eapply fwd_bind; [apply action_lay|]. intros [a' q4] _. cbn [two fst snd]. eapply fwd_bind; [apply fwd_eq, update_time_lay|]. intros q5 _. apply fwd_ok. reflexivity.
Qed.
Lemma qs_arrival_lay q : fwd ev (qs_arrival q) (qs_arrival (lay q)).
Proof.
  unfold qs_arrival. lch. eapply fwd_bind; [apply fwd_eq, pop_lay|]. intros [a h] _. cbn [fst snd]. rewrite lay_time, lay_id.
  set (q1 := set_q_now (ag_time a) (set_q_arr h q)). change (set_q_now _ (set_q_arr _ (lay q))) with (lay q1). cbv zeta. lch.
  eapply fwd_bind; [apply fwd_if; [apply add_self_lay|apply fwd_ok; reflexivity]|]. intros q2 _. lch.
  set (q3 := set_q_narr (q_narr q2 + 1) (set_q_nsys (q_nsys q2 + 1) q2)). change (set_q_narr _ (set_q_nsys _ (lay q2))) with (lay q3). lch. rewrite map_length.
  set (q4 := if q_collect q3 then _ else q3).
  match goal with |- fwd _ _ (bind (queue_action _ ?x) _) => assert (E : x = lay q4) end.
  { unfold q4. destruct (q_collect q3); reflexivity. }
  rewrite E. clear E. eapply fwd_bind; [apply action_lay|]. intros [a1 q5] _. cbn [two fst snd]. lch. rewrite lay_time, lay_id. apply fwd_if.
  - eapply (fwd_bind lay).
    { apply fwd_eq. destruct (q_collect q5); [|reflexivity]. destruct (dlast (q_data q5) (ag_id a1) (row_set_srv (ag_time a1))); reflexivity. }
    intros q6 _. unfold call_srv. lch. rewrite lay_at. change (set_q_is (S (q_is q6)) (lay q6)) with (lay (set_q_is (S (q_is q6)) q6)).
    eapply fwd_bind; [apply action_lay|]. intros [a2 q8] _. cbn [two fst snd]. lch. eapply fwd_bind; [apply fwd_eq, push_lay|]. intros h2 _.
    change (set_q_dep (map lay_item h2) (lay q8)) with (lay (set_q_dep h2 q8)). eapply fwd_bind; [apply fwd_eq, update_time_lay|]. intros q9 _. apply fwd_ok. reflexivity.
  - change (map lay_agent (q_line q5) ++ [lay_agent a1]) with (map lay_agent (q_line q5) ++ map lay_agent [a1]). rewrite <- map_app.
    change (set_q_line (map lay_agent (q_line q5 ++ [a1])) (lay q5)) with (lay (set_q_line (q_line q5 ++ [a1]) q5)).
    eapply fwd_bind; [apply fwd_eq, update_time_lay|]. intros q6 _. apply fwd_ok. reflexivity.
Qed.
Lemma qs_lay q : fwd ev (qs_next_event q) (qs_next_event (lay q)).
Proof.
  unfold qs_next_event. lch. rewrite !root_lay. eapply fwd_bind; [apply fwd_id|]. intros ta _. eapply fwd_bind; [apply fwd_id|]. intros td _. cbn beta.
  repeat apply fwd_if; [apply qs_departure_lay|apply qs_arrival_lay|apply fwd_ok; reflexivity].
Qed.
Lemma loss_blocked_lay q : fwd ev (loss_blocked q) (loss_blocked (lay q)).
Proof.
  unfold loss_blocked. cbv zeta. set (q0 := set_q_total (q_total q - 1) (set_q_blocked (q_blocked q + 1) q)).
  change (set_q_total _ (set_q_blocked _ (lay q))) with (lay q0). lch. eapply fwd_bind; [apply fwd_eq, pop_lay|]. intros [a h] _. cbn [fst snd].
  intros x H. apply bind_Ok in H as (a' & AL & H). destruct (add_loss_lay _ _ _ AL) as (b & AL'). rewrite AL'. cbn [bind]. revert x H. fold (@fwd (option agent * queue) _ ev).
  rewrite lay_time, lay_id. set (q1 := set_q_now (ag_time a) (set_q_arr h q0)). change (set_q_now _ (set_q_arr _ (lay q0))) with (lay q1). lch.
  match goal with |- forall x, ?r = Ok x -> ?r' = Ok (ev x) => change (fwd ev r r') end.
  eapply fwd_bind; [apply fwd_if; [apply add_self_lay|apply fwd_ok; reflexivity]|]. intros q2 _. lch. rewrite map_length. set (q3 := if q_collect q2 then _ else q2).
  match goal with |- fwd _ _ (bind (update_time ?x) _) => assert (E : x = lay q3) end.
  { unfold q3. destruct (q_collect q2); reflexivity. }
  rewrite E. clear E. eapply fwd_bind; [apply fwd_eq, update_time_lay|]. intros q4 _. apply fwd_ok. reflexivity.
Qed.
Lemma loss_lay q : fwd ev (loss_next_event q) (loss_next_event (lay q)).
Proof.
  unfold loss_next_event. lch. rewrite !root_lay. eapply fwd_bind; [apply fwd_id|]. intros ta _. eapply fwd_bind; [apply fwd_id|]. intros td _. cbn beta.
  repeat apply fwd_if; [apply qs_lay| |apply loss_blocked_lay|apply fwd_ok; reflexivity].
  eapply fwd_bind; [apply qs_lay|]. intros [r w] _. apply fwd_ok. reflexivity.
Qed.
Lemma rq_return_lay q : fwd ev (rq_return q) (rq_return (lay q)).
Proof.
  unfold rq_return. lch. eapply fwd_bind; [apply fwd_eq, pop_lay|]. intros [a h] _. cbn [fst snd]. rewrite lay_time, lay_id.
  set (q1 := set_q_total _ (set_q_now _ (set_q_arr h q))). change (set_q_total _ (set_q_now _ (set_q_arr _ (lay q)))) with (lay q1). cbv zeta. lch. rewrite rq_servers_lay.
  set (q2 := rq_set_num_servers _ q1). lch. rewrite map_length. set (q3 := if q_collect q2 then _ else q2).
  match goal with |- fwd _ _ (bind (update_time ?x) _) => assert (E : x = lay q3) end.
  { unfold q3. destruct (q_collect q2); reflexivity. }
  rewrite E. clear E. eapply fwd_bind; [apply fwd_eq, update_time_lay|]. intros q4 _. apply fwd_ok. reflexivity.
Qed.
Lemma rq_blocked_lay q : fwd ev (rq_blocked q) (rq_blocked (lay q)).
Proof.
  unfold rq_blocked. cbv zeta. set (q0 := set_q_total _ (set_q_narr _ (set_q_blocked (q_blocked q + 1) q))).
  change (set_q_total _ (set_q_narr _ (set_q_blocked _ (lay q)))) with (lay q0). lch. eapply fwd_bind; [apply fwd_eq, pop_lay|]. intros [a h] _. cbn [fst snd]. rewrite lay_time, lay_id.
  set (q1 := set_q_now (ag_time a) (set_q_arr h q0)). change (set_q_now _ (set_q_arr _ (lay q0))) with (lay q1). lch. rewrite map_length. set (q3 := if q_collect q1 then _ else q1).
  match goal with |- fwd _ _ (bind (update_time ?x) _) => assert (E : x = lay q3) end.
  { unfold q3. destruct (q_collect q1); reflexivity. }
  rewrite E. clear E. eapply fwd_bind; [apply fwd_eq, update_time_lay|]. intros q4 _. apply fwd_ok. reflexivity.
Qed.
Lemma lay_kind_of a : ag_kind (lay_agent a) = lay_kind (ag_kind a).
Proof. unfold lay_agent. destruct (ag_kind a) eqn:K; rewrite ?K; reflexivity. Qed.
Lemma lay_has a : ag_has (lay_agent a) = ag_has a.
Proof. unfold lay_agent. destruct (ag_kind a); reflexivity. Qed.
Lemma rq_lay q : fwd ev (rq_next_event q) (rq_next_event (lay q)).
Proof.
  unfold rq_next_event. lch. destruct (q_arr q) as [|[|a] h]; cbn [map lay_item]; [intros x H; discriminate H|apply loss_lay|].
  rewrite lay_kind_of, lay_time, lay_has. destruct (ag_kind a); cbn [lay_kind]; try apply loss_lay. rewrite root_lay.
  eapply fwd_bind; [apply fwd_id|]. intros td _. cbn beta. repeat apply fwd_if; [apply loss_lay|apply rq_return_lay| |apply rq_blocked_lay|apply fwd_ok; reflexivity].
  eapply fwd_bind; [apply loss_lay|]. intros [r w] _. apply fwd_ok. reflexivity.
Qed.
Lemma info_lay q : fwd ev (info_next_event q) (loss_next_event (lay q)).
Proof.
  intros x H. unfold info_next_event in H. destruct (q_arr q) as [|i h]; [discriminate|]. mbind H. mbind H.
  assert (E1 : lay x1 = lay q) by (destruct (eltb (itime i) x0); [exact (extract_lay _ _ _ E0)|injection E0 as <-; reflexivity]). rewrite <- E1. exact (loss_lay _ _ H).
Qed.
Lemma next_lay q : fwd ev (next_event q) (next_event (lay q)).
Proof.
  unfold next_event. lch. destruct (c_class (q_cfg q)); cbn [lay_class]; [apply qs_lay|apply loss_lay|apply fwd_ok; reflexivity|apply rq_lay|apply info_lay].
Qed.
Lemma active_lay q : fwd lay (set_active q) (set_active (lay q)).
Proof. unfold set_active. lch. apply fwd_if; [apply fwd_ok; reflexivity|]. change (set_q_active true (lay q)) with (lay (set_q_active true q)). apply add_self_lay. Qed.
Lemma services_lay k : forall q, fwd lay (repeat_service k q) (repeat_service k (lay q)).
Proof. induction k as [|k IH]; intro q; cbn [repeat_service]; [apply fwd_ok; reflexivity|]. eapply fwd_bind; [apply service_lay|]. intros q1 _. apply IH. Qed.
Lemma servers_lay z q : fwd lay (set_num_servers z q) (set_num_servers z (lay q)).
Proof.
  assert (G : fwd lay (qs_set_num_servers z q) (qs_set_num_servers z (lay q))).
  { unfold qs_set_num_servers. lch. rewrite map_length.
    assert (GO : forall m tq, fwd lay (let* q1 := repeat_service (Z.to_nat tq) q in let* q2 := if 0 <? tq then update_time q1 else Ok q1 in Ok (set_q_servers m q2))
      (let* q1 := repeat_service (Z.to_nat tq) (lay q) in let* q2 := if 0 <? tq then update_time q1 else Ok q1 in Ok (set_q_servers m q2))).
    { intros m tq. eapply fwd_bind; [apply services_lay|]. intros q1 _. eapply fwd_bind; [apply fwd_if; [apply fwd_eq, update_time_lay|apply fwd_ok; reflexivity]|]. intros q2 _. apply fwd_ok. reflexivity. }
    cbv zeta. destruct z as [z| |]; [|destruct (q_servers q); [apply GO|intros x H; discriminate H]|intros x H; discriminate H].
    destruct (z <=? 0); [intros x H; discriminate H|]. destruct (q_servers q); apply GO. }
  unfold set_num_servers. lch. destruct (c_class (q_cfg q)); cbn [lay_class]; try exact G; [apply fwd_ok; reflexivity|].
  destruct z; try (apply fwd_ok; symmetry; rewrite rq_servers_lay; reflexivity). intros x H. discriminate H.
Qed.
Lemma clear_lay q : clear (lay q) = lay (clear q).
Proof. unfold clear. lch. destruct (c_class (q_cfg q)); reflexivity. Qed.
Lemma op_lay o q : fwd lay (run_op o q) (run_op (lay_op o) (lay q)).
Proof.
  destruct o as [| | |z|t|a|b| |]; cbn [run_op lay_op]; try (apply fwd_ok; reflexivity).
  - eapply fwd_bind; [apply next_lay|]. intros [r w] _. apply fwd_ok. reflexivity.
  - apply active_lay.
  - apply servers_lay.
  - apply fwd_eq, delay_lay.
  - apply fwd_eq, add_lay.
  - apply fwd_ok. apply clear_lay.
Qed.
Lemma ops_lay l : forall q, fwd lay (run_ops l q) (run_ops (map lay_op l) (lay q)).
Proof. induction l as [|o l IH]; intro q; cbn [run_ops map]; [apply fwd_ok; reflexivity|]. eapply fwd_bind; [apply op_lay|]. intros q1 _. apply IH. Qed.
