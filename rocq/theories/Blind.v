(** * Blind: nothing a queue or a network does depends on the collected data *)
From Coq Require Import List ZArith QArith Lia Bool Arith.
From Verif Require Import Base Heap Queue PQueue Network SpecNet QueueEffects NetBare Clock ClockNet SpecBlind.
Import ListNotations.
Open Scope Z_scope.

(** ** Data *)

Definition full_rows (d : qdata) : Prop := forall i rows, dget d i = Some rows -> rows <> [].

Lemma aid_eqb_refl' i : aid_eqb i i = true.
Proof. unfold aid_eqb. rewrite Nat.eqb_refl, Z.eqb_refl. reflexivity. Qed.
Lemma aid_eqb_true i j : aid_eqb i j = true -> i = j.
Proof. unfold aid_eqb. intro H. apply andb_true_iff in H as [H1 H2]. apply Nat.eqb_eq in H1. apply Z.eqb_eq in H2. destruct i, j; cbn in *; congruence. Qed.
Lemma dget_dset d i r j : dget (dset d i r) j = if aid_eqb i j then Some r else dget d j.
Proof.
  induction d as [|[k s] d IH].
  - unfold dget. cbn [dset find fst]. destruct (aid_eqb i j); reflexivity.
  - unfold dget in *. cbn [dset]. destruct (aid_eqb k i) eqn:K.
    + apply aid_eqb_true in K as ->. cbn [find fst snd]. destruct (aid_eqb i j); reflexivity.
    + cbn [find fst snd]. destruct (aid_eqb k j) eqn:KJ; [|exact IH]. destruct (aid_eqb i j) eqn:IJ; [|reflexivity].
      apply aid_eqb_true in KJ as ->. apply aid_eqb_true in IJ as ->. rewrite aid_eqb_refl' in K. discriminate.
Qed.
Lemma full_dset d i r : full_rows d -> r <> [] -> full_rows (dset d i r).
Proof. intros F N j rows. rewrite dget_dset. destruct (aid_eqb i j); [intro H; injection H as <-; exact N | apply F]. Qed.
Lemma full_dappend d i r : full_rows d -> full_rows (dappend d i r).
Proof. intro F. unfold dappend. destruct (dget d i) as [rows|]; apply full_dset; try exact F; [destruct rows|]; discriminate. Qed.
Lemma full_dlast d i f d' : full_rows d -> dlast d i f = Ok d' -> full_rows d'.
Proof.
  intros F H. unfold dlast in H. destruct (dget d i) as [rows|]; [|discriminate]. destruct (rev rows) as [|r rs]; [discriminate|]. injection H as <-.
  apply full_dset; [exact F|]. intro X. apply app_eq_nil in X as [_ X]. discriminate.
Qed.
Lemma dlast_total d i f rows : full_rows d -> dget d i = Some rows -> exists d', dlast d i f = Ok d'.
Proof.
  intros F G. unfold dlast. rewrite G. destruct (rev rows) as [|r rs] eqn:R; [|eauto]. exfalso. apply (F _ _ G). rewrite <- (rev_involutive rows), R. reflexivity.
Qed.
Lemma dget_dappend d i r : exists rows, dget (dappend d i r) i = Some rows.
Proof. unfold dappend. destruct (dget d i); rewrite dget_dset, aid_eqb_refl'; eauto. Qed.

Ltac got L := first [exact L | exact (proj1 L) | exact (proj2 L)].

(** ** What the methods leave as it was *)

Lemma listed_same q q' : q_cfg q' = q_cfg q -> q_data q' = q_data q -> listed q -> listed q'.
Proof. unfold listed. intros -> -> H. exact H. Qed.
Lemma listed_cfg q q' : q_cfg q' = q_cfg q -> full_rows (q_data q') -> listed q -> listed q'.
Proof. unfold listed. intros -> F [N _]. split; [exact N|exact F]. Qed.
Lemma action_data a q a' q' : queue_action a q = Ok (a', q') -> q_data q' = q_data q /\ q_collect q' = q_collect q /\ ag_id a' = ag_id a.
Proof.
  assert (RS : forall z q, q_data (rq_set_num_servers z q) = q_data q /\ q_collect (rq_set_num_servers z q) = q_collect q) by (intros z x; unfold rq_set_num_servers; destruct (eltb _ _); auto).
  unfold queue_action. destruct (ag_kind a); try (intro H; injection H as <- <-; solve [auto]).
  - unfold resource_action. destruct (is_resource (c_class (q_cfg q))); [|intro H; injection H as <- <-; auto].
    destruct (ag_has a); [intro H; injection H as <- <-; auto|]. destruct (RS (eadd (q_servers q) (Fin (-1))) q) as [R1 R2].
    destruct (eltb (Fin 0) (q_servers q)); intro H; injection H as <- <-; auto.
  - unfold info_action. destruct (is_info (c_class (q_cfg q))); [|intro H; injection H as <- <-; auto].
    intro H. do 4 (mbind H). injection H as <- <-. auto.
Qed.
Lemma dlast_if_listed q i f q' : dlast_if q i f = Ok q' -> listed q -> listed q'.
Proof.
  intros H L. assert (C := dlast_if_cfg _ _ _ _ H). apply (listed_cfg _ _ C); [|exact L]. unfold dlast_if in H. destruct (q_collect q); [|injection H as <-; got L].
  destruct (dget (q_data q) i); [|injection H as <-; got L]. mbind H. injection H as <-. eapply full_dlast; [got L|exact E].
Qed.
Lemma service_listed q q' : service_from_queue q = Ok q' -> listed q -> listed q'.
Proof.
  intros H L. assert (C := service_cfg _ _ H). apply (listed_cfg _ _ C); [|exact L]. unfold service_from_queue in H. destruct (q_line q) as [|a l]; [discriminate|].
  apply bind_Ok in H as (q2 & E2 & H). apply dlast_if_listed in E2; [|exact L]. unfold call_srv in H. apply bind_Ok in H as ([a' q4] & E4 & H). mbind H. injection H as <-.
  apply action_data in E4 as (D & _). cbn [set_q_dep q_data]. rewrite D. got E2.
Qed.
Lemma update_time_data q q' : update_time q = Ok q' -> q_data q' = q_data q.
Proof. unfold update_time. intro H. do 2 (mbind H). injection H as <-. reflexivity. Qed.
Lemma update_time_if_data q q' : update_time_if q = Ok q' -> q_data q' = q_data q.
Proof. unfold update_time_if. intro H. do 2 (mbind H). injection H as <-. destruct (eltb _ _); reflexivity. Qed.
Lemma add_new_data q q' : add_arrival_new q = Ok q' -> q_data q' = q_data q.
Proof.
  unfold add_arrival_new. destruct (eleb (q_next_ct q) (q_now q)); [|apply update_time_if_data].
  destruct (eleb (c_deactive_t (q_cfg q)) (c_arr (q_cfg q) (q_ia q) (q_now q))).
  - destruct (is_info (c_class (q_cfg q))); [discriminate|]. intro H. injection H as <-. reflexivity.
  - intro H. do 2 (mbind H). apply update_time_if_data in H. rewrite H. destruct (eleb (c_active_cap (q_cfg q)) _); reflexivity.
Qed.
Lemma add_self_data q q' : add_arrival_self q = Ok q' -> q_data q' = q_data q.
Proof. unfold add_arrival_self. destruct (c_class (q_cfg q)); try apply add_new_data. intro H. injection H as <-. reflexivity. Qed.

(** ** Methods *)

Definition pair_b (x : agent * queue) : agent * queue := (fst x, blind (snd x)).
Definition ev_b (x : option agent * queue) : option agent * queue := (fst x, blind (snd x)).

Lemma dlast_if_b q i f : listed q -> dlast_if (blind q) i f = rmap blind (dlast_if q i f).
Proof.
  intros [_ F]. unfold dlast_if. change (q_collect (blind q)) with false. cbv iota. destruct (q_collect q); [|reflexivity].
  destruct (dget (q_data q) i) as [rows|] eqn:G; [|reflexivity]. destruct (dlast_total _ _ f _ F G) as [d' ->]. reflexivity.
Qed.
Lemma update_time_b q : update_time (blind q) = rmap blind (update_time q).
Proof.
  unfold update_time. change (q_arr (blind q)) with (q_arr q). change (q_dep (blind q)) with (q_dep q). destruct (root_time (q_arr q)); cbn [rmap bind]; [|reflexivity].
  destruct (root_time (q_dep q)); reflexivity.
Qed.
Lemma update_time_if_b q : update_time_if (blind q) = rmap blind (update_time_if q).
Proof.
  unfold update_time_if. change (q_arr (blind q)) with (q_arr q). change (q_dep (blind q)) with (q_dep q). destruct (root_time (q_arr q)) as [ta|]; cbn [rmap bind]; [|reflexivity].
  destruct (root_time (q_dep q)) as [td|]; cbn [rmap bind]; [|reflexivity]. destruct (eltb ta td); reflexivity.
Qed.
Lemma rq_servers_b z q : rq_set_num_servers z (blind q) = blind (rq_set_num_servers z q).
Proof. unfold rq_set_num_servers. change (q_cfg (blind q)) with (q_cfg q). destruct (eltb (c_max_servers (q_cfg q)) z); reflexivity. Qed.
Lemma action_b a q : c_class (q_cfg q) <> CInfo -> queue_action a (blind q) = rmap pair_b (queue_action a q).
Proof.
  intro N. unfold queue_action. destruct (ag_kind a); try reflexivity.
  - unfold resource_action. change (q_cfg (blind q)) with (q_cfg q). change (q_servers (blind q)) with (q_servers q). destruct (is_resource (c_class (q_cfg q))); [|reflexivity].
    destruct (ag_has a); [reflexivity|]. destruct (eltb (Fin 0) (q_servers q)); [|reflexivity]. rewrite rq_servers_b. reflexivity.
  - unfold info_action. change (q_cfg (blind q)) with (q_cfg q). destruct (c_class (q_cfg q)); congruence || reflexivity.
Qed.
Lemma add_new_b q : add_arrival_new (blind q) = rmap blind (add_arrival_new q).
Proof.
  unfold add_arrival_new. change (q_next_ct (blind q)) with (q_next_ct q). change (q_now (blind q)) with (q_now q). destruct (eleb (q_next_ct q) (q_now q)); [|apply update_time_if_b].
  change (q_cfg (blind q)) with (q_cfg q). change (q_ia (blind q)) with (q_ia q). cbv zeta. set (t := c_arr (q_cfg q) (q_ia q) (q_now q)).
  destruct (eleb (c_deactive_t (q_cfg q)) t); [destruct (is_info (c_class (q_cfg q))); reflexivity|].
  set (q2 := set_q_total _ (set_q_ia _ (set_q_next_ct t q))).
  change (set_q_total _ (set_q_ia _ (set_q_next_ct t (blind q)))) with (blind q2).
  change (new_agent (blind q2) t) with (new_agent q2 t). rewrite rmap_bind. apply bind_ext. intros a _. change (q_arr (blind q2)) with (q_arr q2).
  rewrite rmap_bind. apply bind_ext. intros h _. rewrite <- update_time_if_b. f_equal. cbn [q_oarr set_q_oarr set_q_arr blind set_q_collect set_q_data].
  destruct (eleb (c_active_cap (q_cfg q)) (Fin (q_oarr q2 + 1))); reflexivity.
Qed.
Lemma add_self_b q : add_arrival_self (blind q) = rmap blind (add_arrival_self q).
Proof. unfold add_arrival_self. change (q_cfg (blind q)) with (q_cfg q). destruct (c_class (q_cfg q)); try apply add_new_b. reflexivity. Qed.
Lemma add_b a q : add_arrival a (blind q) = rmap blind (add_arrival a q).
Proof.
  assert (G : (let q1 := set_q_total (q_total (blind q) + 1) (blind q) in let* h := push_item (q_arr q1) a in update_time_if (set_q_arr h q1)) =
    rmap blind (let q1 := set_q_total (q_total q + 1) q in let* h := push_item (q_arr q1) a in update_time_if (set_q_arr h q1))).
  { cbv zeta. change (q_arr (set_q_total (q_total (blind q) + 1) (blind q))) with (q_arr q). change (q_arr (set_q_total (q_total q + 1) q)) with (q_arr q).
    rewrite rmap_bind. apply bind_ext. intros h _. rewrite <- update_time_if_b. reflexivity. }
  unfold add_arrival. change (q_cfg (blind q)) with (q_cfg q). destruct (c_class (q_cfg q)); try exact G.
  cbn [rmap]. change (q_collect (blind q)) with false. cbv iota. destruct (q_collect q); reflexivity.
Qed.
Lemma service_b q : listed q -> service_from_queue (blind q) = rmap blind (service_from_queue q).
Proof.
  intro L. unfold service_from_queue. change (q_line (blind q)) with (q_line q). destruct (q_line q) as [|a l]; [reflexivity|].
  change (set_q_line l (blind q)) with (blind (set_q_line l q)). change (q_now (blind (set_q_line l q))) with (q_now (set_q_line l q)).
  rewrite dlast_if_b by exact L. rewrite bind_rmap, rmap_bind. apply bind_ext. intros q2 E2. apply dlast_if_listed in E2; [|exact L]. unfold call_srv.
  change (c_srv (q_cfg (blind q2)) (q_is (blind q2)) (q_now (blind q2))) with (c_srv (q_cfg q2) (q_is q2) (q_now q2)).
  change (set_q_is (Datatypes.S (q_is (blind q2))) (blind q2)) with (blind (set_q_is (Datatypes.S (q_is q2)) q2)).
  rewrite action_b by got E2. rewrite bind_rmap, rmap_bind. apply bind_ext. intros [a' q4] _. cbn [pair_b fst snd]. change (q_dep (blind q4)) with (q_dep q4).
  rewrite rmap_bind. apply bind_ext. intros h _. reflexivity.
Qed.
Lemma delay_b t q : delay_service t (blind q) = rmap blind (delay_service t q).
Proof.
  unfold delay_service. change (q_cfg (blind q)) with (q_cfg q). change (q_dep (blind q)) with (q_dep q).
  destruct (c_class (q_cfg q)); try reflexivity; (destruct (1 <? length (q_dep q))%nat; [|reflexivity]); (destruct (heappop itime (q_dep q)) as [[[|a] h]|]; try reflexivity);
    destruct t as [t|]; unfold call_srv; rewrite rmap_bind; apply bind_ext; intros h' _; rewrite <- update_time_b; reflexivity.
Qed.
Lemma qs_departure_b q : listed q -> qs_departure (blind q) = rmap ev_b (qs_departure q).
Proof.
  intro L. unfold qs_departure. change (q_dep (blind q)) with (q_dep q). rewrite rmap_bind. apply bind_ext. intros [a h] _.
  set (q1 := set_q_departed _ (set_q_nsys _ (set_q_total _ (set_q_now _ (set_q_dep h q))))).
  change (set_q_departed _ (set_q_nsys _ (set_q_total _ (set_q_now _ (set_q_dep _ (blind q)))))) with (blind q1). change (q_now (blind q1)) with (q_now q1).
  assert (L1 : listed q1) by exact L. rewrite dlast_if_b by exact L1. rewrite bind_rmap, rmap_bind. apply bind_ext. intros q2 E2. assert (L2 := dlast_if_listed _ _ _ _ E2 L1).
  cbv zeta. change (q_line (blind q2)) with (q_line q2). change (q_nsys (blind q2)) with (q_nsys q2). change (q_servers (blind q2)) with (q_servers q2).
  rewrite service_b by exact L2. change (Ok (blind q2)) with (rmap blind (Ok q2)). rewrite <- rmap_if, bind_rmap, rmap_bind. apply bind_ext. intros q3 E3.
  assert (L3 : listed q3) by (destruct (_ && _) in E3; [exact (service_listed _ _ E3 L2) | injection E3 as <-; exact L2]).
  rewrite action_b by got L3. rewrite bind_rmap, rmap_bind. apply bind_ext. intros [a' q4] _. cbn [pair_b fst snd]. rewrite update_time_b, bind_rmap, rmap_bind.
  apply bind_ext. intros q5 _. reflexivity.
Qed.
Lemma qs_arrival_b q : listed q -> qs_arrival (blind q) = rmap ev_b (qs_arrival q).
Proof.
  intro L. unfold qs_arrival. change (q_arr (blind q)) with (q_arr q). rewrite rmap_bind. apply bind_ext. intros [a h] _.
  set (q1 := set_q_now (ag_time a) (set_q_arr h q)). change (set_q_now _ (set_q_arr _ (blind q))) with (blind q1).
  cbv zeta. change (q_active (blind q1)) with (q_active q1). rewrite add_self_b. change (Ok (blind q1)) with (rmap blind (Ok q1)).
  rewrite <- rmap_if, bind_rmap, rmap_bind. apply bind_ext. intros q2 E2.
  assert (L2 : listed q2). { destruct (q_active q1); [|injection E2 as <-; exact L]. apply (listed_same q1); [apply add_self_cfg|apply add_self_data|]; assumption. }
  set (q3 := set_q_narr (q_narr q2 + 1) (set_q_nsys (q_nsys q2 + 1) q2)). change (set_q_narr _ (set_q_nsys _ (blind q2))) with (blind q3).
  change (q_collect (blind q3)) with false. cbv iota. change (q_line (blind q3)) with (q_line q3). change (q_nsys (blind q3)) with (q_nsys q3). change (q_servers (blind q3)) with (q_servers q3).
  set (q4 := if q_collect q3 then _ else q3). assert (E : blind q3 = blind q4) by (unfold q4; destruct (q_collect q3); reflexivity). rewrite E. clear E.
  assert (L4 : listed q4) by (unfold q4; destruct (q_collect q3); [split; [got L2|apply full_dappend; got L2] | exact L2]).
  rewrite action_b by got L4. rewrite bind_rmap, rmap_bind. apply bind_ext. intros [a1 q5] E5. cbn [pair_b fst snd].
  assert (C5 := action_cfg _ _ _ _ E5). apply action_data in E5 as (D5 & K5 & I5). assert (L5 := listed_same _ _ C5 D5 L4).
  change (q_nsys (blind q5)) with (q_nsys q5). change (q_servers (blind q5)) with (q_servers q5). rewrite rmap_if.
  destruct (eleb (Fin (q_nsys q5)) (q_servers q5)).
  - change (q_collect (blind q5)) with false. cbv iota.
    assert (E6 : exists q6, (if q_collect q5 then let* d := dlast (q_data q5) (ag_id a1) (row_set_srv (ag_time a1)) in Ok (set_q_data d q5) else Ok q5) = Ok q6 /\ blind q6 = blind q5 /\ q_cfg q6 = q_cfg q5).
    { destruct (q_collect q5) eqn:K; [|exists q5; auto]. rewrite D5, I5.
      assert (G : exists rows, dget (q_data q4) (ag_id a) = Some rows). { assert (K4 : q_collect q4 = true) by congruence. assert (K3 : q_collect q3 = true) by (unfold q4 in K4; destruct (q_collect q3) eqn:X; [reflexivity | rewrite X in K4; exact K4]).
        unfold q4. rewrite K3. apply dget_dappend. }
      destruct G as [rows G]. destruct (dlast_total _ _ (row_set_srv (ag_time a1)) _ (proj2 L4) G) as [d ->]. cbn [bind]. eexists. split; [reflexivity|]. auto. }
    destruct E6 as (q6 & -> & B6 & C6). cbn [bind]. rewrite <- B6. unfold call_srv.
    change (c_srv (q_cfg (blind q6)) (q_is (blind q6)) (ag_time a1)) with (c_srv (q_cfg q6) (q_is q6) (ag_time a1)).
    change (set_q_is (Datatypes.S (q_is (blind q6))) (blind q6)) with (blind (set_q_is (Datatypes.S (q_is q6)) q6)).
    rewrite action_b by (cbn [set_q_is q_cfg]; rewrite C6; got L5). rewrite bind_rmap, rmap_bind. apply bind_ext. intros [a2 q8] _. cbn [pair_b fst snd]. change (q_dep (blind q8)) with (q_dep q8).
    rewrite rmap_bind. apply bind_ext. intros h2 _. change (set_q_dep h2 (blind q8)) with (blind (set_q_dep h2 q8)). rewrite update_time_b, bind_rmap, rmap_bind. apply bind_ext. intros q9 _. reflexivity.
  - change (set_q_line (q_line (blind q5) ++ [a1]) (blind q5)) with (blind (set_q_line (q_line q5 ++ [a1]) q5)). rewrite update_time_b, bind_rmap, rmap_bind. apply bind_ext. intros q6 _. reflexivity.
Qed.
Lemma qs_b q : listed q -> qs_next_event (blind q) = rmap ev_b (qs_next_event q).
Proof.
  intro L. unfold qs_next_event. change (q_arr (blind q)) with (q_arr q). change (q_dep (blind q)) with (q_dep q).
  rewrite rmap_bind. apply bind_ext. intros ta _. rewrite rmap_bind. apply bind_ext. intros td _. rewrite !rmap_if, qs_departure_b, qs_arrival_b by exact L. reflexivity.
Qed.
Lemma loss_blocked_b q : loss_blocked (blind q) = rmap ev_b (loss_blocked q).
Proof.
  unfold loss_blocked. cbv zeta. set (q0 := set_q_total (q_total q - 1) (set_q_blocked (q_blocked q + 1) q)).
  change (set_q_total _ (set_q_blocked _ (blind q))) with (blind q0). change (q_arr (blind q0)) with (q_arr q0). rewrite rmap_bind. apply bind_ext. intros [a h] _.
  change (add_loss a (blind q0)) with (add_loss a q0). rewrite rmap_bind. apply bind_ext. intros x _.
  set (q1 := set_q_now (ag_time a) (set_q_arr h q0)). change (set_q_now _ (set_q_arr _ (blind q0))) with (blind q1).
  change (q_active (blind q1)) with (q_active q1). rewrite add_self_b. change (Ok (blind q1)) with (rmap blind (Ok q1)).
  rewrite <- rmap_if, bind_rmap, rmap_bind. apply bind_ext. intros q2 _. change (q_collect (blind q2)) with false. cbv iota.
  set (q3 := if q_collect q2 then _ else q2). assert (E : blind q2 = blind q3) by (unfold q3; destruct (q_collect q2); reflexivity). rewrite E.
  rewrite update_time_b, bind_rmap, rmap_bind. apply bind_ext. intros q4 _. reflexivity.
Qed.
Lemma drop_b (r : res (option agent * queue)) :
  (let* x := rmap ev_b r in (let '(_, q') := x in Ok (@None agent, q'))) = rmap ev_b (let* x := r in (let '(_, q') := x in Ok (@None agent, q'))).
Proof. destruct r as [[o q]|]; reflexivity. Qed.
Lemma loss_b q : listed q -> loss_next_event (blind q) = rmap ev_b (loss_next_event q).
Proof.
  intro L. unfold loss_next_event. change (q_arr (blind q)) with (q_arr q). change (q_dep (blind q)) with (q_dep q).
  rewrite rmap_bind. apply bind_ext. intros ta _. rewrite rmap_bind. apply bind_ext. intros td _. rewrite !rmap_if, loss_blocked_b, qs_b, drop_b by exact L. reflexivity.
Qed.
Lemma rq_return_b q : rq_return (blind q) = rmap ev_b (rq_return q).
Proof.
  unfold rq_return. change (q_arr (blind q)) with (q_arr q). rewrite rmap_bind. apply bind_ext. intros [a h] _.
  set (q1 := set_q_total _ (set_q_now _ (set_q_arr h q))). change (set_q_total _ (set_q_now _ (set_q_arr _ (blind q)))) with (blind q1).
  cbv zeta. change (q_servers (blind q1)) with (q_servers q1). rewrite rq_servers_b. set (q2 := rq_set_num_servers _ q1). change (q_collect (blind q2)) with false. cbv iota.
  set (q3 := if q_collect q2 then _ else q2). assert (E : blind q2 = blind q3) by (unfold q3; destruct (q_collect q2); reflexivity). rewrite E.
  rewrite update_time_b, bind_rmap, rmap_bind. apply bind_ext. intros q4 _. reflexivity.
Qed.
Lemma rq_blocked_b q : rq_blocked (blind q) = rmap ev_b (rq_blocked q).
Proof.
  unfold rq_blocked. cbv zeta. set (q0 := set_q_total _ (set_q_narr _ (set_q_blocked (q_blocked q + 1) q))).
  change (set_q_total _ (set_q_narr _ (set_q_blocked _ (blind q)))) with (blind q0). change (q_arr (blind q0)) with (q_arr q0). rewrite rmap_bind. apply bind_ext. intros [a h] _.
  set (q1 := set_q_now (ag_time a) (set_q_arr h q0)). change (set_q_now _ (set_q_arr _ (blind q0))) with (blind q1). change (q_collect (blind q1)) with false. cbv iota.
  set (q3 := if q_collect q1 then _ else q1). assert (E : blind q1 = blind q3) by (unfold q3; destruct (q_collect q1); reflexivity). rewrite E.
  rewrite update_time_b, bind_rmap, rmap_bind. apply bind_ext. intros q4 _. reflexivity.
Qed.
Lemma rq_b q : listed q -> rq_next_event (blind q) = rmap ev_b (rq_next_event q).
Proof.
  intro L. unfold rq_next_event. change (q_arr (blind q)) with (q_arr q). destruct (q_arr q) as [|[|a] h]; [reflexivity|apply loss_b; exact L|].
  destruct (ag_kind a); try (apply loss_b; exact L). change (q_dep (blind q)) with (q_dep q). rewrite rmap_bind. apply bind_ext. intros td _.
  rewrite !rmap_if, loss_b, rq_return_b, rq_blocked_b, drop_b by exact L. reflexivity.
Qed.
Lemma next_b q : listed q -> next_event (blind q) = rmap ev_b (next_event q).
Proof.
  intro L. unfold next_event. change (q_cfg (blind q)) with (q_cfg q).
  destruct (c_class (q_cfg q)) eqn:E; [apply qs_b|apply loss_b|reflexivity|apply rq_b|destruct L; congruence]; exact L.
Qed.
Lemma active_b q : set_active (blind q) = rmap blind (set_active q).
Proof.
  unfold set_active. change (q_active (blind q)) with (q_active q). destruct (q_active q); [reflexivity|].
  change (set_q_active true (blind q)) with (blind (set_q_active true q)). apply add_self_b.
Qed.
Lemma repeat_b k : forall q, listed q -> repeat_service k (blind q) = rmap blind (repeat_service k q).
Proof.
  induction k as [|k IH]; intros q L; cbn [repeat_service]; [reflexivity|]. rewrite service_b by exact L. rewrite bind_rmap, rmap_bind.
  apply bind_ext. intros q' E. apply IH. exact (service_listed _ _ E L).
Qed.
Lemma servers_b z q : listed q -> set_num_servers z (blind q) = rmap blind (set_num_servers z q).
Proof.
  intro L. assert (G : qs_set_num_servers z (blind q) = rmap blind (qs_set_num_servers z q)).
  { unfold qs_set_num_servers. cbv zeta. change (q_line (blind q)) with (q_line q). change (q_servers (blind q)) with (q_servers q).
    assert (GO : forall m k, (let* q1 := repeat_service (Z.to_nat k) (blind q) in let* q2 := if 0 <? k then update_time q1 else Ok q1 in Ok (set_q_servers m q2)) =
      rmap blind (let* q1 := repeat_service (Z.to_nat k) q in let* q2 := if 0 <? k then update_time q1 else Ok q1 in Ok (set_q_servers m q2))).
    { intros m k. rewrite repeat_b by exact L. rewrite bind_rmap, rmap_bind. apply bind_ext. intros q1 _. rewrite update_time_b.
      change (Ok (blind q1)) with (rmap blind (Ok q1)). rewrite <- rmap_if, bind_rmap, rmap_bind. apply bind_ext. intros q2 _. reflexivity. }
    destruct z as [z| |]; [|destruct (q_servers q); [apply GO|reflexivity]|reflexivity].
    destruct (z <=? 0); [reflexivity|]. destruct (q_servers q); apply GO. }
  unfold set_num_servers. change (q_cfg (blind q)) with (q_cfg q). destruct (c_class (q_cfg q)); try exact G; [reflexivity|].
  destruct z; try reflexivity; rewrite rq_servers_b; reflexivity.
Qed.
Lemma clear_b q : clear (blind q) = blind (clear q).
Proof. unfold clear. change (q_cfg (blind q)) with (q_cfg q). destruct (c_class (q_cfg q)); reflexivity. Qed.

(** ** Listed queues stay listed *)

Lemma departure_listed q r q' : qs_departure q = Ok (r, q') -> listed q -> listed q'.
Proof.
  intros H L. assert (C := departure_cfg _ _ _ H). apply (listed_cfg _ _ C); [|exact L]. unfold qs_departure in H.
  apply bind_Ok in H as ([a h] & _ & H). apply bind_Ok in H as (q2 & E2 & H). apply bind_Ok in H as (q3 & E3 & H). apply bind_Ok in H as ([a' q4] & E4 & H). apply bind_Ok in H as (q5 & E5 & H). injection H as _ <-.
  apply dlast_if_listed in E2; [|exact L]. apply action_data in E4 as (D4 & _). apply update_time_data in E5. rewrite E5, D4.
  destruct (_ && _) in E3; [apply service_listed in E3; [got E3|exact E2] | injection E3 as <-; got E2].
Qed.
Lemma arrival_listed q r q' : qs_arrival q = Ok (r, q') -> listed q -> listed q'.
Proof.
  intros H L. assert (C := arrival_cfg _ _ _ H). apply (listed_cfg _ _ C); [|exact L]. clear C. unfold qs_arrival in H.
  apply bind_Ok in H as ([a h] & _ & H). apply bind_Ok in H as (q2 & E2 & H). apply bind_Ok in H as ([a1 q5] & E5 & H).
  assert (D2 : q_data q2 = q_data q) by (destruct (q_active _) in E2; [apply add_self_data in E2; exact E2 | injection E2 as <-; reflexivity]).
  apply action_data in E5 as (D5 & _). assert (F5 : full_rows (q_data q5)).
  { rewrite D5. cbv zeta. match goal with |- full_rows (q_data (if ?b then _ else _)) => destruct b end; [cbn [set_q_data q_data]; apply full_dappend|]; cbn [set_q_narr set_q_nsys q_data]; rewrite D2; got L. }
  clear D5. cbv zeta in H. destruct (eleb (Fin (q_nsys q5)) (q_servers q5)).
  - apply bind_Ok in H as (q6 & E6 & H). unfold call_srv in H. apply bind_Ok in H as ([a2 q8] & E8 & H). apply bind_Ok in H as (h2 & _ & H).
    apply bind_Ok in H as (q9 & E9 & H). injection H as _ <-. apply update_time_data in E9. apply action_data in E8 as (D8 & _). rewrite E9. cbn [set_q_dep q_data].
    rewrite D8. cbn [set_q_is q_data]. destruct (q_collect q5); [|injection E6 as <-; exact F5].
    apply bind_Ok in E6 as (d & E6' & E6). injection E6 as <-. cbn [set_q_data q_data]. exact (full_dlast _ _ _ _ F5 E6').
  - apply bind_Ok in H as (q6 & E6 & H). injection H as _ <-. apply update_time_data in E6. rewrite E6. exact F5.
Qed.
Lemma qs_listed q r q' : qs_next_event q = Ok (r, q') -> listed q -> listed q'.
Proof.
  unfold qs_next_event. intros H L. do 2 (mbind H). destruct (eltb _ _); [eapply departure_listed; eassumption|].
  destruct (eltb _ _); [eapply arrival_listed; eassumption|]. injection H as _ <-. exact L.
Qed.
Lemma loss_listed q r q' : loss_next_event q = Ok (r, q') -> listed q -> listed q'.
Proof.
  intros H L. assert (C := loss_cfg _ _ _ H). unfold loss_next_event in H. do 2 (mbind H). destruct (eltb _ _); [eapply qs_listed; eassumption|].
  destruct (eltb _ _); [|injection H as _ <-; exact L]. destruct (eltb _ _).
  - apply bind_Ok in H as ([o q1] & E1 & H). injection H as _ <-. eapply qs_listed; eassumption.
  - apply (listed_cfg _ _ C); [|exact L]. unfold loss_blocked in H. apply bind_Ok in H as ([a h] & _ & H). apply bind_Ok in H as (z & _ & H). apply bind_Ok in H as (q2 & E2 & H).
    apply bind_Ok in H as (q4 & E4 & H). injection H as _ <-. apply update_time_data in E4. rewrite E4.
    assert (D2 : q_data q2 = q_data q) by (destruct (q_active _) in E2; [apply add_self_data in E2; exact E2 | injection E2 as <-; reflexivity]).
    destruct (q_collect q2); [cbn [set_q_data q_data]; apply full_dappend|]; rewrite D2; got L.
Qed.
Lemma rq_servers_data z q : q_data (rq_set_num_servers z q) = q_data q.
Proof. unfold rq_set_num_servers. destruct (eltb _ _); reflexivity. Qed.
Lemma rq_listed q r q' : rq_next_event q = Ok (r, q') -> listed q -> listed q'.
Proof.
  intros H L. assert (C := rq_cfg _ _ _ H). unfold rq_next_event in H. destruct (q_arr q) as [|[|a] h]; [discriminate|eapply loss_listed; eassumption|]. destruct (ag_kind a); try (eapply loss_listed; eassumption).
  mbind H. destruct (eltb _ _); [eapply loss_listed; eassumption|]. destruct (eltb _ _); [|injection H as _ <-; exact L].
  destruct (ag_has a).
  - apply (listed_cfg _ _ C); [|exact L]. unfold rq_return in H. apply bind_Ok in H as ([a1 h1] & _ & H). apply bind_Ok in H as (q4 & E4 & H). injection H as _ <-. apply update_time_data in E4. rewrite E4.
    match goal with |- context [rq_set_num_servers ?z ?q1] => set (q2 := rq_set_num_servers z q1) in *; assert (D : q_data q2 = q_data q) by apply (rq_servers_data z q1) end.
    destruct (q_collect q2); [cbn [set_q_data q_data]; apply full_dappend|]; rewrite D; got L.
  - destruct (eltb _ _); [apply bind_Ok in H as ([o q1] & E1 & H); injection H as _ <-; eapply loss_listed; eassumption|].
    apply (listed_cfg _ _ C); [|exact L]. unfold rq_blocked in H. apply bind_Ok in H as ([a1 h1] & _ & H). apply bind_Ok in H as (q4 & E4 & H). injection H as _ <-. apply update_time_data in E4. rewrite E4.
    destruct (q_collect _); [apply full_dappend|]; got L.
Qed.
Lemma next_listed q r q' : next_event q = Ok (r, q') -> listed q -> listed q'.
Proof.
  unfold next_event. intros H L. destruct (c_class (q_cfg q)) eqn:E; [eapply qs_listed|eapply loss_listed|injection H as _ <-; exact L|eapply rq_listed|destruct L; congruence]; eassumption.
Qed.
Lemma add_listed a q q' : add_arrival a q = Ok q' -> listed q -> listed q'.
Proof.
  intros H L. assert (C := add_cfg _ _ _ H). apply (listed_cfg _ _ C); [|exact L]. unfold add_arrival in H. destruct (c_class (q_cfg q)).
  3:{ injection H as <-. destruct (q_collect q); [apply full_dappend|]; got L. }
  all: mbind H; apply update_time_if_data in H; rewrite H; got L.
Qed.
Lemma delay_listed t q q' : delay_service t q = Ok q' -> listed q -> listed q'.
Proof.
  intros H L. assert (C := delay_cfg _ _ _ H). apply (listed_cfg _ _ C); [|exact L]. unfold delay_service in H. destruct (c_class (q_cfg q)).
  3:{ injection H as <-. got L. }
  all: destruct (1 <? length (q_dep q))%nat; [|injection H as <-; got L];
    destruct (heappop itime (q_dep q)) as [[[|a] h]|]; try discriminate;
    destruct t as [t|]; unfold call_srv in H; mbind H; apply update_time_data in H; rewrite H; got L.
Qed.
Lemma active_listed q q' : set_active q = Ok q' -> listed q -> listed q'.
Proof.
  intros H L. assert (C := active_cfg _ _ H). apply (listed_cfg _ _ C); [|exact L]. unfold set_active in H. destruct (q_active q); [injection H as <-; got L|].
  apply add_self_data in H. rewrite H. got L.
Qed.
Lemma clear_listed q : listed q -> listed (clear q).
Proof.
  intro L. apply (listed_cfg q); [apply clear_cfg| |exact L]. unfold clear. destruct (c_class (q_cfg q)); try (intros i rows X; discriminate X). got L.
Qed.
Lemma repeat_listed k : forall q q', repeat_service k q = Ok q' -> listed q -> listed q'.
Proof.
  induction k as [|k IH]; intros q q' H L; cbn [repeat_service] in H; [injection H as <-; exact L|]. apply bind_Ok in H as (q1 & E & H). exact (IH _ _ H (service_listed _ _ E L)).
Qed.
Lemma servers_listed z q q' : set_num_servers z q = Ok q' -> listed q -> listed q'.
Proof.
  intros H L. assert (C := servers_cfg _ _ _ H). assert (RS : forall m, listed (rq_set_num_servers m q)) by (intro m; unfold rq_set_num_servers; destruct (eltb _ _); exact L).
  assert (G : qs_set_num_servers z q = Ok q' -> listed q').
  { unfold qs_set_num_servers. cbv zeta.
    assert (GO : forall m k, (let* q1 := repeat_service (Z.to_nat k) q in let* q2 := if 0 <? k then update_time q1 else Ok q1 in Ok (set_q_servers m q2)) = Ok q' -> listed q').
    { intros m k X. apply bind_Ok in X as (q1 & E1 & X). apply bind_Ok in X as (q2 & E2 & X). injection X as <-. apply repeat_listed in E1; [|exact L].
      change (listed q2). destruct (0 <? k); [|injection E2 as <-; exact E1]. apply (listed_same q1); [apply update_time_cfg|apply update_time_data|]; assumption. }
    destruct z as [z| |]; [|destruct (q_servers q); [apply GO|discriminate]|discriminate].
    destruct (z <=? 0); [discriminate|]. destruct (q_servers q); apply GO. }
  unfold set_num_servers in H. destruct (c_class (q_cfg q)); try (exact (G H)); [injection H as <-; exact L|].
  destruct z; try discriminate; injection H as <-; apply RS.
Qed.
Lemma op_listed o q q' : run_op o q = Ok q' -> listed q -> listed q'.
Proof.
  destruct o as [| | |z|t|a|b| |]; cbn [run_op]; intros H L; try (injection H as <-; exact L).
  - apply bind_Ok in H as ([r q1] & E & H). injection H as <-. eapply next_listed; eassumption.
  - eapply active_listed; eassumption.
  - eapply servers_listed; eassumption.
  - eapply delay_listed; eassumption.
  - eapply add_listed; eassumption.
  - injection H as <-. apply clear_listed. exact L.
  - injection H as <-. split; [got L|]. intros i rows X. discriminate X.
Qed.

Lemma op_b o q : listed q -> (if about_data o then Ok (blind q) else run_op o (blind q)) = rmap blind (run_op o q).
Proof.
  intro L. destruct o as [| | |z|t|a|b| |]; cbn [about_data run_op]; try reflexivity.
  - rewrite next_b by exact L. destruct (next_event q) as [[r q']|]; reflexivity.
  - apply active_b.
  - apply servers_b. exact L.
  - apply delay_b.
  - apply add_b.
  - rewrite clear_b. reflexivity.
Qed.
Lemma ops_b ops : forall q, listed q -> run_ops (not_about_data ops) (blind q) = rmap blind (run_ops ops q).
Proof.
  induction ops as [|o ops IH]; intros q L; [reflexivity|]. assert (B := op_b o q L). unfold not_about_data in *. cbn [filter run_ops]. destruct (about_data o); cbn [negb].
  - destruct (run_op o q) as [q1|] eqn:E; cbn [rmap] in B; [|discriminate]. apply (f_equal (fun r => match r with Ok x => x | Err _ => blind q end)) in B. cbv beta iota in B. cbn [bind]. rewrite B. apply IH. eapply op_listed; eassumption.
  - cbn [run_ops]. rewrite B, bind_rmap, rmap_bind. apply bind_ext. intros q1 E. apply IH. eapply op_listed; eassumption.
Qed.
