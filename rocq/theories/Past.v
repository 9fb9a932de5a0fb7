(** * Past: what has not been drawn has no influence *)
From Coq Require Import List ZArith QArith Lia Bool Arith.
From Verif Require Import Base Heap Queue PQueue Network SpecNet SpecQueue QueueEffects NetBare Clock ClockNet SpecPast.
Import ListNotations.
Open Scope Z_scope.

(** ** Results that are the same or too late *)

(** If [r] gives [a], then [r'] gives the same, unless [a] is too late; and it
    is if [P] holds. *)
Definition good {A} (P : Prop) (f : A -> A) (late : A -> Prop) (r r' : res A) : Prop :=
  forall a, r = Ok a -> (r' = Ok (f a) \/ late a) /\ (P -> late a).

Lemma good_ret {A} (P : Prop) f (late : A -> Prop) a : (P -> late a) -> good P f late (Ok a) (Ok (f a)).
Proof. intros H b E. injection E as <-. auto. Qed.
Lemma good_err {A} (P : Prop) f (late : A -> Prop) e r : good P f late (Err e) r.
Proof. intros b E. discriminate. Qed.
Lemma good_weak {A} (P Q : Prop) f (late : A -> Prop) r r' : (Q -> P) -> good P f late r r' -> good Q f late r r'.
Proof. intros H G a E. destruct (G a E). auto. Qed.
Lemma good_bind {A B} (P Q : Prop) f (lf : A -> Prop) g (lg : B -> Prop) r r' k k' :
  good Q f lf r r' -> (forall a, r = Ok a -> (Q -> lf a) -> good (P \/ lf a) g lg (k a) (k' (f a))) -> good P g lg (bind r k) (bind r' k').
Proof.
  intros G K b E. apply bind_Ok in E as (a & E1 & E2). destruct (G a E1) as [G1 G2]. destruct (K a E1 G2 b E2) as [K1 K2]. split; [|auto].
  destruct G1 as [->|G1]; [|auto]. exact K1.
Qed.
Lemma good_step {A B} (P : Prop) f (lf : A -> Prop) g (lg : B -> Prop) r r' k k' :
  good P f lf r r' -> (forall a, good (lf a) g lg (k a) (k' (f a))) -> good P g lg (bind r k) (bind r' k').
Proof. intros G K. apply (good_bind P P _ _ _ _ _ _ _ _ G). intros a _ H. apply (good_weak (lf a)); [|apply K]. tauto. Qed.
Lemma good_same {A B} (P : Prop) g (lg : B -> Prop) (r : res A) k k' :
  (forall a, r = Ok a -> good P g lg (k a) (k' a)) -> good P g lg (bind r k) (bind r k').
Proof. intros K b E. apply bind_Ok in E as (a & E1 & E2). rewrite E1. exact (K a E1 b E2). Qed.
Lemma good_draw {A} (P : Prop) f (late : A -> Prop) (c : bool) r r' : (c = true -> good P f late r r') -> (c = false -> forall a, r = Ok a -> late a) -> good P f late r r'.
Proof. intros H K. destruct c; [apply H; reflexivity|]. intros a E. specialize (K eq_refl a E). auto. Qed.

Section Past.
Context (d : draws).
Notation L := (redraw d).

Definition late (q : queue) : Prop :=
  (exists i t, (i < q_ia q)%nat /\ dr_arr d (c_idx (q_cfg q)) i t <> c_arr (q_cfg q) i t) \/
  (exists i t, (i < q_is q)%nat /\ dr_srv d (c_idx (q_cfg q)) i t <> c_srv (q_cfg q) i t).
Lemma not_late q : same_past_queue d q -> ~ late q.
Proof. intros [A B] [(i & t & H & N)|(i & t & H & N)]; [apply N, A, H|apply N, B, H]. Qed.

Definition pl (x : agent * queue) : agent * queue := (fst x, L (snd x)).
Definition el (x : option agent * queue) : option agent * queue := (fst x, L (snd x)).
Definition lp (x : agent * queue) : Prop := late (snd x).
Definition le' (x : option agent * queue) : Prop := late (snd x).
Notation G q := (good (late q) L late).
Notation GP q := (good (late q) pl lp).
Notation GE q := (good (late q) el le').

(** ** One queue *)

Lemma dlast_past q i f : G q (dlast_if q i f) (dlast_if (L q) i f).
Proof.
  unfold dlast_if. change (q_collect (L q)) with (q_collect q). change (q_data (L q)) with (q_data q). destruct (q_collect q); [|apply good_ret; auto].
  destruct (dget (q_data q) i); [|apply good_ret; auto]. apply good_same. intros x _. apply (good_ret _ L late (set_q_data x q)). exact (fun H => H).
Qed.
Lemma update_past q : G q (update_time q) (update_time (L q)).
Proof.
  unfold update_time. apply good_same. intros ta _. apply good_same. intros td _. destruct (eltb ta td).
  - apply (good_ret _ L late (set_q_time ta q)). exact (fun H => H).
  - apply (good_ret _ L late (set_q_time td q)). exact (fun H => H).
Qed.
Lemma update_if_past q : G q (update_time_if q) (update_time_if (L q)).
Proof.
  unfold update_time_if. apply good_same. intros ta _. apply good_same. intros td _. destruct (eltb ta td).
  - apply (good_ret _ L late (set_q_time ta q)). exact (fun H => H).
  - apply (good_ret _ L late q). exact (fun H => H).
Qed.
Lemma rq_past z q : rq_set_num_servers z (L q) = L (rq_set_num_servers z q) /\ (late q -> late (rq_set_num_servers z q)).
Proof. unfold rq_set_num_servers. change (c_max_servers (q_cfg (L q))) with (c_max_servers (q_cfg q)). destruct (eltb _ _); split; try reflexivity; exact (fun H => H). Qed.
Lemma action_past a q : GP q (queue_action a q) (queue_action a (L q)).
Proof.
  unfold queue_action. destruct (ag_kind a); try (apply (good_ret _ pl lp (a, q)); exact (fun H => H)).
  - unfold resource_action. change (c_class (q_cfg (L q))) with (c_class (q_cfg q)). change (q_servers (L q)) with (q_servers q).
    destruct (is_resource _); [|apply (good_ret _ pl lp (a, q)); exact (fun H => H)]. destruct (ag_has a); [apply (good_ret _ pl lp (_, q)); exact (fun H => H)|].
    destruct (eltb (Fin 0) (q_servers q)); [|apply (good_ret _ pl lp (a, q)); exact (fun H => H)].
    destruct (rq_past (eadd (q_servers q) (Fin (-1))) q) as [-> M]. apply (good_ret _ pl lp (_, rq_set_num_servers (eadd (q_servers q) (Fin (-1))) q)). exact M.
  - unfold info_action. change (c_class (q_cfg (L q))) with (c_class (q_cfg q)). destruct (is_info _); [|apply (good_ret _ pl lp (a, q)); exact (fun H => H)].
    apply good_same. intros nd _. change (info_stats a (L q)) with (info_stats a q). apply good_same. intros st _. change (load (L q)) with (load q). apply good_same. intros ld _.
    apply good_same. intros nd' _. apply (good_ret _ pl lp (_, q)). exact (fun H => H).
Qed.
Lemma add_past a q : G q (add_arrival a q) (add_arrival a (L q)).
Proof.
  assert (X : G q (let q1 := set_q_total (q_total q + 1) q in let* h := push_item (q_arr q1) a in update_time_if (set_q_arr h q1))
                  (let q1 := set_q_total (q_total (L q) + 1) (L q) in let* h := push_item (q_arr q1) a in update_time_if (set_q_arr h q1))).
  { cbv zeta. apply good_same. intros h _. exact (update_if_past (set_q_arr h (set_q_total (q_total q + 1) q))). }
  unfold add_arrival. change (c_class (q_cfg (L q))) with (c_class (q_cfg q)). destruct (c_class (q_cfg q)); try exact X.
  change (q_collect (L q)) with (q_collect q). destruct (q_collect q); [|apply good_ret; exact (fun H => H)].
  apply (good_ret _ L late (set_q_data (dappend (q_data q) (ag_id a) (mkData (ag_time a) (Fin 0) (Fin 0) 0 0)) q)). exact (fun H => H).
Qed.

(** A draw: either it is the same, or the queue is late from now on. *)
Lemma late_is q : late q -> late (set_q_is (S (q_is q)) q).
Proof. intros [H|(i & t & H & N)]; [left; exact H|]. right. exists i, t. split; [|exact N]. cbn. lia. Qed.
Lemma late_ia q : late q -> late (set_q_ia (S (q_ia q)) q).
Proof. intros [(i & t & H & N)|H]; [|right; exact H]. left. exists i, t. split; [|exact N]. cbn. lia. Qed.
Lemma eeqb_eq a b : eeqb a b = true <-> a = b.
Proof. destruct a, b; cbn; rewrite ?Z.eqb_eq; split; intro H; try congruence; try discriminate; auto. Qed.
Lemma srv_past {B} q t g (lg : B -> Prop) (k k' : ext * queue -> res B) :
  (forall t q', good (late q') g lg (k (t, q')) (k' (t, L q'))) ->
  good (late q) g lg (k (call_srv q t)) (k' (call_srv (L q) t)).
Proof.
  intros K. unfold call_srv. change (q_is (L q)) with (q_is q). change (c_srv (q_cfg (L q)) (q_is q) t) with (dr_srv d (c_idx (q_cfg q)) (q_is q) t).
  apply (good_draw _ _ _ (eeqb (dr_srv d (c_idx (q_cfg q)) (q_is q) t) (c_srv (q_cfg q) (q_is q) t))).
  - intro E. apply eeqb_eq in E. rewrite E. apply (good_weak (late (set_q_is (S (q_is q)) q))); [apply late_is|]. exact (K _ (set_q_is (S (q_is q)) q)).
  - intros E b H. apply (K _ (set_q_is (S (q_is q)) q) b H). right. exists (q_is q), t. split; [cbn; lia|]. intro X. apply eeqb_eq in X. cbn in X. congruence.
Qed.
Lemma service_past q : G q (service_from_queue q) (service_from_queue (L q)).
Proof.
  unfold service_from_queue. change (q_line (L q)) with (q_line q). destruct (q_line q) as [|a l]; [apply good_err|]. cbv zeta.
  apply (good_step _ L late); [exact (dlast_past (set_q_line l q) (ag_id a) (row_set_srv (q_now q)))|]. intros q2.
  apply (srv_past q2 (q_now q2) L late (fun x => let '(t, q3) := x in let* (a', q4) := queue_action (set_ag_time t a) q3 in let* h := push_item (q_dep q4) a' in Ok (set_q_dep h q4))
                                       (fun x => let '(t, q3) := x in let* (a', q4) := queue_action (set_ag_time t a) q3 in let* h := push_item (q_dep q4) a' in Ok (set_q_dep h q4))).
  intros t q3. apply (good_step _ pl lp); [apply action_past|]. intros [a' q4]. cbn [pl fst snd]. apply good_same. intros h _. apply (good_ret _ L late (set_q_dep h q4)). exact (fun H => H).
Qed.
Lemma delay_past t q : G q (delay_service t q) (delay_service t (L q)).
Proof.
  unfold delay_service. change (c_class (q_cfg (L q))) with (c_class (q_cfg q)). change (q_dep (L q)) with (q_dep q).
  assert (X : G q
    (if (1 <? length (q_dep q))%nat then match heappop itime (q_dep q) with None => Err IndexError | Some (Sentinel, _) => Err Corrupt | Some (Ag a, h) => let '(t', q1) := match t with None => call_srv q (ag_time a) | Some t => (t, q) end in let* h' := push_item h (set_ag_time t' a) in update_time (set_q_dep h' q1) end else Ok q)
    (if (1 <? length (q_dep q))%nat then match heappop itime (q_dep q) with None => Err IndexError | Some (Sentinel, _) => Err Corrupt | Some (Ag a, h) => let '(t', q1) := match t with None => call_srv (L q) (ag_time a) | Some t => (t, L q) end in let* h' := push_item h (set_ag_time t' a) in update_time (set_q_dep h' q1) end else Ok (L q))).
  { destruct (1 <? length (q_dep q))%nat; [|apply good_ret; exact (fun H => H)]. destruct (heappop itime (q_dep q)) as [[[|a] h]|]; try apply good_err. destruct t as [t|].
    - apply good_same. intros h' _. exact (update_past (set_q_dep h' q)).
    - apply (srv_past q (ag_time a) L late (fun x => let '(t', q1) := x in let* h' := push_item h (set_ag_time t' a) in update_time (set_q_dep h' q1)) (fun x => let '(t', q1) := x in let* h' := push_item h (set_ag_time t' a) in update_time (set_q_dep h' q1))).
      intros t q1. apply good_same. intros h' _. exact (update_past (set_q_dep h' q1)). }
  destruct (c_class (q_cfg q)); try exact X. apply good_ret. exact (fun H => H).
Qed.
Lemma departure_past q : GE q (qs_departure q) (qs_departure (L q)).
Proof.
  unfold qs_departure. apply good_same. intros [a h] _. cbv zeta.
  set (q1 := set_q_departed _ (set_q_nsys _ (set_q_total _ (set_q_now _ (set_q_dep h q))))).
  apply (good_step _ L late); [exact (dlast_past q1 (ag_id a) (row_set_dep (q_now q1)))|]. intros q2.
  apply (good_step _ L late).
  { change (q_line (L q2)) with (q_line q2). change (q_nsys (L q2)) with (q_nsys q2). change (q_servers (L q2)) with (q_servers q2).
    destruct (_ && _); [apply service_past|apply good_ret; exact (fun H => H)]. }
  intros q3. apply (good_step _ pl lp); [apply action_past|]. intros [a' q4]. cbn [pl fst snd]. apply (good_step _ L late); [apply update_past|]. intros q5. apply (good_ret _ el le' (Some a', q5)). exact (fun H => H).
Qed.
Lemma repeat_past k : forall q, G q (repeat_service k q) (repeat_service k (L q)).
Proof.
  induction k as [|k IH]; intros q; cbn [repeat_service]; [apply good_ret; exact (fun H => H)|]. apply (good_step _ L late); [apply service_past|exact IH].
Qed.
Lemma servers_past z q : G q (set_num_servers z q) (set_num_servers z (L q)).
Proof.
  assert (X : G q (qs_set_num_servers z q) (qs_set_num_servers z (L q))).
  { unfold qs_set_num_servers. cbv zeta. change (q_line (L q)) with (q_line q). change (q_servers (L q)) with (q_servers q).
    assert (GO : forall m k, G q (let* q1 := repeat_service (Z.to_nat k) q in let* q2 := if 0 <? k then update_time q1 else Ok q1 in Ok (set_q_servers m q2))
      (let* q1 := repeat_service (Z.to_nat k) (L q) in let* q2 := if 0 <? k then update_time q1 else Ok q1 in Ok (set_q_servers m q2))).
    { intros m k. apply (good_step _ L late); [apply repeat_past|]. intros q1. apply (good_step _ L late); [destruct (0 <? k); [apply update_past|apply good_ret; exact (fun H => H)]|].
      intros q2. apply (good_ret _ L late (set_q_servers m q2)). exact (fun H => H). }
    destruct z as [z| |]; [|destruct (q_servers q); [apply GO|apply good_err]|apply good_err].
    destruct (z <=? 0); [apply good_err|]. destruct (q_servers q); apply GO. }
  unfold set_num_servers. change (c_class (q_cfg (L q))) with (c_class (q_cfg q)). destruct (c_class (q_cfg q)); try exact X; [apply good_ret; exact (fun H => H)|].
  destruct z as [z| |]; [| |apply good_err]; match goal with |- context [rq_set_num_servers ?x (redraw d q)] => destruct (rq_past x q) as [-> M]; apply good_ret; exact M end.
Qed.
Lemma clear_past q : clear (L q) = L (clear q) /\ (late q -> late (clear q)).
Proof. unfold clear. change (c_class (q_cfg (L q))) with (c_class (q_cfg q)). destruct (c_class (q_cfg q)); split; try reflexivity; exact (fun H => H). Qed.
Lemma add_new_past q : G q (add_arrival_new q) (add_arrival_new (L q)).
Proof.
  unfold add_arrival_new. change (q_next_ct (L q)) with (q_next_ct q). change (q_now (L q)) with (q_now q).
  destruct (eleb (q_next_ct q) (q_now q)); [|apply update_if_past]. cbv zeta.
  change (q_ia (L q)) with (q_ia q). change (c_arr (q_cfg (L q)) (q_ia q) (q_now q)) with (dr_arr d (c_idx (q_cfg q)) (q_ia q) (q_now q)).
  change (c_deactive_t (q_cfg (L q))) with (c_deactive_t (q_cfg q)). change (c_active_cap (q_cfg (L q))) with (c_active_cap (q_cfg q)). change (c_class (q_cfg (L q))) with (c_class (q_cfg q)).
  set (k := fun q t => if eleb (c_deactive_t (q_cfg q)) t then if is_info (c_class (q_cfg q)) then Err AttributeError else Ok (set_q_active false (set_q_ia (S (q_ia q)) (set_q_next_ct t q)))
    else let* a := new_agent (set_q_total (q_total (set_q_ia (S (q_ia q)) (set_q_next_ct t q)) + 1) (set_q_ia (S (q_ia q)) (set_q_next_ct t q))) t in
         let* h := push_item (q_arr (set_q_total (q_total (set_q_ia (S (q_ia q)) (set_q_next_ct t q)) + 1) (set_q_ia (S (q_ia q)) (set_q_next_ct t q)))) a in
         let q2 := set_q_total (q_total (set_q_ia (S (q_ia q)) (set_q_next_ct t q)) + 1) (set_q_ia (S (q_ia q)) (set_q_next_ct t q)) in
         let q3 := set_q_oarr (q_oarr q2 + 1) (set_q_arr h q2) in
         update_time_if (if eleb (c_active_cap (q_cfg q)) (Fin (q_oarr q3)) then set_q_active false q3 else q3)).
  assert (K : forall t, good (late (set_q_ia (S (q_ia q)) q)) L late (k q t) (k (L q) t)).
  { intro t. unfold k. change (c_deactive_t (q_cfg (L q))) with (c_deactive_t (q_cfg q)). change (c_active_cap (q_cfg (L q))) with (c_active_cap (q_cfg q)). change (c_class (q_cfg (L q))) with (c_class (q_cfg q)).
    destruct (eleb (c_deactive_t (q_cfg q)) t).
    { destruct (is_info (c_class (q_cfg q))); [apply good_err|]. apply (good_ret _ L late (set_q_active false (set_q_ia (S (q_ia q)) (set_q_next_ct t q)))). exact (fun H => H). }
    set (q2 := set_q_total (q_total (set_q_ia (S (q_ia q)) (set_q_next_ct t q)) + 1) (set_q_ia (S (q_ia q)) (set_q_next_ct t q))).
    change (set_q_total (q_total (set_q_ia (S (q_ia (L q))) (set_q_next_ct t (L q))) + 1) (set_q_ia (S (q_ia (L q))) (set_q_next_ct t (L q)))) with (L q2).
    change (new_agent (L q2) t) with (new_agent q2 t). change (q_arr (L q2)) with (q_arr q2). apply good_same. intros a _. apply good_same. intros h _. cbv zeta.
    set (q3 := set_q_oarr (q_oarr q2 + 1) (set_q_arr h q2)). change (set_q_oarr (q_oarr (L q2) + 1) (set_q_arr h (L q2))) with (L q3). change (q_oarr (L q3)) with (q_oarr q3).
    destruct (eleb _ _); [exact (update_if_past (set_q_active false q3))|exact (update_if_past q3)]. }
  change (G q (k q (c_arr (q_cfg q) (q_ia q) (q_now q))) (k (L q) (dr_arr d (c_idx (q_cfg q)) (q_ia q) (q_now q)))).
  apply (good_draw _ _ _ (eeqb (dr_arr d (c_idx (q_cfg q)) (q_ia q) (q_now q)) (c_arr (q_cfg q) (q_ia q) (q_now q)))).
  - intro E. apply eeqb_eq in E. rewrite E. apply (good_weak (late (set_q_ia (S (q_ia q)) q))); [apply late_ia|apply K].
  - intros E b H. apply (K _ b H). left. exists (q_ia q), (q_now q). split; [cbn; lia|]. intro X. apply eeqb_eq in X. cbn in X. congruence.
Qed.
Lemma add_self_past q : G q (add_arrival_self q) (add_arrival_self (L q)).
Proof. unfold add_arrival_self. change (c_class (q_cfg (L q))) with (c_class (q_cfg q)). destruct (c_class (q_cfg q)); try apply add_new_past. apply good_ret. exact (fun H => H). Qed.
Lemma refill_past q : G q (if q_active q then add_arrival_self q else Ok q) (if q_active (L q) then add_arrival_self (L q) else Ok (L q)).
Proof. change (q_active (L q)) with (q_active q). destruct (q_active q); [apply add_self_past|apply good_ret; exact (fun H => H)]. Qed.
Lemma note_past q i r : (if q_collect (L q) then set_q_data (dappend (q_data (L q)) i r) (L q) else L q) = L (if q_collect q then set_q_data (dappend (q_data q) i r) q else q) /\
  (late q -> late (if q_collect q then set_q_data (dappend (q_data q) i r) q else q)).
Proof. change (q_collect (L q)) with (q_collect q). destruct (q_collect q); split; try reflexivity; exact (fun H => H). Qed.
Lemma arrival_past q : GE q (qs_arrival q) (qs_arrival (L q)).
Proof.
  unfold qs_arrival. apply good_same. intros [a h] _. cbv zeta.
  set (q1 := set_q_now (ag_time a) (set_q_arr h q)). apply (good_step _ L late); [exact (refill_past q1)|]. intros q2.
  set (q3 := set_q_narr (q_narr q2 + 1) (set_q_nsys (q_nsys q2 + 1) q2)). change (set_q_narr (q_narr (L q2) + 1) (set_q_nsys (q_nsys (L q2) + 1) (L q2))) with (L q3).
  change (q_line (L q3)) with (q_line q3). change (q_nsys (L q3)) with (q_nsys q3). change (q_servers (L q3)) with (q_servers q3).
  match goal with |- context [if q_collect (redraw d q3) then set_q_data (dappend _ ?i ?r) _ else _] => destruct (note_past q3 i r) as [-> M]; set (q4 := if q_collect q3 then set_q_data (dappend (q_data q3) i r) q3 else q3) in * end.
  apply (good_weak (late q4)); [exact M|].
  apply (good_step _ pl lp); [apply action_past|]. intros [a1 q5]. cbn [pl fst snd]. unfold lp at 1. cbn [snd].
  change (q_nsys (L q5)) with (q_nsys q5). change (q_servers (L q5)) with (q_servers q5).
  destruct (eleb (Fin (q_nsys q5)) (q_servers q5)).
  - apply (good_step _ L late).
    { change (q_collect (L q5)) with (q_collect q5). change (q_data (L q5)) with (q_data q5). destruct (q_collect q5); [|apply good_ret; exact (fun H => H)].
      apply good_same. intros x _. apply (good_ret _ L late (set_q_data x q5)). exact (fun H => H). }
    intros q6.
    apply (srv_past q6 (ag_time a1) el le' (fun x => let '(t, q7) := x in let* (a2, q8) := queue_action (set_ag_time t a1) q7 in let* h2 := push_item (q_dep q8) a2 in let* q9 := update_time (set_q_dep h2 q8) in Ok (None, q9))
      (fun x => let '(t, q7) := x in let* (a2, q8) := queue_action (set_ag_time t a1) q7 in let* h2 := push_item (q_dep q8) a2 in let* q9 := update_time (set_q_dep h2 q8) in Ok (None, q9))).
    intros t q7. apply (good_step _ pl lp); [apply action_past|]. intros [a2 q8]. cbn [pl fst snd]. apply good_same. intros h2 _.
    apply (good_step _ L late); [exact (update_past (set_q_dep h2 q8))|]. intros q9. apply (good_ret _ el le' (None, q9)). exact (fun H => H).
  - apply (good_step _ L late); [exact (update_past (set_q_line (q_line q5 ++ [a1]) q5))|]. intros q6. apply (good_ret _ el le' (None, q6)). exact (fun H => H).
Qed.
Lemma qs_past q : GE q (qs_next_event q) (qs_next_event (L q)).
Proof.
  unfold qs_next_event. apply good_same. intros ta _. apply good_same. intros td _. destruct (eltb td ta); [apply departure_past|]. destruct (eltb ta Inf); [apply arrival_past|].
  apply (good_ret _ el le' (None, q)). exact (fun H => H).
Qed.
Lemma active_past q : G q (set_active q) (set_active (L q)).
Proof.
  unfold set_active. change (q_active (L q)) with (q_active q). destruct (q_active q); [apply good_ret; exact (fun H => H)|]. exact (add_self_past (set_q_active true q)).
Qed.
Lemma lost_past q : GE q (loss_blocked q) (loss_blocked (L q)).
Proof.
  unfold loss_blocked. cbv zeta. apply good_same. intros [a h] _. set (q0 := set_q_total (q_total q - 1) (set_q_blocked (q_blocked q + 1) q)).
  change (set_q_total (q_total (L q) - 1) (set_q_blocked (q_blocked (L q) + 1) (L q))) with (L q0). change (add_loss a (L q0)) with (add_loss a q0). apply good_same. intros y _.
  set (q1 := set_q_now (ag_time a) (set_q_arr h q0)). apply (good_step _ L late); [exact (refill_past q1)|]. intros q2.
  change (q_line (L q2)) with (q_line q2). change (q_nsys (L q2)) with (q_nsys q2).
  match goal with |- context [if q_collect (redraw d q2) then set_q_data (dappend _ ?i ?r) _ else _] => destruct (note_past q2 i r) as [-> M]; set (q4 := if q_collect q2 then set_q_data (dappend (q_data q2) i r) q2 else q2) in * end.
  apply (good_weak (late q4)); [exact M|]. apply (good_step _ L late); [apply update_past|]. intros q5. apply (good_ret _ el le' (None, q5)). exact (fun H => H).
Qed.
Lemma drop_past q r r' : GE q r r' -> GE q (let* (_, q') := r in Ok (None, q')) (let* (_, q') := r' in Ok (None, q')).
Proof. intro H. apply (good_step _ el le'); [exact H|]. intros [x q']. apply (good_ret _ el le' (None, q')). exact (fun H => H). Qed.
Lemma loss_past q : GE q (loss_next_event q) (loss_next_event (L q)).
Proof.
  unfold loss_next_event. apply good_same. intros ta _. apply good_same. intros td _.
  change (q_nsys (L q)) with (q_nsys q). change (q_servers (L q)) with (q_servers q). change (c_buffer (q_cfg (L q))) with (c_buffer (q_cfg q)).
  destruct (eltb td ta); [apply qs_past|]. destruct (eltb ta Inf); [|apply (good_ret _ el le' (None, q)); exact (fun H => H)].
  destruct (eltb _ _); [apply drop_past, qs_past|apply lost_past].
Qed.
Lemma rq_next_past q : GE q (rq_next_event q) (rq_next_event (L q)).
Proof.
  assert (R : GE q (rq_return q) (rq_return (L q))).
  { unfold rq_return. apply good_same. intros [b h] _. cbv zeta.
    set (q1 := set_q_total (q_total q - 1) (set_q_now (ag_time b) (set_q_arr h q))). change (set_q_total (q_total (L q) - 1) (set_q_now (ag_time b) (set_q_arr h (L q)))) with (L q1).
    change (q_servers (L q1)) with (q_servers q1). destruct (rq_past (eadd (q_servers q1) (Fin 1)) q1) as [-> M]. set (q2 := rq_set_num_servers (eadd (q_servers q1) (Fin 1)) q1) in *.
    apply (good_weak (late q2)); [exact M|]. change (q_line (L q2)) with (q_line q2). change (q_nsys (L q2)) with (q_nsys q2).
    match goal with |- context [if q_collect (redraw d q2) then set_q_data (dappend _ ?i ?r) _ else _] => destruct (note_past q2 i r) as [-> M2]; set (q4 := if q_collect q2 then set_q_data (dappend (q_data q2) i r) q2 else q2) in * end.
    apply (good_weak (late q4)); [exact M2|]. apply (good_step _ L late); [apply update_past|]. intros q5. apply (good_ret _ el le' (None, q5)). exact (fun H => H). }
  assert (B : GE q (rq_blocked q) (rq_blocked (L q))).
  { unfold rq_blocked. cbv zeta. apply good_same. intros [b h] _. set (q0 := set_q_total (q_total q - 1) (set_q_narr (q_narr q + 1) (set_q_blocked (q_blocked q + 1) q))).
    set (q1 := set_q_now (ag_time b) (set_q_arr h q0)).
    change (set_q_now (ag_time b) (set_q_arr h (set_q_total (q_total (L q) - 1) (set_q_narr (q_narr (L q) + 1) (set_q_blocked (q_blocked (L q) + 1) (L q)))))) with (L q1).
    change (q_line (L q1)) with (q_line q1). change (q_nsys (L q1)) with (q_nsys q1).
    match goal with |- context [if q_collect (redraw d q1) then set_q_data (dappend _ ?i ?r) _ else _] => destruct (note_past q1 i r) as [-> M2]; set (q4 := if q_collect q1 then set_q_data (dappend (q_data q1) i r) q1 else q1) in * end.
    apply (good_weak (late q4)); [exact M2|]. apply (good_step _ L late); [apply update_past|]. intros q5. apply (good_ret _ el le' (None, q5)). exact (fun H => H). }
  unfold rq_next_event. change (q_arr (L q)) with (q_arr q). change (q_dep (L q)) with (q_dep q). change (q_nsys (L q)) with (q_nsys q). change (q_servers (L q)) with (q_servers q).
  destruct (q_arr q) as [|[|a] l] eqn:AR; [apply good_err|apply loss_past|]. destruct (ag_kind a); try apply loss_past.
  apply good_same. intros td _. destruct (eltb td (ag_time a)); [apply loss_past|]. destruct (eltb (ag_time a) Inf); [|apply (good_ret _ el le' (None, q)); exact (fun H => H)].
  destruct (ag_has a); [exact R|]. destruct (eltb _ _); [apply drop_past, loss_past|exact B].
Qed.
Lemma info_past q : GE q (info_next_event q) (info_next_event (L q)).
Proof.
  unfold info_next_event. change (q_arr (L q)) with (q_arr q). destruct (q_arr q) as [|i l] eqn:AR; [apply good_err|]. apply good_same. intros td _.
  apply (good_step _ L late); [|intro q1; apply loss_past]. destruct (eltb (itime i) td); [|apply good_ret; exact (fun H => H)].
  unfold extract_information. destruct i as [|a]; [apply good_ret; exact (fun H => H)|]. destruct (ag_kind a); try (apply good_ret; exact (fun H => H)). apply good_same. intros nd _.
  apply (good_ret _ L late (set_q_net nd q)). exact (fun H => H).
Qed.
Lemma next_past q : GE q (next_event q) (next_event (L q)).
Proof.
  unfold next_event. change (c_class (q_cfg (L q))) with (c_class (q_cfg q)). destruct (c_class (q_cfg q)); [apply qs_past|apply loss_past| |apply rq_next_past|apply info_past].
  apply (good_ret _ el le' (None, q)). exact (fun H => H).
Qed.
Lemma op_past o q : G q (run_op o q) (run_op o (L q)).
Proof.
  destruct o as [| | |z|t|a|b| |]; cbn [run_op].
  - apply (good_step _ el le'); [apply next_past|]. intros [r q']. apply (good_ret _ L late q'). exact (fun H => H).
  - apply active_past.
  - apply (good_ret _ L late (set_inactive q)). exact (fun H => H).
  - apply servers_past.
  - apply delay_past.
  - apply add_past.
  - apply (good_ret _ L late (set_q_collect b q)). exact (fun H => H).
  - destruct (clear_past q) as [-> M]. apply good_ret. exact M.
  - apply (good_ret _ L late (set_q_data [] q)). exact (fun H => H).
Qed.
Lemma ops_past l : forall q, G q (run_ops l q) (run_ops l (L q)).
Proof. induction l as [|o l IH]; intros q; cbn [run_ops]; [apply good_ret; exact (fun H => H)|]. apply (good_step _ L late); [apply op_past|exact IH]. Qed.
End Past.
