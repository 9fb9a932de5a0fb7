(** * NetBare: nothing a queue does depends on how often agents were blocked *)
From Coq Require Import List ZArith QArith Lia Bool Permutation Arith.
From Verif Require Import Base Heap Queue SpecQueue QueueEffects SpecRefine.
Import ListNotations.
Open Scope Z_scope.

Definition rmap {A B} (g : A -> B) (r : res A) : res B := match r with Ok x => Ok (g x) | Err e => Err e end.

Lemma bind_rmap {A B C} (g : A -> B) (r : res A) (k : B -> res C) : bind (rmap g r) k = bind r (fun x => k (g x)).
Proof. destruct r; reflexivity. Qed.
Lemma rmap_bind {A B C} (g : B -> C) (r : res A) (k : A -> res B) : rmap g (bind r k) = bind r (fun x => rmap g (k x)).
Proof. destruct r; reflexivity. Qed.
Lemma bind_ext {A B} (r : res A) (k k' : A -> res B) : (forall x, r = Ok x -> k x = k' x) -> bind r k = bind r k'.
Proof. intro H. destruct r; cbn; [apply H; reflexivity|reflexivity]. Qed.
Lemma rmap_if {A B} (g : A -> B) (b : bool) x y : rmap g (if b then x else y) = if b then rmap g x else rmap g y.
Proof. destruct b; reflexivity. Qed.

(** ** Heaps *)

Section HeapMap.
Context {A : Type} (key : A -> ext) (f : A -> A) (kf : forall x, key (f x) = key x).

Lemma get_map l n : get (map f l) n = option_map f (get l n).
Proof. unfold get. apply nth_error_map. Qed.
Lemma upd_map (l : list A) n x : upd (map f l) n (f x) = map f (upd l n x).
Proof. revert n. induction l as [|y l IH]; intros [|n]; cbn; try reflexivity. rewrite IH. reflexivity. Qed.
Lemma set_map l n x : set (map f l) n (f x) = option_map (map f) (set l n x).
Proof. revert n. induction l as [|y l IH]; intros [|n]; cbn; try reflexivity. rewrite IH. destruct (set l n x); reflexivity. Qed.
Lemma klt_map x y : klt key (f x) (f y) = klt key x y.
Proof. unfold klt. rewrite !kf. reflexivity. Qed.

Lemma siftdown_loop_map fuel : forall h s p x,
  siftdown_loop key fuel (map f h) s p (f x) = option_map (map f) (siftdown_loop key fuel h s p x).
Proof.
  induction fuel as [|n IH]; intros h s p x; cbn [siftdown_loop]; [reflexivity|].
  destruct (s <? p)%nat; [|apply set_map]. rewrite get_map. destruct (get h ((p - 1) / 2)) as [y|]; cbn [option_map]; [|reflexivity].
  rewrite klt_map. destruct (klt key x y); [|apply set_map]. rewrite set_map. destruct (set h p y); cbn [option_map]; [apply IH|reflexivity].
Qed.
Lemma siftdown_map h s p : siftdown key (map f h) s p = option_map (map f) (siftdown key h s p).
Proof. unfold siftdown. rewrite get_map. destruct (get h p); cbn [option_map]; [apply siftdown_loop_map|reflexivity]. Qed.
Lemma siftup_loop_map fuel : forall h p e,
  siftup_loop key fuel (map f h) p e = option_map (fun x => (map f (fst x), snd x)) (siftup_loop key fuel h p e).
Proof.
  induction fuel as [|n IH]; intros h p e; cbn [siftup_loop]; [reflexivity|].
  destruct (2 * p + 1 <? e)%nat; [|reflexivity]. rewrite !get_map.
  destruct (get h (2 * p + 1)) as [l|]; cbn [option_map]; [|reflexivity].
  destruct (2 * p + 1 + 1 <? e)%nat.
  - destruct (get h (2 * p + 1 + 1)) as [r|]; cbn [option_map]; [|reflexivity]. rewrite klt_map.
    destruct (klt key l r); rewrite get_map.
    + destruct (get h (2 * p + 1)) as [y|]; cbn [option_map]; [|reflexivity]. rewrite set_map. destruct (set h p y); cbn [option_map]; [apply IH|reflexivity].
    + destruct (get h (2 * p + 1 + 1)) as [y|]; cbn [option_map]; [|reflexivity]. rewrite set_map. destruct (set h p y); cbn [option_map]; [apply IH|reflexivity].
  - rewrite get_map. destruct (get h (2 * p + 1)) as [y|]; cbn [option_map]; [|reflexivity]. rewrite set_map. destruct (set h p y); cbn [option_map]; [apply IH|reflexivity].
Qed.
Lemma siftup_map h p e : siftup key (map f h) p e = option_map (map f) (siftup key h p e).
Proof.
  unfold siftup. rewrite get_map. destruct (get h p) as [x|]; cbn [option_map]; [|reflexivity]. rewrite siftup_loop_map.
  destruct (siftup_loop key (S e) h p e) as [[h' l]|]; cbn [option_map fst snd]; [|reflexivity]. rewrite set_map.
  destruct (set h' l x); cbn [option_map]; [apply siftdown_map|reflexivity].
Qed.
Lemma heappush_map h x : heappush key (map f h) (f x) = option_map (map f) (heappush key h x).
Proof. unfold heappush. rewrite map_length. change [f x] with (map f [x]). rewrite <- map_app. apply siftdown_map. Qed.
Lemma heappop_map h : heappop key (map f h) = option_map (fun x => (f (fst x), map f (snd x))) (heappop key h).
Proof.
  unfold heappop. rewrite <- map_rev. destruct (rev h) as [|l r]; cbn [map]; [reflexivity|]. rewrite <- map_rev.
  destruct (rev r) as [|z r']; cbn [map]; [reflexivity|]. change (f z :: map f r') with (map f (z :: r')). rewrite set_map.
  destruct (set (z :: r') 0 l) as [h2|]; cbn [option_map]; [|reflexivity]. rewrite map_length, siftup_map.
  destruct (siftup key h2 0 (length h2)); reflexivity.
Qed.
End HeapMap.

(** ** Methods *)

(** Unmarked, and the count of blocked agents shifted. *)
Definition veil (d : Z) (q : queue) : queue :=
  set_q_blocked (q_blocked q + d) (set_q_line (map unmark (q_line q))
    (set_q_arr (map unmark_item (q_arr q)) (set_q_dep (map unmark_item (q_dep q)) q))).


Ltac vch := repeat match goal with
  | |- context [q_cfg (veil ?d ?q)] => change (q_cfg (veil d q)) with (q_cfg q)
  | |- context [q_servers (veil ?d ?q)] => change (q_servers (veil d q)) with (q_servers q)
  | |- context [q_departed (veil ?d ?q)] => change (q_departed (veil d q)) with (q_departed q)
  | |- context [q_nsys (veil ?d ?q)] => change (q_nsys (veil d q)) with (q_nsys q)
  | |- context [q_data (veil ?d ?q)] => change (q_data (veil d q)) with (q_data q)
  | |- context [q_collect (veil ?d ?q)] => change (q_collect (veil d q)) with (q_collect q)
  | |- context [q_narr (veil ?d ?q)] => change (q_narr (veil d q)) with (q_narr q)
  | |- context [q_oarr (veil ?d ?q)] => change (q_oarr (veil d q)) with (q_oarr q)
  | |- context [q_total (veil ?d ?q)] => change (q_total (veil d q)) with (q_total q)
  | |- context [q_active (veil ?d ?q)] => change (q_active (veil d q)) with (q_active q)
  | |- context [q_now (veil ?d ?q)] => change (q_now (veil d q)) with (q_now q)
  | |- context [q_time (veil ?d ?q)] => change (q_time (veil d q)) with (q_time q)
  | |- context [q_next_ct (veil ?d ?q)] => change (q_next_ct (veil d q)) with (q_next_ct q)
  | |- context [q_over (veil ?d ?q)] => change (q_over (veil d q)) with (q_over q)
  | |- context [q_net (veil ?d ?q)] => change (q_net (veil d q)) with (q_net q)
  | |- context [q_ia (veil ?d ?q)] => change (q_ia (veil d q)) with (q_ia q)
  | |- context [q_is (veil ?d ?q)] => change (q_is (veil d q)) with (q_is q)
  | |- context [q_line (veil ?d ?q)] => change (q_line (veil d q)) with (map unmark (q_line q))
  | |- context [q_arr (veil ?d ?q)] => change (q_arr (veil d q)) with (map unmark_item (q_arr q))
  | |- context [q_dep (veil ?d ?q)] => change (q_dep (veil d q)) with (map unmark_item (q_dep q))
  end.

Lemma itime_unmark i : itime (unmark_item i) = itime i.
Proof. destruct i; reflexivity. Qed.
Lemma push_bare h a : push_item (map unmark_item h) (unmark a) = rmap (map unmark_item) (push_item h a).
Proof.
  unfold push_item. change (Ag (unmark a)) with (unmark_item (Ag a)). rewrite (heappush_map itime unmark_item itime_unmark).
  destruct (heappush itime h (Ag a)); reflexivity.
Qed.
Lemma pop_bare h : pop_agent (map unmark_item h) = rmap (fun x => (unmark (fst x), map unmark_item (snd x))) (pop_agent h).
Proof.
  unfold pop_agent. rewrite (heappop_map itime unmark_item itime_unmark). destruct (heappop itime h) as [[[|a] h']|]; reflexivity.
Qed.
Lemma root_bare h : root_time (map unmark_item h) = root_time h.
Proof. destruct h as [|i h]; cbn; [reflexivity|]. rewrite itime_unmark. reflexivity. Qed.

Definition two (d : Z) (x : agent * queue) : agent * queue := (unmark (fst x), veil d (snd x)).
Definition ev (d : Z) (x : option agent * queue) : option agent * queue := (option_map unmark (fst x), veil d (snd x)).

Lemma update_time_bare d q : update_time (veil d q) = rmap (veil d) (update_time q).
Proof. unfold update_time. cbn. rewrite !root_bare. destruct (root_time (q_arr q)); cbn; [|reflexivity]. destruct (root_time (q_dep q)); reflexivity. Qed.
Lemma update_time_if_bare d q : update_time_if (veil d q) = rmap (veil d) (update_time_if q).
Proof.
  unfold update_time_if. cbn. rewrite !root_bare. destruct (root_time (q_arr q)) as [ta|]; cbn; [|reflexivity].
  destruct (root_time (q_dep q)) as [td|]; cbn; [|reflexivity]. destruct (eltb ta td); reflexivity.
Qed.
Lemma new_agent_bare d q t : new_agent (veil d q) t = rmap unmark (new_agent q t).
Proof. unfold new_agent. cbn. destruct (c_class (q_cfg q)), (c_factory (q_cfg q)); reflexivity. Qed.
Lemma dlast_if_bare d q i f : dlast_if (veil d q) i f = rmap (veil d) (dlast_if q i f).
Proof.
  unfold dlast_if. cbn. destruct (q_collect q); [|reflexivity]. destruct (dget (q_data q) i); [|reflexivity].
  destruct (dlast (q_data q) i f); reflexivity.
Qed.
Lemma resource_bare d a q : resource_action (unmark a) (veil d q) = two d (resource_action a q).
Proof.
  unfold resource_action. change (q_cfg (veil d q)) with (q_cfg q). change (q_servers (veil d q)) with (q_servers q). change (ag_has (unmark a)) with (ag_has a).
  destruct (is_resource (c_class (q_cfg q))); [|reflexivity]. destruct (ag_has a); [reflexivity|].
  destruct (eltb (Fin 0) (q_servers q)); [|reflexivity]. unfold rq_set_num_servers. change (q_cfg (veil d q)) with (q_cfg q).
  destruct (eltb (c_max_servers (q_cfg q)) (eadd (q_servers q) (Fin (-1)))); reflexivity.
Qed.
Lemma info_bare d a q : info_action (unmark a) (veil d q) = rmap (two d) (info_action a q).
Proof.
  unfold info_action. cbn. destruct (is_info (c_class (q_cfg q))); [|reflexivity]. change (info_stats (unmark a) (veil d q)) with (info_stats a q).
  change (load (veil d q)) with (load q). destruct (zip_rows info_take (ag_net a) (q_net q)) as [nd|]; cbn; [|reflexivity].
  destruct (info_stats a q); cbn; [|reflexivity]. destruct (load q) as [ld|]; cbn; [|reflexivity].
  destruct (set nd (c_idx (q_cfg q)) (mkRow (q_now q) (q_servers q) ld)); reflexivity.
Qed.
Lemma action_bare d a q : queue_action (unmark a) (veil d q) = rmap (two d) (queue_action a q).
Proof.
  unfold queue_action. change (ag_kind (unmark a)) with (ag_kind a). destruct (ag_kind a); try reflexivity; [|apply info_bare].
  rewrite resource_bare. reflexivity.
Qed.
Lemma add_loss_bare d a q : add_loss (unmark a) (veil d q) = Err IndexError /\ add_loss a q = Err IndexError \/
  exists x y, add_loss (unmark a) (veil d q) = Ok x /\ add_loss a q = Ok y.
Proof.
  unfold add_loss. cbn. destruct (ag_kind a); try (right; eexists; eexists; split; reflexivity).
  destruct (get (ag_stats a) (c_idx (q_cfg q))) as [[[x y] z]|]; cbn; [|auto].
  destruct (set (ag_stats a) (c_idx (q_cfg q)) (x, y, z + 1)); cbn; [right; eauto | auto].
Qed.
Lemma extract_bare d q i : extract_information (veil d q) (unmark_item i) = rmap (veil d) (extract_information q i).
Proof.
  unfold extract_information. destruct i as [|a]; cbn; [reflexivity|]. destruct (ag_kind a); try reflexivity.
  destruct (zip_rows info_give (q_net q) (ag_net a)); reflexivity.
Qed.

Lemma add_new_bare d q : add_arrival_new (veil d q) = rmap (veil d) (add_arrival_new q).
Proof.
  unfold add_arrival_new. vch. destruct (eleb (q_next_ct q) (q_now q)); [|apply update_time_if_bare].
  destruct (eleb (c_deactive_t (q_cfg q)) (c_arr (q_cfg q) (q_ia q) (q_now q))); [destruct (is_info (c_class (q_cfg q))); reflexivity|].
  set (q2 := set_q_total _ (set_q_ia _ (set_q_next_ct _ q))).
  change (set_q_total _ (set_q_ia _ (set_q_next_ct _ (veil d q)))) with (veil d q2).
  rewrite new_agent_bare, bind_rmap, rmap_bind. apply bind_ext. intros a _. vch. rewrite push_bare, bind_rmap, rmap_bind.
  apply bind_ext. intros h _. rewrite <- update_time_if_bare. f_equal. cbn [q_oarr set_q_oarr set_q_arr veil].
  destruct (eleb (c_active_cap (q_cfg q)) (Fin (q_oarr q2 + 1))); reflexivity.
Qed.
Lemma add_self_bare d q : add_arrival_self (veil d q) = rmap (veil d) (add_arrival_self q).
Proof. unfold add_arrival_self. change (q_cfg (veil d q)) with (q_cfg q). destruct (c_class (q_cfg q)); try apply add_new_bare. reflexivity. Qed.
Lemma add_bare d a q : add_arrival (unmark a) (veil d q) = rmap (veil d) (add_arrival a q).
Proof.
  assert (G : (let q1 := set_q_total (q_total (veil d q) + 1) (veil d q) in let* h := push_item (q_arr q1) (unmark a) in update_time_if (set_q_arr h q1)) =
    rmap (veil d) (let q1 := set_q_total (q_total q + 1) q in let* h := push_item (q_arr q1) a in update_time_if (set_q_arr h q1))).
  { cbv zeta. change (q_arr (set_q_total (q_total (veil d q) + 1) (veil d q))) with (map unmark_item (q_arr q)). change (q_arr (set_q_total (q_total q + 1) q)) with (q_arr q). rewrite push_bare, bind_rmap, rmap_bind. apply bind_ext. intros h _. rewrite <- update_time_if_bare. reflexivity. }
  unfold add_arrival. change (q_cfg (veil d q)) with (q_cfg q). destruct (c_class (q_cfg q)); try exact G.
  cbn [rmap]. change (q_collect (veil d q)) with (q_collect q). destruct (q_collect q); reflexivity.
Qed.

Lemma service_bare d q : service_from_queue (veil d q) = rmap (veil d) (service_from_queue q).
Proof.
  unfold service_from_queue. vch. destruct (q_line q) as [|a l]; cbn [map]; [reflexivity|].
  change (set_q_line (map unmark l) (veil d q)) with (veil d (set_q_line l q)). change (ag_id (unmark a)) with (ag_id a).
  change (q_now (veil d (set_q_line l q))) with (q_now (set_q_line l q)). rewrite dlast_if_bare, bind_rmap, rmap_bind. apply bind_ext. intros q2 _.
  cbv [call_srv]. change (set_ag_time (c_srv (q_cfg (veil d q2)) (q_is (veil d q2)) (q_now (veil d q2))) (unmark a))
    with (unmark (set_ag_time (c_srv (q_cfg q2) (q_is q2) (q_now q2)) a)).
  change (set_q_is (S (q_is (veil d q2))) (veil d q2)) with (veil d (set_q_is (S (q_is q2)) q2)).
  rewrite action_bare, bind_rmap, rmap_bind. apply bind_ext. intros [a' q4] _. cbn [two fst snd]. change (q_dep (veil d q4)) with (map unmark_item (q_dep q4)).
  rewrite push_bare, bind_rmap, rmap_bind. apply bind_ext. intros h _. reflexivity.
Qed.
Lemma delay_bare d t q : delay_service t (veil d q) = rmap (veil d) (delay_service t q).
Proof.
  unfold delay_service. change (q_cfg (veil d q)) with (q_cfg q). change (q_dep (veil d q)) with (map unmark_item (q_dep q)). rewrite map_length.
  rewrite (heappop_map itime unmark_item itime_unmark).
  destruct (c_class (q_cfg q)); try reflexivity; (destruct (1 <? length (q_dep q))%nat; [|reflexivity]);
    (destruct (heappop itime (q_dep q)) as [[[|a] h]|]; cbn [option_map fst snd unmark_item]; try reflexivity);
    (destruct t as [t|]; [|unfold call_srv]);
    (match goal with |- bind (push_item _ (set_ag_time ?x (unmark a))) _ = _ => change (set_ag_time x (unmark a)) with (unmark (set_ag_time x a)) end);
    rewrite push_bare, bind_rmap, rmap_bind; apply bind_ext; intros h' _; rewrite <- update_time_bare; reflexivity.
Qed.

Lemma qs_departure_bare d q : qs_departure (veil d q) = rmap (ev d) (qs_departure q).
Proof.
  unfold qs_departure. change (q_dep (veil d q)) with (map unmark_item (q_dep q)). rewrite pop_bare, bind_rmap, rmap_bind. apply bind_ext. intros [a h] _.
  cbn [fst snd]. set (q1 := set_q_departed _ (set_q_nsys _ (set_q_total _ (set_q_now _ (set_q_dep h q))))).
  change (set_q_departed _ (set_q_nsys _ (set_q_total _ (set_q_now _ (set_q_dep _ (veil d q)))))) with (veil d q1).
  change (q_now (veil d q1)) with (q_now q1). change (ag_id (unmark a)) with (ag_id a). rewrite dlast_if_bare, bind_rmap, rmap_bind. apply bind_ext. intros q2 _.
  cbv zeta. change (q_line (veil d q2)) with (map unmark (q_line q2)). rewrite map_length. change (q_nsys (veil d q2)) with (q_nsys q2). change (q_servers (veil d q2)) with (q_servers q2).
  rewrite service_bare. change (Ok (veil d q2)) with (rmap (veil d) (Ok q2)). rewrite <- rmap_if, bind_rmap, rmap_bind. apply bind_ext. intros q3 _.
  rewrite action_bare, bind_rmap, rmap_bind. apply bind_ext. intros [a' q4] _. cbn [two fst snd]. rewrite update_time_bare, bind_rmap, rmap_bind.
  apply bind_ext. intros q5 _. reflexivity.
Qed.
Lemma qs_arrival_bare d q : qs_arrival (veil d q) = rmap (ev d) (qs_arrival q).
Proof.
  unfold qs_arrival. change (q_arr (veil d q)) with (map unmark_item (q_arr q)). rewrite pop_bare, bind_rmap, rmap_bind. apply bind_ext. intros [a h] _.
  cbn [fst snd]. set (q1 := set_q_now (ag_time a) (set_q_arr h q)). change (set_q_now _ (set_q_arr _ (veil d q))) with (veil d q1).
  cbv zeta. change (q_active (veil d q1)) with (q_active q1). rewrite add_self_bare. change (Ok (veil d q1)) with (rmap (veil d) (Ok q1)).
  rewrite <- rmap_if, bind_rmap, rmap_bind. apply bind_ext. intros q2 _.
  set (q3 := set_q_narr (q_narr q2 + 1) (set_q_nsys (q_nsys q2 + 1) q2)). change (set_q_narr _ (set_q_nsys _ (veil d q2))) with (veil d q3).
  change (q_line (veil d q3)) with (map unmark (q_line q3)). rewrite map_length.
  set (q4 := if q_collect q3 then _ else q3).
  match goal with |- bind (queue_action (unmark a) ?x) _ = _ => assert (E : x = veil d q4) end.
  { unfold q4. change (q_collect (veil d q3)) with (q_collect q3). destruct (q_collect q3); reflexivity. }
  rewrite E. clear E. rewrite action_bare, bind_rmap, rmap_bind. apply bind_ext. intros [a1 q5] _. cbn [two fst snd].
  change (q_nsys (veil d q5)) with (q_nsys q5). change (q_servers (veil d q5)) with (q_servers q5). rewrite rmap_if.
  destruct (eleb (Fin (q_nsys q5)) (q_servers q5)).
  - change (q_collect (veil d q5)) with (q_collect q5). change (q_data (veil d q5)) with (q_data q5). change (ag_id (unmark a1)) with (ag_id a1).
    change (ag_time (unmark a1)) with (ag_time a1).
    match goal with |- bind ?x _ = _ => assert (E : x = rmap (veil d) (if q_collect q5 then let* d := dlast (q_data q5) (ag_id a1) (row_set_srv (ag_time a1)) in Ok (set_q_data d q5) else Ok q5)) end.
    { destruct (q_collect q5); [|reflexivity]. destruct (dlast (q_data q5) (ag_id a1) (row_set_srv (ag_time a1))); reflexivity. }
    rewrite E. clear E. rewrite bind_rmap, rmap_bind. apply bind_ext. intros q6 _. cbv [call_srv].
    change (set_ag_time (c_srv (q_cfg (veil d q6)) (q_is (veil d q6)) (ag_time a1)) (unmark a1)) with (unmark (set_ag_time (c_srv (q_cfg q6) (q_is q6) (ag_time a1)) a1)).
    change (set_q_is (S (q_is (veil d q6))) (veil d q6)) with (veil d (set_q_is (S (q_is q6)) q6)).
    rewrite action_bare, bind_rmap, rmap_bind. apply bind_ext. intros [a2 q8] _. cbn [two fst snd]. change (q_dep (veil d q8)) with (map unmark_item (q_dep q8)).
    rewrite push_bare, bind_rmap, rmap_bind. apply bind_ext. intros h2 _. change (set_q_dep (map unmark_item h2) (veil d q8)) with (veil d (set_q_dep h2 q8)).
    rewrite update_time_bare, bind_rmap, rmap_bind. apply bind_ext. intros q9 _. reflexivity.
  - change (q_line (veil d q5) ++ [unmark a1]) with (map unmark (q_line q5) ++ map unmark [a1]). rewrite <- map_app.
    change (set_q_line (map unmark (q_line q5 ++ [a1])) (veil d q5)) with (veil d (set_q_line (q_line q5 ++ [a1]) q5)).
    rewrite update_time_bare, bind_rmap, rmap_bind. apply bind_ext. intros q6 _. reflexivity.
Qed.
Lemma qs_bare d q : qs_next_event (veil d q) = rmap (ev d) (qs_next_event q).
Proof.
  unfold qs_next_event. vch. rewrite !root_bare, rmap_bind. apply bind_ext. intros ta _. rewrite rmap_bind. apply bind_ext. intros td _.
  rewrite !rmap_if. rewrite qs_departure_bare, qs_arrival_bare. reflexivity.
Qed.
Lemma loss_blocked_bare d q : loss_blocked (veil d q) = rmap (ev d) (loss_blocked q).
Proof.
  unfold loss_blocked. cbv zeta. set (q0 := set_q_total (q_total q - 1) (set_q_blocked (q_blocked q + 1) q)).
  match goal with |- context [set_q_total ?x (set_q_blocked ?y (veil d q))] => assert (R : set_q_total x (set_q_blocked y (veil d q)) = veil d q0) end.
  { unfold veil at 1 2 3. unfold q0, veil. cbn [q_blocked q_total set_q_total set_q_blocked set_q_line set_q_arr set_q_dep q_line q_arr q_dep].
    replace (q_blocked q + d + 1) with (q_blocked q + 1 + d) by lia. reflexivity. }
  rewrite R. clear R. change (q_arr (veil d q0)) with (map unmark_item (q_arr q0)).
  rewrite pop_bare, bind_rmap, rmap_bind. apply bind_ext. intros [a h] _. cbn [fst snd].
  destruct (add_loss_bare d a q0) as [[E1 E2]|(x & y & E1 & E2)]; rewrite E1, E2; cbn [bind]; [reflexivity|].
  set (q1 := set_q_now (ag_time a) (set_q_arr h q0)). change (set_q_now _ (set_q_arr _ (veil d q0))) with (veil d q1).
  change (q_active (veil d q1)) with (q_active q1). rewrite add_self_bare. change (Ok (veil d q1)) with (rmap (veil d) (Ok q1)).
  rewrite <- rmap_if, bind_rmap, rmap_bind. apply bind_ext. intros q2 _.
  change (q_collect (veil d q2)) with (q_collect q2). change (q_line (veil d q2)) with (map unmark (q_line q2)). rewrite map_length.
  set (q3 := if q_collect q2 then _ else q2).
  match goal with |- bind (update_time ?x) _ = _ => assert (E : x = veil d q3) end.
  { unfold q3. destruct (q_collect q2); reflexivity. }
  rewrite E. clear E. rewrite update_time_bare, bind_rmap, rmap_bind. apply bind_ext. intros q4 _. reflexivity.
Qed.
Lemma loss_bare d q : loss_next_event (veil d q) = rmap (ev d) (loss_next_event q).
Proof.
  unfold loss_next_event. vch. rewrite !root_bare, rmap_bind. apply bind_ext. intros ta _. rewrite rmap_bind. apply bind_ext. intros td _.
  rewrite !rmap_if. rewrite loss_blocked_bare, qs_bare. change (q_servers (veil d q)) with (q_servers q). change (q_nsys (veil d q)) with (q_nsys q).
  change (q_cfg (veil d q)) with (q_cfg q). rewrite bind_rmap, rmap_bind.
  replace (let* (_, q') := qs_next_event q in Ok (None, q')) with (let* (_, q') := qs_next_event q in Ok (@None agent, q')) by reflexivity.
  assert (X : (let* x := qs_next_event q in (let '(_, q') := ev d x in Ok (@None agent, q'))) = (let* x := qs_next_event q in rmap (ev d) (let '(_, q') := x in Ok (None, q')))).
  { apply bind_ext. intros [r w] _. reflexivity. }
  rewrite X. reflexivity.
Qed.
Lemma rq_servers_bare d z q : rq_set_num_servers z (veil d q) = veil d (rq_set_num_servers z q).
Proof. unfold rq_set_num_servers. change (q_cfg (veil d q)) with (q_cfg q). destruct (eltb (c_max_servers (q_cfg q)) z); reflexivity. Qed.
Lemma rq_return_bare d q : rq_return (veil d q) = rmap (ev d) (rq_return q).
Proof.
  unfold rq_return. change (q_arr (veil d q)) with (map unmark_item (q_arr q)). rewrite pop_bare, bind_rmap, rmap_bind. apply bind_ext. intros [a h] _. cbn [fst snd].
  set (q1 := set_q_total _ (set_q_now _ (set_q_arr h q))). change (set_q_total _ (set_q_now _ (set_q_arr _ (veil d q)))) with (veil d q1).
  cbv zeta. change (q_servers (veil d q1)) with (q_servers q1). rewrite rq_servers_bare. set (q2 := rq_set_num_servers _ q1).
  change (q_line (veil d q2)) with (map unmark (q_line q2)). rewrite map_length. set (q3 := if q_collect q2 then _ else q2).
  match goal with |- bind (update_time ?x) _ = _ => assert (E : x = veil d q3) end.
  { unfold q3. change (q_collect (veil d q2)) with (q_collect q2). destruct (q_collect q2); reflexivity. }
  rewrite E. clear E. rewrite update_time_bare, bind_rmap, rmap_bind. apply bind_ext. intros q4 _. reflexivity.
Qed.
Lemma rq_blocked_bare d q : rq_blocked (veil d q) = rmap (ev d) (rq_blocked q).
Proof.
  unfold rq_blocked. cbv zeta. set (q0 := set_q_total _ (set_q_narr _ (set_q_blocked (q_blocked q + 1) q))).
  match goal with |- context [set_q_total ?x (set_q_narr ?z (set_q_blocked ?y (veil d q)))] => assert (R : set_q_total x (set_q_narr z (set_q_blocked y (veil d q))) = veil d q0) end.
  { unfold veil at 1 2 3 4. unfold q0, veil. cbn [q_blocked q_total q_narr set_q_total set_q_narr set_q_blocked set_q_line set_q_arr set_q_dep q_line q_arr q_dep].
    replace (q_blocked q + d + 1) with (q_blocked q + 1 + d) by lia. reflexivity. }
  rewrite R. clear R. change (q_arr (veil d q0)) with (map unmark_item (q_arr q0)).
  rewrite pop_bare, bind_rmap, rmap_bind. apply bind_ext. intros [a h] _. cbn [fst snd].
  set (q1 := set_q_now (ag_time a) (set_q_arr h q0)). change (set_q_now _ (set_q_arr _ (veil d q0))) with (veil d q1).
  change (q_line (veil d q1)) with (map unmark (q_line q1)). rewrite map_length. set (q3 := if q_collect q1 then _ else q1).
  match goal with |- bind (update_time ?x) _ = _ => assert (E : x = veil d q3) end.
  { unfold q3. change (q_collect (veil d q1)) with (q_collect q1). destruct (q_collect q1); reflexivity. }
  rewrite E. clear E. rewrite update_time_bare, bind_rmap, rmap_bind. apply bind_ext. intros q4 _. reflexivity.
Qed.
Lemma rq_bare d q : rq_next_event (veil d q) = rmap (ev d) (rq_next_event q).
Proof.
  unfold rq_next_event. vch. destruct (q_arr q) as [|[|a] h]; cbn [map unmark_item]; [reflexivity|apply loss_bare|].
  change (ag_kind (unmark a)) with (ag_kind a). change (ag_time (unmark a)) with (ag_time a). change (ag_has (unmark a)) with (ag_has a).
  destruct (ag_kind a); try apply loss_bare. rewrite root_bare, rmap_bind. apply bind_ext. intros td _. rewrite !rmap_if.
  change (q_servers (veil d q)) with (q_servers q). change (q_nsys (veil d q)) with (q_nsys q).
  rewrite loss_bare, rq_return_bare, rq_blocked_bare, bind_rmap, rmap_bind.
  assert (X : (let* x := loss_next_event q in (let '(_, q') := ev d x in Ok (@None agent, q'))) = (let* x := loss_next_event q in rmap (ev d) (let '(_, q') := x in Ok (None, q')))).
  { apply bind_ext. intros [r w] _. reflexivity. }
  rewrite X. reflexivity.
Qed.
Lemma info_next_bare d q : info_next_event (veil d q) = rmap (ev d) (info_next_event q).
Proof.
  unfold info_next_event. vch. destruct (q_arr q) as [|i h]; cbn [map]; [reflexivity|].
  rewrite root_bare, rmap_bind. apply bind_ext. intros td _. rewrite itime_unmark, extract_bare. change (Ok (veil d q)) with (rmap (veil d) (Ok q)).
  rewrite <- rmap_if, bind_rmap, rmap_bind. apply bind_ext. intros q1 _. apply loss_bare.
Qed.
Lemma next_bare d q : next_event (veil d q) = rmap (ev d) (next_event q).
Proof.
  unfold next_event. change (q_cfg (veil d q)) with (q_cfg q). destruct (c_class (q_cfg q));
    [apply qs_bare|apply loss_bare|reflexivity|apply rq_bare|apply info_next_bare].
Qed.
Lemma active_bare d q : set_active (veil d q) = rmap (veil d) (set_active q).
Proof.
  unfold set_active. change (q_active (veil d q)) with (q_active q). destruct (q_active q); [reflexivity|].
  change (set_q_active true (veil d q)) with (veil d (set_q_active true q)). apply add_self_bare.
Qed.

(** ** Bare queues *)

Lemma bare_veil q q' : bare q = bare q' <-> exists d, veil d q = veil 0 q'.
Proof.
  split.
  - intro H. exists (q_blocked q' - q_blocked q). unfold veil. replace (q_blocked q + (q_blocked q' - q_blocked q)) with (q_blocked q' + 0) by lia.
    assert (E : set_q_blocked (q_blocked q' + 0) (bare q) = set_q_blocked (q_blocked q' + 0) (bare q')) by (rewrite H; reflexivity). exact E.
  - intros [d H]. assert (E : set_q_blocked 0 (veil d q) = set_q_blocked 0 (veil 0 q')) by (rewrite H; reflexivity). exact E.
Qed.

Lemma rmap_Ok {A B} (g : A -> B) r x : rmap g r = Ok x -> exists y, r = Ok y /\ x = g y.
Proof. destruct r as [y|]; cbn; intro H; [|discriminate]. injection H as <-. eauto. Qed.

Lemma next_same q q0 r q' : bare q0 = bare q -> next_event q = Ok (r, q') ->
  exists r0 q0', next_event q0 = Ok (r0, q0') /\ bare q0' = bare q' /\ option_map unmark r0 = option_map unmark r.
Proof.
  intros B H. apply bare_veil in B as [d B]. assert (X := next_bare d q0). rewrite B, next_bare, H in X. cbn [rmap] in X. symmetry in X.
  apply rmap_Ok in X as ([r0 q0'] & E & X). exists r0, q0'. split; [exact E|]. unfold ev in X. cbn [fst snd] in X. assert (X1 := f_equal fst X). assert (X2 := f_equal snd X). cbn [fst snd] in X1, X2.
  split; [apply bare_veil; exists d; symmetry; exact X2 | symmetry; exact X1].
Qed.
Lemma veil_same (F : queue -> res queue) : (forall d q, F (veil d q) = rmap (veil d) (F q)) ->
  forall q q0 q', bare q0 = bare q -> F q = Ok q' -> exists q0', F q0 = Ok q0' /\ bare q0' = bare q'.
Proof.
  intros C q q0 q' B H. apply bare_veil in B as [d B]. assert (X := C d q0). rewrite B, C, H in X. cbn [rmap] in X. symmetry in X.
  apply rmap_Ok in X as (q0' & E & X). exists q0'. split; [exact E|]. apply bare_veil. exists d. symmetry. exact X.
Qed.
Lemma add_same a q q0 q' : bare q0 = bare q -> add_arrival a q = Ok q' -> exists q0', add_arrival a q0 = Ok q0' /\ bare q0' = bare q'.
Proof.
  intros B H. apply bare_veil in B as [d B]. assert (X := add_bare d a q0). rewrite B, add_bare, H in X. cbn [rmap] in X. symmetry in X.
  apply rmap_Ok in X as (q0' & E & X). exists q0'. split; [exact E|]. apply bare_veil. exists d. symmetry. exact X.
Qed.
Lemma clear_same q q0 : bare q0 = bare q -> bare (clear q0) = bare (clear q).
Proof.
  intro B. assert (C : forall q, c_class (q_cfg q) <> CNull -> bare (clear q) = bare (clear (bare q))).
  { intros w N. unfold clear. change (q_cfg (bare w)) with (q_cfg w). destruct (c_class (q_cfg w)); congruence || reflexivity. }
  assert (E : q_cfg q0 = q_cfg q) by exact (f_equal q_cfg B).
  destruct (c_class (q_cfg q)) eqn:CL.
  3:{ unfold clear. rewrite E, CL. exact B. }
  all: rewrite (C q0), (C q) by congruence; rewrite B; reflexivity.
Qed.
