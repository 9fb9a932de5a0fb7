(** * Clock: nothing a queue does depends on more than the order of times *)
From Coq Require Import List ZArith QArith Lia Bool Arith.
From Verif Require Import Base Heap Queue PQueue Network SpecNet SpecClock QueueEffects NetBare.
Import ListNotations.
Open Scope Z_scope.

(** ** Heaps *)

Section HeapOrder.
Context {X : Type} (key : X -> ext) (f : X -> X) (kf : forall x y, klt key (f x) (f y) = klt key x y).

Lemma siftdown_loop_by fuel : forall h s p x,
  siftdown_loop key fuel (map f h) s p (f x) = option_map (map f) (siftdown_loop key fuel h s p x).
Proof.
  induction fuel as [|n IH]; intros h s p x; cbn [siftdown_loop]; [reflexivity|].
  destruct (s <? p)%nat; [|apply set_map]. rewrite get_map. destruct (get h ((p - 1) / 2)) as [y|]; cbn [option_map]; [|reflexivity].
  rewrite kf. destruct (klt key x y); [|apply set_map]. rewrite set_map. destruct (set h p y); cbn [option_map]; [apply IH|reflexivity].
Qed.
Lemma siftdown_by h s p : siftdown key (map f h) s p = option_map (map f) (siftdown key h s p).
Proof. unfold siftdown. rewrite get_map. destruct (get h p); cbn [option_map]; [apply siftdown_loop_by|reflexivity]. Qed.
Lemma siftup_loop_by fuel : forall h p e,
  siftup_loop key fuel (map f h) p e = option_map (fun x => (map f (fst x), snd x)) (siftup_loop key fuel h p e).
Proof.
  induction fuel as [|n IH]; intros h p e; cbn [siftup_loop]; [reflexivity|].
  destruct (2 * p + 1 <? e)%nat; [|reflexivity]. rewrite !get_map.
  destruct (get h (2 * p + 1)) as [l|]; cbn [option_map]; [|reflexivity].
  destruct (2 * p + 1 + 1 <? e)%nat.
  - destruct (get h (2 * p + 1 + 1)) as [r|]; cbn [option_map]; [|reflexivity]. rewrite kf.
    destruct (klt key l r); rewrite get_map.
    + destruct (get h (2 * p + 1)) as [y|]; cbn [option_map]; [|reflexivity]. rewrite set_map. destruct (set h p y); cbn [option_map]; [apply IH|reflexivity].
    + destruct (get h (2 * p + 1 + 1)) as [y|]; cbn [option_map]; [|reflexivity]. rewrite set_map. destruct (set h p y); cbn [option_map]; [apply IH|reflexivity].
  - rewrite get_map. destruct (get h (2 * p + 1)) as [y|]; cbn [option_map]; [|reflexivity]. rewrite set_map. destruct (set h p y); cbn [option_map]; [apply IH|reflexivity].
Qed.
Lemma siftup_by h p e : siftup key (map f h) p e = option_map (map f) (siftup key h p e).
Proof.
  unfold siftup. rewrite get_map. destruct (get h p) as [x|]; cbn [option_map]; [|reflexivity]. rewrite siftup_loop_by.
  destruct (siftup_loop key (Datatypes.S e) h p e) as [[h' l]|]; cbn [option_map fst snd]; [|reflexivity]. rewrite set_map.
  destruct (set h' l x); cbn [option_map]; [apply siftdown_by|reflexivity].
Qed.
Lemma heapify_loop_by k : forall h n, heapify_loop key k (map f h) n = option_map (map f) (heapify_loop key k h n).
Proof.
  induction k as [|k IH]; intros h n; cbn [heapify_loop]; [reflexivity|]. rewrite siftup_by.
  destruct (siftup key h k n) as [h'|]; cbn [option_map]; [apply IH|reflexivity].
Qed.
Lemma heappush_by h x : heappush key (map f h) (f x) = option_map (map f) (heappush key h x).
Proof. unfold heappush. rewrite map_length. change [f x] with (map f [x]). rewrite <- map_app. apply siftdown_by. Qed.
Lemma heappop_by h : heappop key (map f h) = option_map (fun x => (f (fst x), map f (snd x))) (heappop key h).
Proof.
  unfold heappop. rewrite <- map_rev. destruct (rev h) as [|l r]; cbn [map]; [reflexivity|]. rewrite <- map_rev.
  destruct (rev r) as [|z r']; cbn [map]; [reflexivity|]. change (f z :: map f r') with (map f (z :: r')). rewrite set_map.
  destruct (set (z :: r') 0 l) as [h2|]; cbn [option_map]; [|reflexivity]. rewrite map_length, siftup_by.
  destruct (siftup key h2 0 (length h2)); reflexivity.
Qed.
End HeapOrder.

(** ** What a call leaves alone *)

Lemma dlast_if_cfg q i f q' : dlast_if q i f = Ok q' -> q_cfg q' = q_cfg q.
Proof.
  unfold dlast_if. destruct (q_collect q); [|intro H; injection H as <-; reflexivity].
  destruct (dget (q_data q) i); [|intro H; injection H as <-; reflexivity].
  destruct (dlast (q_data q) i f); cbn; intro H; [injection H as <-; reflexivity | discriminate].
Qed.
Lemma rq_servers_cfg z q : q_cfg (rq_set_num_servers z q) = q_cfg q.
Proof. unfold rq_set_num_servers. destruct (eltb (c_max_servers (q_cfg q)) z); reflexivity. Qed.
Lemma action_cfg a q a' q' : queue_action a q = Ok (a', q') -> q_cfg q' = q_cfg q.
Proof.
  unfold queue_action. destruct (ag_kind a); try (intro H; injection H as _ <-; reflexivity).
  - unfold resource_action. destruct (is_resource (c_class (q_cfg q))); [|intro H; injection H as _ <-; reflexivity].
    destruct (ag_has a); [intro H; injection H as _ <-; reflexivity|].
    destruct (eltb (Fin 0) (q_servers q)); intro H; injection H as _ <-; [apply rq_servers_cfg | reflexivity].
  - unfold info_action. destruct (is_info (c_class (q_cfg q))); [|intro H; injection H as _ <-; reflexivity].
    intro H. do 4 (mbind H). injection H as _ <-. reflexivity.
Qed.
Lemma update_time_cfg q q' : update_time q = Ok q' -> q_cfg q' = q_cfg q.
Proof. unfold update_time. intro H. do 2 (mbind H). injection H as <-. reflexivity. Qed.
Lemma update_time_if_cfg q q' : update_time_if q = Ok q' -> q_cfg q' = q_cfg q.
Proof. unfold update_time_if. intro H. do 2 (mbind H). injection H as <-. destruct (eltb _ _); reflexivity. Qed.
Lemma service_cfg q q' : service_from_queue q = Ok q' -> q_cfg q' = q_cfg q.
Proof.
  unfold service_from_queue. destruct (q_line q) as [|a l]; [discriminate|]. intro H. mbind H. unfold call_srv in H. mbind H.
  match goal with X : dlast_if _ _ _ = _ |- _ => apply dlast_if_cfg in X; rename X into X1 end. cbn [set_q_line q_cfg] in X1.
  match goal with p : (agent * queue)%type |- _ => destruct p as [a' q4] end. mbind H. injection H as <-.
  match goal with X : queue_action _ _ = _ |- _ => apply action_cfg in X; cbn [set_q_is q_cfg] in X end. cbn [set_q_dep q_cfg]. congruence.
Qed.
Lemma add_new_cfg q q' : add_arrival_new q = Ok q' -> q_cfg q' = q_cfg q.
Proof.
  unfold add_arrival_new. destruct (eleb (q_next_ct q) (q_now q)); [|apply update_time_if_cfg].
  destruct (eleb (c_deactive_t (q_cfg q)) (c_arr (q_cfg q) (q_ia q) (q_now q))).
  - destruct (is_info (c_class (q_cfg q))); [discriminate|]. intro H. injection H as <-. reflexivity.
  - intro H. do 2 (mbind H). apply update_time_if_cfg in H. rewrite H. destruct (eleb (c_active_cap (q_cfg q)) _); reflexivity.
Qed.
Lemma add_self_cfg q q' : add_arrival_self q = Ok q' -> q_cfg q' = q_cfg q.
Proof. unfold add_arrival_self. destruct (c_class (q_cfg q)); try apply add_new_cfg. intro H. injection H as <-. reflexivity. Qed.

(** ** Methods *)

Section Clock.
Context (w : ext -> ext) (W : clock w) (A B : nat -> nat -> ext -> ext).
Notation by_q := (queue_by w A B).
Notation fit := (fits w A B).

Lemma w_lt a b : eltb (w a) (w b) = eltb a b.
Proof. apply W. Qed.
Lemma w_le a b : eleb (w a) (w b) = eleb a b.
Proof. unfold eleb. rewrite w_lt. reflexivity. Qed.
Lemma w_inf : w Inf = Inf.
Proof. apply W. Qed.
Lemma w_0 : w (Fin 0) = Fin 0.
Proof. apply W. Qed.
Lemma w_lt_inf a : eltb (w a) Inf = eltb a Inf.
Proof. rewrite <- w_inf at 1. apply w_lt. Qed.
Lemma eeqb_lt a b : eeqb a b = negb (eltb a b) && negb (eltb b a).
Proof. destruct a as [x|], b as [y|]; cbn; try reflexivity. destruct (Z.eqb_spec x y), (Z.ltb_spec x y), (Z.ltb_spec y x); cbn; lia || reflexivity. Qed.
Lemma w_eq a b : eeqb (w a) (w b) = eeqb a b.
Proof. rewrite !eeqb_lt, !w_lt. reflexivity. Qed.

Lemma itime_by i : itime (item_by w i) = w (itime i).
Proof. destruct i; cbn; [symmetry; apply w_inf | reflexivity]. Qed.
Lemma klt_by x y : klt itime (item_by w x) (item_by w y) = klt itime x y.
Proof. unfold klt. rewrite !itime_by. apply w_lt. Qed.
Lemma push_by h a : push_item (map (item_by w) h) (by_clock w a) = rmap (map (item_by w)) (push_item h a).
Proof.
  unfold push_item. change (Ag (by_clock w a)) with (item_by w (Ag a)). rewrite (heappush_by itime (item_by w) klt_by).
  destruct (heappush itime h (Ag a)); reflexivity.
Qed.
Lemma pop_by h : pop_agent (map (item_by w) h) = rmap (fun x => (by_clock w (fst x), map (item_by w) (snd x))) (pop_agent h).
Proof. unfold pop_agent. rewrite (heappop_by itime (item_by w) klt_by). destruct (heappop itime h) as [[[|a] h']|]; reflexivity. Qed.
Lemma root_by h : root_time (map (item_by w) h) = rmap w (root_time h).
Proof. destruct h as [|i h]; cbn; [reflexivity|]. rewrite itime_by. reflexivity. Qed.

(** Data. *)
Lemma dget_by d i : dget (data_by w d) i = option_map (map (row_by w)) (dget d i).
Proof.
  unfold dget. induction d as [|[j r] d IH]; [reflexivity|]. cbn [data_by map find fst snd]. destruct (aid_eqb j i); [reflexivity|]. exact IH.
Qed.
Lemma dset_by d i r : dset (data_by w d) i (map (row_by w) r) = data_by w (dset d i r).
Proof.
  induction d as [|[j s] d IH]; [reflexivity|]. cbn [data_by map dset fst snd]. destruct (aid_eqb j i); [reflexivity|].
  cbn [map fst snd]. unfold data_by in *. cbn [map fst snd]. rewrite IH. reflexivity.
Qed.
Lemma dappend_by d i r : dappend (data_by w d) i (row_by w r) = data_by w (dappend d i r).
Proof.
  unfold dappend. rewrite dget_by. destruct (dget d i) as [rows|]; cbn [option_map].
  - change [row_by w r] with (map (row_by w) [r]). rewrite <- map_app. apply dset_by.
  - change [row_by w r] with (map (row_by w) [r]). apply dset_by.
Qed.
Lemma dlast_by d i f f' : (forall r, f' (row_by w r) = row_by w (f r)) -> dlast (data_by w d) i f' = rmap (data_by w) (dlast d i f).
Proof.
  intro F. unfold dlast. rewrite dget_by. destruct (dget d i) as [rows|]; cbn [option_map]; [|reflexivity]. rewrite <- map_rev.
  destruct (rev rows) as [|r rs]; cbn [map]; [reflexivity|]. rewrite F, <- map_rev. change [row_by w (f r)] with (map (row_by w) [f r]).
  rewrite <- map_app, dset_by. reflexivity.
Qed.
Lemma row_by_new t a b : mkData (w t) (Fin 0) (Fin 0) a b = row_by w (mkData t (Fin 0) (Fin 0) a b).
Proof. unfold row_by. cbn. rewrite w_0. reflexivity. Qed.
Lemma dlast_if_by q i f f' : (forall r, f' (row_by w r) = row_by w (f r)) -> dlast_if (by_q q) i f' = rmap by_q (dlast_if q i f).
Proof.
  intro F. unfold dlast_if. cbn [queue_by q_collect q_data]. destruct (q_collect q); [|reflexivity]. rewrite dget_by.
  destruct (dget (q_data q) i); cbn [option_map]; [|reflexivity]. rewrite (dlast_by _ _ f f' F). destruct (dlast (q_data q) i f); reflexivity.
Qed.

Definition pair_by (x : agent * queue) : agent * queue := (by_clock w (fst x), by_q (snd x)).
Definition ev_by (x : option agent * queue) : option agent * queue := (option_map (by_clock w) (fst x), by_q (snd x)).

Lemma min_by a b : (if eltb (w a) (w b) then w a else w b) = w (if eltb a b then a else b).
Proof. rewrite w_lt. destruct (eltb a b); reflexivity. Qed.
Lemma update_time_by q : update_time (by_q q) = rmap by_q (update_time q).
Proof.
  unfold update_time. cbn [queue_by q_arr q_dep]. rewrite !root_by. destruct (root_time (q_arr q)); cbn [rmap bind]; [|reflexivity].
  destruct (root_time (q_dep q)); cbn [rmap bind]; [|reflexivity]. rewrite min_by. reflexivity.
Qed.
Lemma update_time_if_by q : update_time_if (by_q q) = rmap by_q (update_time_if q).
Proof.
  unfold update_time_if. cbn [queue_by q_arr q_dep]. rewrite !root_by. destruct (root_time (q_arr q)) as [ta|]; cbn [rmap bind]; [|reflexivity].
  destruct (root_time (q_dep q)) as [td|]; cbn [rmap bind]; [|reflexivity]. rewrite w_lt. destruct (eltb ta td); reflexivity.
Qed.
Lemma new_agent_by q t : new_agent (by_q q) (w t) = rmap (by_clock w) (new_agent q t).
Proof. unfold new_agent. cbn [queue_by q_cfg cfg_by c_class c_factory c_idx q_oarr q_net]. destruct (c_class (q_cfg q)), (c_factory (q_cfg q)); reflexivity. Qed.
Lemma rq_servers_by z q : rq_set_num_servers z (by_q q) = by_q (rq_set_num_servers z q).
Proof. unfold rq_set_num_servers. change (c_max_servers (q_cfg (by_q q))) with (c_max_servers (q_cfg q)). destruct (eltb (c_max_servers (q_cfg q)) z); reflexivity. Qed.
Lemma resource_by a q : resource_action (by_clock w a) (by_q q) = pair_by (resource_action a q).
Proof.
  unfold resource_action. change (c_class (q_cfg (by_q q))) with (c_class (q_cfg q)). change (q_servers (by_q q)) with (q_servers q).
  change (ag_has (by_clock w a)) with (ag_has a). destruct (is_resource (c_class (q_cfg q))); [|reflexivity].
  destruct (ag_has a); [reflexivity|]. destruct (eltb (Fin 0) (q_servers q)); [|reflexivity]. rewrite rq_servers_by. reflexivity.
Qed.
Lemma action_by a q : c_class (q_cfg q) <> CInfo -> queue_action (by_clock w a) (by_q q) = rmap pair_by (queue_action a q).
Proof.
  intro N. unfold queue_action. change (ag_kind (by_clock w a)) with (ag_kind a). destruct (ag_kind a); try reflexivity.
  - rewrite resource_by. reflexivity.
  - unfold info_action. change (c_class (q_cfg (by_q q))) with (c_class (q_cfg q)). destruct (c_class (q_cfg q)); congruence || reflexivity.
Qed.
Lemma add_loss_by a q : add_loss (by_clock w a) (by_q q) = rmap (by_clock w) (add_loss a q).
Proof.
  unfold add_loss. change (ag_kind (by_clock w a)) with (ag_kind a). change (c_idx (q_cfg (by_q q))) with (c_idx (q_cfg q)).
  change (ag_stats (by_clock w a)) with (ag_stats a). destruct (ag_kind a); try reflexivity.
  destruct (get (ag_stats a) (c_idx (q_cfg q))) as [[[x y] z]|]; cbn [of_option bind]; [|reflexivity].
  destruct (set (ag_stats a) (c_idx (q_cfg q)) (x, y, z + 1)); reflexivity.
Qed.

Lemma add_new_by q : fit (q_cfg q) -> add_arrival_new (by_q q) = rmap by_q (add_arrival_new q).
Proof.
  intros (N & FA & FB). unfold add_arrival_new. change (q_next_ct (by_q q)) with (w (q_next_ct q)). change (q_now (by_q q)) with (w (q_now q)).
  rewrite w_le. destruct (eleb (q_next_ct q) (q_now q)); [|apply update_time_if_by].
  change (c_arr (q_cfg (by_q q)) (q_ia (by_q q)) (w (q_now q))) with (A (c_idx (q_cfg q)) (q_ia q) (w (q_now q))). rewrite FA.
  set (t := c_arr (q_cfg q) (q_ia q) (q_now q)). cbv zeta. change (c_deactive_t (q_cfg (by_q q))) with (w (c_deactive_t (q_cfg q))). rewrite w_le.
  change (c_class (q_cfg (by_q q))) with (c_class (q_cfg q)).
  destruct (eleb (c_deactive_t (q_cfg q)) t); [destruct (is_info (c_class (q_cfg q))); reflexivity|].
  set (q2 := set_q_total _ (set_q_ia _ (set_q_next_ct t q))).
  change (set_q_total _ (set_q_ia _ (set_q_next_ct (w t) (by_q q)))) with (by_q q2).
  rewrite new_agent_by, bind_rmap, rmap_bind. apply bind_ext. intros a _. change (q_arr (by_q q2)) with (map (item_by w) (q_arr q2)).
  rewrite push_by, bind_rmap, rmap_bind. apply bind_ext. intros h _. rewrite <- update_time_if_by. f_equal.
  cbn [q_oarr set_q_oarr set_q_arr queue_by q_cfg cfg_by c_active_cap].
  destruct (eleb (c_active_cap (q_cfg q)) (Fin (q_oarr q2 + 1))); reflexivity.
Qed.
Lemma add_self_by q : fit (q_cfg q) -> add_arrival_self (by_q q) = rmap by_q (add_arrival_self q).
Proof.
  intro F. unfold add_arrival_self. change (c_class (q_cfg (by_q q))) with (c_class (q_cfg q)).
  destruct (c_class (q_cfg q)); try (apply add_new_by; exact F). reflexivity.
Qed.
Lemma add_by a q : add_arrival (by_clock w a) (by_q q) = rmap by_q (add_arrival a q).
Proof.
  assert (G : (let q1 := set_q_total (q_total (by_q q) + 1) (by_q q) in let* h := push_item (q_arr q1) (by_clock w a) in update_time_if (set_q_arr h q1)) =
    rmap by_q (let q1 := set_q_total (q_total q + 1) q in let* h := push_item (q_arr q1) a in update_time_if (set_q_arr h q1))).
  { cbv zeta. change (q_arr (set_q_total (q_total (by_q q) + 1) (by_q q))) with (map (item_by w) (q_arr q)). change (q_arr (set_q_total (q_total q + 1) q)) with (q_arr q).
    rewrite push_by, bind_rmap, rmap_bind. apply bind_ext. intros h _. rewrite <- update_time_if_by. reflexivity. }
  unfold add_arrival. change (c_class (q_cfg (by_q q))) with (c_class (q_cfg q)). destruct (c_class (q_cfg q)); try exact G.
  cbn [rmap]. change (q_collect (by_q q)) with (q_collect q). destruct (q_collect q); [|reflexivity].
  change (ag_time (by_clock w a)) with (w (ag_time a)). change (ag_id (by_clock w a)) with (ag_id a).
  rewrite row_by_new. change (q_data (by_q q)) with (data_by w (q_data q)). rewrite dappend_by. reflexivity.
Qed.

Lemma service_by q : fit (q_cfg q) -> service_from_queue (by_q q) = rmap by_q (service_from_queue q).
Proof.
  intros F. unfold service_from_queue. change (q_line (by_q q)) with (map (by_clock w) (q_line q)). destruct (q_line q) as [|a l]; cbn [map]; [reflexivity|].
  change (set_q_line (map (by_clock w) l) (by_q q)) with (by_q (set_q_line l q)). change (ag_id (by_clock w a)) with (ag_id a).
  change (q_now (by_q (set_q_line l q))) with (w (q_now (set_q_line l q))).
  rewrite (dlast_if_by _ _ (row_set_srv (q_now (set_q_line l q)))) by reflexivity. rewrite bind_rmap, rmap_bind. apply bind_ext. intros q2 E2.
  apply dlast_if_cfg in E2. cbn [set_q_line q_cfg] in E2. rewrite <- E2 in F. destruct F as (N & FA & FB). unfold call_srv.
  change (c_srv (q_cfg (by_q q2)) (q_is (by_q q2)) (q_now (by_q q2))) with (B (c_idx (q_cfg q2)) (q_is q2) (w (q_now q2))). rewrite FB.
  change (set_ag_time (w (c_srv (q_cfg q2) (q_is q2) (q_now q2))) (by_clock w a)) with (by_clock w (set_ag_time (c_srv (q_cfg q2) (q_is q2) (q_now q2)) a)).
  change (set_q_is (Datatypes.S (q_is (by_q q2))) (by_q q2)) with (by_q (set_q_is (Datatypes.S (q_is q2)) q2)).
  rewrite action_by by exact N. rewrite bind_rmap, rmap_bind. apply bind_ext. intros [a' q4] _. cbn [pair_by fst snd]. change (q_dep (by_q q4)) with (map (item_by w) (q_dep q4)).
  rewrite push_by, bind_rmap, rmap_bind. apply bind_ext. intros h _. reflexivity.
Qed.
Lemma delay_by t q : fit (q_cfg q) -> delay_service (option_map w t) (by_q q) = rmap by_q (delay_service t q).
Proof.
  intros (N & FA & FB). unfold delay_service. change (c_class (q_cfg (by_q q))) with (c_class (q_cfg q)). change (q_dep (by_q q)) with (map (item_by w) (q_dep q)). rewrite map_length.
  rewrite (heappop_by itime (item_by w) klt_by).
  assert (G : (if (1 <? length (q_dep q))%nat
    then match option_map (fun x => (item_by w (fst x), map (item_by w) (snd x))) (heappop itime (q_dep q)) with
         | None => Err IndexError | Some (Sentinel, _) => Err Corrupt
         | Some (Ag a, h) =>
           let '(t', q1) := match option_map w t with None => call_srv (by_q q) (ag_time a) | Some t => (t, by_q q) end in
           let* h' := push_item h (set_ag_time t' a) in update_time (set_q_dep h' q1) end
    else Ok (by_q q)) = rmap by_q (if (1 <? length (q_dep q))%nat
    then match heappop itime (q_dep q) with
         | None => Err IndexError | Some (Sentinel, _) => Err Corrupt
         | Some (Ag a, h) =>
           let '(t', q1) := match t with None => call_srv q (ag_time a) | Some t => (t, q) end in
           let* h' := push_item h (set_ag_time t' a) in update_time (set_q_dep h' q1) end
    else Ok q)).
  { destruct (1 <? length (q_dep q))%nat; [|reflexivity].
    destruct (heappop itime (q_dep q)) as [[[|a] h]|]; cbn [option_map fst snd item_by]; try reflexivity.
    destruct t as [t|]; cbn [option_map].
    - change (set_ag_time (w t) (by_clock w a)) with (by_clock w (set_ag_time t a)). rewrite push_by, bind_rmap, rmap_bind.
      apply bind_ext; intros h' _; rewrite <- update_time_by; reflexivity.
    - unfold call_srv. change (c_srv (q_cfg (by_q q)) (q_is (by_q q)) (ag_time (by_clock w a))) with (B (c_idx (q_cfg q)) (q_is q) (w (ag_time a))). rewrite FB.
      change (set_ag_time (w (c_srv (q_cfg q) (q_is q) (ag_time a))) (by_clock w a)) with (by_clock w (set_ag_time (c_srv (q_cfg q) (q_is q) (ag_time a)) a)).
      rewrite push_by, bind_rmap, rmap_bind. apply bind_ext; intros h' _; rewrite <- update_time_by; reflexivity. }
  destruct (c_class (q_cfg q)); try exact G. reflexivity.
Qed.

Lemma qs_departure_by q : fit (q_cfg q) -> qs_departure (by_q q) = rmap ev_by (qs_departure q).
Proof.
  intro F. unfold qs_departure. change (q_dep (by_q q)) with (map (item_by w) (q_dep q)). rewrite pop_by, bind_rmap, rmap_bind. apply bind_ext. intros [a h] _.
  cbn [fst snd]. set (q1 := set_q_departed _ (set_q_nsys _ (set_q_total _ (set_q_now _ (set_q_dep h q))))).
  change (set_q_departed _ (set_q_nsys _ (set_q_total _ (set_q_now _ (set_q_dep _ (by_q q)))))) with (by_q q1).
  change (q_now (by_q q1)) with (w (q_now q1)). change (ag_id (by_clock w a)) with (ag_id a).
  rewrite (dlast_if_by _ _ (row_set_dep (q_now q1))) by reflexivity. rewrite bind_rmap, rmap_bind. apply bind_ext. intros q2 E2.
  apply dlast_if_cfg in E2. change (q_cfg q1) with (q_cfg q) in E2. rewrite <- E2 in F.
  cbv zeta. change (q_line (by_q q2)) with (map (by_clock w) (q_line q2)). rewrite map_length. change (q_nsys (by_q q2)) with (q_nsys q2). change (q_servers (by_q q2)) with (q_servers q2).
  rewrite service_by by exact F. change (Ok (by_q q2)) with (rmap by_q (Ok q2)). rewrite <- rmap_if, bind_rmap, rmap_bind. apply bind_ext. intros q3 E3.
  assert (C3 : q_cfg q3 = q_cfg q2). { destruct (_ && _) in E3; [apply service_cfg; exact E3 | injection E3 as <-; reflexivity]. }
  rewrite <- C3 in F. rewrite action_by by apply F. rewrite bind_rmap, rmap_bind. apply bind_ext. intros [a' q4] _. cbn [pair_by fst snd]. rewrite update_time_by, bind_rmap, rmap_bind.
  apply bind_ext. intros q5 _. reflexivity.
Qed.
Lemma qs_arrival_by q : fit (q_cfg q) -> qs_arrival (by_q q) = rmap ev_by (qs_arrival q).
Proof.
  intro F. unfold qs_arrival. change (q_arr (by_q q)) with (map (item_by w) (q_arr q)). rewrite pop_by, bind_rmap, rmap_bind. apply bind_ext. intros [a h] _.
  cbn [fst snd]. set (q1 := set_q_now (ag_time a) (set_q_arr h q)). change (set_q_now _ (set_q_arr _ (by_q q))) with (by_q q1).
  cbv zeta. change (q_active (by_q q1)) with (q_active q1). rewrite add_self_by by exact F. change (Ok (by_q q1)) with (rmap by_q (Ok q1)).
  rewrite <- rmap_if, bind_rmap, rmap_bind. apply bind_ext. intros q2 E2.
  assert (C2 : q_cfg q2 = q_cfg q1). { destruct (q_active q1); [apply add_self_cfg; exact E2 | injection E2 as <-; reflexivity]. }
  change (q_cfg q1) with (q_cfg q) in C2. rewrite <- C2 in F.
  set (q3 := set_q_narr (q_narr q2 + 1) (set_q_nsys (q_nsys q2 + 1) q2)). change (set_q_narr _ (set_q_nsys _ (by_q q2))) with (by_q q3).
  change (q_line (by_q q3)) with (map (by_clock w) (q_line q3)). rewrite map_length. change (q_nsys (by_q q3)) with (q_nsys q3). change (q_servers (by_q q3)) with (q_servers q3).
  set (q4 := if q_collect q3 then _ else q3).
  match goal with |- bind (queue_action (by_clock w a) ?x) _ = _ => assert (E : x = by_q q4) end.
  { unfold q4. change (q_collect (by_q q3)) with (q_collect q3). destruct (q_collect q3); [|reflexivity].
    change (ag_time (by_clock w a)) with (w (ag_time a)). rewrite row_by_new. change (q_data (by_q q3)) with (data_by w (q_data q3)).
    change (ag_id (by_clock w a)) with (ag_id a). rewrite dappend_by. reflexivity. }
  rewrite E. clear E. assert (C4 : q_cfg q4 = q_cfg q2) by (unfold q4; destruct (q_collect q3); reflexivity). rewrite <- C4 in F.
  rewrite action_by by apply F. rewrite bind_rmap, rmap_bind. apply bind_ext. intros [a1 q5] E5. cbn [pair_by fst snd].
  apply action_cfg in E5. rewrite <- E5 in F.
  change (q_nsys (by_q q5)) with (q_nsys q5). change (q_servers (by_q q5)) with (q_servers q5). rewrite rmap_if.
  destruct (eleb (Fin (q_nsys q5)) (q_servers q5)).
  - change (q_collect (by_q q5)) with (q_collect q5). change (q_data (by_q q5)) with (data_by w (q_data q5)). change (ag_id (by_clock w a1)) with (ag_id a1).
    change (ag_time (by_clock w a1)) with (w (ag_time a1)). rewrite (dlast_by _ _ (row_set_srv (ag_time a1))) by reflexivity.
    match goal with |- bind ?x _ = _ => assert (E : x = rmap by_q (if q_collect q5 then let* d := dlast (q_data q5) (ag_id a1) (row_set_srv (ag_time a1)) in Ok (set_q_data d q5) else Ok q5)) end.
    { destruct (q_collect q5); [|reflexivity]. destruct (dlast (q_data q5) (ag_id a1) (row_set_srv (ag_time a1))); reflexivity. }
    rewrite E. clear E. rewrite bind_rmap, rmap_bind. apply bind_ext. intros q6 E6. unfold call_srv.
    assert (C6 : q_cfg q6 = q_cfg q5). { destruct (q_collect q5); [|injection E6 as <-; reflexivity]. mbind E6. injection E6 as <-. reflexivity. }
    rewrite <- C6 in F. destruct F as (N & FA & FB).
    change (c_srv (q_cfg (by_q q6)) (q_is (by_q q6)) (w (ag_time a1))) with (B (c_idx (q_cfg q6)) (q_is q6) (w (ag_time a1))). rewrite FB.
    change (set_ag_time (w (c_srv (q_cfg q6) (q_is q6) (ag_time a1))) (by_clock w a1)) with (by_clock w (set_ag_time (c_srv (q_cfg q6) (q_is q6) (ag_time a1)) a1)).
    change (set_q_is (Datatypes.S (q_is (by_q q6))) (by_q q6)) with (by_q (set_q_is (Datatypes.S (q_is q6)) q6)).
    rewrite action_by by exact N. rewrite bind_rmap, rmap_bind. apply bind_ext. intros [a2 q8] _. cbn [pair_by fst snd]. change (q_dep (by_q q8)) with (map (item_by w) (q_dep q8)).
    rewrite push_by, bind_rmap, rmap_bind. apply bind_ext. intros h2 _. change (set_q_dep (map (item_by w) h2) (by_q q8)) with (by_q (set_q_dep h2 q8)).
    rewrite update_time_by, bind_rmap, rmap_bind. apply bind_ext. intros q9 _. reflexivity.
  - change (q_line (by_q q5) ++ [by_clock w a1]) with (map (by_clock w) (q_line q5) ++ map (by_clock w) [a1]). rewrite <- map_app.
    change (set_q_line (map (by_clock w) (q_line q5 ++ [a1])) (by_q q5)) with (by_q (set_q_line (q_line q5 ++ [a1]) q5)).
    rewrite update_time_by, bind_rmap, rmap_bind. apply bind_ext. intros q6 _. reflexivity.
Qed.
Lemma qs_by q : fit (q_cfg q) -> qs_next_event (by_q q) = rmap ev_by (qs_next_event q).
Proof.
  intro F. unfold qs_next_event. change (q_arr (by_q q)) with (map (item_by w) (q_arr q)). change (q_dep (by_q q)) with (map (item_by w) (q_dep q)).
  rewrite !root_by, bind_rmap, rmap_bind. apply bind_ext. intros ta _. rewrite bind_rmap, rmap_bind. apply bind_ext. intros td _.
  rewrite !rmap_if, w_lt, w_lt_inf. rewrite qs_departure_by, qs_arrival_by by exact F. reflexivity.
Qed.
Lemma loss_blocked_by q : fit (q_cfg q) -> loss_blocked (by_q q) = rmap ev_by (loss_blocked q).
Proof.
  intro F. unfold loss_blocked. cbv zeta. set (q0 := set_q_total (q_total q - 1) (set_q_blocked (q_blocked q + 1) q)).
  change (set_q_total _ (set_q_blocked _ (by_q q))) with (by_q q0). change (q_arr (by_q q0)) with (map (item_by w) (q_arr q0)).
  rewrite pop_by, bind_rmap, rmap_bind. apply bind_ext. intros [a h] _. cbn [fst snd].
  rewrite add_loss_by, bind_rmap, rmap_bind. apply bind_ext. intros x _.
  set (q1 := set_q_now (ag_time a) (set_q_arr h q0)). change (set_q_now _ (set_q_arr _ (by_q q0))) with (by_q q1).
  change (q_active (by_q q1)) with (q_active q1). rewrite add_self_by by exact F. change (Ok (by_q q1)) with (rmap by_q (Ok q1)).
  rewrite <- rmap_if, bind_rmap, rmap_bind. apply bind_ext. intros q2 _.
  change (q_collect (by_q q2)) with (q_collect q2). change (q_line (by_q q2)) with (map (by_clock w) (q_line q2)). rewrite map_length.
  set (q3 := if q_collect q2 then _ else q2).
  match goal with |- bind (update_time ?x) _ = _ => assert (E : x = by_q q3) end.
  { unfold q3. destruct (q_collect q2); [|reflexivity]. change (ag_time (by_clock w a)) with (w (ag_time a)). rewrite row_by_new.
    change (q_data (by_q q2)) with (data_by w (q_data q2)). change (ag_id (by_clock w a)) with (ag_id a). rewrite dappend_by. reflexivity. }
  rewrite E. clear E. rewrite update_time_by, bind_rmap, rmap_bind. apply bind_ext. intros q4 _. reflexivity.
Qed.
Lemma drop_by (r : res (option agent * queue)) :
  (let* x := rmap ev_by r in (let '(_, q') := x in Ok (@None agent, q'))) = rmap ev_by (let* x := r in (let '(_, q') := x in Ok (@None agent, q'))).
Proof. destruct r as [[o q]|]; reflexivity. Qed.
Lemma loss_by q : fit (q_cfg q) -> loss_next_event (by_q q) = rmap ev_by (loss_next_event q).
Proof.
  intro F. unfold loss_next_event. change (q_arr (by_q q)) with (map (item_by w) (q_arr q)). change (q_dep (by_q q)) with (map (item_by w) (q_dep q)).
  rewrite !root_by, bind_rmap, rmap_bind. apply bind_ext. intros ta _. rewrite bind_rmap, rmap_bind. apply bind_ext. intros td _.
  rewrite !rmap_if, w_lt, w_lt_inf. rewrite loss_blocked_by, qs_by, drop_by by exact F. reflexivity.
Qed.
Lemma rq_return_by q : rq_return (by_q q) = rmap ev_by (rq_return q).
Proof.
  unfold rq_return. change (q_arr (by_q q)) with (map (item_by w) (q_arr q)). rewrite pop_by, bind_rmap, rmap_bind. apply bind_ext. intros [a h] _. cbn [fst snd].
  set (q1 := set_q_total _ (set_q_now _ (set_q_arr h q))). change (set_q_total _ (set_q_now _ (set_q_arr _ (by_q q)))) with (by_q q1).
  cbv zeta. change (q_servers (by_q q1)) with (q_servers q1). rewrite rq_servers_by. set (q2 := rq_set_num_servers _ q1).
  change (q_line (by_q q2)) with (map (by_clock w) (q_line q2)). rewrite map_length. set (q3 := if q_collect q2 then _ else q2).
  match goal with |- bind (update_time ?x) _ = _ => assert (E : x = by_q q3) end.
  { unfold q3. change (q_collect (by_q q2)) with (q_collect q2). destruct (q_collect q2); [|reflexivity]. set (k := Z.of_nat (length (q_line q2))).
    change (mkData (ag_time (by_clock w a)) (ag_time (by_clock w a)) (ag_time (by_clock w a)) k (q_nsys (by_q q2))) with (row_by w (mkData (ag_time a) (ag_time a) (ag_time a) k (q_nsys q2))).
    change (q_data (by_q q2)) with (data_by w (q_data q2)). change (ag_id (by_clock w a)) with (ag_id a). rewrite dappend_by. reflexivity. }
  rewrite E. clear E. rewrite update_time_by, bind_rmap, rmap_bind. apply bind_ext. intros q4 _. reflexivity.
Qed.
Lemma rq_blocked_by q : rq_blocked (by_q q) = rmap ev_by (rq_blocked q).
Proof.
  unfold rq_blocked. cbv zeta. set (q0 := set_q_total _ (set_q_narr _ (set_q_blocked (q_blocked q + 1) q))).
  change (set_q_total _ (set_q_narr _ (set_q_blocked _ (by_q q)))) with (by_q q0). change (q_arr (by_q q0)) with (map (item_by w) (q_arr q0)).
  rewrite pop_by, bind_rmap, rmap_bind. apply bind_ext. intros [a h] _. cbn [fst snd].
  set (q1 := set_q_now (ag_time a) (set_q_arr h q0)). change (set_q_now _ (set_q_arr _ (by_q q0))) with (by_q q1).
  change (q_line (by_q q1)) with (map (by_clock w) (q_line q1)). rewrite map_length. set (q3 := if q_collect q1 then _ else q1).
  match goal with |- bind (update_time ?x) _ = _ => assert (E : x = by_q q3) end.
  { unfold q3. change (q_collect (by_q q1)) with (q_collect q1). destruct (q_collect q1); [|reflexivity]. change (ag_time (by_clock w a)) with (w (ag_time a)). rewrite row_by_new.
    change (q_data (by_q q1)) with (data_by w (q_data q1)). change (ag_id (by_clock w a)) with (ag_id a). rewrite dappend_by. reflexivity. }
  rewrite E. clear E. rewrite update_time_by, bind_rmap, rmap_bind. apply bind_ext. intros q4 _. reflexivity.
Qed.
Lemma rq_by q : fit (q_cfg q) -> rq_next_event (by_q q) = rmap ev_by (rq_next_event q).
Proof.
  intro F. unfold rq_next_event. change (q_arr (by_q q)) with (map (item_by w) (q_arr q)).
  destruct (q_arr q) as [|[|a] h]; cbn [map item_by]; [reflexivity|apply loss_by; exact F|].
  change (ag_kind (by_clock w a)) with (ag_kind a). change (ag_time (by_clock w a)) with (w (ag_time a)). change (ag_has (by_clock w a)) with (ag_has a).
  destruct (ag_kind a); try (apply loss_by; exact F). change (q_dep (by_q q)) with (map (item_by w) (q_dep q)). rewrite root_by, bind_rmap, rmap_bind. apply bind_ext. intros td _.
  rewrite !rmap_if, w_lt, w_lt_inf. rewrite loss_by, rq_return_by, rq_blocked_by, drop_by by exact F. reflexivity.
Qed.
Lemma next_by q : fit (q_cfg q) -> next_event (by_q q) = rmap ev_by (next_event q).
Proof.
  intro F. unfold next_event. change (c_class (q_cfg (by_q q))) with (c_class (q_cfg q)).
  destruct (c_class (q_cfg q)) eqn:E; [apply qs_by|apply loss_by|reflexivity|apply rq_by|destruct F; congruence]; exact F.
Qed.
Lemma active_by q : fit (q_cfg q) -> set_active (by_q q) = rmap by_q (set_active q).
Proof.
  intro F. unfold set_active. change (q_active (by_q q)) with (q_active q). destruct (q_active q); [reflexivity|].
  change (set_q_active true (by_q q)) with (by_q (set_q_active true q)). apply add_self_by. exact F.
Qed.
Lemma repeat_by k : forall q, fit (q_cfg q) -> repeat_service k (by_q q) = rmap by_q (repeat_service k q).
Proof.
  induction k as [|k IH]; intros q F; cbn [repeat_service]; [reflexivity|]. rewrite service_by by exact F. rewrite bind_rmap, rmap_bind.
  apply bind_ext. intros q' E. apply IH. apply service_cfg in E. rewrite E. exact F.
Qed.
Lemma servers_by z q : fit (q_cfg q) -> set_num_servers z (by_q q) = rmap by_q (set_num_servers z q).
Proof.
  intro F. assert (G : qs_set_num_servers z (by_q q) = rmap by_q (qs_set_num_servers z q)).
  { unfold qs_set_num_servers. cbv zeta. change (q_line (by_q q)) with (map (by_clock w) (q_line q)). rewrite map_length. change (q_servers (by_q q)) with (q_servers q).
    assert (GO : forall m k, (let* q1 := repeat_service (Z.to_nat k) (by_q q) in let* q2 := if 0 <? k then update_time q1 else Ok q1 in Ok (set_q_servers m q2)) =
      rmap by_q (let* q1 := repeat_service (Z.to_nat k) q in let* q2 := if 0 <? k then update_time q1 else Ok q1 in Ok (set_q_servers m q2))).
    { intros m k. rewrite repeat_by by exact F. rewrite bind_rmap, rmap_bind. apply bind_ext. intros q1 _. rewrite update_time_by.
      change (Ok (by_q q1)) with (rmap by_q (Ok q1)). rewrite <- rmap_if, bind_rmap, rmap_bind. apply bind_ext. intros q2 _. reflexivity. }
    destruct z as [z| |]; [|destruct (q_servers q); [apply GO|reflexivity]|reflexivity].
    destruct (z <=? 0); [reflexivity|]. destruct (q_servers q); apply GO. }
  unfold set_num_servers. change (c_class (q_cfg (by_q q))) with (c_class (q_cfg q)). destruct (c_class (q_cfg q)); try exact G; [reflexivity|].
  destruct z; try reflexivity; rewrite rq_servers_by; reflexivity.
Qed.
Lemma clear_by q : c_class (q_cfg q) <> CInfo -> clear (by_q q) = by_q (clear q).
Proof.
  intro N. assert (G : qs_clear (by_q q) = by_q (qs_clear q)).
  { unfold qs_clear, queue_by. cbn [q_cfg q_servers q_departed q_nsys q_data q_line q_collect q_arr q_dep q_narr q_oarr q_total q_active q_now q_time q_next_ct q_blocked q_over q_net q_ia q_is].
    rewrite w_0, w_inf. reflexivity. }
  unfold clear. change (c_class (q_cfg (by_q q))) with (c_class (q_cfg q)). destruct (c_class (q_cfg q)); try rewrite G; congruence || reflexivity.
Qed.

Lemma op_by_run o q : fit (q_cfg q) -> run_op (op_by w o) (by_q q) = rmap by_q (run_op o q).
Proof.
  intro F. destruct o as [| | |z|t|a|b| |]; cbn [op_by run_op]; try reflexivity.
  - rewrite next_by by exact F. destruct (next_event q) as [[r q']|]; reflexivity.
  - apply active_by. exact F.
  - apply servers_by. exact F.
  - destruct t as [t|]; [apply (delay_by (Some t)) | apply (delay_by None)]; exact F.
  - apply add_by.
  - cbn [rmap]. rewrite clear_by by apply F. reflexivity.
Qed.
End Clock.
