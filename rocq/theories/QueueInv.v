(** * QueueInv: the counting invariant of a queue, for every operation *)
From Coq Require Import List ZArith QArith Lia Bool Permutation Arith.
From Verif Require Import Base Heap HeapProofs Queue QueueEffects QueueEvents QueueSteps.
Import ListNotations.
Open Scope Z_scope.

(** Reduces a goal over [ext] to linear arithmetic. *)
Ltac edes x := lazymatch x with
  | Fin _ => fail | Inf => fail | eadd ?a ?b => first [edes a | edes b] | _ => destruct x eqn:? end.
Ltac elia :=
  repeat match goal with
  | H : eLe ?x ?y |- _ => first [edes x | edes y]
  | H : eLt ?x ?y |- _ => first [edes x | edes y]
  | |- eLe ?x ?y => first [edes x | edes y]
  | |- eLt ?x ?y => first [edes x | edes y]
  end; cbn in *; try discriminate; try tauto; try lia; try congruence.

Lemma emin_eq_lt a b : eLt a b -> emin a b = a.
Proof. intro H. apply eltb_lt in H. unfold emin. rewrite H. reflexivity. Qed.
Lemma emin_eq_ge a b : eLe b a -> emin a b = b.
Proof. intro H. apply eltb_ge in H. unfold emin. rewrite H. reflexivity. Qed.

Lemma emin_le_both a b c : eLe c a -> eLe c b -> eLe c (emin a b).
Proof. intros. destruct (emin_cases a b) as [-> | ->]; assumption. Qed.

(** The number of agents in a heap. *)
Definition na (h : list item) : Z := Z.of_nat (length (agents_of h)).

Lemma na_perm h l : Permutation (agents_of h) l -> na h = Z.of_nat (length l).
Proof. intro P. unfold na. rewrite (Permutation_length P). reflexivity. Qed.

Lemma na_pop h a h' : wfh h -> pop_agent h = Ok (a, h') -> na h = na h' + 1.
Proof. intros W E. apply pop_agent_Ok in E as (_ & P & _); [|exact W]. rewrite (na_perm _ _ P). unfold na. simpl. lia. Qed.

Lemma na_nonneg h : 0 <= na h.
Proof. unfold na; lia. Qed.

Record qinv (q : queue) : Prop := mkQinv {
  qi_arr : wfh (q_arr q);
  qi_dep : wfh (q_dep q);
  qi_sys : q_nsys q = na (q_dep q) + Z.of_nat (length (q_line q));
  qi_total : q_total q = q_nsys q + na (q_arr q);
  qi_time : q_time q = emin (hmin (q_arr q)) (hmin (q_dep q))
}.

Lemma qinv_new c s col n : qinv (new_queue c s col n).
Proof. split; try reflexivity; apply wfh_init. Qed.

(** ** next_event *)

Lemma pre_event_net q qe : pre_event q qe -> exists nd, qe = set_q_net nd q.
Proof. intros [->|(_ & nd & a & t & _ & _ & ->)]; [exists (q_net q); reflexivity | eauto]. Qed.

Lemma qinv_departure q r q' : qinv q -> qs_departure q = Ok (r, q') -> qinv q'.
Proof.
  intros [Wa Wd S T _] H.
  apply qs_departure_Ok in H; [|exact Wa|exact Wd].
  destruct H as (a & h & a' & h' & line' & n & d1 & d & s & o & P & _ & _ & _ & _ & _ & -> & _ & W' & _ & C).
  apply na_pop in P; [|exact Wd]. cbv zeta in C.
  assert (N : na h' + Z.of_nat (length line') = na h + Z.of_nat (length (q_line q))).
  { destruct C as [(_ & -> & -> & _)|(_ & b & b' & L & _ & _ & _ & PP & _)]; [reflexivity|].
    rewrite L, (na_perm _ _ PP). unfold na. cbn [length]. lia. }
  split; qc; auto; lia.
Qed.

(** What a draw does to the counters. *)
Lemma draw_count q q2 new : draw q q2 new ->
  wfh (q_arr q2) /\ na (q_arr q2) = Z.of_nat (length new) + na (q_arr q) /\
  q_total q2 = q_total q + Z.of_nat (length new) /\
  q_dep q2 = q_dep q /\ q_line q2 = q_line q /\ q_nsys q2 = q_nsys q.
Proof.
  intros (tm & act & h & i & ct & -> & W & P & _). qc.
  split; [exact W|]. split; [|auto].
  rewrite (na_perm _ _ P), app_length. unfold na. lia.
Qed.

Lemma qinv_arrival q r q' : c_class (q_cfg q) <> CNull -> qinv q -> qs_arrival q = Ok (r, q') -> qinv q'.
Proof.
  intros N [Wa Wd S T _] H.
  apply qs_arrival_Ok in H; [|exact N|exact Wa|exact Wd].
  destruct H as (a & h & q2 & new & h' & line' & n & d1 & d & s1 & o1 & s & o & a1 & _ & P & DR & _ & _ & _ & -> & _ & W' & _ & _ & C).
  apply na_pop in P; [|exact Wa]. apply draw_count in DR as (W2 & N2 & T2 & D2 & L2 & S2). qch N2. qch T2. qch D2. qch L2. qch S2.
  assert (M : na h' + Z.of_nat (length line') = na (q_dep q) + Z.of_nat (length (q_line q)) + 1).
  { destruct C as [(_ & -> & _ & (a2 & _ & _ & _ & PP) & _)|(_ & -> & _ & -> & _)].
    - rewrite (na_perm _ _ PP). unfold na. cbn [length]. lia.
    - rewrite app_length. simpl. lia. }
  split; qc; auto; lia.
Qed.

Lemma qinv_loss_blocked q r q' : c_class (q_cfg q) <> CNull -> qinv q -> loss_blocked q = Ok (r, q') -> qinv q'.
Proof.
  intros N [Wa Wd S T _] H.
  apply loss_blocked_Ok in H; [|exact N|exact Wa|exact Wd].
  destruct H as (a & h & q2 & new & d & _ & P & DR & -> & _).
  apply na_pop in P; [|exact Wa]. apply draw_count in DR as (W2 & N2 & T2 & D2 & L2 & S2). qch N2. qch T2. qch D2. qch L2. qch S2.
  split; qc; rewrite ?D2, ?L2, ?S2; auto; lia.
Qed.

Lemma qinv_rq_return q r q' : qinv q -> rq_return q = Ok (r, q') -> qinv q'.
Proof.
  intros [Wa Wd S T _] H.
  apply rq_return_Ok in H; [|exact Wa|exact Wd].
  destruct H as (a & h & o & d & _ & P & W & -> & _).
  apply na_pop in P; [|exact Wa]. split; qc; auto; lia.
Qed.

Lemma qinv_rq_blocked q r q' : qinv q -> rq_blocked q = Ok (r, q') -> qinv q'.
Proof.
  intros [Wa Wd S T _] H.
  apply rq_blocked_Ok in H; [|exact Wa|exact Wd].
  destruct H as (a & h & d & _ & P & W & -> & _).
  apply na_pop in P; [|exact Wa]. split; qc; auto; lia.
Qed.

Lemma qinv_next q r q' : qinv q -> next_event q = Ok (r, q') -> qinv q'.
Proof.
  intros I H. apply next_event_event in H as (qe & PE & EV); [|apply I|apply I].
  destruct (pre_event_net _ _ PE) as (nd & QE).
  assert (IE : qinv qe) by (subst qe; destruct I; split; assumption).
  assert (CE : q_cfg qe = q_cfg q) by (subst qe; reflexivity).
  destruct EV as [? ? -> _|? ? R|? ? ? ? _ R|? ? ? ? ? _ R|? ? ? ? ? R|? ? ? ? ? ? R].
  - exact I.
  - eapply qinv_departure; eauto.
  - eapply qinv_arrival; [|exact IE|exact R]. rewrite CE; assumption.
  - eapply qinv_loss_blocked; [|exact IE|exact R]. rewrite CE; assumption.
  - eapply qinv_rq_return; [exact I|exact R].
  - eapply qinv_rq_blocked; [exact I|exact R].
Qed.

(** ** The other operations *)

(** Pushing into the arrivals keeps [_time] the minimum. *)
Lemma time_after_push h h' td l :
  wfh h' -> wfh h -> Permutation (agents_of h') (l ++ agents_of h) ->
  (if eltb (hmin h') td then hmin h' else emin (hmin h) td) = emin (hmin h') td.
Proof.
  intros W' W P. destruct (eltb (hmin h') td) eqn:C.
  - apply eltb_lt in C. rewrite emin_eq_lt; auto.
  - apply eltb_ge in C. rewrite (emin_eq_ge _ _ C). apply emin_eq_ge.
    destruct (wfh_min_cases h W) as [->|(a & IA & <-)]; [apply eLe_Inf|].
    apply eLe_trans with (hmin h'); [exact C|]. apply wfh_min; [exact W'|].
    apply (Permutation_in a (Permutation_sym P)). apply in_or_app. right. exact IA.
Qed.

Lemma qinv_add_arrival_new q q' : qinv q -> add_arrival_new q = Ok q' -> qinv q'.
Proof.
  intros [Wa Wd S T M] H. apply add_arrival_new_Ok in H; [|exact Wa|exact Wd]. cbv zeta in H.
  destruct H as [(_ & ->)|[(_ & _ & _ & ->)|(_ & _ & a & h & act & -> & _ & _ & _ & _ & _ & W & P & _)]].
  - split; qc; auto. rewrite M. apply (time_after_push (q_arr q) (q_arr q) _ []); auto.
  - split; qc; auto.
  - assert (N := na_perm _ _ P). cbn [length] in N. fold (na (q_arr q)) in N.
    split; qc; auto; [unfold na in *; lia|]. rewrite M. apply (time_after_push _ _ _ [a]); auto.
Qed.

Lemma qinv_add_arrival a q q' : qinv q -> add_arrival a q = Ok q' -> qinv q'.
Proof.
  intros I H. destruct (c_class (q_cfg q)) eqn:C.
  3:{ apply add_arrival_null in H as (d & -> & _); [|exact C]. destruct I; split; assumption. }
  all: destruct I as [Wa Wd S T M];
    (apply add_arrival_Ok in H as (h & -> & W & P); [|congruence|exact Wa|exact Wd]);
    assert (N := na_perm _ _ P); cbn [length] in N;
    (split; qc; auto; [unfold na in *; lia|]; rewrite M; apply (time_after_push _ _ _ [a]); auto).
Qed.

Lemma qinv_set_active q q' : qinv q -> set_active q = Ok q' -> qinv q'.
Proof.
  intros I H. unfold set_active in H. destruct (q_active q); [congruence|].
  assert (I2 : qinv (set_q_active true q)) by (destruct I; split; assumption).
  unfold add_arrival_self in H. qch H. destruct (c_class (q_cfg q)); try (eapply qinv_add_arrival_new; eassumption).
  inversion H; subst; exact I2.
Qed.

Lemma qinv_delay t q q' : qinv q -> delay_service t q = Ok q' -> qinv q'.
Proof.
  intros I H. destruct (c_class (q_cfg q)) eqn:C.
  3:{ unfold delay_service in H. rewrite C in H. congruence. }
  all: destruct I as [Wa Wd S T M];
    (apply delay_service_Ok in H; [|congruence|exact Wa|exact Wd]);
    (destruct H as [(_ & ->)|(a & h & h' & n & H)];
     [split; assumption|cbv zeta in H; destruct H as (_ & -> & _ & W & W' & P & P' & _);
      assert (N := na_perm _ _ P); assert (N' := na_perm _ _ P'); cbn [length] in N, N';
      split; qc; auto; unfold na in *; lia]).
Qed.

(** [k] agents are taken from the line into service. *)
Lemma repeat_service_Ok k q q' : wfh (q_dep q) -> repeat_service k q = Ok q' ->
  (k <= length (q_line q))%nat /\
  exists h d s o new,
    q' = set_q_dep h (set_q_over o (set_q_servers s (set_q_is (k + q_is q)%nat
           (set_q_data d (set_q_line (skipn k (q_line q)) q))))) /\
    wfh h /\ Permutation (agents_of h) (new ++ agents_of (q_dep q)) /\
    map ag_id new = map ag_id (firstn k (q_line q)) /\
    Forall (fun a => exists n, ag_time a = c_srv (q_cfg q) n (q_now q)) new /\
    (c_class (q_cfg q) <> CResource -> s = q_servers q /\ o = q_over q) /\
    (q_collect q = false -> d = q_data q).
Proof.
  revert q. induction k as [|k IH]; intros q W H; cbn [repeat_service] in H.
  - inversion H; subst. split; [lia|].
    exists (q_dep q'), (q_data q'), (q_servers q'), (q_over q'), [].
    split; [reflexivity|]. split; [exact W|]. split; [reflexivity|]. auto.
  - mbind H. rename x into q1.
    apply service_from_queue_Ok in E; [|exact W].
    destruct E as (a & line & a' & h1 & d1 & s1 & o1 & L & -> & I1 & T1 & K1 & W1 & P1 & D1 & SO1).
    apply IH in H; [|exact W1]. qch H.
    destruct H as (LE & h & d & s & o & new & -> & Wh & P & M & F & SO & D).
    rewrite L. cbn [length firstn skipn map].
    split; [lia|].
    exists h, d, s, o, (a' :: new). split; [|split; [exact Wh|]].
    { replace (S k + q_is q)%nat with (k + S (q_is q))%nat by lia. reflexivity. }
    split. { rewrite P, P1. cbn [app]. symmetry. apply Permutation_middle. }
    split; [cbn [map]; rewrite I1, M; reflexivity|].
    split; [constructor; [eauto | exact F]|].
    split; [intro N; destruct (SO1 N) as [-> ->]; exact (SO N)|].
    intro CF. rewrite (D CF). destruct D1 as [[-> _]|[X _]]; [reflexivity | congruence].
Qed.

(** set_num_servers of a QueueServer. *)
Lemma qs_set_num_servers_Ok n q q' : qinv q -> c_class (q_cfg q) <> CResource ->
  qs_set_num_servers n q = Ok q' ->
  exists m k h d new,
    (m = match n with PInt z => Fin z | _ => Inf end) /\ n <> POther /\ eLt (Fin 0) m /\
    (q_servers q = Inf -> m <> Inf) /\
    k = Z.to_nat (match m, q_servers q with
                  | Fin z, Fin s => Z.max (Z.min (z - s) (Z.of_nat (length (q_line q)))) 0
                  | Fin _, Inf => 0
                  | Inf, _ => Z.of_nat (length (q_line q))
                  end) /\
    q' = set_q_servers m (set_q_time (emin (hmin (q_arr q)) (hmin h))
           (set_q_dep h (set_q_is (k + q_is q)%nat
             (set_q_data d (set_q_line (skipn k (q_line q)) q))))) /\
    wfh h /\ Permutation (agents_of h) (new ++ agents_of (q_dep q)) /\
    map ag_id new = map ag_id (firstn k (q_line q)) /\
    Forall (fun a => exists n, ag_time a = c_srv (q_cfg q) n (q_now q)) new.
Proof.
  intros [Wa Wd S T M] NR H. unfold qs_set_num_servers in H. cbv zeta in H.
  set (L := Z.of_nat (length (q_line q))) in *.
  assert (GO : forall m tq,
    (let* q1 := repeat_service (Z.to_nat tq) q in
     let* q2 := if 0 <? tq then update_time q1 else Ok q1 in Ok (set_q_servers m q2)) = Ok q' ->
    exists h d new,
     q' = set_q_servers m (set_q_time (emin (hmin (q_arr q)) (hmin h))
           (set_q_dep h (set_q_is (Z.to_nat tq + q_is q)%nat
             (set_q_data d (set_q_line (skipn (Z.to_nat tq) (q_line q)) q))))) /\
    wfh h /\ Permutation (agents_of h) (new ++ agents_of (q_dep q)) /\
    map ag_id new = map ag_id (firstn (Z.to_nat tq) (q_line q)) /\
    Forall (fun a => exists n, ag_time a = c_srv (q_cfg q) n (q_now q)) new).
  { clear H. intros m tq H. mbind H. destruct (Z.ltb_spec 0 tq) as [C|C].
    - apply repeat_service_Ok in E as (_ & h & d & s & o & new & -> & W & P & MM & F & SO & _); [|exact Wd].
      destruct (SO NR) as [-> ->]. mbind H. apply update_time_Ok in E; [|exact Wa|exact W]. qch E. subst x.
      inversion H. exists h, d, new. split; [reflexivity|]. auto.
    - cbn [bind] in H. replace (Z.to_nat tq) with 0%nat in * by lia.
      cbn [repeat_service] in E. inversion E; subst x. inversion H.
      exists (q_dep q), (q_data q), []. split; [rewrite <- M; reflexivity|].
      split; [exact Wd|]. split; [reflexivity|]. split; [reflexivity|]. constructor. }
  destruct n as [z| |]; [| |discriminate].
  - destruct (Z.leb_spec z 0) as [C|C]; [discriminate|].
    destruct (q_servers q) as [s|] eqn:QS; apply GO in H as (h & d & new & R);
      exists (Fin z); do 4 eexists; (split; [reflexivity|]; split; [congruence|];
        split; [exact C|]; split; [congruence|]; split; [reflexivity | exact R]).
  - destruct (q_servers q) as [s|] eqn:QS; [|discriminate]. apply GO in H as (h & d & new & R).
    exists Inf; do 4 eexists; (split; [reflexivity|]; split; [congruence|];
        split; [exact I|]; split; [congruence|]; split; [reflexivity|]).
    replace (Z.max L 0) with L in R by (unfold L; lia). exact R.
Qed.

Lemma qinv_set_num_servers n q q' : qinv q -> set_num_servers n q = Ok q' -> qinv q'.
Proof.
  intros I H.
  assert (G : c_class (q_cfg q) <> CResource -> qs_set_num_servers n q = Ok q' -> qinv q').
  { clear H. intros NR H. assert (I' := I). apply qs_set_num_servers_Ok in H; [|exact I|exact NR].
    destruct H as (m & k & h & d & new & _ & _ & _ & _ & _ & -> & W & P & MM & _). destruct I as [Wa Wd S T M].
    assert (N := na_perm _ _ P). rewrite app_length in N.
    assert (LN : length new = Nat.min k (length (q_line q))).
    { rewrite <- (map_length ag_id), MM, map_length, firstn_length. reflexivity. }
    split; qc; auto. rewrite skipn_length. unfold na in *. lia. }
  unfold set_num_servers in H. destruct (c_class (q_cfg q)); try (apply G; [congruence | exact H]).
  - inversion H; subst; exact I.
  - assert (RI : forall m, qinv (rq_set_num_servers m q)).
    { intro m. unfold rq_set_num_servers. destruct (eltb (c_max_servers (q_cfg q)) m); destruct I; split; assumption. }
    destruct n; inversion H; subst; apply RI.
Qed.

Lemma qinv_clear q : qinv q -> qinv (clear q).
Proof.
  intro I. unfold clear. destruct (c_class (q_cfg q)); try exact I;
    (split; try reflexivity; apply wfh_init).
Qed.

(** ** All histories *)

Lemma qinv_op o q q' : qinv q -> run_op o q = Ok q' -> qinv q'.
Proof.
  intros I H. destruct o; cbn [run_op] in H.
  - mbind H. destruct x as [r q1]. inversion H; subst. eapply qinv_next; eauto.
  - eapply qinv_set_active; eauto.
  - inversion H; subst. destruct I; split; assumption.
  - eapply qinv_set_num_servers; eauto.
  - eapply qinv_delay; eauto.
  - eapply qinv_add_arrival; eauto.
  - inversion H; subst. destruct I; split; assumption.
  - inversion H; subst. apply qinv_clear; exact I.
  - inversion H; subst. destruct I; split; assumption.
Qed.
