(** * QueueEffects: what each method of a queue changes *)
From Coq Require Import List ZArith QArith Lia Bool Permutation Arith.
From Verif Require Import Base Heap HeapProofs Queue.
Import ListNotations.
Open Scope Z_scope.

Ltac qc := cbn [set_ag_id set_ag_kind set_ag_time set_ag_blocked set_ag_has set_ag_had set_ag_stats set_ag_net set_q_cfg set_q_servers set_q_departed set_q_nsys set_q_data set_q_line set_q_collect set_q_arr set_q_dep set_q_narr set_q_oarr set_q_total set_q_active set_q_now set_q_time set_q_next_ct set_q_blocked set_q_over set_q_net set_q_ia set_q_is ag_id ag_kind ag_time ag_blocked ag_has ag_had ag_stats ag_net q_cfg q_servers q_departed q_nsys q_data q_line q_collect q_arr q_dep q_narr q_oarr q_total q_active q_now q_time q_next_ct q_blocked q_over q_net q_ia q_is].
Ltac qch H := cbn [set_ag_id set_ag_kind set_ag_time set_ag_blocked set_ag_has set_ag_had set_ag_stats set_ag_net set_q_cfg set_q_servers set_q_departed set_q_nsys set_q_data set_q_line set_q_collect set_q_arr set_q_dep set_q_narr set_q_oarr set_q_total set_q_active set_q_now set_q_time set_q_next_ct set_q_blocked set_q_over set_q_net set_q_ia set_q_is ag_id ag_kind ag_time ag_blocked ag_has ag_had ag_stats ag_net q_cfg q_servers q_departed q_nsys q_data q_line q_collect q_arr q_dep q_narr q_oarr q_total q_active q_now q_time q_next_ct q_blocked q_over q_net q_ia q_is] in H.
Ltac qca := cbn [set_ag_id set_ag_kind set_ag_time set_ag_blocked set_ag_has set_ag_had set_ag_stats set_ag_net set_q_cfg set_q_servers set_q_departed set_q_nsys set_q_data set_q_line set_q_collect set_q_arr set_q_dep set_q_narr set_q_oarr set_q_total set_q_active set_q_now set_q_time set_q_next_ct set_q_blocked set_q_over set_q_net set_q_ia set_q_is ag_id ag_kind ag_time ag_blocked ag_has ag_had ag_stats ag_net q_cfg q_servers q_departed q_nsys q_data q_line q_collect q_arr q_dep q_narr q_oarr q_total q_active q_now q_time q_next_ct q_blocked q_over q_net q_ia q_is] in *.

(** ** Error monad *)

Lemma bind_Ok {A B} (r : res A) (f : A -> res B) b :
  bind r f = Ok b -> exists a, r = Ok a /\ f a = Ok b.
Proof. destruct r; simpl; [eauto | discriminate]. Qed.

Lemma of_option_Ok {A} e (o : option A) a : of_option e o = Ok a -> o = Some a.
Proof. destruct o; simpl; congruence. Qed.

(** Decomposes a hypothesis [H : (let* x := e in b) = Ok r]. *)
Ltac mbind H :=
  let x := fresh "x" in let E := fresh "E" in
  apply bind_Ok in H as (x & E & H).

(** ** Heaps of agents *)

Notation iheap := (is_heap itime Sentinel).

Definition agents_of (h : list item) : list agent :=
  flat_map (fun i => match i with Sentinel => [] | Ag a => [a] end) h.

Definition one_sentinel (h : list item) : Prop :=
  Permutation h (Sentinel :: map Ag (agents_of h)).

Definition hmin (h : list item) : ext := match h with [] => Inf | i :: _ => itime i end.

(** A heap of agents with exactly one sentinel. *)
Definition wfh (h : list item) : Prop := iheap h /\ one_sentinel h.

Lemma agents_of_perm h h' : Permutation h h' -> Permutation (agents_of h) (agents_of h').
Proof. intro P. unfold agents_of. apply Permutation_flat_map. exact P. Qed.

Lemma agents_of_Ag l : agents_of (map Ag l) = l.
Proof. induction l as [|a l IH]; simpl; [reflexivity | f_equal; exact IH]. Qed.

Lemma in_agents_of h a : In a (agents_of h) <-> In (Ag a) h.
Proof.
  unfold agents_of. rewrite in_flat_map. split.
  - intros (i & Hi & Ha). destruct i as [|b]; simpl in Ha; [tauto|].
    destruct Ha as [->|[]]. exact Hi.
  - intro H. exists (Ag a). split; [exact H | left; reflexivity].
Qed.

Lemma wfh_init : wfh [Sentinel].
Proof. split; [apply is_heap_one | apply Permutation_refl]. Qed.

Lemma wfh_length h : wfh h -> length h = S (length (agents_of h)).
Proof. intros [_ P]. apply Permutation_length in P. rewrite P. simpl. rewrite map_length. reflexivity. Qed.

Lemma wfh_nonempty h : wfh h -> exists i h', h = i :: h'.
Proof. intro W. apply wfh_length in W. destruct h; [discriminate | eauto]. Qed.

Lemma wfh_root_time h : wfh h -> root_time h = Ok (hmin h).
Proof. intro W. destruct (wfh_nonempty h W) as (i & h' & ->). reflexivity. Qed.

Lemma wfh_min h a : wfh h -> In a (agents_of h) -> eLe (hmin h) (ag_time a).
Proof.
  intros [W _] H. apply in_agents_of in H. destruct h as [|i h]; [destruct H|].
  apply (is_heap_root itime Sentinel i h (Ag a) W H).
Qed.

Lemma wfh_min_cases h : wfh h -> hmin h = Inf \/ exists a, In a (agents_of h) /\ ag_time a = hmin h.
Proof.
  intros W. destruct (wfh_nonempty h W) as (i & h' & ->). destruct i as [|a]; simpl.
  - left; reflexivity.
  - right. exists a. auto.
Qed.

Lemma push_item_spec h a : wfh h ->
  exists h', push_item h a = Ok h' /\ wfh h' /\ Permutation (agents_of h') (a :: agents_of h).
Proof.
  intros [W O]. unfold push_item.
  destruct (heappush_spec itime Sentinel h (Ag a) W) as (h' & -> & P & W').
  exists h'. split; [reflexivity|].
  assert (PA : Permutation (agents_of h') (a :: agents_of h)) by (apply (agents_of_perm _ _ P)).
  split; [split; [exact W'|]|exact PA].
  unfold one_sentinel in *. rewrite P, O at 1. rewrite PA. simpl. apply perm_swap.
Qed.

Lemma push_item_Ok h a h' : wfh h -> push_item h a = Ok h' ->
  wfh h' /\ Permutation (agents_of h') (a :: agents_of h).
Proof.
  intros W E. destruct (push_item_spec h a W) as (h2 & E2 & X).
  rewrite E in E2. inversion E2; subst. exact X.
Qed.

Lemma pop_agent_Ok h a h' : wfh h -> pop_agent h = Ok (a, h') ->
  wfh h' /\ Permutation (agents_of h) (a :: agents_of h') /\ ag_time a = hmin h /\
  exists t, h = Ag a :: t.
Proof.
  intros [W O] E. unfold pop_agent in E.
  destruct (heappop itime h) as [[[|b] h2]|] eqn:P; try discriminate.
  inversion E; subst. clear E. destruct h as [|i h]; [discriminate|].
  destruct (heappop_spec itime Sentinel i h W) as (h3 & E3 & P3 & W3).
  rewrite P in E3. inversion E3; subst. clear E3.
  assert (PA : Permutation (agents_of (Ag a :: h)) (a :: agents_of h3)).
  { simpl. constructor. apply agents_of_perm. symmetry; exact P3. }
  split; [split; [exact W3|]|split; [exact PA|split; [reflexivity | eauto]]].
  unfold one_sentinel in *. rewrite PA in O. rewrite <- P3 in O. simpl in O.
  apply Permutation_cons_inv with (Ag a). rewrite O. apply perm_swap.
Qed.

Lemma pop_agent_total h : wfh h -> hmin h <> Inf -> exists a h', pop_agent h = Ok (a, h').
Proof.
  intros W Hm. destruct (wfh_nonempty h W) as (i & t & ->).
  destruct i as [|a]; [simpl in Hm; congruence|].
  unfold pop_agent. destruct W as [W _].
  destruct (heappop_spec itime Sentinel (Ag a) t W) as (h3 & -> & _). eauto.
Qed.

(** ** Effects *)

Lemma update_time_Ok q q' : wfh (q_arr q) -> wfh (q_dep q) -> update_time q = Ok q' ->
  q' = set_q_time (emin (hmin (q_arr q)) (hmin (q_dep q))) q.
Proof.
  intros Wa Wd E. unfold update_time in E.
  rewrite (wfh_root_time _ Wa), (wfh_root_time _ Wd) in E. cbn [bind] in E.
  inversion E; reflexivity.
Qed.
Lemma update_time_total q : wfh (q_arr q) -> wfh (q_dep q) ->
  update_time q = Ok (set_q_time (emin (hmin (q_arr q)) (hmin (q_dep q))) q).
Proof.
  intros Wa Wd. unfold update_time.
  rewrite (wfh_root_time _ Wa), (wfh_root_time _ Wd). reflexivity.
Qed.

Lemma update_time_if_total q : wfh (q_arr q) -> wfh (q_dep q) ->
  update_time_if q = Ok (if eltb (hmin (q_arr q)) (hmin (q_dep q))
                         then set_q_time (hmin (q_arr q)) q else q).
Proof.
  intros Wa Wd. unfold update_time_if.
  rewrite (wfh_root_time _ Wa), (wfh_root_time _ Wd). reflexivity.
Qed.

Lemma dlast_if_Ok q i f q' : dlast_if q i f = Ok q' ->
  exists d, q' = set_q_data d q /\
    (d = q_data q /\ (q_collect q = false \/ dget (q_data q) i = None) \/
     q_collect q = true /\ dlast (q_data q) i f = Ok d).
Proof.
  unfold dlast_if. destruct (q_collect q) eqn:C.
  - destruct (dget (q_data q) i) eqn:G.
    + intro H. mbind H. inversion H; subst. eauto 6.
    + intro H; inversion H; subst. exists (q_data q'). split; [destruct q'; reflexivity | auto].
  - intro H; inversion H; subst. exists (q_data q'). split; [destruct q'; reflexivity | auto].
Qed.

(** An action changes nothing of a queue but [num_servers] and [over_max],
    and those only for a ResourceAgent at a ResourceQueue. *)
Lemma queue_action_Ok a q a' q' : queue_action a q = Ok (a', q') ->
  ag_id a' = ag_id a /\ ag_time a' = ag_time a /\ ag_kind a' = ag_kind a /\
  ag_blocked a' = ag_blocked a /\
  exists s o, q' = set_q_over o (set_q_servers s q) /\
  ((s = q_servers q /\ o = q_over q) \/
   (ag_kind a = KResource /\ c_class (q_cfg q) = CResource /\ ag_has a = false /\
    ag_has a' = true /\ s = eadd (q_servers q) (Fin (-1)) /\ eLt (Fin 0) (q_servers q) /\
    o = (if eltb (c_max_servers (q_cfg q)) s then q_over q + 1 else q_over q))).
Proof.
  assert (Triv : forall b, Ok (b, q) = Ok (a', q') -> exists s o,
    q' = set_q_over o (set_q_servers s q) /\ (s = q_servers q /\ o = q_over q)).
  { intros b H. inversion H; subst. exists (q_servers q'), (q_over q').
    destruct q'; auto. }
  unfold queue_action. destruct (ag_kind a) eqn:K.
  - intro H. destruct (Triv _ H) as (s & o & X). inversion H; subst. repeat split; auto.
    exists s, o. tauto.
  - intro H. destruct (Triv _ H) as (s & o & X). inversion H; subst. repeat split; auto.
    exists s, o. tauto.
  - unfold resource_action. destruct (c_class (q_cfg q)) eqn:C; cbn [is_resource];
      try (intro H; destruct (Triv _ H) as (s & o & X); inversion H; subst; repeat split; auto;
           exists s, o; tauto).
    destruct (ag_has a) eqn:Ha.
    + intro H. destruct (Triv _ H) as (s & o & X). inversion H; subst. qc. repeat split; auto.
      exists s, o. tauto.
    + destruct (eltb (Fin 0) (q_servers q)) eqn:S.
      * intro H. inversion H; subst. qc. repeat split; auto.
        unfold rq_set_num_servers.
        exists (eadd (q_servers q) (Fin (-1))),
          (if eltb (c_max_servers (q_cfg q)) (eadd (q_servers q) (Fin (-1))) then q_over q + 1 else q_over q).
        apply eltb_lt in S.
        split; [|right; auto 8].
        destruct (eltb (c_max_servers (q_cfg q)) (eadd (q_servers q) (Fin (-1)))); destruct q; reflexivity.
      * intro H. destruct (Triv _ H) as (s & o & X). inversion H; subst. repeat split; auto.
        exists s, o. tauto.
  - unfold info_action. destruct (is_info (c_class (q_cfg q))).
    + intro H. mbind H. mbind H. mbind H. mbind H.
      destruct (Triv _ H) as (s & o & X). inversion H; subst. qc. repeat split; auto.
      exists s, o. tauto.
    + intro H. destruct (Triv _ H) as (s & o & X). inversion H; subst. repeat split; auto.
      exists s, o. tauto.
Qed.

Lemma queue_action_not_resource a q a' q' :
  queue_action a q = Ok (a', q') -> c_class (q_cfg q) <> CResource -> q' = q.
Proof.
  intros H N. apply queue_action_Ok in H as (_ & _ & _ & _ & s & o & -> & [[-> ->]|X]).
  - destruct q; reflexivity.
  - destruct X as (_ & X & _). congruence.
Qed.

Lemma service_from_queue_Ok q q' : wfh (q_dep q) -> service_from_queue q = Ok q' ->
  exists a line a' h d s o,
    q_line q = a :: line /\
    q' = set_q_dep h (set_q_over o (set_q_servers s (set_q_is (S (q_is q))
           (set_q_data d (set_q_line line q))))) /\
    ag_id a' = ag_id a /\ ag_time a' = c_srv (q_cfg q) (q_is q) (q_now q) /\
    ag_kind a' = ag_kind a /\
    wfh h /\ Permutation (agents_of h) (a' :: agents_of (q_dep q)) /\
    (d = q_data q /\ (q_collect q = false \/ dget (q_data q) (ag_id a) = None) \/
     q_collect q = true /\ dlast (q_data q) (ag_id a) (row_set_srv (q_now q)) = Ok d) /\
    (c_class (q_cfg q) <> CResource -> s = q_servers q /\ o = q_over q).
Proof.
  intros Wd. unfold service_from_queue. destruct (q_line q) as [|a line] eqn:L; [discriminate|].
  intro H. mbind H. apply dlast_if_Ok in E as (d & -> & D). qch H. qch D.
  unfold call_srv in H. qch H.
  mbind H. destruct x as [a' q4]. mbind H.
  apply queue_action_Ok in E as (A1 & A2 & A3 & A4 & s & o & -> & SO). qch A1; qch A2; qch A3; qch A4.
  qch E0. qch H. qch SO.
  apply push_item_Ok in E0 as [W P]; [|exact Wd].
  inversion H; subst. exists a, line, a', x, d, s, o.
  split; [reflexivity|]. split; [reflexivity|]. repeat (split; [assumption|]).
  intro N. destruct SO as [SO|SO]; [exact SO|]. destruct SO as (_ & SO & _). congruence.
Qed.

(** An outside arrival is drawn. *)
Lemma add_arrival_new_Ok q q' : wfh (q_arr q) -> wfh (q_dep q) -> add_arrival_new q = Ok q' ->
  let nct := c_arr (q_cfg q) (q_ia q) (q_now q) in
  (** it is too early *)
  (eLt (q_now q) (q_next_ct q) /\
   q' = set_q_time (if eltb (hmin (q_arr q)) (hmin (q_dep q)) then hmin (q_arr q) else q_time q) q)
  \/ (** deactive_t is reached *)
  (eLe (q_next_ct q) (q_now q) /\ eLe (c_deactive_t (q_cfg q)) nct /\ c_class (q_cfg q) <> CInfo /\
   q' = set_q_active false (set_q_ia (S (q_ia q)) (set_q_next_ct nct q)))
  \/ (** a new agent is scheduled *)
  (eLe (q_next_ct q) (q_now q) /\ eLt nct (c_deactive_t (q_cfg q)) /\
   exists a h act,
     q' = set_q_time (if eltb (hmin h) (hmin (q_dep q)) then hmin h else q_time q)
            (set_q_active act (set_q_oarr (q_oarr q + 1) (set_q_arr h
              (set_q_total (q_total q + 1) (set_q_ia (S (q_ia q)) (set_q_next_ct nct q)))))) /\
     ag_id a = (c_idx (q_cfg q), q_oarr q) /\ ag_time a = nct /\ ag_kind a = c_factory (q_cfg q) /\
     ag_blocked a = 0 /\ ag_has a = false /\
     wfh h /\ Permutation (agents_of h) (a :: agents_of (q_arr q)) /\
     act = (if eleb (c_active_cap (q_cfg q)) (Fin (q_oarr q + 1)) then false else q_active q)).
Proof.
  intros Wa Wd H nct. unfold add_arrival_new in H. fold nct in H.
  destruct (eleb (q_next_ct q) (q_now q)) eqn:T.
  - right. apply eleb_le in T.
    destruct (eleb (c_deactive_t (q_cfg q)) nct) eqn:D.
    + left. apply eleb_le in D. destruct (is_info (c_class (q_cfg q))) eqn:C; [discriminate|].
      inversion H; subst. split; [exact T|]. split; [exact D|]. split; [|reflexivity].
      intro C2. rewrite C2 in C. discriminate.
    + right. apply eleb_gt in D. qch H. mbind H. mbind H. qch H.
      apply push_item_Ok in E0 as [W P]; [|exact Wa].
      set (cap := eleb (c_active_cap (q_cfg q)) (Fin (q_oarr q + 1))) in *.
      set (q4 := if cap then _ else _) in H.
      assert (A4 : q_arr q4 = x0 /\ q_dep q4 = q_dep q /\ q_time q4 = q_time q) by (unfold q4; destruct cap; auto).
      destruct A4 as (A4 & D4 & T4).
      rewrite update_time_if_total in H by (rewrite ?A4, ?D4; assumption).
      rewrite A4, D4 in H.
      split; [exact T|]. split; [exact D|].
      exists x, x0, (if cap then false else q_active q).
      split.
      { inversion H. unfold q4. destruct cap; destruct (eltb (hmin x0) (hmin (q_dep q))); destruct q; reflexivity. }
      unfold new_agent in E. qch E.
      assert (X : ag_id x = (c_idx (q_cfg q), q_oarr q) /\ ag_time x = nct /\
                  ag_kind x = c_factory (q_cfg q) /\ ag_blocked x = 0 /\ ag_has x = false).
      { clear - E. destruct (c_class (q_cfg q)), (c_factory (q_cfg q)); inversion E; qc; auto 6. }
      destruct X as (X1 & X2 & X3 & X4 & X5). repeat (split; [assumption|]). reflexivity.
  - left. apply eleb_gt in T. split; [exact T|].
    rewrite update_time_if_total in H by assumption. inversion H.
    destruct (eltb (hmin (q_arr q)) (hmin (q_dep q))); [reflexivity | destruct q; reflexivity].
Qed.

Lemma add_arrival_Ok a q q' : c_class (q_cfg q) <> CNull ->
  wfh (q_arr q) -> wfh (q_dep q) -> add_arrival a q = Ok q' ->
  exists h, q' = set_q_time (if eltb (hmin h) (hmin (q_dep q)) then hmin h else q_time q)
                   (set_q_arr h (set_q_total (q_total q + 1) q)) /\
    wfh h /\ Permutation (agents_of h) (a :: agents_of (q_arr q)).
Proof.
  intros N Wa Wd H. unfold add_arrival in H.
  destruct (c_class (q_cfg q)) eqn:C; try congruence; mbind H; qch H;
    (apply push_item_Ok in E as [W P]; [|exact Wa]);
    rewrite update_time_if_total in H by assumption; qch H; inversion H;
    (exists x; split; [|auto]);
    destruct (eltb (hmin x) (hmin (q_dep q))); destruct q; reflexivity.
Qed.

Lemma add_arrival_null a q q' : c_class (q_cfg q) = CNull -> add_arrival a q = Ok q' ->
  exists d, q' = set_q_data d q /\
    d = if q_collect q then dappend (q_data q) (ag_id a) (mkData (ag_time a) (Fin 0) (Fin 0) 0 0)
        else q_data q.
Proof.
  intros C H. unfold add_arrival in H. rewrite C in H. inversion H.
  destruct (q_collect q); eexists; (split; [|reflexivity]); [reflexivity | destruct q; reflexivity].
Qed.

Lemma delay_service_Ok t q q' : c_class (q_cfg q) <> CNull ->
  wfh (q_arr q) -> wfh (q_dep q) -> delay_service t q = Ok q' ->
  (agents_of (q_dep q) = [] /\ q' = q) \/
  exists a h h' n, let t' := match t with None => c_srv (q_cfg q) (q_is q) (ag_time a) | Some t => t end in
    pop_agent (q_dep q) = Ok (a, h) /\
    q' = set_q_time (emin (hmin (q_arr q)) (hmin h')) (set_q_dep h' (set_q_is n q)) /\
    n = (match t with None => S (q_is q) | Some _ => q_is q end) /\
    wfh h /\ wfh h' /\ Permutation (agents_of (q_dep q)) (a :: agents_of h) /\
    Permutation (agents_of h') (set_ag_time t' a :: agents_of h) /\ ag_time a = hmin (q_dep q).
Proof.
  intros N Wa Wd H. unfold delay_service in H.
  assert (H' : (if (1 <? length (q_dep q))%nat then
      match heappop itime (q_dep q) with
      | None => Err IndexError
      | Some (Sentinel, _) => Err Corrupt
      | Some (Ag a, h) =>
        let '(t', q1) := match t with
                         | None => call_srv q (ag_time a)
                         | Some t => (t, q)
                         end in
        let* h' := push_item h (set_ag_time t' a) in
        update_time (set_q_dep h' q1)
      end
    else Ok q) = Ok q') by (destruct (c_class (q_cfg q)); congruence).
  clear H. rename H' into H.
  destruct (Nat.ltb_spec 1 (length (q_dep q))) as [L|L].
  - right. destruct (heappop itime (q_dep q)) as [[[|a] h]|] eqn:P; try discriminate.
    assert (PA : pop_agent (q_dep q) = Ok (a, h)) by (unfold pop_agent; rewrite P; reflexivity).
    destruct (pop_agent_Ok _ _ _ Wd PA) as (W & PP & T & _).
    set (t' := match t with None => c_srv (q_cfg q) (q_is q) (ag_time a) | Some t => t end).
    assert (H' : (let* h' := push_item h (set_ag_time t' a) in
                  update_time (set_q_dep h' (set_q_is (match t with None => S (q_is q) | Some _ => q_is q end) q))) = Ok q').
    { unfold t'. destruct t; [|exact H]. destruct q; exact H. }
    clear H. mbind H'. apply push_item_Ok in E as [W2 P2]; [|exact W].
    apply update_time_Ok in H'; [|exact Wa|exact W2]. qch H'.
    exists a, h, x. eexists. cbv zeta. repeat split; eauto; try apply W; try apply W2.
  - left. inversion H; subst. split; [|reflexivity]. apply wfh_length in Wd.
    destruct (agents_of (q_dep q')); [reflexivity | simpl in *; lia].
Qed.
