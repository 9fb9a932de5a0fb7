(** * NetSteps: what _simulate_next_event does, case by case *)
From Coq Require Import List ZArith QArith Lia Bool Permutation Arith.
From Verif Require Import Base Heap HeapProofs PQueue Queue QueueEffects QueueEvents QueueSteps QueueInv SpecQueue Network.
Import ListNotations.
Open Scope Z_scope.

Ltac nc := cbn [nt_queues nt_out nt_probs nt_nagents nt_t nt_events nt_max nt_init nt_heap nt_bas nt_u nt_iu nt_eps nt_ie
  set_nt_queues set_nt_out set_nt_probs set_nt_nagents set_nt_t set_nt_events set_nt_max set_nt_init set_nt_heap set_nt_bas set_nt_u set_nt_iu set_nt_eps set_nt_ie put_queue bind of_option].
Ltac nch H := cbn [nt_queues nt_out nt_probs nt_nagents nt_t nt_events nt_max nt_init nt_heap nt_bas nt_u nt_iu nt_eps nt_ie
  set_nt_queues set_nt_out set_nt_probs set_nt_nagents set_nt_t set_nt_events set_nt_max set_nt_init set_nt_heap set_nt_bas set_nt_u set_nt_iu set_nt_eps set_nt_ie put_queue bind of_option] in H.

Lemma net_ext n n' : nt_queues n = nt_queues n' -> nt_out n = nt_out n' -> nt_probs n = nt_probs n' -> nt_nagents n = nt_nagents n' ->
  nt_t n = nt_t n' -> nt_events n = nt_events n' -> nt_max n = nt_max n' -> nt_init n = nt_init n' -> nt_heap n = nt_heap n' ->
  nt_bas n = nt_bas n' -> nt_u n = nt_u n' -> nt_iu n = nt_iu n' -> nt_eps n = nt_eps n' -> nt_ie n = nt_ie n' -> n = n'.
Proof. destruct n, n'. nc. intros. subst. reflexivity. Qed.
Ltac nu := apply net_ext; nc; try reflexivity.

(** ** Arrays *)

Lemma get_upd_eq {A} (l : list A) k x : (k < length l)%nat -> get (upd l k x) k = Some x.
Proof. revert k; induction l as [|y l IH]; intros [|k] H; cbn in *; try lia; [reflexivity | apply IH; lia]. Qed.
Lemma get_upd_neq {A} (l : list A) k j x : j <> k -> get (upd l k x) j = get l j.
Proof. revert k j; induction l as [|y l IH]; intros [|k] [|j] H; cbn in *; try reflexivity; try congruence. apply IH; congruence. Qed.
Lemma get_lt {A} (l : list A) k x : get l k = Some x -> (k < length l)%nat.
Proof. intro H. apply nth_error_Some. unfold get in H. congruence. Qed.
Lemma get_upd {A} (l : list A) k j x y : (k < length l)%nat -> get (upd l k x) j = Some y -> j = k /\ y = x \/ j <> k /\ get l j = Some y.
Proof.
  intros L H. destruct (Nat.eq_dec j k) as [->|N]; [left; rewrite get_upd_eq in H by exact L; inversion H; auto|].
  right. rewrite get_upd_neq in H by exact N. auto.
Qed.
Lemma upd_ge {A} (l : list A) k x : (length l <= k)%nat -> upd l k x = l.
Proof. revert k; induction l as [|y l IH]; intros [|k] H; cbn in *; try lia; [reflexivity|reflexivity|]. rewrite IH by lia. reflexivity. Qed.
Lemma get_ex {A} (l : list A) k : (k < length l)%nat -> exists x, get l k = Some x.
Proof. intro L. destruct (get l k) eqn:E; [eauto|]. apply nth_error_None in E. lia. Qed.

Lemma queue_at_Ok k n q : queue_at k n = Ok q -> get (nt_queues n) k = Some q.
Proof. unfold queue_at. destruct (get (nt_queues n) k); cbn; congruence. Qed.

Lemma set_count_Ok k z n n' : set_count k z n = Ok n' ->
  (k < length (nt_nagents n))%nat /\ n' = set_nt_nagents (upd (nt_nagents n) k z) n.
Proof.
  unfold set_count. destruct (set (nt_nagents n) k z) eqn:E; cbn [of_option bind]; [|discriminate].
  intro H. apply set_Some in E as [L ->]. inversion H; auto.
Qed.

Lemma net_push_Ok key n n' : net_push key n = Ok n' ->
  exists h, pq_push (nt_heap n) (fst key) (snd key) = Ok h /\ n' = set_nt_heap h n.
Proof. unfold net_push. intro H. mbind H. injection H as <-. eauto. Qed.

(** ** Routing *)

Lemma numbers_queued_Ok l n zs : numbers_queued l n = Ok zs ->
  Forall2 (fun e z => exists q, get (nt_queues n) e = Some q /\ z = number_queued q) l zs.
Proof.
  revert zs. induction l as [|e l IH]; intros zs H; cbn [numbers_queued] in H; [injection H as <-; constructor|].
  mbind H. mbind H. injection H as <-. constructor; [|apply IH; assumption].
  exists x. split; [apply queue_at_Ok; assumption | reflexivity].
Qed.

Lemma desired_Ok a v n e n1 : desired_destination a v n = Ok (e, n1) ->
  exists l iu, get (nt_out n) v = Some l /\ In e l /\ n1 = set_nt_iu iu n.
Proof.
  unfold desired_destination. intro H. mbind H. apply of_option_Ok in E. exists x.
  assert (G : forall k y, of_option IndexError (get x k) = Ok y -> In y x).
  { intros k y X. apply of_option_Ok in X. apply nth_error_In in X. exact X. }
  assert (ID : n = set_nt_iu (nt_iu n) n) by (destruct n; reflexivity).
  assert (GEN : (if (length x <=? 1)%nat then
      let* e := of_option IndexError (get x 0) in Ok (e, n)
    else
      let u := nt_u n (nt_iu n) in
      let n1 := set_nt_iu (S (nt_iu n)) n in
      let* pr := of_option IndexError (get (nt_probs n) v) in
      let* k := choice pr u (length x) in
      let* e := of_option IndexError (get x k) in
      Ok (e, n1)) = Ok (e, n1) -> exists iu : nat, get (nt_out n) v = Some x /\ In e x /\ n1 = set_nt_iu iu n).
  { clear H. intro H. destruct (length x <=? 1)%nat.
    - mbind H. injection H as <- <-. exists (nt_iu n). split; [exact E|]. split; [eapply G; eassumption|exact ID].
    - mbind H. mbind H. mbind H. injection H as <- <-. exists (S (nt_iu n)).
      split; [exact E|]. split; [eapply G; eassumption|reflexivity]. }
  destruct (ag_kind a); try (apply GEN; exact H).
  mbind H. mbind H. mbind H. injection H as <- <-. exists (nt_iu n). split; [exact E|]. split; [eapply G; eassumption|exact ID].
Qed.

(** ** The result of an event *)

(** The network with new queues, counts, clock, heap and numbers of random
    draws, one more event counted. *)
Definition after (n : net) (qs : list queue) (ag : list Z) (t : ext) (h : pq) (iu ie : nat) : net :=
  mkNet qs (nt_out n) (nt_probs n) ag t (nt_events n + 1) (nt_max n) (nt_init n) h (nt_bas n) (nt_u n) iu (nt_eps n) ie.

(** [q] is made inactive if it is active and the network is full. *)
Definition stopped (max : ext) (ag : list Z) (q : queue) : queue :=
  if q_active q && match max with Inf => false | Fin m => m - 1 <? zsum ag end then set_q_active false q else q.

(** How the heap gets the new keys. *)
Inductive pushes (h : pq) : list (ext * nat) -> pq -> Prop :=
| pushes_nil : pushes h [] h
| pushes_cons t k h1 l h' : pq_push h t k = Ok h1 -> pushes h1 l h' -> pushes h ((t, k) :: l) h'.

Definition key_list (k e2 : nat) (q1 q2 : queue) (old : ext) : list (ext * nat) :=
  if negb (eeqb (q_time q2) old) then
    qkey q2 :: (if eltb (q_time q1) Inf && negb (eeqb (q_time q1) (q_time q2) && Nat.eqb (c_idx (q_cfg q1)) (c_idx (q_cfg q2))) then [qkey q1] else [])
  else if eltb (q_time q1) Inf then [qkey q1] else [].

Inductive nst (n n' : net) : Prop :=
| nst_empty : pq_size (nt_heap n) = 0%nat -> n' = set_nt_t Inf n -> nst n n'
| nst_idle t k h q : (0 < pq_size (nt_heap n))%nat -> pq_pop (nt_heap n) = Ok (Some (t, k), h) ->
    get (nt_queues n) k = Some q -> next_event_description q = Ok 0 ->
    n' = after n (nt_queues n) (nt_nagents n) t h (nt_iu n) (nt_ie n) -> nst n n'
| nst_arr t k h q r q' h' : (0 < pq_size (nt_heap n))%nat -> pq_pop (nt_heap n) = Ok (Some (t, k), h) ->
    get (nt_queues n) k = Some q -> next_event_description q = Ok 1 ->
    next_event (stopped (nt_max n) (nt_nagents n) q) = Ok (r, q') ->
    pushes h (if eltb (q_time q') Inf then [qkey q'] else []) h' ->
    (c_idx (q_cfg q) < length (nt_nagents n))%nat ->
    n' = after n (upd (nt_queues n) k q') (upd (nt_nagents n) (c_idx (q_cfg q)) (q_total q')) t h' (nt_iu n) (nt_ie n) -> nst n n'
| nst_block t k h q a h0 l e2 q2 qm q' d h' iu ie td :
    (0 < pq_size (nt_heap n))%nat -> pq_pop (nt_heap n) = Ok (Some (t, k), h) ->
    get (nt_queues n) k = Some q -> next_event_description q = Ok 2 -> q_dep q = Ag a :: h0 ->
    get (nt_out n) (c_tgt (q_cfg q)) = Some l -> In e2 l ->
    ((exists n1, desired_destination a (c_tgt (q_cfg q)) (set_nt_events (nt_events n + 1) (set_nt_t t (set_nt_heap h n))) = Ok (e2, n1) /\ nt_iu n1 = iu) /\ ie = if nt_bas n then S (nt_ie n) else nt_ie n) ->
    get (nt_queues n) e2 = Some q2 -> e2 <> c_idx (q_cfg q) ->
    at_capacity q2 = true -> mark_blocked q = Ok qm -> root_time (q_dep q2) = Ok td ->
    d = (if nt_bas n then Some (eadd td (Fin (nt_eps n (nt_ie n)))) else None) ->
    delay_service d qm = Ok q' -> e2 <> k ->
    pushes h (key_list k e2 q' q2 (q_time q2)) h' ->
    n' = after n (upd (upd (nt_queues n) e2 (set_q_blocked (q_blocked q2 + 1) q2)) k q') (nt_nagents n) t h' iu ie -> nst n n'
| nst_move t k h q a h0 l e2 q2old b q' q2 q2a r q2' h' iu :
    (0 < pq_size (nt_heap n))%nat -> pq_pop (nt_heap n) = Ok (Some (t, k), h) ->
    get (nt_queues n) k = Some q -> next_event_description q = Ok 2 -> q_dep q = Ag a :: h0 ->
    get (nt_out n) (c_tgt (q_cfg q)) = Some l -> In e2 l ->
    (exists n1, desired_destination a (c_tgt (q_cfg q)) (set_nt_events (nt_events n + 1) (set_nt_t t (set_nt_heap h n))) = Ok (e2, n1) /\ nt_iu n1 = iu) ->
    get (nt_queues n) e2 = Some q2old ->
    (at_capacity q2old = false \/ e2 = k) ->
    next_event q = Ok (Some b, q') ->
    get (upd (nt_queues n) k q') e2 = Some q2 ->
    add_arrival (set_ag_time t b) q2 = Ok q2a ->
    next_event (stopped (nt_max n) (upd (upd (nt_nagents n) k (q_total q')) e2 (q_total q2a)) q2a) = Ok (r, q2') ->
    pushes h (key_list k e2 (if Nat.eqb e2 k then q2' else q') q2' (q_time q2old)) h' ->
    (k < length (nt_nagents n))%nat -> (e2 < length (nt_nagents n))%nat ->
    n' = after n (upd (upd (nt_queues n) k q') e2 q2')
          (upd (upd (nt_nagents n) k (q_total q')) e2 (q_total q2')) t h' iu (nt_ie n) -> nst n n'.

Lemma reschedule_Ok k e2 old n n' : reschedule k e2 old n = Ok n' ->
  exists q1 q2 h', get (nt_queues n) k = Some q1 /\ get (nt_queues n) e2 = Some q2 /\
    pushes (nt_heap n) (key_list k e2 q1 q2 old) h' /\ n' = set_nt_heap h' n.
Proof.
  unfold reschedule. intro H. mbind H. mbind H. apply queue_at_Ok in E, E0. exists x, x0. unfold key_list, qkey in *. cbn [fst snd] in H.
  destruct (negb (eeqb (q_time x0) old)).
  - mbind H. apply net_push_Ok in E1 as (h & P & ->). cbn [fst snd] in P.
    destruct (eltb (q_time x) Inf && negb (eeqb (q_time x) (q_time x0) && (c_idx (q_cfg x) =? c_idx (q_cfg x0))%nat)).
    + apply net_push_Ok in H as (h2 & P2 & ->). nch P2. cbn [fst snd] in P2. exists h2. split; [exact E|]. split; [exact E0|].
      split; [|reflexivity]. econstructor; [exact P|]. econstructor; [exact P2|constructor].
    + injection H as <-. exists h. split; [exact E|]. split; [exact E0|]. split; [|reflexivity]. econstructor; [exact P|constructor].
  - destruct (eltb (q_time x) Inf).
    + apply net_push_Ok in H as (h2 & P2 & ->). cbn [fst snd] in P2. exists h2. split; [exact E|]. split; [exact E0|].
      split; [|reflexivity]. econstructor; [exact P2|constructor].
    + injection H as <-. exists (nt_heap n). split; [exact E|]. split; [exact E0|]. split; [constructor|]. destruct n; reflexivity.
Qed.

Lemma block_Ok k e2 n n' : e2 <> k -> block_agent k e2 n = Ok n' ->
  exists q1 q2 qm q1' td ie, ie = (if nt_bas n then S (nt_ie n) else nt_ie n) /\ get (nt_queues n) k = Some q1 /\ get (nt_queues n) e2 = Some q2 /\
    mark_blocked q1 = Ok qm /\ (nt_bas n = true -> root_time (q_dep q2) = Ok td) /\
    delay_service (if nt_bas n then Some (eadd td (Fin (nt_eps n (nt_ie n)))) else None) qm = Ok q1' /\
    n' = set_nt_ie ie (set_nt_queues (upd (upd (nt_queues n) e2 (set_q_blocked (q_blocked q2 + 1) q2)) k q1') n).
Proof.
  intros NE H. unfold block_agent in H. mbind H. rename x into q2. apply queue_at_Ok in E.
  mbind H. rename x into q1. apply queue_at_Ok in E0. nch E0. rewrite get_upd_neq in E0 by congruence.
  mbind H. rename x into qm. nch H.
  assert (L1 := get_lt _ _ _ E0). assert (L2 := get_lt _ _ _ E).
  set (qs1 := upd (upd (nt_queues n) e2 (set_q_blocked (q_blocked q2 + 1) q2)) k qm) in *.
  assert (GK : get qs1 k = Some qm) by (apply get_upd_eq; rewrite upd_length; exact L1).
  assert (GE : get qs1 e2 = Some (set_q_blocked (q_blocked q2 + 1) q2)).
  { unfold qs1. rewrite get_upd_neq by congruence. apply get_upd_eq; exact L2. }
  destruct (nt_bas n) eqn:B.
  - unfold queue_at in H. nch H. fold qs1 in H. rewrite GE in H. cbn [of_option bind] in H. mbind H. rename x into td.
    nch H. fold qs1 in H. rewrite GK in H. cbn [of_option bind] in H. mbind H. injection H as <-.
    exists q1, q2, qm, x, td, (S (nt_ie n)). split; [reflexivity|]. split; [exact E0|]. split; [exact E|]. split; [exact E1|].
    split; [intros _; exact E2|]. split; [exact E3|]. nu. unfold qs1. rewrite upd_upd. reflexivity.
  - unfold queue_at in H. nch H. fold qs1 in H. rewrite GK in H. cbn [of_option bind] in H. mbind H. injection H as <-.
    exists q1, q2, qm, x, Inf, (nt_ie n). split; [reflexivity|]. split; [exact E0|]. split; [exact E|]. split; [exact E1|].
    split; [discriminate|]. split; [exact E2|]. nu. unfold qs1. rewrite upd_upd. destruct n; reflexivity.
Qed.

Lemma move_Ok k e2 t n n' q : get (nt_queues n) k = Some q -> move_agent k k e2 t n = Ok n' ->
  exists b q' q2 q2a r q2', next_event q = Ok (Some b, q') /\ get (upd (nt_queues n) k q') e2 = Some q2 /\
    add_arrival (set_ag_time t b) q2 = Ok q2a /\
    next_event (stopped (nt_max n) (upd (upd (nt_nagents n) k (q_total q')) e2 (q_total q2a)) q2a) = Ok (r, q2') /\
    (k < length (nt_nagents n))%nat /\ (e2 < length (nt_nagents n))%nat /\
    n' = set_nt_nagents (upd (upd (nt_nagents n) k (q_total q')) e2 (q_total q2'))
          (set_nt_queues (upd (upd (nt_queues n) k q') e2 q2') n).
Proof.
  intros G H. unfold move_agent in H. unfold queue_at at 1 in H. rewrite G in H. cbn [of_option bind] in H.
  mbind H. destruct x as [[b|] q']; [|discriminate]. mbind H. rename x into q2. apply queue_at_Ok in E0. nch E0.
  mbind H. rename x into q2a. assert (L1 := get_lt _ _ _ G). assert (L2 := get_lt _ _ _ E0). rewrite upd_length in L2.
  mbind H. rename x into q1b. apply queue_at_Ok in E2. nch E2.
  mbind H. apply set_count_Ok in E3 as [LA ->]. nch H. nch LA. mbind H. apply set_count_Ok in E3 as [LB ->]. nch LB. nch H.
  rewrite upd_length in LB. unfold queue_at in H. nch H. rewrite get_upd_eq in H by (rewrite !upd_length; exact L2). cbn [of_option bind] in H.
  mbind H. destruct x as [r q2']. apply set_count_Ok in H as [_ ->].
  exists b, q', q2, q2a, r, q2'. split; [exact E|]. split; [exact E0|]. split; [exact E1|].
  assert (EQ : upd (upd (nt_nagents n) k (q_total q1b)) e2 (q_total q2a) = upd (upd (nt_nagents n) k (q_total q')) e2 (q_total q2a)).
  { destruct (Nat.eq_dec e2 k) as [->|NE]; [rewrite !upd_upd; reflexivity|].
    rewrite get_upd_neq, get_upd_eq in E2 by (try congruence; exact L1). inversion E2; reflexivity. }
  assert (EQ2 : upd (upd (nt_nagents n) k (q_total q1b)) e2 (q_total q2') = upd (upd (nt_nagents n) k (q_total q')) e2 (q_total q2')).
  { destruct (Nat.eq_dec e2 k) as [->|NE]; [rewrite !upd_upd; reflexivity|].
    rewrite get_upd_neq, get_upd_eq in E2 by (try congruence; exact L1). inversion E2; reflexivity. }
  split; [|split; [exact LA|split; [exact LB|]]].
  - unfold stop_if_full, full in E3. nch E3. rewrite EQ in E3. exact E3.
  - nu; rewrite !upd_upd; [reflexivity|exact EQ2].
Qed.

Lemma description_cases q d : next_event_description q = Ok d -> d = 0 \/ d = 1 \/ d = 2.
Proof.
  unfold next_event_description. intro H. destruct (c_class (q_cfg q)); try (injection H as <-; auto; fail);
    mbind H; mbind H; injection H as <-; destruct (eltb x0 x); auto; destruct (eltb x Inf); auto.
Qed.

(** In a network whose queues know their own index. *)
Lemma simulate_event_Ok n n' :
  (forall k q, get (nt_queues n) k = Some q -> c_idx (q_cfg q) = k /\ q_dep q <> []) ->
  simulate_event n = Ok n' -> nst n n'.
Proof.
  intros IDX H. unfold simulate_event in H.
  destruct (pq_size (nt_heap n) =? 0)%nat eqn:SZ.
  - apply Nat.eqb_eq in SZ. injection H as <-. apply nst_empty; auto.
  - apply Nat.eqb_neq in SZ. mbind H. destruct x as [[[t k]|] h]; [|discriminate].
    mbind H. rename x into q. apply queue_at_Ok in E0. nch E0.
    destruct (IDX _ _ E0) as [IK _]. assert (LK := get_lt _ _ _ E0).
    mbind H. rename x into d. nch H. assert (SP : (0 < pq_size (nt_heap n))%nat) by lia.
    destruct (description_cases _ _ E1) as [->|[->| ->]]; cbn [Z.eqb Pos.eqb] in H.
    + injection H as <-. eapply nst_idle; eauto.
    + unfold net_arrival in H. unfold queue_at in H. nch H. rewrite E0 in H. cbn [of_option bind] in H.
      mbind H. destruct x as [r q']. mbind H. apply set_count_Ok in E3 as [LC ->]. nch LC.
      eapply nst_arr with (h' := nt_heap n'); [exact SP|exact E|exact E0|exact E1|exact E2| |exact LC|].
      * destruct (eltb (q_time q') Inf).
        -- apply net_push_Ok in H as (h2 & P2 & ->). nch P2. unfold qkey in *. cbn [fst snd] in P2. nc.
           econstructor; [exact P2|constructor].
        -- injection H as <-. nc. constructor.
      * destruct (eltb (q_time q') Inf).
        -- apply net_push_Ok in H as (h2 & P2 & ->). reflexivity.
        -- injection H as <-. reflexivity.
    + unfold net_departure in H. unfold queue_at at 1 in H. nch H. rewrite E0 in H. cbn [of_option bind] in H.
      mbind H. rename x into a. unfold first_departure in E2. destruct (q_dep q) as [|i h0] eqn:D; [discriminate|].
      destruct i as [|a0]; [discriminate|]. injection E2 as ->.
      mbind H. destruct x as [e2 n1]. assert (E3 := E2).
      apply desired_Ok in E2 as (l & iu & OUT & IN & ->). nch OUT. nch E3.
      mbind H. rename x into q2. apply queue_at_Ok in E2. nch E2. mbind H. rename x into n2.
      destruct (at_capacity q2 && negb (e2 =? c_idx (q_cfg q))%nat) eqn:CAP.
      * apply andb_true_iff in CAP as [CA NE]. apply negb_true_iff, Nat.eqb_neq in NE.
        assert (NK : e2 <> k) by congruence. apply block_Ok in E4; [|exact NK].
        destruct E4 as (q1 & q2b & qm & q1' & td & ie & IE & G1 & G2 & MB & RT & DS & ->). nch IE. nch G1. nch G2. nch RT. nch DS.
        rewrite E0 in G1. injection G1 as <-. rewrite E2 in G2. injection G2 as <-.
        apply reschedule_Ok in H as (qa & qb & h' & GA & GB & PU & ->). nch GA. nch GB. nch PU.
        assert (L2 := get_lt _ _ _ E2).
        rewrite get_upd_eq in GA by (rewrite upd_length; exact LK). injection GA as <-.
        rewrite get_upd_neq, get_upd_eq in GB by (try congruence; exact L2). injection GB as <-.
        assert (exists td', root_time (q_dep q2) = Ok td' /\ (nt_bas n = true -> td' = td)) as (td' & RT' & TD).
        { destruct (IDX _ _ E2) as [_ ND]. unfold root_time in *. destruct (q_dep q2) as [|i2 h2]; [congruence|].
          exists (itime i2). split; [reflexivity|]. intro B. specialize (RT B). congruence. }
        refine (nst_block n _ t k h q a h0 l e2 q2 qm q1' _ h' iu ie td' SP E E0 E1 D OUT IN (conj (ex_intro _ _ (conj E3 eq_refl)) IE) E2 NE CA MB RT' _ DS NK PU _).
        -- destruct (nt_bas n); [rewrite TD by reflexivity; reflexivity|reflexivity].
        -- reflexivity.
      * rewrite IK in E4. apply move_Ok with (q := q) in E4; [|exact E0].
        destruct E4 as (b & q' & q2b & q2a & r & q2' & NX & G2 & AD & NX2 & LA & LB & ->). nch G2. nch NX2. nch LA. nch LB.
        apply reschedule_Ok in H as (qa & qb & h' & GA & GB & PU & ->). nch GA. nch GB. nch PU.
        assert (L2 := get_lt _ _ _ G2). rewrite upd_length in L2.
        rewrite get_upd_eq in GB by (rewrite upd_length; exact L2). injection GB as <-.
        assert (QA : qa = if Nat.eqb e2 k then q2' else q').
        { destruct (Nat.eqb e2 k) eqn:EK.
          - apply Nat.eqb_eq in EK. subst e2. rewrite get_upd_eq in GA by (rewrite upd_length; exact L2). congruence.
          - apply Nat.eqb_neq in EK. rewrite get_upd_neq, get_upd_eq in GA by (try congruence; exact LK). congruence. }
        subst qa.
        refine (nst_move n _ t k h q a h0 l e2 q2 b q' q2b q2a r q2' h' iu SP E E0 E1 D OUT IN (ex_intro _ _ (conj E3 eq_refl)) E2 _ NX G2 AD NX2 PU LA LB _).
        -- apply andb_false_iff in CAP as [C|C]; [left; exact C|]. right. apply negb_false_iff, Nat.eqb_eq in C. congruence.
        -- reflexivity.
Qed.
