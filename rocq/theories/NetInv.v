(** * NetInv: the invariant of a running network *)
From Coq Require Import List ZArith QArith Lia Bool Permutation Arith.
From Verif Require Import Base Heap HeapProofs PQueue PQueueProofs SpecPQ PQHist Queue QueueEffects QueueEvents QueueSteps QueueInv SpecQueue QueueFlow QueueHist QueueClaims1 Network NetQueue NetSteps.
Import ListNotations.
Open Scope Z_scope.

(** Queue [k] at network time [T]: nothing pending is in the past. *)
Record qok (T : ext) (k : nat) (q : queue) : Prop := mkQok {
  qk_inv : qinv q;
  qk_idx : c_idx (q_cfg q) = k;
  qk_fwd : forward (q_cfg q);
  qk_now : eLe (q_now q) T;
  qk_pend : forall x, In x (pend q) -> eLe T x;
  qk_null : c_class (q_cfg q) = CNull -> agents_of (q_arr q) = [] /\ agents_of (q_dep q) = [] /\ q_line q = [] /\ q_now q = Fin 0
}.

(** The scheduler holds the next event of every queue in [P]; every other
    entry is for the present, never, or a pending event. *)
Record hab (T : ext) (qs : list queue) (B : list (ext * nat)) (cur : nat -> ext) (P : nat -> Prop) : Prop := mkHab {
  ha_a : forall k q, P k -> get qs k = Some q -> q_time q <> Inf -> In (q_time q, k) B /\ cur k = q_time q;
  ha_b : forall t k, In (t, k) B -> (k < length qs)%nat /\ eLe T t /\
           (t = T \/ t = Inf \/ exists q, get qs k = Some q /\ In t (pend q))
}.

Definition all (k : nat) : Prop := True.

Record ninv (n : net) : Prop := mkNinv {
  ni_len : length (nt_nagents n) = length (nt_queues n);
  ni_q : forall k q, get (nt_queues n) k = Some q -> qok (nt_t n) k q;
  ni_heap : (pq_size (nt_heap n) = 0%nat /\ forall k q, get (nt_queues n) k = Some q -> q_time q = Inf) \/
            (pq_wf (length (nt_queues n)) (nt_heap n) /\
             hab (nt_t n) (nt_queues n) (pq_entries (nt_heap n)) (qmap (nt_heap n)) all);
  ni_count : forall k q, get (nt_queues n) k = Some q -> get (nt_nagents n) k = Some (q_total q);
  ni_eps : forall i, 0 <= nt_eps n i
}.

(** ** One queue *)

Lemma qok_time T k q : qok T k q -> eLe T (q_time q).
Proof.
  intro K. destruct (q_time q) eqn:E; [|apply eLe_Inf]. rewrite <- E. apply (qk_pend _ _ _ K). apply pend_in; [apply K|congruence].
Qed.

Lemma qok_later T s k q : qok T k q -> eLe T s -> eLe s (q_time q) -> qok s k q.
Proof.
  intros K LE LT. destruct K. split; try assumption.
  - eapply eLe_trans; eassumption.
  - intros x X. eapply eLe_trans; [exact LT|]. apply pend_min; assumption.
Qed.

Lemma qok_same T k q q' : qok T k q -> q_cfg q' = q_cfg q -> q_arr q' = q_arr q -> q_dep q' = q_dep q -> q_line q' = q_line q ->
  q_now q' = q_now q -> q_time q' = q_time q -> q_nsys q' = q_nsys q -> q_total q' = q_total q -> qok T k q'.
Proof.
  intros K E1 E2 E3 E4 E5 E6 E7 E8. destruct K as [I A B C D E]. split.
  - destruct I. split; congruence.
  - congruence.
  - congruence.
  - congruence.
  - rewrite (pend_same _ _ E2 E3). exact D.
  - rewrite E1, E2, E3, E4, E5. exact E.
Qed.

Lemma stopped_same max ag q : q_cfg (stopped max ag q) = q_cfg q /\ q_arr (stopped max ag q) = q_arr q /\
  q_dep (stopped max ag q) = q_dep q /\ q_line (stopped max ag q) = q_line q /\ q_now (stopped max ag q) = q_now q /\
  q_time (stopped max ag q) = q_time q /\ q_nsys (stopped max ag q) = q_nsys q /\ q_total (stopped max ag q) = q_total q /\
  q_oarr (stopped max ag q) = q_oarr q /\ q_blocked (stopped max ag q) = q_blocked q.
Proof. unfold stopped. destruct (q_active q && _); auto 12. Qed.

Lemma qok_stopped T k max ag q : qok T k q -> qok T k (stopped max ag q).
Proof. intro K. destruct (stopped_same max ag q) as (A & B & C & D & E & F & G & H & _). eapply qok_same; eauto. Qed.
Lemma pend_stopped max ag q : pend (stopped max ag q) = pend q.
Proof. destruct (stopped_same max ag q) as (A & B & C & _). apply pend_same; assumption. Qed.
Lemma time_stopped max ag q : q_time (stopped max ag q) = q_time q.
Proof. apply stopped_same. Qed.
Lemma cfg_stopped max ag q : q_cfg (stopped max ag q) = q_cfg q.
Proof. apply stopped_same. Qed.

Lemma next_cfg q r q' : qinv q -> next_event q = Ok (r, q') -> q_cfg q' = q_cfg q.
Proof.
  intros I H. destruct (c_class (q_cfg q)) eqn:C.
  3:{ unfold next_event in H. rewrite C in H. injection H as _ <-. reflexivity. }
  all: assert (S := step_flow ONext q r q' I); cbn [step] in S; destruct S as [S _]; [congruence|exact Logic.I|exact H|];
    destruct (fo_flow _ S) as (new & st & F & _); apply (fl_cfg _ _ _ _ _ _ _ _ F).
Qed.

Lemma null_idle T k q : qok T k q -> c_class (q_cfg q) = CNull -> q_time q = Inf /\ pend q = [].
Proof.
  intros K C. destruct (qk_null _ _ _ K C) as (A & D & _ & _).
  assert (P : pend q = []) by (unfold pend; rewrite A, D; reflexivity). split; [|exact P]. apply pend_time; [apply K|exact P].
Qed.

(** An event at the present time. *)
Lemma qok_next s k q r q' : qok s k q -> q_time q = s -> s <> Inf -> next_event q = Ok (r, q') ->
  qok s k q' /\ (exists rest new, Permutation (pend q) (s :: rest) /\ Permutation (pend q') (new ++ rest) /\ forall x, In x new -> eLe s x).
Proof.
  intros K TS NI H. assert (CF := next_cfg _ _ _ (qk_inv _ _ _ K) H).
  assert (IV := qinv_next _ _ _ (qk_inv _ _ _ K) H).
  apply next_pend in H; [|apply K|apply K].
  destruct H as [([C|C] & _)|(NN & FT & rest & new & P1 & P2 & NW & NOW)].
  - destruct (null_idle _ _ _ K C) as [X _]. congruence.
  - congruence.
  - rewrite TS in *. split; [|eauto]. destruct K as [I1 I2 I3 I4 I5 I6]. split.
    + exact IV.
    + congruence.
    + congruence.
    + rewrite NOW. apply eLe_refl.
    + intros x X. apply (Permutation_in x P2) in X. apply in_app_or in X as [X|X]; [apply NW; exact X|].
      apply I5. apply (Permutation_in x (Permutation_sym P1)). right; exact X.
    + congruence.
Qed.

(** An agent comes in from another queue and is let in at once. *)
Lemma qok_enter s k max ag q a q1 r q2 : qok s k q -> s <> Inf -> ag_time a = s ->
  add_arrival a q = Ok q1 -> next_event (stopped max ag q1) = Ok (r, q2) ->
  qok s k q2 /\ (exists new, Permutation (pend q2) (new ++ pend q) /\ forall x, In x new -> eLe s x) /\ q_cfg q2 = q_cfg q.
Proof.
  intros K NI TA AD NX. destruct (c_class (q_cfg q)) eqn:C.
  3:{ destruct (null_idle _ _ _ K C) as [T P].
      apply add_arrival_null in AD as (d & -> & _); [|exact C].
      assert (K2 : qok s k (stopped max ag (set_q_data d q))).
      { apply qok_stopped. eapply qok_same; [exact K|reflexivity..]. }
      assert (q2 = stopped max ag (set_q_data d q)).
      { unfold next_event in NX. rewrite cfg_stopped in NX. cbn [q_cfg set_q_data] in NX. rewrite C in NX. injection NX as _ <-. reflexivity. }
      subst q2. split; [exact K2|]. split; [|rewrite cfg_stopped; reflexivity]. exists []. rewrite pend_stopped. split; [reflexivity|intros x []]. }
  all: assert (N : c_class (q_cfg q) <> CNull) by congruence; assert (I1 := qk_inv _ _ _ K);
    destruct (add_pend _ _ _ I1 N AD) as (P1 & NOW & _ & _ & _);
    assert (IV := qinv_add_arrival _ _ _ I1 AD);
    assert (CF : q_cfg q1 = q_cfg q) by (apply add_arrival_Ok in AD as (h & -> & _); [reflexivity|exact N|apply I1|apply I1]);
    assert (K1 : qok s k q1) by (destruct K as [A1 A2 A3 A4 A5 A6]; split;
      [exact IV|congruence|congruence|congruence|intros x X; apply (Permutation_in x P1) in X; destruct X as [<-|X]; [rewrite TA; apply eLe_refl|apply A5; exact X]
      |congruence]);
    assert (TS : q_time q1 = s) by (apply eLe_antisym; [apply pend_min; [exact IV|]; apply (Permutation_in _ (Permutation_sym P1)); left; exact TA|apply (qok_time _ _ _ K1)]);
    destruct (qok_next s k _ _ _ (qok_stopped _ _ max ag _ K1) (eq_trans (time_stopped max ag q1) TS) NI NX) as [K2 (rest & new & Q1 & Q2 & Q3)];
    (split; [exact K2|]); (split; [|apply next_cfg in NX; [rewrite NX, cfg_stopped; exact CF|apply (qok_stopped _ _ _ _ _ K1)]]);
    exists new; rewrite pend_stopped, P1, TA in Q1; apply Permutation_cons_inv in Q1; (split; [rewrite Q2, Q1; reflexivity|exact Q3]).
Qed.

Lemma description_2 q : qinv q -> next_event_description q = Ok 2 ->
  c_class (q_cfg q) <> CNull /\ eLt (hmin (q_dep q)) (hmin (q_arr q)) /\ q_time q = hmin (q_dep q) /\ q_time q <> Inf.
Proof.
  intros I H. unfold next_event_description in H. rewrite (wfh_root_time _ (qi_arr _ I)), (wfh_root_time _ (qi_dep _ I)) in H. cbn [bind] in H.
  assert (N : c_class (q_cfg q) <> CNull) by (intro C; rewrite C in H; discriminate).
  assert (L : eltb (hmin (q_dep q)) (hmin (q_arr q)) = true).
  { destruct (eltb (hmin (q_dep q)) (hmin (q_arr q))) eqn:E; [reflexivity|].
    destruct (eltb (hmin (q_arr q)) Inf); destruct (c_class (q_cfg q)); discriminate. }
  apply eltb_lt in L. split; [exact N|]. split; [exact L|].
  assert (T : q_time q = hmin (q_dep q)).
  { rewrite (qi_time _ I). unfold emin. destruct (eltb (hmin (q_arr q)) (hmin (q_dep q))) eqn:C; [|reflexivity].
    apply eltb_lt in C. exfalso. apply (eLt_irrefl (hmin (q_arr q))). eapply eLt_le_trans; [exact C|]. apply eLt_le; exact L. }
  split; [exact T|]. rewrite T. intro X. rewrite X in L. destruct (hmin (q_arr q)); exact L.
Qed.

Lemma description_1 q : qinv q -> next_event_description q = Ok 1 ->
  c_class (q_cfg q) <> CNull /\ eLe (hmin (q_arr q)) (hmin (q_dep q)) /\ q_time q = hmin (q_arr q) /\ q_time q <> Inf.
Proof.
  intros I H. unfold next_event_description in H. rewrite (wfh_root_time _ (qi_arr _ I)), (wfh_root_time _ (qi_dep _ I)) in H. cbn [bind] in H.
  assert (N : c_class (q_cfg q) <> CNull) by (intro C; rewrite C in H; discriminate). split; [exact N|].
  destruct (eltb (hmin (q_dep q)) (hmin (q_arr q))) eqn:E; [destruct (c_class (q_cfg q)); congruence|].
  apply eltb_ge in E. split; [exact E|].
  assert (T : q_time q = hmin (q_arr q)).
  { rewrite (qi_time _ I). unfold emin. destruct (eltb (hmin (q_arr q)) (hmin (q_dep q))) eqn:C; [reflexivity|].
    apply eltb_ge in C. apply eLe_antisym; assumption. }
  split; [exact T|]. rewrite T. intro X. rewrite X in H. cbn in H. destruct (c_class (q_cfg q)); congruence.
Qed.

Lemma description_0 T k q : qok T k q -> next_event_description q = Ok 0 -> q_time q = Inf.
Proof.
  intros K H. assert (I := qk_inv _ _ _ K). destruct (c_class (q_cfg q)) eqn:C.
  3:{ apply (null_idle _ _ _ K C). }
  all: unfold next_event_description in H; rewrite C, (wfh_root_time _ (qi_arr _ I)), (wfh_root_time _ (qi_dep _ I)) in H; cbn [bind] in H;
    rewrite (qi_time _ I); unfold emin;
    destruct (eltb (hmin (q_dep q)) (hmin (q_arr q))) eqn:E; try discriminate;
    destruct (hmin (q_arr q)) eqn:A; try discriminate; apply eltb_ge in E; destruct (hmin (q_dep q)); try destruct E; reflexivity.
Qed.

Lemma qok_mark T k q qm : qok T k q -> mark_blocked q = Ok qm -> qok T k qm /\ pend qm = pend q /\
  q_time qm = q_time q /\ q_cfg qm = q_cfg q /\ hmin (q_dep qm) = hmin (q_dep q) /\ q_arr qm = q_arr q /\ q_total qm = q_total q /\
  ids (in_service qm) = ids (in_service q) /\ q_line qm = q_line q /\ q_now qm = q_now q /\ q_oarr qm = q_oarr q /\ q_nsys qm = q_nsys q.
Proof.
  intros K M. assert (I := qk_inv _ _ _ K).
  apply mark_facts in M as (a & h & b & D & B & -> & W & HM & A1 & A2); [|apply I].
  assert (P : pend (set_q_dep (Ag b :: h) q) = pend q).
  { unfold pend. qc. qch A2. rewrite A1, A2. subst b. reflexivity. }
  assert (L : na (Ag b :: h) = na (q_dep q)) by (unfold na; qch A2; rewrite A1, A2; reflexivity).
  split.
  - destruct K as [I1 I2 I3 I4 I5 I6]. split; try assumption.
    + destruct I. qch HM. split; qc; try assumption.
      * rewrite L. assumption.
      * rewrite HM. assumption.
    + rewrite P. exact I5.
    + qc. intro C. destruct (I6 C) as (_ & X & _). rewrite A1 in X. discriminate.
  - split; [exact P|]. qc. qch HM. repeat split; auto.
    unfold in_service, ids. change agents_in with agents_of. qc. qch A2. rewrite A1, A2. subst b. reflexivity.
Qed.

Lemma qok_delay s k q d q' : qok s k q -> q_time q = s -> next_event_description q = Ok 2 ->
  delay_service d q = Ok q' -> (forall t, d = Some t -> eLe s t) ->
  qok s k q' /\ (exists rest t', Permutation (pend q) (s :: rest) /\ Permutation (pend q') (t' :: rest) /\ eLe s t' /\
     (forall t, d = Some t -> t' = t) /\ (d = None -> exists i, t' = c_srv (q_cfg q) i s)) /\
  q_cfg q' = q_cfg q /\ q_total q' = q_total q /\ q_oarr q' = q_oarr q.
Proof.
  intros K TS DS DL TD. assert (I := qk_inv _ _ _ K). destruct (description_2 _ I DS) as (N & LT & TM & NI).
  assert (IV := qinv_delay _ _ _ I DL).
  assert (CF : q_cfg q' = q_cfg q /\ q_oarr q' = q_oarr q).
  { apply delay_service_Ok in DL; [|exact N|apply I|apply I]. destruct DL as [(_ & ->)|(a & h & h' & m & DL)]; [auto|].
    cbv zeta in DL. destruct DL as (_ & -> & _). auto. }
  destruct CF as [CF OA].
  destruct (delay_pend _ _ _ I N LT DL) as (rest & m & H). cbv zeta in H. destruct H as (P1 & P2 & NOW & TT & _). rewrite TS in P1, P2.
  set (t' := match d with Some t => t | None => c_srv (q_cfg q) m s end) in *.
  assert (LE : eLe s t'). { unfold t'. destruct d as [t|]; [apply TD; reflexivity|]. apply (qk_fwd _ _ _ K). }
  split; [|split; [|auto]].
  - destruct K as [I1 I2 I3 I4 I5 I6]. split; [exact IV|congruence|rewrite CF; exact I3|rewrite NOW; exact I4| |rewrite CF; intro C; destruct (N C)].
    intros x X. apply (Permutation_in x P2) in X. destruct X as [<-|X]; [exact LE|].
    apply I5. apply (Permutation_in x (Permutation_sym P1)). right; exact X.
  - exists rest, t'. split; [exact P1|]. split; [exact P2|]. split; [exact LE|]. unfold t'. split.
    + intros t ->. reflexivity.
    + intros ->. eauto.
Qed.

Lemma description_same q q' : q_cfg q' = q_cfg q -> hmin (q_dep q') = hmin (q_dep q) -> q_arr q' = q_arr q ->
  wfh (q_dep q) -> wfh (q_dep q') -> next_event_description q' = next_event_description q.
Proof.
  intros E1 E2 E3 W W'. unfold next_event_description. rewrite E1, E3.
  destruct (c_class (q_cfg q)); try reflexivity; rewrite (wfh_root_time _ W), (wfh_root_time _ W'), E2; reflexivity.
Qed.

(** ** The scheduler *)

Lemma hab_push T qs h P j q h' : pq_wf (length qs) h -> get qs j = Some q -> qok T j q ->
  hab T qs (pq_entries h) (qmap h) P -> pq_push h (q_time q) j = Ok h' ->
  pq_wf (length qs) h' /\ hab T qs (pq_entries h') (qmap h') (fun i => P i \/ i = j) /\
  (forall i, i <> j -> qmap h' i = qmap h i) /\ qmap h' j = q_time q /\ Permutation (pq_entries h') ((q_time q, j) :: pq_entries h).
Proof.
  intros W G K [A B] PU. assert (L := get_lt _ _ _ G).
  destruct (pq_push_spec _ h (q_time q) j W L) as (h2 & E & W2 & PM & QT & _). rewrite PU in E. injection E as <-.
  assert (LQ := wf_q _ _ W).
  assert (Q1 : forall i, i <> j -> qmap h' i = qmap h i) by (intros i NE; unfold qmap; rewrite QT, nth_upd_neq by congruence; reflexivity).
  assert (Q2 : qmap h' j = q_time q) by (unfold qmap; rewrite QT, nth_upd_eq by lia; reflexivity).
  split; [exact W2|]. split; [split|auto].
  - intros i q0 PI GI FI. destruct (Nat.eq_dec i j) as [->|NE].
    + assert (q0 = q) by congruence. subst q0. split; [|exact Q2]. apply (Permutation_in _ (Permutation_sym PM)). left; reflexivity.
    + destruct PI as [PI|PI]; [|congruence]. destruct (A _ _ PI GI FI) as [X Y]. split; [|rewrite Q1 by exact NE; exact Y].
      apply (Permutation_in _ (Permutation_sym PM)). right; exact X.
  - intros t i X. apply (Permutation_in _ PM) in X. destruct X as [X|X]; [|apply B; exact X].
    inversion X; subst. split; [exact L|]. split; [apply (qok_time _ _ _ K)|].
    destruct (q_time q) eqn:TQ; [|right; left; reflexivity]. right; right. exists q. split; [exact G|]. rewrite <- TQ. apply pend_in; [apply K|congruence].
Qed.

Lemma hab_weak T qs B cur (P P' : nat -> Prop) : hab T qs B cur P -> (forall k, P' k -> P k) -> hab T qs B cur P'.
Proof. intros [A C] S. split; [|exact C]. intros k q PK. apply A. auto. Qed.

(** Popping an entry. *)
Lemma hab_pop T qs h s k h' :
  (forall j q, get qs j = Some q -> qok T j q) ->
  pq_wf (length qs) h -> hab T qs (pq_entries h) (qmap h) all -> pq_pop h = Ok (Some (s, k), h') ->
  pq_wf (length qs) h' /\ qmap h' = qmap h /\ qmap h k = s /\ eLe T s /\ (k < length qs)%nat /\
  (exists dr, Permutation (pq_entries h) ((s, k) :: dr ++ pq_entries h')) /\
  (forall j q, get qs j = Some q -> eLe s (q_time q)) /\
  (forall q, get qs k = Some q -> q_time q = s \/ q_time q = Inf) /\
  hab s qs (pq_entries h') (qmap h') (fun j => j <> k).
Proof.
  intros KS W [A B] PO. destruct (pq_pop_refines _ _ _ _ W PO) as (SZ & W' & QM & SP).
  inversion SP as [e dr b' PM LV MN DR E1 E2|]; subst. unfold live in LV. cbn [fst snd] in LV.
  assert (LE : forall x, In x (pq_entries h') -> eLe s (fst x)).
  { destruct (pq_pop_spec _ _ W SZ) as (r2 & h2 & dr2 & E & _ & _ & _ & _ & X). rewrite PO in E. injection E as <- <-.
    destruct X as (_ & _ & _ & _ & X). exact X. }
  assert (INK : In (s, k) (pq_entries h)) by (apply (Permutation_in _ (Permutation_sym PM)); left; reflexivity).
  destruct (B _ _ INK) as (LK & TS & _).
  assert (MIN : forall j q, get qs j = Some q -> eLe s (q_time q)).
  { intros j q G. destruct (q_time q) as [z|] eqn:TQ; [|apply eLe_Inf]. destruct (A j q Logic.I G) as [X Y]; [congruence|].
    rewrite <- TQ. apply (MN (q_time q, j)); [exact X|]. exact Y. }
  split; [exact W'|]. split; [exact QM|]. split; [exact LV|]. split; [exact TS|]. split; [exact LK|]. split; [eauto|]. split; [exact MIN|]. split.
  - intros q G. destruct (q_time q) as [z|] eqn:TQ; [|auto]. left. destruct (A k q Logic.I G) as [X Y]; [congruence|]. congruence.
  - split.
    + intros j q NE G FI. destruct (A j q Logic.I G FI) as [X Y]. rewrite QM. split; [|exact Y].
      apply (Permutation_in _ PM) in X. destruct X as [X|X]; [congruence|]. apply in_app_or in X as [X|X]; [|exact X].
      exfalso. apply (DR _ X). exact Y.
    + intros t j X. assert (IN : In (t, j) (pq_entries h)).
      { apply (Permutation_in _ (Permutation_sym PM)). right. apply in_or_app. right; exact X. }
      destruct (B _ _ IN) as (LJ & TT & C). assert (ST := LE _ X). cbn [fst] in ST. split; [exact LJ|]. split; [exact ST|].
      destruct C as [->|[->|C]]; [|auto|auto]. left. apply eLe_antisym; [exact TS | exact ST].
Qed.

(** Changing queues whose pending events, except the present one, stay. *)
Lemma hab_upd s qs B cur P k q q' : get qs k = Some q -> hab s qs B cur P ->
  (forall x, In x (pend q) -> x = s \/ In x (pend q')) -> hab s (upd qs k q') B cur (fun j => P j /\ j <> k).
Proof.
  intros G [A C] KE. assert (L := get_lt _ _ _ G). split.
  - intros j q0 [PJ NE] GJ. rewrite get_upd_neq in GJ by exact NE. apply A; assumption.
  - intros t j X. destruct (C _ _ X) as (LJ & ST & D). rewrite upd_length. split; [exact LJ|]. split; [exact ST|].
    destruct D as [D|[D|(q0 & G0 & D)]]; [auto|auto|].
    destruct (Nat.eq_dec j k) as [->|NE].
    + assert (q0 = q) by congruence. subst q0. destruct (KE _ D) as [->|KX]; [auto|]. right; right. exists q'. split; [apply get_upd_eq; exact L|exact KX].
    + right; right. exists q0. rewrite get_upd_neq by exact NE. auto.
Qed.

Lemma kept_perm s l rest new l' : Permutation l (s :: rest) -> Permutation l' (new ++ rest) -> forall x : ext, In x l -> x = s \/ In x l'.
Proof.
  intros P Q x X. apply (Permutation_in _ P) in X. destruct X as [X|X]; [auto|]. right. apply (Permutation_in _ (Permutation_sym Q)). apply in_or_app. auto.
Qed.

(** ** Counts *)

Lemma counts_upd qs ag k q' : length ag = length qs -> (k < length qs)%nat ->
  (forall j q, get qs j = Some q -> get ag j = Some (q_total q)) ->
  forall j q, get (upd qs k q') j = Some q -> get (upd ag k (q_total q')) j = Some (q_total q).
Proof.
  intros LN L C j q G. apply get_upd in G as [[-> ->]|[NE G]]; [| |exact L].
  - apply get_upd_eq. lia.
  - rewrite get_upd_neq by exact NE. apply C; exact G.
Qed.

Lemma eadd_ge t z : 0 <= z -> eLe t (eadd t (Fin z)).
Proof. intro H. destruct t; cbn; [lia | exact Logic.I]. Qed.

(** What the pushes after an event leave. *)
Lemma pushes_one T qs h P j q h' : pq_wf (length qs) h -> get qs j = Some q -> qok T j q ->
  hab T qs (pq_entries h) (qmap h) P ->
  pushes h (if eltb (q_time q) Inf then [qkey q] else []) h' ->
  pq_wf (length qs) h' /\ hab T qs (pq_entries h') (qmap h') (fun i => P i \/ i = j).
Proof.
  intros W G K HB PU. unfold qkey in PU. rewrite (qk_idx _ _ _ K) in PU. destruct (eltb (q_time q) Inf) eqn:C.
  - inversion PU as [|t0 k0 h1 l0 h0 P1 P2]; subst. inversion P2; subst. destruct (hab_push _ _ _ _ _ _ _ W G K HB P1) as (A & B & _). auto.
  - inversion PU; subst. split; [exact W|]. destruct HB as [A B]. split; [|exact B].
    intros i q0 [PI| ->] GI FI; [apply A; assumption|]. exfalso. assert (q0 = q) by congruence. subst. destruct (q_time q); [discriminate|congruence].
Qed.

Lemma pushes_two T qs h P k e2 q1 q2 old h' : pq_wf (length qs) h -> get qs k = Some q1 -> get qs e2 = Some q2 ->
  qok T k q1 -> qok T e2 q2 -> hab T qs (pq_entries h) (qmap h) P ->
  (e2 <> k -> q_time q2 = old -> P e2) ->
  pushes h (key_list k e2 q1 q2 old) h' ->
  pq_wf (length qs) h' /\ hab T qs (pq_entries h') (qmap h') (fun i => P i \/ i = k \/ i = e2).
Proof.
  intros W G1 G2 K1 K2 HB OLD PU. unfold key_list in PU. unfold qkey in PU. rewrite (qk_idx _ _ _ K1), (qk_idx _ _ _ K2) in PU.
  destruct (eeqb (q_time q2) old) eqn:EO; cbn [negb] in PU.
  - apply eeqb_eq in EO. destruct (pushes_one T qs h P k q1 h' W G1 K1 HB) as [W' HB'].
    { unfold qkey. rewrite (qk_idx _ _ _ K1). exact PU. }
    split; [exact W'|]. destruct (Nat.eq_dec e2 k) as [->|NE].
    + eapply hab_weak; [exact HB'|]. cbn beta. tauto.
    + assert (PE := OLD NE EO). eapply hab_weak; [exact HB'|]. cbn beta. intros i [X|[X|X]]; auto. subst i. auto.
  - inversion PU as [|t0 k0 h1 l0 h0 P1 P2]; subst.
    destruct (hab_push _ _ _ _ _ _ _ W G2 K2 HB P1) as (W1 & HB1 & _).
    destruct (eltb (q_time q1) Inf) eqn:FI; cbn [andb] in P2.
    + destruct (eeqb (q_time q1) (q_time q2) && (k =? e2)%nat) eqn:SA; cbn [negb] in P2.
      * apply andb_true_iff in SA as [_ SA]. apply Nat.eqb_eq in SA. subst e2. inversion P2; subst. split; [exact W1|].
        eapply hab_weak; [exact HB1|]. cbn beta. tauto.
      * inversion P2 as [|t0 k0 h2 l0 h0 P3 P4]; subst. inversion P4; subst.
        destruct (hab_push _ _ _ _ _ _ _ W1 G1 K1 HB1 P3) as (W2 & HB2 & _). split; [exact W2|].
        eapply hab_weak; [exact HB2|]. cbn beta. tauto.
    + inversion P2; subst. split; [exact W1|]. destruct HB1 as [A B]. split; [|exact B].
      intros i q0 PI GI F0. destruct (Nat.eq_dec i k) as [->|NE]; [|apply A; [tauto|exact GI|exact F0]].
      exfalso. assert (q0 = q1) by congruence. subst. destruct (q_time q1); [discriminate|congruence].
Qed.

(** ** The invariant is kept *)

Lemma ninv_idx n : ninv n -> forall k q, get (nt_queues n) k = Some q -> c_idx (q_cfg q) = k /\ q_dep q <> [].
Proof.
  intros I k q G. assert (K := ni_q _ I _ _ G). split; [apply K|]. destruct (wfh_nonempty _ (qi_dep _ (qk_inv _ _ _ K))) as (i & h & ->). discriminate.
Qed.

Lemma popped n t k h : ninv n -> (0 < pq_size (nt_heap n))%nat -> pq_pop (nt_heap n) = Ok (Some (t, k), h) ->
  pq_wf (length (nt_queues n)) h /\ eLe (nt_t n) t /\ (k < length (nt_queues n))%nat /\
  qmap (nt_heap n) k = t /\ qmap h = qmap (nt_heap n) /\
  (exists dr, Permutation (pq_entries (nt_heap n)) ((t, k) :: dr ++ pq_entries h)) /\
  (forall j q, get (nt_queues n) j = Some q -> qok t j q) /\
  (forall q, get (nt_queues n) k = Some q -> q_time q = t \/ q_time q = Inf) /\
  hab t (nt_queues n) (pq_entries h) (qmap h) (fun j => j <> k) /\
  hab (nt_t n) (nt_queues n) (pq_entries (nt_heap n)) (qmap (nt_heap n)) all.
Proof.
  intros I SZ PO. destruct (ni_heap _ I) as [[X _]|[W HB]]; [lia|].
  destruct (hab_pop _ _ _ _ _ _ (ni_q _ I) W HB PO) as (W' & QM & QK & LE & LK & DR & MN & TT & HB').
  split; [exact W'|]. split; [exact LE|]. split; [exact LK|]. split; [exact QK|]. split; [exact QM|]. split; [exact DR|]. split; [|auto].
  intros j q G. eapply qok_later; [apply (ni_q _ I); exact G|exact LE|eapply MN; exact G].
Qed.

Lemma ninv_step n n' : ninv n -> nst n n' -> ninv n' /\ eLe (nt_t n) (nt_t n').
Proof.
  intros I S. destruct S as [SZ ->|t k h q SZ PO G DS ->|t k h q r q' h' SZ PO G DS NX PU LC ->|
    t k h q a h0 l e2 q2 qm q' d h' iu ie td SZ PO G DS DP OUT IN DD G2 NE CA MB RT DE DL NK PU ->|
    t k h q a h0 l e2 q2old b q' q2 q2a r q2' h' iu SZ PO G DS DP OUT IN DD G2 CA NX GE AD NX2 PU LA LB ->].
  - split; [|nc; apply eLe_Inf]. split; nc.
    + apply I.
    + assert (Z : forall k q, get (nt_queues n) k = Some q -> q_time q = Inf).
      { destruct (ni_heap _ I) as [[_ X]|[W HB]]; [exact X|]. intros k q G. destruct (q_time q) eqn:T; [|reflexivity].
        destruct (ha_a _ _ _ _ _ HB k q Logic.I G) as [X _]; [congruence|]. exfalso.
        unfold pq_entries in X. rewrite SZ in X. destruct X. }
      intros k q G. eapply qok_later; [apply (ni_q _ I); exact G|apply eLe_Inf|]. rewrite (Z _ _ G). apply eLe_refl.
    + destruct (ni_heap _ I) as [X|[W [A B]]]; [left; exact X|]. right. split; [exact W|]. split; [exact A|].
      intros t k X. exfalso. unfold pq_entries in X. rewrite SZ in X. destruct X.
    + apply I.
    + apply I.
  - destruct (popped _ _ _ _ I SZ PO) as (W & LE & LK & QK & QM & _ & KS & TT & HB & _). unfold after. split; [|exact LE]. split; nc.
    + apply I.
    + exact KS.
    + right. split; [exact W|]. assert (QI := description_0 _ _ _ (KS _ _ G) DS). destruct HB as [A B]. split; [|exact B].
      intros j q0 _ GJ FI. apply A; [|exact GJ|exact FI]. intros ->. congruence.
    + apply I.
    + apply I.
  - destruct (popped _ _ _ _ I SZ PO) as (W & LE & LK & QK & QM & _ & KS & TT & HB & _). unfold after. split; [|exact LE].
    assert (K := KS _ _ G). destruct (description_1 _ (qk_inv _ _ _ K) DS) as (NN & _ & _ & FI).
    assert (TQ : q_time q = t) by (destruct (TT _ G); [assumption|congruence]). assert (FT : t <> Inf) by congruence.
    destruct (qok_next t k _ _ _ (qok_stopped _ _ (nt_max n) (nt_nagents n) _ K) ltac:(rewrite time_stopped; exact TQ) FT NX) as (K' & rest & new & P1 & P2 & NW).
    rewrite pend_stopped in P1.
    assert (HB1 := hab_upd t _ _ _ _ k q q' G HB (kept_perm _ _ _ _ _ P1 P2)).
    assert (GK : get (upd (nt_queues n) k q') k = Some q') by (apply get_upd_eq; exact LK).
    split; nc.
    + rewrite ?upd_length, ?LQ, ?upd_length. apply I.
    + intros j q0 GJ. apply get_upd in GJ as [[-> ->]|[NE GJ]]; [exact K'|apply KS; exact GJ|exact LK].
    + right. rewrite upd_length. destruct (pushes_one t (upd (nt_queues n) k q') h _ k q' h' ltac:(rewrite upd_length; exact W) GK K' HB1 PU) as [W2 HB2].
      rewrite upd_length in W2. split; [exact W2|]. eapply hab_weak; [exact HB2|]. cbn beta. intros j _. destruct (Nat.eq_dec j k); tauto.
    + rewrite (qk_idx _ _ _ K). apply counts_upd; [apply I|exact LK|apply I].
    + apply I.
  - destruct (popped _ _ _ _ I SZ PO) as (W & LE & LK & QK & QM & _ & KS & TT & HB & _). unfold after. split; [|exact LE].
    assert (K := KS _ _ G). assert (K2 := KS _ _ G2). destruct (description_2 _ (qk_inv _ _ _ K) DS) as (NN & _ & _ & FI).
    assert (TQ : q_time q = t) by (destruct (TT _ G); [assumption|congruence]).
    destruct (qok_mark _ _ _ _ K MB) as (KM & PM & TM & CM & HM & AM & TOM & _ & _ & _ & OM & _).
    assert (DSM : next_event_description qm = Ok 2).
    { rewrite <- DS. apply description_same; auto; [apply (qk_inv _ _ _ K)|apply (qk_inv _ _ _ KM)]. }
    destruct (qok_delay t k qm d q' KM ltac:(congruence) DSM DL) as (K' & (rest & t' & P1 & P2 & LT & _) & CF & TO & _).
    { intros x ->. destruct (nt_bas n); [|discriminate]. injection DE as ->.
      apply eLe_trans with td; [|apply eadd_ge; apply I].
      rewrite (wfh_root_time _ (qi_dep _ (qk_inv _ _ _ K2))) in RT. injection RT as <-.
      destruct (wfh_min_cases _ (qi_dep _ (qk_inv _ _ _ K2))) as [X|(b & B & T)]; [rewrite X; apply eLe_Inf|].
      rewrite <- T. apply (qk_pend _ _ _ K2). unfold pend. apply in_or_app. right. apply in_map; exact B. }
    rewrite PM in P1.
    assert (L2 := get_lt _ _ _ G2).
    set (q2n := set_q_blocked (q_blocked q2 + 1) q2) in *.
    set (qs1 := upd (nt_queues n) e2 q2n) in *.
    assert (K2n : qok t e2 q2n) by (eapply qok_same; [exact K2|reflexivity..]).
    assert (G1 : get qs1 k = Some q) by (unfold qs1; rewrite get_upd_neq by congruence; exact G).
    assert (HBq : hab t qs1 (pq_entries h) (qmap h) (fun j => j <> k)).
    { assert (X := hab_upd t _ _ _ _ e2 q2 q2n G2 HB (fun x IX => or_intror IX)). fold qs1 in X. destruct X as [A B]. split; [|exact B].
      intros j q0 NJ GJ FJ. destruct (Nat.eq_dec j e2) as [->|NE2]; [|apply A; auto].
      unfold qs1 in GJ. rewrite get_upd_eq in GJ by exact L2. injection GJ as <-. apply (ha_a _ _ _ _ _ HB e2 q2); auto. }
    assert (LQ : length qs1 = length (nt_queues n)) by apply upd_length.
    assert (HB1 := hab_upd t qs1 _ _ _ k q q' G1 HBq (kept_perm _ _ _ [t'] _ P1 P2)).
    assert (GK : get (upd qs1 k q') k = Some q') by (apply get_upd_eq; rewrite LQ; exact LK).
    assert (GE2 : get (upd qs1 k q') e2 = Some q2n) by (rewrite get_upd_neq by congruence; apply get_upd_eq; exact L2).
    assert (PU' : pushes h (key_list k e2 q' q2n (q_time q2)) h') by exact PU.
    split; nc.
    + rewrite ?upd_length, ?LQ, ?upd_length. apply I.
    + intros j q0 GJ. apply get_upd in GJ as [[-> ->]|[NJ GJ]]; [exact K'| |rewrite LQ; exact LK].
      apply get_upd in GJ as [[-> ->]|[NJ2 GJ]]; [exact K2n|apply KS; exact GJ|exact L2].
    + right. destruct (pushes_two t (upd qs1 k q') h _ k e2 q' q2n (q_time q2) h' ltac:(rewrite upd_length, LQ; exact W) GK GE2 K' K2n HB1) with (2 := PU') as [W2 HB2].
      { cbn beta. tauto. }
      split; [exact W2|]. eapply hab_weak; [exact HB2|]. cbn beta. intros j _. destruct (Nat.eq_dec j k); tauto.
    + intros j q0 GJ. apply get_upd in GJ as [[-> ->]|[NJ GJ]]; [rewrite TO, TOM; apply (ni_count _ I); exact G| |rewrite LQ; exact LK].
      apply get_upd in GJ as [[-> ->]|[NJ2 GJ]]; [apply (ni_count _ I _ _ G2)|apply (ni_count _ I); exact GJ|exact L2].
    + apply I.
  - destruct (popped _ _ _ _ I SZ PO) as (W & LE & LK & QK & QM & _ & KS & TT & HB & _). unfold after. split; [|exact LE].
    assert (K := KS _ _ G). assert (K2o := KS _ _ G2). destruct (description_2 _ (qk_inv _ _ _ K) DS) as (NN & _ & _ & FI).
    assert (TQ : q_time q = t) by (destruct (TT _ G); [assumption|congruence]). assert (FT : t <> Inf) by congruence.
    destruct (qok_next t k _ _ _ K TQ FT NX) as (K' & rest & new & P1 & P2 & NW).
    set (qs1 := upd (nt_queues n) k q') in *.
    assert (LQ : length qs1 = length (nt_queues n)) by apply upd_length.
    assert (L2 := get_lt _ _ _ G2).
    assert (KS1 : forall j q0, get qs1 j = Some q0 -> qok t j q0).
    { intros j q0 GJ. apply get_upd in GJ as [[-> ->]|[NJ GJ]]; [exact K'|apply KS; exact GJ|exact LK]. }
    assert (HB1 := hab_upd t _ _ _ _ k q q' G HB (kept_perm _ _ _ _ _ P1 P2)). fold qs1 in HB1.
    destruct (qok_enter t e2 _ _ _ _ _ _ _ (KS1 _ _ GE) FT (eq_refl : ag_time (set_ag_time t b) = t) AD NX2) as (K2' & (new2 & Q1 & Q2) & CF2).
    assert (HB2 := hab_upd t qs1 _ _ _ e2 q2 q2' GE HB1 (fun x IX => or_intror (Permutation_in x (Permutation_sym Q1) (in_or_app new2 (pend q2) x (or_intror IX))))).
    assert (GE2 : get (upd qs1 e2 q2') e2 = Some q2') by (apply get_upd_eq; rewrite LQ; exact L2).
    split; nc.
    + rewrite ?upd_length, ?LQ, ?upd_length. apply I.
    + intros j q0 GJ. apply get_upd in GJ as [[-> ->]|[NJ GJ]]; [exact K2'|apply KS1; exact GJ|rewrite LQ; exact L2].
    + right. destruct (Nat.eqb e2 k) eqn:EK.
      * apply Nat.eqb_eq in EK. subst e2.
        destruct (pushes_two t (upd qs1 k q2') h _ k k q2' q2' (q_time q2old) h' ltac:(rewrite upd_length, LQ; exact W) GE2 GE2 K2' K2' HB2) with (2 := PU) as [W3 HB3]; [congruence|].
        split; [exact W3|]. eapply hab_weak; [exact HB3|]. cbn beta. intros j _. destruct (Nat.eq_dec j k); tauto.
      * apply Nat.eqb_neq in EK.
        assert (Q2E : q2 = q2old) by (unfold qs1 in GE; rewrite get_upd_neq in GE by exact EK; congruence). subst q2.
        assert (GK : get (upd qs1 e2 q2') k = Some q') by (rewrite get_upd_neq by congruence; apply get_upd_eq; exact LK).
        assert (HB2' : hab t (upd qs1 e2 q2') (pq_entries h) (qmap h) (fun j => j <> k /\ (j = e2 -> q_time q2' = q_time q2old))).
        { destruct HB2 as [A B]. split; [|exact B]. intros j q0 [NJ TJ] GJ FJ. destruct (Nat.eq_dec j e2) as [->|NE2]; [|apply A; auto].
          rewrite GE2 in GJ. injection GJ as <-. rewrite (TJ eq_refl) in *. apply (ha_a _ _ _ _ _ HB e2 q2old); auto. }
        destruct (pushes_two t (upd qs1 e2 q2') h _ k e2 q' q2' (q_time q2old) h' ltac:(rewrite upd_length, LQ; exact W) GK GE2 K' K2' HB2') with (2 := PU) as [W3 HB3].
        { intros _ X. split; [exact EK|]. intros _; exact X. }
        split; [exact W3|]. eapply hab_weak; [exact HB3|]. cbn beta. intros j _.
        destruct (Nat.eq_dec j k); [tauto|]. destruct (Nat.eq_dec j e2); [tauto|]. left. split; [assumption|congruence].
    + apply counts_upd; [rewrite LQ, upd_length; apply I|rewrite LQ; exact L2|].
      apply counts_upd; [apply I|exact LK|apply I].
    + apply I.
Qed.
