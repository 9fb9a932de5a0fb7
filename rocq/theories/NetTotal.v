(** * NetTotal: no event of a well-formed network raises *)
From Coq Require Import List ZArith QArith Lia Bool Permutation Arith.
From Verif Require Import Base Heap HeapProofs PQueue PQueueProofs SpecPQ PQHist Queue QueueEffects QueueEvents QueueSteps QueueInv SpecQueue QueueData QueueTotal QueueFlow Network NetQueue NetSteps NetInv SpecNet NetReach NetFlow NetClaims1 QueueHist QueueClaims1 NetLoop.
Import ListNotations.
Open Scope Z_scope.

(** The scheduler never holds the time infinity, and its entries for an idle
    queue are not stale. *)
Definition steady (n : net) : Prop :=
  (forall t k, In (t, k) (pq_entries (nt_heap n)) -> t <> Inf) /\
  (forall t k q, In (t, k) (pq_entries (nt_heap n)) -> get (nt_queues n) k = Some q -> q_time q = Inf -> qmap (nt_heap n) k = t).

(** ** Popping *)

Lemma pop_some n : ninv n -> steady n -> (0 < pq_size (nt_heap n))%nat ->
  exists t k h, pq_pop (nt_heap n) = Ok (Some (t, k), h).
Proof.
  intros I [S1 S2] SZ. destruct (ni_heap _ I) as [[X _]|[W HB]]; [lia|].
  destruct (pq_pop_spec _ _ W SZ) as ([[t k]|] & h & dr & E & _ & _ & _ & DR & X); [eauto|]. exfalso.
  destruct X as [PM _].
  assert (ST : forall x, In x (pq_entries (nt_heap n)) -> stale (nt_heap n) x).
  { intros x H. apply (Permutation_in _ PM) in H. apply DR; exact H. }
  assert (NE : exists t k, In (t, k) (pq_entries (nt_heap n))).
  { destruct (pq_entries (nt_heap n)) as [|[t k] l] eqn:EN.
    - assert (L : length (pq_entries (nt_heap n)) = pq_size (nt_heap n)) by (apply pq_entries_length; assert (Z := wf_size _ _ W); assert (Z2 := wf_store _ _ W); lia).
      rewrite EN in L. cbn in L. lia.
    - exists t, k. left; reflexivity. }
  destruct NE as (t & k & IN). destruct (ha_b _ _ _ _ _ HB _ _ IN) as (LK & _). destruct (get_ex _ _ LK) as (q & G).
  destruct (q_time q) as [z|] eqn:TQ.
  - destruct (ha_a _ _ _ _ _ HB k q Logic.I G) as [A B]; [congruence|]. apply (ST _ A). cbn [fst snd]. exact B.
  - apply (ST _ IN). cbn [fst snd]. apply S2 with q; assumption.
Qed.

(** ** The scheduler stays steady *)

Lemma pushes_facts N h l h' : pushes h l h' -> pq_wf N h -> (forall x, In x l -> (snd x < N)%nat) ->
  pq_wf N h' /\ (forall x, In x (pq_entries h') -> In x l \/ In x (pq_entries h)) /\
  (forall i, ~ In i (map snd l) -> qmap h' i = qmap h i).
Proof.
  induction 1 as [h|h t k h1 l h' PU H IH]; intros W LT; [auto|].
  destruct (pq_push_spec _ h t k W) as (h2 & E & W2 & PM & QT & _); [apply (LT (t, k)); left; reflexivity|].
  rewrite PU in E. injection E as <-. destruct IH as (W' & A & B); [exact W2|intros x X; apply LT; right; exact X|].
  split; [exact W'|]. split.
  - intros x X. apply A in X as [X|X]; [left; right; exact X|]. apply (Permutation_in _ PM) in X. destruct X as [<-|X]; [left; left; reflexivity|auto].
  - intros i NI. cbn [map snd In] in NI. rewrite B by tauto. unfold qmap. rewrite QT, nth_upd_neq by tauto. reflexivity.
Qed.

Lemma steady_after n n' t k h l :
  ninv n -> steady n -> (0 < pq_size (nt_heap n))%nat -> pq_pop (nt_heap n) = Ok (Some (t, k), h) ->
  ninv n' -> nt_t n' = t -> pushes h l (nt_heap n') -> length (nt_queues n') = length (nt_queues n) ->
  (forall x, In x l -> exists q', get (nt_queues n') (snd x) = Some q' /\ q_time q' = fst x /\ fst x <> Inf) ->
  (forall j q', j <> k -> get (nt_queues n') j = Some q' -> q_time q' = Inf -> exists q, get (nt_queues n) j = Some q /\ q_time q = Inf) ->
  steady n'.
Proof.
  intros I [S1 S2] SZ PO I' TT PU LQ PL IDLE.
  destruct (popped _ _ _ _ I SZ PO) as (W & LE & LK & QK & QM & (dr & PM) & _).
  destruct (pushes_facts (length (nt_queues n)) _ _ _ PU W) as (W' & A & B).
  { intros x X. destruct (PL x X) as (q' & G & _). apply get_lt in G. lia. }
  assert (OLD : forall x, In x (pq_entries h) -> In x (pq_entries (nt_heap n))).
  { intros x X. apply (Permutation_in _ (Permutation_sym PM)). right. apply in_or_app. right; exact X. }
  assert (NI : forall t k, In (t, k) (pq_entries (nt_heap n')) -> t <> Inf).
  { intros t' j X. apply A in X as [X|X]; [|eapply S1; apply OLD; exact X]. destruct (PL _ X) as (_ & _ & _ & Y). exact Y. }
  split; [exact NI|]. intros t' j q' X G TI.
  assert (X' := X). apply A in X' as [Y|Y].
  { destruct (PL _ Y) as (q0 & G0 & T0 & F0). cbn [fst snd] in *. congruence. }
  assert (NJ : ~ In j (map snd l)).
  { intro Z. apply in_map_iff in Z as ([t0 j0] & E & Z). cbn [snd] in E. subst j0. destruct (PL _ Z) as (q0 & G0 & T0 & F0). cbn [fst snd] in *. congruence. }
  rewrite B by exact NJ. rewrite QM. destruct (Nat.eq_dec j k) as [->|NE].
  - rewrite QK. destruct (ni_heap _ I') as [[Z _]|[_ HB']]; [unfold pq_entries in X; rewrite Z in X; destruct X|].
    destruct (ha_b _ _ _ _ _ HB' _ _ X) as (_ & _ & [D|[D|(q0 & G0 & D)]]); [congruence|destruct (NI _ _ X D)|].
    assert (q0 = q') by congruence. subst q0. apply pend_min in D; [|apply (ni_q _ I' _ _ G)].
    rewrite TI in D. apply eLe_Inf_l in D. destruct (NI _ _ X D).
  - destruct (IDLE j q' NE G TI) as (q & G0 & T0). apply S2 with q; [apply OLD; exact Y|exact G0|exact T0].
Qed.

Lemma pend_idle q q' : qinv q -> qinv q' -> (forall x, In x (pend q) -> In x (pend q')) -> q_time q' = Inf -> q_time q = Inf.
Proof.
  intros I I' S T. destruct (q_time q) eqn:E; [|reflexivity]. assert (X := pend_in q I). rewrite E in X.
  assert (Y := pend_min q' I' _ (S _ (X ltac:(discriminate)))). rewrite T in Y. apply eLe_Inf_l in Y. discriminate.
Qed.

(** No queue serves more agents than it has servers. *)
Definition within_servers (n : net) : Prop :=
  forall k q, get (nt_queues n) k = Some q -> c_class (q_cfg q) <> CNull -> c_class (q_cfg q) <> CResource -> limited q.

Lemma steady_step n n' : ninv n -> steady n -> mild_loops n -> within_servers n -> nst n n' -> steady n'.
Proof.
  intros I S NL LI ST. assert (I' := proj1 (ninv_step _ _ I ST)).
  destruct ST as [SZ E|t k h q SZ PO G DS E|t k h q r q' h' SZ PO G DS NX PU LC E|
    t k h q a h0 l e2 q2 qm q' d h' iu ie td SZ PO G DS DP OUT IN DD G2 NE CA MB RT DE DL NK PU E|
    t k h q a h0 l e2 q2old b q' q2 q2a r q2' h' iu SZ PO G DS DP OUT IN DD G2 CA NX GE AD NX2 PU LA LB E].
  - subst n'. exact S.
  - apply (steady_after n n' t k h []); subst n'; auto.
    + constructor.
    + intros x [].
    + intros j q' _ GJ TI. exists q'. auto.
  - destruct (popped _ _ _ _ I SZ PO) as (W & LE & LK & QK & QM & (dr & PM) & KS & TT & HB & _).
    destruct (description_1 _ (qk_inv _ _ _ (KS _ _ G)) DS) as (N & _ & _ & FT).
    destruct (TT _ G) as [TQ|TQ]; [|congruence].
    assert (GK : get (nt_queues n') k = Some q') by (subst n'; apply get_upd_eq; exact LK).
    assert (IX : c_idx (q_cfg q') = k) by (apply (qk_idx _ _ _ (ni_q _ I' _ _ GK))).
    eapply (steady_after n n' t k h); auto; subst n'.
    + reflexivity.
    + exact PU.
    + unfold after. nc. apply upd_length.
    + intros x X. destruct (eltb (q_time q') Inf) eqn:C; [|destruct X]. destruct X as [<-|[]].
      unfold qkey. cbn [fst snd]. rewrite IX. exists q'. split; [exact GK|]. split; [reflexivity|]. intro Z. rewrite Z in C. discriminate.
    + unfold after. nc. intros j q0 NJ GJ TI. rewrite get_upd_neq in GJ by exact NJ. eauto.
  - destruct (popped _ _ _ _ I SZ PO) as (W & LE & LK & QK & QM & (dr & PM) & KS & TT & HB & _).
    assert (GK : get (nt_queues n') k = Some q') by (subst n'; apply get_upd_eq; rewrite upd_length; exact LK).
    assert (IX : c_idx (q_cfg q') = k) by (apply (qk_idx _ _ _ (ni_q _ I' _ _ GK))).
    assert (L2 := get_lt _ _ _ G2).
    eapply (steady_after n n' t k h); auto; subst n'.
    + reflexivity.
    + exact PU.
    + unfold after. nc. rewrite !upd_length. reflexivity.
    + intros x X. unfold key_list in X. assert (EE : eeqb (q_time q2) (q_time q2) = true) by (apply eeqb_eq; reflexivity). rewrite EE in X. cbn [negb] in X.
      destruct (eltb (q_time q') Inf) eqn:C; [|destruct X]. destruct X as [<-|[]].
      unfold qkey. cbn [fst snd]. rewrite IX. exists q'. split; [exact GK|]. split; [reflexivity|]. intro Z. rewrite Z in C. discriminate.
    + unfold after. nc. intros j q0 NJ GJ TI. rewrite get_upd_neq in GJ by exact NJ. apply get_upd in GJ as [[-> ->]|[_ GJ]]; [|eauto|exact L2].
      exists q2. split; [exact G2|exact TI].
  - destruct (popped _ _ _ _ I SZ PO) as (W & LE & LK & QK & QM & (dr & PM) & KS & TT & HB & _).
    assert (KQ := KS _ _ G). destruct (description_2 _ (qk_inv _ _ _ KQ) DS) as (N & _ & _ & FT).
    destruct (TT _ G) as [TQ|TQ]; [|congruence].
    assert (L2 := get_lt _ _ _ G2).
    assert (GK2 : get (nt_queues n') e2 = Some q2') by (subst n'; apply get_upd_eq; rewrite upd_length; exact L2).
    assert (IX2 : c_idx (q_cfg q2') = e2) by (apply (qk_idx _ _ _ (ni_q _ I' _ _ GK2))).
    destruct (Nat.eq_dec e2 k) as [X|NK].
    { (* the agent comes straight back *)
      clear L2. rewrite X in *. clear X. rewrite get_upd_eq in GE by exact LK. injection GE as <-. assert (q2old = q) by congruence. subst q2old.
      destruct (NL _ _ _ G N OUT IN) as (NR & BUF & FIN). assert (NT : t <> Inf) by congruence.
      assert (BUSY := loop_busy _ _ _ _ _ _ _ _ _ _ _ _ KQ NT TQ NR BUF FIN (LI _ _ G N NR) DS DP NX AD NX2).
      eapply (steady_after n n' t k h); auto.
      - subst n'. reflexivity.
      - subst n'. exact PU.
      - subst n'. unfold after. nc. rewrite !upd_length. reflexivity.
      - intros x X. assert (x = (q_time q2', k)).
        { unfold key_list, qkey in X. rewrite Nat.eqb_refl in X. rewrite IX2 in X.
          repeat match type of X with
          | In _ (if ?b then _ else _) => destruct b
          | In _ (_ :: _) => destruct X as [<-|X]; [reflexivity|]
          | In _ [] => destruct X
          end. }
        subst x. cbn [fst snd]. exists q2'. auto.
      - intros j q0 NJ GJ TI. subst n'. unfold after in GJ. nch GJ. rewrite !get_upd_neq in GJ by congruence. eauto. }
    rewrite get_upd_neq in GE by exact NK. assert (q2old = q2) by congruence. subst q2old.
    assert (GK : get (nt_queues n') k = Some q').
    { subst n'. unfold after. nc. rewrite get_upd_neq by congruence. apply get_upd_eq; exact LK. }
    assert (IX : c_idx (q_cfg q') = k) by (apply (qk_idx _ _ _ (ni_q _ I' _ _ GK))).
    assert (IDLE : q_time q2' = Inf -> q_time q2 = Inf).
    { apply pend_idle; [apply (ni_q _ I _ _ G2)|apply (ni_q _ I' _ _ GK2)|].
      assert (NT : t <> Inf) by congruence.
      destruct (qok_enter t e2 _ _ q2 (set_ag_time t b) _ _ _ (KS _ _ G2) NT eq_refl AD NX2) as (_ & (new & PN & _) & _).
      intros x X. apply (Permutation_in _ (Permutation_sym PN)). apply in_or_app. right; exact X. }
    eapply (steady_after n n' t k h); auto.
    + subst n'. reflexivity.
    + subst n'. exact PU.
    + subst n'. unfold after. nc. rewrite !upd_length. reflexivity.
    + assert (EK : (e2 =? k)%nat = false) by (apply Nat.eqb_neq; exact NK). rewrite EK. intros x X.
      assert (CASES : x = (q_time q2', e2) /\ q_time q2' <> q_time q2 \/ x = (q_time q', k) /\ eltb (q_time q') Inf = true).
      { unfold key_list, qkey in X. rewrite IX, IX2 in X. destruct (eeqb (q_time q2') (q_time q2)) eqn:EO; cbn [negb] in X.
        - destruct (eltb (q_time q') Inf) eqn:C; [|destruct X]. destruct X as [<-|[]]. auto.
        - assert (NEQ : q_time q2' <> q_time q2) by (intro Z; apply eeqb_eq in Z; congruence).
          destruct X as [<-|X]; [auto|]. destruct (eltb (q_time q') Inf) eqn:C; cbn [andb] in X; [|destruct X].
          destruct (negb (eeqb (q_time q') (q_time q2') && (k =? e2)%nat)); [destruct X as [<-|[]]; auto|destruct X]. }
      destruct CASES as [[-> Z]|[-> Z]]; cbn [fst snd].
      * exists q2'. split; [exact GK2|]. split; [reflexivity|]. intro Y. apply Z. rewrite Y. symmetry. apply IDLE; exact Y.
      * exists q'. split; [exact GK|]. split; [reflexivity|]. intro Y. rewrite Y in Z. discriminate.
    + intros j q0 NJ GJ TI. destruct (Nat.eq_dec j e2) as [->|NJ2].
      * assert (q0 = q2') by congruence. subst q0. exists q2. auto.
      * subst n'. unfold after in GJ. nch GJ. rewrite !get_upd_neq in GJ by congruence. eauto.
Qed.

(** ** Every part of an event succeeds *)

Record alive (N : nat) (n : net) : Prop := mkAlive {
  al_q : length (nt_queues n) = N;
  al_n : length (nt_nagents n) = N;
  al_live : forall k q, get (nt_queues n) k = Some q -> QueueTotal.live N q
}.

Lemma alive_get N n k : alive N n -> (k < N)%nat -> exists q, get (nt_queues n) k = Some q /\ queue_at k n = Ok q /\ QueueTotal.live N q.
Proof.
  intros A L. destruct (get_ex (nt_queues n) k) as (q & G); [rewrite (al_q _ _ A); exact L|].
  exists q. split; [exact G|]. split; [unfold queue_at; rewrite G; reflexivity|apply (al_live _ _ A _ _ G)].
Qed.

Lemma alive_put N n k q : alive N n -> QueueTotal.live N q -> alive N (put_queue k q n).
Proof.
  intros A L. destruct (Nat.lt_ge_cases k (length (nt_queues n))) as [LT|GE].
  - destruct A as [A1 A2 A3]. split; nc; [rewrite upd_length; exact A1|exact A2|].
    intros j q0 G. apply get_upd in G as [[-> ->]|[_ G]]; [exact L|eauto|exact LT].
  - unfold put_queue. rewrite upd_ge by exact GE. destruct n; exact A.
Qed.

Lemma set_count_tot N k z n : alive N n -> (k < N)%nat ->
  tot (fun n' => alive N n' /\ nt_queues n' = nt_queues n /\ nt_heap n' = nt_heap n) (set_count k z n).
Proof.
  intros A L. unfold set_count. rewrite set_upd by (rewrite (al_n _ _ A); exact L). cbn [of_option bind]. apply tot_Ok.
  split; [|auto]. destruct A as [A1 A2 A3]. split; nc; auto. rewrite upd_length. exact A2.
Qed.

Lemma net_push_tot N key n : alive N n -> pq_wf N (nt_heap n) -> (snd key < N)%nat ->
  tot (fun n' => alive N n' /\ pq_wf N (nt_heap n') /\ nt_queues n' = nt_queues n) (net_push key n).
Proof.
  intros A W L. unfold net_push. destruct (pq_push_spec _ _ (fst key) (snd key) W L) as (h & -> & W' & _). cbn [bind]. apply tot_Ok.
  split; [|auto]. destruct A; split; assumption.
Qed.

Lemma reschedule_tot N k e2 old n : alive N n -> pq_wf N (nt_heap n) -> (k < N)%nat -> (e2 < N)%nat ->
  tot (alive N) (reschedule k e2 old n).
Proof.
  intros A W LK LE. unfold reschedule.
  destruct (alive_get _ _ _ A LK) as (q1 & _ & -> & L1). destruct (alive_get _ _ _ A LE) as (q2 & _ & -> & L2). cbn [bind].
  assert (I1 : (snd (qkey q1) < N)%nat) by apply (lv_cfg _ _ L1). assert (I2 : (snd (qkey q2) < N)%nat) by apply (lv_cfg _ _ L2).
  cbv zeta. destruct (negb (eeqb (fst (qkey q2)) old)).
  - destruct (net_push_tot N (qkey q2) n A W I2) as (n1 & -> & A1 & W1 & _). cbn [bind].
    destruct (eltb (fst (qkey q1)) Inf && _); [|apply tot_Ok; exact A1].
    eapply tot_weak; [apply (net_push_tot N (qkey q1) n1 A1 W1 I1)|]. intros n2 X; apply X.
  - destruct (eltb (fst (qkey q1)) Inf); [|apply tot_Ok; exact A].
    eapply tot_weak; [apply (net_push_tot N (qkey q1) n A W I1)|]. intros n2 X; apply X.
Qed.

Lemma live_mark N q a h : QueueTotal.live N q -> q_dep q = Ag a :: h ->
  exists qm, mark_blocked q = Ok qm /\ QueueTotal.live N qm /\ q_cfg qm = q_cfg q /\ In (set_ag_blocked (ag_blocked a + 1) a) (in_service qm).
Proof.
  intros L D. assert (M : mark_blocked q = Ok (set_q_dep (Ag (set_ag_blocked (ag_blocked a + 1) a) :: h) q)).
  { unfold mark_blocked, first_departure. rewrite D. reflexivity. }
  eexists. split; [exact M|]. destruct (mark_facts _ _ (lv_dep _ _ L) M) as (a' & h' & b & D' & B & E & W & _ & A1 & A2).
  rewrite D in D'. injection D' as <- <-. split; [|split; [reflexivity|left; reflexivity]].
  assert (F := lv_adep _ _ L). destruct L; split; try assumption. qc. qch A2. rewrite A2.
  rewrite A1 in F. inversion F as [|? ? FA FH]; subst. constructor; [|exact FH]. intro K. apply FA. exact K.
Qed.

Lemma block_tot N k e2 n q a h : alive N n -> e2 <> k -> get (nt_queues n) k = Some q -> (e2 < N)%nat ->
  c_class (q_cfg q) <> CNull -> q_dep q = Ag a :: h -> ag_time a <> Inf ->
  tot (fun n' => alive N n' /\ nt_heap n' = nt_heap n) (block_agent k e2 n).
Proof.
  intros A NE G LE NN D TA. unfold block_agent. assert (LK : (k < N)%nat) by (rewrite <- (al_q _ _ A); eapply get_lt; exact G).
  destruct (alive_get _ _ _ A LE) as (q2 & G2 & -> & L2). cbn [bind].
  assert (A1 : alive N (put_queue e2 (set_q_blocked (q_blocked q2 + 1) q2) n)).
  { apply alive_put; [exact A|]. destruct L2; split; assumption. }
  destruct (alive_get _ _ _ A1 LK) as (q1 & G1 & -> & L1). nch G1. rewrite get_upd_neq in G1 by congruence.
  assert (q1 = q) by congruence. subst q1. cbn [bind].
  destruct (live_mark _ _ _ _ L1 D) as (qm & -> & LM & CF & IM). cbn [bind].
  set (n1 := put_queue e2 (set_q_blocked (q_blocked q2 + 1) q2) n) in *.
  assert (A2 := alive_put _ _ k _ A1 LM). assert (LG : forall t, legal N qm (ODelay t)).
  { intro t. cbn [legal]. right; right. eexists. split; [exact IM|]. exact TA. }
  assert (QM : get (nt_queues (put_queue k qm n1)) k = Some qm).
  { nc. apply get_upd_eq. rewrite (al_q _ _ A1). exact LK. }
  assert (HP : nt_heap (put_queue k qm n1) = nt_heap n) by reflexivity.
  set (n2 := put_queue k qm n1) in *. clearbody n2. clear n1 A1 G1.
  assert (FIN : forall t m, alive N m -> nt_queues m = nt_queues n2 -> nt_heap m = nt_heap n ->
    tot (fun n' => alive N n' /\ nt_heap n' = nt_heap n) (let* q1 := queue_at k m in let* q1' := delay_service t q1 in Ok (put_queue k q1' m))).
  { intros t m AM QE HM. unfold queue_at. rewrite QE, QM. cbn [of_option bind].
    destruct (delay_tot N t qm LM (LG t)) as (q' & -> & L'). cbn [bind]. apply tot_Ok. split; [apply alive_put; assumption|exact HM]. }
  destruct (nt_bas n2).
  - destruct (alive_get _ _ _ A2 LE) as (q2' & G2' & -> & L2'). cbn [bind]. rewrite (wfh_root_time _ (lv_dep _ _ L2')). cbn [bind]. cbv zeta.
    apply FIN; [destruct A2; split; assumption|reflexivity|exact HP].
  - apply FIN; auto.
Qed.

Lemma live_stopped N max ag q : QueueTotal.live N q -> QueueTotal.live N (stopped max ag q).
Proof. intro L. unfold stopped. destruct (_ && _); [destruct L; split; assumption|exact L]. Qed.

Lemma aok_time N t a : aok N a -> aok N (set_ag_time t a).
Proof. intros A K. apply A. exact K. Qed.

Lemma move_tot N k e2 t n q a h : alive N n -> get (nt_queues n) k = Some q -> (e2 < N)%nat ->
  qinv q -> next_event_description q = Ok 2 -> q_dep q = Ag a :: h ->
  tot (fun n' => alive N n' /\ nt_heap n' = nt_heap n) (move_agent k k e2 t n).
Proof.
  intros A G LE I DS D. unfold move_agent. assert (LK : (k < N)%nat) by (rewrite <- (al_q _ _ A); eapply get_lt; exact G).
  assert (L := al_live _ _ A _ _ G). unfold queue_at at 1. rewrite G. cbn [of_option bind].
  destruct (next_tot N q L) as ([r q'] & NX & L' & AO). cbn [fst snd] in *.
  destruct (dep_event _ _ _ _ _ I DS D NX) as (b & -> & _). rewrite NX. cbn [bind].
  assert (A1 := alive_put _ _ k _ A L'). set (n1 := put_queue k q' n) in *. assert (H1 : nt_heap n1 = nt_heap n) by reflexivity. clearbody n1.
  destruct (alive_get _ _ _ A1 LE) as (q2 & G2 & -> & L2). cbn [bind].
  destruct (add_arrival_tot N (set_ag_time t b) q2 L2 (aok_time _ _ _ (AO _ eq_refl))) as (q2a & -> & L2a). cbn [bind].
  assert (A2 := alive_put _ _ e2 _ A1 L2a). set (n2 := put_queue e2 q2a n1) in *. assert (H2 : nt_heap n2 = nt_heap n) by exact H1. clearbody n2.
  destruct (alive_get _ _ _ A2 LK) as (q1 & G1 & -> & L1). cbn [bind].
  destruct (set_count_tot N k (q_total q1) n2 A2 LK) as (n3 & -> & A3 & _ & H3). cbn [bind].
  destruct (set_count_tot N e2 (q_total q2a) n3 A3 LE) as (n4 & -> & A4 & _ & H4). cbn [bind].
  assert (LS : QueueTotal.live N (stop_if_full q2a n4)) by (apply (live_stopped N (nt_max n4) (nt_nagents n4)); exact L2a).
  assert (A5 := alive_put _ _ e2 _ A4 LS). set (n5 := put_queue e2 (stop_if_full q2a n4) n4) in *.
  assert (H5 : nt_heap n5 = nt_heap n) by (change (nt_heap n4 = nt_heap n); congruence). clearbody n5.
  destruct (alive_get _ _ _ A5 LE) as (q2b & _ & -> & L2b). cbn [bind].
  destruct (next_tot N q2b L2b) as ([r2 q2'] & -> & L2' & _). cbn [bind fst snd] in *.
  eapply tot_weak; [apply (set_count_tot N e2 (q_total q2') (put_queue e2 q2' n5)); [apply alive_put; assumption|exact LE]|].
  intros n6 (A6 & _ & H6). split; [exact A6|]. rewrite H6. exact H5.
Qed.

(** ** Routing *)

Lemma choice_loop_tot pr u : forall m z k, (k + m < length pr)%nat -> tot (fun j => (j <= k + m)%nat) (choice_loop m pr u z k).
Proof.
  induction m as [|m IH]; intros z k L; cbn [choice_loop]; destruct (get_ex pr k ltac:(lia)) as (p & ->); cbn [of_option bind];
    (destruct (Qle_bool u (z + p)); [apply tot_Ok; lia|]); [apply tot_Ok; lia|].
  eapply tot_weak; [apply IH; lia|]. cbn beta. intros; lia.
Qed.

Lemma choice_tot pr u n : (2 <= n)%nat -> (n <= length pr)%nat -> tot (fun j => (j < n)%nat) (choice pr u n).
Proof.
  intros L2 L. unfold choice. destruct (get_ex pr 0 ltac:(lia)) as (p & ->). cbn [of_option bind].
  destruct (Qle_bool u p); [apply tot_Ok; lia|]. destruct n as [|[|m]]; try lia.
  eapply tot_weak; [apply choice_loop_tot; lia|]. cbn beta. intros; lia.
Qed.

Lemma argmin_loop_lt l : forall k best minv, (best < k + length l)%nat -> (argmin_loop l k best minv < k + length l)%nat.
Proof.
  induction l as [|v l IH]; intros k best minv L; cbn [argmin_loop length] in *; [exact L|].
  rewrite <- Nat.add_succ_comm in *. destruct (v <? minv); apply IH; lia.
Qed.

Lemma numbers_tot n l : (forall e, In e l -> (e < length (nt_queues n))%nat) -> tot (fun zs => length zs = length l) (numbers_queued l n).
Proof.
  induction l as [|e l IH]; intro H; cbn [numbers_queued]; [apply tot_Ok; reflexivity|].
  destruct (get_ex (nt_queues n) e) as (q & G); [apply H; left; reflexivity|]. unfold queue_at. rewrite G. cbn [of_option bind].
  destruct IH as (zs & -> & LZ); [intros x X; apply H; right; exact X|]. cbn [bind]. apply tot_Ok. cbn. congruence.
Qed.

Lemma desired_tot a v n l : get (nt_out n) v = Some l -> l <> [] -> (forall e, In e l -> (e < length (nt_queues n))%nat) ->
  fits (nt_out n) (nt_probs n) -> tot (fun p => In (fst p) l /\ exists iu, snd p = set_nt_iu iu n) (desired_destination a v n).
Proof.
  intros OUT NE LT FT.
  assert (T : exists p, desired_destination a v n = Ok p).
  { unfold desired_destination. rewrite OUT. cbn [of_option bind].
    assert (GEN : exists p, (if (length l <=? 1)%nat then
      let* e := of_option IndexError (get l 0) in Ok (e, n)
    else
      let u := nt_u n (nt_iu n) in
      let n1 := set_nt_iu (S (nt_iu n)) n in
      let* pr := of_option IndexError (get (nt_probs n) v) in
      let* k := choice pr u (length l) in
      let* e := of_option IndexError (get l k) in
      Ok (e, n1)) = Ok p).
    { destruct (Nat.leb_spec (length l) 1) as [B|B].
      - destruct (get_ex l 0) as (e & ->); [destruct l; [congruence|cbn; lia]|]. cbn. eauto.
      - cbv zeta. destruct (FT _ _ OUT) as (pr & -> & LP). cbn [of_option bind].
        destruct (choice_tot pr (nt_u n (nt_iu n)) (length l) ltac:(lia) LP) as (j & -> & LJ). cbn [bind].
        destruct (get_ex l j LJ) as (e & ->). cbn. eauto. }
    destruct (ag_kind a); try exact GEN.
    destruct (numbers_tot n l LT) as (zs & -> & LZ). cbn [bind]. destruct zs as [|z zs]; [destruct l; [congruence|discriminate]|].
    cbn [argmin bind]. destruct (get_ex l (argmin_loop zs 1 0 z)) as (e & ->); [rewrite <- LZ; apply (argmin_loop_lt zs 1 0 z); lia|]. cbn. eauto. }
  destruct T as ([e n1] & E). exists (e, n1). split; [exact E|]. apply desired_Ok in E as (l' & iu & O' & IN & ->).
  rewrite OUT in O'. injection O' as <-. cbn [fst snd]. eauto.
Qed.

(** ** One event *)

Lemma description_tot q : qinv q -> exists d, next_event_description q = Ok d.
Proof.
  intro I. unfold next_event_description. rewrite (wfh_root_time _ (qi_arr _ I)), (wfh_root_time _ (qi_dep _ I)). cbn [bind].
  destruct (c_class (q_cfg q)); eauto.
Qed.

Record nlive (n : net) : Prop := mkNlive {
  nl_inv : ninv n;
  nl_steady : steady n;
  nl_alive : alive (length (nt_queues n)) n;
  nl_conn : connected n;
  nl_loop : mild_loops n;
  nl_within : within_servers n;
  nl_fits : fits (nt_out n) (nt_probs n)
}.

Lemma event_tot n : nlive n -> tot (alive (length (nt_queues n))) (simulate_event n).
Proof.
  intros [I S A C NL LI FT]. set (N := length (nt_queues n)) in *. unfold simulate_event.
  destruct (Nat.eqb_spec (pq_size (nt_heap n)) 0) as [SZ|SZ]; [apply tot_Ok; destruct A; split; assumption|].
  destruct (pop_some n I S ltac:(lia)) as (t & k & h & PO). rewrite PO. cbn [bind].
  destruct (popped _ _ _ _ I ltac:(lia) PO) as (W & LE & LK & QK & QM & (dr & PM) & KS & TT & HB & _).
  destruct (get_ex _ _ LK) as (q & G). unfold queue_at at 1. nc. rewrite G. cbn [of_option bind].
  assert (K := KS _ _ G). assert (IQ := qk_inv _ _ _ K). destruct (description_tot q IQ) as (d & DS). rewrite DS. cbn [bind]. cbv zeta.
  assert (A2 : alive N (set_nt_events (nt_events n + 1) (set_nt_t t (set_nt_heap h n)))) by (destruct A; split; assumption).
  set (n2 := set_nt_events (nt_events n + 1) (set_nt_t t (set_nt_heap h n))) in *.
  assert (G2 : get (nt_queues n2) k = Some q) by exact G. assert (H2 : nt_heap n2 = h) by reflexivity.
  assert (LKN : (k < N)%nat) by exact LK.
  destruct (description_cases _ _ DS) as [->|[->| ->]]; cbn [Z.eqb Pos.eqb].
  - apply tot_Ok. exact A2.
  - unfold net_arrival. unfold queue_at. rewrite G2. cbn [of_option bind]. cbv zeta.
    assert (LQ := al_live _ _ A2 _ _ G2).
    assert (LS : QueueTotal.live N (stop_if_full q n2)) by (apply (live_stopped N (nt_max n2) (nt_nagents n2)); exact LQ).
    destruct (next_tot N _ LS) as ([r q'] & -> & L' & _). cbn [bind fst snd] in *. rewrite (qk_idx _ _ _ K).
    destruct (set_count_tot N k (q_total q') (put_queue k q' n2)) as (n3 & -> & A3 & _ & H3); [apply alive_put; assumption|exact LKN|]. cbn [bind].
    destruct (eltb (q_time q') Inf); [|apply tot_Ok; exact A3].
    eapply tot_weak; [apply (net_push_tot N (qkey q') n3 A3)|].
    + rewrite H3. exact W.
    + apply (lv_cfg _ _ L').
    + intros n4 X; apply X.
  - destruct (description_2 _ IQ DS) as (NN & _ & TD & FT0).
    destruct (wfh_nonempty _ (qi_dep _ IQ)) as (i & h0 & D). destruct i as [|a].
    { exfalso. apply FT0. rewrite TD, D. reflexivity. }
    assert (TA : ag_time a <> Inf) by (intro X; apply FT0; rewrite TD, D; exact X).
    unfold net_departure. unfold queue_at at 1. rewrite G2. cbn [of_option bind]. cbv zeta.
    unfold first_departure. rewrite D. cbn [bind]. destruct (C _ _ G NN) as (l & OUT & NE & LL).
    destruct (desired_tot a (c_tgt (q_cfg q)) n2 l OUT NE LL FT) as ([e2 n1] & -> & IN & (iu & EQ)). cbn [bind fst snd] in *. subst n1.
    assert (A3 : alive N (set_nt_iu iu n2)) by (destruct A2; split; assumption).
    assert (H3 : nt_heap (set_nt_iu iu n2) = h) by reflexivity. assert (G3 : get (nt_queues (set_nt_iu iu n2)) k = Some q) by exact G.
    set (n3 := set_nt_iu iu n2) in *. clearbody n3. assert (LE2 : (e2 < N)%nat) by (apply LL; exact IN).
    destruct (alive_get _ _ _ A3 LE2) as (q2 & _ & -> & L2). cbn [bind]. rewrite (qk_idx _ _ _ K).
    destruct (at_capacity q2 && negb (e2 =? k)%nat) eqn:CB.
    + assert (NK : e2 <> k) by (apply andb_true_iff in CB as [_ CB]; destruct (Nat.eqb_spec e2 k); [discriminate|assumption]).
      destruct (block_tot N k e2 n3 q a h0 A3 NK G3 LE2 NN D TA) as (n4 & -> & A4 & H4). cbn [bind].
      apply reschedule_tot; auto. rewrite H4, H3. exact W.
    + destruct (move_tot N k e2 t n3 q a h0 A3 G3 LE2 IQ DS D) as (n4 & -> & A4 & H4). cbn [bind].
      apply reschedule_tot; auto. rewrite H4, H3. exact W.
Qed.

(** ** Every call *)

Definition same_frame (n n' : net) : Prop :=
  nt_out n' = nt_out n /\ length (nt_queues n') = length (nt_queues n) /\
  forall k q', get (nt_queues n') k = Some q' -> exists q, get (nt_queues n) k = Some q /\ q_cfg q' = q_cfg q /\
    (c_class (q_cfg q) <> CNull -> c_class (q_cfg q) <> CResource -> limited q -> limited q').

Lemma frame_refl n : same_frame n n.
Proof. split; [reflexivity|]. split; [reflexivity|]. intros k q G. exists q. auto. Qed.
Lemma frame_trans n1 n2 n3 : same_frame n1 n2 -> same_frame n2 n3 -> same_frame n1 n3.
Proof.
  intros (A1 & B1 & C1) (A2 & B2 & C2). split; [congruence|]. split; [congruence|].
  intros k q' G. destruct (C2 k q' G) as (q & G2 & E2 & L2). destruct (C1 k q G2) as (q0 & G1 & E1 & L1). exists q0. split; [exact G1|]. split; [congruence|].
  rewrite E1 in L2. auto.
Qed.
Lemma frame_put n k q q' : get (nt_queues n) k = Some q -> q_cfg q' = q_cfg q ->
  (c_class (q_cfg q) <> CNull -> c_class (q_cfg q) <> CResource -> limited q -> limited q') -> same_frame n (put_queue k q' n).
Proof.
  intros G E LI. split; [reflexivity|]. nc. rewrite upd_length. split; [reflexivity|].
  intros j q0 GJ. apply get_upd in GJ as [[-> ->]|[_ GJ]]; [exists q; auto|exists q0; auto|eapply get_lt; exact G].
Qed.

Lemma frame_keeps n n' : same_frame n n' ->
  (connected n -> connected n') /\ (mild_loops n -> mild_loops n') /\ (within_servers n -> within_servers n').
Proof.
  intros (A & B & C). split; [|split]; intros H k q'.
  - intros G NN. destruct (C k q' G) as (q & G0 & E & _). rewrite E in *. destruct (H _ _ G0 NN) as (l & X). rewrite A, B. exists l. exact X.
  - intros l G NN O. destruct (C k q' G) as (q & G0 & E & _). rewrite E in *. rewrite A in O. apply (H _ _ _ G0 NN O).
  - intros G NN NR. destruct (C k q' G) as (q & G0 & E & L). rewrite E in NN, NR. eauto.
Qed.

Lemma nst_frame n n' : ninv n -> nst n n' -> same_frame n n' /\ nt_probs n' = nt_probs n.
Proof.
  intros I ST. assert (I' := proj1 (ninv_step _ _ I ST)).
  destruct ST as [SZ ->|t k h q SZ PO G DS ->|t k h q r q' h' SZ PO G DS NX PU LC ->|
    t k h q a h0 l e2 q2 qm q' d h' iu ie td SZ PO G DS DP OUT IN DD G2 NE CA MB RT DE DL NK PU ->|
    t k h q a h0 l e2 q2old b q' q2 q2a r q2' h' iu SZ PO G DS DP OUT IN DD G2 CA NX GE AD NX2 PU LA LB ->];
    (split; [|reflexivity]).
  - exact (frame_refl n).
  - exact (frame_refl n).
  - destruct (popped _ _ _ _ I SZ PO) as (W & LE & LK & QK & QM & (dr & PM) & KS & TT & HB & _).
    assert (IQ := qk_inv _ _ _ (qok_stopped _ _ (nt_max n) (nt_nagents n) _ (KS _ _ G))). assert (CF := next_cfg _ _ _ IQ NX).
    split; [reflexivity|]. apply (frame_put n k q q' G).
    + rewrite CF. apply cfg_stopped.
    + intros N1 N2 L1. apply (limited_next _ _ _ IQ NX); rewrite ?cfg_stopped; auto. apply limited_stopped; exact L1.
  - destruct (popped _ _ _ _ I SZ PO) as (W & LE & LK & QK & QM & (dr & PM) & KS & TT & HB & _).
    assert (E : q_cfg q' = q_cfg q /\ (c_class (q_cfg q) <> CNull -> c_class (q_cfg q) <> CResource -> limited q -> limited q')).
    { assert (KQ := KS _ _ G). destruct (description_2 _ (qk_inv _ _ _ KQ) DS) as (NN & _ & _ & FT).
      destruct (qok_mark _ _ _ _ KQ MB) as (KM & _ & _ & CM & _). split.
      2:{ intros N1 N2 L1. rewrite <- CM in N1, N2. apply (limited_op (ODelay d) qm q' (qk_inv _ _ _ KM) N1 N2 Logic.I); [|exact DL].
        destruct (mark_facts _ _ (qi_dep _ (qk_inv _ _ _ KQ)) MB) as (a1 & h1 & b1 & _ & _ & -> & _ & _ & A1 & A2).
        unfold limited, cinv, na in *. qc. qch A2. rewrite A2. rewrite A1 in L1. exact L1. }
      apply delay_service_Ok in DL; [|congruence|apply KM|apply KM].
      destruct DL as [(_ & ->)|(x & y & z & m & DL)]; [exact CM|]. cbv zeta in DL. destruct DL as (_ & -> & _). exact CM. }
    destruct E as [E EL].
    assert (F1 := frame_put n e2 q2 (set_q_blocked (q_blocked q2 + 1) q2) G2 eq_refl (fun _ _ L => L)).
    assert (GK : get (nt_queues (put_queue e2 (set_q_blocked (q_blocked q2 + 1) q2) n)) k = Some q) by (nc; rewrite get_upd_neq by congruence; exact G).
    assert (F2 := frame_put _ k q q' GK E EL). exact (frame_trans _ _ _ F1 F2).
  - destruct (popped _ _ _ _ I SZ PO) as (W & LE & LK & QK & QM & (dr & PM) & KS & TT & HB & _).
    assert (KQ := KS _ _ G). destruct (description_2 _ (qk_inv _ _ _ KQ) DS) as (NN & _ & _ & FT).
    destruct (TT _ G) as [TQ|TQ]; [|congruence]. assert (NT : t <> Inf) by congruence.
    assert (F1 := frame_put n k q q' G (next_cfg _ _ _ (qk_inv _ _ _ KQ) NX) (fun N1 N2 => limited_next _ _ _ (qk_inv _ _ _ KQ) NX N1 N2)).
    assert (K2 : qok t e2 q2).
    { apply get_upd in GE as [[-> ->]|[_ GE]]; [|apply KS; exact GE|exact LK].
      apply (qok_next _ _ _ _ _ KQ TQ NT NX). }
    destruct (qok_enter t e2 _ _ q2 (set_ag_time t b) _ _ _ K2 NT eq_refl AD NX2) as (_ & _ & E2).
    assert (EL2 : c_class (q_cfg q2) <> CNull -> c_class (q_cfg q2) <> CResource -> limited q2 -> limited q2').
    { intros N1 N2 L1. assert (IA := qinv_add_arrival _ _ _ (qk_inv _ _ _ K2) AD).
      assert (CA2 : q_cfg q2a = q_cfg q2) by (apply (op_frame (OArrive (set_ag_time t b)) q2 q2a ltac:(discriminate) (qk_inv _ _ _ K2) AD)).
      assert (L2 := limited_op (OArrive (set_ag_time t b)) _ _ (qk_inv _ _ _ K2) N1 N2 Logic.I L1 AD).
      apply (limited_next _ _ _ (qinv_stopped _ _ _ IA) NX2); rewrite ?cfg_stopped, ?CA2; auto. apply limited_stopped; exact L2. }
    assert (F2 := frame_put (put_queue k q' n) e2 q2 q2' GE E2 EL2). exact (frame_trans _ _ _ F1 F2).
Qed.

Lemma event_live n : nlive n -> tot nlive (simulate_event n).
Proof.
  intro L. destruct (event_tot n L) as (n' & E & A). exists n'. split; [exact E|].
  destruct L as [I S _ C NL LI FT]. assert (ST : nst n n') by (apply simulate_event_Ok; [apply ninv_idx; exact I|exact E]).
  destruct (nst_frame _ _ I ST) as [FR PR]. destruct (frame_keeps _ _ FR) as (FC & FL & FW). destruct FR as (FO & FN & _). split.
  - apply (ninv_step _ _ I ST).
  - eapply steady_step; eassumption.
  - rewrite FN. exact A.
  - auto.
  - auto.
  - auto.
  - rewrite FO, PR. exact FT.
Qed.

Lemma runs_live m : forall n, nlive n -> tot nlive (nruns m n).
Proof.
  induction m as [|m IH]; intros n L; cbn [nruns]; [apply tot_Ok; exact L|].
  destruct (event_live n L) as (n' & -> & L'). cbn [bind]. apply IH; exact L'.
Qed.

Lemma steady_fresh n : (forall t k, In (t, k) (pq_entries (nt_heap n)) -> qmap (nt_heap n) k = t /\ t <> Inf) -> steady n.
Proof. intro H. split; [intros t k X; apply (H t k X)|]. intros t k q X _ _. apply (H t k X). Qed.

Lemma steady_new n h : (forall k q, get (nt_queues n) k = Some q -> qok (nt_t n) k q) ->
  pq_new (pq_junk (nt_heap n)) (finite_keys (nt_queues n)) (length (nt_queues n)) = Ok h -> forall b, steady (set_nt_init b (set_nt_heap h n)).
Proof.
  intros KS E b. destruct (heap_new n h KS E) as (_ & PM & QM). apply steady_fresh. nc. intros t k X. split; [apply QM; exact X|].
  apply (Permutation_in _ PM) in X. apply finite_keys_in in X as (q & _ & _ & NI); [exact NI|]. intros j q G. apply (KS _ _ G).
Qed.

Lemma steady_blank n : pq_size (nt_heap n) = 0%nat -> steady n.
Proof. intro Z. apply steady_fresh. unfold pq_entries. rewrite Z. intros t k []. Qed.

Lemma activate_tot N l : forall n, alive N n -> (forall e, In e l -> (e < N)%nat) -> tot (alive N) (activate l n).
Proof.
  induction l as [|e l IH]; intros n A H; cbn [activate]; [apply tot_Ok; exact A|].
  destruct (alive_get _ _ e A) as (q & G & -> & L); [apply H; left; reflexivity|]. cbn [bind].
  destruct (set_active_tot N q L) as (q' & -> & L'). cbn [bind].
  destruct (set_count_tot N e (q_total q') (put_queue e q' n)) as (n1 & -> & A1 & _); [apply alive_put; assumption|apply H; left; reflexivity|].
  cbn [bind]. apply IH; [exact A1|]. intros x X. apply H. right; exact X.
Qed.

Lemma set_active_cfg q q' : qinv q -> set_active q = Ok q' -> q_cfg q' = q_cfg q.
Proof. intros I SA. apply (op_frame OActive q q' ltac:(discriminate) I SA). Qed.

Lemma set_active_frame n k q q' : qinv q -> get (nt_queues n) k = Some q -> set_active q = Ok q' -> same_frame n (put_queue k q' n).
Proof.
  intros I G SA. apply (frame_put n k q q' G (set_active_cfg _ _ I SA)). intros N1 N2 L1. exact (limited_op OActive _ _ I N1 N2 Logic.I L1 SA).
Qed.

Lemma activate_frame l : forall n n', calm n -> activate l n = Ok n' -> same_frame n n'.
Proof.
  induction l as [|e l IH]; intros n n' C H; cbn [activate] in H; [injection H as <-; apply frame_refl|].
  assert (H0 := H). mbind H. apply queue_at_Ok in E. mbind H. mbind H.
  assert (C1 : calm x1).
  { apply (activate_ok [e] n); [exact C|]. cbn [activate]. unfold queue_at. rewrite E. cbn [of_option bind]. rewrite E0. cbn [bind]. rewrite E1. reflexivity. }
  apply set_count_Ok in E1 as [_ ->]. eapply frame_trans; [|apply IH; [exact C1|exact H]].
  refine (set_active_frame n e x x0 _ E E0). apply (qk_inv _ _ _ (proj1 (ca_q _ C _ _ E))).
Qed.

Lemma on_queues_live f l : (forall q, quiet q (f q)) -> (forall q, q_servers (f q) = q_servers q) -> (forall N q, QueueTotal.live N q -> QueueTotal.live N (f q)) ->
  forall N n n', alive N n -> on_queues f l n = Ok n' ->
  alive N n' /\ same_frame n n' /\ nt_heap n' = nt_heap n /\ nt_probs n' = nt_probs n /\
  (forall k q', get (nt_queues n') k = Some q' -> exists q, get (nt_queues n) k = Some q /\ q_time q' = q_time q).
Proof.
  intros QU QS LV. induction l as [|e l IH]; intros N n n' A H; cbn [on_queues] in H.
  - injection H as <-. split; [exact A|]. split; [apply frame_refl|]. split; [reflexivity|]. split; [reflexivity|]. intros k q G. eauto.
  - mbind H. apply queue_at_Ok in E. assert (A1 := alive_put _ _ e _ A (LV N x (al_live _ _ A _ _ E))).
    destruct (QU x) as (Q1 & _ & Q3 & _ & _ & Q6 & _).
    apply IH with (N := N) in H as (A2 & F2 & H2 & P2 & T2); [|exact A1]. assert (F1 : same_frame n (put_queue e (f x) n)) by (apply (frame_put n e x (f x) E Q1); intros _ _ L1; unfold limited, cinv in *; rewrite Q3, QS; exact L1).
    split; [exact A2|]. split; [eapply frame_trans; eassumption|]. split; [exact H2|]. split; [exact P2|].
    intros k q' G. destruct (T2 k q' G) as (q & G1 & T1). nch G1. apply get_upd in G1 as [[-> ->]|[_ G1]]; [|eauto|eapply get_lt; exact E].
    exists x. split; [exact E|congruence].
Qed.

Lemma in_firstn {A} (x : A) m l : In x (firstn m l) -> In x l.
Proof. intro H. rewrite <- (firstn_skipn m l). apply in_or_app. left; exact H. Qed.

Lemma alive_same N n n' : alive N n -> nt_queues n' = nt_queues n -> nt_nagents n' = nt_nagents n -> alive N n'.
Proof. intros [A B C] E1 E2. split; rewrite ?E1, ?E2; auto. Qed.

Lemma initialize_live sel n n' : ngood n -> nlive n -> nt_init n = false -> initialize_queues sel n = Ok n' -> nlive n'.
Proof.
  intros [_ BL] [I S A C NL LI FT] NI H. assert (H0 := H). destruct (initialize_ok _ _ _ I (BL NI) H) as [I' _].
  unfold initialize_queues in H. mbind H. destruct (length x =? 0)%nat; [discriminate|]. mbind H. rename x0 into n1. mbind H. rename x0 into h.
  injection H as <-. destruct (BL NI) as [BT BQ].
  assert (CA : calm n).
  { destruct I as [I1 I2 I3 I4 I5]. split; auto. intros k q G. split; [rewrite <- BT; apply I2; exact G|apply (BQ _ _ G)]. }
  assert (CA1 := activate_ok _ _ _ CA E0). assert (FR := activate_frame _ _ _ CA E0).
  destruct (activate_same _ _ _ E0) as (L1 & O1 & P1 & T1 & _ & _ & H1 & _).
  destruct (frame_keeps _ _ FR) as (FC & FL & FW).
  assert (AL : alive (length (nt_queues n)) n1).
  { destruct (activate_tot (length (nt_queues n)) (truncate x (nt_max n)) n A) as (n2 & E2 & A2).
    - intros e IN. assert (TI : In e x).
      { unfold truncate in IN. destruct (nt_max n); [|exact IN]. destruct (z <? Z.of_nat (length x)); [|exact IN].
        unfold slice_to in IN. destruct (0 <=? z); eapply in_firstn; exact IN. }
      clear - E TI. revert x E TI. induction sel as [|s sel IH]; intros x E TI; cbn [not_null] in E; [injection E as <-; destruct TI|].
      mbind E. mbind E. injection E as <-. apply queue_at_Ok in E0. destruct (c_type (q_cfg x0) =? 0); [eauto|].
      destruct TI as [<-|TI]; [eapply get_lt; exact E0|eauto].
    - rewrite E0 in E2. injection E2 as <-. exact A2. }
  split.
  - exact I'.
  - apply steady_new; [|rewrite H1; exact E1]. intros k q G. rewrite (ca_t _ CA1). apply (ca_q _ CA1 _ _ G).
  - nc. rewrite L1. apply (alive_same _ n1); auto.
  - apply FC; exact C.
  - apply FL; exact NL.
  - apply FW; exact LI.
  - nc. rewrite O1, P1. exact FT.
Qed.

Lemma live_call n c n' : ngood n -> nlive n -> tidy n c -> run_call c n = Ok n' -> nlive n'.
Proof.
  intros GD L [US FP] H. destruct c as [sel| | |o]; cbn [run_call] in H.
  - eapply initialize_live; eassumption.
  - injection H as <-. destruct L as [I S A C NL LI FT]. destruct (clear_ok n I) as [I' _].
    assert (FR : same_frame n (net_clear n)).
    { split; [reflexivity|]. unfold net_clear. nc. rewrite map_length. split; [reflexivity|]. intros k q' G.
      unfold get in G. rewrite nth_error_map in G. destruct (nth_error (nt_queues n) k) as [q|] eqn:G0; [|discriminate]. injection G as <-.
      exists q. split; [exact G0|]. assert (CQ : q_cfg (clear q) = q_cfg q) by (unfold clear, qs_clear; destruct (c_class (q_cfg q)); reflexivity).
      split; [exact CQ|]. intros N1 N2 L1. exact (limited_op OClear _ _ (qk_inv _ _ _ (ni_q _ I _ _ G0)) N1 N2 Logic.I L1 eq_refl). }
    destruct (frame_keeps _ _ FR) as (FC & FL & FW). split; auto.
    + apply steady_blank. reflexivity.
    + destruct A as [A1 A2 A3]. unfold net_clear. split; nc; [reflexivity|rewrite repeat_length, map_length; reflexivity|].
      intros k q' G. unfold get in G. rewrite nth_error_map in G. destruct (nth_error (nt_queues n) k) as [q|] eqn:G0; [|discriminate]. injection G as <-.
      rewrite map_length. apply live_clear. eapply A3; exact G0.
  - destruct L as [I S A C NL LI FT]. destruct GD as [_ BL]. destruct (copy_ok _ _ I H BL) as [I' _].
    unfold net_copy in H. destruct (nt_init n) eqn:IN.
    + mbind H. injection H as <-. assert (ST := steady_new n x (ni_q _ I) E true). split; [exact I'|exact ST|apply (alive_same _ n); auto|exact C|exact NL|exact LI|exact FT].
    + injection H as <-. split; [exact I'|apply steady_blank; reflexivity|apply (alive_same _ n); auto|exact C|exact NL|exact LI|exact FT].
  - destruct o as [|b l|l|p|m|b]; cbn [run_nop] in H.
    + destruct (event_live n L) as (n2 & E & L2). rewrite H in E. injection E as <-. exact L2.
    + assert (I' : ninv n') by (eapply (ngood_call n (KOp (NCollect b l))); eauto).
      destruct L as [I S A C NL LI FT]. eapply on_queues_live in H; [| |reflexivity|intros N q [L1 L2 L3 L4 L5 L6 L7 L8 L9 L10]; split; assumption|exact A]; [|intro q; repeat split].
      destruct H as (A' & FR & HP & PR & TM). destruct (frame_keeps _ _ FR) as (FC & FL & FW). destruct FR as (FO & FN & _). destruct S as [S1 S2]. split; auto.
      * split; rewrite HP; [exact S1|]. intros t k q' X G TI. destruct (TM _ _ G) as (q & G0 & T0). apply S2 with q; congruence || auto.
      * rewrite FN. exact A'.
      * rewrite FO, PR. exact FT.
    + assert (I' : ninv n') by (eapply (ngood_call n (KOp (NClearData l))); eauto).
      destruct L as [I S A C NL LI FT]. eapply on_queues_live in H; [| |reflexivity|intros N q [L1 L2 L3 L4 L5 L6 L7 L8 L9 L10]; split; try assumption; intros i rows []|exact A]; [|intro q; repeat split].
      destruct H as (A' & FR & HP & PR & TM). destruct (frame_keeps _ _ FR) as (FC & FL & FW). destruct FR as (FO & FN & _). destruct S as [S1 S2]. split; auto.
      * split; rewrite HP; [exact S1|]. intros t k q' X G TI. destruct (TM _ _ G) as (q & G0 & T0). apply S2 with q; congruence || auto.
      * rewrite FN. exact A'.
      * rewrite FO, PR. exact FT.
    + assert (I' : ninv n') by (eapply (ngood_call n (KOp (NProbs p))); eauto).
      injection H as <-. destruct L as [I S A C NL LI FT]. split; [exact I'|exact S|apply (alive_same _ n); auto|exact C|exact NL|exact LI|nc; apply FP; reflexivity].
    + assert (I' : ninv n') by (eapply (ngood_call n (KOp (NMax m))); eauto).
      injection H as <-. destruct L as [I S A C NL LI FT]. split; [exact I'|exact S|apply (alive_same _ n); auto|exact C|exact NL|exact LI|exact FT].
    + assert (I' : ninv n') by (eapply (ngood_call n (KOp (NBlocking b))); eauto).
      injection H as <-. destruct L as [I S A C NL LI FT]. split; [exact I'|exact S|apply (alive_same _ n); auto|exact C|exact NL|exact LI|exact FT].
Qed.

Lemma nreach_weak (ok ok' : net -> ncall -> Prop) n0 n : (forall n c, ok n c -> ok' n c) -> nreach ok n0 n -> nreach ok' n0 n.
Proof. intros W R. induction R; [constructor|]. econstructor; eauto. Qed.

Lemma uniform_fits out : fits out (uniform_probs out).
Proof.
  intros v l G. unfold uniform_probs, get. rewrite nth_error_map. unfold get in G. rewrite G. cbn [option_map].
  eexists. split; [reflexivity|]. rewrite repeat_length. lia.
Qed.

Lemma live_start n0 : well_made n0 -> made_for n0 -> connected n0 -> mild_loops n0 -> nlive n0.
Proof.
  intros W M C NL. destruct (well_made_ok _ W) as (I & B & _). assert (BQ := proj2 B). destruct W as (qs & out & max & bas & junk & u & eps & -> & QS & EP). split; auto.
  - apply steady_blank; reflexivity.
  - split; [reflexivity|apply repeat_length|]. intros k q G. destruct (M k q G) as (c & s & col & -> & CO & SI). apply live_new; assumption.
  - intros k q G _ _. left. destruct (BQ _ _ G) as (_ & _ & _ & _ & X & _). unfold na. rewrite X. cbn. lia.
  - apply uniform_fits.
Qed.

Lemma live_reach n0 n : well_made n0 -> made_for n0 -> connected n0 -> mild_loops n0 -> nreach tidy n0 n -> nlive n.
Proof.
  intros W M C NL R. induction R as [|n c n' R IH US H]; [apply live_start; assumption|].
  assert (G : ngood n) by (apply (ngood_reach n0); [exact W|]; apply (nreach_weak tidy); [intros ? ? X; apply X|exact R]).
  eapply live_call; eauto.
Qed.

(** ** No event raises *)

Lemma simulate_total n0 n m : well_made n0 -> made_for n0 -> connected n0 -> mild_loops n0 -> nreach tidy n0 n -> exists n', nruns m n = Ok n'.
Proof.
  intros W M C NL R. destruct (runs_live m n (live_reach _ _ W M C NL R)) as (n' & E & _). eauto.
Qed.

Lemma no_loop_mild n : no_loop n -> mild_loops n.
Proof. intros NL k q l G NN O IN. destruct (NL _ _ _ G NN O IN). Qed.
