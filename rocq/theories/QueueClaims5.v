(** * QueueClaims5: NullQueue, ResourceQueue, InfoQueue *)
From Coq Require Import List ZArith QArith Lia Bool Permutation Arith.
From Verif Require Import Base Heap HeapProofs Queue QueueEffects QueueEvents QueueSteps QueueInv SpecQueue QueueFlow QueueHist QueueData QueueClaims1.
Import ListNotations.
Open Scope Z_scope.

(** ** C23 *)

Lemma null_op o q q' : c_class (q_cfg q) = CNull -> run_op o q = Ok q' ->
  q_cfg q' = q_cfg q /\ q_time q' = q_time q /\ q_now q' = q_now q /\ q_arr q' = q_arr q /\ q_dep q' = q_dep q /\
  q_line q' = q_line q /\ q_nsys q' = q_nsys q /\ q_servers q' = q_servers q /\
  match o with
  | OArrive a => q_collect q' = q_collect q /\
      (forall i, rows_of (q_data q') i = rows_of (q_data q) i ++
                 (if q_collect q && aid_eqb (ag_id a) i then [mkData (ag_time a) (Fin 0) (Fin 0) 0 0] else []))
  | OCollect b => q_collect q' = b /\ q_data q' = q_data q
  | OClearData => q_collect q' = q_collect q /\ q_data q' = []
  | _ => q_collect q' = q_collect q /\ q_data q' = q_data q
  end.
Proof.
  intros C H. destruct o; cbn [run_op] in H.
  - unfold next_event in H. rewrite C in H. cbn in H. injection H as <-. auto 10.
  - unfold set_active, add_arrival_self in H. qch H. rewrite C in H. destruct (q_active q); injection H as <-; auto 10.
  - injection H as <-. auto 10.
  - unfold set_num_servers in H. rewrite C in H. injection H as <-. auto 10.
  - unfold delay_service in H. rewrite C in H. injection H as <-. auto 10.
  - unfold add_arrival in H. rewrite C in H. injection H as <-.
    destruct (q_collect q) eqn:CO; qc; repeat split; auto.
    + intro i. rewrite rows_append. cbn [andb]. destruct (aid_eqb (ag_id a) i); [reflexivity|]. rewrite app_nil_r. reflexivity.
    + intro i. cbn [andb]. rewrite app_nil_r. reflexivity.
  - injection H as <-. auto 10.
  - unfold clear in H. rewrite C in H. injection H as <-. auto 10.
  - injection H as <-. auto 10.
Qed.

Lemma null_absorbs c s col n q : c_class c = CNull -> reach anything (new_queue c s col n) q ->
  q_time q = Inf /\ q_now q = Fin 0 /\ next_event_description q = Ok 0 /\ number_queued q = 0 /\
  scheduled q = [] /\ in_service q = [] /\ waiting q = [] /\ q_nsys q = 0 /\ next_event q = Ok (None, q).
Proof.
  intros C R.
  assert (G : q_cfg q = c /\ q_time q = Inf /\ q_now q = Fin 0 /\ q_arr q = [Sentinel] /\ q_dep q = [Sentinel] /\ q_line q = [] /\ q_nsys q = 0).
  { induction R as [|q o q' R IH OK H]; [unfold new_queue; qc; auto 10|].
    destruct IH as (I1 & I2 & I3 & I4 & I5 & I6 & I7). apply null_op in H; [|congruence].
    destruct H as (H1 & H2 & H3 & H4 & H5 & H6 & H7 & _). rewrite H1, H2, H3, H4, H5, H6, H7. auto 10. }
  destruct G as (I1 & I2 & I3 & I4 & I5 & I6 & I7).
  unfold next_event_description, number_queued, scheduled, in_service, waiting, next_event. rewrite I1, C, I2, I3, I4, I5, I6, I7. auto 10.
Qed.

Lemma null_rows_gen ops q q' : c_class (q_cfg q) = CNull -> q_collect q = true ->
  (forall o, In o ops -> match o with OCollect _ | OClearData => False | _ => True end) ->
  run_ops ops q = Ok q' ->
  forall i, rows_of (q_data q') i = rows_of (q_data q) i ++
            map (fun a => mkData (ag_time a) (Fin 0) (Fin 0) 0 0) (filter (fun a => aid_eqb (ag_id a) i) (received ops)).
Proof.
  revert q. induction ops as [|o ops IH]; intros q C CO NO H i.
  - injection H as <-. cbn. rewrite app_nil_r. reflexivity.
  - cbn [run_ops] in H. mbind H. apply null_op in E; [|exact C]. destruct E as (E1 & _ & _ & _ & _ & _ & _ & _ & E2).
    assert (N1 := NO o (or_introl eq_refl)).
    assert (CX : q_collect x = true) by (destruct o; try destruct N1; destruct E2; congruence).
    rewrite (IH x); [|congruence|exact CX|intros o' X; apply NO; right; exact X|exact H].
    destruct o; try destruct N1; destruct E2 as (E2 & E3); try (rewrite E3; reflexivity).
    rewrite E3, CO, <- app_assoc. cbn [received flat_map andb app filter]. fold (received ops).
    destruct (aid_eqb (ag_id a) i); reflexivity.
Qed.

Lemma null_rows c s n ops q : c_class c = CNull ->
  (forall o, In o ops -> match o with OCollect _ | OClearData => False | _ => True end) ->
  run_ops ops (new_queue c s true n) = Ok q ->
  forall i, rows_of (q_data q) i =
            map (fun a => mkData (ag_time a) (Fin 0) (Fin 0) 0 0) (filter (fun a => aid_eqb (ag_id a) i) (received ops)).
Proof. intros C NO H i. apply (null_rows_gen ops (new_queue c s true n) q C eq_refl NO H i). Qed.

(** ** C24, C26 *)

Lemma fewer_0 s : fewer s 0 = s.
Proof. destruct s; cbn; [f_equal; lia|reflexivity]. Qed.
Lemma fewer_fewer s j k : fewer (fewer s j) k = fewer s (j + k).
Proof. destruct s; cbn; [f_equal; lia|reflexivity]. Qed.

Lemma exceeding_app m s j k : exceeding m s (j + k) = exceeding m s j + exceeding m (fewer s j) k.
Proof.
  unfold exceeding, zlen. rewrite seq_app, filter_app, app_length, Nat2Z.inj_add. f_equal. f_equal.
  replace (1 + j)%nat with (j + 1)%nat by lia.
  generalize 1%nat as b. revert j. induction k; intros j b; [reflexivity|]. cbn [seq filter]. rewrite fewer_fewer.
  replace (S (j + b)) with (j + S b)%nat by lia. destruct (eltb m (fewer s (j + b))); cbn [length]; rewrite IHk; reflexivity.
Qed.

Definition keep (q q' : queue) : Prop :=
  q_cfg q' = q_cfg q /\ q_servers q' = q_servers q /\ q_over q' = q_over q /\ q_net q' = q_net q.

(** [k] servers were taken. *)
Definition took (q q' : queue) (k : nat) : Prop :=
  q_cfg q' = q_cfg q /\ q_servers q' = fewer (q_servers q) k /\
  q_over q' = q_over q + exceeding (c_max_servers (q_cfg q)) (q_servers q) k /\
  (k = 0%nat \/ eLe (Fin (Z.of_nat k)) (q_servers q)) /\ q_net q' = q_net q.

Lemma took_0 q q' : keep q q' -> took q q' 0.
Proof. intros (A & B & C & D). split; [exact A|]. split; [rewrite fewer_0; exact B|]. split; [rewrite C; cbn; lia|]. auto. Qed.

Lemma keep_refl q : keep q q.
Proof. unfold keep. auto. Qed.
Lemma keep_trans q q1 q2 : keep q q1 -> keep q1 q2 -> keep q q2.
Proof. unfold keep. intuition congruence. Qed.

Lemma took_trans q q1 q2 j k : took q q1 j -> took q1 q2 k -> took q q2 (j + k).
Proof.
  intros (A1 & A2 & A3 & A4 & A5) (B1 & B2 & B3 & B4 & B5). split; [congruence|]. split; [rewrite B2, A2; apply fewer_fewer|]. split.
  - rewrite B3, A3, A1, A2, exceeding_app. lia.
  - split; [|congruence]. rewrite A2 in B4. destruct A4 as [->|A4], B4 as [->|B4]; auto.
    + right. rewrite fewer_0 in B4. exact B4.
    + right. rewrite Nat.add_0_r. exact A4.
    + right. destruct (q_servers q); cbn in *; [lia|exact Logic.I].
Qed.

Lemma took_l q q1 q2 k : keep q q1 -> took q1 q2 k -> took q q2 k.
Proof. intros A T. apply (took_trans q q1 q2 0 k); [apply took_0; assumption|exact T]. Qed.
Lemma took_r q q1 q2 k : keep q1 q2 -> took q q1 k -> took q q2 k.
Proof. intros A T. rewrite <- (Nat.add_0_r k). apply (took_trans q q1 q2 k 0); [exact T|apply took_0; assumption]. Qed.

Lemma action_took a q a' q' : queue_action a q = Ok (a', q') -> exists k, (k <= 1)%nat /\ took q q' k.
Proof.
  unfold queue_action. intro H. destruct (ag_kind a).
  - injection H as <- <-. exists 0%nat. split; [lia|apply took_0, keep_refl].
  - injection H as <- <-. exists 0%nat. split; [lia|apply took_0, keep_refl].
  - unfold resource_action in H. destruct (is_resource _); [|injection H as <- <-; exists 0%nat; split; [lia|apply took_0, keep_refl]].
    destruct (ag_has a); [injection H as <- <-; exists 0%nat; split; [lia|apply took_0, keep_refl]|].
    destruct (eltb (Fin 0) (q_servers q)) eqn:E; [|injection H as <- <-; exists 0%nat; split; [lia|apply took_0, keep_refl]].
    injection H as <- <-. exists 1%nat. split; [lia|]. apply eltb_lt in E. unfold rq_set_num_servers, took, exceeding.
    cbn [seq filter]. change (fewer (q_servers q) 1) with (eadd (q_servers q) (Fin (-1))).
    destruct (eltb (c_max_servers (q_cfg q)) (eadd (q_servers q) (Fin (-1)))); qc.
    + split; [reflexivity|]. split; [reflexivity|]. split; [reflexivity|]. split; [|reflexivity]. right. destruct (q_servers q); cbn in *; [lia|exact Logic.I].
    + split; [reflexivity|]. split; [reflexivity|]. split; [cbn; lia|]. split; [|reflexivity]. right. destruct (q_servers q); cbn in *; [lia|exact Logic.I].
  - unfold info_action in H. destruct (is_info _).
    + mbind H. mbind H. mbind H. mbind H. injection H as <- <-. exists 0%nat. split; [lia|apply took_0, keep_refl].
    + injection H as <- <-. exists 0%nat. split; [lia|apply took_0, keep_refl].
Qed.

Lemma dlast_if_3 q i f q' : dlast_if q i f = Ok q' -> keep q q'.
Proof.
  unfold dlast_if. intro H. destruct (q_collect q); [|injection H as <-; apply keep_refl].
  destruct (dget _ _); [|injection H as <-; apply keep_refl].
  mbind H. injection H as <-. unfold keep; auto.
Qed.
Lemma update_time_3 q q' : update_time q = Ok q' -> keep q q'.
Proof. unfold update_time. intro H. mbind H. mbind H. injection H as <-. unfold keep; auto. Qed.
Lemma update_time_if_3 q q' : update_time_if q = Ok q' -> keep q q'.
Proof. unfold update_time_if. intro H. mbind H. mbind H. destruct (eltb _ _); injection H as <-; unfold keep; auto. Qed.

Lemma self_3 q q' : add_arrival_self q = Ok q' -> keep q q'.
Proof.
  intro H. assert (G : q' = q \/ add_arrival_new q = Ok q').
  { unfold add_arrival_self in H. destruct (c_class (q_cfg q)); auto. injection H as <-. auto. }
  clear H. destruct G as [->|H]; [apply keep_refl|]. unfold add_arrival_new in H.
  destruct (eleb (q_next_ct q) (q_now q)); [|apply update_time_if_3; exact H].
  destruct (eleb (c_deactive_t (q_cfg q)) _).
  - destruct (is_info _); [discriminate|]. injection H as <-. unfold keep; auto.
  - mbind H. mbind H. apply update_time_if_3 in H. refine (keep_trans _ _ _ _ H).
    match goal with |- context [if ?b then _ else _] => destruct b end; unfold keep; auto.
Qed.
Lemma draw_3 (q q' : queue) : (if q_active q then add_arrival_self q else Ok q) = Ok q' -> keep q q'.
Proof. destruct (q_active q); [apply self_3|]. intro H; injection H as <-. apply keep_refl. Qed.

Lemma service_took q q' : service_from_queue q = Ok q' -> exists k, (k <= 1)%nat /\ took q q' k.
Proof.
  unfold service_from_queue. intro H. destruct (q_line q) as [|a line]; [discriminate|]. mbind H. unfold call_srv in H.
  apply dlast_if_3 in E. mbind H. destruct x0 as [a' q4]. mbind H. injection H as <-.
  apply action_took in E0 as (k & K & T). exists k. split; [exact K|].
  refine (took_r _ q4 _ _ _ _); [unfold keep; auto|]. refine (took_l _ _ _ _ _ T). exact E.
Qed.

Lemma departure_took q r q' : qs_departure q = Ok (r, q') -> exists k, (k <= 2)%nat /\ took q q' k.
Proof.
  unfold qs_departure. intro H. mbind H. destruct x as [a h]. mbind H. apply dlast_if_3 in E0.
  mbind H. mbind H. destruct x1 as [a' q4]. mbind H. injection H as _ <-.
  apply update_time_3 in E3. apply action_took in E2 as (k2 & K2 & T2).
  assert (T1 : exists k, (k <= 1)%nat /\ took x x0 k).
  { destruct (_ && _); [apply service_took; exact E1|]. injection E1 as <-. exists 0%nat. split; [lia|apply took_0, keep_refl]. }
  destruct T1 as (k1 & K1 & T1). exists (k1 + k2)%nat. split; [lia|].
  refine (took_r _ _ _ _ E3 _). refine (took_trans _ _ _ _ _ _ T2). refine (took_l _ _ _ _ _ T1). exact E0.
Qed.

Lemma arrival_took q r q' : qs_arrival q = Ok (r, q') -> exists k, (k <= 2)%nat /\ took q q' k.
Proof.
  unfold qs_arrival. intro H. mbind H. destruct x as [a h]. mbind H. apply draw_3 in E0.
  mbind H. destruct x0 as [a1 q5]. apply action_took in E1 as (k1 & K1 & T1).
  assert (T1' : took q q5 k1).
  { refine (took_l _ _ _ _ _ T1). destruct (q_collect _); exact E0. }
  clear T1. destruct (eleb (Fin (q_nsys q5)) (q_servers q5)).
  - mbind H. unfold call_srv in H. mbind H. destruct x1 as [a2 q8]. mbind H. mbind H. injection H as _ <-.
    assert (S6 : keep q5 x0).
    { destruct (q_collect q5); [mbind E1|]; injection E1 as <-; unfold keep; auto. }
    apply action_took in E2 as (k2 & K2 & T2). apply update_time_3 in E4.
    exists (k1 + k2)%nat. split; [lia|]. refine (took_r _ _ _ _ E4 _).
    refine (took_r _ q8 _ _ _ _); [unfold keep; auto|]. refine (took_trans _ _ _ _ _ T1' _). refine (took_l _ _ _ _ _ T2). exact S6.
  - mbind H. injection H as _ <-. apply update_time_3 in E1. exists k1. split; [lia|].
    refine (took_r _ _ _ _ E1 _). exact T1'.
Qed.

Lemma qs_took q r q' : qs_next_event q = Ok (r, q') -> exists k, (k <= 2)%nat /\ took q q' k.
Proof.
  unfold qs_next_event. intro H. mbind H. mbind H. destruct (eltb x0 x); [eapply departure_took; eauto|].
  destruct (eltb x Inf); [eapply arrival_took; eauto|]. injection H as _ <-. exists 0%nat. split; [lia|apply took_0, keep_refl].
Qed.

Lemma loss_took q r q' : loss_next_event q = Ok (r, q') -> exists k, (k <= 2)%nat /\ took q q' k.
Proof.
  unfold loss_next_event. intro H. mbind H. mbind H. destruct (eltb x0 x); [eapply qs_took; eauto|].
  destruct (eltb x Inf); [|injection H as _ <-; exists 0%nat; split; [lia|apply took_0, keep_refl]].
  match type of H with (if ?b then _ else _) = _ => destruct b end.
  - mbind H. destruct x1. injection H as _ <-. eapply qs_took; eauto.
  - unfold loss_blocked in H. mbind H. destruct x1 as [a h]. mbind H. mbind H. mbind H. injection H as _ <-.
    apply draw_3 in E3. apply update_time_3 in E4. exists 0%nat. split; [lia|].
    apply took_0. refine (keep_trans _ _ _ _ E4). destruct (q_collect _); exact E3.
Qed.

Lemma resource_next q r q' : c_class (q_cfg q) = CResource -> next_event q = Ok (r, q') ->
  (returns q /\ q_servers q' = eadd (q_servers q) (Fin 1) /\
   q_over q' = q_over q + (if eltb (c_max_servers (q_cfg q)) (eadd (q_servers q) (Fin 1)) then 1 else 0)) \/
  (~ returns q /\ exists k, (k <= 2)%nat /\ took q q' k).
Proof.
  intros C H. unfold next_event in H. rewrite C in H. unfold rq_next_event in H. unfold returns, arriving, next_event_description. rewrite C.
  destruct (q_arr q) as [|[|a] h0] eqn:A; [discriminate| |].
  - right. apply loss_took in H. split; [|exact H]. cbn. destruct (root_time (q_dep q)) as [td|]; cbn; [|intros (a & X & _); discriminate].
    destruct (eltb td Inf); cbn; intros (a & X & _); discriminate.
  - cbn [root_time bind itime]. destruct (ag_kind a) eqn:K;
      try (right; apply loss_took in H; split; [|exact H]; destruct (root_time (q_dep q)) as [td|]; cbn; [|intros (b & X & _); discriminate];
           destruct (eltb td (ag_time a)); [intros (b & X & _); discriminate|]; destruct (eltb (ag_time a) Inf); intros (b & X & Y & _); [congruence|discriminate]).
    mbind H. rewrite E. cbn [bind]. destruct (eltb x (ag_time a)) eqn:L.
    { right. split; [intros (b & X & _); discriminate|]. eapply loss_took; eauto. }
    destruct (eltb (ag_time a) Inf) eqn:FI.
    2:{ right. split; [intros (b & X & _); discriminate|]. injection H as _ <-. exists 0%nat. split; [lia|apply took_0, keep_refl]. }
    destruct (ag_has a) eqn:HA.
    + left. split; [exists a; auto|]. unfold rq_return in H. mbind H. destruct x0 as [a0 h]. mbind H. injection H as _ <-.
      apply update_time_3 in E1 as (_ & U2 & U3 & _). rewrite U2, U3. unfold rq_set_num_servers. qc.
      destruct (eltb (c_max_servers (q_cfg q)) (eadd (q_servers q) (Fin 1))); qc; destruct (q_collect q); qc; (split; [reflexivity|lia]).
    + right. split; [intros (b & X & _ & Y); congruence|].
      destruct (eltb (Fin (q_nsys q)) (q_servers q)).
      * mbind H. destruct x0. injection H as _ <-. eapply loss_took; eauto.
      * unfold rq_blocked in H. mbind H. destruct x0 as [a0 h]. mbind H. injection H as _ <-. apply update_time_3 in E1.
        exists 0%nat. split; [lia|]. apply took_0. refine (keep_trans _ _ _ _ E1). destruct (q_collect _); unfold keep; auto.
Qed.

(** Servers are never negative. *)
Lemma resource_nonneg c s col n q : c_class c = CResource -> eLe (Fin 0) s ->
  reach (fun q o => match o with OServers (PInt z) => 0 <= z | _ => True end) (new_queue c s col n) q ->
  eLe (Fin 0) (q_servers q).
Proof.
  intros C P R. induction R as [|q o q' R IH OK H].
  - unfold new_queue. qc. rewrite C. exact P.
  - assert (B := basics_reach _ _ _ _ _ _ R). destruct B as [IV CF _ _ _].
    assert (NN : c_class (q_cfg q) <> CNull) by congruence. assert (CQ : c_class (q_cfg q) = CResource) by congruence.
    assert (Wa := qi_arr _ IV). assert (Wd := qi_dep _ IV).
    destruct o; cbn [run_op] in H.
    + mbind H. destruct x as [r q1]. injection H as <-. apply resource_next in E; [|exact CQ].
      destruct E as [(_ & E & _)|(_ & k & _ & (_ & E & _ & K & _))]; rewrite E.
      * destruct (q_servers q); cbn in *; [lia|exact Logic.I].
      * unfold fewer. destruct K as [->|K]; destruct (q_servers q); cbn in *; try lia; exact Logic.I.
    + unfold set_active in H. destruct (q_active q); [injection H as <-; exact IH|]. apply self_3 in H as (_ & -> & _ & _). exact IH.
    + injection H as <-. exact IH.
    + unfold set_num_servers in H. rewrite CQ in H. destruct n0; [| |discriminate]; injection H as <-; unfold rq_set_num_servers;
        destruct (eltb _ _); qc; try exact Logic.I; exact OK.
    + apply delay_service_Ok in H; [|exact NN|exact Wa|exact Wd].
      destruct H as [(_ & ->)|(a & h & h' & m & H)]; [exact IH|]. cbv zeta in H. destruct H as (_ & -> & _). exact IH.
    + apply add_arrival_Ok in H as (h & -> & _); [exact IH|exact NN|exact Wa|exact Wd].
    + injection H as <-. exact IH.
    + injection H as <-. unfold clear. rewrite CQ. exact IH.
    + injection H as <-. exact IH.
Qed.

(** What the other calls do to the counter. *)
Lemma resource_other o q q' : c_class (q_cfg q) = CResource -> qinv q -> o <> ONext -> run_op o q = Ok q' ->
  match o with
  | OServers n => exists m, match n with PInt z => m = Fin z | _ => m = Inf end /\ q_servers q' = m /\
       q_over q' = q_over q + (if eltb (c_max_servers (q_cfg q)) m then 1 else 0)
  | OClear => q_servers q' = q_servers q /\ q_over q' = 0
  | _ => q_servers q' = q_servers q /\ q_over q' = q_over q
  end.
Proof.
  intros C IV NX H. assert (Wa := qi_arr _ IV). assert (Wd := qi_dep _ IV).
  assert (NN : c_class (q_cfg q) <> CNull) by congruence.
  destruct o; cbn [run_op] in H; try congruence.
  - unfold set_active in H. destruct (q_active q); [injection H as <-; auto|]. apply self_3 in H as (_ & -> & -> & _). auto.
  - injection H as <-. auto.
  - unfold set_num_servers in H. rewrite C in H. destruct n; [| |discriminate]; injection H as <-; unfold rq_set_num_servers.
    + exists (Fin z). split; [reflexivity|]. destruct (eltb _ _); qc; split; try reflexivity; lia.
    + exists Inf. split; [reflexivity|]. destruct (eltb _ _); qc; split; try reflexivity; lia.
  - apply delay_service_Ok in H; [|exact NN|exact Wa|exact Wd].
    destruct H as [(_ & ->)|(a & h & h' & m & H)]; [auto|]. cbv zeta in H. destruct H as (_ & -> & _). auto.
  - apply add_arrival_Ok in H as (h & -> & _); [auto|exact NN|exact Wa|exact Wd].
  - injection H as <-. auto.
  - injection H as <-. unfold clear. rewrite C. auto.
  - injection H as <-. auto.
Qed.

Lemma resource_next_reach c s col n q r q' : c_class c = CResource -> reach anything (new_queue c s col n) q ->
  next_event q = Ok (r, q') ->
  (returns q /\ q_servers q' = eadd (q_servers q) (Fin 1) /\
   q_over q' = q_over q + (if eltb (c_max_servers c) (eadd (q_servers q) (Fin 1)) then 1 else 0)) \/
  (~ returns q /\ exists k, (k <= 2)%nat /\ q_servers q' = fewer (q_servers q) k /\ (k = 0%nat \/ eLe (Fin (Z.of_nat k)) (q_servers q)) /\
   q_over q' = q_over q + exceeding (c_max_servers c) (q_servers q) k).
Proof.
  intros C R H. assert (B := basics_reach _ _ _ _ _ _ R). destruct B as [IV CF _ _ _].
  apply resource_next in H; [|congruence]. rewrite CF in H. destruct H as [H|(N & k & K & (T1 & T2 & T3 & T4 & _))]; [left; exact H|].
  right. split; [exact N|]. exists k. rewrite CF in T3. auto.
Qed.

Lemma resource_other_reach c s col n o q q' : c_class c = CResource -> reach anything (new_queue c s col n) q -> o <> ONext ->
  run_op o q = Ok q' ->
  match o with
  | OServers n => exists m, match n with PInt z => m = Fin z | _ => m = Inf end /\ q_servers q' = m /\
       q_over q' = q_over q + (if eltb (c_max_servers c) m then 1 else 0)
  | OClear => q_servers q' = q_servers q /\ q_over q' = 0
  | _ => q_servers q' = q_servers q /\ q_over q' = q_over q
  end.
Proof.
  intros C R NX H. assert (B := basics_reach _ _ _ _ _ _ R). destruct B as [IV CF _ _ _].
  apply resource_other in H; [|congruence|exact IV|exact NX]. rewrite CF in H. exact H.
Qed.

(** ** C27 *)

Lemma zip_len f l l2 r : zip_rows f l l2 = Ok r -> length l2 = length l /\ length r = length l.
Proof.
  revert l2 r. induction l as [|x l IH]; intros [|y l2] r H; cbn in H; try discriminate.
  - injection H as <-. auto.
  - mbind H. injection H as <-. apply IH in E as (E1 & E2). cbn. auto.
Qed.

Lemma zip_at f l l2 r j : zip_rows f l l2 = Ok r -> (j < length l)%nat -> info_at r j = f (info_at l j) (info_at l2 j).
Proof.
  unfold info_at. revert l2 r j. induction l as [|x l IH]; intros [|y l2] r j H J; cbn in H; try discriminate; [cbn in J; lia|].
  mbind H. injection H as <-. destruct j; [reflexivity|]. cbn. apply IH; [exact E|cbn in J; lia].
Qed.

Lemma give_newer x y : newer_of x y (info_give x y).
Proof.
  unfold info_give, newer_of. destruct (eltb (nr_time x) (nr_time y)) eqn:E.
  - apply eltb_lt in E. split; [apply eLt_le; exact E|]. split; [apply eLe_refl|]. right. auto.
  - apply eltb_ge in E. split; [apply eLe_refl|]. split; [exact E|]. left. reflexivity.
Qed.

Lemma take_newer x y : eLe (Fin (-1)) (nr_time y) -> newer_of x y (info_take x y).
Proof.
  intro P. unfold info_take, newer_of. destruct (eltb (nr_time x) (nr_time y)) eqn:E; cbn [orb].
  - apply eltb_lt in E. split; [apply eLt_le; exact E|]. split; [apply eLe_refl|]. right. auto.
  - apply eltb_ge in E. destruct (eeqb (nr_time x) (Fin (-1))) eqn:M.
    + apply eeqb_eq in M. rewrite M in *. assert (Y : nr_time y = Fin (-1)) by (apply eLe_antisym; assumption).
      rewrite Y. split; [apply eLe_refl|]. split; [apply eLe_refl|]. right. auto.
    + split; [apply eLe_refl|]. split; [exact E|]. left. reflexivity.
Qed.

Lemma stamped_at l j : stamped l -> eLe (Fin (-1)) (nr_time (info_at l j)).
Proof.
  intro P. unfold info_at. destruct (nth_in_or_default j l norow) as [X|X]; [apply P; exact X|]. rewrite X. cbn. lia.
Qed.

(** The agent learns from the queue. *)
Lemma agent_learns a q a' q' : ag_kind a = KInfo -> c_class (q_cfg q) = CInfo -> stamped (q_net q) ->
  queue_action a q = Ok (a', q') ->
  q' = q /\ length (ag_net a') = length (ag_net a) /\ length (q_net q) = length (ag_net a) /\
  (nr_time (info_at (ag_net a') (c_idx (q_cfg q))) = q_now q /\ nr_servers (info_at (ag_net a') (c_idx (q_cfg q))) = q_servers q) /\
  (forall j, (j < length (ag_net a))%nat -> j <> c_idx (q_cfg q) ->
     newer_of (info_at (ag_net a) j) (info_at (q_net q) j) (info_at (ag_net a') j)).
Proof.
  intros K C ST H. unfold queue_action in H. rewrite K in H. unfold info_action in H. rewrite C in H. cbn [is_info] in H.
  mbind H. mbind H. mbind H. mbind H. injection H as <- <-. qc.
  assert (Z := zip_len _ _ _ _ E). destruct Z as (Z1 & Z2).
  unfold of_option in E2. destruct (set x _ _) eqn:SE; [|discriminate]. injection E2 as ->.
  apply set_Some in SE as (SL & ->). split; [reflexivity|]. rewrite upd_length. split; [lia|]. split; [exact Z1|].
  unfold info_at. rewrite (nth_upd_eq _ _ _ _ SL). split; [split; reflexivity|].
  intros j J D. rewrite nth_upd_neq by congruence. change (nth j x norow) with (info_at x j).
  rewrite (zip_at _ _ _ _ j E J). apply take_newer. apply stamped_at. exact ST.
Qed.

(** The queue learns from the agent. *)
Lemma queue_learns q a r q' : c_class (q_cfg q) = CInfo -> wfh (q_arr q) -> wfh (q_dep q) -> arriving q = Some a -> ag_kind a = KInfo ->
  (forall b, In b (in_service q) -> eLt (ag_time a) (ag_time b)) ->
  next_event q = Ok (r, q') ->
  length (q_net q') = length (q_net q) /\ length (ag_net a) = length (q_net q) /\
  (forall j, (j < length (q_net q))%nat -> newer_of (info_at (q_net q) j) (info_at (ag_net a) j) (info_at (q_net q') j)).
Proof.
  intros C Wa Wd AR K LT H. unfold next_event in H. rewrite C in H. unfold info_next_event in H.
  unfold arriving, next_event_description in AR. rewrite C in AR.
  destruct (q_arr q) as [|[|b] h0] eqn:A; [discriminate| |].
  { destruct (bind _ _) as [[|[| |]|]|]; discriminate. }
  mbind H. cbn [root_time bind itime] in AR. rewrite E in AR. cbn [bind] in AR.
  destruct (eltb x (ag_time b)) eqn:L; [discriminate|]. destruct (eltb (ag_time b) Inf) eqn:FI; [|discriminate]. injection AR as ->.
  cbn [itime] in H.
  assert (TD : eltb (ag_time a) x = true).
  { apply eltb_lt. unfold root_time in E. destruct (q_dep q) as [|[|b] hd] eqn:D; [discriminate| |].
    - injection E as <-. apply eltb_lt in FI. exact FI.
    - injection E as <-. cbn [itime]. apply LT. unfold in_service. rewrite D. left. reflexivity. }
  rewrite TD in H. mbind H. cbn [extract_information] in E0. rewrite K in E0. mbind E0. injection E0 as <-.
  assert (Z := zip_len _ _ _ _ E1). destruct Z as (Z1 & Z2).
  assert (NE : q_net q' = x1).
  { apply loss_took in H as (k & _ & (_ & _ & _ & _ & N)). exact N. }
  rewrite NE. split; [lia|]. split; [exact Z1|]. intros j J. rewrite (zip_at _ _ _ _ j E1 J). apply give_newer.
Qed.
