(** * InfoStop: when a call of an InfoQueue raises *)
From Coq Require Import List ZArith QArith Lia Bool Permutation Arith.
From Verif Require Import Base Heap HeapProofs Queue QueueEffects QueueEvents QueueSteps QueueInv SpecQueue QueueData QueueTotal QueueFlow QueueHist.
Import ListNotations.
Open Scope Z_scope.

(** As [cfg_fits], with any [deactive_t]. *)
Definition cfg_fits (n : nat) (c : qcfg) : Prop :=
  (c_idx c < n)%nat /\ (c_class c = CInfo -> c_factory c = KInfo) /\ (c_class c <> CInfo -> c_factory c <> KInfo).

(** The call [o] draws an arrival time that is not before [deactive_t]. *)
Definition too_late (q : queue) (o : qop) : Prop :=
  match o with
  | ONext => exists a, arriving q = Some a /\ q_active q = true /\ eLe (q_next_ct q) (ag_time a) /\
      eLe (c_deactive_t (q_cfg q)) (c_arr (q_cfg q) (q_ia q) (ag_time a))
  | OActive => q_active q = false /\ eLe (q_next_ct q) (q_now q) /\ eLe (c_deactive_t (q_cfg q)) (c_arr (q_cfg q) (q_ia q) (q_now q))
  | _ => False
  end.

(** As in QueueTotal.v, with [cfg_fits] for [cfg_fits]. *)
Record livex (n : nat) (q : queue) : Prop := mkLivex {
  lx_arr : wfh (q_arr q);
  lx_dep : wfh (q_dep q);
  lx_aarr : Forall (aok n) (agents_of (q_arr q));
  lx_adep : Forall (aok n) (agents_of (q_dep q));
  lx_aline : Forall (aok n) (q_line q);
  lx_now : q_now q <> Inf;
  lx_data : dlive (q_cfg q) (q_data q);
  lx_net : c_class (q_cfg q) = CInfo -> length (q_net q) = n;
  lx_srv : c_class (q_cfg q) = CInfo -> q_servers q <> Fin 0;
  lx_cfg : cfg_fits n (q_cfg q)
}.

Definition late_at (q : queue) (t : ext) : Prop :=
  c_class (q_cfg q) = CInfo /\ eLe (q_next_ct q) t /\ eLe (c_deactive_t (q_cfg q)) (c_arr (q_cfg q) (q_ia q) t).
Definition prompt (q : queue) : Prop :=
  q_active q = true -> eLe (hmin (q_arr q)) (hmin (q_dep q)) -> hmin (q_arr q) <> Inf -> ~ late_at q (hmin (q_arr q)).

Lemma pop_totx n h : wfh h -> hmin h <> Inf -> Forall (aok n) (agents_of h) ->
  tot (fun p => let '(a, h') := p in wfh h' /\ aok n a /\ (ag_time a <> Inf /\ ag_time a = hmin h) /\ Forall (aok n) (agents_of h')) (pop_agent h).
Proof.
  intros W F A. destruct (pop_agent_total h W F) as (a & h' & E). exists (a, h'). split; [exact E|].
  apply pop_agent_Ok in E as (W' & P & T & _); [|exact W]. apply (forall_perm _ _ _ P) in A. inversion A; subst.
  split; [exact W'|]. split; [assumption|]. split; [split; congruence | assumption].
Qed.

Lemma new_agent_totx n q t : cfg_fits n (q_cfg q) -> (c_class (q_cfg q) = CInfo -> length (q_net q) = n) ->
  tot (aok n) (new_agent q t).
Proof.
  intros (LT & CI & CN) NET. unfold new_agent.
  destruct (c_class (q_cfg q)) eqn:C.
  5:{ rewrite (CI eq_refl). apply tot_Ok. intros _. cbn. rewrite !repeat_length. auto. }
  all: assert (F : c_factory (q_cfg q) <> KInfo) by (apply CN; congruence);
    destruct (c_factory (q_cfg q)); try congruence; apply tot_Ok; intro X; discriminate.
Qed.

Lemma update_time_totx n q : livex n q -> tot (livex n) (update_time q).
Proof. intro L. rewrite update_time_total by apply L. apply tot_Ok. destruct L; split; assumption. Qed.

Lemma update_time_if_totx n q : livex n q -> tot (livex n) (update_time_if q).
Proof.
  intro L. rewrite update_time_if_total by apply L. apply tot_Ok.
  destruct (eltb (hmin (q_arr q)) (hmin (q_dep q))); [|exact L]. destruct L; split; assumption.
Qed.

Lemma add_arrival_new_totx n q : livex n q -> ~ late_at q (q_now q) -> tot (livex n) (add_arrival_new q).
Proof.
  intros L NLT. unfold add_arrival_new. destruct (eleb (q_next_ct q) (q_now q)) eqn:NC; [|apply update_time_if_totx; exact L].
  destruct (eleb (c_deactive_t (q_cfg q)) (c_arr (q_cfg q) (q_ia q) (q_now q))) eqn:DT.
  - destruct (is_info (c_class (q_cfg q))) eqn:C.
    + exfalso. assert (CI : c_class (q_cfg q) = CInfo) by (destruct (c_class (q_cfg q)); try discriminate; reflexivity).
      apply eleb_le in DT, NC. apply NLT. split; auto.
    + apply tot_Ok. destruct L; split; assumption.
  - eapply tot_bind; [apply new_agent_totx with (n := n); [apply L | apply (lx_net _ _ L)]|]. intros a A.
    eapply tot_bind; [apply push_tot with (n := n); [apply L | exact A | apply (lx_aarr _ _ L)]|]. intros h [W F].
    apply update_time_if_totx.
    destruct (eleb (c_active_cap (q_cfg q)) _); destruct L; split; assumption.
Qed.

Lemma add_arrival_self_totx n q : livex n q -> ~ late_at q (q_now q) -> tot (livex n) (add_arrival_self q).
Proof.
  intros L NLT. unfold add_arrival_self. destruct (c_class (q_cfg q)); try (apply add_arrival_new_totx; assumption).
  apply tot_Ok. exact L.
Qed.

Lemma add_arrival_totx n a q : livex n q -> aok n a -> tot (livex n) (add_arrival a q).
Proof.
  intros L A. unfold add_arrival. destruct (c_class (q_cfg q)) eqn:C.
  3:{ apply tot_Ok. destruct (q_collect q); [|exact L]. destruct L; split; try assumption. qc.
      apply dlive_append; [assumption|]. intro X; congruence. }
  all: (eapply tot_bind; [apply push_tot with (n := n); [apply L | exact A | apply (lx_aarr _ _ L)]|]); intros h [W F];
    apply update_time_if_totx; destruct L; split; assumption.
Qed.

(** ** Service *)

Lemma qaction_livex n q s o : livex n q -> (c_class (q_cfg q) <> CResource -> s = q_servers q /\ o = q_over q) ->
  livex n (set_q_over o (set_q_servers s q)).
Proof.
  intros L SO. destruct L; split; try assumption. qc. intro C.
  destruct SO as [-> _]; [congruence|]. auto.
Qed.

Lemma action_totx n a q : aok n a -> livex n q ->
  tot (fun p => let '(a', q') := p in aok n a' /\ ag_id a' = ag_id a /\ ag_time a' = ag_time a /\ livex n q' /\
     q_collect q' = q_collect q /\ q_data q' = q_data q /\ q_nsys q' = q_nsys q /\ q_cfg q' = q_cfg q /\ q_line q' = q_line q) (queue_action a q).
Proof.
  intros A L. eapply tot_weak; [apply queue_action_tot with (n := n); [exact A|apply (lx_cfg _ _ L)|
     intro C; split; [apply (lx_net _ _ L C) | apply (lx_srv _ _ L C)]|apply L]|].
  intros [a' q'] (B1 & B2 & B3 & s & o & -> & SO). split; [exact B1|]. split; [exact B2|]. split; [exact B3|].
  split; [apply qaction_livex; assumption|]. qc. auto 6.
Qed.

Lemma service_totx n q : livex n q -> q_line q <> [] ->
  tot (fun q' => livex n q' /\ length (q_line q) = S (length (q_line q'))) (service_from_queue q).
Proof.
  intros L NE. unfold service_from_queue. destruct (q_line q) as [|a line] eqn:LN; [congruence|].
  assert (AL := lx_aline _ _ L). rewrite LN in AL. inversion AL; subst.
  eapply tot_bind; [apply dlast_if_tot with (c := q_cfg q); [apply L|]|].
  { intros r [F1 F2]. split; [exact F1|]. apply (lx_now _ _ L). }
  intros q2 (d & -> & Hd). unfold call_srv.
  eapply tot_bind; [apply action_totx with (n := n)|].
  - intro K. apply H1. exact K.
  - destruct L; split; assumption.
  - intros [a' q4] (B1 & _ & _ & L4 & _ & _ & _ & _ & B9).
    eapply tot_bind; [apply push_tot with (n := n); [apply L4 | exact B1 | apply (lx_adep _ _ L4)]|].
    intros h [W F]. apply tot_Ok. split; [destruct L4; split; assumption|]. qc. rewrite B9. reflexivity.
Qed.

Lemma departure_totx n q : livex n q -> hmin (q_dep q) <> Inf ->
  tot (fun p => livex n (snd p) /\ (forall a, fst p = Some a -> aok n a)) (qs_departure q).
Proof.
  intros L FD. unfold qs_departure.
  eapply tot_bind; [apply pop_tot with (n := n); [apply L | exact FD | apply (lx_adep _ _ L)]|].
  intros [a h] (Wh & A & TA & Fh).
  eapply tot_bind; [apply dlast_if_tot with (c := q_cfg q); [apply L|]|].
  { intros r [F1 F2]. split; assumption. }
  intros q2 (d & -> & Hd).
  eapply tot_bind with (P := livex n).
  { assert (L2 : livex n (set_q_data d (set_q_departed (q_departed q + 1)
              (set_q_nsys (q_nsys q - 1) (set_q_total (q_total q - 1) (set_q_now (ag_time a) (set_q_dep h q))))))).
    { destruct L; split; assumption. }
    destruct ((0 <? _) && _) eqn:C; [|apply tot_Ok; exact L2].
    eapply tot_weak; [apply service_totx with (n := n); [exact L2|]|intros x [X _]; exact X].
    apply andb_true_iff in C as [C _]. apply Z.ltb_lt in C. intro X. rewrite X in C. cbn in C. lia. }
  intros q3 L3.
  eapply tot_bind; [apply action_totx with (n := n); [exact A | exact L3]|].
  intros [a' q4] (B1 & _ & _ & L4 & _).
  eapply tot_bind; [apply update_time_totx with (n := n); exact L4|]. intros q5 L5. apply tot_Ok. cbn.
  split; [exact L5|]. intros x X. inversion X; subst. exact B1.
Qed.

Lemma draw_totx n q : livex n q -> (q_active q = true -> ~ late_at q (q_now q)) -> tot (livex n) (if q_active q then add_arrival_self q else Ok q).
Proof. intros L NLT. destruct (q_active q); [apply add_arrival_self_totx; auto | apply tot_Ok; exact L]. Qed.

Lemma arrival_totx n q : livex n q -> hmin (q_arr q) <> Inf -> (q_active q = true -> ~ late_at q (hmin (q_arr q))) ->
  tot (fun p => livex n (snd p) /\ (forall a, fst p = Some a -> aok n a)) (qs_arrival q).
Proof.
  intros L FA NLT. unfold qs_arrival.
  eapply tot_bind; [apply pop_totx with (n := n); [apply L | exact FA | apply (lx_aarr _ _ L)]|].
  intros [a h] (Wh & A & [TA TH] & Fh).
  eapply tot_bind; [apply draw_totx with (n := n); [destruct L; split; assumption|unfold late_at; qc; rewrite TH; exact NLT]|].
  intros q2 L2. cbv zeta.
  set (q3 := set_q_narr _ (set_q_nsys _ q2)).
  assert (L3 : livex n q3) by (destruct L2; split; assumption).
  set (q4 := if q_collect q3 then _ else _).
  assert (L4 : livex n q4).
  { unfold q4. destruct (q_collect q3); [|exact L3]. destruct L3; split; try assumption. qc.
    apply dlive_append; [assumption|]. intros _. split; [exact TA | discriminate]. }
  assert (G4 : q_collect q4 = true -> dget (q_data q4) (ag_id a) <> None).
  { unfold q4. destruct (q_collect q3) eqn:C; [|congruence]. intros _. qc. rewrite dappend_dset, dget_dset_same. discriminate. }
  eapply tot_bind; [apply action_totx with (n := n); [exact A | exact L4]|].
  intros [a1 q5] (B1 & I1 & T1 & L5 & E1 & E2 & E3 & E4 & E5).
  destruct (eleb (Fin (q_nsys q5)) (q_servers q5)).
  - eapply tot_bind with (P := livex n).
    { destruct (q_collect q5) eqn:C; [|apply tot_Ok; exact L5].
      eapply tot_bind; [apply dlast_tot with (c := q_cfg q5); [apply L5| |]|].
      - rewrite I1, E2. apply G4. congruence.
      - intros r [F1 F2]. split; [exact F1|]. cbn. congruence.
      - intros d Hd. apply tot_Ok. destruct L5; split; assumption. }
    intros q6 L6. unfold call_srv.
    eapply tot_bind; [apply action_totx with (n := n)|].
    + intro K. apply B1. exact K.
    + destruct L6; split; assumption.
    + intros [a2 q8] (B2 & _ & _ & L8 & _).
      eapply tot_bind; [apply push_tot with (n := n); [apply L8 | exact B2 | apply (lx_adep _ _ L8)]|].
      intros h2 [W2 F2]. eapply tot_bind; [apply update_time_totx with (n := n); destruct L8; split; assumption|].
      intros q9 L9. apply tot_Ok. cbn. split; [exact L9 | discriminate].
  - eapply tot_bind; [apply update_time_totx with (n := n)|].
    + assert (AL := lx_aline _ _ L5). destruct L5; split; try assumption. qc. apply Forall_app. auto.
    + intros q6 L6. apply tot_Ok. cbn. split; [exact L6 | discriminate].
Qed.

Lemma blocked_totx n q : livex n q -> hmin (q_arr q) <> Inf -> (q_active q = true -> ~ late_at q (hmin (q_arr q))) ->
  tot (fun p => livex n (snd p) /\ (forall a, fst p = Some a -> aok n a)) (loss_blocked q).
Proof.
  intros L FA NLT. unfold loss_blocked.
  eapply tot_bind; [apply pop_totx with (n := n); [apply L | exact FA | apply (lx_aarr _ _ L)]|].
  intros [a h] (Wh & A & [TA TH] & Fh).
  eapply tot_bind; [apply add_loss_tot with (n := n); [exact A | apply (lx_cfg _ _ L)]|]. intros _ _.
  eapply tot_bind; [apply draw_totx with (n := n); [destruct L; split; assumption|unfold late_at; qc; rewrite TH; exact NLT]|].
  intros q2 L2. cbv zeta.
  eapply tot_bind; [apply update_time_totx with (n := n)|intros q4 L4; apply tot_Ok; cbn; split; [exact L4 | discriminate]].
  destruct (q_collect q2); [|exact L2]. destruct L2; split; try assumption. qc.
  apply dlive_append; [assumption|]. intros _. split; [exact TA | discriminate].
Qed.

Lemma qs_next_totx n q : livex n q -> prompt q ->
  tot (fun p => livex n (snd p) /\ (forall a, fst p = Some a -> aok n a)) (qs_next_event q).
Proof.
  intros L PR. unfold qs_next_event. rewrite (wfh_root_time _ (lx_arr _ _ L)), (wfh_root_time _ (lx_dep _ _ L)). cbn [bind].
  destruct (eltb (hmin (q_dep q)) (hmin (q_arr q))) eqn:C1.
  - apply departure_totx; [exact L|]. intro X; rewrite X in C1; discriminate.
  - destruct (eltb (hmin (q_arr q)) Inf) eqn:C2.
    + assert (FA : hmin (q_arr q) <> Inf) by (intro X; rewrite X in C2; discriminate). apply arrival_totx; [exact L|exact FA|]. intro AC. apply (PR AC); [apply eltb_ge; exact C1|exact FA].
    + apply tot_Ok. cbn. split; [exact L | discriminate].
Qed.

Lemma none_totx n (r : res (option agent * queue)) :
  tot (fun p => livex n (snd p) /\ (forall a, fst p = Some a -> aok n a)) r ->
  tot (fun p => livex n (snd p) /\ (forall a, fst p = Some a -> aok n a)) (let* (_, q') := r in Ok (None, q')).
Proof. intros ([x q'] & -> & [X _]). cbn [bind]. apply tot_Ok. cbn in *. split; [exact X | discriminate]. Qed.

Lemma loss_next_totx n q : livex n q -> prompt q ->
  tot (fun p => livex n (snd p) /\ (forall a, fst p = Some a -> aok n a)) (loss_next_event q).
Proof.
  intros L PR. assert (Q := qs_next_totx n q L PR). unfold loss_next_event.
  rewrite (wfh_root_time _ (lx_arr _ _ L)), (wfh_root_time _ (lx_dep _ _ L)). cbn [bind].
  destruct (eltb (hmin (q_dep q)) (hmin (q_arr q))) eqn:C1; [exact Q|].
  destruct (eltb (hmin (q_arr q)) Inf) eqn:C2; [|apply tot_Ok; cbn; split; [exact L | discriminate]].
  destruct (eltb (Fin (q_nsys q)) _); [apply none_totx; exact Q|].
  assert (FA : hmin (q_arr q) <> Inf) by (intro X; rewrite X in C2; discriminate). apply blocked_totx; [exact L|exact FA|]. intro AC. apply (PR AC); [apply eltb_ge; exact C1|exact FA].
Qed.

Lemma next_totx n q : livex n q -> prompt q ->
  tot (fun p => livex n (snd p) /\ (forall a, fst p = Some a -> aok n a)) (next_event q).
Proof.
  intros L PR. unfold next_event. destruct (c_class (q_cfg q)) eqn:C.
  - apply qs_next_totx; assumption.
  - apply loss_next_totx; assumption.
  - apply tot_Ok. cbn. split; [exact L | discriminate].
  - unfold rq_next_event. destruct (wfh_nonempty _ (lx_arr _ _ L)) as (i & h & QA). rewrite QA.
    destruct i as [|a]; [apply loss_next_totx; assumption|].
    destruct (ag_kind a); try (apply loss_next_totx; assumption).
    rewrite (wfh_root_time _ (lx_dep _ _ L)). cbn [bind].
    destruct (eltb (hmin (q_dep q)) (ag_time a)); [apply loss_next_totx; assumption|].
    destruct (eltb (ag_time a) Inf) eqn:C2; [|apply tot_Ok; cbn; split; [exact L | discriminate]].
    assert (FA : hmin (q_arr q) <> Inf) by (rewrite QA; cbn; intro X; rewrite X in C2; discriminate).
    destruct (ag_has a).
    + unfold rq_return. eapply tot_bind; [apply pop_tot with (n := n); [apply L | exact FA | apply (lx_aarr _ _ L)]|].
      intros [b h'] (Wh & A & TA & Fh). cbv zeta.
      eapply tot_bind; [apply update_time_totx with (n := n)|intros q4 L4; apply tot_Ok; cbn; split; [exact L4 | discriminate]].
      set (q2 := rq_set_num_servers _ _).
      assert (L2 : livex n q2).
      { unfold q2, rq_set_num_servers. match goal with |- livex n (if ?b then _ else _) => destruct b end; destruct L; split; try assumption; qc; intro X; congruence. }
      destruct (q_collect q2); [|exact L2]. destruct L2; split; try assumption. qc.
      apply dlive_append; [assumption|]. intros _. split; exact TA.
    + destruct (eltb (Fin (q_nsys q)) (q_servers q)); [apply none_totx; apply loss_next_totx; assumption|].
      unfold rq_blocked. eapply tot_bind; [apply pop_tot with (n := n); [apply L | exact FA | apply (lx_aarr _ _ L)]|].
      intros [b h'] (Wh & A & TA & Fh). cbv zeta. qc.
      eapply tot_bind; [apply update_time_totx with (n := n)|intros q4 L4; apply tot_Ok; cbn; split; [exact L4 | discriminate]].
      destruct (q_collect q); destruct L; split; try assumption. qc.
      apply dlive_append; [assumption|]. intros _. split; [exact TA | discriminate].
  - unfold info_next_event. destruct (wfh_nonempty _ (lx_arr _ _ L)) as (i & h & QA). rewrite QA.
    rewrite (wfh_root_time _ (lx_dep _ _ L)). cbn [bind].
    eapply tot_bind with (P := fun q1 => livex n q1 /\ prompt q1); [|intros q1 [L1 P1]; apply loss_next_totx; assumption].
    destruct (eltb (itime i) (hmin (q_dep q))); [|apply tot_Ok; auto].
    unfold extract_information. destruct i as [|a]; [apply tot_Ok; auto|].
    destruct (ag_kind a) eqn:K; try (apply tot_Ok; auto).
    assert (AA := lx_aarr _ _ L). rewrite QA in AA. cbn in AA. inversion AA; subst. destruct (H1 K) as [L1 L2].
    eapply tot_bind; [apply zip_rows_tot; rewrite (lx_net _ _ L C); congruence|]. intros nd Hnd. cbn beta in Hnd. apply tot_Ok.
    rewrite (lx_net _ _ L C) in Hnd. split; [destruct L; split; auto|exact PR].
Qed.

(** ** All calls *)

Lemma set_active_totx n q : livex n q -> (q_active q = false -> ~ late_at q (q_now q)) -> tot (livex n) (set_active q).
Proof.
  intros L NLT. unfold set_active. destruct (q_active q); [apply tot_Ok; exact L|].
  apply add_arrival_self_totx; [destruct L; split; assumption|exact (NLT eq_refl)].
Qed.

Lemma repeat_service_totx n k q : livex n q -> (k <= length (q_line q))%nat -> tot (livex n) (repeat_service k q).
Proof.
  revert q. induction k as [|k IH]; intros q L LE; cbn [repeat_service]; [apply tot_Ok; exact L|].
  eapply tot_bind; [apply service_totx with (n := n); [exact L|]|].
  - intro X. rewrite X in LE. cbn in LE. lia.
  - intros q' [L' LN]. apply IH; [exact L' | lia].
Qed.

Lemma servers_totx n m q : livex n q -> legal n q (OServers m) -> tot (livex n) (set_num_servers m q).
Proof.
  intros L LG. unfold set_num_servers. cbn [legal] in LG.
  assert (SV : forall s, (s <> Fin 0 \/ c_class (q_cfg q) <> CInfo) -> forall q2, livex n q2 -> q_cfg q2 = q_cfg q -> livex n (set_q_servers s q2)).
  { intros s S q2 L2 C2. destruct L2; split; try assumption. qc. rewrite C2. intro C. destruct S; [assumption | congruence]. }
  assert (G : match m with PInt z => 0 < z | PInf => q_servers q <> Inf | POther => False end -> c_class (q_cfg q) <> CResource ->
              tot (livex n) (qs_set_num_servers m q)).
  { intros G NR. unfold qs_set_num_servers. cbv zeta.
    assert (GO : forall x tq, (x <> Fin 0) -> 0 <= tq <= Z.of_nat (length (q_line q)) ->
      tot (livex n) (let* q1 := repeat_service (Z.to_nat tq) q in
         let* q2 := if 0 <? tq then update_time q1 else Ok q1 in Ok (set_q_servers x q2))).
    { intros x tq X B. destruct (repeat_service_totx n (Z.to_nat tq) q L ltac:(lia)) as (q1 & E & L1). rewrite E. cbn [bind].
      apply repeat_service_Ok in E as (_ & h & d & s & o & new & Q1 & _); [|apply L].
      assert (C1 : q_cfg q1 = q_cfg q) by (subst q1; reflexivity).
      destruct (0 <? tq); cbn [bind].
      - rewrite update_time_total by apply L1. cbn [bind]. apply tot_Ok. apply SV; [left; exact X| |exact C1].
        destruct L1; split; assumption.
      - apply tot_Ok. apply SV; [left; exact X| exact L1 |exact C1]. }
    destruct m as [z| |]; [| |destruct G].
    - destruct (Z.leb_spec z 0); [lia|]. destruct (q_servers q).
      + apply GO; [intro X; inversion X; lia | lia].
      + apply GO; [intro X; inversion X; lia | lia].
    - destruct (q_servers q); [|congruence]. apply GO; [discriminate | lia]. }
  destruct (c_class (q_cfg q)) eqn:C; try (apply G; [destruct m; exact LG | congruence]).
  - apply tot_Ok. exact L.
  - assert (RI : forall s, tot (livex n) (Ok (rq_set_num_servers s q))).
    { intro s. apply tot_Ok. unfold rq_set_num_servers.
      destruct (eltb (c_max_servers (q_cfg q)) s); destruct L; split; try assumption; qc; congruence. }
    destruct m; [apply RI | apply RI | destruct LG].
Qed.

Lemma delay_totx n t q : livex n q -> legal n q (ODelay t) -> tot (livex n) (delay_service t q).
Proof.
  intros L LG. unfold delay_service. cbn [legal] in LG.
  assert (LEN := wfh_length _ (lx_dep _ _ L)).
  assert (G : tot (livex n) (if (1 <? length (q_dep q))%nat then
      match heappop itime (q_dep q) with
      | None => Err IndexError
      | Some (Sentinel, _) => Err Corrupt
      | Some (Ag a, h) =>
        let '(t', q1) := match t with
                         | None => call_srv q (ag_time a)
                         | Some t => (t, q)
                         end in
        let* h' := push_item h (set_ag_time t' a) in
        update_time (set_q_dep h' q1)
      end
    else Ok q) \/ c_class (q_cfg q) = CNull).
  { destruct LG as [X|[X|(a & IA & TA)]]; [right; exact X| |].
    - left. change (in_service q) with (agents_of (q_dep q)) in X. rewrite LEN, X. cbn. apply tot_Ok. exact L.
    - left. destruct (Nat.ltb_spec 1 (length (q_dep q))) as [_|B]; [|apply tot_Ok; exact L].
      assert (HM : hmin (q_dep q) <> Inf).
      { intro X. assert (Y := wfh_min _ _ (lx_dep _ _ L) IA). rewrite X in Y. apply eLe_Inf_l in Y. congruence. }
      destruct (pop_tot n _ (lx_dep _ _ L) HM (lx_adep _ _ L)) as ([b h] & E & Wh & A & TB & Fh).
      unfold pop_agent in E. destruct (heappop itime (q_dep q)) as [[[|b'] h']|]; try discriminate. inversion E; subst.
      destruct t as [t|]; unfold call_srv;
        (eapply tot_bind; [apply push_tot with (n := n); [exact Wh| |exact Fh]; intro K; apply A; exact K|]; intros h2 [W2 F2];
         apply update_time_totx; destruct L; split; assumption). }
  destruct G as [G|G]; [|rewrite G; apply tot_Ok; exact L].
  destruct (c_class (q_cfg q)); try exact G. apply tot_Ok. exact L.
Qed.

Lemma livex_clear n q : livex n q -> livex n (clear q).
Proof.
  intro L. unfold clear, qs_clear. destruct (c_class (q_cfg q)) eqn:C; try exact L;
    (destruct L; split; cbn; auto using wfh_init; try discriminate; try (intros i rows []); try congruence).
  intros _. rewrite repeat_length. auto.
Qed.

Definition timely (q : queue) (o : qop) : Prop :=
  match o with ONext => prompt q | OActive => q_active q = false -> ~ late_at q (q_now q) | _ => True end.

Lemma op_totx n o q : livex n q -> legal n q o -> timely q o -> tot (livex n) (run_op o q).
Proof.
  intros L LG TM. destruct o; cbn [run_op].
  - destruct (next_totx n q L TM) as ([r q'] & -> & L' & _). cbn [bind]. apply tot_Ok. exact L'.
  - apply set_active_totx; assumption.
  - apply tot_Ok. destruct L; split; assumption.
  - apply servers_totx; assumption.
  - apply delay_totx; assumption.
  - apply add_arrival_totx; assumption.
  - apply tot_Ok. destruct L; split; assumption.
  - apply tot_Ok. apply livex_clear; exact L.
  - apply tot_Ok. destruct L; split; try assumption. intros i rows [].
Qed.

Lemma livex_new c s col n : cfg_fits n c -> (c_class c = CInfo -> s <> Fin 0) -> livex n (new_queue c s col n).
Proof.
  intros C S. split; cbn; auto using wfh_init; try discriminate; try (intros i rows []).
  - intro X. rewrite X, repeat_length. reflexivity.
  - intro X. rewrite X. apply S; exact X.
Qed.

(** *** Drawing too late *)

Lemma draw_late q : late_at q (q_now q) -> q_active q = true -> (if q_active q then add_arrival_self q else Ok q) = Err AttributeError.
Proof.
  intros (C & NC & DT) A. rewrite A. unfold add_arrival_self. rewrite C. unfold add_arrival_new. apply eleb_le in NC, DT. rewrite NC, DT, C. reflexivity.
Qed.

Lemma next_late n q : livex n q -> q_active q = true -> eLe (hmin (q_arr q)) (hmin (q_dep q)) -> hmin (q_arr q) <> Inf -> late_at q (hmin (q_arr q)) ->
  next_event q = Err AttributeError.
Proof.
  intros L A LE F LT. assert (C := proj1 LT). unfold next_event. rewrite C.
  assert (G : forall q1, livex n q1 -> q_active q1 = true -> eLe (hmin (q_arr q1)) (hmin (q_dep q1)) -> hmin (q_arr q1) <> Inf -> late_at q1 (hmin (q_arr q1)) -> loss_next_event q1 = Err AttributeError).
  { clear. intros q L A LE F LT. unfold loss_next_event, qs_next_event. rewrite (wfh_root_time _ (lx_arr _ _ L)), (wfh_root_time _ (lx_dep _ _ L)). cbn [bind].
    apply eltb_ge in LE. rewrite LE. assert (F' : eltb (hmin (q_arr q)) Inf = true) by (destruct (hmin (q_arr q)); [reflexivity|congruence]). rewrite F'.
    destruct (pop_totx n _ (lx_arr _ _ L) F (lx_aarr _ _ L)) as ([a h] & E & Wh & AO & [TA TH] & _).
    assert (DR : (if q_active (set_q_now (ag_time a) (set_q_arr h q)) then add_arrival_self (set_q_now (ag_time a) (set_q_arr h q)) else Ok (set_q_now (ag_time a) (set_q_arr h q))) = Err AttributeError).
    { apply draw_late; [|exact A]. rewrite TH. exact LT. }
    destruct (eltb (Fin (q_nsys q)) _).
    - unfold qs_arrival. rewrite E. cbn [bind]. cbv zeta. rewrite DR. reflexivity.
    - unfold loss_blocked. cbv zeta. set (q0 := set_q_total _ _). change (q_arr q0) with (q_arr q). rewrite E. cbn [bind]. destruct (add_loss_tot n a q0 AO (proj1 (lx_cfg _ _ L))) as (a' & EL & _).
      rewrite EL. cbn [bind]. rewrite draw_late; [reflexivity| |exact A]. rewrite TH. exact LT. }
  unfold info_next_event. destruct (wfh_nonempty _ (lx_arr _ _ L)) as (i & h & QA). rewrite QA.
  rewrite (wfh_root_time _ (lx_dep _ _ L)). cbn [bind].
  destruct (eltb (itime i) (hmin (q_dep q))); [|apply G; assumption].
  unfold extract_information. destruct i as [|a]; [apply G; assumption|].
  destruct (ag_kind a) eqn:K; try (apply G; assumption).
  assert (AA := lx_aarr _ _ L). rewrite QA in AA. cbn in AA. inversion AA; subst. destruct (H1 K) as [L1 L2].
  match goal with |- context [zip_rows ?f (q_net q) (ag_net a)] => destruct (zip_rows_tot f (q_net q) (ag_net a)) as (nd & E & Hnd) end; [rewrite (lx_net _ _ L C); congruence|].
  rewrite E. cbn [bind]. apply G; try assumption. rewrite (lx_net _ _ L C) in Hnd. destruct L; split; auto.
Qed.

Lemma late_dec q t : late_at q t \/ ~ late_at q t.
Proof.
  unfold late_at. destruct (c_class (q_cfg q)); try (right; intros [X _]; discriminate).
  destruct (eleb (q_next_ct q) t) eqn:E1; [apply eleb_le in E1|apply eleb_gt in E1; right; intros (_ & X & _); apply eLt_not_le in E1; contradiction].
  destruct (eleb (c_deactive_t (q_cfg q)) (c_arr (q_cfg q) (q_ia q) t)) eqn:E2; [apply eleb_le in E2; auto|apply eleb_gt in E2; right; intros (_ & _ & X); apply eLt_not_le in E2; contradiction].
Qed.

Lemma arriving_min q a : c_class (q_cfg q) <> CNull -> wfh (q_arr q) -> wfh (q_dep q) -> arriving q = Some a ->
  ag_time a = hmin (q_arr q) /\ eLe (hmin (q_arr q)) (hmin (q_dep q)) /\ hmin (q_arr q) <> Inf.
Proof.
  intros N Wa Wd AR. destruct (eltb (hmin (q_dep q)) (hmin (q_arr q))) eqn:C1.
  { apply eltb_lt in C1. rewrite (departing_not_arriving q Wa Wd C1) in AR. discriminate. }
  apply eltb_ge in C1. destruct (hmin (q_arr q)) eqn:HM.
  - assert (F : hmin (q_arr q) <> Inf) by (rewrite HM; discriminate). destruct (pop_agent_total _ Wa F) as (b & h & P).
    assert (X := P). apply pop_agent_Ok in X as (_ & _ & T & _); [|exact Wa]. rewrite (nonnull_arriving q N Wa Wd ltac:(rewrite HM; exact C1) F b h P) in AR. injection AR as ->. rewrite T, HM. split; [reflexivity|]. split; [exact C1|discriminate].
  - apply eLe_Inf_l in C1. rewrite (idle_not_arriving q Wa Wd (or_intror (conj HM C1))) in AR. discriminate.
Qed.

Lemma late_raises n q o : livex n q -> c_class (q_cfg q) = CInfo -> (too_late q o <-> ~ timely q o) /\ (too_late q o -> run_op o q = Err AttributeError).
Proof.
  intros L C. assert (N : c_class (q_cfg q) <> CNull) by congruence. destruct o; cbn [too_late timely run_op]; try (split; [split; [intros []|intro H; apply H; exact Logic.I]|intros []]).
  - split; [split|].
    + intros (a & AR & A & NC & DT) P. destruct (arriving_min q a N (lx_arr _ _ L) (lx_dep _ _ L) AR) as (T & LE & F). apply (P A LE F). rewrite <- T. split; auto.
    + intro P. destruct (q_active q) eqn:A; [|exfalso; apply P; intro; congruence].
      destruct (eleb (hmin (q_arr q)) (hmin (q_dep q))) eqn:LE; [apply eleb_le in LE|exfalso; apply P; intros _ X; apply eleb_gt in LE; apply eLt_not_le in LE; contradiction].
      destruct (hmin (q_arr q)) eqn:HM; [|exfalso; apply P; intros _ _ X; congruence].
      assert (F : hmin (q_arr q) <> Inf) by (rewrite HM; discriminate). destruct (late_dec q (hmin (q_arr q))) as [(C' & NC & DT)|X]; [|exfalso; apply P; intros _ _ _; exact X].
      destruct (pop_agent_total _ (lx_arr _ _ L) F) as (b & h & PB). assert (T := PB). apply pop_agent_Ok in T as (_ & _ & T & _); [|apply L].
      exists b. rewrite T. split; [apply (nonnull_arriving q N (lx_arr _ _ L) (lx_dep _ _ L) ltac:(rewrite HM; exact LE) F b h PB)|]. auto.
    + intros (a & AR & A & NC & DT). destruct (arriving_min q a N (lx_arr _ _ L) (lx_dep _ _ L) AR) as (T & LE & F). rewrite (next_late n q L A LE F); [reflexivity|]. rewrite <- T. split; auto.
  - split; [split|].
    + intros (A & NC & DT) P. apply (P A). split; auto.
    + intro P. destruct (q_active q) eqn:A; [exfalso; apply P; discriminate|]. destruct (late_dec q (q_now q)) as [(C' & NC & DT)|X]; [auto|exfalso; apply P; intros _; exact X].
    + intros (A & NC & DT). unfold set_active. rewrite A. change (add_arrival_self (set_q_active true q) = Err AttributeError). apply (draw_late (set_q_active true q)); [split; auto|reflexivity].
Qed.

Lemma timely_dec q o : timely q o \/ ~ timely q o.
Proof.
  destruct o; cbn [timely]; auto.
  - unfold prompt. destruct (q_active q); [|left; discriminate]. destruct (eleb (hmin (q_arr q)) (hmin (q_dep q))) eqn:LE.
    + apply eleb_le in LE. destruct (hmin (q_arr q)) eqn:HM; [|left; intros _ _ X; congruence]. destruct (late_dec q (Fin z)) as [X|X]; [right|left; auto]. intro P. apply P; auto; discriminate.
    + left. intros _ X. apply eleb_gt in LE. apply eLt_not_le in LE. contradiction.
  - destruct (q_active q); [left; discriminate|]. destruct (late_dec q (q_now q)); [right|left]; auto.
Qed.

Lemma other_timely q o : c_class (q_cfg q) <> CInfo -> timely q o.
Proof. intro N. destruct o; cbn [timely]; auto; [intros _ _ _|intros _]; intros [X _]; congruence. Qed.

Lemma livex_reach c s col n q : cfg_fits n c -> (c_class c = CInfo -> s <> Fin 0) -> reach (legal n) (new_queue c s col n) q -> livex n q /\ q_cfg q = c.
Proof.
  intros CF S R. assert (CQ : q_cfg q = c) by (apply basics_reach in R; apply R). split; [|exact CQ].
  induction R as [|q o q' R IH LG H]; [apply livex_new; assumption|].
  assert (C0 : q_cfg q = c) by (apply basics_reach in R; apply R).
  specialize (IH C0). destruct (timely_dec q o) as [T|T].
  - destruct (op_totx n o q IH LG T) as (q2 & E & L). congruence.
  - exfalso. destruct (c_class (q_cfg q)) eqn:C; try (apply T; apply other_timely; congruence).
    destruct (late_raises n q o IH C) as [X Y]. rewrite (Y (proj2 X T)) in H. discriminate.
Qed.

(** A call raises exactly if it draws a time that is too late. *)
Lemma raises_exactly c s col n q o : cfg_fits n c -> (c_class c = CInfo -> s <> Fin 0) -> reach (legal n) (new_queue c s col n) q -> legal n q o ->
  (c_class c = CInfo /\ too_late q o /\ run_op o q = Err AttributeError) \/ (~ (c_class c = CInfo /\ too_late q o) /\ exists q', run_op o q = Ok q').
Proof.
  intros CF S R LG. destruct (livex_reach c s col n q CF S R) as [L CQ]. destruct (timely_dec q o) as [T|T].
  - right. split; [|destruct (op_totx n o q L LG T) as (q2 & E & _); eauto]. intros [C TL]. rewrite <- CQ in C. destruct (late_raises n q o L C) as [X _]. apply X in TL. contradiction.
  - left. assert (C : c_class (q_cfg q) = CInfo) by (destruct (c_class (q_cfg q)) eqn:C; try reflexivity; exfalso; apply T, other_timely; congruence).
    destruct (late_raises n q o L C) as [X Y]. split; [congruence|]. apply X in T. auto.
Qed.
