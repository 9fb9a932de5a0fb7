(** * NetNext: the description of the next event, selections of queues *)
From Coq Require Import List ZArith QArith Lia Bool Permutation Arith.
From Verif Require Import Base Heap HeapProofs PQueue PQueueProofs SpecPQ PQHist Queue QueueEffects QueueEvents QueueSteps QueueInv SpecQueue QueueFlow QueueHist QueueClaims1 Network NetQueue NetSteps NetInv SpecNet NetReach NetFlow NetClaims1 NetClaims2 NetClaims3 NetTotal SpecStop.
Import ListNotations.
Open Scope Z_scope.

(** ** The least key *)
Definition key_le (a b : ext * nat) : Prop := eLt (fst a) (fst b) \/ fst a = fst b /\ (snd a <= snd b)%nat.

Lemma key_ltb_le a b : key_ltb a b = true -> key_le a b.
Proof.
  unfold key_ltb, key_le. intro H. apply orb_true_iff in H as [H|H]; [left; apply eltb_lt; exact H|].
  apply andb_true_iff in H as [H1 H2]. right. apply eeqb_eq in H1. apply Nat.ltb_lt in H2. split; [exact H1|lia].
Qed.
Lemma key_nlt_le a b : key_ltb a b = false -> key_le b a.
Proof.
  unfold key_ltb, key_le. intro H. apply orb_false_iff in H as [H1 H2]. apply eltb_ge in H1.
  destruct (eeqb (fst a) (fst b)) eqn:E.
  - apply eeqb_eq in E. right. split; [symmetry; exact E|]. cbn in H2. apply Nat.ltb_ge in H2. exact H2.
  - left. apply eLt_not_le. intro X. apply eeqb_neq in E. apply E. apply eLe_antisym; assumption.
Qed.
Lemma key_le_refl a : key_le a a.
Proof. right. auto. Qed.
Lemma key_le_trans a b c : key_le a b -> key_le b c -> key_le a c.
Proof.
  unfold key_le. intros [A|[A A']] [B|[B B']].
  - left. eapply eLt_le_trans; [exact A|apply eLt_le; exact B].
  - left. rewrite <- B. exact A.
  - left. rewrite A. exact B.
  - right. split; [congruence|lia].
Qed.
Lemma least_key_spec l m : least_key l = Some m -> In m l /\ forall x, In x l -> key_le m x.
Proof.
  revert m. induction l as [|k l IH]; intros m H; [discriminate|]. cbn [least_key] in H. destruct (least_key l) as [m0|] eqn:E.
  - destruct (IH _ eq_refl) as [IN LE]. destruct (key_ltb m0 k) eqn:C; injection H as <-.
    + split; [right; exact IN|]. intros x [<-|X]; [apply key_ltb_le; exact C|auto].
    + split; [left; reflexivity|]. apply key_nlt_le in C. intros x [<-|X]; [apply key_le_refl|]. eapply key_le_trans; eauto.
  - injection H as <-. destruct l; [|cbn in E; destruct (least_key l); discriminate]. split; [left; reflexivity|]. intros x [<-|[]]. apply key_le_refl.
Qed.

(** ** next_event_description of a queue *)
Lemma description_kind T k q d : qok T k q -> next_event_description q = Ok d -> next_kind q d.
Proof.
  intros K H. assert (I := qk_inv _ _ _ K).
  assert (D : d = 0 \/ d = 1 \/ d = 2).
  { unfold next_event_description in H. destruct (c_class (q_cfg q)); [| |injection H as <-; auto| |];
      mbind H; mbind H; repeat (match type of H with context[if ?b then _ else _] => destruct b end); injection H as <-; auto. }
  destruct D as [->|[->| ->]].
  - left. split; [reflexivity|]. eapply description_0; eauto.
  - right; left. destruct (description_1 _ I H) as (N & LE & T1 & F). split; [reflexivity|]. split; [exact F|].
    destruct (wfh_min_cases _ (qi_arr _ I)) as [X|(a & A & TA)]; [congruence|]. exists a. split; [exact A|congruence].
  - right; right. destruct (description_2 _ I H) as (N & LT & T1 & F). split; [reflexivity|]. split; [exact F|]. split.
    + destruct (wfh_min_cases _ (qi_dep _ I)) as [X|(a & A & TA)]; [congruence|]. exists a. split; [exact A|congruence].
    + intros a A. rewrite T1. eapply eLt_le_trans; [exact LT|]. apply wfh_min; [apply I|exact A].
Qed.
Lemma description_total T k q : qok T k q -> exists d, next_event_description q = Ok d.
Proof.
  intro K. assert (I := qk_inv _ _ _ K). unfold next_event_description.
  rewrite (wfh_root_time _ (qi_arr _ I)), (wfh_root_time _ (qi_dep _ I)). cbn [bind]. destruct (c_class (q_cfg q)); eauto;
  repeat (match goal with |- context[if ?b then _ else _] => destruct b end); eauto.
Qed.

Lemma net_description n : ninv n ->
  (pq_size (nt_heap n) = 0%nat /\ net_next_description n = Ok (0, None) /\ forall q, In q (nt_queues n) -> q_time q = Inf) \/
  (exists k q d, foremost n k q /\ next_event_description q = Ok d /\ next_kind q d /\ net_next_description n = Ok (if d =? 1 then 1 else 2, Some k)).
Proof.
  intros I. unfold net_next_description. destruct (Nat.eqb_spec (pq_size (nt_heap n)) 0) as [SZ|SZ].
  - left. split; [exact SZ|]. split; [reflexivity|]. intros q IN. apply in_get in IN as (k & G).
    destruct (ni_heap _ I) as [[_ X]|[W HB]]; [eapply X; exact G|]. destruct (q_time q) as [z|] eqn:E; [|reflexivity].
    exfalso. destruct (ha_a _ _ _ _ _ HB k q Logic.I G) as [X _]; [congruence|].
    assert (L := pw_size _ _ W).
    destruct (pq_entries (nt_heap n)) as [|y ys]; [destruct X|cbn in L; lia].
  - right. destruct (ni_heap _ I) as [[X _]|[W HB]]; [congruence|].
    assert (NE : nt_queues n <> []).
    { intro E. assert (L := pw_size _ _ W).
      destruct (pq_entries (nt_heap n)) as [|[t k] r] eqn:PE; [cbn in L; congruence|].
      destruct (ha_b _ _ _ _ _ HB t k) as [X _]; [left; reflexivity|]. rewrite E in X. cbn in X. lia. }
    destruct (least_key (map qkey (nt_queues n))) as [m|] eqn:E.
    2:{ destruct (nt_queues n); [congruence|]. cbn [map least_key] in E. destruct (least_key _); discriminate. }
    apply least_key_spec in E as [IN LE]. apply in_map_iff in IN as (q & <- & IN). apply in_get in IN as (k & G).
    assert (K := ni_q _ I _ _ G). assert (IX := qk_idx _ _ _ K). cbn [of_option bind qkey snd]. rewrite IX. unfold queue_at. rewrite G. cbn [of_option bind].
    destruct (description_total _ _ _ K) as (d & D). rewrite D. cbn [bind]. exists k, q, d. split; [|rewrite IX; auto using (description_kind _ _ _ _ K D)].
    split; [exact G|]. intros j qj GJ. assert (X := LE (qkey qj) (in_map qkey _ _ (nth_error_In _ _ GJ))).
    unfold key_le, qkey in X. cbn [fst snd] in X. rewrite IX, (qk_idx _ _ _ (ni_q _ I _ _ GJ)) in X. exact X.
Qed.

Lemma next_departed q r q' : qinv q -> c_class (q_cfg q) <> CNull -> next_event q = Ok (r, q') -> r = None -> q_departed q' = q_departed q.
Proof.
  intros I N H ->. assert (SF : flow_ok (ONext, q, None, q') /\ qinv q') by (apply step_flow; auto; exact Logic.I).
  destruct SF as [[_ X _ _] _]. rewrite X. unfold departed1, zlen. cbn. lia.
Qed.

Lemma nst_kind n n' k q : ninv n -> get (nt_queues n) k = Some q -> (forall j qj, get (nt_queues n) j = Some qj -> j <> k -> eLt (q_time q) (q_time qj)) ->
  nst n n' -> nt_queues n' = nt_queues n \/
  nt_t n' = q_time q /\ exists q', get (nt_queues n') k = Some q' /\
   (next_event_description q = Ok 1 /\ (forall j, j <> k -> get (nt_queues n') j = get (nt_queues n) j) /\ q_departed q' = q_departed q \/
    next_event_description q = Ok 2 /\ (q_departed q' = q_departed q + 1 \/ exists e, stays n n' k e)).
Proof.
  intros I G U S.
  assert (ONE : forall j qj, get (nt_queues n) j = Some qj -> q_time qj = nt_t n' -> eLe (nt_t n') (q_time q) -> j = k /\ qj = q).
  { intros j qj GJ TJ LE. destruct (Nat.eq_dec j k) as [->|NE]; [split; congruence|]. exfalso.
    assert (X := U _ _ GJ NE). rewrite TJ in X. exact (proj1 (eLt_not_le _ _) X LE). }
  assert (HP := nst_happening _ _ I S). assert (S0 := S).
  destruct S as [SZ ->|t k0 h q0 SZ PO G0 DS ->|t k0 h q0 r q' h' SZ PO G0 DS NX PU LC ->|
    t k0 h q0 a h0 l e2 q2 qm q' d h' iu ie td SZ PO G0 DS DP OUT IN DD G2 NE CA MB RT DE DL NK PU E|
    t k0 h q0 a h0 l e2 q2old b q' q2 q2a r q2' h' iu SZ PO G0 DS DP OUT IN DD G2 CA NX GE AD NX2 PU LA LB E]; [left; reflexivity|left; reflexivity|right|..].
  - destruct (popped _ _ _ _ I SZ PO) as (W & LE & LK & QK & QM & _ & KS & TT & HB & _). assert (K := KS _ _ G0).
    destruct (description_1 _ (qk_inv _ _ _ K) DS) as (N & _ & _ & FI).
    assert (TQ : q_time q0 = t) by (destruct (TT _ G0); [assumption|congruence]).
    destruct (ONE k0 q0 G0) as [-> ->]; [exact TQ|apply (qok_time _ k), KS; exact G|]. unfold after in *. nc. split; [congruence|].
    exists q'. rewrite get_upd_eq by exact LK. split; [reflexivity|]. left. split; [exact DS|]. split; [intros j NE; apply get_upd_neq; congruence|].
    assert (KS' := qok_stopped _ _ (nt_max n) (nt_nagents n) _ K).
    assert (R : r = None).
    { assert (D' : next_event_description (stopped (nt_max n) (nt_nagents n) q) = Ok 1).
      { rewrite <- DS. unfold stopped. destruct (q_active q && _); reflexivity. }
      apply (arr_event _ _ _ (qk_inv _ _ _ KS') D' NX). }
    rewrite (next_departed _ _ _ (qk_inv _ _ _ KS')) with (2 := NX); [|rewrite cfg_stopped; exact N|exact R].
    unfold stopped. destruct (q_active q && _); reflexivity.
  - destruct (popped _ _ _ _ I SZ PO) as (W & LE & LK & QK & QM & _ & KS & TT & HB & _). assert (K := KS _ _ G0).
    destruct (description_2 _ (qk_inv _ _ _ K) DS) as (N & _ & _ & FI).
    assert (TQ : q_time q0 = t) by (destruct (TT _ G0); [assumption|congruence]).
    assert (TN : nt_t n' = t) by (rewrite E; reflexivity).
    assert (LT : eLe (nt_t n') (q_time q)) by (rewrite TN; apply (qok_time _ k), KS; exact G).
    destruct (ONE k0 q0 G0) as [-> ->]; [congruence|exact LT|].
    destruct HP as [(_ & SZ0 & _)|(_ & [(j & qj & GJ & TJ & QE & _)|HP])]; [lia|left; exact QE|right]. split; [congruence|].
    assert (GN : get (nt_queues n') k = Some q') by (rewrite E; unfold after; nc; apply get_upd_eq; rewrite upd_length; exact LK).
    exists q'. split; [exact GN|]. right. split; [exact DS|].
    destruct HP as [j qj qj' aj rest new GJ GJ' TJ AJ _ _ _ _|j e qj qj' q2j aj GJ GJ' _ _ _ _ TJ _ _ DJ|j e ST].
    + exfalso. destruct (ONE j qj GJ TJ LT) as [-> ->]. unfold arriving in AJ. rewrite DS in AJ. discriminate.
    + destruct (ONE j qj GJ TJ LT) as [-> ->]. left. rewrite GN in GJ'. injection GJ' as <-. exact DJ.
    + right. exists e. assert (ST0 := ST). destruct ST as (qj & qj' & q2j & aj & t' & rest & GJ & _ & _ & _ & _ & _ & TJ & _).
        destruct (ONE j qj GJ TJ LT) as [-> ->]. exact ST0.
  - destruct (popped _ _ _ _ I SZ PO) as (W & LE & LK & QK & QM & _ & KS & TT & HB & _). assert (K := KS _ _ G0).
    destruct (description_2 _ (qk_inv _ _ _ K) DS) as (N & _ & _ & FI).
    assert (TQ : q_time q0 = t) by (destruct (TT _ G0); [assumption|congruence]).
    assert (TN : nt_t n' = t) by (rewrite E; reflexivity).
    assert (LT : eLe (nt_t n') (q_time q)) by (rewrite TN; apply (qok_time _ k), KS; exact G).
    destruct (ONE k0 q0 G0) as [-> ->]; [congruence|exact LT|].
    destruct HP as [(_ & SZ0 & _)|(_ & [(j & qj & GJ & TJ & QE & _)|HP])]; [lia|left; exact QE|right]. split; [congruence|].
    assert (GN : exists qn, get (nt_queues n') k = Some qn).
    { rewrite E. unfold after. nc. apply get_ex. rewrite !upd_length. exact LK. }
    destruct GN as (qn & GN). exists qn. split; [exact GN|]. right. split; [exact DS|].
    destruct HP as [j qj qj' aj rest new GJ GJ' TJ AJ _ _ _ _|j e qj qj' q2j aj GJ GJ' _ _ _ _ TJ _ _ DJ|j e ST].
    + exfalso. destruct (ONE j qj GJ TJ LT) as [-> ->]. unfold arriving in AJ. rewrite DS in AJ. discriminate.
    + destruct (ONE j qj GJ TJ LT) as [-> ->]. left. rewrite GN in GJ'. injection GJ' as <-. exact DJ.
    + right. exists e. assert (ST0 := ST). destruct ST as (qj & qj' & q2j & aj & t' & rest & GJ & _ & _ & _ & _ & _ & TJ & _).
        destruct (ONE j qj GJ TJ LT) as [-> ->]. exact ST0.
Qed.

(** ** Selections of queues *)
Lemma on_queues_exact f l n n' : (forall q, f (f q) = f q) -> on_queues f l n = Ok n' ->
  n' = set_nt_queues (nt_queues n') n /\ length (nt_queues n') = length (nt_queues n) /\
  (forall k, In k l -> (k < length (nt_queues n))%nat) /\
  forall k q, get (nt_queues n) k = Some q -> (In k l -> get (nt_queues n') k = Some (f q)) /\ (~ In k l -> get (nt_queues n') k = Some q).
Proof.
  intros F. revert n n'. induction l as [|e l IH]; intros n n' H; cbn [on_queues] in H.
  - injection H as <-. split; [destruct n; reflexivity|]. split; [reflexivity|]. split; [intros k []|]. intros k q G. split; [intros []|auto].
  - mbind H. apply queue_at_Ok in E. destruct (IH _ _ H) as (A & B & C & D). revert A B C D. unfold put_queue. nc. rewrite upd_length. intros A B C D.
    assert (LE := get_lt _ _ _ E). split; [rewrite A; reflexivity|]. split; [exact B|]. split; [intros k [<-|X]; auto|].
    intros k q G. destruct (Nat.eq_dec k e) as [->|NE].
    + rewrite E in G. injection G as ->. destruct (D e (f q)) as [D1 D2]; [apply get_upd_eq; exact LE|]. split; [|intro X; exfalso; apply X; left; reflexivity].
      intros _. destruct (in_dec Nat.eq_dec e l) as [X|X]; [rewrite D1 by exact X; rewrite F; reflexivity|exact (D2 X)].
    + destruct (D k q) as [D1 D2]; [rewrite get_upd_neq by congruence; exact G|]. split; [intros [X|X]; [congruence|auto]|]. intro X. apply D2. intro Y. apply X. right; exact Y.
Qed.
Lemma on_queues_total f l n : (forall k, In k l -> (k < length (nt_queues n))%nat) -> exists n', on_queues f l n = Ok n'.
Proof.
  revert n. induction l as [|e l IH]; intros n H; [exists n; reflexivity|]. cbn [on_queues]. unfold queue_at.
  destruct (get_ex (nt_queues n) e (H e (or_introl eq_refl))) as (q & ->). cbn [of_option bind]. apply IH.
  intros k X. unfold put_queue. nc. rewrite upd_length. apply H. right; exact X.
Qed.
Lemma on_queues_err f l n x : on_queues f l n = Err x -> x = IndexError /\ exists k, In k l /\ (length (nt_queues n) <= k)%nat.
Proof.
  revert n. induction l as [|e l IH]; intros n H; [discriminate|]. cbn [on_queues] in H. unfold queue_at in H.
  destruct (get (nt_queues n) e) as [q|] eqn:G; cbn [of_option bind] in H.
  - destruct (IH _ H) as (-> & k & X & L). split; [reflexivity|]. exists k. split; [right; exact X|]. revert L. unfold put_queue. nc. rewrite upd_length. auto.
  - injection H as <-. split; [reflexivity|]. exists e. split; [left; reflexivity|]. apply nth_error_None. exact G.
Qed.

(** ** A queue that does not collect *)
Definition keeps (q q' : queue) : Prop := q_collect q' = q_collect q /\ (q_collect q = false -> q_data q' = q_data q).
Lemma keeps_refl q : keeps q q.
Proof. split; auto. Qed.
Lemma keeps_trans a b c : keeps a b -> keeps b c -> keeps a c.
Proof. intros [A1 A2] [B1 B2]. split; [congruence|]. intro H. rewrite B2 by congruence. auto. Qed.
Lemma keeps_update q q' : update_time q = Ok q' -> keeps q q'.
Proof. unfold update_time. intro H. mbind H. mbind H. injection H as <-. split; reflexivity || auto. Qed.

Lemma keeps_draw q q2 new : draw q q2 new -> q_collect q2 = q_collect q /\ q_data q2 = q_data q.
Proof. intros (tm & act & ha & i & ct & -> & _). split; reflexivity. Qed.

Lemma dmod_off d i f d' : dmod false d i f d' -> d' = d.
Proof. intros [[H _]|[H _]]; [exact H|discriminate]. Qed.

Lemma keeps_next q r q' : qinv q -> next_event q = Ok (r, q') -> keeps q q'.
Proof.
  intros I H. destruct (c_class (q_cfg q)) eqn:C.
  3:{ unfold next_event in H. rewrite C in H. injection H as <- <-. apply keeps_refl. }
  all: assert (N : c_class (q_cfg q) <> CNull) by congruence; assert (Wa := qi_arr _ I); assert (Wd := qi_dep _ I);
    apply next_event_event in H as (qe & PE & EV); [|exact Wa|exact Wd]; destruct (pre_event_net _ _ PE) as (nd & ->);
    destruct EV as [ID _ -> ->|_ LT R|_ LE NI CAP _ R|_ NS LE NI CAP _ R|CR LE NI RT _ R|CR LE NI RT _ CAP R];
    [ split; auto
    | apply qs_departure_Ok in R; [|exact Wa|exact Wd];
      destruct R as (a & h & a' & h' & line' & n & d1 & d & s & o & PA & -> & I1 & T1 & K1 & B1 & -> & D1 & Wh' & SO & ST);
      qch D1; qch ST; split; [reflexivity|]; qc; intro F; rewrite F in *; apply dmod_off in D1;
      destruct ST as [(_ & -> & -> & _ & ->)|(_ & b & b' & LB & I2 & T2 & _ & Pb & _ & D2)]; [|apply dmod_off in D2]; congruence
    | apply qs_arrival_Ok in R; [|exact N|exact Wa|exact Wd];
      destruct R as (a & h & q2 & new & h' & line' & n & d1 & d & s1 & o1 & s & o & a1 & -> & PA & DR & I1 & T1 & K1 & -> & D1 & Wh' & SO1 & SO & CC);
      qch D1; qch CC; apply keeps_draw in DR as [DR1 DR2]; split; [exact DR1|]; qc; intro F; rewrite F in *;
      destruct CC as [(C1 & -> & -> & (a2 & I2 & T2 & K2 & P2) & D)|(C1 & -> & -> & -> & -> & -> & ->)]; congruence
    | apply loss_blocked_Ok in R; [|exact N|exact Wa|exact Wd];
      destruct R as (a & h & q2 & new & d & -> & PA & DR & -> & D); qch D; apply keeps_draw in DR as [DR1 DR2]; split; [exact DR1|]; qc; intro F; rewrite F in *; congruence
    | apply rq_return_Ok in R; [|exact Wa|exact Wd];
      destruct R as (a & h & o & d & -> & PA & Wh & -> & O & D); split; [reflexivity|]; qc; qch D; intro F; rewrite F in *; congruence
    | apply rq_blocked_Ok in R; [|exact Wa|exact Wd];
      destruct R as (a & h & d & -> & PA & Wh & -> & D); split; [reflexivity|]; qc; qch D; intro F; rewrite F in *; congruence ].
Qed.

Lemma keeps_add a q q' : add_arrival a q = Ok q' -> keeps q q'.
Proof.
  unfold add_arrival. intro H. destruct (c_class (q_cfg q)).
  3:{ injection H as <-. destruct (q_collect q) eqn:E; split; cbn; auto; congruence. }
  all: mbind H; unfold update_time_if in H; mbind H; mbind H; injection H as <-; match goal with |- keeps _ (if ?b then _ else _) => destruct b end; split; reflexivity || auto.
Qed.
Lemma keeps_delay t q q' : delay_service t q = Ok q' -> keeps q q'.
Proof.
  unfold delay_service. intro H. destruct (c_class (q_cfg q)).
  3:{ injection H as <-. apply keeps_refl. }
  all: destruct (1 <? length (q_dep q))%nat; [|injection H as <-; apply keeps_refl];
    destruct (heappop itime (q_dep q)) as [[[|a] h]|]; try discriminate; destruct t as [t|]; cbn [call_srv] in H;
    mbind H; apply keeps_update in H; exact H.
Qed.
Lemma keeps_mark q q' : mark_blocked q = Ok q' -> keeps q q'.
Proof. unfold mark_blocked. intro H. mbind H. injection H as <-. split; reflexivity || auto. Qed.
Lemma keeps_stopped max ag q : keeps q (stopped max ag q).
Proof. unfold stopped. destruct (_ && _); split; reflexivity || auto. Qed.

Definition all_keep (qs qs' : list queue) : Prop := forall k q, get qs k = Some q -> exists q', get qs' k = Some q' /\ keeps q q'.
Lemma all_keep_refl qs : all_keep qs qs.
Proof. intros k q G. exists q. split; [exact G|apply keeps_refl]. Qed.
Lemma all_keep_trans a b c : all_keep a b -> all_keep b c -> all_keep a c.
Proof. intros A B k q G. destruct (A _ _ G) as (q1 & G1 & K1). destruct (B _ _ G1) as (q2 & G2 & K2). exists q2. split; [exact G2|eapply keeps_trans; eauto]. Qed.
Lemma all_keep_upd qs k q q' : get qs k = Some q -> keeps q q' -> all_keep qs (upd qs k q').
Proof.
  intros G K j qj GJ. destruct (Nat.eq_dec k j) as [->|NE].
  - exists q'. rewrite get_upd_eq by exact (get_lt _ _ _ G). split; [reflexivity|]. congruence.
  - exists qj. rewrite get_upd_neq by congruence. split; [exact GJ|apply keeps_refl].
Qed.

Lemma keeps_nst n n' : ninv n -> nst n n' -> all_keep (nt_queues n) (nt_queues n').
Proof.
  intros I S. destruct S as [SZ ->|t k h q SZ PO G DS ->|t k h q r q' h' SZ PO G DS NX PU LC ->|
    t k h q a h0 l e2 q2 qm q' d h' iu ie td SZ PO G DS DP OUT IN DD G2 NE CA MB RT DE DL NK PU ->|
    t k h q a h0 l e2 q2old b q' q2 q2a r q2' h' iu SZ PO G DS DP OUT IN DD G2 CA NX GE AD NX2 PU LA LB ->].
  - apply all_keep_refl.
  - apply all_keep_refl.
  - unfold after. nc. apply all_keep_upd with q; [exact G|]. eapply keeps_trans; [apply (keeps_stopped (nt_max n) (nt_nagents n))|].
    eapply keeps_next; [|exact NX]. apply qinv_stopped. apply (ni_q _ I _ _ G).
  - unfold after. nc. apply all_keep_trans with (upd (nt_queues n) e2 (set_q_blocked (q_blocked q2 + 1) q2)).
    + apply all_keep_upd with q2; [exact G2|]. split; reflexivity || auto.
    + apply all_keep_upd with q; [rewrite get_upd_neq by congruence; exact G|]. eapply keeps_trans; [eapply keeps_mark; exact MB|eapply keeps_delay; exact DL].
  - destruct (popped _ _ _ _ I SZ PO) as (W & LE & LK & QK & QM & _ & KS & TT & HB & _).
    assert (K := KS _ _ G). destruct (description_2 _ (qk_inv _ _ _ K) DS) as (NN & _ & _ & FI).
    assert (TQ : q_time q = t) by (destruct (TT _ G); [assumption|congruence]). assert (FT : t <> Inf) by congruence.
    destruct (qok_next t k _ _ _ K TQ FT NX) as (K' & _).
    assert (K2 : qok t e2 q2).
    { apply get_upd in GE as [[-> ->]|[NE GE]]; [exact K'|apply KS; exact GE|exact LK]. }
    unfold after. nc. apply all_keep_trans with (upd (nt_queues n) k q').
    + apply all_keep_upd with q; [exact G|]. eapply keeps_next; [apply K|exact NX].
    + apply all_keep_upd with q2; [exact GE|]. eapply keeps_trans; [eapply keeps_add; exact AD|].
      eapply keeps_trans; [apply (keeps_stopped (nt_max n) (upd (upd (nt_nagents n) k (q_total q')) e2 (q_total q2a)))|].
      eapply keeps_next; [|exact NX2]. apply qinv_stopped.
      assert (X := qinv_op (OArrive (set_ag_time t b)) q2 q2a (qk_inv _ _ _ K2)). apply X. exact AD.
Qed.
Lemma keeps_runs m : forall n n', ninv n -> nruns m n = Ok n' -> all_keep (nt_queues n) (nt_queues n').
Proof.
  induction m as [|m IH]; intros n n' I H; cbn [nruns] in H; [injection H as <-; apply all_keep_refl|].
  mbind H. assert (S := sim_nst _ _ I E). eapply all_keep_trans; [eapply keeps_nst; eassumption|]. eapply IH; [|exact H]. apply (ninv_step _ _ I S).
Qed.

(** ** initialize *)
Lemma not_null_total sel n : (forall k, In k sel -> (k < length (nt_queues n))%nat) -> exists l, not_null sel n = Ok l /\
  (forall k, In k l -> In k sel) /\
  (forall k q, In k sel -> get (nt_queues n) k = Some q -> c_type (q_cfg q) <> 0 -> In k l).
Proof.
  induction sel as [|e sel IH]; intro H; [exists []; split; [reflexivity|]; split; [auto|intros k q []]|].
  cbn [not_null]. unfold queue_at. destruct (get_ex (nt_queues n) e (H e (or_introl eq_refl))) as (q0 & G0). rewrite G0. cbn [of_option bind].
  destruct IH as (l & -> & A & B); [intros k X; apply H; right; exact X|]. cbn [bind]. destruct (Z.eqb_spec (c_type (q_cfg q0)) 0) as [T|T].
  - exists l. split; [reflexivity|]. split; [intros k X; right; auto|]. intros k q [<-|X] G N; [congruence|eauto].
  - exists (e :: l). split; [reflexivity|]. split; [intros k [<-|X]; [left; reflexivity|right; auto]|]. intros k q [<-|X] G N; [left; reflexivity|right; eauto].
Qed.

Lemma initialize_total sel n : ngood n -> nlive n -> nt_init n = false ->
  (forall k, In k sel -> (k < length (nt_queues n))%nat) ->
  (exists k q, In k sel /\ get (nt_queues n) k = Some q /\ c_type (q_cfg q) <> 0) ->
  exists n', initialize_queues sel n = Ok n'.
Proof.
  intros [_ BL] [I S A C NL FT] NI RG (k0 & q0 & IN0 & G0 & T0). unfold initialize_queues.
  destruct (not_null_total sel n RG) as (l & -> & SUB & SUP). cbn [bind].
  assert (LN : (length l =? 0)%nat = false).
  { apply Nat.eqb_neq. assert (X := SUP _ _ IN0 G0 T0). destruct l; [destruct X|discriminate]. }
  rewrite LN. destruct (BL NI) as [BT BQ].
  assert (CA : calm n).
  { destruct I as [I1 I2 I3 I4 I5]. split; auto. intros k q G. split; [rewrite <- BT; apply I2; exact G|apply (BQ _ _ G)]. }
  destruct (activate_tot (length (nt_queues n)) (truncate l (nt_max n)) n A) as (n1 & E1 & A1).
  { intros e IN. apply RG, SUB. unfold truncate in IN. destruct (nt_max n); [|exact IN]. destruct (z <? Z.of_nat (length l)); [|exact IN].
    unfold slice_to in IN. destruct (0 <=? z); eapply in_firstn; exact IN. }
  rewrite E1. cbn [bind]. assert (CA1 := activate_ok _ _ _ CA E1).
  destruct (finite_keys (nt_queues n1)) as [|x ks] eqn:FK; [eexists; reflexivity|]. rewrite <- FK.
  destruct (pq_new_spec (pq_junk (nt_heap n)) (finite_keys (nt_queues n1)) (length (nt_queues n1))) as (h & -> & _); [congruence| |eexists; reflexivity].
  intros t k X. unfold finite_keys in X. apply in_map_iff in X as (q & Q & X). apply filter_In in X as [X _]. apply in_get in X as (j & G).
  injection Q as _ <-. rewrite (qk_idx _ _ _ (proj1 (ca_q _ CA1 _ _ G))). exact (get_lt _ _ _ G).
Qed.

Lemma candidates_exact n : ninv n -> NoDup (candidates n) /\
  (forall k, In k (candidates n) <-> exists q, get (nt_queues n) k = Some q /\ c_type (q_cfg q) <> 0) /\
  length (candidates n) = length (filter (fun q => negb (c_type (q_cfg q) =? 0)) (nt_queues n)).
Proof.
  intro I. split; [|split; [|apply map_length]].
  - assert (X : forall qs i, (forall k q, get qs k = Some q -> c_idx (q_cfg q) = (i + k)%nat) ->
      NoDup (map (fun q => c_idx (q_cfg q)) (filter (fun q => negb (c_type (q_cfg q) =? 0)) qs)) /\
      forall x, In x (map (fun q => c_idx (q_cfg q)) (filter (fun q => negb (c_type (q_cfg q) =? 0)) qs)) -> (i <= x)%nat).
    { induction qs as [|q qs IH]; intros i H; [split; [constructor|intros x []]|].
      destruct (IH (S i)) as [N L]; [intros k q' G; rewrite (H (S k) q' G); lia|]. assert (H0 := H 0%nat q eq_refl). cbn [filter].
      destruct (negb (c_type (q_cfg q) =? 0)); cbn [map]; [split|split; [exact N|intros x X; apply L in X; lia]].
      - constructor; [intro X; apply L in X; lia|exact N].
      - intros x [<-|X]; [lia|apply L in X; lia]. }
    apply (X (nt_queues n) 0%nat). intros k q G. exact (qk_idx _ _ _ (ni_q _ I _ _ G)).
  - intro k. unfold candidates. rewrite in_map_iff. split.
    + intros (q & <- & X). apply filter_In in X as [X T]. apply in_get in X as (j & G). exists q. rewrite (qk_idx _ _ _ (ni_q _ I _ _ G)).
      split; [exact G|]. apply negb_true_iff, Z.eqb_neq in T. exact T.
    + intros (q & G & T). exists q. split; [exact (qk_idx _ _ _ (ni_q _ I _ _ G))|]. apply filter_In. split; [exact (nth_error_In _ _ G)|].
      apply negb_true_iff, Z.eqb_neq. exact T.
Qed.

Lemma filter_all {A} (f : A -> bool) l : (forall x, In x l -> f x = true) -> filter f l = l.
Proof. induction l as [|a l IH]; intro H; [reflexivity|]. cbn. rewrite (H a (or_introl eq_refl)). f_equal. apply IH. intros x X. apply H. right; exact X. Qed.

Lemma active_exact z pick n n' : ninv n -> blank n -> eLe (Fin 0) (nt_max n) -> draws pick -> initialize_active (PInt z) pick n = Ok n' ->
  1 <= z /\ exists sel, NoDup sel /\ Fin (zlen sel) = emin (Fin (Z.min z (zlen (eligible n)))) (nt_max n) /\
    (forall k, In k sel -> exists q, get (nt_queues n) k = Some q /\ c_type (q_cfg q) <> 0) /\
    (forall k q, get (nt_queues n) k = Some q ->
      (~ In k sel -> get (nt_queues n') k = Some q) /\ (In k sel -> exists q', set_active q = Ok q' /\ get (nt_queues n') k = Some q')) /\
    scheduled_exactly n' /\ nt_init n' = true.
Proof.
  intros I B MX DR H. unfold initialize_active in H. destruct (1 <=? z) eqn:Z1; [|discriminate]. apply Z.leb_le in Z1. split; [exact Z1|].
  destruct (candidates_exact _ I) as (ND & CI & CL). destruct (DR (candidates n) (Nat.min (Z.to_nat z) (length (candidates n))) ND) as (P1 & P2 & P3); [lia|].
  set (sel := pick (candidates n) (Nat.min (Z.to_nat z) (length (candidates n)))) in *.
  destruct (initialize_exact _ _ _ I B P1 MX H) as (X1 & X2 & X3 & X4 & X5 & _).
  assert (FS : filter (fun e => match get (nt_queues n) e with Some q => negb (c_type (q_cfg q) =? 0) | None => true end) sel = sel).
  { apply filter_all. intros k K. apply P2, CI in K as (q & G & T). rewrite G. apply negb_true_iff, Z.eqb_neq. exact T. }
  exists (starts sel n). unfold starts in *. rewrite FS in *.
  assert (LS : zlen sel = Z.min z (zlen (eligible n))) by (unfold zlen, eligible; rewrite P3, <- CL; lia).
  split; [destruct (nt_max n); [apply firstn_nodup; exact P1|exact P1]|]. split.
  { rewrite <- LS. destruct (nt_max n) as [m|]; cbn [eLe] in MX.
    - unfold zlen. rewrite firstn_length. unfold emin. destruct (eltb (Fin (Z.of_nat (length sel))) (Fin m)) eqn:C.
      + apply eltb_lt in C. cbn in C. f_equal. lia.
      + apply eltb_ge in C. cbn in C. f_equal. lia.
    - reflexivity. }
  split; [|auto].
  intros k K. apply CI, P2. destruct (nt_max n); [eapply in_firstn; exact K|exact K].
Qed.
