(** * QueueTotal: no call on a well-formed queue raises *)
From Coq Require Import List ZArith QArith Lia Bool Permutation Arith.
From Verif Require Import Base Heap HeapProofs Queue QueueEffects QueueEvents QueueSteps QueueInv SpecQueue QueueData.
Import ListNotations.
Open Scope Z_scope.

Definition tot {A} (P : A -> Prop) (r : res A) : Prop := exists a, r = Ok a /\ P a.

Lemma tot_Ok {A} (P : A -> Prop) a : P a -> tot P (Ok a).
Proof. intro H. exists a. auto. Qed.
Lemma tot_bind {A B} (P : A -> Prop) (Q : B -> Prop) r f :
  tot P r -> (forall a, P a -> tot Q (f a)) -> tot Q (bind r f).
Proof. intros (a & -> & Pa) H. cbn [bind]. apply H; exact Pa. Qed.
Lemma tot_weak {A} (P Q : A -> Prop) r : tot P r -> (forall a, P a -> Q a) -> tot Q r.
Proof. intros (a & -> & Pa) H. exists a. auto. Qed.

Definition finite_row (r : row) : Prop := r_arr r <> Inf /\ r_srv r <> Inf.

(** Every known agent has a row; an InfoQueue has only finite times. *)
Definition dlive (c : qcfg) (d : qdata) : Prop :=
  forall i rows, In (i, rows) d -> rows <> [] /\ (c_class c = CInfo -> Forall finite_row rows).

Record live (n : nat) (q : queue) : Prop := mkLive {
  lv_arr : wfh (q_arr q);
  lv_dep : wfh (q_dep q);
  lv_aarr : Forall (aok n) (agents_of (q_arr q));
  lv_adep : Forall (aok n) (agents_of (q_dep q));
  lv_aline : Forall (aok n) (q_line q);
  lv_now : q_now q <> Inf;
  lv_data : dlive (q_cfg q) (q_data q);
  lv_net : c_class (q_cfg q) = CInfo -> length (q_net q) = n;
  lv_srv : c_class (q_cfg q) = CInfo -> q_servers q <> Fin 0;
  lv_cfg : cfg_ok n (q_cfg q)
}.

Lemma forall_perm {A} (P : A -> Prop) l l' : Permutation l l' -> Forall P l -> Forall P l'.
Proof. intros PM F. rewrite Forall_forall in *. intros x H. apply F. apply (Permutation_in x (Permutation_sym PM) H). Qed.

Lemma dlive_dset c d i rows : dlive c d -> rows <> [] -> (c_class c = CInfo -> Forall finite_row rows) -> dlive c (dset d i rows).
Proof.
  intros D N F j r H. apply in_dset in H as [H|H]; [inversion H; subst; auto | apply (D j r H)].
Qed.

Lemma dlive_rows c d i : dlive c d -> c_class c = CInfo -> Forall finite_row (rows_of d i).
Proof.
  intros D C. rewrite rows_of_dget. destruct (dget d i) eqn:E; [|constructor]. apply dget_in in E. apply (D _ _ E). exact C.
Qed.

Lemma dlive_append c d i r : dlive c d -> (c_class c = CInfo -> finite_row r) -> dlive c (dappend d i r).
Proof.
  intros D F. rewrite dappend_dset. apply dlive_dset; [exact D|intro X; destruct (rows_of d i); discriminate|].
  intro C. apply Forall_app. split; [apply dlive_rows with c; assumption|]. constructor; [auto | constructor].
Qed.

Lemma dlast_tot c d i f : dlive c d -> dget d i <> None -> (forall r, finite_row r -> finite_row (f r)) ->
  tot (dlive c) (dlast d i f).
Proof.
  intros D N F. destruct (dget d i) as [rows|] eqn:E; [|congruence].
  destruct (D _ _ (dget_in _ _ _ E)) as [NE FN].
  destruct (snoc_cases rows) as [->|(rs & r & ->)]; [congruence|].
  rewrite (dlast_spec d i f rs r E). apply tot_Ok. apply dlive_dset; [exact D|intro X; destruct rs; discriminate|].
  intro C. specialize (FN C). apply Forall_app in FN as [F1 F2]. apply Forall_app. split; [exact F1|].
  inversion F2; subst. constructor; [apply F; assumption | constructor].
Qed.

Lemma dlast_if_tot c q i f : dlive c (q_data q) -> (forall r, finite_row r -> finite_row (f r)) ->
  tot (fun q' => exists d, q' = set_q_data d q /\ dlive c d) (dlast_if q i f).
Proof.
  intros D F. unfold dlast_if. destruct (q_collect q).
  - destruct (dget (q_data q) i) eqn:E.
    + eapply tot_bind; [apply dlast_tot with (c := c); [exact D|congruence|exact F]|].
      intros d Hd. apply tot_Ok. eauto.
    + apply tot_Ok. exists (q_data q). split; [reflexivity | exact D].
  - apply tot_Ok. exists (q_data q). split; [reflexivity | exact D].
Qed.

Lemma zip_rows_tot f a b : length a = length b -> tot (fun r => length r = length a) (zip_rows f a b).
Proof.
  revert b. induction a as [|x a IH]; destruct b as [|y b]; cbn [zip_rows length]; intro H; try discriminate.
  - apply tot_Ok. reflexivity.
  - eapply tot_bind; [apply IH; lia|]. intros r Hr. apply tot_Ok. cbn in *. lia.
Qed.

Lemma set_tot {A} (l : list A) i x : (i < length l)%nat -> tot (fun l' => length l' = length l) (of_option IndexError (set l i x)).
Proof. intro H. rewrite (set_upd _ _ _ H). apply tot_Ok. apply upd_length. Qed.

(** ** Actions *)

Lemma info_stats_tot n a q : length (ag_stats a) = n -> (c_idx (q_cfg q) < n)%nat ->
  c_class (q_cfg q) = CInfo -> dlive (q_cfg q) (q_data q) ->
  tot (fun st => length st = n) (info_stats a q).
Proof.
  intros LS LT C D. unfold info_stats. destruct (dget (q_data q) (ag_id a)) as [rows|] eqn:E; [|apply tot_Ok; exact LS].
  destruct (D _ _ (dget_in _ _ _ E)) as [NE FN]. specialize (FN C).
  destruct (snoc_cases rows) as [->|(rs & r & ->)]; [congruence|].
  rewrite rev_app_distr. cbn [rev app].
  apply Forall_app in FN as [_ F2]. inversion F2 as [|? ? [F3 F4] _]; subst.
  destruct (r_srv r); [|congruence]. destruct (r_arr r); [|congruence].
  rewrite (get_nth _ _ (0, 0, 0)) by lia. cbn [of_option bind].
  destruct (nth (c_idx (q_cfg q)) (ag_stats a) (0, 0, 0)) as [[x y] zz].
  apply set_tot. lia.
Qed.

Lemma queue_action_tot n a q : aok n a -> (c_idx (q_cfg q) < n)%nat ->
  (c_class (q_cfg q) = CInfo -> length (q_net q) = n /\ q_servers q <> Fin 0) ->
  dlive (q_cfg q) (q_data q) ->
  tot (fun p => let '(a', q') := p in aok n a' /\ ag_id a' = ag_id a /\ ag_time a' = ag_time a /\
         exists s o, q' = set_q_over o (set_q_servers s q) /\
          (c_class (q_cfg q) <> CResource -> s = q_servers q /\ o = q_over q)) (queue_action a q).
Proof.
  intros A LT NS D.
  assert (T : tot (fun p => aok n (fst p)) (queue_action a q)).
  { unfold queue_action. destruct (ag_kind a) eqn:K.
    - apply tot_Ok. exact A.
    - apply tot_Ok. exact A.
    - apply tot_Ok. unfold resource_action. destruct (is_resource (c_class (q_cfg q))); [|exact A].
      destruct (ag_has a); [intro X; cbn in X; congruence|].
      destruct (eltb (Fin 0) (q_servers q)); [intro X; cbn in X; congruence | exact A].
    - unfold info_action. destruct (c_class (q_cfg q)) eqn:C; cbn [is_info]; try (apply tot_Ok; exact A).
      destruct (NS eq_refl) as [N1 N2]. destruct (A K) as [L1 L2].
      eapply tot_bind; [apply zip_rows_tot; congruence|]. intros nd Hnd.
      eapply tot_bind; [apply info_stats_tot with (n := n); auto|]. intros st Hst. cbn beta in Hnd, Hst.
      unfold load. destruct (q_servers q) as [z|]; cbn [bind].
      + destruct z as [|p|p]; [congruence| |]; cbn [bind];
          (eapply tot_bind; [apply set_tot; lia|]; intros nd' Hnd'; cbn beta in Hnd'; apply tot_Ok; intros _; cbn; split; congruence).
      + eapply tot_bind; [apply set_tot; lia|]; intros nd' Hnd'; cbn beta in Hnd'; apply tot_Ok; intros _; cbn; split; congruence. }
  destruct T as ([a' q'] & E & AO). exists (a', q'). split; [exact E|]. cbn [fst] in AO.
  apply queue_action_Ok in E as (I1 & T1 & _ & _ & s & o & Q & SO).
  split; [exact AO|]. split; [exact I1|]. split; [exact T1|]. exists s, o. split; [exact Q|].
  intro NR. destruct SO as [X|(_ & X & _)]; [exact X | congruence].
Qed.

Lemma add_loss_tot n a q : aok n a -> (c_idx (q_cfg q) < n)%nat -> tot (fun _ => True) (add_loss a q).
Proof.
  intros A LT. unfold add_loss. destruct (ag_kind a) eqn:K; try (apply tot_Ok; exact Logic.I).
  destruct (A K) as [L1 L2]. rewrite (get_nth _ _ (0, 0, 0)) by lia. cbn [of_option bind].
  destruct (nth (c_idx (q_cfg q)) (ag_stats a) (0, 0, 0)) as [[x y] zz].
  eapply tot_bind; [apply set_tot; lia|]. intros. apply tot_Ok. exact Logic.I.
Qed.

(** ** Arrivals *)

Lemma push_tot n h a : wfh h -> aok n a -> Forall (aok n) (agents_of h) ->
  tot (fun h' => wfh h' /\ Forall (aok n) (agents_of h')) (push_item h a).
Proof.
  intros W A F. destruct (push_item_spec h a W) as (h' & -> & W' & P). apply tot_Ok. split; [exact W'|].
  apply (forall_perm _ _ _ (Permutation_sym P)). constructor; assumption.
Qed.

Lemma pop_tot n h : wfh h -> hmin h <> Inf -> Forall (aok n) (agents_of h) ->
  tot (fun p => let '(a, h') := p in wfh h' /\ aok n a /\ ag_time a <> Inf /\ Forall (aok n) (agents_of h')) (pop_agent h).
Proof.
  intros W F A. destruct (pop_agent_total h W F) as (a & h' & E). exists (a, h'). split; [exact E|].
  apply pop_agent_Ok in E as (W' & P & T & _); [|exact W]. apply (forall_perm _ _ _ P) in A. inversion A; subst.
  split; [exact W'|]. split; [assumption|]. split; [congruence | assumption].
Qed.

Lemma new_agent_tot n q t : cfg_ok n (q_cfg q) -> (c_class (q_cfg q) = CInfo -> length (q_net q) = n) ->
  tot (aok n) (new_agent q t).
Proof.
  intros (LT & CI & CN) NET. unfold new_agent.
  destruct (c_class (q_cfg q)) eqn:C.
  5:{ destruct (CI eq_refl) as [-> _]. apply tot_Ok. intros _. cbn. rewrite !repeat_length. auto. }
  all: assert (F : c_factory (q_cfg q) <> KInfo) by (apply CN; congruence);
    destruct (c_factory (q_cfg q)); try congruence; apply tot_Ok; intro X; discriminate.
Qed.

Lemma update_time_tot n q : live n q -> tot (live n) (update_time q).
Proof. intro L. rewrite update_time_total by apply L. apply tot_Ok. destruct L; split; assumption. Qed.

Lemma update_time_if_tot n q : live n q -> tot (live n) (update_time_if q).
Proof.
  intro L. rewrite update_time_if_total by apply L. apply tot_Ok.
  destruct (eltb (hmin (q_arr q)) (hmin (q_dep q))); [|exact L]. destruct L; split; assumption.
Qed.

Lemma add_arrival_new_tot n q : live n q -> tot (live n) (add_arrival_new q).
Proof.
  intro L. unfold add_arrival_new. destruct (eleb (q_next_ct q) (q_now q)); [|apply update_time_if_tot; exact L].
  destruct (eleb (c_deactive_t (q_cfg q)) (c_arr (q_cfg q) (q_ia q) (q_now q))) eqn:DT.
  - destruct (is_info (c_class (q_cfg q))) eqn:C.
    + exfalso. assert (CI : c_class (q_cfg q) = CInfo) by (destruct (c_class (q_cfg q)); try discriminate; reflexivity).
      destruct (lv_cfg _ _ L) as (_ & X & _). destruct (X CI) as [_ Y].
      apply eleb_le in DT. specialize (Y (q_ia q) (q_now q)). exact (eLt_irrefl _ (eLt_le_trans _ _ _ Y DT)).
    + apply tot_Ok. destruct L; split; assumption.
  - eapply tot_bind; [apply new_agent_tot with (n := n); [apply L | apply (lv_net _ _ L)]|]. intros a A.
    eapply tot_bind; [apply push_tot with (n := n); [apply L | exact A | apply (lv_aarr _ _ L)]|]. intros h [W F].
    apply update_time_if_tot.
    destruct (eleb (c_active_cap (q_cfg q)) _); destruct L; split; assumption.
Qed.

Lemma add_arrival_self_tot n q : live n q -> tot (live n) (add_arrival_self q).
Proof.
  intro L. unfold add_arrival_self. destruct (c_class (q_cfg q)); try (apply add_arrival_new_tot; exact L).
  apply tot_Ok. exact L.
Qed.

Lemma add_arrival_tot n a q : live n q -> aok n a -> tot (live n) (add_arrival a q).
Proof.
  intros L A. unfold add_arrival. destruct (c_class (q_cfg q)) eqn:C.
  3:{ apply tot_Ok. destruct (q_collect q); [|exact L]. destruct L; split; try assumption. qc.
      apply dlive_append; [assumption|]. intro X; congruence. }
  all: (eapply tot_bind; [apply push_tot with (n := n); [apply L | exact A | apply (lv_aarr _ _ L)]|]); intros h [W F];
    apply update_time_if_tot; destruct L; split; assumption.
Qed.

(** ** Service *)

Lemma qaction_live n q s o : live n q -> (c_class (q_cfg q) <> CResource -> s = q_servers q /\ o = q_over q) ->
  live n (set_q_over o (set_q_servers s q)).
Proof.
  intros L SO. destruct L; split; try assumption. qc. intro C.
  destruct SO as [-> _]; [congruence|]. auto.
Qed.

Lemma action_tot n a q : aok n a -> live n q ->
  tot (fun p => let '(a', q') := p in aok n a' /\ ag_id a' = ag_id a /\ ag_time a' = ag_time a /\ live n q' /\
     q_collect q' = q_collect q /\ q_data q' = q_data q /\ q_nsys q' = q_nsys q /\ q_cfg q' = q_cfg q /\ q_line q' = q_line q) (queue_action a q).
Proof.
  intros A L. eapply tot_weak; [apply queue_action_tot with (n := n); [exact A|apply (lv_cfg _ _ L)|
     intro C; split; [apply (lv_net _ _ L C) | apply (lv_srv _ _ L C)]|apply L]|].
  intros [a' q'] (B1 & B2 & B3 & s & o & -> & SO). split; [exact B1|]. split; [exact B2|]. split; [exact B3|].
  split; [apply qaction_live; assumption|]. qc. auto 6.
Qed.

Lemma service_tot n q : live n q -> q_line q <> [] ->
  tot (fun q' => live n q' /\ length (q_line q) = S (length (q_line q'))) (service_from_queue q).
Proof.
  intros L NE. unfold service_from_queue. destruct (q_line q) as [|a line] eqn:LN; [congruence|].
  assert (AL := lv_aline _ _ L). rewrite LN in AL. inversion AL; subst.
  eapply tot_bind; [apply dlast_if_tot with (c := q_cfg q); [apply L|]|].
  { intros r [F1 F2]. split; [exact F1|]. apply (lv_now _ _ L). }
  intros q2 (d & -> & Hd). unfold call_srv.
  eapply tot_bind; [apply action_tot with (n := n)|].
  - intro K. apply H1. exact K.
  - destruct L; split; assumption.
  - intros [a' q4] (B1 & _ & _ & L4 & _ & _ & _ & _ & B9).
    eapply tot_bind; [apply push_tot with (n := n); [apply L4 | exact B1 | apply (lv_adep _ _ L4)]|].
    intros h [W F]. apply tot_Ok. split; [destruct L4; split; assumption|]. qc. rewrite B9. reflexivity.
Qed.

Lemma departure_tot n q : live n q -> hmin (q_dep q) <> Inf ->
  tot (fun p => live n (snd p) /\ (forall a, fst p = Some a -> aok n a)) (qs_departure q).
Proof.
  intros L FD. unfold qs_departure.
  eapply tot_bind; [apply pop_tot with (n := n); [apply L | exact FD | apply (lv_adep _ _ L)]|].
  intros [a h] (Wh & A & TA & Fh).
  eapply tot_bind; [apply dlast_if_tot with (c := q_cfg q); [apply L|]|].
  { intros r [F1 F2]. split; assumption. }
  intros q2 (d & -> & Hd).
  eapply tot_bind with (P := live n).
  { assert (L2 : live n (set_q_data d (set_q_departed (q_departed q + 1)
              (set_q_nsys (q_nsys q - 1) (set_q_total (q_total q - 1) (set_q_now (ag_time a) (set_q_dep h q))))))).
    { destruct L; split; assumption. }
    destruct ((0 <? _) && _) eqn:C; [|apply tot_Ok; exact L2].
    eapply tot_weak; [apply service_tot with (n := n); [exact L2|]|intros x [X _]; exact X].
    apply andb_true_iff in C as [C _]. apply Z.ltb_lt in C. intro X. rewrite X in C. cbn in C. lia. }
  intros q3 L3.
  eapply tot_bind; [apply action_tot with (n := n); [exact A | exact L3]|].
  intros [a' q4] (B1 & _ & _ & L4 & _).
  eapply tot_bind; [apply update_time_tot with (n := n); exact L4|]. intros q5 L5. apply tot_Ok. cbn.
  split; [exact L5|]. intros x X. inversion X; subst. exact B1.
Qed.

Lemma draw_tot n q : live n q -> tot (live n) (if q_active q then add_arrival_self q else Ok q).
Proof. intro L. destruct (q_active q); [apply add_arrival_self_tot; exact L | apply tot_Ok; exact L]. Qed.

Lemma arrival_tot n q : live n q -> hmin (q_arr q) <> Inf ->
  tot (fun p => live n (snd p) /\ (forall a, fst p = Some a -> aok n a)) (qs_arrival q).
Proof.
  intros L FA. unfold qs_arrival.
  eapply tot_bind; [apply pop_tot with (n := n); [apply L | exact FA | apply (lv_aarr _ _ L)]|].
  intros [a h] (Wh & A & TA & Fh).
  eapply tot_bind; [apply draw_tot with (n := n); destruct L; split; assumption|].
  intros q2 L2. cbv zeta.
  set (q3 := set_q_narr _ (set_q_nsys _ q2)).
  assert (L3 : live n q3) by (destruct L2; split; assumption).
  set (q4 := if q_collect q3 then _ else _).
  assert (L4 : live n q4).
  { unfold q4. destruct (q_collect q3); [|exact L3]. destruct L3; split; try assumption. qc.
    apply dlive_append; [assumption|]. intros _. split; [exact TA | discriminate]. }
  assert (G4 : q_collect q4 = true -> dget (q_data q4) (ag_id a) <> None).
  { unfold q4. destruct (q_collect q3) eqn:C; [|congruence]. intros _. qc. rewrite dappend_dset, dget_dset_same. discriminate. }
  eapply tot_bind; [apply action_tot with (n := n); [exact A | exact L4]|].
  intros [a1 q5] (B1 & I1 & T1 & L5 & E1 & E2 & E3 & E4 & E5).
  destruct (eleb (Fin (q_nsys q5)) (q_servers q5)).
  - eapply tot_bind with (P := live n).
    { destruct (q_collect q5) eqn:C; [|apply tot_Ok; exact L5].
      eapply tot_bind; [apply dlast_tot with (c := q_cfg q5); [apply L5| |]|].
      - rewrite I1, E2. apply G4. congruence.
      - intros r [F1 F2]. split; [exact F1|]. cbn. congruence.
      - intros d Hd. apply tot_Ok. destruct L5; split; assumption. }
    intros q6 L6. unfold call_srv.
    eapply tot_bind; [apply action_tot with (n := n)|].
    + intro K. apply B1. exact K.
    + destruct L6; split; assumption.
    + intros [a2 q8] (B2 & _ & _ & L8 & _).
      eapply tot_bind; [apply push_tot with (n := n); [apply L8 | exact B2 | apply (lv_adep _ _ L8)]|].
      intros h2 [W2 F2]. eapply tot_bind; [apply update_time_tot with (n := n); destruct L8; split; assumption|].
      intros q9 L9. apply tot_Ok. cbn. split; [exact L9 | discriminate].
  - eapply tot_bind; [apply update_time_tot with (n := n)|].
    + assert (AL := lv_aline _ _ L5). destruct L5; split; try assumption. qc. apply Forall_app. auto.
    + intros q6 L6. apply tot_Ok. cbn. split; [exact L6 | discriminate].
Qed.

Lemma blocked_tot n q : live n q -> hmin (q_arr q) <> Inf ->
  tot (fun p => live n (snd p) /\ (forall a, fst p = Some a -> aok n a)) (loss_blocked q).
Proof.
  intros L FA. unfold loss_blocked.
  eapply tot_bind; [apply pop_tot with (n := n); [apply L | exact FA | apply (lv_aarr _ _ L)]|].
  intros [a h] (Wh & A & TA & Fh).
  eapply tot_bind; [apply add_loss_tot with (n := n); [exact A | apply (lv_cfg _ _ L)]|]. intros _ _.
  eapply tot_bind; [apply draw_tot with (n := n); destruct L; split; assumption|].
  intros q2 L2. cbv zeta.
  eapply tot_bind; [apply update_time_tot with (n := n)|intros q4 L4; apply tot_Ok; cbn; split; [exact L4 | discriminate]].
  destruct (q_collect q2); [|exact L2]. destruct L2; split; try assumption. qc.
  apply dlive_append; [assumption|]. intros _. split; [exact TA | discriminate].
Qed.

Lemma qs_next_tot n q : live n q ->
  tot (fun p => live n (snd p) /\ (forall a, fst p = Some a -> aok n a)) (qs_next_event q).
Proof.
  intros L. unfold qs_next_event. rewrite (wfh_root_time _ (lv_arr _ _ L)), (wfh_root_time _ (lv_dep _ _ L)). cbn [bind].
  destruct (eltb (hmin (q_dep q)) (hmin (q_arr q))) eqn:C1.
  - apply departure_tot; [exact L|]. intro X; rewrite X in C1; discriminate.
  - destruct (eltb (hmin (q_arr q)) Inf) eqn:C2.
    + apply arrival_tot; [exact L|]. intro X; rewrite X in C2; discriminate.
    + apply tot_Ok. cbn. split; [exact L | discriminate].
Qed.

Lemma none_tot n (r : res (option agent * queue)) :
  tot (fun p => live n (snd p) /\ (forall a, fst p = Some a -> aok n a)) r ->
  tot (fun p => live n (snd p) /\ (forall a, fst p = Some a -> aok n a)) (let* (_, q') := r in Ok (None, q')).
Proof. intros ([x q'] & -> & [X _]). cbn [bind]. apply tot_Ok. cbn in *. split; [exact X | discriminate]. Qed.

Lemma loss_next_tot n q : live n q ->
  tot (fun p => live n (snd p) /\ (forall a, fst p = Some a -> aok n a)) (loss_next_event q).
Proof.
  intros L. assert (Q := qs_next_tot n q L). unfold loss_next_event.
  rewrite (wfh_root_time _ (lv_arr _ _ L)), (wfh_root_time _ (lv_dep _ _ L)). cbn [bind].
  destruct (eltb (hmin (q_dep q)) (hmin (q_arr q))); [exact Q|].
  destruct (eltb (hmin (q_arr q)) Inf) eqn:C2; [|apply tot_Ok; cbn; split; [exact L | discriminate]].
  destruct (eltb (Fin (q_nsys q)) _); [apply none_tot; exact Q|].
  apply blocked_tot; [exact L|]. intro X; rewrite X in C2; discriminate.
Qed.

Lemma next_tot n q : live n q ->
  tot (fun p => live n (snd p) /\ (forall a, fst p = Some a -> aok n a)) (next_event q).
Proof.
  intro L. unfold next_event. destruct (c_class (q_cfg q)) eqn:C.
  - apply qs_next_tot; exact L.
  - apply loss_next_tot; exact L.
  - apply tot_Ok. cbn. split; [exact L | discriminate].
  - unfold rq_next_event. destruct (wfh_nonempty _ (lv_arr _ _ L)) as (i & h & QA). rewrite QA.
    destruct i as [|a]; [apply loss_next_tot; exact L|].
    destruct (ag_kind a); try (apply loss_next_tot; exact L).
    rewrite (wfh_root_time _ (lv_dep _ _ L)). cbn [bind].
    destruct (eltb (hmin (q_dep q)) (ag_time a)); [apply loss_next_tot; exact L|].
    destruct (eltb (ag_time a) Inf) eqn:C2; [|apply tot_Ok; cbn; split; [exact L | discriminate]].
    assert (FA : hmin (q_arr q) <> Inf) by (rewrite QA; cbn; intro X; rewrite X in C2; discriminate).
    destruct (ag_has a).
    + unfold rq_return. eapply tot_bind; [apply pop_tot with (n := n); [apply L | exact FA | apply (lv_aarr _ _ L)]|].
      intros [b h'] (Wh & A & TA & Fh). cbv zeta.
      eapply tot_bind; [apply update_time_tot with (n := n)|intros q4 L4; apply tot_Ok; cbn; split; [exact L4 | discriminate]].
      set (q2 := rq_set_num_servers _ _).
      assert (L2 : live n q2).
      { unfold q2, rq_set_num_servers. match goal with |- live n (if ?b then _ else _) => destruct b end; destruct L; split; try assumption; qc; intro X; congruence. }
      destruct (q_collect q2); [|exact L2]. destruct L2; split; try assumption. qc.
      apply dlive_append; [assumption|]. intros _. split; exact TA.
    + destruct (eltb (Fin (q_nsys q)) (q_servers q)); [apply none_tot; apply loss_next_tot; exact L|].
      unfold rq_blocked. eapply tot_bind; [apply pop_tot with (n := n); [apply L | exact FA | apply (lv_aarr _ _ L)]|].
      intros [b h'] (Wh & A & TA & Fh). cbv zeta. qc.
      eapply tot_bind; [apply update_time_tot with (n := n)|intros q4 L4; apply tot_Ok; cbn; split; [exact L4 | discriminate]].
      destruct (q_collect q); destruct L; split; try assumption. qc.
      apply dlive_append; [assumption|]. intros _. split; [exact TA | discriminate].
  - unfold info_next_event. destruct (wfh_nonempty _ (lv_arr _ _ L)) as (i & h & QA). rewrite QA.
    rewrite (wfh_root_time _ (lv_dep _ _ L)). cbn [bind].
    eapply tot_bind with (P := live n); [|intros q1 L1; apply loss_next_tot; exact L1].
    destruct (eltb (itime i) (hmin (q_dep q))); [|apply tot_Ok; exact L].
    unfold extract_information. destruct i as [|a]; [apply tot_Ok; exact L|].
    destruct (ag_kind a) eqn:K; try (apply tot_Ok; exact L).
    assert (AA := lv_aarr _ _ L). rewrite QA in AA. cbn in AA. inversion AA; subst. destruct (H1 K) as [L1 L2].
    eapply tot_bind; [apply zip_rows_tot; rewrite (lv_net _ _ L C); congruence|]. intros nd Hnd. cbn beta in Hnd. apply tot_Ok.
    rewrite (lv_net _ _ L C) in Hnd. destruct L; split; auto.
Qed.

(** ** All calls *)

Lemma set_active_tot n q : live n q -> tot (live n) (set_active q).
Proof.
  intro L. unfold set_active. destruct (q_active q); [apply tot_Ok; exact L|].
  apply add_arrival_self_tot. destruct L; split; assumption.
Qed.

Lemma repeat_service_tot n k q : live n q -> (k <= length (q_line q))%nat -> tot (live n) (repeat_service k q).
Proof.
  revert q. induction k as [|k IH]; intros q L LE; cbn [repeat_service]; [apply tot_Ok; exact L|].
  eapply tot_bind; [apply service_tot with (n := n); [exact L|]|].
  - intro X. rewrite X in LE. cbn in LE. lia.
  - intros q' [L' LN]. apply IH; [exact L' | lia].
Qed.

Lemma servers_tot n m q : live n q -> legal n q (OServers m) -> tot (live n) (set_num_servers m q).
Proof.
  intros L LG. unfold set_num_servers. cbn [legal] in LG.
  assert (SV : forall s, (s <> Fin 0 \/ c_class (q_cfg q) <> CInfo) -> forall q2, live n q2 -> q_cfg q2 = q_cfg q -> live n (set_q_servers s q2)).
  { intros s S q2 L2 C2. destruct L2; split; try assumption. qc. rewrite C2. intro C. destruct S; [assumption | congruence]. }
  assert (G : match m with PInt z => 0 < z | PInf => q_servers q <> Inf | POther => False end -> c_class (q_cfg q) <> CResource ->
              tot (live n) (qs_set_num_servers m q)).
  { intros G NR. unfold qs_set_num_servers. cbv zeta.
    assert (GO : forall x tq, (x <> Fin 0) -> 0 <= tq <= Z.of_nat (length (q_line q)) ->
      tot (live n) (let* q1 := repeat_service (Z.to_nat tq) q in
         let* q2 := if 0 <? tq then update_time q1 else Ok q1 in Ok (set_q_servers x q2))).
    { intros x tq X B. destruct (repeat_service_tot n (Z.to_nat tq) q L ltac:(lia)) as (q1 & E & L1). rewrite E. cbn [bind].
      apply repeat_service_Ok in E as (_ & h & d & s & o & new & Q1 & _); [|apply L].
      assert (C1 : q_cfg q1 = q_cfg q) by (subst q1; reflexivity).
      destruct (0 <? tq); cbn [bind].
      - rewrite update_time_total by apply L1. cbn [bind]. apply tot_Ok. apply SV; [left; exact X| |exact C1].
        destruct L1; split; assumption.
      - apply tot_Ok. apply SV; [left; exact X| exact L1 |exact C1]. }
    destruct m as [z| |]; [| |destruct G].
    - destruct (Z.leb_spec z 0); [lia|]. destruct (q_servers q).
      + apply GO; [intro X; inversion X; lia | lia].
      + apply GO; [intro X; inversion X; lia | lia].
    - destruct (q_servers q); [|congruence]. apply GO; [discriminate | lia]. }
  destruct (c_class (q_cfg q)) eqn:C; try (apply G; [destruct m; exact LG | congruence]).
  - apply tot_Ok. exact L.
  - assert (RI : forall s, tot (live n) (Ok (rq_set_num_servers s q))).
    { intro s. apply tot_Ok. unfold rq_set_num_servers.
      destruct (eltb (c_max_servers (q_cfg q)) s); destruct L; split; try assumption; qc; congruence. }
    destruct m; [apply RI | apply RI | destruct LG].
Qed.

Lemma delay_tot n t q : live n q -> legal n q (ODelay t) -> tot (live n) (delay_service t q).
Proof.
  intros L LG. unfold delay_service. cbn [legal] in LG.
  assert (LEN := wfh_length _ (lv_dep _ _ L)).
  assert (G : tot (live n) (if (1 <? length (q_dep q))%nat then
      match heappop itime (q_dep q) with
      | None => Err IndexError
      | Some (Sentinel, _) => Err Corrupt
      | Some (Ag a, h) =>
        let '(t', q1) := match t with
                         | None => call_srv q (ag_time a)
                         | Some t => (t, q)
                         end in
        let* h' := push_item h (set_ag_time t' a) in
        update_time (set_q_dep h' q1)
      end
    else Ok q) \/ c_class (q_cfg q) = CNull).
  { destruct LG as [X|[X|(a & IA & TA)]]; [right; exact X| |].
    - left. change (in_service q) with (agents_of (q_dep q)) in X. rewrite LEN, X. cbn. apply tot_Ok. exact L.
    - left. destruct (Nat.ltb_spec 1 (length (q_dep q))) as [_|B]; [|apply tot_Ok; exact L].
      assert (HM : hmin (q_dep q) <> Inf).
      { intro X. assert (Y := wfh_min _ _ (lv_dep _ _ L) IA). rewrite X in Y. apply eLe_Inf_l in Y. congruence. }
      destruct (pop_tot n _ (lv_dep _ _ L) HM (lv_adep _ _ L)) as ([b h] & E & Wh & A & TB & Fh).
      unfold pop_agent in E. destruct (heappop itime (q_dep q)) as [[[|b'] h']|]; try discriminate. inversion E; subst.
      destruct t as [t|]; unfold call_srv;
        (eapply tot_bind; [apply push_tot with (n := n); [exact Wh| |exact Fh]; intro K; apply A; exact K|]; intros h2 [W2 F2];
         apply update_time_tot; destruct L; split; assumption). }
  destruct G as [G|G]; [|rewrite G; apply tot_Ok; exact L].
  destruct (c_class (q_cfg q)); try exact G. apply tot_Ok. exact L.
Qed.

Lemma live_clear n q : live n q -> live n (clear q).
Proof.
  intro L. unfold clear, qs_clear. destruct (c_class (q_cfg q)) eqn:C; try exact L;
    (destruct L; split; cbn; auto using wfh_init; try discriminate; try (intros i rows []); try congruence).
  intros _. rewrite repeat_length. auto.
Qed.

Lemma op_tot n o q : live n q -> legal n q o -> tot (live n) (run_op o q).
Proof.
  intros L LG. destruct o; cbn [run_op].
  - destruct (next_tot n q L) as ([r q'] & -> & L' & _). cbn [bind]. apply tot_Ok. exact L'.
  - apply set_active_tot; exact L.
  - apply tot_Ok. destruct L; split; assumption.
  - apply servers_tot; assumption.
  - apply delay_tot; assumption.
  - apply add_arrival_tot; assumption.
  - apply tot_Ok. destruct L; split; assumption.
  - apply tot_Ok. apply live_clear; exact L.
  - apply tot_Ok. destruct L; split; try assumption. intros i rows [].
Qed.

Lemma live_new c s col n : cfg_ok n c -> (c_class c = CInfo -> s <> Fin 0) -> live n (new_queue c s col n).
Proof.
  intros C S. split; cbn; auto using wfh_init; try discriminate; try (intros i rows []).
  - intro X. rewrite X, repeat_length. reflexivity.
  - intro X. rewrite X. apply S; exact X.
Qed.

Lemma live_reach c s col n q : cfg_ok n c -> (c_class c = CInfo -> s <> Fin 0) ->
  reach (legal n) (new_queue c s col n) q -> live n q.
Proof.
  intros C S R. induction R as [|q o q' R IH LG H]; [apply live_new; assumption|].
  destruct (op_tot n o q IH LG) as (q2 & E & L). rewrite H in E. inversion E; subst. exact L.
Qed.

Lemma no_raise c s col n q o : cfg_ok n c -> (c_class c = CInfo -> s <> Fin 0) ->
  reach (legal n) (new_queue c s col n) q -> legal n q o -> exists r q', step o q = Ok (r, q').
Proof.
  intros C S R LG. assert (L := live_reach _ _ _ _ _ C S R).
  destruct o; try (destruct (op_tot n _ q L LG) as (q2 & E & _); unfold step; rewrite E; cbn [bind]; eauto).
  destruct (next_tot n q L) as ([r q'] & E & _). cbn [step]. eauto.
Qed.

Lemma simulate_n_tot n k q : live n q -> tot (live n) (simulate_n k q).
Proof.
  revert q. induction k as [|k IH]; intros q L; cbn [simulate_n]; [apply tot_Ok; exact L|].
  destruct (next_tot n q L) as ([r q'] & -> & L' & _). cbn [bind]. apply IH. exact L'.
Qed.

Lemma simulate_no_raise c s col n q k : cfg_ok n c -> (c_class c = CInfo -> s <> Fin 0) ->
  reach (legal n) (new_queue c s col n) q -> exists q', simulate_n k q = Ok q'.
Proof.
  intros C S R. assert (L := live_reach _ _ _ _ _ C S R).
  destruct (simulate_n_tot n k q L) as (q' & E & _). eauto.
Qed.

(** Calls made one after the other. *)
Lemma run_reach ok ops : forall q0 q1 q, reach ok q0 q1 ->
  (forall o q, ok q o) -> run_ops ops q1 = Ok q -> reach ok q0 q.
Proof.
  induction ops as [|o ops IH]; intros q0 q1 q R A H; cbn [run_ops] in H; [inversion H; subst; exact R|].
  destruct (run_op o q1) as [q2|] eqn:E; [|discriminate]. cbn [bind] in H.
  eapply IH; [|exact A|exact H]. eapply reach_step; [exact R|apply A|exact E].
Qed.
