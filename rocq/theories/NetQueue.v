(** * NetQueue: what the network needs to know about calls on one queue *)
From Coq Require Import List ZArith QArith Lia Bool Permutation Arith.
From Verif Require Import Base Heap HeapProofs Queue QueueEffects QueueEvents QueueSteps QueueInv SpecQueue QueueFlow QueueHist QueueClaims1 Network.
Import ListNotations.
Open Scope Z_scope.

(** The times of all pending arrivals and departures. *)
Definition pend (q : queue) : list ext :=
  map ag_time (agents_of (q_arr q)) ++ map ag_time (agents_of (q_dep q)).

Lemma pend_min q : qinv q -> forall x, In x (pend q) -> eLe (q_time q) x.
Proof.
  intros I x X. rewrite (qi_time _ I). unfold pend in X. apply in_app_or in X as [X|X]; apply in_map_iff in X as (a & <- & X).
  - apply eLe_trans with (hmin (q_arr q)); [|apply wfh_min; [apply I|exact X]].
    unfold emin. destruct (eltb (hmin (q_arr q)) (hmin (q_dep q))) eqn:C; [apply eLe_refl | apply eltb_ge; exact C].
  - apply eLe_trans with (hmin (q_dep q)); [|apply wfh_min; [apply I|exact X]].
    unfold emin. destruct (eltb (hmin (q_arr q)) (hmin (q_dep q))) eqn:C; [apply eLt_le, eltb_lt; exact C | apply eLe_refl].
Qed.

Lemma pend_in q : qinv q -> q_time q <> Inf -> In (q_time q) (pend q).
Proof.
  intros I. rewrite (qi_time _ I). unfold emin, pend. intro N. apply in_or_app.
  destruct (eltb (hmin (q_arr q)) (hmin (q_dep q))) eqn:C.
  - left. destruct (wfh_min_cases _ (qi_arr _ I)) as [X|(a & A & T)]; [congruence|]. rewrite <- T. apply in_map; exact A.
  - right. destruct (wfh_min_cases _ (qi_dep _ I)) as [X|(a & A & T)]; [congruence|]. rewrite <- T. apply in_map; exact A.
Qed.

Lemma pend_time q : qinv q -> pend q = [] -> q_time q = Inf.
Proof.
  intros I E. destruct (q_time q) eqn:T; [|reflexivity]. assert (X := pend_in q I). rewrite T, E in X. destruct X; discriminate.
Qed.

(** The same arrivals and departures, the same times. *)
Lemma pend_same q q' : q_arr q' = q_arr q -> q_dep q' = q_dep q -> pend q' = pend q.
Proof. unfold pend. intros -> ->. reflexivity. Qed.

Lemma perm_times l l' : Permutation l l' -> Permutation (map ag_time l) (map ag_time l').
Proof. apply Permutation_map. Qed.

(** ** next_event *)

(** What an event does to the pending times. *)
Definition pend_step (q q' : queue) : Prop :=
  exists rest new, Permutation (pend q) (q_time q :: rest) /\ Permutation (pend q') (new ++ rest) /\
    (forall x, In x new -> eLe (q_time q) x) /\ q_now q' = q_time q.

(** [x] was drawn at the time of the next event. *)
Definition drawn (q : queue) (x : ext) : Prop :=
  exists i, x = c_arr (q_cfg q) i (q_time q) \/ x = c_srv (q_cfg q) i (q_time q).
Definition draw_step (q q' : queue) : Prop :=
  exists rest new, Permutation (pend q) (q_time q :: rest) /\ Permutation (pend q') (new ++ rest) /\
    (forall x, In x new -> drawn q x) /\ q_now q' = q_time q.

Lemma pend_pop_arr q a h : qinv q -> eLe (hmin (q_arr q)) (hmin (q_dep q)) -> pop_agent (q_arr q) = Ok (a, h) ->
  q_time q = ag_time a /\
  Permutation (pend q) (q_time q :: map ag_time (agents_of h) ++ map ag_time (agents_of (q_dep q))) /\ ag_time a = hmin (q_arr q).
Proof.
  intros I LE P. apply pop_agent_Ok in P as (_ & P & T & _); [|apply I].
  assert (E : q_time q = ag_time a).
  { rewrite (qi_time _ I), T. unfold emin. destruct (eltb (hmin (q_arr q)) (hmin (q_dep q))) eqn:C; [reflexivity|].
    apply eltb_ge in C. apply eLe_antisym; assumption. }
  split; [exact E|]. split; [|exact T]. unfold pend. rewrite (perm_times _ _ P), E. reflexivity.
Qed.

Lemma pend_pop_dep q a h : qinv q -> eLt (hmin (q_dep q)) (hmin (q_arr q)) -> pop_agent (q_dep q) = Ok (a, h) ->
  q_time q = ag_time a /\
  Permutation (pend q) (q_time q :: map ag_time (agents_of (q_arr q)) ++ map ag_time (agents_of h)) /\ ag_time a = hmin (q_dep q).
Proof.
  intros I LE P. apply pop_agent_Ok in P as (_ & P & T & _); [|apply I].
  assert (E : q_time q = ag_time a).
  { rewrite (qi_time _ I), T. unfold emin. destruct (eltb (hmin (q_arr q)) (hmin (q_dep q))) eqn:C; [|reflexivity].
    apply eltb_lt in C. exfalso. apply (eLt_irrefl (hmin (q_dep q))). eapply eLt_le_trans; [exact LE|]. apply eLt_le; exact C. }
  split; [exact E|]. split; [|exact T]. unfold pend. rewrite (perm_times _ _ P), E. cbn [map].
  rewrite <- Permutation_middle. reflexivity.
Qed.

Lemma next_drawn q r q' : qinv q -> next_event q = Ok (r, q') ->
  (c_class (q_cfg q) = CNull \/ q_time q = Inf) /\ q' = q /\ r = None \/
  c_class (q_cfg q) <> CNull /\ q_time q <> Inf /\ draw_step q q'.
Proof.
  intros I E. assert (Wa := qi_arr _ I). assert (Wd := qi_dep _ I).
  apply next_event_event in E as (qe & PE & EV); [|exact Wa|exact Wd].
  destruct (pre_event_net _ _ PE) as (nd & ->).
  assert (FINA : eLe (hmin (q_arr q)) (hmin (q_dep q)) -> hmin (q_arr q) <> Inf -> q_time q <> Inf).
  { intros LE NI. rewrite (qi_time _ I). unfold emin. destruct (eltb (hmin (q_arr q)) (hmin (q_dep q))) eqn:C; [exact NI|].
    apply eltb_ge in C. rewrite (eLe_antisym _ _ C LE). exact NI. }
  assert (SW : forall A (a b c : list A), Permutation (a ++ b ++ c) (b ++ a ++ c)).
  { intros. rewrite !app_assoc. apply Permutation_app_tail, Permutation_app_comm. }
  destruct EV as [ID _ -> ->|NN LT R|NN LE NI CAP _ R|NN NS LE NI CAP _ R|CR LE NI RT _ R|CR LE NI RT _ CAP R].
  - left. split; [|auto]. destruct ID as [ID|[X Y]]; [auto|]. right. rewrite (qi_time _ I), X, Y. reflexivity.
  - right. split; [exact NN|].
    apply qs_departure_Ok in R; [|exact Wa|exact Wd]. qch R.
    destruct R as (a & h & a' & h' & line' & n & d1 & dd & s & o & P & _ & _ & _ & _ & _ & -> & _ & _ & _ & C).
    destruct (pend_pop_dep _ _ _ I LT P) as (ET & PP & TH).
    split; [rewrite ET, TH; intro X; rewrite X in LT; destruct (hmin (q_arr q)); exact LT|].
    unfold draw_step, pend in *. qc. qch PP. cbv zeta in C.
    destruct C as [(_ & _ & -> & _)|(_ & b & b' & _ & _ & TB & _ & PH & _)].
    + exists (map ag_time (agents_of (q_arr q)) ++ map ag_time (agents_of h)), []. split; [exact PP|]. split; [reflexivity|].
      split; [intros x []|]. symmetry; exact ET.
    + exists (map ag_time (agents_of (q_arr q)) ++ map ag_time (agents_of h)), [ag_time b']. split; [exact PP|].
      split; [|split; [|symmetry; exact ET]].
      * rewrite (perm_times _ _ PH). cbn [map app]. rewrite <- Permutation_middle. reflexivity.
      * intros x [<-|[]]. exists (q_is q). right. rewrite TB, ET. reflexivity.
  - right. split; [exact NN|]. split; [apply FINA; assumption|].
    apply qs_arrival_Ok in R; [|exact NN|exact Wa|exact Wd]. qch R.
    destruct R as (a & h & q2 & new & h' & line' & n & d1 & d & s1 & o1 & s & o & a1 & _ & P & DR & _ & _ & _ & -> & _ & _ & _ & _ & C).
    destruct (pend_pop_arr _ _ _ I LE P) as (ET & PP & TH).
    assert (F := draw_new _ _ _ DR). qch F. destruct F as (F0 & _ & _ & F3 & _ & _ & _ & _ & _ & _ & _ & _ & F12 & _).
    assert (NW : forall x, In x (map ag_time new) -> drawn q x).
    { intros x X. apply in_map_iff in X as (b & <- & X).
      destruct DR as (tm & act & hh & i & ct & _ & _ & _ & C2).
      destruct C2 as [(-> & _)|[(-> & _)|(b2 & -> & _ & _ & _ & _ & _ & _ & T & _)]]; [destruct X|destruct X|].
      destruct X as [<-|[]]. qch T. exists (q_ia q). left. rewrite T, ET. reflexivity. }
    unfold draw_step, pend in *. qc. rewrite F12.
    destruct C as [(_ & _ & _ & (a2 & _ & TB & _ & PH) & _)|(_ & _ & _ & EH & _)].
    + exists (map ag_time (agents_of h) ++ map ag_time (agents_of (q_dep q))), (map ag_time new ++ [ag_time a2]).
      split; [exact PP|]. split; [|split; [|symmetry; exact ET]].
      * rewrite (perm_times _ _ PH), (perm_times _ _ F0), map_app. cbn [map].
        rewrite <- Permutation_middle. rewrite <- !app_assoc. cbn [app].
        rewrite <- (Permutation_middle (map ag_time new)). reflexivity.
      * intros x X. apply in_app_or in X as [X|[<-|[]]]; [apply NW; exact X|]. exists (q_is q). right. rewrite TB, ET. reflexivity.
    + subst h'. exists (map ag_time (agents_of h) ++ map ag_time (agents_of (q_dep q))), (map ag_time new).
      split; [exact PP|]. split; [|split; [|symmetry; exact ET]].
      * rewrite (perm_times _ _ F0), map_app, <- app_assoc. reflexivity.
      * exact NW.
  - right. split; [exact NN|]. split; [apply FINA; assumption|].
    apply loss_blocked_Ok in R; [|exact NN|exact Wa|exact Wd]. qch R.
    destruct R as (a & h & q2 & new & d & _ & P & DR & -> & _).
    destruct (pend_pop_arr _ _ _ I LE P) as (ET & PP & TH).
    assert (F := draw_new _ _ _ DR). qch F. destruct F as (F0 & _ & _ & F3 & _ & _ & _ & _ & _ & _ & _ & _ & F12 & _).
    assert (NW : forall x, In x (map ag_time new) -> drawn q x).
    { intros x X. apply in_map_iff in X as (b & <- & X).
      destruct DR as (tm & act & hh & i & ct & _ & _ & _ & C2).
      destruct C2 as [(-> & _)|[(-> & _)|(b2 & -> & _ & _ & _ & _ & _ & _ & T & _)]]; [destruct X|destruct X|].
      destruct X as [<-|[]]. qch T. exists (q_ia q). left. rewrite T, ET. reflexivity. }
    unfold draw_step, pend in *. qc. rewrite F12, F3.
    exists (map ag_time (agents_of h) ++ map ag_time (agents_of (q_dep q))), (map ag_time new).
    split; [exact PP|]. split; [|split; [|symmetry; exact ET]].
    + rewrite (perm_times _ _ F0), map_app, <- app_assoc. reflexivity.
    + exact NW.
  - right. split; [congruence|]. split; [apply FINA; assumption|].
    apply rq_return_Ok in R; [|exact Wa|exact Wd]. destruct R as (a & h & o & d & _ & P & _ & -> & _).
    destruct (pend_pop_arr _ _ _ I LE P) as (ET & PP & TH).
    unfold draw_step, pend in *. qc. eexists _, []. split; [exact PP|]. split; [reflexivity|]. split; [intros x []|symmetry; exact ET].
  - right. split; [congruence|]. split; [apply FINA; assumption|].
    apply rq_blocked_Ok in R; [|exact Wa|exact Wd]. destruct R as (a & h & d & _ & P & _ & -> & _).
    destruct (pend_pop_arr _ _ _ I LE P) as (ET & PP & TH).
    unfold draw_step, pend in *. qc. eexists _, []. split; [exact PP|]. split; [reflexivity|]. split; [intros x []|symmetry; exact ET].
Qed.

Lemma next_pend q r q' : forward (q_cfg q) -> qinv q -> next_event q = Ok (r, q') ->
  (c_class (q_cfg q) = CNull \/ q_time q = Inf) /\ q' = q /\ r = None \/
  c_class (q_cfg q) <> CNull /\ q_time q <> Inf /\ pend_step q q'.
Proof.
  intros (FA & FS) I E. destruct (next_drawn _ _ _ I E) as [X|(N & F & rest & new & P1 & P2 & D & NOW)]; [left; exact X|right].
  split; [exact N|]. split; [exact F|]. exists rest, new. split; [exact P1|]. split; [exact P2|]. split; [|exact NOW].
  intros x X. destruct (D _ X) as (i & [-> | ->]); [apply FA|apply FS].
Qed.

(** ** The other calls *)

Lemma add_pend a q q' : qinv q -> c_class (q_cfg q) <> CNull -> add_arrival a q = Ok q' ->
  Permutation (pend q') (ag_time a :: pend q) /\ q_now q' = q_now q /\ q_dep q' = q_dep q /\ q_active q' = q_active q /\
  q_total q' = q_total q + 1.
Proof.
  intros I N H. apply add_arrival_Ok in H as (h & -> & _ & P); [|exact N|apply I|apply I].
  unfold pend. qc. rewrite (perm_times _ _ P). auto 8.
Qed.

Lemma delay_pend t q q' : qinv q -> c_class (q_cfg q) <> CNull -> eLt (hmin (q_dep q)) (hmin (q_arr q)) ->
  delay_service t q = Ok q' ->
  exists rest n, let t' := match t with None => c_srv (q_cfg q) n (q_time q) | Some t => t end in
    Permutation (pend q) (q_time q :: rest) /\ Permutation (pend q') (t' :: rest) /\ q_now q' = q_now q /\ q_total q' = q_total q /\
    q_active q' = q_active q.
Proof.
  intros I N LT H. apply delay_service_Ok in H; [|exact N|apply I|apply I].
  destruct H as [(E & _)|(a & h & h' & n & H)].
  - exfalso. destruct (wfh_min_cases _ (qi_dep _ I)) as [X|(a & A & _)]; [|rewrite E in A; destruct A].
    rewrite X in LT. destruct (hmin (q_arr q)); exact LT.
  - cbv zeta in H. destruct H as (P & -> & _ & _ & _ & _ & PP & _).
    destruct (pend_pop_dep _ _ _ I LT P) as (ET & PQ & TH).
    exists (map ag_time (agents_of (q_arr q)) ++ map ag_time (agents_of h)), (q_is q). cbv zeta.
    split; [exact PQ|]. unfold pend. qc. rewrite ET. split; [|auto].
    rewrite (perm_times _ _ PP). cbn [map]. rewrite <- Permutation_middle. qc. reflexivity.
Qed.

Lemma active_pend q q' : forward (q_cfg q) -> qinv q -> set_active q = Ok q' ->
  exists new, Permutation (pend q') (new ++ pend q) /\ (forall x, In x new -> eLe (q_now q) x) /\ q_now q' = q_now q /\
    q_total q' = q_total q + Z.of_nat (length new) /\ (length new <= 1)%nat /\ (c_class (q_cfg q) = CNull -> new = []) /\
    q_dep q' = q_dep q /\ q_line q' = q_line q.
Proof.
  intros (FA & FS) I H. unfold set_active in H.
  destruct (q_active q); [inversion H; subst; exists []; cbn [app length]; repeat split; auto; [intros x []|lia]|].
  assert (G : c_class (q_cfg q) <> CNull -> add_arrival_new (set_q_active true q) = Ok q' -> exists new, Permutation (pend q') (new ++ pend q) /\ (forall x, In x new -> eLe (q_now q) x) /\ q_now q' = q_now q /\
    q_total q' = q_total q + Z.of_nat (length new) /\ (length new <= 1)%nat /\ (c_class (q_cfg q) = CNull -> new = []) /\
    q_dep q' = q_dep q /\ q_line q' = q_line q).
  { clear H. intros N H. apply add_arrival_new_Ok in H; [|apply I|apply I]. cbv zeta in H. qch H.
    destruct H as [(_ & ->)|[(_ & _ & _ & ->)|(_ & _ & a & h & act & -> & _ & TB & _ & _ & _ & _ & P & _)]]; unfold pend; qc.
    - exists []. cbn [app length]. repeat split; auto; [intros x []|lia].
    - exists []. cbn [app length]. repeat split; auto; [intros x []|lia].
    - exists [ag_time a]. rewrite (perm_times _ _ P). cbn [map app length]. repeat split; auto; [|congruence].
      intros x [<-|[]]. rewrite TB. apply FA. }
  unfold add_arrival_self in H. qch H. destruct (c_class (q_cfg q)) eqn:C; try (apply G; [congruence|exact H]).
  inversion H; subst. exists []. unfold pend. qc. cbn [app length]. repeat split; auto; [intros x []|lia].
Qed.

(** ** Marking the first departure *)

Lemma mark_facts q q' : wfh (q_dep q) -> mark_blocked q = Ok q' ->
  exists a h b, q_dep q = Ag a :: h /\ b = set_ag_blocked (ag_blocked a + 1) a /\ q' = set_q_dep (Ag b :: h) q /\
    wfh (q_dep q') /\ hmin (q_dep q') = hmin (q_dep q) /\
    agents_of (q_dep q) = a :: agents_of h /\ agents_of (q_dep q') = b :: agents_of h.
Proof.
  intros W H. unfold mark_blocked, first_departure in H. destruct (q_dep q) as [|i h] eqn:D; [discriminate|].
  destruct i as [|a]; [discriminate|]. cbn [bind tl] in H. injection H as <-.
  exists a, h, (set_ag_blocked (ag_blocked a + 1) a). split; [reflexivity|]. split; [reflexivity|]. split; [reflexivity|].
  qc. split; [|auto]. destruct W as [W1 W2]. split.
  - intros i B D0. specialize (W1 i B D0). unfold kle in *.
    assert (E : forall j, itime (nth j (Ag (set_ag_blocked (ag_blocked a + 1) a) :: h) Sentinel) = itime (nth j (Ag a :: h) Sentinel)).
    { intros [|j]; reflexivity. }
    rewrite !E. exact W1.
  - unfold one_sentinel in *. cbn [agents_of flat_map app map] in *.
    change (flat_map (fun i : item => match i with Sentinel => [] | Ag a0 => [a0] end) h) with (agents_of h) in *.
    assert (P : Permutation h (Sentinel :: map Ag (agents_of h))).
    { apply Permutation_cons_inv with (Ag a). rewrite W2. apply perm_swap. }
    rewrite P at 1. apply perm_swap.
Qed.
