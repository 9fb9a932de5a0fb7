(** * TrailProofs: the rows of an agent form a way through the network *)
From Coq Require Import List ZArith QArith Lia Bool Permutation Arith.
From Verif Require Import Base Heap HeapProofs PQueue PQueueProofs SpecPQ PQHist Queue QueueEffects QueueEvents QueueSteps QueueInv SpecQueue QueueFlow QueueHist QueueData QueueRows QueueClaims1 QueueClaims3 Network NetQueue NetSteps NetInv SpecNet NetReach NetFlow NetClaims1 SpecRefine SpecTrail TrailSteps.
Import ListNotations.
Open Scope Z_scope.

(** The same with agents [air] that have left one queue and are not yet at
    the next; [T] is the time. *)
Record tr (fl : nat -> nat -> Prop) (T : ext) (qs : list queue) (air : list (nat * agent)) (i : aid) (p : list (nat * row)) : Prop := mkTr {
  r_rows : forall k q, get qs k = Some q -> at_queue k p = rows_of (q_data q) i;
  r_in : forall x, In x p -> (fst x < length qs)%nat;
  r_first : forall x p', p = x :: p' -> fst x = fst i;
  r_next : forall p1 x y p2, p = p1 ++ x :: y :: p2 ->
    fl (fst x) (fst y) /\ r_arr (snd y) = r_dep (snd x) /\ eLe (r_arr (snd x)) (r_dep (snd x));
  r_past : forall x, In x p -> eLe (r_arr (snd x)) T;
  r_coming : forall k a, (In (k, a) air \/ exists q, get qs k = Some q /\ In a (scheduled q)) -> ag_id a = i ->
    p = [] /\ k = fst i \/ exists p0 x, p = p0 ++ [x] /\ fl (fst x) k /\ r_dep (snd x) = ag_time a /\ eLe (r_arr (snd x)) (r_dep (snd x));
  r_inside : forall k q, get qs k = Some q -> inside q i -> exists p0 x, p = p0 ++ [x] /\ fst x = k /\ r_dep (snd x) = Fin 0;
  r_gone : ~ In i (flat_map held qs) -> ~ In i (ids (map snd air)) -> p = [] \/ exists p0 x, p = p0 ++ [x] /\ r_dep (snd x) = Fin 0;
  r_unborn : ~ bound qs i -> p = []
}.

Section Steps.
Context (fl : nat -> nat -> Prop).

Lemma at_app k p1 p2 : at_queue k (p1 ++ p2) = at_queue k p1 ++ at_queue k p2.
Proof. unfold at_queue. rewrite filter_app, map_app. reflexivity. Qed.
Lemma at_one k x : at_queue k [x] = if Nat.eqb (fst x) k then [snd x] else [].
Proof. unfold at_queue. cbn. destruct (Nat.eqb (fst x) k); reflexivity. Qed.

Lemma app_one_cons {A} (p0 : list A) x p1 y z p2 : p0 ++ [x] = p1 ++ y :: z :: p2 ->
  (p2 = [] /\ z = x /\ p0 = p1 ++ [y]) \/ exists p3, p2 = p3 ++ [x] /\ p0 = p1 ++ y :: z :: p3.
Proof.
  intro E. destruct p2 as [|w p2] using rev_ind.
  - left. assert (E' : p0 ++ [x] = (p1 ++ [y]) ++ [z]) by (rewrite <- app_assoc; exact E). apply app_inj_tail in E' as (-> & ->). auto.
  - right. assert (E' : p0 ++ [x] = (p1 ++ y :: z :: p2) ++ [w]) by (rewrite <- app_assoc; exact E). apply app_inj_tail in E' as (-> & ->). eauto.
Qed.

Lemma one_cons {A} (p0 : list A) x y p1 : p0 ++ [x] = y :: p1 -> (p0 = [] /\ y = x) \/ exists p2, p0 = y :: p2.
Proof. destruct p0 as [|z p0]; cbn; intro E; injection E as -> E; [left; auto|right; eauto]. Qed.

(** A way whose last row is changed. *)
Lemma at_last k p0 x y : fst x = fst y -> at_queue k (p0 ++ [y]) =
  if Nat.eqb (fst x) k then at_queue k p0 ++ [snd y] else at_queue k (p0 ++ [x]).
Proof. intro E. rewrite !at_app, !at_one, <- E. destruct (Nat.eqb (fst x) k); [reflexivity|]. reflexivity. Qed.

Definition sole (qs : list queue) (air : list (nat * agent)) : Prop := NoDup (ids (map snd air) ++ flat_map held qs).

Lemma held_in qs k q i : get qs k = Some q -> In i (held q) -> In i (flat_map held qs).
Proof. intros G X. apply in_flat_map. exists q. split; [exact (nth_error_In _ _ G)|exact X]. Qed.

Lemma sole_queue qs air k q j q2 i : sole qs air -> get qs k = Some q -> In i (held q) -> get qs j = Some q2 -> In i (held q2) -> j = k.
Proof. intros ND G X G2 X2. apply nodup_r in ND. symmetry. eapply one_queue; eauto. Qed.
Lemma sole_air qs air k q i : sole qs air -> get qs k = Some q -> In i (held q) -> ~ In i (ids (map snd air)).
Proof.
  intros ND G X Y. unfold sole in ND. revert ND Y. assert (Z := held_in _ _ _ _ G X). clear -Z. induction (ids (map snd air)) as [|y l IH]; intros ND []; inversion ND; subst.
  - apply H2. apply in_or_app. right. exact Z.
  - auto.
Qed.

Lemma bound_get qs k q' q x : get qs k = Some q -> q_oarr q <= q_oarr q' -> ~ bound (upd qs k q') x -> ~ bound qs x.
Proof. intros G O NB B. apply NB. eapply bound_upd; eauto. Qed.

Lemma tr_later T T' qs air i p : eLe T T' -> tr fl T qs air i p -> tr fl T' qs air i p.
Proof. intros LE [A B C D E F G H I]. split; auto. intros x X. eapply eLe_trans; eauto. Qed.

Lemma in_flat_upd qs k q q' i : get qs k = Some q -> In i (flat_map held qs) -> In i (held q') \/ ~ In i (held q) -> In i (flat_map held (upd qs k q')).
Proof.
  intros G X Y. apply in_flat_map in X as (q0 & X0 & X). apply in_get in X0 as (j & GJ). destruct (Nat.eq_dec j k) as [->|NE].
  - assert (q0 = q) by congruence. subst q0. destruct Y as [Y|Y]; [|contradiction].
    apply (held_in _ k q'); [apply get_upd_eq; eapply get_lt; eassumption|exact Y].
  - apply (held_in _ j q0); [rewrite get_upd_neq by exact NE; exact GJ|exact X].
Qed.

(** ** A call at one queue *)
Lemma tr_eff T qs air i p k q q' : tr fl T qs air i p -> sole qs air ->
  (forall x, In x (flat_map held qs) -> bound qs x) ->
  get qs k = Some q -> c_idx (q_cfg q) = k -> q_oarr q <= q_oarr q' -> eLe (q_now q') T -> eff q q' i ->
  exists p', tr fl T (upd qs k q') air i p'.
Proof.
  intros R SO BD G IX OA NOW EF. assert (LK := get_lt _ _ _ G).
  assert (GU : forall j qj, get (upd qs k q') j = Some qj -> (j = k /\ qj = q') \/ (j <> k /\ get qs j = Some qj)).
  { intros j qj GJ. apply get_upd in GJ as [[-> ->]|[NE GJ]]; auto. }
  destruct EF as [RW IS SC|s RW I0 I1 NS|EI RW NI SI|a rw A IA RW RA RN RD NS].
  - (* nothing *)
    exists p. split.
    + intros j qj GJ. destruct (GU _ _ GJ) as [[-> ->]|[NE GJ']]; [rewrite RW; apply (r_rows _ _ _ _ _ _ R); exact G|apply (r_rows _ _ _ _ _ _ R); exact GJ'].
    + intros x X. rewrite upd_length. apply (r_in _ _ _ _ _ _ R); exact X.
    + apply (r_first _ _ _ _ _ _ R).
    + apply (r_next _ _ _ _ _ _ R).
    + apply (r_past _ _ _ _ _ _ R).
    + intros j b [X|(qj & GJ & X)] ID; apply (r_coming _ _ _ _ _ _ R); auto. right.
      destruct (GU _ _ GJ) as [[-> ->]|[NE GJ']]; [exists q; split; [exact G|apply SC; auto]|exists qj; auto].
    + intros j qj GJ X. destruct (GU _ _ GJ) as [[-> ->]|[NE GJ']]; [apply (r_inside _ _ _ _ _ _ R _ q G); apply IS; exact X|eapply (r_inside _ _ _ _ _ _ R); eassumption].
    + intros X Y. apply (r_gone _ _ _ _ _ _ R); [|exact Y]. intro Z. apply X. apply (in_flat_upd _ _ q); auto.
      destruct (in_dec aid_dec i (held q)) as [W|W]; [left|right; exact W]. apply held_cases in W as [W|W].
      * apply inside_held, IS, W.
      * apply in_map_iff in W as (b & B & W). apply sched_held. rewrite <- B. apply in_ids. apply SC; auto.
    + intro X. apply (r_unborn _ _ _ _ _ _ R). eapply bound_get; eauto.
  - (* service begins *)
    destruct (r_inside _ _ _ _ _ _ R _ _ G I0) as (p0 & x & EP & FX & DX).
    set (y := (fst x, row_set_srv s (snd x))). exists (p0 ++ [y]).
    assert (HQ := inside_held _ _ I0).
    split.
    + intros j qj GJ. rewrite (at_last j p0 x y eq_refl). destruct (Nat.eqb (fst x) j) eqn:E.
      * apply Nat.eqb_eq in E. destruct (GU _ _ GJ) as [[-> ->]|[NE GJ']]; [|congruence].
        rewrite RW, <- (r_rows _ _ _ _ _ _ R _ _ G), EP, at_app, at_one, E, Nat.eqb_refl, last_upd_snoc. reflexivity.
      * apply Nat.eqb_neq in E. destruct (GU _ _ GJ) as [[-> ->]|[NE GJ']]; [congruence|]. rewrite <- EP. apply (r_rows _ _ _ _ _ _ R); exact GJ'.
    + intros z Z. rewrite upd_length. apply in_app_or in Z as [Z|[<-|[]]]; [|cbn; rewrite FX; exact LK].
      apply (r_in _ _ _ _ _ _ R). rewrite EP. apply in_or_app. auto.
    + intros z p' E. apply one_cons in E as [(-> & ->)|(p2 & ->)].
      * apply (r_first _ _ _ _ _ _ R x []). rewrite EP. reflexivity.
      * apply (r_first _ _ _ _ _ _ R z (p2 ++ [x])). rewrite EP. reflexivity.
    + intros p1 u v p2 E. apply app_one_cons in E as [(-> & -> & ->)|(p3 & -> & ->)].
      * apply (r_next _ _ _ _ _ _ R p1 u x []). rewrite EP, <- app_assoc. reflexivity.
      * apply (r_next _ _ _ _ _ _ R p1 u v (p3 ++ [x])). rewrite EP, <- app_assoc. reflexivity.
    + intros z Z. apply in_app_or in Z as [Z|[<-|[]]].
      * apply (r_past _ _ _ _ _ _ R). rewrite EP. apply in_or_app. auto.
      * apply (r_past _ _ _ _ _ _ R x). rewrite EP. apply in_or_app. right. left. reflexivity.
    + intros j b [X|(qj & GJ & X)] ID; exfalso.
      * apply (sole_air _ _ _ _ _ SO G HQ). rewrite <- ID. apply in_ids. apply (in_map snd) in X. exact X.
      * apply in_ids in X. rewrite ID in X. destruct (GU _ _ GJ) as [[-> ->]|[NE GJ']]; [contradiction|].
        apply NE. eapply sole_queue; [exact SO|exact G|exact HQ|exact GJ'|apply sched_held; exact X].
    + intros j qj GJ X. exists p0, y. split; [reflexivity|]. split; [|exact DX]. cbn.
      destruct (GU _ _ GJ) as [[-> ->]|[NE GJ']]; [exact FX|]. exfalso. apply NE. eapply sole_queue; [exact SO|exact G|exact HQ|exact GJ'|apply inside_held; exact X].
    + intros _ _. right. exists p0, y. auto.
    + intro X. exfalso. apply X. apply (bound_upd _ _ q); auto. apply BD. eapply held_in; eassumption.
  - (* a new agent *)
    assert (NB : ~ bound qs i).
    { intros (q1 & G1 & LT). rewrite EI in G1, LT. cbn [fst snd] in G1, LT. rewrite IX in G1. assert (q1 = q) by congruence. subst q1. lia. }
    assert (EP := r_unborn _ _ _ _ _ _ R NB). subst p. exists []. split.
    + intros j qj GJ. destruct (GU _ _ GJ) as [[-> ->]|[NE GJ']]; [rewrite RW; apply (r_rows _ _ _ _ _ _ R); exact G|apply (r_rows _ _ _ _ _ _ R); exact GJ'].
    + intros x [].
    + intros x p' E. discriminate.
    + intros p1 x y p2 E. destruct p1; discriminate.
    + intros x [].
    + intros j b [X|(qj & GJ & X)] ID.
      * apply (r_coming _ _ _ _ _ _ R j b); auto.
      * destruct (GU _ _ GJ) as [[-> ->]|[NE GJ']]; [left; split; [reflexivity|rewrite EI; cbn; congruence]|].
        apply (r_coming _ _ _ _ _ _ R j b); eauto.
    + intros j qj GJ X. destruct (GU _ _ GJ) as [[-> ->]|[NE GJ']]; [contradiction|]. eapply (r_inside _ _ _ _ _ _ R); eassumption.
    + auto.
    + auto.
  - (* an arrival *)
    assert (HQ : In i (held q)) by (apply sched_held; rewrite <- IA; apply in_ids; exact A).
    exists (p ++ [(k, rw)]). split.
    + intros j qj GJ. rewrite at_app, at_one. cbn [fst snd]. destruct (GU _ _ GJ) as [[-> ->]|[NE GJ']].
      * rewrite Nat.eqb_refl, RW. f_equal. apply (r_rows _ _ _ _ _ _ R); exact G.
      * assert (E : Nat.eqb k j = false) by (apply Nat.eqb_neq; congruence). rewrite E, app_nil_r. apply (r_rows _ _ _ _ _ _ R); exact GJ'.
    + intros z Z. rewrite upd_length. apply in_app_or in Z as [Z|[<-|[]]]; [|exact LK]. apply (r_in _ _ _ _ _ _ R); exact Z.
    + intros z p' E. apply one_cons in E as [(-> & ->)|(p2 & ->)]; [|eapply (r_first _ _ _ _ _ _ R); reflexivity].
      destruct (r_coming _ _ _ _ _ _ R k a (or_intror (ex_intro _ q (conj G A))) IA) as [(_ & X)|(p0 & x & X & _)]; [exact X|destruct p0; discriminate].
    + intros p1 u v p2 E. apply app_one_cons in E as [(-> & -> & ->)|(p3 & -> & ->)]; [|eapply (r_next _ _ _ _ _ _ R); reflexivity].
      destruct (r_coming _ _ _ _ _ _ R k a (or_intror (ex_intro _ q (conj G A))) IA) as [(X & _)|(p0 & x & X & FL & DX & LE)]; [destruct p1; discriminate|].
      apply app_inj_tail in X as (_ & ->). cbn [fst snd]. split; [exact FL|]. split; [congruence|exact LE].
    + intros z Z. apply in_app_or in Z as [Z|[<-|[]]]; [apply (r_past _ _ _ _ _ _ R); exact Z|]. cbn. rewrite RN. exact NOW.
    + intros j b [X|(qj & GJ & X)] ID; exfalso.
      * apply (sole_air _ _ _ _ _ SO G HQ). rewrite <- ID. apply in_ids. apply (in_map snd) in X. exact X.
      * apply in_ids in X. rewrite ID in X. destruct (GU _ _ GJ) as [[-> ->]|[NE GJ']]; [contradiction|].
        apply NE. eapply sole_queue; [exact SO|exact G|exact HQ|exact GJ'|apply sched_held; exact X].
    + intros j qj GJ X. exists p, (k, rw). split; [reflexivity|]. split; [|exact RD]. cbn.
      destruct (GU _ _ GJ) as [[-> ->]|[NE GJ']]; [reflexivity|]. exfalso. apply NE. eapply sole_queue; [exact SO|exact G|exact HQ|exact GJ'|apply inside_held; exact X].
    + intros _ _. right. exists p, (k, rw). auto.
    + intro X. exfalso. apply X. apply (bound_upd _ _ q); auto. apply BD. eapply held_in; eassumption.
Qed.

(** ** Leaving one queue *)
Lemma tr_depart T t qs i p k q q' e b : tr fl T qs [] i p -> sole qs [] -> (forall x, In x (flat_map held qs) -> bound qs x) -> eLe T t ->
  get qs k = Some q -> q_oarr q' = q_oarr q -> q_now q' = t -> ag_time b = t -> fl k e ->
  inside q (ag_id b) -> ~ In (ag_id b) (held q') ->
  rows_of (q_data q') (ag_id b) = last_upd (row_set_dep (q_now q')) (rows_of (q_data q) (ag_id b)) ->
  (i <> ag_id b -> eff q q' i) -> c_idx (q_cfg q) = k ->
  exists p', tr fl t (upd qs k q') [(e, b)] i p'.
Proof.
  intros R0 SO BD LT G OA NOW TB FK I0 NH RW EF IX. assert (R := tr_later _ _ _ _ _ _ LT R0). assert (LK := get_lt _ _ _ G).
  destruct (aid_dec i (ag_id b)) as [->|NE].
  - assert (GU : forall j qj, get (upd qs k q') j = Some qj -> (j = k /\ qj = q') \/ (j <> k /\ get qs j = Some qj)).
    { intros j qj GJ. apply get_upd in GJ as [[-> ->]|[NE GJ]]; auto. }
    destruct (r_inside _ _ _ _ _ _ R _ _ G I0) as (p0 & x & EP & FX & DX). assert (HQ := inside_held _ _ I0).
    set (y := (fst x, row_set_dep t (snd x))). exists (p0 ++ [y]).
    assert (PX : eLe (r_arr (snd x)) t).
    { apply (r_past _ _ _ _ _ _ R). rewrite EP. apply in_or_app. right. left. reflexivity. }
    split.
    + intros j qj GJ. rewrite (at_last j p0 x y eq_refl). destruct (Nat.eqb (fst x) j) eqn:E.
      * apply Nat.eqb_eq in E. destruct (GU _ _ GJ) as [[-> ->]|[NE GJ']]; [|congruence].
        rewrite RW, <- (r_rows _ _ _ _ _ _ R _ _ G), EP, at_app, at_one, E, Nat.eqb_refl, last_upd_snoc, NOW. reflexivity.
      * apply Nat.eqb_neq in E. destruct (GU _ _ GJ) as [[-> ->]|[NE GJ']]; [congruence|]. rewrite <- EP. apply (r_rows _ _ _ _ _ _ R); exact GJ'.
    + intros z Z. rewrite upd_length. apply in_app_or in Z as [Z|[<-|[]]]; [|cbn; rewrite FX; exact LK].
      apply (r_in _ _ _ _ _ _ R). rewrite EP. apply in_or_app. auto.
    + intros z p' E. apply one_cons in E as [(-> & ->)|(p2 & ->)].
      * apply (r_first _ _ _ _ _ _ R x []). rewrite EP. reflexivity.
      * apply (r_first _ _ _ _ _ _ R z (p2 ++ [x])). rewrite EP. reflexivity.
    + intros p1 u v p2 E. apply app_one_cons in E as [(-> & -> & ->)|(p3 & -> & ->)].
      * apply (r_next _ _ _ _ _ _ R p1 u x []). rewrite EP, <- app_assoc. reflexivity.
      * apply (r_next _ _ _ _ _ _ R p1 u v (p3 ++ [x])). rewrite EP, <- app_assoc. reflexivity.
    + intros z Z. apply in_app_or in Z as [Z|[<-|[]]].
      * apply (r_past _ _ _ _ _ _ R). rewrite EP. apply in_or_app. auto.
      * exact PX.
    + intros j c [X|(qj & GJ & X)] ID.
      * destruct X as [X|[]]. injection X as <- <-. right. exists p0, y. split; [reflexivity|]. cbn. rewrite FX. split; [exact FK|]. split; [congruence|exact PX].
      * exfalso. apply in_ids in X. rewrite ID in X. apply sched_held in X. destruct (GU _ _ GJ) as [[-> ->]|[NE GJ']]; [contradiction|].
        apply NE. eapply sole_queue; [exact SO|exact G|exact HQ|exact GJ'|exact X].
    + intros j qj GJ X. exfalso. apply inside_held in X. destruct (GU _ _ GJ) as [[-> ->]|[NE GJ']]; [contradiction|].
      apply NE. eapply sole_queue; [exact SO|exact G|exact HQ|exact GJ'|exact X].
    + intros _ X. exfalso. apply X. left. reflexivity.
    + intro X. exfalso. apply X. apply (bound_upd _ _ q); [exact G|lia|]. apply BD. eapply held_in; eassumption.
  - destruct (tr_eff t qs [] i p k q q' R SO BD G IX ltac:(lia) ltac:(rewrite NOW; apply eLe_refl) (EF NE)) as (p' & R').
    exists p'. destruct R' as [A1 A2 A3 A4 A5 A6 A7 A8 A9]. split; auto.
    + intros j c [X|X] ID; [|auto]. destruct X as [X|[]]. injection X as <- <-. congruence.
Qed.

(** ** Coming to the next queue *)
Lemma tr_join T qs i p e q q' b : tr fl T qs [(e, b)] i p -> get qs e = Some q -> q_oarr q' = q_oarr q -> q_data q' = q_data q ->
  waiting q' = waiting q -> in_service q' = in_service q -> Permutation (scheduled q') (b :: scheduled q) ->
  tr fl T (upd qs e q') [] i p.
Proof.
  intros R G OA D W S0 SC. assert (LK := get_lt _ _ _ G).
  assert (GU : forall j qj, get (upd qs e q') j = Some qj -> (j = e /\ qj = q') \/ (j <> e /\ get qs j = Some qj)).
  { intros j qj GJ. apply get_upd in GJ as [[-> ->]|[NE GJ]]; auto. }
  split.
  - intros j qj GJ. destruct (GU _ _ GJ) as [[-> ->]|[NE GJ']]; [rewrite D; apply (r_rows _ _ _ _ _ _ R); exact G|apply (r_rows _ _ _ _ _ _ R); exact GJ'].
  - intros x X. rewrite upd_length. apply (r_in _ _ _ _ _ _ R); exact X.
  - apply (r_first _ _ _ _ _ _ R).
  - apply (r_next _ _ _ _ _ _ R).
  - apply (r_past _ _ _ _ _ _ R).
  - intros j c [[]|(qj & GJ & X)] ID. destruct (GU _ _ GJ) as [[-> ->]|[NE GJ']].
    + apply (Permutation_in _ SC) in X. destruct X as [<-|X]; apply (r_coming _ _ _ _ _ _ R); auto; [left; left; reflexivity|right; eauto].
    + apply (r_coming _ _ _ _ _ _ R); auto. right; eauto.
  - intros j qj GJ X. destruct (GU _ _ GJ) as [[-> ->]|[NE GJ']]; [|eapply (r_inside _ _ _ _ _ _ R); eassumption].
    apply (r_inside _ _ _ _ _ _ R _ q G). unfold inside in *. rewrite W, S0 in X. exact X.
  - intros X _. apply (r_gone _ _ _ _ _ _ R).
    + intro Y. apply X. apply (in_flat_upd _ _ q); auto. destruct (in_dec aid_dec i (held q)) as [Z|Z]; [left|right; exact Z].
      unfold held in *. rewrite W, S0. rewrite !in_app_iff in Z |- *. destruct Z as [Z|Z]; [left|right; exact Z].
      apply (Permutation_in _ (Permutation_sym (ids_perm _ _ SC))). right. exact Z.
    + intros [Y|[]]. apply X. apply (held_in _ e q'); [apply get_upd_eq; exact LK|]. apply sched_held.
      apply (Permutation_in _ (Permutation_sym (ids_perm _ _ SC))). left. exact Y.
  - intro X. apply (r_unborn _ _ _ _ _ _ R). eapply bound_get; [exact G| |exact X]. lia.
Qed.

(** The next queue is the way out. *)
Lemma tr_exit T qs i p e q q' b rw : tr fl T qs [(e, b)] i p -> sole qs [(e, b)] -> bound qs (ag_id b) -> get qs e = Some q -> q_oarr q' = q_oarr q ->
  (forall j, rows_of (q_data q') j = rows_of (q_data q) j ++ if aid_eqb (ag_id b) j then [rw] else []) ->
  r_arr rw = ag_time b -> r_dep rw = Fin 0 -> eLe (ag_time b) T ->
  waiting q' = waiting q -> in_service q' = in_service q -> scheduled q' = scheduled q ->
  exists p', tr fl T (upd qs e q') [] i p'.
Proof.
  intros R SO BD G OA D RA RD LT W S0 SC. assert (LK := get_lt _ _ _ G).
  assert (GU : forall j qj, get (upd qs e q') j = Some qj -> (j = e /\ qj = q') \/ (j <> e /\ get qs j = Some qj)).
  { intros j qj GJ. apply get_upd in GJ as [[-> ->]|[NE GJ]]; auto. }
  assert (HE : forall x, In x (flat_map held (upd qs e q')) -> In x (flat_map held qs)).
  { intros x X. apply in_flat_map in X as (q0 & X0 & X). apply in_get in X0 as (j & GJ). destruct (GU _ _ GJ) as [[-> ->]|[NE GJ']].
    - apply (held_in _ e q); [exact G|]. unfold held in *. rewrite W, S0, SC in X. exact X.
    - eapply held_in; eassumption. }
  destruct (aid_dec i (ag_id b)) as [->|NE].
  - assert (NH : ~ In (ag_id b) (flat_map held (upd qs e q'))).
    { intro X. apply HE in X. unfold sole in SO. cbn in SO. inversion SO; contradiction. }
    assert (CM := r_coming _ _ _ _ _ _ R e b (or_introl (or_introl eq_refl)) eq_refl).
    exists (p ++ [(e, rw)]). split.
    + intros j qj GJ. rewrite at_app, at_one. cbn [fst snd]. destruct (GU _ _ GJ) as [[-> ->]|[NE GJ']].
      * rewrite Nat.eqb_refl, D, aid_eqb_refl. f_equal. apply (r_rows _ _ _ _ _ _ R); exact G.
      * assert (E : Nat.eqb e j = false) by (apply Nat.eqb_neq; congruence). rewrite E, app_nil_r. apply (r_rows _ _ _ _ _ _ R); exact GJ'.
    + intros z Z. rewrite upd_length. apply in_app_or in Z as [Z|[<-|[]]]; [|exact LK]. apply (r_in _ _ _ _ _ _ R); exact Z.
    + intros z p' E. apply one_cons in E as [(-> & ->)|(p2 & ->)]; [|eapply (r_first _ _ _ _ _ _ R); reflexivity].
      destruct CM as [(_ & X)|(p0 & x & X & _)]; [exact X|destruct p0; discriminate].
    + intros p1 u v p2 E. apply app_one_cons in E as [(-> & -> & ->)|(p3 & -> & ->)]; [|eapply (r_next _ _ _ _ _ _ R); reflexivity].
      destruct CM as [(X & _)|(p0 & x & X & FL & DX & LE)]; [destruct p1; discriminate|].
      apply app_inj_tail in X as (_ & ->). cbn [fst snd]. split; [exact FL|]. split; [congruence|exact LE].
    + intros z Z. apply in_app_or in Z as [Z|[<-|[]]]; [apply (r_past _ _ _ _ _ _ R); exact Z|]. cbn. rewrite RA. exact LT.
    + intros j c [[]|(qj & GJ & X)] ID. exfalso. apply NH. apply in_ids in X. rewrite ID in X. eapply held_in; [exact GJ|apply sched_held; exact X].
    + intros j qj GJ X. exfalso. apply NH. eapply held_in; [exact GJ|apply inside_held; exact X].
    + intros _ _. right. exists p, (e, rw). auto.
    + intro X. exfalso. apply X. apply (bound_upd _ _ q); [exact G|lia|exact BD].
  - exists p. split.
    + intros j qj GJ. destruct (GU _ _ GJ) as [[-> ->]|[_ GJ']]; [|apply (r_rows _ _ _ _ _ _ R); exact GJ'].
      assert (E : aid_eqb (ag_id b) i = false) by (destruct (aid_eqb (ag_id b) i) eqn:X; [apply aid_eqb_eq in X; congruence|reflexivity]). rewrite D, E, app_nil_r. apply (r_rows _ _ _ _ _ _ R); exact G.
    + intros x X. rewrite upd_length. apply (r_in _ _ _ _ _ _ R); exact X.
    + apply (r_first _ _ _ _ _ _ R).
    + apply (r_next _ _ _ _ _ _ R).
    + apply (r_past _ _ _ _ _ _ R).
    + intros j c [[]|(qj & GJ & X)] ID. apply (r_coming _ _ _ _ _ _ R); auto. right. destruct (GU _ _ GJ) as [[-> ->]|[_ GJ']]; [|eauto].
      rewrite SC in X. eauto.
    + intros j qj GJ X. destruct (GU _ _ GJ) as [[-> ->]|[_ GJ']]; [|eapply (r_inside _ _ _ _ _ _ R); eassumption].
      apply (r_inside _ _ _ _ _ _ R _ q G). unfold inside in *. rewrite W, S0 in X. exact X.
    + intros X _. apply (r_gone _ _ _ _ _ _ R).
      * intro Y. apply X. apply (in_flat_upd _ _ q); auto. destruct (in_dec aid_dec i (held q)) as [Z|Z]; [left|right; exact Z].
        unfold held in *. rewrite W, S0, SC. exact Z.
      * intros [Y|[]]. apply NE. symmetry. exact Y.
    + intro X. apply (r_unborn _ _ _ _ _ _ R). eapply bound_get; [exact G| |exact X]. lia.
Qed.
End Steps.
