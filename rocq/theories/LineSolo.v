(** * LineSolo: a queue on its own *)
From Coq Require Import List ZArith QArith Lia Bool Permutation Arith.
From Verif Require Import Base Heap HeapProofs Queue QueueEffects QueueEvents QueueSteps QueueInv SpecQueue QueueFlow QueueHist QueueData QueueRows QueueClaims1 QueueClaims3 SpecLine LineSteps LineProofs LineClaims LineRows.
Import ListNotations.
Open Scope Z_scope.

Definition times_of (c : qcfg) (k0 : nat) : nat -> ext := chain (c_arr c) k0 (Fin 0).

Definition next_one (k0 : nat) (q : queue) (n : nat) : Prop :=
  (agents_of (q_arr q) = [] /\ q_active q = false) \/
  exists a, agents_of (q_arr q) = [a] /\ ag_id a = (c_idx (q_cfg q), Z.of_nat n) /\ ag_time a = times_of (q_cfg q) k0 n /\
    q_next_ct q = times_of (q_cfg q) k0 n /\ q_ia q = (k0 + S n)%nat /\ q_oarr q = Z.of_nat (S n).

Definition numbered (k0 : nat) (c : qcfg) (l : list visit) : Prop :=
  forall j v, nth_error l j = Some v -> v_id v = (c_idx c, Z.of_nat j) /\ v_arr v = times_of c k0 j.

Lemma draw_next k0 q q2 new n : draw q q2 new -> agents_of (q_arr q) = [] ->
  q_now q = times_of (q_cfg q) k0 n -> q_next_ct q = times_of (q_cfg q) k0 n -> q_ia q = (k0 + S n)%nat -> q_oarr q = Z.of_nat (S n) ->
  next_one k0 q2 (S n).
Proof.
  intros D E NOW CT IA OA. unfold draw in D. cbv zeta in D. destruct D as (tm & act & h & i & ct & Q & W & P & D).
  assert (QS : q_cfg q2 = q_cfg q /\ q_arr q2 = h /\ q_active q2 = act /\ q_next_ct q2 = ct /\ q_ia q2 = i /\ q_oarr q2 = q_oarr q + Z.of_nat (length new)).
  { rewrite Q. qc. auto 8. }
  destruct QS as (Q1 & Q2 & Q3 & Q4 & Q5 & Q6). unfold next_one. rewrite Q1, Q2, Q3, Q4, Q5, Q6.
  destruct D as [(-> & -> & -> & _ & _ & [A|A])|[(-> & -> & A & -> & _)|(a & -> & _ & -> & -> & _ & _ & I1 & T1 & _)]].
  - left. auto.
  - exfalso. rewrite NOW, CT in A. exact (eLt_irrefl _ A).
  - left. auto.
  - right. exists a. rewrite E, app_nil_r in P. apply Permutation_sym, Permutation_length_1_inv in P. 
    assert (CH : c_arr (q_cfg q) (q_ia q) (q_now q) = times_of (q_cfg q) k0 (S n)) by (unfold times_of; cbn [chain]; rewrite IA; f_equal; exact NOW).
    split; [exact P|]. split; [rewrite I1, OA; reflexivity|]. split; [rewrite T1; exact CH|]. split; [exact CH|]. split; [rewrite IA; lia|]. rewrite OA. cbn [length]. lia.
Qed.

Lemma watch_arr l e : map (fun v => (v_id v, v_arr v)) (watch l e) = map (fun v => (v_id v, v_arr v)) (l ++ come e).
Proof.
  unfold watch. rewrite map_map. apply map_ext. intro v. destruct e as [[[o q] r] q']. unfold start, close.
  destruct (v_served v && _); cbn [v_waits]; [destruct (v_waits _ && _)|destruct (v_waits v && _)]; reflexivity.
Qed.

Lemma numbered_watch k0 c l e : numbered k0 c l ->
  (come e = [] \/ exists w, come e = [w] /\ v_id w = (c_idx c, Z.of_nat (length l)) /\ v_arr w = times_of c k0 (length l)) ->
  numbered k0 c (watch l e) /\ length (watch l e) = (length l + length (come e))%nat.
Proof.
  intros NU C. assert (LEN : length (watch l e) = (length l + length (come e))%nat) by (unfold watch; rewrite map_length, app_length; reflexivity).
  split; [|exact LEN]. intros j v V.
  assert (X : nth_error (map (fun v => (v_id v, v_arr v)) (l ++ come e)) j = Some (v_id v, v_arr v)).
  { rewrite <- watch_arr. rewrite nth_error_map, V. reflexivity. }
  rewrite nth_error_map in X. destruct (nth_error (l ++ come e) j) as [w|] eqn:W; [|discriminate]. injection X as <- <-.
  destruct (lt_dec j (length l)) as [Q|Q].
  - rewrite nth_error_app1 in W by exact Q. apply NU. exact W.
  - rewrite nth_error_app2 in W by lia. destruct C as [C|(x & C & I1 & T1)]; rewrite C in W.
    + destruct (j - length l)%nat; discriminate.
    + destruct (j - length l)%nat as [|m] eqn:K; [|destruct m; discriminate]. injection W as <-. replace j with (length l) by lia. auto.
Qed.

Lemma single_pop q a b h : wfh (q_arr q) -> agents_of (q_arr q) = [a] -> pop_agent (q_arr q) = Ok (b, h) -> b = a /\ agents_of h = [].
Proof.
  intros W E P. apply pop_agent_Ok in P as (_ & P & _); [|exact W]. rewrite E in P.
  apply Permutation_length_1_inv in P. injection P as -> ->. auto.
Qed.

Lemma solo_step k0 q r q' l : good q -> step ONext q = Ok (r, q') -> next_one k0 q (length l) -> numbered k0 (q_cfg q) l ->
  next_one k0 q' (length (watch l (ONext, q, r, q'))) /\ numbered k0 (q_cfg q') (watch l (ONext, q, r, q')).
Proof.
  intros G H NX NU. assert (IV := gd_inv _ G). assert (N := gd_null _ G). assert (NR := gd_res _ G).
  assert (Wa := qi_arr _ IV). assert (Wd := qi_dep _ IV).
  assert (OK : orderly q ONext) by (split; exact Logic.I).
  destruct (good_step _ _ _ _ G OK H) as (_ & _ & _ & CF). rewrite CF.
  cbn [step] in H. apply next_event_event in H as (qe & PE & EV); [|exact Wa|exact Wd].
  destruct (pre_event_net _ _ PE) as (nd & ->).
  assert (SAME : come (ONext, q, r, q') = [] -> q_arr q' = q_arr q -> q_active q' = q_active q -> q_next_ct q' = q_next_ct q -> q_ia q' = q_ia q -> q_oarr q' = q_oarr q ->
    next_one k0 q' (length (watch l (ONext, q, r, q'))) /\ numbered k0 (q_cfg q) (watch l (ONext, q, r, q'))).
  { intros C A1 A2 A3 A4 A5. destruct (numbered_watch k0 (q_cfg q) l (ONext, q, r, q') NU (or_introl C)) as (X & Y). split; [|exact X].
    rewrite Y, C. cbn [length]. rewrite Nat.add_0_r. unfold next_one in *. rewrite CF, A1, A2, A3, A4, A5. exact NX. }
  assert (NEW : forall a h q1 q2 new, pop_agent (q_arr q) = Ok (a, h) -> arriving q = Some a -> draw q1 q2 new -> 
    q_arr q1 = h -> q_cfg q1 = q_cfg q -> q_now q1 = ag_time a -> q_next_ct q1 = q_next_ct q -> q_ia q1 = q_ia q -> q_oarr q1 = q_oarr q -> 
    q_now q' = ag_time a -> q_arr q' = q_arr q2 -> q_active q' = q_active q2 -> q_next_ct q' = q_next_ct q2 -> q_ia q' = q_ia q2 -> q_oarr q' = q_oarr q2 -> q_cfg q2 = q_cfg q ->
    next_one k0 q' (length (watch l (ONext, q, r, q'))) /\ numbered k0 (q_cfg q) (watch l (ONext, q, r, q'))).
  { intros a h q1 q2 new PA AR DR E1 E2 E3 E4 E5 E6 NW B1 B2 B3 B4 B5 CF2.
    destruct NX as [(NX & _)|(b & NX & I1 & T1 & CT & IA & OA)].
    { exfalso. apply pop_agent_Ok in PA as (_ & P & _); [|exact Wa]. rewrite NX in P. apply Permutation_nil in P. discriminate. }
    destruct (single_pop _ _ _ _ Wa NX PA) as (-> & E7).
    assert (C : exists w, come (ONext, q, r, q') = [w] /\ v_id w = ag_id b /\ v_arr w = q_now q').
    { unfold come, admitted1, turned_away1. rewrite AR. destruct (q_nsys q' =? q_nsys q + 1); eexists; split; try reflexivity; split; reflexivity. }
    destruct C as (w & C & W1 & W2).
    destruct (numbered_watch k0 (q_cfg q) l (ONext, q, r, q') NU) as (X & Y).
    { right. exists w. split; [exact C|]. split; [congruence|congruence]. }
    split; [|exact X]. rewrite Y, C. cbn [length]. rewrite Nat.add_1_r.
    assert (D := draw_next k0 q1 q2 new (length l) DR). rewrite E1, E2, E3, E4, E5, E6 in D. specialize (D E7 T1 CT IA OA).
    unfold next_one in *. rewrite CF, B1, B2, B3, B4, B5. rewrite CF2 in D. exact D. }
  destruct EV as [ID _ -> ->|_ LT R|_ LE NI CAP _ R|_ NS LE NI CAP _ R|CR LE NI RT _ R|CR LE NI RT _ CAP R]; try congruence.
  - apply SAME; try reflexivity. unfold come, admitted1, turned_away1. rewrite (idle_not_arriving q Wa Wd ID). reflexivity.
  - assert (A := departing_not_arriving q Wa Wd LT).
    apply qs_departure_Ok in R; [|exact Wa|exact Wd].
    destruct R as (a & h & a' & h' & line' & n & d1 & d & s & o & PA & -> & I1 & T1 & K1 & B1 & Q & _).
    apply SAME; try (rewrite Q; reflexivity). unfold come, admitted1, turned_away1. rewrite A. reflexivity.
  - apply qs_arrival_Ok in R; [|exact N|exact Wa|exact Wd].
    destruct R as (a & h & q2 & new & h' & line' & n & d1 & d & s1 & o1 & s & o & a1 & -> & PA & DR & I1 & T1 & K1 & Q & _).
    qch PA. assert (A := nonnull_arriving q N Wa Wd LE NI a h PA). assert (DN := draw_new _ _ _ DR). qch DN. destruct DN as (_ & CF2 & F2 & _).
    assert (NW : q_now q2 = ag_time a).
    { unfold draw in DR. cbv zeta in DR. destruct DR as (tm & act & hh & i & ct & -> & _). reflexivity. }
    apply (NEW a h _ q2 new PA A DR); try reflexivity; try (rewrite Q; reflexivity); [rewrite Q; qc; exact NW|exact CF2].
  - apply loss_blocked_Ok in R; [|exact N|exact Wa|exact Wd].
    destruct R as (a & h & q2 & new & d & -> & PA & DR & Q & D).
    qch PA. assert (A := nonnull_arriving q N Wa Wd LE NI a h PA). assert (DN := draw_new _ _ _ DR). qch DN. destruct DN as (_ & CF2 & F2 & _).
    assert (NW : q_now q2 = ag_time a).
    { unfold draw in DR. cbv zeta in DR. destruct DR as (tm & act & hh & i & ct & -> & _). reflexivity. }
    apply (NEW a h _ q2 new PA A DR); try reflexivity; try (rewrite Q; reflexivity); [rewrite Q; qc; exact NW|exact CF2].
Qed.

(** ** Departures come before the next arrival *)

Definition cap_strict (c : ext) (pre : list visit) (v : visit) : Prop :=
  v_in v = true -> eLt (Fin (many (out_from (v_arr v)) pre)) c.

Record brisk (q : queue) (l : list visit) : Prop := mkBrisk {
  br_cap : each (cap_strict (room q)) l;
  br_dep : forall w e a, In w l -> v_dep w = Some e -> In a (agents_of (q_arr q)) -> eLt e (ag_time a)
}.

Lemma grown_from_back t s v v' : eLe s t -> grown t v v' -> out_from s v' = true -> out_from s v = true.
Proof.
  intros L [_ _ I _ D] H. unfold out_from in *. rewrite I in H. destruct (v_in v); [|discriminate]. cbn in *.
  destruct D as [<-|(-> & _)]; [exact H|reflexivity].
Qed.

Lemma grown_strict t c l l' : (forall v, In v l -> eLe (v_arr v) t) -> Forall2 (grown t) l l' -> each (cap_strict c) l -> each (cap_strict c) l'.
Proof.
  intros T F H pre' v' post' E. destruct (grown_split _ _ _ _ _ _ F E) as (pre & v & post & E1 & F1 & G & _).
  assert (L : eLe (v_arr v) t) by (apply T; rewrite E1; apply in_or_app; right; left; reflexivity).
  specialize (H _ _ _ E1). unfold cap_strict in *. rewrite (gr_in _ _ _ G), (gr_arr _ _ _ G). intro IN. specialize (H IN).
  assert (X : many (out_from (v_arr v)) pre' <= many (out_from (v_arr v)) pre).
  { apply many_ge. eapply all2_imp; [|exact F1]. intros x y GG. apply (grown_from_back t); assumption. }
  elia.
Qed.

Lemma start_grown o q r q' v : grown (q_now q') v (start (o, q, r, q') v).
Proof.
  unfold start. destruct (v_waits v && _) eqn:E; [|apply grown_refl]. apply andb_true_iff in E as [E _].
  unfold v_waits in E. apply andb_true_iff in E as [_ E]. split; cbn; auto. right. destruct (v_srv v); [discriminate|auto].
Qed.

Lemma later_grown o q r q' v : visit_ok (q_now q) v -> grown (q_now q') v (later (o, q, r, q') v).
Proof.
  intro V. unfold later. assert (A := close_grown o q r q' v). assert (B := start_grown o q r q' (close (o, q, r, q') v)).
  destruct A as [A1 A2 A3 A4 A5], B as [B1 B2 B3 B4 B5]. split; try congruence.
  - destruct A4 as [A4|(A4 & _)]; [rewrite A4 in B4; exact B4|]. destruct (close_fields o q r q' v) as (_ & _ & X). rewrite X in B4. exact B4.
  - assert (X : v_dep (start (o, q, r, q') (close (o, q, r, q') v)) = v_dep (close (o, q, r, q') v)).
    { unfold start. destruct (v_waits _ && _); reflexivity. }
    rewrite X. exact A5.
Qed.

Lemma next_sched q r q' : good q -> next_event q = Ok (r, q') ->
  (forall a, arriving q = Some a -> q_now q' = ag_time a /\ In a (agents_of (q_arr q))) /\
  (arriving q = None -> q_arr q' = q_arr q /\ (r = None -> q' = q) /\ (r <> None -> forall b, In b (agents_of (q_arr q)) -> eLt (q_now q') (ag_time b))).
Proof.
  intros G H. assert (IV := gd_inv _ G). assert (N := gd_null _ G). assert (NR := gd_res _ G).
  assert (Wa := qi_arr _ IV). assert (Wd := qi_dep _ IV). assert (H0 := H).
  apply next_event_event in H as (qe & PE & EV); [|exact Wa|exact Wd].
  destruct (pre_event_net _ _ PE) as (nd & ->).
  assert (NEW : forall a h, pop_agent (q_arr q) = Ok (a, h) -> arriving q = Some a -> q_now q' = ag_time a ->
    (forall a, arriving q = Some a -> q_now q' = ag_time a /\ In a (agents_of (q_arr q))) /\
    (arriving q = None -> q_arr q' = q_arr q /\ (r = None -> q' = q) /\ (r <> None -> forall b, In b (agents_of (q_arr q)) -> eLt (q_now q') (ag_time b)))).
  { intros a h PA AR NW. rewrite AR. split; [|discriminate]. intros b B. injection B as <-. split; [exact NW|].
    apply pop_agent_Ok in PA as (_ & P & _); [|exact Wa]. apply (Permutation_in a (Permutation_sym P)). left; reflexivity. }
  destruct EV as [ID _ -> ->|_ LT R|_ LE NI CAP _ R|_ NS LE NI CAP _ R|CR LE NI RT _ R|CR LE NI RT _ CAP R]; try congruence.
  - assert (A := idle_not_arriving q Wa Wd ID). rewrite A. split; [discriminate|]. intros _. split; [reflexivity|]. split; [|congruence].
    intros _. assert (M := mem_next _ _ _ IV N (proj1 (gd_dinv _ G)) H0 (0%nat, 0)). unfold mem_step in M. rewrite A in M. exact M.
  - assert (A := departing_not_arriving q Wa Wd LT). rewrite A. split; [discriminate|]. intros _.
    apply qs_departure_Ok in R; [|exact Wa|exact Wd].
    destruct R as (a & h & a' & h' & line' & n & d1 & d & s & o & PA & -> & I1 & T1 & K1 & B1 & Q & _).
    qch PA. apply pop_agent_Ok in PA as (_ & P & T & _); [|exact Wd].
    split; [rewrite Q; reflexivity|]. split; [discriminate|]. intros _ b B.
    assert (NW : q_now q' = ag_time a) by (rewrite Q; reflexivity). rewrite NW, T. qch LT. eapply eLt_le_trans; [exact LT|]. apply wfh_min; assumption.
  - apply qs_arrival_Ok in R; [|exact N|exact Wa|exact Wd].
    destruct R as (a & h & q2 & new & h' & line' & n & d1 & d & s1 & o1 & s & o & a1 & -> & PA & DR & I1 & T1 & K1 & Q & _).
    qch PA. assert (A := nonnull_arriving q N Wa Wd LE NI a h PA).
    assert (NW : q_now q2 = ag_time a).
    { unfold draw in DR. cbv zeta in DR. destruct DR as (tm & act & hh & i & ct & -> & _). reflexivity. }
    apply (NEW a h PA A). rewrite Q. qc. exact NW.
  - apply loss_blocked_Ok in R; [|exact N|exact Wa|exact Wd].
    destruct R as (a & h & q2 & new & d & -> & PA & DR & Q & D).
    qch PA. assert (A := nonnull_arriving q N Wa Wd LE NI a h PA).
    assert (NW : q_now q2 = ag_time a).
    { unfold draw in DR. cbv zeta in DR. destruct DR as (tm & act & hh & i & ct & -> & _). reflexivity. }
    apply (NEW a h PA A). rewrite Q. qc. exact NW.
Qed.

Lemma many_map f g l : many f (map g l) = many (fun v => f (g v)) l.
Proof. induction l as [|v l IH]; [reflexivity|]. cbn [map]. rewrite !many_cons, IH. reflexivity. Qed.

Lemma brisk_step q r q' l : good q -> step ONext q = Ok (r, q') -> lined q l -> brisk q l -> brisk q' (watch l (ONext, q, r, q')).
Proof.
  intros G H L [BC BD]. assert (OK : orderly q ONext) by (split; exact Logic.I).
  destruct (good_step _ _ _ _ G OK H) as (G' & NOW & SV & CF). assert (RM := room_same _ _ SV CF).
  destruct (next_sched _ _ _ G H) as (NA & ND).
  set (e := (ONext, q, r, q')).
  assert (OKS : forall v, In v l -> eLe (v_arr v) (q_now q')) by (intros v V; eapply eLe_trans; [apply (vo_arr _ _ (ln_ok _ _ L v V))|exact NOW]).
  assert (FA : Forall2 (grown (q_now q')) l (map (later e) l)) by (apply map_grown; intros v V; apply later_grown; apply L; exact V).
  assert (BL := grown_strict _ _ _ _ OKS FA BC).
  assert (WE : watch l e = map (later e) l ++ map (later e) (come e)) by (unfold watch; apply (map_app (later e))).
  assert (DEP : forall v x, v_dep (later e v) = Some x -> v_dep v = Some x \/ x = q_now q' /\ r <> None).
  { intros v x X. unfold later in X. assert (Y : v_dep (start e (close e v)) = v_dep (close e v)).
    { unfold start, e. destruct (v_waits _ && _); reflexivity. }
    rewrite Y in X. unfold close, e in X. destruct r as [a|].
    - destruct (v_served v && _); [|auto]. cbn in X. injection X as <-. right. split; [reflexivity|discriminate].
    - cbn in X. rewrite andb_false_r in X. auto. }
  assert (CD : forall w, In w (come e) -> v_dep (later e w) = None).
  { intros w W. destruct (v_dep (later e w)) as [x|] eqn:X; [|reflexivity]. exfalso.
    assert (K : v_dep w = None /\ v_served w = false).
    { unfold come, e in W. apply in_app_or in W as [W|W]; apply in_map_iff in W as (i & <- & _); auto. }
    destruct K as (K1 & K2). unfold later in X. unfold e in X. rewrite close_same in X by auto. unfold start in X. destruct (v_waits w && _); cbn in X; congruence. }
  split.
  - rewrite RM, WE. destruct (arriving q) as [a|] eqn:AR.
    + assert (C : exists w, come e = [w] /\ v_arr w = q_now q' /\ (v_in w = true -> q_nsys q' = q_nsys q + 1 /\ admitted1 e = [ag_id a])).
      { unfold come, e, admitted1, turned_away1. rewrite AR. destruct (q_nsys q' =? q_nsys q + 1) eqn:K; eexists; (split; [reflexivity|]); (split; [reflexivity|]).
        - intros _. split; [apply Z.eqb_eq; exact K|reflexivity].
        - discriminate. }
      destruct C as (w & C & W1 & W2). rewrite C. cbn [map]. apply each_snoc; [exact BL|].
      assert (LW : v_arr (later e w) = v_arr w /\ v_in (later e w) = v_in w).
      { unfold later, start, close, e. destruct (v_served w && _); cbn [v_waits]; [destruct (v_waits _ && _)|destruct (v_waits w && _)]; auto. }
      destruct LW as (LW1 & LW2). intro IN. rewrite LW1, W1. rewrite LW2 in IN. destruct (W2 IN) as (NS & AD).
      assert (RN : r = None).
      { assert (M := mem_next _ _ _ (gd_inv _ G) (gd_null _ G) (proj1 (gd_dinv _ G)) H (0%nat, 0)). unfold mem_step in M. rewrite AR in M. apply M. }
      assert (MO : many (out_from (q_now q')) (map (later e) l) <= many v_open l).
      { rewrite many_map. apply many_sub. intros v V X. assert (GV := later_grown ONext q r q' v (ln_ok _ _ L v V)). fold e in GV.
        unfold out_from in X. apply andb_true_iff in X as (X1 & X2). unfold v_open. rewrite <- (gr_in _ _ _ GV), X1. cbn [andb].
        destruct (v_dep v) as [x|] eqn:VD; [exfalso|reflexivity].
        destruct (gr_dep _ _ _ GV) as [Y|(Y & _)]; [|congruence]. rewrite Y, VD in X2. apply eleb_le in X2.
        destruct (NA a eq_refl) as (N1 & N2). assert (Z := BD v x a V VD N2). apply eLt_not_le in Z. apply Z. rewrite <- N1. exact X2. }
      assert (NSYS := lined_nsys _ _ (gd_inv _ G) L).
      assert (CAP : eLt (Fin (q_nsys q)) (room q)).
      { destruct (step_turn _ _ _ _ (gd_null _ G) (gd_res _ G) (gd_inv _ G) (gd_winv _ G) (gd_cinv _ G) OK H) as (T & _).
        unfold e in AD. destruct T as [? K|? ? K|? ? ? ? ? ? ? ? K|? ? ? ? ? ? ? ? ? ? ? ? K|? ? K|? ? ? ? ? K]; try (rewrite AD in K; discriminate); exact K. }
      rewrite <- NSYS in MO. elia.
    + assert (C : come e = []) by (unfold come, e, admitted1, turned_away1; rewrite AR; reflexivity). rewrite C. cbn [map]. rewrite app_nil_r. exact BL.
  - intros w x b W X B. rewrite WE in W. apply in_app_or in W as [W|W]; apply in_map_iff in W as (v & <- & V); [|rewrite (CD v V) in X; discriminate].
    assert (SC : eLe (q_now q') (ag_time b)) by (apply (proj1 (gd_tinv _ G')); exact B).
    destruct (arriving q) as [a|] eqn:AR.
    + destruct (NA a eq_refl) as (N1 & N2). destruct (DEP v x X) as [Y|(-> & Y)].
      * eapply eLt_le_trans; [exact (BD v x a V Y N2)|]. rewrite <- N1. exact SC.
      * exfalso. assert (M := mem_next _ _ _ (gd_inv _ G) (gd_null _ G) (proj1 (gd_dinv _ G)) H (0%nat, 0)). unfold mem_step in M. rewrite AR in M. destruct M as (-> & _). congruence.
    + destruct (ND eq_refl) as (N1 & N2 & N3). rewrite N1 in B. destruct (DEP v x X) as [Y|(-> & Y)]; [exact (BD v x b V Y B)|exact (N3 Y b B)].
Qed.

(** ** From the first call to the last *)

Lemma first_draw k0 q q2 new : draw q q2 new -> agents_of (q_arr q) = [] -> q_now q = Fin 0 -> q_next_ct q = Fin 0 -> q_ia q = k0 -> q_oarr q = 0 ->
  q_active q = true -> next_one k0 q2 0.
Proof.
  intros D E NOW CT IA OA AC. unfold draw in D. cbv zeta in D. destruct D as (tm & act & h & i & ct & Q & W & P & D).
  assert (QS : q_cfg q2 = q_cfg q /\ q_arr q2 = h /\ q_active q2 = act /\ q_next_ct q2 = ct /\ q_ia q2 = i /\ q_oarr q2 = q_oarr q + Z.of_nat (length new)).
  { rewrite Q. qc. auto 8. }
  destruct QS as (Q1 & Q2 & Q3 & Q4 & Q5 & Q6). unfold next_one. rewrite Q1, Q2, Q3, Q4, Q5, Q6.
  destruct D as [(-> & -> & -> & _ & _ & [A|A])|[(-> & -> & A & -> & _)|(a & -> & _ & -> & -> & _ & _ & I1 & T1 & _)]].
  - congruence.
  - exfalso. rewrite NOW, CT in A. exact (eLt_irrefl _ A).
  - left. auto.
  - right. exists a. rewrite E, app_nil_r in P. apply Permutation_sym, Permutation_length_1_inv in P.
    assert (CH : c_arr (q_cfg q) (q_ia q) (q_now q) = times_of (q_cfg q) k0 0) by (unfold times_of; cbn [chain]; congruence).
    split; [exact P|]. split; [rewrite I1, OA; reflexivity|]. split; [rewrite T1; exact CH|]. split; [exact CH|]. split; [rewrite IA; lia|]. rewrite OA. reflexivity.
Qed.

Lemma pristine_clock q : pristine q -> c_class (q_cfg q) <> CNull -> q_now q = Fin 0 /\ q_next_ct q = Fin 0 /\ q_active q = false.
Proof.
  intros [(c & s & col & n & ->)|(c & s & col & n & q1 & R & _ & ->)] N; [auto|].
  rewrite clear_cfg in N. unfold clear. destruct (c_class (q_cfg q1)); try congruence; auto.
Qed.

Lemma first_active q0 r q1 : pristine q0 -> c_class (q_cfg q0) <> CNull -> step OActive q0 = Ok (r, q1) -> next_one (q_ia q0) q1 0.
Proof.
  intros P N H. apply step_run_op in H. cbn [run_op] in H. destruct (pristine_clock _ P N) as (C1 & C2 & C3).
  apply pristine_facts in P as [I W A D L O NS DP NA B].
  unfold set_active in H. rewrite C3 in H.
  assert (X : exists new, draw (set_q_active true q0) q1 new) by (apply draw_Ok; [exact N|apply I|apply I|exact H]).
  destruct X as (new & X). apply (first_draw (q_ia q0) _ _ _ X); try assumption; try reflexivity. qc. rewrite A. reflexivity.
Qed.

Lemma exec_solo n : forall q log q' l k0, good q -> lined q l -> next_one k0 q (length l) -> numbered k0 (q_cfg q) l -> brisk q l ->
  exec (repeat ONext n) q = Ok (log, q') -> numbered k0 (q_cfg q') (watched l log) /\ brisk q' (watched l log).
Proof.
  induction n as [|n IH]; intros q log q' l k0 G L NX NU BR H.
  - cbn in H. injection H as <- <-. auto.
  - cbn [repeat] in H. apply exec_cons in H as (r & q1 & log1 & H1 & E & ->).
    assert (OK : orderly q ONext) by (split; exact Logic.I).
    destruct (good_step _ _ _ _ G OK H1) as (G1 & _). assert (L1 := lined_good _ _ _ _ _ G OK H1 L).
    destruct (solo_step _ _ _ _ _ G H1 NX NU) as (NX1 & NU1). assert (BR1 := brisk_step _ _ _ _ G H1 L BR).
    exact (IH _ _ _ _ _ G1 L1 NX1 NU1 BR1 E).
Qed.

Lemma nexts_undelayed n : forall q log q', exec (repeat ONext n) q = Ok (log, q') -> all_calls undelayed log.
Proof.
  induction n as [|n IH]; intros q log q' H.
  - cbn in H. injection H as <- <-. constructor.
  - cbn [repeat] in H. apply exec_cons in H as (r & q1 & log1 & H1 & E & ->). constructor; [split; exact Logic.I|]. exact (IH _ _ _ E).
Qed.

Lemma list_ext {A} : forall l l' : list A, (forall i, nth_error l i = nth_error l' i) -> l = l'.
Proof.
  induction l as [|x l IH]; intros [|y l'] H; [reflexivity|specialize (H 0%nat); discriminate|specialize (H 0%nat); discriminate|].
  assert (X := H 0%nat). injection X as ->. f_equal. apply IH. intro i. exact (H (S i)).
Qed.

(** ** The plan with a limited room *)

Lemma near_from now A P t : Forall2 (near now) A P -> eLe t now -> from P t = from A t.
Proof.
  intros F T. unfold from. enough (X : length (filter (fun e => eleb t e) P) = length (filter (fun e => eleb t e) A)) by (unfold zlen; rewrite X; reflexivity).
  induction F as [|u e A P H _ IH]; [reflexivity|]. cbn [filter]. destruct H as [->|(-> & H)].
  - destruct (eleb t e); cbn [length]; congruence.
  - assert (X : eleb t e = true) by (apply eleb_le; eapply eLe_trans; eassumption).
    assert (Y : eleb t Inf = true) by (apply eleb_le; apply eLe_Inf). rewrite X, Y. cbn [length]. congruence.
Qed.

Definition on_lplan (now : ext) (v : visit) (p : option (ext * ext)) : Prop :=
  match p with Some p => v_in v = true /\ on_plan now v p | None => v_in v = false end.

Lemma plan_lplan now c rm srv l : forall k E,
  (forall pre v post, l = pre ++ v :: post ->
     v_in v = eltb (Fin (from (E ++ map snd (plan c srv k E (map v_arr (filter v_in pre)))) (v_arr v))) rm) ->
  Forall2 (on_plan now) (filter v_in l) (plan c srv k E (map v_arr (filter v_in l))) ->
  Forall2 (on_lplan now) l (lplan c rm srv k E (map v_arr l)).
Proof.
  induction l as [|v l IH]; intros k E H F; [constructor|]. cbn [map lplan].
  assert (H0 := H [] v l eq_refl). cbn [filter map plan] in H0. rewrite app_nil_r in H0. rewrite <- H0.
  cbn [filter] in F. destruct (v_in v) eqn:IN.
  - cbn [map plan] in F. cbv zeta in F. inversion F as [|? ? ? ? F1 F2]; subst. cbv zeta. constructor; [split; assumption|].
    apply IH; [|exact F2]. intros pre w post EQ. rewrite (H (v :: pre) w post) by (rewrite EQ; reflexivity).
    cbn [filter]. rewrite IN. cbn [map plan]. cbv zeta. cbn [map snd]. rewrite <- app_assoc. reflexivity.
  - constructor; [exact IN|]. apply IH; [|exact F]. intros pre w post EQ. rewrite (H (v :: pre) w post) by (rewrite EQ; reflexivity).
    cbn [filter]. rewrite IN. reflexivity.
Qed.

Lemma filter_prefix (l pre : list visit) v post : l = pre ++ v :: post -> filter v_in l = filter v_in pre ++ filter v_in (v :: post).
Proof. intros ->. apply filter_app. Qed.

Lemma plan_app c srv m : forall k E n, exists r, plan c srv k E (m ++ n) = plan c srv k E m ++ r.
Proof.
  induction m as [|a m IH]; intros k E n; [eexists; reflexivity|]. cbn [app plan]. cbv zeta.
  destruct (IH (S k) (E ++ [srv k (free_time c E a)]) n) as (r & ->). exists r. reflexivity.
Qed.

Lemma plan_length c srv m : forall k E, length (plan c srv k E m) = length m.
Proof. induction m as [|a m IH]; intros k E; [reflexivity|]. cbn [plan length]. cbv zeta. cbn [length]. rewrite IH. reflexivity. Qed.

Lemma all2_app_l {A B} (R : A -> B -> Prop) a b c d : Forall2 R (a ++ b) (c ++ d) -> length a = length c -> Forall2 R a c.
Proof.
  revert c. induction a as [|x a IH]; intros [|y c] F L; cbn in *; try discriminate; [constructor|].
  inversion F; subst. constructor; [assumption|]. apply IH; [assumption|congruence].
Qed.

Lemma lined_lplan q l k0 : good q -> eLt (Fin 0) (q_servers q) -> lined q l -> timed k0 q l -> brisk q l ->
  Forall2 (on_lplan (q_now q)) l (lplan (q_servers q) (room q) (c_srv (q_cfg q)) k0 [] (map v_arr l)).
Proof.
  intros G POS L T BR. assert (PL := lined_plan _ _ _ G POS L T). apply plan_lplan; [|exact PL].
  intros pre v post E. cbn [app].
  assert (IL : In v l) by (rewrite E; apply in_or_app; right; left; reflexivity).
  assert (NR : Forall2 (near (q_now q)) (ends pre) (map snd (plan (q_servers q) (c_srv (q_cfg q)) k0 [] (map v_arr (filter v_in pre))))).
  { rewrite (filter_prefix _ _ _ _ E), map_app in PL.
    destruct (plan_app (q_servers q) (c_srv (q_cfg q)) (map v_arr (filter v_in pre)) k0 [] (map v_arr (filter v_in (v :: post)))) as (r & X).
    rewrite X in PL. apply all2_app_l in PL; [|rewrite plan_length, map_length; reflexivity].
    unfold ends. clear -PL. induction PL as [|w p A P (_ & H) _ IH']; cbn [map]; constructor; [|exact IH'].
    unfold near, until. destruct (v_dep w); [left; exact H|right; auto]. }
  rewrite (near_from _ _ _ _ NR (vo_arr _ _ (ln_ok _ _ L v IL))), from_many.
  assert (C1 := ln_cap _ _ L _ _ _ E). assert (C2 := br_cap _ _ BR _ _ _ E). unfold cap_ok in C1. unfold cap_strict in C2.
  destruct (v_in v).
  - symmetry. apply eltb_lt. apply C2. reflexivity.
  - symmetry. apply not_true_iff_false. intro X. apply eltb_lt in X. apply eLt_not_le in X. auto.
Qed.

Lemma exec_all n q0 log q : pristine q0 -> c_class (q_cfg q0) <> CNull -> c_class (q_cfg q0) <> CResource -> forward (q_cfg q0) ->
  eLt (Fin 0) (q_servers q0) -> exec (OActive :: repeat ONext n) q0 = Ok (log, q) ->
  numbered (q_ia q0) (q_cfg q0) (visits log) /\
  Forall2 (on_lplan (q_now q)) (visits log) (lplan (q_servers q0) (room q0) (c_srv (q_cfg q0)) (q_is q0) [] (map v_arr (visits log))) /\
  all_calls undelayed log.
Proof.
  intros P N NR F S0 H. assert (S1 := eLt_le _ _ S0). assert (G := good_start _ P N NR F S1). assert (L := lined_start _ P).
  apply exec_cons in H as (r & q1 & log1 & H1 & E & ->).
  assert (OK : undelayed q0 OActive) by (split; exact Logic.I).
  destruct (good_step _ _ _ _ G OK H1) as (G1 & _ & V1 & C1). assert (L1 := lined_good _ _ _ _ _ G OK H1 L).
  assert (T1 := timed_step _ _ _ _ _ _ G OK H1 L (timed_start _)).
  assert (E1 : watch [] (OActive, q0, r, q1) = []) by reflexivity. rewrite E1 in L1, T1.
  assert (NX := first_active _ _ _ P N H1).
  assert (UN := nexts_undelayed _ _ _ _ E). assert (OR := undelayed_orderly _ UN).
  assert (NU : numbered (q_ia q0) (q_cfg q1) []) by (intros j v X; destruct j; discriminate).
  assert (BR : brisk q1 []) by (split; [intros pre v post X; destruct pre; discriminate|intros w e a []]).
  destruct (exec_solo _ _ _ _ _ _ G1 L1 NX NU BR E) as (NU' & BR').
  destruct (exec_lined _ _ _ _ _ G1 L1 E OR) as (G' & L' & V' & C' & _).
  assert (T' := exec_timed _ _ _ _ _ _ G1 L1 T1 E UN).
  change (visits ((OActive, q0, r, q1) :: log1)) with (watched [] log1).
  split; [rewrite C', C1 in NU'; exact NU'|]. split; [|constructor; [exact OK|exact UN]].
  assert (X := lined_lplan _ _ _ G' ltac:(rewrite V', V1; exact S0) L' T' BR').
  rewrite (room_same q0 q) in X by congruence. rewrite V', V1, C', C1 in X. exact X.
Qed.

Lemma visits_of_numbered k0 c l j v : numbered k0 c l -> nth_error l j = Some v -> visits_of (c_idx c, Z.of_nat j) l = [v].
Proof.
  intros NU V. assert (E := nth_pre _ _ _ V). rewrite E. rewrite visits_of_app. unfold visits_of. cbn [filter].
  rewrite (proj1 (NU j v V)), aid_eqb_refl.
  assert (LT : (j < length l)%nat) by (apply nth_error_Some; rewrite V; discriminate).
  rewrite !filter_none; [reflexivity| |].
  - intros w W. apply aid_eqb_neq. apply In_nth_error in W as (i & W).
    assert (X : nth_error l (S j + i) = Some w) by (rewrite <- W; clear -LT; revert l LT; induction j as [|j IH]; intros [|x l] LT; cbn in *; try lia; [reflexivity|apply IH; lia]).
    rewrite (proj1 (NU _ w X)). intro K. injection K as K. lia.
  - intros w W. apply aid_eqb_neq. apply In_nth_error in W as (i & W).
    assert (Q : (i < j)%nat). { assert (X : (i < length (firstn j l))%nat) by (apply nth_error_Some; rewrite W; discriminate). rewrite firstn_length in X. lia. }
    assert (X : nth_error l i = Some w).
    { rewrite <- (firstn_skipn j l), nth_error_app1 by (rewrite firstn_length; lia). exact W. }
    rewrite (proj1 (NU _ w X)). intro K. injection K as K. lia.
Qed.

Theorem solo_rows n q0 log q : pristine q0 -> c_class (q_cfg q0) <> CNull -> c_class (q_cfg q0) <> CResource -> forward (q_cfg q0) ->
  eLt (Fin 0) (q_servers q0) -> q_collect q0 = true -> exec (OActive :: repeat ONext n) q0 = Ok (log, q) ->
  let m := (length (admitted log) + length (turned_away log))%nat in
  let times := map (chain (c_arr (q_cfg q0)) (q_ia q0) (Fin 0)) (seq 0 m) in
  let ps := lplan (q_servers q0) (room q0) (c_srv (q_cfg q0)) (q_is q0) [] times in
  forall j a p, nth_error times j = Some a -> nth_error ps j = Some p ->
  exists r, rows_of (q_data q) (c_idx (q_cfg q0), Z.of_nat j) = [r] /\ r_arr r = a /\ row_planned (q_now q) r p.
Proof.
  intros P N NR F S0 CO H m times ps j a p HA HP. assert (S1 := eLt_le _ _ S0).
  destruct (exec_all _ _ _ _ P N NR F S0 H) as (NU & LP & UN). assert (OR := undelayed_orderly _ UN).
  destruct (visits_ids log) as (V1 & V2).
  assert (LM : length (visits log) = m).
  { unfold m. rewrite <- V1, <- V2, !map_length. clear. induction (visits log) as [|v l IH]; [reflexivity|]. cbn. destruct (v_in v); cbn; lia. }
  assert (TI : times = map v_arr (visits log)).
  { unfold times. rewrite <- LM. clear -NU. apply list_ext. intro i. rewrite !nth_error_map.
    destruct (nth_error (visits log) i) as [v|] eqn:V; cbn.
    - assert (X : (i < length (visits log))%nat) by (apply nth_error_Some; rewrite V; discriminate).
      rewrite (nth_error_nth' _ 0%nat) by (rewrite seq_length; exact X). rewrite seq_nth by exact X. cbn. f_equal. symmetry. apply (NU i v V).
    - apply nth_error_None in V. assert (X : nth_error (seq 0 (length (visits log))) i = None) by (apply nth_error_None; rewrite seq_length; exact V). rewrite X. reflexivity. }
  unfold ps in HP. rewrite TI in HA, HP. rewrite nth_error_map in HA. destruct (nth_error (visits log) j) as [v|] eqn:V; [|discriminate]. injection HA as <-.
  assert (KD : Forall keeps_data (OActive :: repeat ONext n)).
  { constructor; [exact Logic.I|]. apply Forall_forall. intros o O. apply repeat_spec in O. subst o. exact Logic.I. }
  assert (R := rows_visits _ _ _ _ (c_idx (q_cfg q0), Z.of_nat j) P N NR F S1 CO H OR KD).
  rewrite (visits_of_numbered _ _ _ _ _ NU V) in R. cbn [map] in R. apply map_eq_cons in R as (rw & rs & ER & R1 & R2). destruct rs; [|discriminate].
  exists rw. split; [exact ER|]. unfold row_times, visit_times in R1. injection R1 as A1 A2 A3. split; [exact A1|].
  assert (X : on_lplan (q_now q) v p).
  { clear -LP V HP. revert j V HP. induction LP as [|w x A B H _ IH]; intros [|j] V HP; cbn in *; try discriminate; [injection V as <-; injection HP as <-; exact H|]. exact (IH j V HP). }
  destruct p as [[s e]|]; cbn [on_lplan row_planned] in *.
  - destruct X as (_ & X1 & X2). cbn [fst snd] in *. unfold due. rewrite A2, A3. destruct (v_srv v), (v_dep v); cbn [or_zero]; auto.
  - destruct (exec_start _ _ _ _ P N NR F S1 H OR) as (G & L & _). assert (VO := ln_ok _ _ L v (nth_error_In _ _ V)).
    destruct (v_srv v) as [s|] eqn:VS; [destruct (vo_srv _ _ VO s VS); congruence|].
    destruct (v_dep v) as [e|] eqn:VD; [destruct (vo_dep _ _ VO e VD) as (s & Y & _); congruence|]. auto.
Qed.
