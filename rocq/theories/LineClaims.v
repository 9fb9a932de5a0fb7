(** * LineClaims: the recursion, along a history of calls *)
From Coq Require Import List ZArith QArith Lia Bool Permutation Arith.
From Verif Require Import Base Heap HeapProofs Queue QueueEffects QueueEvents QueueSteps QueueInv SpecQueue QueueFlow QueueHist QueueData QueueRows QueueClaims1 SpecLine LineSteps LineProofs.
Import ListNotations.
Open Scope Z_scope.

(** ** The states that come up *)

Record good (q : queue) : Prop := mkGood {
  gd_null : c_class (q_cfg q) <> CNull; gd_res : c_class (q_cfg q) <> CResource;
  gd_fwd : forward (q_cfg q); gd_srv : eLe (Fin 0) (q_servers q);
  gd_inv : qinv q; gd_winv : winv q; gd_cinv : cinv q; gd_tinv : tinv q; gd_dinv : dinv q
}.

Lemma step_run_op o q r q' : step o q = Ok (r, q') -> run_op o q = Ok q'.
Proof.
  intro H. destruct o; cbn [step] in H; try (mbind H; injection H as <- <-; exact E). cbn [run_op]. rewrite H. reflexivity.
Qed.

Lemma orderly_parts q o : orderly q o -> no_clear o /\ fresh q o /\ no_past q o /\ never_lowers q o.
Proof. destruct o; cbn; tauto. Qed.

Lemma good_step o q r q' : good q -> orderly q o -> step o q = Ok (r, q') ->
  good q' /\ eLe (q_now q) (q_now q') /\ q_servers q' = q_servers q /\ q_cfg q' = q_cfg q.
Proof.
  intros [G1 G2 G3 G4 IV W C T D] O H. assert (R := step_run_op _ _ _ _ H). destruct (orderly_parts _ _ O) as (O1 & O2 & O3 & O4).
  destruct (step_turn _ _ _ _ G1 G2 IV W C O H) as (_ & SV & CF).
  destruct (tinv_op _ _ _ G3 IV T O3 R) as (T' & NOW). destruct (cinv_op _ _ _ IV G1 G2 O4 G4 C R) as (C' & _).
  split; [|auto]. split; try (rewrite CF; assumption); [rewrite SV; exact G4| | |exact C'|exact T'|].
  - eapply qinv_op; eassumption.
  - eapply winv_op; eassumption.
  - eapply dinv_op; eassumption.
Qed.

Lemma good_start q : pristine q -> c_class (q_cfg q) <> CNull -> c_class (q_cfg q) <> CResource -> forward (q_cfg q) ->
  eLe (Fin 0) (q_servers q) -> good q.
Proof.
  intros P N NR F S0. apply pristine_facts in P as [I W A D L O NS DP NA B].
  split; try assumption.
  - unfold cinv. rewrite D. exact S0.
  - split; intros a X; [rewrite A in X|rewrite D in X]; destruct X.
  - split; unfold held, scheduled, in_service, waiting; rewrite A, D, L; cbn; [constructor|intros ? []].
Qed.

Lemma lined_start q : pristine q -> lined q [].
Proof.
  intro P. apply pristine_facts in P as [I W A D L O NS DP NA B].
  split.
  - unfold waiting. rewrite L. reflexivity.
  - unfold in_service. rewrite D. constructor.
  - exists [], []. split; [reflexivity|]. split; intros ? [].
  - intros ? [].
  - intros pre v post E. destruct pre; discriminate.
  - intros pre v post E. destruct pre; discriminate.
  - intros pre v post E. destruct pre; discriminate.
Qed.

Lemma lined_good o q r q' l : good q -> orderly q o -> step o q = Ok (r, q') -> lined q l -> lined q' (watch l (o, q, r, q')).
Proof.
  intros G O H L. destruct (good_step _ _ _ _ G O H) as (_ & NOW & _). destruct G.
  apply lined_step; try assumption. apply gd_dinv0.
Qed.

(** ** Histories *)

Definition watched (l : list visit) (log : list entry) : list visit := fold_left watch log l.

Lemma exec_lined ops : forall q log q' l, good q -> lined q l -> exec ops q = Ok (log, q') -> all_calls orderly log ->
  good q' /\ lined q' (watched l log) /\ q_servers q' = q_servers q /\ q_cfg q' = q_cfg q /\ eLe (q_now q) (q_now q').
Proof.
  induction ops as [|o ops IH]; intros q log q' l G L H OK.
  - cbn in H. injection H as <- <-. split; [exact G|]. split; [exact L|]. split; [reflexivity|]. split; [reflexivity|apply eLe_refl].
  - apply exec_cons in H as (r & q1 & log1 & S1 & E & ->). inversion OK as [|? ? O1 O2]; subst.
    destruct (good_step _ _ _ _ G O1 S1) as (G1 & N1 & V1 & C1). assert (L1 := lined_good _ _ _ _ _ G O1 S1 L).
    destruct (IH _ _ _ _ G1 L1 E O2) as (G2 & L2 & V2 & C2 & N2).
    split; [exact G2|]. split; [exact L2|]. split; [congruence|]. split; [congruence|]. eapply eLe_trans; eassumption.
Qed.

(** ** First free times *)

Lemma after_many l s : after (ends l) s <= many (out_after s) l.
Proof.
  unfold after, ends. induction l as [|v l IH]; [cbn; lia|]. rewrite many_cons. cbn [filter]. unfold out_after, until in *. destruct (v_in v); cbn [andb].
  - cbn [map filter]. unfold zlen in *. destruct (v_dep v) as [e|]; [destruct (eltb s e)|destruct (eltb s Inf)]; cbn [length]; lia.
  - lia.
Qed.

Lemma from_after l s t : eLt t s -> many (out_from s) l <= after (ends l) t.
Proof.
  intro T. unfold after, ends. induction l as [|v l IH]; [cbn; lia|]. rewrite many_cons. cbn [filter]. unfold out_from, until in *. destruct (v_in v); cbn [andb].
  - cbn [map filter]. unfold zlen in *. destruct (v_dep v) as [e|].
    + destruct (eleb s e) eqn:E; [|destruct (eltb t e); cbn [length]; lia].
      apply eleb_le in E. assert (X : eltb t e = true) by (apply eltb_lt; eapply eLt_le_trans; eassumption). rewrite X. cbn [length]. lia.
    + assert (X : eltb t Inf = true) by (apply eltb_lt; eapply eLt_le_trans; [exact T|apply eLe_Inf]). rewrite X. cbn [length]. lia.
  - exact IH.
Qed.

Lemma from_many l s : from (ends l) s = many (out_from s) l.
Proof.
  unfold from, ends. induction l as [|v l IH]; [reflexivity|]. rewrite many_cons, <- IH. cbn [filter]. unfold out_from, until in *. destruct (v_in v); cbn [andb].
  - cbn [map filter]. unfold zlen. destruct (v_dep v) as [e|].
    + destruct (eleb s e); cbn [length]; lia.
    + assert (X : eleb s Inf = true) by (apply eleb_le; apply eLe_Inf). rewrite X. cbn [length]. lia.
  - lia.
Qed.

Lemma after_served l t : eLt t Inf -> many v_served l <= after (ends l) t.
Proof.
  intro T. eapply Z.le_trans; [|apply (from_after l Inf t T)]. apply many_sub. intros v _ H. unfold v_served in H. unfold out_from.
  destruct (v_in v); [|discriminate]. destruct (v_dep v); [rewrite andb_false_r in H; discriminate|reflexivity].
Qed.

Lemma after_inf l : after l Inf = 0.
Proof. unfold after. induction l as [|e l IH]; [reflexivity|]. cbn. exact IH. Qed.

Lemma lined_first q l pre v post : good q -> eLt (Fin 0) (q_servers q) -> lined q l -> l = pre ++ v :: post -> v_in v = true ->
  first_free (q_servers q) (ends pre) (v_arr v) (since v).
Proof.
  intros G POS L E IN. assert (IL : In v l) by (rewrite E; apply in_or_app; right; left; reflexivity).
  unfold first_free, since. destruct (v_srv v) as [s|] eqn:SV.
  - destruct (vo_srv _ _ (ln_ok _ _ L v IL) s SV) as (_ & A & B). destruct (ln_turn _ _ L _ _ _ E s SV) as (T1 & T2).
    split; [exact A|]. split.
    + assert (X := after_many pre s). elia.
    + intros t AT TS. assert (Y : eLt (v_arr v) s) by (apply eLt_not_le; intro Z; apply eLt_not_le in TS; apply TS; eapply eLe_trans; eassumption).
      specialize (T2 Y). assert (X := from_after pre s t TS). elia.
  - split; [apply eLe_Inf|]. split; [rewrite after_inf; exact POS|]. intros t AT TS.
    assert (WV : v_waits v = true) by (unfold v_waits; rewrite IN, SV; reflexivity).
    assert (NE : q_line q <> []).
    { intro Z. assert (X := ln_line _ _ L). unfold waiting in X. rewrite Z in X. cbn in X.
      assert (Y : In (v_id v) (map v_id (filter v_waits l))) by (apply in_map, filter_In; auto). rewrite <- X in Y. destruct Y. }
    assert (W := gd_winv _ G NE). assert (X := after_served pre t TS).
    assert (Y : many v_served pre = na (q_dep q)).
    { assert (P := Permutation_length (ln_serv _ _ L)). unfold ids in P. rewrite !map_length in P.
      assert (Z : many v_served l = na (q_dep q)) by (unfold many, zlen, na; change agents_of with agents_in; unfold in_service in P; lia).
      rewrite <- Z. rewrite E, many_app. rewrite (many_none v_served (v :: post)); [lia|].
      destruct (ln_split _ _ L) as (A & B & EL & HA & HB).
      assert (K : forall w, In w (v :: post) -> In w B).
      { assert (LE : (length A <= length pre)%nat).
        { destruct (le_lt_dec (length A) (length pre)) as [|Q]; [assumption|exfalso].
          assert (K : nth_error l (length pre) = Some v) by (rewrite E, nth_error_app2, Nat.sub_diag by lia; reflexivity).
          rewrite EL, nth_error_app1 in K by exact Q. apply nth_error_In in K. rewrite (HA v K) in WV. discriminate. }
        intros w Hw. assert (K : v :: post = skipn (length pre - length A) B).
        { assert (K : skipn (length pre) l = v :: post) by (rewrite E, skipn_app, skipn_all, Nat.sub_diag; reflexivity).
          rewrite EL, skipn_app in K. rewrite (skipn_all2 A) in K by exact LE. symmetry. exact K. }
        rewrite K in Hw. rewrite <- (firstn_skipn (length pre - length A) B). apply in_or_app. right. exact Hw. }
      intros w Hw. unfold v_served. rewrite (HB w (K w Hw)). cbn. rewrite andb_false_r. reflexivity. }
    elia.
Qed.

Lemma nth_pre {A} (l : list A) n v : nth_error l n = Some v -> l = firstn n l ++ v :: skipn (S n) l.
Proof.
  revert l. induction n as [|n IH]; intros [|x l] H; cbn in *; try discriminate; [injection H as <-; reflexivity|]. f_equal. apply IH. exact H.
Qed.

Lemma exec_start ops q0 log q : pristine q0 -> c_class (q_cfg q0) <> CNull -> c_class (q_cfg q0) <> CResource -> forward (q_cfg q0) ->
  eLe (Fin 0) (q_servers q0) -> exec ops q0 = Ok (log, q) -> all_calls orderly log ->
  good q /\ lined q (visits log) /\ q_servers q = q_servers q0 /\ q_cfg q = q_cfg q0.
Proof.
  intros P N NR F S0 H OK. assert (G := good_start _ P N NR F S0). assert (L := lined_start _ P).
  destruct (exec_lined _ _ _ _ _ G L H OK) as (G' & L' & A & B & _). auto.
Qed.

Theorem recursion ops q0 log q n v : pristine q0 -> c_class (q_cfg q0) <> CNull -> c_class (q_cfg q0) <> CResource -> forward (q_cfg q0) ->
  eLt (Fin 0) (q_servers q0) -> exec ops q0 = Ok (log, q) -> all_calls orderly log ->
  nth_error (visits log) n = Some v -> v_in v = true ->
  first_free (q_servers q0) (ends (firstn n (visits log))) (v_arr v) (since v).
Proof.
  intros P N NR F S0 H OK V IN. assert (S1 := eLt_le _ _ S0). destruct (exec_start _ _ _ _ P N NR F S1 H OK) as (G & L & SV & _).
  rewrite <- SV in *. eapply lined_first; [exact G|exact S0|exact L|exact (nth_pre _ _ _ V)|exact IN].
Qed.

Theorem losses ops q0 log q n v : pristine q0 -> c_class (q_cfg q0) <> CNull -> c_class (q_cfg q0) <> CResource -> forward (q_cfg q0) ->
  eLe (Fin 0) (q_servers q0) -> exec ops q0 = Ok (log, q) -> all_calls orderly log ->
  nth_error (visits log) n = Some v ->
  if v_in v then eLt (Fin (after (ends (firstn n (visits log))) (v_arr v))) (room q0)
  else eLe (room q0) (Fin (from (ends (firstn n (visits log))) (v_arr v))).
Proof.
  intros P N NR F S0 H OK V. destruct (exec_start _ _ _ _ P N NR F S0 H OK) as (G & L & SV & CF).
  assert (X := ln_cap _ _ L _ _ _ (nth_pre _ _ _ V)). rewrite (room_same _ _ SV CF) in X. unfold cap_ok in X.
  destruct (v_in v).
  - assert (Y := after_many (firstn n (visits log)) (v_arr v)). elia.
  - rewrite from_many. exact X.
Qed.

(** ** The observer's list, and what the calls were *)

Lemma watch_ids f l e : (forall v w, v_in v = v_in w -> f v = f w) ->
  map v_id (filter f (watch l e)) = map v_id (filter f (l ++ come e)).
Proof.
  intro F. unfold watch. induction (l ++ come e) as [|v m IH]; [reflexivity|].
  assert (X : v_in (start e (close e v)) = v_in v /\ v_id (start e (close e v)) = v_id v).
  { destruct e as [[[o q] r] q']. unfold start, close. destruct (v_served v && _); cbn; [destruct (v_waits _ && _)|destruct (v_waits v && _)]; auto. }
  destruct X as (X1 & X2). cbn [map filter]. rewrite (F _ _ X1). destruct (f v); [|exact IH]. cbn [map]. rewrite X2. f_equal. exact IH.
Qed.

Lemma come_in e : map v_id (filter v_in (come e)) = admitted1 e /\ map v_id (filter (fun v => negb (v_in v)) (come e)) = turned_away1 e.
Proof.
  destruct e as [[[o q] r] q']. unfold come. rewrite !filter_app, !map_app. split.
  - rewrite filter_all by (intros x X; apply in_map_iff in X as (i & <- & _); reflexivity).
    rewrite filter_none by (intros x X; apply in_map_iff in X as (i & <- & _); reflexivity). rewrite app_nil_r, map_map. apply map_id.
  - rewrite filter_none by (intros x X; apply in_map_iff in X as (i & <- & _); reflexivity).
    rewrite filter_all by (intros x X; apply in_map_iff in X as (i & <- & _); reflexivity). cbn [map app]. rewrite map_map. apply map_id.
Qed.

Lemma watched_ids log : forall l,
  map v_id (filter v_in (watched l log)) = map v_id (filter v_in l) ++ admitted log /\
  map v_id (filter (fun v => negb (v_in v)) (watched l log)) = map v_id (filter (fun v => negb (v_in v)) l) ++ turned_away log.
Proof.
  induction log as [|e log IH]; intro l; [cbn; rewrite !app_nil_r; auto|].
  cbn [watched fold_left]. destruct (IH (watch l e)) as (A & B). unfold watched in A, B. rewrite A, B.
  rewrite (watch_ids v_in) by auto. rewrite (watch_ids (fun v => negb (v_in v))) by (intros v w ->; reflexivity).
  destruct (come_in e) as (C & D). rewrite !filter_app, !map_app, C, D. unfold admitted, turned_away. cbn [flat_map]. rewrite !app_assoc. auto.
Qed.

Theorem visits_ids log :
  map v_id (filter v_in (visits log)) = admitted log /\ map v_id (filter (fun v => negb (v_in v)) (visits log)) = turned_away log.
Proof. exact (watched_ids log []). Qed.

(** ** Times of service *)

Definition started (v : visit) : bool := negb (never (v_srv v)).
Definition count (f : visit -> bool) (l : list visit) : nat := length (filter f l).

Lemma count_app f l m : count f (l ++ m) = (count f l + count f m)%nat.
Proof. unfold count. rewrite filter_app, app_length. reflexivity. Qed.

Definition draw_ok (q : queue) (d : ext) (v : visit) : Prop :=
  match v_dep v with
  | Some e => e = d
  | None => exists b, In b (in_service q) /\ ag_id b = v_id v /\ ag_time b = d
  end.

Record timed (k0 : nat) (q : queue) (l : list visit) : Prop := mkTimed {
  tm_is : q_is q = (k0 + count started l)%nat;
  tm_draw : forall pre v post s, l = pre ++ v :: post -> v_srv v = Some s ->
              draw_ok q (c_srv (q_cfg q) (k0 + count v_in pre)%nat s) v
}.

Inductive shape (q : queue) (l : list visit) (q' : queue) (l' : list visit) : Prop :=
| h_same : Permutation (in_service q') (in_service q) -> q_is q' = q_is q -> 
    (l' = l \/ exists v, l' = l ++ [v] /\ v_srv v = None) -> shape q l q' l'
| h_serve b v : Permutation (in_service q') (b :: in_service q) -> q_is q' = S (q_is q) -> ag_time b = c_srv (q_cfg q) (q_is q) (q_now q') ->
    l' = l ++ [v] -> v_id v = ag_id b -> v_srv v = Some (q_now q') -> v_dep v = None ->
    (forall w, In w l -> v_in w = started w) -> shape q l q' l'
| h_leave a o r : Permutation (in_service q) (a :: in_service q') -> q_is q' = q_is q -> ag_time a = q_now q' ->
    departed1 (o, q, r, q') = [ag_id a] ->
    l' = map (close (o, q, r, q')) l -> shape q l q' l'
| h_next a b rest A w w' B o r : Permutation (in_service q) (a :: rest) -> Permutation (in_service q') (b :: rest) ->
    q_is q' = S (q_is q) -> ag_time a = q_now q' -> ag_time b = c_srv (q_cfg q) (q_is q) (q_now q') ->
    departed1 (o, q, r, q') = [ag_id a] ->
    l = A ++ w :: B -> l' = map (close (o, q, r, q')) A ++ w' :: B ->
    v_id w' = ag_id b -> v_srv w' = Some (q_now q') -> v_dep w' = None -> v_srv w = None ->
    (forall x, In x A -> v_in x = started x) -> (forall x, In x B -> v_srv x = None) -> shape q l q' l'.

Lemma in_started q l v : lined q l -> In v l -> v_waits v = false -> v_in v = started v.
Proof.
  intros L V H. unfold v_waits in H. unfold started. destruct (v_srv v) as [s|] eqn:E; cbn in *.
  - apply (vo_srv _ _ (ln_ok _ _ L v V) s E).
  - rewrite andb_true_r in H. exact H.
Qed.

Lemma watch_shape o q r q' l : good q -> undelayed q o -> step o q = Ok (r, q') -> lined q l -> shape q l q' (watch l (o, q, r, q')).
Proof.
  intros G UN H L. assert (OK : orderly q o) by (destruct o; try exact UN; destruct UN).
  destruct G as [N NR _ _ IV W C _ (ND & _)].
  destruct (step_turn _ _ _ _ N NR IV W C OK H) as (T & SV & CF).
  destruct (held_split _ ND) as (S1 & S2 & N1 & N2 & N3).
  assert (WI : forall v, In v l -> v_waits v = true -> In (v_id v) (ids (waiting q))).
  { intros v V X. rewrite (ln_line _ _ L). apply in_map. apply filter_In. auto. }
  destruct T as [D A TU LI NW PM UD|i D A TU LI DE IS CAP|i D A TU SC LI DE IS CAP FULL|i b D A TU SC IB TB PM L' LQ IS CAP FREE|a D A TU PM TA LQ L' IS|a b b' rest D A TU PM TA LQ IB TB PM' IS].
  - destruct (UD UN) as (PM' & IS). apply h_same; [exact PM'|exact IS|]. left.
    unfold watch. assert (X : come (o, q, r, q') = []) by (unfold come; rewrite A, TU; reflexivity). rewrite X, app_nil_r. apply map_id_in.
    intros v V. rewrite close_same by (left; exact D). apply start_same. right. apply began_sub. intros j J. apply (Permutation_in j PM J).
  - apply h_same; [unfold in_service; rewrite DE; reflexivity|exact IS|]. right. exists (mkVisit i (q_now q') false None None). split; [|reflexivity].
    unfold watch. assert (X : come (o, q, r, q') = [mkVisit i (q_now q') false None None]) by (unfold come; rewrite A, TU; reflexivity). rewrite X. apply map_id_in.
    intros w _. rewrite close_same by (left; exact D). apply start_same. right. apply began_sub. unfold in_service. rewrite DE. auto.
  - apply h_same; [unfold in_service; rewrite DE; reflexivity|exact IS|]. right. exists (mkVisit i (q_now q') true None None). split; [|reflexivity].
    unfold watch. assert (X : come (o, q, r, q') = [mkVisit i (q_now q') true None None]) by (unfold come; rewrite A, TU; reflexivity). rewrite X. apply map_id_in.
    intros w _. rewrite close_same by (left; exact D). apply start_same. right. apply began_sub. unfold in_service. rewrite DE. auto.
  - assert (NOW0 : forall w, In w l -> v_waits w = false).
    { intros w Hw. destruct (v_waits w) eqn:X; [|reflexivity]. exfalso. assert (Y := WI w Hw X). unfold waiting in Y. rewrite LQ in Y. destruct Y. }
    apply (h_serve _ _ _ _ b (mkVisit i (q_now q') true (Some (q_now q')) None)); try assumption; try reflexivity; [|cbn; auto|].
    + unfold watch. assert (X : come (o, q, r, q') = [mkVisit i (q_now q') true None None]) by (unfold come; rewrite A, TU; reflexivity).
      rewrite X, map_app. f_equal.
      * apply map_id_in. intros w Hw. rewrite close_same by (left; exact D). apply start_same. left. apply NOW0. exact Hw.
      * cbn [map]. rewrite close_same by (left; exact D). unfold start.
        assert (B : began q q' i = true).
        { apply began_true. split; [rewrite (ids_perm_iff _ _ PM); left; exact IB|apply (S1 i SC)]. }
        unfold v_waits. cbn [v_id v_in v_srv never andb v_arr v_dep]. rewrite B. reflexivity.
    + intros w Hw. apply (in_started q l); auto.
  - assert (NOW0 : forall w, In w l -> v_waits w = false).
    { intros w Hw. destruct (v_waits w) eqn:X; [|reflexivity]. exfalso. assert (Y := WI w Hw X). unfold waiting in Y. rewrite LQ in Y. destruct Y. }
    apply (h_leave _ _ _ _ a o r); try assumption.
    unfold watch. assert (X : come (o, q, r, q') = []) by (unfold come; rewrite A, TU; reflexivity). rewrite X, app_nil_r.
    apply map_ext_in. intros w Hw. apply start_same. left. rewrite close_waits. apply NOW0. exact Hw.
  - destruct (ln_split _ _ L) as (A0 & B0 & E0 & HA & HB).
    assert (LW : filter v_waits l = filter v_waits B0).
    { rewrite E0, filter_app, (filter_none v_waits A0) by exact HA. reflexivity. }
    assert (SPL : exists A1 w B, l = A1 ++ w :: B /\ v_waits w = true /\ v_id w = ag_id b /\ (forall v, In v A1 -> v_waits v = false) /\ (forall v, In v B -> v_srv v = None) /\
                   map v_id (filter v_waits B) = ids (waiting q')).
    { assert (X := ln_line _ _ L). rewrite LW in X. unfold waiting in X. rewrite LQ in X. cbn [ids map] in X.
      revert A0 E0 HA HB LW X. induction B0 as [|w B0 IH]; intros; [discriminate|]. cbn [filter] in X. destruct (v_waits w) eqn:WW.
      - cbn [map] in X. injection X as X1 X2. exists A0, w, B0. split; [exact E0|]. split; [exact WW|]. split; [auto|]. split; [exact HA|].
        split; [intros; apply HB; right; assumption|]. symmetry. exact X2.
      - apply (IH (A0 ++ [w])).
        + rewrite <- app_assoc. exact E0.
        + intros v V. apply in_app_or in V as [V|[<-|[]]]; auto.
        + intros; apply HB; right; assumption.
        + rewrite LW. cbn [filter]. rewrite WW. reflexivity.
        + exact X. }
    clear A0 B0 E0 HA HB LW. destruct SPL as (A1 & w & B & EL & WW & IW & HA & HB & LB).
    assert (NDW : NoDup (map v_id (w :: filter v_waits B))).
    { cbn [map]. rewrite LB, IW. unfold waiting, ids in N3 |- *. rewrite LQ in N3. exact N3. }
    assert (SB : forall v, In v B -> v_served v = false).
    { intros v V. unfold v_served. rewrite (HB v V). cbn. rewrite andb_false_r. reflexivity. }
    assert (WS : v_srv w = None) by (unfold v_waits in WW; destruct (v_srv w); [rewrite andb_false_r in WW; discriminate|reflexivity]).
    assert (SW : v_served w = false) by (unfold v_served; rewrite WS; cbn; rewrite andb_false_r; reflexivity).
    assert (BW : began q q' (v_id w) = true).
    { apply began_true. rewrite IW. split.
      - rewrite (ids_perm_iff _ _ PM'). left. exact IB.
      - intro X. apply (S2 _ X). unfold waiting, ids. rewrite LQ. left; reflexivity. }
    assert (BB : forall v, In v B -> v_waits v = true -> began q q' (v_id v) = false).
    { intros v V X. rewrite <- not_true_iff_false, began_true. intros (Y & Z). rewrite (ids_perm_iff _ _ PM') in Y.
      destruct Y as [Y|Y].
      - cbn [map] in NDW. inversion NDW as [|? ? K _]; subst. apply K. rewrite IW. cbn in Y. rewrite <- IB, Y. apply in_map. apply filter_In. auto.
      - apply Z. rewrite (ids_perm_iff _ _ PM). right. exact Y. }
    assert (WL : In w l) by (rewrite EL; apply in_or_app; right; left; reflexivity).
    apply (h_next _ _ _ _ a b' rest A1 w (mkVisit (v_id w) (v_arr w) (v_in w) (Some (q_now q')) (v_dep w)) B o r); try assumption; try reflexivity.
    + unfold watch. assert (X : come (o, q, r, q') = []) by (unfold come; rewrite A, TU; reflexivity). rewrite X, app_nil_r, EL, map_app. f_equal.
      * apply map_ext_in. intros v V. apply start_same. left. rewrite close_waits. apply HA. exact V.
      * cbn [map]. f_equal.
        -- rewrite close_same by (right; exact SW). unfold start. rewrite WW, BW. reflexivity.
        -- apply map_id_in. intros v V. rewrite close_same by (right; apply SB; exact V). apply start_same.
           destruct (v_waits v) eqn:Y; [right; apply BB; assumption|left; reflexivity].
    + cbn. congruence.
    + cbn. apply (waits_open (q_now q)); [apply L; exact WL|exact WW].
    + intros x X. apply (in_started q l); [exact L|rewrite EL; apply in_or_app; left; exact X|apply HA; exact X].
Qed.

Lemma split_or {A} (x : A) l pre v post : l ++ [x] = pre ++ v :: post -> pre = l /\ v = x \/ exists post', l = pre ++ v :: post'.
Proof.
  intro E. destruct post as [|y post] using rev_ind.
  - left. apply app_inj_tail in E as (-> & ->). auto.
  - right. exists post. rewrite app_comm_cons, app_assoc in E. apply app_inj_tail in E as (-> & _). reflexivity.
Qed.

Lemma count_all f g l : (forall v, In v l -> f v = g v) -> count f l = count g l.
Proof.
  intro H. unfold count. induction l as [|v l IH]; [reflexivity|]. cbn. rewrite (H v (or_introl eq_refl)).
  assert (X : length (filter f l) = length (filter g l)) by (apply IH; intros; apply H; right; assumption). destruct (g v); cbn; congruence.
Qed.

Lemma count_none f l : (forall v, In v l -> f v = false) -> count f l = 0%nat.
Proof. intro H. unfold count. rewrite filter_none by exact H. reflexivity. Qed.

Lemma close_fields o q r q' v : v_id (close (o, q, r, q') v) = v_id v /\ v_in (close (o, q, r, q') v) = v_in v /\ v_srv (close (o, q, r, q') v) = v_srv v.
Proof. unfold close. destruct (v_served v && _); auto. Qed.

Lemma count_close f o q r q' l : (forall v, f (close (o, q, r, q') v) = f v) -> count f (map (close (o, q, r, q')) l) = count f l.
Proof. intro H. unfold count. induction l as [|v l IH]; [reflexivity|]. cbn [map filter]. rewrite H. destruct (f v); cbn [length]; congruence. Qed.

Lemma same_agent l a b : NoDup (ids l) -> In a l -> In b l -> ag_id a = ag_id b -> a = b.
Proof.
  unfold ids. induction l as [|x l IH]; intros ND A B E; [destruct A|]. cbn in ND. inversion ND as [|? ? K ND']; subst.
  destruct A as [->|A], B as [->|B].
  - reflexivity.
  - exfalso. apply K. rewrite E. apply in_map. exact B.
  - exfalso. apply K. rewrite <- E. apply in_map. exact A.
  - apply IH; assumption.
Qed.

Lemma draw_close o q r q' a rest v d : v_in v = true -> started v = true -> NoDup (ids (in_service q)) ->
  Permutation (in_service q) (a :: rest) -> ag_time a = q_now q' -> departed1 (o, q, r, q') = [ag_id a] ->
  draw_ok q d v ->
  match v_dep (close (o, q, r, q') v) with Some e => e = d | None => exists b, In b rest /\ ag_id b = v_id v /\ ag_time b = d end.
Proof.
  intros IN ST ND PM TA D H. rewrite (close_one _ _ _ _ _ _ D). unfold draw_ok, v_served in *. rewrite IN. unfold started in ST. rewrite ST. cbn [andb].
  destruct (v_dep v) as [e|] eqn:E; cbn [never andb]; [rewrite E; exact H|].
  destruct H as (b & Hb & I1 & T1). destruct (aid_eqb (v_id v) (ag_id a)) eqn:X; cbn [v_dep].
  - apply aid_eqb_eq in X. assert (Y : a = b).
    { apply (same_agent (in_service q)); [exact ND| |exact Hb|congruence]. apply (Permutation_in a (Permutation_sym PM)). left; reflexivity. }
    subst b. congruence.
  - rewrite E. exists b. split; [|auto]. apply (Permutation_in b PM) in Hb. destruct Hb as [->|Hb]; [|exact Hb].
    rewrite I1, aid_eqb_refl in X. discriminate.
Qed.

Lemma timed_step k0 o q r q' l : good q -> undelayed q o -> step o q = Ok (r, q') -> lined q l -> timed k0 q l -> timed k0 q' (watch l (o, q, r, q')).
Proof.
  intros G UN H L [TI TD]. assert (OK : orderly q o) by (destruct o; try exact UN; destruct UN).
  destruct (good_step _ _ _ _ G OK H) as (G' & NOW & SV & CF). assert (S0 := watch_shape _ _ _ _ _ G UN H L).
  assert (N2 : NoDup (ids (in_service q))) by (destruct (held_split _ (proj1 (gd_dinv _ G))) as (_ & _ & _ & N2 & _); exact N2).
  assert (SI : forall v s, In v l -> v_srv v = Some s -> v_in v = true) by (intros v s V X; apply (vo_srv _ _ (ln_ok _ _ L v V) s X)).
  destruct S0 as [PM IS E|b v PM IS TB E IV VS VD ALL|a o1 r1 PM IS TA D E|a b rest A w w' B o1 r1 PM PM' IS TA TB D EL E IW WS WD WN ALL HB].
  - assert (K : forall d v, draw_ok q d v -> draw_ok q' d v).
    { intros d v. unfold draw_ok. destruct (v_dep v); [auto|]. intros (b & B1 & B2). exists b. split; [|exact B2]. apply (Permutation_in b (Permutation_sym PM) B1). }
    destruct E as [->|(v & -> & VS)]; split.
    + congruence.
    + intros pre w post s E WS. rewrite CF. apply K. exact (TD pre w post s E WS).
    + rewrite count_app, (count_none started [v]); [rewrite IS, TI; lia|]. intros x [<-|[]]. unfold started. rewrite VS. reflexivity.
    + intros pre w post s E WS. apply split_or in E as [(-> & ->)|(post' & E)]; [congruence|]. rewrite CF. apply K. exact (TD pre w post' s E WS).
  - rewrite E. split.
    + rewrite count_app. assert (X : count started [v] = 1%nat) by (unfold count, started; cbn; rewrite VS; reflexivity). rewrite X, IS, TI. lia.
    + intros pre w post s E1 WS. apply split_or in E1 as [(-> & ->)|(post' & E1)].
      * rewrite VS in WS. injection WS as <-. unfold draw_ok. rewrite VD. exists b. split; [apply (Permutation_in b (Permutation_sym PM)); left; reflexivity|].
        split; [auto|]. rewrite CF, TB, TI. f_equal. f_equal. apply count_all. intros x X. symmetry. apply ALL. exact X.
      * rewrite CF. assert (X := TD pre w post' s E1 WS). unfold draw_ok in *. destruct (v_dep w); [exact X|].
        destruct X as (c & C1 & C2). exists c. split; [|exact C2]. apply (Permutation_in c (Permutation_sym PM)). right. exact C1.
  - rewrite E. split.
    + rewrite count_close; [congruence|]. intro v. unfold started. destruct (close_fields o1 q r1 q' v) as (_ & _ & ->). reflexivity.
    + intros pre' v' post' s E1 VS'.
      apply map_eq_app in E1 as (pre & r2 & -> & <- & E2). apply map_eq_cons in E2 as (v & post & -> & <- & <-).
      destruct (close_fields o1 q r1 q' v) as (F1 & F2 & F3). rewrite F3 in VS'.
      rewrite count_close by (intro x; apply close_fields). rewrite CF.
      assert (V : In v (pre ++ v :: post)) by (apply in_or_app; right; left; reflexivity).
      assert (X := TD pre v post s eq_refl VS').
      assert (ST : started v = true) by (unfold started; rewrite VS'; reflexivity).
      assert (Y := draw_close o1 q r1 q' a (in_service q') v _ (SI v s V VS') ST N2 PM TA D X).
      unfold draw_ok. rewrite F1. exact Y.
  - rewrite E. split.
    + rewrite count_app, count_close by (intro v; unfold started; destruct (close_fields o1 q r1 q' v) as (_ & _ & ->); reflexivity).
      change (w' :: B) with ([w'] ++ B). rewrite count_app. rewrite (count_none started B) by (intros x X; unfold started; rewrite (HB x X); reflexivity).
      assert (X : count started [w'] = 1%nat) by (unfold count, started; cbn; rewrite WS; reflexivity). rewrite X, IS, TI, EL.
      change (w :: B) with ([w] ++ B). rewrite !count_app. rewrite (count_none started B) by (intros x X'; unfold started; rewrite (HB x X'); reflexivity).
      rewrite (count_none started [w]); [lia|]. intros x [<-|[]]. unfold started. rewrite WN. reflexivity.
    + intros pre' v' post' s E1 VS'.
      assert (KEY : (exists pre v post, A = pre ++ v :: post /\ pre' = map (close (o1, q, r1, q')) pre /\ v' = close (o1, q, r1, q') v) \/
                    (pre' = map (close (o1, q, r1, q')) A /\ v' = w') \/ In v' B).
      { clear -E1. revert pre' E1. induction A as [|x A IH]; intros pre' E1; cbn in E1.
        - destruct pre' as [|y pre']; cbn in E1; injection E1 as <- E1; [auto|]. right; right. rewrite E1. apply in_or_app; right; left; reflexivity.
        - destruct pre' as [|y pre']; cbn in E1.
          + injection E1 as <- E1. left. exists [], x, A. auto.
          + injection E1 as <- E1. destruct (IH pre' E1) as [(pre & v & post & -> & -> & ->)|[(-> & ->)|X]]; [|auto|auto].
            left. exists (x :: pre), v, post. auto. }
      destruct KEY as [(pre & v & post & -> & -> & ->)|[(-> & ->)|X]].
      * destruct (close_fields o1 q r1 q' v) as (F1 & F2 & F3). rewrite F3 in VS'.
        rewrite count_close by (intro x; apply close_fields). rewrite CF.
        assert (E3 : l = pre ++ v :: (post ++ w :: B)) by (rewrite EL, <- app_assoc; reflexivity).
        assert (V : In v l) by (rewrite E3; apply in_or_app; right; left; reflexivity).
        assert (X := TD pre v _ s E3 VS').
        assert (ST : started v = true) by (unfold started; rewrite VS'; reflexivity).
        assert (Y := draw_close o1 q r1 q' a rest v _ (SI v s V VS') ST N2 PM TA D X).
        unfold draw_ok. rewrite F1. destruct (v_dep (close (o1, q, r1, q') v)); [exact Y|].
        destruct Y as (c & C1 & C2). exists c. split; [|exact C2]. apply (Permutation_in c (Permutation_sym PM')). right. exact C1.
      * rewrite WS in VS'. injection VS' as <-. unfold draw_ok. rewrite WD. exists b. split; [apply (Permutation_in b (Permutation_sym PM')); left; reflexivity|].
        split; [auto|]. rewrite count_close by (intro x; apply close_fields). rewrite CF, TB, TI. f_equal. f_equal.
        rewrite EL. change (w :: B) with ([w] ++ B). rewrite !count_app. rewrite (count_none started B) by (intros x X'; unfold started; rewrite (HB x X'); reflexivity).
        rewrite (count_none started [w]) by (intros x [<-|[]]; unfold started; rewrite WN; reflexivity).
        rewrite !Nat.add_0_r. apply count_all. intros x X. symmetry. apply ALL. exact X.
      * rewrite (HB v' X) in VS'. discriminate.
Qed.

Lemma exec_timed ops : forall q log q' l k0, good q -> lined q l -> timed k0 q l -> exec ops q = Ok (log, q') -> all_calls undelayed log ->
  timed k0 q' (watched l log).
Proof.
  induction ops as [|o ops IH]; intros q log q' l k0 G L T H OK.
  - cbn in H. injection H as <- <-. exact T.
  - apply exec_cons in H as (r & q1 & log1 & S1 & E & ->). inversion OK as [|? ? O1 O2]; subst.
    assert (OO : orderly q o) by (destruct o; try exact O1; destruct O1).
    destruct (good_step _ _ _ _ G OO S1) as (G1 & _). assert (L1 := lined_good _ _ _ _ _ G OO S1 L).
    assert (T1 := timed_step _ _ _ _ _ _ G O1 S1 L T).
    exact (IH _ _ _ _ _ G1 L1 T1 E O2).
Qed.

Lemma timed_start q : timed (q_is q) q [].
Proof. split; [cbn; lia|]. intros pre v post s E. destruct pre; discriminate. Qed.

Lemma undelayed_orderly log : all_calls undelayed log -> all_calls orderly log.
Proof.
  intro H. induction H as [|[[[o q] r] q'] log H _ IH]; constructor; [|exact IH]. destruct o; try exact H; destruct H.
Qed.

(** The calls of service_f, one per agent let in, in the order in which they
    came. *)
Theorem services ops q0 log q n v s : pristine q0 -> c_class (q_cfg q0) <> CNull -> c_class (q_cfg q0) <> CResource -> forward (q_cfg q0) ->
  eLe (Fin 0) (q_servers q0) -> exec ops q0 = Ok (log, q) -> all_calls undelayed log ->
  nth_error (visits log) n = Some v -> v_srv v = Some s ->
  let d := c_srv (q_cfg q0) (q_is q0 + length (filter v_in (firstn n (visits log))))%nat s in
  match v_dep v with Some e => e = d | None => eLe (q_now q) d end.
Proof.
  intros P N NR F S0 H UN V VS d. assert (OK := undelayed_orderly _ UN).
  destruct (exec_start _ _ _ _ P N NR F S0 H OK) as (G & L & SV & CF).
  assert (T := exec_timed _ _ _ _ _ _ (good_start _ P N NR F S0) (lined_start _ P) (timed_start _) H UN).
  assert (X := tm_draw _ _ _ T _ _ _ s (nth_pre _ _ _ V) VS). rewrite CF in X. change (watched [] log) with (visits log) in X.
  unfold count in X. fold d in X. unfold draw_ok in X. destruct (v_dep v); [exact X|]. destruct X as (b & B1 & _ & <-).
  apply (proj2 (gd_tinv _ G)). exact B1.
Qed.

(** ** The first free time, computed *)

Lemma ext_total a b : eLt a b \/ a = b \/ eLt b a.
Proof. destruct a as [a|], b as [b|]; cbn; auto. destruct (Z.lt_trichotomy a b) as [|[->|]]; auto. Qed.

Lemma first_free_unique c E a s s' : first_free c E a s -> first_free c E a s' -> s = s'.
Proof.
  intros (A1 & A2 & A3) (B1 & B2 & B3). destruct (ext_total s s') as [X|[X|X]]; [|exact X|]; exfalso.
  - assert (Y := B3 s A1 X). apply eLt_not_le in A2. auto.
  - assert (Y := A3 s' B1 X). apply eLt_not_le in B2. auto.
Qed.

Lemma after_mono E s t : eLe s t -> after E t <= after E s.
Proof.
  intro L. unfold after, zlen. induction E as [|e E IH]; [cbn; lia|]. cbn [filter].
  destruct (eltb t e) eqn:X; [|destruct (eltb s e); cbn [length]; lia].
  apply eltb_lt in X. assert (Y : eltb s e = true).
  { apply eltb_lt. apply eLt_not_le. intro Z. apply eLt_not_le in X. apply X. eapply eLe_trans; eassumption. }
  rewrite Y. cbn [length]. lia.
Qed.

Lemma not_lt a b : ~ eLt a b <-> eLe b a.
Proof. rewrite eLt_not_le. destruct (eleb b a) eqn:X; [apply eleb_le in X; tauto|]. assert (Y : ~ eLe b a) by (intro Z; apply eleb_le in Z; congruence). tauto. Qed.

Lemma last_before E t : (forall e, In e E -> eLt t e) \/ exists e, In e E /\ eLe e t /\ forall x, In x E -> eLe x t -> eLe x e.
Proof.
  induction E as [|y E IH]; [left; intros ? []|].
  destruct (eltb t y) eqn:Y; [apply eltb_lt in Y|assert (Y' : eLe y t) by (apply not_lt; intro Z; apply eltb_lt in Z; congruence); clear Y].
  - destruct IH as [IH|(e & H1 & H2 & H3)].
    + left. intros e [<-|H]; auto.
    + right. exists e. split; [right; exact H1|]. split; [exact H2|]. intros x [<-|X] XT; [|auto]. exfalso. apply eLt_not_le in Y. auto.
  - right. destruct IH as [IH|(e & H1 & H2 & H3)].
    + exists y. split; [left; reflexivity|]. split; [exact Y'|]. intros x [<-|X] XT; [apply eLe_refl|]. exfalso. assert (Z := IH x X). apply eLt_not_le in Z. auto.
    + destruct (eltb e y) eqn:Z; [apply eltb_lt in Z|assert (Z' : eLe y e) by (apply not_lt; intro K; apply eltb_lt in K; congruence); clear Z].
      * exists y. split; [left; reflexivity|]. split; [exact Y'|]. intros x [<-|X] XT; [apply eLe_refl|]. eapply eLe_trans; [apply H3; assumption|apply eLt_le; exact Z].
      * exists e. split; [right; exact H1|]. split; [exact H2|]. intros x [<-|X] XT; auto.
Qed.

Lemma after_same E s t : (forall e, In e E -> (eLt s e <-> eLt t e)) -> after E s = after E t.
Proof.
  intro H. unfold after. f_equal. induction E as [|e E IH]; [reflexivity|]. cbn [filter].
  assert (X : eltb s e = eltb t e).
  { destruct (eltb t e) eqn:Y; [apply eltb_lt in Y; apply eltb_lt; apply H; [left; reflexivity|exact Y]|].
    destruct (eltb s e) eqn:Z; [|reflexivity]. exfalso. apply eltb_lt in Z. apply (H e (or_introl eq_refl)) in Z. apply eltb_lt in Z. congruence. }
  rewrite X, IH; [reflexivity|]. intros; apply H; right; assumption.
Qed.

Lemma min_in (l : list ext) : fold_right emin Inf l = Inf \/ In (fold_right emin Inf l) l.
Proof.
  induction l as [|x l IH]; [left; reflexivity|]. cbn [fold_right]. right. destruct IH as [->|IH].
  - left. unfold emin. destruct (eltb _ _) eqn:E; destruct x; cbn in *; try reflexivity; try discriminate.
  - unfold emin. destruct (eltb _ _); [left; reflexivity|right; exact IH] || (destruct (eltb _ _); [right; exact IH|left; reflexivity]).
Qed.

Lemma min_le (l : list ext) x : In x l -> eLe (fold_right emin Inf l) x.
Proof.
  induction l as [|y l IH]; [intros []|]. intros [->|X]; cbn [fold_right].
  - apply emin_le_l.
  - eapply eLe_trans; [apply emin_le_r|apply IH; exact X].
Qed.

Lemma free_time_first c E a : eLt (Fin 0) c -> first_free c E a (free_time c E a).
Proof.
  intro POS. unfold free_time. destruct (eltb (Fin (after E a)) c) eqn:A.
  - apply eltb_lt in A. split; [apply eLe_refl|]. split; [exact A|]. intros t X Y. exfalso. apply eLt_not_le in Y. auto.
  - assert (A' : eLe c (Fin (after E a))) by (apply not_lt; intro Z; apply eltb_lt in Z; congruence). clear A.
    set (G := filter (fun e => eltb (Fin (after E e)) c) E). set (m := fold_right emin Inf G).
    assert (M : eLt (Fin (after E m)) c).
    { destruct (min_in G) as [X|X]; fold m in X; [rewrite X, after_inf; exact POS|]. apply filter_In in X as (_ & X). apply eltb_lt. exact X. }
    split; [|split; [exact M|]].
    + apply not_lt. intro Z. assert (X := after_mono E m a (eLt_le _ _ Z)). apply eLt_not_le in M. apply M. elia.
    + intros t AT TM. apply not_lt. intro B. destruct (last_before E t) as [X|(e & H1 & H2 & H3)].
      * assert (Y : after E t = after E a).
        { apply after_same. intros e He. split; intros _; [|apply X; exact He]. apply eLt_not_le. intro Z. assert (K := X e He). apply eLt_not_le in K. apply K.
          eapply eLe_trans; eassumption. }
        rewrite Y in B. apply eLt_not_le in B. auto.
      * assert (Y : after E e = after E t).
        { apply after_same. intros x Hx. split; intro Z; apply eLt_not_le; intro K; apply eLt_not_le in Z; apply Z.
          - apply H3; assumption.
          - eapply eLe_trans; eassumption. }
        assert (K : In e G) by (apply filter_In; split; [exact H1|]; apply eltb_lt; rewrite Y; exact B).
        assert (Z := min_le G e K). fold m in Z. apply eLt_not_le in TM. apply TM. eapply eLe_trans; eassumption.
Qed.

(** ** The plan *)

Lemma plan_snoc c srv l : forall k E a, plan c srv k E (l ++ [a]) =
  plan c srv k E l ++ [(free_time c (E ++ map snd (plan c srv k E l)) a,
                        srv (k + length l)%nat (free_time c (E ++ map snd (plan c srv k E l)) a))].
Proof.
  induction l as [|x l IH]; intros k E a; cbn [plan app map length snd].
  - rewrite app_nil_r, Nat.add_0_r. reflexivity.
  - cbv zeta. rewrite IH. cbn [map snd app]. rewrite <- app_assoc. cbn [app]. replace (S k + length l)%nat with (k + S (length l))%nat by lia. reflexivity.
Qed.

Definition near (now : ext) (u e : ext) : Prop := u = e \/ u = Inf /\ eLe now e.

Lemma near_after now A P t : Forall2 (near now) A P -> after P t <= after A t /\ (eLt t now -> after A t <= after P t).
Proof.
  induction 1 as [|u e A P H _ (I1 & I2)]; [cbn; lia|]. unfold after, zlen in *. cbn [filter].
  destruct H as [->|(-> & H)].
  - destruct (eltb t e); cbn [length]; split; intros; try specialize (I2 H); lia.
  - split.
    + destruct (eltb t e) eqn:X; [|destruct (eltb t Inf); cbn [length]; lia].
      assert (Y : eltb t Inf = true) by (apply eltb_lt in X; apply eltb_lt; eapply eLt_le_trans; [exact X|apply eLe_Inf]).
      rewrite Y. cbn [length]. lia.
    + intro T. specialize (I2 T). assert (X : eltb t e = true) by (apply eltb_lt; eapply eLt_le_trans; eassumption).
      rewrite X. destruct (eltb t Inf); cbn [length]; lia.
Qed.

Lemma lined_plan q l k0 : good q -> eLt (Fin 0) (q_servers q) -> lined q l -> timed k0 q l ->
  Forall2 (on_plan (q_now q)) (filter v_in l) (plan (q_servers q) (c_srv (q_cfg q)) k0 [] (map v_arr (filter v_in l))).
Proof.
  intros G POS L T. set (now := q_now q). set (c := q_servers q). set (srv := c_srv (q_cfg q)).
  assert (K : forall pre post, l = pre ++ post -> Forall2 (on_plan now) (filter v_in pre) (plan c srv k0 [] (map v_arr (filter v_in pre)))).
  { intro pre. induction pre as [|v pre IH] using rev_ind; intros post E; [constructor|].
    assert (E1 : l = pre ++ v :: post) by (rewrite E, <- app_assoc; reflexivity).
    specialize (IH (v :: post) E1). rewrite filter_app. cbn [filter]. destruct (v_in v) eqn:IN; [|rewrite app_nil_r; exact IH].
    rewrite map_app. cbn [map]. rewrite plan_snoc. cbn [app]. rewrite map_length.
    apply Forall2_app; [exact IH|]. constructor; [|constructor].
    set (PL := plan c srv k0 [] (map v_arr (filter v_in pre))) in *.
    assert (IL : In v l) by (rewrite E1; apply in_or_app; right; left; reflexivity).
    assert (VO := ln_ok _ _ L v IL).
    assert (NR : Forall2 (near now) (ends pre) (map snd PL)).
    { unfold ends. clear -IH. induction IH as [|w p A P (_ & H) _ IH']; cbn [map]; constructor; [|exact IH'].
      unfold near, until. destruct (v_dep w); [left; exact H|right; auto]. }
    assert (FF := lined_first _ _ _ _ _ G POS L E1 IN).
    set (s' := free_time c (map snd PL) (v_arr v)).
    assert (FP : first_free c (map snd PL) (v_arr v) s') by (apply free_time_first; exact POS).
    assert (SRV : match v_srv v with Some s => s = s' | None => eLe now s' end).
    { destruct (v_srv v) as [s|] eqn:VS; unfold since in FF; rewrite VS in FF.
      - destruct (vo_srv _ _ VO s VS) as (_ & AS & SN). apply (first_free_unique c (map snd PL) (v_arr v)); [|exact FP].
        destruct FF as (F1 & F2 & F3). split; [exact F1|]. split.
        + destruct (near_after now _ _ s NR) as (X & _). fold c in F2. elia.
        + intros t T1 T2. assert (TN : eLt t now) by (eapply eLt_le_trans; eassumption).
          destruct (near_after now _ _ t NR) as (_ & X). specialize (X TN). assert (Y := F3 t T1 T2). fold c in Y. elia.
      - apply not_lt. intro X. destruct FF as (_ & _ & F3). destruct FP as (P1 & P2 & _).
        assert (Y : eLt s' Inf) by (eapply eLt_le_trans; [exact X|apply eLe_Inf]). assert (Z := F3 s' P1 Y). fold c in Z.
        destruct (near_after now _ _ s' NR) as (_ & K). specialize (K X). apply eLt_not_le in P2. apply P2. elia. }
    split; cbn [fst snd].
    - exact SRV.
    - destruct (v_srv v) as [s|] eqn:VS.
      + subst s. assert (X := tm_draw _ _ _ T _ _ _ _ E1 VS). fold srv in X. unfold draw_ok, count in X.
        destruct (v_dep v); [exact X|]. destruct X as (b & B1 & _ & <-). apply (proj2 (gd_tinv _ G)). exact B1.
      + destruct (v_dep v) as [e|] eqn:VD.
        * destruct (vo_dep _ _ VO e VD) as (s & X & _). congruence.
        * eapply eLe_trans; [exact SRV|]. apply (proj2 (gd_fwd _ G)). }
  exact (K l [] (eq_sym (app_nil_r l))).
Qed.

Theorem planned ops q0 log q : pristine q0 -> c_class (q_cfg q0) <> CNull -> c_class (q_cfg q0) <> CResource -> forward (q_cfg q0) ->
  eLt (Fin 0) (q_servers q0) -> exec ops q0 = Ok (log, q) -> all_calls undelayed log ->
  Forall2 (on_plan (q_now q)) (filter v_in (visits log))
    (plan (q_servers q0) (c_srv (q_cfg q0)) (q_is q0) [] (map v_arr (filter v_in (visits log)))).
Proof.
  intros P N NR F S0 H UN. assert (OK := undelayed_orderly _ UN). assert (S1 := eLt_le _ _ S0).
  destruct (exec_start _ _ _ _ P N NR F S1 H OK) as (G & L & SV & CF).
  assert (T := exec_timed _ _ _ _ _ _ (good_start _ P N NR F S1) (lined_start _ P) (timed_start _) H UN).
  assert (X := lined_plan _ _ _ G ltac:(rewrite SV; exact S0) L T). rewrite SV, CF in X. exact X.
Qed.
