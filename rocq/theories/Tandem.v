(** * Tandem: stations with one server, in a row *)
From Coq Require Import List ZArith QArith Lia Bool Permutation Arith Sorted.
From Verif Require Import Base Heap HeapProofs PQueue Queue QueueEffects QueueEvents QueueSteps QueueInv SpecQueue QueueFlow QueueHist QueueData QueueRows QueueClaims1 QueueClaims3 SpecLine LineSteps LineProofs LineClaims LineRows LineMore LineSolo LineNet
  Network NetQueue NetInv SpecNet SpecRefine NetSteps NetReach NetFlow NetActive NetClaims1 NetBare NetRefine NetTotal PropsNet2 SpecLittleNet LittleNet SpecLittle SpecTraffic Traffic.
Import ListNotations.
Open Scope Z_scope.

(** ** What the network says about its queues *)

Lemma okt_orderly SP log : all_calls (okt SP) log -> all_calls orderly log /\ Forall keeps_data (calls_of log) /\ (SP -> all_calls undelayed log).
Proof.
  intro A. unfold all_calls in *. split; [|split].
  - eapply Forall_impl; [|exact A]. intros [[[o x] r] y]. unfold okt, okl. tauto.
  - unfold calls_of. induction A as [|[[[o x] r] y] log H _ IH]; constructor; [exact (proj2 (proj1 H))|exact IH].
  - intro X. eapply Forall_impl; [|exact A]. intros [[[o x] r] y] [[B C] D]. specialize (D X). destruct o; try exact B; destruct D.
Qed.

Lemma pristine_own q : pristine q -> c_class (q_cfg q) <> CNull -> q_oarr q = 0 /\ scheduled q = [].
Proof. intros P N. apply pristine_facts in P as [I W A D L O NS DP NA B]. split; [exact O|]. unfold scheduled. rewrite A. reflexivity. Qed.

Theorem traffic n0 n1 n : well_made n0 -> nreach usual n0 n1 -> nreach recording n1 n ->
  exists M logs, StronglySorted in_order M /\ (forall m, In m M -> eLe (m_when m) (nt_t n) /\ follows n (m_from m) (m_to m)) /\
  forall k q1 q, get (nt_queues n1) k = Some q1 -> get (nt_queues n) k = Some q -> pristine q1 -> c_class (q_cfg q1) <> CNull ->
    exists q2, exec (calls_of (logs k)) q1 = Ok (logs k, q2) /\ bare q2 = bare q /\
      all_calls orderly (logs k) /\ Forall keeps_data (calls_of (logs k)) /\ (limitless (nt_queues n1) -> all_calls undelayed (logs k)) /\
      went (logs k) = sent_by k M /\ (q_oarr q = 0 -> came (logs k) = sent_to k M).
Proof.
  intros W R1 R. destruct (tale_reach (limitless (nt_queues n1)) n0 n1 n W R1 ltac:(auto) R) as (_ & M & logs & ST & MO & Q).
  exists M, logs. split; [exact ST|]. split; [exact MO|]. intros k q1 q G1 G P N. destruct (Q _ _ G1 N) as (q' & G' & (q2 & E & A & B) & WE & _ & CA).
  assert (q' = q) by congruence. subst q'. exists q2. destruct (okt_orderly _ _ A) as (A1 & A2 & A3). destruct (pristine_own _ P N) as (O & SC).
  split; [exact E|]. split; [exact B|]. split; [exact A1|]. split; [exact A2|]. split; [exact A3|]. split; [exact WE|].
  intro Z. apply CA; [congruence|exact SC].
Qed.

(** ** One station *)

Lemma came_visits log : came log = map (fun v => (v_id v, v_arr v)) (visits log).
Proof.
  unfold visits. enough (X : forall l, map (fun v => (v_id v, v_arr v)) (fold_left watch log l) = map (fun v => (v_id v, v_arr v)) l ++ came log) by (symmetry; apply (X [])).
  induction log as [|e log IH]; intro l; [cbn; rewrite app_nil_r; reflexivity|].
  cbn [fold_left]. rewrite IH, watch_arr, map_app, <- app_assoc. f_equal. cbn [came flat_map]. f_equal.
  destruct e as [[[o q] r] q']. unfold come. rewrite map_app, !map_map. cbn [v_id v_arr]. rewrite map_app. reflexivity.
Qed.

Lemma all_in q l : c_class (q_cfg q) = CServer -> lined q l -> forall v, In v l -> v_in v = true.
Proof.
  intros C L v IV. apply in_split in IV as (pre & post & E). assert (X := ln_cap _ _ L _ _ _ E). unfold cap_ok in X.
  destruct (v_in v); [reflexivity|]. unfold room in X. rewrite C in X. destruct X.
Qed.

Lemma started_before q l pre v post s : c_class (q_cfg q) = CServer -> q_servers q = Fin 1 -> lined q l -> l = pre ++ v :: post -> v_srv v = Some s ->
  forall w, In w pre -> exists e, v_dep w = Some e.
Proof.
  intros C ONE L E VS w IW. destruct (ln_turn _ _ L _ _ _ E s VS) as (T & _). rewrite ONE in T.
  assert (IL : In w l) by (rewrite E; apply in_or_app; left; exact IW). assert (IN := all_in _ _ C L w IL).
  destruct (v_dep w) as [e|] eqn:D; [eauto|]. exfalso.
  assert (X : 1 <= many (out_after s) pre).
  { apply in_split in IW as (x & y & ->). rewrite many_app, many_cons. unfold out_after at 2. rewrite IN, D. cbn [andb].
    assert (A := many_nonneg (out_after s) x). assert (B := many_nonneg (out_after s) y). lia. }
  cbn in T. lia.
Qed.

(** Those who left are the first ones. *)
Definition first_gone (l : list visit) (W : list (aid * ext)) : Prop :=
  exists A B, l = A ++ B /\ (forall v, In v A -> v_dep v <> None) /\ (forall v, In v B -> v_dep v = None) /\ W = map (fun v => (v_id v, until v)) A.

Lemma later_id e v : v_id (start e (close e v)) = v_id v /\ v_dep (start e (close e v)) = v_dep (close e v).
Proof.
  destruct e as [[[o q] r] q']. unfold start, close. destruct (v_served v && _); cbn [v_waits]; [destruct (v_waits _ && _)|destruct (v_waits v && _)]; auto.
Qed.

Lemma map_same e A : (forall v, In v A -> v_dep (close e v) = v_dep v) ->
  map (fun v => (v_id v, until v)) (map (fun v => start e (close e v)) A) = map (fun v => (v_id v, until v)) A.
Proof.
  intro H. rewrite map_map. apply map_ext_in. intros v IV. destruct (later_id e v) as (X & Y). rewrite X. unfold until. rewrite Y, H by exact IV. reflexivity.
Qed.

Lemma come_open e v : In v (come e) -> v_dep v = None.
Proof. destruct e as [[[o q] r] q']. unfold come. intro H. apply in_app_or in H as [H|H]; apply in_map_iff in H as (i & <- & _); reflexivity. Qed.

Lemma gone_step o q r q' l W : good q -> c_class (q_cfg q) = CServer -> q_servers q = Fin 1 -> lined q l -> orderly q o -> step o q = Ok (r, q') ->
  first_gone l W -> first_gone (watch l (o, q, r, q')) (W ++ went1 (o, q, r, q')).
Proof.
  intros G C ONE L OK ST (A & B & E & DA & DB & WE). set (e := (o, q, r, q')).
  assert (KEEP : forall v, v_dep v <> None -> v_dep (close e v) = v_dep v).
  { intros v D. assert (S : v_served v = false) by (unfold v_served; destruct (v_dep v); [rewrite andb_false_r; reflexivity|congruence]).
    unfold e. rewrite close_same by auto. reflexivity. }
  destruct (step_turn _ _ _ _ (gd_null _ G) (gd_res _ G) (gd_inv _ G) (gd_winv _ G) (gd_cinv _ G) OK ST) as (T & _ & _).
  assert (D : departed1 e = [] \/ exists a rest, departed1 e = [ag_id a] /\ Permutation (in_service q) (a :: rest)).
  { destruct T; eauto. }
  destruct D as [D|(a & rest & D & PS)].
  - exists (map (fun v => start e (close e v)) A), (map (fun v => start e (close e v)) (B ++ come e)). split; [|split; [|split]].
    + unfold watch. rewrite E, <- app_assoc, map_app. reflexivity.
    + intros v IV. apply in_map_iff in IV as (w & <- & IW). destruct (later_id e w) as (_ & ->). rewrite KEEP by auto. auto.
    + intros v IV. apply in_map_iff in IV as (w & <- & IW). destruct (later_id e w) as (_ & ->). unfold e. rewrite close_same by auto.
      apply in_app_or in IW as [IW|IW]; [auto|]. eapply come_open; exact IW.
    + rewrite map_same by (intros; apply KEEP; auto). unfold went1, e in *. rewrite D. cbn [map]. rewrite app_nil_r. exact WE.
  - assert (IS : In (ag_id a) (ids (in_service q))).
    { apply (Permutation_in _ (Permutation_sym (Permutation_map ag_id PS))). left; reflexivity. }
    apply (Permutation_in _ (ln_serv _ _ L)) in IS. apply in_map_iff in IS as (v & VI & IS). apply filter_In in IS as (IV & VS).
    assert (VD : v_dep v = None) by (unfold v_served in VS; destruct (v_dep v); [rewrite andb_false_r in VS; discriminate|reflexivity]).
    assert (SR : exists s, v_srv v = Some s) by (unfold v_served in VS; destruct (v_srv v); [eauto|rewrite andb_false_r in VS; discriminate]).
    destruct SR as (s & SR).
    assert (IB : In v B) by (rewrite E in IV; apply in_app_or in IV as [X|X]; [destruct (DA _ X VD)|exact X]).
    apply in_split in IB as (B1 & B2 & EB).
    assert (NB : B1 = []).
    { destruct B1 as [|w B1]; [reflexivity|]. exfalso. assert (EL : l = (A ++ w :: B1) ++ v :: B2) by (rewrite E, EB, <- app_assoc; reflexivity).
      destruct (started_before _ _ _ _ _ _ C ONE L EL SR w) as (x & X); [apply in_or_app; right; left; reflexivity|].
      assert (Y : v_dep w = None) by (apply DB; rewrite EB; left; reflexivity). congruence. }
    subst B1. cbn [app] in EB. subst B.
    assert (CV : close e v = mkVisit (v_id v) (v_arr v) (v_in v) (v_srv v) (Some (q_now q'))).
    { unfold e. rewrite (close_one _ _ _ _ _ _ D), VS, VI, aid_eqb_refl. reflexivity. }
    assert (C2 : forall w, In w B2 -> v_srv w = None).
    { intros w IW. destruct (v_srv w) as [x|] eqn:X; [|reflexivity]. exfalso. apply in_split in IW as (y & z & EW).
      assert (EL : l = (A ++ v :: y) ++ w :: z) by (rewrite E, EW, <- app_assoc; reflexivity).
      destruct (started_before _ _ _ _ _ _ C ONE L EL X v) as (x' & X'); [apply in_or_app; right; left; reflexivity|]. congruence. }
    exists (map (fun v => start e (close e v)) (A ++ [v])), (map (fun v => start e (close e v)) (B2 ++ come e)). split; [|split; [|split]].
    + unfold watch. rewrite E. rewrite <- map_app. f_equal. rewrite <- !app_assoc. reflexivity.
    + intros x IX. apply in_map_iff in IX as (w & <- & IW). destruct (later_id e w) as (_ & ->).
      apply in_app_or in IW as [IW|[<-|[]]]; [rewrite KEEP by auto; auto|]. rewrite CV. discriminate.
    + intros x IX. apply in_map_iff in IX as (w & <- & IW). destruct (later_id e w) as (_ & ->).
      assert (NS : v_served w = false).
      { apply in_app_or in IW as [IW|IW].
        - unfold v_served. rewrite (C2 _ IW). cbn [never negb]. rewrite andb_false_r. reflexivity.
        - unfold e, come in IW. apply in_app_or in IW as [IW|IW]; apply in_map_iff in IW as (i & <- & _); reflexivity. }
      unfold e. rewrite close_same by auto. apply in_app_or in IW as [IW|IW]; [apply DB; right; exact IW|eapply come_open; exact IW].
    + rewrite map_app, map_app, map_same by (intros; apply KEEP; auto). rewrite WE. f_equal. cbn [map].
      destruct (later_id e v) as (X & Y). rewrite X. unfold until. rewrite Y, CV. cbn [v_dep]. unfold went1, e in *. rewrite D. cbn [map]. rewrite VI. reflexivity.
Qed.

Lemma gone_exec ops : forall q log q' l W, good q -> c_class (q_cfg q) = CServer -> q_servers q = Fin 1 -> lined q l -> first_gone l W ->
  exec ops q = Ok (log, q') -> all_calls orderly log -> first_gone (watched l log) (W ++ went log).
Proof.
  induction ops as [|o ops IH]; intros q log q' l W G C ONE L FG H OK.
  - cbn in H. injection H as <- <-. cbn. rewrite app_nil_r. exact FG.
  - apply exec_cons in H as (r & q1 & log1 & S1 & E & ->). inversion OK as [|? ? O1 O2]; subst.
    destruct (good_step _ _ _ _ G O1 S1) as (G1 & N1 & V1 & C1). assert (L1 := lined_good _ _ _ _ _ G O1 S1 L).
    assert (F1 := gone_step _ _ _ _ _ _ G C ONE L O1 S1 FG).
    assert (X := IH _ _ _ _ _ G1 ltac:(congruence) ltac:(congruence) L1 F1 E O2).
    cbn [went flat_map]. change (went1 (o, q, r, q1)) with (let '(_, _, _, q') := (o, q, r, q1) in map (fun i => (i, q_now q')) (departed1 (o, q, r, q1))) in X.
    rewrite <- app_assoc in X. exact X.
Qed.

Lemma later_le a b t : eLe t a \/ eLe t b -> eLe t (SpecLittle.later a b).
Proof.
  unfold SpecLittle.later. destruct (eltb a b) eqn:E; [apply eltb_lt in E|apply eltb_ge in E]; intros [X|X]; try exact X.
  - eapply eLe_trans; [exact X|apply eLt_le; exact E].
  - eapply eLe_trans; eassumption.
Qed.

Lemma last_in l w : (forall v, In v l -> v_in v = true) -> before (l ++ [w]) = if v_in w then Some w else before l.
Proof.
  intros H. unfold before. rewrite filter_app, map_app. cbn [filter]. destruct (v_in w); cbn [map]; [|rewrite app_nil_r; reflexivity].
  rewrite last_last. reflexivity.
Qed.

(** Where the first agents have gone, and when the others will go. *)
Definition coming (l : list visit) (j : nat) : ext := nth j (map v_arr l) Inf.
Definition begin_at (srv : nat -> ext -> ext) (c : nat -> ext) (j : nat) : ext :=
  match j with O => c O | S i => SpecLittle.later (c j) (leaving srv c i) end.
Lemma leaving_eq srv c j : leaving srv c j = srv j (begin_at srv c j).
Proof. destruct j; reflexivity. Qed.

Lemma coming_nth l j v : nth_error l j = Some v -> coming l j = v_arr v.
Proof. intro H. unfold coming. erewrite nth_error_nth; [reflexivity|]. rewrite nth_error_map, H. reflexivity. Qed.

Lemma firstn_snoc {A} (l : list A) : forall n v, nth_error l n = Some v -> firstn (S n) l = firstn n l ++ [v].
Proof. induction l as [|x l IH]; intros [|n] v H; try discriminate; [injection H as ->; reflexivity|]. cbn [nth_error] in H. apply IH in H. change (x :: firstn (S n) l = x :: firstn n l ++ [v]). f_equal. exact H. Qed.

Lemma station ops q1 log q2 T : pristine q1 -> c_class (q_cfg q1) = CServer -> forward (q_cfg q1) -> q_servers q1 = Fin 1 ->
  exec ops q1 = Ok (log, q2) -> all_calls undelayed log -> (forall b, In b (in_service q2) -> eLe T (ag_time b)) ->
  let srv j := c_srv (q_cfg q1) (q_is q1 + j)%nat in let c := coming (visits log) in
  first_gone (visits log) (went log) /\
  forall j v, nth_error (visits log) j = Some v -> v_in v = true /\ on_plan T v (begin_at srv c j, leaving srv c j).
Proof.
  intros P C F ONE H UN TB srv c. assert (OK := undelayed_orderly _ UN).
  assert (N : c_class (q_cfg q1) <> CNull) by congruence. assert (NR : c_class (q_cfg q1) <> CResource) by congruence.
  assert (S0 : eLe (Fin 0) (q_servers q1)) by (rewrite ONE; cbn; lia).
  destruct (exec_start _ _ _ _ P N NR F S0 H OK) as (G & L & SV & CF). assert (G1 := good_start _ P N NR F S0). assert (L1 := lined_start _ P).
  assert (TM := exec_timed _ _ _ _ _ _ G1 L1 (timed_start _) H UN). change (watched [] log) with (visits log) in TM.
  set (l := visits log) in *. assert (IN := all_in q2 l ltac:(congruence) L).
  split.
  - change l with (watched [] log). change (went log) with ([] ++ went log). eapply gone_exec; try eassumption. exists [], []. repeat split; intros ? [].
  - assert (CNT : forall j, (j <= length l)%nat -> length (filter v_in (firstn j l)) = j).
    { intros j J. rewrite filter_all; [apply firstn_length_le; exact J|]. intros v IV. apply IN. rewrite <- (firstn_skipn j l). apply in_or_app. left; exact IV. }
    assert (DEP : forall j v s, nth_error l j = Some v -> v_srv v = Some s -> match v_dep v with Some e => e = srv j s | None => eLe T (srv j s) end).
    { intros j v s V VS. assert (X := tm_draw _ _ _ TM _ _ _ s (nth_pre _ _ _ V) VS). rewrite CF in X.
      assert (J : (j < length l)%nat) by (apply nth_error_Some; rewrite V; discriminate).
      unfold count in X. rewrite CNT in X by lia. unfold draw_ok in X. unfold srv. destruct (v_dep v); [exact X|]. destruct X as (b & B1 & _ & <-). auto. }
    intro j. induction j as [|j IH]; intros v V; assert (VI := IN v (nth_error_In _ _ V)); split; try exact VI; rewrite leaving_eq.
    + assert (X := lindley _ _ _ _ _ _ P N NR F ONE H OK V VI). cbn [firstn before filter map last] in X.
      assert (BG : begin_at srv c 0 = v_arr v) by (apply coming_nth; exact V). rewrite BG. unfold on_plan. cbn [fst snd].
      unfold since in X. destruct (v_srv v) as [s|] eqn:VS.
      * split; [exact X|]. subst s. exact (DEP _ _ _ V VS).
      * rewrite <- X. split; [apply eLe_Inf|].
        destruct (v_dep v) as [e|] eqn:VD; [destruct (vo_dep _ _ (ln_ok _ _ L v (nth_error_In _ _ V)) e VD) as (s & Y & _); congruence|].
        apply eLe_trans with Inf; [apply eLe_Inf|apply F].
    + assert (J : (S j < length l)%nat) by (apply nth_error_Some; rewrite V; discriminate).
      destruct (nth_error l j) as [w|] eqn:WJ; [|apply nth_error_None in WJ; lia]. destruct (IH w eq_refl) as (WI & PW).
      assert (X := lindley _ _ _ _ _ _ P N NR F ONE H OK V VI).
      assert (FS : firstn (S j) l = firstn j l ++ [w]).
      { exact (firstn_snoc _ _ _ WJ). }
      fold l in X. rewrite FS, last_in, WI in X; [|intros x IX; apply IN; rewrite <- (firstn_skipn j l); apply in_or_app; left; exact IX].
      assert (BG : begin_at srv c (S j) = SpecLittle.later (v_arr v) (leaving srv c j)) by (cbn [begin_at]; unfold c; rewrite (coming_nth _ _ _ V); reflexivity).
      rewrite BG. destruct PW as (P1 & P2). cbn [fst snd] in P2. unfold on_plan. cbn [fst snd].
      destruct (v_srv v) as [s|] eqn:VS.
      * destruct (started_before q2 l _ _ _ s ltac:(congruence) ltac:(congruence) L (nth_pre _ _ _ V) VS w) as (e & WE).
        { rewrite FS. apply in_or_app. right; left; reflexivity. }
        rewrite WE in P2. unfold since, until in X. rewrite VS, WE in X. rewrite P2 in X. split; [exact X|]. rewrite <- X. exact (DEP _ _ _ V VS).
      * assert (TL : eLe T (SpecLittle.later (v_arr v) (leaving srv c j))).
        { unfold since, until in X. rewrite VS in X. destruct (v_dep w) as [e|]; [rewrite <- P2, <- X; apply eLe_Inf|]. apply later_le. right. exact P2. }
        split; [exact TL|].
        destruct (v_dep v) as [e|] eqn:VD; [destruct (vo_dep _ _ (ln_ok _ _ L v (nth_error_In _ _ V)) e VD) as (s & Y & _); congruence|].
        apply eLe_trans with (1 := TL). apply F.
Qed.

(** ** Stations in a row *)

Lemma links n M k k' : (forall m, In m M -> follows n (m_from m) (m_to m)) ->
  (forall e, follows n k e -> e = k') -> (forall j, follows n j k' -> j = k) -> sent_by k M = sent_to k' M.
Proof.
  intros FM A B. unfold sent_by, sent_to. f_equal. induction M as [|m M IH]; [reflexivity|]. cbn [filter].
  assert (X := FM m (or_introl eq_refl)). rewrite IH by (intros; apply FM; right; assumption).
  destruct (Nat.eqb_spec (m_from m) k) as [E|E], (Nat.eqb_spec (m_to m) k') as [E'|E']; try reflexivity.
  - rewrite E in X. apply A in X. congruence.
  - rewrite E' in X. apply B in X. congruence.
Qed.

Lemma leaving_ext srv c c' j : (forall i, (i <= j)%nat -> c i = c' i) -> leaving srv c j = leaving srv c' j.
Proof. induction j as [|j IH]; intro H; cbn [leaving]; rewrite H by lia; [reflexivity|]. rewrite IH; [reflexivity|]. intros; apply H; lia. Qed.
Lemma begin_ext srv c c' j : (forall i, (i <= j)%nat -> c i = c' i) -> begin_at srv c j = begin_at srv c' j.
Proof. destruct j as [|j]; intro H; cbn [begin_at]; rewrite H by lia; [reflexivity|]. erewrite leaving_ext; [reflexivity|]. intros; apply H; lia. Qed.

Lemma pairs_nth (A L : list visit) : map (fun v => (v_id v, v_arr v)) L = map (fun v => (v_id v, until v)) A -> length L = length A /\
  forall j v w, nth_error A j = Some v -> nth_error L j = Some w -> v_id w = v_id v /\ v_arr w = until v.
Proof.
  intro E. split; [apply (f_equal (@length _)) in E; rewrite !map_length in E; exact E|]. intros j v w V Ww.
  apply (f_equal (fun l => nth_error l j)) in E. rewrite !nth_error_map, V, Ww in E. injection E as E1 E2. auto.
Qed.

Theorem tandem n0 n1 n ks : well_made n0 -> nreach usual n0 n1 -> limitless (nt_queues n1) -> nreach recording n1 n ->
  in_a_row n ks -> (forall s, (s < length ks)%nat -> exists q1 q, station_at n1 n ks s q1 q /\
    pristine q1 /\ c_class (q_cfg q1) = CServer /\ q_servers q1 = Fin 1 /\ q_collect q1 = true /\ ((0 < s)%nat -> q_oarr q = 0)) ->
  exists (L : nat -> list visit) (a : nat -> ext), forall srv : nat -> nat -> ext -> ext,
  (forall s q1 q j, station_at n1 n ks s q1 q -> srv s j = c_srv (q_cfg q1) (q_is q1 + j)%nat) ->
  forall s q1 q, station_at n1 n ks s q1 q ->
    (forall i, map row_times (rows_of (q_data q) i) = map visit_times (visits_of i (L s))) /\
    (forall j v, nth_error (L s) j = Some v -> v_in v = true /\ v_arr v = moment srv a s j /\ on_plan (nt_t n) v (begins srv a s j, moment srv a (S s) j)) /\
    ((S s < length ks)%nat -> (length (L (S s)) <= length (L s))%nat /\ forall j v, nth_error (L s) j = Some v ->
      match nth_error (L (S s)) j with Some w => v_id w = v_id v /\ v_dep v = Some (v_arr w) | None => v_dep v = None end).
Proof.
  intros W R1 LM R ROW SP. destruct (traffic _ _ _ W R1 R) as (M & logs & _ & MO & Q).
  assert (RU : nreach usual n0 n).
  { clear - R R1. induction R as [|n c n' R IH OK H]; [exact R1|]. eapply nreach_step; [exact IH|apply OK|exact H]. }
  destruct (ngood_reach _ _ W RU) as [I _].
  set (L := fun s => match nth_error ks s with Some k => visits (logs k) | None => [] end).
  set (a := coming (L 0%nat)). exists L, a. intros srv SRV.
  assert (ST : forall s k, nth_error ks s = Some k ->
    (forall q1 q i, station_at n1 n ks s q1 q -> map row_times (rows_of (q_data q) i) = map visit_times (visits_of i (L s))) /\
    first_gone (L s) (sent_by k M) /\ ((0 < s)%nat -> map (fun v => (v_id v, v_arr v)) (L s) = sent_to k M) /\
    forall j v, nth_error (L s) j = Some v -> v_in v = true /\ on_plan (nt_t n) v (begin_at (srv s) (coming (L s)) j, leaving (srv s) (coming (L s)) j)).
  { intros s k K. destruct (SP s) as (q1 & q & AT & P & C & ONE & CO & OW); [apply nth_error_Some; rewrite K; discriminate|].
    destruct AT as (k0 & K0 & G1 & G). assert (k0 = k) by congruence. subst k0.
    destruct (Q k q1 q G1 G P ltac:(congruence)) as (q2 & E & B & A1 & A2 & A3 & WE & CE). specialize (A3 LM).
    assert (EL : L s = visits (logs k)) by (unfold L; rewrite K; reflexivity). rewrite EL.
    assert (F : forward (q_cfg q1)) by exact (start_forward _ _ _ _ W R1 G1).
    assert (ES : forall j, srv s j = c_srv (q_cfg q1) (q_is q1 + j)%nat) by (intro j; apply (SRV _ _ q); exists k; auto).
    assert (TB : forall b, In b (in_service q2) -> eLe (nt_t n) (ag_time b)).
    { intros b IB. destruct (bare_agents _ _ B) as (_ & X & _).
      assert (IB2 : In (unmark b) (map unmark (in_service q))) by (rewrite <- X; apply in_map; exact IB).
      apply in_map_iff in IB2 as (b' & E' & IB2). assert (ET : ag_time b = ag_time b') by exact (f_equal ag_time (eq_sym E')).
      rewrite ET. apply (qk_pend _ _ _ (ni_q _ I _ _ G)). unfold pend. apply in_or_app. right. apply in_map. exact IB2. }
    destruct (station _ _ _ _ (nt_t n) P C F ONE E A3 TB) as (FG & PL).
    split; [|split; [|split]].
    - intros q1' q' i (k0 & K0' & G1' & G'). assert (k0 = k) by congruence. subst k0. assert (q' = q) by congruence. subst q'.
      assert (Y := rows_visits _ _ _ _ i P ltac:(congruence) ltac:(congruence) F ltac:(rewrite ONE; cbn; lia) CO E A1 A2).
      assert (QD : q_data q = q_data q2) by exact (f_equal q_data (eq_sym B)). rewrite QD. exact Y.
    - rewrite WE in FG. exact FG.
    - intro S1. rewrite <- came_visits. apply CE. auto.
    - intros j v V. destruct (PL j v V) as (X1 & X2). split; [exact X1|].
      assert (LE : forall j c, leaving (srv s) c j = leaving (fun j => c_srv (q_cfg q1) (q_is q1 + j)%nat) c j).
      { clear - ES. intros j c. induction j as [|j IH]; cbn [leaving]; rewrite ES; [reflexivity|]. rewrite IH. reflexivity. }
      rewrite LE. destruct j as [|j]; cbn [begin_at] in *; [exact X2|]. rewrite LE. exact X2. }
  assert (NX : forall s, (S s < length ks)%nat -> exists A B, L s = A ++ B /\ (forall v, In v A -> v_dep v <> None) /\ (forall v, In v B -> v_dep v = None) /\
      map (fun v => (v_id v, v_arr v)) (L (S s)) = map (fun v => (v_id v, until v)) A).
  { intros s SL. destruct (nth_error ks s) as [k|] eqn:K; [|apply nth_error_None in K; lia]. destruct (nth_error ks (S s)) as [k'|] eqn:K'; [|apply nth_error_None in K'; lia].
    destruct (ST _ _ K) as (_ & (A & B & E & DA & DB & WE) & _).
    destruct (ST _ _ K') as (_ & _ & TO & _). specialize (TO ltac:(lia)). destruct (ROW _ _ _ K K') as (F1 & F2).
    exists A, B. split; [exact E|]. split; [exact DA|]. split; [exact DB|]. rewrite TO, <- WE. symmetry. apply (links n); auto. intros m IM. apply (MO m IM). }
  assert (CM : forall s, (s < length ks)%nat -> forall j, (j < length (L s))%nat -> coming (L s) j = moment srv a s j).
  { induction s as [|s IH]; intros SL j J; [reflexivity|]. specialize (IH ltac:(lia)).
    destruct (NX s SL) as (A & B & E & DA & _ & PR). destruct (pairs_nth _ _ PR) as (LN & PN).
    destruct (nth_error (L (S s)) j) as [w|] eqn:JW; [|apply nth_error_None in JW; lia].
    destruct (nth_error A j) as [v|] eqn:JV; [|apply nth_error_None in JV; lia]. destruct (PN _ _ _ JV JW) as (_ & EW).
    rewrite (coming_nth _ _ _ JW), EW. cbn [moment].
    assert (V : nth_error (L s) j = Some v) by (rewrite E, nth_error_app1 by lia; exact JV).
    destruct (nth_error ks s) as [k|] eqn:K; [|apply nth_error_None in K; lia]. destruct (ST _ _ K) as (_ & _ & _ & PL). destruct (PL _ _ V) as (_ & _ & X). cbn [snd] in X.
    unfold until. destruct (v_dep v) eqn:VD; [|destruct (DA v (nth_error_In _ _ JV) VD)]. rewrite X. apply leaving_ext.
    intros i LI. apply IH. rewrite E, app_length. lia. }
  intros s q1 q AT. assert (X := AT). destruct X as (k & K & G1 & G). assert (SL : (s < length ks)%nat) by (apply nth_error_Some; rewrite K; discriminate).
  destruct (ST _ _ K) as (RW & FG & _ & PL). split; [exact (fun i => RW _ _ i AT)|]. split.
  - intros j v V. destruct (PL _ _ V) as (X1 & X2). assert (J : (j < length (L s))%nat) by (apply nth_error_Some; rewrite V; discriminate).
    split; [exact X1|]. split; [rewrite <- (CM s SL j J); symmetry; apply coming_nth; exact V|].
    assert (EXT : forall i, (i <= j)%nat -> coming (L s) i = moment srv a s i) by (intros i LI; apply CM; lia).
    rewrite (begin_ext _ _ _ _ EXT), (leaving_ext _ _ _ _ EXT) in X2. destruct j; exact X2.
  - intro SL'. destruct (NX s SL') as (A & B & E & DA & DB & PR). destruct (pairs_nth _ _ PR) as (LN & PN). split; [rewrite E, app_length; lia|].
    intros j v V. destruct (nth_error (L (S s)) j) as [w|] eqn:JW.
    + assert (J : (j < length A)%nat) by (rewrite <- LN; apply nth_error_Some; rewrite JW; discriminate).
      rewrite E, nth_error_app1 in V by exact J. destruct (PN _ _ _ V JW) as (X1 & X2). split; [exact X1|]. rewrite X2.
      unfold until. destruct (v_dep v) eqn:VD; [reflexivity|destruct (DA v (nth_error_In _ _ V) VD)].
    + apply nth_error_None in JW. rewrite E, nth_error_app2 in V by lia. apply DB. apply nth_error_In in V. exact V.
Qed.

(** ** Any queues *)

Lemma goings_app l l' : goings (l ++ l') = goings l ++ goings l'.
Proof. unfold goings. rewrite filter_app, map_app. reflexivity. Qed.

Lemma goings_same e l : (forall v, In v l -> v_dep (close e v) = v_dep v) -> goings (map (fun v => start e (close e v)) l) = goings l.
Proof.
  induction l as [|v l IH]; intro H; [reflexivity|]. change (v :: l) with ([v] ++ l). rewrite map_app, !goings_app, IH by (intros; apply H; right; assumption). f_equal.
  destruct (later_id e v) as (X & Y). rewrite H in Y by (left; reflexivity). unfold goings. cbn [map filter]. unfold v_left. rewrite Y. destruct (negb (never (v_dep v))); [|reflexivity].
  cbn [map]. unfold until. rewrite X, Y. reflexivity.
Qed.

Lemma goings_come e : goings (map (fun v => start e (close e v)) (come e)) = [].
Proof.
  rewrite goings_same.
  - unfold goings. assert (X : filter v_left (come e) = []); [|rewrite X; reflexivity].
    destruct (filter v_left (come e)) as [|v r] eqn:E; [reflexivity|]. exfalso. assert (IV : In v (filter v_left (come e))) by (rewrite E; left; reflexivity).
    apply filter_In in IV as (IV & LF). apply come_open in IV. unfold v_left in LF. rewrite IV in LF. discriminate.
  - intros v IV. destruct e as [[[o q] r] q']. rewrite close_same; [reflexivity|]. right. unfold come in IV.
    apply in_app_or in IV as [IV|IV]; apply in_map_iff in IV as (i & <- & _); reflexivity.
Qed.

Lemma goings_step o q r q' l W : good q -> lined q l -> orderly q o -> step o q = Ok (r, q') ->
  Permutation W (goings l) -> Permutation (W ++ went1 (o, q, r, q')) (goings (watch l (o, q, r, q'))).
Proof.
  intros G L OK ST P. set (e := (o, q, r, q')).
  destruct (step_turn _ _ _ _ (gd_null _ G) (gd_res _ G) (gd_inv _ G) (gd_winv _ G) (gd_cinv _ G) OK ST) as (T & _ & _).
  assert (D : departed1 e = [] \/ exists a rest, departed1 e = [ag_id a] /\ Permutation (in_service q) (a :: rest)).
  { destruct T; eauto. }
  unfold watch. rewrite map_app, goings_app, goings_come, app_nil_r.
  destruct D as [D|(a & rest & D & PS)].
  - unfold went1, e in *. rewrite D. cbn [map]. rewrite app_nil_r, goings_same; [exact P|]. intros v _. rewrite close_same by auto. reflexivity.
  - assert (N2 : NoDup (ids (in_service q))) by (destruct (held_split _ (proj1 (gd_dinv _ G))) as (_ & _ & _ & N2 & _); exact N2).
    assert (IS : In (ag_id a) (ids (in_service q))).
    { apply (Permutation_in _ (Permutation_sym (Permutation_map ag_id PS))). left; reflexivity. }
    apply (Permutation_in _ (ln_serv _ _ L)) in IS. apply in_map_iff in IS as (v & VI & IS). apply filter_In in IS as (IV & VS).
    apply in_split in IV as (B1 & B2 & EL).
    assert (ND : NoDup (map v_id (filter v_served l))) by exact (Permutation_NoDup (ln_serv _ _ L) N2).
    rewrite EL, filter_app, map_app in ND. cbn [filter] in ND. rewrite VS in ND. cbn [map] in ND.
    assert (NI : forall w, In w (B1 ++ B2) -> v_dep (close e w) = v_dep w).
    { intros w IW. unfold e. rewrite (close_one _ _ _ _ _ _ D). destruct (v_served w && aid_eqb (v_id w) (ag_id a)) eqn:X; [|reflexivity]. exfalso.
      apply andb_true_iff in X as (X1 & X2). apply QueueData.aid_eqb_eq in X2. apply NoDup_remove_2 in ND. apply ND. rewrite VI, <- X2.
      apply in_app_or in IW as [IW|IW]; apply in_or_app; [left|right]; apply in_map; apply filter_In; auto. }
    assert (VD : v_dep v = None) by (unfold v_served in VS; destruct (v_dep v); [rewrite andb_false_r in VS; discriminate|reflexivity]).
    assert (CV : close e v = mkVisit (v_id v) (v_arr v) (v_in v) (v_srv v) (Some (q_now q'))).
    { unfold e. rewrite (close_one _ _ _ _ _ _ D), VS, VI, aid_eqb_refl. reflexivity. }
    rewrite EL in P |- *. change (B1 ++ v :: B2) with (B1 ++ [v] ++ B2) in P |- *. rewrite !map_app, !goings_app in *.
    assert (G0 : goings [v] = []) by (unfold goings; cbn [filter]; unfold v_left; rewrite VD; reflexivity).
    assert (G1 : goings (map (fun v => start e (close e v)) [v]) = [(ag_id a, q_now q')]).
    { destruct (later_id e v) as (X & Y). assert (CD : v_dep (close e v) = Some (q_now q')) by (rewrite CV; reflexivity). rewrite CD in Y. unfold goings. cbn [map filter]. unfold v_left. rewrite Y. cbn [never negb map]. unfold until. rewrite X, Y, VI. reflexivity. }
    fold e. rewrite G1, !goings_same by (intros w IW; apply NI; apply in_or_app; auto).
    rewrite G0 in P. cbn [app] in P. unfold went1, e in *. rewrite D. cbn [map]. rewrite P, <- app_assoc. apply Permutation_app_head. apply Permutation_app_comm.
Qed.

Lemma goings_exec ops : forall q log q' l W, good q -> lined q l -> Permutation W (goings l) ->
  exec ops q = Ok (log, q') -> all_calls orderly log -> Permutation (W ++ went log) (goings (watched l log)).
Proof.
  induction ops as [|o ops IH]; intros q log q' l W G L FG H OK.
  - cbn in H. injection H as <- <-. cbn. rewrite app_nil_r. exact FG.
  - apply exec_cons in H as (r & q1 & log1 & S1 & E & ->). inversion OK as [|? ? O1 O2]; subst.
    destruct (good_step _ _ _ _ G O1 S1) as (G1 & N1 & V1 & C1). assert (L1 := lined_good _ _ _ _ _ G O1 S1 L).
    assert (F1 := goings_step _ _ _ _ _ _ G L O1 S1 FG).
    assert (X := IH _ _ _ _ _ G1 L1 F1 E O2).
    cbn [went flat_map]. change (went1 (o, q, r, q1)) with (let '(_, _, _, q') := (o, q, r, q1) in map (fun i => (i, q_now q')) (departed1 (o, q, r, q1))) in X.
    rewrite <- app_assoc in X. exact X.
Qed.

Definition among (l : list nat) (k : nat) : bool := existsb (Nat.eqb k) l.
Lemma among_In l k : among l k = true <-> In k l.
Proof. unfold among. rewrite existsb_exists. split; [intros (x & I & E); apply Nat.eqb_eq in E; subst; exact I|intro I; exists k; split; [exact I|apply Nat.eqb_refl]]. Qed.

Lemma gather {A} (key : A -> nat) (ks : list nat) (M : list A) : NoDup ks ->
  Permutation (flat_map (fun k => filter (fun m => Nat.eqb (key m) k) M) ks) (filter (fun m => among ks (key m)) M).
Proof.
  induction ks as [|k ks IH]; intro ND; cbn [flat_map].
  - induction M as [|m M IH]; [reflexivity|exact IH].
  - inversion ND as [|? ? NI ND']; subst. rewrite (IH ND'). clear IH. induction M as [|m M IH]; [reflexivity|]. cbn [filter among existsb]. fold (among ks (key m)).
    destruct (Nat.eqb_spec (key m) k) as [E|E]; cbn [orb].
    + destruct (among ks (key m)) eqn:X; [apply among_In in X; congruence|]. cbn [app]. constructor. exact IH.
    + destruct (among ks (key m)); [|exact IH]. rewrite <- Permutation_middle. constructor. exact IH.
Qed.

Lemma flat_map_map {A B C} (f : B -> C) (g : A -> list B) l : flat_map (fun x => map f (g x)) l = map f (flat_map g l).
Proof. induction l as [|x l IH]; [reflexivity|]. cbn [flat_map]. rewrite IH, map_app. reflexivity. Qed.

Lemma flat_map_same {A B} (f g : A -> list B) l : (forall x, In x l -> f x = g x) -> flat_map f l = flat_map g l.
Proof. induction l as [|x l IH]; intro H; [reflexivity|]. cbn [flat_map]. rewrite H by (left; reflexivity). f_equal. apply IH. intros; apply H; right; assumption. Qed.

Lemma flat_map_perm {A B} (f g : A -> list B) l : (forall x, In x l -> Permutation (f x) (g x)) -> Permutation (flat_map f l) (flat_map g l).
Proof. induction l as [|x l IH]; intro H; [reflexivity|]. cbn [flat_map]. apply Permutation_app; [apply H; left; reflexivity|apply IH; intros; apply H; right; assumption]. Qed.

Lemma balance n M A B : (forall m, In m M -> follows n (m_from m) (m_to m)) -> NoDup A -> NoDup B ->
  (forall k b, In b B -> follows n k b -> In k A) ->
  exists rest, Permutation (flat_map (fun k => sent_by k M) A) (flat_map (fun k => sent_to k M) B ++ rest) /\
    ((forall k b, In k A -> follows n k b -> In b B) -> rest = []).
Proof.
  intros FM NA NB PB. exists (map (fun m => (m_who m, m_when m)) (filter (fun m => among A (m_from m) && negb (among B (m_to m))) M)). split.
  - unfold sent_by, sent_to. rewrite !flat_map_map, (Permutation_map _ (gather m_from A M NA)), (Permutation_map _ (gather m_to B M NB)), <- map_app. apply Permutation_map.
    induction M as [|m M IH]; [reflexivity|]. specialize (IH (fun x I => FM x (or_intror I))). cbn [filter].
    destruct (among B (m_to m)) eqn:X; cbn [negb].
    + apply among_In in X. assert (Y := PB _ _ X (FM m (or_introl eq_refl))). apply among_In in Y. rewrite Y. cbn [andb app]. constructor. exact IH.
    + rewrite andb_true_r. destruct (among A (m_from m)); [|exact IH]. rewrite <- Permutation_middle. constructor. exact IH.
  - intro SA. assert (X : filter (fun m => among A (m_from m) && negb (among B (m_to m))) M = []); [|rewrite X; reflexivity].
    induction M as [|m M IH]; [reflexivity|]. cbn [filter]. rewrite IH by (intros; apply FM; right; assumption).
    destruct (among A (m_from m)) eqn:Y; [|reflexivity]. apply among_In in Y. assert (Z := SA _ _ Y (FM m (or_introl eq_refl))). apply among_In in Z. rewrite Z. reflexivity.
Qed.

(** Between queues: the visits at all recorded queues, with who goes where. *)
Theorem crossing n0 n1 n : well_made n0 -> nreach usual n0 n1 -> nreach recording n1 n ->
  exists V : nat -> list visit,
  (forall k q1 q, get (nt_queues n1) k = Some q1 -> get (nt_queues n) k = Some q -> pristine q1 -> c_class (q_cfg q1) <> CNull -> c_class (q_cfg q1) <> CResource ->
     eLt (Fin 0) (q_servers q1) -> q_collect q1 = true ->
     lawful (q_servers q1) (room q1) (V k) /\ (forall i, map row_times (rows_of (q_data q) i) = map visit_times (visits_of i (V k)))) /\
  forall A B, NoDup A -> NoDup B ->
    (forall k, In k A -> exists q1, get (nt_queues n1) k = Some q1 /\ pristine q1 /\ c_class (q_cfg q1) <> CNull /\ c_class (q_cfg q1) <> CResource /\ eLt (Fin 0) (q_servers q1)) ->
    (forall k, In k B -> exists q1 q, get (nt_queues n1) k = Some q1 /\ get (nt_queues n) k = Some q /\ pristine q1 /\ c_class (q_cfg q1) <> CNull /\ q_oarr q = 0) ->
    (forall k b, In b B -> follows n k b -> In k A) ->
    exists rest, Permutation (flat_map (fun k => goings (V k)) A) (flat_map (fun k => comings (V k)) B ++ rest) /\
      ((forall k b, In k A -> follows n k b -> In b B) -> rest = []).
Proof.
  intros W R1 R. destruct (traffic _ _ _ W R1 R) as (M & logs & _ & MO & Q).
  assert (RU : nreach usual n0 n).
  { clear - R R1. induction R as [|n c n' R IH OK H]; [exact R1|]. eapply nreach_step; [exact IH|apply OK|exact H]. }
  assert (LEN : length (nt_queues n1) = length (nt_queues n)).
  { assert (X := f_equal (@length _) (proj2 (same_graph _ _ W R1))). assert (Y := f_equal (@length _) (proj2 (same_graph _ _ W RU))). rewrite !map_length in X, Y. congruence. }
  exists (fun k => visits (logs k)). split.
  - intros k q1 q G1 G P N NR S0 CO. destruct (Q k q1 q G1 G P N) as (q2 & E & B & A1 & A2 & _).
    assert (F : forward (q_cfg q1)) by exact (start_forward _ _ _ _ W R1 G1). split; [apply (lawful_visits _ _ _ _ P N NR F S0 E A1)|].
    intro i. assert (Y := rows_visits _ _ _ _ i P N NR F (eLt_le _ _ S0) CO E A1 A2).
    assert (QD : q_data q = q_data q2) by exact (f_equal q_data (eq_sym B)). rewrite QD. exact Y.
  - intros A B NA NB HA HB PB. destruct (balance n M A B (fun m I => proj2 (MO m I)) NA NB PB) as (rest & X1 & X2). exists rest. split; [|exact X2].
    assert (FA : Permutation (flat_map (fun k => goings (visits (logs k))) A) (flat_map (fun k => sent_by k M) A)).
    { apply flat_map_perm. intros k K. destruct (HA k K) as (q1 & G1 & P & N & NR & S0).
      destruct (get (nt_queues n) k) as [q|] eqn:G; [|unfold get in *; apply nth_error_None in G; assert (k < length (nt_queues n1))%nat by (apply nth_error_Some; rewrite G1; discriminate); lia].
      destruct (Q k q1 q G1 G P N) as (q2 & E & _ & A1 & _ & _ & WE & _). rewrite <- WE.
      assert (F : forward (q_cfg q1)) by exact (start_forward _ _ _ _ W R1 G1). symmetry.
      exact (goings_exec _ _ _ _ [] [] (good_start _ P N NR F (eLt_le _ _ S0)) (lined_start _ P) (Permutation_refl _) E A1). }
    assert (FB : flat_map (fun k => comings (visits (logs k))) B = flat_map (fun k => sent_to k M) B).
    { apply flat_map_same. intros k K. destruct (HB k K) as (q1 & q & G1 & G & P & N & O). destruct (Q k q1 q G1 G P N) as (q2 & _ & _ & _ & _ & _ & _ & CE).
      rewrite <- (CE O), came_visits. reflexivity. }
    rewrite FA, FB. exact X1.
Qed.
