(** * LineRows: the collected rows are the visits *)
From Coq Require Import List ZArith QArith Lia Bool Permutation Arith.
From Verif Require Import Base Heap HeapProofs Queue QueueEffects QueueEvents QueueSteps QueueInv SpecQueue QueueFlow QueueHist QueueData QueueRows QueueClaims1 QueueClaims3 SpecLine LineSteps LineProofs LineClaims.
Import ListNotations.
Open Scope Z_scope.

Definition v_here (v : visit) : bool := v_waits v || v_served v.

(** Only the last visit of an agent can be going on. *)
Definition latest (l : list visit) : Prop :=
  forall pre v post, l = pre ++ v :: post -> v_here v = true -> forall w, In w post -> v_id w <> v_id v.

Definition recorded (q : queue) (l : list visit) : Prop :=
  forall i, map row_times (rows_of (q_data q) i) = map visit_times (visits_of i l).

Lemma here_held q l v : lined q l -> In v l -> v_here v = true -> In (v_id v) (ids (waiting q)) \/ In (v_id v) (ids (in_service q)).
Proof.
  intros L V H. apply orb_true_iff in H as [H|H].
  - left. rewrite (ln_line _ _ L). apply in_map, filter_In. auto.
  - right. apply (Permutation_in _ (Permutation_sym (ln_serv _ _ L))). apply in_map, filter_In. auto.
Qed.

Definition later (e : entry) (v : visit) : visit := start e (close e v).

Lemma later_fields o q r q' v : v_id (later (o, q, r, q') v) = v_id v /\ (v_here (later (o, q, r, q') v) = true -> v_here v = true).
Proof.
  unfold later, start, close. destruct (v_served v && _) eqn:E.
  - cbn [v_waits v_id]. destruct (v_waits _ && _); cbn [v_id]; split; auto; intros _; apply andb_true_iff in E as [E _]; unfold v_here; rewrite E; apply orb_true_r.
  - destruct (v_waits v && _) eqn:W; cbn [v_id]; split; auto. intros _. apply andb_true_iff in W as [W _]. unfold v_here. rewrite W. reflexivity.
Qed.

Lemma later_idle o q r q' v : v_here v = false -> later (o, q, r, q') v = v.
Proof.
  intro H. apply orb_false_iff in H as [W S0]. unfold later. rewrite close_same by auto. apply start_same. auto.
Qed.

Lemma arriving_scheduled q a : arriving q = Some a -> In (ag_id a) (ids (scheduled q)).
Proof.
  unfold arriving. destruct (next_event_description q) as [[|[]|]|]; try discriminate.
  destruct (q_arr q) as [|[|b] h] eqn:E; try discriminate. intro X. injection X as <-.
  unfold scheduled. rewrite E. cbn. left. reflexivity.
Qed.

Lemma come_id e w : In w (come e) -> let '(o, q, r, q') := e in exists a, o = ONext /\ arriving q = Some a /\ v_id w = ag_id a.
Proof.
  destruct e as [[[o q] r] q']. unfold come, admitted1, turned_away1. intro H. destruct o; try (destruct H; fail).
  destruct (arriving q) as [a|]; [|destruct H]. exists a. split; [reflexivity|]. split; [reflexivity|].
  apply in_app_or in H. destruct (q_nsys q' =? q_nsys q + 1); cbn in H; destruct H as [[H|[]]|[]] || destruct H as [[]|[H|[]]]; subst w; reflexivity.
Qed.

Lemma latest_step o q r q' l : good q -> lined q l -> latest l -> latest (watch l (o, q, r, q')).
Proof.
  intros G L LT pre v' post E HV w' W'. unfold watch in E. fold (later (o, q, r, q')) in E.
  apply map_eq_app in E as (pre0 & r2 & E0 & <- & E2). apply map_eq_cons in E2 as (v & post0 & -> & <- & <-).
  change (start (o, q, r, q') (close (o, q, r, q') v)) with (later (o, q, r, q') v) in *.
  destruct (later_fields o q r q' v) as (-> & HV'). specialize (HV' HV).
  apply in_map_iff in W' as (w & <- & W). change (start (o, q, r, q') (close (o, q, r, q') w)) with (later (o, q, r, q') w).
  destruct (later_fields o q r q' w) as (-> & _).
  destruct (held_split _ (proj1 (gd_dinv _ G))) as (S1 & _).
  assert (NEW : forall x, In x (come (o, q, r, q')) -> v_here x = true \/ True -> forall y, In y l -> v_here y = true -> v_id x <> v_id y).
  { intros x X _ y Y HY K. assert (Z := come_id _ _ X). cbn in Z. destruct Z as (a & _ & AR & ID). apply arriving_scheduled in AR. rewrite <- ID in AR.
    destruct (S1 _ AR) as (K1 & K2). rewrite K in K1, K2. destruct (here_held _ _ _ L Y HY); auto. }
  destruct (le_lt_dec (length l) (length pre0)) as [Q|Q].
  - exfalso. assert (X : (length (come (o, q, r, q')) <= 1)%nat).
    { unfold come, admitted1, turned_away1. destruct o; cbn; try lia. destruct (arriving q); cbn; [|lia]. destruct (q_nsys q' =? q_nsys q + 1); cbn; lia. }
    apply (f_equal (@length _)) in E0. rewrite !app_length in E0. cbn [length] in E0. destruct post0; [destruct W|cbn [length] in E0; lia].
  - assert (V : In v l).
    { assert (K : nth_error (l ++ come (o, q, r, q')) (length pre0) = Some v) by (rewrite E0, nth_error_app2, Nat.sub_diag by lia; reflexivity).
      rewrite nth_error_app1 in K by exact Q. apply nth_error_In in K. exact K. }
    assert (K : exists post1, l = pre0 ++ v :: post1 /\ post0 = post1 ++ come (o, q, r, q')).
    { clear -E0 Q. revert pre0 E0 Q. induction l as [|x l IH]; intros pre0 E0 Q; [cbn in Q; lia|].
      destruct pre0 as [|y pre0]; cbn in E0; injection E0 as -> E0.
      - exists l. auto.
      - destruct (IH pre0 E0 ltac:(cbn in Q; lia)) as (p & -> & ->). exists p. auto. }
    destruct K as (post1 & K1 & ->). apply in_app_or in W as [W|W].
    + exact (LT _ _ _ K1 HV' w W).
    + apply (NEW w W (or_intror Logic.I) v V HV').
Qed.

Lemma visits_of_app i l m : visits_of i (l ++ m) = visits_of i l ++ visits_of i m.
Proof. apply filter_app. Qed.

Lemma visits_of_map i o q r q' l : visits_of i (map (later (o, q, r, q')) l) = map (later (o, q, r, q')) (visits_of i l).
Proof.
  unfold visits_of. induction l as [|v l IH]; [reflexivity|]. cbn [map filter]. destruct (later_fields o q r q' v) as (-> & _).
  destruct (aid_eqb (v_id v) i); cbn [map]; rewrite IH; reflexivity.
Qed.

Lemma visits_last l x i : latest l -> In x l -> v_here x = true -> v_id x = i ->
  exists m, visits_of i l = m ++ [x] /\ forall y, In y m -> v_here y = false.
Proof.
  intros LT X HX IX. apply in_split in X as (pre & post & E). exists (visits_of i pre). split.
  - rewrite E. rewrite visits_of_app. unfold visits_of at 2. cbn [filter]. rewrite IX, aid_eqb_refl. f_equal. f_equal.
    apply filter_none. intros w W. apply aid_eqb_neq. rewrite <- IX. exact (LT _ _ _ E HX w W).
  - intros y Y. apply filter_In in Y as (Y & IY). apply aid_eqb_eq in IY. destruct (v_here y) eqn:HY; [|reflexivity]. exfalso.
    apply in_split in Y as (p1 & p2 & ->). rewrite <- app_assoc in E. cbn in E. apply (LT _ _ _ E HY x); [|congruence].
    apply in_or_app. right. left. reflexivity.
Qed.

Lemma recorded_step o q r q' l : good q -> orderly q o -> keeps_data o -> q_collect q = true -> step o q = Ok (r, q') ->
  lined q l -> latest l -> recorded q l -> recorded q' (watch l (o, q, r, q')).
Proof.
  intros G OK KD CO H L LT RE i. specialize (RE i). assert (R := step_run_op _ _ _ _ H).
  assert (ND := proj1 (gd_dinv _ G)). assert (IV := gd_inv _ G). assert (N := gd_null _ G). assert (NR := gd_res _ G).
  destruct (held_split _ ND) as (S1 & S2 & N1 & N2 & N3).
  destruct (step_turn _ _ _ _ N NR IV (gd_winv _ G) (gd_cinv _ G) OK H) as (T & _).
  set (F := later (o, q, r, q')).
  assert (WE : visits_of i (watch l (o, q, r, q')) = map F (visits_of i l) ++ map F (visits_of i (come (o, q, r, q')))).
  { unfold watch. change (fun v => start (o, q, r, q') (close (o, q, r, q') v)) with F. unfold F. rewrite visits_of_map, visits_of_app, map_app. reflexivity. }
  rewrite WE, map_app.
  assert (IN : forall v, In v (visits_of i l) -> In v l /\ v_id v = i).
  { intros v V. apply filter_In in V as (V & X). apply aid_eqb_eq in X. auto. }
  (* nobody of that name moves *)
  assert (REST : departed1 (o, q, r, q') = [] \/ (exists a, departed1 (o, q, r, q') = [a] /\ a <> i) -> began q q' i = false -> map F (visits_of i l) = visits_of i l).
  { intros D B. apply map_id_in. intros v V. destruct (IN v V) as (V1 & V2). unfold F, later.
    assert (C : close (o, q, r, q') v = v).
    { destruct D as [D|(a & D & NE)]; [apply close_same; auto|]. rewrite (close_one _ _ _ _ _ _ D). rewrite V2, aid_eqb_neq by congruence. rewrite andb_false_r. reflexivity. }
    rewrite C. apply start_same. right. rewrite V2. exact B. }
  (* the one who waited begins *)
  assert (BEGIN : In i (ids (waiting q)) -> began q q' i = true ->
    map visit_times (map F (visits_of i l)) = map row_times (last_upd (row_set_srv (q_now q')) (rows_of (q_data q) i))).
  { intros W B. rewrite (ln_line _ _ L) in W. apply in_map_iff in W as (x & IX & X). apply filter_In in X as (X & WX).
    assert (HX : v_here x = true) by (unfold v_here; rewrite WX; reflexivity).
    destruct (visits_last _ _ _ LT X HX IX) as (m & EM & HM). rewrite EM in RE |- *. rewrite !map_app in RE |- *. cbn [map] in RE |- *.
    apply map_eq_app in RE as (rs & r2 & ER & RM & R2). apply map_eq_cons in R2 as (rw & r3 & -> & R2 & R3). destruct r3; [|discriminate].
    rewrite ER, last_upd_snoc, !map_app. cbn [map].
    rewrite (map_id_in F m) by (intros y Y; apply later_idle; auto). rewrite <- RM. f_equal. f_equal.
    assert (SX : v_served x = false) by (unfold v_waits in WX; unfold v_served; destruct (v_srv x); [rewrite andb_false_r in WX; discriminate|cbn; rewrite andb_false_r; reflexivity]).
    unfold F, later. rewrite close_same by auto. unfold start. rewrite WX, IX, B. cbn [andb].
    unfold row_times, visit_times, row_set_srv in *. injection R2 as A1 A2 A3. cbn [v_arr v_srv v_dep or_zero r_arr r_srv r_dep]. congruence. }
  (* not an arrival of that name *)
  assert (NOCOME : (forall a, o = ONext -> arriving q = Some a -> ag_id a <> i) -> visits_of i (come (o, q, r, q')) = []).
  { intro K. apply filter_none. intros w W. apply come_id in W. cbn in W. destruct W as (a & -> & AR & ->). apply aid_eqb_neq. apply (K a eq_refl AR). }
  destruct (match o with ONext => true | _ => false end) eqn:ON.
  - destruct o; try discriminate. cbn [step] in H. rewrite (rows_record _ _ _ IV N NR ND CO H i).
    assert (M := mem_next _ _ _ IV N ND H i). unfold mem_step in M.
    destruct (arriving q) as [a|] eqn:AR.
    + destruct M as (-> & M). destruct (aid_eqb (ag_id a) i) eqn:IA.
      * apply aid_eqb_eq in IA. assert (SC := arriving_scheduled _ _ AR). rewrite IA in SC. destruct (S1 _ SC) as (K1 & K2).
        assert (ID : map F (visits_of i l) = visits_of i l).
        { apply map_id_in. intros v V. destruct (IN v V) as (V1 & V2). apply later_idle. destruct (v_here v) eqn:HV; [|reflexivity]. exfalso.
          destruct (here_held _ _ _ L V1 HV) as [X|X]; rewrite V2 in X; auto. }
        rewrite ID, map_app, RE. f_equal. cbn [map].
        assert (BG : began q q' i = memb i (in_service q')).
        { unfold began. assert (X : memb i (in_service q) = false) by (apply memb_not; exact K1). rewrite X. cbn. rewrite ?andb_true_r. reflexivity. }
        assert (DE : q_nsys q' =? q_nsys q + 1 = false -> memb i (in_service q') = false).
        { intro X. apply memb_not. intro Y. apply K1.
          assert (AD : admitted1 (ONext, q, None, q') = []) by (cbn; rewrite AR, X; reflexivity).
          assert (TU : turned_away1 (ONext, q, None, q') = [ag_id a]) by (cbn; rewrite AR, X; reflexivity).
          destruct T as [? ? K| ? ? ? ? ? DE|? ? K|? ? ? K|? K|? ? ? ? K]; try (rewrite TU in K; discriminate); try (rewrite AD in K; discriminate); try discriminate.
          unfold in_service in Y |- *. rewrite DE in Y. exact Y. }
        unfold come, admitted1, turned_away1. rewrite AR. destruct (q_nsys q' =? q_nsys q + 1); cbn [map app visits_of filter v_id].
        -- rewrite IA. unfold visits_of. cbn [filter v_id]. rewrite aid_eqb_refl. cbn [map]. f_equal. unfold F, later. rewrite close_same by auto. unfold start, v_waits. cbn [v_in v_srv never andb v_id].
           rewrite BG. destruct (memb i (in_service q')); reflexivity.
        -- rewrite (DE eq_refl), IA. unfold visits_of. cbn [filter v_id]. rewrite aid_eqb_refl. cbn [map]. f_equal.
      * assert (NE : ag_id a <> i) by (intro X; rewrite X, aid_eqb_refl in IA; discriminate).
        rewrite NOCOME by (intros b _ X; injection X as <-; exact NE). cbn [map]. rewrite app_nil_r.
        rewrite REST; [exact RE|left; reflexivity|]. destruct (M ltac:(congruence)) as (_ & M2).
        rewrite <- not_true_iff_false, began_true. tauto.
    + rewrite NOCOME by (intros b _ X; discriminate). cbn [map]. rewrite app_nil_r. destruct r as [a|].
      * destruct M as (M1 & M2). destruct (aid_eqb (ag_id a) i) eqn:IA.
        -- apply aid_eqb_eq in IA. destruct (M1 (eq_sym IA)) as (X & _ & Y).
           assert (X' := Permutation_in _ (ln_serv _ _ L) X). apply in_map_iff in X' as (x & IX & X'). apply filter_In in X' as (XL & SX).
           assert (HX : v_here x = true) by (unfold v_here; rewrite SX; apply orb_true_r).
           destruct (visits_last _ _ _ LT XL HX IX) as (m & EM & HM). rewrite EM in RE |- *. rewrite !map_app in RE |- *. cbn [map] in RE |- *.
           apply map_eq_app in RE as (rs & r2 & ER & RM & R2). apply map_eq_cons in R2 as (rw & r3 & -> & R2 & R3). destruct r3; [|discriminate].
           rewrite ER, last_upd_snoc, !map_app. cbn [map].
           rewrite (map_id_in F m) by (intros y Y'; apply later_idle; auto). rewrite <- RM. f_equal. f_equal.
           unfold F, later. rewrite (close_one _ _ _ _ _ (ag_id a)) by reflexivity. rewrite SX, IX, IA, aid_eqb_refl. cbn [andb].
           assert (NB : began q q' i = false) by (rewrite <- not_true_iff_false, began_true; tauto).
           rewrite start_same by (right; cbn; exact NB). unfold row_times, visit_times, row_set_dep in *. injection R2 as A1 A2 A3. cbn [v_arr v_srv v_dep or_zero r_arr r_srv r_dep]. congruence.
        -- assert (NE : i <> ag_id a) by (intro X; rewrite X, aid_eqb_refl in IA; discriminate). specialize (M2 NE).
           destruct (began q q' i) eqn:B.
           ++ symmetry. apply BEGIN; [apply M2|reflexivity].
           ++ rewrite REST; [exact RE| |reflexivity]. right. exists (ag_id a). split; [reflexivity|congruence].
      * subst q'. rewrite REST; [exact RE|left; reflexivity|]. apply began_sub. auto.
  - assert (O1 : o <> ONext) by (intros ->; discriminate). assert (O2 : o <> OClear) by (intros ->; destruct OK).
    assert (O3 : o <> OClearData) by (intros ->; destruct KD).
    rewrite (rows_record_other o q q' IV N ND CO O1 O2 O3 R i).
    assert (NC : no_clear o) by (destruct o; try exact Logic.I; congruence).
    destruct (op_other o q q' O1 NC O3 IV N ND R i) as (M & _ & _).
    rewrite NOCOME by (intros a X; congruence). cbn [map]. rewrite app_nil_r.
    assert (D : departed1 (o, q, r, q') = []).
    { destruct o; try congruence; cbn [step] in H; mbind H; injection H as <- _; reflexivity. }
    destruct (began q q' i) eqn:B; [symmetry; apply BEGIN; [apply M|reflexivity]|]. rewrite REST; auto.
Qed.

Lemma keeps_collect o q q' : qinv q -> c_class (q_cfg q) <> CNull -> keeps_data o -> q_collect q = true -> run_op o q = Ok q' -> q_collect q' = true.
Proof.
  intros IV N KD CO H. assert (X : (exists b, o = OCollect b) \/ forall b, o <> OCollect b) by (destruct o; eauto; right; discriminate).
  destruct X as [(b & ->)|X].
  - destruct b; [|destruct KD]. cbn [run_op] in H. inversion H. reflexivity.
  - destruct (collect_op o q q' IV N X H) as (Y & _). congruence.
Qed.

Lemma exec_recorded ops : forall q log q' l, good q -> lined q l -> latest l -> q_collect q = true -> recorded q l ->
  exec ops q = Ok (log, q') -> all_calls orderly log -> Forall keeps_data ops -> recorded q' (watched l log) /\ q_collect q' = true.
Proof.
  induction ops as [|o ops IH]; intros q log q' l G L LT CO RE H OK KD.
  - cbn in H. injection H as <- <-. auto.
  - apply exec_cons in H as (r & q1 & log1 & H1 & E & ->). inversion OK as [|? ? O1 O2]; subst. inversion KD as [|? ? K1 K2]; subst.
    destruct (good_step _ _ _ _ G O1 H1) as (G1 & _). assert (L1 := lined_good _ _ _ _ _ G O1 H1 L).
    assert (LT1 := latest_step o q r q1 l G L LT). assert (R1 := recorded_step _ _ _ _ _ G O1 K1 CO H1 L LT RE).
    assert (C1 := keeps_collect _ _ _ (gd_inv _ G) (gd_null _ G) K1 CO (step_run_op _ _ _ _ H1)).
    exact (IH _ _ _ _ G1 L1 LT1 C1 R1 E O2 K2).
Qed.

Lemma pristine_data q : pristine q -> c_class (q_cfg q) <> CNull -> q_data q = [].
Proof.
  intros [(c & s & col & n & ->)|(c & s & col & n & q1 & R & _ & ->)] N; [reflexivity|].
  rewrite clear_cfg in N. unfold clear. destruct (c_class (q_cfg q1)); try congruence; reflexivity.
Qed.

Theorem rows_visits ops q0 log q i : pristine q0 -> c_class (q_cfg q0) <> CNull -> c_class (q_cfg q0) <> CResource -> forward (q_cfg q0) ->
  eLe (Fin 0) (q_servers q0) -> q_collect q0 = true -> exec ops q0 = Ok (log, q) -> all_calls orderly log -> Forall keeps_data ops ->
  map row_times (rows_of (q_data q) i) = map visit_times (visits_of i (visits log)).
Proof.
  intros P N NR F S0 CO H OK KD.
  assert (LT : latest []) by (intros pre v post E; destruct pre; discriminate).
  assert (RE : recorded q0 []) by (intro j; rewrite (pristine_data _ P N); reflexivity).
  destruct (exec_recorded _ _ _ _ _ (good_start _ P N NR F S0) (lined_start _ P) LT CO RE H OK KD) as (X & _). exact (X i).
Qed.
