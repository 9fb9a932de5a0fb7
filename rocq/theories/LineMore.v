(** * LineMore: sums over visits, one server, more servers *)
From Coq Require Import List ZArith QArith Lia Bool Permutation Arith.
From Verif Require Import Base Heap HeapProofs Queue QueueEffects QueueEvents QueueSteps QueueInv SpecQueue QueueFlow QueueHist QueueData QueueRows QueueClaims1 QueueClaims3 SpecLine LineSteps LineProofs LineClaims LineRows LineSolo SpecLittle.
Import ListNotations.
Open Scope Z_scope.

(** ** Sums *)

Lemma total_cons {A} (f : A -> Z) x l : total f (x :: l) = f x + total f l.
Proof. reflexivity. Qed.
Lemma total_app {A} (f : A -> Z) l m : total f (l ++ m) = total f l + total f m.
Proof. unfold total. induction l as [|x l IH]; [cbn [app fold_right]; lia|]. cbn [app fold_right]. rewrite IH. lia. Qed.
Lemma total_map {A B} (f : B -> Z) (g : A -> B) l : total f (map g l) = total (fun x => f (g x)) l.
Proof. unfold total. induction l as [|x l IH]; [reflexivity|]. cbn [map fold_right]. rewrite IH. reflexivity. Qed.
Lemma total_in {A} (f g : A -> Z) l : (forall x, In x l -> f x = g x) -> total f l = total g l.
Proof.
  unfold total. induction l as [|x l IH]; intro H; [reflexivity|]. cbn [fold_right]. rewrite (H x (or_introl eq_refl)), IH; [reflexivity|].
  intros y Y. apply H. right. exact Y.
Qed.
Lemma total_count (b : visit -> bool) d l : total (fun v => if b v then d else 0) l = many b l * d.
Proof.
  unfold total, many, zlen. induction l as [|v l IH]; [reflexivity|]. cbn [fold_right filter]. rewrite IH. destruct (b v); cbn [length]; [|lia].
  rewrite Nat2Z.inj_succ. lia.
Qed.
Lemma total_add {A} (f g h : A -> Z) l : (forall x, In x l -> f x = g x + h x) -> total f l = total g l + total h l.
Proof.
  unfold total. induction l as [|x l IH]; intro H; [reflexivity|]. cbn [fold_right]. rewrite (H x (or_introl eq_refl)), IH; [lia|].
  intros y Y. apply H. right. exact Y.
Qed.

Lemma many_zlen b l : many b l = zlen (map v_id (filter b l)).
Proof. unfold many, zlen. rewrite map_length. reflexivity. Qed.

(** What one call adds. *)
Lemma watch_total (f : ext -> visit -> Z) (b : visit -> bool) e l :
  let '(_, q, _, q') := e in
  (forall v, In v l -> f (q_now q') (start e (close e v)) = f (q_now q) v + (if b v then fin (q_now q') - fin (q_now q) else 0)) ->
  (forall i x, f (q_now q') (start e (close e (mkVisit i (q_now q') x None None))) = 0) ->
  total (f (q_now q')) (watch l e) = total (f (q_now q)) l + many b l * (fin (q_now q') - fin (q_now q)).
Proof.
  destruct e as [[[o q] r] q']. intros H1 H2. unfold watch. rewrite total_map, total_app.
  rewrite (total_add _ (f (q_now q)) (fun v => if b v then fin (q_now q') - fin (q_now q) else 0) l H1), total_count.
  assert (Z0 : total (fun v => f (q_now q') (start (o, q, r, q') (close (o, q, r, q') v))) (come (o, q, r, q')) = 0).
  { unfold come. rewrite total_app, !total_map. assert (X : forall (A : Type) (l : list A), total (fun _ => 0) l = 0) by (intros A m; unfold total; induction m; cbn [fold_right]; lia).
    rewrite (total_in _ (fun _ => 0)) by (intros; apply H2). rewrite X. rewrite (total_in _ (fun _ => 0)) by (intros; apply H2). rewrite X. reflexivity. }
  lia.
Qed.

Lemma stay_step o q r q' l : (forall v, In v l -> visit_ok (q_now q) v) ->
  total (stay (q_now q')) (watch l (o, q, r, q')) = total (stay (q_now q)) l + many v_open l * (fin (q_now q') - fin (q_now q)).
Proof.
  intro OK. apply (watch_total stay v_open (o, q, r, q') l).
  - intros v V. unfold start, close. destruct (v_served v && _) eqn:C.
    + apply andb_true_iff in C as [C _]. unfold v_waits. cbn [v_in v_srv v_dep v_id v_arr]. unfold v_served in C. apply andb_true_iff in C as [C C3]. apply andb_true_iff in C as [C1 C2].
      destruct (v_srv v) as [s|] eqn:VS; [|discriminate C2]. cbn [never negb andb]. rewrite andb_false_r. cbn [andb]. unfold stay, v_open. cbn [v_in v_dep v_arr]. rewrite C1, C3. cbn [andb].
      destruct (v_dep v); [discriminate C3|]. unfold till. lia.
    + assert (X : stay (q_now q') v = stay (q_now q) v + (if v_open v then fin (q_now q') - fin (q_now q) else 0)).
      { unfold stay, v_open, till. destruct (v_in v); [|reflexivity]. destruct (v_dep v); cbn [never andb]; lia. }
      destruct (v_waits v && began q q' (v_id v)); exact X.
  - intros i x. unfold close, start. unfold v_served. cbn [v_in v_srv v_dep v_id never negb andb]. rewrite andb_false_r. cbn [andb].
    destruct (v_waits _ && _); unfold stay; cbn [v_in v_dep v_arr till]; destruct x; lia.
Qed.

Lemma wait_step o q r q' l : (forall v, In v l -> visit_ok (q_now q) v) ->
  total (wait (q_now q')) (watch l (o, q, r, q')) = total (wait (q_now q)) l + many v_waits l * (fin (q_now q') - fin (q_now q)).
Proof.
  intro OK. apply (watch_total wait v_waits (o, q, r, q') l).
  - intros v V. unfold start, close. destruct (v_served v && _) eqn:C.
    + apply andb_true_iff in C as [C _]. unfold v_waits. cbn [v_in v_srv v_dep v_id v_arr]. unfold v_served in C. apply andb_true_iff in C as [C C3]. apply andb_true_iff in C as [C1 C2].
      destruct (v_srv v) as [s|] eqn:VS; [|discriminate C2]. cbn [never negb andb]. rewrite andb_false_r. cbn [andb]. unfold wait. cbn [v_in v_srv v_arr]. rewrite C1, VS. cbn [till]. lia.
    + destruct (v_waits v && began q q' (v_id v)) eqn:B.
      * apply andb_true_iff in B as [B _]. rewrite B. unfold v_waits in B. apply andb_true_iff in B as [B1 B2]. unfold wait. cbn [v_in v_srv v_arr]. rewrite B1.
        destruct (v_srv v); [discriminate B2|]. cbn [till]. lia.
      * unfold wait, v_waits, till. destruct (v_in v); [|reflexivity]. destruct (v_srv v); cbn [never andb]; lia.
  - intros i x. unfold close, start. unfold v_served. cbn [v_in v_srv v_dep v_id never negb andb]. rewrite andb_false_r. cbn [andb].
    destruct (v_waits _ && _); unfold wait; cbn [v_in v_srv v_arr till]; destruct x; lia.
Qed.

Lemma work_step o q r q' l : (forall v, In v l -> visit_ok (q_now q) v) ->
  total (work (q_now q')) (watch l (o, q, r, q')) = total (work (q_now q)) l + many v_served l * (fin (q_now q') - fin (q_now q)).
Proof.
  intro OK. apply (watch_total work v_served (o, q, r, q') l).
  - intros v V. unfold start, close. destruct (v_served v && _) eqn:C.
    + apply andb_true_iff in C as [C _]. rewrite C. unfold v_waits. cbn [v_in v_srv v_dep v_id v_arr]. unfold v_served in C. apply andb_true_iff in C as [C C3]. apply andb_true_iff in C as [C1 C2].
      destruct (v_srv v) as [s|] eqn:VS; [|discriminate C2]. cbn [never negb andb]. rewrite andb_false_r. cbn [andb]. unfold work. cbn [v_in v_srv v_dep]. rewrite VS, C1.
      destruct (v_dep v); [discriminate C3|]. cbn [till]. lia.
    + destruct (v_waits v && began q q' (v_id v)) eqn:B.
      * apply andb_true_iff in B as [B _]. unfold v_waits in B. apply andb_true_iff in B as [B1 B2].
        destruct (v_srv v) eqn:VS; [discriminate B2|]. unfold v_served. rewrite VS. unfold work. cbn [v_in v_srv v_dep never negb]. rewrite B1, VS, andb_false_r. cbn [andb].
        destruct (v_dep v) as [e|] eqn:VD; [|cbn [till]; lia]. destruct (vo_dep _ _ (OK v V) e VD) as (s & Y & _). congruence.
      * unfold work, v_served. destruct (v_srv v) as [s|]; [|rewrite andb_false_r; reflexivity]. cbn [never negb]. destruct (v_in v); [|reflexivity]. cbn [andb]. unfold till.
        destruct (v_dep v); cbn [never andb]; lia.
  - intros i x. unfold close, start. unfold v_served. cbn [v_in v_srv v_dep v_id never negb andb]. rewrite andb_false_r. cbn [andb].
    destruct (v_waits _ && _); unfold work; cbn [v_in v_srv v_dep till]; [destruct x; lia|reflexivity].
Qed.

Lemma lined_counts q l : lined q l -> nwaiting q = many v_waits l /\ serving q = many v_served l.
Proof.
  intro L. rewrite !many_zlen, <- (ln_line _ _ L). unfold nwaiting, zlen. split; [unfold ids; rewrite map_length; reflexivity|].
  rewrite <- (Permutation_length (ln_serv _ _ L)). unfold serving, ids. rewrite map_length. reflexivity.
Qed.

Lemma area_watch ops : forall q log q' l, good q -> lined q l -> exec ops q = Ok (log, q') -> all_calls orderly log ->
  total (stay (q_now q')) (watched l log) = total (stay (q_now q)) l + area q_nsys log /\
  total (wait (q_now q')) (watched l log) = total (wait (q_now q)) l + area nwaiting log /\
  total (work (q_now q')) (watched l log) = total (work (q_now q)) l + area serving log.
Proof.
  induction ops as [|o ops IH]; intros q log q' l G L H OK.
  - cbn in H. injection H as <- <-. unfold watched. cbn [fold_left]. change (area q_nsys []) with 0. change (area nwaiting []) with 0. change (area serving []) with 0. lia.
  - apply exec_cons in H as (r & q1 & log1 & ST & E & ->). apply Forall_cons_iff in OK as [O OK].
    destruct (good_step _ _ _ _ G O ST) as (G1 & _). assert (L1 := lined_good _ _ _ _ _ G O ST L).
    destruct (IH _ _ _ _ G1 L1 E OK) as (I1 & I2 & I3). unfold watched in *. cbn [fold_left].
    assert (OKS := ln_ok _ _ L). rewrite I1, I2, I3, stay_step, wait_step, work_step by exact OKS.
    rewrite <- (lined_nsys _ _ (gd_inv _ G) L). destruct (lined_counts _ _ L) as (<- & <-). unfold area, total. cbn [fold_right]. lia.
Qed.

Theorem areas ops q0 log q : pristine q0 -> c_class (q_cfg q0) <> CNull -> c_class (q_cfg q0) <> CResource -> forward (q_cfg q0) ->
  eLe (Fin 0) (q_servers q0) -> exec ops q0 = Ok (log, q) -> all_calls orderly log ->
  area q_nsys log = total (stay (q_now q)) (visits log) /\
  area nwaiting log = total (wait (q_now q)) (visits log) /\
  area serving log = total (work (q_now q)) (visits log).
Proof.
  intros P N NR F S0 H OK. destruct (area_watch _ _ _ _ _ (good_start _ P N NR F S0) (lined_start _ P) H OK) as (A & B & C).
  unfold watched, visits in *. change (total (stay (q_now q0)) []) with 0 in A. change (total (wait (q_now q0)) []) with 0 in B. change (total (work (q_now q0)) []) with 0 in C. lia.
Qed.

Lemma step_none o q r q' : o <> ONext -> step o q = Ok (r, q') -> r = None.
Proof. intros NO H. destruct o; [congruence|..]; cbn [step] in H; mbind H; injection H as <- _; reflexivity. Qed.

(** The clock is finite. *)
Lemma clock_finite o q r q' : good q -> orderly q o -> step o q = Ok (r, q') -> q_now q <> Inf -> q_now q' <> Inf.
Proof.
  intros G O H T. destruct G as [N NR _ _ IV W C _ _]. assert (Wa := qi_arr _ IV). assert (Wd := qi_dep _ IV).
  assert (RN : o <> ONext -> r = None) by (intro X; exact (step_none _ _ _ _ X H)).
  destruct o; try (destruct (step_turn _ _ _ _ N NR IV W C O H) as (TU & _); rewrite RN in TU by discriminate).
  - cbn [step] in H. apply next_event_event in H as (qe & PE & EV); [|exact Wa|exact Wd].
    destruct (pre_event_net _ _ PE) as (nd & ->).
    destruct EV as [ID _ -> ->|_ LT R|_ LE NI CAP _ R|_ NS LE NI CAP _ R|CR LE NI RT _ R|CR LE NI RT _ CAP R]; try congruence.
    + apply qs_departure_Ok in R; [|exact Wa|exact Wd].
      destruct R as (a & h & a' & h' & line' & n & d1 & d & s & o & PA & -> & I1 & T1 & K1 & B1 & Q & D1 & Wh' & SO & ST).
      qch PA. apply pop_agent_Ok in PA as (Wh & Ph & Th & _); [|exact Wd].
      assert (X : q_now q' = ag_time a) by (rewrite Q; reflexivity). intro Y. rewrite <- Th, <- X, Y in LT. destruct (hmin (q_arr q)); destruct LT.
    + apply qs_arrival_Ok in R; [|exact N|exact Wa|exact Wd].
      destruct R as (a & h & q2 & new & h' & line' & n & d1 & d & s1 & o1 & s & o & a1 & -> & PA & DR & I1 & T1 & K1 & Q & D1 & Wh' & SO1 & SO & CC).
      qch PA. apply pop_agent_Ok in PA as (Wh & Ph & Th & _); [|exact Wa].
      apply draw_new in DR. qch DR. destruct DR as (_ & CF & F2 & F3 & F4 & F5 & F6 & F7 & F8 & F9 & F10 & F11 & F12 & F13 & _).
      assert (X : q_now q' = ag_time a) by (rewrite Q; qc; assumption). congruence.
    + apply loss_blocked_Ok in R; [|exact N|exact Wa|exact Wd].
      destruct R as (a & h & q2 & new & d & -> & PA & DR & Q & D). qch PA. qch DR. apply pop_agent_Ok in PA as (Wh & Ph & Th & _); [|exact Wa].
      apply draw_new in DR. qch DR. destruct DR as (_ & CF & F2 & F3 & F4 & F5 & F6 & F7 & F8 & F9 & F10 & F11 & F12 & F13 & _).
      assert (X : q_now q' = ag_time a) by (rewrite Q; qc; assumption). congruence.
  - destruct TU; try discriminate; congruence.
  - destruct TU; try discriminate; congruence.
  - destruct TU; try discriminate; congruence.
  - destruct TU; try discriminate; congruence.
  - destruct TU; try discriminate; congruence.
  - destruct TU; try discriminate; congruence.
  - destruct TU; try discriminate; congruence.
  - destruct TU; try discriminate; congruence.
Qed.

Lemma exec_finite ops : forall q log q', good q -> exec ops q = Ok (log, q') -> all_calls orderly log -> q_now q <> Inf -> q_now q' <> Inf.
Proof.
  induction ops as [|o ops IH]; intros q log q' G H OK T.
  - cbn in H. injection H as <- <-. exact T.
  - apply exec_cons in H as (r & q1 & log1 & ST & E & ->). apply Forall_cons_iff in OK as [O OK].
    destruct (good_step _ _ _ _ G O ST) as (G1 & _). exact (IH _ _ _ G1 E OK (clock_finite _ _ _ _ G O ST T)).
Qed.

Theorem finite_times ops q0 log q : pristine q0 -> c_class (q_cfg q0) <> CNull -> c_class (q_cfg q0) <> CResource -> forward (q_cfg q0) ->
  eLe (Fin 0) (q_servers q0) -> exec ops q0 = Ok (log, q) -> all_calls orderly log ->
  q_now q <> Inf /\ forall v, In v (visits log) -> v_arr v <> Inf /\ v_srv v <> Some Inf /\ v_dep v <> Some Inf.
Proof.
  intros P N NR F S0 H OK. destruct (pristine_clock _ P N) as (T & _).
  assert (FN := exec_finite _ _ _ _ (good_start _ P N NR F S0) H OK ltac:(rewrite T; discriminate)).
  split; [exact FN|]. destruct (exec_start _ _ _ _ P N NR F S0 H OK) as (_ & L & _). intros v V. destruct (ln_ok _ _ L v V) as [A B C].
  assert (K : forall t, eLe t (q_now q) -> t <> Inf) by (intros t X ->; destruct (q_now q); [destruct X|congruence]).
  split; [exact (K _ A)|]. split; intro E.
  - destruct (B _ E) as (_ & _ & X). exact (K _ X eq_refl).
  - destruct (C _ E) as (s & _ & _ & X). exact (K _ X eq_refl).
Qed.

(** At the end nobody is there. *)
Theorem little ops q0 log q : pristine q0 -> c_class (q_cfg q0) <> CNull -> c_class (q_cfg q0) <> CResource -> forward (q_cfg q0) ->
  eLe (Fin 0) (q_servers q0) -> exec ops q0 = Ok (log, q) -> all_calls orderly log -> q_nsys q = 0 ->
  (forall v, In v (visits log) -> v_in v = true -> exists s e, v_srv v = Some s /\ v_dep v = Some e) /\
  area q_nsys log = total (fun v => fin (or_zero (v_dep v)) - fin (v_arr v)) (filter v_in (visits log)).
Proof.
  intros P N NR F S0 H OK Z0. destruct (exec_start _ _ _ _ P N NR F S0 H OK) as (G & L & _). rewrite (lined_nsys _ _ (gd_inv _ G) L) in Z0.
  assert (NO : forall v, In v (visits log) -> v_open v = false).
  { intros v V. destruct (v_open v) eqn:X; [|reflexivity]. exfalso. unfold many, zlen in Z0.
    assert (Y : In v (filter v_open (visits log))) by (apply filter_In; auto). destruct (filter v_open (visits log)); [destruct Y|cbn [length] in Z0; lia]. }
  assert (A : forall v, In v (visits log) -> v_in v = true -> exists s e, v_srv v = Some s /\ v_dep v = Some e).
  { intros v V IN. assert (X := NO v V). unfold v_open in X. rewrite IN in X. destruct (v_dep v) as [e|] eqn:VD; [|discriminate X].
    destruct (vo_dep _ _ (ln_ok _ _ L v V) e VD) as (s & Y & _). eauto. }
  split; [exact A|]. destruct (areas _ _ _ _ P N NR F S0 H OK) as (-> & _). clear - A. induction (visits log) as [|v l IH]; [reflexivity|].
  assert (X := A v (or_introl eq_refl)). assert (Y := IH (fun w W => A w (or_intror W))). rewrite total_cons. cbn [filter]. unfold stay at 1. destruct (v_in v).
  - rewrite total_cons, Y. destruct (X eq_refl) as (s & e & _ & ->). reflexivity.
  - rewrite Y. lia.
Qed.

(** ** The same from the collected data *)

Lemma visits_group (f : visit -> Z) D : NoDup D -> forall l, (forall v, In v l -> In (v_id v) D) ->
  total (fun i => total f (visits_of i l)) D = total f l.
Proof.
  intros ND. induction l as [|v l IH]; intro C.
  - unfold total. clear. induction D as [|i D IH]; [reflexivity|]. cbn [fold_right visits_of filter] in *. rewrite IH. reflexivity.
  - assert (E := IH (fun w W => C w (or_intror W))).
    assert (X : forall M, NoDup M -> total (fun i => total f (visits_of i (v :: l))) M = (if existsb (aid_eqb (v_id v)) M then f v else 0) + total (fun i => total f (visits_of i l)) M).
    { clear. induction M as [|i M IH]; intro ND; [reflexivity|]. inversion ND as [|? ? NI ND']; subst. specialize (IH ND').
      rewrite !total_cons, IH. cbn [existsb]. clear IH. unfold visits_of at 1. cbn [filter]. destruct (aid_eqb (v_id v) i) eqn:B.
      - apply aid_eqb_eq in B. subst i. cbn [orb].
        assert (Z0 : existsb (aid_eqb (v_id v)) M = false).
        { apply not_true_is_false. intro X. apply existsb_exists in X as (y & Y1 & Y2). apply aid_eqb_eq in Y2. subst y. auto. }
        rewrite Z0, total_cons. unfold visits_of. lia.
      - cbn [orb]. unfold visits_of. lia. }
    rewrite (X D ND), E. assert (Y : existsb (aid_eqb (v_id v)) D = true).
    { apply existsb_exists. exists (v_id v). split; [apply C; left; reflexivity|]. apply aid_eqb_eq. reflexivity. }
    rewrite Y. reflexivity.
Qed.

Theorem little_data ops q0 log q D : pristine q0 -> c_class (q_cfg q0) = CServer -> forward (q_cfg q0) ->
  eLe (Fin 0) (q_servers q0) -> q_collect q0 = true -> exec ops q0 = Ok (log, q) -> all_calls orderly log -> Forall keeps_data ops -> q_nsys q = 0 ->
  NoDup D -> (forall i, rows_of (q_data q) i <> [] -> In i D) ->
  area q_nsys log = total (fun i => total (fun r => fin (r_dep r) - fin (r_arr r)) (rows_of (q_data q) i)) D.
Proof.
  intros P CL F S0 CO H OK KD Z0 ND CV. assert (N : c_class (q_cfg q0) <> CNull) by congruence. assert (NR : c_class (q_cfg q0) <> CResource) by congruence.
  destruct (little _ _ _ _ P N NR F S0 H OK Z0) as (_ & ->).
  assert (RV := fun i => rows_visits _ _ _ _ i P N NR F S0 CO H OK KD).
  assert (AL : forall v, In v (visits log) -> v_in v = true).
  { intros v V. destruct (v_in v) eqn:X; [reflexivity|]. exfalso. apply In_nth_error in V as (n & V). assert (Y := losses _ _ _ _ _ _ P N NR F S0 H OK V). rewrite X in Y.
    unfold room in Y. rewrite CL in Y. exact Y. }
  assert (FA : filter v_in (visits log) = visits log) by (apply filter_all; exact AL). rewrite FA.
  rewrite <- (visits_group _ D ND).
  - apply total_in. intros i _. specialize (RV i). revert RV. generalize (visits_of i (visits log)) (rows_of (q_data q) i).
    induction l as [|v l IH]; intros [|r rs] E; cbn [map] in E; try discriminate; [reflexivity|]. injection E as E1 E2 E3 E. unfold total in *. cbn [fold_right]. rewrite (IH _ E).
    rewrite E1, E3. reflexivity.
  - intros v V. apply CV. intro X. specialize (RV (v_id v)). rewrite X in RV. cbn [map] in RV. symmetry in RV. apply map_eq_nil in RV.
    assert (Y : In v (visits_of (v_id v) (visits log))) by (apply filter_In; split; [exact V|apply aid_eqb_eq; reflexivity]). rewrite RV in Y. destruct Y.
Qed.

(** ** One server, or infinitely many *)

Lemma after_nil E s : after E s < 1 -> forall e, In e E -> eLe e s.
Proof.
  unfold after, zlen. intros H e IN. destruct (eltb s e) eqn:X; [|apply eltb_ge; exact X]. exfalso.
  assert (Y : In e (filter (fun e => eltb s e) E)) by (apply filter_In; auto). destruct (filter (fun e => eltb s e) E); [destruct Y|cbn [length] in H; lia].
Qed.
Lemma after_zero E s : (forall e, In e E -> eLe e s) -> after E s = 0.
Proof.
  intro H. unfold after. rewrite filter_none; [reflexivity|]. intros e IN. apply eltb_ge. exact (H e IN).
Qed.

Lemma first_free_one E a w : In w E -> (forall e, In e E -> eLe e w) -> first_free (Fin 1) E a (later a w).
Proof.
  intros IN MX. unfold later. destruct (eltb a w) eqn:X.
  - apply eltb_lt in X. split; [exact (eLt_le _ _ X)|]. split; [rewrite (after_zero _ _ MX); apply eltb_lt; reflexivity|].
    intros t A T. destruct (Z_lt_ge_dec (after E t) 1) as [Y|Y]; [|elia]. exfalso. apply (after_nil _ _ Y) in IN. apply eLt_not_le in T. auto.
  - apply eltb_ge in X. split; [apply eLe_refl|]. split; [rewrite after_zero; [apply eltb_lt; reflexivity|]|].
    + intros e I. exact (eLe_trans _ _ _ (MX e I) X).
    + intros t A T. exfalso. exact (proj1 (eLt_not_le _ _) T A).
Qed.

Lemma last_some {A} (l : list A) x : last (map Some (l ++ [x])) None = Some x.
Proof. rewrite map_app. cbn [map]. apply last_last. Qed.

Theorem lindley ops q0 log q n v : pristine q0 -> c_class (q_cfg q0) <> CNull -> c_class (q_cfg q0) <> CResource -> forward (q_cfg q0) ->
  q_servers q0 = Fin 1 -> exec ops q0 = Ok (log, q) -> all_calls orderly log ->
  nth_error (visits log) n = Some v -> v_in v = true ->
  since v = match before (firstn n (visits log)) with Some w => later (v_arr v) (until w) | None => v_arr v end.
Proof.
  intros P N NR F S1 H OK V IN. assert (S0 : eLt (Fin 0) (q_servers q0)) by (rewrite S1; apply eltb_lt; reflexivity).
  assert (FF := recursion _ _ _ _ _ _ P N NR F S0 H OK V IN). rewrite S1 in FF.
  assert (ALL : forall m w, nth_error (visits log) m = Some w -> v_in w = true -> forall e, In e (ends (firstn m (visits log))) -> eLe e (until w)).
  { intros m w W WI e E. assert (X := recursion _ _ _ _ _ _ P N NR F S0 H OK W WI). rewrite S1 in X. destruct X as (_ & X & _).
    apply eltb_lt in X. cbn in X. apply Z.ltb_lt in X. assert (Y := after_nil _ _ X e E). eapply eLe_trans; [exact Y|]. unfold since, until.
    destruct (exec_start _ _ _ _ P N NR F (eLt_le _ _ S0) H OK) as (_ & L & _). assert (WO := ln_ok _ _ L w (nth_error_In _ _ W)).
    destruct (v_dep w) as [d|] eqn:VD; [|apply eLe_Inf]. destruct (vo_dep _ _ WO d VD) as (s & -> & B & _). exact B. }
  unfold before. assert (FE : ends (firstn n (visits log)) = map until (filter v_in (firstn n (visits log)))) by reflexivity.
  destruct (filter v_in (firstn n (visits log))) as [|w0 r0] eqn:FL.
  - cbn. rewrite FE in FF. cbn [map] in FF. apply (first_free_unique _ _ _ _ _ FF). split; [apply eLe_refl|]. split; [apply eltb_lt; reflexivity|].
    intros t A T. exfalso. exact (proj1 (eLt_not_le _ _) T A).
  - destruct (exists_last (l := w0 :: r0) ltac:(discriminate)) as (r & w & E). rewrite E in *. rewrite last_some.
    apply (first_free_unique _ _ _ _ _ FF). apply first_free_one.
    + rewrite FE. apply in_map. apply in_or_app. right. left. reflexivity.
    + assert (LM : exists m, nth_error (visits log) m = Some w /\ filter v_in (firstn m (visits log)) = r /\ v_in w = true).
      { clear - FL. revert n r FL. induction (visits log) as [|x l IH]; intros n r FL.
        - rewrite firstn_nil in FL. cbn in FL. destruct r; discriminate.
        - destruct n as [|n]; [cbn in FL; destruct r; discriminate|]. cbn [firstn filter] in FL. destruct (v_in x) eqn:X.
          + destruct r as [|y r]; cbn [app] in FL; injection FL as -> FL.
            * exists 0%nat. split; [reflexivity|]. split; [reflexivity|exact X].
            * destruct (IH n r FL) as (m & M1 & M2 & M3). exists (S m). split; [exact M1|]. cbn [firstn filter]. rewrite X, M2. auto.
          + destruct (IH n r FL) as (m & M1 & M2 & M3). exists (S m). split; [exact M1|]. cbn [firstn filter]. rewrite X, M2. auto. }
      destruct LM as (m & M1 & M2 & M3). intros e E'. rewrite FE, map_app in E'. apply in_app_or in E' as [E'|[<-|[]]]; [|apply eLe_refl].
      apply (ALL m w M1 M3). unfold ends. rewrite M2. exact E'.
Qed.

Theorem unlimited ops q0 log q n v : pristine q0 -> c_class (q_cfg q0) <> CNull -> c_class (q_cfg q0) <> CResource -> forward (q_cfg q0) ->
  q_servers q0 = Inf -> exec ops q0 = Ok (log, q) -> all_calls orderly log ->
  nth_error (visits log) n = Some v -> v_in v = true -> v_srv v = Some (v_arr v).
Proof.
  intros P N NR F S1 H OK V IN. assert (S0 : eLt (Fin 0) (q_servers q0)) by (rewrite S1; exact Logic.I).
  assert (FF := recursion _ _ _ _ _ _ P N NR F S0 H OK V IN). rewrite S1 in FF.
  assert (X : since v = v_arr v).
  { apply (first_free_unique _ _ _ _ _ FF). split; [apply eLe_refl|]. split; [exact Logic.I|]. intros t A T. exfalso. exact (proj1 (eLt_not_le _ _) T A). }
  destruct (finite_times _ _ _ _ P N NR F (eLt_le _ _ S0) H OK) as (_ & FT). destruct (FT v (nth_error_In _ _ V)) as (A & _).
  unfold since in X. destruct (v_srv v); congruence.
Qed.

(** ** More servers *)

Lemma after_mono E E' t : Forall2 eLe E' E -> after E' t <= after E t.
Proof.
  induction 1 as [|e' e E' E L _ IH]; [reflexivity|]. unfold after, zlen in *. cbn [filter]. destruct (eltb t e') eqn:X.
  - apply eltb_lt in X. assert (Y : eltb t e = true) by (apply eltb_lt; exact (eLt_le_trans _ _ _ X L)). rewrite Y. cbn [length]. lia.
  - destruct (eltb t e); cbn [length]; lia.
Qed.

Lemma first_free_mono c c' E E' a a' s s' : eLe c c' -> Forall2 eLe E' E -> eLe a' a -> first_free c E a s -> first_free c' E' a' s' -> eLe s' s.
Proof.
  intros C FE A (S1 & S2 & S3) (T1 & T2 & T3). destruct (eleb s' s) eqn:X; [apply eleb_le; exact X|]. exfalso. apply eleb_gt in X.
  assert (Y := T3 s (eLe_trans _ _ _ A S1) X). assert (M := after_mono E E' s FE).
  assert (Z1 : eLt (Fin (after E' s)) c') by (eapply eLt_le_trans; [|exact C]; destruct c; [|exact Logic.I]; elia).
  exact (proj1 (eLt_not_le _ _) Z1 Y).
Qed.

Lemma plan_mono c c' srv srv' : eLt (Fin 0) c -> eLe c c' -> forall arr arr' k k' E E',
  (forall i s s', eLe s' s -> eLe (srv' (k' + i)%nat s') (srv (k + i)%nat s)) ->
  Forall2 eLe arr' arr -> Forall2 eLe E' E ->
  Forall2 (fun p' p => eLe (fst p') (fst p) /\ eLe (snd p') (snd p)) (plan c' srv' k' E' arr') (plan c srv k E arr).
Proof.
  intros C0 C arr. induction arr as [|a arr IH]; intros arr' k k' E E' SM AM EM; inversion AM as [|a' ? arr0' ? A1 A2]; subst; [constructor|].
  cbn [plan]. assert (C0' : eLt (Fin 0) c') by (eapply eLt_le_trans; eassumption).
  assert (S1 : eLe (free_time c' E' a') (free_time c E a)) by exact (first_free_mono _ _ _ _ _ _ _ _ C EM A1 (free_time_first c E a C0) (free_time_first c' E' a' C0')).
  assert (S2 := SM 0%nat _ _ S1). rewrite !Nat.add_0_r in S2. constructor; [split; assumption|].
  apply IH; [|exact A2|].
  - intros i s s' L. specialize (SM (S i) s s' L). rewrite !Nat.add_succ_r in SM. exact SM.
  - apply Forall2_app; [exact EM|]. constructor; [exact S2|constructor].
Qed.

Lemma plan_firstn c srv : forall n arr k E, firstn n (plan c srv k E arr) = plan c srv k E (firstn n arr).
Proof. induction n as [|n IH]; intros [|a arr] k E; try reflexivity. cbn [plan firstn]. rewrite IH. reflexivity. Qed.

Lemma all2_nth {A B} (R : A -> B -> Prop) l m : Forall2 R l m -> forall n x y, nth_error l n = Some x -> nth_error m n = Some y -> R x y.
Proof. induction 1; intros [|n] a b X Y; cbn in *; try discriminate; [congruence|eauto]. Qed.

Lemma nth_all2 {A} (R : A -> A -> Prop) : forall n l m, (forall i x y, (i < n)%nat -> nth_error l i = Some x -> nth_error m i = Some y -> R x y) ->
  (n <= length l)%nat -> (n <= length m)%nat -> Forall2 R (firstn n l) (firstn n m).
Proof.
  induction n as [|n IH]; intros [|x l] [|y m] H L M; cbn [firstn length] in *; try lia; try constructor.
  - apply (H 0%nat); [lia|reflexivity|reflexivity].
  - apply IH; try lia. intros i a b I1 A1 B1. apply (H (S i)); [lia|exact A1|exact B1].
Qed.

Lemma nth_firstn {A} : forall n i (l : list A), (i < n)%nat -> nth_error (firstn n l) i = nth_error l i.
Proof. induction n as [|n IH]; intros [|i] [|x l] H; try lia; try reflexivity. cbn. apply IH. lia. Qed.

Lemma plan_length c srv : forall arr k E, length (plan c srv k E arr) = length arr.
Proof. induction arr as [|a arr IH]; intros k E; [reflexivity|]. cbn [plan length]. rewrite IH. reflexivity. Qed.

Theorem sooner ops q0 log q ops' q0' log' q' n v v' :
  pristine q0 -> c_class (q_cfg q0) <> CNull -> c_class (q_cfg q0) <> CResource -> forward (q_cfg q0) ->
  pristine q0' -> c_class (q_cfg q0') <> CNull -> c_class (q_cfg q0') <> CResource -> forward (q_cfg q0') ->
  eLt (Fin 0) (q_servers q0) -> eLe (q_servers q0) (q_servers q0') ->
  (forall i s s', eLe s' s -> eLe (c_srv (q_cfg q0') (q_is q0' + i)%nat s') (c_srv (q_cfg q0) (q_is q0 + i)%nat s)) ->
  exec ops q0 = Ok (log, q) -> all_calls undelayed log -> exec ops' q0' = Ok (log', q') -> all_calls undelayed log' ->
  (forall m w w', (m <= n)%nat -> nth_error (filter v_in (visits log)) m = Some w -> nth_error (filter v_in (visits log')) m = Some w' -> eLe (v_arr w') (v_arr w)) ->
  nth_error (filter v_in (visits log)) n = Some v -> nth_error (filter v_in (visits log')) n = Some v' ->
  (forall s, v_srv v = Some s -> match v_srv v' with Some s' => eLe s' s | None => eLe (q_now q') s end) /\
  (forall e, v_dep v = Some e -> match v_dep v' with Some e' => eLe e' e | None => eLe (q_now q') e end).
Proof.
  intros P N NR F P' N' NR' F' S0 SS SM H UN H' UN' AM V V'.
  assert (S0' : eLt (Fin 0) (q_servers q0')) by (eapply eLt_le_trans; eassumption).
  assert (PL := planned _ _ _ _ P N NR F S0 H UN). assert (PL' := planned _ _ _ _ P' N' NR' F' S0' H' UN').
  set (l := filter v_in (visits log)) in *. set (l' := filter v_in (visits log')) in *.
  assert (B : (n < length l)%nat) by (apply nth_error_Some; rewrite V; discriminate). assert (B' : (n < length l')%nat) by (apply nth_error_Some; rewrite V'; discriminate).
  assert (M : Forall2 eLe (firstn (S n) (map v_arr l')) (firstn (S n) (map v_arr l))).
  { rewrite !firstn_map. assert (X : Forall2 (fun w' w => eLe (v_arr w') (v_arr w)) (firstn (S n) l') (firstn (S n) l)).
    { apply nth_all2; [|lia|lia]. intros i x y I1 X Y. apply (AM i y x); [lia|exact Y|exact X]. }
    clear - X. induction X; cbn [map]; constructor; assumption. }
  assert (K := plan_mono _ _ (c_srv (q_cfg q0)) (c_srv (q_cfg q0')) S0 SS _ _ (q_is q0) (q_is q0') [] [] SM M (Forall2_nil _)).
  rewrite <- !plan_firstn in K.
  destruct (nth_error (plan (q_servers q0) (c_srv (q_cfg q0)) (q_is q0) [] (map v_arr l)) n) as [p|] eqn:E1.
  2: { apply nth_error_None in E1. rewrite plan_length, map_length in E1. lia. }
  destruct (nth_error (plan (q_servers q0') (c_srv (q_cfg q0')) (q_is q0') [] (map v_arr l')) n) as [p'|] eqn:E1'.
  2: { apply nth_error_None in E1'. rewrite plan_length, map_length in E1'. lia. }
  assert (O := all2_nth _ _ _ PL _ _ _ V E1). assert (O' := all2_nth _ _ _ PL' _ _ _ V' E1').
  assert (Q : eLe (fst p') (fst p) /\ eLe (snd p') (snd p)).
  { apply (all2_nth _ _ _ K n); rewrite nth_firstn by lia; assumption. }
  destruct Q as (Q1 & Q2). destruct O as (O1 & O2). destruct O' as (O1' & O2'). split.
  - intros s E. rewrite E in O1. subst s. destruct (v_srv v'); [subst; exact Q1|exact (eLe_trans _ _ _ O1' Q1)].
  - intros e E. rewrite E in O2. subst e. destruct (v_dep v'); [subst; exact Q2|exact (eLe_trans _ _ _ O2' Q2)].
Qed.
