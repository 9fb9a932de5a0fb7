(** * QueueEvents: what next_event changes, branch by branch *)
From Coq Require Import List ZArith QArith Lia Bool Permutation Arith.
From Verif Require Import Base Heap HeapProofs Queue QueueEffects.
Import ListNotations.
Open Scope Z_scope.

(** Effect of "if collecting and known: change the last row". *)
Definition dmod (c : bool) (d : qdata) (i : aid) (f : row -> row) (d' : qdata) : Prop :=
  (d' = d /\ (c = false \/ dget d i = None)) \/ (c = true /\ dlast d i f = Ok d').

Lemma set_q_data_same q : set_q_data (q_data q) q = q.
Proof. destruct q; reflexivity. Qed.
Lemma set_so_same q : set_q_over (q_over q) (set_q_servers (q_servers q) q) = q.
Proof. destruct q; reflexivity. Qed.

(** Effect on num_servers and over_max of an agent's action: only in a
    ResourceQueue. *)
Definition so_ok (q : queue) (s : ext) (o : Z) : Prop :=
  c_class (q_cfg q) <> CResource -> s = q_servers q /\ o = q_over q.

Lemma qs_departure_Ok q r q' :
  wfh (q_arr q) -> wfh (q_dep q) -> qs_departure q = Ok (r, q') ->
  exists a h a' h' line' n d1 d s o,
    pop_agent (q_dep q) = Ok (a, h) /\ r = Some a' /\
    ag_id a' = ag_id a /\ ag_time a' = ag_time a /\ ag_kind a' = ag_kind a /\
    ag_blocked a' = ag_blocked a /\
    q' = set_q_time (emin (hmin (q_arr q)) (hmin h'))
          (set_q_over o (set_q_servers s (set_q_is n (set_q_dep h' (set_q_line line' (set_q_data d
            (set_q_departed (q_departed q + 1) (set_q_nsys (q_nsys q - 1)
              (set_q_total (q_total q - 1) (set_q_now (ag_time a) q)))))))))) /\
    dmod (q_collect q) (q_data q) (ag_id a) (row_set_dep (ag_time a)) d1 /\
    wfh h' /\ so_ok q s o /\
    let started := (0 <? Z.of_nat (length (q_line q))) &&
                   eltb (Fin (q_nsys q - 1 - Z.of_nat (length (q_line q)))) (q_servers q) in
    ((started = false /\ line' = q_line q /\ h' = h /\ n = q_is q /\ d = d1) \/
     (started = true /\ exists b b', q_line q = b :: line' /\
        ag_id b' = ag_id b /\ ag_time b' = c_srv (q_cfg q) (q_is q) (ag_time a) /\
        ag_kind b' = ag_kind b /\
        Permutation (agents_of h') (b' :: agents_of h) /\ n = S (q_is q) /\
        dmod (q_collect q) d1 (ag_id b) (row_set_srv (ag_time a)) d)).
Proof.
  intros Wa Wd H. unfold qs_departure in H. mbind H. destruct x as [a h].
  destruct (pop_agent_Ok _ _ _ Wd E) as (Wh & Ph & Th & _).
  mbind H. apply dlast_if_Ok in E0 as (d1 & -> & D1). qch H. qch D1.
  mbind H. mbind H. destruct x0 as [a' q4]. mbind H.
  set (started := (0 <? Z.of_nat (length (q_line q))) &&
                   eltb (Fin (q_nsys q - 1 - Z.of_nat (length (q_line q)))) (q_servers q)) in *.
  set (q2 := set_q_data d1 _) in *.
  assert (ST : exists h' line' n d s1 o1,
     x = set_q_over o1 (set_q_servers s1 (set_q_is n (set_q_dep h' (set_q_line line' (set_q_data d q2))))) /\
     wfh h' /\ so_ok q s1 o1 /\
     ((started = false /\ line' = q_line q /\ h' = h /\ n = q_is q /\ d = d1) \/
     (started = true /\ exists b b', q_line q = b :: line' /\
        ag_id b' = ag_id b /\ ag_time b' = c_srv (q_cfg q) (q_is q) (ag_time a) /\
        ag_kind b' = ag_kind b /\
        Permutation (agents_of h') (b' :: agents_of h) /\ n = S (q_is q) /\
        dmod (q_collect q) d1 (ag_id b) (row_set_srv (ag_time a)) d))).
  { destruct started.
    - apply service_from_queue_Ok in E0; [|exact Wh].
      destruct E0 as (b & line' & b' & h' & d & s & o & L & -> & I1 & T1 & K1 & W1 & P1 & DD & SO).
      exists h', line', (S (q_is q)), d, s, o.
      split; [reflexivity|]. split; [exact W1|]. split; [exact SO|].
      right. split; [reflexivity|]. exists b, b'. repeat (split; [assumption|]).
      split; [reflexivity|]. exact DD.
    - inversion E0; subst x. exists h, (q_line q), (q_is q), d1, (q_servers q), (q_over q).
      split; [reflexivity|]. split; [exact Wh|]. split; [intro; auto|].
      left. auto 6. }
  destruct ST as (h' & line' & n & d & s1 & o1 & -> & W' & SO1 & CASES).
  apply queue_action_Ok in E1 as (A1 & A2 & A3 & A4 & s & o & -> & SO).
  apply update_time_Ok in E2; [|exact Wa|exact W']. subst x0. inversion H; subst r q'. clear H.
  exists a, h, a', h', line', n, d1, d, s, o.
  split; [exact E|]. split; [reflexivity|]. repeat (split; [assumption|]).
  split; [reflexivity|].
  split.
  { unfold dmod. exact D1. }
  split; [exact W'|]. split; [|exact CASES].
  intro N. specialize (SO1 N). destruct SO1 as [-> ->].
  destruct SO as [[S1 S2]|S1]; [split; [exact S1 | exact S2]|].
  destruct S1 as (_ & S1 & _). qch S1. unfold q2 in S1. qch S1. congruence.
Qed.

(** The draw of an outside arrival inside next_event. *)
Definition draw (q q' : queue) (new : list agent) : Prop :=
  let nct := c_arr (q_cfg q) (q_ia q) (q_now q) in
  exists tm act h i ct,
    q' = set_q_time tm (set_q_active act (set_q_oarr (q_oarr q + Z.of_nat (length new))
          (set_q_arr h (set_q_total (q_total q + Z.of_nat (length new))
            (set_q_ia i (set_q_next_ct ct q)))))) /\
    wfh h /\ Permutation (agents_of h) (new ++ agents_of (q_arr q)) /\
    ((new = [] /\ h = q_arr q /\ act = q_active q /\ i = q_ia q /\ ct = q_next_ct q /\
      (q_active q = false \/ eLt (q_now q) (q_next_ct q))) \/
     (new = [] /\ h = q_arr q /\ q_active q = true /\ act = false /\ i = S (q_ia q) /\ ct = nct /\
      eLe (q_next_ct q) (q_now q) /\ eLe (c_deactive_t (q_cfg q)) nct /\ c_class (q_cfg q) <> CInfo) \/
     (exists a, new = [a] /\ q_active q = true /\ i = S (q_ia q) /\ ct = nct /\
      eLe (q_next_ct q) (q_now q) /\ eLt nct (c_deactive_t (q_cfg q)) /\
      ag_id a = (c_idx (q_cfg q), q_oarr q) /\ ag_time a = nct /\ ag_kind a = c_factory (q_cfg q) /\
      ag_blocked a = 0 /\ ag_has a = false /\
      act = (if eleb (c_active_cap (q_cfg q)) (Fin (q_oarr q + 1)) then false else true))).

Lemma draw_Ok q q' : c_class (q_cfg q) <> CNull -> wfh (q_arr q) -> wfh (q_dep q) ->
  (if q_active q then add_arrival_self q else Ok q) = Ok q' -> exists new, draw q q' new.
Proof.
  intros N Wa Wd H. unfold draw. destruct (q_active q) eqn:A.
  - assert (H' : add_arrival_new q = Ok q').
    { unfold add_arrival_self in H. destruct (c_class (q_cfg q)); congruence. }
    clear H. apply add_arrival_new_Ok in H'; [|assumption|assumption]. cbv zeta in H'.
    destruct H' as [(T & ->)|[(T & D & C & ->)|(T & D & a & h & act & -> & I1 & T1 & K1 & B1 & H1 & W & P & AC)]].
    + exists []. eexists; exists (q_active q), (q_arr q), (q_ia q), (q_next_ct q).
      split; [|split; [exact Wa|split; [reflexivity|left; auto 8]]].
      simpl. rewrite !Z.add_0_r. destruct q; reflexivity.
    + exists []. exists (q_time q), false, (q_arr q). do 2 eexists.
      split; [|split; [exact Wa|split; [reflexivity|right; left; auto 12]]].
      simpl. rewrite !Z.add_0_r. destruct q; reflexivity.
    + exists [a]. do 5 eexists.
      split; [reflexivity|]. split; [exact W|]. split; [exact P|].
      right; right. exists a. rewrite A in AC. auto 14.
  - inversion H; subst. exists []. exists (q_time q'), (q_active q'), (q_arr q'), (q_ia q'), (q_next_ct q').
    split; [simpl; rewrite !Z.add_0_r; destruct q'; reflexivity|].
    split; [exact Wa|]. split; [reflexivity|]. left. rewrite A. auto 8.
Qed.

(** An arriving agent goes into service. *)
Lemma start_service_Ok q6 a1 r q' :
  wfh (q_arr q6) -> wfh (q_dep q6) ->
  (let '(t, q7) := call_srv q6 (ag_time a1) in
    let* (a2, q8) := queue_action (set_ag_time t a1) q7 in
    let* h2 := push_item (q_dep q8) a2 in
    let* q9 := update_time (set_q_dep h2 q8) in
    Ok (None, q9)) = Ok (r, q') ->
  exists a2 h2 s o, r = @None agent /\
    q' = set_q_time (emin (hmin (q_arr q6)) (hmin h2)) (set_q_dep h2 (set_q_over o (set_q_servers s
           (set_q_is (S (q_is q6)) q6)))) /\
    ag_id a2 = ag_id a1 /\ ag_time a2 = c_srv (q_cfg q6) (q_is q6) (ag_time a1) /\
    ag_kind a2 = ag_kind a1 /\
    wfh h2 /\ Permutation (agents_of h2) (a2 :: agents_of (q_dep q6)) /\ so_ok q6 s o.
Proof.
  intros Wa Wd H. unfold call_srv in H.
  mbind H. destruct x as [a2 q8].
  apply queue_action_Ok in E as (B1 & B2 & B3 & B4 & s & o & -> & SO2).
  mbind H. apply push_item_Ok in E as [W2 P2]; [|exact Wd].
  mbind H. apply update_time_Ok in E; [|exact Wa|exact W2]. subst x0.
  inversion H; subst r q'. clear H.
  exists a2, x, s, o. split; [reflexivity|]. split; [reflexivity|].
  split; [exact B1|]. split; [exact B2|]. split; [exact B3|]. split; [exact W2|].
  split; [exact P2|].
  intro NR. destruct SO2 as [X|X]; [exact X|]. destruct X as (_ & X & _). qch X. congruence.
Qed.

Lemma qs_arrival_Ok q r q' :
  c_class (q_cfg q) <> CNull ->
  wfh (q_arr q) -> wfh (q_dep q) -> qs_arrival q = Ok (r, q') ->
  exists a h q2 new h' line' n d1 d s1 o1 s o a1,
    r = None /\ pop_agent (q_arr q) = Ok (a, h) /\
    draw (set_q_now (ag_time a) (set_q_arr h q)) q2 new /\
    ag_id a1 = ag_id a /\ ag_time a1 = ag_time a /\ ag_kind a1 = ag_kind a /\
    q' = set_q_time (emin (hmin (q_arr q2)) (hmin h'))
          (set_q_over o (set_q_servers s (set_q_is n (set_q_dep h' (set_q_line line' (set_q_data d
            (set_q_narr (q_narr q + 1) (set_q_nsys (q_nsys q + 1) q2)))))))) /\
    d1 = (if q_collect q then
            dappend (q_data q) (ag_id a) (mkData (ag_time a) (Fin 0) (Fin 0)
              (Z.of_nat (length (q_line q)) + (if eleb (Fin (q_nsys q + 1)) (q_servers q) then 0 else 1))
              (q_nsys q + 1))
          else q_data q) /\
    wfh h' /\ so_ok q s1 o1 /\ so_ok q s o /\
    ((eleb (Fin (q_nsys q + 1)) s1 = true /\ line' = q_line q /\ n = S (q_is q) /\
      (exists a2, ag_id a2 = ag_id a /\ ag_time a2 = c_srv (q_cfg q) (q_is q) (ag_time a) /\
        ag_kind a2 = ag_kind a /\ Permutation (agents_of h') (a2 :: agents_of (q_dep q))) /\
      (if q_collect q then dlast d1 (ag_id a) (row_set_srv (ag_time a)) = Ok d else d = d1)) \/
     (eleb (Fin (q_nsys q + 1)) s1 = false /\ line' = q_line q ++ [a1] /\ n = q_is q /\
      h' = q_dep q /\ d = d1 /\ s = s1 /\ o = o1)).
Proof.
  intros N Wa Wd H. unfold qs_arrival in H. mbind H. destruct x as [a h].
  destruct (pop_agent_Ok _ _ _ Wa E) as (Wh & Ph & Th & _).
  mbind H. rename x into q2.
  apply draw_Ok in E0 as (new & DR); [|exact N|exact Wh|exact Wd].
  assert (DR' := DR). unfold draw in DR'. destruct DR' as (tm & act & ha & i & ct & Q2 & Wha & Pha & _).
  qch Q2.
  assert (F : q_narr q2 = q_narr q /\ q_nsys q2 = q_nsys q /\ q_servers q2 = q_servers q /\
              q_collect q2 = q_collect q /\ q_data q2 = q_data q /\ q_line q2 = q_line q /\
              q_dep q2 = q_dep q /\ q_is q2 = q_is q /\ q_cfg q2 = q_cfg q /\ q_arr q2 = ha /\ q_over q2 = q_over q).
  { rewrite Q2. qc. auto 12. }
  destruct F as (F1 & F2 & F3 & F4 & F5 & F6 & F7 & F8 & F9 & F10 & F11). clear Q2.
  mbind H. destruct x as [a1 q5].
  set (d1 := if q_collect q then
            dappend (q_data q) (ag_id a) (mkData (ag_time a) (Fin 0) (Fin 0)
              (Z.of_nat (length (q_line q)) + (if eleb (Fin (q_nsys q + 1)) (q_servers q) then 0 else 1))
              (q_nsys q + 1))
          else q_data q).
  set (q4 := if q_collect (set_q_narr _ _) then _ else _) in E0.
  assert (Q4 : q4 = set_q_data d1 (set_q_narr (q_narr q + 1) (set_q_nsys (q_nsys q + 1) q2))).
  { unfold q4, d1. qc. rewrite F1, F2, F3, F4, F5, F6.
    destruct (q_collect q); [reflexivity|].
    rewrite <- F5. destruct q2; reflexivity. }
  clearbody q4. subst q4.
  apply queue_action_Ok in E0 as (A1 & A2 & A3 & A4 & s1 & o1 & -> & SO1).
  qch H. qch SO1. rewrite F3, F9, F11 in SO1.
  assert (SOK : so_ok q s1 o1).
  { intro NR. destruct SO1 as [X|X]; [exact X|]. destruct X as (_ & X & _). congruence. }
  destruct (eleb (Fin (q_nsys q + 1)) s1) eqn:SV.
  - mbind H.
    assert (D : exists d, x = set_q_data d (set_q_over o1 (set_q_servers s1 (set_q_data d1
                   (set_q_narr (q_narr q + 1) (set_q_nsys (q_nsys q + 1) q2))))) /\
                (if q_collect q then dlast d1 (ag_id a) (row_set_srv (ag_time a)) = Ok d else d = d1)).
    { rewrite F4 in E0. destruct (q_collect q).
      - mbind E0. rewrite A1, A2 in E1. inversion E0. eauto.
      - inversion E0. exists d1. split; reflexivity. }
    destruct D as (d & -> & D). clear E0.
    apply start_service_Ok in H; [|qc; rewrite F10; exact Wha|qc; rewrite F7; exact Wd].
    destruct H as (a2 & h2 & s & o & -> & -> & B1 & B2 & B3 & W2 & P2 & SO2).
    qch B2; qch P2. unfold so_ok in SO2; qch SO2.
    exists a, h, q2, new, h2, (q_line q), (S (q_is q)), d1, d, s1, o1, s, o, a1.
    split; [reflexivity|]. split; [exact E|]. split; [exact DR|].
    split; [exact A1|]. split; [exact A2|]. split; [exact A3|].
    split.
    { rewrite <- F6, <- F8. destruct q2; reflexivity. }
    split; [reflexivity|]. split; [exact W2|]. split; [exact SOK|].
    split.
    { intro NR. specialize (SOK NR). destruct SOK as [-> ->].
      rewrite F9 in SO2. exact (SO2 NR). }
    left. split; [exact SV|]. split; [reflexivity|]. split; [reflexivity|].
    split; [|exact D].
    exists a2. rewrite B1, B2, B3, A1, A3. rewrite F9, F8, A2. rewrite F7 in P2. auto.
  - mbind H. apply update_time_Ok in E0; [|qc; rewrite F10; exact Wha|qc; rewrite F7; exact Wd].
    subst x. qch H. inversion H; subst r q'. clear H.
    exists a, h, q2, new, (q_dep q), (q_line q ++ [a1]), (q_is q), d1, d1, s1, o1, s1, o1, a1.
    split; [reflexivity|]. split; [exact E|]. split; [exact DR|].
    split; [exact A1|]. split; [exact A2|]. split; [exact A3|].
    split.
    { rewrite <- F6, <- F8, <- F7. destruct q2; reflexivity. }
    split; [reflexivity|]. split; [exact Wd|]. split; [exact SOK|]. split; [exact SOK|].
    right. auto 8.
Qed.

Lemma loss_blocked_Ok q r q' :
  c_class (q_cfg q) <> CNull ->
  wfh (q_arr q) -> wfh (q_dep q) -> loss_blocked q = Ok (r, q') ->
  exists a h q2 new d,
    r = None /\ pop_agent (q_arr q) = Ok (a, h) /\
    draw (set_q_now (ag_time a) (set_q_arr h q)) q2 new /\
    q' = set_q_time (emin (hmin (q_arr q2)) (hmin (q_dep q)))
          (set_q_data d (set_q_total (q_total q2 - 1) (set_q_blocked (q_blocked q + 1) q2))) /\
    d = (if q_collect q then
            dappend (q_data q) (ag_id a) (mkData (ag_time a) (Fin 0) (Fin 0)
              (Z.of_nat (length (q_line q))) (q_nsys q))
          else q_data q).
Proof.
  intros N Wa Wd H. unfold loss_blocked in H. mbind H. destruct x as [a h]. qch E.
  destruct (pop_agent_Ok _ _ _ Wa E) as (Wh & Ph & Th & _).
  mbind H. clear E0 x. mbind H. rename x into q2'.
  apply draw_Ok in E0 as (new & DR); [|exact N|exact Wh|exact Wd].
  unfold draw in DR. qch DR. destruct DR as (tm & act & ha & i & ct & Q2 & Wha & Pha & CS).
  qch Q2.
  set (q2 := set_q_time tm (set_q_active act (set_q_oarr (q_oarr q + Z.of_nat (length new))
          (set_q_arr ha (set_q_total (q_total q + Z.of_nat (length new))
            (set_q_ia i (set_q_next_ct ct (set_q_now (ag_time a) (set_q_arr h q))))))))).
  assert (Q2' : q2' = set_q_total (q_total q2 - 1) (set_q_blocked (q_blocked q + 1) q2)).
  { rewrite Q2. unfold q2.
    replace (q_total q - 1 + Z.of_nat (length new)) with (q_total q + Z.of_nat (length new) - 1) by lia.
    reflexivity. }
  clear Q2. subst q2'.
  mbind H.
  set (d := if q_collect q then
            dappend (q_data q) (ag_id a) (mkData (ag_time a) (Fin 0) (Fin 0)
              (Z.of_nat (length (q_line q))) (q_nsys q))
          else q_data q).
  assert (E1 : update_time (set_q_data d (set_q_total (q_total q2 - 1) (set_q_blocked (q_blocked q + 1) q2))) = Ok x).
  { rewrite <- E0. f_equal. unfold d, q2. qc. destruct (q_collect q); reflexivity. }
  clear E0. apply update_time_Ok in E1; [|exact Wha|exact Wd]. subst x. inversion H; subst.
  exists a, h, q2, new, d.
  split; [reflexivity|]. split; [exact E|]. split.
  { unfold draw. exists tm, act, ha, i, ct. split; [reflexivity|]. split; [exact Wha|].
    split; [exact Pha | exact CS]. }
  split; [reflexivity|]. reflexivity.
Qed.

Lemma rq_return_Ok q r q' :
  wfh (q_arr q) -> wfh (q_dep q) -> rq_return q = Ok (r, q') ->
  exists a h o d,
    r = None /\ pop_agent (q_arr q) = Ok (a, h) /\ wfh h /\
    q' = set_q_time (emin (hmin h) (hmin (q_dep q)))
          (set_q_data d (set_q_over o (set_q_servers (eadd (q_servers q) (Fin 1))
            (set_q_total (q_total q - 1) (set_q_now (ag_time a) (set_q_arr h q)))))) /\
    o = (if eltb (c_max_servers (q_cfg q)) (eadd (q_servers q) (Fin 1)) then q_over q + 1 else q_over q) /\
    d = (if q_collect q then
            dappend (q_data q) (ag_id a) (mkData (ag_time a) (ag_time a) (ag_time a)
              (Z.of_nat (length (q_line q))) (q_nsys q))
          else q_data q).
Proof.
  intros Wa Wd H. unfold rq_return in H. mbind H. destruct x as [a h].
  destruct (pop_agent_Ok _ _ _ Wa E) as (Wh & Ph & Th & _).
  mbind H.
  set (o := if eltb (c_max_servers (q_cfg q)) (eadd (q_servers q) (Fin 1)) then q_over q + 1 else q_over q).
  set (d := if q_collect q then
            dappend (q_data q) (ag_id a) (mkData (ag_time a) (ag_time a) (ag_time a)
              (Z.of_nat (length (q_line q))) (q_nsys q))
          else q_data q).
  assert (E1 : update_time (set_q_data d (set_q_over o (set_q_servers (eadd (q_servers q) (Fin 1))
            (set_q_total (q_total q - 1) (set_q_now (ag_time a) (set_q_arr h q)))))) = Ok x).
  { rewrite <- E0. f_equal. unfold d, o, rq_set_num_servers. qc.
    destruct (eltb (c_max_servers (q_cfg q)) (eadd (q_servers q) (Fin 1))); qc; destruct (q_collect q); reflexivity. }
  clear E0. apply update_time_Ok in E1; [|exact Wh|exact Wd]. subst x. inversion H; subst.
  exists a, h, o, d. auto 8.
Qed.

Lemma rq_blocked_Ok q r q' :
  wfh (q_arr q) -> wfh (q_dep q) -> rq_blocked q = Ok (r, q') ->
  exists a h d,
    r = None /\ pop_agent (q_arr q) = Ok (a, h) /\ wfh h /\
    q' = set_q_time (emin (hmin h) (hmin (q_dep q)))
          (set_q_data d (set_q_now (ag_time a) (set_q_arr h (set_q_total (q_total q - 1)
              (set_q_narr (q_narr q + 1) (set_q_blocked (q_blocked q + 1) q)))))) /\
    d = (if q_collect q then
            dappend (q_data q) (ag_id a) (mkData (ag_time a) (Fin 0) (Fin 0)
              (Z.of_nat (length (q_line q))) (q_nsys q))
          else q_data q).
Proof.
  intros Wa Wd H. unfold rq_blocked in H. mbind H. destruct x as [a h]. qch E.
  destruct (pop_agent_Ok _ _ _ Wa E) as (Wh & Ph & Th & _).
  mbind H.
  set (d := if q_collect q then
            dappend (q_data q) (ag_id a) (mkData (ag_time a) (Fin 0) (Fin 0)
              (Z.of_nat (length (q_line q))) (q_nsys q))
          else q_data q).
  assert (E1 : update_time (set_q_data d (set_q_now (ag_time a) (set_q_arr h (set_q_total (q_total q - 1)
              (set_q_narr (q_narr q + 1) (set_q_blocked (q_blocked q + 1) q)))))) = Ok x).
  { rewrite <- E0. f_equal. unfold d. qc. destruct (q_collect q); reflexivity. }
  clear E0. apply update_time_Ok in E1; [|exact Wh|exact Wd]. subst x. inversion H; subst.
  exists a, h, d. auto 8.
Qed.
