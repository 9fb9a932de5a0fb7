(** * QueueFlow: where agents go in one call *)
From Coq Require Import List ZArith QArith Lia Bool Permutation Arith.
From Verif Require Import Base Heap HeapProofs Queue QueueEffects QueueEvents QueueSteps QueueInv SpecQueue.
Import ListNotations.
Open Scope Z_scope.

Lemma aid_dec (a b : aid) : {a = b} + {a <> b}.
Proof. decide equality; [apply Z.eq_dec | apply Nat.eq_dec]. Qed.

Notation cnt := (count_occ aid_dec).

Lemma cnt_cons a l x : cnt (a :: l) x = (cnt [a] x + cnt l x)%nat.
Proof. simpl. destruct (aid_dec a x); reflexivity. Qed.

Lemma perm_cnt l l' : Permutation l l' -> forall x, cnt l x = cnt l' x.
Proof. intro P. apply Permutation_count_occ. exact P. Qed.

Lemma perm_of_cnt l l' : (forall x, cnt l x = cnt l' x) -> Permutation l l'.
Proof. intro P. apply (Permutation_count_occ aid_dec). exact P. Qed.

Lemma perm_ids l l' : Permutation l l' -> forall x, cnt (ids l) x = cnt (ids l') x.
Proof. intro P. apply perm_cnt. apply Permutation_map. exact P. Qed.

(** Splits counts of [ids] of concatenations. *)
Ltac ccount := unfold ids in *; cbn [map] in *;
  repeat (rewrite map_app in * || rewrite count_occ_app in * || rewrite app_nil_r in *);
  repeat match goal with
  | H : context [cnt (?a :: ?l) ?x] |- _ => lazymatch l with nil => fail | _ => rewrite (cnt_cons a l x) in H end
  | |- context [cnt (?a :: ?l) ?x] => lazymatch l with nil => fail | _ => rewrite (cnt_cons a l x) end
  end; cbn [count_occ] in *.

Lemma nonnull_arriving q : c_class (q_cfg q) <> CNull -> wfh (q_arr q) -> wfh (q_dep q) ->
  eLe (hmin (q_arr q)) (hmin (q_dep q)) -> hmin (q_arr q) <> Inf ->
  forall a h, pop_agent (q_arr q) = Ok (a, h) -> arriving q = Some a.
Proof.
  intros N Wa Wd L F a h P. apply pop_agent_Ok in P as (_ & _ & _ & t & QA); [|exact Wa].
  unfold arriving, next_event_description.
  rewrite (wfh_root_time _ Wa), (wfh_root_time _ Wd). cbn [bind].
  apply eltb_ge in L. rewrite L.
  assert (X : eltb (hmin (q_arr q)) Inf = true) by (apply eltb_lt; apply eLt_Inf; exact F).
  rewrite X, QA. destruct (c_class (q_cfg q)); congruence.
Qed.

Lemma departing_not_arriving q : wfh (q_arr q) -> wfh (q_dep q) ->
  eLt (hmin (q_dep q)) (hmin (q_arr q)) -> arriving q = None.
Proof.
  intros Wa Wd L. unfold arriving, next_event_description.
  rewrite (wfh_root_time _ Wa), (wfh_root_time _ Wd). cbn [bind].
  apply eltb_lt in L. rewrite L. destruct (c_class (q_cfg q)); reflexivity.
Qed.

Lemma idle_not_arriving q : wfh (q_arr q) -> wfh (q_dep q) ->
  c_class (q_cfg q) = CNull \/ (hmin (q_arr q) = Inf /\ hmin (q_dep q) = Inf) -> arriving q = None.
Proof.
  intros Wa Wd [C|[A D]]; unfold arriving, next_event_description.
  - rewrite C. reflexivity.
  - rewrite (wfh_root_time _ Wa), (wfh_root_time _ Wd), A, D. cbn [bind].
    destruct (c_class (q_cfg q)); reflexivity.
Qed.

(** ** Flow of one event *)

(** The flow of a call: [new] are the agents created, [st] those whose
    service starts. *)
Record flow (q q' : queue) (new st sent adm dep lost : list aid) : Prop := mkFlow {
  fl_arr : Permutation (ids (scheduled q) ++ sent ++ new) (ids (scheduled q') ++ adm ++ lost);
  fl_line : ids (waiting q) ++ adm = st ++ ids (waiting q') \/
            (exists x, adm = [x] /\ st = [x] /\ ids (waiting q') = ids (waiting q));
  fl_dep : Permutation (ids (in_service q) ++ st) (ids (in_service q') ++ dep);
  fl_new : new = [] /\ q_oarr q' = q_oarr q \/ new = [(c_idx (q_cfg q), q_oarr q)] /\ q_oarr q' = q_oarr q + 1;
  fl_cfg : q_cfg q' = q_cfg q
}.

Lemma draw_new q q2 new : draw q q2 new ->
  Permutation (agents_of (q_arr q2)) (new ++ agents_of (q_arr q)) /\ q_cfg q2 = q_cfg q /\
  q_line q2 = q_line q /\ q_dep q2 = q_dep q /\ q_departed q2 = q_departed q /\ q_narr q2 = q_narr q /\
  q_nsys q2 = q_nsys q /\ q_servers q2 = q_servers q /\ q_blocked q2 = q_blocked q /\ q_over q2 = q_over q /\
  q_collect q2 = q_collect q /\ q_data q2 = q_data q /\ q_now q2 = q_now q /\ q_is q2 = q_is q /\
  (ids new = [] /\ q_oarr q2 = q_oarr q \/ ids new = [(c_idx (q_cfg q), q_oarr q)] /\ q_oarr q2 = q_oarr q + 1).
Proof.
  intros (tm & act & h & i & ct & -> & W & P & C). qc.
  split; [exact P|]. do 13 (split; [reflexivity|]).
  destruct C as [(-> & _)|[(-> & _)|(a & -> & _ & _ & _ & _ & _ & I & _)]].
  - left. split; [reflexivity | simpl; lia].
  - left. split; [reflexivity | simpl; lia].
  - right. cbn. rewrite I. auto.
Qed.

Lemma flow_departure q r q' : qinv q -> qs_departure q = Ok (r, q') ->
  exists a st, r = Some a /\ flow q q' [] st [] [] [ag_id a] [] /\
    (st = [] \/ exists x, st = [x]) /\
    q_departed q' = q_departed q + 1 /\ q_nsys q' = q_nsys q - 1 /\ q_narr q' = q_narr q /\
    q_blocked q' = q_blocked q /\ q_now q' = ag_time a /\ q_oarr q' = q_oarr q /\
    ag_time a = hmin (q_dep q) /\
    (c_class (q_cfg q) <> CResource -> q_servers q' = q_servers q) /\
    (q_line q <> [] -> st = [] -> eLe (q_servers q) (Fin (na (q_dep q) - 1))) /\
    (st <> [] -> eLt (Fin (na (q_dep q) - 1)) (q_servers q)).
Proof.
  intros [Wa Wd SY TT M] H.
  apply qs_departure_Ok in H; [|exact Wa|exact Wd].
  destruct H as (a & h & a' & h' & line' & n & d1 & d & s & o & P & -> & I1 & T1 & _ & _ & -> & _ & W' & SO & C).
  apply pop_agent_Ok in P as (Wh & Ph & Th & _); [|exact Wd]. cbv zeta in C.
  exists a'. rewrite I1, T1.
  assert (CC : (line' = q_line q /\ h' = h /\
                 (q_line q <> [] -> eLe (q_servers q) (Fin (na (q_dep q) - 1)))) \/
               exists b b', q_line q = b :: line' /\ ag_id b' = ag_id b /\
                  Permutation (agents_of h') (b' :: agents_of h) /\
                  eLt (Fin (na (q_dep q) - 1)) (q_servers q)).
  { replace (q_nsys q - 1 - Z.of_nat (length (q_line q))) with (na (q_dep q) - 1) in C by lia.
    destruct C as [(C0 & -> & -> & _)|(C0 & b & b' & L & I2 & _ & _ & PP & _)].
    - left. split; [reflexivity|]. split; [reflexivity|]. intro LN.
      apply andb_false_iff in C0. destruct C0 as [C0|C0]; [|apply eltb_ge; exact C0].
      apply Z.ltb_ge in C0. destruct (q_line q); [congruence | cbn [length] in C0; lia].
    - right. apply andb_true_iff in C0 as [_ C0]. apply eltb_lt in C0. exists b, b'. auto. }
  clear C. exists (match q_line q with b :: l => if Nat.eqb (length line') (length l) then [ag_id b] else [] | [] => [] end).
  split; [reflexivity|].
  split; [|split; [destruct (q_line q) as [|b l]; [auto|destruct (Nat.eqb (length line') (length l)); eauto]|
           qc; do 7 (split; [auto|]); split; [intro NR; apply SO; exact NR|]]].
  2:{ destruct CC as [(-> & -> & CC)|(b & b' & L & _ & _ & CC)].
      - split; [intros LN _; exact (CC LN)|]. destruct (q_line q) as [|b l]; [congruence|].
        cbn [length]. destruct (Nat.eqb_spec (Datatypes.S (length l)) (length l)); [lia | congruence].
      - rewrite L, Nat.eqb_refl. split; [discriminate | intros _; exact CC]. }
  destruct CC as [(-> & -> & _)|(b & b' & L & I2 & PP & _)].
  - assert (X : match q_line q with b :: l => if Nat.eqb (length (q_line q)) (length l) then [ag_id b] else [] | [] => [] end = []).
    { destruct (q_line q) as [|b l]; [reflexivity|]. cbn [length].
      destruct (Nat.eqb_spec (S (length l)) (length l)); [lia | reflexivity]. }
    rewrite X. apply mkFlow; [| | |left; auto|reflexivity].
    + rewrite !app_nil_r. reflexivity.
    + left. rewrite app_nil_r. reflexivity.
    + rewrite app_nil_r. change (Permutation (ids (agents_of (q_dep q))) (ids (agents_of h) ++ [ag_id a])).
      apply perm_of_cnt. intro x. assert (Y := perm_ids _ _ Ph x). ccount. lia.
  - rewrite L, Nat.eqb_refl. apply mkFlow; [| | |left; auto|reflexivity].
    + rewrite !app_nil_r. reflexivity.
    + left. rewrite app_nil_r. unfold waiting. qc. rewrite L. reflexivity.
    + change (Permutation (ids (agents_of (q_dep q)) ++ [ag_id b]) (ids (agents_of h') ++ [ag_id a])).
      apply perm_of_cnt. intro x. assert (Y := perm_ids _ _ Ph x). assert (Y' := perm_ids _ _ PP x).
      ccount. rewrite I2 in Y'. lia.
Qed.

Lemma flow_arrival q r q' : c_class (q_cfg q) <> CNull -> qinv q -> qs_arrival q = Ok (r, q') ->
  exists a h new st, r = None /\ pop_agent (q_arr q) = Ok (a, h) /\
    flow q q' new st [] [ag_id a] [] [] /\
    q_departed q' = q_departed q /\ q_nsys q' = q_nsys q + 1 /\ q_narr q' = q_narr q + 1 /\
    q_blocked q' = q_blocked q /\ q_now q' = ag_time a /\ ag_time a = hmin (q_arr q) /\
    (c_class (q_cfg q) <> CResource -> q_servers q' = q_servers q /\
      (st = [] /\ eLt (q_servers q) (Fin (q_nsys q + 1)) /\ ids (waiting q') = ids (waiting q) ++ [ag_id a] \/
       st = [ag_id a] /\ eLe (Fin (q_nsys q + 1)) (q_servers q) /\ ids (waiting q') = ids (waiting q))).
Proof.
  intros N [Wa Wd SY TT M] H.
  apply qs_arrival_Ok in H; [|exact N|exact Wa|exact Wd].
  destruct H as (a & h & q2 & new & h' & line' & n & d1 & d & s1 & o1 & s & o & a1 & -> & P & DR & I1 & _ & _ & -> & _ & W' & SO1 & SO & C).
  assert (P0 := P). apply pop_agent_Ok in P as (Wh & Ph & Th & _); [|exact Wa].
  apply draw_new in DR as (PD & CF & F2 & F3 & F4 & F5 & F6 & F7 & F8 & F9 & F10 & F11 & F12 & F13 & NW).
  qch PD. qch CF. qch F2. qch F3. qch F4. qch F5. qch F6. qch F7. qch F8. qch F12. qch NW.
  exists a, h, (ids new).
  assert (ARR : Permutation (ids (agents_of (q_arr q)) ++ [] ++ ids new)
                            (ids (agents_of (q_arr q2)) ++ [ag_id a] ++ [])).
  { apply perm_of_cnt. intro x. assert (Y := perm_ids _ _ Ph x). assert (Y' := perm_ids _ _ PD x).
    ccount. cbn [app]. ccount. lia. }
  destruct C as [(C1 & -> & _ & (a2 & I2 & _ & _ & PP) & _)|(C1 & -> & _ & -> & _ & -> & ->)].
  - exists [ag_id a]. split; [reflexivity|]. split; [exact P0|]. split.
    { apply mkFlow; [exact ARR| | |exact NW|exact CF].
      - right. exists (ag_id a). auto.
      - change (Permutation (ids (agents_of (q_dep q)) ++ [ag_id a]) (ids (agents_of h') ++ [])).
        apply perm_of_cnt. intro x. assert (Y := perm_ids _ _ PP x). ccount. rewrite I2 in Y. lia. }
    qc. repeat (split; [auto; congruence|]). intro NR. destruct (SO NR) as [-> _]. destruct (SO1 NR) as [X _]. rewrite X in C1.
    apply eleb_le in C1. split; [reflexivity|]. right. auto.
  - exists []. split; [reflexivity|]. split; [exact P0|]. split.
    { apply mkFlow; [exact ARR| | |exact NW|exact CF].
      - left. unfold waiting, ids. qc. rewrite map_app. cbn. rewrite I1. reflexivity.
      - rewrite !app_nil_r. reflexivity. }
    qc. repeat (split; [auto; congruence|]). intro NR. destruct (SO NR) as [X _]. rewrite X in *.
    apply eleb_gt in C1. split; [reflexivity|]. left. unfold waiting, ids. qc. rewrite map_app. cbn. rewrite I1. auto.
Qed.

Lemma flow_blocked q r q' : c_class (q_cfg q) <> CNull -> qinv q -> loss_blocked q = Ok (r, q') ->
  exists a h new, r = None /\ pop_agent (q_arr q) = Ok (a, h) /\
    flow q q' new [] [] [] [] [ag_id a] /\
    q_departed q' = q_departed q /\ q_nsys q' = q_nsys q /\ q_narr q' = q_narr q /\
    q_blocked q' = q_blocked q + 1 /\ q_now q' = ag_time a /\ ag_time a = hmin (q_arr q) /\
    q_servers q' = q_servers q /\ q_line q' = q_line q /\ q_dep q' = q_dep q.
Proof.
  intros N [Wa Wd SY TT M] H.
  apply loss_blocked_Ok in H; [|exact N|exact Wa|exact Wd].
  destruct H as (a & h & q2 & new & d & -> & P & DR & -> & _).
  assert (P0 := P). apply pop_agent_Ok in P as (Wh & Ph & Th & _); [|exact Wa].
  apply draw_new in DR as (PD & CF & F2 & F3 & F4 & F5 & F6 & F7 & F8 & F9 & F10 & F11 & F12 & F13 & NW).
  qch PD. qch CF. qch F2. qch F3. qch F4. qch F5. qch F6. qch F7. qch F8. qch F12. qch NW.
  exists a, h, (ids new). split; [reflexivity|]. split; [exact P0|]. split.
  { apply mkFlow; [| | |exact NW|exact CF].
    - change (Permutation (ids (agents_of (q_arr q)) ++ [] ++ ids new)
                            (ids (agents_of (q_arr q2)) ++ [] ++ [ag_id a])).
      apply perm_of_cnt. intro x. assert (Y := perm_ids _ _ Ph x). assert (Y' := perm_ids _ _ PD x).
      ccount. cbn [app]. ccount. lia.
    - left. unfold waiting. qc. rewrite F2, app_nil_r. reflexivity.
    - unfold in_service. qc. rewrite F3, !app_nil_r. reflexivity. }
  qc. rewrite F2, F3, F4, F5, F6, F7, F12. auto 12.
Qed.

Lemma flow_rq_return q r q' : qinv q -> rq_return q = Ok (r, q') ->
  exists a h, r = None /\ pop_agent (q_arr q) = Ok (a, h) /\
    flow q q' [] [] [] [] [] [ag_id a] /\
    q_departed q' = q_departed q /\ q_nsys q' = q_nsys q /\ q_narr q' = q_narr q /\
    q_blocked q' = q_blocked q /\ q_now q' = ag_time a /\ ag_time a = hmin (q_arr q) /\
    q_servers q' = eadd (q_servers q) (Fin 1) /\ q_line q' = q_line q /\ q_dep q' = q_dep q.
Proof.
  intros [Wa Wd SY TT M] H.
  apply rq_return_Ok in H; [|exact Wa|exact Wd].
  destruct H as (a & h & o & d & -> & P & W & -> & _).
  assert (P0 := P). apply pop_agent_Ok in P as (Wh & Ph & Th & _); [|exact Wa].
  exists a, h. split; [reflexivity|]. split; [exact P0|]. split.
  { apply mkFlow; [| |reflexivity|left; auto|reflexivity].
    - change (Permutation (ids (agents_of (q_arr q)) ++ [] ++ []) (ids (agents_of h) ++ [] ++ [ag_id a])).
      apply perm_of_cnt. intro x. assert (Y := perm_ids _ _ Ph x).
      ccount. cbn [app]. ccount. lia.
    - left. unfold waiting. qc. rewrite app_nil_r. reflexivity. }
  qc. auto 12.
Qed.

Lemma flow_rq_blocked q r q' : qinv q -> rq_blocked q = Ok (r, q') ->
  exists a h, r = None /\ pop_agent (q_arr q) = Ok (a, h) /\
    flow q q' [] [] [] [] [] [ag_id a] /\
    q_departed q' = q_departed q /\ q_nsys q' = q_nsys q /\ q_narr q' = q_narr q + 1 /\
    q_blocked q' = q_blocked q + 1 /\ q_now q' = ag_time a /\ ag_time a = hmin (q_arr q) /\
    q_servers q' = q_servers q /\ q_line q' = q_line q /\ q_dep q' = q_dep q.
Proof.
  intros [Wa Wd SY TT M] H.
  apply rq_blocked_Ok in H; [|exact Wa|exact Wd].
  destruct H as (a & h & d & -> & P & W & -> & _).
  assert (P0 := P). apply pop_agent_Ok in P as (Wh & Ph & Th & _); [|exact Wa].
  exists a, h. split; [reflexivity|]. split; [exact P0|]. split.
  { apply mkFlow; [| |reflexivity|left; auto|reflexivity].
    - change (Permutation (ids (agents_of (q_arr q)) ++ [] ++ []) (ids (agents_of h) ++ [] ++ [ag_id a])).
      apply perm_of_cnt. intro x. assert (Y := perm_ids _ _ Ph x).
      ccount. cbn [app]. ccount. lia.
    - left. unfold waiting. qc. rewrite app_nil_r. reflexivity. }
  qc. auto 12.
Qed.
