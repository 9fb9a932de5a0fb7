(** * LineNet: the recursion at the queues of a network *)
From Coq Require Import List ZArith QArith Lia Bool Permutation Arith.
From Verif Require Import Base Heap HeapProofs Queue QueueEffects QueueEvents QueueSteps QueueInv SpecQueue QueueFlow QueueHist QueueData QueueRows QueueClaims1 QueueClaims3 SpecLine LineSteps LineProofs LineClaims LineRows
  Network SpecNet SpecRefine NetSteps NetRefine PropsNet2.
Import ListNotations.
Open Scope Z_scope.

Lemma lined_lawful q l : good q -> eLt (Fin 0) (q_servers q) -> lined q l -> lawful (q_servers q) (room q) l.
Proof.
  intros G POS L n v V. assert (E := nth_pre _ _ _ V). assert (IL := nth_error_In _ _ V). assert (VO := ln_ok _ _ L v IL).
  split; [|split].
  - intros m w M W. apply (ln_sorted _ _ L _ _ _ E). rewrite <- (firstn_skipn n l) in W. rewrite nth_error_app1 in W; [exact (nth_error_In _ _ W)|].
    rewrite firstn_length. assert (n < length l)%nat by (apply nth_error_Some; rewrite V; discriminate). lia.
  - assert (X := ln_cap _ _ L _ _ _ E). unfold cap_ok in X. destruct (v_in v) eqn:IN.
    + split; [exact (lined_first _ _ _ _ _ G POS L E IN)|]. assert (Y := after_many (firstn n l) (v_arr v)). elia.
    + destruct (v_srv v) as [s|] eqn:VS; [destruct (vo_srv _ _ VO s VS); congruence|].
      destruct (v_dep v) as [e|] eqn:VD; [destruct (vo_dep _ _ VO e VD) as (s & Y & _); congruence|]. rewrite from_many. auto.
  - intros e VD. destruct (vo_dep _ _ VO e VD) as (s & A & B & _). eauto.
Qed.

Theorem lawful_visits ops q0 log q : pristine q0 -> c_class (q_cfg q0) <> CNull -> c_class (q_cfg q0) <> CResource -> forward (q_cfg q0) ->
  eLt (Fin 0) (q_servers q0) -> exec ops q0 = Ok (log, q) -> all_calls orderly log -> lawful (q_servers q0) (room q0) (visits log) /\
  ids (waiting q) = map v_id (filter v_waits (visits log)) /\ Permutation (ids (in_service q)) (map v_id (filter v_served (visits log))).
Proof.
  intros P N NR F S0 H OK. assert (S1 := eLt_le _ _ S0). destruct (exec_start _ _ _ _ P N NR F S1 H OK) as (G & L & SV & CF).
  assert (X := lined_lawful _ _ G ltac:(rewrite SV; exact S0) L). rewrite SV, (room_same _ _ SV CF) in X.
  split; [exact X|]. split; [apply (ln_line _ _ L)|apply (ln_serv _ _ L)].
Qed.

Lemma exec_snoc ops : forall q log q1 o r q2, exec ops q = Ok (log, q1) -> step o q1 = Ok (r, q2) ->
  exec (ops ++ [o]) q = Ok (log ++ [(o, q1, r, q2)], q2).
Proof.
  induction ops as [|o1 ops IH]; intros q log q1 o r q2 H ST.
  - cbn in H. injection H as <- <-. cbn [app exec]. rewrite ST. reflexivity.
  - apply exec_cons in H as (r1 & q3 & log1 & H1 & E & ->). cbn [app exec]. rewrite H1. cbn [bind]. rewrite (IH _ _ _ _ _ _ E ST). reflexivity.
Qed.

(** A history as a sequence of calls. *)
Lemma reach_exec (ok : queue -> qop -> Prop) q q' : reach ok q q' -> exists ops log, exec ops q = Ok (log, q') /\ all_calls ok log /\ ops = map (fun e => fst (fst (fst e))) log.
Proof.
  induction 1 as [|q1 o q2 R (ops & log & E & A & M) OK H].
  - exists [], []. split; [reflexivity|]. split; [constructor|reflexivity].
  - apply run_op_step in H as (r & ST). exists (ops ++ [o]), (log ++ [(o, q1, r, q2)]). split; [eapply exec_snoc; eassumption|]. split.
    + apply Forall_app. split; [exact A|]. constructor; [exact OK|constructor].
    + rewrite map_app, M. reflexivity.
Qed.

Lemma refines_recording n0 n1 n2 k q : well_made n0 -> nreach usual n0 n1 -> nreach recording n1 n2 -> get (nt_queues n2) k = Some q ->
  exists q1 q2, get (nt_queues n1) k = Some q1 /\ reach (fun q o => orderly q o /\ keeps_data o) q1 q2 /\ bare q2 = bare q.
Proof.
  intros W R1 R G. assert (HS : hists (fun q o => orderly q o /\ keeps_data o) (nt_queues n1) (nt_queues n2)).
  { apply (hists_reach _ recording n0); auto.
    - intros q1 o IN NP FR. destruct o; cbn in *; tauto.
    - intros n c [[U _] _]. exact U.
    - intros n [[_ X] _]. congruence.
    - intros n b l [_ X] j q1 IN GJ q0 _. cbn in X. subst b. cbn. auto.
    - intros n l [_ X]. destruct X. }
  destruct (HS _ _ G) as (q1 & G1 & q2 & R2 & B). eauto.
Qed.

Theorem network_visits n0 n1 n2 k q1 q : well_made n0 -> nreach usual n0 n1 -> get (nt_queues n1) k = Some q1 ->
  pristine q1 -> c_class (q_cfg q1) <> CNull -> c_class (q_cfg q1) <> CResource -> eLt (Fin 0) (q_servers q1) -> q_collect q1 = true ->
  nreach recording n1 n2 -> get (nt_queues n2) k = Some q ->
  exists l, lawful (q_servers q1) (room q1) l /\
    (forall i, map row_times (rows_of (q_data q) i) = map visit_times (visits_of i l)) /\
    ids (waiting q) = map v_id (filter v_waits l) /\ Permutation (ids (in_service q)) (map v_id (filter v_served l)).
Proof.
  intros W R1 G1 P N NR S0 CO R G.
  assert (F : forward (q_cfg q1)).
  { destruct (start_of _ _ _ _ W R1 G1) as (c & s & col & nE & q0 & G0 & _ & _ & _ & C). rewrite C.
    destruct (made_new _ _ _ W G0) as (c' & s' & col' & nE' & E & _ & F). apply (f_equal q_cfg) in E. cbn in E. subst c'. exact F. }
  destruct (refines_recording _ _ _ _ _ W R1 R G) as (q1' & q2 & G1' & R2 & B).
  assert (q1' = q1) by congruence. subst q1'. apply reach_exec in R2 as (ops & log & E & A & M).
  assert (OK : all_calls orderly log) by (unfold all_calls in *; eapply Forall_impl; [|exact A]; intros [[[o x] r] y]; tauto).
  assert (KD : Forall keeps_data ops).
  { rewrite M. clear -A. induction A as [|[[[o x] r] y] log H _ IH]; constructor; [exact (proj2 H)|exact IH]. }
  exists (visits log). destruct (lawful_visits _ _ _ _ P N NR F S0 E OK) as (X1 & X2 & X3).
  assert (D := bare_fields _ _ B). destruct (bare_ids _ _ B) as (_ & I2 & I3).
  split; [exact X1|]. split; [|split].
  - intro i. assert (Y := rows_visits _ _ _ _ i P N NR F (eLt_le _ _ S0) CO E OK KD). 
    assert (QD : q_data q = q_data q2) by (symmetry; apply D). rewrite QD. exact Y.
  - rewrite <- I3. exact X2.
  - rewrite <- I2. exact X3.
Qed.
