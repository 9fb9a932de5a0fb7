(** * QueueClaims4: LossQueue, NullQueue, ResourceQueue, InfoQueue *)
From Coq Require Import List ZArith QArith Lia Bool Permutation Arith.
From Verif Require Import Base Heap HeapProofs Queue QueueEffects QueueEvents QueueSteps QueueInv SpecQueue QueueFlow QueueHist QueueData QueueClaims1 QueueRows QueueClaims3.
Import ListNotations.
Open Scope Z_scope.

(** ** C20 *)

Lemma loss_not c : lossy c -> c_class c <> CNull /\ c_class c <> CResource /\ c_class c <> CServer.
Proof. intros [X|X]; rewrite X; split; [|split| |split]; discriminate. Qed.

(** The system size and the servers in one event. *)
Lemma next_sizes q r q' : lossy (q_cfg q) -> qinv q -> next_event q = Ok (r, q') ->
  q_servers q' = q_servers q /\
  match arriving q with
  | Some a => if at_capacity q
              then q_nsys q' = q_nsys q /\ q_narr q' = q_narr q /\ q_blocked q' = q_blocked q + 1 /\
                   waiting q' = waiting q /\ in_service q' = in_service q
              else q_nsys q' = q_nsys q + 1 /\ q_narr q' = q_narr q + 1 /\ q_blocked q' = q_blocked q /\
                   (ids (waiting q') = ids (waiting q) ++ [ag_id a] \/ exists b, ag_id b = ag_id a /\ Permutation (in_service q') (b :: in_service q))
  | None => q_nsys q' <= q_nsys q /\ q_narr q' = q_narr q /\ q_blocked q' = q_blocked q
  end.
Proof.
  intros LO IV H. destruct (loss_not _ LO) as (N & NR & NS0). assert (Wa := qi_arr _ IV). assert (Wd := qi_dep _ IV).
  assert (AC : at_capacity q = eleb (eadd (q_servers q) (c_buffer (q_cfg q))) (Fin (q_nsys q))).
  { unfold at_capacity. destruct LO as [X|X]; rewrite X; reflexivity. }
  apply next_event_event in H as (qe & PE & EV); [|exact Wa|exact Wd].
  destruct (pre_event_net _ _ PE) as (nd & ->).
  destruct EV as [ID _ -> ->|_ LT R|_ LE NI CAP _ R|_ NS LE NI CAP _ R|CR LE NI RT _ R|CR LE NI RT _ CAP R]; try congruence.
  - rewrite (idle_not_arriving q Wa Wd ID). split; [reflexivity|]. lia.
  - rewrite (departing_not_arriving q Wa Wd LT).
    apply qs_departure_Ok in R; [|exact Wa|exact Wd].
    destruct R as (a & h & a' & h' & line' & n & d1 & d & s & o & PA & -> & I1 & T1 & K1 & B1 & -> & D1 & Wh' & SO & ST).
    qc. destruct (SO NR) as (-> & _). split; [reflexivity|]. lia.
  - apply qs_arrival_Ok in R; [|exact N|exact Wa|exact Wd].
    destruct R as (a & h & q2 & new & h' & line' & n & d1 & d & s1 & o1 & s & o & a1 & -> & PA & DR & I1 & T1 & K1 & -> & D1 & Wh' & SO1 & SO & C).
    qch PA. qch C. rewrite (nonnull_arriving q N Wa Wd LE NI a h PA).
    apply draw_new in DR. qch DR. destruct DR as (_ & _ & F1 & F2 & _ & F0 & F3 & F4 & F5 & _). qc.
    destruct (SO NR) as (-> & _). split; [reflexivity|].
    specialize (CAP NS0). apply eleb_gt in CAP. rewrite AC, CAP.
    split; [reflexivity|]. split; [reflexivity|]. split; [exact F5|].
    destruct C as [(C1 & -> & -> & (a2 & I2 & T2 & K2 & P2) & D)|(C1 & -> & -> & -> & -> & -> & ->)].
    + right. exists a2. split; [exact I2|exact P2].
    + left. unfold waiting, ids. qc. rewrite map_app. cbn. rewrite I1. reflexivity.
  - apply loss_blocked_Ok in R; [|exact N|exact Wa|exact Wd].
    destruct R as (a & h & q2 & new & d & -> & PA & DR & -> & D). qch PA.
    rewrite (nonnull_arriving q N Wa Wd LE NI a h PA).
    apply draw_new in DR. qch DR. destruct DR as (_ & _ & F1 & F2 & _ & F0 & F3 & F4 & F5 & _). qc.
    apply eleb_le in CAP. rewrite AC, CAP. split; [exact F4|]. split; [exact F3|]. split; [exact F0|].
    split; [reflexivity|]. unfold waiting, in_service. qc. rewrite F1, F2. auto.
Qed.

(** Sizes in the other calls. *)
Lemma other_sizes o q q' : o <> ONext -> no_clear o -> c_class (q_cfg q) <> CNull -> c_class (q_cfg q) <> CResource ->
  qinv q -> run_op o q = Ok q' ->
  q_nsys q' = q_nsys q /\ q_narr q' = q_narr q /\ q_blocked q' = q_blocked q /\
  match o with OServers (PInt z) => q_servers q' = Fin z | OServers _ => q_servers q' = Inf | _ => q_servers q' = q_servers q end.
Proof.
  intros NX NC N NR IV H. assert (Wa := qi_arr _ IV). assert (Wd := qi_dep _ IV). destruct o; cbn [run_op] in H; try congruence.
  - unfold set_active in H. destruct (q_active q); [inversion H; subst; auto|].
    assert (H' : add_arrival_new (set_q_active true q) = Ok q').
    { unfold add_arrival_self in H. qch H. destruct (c_class (q_cfg q)); congruence. }
    clear H. apply add_arrival_new_Ok in H'; [|exact Wa|exact Wd]. cbv zeta in H'. qch H'.
    destruct H' as [(_ & ->)|[(_ & _ & _ & ->)|(_ & _ & a & h & act & -> & _)]]; auto.
  - inversion H; subst; auto.
  - assert (H' : qs_set_num_servers n q = Ok q') by (unfold set_num_servers in H; destruct (c_class (q_cfg q)); congruence).
    apply qs_set_num_servers_Ok in H'; [|exact IV|exact NR].
    destruct H' as (m & k & h & d & new & ME & NO & _ & _ & _ & -> & _). qc.
    split; [reflexivity|]. split; [reflexivity|]. split; [reflexivity|]. destruct n; congruence.
  - apply delay_service_Ok in H; [|exact N|exact Wa|exact Wd].
    destruct H as [(_ & ->)|(a & h & h' & n & H)]; [auto|]. cbv zeta in H. destruct H as (_ & -> & _). auto.
  - apply add_arrival_Ok in H as (h & -> & _); [auto|exact N|exact Wa|exact Wd].
  - inversion H; subst; auto.
  - destruct NC.
  - inversion H; subst; auto.
Qed.

Lemma loss_capacity c s col n q : lossy c -> eLe (Fin 0) (eadd s (c_buffer c)) ->
  reach never_lowers (new_queue c s col n) q ->
  eLe (Fin (q_nsys q)) (eadd (q_servers q) (c_buffer c)) /\
  (at_capacity q = true <-> Fin (q_nsys q) = eadd (q_servers q) (c_buffer c)).
Proof.
  intros LO POS R.
  assert (G : eLe (Fin 0) (eadd (q_servers q) (c_buffer c)) /\ eLe (Fin (q_nsys q)) (eadd (q_servers q) (c_buffer c)) /\ q_cfg q = c).
  { induction R as [|q o q' R IH OK H].
    - unfold new_queue. qc. destruct LO as [X|X]; rewrite X; auto.
    - destruct IH as (P & B & C). apply basics_reach in R as [IV _ _ _ _].
      assert (CF : q_cfg q' = c).
      { destruct (clear_dec o) as [->|NC]; [cbn in H; inversion H; rewrite clear_cfg; exact C|].
        apply op_frame in H; [|intro X; subst o; exact NC|exact IV]. destruct H as [X _ _ _]. congruence. }
      destruct (loss_not _ LO) as (N & NR & NS).
      destruct (clear_dec o) as [->|NC].
      + cbn in H. inversion H; subst q'. rewrite clear_cfg in CF.
        assert (X : q_servers (clear q) = q_servers q /\ q_nsys (clear q) = 0).
        { unfold clear. rewrite CF. destruct LO as [X|X]; rewrite X; auto. }
        destruct X as (-> & ->). rewrite clear_cfg. auto.
      + assert (OD : o = ONext \/ o <> ONext) by (destruct o; auto; right; discriminate).
        destruct OD as [->|NX].
        * cbn [run_op] in H. mbind H. destruct x as [r q1]. inversion H; subst q1.
          assert (LQ : lossy (q_cfg q)) by (rewrite C; exact LO).
          apply next_sizes in E as (S1 & S2); [|exact LQ|exact IV]. rewrite S1.
          split; [exact P|]. split; [|exact CF].
          assert (AC : at_capacity q = eleb (eadd (q_servers q) (c_buffer (q_cfg q))) (Fin (q_nsys q))).
          { unfold at_capacity. destruct LQ as [X|X]; rewrite X; reflexivity. }
          rewrite C in AC.
          destruct (arriving q).
          -- destruct (at_capacity q).
             ++ destruct S2 as (-> & _). exact B.
             ++ destruct S2 as (-> & _). symmetry in AC. apply eleb_gt in AC. destruct (eadd (q_servers q) (c_buffer c)); cbn in *; [lia|exact AC].
          -- destruct S2 as (S2 & _). eapply eLe_trans; [|exact B]. exact S2.
        * apply other_sizes in H as (S1 & _ & _ & S2); [|exact NX|exact NC|congruence|congruence|exact IV].
          rewrite S1. assert (M : eLe (q_servers q) (q_servers q')).
          { destruct o; try (rewrite S2; apply eLe_refl). destruct n0; rewrite S2; [exact OK| |]; destruct (q_servers q); exact Logic.I. }
          assert (M2 : eLe (eadd (q_servers q) (c_buffer c)) (eadd (q_servers q') (c_buffer c))).
          { destruct (q_servers q), (q_servers q'), (c_buffer c); cbn in *; auto; lia. }
          split; [eapply eLe_trans; eauto|]. split; [eapply eLe_trans; eauto|exact CF]. }
  destruct G as (_ & G & C). split; [exact G|].
  assert (AC : at_capacity q = eleb (eadd (q_servers q) (c_buffer (q_cfg q))) (Fin (q_nsys q))).
  { unfold at_capacity. rewrite C. destruct LO as [X|X]; rewrite X; reflexivity. }
  rewrite AC, C, eleb_le. split.
  - intro X. apply eLe_antisym; assumption.
  - intros <-. apply eLe_refl.
Qed.

(** ** C21 *)

Lemma loss_accounted c s col n q : lossy c ->
  reach (fun q o => alone q o /\ no_clear o) (new_queue c s col n) q ->
  0 <= q_oarr q /\ q_oarr q = q_narr q + q_blocked q + zlen (scheduled q).
Proof.
  intros LO R. induction R as [|q o q' R IH OK H].
  - split; [cbn; lia|reflexivity].
  - destruct IH as (IP & IH). apply basics_reach in R as [IV C _ _ _]. destruct OK as (AL & NC). destruct (loss_not _ LO) as (N & NR & NS).
    assert (X : exists r, step o q = Ok (r, q')).
    { destruct o; unfold step; try (rewrite H; cbn [bind]; eauto; fail). cbn [run_op] in H. mbind H. destruct x as [r q1].
      inversion H; subst. eauto. }
    destruct X as (r & E). assert (NN : c_class (q_cfg q) <> CNull) by congruence.
    destruct (step_flow _ _ _ _ IV NN NC E) as ([F _ FA _] & _). rewrite C in FA. destruct (FA NR) as (A1 & A2).
    destruct F as (new & st & [P _ _ NW _] & _). apply Permutation_length in P. rewrite !app_length in P.
    unfold ids in P. rewrite !map_length in P.
    assert (SE : sent1 (o, q, r, q') = []) by (unfold sent1; destruct o; try reflexivity; destruct AL).
    rewrite SE in P. cbn [length] in P. unfold zlen in *.
    destruct NW as [(-> & O)|(-> & O)]; cbn [length] in P; split; lia.
Qed.

(** ** C25, the true part *)

Definition pending (q : queue) : Prop :=
  q_active q = true \/ eLt (q_now q) (q_next_ct q) ->
  (exists a, In a (scheduled q) /\ ag_id a = (c_idx (q_cfg q), q_oarr q - 1) /\ ag_time a = q_next_ct q) \/
  eLe (c_deactive_t (q_cfg q)) (q_next_ct q).

Lemma pending_draw q a h q2 new : wfh (q_arr q) -> pop_agent (q_arr q) = Ok (a, h) -> eLe (q_now q) (ag_time a) ->
  draw (set_q_now (ag_time a) (set_q_arr h q)) q2 new -> pending q -> pending q2.
Proof.
  intros Wa PA TM (tm & act & h2 & i & ct & -> & W & P & C) PE. qch C. qch P. unfold pending, scheduled in *. qc.
  change agents_in with agents_of in *.
  assert (PP := PA). apply pop_agent_Ok in PP as (_ & PP & _); [|exact Wa].
  destruct C as [(-> & -> & -> & -> & -> & C)|[(-> & -> & A & -> & -> & -> & LE & DT & _)|(b & -> & A & -> & -> & LE & DT & IA & TA & _)]].
  - cbn [length]. rewrite Z.add_0_r. intro X.
    assert (LT : eLt (ag_time a) (q_next_ct q)) by (destruct C as [C|C]; [destruct X; [congruence|assumption]|exact C]).
    destruct PE as [(w & W1 & W2 & W3)|PE]; [right; eapply eLe_lt_trans; eauto| |right; exact PE].
    left. exists w. split; [|auto]. apply (in_perm_cons _ _ _ PP) in W1 as [W1|W1]; [|exact W1].
    subst w. exfalso. rewrite W3 in LT. eapply eLt_irrefl; eauto.
  - intros _. right. exact DT.
  - intros _. left. exists b. split; [apply (in_perm_cons _ _ _ (Permutation_sym P)); left; reflexivity|].
    split; [rewrite IA; cbn [length]; f_equal; lia | exact TA].
Qed.

Lemma pending_same q q' : q_active q' = q_active q -> q_next_ct q' = q_next_ct q -> q_arr q' = q_arr q -> q_oarr q' = q_oarr q ->
  q_cfg q' = q_cfg q -> eLe (q_now q) (q_now q') -> pending q -> pending q'.
Proof.
  intros A B C D E F P. unfold pending, scheduled in *. rewrite A, B, C, D, E. intros [X|X]; apply P; [auto|].
  right. eapply eLe_lt_trans; eauto.
Qed.

Lemma pending_op o q q' : forward (q_cfg q) -> qinv q -> tinv q -> no_past q o ->
  c_class (q_cfg q) <> CNull -> c_class (q_cfg q) <> CResource -> run_op o q = Ok q' -> pending q -> pending q'.
Proof.
  intros FW IV TI NP N NR H P. assert (Wa := qi_arr _ IV). assert (Wd := qi_dep _ IV).
  assert (TM : eLe (q_now q) (q_now q')) by (eapply tinv_op; eauto).
  assert (NC : no_clear o) by (destruct o; try exact Logic.I; destruct NP).
  destruct o; cbn [run_op] in H.
  - mbind H. destruct x as [r q1]. inversion H; subst q1. clear H.
    apply next_event_event in E as (qe & PE & EV); [|exact Wa|exact Wd].
    destruct (pre_event_net _ _ PE) as (nd & ->).
    destruct EV as [ID _ -> ->|_ LT R|_ LE NI CAP _ R|_ NS LE NI CAP _ R|CR LE NI RT _ R|CR LE NI RT _ CAP R]; try congruence.
    + exact P.
    + apply qs_departure_Ok in R; [|exact Wa|exact Wd].
      destruct R as (a & h & a' & h' & line' & n & d1 & d & s & o & PA & -> & I1 & T1 & K1 & B1 & Q & _).
      refine (pending_same q q' _ _ _ _ _ TM P); rewrite Q; reflexivity.
    + apply qs_arrival_Ok in R; [|exact N|exact Wa|exact Wd].
      destruct R as (a & h & q2 & new & h' & line' & n & d1 & d & s1 & o1 & s & o & a1 & -> & PA & DR & I1 & T1 & K1 & Q & _).
      qch PA.
      assert (TA : eLe (q_now q) (ag_time a)).
      { destruct TI as (TI & _). apply TI. apply pop_agent_Ok in PA as (_ & PP & _); [|exact Wa].
        apply (in_perm_cons _ _ _ (Permutation_sym PP)). left; reflexivity. }
      assert (P2 : pending q2).
      { refine (pending_draw (set_q_net nd q) a h q2 new Wa PA TA DR _). exact P. }
      refine (pending_same q2 q' _ _ _ _ _ _ P2); rewrite Q; qc; try reflexivity. apply eLe_refl.
    + apply loss_blocked_Ok in R; [|exact N|exact Wa|exact Wd].
      destruct R as (a & h & q2 & new & d & -> & PA & DR & Q & _). qch PA.
      assert (TA : eLe (q_now q) (ag_time a)).
      { destruct TI as (TI & _). apply TI. apply pop_agent_Ok in PA as (_ & PP & _); [|exact Wa].
        apply (in_perm_cons _ _ _ (Permutation_sym PP)). left; reflexivity. }
      assert (P2 : pending q2).
      { refine (pending_draw (set_q_net nd q) a h q2 new Wa PA TA DR _). exact P. }
      refine (pending_same q2 q' _ _ _ _ _ _ P2); rewrite Q; qc; try reflexivity. apply eLe_refl.
  - unfold set_active in H. destruct (q_active q) eqn:A; [inversion H; subst; exact P|].
    assert (H' : add_arrival_new (set_q_active true q) = Ok q').
    { unfold add_arrival_self in H. qch H. destruct (c_class (q_cfg q)); congruence. }
    clear H. apply add_arrival_new_Ok in H'; [|exact Wa|exact Wd]. cbv zeta in H'. qch H'.
    destruct H' as [(LT & ->)|[(LE & DT & _ & ->)|(_ & _ & a & h & act & -> & IA & TA & _ & _ & _ & W & PP & _)]].
    + unfold pending, scheduled in *. qc. intros _. apply P. right. exact LT.
    + intros _. right. exact DT.
    + intros _. left. exists a. split; [apply (in_perm_cons _ _ _ (Permutation_sym PP)); left; reflexivity|].
      qc. split; [rewrite IA; f_equal; lia | exact TA].
  - inversion H; subst. unfold pending, scheduled in *. cbn [set_inactive]. unfold set_inactive. qc.
    intros [X|X]; [discriminate|]. apply P. right; exact X.
  - assert (H' : qs_set_num_servers n q = Ok q') by (unfold set_num_servers in H; destruct (c_class (q_cfg q)); congruence).
    apply qs_set_num_servers_Ok in H'; [|exact IV|exact NR].
    destruct H' as (m & k & h & d & new & ME & NO & _ & _ & _ & Q & _).
    refine (pending_same q q' _ _ _ _ _ TM P); rewrite Q; reflexivity.
  - apply delay_service_Ok in H; [|exact N|exact Wa|exact Wd].
    destruct H as [(_ & ->)|(a & h & h' & n & H)]; [exact P|]. cbv zeta in H. destruct H as (_ & Q & _).
    refine (pending_same q q' _ _ _ _ _ TM P); rewrite Q; reflexivity.
  - apply add_arrival_Ok in H as (h & -> & W & PP); [|exact N|exact Wa|exact Wd].
    unfold pending, scheduled in *. qc. intro X. destruct (P X) as [(w & W1 & W2)|Y]; [|right; exact Y].
    left. exists w. split; [|exact W2]. apply (in_perm_cons _ _ _ (Permutation_sym PP)). right; exact W1.
  - inversion H; subst. exact P.
  - destruct NC.
  - inversion H; subst. exact P.
Qed.

Lemma arrivals_go_on c s col n q : c_class c <> CNull -> c_class c <> CResource -> forward c ->
  reach no_past (new_queue c s col n) q -> q_active q = true ->
  (exists a, In a (scheduled q) /\ ag_id a = (c_idx c, q_oarr q - 1) /\ ag_time a = q_next_ct q) \/
  eLe (c_deactive_t c) (q_next_ct q).
Proof.
  intros N NR FW R A.
  assert (P : pending q /\ q_cfg q = c).
  { clear A. induction R as [|q o q' R IH OK H].
    - split; [|reflexivity]. intros [X|X]; [discriminate|]. cbn in X. lia.
    - assert (TI := tinv_reach _ _ _ _ _ FW R). assert (B := basics_reach _ _ _ _ _ _ R). destruct B as [IV C _ _ _].
      destruct IH as (IH & _). split.
      + eapply pending_op; eauto; congruence.
      + assert (B' := basics_reach _ _ _ _ _ _ (reach_step _ _ _ _ _ R OK H)). destruct B' as [_ C' _ _ _]. exact C'. }
  destruct P as (P & C). unfold pending in P. rewrite C in P. apply P. left; exact A.
Qed.
