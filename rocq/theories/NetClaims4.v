(** * NetClaims4: routing *)
From Coq Require Import List ZArith QArith Lqa Lia Bool Permutation Arith.
From Verif Require Import Base Heap PQueue Queue QueueEffects SpecQueue Network NetSteps SpecNet.
Import ListNotations.
Open Scope Z_scope.

(** ** Random choice *)

Lemma psum_S pr k p : get pr k = Some p -> (psum pr (S k) == psum pr k + p)%Q.
Proof.
  revert k. induction pr as [|x pr IH]; intros [|k] G; try discriminate; unfold psum in *; cbn in G.
  - injection G as ->. cbn. ring.
  - cbn [firstn fold_right]. rewrite (IH k G). cbn [firstn fold_right]. ring.
Qed.

Lemma psum_mono pr : (forall p, In p pr -> (0 <= p)%Q) -> forall j k, (j <= k)%nat -> (k <= length pr)%nat -> (psum pr j <= psum pr k)%Q.
Proof.
  intros NN j k LE. induction LE as [|k LE IH]; intro L; [apply Qle_refl|].
  destruct (get_ex pr k ltac:(lia)) as (p & G). rewrite (psum_S _ _ _ G).
  assert (0 <= p)%Q by (apply NN; eapply nth_error_In; exact G). specialize (IH ltac:(lia)). lra.
Qed.

Lemma slot_unique pr u j k : (forall p, In p pr -> (0 <= p)%Q) -> slot pr j u -> slot pr k u -> j = k.
Proof.
  intro NN. assert (G : forall j k, (j < k)%nat -> slot pr j u -> slot pr k u -> False).
  { intros a b LT (La & A1 & A2) (Lb & B1 & B2). destruct (get_ex pr a La) as (p & GP).
    assert (X := psum_mono pr NN (S a) b ltac:(lia) ltac:(lia)). rewrite (psum_S _ _ _ GP) in X.
    rewrite (nth_error_nth pr a 0%Q GP) in A2. lra. }
  intros A B. destruct (lt_eq_lt_dec j k) as [[H|H]|H]; [|exact H|]; exfalso; eauto.
Qed.

Lemma qle_false u v : Qle_bool u v = false -> (v < u)%Q.
Proof.
  intro H. destruct (Qlt_le_dec v u) as [X|X]; [exact X|]. apply Qle_bool_iff in X. congruence.
Qed.

Lemma choice_loop_slot pr u : (u <= psum pr (length pr))%Q -> forall m k z, (k + S m = length pr)%nat -> (z == psum pr k)%Q -> (z < u)%Q ->
  exists j, choice_loop m pr u z k = Ok j /\ slot pr j u.
Proof.
  intros U. induction m as [|m IH]; intros k z L E LT; cbn [choice_loop].
  all: destruct (get_ex pr k ltac:(lia)) as (p & G); rewrite G; cbn [of_option bind]; assert (PS := psum_S _ _ _ G);
    assert (NT := nth_error_nth pr k 0%Q G).
  - assert (SL : (u <= z + p)%Q -> slot pr k u) by (intro X; split; [lia|]; rewrite NT; split; lra).
    destruct (Qle_bool u (z + p)) eqn:C; exists k; (split; [reflexivity|]); apply SL.
    + apply Qle_bool_iff; exact C.
    + replace (length pr) with (S k) in U by lia. rewrite PS in U. lra.
  - destruct (Qle_bool u (z + p)) eqn:C.
    + exists k. split; [reflexivity|]. apply Qle_bool_iff in C. split; [lia|]. rewrite NT. split; lra.
    + apply qle_false in C. apply IH; [lia|rewrite PS; lra|exact C].
Qed.

Lemma choice_slot pr u : (2 <= length pr)%nat -> distribution pr -> (0 < u)%Q -> (u <= 1)%Q ->
  (exists k, choice pr u (length pr) = Ok k) /\ forall k, choice pr u (length pr) = Ok k <-> slot pr k u.
Proof.
  intros L [NN S1] U0 U1. assert (EX : exists j, choice pr u (length pr) = Ok j /\ slot pr j u).
  { unfold choice. destruct (get_ex pr 0 ltac:(lia)) as (p & G). rewrite G. cbn [of_option bind].
    assert (PS := psum_S _ _ _ G). assert (NT := nth_error_nth pr 0 0%Q G). change (psum pr 0) with 0%Q in PS.
    destruct (Qle_bool u p) eqn:C.
    - exists 0%nat. split; [reflexivity|]. apply Qle_bool_iff in C. split; [lia|]. rewrite NT. change (psum pr 0) with 0%Q. split; lra.
    - apply qle_false in C. destruct (length pr) as [|[|m]] eqn:LE; try lia.
      apply choice_loop_slot; [rewrite LE; lra|lia|lra|exact C]. }
  destruct EX as (j & E & SL). split; [eauto|]. intro k. split; intro X.
  - assert (j = k) by congruence. subst. exact SL.
  - rewrite E. f_equal. eapply slot_unique; eauto.
Qed.

Lemma agent_route a v n l pr : ag_kind a <> KGreedy -> get (nt_out n) v = Some l -> get (nt_probs n) v = Some pr ->
  length pr = length l -> (2 <= length l)%nat -> distribution pr ->
  let u := nt_u n (nt_iu n) in (0 < u)%Q -> (u <= 1)%Q ->
  (exists e, desired_destination a v n = Ok (e, set_nt_iu (S (nt_iu n)) n)) /\
  forall k e, get l k = Some e -> slot pr k u -> desired_destination a v n = Ok (e, set_nt_iu (S (nt_iu n)) n).
Proof.
  intros NG OUT PR LE L2 DI u U0 U1. destruct (choice_slot pr u ltac:(lia) DI U0 U1) as [(j & E) SL].
  assert (D : forall k e, get l k = Some e -> slot pr k u -> desired_destination a v n = Ok (e, set_nt_iu (S (nt_iu n)) n)).
  { intros k e G S. apply SL in S. unfold desired_destination. rewrite OUT. cbn [of_option bind].
    assert (X : (length l <=? 1)%nat = false) by (apply Nat.leb_gt; lia). rewrite X, PR. cbn [of_option bind]. cbv zeta. fold u.
    rewrite <- LE, S. cbn [bind]. rewrite G. cbn [of_option bind]. destruct (ag_kind a); congruence. }
  split; [|exact D]. apply SL in E as S. destruct (get_ex l j) as (e & G); [rewrite <- LE; apply S|]. exists e. eapply D; eauto.
Qed.

(** ** The shortest line *)

Lemma argmin_loop_spec l : forall k best minv pre, length pre = k -> (best < k)%nat -> nth best pre 0 = minv ->
  (forall i, (i < k)%nat -> minv <= nth i pre 0) -> (forall i, (i < best)%nat -> minv < nth i pre 0) ->
  let b := argmin_loop l k best minv in
  (b < length (pre ++ l))%nat /\ (forall i, (i < length (pre ++ l))%nat -> nth b (pre ++ l) 0 <= nth i (pre ++ l) 0) /\
  (forall i, (i < b)%nat -> nth b (pre ++ l) 0 < nth i (pre ++ l) 0).
Proof.
  induction l as [|v l IH]; intros k best minv pre LP LB NB MN FI; cbn [argmin_loop].
  - rewrite app_nil_r. cbv zeta. rewrite NB, LP. auto.
  - assert (R : pre ++ v :: l = (pre ++ [v]) ++ l) by (rewrite <- app_assoc; reflexivity). rewrite R.
    assert (N1 : forall i, (i < k)%nat -> nth i (pre ++ [v]) 0 = nth i pre 0) by (intros i X; apply app_nth1; lia).
    assert (N2 : nth k (pre ++ [v]) 0 = v) by (rewrite app_nth2 by lia; rewrite LP, Nat.sub_diag; reflexivity).
    destruct (v <? minv) eqn:C.
    + apply Z.ltb_lt in C. apply IH.
      * rewrite app_length; cbn; lia.
      * lia.
      * exact N2.
      * intros i X. destruct (Nat.eq_dec i k) as [->|NE]; [lia|]. rewrite N1 by lia. specialize (MN i ltac:(lia)). lia.
      * intros i X. rewrite N1 by lia. specialize (MN i ltac:(lia)). lia.
    + apply Z.ltb_ge in C. apply IH.
      * rewrite app_length; cbn; lia.
      * lia.
      * rewrite N1 by lia. exact NB.
      * intros i X. destruct (Nat.eq_dec i k) as [->|NE]; [lia|]. rewrite N1 by lia. apply MN; lia.
      * intros i X. rewrite N1 by lia. apply FI; lia.
Qed.

Lemma argmin_spec l b : argmin l = Ok b ->
  (b < length l)%nat /\ (forall i, (i < length l)%nat -> nth b l 0 <= nth i l 0) /\ (forall i, (i < b)%nat -> nth b l 0 < nth i l 0).
Proof.
  destruct l as [|v l]; [discriminate|]. cbn [argmin]. intro H. injection H as <-.
  change (v :: l) with ([v] ++ l). apply (argmin_loop_spec l 1 0 v [v]); try reflexivity; try lia.
  - intros i X. assert (i = 0%nat) by lia. subst. cbn. lia.
Qed.

Lemma forall2_get {A B} (R : A -> B -> Prop) l l' : Forall2 R l l' -> forall k x, get l k = Some x -> exists y, get l' k = Some y /\ R x y.
Proof.
  induction 1 as [|x y l l' H F IH]; intros [|k] z G; try discriminate; cbn in G.
  - injection G as <-. exists y. split; [reflexivity|exact H].
  - apply IH in G. exact G.
Qed.

Lemma greedy_route a v n e n1 : ag_kind a = KGreedy -> desired_destination a v n = Ok (e, n1) ->
  n1 = n /\ exists l d q, get (nt_out n) v = Some l /\ get l d = Some e /\ get (nt_queues n) e = Some q /\
    (forall i e' q', get l i = Some e' -> get (nt_queues n) e' = Some q' ->
       number_queued q <= number_queued q' /\ ((i < d)%nat -> number_queued q < number_queued q')).
Proof.
  intros K H. unfold desired_destination in H. rewrite K in H. mbind H. rename x into l. apply of_option_Ok in E.
  mbind H. rename x into zs. mbind H. rename x into d. mbind H. apply of_option_Ok in E2. injection H as <- <-.
  split; [reflexivity|]. apply numbers_queued_Ok in E0.
  destruct (argmin_spec _ _ E1) as (LD & MN & FI).
  destruct (forall2_get _ _ _ E0 _ _ E2) as (z & GZ & q & GQ & ->). exists l, d, q. split; [exact E|]. split; [exact E2|]. split; [exact GQ|].
  intros i e' q' GI GQ'. destruct (forall2_get _ _ _ E0 _ _ GI) as (z' & GZ' & q'' & GQ'' & ->). assert (q'' = q') by congruence. subst q''.
  assert (LI := get_lt _ _ _ GZ').
  rewrite <- (nth_error_nth zs i 0 GZ'), <- (nth_error_nth zs d 0 GZ). split; [apply MN; exact LI|apply FI].
Qed.

(** ** What the agent wants *)

Lemma kind_eq (x y : kind) : {x = y} + {x <> y}.
Proof. decide equality. Qed.

Lemma desired_chooses a v n e n1 n' : desired_destination a v n = Ok (e, n1) -> nt_iu n' = nt_iu n1 -> chooses n n' a v e.
Proof.
  intros H IU. destruct (kind_eq (ag_kind a) KGreedy) as [K|K].
  - destruct (greedy_route _ _ _ _ _ K H) as (-> & l & d & q & OUT & GD & GQ & MN). exists l, d. split; [exact OUT|]. split; [exact GD|].
    split; [|split; [congruence|split; [intros _; exact IU|congruence]]]. intros _ i e' q0 q' G0 GI G'. assert (q0 = q) by congruence. subst. eapply MN; eauto.
  - destruct (desired_Ok _ _ _ _ _ H) as (l & iu & OUT & IN & N1).
    unfold desired_destination in H. rewrite OUT in H. cbn [of_option bind] in H.
    destruct (le_lt_dec 2 (length l)) as [L2|L2].
    + assert (X : (length l <=? 1)%nat = false) by (apply Nat.leb_gt; lia). rewrite X in H.
      destruct (ag_kind a) eqn:KA; try congruence; (mbind H; apply of_option_Ok in E; cbv zeta in H; mbind H; rename x0 into d; mbind H; apply of_option_Ok in E1; injection H as <- <-;
        exists l, d; (split; [exact OUT|]); (split; [exact E1|]); (split; [congruence|]); (split; [intros _ pr _ PR LE DI U0 U1;
        assert (x = pr) by congruence; subst x; rewrite <- LE in E0; apply choice_slot; auto; lia|]); split; [intros [Y|Y]; [congruence|lia]|intros _ _; exact IU]).
    + assert (X : (length l <=? 1)%nat = true) by (apply Nat.leb_le; lia). rewrite X in H.
      assert (EN : n1 = n) by (destruct (ag_kind a) eqn:KA; try congruence; (mbind H; injection H as _ <-; reflexivity)).
      clear H. apply In_nth_error in IN as (d & GD). exists l, d. split; [exact OUT|]. split; [exact GD|]. split; [congruence|]. split; [intros _ pr L; lia|].
      split; [intros _; congruence|intros _ L; lia].
Qed.

Lemma chooses_pop n n' t h v a e : chooses (set_nt_events (nt_events n + 1) (set_nt_t t (set_nt_heap h n))) n' a v e -> chooses n n' a v e.
Proof. intros H. exact H. Qed.
