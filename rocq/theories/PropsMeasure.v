(** * PropsMeasure: claims about poisson_random_measure (C53) *)
From Coq Require Import List ZArith QArith Qfield Bool Lia Lqa.
From Verif Require Import Base Measure.
Import ListNotations.
Open Scope Q_scope.

(** ** What the function is to compute

    The candidates are the arrivals after [t] of a Poisson process with the
    constant rate [rmax]: the gaps are exponential numbers with mean
    [1 / rmax].  The n-th candidate is kept with probability
    [rate / rmax], i.e. if the n-th uniform number is at most that. *)
Fixpoint candidate (t rmax : Q) (e : nat -> Q) (n : nat) : Q :=
  match n with
  | O => t + 1 / rmax * e 0%nat
  | S m => candidate t rmax e m + 1 / rmax * e (S m)
  end.
Definition kept (rate : Q -> Q) (t rmax : Q) (e u : nat -> Q) (n : nat) : Prop :=
  u n <= rate (candidate t rmax e n) / rmax.
Definition first_kept (rate : Q -> Q) (t rmax : Q) (e u : nat -> Q) (n : nat) : Prop :=
  kept rate t rmax e u n /\ forall m, (m < n)%nat -> ~ kept rate t rmax e u m.
(** The sum of the first [n] numbers. *)
Fixpoint sum_upto (e : nat -> Q) (n : nat) : Q :=
  match n with O => 0 | S m => sum_upto e m + e m end.

Lemma kept_test rate t rmax e u n : 0 < rmax ->
  Qle_bool (rmax * u n) (rate (candidate t rmax e n)) = true <-> kept rate t rmax e u n.
Proof.
  intro P. rewrite Qle_bool_iff. unfold kept. set (c := rate (candidate t rmax e n)).
  assert (X : c == c / rmax * rmax) by (field; lra). split; intro H.
  - apply Qle_shift_div_l; [exact P|]. lra.
  - assert (Y : u n * rmax <= c / rmax * rmax) by (apply Qmult_le_compat_r; [exact H|lra]). lra.
Qed.

Lemma inv_pos rmax : 0 < rmax -> 0 < 1 / rmax.
Proof. intro P. apply Qlt_shift_div_l; lra. Qed.

Lemma thin_ok rate t rmax e u : 0 < rmax -> forall fuel i, (forall m, (m < i)%nat -> ~ kept rate t rmax e u m) -> forall r,
  thin fuel rate rmax (1 / rmax) e u i (candidate t rmax e i) = Some r <->
  exists n, (i <= n < i + fuel)%nat /\ first_kept rate t rmax e u n /\ r = Ok (candidate t rmax e n).
Proof.
  intros P. assert (IP := inv_pos rmax P). induction fuel as [|f IH]; intros i B r; cbn [thin].
  - split; [discriminate|]. intros (n & L & _). lia.
  - assert (K := kept_test rate t rmax e u i P). destruct (Qle_bool _ _) eqn:Q; cbn [negb].
    + split.
      * intro H. injection H as <-. exists i. split; [lia|]. split; [|reflexivity]. split; [apply K; reflexivity|exact B].
      * intros (n & L & (_ & F) & ->). destruct (Nat.eq_dec i n) as [<-|N]; [reflexivity|]. exfalso. apply (F i); [lia|]. apply K; reflexivity.
    + unfold exponential. replace (Qle_bool 0 (1 / rmax)) with true by (symmetry; apply Qle_bool_iff; lra). cbn [negb].
      assert (NK : ~ kept rate t rmax e u i) by (intro H; apply K in H; discriminate).
      change (candidate t rmax e i + 1 / rmax * e (S i)) with (candidate t rmax e (S i)). rewrite IH.
      * split; intros (n & L & F & E); exists n; (split; [|tauto]); [lia|]. destruct (Nat.eq_dec i n) as [<-|N]; [|lia]. destruct F as [F _]. contradiction.
      * intros m Lm. destruct (Nat.eq_dec m i) as [->|N]; [exact NK|]. apply B. lia.
Qed.

Lemma poisson_ok fuel rate t rmax e u r : 0 < rmax ->
  poisson fuel t rate rmax e u = Some r <->
  exists n, (n < fuel)%nat /\ first_kept rate t rmax e u n /\ r = Ok (candidate t rmax e n).
Proof.
  intro P. assert (IP := inv_pos rmax P). unfold poisson.
  replace (Qeq_bool rmax 0) with false by (symmetry; apply not_true_iff_false; rewrite Qeq_bool_iff; lra).
  unfold exponential. replace (Qle_bool 0 (1 / rmax)) with true by (symmetry; apply Qle_bool_iff; lra). cbn [negb].
  change (t + 1 / rmax * e 0%nat) with (candidate t rmax e 0). rewrite (thin_ok rate t rmax e u P fuel 0).
  - split; intros (n & L & H); exists n; (split; [lia|exact H]).
  - intros m Lm. lia.
Qed.

(** ** C53 *)

(** The function returns exactly the first kept candidate, and it returns
    (after [n] further draws) exactly if there is one; it never raises. *)
Theorem C53_first rate t rmax e u : 0 < rmax -> forall fuel r,
  poisson fuel t rate rmax e u = Some r <->
  exists n, (n < fuel)%nat /\ first_kept rate t rmax e u n /\ r = Ok (candidate t rmax e n).
Proof. intros P fuel r. apply poisson_ok; exact P. Qed.
Print Assumptions C53_first.

(** The candidates are [t] plus the exponential numbers so far divided by
    [rmax]; they are not before [t], and later candidates are not earlier. *)
Theorem C53_candidates t rmax e : 0 < rmax ->
  (forall n, candidate t rmax e n == t + sum_upto e (S n) / rmax) /\
  ((forall i, 0 <= e i) -> forall n, t <= candidate t rmax e n /\ forall m, (m <= n)%nat -> candidate t rmax e m <= candidate t rmax e n) /\
  ((forall i, 0 < e i) -> forall n, t < candidate t rmax e n).
Proof.
  intro P. assert (IP := inv_pos rmax P). split; [|split].
  - induction n as [|n IH].
    + cbn. field. lra.
    + cbn [candidate]. rewrite IH. cbn [sum_upto]. field. lra.
  - intros E n. assert (ST : forall k, 0 <= 1 / rmax * e k) by (intro k; apply Qmult_le_0_compat; [lra|apply E]). induction n as [|n [I1 I2]]; cbn [candidate].
    + split; [specialize (ST 0%nat); lra|]. intros m L. replace m with 0%nat by lia. cbn. lra.
    + assert (X := ST (S n)). split; [lra|]. intros m L. destruct (Nat.eq_dec m (S n)) as [->|N]; [cbn [candidate]; lra|]. specialize (I2 m ltac:(lia)). lra.
  - intros E. assert (ST : forall k, 0 < 1 / rmax * e k) by (intro k; apply Qmult_lt_0_compat; [lra|apply E]). induction n as [|n IH]; cbn [candidate]; [specialize (ST 0%nat)|specialize (ST (S n))]; lra.
Qed.
Print Assumptions C53_candidates.

(** Hence the returned time is not before [t], does not depend on how long
    one waits for it, and a time at which the rate has its maximum is never
    passed over. *)
Theorem C53_result rate t rmax e u : 0 < rmax -> (forall i, 0 <= e i) -> (forall i, u i < 1) -> forall fuel x,
  poisson fuel t rate rmax e u = Some (Ok x) ->
  t <= x /\
  (forall fuel', (fuel <= fuel')%nat -> poisson fuel' t rate rmax e u = Some (Ok x)) /\
  (forall n, candidate t rmax e n < x -> rate (candidate t rmax e n) < rmax).
Proof.
  intros P E U fuel x H. destruct (proj1 (poisson_ok _ _ _ _ _ _ _ P) H) as (n & L & (K & F) & X). injection X as ->.
  destruct (C53_candidates t rmax e P) as (_ & M & _). specialize (M E).
  split; [apply M|]. split.
  - intros fuel' L'. apply poisson_ok; [exact P|]. exists n. split; [lia|]. split; [split; assumption|reflexivity].
  - intros m Lm. assert (mn : (m < n)%nat).
    { destruct (Nat.le_gt_cases n m) as [B|B]; [|exact B]. exfalso. destruct (M m) as [_ M2]. specialize (M2 n B). lra. }
    specialize (F m mn). assert (Um := U m). destruct (Qlt_le_dec (rate (candidate t rmax e m)) rmax) as [G|G]; [exact G|]. exfalso. apply F. unfold kept.
    apply Qle_shift_div_l; [exact P|]. assert (u m * rmax <= 1 * rmax) by (apply Qmult_le_compat_r; lra). lra.
Qed.
Print Assumptions C53_result.

(** A maximum rate that is not positive is rejected. *)
Theorem C53_rejects rate t rmax e u fuel :
  (rmax == 0 -> poisson fuel t rate rmax e u = Some (Err ZeroDivisionError)) /\
  (rmax < 0 -> poisson fuel t rate rmax e u = Some (Err ValueError)).
Proof.
  unfold poisson. split; intro H.
  - rewrite (proj2 (Qeq_bool_iff _ _) H). reflexivity.
  - replace (Qeq_bool rmax 0) with false by (symmetry; apply not_true_iff_false; rewrite Qeq_bool_iff; lra).
    unfold exponential. replace (Qle_bool 0 (1 / rmax)) with false; [reflexivity|]. symmetry. apply not_true_iff_false. rewrite Qle_bool_iff. intro G.
    assert (X : 1 / rmax * rmax == 1) by (field; lra). assert (0 <= 1 / rmax * (- rmax)) by (apply Qmult_le_0_compat; lra). lra.
Qed.
Print Assumptions C53_rejects.

(** A rate of 2 that rises to 3 (the maximum) at time 4: the first candidate
    1/2 is passed over, the second, 5/2, is kept. *)
Definition rate53 (t : Q) : Q := if Qle_bool 4 t then 3 else 2.

Example C53_ex : exists x, x == 5 # 2 /\
  poisson 5 0 rate53 3 (fun i => match i with 0%nat => 3 # 2 | _ => 6 end) (fun i => match i with 0%nat => 9 # 10 | _ => 1 # 2 end) = Some (Ok x).
Proof. eexists. split; [|vm_compute; reflexivity]. vm_compute. reflexivity. Qed.

(** The documentation does not require that the rate stays positive, but
    then the function need not return: with a rate that is 1 until time 1 and
    0 afterwards it runs for ever, though all numbers drawn are ordinary. *)
Theorem C53_returns_refuted : exists rate t rmax e u,
  0 < rmax /\ (forall x, 0 <= rate x <= rmax) /\ (exists x, rate x == rmax) /\ (forall i, 0 < e i) /\ (forall i, 0 < u i < 1) /\
  forall fuel, poisson fuel t rate rmax e u = None.
Proof.
  exists (fun x => if Qle_bool x 1 then 1 else 0), 1, 1, (fun _ => 1), (fun _ => 1 # 2).
  split; [lra|]. split; [|split; [exists 0; reflexivity|split; [intro; lra|split; [intro; lra|]]]].
  - intro x. destruct (Qle_bool x 1); lra.
  - intro fuel. destruct (poisson fuel _ _ _ _ _) as [r|] eqn:E; [|reflexivity]. exfalso.
    apply poisson_ok in E; [|lra]. destruct E as (n & _ & (K & _) & _). unfold kept in K.
    destruct (C53_candidates 1 1 (fun _ => 1) ltac:(lra)) as (_ & _ & M). specialize (M ltac:(intro; lra) n).
    destruct (Qle_bool (candidate 1 1 (fun _ => 1) n) 1) eqn:L; [apply Qle_bool_iff in L; lra|].
    vm_compute in K. apply K. reflexivity.
Qed.
Print Assumptions C53_returns_refuted.
