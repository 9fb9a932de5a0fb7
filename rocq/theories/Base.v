(** * Base: values shared by all parts of the model *)
From Coq Require Import List ZArith Lia Bool Permutation Arith.
Import ListNotations.

(** Extended integers.  Models a Python float that is finite ([Fin z]: a
    finite double is an integer multiple of 2^-1074, so any finite set of
    doubles embeds in [Z] with order and equality preserved) or
    [numpy.infty] ([Inf]); also Python values that are "an int or infty":
    num_servers, active_cap, max_agents, buffer
    (queue_servers.py:278-333, 825-829; queue_network.py:307-316).
    Simplification: no NaN, no negative infinity; additions are exact. *)
Inductive ext : Type := Fin (z : Z) | Inf.

(** Python [a < b] on such values (used throughout queue_servers.py,
    e.g. 380, 581; priority_queue.pyx:142, 170). *)
Definition eltb (a b : ext) : bool :=
  match a, b with
  | Fin x, Fin y => Z.ltb x y
  | Fin _, Inf => true
  | Inf, _ => false
  end.

(** Python [a <= b]. *)
Definition eleb (a b : ext) : bool := negb (eltb b a).

(** Python [a == b]. *)
Definition eeqb (a b : ext) : bool :=
  match a, b with
  | Fin x, Fin y => Z.eqb x y
  | Inf, Inf => true
  | _, _ => false
  end.

(** Python [a + b] where neither is NaN or negative infinity. *)
Definition eadd (a b : ext) : ext :=
  match a, b with
  | Fin x, Fin y => Fin (x + y)
  | _, _ => Inf
  end.

(** The smaller of two (used by specifications). *)
Definition emin (a b : ext) : ext := if eltb a b then a else b.

(** Order relations as propositions, for specifications. *)
Definition eLe (a b : ext) : Prop :=
  match a, b with
  | _, Inf => True
  | Fin x, Fin y => (x <= y)%Z
  | Inf, Fin _ => False
  end.
Definition eLt (a b : ext) : Prop :=
  match a, b with
  | Fin x, Fin y => (x < y)%Z
  | Fin _, Inf => True
  | Inf, _ => False
  end.

(** Python exceptions that the modelled code can raise, and two markers for
    behaviour outside the model: [UB] is an access outside a C array
    compiled without bounds checks, [Corrupt] is a mutation of the shared
    [InftyAgent] sentinel (see Queue.v, delay_service). *)
Inductive exn : Type :=
| TypeError | ValueError | IndexError | AttributeError | KeyError
| QueueingToolError | ZeroDivisionError | UB | Corrupt.

Inductive res (A : Type) : Type :=
| Ok (a : A)
| Err (e : exn).
Arguments Ok {A} a.
Arguments Err {A} e.

Definition bind {A B} (r : res A) (f : A -> res B) : res B :=
  match r with Ok a => f a | Err e => Err e end.

Declare Scope res_scope.
Delimit Scope res_scope with res.
Notation "'let*' x ':=' e 'in' b" := (bind e (fun x => b))
  (at level 200, x pattern, e at level 100, b at level 200, right associativity)
  : res_scope.
Open Scope res_scope.

Definition of_option {A} (e : exn) (o : option A) : res A :=
  match o with Some a => Ok a | None => Err e end.

(** Array write [l[i] = x]; [None] is an index out of range. *)
Fixpoint set {A} (l : list A) (i : nat) (x : A) : option (list A) :=
  match l, i with
  | [], _ => None
  | _ :: l', O => Some (x :: l')
  | y :: l', S i' => match set l' i' x with Some r => Some (y :: r) | None => None end
  end.

(** Array read [l[i]]; [None] is an index out of range. *)
Definition get {A} (l : list A) (i : nat) : option A := nth_error l i.

(** Total version of [set] used in proofs and specifications. *)
Fixpoint upd {A} (l : list A) (i : nat) (x : A) : list A :=
  match l, i with
  | [], _ => []
  | _ :: l', O => x :: l'
  | y :: l', S i' => y :: upd l' i' x
  end.

(** ** Facts about [ext] *)

Lemma eltb_lt a b : eltb a b = true <-> eLt a b.
Proof. destruct a, b; simpl; try rewrite Z.ltb_lt; intuition congruence. Qed.
Lemma eltb_ge a b : eltb a b = false <-> eLe b a.
Proof. destruct a, b; simpl; try rewrite Z.ltb_ge; intuition congruence. Qed.
Lemma eleb_le a b : eleb a b = true <-> eLe a b.
Proof. unfold eleb. rewrite negb_true_iff. apply eltb_ge. Qed.
Lemma eleb_gt a b : eleb a b = false <-> eLt b a.
Proof. unfold eleb. rewrite negb_false_iff. apply eltb_lt. Qed.
Lemma eeqb_eq a b : eeqb a b = true <-> a = b.
Proof.
  destruct a, b; simpl; try rewrite Z.eqb_eq; split; intro H; try congruence;
    inversion H; reflexivity.
Qed.
Lemma eeqb_neq a b : eeqb a b = false <-> a <> b.
Proof.
  rewrite <- eeqb_eq. destruct (eeqb a b); intuition congruence.
Qed.
Lemma eeqb_refl a : eeqb a a = true.
Proof. apply eeqb_eq; reflexivity. Qed.
Lemma eLe_refl a : eLe a a.
Proof. destruct a; simpl; [lia | trivial]. Qed.
Lemma eLe_trans a b c : eLe a b -> eLe b c -> eLe a c.
Proof. destruct a, b, c; simpl; try tauto; lia. Qed.
Lemma eLe_antisym a b : eLe a b -> eLe b a -> a = b.
Proof. destruct a, b; simpl; try tauto. intros; f_equal; lia. Qed.
Lemma eLt_le a b : eLt a b -> eLe a b.
Proof. destruct a, b; simpl; try tauto; lia. Qed.
Lemma eLe_total a b : eLe a b \/ eLe b a.
Proof. destruct a, b; simpl; try tauto; lia. Qed.
Lemma eLt_not_le a b : eLt a b <-> ~ eLe b a.
Proof. destruct a, b; simpl; try tauto; lia. Qed.
Lemma eLe_lt_trans a b c : eLe a b -> eLt b c -> eLt a c.
Proof. destruct a, b, c; simpl; try tauto; lia. Qed.
Lemma eLt_le_trans a b c : eLt a b -> eLe b c -> eLt a c.
Proof. destruct a, b, c; simpl; try tauto; lia. Qed.
Lemma eLt_irrefl a : ~ eLt a a.
Proof. destruct a; simpl; [lia | tauto]. Qed.
Lemma eLe_Inf a : eLe a Inf.
Proof. destruct a; exact I. Qed.
Lemma eLe_Inf_l a : eLe Inf a -> a = Inf.
Proof. destruct a; simpl; tauto. Qed.
Lemma eLe_cases a b : eLe a b -> eLt a b \/ a = b.
Proof.
  destruct a as [x|], b as [y|]; simpl; try tauto.
  intro H. destruct (Z.eq_dec x y) as [->|n]; [right; reflexivity | left; lia].
Qed.
Lemma eLt_Inf a : a <> Inf -> eLt a Inf.
Proof. destruct a; simpl; [trivial | congruence]. Qed.
Lemma eLt_not_Inf a b : eLt a b -> a <> Inf.
Proof. destruct a; simpl; [congruence | tauto]. Qed.
Lemma emin_le_l a b : eLe (emin a b) a.
Proof.
  unfold emin. destruct (eltb a b) eqn:E; [apply eLe_refl|].
  apply eltb_ge; exact E.
Qed.
Lemma emin_le_r a b : eLe (emin a b) b.
Proof.
  unfold emin. destruct (eltb a b) eqn:E; [|apply eLe_refl].
  apply eLt_le, eltb_lt; exact E.
Qed.
Lemma emin_cases a b : emin a b = a \/ emin a b = b.
Proof. unfold emin. destruct (eltb a b); auto. Qed.
Lemma ext_eq_dec (a b : ext) : {a = b} + {a <> b}.
Proof. decide equality; apply Z.eq_dec. Defined.

(** ** Facts about arrays *)

Lemma upd_length {A} (l : list A) i x : length (upd l i x) = length l.
Proof. revert i; induction l; destruct i; simpl; auto. Qed.

Lemma set_upd {A} (l : list A) i x : i < length l -> set l i x = Some (upd l i x).
Proof.
  revert i; induction l as [|a l IH]; simpl; intros i H; [lia|].
  destruct i; [reflexivity|]. rewrite IH by lia. reflexivity.
Qed.

Lemma set_Some {A} (l : list A) i x l' :
  set l i x = Some l' -> i < length l /\ l' = upd l i x.
Proof.
  revert i l'; induction l as [|a l IH]; simpl; intros i l' H; [discriminate|].
  destruct i; [inversion H; split; [lia | reflexivity]|].
  destruct (set l i x) eqn:E; [|discriminate].
  inversion H; subst. apply IH in E as [E1 ->]. split; [lia | reflexivity].
Qed.

Lemma get_nth {A} (l : list A) i d : i < length l -> get l i = Some (nth i l d).
Proof. intro H. unfold get. apply nth_error_nth'; exact H. Qed.

Lemma get_Some {A} (l : list A) i x d :
  get l i = Some x -> i < length l /\ x = nth i l d.
Proof.
  unfold get. intro H. split.
  - apply nth_error_Some. congruence.
  - symmetry. apply nth_error_nth with (1 := H).
Qed.

Lemma nth_upd_eq {A} (l : list A) i x d : i < length l -> nth i (upd l i x) d = x.
Proof.
  revert i; induction l as [|a l IH]; simpl; intros i H; [lia|].
  destruct i; [reflexivity|]. apply IH; lia.
Qed.

Lemma nth_upd_neq {A} (l : list A) i j x d :
  i <> j -> nth j (upd l i x) d = nth j l d.
Proof.
  revert i j; induction l as [|a l IH]; intros i j H; simpl.
  - destruct i; reflexivity.
  - destruct i, j; simpl; try reflexivity; [lia|]. apply IH; lia.
Qed.

Lemma upd_same {A} (l : list A) i d : upd l i (nth i l d) = l.
Proof.
  revert i; induction l as [|a l IH]; intros i; simpl; [reflexivity|].
  destruct i; simpl; [reflexivity | rewrite IH; reflexivity].
Qed.

Lemma upd_upd {A} (l : list A) i x y : upd (upd l i x) i y = upd l i y.
Proof.
  revert i; induction l as [|a l IH]; intros i; simpl; [reflexivity|].
  destruct i; simpl; [reflexivity | rewrite IH; reflexivity].
Qed.

Lemma upd_comm {A} (l : list A) i j x y :
  i <> j -> upd (upd l i x) j y = upd (upd l j y) i x.
Proof.
  revert i j; induction l as [|a l IH]; intros i j H; simpl; [reflexivity|].
  destruct i, j; simpl; try reflexivity; [lia|]. rewrite IH by lia; reflexivity.
Qed.

Lemma upd_split {A} (l : list A) i x :
  i < length l -> exists l1 y l2, l = l1 ++ y :: l2 /\ length l1 = i /\ upd l i x = l1 ++ x :: l2.
Proof.
  revert i; induction l as [|a l IH]; simpl; intros i H; [lia|].
  destruct i.
  - exists [], a, l. auto.
  - destruct (IH i) as (l1 & y & l2 & E1 & E2 & E3); [lia|].
    exists (a :: l1), y, l2. simpl. rewrite E3, E2. split; [congruence | auto].
Qed.

Lemma upd_perm {A} (l : list A) i x d :
  i < length l -> Permutation (nth i l d :: upd l i x) (x :: l).
Proof.
  intro H. destruct (upd_split l i x H) as (l1 & y & l2 & E1 & E2 & E3).
  rewrite E3. rewrite E1 at 1 2. rewrite app_nth2, E2, Nat.sub_diag by lia. simpl.
  rewrite <- Permutation_middle. rewrite <- Permutation_middle. apply perm_swap.
Qed.

Lemma upd_swap_perm {A} (l : list A) i j x d :
  i < length l -> j < length l -> i <> j ->
  Permutation (upd (upd l i (nth j l d)) j x) (upd l i x).
Proof.
  intros Hi Hj Hn.
  apply Permutation_cons_inv with (a := nth j l d).
  assert (E : nth j (upd l i (nth j l d)) d = nth j l d) by (apply nth_upd_neq; exact Hn).
  rewrite <- E at 1.
  rewrite upd_perm by (rewrite upd_length; exact Hj).
  apply Permutation_cons_inv with (a := nth i l d).
  rewrite perm_swap. rewrite upd_perm by exact Hi.
  rewrite (perm_swap (nth j l d) (nth i l d)). rewrite upd_perm by exact Hi.
  apply perm_swap.
Qed.

Lemma firstn_upd {A} (l : list A) i x n :
  i < n -> firstn n (upd l i x) = upd (firstn n l) i x.
Proof.
  revert i n; induction l as [|a l IH]; intros i n H; simpl.
  - rewrite firstn_nil. destruct i; reflexivity.
  - destruct n; [lia|]. destruct i; simpl; [reflexivity|].
    rewrite IH by lia. reflexivity.
Qed.

Lemma skipn_upd {A} (l : list A) i x n :
  i < n -> skipn n (upd l i x) = skipn n l.
Proof.
  revert i n; induction l as [|a l IH]; intros i n H; simpl.
  - destruct i; reflexivity.
  - destruct n; [lia|]. destruct i; simpl; [reflexivity|]. apply IH; lia.
Qed.

Lemma firstn_upd_ge {A} (l : list A) i x n :
  n <= i -> firstn n (upd l i x) = firstn n l.
Proof.
  revert i n; induction l as [|a l IH]; intros i n H; simpl.
  - destruct i; reflexivity.
  - destruct n; [reflexivity|]. destruct i; [lia|]. simpl. rewrite IH by lia. reflexivity.
Qed.

Lemma nth_error_upd_eq {A} (l : list A) i x : i < length l -> nth_error (upd l i x) i = Some x.
Proof.
  revert i; induction l as [|a l IH]; simpl; intros i H; [lia|].
  destruct i; [reflexivity|]. simpl. apply IH; lia.
Qed.
Lemma nth_error_upd_neq {A} (l : list A) i j x :
  i <> j -> nth_error (upd l i x) j = nth_error l j.
Proof.
  revert i j; induction l as [|a l IH]; intros i j H; simpl; [reflexivity|].
  destruct i, j; simpl; try reflexivity; [lia|]. apply IH; lia.
Qed.
