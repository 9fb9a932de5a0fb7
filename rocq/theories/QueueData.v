(** * QueueData: facts about the data dictionaries *)
From Coq Require Import List ZArith QArith Lia Bool Permutation Arith.
From Verif Require Import Base Queue QueueEffects QueueEvents SpecQueue.
Import ListNotations.
Open Scope Z_scope.

Lemma aid_eqb_eq i j : aid_eqb i j = true <-> i = j.
Proof.
  destruct i as [a x], j as [b y]. unfold aid_eqb. cbn [fst snd].
  rewrite andb_true_iff, Nat.eqb_eq, Z.eqb_eq. split; [intros [-> ->]; reflexivity | intro H; inversion H; auto].
Qed.
Lemma aid_eqb_refl i : aid_eqb i i = true.
Proof. apply aid_eqb_eq; reflexivity. Qed.
Lemma aid_eqb_neq i j : aid_eqb i j = false <-> i <> j.
Proof. rewrite <- aid_eqb_eq. destruct (aid_eqb i j); intuition congruence. Qed.

Lemma dget_cons j r d i : dget ((j, r) :: d) i = if aid_eqb j i then Some r else dget d i.
Proof. unfold dget. cbn [find fst]. destruct (aid_eqb j i); reflexivity. Qed.

Lemma dget_in d i rows : dget d i = Some rows -> In (i, rows) d.
Proof.
  induction d as [|[j r] d IH]; [discriminate|]. rewrite dget_cons. destruct (aid_eqb j i) eqn:E.
  - intro H; inversion H; subst. apply aid_eqb_eq in E. subst. left; reflexivity.
  - intro H. right. apply IH; exact H.
Qed.

Lemma dget_dset_same d i rows : dget (dset d i rows) i = Some rows.
Proof.
  induction d as [|[j r] d IH]; cbn [dset]; [rewrite dget_cons, aid_eqb_refl; reflexivity|].
  destruct (aid_eqb j i) eqn:E; rewrite dget_cons, E; [reflexivity | exact IH].
Qed.

Lemma dget_dset_other d i j rows : i <> j -> dget (dset d i rows) j = dget d j.
Proof.
  intro N. induction d as [|[k r] d IH]; cbn [dset].
  - rewrite dget_cons. apply aid_eqb_neq in N. rewrite N. reflexivity.
  - destruct (aid_eqb k i) eqn:E; rewrite !dget_cons.
    + apply aid_eqb_eq in E. subst k. apply aid_eqb_neq in N. rewrite N. reflexivity.
    + rewrite IH. reflexivity.
Qed.

Lemma in_dset d i rows x : In x (dset d i rows) -> x = (i, rows) \/ In x d.
Proof.
  induction d as [|[k r] d IH]; cbn [dset].
  - intros [<-|[]]; auto.
  - destruct (aid_eqb k i) eqn:E.
    + apply aid_eqb_eq in E; subst. intros [<-|H]; [auto | right; right; exact H].
    + intros [<-|H]; [right; left; reflexivity|]. destruct (IH H); auto. right; right; assumption.
Qed.

Lemma rows_of_dget d i : rows_of d i = match dget d i with Some l => l | None => [] end.
Proof. unfold rows_of, dget. destruct (find _ d); reflexivity. Qed.

Lemma dappend_dset d i r : dappend d i r = dset d i (rows_of d i ++ [r]).
Proof. rewrite rows_of_dget. unfold dappend. destruct (dget d i); reflexivity. Qed.

Lemma rows_dset_same d i rows : rows_of (dset d i rows) i = rows.
Proof. rewrite rows_of_dget, dget_dset_same. reflexivity. Qed.
Lemma rows_dset_other d i j rows : i <> j -> rows_of (dset d i rows) j = rows_of d j.
Proof. intro N. rewrite !rows_of_dget, dget_dset_other by exact N. reflexivity. Qed.

Lemma dlast_Ok d i f d' : dlast d i f = Ok d' ->
  exists rs r, dget d i = Some (rs ++ [r]) /\ d' = dset d i (rs ++ [f r]).
Proof.
  unfold dlast. destruct (dget d i) as [rows|] eqn:G; [|discriminate].
  destruct (rev rows) as [|r rs] eqn:R; [discriminate|]. intro H; inversion H; subst.
  exists (rev rs), r. split; [|reflexivity].
  rewrite <- (rev_involutive rows), R. reflexivity.
Qed.

Lemma dlast_spec d i f rs r : dget d i = Some (rs ++ [r]) -> dlast d i f = Ok (dset d i (rs ++ [f r])).
Proof. intro G. unfold dlast. rewrite G, rev_app_distr. cbn. rewrite rev_involutive. reflexivity. Qed.

Lemma snoc_cases {A} (l : list A) : l = [] \/ exists rs r, l = rs ++ [r].
Proof. destruct l using rev_ind; [left; reflexivity | right; eauto]. Qed.

Lemma last_upd_snoc f l r : last_upd f (l ++ [r]) = l ++ [f r].
Proof. unfold last_upd. rewrite rev_app_distr. cbn. rewrite rev_involutive. reflexivity. Qed.
Lemma last_upd_nil f : last_upd f [] = [].
Proof. reflexivity. Qed.

Lemma rows_append d i r j : rows_of (dappend d i r) j = if aid_eqb i j then rows_of d j ++ [r] else rows_of d j.
Proof.
  rewrite dappend_dset. destruct (aid_eqb i j) eqn:E.
  - apply aid_eqb_eq in E. subst. apply rows_dset_same.
  - apply aid_eqb_neq in E. apply rows_dset_other. exact E.
Qed.

Lemma rows_dlast d i f d' j : dlast d i f = Ok d' ->
  rows_of d' j = if aid_eqb i j then last_upd f (rows_of d j) else rows_of d j.
Proof.
  intro H. apply dlast_Ok in H as (rs & r & G & ->). destruct (aid_eqb i j) eqn:E.
  - apply aid_eqb_eq in E. subst. rewrite rows_dset_same, (rows_of_dget d), G, last_upd_snoc. reflexivity.
  - apply aid_eqb_neq in E. apply rows_dset_other. exact E.
Qed.

Lemma rows_dmod d i f d' j : dmod true d i f d' ->
  rows_of d' j = if aid_eqb i j then last_upd f (rows_of d j) else rows_of d j.
Proof.
  intros [(-> & [X|X])|(_ & H)]; [discriminate| |apply rows_dlast; exact H].
  destruct (aid_eqb i j) eqn:E; [|reflexivity]. apply aid_eqb_eq in E. subst.
  rewrite rows_of_dget, X. reflexivity.
Qed.

Lemma memb_in i l : memb i l = true <-> In i (ids l).
Proof.
  unfold memb, ids. rewrite existsb_exists, in_map_iff. split; intros (a & H).
  - destruct H as (H & E). apply aid_eqb_eq in E. eauto.
  - destruct H as (E & H). exists a. split; [exact H|]. apply aid_eqb_eq. exact E.
Qed.
Lemma memb_not i l : memb i l = false <-> ~ In i (ids l).
Proof. rewrite <- memb_in. destruct (memb i l); intuition congruence. Qed.
Lemma memb_iff i l l' : (In i (ids l) <-> In i (ids l')) -> memb i l = memb i l'.
Proof.
  intro H. destruct (memb i l) eqn:E1, (memb i l') eqn:E2; auto.
  - apply memb_in in E1. apply memb_not in E2. tauto.
  - apply memb_not in E1. apply memb_in in E2. tauto.
Qed.
