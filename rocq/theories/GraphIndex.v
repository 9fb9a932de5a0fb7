(** * GraphIndex: edge_index *)
From Coq Require Import List ZArith QArith Bool Arith Lia Permutation Sorting.Sorted.
From Verif Require Import Base Dict UnionFind UnionFindProofs QueueEffects Graph SpecGraph GraphProofs GraphClaims GraphNet.
Import ListNotations.
Open Scope nat_scope.

Lemma peqb_eq p q : peqb p q = true <-> p = q.
Proof.
  destruct p as [a b], q as [c d]. unfold peqb. cbn. rewrite andb_true_iff, !Nat.eqb_eq. split; [intros [-> ->]; reflexivity|intro H; injection H; auto].
Qed.

(** ** Lists of edges *)

Lemma g_edges_triples (g : graph) : g_edges g = map fst (triples g).
Proof.
  unfold g_edges, triples. induction g as [|[u r] g IH]; cbn; [reflexivity|]. rewrite map_app, IH, map_map. reflexivity.
Qed.
Lemma g_edges_in (g : graph) u v : In (u, v) (g_edges g) <-> arc g u v.
Proof.
  rewrite g_edges_triples, in_map_iff. split.
  - intros (((x & y) & a) & Q & I). cbn in Q. injection Q as -> ->. apply triples_in in I. exists a. exact I.
  - intros (a & I). exists ((u, v), a). split; [reflexivity|]. apply triples_in. exact I.
Qed.
Lemma g_edges_nodup g : proper g -> NoDup (g_edges g).
Proof. intros [N NR]. rewrite g_edges_triples. apply triples_nodup; assumption. Qed.

(** ** Adding an edge *)

Lemma node_ok g v : proper g -> proper (g_node g v) /\ (forall x, vertex (g_node g v) x <-> vertex g x \/ x = v) /\
  forall u w a, edge (g_node g v) u w a <-> edge g u w a.
Proof.
  intro P. destruct (node_keys g v (proj1 P)) as (ex & _ & N).
  assert (P' : proper (g_node g v)).
  { split; [exact N|]. intros u r I. apply (mg_in _ _ _ N) in I. rewrite node_get in I. destruct (mg g u) as [r'|] eqn:E.
    - injection I as <-. eapply (proj2 P). apply (mget_In _ neq_eq). exact E.
    - destruct (Nat.eqb v u); [injection I as <-; constructor|discriminate]. }
  split; [exact P'|]. split.
  - intro x. rewrite !vertex_mg, node_get. destruct (mg g x); [split; eauto|]. destruct (Nat.eqb v x) eqn:Q.
    + apply Nat.eqb_eq in Q. subst. split; eauto.
    + apply Nat.eqb_neq in Q. split; [intros (r & H); discriminate|]. intros [(r & H)|H]; [discriminate|congruence].
  - intros u w a. rewrite !edge_mg by assumption. split; intros (r & A & B).
    + rewrite node_get in A. destruct (mg g u); [injection A as ->; eauto|]. destruct (Nat.eqb v u); [injection A as <-; discriminate|discriminate].
    + exists r. rewrite node_get, A. auto.
Qed.

Lemma gedge_ok g u v a : proper g -> proper (g_edge g u v a) /\ (forall x, vertex (g_edge g u v a) x <-> vertex g x \/ x = u \/ x = v) /\
  (forall x y, arc (g_edge g u v a) x y <-> arc g x y \/ (x = u /\ y = v)) /\
  (forall x y b, ~ (x = u /\ y = v) -> edge (g_edge g u v a) x y b <-> edge g x y b).
Proof.
  intro P. assert (E0 : g_edge g u v a = g_edge (g_node g u) u v a).
  { unfold g_edge. assert (Q : g_node (g_node g u) u = g_node g u); [|rewrite Q; reflexivity].
    destruct (mg (g_node g u) u) as [r|] eqn:E; [eapply node_same; exact E|]. rewrite node_get, Nat.eqb_refl in E. destruct (mg g u); discriminate. }
  rewrite E0. destruct (node_ok g u P) as (P1 & V1 & ED1). set (g1 := g_node g u) in *.
  assert (exists r0, mg g1 u = Some r0) as (r0 & R0). { apply vertex_mg. apply V1. auto. }
  destruct (node_ok g1 v P1) as (P2 & V2 & ED2).
  assert (K : map fst (g_edge g1 u v a) = map fst (g_node g1 v)) by (eapply edge_keys; exact R0).
  assert (N0 : NoDup (map fst r0)) by (eapply (proj2 P1); apply mg_in; [apply P1|exact R0]).
  assert (PP : proper (g_edge g1 u v a)).
  { split; [rewrite K; apply P2|]. intros x r I. apply mg_in in I; [|rewrite K; apply P2]. rewrite (edge_get _ _ _ _ _ _ R0) in I.
    destruct (Nat.eqb u x); [injection I as <-; apply (mput_nodup _ neq_eq); exact N0|]. apply mg_in in I; [|apply P2]. eapply (proj2 P2); exact I. }
  assert (EE : forall x y b, ~ (x = u /\ y = v) -> edge (g_edge g1 u v a) x y b <-> edge g x y b).
  { intros x y b NE. rewrite <- ED1. rewrite edge_mg by exact PP. split.
    - intros (r & A & B). rewrite (edge_get _ _ _ _ _ _ R0) in A. destruct (Nat.eqb u x) eqn:Q.
      + apply Nat.eqb_eq in Q. subst x. injection A as <-. rewrite nput_neq in B by (intros <-; apply NE; auto). apply edge_mg; eauto.
      + apply ED2. apply edge_mg; eauto.
    - intro X. destruct (Nat.eqb u x) eqn:Q.
      + apply Nat.eqb_eq in Q. subst x. apply edge_mg in X as (r & A & B); [|exact P1]. assert (r = r0) by congruence. subst r.
        exists (nput r0 v (merge (mg r0 v) a)). rewrite (edge_get _ _ _ _ _ _ R0), Nat.eqb_refl. split; [reflexivity|].
        rewrite nput_neq; [exact B|]. intros <-. apply NE; auto.
      + apply ED2 in X. apply edge_mg in X as (r & A & B); [|exact P2]. exists r. rewrite (edge_get _ _ _ _ _ _ R0), Q. auto. }
  split; [exact PP|]. split; [|split; [|exact EE]].
  - intro x. unfold vertex. rewrite K. fold (vertex (g_node g1 v) x). rewrite V2, V1. tauto.
  - intros x y. destruct (Nat.eq_dec x u) as [->|NX].
    + destruct (Nat.eq_dec y v) as [->|NY].
      * split; [auto|]. intros _. exists (merge (mg r0 v) a). apply edge_mg; [exact PP|]. exists (nput r0 v (merge (mg r0 v) a)).
        rewrite (edge_get _ _ _ _ _ _ R0), Nat.eqb_refl. split; [reflexivity|apply nput_eq].
      * split; [intros (b & X); left; exists b; apply (EE u y b) in X; [exact X|tauto]|]. intros [(b & X)|[_ H]]; [exists b; apply (EE u y b); [tauto|exact X]|contradiction].
    + split; [intros (b & X); left; exists b; apply (EE x y b) in X; [exact X|tauto]|]. intros [(b & X)|[H _]]; [exists b; apply (EE x y b); [tauto|exact X]|contradiction].
Qed.

(** ** Sorting *)

Lemma pinsert_perm p l : Permutation (pinsert p l) (p :: l).
Proof.
  induction l as [|q l IH]; cbn; [reflexivity|]. destruct (pleb p q); [reflexivity|]. rewrite IH. apply perm_swap.
Qed.
Lemma psort_perm l : Permutation (psort l) l.
Proof. induction l as [|p l IH]; cbn; [reflexivity|]. unfold psort in *. rewrite pinsert_perm, IH. reflexivity. Qed.

Lemma pleb_before p q : pleb p q = true <-> p = q \/ before p q.
Proof.
  destruct p as [a b], q as [c d]. unfold pleb, before. cbn [fst snd]. rewrite orb_true_iff, andb_true_iff, Nat.ltb_lt, Nat.eqb_eq, Nat.leb_le. split.
  - intros [H|[-> H]]; [auto|]. destruct (Nat.eq_dec b d) as [->|]; [auto|]. right. right. split; [reflexivity|lia].
  - intros [H|[H|[-> H]]]; [injection H as -> ->; right; auto|auto|right; split; [reflexivity|lia]].
Qed.
Lemma pleb_total p q : pleb p q = false -> before q p.
Proof.
  destruct p as [a b], q as [c d]. unfold pleb, before. cbn [fst snd]. rewrite orb_false_iff, andb_false_iff, Nat.ltb_ge, Nat.eqb_neq, Nat.leb_gt. lia.
Qed.
Lemma before_trans p q r : before p q -> before q r -> before p r.
Proof. unfold before. lia. Qed.
Lemma before_irrefl p : ~ before p p.
Proof. unfold before. lia. Qed.

Definition ple (p q : nat * nat) : Prop := p = q \/ before p q.
Lemma pinsert_sorted p l : StronglySorted ple l -> StronglySorted ple (pinsert p l).
Proof.
  induction 1 as [|q l S IH F]; cbn; [repeat constructor|]. destruct (pleb p q) eqn:E.
  - apply pleb_before in E. constructor; [constructor; assumption|]. constructor; [exact E|]. eapply Forall_impl; [|exact F].
    intros r R. unfold ple in *. destruct E as [->|E], R as [->|R]; auto. right. eapply before_trans; eassumption.
  - apply pleb_total in E. constructor; [exact IH|]. rewrite Forall_forall in *. intros r R.
    apply (Permutation_in _ (pinsert_perm p l)) in R as [<-|R]; [right; exact E|apply F; exact R].
Qed.
Lemma psort_sorted l : StronglySorted ple (psort l).
Proof. induction l as [|p l IH]; cbn; [constructor|]. apply pinsert_sorted. exact IH. Qed.
Lemma psort_strict l : NoDup l -> StronglySorted before (psort l).
Proof.
  intro N. assert (N' : NoDup (psort l)) by (eapply Permutation_NoDup; [symmetry; apply psort_perm|exact N]).
  assert (S := psort_sorted l). induction S as [|p s S IH F]; [constructor|]. inversion N' as [|? ? NI N'']; subst. constructor; [apply IH; exact N''|].
  rewrite Forall_forall in *. intros q Q. destruct (F q Q) as [<-|B]; [contradiction|exact B].
Qed.

(** ** Numbering *)

Definition indexed_by (l : list ((nat * nat) * nat)) (n : nat) : Prop := NoDup (map fst l) /\ map snd l = seq 0 n.

Lemma combine_fst {A B} : forall (l : list A) (m : list B), length l = length m -> map fst (combine l m) = l.
Proof. induction l as [|x l IH]; intros [|y m] H; cbn in *; try discriminate; [reflexivity|]. f_equal. apply IH. lia. Qed.
Lemma combine_snd {A B} : forall (l : list A) (m : list B), length l = length m -> map snd (combine l m) = m.
Proof. induction l as [|x l IH]; intros [|y m] H; cbn in *; try discriminate; [reflexivity|]. f_equal. apply IH. lia. Qed.

Lemma indexed_pos l n : indexed_by l n -> forall e k, In (e, k) l <-> nth_error (map fst l) k = Some e.
Proof.
  intros [N S] e k.
  assert (G : forall l b, map snd l = seq b (length l) -> forall (e : nat * nat) k, In (e, k) l <-> b <= k /\ nth_error (map fst l) (k - b) = Some e).
  { clear. induction l as [|[f j] l IH]; intros b S e k; cbn in *.
    - split; [intros []|]. intros [_ H]. destruct (k - b); discriminate.
    - injection S as -> SS. rewrite (IH (Datatypes.S b) SS). split.
      + intros [Q|[L H]]; [injection Q as <- <-; rewrite Nat.sub_diag; auto|]. split; [lia|]. replace (k - b) with (Datatypes.S (k - Datatypes.S b)) by lia. exact H.
      + intros [L H]. destruct (Nat.eq_dec b k) as [<-|NE]; [rewrite Nat.sub_diag in H; cbn in H; left; congruence|].
        right. split; [lia|]. replace (k - b) with (Datatypes.S (k - Datatypes.S b)) in H by lia. exact H. }
  assert (L : length l = n) by (rewrite <- (map_length snd), S; apply seq_length). subst n.
  rewrite (G l 0 S). rewrite Nat.sub_0_r. split; [tauto|]. intro H. split; [lia|exact H].
Qed.

Lemma indexed_numbering g l n : indexed_by l n -> (forall u v, In (u, v) (map fst l) <-> arc g u v) -> numbering g l.
Proof.
  intros I E. assert (P := indexed_pos l n I). split.
  - intros u v. rewrite <- E. split.
    + intros (k & H). apply in_map_iff. exists ((u, v), k). auto.
    + intro H. apply In_nth_error in H as (k & H). exists k. apply P; exact H.
  - intros e k k' A B. apply P in A, B. assert (L : k < length (map fst l)) by (apply nth_error_Some; congruence).
    apply (proj1 (NoDup_nth_error _) (proj1 I)); [exact L|congruence].
  - intros e e' k A B. apply P in A, B. congruence.
  - intros k e j A L. apply P in A. assert (LK : k < length (map fst l)) by (apply nth_error_Some; congruence).
    destruct (nth_error (map fst l) j) as [e'|] eqn:X; [exists e'; apply P; exact X|]. apply nth_error_None in X. lia.
Qed.

Record dwf (d : dgraph) : Prop := {
  dw_proper : proper (dg_g d);
  dw_closed : closed (dg_g d);
  dw_index : indexed_by (dg_index d) (dg_next d);
  dw_edges : forall e, In e (map fst (dg_index d)) <-> In e (g_edges (dg_g d));
  dw_count : length (g_edges (dg_g d)) = dg_next d
}.

Lemma dg_new_ok g : proper g -> dwf (dg_new g).
Proof.
  intro P. destruct (from_dod_ok g P) as (P1 & C1 & _ & _). unfold dg_new.
  assert (PM := psort_perm (g_edges (from_dod g))). assert (LE := Permutation_length PM). assert (N := g_edges_nodup _ P1).
  split; cbn [dg_g dg_index dg_next]; auto.
  - unfold enumerate_dict. split.
    + rewrite combine_fst by (rewrite seq_length; reflexivity). eapply Permutation_NoDup; [symmetry; exact PM|exact N].
    + rewrite combine_snd by (rewrite seq_length; reflexivity). rewrite LE. reflexivity.
  - intro e. unfold enumerate_dict. rewrite combine_fst by (rewrite seq_length; reflexivity).
    split; apply Permutation_in; [exact PM|symmetry; exact PM].
Qed.

Lemma dg_add_ok d u v : dwf d -> dwf (dg_add d u v).
Proof.
  intros [P C I E N]. destruct (gedge_ok (dg_g d) u v None P) as (P1 & V1 & A1 & _). unfold dg_add. cbv zeta.
  assert (C1 : closed (g_edge (dg_g d) u v None)).
  { intros x y b X. apply V1. destruct (proj1 (A1 x y)) as [(b' & Y)|[_ ->]]; [exists b; exact X|left; eapply C; exact Y|auto]. }
  assert (ED : forall e, In e (g_edges (g_edge (dg_g d) u v None)) <-> In e (g_edges (dg_g d)) \/ e = (u, v)).
  { intros [x y]. rewrite !g_edges_in, A1. split; (intros [H|H]; [left; exact H|right]); [destruct H; congruence|injection H; auto]. }
  destruct (mhas peqb (dg_index d) (u, v)) eqn:H; split; cbn [dg_g dg_index dg_next]; auto.
  - intro e. rewrite ED, E. split; [auto|]. intros [X| ->]; [exact X|]. apply E. apply (mhas_in _ peqb_eq). exact H.
  - rewrite <- N. apply Permutation_length. apply NoDup_Permutation; [apply g_edges_nodup; exact P1|apply g_edges_nodup; exact P|].
    intro e. rewrite ED. split; [|auto]. intros [X| ->]; [exact X|]. apply E. apply (mhas_in _ peqb_eq). exact H.
  - assert (NI : ~ In (u, v) (mkeys (dg_index d))) by (intro X; apply (mhas_in _ peqb_eq) in X; congruence). split.
    + apply (mput_nodup _ peqb_eq). apply I.
    + assert (EQ : mput peqb (dg_index d) (u, v) (dg_next d) = dg_index d ++ [((u, v), dg_next d)]).
      { clear -NI. unfold mkeys in NI. induction (dg_index d) as [|[j w] l IH]; [reflexivity|]. cbn in *. destruct (peqb j (u, v)) eqn:Q; [apply peqb_eq in Q; subst; tauto|]. f_equal. apply IH. tauto. }
      rewrite EQ, map_app. cbn [map snd]. rewrite (proj2 I), seq_S. reflexivity.
  - intro e. rewrite ED. rewrite <- E. change (map fst (mput peqb (dg_index d) (u, v) (dg_next d))) with (mkeys (mput peqb (dg_index d) (u, v) (dg_next d))).
    rewrite (mput_keys_iff _ peqb_eq). unfold mkeys. tauto.
  - assert (NI : ~ In (u, v) (g_edges (dg_g d))) by (intro X; apply E in X; apply (mhas_in _ peqb_eq) in X; congruence).
    rewrite <- N. change (S (length (g_edges (dg_g d)))) with (length ((u, v) :: g_edges (dg_g d))).
    apply Permutation_length. apply NoDup_Permutation; [apply g_edges_nodup; exact P1|constructor; [exact NI|apply g_edges_nodup; exact P]|].
    intro e. rewrite ED. cbn. intuition congruence.
Qed.

Lemma dg_adds_ok : forall l d, dwf d -> dwf (dg_adds d l).
Proof. induction l as [|[u v] l IH]; intros d W; [exact W|]. apply IH. apply dg_add_ok; exact W. Qed.

Lemma dwf_numbering d : dwf d -> numbering (dg_g d) (dg_index d).
Proof. intros [P C I E N]. apply (indexed_numbering _ _ _ I). intros u v. rewrite E. apply g_edges_in. Qed.

Lemma dg_add_keeps d u v e k : dwf d -> In (e, k) (dg_index d) -> In (e, k) (dg_index (dg_add d u v)).
Proof.
  intros W I. unfold dg_add. cbv zeta. destruct (mhas peqb (dg_index d) (u, v)) eqn:H; cbn [dg_index]; [exact I|].
  apply (mget_In _ peqb_eq). rewrite (mget_put_neq _ peqb_eq); [apply (mget_nodup _ peqb_eq); [apply (dw_index _ W)|exact I]|].
  intros <-. assert (X : In (u, v) (mkeys (dg_index d))) by (apply in_map_iff; exists ((u, v), k); auto). apply (mhas_in _ peqb_eq) in X. congruence.
Qed.
Lemma dg_adds_keeps : forall l d e k, dwf d -> In (e, k) (dg_index d) -> In (e, k) (dg_index (dg_adds d l)).
Proof.
  induction l as [|[u v] l IH]; intros d e k W I; [exact I|]. apply IH; [apply dg_add_ok; exact W|]. apply dg_add_keeps; assumption.
Qed.

Lemma sorted_nth : forall l, StronglySorted before l -> forall i j p q, nth_error l i = Some p -> nth_error l j = Some q -> before p q -> i < j.
Proof.
  intros l S i j p q A B BP. destruct (Nat.lt_ge_cases i j) as [L|L]; [exact L|exfalso]. destruct (Nat.eq_dec i j) as [->|NE].
  - assert (p = q) by congruence. subst. exact (before_irrefl _ BP).
  - assert (L2 : j < i) by lia. clear NE L.
    assert (H : forall l, StronglySorted before l -> forall j i q p, j < i -> nth_error l j = Some q -> nth_error l i = Some p -> before q p).
    { clear. induction 1 as [|x l S IH F]; intros j i q p L B A; [destruct j; discriminate|]. destruct i as [|i]; [lia|]. cbn in A. destruct j as [|j]; cbn in B.
      - injection B as ->. rewrite Forall_forall in F. apply F. eapply nth_error_In; exact A.
      - eapply IH; [|exact B|exact A]. lia. }
    apply (before_irrefl p). eapply before_trans; [exact BP|]. eapply H; eassumption.
Qed.

Lemma dg_new_sorted g e e' k k' : proper g -> In (e, k) (dg_index (dg_new g)) -> In (e', k') (dg_index (dg_new g)) -> before e e' -> k < k'.
Proof.
  intros P A B BP. assert (W := dg_new_ok g P). apply (indexed_pos _ _ (dw_index _ W)) in A, B.
  unfold dg_new, enumerate_dict in A, B. cbn [dg_index] in A, B. rewrite combine_fst in A, B by (rewrite seq_length; reflexivity).
  eapply sorted_nth; [|exact A|exact B|exact BP]. apply psort_strict. apply g_edges_nodup. apply (from_dod_ok g P).
Qed.
