(** * OrderProofs: adjacency2graph keeps graphs in order *)
From Coq Require Import List ZArith Bool Arith Lia Sorted Permutation.
From Verif Require Import Base Dict UnionFind UnionFindProofs QueueEffects Graph SpecGraph GraphProofs GraphClaims GraphNet GraphIndex SpecBuild SpecOrder.
Import ListNotations.
Open Scope Z_scope.

(** The graph without the properties of its edges. *)
Definition skel {V} (g : list (nat * list (nat * V))) : list (nat * list nat) := map (fun p => (fst p, map fst (snd p))) g.

Lemma skel_tidy (g g' : graph) : skel g = skel g' -> tidy g -> tidy g'.
Proof.
  intros E [A B]. assert (L : length g' = length g) by (rewrite <- (map_length (fun p => (fst p, map fst (snd p))) g), <- (map_length (fun p => (fst p, map fst (snd p))) g'); unfold skel in E; rewrite E; reflexivity).
  split.
  - assert (F : map fst g' = map fst g).
    { transitivity (map fst (skel g')); [unfold skel; rewrite map_map; reflexivity|]. rewrite <- E. unfold skel. rewrite map_map. reflexivity. }
    rewrite F, L. exact A.
  - intros u r I. assert (J : In (u, map fst r) (skel g')) by (unfold skel; apply in_map_iff; exists (u, r); auto).
    rewrite <- E in J. unfold skel in J. apply in_map_iff in J as ((u0 & r0) & J & I0). cbn in J. injection J as <- J. rewrite <- J, L. exact (B _ _ I0).
Qed.

Lemma sorted_nodup l : StronglySorted lt l -> NoDup l.
Proof.
  induction 1 as [|x l S IH F]; constructor; [|exact IH]. intro I. rewrite Forall_forall in F. specialize (F _ I). lia.
Qed.

Lemma tidy_proper g : tidy g -> proper g.
Proof. intros [A B]. split; [rewrite A; apply seq_NoDup|]. intros u r I. apply sorted_nodup. apply (B _ _ I). Qed.

Lemma tidy_closed g : tidy g -> closed g.
Proof.
  intros [A B] u v a (r & I & J). unfold vertex. rewrite A. apply in_seq. destruct (B _ _ I) as [_ F]. rewrite Forall_forall in F.
  assert (K : In v (map fst r)) by (apply in_map_iff; exists (v, a); auto). specialize (F _ K). lia.
Qed.

Lemma tidy_dod g : tidy g -> from_dod g = g.
Proof. intro T. apply from_dod_id; [apply tidy_proper; exact T|apply tidy_closed; exact T]. Qed.

(** ** Types *)

Lemma skel_put (g : graph) u r r' : mget Nat.eqb g u = Some r -> map fst r' = map fst r -> skel (nput g u r') = skel g.
Proof.
  unfold nput. induction g as [|[j w] g IH]; cbn [mget mput skel map fst snd]; [discriminate|].
  destruct (Nat.eqb j u) eqn:E; intros H M.
  - injection H as ->. cbn [map fst snd]. rewrite M. reflexivity.
  - cbn [map fst snd]. f_equal. apply IH; assumption.
Qed.

Lemma keys_put (r : nbrs) v o t : mget Nat.eqb r v = Some o -> map fst (nput r v t) = map fst r.
Proof.
  unfold nput. induction r as [|[j w] r IH]; cbn [mget mput map fst]; [discriminate|].
  destruct (Nat.eqb j v); intro H; cbn [map fst]; [reflexivity|]. f_equal. apply IH. exact H.
Qed.

Lemma put_type_skel g u v t g' : put_type g u v t = Ok g' -> skel g' = skel g.
Proof.
  unfold put_type, nget. destruct (mget Nat.eqb g u) as [r|] eqn:A; cbn [bind of_option]; [|discriminate].
  destruct (mget Nat.eqb r v) as [o|] eqn:B; cbn [bind of_option]; [|discriminate]. intro H. injection H as <-.
  apply (skel_put _ _ _ _ A). exact (keys_put _ _ _ _ B).
Qed.

Lemma put_types_skel : forall l g g', put_types g l = Ok g' -> skel g' = skel g.
Proof.
  assert (R : forall r g u g', put_row g u r = Ok g' -> skel g' = skel g).
  { induction r as [|[v t] r IH]; intros g u g' H; cbn [put_row] in H; [injection H as <-; reflexivity|].
    destruct (put_type g u v t) as [g1|] eqn:E; cbn [bind] in H; [|discriminate]. rewrite (IH _ _ _ H). exact (put_type_skel _ _ _ _ _ E). }
  induction l as [|[u r] l IH]; intros g g' H; cbn [put_types] in H; [injection H as <-; reflexivity|].
  destruct (put_row g u r) as [g1|] eqn:E; cbn [bind] in H; [|discriminate]. rewrite (IH _ _ H). exact (R _ _ _ _ E).
Qed.

(** ** Input *)

Lemma sorted_app_l (l m : list nat) : StronglySorted lt (l ++ m) -> StronglySorted lt l.
Proof.
  induction l as [|x l IH]; cbn; intro H; [constructor|]. inversion H as [|? ? S F]; subst. constructor; [apply IH; exact S|].
  apply Forall_app in F. apply F.
Qed.

Lemma sorted_drop (l : list nat) x m : StronglySorted lt (l ++ x :: m) -> StronglySorted lt (l ++ m).
Proof.
  induction l as [|y l IH]; cbn; intro H; inversion H as [|? ? S F]; subst; [exact S|]. constructor; [apply IH; exact S|].
  apply Forall_app in F as [F1 F2]. apply Forall_app. split; [exact F1|]. inversion F2; assumption.
Qed.

Lemma put_new {V} (acc : list (nat * V)) j w : ~ In j (map fst acc) -> nput acc j w = acc ++ [(j, w)].
Proof.
  unfold nput. induction acc as [|[i x] acc IH]; cbn [mput app map fst]; intro N; [reflexivity|].
  destruct (Nat.eqb i j) eqn:E; [apply Nat.eqb_eq in E; exfalso; apply N; left; exact E|]. f_equal. apply IH. intro I. apply N. right. exact I.
Qed.

Lemma mat_row_sorted {V} (val : Z -> V) m k : forall js acc r, StronglySorted lt (map fst acc ++ js) -> mat_row val m k js acc = Ok r ->
  StronglySorted lt (map fst r) /\ forall v, In v (map fst r) -> In v (map fst acc ++ js).
Proof.
  induction js as [|j js IH]; intros acc r S H; cbn [mat_row] in H.
  - injection H as <-. rewrite app_nil_r in S. split; [exact S|]. intros v I. rewrite app_nil_r. exact I.
  - destruct (mat_at m k j) as [x|]; cbn [bind] in H; [|discriminate]. destruct (x =? 0).
    + destruct (IH _ _ (sorted_drop _ _ _ S) H) as [A B]. split; [exact A|]. intros v I. specialize (B _ I). apply in_app_iff in B. apply in_app_iff. cbn. tauto.
    + rewrite put_new in H.
      * assert (S' : StronglySorted lt (map fst (acc ++ [(j, val x)]) ++ js)) by (rewrite map_app; cbn; rewrite <- app_assoc; exact S).
        destruct (IH _ _ S' H) as [A B]. split; [exact A|].
        intros v I. specialize (B _ I). rewrite map_app, <- app_assoc in B. exact B.
      * apply sorted_nodup in S. apply NoDup_remove_2 in S. intro I. apply S. apply in_or_app. left. exact I.
Qed.

Lemma seq_sorted n : forall a, StronglySorted lt (seq a n).
Proof. induction n as [|n IH]; intro a; cbn; constructor; [apply IH|]. apply Forall_forall. intros x I. apply in_seq in I. lia. Qed.

Lemma mat_rows_sorted {V} (val : Z -> V) m n : forall ks d, mat_rows val m ks (seq 0 n) = Ok d ->
  map fst d = ks /\ forall u r, In (u, r) d -> increasing n (map fst r).
Proof.
  induction ks as [|k ks IH]; intros d H; cbn [mat_rows] in H; [injection H as <-; split; [reflexivity|intros u r []]|].
  destruct (mat_row val m k (seq 0 n) []) as [r|] eqn:E; cbn [bind] in H; [|discriminate].
  destruct (mat_rows val m ks (seq 0 n)) as [d'|]; cbn [bind] in H; [|discriminate]. injection H as <-.
  destruct (IH _ eq_refl) as [A B]. split; [cbn; rewrite A; reflexivity|]. intros u r' [I|I]; [|exact (B _ _ I)]. injection I as _ <-.
  destruct (mat_row_sorted _ _ _ _ _ _ (seq_sorted n 0 : StronglySorted lt (map fst [] ++ seq 0 n)) E) as [S F]. split; [exact S|].
  apply Forall_forall. intros v I. specialize (F _ I). apply in_seq in F. lia.
Qed.

Lemma mof_same (l : list nat) : NoDup l -> map fst (mof Nat.eqb (map (fun v => (v, @None Z)) l)) = l.
Proof.
  induction l as [|x l IH] using rev_ind; intro N; [reflexivity|].
  assert (N1 : NoDup l) by (apply NoDup_remove_1 in N; rewrite app_nil_r in N; exact N).
  assert (N2 : ~ In x l) by (apply NoDup_remove_2 in N; rewrite app_nil_r in N; exact N).
  rewrite map_app. cbn [map]. rewrite mof_app. cbn [fst snd]. change (mput Nat.eqb) with (@nput (option Z)).
  rewrite put_new by (rewrite (IH N1); exact N2). rewrite map_app, (IH N1). reflexivity.
Qed.

Lemma to_adjacency_tidy a d : tidy_in a -> to_adjacency a = Ok d -> tidy d /\ length d = size a.
Proof.
  destruct a as [m|d0|d0|]; cbn [tidy_in to_adjacency size]; intros T H; [| | |destruct T].
  - apply mat_rows_sorted in H as [A B]. assert (L : length d = length m) by (rewrite <- (map_length fst), A, seq_length; reflexivity).
    split; [split|exact L]; rewrite L; assumption.
  - destruct T as [NE T]. destruct d0; [congruence|]. injection H as <-. auto.
  - destruct T as (NE & A & B). destruct d0 as [|p d0]; [congruence|]. set (d1 := p :: d0) in *. cbn [lists2dict] in H.
    assert (E : d = map (fun p => (fst p, mof Nat.eqb (map (fun v => (v, @None Z)) (snd p)))) d1) by (unfold d1; injection H as <-; reflexivity).
    assert (L : length d = length d1) by (rewrite E; apply map_length).
    split; [split|exact L]; rewrite L.
    + rewrite E, map_map. exact A.
    + intros u r I. rewrite E in I. apply in_map_iff in I as ((u0 & l) & Q & I). cbn [fst snd] in Q. injection Q as <- <-.
      destruct (B _ _ I) as [S F]. rewrite mof_same by (apply sorted_nodup; exact S). split; assumption.
Qed.

(** ** The adjustment *)

Lemma adjust_tidy g adjust : tidy g -> tidy (adjacency_adjust g adjust) /\ length (adjacency_adjust g adjust) = length g.
Proof.
  intro T. assert (LD : length (defaults g) = length g) by apply map_length.
  assert (D : tidy (defaults g)).
  { apply (skel_tidy g); [|exact T]. unfold skel, defaults. rewrite map_map. apply map_ext. intros [u r]. cbn. rewrite map_map. reflexivity. }
  unfold adjacency_adjust. destruct (adjust =? 2).
  - split; [|rewrite map_length; exact LD]. apply (skel_tidy (defaults g)); [|exact D].
    unfold skel. rewrite map_map. apply map_ext. intros [u r]. cbn. rewrite map_map. reflexivity.
  - split; [|rewrite map_length; exact LD]. destruct D as [A B]. split.
    + rewrite map_map, map_length. exact A.
    + rewrite map_length. intros u r I. apply in_map_iff in I as ((u0 & r0) & Q & I). cbn [fst snd] in Q. destruct r0 as [|e r0].
      * injection Q as <- <-. cbn. split; [repeat constructor|]. constructor; [|constructor].
        assert (K : In u0 (map fst (defaults g))) by (apply in_map_iff; exists (u0, []); auto). rewrite A in K. apply in_seq in K. lia.
      * injection Q as <- <-. exact (B _ _ I).
Qed.

Lemma adjacency_tidy a ty adjust g : tidy_in a -> adjacency2graph a ty adjust = Ok g -> tidy g /\ length g = size a.
Proof.
  intros T H. unfold adjacency2graph in H. destruct (to_adjacency a) as [d|] eqn:E; cbn [bind] in H; [|discriminate].
  destruct (to_types ty) as [t|]; cbn [bind] in H; [|discriminate]. destruct (put_types d t) as [d1|] eqn:E1; cbn [bind] in H; [|discriminate].
  injection H as <-. destruct (to_adjacency_tidy _ _ T E) as [TD LD]. assert (SK := put_types_skel _ _ _ E1).
  assert (T1 : tidy d1) by (apply (skel_tidy d); [symmetry; exact SK|exact TD]).
  assert (L1 : length d1 = length d) by (rewrite <- (map_length (fun p => (fst p, map fst (snd p))) d1), <- (map_length (fun p => (fst p, map fst (snd p))) d); unfold skel in SK; rewrite SK; reflexivity).
  rewrite (tidy_dod _ T1). destruct (adjust_tidy d1 adjust T1) as [T2 L2]. rewrite (tidy_dod _ T2). split; [exact T2|congruence].
Qed.

(** ** Edges *)

Lemma edges_sorted_from (g : graph) : forall a, map fst g = seq a (length g) -> (forall u r, In (u, r) g -> StronglySorted lt (map fst r)) -> StronglySorted before (g_edges g).
Proof.
  induction g as [|[u r] g IH]; intros a A B; cbn [g_edges flat_map fst snd]; [constructor|].
  cbn [map fst length seq] in A. injection A as -> A. specialize (IH (S a) A (fun u r I => B u r (or_intror I))).
  assert (SR := B a r (or_introl eq_refl)).
  assert (LATER : Forall (fun e => (a < fst e)%nat) (g_edges g)).
  { apply Forall_forall. intros [x y] I. unfold g_edges in I. apply in_flat_map in I as ((x0 & r0) & I & J). apply in_map_iff in J as (e & Q & _). cbn in Q. injection Q as <- _.
    assert (K : In x0 (map fst g)) by (apply in_map_iff; exists (x0, r0); auto). rewrite A in K. apply in_seq in K. cbn. lia. }
  clear A B. fold (g_edges g). induction r as [|[v t] r IHr]; cbn [map app fst]; [exact IH|].
  cbn in SR. inversion SR as [|? ? S F]; subst. constructor; [apply IHr; exact S|]. apply Forall_app. split.
  - apply Forall_forall. intros [x y] I. apply in_map_iff in I as ([w s] & Q & I). cbn in Q. injection Q as <- <-. right. split; [reflexivity|]. cbn.
    rewrite Forall_forall in F. apply F. apply in_map_iff. exists (w, s). auto.
  - eapply Forall_impl; [|exact LATER]. intros [x y] L. left. exact L.
Qed.

Lemma tidy_edges g : tidy g -> StronglySorted before (g_edges g).
Proof. intros [A B]. apply (edges_sorted_from g 0 A). intros u r I. apply (B _ _ I). Qed.

Lemma psort_id l : StronglySorted before l -> psort l = l.
Proof.
  induction 1 as [|p l S IH F]; [reflexivity|]. unfold psort in *. cbn [fold_right]. rewrite IH. destruct l as [|q l]; [reflexivity|]. cbn [pinsert].
  inversion F as [|? ? B _]; subst. assert (E : pleb p q = true); [|rewrite E; reflexivity]. unfold pleb. apply orb_true_iff.
  destruct B as [B|[B1 B2]]; [left; apply Nat.ltb_lt; exact B|right]. apply andb_true_iff. split; [apply Nat.eqb_eq; exact B1|apply Nat.leb_le; lia].
Qed.

(** Vertices and edges stand at the places that are their numbers. *)
Lemma tidy_new g : tidy g -> let d := dg_new g in
  dg_g d = g /\ g_nodes (dg_g d) = seq 0 (length g) /\ (forall k e, nth_error (g_edges (dg_g d)) k = Some e -> In (e, k) (dg_index d)).
Proof.
  intros T d. unfold d, dg_new. cbn [dg_g dg_index]. rewrite (tidy_dod _ T). split; [reflexivity|]. split; [apply T|].
  intros k e G. rewrite psort_id by (apply tidy_edges; exact T). unfold enumerate_dict.
  assert (K : (k < length (g_edges g))%nat) by (apply nth_error_Some; rewrite G; discriminate).
  apply (nth_error_In _ k). revert G K. generalize (g_edges g) as l. intro l.
  assert (GEN : forall l a k, nth_error l k = Some e -> nth_error (combine l (seq a (length l))) k = Some (e, (a + k)%nat)).
  { clear. induction l as [|x l IH]; intros a k G; [destruct k; discriminate|]. destruct k as [|k]; cbn in *; [injection G as ->; rewrite Nat.add_0_r; reflexivity|].
    rewrite (IH (S a) k G). f_equal. f_equal. lia. }
  intros G _. rewrite (GEN l 0%nat k G). reflexivity.
Qed.

(** ** Networks *)

Lemma test_tidy gi d : tidy_graph gi -> test_graph gi = Ok d -> exists g, tidy g /\ d = dg_new g.
Proof.
  destruct gi as [d0|g|a]; cbn [tidy_graph test_graph]; intros T H.
  - injection H as <-. destruct T as (g & E & T). exists g. auto.
  - injection H as <-. exists g. auto.
  - destruct (adjacency2graph a TNone 1) as [g|] eqn:E; cbn [bind] in H; [|discriminate]. injection H as <-. exists g.
    destruct (adjacency_tidy _ _ _ _ T E) as [A _]. auto.
Qed.

Lemma network_tidy gi adjust d : tidy_graph gi -> network_graph gi adjust = Ok d -> exists g, tidy g /\ d = dg_new g.
Proof.
  intros T H. unfold network_graph in H. destruct (test_graph gi) as [d0|] eqn:E; cbn [bind] in H; [|discriminate].
  destruct (test_tidy _ _ T E) as (g & TG & ->). destruct adjust; [|injection H as <-; eauto].
  destruct (adjacency2graph (ADicts (dg_g (dg_new g))) TNone 2) as [g2|] eqn:E2; cbn [bind] in H; [|discriminate]. injection H as <-.
  exists g2. split; [|reflexivity]. destruct (tidy_new g TG) as (DG & _). rewrite DG in E2.
  assert (NE : g <> []) by (intros ->; discriminate E2).
  apply (adjacency_tidy (ADicts g) TNone 2 g2 (conj NE TG) E2).
Qed.
