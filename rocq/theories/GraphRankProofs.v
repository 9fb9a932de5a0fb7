(** * GraphRankProofs: generate_random_graph and set_types_rank *)
From Coq Require Import List ZArith QArith Qabs Qround Bool Arith Lia Permutation Sorting.Sorted.
From Verif Require Import Base Dict UnionFind SpecUF UnionFindProofs QueueEffects QueueInv Graph SpecGraph GraphProofs GraphClaims GraphNet GraphIndex GraphBuild Routing SpecRoute RoutingProofs RoutingGen GraphGen SpecGen GraphGenProofs.
Import ListNotations.
Open Scope Z_scope.

Lemma dg_add_arcs d u v : dwf d -> (forall x, vertex (dg_g (dg_add d u v)) x <-> vertex (dg_g d) x \/ x = u \/ x = v) /\
  (forall x y, arc (dg_g (dg_add d u v)) x y <-> arc (dg_g d) x y \/ (x = u /\ y = v)).
Proof.
  intro W. destruct (gedge_ok (dg_g d) u v None (dw_proper _ W)) as (_ & V & A & _). unfold dg_add. cbv zeta. destruct (mhas peqb (dg_index d) (u, v)); cbn [dg_g]; auto.
Qed.
Lemma is_edge_arc d u v : dwf d -> is_edge d (u, v) = true <-> arc (dg_g d) u v.
Proof. intro W. unfold is_edge. rewrite (mhas_in _ peqb_eq). change (mkeys (dg_index d)) with (map fst (dg_index d)). rewrite (dw_edges _ W). apply g_edges_in. Qed.

(** ** generate_random_graph *)

Lemma add_loops_ok prob u : forall vs i d, dwf d -> NoDup vs -> (forall v, In v vs -> vertex (dg_g d) v /\ ~ arc (dg_g d) v v) ->
  exists d', add_loops vs prob u i d = ((i + length vs)%nat, d') /\ dwf d' /\ (forall v, vertex (dg_g d') v <-> vertex (dg_g d) v) /\
  (forall x y, arc (dg_g d') x y <-> arc (dg_g d) x y \/ (x = y /\ exists j, nth_error vs j = Some x /\ (u (i + j)%nat < prob)%Q)).
Proof.
  induction vs as [|v vs IH]; intros i d W N H; cbn [add_loops].
  - exists d. cbn. rewrite Nat.add_0_r. split; [reflexivity|]. split; [exact W|]. split; [reflexivity|]. intros x y. split; [auto|]. intros [A|(_ & [|j] & J & _)]; [exact A|discriminate|discriminate].
  - inversion N as [|? ? NI N']; subst. destruct (H v (or_introl eq_refl)) as [Vv NA]. destruct (is_edge d (v, v)) eqn:E; [apply (is_edge_arc d v v W) in E; contradiction|].
    set (d1 := if negb (Qle_bool prob (u i)) then dg_add d v v else d).
    assert (D1 : dwf d1 /\ (forall x, vertex (dg_g d1) x <-> vertex (dg_g d) x) /\ forall x y, arc (dg_g d1) x y <-> arc (dg_g d) x y \/ (x = y /\ x = v /\ (u i < prob)%Q)).
    { unfold d1. destruct (Qle_bool prob (u i)) eqn:B; cbn [negb].
      - apply Qle_bool_iff in B. split; [exact W|]. split; [reflexivity|]. intros x y. split; [auto|]. intros [A|(_ & _ & L)]; [exact A|]. exfalso. exact (Qlt_not_le _ _ L B).
      - assert (L : (u i < prob)%Q) by (apply Qnot_le_lt; intro L; apply Qle_bool_iff in L; congruence). destruct (dg_add_arcs d v v W) as [V1 A1]. split; [apply dg_add_ok; exact W|]. split.
        + intro x. rewrite V1. split; [intros [X|[->| ->]]; auto|auto].
        + intros x y. rewrite A1. split; [intros [A|[-> ->]]|intros [A|(-> & -> & _)]]; auto. }
    destruct D1 as (W1 & V1 & A1). destruct (IH (S i) d1 W1 N') as (d' & E' & W' & V' & A').
    { intros w I. destruct (H w (or_intror I)) as [Vw Nw]. split; [apply V1; exact Vw|]. intro A. apply A1 in A as [A|(_ & -> & _)]; [exact (Nw A)|exact (NI I)]. }
    exists d'. rewrite E'. split; [f_equal; cbn; lia|]. split; [exact W'|]. split; [intro x; rewrite V'; apply V1|]. intros x y. rewrite A', A1. split.
    + intros [[A|(Q & -> & L)]|(Q & j & J & L)]; [auto|right; split; [exact Q|exists 0%nat; rewrite Nat.add_0_r; auto]|right; split; [exact Q|exists (S j); split; [exact J|]]]. rewrite Nat.add_succ_r. exact L.
    + intros [A|(Q & [|j] & J & L)]; [auto| |].
      * cbn in J. injection J as ->. left. right. rewrite Nat.add_0_r in L. auto.
      * right. split; [exact Q|]. exists j. split; [exact J|]. rewrite Nat.add_succ_r in L. exact L.
Qed.

Lemma chosen_in keys x t : (forall t p, In (t, p) keys -> (0 <= p)%Q) -> chosen keys x t -> exists p, In (t, p) keys /\ (0 < p)%Q.
Proof.
  intros _ (pre & p & post & -> & L & U). exists p. split; [apply in_app_iff; right; left; reflexivity|].
  assert (H := Qle_lt_trans _ _ _ L U). rewrite <- (Qplus_0_r (total (map snd pre))) in H at 1. apply Qplus_lt_r in H. exact H.
Qed.

Lemma generate_ok n prob dist po lo u w : (2 <= n)%nat -> let props := or_default po default_props in let lprops := or_default lo default_loop_props in
  proportions props -> proportions lprops -> (forall i, (0 <= w i)%Q /\ (w i < 1)%Q) ->
  exists m d vs, minimal_graph n dist = Ok m /\ generate_random_graph n prob dist po lo u w = Ok d /\ dwf d /\
    (forall v, vertex (dg_g d) v <-> (v < n)%nat) /\ (forall x y, x <> y -> arc (dg_g d) x y <-> arc (dg_g m) x y) /\
    Permutation vs (seq 0 n) /\ (forall i v, nth_error vs i = Some v -> arc (dg_g d) v v <-> (u i < prob)%Q) /\
    typed_by props lprops w d.
Proof.
  intros L props lprops P1 P2 U. destruct (minimal_ok n dist L) as (m & r & E & W & V & S & _). unfold generate_random_graph. rewrite E. cbn [bind].
  set (vs := g_nodes (dg_g m)). assert (NV : NoDup vs) by (apply (dw_proper _ W)).
  destruct (add_loops_ok prob u vs 0 m W NV) as (d1 & E1 & W1 & V1 & A1).
  { intros v I. split; [exact I|]. intro A. apply S in A. tauto. }
  rewrite E1. destruct (types_random_ok d1 po lo w W1 P1 P2) as (d & es & ls & E2 & (W2 & X2 & V2 & A2) & N1 & N2 & IE & IL & TE & TL); [exact U|].
  exists m, d, vs. split; [reflexivity|]. split; [exact E2|]. split; [exact W2|]. split; [intro v; rewrite V2, V1; apply V|]. split; [|split; [|split]].
  - intros x y NE. rewrite A2, A1. split; [intros [A|[Q _]]; [exact A|contradiction]|auto].
  - apply NoDup_Permutation; [exact NV|apply seq_NoDup|]. intro v. rewrite in_seq. change (vertex (dg_g m) v <-> (0 <= v < 0 + n)%nat). rewrite V. lia.
  - intros i v I. rewrite A2, A1. cbn [Nat.add]. split.
    + intros [A|(_ & j & J & LT)]; [apply S in A; tauto|]. assert (Q : i = j); [|subst; exact LT]. apply (proj1 (NoDup_nth_error vs) NV); [apply nth_error_Some; congruence|congruence].
    + intro LT. right. split; [reflexivity|]. exists i. auto.
  - exists es, ls. split; [exact N1|]. split; [exact N2|]. split; [intros x y; rewrite A2; apply IE|]. split; [intros x y; rewrite A2; apply IL|]. split; [exact TE|exact TL].
Qed.

(** ** set_types_rank *)

Lemma zinsert_perm x l : Permutation (zinsert x l) (x :: l).
Proof. induction l as [|y l IH]; cbn; [reflexivity|]. destruct (x <=? y); [reflexivity|]. rewrite IH. apply perm_swap. Qed.
Lemma zsort_perm l : Permutation (zsort l) l.
Proof. induction l as [|x l IH]; cbn; [reflexivity|]. unfold zsort in *. rewrite zinsert_perm, IH. reflexivity. Qed.
Lemma zsort_sorted l : StronglySorted Z.le (zsort l).
Proof.
  induction l as [|x l IH]; [constructor|]. change (zsort (x :: l)) with (zinsert x (zsort l)). induction IH as [|y m S IHS F]; cbn; [repeat constructor|].
  destruct (Z.leb_spec x y) as [L|L].
  - constructor; [constructor; assumption|]. constructor; [exact L|]. eapply Forall_impl; [|exact F]. cbn. lia.
  - constructor; [exact IHS|]. rewrite Forall_forall in *. intros z I. eapply Permutation_in in I; [|apply zinsert_perm]. destruct I as [<-|I]; [lia|apply F; exact I].
Qed.
Lemma filter_perm {A} (f : A -> bool) l l' : Permutation l l' -> length (filter f l) = length (filter f l').
Proof. induction 1; cbn; auto; [destruct (f x)|destruct (f x), (f y)|]; cbn; congruence. Qed.
Lemma filter_none {A} (f : A -> bool) l : (forall x, In x l -> f x = false) -> filter f l = [].
Proof. induction l as [|x l IH]; intro H; cbn; [reflexivity|]. rewrite (H x (or_introl eq_refl)). apply IH. intros y I. apply H. right; exact I. Qed.
Lemma filter_all {A} (f : A -> bool) l : (forall x, In x l -> f x = true) -> filter f l = l.
Proof. induction l as [|x l IH]; intro H; cbn; [reflexivity|]. rewrite (H x (or_introl eq_refl)). f_equal. apply IH. intros y I. apply H. right; exact I. Qed.
Lemma filter_le {A} (f : A -> bool) l : (length (filter f l) <= length l)%nat.
Proof. induction l as [|x l IH]; cbn; [lia|]. destruct (f x); cbn; lia. Qed.

(** The entry [tmp[-k]] splits the sorted ranks. *)
Lemma sorted_split rank k : (1 <= k <= length rank)%nat -> exists l1 x l2, zsort rank = l1 ++ x :: l2 /\ length l2 = (k - 1)%nat /\ pyget (zsort rank) (- Z.of_nat k) = Ok x /\
  (forall y, In y l1 -> y <= x) /\ (forall y, In y l2 -> x <= y).
Proof.
  intro L. assert (LS : length (zsort rank) = length rank) by (apply Permutation_length, zsort_perm).
  destruct (nth_error (zsort rank) (length rank - k)) as [x|] eqn:E; [|apply nth_error_None in E; lia].
  destruct (nth_error_split _ _ E) as (l1 & l2 & Q & LL). exists l1, x, l2. split; [exact Q|]. split.
  { rewrite Q in LS. rewrite app_length in LS. cbn in LS. lia. }
  split.
  { unfold pyget. destruct (Z.ltb_spec (- Z.of_nat k) 0) as [_|H]; [|lia]. rewrite LS. destruct (Z.ltb_spec (- Z.of_nat k + Z.of_nat (length rank)) 0) as [H|_]; [lia|].
    replace (Z.to_nat (- Z.of_nat k + Z.of_nat (length rank))) with (length rank - k)%nat by lia. unfold get. rewrite E. reflexivity. }
  assert (SO := zsort_sorted rank). rewrite Q in SO. clear -SO. induction l1 as [|y l1 IH]; cbn in SO; inversion SO as [|? ? S F]; subst.
  - split; [intros ? []|]. rewrite Forall_forall in F. exact F.
  - destruct (IH S) as [H1 H2]. split; [|exact H2]. intros z [<-|I]; [|apply H1; exact I]. rewrite Forall_forall in F. apply F. apply in_app_iff. right; left; reflexivity.
Qed.
Lemma top_iff rank k x l1 l2 v : zsort rank = l1 ++ x :: l2 -> length l2 = (k - 1)%nat -> (1 <= k)%nat -> (forall y, In y l1 -> y <= x) -> (forall y, In y l2 -> x <= y) ->
  (v < length rank)%nat -> top rank k v <-> x <= nth v rank 0.
Proof.
  intros Q LL Lk H1 H2 Lv. unfold top, higher. rewrite <- (filter_perm _ _ _ (zsort_perm rank)), Q, filter_app. cbn [filter]. split.
  - intros [_ H]. destruct (Z.le_gt_cases x (nth v rank 0)) as [G|G]; [exact G|]. exfalso. rewrite app_length in H. destruct (Z.ltb_spec (nth v rank 0) x) as [_|?]; [|lia].
    cbn [length] in H. rewrite (filter_all _ l2) in H; [lia|]. intros y I. apply H2 in I. apply Z.ltb_lt. lia.
  - intro G. split; [exact Lv|]. rewrite (filter_none _ l1); [|intros y I; apply H1 in I; apply Z.ltb_ge; lia]. destruct (Z.ltb_spec (nth v rank 0) x) as [?|_]; [lia|]. cbn [app]. assert (F := filter_le (fun r => nth v rank 0 <? r) l2). lia.
Qed.
Lemma where_ge_in rank x v : In v (where_ge rank x) <-> (v < length rank)%nat /\ x <= nth v rank 0.
Proof.
  unfold where_ge. rewrite in_map_iff. split.
  - intros ((w & r) & Q & I). cbn in Q. subst w. apply filter_In in I as [I L]. cbn in L. apply Z.leb_le in L. apply combine_nth in I as (i & I1 & I2).
    assert (Li : (i < length rank)%nat) by (apply nth_error_Some; congruence). assert (Qi : v = i). { rewrite (nth_error_nth' (seq 0 (length rank)) 0%nat) in I1 by (rewrite seq_length; exact Li). rewrite seq_nth in I1 by exact Li. injection I1 as <-. reflexivity. }
    subst i. split; [exact Li|]. rewrite (nth_error_nth _ _ 0 I2). exact L.
  - intros [L G]. exists (v, nth v rank 0). split; [reflexivity|]. apply filter_In. split; [|apply Z.leb_le; exact G].
    assert (E : nth v (combine (seq 0 (length rank)) rank) (0%nat, 0) = (v, nth v rank 0)) by (rewrite List.combine_nth by apply seq_length; rewrite seq_nth by exact L; reflexivity).
    rewrite <- E. apply nth_In. rewrite combine_length, seq_length. lia.
Qed.
Lemma memn_in x l : memn x l = true <-> In x l.
Proof. unfold memn. rewrite existsb_exists. split; [intros (y & I & Q); apply Nat.eqb_eq in Q; subst; exact I|intro I; exists x; split; [exact I|apply Nat.eqb_refl]]. Qed.
Lemma memn_out x l : memn x l = false <-> ~ In x l.
Proof. rewrite <- memn_in. destruct (memn x l); intuition congruence. Qed.

Lemma emin_which a b : (eeqb (emin a b) a = true -> emin a b = a /\ eLe a b) /\ (eeqb (emin a b) a = false -> emin a b = b /\ eLt b a).
Proof.
  unfold emin. destruct (eltb a b) eqn:E.
  - apply eltb_lt in E. split; [intros _; split; [reflexivity|apply eLt_le; exact E]|]. rewrite eeqb_refl. discriminate.
  - apply eltb_ge in E. split; intro H; (split; [|]); try reflexivity.
    + apply eeqb_eq; exact H.
    + apply eeqb_eq in H. subst. apply eLe_refl.
    + apply eLt_not_le. intro G. apply eeqb_neq in H. apply H. apply eLe_antisym; assumption.
Qed.
Lemma nearest_ok near dests : forall vs best ind, let r := nearest near dests vs best ind in
  (r = ind /\ forall w, In w vs -> ~ In w dests -> eLt best (near w)) \/
  (In r vs /\ ~ In r dests /\ eLe (near r) best /\ forall w, In w vs -> ~ In w dests -> eLe (near r) (near w)).
Proof.
  induction vs as [|v vs IH]; intros best ind; cbn [nearest]; cbv zeta.
  - left. split; [reflexivity|]. intros w [].
  - destruct (memn v dests) eqn:M.
    + apply memn_in in M. destruct (IH best ind) as [(H1 & H2)|(H1 & H2 & H3 & H4)]; cbv zeta in *.
      * left. split; [exact H1|]. intros w [<-|I] N; [contradiction|apply H2; assumption].
      * right. split; [right; exact H1|]. split; [exact H2|]. split; [exact H3|]. intros w [<-|I] N; [contradiction|apply H4; assumption].
    + apply memn_out in M. destruct (IH (emin (near v) best) (if eeqb (emin (near v) best) (near v) then v else ind)) as [(H1 & H2)|(H1 & H2 & H3 & H4)]; cbv zeta in *.
      * rewrite H1. destruct (eeqb (emin (near v) best) (near v)) eqn:B.
        -- apply (proj1 (emin_which _ _)) in B as [B LB]. rewrite B in H2. right. split; [left; reflexivity|]. split; [exact M|]. split; [exact LB|].
           intros w [<-|I] N; [apply eLe_refl|]. apply eLt_le. apply H2; assumption.
        -- apply (proj2 (emin_which _ _)) in B as [B LB]. rewrite B in H2. left. split; [reflexivity|].
           intros w [<-|I] N; [exact LB|]. apply H2; assumption.
      * right. split; [right; exact H1|]. split; [exact H2|]. split; [eapply eLe_trans; [exact H3|apply emin_le_r]|].
        intros w [<-|I] N; [eapply eLe_trans; [exact H3|apply emin_le_l]|apply H4; assumption].
Qed.

Lemma rank_loops_ok dests fcqs : forall vs d, dwf d -> (forall v, In v vs -> vertex (dg_g d) v) -> let d' := rank_loops vs dests fcqs d in
  dwf d' /\ map fst (dg_g d') = map fst (dg_g d) /\ (forall e i, In (e, i) (dg_index d) -> In (e, i) (dg_index d')) /\
  (forall x y, arc (dg_g d') x y <-> arc (dg_g d) x y \/ (x = y /\ In x vs /\ (In x dests \/ In x fcqs))).
Proof.
  induction vs as [|v vs IH]; intros d W H; cbn [rank_loops]; cbv zeta.
  - split; [exact W|]. split; [reflexivity|]. split; [auto|]. intros x y. split; [auto|intros [A|(_ & [] & _)]; exact A].
  - set (d1 := if memn v dests || memn v fcqs then (if is_edge d (v, v) then d else dg_add d v v) else d). assert (Vv := H v (or_introl eq_refl)).
    assert (D1 : dwf d1 /\ map fst (dg_g d1) = map fst (dg_g d) /\ (forall e i, In (e, i) (dg_index d) -> In (e, i) (dg_index d1)) /\
      (forall x y, arc (dg_g d1) x y <-> arc (dg_g d) x y \/ (x = y /\ x = v /\ (In x dests \/ In x fcqs)))).
    { unfold d1. destruct (memn v dests || memn v fcqs) eqn:B.
      - assert (B' : In v dests \/ In v fcqs) by (apply orb_true_iff in B; rewrite !memn_in in B; exact B). destruct (is_edge d (v, v)) eqn:E.
        + split; [exact W|]. split; [reflexivity|]. split; [auto|]. intros x y. split; [auto|]. apply (is_edge_arc d v v W) in E. intros [A|(-> & -> & _)]; assumption.
        + destruct (dg_add_arcs d v v W) as [V1 A1]. split; [apply dg_add_ok; exact W|]. split; [|split; [intros e i; apply dg_add_keeps; exact W|intros x y; rewrite A1; split; [intros [A|[-> ->]]; auto|intros [A|(-> & -> & _)]; auto]]].
          unfold dg_add. cbv zeta. apply vertex_mg in Vv as (r & R). assert (K : map fst (g_edge (dg_g d) v v None) = map fst (dg_g d)) by (rewrite (edge_keys _ _ _ _ _ R), (node_same _ _ _ R); reflexivity).
          destruct (mhas peqb (dg_index d) (v, v)); exact K.
      - split; [exact W|]. split; [reflexivity|]. split; [auto|]. intros x y. split; [auto|]. intros [A|(-> & -> & G)]; [exact A|]. apply orb_false_iff in B. rewrite !memn_out in B. tauto. }
    destruct D1 as (W1 & K1 & X1 & A1). destruct (IH d1 W1) as (W' & K' & X' & A').
    { intros w I. unfold vertex. rewrite K1. apply H. right; exact I. }
    cbv zeta in *. split; [exact W'|]. split; [congruence|]. split; [intros e i I; apply X', X1; exact I|]. intros x y. rewrite A', A1. split.
    + intros [[A|(Q & -> & G)]|(Q & I & G)]; [auto|right; split; [exact Q|split; [left; reflexivity|exact G]]|right; split; [exact Q|split; [right; exact I|exact G]]].
    + intros [A|(Q & [->|I] & G)]; [auto| |]; auto.
Qed.

Lemma all_one_flat : forall es d, all_one es d = set_types (map (fun e => (e, 1)) es) d.
Proof. induction es as [|e es IH]; intro d; cbn [all_one map set_types]; [reflexivity|]. destruct (set_type e 1 d); cbn [bind]; auto. Qed.
Definition loop_list (dests fcqs vs : list nat) : list ((nat * nat) * Z) :=
  flat_map (fun v => if memn v dests then [((v, v), 3)] else if memn v fcqs then [((v, v), 2)] else []) vs.
Lemma loop_types_flat dests fcqs : forall vs d, loop_types vs dests fcqs d = set_types (loop_list dests fcqs vs) d.
Proof.
  induction vs as [|v vs IH]; intro d; cbn [loop_types]; [reflexivity|]. unfold loop_list. cbn [flat_map]. fold (loop_list dests fcqs vs).
  destruct (memn v dests); [|destruct (memn v fcqs)]; cbn [app set_types]; try (destruct (set_type (v, v) _ d); cbn [bind]; auto; fail). cbn [bind]. apply IH.
Qed.
Lemma loop_list_in dests fcqs vs x y t : In ((x, y), t) (loop_list dests fcqs vs) <-> In x vs /\ x = y /\ ((In x dests /\ t = 3) \/ (~ In x dests /\ In x fcqs /\ t = 2)).
Proof.
  unfold loop_list. rewrite in_flat_map. split.
  - intros (v & I & J). destruct (memn v dests) eqn:M; [apply memn_in in M; destruct J as [Q|[]]; injection Q as <- <- <-; tauto|]. apply memn_out in M. destruct (memn v fcqs) eqn:M2; [|destruct J]. apply memn_in in M2. destruct J as [Q|[]]; injection Q as <- <- <-. tauto.
  - intros (I & <- & [[D ->]|(D & F & ->)]); exists x; (split; [exact I|]).
    + rewrite (proj2 (memn_in x dests) D). left; reflexivity.
    + rewrite (proj2 (memn_out x dests) D), (proj2 (memn_in x fcqs) F). left; reflexivity.
Qed.
Lemma loop_list_nodup dests fcqs : forall vs, NoDup vs -> NoDup (map fst (loop_list dests fcqs vs)).
Proof.
  induction vs as [|v vs IH]; intro N; [constructor|]. inversion N as [|? ? NI N']; subst. unfold loop_list. cbn [flat_map]. fold (loop_list dests fcqs vs).
  assert (G : ~ In (v, v) (map fst (loop_list dests fcqs vs))). { intro I. apply in_map_iff in I as (((x & y) & t) & Q & I). cbn in Q. injection Q as -> ->. apply loop_list_in in I. tauto. }
  destruct (memn v dests); [|destruct (memn v fcqs)]; cbn; try constructor; auto.
Qed.

Lemma ceil_eq q k : (q <= inject_Z k)%Q -> (inject_Z k < q + 1)%Q -> Qceiling q = k.
Proof.
  intros H1 H2. assert (A := Qceiling_lt q). assert (B := Qle_ceiling q). apply Z.le_antisymm.
  - assert (C : (inject_Z (Qceiling q - 1) < inject_Z k)%Q) by (eapply Qlt_le_trans; eassumption). rewrite <- Zlt_Qlt in C. lia.
  - assert (C : (inject_Z k < inject_Z (Qceiling q + 1))%Q). { rewrite inject_Z_plus. eapply Qlt_le_trans; [exact H2|]. apply Qplus_le_l. exact B. } rewrite <- Zlt_Qlt in C. lia.
Qed.
Lemma floor_eq q m : (inject_Z m <= q)%Q -> (q < inject_Z m + 1)%Q -> Qfloor q = m.
Proof.
  intros H1 H2. assert (A := Qfloor_le q). assert (B := Qlt_floor q). apply Z.le_antisymm.
  - assert (C : (inject_Z (Qfloor q) < inject_Z (m + 1))%Q) by (rewrite inject_Z_plus; eapply Qle_lt_trans; eassumption). rewrite <- Zlt_Qlt in C. lia.
  - assert (C : (inject_Z m < inject_Z (Qfloor q + 1))%Q) by (eapply Qle_lt_trans; eassumption). rewrite <- Zlt_Qlt in C. lia.
Qed.
Lemma quot_floor q : (0 <= q)%Q -> Z.quot (Qnum q) (Zpos (Qden q)) = Qfloor q.
Proof. intro L. destruct q as [a b]. cbn. unfold Qle in L. cbn in L. apply Z.quot_div_nonneg; lia. Qed.

Lemma rank_ok gi d rank p2 p3 near k m : test_graph gi = Ok d -> dwf d -> (forall v, vertex (dg_g d) v <-> (v < length rank)%nat) ->
  let n := inject_Z (Z.of_nat (length rank)) in
  (1 <= k <= length rank)%nat -> (n * p2 <= inject_Z (Z.of_nat k))%Q -> (inject_Z (Z.of_nat k) < n * p2 + 1)%Q ->
  (inject_Z (Z.of_nat m) <= p3 * n)%Q -> (p3 * n < inject_Z (Z.of_nat m) + 1)%Q ->
  exists d' f, set_types_rank gi rank p2 p3 near = Ok d' /\ dwf d' /\ (forall v, vertex (dg_g d') v <-> vertex (dg_g d) v) /\
    (forall e i, In (e, i) (dg_index d) -> In (e, i) (dg_index d')) /\
    (forall j, (j < m)%nat -> (exists w, (w < length rank)%nat /\ ~ top rank k w) ->
      (f j < length rank)%nat /\ ~ top rank k (f j) /\ forall w, (w < length rank)%nat -> ~ top rank k w -> eLe (near (f j) j) (near w j)) /\
    (forall x y, arc (dg_g d') x y <-> arc (dg_g d) x y \/ (x = y /\ (x < length rank)%nat /\ (top rank k x \/ exists j, (j < m)%nat /\ f j = x))) /\
    (forall x y t, edge (dg_g d') x y t -> x <> y -> t = Some 1) /\
    (forall x t, edge (dg_g d') x x t ->
      (top rank k x -> t = Some 3) /\ (~ top rank k x -> (exists j, (j < m)%nat /\ f j = x) -> t = Some 2) /\ (~ top rank k x -> ~ (exists j, (j < m)%nat /\ f j = x) -> t = Some 1)).
Proof.
  intros TG W V n Lk K1 K2 M1 M2. unfold set_types_rank. rewrite TG. cbn [bind]. cbv zeta.
  assert (NV : NoDup (g_nodes (dg_g d))) by apply (dw_proper _ W).
  assert (LN : length (g_nodes (dg_g d)) = length rank).
  { transitivity (length (seq 0 (length rank))); [|apply seq_length]. apply Permutation_length, NoDup_Permutation; [exact NV|apply seq_NoDup|]. intro v. rewrite in_seq. change (vertex (dg_g d) v <-> (0 <= v < 0 + length rank)%nat). rewrite V. lia. }
  rewrite LN. fold n. rewrite (ceil_eq _ _ K1 K2). destruct (sorted_split rank k Lk) as (l1 & x & l2 & Q & LL & PG & H1 & H2). rewrite PG. cbn [bind].
  set (dests := where_ge rank x). assert (TOP : forall v, In v dests <-> top rank k v).
  { intro v. unfold dests. rewrite where_ge_in. split; [intros [L G]; apply (top_iff rank k x l1 l2 v Q LL); auto; lia|intro T; split; [apply T|]; apply (top_iff rank k x l1 l2 v Q LL); auto; [lia|apply T]]. }
  assert (FA : forallb (fun v => mhas Nat.eqb (dg_g d) v) dests = true).
  { apply forallb_forall. intros v I. apply (mhas_in _ neq_eq). apply V. apply TOP in I. apply I. }
  rewrite FA. cbn [bind]. assert (P3 : (0 <= p3 * n)%Q) by (eapply Qle_trans; [|exact M1]; change 0%Q with (inject_Z 0); rewrite <- Zle_Qle; lia).
  rewrite (quot_floor _ P3), (floor_eq _ _ M1 M2). destruct (Z.ltb_spec (Z.of_nat m) 0) as [?|_]; [lia|]. cbn [bind]. rewrite Nat2Z.id.
  set (f := fun j => nearest (fun v => near v j) dests (g_nodes (dg_g d)) Inf 1%nat). change (map (fun k0 : nat => nearest (fun v : nat => near v k0) dests (g_nodes (dg_g d)) Inf 1%nat) (seq 0 m)) with (map f (seq 0 m)).
  set (fcqs := map f (seq 0 m)). assert (FC : forall v, In v fcqs <-> exists j, (j < m)%nat /\ f j = v).
  { intro v. unfold fcqs. rewrite in_map_iff. split; [intros (j & E & I); apply in_seq in I; exists j; split; [lia|exact E]|intros (j & L & E); exists j; split; [exact E|apply in_seq; lia]]. }
  destruct (rank_loops_ok dests fcqs (g_nodes (dg_g d)) d W) as (W1 & KK1 & X1 & A1); [intros v I; exact I|]. cbv zeta in *. set (d1 := rank_loops _ dests fcqs d) in *.
  destruct (no_types_ok d1 W1) as ((W0 & X0 & V0 & A0) & KK0 & T0).
  rewrite all_one_flat. destruct (set_types_ok (map (fun e => (e, 1)) (g_edges (dg_g d1))) (no_types d1) W0) as (d2 & E2 & (W2 & X2 & V2 & A2) & KK2 & T2).
  { rewrite map_map. cbn [fst]. rewrite map_id. apply g_edges_nodup, W1. }
  { intros u v t I. apply in_map_iff in I as (e & Qe & I). injection Qe as -> <-. apply A0, g_edges_in. exact I. }
  rewrite E2. cbn [bind]. rewrite loop_types_flat.
  assert (ARC2 : forall a b, arc (dg_g d2) a b <-> arc (dg_g d) a b \/ (a = b /\ In a (g_nodes (dg_g d)) /\ (In a dests \/ In a fcqs))) by (intros a b; rewrite A2, A0, A1; reflexivity).
  destruct (set_types_ok (loop_list dests fcqs (g_nodes (dg_g d))) d2 W2) as (d3 & E3 & (W3 & X3 & V3 & A3) & KK3 & T3).
  { apply loop_list_nodup. exact NV. }
  { intros a b t I. apply loop_list_in in I as (I & <- & H). apply ARC2. right. tauto. }
  assert (ONE : forall a b t, edge (dg_g d2) a b t -> t = Some 1).
  { intros a b t X. apply T2 in X as [(t' & I & ->)|[N X]]; [apply in_map_iff in I as (e & Qe & I); congruence|]. exfalso. apply T0 in X as [X _]. apply (N 1). apply in_map_iff. exists (a, b). split; [reflexivity|apply g_edges_in; exact X]. }
  exists d3, f. split; [exact E3|]. split; [exact W3|]. split; [intro v; unfold vertex; rewrite KK3, KK2, KK0, KK1; reflexivity|]. split; [intros e i I; rewrite X3, X2, X0; apply X1; exact I|].
  assert (GN : forall v, In v (g_nodes (dg_g d)) <-> (v < length rank)%nat) by exact V.
  split; [|split; [|split]].
  - intros j Lj (w & Lw & Nw). destruct (nearest_ok (fun v => near v j) dests (g_nodes (dg_g d)) Inf 1%nat) as [(H3 & H4)|(H3 & H4 & H5 & H6)]; cbv zeta in *; fold (f j) in *.
    + exfalso. specialize (H4 w (proj2 (GN w) Lw)). rewrite TOP in H4. specialize (H4 Nw). destruct (near w j); exact H4.
    + split; [apply GN; exact H3|]. split; [rewrite <- TOP; exact H4|]. intros y Ly Ny. apply H6; [apply GN; exact Ly|rewrite TOP; exact Ny].
  - intros a b. rewrite A3, ARC2, GN, TOP, FC. reflexivity.
  - intros a b t X NE. apply T3 in X as [(t' & I & _)|[_ X]]; [apply loop_list_in in I; tauto|eapply ONE; exact X].
  - intros a t X. rewrite <- !FC, <- !TOP. apply T3 in X as [(t' & I & ->)|[N X]].
    + apply loop_list_in in I as (_ & _ & [[D ->]|(D & F & ->)]); repeat split; tauto.
    + assert (t = Some 1) by (eapply ONE; exact X). subst. assert (Va : In a (g_nodes (dg_g d))). { assert (VV : vertex (dg_g d2) a) by (destruct X as (r0 & J & _); apply in_map_iff; exists (a, r0); auto). unfold vertex in VV. rewrite KK2, KK0, KK1 in VV. exact VV. }
      split; [intro D; exfalso; apply (N 3); apply loop_list_in; auto|]. split; [intros D F; exfalso; apply (N 2); apply loop_list_in; auto 6|reflexivity].
Qed.

(** If the ranks are different, exactly [k] vertices are at the top. *)
Lemma top_count rank k : NoDup rank -> (1 <= k <= length rank)%nat -> exists l, NoDup l /\ length l = k /\ forall v, In v l <-> top rank k v.
Proof.
  intros N Lk. destruct (sorted_split rank k Lk) as (l1 & x & l2 & Q & LL & _ & H1 & H2). exists (where_ge rank x). split; [|split].
  - unfold where_ge. assert (G : forall l : list (nat * Z), NoDup (map fst l) -> NoDup (map fst (filter (fun p => x <=? snd p) l))).
    { induction l as [|[a b] l IH]; intro H; cbn; [constructor|]. cbn in H. inversion H as [|? ? NI H']; subst. destruct (x <=? b); [|apply IH; exact H']. cbn. constructor; [|apply IH; exact H'].
      intro I. apply NI. apply in_map_iff in I as (p & Qp & I). apply filter_In in I as [I _]. apply in_map_iff. eauto. }
    apply G. rewrite combine_fst by apply seq_length. apply seq_NoDup.
  - unfold where_ge. rewrite map_length. assert (G : forall (l : list Z) (ix : list nat), length ix = length l -> length (filter (fun p => x <=? snd p) (combine ix l)) = length (filter (fun r => x <=? r) l)).
    { induction l as [|a l IH]; intros [|i ix] E; try discriminate; cbn; [reflexivity|]. destruct (x <=? a); cbn; rewrite IH; auto. }
    rewrite G by apply seq_length. rewrite <- (filter_perm _ _ _ (zsort_perm rank)), Q, filter_app. cbn [filter]. rewrite Z.leb_refl. cbn [app].
    assert (ND : NoDup (l1 ++ x :: l2)) by (rewrite <- Q; eapply Permutation_NoDup; [symmetry; apply zsort_perm|exact N]).
    rewrite filter_none; [rewrite (filter_all _ l2); [cbn; lia|intros y I; apply H2 in I; apply Z.leb_le; exact I]|].
    intros y I. assert (y <> x) by (intros ->; apply NoDup_remove_2 in ND; apply ND; apply in_app_iff; auto). apply H1 in I. apply Z.leb_gt. lia.
  - intro v. rewrite where_ge_in. split; [intros [L G]; apply (top_iff rank k x l1 l2 v Q LL); auto; lia|intro T; split; [apply T|]; apply (top_iff rank k x l1 l2 v Q LL); auto; [lia|apply T]].
Qed.

(** ** generate_pagerank_graph *)

Lemma put_ranks_ok : forall l r, (forall k x, In (k, x) l -> (k < length r)%nat) -> NoDup (map fst l) -> exists r', put_ranks l r = Ok r' /\ length r' = length r /\
  (forall k x, In (k, x) l -> nth_error r' k = Some x) /\ (forall k, ~ In k (map fst l) -> nth_error r' k = nth_error r k).
Proof.
  induction l as [|[k x] l IH]; intros r B N; cbn [put_ranks].
  - exists r. split; [reflexivity|]. split; [reflexivity|]. split; [intros ? ? []|reflexivity].
  - cbn in N. inversion N as [|? ? NI N']; subst. assert (Lk := B k x (or_introl eq_refl)). rewrite (set_Some r k x Lk). cbn [of_option bind].
    destruct (IH (upd r k x)) as (r' & E & L & F & G); [intros k' x' I; rewrite upd_length; apply (B k' x'); right; exact I|exact N'|].
    exists r'. split; [exact E|]. rewrite upd_length in L. split; [exact L|]. split.
    + intros k' x' [Q|I]; [injection Q as <- <-|apply F; exact I]. rewrite G by exact NI. apply nth_error_upd_eq. exact Lk.
    + intros k' H. rewrite G by (intro I; apply H; right; exact I). apply nth_error_upd_neq. intros ->. apply H. left; reflexivity.
Qed.

Lemma pagerank_ok n dist pr p2 p3 near k m : (2 <= n)%nat -> (forall d, dwf d -> NoDup (map fst (pr d)) /\ forall v, In v (map fst (pr d)) <-> vertex (dg_g d) v) ->
  let N := inject_Z (Z.of_nat n) in
  (1 <= k <= n)%nat -> (N * p2 <= inject_Z (Z.of_nat k))%Q -> (inject_Z (Z.of_nat k) < N * p2 + 1)%Q ->
  (inject_Z (Z.of_nat m) <= p3 * N)%Q -> (p3 * N < inject_Z (Z.of_nat m) + 1)%Q ->
  exists g rank d, minimal_graph n dist = Ok g /\ dwf g /\ length rank = n /\ (forall v, vertex (dg_g g) v <-> (v < n)%nat) /\ (forall v x, In (v, x) (pr g) -> nth_error rank v = Some x) /\
    generate_pagerank_graph n dist pr p2 p3 near = Ok d /\ set_types_rank (GIndexed g) rank p2 p3 near = Ok d.
Proof.
  intros L PR N Lk K1 K2 M1 M2. destruct (minimal_ok n dist L) as (g & r & E & W & V & _). destruct (PR g W) as [NP IP].
  destruct (put_ranks_ok (pr g) (repeat 0 n)) as (rank & ER & LR & F & _).
  { intros v x I. rewrite repeat_length. apply V, IP. apply in_map_iff. exists (v, x). auto. }
  { exact NP. }
  rewrite repeat_length in LR. destruct (rank_ok (GIndexed g) g rank p2 p3 near k m) as (d & f & ED & _); try (rewrite LR); auto.
  exists g, rank, d. split; [exact E|]. split; [exact W|]. split; [exact LR|]. split; [exact V|]. split; [exact F|]. split; [|exact ED].
  unfold generate_pagerank_graph. rewrite E. cbn [bind]. rewrite ER. cbn [bind]. exact ED.
Qed.
