(** * GraphGenProofs: lemmas about graph generation *)
From Coq Require Import List ZArith QArith Qabs Bool Arith Lia Permutation Sorting.Sorted.
From Verif Require Import Base Dict UnionFind SpecUF UnionFindProofs QueueEffects Graph SpecGraph GraphProofs GraphClaims GraphNet GraphIndex GraphBuild Routing SpecRoute RoutingProofs RoutingGen GraphGen SpecGen.
Import ListNotations.
Open Scope Z_scope.

(** ** minimal_random_graph *)

Lemma all_edges_in dist n z k j : In (z, (k, j)) (all_edges dist n) <-> (k < j < n)%nat /\ z = dist k j.
Proof.
  unfold all_edges. rewrite in_flat_map. split.
  - intros (k' & I & J). apply in_seq in I. unfold row_edges in J. apply in_map_iff in J as (j' & Q & J). apply in_seq in J. injection Q as <- <- <-. split; [lia|reflexivity].
  - intros [L ->]. exists k. split; [apply in_seq; lia|]. unfold row_edges. apply in_map_iff. exists j. split; [reflexivity|apply in_seq; lia].
Qed.
Lemma dinsert_perm a l : Permutation (dinsert a l) (a :: l).
Proof.
  induction l as [|b l IH]; cbn; [reflexivity|]. destruct (deleb a b); [reflexivity|]. rewrite IH. apply perm_swap.
Qed.
Lemma esort_perm l : Permutation (esort l) l.
Proof. induction l as [|a l IH]; cbn; [reflexivity|]. unfold esort in *. rewrite dinsert_perm, IH. reflexivity. Qed.
Lemma deleb_le a b : (deleb a b = true -> fst a <= fst b) /\ (deleb a b = false -> fst b <= fst a).
Proof.
  unfold deleb. split.
  - rewrite orb_true_iff, andb_true_iff, Z.ltb_lt, Z.eqb_eq. lia.
  - rewrite orb_false_iff, Z.ltb_ge. lia.
Qed.
Lemma dinsert_sorted a l : StronglySorted (fun x y : dedge => fst x <= fst y) l -> StronglySorted (fun x y : dedge => fst x <= fst y) (dinsert a l).
Proof.
  induction 1 as [|b l S IH F]; cbn; [repeat constructor|]. destruct (deleb a b) eqn:E.
  - apply (proj1 (deleb_le a b)) in E. constructor; [constructor; assumption|]. constructor; [exact E|]. eapply Forall_impl; [|exact F]. cbn. lia.
  - apply (proj2 (deleb_le a b)) in E. constructor; [exact IH|]. rewrite Forall_forall in *. intros x I. eapply Permutation_in in I; [|apply dinsert_perm]. destruct I as [<-|I]; [exact E|apply F; exact I].
Qed.
Lemma esort_sorted l : StronglySorted (fun x y : dedge => fst x <= fst y) (esort l).
Proof. induction l as [|a l IH]; cbn; [constructor|]. apply dinsert_sorted. exact IH. Qed.

Definition pairs_of (es : list dedge) : list (nat * nat) := map snd es.

(** The number of clusters and connectedness. *)
Lemma clusters_one K ps u : uinv K ps u -> K <> [] -> (uf_clusters u = 1 <-> forall x y, In x K -> In y K -> conn ps x y).
Proof.
  intros I NE. destruct (un_count _ _ _ I) as (l & N & M & E). assert (F := un_forest _ _ _ I). rewrite E. split.
  - intros L x y X Y. destruct (up_total _ _ _ F X) as (rx & UX). destruct (up_total _ _ _ F Y) as (ry & UY). apply (un_conn _ _ _ I _ _ _ _ UX UY).
    assert (H1 : In rx l) by (apply M; eapply up_top; exact UX). assert (H2 : In ry l) by (apply M; eapply up_top; exact UY).
    destruct l as [|a [|b l]]; cbn in L; [destruct H1| |lia]. destruct H1 as [<-|[]], H2 as [<-|[]]. reflexivity.
  - intro C. destruct K as [|k K]; [congruence|]. destruct (up_total _ _ k F (or_introl eq_refl)) as (r & U). assert (T := up_top _ _ _ U).
    destruct l as [|a [|b l]]; [apply M in T; destruct T|reflexivity|]. exfalso. assert (A : ld u a = Some a) by (apply M; left; reflexivity). assert (B : ld u b = Some b) by (apply M; right; left; reflexivity).
    assert (Q : a = b). { apply (un_conn _ _ _ I a b a b (up_root _ _ A) (up_root _ _ B)). apply C; [apply (fo_dom _ _ a F)|apply (fo_dom _ _ b F)]; eauto. }
    subst. inversion N as [|? ? NI _]; subst. apply NI. left; reflexivity.
Qed.

Definition grown (es : list dedge) (g : graph) : graph := fold_left (fun g e => u_edge g (fst (snd e)) (snd (snd e))) es g.

Lemma grow_ok K : forall es ps u g, uinv K ps u -> (forall z x y, In (z, (x, y)) es -> In x K /\ In y K) ->
  (exists u', uinv K (ps ++ pairs_of es) u' /\ (es = [] \/ uf_clusters u' <> 1) /\ grow es u g = Ok (grown es g)) \/
  (exists pre e post u0 u1, es = pre ++ e :: post /\ uinv K (ps ++ pairs_of pre) u0 /\ (pre = [] -> u0 = u) /\ (pre <> [] -> uf_clusters u0 <> 1) /\
    uinv K (ps ++ pairs_of (pre ++ [e])) u1 /\ uf_clusters u1 = 1 /\ grow es u g = Ok (grown (pre ++ [e]) g)).
Proof.
  induction es as [|[z [x y]] es IH]; intros ps u g I B; cbn [grow].
  - left. exists u. cbn. rewrite app_nil_r. auto.
  - destruct (B z x y (or_introl eq_refl)) as [X Y]. destruct (union_ok K ps u x y I X Y) as (u1 & E & I1). rewrite E. cbn [bind]. cbv zeta.
    destruct (Z.eqb_spec (uf_clusters u1) 1) as [Q|Q].
    + right. exists [], (z, (x, y)), es, u, u1. cbn. rewrite app_nil_r. repeat (split; auto). all: try congruence.
    + destruct (IH (ps ++ [(x, y)]) u1 (u_edge g x y) I1) as [(u' & I' & C & G)|(pre & e & post & u0 & u2 & Q1 & I0 & Z0 & C0 & I2 & C2 & G)].
      { intros z' x' y' J. apply (B z'). right; exact J. }
      * left. exists u'. split; [|split; [|exact G]].
        -- replace (ps ++ pairs_of ((z, (x, y)) :: es)) with ((ps ++ [(x, y)]) ++ pairs_of es); [exact I'|]. rewrite <- app_assoc. reflexivity.
        -- right. destruct C as [->|C]; [|exact C]. cbn in G, I'. rewrite app_nil_r in I'.
           assert (KE : K <> []) by (intros ->; destruct X). intro H. apply Q. apply (proj2 (clusters_one K _ u1 I1 KE)). exact (proj1 (clusters_one K _ u' I' KE) H).
      * right. exists ((z, (x, y)) :: pre), e, post, u0, u2. split; [cbn; congruence|]. split; [|split; [discriminate|split; [|split; [|split; [exact C2|exact G]]]]].
        -- replace (ps ++ pairs_of ((z, (x, y)) :: pre)) with ((ps ++ [(x, y)]) ++ pairs_of pre); [exact I0|]. rewrite <- app_assoc. reflexivity.
        -- intros _. destruct pre as [|p pre]; [rewrite (Z0 eq_refl); exact Q|apply C0; discriminate].
        -- replace (ps ++ pairs_of (((z, (x, y)) :: pre) ++ [e])) with ((ps ++ [(x, y)]) ++ pairs_of (pre ++ [e])); [exact I2|]. rewrite <- app_assoc. reflexivity.
Qed.

Lemma u_edge_ok g x y : proper g -> proper (u_edge g x y) /\ (forall v, vertex (u_edge g x y) v <-> vertex g v \/ v = x \/ v = y) /\
  (forall a b, arc (u_edge g x y) a b <-> arc g a b \/ (a = x /\ b = y) \/ (a = y /\ b = x)).
Proof.
  intro P. destruct (gedge_ok g x y None P) as (P1 & V1 & A1 & _). destruct (gedge_ok _ y x None P1) as (P2 & V2 & A2 & _).
  split; [exact P2|]. unfold u_edge. split; [intro v; rewrite V2, V1; tauto|]. intros a b. rewrite A2, A1. tauto.
Qed.
Lemma grown_ok : forall es g, proper g -> proper (grown es g) /\ (forall v, vertex (grown es g) v <-> vertex g v \/ exists z x y, In (z, (x, y)) es /\ (v = x \/ v = y)) /\
  (forall a b, arc (grown es g) a b <-> arc g a b \/ exists z, In (z, (a, b)) es \/ In (z, (b, a)) es).
Proof.
  induction es as [|[z [x y]] es IH]; intros g P; cbn [grown fold_left fst snd].
  - split; [exact P|]. split; [intro v|intros a b]; split; auto; intros [H|H]; auto; exfalso; [destruct H as (? & ? & ? & [] & _)|destruct H as (? & [[]|[]])].
  - destruct (u_edge_ok g x y P) as (P1 & V1 & A1). destruct (IH _ P1) as (P2 & V2 & A2). unfold grown in *. split; [exact P2|]. split.
    + intro v. rewrite V2, V1. split.
      * intros [[H|H]|(z' & x' & y' & J & H)]; [auto|right; exists z, x, y; split; [left; reflexivity|exact H]|right; exists z', x', y'; split; [right; exact J|exact H]].
      * intros [H|(z' & x' & y' & [Q|J] & H)]; [auto|injection Q as <- <- <-; auto|right; exists z', x', y'; auto].
    + intros a b. rewrite A2, A1. split.
      * intros [[H|[[-> ->]|[-> ->]]]|(z' & H)]; [auto|right; exists z; left; left; reflexivity|right; exists z; right; left; reflexivity|right; exists z'; destruct H; [left|right]; right; assumption].
      * intros [H|(z' & [[Q|J]|[Q|J]])]; [auto|injection Q as <- <- <-; auto|right; eauto|injection Q as <- <- <-; auto|right; eauto].
Qed.

Lemma path_trans g x y z : path g x y -> path g y z -> path g x z.
Proof. induction 1; [auto|]. intro H1. econstructor; [eassumption|auto]. Qed.
Lemma path_sym g x y : (forall a b, arc g a b -> arc g b a) -> path g x y -> path g y x.
Proof. intro S. induction 1 as [x|x y z A P IH]; [constructor|]. eapply path_trans; [exact IH|]. econstructor; [apply S; exact A|constructor]. Qed.
Lemma conn_path g ps x y : (forall a b, arc g a b -> arc g b a) -> (forall a b, In (a, b) ps -> arc g a b) -> conn ps x y -> path g x y.
Proof.
  intros S H. induction 1 as [x|x y I|x y C IH|x y z C1 IH1 C2 IH2]; [constructor|econstructor; [apply H; exact I|constructor]|apply path_sym; assumption|eapply path_trans; eassumption].
Qed.

Lemma apart_pair dist k j : (k < j)%nat -> apart dist k j = dist k j /\ apart dist j k = dist k j.
Proof. intro L. unfold apart. destruct (Nat.ltb_spec k j); [|lia]. destruct (Nat.ltb_spec j k); [lia|]. auto. Qed.

Lemma uf_new_keys n x : In x (mkeys (uf_leader (uf_new (seq 0 n)))) <-> (x < n)%nat.
Proof. cbn [uf_new uf_leader]. rewrite (mof_keys _ neq_eq), map_map. cbn [fst]. rewrite map_id, in_seq. lia. Qed.

Lemma minimal_ok n dist : (2 <= n)%nat -> exists d r, minimal_graph n dist = Ok d /\ dwf d /\
  (forall v, vertex (dg_g d) v <-> (v < n)%nat) /\
  (forall x y, arc (dg_g d) x y -> arc (dg_g d) y x /\ x <> y /\ edge (dg_g d) x y None) /\
  (forall x y, (x < n)%nat -> (y < n)%nat -> path (dg_g d) x y) /\
  (exists x y, arc (dg_g d) x y /\ apart dist x y = r) /\
  (forall x y, arc (dg_g d) x y -> apart dist x y <= r) /\
  (forall x y, within n dist r x y -> arc (dg_g d) x y) /\
  exists x y, (x < n)%nat /\ (y < n)%nat /\ ~ linked (within n dist r) x y.
Proof.
  intro L2. set (K := mkeys (uf_leader (uf_new (seq 0 n)))). assert (IN := new_inv (seq 0 n)). fold K in IN.
  assert (KN : forall x, In x K <-> (x < n)%nat) by apply uf_new_keys. assert (KE : K <> []) by (intro H; assert (X : In 0%nat K) by (apply KN; lia); rewrite H in X; destruct X).
  set (es := esort (all_edges dist n)). assert (EI : forall z x y, In (z, (x, y)) es <-> (x < y < n)%nat /\ z = dist x y).
  { intros z x y. rewrite <- all_edges_in. split; apply Permutation_in; [|symmetry]; apply esort_perm. }
  assert (SO := esort_sorted (all_edges dist n)). fold es in SO.
  assert (NC0 : uf_clusters (uf_new (seq 0 n)) <> 1).
  { intro H0. assert (H := proj1 (clusters_one K [] _ IN KE) H0). specialize (H 0%nat 1%nat). assert (C : conn [] 0 1) by (apply H; apply KN; lia).
    assert (G : forall x y, conn [] x y -> x = y) by (induction 1; congruence || contradiction || auto). apply G in C. discriminate. }
  destruct (grow_ok K es [] (uf_new (seq 0 n)) [] IN) as [(u' & I' & C & _)|(pre & e & post & u0 & u1 & Q & I0 & Z0 & C0 & I1 & C1 & G)].
  { intros z x y J. apply EI in J as [J _]. rewrite !KN. lia. }
  - exfalso. cbn [app] in I'. assert (F : forall x y, In x K -> In y K -> conn (pairs_of es) x y).
    { intros x y X Y. apply KN in X, Y. assert (J : forall a b, (a < b < n)%nat -> conn (pairs_of es) a b).
      { intros a b AB. apply conn_pair. unfold pairs_of. apply in_map_iff. exists (dist a b, (a, b)). split; [reflexivity|]. apply EI. auto. }
      destruct (lt_eq_lt_dec x y) as [[H|H]|H]; [apply J; lia|subst; constructor|apply conn_sym, J; lia]. }
    destruct C as [C|C]; [|apply C; apply (clusters_one K _ u' I' KE); exact F]. assert (J : In (dist 0%nat 1%nat, (0%nat, 1%nat)) es) by (apply EI; split; [lia|reflexivity]). rewrite C in J. destruct J.
  - destruct e as [r [ex ey]]. cbn [app] in *.
    assert (PE : proper []) by (split; [constructor|intros ? ? []]).
    destruct (grown_ok (pre ++ [(r, (ex, ey))]) [] PE) as (P & V & A).
    assert (Ein : In (r, (ex, ey)) es) by (rewrite Q; apply in_app_iff; right; left; reflexivity).
    assert (PRE : forall z x y, In (z, (x, y)) (pre ++ [(r, (ex, ey))]) -> (x < y < n)%nat /\ z = dist x y /\ z <= r).
    { intros z x y J. assert (J' : In (z, (x, y)) es). { rewrite Q. apply in_app_iff in J. apply in_app_iff. destruct J as [J|[J|[]]]; [left; exact J|right; left; exact J]. }
      destruct (proj1 (EI z x y) J') as [H1 H2]. split; [exact H1|]. split; [exact H2|]. apply in_app_iff in J as [J|[J|[]]]; [|injection J as <- <- <-; lia].
      rewrite Q in SO. clear -SO J. induction pre as [|p pre IH]; [destruct J|]. cbn in SO. inversion SO as [|? ? S F]; subst. destruct J as [->|J]; [|apply IH; assumption].
      rewrite Forall_forall in F. apply (F (r, (ex, ey))). apply in_app_iff. right; left; reflexivity. }
    assert (POST : forall z x y, In (z, (x, y)) es -> z < r -> In (z, (x, y)) pre).
    { intros z x y J LT. rewrite Q in J, SO. apply in_app_iff in J as [J|[J|J]]; [exact J|injection J as <- <- <-; lia|]. exfalso. clear -SO J LT.
      induction pre as [|p pre IH]; cbn in SO; inversion SO as [|? ? S F]; subst; [|apply IH; exact S]. rewrite Forall_forall in F. specialize (F _ J). cbn in F. lia. }
    assert (ARC : forall x y, arc (grown (pre ++ [(r, (ex, ey))]) []) x y <-> exists z, In (z, (x, y)) (pre ++ [(r, (ex, ey))]) \/ In (z, (y, x)) (pre ++ [(r, (ex, ey))])).
    { intros x y. rewrite A. split; [intros [(o & r0 & [] & _)|H]; exact H|auto]. }
    set (g := grown (pre ++ [(r, (ex, ey))]) []) in *.
    assert (SYM : forall x y, arc g x y -> arc g y x). { intros x y. rewrite !ARC. intros (z & [H|H]); exists z; auto. }
    assert (CL : closed g). { intros x y o X. apply V. right. assert (Ax : arc g x y) by (exists o; exact X). apply ARC in Ax as (z & [H|H]); [exists z, x, y|exists z, y, x]; auto. }
    assert (DG : dg_g (dg_new g) = g) by (cbn; apply from_dod_id; assumption).
    assert (CON : forall x y, (x < n)%nat -> (y < n)%nat -> path g x y).
    { intros x y X Y. apply (conn_path g (pairs_of (pre ++ [(r, (ex, ey))]))); [exact SYM| |].
      - intros a b J. unfold pairs_of in J. apply in_map_iff in J as ([z [a' b']] & Qz & J). cbn in Qz. injection Qz as -> ->. apply ARC. exists z. auto.
      - apply (clusters_one K _ u1 I1 KE); [exact C1| |]; apply KN; assumption. }
    exists (dg_new g), r. unfold minimal_graph. fold es. rewrite G. cbn [bind]. fold g. split; [reflexivity|]. split; [apply dg_new_ok; exact P|]. rewrite DG.
    split; [|split; [|split; [exact CON|split; [|split; [|split]]]]].
    + intro v. split.
      * intro H. apply V in H as [[]|(z & x & y & J & H)]. apply PRE in J. lia.
      * intro H. assert (exists w, (w < n)%nat /\ v <> w) as (w & Lw & NE). { destruct v; [exists 1%nat|exists 0%nat]; lia. }
        assert (PW := CON v w H Lw). inversion PW as [|? y ? Ay _]; subst; [congruence|]. destruct Ay as (o & r0 & J & _). apply in_map_iff. exists (v, r0). auto.
    + intros x y Ax. split; [apply SYM; exact Ax|]. split.
      * apply ARC in Ax as (z & [H|H]); apply PRE in H; lia.
      * assert (NT : forall es0 g0, proper g0 -> (forall a b o, edge g0 a b o -> o = None) -> forall a b o, edge (grown es0 g0) a b o -> o = None).
        { clear. induction es0 as [|[z [x y]] es0 IH]; intros g0 P0 H a b o; cbn [grown fold_left fst snd]; [apply H|]. apply IH; [apply u_edge_ok; exact P0|].
          assert (ONE : forall g1 x y, proper g1 -> (forall a b o, edge g1 a b o -> o = None) -> forall a b o, edge (g_edge g1 x y None) a b o -> o = None).
          { clear. intros g1 x y P1 H a b o X. destruct (gedge_ok g1 x y None P1) as (PP & _ & _ & E). destruct (Nat.eq_dec a x) as [->|NE]; [|eapply H; apply E; [|exact X]; tauto].
            destruct (Nat.eq_dec b y) as [->|NE]; [|eapply H; apply E; [|exact X]; tauto].
            apply edge_mg in X as (r & R1 & R2); [|exact PP]. unfold g_edge in R1. rewrite nput_eq in R1. injection R1 as <-. rewrite nput_eq in R2. injection R2 as <-.
            unfold merge. destruct (mg (row_of (g_node (g_node g1 x) y) x) y) as [o|] eqn:M; [|reflexivity]. unfold row_of in M.
            destruct (mg (g_node (g_node g1 x) y) x) as [r|] eqn:MR; [|discriminate]. destruct (node_ok g1 x P1) as (P2 & _ & E2). destruct (node_ok _ y P2) as (P3 & _ & E3).
            apply (H x y). apply E2, E3. apply edge_mg; [exact P3|]. eauto. }
          intros a' b' o' X. unfold u_edge in X. revert a' b' o' X. apply ONE; [apply gedge_ok; exact P0|]. apply ONE; assumption. }
        destruct Ax as (o & X). assert (o = None); [|subst; exact X]. eapply NT; [exact PE| |exact X]. intros a b o' (r0 & [] & _).
    + exists ex, ey. split; [apply ARC; exists r; left; apply in_app_iff; right; left; reflexivity|]. destruct (proj1 (EI _ _ _) Ein) as [H1 H2]. destruct (apart_pair dist ex ey) as [H3 _]; [lia|]. congruence.
    + intros x y Ax. apply ARC in Ax as (z & [H|H]); apply PRE in H as (H1 & H2 & H3); [destruct (apart_pair dist x y) as [H4 _]|destruct (apart_pair dist y x) as [_ H4]]; lia.
    + intros x y (Lx & Ly & NE & LT). apply ARC. unfold apart in LT. destruct (Nat.ltb_spec x y) as [H|H].
      * exists (dist x y). left. apply in_app_iff. left. apply POST; [apply EI; split; [lia|reflexivity]|exact LT].
      * exists (dist y x). right. apply in_app_iff. left. apply POST; [apply EI; split; [lia|reflexivity]|exact LT].
    + assert (NC : uf_clusters u0 <> 1). { destruct pre as [|p pre]; [rewrite (Z0 eq_refl); exact NC0|apply C0; discriminate]. }
      destruct (un_count _ _ _ I0) as (l & N & M & E). assert (F := un_forest _ _ _ I0).
      assert (exists a b, In a l /\ In b l /\ a <> b) as (a & b & Ia & Ib & NE).
      { destruct l as [|a [|b l]]; cbn in E; [|lia|exists a, b; cbn; inversion N as [|? ? NI _]; subst; split; [auto|split; [auto|]]; intros ->; apply NI; left; reflexivity].
        exfalso. destruct (up_total _ _ 0%nat F) as (q & U); [apply KN; lia|]. apply up_top in U. apply M in U. destruct U. }
      apply M in Ia, Ib. exists a, b. split; [apply KN, (fo_dom _ _ a F); eauto|]. split; [apply KN, (fo_dom _ _ b F); eauto|]. intro LK. apply NE.
      apply (un_conn _ _ _ I0 a b a b (up_root _ _ Ia) (up_root _ _ Ib)). clear -LK POST EI. induction LK as [x|x y (Lx & Ly & NE & LT)|x y H IH|x y z H1 IH1 H2 IH2]; [constructor| |apply conn_sym; exact IH|eapply conn_trans; eassumption].
      unfold apart in LT. destruct (Nat.ltb_spec x y) as [H|H].
      * apply conn_pair. unfold pairs_of. apply in_map_iff. exists (dist x y, (x, y)). split; [reflexivity|]. apply POST; [apply EI; split; [lia|reflexivity]|exact LT].
      * apply conn_sym, conn_pair. unfold pairs_of. apply in_map_iff. exists (dist y x, (y, x)). split; [reflexivity|]. apply POST; [apply EI; split; [lia|reflexivity]|exact LT].
Qed.

(** ** Setting types *)

Lemma set_types_flat : forall l d, set_types l d = let* g := put_all (dg_g d) l in Ok (mkDg g (dg_index d) (dg_next d)).
Proof.
  induction l as [|[[u v] t] l IH]; intros [g ix n]; [reflexivity|]. cbn [set_types put_all]. unfold set_type, put_type. cbn [fst snd dg_g dg_index dg_next].
  destruct (nget g u) as [r|x]; cbn [bind]; [|reflexivity]. destruct (nget r v) as [o|x]; cbn [bind]; [|reflexivity]. rewrite IH. reflexivity.
Qed.
Lemma arc_keys (g g' : graph) : (forall x y, arc g' x y <-> arc g x y) -> forall e, In e (g_edges g') <-> In e (g_edges g).
Proof. intros H [x y]. rewrite !g_edges_in. apply H. Qed.
Lemma dwf_retype d g' : dwf d -> proper g' -> map fst g' = map fst (dg_g d) -> (forall x y, arc g' x y <-> arc (dg_g d) x y) -> dwf (mkDg g' (dg_index d) (dg_next d)).
Proof.
  intros [P C I E N] P' K A. split; cbn [dg_g dg_index dg_next]; auto.
  - intros u v a X. unfold vertex. rewrite K. destruct (proj1 (A u v)) as (b & Y); [exists a; exact X|]. eapply C; exact Y.
  - intro e. rewrite E. symmetry. apply arc_keys. exact A.
  - rewrite <- N. apply Permutation_length, NoDup_Permutation; [apply g_edges_nodup; exact P'|apply g_edges_nodup; exact P|]. apply arc_keys. exact A.
Qed.
Lemma set_types_ok l d : dwf d -> NoDup (map fst l) -> (forall u v t, In ((u, v), t) l -> arc (dg_g d) u v) ->
  exists d', set_types l d = Ok d' /\ same_arcs d d' /\ map fst (dg_g d') = map fst (dg_g d) /\
  (forall x y a, edge (dg_g d') x y a <-> (exists t, In ((x, y), t) l /\ a = Some t) \/ ((forall t, ~ In ((x, y), t) l) /\ edge (dg_g d) x y a)).
Proof.
  intros W N H. destruct (put_all_spec l (dg_g d) (dw_proper _ W) N H) as (g' & E & P & K & G). rewrite set_types_flat, E. cbn [bind]. eexists. split; [reflexivity|]. cbn [dg_g dg_index].
  assert (A : forall x y, arc g' x y <-> arc (dg_g d) x y).
  { intros x y. split.
    - intros (a & X). apply G in X as [(t & I & _)|[_ X]]; [eapply H; exact I|exists a; exact X].
    - intros (a & X). assert (D : (exists t, In (x, y, t) l) \/ ~ exists t, In (x, y, t) l).
      { destruct (mget peqb l (x, y)) as [t|] eqn:M; [left; exists t; apply (mget_In _ peqb_eq); exact M|right]. intros (t & I). apply (mget_none _ peqb_eq) in M. apply M. apply in_map_iff. exists (x, y, t). auto. }
      destruct D as [(t & I)|NI]; [exists (Some t); apply G; left; eauto|exists a; apply G; right]. split; [intros t I; apply NI; eauto|exact X]. }
  split; [|split; [exact K|exact G]]. split; [apply dwf_retype; auto|]. split; [reflexivity|]. split; [|exact A]. intro v. cbn [dg_g]. unfold vertex. rewrite K. reflexivity.
Qed.
Lemma no_types_ok d : dwf d -> same_arcs d (no_types d) /\ map fst (dg_g (no_types d)) = map fst (dg_g d) /\ forall x y a, edge (dg_g (no_types d)) x y a <-> arc (dg_g d) x y /\ a = None.
Proof.
  intro W. destruct (adjust_edges (fun _ _ _ => None) (dg_g d)) as (K & P & E). cbv zeta in *. unfold no_types.
  assert (A : forall x y, arc (map (fun p => (fst p, map (fun e => (fst e, None)) (snd p))) (dg_g d)) x y <-> arc (dg_g d) x y).
  { intros x y. split; [intros (a & X); apply E in X as (b & X & _); exists b; exact X|intros (b & X); exists None; apply E; eauto]. }
  split; [split; [apply dwf_retype; [exact W|apply P, W|exact K|exact A]|split; [reflexivity|split; [|exact A]]]|].
  - intro v. cbn [dg_g]. unfold vertex. rewrite K. reflexivity.
  - cbn [dg_g]. split; [exact K|]. intros x y a. rewrite E. split; [intros (b & X & ->); split; [exists b; exact X|reflexivity]|intros [(b & X) ->]; eauto].
Qed.

(** ** set_types_random *)

Lemma searchsorted_ok : forall keys pre acc x, (acc == total (map snd pre))%Q -> (acc <= x)%Q -> (x < acc + total (map snd keys))%Q ->
  exists t, searchsorted keys acc x = Ok t /\ chosen (pre ++ keys) x t.
Proof.
  induction keys as [|[k p] keys IH]; intros pre acc x E L U.
  - exfalso. cbn in U. rewrite Qplus_0_r in U. apply (Qlt_not_le _ _ U). exact L.
  - cbn [searchsorted]. destruct (Qle_bool (acc + p) x) eqn:B; cbn [negb].
    + destruct (IH (pre ++ [(k, p)]) (acc + p)%Q x) as (t & S & C).
      * rewrite map_app, E. cbn [map snd]. clear. induction (map snd pre) as [|y l IHl]; cbn; [ring|]. change (fold_right Qplus 0%Q) with total in *. unfold total in *. rewrite <- Qplus_assoc, IHl. reflexivity.
      * apply Qle_bool_iff. exact B.
      * cbn in U. rewrite <- Qplus_assoc. exact U.
      * exists t. split; [exact S|]. rewrite <- app_assoc in C. exact C.
    + exists k. split; [reflexivity|]. exists pre, p, keys. split; [reflexivity|]. rewrite <- E. split; [exact L|]. apply Qnot_le_lt. intro H. apply Qle_bool_iff in H. congruence.
Qed.
Lemma draws_ok keys u : (forall i, (0 <= u i)%Q /\ (u i < 1)%Q) -> (0 < total (map snd keys))%Q -> forall n i,
  exists l, draws keys (qsum (map snd keys)) u i n = Ok l /\ length l = n /\ forall j t, nth_error l j = Some t -> chosen keys (u (i + j)%nat * total (map snd keys))%Q t.
Proof.
  intros U T. change (qsum (map snd keys)) with (total (map snd keys)). induction n as [|n IH]; intro i; cbn [draws].
  - exists []. split; [reflexivity|]. split; [reflexivity|]. intros [|j] t H; discriminate.
  - destruct (U i) as [U0 U1]. destruct (searchsorted_ok keys [] 0%Q (u i * total (map snd keys))%Q) as (t & S & C).
    + reflexivity.
    + apply Qmult_le_0_compat; [exact U0|apply Qlt_le_weak; exact T].
    + rewrite Qplus_0_l. rewrite <- (Qmult_1_l (total (map snd keys))) at 2. apply Qmult_lt_r; assumption.
    + rewrite S. cbn [bind]. destruct (IH (Datatypes.S i)) as (l & D & L & F). rewrite D. cbn [bind]. exists (t :: l). split; [reflexivity|]. split; [cbn; congruence|].
      intros [|j] t' H; cbn in H; [injection H as <-; rewrite Nat.add_0_r; exact C|]. apply F in H. rewrite Nat.add_succ_r. exact H.
Qed.
Lemma np_choice_ok keys u i n : proportions keys -> (forall j, (0 <= u j)%Q /\ (u j < 1)%Q) ->
  exists l, np_choice keys u i n = Ok l /\ length l = n /\ forall j t, nth_error l j = Some t -> chosen keys (u (i + j)%nat * total (map snd keys))%Q t.
Proof.
  intros [NN S] U. unfold np_choice. change (qsum (map snd keys)) with (total (map snd keys)).
  destruct (existsb qneg (map snd keys)) eqn:E.
  { exfalso. apply existsb_exists in E as (p & I & Q). apply in_map_iff in I as ((t & p') & <- & I). cbn in Q. apply NN in I. apply Qle_bool_iff in I. unfold qneg in Q. rewrite I in Q. discriminate. }
  rewrite (proj2 (Qle_bool_iff _ _) S). cbn [negb]. apply draws_ok; [exact U|].
  apply Qabs_Qle_condition in S as [S _]. apply (Qlt_le_trans _ (1 - (1 # 67108864))); [reflexivity|]. apply (Qplus_le_l _ _ (- (1))). assert (Q : (1 - (1 # 67108864) + - (1) == - (1 # 67108864))%Q) by reflexivity. rewrite Q. exact S.
Qed.
Lemma np_choice_bad keys u i n : ~ proportions keys -> np_choice keys u i n = Err ValueError.
Proof.
  intro H. unfold np_choice. destruct (existsb qneg (map snd keys)) eqn:E; [reflexivity|]. change (qsum (map snd keys)) with (total (map snd keys)).
  destruct (Qle_bool (Qabs (total (map snd keys) - 1)) (1 # 67108864)) eqn:B; [|reflexivity]. exfalso. apply H. split; [|apply Qle_bool_iff; exact B].
  intros t p I. destruct (Qlt_le_dec p 0) as [L|L]; [|exact L]. exfalso. assert (X : existsb qneg (map snd keys) = true); [|congruence]. apply existsb_exists. exists p. split; [apply in_map_iff; exists (t, p); auto|].
  unfold qneg. destruct (Qle_bool 0 p) eqn:Q; [|reflexivity]. apply Qle_bool_iff in Q. exfalso. apply (Qlt_not_le _ _ L). exact Q.
Qed.
Lemma proportions_one keys : proportions keys -> isclose (qsum (map snd keys)) 1 = true.
Proof. intros [_ S]. apply isclose_one. unfold about_one. eapply Qle_trans; [exact S|]. discriminate. Qed.

Lemma typed_edges_ok ts : NoDup (map fst ts) -> forall es, (forall e, In e es -> In e (map fst ts)) -> exists l, typed_edges ts es = Ok l /\ map fst l = es /\ forall p, In p l -> In p ts.
Proof.
  intro N. induction es as [|e es IH]; intro H; cbn [typed_edges]; [exists []; cbn; auto; repeat split; auto; intros ? []|].
  assert (I := H e (or_introl eq_refl)). apply (mget_in _ peqb_eq) in I as (t & M). rewrite M. cbn [of_option bind]. destruct IH as (l & E & K & F); [intros e' I; apply H; right; exact I|]. rewrite E. cbn [bind].
  exists ((e, t) :: l). split; [reflexivity|]. split; [cbn; congruence|]. intros p [<-|I]; [apply (mget_In _ peqb_eq); exact M|apply F; exact I].
Qed.
Lemma combine_nth {A B} : forall (l : list A) (m : list B) x y, In (x, y) (combine l m) -> exists i, nth_error l i = Some x /\ nth_error m i = Some y.
Proof.
  induction l as [|a l IH]; intros [|b m] x y I; cbn in I; try contradiction. destruct I as [Q|I]; [injection Q as -> ->; exists 0%nat; auto|]. destruct (IH m x y I) as (i & H). exists (S i). exact H.
Qed.

Definition or_default (o : option (list (Z * Q))) (k : list (Z * Q)) : list (Z * Q) := match o with Some p => p | None => k end.

Lemma types_random_ok d po lo u : dwf d -> let props := or_default po default_props in let lprops := or_default lo default_loop_props in
  proportions props -> proportions lprops -> (forall i, (0 <= u i)%Q /\ (u i < 1)%Q) ->
  exists d' es ls, types_random d po lo u = Ok d' /\ same_arcs d d' /\ NoDup es /\ NoDup ls /\
    (forall x y, In (x, y) es <-> arc (dg_g d) x y /\ x <> y) /\ (forall x y, In (x, y) ls <-> arc (dg_g d) x y /\ x = y) /\
    (forall i x y, nth_error es i = Some (x, y) -> exists t, edge (dg_g d') x y (Some t) /\ chosen props (u i * total (map snd props))%Q t) /\
    (forall i x y, nth_error ls i = Some (x, y) -> exists t, edge (dg_g d') x y (Some t) /\ chosen lprops (u (length es + i)%nat * total (map snd lprops))%Q t).
Proof.
  intros W props lprops P1 P2 U. unfold types_random. fold (or_default po default_props) (or_default lo default_loop_props). fold props lprops. cbv zeta.
  set (es := filter (fun e => negb (loop_edge e)) (g_edges (dg_g d))). set (ls := filter loop_edge (g_edges (dg_g d))).
  rewrite (proportions_one _ P1), (proportions_one _ P2). cbn [negb].
  destruct (np_choice_ok props u 0 (length es) P1 U) as (v1 & E1 & L1 & C1). destruct (np_choice_ok lprops u (length es) (length ls) P2 U) as (v2 & E2 & L2 & C2).
  rewrite E1. cbn [bind]. rewrite E2. cbn [bind]. set (ts := combine es v1 ++ combine ls v2).
  assert (ND := g_edges_nodup _ (dw_proper _ W)). assert (N1 : NoDup es) by (apply NoDup_filter; exact ND). assert (N2 : NoDup ls) by (apply NoDup_filter; exact ND).
  assert (IE : forall x y, In (x, y) es <-> arc (dg_g d) x y /\ x <> y).
  { intros x y. unfold es. rewrite filter_In, g_edges_in. unfold loop_edge. cbn [fst snd]. rewrite negb_true_iff, Nat.eqb_neq. tauto. }
  assert (IL : forall x y, In (x, y) ls <-> arc (dg_g d) x y /\ x = y).
  { intros x y. unfold ls. rewrite filter_In, g_edges_in. unfold loop_edge. cbn [fst snd]. rewrite Nat.eqb_eq. tauto. }
  assert (KT : map fst ts = es ++ ls) by (unfold ts; rewrite map_app, !combine_fst by congruence; reflexivity).
  assert (NT : NoDup (map fst ts)).
  { rewrite KT. apply NoDup_app_intro; auto. intros [x y] A B. apply IE in A. apply IL in B. tauto. }
  destruct (typed_edges_ok ts NT (g_edges (dg_g d))) as (l & E & K & F).
  { intros [x y] I. rewrite KT. apply in_app_iff. apply g_edges_in in I. destruct (Nat.eq_dec x y); [right; apply IL|left; apply IE]; auto. }
  rewrite E. cbn [bind]. destruct (no_types_ok d W) as ((W0 & X0 & V0 & A0) & K0 & T0).
  destruct (set_types_ok l (no_types d) W0) as (d' & E' & (W' & X' & V' & A') & K' & T').
  { rewrite K. exact ND. }
  { intros x y t I. apply A0. apply g_edges_in. rewrite <- K. apply in_map_iff. exists (x, y, t). auto. }
  exists d', es, ls. split; [exact E'|]. split; [split; [exact W'|split; [congruence|split]]|].
  { intro v. rewrite V'. apply V0. }
  { intros x y. rewrite A'. apply A0. }
  split; [exact N1|]. split; [exact N2|]. split; [exact IE|]. split; [exact IL|].
  assert (FIND : forall x y t, In ((x, y), t) ts -> In (x, y, t) l).
  { intros x y t I. assert (J : In (x, y) (map fst l)). { rewrite K. apply g_edges_in. assert (J : In (x, y) (map fst ts)) by (apply in_map_iff; exists (x, y, t); auto). rewrite KT in J. apply in_app_iff in J as [J|J]; [apply IE in J|apply IL in J]; tauto. }
    apply in_map_iff in J as ((e & t') & Q & J). cbn in Q. subst e. assert (J' := F _ J). apply (mget_nodup _ peqb_eq) in I; [|exact NT]. apply (mget_nodup _ peqb_eq) in J'; [|exact NT]. congruence. }
  assert (PICK : forall (l0 : list (nat * nat)) (m : list Z) i x y, length m = length l0 -> nth_error l0 i = Some (x, y) -> exists t, nth_error m i = Some t /\ In ((x, y), t) (combine l0 m)).
  { clear. induction l0 as [|a l0 IH]; intros [|b m] i x y L H; destruct i; try discriminate; cbn in *; [injection H as ->; exists b; auto|]. destruct (IH m i x y) as (t & H1 & H2); [lia|exact H|]. eauto. }
  split; intros i x y H.
  - destruct (PICK es v1 i x y L1 H) as (t & H1 & H2). exists t. split; [|exact (C1 i t H1)]. apply T'. left. exists t. split; [|reflexivity]. apply FIND. apply in_app_iff; auto.
  - destruct (PICK ls v2 i x y L2 H) as (t & H1 & H2). exists t. split; [|exact (C2 i t H1)]. apply T'. left. exists t. split; [|reflexivity]. apply FIND. apply in_app_iff; auto.
Qed.
Lemma types_random_bad d po lo u : (forall i, (0 <= u i)%Q /\ (u i < 1)%Q) -> ~ (proportions (or_default po default_props) /\ proportions (or_default lo default_loop_props)) ->
  types_random d po lo u = Err ValueError.
Proof.
  intros U H. unfold types_random. fold (or_default po default_props) (or_default lo default_loop_props). cbv zeta.
  destruct (isclose (qsum (map snd (or_default po default_props))) 1); cbn [negb]; [|reflexivity]. destruct (isclose (qsum (map snd (or_default lo default_loop_props))) 1); cbn [negb]; [|reflexivity].
  assert (D : forall keys, proportions keys \/ ~ proportions keys).
  { clear. intro keys. assert (D : (forall t p, In (t, p) keys -> (0 <= p)%Q) \/ ~ forall t p, In (t, p) keys -> (0 <= p)%Q).
    { induction keys as [|[k p] keys [H|H]]; [left; intros ? ? []| |right; intro G; apply H; intros t q I; apply (G t); right; exact I].
      destruct (Qlt_le_dec p 0) as [L|L]; [right; intro G; apply (Qlt_not_le _ _ L); apply (G k); left; reflexivity|left; intros t q [Q|I]; [injection Q as <- <-; exact L|apply (H t); exact I]]. }
    destruct D as [D|D]; [|right; intros [G _]; exact (D G)]. destruct (Qlt_le_dec (1 # 67108864) (Qabs (total (map snd keys) - 1))) as [L|L]; [right; intros [_ G]; exact (Qlt_not_le _ _ L G)|left; split; assumption]. }
  destruct (D (or_default po default_props)) as [A|A]; [|rewrite (np_choice_bad _ _ _ _ A); reflexivity].
  destruct (np_choice_ok (or_default po default_props) u 0 (length (filter (fun e => negb (loop_edge e)) (g_edges (dg_g d)))) A U) as (v1 & E1 & _). rewrite E1. cbn [bind].
  rewrite np_choice_bad; [reflexivity|]. tauto.
Qed.
Lemma defaults_proportions : proportions default_props /\ proportions default_loop_props.
Proof. split; (split; [intros t p I; cbn in I; repeat destruct I as [Q|I]; try contradiction; injection Q as <- <-; discriminate|discriminate]). Qed.
