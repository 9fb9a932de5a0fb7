(** * GraphProofs: from dictionaries to graphs and back *)
From Coq Require Import List ZArith Bool Arith Lia.
From Verif Require Import Base Dict UnionFind UnionFindProofs QueueEffects Graph SpecGraph.
Import ListNotations.
Open Scope Z_scope.

Lemma mg_in {V} (d : ndict V) k v : NoDup (map fst d) -> In (k, v) d <-> mg d k = Some v.
Proof. intro N. split; [apply (mget_nodup _ neq_eq); exact N|apply (mget_In _ neq_eq)]. Qed.
Lemma mg_none {V} (d : ndict V) k : mg d k = None <-> ~ In k (map fst d).
Proof. apply (mget_none _ neq_eq). Qed.
Lemma mem_in x l : mem x l = true <-> In x l.
Proof. unfold mem. rewrite existsb_exists. split; [intros (y & I & E); apply Nat.eqb_eq in E; subst; exact I|intro I; exists x; rewrite Nat.eqb_refl; auto]. Qed.
Lemma mg_app {V} (d e : ndict V) k : mg (d ++ e) k = match mg d k with Some v => Some v | None => mg e k end.
Proof. induction d as [|[j w] d IH]; cbn; [reflexivity|]. destruct (Nat.eqb j k); [reflexivity|exact IH]. Qed.

Lemma dict_ext {V} : forall (d e : ndict V), NoDup (map fst d) -> map fst d = map fst e -> (forall k, In k (map fst d) -> mg d k = mg e k) -> d = e.
Proof.
  induction d as [|[j v] d IH]; intros [|[i w] e] N K G; cbn in *; try discriminate; [reflexivity|].
  injection K as -> K. inversion N as [|? ? NI N']; subst. assert (E := G i (or_introl eq_refl)). rewrite Nat.eqb_refl in E. injection E as ->.
  f_equal. apply IH; [exact N'|exact K|]. intros k I. specialize (G k (or_intror I)).
  destruct (Nat.eqb i k) eqn:Q; [apply Nat.eqb_eq in Q; subst; contradiction|exact G].
Qed.

(** ** Adding vertices and edges *)

Lemma node_get g v x : mg (g_node g v) x = match mg g x with Some r => Some r | None => if Nat.eqb v x then Some [] else None end.
Proof.
  unfold g_node, mhas. destruct (mg g v) eqn:E.
  - destruct (mg g x) eqn:F; [reflexivity|]. destruct (Nat.eqb v x) eqn:Q; [apply Nat.eqb_eq in Q; congruence|reflexivity].
  - rewrite mg_app. reflexivity.
Qed.
Lemma node_keys g v : NoDup (map fst g) -> exists ex, map fst (g_node g v) = map fst g ++ ex /\ NoDup (map fst (g_node g v)).
Proof.
  intro N. unfold g_node. destruct (mhas Nat.eqb g v) eqn:E; [exists []; rewrite app_nil_r; auto|].
  exists [v]. rewrite map_app. cbn. split; [reflexivity|]. apply nodup_snoc; [exact N|]. intro I.
  apply (mhas_in _ neq_eq) in I. congruence.
Qed.
Lemma node_same g u r : mg g u = Some r -> g_node g u = g.
Proof. intro E. unfold g_node, mhas. rewrite E. reflexivity. Qed.

Lemma edge_get g u v a r0 x : mg g u = Some r0 ->
  mg (g_edge g u v a) x = if Nat.eqb u x then Some (nput r0 v (merge (mg r0 v) a)) else mg (g_node g v) x.
Proof.
  intro E. unfold g_edge. rewrite (node_same g u r0 E). unfold row_of. rewrite node_get, E.
  destruct (Nat.eqb u x) eqn:Q; [apply Nat.eqb_eq in Q; subst; apply nput_eq|apply Nat.eqb_neq in Q; apply nput_neq; exact Q].
Qed.
Lemma edge_keys g u v a r0 : mg g u = Some r0 -> map fst (g_edge g u v a) = map fst (g_node g v).
Proof.
  intro E. unfold g_edge. rewrite (node_same g u r0 E). apply nput_keys. apply ng_in. exists r0. rewrite node_get, E. reflexivity.
Qed.

Lemma add_row_spec : forall r g u r0, mg g u = Some r0 -> NoDup (map fst (r0 ++ r)) -> NoDup (map fst g) ->
  mg (add_row g u r) u = Some (r0 ++ r) /\
  (forall x, x <> u -> mg (add_row g u r) x = match mg g x with Some s => Some s | None => if mem x (map fst r) then Some [] else None end) /\
  exists ex, map fst (add_row g u r) = map fst g ++ ex /\ NoDup (map fst (add_row g u r)).
Proof.
  induction r as [|[v a] r IH]; intros g u r0 E N NG; unfold add_row; cbn [fold_left fst snd].
  - rewrite app_nil_r. split; [exact E|]. split; [intros x _; cbn; destruct (mget _ g x); reflexivity|]. exists []. rewrite app_nil_r. auto.
  - assert (NV : ~ In v (map fst r0)).
    { rewrite map_app in N. cbn in N. apply NoDup_remove_2 in N. intro I. apply N. apply in_or_app. auto. }
    assert (E1 : mg (g_edge g u v a) u = Some (r0 ++ [(v, a)])).
    { rewrite (edge_get _ _ _ _ _ _ E), Nat.eqb_refl. f_equal. apply mg_none in NV. rewrite NV.
      replace (merge None a) with a by (destruct a; reflexivity).
      clear -NV. induction r0 as [|[j w] r0 IH]; [reflexivity|]. cbn in NV |- *. unfold nput in *. cbn. destruct (Nat.eqb j v); [discriminate|]. f_equal. apply IH; exact NV. }
    destruct (node_keys g v NG) as (ex1 & K1 & N1).
    destruct (IH (g_edge g u v a) u (r0 ++ [(v, a)]) E1) as (G1 & G2 & ex2 & K2 & N2).
    + rewrite <- app_assoc. exact N.
    + rewrite (edge_keys _ _ _ _ _ E). exact N1.
    + unfold add_row in G1, G2, K2, N2. rewrite <- app_assoc in G1. split; [exact G1|]. split.
      * intros x NX. rewrite (G2 x NX), (edge_get _ _ _ _ _ _ E). destruct (Nat.eqb u x) eqn:Q; [apply Nat.eqb_eq in Q; congruence|].
        rewrite node_get. destruct (mg g x); [reflexivity|]. cbn [map fst mem existsb]. rewrite (Nat.eqb_sym x v). destruct (Nat.eqb v x); reflexivity.
      * exists (ex1 ++ ex2). rewrite K2, (edge_keys _ _ _ _ _ E), K1, app_assoc. split; [reflexivity|].
        rewrite K2, (edge_keys _ _ _ _ _ E), K1 in N2. exact N2.
Qed.

Definition targets (d : graph) : list nat := flat_map (fun p => map fst (snd p)) d.

Lemma fill_spec : forall d g, proper d -> (forall u, In u (map fst d) -> mg g u = Some []) -> NoDup (map fst g) ->
  let g' := fold_left (fun g p => add_row g (fst p) (snd p)) d g in
  (forall u r, In (u, r) d -> mg g' u = Some r) /\
  (forall x, ~ In x (map fst d) -> mg g' x = match mg g x with Some s => Some s | None => if mem x (targets d) then Some [] else None end) /\
  exists ex, map fst g' = map fst g ++ ex /\ NoDup (map fst g').
Proof.
  induction d as [|[u r] d IH]; intros g [ND NR] E NG; cbn [fold_left fst snd].
  - split; [intros ? ? []|]. split; [intros x _; destruct (mg g x); reflexivity|]. exists []. rewrite app_nil_r. auto.
  - cbn in ND. inversion ND as [|? ? NU ND']; subst.
    destruct (add_row_spec r g u []) as (G1 & G2 & ex1 & K1 & N1); [apply E; left; reflexivity|apply (NR u r); left; reflexivity|exact NG|].
    destruct (IH (add_row g u r)) as (H1 & H2 & ex2 & K2 & N2).
    + split; [exact ND'|]. intros x s I. apply (NR x s). right; exact I.
    + intros x I. rewrite G2; [rewrite E; [reflexivity|right; exact I]|]. intros ->. contradiction.
    + exact N1.
    + split; [|split].
      * intros x s [I|I]; [|apply H1; exact I]. injection I as <- <-. rewrite H2 by exact NU. rewrite G1. reflexivity.
      * intros x NX. cbn in NX. rewrite H2 by tauto. rewrite G2 by (intros ->; tauto). cbn [targets flat_map snd].
        fold (targets d). destruct (mg g x); [reflexivity|].
        assert (M : mem x (map fst r ++ targets d) = mem x (map fst r) || mem x (targets d)) by (unfold mem; apply existsb_app).
        rewrite M. destruct (mem x (map fst r)); reflexivity.
      * exists (ex1 ++ ex2). rewrite K2, K1, app_assoc. split; [reflexivity|]. rewrite K2, K1 in N2. exact N2.
Qed.

Lemma nodes_spec : forall l g, NoDup (map fst g ++ l) -> fold_left g_node l g = g ++ map (fun v => (v, [])) l.
Proof.
  induction l as [|v l IH]; intros g N; cbn [fold_left map]; [rewrite app_nil_r; reflexivity|].
  assert (NV : ~ In v (map fst g)) by (apply NoDup_remove_2 in N; intro I; apply N; apply in_or_app; auto).
  unfold g_node at 2. destruct (mhas Nat.eqb g v) eqn:E; [apply (mhas_in _ neq_eq) in E; contradiction|].
  rewrite IH; [rewrite <- app_assoc; reflexivity|]. rewrite map_app, <- app_assoc. exact N.
Qed.

Lemma from_dod_spec d : proper d ->
  NoDup (map fst (from_dod d)) /\ (exists ex, map fst (from_dod d) = map fst d ++ ex) /\
  forall x, mg (from_dod d) x = match mg d x with Some r => Some r | None => if mem x (targets d) then Some [] else None end.
Proof.
  intros P. assert (ND := proj1 P). unfold from_dod. unfold mkeys. rewrite nodes_spec by exact ND. cbn [app].
  set (g := map (fun v => (v, [])) (map fst d)).
  assert (KG : map fst g = map fst d) by (subst g; rewrite !map_map; cbn; reflexivity).
  assert (EG : forall x, mg g x = if mem x (map fst d) then Some [] else None).
  { intro x. destruct (mem x (map fst d)) eqn:M.
    - apply mem_in in M. apply mg_in; [rewrite KG; exact ND|]. subst g. apply in_map_iff. exists x. auto.
    - apply mg_none. rewrite KG. intro I. apply mem_in in I. congruence. }
  destruct (fill_spec d g P) as (H1 & H2 & ex & K & N).
  - intros u I. rewrite EG. apply mem_in in I. rewrite I. reflexivity.
  - rewrite KG. exact ND.
  - split; [exact N|]. split; [exists ex; rewrite <- KG; exact K|]. intro x. destruct (mg d x) as [r|] eqn:E.
    + apply H1. apply (mget_In _ neq_eq). exact E.
    + apply mg_none in E. rewrite H2 by exact E. rewrite EG. destruct (mem x (map fst d)) eqn:M; [apply mem_in in M; contradiction|reflexivity].
Qed.

Lemma edge_mg g u v a : proper g -> edge g u v a <-> exists r, mg g u = Some r /\ mg r v = Some a.
Proof.
  intros [N NR]. split; intros (r & A & B); exists r.
  - split; [apply mg_in; assumption|]. apply mg_in; [eapply NR; exact A|exact B].
  - apply mg_in in A; [|exact N]. split; [exact A|]. apply mg_in in B; [exact B|]. eapply NR; exact A.
Qed.
Lemma vertex_mg g v : vertex g v <-> exists r, mg g v = Some r.
Proof. symmetry. apply ng_in. Qed.
Lemma targets_in d x : In x (targets d) <-> exists u o, edge d u x o.
Proof.
  unfold targets, edge. rewrite in_flat_map. split.
  - intros ((u & r) & A & B). apply in_map_iff in B as ((y & o) & <- & B). exists u, o, r. auto.
  - intros (u & o & r & A & B). exists (u, r). split; [exact A|]. apply in_map_iff. exists (x, o). auto.
Qed.

Lemma from_dod_ok d : proper d -> proper (from_dod d) /\ closed (from_dod d) /\
  (forall v, vertex (from_dod d) v <-> vertex d v \/ exists u o, edge d u v o) /\
  (forall u v a, edge (from_dod d) u v a <-> edge d u v a).
Proof.
  intro P. destruct (from_dod_spec d P) as (N & _ & G).
  assert (PP : proper (from_dod d)).
  { split; [exact N|]. intros u r I. apply mg_in in I; [|exact N]. rewrite G in I. destruct (mg d u) as [r'|] eqn:E.
    - injection I as ->. eapply (proj2 P). apply (mget_In _ neq_eq). exact E.
    - destruct (mem u (targets d)); [injection I as <-; constructor|discriminate]. }
  assert (EE : forall u v a, edge (from_dod d) u v a <-> edge d u v a).
  { intros u v a. rewrite !edge_mg by assumption. split; intros (r & A & B).
    - rewrite G in A. destruct (mg d u) as [r'|]; [injection A as ->; eauto|].
      destruct (mem u (targets d)); [injection A as <-; discriminate|discriminate].
    - exists r. rewrite G, A. auto. }
  assert (VV : forall v, vertex (from_dod d) v <-> vertex d v \/ exists u o, edge d u v o).
  { intro v. rewrite !vertex_mg, G, <- targets_in, <- mem_in. destruct (mg d v) as [r|]; [split; eauto|].
    destruct (mem v (targets d)); [split; eauto|]. split; [intros (r & H); discriminate|]. intros [(r & H)|H]; discriminate. }
  split; [exact PP|]. split; [|auto]. intros u v a H. apply EE in H. apply VV. right. eauto.
Qed.

(** A dictionary in which every target is a key is its own graph. *)
Lemma from_dod_id d : proper d -> closed d -> from_dod d = d.
Proof.
  intros P C. destruct (from_dod_spec d P) as (N & (ex & K) & G).
  assert (EX : ex = []).
  { destruct ex as [|x ex]; [reflexivity|]. exfalso.
    assert (X : In x (map fst (from_dod d))) by (rewrite K; apply in_or_app; right; left; reflexivity).
    assert (NX : ~ In x (map fst d)).
    { rewrite K in N. apply NoDup_remove_2 in N. intro I. apply N. apply in_or_app; auto. }
    destruct (proj1 (proj1 (proj2 (proj2 (from_dod_ok d P))) x) X) as [I|(u & o & E)]; [contradiction|]. apply NX. apply (C u x o E). }
  subst ex. rewrite app_nil_r in K. apply dict_ext; [exact N|exact K|]. intros k I. rewrite G. destruct (mg d k) eqn:E; [reflexivity|].
  apply mg_none in E. rewrite K in I. contradiction.
Qed.

(** ** Setting types *)

Lemma put_type_spec g u v t o : proper g -> edge g u v o -> exists g', put_type g u v t = Ok g' /\ proper g' /\
  map fst g' = map fst g /\
  (forall x y a, edge g' x y a <-> (x = u /\ y = v /\ a = Some t) \/ (~ (x = u /\ y = v) /\ edge g x y a)).
Proof.
  intros P E. apply edge_mg in E as (r & A & B); [|exact P]. unfold put_type.
  rewrite (proj2 (nget_Ok _ _ _) A). cbn [bind]. rewrite (proj2 (nget_Ok _ _ _) B). cbn [bind]. eexists. split; [reflexivity|].
  assert (KG : map fst (nput g u (nput r v (Some t))) = map fst g) by (apply nput_keys; apply ng_in; eauto).
  assert (KR : map fst (nput r v (Some t)) = map fst r) by (apply nput_keys; apply ng_in; eauto).
  assert (NR : NoDup (map fst r)) by (eapply (proj2 P); apply mg_in; [apply P|exact A]).
  assert (G : forall x, mg (nput g u (nput r v (Some t))) x = if Nat.eqb u x then Some (nput r v (Some t)) else mg g x).
  { intro x. destruct (Nat.eqb u x) eqn:Q; [apply Nat.eqb_eq in Q; subst; apply nput_eq|apply Nat.eqb_neq in Q; apply nput_neq; exact Q]. }
  assert (P' : proper (nput g u (nput r v (Some t)))).
  { split; [rewrite KG; apply P|]. intros x s I. apply mg_in in I; [|rewrite KG; apply P]. rewrite G in I.
    destruct (Nat.eqb u x); [injection I as <-; rewrite KR; exact NR|]. apply mg_in in I; [|apply P]. eapply (proj2 P); exact I. }
  split; [exact P'|]. split; [exact KG|]. intros x y a. rewrite !edge_mg by assumption. split.
  - intros (s & C & D). rewrite G in C. destruct (Nat.eqb u x) eqn:Q.
    + apply Nat.eqb_eq in Q. subst x. injection C as <-. destruct (Nat.eq_dec v y) as [<-|N].
      * rewrite nput_eq in D. injection D as <-. left. auto.
      * rewrite nput_neq in D by exact N. right. split; [intuition congruence|eauto].
    + apply Nat.eqb_neq in Q. right. split; [intuition congruence|eauto].
  - intros [(-> & -> & ->)|(N & s & C & D)].
    + exists (nput r v (Some t)). rewrite G, Nat.eqb_refl. split; [reflexivity|apply nput_eq].
    + destruct (Nat.eqb u x) eqn:Q.
      * apply Nat.eqb_eq in Q. subst x. exists (nput r v (Some t)). rewrite G, Nat.eqb_refl. split; [reflexivity|].
        assert (s = r) by congruence. subst s. rewrite nput_neq; [exact D|]. intros <-. apply N; auto.
      * exists s. rewrite G, Q. auto.
Qed.

Definition triples {V} (l : list (nat * list (nat * V))) : list ((nat * nat) * V) :=
  flat_map (fun p => map (fun e => ((fst p, fst e), snd e)) (snd p)) l.
Fixpoint put_all (g : graph) (l : list ((nat * nat) * Z)) : res graph :=
  match l with
  | [] => Ok g
  | ((u, v), t) :: l' => let* g' := put_type g u v t in put_all g' l'
  end.
Lemma put_all_app l : forall g l', put_all g (l ++ l') = let* g' := put_all g l in put_all g' l'.
Proof.
  induction l as [|[[u v] t] l IH]; intros g l'; cbn; [reflexivity|]. destruct (put_type g u v t) as [g'|x]; cbn [bind]; [apply IH|reflexivity].
Qed.
Lemma put_row_flat u : forall r g, put_row g u r = put_all g (map (fun e => ((u, fst e), snd e)) r).
Proof. induction r as [|[v t] r IH]; intro g; cbn; [reflexivity|]. destruct (put_type g u v t); cbn [bind]; auto. Qed.
Lemma put_types_flat : forall l g, put_types g l = put_all g (triples l).
Proof.
  induction l as [|[u r] l IH]; intro g; cbn [put_types]; [reflexivity|]. change (triples ((u, r) :: l)) with (map (fun e => ((u, fst e), snd e)) r ++ triples l).
  rewrite put_all_app, put_row_flat. destruct (put_all g _); cbn [bind]; auto.
Qed.

Lemma triples_in {V} (l : list (nat * list (nat * V))) u v w : In ((u, v), w) (triples l) <-> exists r, In (u, r) l /\ In (v, w) r.
Proof.
  unfold triples. rewrite in_flat_map. split.
  - intros ((x & r) & A & B). apply in_map_iff in B as ((y & z) & E & B). cbn in *. injection E as -> -> ->. exists r. auto.
  - intros (r & A & B). exists (u, r). split; [exact A|]. apply in_map_iff. exists (v, w). auto.
Qed.
Lemma triples_nodup {V} (l : list (nat * list (nat * V))) : NoDup (map fst l) -> (forall u r, In (u, r) l -> NoDup (map fst r)) ->
  NoDup (map fst (triples l)).
Proof.
  induction l as [|[u r] l IH]; intros N NR; [constructor|]. inversion N as [|? ? NU N']; subst.
  change (triples ((u, r) :: l)) with (map (fun e => ((u, fst e), snd e)) r ++ triples l). rewrite map_app, map_map. cbn [fst].
  apply NoDup_app_intro.
  - assert (M := NR u r (or_introl eq_refl)). clear -M. induction r as [|[v w] r IH]; cbn in *; [constructor|]. inversion M as [|? ? X M']; subst.
    constructor; [|apply IH; exact M']. intro I. apply in_map_iff in I as ((y & z) & E & I). cbn in E. injection E as ->. apply X. apply in_map_iff. exists (v, z). auto.
  - apply IH; [exact N'|]. intros x s I. apply (NR x s). right; exact I.
  - intros p A B. apply in_map_iff in A as ((y & z) & <- & A). apply in_map_iff in B as (((x' & y') & z') & E & B). cbn in E. injection E as -> ->.
    apply triples_in in B as (s & B & _). apply NU. apply in_map_iff. exists (u, s). auto.
Qed.

Lemma put_all_spec : forall l g, proper g -> NoDup (map fst l) -> (forall u v t, In ((u, v), t) l -> exists o, edge g u v o) ->
  exists g', put_all g l = Ok g' /\ proper g' /\ map fst g' = map fst g /\
  (forall x y a, edge g' x y a <-> (exists t, In ((x, y), t) l /\ a = Some t) \/ ((forall t, ~ In ((x, y), t) l) /\ edge g x y a)).
Proof.
  induction l as [|[[u v] t] l IH]; intros g P N H; cbn [put_all].
  - exists g. split; [reflexivity|]. split; [exact P|]. split; [reflexivity|]. intros x y a. split; [intro E; right; split; [intros ? []|exact E]|].
    intros [(t & [] & _)|[_ E]]; exact E.
  - cbn in N. inversion N as [|? ? NI N']; subst. destruct (H u v t (or_introl eq_refl)) as (o & E).
    destruct (put_type_spec g u v t o P E) as (g1 & E1 & P1 & K1 & G1). rewrite E1. cbn [bind].
    destruct (IH g1 P1 N') as (g' & E' & P' & K' & G').
    { intros x y z I. destruct (H x y z (or_intror I)) as (o' & E'). destruct (Nat.eq_dec x u) as [->|NX].
      - destruct (Nat.eq_dec y v) as [->|NY]; [exists (Some t); apply G1; left; auto|exists o'; apply G1; right; split; [tauto|exact E']].
      - exists o'. apply G1. right. split; [tauto|exact E']. }
    exists g'. split; [exact E'|]. split; [exact P'|]. split; [congruence|]. intros x y a. rewrite G'. split.
    + intros [(z & I & ->)|[NO X]].
      * left. exists z. split; [right; exact I|reflexivity].
      * apply G1 in X as [(-> & -> & ->)|[NE X]].
        -- left. exists t. split; [left; reflexivity|reflexivity].
        -- right. split; [|exact X]. intros z [Q|Q]; [injection Q as -> -> ->; tauto|exact (NO z Q)].
    + intros [(z & [Q|I] & ->)|[NO X]].
      * injection Q as -> -> ->. right. split; [|apply G1; left; auto]. intros w W. apply NI. apply in_map_iff. exists ((x, y), w). auto.
      * left. exists z. auto.
      * right. split; [intros z Q; apply (NO z); right; exact Q|]. apply G1. right. split; [|exact X]. intros [-> ->]. apply (NO t). left; reflexivity.
Qed.

(** A type for a pair that is no edge raises. *)
Lemma put_type_bad g u v t : proper g -> (forall o, ~ edge g u v o) -> put_type g u v t = Err KeyError.
Proof.
  intros P N. unfold put_type. unfold nget at 1. destruct (mg g u) as [r|] eqn:A; cbn [bind of_option]; [|reflexivity].
  unfold nget. destruct (mg r v) as [o|] eqn:B; cbn [bind of_option]; [|reflexivity]. exfalso. apply (N o). apply edge_mg; eauto.
Qed.
Lemma put_all_bad : forall l g, proper g -> NoDup (map fst l) -> (exists u v t, In ((u, v), t) l /\ forall o, ~ edge g u v o) ->
  put_all g l = Err KeyError.
Proof.
  induction l as [|[[u v] t] l IH]; intros g P N (x & y & z & I & NO); [destruct I|]. cbn [put_all]. cbn in N. inversion N as [|? ? NI N']; subst.
  destruct (put_type g u v t) as [g1|e] eqn:E1; cbn [bind].
  - assert (ED : exists o, edge g u v o).
    { unfold put_type, nget in E1. destruct (mg g u) as [r|] eqn:A; cbn [bind of_option] in E1; [|discriminate].
      destruct (mg r v) as [o|] eqn:B; cbn [bind of_option] in E1; [|discriminate]. exists o. apply edge_mg; eauto. }
    destruct ED as (o & ED). destruct (put_type_spec g u v t o P ED) as (g2 & E2 & P2 & _ & G2). rewrite E1 in E2. injection E2 as <-.
    apply IH; [exact P2|exact N'|]. exists x, y, z. destruct I as [Q|I]; [injection Q as -> -> ->; exfalso; eapply NO; exact ED|].
    split; [exact I|]. intros o' X. apply G2 in X as [(-> & -> & _)|[_ X]]; [eapply NO; exact ED|eapply NO; exact X].
  - unfold put_type, nget in E1. destruct (mg g u) as [r|] eqn:A; cbn [bind of_option] in E1; [|congruence].
    destruct (mg r v) as [o|] eqn:B; cbn [bind of_option] in E1; congruence.
Qed.

(** ** Matrices *)

Lemma mat_row_spec {V} (val : Z -> V) m k r : nth_error m k = Some r -> forall js acc, (forall j, In j js -> (j < length r)%nat) -> NoDup (map fst acc ++ js) ->
  exists l, mat_row val m k js acc = Ok (acc ++ l) /\ NoDup (map fst (acc ++ l)) /\ (forall j, In j (map fst l) -> In j js) /\
  forall j w, In (j, w) l <-> In j js /\ exists x, nth_error r j = Some x /\ x <> 0 /\ w = val x.
Proof.
  intro R. induction js as [|j js IH]; intros acc B N; cbn [mat_row].
  - exists []. rewrite !app_nil_r in *. split; [reflexivity|]. split; [exact N|]. split; [intros ? []|]. intros j w. split; [intros []|intros ([] & _)].
  - assert (LJ := B j (or_introl eq_refl)). destruct (nth_error r j) as [x|] eqn:X; [|apply nth_error_None in X; lia].
    unfold mat_at, get. rewrite R. cbn [bind of_option]. rewrite X. cbn [bind of_option].
    assert (NJ : ~ In j (map fst acc) /\ ~ In j js) by (apply NoDup_remove_2 in N; split; intro I; apply N; apply in_or_app; auto).
    destruct (x =? 0) eqn:Z.
    + apply Z.eqb_eq in Z. destruct (IH acc) as (l & E & NL & IL & L).
      * intros i I. apply B. right; exact I.
      * apply NoDup_remove_1 in N. exact N.
      * exists l. split; [exact E|]. split; [exact NL|]. split; [intros i I; right; apply IL; exact I|].
        intros i w. rewrite L. split; [intros [I H]; split; [right; exact I|exact H]|]. intros [[<-|I] H]; [|auto].
        destruct H as (y & Y & NZ & _). exfalso. congruence.
    + apply Z.eqb_neq in Z. assert (EP : nput acc j (val x) = acc ++ [(j, val x)]).
      { destruct NJ as [NJ _]. clear -NJ. unfold nput. induction acc as [|[i w] acc IH]; [reflexivity|]. cbn in *.
        destruct (Nat.eqb i j) eqn:Q; [apply Nat.eqb_eq in Q; subst; tauto|]. f_equal. apply IH. tauto. }
      rewrite EP. destruct (IH (acc ++ [(j, val x)])) as (l & E & NL & IL & L).
      * intros i I. apply B. right; exact I.
      * rewrite map_app, <- app_assoc. exact N.
      * exists ((j, val x) :: l). rewrite <- app_assoc in E, NL. split; [exact E|]. split; [exact NL|]. split; [intros i [<-|I]; [left; reflexivity|right; apply IL; exact I]|].
        intros i w. cbn. rewrite L. split.
        -- intros [Q|[I H]]; [injection Q as <- <-; split; [auto|]; exists x; auto|auto].
        -- intros [[<-|I] H]; [|auto]. destruct H as (y & Y & NZ & ->). left. congruence.
Qed.

Lemma mat_rows_spec {V} (val : Z -> V) m js : NoDup js -> forall ks, (forall k, In k ks -> exists r, nth_error m k = Some r /\ forall j, In j js -> (j < length r)%nat) ->
  exists d, mat_rows val m ks js = Ok d /\ map fst d = ks /\
  forall k l, In (k, l) d -> NoDup (map fst l) /\ forall j w, In (j, w) l <-> In j js /\ exists r x, nth_error m k = Some r /\ nth_error r j = Some x /\ x <> 0 /\ w = val x.
Proof.
  intros N ks. induction ks as [|k ks IH]; intro B; cbn [mat_rows].
  - exists []. split; [reflexivity|]. split; [reflexivity|]. intros ? ? [].
  - destruct (B k (or_introl eq_refl)) as (r & R & LR). destruct (mat_row_spec val m k r R js [] LR N) as (l & E & NL & _ & L). rewrite E. cbn [bind app].
    destruct IH as (d & ED & KD & D); [intros i I; apply B; right; exact I|]. rewrite ED. cbn [bind]. exists ((k, l) :: d).
    split; [reflexivity|]. split; [cbn; congruence|]. intros i s [Q|I]; [injection Q as <- <-|apply D; exact I].
    split; [exact NL|]. intros j w. rewrite L. split; intros [A H]; split; auto.
    + destruct H as (x & H). exists r, x. auto.
    + destruct H as (r' & x & R' & H). exists x. assert (r' = r) by congruence. subst. exact H.
Qed.

Lemma matrix_spec {V} (val : Z -> V) m : (forall r, In r m -> (length m <= length r)%nat) -> exists d, matrix2dict val m = Ok d /\
  map fst d = seq 0 (length m) /\
  (forall k l, In (k, l) d -> NoDup (map fst l)) /\
  (forall k j w, (exists l, In (k, l) d /\ In (j, w) l) <-> (j < length m)%nat /\ exists r x, nth_error m k = Some r /\ nth_error r j = Some x /\ x <> 0 /\ w = val x).
Proof.
  intro S. destruct (mat_rows_spec val m (seq 0 (length m)) (seq_NoDup _ _) (seq 0 (length m))) as (d & E & K & D).
  { intros k I. apply in_seq in I. destruct (nth_error m k) as [r|] eqn:R; [|apply nth_error_None in R; lia].
    exists r. split; [reflexivity|]. intros j J. apply in_seq in J. apply nth_error_In in R. apply S in R. lia. }
  exists d. split; [exact E|]. split; [exact K|]. split; [intros k l I; apply (D k l I)|]. intros k j w. split.
  - intros (l & I & J). apply D in I as [_ I]. apply I in J as [J H]. apply in_seq in J. split; [lia|exact H].
  - intros (J & r & x & R & H). assert (L : (k < length m)%nat) by (apply nth_error_Some; congruence).
    assert (IK : In k (map fst d)) by (rewrite K; apply in_seq; lia). apply in_map_iff in IK as ((k' & l) & Q & I). cbn in Q. subst k'.
    exists l. split; [exact I|]. apply (D k l I). split; [apply in_seq; lia|]. exists r, x. auto.
Qed.

(** ** Adjusting *)

Lemma adjust_edges (f : nat -> nat -> option Z -> option Z) (g : graph) : let g' := map (fun p => (fst p, map (fun e => (fst e, f (fst p) (fst e) (snd e))) (snd p))) g in
  map fst g' = map fst g /\ (proper g -> proper g') /\ forall u v x, edge g' u v x <-> exists a, edge g u v a /\ x = f u v a.
Proof.
  cbv zeta. assert (K : map fst (map (fun p => (fst p, map (fun e => (fst e, f (fst p) (fst e) (snd e))) (snd p))) g) = map fst g) by (rewrite map_map; reflexivity).
  split; [exact K|]. split.
  - intros [N NR]. split; [rewrite K; exact N|]. intros u r I. apply in_map_iff in I as ((u0 & r0) & Q & I). cbn in Q. injection Q as <- <-.
    rewrite map_map. cbn. apply (NR _ _ I).
  - intros u v x. split.
    + intros (r & I & J). apply in_map_iff in I as ((u0 & r0) & Q & I). cbn in Q. injection Q as <- <-. apply in_map_iff in J as ((v0 & a) & Q & J). cbn in Q. injection Q as <- <-.
      exists a. split; [exists r0; auto|reflexivity].
    + intros (a & (r & I & J) & ->). exists (map (fun e => (fst e, f u (fst e) (snd e))) r). split.
      * apply in_map_iff. exists (u, r). auto.
      * apply in_map_iff. exists (v, a). auto.
Qed.

Lemma defaults_spec (g : graph) : map fst (defaults g) = map fst g /\ (proper g -> proper (defaults g)) /\
  forall u v x, edge (defaults g) u v x <-> exists a, edge g u v a /\ x = typed a.
Proof. exact (adjust_edges (fun _ _ a => typed a) g). Qed.

Lemma dead_row g u r : proper g -> In (u, r) g -> r = [] <-> (forall v a, ~ edge g u v a).
Proof.
  intros P I. split.
  - intros E v a (s & A & B). assert (s = []); [|subst; exact B].
    apply (mg_in _ _ _ (proj1 P)) in A. apply (mg_in _ _ _ (proj1 P)) in I. congruence.
  - intro H. destruct r as [|[v a] r]; [reflexivity|]. exfalso. apply (H v a). exists ((v, a) :: r). split; [exact I|left; reflexivity].
Qed.

Lemma nulls_spec g v : proper g -> In v (null_nodes g) <-> vertex g v /\ forall w a, ~ edge g v w a.
Proof.
  intro P. unfold null_nodes. rewrite in_map_iff. split.
  - intros ((u & r) & <- & I). apply filter_In in I as [I E]. cbn in *. destruct r; [|discriminate]. split; [apply in_map_iff; exists (u, []); auto|].
    apply (dead_row g u [] P I). reflexivity.
  - intros [V D]. apply in_map_iff in V as ((u & r) & <- & I). cbn in *. exists (u, r). split; [reflexivity|]. apply filter_In. split; [exact I|].
    apply (dead_row g u r P I) in D. subst. reflexivity.
Qed.

Lemma adjust2_spec g : proper g -> closed g -> let g' := adjacency_adjust g 2 in proper g' /\ closed g' /\ map fst g' = map fst g /\
  forall u v x, edge g' u v x <-> exists a, edge g u v a /\ (((forall w b, ~ edge g v w b) /\ x = Some 0) \/ ((exists w b, edge g v w b) /\ x = typed a)).
Proof.
  intros P C. unfold adjacency_adjust. cbn [Z.eqb Pos.eqb]. cbv zeta. destruct (defaults_spec g) as (K1 & P1 & E1). specialize (P1 P).
  destruct (adjust_edges (fun _ v a => if mem v (null_nodes (defaults g)) then Some 0 else a) (defaults g)) as (K2 & P2 & E2). specialize (P2 P1).
  assert (NU : forall v, vertex g v -> (mem v (null_nodes (defaults g)) = true <-> forall w b, ~ edge g v w b)).
  { intros v V. rewrite mem_in, nulls_spec by exact P1. split.
    - intros [_ H] w b X. apply (H w (typed b)). apply E1. eauto.
    - intro H. split; [unfold vertex; rewrite K1; exact V|]. intros w b X. apply E1 in X as (a & X & _). exact (H w a X). }
  assert (EE : forall u v x, edge (map (fun p => (fst p, map (fun e => (fst e, if mem (fst e) (null_nodes (defaults g)) then Some 0 else snd e)) (snd p))) (defaults g)) u v x <->
     exists a, edge g u v a /\ (((forall w b, ~ edge g v w b) /\ x = Some 0) \/ ((exists w b, edge g v w b) /\ x = typed a))).
  { intros u v x. rewrite E2. split.
    - intros (b & X & ->). apply E1 in X as (a & X & ->). exists a. split; [exact X|]. assert (V := C _ _ _ X).
      destruct (mem v (null_nodes (defaults g))) eqn:M.
      + left. split; [apply NU; assumption|reflexivity].
      + right. split; [|reflexivity]. apply in_map_iff in V as ((v' & r) & Q & I). cbn in Q. subst v'. destruct r as [|[w b] r].
        * exfalso. assert (H := proj1 (dead_row g v [] P I) eq_refl). assert (V : vertex g v) by (apply in_map_iff; exists (v, []); auto). apply (NU v V) in H. congruence.
        * exists w, b, ((w, b) :: r). split; [exact I|left; reflexivity].
    - intros (a & X & H). exists (typed a). split; [apply E1; eauto|]. assert (V := C _ _ _ X). destruct (mem v (null_nodes (defaults g))) eqn:M.
      + destruct H as [[_ ->]|[(w & b & W) _]]; [reflexivity|]. exfalso. apply (proj1 (NU v V) M w b W).
      + destruct H as [[D _]|[_ ->]]; [|reflexivity]. apply (NU v V) in D. congruence. }
  split; [exact P2|]. split.
  - intros u v x X. apply EE in X as (a & X & _). apply C in X. unfold vertex in *. rewrite K2, K1. exact X.
  - split; [rewrite K2; exact K1|exact EE].
Qed.

Lemma adjust1_spec g adj : adj <> 2 -> proper g -> closed g -> let g' := adjacency_adjust g adj in proper g' /\ closed g' /\ map fst g' = map fst g /\
  forall u v x, edge g' u v x <-> (exists a, edge g u v a /\ x = typed a) \/ (u = v /\ x = Some 0 /\ vertex g u /\ forall w b, ~ edge g u w b).
Proof.
  intros NA P C. unfold adjacency_adjust. apply Z.eqb_neq in NA. rewrite NA. cbv zeta. destruct (defaults_spec g) as (K1 & P1 & E1). specialize (P1 P).
  set (g1 := defaults g) in *. set (g' := map _ g1).
  assert (K2 : map fst g' = map fst g1) by (subst g'; rewrite map_map; reflexivity).
  assert (P2 : proper g').
  { split; [rewrite K2; apply P1|]. intros u r I. apply in_map_iff in I as ((u0 & r0) & Q & I). cbn in Q. injection Q as <- <-.
    destruct r0; [constructor; [intros []|constructor]|]. apply (proj2 P1 _ _ I). }
  assert (EE : forall u v x, edge g' u v x <-> (exists a, edge g u v a /\ x = typed a) \/ (u = v /\ x = Some 0 /\ vertex g u /\ forall w b, ~ edge g u w b)).
  { intros u v x. split.
    - intros (r & I & J). apply in_map_iff in I as ((u0 & r0) & Q & I). cbn in Q. injection Q as <- <-. destruct r0 as [|e r0].
      + destruct J as [J|[]]. injection J as <- <-. right. split; [reflexivity|]. split; [reflexivity|].
        assert (D := proj1 (dead_row g1 u0 [] P1 I) eq_refl). split.
        * unfold vertex. rewrite <- K1. apply in_map_iff. exists (u0, []). auto.
        * intros w b X. apply (D w (typed b)). apply E1. eauto.
      + left. apply E1. exists (e :: r0). auto.
    - intros [X|(-> & -> & V & D)].
      + apply E1 in X as (r & I & J). exists r. split; [|exact J]. apply in_map_iff. exists (u, r). split; [|exact I]. cbn. destruct r; [destruct J|reflexivity].
      + unfold vertex in V. rewrite <- K1 in V. apply in_map_iff in V as ((v' & r) & Q & I). cbn in Q. subst v'.
        assert (r = []). { apply (dead_row g1 v r P1 I). intros w b X. apply E1 in X as (a & X & _). exact (D w a X). }
        subst r. exists [(v, Some 0)]. split; [|left; reflexivity]. apply in_map_iff. exists (v, []). auto. }
  split; [exact P2|]. split; [|split; [congruence|exact EE]].
  intros u v x X. unfold vertex. rewrite K2, K1. apply EE in X as [(a & X & _)|(-> & _ & V & _)]; [eapply C; exact X|exact V].
Qed.
