(** * GraphBuild: a network that is built from a graph *)
From Coq Require Import List ZArith QArith Bool Arith Lia Permutation Sorting.Sorted.
From Verif Require Import Base Dict UnionFind UnionFindProofs QueueEffects Graph SpecGraph GraphProofs GraphClaims GraphNet GraphIndex.
From Verif Require Import PQueue Queue SpecQueue Network SpecNet NetReach NetTotal SpecBuild.
Import ListNotations.
Open Scope Z_scope.

Lemma zeq_eq x y : Z.eqb x y = true <-> x = y.
Proof. apply Z.eqb_eq. Qed.

(** ** Reading a graph *)

Lemma index_of_ok d e k : dwf d -> In (e, k) (dg_index d) -> index_of d e = Ok k.
Proof.
  intros W I. unfold index_of. rewrite (mget_nodup _ peqb_eq _ _ _ (proj1 (dw_index _ W)) I). reflexivity.
Qed.
Lemma ep_type_ok d u v a : dwf d -> edge (dg_g d) u v a -> ep_type d (u, v) = Ok a.
Proof.
  intros W X. apply edge_mg in X as (r & A & B); [|apply W]. unfold ep_type, nget. cbn [fst snd]. rewrite A. cbn [of_option bind]. rewrite B. reflexivity.
Qed.
Lemma arc_index d u v : dwf d -> arc (dg_g d) u v -> exists k, In ((u, v), k) (dg_index d) /\ (k < dg_next d)%nat.
Proof.
  intros W A. apply (nb_edges _ _ (dwf_numbering d W)) in A as (k & I). exists k. split; [exact I|].
  apply (indexed_pos _ _ (dw_index _ W)) in I. rewrite <- (seq_length (dg_next d) 0), <- (proj2 (dw_index _ W)), map_length. rewrite <- (map_length fst).
  apply nth_error_Some. congruence.
Qed.
Lemma index_arc d u v k : dwf d -> In ((u, v), k) (dg_index d) -> arc (dg_g d) u v.
Proof. intros W I. apply (nb_edges _ _ (dwf_numbering d W)). eauto. Qed.
Lemma index_onto d k : dwf d -> (k < dg_next d)%nat <-> exists e, In (e, k) (dg_index d).
Proof.
  intro W. assert (L : length (map fst (dg_index d)) = dg_next d) by (rewrite map_length, <- (map_length snd), (proj2 (dw_index _ W)); apply seq_length).
  split.
  - intro H. destruct (nth_error (map fst (dg_index d)) k) as [e|] eqn:E; [exists e; apply (indexed_pos _ _ (dw_index _ W)); exact E|].
    apply nth_error_None in E. lia.
  - intros (e & I). apply (indexed_pos _ _ (dw_index _ W)) in I. rewrite <- L. apply nth_error_Some. congruence.
Qed.

(** ** The queues *)

(** The arguments in force for a type, when [f] was the first edge of the type. *)
Definition eff (caps : list (nat * Z)) (a : qargs) (f : nat * nat) : qargs :=
  match qa_servers a with
  | None => match caps with [] => a | _ => with_servers (PInt (Z.max (cap_of caps (snd f)) 1)) a end
  | Some _ => a
  end.
Lemma eff_twice caps a f e : eff caps (eff caps a f) e = eff caps a f.
Proof. unfold eff. destruct (qa_servers a) eqn:Q; [rewrite Q; reflexivity|]. destruct caps; [rewrite Q; reflexivity|]. reflexivity. Qed.

Definition has_type (d : dgraph) (t : Z) (e : nat * nat) : bool := match ep_type d e with Ok (Some x) => x =? t | _ => false end.
Definition first_of (d : dgraph) (t : Z) (es : list (nat * nat)) : option (nat * nat) := find (has_type d t) es.

Lemma find_app {A} (f : A -> bool) l m : find f (l ++ m) = match find f l with Some x => Some x | None => find f m end.
Proof. induction l as [|x l IH]; cbn; [reflexivity|]. destruct (f x); [reflexivity|exact IH]. Qed.

Definition in_force d caps es (args0 args : list (Z * qargs)) : Prop :=
  forall t a, mget Z.eqb args0 t = Some a -> mget Z.eqb args t = Some (match first_of d t es with None => a | Some f => eff caps a f end).

Definition typed_for (d : dgraph) (cls : list (Z * qclass)) (args : list (Z * qargs)) : Prop :=
  forall u v, arc (dg_g d) u v -> exists t c a, edge (dg_g d) u v (Some t) /\ mget Z.eqb cls t = Some c /\ mget Z.eqb args t = Some a /\ servers_ok a.

(** The queue that belongs to edge [e]. *)
Definition right_queue d cls caps args (k : nat) (q : queue) : Prop :=
  exists u v t c a f, In ((u, v), k) (dg_index d) /\ edge (dg_g d) u v (Some t) /\ mget Z.eqb cls t = Some c /\ mget Z.eqb args t = Some a /\
    servers_ok a /\ first_of d t (g_edges (dg_g d)) = Some f /\ make_queue c (eff caps a f) u v k t = Ok q.

Lemma make_queue_ok c a u v k t : servers_ok a -> exists s, ctor_ok (match qa_servers a with Some n => n | None => default_servers c end) = Ok s /\ s <> Fin 0 /\
  make_queue c a u v k t = Ok (new_queue (mkCfg c u v k t (qa_arr a k) (qa_srv a k) (match qa_factory a with Some k => k | None => default_factory c end)
    (qa_active_cap a) (qa_deactive_t a) (match qa_buffer a with Some b => b | None => default_buffer c end) (double s)) s (qa_collect a) (qa_net_size a)).
Proof.
  intro S. unfold make_queue, servers_ok in *. destruct (qa_servers a) as [[z| |]|].
  - exists (Fin z). unfold ctor_ok. destruct (Z.leb_spec z 0); [lia|]. split; [reflexivity|]. split; [intro H0; injection H0; lia|reflexivity].
  - exists Inf. split; [reflexivity|]. split; [discriminate|reflexivity].
  - destruct S.
  - destruct c; (eexists; split; [reflexivity|]; split; [discriminate|reflexivity]).
Qed.
Lemma eff_servers caps a f : servers_ok a -> servers_ok (eff caps a f).
Proof. unfold eff, servers_ok. destruct (qa_servers a) eqn:E; [rewrite E; auto|]. destruct caps; [rewrite E; auto|]. cbn. intros _. lia. Qed.

Lemma set_Some {A} (l : list A) k x : (k < length l)%nat -> set l k x = Some (upd l k x).
Proof. apply set_upd. Qed.
Lemma get_upd_eq {A} (l : list A) k x : (k < length l)%nat -> get (upd l k x) k = Some x.
Proof. apply nth_error_upd_eq. Qed.
Lemma get_upd_neq {A} (l : list A) k j x : k <> j -> get (upd l k x) j = get l j.
Proof. intro H. apply nth_error_upd_neq. congruence. Qed.

Lemma queues_on_ok d cls caps args0 : dwf d -> typed_for d cls args0 -> forall es pre args qs,
  (forall e, In e es -> In e (g_edges (dg_g d))) -> pre ++ es = g_edges (dg_g d) -> in_force d caps pre args0 args ->
  length qs = dg_next d -> (forall k q, get qs k = Some (Some q) -> right_queue d cls caps args0 k q) ->
  exists qs', queues_on d cls caps es args qs = Ok qs' /\ length qs' = dg_next d /\
    (forall k q, get qs' k = Some (Some q) -> right_queue d cls caps args0 k q) /\
    (forall k e, (In e es /\ In (e, k) (dg_index d)) \/ (exists q, get qs k = Some (Some q)) -> exists q, get qs' k = Some (Some q)).
Proof.
  intros W T. induction es as [|[u v] es IH]; intros pre args qs SUB ALL F L R; cbn [queues_on].
  - exists qs. split; [reflexivity|]. split; [exact L|]. split; [exact R|]. intros k e [[[] _]|H]; exact H.
  - assert (A : arc (dg_g d) u v) by (apply g_edges_in; apply SUB; left; reflexivity).
    destruct (T u v A) as (t & c & a & X & Cc & Ca & S). destruct (arc_index d u v W A) as (k & I & Lk).
    assert (F0 := F t a Ca). set (a0 := match first_of d t pre with None => a | Some f => eff caps a f end) in *.
    assert (HT : has_type d t (u, v) = true) by (unfold has_type; rewrite (ep_type_ok d u v _ W X); apply Z.eqb_refl).
    assert (exists f, first_of d t (pre ++ [(u, v)]) = Some f /\ eff caps a0 (u, v) = eff caps a f) as (f & Ff & Ea).
    { unfold first_of in *. rewrite find_app. subst a0. destruct (find (has_type d t) pre) as [f|]; [exists f; split; [reflexivity|apply eff_twice]|].
      exists (u, v). cbn [find]. rewrite HT. split; reflexivity. }
    assert (FF : first_of d t (g_edges (dg_g d)) = Some f).
    { rewrite <- ALL. change ((u, v) :: es) with ([(u, v)] ++ es). rewrite app_assoc. unfold first_of in *. rewrite find_app, Ff. reflexivity. }
    destruct (make_queue_ok c (eff caps a f) u v k t (eff_servers caps a f S)) as (s & Es & NS & M).
    set (q := new_queue _ _ _ _) in M.
    assert (Q : queue_on d cls caps (u, v) args qs = Ok (mput Z.eqb args t (eff caps a f), upd qs k (Some q))).
    { unfold queue_on. rewrite (ep_type_ok d u v _ W X). cbn [bind of_option]. rewrite (index_of_ok d _ _ W I). cbn [bind]. unfold zget. rewrite F0, Cc. cbn [of_option bind].
      cbv zeta. replace (match qa_servers a0 with Some _ => a0 | None => _ end) with (eff caps a f).
      - cbn [fst snd]. rewrite M. cbn [bind]. rewrite set_Some by lia. reflexivity.
      - rewrite <- Ea. unfold eff. cbn [snd]. destruct (qa_servers a0); [reflexivity|]. destruct caps; reflexivity. }
    rewrite Q. cbn [bind].
    destruct (IH (pre ++ [(u, v)]) (mput Z.eqb args t (eff caps a f)) (upd qs k (Some q))) as (qs' & E & L' & R' & FL).
    + intros e H. apply SUB. right; exact H.
    + rewrite <- app_assoc. exact ALL.
    + intros t' a' Ca'. destruct (Z.eq_dec t t') as [<-|NE].
      * rewrite (mget_put_eq _ zeq_eq), Ff. congruence.
      * rewrite (mget_put_neq _ zeq_eq) by exact NE. rewrite (F t' a' Ca'). unfold first_of. rewrite find_app. destruct (find (has_type d t') pre); [reflexivity|].
        cbn [find]. unfold has_type. rewrite (ep_type_ok d u v _ W X). apply Z.eqb_neq in NE. rewrite NE. reflexivity.
    + rewrite upd_length. exact L.
    + intros k' q' G. destruct (Nat.eq_dec k k') as [<-|NE].
      * rewrite get_upd_eq in G by lia. injection G as <-. exists u, v, t, c, a, f. auto 10.
      * rewrite get_upd_neq in G by congruence. apply R; exact G.
    + exists qs'. split; [exact E|]. split; [exact L'|]. split; [exact R'|]. intros k' e H. apply (FL k' e).
      destruct H as [[[<-|J] I']|(q' & G)].
      * right. exists q. assert (k' = k) by (eapply (nb_fun _ _ (dwf_numbering d W)); eassumption). subst k'. apply get_upd_eq. lia.
      * left. auto.
      * right. destruct (Nat.eq_dec k k') as [<-|NE]; [exists q; apply get_upd_eq; lia|]. exists q'. rewrite get_upd_neq by congruence. exact G.
Qed.

Lemma all_some_ok {A} : forall l : list (option A), (forall k, (k < length l)%nat -> exists x, get l k = Some (Some x)) ->
  exists l', all_some l = Ok l' /\ length l' = length l /\ forall k x, get l' k = Some x -> get l k = Some (Some x).
Proof.
  induction l as [|o l IH]; intro H; [exists []; split; [reflexivity|]; split; [reflexivity|]; intros [|k] x E; discriminate|].
  destruct (H 0%nat) as (x & E); [cbn; lia|]. cbn in E. injection E as ->.
  destruct IH as (l' & E & L & G). { intros k Hk. destruct (H (S k)) as (y & Y); [cbn; lia|]. exists y. exact Y. }
  exists (x :: l'). cbn. rewrite E. split; [reflexivity|]. split; [congruence|]. intros [|k] y Y; [cbn in *; congruence|]. apply G. exact Y.
Qed.

Lemma set_queues_ok d cls caps args : dwf d -> typed_for d cls args -> exists qs, set_queues d cls caps args = Ok qs /\ length qs = dg_next d /\
  forall k q, get qs k = Some q -> right_queue d cls caps args k q.
Proof.
  intros W T. unfold set_queues. cbv zeta. rewrite (dw_count _ W).
  destruct (queues_on_ok d cls caps args W T (g_edges (dg_g d)) [] args (repeat None (dg_next d))) as (qs & E & L & R & FL); auto.
  - intros t a C. exact C.
  - apply repeat_length.
  - intros k q G. apply nth_error_In in G. apply repeat_spec in G. discriminate.
  - rewrite E. cbn [bind]. destruct (all_some_ok qs) as (l & E' & L' & G).
    + intros k Hk. rewrite L in Hk. apply (index_onto d k W) in Hk as ((u & v) & I). apply (FL k (u, v)). left. split; [|exact I].
      apply g_edges_in. eapply index_arc; eassumption.
    + exists l. rewrite E'. split; [reflexivity|]. split; [congruence|]. intros k q H. apply R, G, H.
Qed.

Lemma right_cfg d cls caps args k q : right_queue d cls caps args k q -> exists u v t c a f s, In ((u, v), k) (dg_index d) /\ edge (dg_g d) u v (Some t) /\
  mget Z.eqb cls t = Some c /\ mget Z.eqb args t = Some a /\ first_of d t (g_edges (dg_g d)) = Some f /\ s <> Fin 0 /\
  ctor_ok (match qa_servers (eff caps a f) with Some n => n | None => default_servers c end) = Ok s /\
  q = new_queue (mkCfg c u v k t (qa_arr a k) (qa_srv a k) (match qa_factory a with Some k => k | None => default_factory c end)
    (qa_active_cap a) (qa_deactive_t a) (match qa_buffer a with Some b => b | None => default_buffer c end) (double s)) s (qa_collect a) (qa_net_size a).
Proof.
  intros (u & v & t & c & a & f & I & X & Cc & Ca & S & Ff & M). destruct (make_queue_ok c (eff caps a f) u v k t (eff_servers caps a f S)) as (s & Es & NS & M').
  rewrite M in M'. injection M' as ->. exists u, v, t, c, a, f, s. repeat (split; [assumption|]).
  unfold eff. destruct (qa_servers a); [reflexivity|]. destruct caps; reflexivity.
Qed.

(** ** Out-edges and in-edges *)

Lemma indices_ok d : dwf d -> forall l, (forall e, In e l -> In e (g_edges (dg_g d))) -> exists ks, indices d l = Ok ks /\ Forall2 (fun e k => In (e, k) (dg_index d)) l ks.
Proof.
  intros W. induction l as [|[u v] l IH]; intro H; [exists []; split; [reflexivity|constructor]|].
  destruct IH as (ks & E & F); [intros e I; apply H; right; exact I|].
  destruct (arc_index d u v W) as (k & I & _); [apply g_edges_in; apply H; left; reflexivity|].
  exists (k :: ks). cbn [indices]. rewrite (index_of_ok d _ _ W I). cbn [bind]. rewrite E. split; [reflexivity|]. constructor; assumption.
Qed.

Lemma wire_ok d pairs_of (P : nat -> list nat -> Prop) : (forall v, vertex (dg_g d) v -> exists ks, indices d (psort (pairs_of (dg_g d) v)) = Ok ks /\ P v ks) ->
  forall vs acc, (forall v, In v vs -> vertex (dg_g d) v /\ (v < length acc)%nat) ->
  exists out, wire pairs_of d vs acc = Ok out /\ length out = length acc /\
    (forall v, In v vs -> exists ks, get out v = Some ks /\ P v ks) /\
    (forall v, ~ In v vs -> get out v = get acc v).
Proof.
  intros H. induction vs as [|v vs IH]; intros acc B; cbn [wire].
  - exists acc. split; [reflexivity|]. split; [reflexivity|]. split; [intros v []|reflexivity].
  - destruct (B v (or_introl eq_refl)) as [V L]. destruct (H v V) as (ks & E & K). rewrite E. cbn [bind]. rewrite set_Some by exact L. cbn [of_option bind].
    destruct (IH (upd acc v ks)) as (out & E' & L' & G & N). { intros w I. rewrite upd_length. apply B. right; exact I. }
    exists out. split; [exact E'|]. split; [rewrite L', upd_length; reflexivity|]. split.
    + intros w I. destruct (in_dec Nat.eq_dec w vs) as [J|J]; [exact (G w J)|]. destruct I as [<-|I]; [|contradiction].
      exists ks. rewrite (N v J), get_upd_eq by exact L. auto.
    + intros w NI. rewrite N by (intro; apply NI; right; assumption). apply get_upd_neq. intros <-. apply NI. left; reflexivity.
Qed.

Lemma Forall2_map_l {A B C} (f : A -> B) (P : B -> C -> Prop) : forall l m, Forall2 P (map f l) m -> Forall2 (fun a c => P (f a) c) l m.
Proof. induction l as [|x l IH]; intros m H; inversion H; subst; constructor; auto. Qed.

Lemma sorted_out_pairs d v : dwf d -> exists ks, indices d (psort (out_pairs (dg_g d) v)) = Ok ks /\ leading d (fun w => (v, w)) ks.
Proof.
  intro W. assert (PM := psort_perm (out_pairs (dg_g d) v)).
  assert (IN : forall e, In e (psort (out_pairs (dg_g d) v)) <-> fst e = v /\ In e (g_edges (dg_g d))).
  { intro e. split; [intro H; apply (Permutation_in _ PM) in H|intro H; apply (Permutation_in _ (Permutation_sym PM))];
      unfold out_pairs in *; rewrite filter_In, Nat.eqb_eq in *; tauto. }
  destruct (indices_ok d W (psort (out_pairs (dg_g d) v))) as (ks & E & F); [intros e H; apply IN in H; tauto|].
  exists ks. split; [exact E|]. set (l := psort (out_pairs (dg_g d) v)) in *.
  assert (ST : StronglySorted before l) by (apply psort_strict; apply NoDup_filter, g_edges_nodup, W).
  exists (map snd l). assert (ML : map (fun w => (v, w)) (map snd l) = l).
  { rewrite map_map. rewrite <- (map_id l) at 2. apply map_ext_in. intros [x y] I. apply IN in I. cbn in *. destruct I as [-> _]. reflexivity. }
  split; [|split].
  - clearbody l. clear -ST IN. assert (H : forall e, In e l -> fst e = v) by (intros e I; apply IN in I; tauto). clear IN.
    induction ST as [|p l S IH F]; cbn; [constructor|]. constructor; [apply IH; intros e I; apply H; right; exact I|].
    rewrite Forall_forall in *. intros w I. apply in_map_iff in I as (q & <- & I). specialize (F q I). assert (A := H p (or_introl eq_refl)). assert (B := H q (or_intror I)).
    unfold before in F. lia.
  - intro w. cbn [fst snd]. rewrite <- g_edges_in. split.
    + intro I. apply in_map_iff in I as ((x & y) & <- & I). apply IN in I as [Q I]. cbn in *. subst. exact I.
    + intro I. apply in_map_iff. exists (v, w). split; [reflexivity|]. apply IN. auto.
  - apply (Forall2_map_l (fun w => (v, w)) (fun e k => In (e, k) (dg_index d))). rewrite ML. exact F.
Qed.
Lemma sorted_in_pairs d v : dwf d -> exists ks, indices d (psort (in_pairs (dg_g d) v)) = Ok ks /\ leading d (fun w => (w, v)) ks.
Proof.
  intro W. assert (PM := psort_perm (in_pairs (dg_g d) v)).
  assert (IN : forall e, In e (psort (in_pairs (dg_g d) v)) <-> snd e = v /\ In e (g_edges (dg_g d))).
  { intro e. split; [intro H; apply (Permutation_in _ PM) in H|intro H; apply (Permutation_in _ (Permutation_sym PM))];
      unfold in_pairs in *; rewrite filter_In, Nat.eqb_eq in *; tauto. }
  destruct (indices_ok d W (psort (in_pairs (dg_g d) v))) as (ks & E & F); [intros e H; apply IN in H; tauto|].
  exists ks. split; [exact E|]. set (l := psort (in_pairs (dg_g d) v)) in *.
  assert (ST : StronglySorted before l) by (apply psort_strict; apply NoDup_filter, g_edges_nodup, W).
  exists (map fst l). assert (ML : map (fun w => (w, v)) (map fst l) = l).
  { rewrite map_map. rewrite <- (map_id l) at 2. apply map_ext_in. intros [x y] I. apply IN in I. cbn in *. destruct I as [-> _]. reflexivity. }
  split; [|split].
  - clearbody l. clear -ST IN. assert (H : forall e, In e l -> snd e = v) by (intros e I; apply IN in I; tauto). clear IN.
    induction ST as [|p l S IH F]; cbn; [constructor|]. constructor; [apply IH; intros e I; apply H; right; exact I|].
    rewrite Forall_forall in *. intros w I. apply in_map_iff in I as (q & <- & I). specialize (F q I). assert (A := H p (or_introl eq_refl)). assert (B := H q (or_intror I)).
    unfold before in F. lia.
  - intro w. cbn [fst snd]. rewrite <- g_edges_in. split.
    + intro I. apply in_map_iff in I as ((x & y) & <- & I). apply IN in I as [Q I]. cbn in *. subst. exact I.
    + intro I. apply in_map_iff. exists (w, v). split; [reflexivity|]. apply IN. auto.
  - apply (Forall2_map_l (fun w => (w, v)) (fun e k => In (e, k) (dg_index d))). rewrite ML. exact F.
Qed.

(** ** The network *)

Lemma uniform_ok out v ks : get out v = Some ks -> exists pr, get (uniform_probs out) v = Some pr /\ length pr = length ks /\
  forall p, In p pr -> (p * inject_Z (Z.of_nat (length ks)) == 1)%Q.
Proof.
  intro G. exists (repeat (1 / inject_Z (Z.of_nat (length ks)))%Q (length ks)). split.
  - unfold get, uniform_probs in *. rewrite nth_error_map, G. reflexivity.
  - split; [apply repeat_length|]. intros p I. assert (L : (0 < length ks)%nat) by (destruct ks; [destruct I|cbn; lia]). apply repeat_spec in I. subst p.
    field. intro H. unfold Qeq in H. cbn in H. lia.
Qed.

Definition numbered_vertices (d : dgraph) : Prop := forall v, vertex (dg_g d) v -> (v < length (g_nodes (dg_g d)))%nat.

Lemma make_ok gi (adjust : bool) cls caps args no_args max bas junk u eps d :
  let cls' := with_defaults cls default_classes in
  let args' := complete_args cls' args no_args in
  let caps' : list (nat * Z) := if adjust then [] else caps in
  network_graph gi adjust = Ok d -> dwf d -> numbered_vertices d -> typed_for d cls' args' ->
  exists n ins qs out, make_network gi adjust cls caps args no_args max bas junk u eps = Ok (n, d, ins) /\ built d cls' n ins /\
    n = new_net qs out max bas junk u eps /\ length qs = dg_next d /\ (forall k q, get qs k = Some q -> right_queue d cls' caps' args' k q).
Proof.
  intros cls' args' caps' G W NV T. unfold make_network, prepare_graph. fold cls' args' caps'. cbv zeta. rewrite G. cbn [bind].
  destruct (set_queues_ok d cls' caps' args' W T) as (qs & E & L & R). rewrite E. cbn [bind].
  destruct (wire_ok d out_pairs (fun v => leading d (fun w => (v, w))) (fun v _ => sorted_out_pairs d v W) (g_nodes (dg_g d)) (repeat [] (length (g_nodes (dg_g d))))) as (out & Eo & Lo & Go & No).
  { intros v I. rewrite repeat_length. split; [exact I|]. apply NV. exact I. }
  destruct (wire_ok d in_pairs (fun v => leading d (fun w => (w, v))) (fun v _ => sorted_in_pairs d v W) (g_nodes (dg_g d)) (repeat [] (length (g_nodes (dg_g d))))) as (ins & Ei & Li & Gi & Ni).
  { intros v I. rewrite repeat_length. split; [exact I|]. apply NV. exact I. }
  rewrite Eo, Ei. cbn [bind]. exists (new_net qs out max bas junk u eps), ins, qs, out. split; [reflexivity|]. split; [|auto].
  split; cbn [nt_queues nt_out nt_probs nt_nagents nt_t nt_events nt_init new_net].
  - intro k. rewrite L. apply index_onto; exact W.
  - intros x y k t I X. assert (Lk : (k < length qs)%nat) by (rewrite L; apply (index_onto d k W); eauto).
    destruct (get qs k) as [q|] eqn:Gk; [|unfold get in Gk; apply nth_error_None in Gk; lia].
    destruct (right_cfg _ _ _ _ _ _ (R k q Gk)) as (u' & v' & t' & c & a & f & s & I' & X' & Cc & Ca & _ & _ & _ & Q).
    assert (Q' := nb_inj _ _ (dwf_numbering d W) _ _ _ I I'). injection Q' as <- <-.
    assert (t' = t). { apply edge_mg in X as (r & A & B); [|apply W]. apply edge_mg in X' as (r' & A' & B'); [|apply W]. congruence. } subst t'.
    exists q, c. subst q. split; [reflexivity|]. split; [exact Cc|]. cbn. auto 10.
  - intros v V. exact (Go v V).
  - intros v V. exact (Gi v V).
  - intros v ks K. apply uniform_ok; exact K.
  - repeat split. intros k Hk. unfold get. rewrite nth_error_repeat by exact Hk. reflexivity.
  - unfold uniform_probs. rewrite map_length, Lo, repeat_length. auto.
  - rewrite Li, repeat_length. reflexivity.
Qed.

(** The graph of the network. *)
Lemma as_adj_proper gi : proper_graph gi -> match gi with GDict _ => True | _ => proper_in (as_adj gi) end.
Proof.
  destruct gi as [d|g|a]; cbn; [|tauto|tauto]. intros (NE & g & l & P & ->). split; [exact NE|]. apply (dw_proper _ (dg_adds_ok l _ (dg_new_ok g P))).
Qed.

Lemma nonempty_vertex (g : graph) v : vertex g v -> g <> [].
Proof. intros V ->. destruct V. Qed.

Lemma edge_closed_dg (g : graph) (P : proper g) (C : closed g) : dg_g (dg_new g) = g.
Proof. unfold dg_new. cbn [dg_g]. apply from_dod_id; assumption. Qed.

Lemma test_graph_ok gi : proper_graph gi -> exists d, test_graph gi = Ok d /\ dwf d /\ dg_g d <> [] /\
  (forall v, vertex (dg_g d) v <-> mentioned (as_adj gi) v) /\
  (forall u v, arc (dg_g d) u v <-> (exists o, listed (as_adj gi) u v o) \/ (exists a, gi = GDict a /\ u = v /\ mentioned a u /\ dead_end a u)) /\
  (forall u v x, edge (dg_g d) u v x -> x = Some 0 \/ exists o, listed (as_adj gi) u v o /\ (x = o \/ x = Some (dflt o))).
Proof.
  destruct gi as [d|g|a]; cbn [proper_graph test_graph as_adj listed mentioned].
  - intros (NE & g & l & P & ->). set (d := dg_adds (dg_new g) l) in *. assert (W : dwf d) by (apply dg_adds_ok, dg_new_ok; exact P).
    exists d. split; [reflexivity|]. split; [exact W|]. split; [exact NE|]. split.
    + intro v. unfold vertex. split; [auto|]. intros [H|(u & o & X)]; [exact H|]. exact (dw_closed _ W _ _ _ X).
    + split; [|intros u v x X; eauto 6]. intros u v. unfold arc. split; [auto|]. intros [H|(a & H & _)]; [exact H|discriminate].
  - intros [NE P]. exists (dg_new g). split; [reflexivity|]. assert (W := dg_new_ok g P). split; [exact W|].
    destruct (from_dod_ok g P) as (P' & C' & V' & E'). unfold dg_new. cbn [dg_g]. split; [|split].
    + destruct g as [|[v r] g]; [congruence|]. apply (nonempty_vertex _ v). apply V'. left. left. reflexivity.
    + intro v. rewrite V'. reflexivity.
    + split; [|intros u v x X; right; exists x; split; [apply E'; exact X|auto]]. intros u v. unfold arc. split; [intros (o & X); left; exists o; apply E'; exact X|]. intros [(o & X)|(a & H & _)]; [exists o; apply E'; exact X|discriminate].
  - intros [PA (w & M)]. destruct (adjacency2graph_1 a TNone 1) as (g & E & P & C & V & ED); [discriminate|exact PA|exact I|intros u v t []|].
    rewrite E. cbn [bind]. exists (dg_new g). split; [reflexivity|]. split; [apply dg_new_ok; exact P|]. rewrite (edge_closed_dg g P C). split; [apply (nonempty_vertex g w); apply V; exact M|].
    split; [exact V|]. split.
    2: { intros u v x X. apply ED in X as [(o & t & L & K & ->)|(-> & -> & M' & D)]; [|auto]. right. exists o. split; [exact L|]. right.
         destruct K as [[]|[_ K]]. destruct o; cbn; congruence. }
    intros u v. unfold arc. split.
    + intros (x & X). apply ED in X as [(o & t & L & _)|(-> & -> & M' & D)]; [left; eauto|right; eauto 10].
    + intros [(o & L)|(a' & Q & -> & M' & D)].
      * exists (Some (match o with Some z => z | None => 1 end)). apply ED. left. exists o, (match o with Some z => z | None => 1 end). split; [exact L|].
        split; [|reflexivity]. right. split; [intros t []|]. destruct o; reflexivity.
      * injection Q as <-. exists (Some 0). apply ED. right. auto.
Qed.

Lemma network_graph_ok gi : proper_graph gi -> exists d, network_graph gi true = Ok d /\ dwf d /\
  (forall v, vertex (dg_g d) v <-> mentioned (as_adj gi) v) /\
  (forall u v, arc (dg_g d) u v <-> (exists o, listed (as_adj gi) u v o) \/ (exists a, gi = GDict a /\ u = v /\ mentioned a u /\ dead_end a u)) /\
  all_typed (dg_g d) /\ leads_on (dg_g d) /\
  (forall u v x, edge (dg_g d) u v x -> x = Some 0 \/ exists o, listed (as_adj gi) u v o /\ x = Some (dflt o)).
Proof.
  intro PG. destruct (test_graph_ok gi PG) as (d & E & W & NE & V & A & TY). unfold network_graph. rewrite E. cbn [bind].
  assert (PI : proper_in (ADicts (dg_g d))) by (split; [exact NE|apply W]).
  destruct (adjacency2graph_2 (ADicts (dg_g d)) TNone PI I) as (g & E2 & P2 & C2 & V2 & ED2); [intros u v t []|].
  assert (ON := adjacency2graph_on (ADicts (dg_g d)) TNone g PI I E2).
  rewrite E2. cbn [bind]. exists (dg_new g). split; [reflexivity|]. split; [apply dg_new_ok; exact P2|]. rewrite (edge_closed_dg g P2 C2). split; [|split; [|split; [|split]]].
  - intro v. rewrite V2, <- V. cbn [mentioned]. split; [|auto]. intros [H|(u & o & X)]; [exact H|]. exact (dw_closed _ W _ _ _ X).
  - intros u v. rewrite <- A. unfold arc. split.
    + intros (x & X). apply ED2 in X as (o & L & _). exists o. exact L.
    + intros (o & X). assert (RAW : exists o', edge g u v o').
      { destruct (edge_dec g u v P2) as [H|H]; [exact H|]. exfalso.
        assert (VG : vertex g u). { apply V2. left. destruct X as (r & I1 & _). apply in_map_iff. exists (u, r). auto. }
        set (t := match o with Some z => z | None => 1 end). 
        assert (KT : kept TNone o u v t) by (right; split; [intros ? []|destruct o; reflexivity]).
        apply (H (Some 0)). apply ED2. exists o. split; [exact X|]. left. split; [|reflexivity].
        intros w o' L. apply (H (Some t)). apply ED2. exists o. split; [exact X|]. right. split; [|eauto]. intro D. exact (D w o' L). }
      exact RAW.
  - intros u v x X. apply ED2 in X as (o & _ & [[_ ->]|(_ & t & _ & ->)]); discriminate.
  - exact ON.
  - intros u v x X. apply ED2 in X as (o & L & [[_ ->]|(_ & t & K & ->)]); [auto|]. destruct K as [[]|[_ K]]. cbn [listed] in L.
    destruct (TY u v o L) as [->|(o' & L' & [->| ->])]; [left; congruence| |]; right; exists o'; (split; [exact L'|]); [destruct o'; cbn; congruence|cbn; congruence].
Qed.

(** ** Simulation of what was built *)

Lemma new_queue_size c s col n m : c_class c <> CInfo -> new_queue c s col n = new_queue c s col m.
Proof. intro H. unfold new_queue. destruct (c_class c); try reflexivity. congruence. Qed.

Lemma built_runs d cls caps args qs out max bas junk u eps ins :
  dwf d -> let n := new_net qs out max bas junk u eps in
  built d cls n ins -> length qs = dg_next d -> (forall k q, get qs k = Some q -> right_queue d cls caps args k q) ->
  (forall t c a, mget Z.eqb cls t = Some c -> mget Z.eqb args t = Some a -> args_ok (length qs) c a) ->
  (forall i, 0 <= eps i) -> leads_on (dg_g d) -> mget Z.eqb cls 0 = Some CNull ->
  (forall v t c a, edge (dg_g d) v v (Some t) -> mget Z.eqb cls t = Some c -> mget Z.eqb args t = Some a -> c = CNull \/ mild_args c a) ->
  well_made n /\ made_for n /\ connected n /\ mild_loops n.
Proof.
  intros W n B L R AO EP LO NU NL. split; [|split; [|split]].
  - exists qs, out, max, bas, junk, u, eps. split; [reflexivity|]. split; [|exact EP]. intros k q G.
    destruct (right_cfg _ _ _ _ _ _ (R k q G)) as (x & y & t & c & a & f & s & I & X & Cc & Ca & _ & _ & _ & Q).
    eexists. exists s, (qa_collect a), (qa_net_size a). split; [exact Q|]. split; [reflexivity|]. destruct (AO t c a Cc Ca) as (F1 & F2 & _). split; cbn; auto.
  - intros k q G. cbn [nt_queues n new_net] in *. assert (Lk : (k < length qs)%nat) by (apply nth_error_Some; unfold get in G; congruence).
    destruct (right_cfg _ _ _ _ _ _ (R k q G)) as (x & y & t & c & a & f & s & I & X & Cc & Ca & _ & NS & _ & Q).
    destruct (AO t c a Cc Ca) as (_ & _ & CI & CN).
    exists (q_cfg q), s, (qa_collect a). split; [|split; [|intros _; exact NS]].
    + subst q. cbn [q_cfg new_queue]. destruct c; try (apply new_queue_size; discriminate). destruct (CI eq_refl) as (<- & _). reflexivity.
    + subst q. split; [exact Lk|]. cbn [q_cfg new_queue c_class c_factory c_arr c_deactive_t]. split.
      * intros ->. destruct (CI eq_refl) as (_ & F & A). split; [destruct F as [->| ->]; reflexivity|]. intros i z. apply A.
      * intro NC. specialize (CN NC). destruct (qa_factory a) as [k'|]; [congruence|]. destruct c; cbn; congruence.
  - intros k q G NC. cbn [nt_queues nt_out n new_net] in *.
    destruct (right_cfg _ _ _ _ _ _ (R k q G)) as (x & y & t & c & a & f & s & I & X & Cc & Ca & _ & _ & _ & Q).
    assert (V : vertex (dg_g d) y) by (apply (dw_closed _ W _ _ _ X)).
    destruct (bu_out _ _ _ _ B y V) as (ks & K & ws & SS & M & F). cbn [nt_out new_net fst snd] in K, M, F. exists ks. subst q. cbn [q_cfg new_queue c_tgt c_class] in *.
    split; [exact K|]. split.
    + intros ->. inversion F; subst. destruct (LO x y (Some t) X) as (w & o & Y). { intro H. injection H as ->. congruence. }
      destruct (proj2 (M w)). exists o. exact Y.
    + intros e He. rewrite L. apply (index_onto d e W). clear -F He. induction F as [|w k ws ks H F IH]; [destruct He|]. destruct He as [<-|He]; [eauto|auto].
  - intros k q l G NC Gl Ik. cbn [nt_queues nt_out n new_net] in *.
    destruct (right_cfg _ _ _ _ _ _ (R k q G)) as (x & y & t & c & a & f & s & I & X & Cc & Ca & _ & _ & _ & Q).
    assert (V : vertex (dg_g d) y) by (apply (dw_closed _ W _ _ _ X)).
    destruct (bu_out _ _ _ _ B y V) as (ks & K & ws & SS & M & F). cbn [nt_out new_net fst snd] in K, M, F. subst q. cbn [q_cfg new_queue c_tgt c_class] in *.
    change (get out y = Some ks) in K. change (get out y = Some l) in Gl. assert (l = ks) by (rewrite K in Gl; injection Gl; auto). subst l.
    assert (exists w, In ((y, w), k) (dg_index d)) as (w & J). { clear -F Ik. induction F as [|w k' ws ks H F IH]; [destruct Ik|]. destruct Ik as [<-|Ik]; [eauto|auto]. }
    assert (Q := nb_inj _ _ (dwf_numbering d W) _ _ _ I J). injection Q as -> ->.
    destruct (NL _ _ _ _ X Cc Ca) as [->|(M1 & M2 & M3)]; [congruence|]. cbn [q_cfg new_queue c_class c_buffer c_srv]. split; [exact M1|]. split; [|intros i z; apply M3].
    intro NS. destruct (qa_buffer a) as [b|]; [apply M2; reflexivity|]. destruct c; cbn; try lia; congruence.
Qed.

(** ** From the input *)

Lemma sub_seq_length (l : list nat) N : NoDup l -> (forall v, In v l <-> (v < N)%nat) -> length l = N.
Proof.
  intros ND H. rewrite <- (seq_length N 0). apply Permutation_length. apply NoDup_Permutation; [exact ND|apply seq_NoDup|].
  intro v. rewrite H, in_seq. lia.
Qed.

Lemma network_ok gi cls caps args no_args max bas junk u eps N :
  let cls' := with_defaults cls default_classes in
  let args' := complete_args cls' args no_args in
  proper_graph gi -> (forall v, mentioned (as_adj gi) v <-> (v < N)%nat) ->
  usable cls' args' 0 -> (forall x y o, listed (as_adj gi) x y o -> usable cls' args' (dflt o)) ->
  exists n d ins qs out, make_network gi true cls caps args no_args max bas junk u eps = Ok (n, d, ins) /\ dwf d /\
    (forall v, vertex (dg_g d) v <-> (v < N)%nat) /\
    (forall x y, arc (dg_g d) x y <-> (exists o, listed (as_adj gi) x y o) \/ (exists a, gi = GDict a /\ x = y /\ mentioned a x /\ dead_end a x)) /\
    (forall x y o, edge (dg_g d) x y o -> o = Some 0 \/ exists o', listed (as_adj gi) x y o' /\ o = Some (dflt o')) /\
    leads_on (dg_g d) /\ built d cls' n ins /\
    n = new_net qs out max bas junk u eps /\ length qs = dg_next d /\ (forall k q, get qs k = Some q -> right_queue d cls' [] args' k q).
Proof.
  intros cls' args' PG VN U0 UT. destruct (network_graph_ok gi PG) as (d & E & W & V & A & AT & LO & TY).
  assert (V' : forall v, vertex (dg_g d) v <-> (v < N)%nat) by (intro v; rewrite V; apply VN).
  destruct (make_ok gi true cls caps args no_args max bas junk u eps d E W) as (n & ins & qs & out & M & B & Q & L & R).
  - intros v H. apply V' in H. unfold g_nodes, mkeys. rewrite (sub_seq_length (map fst (dg_g d)) N); [exact H|apply W|exact V'].
  - intros x y (o & X). destruct (TY x y o X) as [->|(o' & L & ->)].
    + destruct U0 as (c & a & U1 & U2 & U3). exists 0, c, a. auto.
    + destruct (UT x y o' L) as (c & a & U1 & U2 & U3). exists (dflt o'), c, a. auto.
  - exists n, d, ins, qs, out. auto 12.
Qed.

Lemma find_split {A} (f : A -> bool) : forall l x, find f l = Some x -> exists pre post, l = pre ++ x :: post /\ f x = true /\ forall y, In y pre -> f y = false.
Proof.
  induction l as [|y l IH]; intros x H; [discriminate|]. cbn in H. destruct (f y) eqn:E.
  - injection H as <-. exists [], l. split; [reflexivity|]. split; [exact E|]. intros z [].
  - destruct (IH x H) as (pre & post & -> & F & G). exists (y :: pre), post. split; [reflexivity|]. split; [exact F|]. intros z [<-|I]; auto.
Qed.

(** ** Defaults *)

Lemma with_defaults_get {V} (d e : list (Z * V)) t : mget Z.eqb (with_defaults d e) t = match mget Z.eqb d t with Some v => Some v | None => mget Z.eqb e t end.
Proof.
  unfold with_defaults. assert (A : forall l m : list (Z * V), mget Z.eqb (l ++ m) t = match mget Z.eqb l t with Some v => Some v | None => mget Z.eqb m t end).
  { induction l as [|[j w] l IH]; intro m; cbn; [reflexivity|]. destruct (j =? t); [reflexivity|apply IH]. }
  rewrite A. destruct (mget Z.eqb d t) eqn:E; [reflexivity|]. induction e as [|[j w] e IH]; cbn; [reflexivity|].
  destruct (Z.eqb_spec j t) as [->|N]; [unfold mhas; rewrite E; cbn; rewrite Z.eqb_refl; reflexivity|].
  destruct (negb (mhas Z.eqb d j)); cbn; [destruct (Z.eqb_spec j t); [contradiction|]|]; exact IH.
Qed.
Lemma class_for_get cls t c : mget Z.eqb (with_defaults cls default_classes) t = Some c <-> class_for cls t c.
Proof.
  rewrite with_defaults_get. unfold class_for. destruct (mget Z.eqb cls t) as [v|]; [split; [intro H; injection H as ->; left; reflexivity|intros [H|[H _]]; congruence]|].
  unfold default_classes. cbn [mget]. destruct (Z.eqb_spec 0 t), (Z.eqb_spec 1 t), (Z.eqb_spec 2 t), (Z.eqb_spec 3 t), (Z.eqb_spec 4 t); subst; try lia;
    (split; [intro H; injection H as <-; right; split; [reflexivity|]; lia || (left; split; reflexivity) || (right; left; split; reflexivity) || (right; right; split; [lia|reflexivity])
            |intros [H|[_ H]]; [discriminate|destruct H as [[H ->]|[[H ->]|[H ->]]]; try lia; reflexivity]]) || idtac.
  split; [discriminate|]. intros [H|[_ H]]; [discriminate|]. lia.
Qed.
Lemma args_for_get cls args no_args t a : mget Z.eqb (complete_args (with_defaults cls default_classes) args no_args) t = Some a <-> args_for cls args no_args t a.
Proof.
  destruct args as [l|]; cbn [complete_args args_for].
  - rewrite with_defaults_get. destruct (mget Z.eqb l t) as [v|]; [split; [intro H; left; congruence|intros [H|[H _]]; congruence]|].
    assert (M : forall (d : list (Z * qclass)) x, mget Z.eqb (map (fun p => (fst p, no_args)) d) t = Some x <-> (exists c, mget Z.eqb d t = Some c) /\ x = no_args).
    { induction d as [|[j w] d IH]; intro x; cbn; [split; [discriminate|intros [[c H] _]; discriminate]|]. destruct (j =? t); [|apply IH]. split; [intro H; split; [eauto|congruence]|intros [_ ->]; reflexivity]. }
    rewrite M. split.
    + intros [(c & H) ->]. right. split; [reflexivity|]. split; [exists c; apply class_for_get; exact H|reflexivity].
    + intros [H|(_ & (c & H) & ->)]; [discriminate|]. split; [exists c; apply class_for_get; exact H|reflexivity].
  - cbn [map mget]. destruct (Z.eqb_spec 0 t), (Z.eqb_spec 1 t), (Z.eqb_spec 2 t), (Z.eqb_spec 3 t), (Z.eqb_spec 4 t); subst; try lia;
      (split; [intro H; injection H as <-; split; [lia|reflexivity]|intros [_ ->]; reflexivity]) || (split; [discriminate|intros [H _]; lia]).
Qed.
Lemma right_asked d cls args k q : right_queue d cls [] args k q -> exists u v t a, In ((u, v), k) (dg_index d) /\ edge (dg_g d) u v (Some t) /\
  mget Z.eqb cls t = Some (c_class (q_cfg q)) /\ mget Z.eqb args t = Some a /\ as_asked a k q.
Proof.
  intro H. destruct (right_cfg _ _ _ _ _ _ H) as (u & v & t & c & a & f & s & I & X & Cc & Ca & Ff & NS & Es & Eq). exists u, v, t, a. split; [exact I|]. split; [exact X|].
  rewrite Eq. cbn [q_cfg new_queue c_class]. split; [exact Cc|]. split; [exact Ca|]. unfold eff in Es.
  assert (Es' : ctor_ok (match qa_servers a with Some n => n | None => default_servers c end) = Ok s) by (destruct (qa_servers a) eqn:Q; rewrite Q in Es; exact Es). clear Es.
  split; cbn [q_cfg q_servers new_queue c_class c_max_servers c_arr c_srv c_factory c_active_cap c_deactive_t c_buffer q_collect q_net]; try reflexivity.
  - destruct c; try reflexivity; destruct (qa_servers a) as [[z| |]|]; cbn in Es'; try discriminate; try (injection Es' as <-; reflexivity); (destruct (z <=? 0); [discriminate|injection Es' as <-; reflexivity]).
  - intros ->. destruct s as [z|]; [cbn [double eadd]; f_equal; lia|reflexivity].
  - destruct (qa_factory a); [reflexivity|]. destruct c; reflexivity.
  - destruct (qa_buffer a); [reflexivity|]. destruct c; reflexivity.
  - intros ->. apply repeat_length.
Qed.
