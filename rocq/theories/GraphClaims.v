(** * GraphClaims: adjacency2graph *)
From Coq Require Import List ZArith Bool Arith Lia.
From Verif Require Import Base Dict UnionFind UnionFindProofs QueueEffects Graph SpecGraph GraphProofs.
Import ListNotations.
Open Scope Z_scope.

Lemma list_row (l : list nat) v (o : option Z) : In (v, o) (mof Nat.eqb (map (fun v => (v, None)) l)) <-> In v l /\ o = None.
Proof.
  assert (N := mof_nodup _ neq_eq (map (fun v : nat => (v, @None Z)) l)). rewrite (mg_in _ _ _ N).
  assert (C : forall k, In k l -> mg (mof Nat.eqb (map (fun v => (v, @None Z)) l)) k = Some None).
  { intros k I. apply (mof_const _ neq_eq); [intros p P; apply in_map_iff in P as (x & <- & _); reflexivity|]. rewrite map_map. cbn. rewrite map_id. exact I. }
  split.
  - intro E. assert (I : In v l).
    { assert (K : In v (mkeys (mof Nat.eqb (map (fun v => (v, @None Z)) l)))) by (apply ng_in; eauto). apply (proj1 (mof_keys _ neq_eq _ _)) in K. rewrite map_map in K. cbn in K. rewrite map_id in K. exact K. }
    split; [exact I|]. rewrite (C v I) in E. congruence.
  - intros [I ->]. apply C; exact I.
Qed.

Lemma to_adjacency_spec a : proper_in a -> exists d, to_adjacency a = Ok d /\ proper d /\
  (forall u v o, edge d u v o <-> listed a u v o) /\ (forall v, (vertex d v \/ exists u o, edge d u v o) <-> mentioned a v).
Proof.
  intro P. destruct a as [m|d|d|]; cbn [proper_in to_adjacency listed mentioned] in *; [| | |destruct P].
  - destruct (matrix_spec (fun _ => @None Z) m P) as (d & E & K & N & D). exists d. split; [exact E|].
    assert (EE : forall u v o, edge d u v o <-> o = None /\ (v < length m)%nat /\ exists r x, nth_error m u = Some r /\ nth_error r v = Some x /\ x <> 0).
    { intros u v o. unfold edge. rewrite D. split; [intros (A & r & x & B & C & F & G)|intros (G & A & r & x & B & C & F)]; eauto 10. }
    split; [split; [rewrite K; apply seq_NoDup|exact N]|]. split; [exact EE|].
    intro v. unfold vertex. rewrite K, in_seq. split; [|intro H; left; lia]. intros [H|(u & o & H)]; [lia|]. apply EE in H. tauto.
  - destruct P as [NE P]. exists d. split; [destruct d; [congruence|reflexivity]|]. split; [exact P|]. split; [reflexivity|reflexivity].
  - destruct P as [NE P]. exists (map (fun p => (fst p, mof Nat.eqb (map (fun v => (v, @None Z)) (snd p)))) d).
    split; [destruct d; [congruence|reflexivity]|].
    assert (EE : forall u v o, edge (map (fun p => (fst p, mof Nat.eqb (map (fun v => (v, @None Z)) (snd p)))) d) u v o <-> o = None /\ exists l, In (u, l) d /\ In v l).
    { intros u v o. split.
      - intros (r & I & J). apply in_map_iff in I as ((u0 & l) & Q & I). cbn in Q. injection Q as <- <-. apply list_row in J as [J ->]. eauto.
      - intros (-> & l & I & J). eexists. split; [apply in_map_iff; exists (u, l); split; [reflexivity|exact I]|]. cbn. apply list_row. auto. }
    split; [|split; [exact EE|]].
    + split; [rewrite map_map; cbn; exact P|]. intros u r I. apply in_map_iff in I as ((u0 & l) & Q & I). cbn in Q. injection Q as <- <-. apply (mof_nodup _ neq_eq).
    + intro v. unfold vertex. rewrite map_map. cbn [fst]. split.
      * intros [H|(u & o & H)]; [left; exact H|]. apply EE in H as (_ & l & I & J). right. eauto.
      * intros [H|(u & l & I & J)]; [left; exact H|]. right. exists u, None. apply EE. eauto.
Qed.

Lemma to_types_spec ty : proper_ty ty -> exists t, to_types ty = Ok t /\ NoDup (map fst (triples t)) /\
  forall u v x, In ((u, v), x) (triples t) <-> given ty u v x.
Proof.
  intro P. destruct ty as [|m|d]; cbn [proper_ty to_types given] in *.
  - exists []. split; [reflexivity|]. split; [constructor|]. intros; reflexivity.
  - destruct (matrix_spec (fun x => x) m P) as (d & E & K & N & D). exists d. split; [exact E|]. split; [apply triples_nodup; [rewrite K; apply seq_NoDup|exact N]|].
    intros u v x. rewrite triples_in, D. split; intros (A & r & H); split; auto.
    + destruct H as (y & B & C & F & ->). eauto.
    + destruct H as (B & C & F). exists r, x. auto.
  - destruct P as (NE & N & NR). exists d. split; [destruct d; [congruence|reflexivity]|]. split; [apply triples_nodup; assumption|]. intros. apply triples_in.
Qed.

(** The graph before it is adjusted. *)
Lemma raw_graph a ty : proper_in a -> proper_ty ty -> (forall u v t, given ty u v t -> exists o, listed a u v o) ->
  exists d t d1, to_adjacency a = Ok d /\ to_types ty = Ok t /\ put_types d t = Ok d1 /\
    proper (from_dod d1) /\ closed (from_dod d1) /\ (forall v, vertex (from_dod d1) v <-> mentioned a v) /\
    (forall u v x, edge (from_dod d1) u v x <-> exists o, listed a u v o /\ ((exists t, given ty u v t /\ x = Some t) \/ ((forall t, ~ given ty u v t) /\ x = o))) /\
    (forall u v, (exists x, edge (from_dod d1) u v x) <-> exists o, listed a u v o).
Proof.
  intros PA PT W. destruct (to_adjacency_spec a PA) as (d & Ed & Pd & EE & VV). destruct (to_types_spec ty PT) as (t & Et & Nt & GG).
  destruct (put_all_spec (triples t) d Pd Nt) as (d1 & E1 & P1 & K1 & G1).
  { intros u v x I. apply GG in I. destruct (W _ _ _ I) as (o & L). exists o. apply EE; exact L. }
  exists d, t, d1. rewrite put_types_flat. split; [exact Ed|]. split; [exact Et|]. split; [exact E1|].
  destruct (from_dod_ok d1 P1) as (P2 & C2 & V2 & E2). split; [exact P2|]. split; [exact C2|].
  assert (E3 : forall u v x, edge (from_dod d1) u v x <-> exists o, listed a u v o /\ ((exists t, given ty u v t /\ x = Some t) \/ ((forall t, ~ given ty u v t) /\ x = o))).
  { intros u v x. rewrite E2, G1. split.
    - intros [(z & I & ->)|[NO X]].
      + apply GG in I. destruct (W _ _ _ I) as (o & L). exists o. split; [exact L|]. left. eauto.
      + exists x. split; [apply EE; exact X|]. right. split; [|reflexivity]. intros z Z. apply (NO z). apply GG; exact Z.
    - intros (o & L & [(z & Z & ->)|[NO ->]]).
      + left. exists z. split; [apply GG; exact Z|reflexivity].
      + right. split; [intros z Z; apply (NO z); apply GG; exact Z|apply EE; exact L]. }
  assert (E4 : forall u v, (exists x, edge (from_dod d1) u v x) <-> exists o, listed a u v o).
  { intros u v. split; [intros (x & X); apply E3 in X as (o & L & _); eauto|]. intros (o & L).
    assert ((exists z, given ty u v z) \/ forall z, ~ given ty u v z) as [(z & Z)|NO].
    { destruct (in_dec (fun p q : nat * nat => ltac:(decide equality; apply Nat.eq_dec)) (u, v) (map fst (triples t))) as [I|I].
      - apply in_map_iff in I as (((x & y) & z) & Q & I). cbn in Q. injection Q as -> ->. left. exists z. apply GG; exact I.
      - right. intros z Z. apply I. apply in_map_iff. exists ((u, v), z). split; [reflexivity|]. apply GG; exact Z. }
    - exists (Some z). apply E3. eauto 6.
    - exists o. apply E3. eauto 6. }
  split; [|auto]. intro v. rewrite V2, <- VV. unfold vertex. rewrite K1. split; (intros [H|(u & o & H)]; [left; exact H|right]).
  - apply E2 in H. destruct (proj1 (E4 u v)) as (o' & L); [eauto|]. exists u, o'. apply EE; exact L.
  - apply EE in H. destruct (proj2 (E4 u v)) as (x & X); [eauto|]. exists u, x. apply E2; exact X.
Qed.

(** The type before adjustment, as in [kept]. *)
Lemma kept_typed ty o u v x : (exists a, ((exists t, given ty u v t /\ a = Some t) \/ ((forall t, ~ given ty u v t) /\ a = o)) /\ x = typed a) <->
  exists t, kept ty o u v t /\ x = Some t.
Proof.
  unfold kept. split.
  - intros (a & [(t & G & ->)|[N ->]] & ->); [exists t; auto|]. destruct o as [z|]; [exists z|exists 1]; auto.
  - intros (t & [G|[N H]] & ->); [exists (Some t); split; [left; eauto|reflexivity]|]. exists o. split; [right; auto|]. destruct o; subst; reflexivity.
Qed.

Lemma adjacency2graph_1 a ty adj : adj <> 2 -> proper_in a -> proper_ty ty -> (forall u v t, given ty u v t -> exists o, listed a u v o) ->
  exists g, adjacency2graph a ty adj = Ok g /\ proper g /\ closed g /\ (forall v, vertex g v <-> mentioned a v) /\
  forall u v x, edge g u v x <->
    (exists o t, listed a u v o /\ kept ty o u v t /\ x = Some t) \/ (u = v /\ x = Some 0 /\ mentioned a u /\ dead_end a u).
Proof.
  intros NA PA PT W. destruct (raw_graph a ty PA PT W) as (d & t & d1 & E1 & E2 & E3 & P & C & V & E & E4).
  unfold adjacency2graph. rewrite E1, E2. cbn [bind]. rewrite E3. cbn [bind]. eexists. split; [reflexivity|].
  destruct (adjust1_spec _ adj NA P C) as (P' & C' & K' & E'). cbv zeta. rewrite from_dod_id by assumption.
  split; [exact P'|]. split; [exact C'|]. split; [intro v; unfold vertex; rewrite K'; apply V|]. intros u v x. rewrite E'. split.
  - intros [(b & X & ->)|(-> & -> & VV & D)].
    + apply E in X as (o & L & H). left. exists o. destruct (proj1 (kept_typed ty o u v (typed b))) as (z & KZ & EZ); [eauto|]. exists z. auto.
    + right. split; [reflexivity|]. split; [reflexivity|]. split; [apply V; exact VV|]. intros w o L.
      destruct (proj2 (E4 v w)) as (b & B); [eauto|]. exact (D w b B).
  - intros [(o & t0 & L & KT & ->)|(-> & -> & M & D)].
    + left. destruct (proj2 (kept_typed ty o u v (Some t0))) as (b & H & EB); [eauto|]. exists b. split; [apply E; eauto|exact EB].
    + right. split; [reflexivity|]. split; [reflexivity|]. split; [apply V; exact M|]. intros w b B.
      destruct (proj1 (E4 v w)) as (o & L); [eauto|]. exact (D w o L).
Qed.

Lemma adjacency2graph_2 a ty : proper_in a -> proper_ty ty -> (forall u v t, given ty u v t -> exists o, listed a u v o) ->
  exists g, adjacency2graph a ty 2 = Ok g /\ proper g /\ closed g /\ (forall v, vertex g v <-> mentioned a v) /\
  forall u v x, edge g u v x <-> exists o, listed a u v o /\
    ((dead_end a v /\ x = Some 0) \/ (~ dead_end a v /\ exists t, kept ty o u v t /\ x = Some t)).
Proof.
  intros PA PT W. destruct (raw_graph a ty PA PT W) as (d & t & d1 & E1 & E2 & E3 & P & C & V & E & E4).
  unfold adjacency2graph. rewrite E1, E2. cbn [bind]. rewrite E3. cbn [bind]. eexists. split; [reflexivity|].
  destruct (adjust2_spec _ P C) as (P' & C' & K' & E'). cbv zeta. rewrite from_dod_id by assumption.
  split; [exact P'|]. split; [exact C'|]. split; [intro v; unfold vertex; rewrite K'; apply V|].
  assert (DE : forall v, dead_end a v <-> forall w b, ~ edge (from_dod d1) v w b).
  { intro v. split; intros D w o L.
    - destruct (proj1 (E4 v w)) as (o' & L'); [eauto|]. exact (D w o' L').
    - destruct (proj2 (E4 v w)) as (b & B); [eauto|]. exact (D w b B). }
  intros u v x. rewrite E'. split.
  - intros (b & X & H). assert (X' := X). apply E in X as (o & L & HB). exists o. split; [exact L|]. destruct H as [[D ->]|[(w & b' & B) ->]].
    + left. split; [apply (DE v); exact D|reflexivity].
    + right. split; [intro D; exact (proj1 (DE v) D w b' B)|]. apply kept_typed. eauto.
  - intros (o & L & [[D ->]|[ND (t0 & KT & ->)]]).
    + destruct (proj2 (E4 u v)) as (b & B); [eauto|]. exists b. split; [exact B|]. left. split; [apply (DE v); exact D|reflexivity].
    + destruct (proj2 (kept_typed ty o u v (Some t0))) as (b & H & EB); [eauto|]. exists b. assert (B : edge (from_dod d1) u v b) by (apply E; eauto).
      split; [exact B|]. right. split; [|exact EB]. assert (VB := C _ _ _ B). apply in_map_iff in VB as ((v' & r) & Q & I). cbn in Q. subst v'.
      destruct r as [|[w c] r]; [|exists w, c, ((w, c) :: r); split; [exact I|left; reflexivity]]. exfalso. apply ND, (proj2 (DE v)). apply (dead_row _ v [] P I). reflexivity.
Qed.

(** A type for a pair that is not listed raises KeyError. *)
Lemma adjacency2graph_bad a ty adj u v t : proper_in a -> proper_ty ty -> given ty u v t -> (forall o, ~ listed a u v o) ->
  adjacency2graph a ty adj = Err KeyError.
Proof.
  intros PA PT G N. destruct (to_adjacency_spec a PA) as (d & Ed & Pd & EE & VV). destruct (to_types_spec ty PT) as (l & Et & Nt & GG).
  unfold adjacency2graph. rewrite Ed, Et. cbn [bind]. rewrite put_types_flat, (put_all_bad _ _ Pd Nt); [reflexivity|].
  exists u, v, t. split; [apply GG; exact G|]. intros o X. apply (N o). apply EE; exact X.
Qed.

(** ** Round trips *)

Definition all_typed (g : graph) : Prop := forall u v a, edge g u v a -> a <> None.

Lemma rows_map (f : nat -> nat -> option Z -> option Z) (g : graph) : (forall u v a, edge g u v a -> f u v a = a) ->
  map (fun p => (fst p, map (fun e => (fst e, f (fst p) (fst e) (snd e))) (snd p))) g = g.
Proof.
  intro H. rewrite <- (map_id g) at 2. apply map_ext_in. intros [u r] I. cbn. f_equal. rewrite <- (map_id r) at 2. apply map_ext_in.
  intros [v a] J. cbn. f_equal. apply H. exists r. auto.
Qed.

Lemma round_trip_1 g adj : adj <> 2 -> g <> [] -> proper g -> closed g -> all_typed g -> (forall u, vertex g u -> exists v a, edge g u v a) ->
  adjacency2graph (ADicts (graph2dict g)) TNone adj = Ok g.
Proof.
  intros NA NE P C T O. unfold adjacency2graph, graph2dict. cbn [to_adjacency to_types put_types].
  replace (dict2dict g) with (Ok g) by (destruct g; [congruence|reflexivity]). cbn [bind put_types]. cbv zeta. rewrite (from_dod_id g P C).
  assert (E : adjacency_adjust g adj = g).
  { unfold adjacency_adjust. apply Z.eqb_neq in NA. rewrite NA. cbv zeta. unfold defaults.
    rewrite (rows_map (fun _ _ a => typed a)) by (intros u v a X; apply T in X; destruct a; [reflexivity|congruence]).
    rewrite <- (map_id g) at 2. apply map_ext_in. intros [u r] I. cbn. destruct r; [|reflexivity]. exfalso.
    destruct (O u) as (v & a & X); [apply in_map_iff; exists (u, []); auto|]. exact (proj1 (dead_row g u [] P I) eq_refl v a X). }
  rewrite E, (from_dod_id g P C). reflexivity.
Qed.

Lemma round_trip_2 g : g <> [] -> proper g -> closed g -> all_typed g -> (forall u v a, edge g u v a -> (forall w b, ~ edge g v w b) -> a = Some 0) ->
  adjacency2graph (ADicts (graph2dict g)) TNone 2 = Ok g.
Proof.
  intros NE P C T O. unfold adjacency2graph, graph2dict. cbn [to_adjacency to_types put_types].
  replace (dict2dict g) with (Ok g) by (destruct g; [congruence|reflexivity]). cbn [bind put_types]. cbv zeta. rewrite (from_dod_id g P C).
  assert (E : adjacency_adjust g 2 = g).
  { unfold adjacency_adjust. cbn [Z.eqb Pos.eqb]. cbv zeta. unfold defaults.
    rewrite (rows_map (fun _ _ a => typed a)) by (intros u v a X; apply T in X; destruct a; [reflexivity|congruence]).
    apply (rows_map (fun _ v a => if mem v (null_nodes g) then Some 0 else a)). intros u v a X. destruct (mem v (null_nodes g)) eqn:M; [|reflexivity].
    apply mem_in in M. apply nulls_spec in M as [_ M]; [|exact P]. symmetry. eapply O; eassumption. }
  rewrite E, (from_dod_id g P C). reflexivity.
Qed.

(** ** Nobody is stuck *)

Lemma adjust_edge g adj v w a : edge g v w a -> exists b, edge (adjacency_adjust g adj) v w b.
Proof.
  intros (r & I & J). unfold adjacency_adjust. cbv zeta. unfold defaults.
  destruct (adj =? 2); rewrite map_map; cbn [fst snd].
  - eexists. eexists. split.
    + apply in_map_iff. exists (v, r). split; [reflexivity|exact I].
    + cbn [snd]. rewrite map_map. cbn [fst snd]. apply in_map_iff. exists (w, a). split; [reflexivity|exact J].
  - exists (typed a). destruct r as [|e r]; [destruct J|]. eexists. split.
    + apply in_map_iff. exists (v, e :: r). split; [reflexivity|exact I].
    + cbn [snd map]. change ((fst e, typed (snd e)) :: map (fun e => (fst e, typed (snd e))) r) with (map (fun e : nat * option Z => (fst e, typed (snd e))) (e :: r)).
      apply in_map_iff. exists (w, a). split; [reflexivity|exact J].
Qed.

Lemma adjust1_out g adj v : adj <> 2 -> vertex (adjacency_adjust g adj) v -> exists w x, edge (adjacency_adjust g adj) v w x.
Proof.
  intros NA V. unfold adjacency_adjust in *. cbv zeta in *. apply Z.eqb_neq in NA. rewrite NA in *.
  unfold vertex in V. rewrite map_map in V. cbn [fst] in V. apply in_map_iff in V as ((v' & r) & Q & I). cbn [fst] in Q. subst v'.
  destruct r as [|[w x] r].
  - exists v, (Some 0). eexists. split; [apply in_map_iff; exists (v, []); split; [reflexivity|exact I]|]. cbn. auto.
  - exists w, x. eexists. split; [apply in_map_iff; exists (v, (w, x) :: r); split; [reflexivity|exact I]|]. cbn. auto.
Qed.

Lemma edge_dec g u v : proper g -> (exists o, edge g u v o) \/ (forall o, ~ edge g u v o).
Proof.
  intro P. destruct (mg g u) as [r|] eqn:A.
  - destruct (mg r v) as [o|] eqn:B; [left; exists o; apply edge_mg; eauto|right]. intros o X. apply edge_mg in X as (r' & A' & B'); [|exact P]. congruence.
  - right. intros o X. apply edge_mg in X as (r' & A' & B'); [|exact P]. congruence.
Qed.
Lemma put_all_dec : forall (l : list ((nat * nat) * Z)) g, proper g -> NoDup (map fst l) ->
  (forall u v t, In ((u, v), t) l -> exists o, edge g u v o) \/ (exists u v t, In ((u, v), t) l /\ forall o, ~ edge g u v o).
Proof.
  intros l g P _. induction l as [|[[u v] t] l IH]; [left; intros u v t []|].
  destruct (edge_dec g u v P) as [X|X]; [|right; exists u, v, t; cbn; auto].
  destruct IH as [IH|(x & y & z & I & H)]; [left|right; exists x, y, z; cbn; auto].
  intros x y z [Q|I]; [injection Q as <- <- <-; exact X|eauto].
Qed.

Lemma adjacency2graph_out a ty adj g : adj <> 2 -> proper_in a -> proper_ty ty -> adjacency2graph a ty adj = Ok g -> forall v, vertex g v -> exists w x, edge g v w x.
Proof.
  intros NA PA PT E v V. destruct (to_adjacency_spec a PA) as (d & Ed & Pd & EE & VV). destruct (to_types_spec ty PT) as (l & Et & Nt & GG).
  unfold adjacency2graph in E. rewrite Ed, Et in E. cbn [bind] in E. destruct (put_types d l) as [d1|] eqn:E1; [|discriminate]. cbn [bind] in E. cbv zeta in E. injection E as <-.
  assert (P1 : proper d1).
  { rewrite put_types_flat in E1. destruct (put_all_dec (triples l) d Pd Nt) as [W|W]; [|rewrite (put_all_bad _ _ Pd Nt W) in E1; discriminate].
    destruct (put_all_spec _ _ Pd Nt W) as (d2 & E2 & P2 & _). rewrite E2 in E1. injection E1 as <-. exact P2. }
  destruct (from_dod_ok d1 P1) as (P2 & C2 & _ & _). destruct (adjust1_spec _ adj NA P2 C2) as (P' & C' & K' & E').
  rewrite from_dod_id in * by assumption. eapply adjust1_out; eassumption.
Qed.

Lemma adjacency2graph_on a ty g : proper_in a -> proper_ty ty -> adjacency2graph a ty 2 = Ok g ->
  forall u v x, edge g u v x -> x <> Some 0 -> exists w y, edge g v w y.
Proof.
  intros PA PT E u v x X NX. destruct (to_adjacency_spec a PA) as (d & Ed & Pd & EE & VV). destruct (to_types_spec ty PT) as (l & Et & Nt & GG).
  unfold adjacency2graph in E. rewrite Ed, Et in E. cbn [bind] in E. destruct (put_types d l) as [d1|] eqn:E1; [|discriminate]. cbn [bind] in E. cbv zeta in E. injection E as <-.
  assert (P1 : proper d1).
  { rewrite put_types_flat in E1. destruct (put_all_dec (triples l) d Pd Nt) as [W|W]; [|rewrite (put_all_bad _ _ Pd Nt W) in E1; discriminate].
    destruct (put_all_spec _ _ Pd Nt W) as (d2 & E2 & P2 & _). rewrite E2 in E1. injection E1 as <-. exact P2. }
  destruct (from_dod_ok d1 P1) as (P2 & C2 & _ & _). destruct (adjust2_spec _ P2 C2) as (P' & C' & K' & E').
  rewrite from_dod_id in * by assumption. apply E' in X as (b & X & [[_ ->]|[(w & b' & B) ->]]); [congruence|].
  destruct (adjust_edge _ 2 _ _ _ B) as (y & Y). eauto.
Qed.
