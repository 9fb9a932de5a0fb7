(** * DrawProofs: properties, arrays and pictures *)
From Coq Require Import List ZArith QArith Bool Arith Lia.
From Verif Require Import Base Dict UnionFind UnionFindProofs Graph SpecGraph GraphProofs GraphClaims GraphNet GraphIndex Queue SpecQueue Network NetSteps SpecNet SpecBuild GraphBuild Colors PaintProofs Drawing.
Import ListNotations.
Open Scope Z_scope.

Lemma pn_eqb_eq x y : pn_eqb x y = true <-> x = y.
Proof.
  destruct x, y; cbn; split; intro H; try discriminate; try reflexivity.
  - apply Nat.eqb_eq in H. congruence.
  - injection H as ->. apply Nat.eqb_refl.
Qed.

(** ** Properties *)

Definition ae (s : gprops) (e : nat * nat) (p : pname) : option pval := mget pn_eqb (attrs_e s e) p.
Definition av (s : gprops) (v : nat) (p : pname) : option pval := mget pn_eqb (attrs_v s v) p.
Definition val (o : option pval) : pval := match o with Some x => x | None => VNone end.

Lemma ae_put_eq s e p x : ae (put_e e p x s) e p = Some x.
Proof. unfold ae, attrs_e, put_e. cbn [gp_ep]. rewrite (mget_put_eq _ peqb_eq). apply (mget_put_eq _ pn_eqb_eq). Qed.
Lemma ae_put_neq s e p x e' p' : (e', p') <> (e, p) -> ae (put_e e p x s) e' p' = ae s e' p'.
Proof.
  intro N. unfold ae. destruct (kq_dec _ peqb_eq e' e) as [->|E].
  - transitivity (mget pn_eqb (mput pn_eqb (attrs_e s e) p x) p').
    + f_equal. unfold attrs_e at 1, put_e. cbn [gp_ep]. rewrite (mget_put_eq _ peqb_eq). reflexivity.
    + apply (mget_put_neq _ pn_eqb_eq). congruence.
  - f_equal. unfold attrs_e, put_e. cbn [gp_ep]. rewrite (mget_put_neq _ peqb_eq) by congruence. reflexivity.
Qed.
Lemma av_put_e s e p x v p' : av (put_e e p x s) v p' = av s v p'.
Proof. reflexivity. Qed.
Lemma av_put_eq s v p x : av (put_v v p x s) v p = Some x.
Proof. unfold av, attrs_v, put_v. cbn [gp_vp]. rewrite (mget_put_eq _ neq_eq). apply (mget_put_eq _ pn_eqb_eq). Qed.
Lemma av_put_neq s v p x v' p' : (v', p') <> (v, p) -> av (put_v v p x s) v' p' = av s v' p'.
Proof.
  intro N. unfold av. destruct (Nat.eq_dec v' v) as [->|E].
  - transitivity (mget pn_eqb (mput pn_eqb (attrs_v s v) p x) p').
    + f_equal. unfold attrs_v at 1, put_v. cbn [gp_vp]. rewrite (mget_put_eq _ neq_eq). reflexivity.
    + apply (mget_put_neq _ pn_eqb_eq). congruence.
  - f_equal. unfold attrs_v, put_v. cbn [gp_vp]. rewrite (mget_put_neq _ neq_eq) by congruence. reflexivity.
Qed.
Lemma ae_put_v s v p x e p' : ae (put_v v p x s) e p' = ae s e p'.
Proof. reflexivity. Qed.
Lemma arr_put_e s e p x q : array_of q (put_e e p x s) = array_of q s.
Proof. destruct q; reflexivity. Qed.
Lemma arr_put_v s v p x q : array_of q (put_v v p x s) = array_of q s.
Proof. destruct q; reflexivity. Qed.
Lemma ae_put_array s p l e q : ae (put_array p l s) e q = ae s e q.
Proof. destruct p; reflexivity. Qed.
Lemma av_put_array s p l v q : av (put_array p l s) v q = av s v q.
Proof. destruct p; reflexivity. Qed.
Definition named (p : pname) : bool := match p with NName _ => true | _ => false end.
Lemma arr_put_array_eq s p l : named p = false -> array_of p (put_array p l s) = Some (Some l).
Proof. destruct p; try reflexivity. discriminate. Qed.
Lemma arr_put_array_neq s p l q : q <> p -> array_of q (put_array p l s) = array_of q s.
Proof. destruct p, q; try reflexivity; congruence. Qed.
Lemma pn_dec (p q : pname) : {p = q} + {p <> q}.
Proof. decide equality. apply Nat.eq_dec. Qed.

(** A row is written, or there is no array of that name. *)
Lemma write_row_inv p i x s s' : write_row p i x s = Ok s' ->
  (named p = true /\ s' = s) \/
  exists j l l', i = Ok j /\ array_of p s = Some (Some l) /\ set l j x = Some l' /\ s' = put_array p l' s /\ named p = false.
Proof.
  unfold write_row. destruct (array_of p s) as [o|] eqn:A.
  - destruct i as [j|]; [|discriminate]. cbn [bind]. destruct o as [l|]; [|discriminate]. destruct (set l j x) as [l'|] eqn:E; [|discriminate].
    cbn [of_option bind]. intro H. injection H as <-. right. exists j, l, l'. repeat split; auto. destruct p; [reflexivity..|discriminate].
  - intro H. injection H as <-. left. split; [|reflexivity]. destruct p; [discriminate..|reflexivity].
Qed.
Lemma write_row_ae p i x s s' e q : write_row p i x s = Ok s' -> ae s' e q = ae s e q.
Proof. intro H. apply write_row_inv in H as [(_ & ->)|(j & l & l' & _ & _ & _ & -> & _)]; [reflexivity|apply ae_put_array]. Qed.
Lemma write_row_av p i x s s' v q : write_row p i x s = Ok s' -> av s' v q = av s v q.
Proof. intro H. apply write_row_inv in H as [(_ & ->)|(j & l & l' & _ & _ & _ & -> & _)]; [reflexivity|apply av_put_array]. Qed.
Lemma write_row_arr p i x s s' q : write_row p i x s = Ok s' -> q <> p -> array_of q s' = array_of q s.
Proof. intros H N. apply write_row_inv in H as [(_ & ->)|(j & l & l' & _ & _ & _ & -> & _)]; [reflexivity|apply arr_put_array_neq; exact N]. Qed.

Lemma ep_read d e p s x : ep d e p s = Ok x -> x = val (ae s e p).
Proof. unfold ep, ae. destruct (ep_type d e); [|discriminate]. cbn [bind]. intro H. injection H as <-. reflexivity. Qed.
Lemma ep_same d e p s s' : ae s' e p = ae s e p -> ep d e p s' = ep d e p s.
Proof. unfold ep, ae. intro E. rewrite E. reflexivity. Qed.
Lemma vp_same d v p s s' : av s' v p = av s v p -> vp d v p s' = vp d v p s.
Proof. unfold vp, av. intro E. rewrite E. reflexivity. Qed.
Lemma vp_read d v p s x : vp d v p s = Ok x -> vertex (dg_g d) v /\ x = val (av s v p).
Proof.
  unfold vp, av. destruct (mhas Nat.eqb (dg_g d) v) eqn:M; [|discriminate]. intro H. injection H as <-. split; [|reflexivity].
  apply (mhas_in _ neq_eq). exact M.
Qed.
Lemma vp_ok d v p s : vertex (dg_g d) v -> vp d v p s = Ok (val (av s v p)).
Proof. intro V. unfold vp. apply (mhas_in _ neq_eq) in V. rewrite V. reflexivity. Qed.
Lemma ep_ok d u v p s : dwf d -> arc (dg_g d) u v -> ep d (u, v) p s = Ok (val (ae s (u, v) p)).
Proof. intros W (a & A). unfold ep. rewrite (ep_type_ok d u v a W A). reflexivity. Qed.

Lemma set_ep_inv d e p x s s' : set_ep d e p x s = Ok s' -> (exists a, ep_type d e = Ok a) /\ write_row p (index_of d e) x (put_e e p x s) = Ok s'.
Proof. unfold set_ep. destruct (ep_type d e) as [a|]; [|discriminate]. cbn [bind]. eauto. Qed.
Lemma set_vp_inv d v p x s s' : set_vp d v p x s = Ok s' -> vertex (dg_g d) v /\ write_row p (Ok v) x (put_v v p x s) = Ok s'.
Proof. unfold set_vp. destruct (mhas Nat.eqb (dg_g d) v) eqn:M; [|discriminate]. intro H. split; [apply (mhas_in _ neq_eq); exact M|exact H]. Qed.

Lemma set_ep_reads d e p x s s' : set_ep d e p x s = Ok s' ->
  ep d e p s' = Ok x /\ (forall e' p', (e', p') <> (e, p) -> ep d e' p' s' = ep d e' p' s) /\ (forall v p', vp d v p' s' = vp d v p' s) /\
  forall q, q <> p -> array_of q s' = array_of q s.
Proof.
  intro H. apply set_ep_inv in H as ((a & T) & H). split; [|split; [|split]].
  - unfold ep. rewrite T. cbn [bind]. change (Ok (val (ae s' e p)) = Ok x). rewrite (write_row_ae _ _ _ _ _ _ _ H), ae_put_eq. reflexivity.
  - intros e' p' N. apply ep_same. rewrite (write_row_ae _ _ _ _ _ _ _ H). apply ae_put_neq. exact N.
  - intros v p'. apply vp_same. rewrite (write_row_av _ _ _ _ _ _ _ H). reflexivity.
  - intros q N. rewrite (write_row_arr _ _ _ _ _ _ H N). apply arr_put_e.
Qed.
Lemma set_vp_reads d v p x s s' : set_vp d v p x s = Ok s' ->
  vp d v p s' = Ok x /\ (forall v' p', (v', p') <> (v, p) -> vp d v' p' s' = vp d v' p' s) /\ (forall e p', ep d e p' s' = ep d e p' s) /\
  forall q, q <> p -> array_of q s' = array_of q s.
Proof.
  intro H. apply set_vp_inv in H as (V & H). split; [|split; [|split]].
  - rewrite vp_ok by exact V. rewrite (write_row_av _ _ _ _ _ _ _ H), av_put_eq. reflexivity.
  - intros v' p' N. apply vp_same. rewrite (write_row_av _ _ _ _ _ _ _ H). apply av_put_neq. exact N.
  - intros e p'. apply ep_same. rewrite (write_row_ae _ _ _ _ _ _ _ H). reflexivity.
  - intros q N. rewrite (write_row_arr _ _ _ _ _ _ H N). apply arr_put_v.
Qed.

(** ** New properties *)

Lemma fold_put_v p vs : forall s, let s' := fold_left (fun s v => put_v v p VNone s) vs s in
  (forall e q, ae s' e q = ae s e q) /\ (forall q, array_of q s' = array_of q s) /\
  (forall v q, q <> p \/ ~ In v vs -> av s' v q = av s v q) /\ (forall v, In v vs -> av s' v p = Some VNone).
Proof.
  induction vs as [|w vs IH]; intro s; cbn [fold_left]; cbv zeta in *.
  - repeat split; auto. intros v [].
  - destruct (IH (put_v w p VNone s)) as (A & B & C & D). repeat split.
    + intros e q. rewrite A. reflexivity.
    + intro q. rewrite B. apply arr_put_v.
    + intros v q O. rewrite C; [apply av_put_neq|]; destruct O as [O|O]; try congruence; [intro X; apply O; left; congruence|left; exact O|right; intro X; apply O; right; exact X].
    + intros v I. destruct (in_dec Nat.eq_dec v vs) as [J|J]; [apply D; exact J|].
      destruct I as [->|I]; [|contradiction]. rewrite C by (right; exact J). apply av_put_eq.
Qed.
Lemma fold_put_e p es : forall s, let s' := fold_left (fun s e => put_e e p VNone s) es s in
  (forall v q, av s' v q = av s v q) /\ (forall q, array_of q s' = array_of q s) /\
  (forall e q, q <> p \/ ~ In e es -> ae s' e q = ae s e q) /\ (forall e, In e es -> ae s' e p = Some VNone).
Proof.
  assert (DEC : forall a b : nat * nat, {a = b} + {a <> b}) by (decide equality; apply Nat.eq_dec).
  induction es as [|w es IH]; intro s; cbn [fold_left]; cbv zeta in *.
  - repeat split; auto. intros v [].
  - destruct (IH (put_e w p VNone s)) as (A & B & C & D). repeat split.
    + intros e q. rewrite A. reflexivity.
    + intro q. rewrite B. apply arr_put_e.
    + intros e q O. rewrite C; [apply ae_put_neq|]; destruct O as [O|O]; try congruence; [intro X; apply O; left; congruence|left; exact O|right; intro X; apply O; right; exact X].
    + intros e I. destruct (in_dec DEC e es) as [J|J]; [apply D; exact J|].
      destruct I as [->|I]; [|contradiction]. rewrite C by (right; exact J). apply ae_put_eq.
Qed.

Definition made_v (p : pname) : bool := match p with NVertexColor | NFillColor => true | _ => false end.
Definition made_e (p : pname) : bool := match p with NEdgeColor => true | _ => false end.
Lemma new_v_ok d p s : let s' := new_vertex_property d p s in
  (forall e q, ae s' e q = ae s e q) /\ (forall v q, q <> p \/ ~ vertex (dg_g d) v -> av s' v q = av s v q) /\
  (forall v, vertex (dg_g d) v -> av s' v p = Some VNone) /\
  (forall q, q <> p \/ made_v p = false -> array_of q s' = array_of q s) /\
  (made_v p = true -> array_of p s' = Some (Some (repeat (zeros 1) (length (g_nodes (dg_g d)))))).
Proof.
  cbv zeta. unfold new_vertex_property. destruct (fold_put_v p (g_nodes (dg_g d)) s) as (A & B & C & D). set (s1 := fold_left _ _ _) in *.
  destruct p; cbn [made_v] in *; (split; [|split; [|split; [|split]]]); try discriminate;
    try (intros; rewrite ?ae_put_array, ?av_put_array; first [apply A|apply C; assumption|apply D; assumption|reflexivity]);
    try (intros q _; apply B); intros q [N|N]; try discriminate; rewrite arr_put_array_neq by exact N; apply B.
Qed.
Lemma new_e_ok d p s : let s' := new_edge_property d p s in
  (forall v q, av s' v q = av s v q) /\ (forall e q, q <> p \/ ~ In e (g_edges (dg_g d)) -> ae s' e q = ae s e q) /\
  (forall e, In e (g_edges (dg_g d)) -> ae s' e p = Some VNone) /\
  (forall q, q <> p \/ made_e p = false -> array_of q s' = array_of q s) /\
  (made_e p = true -> array_of p s' = Some (Some (repeat (zeros 4) (length (g_edges (dg_g d)))))).
Proof.
  cbv zeta. unfold new_edge_property. destruct (fold_put_e p (g_edges (dg_g d)) s) as (A & B & C & D). set (s1 := fold_left _ _ _) in *.
  destruct p; cbn [made_e] in *; (split; [|split; [|split; [|split]]]); try discriminate;
    try (intros; rewrite ?ae_put_array, ?av_put_array; first [apply A|apply C; assumption|apply D; assumption|reflexivity]);
    try (intros q _; apply B); intros q [N|N]; try discriminate; rewrite arr_put_array_neq by exact N; apply B.
Qed.

(** ** Positions *)

Lemma in_node_order_ok pos : forall vs, (forall v, In v vs -> exists x, mget Nat.eqb pos v = Some x) ->
  exists l, in_node_order pos vs = Ok l /\ Forall2 (fun v x => mget Nat.eqb pos v = Some x) vs l.
Proof.
  induction vs as [|v vs IH]; intro H; cbn [in_node_order]; [exists []; auto|].
  destruct (H v) as (x & E); [left; reflexivity|]. destruct IH as (l & El & F); [intros w I; apply H; right; exact I|].
  rewrite E, El. cbn [of_option bind]. exists (x :: l). auto.
Qed.
Lemma in_node_order_inv pos : forall vs l, in_node_order pos vs = Ok l -> Forall2 (fun v x => mget Nat.eqb pos v = Some x) vs l.
Proof.
  induction vs as [|v vs IH]; intros l H; cbn [in_node_order] in H; [injection H as <-; constructor|].
  destruct (mget Nat.eqb pos v) as [x|] eqn:E; [|discriminate]. cbn [of_option bind] in H.
  destruct (in_node_order pos vs) as [l0|] eqn:E0; [|discriminate]. cbn [bind] in H. injection H as <-. auto.
Qed.
Lemma in_node_order_err pos vs v : In v vs -> mget Nat.eqb pos v = None -> in_node_order pos vs = Err KeyError.
Proof.
  intros I N. induction vs as [|w vs IH]; [destruct I|]. cbn [in_node_order]. destruct (mget Nat.eqb pos w) as [x|] eqn:E; [|reflexivity].
  cbn [of_option bind]. destruct I as [->|I]; [congruence|]. rewrite IH by exact I. reflexivity.
Qed.
Lemma Forall2_nth {A B} (R : A -> B -> Prop) l l' i x y : Forall2 R l l' -> nth_error l i = Some x -> nth_error l' i = Some y -> R x y.
Proof.
  intro F. revert i. induction F as [|a b l l' R0 F IH]; intros i X Y; destruct i as [|i]; try discriminate; cbn in X, Y; [congruence|eauto].
Qed.
Lemma Forall2_len {A B} (R : A -> B -> Prop) l l' : Forall2 R l l' -> length l = length l'.
Proof. induction 1; cbn; congruence. Qed.

Lemma fold_pos d pos : NoDup (map fst pos) -> forall s,
  let s' := fold_left (fun s e => if mhas Nat.eqb (dg_g d) (fst e) then put_v (fst e) NPos (snd e) s else s) pos s in
  (forall e q, ae s' e q = ae s e q) /\ (forall q, array_of q s' = array_of q s) /\
  (forall v q, q <> NPos -> av s' v q = av s v q) /\
  (forall v, vertex (dg_g d) v -> av s' v NPos = match mget Nat.eqb pos v with Some x => Some x | None => av s v NPos end) /\
  (forall v, ~ vertex (dg_g d) v -> av s' v NPos = av s v NPos).
Proof.
  induction pos as [|[w x] pos IH]; intros N s; cbn [fold_left fst snd]; cbv zeta in *; [repeat split; auto|].
  apply NoDup_cons_iff in N as (NI & N). specialize (IH N (if mhas Nat.eqb (dg_g d) w then put_v w NPos x s else s)).
  destruct IH as (A & B & C & D & E).
  assert (MN : mget Nat.eqb pos w = None) by (apply (mget_none _ neq_eq); exact NI).
  split; [|split; [|split; [|split]]].
  - intros e q. rewrite A. destruct (mhas Nat.eqb (dg_g d) w); reflexivity.
  - intros q. rewrite B. destruct (mhas Nat.eqb (dg_g d) w); [apply arr_put_v|reflexivity].
  - intros v q Q. rewrite C by exact Q. destruct (mhas Nat.eqb (dg_g d) w); [apply av_put_neq; congruence|reflexivity].
  - intros v V. rewrite D by exact V. cbn [mget]. destruct (Nat.eqb w v) eqn:Q.
    + apply Nat.eqb_eq in Q. subst w. rewrite MN. assert (M : mhas Nat.eqb (dg_g d) v = true) by (apply (mhas_in _ neq_eq); exact V). rewrite M. apply av_put_eq.
    + apply Nat.eqb_neq in Q. destruct (mget Nat.eqb pos v); [reflexivity|]. destruct (mhas Nat.eqb (dg_g d) w); [apply av_put_neq; congruence|reflexivity].
  - intros v V. rewrite E by exact V. destruct (mhas Nat.eqb (dg_g d) w) eqn:M; [|reflexivity]. apply av_put_neq. intro X. injection X as ->. apply V.
    apply (mhas_in _ neq_eq). exact M.
Qed.

(** The dictionary [pos] has a position for every vertex. *)
Definition covers (d : dgraph) (pos : list (nat * pval)) (P : nat -> pval) : Prop :=
  NoDup (map fst pos) /\ forall v, vertex (dg_g d) v -> In (v, P v) pos.
Lemma covers_get d pos P v : covers d pos P -> vertex (dg_g d) v -> mget Nat.eqb pos v = Some (P v).
Proof. intros (N & H) V. apply (mget_nodup _ neq_eq); [exact N|apply H; exact V]. Qed.

Lemma set_pos_ok d pos P s : covers d pos P -> exists s' l, set_pos d pos s = Ok s' /\ array_of NPos s' = Some (Some l) /\
  Forall2 (fun v x => x = P v) (g_nodes (dg_g d)) l /\
  (forall e q, ae s' e q = ae s e q) /\ (forall q, q <> NPos -> array_of q s' = array_of q s) /\
  (forall v q, q <> NPos -> av s' v q = av s v q) /\ (forall v, vertex (dg_g d) v -> av s' v NPos = Some (P v)).
Proof.
  intro CV. destruct (in_node_order_ok pos (g_nodes (dg_g d))) as (l & E & F).
  { intros v I. exists (P v). apply (covers_get d); assumption. }
  unfold set_pos. rewrite E. cbn [bind]. destruct (fold_pos d pos (proj1 CV) s) as (A & B & C & D & _). set (s1 := fold_left _ _ _) in *.
  exists (put_array NPos l s1), l. split; [reflexivity|]. split; [reflexivity|]. split.
  { assert (SUB : forall v, In v (g_nodes (dg_g d)) -> vertex (dg_g d) v) by auto. revert SUB. clear - F CV. induction F as [|v x vs l E F IH]; intro SUB; constructor.
    - rewrite (covers_get d pos P v CV) in E by (apply SUB; left; reflexivity). congruence.
    - apply IH. intros w I. apply SUB. right. exact I. }
  split; [exact A|]. split; [|split].
  - intros q N. rewrite arr_put_array_neq by exact N. apply B.
  - intros v q N. rewrite av_put_array. apply C. exact N.
  - intros v V. rewrite av_put_array, D by exact V. rewrite (covers_get d pos P v CV V). reflexivity.
Qed.
Lemma set_pos_err d pos v s : vertex (dg_g d) v -> ~ In v (map fst pos) -> set_pos d pos s = Err KeyError.
Proof. intros V N. unfold set_pos. rewrite (in_node_order_err pos _ v); [reflexivity|exact V|]. apply (mget_none _ neq_eq). exact N. Qed.

(** ** The picture *)

Lemma put_segments_ok d arr : dwf d -> (forall v, vertex (dg_g d) v -> (v < length arr)%nat) -> forall es acc,
  NoDup es -> (forall e, In e es -> In e (g_edges (dg_g d))) -> length acc = dg_next d ->
  exists segs, put_segments d arr es acc = Ok segs /\ length segs = dg_next d /\
    (forall u v k, In (u, v) es -> In ((u, v), k) (dg_index d) -> exists a b, get arr u = Some a /\ get arr v = Some b /\ get segs k = Some (a, b)) /\
    (forall e k, In (e, k) (dg_index d) -> ~ In e es -> get segs k = get acc k).
Proof.
  intros W SM. induction es as [|[u v] es IH]; intros acc ND SUB L; cbn [put_segments].
  - exists acc. split; [reflexivity|]. split; [exact L|]. split; [intros u v k []|auto].
  - apply NoDup_cons_iff in ND as (NI & ND).
    assert (A : arc (dg_g d) u v) by (apply g_edges_in; apply SUB; left; reflexivity).
    destruct (arc_index d u v W A) as (k & I & Lk). rewrite (index_of_ok d _ _ W I). cbn [bind fst snd].
    assert (Vu : vertex (dg_g d) u) by (destruct A as (x & r & R & _); apply in_map_iff; exists (u, r); auto).
    assert (Vv : vertex (dg_g d) v) by (destruct A as (x & R); apply (dw_closed _ W) in R; exact R).
    destruct (get_ex arr u (SM u Vu)) as (a & Ea). destruct (get_ex arr v (SM v Vv)) as (b & Eb). rewrite Ea, Eb. cbn [of_option bind].
    rewrite set_upd by lia. cbn [of_option bind].
    destruct (IH (upd acc k (a, b))) as (segs & E & Ls & S1 & S2); [exact ND|intros e Ie; apply SUB; right; exact Ie|rewrite upd_length; exact L|].
    exists segs. split; [exact E|]. split; [exact Ls|].
    assert (INJ := nb_inj _ _ (dwf_numbering d W)). assert (FUN := nb_fun _ _ (dwf_numbering d W)). split.
    + intros u' v' k' [Q|J] I'; [|apply S1; assumption]. injection Q as <- <-. assert (k' = k) by (eapply FUN; eassumption). subst k'.
      exists a, b. split; [exact Ea|]. split; [exact Eb|]. rewrite (S2 _ _ I NI). apply get_upd_eq. lia.
    + intros e' k' I' NE. rewrite (S2 _ _ I') by (intro X; apply NE; right; exact X). apply get_upd_neq. intros <-. apply NE. left.
      destruct e' as [x y]. assert (X := INJ _ _ _ I I'). congruence.
Qed.

Definition labels_small (d : dgraph) : Prop := forall v, vertex (dg_g d) v -> (v < length (g_nodes (dg_g d)))%nat.
Lemma picture_ok d arr s : dwf d -> labels_small d -> gp_pos s = Some arr -> length arr = length (g_nodes (dg_g d)) -> forall layout,
  exists segs, lines_scatter_args d layout None s = Ok (mkPicture segs (gp_ecol s) arr (gp_fill s) (gp_vcol s), s) /\ length segs = length (g_edges (dg_g d)) /\
    forall u v k, In ((u, v), k) (dg_index d) -> exists a b, get arr u = Some a /\ get arr v = Some b /\ get segs k = Some (a, b).
Proof.
  intros W SM E L layout. unfold lines_scatter_args. rewrite E. cbn [bind]. rewrite E. cbn [of_option bind].
  destruct (put_segments_ok d arr W) with (es := g_edges (dg_g d)) (acc := repeat (VNone, VNone) (length (g_edges (dg_g d)))) as (segs & S & Ls & S1 & _).
  - intros v V. rewrite L. apply SM. exact V.
  - apply g_edges_nodup. apply W.
  - auto.
  - rewrite repeat_length. apply W.
  - rewrite S. cbn [bind]. exists segs. split; [reflexivity|]. split; [rewrite Ls; symmetry; apply W|].
    intros u v k I. apply S1; [|exact I]. apply g_edges_in. eapply index_arc; eassumption.
Qed.
Lemma picture_with d pos s layout : lines_scatter_args d layout (Some pos) s = let* s' := set_pos d pos s in lines_scatter_args d layout None s'.
Proof.
  unfold lines_scatter_args. destruct (set_pos d pos s) as [s'|] eqn:E; [|reflexivity]. cbn [bind].
  assert (X : exists l, gp_pos s' = Some l).
  { unfold set_pos in E. destruct (in_node_order pos (g_nodes (dg_g d))) as [l|]; [|discriminate]. cbn [bind] in E. injection E as <-. exists l. reflexivity. }
  destruct X as (l & X). rewrite X. cbn [bind]. rewrite X. reflexivity.
Qed.
Lemma picture_first d s layout : gp_pos s = None -> lines_scatter_args d layout None s = lines_scatter_args d layout (Some layout) s.
Proof. intro E. unfold lines_scatter_args. rewrite E. reflexivity. Qed.

(** ** Arrays and properties agree *)

(** Row [k] of the array belongs to an edge or vertex that shows [x]. *)
Definition rows_tied (o : option (option (list pval))) (n : nat) (shows : nat -> pval -> Prop) : Prop :=
  forall l, o = Some (Some l) -> length l = n /\ forall k x, shows k x -> x = VNone \/ get l k = Some x.
Definition edge_row (d : dgraph) (s : gprops) (p : pname) (k : nat) (x : pval) : Prop := exists e, In (e, k) (dg_index d) /\ ep d e p s = Ok x.
Definition vertex_row (d : dgraph) (s : gprops) (p : pname) (v : nat) (x : pval) : Prop := vp d v p s = Ok x.
(** [g.nodes()] gives 0, 1, 2, ... *)
Definition nodes_in_order (d : dgraph) : Prop := g_nodes (dg_g d) = seq 0 (length (g_nodes (dg_g d))).
Record tied (d : dgraph) (s : gprops) : Prop := mkTied {
  ti_edge : rows_tied (array_of NEdgeColor s) (length (g_edges (dg_g d))) (edge_row d s NEdgeColor);
  ti_vertex : rows_tied (array_of NVertexColor s) (length (g_nodes (dg_g d))) (vertex_row d s NVertexColor);
  ti_fill : rows_tied (array_of NFillColor s) (length (g_nodes (dg_g d))) (vertex_row d s NFillColor);
  ti_pos : nodes_in_order d -> rows_tied (array_of NPos s) (length (g_nodes (dg_g d))) (vertex_row d s NPos)
}.

Lemma rows_same o o' n (sh sh' : nat -> pval -> Prop) : rows_tied o n sh -> o' = o -> (forall k x, sh' k x -> sh k x \/ x = VNone) -> rows_tied o' n sh'.
Proof. intros T -> H l E. destruct (T l E) as (L & R). split; [exact L|]. intros k x S. destruct (H k x S) as [S'| ->]; [apply R; exact S'|left; reflexivity]. Qed.
Lemma rows_set o n (sh : nat -> pval -> Prop) l j l' x (sh' : nat -> pval -> Prop) : rows_tied o n sh -> o = Some (Some l) -> set l j x = Some l' ->
  (forall y, sh' j y -> y = x) -> (forall k y, k <> j -> sh' k y -> sh k y) -> rows_tied (Some (Some l')) n sh'.
Proof.
  intros T E S H1 H2 l0 Q. injection Q as <-. destruct (T l E) as (L & R). assert (S0 := S). apply Base.set_Some in S0 as (Lj & ->).
  split; [rewrite upd_length; exact L|]. intros k y Y. destruct (Nat.eq_dec k j) as [->|N].
  - right. rewrite get_upd_eq by exact Lj. f_equal. symmetry. apply H1. exact Y.
  - rewrite get_upd_neq by congruence. apply R. apply H2; assumption.
Qed.

(** Names an edge, or a vertex, may set: all but those of the other kind. *)
Definition for_edge (p : pname) : Prop := p <> NPos /\ p <> NVertexColor /\ p <> NFillColor.
Definition for_vertex (p : pname) : Prop := p <> NEdgeColor.

Lemma set_ep_tied d e p x s s' : dwf d -> for_edge p -> tied d s -> set_ep d e p x s = Ok s' -> tied d s'.
Proof.
  intros W (N1 & N2 & N3) T H. destruct (set_ep_reads _ _ _ _ _ _ H) as (R1 & R2 & R3 & R4). apply set_ep_inv in H as (_ & H).
  assert (VS : forall q, q <> p -> forall n, rows_tied (array_of q s) n (vertex_row d s q) -> rows_tied (array_of q s') n (vertex_row d s' q)).
  { intros q NQ n Q. apply (rows_same _ _ _ _ _ Q); [apply R4; exact NQ|]. intros k y Y. left. unfold vertex_row in *. rewrite R3 in Y. exact Y. }
  destruct T as [T1 T2 T3 T4]. split; [|apply VS; auto|apply VS; auto|intro IO; apply VS; auto].
  destruct (pn_dec p NEdgeColor) as [->|NE].
  - apply write_row_inv in H as [(D & _)|(j & l & l' & I & A & SE & -> & _)]; [discriminate|]. rewrite arr_put_e in A.
    rewrite arr_put_array_eq by reflexivity. apply (rows_set _ _ _ _ _ _ _ _ T1 A SE).
    + intros y (e' & I' & Y). assert (INJ := nb_inj _ _ (dwf_numbering d W)). unfold index_of in I. destruct (mget peqb (dg_index d) e) as [j'|] eqn:G; [|discriminate].
      injection I as ->. apply (mget_In _ peqb_eq) in G. assert (e' = e) by (destruct e as [a b], e' as [a' b']; eapply INJ; eassumption). subst e'. congruence.
    + intros k y N (e' & I' & Y). exists e'. split; [exact I'|]. rewrite R2 in Y; [exact Y|]. intro Q. injection Q as ->.
      apply N. rewrite (index_of_ok d _ _ W I') in I. congruence.
  - apply (rows_same _ _ _ _ _ T1); [apply R4; congruence|]. intros k y (e' & I' & Y). left. exists e'. split; [exact I'|]. rewrite R2 in Y by congruence. exact Y.
Qed.

Lemma rows_set_v d v x s s' n p : write_row p (Ok v) x (put_v v p x s) = Ok s' -> named p = false -> vp d v p s' = Ok x ->
  (forall v' p', (v', p') <> (v, p) -> vp d v' p' s' = vp d v' p' s) -> rows_tied (array_of p s) n (vertex_row d s p) -> rows_tied (array_of p s') n (vertex_row d s' p).
Proof.
  intros H NM R1 R2 T. apply write_row_inv in H as [(D & _)|(j & l & l' & I & A & SE & -> & _)]; [congruence|]. injection I as <-. rewrite arr_put_v in A.
  rewrite arr_put_array_eq by exact NM. apply (rows_set _ _ _ _ _ _ _ _ T A SE).
  - intros y Y. unfold vertex_row in Y. congruence.
  - intros k y N Y. unfold vertex_row in *. rewrite R2 in Y by congruence. exact Y.
Qed.
Lemma set_vp_tied d v p x s s' : for_vertex p -> tied d s -> set_vp d v p x s = Ok s' -> tied d s'.
Proof.
  intros N1 T H. destruct (set_vp_reads _ _ _ _ _ _ H) as (R1 & R2 & R3 & R4). apply set_vp_inv in H as (V & H).
  assert (VS : forall q n, named q = false -> rows_tied (array_of q s) n (vertex_row d s q) -> rows_tied (array_of q s') n (vertex_row d s' q)).
  { intros q n NM Q. destruct (pn_dec q p) as [->|NQ]; [apply (rows_set_v d v x s s' n p H NM R1 R2 Q)|].
    apply (rows_same _ _ _ _ _ Q); [apply R4; exact NQ|]. intros k y Y. left. unfold vertex_row in *. rewrite R2 in Y by congruence. exact Y. }
  destruct T as [T1 T2 T3 T4]. split; [|apply VS; auto|apply VS; auto|intro IO; apply VS; auto].
  apply (rows_same _ _ _ _ _ T1); [apply R4; unfold for_vertex in N1; congruence|]. intros k y (e' & I' & Y). left. exists e'. split; [exact I'|]. rewrite R3 in Y. exact Y.
Qed.

Lemma row_none d s s' q : (forall v, vertex (dg_g d) v -> av s' v q = av s v q \/ av s' v q = Some VNone) ->
  forall k x, vertex_row d s' q k x -> vertex_row d s q k x \/ x = VNone.
Proof.
  intros H k x Y. unfold vertex_row in *. apply vp_read in Y as (V & ->). destruct (H k V) as [E|E]; rewrite E; [left; apply vp_ok; exact V|right; reflexivity].
Qed.
Lemma erow_none d s s' q : dwf d -> (forall e, In e (g_edges (dg_g d)) -> ae s' e q = ae s e q \/ ae s' e q = Some VNone) ->
  forall k x, edge_row d s' q k x -> edge_row d s q k x \/ x = VNone.
Proof.
  intros W H k x ([a b] & I & Y). assert (A := index_arc _ _ _ _ W I). apply ep_read in Y. subst x.
  destruct (H (a, b)) as [E|E]; [apply g_edges_in; exact A| |]; rewrite E; [left; exists (a, b); split; [exact I|apply ep_ok; assumption]|right; reflexivity].
Qed.
Lemma rows_repeat n z (sh : nat -> pval -> Prop) : (forall k x, sh k x -> x = VNone) -> rows_tied (Some (Some (repeat z n))) n sh.
Proof. intros H l E. injection E as <-. split; [apply repeat_length|]. intros k x S. left. eauto. Qed.

Lemma new_v_tied d p s : dwf d -> tied d s -> tied d (new_vertex_property d p s).
Proof.
  intros W [T1 T2 T3 T4]. destruct (new_v_ok d p s) as (A & B & C & D & E). set (s' := new_vertex_property d p s) in *.
  assert (VS : forall q, rows_tied (array_of q s) (length (g_nodes (dg_g d))) (vertex_row d s q) -> rows_tied (array_of q s') (length (g_nodes (dg_g d))) (vertex_row d s' q)).
  { intros q Q. destruct (pn_dec q p) as [->|NQ].
    - destruct (made_v p) eqn:M.
      + rewrite E by reflexivity. apply rows_repeat. intros k x Y. apply vp_read in Y as (V & ->). rewrite C by exact V. reflexivity.
      + apply (rows_same _ _ _ _ _ Q); [apply D; auto|]. apply row_none. intros v V. right. apply C. exact V.
    - apply (rows_same _ _ _ _ _ Q); [apply D; auto|]. apply row_none. intros v V. left. apply B. auto. }
  split; [|apply VS; auto|apply VS; auto|intro IO; apply VS; auto].
  apply (rows_same _ _ _ _ _ T1); [apply D; destruct p; auto; left; discriminate|]. apply erow_none; [exact W|]. intros e I. left. apply A.
Qed.
Lemma new_e_tied d p s : dwf d -> tied d s -> tied d (new_edge_property d p s).
Proof.
  intros W [T1 T2 T3 T4]. destruct (new_e_ok d p s) as (A & B & C & D & E). set (s' := new_edge_property d p s) in *.
  assert (VS : forall q, q <> NEdgeColor -> rows_tied (array_of q s) (length (g_nodes (dg_g d))) (vertex_row d s q) -> rows_tied (array_of q s') (length (g_nodes (dg_g d))) (vertex_row d s' q)).
  { intros q NQ Q. apply (rows_same _ _ _ _ _ Q); [apply D; destruct p; auto|]. apply row_none. intros v V. left. apply A. }
  split; [|apply VS; [discriminate|exact T2]|apply VS; [discriminate|exact T3]|intro IO; apply VS; [discriminate|exact (T4 IO)]].
  destruct (pn_dec p NEdgeColor) as [->|NE].
  - rewrite E by reflexivity. apply rows_repeat. intros k x ([a b] & I & Y). apply ep_read in Y. rewrite Y, C by (apply g_edges_in; eapply index_arc; eassumption). reflexivity.
  - apply (rows_same _ _ _ _ _ T1); [apply D; left; congruence|]. apply erow_none; [exact W|]. intros e I. left. apply B. left. congruence.
Qed.
Lemma nth_order d i : nodes_in_order d -> (i < length (g_nodes (dg_g d)))%nat -> nth_error (g_nodes (dg_g d)) i = Some i.
Proof. intros IO L. rewrite IO. rewrite (nth_error_nth' _ 0%nat) by (rewrite seq_length; exact L). rewrite seq_nth by exact L. reflexivity. Qed.
Lemma nodes_small d : nodes_in_order d -> labels_small d.
Proof. intros IO v V. unfold vertex in V. change (In v (g_nodes (dg_g d))) in V. rewrite IO in V. apply in_seq in V. lia. Qed.
Lemma rows_at d (P : nat -> pval) l v : Forall2 (fun v x => x = P v) (g_nodes (dg_g d)) l -> nodes_in_order d -> vertex (dg_g d) v -> get l v = Some (P v).
Proof.
  intros F IO V. assert (L := nodes_small d IO v V). assert (N := nth_order d v IO L). destruct (get_ex l v) as (x & X); [rewrite <- (Forall2_len _ _ _ F); exact L|].
  rewrite X. f_equal. exact (Forall2_nth _ _ _ v v x F N X).
Qed.
Lemma set_pos_covers d pos s s' : NoDup (map fst pos) -> set_pos d pos s = Ok s' -> covers d pos (fun v => val (mget Nat.eqb pos v)).
Proof.
  intros N H. split; [exact N|]. intros v V. unfold set_pos in H. destruct (in_node_order pos (g_nodes (dg_g d))) as [l|] eqn:E; [|discriminate].
  destruct (mget Nat.eqb pos v) as [x|] eqn:G; [apply (mget_In _ neq_eq); exact G|]. rewrite (in_node_order_err pos (g_nodes (dg_g d)) v V G) in E. discriminate.
Qed.
Lemma set_pos_tied d pos s s' : dwf d -> NoDup (map fst pos) -> tied d s -> set_pos d pos s = Ok s' -> tied d s'.
Proof.
  intros W N [T1 T2 T3 T4] H. destruct (set_pos_ok d pos _ s (set_pos_covers _ _ _ _ N H)) as (s0 & l & E & A & F & B & C & D & G).
  assert (s0 = s') by congruence. subst s0. split.
  - apply (rows_same _ _ _ _ _ T1); [apply C; discriminate|]. apply erow_none; [exact W|]. intros e I. left. apply B.
  - apply (rows_same _ _ _ _ _ T2); [apply C; discriminate|]. apply row_none. intros v V. left. apply D. discriminate.
  - apply (rows_same _ _ _ _ _ T3); [apply C; discriminate|]. apply row_none. intros v V. left. apply D. discriminate.
  - intros IO l0 Q. rewrite A in Q. injection Q as <-. split; [symmetry; apply (Forall2_len _ _ _ F)|]. intros k x Y. right.
    apply vp_read in Y as (V & ->). rewrite G by exact V. apply (rows_at d _ _ _ F IO V).
Qed.

(** ** Sequences of calls *)

Inductive pcall : Type :=
| PSetE (e : nat * nat) (p : pname) (x : pval) | PSetV (v : nat) (p : pname) (x : pval)
| PNewE (p : pname) | PNewV (p : pname) | PPos (pos : list (nat * pval)) | PDraw (layout : list (nat * pval)) (pos : option (list (nat * pval))).
Definition run_pcall (d : dgraph) (c : pcall) (s : gprops) : res gprops :=
  match c with
  | PSetE e p x => set_ep d e p x s
  | PSetV v p x => set_vp d v p x s
  | PNewE p => Ok (new_edge_property d p s)
  | PNewV p => Ok (new_vertex_property d p s)
  | PPos pos => set_pos d pos s
  | PDraw layout pos => let* (_, s) := lines_scatter_args d layout pos s in Ok s
  end.
Fixpoint run_pcalls (d : dgraph) (cs : list pcall) (s : gprops) : res gprops :=
  match cs with [] => Ok s | c :: r => let* s := run_pcall d c s in run_pcalls d r s end.
(** Properties are set on their own kind; dictionaries have every key once. *)
Definition decent_call (c : pcall) : Prop :=
  match c with
  | PSetE _ p _ => for_edge p
  | PSetV _ p _ => for_vertex p
  | PPos pos => NoDup (map fst pos)
  | PDraw layout pos => NoDup (map fst layout) /\ match pos with Some p => NoDup (map fst p) | None => True end
  | _ => True
  end.
Lemma draw_state d layout pos s pic s' : lines_scatter_args d layout pos s = Ok (pic, s') ->
  s' = s \/ exists p, (p = layout \/ pos = Some p) /\ set_pos d p s = Ok s'.
Proof.
  unfold lines_scatter_args. set (z := match pos with Some p => _ | None => _ end). destruct z as [s0|] eqn:Z; [|discriminate]. cbn [bind].
  destruct (gp_pos s0) as [arr|]; [|discriminate]. cbn [of_option bind]. destruct (put_segments _ _ _ _) as [segs|]; [|discriminate]. cbn [bind].
  intro H. assert (s0 = s') by congruence. subst s0. clear H. subst z. destruct pos as [p|]; [right; exists p; auto|]. destruct (gp_pos s); [left; congruence|right; exists layout; auto].
Qed.
Lemma calls_tied d cs : dwf d -> forall s s', tied d s -> Forall decent_call cs -> run_pcalls d cs s = Ok s' -> tied d s'.
Proof.
  intro W. induction cs as [|c cs IH]; intros s s' T F H; cbn [run_pcalls] in H; [injection H as <-; exact T|].
  apply Forall_cons_iff in F as (D & F). destruct (run_pcall d c s) as [s1|] eqn:E; [|discriminate]. cbn [bind] in H. apply (IH s1 s'); [|exact F|exact H].
  destruct c; cbn [run_pcall decent_call] in *.
  - eapply set_ep_tied; eassumption.
  - eapply set_vp_tied; eassumption.
  - injection E as <-. apply new_e_tied; assumption.
  - injection E as <-. apply new_v_tied; assumption.
  - eapply set_pos_tied; eassumption.
  - destruct (lines_scatter_args d layout pos s) as [[pic s2]|] eqn:L; [|discriminate]. cbn [bind] in E. injection E as ->.
    destruct (draw_state _ _ _ _ _ _ L) as [->|(p & O & SP)]; [exact T|]. eapply set_pos_tied; [exact W| |exact T|exact SP].
    destruct O as [->| ->]; apply D.
Qed.
