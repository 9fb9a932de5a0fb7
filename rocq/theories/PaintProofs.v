(** * PaintProofs: colours of edges and vertices *)
From Coq Require Import List ZArith QArith Qfield Bool Arith Lia Lqa.
From Verif Require Import Base Dict UnionFind UnionFindProofs Graph SpecGraph GraphProofs GraphClaims GraphNet GraphIndex.
From Verif Require Import Queue SpecQueue Network SpecNet SpecBuild GraphBuild Colors ColorProofs.
Import ListNotations.
Open Scope Z_scope.

(** ** Specification *)

Definition edge_shows (p : paint) (e : nat * nat) (c : color) : Prop := mget peqb (pa_edge p) e = Some c.
Definition vertex_shows (p : paint) (v : nat) (c : color) : Prop := mget Nat.eqb (pa_vertex p) v = Some c.
Definition fill_shows (p : paint) (v : nat) (c : color) : Prop := mget Nat.eqb (pa_fill p) v = Some c.

(** The base colour of a queue on the edge [e]. *)
Definition base_color (l : look) (e : nat * nat) : list Q := if Nat.eqb (fst e) (snd e) then lk_loop l else lk_edge l.
(** The number of agents in, and of servers of, the queues with numbers [ks]. *)
Fixpoint crowd (qs : list queue) (ks : list nat) : Z :=
  match ks with [] => 0 | k :: r => match get qs k with Some q => q_nsys q | None => 0 end + crowd qs r end.
Fixpoint force (qs : list queue) (ks : list nat) : ext :=
  match ks with [] => Fin 0 | k :: r => eadd match get qs k with Some q => q_servers q | None => Fin 0 end (force qs r) end.
(** The colour [base], darkened by the agents in the queues [ks]: unchanged if
    there are none, black with [2 * servers + 2] of them, linear between. *)
Definition darkened (base : list Q) (qs : list queue) (ks : list nat) (c : color) : Prop :=
  exists r g b t x, base = [r; g; b; t] /\ c = plain_color [r * x; g * x; b * x; 1]%Q /\
    match force qs ks with
    | Inf => (x == 1)%Q
    | Fin s => (2 * s + 2 <= crowd qs ks -> (x == 0)%Q) /\
               (crowd qs ks <= 2 * s + 2 -> (x * inject_Z (2 * s + 2) == inject_Z (2 * s + 2 - crowd qs ks))%Q)
    end.

(** A graph with queues on its edges, in-edges and looks. *)
Record dressed (d : dgraph) (qs : list queue) (lk : nat -> look) (ins : list (list nat)) (nl : netlook) : Prop := mkDressed {
  dr_wf : dwf d;
  dr_small : forall v, vertex (dg_g d) v -> (v < length (g_nodes (dg_g d)))%nat;
  dr_queue : forall e k, In (e, k) (dg_index d) -> exists q, get qs k = Some q /\ c_src (q_cfg q) = fst e /\ c_tgt (q_cfg q) = snd e;
  dr_count : forall k, (k < length qs)%nat <-> exists e, In (e, k) (dg_index d);
  dr_ins : forall v, vertex (dg_g d) v -> exists ks, get ins v = Some ks /\ forall k, In k ks -> (k < length qs)%nat;
  dr_look : forall k q, get qs k = Some q -> decent (lk k) /\ servers_show (lk k) q /\ 0 <= q_nsys q;
  dr_net : rgba (nk_vertex nl) /\ rgba (nk_fill nl)
}.

(** ** Single assignments *)

Lemma set_edge_ok d e c p : dwf d -> arc (dg_g d) (fst e) (snd e) ->
  set_edge d e c p = Ok (mkPaint (mput peqb (pa_edge p) e c) (pa_vertex p) (pa_fill p)).
Proof. intros W (a & A). unfold set_edge. destruct e as [u v]. rewrite (ep_type_ok d u v a W A). reflexivity. Qed.

Lemma check_ok d v : vertex (dg_g d) v -> (v < length (g_nodes (dg_g d)))%nat -> vertex_check d v = Ok tt.
Proof.
  intros V L. unfold vertex_check. replace (mhas Nat.eqb (dg_g d) v) with true by (symmetry; apply (mhas_in _ neq_eq); exact V).
  apply Nat.ltb_lt in L. rewrite L. reflexivity.
Qed.

Section Painting.
  Context (d : dgraph) (qs : list queue) (lk : nat -> look) (ins : list (list nat)) (nl : netlook).
  Context (D : dressed d qs lk ins nl).

  Lemma set_vertex_ok v c p : vertex (dg_g d) v -> set_vertex d v c p = Ok (mkPaint (pa_edge p) (mput Nat.eqb (pa_vertex p) v c) (pa_fill p)).
  Proof. intro V. unfold set_vertex. rewrite (check_ok d v V (dr_small _ _ _ _ _ D v V)). reflexivity. Qed.
  Lemma set_fill_ok v c p : vertex (dg_g d) v -> set_fill d v c p = Ok (mkPaint (pa_edge p) (pa_vertex p) (mput Nat.eqb (pa_fill p) v c)).
  Proof. intro V. unfold set_fill. rewrite (check_ok d v V (dr_small _ _ _ _ _ D v V)). reflexivity. Qed.

  Lemma arc_ends u v : arc (dg_g d) u v -> vertex (dg_g d) u /\ vertex (dg_g d) v.
  Proof.
    intros (a & A). split; [|eapply (dw_closed _ (dr_wf _ _ _ _ _ D)); exact A]. destruct A as (r & I & _). apply in_map_iff. exists (u, r). auto.
  Qed.

  Lemma queue_edge k q : get qs k = Some q -> In ((c_src (q_cfg q), c_tgt (q_cfg q)), k) (dg_index d).
  Proof.
    intro G. assert (L : (k < length qs)%nat) by (apply nth_error_Some; unfold get in G; congruence).
    apply (dr_count _ _ _ _ _ D) in L as ([u v] & I). destruct (dr_queue _ _ _ _ _ D _ _ I) as (q' & G' & E1 & E2). cbn [fst snd] in *. replace q' with q in * by congruence. rewrite E1, E2. exact I.
  Qed.
  Lemma queue_arc k q : get qs k = Some q -> arc (dg_g d) (c_src (q_cfg q)) (c_tgt (q_cfg q)).
  Proof. intro G. eapply index_arc; [apply (dr_wf _ _ _ _ _ D)|apply (queue_edge k q G)]. Qed.
  Lemma queue_ends k q : get qs k = Some q -> vertex (dg_g d) (c_src (q_cfg q)) /\ vertex (dg_g d) (c_tgt (q_cfg q)).
  Proof. intro G. apply arc_ends. eapply queue_arc; exact G. Qed.
  Lemma same_edge k q k' q' : get qs k = Some q -> get qs k' = Some q' ->
    c_src (q_cfg q) = c_src (q_cfg q') -> c_tgt (q_cfg q) = c_tgt (q_cfg q') -> k = k'.
  Proof.
    intros G G' E1 E2. apply queue_edge in G. apply queue_edge in G'. rewrite E1, E2 in G. eapply (nb_fun _ _ (dwf_numbering d (dr_wf _ _ _ _ _ D))); eauto.
  Qed.
  Lemma queue_color k q w : get qs k = Some q -> exists c, current_color (lk k) q w = Ok c /\ valid c.
  Proof. intro G. destruct (dr_look _ _ _ _ _ D k q G) as (A & B & C). apply color_ok; assumption. Qed.

  (** ** The loops over [g.edges()] *)

  Lemma paint_edges_ok loops : forall es k p, (k + length es <= length qs)%nat -> NoDup es -> (forall e, In e es -> arc (dg_g d) (fst e) (snd e)) ->
    exists p', paint_edges loops d qs lk k es p = Ok p' /\ pa_vertex p' = pa_vertex p /\ pa_fill p' = pa_fill p /\
      (forall i e, nth_error es i = Some e -> edge_shows p' e (plain_color (if loops then base_color (lk (k + i)%nat) e else lk_edge (lk (k + i)%nat)))) /\
      (forall e, ~ In e es -> mget peqb (pa_edge p') e = mget peqb (pa_edge p) e).
  Proof.
    induction es as [|e es IH]; intros k p L N A; cbn [paint_edges].
    - exists p. repeat split; auto. intros [|i] e H; discriminate.
    - cbn [length] in L. destruct (get qs k) as [q|] eqn:G; [|apply nth_error_None in G; lia]. cbn [of_option bind].
      rewrite set_edge_ok; [|apply (dr_wf _ _ _ _ _ D)|apply A; left; reflexivity]. cbn [bind].
      inversion N as [|? ? NI N']; subst. destruct (IH (S k) (mkPaint (mput peqb (pa_edge p) e (plain_color (if loops && Nat.eqb (fst e) (snd e) then lk_loop (lk k) else lk_edge (lk k)))) (pa_vertex p) (pa_fill p))) as (p' & E & V & F & S & O); [lia|exact N'|intros; apply A; right; assumption|].
      exists p'. split; [exact E|]. split; [exact V|]. split; [exact F|]. split.
      + intros [|i] e' H.
        * cbn in H. injection H as <-. unfold edge_shows. rewrite O by exact NI. cbn [pa_edge]. rewrite (mget_put_eq _ peqb_eq), Nat.add_0_r. unfold base_color. destruct loops, (Nat.eqb (fst e) (snd e)); reflexivity.
        * cbn in H. replace (k + Datatypes.S i)%nat with (Datatypes.S k + i)%nat by lia. apply S. exact H.
      + intros e' H. rewrite O by (intro; apply H; right; assumption). cbn [pa_edge]. apply (mget_put_neq _ peqb_eq). intros ->. apply H. left; reflexivity.
  Qed.

  Lemma edges_count : length (g_edges (dg_g d)) = length qs.
  Proof.
    assert (W := dr_wf _ _ _ _ _ D). rewrite (dw_count _ W).
    assert (A : forall k, (k < dg_next d)%nat <-> (k < length qs)%nat) by (intro k; rewrite (index_onto d k W), (dr_count _ _ _ _ _ D); reflexivity).
    destruct (Nat.lt_trichotomy (dg_next d) (length qs)) as [H|[H|H]]; [apply A in H; lia|exact H|apply A in H; lia].
  Qed.

  Lemma paint_vertices_ok : forall vs p, NoDup vs -> (forall v, In v vs -> vertex (dg_g d) v) ->
    exists p', paint_vertices d qs lk nl vs p = Ok p' /\ pa_edge p' = pa_edge p /\
      (forall v, In v vs -> forall k q, In ((v, v), k) (dg_index d) -> get qs k = Some q ->
         exists c2 c0, current_color (lk k) q 2 = Ok c2 /\ current_color (lk k) q 0 = Ok c0 /\ vertex_shows p' v c2 /\ fill_shows p' v c0) /\
      (forall v, In v vs -> ~ arc (dg_g d) v v -> vertex_shows p' v (plain_color (nk_vertex nl)) /\ fill_shows p' v (plain_color (nk_fill nl))) /\
      (forall v, ~ In v vs -> mget Nat.eqb (pa_vertex p') v = mget Nat.eqb (pa_vertex p) v /\ mget Nat.eqb (pa_fill p') v = mget Nat.eqb (pa_fill p) v).
  Proof.
    assert (W := dr_wf _ _ _ _ _ D).
    induction vs as [|v vs IH]; intros p N V; cbn [paint_vertices].
    - exists p. split; [reflexivity|]. split; [reflexivity|]. split; [intros v []|]. split; [intros v []|]. auto.
    - inversion N as [|? ? NI N']; subst. assert (Vv := V v (or_introl eq_refl)).
      assert (VS : forall x, In x vs -> vertex (dg_g d) x) by (intros; apply V; right; assumption).
      destruct (is_edge d (v, v)) eqn:IE.
      + unfold is_edge, mhas in IE. destruct (mget peqb (dg_index d) (v, v)) as [k|] eqn:MK; [|discriminate]. assert (Ik := mget_In _ peqb_eq _ _ _ MK).
        rewrite (index_of_ok d (v, v) k W Ik). cbn [bind]. destruct (dr_queue _ _ _ _ _ D _ _ Ik) as (q & G & _). rewrite G. cbn [of_option bind].
        destruct (queue_color k q 2 G) as (c2 & E2 & _). rewrite E2. cbn [bind]. rewrite set_vertex_ok by exact Vv. cbn [bind].
        destruct (queue_color k q 0 G) as (c0 & E0 & _). rewrite E0. cbn [bind]. rewrite set_fill_ok by exact Vv. cbn [bind pa_edge pa_vertex pa_fill].
        destruct (IH (mkPaint (pa_edge p) (mput Nat.eqb (pa_vertex p) v c2) (mput Nat.eqb (pa_fill p) v c0)) N' VS) as (p' & E & PE & L1 & L2 & L3).
        exists p'. split; [exact E|]. split; [exact PE|]. destruct (L3 v NI) as [X Y]. cbn [pa_vertex pa_fill] in X, Y. rewrite (mget_put_eq _ neq_eq) in X, Y. split; [|split].
        * intros v' [<-|I'] k' q' Ik' G'; [|eapply L1; eauto]. assert (k' = k) by (eapply (nb_fun _ _ (dwf_numbering d W)); eauto). subst k'. replace q' with q by congruence. exists c2, c0. auto.
        * intros v' [<-|I'] NA; [exfalso; apply NA; eapply index_arc; eauto|apply L2; assumption].
        * intros v' NI'. destruct (L3 v') as [X' Y']; [intro; apply NI'; right; assumption|]. cbn [pa_vertex pa_fill] in X', Y'. rewrite X', Y'. assert (v <> v') by (intros ->; apply NI'; left; reflexivity). rewrite !(mget_put_neq _ neq_eq) by assumption. auto.
      + rewrite set_vertex_ok by exact Vv. cbn [bind]. rewrite set_fill_ok by exact Vv. cbn [bind pa_edge pa_vertex pa_fill].
        assert (NL : forall k, ~ In ((v, v), k) (dg_index d)). { intros k I. unfold is_edge, mhas in IE. rewrite (mget_nodup _ peqb_eq _ _ _ (proj1 (dw_index _ W)) I) in IE. discriminate. }
        destruct (IH (mkPaint (pa_edge p) (mput Nat.eqb (pa_vertex p) v (plain_color (nk_vertex nl))) (mput Nat.eqb (pa_fill p) v (plain_color (nk_fill nl)))) N' VS) as (p' & E & PE & L1 & L2 & L3).
        exists p'. split; [exact E|]. split; [exact PE|]. destruct (L3 v NI) as [X Y]. cbn [pa_vertex pa_fill] in X, Y. rewrite (mget_put_eq _ neq_eq) in X, Y. split; [|split].
        * intros v' [<-|I'] k' q' Ik' G'; [exfalso; eapply NL; eauto|eapply L1; eauto].
        * intros v' [<-|I'] NA; [split; assumption|apply L2; assumption].
        * intros v' NI'. destruct (L3 v') as [X' Y']; [intro; apply NI'; right; assumption|]. cbn [pa_vertex pa_fill] in X', Y'. rewrite X', Y'. assert (v <> v') by (intros ->; apply NI'; left; reflexivity). rewrite !(mget_put_neq _ neq_eq) by assumption. auto.
  Qed.

  Lemma fill_vertices_ok : forall vs p, (forall v, In v vs -> vertex (dg_g d) v) ->
    exists p', fill_vertices d nl vs p = Ok p' /\ pa_edge p' = pa_edge p /\ pa_vertex p' = pa_vertex p /\
      forall v, (In v vs \/ fill_shows p v (plain_color (nk_fill nl))) -> fill_shows p' v (plain_color (nk_fill nl)).
  Proof.
    induction vs as [|v vs IH]; intros p V; cbn [fill_vertices].
    - exists p. repeat split; auto. intros v [[]|H]; exact H.
    - rewrite set_fill_ok by (apply V; left; reflexivity). cbn [bind].
      destruct (IH (mkPaint (pa_edge p) (pa_vertex p) (mput Nat.eqb (pa_fill p) v (plain_color (nk_fill nl))))) as (p' & E & PE & PV & F); [intros; apply V; right; assumption|].
      exists p'. repeat split; auto. intros v' H. apply F. destruct (Nat.eq_dec v v') as [<-|NE]; [right; apply (mget_put_eq _ neq_eq)|].
      destruct H as [[H|H]|H]; [contradiction|left; exact H|right]. unfold fill_shows. cbn [pa_fill]. rewrite (mget_put_neq _ neq_eq) by exact NE. exact H.
  Qed.

  (** ** _update_vertex_color *)

  Lemma in_totals_ok : forall ks n c, (forall k, In k ks -> (k < length qs)%nat) ->
    in_totals qs ks n c = Ok (n + crowd qs ks, eadd c (force qs ks)).
  Proof.
    induction ks as [|k ks IH]; intros n c H; cbn [in_totals crowd force].
    - rewrite Z.add_0_r. destruct c as [c|]; cbn; [rewrite Z.add_0_r|]; reflexivity.
    - destruct (get qs k) as [q|] eqn:G; [|apply nth_error_None in G; specialize (H k (or_introl eq_refl)); lia]. cbn [of_option bind].
      rewrite IH by (intros; apply H; right; assumption). rewrite Z.add_assoc. f_equal. f_equal. destruct c as [c|], (q_servers q) as [s|], (force qs ks) as [f|]; cbn; rewrite ?Z.add_assoc; reflexivity.
  Qed.
  Lemma crowd_nonneg : forall ks, 0 <= crowd qs ks.
  Proof.
    induction ks as [|k ks IH]; cbn [crowd]; [lia|]. destruct (get qs k) as [q|] eqn:G; [|lia]. destruct (dr_look _ _ _ _ _ D k q G) as (_ & _ & N). lia.
  Qed.
  Lemma force_nonneg : forall ks, eLe (Fin 0) (force qs ks).
  Proof.
    induction ks as [|k ks IH]; cbn [force]; [cbn; lia|]. destruct (get qs k) as [q|] eqn:G.
    - destruct (dr_look _ _ _ _ _ D k q G) as (_ & (N & _) & _). destruct (q_servers q), (force qs ks); cbn in *; auto; lia.
    - destruct (force qs ks); cbn in *; auto.
  Qed.

  Lemma darken_ok ks : (forall k, In k ks -> (k < length qs)%nat) ->
    exists x c, vertex_shade (0 + crowd qs ks) (eadd (Fin 0) (force qs ks)) = Ok x /\ with_alpha (scaled (Some x) (nk_fill nl)) 1 = Ok c /\ darkened (nk_fill nl) qs ks c.
  Proof.
    intros _. assert (N := crowd_nonneg ks). assert (F := force_nonneg ks). rewrite Z.add_0_l. destruct (dr_net _ _ _ _ _ D) as [_ R].
    destruct (rgba_four _ R) as (r & g & b & t & E & _). unfold darkened. destruct (force qs ks) as [s|]; cbn [eadd vertex_shade].
    - cbn in F. rewrite ?Z.add_0_l. assert (DV : (2 * inject_Z s + 2 == inject_Z (2 * s + 2))%Q) by (rewrite inject_Z_plus, inject_Z_mult; reflexivity).
      assert (P : (0 < inject_Z (2 * s + 2))%Q) by (change 0%Q with (inject_Z 0); rewrite <- Zlt_Qlt; lia).
      replace (Qeq_bool (2 * inject_Z s + 2) 0) with false by (symmetry; apply not_true_iff_false; rewrite Qeq_bool_iff, DV; lra).
      do 2 eexists. split; [reflexivity|]. rewrite E. split; [reflexivity|]. do 5 eexists. split; [reflexivity|]. split; [reflexivity|].
      set (n := inject_Z (crowd qs ks)). assert (DE : (n / (2 * inject_Z s + 2) == n / inject_Z (2 * s + 2))%Q) by (rewrite DV; reflexivity).
      assert (MU : (n / inject_Z (2 * s + 2) * inject_Z (2 * s + 2) == n)%Q) by (field; lra).
      split; intro H.
      + assert (inject_Z (2 * s + 2) <= n)%Q by (unfold n; rewrite <- Zle_Qle; exact H).
        assert (1 <= n / inject_Z (2 * s + 2))%Q by (apply Qle_shift_div_l; [exact P|lra]).
        destruct (py_min_cases (n / (2 * inject_Z s + 2)) 1) as [[-> ?]|[-> ?]]; lra.
      + assert (n <= inject_Z (2 * s + 2))%Q by (unfold n; rewrite <- Zle_Qle; exact H).
        assert (SB : (inject_Z (2 * s + 2 - crowd qs ks) == inject_Z (2 * s + 2) - n)%Q) by (unfold n, Z.sub; rewrite inject_Z_plus, inject_Z_opp; reflexivity).
        rewrite SB. destruct (py_min_cases (n / (2 * inject_Z s + 2)) 1) as [[-> ?]|[-> LT]].
        * rewrite DE. rewrite <- MU at 2. ring.
        * exfalso. rewrite DE in LT. assert (n / inject_Z (2 * s + 2) <= 1)%Q by (apply Qle_shift_div_r; [exact P|lra]). lra.
    - do 2 eexists. split; [reflexivity|]. rewrite E. split; [reflexivity|]. do 5 eexists. split; [reflexivity|]. split; [reflexivity|]. reflexivity.
  Qed.

  (** What [_update_vertex_color] shows at [v]. *)
  Definition vertex_right (p : paint) (v : nat) : Prop :=
    vertex_shows p v (plain_color (nk_vertex nl)) /\ exists ks c, get ins v = Some ks /\ darkened (nk_fill nl) qs ks c /\ fill_shows p v c.
  Definition other_vertices (p p' : paint) (v : nat) : Prop :=
    forall w, w <> v -> mget Nat.eqb (pa_vertex p') w = mget Nat.eqb (pa_vertex p) w /\ mget Nat.eqb (pa_fill p') w = mget Nat.eqb (pa_fill p) w.

  Lemma update_vertex_ok v p : vertex (dg_g d) v ->
    exists p', update_vertex d qs ins nl v p = Ok p' /\ pa_edge p' = pa_edge p /\ other_vertices p p' v /\
      (~ arc (dg_g d) v v -> vertex_right p' v) /\
      (forall k q, In ((v, v), k) (dg_index d) -> get qs k = Some q ->
         mget Nat.eqb (pa_vertex p') v = mget Nat.eqb (pa_vertex p) v /\
         (c_type (q_cfg q) <> 0 -> p' = p) /\
         (c_type (q_cfg q) = 0 -> exists ks c, get ins v = Some ks /\ darkened (nk_fill nl) qs ks c /\ fill_shows p' v c)).
  Proof.
    intro V. assert (W := dr_wf _ _ _ _ _ D). unfold update_vertex. destruct (dr_ins _ _ _ _ _ D v V) as (ks & GI & KS). destruct (darken_ok ks KS) as (x & c & VS & WA & DK).
    destruct (is_edge d (v, v)) eqn:IE.
    - unfold is_edge, mhas in IE. destruct (mget peqb (dg_index d) (v, v)) as [k|] eqn:MK; [|discriminate]. assert (Ik := mget_In _ peqb_eq _ _ _ MK).
      rewrite (index_of_ok d (v, v) k W Ik). cbn [bind]. destruct (dr_queue _ _ _ _ _ D _ _ Ik) as (q & G & _). rewrite G. cbn [of_option bind negb orb andb].
      assert (UQ : forall k' q', In ((v, v), k') (dg_index d) -> get qs k' = Some q' -> q' = q).
      { intros k' q' I' G'. assert (k' = k) by (eapply (nb_fun _ _ (dwf_numbering d W)); eauto). congruence. }
      destruct (c_type (q_cfg q) =? 0) eqn:TZ.
      + apply Z.eqb_eq in TZ. rewrite GI. cbn [of_option bind]. rewrite (in_totals_ok ks 0 (Fin 0) KS). cbn [bind]. rewrite VS. cbn [bind]. rewrite WA. cbn [bind]. rewrite set_fill_ok by exact V. cbn [bind].
        eexists. split; [reflexivity|]. split; [reflexivity|]. split; [|split].
        * intros w NW. cbn [pa_vertex pa_fill]. split; [reflexivity|]. apply (mget_put_neq _ neq_eq). congruence.
        * intro NA. exfalso. apply NA. eapply index_arc; eauto.
        * intros k' q' I' G'. rewrite (UQ k' q' I' G'). split; [reflexivity|]. split; [congruence|]. intros _. exists ks, c. split; [first [reflexivity|exact GI]|]. split; [exact DK|]. apply (mget_put_eq _ neq_eq).
      + apply Z.eqb_neq in TZ. exists p. split; [reflexivity|]. split; [reflexivity|]. split; [|split].
        * intros w _. auto.
        * intro NA. exfalso. apply NA. eapply index_arc; eauto.
        * intros k' q' I' G'. rewrite (UQ k' q' I' G'). split; [reflexivity|]. split; [reflexivity|]. congruence.
    - cbn [bind negb orb]. rewrite GI. cbn [of_option bind]. rewrite (in_totals_ok ks 0 (Fin 0) KS). cbn [bind]. rewrite VS. cbn [bind]. rewrite WA. cbn [bind]. rewrite set_fill_ok by exact V. cbn [bind]. rewrite set_vertex_ok by exact V.
      eexists. split; [reflexivity|]. split; [reflexivity|]. split; [|split].
      * intros w NW. cbn [pa_vertex pa_fill]. rewrite !(mget_put_neq _ neq_eq) by congruence. auto.
      * intros _. split; [apply (mget_put_eq _ neq_eq)|]. exists ks, c. split; [first [reflexivity|exact GI]|]. split; [exact DK|]. apply (mget_put_eq _ neq_eq).
      * intros k q I. unfold is_edge, mhas in IE. rewrite (mget_nodup _ peqb_eq _ _ _ (proj1 (dw_index _ W)) I) in IE. discriminate.
  Qed.

  (** ** _update_graph_colors *)

  (** The colour that the edge of queue [k] is to show. *)
  Definition own_color (p : paint) (k : nat) (q : queue) : Prop :=
    exists c, current_color (lk k) q (if on_loop q then 1 else 0) = Ok c /\ edge_shows p (c_src (q_cfg q), c_tgt (q_cfg q)) c.
  (** The vertex of a loop shows the colours of the queue on the loop. *)
  Definition loop_right (p : paint) (k : nat) (q : queue) : Prop :=
    exists c2 c0, current_color (lk k) q 2 = Ok c2 /\ current_color (lk k) q 0 = Ok c0 /\
      vertex_shows p (c_tgt (q_cfg q)) c2 /\ fill_shows p (c_tgt (q_cfg q)) c0.

  Lemma update_loop_ok k q w p : get qs k = Some q -> on_loop q = true -> vertex (dg_g d) w ->
    exists p', update_loop d (lk k) q (c_src (q_cfg q), c_tgt (q_cfg q)) (c_tgt (q_cfg q)) w p = Ok p' /\ own_color p' k q /\
      (exists c, pa_edge p' = mput peqb (pa_edge p) (c_src (q_cfg q), c_tgt (q_cfg q)) c) /\
      (c_type (q_cfg q) <> 0 -> w = c_tgt (q_cfg q) -> loop_right p' k q) /\
      (w = c_tgt (q_cfg q) -> other_vertices p p' w).
  Proof.
    intros G OL Vw. assert (W := dr_wf _ _ _ _ _ D). assert (A := queue_arc k q G). destruct (arc_ends _ _ A) as [_ Vv]. unfold update_loop.
    destruct (queue_color k q 1 G) as (c1 & E1 & _). rewrite E1. cbn [bind]. rewrite set_edge_ok by (assumption || exact A). cbn [bind].
    destruct (queue_color k q 2 G) as (c2 & E2 & _). rewrite E2. cbn [bind]. rewrite set_vertex_ok by exact Vv. cbn [bind pa_edge pa_vertex pa_fill].
    assert (OC : forall a b, own_color (mkPaint (mput peqb (pa_edge p) (c_src (q_cfg q), c_tgt (q_cfg q)) c1) a b) k q).
    { intros a b. exists c1. rewrite OL. split; [exact E1|]. apply (mget_put_eq _ peqb_eq). }
    destruct (c_type (q_cfg q) =? 0) eqn:TZ.
    - apply Z.eqb_eq in TZ. eexists. split; [reflexivity|]. split; [apply OC|]. split; [eexists; reflexivity|]. split; [intro X; contradiction|].
      intros -> x NX. cbn [pa_vertex pa_fill]. rewrite (mget_put_neq _ neq_eq) by congruence. auto.
    - destruct (queue_color k q 0 G) as (c0 & E0 & _). rewrite E0. cbn [bind]. rewrite set_fill_ok by exact Vw. cbn [pa_edge pa_vertex pa_fill].
      eexists. split; [reflexivity|]. split; [apply OC|]. split; [eexists; reflexivity|]. split.
      + intros _ ->. exists c2, c0. split; [exact E2|]. split; [exact E0|]. split; apply (mget_put_eq _ neq_eq).
      + intros -> x NX. cbn [pa_vertex pa_fill]. rewrite !(mget_put_neq _ neq_eq) by congruence. auto.
  Qed.

  Lemma update_one_ok k q w p : get qs k = Some q -> vertex (dg_g d) w ->
    exists p', update_one d qs lk ins nl k w p = Ok p' /\ own_color p' k q /\
      (forall e, e <> (c_src (q_cfg q), c_tgt (q_cfg q)) -> mget peqb (pa_edge p') e = mget peqb (pa_edge p) e) /\
      (w = c_tgt (q_cfg q) -> other_vertices p p' w /\
        (on_loop q = true -> c_type (q_cfg q) <> 0 -> loop_right p' k q) /\
        (~ arc (dg_g d) (c_tgt (q_cfg q)) (c_tgt (q_cfg q)) -> vertex_right p' (c_tgt (q_cfg q)))).
  Proof.
    intros G Vw. assert (W := dr_wf _ _ _ _ _ D). assert (A := queue_arc k q G). destruct (arc_ends _ _ A) as [_ Vv]. unfold update_one. rewrite G. cbn [of_option bind].
    destruct (Nat.eqb (c_src (q_cfg q)) (c_tgt (q_cfg q))) eqn:OL.
    - destruct (update_loop_ok k q w p G OL Vw) as (p' & E & O & (c & PE) & LR & OV). exists p'. split; [exact E|]. split; [exact O|]. split.
      + intros e NE. rewrite PE. apply (mget_put_neq _ peqb_eq). congruence.
      + intro Ew. split; [apply OV; exact Ew|]. split; [intros; apply LR; assumption|]. intro NA. exfalso. apply NA. apply Nat.eqb_eq in OL. rewrite OL in A. exact A.
    - destruct (queue_color k q 0 G) as (c & E0 & _). rewrite E0. cbn [bind]. rewrite set_edge_ok by (assumption || exact A). cbn [bind].
      destruct (update_vertex_ok (c_tgt (q_cfg q)) (mkPaint (mput peqb (pa_edge p) (c_src (q_cfg q), c_tgt (q_cfg q)) c) (pa_vertex p) (pa_fill p)) Vv) as (p' & E & PE & OV & VR & _).
      exists p'. split; [exact E|]. cbn [pa_edge] in PE. split; [|split].
      + exists c. unfold on_loop. rewrite OL. split; [exact E0|]. unfold edge_shows. rewrite PE. apply (mget_put_eq _ peqb_eq).
      + intros e NE. rewrite PE. apply (mget_put_neq _ peqb_eq). congruence.
      + intros ->. split; [exact OV|]. split; [unfold on_loop; congruence|exact VR].
  Qed.

  (** ** _update_all_colors *)

  Record progress (k : nat) (todo : list bool) (p : paint) : Prop := mkProg {
    pg_len : length todo = length (g_nodes (dg_g d));
    pg_edges : forall j q, (j < k)%nat -> get qs j = Some q -> own_color p j q;
    pg_done : forall j q v, (j < k)%nat -> get qs j = Some q -> v = c_src (q_cfg q) \/ v = c_tgt (q_cfg q) -> get todo v = Some false;
    pg_plain : forall v, get todo v = Some false -> vertex (dg_g d) v -> ~ arc (dg_g d) v v -> vertex_right p v;
    pg_loops : forall j q, (j < k)%nat -> get qs j = Some q -> on_loop q = true -> c_type (q_cfg q) <> 0 -> loop_right p j q
  }.

  Lemma get_set {A} (l l' : list A) i x j : set l i x = Some l' -> get l' j = if Nat.eqb i j then Some x else get l j.
  Proof.
    intro H. apply Base.set_Some in H as [L ->]. destruct (Nat.eqb_spec i j) as [<-|N]; [apply get_upd_eq|apply get_upd_neq]; assumption.
  Qed.
  Lemma set_ok {A} (l : list A) i x : (i < length l)%nat -> exists l', set l i x = Some l' /\ length l' = length l.
  Proof. intro H. rewrite (set_upd _ _ _ H). eexists. split; [reflexivity|]. apply upd_length. Qed.

  (** A vertex that is not done is done, and nothing else changes. *)
  Lemma unless_ok v todo p : vertex (dg_g d) v -> length todo = length (g_nodes (dg_g d)) ->
    exists todo' p', update_unless d qs ins nl v todo p = Ok (todo', p') /\ length todo' = length todo /\ get todo' v = Some false /\
      (forall w, w <> v -> get todo' w = get todo w) /\ pa_edge p' = pa_edge p /\ other_vertices p p' v /\
      (get todo v = Some false -> p' = p) /\
      (~ arc (dg_g d) v v -> get todo v <> Some false -> vertex_right p' v) /\
      (forall k q, In ((v, v), k) (dg_index d) -> get qs k = Some q -> c_type (q_cfg q) <> 0 -> p' = p).
  Proof.
    intros V L. unfold update_unless. assert (LT : (v < length todo)%nat) by (rewrite L; apply (dr_small _ _ _ _ _ D); exact V).
    destruct (get todo v) as [b|] eqn:G; [|apply nth_error_None in G; lia]. cbn [of_option bind]. destruct b.
    - destruct (update_vertex_ok v p V) as (p' & E & PE & OV & VR & LP). rewrite E. cbn [bind]. destruct (set_ok todo v false LT) as (todo' & ES & LS). rewrite ES. cbn [of_option bind].
      exists todo', p'. split; [reflexivity|]. split; [exact LS|]. split; [rewrite (get_set _ _ _ _ v ES), Nat.eqb_refl; reflexivity|]. split.
      { intros w NW. rewrite (get_set _ _ _ _ w ES). destruct (Nat.eqb_spec v w); [congruence|reflexivity]. }
      split; [exact PE|]. split; [exact OV|]. split; [discriminate|]. split; [intros NA _; apply VR; exact NA|]. intros k q I Gq T. apply (LP k q I Gq); exact T.
    - exists todo, p. split; [reflexivity|]. split; [reflexivity|]. split; [exact G|]. split; [auto|]. split; [reflexivity|]. split; [intros w _; auto|]. split; [auto|]. split; [congruence|auto].
  Qed.

  Lemma right_other p p' v w : other_vertices p p' v -> w <> v -> vertex_right p w -> vertex_right p' w.
  Proof.
    intros O N (A & ks & c & B & C & E). destruct (O w N) as [X Y]. split; [unfold vertex_shows; rewrite X; exact A|]. exists ks, c. split; [exact B|]. split; [exact C|]. unfold fill_shows. rewrite Y. exact E.
  Qed.
  Lemma right_same p p' w : pa_vertex p' = pa_vertex p -> pa_fill p' = pa_fill p -> vertex_right p w -> vertex_right p' w.
  Proof. intros X Y (A & ks & c & B & C & E). split; [unfold vertex_shows; rewrite X; exact A|]. exists ks, c. unfold fill_shows. rewrite Y. auto. Qed.
  Lemma loop_other p p' v k q : other_vertices p p' v -> c_tgt (q_cfg q) <> v -> loop_right p k q -> loop_right p' k q.
  Proof.
    intros O N (c2 & c0 & A & B & E & F). destruct (O _ N) as [X Y]. exists c2, c0. split; [exact A|]. split; [exact B|]. unfold vertex_shows, fill_shows. rewrite X, Y. auto.
  Qed.
  Lemma own_other p p' k q e c : pa_edge p' = mput peqb (pa_edge p) e c -> (c_src (q_cfg q), c_tgt (q_cfg q)) <> e -> own_color p k q -> own_color p' k q.
  Proof. intros PE N (x & A & B). exists x. split; [exact A|]. unfold edge_shows. rewrite PE, (mget_put_neq _ peqb_eq) by congruence. exact B. Qed.

  (** One pass over the end points of a new edge that is not a loop. *)
  Lemma unless_progress k v todo p : vertex (dg_g d) v -> length todo = length (g_nodes (dg_g d)) ->
    (forall j q w, (j < k)%nat -> get qs j = Some q -> on_loop q = true -> w = c_src (q_cfg q) \/ w = c_tgt (q_cfg q) -> get todo w = Some false) ->
    (forall w, get todo w = Some false -> vertex (dg_g d) w -> ~ arc (dg_g d) w w -> vertex_right p w) ->
    (forall j q, (j < k)%nat -> get qs j = Some q -> on_loop q = true -> c_type (q_cfg q) <> 0 -> loop_right p j q) ->
    exists todo' p', update_unless d qs ins nl v todo p = Ok (todo', p') /\ length todo' = length todo /\ pa_edge p' = pa_edge p /\
      get todo' v = Some false /\ (forall w, get todo w = Some false -> get todo' w = Some false) /\
      (forall w, get todo' w = Some false -> vertex (dg_g d) w -> ~ arc (dg_g d) w w -> vertex_right p' w) /\
      (forall j q, (j < k)%nat -> get qs j = Some q -> on_loop q = true -> c_type (q_cfg q) <> 0 -> loop_right p' j q).
  Proof.
    intros V L DN PL LP. destruct (unless_ok v todo p V L) as (todo' & p' & E & L' & TV & TO & PE & OV & SM & VR & LL).
    exists todo', p'. split; [exact E|]. split; [exact L'|]. split; [exact PE|]. split; [exact TV|]. split; [|split].
    - intros w H. destruct (Nat.eq_dec w v) as [->|N]; [exact TV|rewrite TO; assumption].
    - intros w H Vw NA. destruct (Nat.eq_dec w v) as [->|N].
      + destruct (get todo v) as [[|]|] eqn:GV; [apply VR; [exact NA|discriminate] | rewrite (SM eq_refl); apply PL; assumption | apply VR; [exact NA|discriminate]].
      + apply (right_other p p' v w OV N). apply PL; [rewrite <- TO by exact N; exact H|exact Vw|exact NA].
    - intros j q Lj G OL T. destruct (Nat.eq_dec (c_tgt (q_cfg q)) v) as [Ev|N].
      + rewrite (SM (DN j q v Lj G OL (or_intror (eq_sym Ev)))). apply LP; assumption.
      + apply (loop_other p p' v j q OV N). apply LP; assumption.
  Qed.

  Lemma skip_get {A} (q : A) r : forall k (l : list A), skipn k l = q :: r -> get l k = Some q /\ skipn (S k) l = r.
  Proof.
    induction k as [|k IH]; intros [|x l] H; cbn in H; try discriminate; [injection H as -> ->; split; reflexivity|].
    destruct (IH l H) as [A1 A2]. split; [exact A1|exact A2].
  Qed.

  Lemma update_queues_ok : forall l k todo p, l = skipn k qs -> (k <= length qs)%nat -> progress k todo p ->
    exists p' todo', update_queues d qs lk ins nl k l todo p = Ok p' /\ progress (length qs) todo' p'.
  Proof.
    assert (W := dr_wf _ _ _ _ _ D).
    induction l as [|q r IH]; intros k todo p EL LE PG; cbn [update_queues].
    - exists p, todo. split; [reflexivity|]. assert (k = length qs) as <-; [|exact PG]. assert (X : length (skipn k qs) = 0%nat) by (rewrite <- EL; reflexivity). rewrite skipn_length in X. lia.
    - symmetry in EL. apply skip_get in EL as [G ER].
      assert (LK : (k < length qs)%nat) by (apply nth_error_Some; unfold get in G; congruence).
      assert (A := queue_arc k q G). destruct (arc_ends _ _ A) as [Vu Vv]. cbv zeta. destruct PG as [P1 P2 P3 P4 P5].
      assert (DIF : forall j q', (j < k)%nat -> get qs j = Some q' -> (c_src (q_cfg q'), c_tgt (q_cfg q')) <> (c_src (q_cfg q), c_tgt (q_cfg q))).
      { intros j q' Lj G' X. injection X as X1 X2. assert (j = k) by (eapply same_edge; eauto). lia. }
      destruct (Nat.eqb (c_src (q_cfg q)) (c_tgt (q_cfg q))) eqn:OL.
      + destruct (update_loop_ok k q (c_tgt (q_cfg q)) p G OL Vv) as (p' & E & O & (c & PE) & LR & OV). rewrite E. cbn [bind].
        destruct (set_ok todo (c_tgt (q_cfg q)) false) as (todo' & ES & LS); [rewrite P1; apply (dr_small _ _ _ _ _ D); exact Vv|]. rewrite ES. cbn [of_option bind].
        apply Nat.eqb_eq in OL. apply IH; [auto|lia|]. split.
        * congruence.
        * intros j q' Lj G'. destruct (Nat.eq_dec j k) as [->|N]; [replace q' with q by congruence; exact O|]. eapply own_other; [exact PE|apply (DIF j q'); [lia|exact G']|]. apply P2; [lia|exact G'].
        * intros j q' v Lj G' Hv. rewrite (get_set _ _ _ _ v ES). destruct (Nat.eqb_spec (c_tgt (q_cfg q)) v) as [|N]; [reflexivity|].
          destruct (Nat.eq_dec j k) as [->|NK]; [replace q' with q in Hv by congruence; exfalso; apply N; destruct Hv as [->| ->]; congruence|]. eapply P3; [|exact G'|exact Hv]. lia.
        * intros v H Vx NA. rewrite (get_set _ _ _ _ v ES) in H. destruct (Nat.eqb_spec (c_tgt (q_cfg q)) v) as [Ev|N].
          -- exfalso. apply NA. rewrite OL in A. rewrite <- Ev. exact A.
          -- apply (right_other p p' (c_tgt (q_cfg q)) v (OV eq_refl)); [congruence|]. apply P4; assumption.
        * intros j q' Lj G' OL' T'. destruct (Nat.eq_dec j k) as [->|NK]; [replace q' with q in * by congruence; apply LR; auto|].
          apply (loop_other p p' (c_tgt (q_cfg q)) j q' (OV eq_refl)); [|apply P5; [lia|assumption..]].
          intro X. apply (DIF j q'); [lia|exact G'|]. apply Nat.eqb_eq in OL'. congruence.
      + destruct (queue_color k q 0 G) as (c & E0 & _). rewrite E0. cbn [bind]. rewrite set_edge_ok by (assumption || exact A). cbn [bind].
        set (p0 := mkPaint (mput peqb (pa_edge p) (c_src (q_cfg q), c_tgt (q_cfg q)) c) (pa_vertex p) (pa_fill p)).
        assert (NL : on_loop q = false) by exact OL.
        destruct (unless_progress k (c_tgt (q_cfg q)) todo p0 Vv P1) as (t1 & p1 & E1 & L1 & PE1 & T1 & M1 & R1 & S1).
        { intros j q' w Lj G' _ Hw. eapply P3; eauto. }
        { intros w H Vw NA. apply (right_same p p0 w eq_refl eq_refl). apply P4; assumption. }
        { intros j q' Lj G' O' T'. exact (P5 j q' Lj G' O' T'). }
        rewrite E1. cbn [bind].
        destruct (unless_progress k (c_src (q_cfg q)) t1 p1 Vu ltac:(congruence)) as (t2 & p2 & E2 & L2 & PE2 & T2 & M2 & R2 & S2).
        { intros j q' w Lj G' _ Hw. apply M1. eapply P3; eauto. }
        { exact R1. }
        { exact S1. }
        rewrite E2. cbn [bind]. assert (PE : pa_edge p2 = mput peqb (pa_edge p) (c_src (q_cfg q), c_tgt (q_cfg q)) c) by (rewrite PE2, PE1; reflexivity).
        apply IH; [auto|lia|]. split.
        * congruence.
        * intros j q' Lj G'. destruct (Nat.eq_dec j k) as [->|N].
          -- replace q' with q by congruence. exists c. rewrite NL. split; [exact E0|]. unfold edge_shows. rewrite PE. apply (mget_put_eq _ peqb_eq).
          -- eapply own_other; [exact PE|apply (DIF j q'); [lia|exact G']|]. apply P2; [lia|exact G'].
        * intros j q' v Lj G' Hv. destruct (Nat.eq_dec j k) as [->|NK].
          -- replace q' with q in Hv by congruence. destruct Hv as [->| ->]; [exact T2|apply M2; exact T1].
          -- apply M2, M1. eapply P3; [|exact G'|exact Hv]. lia.
        * exact R2.
        * intros j q' Lj G' OL' T'. destruct (Nat.eq_dec j k) as [->|NK]; [replace q' with q in * by congruence; congruence|]. apply S2; [lia|assumption..].
  Qed.

  Lemma get_repeat {A} (x : A) n i y : get (repeat x n) i = Some y -> y = x.
  Proof. intro H. apply nth_error_In in H. apply repeat_spec in H. exact H. Qed.

  Lemma update_all_ok p : exists p' todo, update_all_colors d qs lk ins nl p = Ok p' /\ progress (length qs) todo p'.
  Proof.
    unfold update_all_colors. apply update_queues_ok; [reflexivity|lia|]. split; try (intros; lia).
    - apply repeat_length.
    - intros v H. apply get_repeat in H. discriminate.
  Qed.
End Painting.
