(** * ShowProofs: show_active and show_type *)
From Coq Require Import List ZArith QArith Bool Arith Lia.
From Verif Require Import Base Dict UnionFind UnionFindProofs Graph SpecGraph GraphProofs GraphClaims GraphNet GraphIndex Queue SpecQueue Network SpecNet SpecBuild GraphBuild Colors ColorProofs PaintProofs Animate.
Import ListNotations.
Open Scope Z_scope.

(** ** Specification *)

(** Some active queue leads to [v]. *)
Definition entered_from_outside (qs : list queue) (v : nat) : Prop := exists k q, get qs k = Some q /\ c_tgt (q_cfg q) = v /\ q_active q = true.

Section Marking.
  Context (d : dgraph) (qs : list queue) (lk : nat -> look) (ins : list (list nat)) (nl : netlook) (mk : marks).
  Context (D : dressed d qs lk ins nl).

  Lemma edge_queue e : In e (g_edges (dg_g d)) -> arc (dg_g d) (fst e) (snd e) /\
    exists k q, index_of d e = Ok k /\ get qs k = Some q /\ In (e, k) (dg_index d) /\ c_src (q_cfg q) = fst e /\ c_tgt (q_cfg q) = snd e.
  Proof.
    intro I. assert (W := dr_wf _ _ _ _ _ D). destruct e as [u v]. assert (A : arc (dg_g d) u v) by (apply g_edges_in; exact I). split; [exact A|].
    destruct (arc_index d u v W A) as (k & Ik & _). destruct (dr_queue _ _ _ _ _ D _ _ Ik) as (q & G & X & Y). exists k, q. rewrite (index_of_ok d (u, v) k W Ik). auto 6.
  Qed.

  Lemma any_active_ok es : (forall e, In e es -> In e (g_edges (dg_g d))) ->
    exists b, any_active d qs es = Ok b /\ (b = true <-> exists k q, get qs k = Some q /\ In (c_src (q_cfg q), c_tgt (q_cfg q)) es /\ q_active q = true).
  Proof.
    induction es as [|e es IH]; intro H; cbn [any_active].
    - exists false. split; [reflexivity|]. split; [discriminate|]. intros (k & q & _ & [] & _).
    - destruct (edge_queue e (H e (or_introl eq_refl))) as (_ & k & q & E & G & Ik & X & Y). rewrite E. cbn [bind]. rewrite G. cbn [of_option bind].
      destruct (q_active q) eqn:A.
      + exists true. split; [reflexivity|]. split; [|auto]. intros _. exists k, q. rewrite X, Y. destruct e. cbn. auto.
      + destruct IH as (b & E' & B); [intros e' I'; apply H; right; exact I'|]. exists b. split; [exact E'|]. rewrite B. split; intros (j & q' & G' & I' & A').
        * exists j, q'. split; [exact G'|]. split; [right; exact I'|exact A'].
        * exists j, q'. split; [exact G'|]. split; [|exact A']. destruct I' as [I'|I']; [|exact I']. exfalso. subst e. cbn [fst snd] in X, Y.
          assert (j = k) by (apply (same_edge d qs lk ins nl D j q' k q G' G); congruence). congruence.
  Qed.

  Lemma in_edges_active v : exists b, any_active d qs (in_edges_of d v) = Ok b /\ (b = true <-> entered_from_outside qs v).
  Proof.
    destruct (any_active_ok (in_edges_of d v)) as (b & E & B); [intros e I; apply filter_In in I; apply I|]. exists b. split; [exact E|]. rewrite B.
    split; intros (k & q & G & X & A); exists k, q; split; auto; split; auto.
    - apply filter_In in X as [_ X]. apply Nat.eqb_eq in X. exact X.
    - apply filter_In. split; [apply g_edges_in; eapply queue_arc; eauto|]. cbn [snd]. rewrite X. apply Nat.eqb_refl.
  Qed.

  Lemma mark_active_vertices_ok : forall vs p, (forall v, In v vs -> vertex (dg_g d) v) ->
    exists p', mark_active_vertices d qs mk vs p = Ok p' /\ pa_edge p' = pa_edge p /\
      (forall v, In v vs -> vertex_shows p' v dark /\ exists b, (b = true <-> entered_from_outside qs v) /\ fill_shows p' v (plain_color (if b : bool then mk_vactive mk else mk_vinactive mk))) /\
      (forall v, ~ In v vs -> mget Nat.eqb (pa_vertex p') v = mget Nat.eqb (pa_vertex p) v /\ mget Nat.eqb (pa_fill p') v = mget Nat.eqb (pa_fill p) v).
  Proof.
    induction vs as [|v vs IH]; intros p H; cbn [mark_active_vertices]; [exists p; split; [reflexivity|]; split; [reflexivity|]; split; [intros v []|auto]|].
    assert (V := H v (or_introl eq_refl)). rewrite (set_vertex_ok d qs lk ins nl D) by exact V. cbn [bind]. destruct (in_edges_active v) as (b & E & B). rewrite E. cbn [bind].
    rewrite (set_fill_ok d qs lk ins nl D) by exact V. cbn [bind pa_edge pa_vertex pa_fill].
    destruct (IH (mkPaint (pa_edge p) (mput Nat.eqb (pa_vertex p) v dark) (mput Nat.eqb (pa_fill p) v (plain_color (if b then mk_vactive mk else mk_vinactive mk)))) (fun w I => H w (or_intror I))) as (p' & E' & PE & S1 & S2).
    exists p'. split; [exact E'|]. split; [exact PE|]. cbn [pa_vertex pa_fill] in S2. split.
    - intros w I. destruct (in_dec Nat.eq_dec w vs) as [J|J]; [apply S1; exact J|]. destruct I as [->|I]; [|contradiction]. destruct (S2 w J) as [X Y]. unfold vertex_shows, fill_shows. rewrite X, Y.
      split; [apply (mget_put_eq _ neq_eq)|]. exists b. split; [exact B|apply (mget_put_eq _ neq_eq)].
    - intros w N. destruct (S2 w) as [X Y]; [intro J; apply N; right; exact J|]. rewrite X, Y. assert (v <> w) by (intros ->; apply N; left; reflexivity). rewrite !(mget_put_neq _ neq_eq) by congruence. auto.
  Qed.

  Lemma mark_active_edges_ok : forall es p, (forall e, In e es -> In e (g_edges (dg_g d))) ->
    exists p', mark_active_edges d qs mk es p = Ok p' /\ pa_vertex p' = pa_vertex p /\ pa_fill p' = pa_fill p /\
      (forall k q, get qs k = Some q -> In (c_src (q_cfg q), c_tgt (q_cfg q)) es -> edge_shows p' (c_src (q_cfg q), c_tgt (q_cfg q)) (plain_color (if q_active q then mk_eactive mk else mk_einactive mk))) /\
      (forall e, ~ In e es -> mget peqb (pa_edge p') e = mget peqb (pa_edge p) e).
  Proof.
    assert (W := dr_wf _ _ _ _ _ D). induction es as [|e es IH]; intros p H; cbn [mark_active_edges]; [exists p; split; [reflexivity|]; split; [reflexivity|]; split; [reflexivity|]; split; [intros k q _ []|auto]|].
    destruct (edge_queue e (H e (or_introl eq_refl))) as (A & k & q & E & G & Ik & X & Y). rewrite E. cbn [bind]. rewrite G. cbn [of_option bind]. rewrite set_edge_ok by (assumption || exact A). cbn [bind].
    destruct (IH (mkPaint (mput peqb (pa_edge p) e (plain_color (if q_active q then mk_eactive mk else mk_einactive mk))) (pa_vertex p) (pa_fill p)) (fun w I => H w (or_intror I))) as (p' & E' & PV & PF & S1 & S2).
    exists p'. split; [exact E'|]. split; [exact PV|]. split; [exact PF|]. cbn [pa_edge] in S2.
    assert (DE : forall e1 e2 : nat * nat, {e1 = e2} + {e1 <> e2}) by (repeat decide equality). split.
    - intros j q' G' I. destruct (in_dec DE (c_src (q_cfg q'), c_tgt (q_cfg q')) es) as [J|J]; [apply (S1 j); assumption|]. destruct I as [I|I]; [|contradiction].
      assert (j = k) by (subst e; cbn [fst snd] in X, Y; apply (same_edge d qs lk ins nl D j q' k q G' G); congruence). subst j. replace q' with q in * by congruence.
      unfold edge_shows. rewrite S2 by exact J. rewrite I. apply (mget_put_eq _ peqb_eq).
    - intros e' N. rewrite S2 by (intro J; apply N; right; exact J). apply (mget_put_neq _ peqb_eq). intros ->. apply N. left. reflexivity.
  Qed.

  (** What [show_active] shows, before everything is coloured again. *)
  Lemma show_active_ok p : exists shown p', show_active d lk ins nl qs mk p = Ok (shown, p') /\ update_all_colors d qs lk ins nl shown = Ok p' /\
    (forall k q, get qs k = Some q -> edge_shows shown (c_src (q_cfg q), c_tgt (q_cfg q)) (plain_color (if q_active q then mk_eactive mk else mk_einactive mk))) /\
    (forall v, vertex (dg_g d) v -> vertex_shows shown v dark /\
       (entered_from_outside qs v -> fill_shows shown v (plain_color (mk_vactive mk))) /\ (~ entered_from_outside qs v -> fill_shows shown v (plain_color (mk_vinactive mk)))).
  Proof.
    unfold show_active. destruct (mark_active_vertices_ok (g_nodes (dg_g d)) p) as (p1 & E1 & _ & S1 & _); [auto|]. rewrite E1. cbn [bind].
    destruct (mark_active_edges_ok (g_edges (dg_g d)) p1) as (p2 & E2 & PV & PF & S2 & _); [auto|]. rewrite E2. cbn [bind].
    destruct (update_all_ok d qs lk ins nl D p2) as (p3 & todo & E3 & _). rewrite E3. cbn [bind]. exists p2, p3. split; [reflexivity|]. split; [exact E3|]. split.
    - intros k q G. apply (S2 k q G). apply g_edges_in. eapply queue_arc; eauto.
    - intros v V. destruct (S1 v V) as (A & b & B & F). unfold vertex_shows, fill_shows in *. rewrite PV, PF. split; [exact A|].
      destruct b; (split; intro X; [|]); try exact F; exfalso; [apply X, B; reflexivity|]. apply B in X. discriminate.
  Qed.

  (** ** show_type *)

  (** Edges know the type of their queue. *)
  Definition types_agree : Prop := forall u v k q, In ((u, v), k) (dg_index d) -> get qs k = Some q -> edge (dg_g d) u v (Some (c_type (q_cfg q))).

  Lemma edge_type_ok k q : types_agree -> get qs k = Some q -> ep_type d (c_src (q_cfg q), c_tgt (q_cfg q)) = Ok (Some (c_type (q_cfg q))).
  Proof.
    intros T G. apply (ep_type_ok d _ _ _ (dr_wf _ _ _ _ _ D)). apply (T _ _ k q); [|exact G]. eapply queue_edge; eauto.
  Qed.

  Lemma loop_queue v : match mget peqb (dg_index d) (v, v) with
    | Some k => exists q, get qs k = Some q /\ c_src (q_cfg q) = v /\ c_tgt (q_cfg q) = v /\ index_of d (v, v) = Ok k /\ is_edge d (v, v) = true
    | None => is_edge d (v, v) = false /\ forall k q, get qs k = Some q -> on_loop q = true -> c_tgt (q_cfg q) <> v
    end.
  Proof.
    assert (W := dr_wf _ _ _ _ _ D). destruct (mget peqb (dg_index d) (v, v)) as [k|] eqn:MK.
    - assert (Ik := mget_In _ peqb_eq _ _ _ MK). destruct (dr_queue _ _ _ _ _ D _ _ Ik) as (q & G & X & Y). exists q. rewrite (index_of_ok d (v, v) k W Ik). unfold is_edge, mhas. rewrite MK. auto.
    - unfold is_edge, mhas. rewrite MK. split; [reflexivity|]. intros k q G OL E. assert (Ik := queue_edge d qs lk ins nl D k q G). apply Nat.eqb_eq in OL. rewrite OL, E in Ik.
      rewrite (mget_nodup _ peqb_eq _ _ _ (proj1 (dw_index _ W)) Ik) in MK. discriminate.
  Qed.

  (** The loop at [v] has type [ty]. *)
  Definition loop_of_type (ty : Z) (v k : nat) : Prop := exists q, get qs k = Some q /\ on_loop q = true /\ c_tgt (q_cfg q) = v /\ c_type (q_cfg q) = ty.

  Lemma loop_decided ty v : types_agree ->
    exists b, (if is_edge d (v, v) then (let* o := ep_type d (v, v) in Ok match o with Some x => x =? ty | None => false end) else Ok false) = Ok b /\
      (b = true -> exists k, loop_of_type ty v k /\ index_of d (v, v) = Ok k /\ exists q, get qs k = Some q) /\ (b = false -> forall k, ~ loop_of_type ty v k).
  Proof.
    intro T. assert (L := loop_queue v). destruct (mget peqb (dg_index d) (v, v)) as [k|].
    - destruct L as (q & G & X & Y & I & E). rewrite E. assert (ET := edge_type_ok k q T G). rewrite X, Y in ET. rewrite ET. cbn [bind]. eexists. split; [reflexivity|].
      assert (OL : on_loop q = true) by (unfold on_loop; rewrite X, Y; apply Nat.eqb_refl). split.
      + intro B. apply Z.eqb_eq in B. exists k. split; [exists q; auto|]. eauto.
      + intros B j (q' & G' & OL' & Y' & T'). apply Z.eqb_neq in B. assert (j = k) by (apply Nat.eqb_eq in OL'; apply (same_edge d qs lk ins nl D j q' k q G' G); congruence). subst j. congruence.
    - destruct L as [E N]. rewrite E. exists false. split; [reflexivity|]. split; [discriminate|]. intros _ k (q & G & OL & Y & _). eapply N; eauto.
  Qed.

  Lemma mark_type_vertices_ok ty : types_agree -> forall vs p, (forall v, In v vs -> vertex (dg_g d) v) ->
    exists p', mark_type_vertices d lk qs mk ty vs p = Ok p' /\
      (forall v, In v vs -> (forall k, loop_of_type ty v k -> vertex_shows p' v (plain_color (lk_vertex (lk k))) /\ fill_shows p' v (plain_color (mk_highlight mk))) /\
        ((forall k, ~ loop_of_type ty v k) -> vertex_shows p' v dark /\ fill_shows p' v (plain_color (mk_vinactive mk)))) /\
      (forall v, ~ In v vs -> mget Nat.eqb (pa_vertex p') v = mget Nat.eqb (pa_vertex p) v /\ mget Nat.eqb (pa_fill p') v = mget Nat.eqb (pa_fill p) v).
  Proof.
    intro T. induction vs as [|v vs IH]; intros p H; cbn [mark_type_vertices]; [exists p; split; [reflexivity|]; split; [intros v []|auto]|].
    assert (V := H v (or_introl eq_refl)). destruct (loop_decided ty v T) as (b & E & B1 & B2). rewrite E. cbn [bind].
    assert (ST : exists p1 c2 c0, (if b then let* k := index_of d (v, v) in let* p := set_fill d v (plain_color (mk_highlight mk)) p in let* _ := of_option IndexError (get qs k) in set_vertex d v (plain_color (lk_vertex (lk k))) p
          else let* p := set_fill d v (plain_color (mk_vinactive mk)) p in set_vertex d v dark p) = Ok p1 /\
        p1 = mkPaint (pa_edge p) (mput Nat.eqb (pa_vertex p) v c2) (mput Nat.eqb (pa_fill p) v c0) /\
        (forall k, loop_of_type ty v k -> c2 = plain_color (lk_vertex (lk k)) /\ c0 = plain_color (mk_highlight mk)) /\
        ((forall k, ~ loop_of_type ty v k) -> c2 = dark /\ c0 = plain_color (mk_vinactive mk))).
    { destruct b.
      - destruct (B1 eq_refl) as (k & LT & I & q & G). rewrite I. cbn [bind]. rewrite (set_fill_ok d qs lk ins nl D) by exact V. cbn [bind]. rewrite G. cbn [of_option bind]. rewrite (set_vertex_ok d qs lk ins nl D) by exact V.
        cbn [pa_edge pa_vertex pa_fill]. do 3 eexists. split; [reflexivity|]. split; [reflexivity|]. split; [|intro N; exfalso; exact (N k LT)].
        intros k' (q' & G' & OL' & Y' & _). destruct LT as (q0 & G0 & OL0 & Y0 & _). apply Nat.eqb_eq in OL', OL0. assert (k' = k) by (apply (same_edge d qs lk ins nl D k' q' k q0 G' G0); congruence). subst k'. auto.
      - rewrite (set_fill_ok d qs lk ins nl D) by exact V. cbn [bind]. rewrite (set_vertex_ok d qs lk ins nl D) by exact V. cbn [pa_edge pa_vertex pa_fill]. do 3 eexists. split; [reflexivity|]. split; [reflexivity|].
        split; [intros k L; exfalso; exact (B2 eq_refl k L)|auto]. }
    destruct ST as (p1 & c2 & c0 & E1 & -> & C1 & C2). rewrite E1. cbn [bind]. destruct (IH (mkPaint (pa_edge p) (mput Nat.eqb (pa_vertex p) v c2) (mput Nat.eqb (pa_fill p) v c0)) (fun w I => H w (or_intror I))) as (p' & E' & S1 & S2).
    exists p'. split; [exact E'|]. cbn [pa_vertex pa_fill] in S2. split.
    - intros w I. destruct (in_dec Nat.eq_dec w vs) as [J|J]; [apply S1; exact J|]. destruct I as [->|I]; [|contradiction]. destruct (S2 w J) as [X Y]. unfold vertex_shows, fill_shows. rewrite X, Y.
      rewrite !(mget_put_eq _ neq_eq). split; [intros k L; destruct (C1 k L) as [-> ->]; auto|intro N; destruct (C2 N) as [-> ->]; auto].
    - intros w N. destruct (S2 w) as [X Y]; [intro J; apply N; right; exact J|]. rewrite X, Y. assert (v <> w) by (intros ->; apply N; left; reflexivity). rewrite !(mget_put_neq _ neq_eq) by congruence. auto.
  Qed.

  Lemma mark_type_edges_ok ty : types_agree -> forall es p, (forall e, In e es -> In e (g_edges (dg_g d))) ->
    exists p', mark_type_edges d mk ty es p = Ok p' /\ pa_vertex p' = pa_vertex p /\ pa_fill p' = pa_fill p /\
      (forall k q, get qs k = Some q -> In (c_src (q_cfg q), c_tgt (q_cfg q)) es -> edge_shows p' (c_src (q_cfg q), c_tgt (q_cfg q)) (plain_color (if c_type (q_cfg q) =? ty then mk_eactive mk else mk_einactive mk))) /\
      (forall e, ~ In e es -> mget peqb (pa_edge p') e = mget peqb (pa_edge p) e).
  Proof.
    intro T. assert (W := dr_wf _ _ _ _ _ D). induction es as [|e es IH]; intros p H; cbn [mark_type_edges]; [exists p; split; [reflexivity|]; split; [reflexivity|]; split; [reflexivity|]; split; [intros k q _ []|auto]|].
    destruct (edge_queue e (H e (or_introl eq_refl))) as (A & k & q & E & G & Ik & X & Y). assert (ET := edge_type_ok k q T G). rewrite X, Y in ET. destruct e as [u v]. cbn [fst snd] in *. rewrite ET. cbn [bind]. cbv zeta.
    rewrite set_edge_ok by (assumption || exact A). cbn [bind].
    destruct (IH (mkPaint (mput peqb (pa_edge p) (u, v) (plain_color (if c_type (q_cfg q) =? ty then mk_eactive mk else mk_einactive mk))) (pa_vertex p) (pa_fill p)) (fun w I => H w (or_intror I))) as (p' & E' & PV & PF & S1 & S2).
    exists p'. split; [exact E'|]. split; [exact PV|]. split; [exact PF|]. cbn [pa_edge] in S2.
    assert (DE : forall e1 e2 : nat * nat, {e1 = e2} + {e1 <> e2}) by (repeat decide equality). split.
    - intros j q' G' I. destruct (in_dec DE (c_src (q_cfg q'), c_tgt (q_cfg q')) es) as [J|J]; [apply (S1 j); assumption|]. destruct I as [I|I]; [|contradiction].
      assert (j = k) by (injection I as I1 I2; apply (same_edge d qs lk ins nl D j q' k q G' G); congruence). subst j. replace q' with q in * by congruence.
      unfold edge_shows. rewrite S2 by exact J. rewrite I. apply (mget_put_eq _ peqb_eq).
    - intros e' N. rewrite S2 by (intro J; apply N; right; exact J). apply (mget_put_neq _ peqb_eq). intro X0. apply N. left. congruence.
  Qed.

  Lemma show_type_ok ty p : types_agree -> exists shown p', show_type d lk ins nl qs mk ty p = Ok (shown, p') /\ update_all_colors d qs lk ins nl shown = Ok p' /\
    (forall k q, get qs k = Some q -> edge_shows shown (c_src (q_cfg q), c_tgt (q_cfg q)) (plain_color (if c_type (q_cfg q) =? ty then mk_eactive mk else mk_einactive mk))) /\
    (forall v, vertex (dg_g d) v -> (forall k, loop_of_type ty v k -> vertex_shows shown v (plain_color (lk_vertex (lk k))) /\ fill_shows shown v (plain_color (mk_highlight mk))) /\
       ((forall k, ~ loop_of_type ty v k) -> vertex_shows shown v dark /\ fill_shows shown v (plain_color (mk_vinactive mk)))).
  Proof.
    intro T. unfold show_type. destruct (mark_type_vertices_ok ty T (g_nodes (dg_g d)) p) as (p1 & E1 & S1 & _); [auto|]. rewrite E1. cbn [bind].
    destruct (mark_type_edges_ok ty T (g_edges (dg_g d)) p1) as (p2 & E2 & PV & PF & S2 & _); [auto|]. rewrite E2. cbn [bind].
    destruct (update_all_ok d qs lk ins nl D p2) as (p3 & todo & E3 & _). rewrite E3. cbn [bind]. exists p2, p3. split; [reflexivity|]. split; [exact E3|]. split.
    - intros k q G. apply (S2 k q G). apply g_edges_in. eapply queue_arc; eauto.
    - intros v V. unfold vertex_shows, fill_shows in *. rewrite PV, PF. apply S1. exact V.
  Qed.
End Marking.
