(** * DrawNet: the pictures of networks *)
From Coq Require Import List ZArith QArith Bool Arith Lia.
From Verif Require Import Base Dict UnionFind UnionFindProofs Graph SpecGraph GraphProofs GraphClaims GraphNet GraphIndex Heap PQueue Queue SpecQueue Network NetSteps SpecNet SpecBuild GraphBuild Colors PaintProofs Animate AnimateProofs Drawing DrawProofs.
Import ListNotations.
Open Scope Z_scope.

(** ** Colours in the properties *)

Record mirrors (d : dgraph) (p : paint) (s : gprops) : Prop := mkMirrors {
  mi_tied : tied d s;
  mi_ecol : exists l, array_of NEdgeColor s = Some (Some l);
  mi_vcol : exists l, array_of NVertexColor s = Some (Some l);
  mi_fcol : exists l, array_of NFillColor s = Some (Some l);
  mi_edge : forall e c, In e (g_edges (dg_g d)) -> edge_shows p e c -> ep d e NEdgeColor s = Ok (VNum c);
  mi_vertex : forall v c, vertex (dg_g d) v -> vertex_shows p v c -> vp d v NVertexColor s = Ok (VNum c);
  mi_fill : forall v c, vertex (dg_g d) v -> fill_shows p v c -> vp d v NFillColor s = Ok (VNum c)
}.

Lemma set_ep_total d e p x s l : dwf d -> tied d s -> In e (g_edges (dg_g d)) -> p = NEdgeColor -> array_of p s = Some (Some l) ->
  exists s' l', set_ep d e p x s = Ok s' /\ array_of p s' = Some (Some l').
Proof.
  intros W T I -> A. destruct e as [u v]. assert (R := proj1 (g_edges_in _ _ _) I). destruct (arc_index d u v W R) as (k & J & L). destruct R as (a & R).
  unfold set_ep. rewrite (ep_type_ok d u v a W R). cbn [bind]. unfold write_row. rewrite arr_put_e, A, (index_of_ok d _ _ W J). cbn [bind].
  destruct (ti_edge _ _ T l A) as (LN & _). rewrite set_upd by (rewrite LN, (dw_count _ W); exact L). cbn [of_option bind].
  eexists. eexists. split; [reflexivity|]. apply arr_put_array_eq. reflexivity.
Qed.
Lemma set_vp_total d v p x s l : vertex (dg_g d) v -> (v < length l)%nat -> named p = false -> array_of p s = Some (Some l) ->
  exists s' l', set_vp d v p x s = Ok s' /\ array_of p s' = Some (Some l').
Proof.
  intros V L NM A. unfold set_vp. apply (mhas_in _ neq_eq) in V. rewrite V. unfold write_row. rewrite arr_put_v, A. cbn [bind].
  rewrite set_upd by exact L. cbn [of_option bind]. eexists. eexists. split; [reflexivity|]. apply arr_put_array_eq. exact NM.
Qed.
Lemma set_edge_inv d e c p p' : dwf d -> set_edge d e c p = Ok p' -> In e (g_edges (dg_g d)) /\ p' = mkPaint (mput peqb (pa_edge p) e c) (pa_vertex p) (pa_fill p).
Proof.
  intros W H. unfold set_edge in H. destruct (ep_type d e) as [a|] eqn:E; [|discriminate]. cbn [bind] in H. injection H as <-. split; [|reflexivity].
  destruct e as [u v]. apply g_edges_in. exists a. unfold ep_type, nget in E. cbn [fst snd] in E. destruct (mget Nat.eqb (dg_g d) u) as [r|] eqn:M; [|discriminate].
  cbn [of_option bind] in E. destruct (mget Nat.eqb r v) as [b|] eqn:M2; [|discriminate]. cbn [of_option] in E. injection E as ->.
  exists r. split; [apply (mget_In _ neq_eq); exact M|apply (mget_In _ neq_eq); exact M2].
Qed.
Lemma vertex_check_inv d v u : vertex_check d v = Ok u -> vertex (dg_g d) v /\ (v < length (g_nodes (dg_g d)))%nat.
Proof.
  unfold vertex_check. destruct (mhas Nat.eqb (dg_g d) v) eqn:M; cbn [negb]; [|discriminate]. destruct (v <? _)%nat eqn:L; [|discriminate]. intros _.
  split; [apply (mhas_in _ neq_eq); exact M|apply Nat.ltb_lt; exact L].
Qed.

Lemma write_mirrors d w p p' s : dwf d -> mirrors d p s -> write_paint d w p = Ok p' ->
  exists s', write_props d w s = Ok s' /\ mirrors d p' s' /\ array_of NPos s' = array_of NPos s.
Proof.
  intros W M H. destruct M as [T (le & Ae) (lv & Av) (lf & Af) ME MV MF]. destruct w as [e c|v c|v c]; cbn [write_paint write_props] in *.
  - apply set_edge_inv in H as (I & ->); [|exact W]. destruct (set_ep_total d e NEdgeColor (VNum c) s le W T I eq_refl Ae) as (s' & l' & E & A').
    exists s'. split; [exact E|]. destruct (set_ep_reads _ _ _ _ _ _ E) as (R1 & R2 & R3 & R4). split; [|apply R4; discriminate]. split.
    + eapply set_ep_tied; [exact W| |exact T|exact E]. repeat split; discriminate.
    + eauto.
    + exists lv. rewrite R4 by discriminate. exact Av.
    + exists lf. rewrite R4 by discriminate. exact Af.
    + intros e' c' I' S. unfold edge_shows in S. cbn [pa_edge] in S. destruct (kq_dec _ peqb_eq e e') as [<-|N].
      * rewrite (mget_put_eq _ peqb_eq) in S. congruence.
      * rewrite (mget_put_neq _ peqb_eq) in S by exact N. rewrite R2 by congruence. apply ME; assumption.
    + intros v c' V S. rewrite R3. apply MV; assumption.
    + intros v c' V S. rewrite R3. apply MF; assumption.
  - unfold set_vertex in H. destruct (vertex_check d v) as [u|] eqn:K; [|discriminate]. cbn [bind] in H. injection H as <-. apply vertex_check_inv in K as (V & L).
    destruct (set_vp_total d v NVertexColor (VNum c) s lv V) as (s' & l' & E & A'); [rewrite (proj1 (ti_vertex _ _ T _ Av)); exact L|reflexivity|exact Av|].
    exists s'. split; [exact E|]. destruct (set_vp_reads _ _ _ _ _ _ E) as (R1 & R2 & R3 & R4). split; [|apply R4; discriminate]. split.
    + eapply set_vp_tied; [|exact T|exact E]. discriminate.
    + exists le. rewrite R4 by discriminate. exact Ae.
    + eauto.
    + exists lf. rewrite R4 by discriminate. exact Af.
    + intros e c' I S. rewrite R3. apply ME; assumption.
    + intros v' c' V' S. unfold vertex_shows in S. cbn [pa_vertex] in S. destruct (Nat.eq_dec v v') as [<-|N].
      * rewrite (mget_put_eq _ neq_eq) in S. congruence.
      * rewrite (mget_put_neq _ neq_eq) in S by exact N. rewrite R2 by congruence. apply MV; assumption.
    + intros v' c' V' S. rewrite R2 by congruence. apply MF; assumption.
  - unfold set_fill in H. destruct (vertex_check d v) as [u|] eqn:K; [|discriminate]. cbn [bind] in H. injection H as <-. apply vertex_check_inv in K as (V & L).
    destruct (set_vp_total d v NFillColor (VNum c) s lf V) as (s' & l' & E & A'); [rewrite (proj1 (ti_fill _ _ T _ Af)); exact L|reflexivity|exact Af|].
    exists s'. split; [exact E|]. destruct (set_vp_reads _ _ _ _ _ _ E) as (R1 & R2 & R3 & R4). split; [|apply R4; discriminate]. split.
    + eapply set_vp_tied; [|exact T|exact E]. discriminate.
    + exists le. rewrite R4 by discriminate. exact Ae.
    + exists lv. rewrite R4 by discriminate. exact Av.
    + eauto.
    + intros e c' I S. rewrite R3. apply ME; assumption.
    + intros v' c' V' S. rewrite R2 by congruence. apply MV; assumption.
    + intros v' c' V' S. unfold fill_shows in S. cbn [pa_fill] in S. destruct (Nat.eq_dec v v') as [<-|N].
      * rewrite (mget_put_eq _ neq_eq) in S. congruence.
      * rewrite (mget_put_neq _ neq_eq) in S by exact N. rewrite R2 by congruence. apply MF; assumption.
Qed.
Lemma writes_mirrors d ws : dwf d -> forall p p' s, mirrors d p s -> writes (write_paint d) ws p = Ok p' ->
  exists s', writes (write_props d) ws s = Ok s' /\ mirrors d p' s' /\ array_of NPos s' = array_of NPos s.
Proof.
  intro W. induction ws as [|w ws IH]; intros p p' s M H; cbn [writes] in *; [injection H as <-; eauto|].
  destruct (write_paint d w p) as [p1|] eqn:E; [|discriminate]. cbn [bind] in H. destruct (write_mirrors d w p p1 s W M E) as (s1 & E1 & M1 & A1).
  rewrite E1. cbn [bind]. destruct (IH p1 p' s1 M1 H) as (s' & E' & M' & A'). exists s'. split; [exact E'|]. split; [exact M'|congruence].
Qed.

(** ** Pictures *)

(** The picture shows the vertices at the places [P] and the colours [p]. *)
Record pictured (d : dgraph) (P : nat -> pval) (p : paint) (pic : picture) : Prop := mkPictured {
  pd_segments : length (pi_segments pic) = length (g_edges (dg_g d)) /\ forall u v k, In ((u, v), k) (dg_index d) -> get (pi_segments pic) k = Some (P u, P v);
  pd_points : length (pi_points pic) = length (g_nodes (dg_g d)) /\ forall v, vertex (dg_g d) v -> get (pi_points pic) v = Some (P v);
  pd_lines : exists l, pi_lines pic = Some l /\ length l = length (g_edges (dg_g d)) /\ forall e k c, In (e, k) (dg_index d) -> edge_shows p e c -> get l k = Some (VNum c);
  pd_borders : exists l, pi_borders pic = Some l /\ length l = length (g_nodes (dg_g d)) /\ forall v c, vertex (dg_g d) v -> vertex_shows p v c -> get l v = Some (VNum c);
  pd_fills : exists l, pi_fills pic = Some l /\ length l = length (g_nodes (dg_g d)) /\ forall v c, vertex (dg_g d) v -> fill_shows p v c -> get l v = Some (VNum c)
}.
(** The array [pos] has the places [P]. *)
Definition located (d : dgraph) (P : nat -> pval) (s : gprops) : Prop :=
  exists l, gp_pos s = Some l /\ length l = length (g_nodes (dg_g d)) /\ forall v, vertex (dg_g d) v -> get l v = Some (P v).

Lemma mirrors_picture d P p s layout : dwf d -> labels_small d -> mirrors d p s -> located d P s ->
  exists pic, lines_scatter_args d layout None s = Ok (pic, s) /\ pictured d P p pic.
Proof.
  intros W SM M (arr & A & L & AT). destruct (picture_ok d arr s W SM A L layout) as (segs & E & LS & SG). eexists. split; [exact E|].
  destruct M as [T (le & Ae) (lv & Av) (lf & Af) ME MV MF]. split; cbn [pi_segments pi_points pi_lines pi_borders pi_fills].
  - split; [exact LS|]. intros u v k I. destruct (SG u v k I) as (a & b & X & Y & Z). assert (R := index_arc _ _ _ _ W I).
    assert (Vu : vertex (dg_g d) u) by (destruct R as (x & r & R & _); apply in_map_iff; exists (u, r); auto).
    assert (Vv : vertex (dg_g d) v) by (destruct R as (x & R); apply (dw_closed _ W) in R; exact R).
    rewrite (AT u Vu) in X. rewrite (AT v Vv) in Y. congruence.
  - auto.
  - exists le. split; [cbn in Ae; congruence|]. destruct (ti_edge _ _ T le Ae) as (LE & RE). split; [exact LE|]. intros [u v] k c I S.
    destruct (RE k (VNum c)) as [X|X]; [|discriminate|exact X]. exists (u, v). split; [exact I|]. apply ME; [|exact S]. apply g_edges_in. eapply index_arc; eassumption.
  - exists lv. split; [cbn in Av; congruence|]. destruct (ti_vertex _ _ T lv Av) as (LE & RE). split; [exact LE|]. intros v c V S.
    destruct (RE v (VNum c)) as [X|X]; [|discriminate|exact X]. apply MV; assumption.
  - exists lf. split; [cbn in Af; congruence|]. destruct (ti_fill _ _ T lf Af) as (LE & RE). split; [exact LE|]. intros v c V S.
    destruct (RE v (VNum c)) as [X|X]; [|discriminate|exact X]. apply MF; assumption.
Qed.

(** ** The colours of a network are made by assignments *)

Definition leads (d : dgraph) (p p' : paint) : Prop := exists ws, writes (write_paint d) ws p = Ok p'.
Lemma leads_here d p : leads d p p.
Proof. exists []. reflexivity. Qed.
Lemma writes_app {A} (f : write -> A -> res A) ws ws' : forall x y z, writes f ws x = Ok y -> writes f ws' y = Ok z -> writes f (ws ++ ws') x = Ok z.
Proof.
  induction ws as [|w ws IH]; intros x y z H H'; cbn [writes app] in *; [injection H as <-; exact H'|].
  destruct (f w x) as [x1|]; [|discriminate]. cbn [bind] in *. eauto.
Qed.
Lemma leads_trans d p1 p2 p3 : leads d p1 p2 -> leads d p2 p3 -> leads d p1 p3.
Proof. intros (a & A) (b & B). exists (a ++ b). eapply writes_app; eassumption. Qed.
Lemma leads_one d w p p' : write_paint d w p = Ok p' -> leads d p p'.
Proof. intro H. exists [w]. cbn [writes]. rewrite H. reflexivity. Qed.
Lemma leads_edge d e c p p' : set_edge d e c p = Ok p' -> leads d p p'.
Proof. apply (leads_one d (WEdge e c)). Qed.
Lemma leads_vertex d v c p p' : set_vertex d v c p = Ok p' -> leads d p p'.
Proof. apply (leads_one d (WVertex v c)). Qed.
Lemma leads_fill d v c p p' : set_fill d v c p = Ok p' -> leads d p p'.
Proof. apply (leads_one d (WFill v c)). Qed.

Ltac lstep :=
  match goal with
  | H : set_edge _ _ _ ?p = Ok ?p' |- leads _ ?p _ => eapply leads_trans; [exact (leads_edge _ _ _ _ _ H)|]; clear H
  | H : set_vertex _ _ _ ?p = Ok ?p' |- leads _ ?p _ => eapply leads_trans; [exact (leads_vertex _ _ _ _ _ H)|]; clear H
  | H : set_fill _ _ _ ?p = Ok ?p' |- leads _ ?p _ => eapply leads_trans; [exact (leads_fill _ _ _ _ _ H)|]; clear H
  | |- leads _ ?p ?p => apply leads_here
  end.
Ltac opens :=
  repeat match goal with
  | H : Err _ = Ok _ |- _ => discriminate H
  | H : Ok _ = Ok _ |- _ => injection H as H; subst
  | H : bind ?x _ = Ok _ |- _ => let E := fresh "E" in destruct x eqn:E; cbn [bind] in H; [|discriminate H]
  | H : (let (_, _) := ?x in _) = Ok _ |- _ => let E := fresh "E" in destruct x eqn:E
  | H : (if ?b then _ else _) = Ok _ |- _ => let E := fresh "B" in destruct b eqn:E
  end.
Lemma leads_update_vertex d qs ins nl v p p' : update_vertex d qs ins nl v p = Ok p' -> leads d p p'.
Proof. unfold update_vertex. cbv zeta. intro H. opens; repeat lstep. Qed.
Lemma leads_update_loop d l q e v w p p' : update_loop d l q e v w p = Ok p' -> leads d p p'.
Proof. unfold update_loop. intro H. opens; repeat lstep. Qed.
Lemma leads_unless d qs ins nl v todo p todo' p' : update_unless d qs ins nl v todo p = Ok (todo', p') -> leads d p p'.
Proof. unfold update_unless. intro H. opens; [|apply leads_here]. eapply leads_update_vertex; eassumption. Qed.
Lemma leads_queues d qs lk ins nl : forall l k todo p p', update_queues d qs lk ins nl k l todo p = Ok p' -> leads d p p'.
Proof.
  induction l as [|q l IH]; intros k todo p p' H; cbn [update_queues] in H; cbv zeta in H; [injection H as <-; apply leads_here|].
  destruct (Nat.eqb (c_src (q_cfg q)) (c_tgt (q_cfg q))).
  - destruct (update_loop d (lk k) q (c_src (q_cfg q), c_tgt (q_cfg q)) (c_tgt (q_cfg q)) (c_tgt (q_cfg q)) p) as [p1|] eqn:E1; [|discriminate]. cbn [bind] in H.
    destruct (of_option IndexError (set todo (c_tgt (q_cfg q)) false)); [|discriminate]. cbn [bind] in H.
    eapply leads_trans; [eapply leads_update_loop; exact E1|eapply IH; exact H].
  - destruct (current_color (lk k) q 0) as [c|]; [|discriminate]. cbn [bind] in H.
    destruct (set_edge d (c_src (q_cfg q), c_tgt (q_cfg q)) c p) as [p1|] eqn:E1; [|discriminate]. cbn [bind] in H.
    destruct (update_unless d qs ins nl (c_tgt (q_cfg q)) todo p1) as [[t2 p2]|] eqn:E2; [|discriminate]. cbn [bind] in H.
    destruct (update_unless d qs ins nl (c_src (q_cfg q)) t2 p2) as [[t3 p3]|] eqn:E3; [|discriminate]. cbn [bind] in H.
    eapply leads_trans; [eapply leads_edge; exact E1|]. eapply leads_trans; [eapply leads_unless; exact E2|]. eapply leads_trans; [eapply leads_unless; exact E3|eapply IH; exact H].
Qed.
Lemma leads_all d qs lk ins nl p p' : update_all_colors d qs lk ins nl p = Ok p' -> leads d p p'.
Proof. apply leads_queues. Qed.
Lemma leads_update_one d qs lk ins nl k w p p' : update_one d qs lk ins nl k w p = Ok p' -> leads d p p'.
Proof.
  unfold update_one. cbv zeta. intro H. opens; [eapply leads_update_loop; eassumption|]. lstep. eapply leads_update_vertex; eassumption.
Qed.
Lemma leads_graph_colors d qs lk ins nl prev k p p' : update_graph_colors d qs lk ins nl prev k p = Ok p' -> leads d p p'.
Proof.
  unfold update_graph_colors. cbv zeta. intro H. destruct (of_option IndexError (get qs k)) as [q|]; [|discriminate]. cbn [bind] in H. destruct prev as [j|]; cbn [bind] in H.
  - destruct (update_one d qs lk ins nl j (c_tgt (q_cfg q)) p) as [p1|] eqn:E1; [|discriminate]. cbn [bind] in H.
    eapply leads_trans; eapply leads_update_one; eassumption.
  - eapply leads_update_one; eassumption.
Qed.
Lemma leads_paint_edges b d qs lk : forall es k p p', paint_edges b d qs lk k es p = Ok p' -> leads d p p'.
Proof. induction es as [|e es IH]; intros k p p' H; cbn [paint_edges] in H; cbv zeta in H; opens; [apply leads_here|]. lstep. eapply IH; eassumption. Qed.
Lemma leads_paint_vertices d qs lk nl : forall vs p p', paint_vertices d qs lk nl vs p = Ok p' -> leads d p p'.
Proof.
  induction vs as [|v vs IH]; intros p p' H; cbn [paint_vertices] in H; [opens; apply leads_here|].
  destruct (is_edge d (v, v)); opens; repeat lstep; eapply IH; eassumption.
Qed.
Lemma leads_prepare d qs lk nl p p' : prepare_colors d qs lk nl p = Ok p' -> leads d p p'.
Proof. unfold prepare_colors. intro H. opens. eapply leads_trans; [eapply leads_paint_edges; eassumption|eapply leads_paint_vertices; eassumption]. Qed.
Lemma leads_fill_vertices d nl : forall vs p p', fill_vertices d nl vs p = Ok p' -> leads d p p'.
Proof. induction vs as [|v vs IH]; intros p p' H; cbn [fill_vertices] in H; opens; [apply leads_here|]. lstep. eapply IH; eassumption. Qed.
Lemma leads_reset d qs lk nl p p' : reset_colors d qs lk nl p = Ok p' -> leads d p p'.
Proof. unfold reset_colors. intro H. opens. eapply leads_trans; [eapply leads_paint_edges; eassumption|eapply leads_fill_vertices; eassumption]. Qed.

Lemma leads_active_vertices d qs mk : forall vs p p', mark_active_vertices d qs mk vs p = Ok p' -> leads d p p'.
Proof. induction vs as [|v vs IH]; intros p p' H; cbn [mark_active_vertices] in H; opens; [apply leads_here|]. repeat lstep. eapply IH; eassumption. Qed.
Lemma leads_active_edges d qs mk : forall es p p', mark_active_edges d qs mk es p = Ok p' -> leads d p p'.
Proof. induction es as [|e es IH]; intros p p' H; cbn [mark_active_edges] in H; opens; [apply leads_here|]. repeat lstep. eapply IH; eassumption. Qed.
Lemma leads_show_active d lk ins nl qs mk p drawn p' : show_active d lk ins nl qs mk p = Ok (drawn, p') -> leads d p drawn /\ leads d drawn p'.
Proof.
  unfold show_active. intro H. destruct (mark_active_vertices d qs mk (g_nodes (dg_g d)) p) as [p1|] eqn:E1; [|discriminate]. cbn [bind] in H.
  destruct (mark_active_edges d qs mk (g_edges (dg_g d)) p1) as [p2|] eqn:E2; [|discriminate]. cbn [bind] in H.
  destruct (update_all_colors d qs lk ins nl p2) as [p3|] eqn:E3; [|discriminate]. cbn [bind] in H. injection H as <- <-.
  split; [eapply leads_trans; [eapply leads_active_vertices; exact E1|eapply leads_active_edges; exact E2]|eapply leads_all; exact E3].
Qed.
Lemma leads_type_vertices d lk qs mk ty : forall vs p p', mark_type_vertices d lk qs mk ty vs p = Ok p' -> leads d p p'.
Proof.
  induction vs as [|v vs IH]; intros p p' H; cbn [mark_type_vertices] in H; [opens; apply leads_here|].
  match type of H with bind ?x _ = _ => destruct x as [[|]|]; [| |discriminate] end; cbn [bind] in H; opens; repeat lstep; eapply IH; eassumption.
Qed.
Lemma leads_type_edges d mk ty : forall es p p', mark_type_edges d mk ty es p = Ok p' -> leads d p p'.
Proof. induction es as [|e es IH]; intros p p' H; cbn [mark_type_edges] in H; cbv zeta in H; opens; [apply leads_here|]. repeat lstep. eapply IH; eassumption. Qed.
Lemma leads_show_type d lk ins nl qs mk ty p drawn p' : show_type d lk ins nl qs mk ty p = Ok (drawn, p') -> leads d p drawn /\ leads d drawn p'.
Proof.
  unfold show_type. intro H. destruct (mark_type_vertices d lk qs mk ty (g_nodes (dg_g d)) p) as [p1|] eqn:E1; [|discriminate]. cbn [bind] in H.
  destruct (mark_type_edges d mk ty (g_edges (dg_g d)) p1) as [p2|] eqn:E2; [|discriminate]. cbn [bind] in H.
  destruct (update_all_colors d qs lk ins nl p2) as [p3|] eqn:E3; [|discriminate]. cbn [bind] in H. injection H as <- <-.
  split; [eapply leads_trans; [eapply leads_type_vertices; exact E1|eapply leads_type_edges; exact E2]|eapply leads_all; exact E3].
Qed.

Lemma leads_recolor d lk ins nl k s s' : recolor d lk ins nl k s = Ok s' -> leads d (sc_paint s) (sc_paint s').
Proof.
  unfold recolor. cbv zeta. intro H. destruct (queue_at k (sc_net s)) as [q|]; [|discriminate]. cbn [bind] in H.
  destruct (update_graph_colors d _ lk ins nl (sc_prev s) _ (sc_paint s)) as [p|] eqn:E; [|discriminate]. cbn [bind] in H. injection H as <-.
  cbn [sc_paint]. eapply leads_graph_colors; exact E.
Qed.
Ltac bnd H := cbv beta iota in H; match type of H with bind ?x _ = _ => let y := fresh "y" in let E := fresh "E" in destruct x as [y|] eqn:E; [|discriminate H]; cbn [bind] in H; cbv beta iota in H end.
Lemma leads_slow_move d lk ins nl k e1 e2 t s s' : slow_move d lk ins nl k e1 e2 t s = Ok s' -> leads d (sc_paint s) (sc_paint s').
Proof.
  unfold slow_move. cbv zeta. intro H. bnd H. bnd H. destruct y0 as [[a|] q1']; [|discriminate H]. bnd H. bnd H. bnd H. bnd H. bnd H. bnd H. bnd H. bnd H. destruct y7 as [r2 q2'']. bnd H.
  apply leads_recolor in E6, H. cbn [sc_paint with_net] in *. eapply leads_trans; eassumption.
Qed.
Lemma leads_slow_event d lk ins nl s s' : slow_event d lk ins nl s = Ok s' -> leads d (sc_paint s) (sc_paint s').
Proof.
  unfold slow_event. cbv zeta. destruct (pq_size (nt_heap (sc_net s)) =? 0)%nat; [intro H; injection H as <-; apply leads_here|].
  intro H. bnd H. destruct y as [[[t k]|] h]; [|discriminate H]. bnd H. bnd H. destruct (y0 =? 2); [|destruct (y0 =? 1)].
  - unfold slow_departure in H. cbv zeta in H. bnd H. bnd H. bnd H. destruct y3 as [e2 n1]. bnd H. match type of H with bind ?x _ = _ => destruct x as [s2|] eqn:ES; [|discriminate H] end.
    cbn [bind] in H. bnd H. injection H as <-. cbn [sc_paint with_net]. match type of ES with (if ?b then _ else _) = _ => destruct b end.
    + bnd ES. injection ES as <-. apply leads_here.
    + apply leads_slow_move in ES. exact ES.
  - unfold slow_arrival in H. cbv zeta in H. bnd H. bnd H. destruct y2 as [r q1'']. bnd H. bnd H. match goal with E : recolor _ _ _ _ _ _ = Ok _ |- _ => apply leads_recolor in E; rename E into R end. cbn [sc_paint with_net] in R.
    match type of H with (if ?b then _ else _) = _ => destruct b end; [bnd H|]; injection H as <-; exact R.
  - injection H as <-. apply leads_here.
Qed.
Lemma leads_frames d lk ins nl stop : forall m s s', frames d lk ins nl m stop s = Ok s' -> leads d (sc_paint s) (sc_paint s').
Proof.
  induction m as [|m IH]; intros s s' H; cbn [frames] in H; [injection H as <-; apply leads_here|].
  destruct (eltb stop (nt_t (sc_net s))); cbn [bind] in H; [eapply IH; exact H|]. bnd H. eapply leads_trans; [eapply leads_slow_event; exact E|eapply IH; exact H].
Qed.
Lemma leads_animate d lk ins nl m t s s' : animate d lk ins nl m t s = Ok s' -> leads d (sc_paint s) (sc_paint s').
Proof.
  unfold animate. destruct (nt_init (sc_net s)); [|discriminate]. intro H. bnd H. apply leads_frames in H. cbn [sc_paint] in H.
  eapply leads_trans; [eapply leads_all; exact E|exact H].
Qed.
