(** * PropsAnimate: claims about animations and highlighted drawings (C71, C72) *)
From Coq Require Import List ZArith QArith Bool Arith Lia Sorted.
From Verif Require Import Base Dict UnionFind UnionFindProofs Graph SpecGraph GraphProofs GraphClaims GraphNet GraphIndex.
From Verif Require Import Queue SpecQueue Network SpecNet SpecBuild GraphBuild PropsBuild Colors ColorProofs PaintProofs PropsColor Animate AnimateProofs ShowProofs.
Import ListNotations.
Open Scope Z_scope.

(** ** C71: animate simulates the network, and the picture shows it *)

(** An event with slow=True does to the network what an event with slow=False
    does, and [animate(t=t)] shows events as [simulate] makes them: every
    frame is one more event, until the clock is after [now + t]. *)
Theorem C71_event d lk ins nl s s' : slow_event d lk ins nl s = Ok s' -> simulate_event (sc_net s) = Ok (sc_net s').
Proof. apply slow_net. Qed.
Print Assumptions C71_event.

Theorem C71_same d lk ins nl m t s s' : animate d lk ins nl m t s = Ok s' ->
  nt_init (sc_net s) = true /\
  exists j, (j <= m)%nat /\ nruns j (sc_net s) = Ok (sc_net s') /\ (j = m \/ eLt (eadd (nt_t (sc_net s)) t) (nt_t (sc_net s'))) /\
    forall i n, (i < j)%nat -> nruns i (sc_net s) = Ok n -> eLe (nt_t n) (eadd (nt_t (sc_net s)) t).
Proof.
  unfold animate. intro H. destruct (nt_init (sc_net s)); [|discriminate]. split; [reflexivity|].
  destruct (update_all_colors d (nt_queues (sc_net s)) lk ins nl (sc_paint s)) as [p|]; [|discriminate]. cbn [bind] in H. apply frames_net in H. exact H.
Qed.
Print Assumptions C71_same.

(** Every frame of an animation shows the network as it is: edges have the
    colour of their queue, vertices without loop the colour for their queues;
    so have vertices with loops if there is at most one loop whose type is
    not 0.  No frame fails.  Missing: the colours of vertices with loops in
    all networks ([C71_loops_refuted]). *)
Theorem C71_animate_partial d lk ins nl n0 n p prev m t : well_made n0 -> made_for n0 -> connected n0 -> mild_loops n0 -> nreach tidy n0 n -> nt_init n = true ->
  dressed d (nt_queues n0) lk ins nl -> ins_lead (nt_queues n0) ins -> (forall k, prev = Some k -> (k < length (nt_queues n))%nat) ->
  exists s' j, animate d lk ins nl m t (mkScene n p prev) = Ok s' /\
    (j <= m)%nat /\ nruns j n = Ok (sc_net s') /\ (j = m \/ eLt (eadd (nt_t n) t) (nt_t (sc_net s'))) /\
    (forall i n', (i < j)%nat -> nruns i n = Ok n' -> eLe (nt_t n') (eadd (nt_t n) t)) /\
    shown d lk ins nl (nt_queues (sc_net s')) (sc_paint s').
Proof. apply animate_ok. Qed.
Print Assumptions C71_animate_partial.

(** The in-edges of a built network are as they should be. *)
Theorem C71_lead d cls n ins : dwf d -> built d cls n ins ->
  (forall v, (v < length (g_nodes (dg_g d)))%nat -> vertex (dg_g d) v) -> (forall u v o, edge (dg_g d) u v o -> exists t, o = Some t) -> ins_lead (nt_queues n) ins.
Proof.
  intros W B NV TY v ks k q G I Gk. assert (V : vertex (dg_g d) v). { apply NV. rewrite <- (bu_insize _ _ _ _ B). apply nth_error_Some. unfold get in G. congruence. }
  destruct (bu_in _ _ _ _ B v V) as (ks' & G' & ws & _ & _ & F). replace ks' with ks in * by congruence.
  assert (X : exists w, In ((w, v), k) (dg_index d)). { clear -F I. induction F as [|w j ws ks H F IH]; [destruct I|]. destruct I as [->|I]; [eauto|apply IH; exact I]. }
  destruct X as (w & X). destruct (index_arc d w v k W X) as (o & E). destruct (TY w v o E) as (t & ->). destruct (bu_queue _ _ _ _ B w v k t X E) as (q' & c & Gq & _ & _ & TG & _). congruence.
Qed.
Print Assumptions C71_lead.

(** A loop of type 1 at vertex 0 and the edges 0-1 and 1-0. *)
Definition g71 : graph_in := GDict (ADicts [(0%nat, [(0%nat, Some 1); (1%nat, Some 1)]); (1%nat, [(0%nat, Some 2)])]).
Definition n71 := make_network g71 true [] [] None plain (Fin 100) true (Inf, 0%nat) (fun i => if Nat.even i then 1 # 4 else 3 # 4)%Q (fun _ => 1).
Lemma made71 : n71 = Ok (net_of n71, graph_of n71, ins_of n71). Proof. vm_compute. reflexivity. Qed.
Definition start71 : net := match initialize_queues [0; 1]%nat (net_of n71) with Ok n => n | Err _ => net_of n71 end.

Lemma plain_args nE t c a : mget Z.eqb (with_defaults [] default_classes) t = Some c ->
  mget Z.eqb (complete_args (with_defaults [] default_classes) None plain) t = Some a -> args_ok nE c a /\ (c <> CResource -> mild_args c a).
Proof.
  intros C A. apply (mget_In _ zeq_eq) in C, A. assert (a = plain) by (cbn in A; intuition congruence). subst a.
  assert (c <> CInfo) by (cbn in C; intuition congruence). split.
  - split; [apply plain_forward|]. split; [apply plain_forward|]. split; [contradiction|]. discriminate.
  - intro N. split; [exact N|]. split; [discriminate|]. intros k i x X. cbn. destruct x; [discriminate|congruence].
Qed.

(** Networks with two vertices as in [dressed_example] meet the hypotheses. *)
Lemma runs_example gi u n d ins : proper_graph gi -> (forall v, mentioned (as_adj gi) v <-> (v < 2)%nat) ->
  (forall x y o, listed (as_adj gi) x y o -> In (dflt o) [0; 1; 2]) ->
  make_network gi true [] [] None plain (Fin 100) true (Inf, 0%nat) u (fun _ => 1) = Ok (n, d, ins) ->
  forallb (fun q => (0 <=? c_type (q_cfg q)) && (c_type (q_cfg q) <=? 9) && (q_nsys q =? 0) && (eeqb (q_servers q) (Fin 0) || eeqb (q_servers q) (Fin 1))) (nt_queues n) = true ->
  (well_made n /\ made_for n /\ connected n /\ mild_loops n) /\ dressed d (nt_queues n) (by_type (nt_queues n)) ins grey /\ ins_lead (nt_queues n) ins /\ types_agree d (nt_queues n).
Proof.
  intros PG VN TY MK ST.
  destruct (network_ok gi [] [] None plain (Fin 100) true (Inf, 0%nat) u (fun _ => 1) 2 PG VN) as (n1 & d1 & ins1 & qs & out & M & W & V & A & TE & LO & B & Q & L & R).
  - exists CNull, plain. repeat split.
  - intros x y o Lx. apply TY in Lx. cbn in Lx. destruct Lx as [<-|[<-|[<-|[]]]]; eexists; exists plain; repeat split.
  - rewrite MK in M. injection M as <- <- <-. assert (LN : length (g_nodes (dg_g d)) = 2%nat) by (apply (sub_seq_length (g_nodes (dg_g d)) 2); [apply W|exact V]).
    assert (TE' : forall x y o, edge (dg_g d) x y o -> exists t, o = Some t) by (intros x y o E; destruct (TE x y o E) as [->|(o' & _ & ->)]; eauto).
    split; [|split; [|split]].
    + rewrite Q in B. rewrite Q. apply (built_runs d _ [] _ qs out _ _ _ _ _ ins W B L R).
      * intros t c a C Aa. apply (plain_args _ t c a C Aa).
      * intro i. lia.
      * exact LO.
      * reflexivity.
      * intros v t c a X C Aa. right. apply (plain_args 0 t c a C Aa). destruct (TE v v _ X) as [H|(o & LX & H)]; injection H as ->.
        -- cbn in C. injection C as <-. discriminate.
        -- apply TY in LX. cbn in LX. destruct LX as [H|[H|[H|[]]]]; rewrite <- H in C; cbn in C; injection C as <-; discriminate.
    + apply (C55_built d _ n ins _ _ _ W B).
      * intros v Vv. rewrite LN. apply V. exact Vv.
      * exact TE'.
      * reflexivity.
      * intros k q G. assert (T : 0 <= c_type (q_cfg q) <= 9 /\ q_nsys q = 0 /\ (q_servers q = Fin 0 \/ q_servers q = Fin 1)).
        { rewrite forallb_forall in ST. specialize (ST q (nth_error_In _ _ G)). rewrite !andb_true_iff, orb_true_iff, !eeqb_eq, !Z.leb_le, Z.eqb_eq in ST. tauto. }
        destruct T as (T & N & S). unfold by_type. rewrite G. split; [apply hue_decent; exact T|]. split; [|lia].
        split; [destruct S as [-> | ->]; cbn; lia|]. destruct S as [-> | ->]; discriminate.
      * split; (split; [reflexivity|]); repeat constructor; discriminate.
    + apply (C71_lead d _ n ins W B); [|exact TE']. intros v Lv. rewrite LN in Lv. apply V. exact Lv.
    + intros x y k q I G. destruct (index_arc d x y k W I) as (o & E). destruct (TE' x y o E) as (t & ->). destruct (bu_queue _ _ _ _ B x y k t I E) as (q' & c & Gq & _ & _ & _ & _ & T & _). congruence.
Qed.

Ltac two := split; [split; [discriminate|split; [repeat constructor; cbn; intuition congruence|]; intros x r [H|[H|[]]]; injection H as <- <-; repeat constructor; cbn; intuition congruence]|]; exists 0%nat; cbn; auto.

Lemma good71 : (well_made (net_of n71) /\ made_for (net_of n71) /\ connected (net_of n71) /\ mild_loops (net_of n71)) /\
  dressed (graph_of n71) (nt_queues (net_of n71)) (by_type (nt_queues (net_of n71))) (ins_of n71) grey /\ ins_lead (nt_queues (net_of n71)) (ins_of n71) /\ types_agree (graph_of n71) (nt_queues (net_of n71)).
Proof.
  apply (runs_example g71 (fun i => if Nat.even i then 1 # 4 else 3 # 4)%Q); [| | |exact made71|vm_compute; reflexivity].
  - two.
  - intro v. cbn. split; [|intro H; lia]. intros [H|(x & o & r & [H|[H|[]]] & J)]; [lia| |]; injection H as <- <-; cbn in J.
    + destruct J as [J|[J|[]]]; injection J as <- <-; lia.
    + destruct J as [J|[]]; injection J as <- <-; lia.
  - intros x y o H. cbn in H. destruct H as (r & [H|[H|[]]] & J); injection H as <- <-; cbn in J.
    + destruct J as [J|[J|[]]]; injection J as <- <-; cbn; auto.
    + destruct J as [J|[]]; injection J as <- <-; cbn; auto.
Qed.

Example C71_ex : nreach tidy (net_of n71) start71 /\ nt_init start71 = true /\ one_loop (nt_queues start71) /\
  match animate (graph_of n71) (by_type (nt_queues (net_of n71))) (ins_of n71) grey 30 (Fin 25) (mkScene start71 blank None) with
  | Ok s' => nt_events (sc_net s') = 15%Z /\ nt_t (sc_net s') = Fin 26 /\ map q_nsys (nt_queues (sc_net s')) = [1; 2; 1]
  | Err _ => False
  end.
Proof.
  assert (E : initialize_queues [0; 1]%nat (net_of n71) = Ok start71) by (vm_compute; reflexivity).
  split; [eapply (nreach_step _ _ _ (KInit [0; 1]%nat)); [apply nreach_here|split; [vm_compute; reflexivity|discriminate]|exact E]|].
  split; [vm_compute; reflexivity|]. split.
  - assert (X : map on_loop (nt_queues start71) = [true; false; false]) by (vm_compute; reflexivity).
    assert (Y : forall k q, get (nt_queues start71) k = Some q -> on_loop q = true -> k = 0%nat).
    { intros k q G L. assert (Z : nth_error (map on_loop (nt_queues start71)) k = Some true) by (rewrite <- L; apply map_nth_error; exact G). rewrite X in Z. clear -Z. destruct k as [|[|[|k]]]; cbn in Z; [reflexivity|discriminate Z|discriminate Z|destruct k; discriminate Z]. }
    intros k q k' q' G G' L L' _ _. rewrite (Y _ _ G L), (Y _ _ G' L'). reflexivity.
  - vm_compute. auto.
Qed.

(** With two loops of types 1 and 2 a vertex may show the queue of another
    vertex (line 1587). *)
Definition n71b := make_network g55b true [] [] None plain (Fin 100) true (Inf, 0%nat) (fun _ => 3 # 4)%Q (fun _ => 1).
Lemma made71b : n71b = Ok (net_of n71b, graph_of n71b, ins_of n71b). Proof. vm_compute. reflexivity. Qed.
Definition start71b : net := match initialize_queues [0]%nat (net_of n71b) with Ok n => n | Err _ => net_of n71b end.
Lemma good71b : (well_made (net_of n71b) /\ made_for (net_of n71b) /\ connected (net_of n71b) /\ mild_loops (net_of n71b)) /\
  dressed (graph_of n71b) (nt_queues (net_of n71b)) (by_type (nt_queues (net_of n71b))) (ins_of n71b) grey /\ ins_lead (nt_queues (net_of n71b)) (ins_of n71b) /\ types_agree (graph_of n71b) (nt_queues (net_of n71b)).
Proof.
  apply (runs_example g55b (fun _ => 3 # 4)%Q); [| | |exact made71b|vm_compute; reflexivity].
  - two.
  - intro v. cbn. split; [|intro H; lia]. intros [H|(x & o & r & [H|[H|[]]] & J)]; [lia| |]; injection H as <- <-; cbn in J; destruct J as [J|[J|[]]]; injection J as <- <-; lia.
  - intros x y o H. cbn in H. destruct H as (r & [H|[H|[]]] & J); injection H as <- <-; cbn in J; destruct J as [J|[J|[]]]; injection J as <- <-; cbn; auto.
Qed.

Theorem C71_loops_refuted : exists d lk ins nl n0 n p m s' k q,
  well_made n0 /\ made_for n0 /\ connected n0 /\ mild_loops n0 /\ nreach tidy n0 n /\ nt_init n = true /\ dressed d (nt_queues n0) lk ins nl /\ ins_lead (nt_queues n0) ins /\
  animate d lk ins nl m Inf (mkScene n p None) = Ok s' /\
  get (nt_queues (sc_net s')) k = Some q /\ on_loop q = true /\ c_type (q_cfg q) <> 0 /\ ~ loop_right lk (sc_paint s') k q.
Proof.
  destruct good71b as ((H1 & H2 & H3 & H4) & H5 & H6 & _).
  exists (graph_of n71b), (by_type (nt_queues (net_of n71b))), (ins_of n71b), grey, (net_of n71b), start71b, blank, 2%nat. eexists. exists 3%nat. eexists.
  assert (E : initialize_queues [0]%nat (net_of n71b) = Ok start71b) by (vm_compute; reflexivity).
  repeat (split; [assumption|]).
  split; [eapply (nreach_step _ _ _ (KInit [0]%nat)); [apply nreach_here|split; [vm_compute; reflexivity|discriminate]|exact E]|].
  split; [vm_compute; reflexivity|]. split; [exact H5|]. split; [exact H6|]. split; [vm_compute; reflexivity|]. split; [vm_compute; reflexivity|]. split; [vm_compute; reflexivity|]. split; [vm_compute; discriminate|].
  intros (c2 & c0 & A & B & C & F). vm_compute in B. injection B as <-. vm_compute in F. discriminate.
Qed.
Print Assumptions C71_loops_refuted.

(** ** C72: show_active and show_type *)

(** The picture of [show_active]: an edge is dark exactly if its queue is
    active, a vertex is coloured exactly if an active queue leads to it.
    Afterwards the colours are those of [shown] again.  Missing: that all
    colours are as before ([C72_restore_refuted]). *)
Theorem C72_active_partial d qs lk ins nl mk p : dressed d qs lk ins nl -> exists drawn p',
  show_active d lk ins nl qs mk p = Ok (drawn, p') /\
  (forall k q, get qs k = Some q -> edge_shows drawn (c_src (q_cfg q), c_tgt (q_cfg q)) (plain_color (if q_active q then mk_eactive mk else mk_einactive mk))) /\
  (forall v, vertex (dg_g d) v -> vertex_shows drawn v (plain_color [0; 0; 0; 9 # 10]%Q) /\
     (entered_from_outside qs v -> fill_shows drawn v (plain_color (mk_vactive mk))) /\ (~ entered_from_outside qs v -> fill_shows drawn v (plain_color (mk_vinactive mk)))) /\
  shown d lk ins nl qs p'.
Proof.
  intro D. destruct (show_active_ok d qs lk ins nl mk D p) as (drawn & p' & E & U & S1 & S2). destruct (all_shown d lk ins nl qs drawn D) as (p1 & U1 & SH).
  exists drawn, p'. split; [exact E|]. split; [exact S1|]. split; [exact S2|]. replace p' with p1 by congruence. exact SH.
Qed.
Print Assumptions C72_active_partial.

(** The picture of [show_type(ty)]: an edge is dark exactly if its queue has
    type [ty], a vertex is highlighted exactly if its loop has type [ty].
    Missing: as for [C72_active_partial]. *)
Theorem C72_type_partial d qs lk ins nl mk ty p : dressed d qs lk ins nl -> types_agree d qs -> exists drawn p',
  show_type d lk ins nl qs mk ty p = Ok (drawn, p') /\
  (forall k q, get qs k = Some q -> edge_shows drawn (c_src (q_cfg q), c_tgt (q_cfg q)) (plain_color (if c_type (q_cfg q) =? ty then mk_eactive mk else mk_einactive mk))) /\
  (forall v, vertex (dg_g d) v ->
     (forall k, loop_of_type qs ty v k -> vertex_shows drawn v (plain_color (lk_vertex (lk k))) /\ fill_shows drawn v (plain_color (mk_highlight mk))) /\
     ((forall k, ~ loop_of_type qs ty v k) -> vertex_shows drawn v (plain_color [0; 0; 0; 9 # 10]%Q) /\ fill_shows drawn v (plain_color (mk_vinactive mk)))) /\
  shown d lk ins nl qs p'.
Proof.
  intros D T. destruct (show_type_ok d qs lk ins nl mk D ty p T) as (drawn & p' & E & U & S1 & S2). destruct (all_shown d lk ins nl qs drawn D) as (p1 & U1 & SH).
  exists drawn, p'. split; [exact E|]. split; [exact S1|]. split; [exact S2|]. replace p' with p1 by congruence. exact SH.
Qed.
Print Assumptions C72_type_partial.

(** The colours of queue_network.py:279-289. *)
Definition net_marks : marks := mkMarks [1 # 10; 1; 1 # 2; 1]%Q [95 # 100; 95 # 100; 95 # 100; 1]%Q [1 # 2; 1 # 2; 1 # 2; 1]%Q [1 # 10; 1 # 10; 1 # 10; 1]%Q [8 # 10; 8 # 10; 8 # 10; 3 # 10]%Q.

Lemma loop_at (n : net) k q v ty : get (nt_queues n) k = Some q -> (on_loop q && (c_tgt (q_cfg q) =? v)%nat && (c_type (q_cfg q) =? ty)) = true -> loop_of_type (nt_queues n) ty v k.
Proof. intros G B. apply andb_true_iff in B as [B T]. apply andb_true_iff in B as [L V]. apply Nat.eqb_eq in V. apply Z.eqb_eq in T. exists q. auto. Qed.

Example C72_ex : let qs := nt_queues start71 in
  dressed (graph_of n71) qs (by_type (nt_queues (net_of n71))) (ins_of n71) grey /\ types_agree (graph_of n71) qs /\
  map q_active qs = [true; true; false] /\ entered_from_outside qs 0 /\ loop_of_type qs 1 0 0 /\ forall k, ~ loop_of_type qs 1 1 k.
Proof.
  cbv zeta. destruct good71 as (GN & D & IL & TA). assert (CF : map q_cfg (nt_queues start71) = map q_cfg (nt_queues (net_of n71))) by (vm_compute; reflexivity).
  assert (MX : map (fun q => (on_loop q, c_tgt (q_cfg q))) (nt_queues start71) = [(true, 0); (false, 1); (false, 0)]%nat) by (vm_compute; reflexivity).
  assert (E : initialize_queues [0; 1]%nat (net_of n71) = Ok start71) by (vm_compute; reflexivity).
  assert (R : nreach usual (net_of n71) start71) by (eapply (nreach_step _ _ _ (KInit [0; 1]%nat)); [apply nreach_here|vm_compute; reflexivity|exact E]).
  split; [exact (proj1 (reach_dressed _ _ _ _ _ _ (proj1 GN) D IL R))|]. split.
  - intros x y k q I G. assert (X : nth_error (map q_cfg (nt_queues start71)) k = Some (q_cfg q)) by (apply map_nth_error; exact G). rewrite CF in X.
    destruct (nth_error (nt_queues (net_of n71)) k) as [q'|] eqn:G'; [|apply nth_error_None in G'; assert (nth_error (map q_cfg (nt_queues (net_of n71))) k = None) by (apply nth_error_None; rewrite map_length; exact G'); congruence].
    rewrite (map_nth_error q_cfg k _ G') in X. injection X as X. rewrite <- X. exact (TA x y k q' I G').
  - split; [vm_compute; reflexivity|]. split; [|split].
    + exists 0%nat. eexists. split; [vm_compute; reflexivity|]. vm_compute. auto.
    + eapply loop_at; vm_compute; reflexivity.
    + intros k (q & G & L & T & _). assert (Z : nth_error (map (fun q => (on_loop q, c_tgt (q_cfg q))) (nt_queues start71)) k = Some (on_loop q, c_tgt (q_cfg q))) by (exact (map_nth_error _ k _ G)).
      rewrite MX, L, T in Z. clear -Z. destruct k as [|[|[|k]]]; cbn in Z; [discriminate Z|discriminate Z|discriminate Z|destruct k; discriminate Z].
Qed.

(** A vertex with a loop of type 0 whose number is below those of its other
    edges stays as it was drawn: the update of all colours passes it over, and
    the colours of the earlier picture do not come back. *)
Theorem C72_restore_refuted : exists n d ins p0 p drawn p' v c c',
  n55c = Ok (n, d, ins) /\ let qs := nt_queues n in let lk := by_type qs in
  prepare_colors d qs lk grey blank = Ok p0 /\ update_all_colors d qs lk ins grey p0 = Ok p /\
  show_active d lk ins grey qs net_marks p = Ok (drawn, p') /\ vertex (dg_g d) v /\
  fill_shows p v c /\ fill_shows p' v c' /\ ~ c = c'.
Proof.
  exists (net_of n55c), (graph_of n55c), (ins_of n55c). do 4 eexists. exists 0%nat. do 2 eexists. split; [vm_compute; reflexivity|]. cbv zeta. split; [vm_compute; reflexivity|]. split; [vm_compute; reflexivity|]. split; [vm_compute; reflexivity|].
  split; [vm_compute; auto|]. split; [vm_compute; reflexivity|]. split; [vm_compute; reflexivity|]. discriminate.
Qed.
Print Assumptions C72_restore_refuted.
