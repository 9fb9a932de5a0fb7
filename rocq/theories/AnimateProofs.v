(** * AnimateProofs: colours during events *)
From Coq Require Import List ZArith QArith Bool Arith Lia Permutation.
From Verif Require Import Base Dict UnionFind UnionFindProofs Graph SpecGraph GraphProofs GraphClaims GraphNet GraphIndex Heap HeapProofs PQueue Queue QueueEffects QueueEvents QueueSteps QueueInv.
From Verif Require Import SpecQueue QueueFlow QueueHist QueueClaims5 Network SpecNet NetQueue NetSteps NetInv NetTotal NetActive NetClaims1 NetReach SpecBuild GraphBuild Colors ColorProofs PaintProofs Animate.
Import ListNotations.
Open Scope Z_scope.

(** ** Specification *)

(** Queues that look the same. *)
Definition alike (q q' : queue) : Prop := q_cfg q' = q_cfg q /\ q_nsys q' = q_nsys q /\ q_servers q' = q_servers q.

(** The queues [qs'] are [qs], except that number [k] may look different. *)
Definition repainted (k : nat) (qs qs' : list queue) : Prop :=
  forall j q', get qs' j = Some q' -> exists q, get qs j = Some q /\ q_cfg q' = q_cfg q /\ (j <> k -> alike q q').

(** There is at most one loop whose type is not 0. *)
Definition one_loop (qs : list queue) : Prop :=
  forall k q k' q', get qs k = Some q -> get qs k' = Some q' -> on_loop q = true -> on_loop q' = true ->
    c_type (q_cfg q) <> 0 -> c_type (q_cfg q') <> 0 -> k = k'.

(** [in_edges] holds queues that lead to the vertex. *)
Definition ins_lead (qs : list queue) (ins : list (list nat)) : Prop :=
  forall v ks k q, get ins v = Some ks -> In k ks -> get qs k = Some q -> c_tgt (q_cfg q) = v.

(** The colours [p] show the queues [qs]. *)
Record shown (d : dgraph) (lk : nat -> look) (ins : list (list nat)) (nl : netlook) (qs : list queue) (p : paint) : Prop := mkShown {
  sh_edges : forall k q, get qs k = Some q -> own_color lk p k q;
  sh_plain : forall k q v, get qs k = Some q -> v = c_src (q_cfg q) \/ v = c_tgt (q_cfg q) -> ~ arc (dg_g d) v v -> vertex_right qs ins nl p v;
  sh_loops : one_loop qs -> forall k q, get qs k = Some q -> on_loop q = true -> c_type (q_cfg q) <> 0 -> loop_right lk p k q
}.

(** ** Queues that look the same *)

Lemma alike_refl q : alike q q. Proof. split; auto. Qed.
Lemma alike_trans q1 q2 q3 : alike q1 q2 -> alike q2 q3 -> alike q1 q3.
Proof. intros (A & B & C) (A' & B' & C'). repeat split; congruence. Qed.
Lemma alike_color l q q' w : alike q q' -> current_color l q' w = current_color l q w.
Proof. intros (A & B & C). unfold current_color, on_loop. rewrite A, B, C. reflexivity. Qed.
Lemma alike_loop q q' : q_cfg q' = q_cfg q -> on_loop q' = on_loop q.
Proof. intro A. unfold on_loop. rewrite A. reflexivity. Qed.

Lemma same_load qs qs' ks : (forall k, In k ks -> exists q q', get qs k = Some q /\ get qs' k = Some q' /\ alike q q') ->
  crowd qs' ks = crowd qs ks /\ force qs' ks = force qs ks.
Proof.
  induction ks as [|k ks IH]; intro H; [auto|]. destruct IH as [I1 I2]; [intros j J; apply H; right; exact J|].
  destruct (H k (or_introl eq_refl)) as (q & q' & G & G' & _ & A & B). cbn [crowd force]. rewrite G, G', A, B, I1, I2. auto.
Qed.
Lemma same_dark base qs qs' ks c : (forall k, In k ks -> exists q q', get qs k = Some q /\ get qs' k = Some q' /\ alike q q') ->
  darkened base qs ks c -> darkened base qs' ks c.
Proof. intros H D. apply same_load in H as [A B]. unfold darkened in *. rewrite A, B. exact D. Qed.

(** ** Servers in an event *)

Lemma took_shows l q q' k : took q q' k -> servers_show l q -> servers_show l q'.
Proof.
  intros (A & B & _ & K & _) [S1 S2]. unfold servers_show. rewrite A, B. destruct (q_servers q) as [s|].
  - split; [|discriminate]. cbn [fewer]. destruct K as [->|K]; cbn in *; lia.
  - split; [exact Logic.I|]. intros _. apply S2. reflexivity.
Qed.

Lemma next_shows l q r q' : next_event q = Ok (r, q') -> q_cfg q' = q_cfg q -> servers_show l q -> servers_show l q'.
Proof.
  intros H CF SS. destruct (c_class (q_cfg q)) eqn:C.
  - unfold next_event in H. rewrite C in H. apply qs_took in H as (k & _ & T). eapply took_shows; eauto.
  - unfold next_event in H. rewrite C in H. apply loss_took in H as (k & _ & T). eapply took_shows; eauto.
  - unfold next_event in H. rewrite C in H. injection H as _ <-. exact SS.
  - apply resource_next in H; [|exact C]. destruct H as [(_ & SV & _)|(_ & k & _ & T)]; [|eapply took_shows; eauto].
    destruct SS as [S1 S2]. unfold servers_show. rewrite CF, SV. destruct (q_servers q) as [s|]; cbn in *; [split; [lia|discriminate]|auto].
  - unfold next_event in H. rewrite C in H. unfold info_next_event in H. destruct (q_arr q) as [|i h]; [discriminate|]. mbind H. mbind H.
    apply loss_took in H as (k & _ & T). apply (took_shows l x0 q' k T).
    assert (X : x0 = q \/ exists nd, x0 = set_q_net nd q).
    { destruct (eltb (itime i) x); [|injection E0 as <-; auto]. unfold extract_information in E0. destruct i as [|a]; [injection E0 as <-; auto|].
      destruct (ag_kind a); try (injection E0 as <-; auto; fail). mbind E0. injection E0 as <-. eauto. }
    destruct X as [->|(nd & ->)]; exact SS.
Qed.

Section Showing.
  Context (d : dgraph) (lk : nat -> look) (ins : list (list nat)) (nl : netlook).

  Lemma repainted_length k qs qs' j : length qs' = length qs -> repainted k qs qs' -> get qs j <> None -> get qs' j <> None.
  Proof. intros L _ H. apply nth_error_Some in H. apply nth_error_Some. lia. Qed.

  (** Changed queues still fit the graph. *)
  Lemma dressed_repainted k qs qs' : dressed d qs lk ins nl -> length qs' = length qs -> repainted k qs qs' ->
    (forall q, get qs' k = Some q -> servers_show (lk k) q /\ 0 <= q_nsys q) -> dressed d qs' lk ins nl.
  Proof.
    intros [D1 D2 D3 D4 D5 D6 D7] L R K. split; auto.
    - intros e j I. destruct (D3 e j I) as (q & G & A & B). destruct (get qs' j) as [q'|] eqn:G'.
      + destruct (R j q' G') as (q0 & G0 & CF & _). exists q'. rewrite CF. replace q0 with q by congruence. auto.
      + exfalso. refine (repainted_length k qs qs' j L R _ G'). congruence.
    - intro j. rewrite L. apply D4.
    - intros v V. destruct (D5 v V) as (ks & G & I). exists ks. rewrite L. auto.
    - intros j q' G'. destruct (R j q' G') as (q & G & CF & AL). destruct (D6 j q G) as (A & B & C). split; [exact A|].
      destruct (Nat.eq_dec j k) as [->|N]; [apply K; exact G'|]. destruct (AL N) as (_ & X & Y). unfold servers_show. rewrite CF, X, Y. auto.
  Qed.

  Lemma lead_repainted k qs qs' : repainted k qs qs' -> ins_lead qs ins -> ins_lead qs' ins.
  Proof. intros R I v ks j q' G J G'. destruct (R j q' G') as (q & G0 & CF & _). rewrite CF. eapply I; eauto. Qed.
  Lemma one_repainted k qs qs' : repainted k qs qs' -> length qs' = length qs -> one_loop qs' -> one_loop qs.
  Proof.
    intros R L O j q j' q' G G' A B C E. destruct (get qs' j) as [x|] eqn:X; [|exfalso; refine (repainted_length k qs qs' j L R _ X); congruence].
    destruct (get qs' j') as [x'|] eqn:X'; [|exfalso; refine (repainted_length k qs qs' j' L R _ X'); congruence].
    destruct (R _ _ X) as (y & Y & CF & _). destruct (R _ _ X') as (y' & Y' & CF' & _). replace y with q in * by congruence. replace y' with q' in * by congruence.
    apply (O j x j' x' X X'); rewrite ?(alike_loop _ _ CF), ?(alike_loop _ _ CF'), ?CF, ?CF'; assumption.
  Qed.

  (** ** Colours of one edge *)

  (** What the update of one edge leaves alone. *)
  Lemma update_one_rest qs k q w p : dressed d qs lk ins nl -> get qs k = Some q -> vertex (dg_g d) w ->
    exists p', update_one d qs lk ins nl k w p = Ok p' /\
      (forall v, v <> c_tgt (q_cfg q) -> mget Nat.eqb (pa_vertex p') v = mget Nat.eqb (pa_vertex p) v) /\
      (on_loop q = true -> forall v, v <> w -> mget Nat.eqb (pa_fill p') v = mget Nat.eqb (pa_fill p) v) /\
      (on_loop q = true -> c_type (q_cfg q) = 0 -> pa_fill p' = pa_fill p) /\
      (on_loop q = true -> c_type (q_cfg q) <> 0 -> exists c2 c0, current_color (lk k) q 2 = Ok c2 /\ current_color (lk k) q 0 = Ok c0 /\
         vertex_shows p' (c_tgt (q_cfg q)) c2 /\ fill_shows p' w c0) /\
      (on_loop q = false -> other_vertices p p' (c_tgt (q_cfg q)) /\ (~ arc (dg_g d) (c_tgt (q_cfg q)) (c_tgt (q_cfg q)) -> vertex_right qs ins nl p' (c_tgt (q_cfg q))) /\
         forall j x, get qs j = Some x -> on_loop x = true -> c_type (q_cfg x) <> 0 -> c_tgt (q_cfg x) = c_tgt (q_cfg q) ->
           pa_vertex p' = pa_vertex p /\ pa_fill p' = pa_fill p).
  Proof.
    intros D G Vw. assert (W := dr_wf _ _ _ _ _ D). assert (A := queue_arc d qs lk ins nl D k q G). destruct (arc_ends d qs lk ins nl D _ _ A) as [_ Vv].
    unfold update_one. rewrite G. cbn [of_option bind]. unfold on_loop at 1 2 3. destruct (Nat.eqb (c_src (q_cfg q)) (c_tgt (q_cfg q))) eqn:OL.
    - unfold update_loop. destruct (queue_color d qs lk ins nl D k q 1 G) as (c1 & E1 & _). rewrite E1. cbn [bind]. rewrite set_edge_ok by (assumption || exact A). cbn [bind].
      destruct (queue_color d qs lk ins nl D k q 2 G) as (c2 & E2 & _). rewrite E2. cbn [bind]. rewrite (set_vertex_ok d qs lk ins nl D) by exact Vv. cbn [bind pa_edge pa_vertex pa_fill].
      destruct (c_type (q_cfg q) =? 0) eqn:TZ.
      + apply Z.eqb_eq in TZ. eexists. split; [reflexivity|]. cbn [pa_vertex pa_fill].
        split; [intros v N; apply (mget_put_neq _ neq_eq); congruence|]. split; [auto|]. split; [auto|]. split; [contradiction|]. unfold on_loop; rewrite OL; discriminate.
      + apply Z.eqb_neq in TZ. destruct (queue_color d qs lk ins nl D k q 0 G) as (c0 & E0 & _). rewrite E0. cbn [bind]. rewrite (set_fill_ok d qs lk ins nl D) by exact Vw.
        eexists. split; [reflexivity|]. cbn [pa_vertex pa_fill].
        split; [intros v N; apply (mget_put_neq _ neq_eq); congruence|]. split; [intros _ v N; apply (mget_put_neq _ neq_eq); congruence|]. split; [contradiction|]. split; [|unfold on_loop; rewrite OL; discriminate].
        intros _ _. exists c2, c0. split; [first [reflexivity|exact E2]|]. split; [first [reflexivity|exact E0]|]. split; apply (mget_put_eq _ neq_eq).
    - destruct (queue_color d qs lk ins nl D k q 0 G) as (c & E0 & _). rewrite E0. cbn [bind]. rewrite set_edge_ok by (assumption || exact A). cbn [bind].
      destruct (update_vertex_ok d qs lk ins nl D (c_tgt (q_cfg q)) (mkPaint (mput peqb (pa_edge p) (c_src (q_cfg q), c_tgt (q_cfg q)) c) (pa_vertex p) (pa_fill p)) Vv) as (p' & E & PE & OV & VR & LP).
      exists p'. split; [exact E|]. split; [intros v N; apply OV; exact N|]. do 3 (split; [unfold on_loop; rewrite ?OL; discriminate|]). intros _. split; [exact OV|]. split; [exact VR|].
      intros j x Gx Lx Tx Ex. assert (Ix := queue_edge d qs lk ins nl D j x Gx). apply Nat.eqb_eq in Lx. rewrite Lx, Ex in Ix.
      destruct (LP j x Ix Gx) as (_ & K & _). rewrite (K Tx). auto.
  Qed.

  (** ** _update_graph_colors keeps the picture right *)

  Lemma update_shown qs qs' p prev cur : shown d lk ins nl qs p -> dressed d qs' lk ins nl -> ins_lead qs' ins ->
    length qs' = length qs -> repainted cur qs qs' -> (forall k, prev = Some k -> (k < length qs)%nat) -> (cur < length qs)%nat ->
    exists p', update_graph_colors d qs' lk ins nl prev cur p = Ok p' /\ shown d lk ins nl qs' p'.
  Proof.
    intros [S1 S2 S3] D IL LE RP PV LC. assert (W := dr_wf _ _ _ _ _ D).
    destruct (get qs' cur) as [q|] eqn:G; [|apply nth_error_None in G; lia].
    destruct (queue_ends d qs' lk ins nl D cur q G) as [_ Vv].
    assert (NE : forall j x j' x', get qs' j = Some x -> get qs' j' = Some x' -> j <> j' -> (c_src (q_cfg x), c_tgt (q_cfg x)) <> (c_src (q_cfg x'), c_tgt (q_cfg x'))).
    { intros j x j' x' H H' N E. injection E as E1 E2. apply N. eapply (same_edge d qs' lk ins nl D); eauto. }
    (* what the old picture says about queues that look the same *)
    assert (O1 : forall j x, get qs' j = Some x -> j <> cur -> own_color lk p j x).
    { intros j x H N. destruct (RP j x H) as (y & Y & CF & AL). specialize (AL N). destruct (S1 j y Y) as (c & A & B). exists c.
      rewrite (alike_loop _ _ CF), (alike_color _ _ _ _ AL), CF. auto. }
    assert (O2 : forall j x v, get qs' j = Some x -> v = c_src (q_cfg x) \/ v = c_tgt (q_cfg x) -> ~ arc (dg_g d) v v -> v <> c_tgt (q_cfg q) -> vertex_right qs' ins nl p v).
    { intros j x v H Hv NA N. destruct (RP j x H) as (y & Y & CF & _). rewrite CF in Hv. destruct (S2 j y v Y Hv NA) as (A & ks & c & B & C & F). split; [exact A|]. exists ks, c. split; [exact B|]. split; [|exact F].
      revert C. apply same_dark. intros k Hk. destruct (get qs' k) as [z'|] eqn:Z'.
      - destruct (RP k z' Z') as (z & Z & CZ & AL). exists z, z'. split; [exact Z|]. split; [reflexivity|]. apply AL. intros ->.
        apply N. replace z' with q in * by congruence. symmetry. eapply IL; eauto.
      - exfalso. apply nth_error_None in Z'. destruct (queue_ends d qs' lk ins nl D j x H) as [V1 V2].
        destruct (dr_ins _ _ _ _ _ D v) as (ks' & G' & I'); [rewrite <- CF in Hv; destruct Hv as [->| ->]; assumption|].
        replace ks' with ks in * by congruence. specialize (I' k Hk). lia. }
    assert (O3 : one_loop qs' -> forall j x, get qs' j = Some x -> j <> cur -> on_loop x = true -> c_type (q_cfg x) <> 0 -> loop_right lk p j x).
    { intros OL j x H N Lx Tx. destruct (RP j x H) as (y & Y & CF & AL). specialize (AL N). rewrite (alike_loop _ _ CF) in Lx. rewrite CF in Tx.
      destruct (S3 (one_repainted cur qs qs' RP LE OL) j y Y Lx Tx) as (c2 & c0 & A & B & C & F). exists c2, c0. rewrite !(alike_color _ _ _ _ AL), CF. auto. }
    unfold update_graph_colors. rewrite G. cbn [of_option bind].
    (* the edge before *)
    assert (P1 : exists p1, match prev with None => Ok p | Some k => update_one d qs' lk ins nl k (c_tgt (q_cfg q)) p end = Ok p1 /\
      (forall j x, get qs' j = Some x -> j <> cur -> own_color lk p1 j x) /\
      (forall j x v, get qs' j = Some x -> v = c_src (q_cfg x) \/ v = c_tgt (q_cfg x) -> ~ arc (dg_g d) v v -> v <> c_tgt (q_cfg q) -> vertex_right qs' ins nl p1 v) /\
      (one_loop qs' -> forall j x, get qs' j = Some x -> j <> cur -> on_loop x = true -> c_type (q_cfg x) <> 0 -> loop_right lk p1 j x)).
    { destruct prev as [k|]; [|exists p; auto]. specialize (PV k eq_refl). destruct (get qs' k) as [qk|] eqn:Gk; [|apply nth_error_None in Gk; lia].
      destruct (update_one_ok d qs' lk ins nl D k qk (c_tgt (q_cfg q)) p Gk Vv) as (p1 & E1 & OC & XE & _).
      destruct (update_one_rest qs' k qk (c_tgt (q_cfg q)) p D Gk Vv) as (p1' & E1' & R1 & R2 & R3 & R4 & R5). rewrite E1 in E1'. injection E1' as <-.
      exists p1. split; [exact E1|]. split; [|split].
      - intros j x H N. destruct (Nat.eq_dec j k) as [->|NK]; [replace x with qk by congruence; exact OC|].
        destruct (O1 j x H N) as (c & A & B). exists c. split; [exact A|]. unfold edge_shows. rewrite XE; [exact B|]. apply (NE j x k qk); assumption.
      - intros j x v H Hv NA N. specialize (O2 j x v H Hv NA N). destruct (on_loop qk) eqn:OLk.
        + assert (v <> c_tgt (q_cfg qk)). { intros ->. apply NA. apply Nat.eqb_eq in OLk. assert (Ak := queue_arc d qs' lk ins nl D k qk Gk). rewrite OLk in Ak. exact Ak. }
          destruct O2 as (A & ks & c & B & C & F). split; [unfold vertex_shows; rewrite R1 by assumption; exact A|]. exists ks, c. split; [exact B|]. split; [exact C|]. unfold fill_shows. rewrite R2 by (auto; assumption). exact F.
        + destruct (R5 eq_refl) as (OV & VR & _). destruct (Nat.eq_dec v (c_tgt (q_cfg qk))) as [->|NV]; [apply VR; exact NA|].
          eapply right_other; eauto.
      - intros ON j x H N Lx Tx. destruct (O3 ON j x H N Lx Tx) as (c2 & c0 & A & B & C & F). destruct (on_loop qk) eqn:OLk.
        + destruct (Z.eq_dec (c_type (q_cfg qk)) 0) as [TZ|TZ].
          * assert (NV : c_tgt (q_cfg x) <> c_tgt (q_cfg qk)).
            { intro X. assert (j = k). { apply Nat.eqb_eq in Lx, OLk. apply (same_edge d qs' lk ins nl D j x k qk H Gk); congruence. } subst j. congruence. }
            exists c2, c0. split; [exact A|]. split; [exact B|]. split; [unfold vertex_shows; rewrite R1 by exact NV; exact C|unfold fill_shows; rewrite R3 by auto; exact F].
          * assert (j = k) by (eapply ON; eauto). subst j. replace x with qk in * by congruence. destruct (R4 eq_refl TZ) as (d2 & d0 & X2 & X0 & XV & XF).
            exists d2, d0. split; [exact X2|]. split; [exact X0|]. split; [exact XV|]. destruct (Nat.eq_dec (c_tgt (q_cfg qk)) (c_tgt (q_cfg q))) as [->|NV]; [exact XF|].
            unfold fill_shows. rewrite R2 by auto. replace d0 with c0 by congruence. exact F.
        + destruct (R5 eq_refl) as (OV & _ & LP). exists c2, c0. split; [exact A|]. split; [exact B|].
          destruct (Nat.eq_dec (c_tgt (q_cfg x)) (c_tgt (q_cfg qk))) as [EV|NV].
          * destruct (LP j x H Lx Tx EV) as [Y1 Y2]. unfold vertex_shows, fill_shows. rewrite Y1, Y2. auto.
          * destruct (OV _ NV) as [Y1 Y2]. unfold vertex_shows, fill_shows. rewrite Y1, Y2. auto. }
    destruct P1 as (p1 & E1 & T1 & T2 & T3). rewrite E1. cbn [bind]. clear O1 O2 O3 E1.
    destruct (update_one_ok d qs' lk ins nl D cur q (c_tgt (q_cfg q)) p1 G Vv) as (p2 & E2 & OC & XE & RR). destruct (RR eq_refl) as (OV & LR & VR).
    destruct (update_one_rest qs' cur q (c_tgt (q_cfg q)) p1 D G Vv) as (p2' & E2' & R1 & R2 & R3 & R4 & R5). rewrite E2 in E2'. injection E2' as <-.
    exists p2. split; [exact E2|]. split.
    - intros j x H. destruct (Nat.eq_dec j cur) as [->|N]; [replace x with q by congruence; exact OC|].
      destruct (T1 j x H N) as (c & A & B). exists c. split; [exact A|]. unfold edge_shows. rewrite XE; [exact B|]. apply (NE j x cur q); assumption.
    - intros j x v H Hv NA. destruct (Nat.eq_dec v (c_tgt (q_cfg q))) as [->|N]; [apply VR; exact NA|]. eapply right_other; eauto.
    - intros ON j x H Lx Tx. destruct (Nat.eq_dec j cur) as [->|N]; [replace x with q in * by congruence; apply LR; assumption|].
      specialize (T3 ON j x H N Lx Tx). destruct (Nat.eq_dec (c_tgt (q_cfg x)) (c_tgt (q_cfg q))) as [EV|NV]; [|eapply loop_other; eauto].
      destruct (on_loop q) eqn:OLq.
      { exfalso. apply N. apply Nat.eqb_eq in Lx, OLq. apply (same_edge d qs' lk ins nl D j x cur q H G); congruence. }
      destruct (R5 eq_refl) as (_ & _ & LP). destruct (LP j x H Lx Tx EV) as [Y1 Y2]. destruct T3 as (c2 & c0 & A & B & C & F). exists c2, c0. unfold vertex_shows, fill_shows. rewrite Y1, Y2. auto.
  Qed.

  (** Nothing looks different: nothing to do. *)
  Lemma shown_alike qs qs' p : shown d lk ins nl qs p -> dressed d qs' lk ins nl -> length qs' = length qs ->
    (forall j q', get qs' j = Some q' -> exists q, get qs j = Some q /\ alike q q') -> shown d lk ins nl qs' p.
  Proof.
    intros [S1 S2 S3] D LE RP.
    assert (R0 : repainted 0 qs qs') by (intros j q' H; destruct (RP j q' H) as (q & Q & A); exists q; split; [exact Q|]; split; [apply A|auto]).
    split.
    - intros j x H. destruct (RP j x H) as (y & Y & AL). destruct (S1 j y Y) as (c & A & B). exists c.
      rewrite (alike_loop _ _ (proj1 AL)), (alike_color _ _ _ _ AL), (proj1 AL). auto.
    - intros j x v H Hv NA. destruct (RP j x H) as (y & Y & AL). rewrite (proj1 AL) in Hv. destruct (S2 j y v Y Hv NA) as (A & ks & c & B & C & F). split; [exact A|]. exists ks, c. split; [exact B|]. split; [|exact F].
      revert C. apply same_dark. intros k Hk. destruct (get qs' k) as [z'|] eqn:Z'; [destruct (RP k z' Z') as (z & Z & AZ); eauto|].
      exfalso. apply nth_error_None in Z'. destruct (queue_ends d qs' lk ins nl D j x H) as [V1 V2]. rewrite (proj1 AL) in V1, V2.
      destruct (dr_ins _ _ _ _ _ D v) as (ks' & G' & I'); [destruct Hv as [->| ->]; assumption|]. replace ks' with ks in * by congruence. specialize (I' k Hk). lia.
    - intros ON j x H Lx Tx. destruct (RP j x H) as (y & Y & AL). rewrite (alike_loop _ _ (proj1 AL)) in Lx. rewrite (proj1 AL) in Tx.
      destruct (S3 (one_repainted 0 qs qs' R0 LE ON) j y Y Lx Tx) as (c2 & c0 & A & B & C & F). exists c2, c0. rewrite !(alike_color _ _ _ _ AL), (proj1 AL). auto.
  Qed.

  (** After the update of all colours everything is shown. *)
  Lemma all_shown qs p : dressed d qs lk ins nl -> exists p', update_all_colors d qs lk ins nl p = Ok p' /\ shown d lk ins nl qs p'.
  Proof.
    intro D. destruct (update_all_ok d qs lk ins nl D p) as (p' & todo & E & [P1 P2 P3 P4 P5]). exists p'. split; [exact E|].
    assert (L : forall k q, get qs k = Some q -> (k < length qs)%nat) by (intros k q G; apply nth_error_Some; unfold get in G; congruence). split.
    - intros k q G. apply P2; eauto.
    - intros k q v G Hv NA. apply P4; [eapply P3; eauto| |exact NA]. destruct (queue_ends d qs lk ins nl D k q G). destruct Hv as [->| ->]; assumption.
    - intros _ k q G. apply P5; eauto.
  Qed.
End Showing.

(** ** Small steps look the same *)

Lemma arrival_alike a q q' : add_arrival a q = Ok q' -> alike q q'.
Proof.
  unfold add_arrival. intro H. destruct (c_class (q_cfg q)).
  3:{ injection H as <-. destruct (q_collect q); split; auto. }
  all: mbind H; unfold update_time_if in H; mbind H; mbind H; destruct (eltb _ _); injection H as <-; split; auto.
Qed.
Lemma delay_alike t q q' : delay_service t q = Ok q' -> alike q q'.
Proof.
  unfold delay_service. intro H. destruct (c_class (q_cfg q)).
  3:{ injection H as <-. apply alike_refl. }
  all: destruct (1 <? length (q_dep q))%nat; [|injection H as <-; apply alike_refl]; destruct (heappop itime (q_dep q)) as [[[|a] h]|]; try discriminate;
    destruct t as [t|]; cbn [call_srv] in H; mbind H; unfold update_time in H; mbind H; mbind H; injection H as <-; split; auto.
Qed.
Lemma mark_alike q q' : mark_blocked q = Ok q' -> alike q q'.
Proof. unfold mark_blocked. intro H. mbind H. injection H as <-. split; auto. Qed.
Lemma stop_alike q n : alike q (stop_if_full q n).
Proof. unfold stop_if_full. destruct (q_active q && full n); split; auto. Qed.

Lemma get_upd_case {A} (l : list A) k x j y : get (upd l k x) j = Some y -> j = k /\ y = x \/ j <> k /\ get l j = Some y.
Proof.
  intro H. destruct (Nat.eq_dec j k) as [->|N].
  - left. split; [reflexivity|]. destruct (Nat.lt_ge_cases k (length l)) as [L|L].
    + rewrite get_upd_eq in H by exact L. congruence.
    + exfalso. assert (get (upd l k x) k = None) by (apply nth_error_None; rewrite upd_length; exact L). congruence.
  - right. split; [exact N|]. rewrite get_upd_neq in H by congruence. exact H.
Qed.

Lemma set_count_keeps k z n n' : set_count k z n = Ok n' -> nt_queues n' = nt_queues n.
Proof. unfold set_count. intro H. mbind H. injection H as <-. reflexivity. Qed.
Lemma reschedule_keeps k e old n n' : reschedule k e old n = Ok n' -> nt_queues n' = nt_queues n.
Proof. intro H. apply reschedule_Ok in H as (q1 & q2 & h & _ & _ & _ & ->). reflexivity. Qed.

Lemma nsys_nonneg q : qinv q -> 0 <= q_nsys q.
Proof. intro I. rewrite (qi_sys _ I). unfold na. lia. Qed.

Section Events.
  Context (d : dgraph) (lk : nat -> look) (ins : list (list nat)) (nl : netlook).

  (** A scene in which everything is shown. *)
  Record good_scene (s : scene) : Prop := mkGoodScene {
    gs_dressed : dressed d (nt_queues (sc_net s)) lk ins nl;
    gs_lead : ins_lead (nt_queues (sc_net s)) ins;
    gs_shown : shown d lk ins nl (nt_queues (sc_net s)) (sc_paint s);
    gs_prev : forall k, sc_prev s = Some k -> (k < length (nt_queues (sc_net s)))%nat
  }.

  (** A scene whose queues look the same. *)
  Lemma good_alike s n : good_scene s -> length (nt_queues n) = length (nt_queues (sc_net s)) ->
    (forall j q', get (nt_queues n) j = Some q' -> exists q, get (nt_queues (sc_net s)) j = Some q /\ alike q q') -> good_scene (with_net n s).
  Proof.
    intros [D I S P] L A. unfold with_net.
    assert (R : forall k, repainted k (nt_queues (sc_net s)) (nt_queues n)).
    { intros k j q' G. destruct (A j q' G) as (q & G0 & X). exists q. split; [exact G0|]. split; [apply X|auto]. }
    assert (D' : dressed d (nt_queues n) lk ins nl).
    { apply (dressed_repainted d lk ins nl (length (nt_queues n)) _ _ D L (R _)). intros q G. exfalso. assert (length (nt_queues n) < length (nt_queues n))%nat by (apply nth_error_Some; unfold get in G; congruence). lia. }
    split; cbn [sc_net sc_paint sc_prev].
    - exact D'.
    - exact (lead_repainted ins 0%nat _ _ (R _) I).
    - exact (shown_alike d lk ins nl _ _ _ S D' L A).
    - intros k K. rewrite L. auto.
  Qed.

  (** A queue changes and its colours are updated. *)
  Lemma recolor_good s n k q : good_scene s -> length (nt_queues n) = length (nt_queues (sc_net s)) -> repainted k (nt_queues (sc_net s)) (nt_queues n) ->
    get (nt_queues n) k = Some q -> c_idx (q_cfg q) = k -> servers_show (lk k) q -> 0 <= q_nsys q ->
    exists s', recolor d lk ins nl k (with_net n s) = Ok s' /\ good_scene s' /\ sc_net s' = n.
  Proof.
    intros [D I S P] L R G CI SS NS.
    assert (D' : dressed d (nt_queues n) lk ins nl).
    { apply (dressed_repainted d lk ins nl k _ _ D L R). intros q' G'. replace q' with q by congruence. auto. }
    assert (I' := lead_repainted ins k _ _ R I).
    assert (LK : (k < length (nt_queues n))%nat) by (apply nth_error_Some; unfold get in G; congruence).
    destruct (update_shown d lk ins nl _ (nt_queues n) _ (sc_prev s) k S D' I' L R P ltac:(lia)) as (p' & E & S').
    exists (mkScene n p' (Some k)). unfold recolor, queue_at. cbn [with_net sc_net sc_paint sc_prev]. rewrite G. cbn [of_option bind]. rewrite CI, E. cbn [bind].
    split; [reflexivity|]. split; [|reflexivity]. split; cbn [sc_net sc_paint sc_prev]; auto. intros j J. congruence.
  Qed.

  (** ** The branches *)

  Lemma slow_move_ok k e1 e2 t s n' : good_scene s -> move_agent k e1 e2 t (sc_net s) = Ok n' ->
    (forall j q, get (nt_queues (sc_net s)) j = Some q -> c_idx (q_cfg q) = j) ->
    (forall q r q', get (nt_queues (sc_net s)) k = Some q -> next_event q = Ok (r, q') -> q_cfg q' = q_cfg q /\ 0 <= q_nsys q') ->
    (forall j q', get (nt_queues n') j = Some q' -> 0 <= q_nsys q' /\ exists q, get (nt_queues (sc_net s)) j = Some q /\ q_cfg q' = q_cfg q) ->
    exists s', slow_move d lk ins nl k e1 e2 t s = Ok s' /\ good_scene s' /\ sc_net s' = n'.
  Proof.
    intros GS H IX NX FI. set (n := sc_net s) in *. assert (LKS := fun j q G => proj1 (proj2 (dr_look _ _ _ _ _ (gs_dressed _ GS) j q G))). fold n in LKS.
    unfold move_agent in H. mbind H. assert (G1 := E). apply queue_at_Ok in G1. mbind H. destruct x0 as [[a|] q1']; [|discriminate]. cbv zeta in H.
    mbind H. mbind H. mbind H. mbind H. mbind H. mbind H. mbind H. destruct x6 as [r2 q2']. rename x0 into q2, x1 into q2a, x2 into q1b, x3 into n3, x4 into n4, x5 into q2b.
    unfold slow_move. fold n. rewrite E. cbn [bind]. rewrite E0. cbn [bind]. cbv zeta. rewrite E1. cbn [bind]. rewrite E2. cbn [bind]. rewrite E3. cbn [bind]. rewrite E4. cbn [bind]. rewrite E5. cbn [bind].
    destruct (NX _ _ _ G1 E0) as [CF1 NS1].
    apply set_count_keeps in E4, E5. assert (Q4 : nt_queues n4 = upd (upd (nt_queues n) k q1') e2 q2a) by (rewrite E5, E4; reflexivity).
    assert (G2 := E1). apply queue_at_Ok in G2. nch G2. assert (AL := arrival_alike _ _ _ E2).
    assert (LK : (k < length (nt_queues n))%nat) by (apply nth_error_Some; unfold get in G1; congruence).
    assert (L2 : (e2 < length (nt_queues n))%nat) by (rewrite <- (upd_length (nt_queues n) k q1'); apply nth_error_Some; unfold get in G2; congruence).
    assert (R1 : repainted k (nt_queues n) (nt_queues n4)).
    { rewrite Q4. intros j q' G. apply get_upd_case in G as [[-> ->]|[N G]].
      - apply get_upd_case in G2 as [[-> ->]|[N G2]].
        + exists x. split; [exact G1|]. split; [rewrite (proj1 AL); exact CF1|congruence].
        + exists q2. split; [exact G2|]. split; [apply AL|auto].
      - apply get_upd_case in G as [[-> ->]|[N' G]]; [exists x; split; [exact G1|]; split; [exact CF1|congruence]|].
        exists q'. split; [exact G|]. split; [reflexivity|]. intros _. apply alike_refl. }
    assert (GK : exists q, get (nt_queues n4) k = Some q /\ c_idx (q_cfg q) = k /\ servers_show (lk k) q /\ 0 <= q_nsys q).
    { assert (SS1 : servers_show (lk k) q1') by (eapply next_shows; [exact E0|exact CF1|eapply LKS; exact G1]). assert (X := IX k x G1).
      rewrite Q4. destruct (Nat.eq_dec e2 k) as [->|N].
      - rewrite get_upd_eq by (rewrite upd_length; exact LK). exists q2a. split; [reflexivity|]. apply get_upd_case in G2 as [[_ ->]|[N _]]; [|congruence].
        destruct AL as (A1 & A2 & A3). unfold servers_show. rewrite A1, A2, A3. split; [congruence|]. split; [exact SS1|exact NS1].
      - rewrite get_upd_neq by congruence. rewrite get_upd_eq by exact LK. exists q1'. split; [reflexivity|]. split; [congruence|auto]. }
    destruct GK as (qk & GK1 & GK2 & GK3 & GK4).
    assert (L4 : length (nt_queues n4) = length (nt_queues n)) by (rewrite Q4, !upd_length; reflexivity).
    destruct (recolor_good s n4 k qk GS L4 R1 GK1 GK2 GK3 GK4) as (s4 & RC & GS4 & SN4). rewrite RC. cbn [bind].
    rewrite E6. cbn [bind]. rewrite E7. cbn [bind]. rewrite H. cbn [bind].
    assert (GB := E6). apply queue_at_Ok in GB. nch GB. apply get_upd_case in GB as [[_ ->]|[N _]]; [|congruence].
    apply set_count_keeps in H.
    assert (QF : nt_queues n' = upd (upd (nt_queues n4) e2 (stop_if_full q2a n4)) e2 q2') by (rewrite H; reflexivity).
    assert (GF : get (nt_queues n') e2 = Some q2') by (rewrite QF; apply get_upd_eq; rewrite upd_length; lia).
    destruct (FI e2 q2' GF) as (NSF & q0 & G0 & CF0).
    assert (G4 : get (nt_queues n4) e2 = Some q2a) by (rewrite Q4; apply get_upd_eq; rewrite upd_length; exact L2).
    destruct (R1 e2 q2a G4) as (q00 & G00 & CF4 & _). replace q00 with q0 in * by congruence.
    apply (recolor_good s4 n' e2 q2' GS4).
    - rewrite SN4, QF, !upd_length. reflexivity.
    - rewrite SN4, QF. intros j q' G. apply get_upd_case in G as [[-> ->]|[N G]].
      + exists q2a. split; [exact G4|]. split; [congruence|congruence].
      + apply get_upd_case in G as [[-> _]|[_ G]]; [congruence|]. exists q'. split; [exact G|]. split; [reflexivity|]. intros _. apply alike_refl.
    - exact GF.
    - rewrite CF0. apply IX. exact G0.
    - destruct (stop_alike q2a n4) as (A1 & A2 & A3). apply (next_shows (lk e2) _ _ _ E7); [congruence|].
      destruct (dr_look _ _ _ _ _ (gs_dressed _ GS4) e2 q2a) as (_ & Z & _); [rewrite SN4; exact G4|]. unfold servers_show. rewrite A1, A3. exact Z.
    - exact NSF.
  Qed.

  Lemma slow_arrival_ok k s n' : good_scene s -> net_arrival k (sc_net s) = Ok n' ->
    (forall j q, get (nt_queues (sc_net s)) j = Some q -> c_idx (q_cfg q) = j) ->
    (forall j q', get (nt_queues n') j = Some q' -> 0 <= q_nsys q' /\ exists q, get (nt_queues (sc_net s)) j = Some q /\ q_cfg q' = q_cfg q) ->
    exists s', slow_arrival d lk ins nl k s = Ok s' /\ good_scene s' /\ sc_net s' = n'.
  Proof.
    intros GS H IX FI. set (n := sc_net s) in *. unfold net_arrival in H. mbind H. assert (G1 := E). apply queue_at_Ok in G1. cbv zeta in H. mbind H. destruct x0 as [r q']. mbind H. rename x0 into n2.
    unfold slow_arrival. fold n. rewrite E. cbn [bind]. cbv zeta. rewrite E0. cbn [bind]. rewrite E1. cbn [bind]. apply set_count_keeps in E1.
    assert (Q2 : nt_queues n2 = upd (nt_queues n) k q') by (rewrite E1; reflexivity).
    assert (LK : (k < length (nt_queues n))%nat) by (apply nth_error_Some; unfold get in G1; congruence).
    assert (QF : nt_queues n' = nt_queues n2). { destruct (eltb (q_time q') Inf); [apply net_push_Ok in H as (h & _ & ->); reflexivity|injection H as <-; reflexivity]. }
    assert (GF : get (nt_queues n2) k = Some q') by (rewrite Q2; apply get_upd_eq; exact LK).
    destruct (FI k q') as (NS & q0 & G0 & CF); [rewrite QF; exact GF|]. replace q0 with x in * by congruence.
    destruct (recolor_good s n2 k q' GS) as (s2 & RC & GS2 & SN).
    - fold n. rewrite Q2. apply upd_length.
    - fold n. rewrite Q2. intros j y G. apply get_upd_case in G as [[-> ->]|[N G]]; [exists x; split; [exact G1|split; [exact CF|congruence]]|].
      exists y. split; [exact G|]. split; [reflexivity|]. intros _. apply alike_refl.
    - exact GF.
    - rewrite CF. apply IX. exact G1.
    - destruct (stop_alike x n) as (A1 & A2 & A3). apply (next_shows (lk k) _ _ _ E0); [congruence|].
      destruct (dr_look _ _ _ _ _ (gs_dressed _ GS) k x G1) as (_ & Z & _). unfold servers_show. rewrite A1, A3. exact Z.
    - exact NS.
    - rewrite RC. cbn [bind]. destruct (eltb (q_time q') Inf).
      + rewrite H. cbn [bind]. exists (with_net n' s2). split; [reflexivity|]. split; [|reflexivity]. apply good_alike; [exact GS2|rewrite SN, QF; reflexivity|].
        intros j y G. rewrite SN, <- QF. exists y. split; [exact G|apply alike_refl].
      + injection H as <-. exists s2. auto.
  Qed.

  Lemma slow_block_ok k e2 s n' : good_scene s -> block_agent k e2 (sc_net s) = Ok n' -> good_scene (with_net n' s).
  Proof.
    intros GS H. unfold block_agent in H. mbind H. apply queue_at_Ok in E. cbv zeta in H. mbind H. apply queue_at_Ok in E0. mbind H. assert (A1 := mark_alike _ _ E1).
    set (n1 := put_queue k x1 (put_queue e2 (set_q_blocked (q_blocked x + 1) x) (sc_net s))) in *.
    assert (STEP : forall (m n : net) j x y, get (nt_queues m) j = Some x -> alike x y -> nt_queues n = upd (nt_queues m) j y ->
      length (nt_queues n) = length (nt_queues m) /\ forall i q', get (nt_queues n) i = Some q' -> exists q, get (nt_queues m) i = Some q /\ alike q q').
    { intros m n j z y G A Q. rewrite Q. split; [apply upd_length|]. intros i q' X. apply get_upd_case in X as [[-> ->]|[_ X]]; [eauto|]. exists q'. split; [exact X|apply alike_refl]. }
    assert (TR : forall m n o, (length (nt_queues n) = length (nt_queues m) /\ forall i q', get (nt_queues n) i = Some q' -> exists q, get (nt_queues m) i = Some q /\ alike q q') ->
       (length (nt_queues o) = length (nt_queues n) /\ forall i q', get (nt_queues o) i = Some q' -> exists q, get (nt_queues n) i = Some q /\ alike q q') ->
       (length (nt_queues o) = length (nt_queues m) /\ forall i q', get (nt_queues o) i = Some q' -> exists q, get (nt_queues m) i = Some q /\ alike q q')).
    { intros m n o [L1 F1] [L2 F2]. split; [congruence|]. intros i q' X. destruct (F2 i q' X) as (y & Y & A). destruct (F1 i y Y) as (z & Z & A'). exists z. split; [exact Z|]. eapply alike_trans; eauto. }
    assert (S1 : length (nt_queues n1) = length (nt_queues (sc_net s)) /\ forall i q', get (nt_queues n1) i = Some q' -> exists q, get (nt_queues (sc_net s)) i = Some q /\ alike q q').
    { eapply TR; [|eapply (STEP _ n1 k x0 x1 E0 A1 eq_refl)]. eapply (STEP _ _ e2 x _ E); [|reflexivity]. split; auto. }
    assert (S2 : length (nt_queues n') = length (nt_queues n1) /\ forall i q', get (nt_queues n') i = Some q' -> exists q, get (nt_queues n1) i = Some q /\ alike q q').
    { destruct (nt_bas n1).
      - mbind H. mbind H. mbind H. mbind H. injection H as <-. apply queue_at_Ok in E4. apply (STEP n1 _ k x4 x5); [exact E4|eapply delay_alike; exact E5|reflexivity].
      - mbind H. mbind H. injection H as <-. apply queue_at_Ok in E2. apply (STEP n1 _ k x2 x3); [exact E2|eapply delay_alike; exact E3|reflexivity]. }
    destruct (TR _ _ _ S1 S2) as [L A]. apply good_alike; assumption.
  Qed.

  (** One event: the network changes as without colours, and the colours stay
      right. *)
  Lemma slow_event_ok s n' : good_scene s -> ninv (sc_net s) -> simulate_event (sc_net s) = Ok n' ->
    exists s', slow_event d lk ins nl s = Ok s' /\ good_scene s' /\ sc_net s' = n'.
  Proof.
    intros GS NI H. assert (ST : nst (sc_net s) n') by (apply simulate_event_Ok; [apply ninv_idx; exact NI|exact H]).
    assert (NI' := proj1 (ninv_step _ _ NI ST)). destruct (nst_frame _ _ NI ST) as [(_ & _ & FR) _].
    assert (NSYS : forall T k q, qok T k q -> 0 <= q_nsys q) by (intros T k q K; apply nsys_nonneg, K).
    assert (FI : forall j q', get (nt_queues n') j = Some q' -> 0 <= q_nsys q' /\ exists q, get (nt_queues (sc_net s)) j = Some q /\ q_cfg q' = q_cfg q).
    { intros j q' G. split; [eapply NSYS; eapply (ni_q _ NI'); exact G|]. destruct (FR j q' G) as (q & G0 & CF & _). eauto. }
    assert (IX : forall j q, get (nt_queues (sc_net s)) j = Some q -> c_idx (q_cfg q) = j) by (intros j q G; apply (qk_idx _ _ _ (ni_q _ NI j q G))).
    assert (SAME : forall n, nt_queues n = nt_queues (sc_net s) -> good_scene (with_net n s)).
    { intros n E. apply good_alike; [exact GS|rewrite E; reflexivity|]. intros j q' G. rewrite E in G. exists q'. split; [exact G|apply alike_refl]. }
    clear ST. unfold simulate_event in H. unfold slow_event. destruct (pq_size (nt_heap (sc_net s)) =? 0)%nat.
    { injection H as <-. eexists. split; [reflexivity|]. split; [apply SAME; reflexivity|reflexivity]. }
    mbind H. destruct x as [[[t k]|] h]; [|discriminate]. cbv zeta in H. rewrite E. cbn [bind]. cbv zeta. mbind H. rewrite E0. cbn [bind]. mbind H. rewrite E1. cbn [bind].
    set (n2 := set_nt_events (nt_events (set_nt_heap h (sc_net s)) + 1) (set_nt_t t (set_nt_heap h (sc_net s)))) in *.
    assert (G := E0). apply queue_at_Ok in G. nch G.
    destruct (Z.eqb_spec x0 2) as [->|N2].
    - unfold net_departure in H. mbind H. mbind H. mbind H. destruct x2 as [e2 n3]. mbind H. cbv zeta in H. mbind H.
      unfold slow_departure. cbn [with_net sc_net]. rewrite E2. cbn [bind]. rewrite E3. cbn [bind]. rewrite E4. cbn [bind]. rewrite E5. cbn [bind]. cbv zeta.
      assert (Q3 : nt_queues n3 = nt_queues (sc_net s)). { apply desired_Ok in E4 as (l & iu & _ & _ & ->). reflexivity. }
      assert (QF := reschedule_keeps _ _ _ _ _ H).
      assert (P : exists s2, (if at_capacity x2 && negb (e2 =? c_idx (q_cfg x0))%nat
                   then let* m := block_agent k e2 n3 in Ok (with_net m (with_net n2 s))
                   else slow_move d lk ins nl k (c_idx (q_cfg x0)) e2 t (with_net n3 (with_net n2 s))) = Ok s2 /\ good_scene s2 /\ sc_net s2 = x3).
      { destruct (at_capacity x2 && negb (e2 =? c_idx (q_cfg x0))%nat).
        - rewrite E6. cbn [bind]. eexists. split; [reflexivity|]. split; [|reflexivity]. apply (slow_block_ok k e2 (with_net n3 s)); [apply SAME; exact Q3|exact E6].
        - apply (slow_move_ok k _ e2 t (with_net n3 s) x3); [apply SAME; exact Q3|exact E6| | |]; cbn [with_net sc_net]; rewrite ?Q3.
          + exact IX.
          + intros q r q' Gq NX. assert (K := ni_q _ NI k q Gq). split; [eapply next_cfg; [apply K|exact NX]|].
            apply nsys_nonneg, (qinv_op ONext q q'); [apply K|]. cbn [run_op]. rewrite NX. reflexivity.
          + intros j q' Gj. apply FI. rewrite QF. exact Gj. }
      destruct P as (s2 & RP & GS2 & SN2). match goal with |- context [bind ?a _] => replace a with (Ok s2) by (symmetry; exact RP) end. cbn [bind]. rewrite SN2, H. cbn [bind].
      exists (with_net n' s2). split; [reflexivity|]. split; [|reflexivity]. apply good_alike; [exact GS2|rewrite SN2, QF; reflexivity|].
      intros j q' Gj. rewrite SN2, <- QF. exists q'. split; [exact Gj|apply alike_refl].
    - destruct (Z.eqb_spec x0 1) as [->|N1].
      + apply (slow_arrival_ok k (with_net n2 s) n'); [apply SAME; reflexivity|exact H|exact IX|exact FI].
      + injection H as <-. eexists. split; [reflexivity|]. split; [apply SAME; reflexivity|reflexivity].
  Qed.
End Events.

(** ** The network part of a slow event *)

Lemma recolor_net d lk ins nl k s s' : recolor d lk ins nl k s = Ok s' -> sc_net s' = sc_net s.
Proof. unfold recolor. intro H. mbind H. mbind H. injection H as <-. reflexivity. Qed.

Lemma slow_move_net d lk ins nl k e1 e2 t s s' : slow_move d lk ins nl k e1 e2 t s = Ok s' -> move_agent k e1 e2 t (sc_net s) = Ok (sc_net s').
Proof.
  unfold slow_move, move_agent. intro H. mbind H. rewrite E. cbn [bind]. mbind H. rewrite E0. cbn [bind]. destruct x0 as [[a|] q']; [|discriminate]. cbv zeta in *.
  mbind H. rewrite E1. cbn [bind]. mbind H. rewrite E2. cbn [bind]. mbind H. rewrite E3. cbn [bind]. mbind H. rewrite E4. cbn [bind]. mbind H. rewrite E5. cbn [bind].
  mbind H. mbind H. rewrite E7. cbn [bind]. mbind H. rewrite E8. cbn [bind]. destruct x7 as [r2 q2']. mbind H. apply recolor_net in H. rewrite H. exact E9.
Qed.

Lemma slow_net d lk ins nl s s' : slow_event d lk ins nl s = Ok s' -> simulate_event (sc_net s) = Ok (sc_net s').
Proof.
  unfold slow_event, simulate_event. intro H. destruct (pq_size (nt_heap (sc_net s)) =? 0)%nat; [injection H as <-; reflexivity|].
  mbind H. rewrite E. cbn [bind]. destruct x as [[[t k]|] h]; [|discriminate]. cbv zeta in *. mbind H. rewrite E0. cbn [bind]. mbind H. rewrite E1. cbn [bind].
  destruct (x0 =? 2).
  - unfold slow_departure in H. cbn [with_net sc_net] in H. unfold net_departure. mbind H. rewrite E2. cbn [bind]. mbind H. rewrite E3. cbn [bind]. mbind H. rewrite E4. cbn [bind]. destruct x3 as [e2 n3].
    mbind H. rewrite E5. cbn [bind]. cbv zeta in *. mbind H. mbind H. injection H as <-.
    assert (X : (if at_capacity x3 && negb (e2 =? c_idx (q_cfg x1))%nat then block_agent k e2 n3 else move_agent k (c_idx (q_cfg x1)) e2 t n3) = Ok (sc_net x4)).
    { destruct (at_capacity x3 && negb (e2 =? c_idx (q_cfg x1))%nat); [mbind E6; injection E6 as <-; exact E8|]. apply slow_move_net in E6. exact E6. }
    rewrite X. cbn [bind]. exact E7.
  - destruct (x0 =? 1).
    + unfold slow_arrival in H. cbn [with_net sc_net] in H. unfold net_arrival. mbind H. rewrite E2. cbn [bind]. cbv zeta in *. mbind H. rewrite E3. cbn [bind]. destruct x2 as [r q']. mbind H. rewrite E4. cbn [bind].
      mbind H. apply recolor_net in E5. destruct (eltb (q_time q') Inf); [mbind H; injection H as <-; exact E6|]. injection H as <-. rewrite E5. reflexivity.
    + injection H as <-. reflexivity.
Qed.

(** ** Frames *)

(** [animate] does what so many events do. *)
Lemma frames_net d lk ins nl m stop : forall s s', frames d lk ins nl m stop s = Ok s' ->
  exists j, (j <= m)%nat /\ nruns j (sc_net s) = Ok (sc_net s') /\ (j = m \/ eLt stop (nt_t (sc_net s'))) /\
    forall i n, (i < j)%nat -> nruns i (sc_net s) = Ok n -> eLe (nt_t n) stop.
Proof.
  induction m as [|m IH]; intros s s' H; cbn [frames] in H.
  - injection H as <-. exists 0%nat. split; [lia|]. split; [reflexivity|]. split; [auto|]. intros i n L. lia.
  - mbind H. destruct (eltb stop (nt_t (sc_net s))) eqn:T.
    + injection E as <-. apply eltb_lt in T. exists 0%nat. split; [lia|].
      assert (X : s' = s). { clear -H T. revert H. induction m as [|m IH]; cbn [frames]; intro H; [congruence|]. apply eltb_lt in T. rewrite T in H. apply IH. exact H. }
      subst s'. split; [reflexivity|]. split; [auto|]. intros i n L. lia.
    + apply slow_net in E. destruct (IH _ _ H) as (j & A & B & C & F). exists (S j). split; [lia|]. cbn [nruns]. rewrite E. cbn [bind]. split; [exact B|]. split; [destruct C; auto|].
      intros i n L R. destruct i as [|i]; cbn [nruns] in R.
      * injection R as <-. apply eltb_ge in T. exact T.
      * rewrite E in R. cbn [bind] in R. apply (F i); [lia|exact R].
Qed.

Lemma frames_good d lk ins nl m stop : forall s, good_scene d lk ins nl s -> nlive (sc_net s) ->
  exists s', frames d lk ins nl m stop s = Ok s' /\ good_scene d lk ins nl s' /\ nlive (sc_net s').
Proof.
  induction m as [|m IH]; intros s G L; cbn [frames]; [eauto|]. destruct (eltb stop (nt_t (sc_net s))).
  - cbn [bind]. apply IH; assumption.
  - destruct (event_live _ L) as (n' & E & L'). destruct (slow_event_ok d lk ins nl s n' G (nl_inv _ L) E) as (s1 & E1 & G1 & SN). rewrite E1. cbn [bind]. apply IH; [exact G1|rewrite SN; exact L'].
Qed.

(** ** Reached networks can be shown *)

Lemma dressed_same d lk ins nl qs qs' : dressed d qs lk ins nl -> length qs' = length qs ->
  (forall k q', get qs' k = Some q' -> 0 <= q_nsys q' /\ servers_show (lk k) q' /\ exists q, get qs k = Some q /\ q_cfg q' = q_cfg q) -> dressed d qs' lk ins nl.
Proof.
  intros [D1 D2 D3 D4 D5 D6 D7] L R. split; auto.
  - intros e j I. destruct (D3 e j I) as (q & G & A & B). destruct (get qs' j) as [q'|] eqn:G'.
    + destruct (R j q' G') as (_ & _ & q0 & G0 & CF). exists q'. rewrite CF. replace q0 with q by congruence. auto.
    + exfalso. apply nth_error_None in G'. assert (j < length qs)%nat by (apply nth_error_Some; unfold get in G; congruence). lia.
  - intro j. rewrite L. apply D4.
  - intros v V. destruct (D5 v V) as (ks & G & I). exists ks. rewrite L. auto.
  - intros j q' G'. destruct (R j q' G') as (A & B & q & G & _). destruct (D6 j q G) as (X & _). auto.
Qed.

Lemma activate_servers l : forall n n', activate l n = Ok n' ->
  forall k q', get (nt_queues n') k = Some q' -> exists q, get (nt_queues n) k = Some q /\ q_cfg q' = q_cfg q /\ q_servers q' = q_servers q.
Proof.
  induction l as [|e l IH]; intros n n' H k q' G; cbn [activate] in H; [injection H as <-; eauto|].
  mbind H. apply queue_at_Ok in E. mbind H. mbind H. apply set_count_keeps in E1. destruct (IH _ _ H k q' G) as (q1 & G1 & A & B). rewrite E1 in G1. nch G1.
  apply get_upd_case in G1 as [[-> ->]|[_ G1]]; [|eauto]. exists x. split; [exact E|]. unfold set_active in E0. destruct (q_active x); [injection E0 as <-; auto|].
  apply self_3 in E0 as (X & Y & _ & _). rewrite A, B, X, Y. auto.
Qed.

Lemma on_queues_servers f l : (forall q, q_servers (f q) = q_servers q /\ q_cfg (f q) = q_cfg q) -> forall n n', on_queues f l n = Ok n' ->
  forall k q', get (nt_queues n') k = Some q' -> exists q, get (nt_queues n) k = Some q /\ q_cfg q' = q_cfg q /\ q_servers q' = q_servers q.
Proof.
  intro F. induction l as [|e l IH]; intros n n' H k q' G; cbn [on_queues] in H; [injection H as <-; eauto|].
  mbind H. apply queue_at_Ok in E. destruct (IH _ _ H k q' G) as (q1 & G1 & A & B). nch G1. apply get_upd_case in G1 as [[-> ->]|[_ G1]]; [|eauto].
  exists x. destruct (F x) as [X Y]. rewrite A, B, X, Y. auto.
Qed.

Lemma reach_dressed d lk ins nl n0 n : well_made n0 -> dressed d (nt_queues n0) lk ins nl -> ins_lead (nt_queues n0) ins -> nreach usual n0 n ->
  dressed d (nt_queues n) lk ins nl /\ ins_lead (nt_queues n) ins.
Proof.
  intros W D IL R. induction R as [|n c n' R [D1 I1] US H]; [auto|].
  assert (GD := ngood_reach _ _ W R). assert (GD' := ngood_reach _ _ W (nreach_step _ _ _ _ _ R US H)). destruct (call_same _ _ _ GD US H) as (_ & LE & CF).
  assert (LEAD : ins_lead (nt_queues n') ins). { intros v ks k q' G J G'. destruct (CF k q' G') as (q & G0 & E). rewrite E. eapply I1; eauto. }
  split; [|exact LEAD].
  assert (KEEP : (forall k q', get (nt_queues n') k = Some q' -> exists q, get (nt_queues n) k = Some q /\ q_cfg q' = q_cfg q /\ q_servers q' = q_servers q) -> dressed d (nt_queues n') lk ins nl).
  { intro K. apply (dressed_same d lk ins nl (nt_queues n)); [exact D1|exact LE|]. intros k q' G'. split; [apply nsys_nonneg, (ni_q _ (proj1 GD') k q' G')|].
    destruct (K k q' G') as (q & G & A & B). split; [|eauto]. destruct (dr_look _ _ _ _ _ D1 k q G) as (_ & S & _). unfold servers_show. rewrite A, B. exact S. }
  assert (SAME : nt_queues n' = nt_queues n -> dressed d (nt_queues n') lk ins nl) by (intros ->; exact D1).
  destruct c as [sel| | |o]; cbn [run_call] in H.
  - apply KEEP. unfold initialize_queues in H. mbind H. destruct (length x =? 0)%nat; [discriminate|]. mbind H. mbind H. injection H as <-. exact (activate_servers _ _ _ E0).
  - apply KEEP. injection H as <-. unfold net_clear. nc. intros k q' G. unfold get in G. rewrite nth_error_map in G. destruct (nth_error (nt_queues n) k) as [q|] eqn:G0; [|discriminate]. injection G as <-.
    exists q. split; [exact G0|]. unfold clear, qs_clear. destruct (c_class (q_cfg q)); split; reflexivity.
  - apply SAME. unfold net_copy in H. destruct (nt_init n); [mbind H|]; injection H as <-; reflexivity.
  - destruct o as [|b l|l|p|m|b]; cbn [run_nop] in H.
    + destruct (all_shown d lk ins nl (nt_queues n) (mkPaint [] [] []) D1) as (p & _ & SH).
      destruct (slow_event_ok d lk ins nl (mkScene n p None) n') as (s' & _ & GS & SN); [split; auto; discriminate|apply GD|exact H|]. rewrite <- SN. apply GS.
    + apply KEEP. apply (on_queues_servers (set_q_collect b) l (fun q => conj eq_refl eq_refl) _ _ H).
    + apply KEEP. apply (on_queues_servers (set_q_data []) l (fun q => conj eq_refl eq_refl) _ _ H).
    + injection H as <-. apply SAME. reflexivity.
    + injection H as <-. apply SAME. reflexivity.
    + injection H as <-. apply SAME. reflexivity.
Qed.

(** ** animate *)

Lemma animate_ok d lk ins nl n0 n p prev m t : well_made n0 -> made_for n0 -> connected n0 -> mild_loops n0 -> nreach tidy n0 n -> nt_init n = true ->
  dressed d (nt_queues n0) lk ins nl -> ins_lead (nt_queues n0) ins -> (forall k, prev = Some k -> (k < length (nt_queues n))%nat) ->
  exists s' j, animate d lk ins nl m t (mkScene n p prev) = Ok s' /\
    (j <= m)%nat /\ nruns j n = Ok (sc_net s') /\ (j = m \/ eLt (eadd (nt_t n) t) (nt_t (sc_net s'))) /\
    (forall i n', (i < j)%nat -> nruns i n = Ok n' -> eLe (nt_t n') (eadd (nt_t n) t)) /\
    shown d lk ins nl (nt_queues (sc_net s')) (sc_paint s').
Proof.
  intros W M C NL R NI D IL PV. assert (LV := live_reach _ _ W M C NL R). assert (R' := R). apply (nreach_weak _ usual) in R'; [|intros ? ? [X _]; exact X].
  destruct (reach_dressed d lk ins nl n0 n W D IL R') as [D1 I1]. unfold animate. cbn [sc_net sc_paint sc_prev]. rewrite NI.
  destruct (all_shown d lk ins nl (nt_queues n) p D1) as (p' & E & SH). rewrite E. cbn [bind].
  destruct (frames_good d lk ins nl m (eadd (nt_t n) t) (mkScene n p' prev)) as (s' & F & GS & _); [split; auto|exact LV|].
  destruct (frames_net _ _ _ _ _ _ _ _ F) as (j & A & B & X & Y). exists s', j. repeat (split; [assumption|]). apply GS.
Qed.
