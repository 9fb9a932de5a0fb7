(** * PQHist: PriorityQueue refines the scheduler specification *)
From Coq Require Import List ZArith Lia Bool Permutation Arith.
From Verif Require Import Base Heap HeapProofs PQueue PQueueProofs SpecPQ.
Import ListNotations.

Lemma spec_pop_perm c b1 b2 r b' :
  Permutation b1 b2 -> spec_pop c b1 r b' -> spec_pop c b2 r b'.
Proof.
  intros P H. destruct H as [e dr b' H1 H2 H3 H4|H1].
  - apply SPop_some with dr; auto.
    + rewrite <- P; exact H1.
    + intros x Hx. apply H3. rewrite P; exact Hx.
  - apply SPop_none. intros x Hx. apply H1. rewrite P; exact Hx.
Qed.

Lemma spec_run_wd b c ops rs b' c' :
  spec_run b c ops rs b' c' ->
  forall b2 c2, Permutation b b2 -> (forall k, c k = c2 k) ->
  exists b2' c2', spec_run b2 c2 ops rs b2' c2' /\ Permutation b' b2' /\ forall k, c' k = c2' k.
Proof.
  induction 1 as [b c|b b1 c t k ops rs b' c' P R IH|b c r b1 ops rs b' c' P R IH]; intros b2 c2 PB EC.
  - exists b2, c2. split; [constructor | auto].
  - destruct (IH b1 (fun j => if j =? k then t else c2 j)) as (b2' & c2' & R' & P' & E').
    + reflexivity.
    + intro j. destruct (j =? k); auto.
    + exists b2', c2'. split; [|auto]. apply SRun_push with b1; [rewrite P, PB; reflexivity | exact R'].
  - destruct (IH b1 c2) as (b2' & c2' & R' & P' & E'); [reflexivity | exact EC|].
    exists b2', c2'. split; [|auto]. apply SRun_pop with b1; [|exact R'].
    apply spec_pop_perm with b; [exact PB|].
    destruct P as [e dr bb H1 H2 H3 H4|H1].
    + apply SPop_some with dr; auto; unfold live in *.
      * rewrite <- EC; exact H2.
      * intros x Hx Hl. apply H3; [exact Hx | rewrite EC; exact Hl].
      * intros x Hx Hl. apply (H4 x Hx). rewrite EC; exact Hl.
    + apply SPop_none. intros x Hx Hl. apply (H1 x Hx). unfold live in *. rewrite EC; exact Hl.
Qed.

Definition qmap (h : pq) (k : nat) : ext := nth k (pq_qtimes h) Inf.

Lemma stale_live h e : stale h e <-> ~ live (qmap h) e.
Proof. unfold stale, live, qmap. tauto. Qed.

Lemma pq_pop_refines n h r h' :
  pq_wf n h -> pq_pop h = Ok (r, h') ->
  0 < pq_size h /\ pq_wf n h' /\ qmap h' = qmap h /\ spec_pop (qmap h) (pq_entries h) r (pq_entries h').
Proof.
  intros W E.
  assert (Hs : 0 < pq_size h).
  { unfold pq_pop, pq_heappop in E. destruct (pq_size h); [discriminate | lia]. }
  destruct (pq_pop_spec n h W Hs) as (r2 & h2 & dr & E2 & W2 & Q2 & _ & D & X).
  rewrite E in E2. inversion E2; subst. clear E2.
  split; [exact Hs|]. split; [exact W2|]. split; [unfold qmap; rewrite Q2; reflexivity|].
  destruct r2 as [e|].
  - destruct X as (X1 & X2 & X3 & X4 & X5).
    apply SPop_some with dr; auto.
    + rewrite stale_live in X2. unfold live in *.
      destruct (ext_eq_dec (qmap h (snd e)) (fst e)); tauto.
    + intros x Hx Hl. rewrite X1 in Hx. destruct Hx as [<-|Hx]; [apply eLe_refl|].
      apply in_app_or in Hx as [Hx|Hx]; [|apply X5; exact Hx].
      exfalso. apply D in Hx. rewrite stale_live in Hx. tauto.
  - destruct X as [X1 X2]. unfold pq_entries at 2. rewrite X2. simpl.
    apply SPop_none. intros x Hx. apply stale_live. apply D. rewrite <- X1. exact Hx.
Qed.

Lemma pq_run_refines n ops : forall h rs h',
  pq_wf n h -> Forall (push_ok n) ops -> pq_run h ops = Ok (rs, h') ->
  pq_wf n h' /\ exists b c, spec_run (pq_entries h) (qmap h) ops rs b c /\
    Permutation b (pq_entries h') /\ forall k, c k = qmap h' k.
Proof.
  induction ops as [|o ops IH]; intros h rs h' W F R.
  - simpl in R. inversion R; subst. split; [exact W|].
    exists (pq_entries h'), (qmap h'). split; [constructor | auto].
  - inversion F as [|? ? F1 F2]; subst. destruct o as [t k|]; cbn [pq_run] in R.
    + simpl in F1. destruct (pq_push_spec n h t k W F1) as (h1 & E1 & W1 & P1 & Q1 & S1 & _).
      rewrite E1 in R. cbn [bind] in R.
      destruct (IH h1 rs h' W1 F2 R) as (W' & b & c & SR & PB & EC).
      split; [exact W'|].
      destruct (spec_run_wd _ _ _ _ _ _ SR (pq_entries h1) (fun j => if j =? k then t else qmap h j))
        as (b2 & c2 & SR2 & PB2 & EC2).
      * reflexivity.
      * intro j. unfold qmap. rewrite Q1. destruct (Nat.eqb_spec j k) as [->|N].
        -- apply nth_upd_eq. rewrite (wf_q _ _ W). exact F1.
        -- apply nth_upd_neq. auto.
      * exists b2, c2. split; [apply SRun_push with (pq_entries h1); assumption|].
        split; [rewrite <- PB2; exact PB|]. intro j. rewrite <- EC2. apply EC.
    + destruct (pq_pop h) as [[r h1]|e] eqn:E1; [|discriminate]. cbn [bind] in R.
      destruct (pq_run h1 ops) as [[rs1 h2]|e] eqn:E2; [|discriminate]. cbn [bind] in R.
      inversion R; subst.
      destruct (pq_pop_refines n h r h1 W E1) as (_ & W1 & Q1 & S1).
      destruct (IH h1 rs1 h' W1 F2 E2) as (W' & b & c & SR & PB & EC).
      split; [exact W'|]. exists b, c. split; [|auto].
      apply SRun_pop with (pq_entries h1); [exact S1|]. rewrite <- Q1. exact SR.
Qed.

Lemma assign_all_assigned keys : forall qt qt' k,
  (forall t j, In (t, j) keys -> j < length qt) -> k < length qt ->
  assign_all qt keys = Ok qt' ->
  nth k qt' Inf = fold_left (fun c e => if snd e =? k then fst e else c) keys (nth k qt Inf).
Proof.
  induction keys as [|[t j] keys IH]; intros qt qt' k H Hk E.
  - simpl in *. inversion E; reflexivity.
  - cbn [assign_all] in E.
    rewrite set_upd in E by (apply (H t j); left; reflexivity). cbn [of_option bind] in E.
    rewrite (IH (upd qt j t) qt' k).
    + cbn [fold_left fst snd]. f_equal. destruct (Nat.eqb_spec j k) as [->|N].
      * apply nth_upd_eq; exact Hk.
      * apply nth_upd_neq; exact N.
    + intros t' j' Hin. rewrite upd_length. apply (H t' j'). right; exact Hin.
    + rewrite upd_length; exact Hk.
    + exact E.
Qed.

Lemma pq_new_qmap junk keys n h k :
  (forall t j, In (t, j) keys -> j < n) -> k < n ->
  pq_new junk keys n = Ok h -> qmap h k = assigned keys k.
Proof.
  intros H Hk E. unfold pq_new in E.
  destruct (heapify fst keys (length keys)); [|discriminate]. cbn [of_option bind] in E.
  destruct (assign_all (repeat Inf n) keys) as [qt|] eqn:Q; [|discriminate]. cbn [bind] in E.
  inversion E; subst. unfold qmap; simpl. unfold assigned.
  rewrite (assign_all_assigned keys _ _ k) with (3 := Q).
  - f_equal. clear. revert k. induction n; destruct k; simpl; auto.
  - intros t j Hin. rewrite repeat_length. eauto.
  - rewrite repeat_length; exact Hk.
Qed.

Lemma pq_history_refines junk keys n h ops rs h' :
  keys <> [] -> (forall t k, In (t, k) keys -> k < n) -> Forall (push_ok n) ops ->
  pq_new junk keys n = Ok h -> pq_run h ops = Ok (rs, h') ->
  exists b c c0, spec_run keys c0 ops rs b c /\
    (forall k, k < n -> c0 k = assigned keys k) /\
    Permutation b (pq_entries h') /\ (forall k, c k = qmap h' k).
Proof.
  intros Hne Hk F N R.
  destruct (pq_new_spec junk keys n Hne Hk) as (h0 & N' & W & P & _).
  rewrite N in N'. inversion N'; subst h0.
  destruct (pq_run_refines n ops h rs h' W F R) as (_ & b & c & SR & PB & EC).
  destruct (spec_run_wd _ _ _ _ _ _ SR keys (qmap h)) as (b2 & c2 & SR2 & PB2 & EC2); auto.
  exists b2, c2, (qmap h). split; [exact SR2|]. split.
  - intros k Hk'. apply (pq_new_qmap junk keys n h k Hk Hk' N).
  - split; [rewrite <- PB2; exact PB|]. intro k. rewrite <- EC2. apply EC.
Qed.

(** Errors only come from popping an empty queue. *)
Lemma pq_run_safe n ops : forall h e,
  pq_wf n h -> Forall (push_ok n) ops -> pq_run h ops = Err e ->
  exists ops1 ops2 rs h1, ops = ops1 ++ Pop :: ops2 /\
    pq_run h ops1 = Ok (rs, h1) /\ pq_size h1 = 0.
Proof.
  induction ops as [|o ops IH]; intros h e W F R; [discriminate|].
  inversion F as [|? ? F1 F2]; subst. destruct o as [t k|]; cbn [pq_run] in R.
  - simpl in F1. destruct (pq_push_spec n h t k W F1) as (h1 & E1 & W1 & _).
    rewrite E1 in R. cbn [bind] in R.
    destruct (IH h1 e W1 F2 R) as (o1 & o2 & rs & h2 & -> & R1 & S1).
    exists (Push t k :: o1), o2, rs, h2. split; [reflexivity|]. split; [|exact S1].
    cbn [pq_run]. rewrite E1. cbn [bind]. exact R1.
  - destruct (Nat.eq_dec (pq_size h) 0) as [Z|Z].
    + exists [], ops, [], h. auto.
    + destruct (pq_pop_spec n h W ltac:(lia)) as (r & h1 & dr & E1 & W1 & _).
      rewrite E1 in R. cbn [bind] in R.
      destruct (pq_run h1 ops) as [[rs1 h2]|e1] eqn:E2; [discriminate|].
      destruct (IH h1 e1 W1 F2 E2) as (o1 & o2 & rs & h2 & -> & R1 & S1).
      exists (Pop :: o1), o2, (r :: rs), h2. split; [reflexivity|]. split; [|exact S1].
      cbn [pq_run]. rewrite E1. cbn [bind]. rewrite R1. reflexivity.
Qed.

Lemma pq_memory_safe junk keys n h ops e :
  keys <> [] -> (forall t k, In (t, k) keys -> k < n) -> Forall (push_ok n) ops ->
  pq_new junk keys n = Ok h -> pq_run h ops = Err e ->
  exists ops1 ops2 rs h1, ops = ops1 ++ Pop :: ops2 /\
    pq_run h ops1 = Ok (rs, h1) /\ pq_entries h1 = [].
Proof.
  intros Hne Hk F N R.
  destruct (pq_new_spec junk keys n Hne Hk) as (h0 & N' & W & P & _).
  rewrite N in N'. inversion N'; subst h0.
  destruct (pq_run_safe n ops h e W F R) as (o1 & o2 & rs & h1 & E & R1 & S1).
  exists o1, o2, rs, h1. split; [exact E|]. split; [exact R1|].
  unfold pq_entries. rewrite S1. reflexivity.
Qed.

Lemma pq_new_total junk keys n :
  keys <> [] -> (forall t k, In (t, k) keys -> k < n) -> exists h, pq_new junk keys n = Ok h.
Proof.
  intros Hne Hk. destruct (pq_new_spec junk keys n Hne Hk) as (h0 & N' & _). eauto.
Qed.
