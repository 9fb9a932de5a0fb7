(** * PQueueProofs: facts about PriorityQueue *)
From Coq Require Import List ZArith Lia Bool Permutation Arith.
From Verif Require Import Base Heap HeapProofs PQueue.
Import ListNotations.

Definition d0 : ext * nat := (Inf, 0).
Notation hpf := (hp (@fst ext nat) d0).

(** Well-formedness of a reachable PriorityQueue with [n] edges. *)
Record pq_wf (n : nat) (h : pq) : Prop := mkPqWf {
  wf_size : pq_size h <= pq_actual h;
  wf_store : length (pq_store h) = pq_actual h;
  wf_pos : 0 < pq_actual h;
  wf_q : length (pq_qtimes h) = n;
  wf_heap : hpf (pq_store h) (pq_size h) 0;
  wf_edges : forall t k, In (t, k) (pq_entries h) -> k < n
}.

Lemma of_option_Ok {A} e (o : option A) a : of_option e o = Ok a -> o = Some a.
Proof. destruct o; simpl; congruence. Qed.

Lemma firstn_perm {A} (l l' : list A) n :
  Permutation l l' -> skipn n l = skipn n l' -> Permutation (firstn n l) (firstn n l').
Proof.
  intros P E. rewrite <- (firstn_skipn n l), <- (firstn_skipn n l'), E in P.
  apply Permutation_app_inv_r in P. exact P.
Qed.

Lemma pq_entries_length h : pq_size h <= length (pq_store h) -> length (pq_entries h) = pq_size h.
Proof. intro H. unfold pq_entries. rewrite firstn_length. lia. Qed.

Lemma nth_firstn {A} (l : list A) n i d : i < n -> nth i (firstn n l) d = nth i l d.
Proof.
  revert n i; induction l as [|a l IH]; intros n i H.
  - rewrite firstn_nil. reflexivity.
  - destruct n; [lia|]. destruct i; simpl; [reflexivity|]. apply IH; lia.
Qed.

(** A single raw pop returns a minimum and keeps everything else. *)
Lemma pq_heappop_spec n h :
  pq_wf n h -> 0 < pq_size h ->
  exists e h', pq_heappop h = Ok (e, h') /\ pq_wf n h' /\
    Permutation (pq_entries h) (e :: pq_entries h') /\
    (forall x, In x (pq_entries h) -> eLe (fst e) (fst x)) /\
    pq_qtimes h' = pq_qtimes h /\ pq_size h = S (pq_size h') /\
    pq_junk h' = pq_junk h.
Proof.
  intros W Hs. destruct W as [W1 W2 W3 W4 W5 W6].
  assert (Root : forall x, In x (pq_entries h) -> eLe (fst (nth 0 (pq_store h) d0)) (fst x)).
  { intros x Hx. apply In_nth with (d := d0) in Hx as (i & Hi & <-).
    rewrite pq_entries_length in Hi by lia.
    unfold pq_entries. rewrite nth_firstn by exact Hi.
    apply (hp_min fst d0 (pq_store h) (pq_size h) i W5 Hi). }
  unfold pq_heappop. destruct (pq_size h) as [|m] eqn:Es; [lia|].
  rewrite (get_nth (pq_store h) m d0) by lia. cbn [of_option bind].
  destruct (Nat.ltb_spec 0 m) as [Hm|Hm].
  - rewrite (get_nth (pq_store h) 0 d0) by lia. cbn [of_option bind].
    rewrite set_upd by lia. cbn [of_option bind].
    set (lst := nth m (pq_store h) d0).
    destruct (siftup_spec fst d0 (upd (pq_store h) 0 lst) 0 m) as (st & -> & P & Q & R).
    + exact Hm.
    + rewrite upd_length; lia.
    + intros i Hi Hp. assert (L := par_lt i ltac:(lia)).
      rewrite !nth_upd_neq by lia. apply W5; lia.
    + cbn [of_option bind].
      set (h' := mkPq st m (pq_actual h) (pq_qtimes h) (pq_junk h)).
      assert (PE : Permutation (pq_entries h') (upd (firstn m (pq_store h)) 0 lst)).
      { unfold pq_entries, h'; simpl. rewrite <- firstn_upd by exact Hm.
        apply firstn_perm; assumption. }
      assert (PA : Permutation (pq_entries h) (nth 0 (pq_store h) d0 :: pq_entries h')).
      { rewrite PE. unfold pq_entries. rewrite Es.
        assert (F : firstn (S m) (pq_store h) = firstn m (pq_store h) ++ [lst]).
        { unfold lst.
          assert (G := firstn_skipn m (firstn (S m) (pq_store h))).
          rewrite firstn_firstn in G. replace (Nat.min m (S m)) with m in G by lia.
          rewrite <- G at 1. f_equal.
          assert (L2 : length (skipn m (firstn (S m) (pq_store h))) = 1).
          { rewrite skipn_length, firstn_length. lia. }
          destruct (skipn m (firstn (S m) (pq_store h))) as [|y [|z zz]] eqn:E2; simpl in L2; try lia.
          f_equal. assert (N : nth m (firstn (S m) (pq_store h)) d0 = y).
          { rewrite <- G at 1. rewrite app_nth2; rewrite firstn_length; [|lia].
            replace (m - Nat.min m (length (pq_store h))) with 0 by lia. reflexivity. }
          rewrite nth_firstn in N by lia. congruence. }
        rewrite F. rewrite Permutation_app_comm. simpl.
        rewrite <- (nth_firstn (pq_store h) m 0 d0) by exact Hm.
        rewrite upd_perm; [reflexivity|]. rewrite firstn_length; lia. }
      exists (nth 0 (pq_store h) d0), h'. split; [reflexivity|].
      split; [constructor; simpl; auto; try lia|].
      * rewrite (Permutation_length P), upd_length. exact W2.
      * intros t k Hin. apply (W6 t k). rewrite PA. right; exact Hin.
      * split; [exact PA|]. split; [exact Root|]. auto.
  - assert (m = 0) by lia; subst m.
    set (h' := mkPq (pq_store h) 0 (pq_actual h) (pq_qtimes h) (pq_junk h)).
    exists (nth 0 (pq_store h) d0), h'. split; [reflexivity|].
    split; [constructor; simpl; auto; try lia|].
    + intros i Hi; lia.

    + assert (E : pq_entries h = [nth 0 (pq_store h) d0]).
      { unfold pq_entries. rewrite Es. destruct (pq_store h) as [|x l]; simpl in *; [lia | reflexivity]. }
      split; [rewrite E; reflexivity|]. split; [exact Root|]. auto.
Qed.

Definition stale (h : pq) (e : ext * nat) : Prop := nth (snd e) (pq_qtimes h) Inf <> fst e.

(** Result of the pop loop, relative to the queue before [nxt] was taken. *)
Lemma pq_pop_loop_spec n fuel : forall nxt h,
  pq_wf n h -> snd nxt < n -> pq_size h < fuel ->
  (forall x, In x (pq_entries h) -> eLe (fst nxt) (fst x)) ->
  exists r h' dropped,
    pq_pop_loop fuel nxt h = Ok (r, h') /\ pq_wf n h' /\
    pq_qtimes h' = pq_qtimes h /\ pq_junk h' = pq_junk h /\
    (forall x, In x dropped -> stale h x) /\
    match r with
    | Some e =>
        Permutation (nxt :: pq_entries h) (e :: dropped ++ pq_entries h') /\
        ~ stale h e /\ snd e < n /\
        (forall x, In x dropped -> eLe (fst x) (fst e)) /\
        (forall x, In x (pq_entries h') -> eLe (fst e) (fst x))
    | None =>
        Permutation (nxt :: pq_entries h) dropped /\ pq_size h' = 0
    end.
Proof.
  induction fuel as [|fuel IH]; intros nxt h W Hk Hf Hmin; [lia|].
  cbn [pq_pop_loop].
  assert (Hl : snd nxt < length (pq_qtimes h)) by (rewrite (wf_q _ _ W); exact Hk).
  rewrite (get_nth (pq_qtimes h) (snd nxt) Inf) by exact Hl. cbn [of_option bind].
  destruct (eeqb (fst nxt) (nth (snd nxt) (pq_qtimes h) Inf)) eqn:E.
  - apply eeqb_eq in E.
    exists (Some nxt), h, []. simpl.
    split; [reflexivity|]. split; [exact W|]. split; [reflexivity|]. split; [reflexivity|].
    split; [intros x []|].
    split; [reflexivity|]. split; [unfold stale; congruence|]. split; [exact Hk|].
    split; [intros x [] | exact Hmin].
  - apply eeqb_neq in E.
    destruct (Nat.eqb_spec (pq_size h) 0) as [Z|Z].
    + exists None, h, [nxt]. simpl.
      split; [reflexivity|]. split; [exact W|]. split; [reflexivity|]. split; [reflexivity|].
      split; [intros x [<-|[]]; unfold stale; congruence|].
      split; [|exact Z]. unfold pq_entries. rewrite Z. reflexivity.
    + destruct (pq_heappop_spec n h W ltac:(lia)) as (e & h1 & -> & W1 & P1 & M1 & Q1 & S1 & J1).
      cbn [bind].
      destruct (IH e h1 W1) as (r & h' & dr & R & W' & Q' & J' & D' & X).
      * destruct e as [te ke]. simpl. apply (wf_edges _ _ W te ke). rewrite P1. left; reflexivity.
      * lia.
      * intros x Hx. apply M1. rewrite P1. right; exact Hx.
      * exists r, h', (nxt :: dr). split; [exact R|]. split; [exact W'|].
        split; [congruence|]. split; [congruence|]. split.
        { intros x [<-|Hx]; [unfold stale; congruence|].
          generalize (D' x Hx). unfold stale. rewrite Q1. tauto. }
        destruct r as [y|].
        -- destruct X as (X1 & X2 & X3 & X4 & X5).
           split.
           { rewrite P1, X1. simpl. apply perm_swap. }
           split; [unfold stale in *; rewrite Q1 in X2; exact X2|].
           split; [exact X3|]. split; [|exact X5].
           intros x [<-|Hx]; [|apply X4; exact Hx].
           apply Hmin. rewrite P1, X1. left; reflexivity.
        -- destruct X as [X1 X2]. split; [|exact X2].
           rewrite P1, X1. reflexivity.
Qed.

Lemma pq_pop_spec n h :
  pq_wf n h -> 0 < pq_size h ->
  exists r h' dropped,
    pq_pop h = Ok (r, h') /\ pq_wf n h' /\
    pq_qtimes h' = pq_qtimes h /\ pq_junk h' = pq_junk h /\
    (forall x, In x dropped -> stale h x) /\
    match r with
    | Some e =>
        Permutation (pq_entries h) (e :: dropped ++ pq_entries h') /\
        ~ stale h e /\ snd e < n /\
        (forall x, In x dropped -> eLe (fst x) (fst e)) /\
        (forall x, In x (pq_entries h') -> eLe (fst e) (fst x))
    | None =>
        Permutation (pq_entries h) dropped /\ pq_size h' = 0
    end.
Proof.
  intros W Hs. unfold pq_pop.
  destruct (pq_heappop_spec n h W Hs) as (e & h1 & -> & W1 & P1 & M1 & Q1 & S1 & J1).
  cbn [bind].
  destruct (pq_pop_loop_spec n (S (pq_size h1)) e h1 W1)
    as (r & h' & dr & R & W' & Q' & J' & D' & X).
  - destruct e as [te ke]. simpl. apply (wf_edges _ _ W te ke). rewrite P1. left; reflexivity.
  - lia.
  - intros x Hx. apply M1. rewrite P1. right; exact Hx.
  - exists r, h', dr. split; [exact R|]. split; [exact W'|].
    split; [congruence|]. split; [congruence|].
    split; [intros x Hx; generalize (D' x Hx); unfold stale; rewrite Q1; tauto|].
    destruct r as [y|].
    + destruct X as (X1 & X2 & X3 & X4 & X5).
      split; [rewrite P1; exact X1|].
      split; [unfold stale in *; rewrite Q1 in X2; exact X2|]. auto.
    + destruct X as [X1 X2]. split; [rewrite P1; exact X1 | exact X2].
Qed.

Lemma pq_push_spec n h t k :
  pq_wf n h -> k < n ->
  exists h', pq_push h t k = Ok h' /\ pq_wf n h' /\
    Permutation (pq_entries h') ((t, k) :: pq_entries h) /\
    pq_qtimes h' = upd (pq_qtimes h) k t /\ pq_size h' = S (pq_size h) /\
    pq_junk h' = pq_junk h.
Proof.
  intros W Hk. destruct W as [W1 W2 W3 W4 W5 W6].
  unfold pq_push. rewrite set_upd by lia. cbn [of_option bind].
  set (grow := negb (pq_size h <? pq_actual h)).
  set (st0 := if grow then firstn (2 * pq_size h) (pq_store h ++ repeat (pq_junk h) (2 * pq_size h))
              else pq_store h).
  set (act := if grow then 2 * pq_actual h else pq_actual h).
  assert (L : length st0 = act /\ pq_size h < act /\ firstn (pq_size h) st0 = firstn (pq_size h) (pq_store h)).
  { unfold st0, act, grow. destruct (Nat.ltb_spec (pq_size h) (pq_actual h)) as [H|H]; cbn [negb].
    - auto.
    - rewrite firstn_length, app_length, repeat_length.
      split; [lia|]. split; [lia|].
      rewrite firstn_firstn. replace (Nat.min (pq_size h) (2 * pq_size h)) with (pq_size h) by lia.
      rewrite firstn_app. replace (pq_size h - length (pq_store h)) with 0 by lia.
      rewrite firstn_O, app_nil_r. reflexivity. }
  destruct L as (L1 & L2 & L3).
  rewrite set_upd by lia. cbn [of_option bind].
  replace (S (pq_size h) - 1) with (pq_size h) by lia.
  set (st1 := upd st0 (pq_size h) (t, k)).
  assert (Lst1 : length st1 = act) by (unfold st1; rewrite upd_length; exact L1).
  destruct (siftdown_spec fst d0 st1 0 (pq_size h) (S (pq_size h))) as (st2 & -> & P & Q & R).
  - lia.
  - lia.
  - apply desc0.
  - split.
    + intros i Hi _ Hne. assert (L := par_lt i ltac:(lia)). unfold st1.
      rewrite !nth_upd_neq by lia.
      rewrite <- (nth_firstn st0 (pq_size h)) by lia.
      rewrite <- (nth_firstn st0 (pq_size h) i) by lia.
      rewrite L3. rewrite !nth_firstn by lia. apply W5; lia.
    + intros c Hc E. assert (L := par_lt c ltac:(lia)). lia.
  - cbn [of_option bind].
    set (h' := mkPq st2 (S (pq_size h)) act (upd (pq_qtimes h) k t) (pq_junk h)).
    assert (PE : Permutation (pq_entries h') ((t, k) :: pq_entries h)).
    { unfold pq_entries, h'; cbn [pq_size pq_store].
      rewrite (firstn_perm st2 st1 _ P R).
      unfold st1. rewrite <- L3.
      assert (F : firstn (S (pq_size h)) (upd st0 (pq_size h) (t, k)) = firstn (pq_size h) st0 ++ [(t, k)]).
      { destruct (upd_split st0 (pq_size h) (t, k) ltac:(lia)) as (l1 & y & l2 & E1 & E2 & E3).
        rewrite E3, E1, <- E2. clear. induction l1; simpl; [reflexivity|]. f_equal. exact IHl1. }
      rewrite F. rewrite Permutation_app_comm. reflexivity. }
    exists h'. split; [reflexivity|].
    split; [constructor; simpl; auto; try lia|].
    + rewrite (Permutation_length P). exact Lst1.
    + rewrite upd_length; exact W4.
    + intros t' k' Hin. rewrite PE in Hin. destruct Hin as [E|Hin]; [congruence | eauto].
    + auto.
Qed.

(** Construction. *)
Lemma assign_all_spec keys : forall qt,
  (forall t k, In (t, k) keys -> k < length qt) ->
  exists qt', assign_all qt keys = Ok qt' /\ length qt' = length qt /\
    forall k, (forall t, ~ In (t, k) keys) -> nth k qt' Inf = nth k qt Inf.
Proof.
  induction keys as [|[t k] keys IH]; intros qt H; cbn [assign_all].
  - exists qt. auto.
  - rewrite set_upd by (apply (H t k); left; reflexivity). cbn [of_option bind].
    destruct (IH (upd qt k t)) as (qt' & E1 & E2 & E3).
    + intros t' k' Hin. rewrite upd_length. apply (H t' k'). right; exact Hin.
    + exists qt'. split; [exact E1|]. rewrite upd_length in E2. split; [exact E2|].
      intros j Hj. rewrite E3.
      * apply nth_upd_neq. intro; subst. apply (Hj t). left; reflexivity.
      * intros t' Hin. apply (Hj t'). right; exact Hin.
Qed.

(** [n] edges; each of them at most once in [keys]. *)
Lemma assign_all_nodup keys : forall qt,
  (forall t k, In (t, k) keys -> k < length qt) -> NoDup (map snd keys) ->
  forall qt', assign_all qt keys = Ok qt' ->
  forall t k, In (t, k) keys -> nth k qt' Inf = t.
Proof.
  induction keys as [|[t0 k0] keys IH]; intros qt H ND qt' E t k Hin; [destruct Hin|].
  inversion ND as [|? ? N1 N2]; subst.
  cbn [assign_all] in E. rewrite set_upd in E by (apply (H t0 k0); left; reflexivity).
  cbn [of_option bind] in E.
  assert (H' : forall t k, In (t, k) keys -> k < length (upd qt k0 t0)).
  { intros t' k' Hin'. rewrite upd_length. apply (H t' k'). right; exact Hin'. }
  destruct Hin as [Eq|Hin].
  - inversion Eq; subst. destruct (assign_all_spec keys (upd qt k t) H') as (q2 & F1 & F2 & F3).
    rewrite E in F1. inversion F1; subst. rewrite F3.
    + apply nth_upd_eq. apply (H t k); left; reflexivity.
    + intros t' Hin'. apply N1. simpl. apply in_map_iff. exists (t', k). auto.
  - eapply IH; eauto.
Qed.

Lemma pq_new_spec junk keys n :
  keys <> [] -> (forall t k, In (t, k) keys -> k < n) ->
  exists h, pq_new junk keys n = Ok h /\ pq_wf n h /\
    Permutation (pq_entries h) keys /\ pq_size h = length keys /\
    assign_all (repeat Inf n) keys = Ok (pq_qtimes h) /\ pq_junk h = junk.
Proof.
  intros Hne Hk. unfold pq_new.
  destruct (heapify_spec fst d0 keys (length keys) (Nat.le_refl _)) as (st & -> & P & Q & R).
  cbn [of_option bind].
  destruct (assign_all_spec keys (repeat Inf n)) as (qt & E & L & _).
  { intros t k Hin. rewrite repeat_length. eauto. }
  rewrite E. cbn [bind].
  set (h := mkPq st (length keys) (length keys) qt junk).
  assert (PE : Permutation (pq_entries h) keys).
  { unfold pq_entries, h; simpl. rewrite <- (Permutation_length P), firstn_all. exact P. }
  exists h. split; [reflexivity|].
  split; [constructor; simpl; auto|].
  - apply Permutation_length; exact P.
  - destruct keys; [congruence | simpl; lia].
  - rewrite L, repeat_length. reflexivity.
  - intros t k Hin. rewrite PE in Hin. eauto.
  - auto.
Qed.

(** The empty construction: [PriorityQueue()] *)
Lemma pq_new_empty junk n : pq_new junk [] n = Ok (mkPq [] 0 0 (repeat Inf n) junk).
Proof. reflexivity. Qed.
