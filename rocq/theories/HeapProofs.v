(** * HeapProofs: correctness of the heap algorithm *)
From Coq Require Import List ZArith Lia Bool Permutation Arith.
From Verif Require Import Base Heap.
Import ListNotations.

Section HeapProofs.
Context {A : Type}.
Variable key : A -> ext.
Variable d : A.

Notation par i := ((i - 1) / 2).

Definition kle (a b : A) : Prop := eLe (key a) (key b).

(** Every element among the first [n] whose parent is at [s] or later is at
    least its parent. *)
Definition hp (h : list A) (n s : nat) : Prop :=
  forall i, 0 < i < n -> s <= par i -> kle (nth (par i) h d) (nth i h d).

Inductive desc (s : nat) : nat -> Prop :=
| desc_refl : desc s s
| desc_l i : desc s i -> desc s (2 * i + 1)
| desc_r i : desc s i -> desc s (2 * i + 2).

Lemma par_l i : par (2 * i + 1) = i.
Proof. replace (2 * i + 1 - 1) with (i * 2) by lia. apply Nat.div_mul; lia. Qed.
Lemma par_r i : par (2 * i + 2) = i.
Proof.
  replace (2 * i + 2 - 1) with (1 + i * 2) by lia.
  rewrite Nat.div_add by lia. reflexivity.
Qed.
Lemma par_child i c : 0 < i -> par i = c -> i = 2 * c + 1 \/ i = 2 * c + 2.
Proof.
  intros H <-. assert (E := Nat.div_mod (i - 1) 2 ltac:(lia)).
  assert (B := Nat.mod_upper_bound (i - 1) 2 ltac:(lia)). lia.
Qed.
Lemma par_lt i : 0 < i -> par i < i.
Proof.
  intro H. destruct (par_child i (par i) H eq_refl) as [E|E]; lia.
Qed.
Lemma desc_ge s i : desc s i -> s <= i.
Proof. induction 1; lia. Qed.
Lemma desc_cases s i : desc s i -> i = s \/ (s < i /\ s <= par i /\ desc s (par i)).
Proof.
  destruct 1 as [|i H|i H]; [auto| |]; right;
    rewrite ?par_l, ?par_r; apply desc_ge in H as H'; repeat split; auto; lia.
Qed.
Lemma desc0 i : desc 0 i.
Proof.
  induction i as [i IH] using lt_wf_ind.
  destruct i as [|i]; [constructor|].
  assert (L := par_lt (S i) ltac:(lia)).
  specialize (IH _ L).
  destruct (par_child (S i) _ ltac:(lia) eq_refl) as [E|E]; rewrite E;
    constructor; exact IH.
Qed.

Lemma kle_refl a : kle a a.
Proof. apply eLe_refl. Qed.
Lemma kle_trans a b c : kle a b -> kle b c -> kle a c.
Proof. apply eLe_trans. Qed.
Lemma klt_true a b : klt key a b = true -> kle a b.
Proof. intro H. apply eLt_le, eltb_lt, H. Qed.
Lemma klt_false a b : klt key a b = false -> kle b a.
Proof. intro H. apply eltb_ge, H. Qed.

(** Precondition of a sift-down at [pos]: a heap except between [pos] and
    its parent, and the children of [pos] are above its parent. *)
Definition SD (g : list A) (n s pos : nat) : Prop :=
  (forall i, 0 < i < n -> s <= par i -> i <> pos -> kle (nth (par i) g d) (nth i g d)) /\
  (forall c, 0 < c < n -> par c = pos -> s < pos -> kle (nth (par pos) g d) (nth c g d)).

Lemma siftdown_loop_spec fuel : forall h s pos x n,
  pos < fuel -> pos < n -> n <= length h -> desc s pos ->
  SD (upd h pos x) n s pos ->
  exists h', siftdown_loop key fuel h s pos x = Some h' /\
    Permutation h' (upd h pos x) /\ hp h' n s /\ skipn n h' = skipn n h.
Proof.
  induction fuel as [|fuel IH]; intros h s pos x n Hf Hn Hl Hd [H1 H2]; [lia|].
  cbn [siftdown_loop].
  assert (Done : s = pos \/ (s < pos /\ klt key x (nth (par pos) h d) = false) ->
    exists h', set h pos x = Some h' /\ Permutation h' (upd h pos x) /\ hp h' n s /\
      skipn n h' = skipn n h).
  { intro C. exists (upd h pos x). split; [apply set_upd; lia|].
    split; [reflexivity|]. split; [|apply skipn_upd; lia].
    intros i Hi Hs. destruct (Nat.eq_dec i pos) as [->|Hne]; [|apply H1; assumption].
    destruct C as [->|[Hlt Hk]].
    - assert (L := par_lt pos ltac:(lia)). lia.
    - rewrite nth_upd_eq by lia. rewrite nth_upd_neq.
      + apply klt_false; exact Hk.
      + assert (L := par_lt pos ltac:(lia)). lia. }
  destruct (Nat.ltb_spec s pos) as [Hlt|Hge].
  2:{ apply Done. left. apply desc_ge in Hd. lia. }
  assert (Hpl : par pos < pos) by (apply par_lt; lia).
  rewrite (get_nth h (par pos) d) by lia.
  destruct (klt key x (nth (par pos) h d)) eqn:Hk.
  2:{ apply Done. right. auto. }
  rewrite set_upd by lia.
  set (p := nth (par pos) h d) in *.
  set (q := par pos) in *.
  destruct (desc_cases s pos Hd) as [E|(_ & Hsq & Hdq)]; [lia|].
  fold q in Hsq, Hdq.
  destruct (IH (upd h pos p) s q x n) as (h' & E1 & E2 & E3 & E4).
  - lia.
  - lia.
  - rewrite upd_length; exact Hl.
  - exact Hdq.
  - set (g := upd h pos x) in *. set (g' := upd (upd h pos p) q x).
    assert (Gp : nth pos g' d = p).
    { unfold g'. rewrite nth_upd_neq by lia. apply nth_upd_eq; lia. }
    assert (Gq : nth q g' d = x).
    { unfold g'. apply nth_upd_eq. rewrite upd_length; lia. }
    assert (Gqo : nth q g d = p) by (unfold g; apply nth_upd_neq; lia).
    assert (Go : forall j, j <> pos -> j <> q -> nth j g' d = nth j g d).
    { intros j J1 J2. unfold g', g. rewrite !nth_upd_neq by lia. reflexivity. }
    assert (Hxp : kle x p) by (apply klt_true; exact Hk).
    split.
    + intros i Hi Hs Hne.
      destruct (Nat.eq_dec i pos) as [->|Hip].
      { change (par pos) with q. rewrite Gq, Gp. exact Hxp. }
      rewrite (Go i) by assumption.
      destruct (Nat.eq_dec (par i) pos) as [Ep|Np].
      { rewrite Ep, Gp, <- Gqo. apply H2; auto. }
      destruct (Nat.eq_dec (par i) q) as [Eq|Nq].
      { rewrite Eq, Gq. apply kle_trans with p; [exact Hxp|].
        rewrite <- Gqo, <- Eq. apply H1; auto. }
      rewrite Go by assumption. apply H1; auto.
    + intros c Hc Epc Hsq'.
      assert (Lq : par q < q) by (apply par_lt; lia).
      rewrite (Go (par q)) by lia.
      assert (Hq : kle (nth (par q) g d) p).
      { rewrite <- Gqo. apply H1; try lia.
        destruct (desc_cases s q Hdq) as [E|(_ & E & _)]; lia. }
      destruct (Nat.eq_dec c pos) as [->|Hcp]; [rewrite Gp; exact Hq|].
      assert (Lc := par_lt c ltac:(lia)).
      rewrite (Go c) by lia.
      apply kle_trans with p; [exact Hq|].
      rewrite <- Gqo, <- Epc. apply H1; auto; lia.
  - exists h'. split; [exact E1|]. split.
    + rewrite E2. unfold p, q. apply upd_swap_perm; lia.
    + split; [exact E3|]. rewrite E4. apply skipn_upd; lia.
Qed.

Lemma siftdown_spec h s pos n :
  pos < n -> n <= length h -> desc s pos -> SD h n s pos ->
  exists h', siftdown key h s pos = Some h' /\
    Permutation h' h /\ hp h' n s /\ skipn n h' = skipn n h.
Proof.
  intros Hn Hl Hd HS. unfold siftdown. rewrite (get_nth h pos d) by lia.
  destruct (siftdown_loop_spec (S pos) h s pos (nth pos h d) n) as (h' & E1 & E2 & E3 & E4);
    try lia; auto.
  - rewrite upd_same; exact HS.
  - exists h'. rewrite upd_same in E2. auto.
Qed.

(** Invariant of the hole moving down. *)
Definition SU (g : list A) (n s pos : nat) : Prop :=
  (forall i, 0 < i < n -> s <= par i -> i <> pos -> par i <> pos ->
     kle (nth (par i) g d) (nth i g d)) /\
  (forall c, 0 < c < n -> par c = pos -> s < pos -> kle (nth (par pos) g d) (nth c g d)).

Lemma siftup_loop_spec fuel : forall h s pos n,
  n < fuel + pos -> pos < n -> n <= length h -> desc s pos -> SU h n s pos ->
  exists h' leaf, siftup_loop key fuel h pos n = Some (h', leaf) /\
    length h' = length h /\ leaf < n /\ n <= 2 * leaf + 1 /\ desc s leaf /\
    SU h' n s leaf /\ skipn n h' = skipn n h /\
    (forall x, Permutation (upd h' leaf x) (upd h pos x)).
Proof.
  induction fuel as [|fuel IH]; intros h s pos n Hf Hn Hl Hd HS; [lia|].
  cbn [siftup_loop].
  destruct (Nat.ltb_spec (2 * pos + 1) n) as [Hc|Hge].
  2:{ exists h, pos. repeat split; auto; try apply HS. }
  set (l := 2 * pos + 1) in *.
  rewrite (get_nth h l d) by lia.
  assert (Pick : exists c,
    (if l + 1 <? n then
       match get h (l + 1) with
       | None => None
       | Some r => Some (if klt key (nth l h d) r then l else l + 1)
       end
     else Some l) = Some c /\ 0 < c < n /\ par c = pos /\ desc s c /\
    forall i, 0 < i < n -> par i = pos -> kle (nth c h d) (nth i h d)).
  { assert (Pl : par l = pos) by apply par_l.
    assert (Pr : par (l + 1) = pos).
    { unfold l. replace (2 * pos + 1 + 1) with (2 * pos + 2) by lia. apply par_r. }
    assert (Ch : forall i, 0 < i < n -> par i = pos -> i = l \/ i = l + 1).
    { intros i Hi E. destruct (par_child i pos ltac:(lia) E); unfold l; lia. }
    destruct (Nat.ltb_spec (l + 1) n) as [Hr|Hr].
    - rewrite (get_nth h (l + 1) d) by lia.
      destruct (klt key (nth l h d) (nth (l + 1) h d)) eqn:K.
      + exists l. repeat split; auto; try lia; [constructor; exact Hd|].
        intros i Hi E. destruct (Ch i Hi E) as [->| ->];
          [apply kle_refl | apply klt_true; exact K].
      + exists (l + 1). repeat split; auto; try lia.
        { replace (l + 1) with (2 * pos + 2) by (unfold l; lia). constructor; exact Hd. }
        intros i Hi E. destruct (Ch i Hi E) as [->| ->];
          [apply klt_false; exact K | apply kle_refl].
    - exists l. repeat split; auto; try lia; [constructor; exact Hd|].
      intros i Hi E. destruct (Ch i Hi E) as [->| ->]; [apply kle_refl | lia]. }
  destruct Pick as (c & -> & Hcn & Hpc & Hdc & Hmin).
  rewrite (get_nth h c d) by lia. rewrite set_upd by lia.
  assert (Lc : pos < c) by (rewrite <- Hpc; apply par_lt; lia).
  destruct HS as [H1 H2].
  destruct (IH (upd h pos (nth c h d)) s c n) as (h' & leaf & E1 & E2 & E3 & E4 & E5 & E6 & E7 & E8).
  - lia.
  - lia.
  - rewrite upd_length; exact Hl.
  - exact Hdc.
  - assert (Go : forall j, j <> pos -> nth j (upd h pos (nth c h d)) d = nth j h d).
    { intros j J. apply nth_upd_neq; lia. }
    assert (Gp : nth pos (upd h pos (nth c h d)) d = nth c h d) by (apply nth_upd_eq; lia).
    split.
    + intros i Hi Hs Hne Hpn.
      destruct (Nat.eq_dec i pos) as [->|Hip].
      * assert (Lp := par_lt pos ltac:(lia)).
        rewrite Gp, Go by lia. apply H2; auto; try lia.
      * rewrite (Go i) by assumption.
        destruct (Nat.eq_dec (par i) pos) as [Ep|Np].
        -- rewrite Ep, Gp. apply Hmin; auto.
        -- rewrite Go by assumption. apply H1; auto.
    + intros e He Epe Hs.
      assert (Le := par_lt e ltac:(lia)).
      rewrite Hpc, Gp, Go by lia. rewrite <- Epe. apply H1; auto; try lia.
  - exists h', leaf. split; [exact E1|].
    rewrite upd_length in E2. rewrite skipn_upd in E7 by lia.
    repeat split; auto; try apply E6.
    intro x. rewrite E8. apply upd_swap_perm; lia.
Qed.

Lemma siftup_spec h s n :
  s < n -> n <= length h -> hp h n (S s) ->
  exists h', siftup key h s n = Some h' /\
    Permutation h' h /\ hp h' n s /\ skipn n h' = skipn n h.
Proof.
  intros Hn Hl Hh. unfold siftup. rewrite (get_nth h s d) by lia.
  destruct (siftup_loop_spec (S n) h s s n)
    as (h' & leaf & -> & E2 & E3 & E4 & E5 & [E6 E6'] & E7 & E8); try lia.
  { constructor. }
  { split.
    - intros i Hi Hs Hne Hpn. apply Hh; [exact Hi | lia].
    - intros; lia. }
  rewrite set_upd by lia.
  destruct (siftdown_spec (upd h' leaf (nth s h d)) s leaf n) as (h'' & F1 & F2 & F3 & F4).
  - exact E3.
  - rewrite upd_length; lia.
  - exact E5.
  - assert (NC : forall c, 0 < c < n -> par c <> leaf).
    { intros c Hc E. destruct (par_child c leaf ltac:(lia) E); lia. }
    split.
    + intros i Hi Hs Hne. rewrite !nth_upd_neq by (try apply not_eq_sym; auto).
      apply E6; auto.
    + intros c Hc E. exfalso. apply (NC c Hc E).
  - exists h''. split; [exact F1|]. split.
    + rewrite F2, E8, upd_same. reflexivity.
    + split; [exact F3|]. rewrite F4, skipn_upd, E7 by exact E3. reflexivity.
Qed.

Lemma heapify_loop_spec k : forall h n,
  k <= n -> n <= length h -> hp h n k ->
  exists h', heapify_loop key k h n = Some h' /\
    Permutation h' h /\ hp h' n 0 /\ skipn n h' = skipn n h.
Proof.
  induction k as [|k IH]; intros h n Hk Hl Hh; simpl.
  - exists h. auto.
  - destruct (siftup_spec h k n) as (h1 & -> & P1 & Q1 & R1); try lia; auto.
    destruct (IH h1 n) as (h2 & -> & P2 & Q2 & R2); try lia; auto.
    + rewrite (Permutation_length P1). lia.
    + exists h2. split; [reflexivity|]. split; [rewrite P2; exact P1|].
      split; [exact Q2 | congruence].
Qed.

Lemma heapify_spec h n :
  n <= length h ->
  exists h', heapify key h n = Some h' /\
    Permutation h' h /\ hp h' n 0 /\ skipn n h' = skipn n h.
Proof.
  intro Hl. unfold heapify. apply heapify_loop_spec; auto.
  - apply Nat.div_le_upper_bound; lia.
  - intros i Hi Hs.
    assert (E := Nat.div_mod n 2 ltac:(lia)).
    assert (B := Nat.mod_upper_bound n 2 ltac:(lia)).
    destruct (par_child i (par i) ltac:(lia) eq_refl); lia.
Qed.

(** The root is a minimum. *)
Lemma hp_min h n i : hp h n 0 -> i < n -> kle (nth 0 h d) (nth i h d).
Proof.
  intros Hh. induction i as [i IH] using lt_wf_ind. intro Hi.
  destruct i as [|i]; [apply kle_refl|].
  assert (L := par_lt (S i) ltac:(lia)).
  apply kle_trans with (nth (par (S i)) h d).
  - apply IH; lia.
  - apply Hh; lia.
Qed.

Lemma hp_prefix h n m s : hp h n s -> m <= n -> hp h m s.
Proof. intros H L i Hi. apply H; lia. Qed.

Lemma hp_ext h h' n s :
  (forall i, i < n -> nth i h d = nth i h' d) -> hp h n s -> hp h' n s.
Proof.
  intros E H i Hi Hs. assert (L := par_lt i ltac:(lia)).
  rewrite <- !E by lia. apply H; auto.
Qed.

(** ** heapq on whole lists *)

Definition is_heap (h : list A) : Prop := hp h (length h) 0.

Lemma is_heap_nil : is_heap [].
Proof. intros i Hi. simpl in Hi. lia. Qed.
Lemma is_heap_one x : is_heap [x].
Proof. intros i Hi. simpl in Hi. lia. Qed.

Lemma is_heap_root x h y : is_heap (x :: h) -> In y (x :: h) -> kle x y.
Proof.
  intros H Hin. apply In_nth with (d := d) in Hin as (i & Hi & <-).
  apply (hp_min (x :: h) (length (x :: h)) i H Hi).
Qed.

Lemma heappush_spec h x :
  is_heap h -> exists h', heappush key h x = Some h' /\
    Permutation h' (x :: h) /\ is_heap h'.
Proof.
  intro H. unfold heappush.
  destruct (siftdown_spec (h ++ [x]) 0 (length h) (S (length h))) as (h' & E & P & Q & _).
  - lia.
  - rewrite app_length; simpl; lia.
  - apply desc0.
  - split.
    + intros i Hi _ Hne. assert (L := par_lt i ltac:(lia)).
      rewrite !app_nth1 by lia. apply H; lia.
    + intros c Hc E. assert (L := par_lt c ltac:(lia)). lia.
  - exists h'. split; [exact E|]. split.
    + rewrite P. rewrite Permutation_app_comm. reflexivity.
    + unfold is_heap. rewrite (Permutation_length P), app_length. simpl.
      rewrite Nat.add_1_r. exact Q.
Qed.

Lemma heappop_spec x h :
  is_heap (x :: h) -> exists h', heappop key (x :: h) = Some (x, h') /\
    Permutation h' h /\ is_heap h'.
Proof.
  intro H. unfold heappop.
  destruct (rev (x :: h)) as [|lst r] eqn:E.
  { apply (f_equal (@length A)) in E. rewrite rev_length in E. discriminate. }
  apply (f_equal (@rev A)) in E. rewrite rev_involutive in E. simpl in E.
  destruct (rev r) as [|y h1].
  - simpl in E. injection E as -> ->. exists []. split; [reflexivity|].
    split; [reflexivity | apply is_heap_nil].
  - simpl in E. injection E as <- ->. cbn [set].
    destruct (siftup_spec (lst :: h1) 0 (length (lst :: h1))) as (h' & -> & P & Q & _).
    + simpl; lia.
    + lia.
    + intros i Hi Hs. assert (L := par_lt i ltac:(lia)). simpl in Hi.
      assert (G := H i). simpl length in G. rewrite app_length in G. simpl length in G.
      specialize (G ltac:(lia) ltac:(lia)).
      change (x :: h1 ++ [lst]) with ((x :: h1) ++ [lst]) in G.
      rewrite !app_nth1 in G by (cbn [length]; lia).
      destruct i; [lia|]. destruct (par (S i)) eqn:Ep; [lia|]. exact G.
    + exists h'. split; [reflexivity|]. split.
      * rewrite P. rewrite Permutation_app_comm. reflexivity.
      * unfold is_heap. rewrite (Permutation_length P). exact Q.
Qed.

End HeapProofs.
