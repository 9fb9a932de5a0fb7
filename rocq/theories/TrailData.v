(** * TrailData: get_agent_data gives the way of an agent *)
From Coq Require Import List ZArith QArith Lia Bool Permutation Arith Sorted.
From Verif Require Import Base Queue SpecQueue Fetch FetchProofs Network SpecNet NetReach NetInv SpecTrail PropsNet1.
Import ListNotations.
Open Scope Z_scope.

Lemma flat_map_index {A B} (F : A -> list B) (G : nat -> list B) (l : list A) : forall s, (forall k x, get l k = Some x -> F x = G (s + k)%nat) ->
  flat_map F l = flat_map G (seq s (length l)).
Proof.
  induction l as [|x l IH]; intros s H; [reflexivity|]. cbn [flat_map length seq]. f_equal.
  - rewrite (H 0%nat x eq_refl). f_equal. lia.
  - apply IH. intros k y Y. rewrite (H (S k) y Y). f_equal. lia.
Qed.

Lemma flat_map_none {B} (f : nat -> list B) l : (forall k, In k l -> f k = []) -> flat_map f l = [].
Proof. induction l as [|k l IH]; intro H; [reflexivity|]. cbn. rewrite H, IH; auto; [intros; apply H; right|left]; auto. Qed.

Lemma flat_map_ext_in {B} (f g : nat -> list B) l : (forall k, In k l -> f k = g k) -> flat_map f l = flat_map g l.
Proof. induction l as [|k l IH]; intro H; [reflexivity|]. cbn. rewrite H, IH; auto; [intros; apply H; right|left]; auto. Qed.

Definition tag (x : nat * row) : drow := (snd x, fst x).

Lemma buckets p m : (forall x, In x p -> (fst x < m)%nat) ->
  Permutation (flat_map (fun k => map (fun r => (r, k)) (at_queue k p)) (seq 0 m)) (map tag p).
Proof.
  induction p as [|x p IH]; intro H.
  - rewrite flat_map_none by reflexivity. constructor.
  - cbn [map]. specialize (IH ltac:(intros; apply H; right; assumption)). assert (HX : In (fst x) (seq 0 m)) by (apply in_seq; split; [lia|apply H; left; reflexivity]).
    apply in_split in HX as (l1 & l2 & E). assert (ND := seq_NoDup m 0). rewrite E in ND, IH |- *. apply NoDup_remove_2 in ND.
    rewrite flat_map_app in IH |- *. cbn [flat_map] in IH |- *.
    assert (EQ : forall k, k <> fst x -> at_queue k (x :: p) = at_queue k p).
    { intros k NE. unfold at_queue. cbn [filter]. destruct (Nat.eqb_spec (fst x) k); [congruence|reflexivity]. }
    rewrite (flat_map_ext_in _ (fun k => map (fun r => (r, k)) (at_queue k p)) l1), (flat_map_ext_in _ (fun k => map (fun r => (r, k)) (at_queue k p)) l2).
    + unfold at_queue at 2. cbn [filter]. rewrite Nat.eqb_refl. cbn [map app]. rewrite <- Permutation_middle. apply perm_skip. exact IH.
    + intros k K. f_equal. apply EQ. intros ->. apply ND, in_or_app; auto.
    + intros k K. f_equal. apply EQ. intros ->. apply ND, in_or_app; auto.
Qed.

Definition arr_le (x y : drow) : Prop := eLe (r_arr (fst x)) (r_arr (fst y)).

Lemma steps_sorted (p : list (nat * row)) : (forall p1 x y p2, p = p1 ++ x :: y :: p2 -> eLe (r_arr (snd x)) (r_arr (snd y))) -> StronglySorted arr_le (map tag p).
Proof.
  intro H. apply Sorted_StronglySorted; [intros a b c; unfold arr_le; apply eLe_trans|].
  induction p as [|x p IH]; [constructor|]. cbn [map]. constructor.
  - apply IH. intros p1 a b p2 E. apply (H (x :: p1) a b p2). rewrite E. reflexivity.
  - destruct p as [|y p]; [constructor|]. constructor. unfold arr_le, tag. cbn [fst]. apply (H [] x y p). reflexivity.
Qed.

Lemma steps_nodup (p : list (nat * row)) : (forall p1 x y p2, p = p1 ++ x :: y :: p2 -> eLt (r_arr (snd x)) (r_arr (snd y))) ->
  forall x p1 p2 y p3, p = p1 ++ x :: p2 ++ y :: p3 -> eLt (r_arr (snd x)) (r_arr (snd y)).
Proof.
  intros H x p1 p2. revert x p1. induction p2 as [|z p2 IH]; intros x p1 y p3 E.
  - apply (H p1 x y p3). exact E.
  - assert (A : eLt (r_arr (snd x)) (r_arr (snd z))) by (apply (H p1 x z (p2 ++ y :: p3)); exact E).
    assert (B : eLt (r_arr (snd z)) (r_arr (snd y))).
    { apply (IH z (p1 ++ [x]) y p3). rewrite E, <- app_assoc. reflexivity. }
    eapply eLt_le_trans; [exact A|]. apply eLt_le. exact B.
Qed.

(** Two sorted lists with the same elements are equal if no two elements
    have the same key. *)
Lemma sorted_unique (a : list drow) : forall b, Permutation a b -> StronglySorted arr_le a -> StronglySorted arr_le b ->
  (forall x y, In x a -> In y a -> r_arr (fst x) = r_arr (fst y) -> x = y) -> a = b.
Proof.
  induction a as [|x a IH]; intros b P SA SB K; [apply Permutation_nil in P; congruence|].
  destruct b as [|y b]; [apply Permutation_sym, Permutation_nil in P; discriminate|].
  inversion SA as [|? ? SA' FA]; subst. inversion SB as [|? ? SB' FB]; subst. rewrite Forall_forall in FA, FB.
  assert (E : x = y).
  { assert (X : In x (y :: b)) by (apply (Permutation_in _ P); left; reflexivity).
    assert (Y : In y (x :: a)) by (apply (Permutation_in _ (Permutation_sym P)); left; reflexivity).
    destruct X as [X|X]; [congruence|]. destruct Y as [Y|Y]; [congruence|].
    apply K; [left; reflexivity|right; exact Y|]. apply eLe_antisym; [apply FA; exact Y|apply FB; exact X]. }
  subst y. f_equal. apply IH; auto; [eapply Permutation_cons_inv; exact P|]. intros u v U V. apply K; right; assumption.
Qed.

Theorem trail_data n0 n i p : well_made n0 -> nreach usual n0 n -> (forall k q, get (nt_queues n) k = Some q -> c_idx (q_cfg q) = k) -> trail n i p ->
  Permutation (rows_for (get_agent_data (nt_queues n)) i) (map tag p) /\
  map (fun x => r_arr (fst x)) (rows_for (get_agent_data (nt_queues n)) i) = map (fun x => r_arr (snd x)) p /\
  ((forall p1 x y p2, p = p1 ++ x :: y :: p2 -> r_arr (snd x) <> r_dep (snd x)) -> rows_for (get_agent_data (nt_queues n)) i = map tag p).
Proof.
  intros W R IX T. destruct (C44_data n0 n (nt_queues n) W R ltac:(auto)) as (_ & _ & D). destruct (D i) as (P & SS). clear D.
  assert (Q : Permutation (rows_for (get_agent_data (nt_queues n)) i) (map tag p)).
  { rewrite P. rewrite (flat_map_index _ (fun k => map (fun r => (r, k)) (at_queue k p)) (nt_queues n) 0).
    - apply buckets. apply (tl_in _ _ _ T).
    - intros k q G. unfold tagged. rewrite (IX _ _ G). cbn [Nat.add]. rewrite (tl_rows _ _ _ T _ _ G). reflexivity. }
  assert (SP : StronglySorted arr_le (map tag p)).
  { apply steps_sorted. intros p1 x y p2 E. destruct (tl_next _ _ _ T _ _ _ _ E) as (_ & -> & X). exact X. }
  split; [exact Q|]. split.
  - replace (map (fun x => r_arr (snd x)) p) with (map (fun x : drow => r_arr (fst x)) (map tag p)) by (rewrite map_map; reflexivity).
    clear -Q SS SP. revert Q SS SP. generalize (map tag p). generalize (rows_for (get_agent_data (nt_queues n)) i). intros a.
    induction a as [|x a IH]; intros b P SA SB; [apply Permutation_nil in P; subst; reflexivity|].
    destruct b as [|y b]; [apply Permutation_sym, Permutation_nil in P; discriminate|].
    inversion SA as [|? ? SA' FA]; subst. inversion SB as [|? ? SB' FB]; subst. rewrite Forall_forall in FA, FB.
    assert (X : In x (y :: b)) by (apply (Permutation_in _ P); left; reflexivity).
    assert (Y : In y (x :: a)) by (apply (Permutation_in _ (Permutation_sym P)); left; reflexivity).
    assert (K : r_arr (fst x) = r_arr (fst y)).
    { destruct X as [X|X]; [congruence|]. destruct Y as [Y|Y]; [congruence|]. apply eLe_antisym; [apply FA; exact Y|apply FB; exact X]. }
    cbn [map]. f_equal; [exact K|]. destruct X as [<-|X].
    { apply IH; auto. eapply Permutation_cons_inv; exact P. }
    (* the head of [b] is moved to the place of [x] *)
    apply in_split in X as (b1 & b2 & ->).
    assert (EQ : forall z, In z (y :: b1) -> r_arr (fst z) = r_arr (fst x)).
    { intros z [<-|Z]; [congruence|]. apply eLe_antisym.
      - inversion SB as [|? ? SB2 _]; subst. clear -SB2 Z. induction b1 as [|w b1 IHb]; [destruct Z|]. cbn [app] in SB2. inversion SB2 as [|? ? S3 F3]; subst.
        destruct Z as [<-|Z]; [|auto]. rewrite Forall_forall in F3. apply F3. apply in_or_app. right. left. reflexivity.
      - rewrite K. apply FB. apply in_or_app. left. exact Z. }
    assert (M : map (fun x0 : drow => r_arr (fst x0)) (b1 ++ x :: b2) = map (fun x0 : drow => r_arr (fst x0)) (y :: b1 ++ b2)).
    { clear -EQ. assert (H : forall w c, r_arr (fst w) = r_arr (fst x) -> (forall z, In z c -> r_arr (fst z) = r_arr (fst x)) ->
        map (fun x0 : drow => r_arr (fst x0)) (c ++ x :: b2) = map (fun x0 : drow => r_arr (fst x0)) (w :: c ++ b2)).
      { intros w c. revert w. induction c as [|z c IHc]; intros w HW HC; cbn [app map]; [congruence|].
        f_equal; [rewrite HC by (left; reflexivity); congruence|]. rewrite (IHc z); [reflexivity|apply HC; left; reflexivity|intros; apply HC; right; assumption]. }
      apply H; [apply EQ; left; reflexivity|intros; apply EQ; right; assumption]. }
    rewrite M. apply IH; auto.
    + apply (Permutation_cons_inv (a := x)). rewrite P. change (y :: b1 ++ x :: b2) with ((y :: b1) ++ x :: b2). rewrite <- Permutation_middle. reflexivity.
    + change (StronglySorted arr_le ((y :: b1) ++ b2)). change (StronglySorted arr_le ((y :: b1) ++ x :: b2)) in SB. revert SB. generalize (y :: b1). clear. intro c.
      induction c as [|z c IHc]; intro SB; [inversion SB; assumption|]. cbn [app] in SB |- *. inversion SB as [|? ? S1 F1]; subst. constructor; [auto|].
      rewrite Forall_forall in F1 |- *. intros w HW. apply F1. apply in_app_or in HW. apply in_or_app. cbn [In]. tauto.
  - intro ST.
    assert (ST2 : forall p1 x y p2, p = p1 ++ x :: y :: p2 -> eLt (r_arr (snd x)) (r_arr (snd y))).
    { intros p1 x y p2 E. destruct (tl_next _ _ _ T _ _ _ _ E) as (_ & X & Y). rewrite X. specialize (ST _ _ _ _ E).
      apply eLt_not_le. intro Z. apply ST. apply eLe_antisym; assumption. }
    assert (SN := steps_nodup _ ST2). apply sorted_unique; [exact Q|exact SS|exact SP|]. intros u v U V EQ.
    apply (Permutation_in _ Q) in U, V. apply in_map_iff in U as (u' & <- & U), V as (v' & <- & V). cbn [tag fst] in EQ.
    assert (u' = v'); [|congruence]. apply in_split in U as (p1 & p2 & ->). apply in_app_or in V as [V|V].
    + apply in_split in V as (p3 & p4 & ->). exfalso. apply (eLt_irrefl (r_arr (snd v'))). rewrite <- EQ at 2.
      apply (SN v' p3 p4 u' p2). rewrite <- app_assoc. reflexivity.
    + destruct V as [V|V]; [exact V|]. apply in_split in V as (p3 & p4 & ->). exfalso. apply (eLt_irrefl (r_arr (snd u'))). rewrite EQ at 2.
      apply (SN u' p1 p3 v' p4). reflexivity.
Qed.

Lemma trail_shown n0 n i p : well_made n0 -> nreach usual n0 n -> (forall k q, get (nt_queues n) k = Some q -> c_idx (q_cfg q) = k) -> trail n i p ->
  NoDup (map (fun x => r_arr (fst x)) (rows_for (get_agent_data (nt_queues n)) i)) -> map tag p = rows_for (get_agent_data (nt_queues n)) i.
Proof.
  intros W R IX T ND. destruct (trail_data _ _ _ _ W R IX T) as (_ & A & B). symmetry. apply B. intros p1 x y p2 -> EQ.
  rewrite A, map_app in ND. cbn [map] in ND. apply NoDup_remove_2 in ND. apply ND, in_or_app. right. left.
  destruct (tl_next _ _ _ T _ _ _ _ eq_refl) as (_ & X & _). congruence.
Qed.
Lemma tag_inj p p' : map tag p = map tag p' -> p = p'.
Proof.
  revert p'. induction p as [|[k r] p IH]; intros [|[k' r'] p'] E; cbn in E; try discriminate; [reflexivity|]. injection E as -> -> E. f_equal. apply IH. exact E.
Qed.
Lemma indices n0 n k q : well_made n0 -> nreach usual n0 n -> get (nt_queues n) k = Some q -> c_idx (q_cfg q) = k.
Proof. intros W R G. destruct (ngood_reach _ _ W R) as [I _]. apply (ni_q _ I _ _ G). Qed.
