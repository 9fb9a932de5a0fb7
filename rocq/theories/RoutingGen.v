(** * RoutingGen: sums of rows and generate_transition_matrix *)
From Coq Require Import List ZArith QArith Qabs Qround Bool Arith Lia Lqa Permutation Sorting.Sorted.
From Verif Require Import Base Dict UnionFind UnionFindProofs QueueEffects Graph SpecGraph GraphProofs GraphClaims GraphNet GraphIndex Queue Network SpecBuild GraphBuild Routing SpecRoute RoutingProofs.
Import ListNotations.
Open Scope Q_scope.

(** ** Sums *)

Lemma total_upd : forall (l : list Q) i x, (i < length l)%nat -> total (upd l i x) == total l + x - nth i l 0.
Proof.
  induction l as [|y l IH]; intros i x H; cbn in H; [lia|]. destruct i as [|i]; cbn [upd total fold_right nth]; [fold (total l); ring|].
  fold (total l). fold (total (upd l i x)). rewrite IH by lia. ring.
Qed.
Lemma total_zeros n : total (repeat 0 n) == 0.
Proof. induction n as [|n IH]; cbn; [reflexivity|]. fold (total (repeat 0 n)). rewrite IH. reflexivity. Qed.
Lemma total_nonneg l : (forall x, In x l -> 0 <= x) -> 0 <= total l.
Proof.
  induction l as [|x l IH]; intro H; cbn; [apply Qle_refl|]. fold (total l). assert (0 <= x) by (apply H; left; reflexivity).
  assert (0 <= total l) by (apply IH; intros y I; apply H; right; exact I). lra.
Qed.
Lemma total_ge l x : (forall y, In y l -> 0 <= y) -> In x l -> x <= total l.
Proof.
  induction l as [|y l IH]; intros H I; [destruct I|]. cbn. fold (total l). assert (0 <= total l) by (apply total_nonneg; intros z J; apply H; right; exact J).
  assert (0 <= y) by (apply H; left; reflexivity). destruct I as [->|I]; [lra|]. assert (x <= total l) by (apply IH; [intros z J; apply H; right; exact J|exact I]). lra.
Qed.
Lemma total_div l s : ~ s == 0 -> total (map (fun x => x / s) l) == total l / s.
Proof.
  intro N. induction l as [|x l IH]; cbn; [field; exact N|]. fold (total l). fold (total (map (fun x => x / s) l)). rewrite IH. field. exact N.
Qed.

Lemma upd_in {A} (l : list A) i x y : In y (upd l i x) -> y = x \/ In y l.
Proof.
  revert i. induction l as [|z l IH]; intros i I; [cbn in I; auto|]. destruct i as [|i]; cbn in I; [destruct I as [->|I]; cbn; auto|].
  destruct I as [->|I]; [cbn; auto|]. apply IH in I as [->|I]; cbn; auto.
Qed.

Lemma set_inv {A} : forall (l : list A) i x l', set l i x = Some l' -> (i < length l)%nat /\ l' = upd l i x.
Proof.
  induction l as [|y l IH]; intros i x l' H; [destruct i; discriminate|]. destruct i as [|i]; cbn in H.
  - injection H as <-. split; [cbn; lia|reflexivity].
  - destruct (set l i x) as [l1|] eqn:E; [|discriminate]. injection H as <-. destruct (IH _ _ _ E) as [L ->]. split; [cbn; lia|reflexivity].
Qed.

Lemma put_row_sum : forall ind vals row row', put_row_at row ind vals = Ok row' -> NoDup ind -> (forall i, In i ind -> nth i row 0 == 0) ->
  total row' == total row + total vals.
Proof.
  induction ind as [|i ind IH]; intros [|x vals] row row' E ND Z; cbn [put_row_at] in E; try discriminate.
  - injection E as <-. cbn. ring.
  - destruct (set row i x) as [row1|] eqn:S1; cbn [of_option bind] in E; [|discriminate]. inversion ND as [|? ? NI ND']; subst.
    destruct (set_inv _ _ _ _ S1) as [L ->]. clear S1.
    rewrite (IH vals _ row' E ND').
    + rewrite total_upd by exact L. rewrite (Z i (or_introl eq_refl)). cbn [total fold_right]. fold (total vals). ring.
    + intros j J. rewrite nth_upd_neq by (intros ->; contradiction). apply Z. right; exact J.
Qed.
Lemma put_row_in : forall ind vals row row' x, put_row_at row ind vals = Ok row' -> In x row' -> In x row \/ In x vals.
Proof.
  induction ind as [|i ind IH]; intros [|y vals] row row' x E I; cbn [put_row_at] in E; try discriminate; [injection E as <-; auto|].
  destruct (set row i y) as [row1|] eqn:S1; cbn [of_option bind] in E; [|discriminate].
  destruct (set_inv _ _ _ _ S1) as [L ->]. clear S1. destruct (IH vals _ row' x E I) as [J|J]; [|right; right; exact J]. apply upd_in in J as [->|J]; [right; left; reflexivity|left; exact J].
Qed.

(** ** Drawing a row *)

Lemma percent_nonneg x : 0 <= x -> 0 <= percent x.
Proof.
  intro H. unfold percent. assert (C := Qle_ceiling (x * 100)). set (c := inject_Z (Qceiling (x * 100))) in *.
  apply Qle_shift_div_l; [reflexivity|]. lra.
Qed.

Lemma draw_row_ok rand i deg pick : (forall j, 0 <= rand j) -> (pick < deg)%nat -> exists vals, draw_row rand i deg pick = Ok vals /\ length vals = deg /\
  (forall x, In x vals -> 0 <= x) /\ total vals == 1.
Proof.
  intros R P. unfold draw_row. cbv zeta. set (probs := map (fun j => percent (rand j)) (seq i deg)).
  assert (LP : length probs = deg) by (subst probs; rewrite map_length, seq_length; reflexivity).
  assert (NP : forall x, In x probs -> 0 <= x) by (intros x I; apply in_map_iff in I as (j & <- & _); apply percent_nonneg, R).
  assert (exists probs', (if isclose (qsum probs) 0 then of_option IndexError (set probs pick 1) else Ok probs) = Ok probs' /\ length probs' = deg /\ (forall x, In x probs' -> 0 <= x) /\ 0 < total probs') as (probs' & E & L & N & T).
  { destruct (isclose (qsum probs) 0) eqn:C.
    - exists (upd probs pick 1). rewrite set_Some by lia. split; [reflexivity|]. split; [rewrite upd_length; exact LP|].
      assert (NN : forall x, In x (upd probs pick 1) -> 0 <= x). { intros x I. apply upd_in in I as [->|I]; [lra|apply NP; exact I]. }
      split; [exact NN|]. assert (1 <= total (upd probs pick 1)); [|lra]. apply total_ge; [exact NN|]. eapply nth_error_In. apply nth_error_upd_eq. lia.
    - exists probs. split; [reflexivity|]. split; [exact LP|]. split; [exact NP|]. assert (H := total_nonneg probs NP). change (qsum probs) with (total probs) in C.
      destruct (Qlt_le_dec 0 (total probs)) as [G|G]; [exact G|]. exfalso. assert (Z : total probs == 0) by lra.
      assert (D : isclose (total probs) 0 = true); [|congruence]. unfold isclose. apply Qle_bool_iff. rewrite Z. cbn. discriminate. }
  rewrite E. cbn [bind]. eexists. split; [reflexivity|]. rewrite map_length. split; [exact L|]. change (qsum probs') with (total probs'). split.
  - intros x I. apply in_map_iff in I as (y & <- & I). apply Qle_shift_div_l; [exact T|]. rewrite Qmult_0_l. apply N; exact I.
  - rewrite total_div by lra. field. lra.
Qed.

(** ** The matrix *)

Definition zero_row (n : nat) (m : list (list Q)) (v : nat) : Prop := nth_error m v = Some (repeat 0 n).

Lemma put_mat_zero n m v ind vals : square n m -> (v < n)%nat -> zero_row n m v -> length ind = length vals -> NoDup ind -> (forall i, In i ind -> (i < n)%nat) ->
  (forall x, In x vals -> 0 <= x) -> nonneg m -> total vals == 1 ->
  exists m', put_mat_at m v ind vals = Ok m' /\ square n m' /\ nonneg m' /\
  (forall r, nth_error m' v = Some r -> total r == 1) /\
  (forall w, ~ In w ind -> (w < n)%nat -> entry m' v w 0) /\
  (forall v', v' <> v -> nth_error m' v' = nth_error m v').
Proof.
  intros SQ Lv ZR L ND B NV NN T. destruct (put_mat_at_ok n m v ind vals SQ Lv L ND B) as (m' & E & SQ' & P & N & O).
  assert (exists row', put_row_at (repeat 0 n) ind vals = Ok row' /\ m' = upd m v row') as (row' & E1 & Em).
  { unfold put_mat_at in E. unfold zero_row in ZR. unfold get in E. rewrite ZR in E. cbn [of_option bind] in E. destruct (put_row_at (repeat 0 n) ind vals) as [row'|] eqn:E1; [|discriminate]. cbn [bind] in E.
    exists row'. split; [reflexivity|]. rewrite set_Some in E by (destruct SQ; lia). cbn in E. congruence. }
  assert (Lm : (v < length m)%nat) by (destruct SQ; lia).
  exists m'. split; [exact E|]. split; [exact SQ'|]. split; [|split; [|split]].
  - intros r x I J. subst m'. apply upd_in in I as [->|I]; [|eapply NN; eassumption]. destruct (put_row_in _ _ _ _ _ E1 J) as [K|K]; [|apply NV; exact K].
    apply repeat_spec in K. subst x. apply Qle_refl.
  - intros r G. subst m'. rewrite nth_error_upd_eq in G by exact Lm. injection G as <-. rewrite (put_row_sum _ _ _ _ E1 ND); [rewrite total_zeros, T; ring|].
    intros i I. rewrite nth_repeat. reflexivity.
  - intros w NI Lw. apply N; [exact NI|]. exists (repeat 0 n). split; [exact ZR|]. apply nth_error_repeat; exact Lw.
  - intros v' NE. subst m'. apply nth_error_upd_neq. congruence.
Qed.

Lemma gen_rows_ok d N rand pick : dwf d -> (forall v, vertex (dg_g d) v <-> (v < N)%nat) -> (forall j, 0 <= rand j) -> (forall v, (2 <= length (targets_of (dg_g d) v))%nat -> (pick v < length (targets_of (dg_g d) v))%nat) ->
  forall vs i m, square N m -> nonneg m -> NoDup vs -> (forall v, In v vs -> (v < N)%nat /\ zero_row N m v) ->
  exists m', gen_rows d rand pick i vs m = Ok m' /\ square N m' /\ nonneg m' /\
  (forall v r, In v vs -> (exists w, arc (dg_g d) v w) -> nth_error m' v = Some r -> total r == 1) /\
  (forall v w, In v vs -> ~ arc (dg_g d) v w -> (w < N)%nat -> entry m' v w 0) /\
  (forall v, ~ In v vs -> nth_error m' v = nth_error m v).
Proof.
  intros W VN RN PK. induction vs as [|v vs IH]; intros i m SQ NN ND B; cbn [gen_rows].
  - exists m. split; [reflexivity|]. split; [exact SQ|]. split; [exact NN|]. split; [intros v r []|]. split; [intros v w []|reflexivity].
  - inversion ND as [|? ? NI ND']; subst. destruct (B v (or_introl eq_refl)) as [Lv ZR]. cbv zeta.
    destruct (targets_ok d v W) as [SO TI]. assert (TS : forall t, In t (targets_of (dg_g d) v) -> (t < N)%nat).
    { intros t I. apply TI in I as (o & X). apply VN. exact (dw_closed _ W _ _ _ X). }
    assert (KEY : forall i' m1, square N m1 -> nonneg m1 -> (forall v', v' <> v -> nth_error m1 v' = nth_error m v') ->
      ((exists w, arc (dg_g d) v w) -> forall r, nth_error m1 v = Some r -> total r == 1) ->
      (forall w, ~ arc (dg_g d) v w -> (w < N)%nat -> entry m1 v w 0) ->
      exists m', gen_rows d rand pick i' vs m1 = Ok m' /\ square N m' /\ nonneg m' /\
        (forall v0 r, In v0 (v :: vs) -> (exists w, arc (dg_g d) v0 w) -> nth_error m' v0 = Some r -> total r == 1) /\
        (forall v0 w, In v0 (v :: vs) -> ~ arc (dg_g d) v0 w -> (w < N)%nat -> entry m' v0 w 0) /\
        (forall v0, ~ In v0 (v :: vs) -> nth_error m' v0 = nth_error m v0)).
    { intros i' m1 SQ1 NN1 O1 S1 Z1. destruct (IH i' m1 SQ1 NN1 ND') as (m' & E & SQ' & NN' & A & Z & O).
      - intros w I. destruct (B w (or_intror I)) as [Lw Zw]. split; [exact Lw|]. unfold zero_row in *. rewrite O1; [exact Zw|]. intros ->. contradiction.
      - exists m'. split; [exact E|]. split; [exact SQ'|]. split; [exact NN'|]. split; [|split].
        + intros v0 r [<-|I] X G; [rewrite (O v NI) in G; eapply S1; eassumption|eapply A; eassumption].
        + intros v0 w [<-|I] X G; [|apply Z; assumption]. destruct (Z1 w X G) as (r & H1 & H2). exists r. rewrite (O v NI). auto.
        + intros v0 I. cbn in I. rewrite O by tauto. apply O1. intros ->. tauto. }
    destruct (targets_of (dg_g d) v) as [|t1 [|t2 ts]] eqn:TT; cbn [length].
    + apply KEY; auto.
      * intros (w & X). apply TI in X. destruct X.
      * intros w _ Lw. exists (repeat 0 N). split; [exact ZR|]. apply nth_error_repeat; exact Lw.
    + destruct (put_mat_zero N m v [t1] [1] SQ Lv ZR) as (m1 & E1 & SQ1 & NN1 & S1 & Z1 & O1); auto.
      { apply lt_nodup; exact SO. } { intros x [<-|[]]; lra. } { cbn; ring. }
      rewrite E1. cbn [bind]. apply KEY; auto. intros w NA Lw. apply Z1; [|exact Lw]. intro I. apply NA, TI, I.
    + destruct (draw_row_ok rand i (S (S (length ts))) (pick v) RN) as (vals & ED & LV & NV & TV).
      { specialize (PK v). rewrite TT in PK. cbn in PK. apply PK. lia. }
      rewrite ED. cbn [bind].
      destruct (put_mat_zero N m v (t1 :: t2 :: ts) vals SQ Lv ZR) as (m1 & E1 & SQ1 & NN1 & S1 & Z1 & O1); auto.
      { apply lt_nodup; exact SO. }
      rewrite E1. cbn [bind]. apply KEY; auto. intros w NA Lw. apply Z1; [|exact Lw]. intro I. apply NA, TI, I.
Qed.

Lemma gen_ok gi d N rand pick : test_graph gi = Ok d -> dwf d -> (forall v, vertex (dg_g d) v <-> (v < N)%nat) -> (forall j, 0 <= rand j) ->
  (forall v, (2 <= length (targets_of (dg_g d) v))%nat -> (pick v < length (targets_of (dg_g d) v))%nat) ->
  exists m, generate_transition_matrix gi rand pick = Ok m /\ square N m /\ nonneg m /\
  (forall v r, (exists w, arc (dg_g d) v w) -> nth_error m v = Some r -> total r == 1) /\
  (forall v w, (v < N)%nat -> (w < N)%nat -> ~ arc (dg_g d) v w -> entry m v w 0).
Proof.
  intros E W VN RN PK. unfold generate_transition_matrix. rewrite E. cbn [bind].
  assert (LN : length (g_nodes (dg_g d)) = N) by (apply sub_seq_length; [apply W|exact VN]). rewrite LN.
  destruct (gen_rows_ok d N rand pick W VN RN PK (g_nodes (dg_g d)) 0 (zeros N) (zeros_square N)) as (m & EM & SQ & NN & A & Z & _).
  - intros r x I J. apply repeat_spec in I. subst r. apply repeat_spec in J. subst x. apply Qle_refl.
  - apply W.
  - intros v I. apply VN in I. split; [exact I|]. unfold zero_row, zeros. apply nth_error_repeat; exact I.
  - exists m. split; [exact EM|]. split; [exact SQ|]. split; [exact NN|]. split.
    + intros v r X G. apply (A v r); auto. destruct X as (w & o & X). destruct X as (r0 & I & _). apply in_map_iff. exists (v, r0). auto.
    + intros v w Lv Lw NA. apply Z; auto. apply VN; exact Lv.
Qed.

(** ** Sums of accepted rows *)

Lemma total_perm l l' : Permutation l l' -> total l == total l'.
Proof.
  induction 1; cbn; try fold (total l); try fold (total l'); [reflexivity|rewrite IHPermutation; reflexivity| |rewrite IHPermutation1; exact IHPermutation2].
  ring.
Qed.
Lemma total_get (r : list (nat * Q)) : NoDup (map fst r) -> forall ts, NoDup ts -> (forall w, In w (map fst r) -> In w ts) -> total (map (qget r) ts) == total (map snd r).
Proof.
  induction r as [|[w x] r IH]; intros N ts NT SUB.
  - cbn. clear. induction ts as [|t ts IH]; cbn; [reflexivity|]. fold (total (map (qget []) ts)). rewrite IH. reflexivity.
  - cbn in N. inversion N as [|? ? NI N']; subst. assert (I : In w ts) by (apply SUB; left; reflexivity). apply in_split in I as (l1 & l2 & ->).
    assert (NT' := NoDup_remove_1 _ _ _ NT). assert (NW := NoDup_remove_2 _ _ _ NT).
    assert (P : Permutation (map (qget ((w, x) :: r)) (l1 ++ w :: l2)) (qget ((w, x) :: r) w :: map (qget ((w, x) :: r)) (l1 ++ l2))).
    { rewrite !map_app. cbn [map]. symmetry. apply Permutation_middle. }
    rewrite (total_perm _ _ P). cbn [total fold_right map snd]. fold (total (map (qget ((w, x) :: r)) (l1 ++ l2))). fold (total (map snd r)).
    assert (E : map (qget ((w, x) :: r)) (l1 ++ l2) = map (qget r) (l1 ++ l2)).
    { apply map_ext_in. intros t I. unfold qget. cbn [mget]. destruct (Nat.eqb_spec w t) as [<-|NE]; [contradiction|reflexivity]. }
    rewrite E, (IH N' (l1 ++ l2) NT').
    + unfold qget. cbn [mget]. rewrite Nat.eqb_refl. reflexivity.
    + intros t I. assert (J : In t (l1 ++ w :: l2)) by (apply SUB; right; exact I). apply in_app_iff in J. cbn in J. apply in_app_iff.
      destruct J as [J|[<-|J]]; auto. contradiction.
Qed.
Lemma about_one_eq x y : x == y -> about_one x -> about_one y.
Proof. unfold about_one. intros E H. rewrite <- E. exact H. Qed.

(** ** What is stored *)

Lemma set_dict_rows d out : dwf d -> out_fits d out -> forall m p, shaped d p -> NoDup (map fst m) -> (forall v r, In (v, r) m -> good_row d v r) ->
  exists p', set_dict d out m p = (p', Ok tt) /\ (forall v r, In (v, r) m -> get p' v = Some (map (qget r) (targets_of (dg_g d) v))) /\
  (forall v, ~ In v (map fst m) -> get p' v = get p v).
Proof.
  intros W OF. induction m as [|[key value] m IH]; intros p SH ND H.
  - exists p. split; [reflexivity|]. split; [intros v r []|reflexivity].
  - cbn in ND. inversion ND as [|? ? NI ND']; subst. destruct (proj1 (set_dict_step d out key value m p W SH OF) (H _ _ (or_introl eq_refl))) as [Lk E].
    rewrite E. destruct (IH (upd p key (map (qget value) (targets_of (dg_g d) key)))) as (p' & E' & A & B); [apply shaped_upd; assumption|exact ND'|intros v r I; apply H; right; exact I|].
    exists p'. split; [exact E'|]. split.
    + intros v r [Q|I]; [|apply A; exact I]. injection Q as <- <-. rewrite (B key NI). apply get_upd_eq; exact Lk.
    + intros v NV. cbn in NV. rewrite B by tauto. apply get_upd_neq. intro; apply NV; auto.
Qed.

Lemma put_matrix_rows d m : dwf d -> forall vs p, shaped d p -> NoDup vs -> (forall v, In v vs -> (v < length p)%nat) ->
  exists p', put_matrix d m vs p = (p', Ok tt) /\ (forall v, In v vs -> get p' v = Some (map (mat_get m v) (targets_of (dg_g d) v))).
Proof.
  intros W vs. cut (forall vs p, shaped d p -> NoDup vs -> (forall v, In v vs -> (v < length p)%nat) ->
    exists p', put_matrix d m vs p = (p', Ok tt) /\ (forall v, In v vs -> get p' v = Some (map (mat_get m v) (targets_of (dg_g d) v))) /\ (forall v, ~ In v vs -> get p' v = get p v)).
  { intros K p SH ND B. destruct (K vs p SH ND B) as (p' & E & A & _). eauto. }
  clear vs. induction vs as [|v vs IH]; intros p SH ND B; cbn [put_matrix].
  - exists p. split; [reflexivity|]. split; [intros v []|reflexivity].
  - inversion ND as [|? ? NI ND']; subst. assert (Lv := B v (or_introl eq_refl)).
    destruct (get p v) as [row|] eqn:G; [|unfold get in G; apply nth_error_None in G; lia].
    rewrite (put_vertex_ok d (mat_get m v) v p row G (shaped_length d p v row W SH G)).
    destruct (IH (upd p v (map (mat_get m v) (targets_of (dg_g d) v)))) as (p' & E' & A & O); [apply shaped_upd; assumption|exact ND'|intros w I; rewrite upd_length; apply B; right; exact I|].
    exists p'. split; [exact E'|]. split.
    + intros w [<-|I]; [|apply A; exact I]. rewrite (O v NI). apply get_upd_eq; exact Lv.
    + intros w NV. cbn in NV. rewrite O by tauto. apply get_upd_neq. intro; apply NV; auto.
Qed.

(** Sums over part of the columns. *)
Lemma total_part (f : nat -> Q) : forall ts l, NoDup ts -> NoDup l -> (forall w, In w ts -> In w l) -> (forall w, In w l -> ~ In w ts -> f w == 0) -> total (map f l) == total (map f ts).
Proof.
  induction ts as [|t ts IH]; intros l NT NL SUB Z.
  - cbn. clear NL SUB. induction l as [|w l IHl]; cbn; [reflexivity|]. fold (total (map f l)). rewrite (Z w (or_introl eq_refl) (fun x => x)), IHl; [reflexivity|].
    intros w' I J. apply Z; [right; exact I|exact J].
  - inversion NT as [|? ? NI NT']; subst. assert (I : In t l) by (apply SUB; left; reflexivity). apply in_split in I as (l1 & l2 & ->).
    assert (NL' := NoDup_remove_1 _ _ _ NL). assert (NW := NoDup_remove_2 _ _ _ NL).
    assert (P : Permutation (map f (l1 ++ t :: l2)) (f t :: map f (l1 ++ l2))) by (rewrite !map_app; cbn [map]; symmetry; apply Permutation_middle).
    rewrite (total_perm _ _ P). cbn [total fold_right map]. fold (total (map f (l1 ++ l2))). fold (total (map f ts)).
    rewrite (IH (l1 ++ l2)); [reflexivity|exact NT'|exact NL'| |].
    + intros w J. assert (K : In w (l1 ++ t :: l2)) by (apply SUB; right; exact J). apply in_app_iff in K. cbn in K. apply in_app_iff. destruct K as [K|[<-|K]]; auto. contradiction.
    + intros w J K. apply Z; [apply in_app_iff in J; apply in_app_iff; cbn; tauto|]. intros [<-|L]; [apply NW; exact J|contradiction].
Qed.
Lemma map_nth_seq (row : list Q) : map (fun j => nth j row 0) (seq 0 (length row)) = row.
Proof.
  induction row as [|x row IH]; [reflexivity|]. cbn [length seq map nth]. f_equal. rewrite <- seq_shift, map_map. exact IH.
Qed.


Lemma targets_some d v : dwf d -> map (fun w => w) (targets_of (dg_g d) v) <> [] -> exists w, arc (dg_g d) v w.
Proof.
  intros W H. destruct (targets_of (dg_g d) v) as [|w ts] eqn:E; [cbn in H; congruence|]. exists w. apply (proj2 (targets_ok d v W)). rewrite E. left; reflexivity.
Qed.
Lemma set_dict_sound d out m p p' : dwf d -> out_fits d out -> shaped d p -> dict_ok m -> (forall v r, In (v, r) m -> good_row d v r) ->
  (forall v r w x, In (v, r) m -> In (w, x) r -> (exists w', arc (dg_g d) v w') -> arc (dg_g d) v w) -> sound p ->
  set_dict d out m p = (p', Ok tt) -> sound p'.
Proof.
  intros W OF SH [N1 N2] G NB SP E v row Gv NE. destruct (set_dict_rows d out W OF m p SH N1 G) as (p2 & E2 & A & B). rewrite E in E2. injection E2 as <-.
  destruct (in_dec Nat.eq_dec v (map fst m)) as [I|NI].
  - apply in_map_iff in I as ([v' r] & Q & I). cbn in Q. subst v'. rewrite (A v r I) in Gv. injection Gv as <-.
    destruct (G v r I) as (V & S1 & NN). destruct (targets_some d v W) as (w0 & A0). { intro H. apply NE. destruct (targets_of (dg_g d) v); [reflexivity|discriminate]. }
    split.
    + eapply about_one_eq; [|apply S1; eauto]. symmetry. apply total_get; [eapply N2; exact I|apply targets_nodup; exact W|].
      intros w Iw. apply in_map_iff in Iw as ([w' x] & Q & J). cbn in Q. subst w'. apply (proj2 (targets_ok d v W)). eapply NB; eauto.
    + intros x J. apply in_map_iff in J as (w & <- & _). unfold qget. destruct (mget Nat.eqb r w) as [y|] eqn:M; [|apply Qle_refl]. apply (NN w). eapply mget_In; [exact neq_eq|exact M].
  - rewrite (B v NI) in Gv. apply (SP v row Gv NE).
Qed.

Lemma order_checked d p m : dwf d -> shaped d p -> square (length p) m -> in_order d -> (checked d m <-> rows_ok d m).
Proof.
  intros W SH SQ [SEQ|ALL]; assert (LN := shaped_count d p W SH).
  - assert (K : forall i v, nth_error (g_nodes (dg_g d)) i = Some v <-> i = v /\ (v < length p)%nat).
    { intros i v. rewrite SEQ, LN. split.
      - intro H. assert (L : (i < length p)%nat) by (rewrite <- (seq_length (length p) 0); apply nth_error_Some; congruence).
        rewrite nth_error_nth' with (d := 0%nat) in H by (rewrite seq_length; exact L). rewrite seq_nth in H by exact L. injection H as <-. auto.
      - intros [<- L]. rewrite nth_error_nth' with (d := 0%nat) by (rewrite seq_length; exact L). rewrite seq_nth by exact L. reflexivity. }
    split.
    + intros CH v r (w & A) G. apply (CH v v r); [apply K; split; [reflexivity|apply (arc_small d p v w W SH A)]|eauto|exact G].
    + intros R i v r I A G. apply K in I as [-> _]. eapply R; eassumption.
  - split.
    + intros CH v r (w & A) G. assert (L := proj1 (arc_small d p v w W SH A)). rewrite <- LN in L. apply nth_error_Some in L.
      destruct (nth_error (g_nodes (dg_g d)) v) as [v'|] eqn:E; [|congruence]. apply (CH v v' r E); [|exact G]. apply ALL. eapply nth_error_In; exact E.
    + intros R i v r I A G. apply (R i r); [|exact G]. apply ALL, SH. rewrite <- LN. apply nth_error_Some. congruence.
Qed.

Lemma set_matrix_sound d m p p' : dwf d -> shaped d p -> in_order d ->
  (forall v w x, (exists w', arc (dg_g d) v w') -> ~ arc (dg_g d) v w -> entry m v w x -> x == 0) ->
  set_matrix d m p = (p', Ok tt) -> sound p'.
Proof.
  intros W SH SEQ Z E v row Gv NE. destruct (set_matrix_spec d m p W SH) as [(SQ & CH & NN & E2)|(_ & E2)]; rewrite E in E2; [|discriminate].
  assert (LN := shaped_count d p W SH).
  destruct (put_matrix_rows d m W (seq 0 (length p)) p SH (seq_NoDup _ _)) as (p2 & E3 & A); [intros w I; apply in_seq in I; lia|].
  rewrite E3 in E2. injection E2 as <-.
  assert (Lv : (v < length p)%nat).
  { destruct (put_matrix_ok d m W (seq 0 (length p)) p SH (seq_NoDup _ _)) as (p3 & E4 & SH3 & _); [intros w I; apply in_seq in I; lia|]. rewrite E3 in E4. injection E4 as <-.
    apply SH. apply SH3. unfold get in Gv. apply nth_error_Some. congruence. }
  rewrite (A v) in Gv by (apply in_seq; lia). injection Gv as <-.
  destruct (targets_some d v W) as (w0 & A0). { intro H. apply NE. destruct (targets_of (dg_g d) v); [reflexivity|discriminate]. }
  destruct (nth_error m v) as [r|] eqn:Er; [|apply nth_error_None in Er; destruct SQ; lia].
  assert (Lr : length r = length p) by (apply SQ; eapply nth_error_In; exact Er).
  assert (FE : forall w, mat_get m v w = nth w r 0). { intro w. unfold mat_get. rewrite (nth_error_nth m v [] Er). reflexivity. }
  split.
  - apply (order_checked d p m W SH SQ SEQ) in CH. eapply about_one_eq; [|apply (CH v r); eauto].
    + rewrite <- (map_nth_seq r) at 1. rewrite (map_ext _ _ FE).
      apply total_part; [apply targets_nodup; exact W|apply seq_NoDup| |].
      * intros w I. apply in_seq. apply (proj2 (targets_ok d v W)) in I. destruct (arc_small d p v w W SH I). lia.
      * intros w I NI. apply in_seq in I. eapply (Z v w); [eauto| |].
        -- intro K. apply NI. apply (proj2 (targets_ok d v W)). exact K.
        -- exists r. split; [exact Er|]. apply nth_error_nth'. lia.
  - intros x J. apply in_map_iff in J as (w & <- & I). rewrite FE. apply (proj2 (targets_ok d v W)) in I. destruct (arc_small d p v w W SH I) as [_ Lw].
    eapply NN; [eapply nth_error_In; exact Er|]. apply nth_In. lia.
Qed.

(** ** transitions() *)
Lemma transitions_mat_ok d p : dwf d -> shaped d p -> exists m, transitions_mat d p = Ok m /\ square (length p) m /\
  (forall v w x, route (transitions_dict d p) v w x -> entry m v w x) /\
  (forall v w, (v < length p)%nat -> (w < length p)%nat -> ~ arc (dg_g d) v w -> entry m v w 0).
Proof.
  intros W SH. unfold transitions_mat. rewrite (shaped_count d p W SH).
  destruct (transitions_rows_ok d p W SH (g_nodes (dg_g d)) (zeros (length p)) (zeros_square _)) as (m & E & SQ & A & B).
  - apply W.
  - intros v I. apply SH. exact I.
  - exists m. split; [exact E|]. split; [exact SQ|]. split.
    + intros v w x R. apply A; [|exact R]. apply route_get in R as (row & G & _); [|exact W|exact SH]. apply SH. unfold get in G. apply nth_error_Some. congruence.
    + intros v w Lv Lw NA. apply B; [tauto|]. apply zeros_entry; assumption.
Qed.

(** A matrix that is set is returned, with 0 where there is no edge. *)
Lemma route_ex d p v w : dwf d -> shaped d p -> arc (dg_g d) v w -> exists x, route (transitions_dict d p) v w x.
Proof.
  intros W SH A. destruct (arc_small d p v w W SH A) as [Lv Lw]. destruct (get p v) as [row|] eqn:G; [|unfold get in G; apply nth_error_None in G; lia].
  assert (L := shaped_length d p v row W SH G). apply (proj2 (targets_ok d v W)) in A. apply In_nth_error in A as (i & I).
  assert (Li : (i < length row)%nat) by (rewrite L; apply nth_error_Some; congruence). apply nth_error_Some in Li. destruct (nth_error row i) as [x|] eqn:Ex; [|congruence].
  exists x. apply route_get; [exact W|exact SH|]. exists row. split; [exact G|]. clear -I Ex. revert i row I Ex. generalize (targets_of (dg_g d) v) as ts.
  induction ts as [|t ts IH]; intros i row I Ex; [destruct i; discriminate|]. destruct row as [|y row]; [destruct i; discriminate|]. destruct i as [|i]; cbn in *.
  - left. congruence.
  - right. eapply IH; eassumption.
Qed.

(** ** Networks that were built *)

Lemma built_shaped d cls n ins : dwf d -> numbered_vertices d -> built d cls n ins -> shaped d (nt_probs n) /\ out_fits d (nt_out n) /\ sound (nt_probs n).
Proof.
  intros W NV B. assert (ND : NoDup (g_nodes (dg_g d))) by apply W.
  assert (VN : forall v, vertex (dg_g d) v <-> (v < length (g_nodes (dg_g d)))%nat).
  { intro v. split; [apply NV|]. intro L. assert (INC : incl (seq 0 (length (g_nodes (dg_g d)))) (g_nodes (dg_g d))).
    { apply NoDup_length_incl; [exact ND|rewrite seq_length; lia|]. intros w I. apply in_seq. specialize (NV w I). lia. }
    apply INC, in_seq. lia. }
  destruct (bu_size _ _ _ _ B) as [LO LP].
  assert (OUT : forall v, vertex (dg_g d) v -> exists ks pr ws, get (nt_out n) v = Some ks /\ get (nt_probs n) v = Some pr /\ length pr = length ks /\ NoDup ws /\ (forall w, In w ws <-> arc (dg_g d) v w) /\ length ws = length ks /\
     forall p, In p pr -> p * inject_Z (Z.of_nat (length ks)) == 1).
  { intros v V. destruct (bu_out _ _ _ _ B v V) as (ks & G & ws & SO & M & F). cbn [fst snd] in M. destruct (bu_probs _ _ _ _ B v ks G) as (pr & G2 & L2 & P2). exists ks, pr, ws.
    split; [exact G|]. split; [exact G2|]. split; [exact L2|]. split; [apply lt_nodup; exact SO|]. split; [exact M|]. split; [|exact P2]. clear -F. induction F; cbn; congruence. }
  split; [|split].
  - split; [intro v; rewrite LP; apply VN|]. intros v row G. destruct (OUT v) as (ks & pr & ws & G1 & G2 & L1 & N1 & M1 & L2 & _).
    { apply VN. rewrite <- LP. unfold get in G. apply nth_error_Some. congruence. }
    exists ws. split; [exact N1|]. split; [exact M1|]. congruence.
  - intros v V. destruct (OUT v V) as (ks & pr & ws & G1 & G2 & L1 & N1 & M1 & L2 & _). exists ks. split; [exact G1|]. rewrite <- L2. split.
    + intro L. destruct ws as [|w ws]; [cbn in L; lia|]. exists w. apply M1. left; reflexivity.
    + intros (w & A). apply M1 in A. destruct ws; [destruct A|cbn; lia].
  - intros v row G NE. destruct (OUT v) as (ks & pr & ws & G1 & G2 & L1 & N1 & M1 & L2 & P2).
    { apply VN. rewrite <- LP. unfold get in G. apply nth_error_Some. congruence. }
    assert (pr = row) by congruence. subst pr.
    assert (T : forall l c, (forall p, In p l -> p * c == 1) -> total l * c == inject_Z (Z.of_nat (length l))).
    { clear. induction l as [|x l IH]; intros c H; cbn [total fold_right length]; [ring|]. fold (total l). rewrite Qmult_plus_distr_l, IH by (intros p I; apply H; right; exact I).
      rewrite (H x (or_introl eq_refl)). rewrite Nat2Z.inj_succ. unfold Z.succ. rewrite inject_Z_plus. ring. }
    assert (Lp : (0 < length ks)%nat) by (rewrite <- L1; destruct row; [congruence|cbn; lia]).
    assert (CP : 0 < inject_Z (Z.of_nat (length ks))) by (unfold Qlt; cbn; lia).
    assert (T1 := T row _ P2). rewrite L1 in T1. split.
    + eapply about_one_eq with (x := 1); [|unfold about_one; vm_compute; discriminate]. apply (Qmult_inj_r _ _ (inject_Z (Z.of_nat (length ks)))); [lra|]. rewrite T1. ring.
    + intros x I. specialize (P2 x I). destruct (Qlt_le_dec x 0) as [H|H]; [|exact H]. exfalso.
      assert (x * inject_Z (Z.of_nat (length ks)) < 0 * inject_Z (Z.of_nat (length ks))) by (apply Qmult_lt_compat_r; assumption). rewrite P2 in H0. lra.
Qed.

(** ** Selection of queues *)

Lemma index_nodup d e k k' : dwf d -> In (e, k) (dg_index d) -> In (e, k') (dg_index d) -> k = k'.
Proof. intro W. apply (nb_fun _ _ (dwf_numbering d W)). Qed.

Lemma zmem_in x l : zmem x l = true <-> In x l.
Proof.
  unfold zmem. rewrite existsb_exists. split; [intros (y & I & E); apply Z.eqb_eq in E; congruence|intro I; exists x; split; [exact I|apply Z.eqb_refl]].
Qed.
Lemma edge_fun d u v a b : dwf d -> edge (dg_g d) u v a -> edge (dg_g d) u v b -> a = b.
Proof. intros W X Y. assert (H1 := ep_type_ok d u v a W X). assert (H2 := ep_type_ok d u v b W Y). congruence. Qed.

Lemma by_type_ok d ts : dwf d -> forall es, NoDup es -> (forall u v, In (u, v) es -> arc (dg_g d) u v) ->
  exists ks, queues_by_type d ts es = Ok ks /\ NoDup ks /\
  forall k, In k ks <-> exists u v t, In (u, v) es /\ In ((u, v), k) (dg_index d) /\ edge (dg_g d) u v (Some t) /\ In t ts.
Proof.
  intro W. induction es as [|[u v] es IH]; intros ND A; cbn [queues_by_type].
  - exists []. split; [reflexivity|]. split; [constructor|]. intro k. split; [intros []|intros (u & v & t & [] & _)].
  - inversion ND as [|? ? NI ND']; subst. destruct (A u v (or_introl eq_refl)) as (o & X). rewrite (ep_type_ok d u v o W X). cbn [bind].
    destruct (IH ND' (fun u' v' I => A u' v' (or_intror I))) as (ks & E & NK & M).
    destruct (arc_index d u v W (A u v (or_introl eq_refl))) as (k0 & I0 & _).
    destruct o as [t|]; [destruct (zmem t ts) eqn:Z|].
    + rewrite (index_of_ok d _ _ W I0). cbn [bind]. rewrite E. cbn [bind]. exists (k0 :: ks). split; [reflexivity|]. split.
      * constructor; [|exact NK]. intro J. apply M in J as (u' & v' & t' & J & I1 & _). assert (Q := nb_inj _ _ (dwf_numbering d W) _ _ _ I0 I1). injection Q as <- <-. contradiction.
      * intro k. split.
        -- intros [<-|J]; [exists u, v, t; split; [left; reflexivity|]; split; [exact I0|]; split; [exact X|apply zmem_in; exact Z]|].
           apply M in J as (u' & v' & t' & J & R). exists u', v', t'. split; [right; exact J|exact R].
        -- intros (u' & v' & t' & [Q|J] & I1 & R); [injection Q as <- <-; left; apply (index_nodup d _ _ _ W I0 I1)|right; apply M; exists u', v', t'; auto].
    + cbn [bind]. rewrite E. cbn [bind app]. exists ks. split; [reflexivity|]. split; [exact NK|]. intro k. rewrite M. split.
      * intros (u' & v' & t' & J & R). exists u', v', t'. split; [right; exact J|exact R].
      * intros (u' & v' & t' & [Q|J] & I1 & X1 & T1); [|exists u', v', t'; auto]. injection Q as <- <-. assert (Q := edge_fun d _ _ _ _ W X X1). injection Q as <-. apply zmem_in in T1. congruence.
    + cbn [bind]. rewrite E. cbn [bind app]. exists ks. split; [reflexivity|]. split; [exact NK|]. intro k. rewrite M. split.
      * intros (u' & v' & t' & J & R). exists u', v', t'. split; [right; exact J|exact R].
      * intros (u' & v' & t' & [Q|J] & I1 & X1 & T1); [|exists u', v', t'; auto]. injection Q as <- <-. assert (Q := edge_fun d _ _ _ _ W X X1). discriminate.
Qed.

Lemma tuple_index_ok d u v k : dwf d -> In ((u, v), k) (dg_index d) -> tuple_index d [u; v] = Ok k.
Proof. intros W I. unfold tuple_index. cbn. apply index_of_ok; assumption. Qed.
Lemma tuple_index_err d u v : dwf d -> ~ arc (dg_g d) u v -> tuple_index d [u; v] = Err KeyError.
Proof.
  intros W NA. unfold tuple_index. cbn. unfold index_of. destruct (mget peqb (dg_index d) (u, v)) as [k|] eqn:E; [|reflexivity]. exfalso. apply NA.
  eapply index_arc; [exact W|]. eapply mget_In; [exact peqb_eq|exact E].
Qed.
Lemma tuple_indices_ok d : dwf d -> forall es, (forall u v, In (u, v) es -> arc (dg_g d) u v) ->
  exists ks, tuple_indices d (map (fun e => [fst e; snd e]) es) = Ok ks /\ Forall2 (fun e k => In (e, k) (dg_index d)) es ks.
Proof.
  intros W. induction es as [|[u v] es IH]; intros A; cbn [map tuple_indices].
  - exists []. auto.
  - cbn [fst snd]. destruct (arc_index d u v W (A u v (or_introl eq_refl))) as (k0 & I0 & _). rewrite (tuple_index_ok d u v k0 W I0). cbn [bind].
    destruct (IH (fun u' v' I => A u' v' (or_intror I))) as (ks & E & F). rewrite E. cbn [bind]. exists (k0 :: ks). split; [reflexivity|]. constructor; assumption.
Qed.
Lemma tuple_indices_err d : dwf d -> forall es u v, In (u, v) es -> ~ arc (dg_g d) u v -> tuple_indices d (map (fun e => [fst e; snd e]) es) = Err KeyError.
Proof.
  intros W. induction es as [|[x y] es IH]; intros u v I NA; [destruct I|]. cbn [map tuple_indices fst snd].
  destruct I as [Q|I].
  - injection Q as -> ->. rewrite (tuple_index_err d u v W NA). reflexivity.
  - rewrite (IH u v I NA). unfold tuple_index. cbn. destruct (index_of d (x, y)) as [k|e] eqn:E; cbn; [reflexivity|]. unfold index_of in E. destruct (mget peqb (dg_index d) (x, y)); cbn in E; congruence.
Qed.
Lemma len2_pairs (es : list (nat * nat)) : forallb len2 (map (fun e => [fst e; snd e]) es) = true.
Proof. induction es as [|e es IH]; [reflexivity|]. cbn. exact IH. Qed.
Lemma all_queues d k : dwf d -> In k (seq 0 (length (g_edges (dg_g d)))) <-> exists e, In (e, k) (dg_index d).
Proof. intro W. rewrite (dw_count _ W), in_seq, <- index_onto by exact W. lia. Qed.

(** ** Round trips *)

Lemma nth_error_ext {A} : forall (l l' : list A), (forall i, nth_error l i = nth_error l' i) -> l = l'.
Proof.
  induction l as [|x l IH]; intros [|y l'] H; [reflexivity|specialize (H O); discriminate|specialize (H O); discriminate|].
  f_equal; [specialize (H O); cbn in H; congruence|apply IH; intro i; exact (H (S i))].
Qed.
Lemma square_ext n (m m' : list (list Q)) : square n m -> square n m' -> (forall v w, (v < n)%nat -> (w < n)%nat -> exists x, entry m v w x /\ entry m' v w x) -> m = m'.
Proof.
  intros [L1 S1] [L2 S2] H. apply nth_error_ext. intro v. destruct (Nat.lt_ge_cases v n) as [Lv|Lv].
  - destruct (nth_error m v) as [r|] eqn:E1; [|apply nth_error_None in E1; lia]. destruct (nth_error m' v) as [r'|] eqn:E2; [|apply nth_error_None in E2; lia].
    f_equal. assert (R1 := S1 r (nth_error_In _ _ E1)). assert (R2 := S2 r' (nth_error_In _ _ E2)). apply nth_error_ext. intro w. destruct (Nat.lt_ge_cases w n) as [Lw|Lw].
    + destruct (H v w Lv Lw) as (x & (a & A1 & A2) & (b & B1 & B2)). congruence.
    + transitivity (@None Q); [apply nth_error_None; lia|symmetry; apply nth_error_None; lia].
  - transitivity (@None (list Q)); [apply nth_error_None; lia|symmetry; apply nth_error_None; lia].
Qed.
Lemma arc_dec d v w : dwf d -> arc (dg_g d) v w \/ ~ arc (dg_g d) v w.
Proof. intro W. destruct (in_dec Nat.eq_dec w (targets_of (dg_g d) v)) as [I|I]; [left|right; intro A; apply I]; apply (proj2 (targets_ok d v W)); assumption. Qed.

Lemma matrix_back d m p : dwf d -> shaped d p -> square (length p) m -> checked d m -> nonneg m ->
  (forall v w, (v < length p)%nat -> (w < length p)%nat -> ~ arc (dg_g d) v w -> entry m v w 0) ->
  exists p', set_matrix d m p = (p', Ok tt) /\ shaped d p' /\ transitions_mat d p' = Ok m.
Proof.
  intros W SH SQ CH NN Z. destruct (set_matrix_ok d m p W SH SQ CH NN) as (p' & E & SH' & R). exists p'. split; [exact E|]. split; [exact SH'|].
  assert (LP : length p' = length p) by (rewrite <- (shaped_count d p W SH), <- (shaped_count d p' W SH'); reflexivity).
  destruct (transitions_mat_ok d p' W SH') as (m' & E' & SQ' & A & B). rewrite E'. f_equal. rewrite LP in *. symmetry. apply (square_ext (length p)); [exact SQ|exact SQ'|].
  intros v w Lv Lw. destruct (arc_dec d v w W) as [X|X].
  - destruct (route_ex d p' v w W SH' X) as (x & Rx). exists x. split; [apply R in Rx; tauto|apply A; exact Rx].
  - exists 0. split; [apply Z; assumption|apply B; assumption].
Qed.

Lemma generated_accepted gi d0 d p rand pick : test_graph gi = Ok d0 -> dwf d0 -> dwf d -> shaped d p ->
  (forall v, vertex (dg_g d0) v <-> vertex (dg_g d) v) -> (forall v w, arc (dg_g d0) v w <-> arc (dg_g d) v w) -> in_order d ->
  (forall j, 0 <= rand j) -> (forall v ws, NoDup ws -> (forall w, In w ws <-> arc (dg_g d) v w) -> (2 <= length ws)%nat -> (pick v < length ws)%nat) ->
  exists m p', generate_transition_matrix gi rand pick = Ok m /\ set_matrix d m p = (p', Ok tt) /\ shaped d p' /\ transitions_mat d p' = Ok m.
Proof.
  intros E W0 W SH V A O RN PK.
  destruct (gen_ok gi d0 (length p) rand pick E W0) as (m & G & SQ & NN & T & Z); auto.
  - intro v. rewrite V. apply SH.
  - intros v L. apply PK; [apply targets_nodup; exact W0| |exact L]. intro w. rewrite <- A. apply targets_ok; exact W0.
  - destruct (matrix_back d m p W SH SQ) as (p' & E1 & S1 & T1).
    + apply (order_checked d p m W SH SQ O). intros v r (w & X) Gr. apply about_one_eq with (x := 1); [symmetry; apply (T v r); [exists w; apply A; exact X|exact Gr]|unfold about_one; vm_compute; discriminate].
    + exact NN.
    + intros v w Lv Lw NA. apply Z; [exact Lv|exact Lw|]. rewrite A. exact NA.
    + exists m, p'. auto.
Qed.

Lemma lt_same : forall l m, StronglySorted lt l -> StronglySorted lt m -> (forall x, In x l <-> In x m) -> l = m.
Proof.
  induction l as [|a l IH]; intros m S1 S2 E; destruct m as [|b m]; [reflexivity|exfalso; apply (E b); left; reflexivity|exfalso; apply (E a); left; reflexivity|].
  inversion S1 as [|? ? S1' F1]; subst. inversion S2 as [|? ? S2' F2]; subst. rewrite Forall_forall in F1, F2.
  assert (a = b).
  { destruct (proj1 (E a)) as [H|H]; [left; reflexivity|congruence|]. destruct (proj2 (E b)) as [K|K]; [left; reflexivity|congruence|]. apply F2 in H. apply F1 in K. lia. }
  subst b. f_equal. apply IH; auto. intro x. split; intro H.
  - destruct (proj1 (E x)) as [K|K]; [right; exact H| |exact K]. subst x. apply F1 in H. lia.
  - destruct (proj2 (E x)) as [K|K]; [right; exact H| |exact K]. subst x. apply F2 in H. lia.
Qed.
Lemma combine_nth_in {A B} : forall (l : list A) (m : list B) w x, In (w, x) (combine l m) <-> exists i, nth_error l i = Some w /\ nth_error m i = Some x.
Proof.
  induction l as [|a l IH]; intros [|b m] w x; cbn; try (split; [intros []|intros ([|i] & H1 & H2); discriminate]). rewrite IH. split.
  - intros [H|(i & H)]; [exists 0%nat; cbn; split; congruence|exists (S i); exact H].
  - intros ([|i] & H1 & H2); [left; cbn in *; congruence|right; exists i; auto].
Qed.
Lemma Forall2_at {A B} (R : A -> B -> Prop) : forall l m, Forall2 R l m -> forall i, (forall x, nth_error l i = Some x -> exists y, nth_error m i = Some y /\ R x y) /\ (forall y, nth_error m i = Some y -> exists x, nth_error l i = Some x /\ R x y).
Proof.
  induction 1 as [|a b l m H F IH]; intros [|i]; cbn; (split; [intros x E|intros y E]); try discriminate; try (injection E as <-; eauto); apply IH; exact E.
Qed.
Lemma beside_route d cls n ins p v w x : dwf d -> built d cls n ins -> shaped d p ->
  beside d (nt_out n) p v w x <-> route (transitions_dict d p) v w x.
Proof.
  intros W B SH. rewrite (route_get d p v w x W SH). split.
  - intros (l & row & i & k & G1 & G2 & G3 & I & G4). exists row. split; [exact G2|]. apply combine_nth_in. exists i. split; [|exact G4].
    assert (A := index_arc d v w k W I). assert (V : vertex (dg_g d) v) by (destruct A as (o & r & J & _); apply in_map_iff; exists (v, r); auto).
    destruct (bu_out _ _ _ _ B v V) as (l' & G & ws & SO & M & F). assert (l' = l) by congruence. subst l'. cbn [fst snd] in M.
    assert (ws = targets_of (dg_g d) v) by (apply lt_same; [exact SO|apply targets_ok; exact W|]; intro y; rewrite M; symmetry; apply targets_ok; exact W). subst ws.
    destruct (proj2 (Forall2_at _ _ _ F i) k G3) as (w' & H1 & H2). assert (E : (v, w') = (v, w)) by (eapply (nb_inj _ _ (dwf_numbering d W)); eassumption). congruence.
  - intros (row & G2 & C). apply combine_nth_in in C as (i & H1 & H2). assert (A : arc (dg_g d) v w) by (apply (proj2 (targets_ok d v W)); eapply nth_error_In; exact H1).
    assert (V : vertex (dg_g d) v) by (destruct A as (o & r & J & _); apply in_map_iff; exists (v, r); auto).
    destruct (bu_out _ _ _ _ B v V) as (l & G & ws & SO & M & F). cbn [fst snd] in M.
    assert (ws = targets_of (dg_g d) v) by (apply lt_same; [exact SO|apply targets_ok; exact W|]; intro y; rewrite M; symmetry; apply targets_ok; exact W). subst ws.
    destruct (proj1 (Forall2_at _ _ _ F i) w H1) as (k & K1 & K2). exists l, row, i, k. auto.
Qed.
