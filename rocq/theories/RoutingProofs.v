(** * RoutingProofs *)
From Coq Require Import List ZArith QArith Qabs Qround Bool Arith Lia Permutation Sorting.Sorted.
From Verif Require Import Base Dict UnionFind UnionFindProofs QueueEffects Graph SpecGraph GraphProofs GraphClaims GraphNet GraphIndex GraphBuild Routing SpecRoute.
Import ListNotations.
Open Scope Z_scope.

(** ** Targets *)

Lemma lt_nodup l : StronglySorted lt l -> NoDup l.
Proof.
  induction 1 as [|x l S IH F]; constructor; [|exact IH]. intro I. rewrite Forall_forall in F. specialize (F x I). lia.
Qed.
Lemma targets_ok d v : dwf d -> StronglySorted lt (targets_of (dg_g d) v) /\ forall w, In w (targets_of (dg_g d) v) <-> arc (dg_g d) v w.
Proof.
  intro W. unfold targets_of. assert (PM := psort_perm (out_pairs (dg_g d) v)).
  assert (IN : forall e, In e (psort (out_pairs (dg_g d) v)) <-> fst e = v /\ In e (g_edges (dg_g d))).
  { intro e. split; [intro H; apply (Permutation_in _ PM) in H|intro H; apply (Permutation_in _ (Permutation_sym PM))];
      unfold out_pairs in *; rewrite filter_In, Nat.eqb_eq in *; tauto. }
  assert (ST : StronglySorted before (psort (out_pairs (dg_g d) v))) by (apply psort_strict; apply NoDup_filter, g_edges_nodup, W).
  set (l := psort (out_pairs (dg_g d) v)) in *. split.
  - clearbody l. clear -ST IN. assert (H : forall e, In e l -> fst e = v) by (intros e I; apply IN in I; tauto). clear IN.
    induction ST as [|p l S IH F]; cbn; [constructor|]. constructor; [apply IH; intros e I; apply H; right; exact I|].
    rewrite Forall_forall in *. intros w I. apply in_map_iff in I as (q & <- & I). specialize (F q I). assert (A := H p (or_introl eq_refl)). assert (B := H q (or_intror I)).
    unfold before in F. lia.
  - intro w. rewrite <- g_edges_in. split.
    + intro I. apply in_map_iff in I as ((x & y) & <- & I). apply IN in I as [Q I]. cbn in *. subst. exact I.
    + intro I. apply in_map_iff. exists (v, w). split; [reflexivity|]. apply IN. auto.
Qed.
Lemma targets_nodup d v : dwf d -> NoDup (targets_of (dg_g d) v).
Proof. intro W. apply lt_nodup. apply targets_ok; exact W. Qed.
Lemma targets_length g v : length (targets_of g v) = length (out_pairs g v).
Proof. unfold targets_of. rewrite map_length. apply Permutation_length, psort_perm. Qed.

Lemma shaped_length d p v row : dwf d -> shaped d p -> get p v = Some row -> length row = length (targets_of (dg_g d) v).
Proof.
  intros W [_ S] G. destruct (S v row G) as (ws & N & M & ->). apply Permutation_length. apply NoDup_Permutation; [exact N|apply targets_nodup; exact W|].
  intro w. rewrite M. symmetry. apply (proj2 (targets_ok d v W)).
Qed.

(** ** Writing probabilities *)

Lemma put_probs_ok f : forall ts k row, length row = (k + length ts)%nat -> put_probs f ts k row = Ok (firstn k row ++ map f ts).
Proof.
  induction ts as [|t ts IH]; intros k row L; cbn [put_probs map].
  - rewrite app_nil_r, firstn_all2 by (cbn in L; lia). reflexivity.
  - cbn in L. rewrite set_Some by lia. cbn [of_option bind]. rewrite IH by (rewrite upd_length; lia). f_equal.
    assert (E : firstn (S k) (upd row k (f t)) = firstn k row ++ [f t]).
    { clear IH. revert k L. induction row as [|x row IHr]; intros k L; cbn in L; [lia|]. destruct k as [|k]; [reflexivity|]. cbn [upd firstn app]. f_equal. apply IHr. lia. }
    rewrite E, <- app_assoc. reflexivity.
Qed.
Lemma put_vertex_ok d f v p row : get p v = Some row -> length row = length (targets_of (dg_g d) v) ->
  put_vertex d f v p = Ok (upd p v (map f (targets_of (dg_g d) v))).
Proof.
  intros G L. unfold put_vertex. rewrite G. cbn [of_option bind]. rewrite put_probs_ok by exact L. cbn [bind firstn app].
  rewrite set_Some; [reflexivity|]. apply nth_error_Some. unfold get in G. congruence.
Qed.
Lemma shaped_upd d p v f : dwf d -> shaped d p -> (v < length p)%nat -> shaped d (upd p v (map f (targets_of (dg_g d) v))).
Proof.
  intros W [V S] L. split; [intro w; rewrite upd_length; apply V|]. intros w row G. destruct (Nat.eq_dec v w) as [<-|NE].
  - rewrite get_upd_eq in G by exact L. injection G as <-. exists (targets_of (dg_g d) v). split; [apply targets_nodup; exact W|]. split; [apply (proj2 (targets_ok d v W))|]. apply map_length.
  - rewrite get_upd_neq in G by exact NE. apply S; exact G.
Qed.

(** ** transitions *)

Lemma mof_id {V} (l : list (nat * V)) : NoDup (map fst l) -> mof Nat.eqb l = l.
Proof.
  induction l as [|[k x] l IH] using rev_ind; intro N; [reflexivity|]. rewrite mof_app. cbn [fst snd]. rewrite map_app in N. cbn in N.
  assert (N1 : NoDup (map fst l)) by (eapply NoDup_remove_1 in N; rewrite app_nil_r in N; exact N).
  assert (NI : ~ In k (map fst l)) by (apply NoDup_remove_2 in N; rewrite app_nil_r in N; exact N).
  rewrite (IH N1). clear -NI. induction l as [|[j y] l IH]; [reflexivity|]. cbn in *. destruct (Nat.eqb_spec j k) as [->|NE]; [tauto|]. f_equal. apply IH. tauto.
Qed.

Lemma route_get d p v w x : dwf d -> shaped d p -> route (transitions_dict d p) v w x <-> exists row, get p v = Some row /\ In (w, x) (combine (targets_of (dg_g d) v) row).
Proof.
  intros W S. unfold route, transitions_dict. split.
  - intros (r & I & J). apply in_map_iff in I as ((v' & row) & Q & I). cbn [fst snd] in Q. injection Q as -> <-.
    assert (G : get p v = Some row).
    { clear -I. unfold get. assert (H : forall p b, In (v, row) (combine (seq b (length p)) p) -> nth_error p (v - b) = Some row /\ (b <= v)%nat).
      { clear. induction p as [|r p IH]; intros b I; cbn in I; [destruct I|]. destruct I as [Q|I]; [injection Q as -> ->; rewrite Nat.sub_diag; auto|].
        apply IH in I as [A B]. replace (v - b)%nat with (Datatypes.S (v - Datatypes.S b)) by lia. split; [exact A|lia]. }
      apply H in I as [A _]. rewrite Nat.sub_0_r in A. exact A. }
    exists row. split; [exact G|]. rewrite mof_id in J; [exact J|]. rewrite combine_fst; [apply targets_nodup; exact W|]. symmetry. eapply shaped_length; eassumption.
  - intros (row & G & J). exists (mof Nat.eqb (combine (targets_of (dg_g d) v) row)). split.
    + apply in_map_iff. exists (v, row). split; [reflexivity|]. clear -G.
      assert (H : forall p k b, nth_error p k = Some row -> In ((b + k)%nat, row) (combine (seq b (length p)) p)).
      { clear. induction p as [|r p IH]; intros k b E; [destruct k; discriminate|]. destruct k as [|k]; cbn in E |- *.
        - injection E as ->. left. rewrite Nat.add_0_r. reflexivity.
        - right. replace (b + Datatypes.S k)%nat with (Datatypes.S b + k)%nat by lia. apply IH. exact E. }
      exact (H p v 0%nat G).
    + rewrite mof_id; [exact J|]. rewrite combine_fst; [apply targets_nodup; exact W|]. symmetry. eapply shaped_length; eassumption.
Qed.

Lemma combine_map {A B} (f : A -> B) l w x : In (w, x) (combine l (map f l)) <-> In w l /\ x = f w.
Proof.
  induction l as [|a l IH]; cbn; [tauto|]. split.
  - intros [Q|I]; [injection Q as -> ->; auto|]. apply IH in I. tauto.
  - intros [[->|I] ->]; [auto|]. right. apply IH. auto.
Qed.

Lemma route_upd d p v f v' w x : dwf d -> shaped d p -> (v < length p)%nat ->
  route (transitions_dict d (upd p v (map f (targets_of (dg_g d) v)))) v' w x <->
  (v' = v /\ arc (dg_g d) v w /\ x = f w) \/ (v' <> v /\ route (transitions_dict d p) v' w x).
Proof.
  intros W S L. assert (S' := shaped_upd d p v f W S L). rewrite (route_get d _ v' w x W S'), (route_get d p v' w x W S).
  destruct (Nat.eq_dec v v') as [<-|NE].
  - split.
    + intros (row & G & I). rewrite get_upd_eq in G by exact L. injection G as <-. apply combine_map in I as [I ->]. left. split; [reflexivity|]. split; [apply (proj2 (targets_ok d v W)); exact I|reflexivity].
    + intros [(_ & A & ->)|[N _]]; [|congruence]. eexists. split; [apply get_upd_eq; exact L|]. apply combine_map. split; [apply (proj2 (targets_ok d v W)); exact A|reflexivity].
  - split.
    + intros (row & G & I). rewrite get_upd_neq in G by exact NE. right. split; [congruence|]. eauto.
    + intros [(-> & _)|[_ (row & G & I)]]; [congruence|]. exists row. rewrite get_upd_neq by exact NE. auto.
Qed.

Lemma qget_says (r : list (nat * Q)) w x : NoDup (map fst r) -> says r w x <-> x = qget r w.
Proof.
  intro N. unfold says, qget. destruct (mg r w) as [y|] eqn:E.
  - split.
    + intros [I|[H _]]; [apply (mg_in _ _ _ N) in I; congruence|]. exfalso. apply (H y). apply (mg_in _ _ _ N); exact E.
    + intros ->. left. apply (mg_in _ _ _ N); exact E.
  - split.
    + intros [I|[_ ->]]; [apply (mg_in _ _ _ N) in I; congruence|reflexivity].
    + intros ->. right. split; [|reflexivity]. intros y I. apply (mg_in _ _ _ N) in I. congruence.
Qed.

(** ** Dictionaries *)


Lemma isclose_one x : isclose x 1 = true <-> about_one x.
Proof.
  unfold isclose, about_one. rewrite Qle_bool_iff.
  assert (E : ((1 # 100000000) + (1 # 100000) * Qabs 1 == (1001 # 100000000))%Q) by reflexivity. rewrite E. reflexivity.
Qed.

Definition row_check (d : dgraph) (out : list (list nat)) (key : nat) (value : list (nat * Q)) : option exn :=
  if negb (mhas Nat.eqb (dg_g d) key) then Some ValueError
  else match get out key with
       | None => Some IndexError
       | Some l => if (0 <? length l)%nat && negb (isclose (qsum (map snd value)) 1) then Some ValueError
                   else if existsb qneg (map snd value) then Some ValueError else None
       end.
Lemma row_check_ok d out key value : out_fits d out -> (row_check d out key value = None <-> good_row d key value) /\ (row_check d out key value = None \/ row_check d out key value = Some ValueError).
Proof.
  intro O. unfold row_check, good_row. destruct (mhas Nat.eqb (dg_g d) key) eqn:H; cbn [negb].
  - assert (V : vertex (dg_g d) key) by (apply (mhas_in _ neq_eq); exact H). destruct (O key V) as (l & G & LL). rewrite G.
    assert (C : ((0 <? length l)%nat && negb (isclose (qsum (map snd value)) 1) = false) <-> ((exists w, arc (dg_g d) key w) -> about_one (total (map snd value)))).
    { rewrite andb_false_iff, negb_false_iff, <- LL, Nat.ltb_ge. change (total (map snd value)) with (qsum (map snd value)). rewrite isclose_one. split.
      - intros [A|A] B; [lia|exact A].
      - intro A. destruct (Nat.le_gt_cases (length l) 0); auto. }
    assert (NN : existsb qneg (map snd value) = false <-> forall w x, In (w, x) value -> (0 <= x)%Q).
    { split.
      - intros E w x I. destruct (Qle_bool 0 x) eqn:Q; [apply Qle_bool_iff; exact Q|]. exfalso.
        assert (T : existsb qneg (map snd value) = true). { apply existsb_exists. exists x. split; [apply in_map_iff; exists (w, x); auto|]. unfold qneg. rewrite Q. reflexivity. }
        congruence.
      - intro A. destruct (existsb qneg (map snd value)) eqn:E; [|reflexivity]. exfalso. apply existsb_exists in E as (x & I & Q). apply in_map_iff in I as ((w & y) & <- & I).
        apply A in I. apply Qle_bool_iff in I. unfold qneg in Q. cbn [snd] in Q. rewrite I in Q. discriminate. }
    destruct ((0 <? length l)%nat && negb (isclose (qsum (map snd value)) 1)) eqn:E1.
    + split; [|auto]. split; [discriminate|]. intros (_ & A & _). apply C in A. discriminate.
    + destruct (existsb qneg (map snd value)) eqn:E2.
      * split; [|auto]. split; [discriminate|]. intros (_ & _ & A). apply NN in A. discriminate.
      * split; [|auto]. split; [|reflexivity]. intros _. split; [exact V|]. split; [apply C; reflexivity|apply NN; reflexivity].
  - split; [|auto]. split; [discriminate|]. intros (V & _). exfalso. apply (mhas_in _ neq_eq) in V. congruence.
Qed.

Lemma set_dict_step d out key value m p : dwf d -> shaped d p -> out_fits d out ->
  (good_row d key value -> (key < length p)%nat /\ set_dict d out ((key, value) :: m) p = set_dict d out m (upd p key (map (qget value) (targets_of (dg_g d) key)))) /\
  (~ good_row d key value -> set_dict d out ((key, value) :: m) p = (p, Err ValueError)).
Proof.
  intros W S O. destruct (row_check_ok d out key value O) as [RC RD].
  assert (U : set_dict d out ((key, value) :: m) p = match row_check d out key value with Some x => (p, Err x) | None =>
    match put_vertex d (qget value) key p with Ok p' => set_dict d out m p' | Err x => (p, Err x) end end).
  { cbn [set_dict]. unfold row_check. destruct (negb (mhas Nat.eqb (dg_g d) key)); [reflexivity|]. destruct (get out key); [|reflexivity].
    destruct ((0 <? length l)%nat && negb (isclose (qsum (map snd value)) 1)); [reflexivity|]. destruct (existsb qneg (map snd value)); reflexivity. }
  split.
  - intro G. assert (V := proj1 G). assert (L : (key < length p)%nat) by (apply (proj1 S); exact V). split; [exact L|].
    rewrite U. rewrite (proj2 RC G). destruct (get p key) as [row|] eqn:Gp; [|unfold get in Gp; apply nth_error_None in Gp; lia].
    rewrite (put_vertex_ok d (qget value) key p row Gp (shaped_length d p key row W S Gp)). reflexivity.
  - intro NG. rewrite U. destruct RD as [H|H]; [exfalso; apply NG, RC, H|]. rewrite H. reflexivity.
Qed.

(** Rows of a dictionary. *)

Lemma set_dict_ok d out : dwf d -> out_fits d out -> forall m p, shaped d p -> dict_ok m -> (forall v r, In (v, r) m -> good_row d v r) ->
  exists p', set_dict d out m p = (p', Ok tt) /\ shaped d p' /\
  forall v w x, route (transitions_dict d p') v w x <->
    (exists r, In (v, r) m /\ arc (dg_g d) v w /\ says r w x) \/ ((forall r, ~ In (v, r) m) /\ route (transitions_dict d p) v w x).
Proof.
  intros W O. induction m as [|[key value] m IH]; intros p S [ND NR] GR.
  - exists p. split; [reflexivity|]. split; [exact S|]. intros v w x. split; [intro H; right; split; [intros r []|exact H]|]. intros [(r & [] & _)|[_ H]]; exact H.
  - cbn in ND. inversion ND as [|? ? NI ND']; subst. destruct (set_dict_step d out key value m p W S O) as [ST _]. destruct ST as [L ST]; [apply GR; left; reflexivity|]. rewrite ST.
    destruct (IH (upd p key (map (qget value) (targets_of (dg_g d) key)))) as (p' & E & S' & R).
    + apply shaped_upd; assumption.
    + split; [exact ND'|]. intros v r I. eapply NR. right; exact I.
    + intros v r I. apply GR. right; exact I.
    + exists p'. split; [exact E|]. split; [exact S'|]. assert (NV : NoDup (map fst value)) by (eapply NR; left; reflexivity).
      intros v w x. rewrite R, (route_upd d p key (qget value) v w x W S L). split.
      * intros [(r & I & A & Y)|[N [(-> & A & ->)|[NE H]]]].
        -- left. exists r. split; [right; exact I|auto].
        -- left. exists value. split; [left; reflexivity|]. split; [exact A|]. apply qget_says; [exact NV|reflexivity].
        -- right. split; [|exact H]. intros r [Q|I]; [injection Q as <- _; congruence|]. eapply N; exact I.
      * intros [(r & [Q|I] & A & Y)|[N H]].
        -- injection Q as <- <-. right. split; [intros r I; apply NI; apply in_map_iff; exists (key, r); auto|]. left. split; [reflexivity|]. split; [exact A|]. apply qget_says; assumption.
        -- left. eauto.
        -- right. split; [intros r I; eapply N; right; exact I|]. right. split; [intros ->; eapply N; left; reflexivity|exact H].
Qed.

Lemma good_row_dec d v r : (exists out, out_fits d out) -> good_row d v r \/ ~ good_row d v r.
Proof.
  intros (out & O). destruct (row_check_ok d out v r O) as [RC [H|H]]; [left; apply RC; exact H|right]. intro G. apply RC in G. congruence.
Qed.

(** What is left behind when a dictionary is rejected. *)
Lemma set_dict_err d out : dwf d -> out_fits d out -> forall m p p' e, shaped d p -> set_dict d out m p = (p', Err e) ->
  e = ValueError /\ exists pre key value post, m = pre ++ (key, value) :: post /\ ~ good_row d key value /\ (forall v r, In (v, r) pre -> good_row d v r) /\ set_dict d out pre p = (p', Ok tt).
Proof.
  intros W O. induction m as [|[key value] m IH]; intros p p' e S H; [discriminate|].
  destruct (set_dict_step d out key value m p W S O) as [SG SB]. destruct (good_row_dec d key value (ex_intro _ out O)) as [G|NG].
  - destruct (SG G) as [L ST]. rewrite ST in H. apply IH in H as (-> & pre & k & v & post & -> & NG & GP & E); [|apply shaped_upd; assumption].
    split; [reflexivity|]. exists ((key, value) :: pre), k, v, post. split; [reflexivity|]. split; [exact NG|]. split.
    + intros v' r [Q|I]; [injection Q as <- <-; exact G|eauto].
    + destruct (set_dict_step d out key value pre p W S O) as [SG' _]. rewrite (proj2 (SG' G)). exact E.
  - rewrite (SB NG) in H. injection H as <- <-. split; [reflexivity|]. exists [], key, value, m. split; [reflexivity|]. split; [exact NG|]. split; [intros v r []|reflexivity].
Qed.

Lemma set_dict_accepts d out : dwf d -> out_fits d out -> forall m p p', shaped d p -> set_dict d out m p = (p', Ok tt) ->
  forall v r, In (v, r) m -> good_row d v r.
Proof.
  intros W O. induction m as [|[key value] m IH]; intros p p' S H v r; [intros []|].
  destruct (set_dict_step d out key value m p W S O) as [SG SB]. destruct (good_row_dec d key value (ex_intro _ out O)) as [G|NG].
  - destruct (SG G) as [L ST]. rewrite ST in H. intros [Q|I]; [injection Q as <- <-; exact G|]. exact (IH _ _ (shaped_upd _ _ _ _ W S L) H v r I).
  - rewrite (SB NG) in H. discriminate.
Qed.

(** ** Matrices *)

Lemma put_matrix_ok d m : dwf d -> forall vs p, shaped d p -> NoDup vs -> (forall v, In v vs -> (v < length p)%nat) ->
  exists p', put_matrix d m vs p = (p', Ok tt) /\ shaped d p' /\
  forall v w x, route (transitions_dict d p') v w x <-> (In v vs /\ arc (dg_g d) v w /\ x = mat_get m v w) \/ (~ In v vs /\ route (transitions_dict d p) v w x).
Proof.
  intro W. induction vs as [|v vs IH]; intros p S ND B; cbn [put_matrix].
  - exists p. split; [reflexivity|]. split; [exact S|]. intros v w x. cbn. tauto.
  - assert (L := B v (or_introl eq_refl)). inversion ND as [|? ? NI ND']; subst.
    destruct (get p v) as [row|] eqn:G; [|unfold get in G; apply nth_error_None in G; lia].
    rewrite (put_vertex_ok d (mat_get m v) v p row G (shaped_length d p v row W S G)).
    destruct (IH (upd p v (map (mat_get m v) (targets_of (dg_g d) v)))) as (p' & E & S' & R); [apply shaped_upd; assumption|exact ND'|intros w I; rewrite upd_length; apply B; right; exact I|].
    exists p'. split; [exact E|]. split; [exact S'|]. intros v' w x. rewrite R, (route_upd d p v (mat_get m v) v' w x W S L). cbn [In]. split.
    + intros [(I & A & Q)|[N [(-> & A & Q)|[NE H]]]]; [left; auto|left; auto|]. right. split; [|exact H]. intros [H1|H1]; [congruence|contradiction].
    + intros [([<-|I] & A & Q)|[N H]]; [right; split; [exact NI|]; left; auto|left; auto|].
      right. split; [tauto|]. right. split; [intros ->; apply N; auto|exact H].
Qed.

Lemma masked_in : forall mask m r, In r (masked mask m) <-> exists i, nth_error mask i = Some true /\ nth_error m i = Some r.
Proof.
  induction mask as [|b mask IH]; intros m r; cbn [masked].
  - split; [intros []|]. intros (i & H & _). destruct i; discriminate.
  - destruct m as [|r' m]; [split; [intros []|]; intros (i & _ & H); destruct i; discriminate|]. destruct b.
    + cbn [In]. rewrite IH. split.
      * intros [->|(i & A & B)]; [exists 0%nat; auto|exists (S i); auto].
      * intros ([|i] & A & B); cbn in A, B; [left; congruence|right; eauto].
    + rewrite IH. split; [intros (i & A & B); exists (S i); auto|]. intros ([|i] & A & B); cbn in A, B; [discriminate|eauto].
Qed.

Lemma shaped_count d p : dwf d -> shaped d p -> length (g_nodes (dg_g d)) = length p.
Proof. intros W [V _]. apply sub_seq_length; [apply W|exact V]. Qed.

Lemma out_degree d v : dwf d -> (0 <? length (out_pairs (dg_g d) v))%nat = true <-> exists w, arc (dg_g d) v w.
Proof.
  intro W. rewrite Nat.ltb_lt, <- targets_length. destruct (targets_ok d v W) as [_ T]. destruct (targets_of (dg_g d) v) as [|w l].
  - cbn. split; [lia|]. intros (w & A). apply T in A. destruct A.
  - cbn. split; [intros _; exists w; apply T; left; reflexivity|lia].
Qed.

Definition checked (d : dgraph) (m : list (list Q)) : Prop :=
  forall i v r, nth_error (g_nodes (dg_g d)) i = Some v -> (exists w, arc (dg_g d) v w) -> nth_error m i = Some r -> about_one (total r).

Lemma set_matrix_spec d m p : dwf d -> shaped d p ->
  (square (length p) m /\ checked d m /\ nonneg m /\ set_matrix d m p = put_matrix d m (seq 0 (length p)) p) \/
  (~ (square (length p) m /\ checked d m /\ nonneg m) /\ set_matrix d m p = (p, Err ValueError)).
Proof.
  intros W S. unfold set_matrix. cbv zeta. rewrite (shaped_count d p W S).
  destruct (Nat.eqb (length m) (length p) && forallb (fun r => Nat.eqb (length r) (length p)) m) eqn:E1; cbn [negb].
  - assert (SQ : square (length p) m).
    { apply andb_true_iff in E1 as [A B]. apply Nat.eqb_eq in A. split; [exact A|]. intros r I. rewrite forallb_forall in B. apply Nat.eqb_eq. apply B; exact I. }
    destruct (forallb (fun r => isclose (qsum r) 1) (masked (map (fun v => (0 <? length (out_pairs (dg_g d) v))%nat) (g_nodes (dg_g d))) m)) eqn:E2; cbn [negb].
    + assert (CH : checked d m).
      { intros i v r A B C. apply isclose_one. rewrite forallb_forall in E2. apply (E2 r). apply masked_in. exists i. split; [|exact C].
        rewrite nth_error_map, A. cbn. f_equal. apply out_degree; assumption. }
      destruct (existsb (existsb qneg) m) eqn:E3.
      * right. split; [|reflexivity]. intros (_ & _ & NN). apply existsb_exists in E3 as (r & I & E3). apply existsb_exists in E3 as (x & J & E3).
        assert (H := NN r x I J). apply Qle_bool_iff in H. unfold qneg in E3. rewrite H in E3. discriminate.
      * left. split; [exact SQ|]. split; [exact CH|]. split; [|reflexivity]. intros r x I J. destruct (Qle_bool 0 x) eqn:Q; [apply Qle_bool_iff; exact Q|]. exfalso.
        assert (T : existsb (existsb qneg) m = true). { apply existsb_exists. exists r. split; [exact I|]. apply existsb_exists. exists x. split; [exact J|]. unfold qneg. rewrite Q. reflexivity. }
        congruence.
    + right. split; [|reflexivity]. intros (_ & CH & _).
      assert (T : forallb (fun r => isclose (qsum r) 1) (masked (map (fun v => (0 <? length (out_pairs (dg_g d) v))%nat) (g_nodes (dg_g d))) m) = true).
      { apply forallb_forall. intros r I. apply masked_in in I as (i & A & B). rewrite nth_error_map in A. destruct (nth_error (g_nodes (dg_g d)) i) as [v|] eqn:G; [|discriminate].
        cbn in A. injection A as A. apply isclose_one. eapply CH; [exact G|apply out_degree; assumption|exact B]. }
      congruence.
  - right. split; [|reflexivity]. intros ([A B] & _). apply andb_false_iff in E1 as [E1|E1].
    + apply Nat.eqb_neq in E1. contradiction.
    + assert (T : forallb (fun r => Nat.eqb (length r) (length p)) m = true) by (apply forallb_forall; intros r I; apply Nat.eqb_eq, B, I). congruence.
Qed.

Lemma mat_get_entry m v w x : entry m v w x -> mat_get m v w = x.
Proof.
  intros (r & A & B). unfold mat_get. rewrite (nth_error_nth _ _ _ A). apply (nth_error_nth _ _ _ B).
Qed.
Lemma entry_ex n m v w : square n m -> (v < n)%nat -> (w < n)%nat -> entry m v w (mat_get m v w).
Proof.
  intros [L R] A B. destruct (nth_error m v) as [r|] eqn:E; [|apply nth_error_None in E; lia].
  assert (LR := R r (nth_error_In _ _ E)). exists r. split; [exact E|]. unfold mat_get. rewrite (nth_error_nth _ _ _ E). apply nth_error_nth'. lia.
Qed.

Lemma set_matrix_ok d m p : dwf d -> shaped d p -> square (length p) m -> checked d m -> nonneg m ->
  exists p', set_matrix d m p = (p', Ok tt) /\ shaped d p' /\ forall v w x, route (transitions_dict d p') v w x <-> arc (dg_g d) v w /\ entry m v w x.
Proof.
  intros W S SQ CH NN. destruct (set_matrix_spec d m p W S) as [(_ & _ & _ & ->)|[N _]]; [|tauto].
  destruct (put_matrix_ok d m W (seq 0 (length p)) p S (seq_NoDup _ _)) as (p' & E & S' & R); [intros v I; apply in_seq in I; lia|].
  exists p'. split; [exact E|]. split; [exact S'|].
  assert (AV : forall v w, arc (dg_g d) v w -> (v < length p)%nat /\ (w < length p)%nat).
  { intros v w (o & X). split; apply (proj1 S); [destruct X as (r & I & _); apply in_map_iff; exists (v, r); auto|exact (dw_closed _ W _ _ _ X)]. }
  intros v w x. rewrite R, in_seq. split.
  - intros [(I & A & ->)|[N H]]; [split; [exact A|]; destruct (AV v w A); apply (entry_ex (length p)); assumption|].
    exfalso. apply (route_get d p v w x W S) in H as (row & G & _). apply N. unfold get in G. assert (H : nth_error p v <> None) by congruence. apply nth_error_Some in H. lia.
  - intros [A X]. left. destruct (AV v w A). split; [lia|]. split; [exact A|]. symmetry. apply mat_get_entry; exact X.
Qed.
Lemma set_matrix_err d m p p' e : dwf d -> shaped d p -> set_matrix d m p = (p', Err e) -> p' = p /\ e = ValueError.
Proof.
  intros W S H. destruct (set_matrix_spec d m p W S) as [(_ & _ & _ & E)|[_ E]]; rewrite E in H; [|injection H as <- <-; auto].
  destruct (put_matrix_ok d m W (seq 0 (length p)) p S (seq_NoDup _ _)) as (p2 & E2 & _); [intros v I; apply in_seq in I; lia|]. congruence.
Qed.

(** ** The transition matrix *)

Lemma put_row_at_ok : forall ind vals row, length ind = length vals -> NoDup ind -> (forall i, In i ind -> (i < length row)%nat) ->
  exists row', put_row_at row ind vals = Ok row' /\ length row' = length row /\
  (forall i x, In (i, x) (combine ind vals) -> nth_error row' i = Some x) /\ (forall i, ~ In i ind -> nth_error row' i = nth_error row i).
Proof.
  induction ind as [|i ind IH]; intros [|x vals] row L ND B; cbn in L; try discriminate; cbn [put_row_at].
  - exists row. split; [reflexivity|]. split; [reflexivity|]. split; [intros i x []|reflexivity].
  - inversion ND as [|? ? NI ND']; subst. assert (Li := B i (or_introl eq_refl)). rewrite set_Some by exact Li. cbn [of_option bind].
    destruct (IH vals (upd row i x)) as (row' & E & L' & G & N); [lia|exact ND'|intros j J; rewrite upd_length; apply B; right; exact J|].
    exists row'. split; [exact E|]. split; [rewrite L', upd_length; reflexivity|]. split.
    + intros j y [Q|J]; [injection Q as <- <-; rewrite (N i NI); apply nth_error_upd_eq; exact Li|]. apply G; exact J.
    + intros j NJ. cbn in NJ. rewrite N by tauto. apply nth_error_upd_neq. tauto.
Qed.

Lemma put_mat_at_ok n m v ind vals : square n m -> (v < n)%nat -> length ind = length vals -> NoDup ind -> (forall i, In i ind -> (i < n)%nat) ->
  exists m', put_mat_at m v ind vals = Ok m' /\ square n m' /\
  (forall w x, In (w, x) (combine ind vals) -> entry m' v w x) /\ (forall w x, ~ In w ind -> entry m v w x -> entry m' v w x) /\
  (forall v' w x, v' <> v -> entry m v' w x -> entry m' v' w x).
Proof.
  intros [LM RM] Lv L ND B. unfold put_mat_at. destruct (get m v) as [row|] eqn:G; [|unfold get in G; apply nth_error_None in G; lia]. cbn [of_option bind].
  assert (LR := RM row (nth_error_In _ _ G)).
  destruct (put_row_at_ok ind vals row L ND) as (row' & E & L' & P & N); [intros i I; rewrite LR; apply B; exact I|].
  rewrite E. cbn [bind]. rewrite set_Some by lia. cbn [of_option]. exists (upd m v row'). split; [reflexivity|]. split; [|split; [|split]].
  - split; [rewrite upd_length; exact LM|]. intros r I. apply In_nth_error in I as (k & I). destruct (Nat.eq_dec v k) as [<-|NE].
    + rewrite nth_error_upd_eq in I by lia. injection I as <-. lia.
    + rewrite nth_error_upd_neq in I by exact NE. apply RM. eapply nth_error_In; exact I.
  - intros w x I. exists row'. split; [apply nth_error_upd_eq; lia|apply P; exact I].
  - intros w x NI (r & A & X). exists row'. split; [apply nth_error_upd_eq; lia|]. rewrite N by exact NI. unfold get in G. congruence.
  - intros v' w x NE (r & A & X). exists r. split; [|exact X]. rewrite nth_error_upd_neq by congruence. exact A.
Qed.

Lemma zeros_entry n v w : (v < n)%nat -> (w < n)%nat -> entry (zeros n) v w 0%Q.
Proof. intros A B. exists (repeat 0%Q n). split; apply nth_error_repeat; assumption. Qed.
Lemma zeros_square n : square n (zeros n).
Proof. split; [apply repeat_length|]. intros r I. apply repeat_spec in I. subst. apply repeat_length. Qed.

Lemma arc_small d p v w : dwf d -> shaped d p -> arc (dg_g d) v w -> (v < length p)%nat /\ (w < length p)%nat.
Proof.
  intros W S (o & X). split; apply (proj1 S); [destruct X as (r & I & _); apply in_map_iff; exists (v, r); auto|exact (dw_closed _ W _ _ _ X)].
Qed.

Lemma transitions_rows_ok d p : dwf d -> shaped d p -> forall vs m, square (length p) m -> NoDup vs -> (forall v, In v vs -> (v < length p)%nat) ->
  exists m', transitions_rows d p vs m = Ok m' /\ square (length p) m' /\
  (forall v w x, In v vs -> route (transitions_dict d p) v w x -> entry m' v w x) /\
  (forall v w x, ~ (In v vs /\ arc (dg_g d) v w) -> entry m v w x -> entry m' v w x).
Proof.
  intros W S. induction vs as [|v vs IH]; intros m SQ ND B; cbn [transitions_rows].
  - exists m. split; [reflexivity|]. split; [exact SQ|]. split; [intros v w x []|]. auto.
  - inversion ND as [|? ? NI ND']; subst. assert (Lv := B v (or_introl eq_refl)). destruct (get p v) as [row|] eqn:G; [|unfold get in G; apply nth_error_None in G; lia]. cbn [of_option bind].
    destruct (targets_ok d v W) as [SO TI].
    destruct (put_mat_at_ok (length p) m v (targets_of (dg_g d) v) row SQ Lv) as (m1 & E1 & SQ1 & P1 & N1 & O1).
    { symmetry. eapply shaped_length; eassumption. } { apply lt_nodup; exact SO. } { intros i I. apply TI in I. apply (arc_small d p v i W S I). }
    rewrite E1. cbn [bind]. destruct (IH m1 SQ1 ND') as (m' & E & SQ' & R & N); [intros w I; apply B; right; exact I|].
    exists m'. split; [exact E|]. split; [exact SQ'|]. split.
    + intros v' w x [<-|I] H; [|apply R; assumption]. apply N; [tauto|]. apply (route_get d p v w x W S) in H as (row' & G' & H). rewrite G in G'. injection G' as <-. apply P1; exact H.
    + intros v' w x NA X. apply N; [intros [I A]; apply NA; split; [right; exact I|exact A]|]. destruct (Nat.eq_dec v' v) as [->|NE].
      * apply N1; [|exact X]. intro I. apply TI in I. apply NA. split; [left; reflexivity|exact I].
      * apply O1; assumption.
Qed.
