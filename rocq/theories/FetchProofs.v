(** * FetchProofs: sorting and collecting rows *)
From Coq Require Import List ZArith QArith Lia Bool Arith Permutation Sorted.
From Verif Require Import Base Queue Fetch SpecQueue QueueEffects QueueEvents QueueSteps QueueInv QueueHist QueueFlow QueueData QueueClaims3 QueueRows.
Import ListNotations.
Open Scope Z_scope.

Lemma dinsert_perm x l : Permutation (dinsert x l) (x :: l).
Proof.
  induction l as [|y l IH]; cbn [dinsert]; [reflexivity|]. destruct (drow_leb x y); [reflexivity|].
  rewrite IH. apply perm_swap.
Qed.
Lemma dsort_perm l : Permutation (dsort l) l.
Proof. induction l as [|x l IH]; cbn [dsort]; [reflexivity|]. rewrite dinsert_perm, IH. reflexivity. Qed.

Definition arr_le (x y : drow) : Prop := eLe (r_arr (fst x)) (r_arr (fst y)).

Lemma leb_arr x y : drow_leb x y = true -> arr_le x y.
Proof.
  destruct x as [r i], y as [s j]. unfold drow_leb, drow_cmp, arr_le. cbn [fst]. unfold ecmp at 1.
  destruct (eltb (r_arr r) (r_arr s)) eqn:A.
  - intros _. apply eLt_le. apply eltb_lt. exact A.
  - destruct (eltb (r_arr s) (r_arr r)) eqn:B; [discriminate|]. intros _. apply eltb_ge. exact B.
Qed.
Lemma leb_arr_gt x y : drow_leb x y = false -> arr_le y x.
Proof.
  destruct x as [r i], y as [s j]. unfold drow_leb, drow_cmp, arr_le. cbn [fst]. unfold ecmp at 1.
  destruct (eltb (r_arr r) (r_arr s)) eqn:A; [discriminate|]. intros _. apply eltb_ge. exact A.
Qed.

Lemma dinsert_sorted x l : StronglySorted arr_le l -> StronglySorted arr_le (dinsert x l).
Proof.
  assert (TR : forall a b c, arr_le a b -> arr_le b c -> arr_le a c).
  { intros a b c. apply eLe_trans. }
  induction l as [|y l IH]; cbn [dinsert]; intro H; [repeat constructor|].
  inversion H as [|? ? S F]; subst. destruct (drow_leb x y) eqn:E.
  - constructor; [exact H|]. apply leb_arr in E. constructor; [exact E|].
    eapply Forall_impl; [|exact F]. intros z Z. eapply TR; eauto.
  - constructor; [apply IH; exact S|]. apply leb_arr_gt in E.
    apply (Permutation_Forall (Permutation_sym (dinsert_perm x l))). constructor; assumption.
Qed.
Lemma dsort_sorted l : StronglySorted arr_le (dsort l).
Proof. induction l as [|x l IH]; cbn [dsort]; [constructor | apply dinsert_sorted; exact IH]. Qed.

(** ** fetch_data *)

Lemma fetch_exact q :
  Permutation (map fst (fetch_data q)) (concat (map snd (q_data q))) /\
  Forall (fun x => snd x = c_idx (q_cfg q)) (fetch_data q) /\
  StronglySorted (fun x y => eLe (r_arr (fst x)) (r_arr (fst y))) (fetch_data q).
Proof.
  unfold fetch_data. assert (P := dsort_perm (map (fun r => (r, c_idx (q_cfg q))) (concat (map snd (q_data q))))).
  split; [|split].
  - apply (Permutation_map fst) in P. rewrite P, map_map. cbn [fst]. rewrite map_id. reflexivity.
  - apply (Permutation_Forall (Permutation_sym P)). apply Forall_forall. intros x X.
    apply in_map_iff in X as (r & <- & _). reflexivity.
  - apply dsort_sorted.
Qed.

(** ** One entry per agent *)

Lemma dset_keys d i rows : map fst (dset d i rows) = if existsb (fun e => aid_eqb (fst e) i) d then map fst d else map fst d ++ [i].
Proof.
  induction d as [|[j r] d IH]; [reflexivity|]. cbn [dset existsb fst].
  destruct (aid_eqb j i); cbn [orb map fst]; [reflexivity|]. rewrite IH.
  destruct (existsb _ d); reflexivity.
Qed.

Lemma dset_nodup d i rows : NoDup (map fst d) -> NoDup (map fst (dset d i rows)).
Proof.
  intro H. rewrite dset_keys. destruct (existsb (fun e => aid_eqb (fst e) i) d) eqn:E; [exact H|].
  apply NoDup_snoc; [exact H|]. intro X. apply in_map_iff in X as (e & <- & X).
  assert (Y : existsb (fun e0 => aid_eqb (fst e0) (fst e)) d = true).
  { apply existsb_exists. exists e. split; [exact X | apply aid_eqb_refl]. }
  congruence.
Qed.
Lemma dappend_nodup d i r : NoDup (map fst d) -> NoDup (map fst (dappend d i r)).
Proof. intro H. rewrite dappend_dset. apply dset_nodup. exact H. Qed.
Lemma dlast_nodup d i f d' : dlast d i f = Ok d' -> NoDup (map fst d) -> NoDup (map fst d').
Proof. intros H N. apply dlast_Ok in H as (rs & r & _ & ->). apply dset_nodup. exact N. Qed.
Lemma dmod_nodup c d i f d' : dmod c d i f d' -> NoDup (map fst d) -> NoDup (map fst d').
Proof. intros [(-> & _)|(_ & H)] N; [exact N | eapply dlast_nodup; eauto]. Qed.

Lemma repeat_service_keys k : forall q q', wfh (q_dep q) -> repeat_service k q = Ok q' ->
  NoDup (map fst (q_data q)) -> NoDup (map fst (q_data q')).
Proof.
  induction k as [|k IH]; intros q q' W H N; cbn [repeat_service] in H.
  - inversion H; subst. exact N.
  - mbind H. apply service_from_queue_Ok in E; [|exact W].
    destruct E as (a & line & a' & h1 & d1 & s1 & o1 & L & -> & I1 & T1 & K1 & W1 & P1 & D1 & SO1).
    apply IH in H; [exact H|exact W1|]. qc. destruct D1 as [(-> & _)|(_ & D1)]; [exact N | eapply dlast_nodup; eauto].
Qed.

Lemma keys_op o q q' : qinv q -> run_op o q = Ok q' -> NoDup (map fst (q_data q)) -> NoDup (map fst (q_data q')).
Proof.
  intros IV H N. assert (Wa := qi_arr _ IV). assert (Wd := qi_dep _ IV).
  destruct o; cbn [run_op] in H.
  - mbind H. destruct x as [r q1]. inversion H; subst q1. clear H.
    apply next_event_event in E as (qe & PE & EV); [|exact Wa|exact Wd].
    destruct (pre_event_net _ _ PE) as (nd & ->).
    destruct EV as [_ _ -> _|_ _ R|NN _ _ _ _ R|NN _ _ _ _ _ R|_ _ _ _ _ R|_ _ _ _ _ _ R]; [exact N| | | | |].
    + apply qs_departure_Ok in R; [|exact Wa|exact Wd].
      destruct R as (a & h & a' & h' & line' & n & d1 & d & s & o & _ & _ & _ & _ & _ & _ & -> & D1 & _ & _ & ST).
      qc. qch D1. qch ST. apply dmod_nodup in D1; [|exact N].
      destruct ST as [(_ & _ & _ & _ & ->)|(_ & b & b' & _ & _ & _ & _ & _ & _ & D2)]; [exact D1 | eapply dmod_nodup; eauto].
    + apply qs_arrival_Ok in R; [|exact NN|exact Wa|exact Wd].
      destruct R as (a & h & q2 & new & h' & line' & n & d1 & d & s1 & o1 & s & o & a1 & _ & _ & DR & _ & _ & _ & -> & D1 & _ & _ & _ & C).
      qc. qch D1. qch C.
      assert (N1 : NoDup (map fst d1)) by (subst d1; destruct (q_collect q); [apply dappend_nodup|]; exact N).
      destruct C as [(_ & _ & _ & _ & D)|(_ & _ & _ & _ & -> & _)]; [|exact N1].
      destruct (q_collect q); [eapply dlast_nodup; eauto | congruence].
    + apply loss_blocked_Ok in R; [|exact NN|exact Wa|exact Wd].
      destruct R as (a & h & q2 & new & d & _ & _ & DR & -> & D).
      qc. qch D. subst d. destruct (q_collect q); [apply dappend_nodup|]; exact N.
    + apply rq_return_Ok in R; [|exact Wa|exact Wd].
      destruct R as (a & h & o & d & _ & _ & _ & -> & _ & D). qc. subst d. destruct (q_collect q); [apply dappend_nodup|]; exact N.
    + apply rq_blocked_Ok in R; [|exact Wa|exact Wd].
      destruct R as (a & h & d & _ & _ & _ & -> & D). qc. subst d. destruct (q_collect q); [apply dappend_nodup|]; exact N.
  - unfold set_active in H. destruct (q_active q); [inversion H; subst; exact N|].
    assert (G : add_arrival_new (set_q_active true q) = Ok q' -> NoDup (map fst (q_data q'))).
    { clear H. intro H. apply add_arrival_new_Ok in H; [|exact Wa|exact Wd]. cbv zeta in H. qch H.
      destruct H as [(_ & ->)|[(_ & _ & _ & ->)|(_ & _ & a & h & act & -> & _)]]; exact N. }
    unfold add_arrival_self in H. qch H. destruct (c_class (q_cfg q)); try (apply G; exact H).
    inversion H; subst. exact N.
  - inversion H; subst. exact N.
  - assert (G : forall m tq, (let* q1 := repeat_service (Z.to_nat tq) q in
        let* q2 := if 0 <? tq then update_time q1 else Ok q1 in Ok (set_q_servers m q2)) = Ok q' ->
        NoDup (map fst (q_data q'))).
    { clear H. intros m tq H. mbind H. assert (K := repeat_service_keys _ _ _ Wd E N). mbind H. inversion H; subst. qc.
      destruct (0 <? tq); [|inversion E0; subst; exact K].
      unfold update_time in E0. mbind E0. mbind E0. inversion E0; subst. exact K. }
    unfold set_num_servers, qs_set_num_servers, rq_set_num_servers in H. cbv zeta in H.
    destruct (c_class (q_cfg q)).
    1,2,5: (destruct n as [z| |]; [destruct (z <=? 0); [discriminate|]; destruct (q_servers q); eapply G; eauto
                            |destruct (q_servers q); [eapply G; eauto | discriminate]
                            |discriminate]).
    + inversion H; subst; exact N.
    + destruct n; [| |discriminate];
      (match type of H with Ok (if ?b then _ else _) = _ => destruct b end; inversion H; subst; exact N).
  - destruct (c_class (q_cfg q)) eqn:C.
    3:{ unfold delay_service in H. rewrite C in H. inversion H; subst. exact N. }
    all: (apply delay_service_Ok in H; [|congruence|exact Wa|exact Wd]);
      (destruct H as [(_ & ->)|(a & h & h' & n & H)]; [exact N|cbv zeta in H; destruct H as (_ & -> & _); exact N]).
  - destruct (c_class (q_cfg q)) eqn:C.
    3:{ apply add_arrival_null in H as (d & -> & ->); [|exact C]. qc. destruct (q_collect q); [apply dappend_nodup|]; exact N. }
    all: (apply add_arrival_Ok in H as (h & -> & _); [exact N|congruence|exact Wa|exact Wd]).
  - inversion H; subst. exact N.
  - inversion H; subst. unfold clear. destruct (c_class (q_cfg q)); try exact N; constructor.
  - inversion H; subst. constructor.
Qed.

Lemma keys_reach ok c s col n q : reach ok (new_queue c s col n) q -> NoDup (map fst (q_data q)).
Proof.
  intro R. induction R as [|q o q' R IH OK H]; [constructor|].
  apply basics_reach in R as [I _ _ _ _]. eapply keys_op; eauto.
Qed.

Lemma rows_of_in d i rows : NoDup (map fst d) -> In (i, rows) d -> rows_of d i = rows.
Proof.
  induction d as [|[j r] d IH]; intros N X; [destruct X|]. unfold rows_of. cbn [find fst].
  cbn [map fst] in N. inversion N; subst. destruct X as [X|X].
  - inversion X; subst. rewrite aid_eqb_refl. reflexivity.
  - destruct (aid_eqb j i) eqn:E.
    + apply aid_eqb_eq in E. subst j. exfalso. apply H1. apply in_map_iff. exists (i, rows). auto.
    + apply IH; assumption.
Qed.

Lemma fetch_per_agent ok c s col n q : reach ok (new_queue c s col n) q ->
  NoDup (map fst (q_data q)) /\
  Permutation (map fst (fetch_data q)) (flat_map (rows_of (q_data q)) (map fst (q_data q))).
Proof.
  intro R. assert (K := keys_reach _ _ _ _ _ _ R). split; [exact K|].
  destruct (fetch_exact q) as (P & _). rewrite P. clear P R.
  assert (G : forall d', (forall e, In e d' -> rows_of (q_data q) (fst e) = snd e) ->
             concat (map snd d') = flat_map (rows_of (q_data q)) (map fst d')).
  { induction d' as [|[i r] d' IH]; intro H; [reflexivity|]. cbn [map concat flat_map fst snd].
    assert (X := H (i, r) (or_introl eq_refl)). cbn [fst snd] in X. rewrite X. f_equal. apply IH. intros e E. apply H. right; exact E. }
  rewrite G; [reflexivity|]. intros [i r] E. apply rows_of_in; assumption.
Qed.

(** ** get_queue_data, get_agent_data *)

Lemma queue_data_exact qs :
  Permutation (get_queue_data qs) (flat_map (fun q => map (fun r => (r, c_idx (q_cfg q))) (concat (map snd (q_data q)))) qs).
Proof.
  unfold get_queue_data. induction qs as [|q qs IH]; [reflexivity|]. cbn [map concat flat_map].
  apply Permutation_app; [apply dsort_perm | exact IH].
Qed.

Definition ar_rows (d : agent_rows) (i : aid) : list drow :=
  match find (fun e => aid_eqb (fst e) i) d with Some e => snd e | None => [] end.

Lemma ar_add_rows i rows d j : ar_rows (ar_add i rows d) j = if aid_eqb i j then ar_rows d j ++ rows else ar_rows d j.
Proof.
  unfold ar_rows. induction d as [|[k old] d IH]; cbn [ar_add find fst].
  - destruct (aid_eqb i j); reflexivity.
  - destruct (aid_eqb k i) eqn:E.
    + apply aid_eqb_eq in E. subst k. cbn [find fst]. destruct (aid_eqb i j); reflexivity.
    + cbn [find fst]. destruct (aid_eqb k j) eqn:F; [|exact IH].
      apply aid_eqb_eq in F. subst k. destruct (aid_eqb i j) eqn:G; [|reflexivity].
      apply aid_eqb_eq in G. subst i. rewrite aid_eqb_refl in E. discriminate.
Qed.

Lemma ar_map d i : ar_rows (map (fun e => (fst e, dsort (snd e))) d) i = dsort (ar_rows d i).
Proof.
  unfold ar_rows. induction d as [|[k old] d IH]; [reflexivity|]. cbn [map find fst].
  destruct (aid_eqb k i); [reflexivity | exact IH].
Qed.

Lemma fold_data x l i : forall d, NoDup (map fst l) ->
  ar_rows (fold_left (fun d e => ar_add (fst e) (map (fun r => (r, x)) (snd e)) d) l d) i =
  ar_rows d i ++ map (fun r => (r, x)) (rows_of l i).
Proof.
  induction l as [|[j rows] l IH]; intros d N; cbn [fold_left fst snd].
  - unfold rows_of. cbn. rewrite app_nil_r. reflexivity.
  - cbn [map fst] in N. inversion N; subst. rewrite (IH _ H2), ar_add_rows. unfold rows_of. cbn [find fst].
    destruct (aid_eqb j i) eqn:E; [|reflexivity]. apply aid_eqb_eq in E. subst j. cbn [snd].
    destruct (find (fun e => aid_eqb (fst e) i) l) as [e|] eqn:F.
    + apply find_some in F as (F1 & F2). apply aid_eqb_eq in F2. exfalso. apply H1. rewrite <- F2. apply in_map. exact F1.
    + cbn. rewrite app_nil_r. reflexivity.
Qed.

Lemma agent_data_exact qs i : Forall (fun q => NoDup (map fst (q_data q))) qs ->
  Permutation (ar_rows (get_agent_data qs) i)
    (flat_map (fun q => map (fun r => (r, c_idx (q_cfg q))) (rows_of (q_data q) i)) qs) /\
  StronglySorted (fun x y => eLe (r_arr (fst x)) (r_arr (fst y))) (ar_rows (get_agent_data qs) i).
Proof.
  intro F. unfold get_agent_data. cbv zeta. rewrite ar_map. split; [|apply dsort_sorted]. rewrite dsort_perm.
  assert (G : forall d, ar_rows (fold_left (fun d q =>
      fold_left (fun d e => ar_add (fst e) (map (fun r => (r, c_idx (q_cfg q))) (snd e)) d) (q_data q) d) qs d) i =
      ar_rows d i ++ flat_map (fun q => map (fun r => (r, c_idx (q_cfg q))) (rows_of (q_data q) i)) qs).
  { clear -F. induction F as [|q qs N F IH]; intro d; cbn [fold_left flat_map]; [rewrite app_nil_r; reflexivity|].
    rewrite IH, fold_data by exact N. rewrite app_assoc. reflexivity. }
  rewrite G. reflexivity.
Qed.
