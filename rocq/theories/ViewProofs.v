(** * ViewProofs: comparisons, the blocking property, texts *)
From Coq Require Import List ZArith Bool Arith Lia Ascii String Decimal DecimalString DecimalZ DecimalPos.
From Verif Require Import Base Heap PQueue Queue Network SpecQueue SpecNet View SpecView UnionFind.
Import ListNotations.
Open Scope Z_scope.

Lemma cmp_says o s t : cmp_times o s t = true <-> says o s t.
Proof.
  destruct o; cbn [cmp_times says].
  - apply eltb_lt.
  - apply eltb_lt.
  - apply eeqb_eq.
  - rewrite negb_true_iff. rewrite <- eeqb_eq. destruct (eeqb s t); split; congruence.
  - apply eleb_le.
  - apply eleb_le.
Qed.

Lemma compare_exact o x y : (hopeless o x y -> compare_agents o x y = Err TypeError) /\
  (~ hopeless o x y -> exists b, compare_agents o x y = Ok b /\ (b = true <-> says o (itime x) (itime y))).
Proof.
  split.
  - intros ([-> | ->] & -> & ->); reflexivity.
  - intro N. unfold compare_agents. destruct (defines x o) eqn:D.
    + eexists. split; [reflexivity|]. apply cmp_says.
    + assert (X : x = Sentinel) by (destruct x, o; try discriminate; reflexivity).
      assert (O : o = PLe \/ o = PGe) by (destruct o; subst x; try discriminate; auto).
      destruct y as [|b]; [exfalso; apply N; split; [exact O|auto]|].
      destruct O as [-> | ->]; cbn [reflected defines]; (eexists; split; [reflexivity|]); [exact (cmp_says PLe _ _)|exact (cmp_says PGe _ _)].
Qed.

(** ** Blocking *)

Lemma lower_rs s : lower s = "rs"%string <-> rs_word s.
Proof.
  split.
  - intro H. destruct s as [|a [|b [|c s]]]; cbn [lower] in H; try discriminate.
    injection H as A B.
    assert (AA : a = "R"%char \/ a = "r"%char).
    { revert A. destruct a as [[] [] [] [] [] [] [] []]; vm_compute; intro; try discriminate; auto. }
    assert (BB : b = "S"%char \/ b = "s"%char).
    { revert B. destruct b as [[] [] [] [] [] [] [] []]; vm_compute; intro; try discriminate; auto. }
    destruct AA as [-> | ->], BB as [-> | ->]; unfold rs_word; cbn; auto.
  - unfold rs_word. cbn. intros [<-|[<-|[<-|[<-|[]]]]]; reflexivity.
Qed.

Lemma blocking_word s : exists b, blocking_of (PyStr s) = Ok b /\ (b = false <-> rs_word s).
Proof.
  cbn [blocking_of]. eexists. split; [reflexivity|]. rewrite <- lower_rs. destruct (String.eqb_spec (lower s) "rs"); split; congruence.
Qed.

(** ** Reading *)

Lemma scan_uint u : forall z r neg, scan (NilEmpty.string_of_uint u ++ r) neg (Some (Zpos z)) = scan r neg (Some (Zpos (Pos.of_uint_acc u z))).
Proof.
  induction u as [|u IH|u IH|u IH|u IH|u IH|u IH|u IH|u IH|u IH|u IH]; intros z r neg; [reflexivity| | | | | | | | | |];
    cbn -[Z.mul Pos.mul Z.add Pos.add]; rewrite <- IH;
    try match goal with |- _ = scan _ _ (Some (Zpos (?d + 10 * z))) => replace (Zpos (d + 10 * z)) with (10 * Zpos z + Zpos d) by lia end;
    try replace (Zpos (10 * z)) with (10 * Zpos z + 0) by lia; reflexivity.
Qed.

Lemma scan_uint0 u : forall r neg, u <> Nil -> scan (NilEmpty.string_of_uint u ++ r) neg None = scan r neg (Some (Z.of_N (Pos.of_uint u))).
Proof.
  assert (K : forall u r neg, scan (NilEmpty.string_of_uint u ++ r) neg (Some 0) = scan r neg (Some (Z.of_N (Pos.of_uint u)))).
  { induction u0 as [|u0 IH|u0 IH|u0 IH|u0 IH|u0 IH|u0 IH|u0 IH|u0 IH|u0 IH|u0 IH]; intros r neg; [reflexivity|exact (IH r neg)| | | | | | | | |];
      cbn -[Z.mul Pos.mul Z.add Pos.add]; rewrite <- scan_uint; reflexivity. }
  destruct u; intros r neg N; try congruence; cbn -[Z.mul Pos.mul Z.add Pos.add]; try (rewrite <- scan_uint; reflexivity). apply K.
Qed.

Lemma scan_nil0 u r neg : scan (NilZero.string_of_uint u ++ r) neg None = scan r neg (Some (Z.of_N (Pos.of_uint u))).
Proof.
  destruct u as [|u|u|u|u|u|u|u|u|u|u]; [reflexivity| | | | | | | | | |].
  all: match goal with |- scan (NilZero.string_of_uint ?v ++ _) _ _ = _ => refine (scan_uint0 v r neg _); discriminate end.
Qed.

(** A number followed by the end or by something that is no digit. *)
Lemma scan_int z r : (match r with EmptyString => True | String c _ => digit c = None end) ->
  scan (show_int z ++ r) false None = z :: scan r false None.
Proof.
  intro D. unfold show_int. assert (T := DecimalZ.of_to z). destruct (Z.to_int z) as [u|u]; cbn [NilZero.string_of_int Z.of_int] in *.
  - rewrite scan_nil0. unfold Z.of_uint in T. rewrite T. destruct r as [|c r]; [reflexivity|]. cbn [scan]. rewrite D. reflexivity.
  - cbn [append scan]. change (digit "-") with (@None Z). cbv iota. change (Ascii.eqb "-" "-") with true. rewrite scan_nil0.
    unfold Z.of_uint in T. destruct r as [|c r]; cbn [scan signed]; [rewrite T; reflexivity|]. rewrite D. cbn [signed]. rewrite T. reflexivity.
Qed.

Lemma scan_end z : scan (show_int z) false None = [z].
Proof. assert (X := scan_int z EmptyString Logic.I). cbn [scan] in X. rewrite <- X. f_equal. generalize (show_int z). induction s as [|c s IH]; [reflexivity|]. cbn [append]. rewrite <- IH. reflexivity. Qed.

Lemma app_assoc_s a b c : ((a ++ b) ++ c = a ++ (b ++ c))%string.
Proof. induction a as [|x a IH]; [reflexivity|]. cbn [append]. rewrite IH. reflexivity. Qed.

Fixpoint wordy (w : string) : bool :=
  match w with
  | EmptyString => true
  | String c r => match digit c with Some _ => false | None => negb (Ascii.eqb c "-") && wordy r end
  end.

Lemma scan_word w r : wordy w = true -> scan (w ++ r) false None = scan r false None.
Proof.
  induction w as [|c w IH]; intro H; [reflexivity|]. cbn [wordy append scan] in *. destruct (digit c); [discriminate|].
  apply andb_prop in H as [A B]. apply negb_true_iff in A. rewrite A. exact (IH B).
Qed.

Lemma scan_done w : wordy w = true -> scan w false None = [].
Proof.
  induction w as [|c w IH]; intro H; [reflexivity|]. cbn [wordy scan] in *. destruct (digit c); [discriminate|].
  apply andb_prop in H as [A B]. apply negb_true_iff in A. rewrite A. exact (IH B).
Qed.

Ltac reads := unfold numbers; repeat rewrite app_assoc_s;
  repeat first [rewrite scan_end | rewrite scan_int by reflexivity | rewrite scan_word by reflexivity]; try (rewrite scan_done by reflexivity).

Lemma read_net n : numbers (show_net n) = [num_nodes n; num_edges n; zsum (nt_nagents n)].
Proof. unfold show_net. generalize (num_nodes n), (num_edges n), (zsum (nt_nagents n)). intros a b c. reads. reflexivity. Qed.

Lemma read_uf u : numbers (show_uf u) = [uf_clusters u].
Proof. unfold show_uf. generalize (uf_clusters u). intro a. reads. reflexivity. Qed.

Lemma read_agent shown a : numbers (show_agent shown (Ag a)) = Z.of_nat (fst (ag_id a)) :: snd (ag_id a) :: numbers (shown (ag_time a)).
Proof.
  unfold show_agent, show_id. generalize (shown (ag_time a)), (Z.of_nat (fst (ag_id a))), (snd (ag_id a)). intros s x y.
  destruct (ag_kind a); reads; reflexivity.
Qed.

Lemma read_queue shown q : numbers (show_queue shown q) =
  Z.of_nat (c_idx (q_cfg q)) ::
  match c_class (q_cfg q) with
  | CNull => []
  | CResource => finite_part (q_servers q) ++ finite_part (c_max_servers (q_cfg q)) ++ [q_narr q; q_oarr q; q_departed q] ++ numbers (shown (q_time q))
  | _ => finite_part (q_servers q) ++ [zlen (waiting q); q_narr q; q_oarr q; q_departed q] ++ numbers (shown (q_time q))
  end.
Proof.
  unfold show_queue, num_arrivals, waiting, zlen. cbn [fst snd].
  generalize (Z.of_nat (c_idx (q_cfg q))), (q_servers q), (Z.of_nat (List.length (q_line q))), (q_narr q), (q_oarr q), (q_departed q), (shown (q_time q)), (c_max_servers (q_cfg q)).
  intros e s l a o d t m. destruct (c_class (q_cfg q)); destruct s as [s|], m as [m|]; cbn [show_num finite_part app]; reads; reflexivity.
Qed.
