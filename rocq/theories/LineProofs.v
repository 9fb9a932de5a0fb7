(** * LineProofs: the observer's list of visits obeys the recursion *)
From Coq Require Import List ZArith QArith Lia Bool Permutation Arith.
From Verif Require Import Base Heap HeapProofs Queue QueueEffects QueueEvents QueueSteps QueueInv SpecQueue QueueFlow QueueHist QueueData QueueRows QueueClaims1 SpecLine LineSteps.
Import ListNotations.
Open Scope Z_scope.

(** ** Counting *)

Definition many (f : visit -> bool) (l : list visit) : Z := zlen (filter f l).

Lemma many_nil f : many f [] = 0.
Proof. reflexivity. Qed.
Lemma many_cons f v l : many f (v :: l) = (if f v then 1 else 0) + many f l.
Proof. unfold many, zlen. cbn [filter]. destruct (f v); cbn [length]; lia. Qed.
Lemma many_app f l m : many f (l ++ m) = many f l + many f m.
Proof. unfold many, zlen. rewrite filter_app, app_length. lia. Qed.
Lemma many_nonneg f l : 0 <= many f l.
Proof. unfold many, zlen. lia. Qed.
Lemma many_le f g l l' : Forall2 (fun v v' => f v = true -> g v' = true) l l' -> many f l <= many g l'.
Proof.
  induction 1 as [|v v' l l' H _ IH]; [cbn; lia|]. rewrite !many_cons. destruct (f v); [rewrite H by reflexivity|destruct (g v')]; lia.
Qed.
Lemma many_ge f g l l' : Forall2 (fun v v' => g v' = true -> f v = true) l l' -> many g l' <= many f l.
Proof.
  induction 1 as [|v v' l l' H _ IH]; [cbn; lia|]. rewrite !many_cons. destruct (g v'); [rewrite H by reflexivity|destruct (f v)]; lia.
Qed.
Lemma many_sub f g l : (forall v, In v l -> f v = true -> g v = true) -> many f l <= many g l.
Proof.
  intro H. induction l as [|v l IH]; [cbn; lia|]. rewrite !many_cons. assert (X := H v (or_introl eq_refl)).
  assert (many f l <= many g l) by (apply IH; intros; apply H; [right|]; assumption).
  destruct (f v); [rewrite X by reflexivity|destruct (g v)]; lia.
Qed.
Lemma many_none f l : (forall v, In v l -> f v = false) -> many f l = 0.
Proof.
  intro H. induction l as [|v l IH]; [reflexivity|]. rewrite many_cons, (H v (or_introl eq_refl)), IH; [lia|]. intros; apply H; right; assumption.
Qed.

Lemma filter_perm {A} (f : A -> bool) l m : Permutation l m -> Permutation (filter f l) (filter f m).
Proof.
  induction 1 as [|x l m _ IH|x y l|l m n _ I1 _ I2]; cbn [filter].
  - reflexivity.
  - destruct (f x); [constructor|]; exact IH.
  - destruct (f x), (f y); try reflexivity. apply perm_swap.
  - etransitivity; eassumption.
Qed.

Lemma aid_eqb_refl i : aid_eqb i i = true.
Proof. apply aid_eqb_eq. reflexivity. Qed.
Lemma aid_eqb_neq i j : i <> j -> aid_eqb i j = false.
Proof. intro H. destruct (aid_eqb i j) eqn:E; [|reflexivity]. apply aid_eqb_eq in E. congruence. Qed.

Lemma filter_all {A} (f : A -> bool) l : (forall x, In x l -> f x = true) -> filter f l = l.
Proof.
  induction l as [|x l IH]; intro H; [reflexivity|]. cbn. rewrite (H x (or_introl eq_refl)). f_equal. apply IH. intros; apply H; right; assumption.
Qed.
Lemma filter_none {A} (f : A -> bool) l : (forall x, In x l -> f x = false) -> filter f l = [].
Proof.
  induction l as [|x l IH]; intro H; [reflexivity|]. cbn. rewrite (H x (or_introl eq_refl)). apply IH. intros; apply H; right; assumption.
Qed.

Lemma perm_without i l m : NoDup (i :: l) -> Permutation (i :: l) m -> Permutation l (filter (fun j => negb (aid_eqb j i)) m).
Proof.
  intros ND P. apply (filter_perm (fun j => negb (aid_eqb j i))) in P. cbn [filter] in P. rewrite aid_eqb_refl in P. cbn [negb] in P.
  rewrite filter_all in P; [exact P|]. intros j J. inversion ND; subst. rewrite aid_eqb_neq; [reflexivity|]. intros ->. contradiction.
Qed.

(** ** The invariant *)

(** Let in, and not gone by [s]; let in, and not gone before [s]. *)
Definition out_after (s : ext) (v : visit) : bool := v_in v && match v_dep v with None => true | Some e => eltb s e end.
Definition out_from (s : ext) (v : visit) : bool := v_in v && match v_dep v with None => true | Some e => eleb s e end.

Definition each (P : list visit -> visit -> Prop) (l : list visit) : Prop := forall pre v post, l = pre ++ v :: post -> P pre v.

Definition turn_ok (c : ext) (pre : list visit) (v : visit) : Prop :=
  forall s, v_srv v = Some s -> eLt (Fin (many (out_after s) pre)) c /\ (eLt (v_arr v) s -> eLe c (Fin (many (out_from s) pre))).
Definition cap_ok (c : ext) (pre : list visit) (v : visit) : Prop :=
  if v_in v then eLt (Fin (many (out_after (v_arr v)) pre)) c else eLe c (Fin (many (out_from (v_arr v)) pre)).
Definition sorted_ok (pre : list visit) (v : visit) : Prop := forall w, In w pre -> eLe (v_arr w) (v_arr v).

(** One visit, at time [now]. *)
Record visit_ok (now : ext) (v : visit) : Prop := mkVok {
  vo_arr : eLe (v_arr v) now;
  vo_srv : forall s, v_srv v = Some s -> v_in v = true /\ eLe (v_arr v) s /\ eLe s now;
  vo_dep : forall e, v_dep v = Some e -> exists s, v_srv v = Some s /\ eLe s e /\ eLe e now
}.

Record lined (q : queue) (l : list visit) : Prop := mkLined {
  ln_line : ids (waiting q) = map v_id (filter v_waits l);
  ln_serv : Permutation (ids (in_service q)) (map v_id (filter v_served l));
  ln_split : exists A B, l = A ++ B /\ (forall v, In v A -> v_waits v = false) /\ (forall v, In v B -> v_srv v = None);
  ln_ok : forall v, In v l -> visit_ok (q_now q) v;
  ln_turn : each (turn_ok (q_servers q)) l;
  ln_cap : each (cap_ok (room q)) l;
  ln_sorted : each sorted_ok l
}.

(** ** Lists that grow *)

Record grown (t : ext) (v v' : visit) : Prop := mkGrown {
  gr_id : v_id v' = v_id v; gr_arr : v_arr v' = v_arr v; gr_in : v_in v' = v_in v;
  gr_srv : v_srv v' = v_srv v \/ v_srv v = None /\ v_srv v' = Some t;
  gr_dep : v_dep v' = v_dep v \/ v_dep v = None /\ v_dep v' = Some t
}.

Lemma grown_refl t v : grown t v v.
Proof. split; auto. Qed.

Lemma grown_after t s v v' : eLe s t -> grown t v v' -> out_after s v' = true -> out_after s v = true.
Proof.
  intros L [_ _ I _ D] H. unfold out_after in *. rewrite I in H. destruct (v_in v); [|discriminate]. cbn in *.
  destruct D as [<-|(-> & _)]; [exact H|reflexivity].
Qed.
Lemma grown_from t s v v' : eLe s t -> grown t v v' -> out_from s v = true -> out_from s v' = true.
Proof.
  intros L [_ _ I _ D] H. unfold out_from in *. rewrite I. destruct (v_in v); [|discriminate]. cbn in *.
  destruct D as [->|(E & ->)]; [exact H|]. apply eleb_le. exact L.
Qed.

Lemma all2_imp {A} (P Q : A -> A -> Prop) l l' : (forall x y, P x y -> Q x y) -> Forall2 P l l' -> Forall2 Q l l'.
Proof. intros H F. induction F; constructor; auto. Qed.

Lemma all2_length {A} (P : A -> A -> Prop) l l' : Forall2 P l l' -> length l = length l'.
Proof. induction 1; cbn; congruence. Qed.

Lemma grown_all_after t s l l' : eLe s t -> Forall2 (grown t) l l' -> many (out_after s) l' <= many (out_after s) l.
Proof. intros L F. apply many_ge. eapply all2_imp; [|exact F]. intros x y G. apply (grown_after t); assumption. Qed.
Lemma grown_all_from t s l l' : eLe s t -> Forall2 (grown t) l l' -> many (out_from s) l <= many (out_from s) l'.
Proof. intros L F. apply many_le. eapply all2_imp; [|exact F]. intros x y G. apply (grown_from t); assumption. Qed.

Lemma grown_split t l l' pre' v' post' : Forall2 (grown t) l l' -> l' = pre' ++ v' :: post' ->
  exists pre v post, l = pre ++ v :: post /\ Forall2 (grown t) pre pre' /\ grown t v v' /\ Forall2 (grown t) post post'.
Proof.
  intros F ->. apply Forall2_app_inv_r in F as (pre & r & F1 & F2 & ->). inversion F2; subst. eauto 8.
Qed.

Lemma grown_in t l l' v' : Forall2 (grown t) l l' -> In v' l' -> exists v, In v l /\ grown t v v'.
Proof.
  intros F H. apply in_split in H as (a & b & H). destruct (grown_split _ _ _ _ _ _ F H) as (p & v & r & -> & _ & G & _).
  exists v. split; [|exact G]. apply in_or_app. right; left; reflexivity.
Qed.

Lemma grown_sorted t l l' : Forall2 (grown t) l l' -> each sorted_ok l -> each sorted_ok l'.
Proof.
  intros F H pre' v' post' E w' W'. destruct (grown_split _ _ _ _ _ _ F E) as (pre & v & post & E1 & F1 & G & _).
  destruct (grown_in _ _ _ _ F1 W') as (w & W & GW). rewrite (gr_arr _ _ _ G), (gr_arr _ _ _ GW). exact (H _ _ _ E1 w W).
Qed.

Lemma grown_cap t c l l' : (forall v, In v l -> eLe (v_arr v) t) -> Forall2 (grown t) l l' -> each (cap_ok c) l -> each (cap_ok c) l'.
Proof.
  intros T F H pre' v' post' E. destruct (grown_split _ _ _ _ _ _ F E) as (pre & v & post & E1 & F1 & G & _).
  assert (L : eLe (v_arr v) t) by (apply T; rewrite E1; apply in_or_app; right; left; reflexivity).
  specialize (H _ _ _ E1). unfold cap_ok in *. rewrite (gr_in _ _ _ G), (gr_arr _ _ _ G).
  assert (X := grown_all_after t _ _ _ L F1). assert (Y := grown_all_from t _ _ _ L F1).
  destruct (v_in v); elia.
Qed.

(** Only [new] visits start. *)
Lemma grown_turn t c l l' : (forall v s, In v l -> v_srv v = Some s -> eLe s t) -> Forall2 (grown t) l l' -> each (turn_ok c) l ->
  (forall pre' v' post' pre v post, l' = pre' ++ v' :: post' -> l = pre ++ v :: post -> Forall2 (grown t) pre pre' -> Forall2 (grown t) post post' -> grown t v v' ->
     v_srv v = None -> v_srv v' = Some t -> turn_ok c pre' v') -> each (turn_ok c) l'.
Proof.
  intros T F H NEW pre' v' post' E. destruct (grown_split _ _ _ _ _ _ F E) as (pre & v & post & E1 & F1 & G & F2).
  destruct (gr_srv _ _ _ G) as [S|(S1 & S2)]; [|exact (NEW _ _ _ _ _ _ E E1 F1 F2 G S1 S2)].
  intros s HS. rewrite S in HS.
  assert (L : eLe s t) by (apply (T v); [rewrite E1; apply in_or_app; right; left; reflexivity|exact HS]).
  destruct (H _ _ _ E1 s HS) as (H1 & H2). rewrite (gr_arr _ _ _ G).
  assert (X := grown_all_after t _ _ _ L F1). assert (Y := grown_all_from t _ _ _ L F1).
  split; [elia|]. intro Z. specialize (H2 Z). elia.
Qed.

Lemma each_snoc P l v : each P l -> P l v -> each P (l ++ [v]).
Proof.
  intros H HV pre w post E. destruct post as [|x post] using rev_ind.
  - apply app_inj_tail in E as [-> ->]. exact HV.
  - clear IHpost. rewrite app_comm_cons, app_assoc in E. apply app_inj_tail in E as [E _]. exact (H _ _ _ E).
Qed.

Lemma visit_ok_later t t' v : eLe t t' -> visit_ok t v -> visit_ok t' v.
Proof.
  intros L [A S D]. split.
  - eapply eLe_trans; eassumption.
  - intros s H. destruct (S s H) as (? & ? & ?). split; [assumption|]. split; [assumption|]. eapply eLe_trans; eassumption.
  - intros e H. destruct (D e H) as (s & ? & ? & ?). exists s. split; [assumption|]. split; [assumption|]. eapply eLe_trans; eassumption.
Qed.

(** ** One call *)

Definition v_open (v : visit) : bool := v_in v && never (v_dep v).

Lemma waits_open now v : visit_ok now v -> v_waits v = true -> v_dep v = None.
Proof.
  intros V W. unfold v_waits in W. apply andb_true_iff in W as [_ W]. destruct (v_dep v) as [e|] eqn:E; [|reflexivity].
  destruct (vo_dep _ _ V e E) as (s & S & _). rewrite S in W. discriminate.
Qed.

Lemma open_split now l : (forall v, In v l -> visit_ok now v) -> many v_open l = many v_served l + many v_waits l.
Proof.
  induction l as [|v l IH]; intro H; [reflexivity|]. rewrite !many_cons, IH by (intros; apply H; right; assumption).
  assert (V := H v (or_introl eq_refl)). assert (WO := waits_open _ _ V). generalize (many v_served l) (many v_waits l). intros x y.
  clear H IH V. unfold v_open, v_served, v_waits in *.
  destruct (v_in v); cbn [andb never negb] in *; [|lia]. destruct (v_srv v); cbn [andb never negb] in *; [destruct (v_dep v); cbn [never]; lia|].
  rewrite WO by reflexivity. cbn [never]. lia.
Qed.

Lemma lined_nsys q l : qinv q -> lined q l -> q_nsys q = many v_open l.
Proof.
  intros I L. rewrite (open_split (q_now q)) by apply L. rewrite (qi_sys _ I).
  assert (X := Permutation_length (ln_serv _ _ L)). assert (Y := f_equal (@length _) (ln_line _ _ L)).
  unfold ids, waiting in *. rewrite !map_length in X, Y. unfold many, zlen, na. change agents_of with agents_in. unfold in_service in X. lia.
Qed.

Lemma open_from s l : many v_open l <= many (out_from s) l.
Proof.
  apply many_sub. intros v _ H. unfold v_open, out_from in *. destruct (v_in v); [|discriminate]. destruct (v_dep v); [discriminate|reflexivity].
Qed.
Lemma after_open now s l : (forall v, In v l -> visit_ok now v) -> eLe now s -> many (out_after s) l <= many v_open l.
Proof.
  intros H L. apply many_sub. intros v I X. unfold v_open, out_after in *. destruct (v_in v); [|discriminate].
  destruct (v_dep v) as [e|] eqn:E; [|reflexivity]. cbn in *. destruct (vo_dep _ _ (H v I) e E) as (_ & _ & _ & T).
  apply eltb_lt in X. exfalso. apply (eLt_not_le s e); [exact X|]. eapply eLe_trans; eassumption.
Qed.

Lemma began_sub q q' i : (forall j, In j (ids (in_service q')) -> In j (ids (in_service q))) -> began q q' i = false.
Proof. intro H. rewrite <- not_true_iff_false, began_true. intros (A & B). auto. Qed.

Lemma start_same o q r q' v : v_waits v = false \/ began q q' (v_id v) = false -> start (o, q, r, q') v = v.
Proof. intros [H|H]; cbn; rewrite H; [reflexivity|]. rewrite andb_false_r. reflexivity. Qed.

Lemma close_same o q r q' v : departed1 (o, q, r, q') = [] \/ v_served v = false -> close (o, q, r, q') v = v.
Proof. intros [H|H]; unfold close; rewrite H; [|reflexivity]. cbn. rewrite andb_false_r. reflexivity. Qed.

Lemma close_one o q r q' v i : departed1 (o, q, r, q') = [i] ->
  close (o, q, r, q') v = if v_served v && aid_eqb (v_id v) i then mkVisit (v_id v) (v_arr v) (v_in v) (v_srv v) (Some (q_now q')) else v.
Proof. intro H. unfold close. rewrite H. cbn [existsb]. rewrite orb_false_r. reflexivity. Qed.

Lemma close_waits o q r q' v : v_waits (close (o, q, r, q') v) = v_waits v.
Proof. unfold close. destruct (v_served v && _); reflexivity. Qed.

Lemma close_ids o q r q' i l : departed1 (o, q, r, q') = [i] ->
  map v_id (filter v_served (map (close (o, q, r, q')) l)) = filter (fun j => negb (aid_eqb j i)) (map v_id (filter v_served l)).
Proof.
  intro H. induction l as [|v l IH]; [reflexivity|]. cbn [map filter]. rewrite (close_one _ _ _ _ _ _ H).
  destruct (v_served v) eqn:S; cbn [andb].
  - cbn [map filter]. destruct (aid_eqb (v_id v) i) eqn:E; cbn [negb].
    + assert (X : v_served (mkVisit (v_id v) (v_arr v) (v_in v) (v_srv v) (Some (q_now q'))) = false) by (unfold v_served; cbn; apply andb_false_r).
      rewrite X. exact IH.
    + rewrite S. cbn [map]. f_equal. exact IH.
  - rewrite S. exact IH.
Qed.

Lemma close_waiting o q r q' l : filter v_waits (map (close (o, q, r, q')) l) = map (close (o, q, r, q')) (filter v_waits l).
Proof. induction l as [|v l IH]; [reflexivity|]. cbn [map filter]. rewrite close_waits. destruct (v_waits v); cbn [map]; rewrite IH; reflexivity. Qed.

Lemma close_grown o q r q' v : grown (q_now q') v (close (o, q, r, q') v).
Proof.
  unfold close. destruct (v_served v && _) eqn:E; [|apply grown_refl]. apply andb_true_iff in E as [E _].
  unfold v_served in E. apply andb_true_iff in E as [_ E]. split; cbn; auto. right. destruct (v_dep v); [discriminate|auto].
Qed.

Lemma map_grown f t l : (forall v, In v l -> grown t v (f v)) -> Forall2 (grown t) l (map f l).
Proof. induction l as [|v l IH]; intro H; constructor; [apply H; left; reflexivity|apply IH; intros; apply H; right; assumption]. Qed.

Lemma close_ok o q r q' t v : eLe t (q_now q') -> visit_ok t v -> visit_ok (q_now q') (close (o, q, r, q') v).
Proof.
  intros L V. assert (V' := visit_ok_later _ _ _ L V). unfold close. destruct (v_served v && _) eqn:E; [|exact V'].
  apply andb_true_iff in E as [E _]. unfold v_served in E. apply andb_true_iff in E as [E _]. apply andb_true_iff in E as [_ E].
  destruct V' as [A S D]. split; cbn; [exact A|exact S|]. intros e X. injection X as <-. destruct (v_srv v) as [s|] eqn:VS; [|discriminate].
  exists s. split; [reflexivity|]. split; [apply (S s eq_refl)|apply eLe_refl].
Qed.

Lemma map_id_in {A} (f : A -> A) l : (forall v, In v l -> f v = v) -> map f l = l.
Proof. induction l as [|v l IH]; intro H; [reflexivity|]. cbn. rewrite H by (left; reflexivity). f_equal. apply IH. intros; apply H; right; assumption. Qed.

Lemma room_same q q' : q_servers q' = q_servers q -> q_cfg q' = q_cfg q -> room q' = room q.
Proof. intros E1 E2. unfold room. rewrite E1, E2. reflexivity. Qed.

Lemma lined_step o q r q' l : c_class (q_cfg q) <> CNull -> c_class (q_cfg q) <> CResource ->
  qinv q -> winv q -> cinv q -> NoDup (held q) -> eLe (q_now q) (q_now q') ->
  orderly q o -> step o q = Ok (r, q') -> lined q l -> lined q' (watch l (o, q, r, q')).
Proof.
  intros N NR IV W C ND NOW OK H L.
  destruct (step_turn _ _ _ _ N NR IV W C OK H) as (T & SV & CF). assert (RM := room_same _ _ SV CF).
  destruct (held_split _ ND) as (S1 & S2 & N1 & N2 & N3).
  assert (NS := lined_nsys _ _ IV L).
  assert (OKS : forall v, In v l -> visit_ok (q_now q') v) by (intros v V; eapply visit_ok_later; [exact NOW|apply L; exact V]).
  assert (WI : forall v, In v l -> v_waits v = true -> In (v_id v) (ids (waiting q))).
  { intros v V X. rewrite (ln_line _ _ L). apply in_map. apply filter_In. auto. }
  destruct T as [D A TU LI NW PM _|i D A TU LI DE IS CAP|i D A TU SC LI DE IS CAP FULL|i b D A TU SC IB TB PM L' LQ IS CAP FREE|a D A TU PM TA LQ L' IS|a b b' rest D A TU PM TA LQ IB TB PM' IS].
  - (* rest *)
    assert (E : watch l (o, q, r, q') = l).
    { unfold watch. assert (X : come (o, q, r, q') = []) by (unfold come; rewrite A, TU; reflexivity). rewrite X, app_nil_r. apply map_id_in.
      intros v V. rewrite close_same by (left; exact D). apply start_same. right. apply began_sub.
      intros j J. apply (Permutation_in j PM J). }
    rewrite E. destruct L as [L1 L2 L3 L4 L5 L6 L7]. split; try assumption.
    + unfold waiting. rewrite LI. exact L1.
    + eapply Permutation_trans; eassumption.
    + rewrite SV. exact L5.
    + rewrite RM. exact L6.
  - (* away *)
    set (v := mkVisit i (q_now q') false None None).
    assert (E : watch l (o, q, r, q') = l ++ [v]).
    { unfold watch. assert (X : come (o, q, r, q') = [v]) by (unfold come; rewrite A, TU; reflexivity). rewrite X. apply map_id_in.
      intros w _. rewrite close_same by (left; exact D). apply start_same. right. apply began_sub. unfold in_service. rewrite DE. auto. }
    rewrite E. destruct L as [L1 L2 L3 L4 L5 L6 L7]. split.
    + rewrite filter_app. cbn. rewrite app_nil_r. unfold waiting. rewrite LI. exact L1.
    + rewrite filter_app. cbn. rewrite app_nil_r. unfold in_service. rewrite DE. exact L2.
    + destruct L3 as (X & Y & -> & X1 & Y1). exists X, (Y ++ [v]). split; [symmetry; apply app_assoc|]. split; [exact X1|].
      intros w Hw. apply in_app_or in Hw as [Hw|[<-|[]]]; [auto|reflexivity].
    + intros w Hw. apply in_app_or in Hw as [Hw|[<-|[]]]; [auto|]. split; cbn; [apply eLe_refl|discriminate|discriminate].
    + rewrite SV. apply each_snoc; [exact L5|]. intros s X. discriminate.
    + rewrite RM. apply each_snoc; [exact L6|]. unfold cap_ok. cbn. assert (X := open_from (q_now q') l). rewrite NS in CAP. elia.
    + apply each_snoc; [exact L7|]. intros w Hw. exact (vo_arr _ _ (OKS w Hw)).
  - (* join *)
    set (v := mkVisit i (q_now q') true None None).
    assert (E : watch l (o, q, r, q') = l ++ [v]).
    { unfold watch. assert (X : come (o, q, r, q') = [v]) by (unfold come; rewrite A, TU; reflexivity). rewrite X. apply map_id_in.
      intros w _. rewrite close_same by (left; exact D). apply start_same. right. apply began_sub. unfold in_service. rewrite DE. auto. }
    rewrite E. destruct L as [L1 L2 L3 L4 L5 L6 L7]. split.
    + rewrite filter_app, map_app, LI, L1. reflexivity.
    + rewrite filter_app. cbn. rewrite app_nil_r. unfold in_service. rewrite DE. exact L2.
    + destruct L3 as (X & Y & -> & X1 & Y1). exists X, (Y ++ [v]). split; [symmetry; apply app_assoc|]. split; [exact X1|].
      intros w Hw. apply in_app_or in Hw as [Hw|[<-|[]]]; [auto|reflexivity].
    + intros w Hw. apply in_app_or in Hw as [Hw|[<-|[]]]; [auto|]. split; cbn; [apply eLe_refl|discriminate|discriminate].
    + rewrite SV. apply each_snoc; [exact L5|]. intros s X. discriminate.
    + rewrite RM. apply each_snoc; [exact L6|]. unfold cap_ok. cbn. assert (X := after_open (q_now q) (q_now q') l L4 NOW). rewrite NS in CAP. elia.
    + apply each_snoc; [exact L7|]. intros w Hw. exact (vo_arr _ _ (OKS w Hw)).
  - (* serve *)
    set (v := mkVisit i (q_now q') true (Some (q_now q')) None).
    assert (NOW0 : forall w, In w l -> v_waits w = false).
    { intros w Hw. destruct (v_waits w) eqn:X; [|reflexivity]. exfalso. assert (Y := WI w Hw X). unfold waiting in Y. rewrite LQ in Y. destruct Y. }
    assert (E : watch l (o, q, r, q') = l ++ [v]).
    { unfold watch. assert (X : come (o, q, r, q') = [mkVisit i (q_now q') true None None]) by (unfold come; rewrite A, TU; reflexivity).
      rewrite X, map_app. f_equal.
      - apply map_id_in. intros w Hw. rewrite close_same by (left; exact D). apply start_same. left. apply NOW0. exact Hw.
      - cbn [map]. rewrite close_same by (left; exact D). unfold start.
        assert (B : began q q' i = true).
        { apply began_true. split; [rewrite (ids_perm_iff _ _ PM); left; exact IB|apply (S1 i SC)]. }
        cbn [v_id v_waits v_in v_srv never andb v_arr v_dep]. unfold v_waits. cbn [v_id v_in v_srv never andb]. rewrite B. reflexivity. }
    rewrite E. destruct L as [L1 L2 L3 L4 L5 L6 L7].
    assert (AO := after_open (q_now q) (q_now q') l L4 NOW).
    split.
    + rewrite filter_app. cbn. rewrite app_nil_r. unfold waiting in *. rewrite L'. rewrite <- L1, LQ. reflexivity.
    + rewrite filter_app, map_app. apply Permutation_map with (f := ag_id) in PM. unfold ids. eapply Permutation_trans; [exact PM|].
      cbn. rewrite IB. eapply Permutation_trans; [|apply Permutation_cons_append]. apply perm_skip. exact L2.
    + exists (l ++ [v]), []. split; [rewrite app_nil_r; reflexivity|]. split; [|intros ? []].
      intros w Hw. apply in_app_or in Hw as [Hw|[<-|[]]]; [auto|reflexivity].
    + intros w Hw. apply in_app_or in Hw as [Hw|[<-|[]]]; [auto|]. split; cbn; [apply eLe_refl| |discriminate].
      intros s X. injection X as <-. split; [reflexivity|]. split; apply eLe_refl.
    + rewrite SV. apply each_snoc; [exact L5|]. intros s X. injection X as <-. split.
      * rewrite NS in FREE. elia.
      * intro X. exfalso. exact (eLt_irrefl _ X).
    + rewrite RM. apply each_snoc; [exact L6|]. unfold cap_ok. cbn. rewrite NS in CAP. elia.
    + apply each_snoc; [exact L7|]. intros w Hw. exact (vo_arr _ _ (OKS w Hw)).
  - (* leave *)
    assert (NOW0 : forall w, In w l -> v_waits w = false).
    { intros w Hw. destruct (v_waits w) eqn:X; [|reflexivity]. exfalso. assert (Y := WI w Hw X). unfold waiting in Y. rewrite LQ in Y. destruct Y. }
    assert (E : watch l (o, q, r, q') = map (close (o, q, r, q')) l).
    { unfold watch. assert (X : come (o, q, r, q') = []) by (unfold come; rewrite A, TU; reflexivity). rewrite X, app_nil_r.
      apply map_ext_in. intros w Hw. apply start_same. left. rewrite close_waits. apply NOW0. exact Hw. }
    rewrite E. assert (F : Forall2 (grown (q_now q')) l (map (close (o, q, r, q')) l)) by (apply map_grown; intros; apply close_grown).
    destruct L as [L1 L2 L3 L4 L5 L6 L7]. split.
    + rewrite close_waiting, filter_none by exact NOW0. unfold waiting. rewrite L'. reflexivity.
    + rewrite (close_ids _ _ _ _ _ _ D). apply perm_without; apply Permutation_map with (f := ag_id) in PM; cbn [map] in PM.
      * apply (Permutation_NoDup PM). exact N2.
      * eapply Permutation_trans; [apply Permutation_sym; exact PM|exact L2].
    + exists (map (close (o, q, r, q')) l), []. split; [rewrite app_nil_r; reflexivity|]. split; [|intros ? []].
      intros w Hw. apply in_map_iff in Hw as (x & <- & Hx). rewrite close_waits. apply NOW0. exact Hx.
    + intros w Hw. apply in_map_iff in Hw as (x & <- & Hx). apply close_ok with (t := q_now q); [exact NOW|apply L4; exact Hx].
    + rewrite SV. apply (grown_turn (q_now q') _ l); [|exact F|exact L5|].
      * intros v s V X. apply (vo_srv _ _ (OKS v V) s X).
      * intros pre' v' post' pre v post E1 E2 F1 F2 G X Y. exfalso.
        assert (V' : In v' (map (close (o, q, r, q')) l)) by (rewrite E1; apply in_or_app; right; left; reflexivity).
        assert (V : In v l) by (rewrite E2; apply in_or_app; right; left; reflexivity).
        assert (Z := NOW0 v V). unfold v_waits in Z. rewrite X, andb_true_r in Z.
        assert (Z' : v_in v' = true).
        { apply in_map_iff in V' as (x & <- & Hx). assert (K := close_ok o q r q' (q_now q) x NOW (L4 x Hx)).
          apply (vo_srv _ _ K _ Y). }
        rewrite (gr_in _ _ _ G) in Z'. congruence.
    + rewrite RM. apply (grown_cap (q_now q') _ l); [|exact F|exact L6]. intros v V. exact (vo_arr _ _ (OKS v V)).
    + exact (grown_sorted _ _ _ F L7).
  - (* next *)
    destruct (ln_split _ _ L) as (A0 & B0 & E0 & HA & HB).
    assert (LW : filter v_waits l = filter v_waits B0).
    { rewrite E0, filter_app, (filter_none v_waits A0) by exact HA. reflexivity. }
    assert (SPL : exists A1 w B, l = A1 ++ w :: B /\ v_waits w = true /\ v_id w = ag_id b /\ (forall v, In v A1 -> v_waits v = false) /\ (forall v, In v B -> v_srv v = None) /\
                   map v_id (filter v_waits B) = ids (waiting q')).
    { assert (X := ln_line _ _ L). rewrite LW in X. unfold waiting in X. rewrite LQ in X. cbn [ids map] in X.
      revert A0 E0 HA HB LW X. induction B0 as [|w B0 IH]; intros; [discriminate|]. cbn [filter] in X. destruct (v_waits w) eqn:WW.
      - cbn [map] in X. injection X as X1 X2. exists A0, w, B0. split; [exact E0|]. split; [exact WW|]. split; [auto|]. split; [exact HA|].
        split; [intros; apply HB; right; assumption|]. symmetry. exact X2.
      - apply (IH (A0 ++ [w])).
        + rewrite <- app_assoc. exact E0.
        + intros v V. apply in_app_or in V as [V|[<-|[]]]; auto.
        + intros; apply HB; right; assumption.
        + rewrite LW. cbn [filter]. rewrite WW. reflexivity.
        + exact X. }
    clear A0 B0 E0 HA HB LW. destruct SPL as (A1 & w & B & EL & WW & IW & HA & HB & LB).
    set (e := (o, q, r, q')) in *.
    set (w' := mkVisit (v_id w) (v_arr w) (v_in w) (Some (q_now q')) (v_dep w)).
    assert (WL : In w l) by (rewrite EL; apply in_or_app; right; left; reflexivity).
    assert (NDW : NoDup (map v_id (w :: filter v_waits B))).
    { cbn [map]. rewrite LB, IW. unfold waiting, ids in N3 |- *. rewrite LQ in N3. exact N3. }
    assert (SB : forall v, In v B -> v_served v = false).
    { intros v V. unfold v_served. rewrite (HB v V). cbn. rewrite andb_false_r. reflexivity. }
    assert (SW : v_served w = false).
    { unfold v_waits in WW. unfold v_served. destruct (v_srv w); [rewrite andb_false_r in WW; discriminate|]. cbn. rewrite andb_false_r. reflexivity. }
    assert (BW : began q q' (v_id w) = true).
    { apply began_true. rewrite IW. split.
      - rewrite (ids_perm_iff _ _ PM'). left. exact IB.
      - intro X. apply (S2 _ X). unfold waiting, ids. rewrite LQ. left; reflexivity. }
    assert (BB : forall v, In v B -> v_waits v = true -> began q q' (v_id v) = false).
    { intros v V X. rewrite <- not_true_iff_false, began_true. intros (Y & Z). rewrite (ids_perm_iff _ _ PM') in Y.
      destruct Y as [Y|Y].
      - cbn [map] in NDW. inversion NDW as [|? ? K _]; subst. apply K. rewrite IW. cbn in Y. rewrite <- IB, Y. apply in_map. apply filter_In. auto.
      - apply Z. rewrite (ids_perm_iff _ _ PM). right. exact Y. }
    assert (E : watch l e = map (close e) A1 ++ w' :: B).
    { unfold watch. assert (X : come e = []) by (unfold e in A, TU |- *; unfold come; rewrite A, TU; reflexivity). rewrite X, app_nil_r, EL, map_app. f_equal.
      - apply map_ext_in. intros v V. unfold e. apply start_same. left. rewrite close_waits. apply HA. exact V.
      - cbn [map]. f_equal.
        + unfold e. rewrite close_same by (right; exact SW). unfold start. rewrite WW, BW. reflexivity.
        + apply map_id_in. intros v V. unfold e. rewrite close_same by (right; apply SB; exact V). apply start_same.
          destruct (v_waits v) eqn:Y; [right; apply BB; assumption|left; reflexivity]. }
    rewrite E.
    assert (WI' : v_in w = true /\ v_srv w = None).
    { unfold v_waits in WW. destruct (v_in w); [|discriminate]. destruct (v_srv w); [discriminate|auto]. }
    destruct WI' as (WIN & WSR).
    assert (WDE : v_dep w = None) by (apply (waits_open (q_now q)); [apply L; exact WL|exact WW]).
    assert (GW : grown (q_now q') w w') by (split; cbn; auto).
    assert (FA : Forall2 (grown (q_now q')) A1 (map (close e) A1)) by (apply map_grown; intros; apply close_grown).
    assert (F : Forall2 (grown (q_now q')) l (map (close e) A1 ++ w' :: B)).
    { rewrite EL. apply Forall2_app; [exact FA|]. constructor; [exact GW|]. clear. induction B; constructor; [apply grown_refl|assumption]. }
    destruct L as [L1 L2 L3 L4 L5 L6 L7].
    assert (SERV : map v_id (filter v_served l) = map v_id (filter v_served A1)).
    { rewrite EL, filter_app. cbn [filter]. rewrite SW, (filter_none v_served B) by exact SB. rewrite app_nil_r. reflexivity. }
    assert (SERV' : Permutation (ids (in_service q)) (map v_id (filter v_served A1))) by (rewrite <- SERV; exact L2).
    assert (PM1 : Permutation (ag_id a :: ids rest) (ids (in_service q))) by (apply Permutation_sym; apply (Permutation_map ag_id PM)).
    assert (REST : Permutation (ids rest) (map v_id (filter v_served (map (close e) A1)))).
    { unfold e. rewrite (close_ids _ _ _ _ _ _ D). apply perm_without.
      - apply (Permutation_NoDup (Permutation_sym PM1)). exact N2.
      - eapply Permutation_trans; [exact PM1|exact SERV']. }
    assert (OKA : forall v, In v A1 -> visit_ok (q_now q) v) by (intros v V; apply L4; rewrite EL; apply in_or_app; left; exact V).
    assert (OKA' : forall v, In v (map (close e) A1) -> visit_ok (q_now q') v).
    { intros v V. apply in_map_iff in V as (x & <- & Hx). apply close_ok with (t := q_now q); [exact NOW|apply OKA; exact Hx]. }
    assert (WA' : forall v, In v (map (close e) A1) -> v_waits v = false).
    { intros v V. apply in_map_iff in V as (x & <- & Hx). unfold e. rewrite close_waits. apply HA. exact Hx. }
    assert (NEWT : turn_ok (q_servers q) (map (close e) A1) w').
    { intros s X. cbn in X. injection X as <-.
      assert (LR : many v_served (map (close e) A1) = Z.of_nat (length rest)).
      { unfold many, zlen. apply Permutation_length in REST. unfold ids in REST. rewrite !map_length in REST. lia. }
      assert (LS : many v_served A1 = Z.of_nat (length rest) + 1).
      { unfold many, zlen. apply Permutation_length in SERV'. apply Permutation_length in PM1. cbn [length] in PM1. unfold ids in *. rewrite !map_length in *. lia. }
      assert (NA : na (q_dep q) = Z.of_nat (length rest) + 1).
      { unfold na. apply Permutation_length in PM. unfold in_service in PM. change agents_of with agents_in. rewrite PM. cbn [length]. lia. }
      split.
      - assert (X := after_open (q_now q') (q_now q') _ OKA' (eLe_refl _)). rewrite (open_split (q_now q')) in X by exact OKA'.
        rewrite (many_none v_waits) in X by exact WA'. unfold cinv in C. rewrite NA in C. elia.
      - intros _. assert (X := grown_all_from (q_now q') (q_now q') _ _ (eLe_refl _) FA). assert (Y := open_from (q_now q') A1).
        rewrite (open_split (q_now q)) in Y by exact OKA. rewrite (many_none v_waits) in Y by exact HA.
        assert (Z : eLe (q_servers q) (Fin (na (q_dep q)))) by (apply W; rewrite LQ; discriminate). rewrite NA in Z. elia. }
    split.
    + rewrite filter_app, (filter_none v_waits (map (close e) A1)) by exact WA'. cbn [app filter].
      assert (X : v_waits w' = false) by (unfold v_waits; cbn; apply andb_false_r). rewrite X. symmetry. exact LB.
    + apply Permutation_map with (f := ag_id) in PM'. unfold ids. eapply Permutation_trans; [exact PM'|]. cbn [map].
      rewrite filter_app, map_app. cbn [filter].
      assert (X : v_served w' = true) by (unfold v_served; cbn; rewrite WIN, WDE; reflexivity). rewrite X, (filter_none v_served B) by exact SB.
      cbn [map v_id w']. rewrite IB, <- IW. eapply Permutation_trans; [|apply Permutation_cons_append]. apply perm_skip. exact REST.
    + exists (map (close e) A1 ++ [w']), B. split; [rewrite <- app_assoc; reflexivity|]. split; [|exact HB].
      intros v V. apply in_app_or in V as [V|[<-|[]]]; [apply WA'; exact V|]. unfold v_waits. cbn. apply andb_false_r.
    + intros v V. apply in_app_or in V as [V|[<-|V]]; [apply OKA'; exact V| |].
      * destruct (OKS w WL) as [O1 O2 O3]. split; cbn; [exact O1| |rewrite WDE; discriminate].
        intros s X. injection X as <-. split; [exact WIN|]. split; [exact O1|apply eLe_refl].
      * apply OKS. rewrite EL. apply in_or_app. right; right; exact V.
    + rewrite SV. apply (grown_turn (q_now q') _ l); [|exact F|exact L5|].
      * intros v s V X. apply (vo_srv _ _ (OKS v V) s X).
      * intros pre' v' post' pre v post E1 E2 F1 F2 G X Y.
        assert (LEN : length pre = length A1).
        { assert (LP := all2_length _ _ _ F1).
          destruct (Nat.lt_trichotomy (length pre) (length A1)) as [Q|[Q|Q]]; [exfalso|exact Q|exfalso].
          - assert (V : In v A1).
            { assert (K : nth_error l (length pre) = Some v) by (rewrite E2, nth_error_app2, Nat.sub_diag by lia; reflexivity).
              rewrite EL, nth_error_app1 in K by exact Q. apply nth_error_In in K. exact K. }
            assert (V' : In v' (map (close e) A1)).
            { assert (K : nth_error (map (close e) A1 ++ w' :: B) (length pre') = Some v') by (rewrite E1, nth_error_app2, Nat.sub_diag by lia; reflexivity).
              rewrite nth_error_app1 in K by (rewrite map_length; lia). apply nth_error_In in K. exact K. }
            assert (Z := HA v V). unfold v_waits in Z. rewrite X, andb_true_r in Z.
            assert (Z' := vo_srv _ _ (OKA' v' V') _ Y). rewrite (gr_in _ _ _ G) in Z'. destruct Z' as [Z' _]. congruence.
          - assert (K : nth_error (map (close e) A1 ++ w' :: B) (length pre') = Some v') by (rewrite E1, nth_error_app2, Nat.sub_diag by lia; reflexivity).
            rewrite nth_error_app2 in K by (rewrite map_length; lia). rewrite map_length in K.
            replace (length pre' - length A1)%nat with (S (length pre' - length A1 - 1)) in K by lia. cbn [nth_error] in K.
            apply nth_error_In in K. rewrite (HB v' K) in Y. discriminate. }
        assert (LP := all2_length _ _ _ F1).
        assert (K : pre' = map (close e) A1 /\ v' = w').
        { clear -E1 LEN LP. assert (LL : length (map (close e) A1) = length pre') by (rewrite map_length; lia). revert pre' E1 LP LL. generalize (map (close e) A1). intros l0 pre' E1 _ LL.
          revert pre' E1 LL. induction l0 as [|x l0 IH]; intros [|y pre'] E1 LL; cbn in *; try discriminate; [injection E1 as -> _; auto|].
          injection E1 as -> E1. injection LL as LL. destruct (IH pre' E1 LL) as (<- & ->). auto. }
        destruct K as (-> & ->). exact NEWT.
    + rewrite RM. apply (grown_cap (q_now q') _ l); [|exact F|exact L6]. intros v V. exact (vo_arr _ _ (OKS v V)).
    + exact (grown_sorted _ _ _ F L7).
Qed.
