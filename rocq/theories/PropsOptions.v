(** * PropsOptions: claim C93: options of the functions that draw *)
From Coq Require Import List ZArith QArith Bool Arith Lia String.
From Verif Require Import Base Dict Graph SpecGraph GraphNet GraphIndex Colors Drawing DrawProofs PropsDrawing Options.
Import ListNotations.
Open Scope Z_scope.

(** ** What is meant *)

(** A dictionary of arguments made from defaults [d] and what the caller gave,
    [kw]: it has the names of [d], the caller's value for a name they gave,
    and the default otherwise. *)
Definition completes (d kw r : kwargs) : Prop :=
  map fst r = map fst d /\
  (forall k v, In k (map fst d) -> In (k, v) kw -> In (k, v) r) /\
  (forall k v, ~ In k (map fst kw) -> In (k, v) d -> In (k, v) r).

(** ** Proofs about dictionaries *)

Lemma str_eq x y : String.eqb x y = true <-> x = y.
Proof. apply String.eqb_eq. Qed.

Lemma known_keys kw : forall d, mkeys (replace_known d kw) = mkeys d.
Proof.
  induction kw as [|[k v] kw IH]; intro d; [reflexivity|].
  change (replace_known d ((k, v) :: kw)) with (replace_known (if mhas String.eqb d k then mput String.eqb d k v else d) kw).
  rewrite IH. destruct (mhas String.eqb d k) eqn:E; [|reflexivity]. apply (mput_keys_in _ str_eq). apply (mhas_in _ str_eq). exact E.
Qed.
Lemma known_get kw : forall d k, NoDup (map fst kw) -> In k (mkeys d) ->
  mget String.eqb (replace_known d kw) k = match mget String.eqb kw k with Some v => Some v | None => mget String.eqb d k end.
Proof.
  induction kw as [|[j v] kw IH]; intros d k N I; [reflexivity|].
  change (replace_known d ((j, v) :: kw)) with (replace_known (if mhas String.eqb d j then mput String.eqb d j v else d) kw).
  cbn in N. inversion N as [|? ? NI N']; subst.
  match goal with |- context [replace_known ?x kw] => set (d' := x) end.
  assert (K : mkeys d' = mkeys d).
  { unfold d'. destruct (mhas String.eqb d j) eqn:E; [|reflexivity]. apply (mput_keys_in _ str_eq). apply (mhas_in _ str_eq). exact E. }
  rewrite IH; [|exact N'|rewrite K; exact I]. unfold d'. cbn [mget]. destruct (String.eqb j k) eqn:E.
  - apply str_eq in E. subst j. assert (X : mget String.eqb kw k = None) by (apply (mget_none _ str_eq); exact NI). rewrite X.
    apply (mhas_in _ str_eq) in I. rewrite I. apply (mget_put_eq _ str_eq).
  - assert (X : j <> k) by (intros ->; rewrite String.eqb_refl in E; discriminate). destruct (mget String.eqb kw k); [reflexivity|].
    destruct (mhas String.eqb d j); [|reflexivity]. apply (mget_put_neq _ str_eq). exact X.
Qed.
Lemma known_completes d kw : NoDup (map fst d) -> NoDup (map fst kw) -> completes d kw (replace_known d kw).
Proof.
  intros D N. split; [apply known_keys|]. split; intros k v I J; apply (mget_In _ str_eq); rewrite known_get; try assumption.
  - rewrite (mget_nodup _ str_eq _ _ _ N J). reflexivity.
  - assert (X : mget String.eqb kw k = None) by (apply (mget_none _ str_eq); exact I). rewrite X. apply (mget_nodup _ str_eq); assumption.
  - apply in_map_iff. exists (k, v). auto.
Qed.
Lemma known_unknown d kw : forall known, (forall k, In k (mkeys d) -> known k = true) ->
  replace_known d kw = replace_known d (filter (fun e => known (fst e)) kw).
Proof.
  intros known H. revert d H. induction kw as [|[k v] kw IH]; intros d H; [reflexivity|]. cbn [filter fst]. destruct (known k) eqn:E.
  - apply (IH (if mhas String.eqb d k then mput String.eqb d k v else d)). intros j J. apply H.
    destruct (mhas String.eqb d k) eqn:M; [|exact J]. rewrite (mput_keys_in _ str_eq) in J; [exact J|apply (mhas_in _ str_eq); exact M].
  - change (replace_known d ((k, v) :: kw)) with (replace_known (if mhas String.eqb d k then mput String.eqb d k v else d) kw). assert (M : mhas String.eqb d k = false).
    { destruct (mhas String.eqb d k) eqn:M; [|reflexivity]. apply (mhas_in _ str_eq) in M. rewrite (H _ M) in E. discriminate. }
    rewrite M. apply IH. exact H.
Qed.

Lemma ok_pair {A B} (a a' : A) (b b' : B) : Ok (a, b) = Ok (a', b') -> a' = a /\ b' = b.
Proof. intro H. injection H. auto. Qed.
Lemma some_pair {A B} (a a' : A) (b b' : B) : Some (a, b) = Some (a', b') -> a' = a /\ b' = b.
Proof. intro H. injection H. auto. Qed.

Fixpoint nodupb (l : list string) : bool := match l with [] => true | x :: l => negb (existsb (String.eqb x) l) && nodupb l end.
Lemma nodupb_ok l : nodupb l = true -> NoDup l.
Proof.
  induction l as [|x l IH]; cbn; [constructor|]. intro H. apply andb_true_iff in H as [A B]. constructor; [|apply IH; exact B].
  intro I. apply negb_true_iff in A. assert (X : existsb (String.eqb x) l = true) by (apply existsb_exists; exists x; split; [exact I|apply String.eqb_refl]). congruence.
Qed.

(** ** C93 *)

(** The arguments for LineCollection and scatter: the picture of C73, with the
    caller's own values for the names in the two tables.  Other names have no
    effect. *)
Theorem C93_arguments d layout lkw skw pos s : NoDup (map fst lkw) -> NoDup (map fst skw) ->
  match plot_args d layout lkw skw pos s with
  | Ok (L, Sc, s') => exists pic, lines_scatter_args d layout pos s = Ok (pic, s') /\
      completes [("segments", KSegments (pi_segments pic)); ("colors", KColors (pi_lines pic)); ("linewidths", KRow [1%Q]); ("antialiaseds", KRow [1%Q]);
        ("linestyle", KText "solid"); ("transOffset", KNone); ("cmap", KText "ocean_r"); ("pickradius", KInt 5); ("zorder", KInt 0);
        ("facecolors", KNone); ("norm", KNone); ("offsets", KNone); ("hatch", KNone)]%string lkw L /\
      completes [("x", KColumn (column 0 (pi_points pic))); ("y", KColumn (column 1 (pi_points pic))); ("s", KInt 50); ("c", KColors (pi_fills pic));
        ("alpha", KNone); ("norm", KNone); ("vmin", KNone); ("vmax", KNone); ("marker", KText "o"); ("zorder", KInt 2); ("linewidths", KInt 1);
        ("edgecolors", KColors (pi_borders pic)); ("facecolors", KNone); ("antialiaseds", KNone); ("hatch", KNone)]%string skw Sc
  | Err e => lines_scatter_args d layout pos s = Err e
  end.
Proof.
  intros NL NS. unfold plot_args. destruct (lines_scatter_args d layout pos s) as [[pic s']|e]; cbn [bind]; [|reflexivity]. exists pic. split; [reflexivity|].
  split; (apply known_completes; [apply nodupb_ok; vm_compute; reflexivity|assumption]).
Qed.
Print Assumptions C93_arguments.

Theorem C93_unknown d layout lkw skw pos s :
  plot_args d layout lkw skw pos s =
  plot_args d layout (filter (fun e => existsb (String.eqb (fst e)) ["segments"; "colors"; "linewidths"; "antialiaseds"; "linestyle"; "transOffset"; "cmap"; "pickradius"; "zorder"; "facecolors"; "norm"; "offsets"; "hatch"]%string) lkw)
    (filter (fun e => existsb (String.eqb (fst e)) ["x"; "y"; "s"; "c"; "alpha"; "norm"; "vmin"; "vmax"; "marker"; "zorder"; "linewidths"; "edgecolors"; "facecolors"; "antialiaseds"; "hatch"]%string) skw) pos s.
Proof.
  unfold plot_args. destruct (lines_scatter_args d layout pos s) as [[pic s']|e]; cbn [bind]; [|reflexivity]. do 3 f_equal.
  - apply (known_unknown _ _ (fun k => existsb (String.eqb k) ["segments"; "colors"; "linewidths"; "antialiaseds"; "linestyle"; "transOffset"; "cmap"; "pickradius"; "zorder"; "facecolors"; "norm"; "offsets"; "hatch"]%string)).
    intros k I. apply existsb_exists. exists k. split; [exact I|apply String.eqb_refl].
  - apply (known_unknown _ _ (fun k => existsb (String.eqb k) ["x"; "y"; "s"; "c"; "alpha"; "norm"; "vmin"; "vmax"; "marker"; "zorder"; "linewidths"; "edgecolors"; "facecolors"; "antialiaseds"; "hatch"]%string)).
    intros k I. apply existsb_exists. exists k. split; [exact I|apply String.eqb_refl].
Qed.
Print Assumptions C93_unknown.

(** A value the caller gave, or else [x]. *)
Definition asked (kw : kwargs) (k : string) (x v : kval) : Prop := In (k, v) kw \/ ~ In k (map fst kw) /\ v = x.

Lemma asked_get kw k x : NoDup (map fst kw) -> asked kw k x (kget_or kw k x).
Proof.
  intro N. unfold asked, kget_or, kget. destruct (mget String.eqb kw k) as [v|] eqn:E; [left; apply (mget_In _ str_eq); exact E|right].
  split; [apply (mget_none _ str_eq); exact E|reflexivity].
Qed.

(** [draw_graph]: the figure has the size and background asked for, shows what
    [lines_scatter_args] gives for the positions asked for, and goes to a file
    if and only if [fname] is given; the file is made with those options that
    are in the list SAVEFIG_KWARGS. *)
Theorem C93_draw d layout lkw skw kw s dr s' : NoDup (map fst kw) -> draw_graph d layout lkw skw kw s = Ok (dr, s') ->
  asked kw "figsize" (KRow [7; 7]%Q) (dr_figsize dr) /\ asked kw "bgcolor" (KRow [1; 1; 1; 1]%Q) (dr_face dr) /\
  (exists pos, plot_args d layout lkw skw pos s = Ok (dr_lines dr, dr_points dr, s') /\
    match pos with Some p => In ("pos"%string, KPlaces p) kw | None => asked kw "pos" KNone KNone end) /\
  (dr_file dr = None <-> ~ In "fname"%string (map fst kw)) /\
  (forall f opts, dr_file dr = Some (f, opts) -> In ("fname"%string, f) kw /\ forall k v, In (k, v) opts <-> In (k, v) kw /\
     In k ["dpi"; "facecolorw"; "edgecolorw"; "orientationportrait"; "papertype"; "format"; "transparent"; "bbox_inches"; "pad_inches"; "frameon"]%string).
Proof.
  intros N H. unfold draw_graph in H. destruct (pos_arg kw) as [pos|] eqn:P; cbn [bind] in H; [|discriminate].
  destruct (plot_args d layout lkw skw pos s) as [[args s1]|] eqn:A; cbn [bind] in H; [|discriminate]. apply ok_pair in H as [Q1 Q2]. subst dr s'.
  cbn [dr_figsize dr_face dr_lines dr_points dr_file]. split; [apply asked_get; exact N|]. split; [apply asked_get; exact N|]. split; [|split].
  - exists pos. split; [destruct args; exact A|]. unfold pos_arg, kget in P. destruct (mget String.eqb kw "pos"%string) as [v|] eqn:E.
    + apply (mget_In _ str_eq) in E. destruct v; try discriminate; injection P as <-; [left; exact E|exact E].
    + injection P as <-. right. split; [apply (mget_none _ str_eq); exact E|reflexivity].
  - unfold kget. destruct (mget String.eqb kw "fname"%string) as [v|] eqn:E.
    + split; [discriminate|]. intro X. exfalso. apply X. apply (mget_in _ str_eq). eauto.
    + split; [|reflexivity]. intros _. apply (mget_none _ str_eq). exact E.
  - intros f opts. unfold kget. destruct (mget String.eqb kw "fname"%string) as [v|] eqn:E; [|discriminate]. intro H.
    apply some_pair in H as [Q1 Q2]. subst f opts.
    split; [apply (mget_In _ str_eq); exact E|]. intros k v'. rewrite filter_In. cbn [fst]. rewrite existsb_exists.
    split; intros [I J]; (split; [exact I|]).
    + destruct J as (x & X & Y). apply str_eq in Y. subst x. exact X.
    + exists k. split; [exact J|apply String.eqb_refl].
Qed.
Print Assumptions C93_draw.

(** [draw] of a network has the background of the network instead. *)
Theorem C93_network d layout bg lkw skw kw s : NoDup (map fst kw) ->
  match draw_graph d layout lkw skw kw s with
  | Ok (dr, s') => exists v, asked kw "bgcolor" bg v /\ draw_network d layout bg lkw skw kw s = Ok (mkDrawing (dr_figsize dr) (dr_lines dr) (dr_points dr) v (dr_file dr), s')
  | Err e => draw_network d layout bg lkw skw kw s = Err e
  end.
Proof.
  intro N. unfold draw_network. destruct (mhas String.eqb kw "bgcolor"%string) eqn:M.
  - destruct (draw_graph d layout lkw skw kw s) as [[dr s']|] eqn:E; [|reflexivity]. exists (dr_face dr). split; [|destruct dr; reflexivity].
    destruct (C93_draw _ _ _ _ _ _ _ _ N E) as (_ & [X|[X _]] & _); [left; exact X|]. exfalso. apply X. apply (mhas_in _ str_eq). exact M.
  - assert (NI : ~ In "bgcolor"%string (map fst kw)) by (intro X; apply (mhas_in _ str_eq) in X; congruence).
    assert (G : forall k, k <> "bgcolor"%string -> kget (mput String.eqb kw "bgcolor"%string bg) k = kget kw k) by (intros k K; apply (mget_put_neq _ str_eq); congruence).
    unfold draw_graph, pos_arg, kget_or. rewrite (G "pos"%string), (G "figsize"%string), (G "fname"%string) by discriminate. destruct (match kget kw "pos" with Some (KPlaces p) => Ok (Some p) | Some KNone | None => Ok None | Some _ => Err TypeError end) as [pos|e]; cbn [bind]; [|reflexivity].
    destruct (plot_args d layout lkw skw pos s) as [[args s1]|e]; cbn [bind]; [|reflexivity]. exists bg. split; [right; auto|].
    cbn [dr_figsize dr_lines dr_points dr_file]. assert (B : kget (mput String.eqb kw "bgcolor"%string bg) "bgcolor" = Some bg) by apply (mget_put_eq _ str_eq).
    rewrite B. do 3 f_equal. destruct (kget kw "fname"); [|reflexivity]. do 2 f_equal.
    clear - NI. induction kw as [|[k v] kw IH]; [reflexivity|]. cbn [mput]. cbn in NI. destruct (String.eqb k "bgcolor") eqn:E; [apply str_eq in E; tauto|].
    cbn [filter fst]. rewrite IH by tauto. reflexivity.
Qed.
Print Assumptions C93_network.

(** [animate]: the arguments of FuncAnimation, and those of save, which is
    called if and only if [filename] is given. *)
Theorem C93_animation kw : NoDup (map fst kw) ->
  completes [("fargs", KNone); ("event_source", KNone); ("init_func", KNone); ("frames", KNone); ("blit", KBool false); ("interval", KInt 10);
   ("repeat", KNone); ("func", KUpdate); ("repeat_delay", KNone); ("fig", KFigure); ("save_count", KNone)]%string kw (fst (animation_calls kw)) /\
  (snd (animation_calls kw) = None <-> ~ In "filename"%string (map fst kw)) /\
  (forall r, snd (animation_calls kw) = Some r ->
    completes [("filename", KNone); ("writer", KNone); ("fps", KNone); ("dpi", KNone); ("codec", KNone); ("bitrate", KNone); ("extra_args", KNone);
      ("metadata", KNone); ("extra_anim", KNone); ("savefig_kwargs", KNone)]%string kw r).
Proof.
  intro N. unfold animation_calls. cbn [fst snd]. split; [apply known_completes; [apply nodupb_ok; vm_compute; reflexivity|exact N]|].
  destruct (mhas String.eqb kw "filename"%string) eqn:M.
  - split; [split; [discriminate|]; intro X; exfalso; apply X; apply (mhas_in _ str_eq); exact M|]. intros r H. injection H as <-.
    apply known_completes; [apply nodupb_ok; vm_compute; reflexivity|exact N].
  - split; [split; [|reflexivity]; intros _ X; apply (mhas_in _ str_eq) in X; congruence|discriminate].
Qed.
Print Assumptions C93_animation.

(** With the places [P] for vertices in order, the lines handed to matplotlib
    lead from place to place and the points are there. *)
Theorem C93_places d layout pos P lkw skw kw s : dwf d -> nodes_in_order d -> covers d pos P ->
  NoDup (map fst lkw) -> NoDup (map fst skw) -> NoDup (map fst kw) -> In ("pos"%string, KPlaces pos) kw ->
  ~ In "segments"%string (map fst lkw) -> ~ In "x"%string (map fst skw) -> ~ In "y"%string (map fst skw) ->
  exists dr s' segs xs ys, draw_graph d layout lkw skw kw s = Ok (dr, s') /\
    In ("segments"%string, KSegments segs) (dr_lines dr) /\ In ("x"%string, KColumn xs) (dr_points dr) /\ In ("y"%string, KColumn ys) (dr_points dr) /\
    (forall u v k, In ((u, v), k) (dg_index d) -> get segs k = Some (P u, P v)) /\
    (forall v x y, vertex (dg_g d) v -> P v = VNum [x; y] -> get xs v = Some x /\ get ys v = Some y).
Proof.
  intros W IO CV NL NS N IP SL SX SY. destruct (C73_picture_partial d layout pos P s W IO CV) as (pic & s' & E & _ & SG & _ & PT & _).
  assert (A := C93_arguments d layout lkw skw (Some pos) s NL NS). unfold draw_graph. assert (PA : pos_arg kw = Ok (Some pos)).
  { unfold pos_arg, kget. rewrite (mget_nodup _ str_eq _ _ _ N IP). reflexivity. }
  rewrite PA. cbn [bind]. destruct (plot_args d layout lkw skw (Some pos) s) as [[[L Sc] s1]|e]; [|congruence]. cbn [bind fst snd].
  destruct A as (pic' & E' & CL & CS). assert (pic' = pic) by congruence. subst pic'. do 2 eexists. exists (pi_segments pic), (column 0 (pi_points pic)), (column 1 (pi_points pic)).
  split; [reflexivity|]. cbn [dr_lines dr_points]. split; [apply CL; [exact SL|cbn; auto]|]. split; [apply CS; [exact SX|cbn; auto]|]. split; [apply CS; [exact SY|cbn; auto]|].
  split; [exact SG|]. intros v x y V Q. destruct (PT v V) as [X _]. unfold get in *. unfold column. rewrite !nth_error_map, X, Q. cbn. auto.
Qed.
Print Assumptions C93_places.

(** The documentation promises savefig all its options.  facecolor, edgecolor
    and orientation are written wrongly in the list: they are passed over. *)
Theorem C93_savefig_refuted : exists d layout kw s dr s' f opts, NoDup (map fst kw) /\ draw_graph d layout [] [] kw s = Ok (dr, s') /\
  dr_file dr = Some (f, opts) /\ In ("facecolor"%string, KUser 1) kw /\ In ("edgecolor"%string, KUser 2) kw /\ In ("orientation"%string, KUser 3) kw /\ opts = [("dpi"%string, KInt 300)].
Proof.
  exists d73, pos3, [("fname", KText "state.png"); ("facecolor", KUser 1); ("dpi", KInt 300); ("edgecolor", KUser 2); ("orientation", KUser 3)]%string, no_props. do 4 eexists.
  split; [apply nodupb_ok; vm_compute; reflexivity|]. split; [vm_compute; reflexivity|]. split; [reflexivity|]. cbn. auto 10.
Qed.
Print Assumptions C93_savefig_refuted.

(** LineCollection accepts alpha and label, but the lines are drawn without
    them; the points have an alpha.  The option vertex_size in the
    documentation of animate goes nowhere. *)
Theorem C93_options_refuted : exists d layout s L Sc s', plot_args d layout [("alpha", KUser 1); ("label", KUser 2)]%string [("alpha", KUser 1)]%string None s = Ok (L, Sc, s') /\
  ~ In "alpha"%string (map fst L) /\ ~ In "label"%string (map fst L) /\ In ("alpha"%string, KUser 1) Sc /\
  animation_calls [("vertex_size", KInt 15)]%string = animation_calls [].
Proof.
  exists d73, pos3, no_props. do 3 eexists. split; [vm_compute; reflexivity|]. cbn. split; [intuition discriminate|]. split; [intuition discriminate|]. split; [auto 8|vm_compute; reflexivity].
Qed.
Print Assumptions C93_options_refuted.

(** [draw(pos=..., fname='state.png', dpi=300, line_kwargs={'linestyle':
    'dashed', 'alpha': ...}, scatter_kwargs={'s': 40})] meets the conditions. *)
Definition kw93 : kwargs := [("fname", KText "state.png"); ("pos", KPlaces pos3); ("dpi", KInt 300); ("facecolor", KUser 1)]%string.
Definition lkw93 : kwargs := [("linestyle", KText "dashed"); ("alpha", KUser 1)]%string.
Definition skw93 : kwargs := [("s", KInt 40)]%string.
Example C93_example : dwf d73 /\ nodes_in_order d73 /\ covers d73 pos3 (fun v => nth v (map snd pos3) VNone) /\
  NoDup (map fst lkw93) /\ NoDup (map fst skw93) /\ NoDup (map fst kw93) /\ In ("pos"%string, KPlaces pos3) kw93 /\
  ~ In "segments"%string (map fst lkw93) /\ ~ In "x"%string (map fst skw93) /\ ~ In "y"%string (map fst skw93) /\
  exists dr s', draw_network d73 [] (KRow [0; 0; 0; 1]%Q) lkw93 skw93 kw93 no_props = Ok (dr, s') /\
    dr_figsize dr = KRow [7; 7]%Q /\ dr_face dr = KRow [0; 0; 0; 1]%Q /\ dr_file dr = Some (KText "state.png", [("dpi", KInt 300)])%string /\
    kget (dr_lines dr) "linestyle" = Some (KText "dashed") /\ kget (dr_lines dr) "alpha" = None /\ kget (dr_points dr) "s" = Some (KInt 40) /\
    kget (dr_points dr) "y" = Some (KColumn [Some 0; Some 0; Some 1]%Q).
Proof.
  destruct C73_ex as (A & B & C & _). repeat (split; [assumption|]). do 3 (split; [apply nodupb_ok; vm_compute; reflexivity|]). split; [cbn; auto|].
  do 3 (split; [cbn; intuition discriminate|]). do 2 eexists. split; [vm_compute; reflexivity|]. repeat split; vm_compute; reflexivity.
Qed.
Example C93_animation_example : let kw := [("filename", KText "test.mp4"); ("frames", KInt 300); ("fps", KInt 30); ("writer", KText "mencoder"); ("figsize", KRow [4; 4]%Q); ("vertex_size", KInt 15)]%string in
  NoDup (map fst kw) /\ kget (fst (animation_calls kw)) "frames" = Some (KInt 300) /\ exists r, snd (animation_calls kw) = Some r /\ kget r "fps" = Some (KInt 30) /\ kget r "dpi" = Some KNone.
Proof. split; [apply nodupb_ok; vm_compute; reflexivity|]. split; [vm_compute; reflexivity|]. eexists. split; [vm_compute; reflexivity|]. split; vm_compute; reflexivity. Qed.
