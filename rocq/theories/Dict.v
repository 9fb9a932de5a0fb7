(** * Dict: Python dictionaries as association lists in insertion order *)
From Coq Require Import List Bool Arith Lia Permutation.
Import ListNotations.

Section Dict.
  Context {K V : Type}.
  Variable eqb : K -> K -> bool.

  (** [d.get(k)] *)
  Fixpoint mget (d : list (K * V)) (k : K) : option V :=
    match d with
    | [] => None
    | (j, v) :: t => if eqb j k then Some v else mget t k
    end.

  (** [d[k] = v]: an existing key keeps its place. *)
  Fixpoint mput (d : list (K * V)) (k : K) (v : V) : list (K * V) :=
    match d with
    | [] => [(k, v)]
    | (j, w) :: t => if eqb j k then (j, v) :: t else (j, w) :: mput t k v
    end.

  (** [k in d] *)
  Definition mhas (d : list (K * V)) (k : K) : bool := match mget d k with Some _ => true | None => false end.
  Definition mkeys (d : list (K * V)) : list K := map fst d.

  (** [dict(pairs)] *)
  Definition mof (l : list (K * V)) : list (K * V) := fold_left (fun d p => mput d (fst p) (snd p)) l [].

  Hypothesis eqb_eq : forall x y, eqb x y = true <-> x = y.

  Lemma kq_refl x : eqb x x = true.
  Proof. apply eqb_eq; reflexivity. Qed.
  Lemma kq_neq x y : x <> y -> eqb x y = false.
  Proof. intro N. destruct (eqb x y) eqn:E; [apply eqb_eq in E; congruence|reflexivity]. Qed.
  Lemma kq_dec (x y : K) : x = y \/ x <> y.
  Proof. destruct (eqb x y) eqn:E; [left; apply eqb_eq; exact E|right; intros ->; rewrite kq_refl in E; discriminate]. Qed.

  Lemma mget_put_eq d k v : mget (mput d k v) k = Some v.
  Proof.
    induction d as [|[j w] d IH]; cbn; [rewrite kq_refl; reflexivity|]. destruct (eqb j k) eqn:E; cbn; rewrite E; [reflexivity|exact IH].
  Qed.
  Lemma mget_put_neq d k v k' : k <> k' -> mget (mput d k v) k' = mget d k'.
  Proof.
    intro N. induction d as [|[j w] d IH]; cbn; [rewrite kq_neq by exact N; reflexivity|].
    destruct (eqb j k) eqn:E; cbn; [|rewrite IH; reflexivity].
    apply eqb_eq in E. subst. rewrite kq_neq by exact N. reflexivity.
  Qed.

  Lemma mget_in d k : (exists v, mget d k = Some v) <-> In k (mkeys d).
  Proof.
    induction d as [|[j w] d IH]; cbn; [split; [intros (v & H); discriminate|intros []]|].
    destruct (eqb j k) eqn:E.
    - apply eqb_eq in E. subst. split; eauto.
    - rewrite IH. split; [auto|]. intros [->|H]; [rewrite kq_refl in E; discriminate|exact H].
  Qed.
  Lemma mget_none d k : mget d k = None <-> ~ In k (mkeys d).
  Proof.
    rewrite <- mget_in. destruct (mget d k); split; try congruence; [|intros _ (v & H); discriminate].
    intros N. exfalso. apply N. eauto.
  Qed.
  Lemma mhas_in d k : mhas d k = true <-> In k (mkeys d).
  Proof. unfold mhas. rewrite <- mget_in. destruct (mget d k); split; try congruence; eauto. intros (v & H); discriminate. Qed.

  Lemma mput_keys d k v : mkeys (mput d k v) = if mhas d k then mkeys d else mkeys d ++ [k].
  Proof.
    unfold mhas, mkeys. induction d as [|[j w] d IH]; cbn; [reflexivity|].
    destruct (eqb j k) eqn:E; cbn; [reflexivity|]. rewrite IH. destruct (mget d k); reflexivity.
  Qed.
  Lemma mput_keys_in d k v : In k (mkeys d) -> mkeys (mput d k v) = mkeys d.
  Proof. intro H. rewrite mput_keys. apply mhas_in in H. rewrite H. reflexivity. Qed.
  Lemma mput_keys_new d k v : ~ In k (mkeys d) -> mkeys (mput d k v) = mkeys d ++ [k].
  Proof. intro H. rewrite mput_keys. destruct (mhas d k) eqn:E; [apply mhas_in in E; contradiction|reflexivity]. Qed.
  Lemma mput_keys_iff d k v x : In x (mkeys (mput d k v)) <-> x = k \/ In x (mkeys d).
  Proof.
    rewrite mput_keys. destruct (mhas d k) eqn:E.
    - apply mhas_in in E. split; [auto|]. intros [->|H]; assumption.
    - rewrite in_app_iff. cbn. intuition congruence.
  Qed.

  Lemma nodup_snoc {A} (l : list A) x : NoDup l -> ~ In x l -> NoDup (l ++ [x]).
  Proof.
    intros N X. apply (Permutation_NoDup (l := x :: l)); [apply Permutation_cons_append|]. constructor; assumption.
  Qed.
  Lemma mput_nodup d k v : NoDup (mkeys d) -> NoDup (mkeys (mput d k v)).
  Proof.
    intro N. rewrite mput_keys. destruct (mhas d k) eqn:E; [exact N|]. apply nodup_snoc; [exact N|].
    intro X. apply mhas_in in X. congruence.
  Qed.

  (** In a dictionary a key occurs once. *)
  Lemma mget_nodup d k v : NoDup (mkeys d) -> In (k, v) d -> mget d k = Some v.
  Proof.
    induction d as [|[j w] d IH]; cbn; intros N H; [destruct H|]. inversion N as [|? ? NI N']; subst.
    destruct H as [H|H]; [injection H as -> ->; rewrite kq_refl; reflexivity|].
    rewrite kq_neq; [apply IH; assumption|]. intros ->. apply NI. apply in_map_iff. exists (k, v). auto.
  Qed.
  Lemma mget_In d k v : mget d k = Some v -> In (k, v) d.
  Proof.
    induction d as [|[j w] d IH]; cbn; [discriminate|]. destruct (eqb j k) eqn:E; intro H; [|right; auto].
    apply eqb_eq in E. injection H as ->. left; congruence.
  Qed.

  Lemma mput_length d k v : In k (mkeys d) -> length (mput d k v) = length d.
  Proof. intro H. rewrite <- (map_length fst (mput d k v)). fold (mkeys (mput d k v)). rewrite mput_keys_in by exact H. apply map_length. Qed.

  (** [mof]: every key once; the last pair with a key counts. *)
  Lemma mof_app l p : mof (l ++ [p]) = mput (mof l) (fst p) (snd p).
  Proof. unfold mof. rewrite fold_left_app. reflexivity. Qed.
  Lemma mof_keys l k : In k (mkeys (mof l)) <-> In k (map fst l).
  Proof.
    induction l as [|p l IH] using rev_ind; [reflexivity|]. rewrite mof_app, mput_keys_iff, map_app, in_app_iff, IH. cbn. intuition congruence.
  Qed.
  Lemma mof_nodup l : NoDup (mkeys (mof l)).
  Proof. induction l as [|p l IH] using rev_ind; [constructor|]. rewrite mof_app. apply mput_nodup; exact IH. Qed.
  Lemma mof_const l v : (forall p, In p l -> snd p = v) -> forall k, In k (map fst l) -> mget (mof l) k = Some v.
  Proof.
    induction l as [|p l IH] using rev_ind; intros C k H; [destruct H|]. rewrite mof_app.
    destruct (kq_dec (fst p) k) as [->|N].
    - rewrite mget_put_eq. f_equal. apply C. apply in_or_app. right; left; reflexivity.
    - rewrite mget_put_neq by exact N. apply IH; [intros q Q; apply C; apply in_or_app; left; exact Q|].
      rewrite map_app, in_app_iff in H. destruct H as [H|[H|[]]]; [exact H|contradiction].
  Qed.
  Lemma mof_fun l (f : K -> V) : (forall p, In p l -> snd p = f (fst p)) -> forall k, In k (map fst l) -> mget (mof l) k = Some (f k).
  Proof.
    induction l as [|p l IH] using rev_ind; intros C k H; [destruct H|]. rewrite mof_app.
    destruct (kq_dec (fst p) k) as [<-|N].
    - rewrite mget_put_eq. f_equal. apply C. apply in_or_app. right; left; reflexivity.
    - rewrite mget_put_neq by exact N. apply IH; [intros q Q; apply C; apply in_or_app; left; exact Q|].
      rewrite map_app, in_app_iff in H. destruct H as [H|[H|[]]]; [exact H|contradiction].
  Qed.
End Dict.
