(** * UnionFindProofs: forests, ranks and the generated equivalence *)
From Coq Require Import List ZArith Bool Arith Lia Permutation.
From Verif Require Import Base Dict UnionFind SpecUF QueueEffects.
Import ListNotations.
Open Scope Z_scope.

Lemma neq_eq : forall x y, Nat.eqb x y = true <-> x = y.
Proof. intros. apply Nat.eqb_eq. Qed.

Notation mg d k := (mget Nat.eqb d k).
Lemma nget_Ok {V} (d : ndict V) k v : nget d k = Ok v <-> mg d k = Some v.
Proof. unfold nget. destruct (mg d k); cbn; split; congruence. Qed.
Lemma nput_eq {V} (d : ndict V) k v : mg (nput d k v) k = Some v.
Proof. apply mget_put_eq, neq_eq. Qed.
Lemma nput_neq {V} (d : ndict V) k v k' : k <> k' -> mg (nput d k v) k' = mg d k'.
Proof. apply mget_put_neq, neq_eq. Qed.
Lemma nput_keys {V} (d : ndict V) k v : In k (mkeys d) -> mkeys (nput d k v) = mkeys d.
Proof. apply mput_keys_in, neq_eq. Qed.
Lemma ng_in {V} (d : ndict V) k : (exists v, mg d k = Some v) <-> In k (mkeys d).
Proof. apply mget_in, neq_eq. Qed.

(** ** Forests *)

Inductive up (L : nat -> option nat) : nat -> nat -> Prop :=
| up_root r : L r = Some r -> up L r r
| up_step x y r : L x = Some y -> x <> y -> up L y r -> up L x r.

Lemma up_top L x r : up L x r -> L r = Some r.
Proof. induction 1; auto. Qed.
Lemma up_det L x r : up L x r -> forall r', up L x r' -> r = r'.
Proof.
  induction 1 as [r E|x y r E N U IH]; intros r' U'.
  - inversion U'; subst; congruence.
  - inversion U' as [? E'|? y' ? E' N' U'']; subst; [congruence|]. assert (y' = y) by congruence. subst. auto.
Qed.
Lemma up_dom L x r : up L x r -> exists y, L x = Some y.
Proof. destruct 1; eauto. Qed.

Definition rk (u : uf) (x : nat) : Z := match mg (uf_rank u) x with Some z => z | None => 0 end.
Definition ld (u : uf) (x : nat) : option nat := mg (uf_leader u) x.

Record forest (K : list nat) (u : uf) : Prop := {
  fo_nodup : NoDup K;
  fo_leader : mkeys (uf_leader u) = K;
  fo_size : mkeys (uf_size u) = K;
  fo_rank : mkeys (uf_rank u) = K;
  fo_closed : forall x y, ld u x = Some y -> In y K;
  fo_incr : forall x y, ld u x = Some y -> x <> y -> rk u x < rk u y
}.

Lemma fo_dom K u x : forest K u -> In x K <-> exists y, ld u x = Some y.
Proof. intro F. rewrite <- (fo_leader _ _ F). symmetry. apply ng_in. Qed.

Lemma climb_ok K u : forest K u -> forall fuel pset parent, In parent K -> NoDup pset ->
  (forall a, In a pset -> In a K /\ rk u a < rk u parent) -> (length K <= fuel + length pset)%nat ->
  exists path r, uf_climb fuel (uf_leader u) pset parent = Ok (pset ++ path, r) /\ up (ld u) parent r /\
    forall a, In a path -> up (ld u) a r /\ a <> r.
Proof.
  intros F. induction fuel as [|f IH]; intros pset parent IP ND PS FU; cbn [uf_climb].
  all: destruct (proj1 (fo_dom _ _ parent F) IP) as (p & E); assert (E1 := E); unfold ld in E1; apply nget_Ok in E1; rewrite E1; cbn [bind].
  all: destruct (Nat.eqb parent p) eqn:C; [apply Nat.eqb_eq in C; subst p; exists [], parent; rewrite app_nil_r;
    split; [reflexivity|]; split; [apply up_root; exact E|intros a []]|].
  all: apply Nat.eqb_neq in C; assert (N2 : NoDup (pset ++ [parent])) by
    (apply nodup_snoc; [exact ND|]; intro X; apply PS in X as [_ X]; lia).
  - exfalso. assert (L := NoDup_incl_length N2 (l' := K)). rewrite app_length in L. cbn in L.
    enough (length pset + 1 <= length K)%nat by lia. apply L. intros a X. apply in_app_or in X as [X|[<-|[]]]; [apply PS; exact X|exact IP].
  - assert (RI := fo_incr _ _ F _ _ E C).
    destruct (IH (pset ++ [parent]) p) as (path & r & H & U & PA).
    + eapply fo_closed; eauto.
    + exact N2.
    + intros a X. apply in_app_or in X as [X|[<-|[]]]; [destruct (PS a X); split; [assumption|lia]|split; [exact IP|exact RI]].
    + rewrite app_length. cbn. lia.
    + exists (parent :: path), r. rewrite <- app_assoc in H. split; [exact H|]. assert (UP : up (ld u) parent r) by (eapply up_step; eauto).
      split; [exact UP|]. intros a [<-|X]; [|apply PA; exact X]. split; [exact UP|].
      intros ->. apply up_top in UP. congruence.
Qed.

Lemma up_total K u x : forest K u -> In x K -> exists r, up (ld u) x r.
Proof.
  intros F X. destruct (proj1 (fo_dom _ _ x F) X) as (p & E).
  destruct (climb_ok K u F (length K) [] x X) as (path & r & _ & U & _); [constructor|intros a []|cbn; lia|eauto].
Qed.

Lemma compress_get r : forall pset (d : ndict nat) x,
  mg (fold_left (fun d a => nput d a r) pset d) x = if in_dec Nat.eq_dec x pset then Some r else mg d x.
Proof.
  induction pset as [|a pset IH]; intros d x; cbn [fold_left]; [destruct (in_dec Nat.eq_dec x []) as [[]|]; reflexivity|].
  rewrite IH. destruct (in_dec Nat.eq_dec x pset) as [Y|Y]; destruct (in_dec Nat.eq_dec x (a :: pset)) as [Z|Z]; auto.
  - exfalso. apply Z. right; exact Y.
  - destruct Z as [->|Z]; [apply nput_eq|contradiction].
  - apply nput_neq. intros ->. apply Z. left; reflexivity.
Qed.
Lemma compress_keys r : forall pset (d : ndict nat), (forall a, In a pset -> In a (mkeys d)) ->
  mkeys (fold_left (fun d a => nput d a r) pset d) = mkeys d.
Proof.
  induction pset as [|a pset IH]; intros d H; cbn [fold_left]; [reflexivity|].
  assert (E : mkeys (nput d a r) = mkeys d) by (apply nput_keys; apply H; left; reflexivity).
  rewrite IH; [exact E|]. intros b B. rewrite E. apply H. right; exact B.
Qed.

Lemma find_ok K u s : forest K u -> In s K -> exists r u', uf_find s u = Ok (r, u') /\ up (ld u) s r /\ forest K u' /\
  (forall x q, up (ld u) x q <-> up (ld u') x q) /\ uf_size u' = uf_size u /\ uf_rank u' = uf_rank u /\ uf_clusters u' = uf_clusters u.
Proof.
  intros F X. destruct (proj1 (fo_dom _ _ s F) X) as (p & E). unfold uf_find. assert (E1 := E). unfold ld in E1. apply nget_Ok in E1. rewrite E1. cbn [bind].
  assert (LK : length (uf_leader u) = length K) by (rewrite <- (fo_leader _ _ F); symmetry; apply map_length).
  assert (exists path r, uf_climb (length (uf_leader u)) (uf_leader u) [s] p = Ok ([s] ++ path, r) /\ up (ld u) s r /\
    (forall a, In a path -> up (ld u) a r /\ a <> r) /\ (path <> [] -> s <> r)) as (path & r & H & U & PA & SR).
  { destruct (Nat.eq_dec s p) as [<-|N].
    - exists [], s. split; [|split; [apply up_root; exact E|split; [intros a []|congruence]]].
      destruct (length (uf_leader u)); cbn [uf_climb]; rewrite E1; cbn [bind]; rewrite Nat.eqb_refl; reflexivity.
    - destruct (climb_ok K u F (length (uf_leader u)) [s] p) as (path & r & H & U & PA).
      + eapply fo_closed; eauto.
      + constructor; [intros []|constructor].
      + intros a [<-|[]]. split; [exact X|]. eapply fo_incr; eauto.
      + rewrite LK. cbn. lia.
      + exists path, r. assert (US : up (ld u) s r) by (eapply up_step; eauto). split; [exact H|]. split; [exact US|].
        split; [exact PA|]. intros _ ->. apply up_top in US. congruence. }
  rewrite H. cbn [bind]. exists r. eexists. split; [reflexivity|]. split; [exact U|].
  destruct (1 <? length ([s] ++ path))%nat eqn:C.
  2:{ destruct u as [a1 a2 a3 a4]. split; [exact F|]. split; [reflexivity|auto]. }
  apply Nat.ltb_lt in C. cbn in C. assert (NP : path <> []) by (destruct path; [cbn in C; lia|discriminate]).
  assert (AL : forall a, In a ([s] ++ path) -> up (ld u) a r /\ a <> r).
  { intros a A. apply in_app_or in A as [[<-|[]]|A]; [split; [exact U|apply SR; exact NP]|apply PA; exact A]. }
  set (pset := [s] ++ path) in *.
  set (u' := mkUf (fold_left (fun d a => nput d a r) pset (uf_leader u)) (uf_size u) (uf_rank u) (uf_clusters u)).
  assert (LD : forall x, ld u' x = if in_dec Nat.eq_dec x pset then Some r else ld u x) by (intro x; apply compress_get).
  assert (RT := up_top _ _ _ U).
  assert (NR : forall x, ld u x = Some x -> ~ In x pset).
  { intros x EX A. destruct (AL x A) as [UX NX]. apply NX. eapply up_det; [apply up_root; exact EX|exact UX]. }
  assert (INC : forall x q, up (ld u) x q -> x <> q -> rk u x < rk u q).
  { induction 1 as [q0 _|x y q0 E0 N0 U0 IH]; [congruence|]. intros _. assert (I0 := fo_incr _ _ F _ _ E0 N0).
    destruct (Nat.eq_dec y q0) as [<-|N1]; [exact I0|]. specialize (IH N1). lia. }
  assert (FW : forall x q, up (ld u) x q -> up (ld u') x q).
  { induction 1 as [q EQ|x y q EX NX UX IH].
    - apply up_root. rewrite LD. destruct (in_dec Nat.eq_dec q pset) as [A|A]; [exfalso; eapply NR; eauto|exact EQ].
    - destruct (in_dec Nat.eq_dec x pset) as [A|A] eqn:D.
      + destruct (AL x A) as [UA NA]. assert (q = r) by (eapply up_det; [eapply up_step; eauto|exact UA]). subst q.
        apply up_step with r; [rewrite LD, D; reflexivity|exact NA|]. apply up_root. rewrite LD.
        destruct (in_dec Nat.eq_dec r pset) as [B|B]; [reflexivity|exact RT].
      + apply up_step with y; [rewrite LD, D; exact EX|exact NX|exact IH]. }
  assert (KS : forall a, In a pset -> In a K) by (intros a A; destruct (AL a A) as [UA _]; apply up_dom in UA; apply (fo_dom _ _ a F); exact UA).
  assert (F' : forest K u').
  { split; [apply F| |apply F|apply F| |].
    - cbn [uf_leader u']. rewrite compress_keys; [apply F|]. rewrite (fo_leader _ _ F). exact KS.
    - intros x y EX. rewrite LD in EX. destruct (in_dec Nat.eq_dec x pset); [|eapply fo_closed; eauto].
      injection EX as <-. eapply fo_closed; eauto.
    - intros x y EX NX. change (rk u x < rk u y). rewrite LD in EX. destruct (in_dec Nat.eq_dec x pset) as [A|A]; [|eapply fo_incr; eauto].
      injection EX as <-. apply INC; [apply (AL x A)|exact NX]. }
  split; [exact F'|]. split; [|auto]. intros x q. split; [apply FW|]. intro U'.
  assert (XK : In x K) by (apply up_dom in U'; apply (fo_dom _ _ x F'); exact U').
  destruct (up_total _ _ _ F XK) as (q' & UQ). assert (q' = q) by (eapply up_det; [apply FW; exact UQ|exact U']). subst. exact UQ.
Qed.

(** ** The invariant *)

Record uinv (K : list nat) (ps : list (nat * nat)) (u : uf) : Prop := {
  un_forest : forest K u;
  un_conn : forall x y rx ry, up (ld u) x rx -> up (ld u) y ry -> (rx = ry <-> conn ps x y);
  un_size : forall r, ld u r = Some r -> exists l, NoDup l /\ (forall x, In x l <-> up (ld u) x r) /\ mg (uf_size u) r = Some (Z.of_nat (length l));
  un_count : exists l, NoDup l /\ (forall x, In x l <-> ld u x = Some x) /\ uf_clusters u = Z.of_nat (length l)
}.

Lemma conn_mono ps ps' x y : (forall p, In p ps -> In p ps') -> conn ps x y -> conn ps' x y.
Proof. intros I. induction 1; eauto using conn. Qed.

Lemma conn_snoc ps a b x y : conn (ps ++ [(a, b)]) x y <->
  conn ps x y \/ (conn ps x a /\ conn ps b y) \/ (conn ps x b /\ conn ps a y).
Proof.
  split.
  - induction 1 as [x|x y I|x y H IH|x y z H1 IH1 H2 IH2]; eauto 6 using conn.
    + apply in_app_or in I as [I|[I|[]]]; [left; constructor; exact I|]. injection I as <- <-. right. left. split; apply conn_refl.
    + destruct IH as [IH|[[A B]|[A B]]]; [left; apply conn_sym; exact IH|right; right; split; apply conn_sym; assumption|right; left; split; apply conn_sym; assumption].
    + destruct IH1 as [A|[[A B]|[A B]]], IH2 as [C|[[C D]|[C D]]].
      * left. eapply conn_trans; eassumption.
      * right; left. split; [eapply conn_trans; eassumption|exact D].
      * right; right. split; [eapply conn_trans; eassumption|exact D].
      * right; left. split; [exact A|eapply conn_trans; eassumption].
      * right; left. split; assumption.
      * left. eapply conn_trans; eassumption.
      * right; right. split; [exact A|eapply conn_trans; eassumption].
      * left. eapply conn_trans; eassumption.
      * right; right. split; assumption.
  - assert (M : forall x y, conn ps x y -> conn (ps ++ [(a, b)]) x y) by (intros; eapply conn_mono; [|eassumption]; intros; apply in_or_app; auto).
    assert (AB : conn (ps ++ [(a, b)]) a b) by (apply conn_pair; apply in_or_app; right; left; reflexivity).
    intros [H|[[A B]|[A B]]]; [apply M; exact H| |].
    + eapply conn_trans; [apply M; exact A|]. eapply conn_trans; [exact AB|apply M; exact B].
    + eapply conn_trans; [apply M; exact A|]. eapply conn_trans; [apply conn_sym; exact AB|apply M; exact B].
Qed.

(** Whatever keeps the roots keeps the invariant. *)
Lemma uinv_same K ps u u' : uinv K ps u -> forest K u' -> (forall x q, up (ld u) x q <-> up (ld u') x q) ->
  uf_size u' = uf_size u -> uf_clusters u' = uf_clusters u -> uinv K ps u'.
Proof.
  intros [F C Z N] F' UP ES EC.
  assert (RT : forall x, ld u x = Some x <-> ld u' x = Some x).
  { intro x. split; intro E; [assert (U := up_root _ _ E); apply UP in U; apply up_top in U; exact U|].
    assert (U := up_root _ _ E). apply UP in U. apply up_top in U. exact U. }
  split; [exact F'| | |].
  - intros x y rx ry UX UY. apply C; apply UP; assumption.
  - intros r E. apply RT in E. destruct (Z r E) as (l & A & B & D). exists l. split; [exact A|]. split; [intro x; rewrite B; apply UP|]. rewrite ES. exact D.
  - destruct N as (l & A & B & D). exists l. split; [exact A|]. split; [intro x; rewrite B; apply RT|]. rewrite EC. exact D.
Qed.

Lemma NoDup_app_intro {A} (l l' : list A) : NoDup l -> NoDup l' -> (forall x, In x l -> ~ In x l') -> NoDup (l ++ l').
Proof.
  induction 1 as [|x l NI ND IH]; intros ND' D; [exact ND'|]. cbn. constructor.
  - intro X. apply in_app_or in X as [X|X]; [contradiction|]. apply (D x); [left; reflexivity|exact X].
  - apply IH; [exact ND'|]. intros y Y. apply D. right; exact Y.
Qed.
Lemma remove_length {l : list nat} {x} : NoDup l -> In x l -> S (length (remove Nat.eq_dec x l)) = length l.
Proof.
  induction l as [|y l IH]; intros ND I; [destruct I|]. inversion ND as [|? ? NI ND']; subst. cbn.
  destruct (Nat.eq_dec x y) as [->|N].
  - rewrite notin_remove by exact NI. reflexivity.
  - cbn. rewrite IH; [reflexivity|exact ND'|destruct I as [->|I]; [congruence|exact I]].
Qed.
Lemma remove_nodup (l : list nat) x : NoDup l -> NoDup (remove Nat.eq_dec x l).
Proof.
  induction l as [|y l IH]; intro ND; [constructor|]. inversion ND as [|? ? NI ND']; subst. cbn.
  destruct (Nat.eq_dec x y); [auto|]. constructor; [|auto]. intro X. apply in_remove in X as [X _]. contradiction.
Qed.

Lemma link_ok K ps u a b s1 s2 : uinv K ps u -> up (ld u) a s1 -> up (ld u) b s2 -> s1 <> s2 ->
  exists u', uf_link s1 s2 u = Ok u' /\ uinv K (ps ++ [(a, b)]) u'.
Proof.
  intros [F C Z N] UA UB NE. assert (T1 := up_top _ _ _ UA). assert (T2 := up_top _ _ _ UB).
  assert (K1 : In s1 K) by (apply (fo_dom _ _ s1 F); eauto). assert (K2 : In s2 K) by (apply (fo_dom _ _ s2 F); eauto).
  assert (RK : forall s, In s K -> mg (uf_rank u) s = Some (rk u s)).
  { intros s IS. rewrite <- (fo_rank _ _ F) in IS. apply ng_in in IS as (v & E). unfold rk. rewrite E. reflexivity. }
  unfold uf_link. rewrite (proj2 (nget_Ok _ _ _) (RK _ K1)), (proj2 (nget_Ok _ _ _) (RK _ K2)). cbn [bind].
  (* the order of the two leaders does not matter *)
  assert (GEN : forall sa sb ra rb (sw : (sa = s1 /\ sb = s2) \/ (sa = s2 /\ sb = s1)), ra = rk u sa -> rb = rk u sb -> rb <= ra ->
    exists u', (let rank := if ra =? rb then nput (uf_rank u) sa (ra + 1) else uf_rank u in
      let* za := nget (uf_size u) sa in let* zb := nget (uf_size u) sb in
      Ok (mkUf (nput (uf_leader u) sb sa) (nput (uf_size u) sa (za + zb)) rank (uf_clusters u - 1))) = Ok u' /\ uinv K (ps ++ [(a, b)]) u').
  { intros sa sb ra rb SW -> -> LE.
    assert (TA : ld u sa = Some sa) by (destruct SW as [[-> ->]|[-> ->]]; assumption).
    assert (TB : ld u sb = Some sb) by (destruct SW as [[-> ->]|[-> ->]]; assumption).
    assert (KA : In sa K) by (destruct SW as [[-> ->]|[-> ->]]; assumption).
    assert (KB : In sb K) by (destruct SW as [[-> ->]|[-> ->]]; assumption).
    assert (NAB : sa <> sb) by (destruct SW as [[-> ->]|[-> ->]]; congruence).
    destruct (Z sa TA) as (la & NA & LA & ZA). destruct (Z sb TB) as (lb & NB & LB & ZB).
    cbv zeta. rewrite (proj2 (nget_Ok _ _ _) ZA), (proj2 (nget_Ok _ _ _) ZB). cbn [bind]. eexists. split; [reflexivity|].
    match goal with |- uinv _ _ ?x => set (u' := x) end.
    assert (LD : forall x, ld u' x = if Nat.eq_dec sb x then Some sa else ld u x).
    { intro x. unfold ld, u'. cbn [uf_leader]. destruct (Nat.eq_dec sb x) as [<-|NX]; [apply nput_eq|apply nput_neq; exact NX]. }
    assert (RI : forall x, rk u' x = if Nat.eq_dec sa x then (if rk u sa =? rk u sb then rk u sa + 1 else rk u sa) else rk u x).
    { intro x. unfold rk at 1, u'. cbn [uf_rank]. destruct (rk u sa =? rk u sb).
      - destruct (Nat.eq_dec sa x) as [<-|NX]; [rewrite nput_eq; reflexivity|rewrite nput_neq by exact NX; reflexivity].
      - destruct (Nat.eq_dec sa x) as [<-|NX]; reflexivity. }
    assert (F' : forest K u').
    { split; [apply F| | | | |].
      - cbn [uf_leader u']. rewrite nput_keys; [apply F|]. rewrite (fo_leader _ _ F). exact KB.
      - cbn [uf_size u']. rewrite nput_keys; [apply F|]. rewrite (fo_size _ _ F). exact KA.
      - cbn [uf_rank u']. destruct (rk u sa =? rk u sb); [|apply F]. rewrite nput_keys; [apply F|]. rewrite (fo_rank _ _ F). exact KA.
      - intros x y E. rewrite LD in E. destruct (Nat.eq_dec sb x); [injection E as <-; exact KA|eapply fo_closed; eauto].
      - intros x y E NX. rewrite LD in E. rewrite !RI. destruct (Nat.eq_dec sb x) as [<-|NB'].
        + injection E as <-. destruct (Nat.eq_dec sa sb) as [|_]; [congruence|]. destruct (Nat.eq_dec sa sa) as [_|]; [|congruence].
          destruct (rk u sa =? rk u sb) eqn:Q; [apply Z.eqb_eq in Q; lia|apply Z.eqb_neq in Q; lia].
        + destruct (Nat.eq_dec sa x) as [<-|NA']; [congruence|]. assert (I := fo_incr _ _ F _ _ E NX).
          destruct (Nat.eq_dec sa y) as [<-|_]; [|exact I]. destruct (rk u sa =? rk u sb); lia. }
    assert (FW : forall x q, up (ld u) x q -> up (ld u') x (if Nat.eq_dec q sb then sa else q)).
    { assert (TA' : ld u' sa = Some sa) by (rewrite LD; destruct (Nat.eq_dec sb sa); [congruence|exact TA]).
      induction 1 as [q EQ|x y q EX NX UX IH].
      - destruct (Nat.eq_dec q sb) as [->|NQ].
        + apply up_step with sa; [rewrite LD; destruct (Nat.eq_dec sb sb); congruence|congruence|apply up_root; exact TA'].
        + apply up_root. rewrite LD. destruct (Nat.eq_dec sb q); [congruence|exact EQ].
      - apply up_step with y; [|exact NX|exact IH]. rewrite LD. destruct (Nat.eq_dec sb x) as [<-|]; [congruence|exact EX]. }
    assert (BW : forall x q, up (ld u') x q -> exists p, up (ld u) x p /\ q = if Nat.eq_dec p sb then sa else p).
    { intros x q U'. assert (XK : In x K) by (apply (fo_dom _ _ x F'); eapply up_dom; exact U').
      destruct (up_total _ _ _ F XK) as (p & UP). exists p. split; [exact UP|]. eapply up_det; [exact U'|apply FW; exact UP]. }
    assert (AB : forall x y p q, up (ld u) x p -> up (ld u) y q ->
       ((if Nat.eq_dec p sb then sa else p) = (if Nat.eq_dec q sb then sa else q) <-> conn (ps ++ [(a, b)]) x y)).
    { intros x y p q UX UY. rewrite conn_snoc, <- (C _ _ _ _ UX UY), <- (C _ _ _ _ UX UA), <- (C _ _ _ _ UB UY), <- (C _ _ _ _ UX UB), <- (C _ _ _ _ UA UY).
      destruct SW as [[-> ->]|[-> ->]]; destruct (Nat.eq_dec p _), (Nat.eq_dec q _); subst; intuition congruence. }
    split; [exact F'| | |].
    - intros x y rx ry UX UY. apply BW in UX as (p & UX & ->). apply BW in UY as (q & UY & ->). apply AB; assumption.
    - intros r E. rewrite LD in E. destruct (Nat.eq_dec sb r) as [<-|NR]; [congruence|].
      destruct (Nat.eq_dec sa r) as [<-|NR2].
      + exists (la ++ lb). split; [|split].
        * apply NoDup_app_intro; [exact NA|exact NB|]. intros x X Y. apply LA in X. apply LB in Y. apply NAB. eapply up_det; eassumption.
        * intro x. rewrite in_app_iff, LA, LB. split.
          -- intros [X|X]; apply FW in X; [destruct (Nat.eq_dec sa sb); [congruence|exact X]|destruct (Nat.eq_dec sb sb); [exact X|congruence]].
          -- intro X. apply BW in X as (p & X & Y). destruct (Nat.eq_dec p sb) as [->|]; [right; exact X|left; congruence].
        * cbn [uf_size u']. rewrite nput_eq, app_length. f_equal. lia.
      + destruct (Z r E) as (l & A & B & D). exists l. split; [exact A|]. split.
        * intro x. rewrite B. split; intro X; [apply FW in X; destruct (Nat.eq_dec r sb); [congruence|exact X]|].
          apply BW in X as (p & X & Y). destruct (Nat.eq_dec p sb); [congruence|subst; exact X].
        * cbn [uf_size u']. rewrite nput_neq by exact NR2. exact D.
    - destruct N as (l & A & B & D). assert (IB : In sb l) by (apply B; exact TB). exists (remove Nat.eq_dec sb l).
      split; [apply remove_nodup; exact A|]. split.
      + intro x. rewrite LD. split.
        * intro X. apply in_remove in X as [X NX]. destruct (Nat.eq_dec sb x); [congruence|apply B; exact X].
        * intro E. destruct (Nat.eq_dec sb x) as [<-|NX]; [congruence|]. apply in_in_remove; [congruence|apply B; exact E].
      + cbn [uf_clusters u']. rewrite D. assert (Q := remove_length A IB). lia. }
  destruct (rk u s1 <? rk u s2) eqn:Q.
  - apply Z.ltb_lt in Q. apply GEN; auto; lia.
  - apply Z.ltb_ge in Q. apply GEN; auto; lia.
Qed.

Lemma union_ok K ps u a b : uinv K ps u -> In a K -> In b K -> exists u', uf_union a b u = Ok u' /\ uinv K (ps ++ [(a, b)]) u'.
Proof.
  intros I KA KB. unfold uf_union. destruct (find_ok _ _ _ (un_forest _ _ _ I) KA) as (s1 & u1 & E1 & U1 & F1 & S1 & Z1 & _ & N1).
  rewrite E1. cbn [bind]. assert (I1 := uinv_same _ _ _ _ I F1 S1 Z1 N1).
  destruct (find_ok _ _ _ F1 KB) as (s2 & u2 & E2 & U2 & F2 & S2 & Z2 & _ & N2). rewrite E2. cbn [bind].
  assert (I2 := uinv_same _ _ _ _ I1 F2 S2 Z2 N2). apply S1 in U1. apply S2 in U1. apply S2 in U2.
  destruct (Nat.eqb s1 s2) eqn:Q.
  - apply Nat.eqb_eq in Q. subst s2. exists u2. split; [reflexivity|]. destruct I2 as [F C Z N]. split; auto.
    intros x y rx ry UX UY. rewrite (C _ _ _ _ UX UY), conn_snoc. split; [auto|].
    assert (AB : conn ps a b) by (apply (C _ _ _ _ U1 U2); reflexivity).
    intros [H|[[A B]|[A B]]]; [exact H| |]; (eapply conn_trans; [exact A|]); (eapply conn_trans; [|exact B]); [exact AB|apply conn_sym; exact AB].
  - apply Nat.eqb_neq in Q. eapply link_ok; eassumption.
Qed.

Lemma new_inv l : uinv (mkeys (uf_leader (uf_new l))) [] (uf_new l).
Proof.
  set (K := mkeys (uf_leader (uf_new l))).
  assert (EQK : forall V (f : nat -> V), mkeys (mof Nat.eqb (map (fun s => (s, f s)) l)) = K).
  { intros V f. subst K. unfold uf_new. cbn [uf_leader].
    assert (G : forall V W (f : nat -> V) (g : nat -> W), mkeys (mof Nat.eqb (map (fun s => (s, f s)) l)) = mkeys (mof Nat.eqb (map (fun s => (s, g s)) l))).
    { clear. intros V W f g. induction l as [|x l IH] using rev_ind; [reflexivity|]. rewrite !map_app. cbn [map]. rewrite !mof_app. cbn [fst snd].
      rewrite !mput_keys. rewrite IH.
      assert (HE : forall A B (d : ndict A) (e : ndict B) k, mkeys d = mkeys e -> mhas Nat.eqb d k = mhas Nat.eqb e k).
      { intros A B d e k E. apply eq_true_iff_eq. rewrite !(mhas_in _ neq_eq), E. reflexivity. }
      rewrite (HE _ _ _ _ x IH). reflexivity. }
    apply G. }
  assert (NDK : NoDup K) by (apply mof_nodup; exact neq_eq).
  assert (IK : forall x, In x K <-> In x l).
  { intro x. subst K. cbn [uf_new uf_leader]. rewrite (mof_keys _ neq_eq), map_map. cbn [fst]. rewrite map_id. reflexivity. }
  assert (LD : forall x, In x K -> ld (uf_new l) x = Some x).
  { intros x X. unfold ld. cbn [uf_new uf_leader]. apply (mof_fun _ neq_eq _ (fun s => s)).
    - intros p P. apply in_map_iff in P as (s & <- & _). reflexivity.
    - rewrite map_map. cbn [fst]. rewrite map_id. apply IK; exact X. }
  assert (LI : forall x y, ld (uf_new l) x = Some y -> x = y /\ In x K).
  { intros x y E. assert (X : In x K) by (apply ng_in; exists y; exact E). rewrite LD in E by exact X. split; [congruence|exact X]. }
  assert (UP : forall x r, up (ld (uf_new l)) x r <-> x = r /\ In x K).
  { intros x r. split.
    - intro U. destruct U as [r E|x y r E N U]; [split; [reflexivity|eapply LI; exact E]|]. apply LI in E as [E _]. congruence.
    - intros [<- X]. apply up_root, LD, X. }
  split.
  - split; auto.
    + apply EQK.
    + apply EQK.
    + intros x y E. apply LI in E as [-> E]. exact E.
    + intros x y E N. apply LI in E as [E _]. congruence.
  - intros x y rx ry UX UY. apply UP in UX as [-> _]. apply UP in UY as [-> _]. split; [intros ->; apply conn_refl|].
    induction 1 as [x|x y []|x y _ IH|x y z _ IH1 _ IH2]; congruence.
  - intros r E. apply LI in E as [_ E]. exists [r]. split; [constructor; [intros []|constructor]|]. split.
    + intro x. rewrite UP. cbn. split; [intros [<-|[]]; auto|intros [-> _]; auto].
    + cbn [uf_new uf_size length]. apply (mof_fun _ neq_eq _ (fun _ => 1)).
      * intros p P. apply in_map_iff in P as (s & <- & _). reflexivity.
      * rewrite map_map. cbn [fst]. rewrite map_id. apply IK; exact E.
  - exists K. split; [exact NDK|]. split; [intro x; split; [apply LD|intro E; eapply LI; exact E]|].
    cbn [uf_new uf_clusters]. f_equal. symmetry. apply map_length.
Qed.

(** A call of [find] changes no later answer. *)
Lemma find_silent K u a c : forest K u -> In a K -> In c K -> exists ra ua rc uc uc',
  uf_find a u = Ok (ra, ua) /\ uf_find c u = Ok (rc, uc) /\ uf_find c ua = Ok (rc, uc').
Proof.
  intros F A C. destruct (find_ok _ _ _ F A) as (ra & ua & E1 & _ & F1 & S & _).
  destruct (find_ok _ _ _ F C) as (rc & uc & E2 & U2 & _). destruct (find_ok _ _ _ F1 C) as (rc' & uc' & E3 & U3 & _).
  apply S in U2. assert (rc = rc') by (eapply up_det; eassumption). subst. eauto 10.
Qed.

(** ** Histories *)

Lemma op_ok K ps u o : uinv K ps u -> uwithin K o -> exists u', run_uop o u = Ok u' /\ uinv K (ps ++ pairs [o]) u'.
Proof.
  intros I W. destruct o as [a b|a|a]; cbn [run_uop uwithin pairs flat_map app] in *.
  - apply union_ok; tauto.
  - destruct (find_ok _ _ _ (un_forest _ _ _ I) W) as (r & u1 & E & _ & F & S & Z & _ & N). rewrite E. cbn [bind]. exists u1. split; [reflexivity|].
    rewrite app_nil_r. eapply uinv_same; eassumption.
  - unfold uf_size_of. destruct (find_ok _ _ _ (un_forest _ _ _ I) W) as (r & u1 & E & U & F & S & Z & _ & N). rewrite E. cbn [bind].
    assert (I1 := uinv_same _ _ _ _ I F S Z N). apply S in U. apply up_top in U. destruct (un_size _ _ _ I1 _ U) as (l & _ & _ & ZR).
    rewrite (proj2 (nget_Ok _ _ _) ZR). cbn [bind]. exists u1. rewrite app_nil_r. auto.
Qed.

Lemma ops_ok K : forall l ps u, uinv K ps u -> Forall (uwithin K) l -> exists u', run_uops l u = Ok u' /\ uinv K (ps ++ pairs l) u'.
Proof.
  induction l as [|o l IH]; intros ps u I W; cbn [run_uops]; [exists u; cbn; rewrite app_nil_r; auto|].
  inversion W as [|? ? W1 W2]; subst. destruct (op_ok _ _ _ _ I W1) as (u1 & E & I1). rewrite E. cbn [bind].
  destruct (IH _ _ I1 W2) as (u' & E' & I'). exists u'. split; [exact E'|].
  replace (ps ++ pairs (o :: l)) with ((ps ++ pairs [o]) ++ pairs l); [exact I'|]. rewrite <- app_assoc. f_equal.
  unfold pairs. cbn. rewrite app_nil_r. reflexivity.
Qed.

Lemma uf_exact s l : Forall (uwithin s) l -> exists u, run_uops l (uf_new s) = Ok u /\
  (forall a b, In a s -> In b s -> exists ra rb ua ub, uf_find a u = Ok (ra, ua) /\ uf_find b u = Ok (rb, ub) /\
     (ra = rb <-> conn (pairs l) a b)) /\
  (forall a c, In a s -> In c s -> exists ra ua rc uc uc',
     uf_find a u = Ok (ra, ua) /\ uf_find c u = Ok (rc, uc) /\ uf_find c ua = Ok (rc, uc')) /\
  (forall a, In a s -> exists z u' c, uf_size_of a u = Ok (z, u') /\ class_of s (pairs l) a c /\ z = Z.of_nat (length c)) /\
  (exists c, one_of_each s (pairs l) c /\ uf_clusters u = Z.of_nat (length c)).
Proof.
  intro W. assert (I := new_inv s). set (K := mkeys (uf_leader (uf_new s))) in *.
  assert (IK : forall x, In x K <-> In x s).
  { intro x. subst K. cbn [uf_new uf_leader]. rewrite (mof_keys _ neq_eq), map_map. cbn [fst]. rewrite map_id. reflexivity. }
  clearbody K. destruct (ops_ok K l [] _ I) as (u & E & IU).
  { eapply Forall_impl; [|exact W]. intros [a b|a|a]; cbn [uwithin]; rewrite ?IK; tauto. }
  cbn [app] in IU. exists u. split; [exact E|]. assert (F := un_forest _ _ _ IU). split; [|split; [|split]].
  2:{ intros a c A B. apply IK in A, B. exact (find_silent K u a c F A B). }
  - intros a b A B. apply IK in A, B.
    destruct (find_ok _ _ _ F A) as (ra & ua & E1 & U1 & _). destruct (find_ok _ _ _ F B) as (rb & ub & E2 & U2 & _).
    exists ra, rb, ua, ub. split; [exact E1|]. split; [exact E2|]. apply (un_conn _ _ _ IU); assumption.
  - intros a A. apply IK in A. unfold uf_size_of. destruct (find_ok _ _ _ F A) as (r & u1 & E1 & U & F1 & S & Z & _ & N). rewrite E1. cbn [bind].
    assert (I1 := uinv_same _ _ _ _ IU F1 S Z N). apply S in U. assert (T := up_top _ _ _ U). destruct (un_size _ _ _ I1 _ T) as (c & C1 & C2 & ZR).
    rewrite (proj2 (nget_Ok _ _ _) ZR). cbn [bind]. do 3 eexists. split; [reflexivity|]. split; [|reflexivity].
    split; [exact C1|]. intro x. rewrite C2. split.
    + intro X. split; [apply IK; apply (fo_dom _ _ x F1); eapply up_dom; exact X|]. apply (un_conn _ _ _ I1 _ _ _ _ X U). reflexivity.
    + intros [X CX]. apply IK in X. destruct (up_total _ _ _ F1 X) as (q & UQ). apply (un_conn _ _ _ I1 _ _ _ _ UQ U) in CX. subst q. exact UQ.
  - destruct (un_count _ _ _ IU) as (c & C1 & C2 & C3). exists c. split; [|exact C3]. split; [exact C1|].
    split; [intros x X; apply C2 in X; apply IK; apply (fo_dom _ _ x F); eauto|]. split.
    + intros x X. apply IK in X. destruct (up_total _ _ _ F X) as (q & UQ). exists q. assert (T := up_top _ _ _ UQ). split; [apply C2; exact T|].
      apply (un_conn _ _ _ IU _ _ _ _ UQ (up_root _ _ T)). reflexivity.
    + intros r r' R R'. apply C2 in R, R'. apply (un_conn _ _ _ IU _ _ _ _ (up_root _ _ R) (up_root _ _ R')).
Qed.

(** ** Depth *)

(** A root of rank [k] has at least [2^k] elements below it. *)
Definition ranked (u : uf) : Prop :=
  (forall x, 0 <= rk u x) /\ forall r z, ld u r = Some r -> mg (uf_size u) r = Some z -> 2 ^ rk u r <= z.

Lemma new_ranked l : ranked (uf_new l).
Proof.
  assert (RK : forall x, rk (uf_new l) x = 0).
  { intro x. unfold rk. cbn [uf_new uf_rank]. destruct (mg _ x) as [v|] eqn:E; [|reflexivity].
    assert (X : In x (mkeys (mof Nat.eqb (map (fun s => (s, 0)) l)))) by (apply ng_in; eauto). rewrite (mof_keys _ neq_eq) in X.
    rewrite (mof_fun _ neq_eq _ (fun _ => 0)) in E; [congruence| |exact X]. intros p P. apply in_map_iff in P as (s & <- & _). reflexivity. }
  split; [intro x; rewrite RK; lia|]. intros r z _ Z. rewrite RK. cbn [uf_new uf_size] in Z.
  assert (I : In r (mkeys (mof Nat.eqb (map (fun s => (s, 1)) l)))) by (apply ng_in; eauto). rewrite (mof_keys _ neq_eq) in I.
  rewrite (mof_fun _ neq_eq _ (fun _ => 1)) in Z; [injection Z as <-; lia| |exact I]. intros p P. apply in_map_iff in P as (s & <- & _). reflexivity.
Qed.

Lemma ranked_same u u' : ranked u -> (forall x q, up (ld u) x q <-> up (ld u') x q) -> uf_size u' = uf_size u -> uf_rank u' = uf_rank u -> ranked u'.
Proof.
  intros [P R] U ES ER. split; [intro x; unfold rk; rewrite ER; apply P|]. intros r z T Z. unfold rk. rewrite ER. rewrite ES in Z. apply (R r z); [|exact Z].
  assert (X := up_root _ _ T). apply U in X. apply up_top in X. exact X.
Qed.

Lemma link_ranked K u s1 s2 u' : forest K u -> ranked u -> ld u s1 = Some s1 -> ld u s2 = Some s2 -> s1 <> s2 -> uf_link s1 s2 u = Ok u' -> ranked u'.
Proof.
  intros F [P R] T1 T2 NE E. unfold uf_link in E.
  assert (K1 : In s1 K) by (apply (fo_dom _ _ s1 F); eauto). assert (K2 : In s2 K) by (apply (fo_dom _ _ s2 F); eauto).
  assert (RK : forall s, In s K -> mg (uf_rank u) s = Some (rk u s)).
  { intros s IS. rewrite <- (fo_rank _ _ F) in IS. apply ng_in in IS as (v & X). unfold rk. rewrite X. reflexivity. }
  rewrite (proj2 (nget_Ok _ _ _) (RK _ K1)), (proj2 (nget_Ok _ _ _) (RK _ K2)) in E. cbn [bind] in E.
  assert (GEN : forall sa sb, ld u sa = Some sa -> ld u sb = Some sb -> sa <> sb -> rk u sb <= rk u sa ->
    (let rank := if rk u sa =? rk u sb then nput (uf_rank u) sa (rk u sa + 1) else uf_rank u in
      let* za := nget (uf_size u) sa in let* zb := nget (uf_size u) sb in
      Ok (mkUf (nput (uf_leader u) sb sa) (nput (uf_size u) sa (za + zb)) rank (uf_clusters u - 1))) = Ok u' -> ranked u').
  { clear E. intros sa sb TA TB NAB LE E. cbv zeta in E. unfold nget in E. destruct (mg (uf_size u) sa) as [za|] eqn:ZA; [|discriminate]. destruct (mg (uf_size u) sb) as [zb|] eqn:ZB; [|discriminate].
    cbn [of_option bind] in E. injection E as <-. assert (RA := R _ _ TA ZA). assert (RB := R _ _ TB ZB). assert (PA := P sa). assert (PB := P sb).
    match goal with |- ranked ?x => set (u' := x) end.
    assert (RI : forall x, rk u' x = if Nat.eq_dec sa x then (if rk u sa =? rk u sb then rk u sa + 1 else rk u sa) else rk u x).
    { intro x. unfold rk at 1, u'. cbn [uf_rank]. destruct (rk u sa =? rk u sb).
      - destruct (Nat.eq_dec sa x) as [<-|NX]; [rewrite nput_eq; reflexivity|rewrite nput_neq by exact NX; reflexivity].
      - destruct (Nat.eq_dec sa x) as [<-|NX]; reflexivity. }
    assert (B0 : 0 < 2 ^ rk u sb) by (apply Z.pow_pos_nonneg; lia).
    split.
    - intro x. rewrite RI. assert (X := P x). destruct (Nat.eq_dec sa x), (rk u sa =? rk u sb); lia.
    - intros r z T Z. rewrite RI. unfold ld, u' in T. cbn [uf_leader] in T. unfold u' in Z. cbn [uf_size] in Z. destruct (Nat.eq_dec sa r) as [<-|NX].
      + rewrite nput_eq in Z. injection Z as <-. destruct (Z.eqb_spec (rk u sa) (rk u sb)) as [Q|Q]; [|lia]. rewrite Z.pow_add_r by lia. rewrite Q in *. lia.
      + rewrite nput_neq in Z by exact NX. destruct (Nat.eq_dec sb r) as [<-|NB]; [rewrite nput_eq in T; congruence|]. rewrite nput_neq in T by exact NB. apply (R r z T Z). }
  destruct (rk u s1 <? rk u s2) eqn:Q; [apply Z.ltb_lt in Q|apply Z.ltb_ge in Q]; eapply GEN; try exact E; auto; lia.
Qed.

Lemma union_ranked K u a b u' : forest K u -> ranked u -> In a K -> In b K -> uf_union a b u = Ok u' -> ranked u'.
Proof.
  intros F R A B E. unfold uf_union in E. destruct (find_ok _ _ _ F A) as (s1 & u1 & E1 & U1 & F1 & S1 & Z1 & K1 & N1).
  rewrite E1 in E. cbn [bind] in E. destruct (find_ok _ _ _ F1 B) as (s2 & u2 & E2 & U2 & F2 & S2 & Z2 & K2 & N2). rewrite E2 in E. cbn [bind] in E.
  assert (R2 : ranked u2) by (eapply ranked_same; [eapply ranked_same; [exact R|exact S1|exact Z1|exact K1]|exact S2|exact Z2|exact K2]).
  destruct (Nat.eqb_spec s1 s2) as [Q|Q]; [injection E as <-; exact R2|]. eapply link_ranked; [exact F2|exact R2| | |exact Q|exact E].
  - apply S1 in U1. apply S2 in U1. eapply up_top. exact U1.
  - apply S2 in U2. eapply up_top. exact U2.
Qed.

Lemma ops_ranked K : forall l ps u u', uinv K ps u -> ranked u -> Forall (uwithin K) l -> run_uops l u = Ok u' -> ranked u'.
Proof.
  induction l as [|o l IH]; intros ps u u' I R W E; cbn [run_uops] in E; [injection E as <-; exact R|].
  inversion W as [|? ? W1 W2]; subst. destruct (op_ok _ _ _ _ I W1) as (u1 & E1 & I1). rewrite E1 in E. cbn [bind] in E. refine (IH _ u1 u' I1 _ W2 E).
  assert (F := un_forest _ _ _ I). destruct o as [a b|a|a]; cbn [run_uop uwithin] in *.
  - destruct W1 as [WA WB]. exact (union_ranked K u a b u1 F R WA WB E1).
  - destruct (find_ok _ _ _ F W1) as (r & u2 & E2 & U2 & F2 & S2 & Z2 & K2 & _). rewrite E2 in E1. cbn [bind] in E1. injection E1 as <-. eapply ranked_same; eauto.
  - unfold uf_size_of in E1. destruct (find_ok _ _ _ F W1) as (r & u2 & E2 & U2 & F2 & S2 & Z2 & K2 & _). rewrite E2 in E1. cbn [bind] in E1.
    unfold nget in E1. destruct (mg (uf_size u2) r); [|discriminate]. cbn [of_option bind] in E1. injection E1 as <-. eapply ranked_same; eauto.
Qed.

Lemma leader_in K u x y : forest K u -> In (x, y) (uf_leader u) <-> ld u x = Some y.
Proof.
  intro F. unfold ld. split; [|apply mget_In; exact neq_eq]. apply mget_nodup; [exact neq_eq|]. rewrite (fo_leader _ _ F). apply F.
Qed.
Lemma up_walk K u x r : forest K u -> up (ld u) x r -> exists n, walk u x r n /\ Z.of_nat n <= rk u r - rk u x.
Proof.
  intro F. induction 1 as [r E|x y r E N U (n & IH & L)].
  - exists 0%nat. split; [constructor|lia].
  - exists (S n). split; [eapply walk_up; [apply (leader_in _ _ _ _ F); exact E|exact N|exact IH]|]. assert (I := fo_incr _ _ F _ _ E N). lia.
Qed.
Lemma climb_walk : forall fuel L pset p ps r, uf_climb fuel L pset p = Ok (ps, r) -> exists path, ps = pset ++ path /\
  forall u x k, uf_leader u = L -> (forall x y, In (x, y) L <-> mg L x = Some y) -> walk u p x k -> x = r \/ In x path.
Proof.
  induction fuel as [|f IH]; intros L pset p ps r E; cbn [uf_climb] in E; unfold nget in E; destruct (mg L p) as [q|] eqn:G; try discriminate; cbn [of_option bind] in E;
    (destruct (Nat.eqb_spec p q) as [<-|N]; [injection E as <- <-; exists []; split; [symmetry; apply app_nil_r|]; intros u x k EL IN W; left; destruct W as [x|x y z n I NE W]; [reflexivity|]; rewrite EL in I; apply IN in I; congruence|]); [discriminate|].
  destruct (IH _ _ _ _ _ E) as (path & -> & H). exists (p :: path). rewrite <- app_assoc. split; [reflexivity|]. intros u x k EL IN W.
  destruct W as [x|x y z n I NE W]; [right; left; reflexivity|]. rewrite EL in I. apply IN in I. assert (y = q) by congruence. subst y. destruct (H u z n EL IN W) as [X|X]; [left; exact X|right; right; exact X].
Qed.
Lemma find_flat K u a r u' : forest K u -> In a K -> uf_find a u = Ok (r, u') -> forall x k, walk u a x k -> ld u' x = Some r.
Proof.
  intros F A E x k W. assert (E0 := E). destruct (find_ok _ _ _ F A) as (r0 & u0 & E1 & U & F1 & S & _). rewrite E in E1. injection E1 as <- <-.
  assert (T : ld u' r = Some r) by (apply S in U; eapply up_top; exact U).
  assert (IN : forall x y, In (x, y) (uf_leader u) <-> mg (uf_leader u) x = Some y) by (intros; apply (leader_in _ _ _ _ F)).
  unfold uf_find in E. destruct (nget (uf_leader u) a) as [p|] eqn:G; [|discriminate]. cbn [bind] in E.
  destruct (uf_climb (length (uf_leader u)) (uf_leader u) [a] p) as [[ps r1]|] eqn:C; [|discriminate]. cbn [bind] in E. injection E as Er Eu. subst r1.
  destruct (climb_walk _ _ _ _ _ _ C) as (path & -> & H). apply nget_Ok in G.
  assert (X : x = r \/ x = a \/ In x path).
  { destruct W as [x|x y z n I NE W]; [auto|]. apply IN in I. assert (y = p) by congruence. subst y. destruct (H u z n eq_refl IN W); auto. }
  destruct X as [->|X]; [exact T|]. rewrite <- Eu. unfold ld. cbn [uf_leader]. destruct path as [|b path].
  - cbn. destruct X as [->|[]]. destruct (H u p 0%nat eq_refl IN (walk_here _ _)) as [Q|[]]. congruence.
  - cbn [app length Nat.ltb Nat.leb]. rewrite compress_get. destruct (in_dec Nat.eq_dec x (a :: b :: path)) as [_|N]; [reflexivity|]. exfalso. apply N. destruct X as [->|X]; [left; reflexivity|right; exact X].
Qed.

Lemma uf_depth s l u a : Forall (uwithin s) l -> run_uops l (uf_new s) = Ok u -> In a s ->
  exists r n c u', walk u a r n /\ class_of s (pairs l) a c /\ (2 ^ n <= length c)%nat /\
    uf_find a u = Ok (r, u') /\ forall x k, walk u a x k -> In (x, r) (uf_leader u').
Proof.
  intros W E A. assert (I := new_inv s). set (K := mkeys (uf_leader (uf_new s))) in *.
  assert (IK : forall x, In x K <-> In x s).
  { intro x. subst K. cbn [uf_new uf_leader]. rewrite (mof_keys _ neq_eq), map_map. cbn [fst]. rewrite map_id. reflexivity. }
  clearbody K. assert (WK : Forall (uwithin K) l).
  { eapply Forall_impl; [|exact W]. intros [x y|x|x]; cbn [uwithin]; rewrite ?IK; tauto. }
  destruct (ops_ok K l [] _ I WK) as (u1 & E1 & IU). assert (u1 = u) by congruence. subst u1. cbn [app] in IU.
  assert (R := ops_ranked K l [] _ _ I (new_ranked s) WK E). assert (F := un_forest _ _ _ IU). apply IK in A.
  destruct (find_ok _ _ _ F A) as (r & u' & E2 & U & F' & S & _). destruct (up_walk _ _ _ _ F U) as (n & WN & L).
  assert (T := up_top _ _ _ U). destruct (un_size _ _ _ IU _ T) as (c & C1 & C2 & ZR). exists r, n, c, u'. split; [exact WN|]. split; [|split; [|split; [exact E2|]]].
  - split; [exact C1|]. intro x. rewrite C2. split.
    + intro X. split; [apply IK; apply (fo_dom _ _ x F); eapply up_dom; exact X|]. apply (un_conn _ _ _ IU _ _ _ _ X U). reflexivity.
    + intros [X CX]. apply IK in X. destruct (up_total _ _ _ F X) as (q & UQ). apply (un_conn _ _ _ IU _ _ _ _ UQ U) in CX. subst q. exact UQ.
  - destruct R as [P R]. assert (Z := R _ _ T ZR). assert (Pa := P a). assert (2 ^ Z.of_nat n <= 2 ^ rk u r) by (apply Z.pow_le_mono_r; lia).
    apply Nat2Z.inj_le. rewrite Nat2Z.inj_pow. change (Z.of_nat 2) with 2. lia.
  - intros x k X. apply (leader_in _ _ _ _ F'). eapply find_flat; [exact F|exact A|exact E2|exact X].
Qed.
