(** * Portions: loops that are interrupted and carried on *)
From Coq Require Import List ZArith Bool Arith Lia.
From Verif Require Import Base Queue SpecQueue QueueEvents QueueClaims2 Network SpecNet NetSteps NetActive NetStop.
Import ListNotations.
Open Scope Z_scope.

Section Loop.
  Context {A : Type} (step : A -> res A).
  Fixpoint loop (fuel : nat) (go : A -> bool) (a : A) : option (res A) :=
    if go a then
      match fuel with
      | O => None
      | S f => match step a with Err e => Some (Err e) | Ok b => loop f go b end
      end
    else Some (Ok a).
  Fixpoint steps_of (k : nat) (a : A) : res A :=
    match k with O => Ok a | S k => match step a with Ok b => steps_of k b | Err e => Err e end end.

  Lemma loop_stop f go a : go a = false -> loop f go a = Some (Ok a).
  Proof. intro H. destruct f; cbn; rewrite H; reflexivity. Qed.
  Lemma loop_ended go : forall f a b, loop f go a = Some (Ok b) -> go b = false.
  Proof.
    induction f as [|f IH]; intros a b H; cbn in H; destruct (go a) eqn:E; try discriminate; try (injection H as <-; exact E).
    destruct (step a); [eauto|discriminate].
  Qed.
  Lemma loop_more go r g : forall f a, loop f go a = Some r -> loop (g + f) go a = Some r.
  Proof.
    induction f as [|f IH]; intros a H; cbn in H; destruct (go a) eqn:E; try discriminate; try (rewrite loop_stop by exact E; exact H).
    rewrite Nat.add_succ_r. cbn. rewrite E. destruct (step a); [apply IH; exact H|exact H].
  Qed.
  Lemma loop_det go f f' a r r' : loop f go a = Some r -> loop f' go a = Some r' -> r = r'.
  Proof. intros H H'. apply (loop_more go r f') in H. apply (loop_more go r' f) in H'. rewrite Nat.add_comm in H. congruence. Qed.
  Lemma loop_then go1 go2 f2 r : (forall x, go1 x = true -> go2 x = true) -> forall f1 a b,
    loop f1 go1 a = Some (Ok b) -> loop f2 go2 b = Some r -> loop (f1 + f2) go2 a = Some r.
  Proof.
    intro I. induction f1 as [|f1 IH]; intros a b H1 H2; cbn in H1; destruct (go1 a) eqn:E; try discriminate.
    - injection H1 as <-. exact H2.
    - cbn. rewrite (I _ E). destruct (step a); [eauto|discriminate].
    - injection H1 as <-. apply loop_more. exact H2.
  Qed.
  Lemma loop_split go1 go2 : (forall x, go1 x = true -> go2 x = true) -> forall f a r, loop f go2 a = Some r ->
    exists r1, loop f go1 a = Some r1 /\ match r1 with Ok b => loop f go2 b = Some r | Err e => r = Err e end.
  Proof.
    intro I. induction f as [|f IH]; intros a r H.
    - cbn in H. destruct (go2 a) eqn:E; [discriminate|]. exists (Ok a). assert (E1 : go1 a = false) by (destruct (go1 a) eqn:G; [apply I in G; congruence|reflexivity]).
      cbn. rewrite E1, E. auto.
    - destruct (go1 a) eqn:E1; [|exists (Ok a); split; [apply loop_stop; exact E1|exact H]]. cbn in H. rewrite (I _ E1) in H. cbn [loop]. rewrite E1.
      destruct (step a) as [b|e]; [|injection H as <-; exists (Err e); auto]. destruct (IH _ _ H) as (r1 & X & Y). exists r1. split; [exact X|].
      destruct r1 as [c|e]; [|exact Y]. apply (loop_more go2 r 1). exact Y.
  Qed.
  Lemma loop_ext go1 go2 : (forall x, go1 x = go2 x) -> forall f a, loop f go1 a = loop f go2 a.
  Proof. intro E. induction f as [|f IH]; intro a; cbn; rewrite E; [reflexivity|]. destruct (go2 a); [|reflexivity]. destruct (step a); [apply IH|reflexivity]. Qed.
  Lemma loop_steps go : forall f a b, loop f go a = Some (Ok b) -> exists k, steps_of k a = Ok b.
  Proof.
    induction f as [|f IH]; intros a b H; cbn in H; destruct (go a) eqn:E; try discriminate; try (injection H as <-; exists 0%nat; reflexivity).
    destruct (step a) as [c|] eqn:ST; [|discriminate]. destruct (IH _ _ H) as (k & K). exists (S k). cbn. rewrite ST. exact K.
  Qed.
  (** One run up to [go1], another up to [go2] that goes at least as far as
      one run up to [go3]. *)
  Lemma loop_portions go1 go2 go3 f1 f2 a b c :
    (forall x, go1 x = true -> go2 x = true) -> (forall x, go3 x = true -> go2 x = true) ->
    loop f1 go1 a = Some (Ok b) -> loop f2 go2 b = Some (Ok c) ->
    exists d, loop (f1 + f2) go3 a = Some (Ok d) /\ loop (f1 + f2) go2 d = Some (Ok c).
  Proof.
    intros I J H1 H2. assert (H := loop_then go1 go2 f2 _ I f1 a b H1 H2). destruct (loop_split go3 go2 J _ _ _ H) as (r1 & X & Y).
    destruct r1 as [d|e]; [|discriminate]. exists d. auto.
  Qed.
End Loop.

Definition qstep (q : queue) : res queue := let* (_, q') := next_event q in Ok q'.
Lemma while_loop c : forall f q, simulate_while f c q = loop qstep f (fun q => c q && eltb (q_time q) Inf) q.
Proof.
  induction f as [|f IH]; intro q; cbn; [reflexivity|]. destruct (c q && eltb (q_time q) Inf); [|reflexivity]. unfold qstep.
  destruct (next_event q) as [[r q']|]; cbn; [apply IH|reflexivity].
Qed.
Lemma nwhile_loop stop : forall f n, net_simulate_while f stop n = loop simulate_event f (fun n => eltb (nt_t n) stop) n.
Proof. induction f as [|f IH]; intro n; cbn; [reflexivity|]. destruct (eltb (nt_t n) stop); [|reflexivity]. destruct (simulate_event n); [apply IH|reflexivity]. Qed.
Lemma steps_runs : forall k n, steps_of simulate_event k n = nruns k n.
Proof. induction k as [|k IH]; intro n; cbn; [reflexivity|]. destruct (simulate_event n); cbn; auto. Qed.
Lemma steps_qruns : forall k q, steps_of qstep k q = simulate_n k q.
Proof. induction k as [|k IH]; intro q; cbn; [reflexivity|]. unfold qstep. destruct (next_event q) as [[r q']|]; cbn; auto. Qed.

(** ** One queue *)

Lemma qportions_n a : forall b q, simulate_n (a + b) q = bind (simulate_n a q) (simulate_n b).
Proof. induction a as [|a IH]; intros b q; cbn; [reflexivity|]. destruct (next_event q) as [[r q']|]; cbn; [apply IH|reflexivity]. Qed.

Lemma qportions c1 c2 c3 f1 f2 q q1 q2 :
  (forall x, c1 x = true -> c2 x = true) -> (forall x, c3 x = true -> c2 x = true) ->
  simulate_while f1 c1 q = Some (Ok q1) -> simulate_while f2 c2 q1 = Some (Ok q2) ->
  exists q', simulate_while (f1 + f2) c3 q = Some (Ok q') /\ simulate_while (f1 + f2) c2 q' = Some (Ok q2).
Proof.
  intros I J H1 H2. rewrite while_loop in H1, H2. destruct (loop_portions qstep (fun q => c1 q && eltb (q_time q) Inf) (fun q => c2 q && eltb (q_time q) Inf) (fun q => c3 q && eltb (q_time q) Inf) f1 f2 q q1 q2) as (d & X & Y).
  - intros x H. apply andb_true_iff in H as [A B]. apply andb_true_iff. auto.
  - intros x H. apply andb_true_iff in H as [A B]. apply andb_true_iff. auto.
  - exact H1.
  - exact H2.
  - exists d. rewrite !while_loop. auto.
Qed.
Lemma qwhile_ext c1 c2 f q : (forall x, c1 x = c2 x) -> simulate_while f c1 q = simulate_while f c2 q.
Proof. intro E. rewrite !while_loop. apply loop_ext. intro x. rewrite E. reflexivity. Qed.
Lemma qwhile_then c1 c2 f1 f2 q q1 r : (forall x, c1 x = true -> c2 x = true) ->
  simulate_while f1 c1 q = Some (Ok q1) -> simulate_while f2 c2 q1 = Some r -> simulate_while (f1 + f2) c2 q = Some r.
Proof.
  intros I. rewrite !while_loop. apply loop_then. intros x H. apply andb_true_iff in H as [A B]. apply andb_true_iff. auto.
Qed.
Lemma qwhile_idle c f q : q_time q = Inf -> simulate_while f c q = Some (Ok q).
Proof. intro H. rewrite while_loop. apply loop_stop. rewrite H, andb_false_r. reflexivity. Qed.
Lemma qwhile_steps c f q q' : simulate_while f c q = Some (Ok q') -> exists k, simulate_n k q = Ok q'.
Proof. rewrite while_loop. intro H. apply loop_steps in H as (k & K). exists k. rewrite <- steps_qruns. exact K. Qed.

Lemma qportions_nD c s col n q f1 f2 a b q1 q2 : reach anything (new_queue c s col n) q -> 0 <= a -> 0 <= b ->
  simulate_nD f1 a q = Some (Ok q1) -> simulate_nD f2 b q1 = Some (Ok q2) -> simulate_nD (f1 + f2) (a + b) q = Some (Ok q2).
Proof.
  intros R A B H1 H2. assert (X := simulate_nD_exact _ _ _ _ _ _ _ _ R A H1). unfold simulate_nD in *.
  eapply qwhile_then; [|exact H1|].
  - cbv beta. intros x L. apply Z.ltb_lt in L. apply Z.ltb_lt. lia.
  - destruct X as [X|[X _]].
    + rewrite <- H2. apply qwhile_ext. intro x. rewrite X. f_equal. lia.
    + rewrite (qwhile_idle _ f2 q1 X) in H2. rewrite (qwhile_idle _ f2 q1 X). exact H2.
Qed.
Lemma qportions_nA c s col n q f1 f2 a b q1 q2 : reach anything (new_queue c s col n) q -> 0 <= a -> 0 <= b ->
  simulate_nA f1 a q = Some (Ok q1) -> simulate_nA f2 b q1 = Some (Ok q2) -> simulate_nA (f1 + f2) (a + b) q = Some (Ok q2).
Proof.
  intros R A B H1 H2. assert (X := simulate_nA_exact _ _ _ _ _ _ _ _ R A H1). unfold simulate_nA in *.
  eapply qwhile_then; [|exact H1|].
  - cbv beta. intros x L. apply Z.ltb_lt in L. apply Z.ltb_lt. lia.
  - destruct X as [X|[X _]].
    + rewrite <- H2. apply qwhile_ext. intro x. rewrite X. f_equal. lia.
    + rewrite (qwhile_idle _ f2 q1 X) in H2. rewrite (qwhile_idle _ f2 q1 X). exact H2.
Qed.

Lemma eltb_le_trans a b c : eltb a b = true -> eLe b c -> eltb a c = true.
Proof. intros H L. apply eltb_lt. apply eltb_lt in H. destruct a, b, c; cbn in *; try tauto; lia. Qed.
Lemma eadd_sub a b c d : eLe (eadd a b) c -> eLe (eadd a (eadd b d)) (eadd c d).
Proof. destruct a, b, c, d; cbn; try tauto; lia. Qed.
Lemma eadd_more a b : eLe (Fin 0) b -> eLe a (eadd a b).
Proof. destruct a, b; cbn; try tauto; lia. Qed.
Lemma eadd_assoc a b c : eadd a (eadd b c) = eadd (eadd a b) c.
Proof. destruct a, b, c; cbn; try reflexivity. f_equal. lia. Qed.

Lemma qended f T q q1 : simulate_while f (fun x => eltb (q_now x) T) q = Some (Ok q1) -> eLe T (q_now q1) \/ q_time q1 = Inf.
Proof.
  rewrite while_loop. intro H. apply loop_ended in H. apply andb_false_iff in H as [H|H]; apply eltb_ge in H; [left; exact H|right].
  destruct (q_time q1); cbn in H; [contradiction|reflexivity].
Qed.
Lemma qportions_t q f1 f2 a b q1 q2 : eLe (Fin 0) b ->
  simulate_t f1 a q = Some (Ok q1) -> simulate_t f2 b q1 = Some (Ok q2) ->
  exists q' k, simulate_t (f1 + f2) (eadd a b) q = Some (Ok q') /\ simulate_n k q' = Ok q2 /\
    (q_now q1 = eadd (q_now q) a \/ q_time q1 = Inf -> q' = q2).
Proof.
  intros B H1 H2. unfold simulate_t in *. assert (W : forall x, eltb (q_now x) (eadd (q_now q) a) = true -> eltb (q_now x) (eadd (q_now q) (eadd a b)) = true).
  { intros x L. apply (eltb_le_trans _ _ _ L). rewrite eadd_assoc. apply eadd_more. exact B. }
  destruct (q_time q1) as [z|] eqn:T.
  - destruct (qended _ _ _ _ H1) as [E|E]; [|congruence].
    destruct (qportions _ _ (fun x => eltb (q_now x) (eadd (q_now q) (eadd a b))) _ _ _ _ _ (fun x L => eltb_le_trans _ _ (eadd (q_now q1) b) L (eLe_trans _ _ _ E (eadd_more _ _ B)))
      (fun x L => eltb_le_trans _ _ (eadd (q_now q1) b) L (eadd_sub _ _ _ b E)) H1 H2) as (q' & X & Y).
    destruct (qwhile_steps _ _ _ _ Y) as (k & K). exists q', k. split; [exact X|]. split; [exact K|]. intros [Q|Q]; [|discriminate].
    assert (X2 := qwhile_then _ _ _ _ _ _ _ W H1 (eq_trans (qwhile_ext (fun x => eltb (q_now x) (eadd (q_now q) (eadd a b))) (fun x => eltb (q_now x) (eadd (q_now q1) b)) f2 q1 (fun x => f_equal (eltb (q_now x)) (eq_trans (eadd_assoc _ _ _) (f_equal (fun y => eadd y b) (eq_sym Q))))) H2)).
    congruence.
  - rewrite (qwhile_idle _ f2 q1 T) in H2. injection H2 as <-. exists q1, 0%nat. split; [|split; [reflexivity|reflexivity]].
    apply (qwhile_then _ _ _ _ _ _ _ W H1). apply qwhile_idle. exact T.
Qed.
Lemma qportions_clock q f1 f2 a b c q1 q2 : eadd (q_now q1) b = eadd (q_now q) c -> eLe (eadd (q_now q) a) (eadd (q_now q) c) ->
  simulate_t f1 a q = Some (Ok q1) -> simulate_t f2 b q1 = Some (Ok q2) -> simulate_t (f1 + f2) c q = Some (Ok q2).
Proof.
  intros E L H1 H2. unfold simulate_t in *. refine (qwhile_then _ _ _ _ _ _ _ _ H1 _).
  - intros x X. exact (eltb_le_trans _ _ _ X L).
  - rewrite <- E. exact H2.
Qed.
Lemma qcut q f a c q2 : eLe (eadd (q_now q) a) (eadd (q_now q) c) -> simulate_t f c q = Some (Ok q2) ->
  exists q1, simulate_t f a q = Some (Ok q1) /\ forall b, eadd (q_now q1) b = eadd (q_now q) c -> simulate_t f b q1 = Some (Ok q2).
Proof.
  intros L H. unfold simulate_t in *. rewrite while_loop in H.
  destruct (loop_split qstep (fun x => eltb (q_now x) (eadd (q_now q) a) && eltb (q_time x) Inf) (fun x => eltb (q_now x) (eadd (q_now q) c) && eltb (q_time x) Inf)) with (f := f) (a := q) (r := Ok q2) as (r & X & Y).
  - intros x G. apply andb_true_iff in G as [G1 G2]. apply andb_true_iff. split; [exact (eltb_le_trans _ _ _ G1 L)|exact G2].
  - exact H.
  - destruct r as [q1|]; [|discriminate]. exists q1. rewrite while_loop. split; [exact X|]. intros b B. rewrite while_loop, B. exact Y.
Qed.

(** ** Networks *)

Lemma event_init n n' : simulate_event n = Ok n' -> nt_init n' = nt_init n.
Proof. intro H. exact (call_init (KOp NSim) n n' H). Qed.
Lemma loop_init go : forall f n n', loop simulate_event f go n = Some (Ok n') -> nt_init n' = nt_init n.
Proof.
  induction f as [|f IH]; intros n n' H; cbn in H; destruct (go n) eqn:E; try discriminate; try (injection H as <-; reflexivity).
  destruct (simulate_event n) as [m|] eqn:S; [|discriminate]. rewrite <- (event_init _ _ S). eauto.
Qed.
Lemma nportions_n : forall a b n, simulate_events (a + b) n = bind (simulate_events a n) (simulate_events b).
Proof.
  intros a b n. unfold simulate_events. destruct (nt_init n) eqn:I; [|reflexivity]. revert n I. induction a as [|a IH]; intros n I; cbn; [rewrite I; reflexivity|].
  destruct (simulate_event n) as [m|] eqn:S; cbn; [|reflexivity]. apply IH. rewrite (event_init _ _ S). exact I.
Qed.
Lemma nportions_t n f1 f2 a b n1 n2 : eLe (Fin 0) b ->
  simulate_time f1 a n = Some (Ok n1) -> simulate_time f2 b n1 = Some (Ok n2) ->
  exists n' k, simulate_time (f1 + f2) (eadd a b) n = Some (Ok n') /\ simulate_events k n' = Ok n2 /\
    (nt_t n1 = eadd (nt_t n) a \/ nt_t n1 = Inf -> n' = n2).
Proof.
  intros B H1 H2. unfold simulate_time in *. destruct (nt_init n) eqn:I; [|discriminate]. rewrite nwhile_loop in H1 |- *.
  assert (I1 := loop_init _ _ _ _ H1). rewrite I1, I in H2. rewrite nwhile_loop in H2.
  assert (E := loop_ended _ _ _ _ _ H1). cbv beta in E. apply eltb_ge in E.
  destruct (loop_portions simulate_event _ _ (fun x => eltb (nt_t x) (eadd (nt_t n) (eadd a b))) _ _ _ _ _ (fun x L => eltb_le_trans _ _ (eadd (nt_t n1) b) L (eLe_trans _ _ _ E (eadd_more _ _ B)))
    (fun x L => eltb_le_trans _ _ (eadd (nt_t n1) b) L (eadd_sub _ _ _ b E)) H1 H2) as (n' & X & Y).
  destruct (loop_steps _ _ _ _ _ Y) as (k & K). exists n', k. split; [exact X|]. split.
  - unfold simulate_events. rewrite (loop_init _ _ _ _ X), I. rewrite simulate_n_runs, <- steps_runs. exact K.
  - assert (W : forall x, eltb (nt_t x) (eadd (nt_t n) a) = true -> eltb (nt_t x) (eadd (nt_t n) (eadd a b)) = true).
    { intros x L. apply (eltb_le_trans _ _ _ L). rewrite eadd_assoc. apply eadd_more. exact B. }
    intros [Q|Q].
    + assert (Z := loop_then simulate_event _ _ f2 (Ok n2) W _ _ _ H1). rewrite Z in X; [congruence|]. rewrite <- H2. apply loop_ext. intro x. rewrite Q, eadd_assoc. reflexivity.
    + assert (S2 : n2 = n1). { rewrite loop_stop in H2; [congruence|]. rewrite Q. reflexivity. } subst n2.
      assert (Z := loop_then simulate_event _ _ f2 (Ok n1) W _ _ _ H1). rewrite Z in X; [congruence|]. apply loop_stop. rewrite Q. reflexivity.
Qed.
Lemma nportions_clock n f1 f2 a b c n1 n2 : eadd (nt_t n1) b = eadd (nt_t n) c -> eLe (eadd (nt_t n) a) (eadd (nt_t n) c) ->
  simulate_time f1 a n = Some (Ok n1) -> simulate_time f2 b n1 = Some (Ok n2) -> simulate_time (f1 + f2) c n = Some (Ok n2).
Proof.
  intros E L H1 H2. unfold simulate_time in *. destruct (nt_init n) eqn:I; [|discriminate]. rewrite nwhile_loop in H1 |- *.
  assert (I1 := loop_init _ _ _ _ H1). rewrite I1, I in H2. rewrite nwhile_loop, E in H2. refine (loop_then _ _ _ _ _ _ _ _ _ H1 H2).
  intros x X. exact (eltb_le_trans _ _ _ X L).
Qed.
Lemma ncut n f a c n2 : eLe (eadd (nt_t n) a) (eadd (nt_t n) c) -> simulate_time f c n = Some (Ok n2) ->
  exists n1, simulate_time f a n = Some (Ok n1) /\ forall b, eadd (nt_t n1) b = eadd (nt_t n) c -> simulate_time f b n1 = Some (Ok n2).
Proof.
  intros L H. unfold simulate_time in *. destruct (nt_init n) eqn:I; [|discriminate]. rewrite nwhile_loop in H |- *.
  destruct (loop_split simulate_event (fun x => eltb (nt_t x) (eadd (nt_t n) a)) (fun x => eltb (nt_t x) (eadd (nt_t n) c)) (fun x X => eltb_le_trans _ _ _ X L) _ _ _ H) as (r & X & Y).
  destruct r as [n1|]; [|discriminate]. exists n1. split; [exact X|]. intros b B. rewrite (loop_init _ _ _ _ X), I, nwhile_loop, B. exact Y.
Qed.
