(** * ColorProofs: colours of queues *)
From Coq Require Import List ZArith QArith Qfield Bool Arith Lia Lqa.
From Verif Require Import Base Heap HeapProofs Dict Graph GraphNet Queue SpecQueue QueueEffects QueueInv QueueHist QueueClaims1 QueueClaims4 QueueClaims5 Network Colors.
Import ListNotations.
Open Scope Z_scope.

(** ** Specification *)

(** Numbers between 0 and 1; four of them are a colour. *)
Definition unit_range (x : Q) : Prop := (0 <= x <= 1)%Q.
Definition rgba (l : list Q) : Prop := length l = 4%nat /\ Forall unit_range l.
(** A colour that can be drawn: four components, none of them NaN. *)
Definition valid (c : color) : Prop := exists l, c = plain_color l /\ rgba l.
(** No component of [c'] is greater than that of [c]. *)
Definition darker (c' c : color) : Prop :=
  exists l' l, c' = plain_color l' /\ c = plain_color l /\ Forall2 Qle l' l.
(** The base colours of a queue are colours. *)
Record decent (l : look) : Prop := mkDecent {
  de_loop : rgba (lk_loop l);
  de_vertex : rgba (lk_vertex l);
  de_fill : rgba (lk_fill l);
  de_edge : rgba (lk_edge l);
  de_pen : rgba (lk_pen l);
  de_sens : (0 <= lk_sens l)%Q
}.
(** The number of servers is sensible: infinitely many need a positive
    sensitivity, and a finite maximum at a ResourceQueue. *)
Definition servers_show (l : look) (q : queue) : Prop :=
  eLe (Fin 0) (q_servers q) /\
  (q_servers q = Inf -> match c_class (q_cfg q) with CResource => c_max_servers (q_cfg q) <> Inf | CNull => True | _ => ~ (lk_sens l == 0)%Q end).

(** [c] is the colour [base] times [x], with the last component [a]. *)
Definition shaded (base : list Q) (x a : Q) (c : color) : Prop :=
  exists r g b z r' g' b', base = [r; g; b; z] /\ c = [Some r'; Some g'; Some b'; Some a] /\ (r' == r * x /\ g' == g * x /\ b' == b * x)%Q.
(** What is left of 1 if [used] out of [full] is used. *)
Definition left_over (full used x : Q) : Prop :=
  ((used <= full -> x * full == full - used) /\ (full <= used -> x == 0))%Q.
(** The brightness of a queue: what the agents leave of
    [sensitivity * servers + 1]; at a ResourceQueue what the servers leave of
    2.7 times their maximum, or of 4.5 if the maximum is at most one. *)
Definition load_left (l : look) (q : queue) (x : Q) : Prop :=
  match q_servers q with Fin n => left_over (lk_sens l * inject_Z n + 1) (inject_Z (q_nsys q)) x | Inf => (x == 1)%Q end.
Definition servers_left (q : queue) (x : Q) : Prop :=
  match q_servers q, c_max_servers (q_cfg q) with
  | Fin n, Fin m => left_over (if m <=? 1 then 9 # 2 else (27 # 10) * inject_Z m) (inject_Z n) x
  | Fin _, Inf => (x == 1)%Q
  | Inf, _ => (x == 0)%Q
  end.
(** The colours of a queue: of the edge or the vertex ([which = 0]), of a loop
    (1) and of the vertex' rim (2). *)
Definition right_color (l : look) (q : queue) (which : nat) (c : color) : Prop :=
  let loop := c_src (q_cfg q) = c_tgt (q_cfg q) in
  match c_class (q_cfg q), which with
  | CResource, 1%nat => exists x, servers_left q x /\ shaded (lk_loop l) x 0 c
  | CResource, 2%nat => c = plain_color (lk_pen l)
  | _, 1%nat => c = plain_color (lk_loop l)
  | _, 2%nat => c = plain_color (lk_vertex l)
  | CNull, _ => (loop -> c = plain_color (lk_fill l)) /\ (~ loop -> c = plain_color (lk_edge l))
  | k, _ => exists x, match k with CResource => servers_left q x | _ => load_left l q x end /\
      (loop -> shaded (lk_fill l) x 1 c) /\ (~ loop -> shaded (lk_edge l) x (1 # 2) c)
  end.

(** ** Shades *)

Lemma py_min_le x y : (py_min x y <= x)%Q /\ (py_min x y <= y)%Q.
Proof. unfold py_min. destruct (Qle_bool x y) eqn:E; cbn; [apply Qle_bool_iff in E; lra|]. assert (~ (x <= y)%Q) by (rewrite <- Qle_bool_iff; congruence). lra. Qed.
Lemma py_min_cases x y : (py_min x y = x /\ (x <= y)%Q) \/ (py_min x y = y /\ (y < x)%Q).
Proof. unfold py_min. destruct (Qle_bool x y) eqn:E; cbn; [apply Qle_bool_iff in E; auto|]. assert (~ (x <= y)%Q) by (rewrite <- Qle_bool_iff; congruence). right. split; [reflexivity|lra]. Qed.
Lemma py_min_mono x x' y : (x <= x')%Q -> (py_min x y <= py_min x' y)%Q.
Proof. intro H. destruct (py_min_cases x y) as [[-> ?]|[-> ?]], (py_min_cases x' y) as [[-> ?]|[-> ?]]; lra. Qed.

Lemma inj_nonneg z : 0 <= z -> (0 <= inject_Z z)%Q.
Proof. intro H. change 0%Q with (inject_Z 0). rewrite <- Zle_Qle. exact H. Qed.
Lemma div_nonneg a b : (0 <= a)%Q -> (0 < b)%Q -> (0 <= a / b)%Q.
Proof. intros A B. apply Qle_shift_div_l; lra. Qed.
Lemma div_mono a a' b : (a <= a')%Q -> (0 < b)%Q -> (a / b <= a' / b)%Q.
Proof. intros A B. unfold Qdiv. apply Qmult_le_compat_r; [exact A|]. apply Qlt_le_weak, Qinv_lt_0_compat; exact B. Qed.

Lemma load_div s n : (0 <= s)%Q -> 0 <= n -> (0 < s * inject_Z n + 1)%Q.
Proof. intros S N. assert (0 <= s * inject_Z n)%Q by (apply Qmult_le_0_compat; [exact S|apply inj_nonneg; exact N]). lra. Qed.

Lemma load_ok s servers nsys : (0 <= s)%Q -> eLe (Fin 0) servers -> 0 <= nsys -> (servers = Inf -> ~ (s == 0)%Q) ->
  exists x, load_shade s servers nsys = Ok (Some x) /\ unit_range x /\ (nsys = 0 -> (x == 1)%Q).
Proof.
  intros S E N I. unfold load_shade. destruct servers as [n|].
  - cbn in E. assert (P := load_div s n S ltac:(lia)). set (dv := (s * inject_Z n + 1)%Q) in *. cbv zeta.
    replace (Qeq_bool dv 0) with false by (symmetry; apply not_true_iff_false; rewrite Qeq_bool_iff; lra).
    eexists. split; [reflexivity|]. assert (Z := div_nonneg (inject_Z nsys) dv (inj_nonneg _ N) P). unfold unit_range.
    destruct (py_min_cases (inject_Z nsys / dv) 1) as [[-> ?]|[-> ?]]; (split; [lra|]); intros ->; cbn in *.
    + unfold Qdiv. rewrite Qmult_0_l. reflexivity.
    + exfalso. unfold Qdiv in *. rewrite Qmult_0_l in *. lra.
  - replace (Qeq_bool s 0) with false by (symmetry; apply not_true_iff_false; rewrite Qeq_bool_iff; auto).
    eexists. split; [reflexivity|]. split; [|intros _; reflexivity]. unfold unit_range. cbn. split; discriminate.
Qed.

Lemma load_full s n nsys : (0 <= s)%Q -> 0 <= n -> (s * inject_Z n + 1 <= inject_Z nsys)%Q ->
  exists x, load_shade s (Fin n) nsys = Ok (Some x) /\ (x == 0)%Q.
Proof.
  intros S N L. assert (P := load_div s n S N). unfold load_shade. set (dv := (s * inject_Z n + 1)%Q) in *. cbv zeta.
  replace (Qeq_bool dv 0) with false by (symmetry; apply not_true_iff_false; rewrite Qeq_bool_iff; lra).
  eexists. split; [reflexivity|]. assert (1 <= inject_Z nsys / dv)%Q by (apply Qle_shift_div_l; lra).
  destruct (py_min_cases (inject_Z nsys / dv) 1) as [[-> ?]|[-> ?]]; lra.
Qed.

Lemma load_mono s servers nsys nsys' x x' : (0 <= s)%Q -> eLe (Fin 0) servers -> nsys <= nsys' ->
  load_shade s servers nsys = Ok (Some x) -> load_shade s servers nsys' = Ok (Some x') -> (x' <= x)%Q.
Proof.
  intros S E L H H'. unfold load_shade in *. destruct servers as [n|].
  - cbn in E. assert (P := load_div s n S ltac:(lia)). set (dv := (s * inject_Z n + 1)%Q) in *. cbv zeta in *.
    destruct (Qeq_bool dv 0); [discriminate|]. injection H as <-. injection H' as <-.
    assert (M := py_min_mono (inject_Z nsys / dv) (inject_Z nsys' / dv) 1 (div_mono _ _ _ ltac:(rewrite <- Zle_Qle; exact L) P)). lra.
  - destruct (Qeq_bool s 0); [discriminate|]. injection H as <-. injection H' as <-. lra.
Qed.

Definition cap_div (c : Z) : Q := if c <=? 1 then 5%Q else (3 * inject_Z c)%Q.
Lemma cap_div_pos c : (0 < cap_div c)%Q.
Proof.
  unfold cap_div. destruct (Z.leb_spec c 1) as [_|L]; [reflexivity|]. assert (0 < inject_Z c)%Q by (change 0%Q with (inject_Z 0); rewrite <- Zlt_Qlt; lia). lra.
Qed.
Lemma nine_div x : (0 <= x)%Q -> (x <= nine)%Q -> unit_range ((nine - x) / nine).
Proof.
  intros A B. unfold unit_range, nine in *. split; [apply Qle_shift_div_l; lra|apply Qle_shift_div_r; lra].
Qed.
Lemma server_ok servers cap : eLe (Fin 0) servers -> (servers = Inf -> cap <> Inf) ->
  exists x, server_shade servers cap = Some x /\ unit_range x /\ (servers = Fin 0 -> (x == 1)%Q).
Proof.
  intros E I. destruct servers as [n|], cap as [c|]; cbn [server_shade].
  - eexists. split; [reflexivity|]. fold (cap_div c). assert (P := cap_div_pos c). cbn in E.
    assert (Z := div_nonneg (inject_Z n) (cap_div c) (inj_nonneg n ltac:(lia)) P). split.
    + apply nine_div; destruct (py_min_cases (inject_Z n / cap_div c) nine) as [[-> ?]|[-> ?]]; try lra; unfold nine; lra.
    + intro H. injection H as ->. destruct (py_min_cases (inject_Z 0 / cap_div c) nine) as [[-> ?]|[-> A]].
      * unfold nine. field. lra.
      * exfalso. unfold Qdiv in A. change (inject_Z 0) with 0%Q in A. rewrite Qmult_0_l in A. unfold nine in A. lra.
  - eexists. split; [reflexivity|]. split; [vm_compute; split; discriminate|]. intros _. vm_compute. reflexivity.
  - eexists. split; [reflexivity|]. split; [vm_compute; split; discriminate|]. discriminate.
  - exfalso. apply I; reflexivity.
Qed.
Lemma server_mono s s' cap x x' : eLe s s' -> server_shade s cap = Some x -> server_shade s' cap = Some x' -> (x' <= x)%Q.
Proof.
  intros L H H'. assert (NP : (0 < nine)%Q) by reflexivity.
  destruct s as [n|], s' as [n'|], cap as [c|]; cbn [server_shade] in *; try discriminate; try (destruct L; fail); injection H as <-; injection H' as <-; try lra.
  - fold (cap_div c). assert (P := cap_div_pos c). apply div_mono; [|exact NP]. assert (M := py_min_mono (inject_Z n / cap_div c) (inject_Z n' / cap_div c) nine (div_mono _ _ _ ltac:(rewrite <- Zle_Qle; exact L) P)). lra.
  - fold (cap_div c). apply div_mono; [|exact NP]. destruct (py_min_le (inject_Z n / cap_div c) nine). lra.
Qed.

(** ** Lists *)

Lemma scaled_some x l : scaled (Some x) l = plain_color (map (fun i => i * x)%Q l).
Proof. unfold scaled, plain_color. rewrite map_map. reflexivity. Qed.

Lemma rgba_four l : rgba l -> exists r g b a, l = [r; g; b; a] /\ unit_range r /\ unit_range g /\ unit_range b /\ unit_range a.
Proof.
  intros [L F]. destruct l as [|r [|g [|b [|a [|? l]]]]]; try discriminate. exists r, g, b, a. rewrite !Forall_cons_iff in F. tauto.
Qed.
Lemma plain_valid l : rgba l -> valid (plain_color l).
Proof. intro H. exists l. auto. Qed.

Lemma unit_mult x y : unit_range x -> unit_range y -> unit_range (x * y).
Proof.
  unfold unit_range. intros [A B] [C D]. split; [apply Qmult_le_0_compat; assumption|].
  assert (x * y <= 1 * y)%Q by (apply Qmult_le_compat_r; assumption). lra.
Qed.
Lemma scale_ok x l a : rgba l -> unit_range x -> unit_range a ->
  exists r g b t, l = [r; g; b; t] /\ with_alpha (scaled (Some x) l) a = Ok (plain_color [r * x; g * x; b * x; a]%Q) /\
    rgba [r * x; g * x; b * x; a]%Q.
Proof.
  intros L X A. destruct (rgba_four l L) as (r & g & b & t & -> & R & G & B & T). exists r, g, b, t. split; [reflexivity|]. split; [reflexivity|].
  split; [reflexivity|]. repeat constructor; try apply unit_mult; auto; apply A.
Qed.

(** ** _current_color *)

Lemma half_unit : unit_range (1 # 2). Proof. split; discriminate. Qed.
Lemma one_unit : unit_range 1. Proof. split; discriminate. Qed.
Lemma zero_unit : unit_range 0. Proof. split; discriminate. Qed.

Lemma color_ok l q which : decent l -> servers_show l q -> 0 <= q_nsys q ->
  exists c, current_color l q which = Ok c /\ valid c.
Proof.
  intros [D1 D2 D3 D4 D5 D6] [S1 S2] N. unfold current_color.
  assert (K : match c_class (q_cfg q) with CServer | CLoss | CInfo => exists x, load_shade (lk_sens l) (q_servers q) (q_nsys q) = Ok (Some x) /\ unit_range x
              | CResource => exists x, server_shade (q_servers q) (c_max_servers (q_cfg q)) = Some x /\ unit_range x | CNull => True end).
  { destruct (c_class (q_cfg q)) eqn:C; auto;
      try (destruct (load_ok (lk_sens l) (q_servers q) (q_nsys q) D6 S1 N S2) as (x & H & U & _); eauto; fail).
    destruct (server_ok (q_servers q) (c_max_servers (q_cfg q)) S1 S2) as (x & H & U & _); eauto. }
  assert (SC : forall x b a, unit_range x -> rgba b -> unit_range a -> exists c, with_alpha (scaled (Some x) b) a = Ok c /\ valid c).
  { intros x b a U B A. destruct (scale_ok x b a B U A) as (? & ? & ? & ? & _ & E & R). eexists. split; [exact E|]. apply plain_valid; exact R. }
  assert (PL : forall b, rgba b -> exists c, Ok (plain_color b) = Ok c /\ valid c) by (intros b B; eexists; split; [reflexivity|apply plain_valid; exact B]).
  assert (half := half_unit). assert (one := one_unit). assert (zero := zero_unit).
  destruct (c_class (q_cfg q)); cbv zeta; try (destruct K as (x & -> & U)); destruct which as [|[|[|w]]]; cbn [bind]; destruct (on_loop q); auto.
Qed.

Lemma scale_mono l x x' a : rgba l -> unit_range x -> unit_range x' -> unit_range a -> (x' <= x)%Q -> forall c c',
  with_alpha (scaled (Some x) l) a = Ok c -> with_alpha (scaled (Some x') l) a = Ok c' -> darker c' c.
Proof.
  intros L X X' A M c c' H H'. destruct (scale_ok x l a L X A) as (r & g & b & t & E1 & E2 & _). destruct (scale_ok x' l a L X' A) as (r' & g' & b' & t' & E1' & E2' & _).
  rewrite E1 in E1'. injection E1' as <- <- <- <-. rewrite E2 in H. rewrite E2' in H'. injection H as <-. injection H' as <-. exists [r * x'; g * x'; b * x'; a]%Q, [r * x; g * x; b * x; a]%Q.
  split; [reflexivity|]. split; [reflexivity|]. destruct L as [_ F]. rewrite E1 in F. rewrite !Forall_cons_iff in F. unfold unit_range in F.
  assert (G : forall y, (0 <= y)%Q -> (y * x' <= y * x)%Q) by (intros y Y; rewrite !(Qmult_comm y); apply Qmult_le_compat_r; assumption).
  repeat constructor; try (apply G; tauto). lra.
Qed.
Lemma plain_darker l : darker (plain_color l) (plain_color l).
Proof. exists l, l. split; [reflexivity|]. split; [reflexivity|]. induction l; constructor; [lra|assumption]. Qed.

Lemma color_mono l q q' which c c' : decent l -> servers_show l q -> servers_show l q' -> q_cfg q' = q_cfg q ->
  0 <= q_nsys q <= q_nsys q' ->
  (match c_class (q_cfg q) with CResource => eLe (q_servers q) (q_servers q') | _ => q_servers q' = q_servers q end) ->
  current_color l q which = Ok c -> current_color l q' which = Ok c' -> darker c' c.
Proof.
  intros [D1 D2 D3 D4 D5 D6] [S1 S2] [T1 T2] C N SV H H'. unfold current_color in *. unfold on_loop in *. rewrite C in *.
  destruct (c_class (q_cfg q)) eqn:CC; cbv zeta in *;
    try (destruct which as [|[|[|w]]]; injection H as <-; injection H' as <-; apply plain_darker; fail).
  3: { destruct (server_ok _ _ S1 S2) as (x & X & U & _). destruct (server_ok _ _ T1 T2) as (x' & X' & U' & _).
       assert (M := server_mono _ _ _ _ _ SV X X'). rewrite X in H. rewrite X' in H'.
       destruct which as [|[|[|w]]]; try (injection H as <-; injection H' as <-; apply plain_darker);
         repeat match type of H with context [if ?b then _ else _] => destruct b end;
         (eapply scale_mono; [| | | |exact M|exact H|exact H']; first [assumption|apply half_unit|apply one_unit|apply zero_unit]). }
  all: rewrite SV in *; destruct (load_ok _ _ (q_nsys q) D6 S1 ltac:(lia) S2) as (x & X & U & _); destruct (load_ok _ _ (q_nsys q') D6 S1 ltac:(lia) S2) as (x' & X' & U' & _);
    assert (M := load_mono _ _ _ _ _ _ D6 S1 (proj2 N) X X'); rewrite X in H; rewrite X' in H'; cbn [bind] in *;
    destruct which as [|[|[|w]]]; try (injection H as <-; injection H' as <-; apply plain_darker);
    repeat match type of H with context [if ?b then _ else _] => destruct b end;
    (eapply scale_mono; [| | | |exact M|exact H|exact H']; first [assumption|apply half_unit|apply one_unit|apply zero_unit]).
Qed.

(** ** Reachable queues *)

Definition sane (q : queue) (o : qop) : Prop := match o with OServers (PInt z) => 0 <= z | _ => True end.
Lemma servers_nonneg c s col n q : eLe (Fin 0) s -> reach sane (new_queue c s col n) q -> eLe (Fin 0) (q_servers q).
Proof.
  intros P R. destruct (c_class c) eqn:C; try (apply (resource_nonneg c s col n q C P R)).
  3: { assert (G : q_servers q = Fin 0); [|rewrite G; cbn; lia].
       induction R as [|q o q' R IH OK H]; [unfold new_queue; qc; rewrite C; reflexivity|].
       assert (B := basics_reach _ _ _ _ _ _ R). destruct B as [IV CF _ _ _]. rewrite <- IH. assert (CQ : c_class (q_cfg q) = CNull) by congruence.
       destruct o; cbn [run_op] in H; unfold set_active, set_num_servers, delay_service, add_arrival, clear, add_arrival_self, next_event in H; qch H; try rewrite CQ in H; cbn in H.
       all: try (injection H as <-; reflexivity).
       - destruct (q_active q); injection H as <-; reflexivity.
       - qch H. destruct (q_collect q); [|injection H as <-; reflexivity]. injection H as <-. qc. reflexivity. }
  all: induction R as [|q o q' R IH OK H]; [unfold new_queue; qc; rewrite C; exact P|].
  all: assert (R' : reach anything (new_queue c s col n) q) by (clear - R; induction R; [constructor|econstructor; eauto; exact Logic.I]).
  all: assert (B := basics_reach _ _ _ _ _ _ R'); destruct B as [IV CF _ _ _].
  all: assert (E : o = ONext \/ o = OClear \/ (o <> ONext /\ no_clear o)) by (destruct o; cbn; auto; right; right; split; auto; discriminate).
  all: destruct E as [->|[->|(N1 & N2)]].
  all: try (cbn [run_op] in H; mbind H; destruct x as [r q1]; injection H as <-; destruct (drains c s col n q r q1 ltac:(congruence) ltac:(congruence) R' E) as [-> _]; exact IH).
  all: try (cbn [run_op] in H; injection H as <-; unfold clear; rewrite CF, C; exact IH).
  all: destruct (other_sizes o q q' N1 N2 ltac:(congruence) ltac:(congruence) IV H) as (_ & _ & _ & G).
  all: destruct o as [| | |[z| |]| | | | |]; try (rewrite G; exact IH); rewrite G; cbn in *; auto; lia.
Qed.

Lemma nsys_nonneg c s col n q : reach anything (new_queue c s col n) q -> 0 <= q_nsys q.
Proof.
  intro R. apply basics_reach in R as [IV _ _ _ _]. rewrite (qi_sys _ IV). unfold na. lia.
Qed.

(** ** The exact colour *)

Lemma left_min full used : (0 < full)%Q -> left_over full used (1 - py_min (used / full) 1).
Proof.
  intro P. assert (D : ((used / full) * full == used)%Q) by (field; lra). set (k := (used / full)%Q) in *.
  split; intro H; destruct (py_min_cases k 1) as [[-> ?]|[-> ?]].
  - rewrite <- D. ring.
  - assert (1 * full < k * full)%Q by (apply Qmult_lt_compat_r; assumption). lra.
  - assert (k * full <= 1 * full)%Q by (apply Qmult_le_compat_r; [assumption|lra]). assert (E : (k * full == 1 * full)%Q) by lra.
    apply Qmult_inj_r in E; lra.
  - lra.
Qed.
Lemma load_exact l q : (0 <= lk_sens l)%Q -> servers_show l q -> c_class (q_cfg q) <> CNull -> c_class (q_cfg q) <> CResource ->
  exists x, load_shade (lk_sens l) (q_servers q) (q_nsys q) = Ok (Some x) /\ load_left l q x.
Proof.
  intros S [S1 S2] NN NR. unfold load_left, load_shade. destruct (q_servers q) as [n|].
  - assert (P := load_div (lk_sens l) n S ltac:(exact S1)). set (dv := (lk_sens l * inject_Z n + 1)%Q) in *. cbv zeta.
    replace (Qeq_bool dv 0) with false by (symmetry; apply not_true_iff_false; rewrite Qeq_bool_iff; lra).
    eexists. split; [reflexivity|]. apply left_min; exact P.
  - specialize (S2 eq_refl). assert (~ (lk_sens l == 0)%Q) by (destruct (c_class (q_cfg q)); congruence || assumption).
    replace (Qeq_bool (lk_sens l) 0) with false by (symmetry; apply not_true_iff_false; rewrite Qeq_bool_iff; assumption).
    eexists. split; [reflexivity|]. reflexivity.
Qed.
Lemma server_exact l q : servers_show l q -> c_class (q_cfg q) = CResource ->
  exists x, server_shade (q_servers q) (c_max_servers (q_cfg q)) = Some x /\ servers_left q x.
Proof.
  intros [S1 S2] C. rewrite C in S2. unfold servers_left, server_shade.
  destruct (q_servers q) as [n|], (c_max_servers (q_cfg q)) as [m|].
  - eexists. split; [reflexivity|]. fold (cap_div m). assert (P := cap_div_pos m).
    assert (E : ((if m <=? 1 then 9 # 2 else (27 # 10) * inject_Z m) == nine * cap_div m)%Q) by (unfold cap_div, nine; destruct (m <=? 1); [reflexivity|ring]).
    set (f := if m <=? 1 then _ else _) in *. set (dv := cap_div m) in *. set (u := inject_Z n).
    assert (D : ((u / dv) * dv == u)%Q) by (field; lra). set (k := (u / dv)%Q) in *. unfold nine in *.
    assert (X : forall y, ((y / (9 # 10)) * ((9 # 10) * dv) == y * dv)%Q) by (intro; field).
    split; intro H; rewrite E in H.
    + rewrite E, X. destruct (py_min_cases k (9 # 10)) as [[-> ?]|[-> G]].
      * rewrite <- D. ring.
      * assert ((9 # 10) * dv < k * dv)%Q by (apply Qmult_lt_compat_r; assumption). lra.
    + destruct (py_min_cases k (9 # 10)) as [[-> G]|[-> G]].
      * assert (k * dv <= (9 # 10) * dv)%Q by (apply Qmult_le_compat_r; [assumption|lra]). assert (F : (k * dv == (9 # 10) * dv)%Q) by lra.
        apply Qmult_inj_r in F; [|lra]. rewrite F. reflexivity.
      * reflexivity.
  - eexists. split; [reflexivity|]. reflexivity.
  - eexists. split; [reflexivity|]. reflexivity.
  - exfalso. apply S2; reflexivity.
Qed.

Lemma color_exact l q which : decent l -> servers_show l q ->
  exists c, current_color l q which = Ok c /\ right_color l q which c.
Proof.
  intros [D1 D2 D3 D4 D5 D6] SH.
  assert (L : if on_loop q then c_src (q_cfg q) = c_tgt (q_cfg q) else c_src (q_cfg q) <> c_tgt (q_cfg q)).
  { unfold on_loop. destruct (Nat.eqb_spec (c_src (q_cfg q)) (c_tgt (q_cfg q))); assumption. }
  assert (SC : forall x b a, rgba b -> exists c, with_alpha (scaled (Some x) b) a = Ok c /\ shaded b x a c).
  { intros x b a B. destruct (rgba_four b B) as (r & g & u & z & -> & _). eexists. split; [reflexivity|].
    exists r, g, u, z. do 3 eexists. split; [reflexivity|]. split; [reflexivity|]. repeat split; reflexivity. }
  assert (K := load_exact l q D6 SH). assert (K' := server_exact l q SH).
  unfold current_color, right_color. destruct (c_class (q_cfg q)) eqn:C.
  all: cbv zeta; try (destruct (K ltac:(discriminate) ltac:(discriminate)) as (x & -> & LL)); try (destruct (K' eq_refl) as (x & -> & LL)); cbn [bind].
  all: destruct which as [|[|[|w]]]; try (eexists; split; reflexivity).
  all: destruct (on_loop q).
  all: try (eexists; split; [reflexivity|]; split; intro; [reflexivity || contradiction|reflexivity || contradiction]).
  all: try (destruct (SC x (lk_loop l) 0%Q D1) as (c & -> & G); exists c; split; [reflexivity|]; exists x; split; assumption).
  all: try (destruct (SC x (lk_fill l) 1%Q D3) as (c & -> & G); exists c; split; [reflexivity|]; exists x; split; [assumption|]; split; [intros _; exact G|contradiction]).
  all: try (destruct (SC x (lk_edge l) (1 # 2)%Q D4) as (c & -> & G); exists c; split; [reflexivity|]; exists x; split; [assumption|]; split; [contradiction|intros _; exact G]).
Qed.
