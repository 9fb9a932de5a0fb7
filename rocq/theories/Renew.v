(** * Renew: a cleared network is a new one that goes on *)
From Coq Require Import List ZArith QArith Lia Bool Arith.
From Verif Require Import Base Heap Queue PQueue Network SpecQueue SpecNet QueueInv QueueEffects QueueHist NetQueue NetInv NetReach NetSteps NetClaims1 NetActive SpecRefine NetRefine NetBare Clock ClockNet SpecAgain Again AgainNet SpecRenew NetExamples.
Import ListNotations.
Open Scope Z_scope.

(** ** What is known about every queue of a network *)

Definition asnew (q : queue) : Prop :=
  q = mkQueue (q_cfg q) (Fin 0) 0 0 (q_data q) [] (q_collect q) [Sentinel] [Sentinel] 0 0 0 (q_active q) (Fin 0) Inf (Fin 0) 0 0 [] 0 0.
Definition kept (q : queue) : Prop := basics (q_cfg q) (length (q_net q)) q /\ (c_class (q_cfg q) = CNull -> asnew q).

Lemma basics_wrap c n q : basics c n q -> basics c (length (q_net q)) q.
Proof. intros [P1 P2 P3 P4 P5]. split; auto. destruct (c_class c); auto. Qed.

Lemma kept_op o q q' : (forall n, o <> OServers n) -> kept q -> run_op o q = Ok q' -> kept q'.
Proof.
  intros NS [P NU] H. assert (C : q_cfg q' = q_cfg q) by (eapply op_cfg; exact H). split.
  - rewrite C. eapply basics_wrap, basics_op; eassumption.
  - rewrite C. intro X. specialize (NU X). unfold asnew in *.
    destruct o as [| | |n|t|x|c| |]; cbn [run_op] in H.
    + unfold next_event in H. rewrite X in H. cbn [bind] in H. injection H as <-. exact NU.
    + unfold set_active in H. destruct (q_active q) in H; [injection H as <-; exact NU|]. unfold add_arrival_self in H.
      change (q_cfg (set_q_active true q)) with (q_cfg q) in H. rewrite X in H. injection H as <-. rewrite NU at 1. reflexivity.
    + injection H as <-. rewrite NU at 1. reflexivity.
    + destruct (NS n eq_refl).
    + unfold delay_service in H. rewrite X in H. injection H as <-. exact NU.
    + unfold add_arrival in H. rewrite X in H. destruct (q_collect q) in H; injection H as <-; [|exact NU]. rewrite NU at 1. reflexivity.
    + injection H as <-. rewrite NU at 1. reflexivity.
    + injection H as <-. unfold clear. rewrite X. exact NU.
    + injection H as <-. rewrite NU at 1. reflexivity.
Qed.
Lemma kept_next q r q' : kept q -> next_event q = Ok (r, q') -> kept q'.
Proof. intros K H. apply (kept_op ONext q); [discriminate|exact K|]. cbn [run_op]. rewrite H. reflexivity. Qed.
Lemma kept_add x q q' : kept q -> add_arrival x q = Ok q' -> kept q'.
Proof. intros K H. apply (kept_op (OArrive x) q); [discriminate|exact K|exact H]. Qed.
Lemma kept_delay t q q' : kept q -> delay_service t q = Ok q' -> kept q'.
Proof. intros K H. apply (kept_op (ODelay t) q); [discriminate|exact K|exact H]. Qed.
Lemma kept_active q q' : kept q -> set_active q = Ok q' -> kept q'.
Proof. intros K H. apply (kept_op OActive q); [discriminate|exact K|exact H]. Qed.
Lemma kept_clear q : kept q -> kept (clear q).
Proof. intros K. apply (kept_op OClear q); [discriminate|exact K|reflexivity]. Qed.
Lemma kept_stop q n : kept q -> kept (stop_if_full q n).
Proof. intro K. unfold stop_if_full. destruct (_ && _); [|exact K]. apply (kept_op OInactive q); [discriminate|exact K|reflexivity]. Qed.
Lemma kept_mark q q' : kept q -> mark_blocked q = Ok q' -> kept q'.
Proof.
  intros [[P1 P2 P3 P4 P5] NU] H. apply mark_facts in H as (x & h & y & D & E & -> & W & HM & A1 & A2); [|apply P1]. split.
  - split; auto. assert (L : na (Ag y :: h) = na (q_dep q)) by (unfold na; cbn [q_dep set_q_dep] in A2; rewrite A1, A2; reflexivity).
    destruct P1 as [W1 W2 W3 W4 W5]. cbn [q_dep set_q_dep] in HM. split; cbn [q_arr q_dep q_nsys q_line q_total q_time set_q_dep]; try assumption.
    + rewrite L. assumption.
    + rewrite HM. assumption.
  - intro X. cbn [q_cfg set_q_dep] in X. specialize (NU X). unfold asnew in NU. rewrite NU in A1. discriminate.
Qed.
Lemma kept_blocked q : kept q -> at_capacity q = true -> kept (set_q_blocked (q_blocked q + 1) q).
Proof.
  intros [[P1 P2 P3 P4 P5] NU] F. assert (N : c_class (q_cfg q) <> CServer /\ c_class (q_cfg q) <> CNull) by (split; intro X; unfold at_capacity in F; rewrite X in F; discriminate).
  destruct N as [N1 N2]. split; [|intro X; destruct (N2 X)]. split; auto.
  - destruct P1 as [W1 W2 W3 W4 W5]. split; assumption.
  - intros [X|X]; [destruct (N1 X)|destruct (N2 X)].
Qed.

(** ** Networks *)

Lemma truncate_in (l : list nat) m e : In e (truncate l m) -> In e l.
Proof.
  assert (X : forall k, In e (firstn k l) -> In e l) by (intros k H; rewrite <- (firstn_skipn k l); apply in_or_app; left; exact H).
  unfold truncate, slice_to. destruct m as [m|]; [|auto]. destruct (m <? _); [|auto]. destruct (0 <=? m); apply X.
Qed.

Section Keep.
Context (P : queue -> Prop).
Hypothesis P_next : forall q r q', P q -> next_event q = Ok (r, q') -> P q'.
Hypothesis P_add : forall x q q', P q -> add_arrival x q = Ok q' -> P q'.
Hypothesis P_delay : forall t q q', P q -> delay_service t q = Ok q' -> P q'.
Hypothesis P_active : forall q q', P q -> c_type (q_cfg q) <> 0 -> set_active q = Ok q' -> P q'.
Hypothesis P_clear : forall q, P q -> P (clear q).
Hypothesis P_stop : forall q n, P q -> P (stop_if_full q n).
Hypothesis P_mark : forall q q', P q -> mark_blocked q = Ok q' -> P q'.
Hypothesis P_blocked : forall q, P q -> at_capacity q = true -> P (set_q_blocked (q_blocked q + 1) q).
Hypothesis P_collect : forall q c, P q -> P (set_q_collect c q).
Hypothesis P_data : forall q, P q -> P (set_q_data [] q).
Definition nk (n : net) : Prop := Forall P (nt_queues n).
Lemma at_nk k n q : nk n -> queue_at k n = Ok q -> P q.
Proof. intros F H. unfold queue_at in H. destruct (get (nt_queues n) k) as [x|] eqn:G; [|discriminate]. injection H as <-. apply (Forall_get _ _ _ _ F G). Qed.
Lemma put_nk k q n : nk n -> P q -> nk (put_queue k q n).
Proof. intros F H. apply Forall_upd; assumption. Qed.
Lemma count_nk k z n n' : nk n -> set_count k z n = Ok n' -> nk n'.
Proof. unfold set_count. intros F H. mbind H. injection H as <-. exact F. Qed.
Lemma push_nk k n n' : nk n -> net_push k n = Ok n' -> nk n'.
Proof. unfold net_push. intros F H. mbind H. injection H as <-. exact F. Qed.
Lemma desired_nk x v n e n' : nk n -> desired_destination x v n = Ok (e, n') -> nk n'.
Proof.
  unfold desired_destination. intros F H. mbind H. destruct (ag_kind x).
  all: try (destruct (length _ <=? 1)%nat; [mbind H; injection H as _ <-; exact F|]; cbv zeta in H; do 3 (mbind H); injection H as _ <-; exact F).
  do 3 (mbind H). injection H as _ <-. exact F.
Qed.
Lemma block_nk k e2 n n' q2 : nk n -> queue_at e2 n = Ok q2 -> at_capacity q2 = true -> block_agent k e2 n = Ok n' -> nk n'.
Proof.
  intros F E2 FU. unfold block_agent. rewrite E2. cbn [bind]. intro H. cbv zeta in H.
  set (n1 := put_queue e2 (set_q_blocked (q_blocked q2 + 1) q2) n) in H.
  assert (F1 : nk n1) by (apply put_nk; [exact F | apply P_blocked; [exact (at_nk _ _ _ F E2) | exact FU]]).
  apply bind_Ok in H as (q1 & E1 & H). apply bind_Ok in H as (q1' & M & H). apply (P_mark _ _ (at_nk _ _ _ F1 E1)) in M.
  set (n2 := put_queue k q1' n1) in H. assert (F2 : nk n2) by (apply put_nk; assumption).
  destruct (nt_bas n2).
  - apply bind_Ok in H as (q3 & _ & H). apply bind_Ok in H as (td & _ & H). set (n3 := set_nt_ie (Datatypes.S (nt_ie n2)) n2) in H. assert (F3 : nk n3) by exact F2.
    apply bind_Ok in H as (q4 & E4 & H). apply bind_Ok in H as (q5 & D & H). injection H as <-. apply put_nk; [exact F3 | exact (P_delay _ _ _ (at_nk _ _ _ F3 E4) D)].
  - apply bind_Ok in H as (q4 & E4 & H). apply bind_Ok in H as (q5 & D & H). injection H as <-. apply put_nk; [exact F2 | exact (P_delay _ _ _ (at_nk _ _ _ F2 E4) D)].
Qed.
Lemma move_nk k e1 e2 t n n' : nk n -> move_agent k e1 e2 t n = Ok n' -> nk n'.
Proof.
  intro F. unfold move_agent. intro H. apply bind_Ok in H as (q1 & E1 & H). assert (Q1 := at_nk _ _ _ F E1). apply bind_Ok in H as ([[x|] q1'] & N1 & H); [|discriminate].
  apply (P_next _ _ _ Q1) in N1. cbv zeta in H. set (n1 := put_queue k q1' n) in H. assert (F1 : nk n1) by (apply put_nk; assumption).
  apply bind_Ok in H as (q2 & E2 & H). assert (Q2 := at_nk _ _ _ F1 E2). apply bind_Ok in H as (q2' & A2 & H). apply (P_add _ _ _ Q2) in A2.
  set (n2 := put_queue e2 q2' n1) in H. assert (F2 : nk n2) by (apply put_nk; assumption).
  apply bind_Ok in H as (q1b & _ & H). apply bind_Ok in H as (n3 & E3 & H). assert (F3 := count_nk _ _ _ _ F2 E3). apply bind_Ok in H as (n4 & E4 & H). assert (F4 := count_nk _ _ _ _ F3 E4).
  set (n5 := put_queue e2 (stop_if_full q2' n4) n4) in H. assert (F5 : nk n5) by (apply put_nk; [exact F4 | apply P_stop; exact A2]).
  apply bind_Ok in H as (q2b & E2b & H). apply bind_Ok in H as ([r q2c] & N2 & H). apply (P_next _ _ _ (at_nk _ _ _ F5 E2b)) in N2. eapply count_nk; [|exact H].
  apply put_nk; assumption.
Qed.
Lemma reschedule_nk k e2 t n n' : nk n -> reschedule k e2 t n = Ok n' -> nk n'.
Proof.
  unfold reschedule. intros F H. do 2 (mbind H). cbv zeta in H. destruct (negb _).
  - apply bind_Ok in H as (n1 & PU & H). assert (F1 := push_nk _ _ _ F PU). destruct (_ && _); [exact (push_nk _ _ _ F1 H) | injection H as <-; exact F1].
  - destruct (eltb _ _); [exact (push_nk _ _ _ F H) | injection H as <-; exact F].
Qed.
Lemma departs_nk k t n n' : nk n -> net_departure k t n = Ok n' -> nk n'.
Proof.
  intro F. unfold net_departure. intro H. mbind H. cbv zeta in H. mbind H. apply bind_Ok in H as ([e2 n1] & D & H). assert (F1 := desired_nk _ _ _ _ _ F D).
  apply bind_Ok in H as (q2 & E2 & H). apply bind_Ok in H as (n2 & M & H). apply (reschedule_nk _ _ _ _ _) with (2 := H).
  destruct (at_capacity q2) eqn:AC; [|exact (move_nk _ _ _ _ _ _ F1 M)]. destruct (negb _); cbn [andb] in M; [exact (block_nk _ _ _ _ _ F1 E2 AC M) | exact (move_nk _ _ _ _ _ _ F1 M)].
Qed.
Lemma arrives_nk k n n' : nk n -> net_arrival k n = Ok n' -> nk n'.
Proof.
  intro F. unfold net_arrival. intro H. apply bind_Ok in H as (q1 & E1 & H). cbv zeta in H. apply bind_Ok in H as ([r q2] & M & H).
  apply (P_next _ _ _ (P_stop _ _ (at_nk _ _ _ F E1))) in M.
  apply bind_Ok in H as (n2 & C & H). assert (F1 : nk (put_queue k q2 n)) by (apply put_nk; assumption).
  assert (F2 := count_nk _ _ _ _ F1 C). destruct (eltb _ _); [exact (push_nk _ _ _ F2 H) | injection H as <-; exact F2].
Qed.
Lemma event_nk n n' : nk n -> simulate_event n = Ok n' -> nk n'.
Proof.
  intro F. unfold simulate_event. destruct (pq_size (nt_heap n) =? 0)%nat; [intro H; injection H as <-; exact F|]. intro H. apply bind_Ok in H as ([[[t k]|] h] & _ & H); [|discriminate].
  cbv zeta in H. do 2 (mbind H). destruct (_ =? 2); [eapply departs_nk; [|exact H]; exact F|]. destruct (_ =? 1); [eapply arrives_nk; [|exact H]; exact F|]. injection H as <-. exact F.
Qed.
(** initialize skips the queues of type 0. *)
Definition typed (n : net) (e : nat) : Prop := forall q, queue_at e n = Ok q -> c_type (q_cfg q) <> 0.
Lemma not_null_typed n : forall l r, not_null l n = Ok r -> Forall (typed n) r.
Proof.
  induction l as [|e l IH]; intros r H; cbn [not_null] in H; [injection H as <-; constructor|].
  apply bind_Ok in H as (q & Eq & H). apply bind_Ok in H as (r' & Er & H). injection H as <-. specialize (IH _ Er). destruct (Z.eqb_spec (c_type (q_cfg q)) 0) as [Z|Z]; [exact IH|].
  constructor; [|exact IH]. intros q' E'. rewrite Eq in E'. injection E' as <-. exact Z.
Qed.
Lemma typed_put n k q q' e : queue_at k n = Ok q -> q_cfg q' = q_cfg q -> typed n e -> typed (put_queue k q' n) e.
Proof.
  intros E C T x X. unfold queue_at in *. cbn [put_queue nt_queues set_nt_queues] in X. destruct (get (nt_queues n) k) as [y|] eqn:G; [|discriminate]. injection E as ->.
  destruct (Nat.eq_dec e k) as [->|NE].
  - rewrite get_upd_eq in X by (eapply get_lt; exact G). injection X as <-. rewrite C. apply T. unfold queue_at. rewrite G. reflexivity.
  - rewrite get_upd_neq in X by congruence. apply T. unfold queue_at. exact X.
Qed.
Lemma activate_nk l : forall n n', nk n -> Forall (typed n) l -> activate l n = Ok n' -> nk n'.
Proof.
  induction l as [|e l IH]; intros n n' F T H; cbn [activate] in H; [injection H as <-; exact F|]. inversion T as [|? ? T1 T2]; subst.
  apply bind_Ok in H as (q & Eq & H). apply bind_Ok in H as (q' & Ea & H). apply bind_Ok in H as (n1 & C & H). assert (CF := active_cfg _ _ Ea).
  apply (P_active _ _ (at_nk _ _ _ F Eq) (T1 q Eq)) in Ea.
  apply (IH n1 n'); [| |exact H]; [eapply count_nk; [|exact C]; apply put_nk; assumption|].
  unfold set_count in C. mbind C. injection C as <-. eapply Forall_impl; [|exact T2]. intros d D. exact (typed_put n e q q' d Eq CF D).
Qed.
Lemma on_queues_nk f : (forall q, P q -> P (f q)) -> forall l n n', nk n -> on_queues f l n = Ok n' -> nk n'.
Proof.
  intros Hf. induction l as [|e l IH]; intros n n' F H; cbn [on_queues] in H; [injection H as <-; exact F|].
  apply bind_Ok in H as (q & Eq & H). apply (IH (put_queue e (f q) n) n'); [|exact H]. apply put_nk; [exact F|]. apply Hf, (at_nk _ _ _ F Eq).
Qed.
Lemma call_nk c n n' : nk n -> run_call c n = Ok n' -> nk n'.
Proof.
  intros F H. destruct c as [sel| | |o]; cbn [run_call] in H.
  - unfold initialize_queues in H. mbind H. destruct (length x =? 0)%nat; [discriminate|]. apply bind_Ok in H as (n1 & Ea & H). mbind H. injection H as <-. apply (activate_nk _ _ _ F) in Ea; [exact Ea|]. apply not_null_typed in E. apply Forall_forall. intros e IN. apply (proj1 (Forall_forall _ _) E). exact (truncate_in _ _ _ IN).
  - injection H as <-. unfold nk. cbn [net_clear nt_queues]. apply Forall_map. eapply Forall_impl; [|exact F]. intros q Q. apply P_clear, Q.
  - unfold net_copy in H. destruct (nt_init n); [mbind H|]; injection H as <-; exact F.
  - destruct o as [|c l|l|p|m|c]; cbn [run_nop] in H; try (injection H as <-; exact F).
    + eapply event_nk; eassumption.
    + eapply (on_queues_nk (set_q_collect c)); [|exact F|exact H]. intros q Q. apply P_collect, Q.
    + eapply (on_queues_nk (set_q_data [])); [|exact F|exact H]. intros q Q. apply P_data, Q.
Qed.
Lemma reach_nk ok n0 n : nk n0 -> nreach ok n0 n -> nk n.
Proof. intros W R. induction R as [|n c n' R IH _ H]; [exact W|eapply call_nk; eassumption]. Qed.
End Keep.
Lemma kept_new c s col k : kept (new_queue c s col k).
Proof.
  split; [apply (basics_wrap c k), basics_new|]. unfold asnew, new_queue. cbn [q_cfg q_data q_collect q_active]. intro X. rewrite X. reflexivity.
Qed.
Lemma made_nk n0 : well_made n0 -> nk kept n0.
Proof.
  intros (qs & out & max & bas & junk & u & eps & -> & Q & _). unfold nk. cbn [new_net nt_queues]. apply Forall_forall. intros q IN.
  apply In_nth_error in IN as (k & G). destruct (Q k q) as (c & s & col & nE & -> & _); [exact G|]. apply kept_new.
Qed.
Lemma reach_kept ok n0 n : well_made n0 -> nreach ok n0 n -> nk kept n.
Proof.
  intros W. apply reach_nk; auto using kept_clear, kept_stop, kept_blocked, made_nk; eauto using kept_next, kept_add, kept_delay, kept_active, kept_mark.
  - intros q c Q. apply (kept_op (OCollect c) q); [discriminate|exact Q|reflexivity].
  - intros q Q. apply (kept_op OClearData q); [discriminate|exact Q|reflexivity].
Qed.

(** Exits of type 0 are never active. *)
Definition off (q : queue) : Prop := c_class (q_cfg q) = CNull -> c_type (q_cfg q) = 0 -> q_active q = false.
Lemma made_off n0 : well_made n0 -> nk off n0.
Proof.
  intros (qs & out & max & bas & junk & u & eps & -> & Q & _). unfold nk. cbn [new_net nt_queues]. apply Forall_forall. intros q IN.
  apply In_nth_error in IN as (k & G). destruct (Q k q) as (c & s & col & nE & -> & _); [exact G|]. intros _ _. reflexivity.
Qed.
Lemma reach_off ok n0 n : well_made n0 -> nreach ok n0 n -> nk off n.
Proof.
  intros W. apply reach_nk; unfold off; [..|apply made_off, W].
  - intros q r q' O H. rewrite (next_cfg _ _ _ H). intros C T. unfold next_event in H. rewrite C in H. injection H as _ <-. auto.
  - intros x q q' O H. rewrite (add_cfg _ _ _ H). intros C T. unfold add_arrival in H. rewrite C in H. destruct (q_collect q) in H; injection H as <-; apply O; assumption.
  - intros t q q' O H. rewrite (delay_cfg _ _ _ H). intros C T. unfold delay_service in H. rewrite C in H. injection H as <-. auto.
  - intros q q' O N H. rewrite (active_cfg _ _ H). intros C T. destruct (N T).
  - intros q O. unfold clear. destruct (c_class (q_cfg q)) eqn:K; [| |intros _; exact (O eq_refl)| |]; intro C; change (c_class (q_cfg q) = CNull) in C; rewrite K in C; discriminate C.
  - intros q n1 O. unfold stop_if_full. destruct (_ && _); [|exact O]. intros _ _. reflexivity.
  - intros q q' O H. rewrite (mark_cfg _ _ H). unfold mark_blocked in H. mbind H. injection H as <-. exact O.
  - intros q O _. exact O.
  - intros q c O. exact O.
  - intros q O. exact O.
Qed.
Lemma exits_tidy ok n0 n : well_made n0 -> nreach ok n0 n -> (forall q, In q (nt_queues n) -> c_class (q_cfg q) = CNull -> c_type (q_cfg q) = 0 /\ q_data q = []) -> tidy_exits n.
Proof.
  intros W R E q IN C. destruct (E q IN C) as [T D]. split; [exact D|]. exact (proj1 (Forall_forall _ _) (reach_off _ _ _ W R) q IN C T).
Qed.

(** ** Clearing *)

Lemma clear_kept n q : kept q -> get (nt_queues n) (c_idx (q_cfg q)) = Some q -> (c_class (q_cfg q) = CNull -> q_data q = [] /\ q_active q = false) ->
  clear q = late (arrs n) (srvs n) (n_arrs n) (n_srvs n) (renew_q q).
Proof.
  intros [[P1 P2 P3 P4 P5] NU] G X. unfold late, late_cfg, renew_q, new_queue, rest_cfg.
  cbn [q_cfg q_servers q_departed q_nsys q_data q_line q_collect q_arr q_dep q_narr q_oarr q_total q_active q_now q_time q_next_ct q_blocked q_over q_net q_ia q_is
    c_class c_src c_tgt c_idx c_type c_arr c_srv c_factory c_active_cap c_deactive_t c_buffer c_max_servers].
  unfold arrs, srvs, n_arrs, n_srvs. rewrite G, !Nat.add_0_r. unfold clear, qs_clear.
  replace (mkCfg (c_class (q_cfg q)) (c_src (q_cfg q)) (c_tgt (q_cfg q)) (c_idx (q_cfg q)) (c_type (q_cfg q)) (c_arr (q_cfg q)) (c_srv (q_cfg q)) (c_factory (q_cfg q))
    (c_active_cap (q_cfg q)) (c_deactive_t (q_cfg q)) (c_buffer (q_cfg q)) (c_max_servers (q_cfg q))) with (q_cfg q) by (destruct (q_cfg q); reflexivity).
  destruct (c_class (q_cfg q)) eqn:K.
  - rewrite P4 by discriminate. rewrite P5 by auto. destruct (q_net q); [reflexivity|discriminate].
  - rewrite P4 by discriminate. destruct (q_net q); [reflexivity|discriminate].
  - destruct (X eq_refl) as [X1 X2]. specialize (NU eq_refl). unfold asnew in NU. rewrite X1, X2 in NU. rewrite NU. reflexivity.
  - destruct (q_net q); [reflexivity|discriminate].
  - rewrite P4 by discriminate. reflexivity.
Qed.
Theorem clear_renewed n0 n : well_made n0 -> nreach usual n0 n -> tidy_exits n -> net_clear n = as_late_as n (renew n).
Proof.
  intros W R T. assert (K := reach_kept _ _ _ W R). apply ngood_reach in R as [V _]; [|exact W].
  unfold net_clear, as_late_as, late_net, renew, new_net.
  cbn [set_nt_probs nt_queues nt_out nt_probs nt_nagents nt_t nt_events nt_max nt_init nt_heap nt_bas nt_u nt_iu nt_eps nt_ie].
  rewrite map_length, map_map, !Nat.add_0_r. f_equal. apply map_ext_in. intros q IN.
  apply clear_kept.
  - exact (proj1 (Forall_forall _ _) K q IN).
  - apply In_nth_error in IN as (k & G). rewrite (qk_idx _ _ _ (ni_q _ V k q G)). exact G.
  - intro X. exact (T q IN X).
Qed.
Lemma renew_goes_on n0 n : well_made n0 -> nreach usual n0 n ->
  net_goes_on (arrs n) (srvs n) (n_arrs n) (n_srvs n) (nt_u n) (nt_iu n) (nt_eps n) (nt_ie n) (renew n).
Proof.
  intros W R. apply ngood_reach in R as [V _]; [|exact W]. split; [|split; reflexivity]. cbn [renew new_net set_nt_probs nt_queues]. apply Forall_map, Forall_forall.
  intros q IN. apply In_nth_error in IN as (k & G). assert (E := qk_idx _ _ _ (ni_q _ V k q G)). change (get (nt_queues n) k = Some q) in G. rewrite <- E in G.
  unfold goes_on. change (q_cfg (renew_q q)) with (rest_cfg q). unfold rest_cfg. cbn [c_idx c_arr c_srv]. unfold arrs, srvs, n_arrs, n_srvs. rewrite G. split; reflexivity.
Qed.
Lemma calls_late A B I J U a E b : forall l n, net_goes_on A B I J U a E b n ->
  calls l (late_net A B I J U a E b n) = rmap (late_net A B I J U a E b) (calls l n).
Proof.
  induction l as [|c l IH]; intros n F; [reflexivity|]. cbn [calls]. rewrite (call_late A B I J U a E b c n F), bind_rmap, rmap_bind. apply bind_ext. intros n' H.
  apply IH. eapply call_fit; eassumption.
Qed.
Lemma face_late A B I J U a E b n : face (late_net A B I J U a E b n) = face n.
Proof. unfold face, late_net. cbn [nt_queues nt_out nt_probs nt_nagents nt_t nt_events nt_max nt_init nt_heap nt_bas]. rewrite map_map. f_equal. Qed.
Lemma face_rmap A B I J U a E b r : face_of (rmap (late_net A B I J U a E b) r) = face_of r.
Proof. destruct r; [|reflexivity]. cbn [rmap face_of]. rewrite face_late. reflexivity. Qed.

(** ** What no call changes *)

Lemma pop_loop_junk f : forall x h r h', pq_pop_loop f x h = Ok (r, h') -> pq_junk h' = pq_junk h.
Proof.
  induction f as [|f IH]; intros x h r h' H; cbn [pq_pop_loop] in H; [discriminate|]. mbind H. destruct (eeqb _ _); [injection H as _ <-; reflexivity|].
  destruct (_ =? 0)%nat; [injection H as _ <-; reflexivity|]. apply bind_Ok in H as ([y h1] & P & H). rewrite (IH _ _ _ _ H).
  unfold pq_heappop in P. destruct (pq_size h); [discriminate|]. mbind P. destruct (_ <? _)%nat; [do 3 (mbind P)|]; injection P as _ <-; reflexivity.
Qed.
Lemma pop_junk h r h' : pq_pop h = Ok (r, h') -> pq_junk h' = pq_junk h.
Proof.
  unfold pq_pop. intro H. apply bind_Ok in H as ([y h1] & P & H). rewrite (pop_loop_junk _ _ _ _ _ H).
  unfold pq_heappop in P. destruct (pq_size h); [discriminate|]. mbind P. destruct (_ <? _)%nat; [do 3 (mbind P)|]; injection P as _ <-; reflexivity.
Qed.
Lemma push_junk h t k h' : pq_push h t k = Ok h' -> pq_junk h' = pq_junk h.
Proof. unfold pq_push. intro H. mbind H. cbv zeta in H. do 2 (mbind H). injection H as <-. reflexivity. Qed.
Lemma pushes_junk h l h' : pushes h l h' -> pq_junk h' = pq_junk h.
Proof. induction 1 as [|h t k h1 l h' P _ IH]; [reflexivity|]. rewrite IH. exact (push_junk _ _ _ _ P). Qed.
Lemma activate_heap l : forall n n', activate l n = Ok n' -> nt_heap n' = nt_heap n.
Proof.
  induction l as [|e l IH]; intros n n' H; cbn [activate] in H; [injection H as <-; reflexivity|].
  do 2 (mbind H). apply bind_Ok in H as (n1 & C & H). rewrite (IH _ _ H). unfold set_count in C. mbind C. injection C as <-. reflexivity.
Qed.
Lemma on_queues_heap f l : forall n n', on_queues f l n = Ok n' -> nt_heap n' = nt_heap n.
Proof. induction l as [|e l IH]; intros n n' H; cbn [on_queues] in H; [injection H as <-; reflexivity|]. mbind H. rewrite (IH _ _ H). reflexivity. Qed.
Lemma call_junk c n n' : ninv n -> run_call c n = Ok n' -> pq_junk (nt_heap n') = pq_junk (nt_heap n).
Proof.
  intros V H. destruct c as [sel| | |o]; cbn [run_call] in H.
  - unfold initialize_queues in H. mbind H. destruct (length x =? 0)%nat; [discriminate|]. apply bind_Ok in H as (n1 & Ea & H). apply bind_Ok in H as (h & P & H). injection H as <-.
    unfold pq_new in P. do 2 (mbind P). injection P as <-. reflexivity.
  - injection H as <-. reflexivity.
  - unfold net_copy in H. destruct (nt_init n); [|injection H as <-; reflexivity]. apply bind_Ok in H as (h & P & H). injection H as <-. unfold pq_new in P. do 2 (mbind P). injection P as <-. reflexivity.
  - destruct o as [|c l|l|p|m|c]; cbn [run_nop] in H; try (injection H as <-; reflexivity).
    + apply sim_nst in H; [|exact V]. destruct H as [_ ->|t k h q _ P _ _ ->|t k h q r q' h' _ P _ _ _ PU _ ->|t k h q x h0 l e2 q2 qm q' d h' iu ie td _ P _ _ _ _ _ _ _ _ _ _ _ _ _ _ PU ->|t k h q x h0 l e2 q2o y q' q2 q2a r q2' h' iu _ P _ _ _ _ _ _ _ _ _ _ _ _ PU _ _ ->];
        [reflexivity|..]; cbn [after nt_heap]; try rewrite (pushes_junk _ _ _ PU); exact (pop_junk _ _ _ P).
    + rewrite (on_queues_heap _ _ _ _ H). reflexivity.
    + rewrite (on_queues_heap _ _ _ _ H). reflexivity.
Qed.
Lemma reach_junk n0 n : well_made n0 -> nreach usual n0 n -> pq_junk (nt_heap n) = pq_junk (nt_heap n0).
Proof.
  intros W R. induction R as [|n c n' R IH _ H]; [reflexivity|]. rewrite <- IH. apply (call_junk c); [|exact H]. apply (ngood_reach _ _ W R).
Qed.
(** The sequences, index by index. *)
Lemma reach_draws n0 n : well_made n0 -> nreach usual n0 n -> forall k, nt_u n k = nt_u n0 k /\ nt_eps n k = nt_eps n0 k.
Proof.
  intros W R. assert (F : net_goes_on (arrs n0) (srvs n0) (fun _ => 0%nat) (fun _ => 0%nat) (nt_u n0) 0 (nt_eps n0) 0 n).
  { induction R as [|n c n' R IH _ H]; [|eapply call_fit; eassumption]. assert (V := proj1 (ngood_reach _ _ W (nreach_here _ _))).
    split; [|split; reflexivity]. apply Forall_forall. intros q IN. apply In_nth_error in IN as (k & G). assert (X := qk_idx _ _ _ (ni_q _ V k q G)).
    change (get (nt_queues n0) k = Some q) in G. rewrite <- X in G. unfold goes_on, arrs, srvs. rewrite G. split; reflexivity. }
  intro k. destruct F as (_ & F1 & F2). split; symmetry; [apply F1|apply F2].
Qed.
Lemma reach_table n0 n k q0 q : well_made n0 -> nreach usual n0 n -> get (nt_queues n0) k = Some q0 -> get (nt_queues n) k = Some q -> length (q_net q) = length (q_net q0).
Proof.
  intros W R G0 G. destruct (refines n0 n0 n k q W (nreach_here _ _) R G) as (q1 & q2 & G1 & RR & BB). replace q1 with q0 in * by congruence.
  assert (W2 := W). destruct W2 as (qs & out & max & bas & junk & u & eps & -> & Q & _). destruct (Q k q0 G0) as (c & s & col & nE & -> & _).
  apply basics_reach in RR. change (q_net q) with (q_net (bare q)). rewrite <- BB. change (q_net (bare q2)) with (q_net q2). rewrite (ba_net _ _ _ RR), (ba_net _ _ _ (basics_new c s col nE)). reflexivity.
Qed.

(** ** The same simulation once more *)

Lemma get_of_map {X Y} (f : X -> Y) l l' k x : map f l = map f l' -> get l k = Some x -> exists y, get l' k = Some y /\ f y = f x.
Proof.
  intros E G. assert (H : nth_error (map f l) k = Some (f x)) by (apply map_nth_error; exact G). rewrite E, nth_error_map in H. unfold get. destruct (nth_error l' k) as [y|]; [|discriminate].
  injection H as H. eauto.
Qed.
Lemma map_by_get {X Y Z} (f : X -> Z) (g : Y -> Z) : forall l l', length l = length l' -> (forall k x y, get l k = Some x -> get l' k = Some y -> f x = g y) -> map f l = map g l'.
Proof.
  induction l as [|x l IH]; intros [|y l'] L H; cbn [length] in L; try discriminate; [reflexivity|]. cbn [map]. f_equal; [apply (H 0%nat x y); reflexivity|].
  apply IH; [injection L as L; exact L|]. intros k a b G1 G2. apply (H (Datatypes.S k) a b); assumption.
Qed.
Theorem clear_repeats n0 n : well_made n0 -> nreach usual n0 n -> tidy_exits n -> unnumbered n0 -> same_settings n0 n ->
  net_clear n = as_late_as n n0 /\
  net_goes_on (arrs n) (srvs n) (n_arrs n) (n_srvs n) (nt_u n) (nt_iu n) (nt_eps n) (nt_ie n) n0.
Proof.
  intros W R T (NQ & NU) (S1 & S2 & S3 & S4 & S5). assert (C := clear_renewed n0 n W R T). destruct (same_graph n0 n W R) as (SO & SC).
  assert (D := reach_draws n0 n W R). assert (JU := reach_junk n0 n W R). assert (V := proj1 (ngood_reach _ _ W R)).
  assert (LEN : length (nt_queues n) = length (nt_queues n0)) by (apply (f_equal (@length _)) in SC; rewrite !map_length in SC; exact SC). split.
  - rewrite C. unfold as_late_as, late_net. assert (W2 := W). destruct W2 as (qs & out & max & bas & junk & u & eps & E0 & Q & _).
    rewrite E0 in *. unfold renew, new_net in *. cbn [set_nt_probs nt_queues nt_out nt_probs nt_nagents nt_t nt_events nt_max nt_init nt_heap nt_bas nt_u nt_iu nt_eps nt_ie pq_junk empty_heap] in *.
    rewrite SO, S3, S4, S5, JU, map_length, LEN. f_equal. rewrite map_map. apply map_by_get; [exact LEN|]. intros k q q0 G G0.
    destruct (get_of_map _ _ _ _ _ SC G) as (y1 & Y1 & EC). replace y1 with q0 in * by congruence. destruct (get_of_map _ _ _ _ _ S1 G) as (y2 & Y2 & ES). replace y2 with q0 in * by congruence.
    destruct (get_of_map _ _ _ _ _ S2 G) as (y3 & Y3 & EL). replace y3 with q0 in * by congruence.
    assert (EC' : q_cfg q0 = q_cfg q) by exact EC. assert (ES' : q_servers q0 = q_servers q) by exact ES. assert (EL' : q_collect q0 = q_collect q) by exact EL.
    assert (TB : length (q_net q) = length (q_net q0)) by (rewrite <- E0 in *; apply (reach_table n0 n k q0 q W R); [rewrite E0; exact G0|exact G]).
    destruct (Q k q0 G0) as (c & s & col & nE & -> & IX & _). cbv beta. unfold renew_q. rewrite <- ES', <- EL', TB. change (q_cfg (new_queue c s col nE)) with c in EC'.
    unfold late, late_cfg, new_queue, rest_cfg. rewrite <- EC'.
    cbn [q_cfg q_servers q_departed q_nsys q_data q_line q_collect q_arr q_dep q_narr q_oarr q_total q_active q_now q_time q_next_ct q_blocked q_over q_net q_ia q_is
      c_class c_src c_tgt c_idx c_type c_arr c_srv c_factory c_active_cap c_deactive_t c_buffer c_max_servers].
    destruct (c_class c); try reflexivity. rewrite repeat_length. reflexivity.
  - split; [|split].
    + apply Forall_forall. intros q0 IN. assert (IN2 := IN). apply In_nth_error in IN2 as (k & G0). destruct (get_of_map _ _ _ _ _ (eq_sym SC) G0) as (q & G & EC). assert (EC' : q_cfg q = q_cfg q0) by exact EC.
      assert (IX := qk_idx _ _ _ (ni_q _ V k q G)). unfold goes_on. rewrite <- EC', IX. unfold arrs, srvs, n_arrs, n_srvs. rewrite G, EC'. split; intros j t; apply (NQ q0 IN).
    + intro k. rewrite (proj1 (D _)). apply NU.
    + intro k. rewrite (proj2 (D _)). apply NU.
Qed.
