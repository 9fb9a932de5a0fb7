(** * Marks: the number that an agent carries about *)
From Coq Require Import List ZArith QArith Lia Bool Permutation Arith.
From Verif Require Import Base Heap HeapProofs PQueue Queue QueueEffects QueueEvents QueueSteps QueueInv SpecQueue QueueFlow QueueHist QueueClaims1.
Import ListNotations.
Open Scope Z_scope.

(** ** One queue *)

Section Marks.
Variable P : aid -> Z -> Prop.

Definition marked (a : agent) : Prop := P (ag_id a) (ag_blocked a).
Definition all_marked (l : list agent) : Prop := forall a, In a l -> marked a.
Record okm (q : queue) : Prop := mkOkm {
  om_arr : wfh (q_arr q); om_dep : wfh (q_dep q);
  om_a : all_marked (agents_of (q_arr q)); om_d : all_marked (agents_of (q_dep q)); om_l : all_marked (q_line q)
}.

Lemma all_perm l l' : Permutation l l' -> all_marked l -> all_marked l'.
Proof. intros X A a I. apply A. apply (Permutation_in a (Permutation_sym X)). exact I. Qed.
Lemma all_cons a l : marked a -> all_marked l -> all_marked (a :: l).
Proof. intros A B x [<-|I]; auto. Qed.
Lemma all_tail a l : all_marked (a :: l) -> marked a /\ all_marked l.
Proof. intro A. split; [apply A; left; reflexivity|]. intros x I. apply A. right; exact I. Qed.
Lemma all_app l l' : all_marked l -> all_marked l' -> all_marked (l ++ l').
Proof. intros A B x I. apply in_app_or in I as [I|I]; auto. Qed.

Lemma pop_m h a h' : wfh h -> all_marked (agents_of h) -> pop_agent h = Ok (a, h') -> wfh h' /\ marked a /\ all_marked (agents_of h').
Proof. intros W A E. apply pop_agent_Ok in E as (W' & X & _); [|exact W]. apply (all_perm _ _ X) in A. apply all_tail in A as [A1 A2]. auto. Qed.
Lemma push_m h a h' : wfh h -> all_marked (agents_of h) -> marked a -> push_item h a = Ok h' -> wfh h' /\ all_marked (agents_of h').
Proof. intros W A M E. apply push_item_Ok in E as (W' & X); [|exact W]. split; [exact W'|]. apply (all_perm _ _ (Permutation_sym X)). apply all_cons; assumption. Qed.
Lemma action_m a q a' q' : marked a -> okm q -> queue_action a q = Ok (a', q') -> marked a' /\ okm q'.
Proof.
  intros M [W1 W2 A D L] E. apply queue_action_Ok in E as (X1 & _ & _ & X2 & s & o & -> & _). split; [unfold marked in *; congruence|]. constructor; assumption.
Qed.
Lemma update_m q q' : okm q -> update_time q = Ok q' -> okm q'.
Proof. intros [W1 W2 A D L] E. apply update_time_Ok in E; [|exact W1|exact W2]. subst q'. constructor; assumption. Qed.
Lemma dlast_m q i f q' : okm q -> dlast_if q i f = Ok q' -> okm q'.
Proof. intros [W1 W2 A D L] E. apply dlast_if_Ok in E as (d & -> & _). constructor; assumption. Qed.

Lemma new_m q q' : okm q -> P (c_idx (q_cfg q), q_oarr q) 0 -> add_arrival_new q = Ok q' -> okm q'.
Proof.
  intros [W1 W2 A D L] N E. apply add_arrival_new_Ok in E; [|exact W1|exact W2]. cbv zeta in E.
  destruct E as [(_ & ->)|[(_ & _ & _ & ->)|(_ & _ & a & h & act & -> & I1 & _ & _ & B1 & _ & W & X & _)]]; constructor; qc; try assumption.
  apply (all_perm _ _ (Permutation_sym X)). apply all_cons; [|exact A]. unfold marked. rewrite I1, B1. exact N.
Qed.
Lemma self_m q q' : okm q -> P (c_idx (q_cfg q), q_oarr q) 0 -> add_arrival_self q = Ok q' -> okm q'.
Proof. intros O N E. unfold add_arrival_self in E. destruct (c_class (q_cfg q)); try (eapply new_m; eassumption). injection E as <-; exact O. Qed.
Lemma draw_m q q' : okm q -> P (c_idx (q_cfg q), q_oarr q) 0 -> (if q_active q then add_arrival_self q else Ok q) = Ok q' -> okm q'.
Proof. intros O N E. destruct (q_active q); [eapply self_m; eassumption|injection E as <-; exact O]. Qed.

Lemma arrive_m a q q' : okm q -> marked a -> add_arrival a q = Ok q' -> okm q'.
Proof.
  intros O M E. assert (N : c_class (q_cfg q) = CNull \/ c_class (q_cfg q) <> CNull) by (destruct (c_class (q_cfg q)); auto; right; discriminate). destruct N as [N|N].
  - unfold add_arrival in E. rewrite N in E. injection E as <-. destruct O. destruct (q_collect q); constructor; assumption.
  - destruct O as [W1 W2 A D L]. apply add_arrival_Ok in E as (h & -> & W & X); [|assumption..]. constructor; qc; try assumption.
    apply (all_perm _ _ (Permutation_sym X)). apply all_cons; assumption.
Qed.

Lemma delay_m t q q' : okm q -> delay_service t q = Ok q' -> okm q'.
Proof.
  intros O E. assert (N : c_class (q_cfg q) = CNull \/ c_class (q_cfg q) <> CNull) by (destruct (c_class (q_cfg q)); auto; right; discriminate). destruct N as [N|N].
  - unfold delay_service in E. rewrite N in E. injection E as <-. exact O.
  - destruct O as [W1 W2 A D L]. apply delay_service_Ok in E; [|assumption..]. destruct E as [(_ & ->)|(a & h & h' & m & E)]; [constructor; assumption|].
    cbv zeta in E. destruct E as (_ & -> & _ & W & W' & X1 & X2 & _). constructor; qc; try assumption.
    apply (all_perm _ _ X1) in D. apply all_tail in D as [D1 D2]. apply (all_perm _ _ (Permutation_sym X2)). apply all_cons; [exact D1|exact D2].
Qed.

Lemma service_m q q' : okm q -> service_from_queue q = Ok q' -> okm q'.
Proof.
  intros [W1 W2 A D L] E. unfold service_from_queue in E. destruct (q_line q) as [|a line] eqn:LN; [discriminate|]. apply all_tail in L as [L1 L2].
  mbind E. apply dlast_m in E0; [|constructor; assumption]. unfold call_srv in E. mbind E. destruct x0 as [a' q4].
  apply action_m in E1 as [M4 [V1 V2 A4 D4 L4]]; [|exact L1|destruct E0; constructor; assumption].
  mbind E. apply push_m in E1 as [W X]; [|assumption..]. injection E as <-. constructor; assumption.
Qed.

Lemma departure_m q r q' : okm q -> qs_departure q = Ok (r, q') -> okm q' /\ forall b, r = Some b -> marked b.
Proof.
  intros [W1 W2 A D L] E. unfold qs_departure in E. mbind E. destruct x as [a h]. apply pop_m in E0 as (W & M & D'); [|assumption..].
  mbind E. apply dlast_m in E0; [|constructor; assumption]. mbind E.
  assert (O3 : okm x0) by (destruct ((0 <? _) && _); [eapply service_m; eassumption|injection E1 as <-; exact E0]).
  mbind E. destruct x1 as [a' q4]. apply action_m in E2 as [M4 O4]; [|assumption..]. mbind E. apply update_m in E2; [|exact O4]. injection E as <- <-.
  split; [exact E2|]. intros b EB. injection EB as <-. exact M4.
Qed.

Lemma arrival_m q r q' : okm q -> P (c_idx (q_cfg q), q_oarr q) 0 -> qs_arrival q = Ok (r, q') -> okm q'.
Proof.
  intros [W1 W2 A D L] N E. unfold qs_arrival in E. mbind E. destruct x as [a h]. apply pop_m in E0 as (W & M & A'); [|assumption..].
  mbind E. apply draw_m in E0; [|constructor; assumption|exact N]. destruct E0 as [V1 V2 A2 D2 L2].
  mbind E. destruct x0 as [a1 q5]. apply action_m in E0 as [M1 O5]; [|exact M|destruct (q_collect _); constructor; assumption].
  destruct (eleb _ _).
  - mbind E. assert (O6 : okm x0).
    { destruct (q_collect q5); [mbind E0|]; injection E0 as <-; [destruct O5; constructor; assumption|exact O5]. }
    unfold call_srv in E. mbind E. destruct x1 as [a2 q8]. apply action_m in E1 as [M2 [U1 U2 A8 D8 L8]]; [|exact M1|destruct O6; constructor; assumption].
    mbind E. apply push_m in E1 as [WX X]; [|assumption..]. mbind E. apply update_m in E1; [|constructor; assumption]. injection E as <- <-. exact E1.
  - mbind E. destruct O5. apply update_m in E0; [injection E as <- <-; exact E0|]. constructor; try assumption. qc. apply all_app; [assumption|]. apply all_cons; [exact M1|intros ? []].
Qed.

Lemma loss_blocked_m q r q' : okm q -> P (c_idx (q_cfg q), q_oarr q) 0 -> loss_blocked q = Ok (r, q') -> okm q'.
Proof.
  intros [W1 W2 A D L] N E. unfold loss_blocked in E. mbind E. destruct x as [a h]. apply pop_m in E0 as (W & M & A'); [|assumption..].
  mbind E. mbind E. apply draw_m in E1; [|constructor; assumption|exact N]. destruct E1 as [V1 V2 A2 D2 L2].
  mbind E. apply update_m in E1; [injection E as <- <-; exact E1|]. destruct (q_collect _); constructor; assumption.
Qed.
Lemma rq_return_m q r q' : okm q -> rq_return q = Ok (r, q') -> okm q'.
Proof.
  intros [W1 W2 A D L] E. unfold rq_return in E. mbind E. destruct x as [a h]. apply pop_m in E0 as (W & M & A'); [|assumption..].
  mbind E. apply update_m in E0; [injection E as <- <-; exact E0|]. unfold rq_set_num_servers. qc. destruct (eltb _ _); qc; destruct (q_collect q); constructor; qc; assumption.
Qed.
Lemma rq_blocked_m q r q' : okm q -> rq_blocked q = Ok (r, q') -> okm q'.
Proof.
  intros [W1 W2 A D L] E. unfold rq_blocked in E. mbind E. destruct x as [a h]. apply pop_m in E0 as (W & M & A'); [|assumption..].
  mbind E. apply update_m in E0; [injection E as <- <-; exact E0|]. destruct (q_collect _); constructor; assumption.
Qed.

Lemma next_m q r q' : okm q -> P (c_idx (q_cfg q), q_oarr q) 0 -> next_event q = Ok (r, q') -> okm q' /\ forall b, r = Some b -> marked b.
Proof.
  intros O N H. apply next_event_event in H as (qe & PE & EV); [|apply O|apply O].
  assert (OE : okm qe /\ q_cfg qe = q_cfg q /\ q_oarr qe = q_oarr q).
  { destruct PE as [->|(_ & nd & a & t & _ & _ & ->)]; [auto|]. destruct O. split; [constructor; assumption|auto]. }
  destruct OE as (OE & CE & AE). rewrite <- CE, <- AE in N.
  destruct EV as [_ _ -> ->|_ _ E|_ _ _ _ _ E|_ _ _ _ _ _ E|_ _ _ _ -> E|_ _ _ _ -> _ E].
  - split; [exact O|discriminate].
  - eapply departure_m; eassumption.
  - split; [eapply arrival_m; eassumption|]. apply qs_arrival_None in E. subst r. discriminate.
  - split; [eapply loss_blocked_m; eassumption|]. unfold loss_blocked in E. mbind E. destruct x as [a h]. mbind E. mbind E. mbind E. injection E as <- _. discriminate.
  - split; [eapply rq_return_m; eassumption|]. unfold rq_return in E. mbind E. destruct x as [a h]. mbind E. injection E as <- _. discriminate.
  - split; [eapply rq_blocked_m; eassumption|]. unfold rq_blocked in E. mbind E. destruct x as [a h]. mbind E. injection E as <- _. discriminate.
Qed.

Lemma active_m q q' : okm q -> P (c_idx (q_cfg q), q_oarr q) 0 -> set_active q = Ok q' -> okm q'.
Proof. intros O N H. unfold set_active in H. destruct (q_active q); [injection H as <-; exact O|]. apply (self_m (set_q_active true q)); [destruct O; constructor; assumption|exact N|exact H]. Qed.
End Marks.
