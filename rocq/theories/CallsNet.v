(** * CallsNet: calls of service_f in a network that blocks after service *)
From Coq Require Import List ZArith QArith Lia Bool Permutation Arith.
From Verif Require Import Base Heap HeapProofs PQueue Queue QueueEffects QueueEvents QueueSteps QueueInv SpecQueue QueueFlow QueueHist QueueClaims1
  Network SpecNet NetQueue NetSteps NetInv NetReach NetFlow NetActive NetClaims1 SpecRefine NetRefine LineProofs LineNet Counts SpecCalls Calls Clock ClockNet.
Import ListNotations.
Open Scope Z_scope.

(** As many calls as departures and agents in service. *)
Definition exactly (q : queue) : Prop := qinv q /\ (c_class (q_cfg q) <> CNull -> Z.of_nat (q_is q) = q_departed q + serving q).
Definition all_exact (qs : list queue) : Prop := forall k q, get qs k = Some q -> exactly q.

Lemma exact_op o q q' : no_clear o -> o <> ODelay None -> exactly q -> run_op o q = Ok q' -> exactly q'.
Proof.
  intros NC ND [IV X] H. split; [exact (qinv_op _ _ _ IV H)|]. intro N. rewrite (op_cfg _ _ _ H) in N. specialize (X N).
  apply run_op_step in H as (r & H). assert (S := served_op o q r q' IV N NC H). destruct (step_counts o q r q' IV N NC H) as (D & _).
  assert (A : again1 (o, q, r, q') = 0%nat) by (destruct o as [| | | |[t|]| | | |]; try reflexivity; congruence).
  unfold serving, zlen in *. lia.
Qed.
Lemma exact_next q r q' : exactly q -> next_event q = Ok (r, q') -> exactly q'.
Proof. intros X H. apply (exact_op ONext q); [exact Logic.I|discriminate|exact X|]. cbn [run_op]. rewrite H. reflexivity. Qed.
Lemma exact_stopped max ag q : exactly q -> exactly (stopped max ag q).
Proof. intro X. unfold stopped. destruct (q_active q && _); [|exact X]. apply (exact_op OInactive q); [exact Logic.I|discriminate|exact X|reflexivity]. Qed.
Lemma exact_mark T k q qm : qok T k q -> mark_blocked q = Ok qm -> exactly q -> exactly qm.
Proof.
  intros K M [IV X]. destruct (qok_mark _ _ _ _ K M) as (KM & _ & _ & C & _ & _ & _ & IDS & _). split; [apply KM|]. intro N. rewrite C in N. specialize (X N).
  apply (f_equal (@length aid)) in IDS. unfold ids in IDS. rewrite !map_length in IDS. unfold serving in *.
  apply mark_facts in M as (a & h & b & D & B & -> & _); [|exact (qi_dep _ IV)]. change (q_is (set_q_dep (Ag b :: h) q)) with (q_is q). change (q_departed (set_q_dep (Ag b :: h) q)) with (q_departed q). lia.
Qed.
Lemma exact_upd qs k q' : all_exact qs -> (k < length qs)%nat -> exactly q' -> all_exact (upd qs k q').
Proof. intros A L X j qj G. apply get_upd in G as [[-> ->]|[_ G]]; [exact X|exact (A _ _ G)|exact L]. Qed.

Lemma exact_step n n' : ninv n -> nt_bas n = true -> nst n n' -> all_exact (nt_queues n) -> all_exact (nt_queues n').
Proof.
  intros I BAS S A. destruct S as [SZ ->|t k h q SZ PO G DS ->|t k h q r q' h' SZ PO G DS NX PU LC ->|
    t k h q a h0 l e2 q2 qm q' d h' iu ie td SZ PO G DS DP OUT IN DD G2 NE CA MB RT DE DL NK PU ->|
    t k h q a h0 l e2 q2old b q' q2 q2a r q2' h' iu SZ PO G DS DP OUT IN DD G2 CA NX GE AD NX2 PU LA LB ->].
  - exact A.
  - exact A.
  - unfold after. nc. apply exact_upd; [exact A|exact (get_lt _ _ _ G)|]. eapply exact_next; [|exact NX]. apply exact_stopped. exact (A _ _ G).
  - rewrite BAS in DE. unfold after. nc. apply exact_upd; [apply exact_upd; [exact A|exact (get_lt _ _ _ G2)|]|rewrite upd_length; exact (get_lt _ _ _ G)|].
    + destruct (A _ _ G2) as [IV X]. split; [destruct IV; constructor; assumption|exact X].
    + apply (exact_op (ODelay d) qm); [exact Logic.I|congruence| |exact DL]. eapply exact_mark; [exact (ni_q _ I _ _ G)|exact MB|exact (A _ _ G)].
  - unfold after. nc. assert (A1 : all_exact (upd (nt_queues n) k q')) by (apply exact_upd; [exact A|exact (get_lt _ _ _ G)|eapply exact_next; [exact (A _ _ G)|exact NX]]).
    apply exact_upd; [exact A1|exact (get_lt _ _ _ GE)|]. eapply exact_next; [|exact NX2]. apply exact_stopped.
    apply (exact_op (OArrive (set_ag_time t b)) q2); [exact Logic.I|discriminate|exact (A1 _ _ GE)|exact AD].
Qed.

Lemma exact_activate l : forall n n', all_exact (nt_queues n) -> activate l n = Ok n' -> all_exact (nt_queues n').
Proof.
  induction l as [|k l IH]; intros n n' A H; cbn [activate] in H; [injection H as <-; exact A|].
  mbind H. mbind H. mbind H. apply queue_at_Ok in E. apply set_count_Ok in E1 as [_ ->].
  apply IH in H; [exact H|]. nc. apply exact_upd; [exact A|exact (get_lt _ _ _ E)|]. apply (exact_op OActive x); [exact Logic.I|discriminate|exact (A _ _ E)|exact E0].
Qed.

Lemma exact_on (f : queue -> queue) (o : qop) l : (forall q, run_op o q = Ok (f q)) -> no_clear o -> o <> ODelay None ->
  forall n n', all_exact (nt_queues n) -> on_queues f l n = Ok n' -> all_exact (nt_queues n').
Proof.
  intros F NC ND. induction l as [|e l IH]; intros n n' A H; cbn [on_queues] in H; [injection H as <-; exact A|].
  mbind H. apply queue_at_Ok in E. apply IH in H; [exact H|]. nc. apply exact_upd; [exact A|exact (get_lt _ _ _ E)|].
  apply (exact_op o x); [exact NC|exact ND|exact (A _ _ E)|apply F].
Qed.

Lemma exact_reach n0 n : well_made n0 -> nreach served_once n0 n -> all_exact (nt_queues n).
Proof.
  intros W R. assert (RU : nreach usual n0 n).
  { clear W. induction R as [|n c n' R IH [[U _] _] H]; [constructor|]. eapply nreach_step; [exact IH|exact U|exact H]. }
  revert RU. induction R as [|n c n' R IH [[US NCL] BAS] H]; intro RU'.
  - intros k q G. destruct (made_new _ _ _ W G) as (c & s & col & nE & -> & _). split; [apply (ba_inv c nE); apply basics_new|]. intros _. reflexivity.
  - assert (RU : nreach usual n0 n).
    { clear - R. induction R as [|n c n' R IH [[U _] _] H]; [constructor|]. eapply nreach_step; [exact IH|exact U|exact H]. }
    specialize (IH RU). destruct (ngood_reach _ _ W RU) as [I _].
    destruct c as [sel| | |o]; cbn [run_call] in H.
    + unfold initialize_queues in H. mbind H. destruct (length x =? 0)%nat; [discriminate|]. mbind H. mbind H. injection H as <-. nc. eapply exact_activate; eauto.
    + congruence.
    + unfold net_copy in H. destruct (nt_init n); [mbind H|]; injection H as <-; exact IH.
    + destruct o as [|b l|l|p|m|b]; cbn [run_nop] in H; [| | |injection H as <-; exact IH..].
      * apply sim_nst in H; [|exact I]. eapply exact_step; eauto.
      * refine (exact_on (set_q_collect b) (OCollect b) l _ Logic.I _ n n' IH H); [reflexivity|discriminate].
      * refine (exact_on (set_q_data []) OClearData l _ Logic.I _ n n' IH H); [reflexivity|discriminate].
Qed.
