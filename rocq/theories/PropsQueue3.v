(** * PropsQueue3: claims C17-C29, C58 and C59 about queues *)
From Coq Require Import List ZArith QArith Bool Permutation Arith Lia Sorted.
From Verif Require Import Base Queue SpecQueue QueueInv QueueEffects QueueHist QueueData QueueRows QueueClaims1 QueueClaims3 QueueClaims4 QueueLoss QueueClaims5 Fetch FetchProofs InfoStop PropsQueue1.
Import ListNotations.
Open Scope Z_scope.

(** ** C17 *)

Theorem C17_rows_ordered : forall c s col n q,
  c_class c <> CNull -> forward c -> reach careful (new_queue c s col n) q ->
  forall i, let rows := rows_of (q_data q) i in
  (~ In i (ids (waiting q)) -> ~ In i (ids (in_service q)) -> Forall row_ended rows) /\
  (q_collect q = false -> Forall row_ended rows) /\
  (q_collect q = true ->
  (In i (ids (waiting q)) -> exists old l, rows = old ++ [l] /\ Forall row_ended old /\ row_waiting l /\ eLe (r_arr l) (q_now q)) /\
  (In i (ids (in_service q)) -> exists old l, rows = old ++ [l] /\ Forall row_ended old /\ row_in_service l /\ eLe (r_srv l) (q_now q))).
Proof. exact rows_ordered. Qed.
Print Assumptions C17_rows_ordered.

(** The first agent has left, two are served, one waits, others were turned
    away. *)
Example C17_example : exists q,
  run_ops (OActive :: nexts 8) (ex_queue CLoss) = Ok q /\ q_collect q = true /\ q_now q = Fin 7 /\
  ids (waiting q) = [(7%nat, 6)] /\ ids (in_service q) = [(7%nat, 1); (7%nat, 2)] /\
  rows_of (q_data q) (7%nat, 0) = [mkData (Fin 1) (Fin 1) (Fin 6) 0 1] /\
  rows_of (q_data q) (7%nat, 2) = [mkData (Fin 3) (Fin 6) (Fin 0) 1 3] /\
  rows_of (q_data q) (7%nat, 3) = [mkData (Fin 4) (Fin 0) (Fin 0) 1 3] /\
  rows_of (q_data q) (7%nat, 6) = [mkData (Fin 7) (Fin 0) (Fin 0) 1 3].
Proof. eexists; split; [vm_compute; reflexivity|]. vm_compute. auto 12. Qed.

(** ** C18 *)

(** Switching data collection off while an agent's earlier visit is on
    record, and on again during a later visit, overwrites the departure
    time of the earlier visit. *)
Definition ex_again : agent := mkAgent (7%nat, 0) KAgent (Fin 20) 0 false false [] [].
Definition ex_once : qcfg :=
  mkCfg CServer 0%nat 1%nat 7%nat 1
    (fun n t => eadd t (Fin 1)) (fun n t => eadd t (Fin 5)) KAgent (Fin 1) Inf (Fin 1) (Fin 4).
Theorem C18_refuted : exists q1 q2,
  run_ops [OActive; ONext; ONext; OCollect false] (new_queue ex_once (Fin 2) true 0%nat) = Ok q1 /\
  rows_of (q_data q1) (7%nat, 0) = [mkData (Fin 1) (Fin 1) (Fin 6) 0 1] /\ nobody q1 /\
  run_ops [OArrive ex_again; ONext; OCollect true; ONext] q1 = Ok q2 /\
  rows_of (q_data q2) (7%nat, 0) = [mkData (Fin 1) (Fin 1) (Fin 25) 0 1].
Proof.
  eexists; eexists. split; [vm_compute; reflexivity|]. split; [reflexivity|]. split; [split; reflexivity|].
  split; [vm_compute; reflexivity|]. reflexivity.
Qed.
Print Assumptions C18_refuted.

(** While data collection is off nothing is changed; together with
    [C17_rows_ordered], which allows switching while nobody is there, and
    [C59_rows_record], which says that only rows of agents present are
    changed, this is what holds of the claim. *)
Theorem C18_off : forall c s col n q o q',
  c_class c <> CNull -> reach anything (new_queue c s col n) q -> (forall b, o <> OCollect b) -> run_op o q = Ok q' ->
  q_collect q' = q_collect q /\ (no_clear o -> o <> OClearData -> q_collect q = false -> q_data q' = q_data q).
Proof.
  intros c s col n q o q' N R. apply basics_reach in R as [IV C _ _ _]. apply collect_op; [exact IV|congruence].
Qed.
Print Assumptions C18_off.

Theorem C18_switch : forall b q q', run_op (OCollect b) q = Ok q' -> q_data q' = q_data q.
Proof. intros b q q' H. inversion H. reflexivity. Qed.
Print Assumptions C18_switch.

(** Rows of agents that are not there are left alone. *)
Theorem C18_absent : forall c s col n q o r q' i,
  c_class c <> CNull ->
  reach (fun q o => no_clear o /\ fresh q o) (new_queue c s col n) q ->
  no_clear o -> o <> OClearData -> step o q = Ok (r, q') ->
  ~ In i (ids (waiting q)) -> ~ In i (ids (in_service q)) ->
  exists new, rows_of (q_data q') i = rows_of (q_data q) i ++ new.
Proof.
  intros c s col n q o r q' i N R NC ND H W S.
  assert (DI := dinv_reach _ _ _ _ _ N R). assert (DI' := DI). destruct DI as (D & _).
  assert (B := basics_reach _ _ _ _ _ _ R). destruct B as [IV C _ _ _].
  assert (NN : c_class (q_cfg q) <> CNull) by congruence.
  destruct (q_collect q) eqn:CO.
  - assert (OD : o = ONext \/ o <> ONext) by (destruct o; auto; right; discriminate). destruct OD as [->|NX].
    + cbn [step] in H. assert (RS := rows_next _ _ _ IV NN D CO H i). unfold row_step in RS. destruct (arriving q) as [a|] eqn:AR.
      * destruct (aid_eqb (ag_id a) i); [destruct RS as (nw & RS & _); eexists; exact RS|]. exists []. rewrite app_nil_r. exact RS.
      * destruct r as [a|]; [|exists []; rewrite app_nil_r; exact RS].
        destruct (aid_eqb (ag_id a) i) eqn:E.
        { exfalso. apply aid_eqb_eq in E. subst i. assert (M := mem_next _ _ _ IV NN D H (ag_id a)). unfold mem_step in M.
          rewrite AR in M. destruct M as (M & _). destruct (M eq_refl) as (M1 & _). exact (S M1). }
        destruct (began q q' i) eqn:BG; [|exists []; rewrite app_nil_r; exact RS].
        exfalso. assert (M := mem_next _ _ _ IV NN D H i). unfold mem_step in M. rewrite AR, BG in M.
        destruct M as (_ & M). destruct M as (M1 & _); [|exact (W M1)]. intros ->. rewrite (proj2 (aid_eqb_eq _ _) eq_refl) in E. discriminate.
    + assert (E : run_op o q = Ok q') by (destruct o; cbn [step] in H; try congruence; mbind H; congruence).
      destruct (op_other o q q' NX NC ND IV NN D E i) as (M & RR & _). rewrite (RR CO).
      destruct (began q q' i) eqn:BG; [|exists []; rewrite app_nil_r; reflexivity].
      exfalso. destruct M as (M1 & _). exact (W M1).
  - assert (E : run_op o q = Ok q').
    { destruct o; cbn [step] in H; try (mbind H; congruence). cbn [run_op]. rewrite H. reflexivity. }
    assert (OC : (exists b, o = OCollect b) \/ forall b, o <> OCollect b) by (destruct o; eauto; right; discriminate).
    exists []. rewrite app_nil_r. destruct OC as [(b & ->)|OC]; [inversion E; reflexivity|].
    destruct (collect_op o q q' IV NN OC E) as (_ & X). rewrite X by auto. reflexivity.
Qed.
Print Assumptions C18_absent.

(** ** C19 *)

Theorem C19_fetch_data : forall q,
  Permutation (map fst (fetch_data q)) (concat (map snd (q_data q))) /\
  Forall (fun x => snd x = c_idx (q_cfg q)) (fetch_data q) /\
  StronglySorted (fun x y => eLe (r_arr (fst x)) (r_arr (fst y))) (fetch_data q).
Proof. exact fetch_exact. Qed.
Print Assumptions C19_fetch_data.

Theorem C19_per_agent : forall ok c s col n q, reach ok (new_queue c s col n) q ->
  NoDup (map fst (q_data q)) /\
  Permutation (map fst (fetch_data q)) (flat_map (rows_of (q_data q)) (map fst (q_data q))).
Proof. exact fetch_per_agent. Qed.
Print Assumptions C19_per_agent.

(** The second agent comes back after the third has arrived. *)
Example C19_example : exists q,
  run_ops [OActive; ONext; ONext; OArrive (mkAgent (7%nat, 0) KAgent (Fin 4) 0 false false [] []);
           ONext; ONext; ONext] (ex_queue CServer) = Ok q /\
  map fst (q_data q) = [(7%nat, 0); (7%nat, 1); (7%nat, 2); (7%nat, 3)] /\
  map (fun x => r_arr (fst x)) (fetch_data q) = [Fin 1; Fin 2; Fin 3; Fin 4; Fin 4] /\
  zlen (rows_of (q_data q) (7%nat, 0)) = 2.
Proof. eexists; split; [vm_compute; reflexivity|]. vm_compute. auto 12. Qed.

(** ** C20 *)

Theorem C20_capacity : forall c s col n q,
  lossy c -> eLe (Fin 0) (eadd s (c_buffer c)) -> reach never_lowers (new_queue c s col n) q ->
  eLe (Fin (q_nsys q)) (eadd (q_servers q) (c_buffer c)) /\
  (at_capacity q = true <-> Fin (q_nsys q) = eadd (q_servers q) (c_buffer c)).
Proof. exact loss_capacity. Qed.
Print Assumptions C20_capacity.

Example C20_example : exists q,
  run_ops (OActive :: nexts 4) (ex_queue CLoss) = Ok q /\ q_nsys q = 3 /\ q_blocked q = 1 /\
  at_capacity q = true /\ q_servers q = Fin 2 /\ c_buffer (q_cfg q) = Fin 1.
Proof. eexists; split; [vm_compute; reflexivity|]. vm_compute. auto 12. Qed.

(** ** C21 *)

Theorem C21_admitted_or_blocked : forall c s col n q r q',
  lossy c -> reach anything (new_queue c s col n) q -> next_event q = Ok (r, q') ->
  match arriving q with
  | Some a => if at_capacity q
              then q_nsys q' = q_nsys q /\ q_narr q' = q_narr q /\ q_blocked q' = q_blocked q + 1 /\
                   waiting q' = waiting q /\ in_service q' = in_service q
              else q_nsys q' = q_nsys q + 1 /\ q_narr q' = q_narr q + 1 /\ q_blocked q' = q_blocked q /\
                   (ids (waiting q') = ids (waiting q) ++ [ag_id a] \/
                    exists b, ag_id b = ag_id a /\ Permutation (in_service q') (b :: in_service q))
  | None => q_nsys q' <= q_nsys q /\ q_narr q' = q_narr q /\ q_blocked q' = q_blocked q
  end.
Proof.
  intros c s col n q r q' L R H. apply basics_reach in R as [IV C _ _ _]. rewrite <- C in L.
  apply (next_sizes q r q' L IV H).
Qed.
Print Assumptions C21_admitted_or_blocked.

Theorem C21_accounted : forall c s col n q,
  lossy c -> reach (fun q o => alone q o /\ no_clear o) (new_queue c s col n) q ->
  zlen (created q) = q_narr q + q_blocked q + zlen (scheduled q).
Proof.
  intros c s col n q L R. destruct (loss_accounted _ _ _ _ _ L R) as (O & X).
  unfold created, zlen. rewrite map_length, seq_length, Z2Nat.id by exact O. exact X.
Qed.
Print Assumptions C21_accounted.

Example C21_example : exists q q',
  run_ops (OActive :: nexts 4) (ex_queue CLoss) = Ok q /\ next_event q = Ok (None, q') /\
  option_map ag_id (arriving q) = Some (7%nat, 4) /\ q_blocked q' = 2 /\ q_narr q' = 3 /\ zlen (created q') = 6.
Proof. eexists; eexists. split; [vm_compute; reflexivity|]. split; [vm_compute; reflexivity|]. vm_compute. auto 12. Qed.

(** ** C22 *)

(** Everything that can be observed of one is observed of the other. *)
Theorem C22_unlimited_buffer : forall c s col n ops,
  c_class c = CLoss -> c_buffer c = Inf ->
  exec ops (new_queue (as_server_cfg c) s col n) =
    match exec ops (new_queue c s col n) with
    | Ok (log, q) => Ok (map entry_as_server log, as_server q)
    | Err e => Err e
    end /\
  (forall log q, exec ops (new_queue c s col n) = Ok (log, q) -> q_blocked q = 0).
Proof.
  intros c s col n ops C B. assert (U : unb (new_queue c s col n)) by (split; [exact C|split; [exact B|reflexivity]]).
  assert (E : as_server (new_queue c s col n) = new_queue (as_server_cfg c) s col n).
  { unfold as_server, new_queue. cbn [c_class as_server_cfg q_cfg set_q_cfg]. rewrite C. reflexivity. }
  destruct (loss_is_server ops _ U) as (X & Y). rewrite E in X. split; [|exact Y].
  rewrite X. destruct (exec ops (new_queue c s col n)) as [[log q]|]; reflexivity.
Qed.
Print Assumptions C22_unlimited_buffer.

Definition ex_unlimited : qcfg :=
  mkCfg CLoss 0%nat 1%nat 7%nat 1
    (fun n t => eadd t (Fin 1)) (fun n t => eadd t (Fin 5)) KAgent (Fin 100) Inf Inf (Fin 4).
Example C22_example : exists log q,
  exec (OActive :: nexts 9 ++ [OServers (PInt 4)]) (new_queue ex_unlimited (Fin 2) true 0%nat) = Ok (log, q) /\
  q_nsys q = 5 /\ zlen (waiting q) = 1 /\ zlen (in_service q) = 4 /\ q_narr q = 7.
Proof. eexists; eexists. split; [vm_compute; reflexivity|]. vm_compute. auto 12. Qed.

(** ** C23 *)

Theorem C23_absorbs : forall c s col n q,
  c_class c = CNull -> reach anything (new_queue c s col n) q ->
  q_time q = Inf /\ q_now q = Fin 0 /\ next_event_description q = Ok 0 /\ number_queued q = 0 /\
  scheduled q = [] /\ in_service q = [] /\ waiting q = [] /\ q_nsys q = 0 /\ next_event q = Ok (None, q).
Proof. exact null_absorbs. Qed.
Print Assumptions C23_absorbs.

Theorem C23_rows : forall c s n ops q,
  c_class c = CNull -> (forall o, In o ops -> match o with OCollect _ | OClearData => False | _ => True end) ->
  run_ops ops (new_queue c s true n) = Ok q ->
  forall i, rows_of (q_data q) i =
    map (fun a => mkData (ag_time a) (Fin 0) (Fin 0) 0 0) (filter (fun a => aid_eqb (ag_id a) i) (received ops)).
Proof. exact null_rows. Qed.
Print Assumptions C23_rows.

Example C23_example : exists q,
  run_ops [OActive; ONext; OArrive ex_agent; OArrive ex_again; OServers (PInt 3); OArrive (set_ag_time (Fin 9) ex_agent)]
    (ex_queue CNull) = Ok q /\
  rows_of (q_data q) (2%nat, 5) = [mkData (Fin 3) (Fin 0) (Fin 0) 0 0; mkData (Fin 9) (Fin 0) (Fin 0) 0 0] /\
  zlen (q_data q) = 2.
Proof. eexists. split; [vm_compute; reflexivity|]. vm_compute. auto 12. Qed.

(** ** C24 *)

(** One visit of one ResourceAgent, which then brings its resource back:
    a server is lost, although nobody holds one. *)
Definition ex_rc : qcfg :=
  mkCfg CResource 0%nat 1%nat 7%nat 1 (fun n t => eadd t (Fin 1)) (fun n t => eadd t (Fin 5))
    KResource Inf Inf (Fin 0) (Fin 6).
Definition ex_ra : agent := mkAgent (2%nat, 0) KResource (Fin 3) 0 false false [] [].
Theorem C24_refuted : exists q1 a q2 q3,
  run_ops [OArrive ex_ra; ONext] (new_queue ex_rc (Fin 3) false 0%nat) = Ok q1 /\ next_event q1 = Ok (Some a, q2) /\
  ag_has a = true /\ run_ops [OArrive a; ONext] q2 = Ok q3 /\ held q3 = [] /\ q_servers q3 = Fin 2.
Proof.
  do 4 eexists. split; [vm_compute; reflexivity|]. split; [vm_compute; reflexivity|]. split; [reflexivity|].
  split; [vm_compute; reflexivity|]. split; reflexivity.
Qed.
Print Assumptions C24_refuted.

(** What holds: an arrival with a resource gives one server back, every
    other event takes at most two, and never more than there are.  Missing
    for the claim: exactly one is taken per visit. *)
Theorem C24_partial : forall c s col n q r q',
  c_class c = CResource -> reach anything (new_queue c s col n) q -> next_event q = Ok (r, q') ->
  (returns q /\ q_servers q' = eadd (q_servers q) (Fin 1)) \/
  (~ returns q /\ exists k, (k <= 2)%nat /\ q_servers q' = fewer (q_servers q) k /\
                           (k = 0%nat \/ eLe (Fin (Z.of_nat k)) (q_servers q))).
Proof.
  intros c s col n q r q' C R H. destruct (resource_next_reach _ _ _ _ _ _ _ C R H) as [(A & B & _)|(A & k & K & B & D & _)]; [left; auto|].
  right. split; [exact A|]. exists k. auto.
Qed.
Print Assumptions C24_partial.

Theorem C24_nonnegative : forall c s col n q,
  c_class c = CResource -> eLe (Fin 0) s ->
  reach (fun q o => match o with OServers (PInt z) => 0 <= z | _ => True end) (new_queue c s col n) q ->
  eLe (Fin 0) (q_servers q).
Proof. exact resource_nonneg. Qed.
Print Assumptions C24_nonnegative.

Example C24_example : exists q q',
  run_ops (OActive :: nexts 3) (new_queue ex_rc (Fin 4) false 0%nat) = Ok q /\ q_servers q = Fin 2 /\
  run_ops (nexts 4) q = Ok q' /\ q_servers q' = Fin 0.
Proof. eexists; eexists. split; [vm_compute; reflexivity|]. split; [reflexivity|]. split; [vm_compute; reflexivity|]. reflexivity. Qed.

(** ** C25 *)

(** A blocked arrival at a ResourceQueue ends the arrivals from outside. *)
Theorem C25_refuted : exists q,
  run_ops (OActive :: nexts 3) (new_queue ex_rc (Fin 2) false 0%nat) = Ok q /\
  q_active q = true /\ q_blocked q = 1 /\ scheduled q = [] /\
  c_active_cap (q_cfg q) = Inf /\ c_deactive_t (q_cfg q) = Inf.
Proof. eexists. split; [vm_compute; reflexivity|]. vm_compute. auto 12. Qed.
Print Assumptions C25_refuted.

(** The other queues: while active, the newest agent is still to arrive, at
    the time last drawn, unless that time reached [deactive_t]. *)
Theorem C25_goes_on : forall c s col n q,
  c_class c <> CNull -> c_class c <> CResource -> forward c ->
  reach no_past (new_queue c s col n) q -> q_active q = true ->
  (exists a, In a (scheduled q) /\ ag_id a = (c_idx c, q_oarr q - 1) /\ ag_time a = q_next_ct q) \/
  eLe (c_deactive_t c) (q_next_ct q).
Proof. exact arrivals_go_on. Qed.
Print Assumptions C25_goes_on.

Example C25_example : exists q,
  run_ops (OActive :: nexts 5) (ex_queue CLoss) = Ok q /\ q_active q = true /\ q_blocked q = 2 /\
  map ag_id (scheduled q) = [(7%nat, 5)] /\ q_next_ct q = Fin 6.
Proof. eexists. split; [vm_compute; reflexivity|]. vm_compute. auto 12. Qed.

(** ** C26 *)

(** next_event lowers the number of servers one by one (or raises it by one)
    and counts the values above [max_servers]. *)
Theorem C26_over_max : forall c s col n q r q',
  c_class c = CResource -> reach anything (new_queue c s col n) q -> next_event q = Ok (r, q') ->
  (returns q /\ q_servers q' = eadd (q_servers q) (Fin 1) /\
   q_over q' = q_over q + (if eltb (c_max_servers c) (eadd (q_servers q) (Fin 1)) then 1 else 0)) \/
  (~ returns q /\ exists k, (k <= 2)%nat /\ q_servers q' = fewer (q_servers q) k /\
   (k = 0%nat \/ eLe (Fin (Z.of_nat k)) (q_servers q)) /\
   q_over q' = q_over q + exceeding (c_max_servers c) (q_servers q) k).
Proof. exact resource_next_reach. Qed.
Print Assumptions C26_over_max.

Theorem C26_over_max_calls : forall c s col n o q q',
  c_class c = CResource -> reach anything (new_queue c s col n) q -> o <> ONext -> run_op o q = Ok q' ->
  match o with
  | OServers n => exists m, match n with PInt z => m = Fin z | _ => m = Inf end /\ q_servers q' = m /\
       q_over q' = q_over q + (if eltb (c_max_servers c) m then 1 else 0)
  | OClear => q_servers q' = q_servers q /\ q_over q' = 0
  | _ => q_servers q' = q_servers q /\ q_over q' = q_over q
  end.
Proof. exact resource_other_reach. Qed.
Print Assumptions C26_over_max_calls.

(** Nine servers, at most six: one arrival sets 8 (and its second action
    does not set the number), then a return sets 9. *)
Example C26_example : exists q q1 q2,
  run_ops [OServers (PInt 9); OArrive ex_ra] (new_queue ex_rc (Fin 3) false 0%nat) = Ok q /\ q_over q = 1 /\
  run_op ONext q = Ok q1 /\ q_servers q1 = Fin 8 /\ q_over q1 = 2 /\
  run_ops [OArrive (set_ag_has true ex_ra); ONext] q1 = Ok q2 /\ q_servers q2 = Fin 9 /\ q_over q2 = 3.
Proof.
  do 3 eexists. split; [vm_compute; reflexivity|]. split; [reflexivity|]. split; [vm_compute; reflexivity|].
  split; [reflexivity|]. split; [reflexivity|]. split; [vm_compute; reflexivity|]. split; reflexivity.
Qed.

(** ** C27 *)

Theorem C27_agent_learns : forall a q a' q',
  ag_kind a = KInfo -> c_class (q_cfg q) = CInfo -> stamped (q_net q) -> queue_action a q = Ok (a', q') ->
  q' = q /\ length (ag_net a') = length (ag_net a) /\ length (q_net q) = length (ag_net a) /\
  (nr_time (info_at (ag_net a') (c_idx (q_cfg q))) = q_now q /\
   nr_servers (info_at (ag_net a') (c_idx (q_cfg q))) = q_servers q) /\
  (forall j, (j < length (ag_net a))%nat -> j <> c_idx (q_cfg q) ->
     newer_of (info_at (ag_net a) j) (info_at (q_net q) j) (info_at (ag_net a') j)).
Proof. exact agent_learns. Qed.
Print Assumptions C27_agent_learns.

(** The queue, at an arrival that comes strictly before all departures. *)
Theorem C27_queue_learns : forall c s col n q a r q',
  c_class c = CInfo -> reach anything (new_queue c s col n) q -> arriving q = Some a -> ag_kind a = KInfo ->
  (forall b, In b (in_service q) -> eLt (ag_time a) (ag_time b)) -> next_event q = Ok (r, q') ->
  length (q_net q') = length (q_net q) /\ length (ag_net a) = length (q_net q) /\
  (forall j, (j < length (q_net q))%nat -> newer_of (info_at (q_net q) j) (info_at (ag_net a) j) (info_at (q_net q') j)).
Proof.
  intros c s col n q a r q' C R. apply basics_reach in R as [IV CF _ _ _].
  apply queue_learns; [congruence|exact (qi_arr _ IV)|exact (qi_dep _ IV)].
Qed.
Print Assumptions C27_queue_learns.

Definition ex_ic : qcfg :=
  mkCfg CInfo 0%nat 1%nat 0%nat 1 (fun n t => match n with O => Fin 1 | _ => eadd t (Fin 100) end)
    (fun n t => eadd t (Fin 4)) KInfo Inf Inf Inf (Fin 6).
Definition ex_ia (t : Z) : agent :=
  mkAgent (2%nat, 0) KInfo (Fin t) 0 false false (repeat (0, 0, 0) 3) [norow; mkRow (Fin 2) (Fin 5) (1 # 5)%Q; norow].
Example C27_example : exists q q',
  run_ops [OActive; ONext; OArrive (ex_ia 4)] (new_queue ex_ic (Fin 2) false 3%nat) = Ok q /\ arriving q = Some (ex_ia 4) /\
  run_op ONext q = Ok q' /\ map nr_time (q_net q) = [Fin (-1); Fin (-1); Fin (-1)] /\
  map nr_time (q_net q') = [Fin (-1); Fin 2; Fin (-1)] /\
  (exists a, In a (in_service q') /\ ag_id a = (2%nat, 0) /\ map nr_time (ag_net a) = [Fin 4; Fin 2; Fin (-1)]).
Proof.
  eexists; eexists. split; [vm_compute; reflexivity|]. split; [reflexivity|]. split; [vm_compute; reflexivity|].
  split; [reflexivity|]. split; [reflexivity|]. eexists. split; [right; left; reflexivity|]. split; reflexivity.
Qed.

(** An arrival at the time of a departure: the queue learns nothing. *)
Theorem C27_tie_refuted : exists q q',
  run_ops [OActive; ONext; OArrive (ex_ia 5)] (new_queue ex_ic (Fin 2) false 3%nat) = Ok q /\ arriving q = Some (ex_ia 5) /\
  run_op ONext q = Ok q' /\ map nr_time (q_net q') = [Fin (-1); Fin (-1); Fin (-1)].
Proof.
  eexists; eexists. split; [vm_compute; reflexivity|]. split; [reflexivity|]. split; [vm_compute; reflexivity|]. reflexivity.
Qed.
Print Assumptions C27_tie_refuted.

(** ** C28 *)

Definition ex_id : qcfg :=
  mkCfg CInfo 0%nat 1%nat 0%nat 1 (fun n t => eadd t (Fin 1)) (fun n t => eadd t (Fin 4)) KInfo Inf (Fin 3) Inf (Fin 6).
Theorem C28_refuted : exists q,
  run_ops (OActive :: nexts 1) (new_queue ex_id (Fin 2) false 3%nat) = Ok q /\ q_now q = Fin 1 /\
  c_deactive_t (q_cfg q) = Fin 3 /\ next_event q = Err AttributeError.
Proof. eexists. split; [vm_compute; reflexivity|]. vm_compute. auto. Qed.
Print Assumptions C28_refuted.

(** What is true: a call of an InfoQueue raises exactly if it draws an arrival
    time that is not before [deactive_t] (and by C11_all_before no agent is
    ever created for such a time).  Missing: it should not raise. *)
Theorem C28_exact_partial : forall c s col n q o, c_class c = CInfo -> c_factory c = KInfo -> (c_idx c < n)%nat -> s <> Fin 0 ->
  reach (legal n) (new_queue c s col n) q -> legal n q o ->
  (too_late q o -> run_op o q = Err AttributeError) /\ (~ too_late q o -> exists q', run_op o q = Ok q').
Proof.
  intros c s col n q o C K I S R LG. destruct (raises_exactly c s col n q o) as [(_ & T & E)|(T & q' & E)]; [split; [exact I|split; [auto|congruence]]|auto|exact R|exact LG| |].
  - split; [auto|contradiction].
  - split; [intro X; exfalso; apply T; auto|eauto].
Qed.
Print Assumptions C28_exact_partial.

Example C28_example : exists q q', run_ops [OActive] (new_queue ex_id (Fin 2) false 3%nat) = Ok q /\ ~ too_late q ONext /\ run_op ONext q = Ok q' /\ too_late q' ONext.
Proof.
  eexists; eexists. split; [vm_compute; reflexivity|]. split; [|split; [vm_compute; reflexivity|]].
  - intros (a & A & _ & _ & D). vm_compute in A. injection A as <-. vm_compute in D. apply D. reflexivity.
  - eexists. split; [vm_compute; reflexivity|]. vm_compute. repeat split; discriminate.
Qed.

(** ** C29 *)

(** An agent that did not wait has waited a negative time. *)
Theorem C29_refuted : exists q a,
  run_ops [OActive; ONext] (new_queue ex_ic (Fin 2) true 3%nat) = Ok q /\ in_service q = [a] /\
  rows_of (q_data q) (ag_id a) = [mkData (Fin 1) (Fin 1) (Fin 0) 0 1] /\
  nth 0 (ag_stats a) (0, 0, 0) = (-1, 0, 0).
Proof. eexists; eexists. split; [vm_compute; reflexivity|]. split; [reflexivity|]. split; reflexivity. Qed.
Print Assumptions C29_refuted.

(** ** C58 *)

(** An agent enters service with a departure time that service_f returned
    when called with the current time, an agent from outside is scheduled at
    a time that arrival_f returned; service_f is called once per service. *)
Theorem C58_times : forall c s col n q o r q',
  c_class c <> CNull -> reach anything (new_queue c s col n) q -> no_clear o -> (forall t, o <> ODelay t) ->
  step o q = Ok (r, q') -> times_step o q r q'.
Proof.
  intros c s col n q o r q' N R. apply basics_reach in R as [IV C _ _ _]. apply times_op; [exact IV|congruence].
Qed.
Print Assumptions C58_times.

Example C58_example : exists q q',
  run_ops (OActive :: nexts 7) (ex_queue CServer) = Ok q /\ run_op (OServers (PInt 4)) q = Ok q' /\
  q_now q' = Fin 6 /\ q_is q = 3%nat /\ q_is q' = 5%nat /\
  map ag_time (in_service q) = [Fin 7; Fin 11] /\ map ag_time (in_service q') = [Fin 7; Fin 11; Fin 11; Fin 11].
Proof. eexists; eexists. split; [vm_compute; reflexivity|]. split; [vm_compute; reflexivity|]. vm_compute. auto 12. Qed.

(** ** C59 *)

Theorem C59_rows_record : forall c s col n q r q',
  c_class c <> CNull -> c_class c <> CResource ->
  reach (fun q o => no_clear o /\ fresh q o) (new_queue c s col n) q ->
  q_collect q = true -> next_event q = Ok (r, q') ->
  forall i, rows_of (q_data q') i =
    match arriving q, r with
    | Some a, _ =>
      if aid_eqb (ag_id a) i then
        rows_of (q_data q) i ++
          [mkData (q_now q') (if memb i (in_service q') then q_now q' else Fin 0) (Fin 0)
             (zlen (waiting q')) (q_nsys q')]
      else rows_of (q_data q) i
    | None, Some a =>
      if aid_eqb (ag_id a) i then last_upd (row_set_dep (q_now q')) (rows_of (q_data q) i)
      else if began q q' i then last_upd (row_set_srv (q_now q')) (rows_of (q_data q) i)
      else rows_of (q_data q) i
    | None, None => rows_of (q_data q) i
    end.
Proof.
  intros c s col n q r q' N NR R CO H. destruct (dinv_reach _ _ _ _ _ N R) as (D & _).
  apply basics_reach in R as [IV C _ _ _]. apply rows_record; auto; congruence.
Qed.
Print Assumptions C59_rows_record.

Theorem C59_rows_record_calls : forall c s col n q o q',
  c_class c <> CNull -> reach (fun q o => no_clear o /\ fresh q o) (new_queue c s col n) q ->
  q_collect q = true -> o <> ONext -> o <> OClear -> o <> OClearData -> run_op o q = Ok q' ->
  forall i, rows_of (q_data q') i =
    if began q q' i then last_upd (row_set_srv (q_now q')) (rows_of (q_data q) i) else rows_of (q_data q) i.
Proof.
  intros c s col n q o q' N R CO N1 N2 N3 H. destruct (dinv_reach _ _ _ _ _ N R) as (D & _).
  apply basics_reach in R as [IV C _ _ _]. apply (rows_record_other o); auto; congruence.
Qed.
Print Assumptions C59_rows_record_calls.

Example C59_example : exists q q',
  run_ops (OActive :: nexts 6) (ex_queue CServer) = Ok q /\ next_event q = Ok (Some (mkAgent (7%nat, 0) KAgent (Fin 6) 0 false false [(0, 0, 0)] [norow]), q') /\
  arriving q = None /\ began q q' (7%nat, 2) = true /\
  rows_of (q_data q) (7%nat, 0) = [mkData (Fin 1) (Fin 1) (Fin 0) 0 1] /\
  rows_of (q_data q') (7%nat, 0) = [mkData (Fin 1) (Fin 1) (Fin 6) 0 1] /\
  rows_of (q_data q') (7%nat, 2) = [mkData (Fin 3) (Fin 6) (Fin 0) 1 3].
Proof. eexists; eexists. split; [vm_compute; reflexivity|]. split; [vm_compute; reflexivity|]. vm_compute. auto 12. Qed.
