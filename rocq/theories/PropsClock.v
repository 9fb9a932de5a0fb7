(** * PropsClock: only the order of times matters (C100) *)
From Coq Require Import List ZArith QArith Lia Bool Arith.
From Verif Require Import Base Heap PQueue Queue SpecQueue Network SpecNet QueueEffects NetBare NetActive NetStop NetExamples SpecClock Clock ClockNet.
Import ListNotations.
Open Scope Z_scope.

(** The result of calls, with all times read off the clock. *)
Definition result_by {X} (f : X -> X) (r : res X) : res X := match r with Ok x => Ok (f x) | Err e => Err e end.

(** Any calls on a queue, made with all times read off another clock, do what
    the same calls do, read off that clock; they raise when those raise. *)
Theorem C100_queue : forall w A B ops q, clock w -> fits w A B (q_cfg q) ->
  run_ops (map (op_by w) ops) (queue_by w A B q) = result_by (queue_by w A B) (run_ops ops q).
Proof. intros w A B ops q W F. apply (ops_by w A B W ops q F). Qed.
Print Assumptions C100_queue.

Lemma calls_by w A B E : clock w -> forall l n, net_fits w A B E n -> (pauses w (nt_eps n) E \/ Forall no_bas l) ->
  calls l (net_by w A B E n) = result_by (net_by w A B E) (calls l n).
Proof.
  intro W. induction l as [|c l IH]; intros n F P; cbn [calls]; [reflexivity|]. rewrite (call_by w W A B E c n F), bind_rmap. change (@result_by net) with (@rmap net net).
  rewrite rmap_bind. apply bind_ext. intros n1 H. apply IH.
  - apply (call_fits w W A B E c n n1 F); [|exact H]. intro X. destruct P as [P|P]; [exact P|]. inversion P as [|? ? N _]. subst. exfalso. apply N. reflexivity.
  - destruct P as [P|P]; [left|right; inversion P; assumption]. replace (nt_eps n1) with (nt_eps n); [exact P|]. symmetry.
    destruct c as [sel| | |o]; cbn [run_call] in H.
    + apply initialize_keeps in H. tauto.
    + injection H as <-. reflexivity.
    + unfold net_copy in H. destruct (nt_init n); [mbind H|]; injection H as <-; reflexivity.
    + destruct o as [|b m|m|p|m|b]; cbn [run_nop] in H; try (injection H as <-; reflexivity).
      * assert (N := nframe_runs 1 n n1). cbn [nruns] in N. rewrite H in N. destruct (N eq_refl). assumption.
      * exact (on_queues_eps _ _ _ _ H).
      * exact (on_queues_eps _ _ _ _ H).
Qed.

(** The same for any calls on a network: initialize, simulate, clear, copy
    and the settings, with the same random numbers for routing. *)
Theorem C100_network : forall w A B E l n, clock w -> net_fits w A B E n -> Forall no_bas l ->
  calls l (net_by w A B E n) = result_by (net_by w A B E) (calls l n).
Proof. intros w A B E l n W F N. apply (calls_by w A B E W l n F). right. exact N. Qed.
Print Assumptions C100_network.

(** What can be counted is therefore the same: who is in the network and
    where, how many events there were, who left how often. *)
Lemma held_by w A B q : held (queue_by w A B q) = held q.
Proof.
  unfold held, ids, scheduled, in_service, waiting. cbn [queue_by q_arr q_dep q_line]. rewrite map_map.
  assert (G : forall h, map ag_id (agents_in (map (item_by w) h)) = map ag_id (agents_in h)).
  { induction h as [|[|a] h IH]; [reflexivity|exact IH|]. change (ag_id a :: map ag_id (agents_in (map (item_by w) h)) = ag_id a :: map ag_id (agents_in h)). rewrite IH. reflexivity. }
  rewrite !G. reflexivity.
Qed.
Theorem C100_counts : forall w A B E l n n', clock w -> net_fits w A B E n -> Forall no_bas l -> calls l n = Ok n' ->
  exists m, calls l (net_by w A B E n) = Ok m /\ nt_events m = nt_events n' /\ nt_nagents m = nt_nagents n' /\ nt_iu m = nt_iu n' /\
    map held (nt_queues m) = map held (nt_queues n') /\
    map (fun q => (q_departed q, q_narr q, q_blocked q, q_active q)) (nt_queues m) = map (fun q => (q_departed q, q_narr q, q_blocked q, q_active q)) (nt_queues n') /\
    nt_t m = w (nt_t n') /\ map q_time (nt_queues m) = map w (map q_time (nt_queues n')).
Proof.
  intros w A B E l n n' W F N H. exists (net_by w A B E n'). rewrite (C100_network w A B E l n W F N), H. split; [reflexivity|].
  repeat (split; [reflexivity|]). cbn [net_by nt_queues nt_t]. rewrite !map_map. split; [apply map_ext; intro; apply held_by|]. split; [reflexivity|]. split; reflexivity.
Qed.
Print Assumptions C100_counts.

(** ** Units of time *)

Lemma units_clock k : 0 < k -> clock (in_units k).
Proof.
  intro K. split; [|split; [cbn [in_units]; f_equal; lia|reflexivity]]. intros [a|] [b|]; cbn [in_units eltb]; try reflexivity.
  destruct (Z.ltb_spec a b), (Z.ltb_spec (k * a) (k * b)); try reflexivity; nia.
Qed.
Lemma units_pauses k eps : pauses (in_units k) eps (fun i => k * eps i).
Proof. intros i [t|]; cbn [in_units eadd]; [f_equal; lia|reflexivity]. Qed.
Lemma units_add k s t : in_units k (eadd s t) = eadd (in_units k s) (in_units k t).
Proof. destruct s as [s|], t as [t|]; cbn [in_units eadd]; try reflexivity. f_equal. lia. Qed.

Lemma while_by w A B E stop : clock w -> forall fuel n, net_fits w A B E n ->
  net_simulate_while fuel (w stop) (net_by w A B E n) = option_map (result_by (net_by w A B E)) (net_simulate_while fuel stop n).
Proof.
  intro W. induction fuel as [|f IH]; intros n F; cbn [net_simulate_while]; change (nt_t (net_by w A B E n)) with (w (nt_t n)); rewrite (w_lt w W); destruct (eltb (nt_t n) stop); try reflexivity.
  rewrite (event_by w W A B E n F). destruct (simulate_event n) as [n1|e] eqn:H; cbn [rmap]; [|reflexivity]. apply IH. exact (event_fits w A B E n n1 F H).
Qed.

(** Minutes or hours: if all functions are written in units [k] times
    smaller, then every call - under BAS too, if the waiting time before the
    next try is in these units - has the same result in these units. *)
Theorem C100_units : forall k A B l n, 0 < k -> Forall (fun q => fits (in_units k) A B (q_cfg q)) (nt_queues n) ->
  let n' := net_by (in_units k) A B (fun i => k * nt_eps n i) n in
  calls l n' = result_by (net_by (in_units k) A B (fun i => k * nt_eps n i)) (calls l n) /\
  forall fuel t, simulate_time fuel (in_units k t) n' = option_map (result_by (net_by (in_units k) A B (fun i => k * nt_eps n i))) (simulate_time fuel t n).
Proof.
  intros k A B l n K F. cbv zeta. assert (W := units_clock k K). assert (P := units_pauses k (nt_eps n)).
  assert (NF : net_fits (in_units k) A B (fun i => k * nt_eps n i) n) by (split; [exact F | intro; exact P]). split.
  - apply calls_by; [exact W|exact NF|left; exact P].
  - intros fuel t. unfold simulate_time. cbn [net_by nt_init nt_t]. rewrite <- units_add. destruct (nt_init n); [|reflexivity]. apply while_by; assumption.
Qed.
Print Assumptions C100_units.

(** There always are such functions. *)
Theorem C100_units_exist : forall k n, 0 < k -> (forall i q, get (nt_queues n) i = Some q -> c_idx (q_cfg q) = i /\ c_class (q_cfg q) <> CInfo) ->
  exists A B, Forall (fun q => fits (in_units k) A B (q_cfg q)) (nt_queues n).
Proof.
  intros k n K H. set (back := fun t => match t with Fin z => Fin (z / k) | Inf => Inf end).
  assert (BK : forall t, back (in_units k t) = t) by (intros [t|]; cbn; [f_equal; rewrite Z.mul_comm; apply Z.div_mul; lia|reflexivity]).
  exists (fun i j t => match get (nt_queues n) i with Some q => in_units k (c_arr (q_cfg q) j (back t)) | None => t end),
         (fun i j t => match get (nt_queues n) i with Some q => in_units k (c_srv (q_cfg q) j (back t)) | None => t end).
  apply Forall_forall. intros q IN. apply In_nth_error in IN as [i G]. destruct (H i q G) as [I N]. change (get (nt_queues n) i = Some q) in G.
  split; [exact N|]. rewrite I, G. split; intros j t; rewrite BK; reflexivity.
Qed.
Print Assumptions C100_units_exist.

(** ** Examples *)

(** A clock that goes three times as fast from 10 on, and its reading
    backwards. *)
Definition hasty (t : ext) : ext := match t with Fin z => Fin (if z <? 10 then z else 3 * z - 20) | Inf => Inf end.
Definition unhasty (t : ext) : ext := match t with Fin z => Fin (if z <? 10 then z else (z + 20) / 3) | Inf => Inf end.
Lemma hasty_clock : clock hasty.
Proof.
  split; [|split; reflexivity]. intros [a|] [b|]; cbn [hasty eltb]; try reflexivity.
  destruct (Z.ltb_spec a 10), (Z.ltb_spec b 10), (Z.ltb_spec a b); try reflexivity; try lia; (apply Z.ltb_lt || apply Z.ltb_ge); lia.
Qed.
Lemma unhasty_hasty t : unhasty (hasty t) = t.
Proof.
  destruct t as [z|]; [|reflexivity]. cbn [hasty unhasty]. f_equal. destruct (Z.ltb_spec z 10) as [L|L].
  - destruct (Z.ltb_spec z 10); [reflexivity|lia].
  - destruct (Z.ltb_spec (3 * z - 20) 10); [lia|]. replace (3 * z - 20 + 20) with (z * 3) by lia. apply Z.div_mul. lia.
Qed.
Definition hasty_f (f : qcfg -> nat -> ext -> ext) (qs : list queue) (i j : nat) (t : ext) : ext :=
  match get qs i with Some q => hasty (f (q_cfg q) j (unhasty t)) | None => t end.
Definition lossy : net := two_ways_net Inf false.
Definition hasty_lossy : net := net_by hasty (hasty_f c_arr two_ways) (hasty_f c_srv two_ways) (nt_eps lossy) lossy.

Lemma lossy_fits : net_fits hasty (hasty_f c_arr two_ways) (hasty_f c_srv two_ways) (nt_eps lossy) lossy.
Proof.
  split; [|discriminate]. repeat (apply Forall_cons; [split; [discriminate|split; intros j t; unfold hasty_f; cbn [get nth_error two_ways new_queue q_cfg net_cfg c_idx c_arr c_srv]; rewrite unhasty_hasty; reflexivity]|]).
  apply Forall_nil.
Qed.
(** 26 events end at 14; on the hasty clock at 22; everything else is the
    same. *)
Definition tallies (n : net) : list (Z * Z) := map (fun q => (q_departed q, q_blocked q)) (nt_queues n).
Example C100_network_example : clock hasty /\ net_fits hasty (hasty_f c_arr two_ways) (hasty_f c_srv two_ways) (nt_eps lossy) lossy /\
  Forall no_bas (KInit [0%nat] :: sims 26) /\
  (exists n, calls (KInit [0%nat] :: sims 26) lossy = Ok n /\ nt_t n = Fin 14 /\ tallies n = [(5, 0); (1, 6); (0, 0); (0, 0)]) /\
  (exists m, calls (KInit [0%nat] :: sims 26) hasty_lossy = Ok m /\ nt_t m = Fin 22 /\ tallies m = [(5, 0); (1, 6); (0, 0); (0, 0)]).
Proof.
  split; [exact hasty_clock|]. split; [exact lossy_fits|]. split; [apply Forall_forall; intros c IN; unfold sims in IN; destruct IN as [<-|IN]; [|apply repeat_spec in IN; subst c]; discriminate|].
  split; eexists; (split; [vm_compute; reflexivity|]); split; vm_compute; reflexivity.
Qed.

(** A queue with two servers: switched on, four events, a delay until 13 (19
    on the hasty clock), four events more. *)
Definition hasty_calls : list qop := [OActive; ONext; ONext; ONext; ONext; ODelay (Some (Fin 13)); ONext; ONext; ONext; ONext].
Definition hasty_q : queue := new_queue (net_cfg CServer 0 1 0 1 (steps [] 3) (steps [] 7) KAgent Inf) (Fin 2) true 1.
Example C100_queue_example : clock hasty /\ fits hasty (hasty_f c_arr [hasty_q]) (hasty_f c_srv [hasty_q]) (q_cfg hasty_q) /\
  (exists q, run_ops hasty_calls hasty_q = Ok q /\ (q_now q, q_departed q, held q) = (Fin 17, 3, [(0%nat, 5); (0%nat, 3); (0%nat, 4)])) /\
  (exists q, run_ops (map (op_by hasty) hasty_calls) (queue_by hasty (hasty_f c_arr [hasty_q]) (hasty_f c_srv [hasty_q]) hasty_q) = Ok q /\ (q_now q, q_departed q, held q) = (Fin 31, 3, [(0%nat, 5); (0%nat, 3); (0%nat, 4)])).
Proof.
  split; [exact hasty_clock|]. split.
  { split; [discriminate|]. split; intros j t; unfold hasty_f; cbn [get nth_error hasty_q new_queue q_cfg net_cfg c_idx c_arr c_srv]; rewrite unhasty_hasty; reflexivity. }
  split; eexists; (split; [vm_compute; reflexivity|vm_compute; reflexivity]).
Qed.

(** Two streams before a LossQueue with one place; [eps] is 2. *)
Definition rivals : net :=
  new_net [ new_queue (net_cfg CServer 0 2 0 1 (steps [1; 2] 1) (steps [] 1) KAgent (Fin 2)) (Fin 1) true 4;
            new_queue (net_cfg CServer 1 2 1 1 (steps [] 12) (steps [] 1) KAgent (Fin 1)) (Fin 1) true 4;
            new_queue (net_cfg CLoss 2 3 2 2 (steps [] 1) (steps [] 10) KAgent Inf) (Fin 1) true 4;
            new_queue (net_cfg CNull 3 4 3 0 (steps [] 1) (steps [] 1) KAgent Inf) (Fin 1) true 4 ]
          [[0]; [1]; [2]; [3]; []]%nat Inf true (Inf, 0%nat) half (fun _ => 2).
Definition arr10 (i : nat) : nat -> ext -> ext := match i with 0%nat => steps [10; 20] 10 | 1%nat => steps [] 120 | _ => steps [] 10 end.
Definition srv10 (i : nat) : nat -> ext -> ext := match i with 2%nat => steps [] 100 | _ => steps [] 10 end.
Definition rivals10 : net := net_by (in_units 10) arr10 srv10 (nt_eps rivals) rivals.
Lemma rivals_made : well_made rivals.
Proof.
  unfold well_made, rivals. do 7 eexists. split; [reflexivity|]. split; [|intro; lia].
  intros k q G. destruct k as [|[|[|[|k]]]]; [| | | |destruct k; discriminate]; injection G as <-; do 4 eexists; (split; [reflexivity|]); (split; [reflexivity|]); split; apply steps_forward; reflexivity.
Qed.
Lemma units_steps k l a j t : steps (map (Z.mul k) l) (k * a) j (in_units k t) = in_units k (steps l a j t).
Proof. unfold steps. rewrite units_add. cbn [in_units]. rewrite map_nth. reflexivity. Qed.
Lemma rivals_fit : Forall (fun q => fits (in_units 10) arr10 srv10 (q_cfg q)) (nt_queues rivals).
Proof.
  repeat (apply Forall_cons; [split; [discriminate|split; intros j t; cbn [new_queue q_cfg net_cfg c_idx c_arr c_srv arr10 srv10]; rewrite <- units_steps; reflexivity]|]). apply Forall_nil.
Qed.
Definition exit_order (n : net) : list aid := match get (nt_queues n) 3 with Some q => map fst (q_data q) | None => [] end.

(** False: under BAS the result does not depend on the unit.  The waiting
    time before the next try, EPS, is a number and not a part of the service
    times (queue_network.py:1326).  Here the second agent from queue 0 tries
    again 2 after the place has become free; in units ten times as large
    somebody from queue 1 is faster. *)
Theorem C100_refuted : exists k A B n l n1 n2, 0 < k /\ well_made n /\ nt_bas n = true /\ Forall (fun q => fits (in_units k) A B (q_cfg q)) (nt_queues n) /\
  calls l n = Ok n1 /\ calls l (net_by (in_units k) A B (nt_eps n) n) = Ok n2 /\
  exit_order n1 = [(0%nat, 0); (1%nat, 0); (0%nat, 1)] /\ exit_order n2 = [(0%nat, 0); (0%nat, 1); (1%nat, 0)].
Proof.
  exists 10, arr10, srv10, rivals, (KInit [0%nat; 1%nat] :: sims 16). do 2 eexists. split; [lia|]. split; [exact rivals_made|]. split; [reflexivity|]. split; [exact rivals_fit|].
  split; [vm_compute; reflexivity|]. split; [vm_compute; reflexivity|]. split; vm_compute; reflexivity.
Qed.
Print Assumptions C100_refuted.

(** With EPS in the same unit the order is the same. *)
Example C100_units_example : Forall (fun q => fits (in_units 10) arr10 srv10 (q_cfg q)) (nt_queues rivals) /\
  exists n, calls (KInit [0%nat; 1%nat] :: sims 16) (net_by (in_units 10) arr10 srv10 (fun i => 10 * nt_eps rivals i) rivals) = Ok n /\
  exit_order n = [(0%nat, 0); (1%nat, 0); (0%nat, 1)].
Proof. split; [exact rivals_fit|]. eexists. split; vm_compute; reflexivity. Qed.
Example C100_units_exist_example : forall i q, get (nt_queues rivals) i = Some q -> c_idx (q_cfg q) = i /\ c_class (q_cfg q) <> CInfo.
Proof. intros i q G. destruct i as [|[|[|[|i]]]]; [| | | |destruct i; discriminate]; injection G as <-; split; [reflexivity|discriminate|reflexivity|discriminate|reflexivity|discriminate|reflexivity|discriminate]. Qed.
