(** * PropsParts: claim C102: unconnected parts do not influence each other *)
From Coq Require Import List ZArith QArith Bool Arith Lia Compare_dec.
From Verif Require Import Base Heap PQueue Queue Network SpecQueue SpecNet NetSteps NetInv NetReach NetClaims1 NetClaims3 NetExamples PropsCopy SpecParts Parts.
Import ListNotations.
Open Scope Z_scope.

(** Two networks with the same part [A]; the rest may be anything, and may
    have any number of queues.  No two queues of the part are due together
    in the first one.  Run both as long as you like: the part goes through the
    same states, and only how far it has come may be different. *)
Theorem C102_same_states : forall A n0 n m0 m j nj i mi, well_made n0 -> nreach usual n0 n -> well_made m0 -> nreach usual m0 m ->
  part A n -> part A m -> same_part A n m -> nruns j n = Ok nj -> nruns i m = Ok mi -> (forall p np, (p < j)%nat -> nruns p n = Ok np -> untied_in A np) ->
  (exists p np, (p <= j)%nat /\ nruns p n = Ok np /\ same_part A np mi) \/ (exists p mp, (p <= i)%nat /\ nruns p m = Ok mp /\ same_part A nj mp).
Proof. intros A n0 n m0 m j nj i mi W R W' R'. apply parts_same; [apply (ngood_reach _ _ W R)|apply (ngood_reach _ _ W' R')]. Qed.
Print Assumptions C102_same_states.

(** When the events of the part up to time [s] are over in both networks, the
    part is in the same state: queues, agents, times and data. *)
Theorem C102_same_time : forall A n0 n m0 m j nj i mi s, well_made n0 -> nreach usual n0 n -> well_made m0 -> nreach usual m0 m ->
  part A n -> part A m -> same_part A n m -> nruns j n = Ok nj -> nruns i m = Ok mi -> (forall p np, (p < j)%nat -> nruns p n = Ok np -> untied_in A np) ->
  done_until A s nj -> done_until A s mi -> same_part A nj mi.
Proof. intros A n0 n m0 m j nj i mi s W R W' R'. apply moment_same; [apply (ngood_reach _ _ W R)|apply (ngood_reach _ _ W' R')]. Qed.
Print Assumptions C102_same_time.

(** Both networks pass such a state on their way to a time after [s]. *)
Theorem C102_every_time : forall A n0 n m0 m j nj i mi s, well_made n0 -> nreach usual n0 n -> well_made m0 -> nreach usual m0 m ->
  part A n -> part A m -> same_part A n m -> nruns j n = Ok nj -> nruns i m = Ok mi -> (forall p np, (p < j)%nat -> nruns p n = Ok np -> untied_in A np) ->
  eLe (nt_t n) s -> eLe (nt_t m) s -> eLt s (nt_t nj) -> eLt s (nt_t mi) ->
  exists p np r mr, (p <= j)%nat /\ (r <= i)%nat /\ nruns p n = Ok np /\ nruns r m = Ok mr /\ done_until A s np /\ done_until A s mr /\ same_part A np mr.
Proof. intros A n0 n m0 m j nj i mi s W R W' R'. apply times_same; [apply (ngood_reach _ _ W R)|apply (ngood_reach _ _ W' R')]. Qed.
Print Assumptions C102_every_time.

(** An event outside leaves the part as it is. *)
Theorem C102_outside : forall A n0 n n', well_made n0 -> nreach usual n0 n -> part A n -> simulate_event n = Ok n' ->
  same_part A n n' \/ exists k, first_in A n k /\ exists q, get (nt_queues n) k = Some q /\ nt_t n' = q_time q.
Proof.
  intros A n0 n n' W R P H. destruct (event_in A n n' (proj1 (ngood_reach _ _ W R)) P H) as [E|(k & F & _ & T)]; [left; exact E|right; exists k; split; [exact F|exact T]].
Qed.
Print Assumptions C102_outside.

(** ** Examples *)

Definition first_inb (A : nat -> bool) (l : list queue) (k : nat) : bool :=
  A k && match get l k with
         | Some q => negb (eeqb (q_time q) Inf) && forallb (fun j => negb (A j) || match get l j with Some q' => eleb (q_time q) (q_time q') | None => true end) (seq 0 (length l))
         | None => false
         end.
Definition untied_inb (A : nat -> bool) (n : net) : bool :=
  let ks := seq 0 (length (nt_queues n)) in
  forallb (fun i => forallb (fun j => Nat.eqb i j || negb (first_inb A (nt_queues n) i && first_inb A (nt_queues n) j)) ks) ks.
Lemma first_inb_due A n k : first_in A n k -> first_inb A (nt_queues n) k = true /\ In k (seq 0 (length (nt_queues n))).
Proof.
  intros [a (q & G & NI & M)]. split; [|apply in_seq; apply get_lt in G; lia]. unfold first_inb. rewrite a, G. cbn [andb]. apply andb_true_iff. split.
  - apply negb_true_iff. destruct (eeqb (q_time q) Inf) eqn:E; [apply eeqb_eq in E; contradiction|reflexivity].
  - apply forallb_forall. intros j IN. destruct (A j) eqn:b; [|reflexivity]. cbn [negb orb]. destruct (get (nt_queues n) j) as [q'|] eqn:G'; [|reflexivity]. apply eleb_le. exact (M j q' b G').
Qed.
Lemma untied_inb_sound A n : untied_inb A n = true -> untied_in A n.
Proof.
  intros U i j Di Dj. destruct (first_inb_due _ _ _ Di) as [Fi Li]. destruct (first_inb_due _ _ _ Dj) as [Fj Lj].
  unfold untied_inb in U. rewrite forallb_forall in U. specialize (U _ Li). cbn beta in U. rewrite forallb_forall in U. specialize (U _ Lj). cbn beta in U.
  rewrite Fi, Fj in U. cbn [andb negb] in U. rewrite orb_false_r in U. apply Nat.eqb_eq. exact U.
Qed.
Definition partb (A : nat -> bool) (n : net) : bool :=
  forallb (fun k => match get (nt_queues n) k with
    | Some q => match get (nt_out n) (c_tgt (q_cfg q)) with Some l => forallb (fun e => Bool.eqb (A e) (A k)) l && (negb (A k) || (length l <=? 1)%nat) | None => true end
    | None => true end) (seq 0 (length (nt_queues n))).
Lemma partb_sound A n : partb A n = true -> nt_max n = Inf -> (forall i, nt_eps n i = nt_eps n 0%nat) -> part A n.
Proof.
  intros B M E. unfold partb in B. rewrite forallb_forall in B.
  assert (K : forall k q l, get (nt_queues n) k = Some q -> get (nt_out n) (c_tgt (q_cfg q)) = Some l -> forallb (fun e => Bool.eqb (A e) (A k)) l && (negb (A k) || (length l <=? 1)%nat) = true).
  { intros k q l G L. specialize (B k ltac:(apply in_seq; apply get_lt in G; lia)). rewrite G, L in B. exact B. }
  split; [| |exact M|intros _; exact E].
  - intros k q l e G L IN. specialize (K k q l G L). apply andb_true_iff in K as [K _]. rewrite forallb_forall in K. apply eqb_prop. exact (K e IN).
  - intros k q l a G L. specialize (K k q l G L). apply andb_true_iff in K as [_ K]. rewrite a in K. apply Nat.leb_le. exact K.
Qed.

(** Two QueueServers before a LossQueue with one place, and next to them
    nothing, or a QueueServer with two servers that is never empty. *)
Definition four (k : nat) : bool := (k <? 4)%nat.
Definition beside (rest : list (qcfg * ext)) (out : list (list nat)) : net :=
  build ([ (net_cfg CServer 0 2 0 1 (steps [10; 20] 22) (steps [] 3) KAgent (Fin 3), Fin 1);
           (net_cfg CServer 1 2 1 1 (steps [] 15) (steps [] 2) KAgent (Fin 1), Fin 1);
           (net_cfg CLoss 2 3 2 2 (steps [] 1) (steps [] 9) KAgent Inf, Fin 1);
           (net_cfg CNull 3 4 3 0 (steps [] 1) (steps [] 1) KAgent Inf, Fin 1) ] ++ rest)
    ([[0]; [1]; [2]; [3]; []]%nat ++ out) Inf true half.
Definition alone : net := beside [] [].
Definition shared : net :=
  beside [ (net_cfg CServer 5 6 4 1 (steps [] 4) (steps [] 7) KAgent Inf, Fin 2); (net_cfg CNull 6 7 5 0 (steps [] 1) (steps [] 1) KAgent Inf, Fin 1) ] [[4]; [5]; []]%nat.
Lemma alone_made : well_made alone.
Proof. apply build_made. made. Qed.
Lemma shared_made : well_made shared.
Proof. apply build_made. made. Qed.
Definition alone1 : net := reached [KInit [0; 1]%nat] alone.
Definition shared1 : net := reached [KInit [0; 1; 4]%nat] shared.

Lemma same_four n m : nt_bas m = nt_bas n -> nt_eps m 0%nat = nt_eps n 0%nat -> firstn 4 (nt_queues m) = firstn 4 (nt_queues n) ->
  map (fun q => get (nt_out m) (c_tgt (q_cfg q))) (nt_queues n) = map (fun q => get (nt_out n) (c_tgt (q_cfg q))) (nt_queues n) -> same_part four n m.
Proof.
  intros B E Q O. split; [exact B|intros _; exact E| |].
  - intros k a. unfold four in a. apply Nat.ltb_lt in a. unfold get.
    assert (F : forall l : list queue, nth_error l k = nth_error (firstn 4 l) k).
    { intro l. do 4 (destruct k as [|k]; [do 4 (destruct l as [|? l]; [reflexivity|]); reflexivity|]). lia. }
    rewrite (F (nt_queues m)), (F (nt_queues n)), Q. reflexivity.
  - intros k q a G. unfold get in G. apply (f_equal (fun l => nth_error l k)) in O. rewrite !nth_error_map, G in O. cbn [option_map] in O. congruence.
Qed.
Example C102_parts : part four alone1 /\ part four shared1 /\ same_part four alone1 shared1.
Proof.
  split; [apply partb_sound; [vm_compute; reflexivity|vm_compute; reflexivity|vm_compute; reflexivity]|]. split; [apply partb_sound; [vm_compute; reflexivity|vm_compute; reflexivity|vm_compute; reflexivity]|].
  apply same_four; vm_compute; reflexivity.
Qed.
Lemma alone_untied p np : (p < 13)%nat -> nruns p alone1 = Ok np -> untied_in four np.
Proof.
  intros L R. apply untied_inb_sound. assert (E : np = later p alone1) by (unfold later; rewrite R; reflexivity). rewrite E.
  do 13 (destruct p as [|p]; [vm_compute; reflexivity|]). lia.
Qed.
(** The agent of queue 1 is blocked at 17 until 23.  Alone the part has come
    to time 33 after nine events, and next to the other one after 23. *)
Example C102_example : exists n m, nruns 9 alone1 = Ok n /\ nruns 23 shared1 = Ok m /\ same_part four n m /\ done_until four (Fin 33) n /\ done_until four (Fin 33) m /\
  map q_time (nt_queues n) = [Fin 52; Inf; Fin 42; Inf] /\ map q_time (nt_queues m) = [Fin 52; Inf; Fin 42; Inf; Fin 35; Inf] /\
  option_map q_data (get (nt_queues n) 3) = option_map q_data (get (nt_queues m) 3) /\
  map (fun m => nt_t (later m alone1)) [1; 2; 3; 4; 5; 6; 7; 8; 9]%nat = map Fin [10; 13; 15; 17; 22; 23; 30; 32; 33].
Proof.
  assert (R : nruns 9 alone1 = Ok (later 9 alone1)) by (vm_compute; reflexivity). assert (T : nruns 23 shared1 = Ok (later 23 shared1)) by (vm_compute; reflexivity).
  assert (QA : map q_time (nt_queues (later 9 alone1)) = [Fin 52; Inf; Fin 42; Inf]) by (vm_compute; reflexivity).
  assert (QB : map q_time (nt_queues (later 23 shared1)) = [Fin 52; Inf; Fin 42; Inf; Fin 35; Inf]) by (vm_compute; reflexivity).
  assert (DA : done_until four (Fin 33) (later 9 alone1)).
  { split; [vm_compute; discriminate|]. intros k q a G. apply (f_equal (fun l => get l k)) in QA. unfold get in QA, G. rewrite nth_error_map, G in QA. cbn [option_map] in QA.
    destruct k as [|[|[|[|k]]]]; [..|vm_compute in a; discriminate a]; cbn [nth_error] in QA; injection QA as QA; refine (eq_ind_r (eLt (Fin 33)) _ QA); exact Logic.I || (vm_compute; reflexivity). }
  assert (DB : done_until four (Fin 33) (later 23 shared1)).
  { split; [vm_compute; discriminate|]. intros k q a G. apply (f_equal (fun l => get l k)) in QB. unfold get in QB, G. rewrite nth_error_map, G in QB. cbn [option_map] in QB.
    destruct k as [|[|[|[|k]]]]; [..|vm_compute in a; discriminate a]; cbn [nth_error] in QB; injection QB as QB; refine (eq_ind_r (eLt (Fin 33)) _ QB); exact Logic.I || (vm_compute; reflexivity). }
  destruct C102_parts as (P1 & P2 & SP). exists (later 9 alone1), (later 23 shared1). split; [exact R|]. split; [exact T|].
  assert (S0 : same_part four (later 9 alone1) (later 23 shared1)).
  { apply (C102_same_time four alone alone1 shared shared1 9 _ 23 _ (Fin 33) alone_made ltac:(apply reached_usual; vm_compute; reflexivity) shared_made ltac:(apply reached_usual; vm_compute; reflexivity) P1 P2 SP R T); [|exact DA|exact DB].
    intros p np L. apply alone_untied. lia. }
  split; [exact S0|]. split; [exact DA|]. split; [exact DB|]. split; [exact QA|]. split; [exact QB|]. split; [rewrite (sp_queues _ _ _ S0 3%nat eq_refl); reflexivity|vm_compute; reflexivity].
Qed.

(** ** Ties *)

(** Two agents are done at time 6 and the LossQueue has room for one.  Who
    comes first depends on whether somebody is served in another part of the
    network: the scheduler is a heap that compares times only
    (priority_queue.pyx:131-186), and the entries of the other part change its
    shape. *)
Definition tied_part : net :=
  build [ (net_cfg CServer 0 2 0 1 (steps [] 3) (steps [] 3) KAgent (Fin 1), Fin 1);
          (net_cfg CServer 1 2 1 1 (steps [] 4) (steps [] 2) KAgent (Fin 1), Fin 1);
          (net_cfg CLoss 2 3 2 2 (steps [] 1) (steps [] 9) KAgent Inf, Fin 1);
          (net_cfg CNull 3 4 3 0 (steps [] 1) (steps [] 1) KAgent Inf, Fin 1);
          (net_cfg CServer 5 6 4 1 (steps [] 2) (steps [] 2) KAgent Inf, Fin 2);
          (net_cfg CNull 6 7 5 0 (steps [] 1) (steps [] 1) KAgent Inf, Fin 1) ]
        [[0]; [1]; [2]; [3]; []; [4]; [5]; []]%nat Inf true half.
Lemma tied_part_made : well_made tied_part.
Proof. apply build_made. made. Qed.
Definition off1 : net := reached [KInit [0; 1]%nat] tied_part.
Definition on1 : net := reached [KInit [0; 1; 4]%nat] tied_part.
Definition exits (n : net) : list aid := match get (nt_queues n) 3 with Some q => map fst (q_data q) | None => [] end.
Lemma done_four s n l : nt_t n = s -> map q_time (nt_queues n) = l -> forallb (eltb s) (firstn 4 l) = true -> done_until four s n.
Proof.
  intros T <- B. split; [rewrite T; apply eLe_refl|]. intros k q a G. unfold four in a. apply Nat.ltb_lt in a. rewrite forallb_forall in B. apply eltb_lt. apply B. rewrite firstn_map. apply in_map.
  apply nth_error_In with (n := k). unfold get in *. revert G. generalize (nt_queues n). intros q0 G. rewrite <- G.
  do 4 (destruct k as [|k]; [do 4 (destruct q0 as [|? q0]; [reflexivity|]); reflexivity|]). lia.
Qed.
Theorem C102_refuted : exists A n0 n m j i nj mi s, well_made n0 /\ nreach usual n0 n /\ nreach usual n0 m /\ part A n /\ part A m /\ same_part A n m /\
  nruns j n = Ok nj /\ nruns i m = Ok mi /\ done_until A s nj /\ done_until A s mi /\ exits nj = [(0%nat, 0); (1%nat, 0)] /\ exits mi = [(1%nat, 0); (0%nat, 0)].
Proof.
  exists four, tied_part, off1, on1, 7%nat, 30%nat, (later 7 off1), (later 30 on1), (Fin 25). split; [exact tied_part_made|].
  split; [apply reached_usual; vm_compute; reflexivity|]. split; [apply reached_usual; vm_compute; reflexivity|].
  split; [apply partb_sound; vm_compute; reflexivity|]. split; [apply partb_sound; vm_compute; reflexivity|].
  split; [apply same_four; vm_compute; reflexivity|]. split; [vm_compute; reflexivity|]. split; [vm_compute; reflexivity|].
  split; [eapply done_four; vm_compute; reflexivity|]. split; [eapply done_four; vm_compute; reflexivity|]. split; vm_compute; reflexivity.
Qed.
Print Assumptions C102_refuted.
