(** * PropsCopy: claim C89: a copy lives the same life *)
From Coq Require Import List ZArith QArith Bool Arith Lia Compare_dec.
From Verif Require Import Base Heap PQueue Queue Network SpecQueue SpecNet NetSteps NetInv NetReach NetClaims1 NetClaims3 NetExamples PropsNet1 SpecCopy CopyProofs.
Import ListNotations.
Open Scope Z_scope.

(** Two networks, however they came about, that are alike.  As long as every
    next event in the first is the event of one queue only, the second comes
    to every state that the first comes to (and the other way round, by
    symmetry): it may need another number of calls, because leftover entries
    of the scheduler take a call each; its clock is not ahead, and shows the
    same time whenever something has happened. *)
Theorem C89_same_life : forall a n b m j nj,
  well_made a -> nreach usual a n -> well_made b -> nreach usual b m -> alike n m -> nruns j n = Ok nj ->
  (forall i ni, (i < j)%nat -> nruns i n = Ok ni -> untied ni) ->
  exists i mi, nruns i m = Ok mi /\ alike nj mi /\ (eLe (nt_t m) (nt_t n) -> eLe (nt_t mi) (nt_t nj)) /\
    (forall p np, j = S p -> nruns p n = Ok np -> nt_queues nj <> nt_queues np -> nt_t mi = nt_t nj).
Proof. exact reached_follow. Qed.
Print Assumptions C89_same_life.

(** A network and its copy, in both directions. *)
Theorem C89_copy_partial : forall n0 n c, well_made n0 -> nreach usual n0 n -> net_copy n = Ok c -> forall j,
  (forall nj, nruns j n = Ok nj -> (forall i ni, (i < j)%nat -> nruns i n = Ok ni -> untied ni) ->
     exists i ci, nruns i c = Ok ci /\ alike nj ci /\ eLe (nt_t ci) (nt_t nj) /\
       (forall p np, j = S p -> nruns p n = Ok np -> nt_queues nj <> nt_queues np -> nt_t ci = nt_t nj)) /\
  (forall cj, nruns j c = Ok cj -> (forall i ci, (i < j)%nat -> nruns i c = Ok ci -> untied ci) ->
     exists i ni, nruns i n = Ok ni /\ alike cj ni /\ eLe (nt_t ni) (nt_t cj) /\
       (forall p cp, j = S p -> nruns p c = Ok cp -> nt_queues cj <> nt_queues cp -> nt_t ni = nt_t cj)).
Proof.
  intros n0 n c W R CP j. destruct (ngood_reach _ _ W R) as [I _]. destruct (copy_exact _ _ I CP) as [E _].
  assert (RC : nreach usual n0 c) by (apply (nreach_step _ _ n KCopy c R Logic.I); exact CP).
  assert (T : nt_t c = nt_t n) by (rewrite E; reflexivity).
  assert (AL : alike n c) by (rewrite E; repeat split). assert (LA : alike c n) by (rewrite E; repeat split).
  split.
  - intros nj RJ UN. destruct (reached_follow _ _ _ _ _ _ W R W RC AL RJ UN) as (i & ci & A & B & C & D). exists i, ci.
    split; [exact A|]. split; [exact B|]. split; [|exact D]. apply C. rewrite T. apply eLe_refl.
  - intros cj RJ UN. destruct (reached_follow _ _ _ _ _ _ W RC W R LA RJ UN) as (i & ni & A & B & C & D). exists i, ni.
    split; [exact A|]. split; [exact B|]. split; [|exact D]. apply C. rewrite T. apply eLe_refl.
Qed.
Print Assumptions C89_copy_partial.

(** ** Examples *)

Definition firstb (l : list queue) (k : nat) : bool :=
  match get l k with Some q => negb (eeqb (q_time q) Inf) && forallb (fun q' => eleb (q_time q) (q_time q')) l | None => false end.

Definition untiedb (n : net) : bool :=
  let ks := seq 0 (length (nt_queues n)) in
  forallb (fun i => forallb (fun j => Nat.eqb i j || negb (firstb (nt_queues n) i && firstb (nt_queues n) j)) ks) ks.

Lemma firstb_due n k : due_first n k -> firstb (nt_queues n) k = true /\ In k (seq 0 (length (nt_queues n))).
Proof.
  intros (q & G & NI & M). split; [|apply in_seq; apply get_lt in G; lia]. unfold firstb. rewrite G. apply andb_true_iff. split.
  - apply negb_true_iff. destruct (eeqb (q_time q) Inf) eqn:E; [apply eeqb_eq in E; contradiction|reflexivity].
  - apply forallb_forall. intros q' IN. apply in_get in IN as (k' & G'). apply eleb_le. exact (M _ _ G').
Qed.

Lemma untiedb_sound n : untiedb n = true -> untied n.
Proof.
  intros U i j Di Dj. destruct (firstb_due _ _ Di) as [Fi Li]. destruct (firstb_due _ _ Dj) as [Fj Lj].
  unfold untiedb in U. rewrite forallb_forall in U. specialize (U _ Li). cbn beta in U. rewrite forallb_forall in U. specialize (U _ Lj). cbn beta in U.
  rewrite Fi, Fj in U. cbn [andb negb] in U. rewrite orb_false_r in U. apply Nat.eqb_eq. exact U.
Qed.

(** After [m] events. *)
Definition later (m : nat) (n : net) : net := match nruns m n with Ok x => x | Err _ => n end.

Definition rivals (arr0 srv0 arr1 srv1 : Z) : net :=
  build [ (net_cfg CServer 0 2 0 1 (steps [] arr0) (steps [] srv0) KAgent (Fin 1), Fin 1);
          (net_cfg CServer 1 2 1 1 (steps [] arr1) (steps [] srv1) KAgent (Fin 1), Fin 1);
          (net_cfg CLoss 2 3 2 1 (steps [] 1) (steps [] 5) KAgent (Fin 1), Fin 1);
          (net_cfg CNull 3 4 3 0 (steps [] 1) (steps [] 1) KAgent Inf, Fin 1) ]
        [[0]; [1]; [2]; [3]; []]%nat Inf true half.

Lemma apart_made : well_made (rivals 1 3 2 9).
Proof. apply build_made. made. Qed.

Lemma tied_made : well_made (rivals 1 2 2 1).
Proof. apply build_made. made. Qed.

(** Here the departures to the LossQueue are at 4 and 11: no ties.  The
    first four events, with what the copy does. *)
Definition apart : net := reached (KInit [0; 1]%nat :: sims 2) (rivals 1 3 2 9).

Example C89_apart : exists c, net_copy apart = Ok c /\ forall j nj, (j <= 4)%nat -> nruns j apart = Ok nj ->
  exists i ci, nruns i c = Ok ci /\ alike nj ci /\ eLe (nt_t ci) (nt_t nj).
Proof.
  assert (R : nreach usual (rivals 1 3 2 9) apart) by (apply reached_usual; vm_compute; reflexivity).
  destruct (copy_total apart) as (c & CP); [apply (ngood_reach _ _ apart_made R)|]. exists c. split; [exact CP|].
  intros j nj J RJ. enough (U : forall i ni, (i < j)%nat -> nruns i apart = Ok ni -> untied ni).
  { destruct (proj1 (C89_copy_partial _ _ _ apart_made R CP j) nj RJ U) as (i & ci & A & B & C & _). eauto. }
  intros i ni L RI. apply untiedb_sound.
  assert (E : ni = later i apart) by (unfold later; rewrite RI; reflexivity). rewrite E.
  do 4 (destruct i as [|i]; [vm_compute; reflexivity|]). lia.
Qed.

Example C89_apart_times : map (fun m => nt_t (later m apart)) [1; 2; 3; 4]%nat = [Fin 4; Fin 9; Fin 11; Fin 16].
Proof. vm_compute. reflexivity. Qed.

(** ** Ties *)

(** Both agents are done at time 3 and the LossQueue has room for one.  The
    scheduler of the network lets queue 0 go first, that of the copy, put
    together anew, queue 1. *)
Definition tied : net := reached (KInit [0; 1]%nat :: sims 2) (rivals 1 2 2 1).
Definition tied_copy : net := match net_copy tied with Ok c => c | Err _ => tied end.

Lemma still m : forall n n', simulate_event n = Ok n -> nruns m n = Ok n' -> n' = n.
Proof.
  induction m as [|m IH]; intros n n' S R; cbn [nruns] in R.
  - exact (eq_sym (f_equal (fun r : res net => match r with Ok x => x | Err _ => n end) R)).
  - rewrite S in R. cbn [bind] in R. exact (IH _ _ S R).
Qed.

Lemma tied_six : nruns 6 tied_copy = Ok (later 6 tied_copy).
Proof. vm_compute. reflexivity. Qed.

Lemma tied_still : simulate_event (later 6 tied_copy) = Ok (later 6 tied_copy).
Proof. vm_compute. reflexivity. Qed.

Lemma tied_end : map q_time (nt_queues (later 6 tied_copy)) = [Inf; Inf; Inf; Inf].
Proof. vm_compute. reflexivity. Qed.

Lemma tied_times i : (i < 6)%nat -> map q_time (nt_queues (later i tied_copy)) <> [Inf; Fin 3; Fin 8; Inf].
Proof. intro L. do 6 (destruct i as [|i]; [vm_compute; discriminate|]). lia. Qed.

Theorem C89_refuted : exists n0 n c nj, well_made n0 /\ nreach usual n0 n /\ net_copy n = Ok c /\ nruns 1 n = Ok nj /\
  forall i ci, nruns i c = Ok ci -> nt_queues ci <> nt_queues nj.
Proof.
  exists (rivals 1 2 2 1), tied, tied_copy, (later 1 tied).
  split; [exact tied_made|]. split; [apply reached_usual; vm_compute; reflexivity|]. split; [vm_compute; reflexivity|]. split; [vm_compute; reflexivity|].
  intros i ci R E. assert (T : map q_time (nt_queues ci) = [Inf; Fin 3; Fin 8; Inf]) by (rewrite E; vm_compute; reflexivity). clear E.
  destruct (le_lt_dec 6 i) as [L|L].
  - replace i with (6 + (i - 6))%nat in R by lia. rewrite (nruns_add 6 _ _ _ tied_six) in R. rewrite (still _ _ _ tied_still R), tied_end in T. discriminate.
  - apply (tied_times i L). replace (later i tied_copy) with ci; [exact T|]. unfold later. rewrite R. reflexivity.
Qed.
Print Assumptions C89_refuted.

(** What the two LossQueues have recorded in the end: the agent of queue 0
    arrived at 3 in the network, and at 9 in its copy. *)
Example C89_records :
  let rows n := match get (nt_queues (later 6 n)) 2 with Some q => map (fun p => (fst p, map r_arr (snd p))) (q_data q) | None => [] end in
  rows tied <> rows tied_copy.
Proof. vm_compute. discriminate. Qed.
