(** * Parts: unconnected parts of a network do not see each other *)
From Coq Require Import List ZArith QArith Lia Bool Permutation Arith.
From Verif Require Import Base Heap HeapProofs PQueue PQueueProofs Queue QueueEffects QueueSteps QueueInv SpecQueue Network NetQueue NetSteps NetInv SpecNet NetReach NetTotal NetClaims1 NetActive SpecCopy CopyProofs SpecParts.
Import ListNotations.
Open Scope Z_scope.

Section Parts.
Variable A : nat -> bool.

Lemma same_refl n : same_part A n n.
Proof. split; auto. Qed.
Lemma same_trans n m k : same_part A n m -> same_part A m k -> same_part A n k.
Proof.
  intros [B1 E1 Q1 O1] [B2 E2 Q2 O2]. split; [congruence|intro B; rewrite E2 by congruence; auto|intros j a; rewrite Q2, Q1 by exact a; reflexivity|].
  intros j q a G. rewrite (O2 j q a) by (rewrite Q1 by exact a; exact G). exact (O1 j q a G).
Qed.
Lemma same_sym n m : same_part A n m -> same_part A m n.
Proof.
  intros [B1 E1 Q1 O1]. split; [congruence|intro B; symmetry; apply E1; congruence|intros j a; symmetry; apply Q1; exact a|].
  intros j q a G. symmetry. apply (O1 j q a). rewrite <- Q1 by exact a. exact G.
Qed.
Lemma first_same n m k : same_part A n m -> first_in A n k -> first_in A m k.
Proof.
  intros SP [a (q & G & F & M)]. split; [exact a|]. exists q. rewrite (sp_queues _ _ _ SP k a). split; [exact G|]. split; [exact F|].
  intros j qj b GJ. rewrite (sp_queues _ _ _ SP j b) in GJ. exact (M j qj b GJ).
Qed.

Lemma part_step n n' : ninv n -> part A n -> simulate_event n = Ok n' -> part A n'.
Proof.
  intros I P H. assert (F := nframe_event _ _ H). apply simulate_event_Ok in H; [|apply ninv_idx; exact I]. destruct (nst_frame _ _ I H) as [(O & _ & C) _]. split.
  - intros k q l e G L. destruct (C k q G) as (q0 & G0 & E & _). rewrite E, O in L. exact (pa_closed _ _ P k q0 l e G0 L).
  - intros k q l a G L. destruct (C k q G) as (q0 & G0 & E & _). rewrite E, O in L. exact (pa_one _ _ P k q0 l a G0 L).
  - rewrite (nf_max _ _ F). exact (pa_max _ _ P).
  - rewrite (nf_bas _ _ F), (nf_eps _ _ F). exact (pa_eps _ _ P).
Qed.

(** What an event in the part makes of its queues. *)
Inductive result (n : net) (k : nat) : list queue -> Prop :=
| res_arr q r q' : get (nt_queues n) k = Some q -> next_event_description q = Ok 1 -> next_event q = Ok (r, q') -> result n k (upd (nt_queues n) k q')
| res_block q l e2 q2 qm q' td : get (nt_queues n) k = Some q -> next_event_description q = Ok 2 -> get (nt_out n) (c_tgt (q_cfg q)) = Some l -> In e2 l ->
    get (nt_queues n) e2 = Some q2 -> e2 <> k -> at_capacity q2 = true -> mark_blocked q = Ok qm -> root_time (q_dep q2) = Ok td ->
    delay_service (if nt_bas n then Some (eadd td (Fin (nt_eps n 0%nat))) else None) qm = Ok q' ->
    result n k (upd (upd (nt_queues n) e2 (set_q_blocked (q_blocked q2 + 1) q2)) k q')
| res_move q l e2 q2old b q' q2 q2a r q2' : get (nt_queues n) k = Some q -> next_event_description q = Ok 2 -> get (nt_out n) (c_tgt (q_cfg q)) = Some l -> In e2 l ->
    get (nt_queues n) e2 = Some q2old -> (at_capacity q2old = false \/ e2 = k) -> next_event q = Ok (Some b, q') ->
    get (upd (nt_queues n) k q') e2 = Some q2 -> add_arrival (set_ag_time (q_time q) b) q2 = Ok q2a -> next_event q2a = Ok (r, q2') ->
    result n k (upd (upd (nt_queues n) k q') e2 q2').

Lemma stopped_inf ag q : stopped Inf ag q = q.
Proof. unfold stopped. rewrite andb_false_r. reflexivity. Qed.

(** An event leaves the part alone, or is its first event. *)
Lemma event_in n n' : ninv n -> part A n -> simulate_event n = Ok n' ->
  same_part A n n' \/ (exists k, first_in A n k /\ result n k (nt_queues n') /\ exists q, get (nt_queues n) k = Some q /\ nt_t n' = q_time q).
Proof.
  intros I P H. assert (FR := nframe_event _ _ H). assert (ST := sim_nst _ _ I H). clear H.
  assert (KEEP : (forall k, A k = true -> get (nt_queues n') k = get (nt_queues n) k) -> same_part A n n').
  { intro K. split; [exact (nf_bas _ _ FR)|intros; rewrite (nf_eps _ _ FR); reflexivity|exact K|intros k q a G; rewrite (nf_out _ _ FR); reflexivity]. }
  assert (FIRST : forall t k h q d, (0 < pq_size (nt_heap n))%nat -> pq_pop (nt_heap n) = Ok (Some (t, k), h) -> get (nt_queues n) k = Some q ->
    next_event_description q = Ok d -> d <> 0 -> A k = true -> first_in A n k /\ q_time q = t).
  { intros t k h q d SZ PO G D N a. destruct (popped_first _ _ _ _ _ _ I SZ PO G D N) as [(q0 & G0 & F0 & M) T]. assert (q0 = q) by congruence. subst q0.
    split; [split; [exact a|]; exists q; split; [exact G|]; split; [exact F0|]; intros j qj _ GJ; exact (M j qj GJ) | exact T]. }
  destruct ST as [SZ ->|t k h q SZ PO G DS ->|t k h q r q' h' SZ PO G DS NX PU LC ->|
    t k h q a h0 l e2 q2 qm q' d h' iu ie td SZ PO G DS DP OUT IN DD G2 NE CA MB RT DE DL NK PU ->|
    t k h q a h0 l e2 q2old b q' q2 q2a r q2' h' iu SZ PO G DS DP OUT IN DD G2 CA NX G3 AD NX2 PU L1 L2 ->].
  - left. apply KEEP. reflexivity.
  - left. apply KEEP. reflexivity.
  - destruct (A k) eqn:a.
    + right. exists k. destruct (FIRST _ _ _ _ _ SZ PO G DS ltac:(lia) a) as [F T]. split; [exact F|]. rewrite (pa_max _ _ P), stopped_inf in NX.
      split; [eapply res_arr; eassumption|]. exists q. split; [exact G|symmetry; exact T].
    + left. apply KEEP. intros j b. cbn [after nt_queues]. apply get_upd_neq. congruence.
  - assert (AE := pa_closed _ _ P _ _ _ _ G OUT IN). destruct (A k) eqn:c.
    + right. exists k. destruct (FIRST _ _ _ _ _ SZ PO G DS ltac:(lia) c) as [F T]. split; [exact F|]. subst d.
      split; [eapply res_block; try eassumption|exists q; split; [exact G|symmetry; exact T]]. rewrite <- DL. f_equal. destruct (nt_bas n) eqn:BAS; [|reflexivity].
      rewrite (pa_eps _ _ P BAS (nt_ie n)). reflexivity.
    + left. apply KEEP. intros j b. cbn [after nt_queues]. rewrite !get_upd_neq by congruence. reflexivity.
  - assert (AE := pa_closed _ _ P _ _ _ _ G OUT IN). destruct (A k) eqn:c.
    + right. exists k. destruct (FIRST _ _ _ _ _ SZ PO G DS ltac:(lia) c) as [F T]. split; [exact F|]. rewrite (pa_max _ _ P), stopped_inf in NX2. rewrite <- T in AD.
      split; [eapply res_move; eassumption|exists q; split; [exact G|symmetry; exact T]].
    + left. apply KEEP. intros j bb. cbn [after nt_queues]. rewrite !get_upd_neq by congruence. reflexivity.
Qed.

(** This is determined by the part. *)
Lemma one_in {X} (l : list X) x y : (length l <= 1)%nat -> In x l -> In y l -> x = y.
Proof. destruct l as [|a [|b l]]; cbn; intros L HX HY; [destruct HX| |lia]. destruct HX as [<-|[]], HY as [<-|[]]. reflexivity. Qed.
Lemma get_upd_same {X} (l m : list X) i x j : get l j = get m j -> ((i < length l)%nat <-> (i < length m)%nat) -> get (upd l i x) j = get (upd m i x) j.
Proof.
  intros E L. destruct (Nat.eq_dec j i) as [->|N]; [|rewrite !get_upd_neq by exact N; exact E].
  destruct (Compare_dec.lt_dec i (length l)) as [H|H]; [rewrite !get_upd_eq by tauto; reflexivity|].
  assert (OUT : forall k : list X, (length k <= i)%nat -> upd k i x = k).
  { intro k. revert i E L H. clear. intros i _ _ _. revert i. induction k as [|y k IH]; intros [|i] G; cbn in *; [reflexivity|reflexivity|lia|]. rewrite IH by lia. reflexivity. }
  rewrite !OUT by lia. exact E.
Qed.
Lemma result_same n m k qs ps : part A n -> part A m -> same_part A n m -> A k = true -> result n k qs -> result m k ps -> forall j, A j = true -> get ps j = get qs j.
Proof.
  intros P PM SP a RN RM. assert (LEN : forall j, A j = true -> ((j < length (nt_queues m))%nat <-> (j < length (nt_queues n))%nat)).
  { intros j b. assert (E := sp_queues _ _ _ SP j b). rewrite <- !nth_error_Some. unfold get in E. rewrite E. tauto. }
  assert (QK := sp_queues _ _ _ SP k a).
  destruct RN as [q r q' G D N|q l e2 q2 qm q' td G D OUT IN G2 NK CA MB RT DL|q l e2 q2o b q' q2 q2a r q2' G D OUT IN G2 CA N G3 AD N2];
  destruct RM as [p s p' H F O|p l' e2' p2 pm p' td' H F OUT' IN' H2 NK' CA' MB' RT' DL'|p l' e2' p2o b' p' p2 p2a r' p2' H F OUT' IN' H2 CA' N' H3 AD' N2'];
  assert (E : p = q) by congruence; subst p; try congruence.
  - intros j b. assert (E : p' = q') by congruence. rewrite E. apply get_upd_same; [apply (sp_queues _ _ _ SP); exact b|apply LEN; exact a].
  - rewrite (sp_out _ _ _ SP k q a G) in OUT'. assert (l' = l) by congruence. subst l'. assert (e2' = e2) by (eapply one_in; [exact (pa_one _ _ P k q l a G OUT)|eassumption..]). subst e2'.
    assert (ae : A e2 = true) by (rewrite (pa_closed _ _ P k q l e2 G OUT IN); exact a). rewrite (sp_queues _ _ _ SP e2 ae) in H2. assert (p2 = q2) by congruence. subst p2.
    assert (pm = qm) by congruence. subst pm. assert (td' = td) by congruence. subst td'.
    assert (E : p' = q'). { rewrite (sp_bas _ _ _ SP) in DL'. destruct (nt_bas n) eqn:BAS; [rewrite (sp_eps _ _ _ SP BAS) in DL'|]; congruence. } subst p'.
    intros j b. apply get_upd_same; [|rewrite !upd_length; apply LEN; exact a]. apply get_upd_same; [apply (sp_queues _ _ _ SP); exact b|apply LEN; exact ae].
  - exfalso. rewrite (sp_out _ _ _ SP k q a G) in OUT'. assert (l' = l) by congruence. subst l'. assert (e2' = e2) by (eapply one_in; [exact (pa_one _ _ P k q l a G OUT)|eassumption..]). subst e2'.
    assert (ae : A e2 = true) by (rewrite (pa_closed _ _ P k q l e2 G OUT IN); exact a). rewrite (sp_queues _ _ _ SP e2 ae) in H2. assert (p2o = q2) by congruence. subst p2o. destruct CA'; congruence.
  - exfalso. rewrite (sp_out _ _ _ SP k q a G) in OUT'. assert (l' = l) by congruence. subst l'. assert (e2' = e2) by (eapply one_in; [exact (pa_one _ _ P k q l a G OUT)|eassumption..]). subst e2'.
    assert (ae : A e2 = true) by (rewrite (pa_closed _ _ P k q l e2 G OUT IN); exact a). rewrite (sp_queues _ _ _ SP e2 ae) in H2. assert (p2 = q2o) by congruence. subst p2. destruct CA; congruence.
  - rewrite (sp_out _ _ _ SP k q a G) in OUT'. assert (l' = l) by congruence. subst l'. assert (e2' = e2) by (eapply one_in; [exact (pa_one _ _ P k q l a G OUT)|eassumption..]). subst e2'.
    assert (ae : A e2 = true) by (rewrite (pa_closed _ _ P k q l e2 G OUT IN); exact a).
    assert (E : p' = q') by congruence. subst p'. assert (b' = b) by congruence. subst b'.
    assert (GG : forall j, A j = true -> get (upd (nt_queues m) k q') j = get (upd (nt_queues n) k q') j) by (intros j bb; apply get_upd_same; [apply (sp_queues _ _ _ SP); exact bb|apply LEN; exact a]).
    rewrite (GG e2 ae) in H3. assert (p2 = q2) by congruence. subst p2. assert (p2a = q2a) by congruence. subst p2a. assert (p2' = q2') by congruence. subst p2'.
    intros j bb. apply get_upd_same; [exact (GG j bb)|rewrite !upd_length; apply LEN; exact ae].
Qed.

(** ** Histories *)

(** [n] comes in [j] events, [c] of them in the part, to [n']. *)
Inductive film (n : net) : nat -> nat -> net -> Prop :=
| film_here : film n 0 0 n
| film_else j c n1 n2 : film n j c n1 -> simulate_event n1 = Ok n2 -> same_part A n1 n2 -> film n (S j) c n2
| film_in j c n1 n2 k : film n j c n1 -> simulate_event n1 = Ok n2 -> first_in A n1 k -> result n1 k (nt_queues n2) ->
    (exists q, get (nt_queues n1) k = Some q /\ nt_t n2 = q_time q) -> film n (S j) (S c) n2.

Lemma nruns_snoc j n n1 : nruns j n = Ok n1 -> nruns (S j) n = simulate_event n1.
Proof.
  intro R. replace (S j) with (j + 1)%nat by lia. rewrite (nruns_add _ _ _ _ R). cbn [nruns]. destruct (simulate_event n1); reflexivity.
Qed.
Lemma film_runs n j c n' : film n j c n' -> nruns j n = Ok n'.
Proof. induction 1 as [|j c n1 n2 F IH S1 _|j c n1 n2 k F IH S1 _ _ _]; [reflexivity| |]; rewrite (nruns_snoc _ _ _ IH); exact S1. Qed.
Lemma film_part n j c n' : ninv n -> part A n -> film n j c n' -> ninv n' /\ part A n'.
Proof.
  intros I P. induction 1 as [|j c n1 n2 F [I1 P1] S1 _|j c n1 n2 k F [I1 P1] S1 _ _ _]; [auto| |]; (split; [exact (proj1 (ninv_step _ _ I1 (sim_nst _ _ I1 S1)))|eapply part_step; eassumption]).
Qed.
Lemma film_ex j : forall n n', ninv n -> part A n -> nruns j n = Ok n' -> exists c, film n j c n'.
Proof.
  induction j as [|j IH]; intros n n' I P R.
  - cbn [nruns] in R. exists 0%nat. replace n' with n by exact (f_equal (fun r : res net => match r with Ok x => x | Err _ => n end) R). constructor.
  - destruct (nruns_last _ _ _ R) as (n1 & R1 & S1). destruct (IH _ _ I P R1) as (c & F). destruct (film_part _ _ _ _ I P F) as [I1 P1].
    destruct (event_in _ _ I1 P1 S1) as [E|(k & FI & RE & T)]; [exists c; econstructor; eassumption|exists (S c); econstructor; eassumption].
Qed.

(** The same number of events in the part: the same state of the part. *)
Lemma films_same n m j i c n' m' : ninv n -> ninv m -> part A n -> part A m -> same_part A n m ->
  (forall p np, (p < j)%nat -> nruns p n = Ok np -> untied_in A np) -> film n j c n' -> film m i c m' -> same_part A n' m'.
Proof.
  intros I J P PM SP U F. revert i m'. induction F as [|j c n1 n2 F IH S1 E|j c n1 n2 k F IH S1 FI RE T]; intros i m' G.
  - clear U. remember 0%nat as z eqn:Z. induction G as [|i c m1 m2 G IG T1 E|i c m1 m2 k G IG T1 FI RE T]; [exact SP| |discriminate]. eapply same_trans; [apply IG; exact Z|exact E].
  - apply (same_trans _ n1); [apply same_sym; exact E|]. apply (IH ltac:(intros p np L; apply U; lia) _ _ G).
  - assert (U1 : forall p np, (p < j)%nat -> nruns p n = Ok np -> untied_in A np) by (intros p np L; apply U; lia). specialize (IH U1).
    destruct (film_part _ _ _ _ I P F) as [I1 P1]. assert (UN : untied_in A n1) by (apply (U j); [lia|exact (film_runs _ _ _ _ F)]).
    remember (S c) as z eqn:Z. revert Z. induction G as [|i d m1 m2 G IG T1 E|i d m1 m2 k' G IG T1 FI' RE' T']; intro Z; [discriminate| |].
    + eapply same_trans; [apply IG; exact Z|exact E].
    + injection Z as ->. destruct (film_part _ _ _ _ J PM G) as [J1 PM1]. assert (S0 := IH _ _ G).
      assert (k' = k) by (apply UN; [apply (first_same m1 n1); [apply same_sym; exact S0|exact FI']|exact FI]). subst k'.
      assert (Q := result_same _ _ _ _ _ P1 PM1 S0 (proj1 FI) RE RE'). assert (F1 := nframe_event _ _ S1). assert (F2 := nframe_event _ _ T1). destruct S0 as [B E O W].
      split; [rewrite (nf_bas _ _ F1), (nf_bas _ _ F2); exact B|rewrite (nf_bas _ _ F1), (nf_eps _ _ F1), (nf_eps _ _ F2); exact E|exact Q|].
      intros x q a GX. rewrite (nf_out _ _ F1), (nf_out _ _ F2). destruct (nst_frame _ _ I1 (sim_nst _ _ I1 S1)) as [(_ & _ & C) _]. destruct (C x q GX) as (q0 & G0 & EC & _). rewrite EC. apply (W x q0 a G0).
Qed.
Lemma film_cut n j c n' : film n j c n' -> forall d, (d <= c)%nat -> exists i n1, (i <= j)%nat /\ film n i d n1.
Proof.
  induction 1 as [|j c n1 n2 F IH S1 E|j c n1 n2 k F IH S1 FI RE T]; intros d L.
  - exists 0%nat, n. split; [lia|]. replace d with 0%nat by lia. constructor.
  - destruct (IH d L) as (i & n3 & LI & G). exists i, n3. split; [lia|exact G].
  - destruct (Nat.eq_dec d (S c)) as [->|N]; [exists (S j), n2; split; [lia|]; econstructor; eassumption|]. destruct (IH d ltac:(lia)) as (i & n3 & LI & G). exists i, n3. split; [lia|exact G].
Qed.

Lemma parts_same n m j i nj mi : ninv n -> ninv m -> part A n -> part A m -> same_part A n m -> nruns j n = Ok nj -> nruns i m = Ok mi ->
  (forall p np, (p < j)%nat -> nruns p n = Ok np -> untied_in A np) ->
  (exists p np, (p <= j)%nat /\ nruns p n = Ok np /\ same_part A np mi) \/ (exists p mp, (p <= i)%nat /\ nruns p m = Ok mp /\ same_part A nj mp).
Proof.
  intros I J P PM SP R T U. destruct (film_ex _ _ _ I P R) as (c & F). destruct (film_ex _ _ _ J PM T) as (d & G).
  destruct (Compare_dec.le_lt_dec d c) as [L|L].
  - left. destruct (film_cut _ _ _ _ F d L) as (p & np & LP & F'). exists p, np. split; [exact LP|]. split; [exact (film_runs _ _ _ _ F')|].
    eapply (films_same n m p i d); try eassumption. intros x nx LX. apply U. lia.
  - right. destruct (film_cut _ _ _ _ G c ltac:(lia)) as (p & mp & LP & G'). exists p, mp. split; [exact LP|]. split; [exact (film_runs _ _ _ _ G')|].
    eapply (films_same n m j p c); eassumption.
Qed.

(** Once all events up to [s] are over, the part stays as it is up to [s]. *)
Lemma quiet_until s : forall d n n', ninv n -> part A n -> (forall k q, A k = true -> get (nt_queues n) k = Some q -> eLt s (q_time q)) -> nruns d n = Ok n' -> eLe (nt_t n') s -> same_part A n n'.
Proof.
  induction d as [|d IH]; intros n n' I P Q R L.
  - cbn [nruns] in R. replace n' with n by exact (f_equal (fun r : res net => match r with Ok x => x | Err _ => n end) R). apply same_refl.
  - cbn [nruns] in R. apply bind_Ok in R as (n1 & S1 & R). assert (I1 := proj1 (ninv_step _ _ I (sim_nst _ _ I S1))). assert (P1 := part_step _ _ I P S1).
    destruct (event_in _ _ I P S1) as [E|(k & FI & RE & q & G & T)].
    + apply (same_trans _ n1); [exact E|]. apply (IH n1 n' I1 P1); [|exact R|exact L]. intros k q a G. rewrite (sp_queues _ _ _ E k a) in G. exact (Q k q a G).
    + exfalso. destruct (runs_good _ _ _ I1 R) as [_ L1]. assert (X := Q k q (proj1 FI) G). rewrite T in L1. elia.
Qed.
Lemma moment_same n m j i nj mi s : ninv n -> ninv m -> part A n -> part A m -> same_part A n m -> nruns j n = Ok nj -> nruns i m = Ok mi ->
  (forall p np, (p < j)%nat -> nruns p n = Ok np -> untied_in A np) -> done_until A s nj -> done_until A s mi -> same_part A nj mi.
Proof.
  intros I J P PM SP R T U [LN DN] [LM DM]. destruct (parts_same _ _ _ _ _ _ I J P PM SP R T U) as [(p & np & LP & RP & E)|(p & mp & LP & RP & E)].
  - apply (same_trans _ np); [|exact E]. apply same_sym. replace j with (p + (j - p))%nat in R by lia. rewrite (nruns_add _ _ _ _ RP) in R.
    destruct (film_ex _ _ _ I P RP) as (c & F). destruct (film_part _ _ _ _ I P F) as [IP PP].
    apply (quiet_until s (j - p)); try assumption. intros k q a G. apply (DM k q a). rewrite (sp_queues _ _ _ E k a). exact G.
  - apply (same_trans _ mp); [exact E|]. replace i with (p + (i - p))%nat in T by lia. rewrite (nruns_add _ _ _ _ RP) in T.
    destruct (film_ex _ _ _ J PM RP) as (c & F). destruct (film_part _ _ _ _ J PM F) as [JP PP].
    apply (quiet_until s (i - p)); try assumption. intros k q a G. apply (DN k q a). rewrite <- (sp_queues _ _ _ E k a). exact G.
Qed.

(** A clock that passes [s] stops before at a state in which all events up to
    [s] are over. *)
Lemma clock_stops s : forall j n nj, ninv n -> eLe (nt_t n) s -> nruns j n = Ok nj -> eLt s (nt_t nj) -> exists p np, (p <= j)%nat /\ nruns p n = Ok np /\ done_until A s np.
Proof.
  induction j as [|j IH]; intros n nj I L R G.
  - cbn [nruns] in R. replace nj with n in G by exact (f_equal (fun r : res net => match r with Ok x => x | Err _ => n end) R). exfalso. elia.
  - cbn [nruns] in R. apply bind_Ok in R as (n1 & S1 & R). assert (I1 := proj1 (ninv_step _ _ I (sim_nst _ _ I S1))).
    destruct (eltb s (nt_t n1)) eqn:C.
    + exists 0%nat, n. split; [lia|]. split; [reflexivity|]. split; [exact L|]. intros k q _ GK.
      assert (X : eLe (nt_t n1) (q_time q)); [|elia].
      assert (FIRST : forall t k0 h q0 d, (0 < pq_size (nt_heap n))%nat -> pq_pop (nt_heap n) = Ok (Some (t, k0), h) -> get (nt_queues n) k0 = Some q0 ->
        next_event_description q0 = Ok d -> d <> 0 -> eLe t (q_time q)).
      { intros t k0 h q0 d SZ PO G0 D N. destruct (popped_first _ _ _ _ _ _ I SZ PO G0 D N) as [(qx & GX & _ & M) T]. assert (qx = q0) by congruence. subst qx. rewrite <- T. exact (M k q GK). }
      assert (LATE : nt_queues n1 = nt_queues n -> eLe (nt_t n1) (q_time q)) by (intro E; assert (K := ni_q _ I1 k q ltac:(rewrite E; exact GK)); exact (qok_time _ _ _ K)).
      destruct (sim_nst _ _ I S1) as [SZ ->|t k0 h q0 SZ PO G0 DS ->|t k0 h q0 r q' h' SZ PO G0 DS NX PU LC ->|
        t k0 h q0 a h0 l e2 q2 qm q' d h' iu ie td SZ PO G0 DS DP OUT IN DD G2 NE CA MB RT DE DL NK PU ->|
        t k0 h q0 a h0 l e2 q2old b q' q2 q2a r q2' h' iu SZ PO G0 DS DP OUT IN DD G2 CA NX G3 AD NX2 PU L1 L2 ->];
        [apply LATE; reflexivity|apply LATE; reflexivity|exact (FIRST _ _ _ _ _ SZ PO G0 DS ltac:(lia))..].
    + assert (L1 : eLe (nt_t n1) s) by elia. destruct (IH n1 nj I1 L1 R G) as (p & np & LP & RP & D). exists (S p), np. split; [lia|]. split; [|exact D]. cbn [nruns]. rewrite S1. exact RP.
Qed.
Lemma times_same n m j i nj mi s : ninv n -> ninv m -> part A n -> part A m -> same_part A n m -> nruns j n = Ok nj -> nruns i m = Ok mi ->
  (forall p np, (p < j)%nat -> nruns p n = Ok np -> untied_in A np) -> eLe (nt_t n) s -> eLe (nt_t m) s -> eLt s (nt_t nj) -> eLt s (nt_t mi) ->
  exists p np r mr, (p <= j)%nat /\ (r <= i)%nat /\ nruns p n = Ok np /\ nruns r m = Ok mr /\ done_until A s np /\ done_until A s mr /\ same_part A np mr.
Proof.
  intros I J P PM SP R T U L1 L2 G1 G2. destruct (clock_stops s j n nj I L1 R G1) as (p & np & LP & RP & DP). destruct (clock_stops s i m mi J L2 T G2) as (r & mr & LR & RR & DR).
  exists p, np, r, mr. repeat (split; [assumption|]). apply (moment_same n m p r np mr s I J P PM SP RP RR); [intros x nx LX; apply U; lia|exact DP|exact DR].
Qed.
End Parts.
