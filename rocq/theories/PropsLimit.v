(** * PropsLimit: claim C106, a limit of agents that is not reached has no influence *)
From Coq Require Import List ZArith QArith Bool Arith Lia.
From Verif Require Import Base PQueue Queue SpecQueue Network NetReach SpecNet NetExamples NetBare SpecLimit Limit.
Import ListNotations.
Open Scope Z_scope.

(** ** C106 *)

(** As long as max_agents is not reached, a higher limit (or none: [w = Inf])
    changes nothing, errors included. *)
Theorem C106_limit : forall w n0 n l, well_made n0 -> nreach usual n0 n -> eLe (Fin 0) w -> stays_below l n ->
  calls (map (call_more w) l) (allow_more w n) = match calls l n with Ok n' => Ok (allow_more w n') | Err e => Err e end.
Proof. intros w n0 n l W R P B. rewrite (calls_more w P n0 l W n R B). destruct (calls l n); reflexivity. Qed.
Print Assumptions C106_limit.

(** max_agents only matters in comparison with the number of agents: two
    limits that are not reached give the same results. *)
Theorem C106_two : forall n0 n l v w, well_made n0 -> nreach usual n0 n -> eLe (Fin 0) v -> eLe (Fin 0) w -> stays_below l n ->
  match calls (map (call_more v) l) (allow_more v n), calls (map (call_more w) l) (allow_more w n) with
  | Ok n1, Ok n2 => set_nt_max Inf n1 = set_nt_max Inf n2
  | Err e1, Err e2 => e1 = e2
  | _, _ => False
  end.
Proof.
  intros n0 n l v w W R V P B. rewrite (C106_limit v n0 n l W R V B), (C106_limit w n0 n l W R P B). destruct (calls l n); reflexivity.
Qed.
Print Assumptions C106_two.

(** A limit that is reached does have influence. *)
Theorem C106_refuted : exists n l n1 n2, well_made n /\ usual_calls l n = true /\ calls l n = Ok n1 /\ calls l (allow_more (Fin 1) n) = Ok n2 /\
  nt_nagents n2 <> nt_nagents n1.
Proof.
  exists (two_ways_net (Fin 3) true), (KInit [0%nat] :: sims 8). do 2 eexists. split; [apply two_ways_made|].
  split; [vm_compute; reflexivity|]. split; [vm_compute; reflexivity|]. split; [vm_compute; reflexivity|]. vm_compute. discriminate.
Qed.
Print Assumptions C106_refuted.

(** *** Examples *)

Definition belowb (c : ncall) (n : net) : bool :=
  match c with
  | KInit sel => eleb (Fin (zlen sel)) (nt_max n)
  | KOp NSim => eltb (Fin (zsum (nt_nagents n))) (nt_max n)
  | _ => true
  end.
Fixpoint staysb (l : list ncall) (n : net) : bool :=
  match l with
  | [] => true
  | c :: l => usualb n c && belowb c n && match run_call c n with Ok n' => staysb l n' | Err _ => true end
  end.
Lemma staysb_ok l : forall n, staysb l n = true -> stays_below l n.
Proof.
  induction l as [|c l IH]; intros n H; cbn [staysb] in H; [exact I|]. apply andb_prop in H as [H B]. apply andb_prop in H as [U A]. split; [split|].
  - destruct c as [sel| | |[| | | | |]]; cbn in *; try exact I; [apply negb_true_iff; exact U|exact U].
  - destruct c as [sel| | |[| | | | |]]; cbn [belowb below_limit] in *; try exact I; [apply eleb_le; exact A|apply eltb_lt; exact A].
  - intros n' E. rewrite E in B. apply IH. exact B.
Qed.
Definition run106 : list ncall := KInit [0; 1]%nat :: sims 16.
Example C106_ten : staysb run106 (two_ways_net (Fin 8) true) = false /\ stays_below run106 (two_ways_net (Fin 10) true) /\
  nt_nagents (reached run106 (two_ways_net (Fin 8) true)) = [8; 0; 0; 0] /\ nt_nagents (reached run106 (two_ways_net (Fin 10) true)) = [8; 2; 0; 0] /\
  nt_nagents (reached run106 (two_ways_net Inf true)) = [8; 2; 0; 0] /\ allow_more Inf (two_ways_net (Fin 10) true) = two_ways_net Inf true.
Proof.
  split; [vm_compute; reflexivity|]. split; [apply staysb_ok; vm_compute; reflexivity|].
  split; [vm_compute; reflexivity|]. split; [vm_compute; reflexivity|]. split; [vm_compute; reflexivity|reflexivity].
Qed.
(** With a new limit in between, copy, clear and a second simulation. *)
Definition mixed106 : list ncall := KInit [0]%nat :: sims 8 ++ KOp (NMax (Fin 12)) :: sims 6 ++ KCopy :: sims 2 ++ KClear :: KInit [0]%nat :: sims 5.
Example C106_mixed : stays_below mixed106 (two_ways_net (Fin 8) true) /\ let n := reached mixed106 (two_ways_net (Fin 8) true) in (nt_t n, nt_nagents n, nt_max n) = (Fin 4, [4; 0; 0; 0], Fin 12).
Proof. split; [apply staysb_ok; vm_compute; reflexivity|vm_compute; reflexivity]. Qed.
