(** * SpecAgain: the same network later in the sequences of random numbers *)
From Coq Require Import List ZArith QArith Bool.
From Verif Require Import Base Queue Network SpecNet.
Import ListNotations.
Open Scope Z_scope.

(** A queue that is in the same state, but whose arrival and service
    functions [A i] and [B i] ([i] is the index of the queue) have been
    called [I i] and [J i] times more. *)
Definition late_cfg (A B : nat -> nat -> ext -> ext) (c : qcfg) : qcfg :=
  mkCfg (c_class c) (c_src c) (c_tgt c) (c_idx c) (c_type c) (A (c_idx c)) (B (c_idx c)) (c_factory c)
        (c_active_cap c) (c_deactive_t c) (c_buffer c) (c_max_servers c).
Definition late (A B : nat -> nat -> ext -> ext) (I J : nat -> nat) (q : queue) : queue :=
  mkQueue (late_cfg A B (q_cfg q)) (q_servers q) (q_departed q) (q_nsys q) (q_data q) (q_line q) (q_collect q) (q_arr q) (q_dep q)
    (q_narr q) (q_oarr q) (q_total q) (q_active q) (q_now q) (q_time q) (q_next_ct q) (q_blocked q) (q_over q) (q_net q)
    (I (c_idx (q_cfg q)) + q_ia q)%nat (J (c_idx (q_cfg q)) + q_is q)%nat.

(** From then on they answer what the functions of the first queue answer
    from the beginning. *)
Definition goes_on (A B : nat -> nat -> ext -> ext) (I J : nat -> nat) (c : qcfg) : Prop :=
  (forall k t, A (c_idx c) (I (c_idx c) + k)%nat t = c_arr c k t) /\ (forall k t, B (c_idx c) (J (c_idx c) + k)%nat t = c_srv c k t).

(** Likewise for networks, with [a] more choices of ways and [b] more pauses. *)
Definition late_net (A B : nat -> nat -> ext -> ext) (I J : nat -> nat) (U : nat -> Q) (a : nat) (E : nat -> Z) (b : nat) (n : net) : net :=
  mkNet (map (late A B I J) (nt_queues n)) (nt_out n) (nt_probs n) (nt_nagents n) (nt_t n) (nt_events n)
    (nt_max n) (nt_init n) (nt_heap n) (nt_bas n) U (a + nt_iu n)%nat E (b + nt_ie n)%nat.
Definition net_goes_on (A B : nat -> nat -> ext -> ext) (I J : nat -> nat) (U : nat -> Q) (a : nat) (E : nat -> Z) (b : nat) (n : net) : Prop :=
  Forall (fun q => goes_on A B I J (q_cfg q)) (nt_queues n) /\ (forall k, U (a + k)%nat = nt_u n k) /\ (forall k, E (b + k)%nat = nt_eps n k).
