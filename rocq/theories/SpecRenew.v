(** * SpecRenew: a new network that goes on where another one stopped *)
From Coq Require Import List ZArith QArith Bool.
From Verif Require Import Base Queue PQueue Network SpecNet SpecAgain.
Import ListNotations.
Open Scope Z_scope.

(** The functions and the sequences after the calls made so far. *)
Definition rest_cfg (q : queue) : qcfg :=
  let c := q_cfg q in
  mkCfg (c_class c) (c_src c) (c_tgt c) (c_idx c) (c_type c) (fun k => c_arr c (q_ia q + k)%nat) (fun k => c_srv c (q_is q + k)%nat)
        (c_factory c) (c_active_cap c) (c_deactive_t c) (c_buffer c) (c_max_servers c).

(** A new queue with the same parameters, as many servers, the same choice of
    collecting data and, for InfoQueues, the same size of the table. *)
Definition renew_q (q : queue) : queue := new_queue (rest_cfg q) (q_servers q) (q_collect q) (length (q_net q)).

(** A new network of such queues with the same ways, probabilities, limit and
    blocking rule. *)
Definition renew (n : net) : net :=
  set_nt_probs (nt_probs n)
    (new_net (map renew_q (nt_queues n)) (nt_out n) (nt_max n) (nt_bas n) (pq_junk (nt_heap n))
      (fun k => nt_u n (nt_iu n + k)%nat) (fun k => nt_eps n (nt_ie n + k)%nat)).

(** The functions and the numbers of calls of the queues of a network. *)
Definition arrs (n : net) (i : nat) : nat -> ext -> ext := match get (nt_queues n) i with Some q => c_arr (q_cfg q) | None => fun _ _ => Inf end.
Definition srvs (n : net) (i : nat) : nat -> ext -> ext := match get (nt_queues n) i with Some q => c_srv (q_cfg q) | None => fun _ _ => Inf end.
Definition n_arrs (n : net) (i : nat) : nat := match get (nt_queues n) i with Some q => q_ia q | None => 0%nat end.
Definition n_srvs (n : net) (i : nat) : nat := match get (nt_queues n) i with Some q => q_is q | None => 0%nat end.

(** [m] as it is after as many random draws as [n] has made. *)
Definition as_late_as (n m : net) : net :=
  late_net (arrs n) (srvs n) (n_arrs n) (n_srvs n) (nt_u n) (nt_iu n) (nt_eps n) (nt_ie n) m.

(** What remains in NullQueues: their data, and that they were made active. *)
Definition tidy_exits (n : net) : Prop :=
  forall q, In q (nt_queues n) -> c_class (q_cfg q) = CNull -> q_data q = [] /\ q_active q = false.

(** All of a network but the functions of the queues, the sequences, and how
    often they were used. *)
Definition face_q (q : queue) : queue := late (fun _ _ _ => Inf) (fun _ _ _ => Inf) (fun _ => 0%nat) (fun _ => 0%nat) (set_q_ia 0 (set_q_is 0 q)).
Definition face (n : net) : net :=
  mkNet (map face_q (nt_queues n)) (nt_out n) (nt_probs n) (nt_nagents n) (nt_t n) (nt_events n)
    (nt_max n) (nt_init n) (nt_heap n) (nt_bas n) (fun _ => 0%Q) 0 (fun _ => 0) 0.
Definition face_of (r : res net) : res net := match r with Ok n => Ok (face n) | Err e => Err e end.

(** The answers do not depend on how many were given before. *)
Definition unnumbered (n : net) : Prop :=
  (forall q, In q (nt_queues n) -> forall j k t, c_arr (q_cfg q) j t = c_arr (q_cfg q) k t /\ c_srv (q_cfg q) j t = c_srv (q_cfg q) k t) /\
  forall j k, nt_u n j = nt_u n k /\ nt_eps n j = nt_eps n k.

(** What a user may have set, and what ResourceQueues change, is the same. *)
Definition same_settings (n n' : net) : Prop :=
  map q_servers (nt_queues n') = map q_servers (nt_queues n) /\ map q_collect (nt_queues n') = map q_collect (nt_queues n) /\
  nt_probs n' = nt_probs n /\ nt_max n' = nt_max n /\ nt_bas n' = nt_bas n.
