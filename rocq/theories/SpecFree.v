(** * SpecFree: queues that their limits have not switched off *)
From Coq Require Import List ZArith Bool.
From Verif Require Import Base Queue Network SpecNet SpecQueue NetExamples.
Import ListNotations.
Open Scope Z_scope.

(** The same queue with no [active_cap] and no [deactive_t]. *)
Definition free_cfg (c : qcfg) : qcfg :=
  mkCfg (c_class c) (c_src c) (c_tgt c) (c_idx c) (c_type c) (c_arr c) (c_srv c) (c_factory c) Inf Inf (c_buffer c) (c_max_servers c).
Definition free (q : queue) : queue := set_q_cfg (free_cfg (q_cfg q)) q.
Definition free_net (n : net) : net := set_nt_queues (map free (nt_queues n)) n.

(** An inactive queue that has reached one of its limits. *)
Definition spent (q : queue) : Prop :=
  q_active q = false /\
  (eLe (c_active_cap (q_cfg q)) (Fin (q_oarr q)) \/ (eLe (c_deactive_t (q_cfg q)) (q_next_ct q) /\ eLt (c_deactive_t (q_cfg q)) Inf)).

(** After each operation the queue is not spent; after each call no queue of
    the network is, and each initialisation names a queue once. *)
Fixpoint lively_ops (l : list qop) (q : queue) : Prop :=
  match l with
  | [] => True
  | o :: l => forall q', run_op o q = Ok q' -> ~ spent q' /\ lively_ops l q'
  end.
Definition once (c : ncall) : Prop := match c with KInit sel => NoDup sel | _ => True end.
Fixpoint lively (l : list ncall) (n : net) : Prop :=
  match l with
  | [] => True
  | c :: l => once c /\ (forall n', run_call c n = Ok n' -> (forall q, In q (nt_queues n') -> ~ spent q) /\ lively l n')
  end.
