(** * SpecSoft: ResourceQueues without a maximum of servers *)
From Coq Require Import List ZArith Bool.
From Verif Require Import Base Queue Network SpecNet.
Import ListNotations.
Open Scope Z_scope.

(** The same queue with another [max_servers] (queue_extentions.py:96). *)
Definition max_cfg (w : ext) (c : qcfg) : qcfg :=
  mkCfg (c_class c) (c_src c) (c_tgt c) (c_idx c) (c_type c) (c_arr c) (c_srv c) (c_factory c) (c_active_cap c) (c_deactive_t c) (c_buffer c) w.
(** With no maximum, and [over_max] as it then is. *)
Definition soft (q : queue) : queue := set_q_over 0 (set_q_cfg (max_cfg Inf (q_cfg q)) q).
Definition soft_net (n : net) : net := set_nt_queues (map soft (nt_queues n)) n.
(** Other maxima, [w k] for queue [k]. *)
Definition with_max (w : nat -> ext) (n : net) : net :=
  set_nt_queues (map (fun q => set_q_cfg (max_cfg (w (c_idx (q_cfg q))) (q_cfg q)) q) (nt_queues n)) n.
