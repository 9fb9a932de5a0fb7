(** * SpecLay: a network without the information *)
From Coq Require Import List ZArith Bool.
From Verif Require Import Base Queue Network SpecNet.
Import ListNotations.
Open Scope Z_scope.

(** An InfoAgent becomes an Agent, everybody else stays. *)
Definition lay_kind (k : kind) : kind := match k with KInfo => KAgent | k => k end.
Definition lay_agent (a : agent) : agent :=
  match ag_kind a with
  | KInfo => mkAgent (ag_id a) KAgent (ag_time a) (ag_blocked a) (ag_has a) (ag_had a) [(0, 0, 0)] [norow]
  | _ => a
  end.
Definition lay_item (i : item) : item := match i with Sentinel => Sentinel | Ag a => Ag (lay_agent a) end.

(** An InfoQueue becomes a LossQueue with the same functions and parameters. *)
Definition lay_class (c : qclass) : qclass := match c with CInfo => CLoss | c => c end.
Definition lay_cfg (c : qcfg) : qcfg :=
  mkCfg (lay_class (c_class c)) (c_src c) (c_tgt c) (c_idx c) (c_type c) (c_arr c) (c_srv c) (lay_kind (c_factory c)) (c_active_cap c) (c_deactive_t c) (c_buffer c) (c_max_servers c).

(** The agents in it change likewise; everything else but the information of
    the queue (counters, times, collected data) stays. *)
Definition lay (q : queue) : queue :=
  mkQueue (lay_cfg (q_cfg q)) (q_servers q) (q_departed q) (q_nsys q) (q_data q) (map lay_agent (q_line q)) (q_collect q)
    (map lay_item (q_arr q)) (map lay_item (q_dep q)) (q_narr q) (q_oarr q) (q_total q) (q_active q) (q_now q) (q_time q) (q_next_ct q)
    (q_blocked q) (q_over q) [] (q_ia q) (q_is q).
Definition lay_op (o : qop) : qop := match o with OArrive a => OArrive (lay_agent a) | o => o end.
Definition lay_net (n : net) : net := set_nt_queues (map lay (nt_queues n)) n.
