(** * SpecPast: the draws a simulation has made *)
From Coq Require Import List ZArith QArith Bool.
From Verif Require Import Base Queue Network SpecNet.
Import ListNotations.
Open Scope Z_scope.

(** Everything that is drawn or computed by the functions of the user:
    [arrival_f] and [service_f] of each queue (by the index of its edge), the
    numbers for the routing, and those for the delays of blocked agents. *)
Record draws : Type := mkDraws {
  dr_arr : nat -> nat -> ext -> ext;
  dr_srv : nat -> nat -> ext -> ext;
  dr_u : nat -> Q;
  dr_eps : nat -> Z
}.

(** The same queue and the same network with other draws. *)
Definition redraw_cfg (d : draws) (c : qcfg) : qcfg :=
  mkCfg (c_class c) (c_src c) (c_tgt c) (c_idx c) (c_type c) (dr_arr d (c_idx c)) (dr_srv d (c_idx c)) (c_factory c) (c_active_cap c) (c_deactive_t c) (c_buffer c) (c_max_servers c).
Definition redraw (d : draws) (q : queue) : queue := set_q_cfg (redraw_cfg d (q_cfg q)) q.
Definition redraw_net (d : draws) (n : net) : net :=
  set_nt_u (dr_u d) (set_nt_eps (dr_eps d) (set_nt_queues (map (redraw d) (nt_queues n)) n)).

(** The other draws agree with those made so far. *)
Definition same_past_queue (d : draws) (q : queue) : Prop :=
  (forall i t, (i < q_ia q)%nat -> dr_arr d (c_idx (q_cfg q)) i t = c_arr (q_cfg q) i t) /\
  (forall i t, (i < q_is q)%nat -> dr_srv d (c_idx (q_cfg q)) i t = c_srv (q_cfg q) i t).
Definition same_past (d : draws) (n : net) : Prop :=
  (forall q, In q (nt_queues n) -> same_past_queue d q) /\
  (forall i, (i < nt_iu n)%nat -> dr_u d i = nt_u n i) /\
  (forall i, (i < nt_ie n)%nat -> dr_eps d i = nt_eps n i).
