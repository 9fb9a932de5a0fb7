(** * SpecRefine: a queue of a network seen as a queue of its own *)
From Coq Require Import List ZArith Permutation.
From Verif Require Import Base Queue SpecQueue Network SpecNet.
Import ListNotations.
Open Scope Z_scope.

(** An agent, without the number of times it was blocked. *)
Definition unmark (a : agent) : agent := set_ag_blocked 0 a.
Definition unmark_item (i : item) : item := match i with Sentinel => Sentinel | Ag a => Ag (unmark a) end.

(** A queue, without the number of agents it blocked and without the number
    of times its agents were blocked. *)
Definition bare (q : queue) : queue :=
  set_q_blocked 0 (set_q_line (map unmark (q_line q))
    (set_q_arr (map unmark_item (q_arr q)) (set_q_dep (map unmark_item (q_dep q)) q))).

(** What the network does to a queue: everything but changing the number of
    servers; no call goes back in time; an agent that comes in is not there
    yet. *)
Definition indoors (q : queue) (o : qop) : Prop :=
  match o with
  | OServers _ => False
  | OClear => True
  | _ => no_past q o /\ fresh q o
  end.

(** Histories of a network without clear. *)
Definition unbroken (n : net) (c : ncall) : Prop := usual n c /\ c <> KClear.

(** As [unbroken]; data collection is switched, and data discarded, only at
    queues where nobody waits or is served. *)
Definition attentive (n : net) (c : ncall) : Prop :=
  unbroken n c /\
  match c with
  | KOp (NCollect b l) => forall k q, In k l -> get (nt_queues n) k = Some q -> b = q_collect q \/ nobody q
  | KOp (NClearData l) => forall k q, In k l -> get (nt_queues n) k = Some q -> nobody q
  | _ => True
  end.

(** As [unbroken]; data collection is not switched off and no data is
    discarded. *)
Definition recording (n : net) (c : ncall) : Prop :=
  unbroken n c /\
  match c with
  | KOp (NCollect b _) => b = true
  | KOp (NClearData _) => False
  | _ => True
  end.

(** Between [q] and [q'] agents joined the line at its end and began service
    from its front only: [joined] in the order in which they joined,
    [served] in the order in which they began; [left] departed. *)
Definition in_turn (q q' : queue) : Prop :=
  exists joined served left, ids (waiting q) ++ joined = served ++ ids (waiting q') /\
    Permutation (ids (in_service q) ++ served) (ids (in_service q') ++ left) /\ q_departed q' = q_departed q + zlen left.
