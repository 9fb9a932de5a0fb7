(** * SpecBlind: what happens, without what is written down about it *)
From Coq Require Import List ZArith Bool.
From Verif Require Import Base Heap Queue PQueue Network SpecNet.
Import ListNotations.
Open Scope Z_scope.

(** A queue that never collected anything. *)
Definition blind (q : queue) : queue := set_q_collect false (set_q_data [] q).
Definition blind_net (n : net) : net := set_nt_queues (map blind (nt_queues n)) n.

(** Calls without those about data. *)
Definition about_data (o : qop) : bool := match o with OCollect _ | OClearData => true | _ => false end.
Definition not_about_data (l : list qop) : list qop := filter (fun o => negb (about_data o)) l.
Definition net_about_data (c : ncall) : bool := match c with KOp (NCollect _ _) | KOp (NClearData _) => true | _ => false end.
Definition net_not_about_data (l : list ncall) : list ncall := filter (fun c => negb (net_about_data c)) l.

(** Nobody is listed without a row.  InfoQueues are left out: there agents
    read the data (queue_extentions.py:255-258). *)
Definition listed (q : queue) : Prop := c_class (q_cfg q) <> CInfo /\ forall i rows, dget (q_data q) i = Some rows -> rows <> [].
