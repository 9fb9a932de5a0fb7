(** * SpecLimit: a limit of agents that is not reached *)
From Coq Require Import List ZArith Bool.
From Verif Require Import Base Queue SpecQueue Network SpecNet.
Import ListNotations.
Open Scope Z_scope.

(** The same network, the same call, with [w] more agents allowed. *)
Definition allow_more (w : ext) (n : net) : net := set_nt_max (eadd (nt_max n) w) n.
Definition call_more (w : ext) (c : ncall) : ncall :=
  match c with KOp (NMax m) => KOp (NMax (eadd m w)) | _ => c end.

(** The limit is not reached by a call: before an event there is at least one
    agent less, and initialize makes no more queues active than agents are
    allowed. *)
Definition below_limit (c : ncall) (n : net) : Prop :=
  match c with
  | KInit sel => eLe (Fin (zlen sel)) (nt_max n)
  | KOp NSim => eLt (Fin (zsum (nt_nagents n))) (nt_max n)
  | _ => True
  end.
Fixpoint stays_below (l : list ncall) (n : net) : Prop :=
  match l with
  | [] => True
  | c :: l => (usual n c /\ below_limit c n) /\ (forall n', run_call c n = Ok n' -> stays_below l n')
  end.
