(** * SpecCalls: how often the functions of the user are called *)
From Coq Require Import List ZArith Bool.
From Verif Require Import Base Queue SpecQueue Network SpecNet SpecRefine.
Import ListNotations.
Open Scope Z_scope.

(** A service that has to be repeated: a delay without a time, while somebody
    is served. *)
Definition again1 (e : entry) : nat :=
  match e with (ODelay None, q, _, _) => match in_service q with [] => 0 | _ :: _ => 1 end | _ => 0 end.
Definition agains (log : list entry) : nat := list_sum (map again1 log).

(** One call from [q] to [q'] calls [arrival_f] not at all, or once: then with
    the time that it is now, and not before the time it gave last.  The value
    is the time of a new outside arrival, or it is not before [deactive_t] and
    the queue is switched off. *)
Definition asked_step (q q' : queue) : Prop :=
  (q_ia q' = q_ia q /\ q_next_ct q' = q_next_ct q /\ q_oarr q' = q_oarr q) \/
  (q_ia q' = S (q_ia q) /\ q_next_ct q' = c_arr (q_cfg q) (q_ia q) (q_now q') /\ eLe (q_next_ct q) (q_now q') /\
   (eLt (q_next_ct q') (c_deactive_t (q_cfg q)) /\ q_oarr q' = q_oarr q + 1 /\
      (exists a, In a (scheduled q') /\ ag_id a = (c_idx (q_cfg q), q_oarr q) /\ ag_time a = q_next_ct q') \/
    eLe (c_deactive_t (q_cfg q)) (q_next_ct q') /\ q_oarr q' = q_oarr q /\ q_active q' = false)).

(** Histories without clear in which blocking is 'BAS'. *)
Definition served_once (n : net) (c : ncall) : Prop := unbroken n c /\ nt_bas n = true.
