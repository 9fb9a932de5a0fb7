(** * Measure: poisson_random_measure (queues/queue_servers.py:13-78) *)
From Coq Require Import List ZArith QArith Qfield Bool Lia Lqa.
From Verif Require Import Base.
Import ListNotations.
Open Scope Q_scope.

(** [numpy.random.exponential(scale)]: [e] is the standard exponential number
    that is multiplied by the scale; numpy raises ValueError for a negative
    scale.  Numbers are exact rationals. *)
Definition exponential (scale e : Q) : res Q := if negb (Qle_bool 0 scale) then Err ValueError else Ok (scale * e).

(** The loop of lines 76-77: [e i] is the i-th exponential number, [u i] the
    i-th uniform number.  [None] means that the loop is still running when
    the fuel is used up. *)
Fixpoint thin (fuel : nat) (rate : Q -> Q) (rmax scale : Q) (e u : nat -> Q) (i : nat) (t : Q) : option (res Q) :=
  match fuel with
  | O => None
  | S f =>
      if negb (Qle_bool (rmax * u i) (rate t)) then
        match exponential scale (e (S i)) with
        | Ok x => thin f rate rmax scale e u (S i) (t + x)
        | Err x => Some (Err x)
        end
      else Some (Ok t)
  end.

(** [poisson_random_measure(t, rate, rate_max)] (lines 73-78); the numbers
    are Python numbers, so [1.0 / 0] raises ZeroDivisionError. *)
Definition poisson (fuel : nat) (t : Q) (rate : Q -> Q) (rmax : Q) (e u : nat -> Q) : option (res Q) :=
  if Qeq_bool rmax 0 then Some (Err ZeroDivisionError)
  else
    let scale := 1 / rmax in
    match exponential scale (e 0%nat) with
    | Ok x => thin fuel rate rmax scale e u 0 (t + x)
    | Err x => Some (Err x)
    end.
