(** * SpecLittleNet: integrals over the time of a network *)
From Coq Require Import List ZArith.
From Verif Require Import Base Queue SpecQueue Network SpecNet SpecLittle.
Import ListNotations.
Open Scope Z_scope.

(** The networks that are passed from [n1] to [n], before each call that is
    allowed by [ok]; [n] itself is not in the list. *)
Inductive passes (ok : net -> ncall -> Prop) (n1 : net) : list net -> net -> Prop :=
| passes_here : passes ok n1 [] n1
| passes_step l n c n' : passes ok n1 l n -> ok n c -> run_call c n = Ok n' -> passes ok n1 (l ++ [n]) n'.

(** A number read off queue [k]. *)
Definition at_queue (f : queue -> Z) (k : nat) (n : net) : Z := match get (nt_queues n) k with Some q => f q | None => 0 end.

(** The integral, by the clock of the network, of a number that changes at
    the calls only. *)
Fixpoint integral (g : net -> Z) (l : list net) : Z :=
  match l with
  | n :: (n' :: _) as l' => g n * (fin (nt_t n') - fin (nt_t n)) + integral g l'
  | _ => 0
  end.
