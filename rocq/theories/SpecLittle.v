(** * SpecLittle: sums over visits and areas under the numbers of agents *)
From Coq Require Import List ZArith QArith Bool Arith.
From Verif Require Import Base Queue SpecQueue SpecLine.
Import ListNotations.
Open Scope Z_scope.

Definition fin (e : ext) : Z := match e with Fin z => z | Inf => 0 end.
Definition till (now : ext) (o : option ext) : Z := match o with Some e => fin e | None => fin now end.

(** How long a visit lasted until [now]; how long the agent waited; how long
    they were served. *)
Definition stay (now : ext) (v : visit) : Z := if v_in v then till now (v_dep v) - fin (v_arr v) else 0.
Definition wait (now : ext) (v : visit) : Z := if v_in v then till now (v_srv v) - fin (v_arr v) else 0.
Definition work (now : ext) (v : visit) : Z :=
  match v_srv v with Some s => if v_in v then till now (v_dep v) - fin s else 0 | None => 0 end.

Definition total {A} (f : A -> Z) (l : list A) : Z := fold_right (fun x s => f x + s) 0 l.

(** The integral over time of a number that changes at the calls only. *)
Definition area (f : queue -> Z) (log : list entry) : Z :=
  total (fun e => let '(_, q, _, q') := e in f q * (fin (q_now q') - fin (q_now q))) log.

Definition nwaiting (q : queue) : Z := zlen (waiting q).

(** The later of two times. *)
Definition later (a b : ext) : ext := if eltb a b then b else a.

(** The visit before, of an agent who was let in. *)
Definition before (l : list visit) : option visit := last (map Some (filter v_in l)) None.
