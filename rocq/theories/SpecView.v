(** * SpecView: what comparisons mean, and reading the numbers in a text *)
From Coq Require Import List ZArith Bool Ascii String.
From Verif Require Import Base Queue View.
Import ListNotations.
Open Scope Z_scope.

(** What each comparison says about two times. *)
Definition says (o : cmpop) (s t : ext) : Prop :=
  match o with
  | PLt => eLt s t | PGt => eLt t s | PEq => s = t | PNe => s <> t | PLe => eLe s t | PGe => eLe t s
  end.

(** Two sentinels, asked for [<=] or [>=]. *)
Definition hopeless (o : cmpop) (x y : item) : Prop := (o = PLe \/ o = PGe) /\ x = Sentinel /\ y = Sentinel.

(** ** A reader *)

(** The value of a digit. *)
Definition digit (c : ascii) : option Z :=
  let k := Z.of_nat (nat_of_ascii c) in
  if (48 <=? k) && (k <=? 57) then Some (k - 48) else None.

Definition signed (neg : bool) (z : Z) : Z := if neg then - z else z.

(** All numbers in a text, from left to right: a number is a longest row of
    digits, negative if a minus sign is in front of it.  [neg]: the character
    before was a minus sign, or the number being read is negative; [cur]: the
    number read so far. *)
Fixpoint scan (s : string) (neg : bool) (cur : option Z) : list Z :=
  match s with
  | EmptyString => match cur with Some z => [signed neg z] | None => [] end
  | String c r =>
    match digit c, cur with
    | Some d, None => scan r neg (Some d)
    | Some d, Some z => scan r neg (Some (10 * z + d))
    | None, None => scan r (Ascii.eqb c "-") None
    | None, Some z => signed neg z :: scan r (Ascii.eqb c "-") None
    end
  end.

Definition numbers (s : string) : list Z := scan s false None.

(** The text begins with these words. *)
Definition begins (w s : string) : Prop := exists r, s = (w ++ r)%string.

(** The four spellings of RS. *)
Definition rs_word (s : string) : Prop := In s ["RS"; "Rs"; "rS"; "rs"]%string.

(** The number of a finite number of servers. *)
Definition finite_part (x : ext) : list Z := match x with Fin z => [z] | Inf => [] end.
