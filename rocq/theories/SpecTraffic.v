(** * SpecTraffic: who went from which queue to which, and when *)
From Coq Require Import List ZArith Arith.
From Verif Require Import Base Queue SpecQueue Network SpecNet SpecLine SpecLittle.
Import ListNotations.
Open Scope Z_scope.

(** An agent goes from the end of one queue to the beginning of another. *)
Record move : Type := mkMove { m_from : nat; m_to : nat; m_who : aid; m_when : ext }.

(** The agents, with the times, that are sent by queue [k] and to it. *)
Definition sent_by (k : nat) (M : list move) : list (aid * ext) :=
  map (fun m => (m_who m, m_when m)) (filter (fun m => Nat.eqb (m_from m) k) M).
Definition sent_to (k : nat) (M : list move) : list (aid * ext) :=
  map (fun m => (m_who m, m_when m)) (filter (fun m => Nat.eqb (m_to m) k) M).

(** The earlier one first. *)
Definition in_order (m m' : move) : Prop := eLe (m_when m) (m_when m').

(** The visits that are over, and who came and who left by a list of visits. *)
Definition v_left (v : visit) : bool := negb (never (v_dep v)).
Definition comings (l : list visit) : list (aid * ext) := map (fun v => (v_id v, v_arr v)) l.
Definition goings (l : list visit) : list (aid * ext) := map (fun v => (v_id v, until v)) (filter v_left l).

(** The agents that leave a queue, and those that come, with the times, in
    the order in which this happens. *)
Definition went (log : list entry) : list (aid * ext) :=
  flat_map (fun e => let '(_, _, _, q') := e in map (fun i => (i, q_now q')) (departed1 e)) log.
Definition came (log : list entry) : list (aid * ext) :=
  flat_map (fun e => let '(_, _, _, q') := e in map (fun i => (i, q_now q')) (admitted1 e ++ turned_away1 e)) log.

(** The calls of a history. *)
Definition calls_of (log : list entry) : list qop := map (fun e => fst (fst (fst e))) log.

(** No queue of a network has a finite buffer. *)
Definition limitless (qs : list queue) : Prop :=
  forall q, In q qs -> c_class (q_cfg q) = CServer \/ c_class (q_cfg q) = CNull.

(** ** Stations in a row *)

(** Queues one after the other: whoever leaves one of them goes to the next,
    and nobody else comes there. *)
Definition in_a_row (n : net) (ks : list nat) : Prop := forall s k k',
  nth_error ks s = Some k -> nth_error ks (S s) = Some k' ->
  (forall e, follows n k e -> e = k') /\ (forall j, follows n j k' -> j = k).

(** The station [s] of a row: its queue at the beginning and at the end. *)
Definition station_at (n1 n : net) (ks : list nat) (s : nat) (q1 q : queue) : Prop :=
  exists k, nth_error ks s = Some k /\ get (nt_queues n1) k = Some q1 /\ get (nt_queues n) k = Some q.

(** When the agents leave a station with one server, from the times at
    which they come. *)
Fixpoint leaving (srv : nat -> ext -> ext) (coming : nat -> ext) (j : nat) : ext :=
  match j with
  | O => srv O (coming O)
  | S i => srv j (later (coming j) (leaving srv coming i))
  end.

(** When agent [j] comes to station [s], from the times at which they come to
    the first one; when its service begins there. *)
Fixpoint moment (srv : nat -> nat -> ext -> ext) (a : nat -> ext) (s : nat) : nat -> ext :=
  match s with O => a | S s' => leaving (srv s') (moment srv a s') end.
Definition begins (srv : nat -> nat -> ext -> ext) (a : nat -> ext) (s j : nat) : ext :=
  match j with O => moment srv a s O | S i => later (moment srv a s j) (moment srv a (S s) i) end.
