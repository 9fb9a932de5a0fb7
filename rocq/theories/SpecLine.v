(** * SpecLine: what an observer of a queue writes down, and the recursion
      that the times of a queue with several servers obey *)
From Coq Require Import List ZArith QArith Bool Arith.
From Verif Require Import Base Queue SpecQueue.
Import ListNotations.
Open Scope Z_scope.

(** ** The observer *)

(** A visit: who, when they came, whether they were let in, when their
    service began and when they left ([None]: not yet). *)
Record visit : Type := mkVisit {
  v_id : aid; v_arr : ext; v_in : bool; v_srv : option ext; v_dep : option ext
}.

Definition never (o : option ext) : bool := match o with None => true | Some _ => false end.

(** Let in and neither served nor gone; being served. *)
Definition v_waits (v : visit) : bool := v_in v && never (v_srv v).
Definition v_served (v : visit) : bool := v_in v && negb (never (v_srv v)) && never (v_dep v).

(** The agents that came by one call. *)
Definition come (e : entry) : list visit :=
  let '(_, _, _, q') := e in
  map (fun i => mkVisit i (q_now q') true None None) (admitted1 e) ++
  map (fun i => mkVisit i (q_now q') false None None) (turned_away1 e).

(** A visit after one call: it ends if the agent was being served and was
    returned by next_event; service begins if the agent waited and is now
    in service. *)
Definition close (e : entry) (v : visit) : visit :=
  let '(_, _, _, q') := e in
  if v_served v && existsb (aid_eqb (v_id v)) (departed1 e)
  then mkVisit (v_id v) (v_arr v) (v_in v) (v_srv v) (Some (q_now q')) else v.
Definition start (e : entry) (v : visit) : visit :=
  let '(_, q, _, q') := e in
  if v_waits v && began q q' (v_id v)
  then mkVisit (v_id v) (v_arr v) (v_in v) (Some (q_now q')) (v_dep v) else v.

Definition watch (l : list visit) (e : entry) : list visit :=
  map (fun v => start e (close e v)) (l ++ come e).

(** All visits, in the order in which the agents came. *)
Definition visits (log : list entry) : list visit := fold_left watch log [].

(** ** The recursion *)

(** When service began and when the agent left; infinity if not yet. *)
Definition since (v : visit) : ext := match v_srv v with Some s => s | None => Inf end.
Definition until (v : visit) : ext := match v_dep v with Some e => e | None => Inf end.

(** How many of the times are after [t], and how many not before [t]. *)
Definition after (ends : list ext) (t : ext) : Z := zlen (filter (fun e => eltb t e) ends).
Definition from (ends : list ext) (t : ext) : Z := zlen (filter (fun e => eleb t e) ends).

(** When those who were let in leave. *)
Definition ends (l : list visit) : list ext := map until (filter v_in l).

(** With [c] servers, [s] is the first time, from [a] on, at which fewer than
    [c] of the agents that came earlier are still there. *)
Definition first_free (c : ext) (ends : list ext) (a s : ext) : Prop :=
  eLe a s /\ eLt (Fin (after ends s)) c /\
  forall t, eLe a t -> eLt t s -> eLe c (Fin (after ends t)).

(** The first such time, computed: [a] itself or the earliest good time at
    which somebody leaves. *)
Definition free_time (c : ext) (ends : list ext) (a : ext) : ext :=
  if eltb (Fin (after ends a)) c then a
  else fold_right emin Inf (filter (fun e => eltb (Fin (after ends e)) c) ends).

(** The times of all visits of a queue with [c] servers, from the times of
    the arrivals: call [k] of service_f, made when the service begins,
    says when it ends. *)
Fixpoint plan (c : ext) (srv : nat -> ext -> ext) (k : nat) (ends : list ext) (arrivals : list ext) : list (ext * ext) :=
  match arrivals with
  | [] => []
  | a :: r => let s := free_time c ends a in
              let e := srv k s in
              (s, e) :: plan c srv (S k) (ends ++ [e]) r
  end.

(** ** Histories *)

(** Calls that do not change the number of servers and do not go back in
    time; agents that come in are not there yet. *)
Definition orderly (q : queue) (o : qop) : Prop :=
  match o with OServers _ | OClear => False | _ => no_past q o /\ fresh q o end.
(** As before, and no service is delayed. *)
Definition undelayed (q : queue) (o : qop) : Prop :=
  match o with ODelay _ => False | _ => orderly q o end.
Definition all_calls (ok : queue -> qop -> Prop) (log : list entry) : Prop :=
  Forall (fun e => let '(o, q, _, _) := e in ok q o) log.

(** What a finite buffer admits. *)
Definition room (q : queue) : ext := if match c_class (q_cfg q) with CServer => true | _ => false end then Inf
                                     else eadd (q_servers q) (c_buffer (q_cfg q)).

(** The times of a row of collected data, and of a visit; 0 for a time that
    has not come. *)
Definition row_times (r : row) : ext * ext * ext := (r_arr r, r_srv r, r_dep r).
Definition or_zero (o : option ext) : ext := match o with Some t => t | None => Fin 0 end.
Definition visit_times (v : visit) : ext * ext * ext := (v_arr v, or_zero (v_srv v), or_zero (v_dep v)).
(** The visits of one agent. *)
Definition visits_of (i : aid) (l : list visit) : list visit := filter (fun v => aid_eqb (v_id v) i) l.

(** Data is collected all the time. *)
Definition keeps_data (o : qop) : Prop :=
  match o with OCollect false | OClearData => False | _ => True end.

(** A visit so far agrees with a start and an end that were planned. *)
Definition on_plan (now : ext) (v : visit) (p : ext * ext) : Prop :=
  match v_srv v with Some s => s = fst p | None => eLe now (fst p) end /\
  match v_dep v with Some e => e = snd p | None => eLe now (snd p) end.

(** A list of visits, in the order in which the agents came, obeys the
    recursion of a queue with [c] servers and room for [rm] agents: the
    times of arrival do not decrease; whoever is let in is served at the
    first free time; whoever is turned away found no room. *)
Definition lawful (c rm : ext) (l : list visit) : Prop := forall n v, nth_error l n = Some v ->
  (forall m w, (m < n)%nat -> nth_error l m = Some w -> eLe (v_arr w) (v_arr v)) /\
  (if v_in v then first_free c (ends (firstn n l)) (v_arr v) (since v) /\ eLt (Fin (after (ends (firstn n l)) (v_arr v))) rm
   else v_srv v = None /\ v_dep v = None /\ eLe rm (Fin (from (ends (firstn n l)) (v_arr v)))) /\
  (forall e, v_dep v = Some e -> exists s, v_srv v = Some s /\ eLe s e).

(** The times at which a queue lets its own agents come: each is drawn when
    the one before comes, the first one at time [t]. *)
Fixpoint chain (arr : nat -> ext -> ext) (k : nat) (t : ext) (j : nat) : ext :=
  match j with O => arr k t | S i => arr (k + j)%nat (chain arr k t i) end.

(** The times of all arrivals at a queue with [c] servers and room for
    [room] agents, from the times of the arrivals; [None]: turned away.  An
    agent who leaves at the moment of an arrival is still there. *)
Fixpoint lplan (c room : ext) (srv : nat -> ext -> ext) (k : nat) (ends : list ext) (arrivals : list ext) : list (option (ext * ext)) :=
  match arrivals with
  | [] => []
  | a :: r =>
    if eltb (Fin (from ends a)) room then
      let s := free_time c ends a in
      let e := srv k s in
      Some (s, e) :: lplan c room srv (S k) (ends ++ [e]) r
    else None :: lplan c room srv k ends r
  end.

(** A collected row agrees with what was planned, as far as the clock has
    come. *)
Definition due (now x t : ext) : Prop := x = t \/ x = Fin 0 /\ eLe now t.
Definition row_planned (now : ext) (r : row) (p : option (ext * ext)) : Prop :=
  match p with
  | None => r_srv r = Fin 0 /\ r_dep r = Fin 0
  | Some (s, e) => due now (r_srv r) s /\ due now (r_dep r) e
  end.
