(** * SpecClock: the same network read off another clock *)
From Coq Require Import List ZArith QArith Bool.
From Verif Require Import Base Heap Queue PQueue Network SpecNet.
Import ListNotations.
Open Scope Z_scope.

(** A clock: what it shows at each moment.  It never stops or runs
    backwards, starts at 0, and has no last moment. *)
Definition clock (w : ext -> ext) : Prop :=
  (forall a b, eltb (w a) (w b) = eltb a b) /\ w (Fin 0) = Fin 0 /\ w Inf = Inf.

(** Agents, heap entries and data with all times read off the clock; nothing
    else changes. *)
Definition by_clock (w : ext -> ext) (a : agent) : agent :=
  mkAgent (ag_id a) (ag_kind a) (w (ag_time a)) (ag_blocked a) (ag_has a) (ag_had a) (ag_stats a) (ag_net a).
Definition item_by (w : ext -> ext) (i : item) : item :=
  match i with Sentinel => Sentinel | Ag a => Ag (by_clock w a) end.
Definition row_by (w : ext -> ext) (r : row) : row :=
  mkData (w (r_arr r)) (w (r_srv r)) (w (r_dep r)) (r_nq r) (r_ns r).
Definition data_by (w : ext -> ext) (d : qdata) : qdata :=
  map (fun e => (fst e, map (row_by w) (snd e))) d.

(** A queue read off the clock; [A i] and [B i] are the arrival and service
    functions to be used by the queue with index [i]. *)
Definition cfg_by (w : ext -> ext) (A B : nat -> nat -> ext -> ext) (c : qcfg) : qcfg :=
  mkCfg (c_class c) (c_src c) (c_tgt c) (c_idx c) (c_type c) (A (c_idx c)) (B (c_idx c)) (c_factory c)
        (c_active_cap c) (w (c_deactive_t c)) (c_buffer c) (c_max_servers c).
Definition queue_by (w : ext -> ext) (A B : nat -> nat -> ext -> ext) (q : queue) : queue :=
  mkQueue (cfg_by w A B (q_cfg q)) (q_servers q) (q_departed q) (q_nsys q) (data_by w (q_data q))
    (map (by_clock w) (q_line q)) (q_collect q) (map (item_by w) (q_arr q)) (map (item_by w) (q_dep q))
    (q_narr q) (q_oarr q) (q_total q) (q_active q) (w (q_now q)) (w (q_time q)) (w (q_next_ct q))
    (q_blocked q) (q_over q) (q_net q) (q_ia q) (q_is q).

(** The functions answer in the new clock what the old ones answered in the
    old; and the queue is not an InfoQueue (which adds up differences of
    times). *)
Definition fits (w : ext -> ext) (A B : nat -> nat -> ext -> ext) (c : qcfg) : Prop :=
  c_class c <> CInfo /\
  (forall i t, A (c_idx c) i (w t) = w (c_arr c i t)) /\
  (forall i t, B (c_idx c) i (w t) = w (c_srv c i t)).

Definition op_by (w : ext -> ext) (o : qop) : qop :=
  match o with
  | ODelay (Some t) => ODelay (Some (w t))
  | OArrive a => OArrive (by_clock w a)
  | _ => o
  end.

(** The scheduler and the network. *)
Definition key_by (w : ext -> ext) (k : ext * nat) : ext * nat := (w (fst k), snd k).
Definition heap_by (w : ext -> ext) (h : pq) : pq :=
  mkPq (map (key_by w) (pq_store h)) (pq_size h) (pq_actual h) (map w (pq_qtimes h)) (key_by w (pq_junk h)).
Definition net_by (w : ext -> ext) (A B : nat -> nat -> ext -> ext) (E : nat -> Z) (n : net) : net :=
  mkNet (map (queue_by w A B) (nt_queues n)) (nt_out n) (nt_probs n) (nt_nagents n) (w (nt_t n)) (nt_events n)
    (nt_max n) (nt_init n) (heap_by w (nt_heap n)) (nt_bas n) (nt_u n) (nt_iu n) E (nt_ie n).

(** Under BAS a blocked agent tries again a small time [eps] after the next
    departure: that time must be read off the same clock. *)
Definition pauses (w : ext -> ext) (eps E : nat -> Z) : Prop :=
  forall i t, w (eadd t (Fin (eps i))) = eadd (w t) (Fin (E i)).
Definition net_fits (w : ext -> ext) (A B : nat -> nat -> ext -> ext) (E : nat -> Z) (n : net) : Prop :=
  Forall (fun q => fits w A B (q_cfg q)) (nt_queues n) /\ (nt_bas n = true -> pauses w (nt_eps n) E).

(** The blocking rule is not changed to BAS. *)
Definition no_bas (k : ncall) : Prop := k <> KOp (NBlocking true).

(** The clock of another unit of time. *)
Definition in_units (k : Z) (t : ext) : ext := match t with Fin z => Fin (k * z) | Inf => Inf end.
