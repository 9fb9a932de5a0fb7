(** * SpecBuild: what a newly built network should look like *)
From Coq Require Import List ZArith QArith Bool Arith Sorting.Sorted.
From Verif Require Import Base Dict Graph SpecGraph GraphNet Queue SpecQueue Network SpecNet.
Import ListNotations.
Open Scope Z_scope.

(** ** Input *)

(** The input as an adjacency list; an indexed graph is made by
    [QueueNetworkDiGraph] and [add_edge]. *)
Definition as_adj (gi : graph_in) : adj_in :=
  match gi with GIndexed d => ADicts (dg_g d) | GGraph g => ADicts g | GDict a => a end.
Definition proper_graph (gi : graph_in) : Prop :=
  match gi with
  | GIndexed d => dg_g d <> [] /\ exists g l, proper g /\ d = dg_adds (dg_new g) l
  | GGraph g => g <> [] /\ proper g
  | GDict a => proper_in a /\ exists v, mentioned a v
  end.

(** ** Output *)

(** [ks] are the numbers of the edges between [v] and the vertices [ws], in
    increasing order of [ws]. *)
Definition leading (d : dgraph) (pair : nat -> nat * nat) (ks : list nat) : Prop :=
  exists ws, StronglySorted lt ws /\ (forall w, In w ws <-> arc (dg_g d) (fst (pair w)) (snd (pair w))) /\
    Forall2 (fun w k => In (pair w, k) (dg_index d)) ws ks.

(** Every edge has its queue, of the class that belongs to its type; every
    vertex has its out-edges and in-edges, and all out-edges have the same
    probability; nobody is there. *)
Record built (d : dgraph) (cls : list (Z * qclass)) (n : net) (ins : list (list nat)) : Prop := {
  bu_count : forall k, (k < length (nt_queues n))%nat <-> exists e, In (e, k) (dg_index d);
  bu_queue : forall u v k t, In ((u, v), k) (dg_index d) -> edge (dg_g d) u v (Some t) ->
    exists q c, get (nt_queues n) k = Some q /\ mget Z.eqb cls t = Some c /\
      c_src (q_cfg q) = u /\ c_tgt (q_cfg q) = v /\ c_idx (q_cfg q) = k /\ c_type (q_cfg q) = t /\ c_class (q_cfg q) = c /\
      waiting q = [] /\ in_service q = [] /\ scheduled q = [] /\ q_time q = Inf;
  bu_out : forall v, vertex (dg_g d) v -> exists ks, get (nt_out n) v = Some ks /\ leading d (fun w => (v, w)) ks;
  bu_in : forall v, vertex (dg_g d) v -> exists ks, get ins v = Some ks /\ leading d (fun w => (w, v)) ks;
  bu_probs : forall v ks, get (nt_out n) v = Some ks -> exists pr, get (nt_probs n) v = Some pr /\ length pr = length ks /\
    forall p, In p pr -> (p * inject_Z (Z.of_nat (length ks)) == 1)%Q;
  bu_zero : nt_t n = Fin 0 /\ nt_events n = 0%Z /\ nt_init n = false /\ forall k, (k < length (nt_queues n))%nat -> get (nt_nagents n) k = Some 0;
  bu_size : length (nt_out n) = length (g_nodes (dg_g d)) /\ length (nt_probs n) = length (g_nodes (dg_g d));
  bu_insize : length ins = length (g_nodes (dg_g d))
}.

(** ** Arguments *)

(** The number of servers of the arguments is acceptable. *)
Definition servers_ok (a : qargs) : Prop :=
  match qa_servers a with
  | None => True
  | Some (PInt z) => 0 < z
  | Some PInf => True
  | Some POther => False
  end.
(** The functions go forward in time, and the agents suit the queue; InfoQueues
    are told the number of edges and never stop before an arrival. *)
Definition args_ok (nE : nat) (c : qclass) (a : qargs) : Prop :=
  (forall k i t, eLe t (qa_arr a k i t)) /\ (forall k i t, eLe t (qa_srv a k i t)) /\
  (c = CInfo -> qa_net_size a = nE /\ (qa_factory a = None \/ qa_factory a = Some KInfo) /\ forall k i t, eLt (qa_arr a k i t) (qa_deactive_t a)) /\
  (c <> CInfo -> qa_factory a <> Some KInfo).

(** Queues of this kind may be put on a loop. *)
Definition mild_args (c : qclass) (a : qargs) : Prop :=
  c <> CResource /\ (forall b, qa_buffer a = Some b -> eLe (Fin 0) b) /\ forall k i t, t <> Inf -> qa_srv a k i t <> Inf.

(** A queue can be made for edges of type [t]. *)
Definition usable (cls : list (Z * qclass)) (args : list (Z * qargs)) (t : Z) : Prop :=
  exists c a, mget Z.eqb cls t = Some c /\ mget Z.eqb args t = Some a /\ servers_ok a.
(** The type of an edge that is listed with [o]. *)
Definition dflt (o : option Z) : Z := match o with Some z => z | None => 1 end.
(** From a vertex that an edge of non-zero type leads to, another edge leads on. *)
Definition leads_on (g : graph) : Prop := forall u v x, edge g u v x -> x <> Some 0 -> exists w y, edge g v w y.
(** [e] is the first edge of type [t] in the order of the graph. *)
Definition first_edge (d : dgraph) (t : Z) (e : nat * nat) : Prop :=
  edge (dg_g d) (fst e) (snd e) (Some t) /\
  exists pre post, g_edges (dg_g d) = pre ++ e :: post /\ forall e', In e' pre -> ~ edge (dg_g d) (fst e') (snd e') (Some t).

(** ** The documented defaults *)

(** The class of the queues on edges of type [t]: the one given in
    [q_classes], else NullQueue for 0, QueueServer for 1, and LossQueue for
    2, 3 and 4. *)
Definition class_for (cls : list (Z * qclass)) (t : Z) (c : qclass) : Prop :=
  mget Z.eqb cls t = Some c \/
  (mget Z.eqb cls t = None /\ ((t = 0 /\ c = CNull) \/ (t = 1 /\ c = CServer) \/ (2 <= t <= 4 /\ c = CLoss))).
(** Their arguments: the ones given in [q_args] for the type, else none; without
    [q_args], none for the types 0 to 4. *)
Definition args_for (cls : list (Z * qclass)) (args : option (list (Z * qargs))) (no_args : qargs) (t : Z) (a : qargs) : Prop :=
  match args with
  | None => 0 <= t <= 4 /\ a = no_args
  | Some l => mget Z.eqb l t = Some a \/ (mget Z.eqb l t = None /\ (exists c, class_for cls t c) /\ a = no_args)
  end.

(** The queue number [k] is as asked for by the arguments, or as documented
    where they say nothing: one server (ten for a ResourceQueue), agents that
    suit the class, no buffer (any number for an InfoQueue).  A NullQueue has no
    servers; a ResourceQueue may have twice as many as at the beginning. *)
Record as_asked (a : qargs) (k : nat) (q : queue) : Prop := {
  aa_servers : match c_class (q_cfg q), qa_servers a with
               | CNull, _ => q_servers q = Fin 0
               | _, Some (PInt z) => q_servers q = Fin z
               | _, Some PInf => q_servers q = Inf
               | _, Some POther => False
               | CResource, None => q_servers q = Fin 10
               | _, None => q_servers q = Fin 1
               end;
  aa_max : c_class (q_cfg q) = CResource -> c_max_servers (q_cfg q) = eadd (q_servers q) (q_servers q);
  aa_arr : c_arr (q_cfg q) = qa_arr a k;
  aa_srv : c_srv (q_cfg q) = qa_srv a k;
  aa_factory : match qa_factory a, c_class (q_cfg q) with
               | Some f, _ => c_factory (q_cfg q) = f
               | None, CResource => c_factory (q_cfg q) = KResource
               | None, CInfo => c_factory (q_cfg q) = KInfo
               | None, _ => c_factory (q_cfg q) = KAgent
               end;
  aa_cap : c_active_cap (q_cfg q) = qa_active_cap a;
  aa_deactive : c_deactive_t (q_cfg q) = qa_deactive_t a;
  aa_buffer : match qa_buffer a, c_class (q_cfg q) with
              | Some b, _ => c_buffer (q_cfg q) = b
              | None, CInfo => c_buffer (q_cfg q) = Inf
              | None, _ => c_buffer (q_cfg q) = Fin 0
              end;
  aa_collect : q_collect q = qa_collect a;
  aa_net : c_class (q_cfg q) = CInfo -> length (q_net q) = qa_net_size a
}.
