(** * PropsView: claims C86-C88: comparing agents, the blocking property, texts *)
From Coq Require Import List ZArith QArith Bool Arith Lia Ascii String.
From Verif Require Import Base Heap PQueue Queue Network UnionFind SpecQueue QueueHist QueueClaims1 SpecNet NetInv NetReach NetClaims1 NetExamples PropsQueue1 LineClaims
  SpecUF UnionFindProofs PropsUF View SpecView ViewProofs.
Import ListNotations.
Open Scope Z_scope.

(** ** C86: comparing agents *)

(** Every comparison of two agents tells the order of their times, except
    that two InftyAgents cannot be compared by [<=] or [>=]. *)
Theorem C86_compare : forall o x y, (hopeless o x y -> compare_agents o x y = Err TypeError) /\
  (~ hopeless o x y -> exists b, compare_agents o x y = Ok b /\ (b = true <-> says o (itime x) (itime y))).
Proof. exact compare_exact. Qed.
Print Assumptions C86_compare.

(** What heapq needs: [<] never raises, is a strict order, and not being
    before is transitive. *)
Theorem C86_sortable : (forall x y, exists b, compare_agents PLt x y = Ok b) /\
  (forall x, compare_agents PLt x x = Ok false) /\
  (forall x y z, compare_agents PLt x y = Ok true -> compare_agents PLt y z = Ok true -> compare_agents PLt x z = Ok true) /\
  (forall x y z, compare_agents PLt x y = Ok false -> compare_agents PLt y z = Ok false -> compare_agents PLt x z = Ok false) /\
  (forall x y, compare_agents PLt x y = Ok false -> compare_agents PLt y x = Ok false -> compare_agents PEq x y = Ok true).
Proof.
  assert (K : forall x y, compare_agents PLt x y = Ok (eltb (itime x) (itime y))) by (intros [|a] [|b]; reflexivity).
  assert (E : forall x y, compare_agents PEq x y = Ok (eeqb (itime x) (itime y))) by (intros [|a] [|b]; reflexivity).
  repeat split.
  - intros. rewrite K. eauto.
  - intros. rewrite K. f_equal. apply eltb_ge, eLe_refl.
  - intros x y z. rewrite !K. intros A B. injection A as A. injection B as B. f_equal. apply eltb_lt in A, B. apply eltb_lt.
    exact (eLt_le_trans _ _ _ A (eLt_le _ _ B)).
  - intros x y z. rewrite !K. intros A B. injection A as A. injection B as B. f_equal. apply eltb_ge in A, B. apply eltb_ge.
    exact (eLe_trans _ _ _ B A).
  - intros x y. rewrite !K, E. intros A B. injection A as A. injection B as B. f_equal. apply eltb_ge in A, B. apply eeqb_eq. exact (eLe_antisym _ _ B A).
Qed.
Print Assumptions C86_sortable.

(** [==] does not tell agents apart: two agents, of different classes and
    with different ids, are equal at equal times. *)
Theorem C86_refuted : exists a b, ag_id a <> ag_id b /\ ag_kind a <> ag_kind b /\ compare_agents PEq (Ag a) (Ag b) = Ok true.
Proof.
  exists (mkAgent (2%nat, 5) KAgent (Fin 3) 0 false false [] []), (mkAgent (1%nat, 0) KGreedy (Fin 3) 1 false false [] []).
  split; [discriminate|]. split; [discriminate|]. vm_compute. reflexivity.
Qed.
Print Assumptions C86_refuted.

Example C86_example : let a := Ag ex_agent in
  map (fun o => compare_agents o Sentinel a) [PLt; PGt; PEq; PNe; PLe; PGe] = [Ok false; Ok true; Ok false; Ok true; Ok false; Ok true] /\
  map (fun o => compare_agents o Sentinel Sentinel) [PLt; PGt; PEq; PNe; PLe; PGe] = [Ok false; Ok false; Ok true; Ok false; Err TypeError; Err TypeError] /\
  hopeless PGe Sentinel Sentinel /\ ~ hopeless PLe Sentinel a.
Proof. split; [reflexivity|]. split; [reflexivity|]. split; [split; auto|]. intros (_ & _ & H). discriminate H. Qed.

(** ** C87: the blocking property *)

(** Every string is accepted: the four spellings of RS give 'RS', all others
    'BAS'; nothing else about the network changes, and it is a call covered by
    the claims about networks.  Anything but a string is a TypeError.  Setting
    what the property returns changes nothing.  The constructor agrees. *)
Theorem C87_blocking : forall n,
  (forall s, exists n', set_blocking (PyStr s) n = Ok n' /\ (get_blocking n' = "RS"%string <-> rs_word s) /\
     (get_blocking n' = "RS"%string \/ get_blocking n' = "BAS"%string) /\
     set_nt_bas true n' = set_nt_bas true n /\ exists b, run_nop (NBlocking b) n = Ok n') /\
  set_blocking PyOther n = Err TypeError /\
  set_blocking (PyStr (get_blocking n)) n = Ok n.
Proof.
  intro n. split; [|split].
  - intro s. destruct (blocking_word s) as (b & E & B). exists (set_nt_bas b n). unfold set_blocking. rewrite E. cbn [bind].
    split; [reflexivity|]. split; [|split; [|split; [reflexivity|exists b; reflexivity]]].
    + rewrite <- B. unfold get_blocking. cbn [nt_bas set_nt_bas]. destruct b; split; congruence.
    + unfold get_blocking. cbn [nt_bas set_nt_bas]. destruct b; auto.
  - reflexivity.
  - unfold set_blocking, get_blocking. destruct n as [? ? ? ? ? ? ? ? ? b ? ? ? ?]. cbn [nt_bas]. destruct b; reflexivity.
Qed.
Print Assumptions C87_blocking.

Theorem C87_constructor : forall qs out max junk u eps,
  (forall s, exists n, net_with (PyStr s) qs out max junk u eps = Ok n /\ (get_blocking n = "RS"%string <-> rs_word s)) /\
  net_with PyOther qs out max junk u eps = Err TypeError.
Proof.
  intros. split; [|reflexivity]. intro s. destruct (blocking_word s) as (b & E & B). unfold net_with. rewrite E. cbn [bind].
  eexists. split; [reflexivity|]. rewrite <- B. unfold get_blocking, new_net. cbn [nt_bas]. destruct b; split; congruence.
Qed.
Print Assumptions C87_constructor.

(** A string that is no blocking rule is not rejected. *)
Theorem C87_refuted : exists s n n', s <> "BAS"%string /\ s <> "RS"%string /\ set_blocking (PyStr s) n = Ok n' /\ get_blocking n' <> get_blocking n.
Proof.
  exists "RS "%string, (two_ways_net Inf false), (set_nt_bas true (two_ways_net Inf false)). split; [discriminate|]. split; [discriminate|].
  split; [reflexivity|]. vm_compute. discriminate.
Qed.
Print Assumptions C87_refuted.

Example C87_example : map (fun s => match set_blocking (PyStr s) (two_ways_net Inf true) with Ok n => get_blocking n | Err _ => EmptyString end)
  ["rs"; "Rs"; "bas"; "BAS"; ""; "rss"]%string = ["RS"; "RS"; "BAS"; "BAS"; "BAS"; "BAS"]%string.
Proof. vm_compute. reflexivity. Qed.

(** ** C88: texts *)

Lemma count_everyone qs : forall l, (forall k q, get qs k = Some q -> get l k = Some (zlen (held q))) -> List.length l = List.length qs ->
  zsum l = zlen (flat_map held qs).
Proof.
  induction qs as [|q qs IH]; intros l H L; destruct l as [|z l]; try discriminate; [reflexivity|].
  change (z + zsum l = zlen (held q ++ flat_map held qs)). assert (X := H 0%nat q eq_refl). injection X as ->.
  rewrite (IH l); [|intros k x G; exact (H (S k) x G)|now injection L]. unfold zlen. rewrite app_length. lia.
Qed.

(** Whoever reads the text of a network learns its numbers of vertices and
    edges and how many agents are in it, counting those that are to arrive. *)
Theorem C88_network : forall n0 n, well_made n0 -> nreach usual n0 n ->
  begins "QueueNetwork. " (show_net n) /\
  numbers (show_net n) = [Z.of_nat (List.length (nt_out n)); Z.of_nat (List.length (nt_queues n)); zlen (everyone n)].
Proof.
  intros n0 n W R. split; [eexists; reflexivity|]. rewrite read_net. unfold num_nodes, num_edges. do 3 f_equal.
  destruct (ngood_reach _ _ W R) as [I _]. apply count_everyone; [|apply (ni_len _ I)].
  intros k q G. exact (counted _ _ _ _ W R G).
Qed.
Print Assumptions C88_network.

Example C88_network_example : let n := reached (KInit [0; 1]%nat :: sims 9) (two_ways_net Inf true) in
  well_made (two_ways_net Inf true) /\ nreach usual (two_ways_net Inf true) n /\ show_net n = "QueueNetwork. # nodes: 5, edges: 4, agents: 7"%string.
Proof. split; [apply two_ways_made|]. split; [apply reached_usual; vm_compute; reflexivity|]. vm_compute. reflexivity. Qed.

Lemma exec_reach ops : forall q0 q log q', reach anything q0 q -> exec ops q = Ok (log, q') -> reach anything q0 q'.
Proof.
  induction ops as [|o ops IH]; intros q0 q log q' R H; [injection H as _ <-; exact R|].
  apply exec_cons in H as (r & q1 & log' & ST & E & _). refine (IH _ _ _ _ _ E). apply (reach_step _ _ q o q1 R Logic.I).
  exact (step_run_op _ _ _ _ ST).
Qed.

(** Whoever reads the text of a queue (of a class other than ResourceQueue
    and NullQueue) after any calls but clear learns how many agents wait, how
    many have departed and how many are in service. *)
Theorem C88_queue : forall shown ops q0 log q, pristine q0 -> c_class (q_cfg q0) <> CNull -> c_class (q_cfg q0) <> CResource ->
  Forall no_clear ops -> exec ops q0 = Ok (log, q) ->
  exists w a o d, numbers (show_queue shown q) =
      Z.of_nat (c_idx (q_cfg q)) :: finite_part (q_servers q) ++ [w; a; o; d] ++ numbers (shown (q_time q)) /\
    w = zlen (waiting q) /\ d = zlen (departed log) /\ a - d - w = serving q.
Proof.
  intros shown ops q0 log q P N1 N2 NC E. destruct (conservation _ _ _ _ P N1 NC E) as (_ & D & _ & K & _).
  assert (R : exists c s col m, c_class c = c_class (q_cfg q0) /\ reach anything (new_queue c s col m) q0).
  { destruct P as [(c & s & col & m & ->)|(c & s & col & m & q1 & R1 & _ & ->)].
    - exists c, s, col, m. split; [reflexivity|constructor].
    - exists c, s, col, m. split; [rewrite clear_cfg; destruct (basics_reach _ _ _ _ _ _ R1); congruence|]. exact (reach_step _ _ q1 OClear _ R1 Logic.I eq_refl). }
  destruct R as (c & s & col & m & CC & R0). assert (R := exec_reach _ _ _ _ _ R0 E).
  assert (CQ : c_class (q_cfg q) = c_class (q_cfg q0)) by (rewrite <- CC; destruct (basics_reach _ _ _ _ _ _ R); congruence).
  destruct (counts_reach _ _ _ _ _ R) as [S1 _]. destruct K as [A _]; [congruence|].
  exists (zlen (waiting q)), (q_narr q), (q_oarr q), (q_departed q). split; [|split; [reflexivity|split; [exact D|unfold zlen; lia]]].
  rewrite read_queue, CQ. destruct (c_class (q_cfg q0)); try congruence; reflexivity.
Qed.
Print Assumptions C88_queue.

Example C88_queue_example : exists log q,
  pristine (ex_queue CLoss) /\ exec (OActive :: ONext :: ONext :: OArrive ex_agent :: nexts 9) (ex_queue CLoss) = Ok (log, q) /\
  show_queue show_num q = "LossQueue:7. Servers: 2, queued: 1, arrivals: [5, 9], departures: 2, next time: 9"%string /\ zlen (departed log) = 2 /\ serving q = 2.
Proof. eexists; eexists; split; [left; unfold ex_queue; eauto|]. split; [vm_compute; reflexivity|]. vm_compute. auto 10. Qed.

(** The texts of two agents of whatever classes differ if their ids do. *)
Theorem C88_agent : forall shown a b, show_agent shown (Ag a) = show_agent shown (Ag b) -> ag_id a = ag_id b.
Proof.
  intros shown a b H. apply (f_equal numbers) in H. rewrite !read_agent in H. injection H as X Y _.
  destruct (ag_id a), (ag_id b). cbn in *. f_equal; [lia|exact Y].
Qed.
Print Assumptions C88_agent.

(** The text of a UnionFind tells the number of classes. *)
Theorem C88_union_find : forall s l, Forall (uwithin s) l -> exists u, run_uops l (uf_new s) = Ok u /\
  exists c, one_of_each s (pairs l) c /\ numbers (show_uf u) = [Z.of_nat (List.length c)].
Proof.
  intros s l H. destruct (uf_exact s l H) as (u & R & _ & _ & _ & c & C & E). exists u. split; [exact R|]. exists c. split; [exact C|].
  rewrite read_uf, E. reflexivity.
Qed.
Print Assumptions C88_union_find.

Example C88_agent_example :
  show_agent show_num (Ag ex_agent) = "Agent; agent_id:(2, 5). time: 3"%string /\
  show_agent show_num (Ag (set_ag_kind KInfo ex_agent)) = "InfoAgent; agent_id:(2, 5). Time: 3"%string /\
  numbers "a -12, b7: [3, 0]"%string = [-12; 7; 3; 0].
Proof. vm_compute. auto. Qed.

Example C88_union_find_example : Forall (uwithin (seq 0 7)) uf_calls /\
  exists u, run_uops uf_calls (uf_new (seq 0 7)) = Ok u /\ show_uf u = "UnionFind: contains 3 clusters."%string.
Proof. split; [apply C50_ex|]. eexists. split; vm_compute; reflexivity. Qed.
