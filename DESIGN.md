# Design: a machine-checked model of queueing-tool

Source: `/repo` (djordon/queueing-tool, pinned commit).  Prover: Rocq/Coq
8.16.1, standard library only.  Layout: `rocq/theories/`.

* Model files hold only definitions (plus the data types they need).  Each
  definition cites file and lines and states its simplifications.
* Proof files hold lemmas about the model.
* `Props*.v` hold the claim theorems: statement, `exact lemma`, then
  `Print Assumptions`, and beside each one an `Example` that meets the
  hypotheses with a concrete, non-trivial value.
* Specification notions used in statements are defined independently of the
  implementation (`Spec*.v` or in the Props file): multisets as
  `Permutation`, "smallest" as a quantified inequality, connectedness as an
  inductive closure, and so on.

## 1. How Python is modelled

| Python | Model |
| --- | --- |
| float time, `numpy.infty` | `ext := Fin Z \| Inf`.  A finite double is an integer multiple of 2^-1074, so `Fin z` is exact for comparison; every `<`, `<=`, `==` used by the code is decided exactly as in Python. |
| int, counters | `Z` (unbounded, as in Python).  numpy `int64` totals are also `Z`. |
| probabilities, colours | `Q` |
| `arrival_f`, `service_f`, `uniform()`, `np.random.*` | oracles: `nat -> ...`, the n-th call returns the n-th value (applied to the argument where there is one).  Theorems quantify over all oracles, so every random run is an instance. |
| objects with mutable fields | records; a method is a function from the old to the new record.  Aliasing is handled where it occurs (`e1 == e2` in the network: queues are read and written by index). |
| exceptions | `res A := Ok a \| Err exn` |
| `while` loops that need not terminate | fuel; theorems speak about runs that end, fuel exhaustion is a separate value, never a result |
| `heapq`, `PriorityQueue` | the real array algorithm (`_siftdown`, `_siftup`), on lists with in-place update |
| `dict` | association list in insertion order |
| class dispatch | a class tag; overriding methods dispatch on it in the order of the MRO |

Not modelled: rounding of float addition, NaN, negative infinity, int32
truncation in `InfoAgent.stats`, `int` overflow, matplotlib figures, `seed`,
`__repr__`, networkx internals (a graph is an ordered dictionary of
ordered dictionaries of edges; Graph.v), numpy array layout, thread/GIL effects, memory
allocation failure.

## 2. Trusted base

* Coq's kernel (and `vm_compute`, which is part of it).
* What `Print Assumptions` lists for each theorem; the target is
  "Closed under the global context" for all of them.
* The correspondence between the Python text and the model: checked by
  reading, function by function; each definition carries its citation.
* The queue record is declared with primitive projections (a kernel
  feature, no axiom).  Tools that list every axiom of every loaded library
  also show those of `Coq.ssr.ssrunder`; no theorem here uses them.
* CPython's `heapq` is taken to be the algorithm of `Lib/heapq.py` (the C
  version implements the same one).

## 3. What is modelled

`queues/queue_servers.py`: QueueServer, LossQueue, NullQueue, all methods
(`__repr__` in View.v); `poisson_random_measure`; `_current_color` of all
classes.
`queues/queue_extentions.py`: ResourceAgent, ResourceQueue, InfoAgent,
InfoQueue.  `queues/agents.py`: all.  `queues/choice.pyx`: all.
`network/priority_queue.pyx`: all.  `network/queue_network.py`: all methods:
events, `simulate`, `initialize`, `clear`, `clear_data`, `copy`, `time`,
`next_event_description`, `set_transitions`, `transitions`,
`get_agent_data`, `get_queue_data`, `_get_queues`,
`start/stop_collecting_data`, the colours (Colors.v), `animate` with its
frames (Animate.v), `show_type`, `show_active`, `draw` (View.v, Options.v,
Drawing.v).  `union_find.py`: all.
`graph/graph_wrapper.py`: `adjacency2graph` and helpers, edge index, reading
and setting properties (GraphRead.v), `draw_graph`, `lines_scatter_args`
(Drawing.v).
`graph/graph_preparation.py`: `_prepare_graph` (queues and colours),
`_set_queues`; `QueueNetwork.__init__`.
`graph/graph_generation.py`: `minimal_random_graph`,
`generate_transition_matrix`, `set_types_random`, `set_types_rank`,
`generate_random_graph`, `generate_pagerank_graph`.
Not modelled: numpy, networkx and matplotlib themselves (what they are given
is), the distances and pageranks of `graph_functions` (oracles),
`QueueNetworkDiGraph.freeze`, and `graph/_pairwise.pyx`, which `setup.py`
does not build and no module imports.

## 4. Plan per property

Proof technique in one line each.  "Refute" means that the statement as a
user reads it is false for the code; then a theorem `..._refuted` gives a
concrete counterexample and the strongest true part is proved as well.

* C01, C02 - PQueue.v: arrays as lists, out-of-bounds access is an error
  value.  Heap order + permutation lemmas for sift operations (Heap*.v);
  loop of `pop` by induction on size.  C02 also refuted for empty keys.
* C03 - queue invariant (counts of heap and line) preserved by every op.
* C04 - ghost-free: the line is only appended at the end and popped at the
  front; service order is derived by a simulation with an abstract FIFO.
* C05, C06, C07 - invariant on in-service count; C07 refute by witness.
* C08 - invariant time = min of heap roots; kind of event by case analysis.
* C09 - invariant: all heap keys >= current_t, under causal oracles.
* C10, C11 - invariant on created agents; the re-activation count is a
  parameter of the statement.
* C12, C13 - case analysis and induction on fuel.
* C14 - equality of records after clear with a constructor function.
* C15, C16 - permutation lemmas; C16's infinite/infinite case refuted.
* C17 - invariant linking data rows to the location of agents;
  C18 refute by witness.
* C19 - `fetch_data` is a stable sort of the concatenated rows.
* C20, C21, C22 - invariants; C22 by bisimulation.
* C23 - invariant of NullQueue.
* C24 - refute by witness; QueueActs.v follows every `queue_action` of one
  event with the state of the queue it sees (`departure_acts`,
  `arrival_acts`), which gives the exact effect on servers and resources
  (`resource_step`, SpecAct.v) and, by induction, the balance of a history.
* C25 - refute by witness, true for the other classes.
* C26 - counting lemma.  C27 - pointwise order on rows, for the two actions
  of an arrival by transitivity.
* C28 - refute by witness; InfoStop.v repeats QueueTotal for an InfoQueue with
  any deactive_t: an operation raises exactly if it draws an arrival time
  not before deactive_t, and then AttributeError (C28_exact_partial).
* C29 - refute by witness; the exact increments by QueueActs.v.
* C30, C32, C33, C36, C37 - network invariant `ninv` (NetInv.v): every
  scheduler entry carries the time of its queue or is a leftover, all pending
  times are at or after the clock, counts equal `num_agents`.  One event is
  one of five cases (`nst`, NetSteps.v); NetFlow.v turns them into the
  specification `transit` of SpecNet.v.  Histories: `nreach`.
* C31 - totality by a well-formedness invariant `nlive` (NetTotal.v).  An
  agent that comes straight back to its queue leaves an event behind there
  (NetLoop.v), unless the queue is a ResourceQueue or the service never ends:
  both refuted by computed runs.
* C34, C35 - refute by witness (leftover entries); true part: `happening`.
* C38 - exact interval arithmetic in Q.  C39 - induction on lists.  Both are
  tied to moves in the network by `chooses` in SpecNet.v.
* C40, C41, C43 - from the scheduler's construction lemma.
* C42 - case analysis; tuple of tuples refuted; a list with something that is
  not a pair selects every queue.
* C44 - permutation of rows.
* C45, C46, C47, C56 - a DiGraph is an ordered dictionary of ordered
  dictionaries (Graph.v); `from_dod_ok` and `adjust*_spec` describe each step
  by the set of edges; C47 by the invariant `dwf` (GraphIndex.v).
* C48, C49 - Routing.v models `set_transitions`, `transitions` and
  `generate_transition_matrix` on the lists of probabilities; RoutingProofs.v
  describes every write by the relation `route` (what `transitions(False)`
  says); RoutingGen.v does the sums.  Atomicity, non-neighbours and the mask
  in node order are refuted.
* C50 - forest invariant with ranks; find terminates by rank.
* C51, C64 - GraphGen.v models the generators: distances between points,
  uniform numbers and page ranks are oracles.  GraphGenProofs.v follows the
  Kruskal-style loop with the union-find invariant of C50 over the prefix of
  the sorted edges; SpecGen.v says what a path and a connected set are.
* C57 - totality by a well-formedness invariant (`tot`).
* C58, C59 - one-call lemmas on top of the queue invariant; identifiers of
  agents held are distinct (`dinv`), provided the network sends in no agent
  that is already there.
* C60-C63 - GraphNet.v models `__init__`, `_prepare_graph`, `_set_queues`;
  GraphBuild.v proves that the loops put the right queue at each index
  (`queues_on_ok`) and composes with C46 and with `simulate_total` (C31).
* C52 - set_types is `put_all` of GraphProofs.v; GraphRankProofs.v has the
  ranks (`top` counts the vertices with a higher rank).
* C53 - Measure.v: the loop with fuel; `thin_ok` by induction on fuel.
* C54 - Colors.v models `_current_color` of every class (a component is a
  rational or NaN); ColorProofs.v bounds the shades and shows that they
  fall with the load; C54_exact is the
  formula; C54_reached needs that servers never become negative.
* C55 - Colors.v also models every function that writes edge and vertex
  colours; PaintProofs.v has one lemma per loop, `progress` is the invariant
  of `_update_all_colors`.  Refuted where the code uses the position in
  `g.edges()` as the edge number, and for two vertex colours.
* C65 - NetBare.v: every method of a queue commutes with forgetting the
  counts of blocked agents (`veil`); NetRefine.v: each of the five cases of an
  event, and every other call, extends the history of each queue.  The
  `..._network` theorems follow from the theorems about single queues.

* C33_only, C66_initialized, C66_keeps - NetActive.v: a queue is made inactive
  only by a full network, deactive_t or active_cap (from `op_arrproc`); what an
  event never changes (`nframe`); the flag _initialized over all calls.
  Every event uses the next random numbers of `nt_u` and `nt_eps` exactly if it
  chooses or blocks (in `chooses`, `stays`, `happening`).
* C66 - NetStop.v: with positive times every event lowers the sum, over the
  queues, of the number of events due before a given time, so the loop of
  `simulate` ends; `zeno` is a network in which it does not.
* C67 - NetNext.v: the least key names the foremost queue; the invariant of
  the scheduler says which queue is popped.  Refuted for leftover entries and
  for ties.
* C68 - `initialize_exact` (C41) for the drawn queues; `initialize_total`.
* C69 - induction over the selection; `keeps`: each case of an event leaves
  the data of queues that do not collect alone.
* C70 - `ranked`: a root of rank r has a class of at least 2^r elements, ranks
  rise along the way to the root.
* C71 - Animate.v models `_simulate_next_event(slow=True)` and the loop of
  animate on pairs of a network and the colours of its graph.  `slow_net`: the
  colours are only written, never read.  AnimateProofs.v: `shown` is an
  invariant of every event: an event changes the looks of at most two queues,
  and these are the previous and the present edge of `_update_graph_colors`.
  Refuted for two loops of different types.
* C72 - ShowProofs.v: one lemma per loop; `all_shown` says what
  `_update_all_colors` restores.  Refuted for loops of type 0.
* C73-C76 - Drawing.v models the attribute dictionaries, the arrays beside them,
  set_pos, lines_scatter_args, add_edge_lengths and the properties part of
  `_prepare_graph`.  C73: one lemma for the loop over the edges.  C74: `tied`
  (array rows are properties) is kept by every call.  C75: induction over the
  edges.  C76: `mirrors` links the colours of Colors.v to properties and
  arrays; every function of Colors.v and Animate.v is shown to be a sequence
  of single assignments (DrawNet.v), and each assignment keeps `mirrors`.
* C77-C80 - SpecLine.v: an observer writes down visits from the log of calls
  (who came, began, left, and when), and the recursion is stated about these
  visits only.  LineProofs.v: `lined` (visits so far, line, agents in service
  and clock fit together; every visit so far obeys the recursion) is kept by
  every call.  LineClaims.v: `timed` adds the values of service_f.  LineRows.v:
  rows and visits stay equal.  LineSolo.v: a queue on its own draws its
  arrivals one after the other.  LineNet.v: through the refinement of C65.
* C81, C82 - SpecLittle.v: sums over visits and areas over the log.
  LineMore.v: each call adds (number of agents) x (time passed) to the sums;
  monotony of the first free time, then induction over the plan of C77.
* C83, C84 - SpecTrail.v: a way is a list of (queue, row).  TrailSteps.v:
  what one call to a queue does to the rows and places of one agent (nothing,
  begins service, becomes due, arrives).  TrailProofs.v: the invariant of one
  agent's way under these, departures, joins and exits, with an agent in the
  air between two queues.  TrailNet.v: the invariant along histories.
  TrailData.v: sorting by arrival gives the way back, up to ties.

* C85 - SpecLock.v: `departures` counts the agents that left their queue;
  `locked n D` says that the queues of `D` are full and lead only to each
  other; `no_ring` gives every queue a rank that goes down on every step to
  another limited queue.  LockProofs.v: one event leaves all queues of a
  locked set as they are (arrivals are turned away, moves are blocked), so
  does every other call but clear.  LockFree.v: by induction on the rank; run
  until after the time at which an agent in service is due
  (`time_total_stops` of C66); either somebody left, or the agent was blocked
  by a full queue of lower rank, which has somebody in service (C05 for
  networks).  The refutation is a circle of two LossQueues.

* C86-C88 - View.v: comparisons of agents with Python's dispatch to missing
  methods, the blocking property, and `__repr__` of all classes as Coq
  strings (integers printed by the standard library).  SpecView.v: what a
  comparison says about two times; `numbers`, a reader that collects the
  numbers in a text.  ViewProofs.v: the reader finds what was printed
  (induction on the decimal digits).  The counters printed are right by C03,
  C32 and C50.

* C89 - SpecCopy.v: two networks are alike if they agree in everything but
  clock, count of events and scheduler.  CopyProofs.v: exchanging the scheduler
  commutes with an event of a given queue (swap), leftover entries are skipped,
  and with no ties the first live entry of both heaps is the same queue.
  False with ties (C89_refuted: the copy of a network serves two queues that
  are both due at 3 in the other order).  The random draws are the model's
  sequence of numbers; in Python network and copy share numpy's generator, so
  the statement is about two runs from the same state of the generator.

* C90 - SpecOrder.v: a tidy graph has the vertices 0, 1, 2, ... and increasing
  rows.  OrderProofs.v: types and adjustments do not change the graph without
  its types (skel), from_dod is the identity on tidy graphs, and sorting the
  edges changes nothing.  PropsOrder.v combines this with C48, C55, C60, C76.
* C91 - GraphRead.v: out_neighbours, vertex_properties, edge_properties,
  get_beliefs.  PropsRead.v: all statements are about edges, arcs, vertices and
  attributes of the graph, not about the lists that are filtered; the flags of
  ResourceAgents are compared with the number of trades.
* C92 - Portions.v: lemmas about a loop that is interrupted by an earlier stop
  test and carried on, used for both simulate functions; PropsPortions.v.
* C93 - Options.v: dictionaries of keyword arguments, the tables of defaults,
  draw_graph, draw, and the arguments of FuncAnimation and save.
  PropsOptions.v: a dictionary completes defaults with what the caller gave;
  combined with C73.  matplotlib itself is not modelled.
* C94 - LittleNet.v: every call of the network is followed at one queue, with
  the calls that it makes there; at most one of them moves the queue's clock,
  and the numbers of agents change only once the clock is that of the network.
  So the integral by the network's clock is the area of C81 plus the time since
  the queue's last event.

* C95 - SpecTraffic.v, Traffic.v: every call of the network is followed at all
  queues together; a list of moves (from, to, who, when) grows by one entry
  with every event that passes an agent on.  For every queue there is a
  history of its own calls, as in C78 and C80, whose departures are the moves
  from it and whose comings, if the queue has made no agents, are the moves
  to it.  `C95_crossing` (Tandem.v) puts this in terms of the collected data:
  A and B are sets of queues such that everything that goes to B comes from A.
* C96 - Tandem.v: at a station with one server the visits that are over are
  the first ones, so the order is kept; C79's recursion and the draws of the
  service function (`station`) give the times at one station, C95 makes the
  departures of one station the arrivals of the next.  LossQueues anywhere are
  excluded because blocking delays services.
* C97 - SpecCounts.v, Marks.v, Counts.v: every call gets a label that is read
  off the states before and after (`saw`), without counters; each call moves
  the counters and the agents' marks as its label says.  Marks.v follows
  `blocked` of all agents through one queue for an arbitrary predicate.  The
  numbers of agents that are kept are bounded by the numbers given out, so new
  agents begin at 0.  `C97_turned_away` is about `add_loss` itself.
* C98 - Switch.v: `op_arrproc` for the calls that draw arrivals; emptying by a
  measure (two for an agent on the way, one for each other) that every event
  lowers, and work conservation for the idle end.
* C99 - Drain.v: three times the load plus the size of the scheduler falls
  with every event (`step_less`; a pop removes an entry, at most two are
  pushed); an empty scheduler means that no queue has an event, and work
  conservation does the rest.  `sealed_step` for networks without exit.
* C100 - Clock.v, ClockNet.v: every method commutes with reading all times off
  another clock (`next_by`, `pq_pop_by`, `event_by`, `call_by`): heaps see only
  the order of keys, configurations are never changed (`op_cfg`,
  `call_fits`).  No invariant is needed, so this holds in every state.
* C101 - Blind.v, BlindNet.v: every method commutes with forgetting the data
  (`blind`), given that nobody is listed in the data without a row, which all
  methods keep; calls about data become no-ops.  Statements in SpecBlind.v and
  PropsBlind.v; InfoQueues excluded and refuted by a witness.
* C102 - SpecParts.v, Parts.v: a network and another one with a common part
  into which and out of which nothing leads.  `event_in`: an event leaves the
  part as it is or is its first event; `result`: what the first event makes of
  the queues, which the part determines (`result_same`).  `film` counts the
  events of the part in a history; histories with the same count end in the
  same state of the part.  The first event must be the event of one queue only
  (`untied_in`): C102_refuted shows that ties are broken by entries of the
  other part in the scheduler.
* C103 - SpecLay.v, Lay.v, LayNet.v: `lay` replaces InfoQueues by LossQueues
  and InfoAgents by Agents.  Every method that returns commutes with it
  (`fwd`, a forward simulation: exceptions of the original are not compared);
  `next_lay`, `ops_lay`, `call_lay`.  No invariant is needed.
* C104 - SpecAgain.v, Again.v, AgainNet.v: `late` is a queue in the same state
  whose functions were called more often; every method commutes with it if
  the functions answer the same from there on (`goes_on`).  SpecRenew.v,
  Renew.v: an invariant of all calls (`kept`: what clear does not reset is as
  in a new queue) shows that a cleared network is `late` of a new one
  (`renew`).  `face` is a network without its functions and numbers of draws.
  NullQueues must have no data and must not be active (`tidy_exits`); they are
  never active if their edge type is 0 (`C104_exits`).
* C105 - SpecRelax.v, Relax.v, RelaxNet.v: `as_plain` turns a LossQueue into a
  QueueServer.  With room (`has_room`) LossQueue.next_event is
  QueueServer.next_event (`loss_roomy`), so every method commutes with
  `as_plain`.  In an event of the network room is left for the second
  `next_event`, since a departure makes room and an arrival in the heap takes
  none (`departed_room`, `calm_add`).  RelaxMore.v: the same from the weaker
  condition that no LossQueue counts a blocked agent (`unhindered`); the count
  never decreases in an event, so it is constant at each step of it.
* C106 - SpecLimit.v, Limit.v: `allow_more` raises the limit; every method of
  the network commutes with it below the limit.  `moved_sum`: after an agent
  has moved, `num_agents` has no larger sum than before the event, so the
  second comparison with the limit has the same result; this uses the
  invariant that `num_agents` holds the numbers of the queues.
* C107 - SpecFree.v, Free.v, FreeNet.v: `free` removes the two limits.
  `_add_arrival` does the same on the free queue or leaves a `spent` one
  (`add_new_free`), and a spent queue stays spent within an event
  (`next_free`, `stop_spent`), so it suffices that none is spent afterwards.
* C108 - SpecSoft.v, Soft.v: `soft` removes `max_servers` and sets `over_max`
  to 0; every method commutes with it, exceptions included, without any
  condition.  `C108_soft`: it hides nothing else.
* C109 - SpecPast.v, Past.v, PastNet.v: `redraw` and `redraw_net` replace all
  functions of the user and all random numbers; `same_past` says that they
  agree in the values drawn so far, which the counters `q_ia`, `q_is`, `nt_iu`
  and `nt_ie` tell.  Both runs are compared step by step (`good`): the results
  are the same, or the state is one in which a differing value has been drawn
  (`late`), and it stays so.  `C109_last_refuted`: the last value matters.
* C110 - SpecCalls.v, Calls.v, CallsNet.v: the counters `q_ia` and `q_is` of the model are
  the numbers of calls of `arrival_f` and `service_f`.  `again1` marks the
  calls of delay_service that repeat a service, `asked_step` says what a call
  of `arrival_f` does.  `C110_network` follows with the histories of C65,
  `C110_once` by an invariant over the events of the network.
  `C110_refuted`: a value not before `deactive_t` gives no arrival.

Order of work: Base, Heap, PQueue; Queue and its invariants; Network;
UnionFind; Graph; the rest.  Each milestone is committed and gated.

## 5. Tests against wrong programs

`seeded/LOG.jsonl` has one line per mutant of a definition, built in a scratch
copy.  What the fields mean, and what they do not:

* `failed`, `first_failing_lemmas`: where Coq reported an error.  This is what
  was observed.  A proof script that breaks does not by itself show that the
  statement is false of the mutant.
* `not_rebuilt`: theorems named as affected when the mutant was written, whose
  file depends on a failing one (or follows the failing lemma), so that they
  could not be compiled.  They were not tried one by one.
* `predicted_only`: named likewise, but nothing confirms it.  Three entries;
  the names were mistaken (no such theorem exists).
* `witness`: a goal computed on the mutant.  `instance check` (first twelve
  rounds): an instance of the claim, chosen by hand, comes out wrong.
  `changed value` (later rounds): some observable value differs from the
  original program; whether this contradicts the claim is a matter of reading.
  Neither is a formal negation of the theorem.
  `negation of` a theorem (used where the statement needs no proof files): the
  negation of that theorem's statement was proved for the mutant.

Until the line for C103 was added this file listed predicted theorems under
`failed`, and called them `falsified_by_witness` when the witness computed.
That said more than had been checked; the lines were rewritten from the saved
output of the runs, the dependencies of the current files and the mutants.
