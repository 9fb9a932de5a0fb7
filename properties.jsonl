{"id": "C01", "title": "The scheduler pops the earliest live event", "statement": "For every PriorityQueue built from a list of (time, edge) keys and every later sequence of push and pop, pop returns an entry whose time is the one most recently assigned to its edge, no entry that is still live has a smaller time, only superseded entries are discarded on the way, and pop returns None exactly when every stored entry is superseded.", "quantifier": "all key lists, all push/pop histories, all times including ties and infinity", "why_tests_cant": "The result depends on the heap shape produced by the whole history; tests sample a few histories.", "anchors": ["queueing_tool/network/priority_queue.pyx:PriorityQueue.pop", "queueing_tool/network/priority_queue.pyx:PriorityQueue.push", "queueing_tool/network/priority_queue.pyx:_siftdown", "queueing_tool/network/priority_queue.pyx:_siftup", "queueing_tool/network/priority_queue.pyx:heapify"]}
{"id": "C02", "title": "The scheduler never touches memory outside its arrays", "statement": "With bounds checks compiled out, every array read and write of PriorityQueue.push/pop is inside the allocated arrays, for every history that starts from a non-empty key list with edges below n, pushes edges below n and pops only when size > 0. A PriorityQueue built from no keys is the exception: its first push writes outside the array.", "quantifier": "all key lists, all push/pop histories of any length", "why_tests_cant": "An out-of-bounds access is silent; tests cannot observe it and cannot enumerate histories.", "anchors": ["queueing_tool/network/priority_queue.pyx:PriorityQueue.push", "queueing_tool/network/priority_queue.pyx:PriorityQueue.pop", "queueing_tool/network/priority_queue.pyx:PriorityQueue.heappop"]}
{"id": "C03", "title": "QueueServer accounting", "statement": "After any sequence of API calls on a queue, num_system equals the agents in service plus number_queued(), the internal total equals num_system plus the scheduled arrivals, no agent is lost or duplicated, and num_arrivals[0] = num_system + num_departures (+ num_blocked for a ResourceQueue fed only with resource-less ResourceAgents).", "quantifier": "all queue classes, all arrival/service functions, all histories of next_event, set_active, set_inactive, set_num_servers, delay_service, arrivals from the network, data collection switches and clear", "why_tests_cant": "The counters are maintained incrementally in a dozen places; a test checks a few random runs.", "anchors": ["queueing_tool/queues/queue_servers.py:QueueServer.next_event", "queueing_tool/queues/queue_servers.py:QueueServer._add_arrival", "queueing_tool/queues/queue_servers.py:QueueServer.set_num_servers", "queueing_tool/queues/queue_servers.py:LossQueue.next_event", "queueing_tool/queues/queue_extentions.py:ResourceQueue.next_event"]}
{"id": "C04", "title": "First come, first served", "statement": "Agents enter service in the order in which they arrived: at every moment the line is a suffix of the arrival order, an arriving agent never overtakes a waiting one, and the agent taken from the line is the longest waiting one.", "quantifier": "all histories of a QueueServer or LossQueue, any number of servers, any ties", "why_tests_cant": "Overtaking would need a particular state; only an invariant excludes it.", "anchors": ["queueing_tool/queues/queue_servers.py:QueueServer.next_event", "queueing_tool/queues/queue_servers.py:QueueServer._service_from_queue", "queueing_tool/queues/queue_servers.py:QueueServer.set_num_servers"]}
{"id": "C05", "title": "No server idles while agents wait", "statement": "Whenever number_queued() > 0, the number of agents in service is at least num_servers.", "quantifier": "all histories of a QueueServer, LossQueue or InfoQueue, including any sequence of set_num_servers", "why_tests_cant": "Needs an invariant over all interleavings of arrivals, departures and changes of num_servers.", "anchors": ["queueing_tool/queues/queue_servers.py:QueueServer.next_event", "queueing_tool/queues/queue_servers.py:QueueServer.set_num_servers"]}
{"id": "C06", "title": "No more agents in service than servers", "statement": "As long as num_servers is never lowered, the number of agents in service never exceeds num_servers. (When it is lowered and raised again the code violates this: see C07.)", "quantifier": "all histories of a QueueServer, LossQueue or InfoQueue in which set_num_servers never lowers the number", "why_tests_cant": "The unit test samples 15000 events of one random queue with a fixed number of servers.", "anchors": ["queueing_tool/queues/queue_servers.py:QueueServer.next_event", "queueing_tool/queues/queue_servers.py:QueueServer.set_num_servers"]}
{"id": "C07", "title": "Lowering then raising num_servers", "statement": "After set_num_servers(n) the number of agents in service should be at most max(n, the number in service before the call).", "quantifier": "all reachable queues and all n", "why_tests_cant": "The counterexample needs a particular sequence: lower, then raise while agents wait.", "anchors": ["queueing_tool/queues/queue_servers.py:QueueServer.set_num_servers"]}
{"id": "C08", "title": "time and next_event_description tell the truth", "statement": "In every reachable state q.time is the smaller of the next scheduled arrival and the next scheduled departure (infinity if neither), and next_event performs exactly the kind of event that next_event_description announces, at time q.time.", "quantifier": "all reachable states of all queue classes", "why_tests_cant": "The cached time is updated by hand in every method.", "anchors": ["queueing_tool/queues/queue_servers.py:QueueServer._update_time", "queueing_tool/queues/queue_servers.py:QueueServer.next_event_description", "queueing_tool/queues/queue_servers.py:QueueServer.next_event"]}
{"id": "C09", "title": "The queue clock never runs backwards", "statement": "If arrival_f(t) >= t and service_f(t) >= t, then along every run current_time never decreases and never exceeds time, and every scheduled event lies at or after current_time.", "quantifier": "all such functions (random ones included), all runs", "why_tests_cant": "Depends on every draw of every random function.", "anchors": ["queueing_tool/queues/queue_servers.py:QueueServer.next_event", "queueing_tool/queues/queue_servers.py:QueueServer._add_arrival"]}
{"id": "C10", "title": "active_cap bounds outside arrivals", "statement": "A queue that is activated once and whose active_cap is at least one never creates more than active_cap agents; each further set_active call can add at most one.", "quantifier": "all histories, all arrival functions, all caps", "why_tests_cant": "Tests cover one cap with one arrival function.", "anchors": ["queueing_tool/queues/queue_servers.py:QueueServer._add_arrival", "queueing_tool/queues/queue_servers.py:QueueServer.set_active"]}
{"id": "C11", "title": "deactive_t stops outside arrivals", "statement": "Every agent a QueueServer or LossQueue creates arrives strictly before deactive_t; once a drawn arrival time reaches deactive_t the queue is inactive.", "quantifier": "all histories and arrival functions", "why_tests_cant": "A single random run cannot cover the boundary.", "anchors": ["queueing_tool/queues/queue_servers.py:QueueServer._add_arrival"]}
{"id": "C12", "title": "An idle queue stays put", "statement": "next_event on a queue with nothing scheduled returns None and changes nothing, so simulate(n) with a larger n than there are events is harmless.", "quantifier": "all reachable states", "why_tests_cant": "Universal over states.", "anchors": ["queueing_tool/queues/queue_servers.py:QueueServer.next_event", "queueing_tool/queues/queue_servers.py:QueueServer.simulate"]}
{"id": "C13", "title": "simulate stops where it says", "statement": "simulate(n) performs exactly n events while events remain; simulate(nD=k) ends with exactly k more departures or with nothing scheduled; simulate(nA=k) ends with exactly k more created agents or with nothing scheduled; simulate(t=d) ends at or after the requested time or with nothing scheduled.", "quantifier": "all queues, all targets, all runs on which the loop ends", "why_tests_cant": "Needs that each event moves the counter by at most one, in every state.", "anchors": ["queueing_tool/queues/queue_servers.py:QueueServer.simulate"]}
{"id": "C14", "title": "clear returns a queue to its initial state", "statement": "After clear() a QueueServer, LossQueue or InfoQueue is observably identical to a newly constructed one with the current number of servers and data-collection flag, whatever happened before.", "quantifier": "all histories before clear", "why_tests_cant": "Forgetting one field shows only in some later run.", "anchors": ["queueing_tool/queues/queue_servers.py:QueueServer.clear", "queueing_tool/queues/queue_servers.py:LossQueue.clear", "queueing_tool/queues/queue_extentions.py:InfoQueue.clear"]}
{"id": "C15", "title": "delay_service touches only the next departure", "statement": "delay_service(t) changes the departure time of the agent that was to depart next and of nobody else; all counts are unchanged, and q.time is the new minimum.", "quantifier": "all reachable states, all t", "why_tests_cant": "Universal over heap states.", "anchors": ["queueing_tool/queues/queue_servers.py:QueueServer.delay_service"]}
{"id": "C16", "title": "set_num_servers accepts exactly the documented values", "statement": "set_num_servers(n) raises ValueError for n <= 0 and leaves the queue unchanged; for every positive integer or infinity it sets num_servers to n and starts service for min(n - old, waiting) agents.", "quantifier": "all states and all n", "why_tests_cant": "The infinite/infinite case is not tested and fails.", "anchors": ["queueing_tool/queues/queue_servers.py:QueueServer.set_num_servers"]}
{"id": "C17", "title": "Collected times are ordered", "statement": "With data collection on from the start and functions that do not go back in time, every row satisfies arrival <= service start <= departure for agents that have left, and rows of agents still waiting or in service carry zeros in the columns not yet known.", "quantifier": "all runs, all agents, repeated visits included", "why_tests_cant": "Needs an invariant relating every row to the state of its agent.", "anchors": ["queueing_tool/queues/queue_servers.py:QueueServer.next_event", "queueing_tool/queues/queue_servers.py:QueueServer._service_from_queue"]}
{"id": "C18", "title": "Switching data collection never corrupts old rows", "statement": "Turning collect_data off and on again never changes a row that belongs to an earlier, completed visit.", "quantifier": "all histories with arbitrary switching", "why_tests_cant": "Needs a re-visit during the off phase.", "anchors": ["queueing_tool/queues/queue_servers.py:QueueServer.next_event", "queueing_tool/queues/queue_servers.py:QueueServer._service_from_queue", "queueing_tool/network/queue_network.py:QueueNetwork.stop_collecting_data"]}
{"id": "C19", "title": "fetch_data returns every row once, in arrival order", "statement": "fetch_data returns exactly the collected rows, each once, tagged with the queue's edge index and sorted by arrival time.", "quantifier": "all data dictionaries", "why_tests_cant": "Universal over data.", "anchors": ["queueing_tool/queues/queue_servers.py:QueueServer.fetch_data"]}
{"id": "C20", "title": "LossQueue never exceeds its capacity", "statement": "In every history in which num_servers is not lowered, num_system <= num_servers + buffer; at_capacity() is True exactly when num_system has reached it.", "quantifier": "all histories of a LossQueue or InfoQueue, inside or outside a network", "why_tests_cant": "Invariant over all runs.", "anchors": ["queueing_tool/queues/queue_servers.py:LossQueue.next_event", "queueing_tool/queues/queue_servers.py:LossQueue.at_capacity"]}
{"id": "C21", "title": "Every arrival at a LossQueue is admitted or counted as blocked", "statement": "An arrival event at a LossQueue increments exactly one of num_arrivals[0] and num_blocked, blocks exactly when the queue is at capacity, and a stand-alone queue satisfies: agents created = admitted + blocked + still scheduled.", "quantifier": "all histories", "why_tests_cant": "Invariant over all runs.", "anchors": ["queueing_tool/queues/queue_servers.py:LossQueue.next_event"]}
{"id": "C22", "title": "A LossQueue with unlimited buffer is a QueueServer", "statement": "A LossQueue with infinite buffer goes through exactly the same observable states as a QueueServer with the same parameters under every sequence of calls, and never blocks.", "quantifier": "all histories and parameters", "why_tests_cant": "Equivalence of two classes over all runs.", "anchors": ["queueing_tool/queues/queue_servers.py:LossQueue", "queueing_tool/queues/queue_servers.py:QueueServer"]}
{"id": "C23", "title": "A NullQueue absorbs", "statement": "A NullQueue never schedules an event: after any calls its time is infinity, next_event_description() is 0, number_queued() is 0, and when collecting data it has one row per agent received with that agent's arrival time.", "quantifier": "all histories", "why_tests_cant": "Universal over histories.", "anchors": ["queueing_tool/queues/queue_servers.py:NullQueue"]}
{"id": "C24", "title": "Resources are conserved", "statement": "The number of servers of a ResourceQueue plus the resources held by the agents that visited it should be constant: a ResourceAgent takes one server when it departs without a resource and gives it back on its next arrival with one.", "quantifier": "all histories of ResourceQueues and ResourceAgents", "why_tests_cant": "The unit test only checks that num_servers changes.", "anchors": ["queueing_tool/queues/queue_extentions.py:ResourceAgent.queue_action", "queueing_tool/queues/queue_extentions.py:ResourceQueue.next_event"]}
{"id": "C25", "title": "A blocked arrival does not stop the arrival process", "statement": "As long as an activated queue has reached neither active_cap nor deactive_t and is not set inactive, another arrival from outside is scheduled.", "quantifier": "all histories of QueueServer, LossQueue, ResourceQueue", "why_tests_cant": "Needs a blocked arrival in a ResourceQueue.", "anchors": ["queueing_tool/queues/queue_extentions.py:ResourceQueue.next_event", "queueing_tool/queues/queue_servers.py:LossQueue.next_event", "queueing_tool/queues/queue_servers.py:QueueServer.next_event"]}
{"id": "C26", "title": "over_max counts overflows", "statement": "over_max grows by exactly one each time the number of servers is set above max_servers and never otherwise; max_servers is twice the initial number.", "quantifier": "all histories", "why_tests_cant": "Universal over histories.", "anchors": ["queueing_tool/queues/queue_extentions.py:ResourceQueue.set_num_servers"]}
{"id": "C27", "title": "Information only gets fresher", "statement": "When an InfoAgent meets an InfoQueue, both end up with, for every edge, information at least as recent as either had; entries are replaced only by strictly newer ones (except for the stamp of the queue itself).", "quantifier": "all agents and queues of the same net size", "why_tests_cant": "Universal over contents.", "anchors": ["queueing_tool/queues/queue_extentions.py:InfoAgent.queue_action", "queueing_tool/queues/queue_extentions.py:InfoQueue.extract_information"]}
{"id": "C28", "title": "InfoQueue honours deactive_t", "statement": "An InfoQueue with finite deactive_t stops outside arrivals at deactive_t without raising.", "quantifier": "all histories", "why_tests_cant": "No test gives an InfoQueue a deactive_t.", "anchors": ["queueing_tool/queues/queue_extentions.py:InfoQueue._add_arrival"]}
{"id": "C29", "title": "InfoAgent waiting statistics are waiting times", "statement": "The wait an InfoAgent adds to its statistics is the service start minus the arrival of that visit and hence never negative.", "quantifier": "all visits", "why_tests_cant": "The unit test has a TODO here.", "anchors": ["queueing_tool/queues/queue_extentions.py:InfoAgent.queue_action"]}
{"id": "C30", "title": "Network events happen in time order", "statement": "If all functions go forward in time, every network event happens at the minimum of all queue times, current_time never decreases and never exceeds any queue's next event time.", "quantifier": "all networks, all routings, all runs, ties included", "why_tests_cant": "The scheduler's lazily deleted heap entries depend on the whole history.", "anchors": ["queueing_tool/network/queue_network.py:QueueNetwork._simulate_next_event", "queueing_tool/network/priority_queue.pyx:PriorityQueue"]}
{"id": "C31", "title": "simulate never fails on a well-formed network", "statement": "On an initialized network in which every non-null edge leads to a vertex with an out-edge, simulate never raises: the scheduler never returns None, routing always finds an edge, no index is out of range.", "quantifier": "all such networks and runs of any length", "why_tests_cant": "A crash needs a particular heap history.", "anchors": ["queueing_tool/network/queue_network.py:QueueNetwork._simulate_next_event", "queueing_tool/network/queue_network.py:QueueNetwork.simulate"]}
{"id": "C32", "title": "Agents are conserved in the network", "statement": "At all times num_agents[k] is the number of agents scheduled, waiting or in service at queue k; an event moves at most one agent, from a queue to one of the queues that follow it, and the number of agents changes only by creation, by exit at a NullQueue, by blocking at a finite queue, or by returning a resource. No agent is ever at two places.", "quantifier": "all networks and runs", "why_tests_cant": "Invariant over all runs.", "anchors": ["queueing_tool/network/queue_network.py:QueueNetwork._simulate_next_event"]}
{"id": "C33", "title": "max_agents is respected", "statement": "After one initialize on a cleared network, sum(num_agents) never exceeds max_agents.", "quantifier": "all networks, all runs, all max_agents", "why_tests_cant": "Invariant over all runs; a test checks one limit.", "anchors": ["queueing_tool/network/queue_network.py:QueueNetwork._simulate_next_event", "queueing_tool/network/queue_network.py:QueueNetwork.initialize"]}
{"id": "C34", "title": "num_events counts events", "statement": "Each step of simulate that increments num_events performs one arrival, departure or blocked departure.", "quantifier": "all networks and runs", "why_tests_cant": "Needs a duplicate scheduler entry for a queue that has become idle.", "anchors": ["queueing_tool/network/queue_network.py:QueueNetwork._simulate_next_event", "queueing_tool/network/queue_network.py:QueueNetwork.num_events"]}
{"id": "C35", "title": "network.time is the time of the next event", "statement": "network.time equals the minimum over all queues of their next event time.", "quantifier": "all reachable network states", "why_tests_cant": "Needs a superseded entry at the top of the scheduler's heap.", "anchors": ["queueing_tool/network/queue_network.py:QueueNetwork.time"]}
{"id": "C36", "title": "Blocking", "statement": "An agent inside the network never enters a full finite queue on another edge: it stays at its queue, both blocked counters grow by one, num_agents does not change, and its departure is rescheduled after the next departure from the target (BAS) or after another service (RS).", "quantifier": "all network states", "why_tests_cant": "Universal over states.", "anchors": ["queueing_tool/network/queue_network.py:QueueNetwork._simulate_next_event"]}
{"id": "C37", "title": "Agents follow the graph", "statement": "Every move of an agent is from an edge (u, v) to an out-edge of v.", "quantifier": "all networks, agents and random draws", "why_tests_cant": "Universal over draws.", "anchors": ["queueing_tool/queues/agents.py:Agent.desired_destination", "queueing_tool/queues/agents.py:GreedyAgent.desired_destination"]}
{"id": "C38", "title": "Routing probabilities are honoured", "statement": "For non-negative probabilities summing to one, the draws u in (0,1] that select out-edge k form an interval of length equal to the probability of k; so an edge of probability zero is selected by no positive u.", "quantifier": "all probability vectors, all draws", "why_tests_cant": "Statistical tests only estimate frequencies.", "anchors": ["queueing_tool/queues/choice.pyx:_choice", "queueing_tool/queues/agents.py:Agent.desired_destination"]}
{"id": "C39", "title": "Greedy agents take the first shortest line", "statement": "A GreedyAgent moves to an out-edge whose number_queued() is minimal, and to the first such one.", "quantifier": "all network states", "why_tests_cant": "Universal over states.", "anchors": ["queueing_tool/queues/choice.pyx:_argmin", "queueing_tool/queues/agents.py:GreedyAgent.desired_destination"]}
{"id": "C40", "title": "A copied network behaves like the original", "statement": "copy() yields a network with the same queues, and its scheduler holds exactly the pending event of every queue that has one.", "quantifier": "all reachable networks", "why_tests_cant": "Universal over states.", "anchors": ["queueing_tool/network/queue_network.py:QueueNetwork.copy"]}
{"id": "C41", "title": "initialize activates what was asked for", "statement": "initialize activates exactly the selected non-null queues (the first max_agents of them), raises if none is left, and leaves the others untouched; afterwards the scheduler holds the pending event of every queue.", "quantifier": "all networks, all selections", "why_tests_cant": "Universal over selections.", "anchors": ["queueing_tool/network/queue_network.py:QueueNetwork.initialize"]}
{"id": "C42", "title": "Queue selection by index, edge or type", "statement": "The queues/edge/edge_type arguments select exactly the queues they describe; an iterable of 2-tuples selects exactly those edges.", "quantifier": "all argument shapes", "why_tests_cant": "The tuple-of-tuples shape is documented but selects every queue.", "anchors": ["queueing_tool/network/queue_network.py:_get_queues"]}
{"id": "C43", "title": "clear resets the network", "statement": "After QueueNetwork.clear() the clock, event count and agent counts are zero, nothing is scheduled, every queue is cleared and no data remains.", "quantifier": "all networks", "why_tests_cant": "Null queues keep their data.", "anchors": ["queueing_tool/network/queue_network.py:QueueNetwork.clear", "queueing_tool/queues/queue_servers.py:NullQueue.clear"]}
{"id": "C44", "title": "get_agent_data and get_queue_data lose nothing", "statement": "The rows returned by get_queue_data and get_agent_data are exactly the collected rows of the selected queues, grouped by queue respectively by agent and sorted by arrival time.", "quantifier": "all data", "why_tests_cant": "Universal over data.", "anchors": ["queueing_tool/network/queue_network.py:QueueNetwork.get_agent_data", "queueing_tool/network/queue_network.py:QueueNetwork.get_queue_data"]}
{"id": "C45", "title": "adjacency2graph with adjust=1", "statement": "The result has the given vertices and edges plus exactly one loop of type 0 at each vertex without out-edges; given types are kept and missing ones are 1, so that no vertex is left without an out-edge.", "quantifier": "all adjacency lists and edge types", "why_tests_cant": "Universal over graphs.", "anchors": ["queueing_tool/graph/graph_wrapper.py:adjacency2graph", "queueing_tool/graph/graph_wrapper.py:_adjacency_adjust"]}
{"id": "C46", "title": "adjacency2graph with adjust=2", "statement": "The result has exactly the given vertices and edges; an edge has type 0 if its target has no out-edge and keeps its given type (default 1) otherwise, so every edge of non-zero type leads to a vertex with an out-edge.", "quantifier": "all adjacency lists and edge types", "why_tests_cant": "Universal over graphs.", "anchors": ["queueing_tool/graph/graph_wrapper.py:adjacency2graph", "queueing_tool/graph/graph_wrapper.py:_adjacency_adjust"]}
{"id": "C47", "title": "Edge indices are a numbering", "statement": "edge_index numbers the edges 0..nE-1 without gaps or repetitions, initially in sorted order, and add_edge keeps the old numbers.", "quantifier": "all graphs and all sequences of add_edge", "why_tests_cant": "Universal over graphs.", "anchors": ["queueing_tool/graph/graph_wrapper.py:QueueNetworkDiGraph.__init__", "queueing_tool/graph/graph_wrapper.py:QueueNetworkDiGraph.add_edge"]}
{"id": "C48", "title": "transitions returns what set_transitions accepted", "statement": "After set_transitions(mat) succeeds with probabilities on existing edges, transitions() returns them for the given vertices and the previous ones for all others; generate_transition_matrix is row-stochastic, zero off the edges and accepted.", "quantifier": "all graphs, matrices and dictionaries", "why_tests_cant": "Universal over matrices.", "anchors": ["queueing_tool/network/queue_network.py:QueueNetwork.set_transitions", "queueing_tool/network/queue_network.py:QueueNetwork.transitions", "queueing_tool/graph/graph_generation.py:generate_transition_matrix"]}
{"id": "C49", "title": "A rejected set_transitions changes nothing", "statement": "If set_transitions raises, the routing probabilities are unchanged; if it succeeds, the probabilities at every vertex with out-edges sum to one.", "quantifier": "all inputs", "why_tests_cant": "Needs a dictionary with a good key before a bad one, or a key that is not a neighbour.", "anchors": ["queueing_tool/network/queue_network.py:QueueNetwork.set_transitions"]}
{"id": "C50", "title": "UnionFind computes the generated equivalence", "statement": "After any sequence of unions, find(a) = find(b) exactly when a and b are connected by the unions; find terminates and changes no answer; size(s) is the size of the class of s and nClusters is the number of classes.", "quantifier": "all universes and operation sequences", "why_tests_cant": "Path compression and ranks depend on the whole history.", "anchors": ["queueing_tool/union_find.py:UnionFind.find", "queueing_tool/union_find.py:UnionFind.union", "queueing_tool/union_find.py:UnionFind.size"]}
{"id": "C51", "title": "minimal_random_graph is connected at the smallest radius", "statement": "For two or more vertices the graph is connected, symmetric, has all vertices, and the edges shorter than its longest edge do not connect all vertices.", "quantifier": "all point sets", "why_tests_cant": "Universal over point sets.", "anchors": ["queueing_tool/graph/graph_generation.py:minimal_random_graph"]}
{"id": "C52", "title": "set_types_random and set_types_rank give every edge a proper type", "statement": "Every edge gets a type; set_types_random draws loop types from loop_proportions and others from proportions; set_types_rank gives type 3 to the loops of the top-ranked vertices, type 2 to the loops of the chosen others, and 1 to the remaining edges, adding missing loops only there, if at least one vertex is to be top-ranked.", "quantifier": "all graphs, ranks and draws", "why_tests_cant": "Universal over graphs.", "anchors": ["queueing_tool/graph/graph_generation.py:set_types_random", "queueing_tool/graph/graph_generation.py:set_types_rank"]}
{"id": "C53", "title": "poisson_random_measure thins correctly", "statement": "The returned time is the first candidate, at or after t, accepted by the thinning test, for every sequence of random draws on which the loop ends.", "quantifier": "all rates and draws", "why_tests_cant": "Universal over draws.", "anchors": ["queueing_tool/queues/queue_servers.py:poisson_random_measure"]}
{"id": "C54", "title": "Queue colours are valid colours", "statement": "The colour of a queue has all components between 0 and 1, for every number of agents, and is never lighter with more agents in the queue.", "quantifier": "all states and base colours", "why_tests_cant": "Universal over states.", "anchors": ["queueing_tool/queues/queue_servers.py:QueueServer._current_color", "queueing_tool/queues/queue_extentions.py:ResourceQueue._current_color"]}
{"id": "C55", "title": "Edges show the colour of their own queue", "statement": "When the network is prepared or reset, every edge gets the colour of the queue that sits on it.", "quantifier": "all graphs", "why_tests_cant": "Needs an edge order that differs from the index order.", "anchors": ["queueing_tool/graph/graph_preparation.py:_prepare_graph", "queueing_tool/network/queue_network.py:QueueNetwork.reset_colors"]}
{"id": "C56", "title": "Adjacency conversions round-trip", "statement": "_matrix2dict lists exactly the non-zero entries, and graph2dict of the graph built from an adjacency dictionary gives back that dictionary with the types filled in (and with all targets as keys).", "quantifier": "all matrices and dictionaries", "why_tests_cant": "Universal over inputs.", "anchors": ["queueing_tool/graph/graph_wrapper.py:_matrix2dict", "queueing_tool/graph/graph_wrapper.py:_dict2dict", "queueing_tool/graph/graph_functions.py:graph2dict"]}
{"id": "C57", "title": "No legal call on a queue raises", "statement": "On a queue of any class that is reached by legal calls, every legal call (next_event, set_active, set_inactive, set_num_servers with an admissible number, delay_service with a finite next departure, an arrival of a fitting agent, clear, data switches) returns without an exception and leaves a queue for which the same holds.", "quantifier": "all classes, all histories of legal calls", "why_tests_cant": "Exceptions hide in rare combinations of heap states, data dictionaries and agent classes.", "anchors": ["queueing_tool/queues/queue_servers.py:QueueServer.next_event", "queueing_tool/queues/queue_servers.py:QueueServer.set_num_servers", "queueing_tool/queues/queue_servers.py:QueueServer.delay_service", "queueing_tool/queues/queue_extentions.py:InfoQueue.next_event", "queueing_tool/queues/queue_extentions.py:ResourceQueue.next_event"]}
{"id": "C58", "title": "Times come from the user's functions", "statement": "An agent enters service with exactly the departure time that one new call of service_f returned for the current time, there is one call of service_f per service begun, and agents from outside are scheduled exactly at times returned by calls of arrival_f at the current time.", "quantifier": "all classes, all histories, all functions", "why_tests_cant": "A test sees finitely many calls; a stale or repeated sample looks like any other number.", "anchors": ["queueing_tool/queues/queue_servers.py:QueueServer.next_event", "queueing_tool/queues/queue_servers.py:QueueServer._service_from_queue", "queueing_tool/queues/queue_servers.py:QueueServer._add_arrival", "queueing_tool/queues/queue_servers.py:QueueServer.set_num_servers"]}
{"id": "C59", "title": "Collected rows record what happened", "statement": "With data collection on, an arrival adds exactly one row with the arrival time, the service start if service begins at once, and the numbers queued and in the system right after the arrival; a service start and a departure each set one field of that agent's last row to the current time; nothing else changes any row.", "quantifier": "all classes except ResourceQueue, all histories with distinct agents", "why_tests_cant": "Row errors on rare paths (blocked arrivals, servers added during a queue, revisits) are invisible in aggregate tests.", "anchors": ["queueing_tool/queues/queue_servers.py:QueueServer.next_event", "queueing_tool/queues/queue_servers.py:QueueServer._service_from_queue", "queueing_tool/queues/queue_servers.py:LossQueue.next_event"]}
{"id": "C60", "title": "A network is wired like its graph", "statement": "QueueNetwork(g) puts on the edge with index k a new, empty queue of the class of the edge's type that knows its source, target, index and type; out_edges[v] and in_edges[v] list exactly the edges of v by increasing neighbour, all with the same routing probability; with adjust_graph=True every edge of non-zero type leads to a vertex with out-edges.", "quantifier": "all graphs with vertices 0..n-1, queue classes and arguments", "why_tests_cant": "Universal over graphs.", "anchors": ["queueing_tool/network/queue_network.py:QueueNetwork.__init__", "queueing_tool/graph/graph_preparation.py:_prepare_graph", "queueing_tool/graph/graph_preparation.py:_set_queues"]}
{"id": "C61", "title": "The vertex property cap sets the number of servers", "statement": "A queue whose arguments have no num_servers gets max(cap of its target, 1) servers if the graph has the property cap.", "quantifier": "all graphs, capacities and arguments", "why_tests_cant": "Needs two edges of one type with different capacities.", "anchors": ["queueing_tool/graph/graph_preparation.py:_set_queues", "queueing_tool/graph/graph_preparation.py:_prepare_graph"]}
{"id": "C62", "title": "Any queue class can be put on any edge", "statement": "A network can be built from every graph with vertices 0..n-1 and every assignment of classes to edge types.", "quantifier": "all graphs and classes", "why_tests_cant": "Needs a type that is not among the defaults.", "anchors": ["queueing_tool/graph/graph_preparation.py:_prepare_graph", "queueing_tool/graph/graph_preparation.py:_set_queues", "queueing_tool/network/queue_network.py:QueueNetwork.__init__"]}
{"id": "C63", "title": "A network built from a graph can be simulated for ever", "statement": "If a network is built with adjust_graph=True from a graph whose loops (other than exits) carry no ResourceQueue and no infinite service times, no later sequence of allowed calls leads to a state in which simulating any number of events raises.", "quantifier": "all graphs, classes, arguments, random draws and histories of calls", "why_tests_cant": "Infinite time; universal over graphs.", "anchors": ["queueing_tool/network/queue_network.py:QueueNetwork.__init__", "queueing_tool/network/queue_network.py:QueueNetwork.simulate", "queueing_tool/graph/graph_preparation.py:_prepare_graph", "queueing_tool/graph/graph_wrapper.py:adjacency2graph"]}
{"id": "C64", "title": "generate_random_graph and generate_pagerank_graph", "statement": "generate_random_graph adds to the graph of minimal_random_graph exactly the loops whose draw is below prob_loop, and every edge gets a type with a positive proportion; generate_pagerank_graph types the graph of minimal_random_graph by the page ranks.", "quantifier": "all point sets, draws, proportions and page ranks", "why_tests_cant": "Universal over draws.", "anchors": ["queueing_tool/graph/graph_generation.py:generate_random_graph", "queueing_tool/graph/graph_generation.py:generate_pagerank_graph"]}
{"id": "C65", "title": "A queue inside a network behaves as a queue on its own", "statement": "Whatever calls are made to a network, each of its queues goes through a history of calls of its own methods only (events, activation, arrivals with times not before its clock of agents that are not there yet, delays of the next departure, collection switches, clear), never a change of its servers; its state differs from the state of a stand-alone queue after that history at most in the counts of blocked agents.", "quantifier": "all networks, classes, random draws and histories of calls", "why_tests_cant": "A simulation relation between all reachable states of two programs.", "anchors": ["queueing_tool/network/queue_network.py:QueueNetwork._simulate_next_event", "queueing_tool/network/queue_network.py:QueueNetwork.simulate", "queueing_tool/network/queue_network.py:QueueNetwork.initialize", "queueing_tool/network/queue_network.py:QueueNetwork.clear", "queueing_tool/queues/queue_servers.py:QueueServer.next_event", "queueing_tool/queues/queue_servers.py:QueueServer.delay_service", "queueing_tool/queues/queue_servers.py:QueueServer._add_arrival"]}
{"id": "C66", "title": "simulate does what it says, and stops", "statement": "simulate(n=m) counts m events unless the network runs empty; simulate(t=d) performs events until the clock has moved on by d or more, and no more; it comes to an end if arrivals and services take time.", "quantifier": "all networks with positive interarrival and service times, random draws and histories of calls", "why_tests_cant": "Termination for all inputs; no bound on the number of events is known beforehand.", "anchors": ["queueing_tool/network/queue_network.py:QueueNetwork.simulate", "queueing_tool/network/queue_network.py:QueueNetwork._simulate_next_event"]}
{"id": "C67", "title": "The network's next_event_description tells the truth", "statement": "next_event_description of a network says Nothing if no queue has an event; otherwise it names the queue with the earliest event (the first of several) and says whether an arrival or a departure is next there; that is what simulate(n=1) does then.", "quantifier": "all networks, random draws and histories of calls", "why_tests_cant": "Fails only with leftover scheduler entries or ties.", "anchors": ["queueing_tool/network/queue_network.py:QueueNetwork.next_event_description", "queueing_tool/network/queue_network.py:QueueNetwork._simulate_next_event"]}
{"id": "C68", "title": "initialize(nActive) starts nActive queues", "statement": "initialize(nActive=z) starts exactly min(z, number of edges of non-zero type, max_agents) different queues, all of non-zero edge type, and nothing else; it raises ValueError for z < 1, TypeError if z is not an integer, and QueueingToolError exactly if there is no such edge.", "quantifier": "all networks, z and random selections", "why_tests_cant": "Universal over random selections.", "anchors": ["queueing_tool/network/queue_network.py:QueueNetwork.initialize"]}
{"id": "C69", "title": "Data collection is switched where asked for", "statement": "start_collecting_data, stop_collecting_data and clear_data act on exactly the selected queues and change nothing else; they raise IndexError exactly if there is no such queue; where collection is off, simulation does not change the collected data.", "quantifier": "all networks, selections and histories", "why_tests_cant": "A frame property: what does not change cannot be listed by tests.", "anchors": ["queueing_tool/network/queue_network.py:QueueNetwork.start_collecting_data", "queueing_tool/network/queue_network.py:QueueNetwork.stop_collecting_data", "queueing_tool/network/queue_network.py:QueueNetwork.clear_data", "queueing_tool/network/queue_network.py:QueueNetwork._simulate_next_event"]}
{"id": "C70", "title": "find takes logarithmically many steps", "statement": "After any sequence of calls the way from an element to the representative of its class has at most log2 of the size of the class many steps, and find makes everything on that way point at the representative.", "quantifier": "all universes and operation sequences", "why_tests_cant": "A complexity bound over all histories.", "anchors": ["queueing_tool/union_find.py:UnionFind.find", "queueing_tool/union_find.py:UnionFind.union"]}
{"id": "C71", "title": "An animation shows the network as it is", "statement": "Every frame of animate performs the same event as simulate(n=1), until the clock is after the start time plus t; no frame fails; in every frame all edges and vertices have the colours that belong to the present state of their queues.", "quantifier": "all networks, random draws, looks, histories and lengths of the animation", "why_tests_cant": "An invariant over all frames of all animations; colours are updated event by event, for two edges at a time.", "anchors": ["queueing_tool/network/queue_network.py:QueueNetwork.animate", "queueing_tool/network/queue_network.py:QueueNetwork._simulate_next_event", "queueing_tool/network/queue_network.py:QueueNetwork._update_graph_colors", "queueing_tool/network/queue_network.py:QueueNetwork._update_all_colors"]}
{"id": "C72", "title": "show_active and show_type highlight the right edges and vertices", "statement": "show_active draws an edge dark exactly if its queue is active and colours a vertex exactly if an active queue leads to it; show_type(t) draws an edge dark exactly if it has type t and highlights a vertex exactly if its loop has type t; afterwards the colours of the network are restored.", "quantifier": "all graphs, networks, looks and types", "why_tests_cant": "Universal over graphs and states.", "anchors": ["queueing_tool/network/queue_network.py:QueueNetwork.show_active", "queueing_tool/network/queue_network.py:QueueNetwork.show_type", "queueing_tool/network/queue_network.py:QueueNetwork._update_all_colors"]}
{"id": "C73", "title": "The picture of a graph has every vertex and edge in its place", "statement": "draw_graph / lines_scatter_args draws every vertex as a point at its position and every edge as a line from the position of its source to the position of its target, the line with the number of the edge; given positions are kept, and drawing again gives the same picture.", "quantifier": "all graphs and positions", "why_tests_cant": "Fails only for graphs whose vertices are not listed in the order of their names, which the usual examples are.", "anchors": ["queueing_tool/graph/graph_wrapper.py:QueueNetworkDiGraph.lines_scatter_args", "queueing_tool/graph/graph_wrapper.py:QueueNetworkDiGraph.set_pos"]}
{"id": "C74", "title": "Properties of edges and vertices are what was set last", "statement": "ep and vp return what set_ep and set_vp stored last, other properties do not change; the rows of the arrays edge_color, vertex_color, vertex_fill_color and pos are the properties of the same name; set_ep and set_vp do not raise for existing edges and vertices.", "quantifier": "all graphs and sequences of calls", "why_tests_cant": "An invariant over all sequences of calls.", "anchors": ["queueing_tool/graph/graph_wrapper.py:QueueNetworkDiGraph.ep", "queueing_tool/graph/graph_wrapper.py:QueueNetworkDiGraph.vp", "queueing_tool/graph/graph_wrapper.py:QueueNetworkDiGraph.set_ep", "queueing_tool/graph/graph_wrapper.py:QueueNetworkDiGraph.set_vp", "queueing_tool/graph/graph_wrapper.py:QueueNetworkDiGraph.new_edge_property", "queueing_tool/graph/graph_wrapper.py:QueueNetworkDiGraph.new_vertex_property", "queueing_tool/graph/graph_wrapper.py:QueueNetworkDiGraph.set_pos"]}
{"id": "C75", "title": "add_edge_lengths measures every edge", "statement": "add_edge_lengths gives every edge the distance of the positions of its ends as edge_length and changes no other property; it raises if an edge has an end without position.", "quantifier": "all graphs, positions and distance functions", "why_tests_cant": "Universal over graphs; a frame property.", "anchors": ["queueing_tool/graph/graph_preparation.py:add_edge_lengths"]}
{"id": "C76", "title": "The picture of a network shows its queues in their places", "statement": "A network can be made of a graph whatever vertices have positions; these positions are kept; draw, show_active, show_type and every frame of animate show every vertex at its position and every edge between its ends, with the colours of the network at that time.", "quantifier": "all graphs, positions, networks and looks", "why_tests_cant": "Joins the colours of C55, C71 and C72 with the arrays that are drawn, for all states.", "anchors": ["queueing_tool/graph/graph_preparation.py:_prepare_graph", "queueing_tool/graph/graph_wrapper.py:QueueNetworkDiGraph.lines_scatter_args", "queueing_tool/network/queue_network.py:QueueNetwork.draw"]}
{"id": "C77", "title": "Service begins at the first moment a server is free", "statement": "In a queue with c servers, whoever is let in is served at the first time, not before their arrival, at which fewer than c of those who came earlier are still there (the Kiefer-Wolfowitz recursion); if no service is delayed, the n-th agent let in leaves at the n-th value of service_f, asked at the moment the service begins, so that all times follow from the times of arrival; with one server this is Lindley's recursion, with infinitely many nobody waits.", "quantifier": "all arrival and service functions going forward in time, numbers of servers and sequences of calls that do not change it", "why_tests_cant": "Tests compare averages with the formulas of queueing theory; the exact times of every agent in every run are beyond them.", "anchors": ["queueing_tool/queues/queue_servers.py:QueueServer.next_event", "queueing_tool/queues/queue_servers.py:QueueServer._service_from_queue", "queueing_tool/queues/queue_servers.py:QueueServer._add_arrival", "queueing_tool/queues/queue_servers.py:QueueServer.delay_service"]}
{"id": "C78", "title": "A LossQueue turns away exactly those who find no room", "statement": "With c servers and a buffer of b, an agent is let in only if fewer than c + b of those let in earlier leave after they come, and turned away only if at least c + b of those leave not before they come; a QueueServer turns nobody away.", "quantifier": "all arrival and service functions, servers, buffers and sequences of calls", "why_tests_cant": "The exact rule for every agent of every run; tests look at the loss probability.", "anchors": ["queueing_tool/queues/queue_servers.py:LossQueue.next_event", "queueing_tool/queues/queue_servers.py:LossQueue.at_capacity", "queueing_tool/queues/queue_servers.py:QueueServer.next_event"]}
{"id": "C79", "title": "The collected data are the times of the recursion", "statement": "While data is collected, the rows of every agent are the arrival, start and end of their visits, in order; for a queue that is made active and simulated on its own, row j of the data is computed by the recursion from arrival_f and service_f alone.", "quantifier": "all functions, servers, buffers and numbers of events", "why_tests_cant": "A closed formula for all data of all runs.", "anchors": ["queueing_tool/queues/queue_servers.py:QueueServer.next_event", "queueing_tool/queues/queue_servers.py:QueueServer.set_active", "queueing_tool/queues/queue_servers.py:QueueServer.fetch_data", "queueing_tool/queues/queue_servers.py:QueueServer._add_arrival", "queueing_tool/queues/queue_servers.py:LossQueue.next_event"]}
{"id": "C80", "title": "The recursion holds at every queue of a network", "statement": "In a network whose queues collect data, the data of every queue are the times of a sequence of visits that obeys the recursion of C77 and the rule of C78, whatever routing, blocking and the other queues do; the unfinished visits are those of the agents that wait and that are served.", "quantifier": "all networks, routings, blocking rules and histories without clear", "why_tests_cant": "Universal over networks and event sequences.", "anchors": ["queueing_tool/network/queue_network.py:QueueNetwork.simulate", "queueing_tool/network/queue_network.py:QueueNetwork._simulate_next_event", "queueing_tool/network/queue_network.py:QueueNetwork.get_agent_data", "queueing_tool/queues/queue_servers.py:QueueServer.next_event"]}
{"id": "C81", "title": "Little's law holds exactly on every path", "statement": "The area under num_system over time, under the number waiting and under the number in service is the sum, over all agents let in, of the time spent in the queue, in the line and in service up to now; when nobody is left, the area under num_system of a QueueServer is the sum of departure minus arrival over all rows of the data; all times are finite.", "quantifier": "all queues, functions going forward in time and sequences of calls that do not change the number of servers", "why_tests_cant": "An exact identity for every run; tests can only compare averages of some runs within a tolerance.", "anchors": ["queueing_tool/queues/queue_servers.py:QueueServer.next_event", "queueing_tool/queues/queue_servers.py:QueueServer.fetch_data", "queueing_tool/queues/queue_servers.py:LossQueue.next_event"]}
{"id": "C82", "title": "More servers, shorter services or earlier arrivals delay nobody", "statement": "If a second queue has at least as many servers, services that end no later when they begin no later, and arrivals no later one by one, then the n-th agent let in begins and leaves there no later than in the first queue.", "quantifier": "all pairs of queues and runs without delayed services", "why_tests_cant": "Compares all pairs of runs of two different queues.", "anchors": ["queueing_tool/queues/queue_servers.py:QueueServer.next_event", "queueing_tool/queues/queue_servers.py:QueueServer._service_from_queue"]}
{"id": "C83", "title": "The rows of an agent are one way through the network", "statement": "If every queue collects data from before its first arrival on, then for every agent the rows of all queues can be put in one order that is a way through the graph: it begins at the queue that created the agent; from every queue it goes on to a queue on an edge that begins where the last one ends, and arrives there exactly when it departed, not before it had come; where the agent is due, the way leads there and the agent is due when it departed; where it waits or is served, the way ends there without a departure; and an agent that is no longer in the network did not depart from its last queue.  initialize followed by start_collecting_data is such a beginning.", "quantifier": "all networks without ResourceQueues, all routings, blocking rules and event sequences, all agents", "why_tests_cant": "Global consistency between the data of all queues for every agent of every run.", "anchors": ["queueing_tool/network/queue_network.py:QueueNetwork._simulate_next_event", "queueing_tool/network/queue_network.py:QueueNetwork.simulate", "queueing_tool/network/queue_network.py:QueueNetwork.get_agent_data", "queueing_tool/network/queue_network.py:QueueNetwork.start_collecting_data", "queueing_tool/network/queue_network.py:QueueNetwork.initialize", "queueing_tool/queues/queue_servers.py:QueueServer.next_event", "queueing_tool/queues/queue_servers.py:LossQueue.next_event", "queueing_tool/queues/queue_servers.py:NullQueue.next_event"]}
{"id": "C84", "title": "get_agent_data lists the visits of an agent in the order of the way", "statement": "The array that get_agent_data returns for an agent is its way through the network (C83), visit by visit, with the number of the queue in the last column.", "quantifier": "all networks, histories and agents as in C83", "why_tests_cant": "Universal over runs; ties of arrival times are rare in tests with continuous distributions.", "anchors": ["queueing_tool/network/queue_network.py:QueueNetwork.get_agent_data", "queueing_tool/queues/queue_servers.py:QueueServer.next_event"]}
{"id": "C85", "title": "While an agent is served, some agent will leave its queue", "statement": "In a running network in which arrivals and services take time, services end and limited queues have a server and no negative buffer: whenever an agent is in service, after some number of further events more agents have left their queue.", "quantifier": "all networks without ResourceQueues, both blocking rules, all reached states", "why_tests_cant": "Eventual progress over unbounded runs; a deadlock is a run that never ends.", "anchors": ["queueing_tool/network/queue_network.py:QueueNetwork._simulate_next_event", "queueing_tool/network/queue_network.py:QueueNetwork.simulate", "queueing_tool/network/queue_network.py:QueueNetwork.blocking", "queueing_tool/queues/queue_servers.py:QueueServer.delay_service", "queueing_tool/queues/queue_servers.py:LossQueue.at_capacity", "queueing_tool/queues/queue_servers.py:LossQueue.next_event"]}
{"id": "C86", "title": "Comparing agents tells the order of their times", "statement": "For any two agents, InftyAgents included, <, >, ==, !=, <= and >= return what the comparison says about their times; only <= and >= of two InftyAgents raise a TypeError.  < never raises, is irreflexive and transitive, and so is its negation; two agents of which neither is before the other are ==.", "quantifier": "all agents of all classes, all times, all six comparisons", "why_tests_cant": "Universal over pairs and triples of objects and over Python's dispatch to missing and reflected methods.", "anchors": ["queueing_tool/queues/agents.py:Agent.__lt__", "queueing_tool/queues/agents.py:Agent.__gt__", "queueing_tool/queues/agents.py:Agent.__eq__", "queueing_tool/queues/agents.py:Agent.__le__", "queueing_tool/queues/agents.py:Agent.__ge__", "queueing_tool/queues/agents.py:InftyAgent.__lt__", "queueing_tool/queues/agents.py:InftyAgent.__gt__", "queueing_tool/queues/agents.py:InftyAgent.__eq__"]}
{"id": "C87", "title": "The blocking property", "statement": "Setting blocking to a string makes it 'RS' exactly for the four spellings of rs and 'BAS' for every other string, and changes nothing else; anything but a string raises a TypeError; setting what the property returns changes nothing; the constructor's argument means the same.", "quantifier": "all networks, all values", "why_tests_cant": "Universal over strings and states.", "anchors": ["queueing_tool/network/queue_network.py:QueueNetwork.blocking", "queueing_tool/network/queue_network.py:QueueNetwork.__init__"]}
{"id": "C88", "title": "The printed texts tell the truth", "statement": "Reading the numbers in the text of a network gives the numbers of vertices, of edges and of agents in the network (with those due to arrive).  Reading the text of a QueueServer, LossQueue or InfoQueue gives how many agents wait and have departed, and arrivals minus departures minus queued is the number in service.  Texts of agents with different ids differ.  The text of a UnionFind gives the number of its classes.", "quantifier": "all reached networks, queues and UnionFinds, all agents; any way of printing times", "why_tests_cant": "Universal over histories; a text is only as right as the counters behind it.", "anchors": ["queueing_tool/network/queue_network.py:QueueNetwork.__repr__", "queueing_tool/queues/queue_servers.py:QueueServer.__repr__", "queueing_tool/queues/queue_servers.py:LossQueue.__repr__", "queueing_tool/queues/queue_servers.py:NullQueue.__repr__", "queueing_tool/queues/queue_servers.py:QueueServer.num_arrivals", "queueing_tool/queues/queue_extentions.py:InfoQueue.__repr__", "queueing_tool/queues/queue_extentions.py:ResourceQueue.__repr__", "queueing_tool/queues/agents.py:Agent.__repr__", "queueing_tool/queues/agents.py:GreedyAgent.__repr__", "queueing_tool/union_find.py:UnionFind.__repr__"]}
{"id": "C89", "title": "A copy lives the same life", "statement": "Given the same draws, a network and its copy come to the same states: every state of the queues, of the counts of agents and of the coming draws that one of them reaches by simulating, the other reaches too, with a clock that is not ahead and that shows the same time after every event that changed something.  This holds as long as each next event belongs to one queue only; more generally for any two reached networks with equal queues, whatever their schedulers hold.", "quantifier": "all reached networks and copies taken at any moment, all numbers of events, all routing and blocking", "why_tests_cant": "Universal over histories; the copy rebuilds the scheduler from scratch, so the two heaps differ in every non-trivial history and only an invariant shows when that is invisible.", "anchors": ["queueing_tool/network/queue_network.py:QueueNetwork.copy", "queueing_tool/network/queue_network.py:QueueNetwork._simulate_next_event", "queueing_tool/network/queue_network.py:QueueNetwork.simulate", "queueing_tool/network/priority_queue.pyx:PriorityQueue.push", "queueing_tool/network/priority_queue.pyx:PriorityQueue.pop"]}
{"id": "C90", "title": "Graphs given in order are numbered by place", "statement": "adjacency2graph of a matrix, or of a dictionary written down in order, lists the vertices as 0, 1, 2, ... and the edges in increasing order, for all edge types and adjustments.  In a QueueNetwork made from such a graph the number of every vertex, edge and queue is its place in g.nodes(), g.edges() and edge2queue.  Hence set_transitions with a matrix, the colours of new and reset networks and the pictures of networks, which go by place in some lines and by number in others, are right for these networks without further conditions.", "quantifier": "all matrices, all dictionaries in order, all edge types, both adjustments, all classes and arguments", "why_tests_cant": "Universal over graphs; the tests use small graphs, where place and number agree by luck.", "anchors": ["queueing_tool/graph/graph_wrapper.py:adjacency2graph", "queueing_tool/graph/graph_wrapper.py:_matrix2dict", "queueing_tool/graph/graph_wrapper.py:_dict2dict", "queueing_tool/graph/graph_wrapper.py:_adjacency_adjust", "queueing_tool/graph/graph_wrapper.py:QueueNetworkDiGraph.__init__", "queueing_tool/graph/graph_preparation.py:_prepare_graph", "queueing_tool/graph/graph_preparation.py:_set_queues", "queueing_tool/network/queue_network.py:QueueNetwork.__init__", "queueing_tool/network/queue_network.py:QueueNetwork.set_transitions"]}
{"id": "C91", "title": "Reading graphs and agents gives what is there", "statement": "get_edge_type(t) returns exactly the edges of type t, out_neighbours(v) exactly the vertices an edge from v leads to, and graph2dict as lists both for all vertices, each once.  vertex_properties and edge_properties are the names that some vertex or edge has.  A new QueueNetworkDiGraph has the array pos if and only if every vertex has a position, in the order of g.nodes().  After queue_action at an InfoQueue, get_beliefs has the load of this queue in its place and elsewhere what the agent or the queue believed.  A ResourceAgent has a resource after an odd number of trades and has had one after an even number other than 0.", "quantifier": "all graphs, types, attributes, agents, queues and sequences of queue_action", "why_tests_cant": "Universal over graphs and histories; no test calls get_edge_type with a type that is absent, or follows the flags of a ResourceAgent.", "anchors": ["queueing_tool/graph/graph_wrapper.py:QueueNetworkDiGraph.get_edge_type", "queueing_tool/graph/graph_wrapper.py:QueueNetworkDiGraph.out_neighbours", "queueing_tool/graph/graph_wrapper.py:QueueNetworkDiGraph.vertex_properties", "queueing_tool/graph/graph_wrapper.py:QueueNetworkDiGraph.edge_properties", "queueing_tool/graph/graph_wrapper.py:QueueNetworkDiGraph.__init__", "queueing_tool/graph/graph_functions.py:graph2dict", "queueing_tool/queues/queue_extentions.py:InfoAgent.get_beliefs", "queueing_tool/queues/queue_extentions.py:InfoAgent.queue_action", "queueing_tool/queues/queue_extentions.py:ResourceAgent.queue_action"]}
{"id": "C92", "title": "Simulating in portions", "statement": "Calls of simulate(n=...) one after the other, on a queue or a network, leave exactly the state of one call with the sum; so do simulate(nD=...) and simulate(nA=...) on a queue.  simulate(t=a) followed by simulate(t=b) performs the events of simulate(t=a+b), and possibly more because the first call may overrun its time: there are no more if it stopped at its time exactly, and an example where there are more exists.  Calls whose ends are the same times of the clock leave the same state, and every call can be cut at any time.", "quantifier": "all queues and networks, all numbers and times, all lists of portions", "why_tests_cant": "Universal over states and portions; equality of whole states after different sequences of calls cannot be observed by tests that look at a few attributes.", "anchors": ["queueing_tool/queues/queue_servers.py:QueueServer.simulate", "queueing_tool/network/queue_network.py:QueueNetwork.simulate"]}
{"id": "C93", "title": "Drawing options", "statement": "lines_scatter_args returns the picture of the graph with the caller's value for every name in its two tables of defaults, and ignores other names.  draw_graph uses the caller's size, background, positions and file name or the defaults, and passes to savefig exactly the given options whose names are in SAVEFIG_KWARGS; draw of a network differs only in the default background.  animate completes its two tables in the same way and saves if and only if a filename is given.  With positions for vertices in order the lines and points given to matplotlib are at the places asked for.  Refuted against the documentation: facecolor, edgecolor and orientation do not reach savefig (their names are misspelt in SAVEFIG_KWARGS), alpha and label do not reach LineCollection, vertex_size in the example of animate has no effect.", "quantifier": "all graphs, properties and dictionaries of keyword arguments", "why_tests_cant": "The tests compare images or only check that drawing does not fail; a misspelt option name goes unnoticed.", "anchors": ["queueing_tool/graph/graph_wrapper.py:QueueNetworkDiGraph.lines_scatter_args", "queueing_tool/graph/graph_wrapper.py:QueueNetworkDiGraph.draw_graph", "queueing_tool/graph/graph_wrapper.py:SAVEFIG_KWARGS", "queueing_tool/network/queue_network.py:QueueNetwork.draw", "queueing_tool/network/queue_network.py:QueueNetwork.animate"]}
{"id": "C94", "title": "Little's law for the queues of a network", "statement": "In every history of a network in which a queue collects data from the start, the integral by the network's clock of the number of agents at the queue (in its line, in service) is the sum of the times that the visits in its data have spent there (waiting, in service) until now, blocked or not.  For QueueServers that everybody has left the integral is the sum over the collected rows of departure minus arrival, for one queue and for several together.", "quantifier": "all networks, all histories of initialize, simulate and copy, all routes, any number of events", "why_tests_cant": "The tests do not compare the collected data with the states that the network goes through; the law relates every moment of a history to its end.", "anchors": ["queueing_tool/network/queue_network.py:QueueNetwork._simulate_next_event", "queueing_tool/network/queue_network.py:QueueNetwork.simulate", "queueing_tool/network/queue_network.py:QueueNetwork.get_queue_data", "queueing_tool/queues/queue_servers.py:QueueServer.next_event", "queueing_tool/queues/queue_servers.py:QueueServer.fetch_data"]}
{"id": "C95", "title": "Whoever leaves a queue comes to a next one at once", "statement": "In every history of a network there is one list of moves, ordered by time and along the edges of the graph, that says for every queue who left it and when, and for every queue that made no agents of its own who came to it and when.  By the collected data: the agents that came to some edges out of a vertex are agents that left the edges into it, at the moments at which they left; all of them if there is nowhere else to go.  Nobody is lost, doubled or late between two queues.", "quantifier": "all networks, all histories of initialize, simulate and copy, all routes, blocking or not, any number of events", "why_tests_cant": "The tests look at numbers of agents at single queues; the property compares the whole histories of all queues with each other.", "anchors": ["queueing_tool/network/queue_network.py:QueueNetwork._simulate_next_event", "queueing_tool/network/queue_network.py:QueueNetwork.get_queue_data", "queueing_tool/queues/queue_servers.py:QueueServer.next_event", "queueing_tool/queues/queue_servers.py:QueueServer._add_arrival", "queueing_tool/queues/queue_servers.py:QueueServer.fetch_data"]}
{"id": "C96", "title": "Stations in a row obey the tandem recursion", "statement": "In a network without LossQueues, for QueueServers with one server one after the other in the graph, the collected times are the ones of the recursion of queues in tandem: agent j comes to station s+1 when it leaves station s, in the order in which it came to the first; its service begins when it has come and agent j-1 has gone, and ends when the j-th call of the service function says so.", "quantifier": "all lengths of the row, all arrival and service functions, everything around the row, any number of events", "why_tests_cant": "The tests have no network whose times are computed by hand; the recursion relates all agents at all stations.", "anchors": ["queueing_tool/network/queue_network.py:QueueNetwork._simulate_next_event", "queueing_tool/network/queue_network.py:QueueNetwork.get_queue_data", "queueing_tool/queues/queue_servers.py:QueueServer.next_event", "queueing_tool/queues/queue_servers.py:QueueServer.fetch_data"]}
{"id": "C97", "title": "The counters of a network count what happened", "statement": "In every history of a network from queues that are new or cleared, the calls can be labelled with what they did, read off the states: agent i came to k, went from k to e, wanted from k to e and was kept, or none of these.  num_departures of a queue is the number of labels that go out of it.  num_arrivals plus num_blocked, plus the agents still to come, is the number of agents that the queue made plus those that went into it or were kept from it.  The attribute blocked of every agent in the network is how often that agent was kept.  add_loss adds one to blocked, or to the statistics of the edge for an InfoAgent, and changes nothing else.", "quantifier": "all networks, all queue classes (the second for all but ResourceQueue), all histories without clear, any number of events", "why_tests_cant": "The tests compare num_blocked or num_departures in one simulation with nothing; the property ties every counter to the whole history.", "anchors": ["queueing_tool/network/queue_network.py:QueueNetwork._simulate_next_event", "queueing_tool/queues/queue_servers.py:QueueServer.next_event", "queueing_tool/queues/queue_servers.py:LossQueue.next_event", "queueing_tool/queues/agents.py:Agent.add_loss", "queueing_tool/queues/queue_extentions.py:InfoAgent.add_loss"]}
{"id": "C98", "title": "Switching a queue on and off", "statement": "set_active does nothing to a queue that is on.  To a queue that is off it calls arrival_f once, unless the time got last is still to come, and makes exactly one agent for that time unless deactive_t is reached; active_cap counts it; nothing else changes.  set_inactive changes nothing but the switch.  While a queue is off no call but set_active (in a network: initialize) makes agents or calls arrival_f.  A queue that is off serves those who are there and then rests: simulate(n), with n at least two for each agent on the way and one for each other, leaves nobody, and everybody departed or was turned away, once.", "quantifier": "all arrival and service functions, all classes (emptying: all but NullQueue and ResourceQueue), all histories, any number of agents", "why_tests_cant": "The tests switch one queue on and look at one attribute; that a queue empties itself is a statement about all later events.", "anchors": ["queueing_tool/queues/queue_servers.py:QueueServer.set_active", "queueing_tool/queues/queue_servers.py:QueueServer.set_inactive", "queueing_tool/queues/queue_servers.py:QueueServer._add_arrival", "queueing_tool/queues/queue_servers.py:QueueServer.next_event", "queueing_tool/queues/queue_servers.py:QueueServer.simulate", "queueing_tool/network/queue_network.py:QueueNetwork._simulate_next_event", "queueing_tool/network/queue_network.py:QueueNetwork.initialize"]}
{"id": "C99", "title": "A network that is switched off empties itself", "statement": "If every queue is off, no queue can be full, every queue has a server, all times are finite and every way leads to an exit without a circle, then simulate(n) leaves nobody in the network once n is at least three times the load (two for each queue ahead of each agent, one more for each that did not arrive yet) plus the entries of the scheduler; one event later the clock shows infinity, so that simulate(t) ends.  Without an exit nobody leaves, ever: the agents inside stay the same.", "quantifier": "all graphs without circles (for the last sentence: all graphs), all arrival and service functions with finite values, all routings, any number of agents, all histories", "why_tests_cant": "A statement about all later events of all networks; the tests simulate a fixed number of events of a few networks.", "anchors": ["queueing_tool/network/queue_network.py:QueueNetwork._simulate_next_event", "queueing_tool/network/queue_network.py:QueueNetwork.simulate", "queueing_tool/queues/queue_servers.py:QueueServer.next_event"]}
{"id": "C100", "title": "Only the order of times matters", "statement": "If the arrival and service functions (and deactive_t) are read off another clock - any order-preserving map of times that keeps 0 and infinity - then every sequence of calls on a queue or a network does the same things in the same order: the same agents in the same places, the same counters and the same routing, the same exceptions; every time shown (clocks, data, scheduler) is the old one read off the new clock.  Under BAS this needs EPS to be read off the same clock: in another unit of time with EPS in that unit the results are the same, also for simulate(t); with EPS unchanged they are not (witness).  InfoQueues, which add up differences of times, are left out.", "quantifier": "all order-preserving clocks, all units k > 0, all networks without InfoQueues, all functions, all sequences of calls", "why_tests_cant": "A relation between two runs with different functions; the tests compare single runs with expected numbers.", "anchors": ["queueing_tool/network/queue_network.py:QueueNetwork._simulate_next_event", "queueing_tool/network/queue_network.py:QueueNetwork.simulate", "queueing_tool/network/queue_network.py:QueueNetwork.initialize", "queueing_tool/network/queue_network.py:QueueNetwork.clear", "queueing_tool/network/queue_network.py:QueueNetwork.copy", "queueing_tool/queues/queue_servers.py:QueueServer.next_event", "queueing_tool/queues/queue_servers.py:LossQueue.next_event", "queueing_tool/queues/queue_servers.py:QueueServer.delay_service", "queueing_tool/queues/queue_extentions.py:ResourceQueue.next_event", "queueing_tool/network/priority_queue.pyx:PriorityQueue.push", "queueing_tool/network/priority_queue.pyx:PriorityQueue.pop"]}
{"id": "C101", "title": "Collecting data changes nothing else", "statement": "Switching data collection on and off (collect_data, start_collecting_data, stop_collecting_data) and throwing collected data away (clear_data), at any moments and for any queues, has no influence on anything but the data: the same calls with or without those about data give the same agents in the same places, clocks, counters, scheduler, random draws used and exceptions.  In particular the rows written along the way never make a call raise.  InfoQueues are an exception: their agents take statistics from the collected data, so what an agent knows depends on whether data is collected (witness).", "quantifier": "all queues (not InfoQueues) and networks of them, all functions, all sequences of calls, all ways to insert calls about data", "why_tests_cant": "Compares two runs that differ in observation only; tests collect data in order to look at it and never run the same thing unobserved.", "anchors": ["queueing_tool/queues/queue_servers.py:QueueServer.next_event", "queueing_tool/queues/queue_servers.py:LossQueue.next_event", "queueing_tool/queues/queue_servers.py:NullQueue.next_event", "queueing_tool/queues/queue_servers.py:QueueServer._service_from_queue", "queueing_tool/queues/queue_servers.py:QueueServer.clear", "queueing_tool/queues/queue_extentions.py:ResourceQueue.next_event", "queueing_tool/queues/queue_extentions.py:InfoAgent.queue_action", "queueing_tool/network/queue_network.py:QueueNetwork.start_collecting_data", "queueing_tool/network/queue_network.py:QueueNetwork.stop_collecting_data", "queueing_tool/network/queue_network.py:QueueNetwork.clear_data", "queueing_tool/network/queue_network.py:QueueNetwork._simulate_next_event", "queueing_tool/network/queue_network.py:QueueNetwork.initialize"]}
{"id": "C102", "title": "Unconnected parts of a network do not influence each other", "statement": "Let a set of queues be a part of a network: nothing leads from the part to the rest or back, at its vertices nobody has a choice (so that no random numbers are shared), max_agents is not set, and EPS is constant if blocking is BAS.  Take two networks, however they came about, in which the part is in the same state, with anything next to it, and no two queues of the part due at the same time.  Then the part goes through the same states in both, and once its events up to a time s are over in both, queues, agents, clocks and collected data of the part are the same.  An event of the network is the first event of the part or leaves it untouched.  With two queues of the part due at the same time this is false: which of them goes first, and so who is let into a full LossQueue, can depend on whether an unconnected queue is active (witness).", "quantifier": "all pairs of networks with the part in common, all functions, any number of queues and events on either side", "why_tests_cant": "Compares runs of two different networks of unbounded length; no test simulates a part of a network by itself.", "anchors": ["queueing_tool/network/queue_network.py:QueueNetwork._simulate_next_event", "queueing_tool/network/queue_network.py:QueueNetwork.simulate", "queueing_tool/network/priority_queue.pyx:PriorityQueue.push", "queueing_tool/network/priority_queue.pyx:PriorityQueue.pop", "queueing_tool/queues/queue_servers.py:QueueServer.next_event", "queueing_tool/queues/queue_servers.py:LossQueue.next_event", "queueing_tool/queues/queue_servers.py:QueueServer.delay_service"]}
{"id": "C103", "title": "What InfoQueues and InfoAgents know has no influence", "statement": "Replace every InfoQueue by a LossQueue with the same functions and parameters and every InfoAgent by an Agent, at any moment (a new network or in the middle of a run).  Every call and every sequence of calls that works in the original works in the replaced one and leaves it with the same events: the same agents in the same places with the same times, counters, blocked attempts, scheduler, random draws used and collected data.  So two networks that differ only in what is known keep differing only in that.  The converse is false: an InfoQueue raises AttributeError at deactive_t where the LossQueue stops making agents (witness).", "quantifier": "all queues and networks of all classes in all states, all functions, all sequences of calls", "why_tests_cant": "Compares two networks with different classes over runs of any length; the tests for InfoQueue look at the statistics only.", "anchors": ["queueing_tool/queues/queue_extentions.py:InfoQueue.next_event", "queueing_tool/queues/queue_extentions.py:InfoQueue._add_arrival", "queueing_tool/queues/queue_extentions.py:InfoQueue.extract_information", "queueing_tool/queues/queue_extentions.py:InfoAgent.queue_action", "queueing_tool/queues/queue_extentions.py:InfoAgent.add_loss", "queueing_tool/queues/queue_servers.py:LossQueue.next_event", "queueing_tool/queues/queue_servers.py:QueueServer.next_event", "queueing_tool/queues/queue_servers.py:QueueServer._add_arrival", "queueing_tool/network/queue_network.py:QueueNetwork._simulate_next_event", "queueing_tool/network/queue_network.py:QueueNetwork.initialize", "queueing_tool/network/queue_network.py:QueueNetwork.clear", "queueing_tool/network/queue_network.py:QueueNetwork.copy"]}
{"id": "C104", "title": "A cleared network goes on like a new one", "statement": "Take a network after any history of calls, drop the data of its exits (NullQueues keep theirs) and call clear.  From then on every sequence of calls has the same results, exceptions included, as with a newly built network of the same queues (with the numbers of servers, collection of data, routing probabilities, max_agents and blocking rule at that moment) whose random draws start where the old network stopped.  In particular, if inter-arrival times, service times, routing and EPS do not depend on how many draws were made before, a simulation after clear is the first simulation once more.  Without dropping the data of the exits first this is false (witness).", "quantifier": "all networks with queues of all classes, all histories, all functions, all sequences of calls after clear", "why_tests_cant": "Says that no trace of an arbitrary history is left; the test of clear compares a few counters after one run.", "anchors": ["queueing_tool/network/queue_network.py:QueueNetwork.clear", "queueing_tool/network/queue_network.py:QueueNetwork.clear_data", "queueing_tool/network/queue_network.py:QueueNetwork.initialize", "queueing_tool/network/queue_network.py:QueueNetwork._simulate_next_event", "queueing_tool/network/queue_network.py:QueueNetwork.copy", "queueing_tool/queues/queue_servers.py:QueueServer.clear", "queueing_tool/queues/queue_servers.py:LossQueue.clear", "queueing_tool/queues/queue_servers.py:NullQueue.clear", "queueing_tool/queues/queue_extentions.py:ResourceQueue.clear", "queueing_tool/queues/queue_extentions.py:InfoQueue.clear"]}
{"id": "C105", "title": "A LossQueue that never gets full is a QueueServer", "statement": "Replace every LossQueue of a network by a QueueServer with the same edge, functions and servers.  If before each call every LossQueue has room for another agent (less than num_servers + buffer agents in it), every sequence of calls has the same results, exceptions included: the same events, times, data, agents and draws, and nobody is turned away or blocked by these queues.  With an unlimited buffer this holds without any condition.  A LossQueue may also get full, as long as its num_blocked does not grow in an event: then a sequence of calls without exceptions has the same results.  For a LossQueue that gets full it is false (witness).", "quantifier": "all networks with queues of all classes, all states, all sequences of calls; likewise all sequences of operations of single queues", "why_tests_cant": "Compares two different classes over all histories; the tests of LossQueue and QueueServer look at one class at a time.", "anchors": ["queueing_tool/queues/queue_servers.py:LossQueue.next_event", "queueing_tool/queues/queue_servers.py:LossQueue.at_capacity", "queueing_tool/queues/queue_servers.py:LossQueue.clear", "queueing_tool/queues/queue_servers.py:QueueServer.next_event", "queueing_tool/queues/queue_servers.py:QueueServer.at_capacity", "queueing_tool/queues/queue_servers.py:QueueServer.clear", "queueing_tool/network/queue_network.py:QueueNetwork._simulate_next_event"]}
{"id": "C106", "title": "A limit of agents that is not reached has no influence", "statement": "As long as before each event the network holds fewer than max_agents agents, and initialize is asked for no more queues than max_agents, every sequence of calls (assignments of max_agents included) has the same results, exceptions included, if every limit is raised by the same amount or removed.  In particular two limits that are not reached give the same simulation.  Within an event the number of agents is compared with the limit again; by then it is not larger than before the event.  For a limit that is reached this is false (witness).", "quantifier": "all networks with queues of all classes, all histories, all sequences of calls that stay below the limit, all higher limits", "why_tests_cant": "Compares simulations with different limits over all histories; the test of max_agents only checks the final number of agents of one network.", "anchors": ["queueing_tool/network/queue_network.py:QueueNetwork._simulate_next_event", "queueing_tool/network/queue_network.py:QueueNetwork.initialize", "queueing_tool/network/queue_network.py:QueueNetwork.__init__", "queueing_tool/network/queue_network.py:QueueNetwork.simulate"]}
{"id": "C107", "title": "active_cap and deactive_t have no influence before they switch a queue off", "statement": "Call a queue spent if it is inactive and has made active_cap arrivals, or has drawn an arrival time not before a finite deactive_t.  As long as after each call no queue is spent, every sequence of calls without exceptions has the same results if active_cap and deactive_t of all queues are removed: the same events, times, data, agents and draws.  So two networks that differ only in these limits simulate alike.  A queue switched off by max_agents is not spent by that.  The initialisations name each queue at most once.  For limits that have switched a queue off it is false (witnesses for both).", "quantifier": "all networks with queues of all classes, all states, all sequences of calls without a spent queue; likewise all sequences of operations of single queues", "why_tests_cant": "Compares simulations with and without limits over all histories; the tests look at one queue that reaches its limit.", "anchors": ["queueing_tool/queues/queue_servers.py:QueueServer._add_arrival", "queueing_tool/queues/queue_servers.py:QueueServer.next_event", "queueing_tool/queues/queue_servers.py:QueueServer.set_active", "queueing_tool/queues/queue_servers.py:LossQueue.next_event", "queueing_tool/queues/queue_extentions.py:InfoQueue._add_arrival", "queueing_tool/queues/queue_extentions.py:ResourceQueue.next_event", "queueing_tool/queues/queue_extentions.py:InfoQueue.next_event", "queueing_tool/network/queue_network.py:QueueNetwork._simulate_next_event", "queueing_tool/network/queue_network.py:QueueNetwork.initialize"]}
{"id": "C108", "title": "max_servers is a soft maximum", "statement": "Networks that differ only in the max_servers of their ResourceQueues raise the same exceptions and go through the same states in every sequence of calls, over_max aside: the same events, times, numbers of servers, data, agents and draws.  The same holds for single queues.  The documentation says that max_servers is only used to keep track of overflows; for the colours this is false: they depend on it (witness).", "quantifier": "all networks with queues of all classes, all states, all maxima, all sequences of calls; all sequences of operations of single queues", "why_tests_cant": "Compares simulations with different maxima over all histories; no test mentions max_servers or over_max.", "anchors": ["queueing_tool/queues/queue_extentions.py:ResourceQueue.set_num_servers", "queueing_tool/queues/queue_extentions.py:ResourceQueue.next_event", "queueing_tool/queues/queue_extentions.py:ResourceQueue.clear", "queueing_tool/queues/queue_extentions.py:ResourceQueue._current_color", "queueing_tool/queues/queue_extentions.py:ResourceAgent.queue_action", "queueing_tool/network/queue_network.py:QueueNetwork._simulate_next_event"]}
{"id": "C109", "title": "What has not been drawn yet has no influence", "statement": "A simulation depends only on the values drawn in it: networks that differ only in arrival_f and service_f of their queues, in the numbers for the routing and in those for the delays of blocked agents, and agree in the values used so far, raise nothing and go through the same states together; draws are never taken back.  If no agent has had a choice and none has been delayed, the simulation does not depend on the network's random numbers at all.  The same holds for single queues.  That all values but the last one drawn agree is not enough (refuted).", "quantifier": "all networks with queues of all classes, all states, all sequences of calls that do not raise, all other draws; all sequences of operations of single queues", "why_tests_cant": "Compares simulations with infinitely many other random numbers and functions of the user, over all histories; a test sees one seed at a time.", "anchors": ["queueing_tool/queues/queue_servers.py:QueueServer._add_arrival", "queueing_tool/queues/queue_servers.py:QueueServer._service_from_queue", "queueing_tool/queues/queue_servers.py:QueueServer.delay_service", "queueing_tool/queues/queue_servers.py:QueueServer.next_event", "queueing_tool/queues/agents.py:Agent.desired_destination", "queueing_tool/network/queue_network.py:QueueNetwork._simulate_next_event"]}
{"id": "C110", "title": "The functions of the user are called once for each arrival and service", "statement": "service_f is called exactly once for every agent that departs or is served, and once more for every delay_service without a time while an agent is served: at every moment the number of calls is the number of departures, of agents in service and of repeated services.  Each call of a method calls arrival_f at most once, with the current time and not before the time it gave last; the value is the time of a new outside arrival, or not before deactive_t, and then the queue is switched off.  So there are at most as many outside arrivals as calls of arrival_f, and exactly as many if all values are before deactive_t (without this condition refuted).  In a network every queue has made at least as many calls of service_f as it has had departures and agents in service, and exactly as many if blocking is 'BAS' (with 'RS' refuted).", "quantifier": "all queue classes but NullQueue, all reachable states, all sequences of calls without clear; all queues of all well-formed networks, all histories without clear", "why_tests_cant": "Counts the calls of the functions of the user over all histories of all lengths; user functions may have side effects, and tests do not count the calls.", "anchors": ["queueing_tool/queues/queue_servers.py:QueueServer._add_arrival", "queueing_tool/queues/queue_servers.py:QueueServer._service_from_queue", "queueing_tool/queues/queue_servers.py:QueueServer.delay_service", "queueing_tool/queues/queue_servers.py:QueueServer.next_event", "queueing_tool/queues/queue_servers.py:QueueServer.set_num_servers", "queueing_tool/queues/queue_servers.py:LossQueue.next_event"]}
