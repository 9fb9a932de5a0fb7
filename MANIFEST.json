{"claims": [
 {"property": "C01", "status": "proved", "theorems": ["C01_pop_earliest_live"], "note": "Refinement of the array heap to a bag with lazily superseded entries, for all histories."},
 {"property": "C02", "status": "proved", "theorems": ["C02_memory_safe", "C02_new_total", "C02_empty_refuted"], "note": "Errors only at a pop of an empty queue; the named exception (no keys) is proved to be one."},
 {"property": "C03", "status": "proved", "theorems": ["C03_counts", "C03_conservation", "C03_never_twice", "C03_resource"], "note": "Counters over all histories; agent ids as a permutation of held, departed and turned away."},
 {"property": "C04", "status": "proved", "theorems": ["C04_fcfs", "C04_network"], "note": "Those whose service began are a prefix of the arrival order, the line is the rest."},
 {"property": "C05", "status": "proved", "theorems": ["C05_work_conserving", "C05_network"], "note": ""},
 {"property": "C06", "status": "proved", "theorems": ["C06_no_overfill", "C06_drains", "C06_network"], "note": ""},
 {"property": "C07", "status": "partial", "theorems": ["C07_raise_refuted", "C07_raise_partial"], "note": "False as stated (lower then raise overfills); what set_num_servers starts is proved exactly."},
 {"property": "C08", "status": "proved", "theorems": ["C08_time", "C08_description"], "note": ""},
 {"property": "C09", "status": "proved", "theorems": ["C09_clock"], "note": ""},
 {"property": "C10", "status": "proved", "theorems": ["C10_active_cap", "C10_cap_zero_refuted"], "note": "The condition cap >= 1 is needed: a cap of zero admits one agent."},
 {"property": "C11", "status": "proved", "theorems": ["C11_deactive_t", "C11_all_before"], "note": "InfoQueue: see C28."},
 {"property": "C12", "status": "proved", "theorems": ["C12_idle"], "note": ""},
 {"property": "C13", "status": "proved", "theorems": ["C13_simulate_n", "C13_simulate_nD", "C13_simulate_nA", "C13_simulate_t"], "note": "The loops are modelled with fuel; the claims are about runs that end. simulate(n) for classes other than NullQueue and ResourceQueue (there a returned resource is no counted event)."},
 {"property": "C14", "status": "proved", "theorems": ["C14_clear"], "note": ""},
 {"property": "C15", "status": "proved", "theorems": ["C15_delay_service"], "note": ""},
 {"property": "C16", "status": "partial", "theorems": ["C16_rejected", "C16_set", "C16_accepts_partial", "C16_infinity_refuted"], "note": "Proved for all states except infinity -> infinity, where the call raises TypeError (refuted)."},
 {"property": "C17", "status": "proved", "theorems": ["C17_rows_ordered", "C17_network"], "note": "For agents that have left, wait or are served; rows of agents turned away carry zeros."},
 {"property": "C18", "status": "partial", "theorems": ["C18_refuted", "C18_off", "C18_switch", "C18_absent"], "note": "False as stated (switching on during a later visit overwrites the old row). True: nothing changes while off or by switching, and rows of absent agents are never changed."},
 {"property": "C19", "status": "proved", "theorems": ["C19_fetch_data", "C19_per_agent"], "note": ""},
 {"property": "C20", "status": "proved", "theorems": ["C20_capacity", "C20_network"], "note": ""},
 {"property": "C21", "status": "proved", "theorems": ["C21_admitted_or_blocked", "C21_accounted"], "note": ""},
 {"property": "C22", "status": "proved", "theorems": ["C22_unlimited_buffer"], "note": "Equality of all logs, including exceptions."},
 {"property": "C23", "status": "proved", "theorems": ["C23_absorbs", "C23_rows"], "note": ""},
 {"property": "C24", "status": "partial", "theorems": ["C24_refuted", "C24_exact", "C24_account", "C24_partial", "C24_nonnegative", "C24_network"], "note": "False as stated: queue_action takes a server at arrival, drops it when service begins and takes another at departure. Proved: the exact effect of every event (C24_exact) and the balance over all histories, in which every visit costs one server (C24_account)."},
 {"property": "C25", "status": "partial", "theorems": ["C25_refuted", "C25_goes_on", "C25_network"], "note": "False for ResourceQueue; proved for QueueServer, LossQueue and InfoQueue."},
 {"property": "C26", "status": "proved", "theorems": ["C26_over_max", "C26_over_max_calls"], "note": "max_servers is part of the configuration; that the constructor sets it to twice the number of servers is read off the source."},
 {"property": "C27", "status": "partial", "theorems": ["C27_agent_learns", "C27_departs", "C27_arrives", "C27_queue_learns", "C27_tie_refuted"], "note": "The queue learns nothing when the arrival coincides with a departure; otherwise proved."},
 {"property": "C28", "status": "partial", "theorems": ["C28_refuted", "C28_exact_partial"], "note": "False: AttributeError when deactive_t is reached. Proved: a call of an InfoQueue raises exactly if it draws an arrival time that is not before deactive_t, and then AttributeError."},
 {"property": "C29", "status": "partial", "theorems": ["C29_refuted", "C29_departure_partial", "C29_arrival_partial"], "note": "False: the wait added at arrival is 0 minus the arrival time. Proved: exactly what is added at arrival, at the start of service and at departure."},
 {"property": "C30", "status": "proved", "theorems": ["C30_never_late", "C30_time_order", "C30_clock", "C30_twice_refuted"], "note": "For histories with one initialize per clear; a second initialize can send the clock back (refuted)."},
 {"property": "C31", "status": "partial", "theorems": ["C31_simulate_total_partial", "C31_loop_refuted", "C31_infinite_refuted"], "note": "False with a ResourceQueue, or infinite service times, on a self-loop (TypeError). Proved for all networks in which queues that follow themselves are no ResourceQueues, have no negative buffer, and have finite service times."},
 {"property": "C32", "status": "proved", "theorems": ["C32_counted", "C32_transit", "C32_flow", "C32_one_place"], "note": "The cases of an event are the inductive predicate transit in SpecNet.v."},
 {"property": "C33", "status": "proved", "theorems": ["C33_max_agents", "C33_only", "C33_twice_refuted"], "note": "One initialize per clear, as claimed; after a second one it is false."},
 {"property": "C34", "status": "partial", "theorems": ["C34_events_partial", "C34_refuted"], "note": "False: leftover scheduler entries for queues that have become idle are counted. Proved: every counted step is an event or throws away such an entry."},
 {"property": "C35", "status": "partial", "theorems": ["C35_time_partial", "C35_refuted"], "note": "False when the scheduler begins with a leftover entry; true otherwise."},
 {"property": "C36", "status": "proved", "theorems": ["C36_blocking"], "note": "The consequences of blocking are the predicate stays in SpecNet.v."},
 {"property": "C37", "status": "proved", "theorems": ["C37_follows", "C37_fixed"], "note": "Moves to the queue itself are covered by C32_transit."},
 {"property": "C38", "status": "proved", "theorems": ["C38_slots", "C38_one_slot", "C38_route", "C38_moves", "C38_zero_refuted"], "note": "Rational probabilities. The draw 0, excluded in the claim, selects edge 0 whatever its probability."},
 {"property": "C39", "status": "proved", "theorems": ["C39_greedy", "C39_moves"], "note": ""},
 {"property": "C40", "status": "proved", "theorems": ["C40_copy"], "note": ""},
 {"property": "C41", "status": "proved", "theorems": ["C41_initialize", "C41_works", "C41_raises", "C41_none_refuted"], "note": "With max_agents = 0 nothing is started and nothing is raised."},
 {"property": "C43", "status": "partial", "theorems": ["C43_clear_partial", "C43_keeps", "C43_refuted"], "note": "NullQueue.clear does nothing, so the data of exits remain; everything else is proved."},
 {"property": "C44", "status": "proved", "theorems": ["C44_data"], "note": "For any list of queues of the network."},
 {"property": "C50", "status": "proved", "theorems": ["C50_union_find"], "note": "Elements are natural numbers."},
 {"property": "C45", "status": "partial", "theorems": ["C45_adjust_1", "C45_wrong_type", "C45_matrix_zero_refuted", "C45_no_types_refuted"], "note": "Proved for all documented inputs, with the types that the conversion sees; refuted as it stands for types given as a matrix (an entry 0 counts as missing) and for an empty dictionary of types (KeyError).  networkx is modelled by its documented behaviour."},
 {"property": "C46", "status": "proved", "theorems": ["C46_adjust_2"], "note": ""},
 {"property": "C47", "status": "proved", "theorems": ["C47_edge_index"], "note": "add_edge only: networkx's add_edges_from and remove_edge bypass the index."},
 {"property": "C56", "status": "proved", "theorems": ["C56_matrix", "C56_round_trip"], "note": "Order of vertices and neighbours included."},
 {"property": "C42", "status": "partial", "theorems": ["C42_select", "C42_not_pairs", "C42_tuple_of_tuples_refuted", "C42_list_of_lists_refuted"], "note": "Proved for an index, an iterable of indices, an edge, a list of edges, types and no argument.  Refuted: a tuple of edges selects every queue, a list of lists raises TypeError; a list with a member that is not a pair selects every queue."},
 {"property": "C48", "status": "partial", "theorems": ["C48_built", "C48_used", "C48_dict", "C48_matrix_partial", "C48_transitions", "C48_generate", "C48_generated_accepted_partial", "C48_generated_refuted"], "note": "Rational probabilities.  Matrices: for graphs whose vertices are listed in order or have no dead ends; otherwise set_transitions tests the wrong rows (refuted)."},
 {"property": "C49", "status": "partial", "theorems": ["C49_matrix_atomic", "C49_dict_partial", "C49_dict_accepts", "C49_dict_refuted", "C49_dict_sums_partial", "C49_matrix_sums_partial", "C49_neighbours_refuted", "C49_off_edge_refuted", "C49_order_refuted"], "note": "Atomic for matrices; a dictionary with a bad key is applied up to that key.  Sums: true if only neighbours are given a probability."},
 {"property": "C51", "status": "proved", "theorems": ["C51_minimal", "C51_radius", "C51_ties_refuted", "C51_one_refuted"], "note": "The documented rule (all pairs within the radius) holds without ties only; one vertex gives an empty graph."},
 {"property": "C52", "status": "proved", "theorems": ["C52_random", "C52_positive", "C52_random_rejects", "C52_rank", "C52_top_count", "C52_documentation_refuted", "C52_zero_refuted"], "note": "pType2 = 0 selects all vertices; the documentation swaps types 2 and 3."},
 {"property": "C53", "status": "proved", "theorems": ["C53_first", "C53_candidates", "C53_result", "C53_rejects", "C53_returns_refuted"], "note": "The first kept candidate of a Poisson process of rate rate_max; the draws are exact rationals. The loop need not end (refuted) if the rate becomes 0."},
 {"property": "C54", "status": "proved", "theorems": ["C54_valid", "C54_darker", "C54_ends", "C54_exact", "C54_reached", "C54_resource_refuted", "C54_infinite_refuted"], "note": "All classes; refuted (NaN) for infinitely many servers at a ResourceQueue and for sensitivity 0 with infinitely many servers."},
 {"property": "C55", "status": "partial", "theorems": ["C55_built", "C55_prepared_order", "C55_prepared_partial", "C55_reset_partial", "C55_update_all", "C55_update_event", "C55_prepared_refuted", "C55_reset_refuted", "C55_reset_loop_refuted", "C55_vertex_refuted", "C55_null_loop_refuted"], "note": "False as stated: the loops use the position in g.edges() as the edge number (refuted); true if both orders agree (partial). The updates during a simulation use the right queue (C55_update_all, C55_update_event), except for vertex fills (two refutations)."},
 {"property": "C57", "status": "proved", "theorems": ["C57_no_raise", "C57_simulate"], "note": "Legal calls on well-formed queues of every class; the exceptions named in `legal` and `cfg_ok` do raise (C16, C28)."},
 {"property": "C58", "status": "proved", "theorems": ["C58_times"], "note": "delay_service is C15."},
 {"property": "C59", "status": "proved", "theorems": ["C59_rows_record", "C59_rows_record_calls", "C59_resource_rows", "C59_resource_departures", "C59_resource_refuted"], "note": "ResourceQueue, excluded in the claim: the exact rows are proved, and the claim is false for it (num_queued)."},
 {"property": "C60", "status": "proved", "theorems": ["C60_network", "C60_queues"], "note": "adjust_graph=True."},
 {"property": "C61", "status": "partial", "theorems": ["C61_cap_partial", "C61_cap_refuted", "C61_cap_adjusted_refuted"], "note": "Refuted: the first edge of each type decides for all of them, and adjust_graph=True drops the property.  The exact rule is proved."},
 {"property": "C62", "status": "partial", "theorems": ["C62_any_class_partial", "C62_unknown_type_refuted", "C62_no_args_refuted"], "note": "True if q_args is given and every type has a class; without q_args only the types 0 to 4 can be used."},
 {"property": "C63", "status": "proved", "theorems": ["C63_runs"], "note": "Arguments as in args_ok (functions forward in time, InfoQueues with InfoAgents)."},
 {"property": "C64", "status": "proved", "theorems": ["C64_random", "C64_pagerank"], "note": "Page ranks are an oracle: any dictionary on the vertices."},
 {"property": "C65", "status": "proved", "theorems": ["C65_refines", "C65_unbroken", "C65_attentive", "C65_bare"], "note": "Transferred to networks: C04, C05, C06, C17, C20, C24 (sign), C25."},
 {"property": "C66", "status": "proved", "theorems": ["C66_counts", "C66_until", "C66_stops", "C66_total", "C66_uninitialized", "C66_initialized", "C66_keeps", "C66_stops_refuted"], "note": "Without positive times simulate(t) may go on for ever."},
 {"property": "C67", "status": "partial", "theorems": ["C67_describes_partial", "C67_next", "C67_refuted", "C67_tie_refuted"], "note": "False with leftover scheduler entries when all queues are idle (Departure is announced), and with ties between queues (another queue's event happens). Proved otherwise."},
 {"property": "C68", "status": "proved", "theorems": ["C68_active", "C68_works", "C68_raises"], "note": "np.random.choice without replacement is any function that returns the asked number of different elements."},
 {"property": "C69", "status": "proved", "theorems": ["C69_collect", "C69_clear_data", "C69_raises", "C69_off"], "note": "Indices are not negative."},
 {"property": "C70", "status": "proved", "theorems": ["C70_depth"], "note": "Elements are natural numbers."},
 {"property": "C71", "status": "partial", "theorems": ["C71_event", "C71_same", "C71_animate_partial", "C71_lead", "C71_loops_refuted"], "note": "False for vertices with loops if two loops have types other than 0 (line 1587 paints the wrong vertex). Proved for all edges, for vertices without loops, and for loops if at most one loop has a type other than 0. The figure itself (matplotlib) is not modelled."},
 {"property": "C72", "status": "partial", "theorems": ["C72_active_partial", "C72_type_partial", "C72_restore_refuted"], "note": "The pictures are right. Afterwards all edges, vertices without loops and vertices with loops of types other than 0 show their queues again; vertices with a loop of type 0 may stay as drawn."},
 {"property": "C73", "status": "partial", "theorems": ["C73_picture_partial", "C73_any_partial", "C73_layout", "C73_order_refuted", "C73_labels_refuted"], "note": "False if g.nodes() does not give 0, 1, 2, ... in this order: pos has the order of g.nodes() and is indexed by vertex. Proved if it does; otherwise, if the vertices are 0, ..., n-1, vertices change places but lines and points fit."},
 {"property": "C74", "status": "partial", "theorems": ["C74_edge", "C74_vertex", "C74_arrays_partial", "C74_sets", "C74_fresh_refuted", "C74_kind_refuted", "C74_added_refuted"], "note": "Reading is right. Arrays agree unless an edge is given a vertex property or vice versa. Setting raises while an array is not made (TypeError) or has no row for an added edge (IndexError)."},
 {"property": "C75", "status": "proved", "theorems": ["C75_lengths", "C75_nowhere"], "note": "The distance (haversine, rounded floats) is an arbitrary partial function."},
 {"property": "C76", "status": "partial", "theorems": ["C76_colors", "C76_writes", "C76_new_partial", "C76_unplaced", "C76_some", "C76_some_refuted"], "note": "False if some vertices have positions and others not (KeyError), and for the orders of vertices of C73. Proved otherwise: all functions that change colours do it by assignments, which keep properties, arrays and the colours of Colors.v together."},
 {"property": "C77", "status": "proved", "theorems": ["C77_recursion", "C77_unique", "C77_visits", "C77_services", "C77_plan", "C77_lindley", "C77_unlimited"], "note": "For QueueServer, LossQueue and InfoQueue with at least one server; blocking (delay_service) is included in C77_recursion."},
 {"property": "C78", "status": "proved", "theorems": ["C78_room"], "note": "Ties: an agent who leaves at the moment of an arrival may still be there; events of the same queue are ordered by C08."},
 {"property": "C79", "status": "proved", "theorems": ["C79_rows", "C79_alone"], "note": ""},
 {"property": "C80", "status": "proved", "theorems": ["C80_network"], "note": ""},
 {"property": "C81", "status": "proved", "theorems": ["C81_areas", "C81_finite", "C81_little", "C81_data"], "note": ""},
 {"property": "C82", "status": "proved", "theorems": ["C82_sooner"], "note": "For agents that are let in; with a LossQueue more servers may let in others."},
 {"property": "C83", "status": "proved", "theorems": ["C83_trail", "C83_start"], "note": "Without ResourceQueues, which do not write a departure for agents they send on (C59)."},
 {"property": "C84", "status": "partial", "theorems": ["C84_agent_data_partial", "C84_agent_data_refuted"], "note": "False if a visit takes no time: np.sort breaks ties by the time of service, which is 0 at an exit or before service, so the exit is listed first. Proved: always a permutation of the way with the arrivals of the way, and the way itself if no visit before the last takes no time."},
 {"property": "C85", "status": "partial", "theorems": ["C85_progress_partial", "C85_many_partial", "C85_locked", "C85_refuted"], "note": "False: full LossQueues in a circle wait for each other for ever under both blocking rules. Proved if no way leads from a limited queue through limited queues back to it. C85_locked: full queues that only lead to each other stay as they are until clear."},
 {"property": "C86", "status": "proved", "theorems": ["C86_compare", "C86_sortable", "C86_refuted"], "note": "C86_refuted: == does not tell agents apart."},
 {"property": "C87", "status": "proved", "theorems": ["C87_blocking", "C87_constructor", "C87_refuted"], "note": "C87_refuted: a string that names no blocking rule is not rejected."},
 {"property": "C88", "status": "proved", "theorems": ["C88_network", "C88_queue", "C88_agent", "C88_union_find"], "note": "The text of round(time, 3) is arbitrary."},
 {"property": "C89", "status": "partial", "theorems": ["C89_copy_partial", "C89_same_life", "C89_refuted"], "note": "False when two queues have an event at the same time: the rebuilt scheduler of the copy may serve them in the other order, and a different agent gets the last place. Proved for runs in which each next event belongs to one queue only."},
 {"property": "C90", "status": "proved", "theorems": ["C90_graph", "C90_network", "C90_transitions", "C90_colors", "C90_picture"], "note": "Removes the conditions on orders from C48, C55 and C76 for these networks."},
 {"property": "C91", "status": "proved", "theorems": ["C91_types", "C91_neighbours", "C91_lists", "C91_properties", "C91_arrays", "C91_beliefs", "C91_resources"], "note": "Readers of graphs and agents; a type None counts as no type, as everywhere in the model."},
 {"property": "C92", "status": "proved", "theorems": ["C92_queue_events", "C92_network_events", "C92_departures", "C92_arrivals", "C92_queue_time", "C92_network_time", "C92_queue_clock", "C92_network_clock", "C92_queue_cut", "C92_network_cut", "C92_queue_time_refuted", "C92_network_time_refuted"], "note": "The refutations show that timed calls do not add up in general."},
 {"property": "C93", "status": "proved", "theorems": ["C93_arguments", "C93_unknown", "C93_draw", "C93_network", "C93_animation", "C93_places", "C93_savefig_refuted", "C93_options_refuted"], "note": "What is passed to matplotlib; the documentation promises more than the code does (the two refutations)."},
 {"property": "C94", "status": "proved", "theorems": ["C94_areas", "C94_data", "C94_together"], "note": "C81 by the clock of the network; no ResourceQueue, as in C80."},
 {"property": "C95", "status": "proved", "theorems": ["C95_moves", "C95_crossing"], "note": "The queue histories are those of C80; agents that a queue makes itself have no move that brings them."},
 {"property": "C96", "status": "proved", "theorems": ["C96_tandem"], "note": "Stations begin new or cleared; all but the first make no agents of their own."},
 {"property": "C97", "status": "proved", "theorems": ["C97_counters", "C97_turned_away"], "note": "A queue that an agent is turned away from drops the agent, so add_loss is stated for the call itself."},
 {"property": "C98", "status": "proved", "theorems": ["C98_on", "C98_off", "C98_stays", "C98_empties", "C98_network"], "note": ""},
 {"property": "C99", "status": "proved", "theorems": ["C99_empties", "C99_rests", "C99_sealed"], "note": ""},
 {"property": "C100", "status": "proved", "theorems": ["C100_queue", "C100_network", "C100_counts", "C100_units", "C100_units_exist", "C100_refuted"], "note": "C100_refuted: with BAS and an unchanged EPS the unit of time matters."},
 {"property": "C101", "status": "proved", "theorems": ["C101_queue", "C101_observers", "C101_network", "C101_no_raise", "C101_net_observers", "C101_made", "C101_refuted"], "note": "C101_refuted: what InfoAgents know depends on whether their queue collects data."},
 {"property": "C102", "status": "proved", "theorems": ["C102_same_states", "C102_same_time", "C102_every_time", "C102_outside", "C102_refuted"], "note": "C102_refuted: with two queues of the part due at the same time the order can depend on the rest of the network."},
 {"property": "C103", "status": "proved", "theorems": ["C103_queue", "C103_leaves", "C103_observers", "C103_network", "C103_net_observers", "C103_no_influence", "C103_made", "C103_refuted"], "note": "C103_refuted: the converse is false, an InfoQueue raises at deactive_t (C28)."},
 {"property": "C104", "status": "proved", "theorems": ["C104_queue", "C104_network", "C104_clear", "C104_exits", "C104_made", "C104_again", "C104_repeats", "C104_refuted"], "note": "C104_refuted: the data of NullQueues survive clear (C43); the theorems ask for it to be dropped."},
 {"property": "C105", "status": "proved", "theorems": ["C105_queue", "C105_network", "C105_nobody_lost", "C105_unlimited_queue", "C105_unlimited", "C105_made", "C105_refuted"], "note": "C105_refuted: without the condition that there is room (a finite buffer that fills up) the classes differ."},
 {"property": "C106", "status": "proved", "theorems": ["C106_limit", "C106_two", "C106_refuted"], "note": "C106_refuted: a limit that is reached does have influence."},
 {"property": "C107", "status": "proved", "theorems": ["C107_queue", "C107_network", "C107_two", "C107_made", "C107_refuted"], "note": "C107_refuted: active_cap and deactive_t that have switched a queue off do have influence."},
 {"property": "C108", "status": "proved", "theorems": ["C108_queue", "C108_network", "C108_any", "C108_soft", "C108_color_refuted"], "note": "C108_color_refuted: that max_servers is only used to count overflows, as documented, is false for the colours."},
 {"property": "C109", "status": "proved", "theorems": ["C109_queue", "C109_network", "C109_made", "C109_unused", "C109_last_refuted"], "note": "C109_last_refuted: it is not enough that all values but the last one drawn agree."},
 {"property": "C110", "status": "proved", "theorems": ["C110_services", "C110_from_start", "C110_arrival", "C110_arrivals", "C110_network", "C110_once", "C110_refuted", "C110_once_refuted"], "note": "C110_refuted: there may be fewer outside arrivals than calls of arrival_f, as a value that is not before deactive_t is lost.  C110_once_refuted: with blocking 'RS' services are repeated."}
]}
