"""Writes MANIFEST.json; run from /verif."""
import json

P, H, N = "proved", "partial", "not_applicable"
CLAIMS = [
    ("C01", P, ["C01_pop_earliest_live"], "Refinement of the array heap to a bag with lazily superseded entries, for all histories."),
    ("C02", P, ["C02_memory_safe", "C02_new_total", "C02_empty_refuted"], "Errors only at a pop of an empty queue; the named exception (no keys) is proved to be one."),
    ("C03", P, ["C03_counts", "C03_conservation", "C03_never_twice", "C03_resource"], "Counters over all histories; agent ids as a permutation of held, departed and turned away."),
    ("C04", P, ["C04_fcfs", "C04_network"], "Those whose service began are a prefix of the arrival order, the line is the rest."),
    ("C05", P, ["C05_work_conserving", "C05_network"], ""),
    ("C06", P, ["C06_no_overfill", "C06_drains", "C06_network"], ""),
    ("C07", H, ["C07_raise_refuted", "C07_raise_partial"], "False as stated (lower then raise overfills); what set_num_servers starts is proved exactly."),
    ("C08", P, ["C08_time", "C08_description"], ""),
    ("C09", P, ["C09_clock"], ""),
    ("C10", P, ["C10_active_cap", "C10_cap_zero_refuted"], "The condition cap >= 1 is needed: a cap of zero admits one agent."),
    ("C11", P, ["C11_deactive_t", "C11_all_before"], "InfoQueue: see C28."),
    ("C12", P, ["C12_idle"], ""),
    ("C13", P, ["C13_simulate_n", "C13_simulate_nD", "C13_simulate_nA", "C13_simulate_t"], "The loops are modelled with fuel; the claims are about runs that end. simulate(n) for classes other than NullQueue and ResourceQueue (there a returned resource is no counted event)."),
    ("C14", P, ["C14_clear"], ""),
    ("C15", P, ["C15_delay_service"], ""),
    ("C16", H, ["C16_rejected", "C16_set", "C16_accepts_partial", "C16_infinity_refuted"], "Proved for all states except infinity -> infinity, where the call raises TypeError (refuted)."),
    ("C17", P, ["C17_rows_ordered", "C17_network"], "For agents that have left, wait or are served; rows of agents turned away carry zeros."),
    ("C18", H, ["C18_refuted", "C18_off", "C18_switch", "C18_absent"], "False as stated (switching on during a later visit overwrites the old row). True: nothing changes while off or by switching, and rows of absent agents are never changed."),
    ("C19", P, ["C19_fetch_data", "C19_per_agent"], ""),
    ("C20", P, ["C20_capacity", "C20_network"], ""),
    ("C21", P, ["C21_admitted_or_blocked", "C21_accounted"], ""),
    ("C22", P, ["C22_unlimited_buffer"], "Equality of all logs, including exceptions."),
    ("C23", P, ["C23_absorbs", "C23_rows"], ""),
    ("C24", H, ["C24_refuted", "C24_exact", "C24_account", "C24_partial", "C24_nonnegative", "C24_network"], "False as stated: queue_action takes a server at arrival, drops it when service begins and takes another at departure. Proved: the exact effect of every event (C24_exact) and the balance over all histories, in which every visit costs one server (C24_account)."),
    ("C25", H, ["C25_refuted", "C25_goes_on", "C25_network"], "False for ResourceQueue; proved for QueueServer, LossQueue and InfoQueue."),
    ("C26", P, ["C26_over_max", "C26_over_max_calls"], "max_servers is part of the configuration; that the constructor sets it to twice the number of servers is read off the source."),
    ("C27", H, ["C27_agent_learns", "C27_departs", "C27_arrives", "C27_queue_learns", "C27_tie_refuted"], "The queue learns nothing when the arrival coincides with a departure; otherwise proved."),
    ("C28", H, ["C28_refuted", "C28_exact_partial"], "False: AttributeError when deactive_t is reached. Proved: a call of an InfoQueue raises exactly if it draws an arrival time that is not before deactive_t, and then AttributeError."),
    ("C29", H, ["C29_refuted", "C29_departure_partial", "C29_arrival_partial"], "False: the wait added at arrival is 0 minus the arrival time. Proved: exactly what is added at arrival, at the start of service and at departure."),
    ("C30", P, ["C30_never_late", "C30_time_order", "C30_clock", "C30_twice_refuted"], "For histories with one initialize per clear; a second initialize can send the clock back (refuted)."),
    ("C31", H, ["C31_simulate_total_partial", "C31_loop_refuted", "C31_infinite_refuted"], "False with a ResourceQueue, or infinite service times, on a self-loop (TypeError). Proved for all networks in which queues that follow themselves are no ResourceQueues, have no negative buffer, and have finite service times."),
    ("C32", P, ["C32_counted", "C32_transit", "C32_flow", "C32_one_place"], "The cases of an event are the inductive predicate transit in SpecNet.v."),
    ("C33", P, ["C33_max_agents", "C33_only", "C33_twice_refuted"], "One initialize per clear, as claimed; after a second one it is false."),
    ("C34", H, ["C34_events_partial", "C34_refuted"], "False: leftover scheduler entries for queues that have become idle are counted. Proved: every counted step is an event or throws away such an entry."),
    ("C35", H, ["C35_time_partial", "C35_refuted"], "False when the scheduler begins with a leftover entry; true otherwise."),
    ("C36", P, ["C36_blocking"], "The consequences of blocking are the predicate stays in SpecNet.v."),
    ("C37", P, ["C37_follows", "C37_fixed"], "Moves to the queue itself are covered by C32_transit."),
    ("C38", P, ["C38_slots", "C38_one_slot", "C38_route", "C38_moves", "C38_zero_refuted"], "Rational probabilities. The draw 0, excluded in the claim, selects edge 0 whatever its probability."),
    ("C39", P, ["C39_greedy", "C39_moves"], ""),
    ("C40", P, ["C40_copy"], ""),
    ("C41", P, ["C41_initialize", "C41_works", "C41_raises", "C41_none_refuted"], "With max_agents = 0 nothing is started and nothing is raised."),
    ("C43", H, ["C43_clear_partial", "C43_keeps", "C43_refuted"], "NullQueue.clear does nothing, so the data of exits remain; everything else is proved."),
    ("C44", P, ["C44_data"], "For any list of queues of the network."),
    ("C50", P, ["C50_union_find"], "Elements are natural numbers."),
    ("C45", H, ["C45_adjust_1", "C45_wrong_type", "C45_matrix_zero_refuted", "C45_no_types_refuted"], "Proved for all documented inputs, with the types that the conversion sees; refuted as it stands for types given as a matrix (an entry 0 counts as missing) and for an empty dictionary of types (KeyError).  networkx is modelled by its documented behaviour."),
    ("C46", P, ["C46_adjust_2"], ""),
    ("C47", P, ["C47_edge_index"], "add_edge only: networkx's add_edges_from and remove_edge bypass the index."),
    ("C56", P, ["C56_matrix", "C56_round_trip"], "Order of vertices and neighbours included."),
    ("C42", H, ["C42_select", "C42_not_pairs", "C42_tuple_of_tuples_refuted", "C42_list_of_lists_refuted"], "Proved for an index, an iterable of indices, an edge, a list of edges, types and no argument.  Refuted: a tuple of edges selects every queue, a list of lists raises TypeError; a list with a member that is not a pair selects every queue."),
    ("C48", H, ["C48_built", "C48_used", "C48_dict", "C48_matrix_partial", "C48_transitions", "C48_generate", "C48_generated_accepted_partial", "C48_generated_refuted"], "Rational probabilities.  Matrices: for graphs whose vertices are listed in order or have no dead ends; otherwise set_transitions tests the wrong rows (refuted)."),
    ("C49", H, ["C49_matrix_atomic", "C49_dict_partial", "C49_dict_accepts", "C49_dict_refuted", "C49_dict_sums_partial", "C49_matrix_sums_partial", "C49_neighbours_refuted", "C49_off_edge_refuted", "C49_order_refuted"], "Atomic for matrices; a dictionary with a bad key is applied up to that key.  Sums: true if only neighbours are given a probability."),
    ("C51", P, ["C51_minimal", "C51_radius", "C51_ties_refuted", "C51_one_refuted"], "The documented rule (all pairs within the radius) holds without ties only; one vertex gives an empty graph."),
    ("C52", P, ["C52_random", "C52_positive", "C52_random_rejects", "C52_rank", "C52_top_count", "C52_documentation_refuted", "C52_zero_refuted"], "pType2 = 0 selects all vertices; the documentation swaps types 2 and 3."),
    ("C53", P, ["C53_first", "C53_candidates", "C53_result", "C53_rejects", "C53_returns_refuted"], "The first kept candidate of a Poisson process of rate rate_max; the draws are exact rationals. The loop need not end (refuted) if the rate becomes 0."),
    ("C54", P, ["C54_valid", "C54_darker", "C54_ends", "C54_exact", "C54_reached", "C54_resource_refuted", "C54_infinite_refuted"], "All classes; refuted (NaN) for infinitely many servers at a ResourceQueue and for sensitivity 0 with infinitely many servers."),
    ("C55", H, ["C55_built", "C55_prepared_order", "C55_prepared_partial", "C55_reset_partial", "C55_update_all", "C55_update_event", "C55_prepared_refuted", "C55_reset_refuted", "C55_reset_loop_refuted", "C55_vertex_refuted", "C55_null_loop_refuted"], "False as stated: the loops use the position in g.edges() as the edge number (refuted); true if both orders agree (partial). The updates during a simulation use the right queue (C55_update_all, C55_update_event), except for vertex fills (two refutations)."),
    ("C57", P, ["C57_no_raise", "C57_simulate"], "Legal calls on well-formed queues of every class; the exceptions named in `legal` and `cfg_ok` do raise (C16, C28)."),
    ("C58", P, ["C58_times"], "delay_service is C15."),
    ("C59", P, ["C59_rows_record", "C59_rows_record_calls", "C59_resource_rows", "C59_resource_departures", "C59_resource_refuted"], "ResourceQueue, excluded in the claim: the exact rows are proved, and the claim is false for it (num_queued)."),
    ("C60", P, ["C60_network", "C60_queues"], "adjust_graph=True."),
    ("C61", H, ["C61_cap_partial", "C61_cap_refuted", "C61_cap_adjusted_refuted"], "Refuted: the first edge of each type decides for all of them, and adjust_graph=True drops the property.  The exact rule is proved."),
    ("C62", H, ["C62_any_class_partial", "C62_unknown_type_refuted", "C62_no_args_refuted"], "True if q_args is given and every type has a class; without q_args only the types 0 to 4 can be used."),
    ("C63", P, ["C63_runs"], "Arguments as in args_ok (functions forward in time, InfoQueues with InfoAgents)."),
    ("C64", P, ["C64_random", "C64_pagerank"], "Page ranks are an oracle: any dictionary on the vertices."),
    ("C65", P, ["C65_refines", "C65_unbroken", "C65_attentive", "C65_bare"], "Transferred to networks: C04, C05, C06, C17, C20, C24 (sign), C25."),
    ("C66", P, ["C66_counts", "C66_until", "C66_stops", "C66_total", "C66_uninitialized", "C66_initialized", "C66_keeps", "C66_stops_refuted"], "Without positive times simulate(t) may go on for ever."),
    ("C67", H, ["C67_describes_partial", "C67_next", "C67_refuted", "C67_tie_refuted"], "False with leftover scheduler entries when all queues are idle (Departure is announced), and with ties between queues (another queue's event happens). Proved otherwise."),
    ("C68", P, ["C68_active", "C68_works", "C68_raises"], "np.random.choice without replacement is any function that returns the asked number of different elements."),
    ("C69", P, ["C69_collect", "C69_clear_data", "C69_raises", "C69_off"], "Indices are not negative."),
    ("C70", P, ["C70_depth"], "Elements are natural numbers."),
    ("C71", H, ["C71_event", "C71_same", "C71_animate_partial", "C71_lead", "C71_loops_refuted"], "False for vertices with loops if two loops have types other than 0 (line 1587 paints the wrong vertex). Proved for all edges, for vertices without loops, and for loops if at most one loop has a type other than 0. The figure itself (matplotlib) is not modelled."),
    ("C72", H, ["C72_active_partial", "C72_type_partial", "C72_restore_refuted"], "The pictures are right. Afterwards all edges, vertices without loops and vertices with loops of types other than 0 show their queues again; vertices with a loop of type 0 may stay as drawn."),
    ("C73", H, ["C73_picture_partial", "C73_any_partial", "C73_layout", "C73_order_refuted", "C73_labels_refuted"], "False if g.nodes() does not give 0, 1, 2, ... in this order: pos has the order of g.nodes() and is indexed by vertex. Proved if it does; otherwise, if the vertices are 0, ..., n-1, vertices change places but lines and points fit."),
    ("C74", H, ["C74_edge", "C74_vertex", "C74_arrays_partial", "C74_sets", "C74_fresh_refuted", "C74_kind_refuted", "C74_added_refuted"], "Reading is right. Arrays agree unless an edge is given a vertex property or vice versa. Setting raises while an array is not made (TypeError) or has no row for an added edge (IndexError)."),
    ("C75", P, ["C75_lengths", "C75_nowhere"], "The distance (haversine, rounded floats) is an arbitrary partial function."),
    ("C76", H, ["C76_colors", "C76_writes", "C76_new_partial", "C76_unplaced", "C76_some", "C76_some_refuted"], "False if some vertices have positions and others not (KeyError), and for the orders of vertices of C73. Proved otherwise: all functions that change colours do it by assignments, which keep properties, arrays and the colours of Colors.v together."),
    ("C77", P, ["C77_recursion", "C77_unique", "C77_visits", "C77_services", "C77_plan", "C77_lindley", "C77_unlimited"], "For QueueServer, LossQueue and InfoQueue with at least one server; blocking (delay_service) is included in C77_recursion."),
    ("C78", P, ["C78_room"], "Ties: an agent who leaves at the moment of an arrival may still be there; events of the same queue are ordered by C08."),
    ("C79", P, ["C79_rows", "C79_alone"], ""),
    ("C80", P, ["C80_network"], ""),
    ("C81", P, ["C81_areas", "C81_finite", "C81_little", "C81_data"], ""),
    ("C82", P, ["C82_sooner"], "For agents that are let in; with a LossQueue more servers may let in others."),
    ("C83", P, ["C83_trail", "C83_start"], "Without ResourceQueues, which do not write a departure for agents they send on (C59)."),
    ("C84", H, ["C84_agent_data_partial", "C84_agent_data_refuted"], "False if a visit takes no time: np.sort breaks ties by the time of service, which is 0 at an exit or before service, so the exit is listed first. Proved: always a permutation of the way with the arrivals of the way, and the way itself if no visit before the last takes no time."),
    ("C85", H, ["C85_progress_partial", "C85_many_partial", "C85_locked", "C85_refuted"], "False: full LossQueues in a circle wait for each other for ever under both blocking rules. Proved if no way leads from a limited queue through limited queues back to it. C85_locked: full queues that only lead to each other stay as they are until clear."),
    ("C86", P, ["C86_compare", "C86_sortable", "C86_refuted"], "C86_refuted: == does not tell agents apart."),
    ("C87", P, ["C87_blocking", "C87_constructor", "C87_refuted"], "C87_refuted: a string that names no blocking rule is not rejected."),
    ("C88", P, ["C88_network", "C88_queue", "C88_agent", "C88_union_find"], "The text of round(time, 3) is arbitrary."),
    ("C89", H, ["C89_copy_partial", "C89_same_life", "C89_refuted"], "False when two queues have an event at the same time: the rebuilt scheduler of the copy may serve them in the other order, and a different agent gets the last place. Proved for runs in which each next event belongs to one queue only."),
    ("C90", P, ["C90_graph", "C90_network", "C90_transitions", "C90_colors", "C90_picture"], "Removes the conditions on orders from C48, C55 and C76 for these networks."),
    ("C91", P, ["C91_types", "C91_neighbours", "C91_lists", "C91_properties", "C91_arrays", "C91_beliefs", "C91_resources"], "Readers of graphs and agents; a type None counts as no type, as everywhere in the model."),
    ("C92", P, ["C92_queue_events", "C92_network_events", "C92_departures", "C92_arrivals", "C92_queue_time", "C92_network_time", "C92_queue_clock", "C92_network_clock", "C92_queue_cut", "C92_network_cut", "C92_queue_time_refuted", "C92_network_time_refuted"], "The refutations show that timed calls do not add up in general."),
    ("C93", P, ["C93_arguments", "C93_unknown", "C93_draw", "C93_network", "C93_animation", "C93_places", "C93_savefig_refuted", "C93_options_refuted"], "What is passed to matplotlib; the documentation promises more than the code does (the two refutations)."),
    ("C94", P, ["C94_areas", "C94_data", "C94_together"], "C81 by the clock of the network; no ResourceQueue, as in C80."),
    ("C95", P, ["C95_moves", "C95_crossing"], "The queue histories are those of C80; agents that a queue makes itself have no move that brings them."),
    ("C96", P, ["C96_tandem"], "Stations begin new or cleared; all but the first make no agents of their own."),
    ("C97", P, ["C97_counters", "C97_turned_away"], "A queue that an agent is turned away from drops the agent, so add_loss is stated for the call itself."),
    ("C98", P, ["C98_on", "C98_off", "C98_stays", "C98_empties", "C98_network"], ""),
    ("C99", P, ["C99_empties", "C99_rests", "C99_sealed"], ""),
    ("C100", P, ["C100_queue", "C100_network", "C100_counts", "C100_units", "C100_units_exist", "C100_refuted"], "C100_refuted: with BAS and an unchanged EPS the unit of time matters."),
    ("C101", P, ["C101_queue", "C101_observers", "C101_network", "C101_no_raise", "C101_net_observers", "C101_made", "C101_refuted"], "C101_refuted: what InfoAgents know depends on whether their queue collects data."),
    ("C102", P, ["C102_same_states", "C102_same_time", "C102_every_time", "C102_outside", "C102_refuted"], "C102_refuted: with two queues of the part due at the same time the order can depend on the rest of the network."),
    ("C103", P, ["C103_queue", "C103_leaves", "C103_observers", "C103_network", "C103_net_observers", "C103_no_influence", "C103_made", "C103_refuted"], "C103_refuted: the converse is false, an InfoQueue raises at deactive_t (C28)."),
    ("C104", P, ["C104_queue", "C104_network", "C104_clear", "C104_exits", "C104_made", "C104_again", "C104_repeats", "C104_refuted"], "C104_refuted: the data of NullQueues survive clear (C43); the theorems ask for it to be dropped."),
    ("C105", P, ["C105_queue", "C105_network", "C105_nobody_lost", "C105_unlimited_queue", "C105_unlimited", "C105_made", "C105_refuted"], "C105_refuted: without the condition that there is room (a finite buffer that fills up) the classes differ."),
    ("C106", P, ["C106_limit", "C106_two", "C106_refuted"], "C106_refuted: a limit that is reached does have influence."),
    ("C107", P, ["C107_queue", "C107_network", "C107_two", "C107_made", "C107_refuted"], "C107_refuted: active_cap and deactive_t that have switched a queue off do have influence."),
    ("C108", P, ["C108_queue", "C108_network", "C108_any", "C108_soft", "C108_color_refuted"], "C108_color_refuted: that max_servers is only used to count overflows, as documented, is false for the colours."),
    ("C109", P, ["C109_queue", "C109_network", "C109_made", "C109_unused", "C109_last_refuted"], "C109_last_refuted: it is not enough that all values but the last one drawn agree."),
    ("C110", P, ["C110_services", "C110_from_start", "C110_arrival", "C110_arrivals", "C110_network", "C110_once", "C110_refuted", "C110_once_refuted"], "C110_refuted: there may be fewer outside arrivals than calls of arrival_f, as a value that is not before deactive_t is lost.  C110_once_refuted: with blocking 'RS' services are repeated."),
]

with open("MANIFEST.json", "w") as f:
    f.write('{"claims": [\n')
    f.write(",\n".join(
        " " + json.dumps({"property": i, "status": s, "theorems": t, "note": n})
        for i, s, t, n in CLAIMS))
    f.write("\n]}\n")
