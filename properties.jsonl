{"id": "C01", "title": "Trains following each other keep the headway", "statement": "In every feasible solution of the problem returned by create_linear_problem, two different trains listed together for a line section s->sp (set Jd) leave s so that whichever goes second leaves at least the headway given for that ordered pair after the one that goes first.", "quantifier": "all train sets, timetables, d_max, variable categories for which create_linear_problem succeeds; all feasible assignments of its variables; all pairs in all Jd groups", "why_tests_cant": "A test solves a few instances with one solver and looks at one optimal point each; the claim is about every feasible point of every instance, including the cases where a constraint was left out as redundant.", "anchors": ["railway_solvers/railway_solvers/linear_solver.py:minimal_span", "railway_solvers/railway_solvers/linear_solver.py:minimal_span_constrain", "railway_solvers/railway_solvers/helpers_functions.py:get_M"]}
{"id": "C02", "title": "No two opposing trains on a single-track line", "statement": "In every feasible solution, for two trains listed as opposing on a single-track line between s and sp (set Josingle) that are not linked by a rolling-stock turnaround, one leaves its end of the line only after the other has arrived there.", "quantifier": "all inputs accepted by create_linear_problem, all feasible assignments, all Josingle pairs", "why_tests_cant": "Exclusion must hold for every feasible point and every big-M constant, not only for the optimal points of the test instances.", "anchors": ["railway_solvers/railway_solvers/linear_solver.py:single_line", "railway_solvers/railway_solvers/linear_solver.py:single_line_constrain"]}
{"id": "C03", "title": "Minimal running and stopping time is respected", "statement": "In every feasible solution, each train leaves each station of its path at which it has a departure variable no earlier than its departure from the previous station plus the running time plus the minimal stop.", "quantifier": "all inputs accepted by create_linear_problem, all feasible assignments, all trains and all stations of their paths", "why_tests_cant": "Needs to hold for paths of every length and every feasible point.", "anchors": ["railway_solvers/railway_solvers/linear_solver.py:minimal_stay", "railway_solvers/railway_solvers/linear_solver.py:minimal_stay_constrin"]}
{"id": "C04", "title": "One train per station track", "statement": "In every feasible solution, two trains assigned to the same track of a station s (set Jtrack), not the same rolling stock and for neither of which s is its skipped last station, use the track one after the other: the later one arrives only after the earlier one (or the train that takes over its rolling stock) has left.", "quantifier": "all inputs accepted by create_linear_problem, all feasible assignments, all stations and all pairs in one Jtrack group", "why_tests_cant": "Depends on station names (which names are skipped) and on every feasible point; tests use single-letter station names where the defect cannot show.", "anchors": ["railway_solvers/railway_solvers/linear_solver.py:track_occuparion", "railway_solvers/railway_solvers/linear_solver.py:trains_order_at_s", "railway_solvers/railway_solvers/linear_solver.py:keep_trains_order"]}
{"id": "C05", "title": "Switches are cleared before the next train", "statement": "In every feasible solution, two trains listed as sharing a switch at station s (set Jswitch), not the same rolling stock, pass it at times that differ by at least the reservation time res.", "quantifier": "all inputs accepted by create_linear_problem, all feasible assignments, all Jswitch pairs in every in/out combination", "why_tests_cant": "There are four in/out combinations times several order-variable cases; the claim ranges over all feasible points.", "anchors": ["railway_solvers/railway_solvers/linear_solver.py:switch_occupation", "railway_solvers/railway_solvers/linear_solver.py:switch_occ", "railway_solvers/railway_solvers/helpers_functions.py:departure_station4switches"]}
{"id": "C06", "title": "Turned-around rolling stock is available before it departs", "statement": "In every feasible solution, for every pair (j, jp) in Jround at s, train jp leaves s no earlier than the arrival of j at s plus the preparation time of jp.", "quantifier": "all inputs accepted by create_linear_problem, all feasible assignments, all Jround pairs", "why_tests_cant": "Includes the case where the constraint is dropped as redundant; must hold at every feasible point.", "anchors": ["railway_solvers/railway_solvers/linear_solver.py:rolling_stock_circ"]}
{"id": "C07", "title": "Departures stay between the earliest time and d_max after it", "statement": "In every feasible solution every reported departure is not before the schedule, not before the initial condition of that train and station, and at most d_max after the earliest possible departure.", "quantifier": "all inputs, all feasible assignments, all trains and stations with a departure variable", "why_tests_cant": "Ranges over all schedules, initial conditions and feasible points.", "anchors": ["railway_solvers/railway_solvers/linear_solver.py:delay_varibles", "railway_solvers/railway_solvers/helpers_functions.py:earliest_dep_time", "railway_solvers/railway_solvers/linear_solver.py:delay_and_acctual_time"]}
{"id": "C08", "title": "One order decision per pair of trains and place", "statement": "For every pair of trains and place the order is one single 0/1 decision: asking 'does j go first' and 'does jp go first' always gives complementary answers, no matter how many of the sets Jd, Josingle, Jtrack, Jswitch mention the pair and in which order.", "quantifier": "all train sets whose identifiers do not use the reserved words in/one_station; all pairs of different trains", "why_tests_cant": "The variable store is built by four passes over nested dictionaries with reversed-order lookups; tests touch a few pairs only.", "anchors": ["railway_solvers/railway_solvers/linear_solver.py:order_variables", "railway_solvers/railway_solvers/linear_solver.py:update_y3", "railway_solvers/railway_solvers/linear_solver.py:update_y4", "railway_solvers/railway_solvers/linear_solver.py:update_y4_in", "railway_solvers/railway_solvers/linear_solver.py:get_y3", "railway_solvers/railway_solvers/linear_solver.py:get_y4_singleline", "railway_solvers/railway_solvers/linear_solver.py:get_y4_in"]}
{"id": "C09", "title": "Every conflict-free timetable is admitted", "statement": "Conversely to C01-C06: every timetable that meets schedule, initial conditions, running and stopping times, headways, single-track exclusion, track, switch and turnaround rules with each departure at most d_max above the earliest possible one corresponds to a feasible assignment of the problem (the big-M constants and the dropped constraints cut off nothing).", "quantifier": "all well-formed inputs, all conflict-free timetables", "why_tests_cant": "A too small big-M silently removes solutions; no finite set of instances excludes it.", "anchors": ["railway_solvers/railway_solvers/linear_solver.py:create_linear_problem", "railway_solvers/railway_solvers/helpers_functions.py:get_M"]}
{"id": "C10", "title": "Continuous and integer delays give the same optimum on integer data", "statement": "If all times and d_max are integers, rounding the delays of any feasible point of the cat='Continuous' problem down gives a feasible point of the cat='Integer' problem whose objective is not larger (nonnegative weights), so both problems have the same optimum.", "quantifier": "all integer inputs, all feasible points of the continuous problem", "why_tests_cant": "A statement about two infinite feasible sets.", "anchors": ["railway_solvers/railway_solvers/linear_solver.py:create_linear_problem", "railway_solvers/railway_solvers/linear_solver.py:delay_varibles"]}
{"id": "C11", "title": "A larger d_max never removes solutions", "statement": "Every feasible assignment of the problem built with d_max stays feasible for the problem built from the same data with any larger d_max, and the d_max-scaled objective of that assignment is unchanged.", "quantifier": "all inputs, all pairs d_max <= d_max', all feasible assignments", "why_tests_cant": "Both the big-M constants and the set of emitted constraints change with d_max; a test can compare only single optimal values.", "anchors": ["railway_solvers/railway_solvers/linear_solver.py:create_linear_problem", "railway_solvers/railway_solvers/helpers_functions.py:get_M"]}
{"id": "C12", "title": "The reference time is irrelevant", "statement": "Moving every schedule entry and every initial condition by the same amount yields a problem with the same variables, the same constraint names and equivalent constraints, hence the same feasible delays and objective.", "quantifier": "all inputs, all shifts", "why_tests_cant": "Ranges over all shifts and inputs.", "anchors": ["railway_solvers/railway_solvers/linear_solver.py:create_linear_problem", "railway_solvers/railway_solvers/helpers_functions.py:earliest_dep_time"]}
{"id": "C13", "title": "A delay variable exists exactly where a departure is decided", "statement": "There is a delay variable for train j at s exactly if j is in J, s is on the path of j, s is not the skipped station of j and j is not continued by another train at s; its bounds are 0 and d_max and its category is the requested one.", "quantifier": "all train sets (paths of any length, any skip and turnaround sets)", "why_tests_cant": "Set equality over arbitrary inputs.", "anchors": ["railway_solvers/railway_solvers/linear_solver.py:delay_varibles", "railway_solvers/railway_solvers/helpers_functions.py:skip_station", "railway_solvers/railway_solvers/helpers_functions.py:subsequent_train_at_Jround"]}
{"id": "C14", "title": "The objective is the sum of the reported impacts and is bounded", "statement": "The objective of an assignment equals the sum over all trains and their stations of impact_to_objective, it is 0 when no weighted train is delayed, never negative, and at most the sum of all weights.", "quantifier": "all inputs with nonnegative weights and d_max > 0, all assignments within bounds", "why_tests_cant": "Ranges over all weights and assignments; names of variables are matched textually.", "anchors": ["railway_solvers/railway_solvers/linear_solver.py:objective", "railway_solvers/railway_solvers/linear_solver.py:impact_to_objective", "railway_solvers/railway_solvers/helpers_functions.py:penalty_weights"]}
{"id": "C15", "title": "earliest_dep_time is the least timetable", "statement": "For a train path whose first station has an initial condition, earliest_dep_time is defined at every station and is the least timetable that respects the schedule, the initial conditions and running plus stopping times towards stations without an initial condition of their own; it is monotone: delaying initial conditions by at most delta delays no departure by more than delta and never makes one earlier.", "quantifier": "all paths, schedules, initial conditions, running and stopping times", "why_tests_cant": "Recursion over paths of arbitrary length; least-fixed-point statement.", "anchors": ["railway_solvers/railway_solvers/helpers_functions.py:earliest_dep_time", "railway_solvers/railway_solvers/helpers_functions.py:previous_station"]}
{"id": "C16", "title": "Every constraint gets a name with the prefix of its kind", "statement": "Every constraint of a created problem carries a name beginning with the prefix of the rule it encodes, all names are distinct, and the QUBO conversion finds exactly the penalty of that rule for it (never a ValueError).", "quantifier": "all inputs accepted by create_linear_problem, all constraints", "why_tests_cant": "Names contain arbitrary train and station identifiers; prefixes overlap textually.", "anchors": ["railway_solvers/railway_solvers/linear_solver.py:create_linear_problem", "railway_solvers/railway_solvers/converter_bqm.py:_get_placeholder"]}
{"id": "C17", "title": "Well-formed input always builds", "statement": "create_linear_problem raises no exception on well-formed input. Well-formed: identifiers have no underscore or other character PuLP replaces, print differently from one another, are not the solver's keywords, no train is called as a station and no station \"p\"; each train of J has a path that visits no station twice, with an initial condition at its first station, running times along the path and minimal stops where it stops; headways are given for trains that follow each other and preparation times for turnarounds; every set lists trains of J that really use the place, in the order of J, no pair twice; a track group with a train that turns around also lists the train it continues as; only ends of paths are skipped; weights are given for departures the solver decides; and the maximal delay is not 0. Violating the naming, order, repetition or continuation conditions does raise.", "quantifier": "all well-formed train sets and timetables", "why_tests_cant": "The absence of KeyErrors in nested dictionaries for all inputs.", "anchors": ["railway_solvers/railway_solvers/linear_solver.py:create_linear_problem"]}
{"id": "C18", "title": "Reported times are delay plus earliest time", "statement": "For a train and station with a delay variable in the problem, delay_and_acctual_time returns the value of that variable, the earliest departure plus that value, and the earliest departure.", "quantifier": "all train and station identifiers, all problems and assignments", "why_tests_cant": "Variable names are sanitised by PuLP but looked up unsanitised; depends on the identifiers' characters.", "anchors": ["railway_solvers/railway_solvers/linear_solver.py:delay_and_acctual_time"]}
{"id": "C19", "title": "Different variables have different names", "statement": "Two different variables of a created problem never share a name, provided train and station identifiers contain no underscore and none of the characters PuLP replaces, and different identifiers print differently.", "quantifier": "all train sets", "why_tests_cant": "Injectivity of string construction over all identifiers.", "anchors": ["railway_solvers/railway_solvers/linear_solver.py:update_y3", "railway_solvers/railway_solvers/linear_solver.py:update_y4", "railway_solvers/railway_solvers/linear_solver.py:update_y4_in", "railway_solvers/railway_solvers/linear_solver.py:delay_varibles"]}
{"id": "C20", "title": "Pair predicates are symmetric", "statement": "occurs_as_pair, not_the_same_rolling_stock, can_MO_on_line and are_two_trains_entering_via_the_same_switches give the same answer when the two trains are exchanged; occurs_as_pair and not_the_same_rolling_stock never pair a train with itself.", "quantifier": "all train sets, all trains and stations", "why_tests_cant": "Universal symmetry statement.", "anchors": ["railway_solvers/railway_solvers/helpers_functions.py:occurs_as_pair", "railway_solvers/railway_solvers/helpers_functions.py:not_the_same_rolling_stock", "railway_solvers/railway_solvers/helpers_functions.py:can_MO_on_line", "railway_solvers/railway_solvers/helpers_functions.py:are_two_trains_entering_via_the_same_switches"]}
{"id": "C21", "title": "Turnaround lookups are inverse", "statement": "If no train occurs twice on the same side of the turnaround pairs of a station, jp is the train that continues j at s exactly if j is the train from which jp gets its rolling stock at s, and this is exactly membership of the pair in Jround.", "quantifier": "all turnaround sets without repeated trains per side", "why_tests_cant": "Universal statement on list lookups.", "anchors": ["railway_solvers/railway_solvers/helpers_functions.py:previous_train_from_Jround", "railway_solvers/railway_solvers/helpers_functions.py:subsequent_train_at_Jround"]}
{"id": "C22", "title": "Next and previous station are inverse", "statement": "On a path without repeated stations, sp precedes s exactly if s follows sp, only the first station has no predecessor and only the last no successor.", "quantifier": "all paths without repeats", "why_tests_cant": "Paths of arbitrary length.", "anchors": ["railway_solvers/railway_solvers/helpers_functions.py:previous_station", "railway_solvers/railway_solvers/helpers_functions.py:subsequent_station"]}
{"id": "C23", "title": "Merging a variable never loses another", "statement": "Adding one new entry to the nested variable dictionaries keeps every entry already there and adds exactly the new one; adding an entry that exists raises.", "quantifier": "all nested dictionaries of uniform depth and all single-entry additions", "why_tests_cant": "Arbitrary nesting contents.", "anchors": ["railway_solvers/railway_solvers/helpers_functions.py:update_dictofdicts"]}
{"id": "C24", "title": "Integer encoding covers exactly the range", "statement": "Every integer between the bounds of a variable (and of a slack) is represented by some assignment of its encoding bits, and every assignment of the bits decodes to an integer between the bounds.", "quantifier": "all lower < upper bounds, all bit assignments", "why_tests_cant": "Ranges over all bounds and all bit strings.", "anchors": ["railway_solvers/railway_solvers/converter_bqm.py:convert_to_pyqubo", "railway_solvers/railway_solvers/converter_bqm.py:_get_slack_ub"]}
{"id": "C25", "title": "QUBO energy is objective plus penalties", "statement": "For every binary sample the QUBO energy equals the objective penalty times the objective of the decoded solution plus, per constraint, its penalty times the squared defect; it is at least the weighted objective and equals it exactly if all constraints hold with the matching slack.", "quantifier": "all integer problems, nonnegative penalties, all binary samples", "why_tests_cant": "The sample space is exponential and problems are arbitrary.", "anchors": ["railway_solvers/railway_solvers/converter_bqm.py:convert_to_pyqubo", "railway_solvers/railway_solvers/converter_bqm.py:convert_to_bqm"]}
{"id": "C26", "title": "Large enough penalties make the ground state optimal", "statement": "If every constraint penalty exceeds the spread of the weighted objective and the problem has a feasible solution, then every minimum-energy sample of the QUBO decodes to an optimal feasible solution.", "quantifier": "all integer problems with integer coefficients, all penalties above the spread, all minimum-energy samples", "why_tests_cant": "Statement about minima over an exponential sample space, for all problems.", "anchors": ["railway_solvers/railway_solvers/converter_bqm.py:convert_to_bqm"]}
{"id": "C27", "title": "Every feasible solution has a zero-penalty sample", "statement": "Every feasible integer solution can be completed by slack values to a binary sample with zero penalty: the computed slack bound is never too small.", "quantifier": "all created integer problems whose times are whole minutes and for which the conversion succeeds, all feasible solutions (fractional times: see C54)", "why_tests_cant": "Depends on bounds and signs of all coefficients.", "anchors": ["railway_solvers/railway_solvers/converter_bqm.py:_get_slack_ub", "railway_solvers/railway_solvers/converter_bqm.py:convert_to_pyqubo"]}
{"id": "C28", "title": "CQM has the same feasible set and objective", "statement": "For a problem whose variables have lower bound 0 (as all problems made by create_linear_problem), an assignment is feasible for the CQM exactly if it is feasible for the integer problem, and the objectives agree; continuous variables are rejected.", "quantifier": "all such problems, all assignments", "why_tests_cant": "Equivalence of two infinite families.", "anchors": ["railway_solvers/railway_solvers/converter_cqm.py:convert_to_cqm", "railway_solvers/railway_solvers/converter_cqm.py:_is_binary"]}
{"id": "C29", "title": "Decoding a QUBO sample inverts encoding", "statement": "The interpreter returns, for each sample, exactly the integer values the bits encode, for exactly the variables of the problem, in range, and keeps every sample together with its own energy.", "quantifier": "all problems, all sample sets", "why_tests_cant": "Ranges over all sample sets and orders.", "anchors": ["railway_solvers/railway_solvers/converter_bqm.py:convert_to_bqm"]}
{"id": "C30", "title": "Feasibility report is exact", "statement": "analyze_constraints marks a constraint true exactly if the sample satisfies it, and its count equals the number of satisfied constraints, so the feasible flag in get_results is set exactly if all constraints hold.", "quantifier": "all problems, all samples assigning all variables", "why_tests_cant": "Universal over problems and samples.", "anchors": ["railway_solvers/railway_solvers/results_manipulation.py:analyze_constraints", "railway_solvers/railway_solvers/results_manipulation.py:get_results"]}
{"id": "C31", "title": "Results are sorted and complete", "statement": "get_results returns one entry per sample row and nothing else, in nondecreasing order of objective, ties in the order in which the sample set lists its rows (increasing energy), and the objective reported equals the objective of the problem at that sample.", "quantifier": "all sample sets", "why_tests_cant": "Sorting correctness over arbitrary lists.", "anchors": ["railway_solvers/railway_solvers/results_manipulation.py:get_results", "railway_solvers/railway_solvers/results_manipulation.py:get_objective"]}
{"id": "C32", "title": "Best feasible sample is the best", "statement": "get_best_feasible_sample on the output of get_results returns a feasible entry of minimal objective whenever one exists, otherwise an entry of minimal energy; it fails only on an empty list.", "quantifier": "all result lists", "why_tests_cant": "Arbitrary lists.", "anchors": ["railway_solvers/railway_solvers/results_manipulation.py:get_best_feasible_sample"]}
{"id": "C33", "title": "A sample reported feasible is a conflict-free timetable", "statement": "If a sample obtained from the QUBO or CQM route for a problem made by create_linear_problem is flagged feasible, the timetable it reports satisfies C01-C07.", "quantifier": "all inputs, all samplers' outputs, all samples", "why_tests_cant": "Composes several components over all samples.", "anchors": ["railway_solvers/railway_solvers/results_manipulation.py:get_results", "helpers.py:q_process", "railway_solvers/railway_solvers/linear_solver.py:create_linear_problem"]}
{"id": "C34", "title": "Couplings and fields are counted exactly", "statement": "count_quadratic_couplings and count_linear_fields return the number of nonzero quadratic and linear coefficients.", "quantifier": "all binary quadratic models", "why_tests_cant": "Arbitrary models.", "anchors": ["railway_solvers/railway_solvers/results_manipulation.py:count_quadratic_couplings", "railway_solvers/railway_solvers/results_manipulation.py:count_linear_fields"]}
{"id": "C35", "title": "Timetable files round-trip", "statement": "For every list of trains written in the row format of the schedule file, timetable_to_train_dict returns for each train number its four header fields and exactly its block rows, in file order.", "quantifier": "all lists of trains with any number of blocks", "why_tests_cant": "Files of arbitrary length.", "anchors": ["data_formatting/data_formatting/time_table_check.py:timetable_to_train_dict"]}
{"id": "C36", "title": "Passing times between stations are additive", "statement": "The minimal passing time between two important stations of a train equals the sum of passing times of the blocks strictly between the last block of the first and the first block of the second, is the same however often blocks are looked up, and the total running time of a train splits into stops and passes without loss or double counting.", "quantifier": "all timetables with distinct blocks in which stations occupy consecutive blocks", "why_tests_cant": "Arbitrary timetables.", "anchors": ["data_formatting/data_formatting/utils.py:minimal_passing_time", "data_formatting/data_formatting/utils.py:get_blocks_b2win_station4train", "data_formatting/data_formatting/utils.py:minimal_stay"]}
{"id": "C37", "title": "Headway is the least safe separation", "statement": "For two trains over the same blocks, the headway computed by get_taus_headway (unrounded) is exactly the least separation at the start that keeps the second train the prescribed number of blocks behind the first at every block; rounding may give a smaller value.", "quantifier": "all block sequences and passing times", "why_tests_cant": "Arbitrary block sequences; minimality claim.", "anchors": ["data_formatting/data_formatting/make_J_taus.py:get_taus_headway"]}
{"id": "C38", "title": "Turnaround time is counted once", "statement": "For every train and station, the turnaround time of the train is part of the stop time at intermediate stations and part of the preparation time at its first station, and is never lost.", "quantifier": "all timetables", "why_tests_cant": "The result depends on the history of previously processed trains and stations.", "anchors": ["data_formatting/data_formatting/make_J_taus.py:get_taus_stop", "data_formatting/data_formatting/make_J_taus.py:get_taus_prep", "data_formatting/data_formatting/utils.py:minimal_stay"]}
{"id": "C39", "title": "Trains sharing a station track are grouped together", "statement": "jtrack puts two trains of a station in the same group exactly if they use the same blocks there and these are not excluded, each train in exactly one group, and no group is empty.", "quantifier": "all timetables and stations", "why_tests_cant": "Arbitrary numbers of trains.", "anchors": ["data_formatting/data_formatting/make_J_taus.py:jtrack", "data_formatting/data_formatting/make_J_taus.py:jtrack_subroutine", "data_formatting/data_formatting/make_J_taus.py:jtrack_dict_generation"]}
{"id": "C40", "title": "Opposing trains on common blocks are found", "statement": "josingle lists only pairs of trains that run in opposite directions over the same nonempty block sequence between two neighbouring stations, and lists every such pair.", "quantifier": "all timetables", "why_tests_cant": "Depends on iteration order and on which trains terminate where.", "anchors": ["data_formatting/data_formatting/make_J_taus.py:josingle", "data_formatting/data_formatting/make_J_taus.py:josingle_dict_generate"]}
{"id": "C41", "title": "Followers are grouped", "statement": "jd terminates, puts every train leaving s for sp into some group of (s, sp), lists no train that does not, and any two trains in a group run over common blocks.", "quantifier": "all timetables", "why_tests_cant": "Grouping loop over arbitrary trains.", "anchors": ["data_formatting/data_formatting/make_J_taus.py:jd"]}
{"id": "C42", "title": "Switch conflicts are found and symmetric", "statement": "jswitch lists, for every station, every pair of different trains whose entry or exit routes share a switch, each with the right in/out labels, once per combination, and nothing else; the parts of Katowice station (KO(STM), KO(IC), KO(KS)) are treated as the code's exclusion lists say.", "quantifier": "all timetables and switch tables", "why_tests_cant": "Arbitrary route sets.", "anchors": ["data_formatting/data_formatting/make_J_taus.py:jswitch", "data_formatting/data_formatting/make_J_taus.py:make_jswitch_dict", "data_formatting/data_formatting/make_switch_set.py:z_in", "data_formatting/data_formatting/make_switch_set.py:z_out"]}
{"id": "C43", "title": "Turnaround pairs are placed at the turning station", "statement": "get_jround puts each pair of train numbers (x, x9) at the station in which the first listed train ends and the second starts.", "quantifier": "all timetables", "why_tests_cant": "Depends on a block variable carried over from earlier pairs.", "anchors": ["data_formatting/data_formatting/make_J_taus.py:get_jround", "data_formatting/data_formatting/make_J_taus.py:get_trains_pair9"]}
{"id": "C44", "title": "Schedule times are differences to the reference time", "statement": "Schedule and initial-condition entries are the clock differences in minutes to the reference time; differences are antisymmetric, add up, and shift exactly with the reference.", "quantifier": "all clock times and reference times", "why_tests_cant": "All pairs of times.", "anchors": ["data_formatting/data_formatting/scheduling_tools.py:calc_time_diff", "data_formatting/data_formatting/scheduling_tools.py:get_schedule", "data_formatting/data_formatting/scheduling_tools.py:get_initial_conditions"]}
{"id": "C45", "title": "add_delay delays exactly the given train", "statement": "add_delay increases exactly the initial condition of the given train by the given delay and leaves all other trains unchanged.", "quantifier": "all sets of train numbers and initial conditions", "why_tests_cant": "Depends on textual overlaps between train numbers.", "anchors": ["data_formatting/data_formatting/scheduling_tools.py:add_delay"]}
{"id": "C46", "title": "Weights are put on the last decided station", "statement": "make_weights gives each train the weight of its kind at its last station that has a departure variable and nowhere else, and no weight exactly to shunting movements.", "quantifier": "all timetables, weights and skip sets", "why_tests_cant": "Depends on arithmetic coincidences of train numbers.", "anchors": ["data_formatting/data_formatting/scheduling_tools.py:make_weights"]}
{"id": "C47", "title": "Skipped station is the end of the path", "statement": "get_skip_stations assigns to a train exactly the last station of its path, and only if its last block belongs to that station.", "quantifier": "all timetables", "why_tests_cant": "Arbitrary timetables.", "anchors": ["data_formatting/data_formatting/utils.py:get_skip_stations", "data_formatting/data_formatting/utils.py:get_Paths"]}
{"id": "C48", "title": "Passing times are read for the right direction", "statement": "For each pair of consecutive blocks of a train the passing time added by update_all_timetables is that of the network entry for this pair, of the train kind, in the direction of travel; an unknown pair is an error.", "quantifier": "all networks and timetables", "why_tests_cant": "Depends on the whole network table.", "anchors": ["data_formatting/data_formatting/new_time_tables.py:update_all_timetables", "data_formatting/data_formatting/new_time_tables.py:single_passing_time", "data_formatting/data_formatting/new_time_tables.py:passing_times_4blocks"]}
{"id": "C49", "title": "Discontinuous paths are rejected", "statement": "check_path_continuity accepts a path exactly if every two consecutive blocks are neighbours in the network table.", "quantifier": "all paths and network tables", "why_tests_cant": "Universal over paths.", "anchors": ["data_formatting/data_formatting/time_table_check.py:check_path_continuity"]}
{"id": "C50", "title": "Variables are counted by kind", "statement": "count_vars returns the number of order variables and the number of delay variables of a problem, which add up to all variables.", "quantifier": "all problems made by create_linear_problem", "why_tests_cant": "Counting by substring of names.", "anchors": ["helpers.py:count_vars", "helpers.py:check_count_vars"]}
{"id": "C51", "title": "Common paths are common", "statement": "Every piece returned by check_common_specific_elements_lists is a consecutive part of both lists, and every element the lists share in the same consecutive run is returned.", "quantifier": "all pairs of lists", "why_tests_cant": "Arbitrary lists.", "anchors": ["data_formatting/data_formatting/utils.py:check_common_specific_elements_lists", "data_formatting/data_formatting/utils.py:common_path", "data_formatting/data_formatting/utils.py:sublist"]}
{"id": "C52", "title": "Trains at a station", "statement": "get_trains_at_station lists for each station exactly the trains whose path contains it (with only_departure: minus those that end there), in the order of the train dictionary.", "quantifier": "all timetables", "why_tests_cant": "Arbitrary timetables.", "anchors": ["data_formatting/data_formatting/utils.py:get_trains_at_station", "data_formatting/data_formatting/utils.py:get_J", "data_formatting/data_formatting/utils.py:get_Paths"]}
{"id": "C53", "title": "The order on the line is the order on the station track", "statement": "In every feasible solution, two trains that run a line sp -> s one behind the other (common Jd group) and share a track at s use that track in the order in which they left sp; two trains that enter s through the same switches from different lines use a common track in the order in which they pass the switches.", "quantifier": "all inputs the problem can be created for and all feasible points", "why_tests_cant": "The equality of order variables is emitted only if the variables happen to be stored in the orientation keep_trains_order looks for; tests use inputs that list every pair in one fixed order.", "anchors": ["railway_solvers/railway_solvers/linear_solver.py:404-436 keep_trains_order"]}
{"id": "C54", "title": "The QUBO route refuses or preserves the problem", "statement": "convert_to_bqm accepts every problem created by create_linear_problem with integer variables that has a feasible plan, and with large enough penalty values the ground states of the returned quadratic model decode exactly to the optimal feasible plans.", "quantifier": "all created integer problems with a feasible plan, all timetables including fractional passing times, all penalty dictionaries that name every rule", "why_tests_cant": "Quantifies over all timetables, all penalties and exponentially many samples.", "anchors": ["railway_solvers/railway_solvers/converter_bqm.py:convert_to_bqm", "railway_solvers/railway_solvers/converter_bqm.py:_get_slack_ub", "railway_solvers/railway_solvers/converter_bqm.py:convert_to_pyqubo"]}
{"id": "C55", "title": "Trains sharing a line get a headway rule", "statement": "Every two trains that leave a station for the same next station over a shared block are together in some group of jd, so that a headway rule between them exists.", "quantifier": "all timetables", "why_tests_cant": "Depends on the order in which trains are listed and on which part of the line they share.", "anchors": ["data_formatting/data_formatting/make_J_taus.py:jd", "data_formatting/data_formatting/utils.py:common_path"]}
{"id": "C57", "title": "Following trains never share a block, from the tables on", "statement": "For a problem built from the timetable, station and network tables as the main script does (get_skip_stations, make_train_set, make_timetable, add_delay, create_linear_problem), every feasible solution keeps two trains that run from one station to the next over a common block off that block at the same time, and one (listed stretches) or two blocks apart.", "quantifier": "all tables, delays, d_max, and all feasible solutions", "why_tests_cant": "Composes set building, headway tables with rounding, and the ILP; unit tests test each with fixed literals, never the occupied blocks of all solutions.", "anchors": ["helpers.py:59-93", "solve_real_problem.py:110-220", "data_formatting/data_formatting/make_J_taus.py:368-406 jd", "data_formatting/data_formatting/make_J_taus.py:515 get_taus_headway"]}
{"id": "C58", "title": "Opposing trains are never on a single line together, from the tables on", "statement": "For a problem built from the tables, in every feasible solution two trains of different rolling stock that run against each other over the same blocks between two stations are never on that line at the same time.", "quantifier": "all tables, delays, d_max, and all feasible solutions", "why_tests_cant": "Needs all solutions of all problems that can be built from tables.", "anchors": ["helpers.py:83-93", "data_formatting/data_formatting/make_J_taus.py:193-213 josingle", "railway_solvers/railway_solvers/linear_solver.py:327-366 single_line"]}
{"id": "C59", "title": "A station track is used by one train at a time, from the tables on", "statement": "For a problem built from the tables, in every feasible solution two trains of different rolling stock that use the same blocks of a station do not stand there at the same time.", "quantifier": "all tables, delays, d_max, and all feasible solutions", "why_tests_cant": "Needs all solutions of all problems that can be built from tables.", "anchors": ["helpers.py:83-93", "data_formatting/data_formatting/make_J_taus.py:237-260 jtrack", "railway_solvers/railway_solvers/linear_solver.py:502-551 track_occuparion"]}
{"id": "C60", "title": "Movements over a common switch are a minute apart, from the tables on", "statement": "For a problem built from the tables, in every feasible solution two movements (arrival or departure) of different rolling stock over a common switch of a station are at least one minute apart.", "quantifier": "all tables with one network row per pair of blocks, delays, d_max, and all feasible solutions", "why_tests_cant": "Needs all solutions of all problems that can be built from tables.", "anchors": ["helpers.py:83-93", "data_formatting/data_formatting/make_J_taus.py:263-365 jswitch", "railway_solvers/railway_solvers/linear_solver.py:554-641 switch_occ"]}
{"id": "C61", "title": "Rolling stock is turned before it leaves again, from the tables on", "statement": "For a problem built from the tables, in every feasible solution, wherever train x ends on the block where x9 starts (or the other way round), the second one leaves no earlier than the arrival of the first plus the turnaround time of its first row.", "quantifier": "all tables, delays, d_max, and all feasible solutions", "why_tests_cant": "Needs all solutions of all problems that can be built from tables, including pairs that meet at both ends.", "anchors": ["helpers.py:59-93", "data_formatting/data_formatting/make_J_taus.py:25-78 get_jround", "data_formatting/data_formatting/make_J_taus.py:492-512 get_taus_prep"]}
{"id": "C62", "title": "Names have no characters reserved in LP files", "statement": "In a created problem every variable is named by its prefix and its printed identifiers joined by underscores, with each of the characters - + [ ] blank > / replaced by one underscore and all others kept, so that no variable name contains one of these characters, and no constraint name contains - + [ ] or a blank.", "quantifier": "all train sets, timetables and identifiers", "why_tests_cant": "Ranges over all identifiers.", "anchors": ["railway_solvers/railway_solvers/linear_solver.py:create_linear_problem", "railway_solvers/railway_solvers/linear_solver.py:delay_varibles"]}
{"id": "C63", "title": "List parts and nested sizes", "statement": "sub_lists returns exactly the nonempty consecutive parts of a list (those of two or more elements with no_single), each once if the list has no repetition; getSizeOfNestedList counts the elements that are not lists at any depth.", "quantifier": "all lists and nested lists", "why_tests_cant": "Arbitrary lists and depths.", "anchors": ["data_formatting/data_formatting/utils.py:89-98 sub_lists", "data_formatting/data_formatting/utils.py:11-26 getSizeOfNestedList"]}
{"id": "C64", "title": "Views of the timetables", "statement": "The stations by train reversed are the trains by station, each station with exactly the trains that pass it in order; the common stations and blocks of two trains are exactly those on both paths; the stations found from the blocks are those of the annotated column; the times of a train are those of its rows that have any.", "quantifier": "all train dictionaries and station tables", "why_tests_cant": "Ranges over all timetables.", "anchors": ["data_formatting/data_formatting/utils.py:52-60 reverse_dict_of_lists", "data_formatting/data_formatting/utils.py:111-127", "data_formatting/data_formatting/time_table_check.py:64-103"]}
{"id": "C65", "title": "Common blocks and direction of two trains", "statement": "For two trains that pass two stations, get_common_blocks_and_direction_b2win_trains says \"same\" exactly if they run the same way between them, and returns exactly the common blocks between them, in the order of the first train.", "quantifier": "all timetables and pairs of trains", "why_tests_cant": "Universal over pairs of paths.", "anchors": ["data_formatting/data_formatting/utils.py:235-262 get_common_blocks_and_direction_b2win_trains"]}
{"id": "C66", "title": "Delays of a scenario reach the solution", "statement": "In a scenario, every train appears at its first station at its planned time plus its own delay, in every solution it leaves there not earlier than that, and trains without delay appear as planned.", "quantifier": "all tables, lists of delays, and all feasible solutions", "why_tests_cant": "Needs all solutions of all problems built from tables and delays.", "anchors": ["helpers.py:59-93", "solve_real_problem.py:110-220", "data_formatting/data_formatting/make_J_taus.py:add_delay"]}
{"id": "C67", "title": "The printed schedule is the solution", "statement": "print_optimisation_results gives for every train and station the departure of the solution, its secondary delay and the departure without conflicts on the clock of the reference time, no departure at stations left out, and as arrival the departure from the station before plus the running time.", "quantifier": "all problems built, all solutions, all reference times", "why_tests_cant": "Ranges over all solutions.", "anchors": ["helpers.py:95-150 print_optimisation_results"]}
{"id": "C56", "title": "Complete tables give a problem", "statement": "If the tables are complete (trains with at least two stations, a known kind, readable times and turnaround times; one row of the network table for two neighbouring blocks; plain names), the way from the tables to the dispatching problem ends without an error, for every list of delays and every positive bound on the delay.", "quantifier": "all timetables, station tables and network tables, all lists of delays", "why_tests_cant": "Errors (KeyError, IndexError, duplicate names refused by PuLP) depend on how all sets of trains overlap; tests see a few timetables.", "anchors": ["solve_real_problem.py:110-220", "data_formatting/data_formatting/make_J_taus.py", "linear_solver.py:create_linear_problem"]}
{"id": "C68", "title": "From the schedule file to the timetables", "statement": "build_timetables turns a schedule file into a dictionary with every train of the file under its number, its header fields, its blocks in order with all columns of the file, the station of each block, and the running time of the network table for the train's kind and direction; it accepts every file in which consecutive blocks have a row in the network table; and if trains use no block or station twice, the dictionary has what the claims on the solved problem suppose.", "quantifier": "all schedule files, station tables and network tables with one row for two neighbouring blocks", "why_tests_cant": "Ranges over all files and tables; tests read one or two.", "anchors": ["helpers.py:51-57 build_timetables", "data_formatting/data_formatting/time_table_check.py:timetable_to_train_dict", "data_formatting/data_formatting/new_time_tables.py:49-75 update_all_timetables"]}
{"id": "C69", "title": "The tables of the repository give a problem for every scenario", "statement": "Each of the seven combinations of schedule, stations and reference time that solve_real_problem.py and solve_KO_GLC_problems.py load from data/ is read without an error, has a running time for every block but a train's last, meets the conditions under which the claims on solved problems hold (tidy and complete tables, no partly shared lines), and gives a dispatching problem without an error for every list of delays and every nonzero bound on the delay.", "quantifier": "the seven shipped combinations of tables; all lists of delays, all nonzero d_max, all categories of variables", "why_tests_cant": "The scripts try ten to twelve scenarios of delays each; the claim is about all scenarios. The repository's tests look at single entries of one of the seven tables.", "anchors": ["solve_real_problem.py:92-222", "solve_KO_GLC_problems.py:71-160", "data/network_paths.ods", "data/trains_schedules.csv"]}
{"id": "C70", "title": "Common switches at both ends keep opposing trains apart", "statement": "If of two trains that run against each other between two stations each one leaves over a switch over which the other one comes in, at both stations, then in every feasible solution one of them leaves only when the other one has arrived, even if the pair is not listed as using a single line.", "quantifier": "all train sets, timetables, d_max and feasible assignments", "why_tests_cant": "It is a consequence of two order variables at two stations together with the running times, over all solutions; tests look at single constraints.", "anchors": ["railway_solvers/railway_solvers/linear_solver.py:554-640 switch_occ, switch_occupation"]}
{"id": "C71", "title": "With the repository's tables trains are kept apart on lines and at switches", "statement": "With each of the seven combinations of tables that the scripts load, for every scenario of delays and every feasible solution: two trains that share a block of a line between two stations are never on it together for more than half a minute (the rounding of times), whether they follow each other or meet; and two movements over a common switch of a station, of trains of different rolling stock coming from or going to another station, are at least one minute apart.", "quantifier": "the seven shipped combinations of tables; all lists of delays, all nonnegative d_max, all feasible solutions, all pairs of trains", "why_tests_cant": "It ranges over all solutions of all scenarios for all pairs of trains; the tests solve none of these problems, and the scripts solve a dozen scenarios without checking blocks.", "anchors": ["solve_real_problem.py:92-222", "solve_KO_GLC_problems.py:71-160", "data/network_paths.ods", "data/trains_schedules.csv"]}
{"id": "C72", "title": "With the repository's tables no two trains are on one track of a station", "statement": "With each of the seven combinations of tables that the scripts load, for every scenario of delays and every feasible solution: of two trains of different rolling stock that use the same track of a station, one comes only when the other one has left.", "quantifier": "the seven shipped combinations of tables; all lists of delays, all nonnegative d_max, all feasible solutions, all pairs of trains", "why_tests_cant": "It ranges over all solutions of all scenarios for all pairs of trains and tracks; the tests solve none of these problems.", "anchors": ["solve_real_problem.py:92-222", "railway_solvers/railway_solvers/linear_solver.py:502-552 track_occuparion", "data_formatting/data_formatting/make_J_taus.py:jtrack"]}
{"id": "C73", "title": "In the Wisla problem trains keep apart on every section", "statement": "In every feasible solution of the problem of wisla_problems.py: two trains running the same way over a section leave its first station at least 2 minutes apart; two trains running opposite ways over a section are not on it at the same time (also Ic1 and Ic2, which are one rolling stock and are exempt from the single line rule); Ic2 leaves station 10 at least 20 minutes after the arrival of Ic1.", "quantifier": "all feasible solutions of that problem, all pairs of trains and all sections", "why_tests_cant": "It is about all solutions the solver or a sampler may return; the script solves once and checks nothing.", "anchors": ["wisla_problems.py:56-101", "railway_solvers/railway_solvers/linear_solver.py:create_linear_problem"]}
{"id": "C74", "title": "The diagram of a train shows its path with times that never go back", "statement": "In the train path diagram of a feasible solution every train is drawn through the stations of its path in their order, at the arrivals and departures of the solution, and the drawn times never go back; the path without conflicts likewise. On a segment exactly the stations of the segment are drawn, at their kilometre; labels stand halfway between two drawn stations. Drawn are the trains with two or more stations of the segment (Katowice aside) and those asked for.", "quantifier": "all inputs, all feasible solutions, all trains, all segments", "why_tests_cant": "There are no tests of the diagrams, and the claim is about all schedules the solvers may return; that sorting by arrival keeps the order of the path depends on the rules of the problem.", "anchors": ["solutions_quantum/data4diagrams/train_utils.py:kdtrain2trainpath", "solutions_quantum/data4diagrams/echo_gnuplot_file.py:57-137", "solutions_quantum/data4diagrams/railway_lines.py:98-113"]}
{"id": "C75", "title": "Kilometres of segments agree with the railway lines", "statement": "The kilometre of a station on a segment is that of the first record whose call sign or name is the station, ignoring case, and ValueError if there is none. Two stations of a segment are as far apart as on every railway line with both of them. route_on_lines gives the positions of a route on lines.", "quantifier": "all stations and names, all segments and lines of the module", "why_tests_cant": "The lookup is over all strings, and the tables are compared pair by pair with each other; no test reads them.", "anchors": ["solutions_quantum/data4diagrams/railway_lines.py:7-113"]}
{"id": "C76", "title": "Statistics of a station are those of the delays printed there", "statement": "From any number of schedules the list of a station holds the secondary delays printed there, schedule by schedule and train by train, and nothing else. The printed maximum, minimum, mean and quantiles are those of this list; minimum <= quantile 25 <= quantile 75 <= maximum, and the mean is between minimum and maximum.", "quantifier": "all lists of schedules, all stations", "why_tests_cant": "The script is run on recorded results and has no tests; the claim is about all schedules and all lists of delays.", "anchors": ["solutions_quantum/data4diagrams/visualise_statistics.py:7-41"]}
{"id": "C77", "title": "A train gets the time for its blocks and keeps to its timetable", "statement": "Take any tables of a tidy input and any feasible solution of the problem built from them. Between the departures of a train from two of its stations, next to each other or not, lie at least the minutes of all blocks from the first station to the second one included, if these are whole minutes; otherwise at most one minute less for each station reached, because of rounding. No departure is before the departure time in the tables.", "quantifier": "all tidy tables, scenarios and largest delays for which the problem is built, all feasible solutions, all trains, all pairs of stations of a train before its last row", "why_tests_cant": "It is about every feasible solution and every pair of stations over the whole pipeline; tests check the parts on one small table and one optimum.", "anchors": ["solve_real_problem.py:110-220", "data_formatting/data_formatting/utils.py:minimal_passing_time", "data_formatting/data_formatting/utils.py:minimal_stay", "data_formatting/data_formatting/scheduling_tools.py:get_schedule", "data_formatting/data_formatting/scheduling_tools.py:get_initial_conditions", "railway_solvers/railway_solvers/helpers_functions.py:earliest_dep_time", "railway_solvers/railway_solvers/linear_solver.py:minimal_stay"]}
{"id": "C78", "title": "No train is much later than it could be alone", "statement": "Suppose a train alone and on time could leave its stations at the times of a plan: not before it appears, not before its timetable, and with the minutes of all blocks. In every feasible solution it leaves each station, except the one it ends at, at most the delay of the scenario plus d_max later than in the plan, and at most a further minute for each station before if the times are not whole minutes.", "quantifier": "all tidy tables, scenarios and largest delays for which the problem is built, all feasible solutions, all trains, all plans the train could keep", "why_tests_cant": "It is about every feasible solution and every plan, over tables, rounding, scenario and constraints together.", "anchors": ["solve_real_problem.py:110-220", "data_formatting/data_formatting/utils.py:minimal_passing_time", "data_formatting/data_formatting/utils.py:minimal_stay", "data_formatting/data_formatting/scheduling_tools.py:get_schedule", "data_formatting/data_formatting/scheduling_tools.py:get_initial_conditions", "railway_solvers/railway_solvers/helpers_functions.py:earliest_dep_time", "railway_solvers/railway_solvers/linear_solver.py:minimal_stay", "data_formatting/data_formatting/make_J_taus.py:add_delay", "railway_solvers/railway_solvers/linear_solver.py:delay_varibles"]}
{"id": "C79", "title": "The records of the runs over all scenarios are right", "statement": "solve_KO_GLC_problems.py keeps one record for each of its twelve scenarios, in order. It stops if a scenario names a train that is not in the tables. Each record has the sizes of the problem with the delays of its scenario; that of a quantum run has a sample with all values in their ranges, its objective, and the number of constraints it breaks, and is called feasible if and only if this number is 0, that is if the sample is a solution. With the tables of the repository all 36 problems are built.", "quantifier": "all tidy tables, lines 1 to 3, categories, samplers and methods", "why_tests_cant": "The script has no tests, calls remote samplers, and the claim is about all tables and all samples they may return.", "anchors": ["solve_KO_GLC_problems.py:86-214", "helpers.py:158-250", "railway_solvers/railway_solvers/results_manipulation.py:8-87"]}
{"id": "C80", "title": "Exact runs are the lower bound in the comparison plot", "statement": "A run recorded as feasible has a solution of its problem. In the plot of fast_plot.py a feasible quantum run of a scenario never lies below the run of an exact PuLP solver for the same scenario.", "quantifier": "all tidy tables, lines 1 to 3, samplers and methods, PuLP solvers that find optima", "why_tests_cant": "The claim is about all samples and about two scripts and their units (the objective times d_max in one record, not in the other); no test runs them.", "anchors": ["solve_KO_GLC_problems.py:166-214", "results_KO_GLC/fast_plot.py:22-66"]}
{"id": "C81", "title": "With the penalties of the scripts, ground states are optimal schedules", "statement": "The scripts give all rules one penalty p and the objective the weight 1 (solve_KO_GLC_problems.py uses 2.5, solve_real_problem.py 1 unless told otherwise). A sample of lowest energy of the QUBO made from the tables is then a best schedule, and every best schedule is such a sample, if there is a schedule at all.", "quantifier": "all tidy, complete tables with whole turnaround times, whole delays, largest delays and penalties", "why_tests_cant": "The tests convert a handful of hand-made problems with one penalty; the claim is about the lowest energies over exponentially many samples for all tables and penalties.", "anchors": ["solve_KO_GLC_problems.py:132-160", "solve_real_problem.py:79-84", "solve_real_problem.py:256-268", "railway_solvers/railway_solvers/converter_bqm.py"]}
{"id": "C82", "title": "Whole minutes are enough, from the tables on", "statement": "Every time made from the tables is rounded to whole minutes except the times to turn around. If these and the delays of the scenario are whole, the problem with continuous delays is built exactly when the one with integer delays is, and both have the same optimum: rounding down a continuous schedule keeps all rules and costs no more. With a turnaround time of 3.5 minutes the optima differ.", "quantifier": "all tidy tables, whole delays, largest delays", "why_tests_cant": "The claim compares two optimisation problems for all tables; no test solves both.", "anchors": ["helpers.py", "data_formatting/data_formatting/make_J_taus.py", "railway_solvers/railway_solvers/linear_solver.py"]}
{"id": "C83", "title": "The recorded results of the Katowice-Gliwice line are reproduced", "statement": "Reading the tables of the repository and building the problems as solve_KO_GLC_problems.py does gives, in each of the 3 cases with 12 scenarios, problems with exactly the numbers of order variables, delay variables and constraints that results_KO_GLC/results_PULP_CBC_CMD__k_Integer.pkl records; the least objective over all feasible plans is the recorded objective; and the loop of the script, run with any exact solver, records these numbers.", "quantifier": "all cases and scenarios of the script, all feasible plans, all exact solvers", "why_tests_cant": "A test compares one run of one solver with a number; that no feasible plan among exponentially many is better, and that every exact solver gives the same record, is a statement about all of them.", "anchors": ["solve_KO_GLC_problems.py:86-214", "results_KO_GLC/results_PULP_CBC_CMD__1_Integer.pkl", "results_KO_GLC/results_PULP_CBC_CMD__2_Integer.pkl", "results_KO_GLC/results_PULP_CBC_CMD__3_Integer.pkl", "railway_solvers/railway_solvers/linear_solver.py"]}
{"id": "C84", "title": "Running times are refused unless the train goes from the first to the second station", "statement": "minimal_passing_time fails with an AssertionError if one of the two stations is not visited by the train or they come in the other order, and otherwise returns a time.", "quantifier": "all timetables, stations and resolutions", "why_tests_cant": "The tests ask for running times of stations that the train does visit in this order; the claim is about all others.", "anchors": ["data_formatting/data_formatting/utils.py:358-368", "data_formatting/data_formatting/utils.py:162-183"]}
{"id": "C85", "title": "What a run of solve_real_problem.py stores is what its diagrams show", "statement": "Two invocations of solve_real_problem.py that use the same file of samples solve the same case in the same category with the same method, time and penalty; an unknown case or method is refused without touching a file; a run stores one answer per run number and changes no other file; a later run with --show_timetable puts, for each stored answer, exactly its plan (departures, secondary delays, arrivals) into the file for the diagrams, free of conflicts if the answer was called feasible; the same for the plan an LP solver leaves; and a run with the hybrid solver for constrained models ends without exception on the repository's tables for every case.", "quantifier": "all command lines, files present before, solvers and samplers (any that return samples of the model they are given); all tidy and complete tables, and all ten cases of the repository", "why_tests_cant": "The script has no tests and needs remote solvers; whether two runs can overwrite each other's files or show another run's plan is a statement about all pairs of command lines.", "anchors": ["solve_real_problem.py:34-301", "helpers.py:23-250"]}
{"id": "C86", "title": "Every case of the repository can be given to the samplers for QUBOs", "statement": "For each of the ten cases of solve_real_problem.py with integer variables, and whatever penalty is asked for, the conversion to a QUBO succeeds, and a run with --solve_quantum sim, real or bqm ends without exception and stores its answers, if the sampler returns samples at all. More generally, with the repository's tables a scenario of delays in whole minutes is accepted if the rolling stock of each of the three turnarounds at Katowice is ready before its next train would need the whole largest delay, and with the tables of solve_KO_GLC_problems.py every such scenario is accepted. In the tables of solve_real_problem.py the trains 343199 and 541019 leave Katowice at 16:18 and 16:32 at the earliest in every solution, four minutes after they are due.", "quantifier": "all cases and command lines of the script, all penalties and samplers, all scenarios of whole non-negative delays, all largest delays, all feasible solutions", "why_tests_cant": "The samplers are remote and a test tries one scenario; that no scenario within the limits is refused, and that no solution is earlier, is about all of them.", "anchors": ["solve_real_problem.py:99-301", "helpers.py:173-250", "railway_solvers/railway_solvers/converter_bqm.py", "railway_solvers/railway_solvers/linear_solver.py:644-663", "data/trains_schedules.csv"]}
{"id": "C87", "title": "A sampler that finds the ground state gives the optimal schedule", "statement": "If the samples that a sampler returns for the QUBO of a problem contain one of least energy, and the penalty exceeds the largest possible objective (7/4 for each train), then solve_on_quantum returns as best a feasible sample whose objective is the least of all feasible solutions, and solve_real_problem.py stores it. For the CQM it is enough that the samples contain a feasible one of least objective, whatever the penalties. On the Katowice-Gliwice line (line 3) the objective is then the one the repository has recorded.", "quantifier": "all problems made from complete tables with delays and turnarounds in whole minutes and integer variables, all penalties above the bound, all samplers and sample lists, all command lines of the script for a QUBO sampler", "why_tests_cant": "The samplers are remote and random. That the best one of the returned samples is the optimum, for every list of samples that contains a ground state, is about all samplers and all problems.", "anchors": ["helpers.py:173-251", "railway_solvers/railway_solvers/results_manipulation.py:48-87", "railway_solvers/railway_solvers/converter_bqm.py", "solve_real_problem.py:249-301"]}
{"id": "C88", "title": "wisla_problems.py stores optimal schedules if its sampler succeeds, and shows what it has stored", "statement": "With the penalties that wisla_problems.py uses, every ground state of its QUBO is an optimal schedule. If the sampler finds one, the run stores a feasible sample of the least objective. With --show_timetable a later run with the same options reads that result and puts its departure times into the diagram, both for the samplers and for the ILP solver. Runs with different samplers, or with different times of a hybrid one, leave different files.", "quantifier": "all command lines of the script that name one solver or one sampler, all solvers and samplers, all files present before the run", "why_tests_cant": "The script has no tests, needs remote samplers, and the claim is about all sample lists and about two runs one after the other.", "anchors": ["wisla_problems.py:96-163"]}
{"id": "C89", "title": "Every run of solve_KO_GLC_problems.py keeps its own file, and the plots show what was stored", "statement": "Runs of solve_KO_GLC_problems.py with different case, category, solver, sampler or time limit (and, for the hybrid samplers, different minimal time) write to different files. A run that fails leaves all files as they are; one that succeeds changes its own file only and stores twelve records, one for each scenario, with the sizes of the scenario's problem and, for a sampler, the objective and feasibility of a real sample of it. fast_plot.py and fast_plot_lim.py find these files under their own names and draw for each scenario the objective in minutes: no green point of a sampler and no point of a solver with a time limit lies below the point of an exact solver. With the repository's tables a run with a sampler that always answers does not fail, and for line 3 the solver's points are the recorded objectives.", "quantifier": "all command lines with a known method, all solvers and samplers, all files present before the run, all lists of up to five minimal times", "why_tests_cant": "There are no tests of the scripts; solvers and samplers are external, and the claim links two programs through the names and contents of files for all their options.", "anchors": ["solve_KO_GLC_problems.py:29-231", "results_KO_GLC/fast_plot.py:11-80", "results_KO_GLC/fast_plot_lim.py:11-94", "railway_solvers/railway_solvers/d_wave_solves.py:71-84"]}
{"id": "C90", "title": "tmin_plot.py shows the runs of solve_real_problem.py and no point below an optimum", "statement": "If the files of a sweep over the minimal time were left by solve_real_problem.py with --solve_quantum cqm, tmin_plot.py finds them. It stops at its assertion exactly if a stored sample is not feasible. Otherwise it shows for each minimal time the mean of the objectives in minutes, which lies between the least and the largest of them; both of these are objectives of feasible solutions, so no point lies below an optimum of the problem. If all stored samples are optimal, mean and envelope are one line at the optimum. With the repository's tables and a constrained solver that reaches an optimum each time, the sweep and the plot together give this line, and it is not above the best objective recorded in the repository (209.5 and 206.5 minutes), which belongs to a feasible solution of the model.", "quantifier": "networks 7 and 9, all lists of minimal times, all numbers of runs, all samplers, all other files", "why_tests_cant": "There are no tests of the plots; the sampler is remote and random, and the claim links two programs through files for all samples it may return.", "anchors": ["solutions_quantum/tmin_plot.py:13-64", "solve_real_problem.py:268-301", "solutions_quantum/cqm20_case7_Integer.pkl", "solutions_quantum/cqm15_case9_Integer.pkl"]}
{"id": "C91", "title": "The replaced lookup of blocks between stations gives what the new one gives", "statement": "For a timetable whose stations agree with the file of stations and that has one row per station, get_blocks_b2win_station4train_deprecable returns what get_blocks_b2win_station4train returns: the blocks strictly between the two stations; an empty list and True if the train comes to them in the other order; an empty list and None if it does not come to one of them. get_block_speed returns the speed in the first row of the block and fails exactly for blocks the train does not use.", "quantifier": "all timetables with one row per station, all pairs of stations", "why_tests_cant": "The two functions walk over the timetable in different ways (by the station column, by the blocks of the stations); that they agree is a claim over all timetables, and the replaced one has no test.", "anchors": ["data_formatting/data_formatting/utils.py:162-183 get_blocks_b2win_station4train", "data_formatting/data_formatting/utils.py:187-229 get_blocks_b2win_station4train_deprecable", "data_formatting/data_formatting/utils.py:303-304 get_block_speed"]}
{"id": "C92", "title": "The scripts for diagrams show the run that was asked for", "statement": "For every file of schedules that solve_real_problem.py writes, echo_gnuplot_file.py draws and read_quantum_pickle.py lists the realisation asked for: the plan of that stored answer, or the plan an exact solver left; a realisation that is not in the file is refused; and the listing shows each train with and without conflicts, as README.org says.", "quantifier": "all command lines and files left by solve_real_problem.py, all realisations, segments and chosen trains", "why_tests_cant": "The scripts have no tests; which part of a file they read depends on the letters of its name, and the statuses are plain strings.", "anchors": ["solutions_quantum/data4diagrams/echo_gnuplot_file.py:39-137", "solutions_quantum/data4diagrams/read_quantum_pickle.py", "solutions_quantum/data4diagrams/train_utils.py:29-49", "solve_real_problem.py:243-303"]}
{"id": "C93", "title": "The statistics of delays are those of the runs in the file of the case", "statement": "When visualise_statistics.py ends, it has printed for each of the ten cases and each of the stations KO(STM), KO, CB, KL, MJ the maximum, the 0.75 quantile, the mean, the 0.25 quantile and the minimum of the secondary delays of all runs in the file of that case and of no other file, first for the hybrid solver and then for the classical one. It saves figures for the cases 0, 4 and 7 only, whose bars reach from the minimum to the maximum. It ends exactly if all twenty files are there and each gives a delay at each of the five stations. What an answer stored by solve_real_problem.py, or the plan an exact solver left, gives as a delay is among the delays the numbers are made of. All delays of such answers lie between 0 and 40, so no bar of a figure leaves its axis from -2 to 60.", "quantifier": "all files in the directory; all runs of solve_real_problem.py that leave such a file", "why_tests_cant": "The script has no tests and cannot be imported without its files; the delays of a case are collected in a dictionary that grows over the runs and must start empty for each case, and plot_stats reads global variables.", "anchors": ["solutions_quantum/data4diagrams/visualise_statistics.py:7-88", "solve_real_problem.py:243-303"]}
