{
 "claims": [
  {
   "property": "C01",
   "status": "proved",
   "theorems": [
    "C01_headway"
   ],
   "note": ""
  },
  {
   "property": "C02",
   "status": "proved",
   "theorems": [
    "C02_single_line"
   ],
   "note": ""
  },
  {
   "property": "C03",
   "status": "proved",
   "theorems": [
    "C03_minimal_stay"
   ],
   "note": ""
  },
  {
   "property": "C04",
   "status": "partial",
   "theorems": [
    "C04_station_track_partial",
    "C04_substring_refuted"
   ],
   "note": "The full claim is false of the code: the skip test is a substring test, so a train skipping KO(STM) loses the rule at KO (C04_substring_refuted). Proved for every pair whose name test does not hit this."
  },
  {
   "property": "C05",
   "status": "proved",
   "theorems": [
    "C05_switches"
   ],
   "note": ""
  },
  {
   "property": "C06",
   "status": "proved",
   "theorems": [
    "C06_circulation"
   ],
   "note": ""
  },
  {
   "property": "C07",
   "status": "proved",
   "theorems": [
    "C07_departure_bounds"
   ],
   "note": ""
  },
  {
   "property": "C08",
   "status": "proved",
   "theorems": [
    "C08_one_decision",
    "C08_decision_exists"
   ],
   "note": ""
  },
  {
   "property": "C09",
   "status": "partial",
   "theorems": [
    "C09_complete_partial",
    "C09_starting_train_refuted"
   ],
   "note": "False as stated: keep_trains_order also equates orders when the other train only starts at the station, which can make a problem with a conflict-free on-time plan infeasible (C09_starting_train_refuted). Proved for all plans that respect this extra rule."
  },
  {
   "property": "C10",
   "status": "proved",
   "theorems": [
    "C10_same_optimum"
   ],
   "note": ""
  },
  {
   "property": "C11",
   "status": "proved",
   "theorems": [
    "C11_larger_dmax"
   ],
   "note": "Variables that occur only in the larger problem take the value 0."
  },
  {
   "property": "C12",
   "status": "proved",
   "theorems": [
    "C12_moved_reference"
   ],
   "note": ""
  },
  {
   "property": "C13",
   "status": "proved",
   "theorems": [
    "C13_delay_variables"
   ],
   "note": ""
  },
  {
   "property": "C14",
   "status": "proved",
   "theorems": [
    "C14_objective",
    "C14_zero_bound"
   ],
   "note": ""
  },
  {
   "property": "C15",
   "status": "proved",
   "theorems": [
    "C15_earliest_departures"
   ],
   "note": "A station with its own initial condition is taken from there, not from the run before; the specification 'respects' says so."
  },
  {
   "property": "C18",
   "status": "partial",
   "theorems": [
    "C18_reported_times_partial",
    "C18_replaced_characters_refuted"
   ],
   "note": "False for identifiers with characters PuLP replaces: the lookup by the unreplaced name finds nothing and (0,0,0) is reported (C18_replaced_characters_refuted). Proved for plain identifiers."
  },
  {
   "property": "C19",
   "status": "proved",
   "theorems": [
    "C19_names_differ"
   ],
   "note": ""
  },
  {
   "property": "C20",
   "status": "proved",
   "theorems": [
    "C20_symmetric"
   ],
   "note": ""
  },
  {
   "property": "C21",
   "status": "proved",
   "theorems": [
    "C21_turnarounds"
   ],
   "note": ""
  },
  {
   "property": "C22",
   "status": "proved",
   "theorems": [
    "C22_neighbours"
   ],
   "note": ""
  },
  {
   "property": "C23",
   "status": "proved",
   "theorems": [
    "C23_nested_update"
   ],
   "note": ""
  },
  {
   "property": "C53",
   "status": "partial",
   "theorems": [
    "C53_no_overtaking_partial",
    "C53_entering_order",
    "C53_listing_order_refuted"
   ],
   "note": "False if the input lists the pair in Jd in the other order than in Jtrack (C53_listing_order_refuted). The line part is proved for inputs that list the two trains in one order everywhere, the switch part whenever the line of the first listed train carries a headway entry."
  },
  {
   "property": "C16",
   "status": "proved",
   "theorems": [
    "C16_rule_names"
   ],
   "note": ""
  },
  {
   "property": "C17",
   "status": "proved",
   "theorems": [
    "C17_builds",
    "C17_station_p_refuted",
    "C17_order_refuted",
    "C17_twice_refuted",
    "C17_zero_refuted",
    "C17_continuation_refuted"
   ],
   "note": "The _refuted theorems show that the naming, order, repetition, continuation and nonzero conditions of well-formedness are needed."
  },
  {
   "property": "C24",
   "status": "proved",
   "theorems": [
    "C24_encoding"
   ],
   "note": ""
  },
  {
   "property": "C25",
   "status": "proved",
   "theorems": [
    "C25_energy",
    "created_conditions"
   ],
   "note": "created_conditions shows that problems built by create_linear_problem meet the conditions of C25_energy."
  },
  {
   "property": "C26",
   "status": "proved",
   "theorems": [
    "C26_ground_state",
    "C26_created"
   ],
   "note": ""
  },
  {
   "property": "C27",
   "status": "proved",
   "theorems": [
    "C27_zero_penalty",
    "created_conditions"
   ],
   "note": ""
  },
  {
   "property": "C29",
   "status": "proved",
   "theorems": [
    "C29_decoding"
   ],
   "note": ""
  },
  {
   "property": "C54",
   "status": "partial",
   "theorems": [
    "C54_exact_partial",
    "C54_turnarounds",
    "C54_refused_exactly",
    "C54_refused_refuted",
    "C54_fractional_refuted"
   ],
   "note": "False as stated in two ways: a rule that leaves no slack room is refused although a feasible plan exists (C54_refused_refuted), and with times that are not whole minutes no positive penalties make the ground state feasible (C54_fractional_refuted). Proved, with an exact acceptance condition, for whole-minute times; if initial conditions are given at starting stations only, a problem that has a plan is refused exactly if a turnaround needs the whole largest delay to the minute (C54_refused_exactly)."
  },
  {
   "property": "C28",
   "status": "proved",
   "theorems": [
    "C28_same_problem",
    "C28_created",
    "C28_total"
   ],
   "note": ""
  },
  {
   "property": "C30",
   "status": "proved",
   "theorems": [
    "C30_report"
   ],
   "note": ""
  },
  {
   "property": "C31",
   "status": "proved",
   "theorems": [
    "C31_results"
   ],
   "note": ""
  },
  {
   "property": "C32",
   "status": "proved",
   "theorems": [
    "C32_best"
   ],
   "note": ""
  },
  {
   "property": "C33",
   "status": "proved",
   "theorems": [
    "C33_in_range",
    "C33_feasible_flag",
    "C33_solution"
   ],
   "note": "conflict_free has the statements of C01-C07; for station tracks the restricted one of C04."
  },
  {
   "property": "C34",
   "status": "proved",
   "theorems": [
    "C34_counts"
   ],
   "note": ""
  },
  {
   "property": "C50",
   "status": "partial",
   "theorems": [
    "C50_counts_partial",
    "C50_checked_partial",
    "C50_train_refuted"
   ],
   "note": "False for trains whose name ends in y or z: the substring test counts their delay variables as order variables (C50_train_refuted). Proved for all other plain names."
  },
  {
   "property": "C35",
   "status": "partial",
   "theorems": [
    "C35_round_trip_partial",
    "C35_last",
    "C35_repeated_refuted"
   ],
   "note": "False if a number occurs twice in the file: the earlier train is lost (C35_repeated_refuted; C35_last says exactly what is read). Proved for files with different numbers."
  },
  {
   "property": "C47",
   "status": "proved",
   "theorems": [
    "C47_skip",
    "C47_last_of_path",
    "C47_total"
   ],
   "note": ""
  },
  {
   "property": "C48",
   "status": "partial",
   "theorems": [
    "C48_direction_partial",
    "C48_accepted",
    "C48_unknown_pair",
    "C48_two_rows_refuted"
   ],
   "note": "False if the network table has a row for each direction of a pair, even with agreeing times: the first row is read in the column found in the second (C48_two_rows_refuted). Proved for tables with one row per pair, as in data/network_paths.ods."
  },
  {
   "property": "C49",
   "status": "partial",
   "theorems": [
    "C49_known_blocks_partial",
    "C49_refuted"
   ],
   "note": "False as stated: a path that jumps between two known blocks is accepted (C49_refuted). Proved: the check accepts exactly the paths whose blocks all occur in the table, hence every continuous path, and fails only for discontinuous ones."
  },
  {
   "property": "C51",
   "status": "partial",
   "theorems": [
    "C51_common_partial",
    "C51_consecutive_refuted",
    "C51_complete_refuted",
    "C51_sublist_partial"
   ],
   "note": "False as stated: pieces need not be consecutive in the second list (C51_consecutive_refuted) and a common run followed by another block is dropped (C51_complete_refuted). Proved: the pieces are common elements in order, a first part of all of them, and all of them if the first list ends with a common element."
  },
  {
   "property": "C52",
   "status": "proved",
   "theorems": [
    "C52_trains_at_station",
    "C52_paths"
   ],
   "note": ""
  },
  {
   "property": "C39",
   "status": "proved",
   "theorems": [
    "C39_groups",
    "C39_entries"
   ],
   "note": ""
  },
  {
   "property": "C40",
   "status": "partial",
   "theorems": [
    "C40_opposing_partial",
    "C40_exact",
    "C40_once",
    "C40_ending_refuted"
   ],
   "note": "False as stated: two trains that each end at the far station are not listed although they run against each other (C40_ending_refuted). Proved: all listed pairs are opposing, no pair of stations is listed in both directions, and every opposing pair in which neither train ends at the far station is listed; C40_exact says exactly which pairs are."
  },
  {
   "property": "C41",
   "status": "partial",
   "theorems": [
    "C41_groups_partial",
    "C41_order",
    "C41_common_refuted"
   ],
   "note": "Two trains of a group need not share a block: each is only compared with the first of the group (C41_common_refuted). Proved: termination, every leaving train is in a group, no other train is, and the blocks of each member belong to the blocks of the first member."
  },
  {
   "property": "C42",
   "status": "partial",
   "theorems": [
    "C42_switches_partial",
    "C42_runs",
    "C42_beyond_refuted"
   ],
   "note": "Movements on the line side of a train's first and last station are not looked at, so a conflict with a train going on from its last station is missed (C42_beyond_refuted). Proved for all other movements, exactly and without repetition, for network tables with one row per pair and trains with one row per station; C42_runs: no failure if all cells are readable."
  },
  {
   "property": "C43",
   "status": "partial",
   "theorems": [
    "C43_placed_partial",
    "C43_stale_refuted"
   ],
   "note": "False if some pair does not meet: it is put at the station of the pair before it (C43_stale_refuted; the source names sys.exit without calling it). Proved when every pair meets on a block of a station."
  },
  {
   "property": "C55",
   "status": "partial",
   "theorems": [
    "C55_grouped_partial",
    "C55_longer_refuted"
   ],
   "note": "False: if the train listed later uses more blocks than the one listed first they get separate groups (C55_longer_refuted). Proved when the blocks of the later one belong to those of the earlier one."
  },
  {
   "property": "C36",
   "status": "partial",
   "theorems": [
    "C36_pass_partial",
    "C36_stop_partial",
    "C36_split_partial",
    "C36_table_partial",
    "C36_double_refuted"
   ],
   "note": "False for stations with several rows in a timetable: blocks of the station itself are counted both in the run and in the stop (C36_double_refuted). Proved, with the whole table of get_taus_pass and the loss-free split into stops and runs, for timetables with one row per station, as in the repository's data."
  },
  {
   "property": "C37",
   "status": "proved",
   "theorems": [
    "C37_headway",
    "C37_table",
    "C37_rounding"
   ],
   "note": "C37_rounding is the case in which rounding gives an unsafe value."
  },
  {
   "property": "C38",
   "status": "partial",
   "theorems": [
    "C38_tables_partial",
    "C38_first",
    "C38_lost_refuted"
   ],
   "note": "False: the flag for the first station is never reset, so at intermediate stations the turnaround time is not part of the stop (C38_lost_refuted). Proved: what both tables have exactly, and that preparation times at first stations are right."
  },
  {
   "property": "C44",
   "status": "proved",
   "theorems": [
    "C44_difference",
    "C44_refused",
    "C44_laws",
    "C44_schedule",
    "C44_shift",
    "C44_initial"
   ],
   "note": ""
  },
  {
   "property": "C45",
   "status": "partial",
   "theorems": [
    "C45_digits",
    "C45_delay_partial",
    "C45_other_refuted"
   ],
   "note": "False: trains whose number ends with the digits of the delayed one are delayed too (C45_other_refuted; C45_digits says exactly which). Proved if there are no such trains."
  },
  {
   "property": "C46",
   "status": "partial",
   "theorems": [
    "C46_weights_partial",
    "C46_passenger_refuted"
   ],
   "note": "False: a train whose number without the last digit is that of a train with an empty stock movement gets the weight of empty stock (C46_passenger_refuted). Proved if the train numbers have no such coincidence."
  },
  {
   "property": "C57",
   "status": "partial",
   "theorems": [
    "C57_following_partial",
    "C57_rounded_partial",
    "C57_longer_refuted",
    "C57_rounding_refuted"
   ],
   "note": "Proved for trains over the same blocks: never together with whole-minute times, and for at most half a minute with any times."
  },
  {
   "property": "C58",
   "status": "partial",
   "theorems": [
    "C58_opposing_partial",
    "C58_rounded_partial",
    "C58_ending_refuted"
   ],
   "note": "Proved if neither train ends at its far station, or the pair is listed for another reason, or the trains use common switches at both ends (C58_rounded_partial, up to half a minute of rounding)."
  },
  {
   "property": "C59",
   "status": "partial",
   "theorems": [
    "C59_tracks_partial",
    "C59_ending_refuted"
   ],
   "note": "Proved if the name of the station is not part of the name of the last station of either train."
  },
  {
   "property": "C60",
   "status": "partial",
   "theorems": [
    "C60_switches_partial",
    "C60_beyond_refuted"
   ],
   "note": "Movements on the line side of a first or last station are not counted, see C42."
  },
  {
   "property": "C61",
   "status": "partial",
   "theorems": [
    "C61_turnarounds_partial",
    "C61_both_refuted"
   ],
   "note": "Proved if the pair meets in one direction only."
  },
  {
   "property": "C62",
   "status": "proved",
   "theorems": [
    "C62_names"
   ],
   "note": ""
  },
  {
   "property": "C63",
   "status": "proved",
   "theorems": [
    "C63_parts",
    "C63_size"
   ],
   "note": ""
  },
  {
   "property": "C64",
   "status": "proved",
   "theorems": [
    "C64_reverse",
    "C64_same_stations",
    "C64_common",
    "C64_from_blocks",
    "C64_times"
   ],
   "note": ""
  },
  {
   "property": "C65",
   "status": "partial",
   "theorems": [
    "C65_direction_partial",
    "C65_missing_refuted"
   ],
   "note": "The direction is right. The common blocks are complete only if the last block of the first train before the second station is common (C65_missing_refuted)."
  },
  {
   "property": "C66",
   "status": "partial",
   "theorems": [
    "C66_delays_partial",
    "C66_reached",
    "C66_ignored",
    "C66_real",
    "C66_other_refuted",
    "C66_glc_refuted",
    "C66_real_refuted"
   ],
   "note": "False: a delay also counts for every train whose number ends with the digits of the named one, and is ignored if no train has that number. C66_reached says exactly what each train gets; proved as stated if no other number ends with that of a delayed train. Of the scenarios in the repository, C66_glc_refuted and C66_real_refuted name the trains concerned."
  },
  {
   "property": "C67",
   "status": "partial",
   "theorems": [
    "C67_printed_partial",
    "C67_prints",
    "C67_prints_well_formed",
    "C67_turnaround_refuted",
    "C67_cut_refuted"
   ],
   "note": "Proved for whole minutes and stations where the problem has a variable for the departure. False elsewhere: a train that turns around is printed as leaving at the reference time, and values are cut, not rounded."
  },
  {
   "property": "C56",
   "status": "partial",
   "theorems": [
    "C56_builds_partial",
    "C56_groups_refuted"
   ],
   "note": "Proved if of two trains between the same stations none uses only some of the blocks of the other one. Without that, two trains can be listed together in two groups, and PuLP refuses the second constraint of the same name (C56_groups_refuted)."
  },
  {
   "property": "C68",
   "status": "proved",
   "theorems": [
    "C68_read",
    "C68_accepted",
    "C68_tidy"
   ],
   "note": ""
  },
  {
   "property": "C69",
   "status": "proved",
   "theorems": [
    "C69_shipped"
   ],
   "note": "The tables are copied into RealData.v by a script; that conditions of C56 hold of them is computed, the quantifier over scenarios is by C56."
  },
  {
   "property": "C70",
   "status": "proved",
   "theorems": [
    "C70_switches_at_both_ends"
   ],
   "note": ""
  },
  {
   "property": "C71",
   "status": "proved",
   "theorems": [
    "C71_shipped_lines",
    "C71_shipped_switches",
    "C71_half_minute_needed"
   ],
   "note": "For the copies of the tables in RealData.v; that trains share lines only in ways C57 and C58 cover is computed, the quantifiers over scenarios and solutions are by C57, C58 and C60. C71_half_minute_needed: a recorded solution has two trains on one block for 2/5 of a minute."
  },
  {
   "property": "C72",
   "status": "partial",
   "theorems": [
    "C72_shipped_tracks_partial",
    "C72_recorded_refuted"
   ],
   "note": "False as stated: in the recorded, optimal solution of case 0 two trains are on track 2 of KO at the same time (C72_recorded_refuted). Proved for stations whose names are not part of the names of the trains' last stations, outside of the stations and depot tracks that the code leaves out."
  },
  {
   "property": "C73",
   "status": "partial",
   "theorems": [
    "C73_wisla_partial",
    "C73_wisla_refuted"
   ],
   "note": "False for the section from 10 to 5: a misplaced brace in the input drops its headway rule, and a feasible solution lets two trains leave 10 together (C73_wisla_refuted). Proved for all other sections, for all opposing trains and for the turnaround."
  },
  {
   "property": "C74",
   "status": "partial",
   "theorems": [
    "C74_drawn_path_partial",
    "C74_points",
    "C74_labels",
    "C74_choice",
    "C74_midnight_refuted"
   ],
   "note": "False past midnight: only hours and minutes are printed, so the drawn times go back (C74_midnight_refuted). Proved for whole minutes, running times and stops that are not negative, and trains whose departures are decided at all stations but a last one that is left out."
  },
  {
   "property": "C75",
   "status": "partial",
   "theorems": [
    "C75_kilometres_partial",
    "C75_kilometres_refuted",
    "C75_route_on_lines_refuted"
   ],
   "note": "False for the segment 137139GLYTy, whose distances behind Katowice are wrong by up to 39 km; proved for the two other segments, on one up to 10 metres, and for this one up to Katowice Bryn\u00f3w. route_on_lines raises a NameError for every route."
  },
  {
   "property": "C76",
   "status": "proved",
   "theorems": [
    "C76_collected",
    "C76_statistics"
   ],
   "note": ""
  },
  {
   "property": "C77",
   "status": "proved",
   "theorems": [
    "C77_way",
    "C77_timetable",
    "C77_shipped",
    "C77_rounding_refuted"
   ],
   "note": "C77_rounding_refuted shows that the minute lost by rounding is real: without whole minutes a train can be given less time than its blocks need."
  },
  {
   "property": "C78",
   "status": "proved",
   "theorems": [
    "C78_latest",
    "C77_shipped"
   ],
   "note": ""
  },
  {
   "property": "C79",
   "status": "proved",
   "theorems": [
    "C79_records",
    "C79_sizes",
    "C79_scenarios",
    "C79_shipped"
   ],
   "note": ""
  },
  {
   "property": "C80",
   "status": "partial",
   "theorems": [
    "C80_above_partial",
    "C79_records",
    "C80_flag_refuted"
   ],
   "note": "A run with a PuLP solver is recorded as feasible whatever the solver found (C80_flag_refuted: a problem without any solution). Proved for quantum runs (C79_records), and the comparison for solvers that find an optimum whenever they leave values."
  },
  {
   "property": "C81",
   "status": "partial",
   "theorems": [
    "C81_penalty_partial",
    "C81_turnarounds_partial",
    "C81_cheap_plan",
    "C81_lines_partial",
    "C81_default_refuted"
   ],
   "note": "Proved for penalties above 7/4 times the number of trains (the largest possible objective), and if no turnaround needs the whole largest delay (else the conversion fails, C81_turnarounds_partial). False for the penalties the scripts use by themselves: C81_default_refuted has tables of three trains where no penalty below 273/80, so neither 1 nor 2.5, gives a ground state that keeps the rules although a plan exists. One feasible plan cheaper than the penalty is enough (C81_cheap_plan), so the penalty 2.5 of solve_KO_GLC_problems.py is large enough in all 12 scenarios of line 3 (C81_lines_partial); for lines 1 and 2 this is not proved."
  },
  {
   "property": "C82",
   "status": "proved",
   "theorems": [
    "C82_same_optimum",
    "C82_turn_refuted"
   ],
   "note": ""
  },
  {
   "property": "C83",
   "status": "partial",
   "theorems": [
    "C83_optima_partial",
    "C83_reproduced_partial"
   ],
   "note": "Sizes and least objectives in the 12 scenarios of line 3. Missing: lines 1 and 2, whose problems are about three times as large. The same check of line 1 passed in Coq's virtual machine with certificates found in the same way, but checking one of its scenarios again with coqchk takes 5 minutes and 10 GB, so it is not part of the development. For line 2 no certificate of the least objectives was found."
  },
  {
   "property": "C84",
   "status": "partial",
   "theorems": [
    "C84_refused_partial",
    "C84_first_refuted"
   ],
   "note": "The assertion of utils.py:360 only looks at the second station: a first station that is not visited, or comes later, gives the time 0 instead of an error. Proved: it is refused exactly if the first name is empty or the second station is not visited, and no other error occurs."
  },
  {
   "property": "C85",
   "status": "proved",
   "theorems": [
    "C85_files_apart",
    "C85_refused",
    "C85_stored",
    "C85_shown",
    "C85_lp_shown",
    "C85_answers",
    "C85_repository",
    "C85_hyb_refuted"
   ],
   "note": "The method 'hyb' named in the help text of --solve_quantum is refused (C85_hyb_refuted); the accepted name is 'bqm'."
  },
  {
   "property": "C86",
   "status": "proved",
   "theorems": [
    "C86_accepted",
    "C86_glc_accepted",
    "C86_script",
    "C86_answers",
    "C86_not_before",
    "C86_late",
    "C86_refused"
   ],
   "note": "C86_refused: if train 34319 is 36 minutes late the problem with largest delay 40 is refused, so the condition on the turnarounds is needed."
  },
  {
   "property": "C87",
   "status": "proved",
   "theorems": [
    "C87_qubo",
    "C87_cqm",
    "C87_tables",
    "C87_script",
    "C87_script_cqm",
    "C87_cqm_exhaustive",
    "C87_exhaustive",
    "C87_line3"
   ],
   "note": "C87_exhaustive: a sampler that tries every assignment meets the hypotheses. The CQM part asks for plain names of trains and stations (SpecNames.plain_names), as the tables have (C69)."
  },
  {
   "property": "C88",
   "status": "proved",
   "theorems": [
    "C88_penalties",
    "C88_stored",
    "C88_shown",
    "C88_lp_shown",
    "C88_files_apart"
   ],
   "note": "The optimum of the script's problem is 0.54 (C73)."
  },
  {
   "property": "C89",
   "status": "proved",
   "theorems": [
    "C89_files_apart",
    "C89_stored",
    "C89_drawn",
    "C89_limited",
    "C89_answers",
    "C89_line3"
   ],
   "note": "C89_files_apart asks that no solver's name contains _ilp_t_lim, the text that separates the time limit; no PuLP solver has such a name."
  },
  {
   "property": "C90",
   "status": "proved",
   "theorems": [
    "C90_sweep",
    "C90_reached",
    "C90_flat",
    "C90_recorded",
    "C90_below"
   ],
   "note": "The line drawn for CPLEX is a constant of the script; that it is the optimum of these two problems is not shown. C90_case: sweeps of both networks with the repository's tables; C90_drawn_case: a sweep that is drawn and one that is refused; C90_below_case: a sampler that meets the conditions of C90_below."
  },
  {
   "property": "C91",
   "status": "proved",
   "theorems": [
    "C91_old_blocks",
    "C91_two_blocks_refuted",
    "C91_speed"
   ],
   "note": "C91_two_blocks_refuted: with two rows at the second station the functions differ, so the condition of one row per station is needed; the tables of the repository meet it (C69)."
  },
  {
   "property": "C92",
   "status": "partial",
   "theorems": [
    "C92_realisation_partial",
    "C92_exact",
    "C92_listing_partial",
    "C92_missing_refuted",
    "C92_qubo_refuted",
    "C92_conflicted_refuted"
   ],
   "note": "False as a whole: a missing realisation is drawn as the first one (C92_missing_refuted), files of the samplers for QUBOs cannot be drawn (C92_qubo_refuted), and the listing shows the path of the solution under both statuses because one of them is misspelt (C92_conflicted_refuted). Proved for files of the constrained solver and of exact solvers, and what the listing does show."
  },
  {
   "property": "C93",
   "status": "proved",
   "theorems": [
    "C93_statistics",
    "C93_ends",
    "C93_runs",
    "C93_exact",
    "C93_axis"
   ],
   "note": "The five numbers are specified by summary in PropsDiagrams (C76)."
  }
 ]
}