# Design of the formal model

Subject: `/repo` (iitis/railways_dispatching_silesia), Python code that reads timetables and a
network table, builds an integer linear program (ILP) for train dispatching, converts it to a
constrained quadratic model (CQM) or a QUBO, and reads plans from solutions and samples.
The model is written in Rocq (Coq 8.16.1), in `rocq/theories`; the claims are in
`properties.jsonl`, the theorems for each claim in `MANIFEST.json` and in section 4 below.

## 1. Modelling conventions

* **Function by function.** Each modelled Python function is one Gallina function (or a few, for
  nested loops) with the same branches, in the same order. The comment of each definition cites the
  `/repo` file and lines and says where it simplifies.
* **Exceptions are values.** `res A := Ok a | Err e`, with one constructor per kind of exception.
  A Python loop that may raise is `foldM`; reachable error paths have no default values.
* **Identifiers in the solver.** Trains and stations are Python atoms
  `pv := PNone | PInt Z | PStr string`, so `1` and `"1"` are different dictionary keys that print
  the same in f-strings. In the data formatting part trains are `Z` and stations and blocks
  `string`; `Pipeline.v` embeds these into `pv`.
* **Dictionaries** are association lists in insertion order with Python's update semantics.
* **Strings.** Keys such as `f"{j}_{s}"` are built and looked up literally. Strings are byte strings.
* **Numbers.** Times, weights and coefficients are exact rationals `Q`. Python floats are idealised
  (no rounding error, no overflow). `-inf` is modelled by absence.
* **Tables.** A pandas DataFrame is the list of its rows; an empty cell is `None`; the index is the
  position. A pickle file is the value it holds, under the name of the file (in the models of the scripts); the format of the
  files and printing to the terminal are not modelled.
* **Solvers and samplers are oracles.** Theorems quantify over every feasible assignment or every
  sample, never over what one solver returns.
* **Specifications apart from the model.** The `Spec*.v` files say what is claimed in their own
  vocabulary (paths as lists of stations, departures as numbers, blocks occupied from one time to
  another). They use the types of the model and a few readers of the input data (see section 5),
  not its functions.
* **Claims that are false.** If a claim does not hold of the code, a theorem with suffix `_refuted`
  gives an input for which it fails, and a theorem with suffix `_partial` proves the largest part
  found. Both carry the number of the claim.

## 2. Trusted base

* **Coq's kernel** (8.16.1, `vm_compute` included), with all checks on.
* **Axioms: none.** Every theorem named in `MANIFEST.json` is followed by `Print Assumptions`, and
  each prints `Closed under the global context`. The standard library files loaded (through
  `Lqa`, `Lia` and the ssreflect plugin) contain seven constants of `Coq.ssr.ssrunder.Under_rel`
  (`Under_rel`, `Over_rel`, `Under_relE`, `Under_rel_from_rel`, `over_rel`, `over_rel_done`,
  `under_rel_done`) that the checker lists as loaded; they are sealed by a module type of the
  standard library, and no theorem here depends on them.
* **That the model is the code.** The model was written by reading `/repo`, which was neither
  run nor changed. It is checked by review, by the seeded bugs in `seeded/LOG.jsonl` (a bug put
  into the model must break a theorem), and against the results that the repository keeps of its own
  runs: `tools/compare.py` makes Coq compute the problem of the model from the copied tables
  (`RealData.v`) and compares it with every recorded sample of `solutions_quantum/cqm*_case*_Integer.pkl`
  (cases 0 to 9) and of case 3 of `results_KO_GLC` (12 scenarios, with infeasible samples of simulated annealing).
  In all 176 of them the names of all constraints (in order) and of all variables, which constraints the sample
  satisfies, and the objective are the same in the model and in the record. Of the 108 recorded runs of ILP
  solvers (`results_KO_GLC`, 3 cases with 12 scenarios each) only numbers are kept: the numbers of order
  variables, delay variables and constraints are those of the model in all of them, and the recorded objectives of line 3 are the least ones (for line 3 both are theorems, see C83). `tools/printed.py`
  compares the printed schedules: all 62 kept in the directories `data4diagrams` (cases 0 to 9 and Wisla, hybrid and
  ILP solvers) are, in every entry, those the model prints for the recorded values. This covers the way from the
  tables to the ILP and from a sample to the schedule, not the QUBO.
  The unit tests of the repository hold of the model too: `RepoTests.v` has the assertions of
  `data_formatting/test`, `RepoSolver.v` those of `test_helpers.py`, `test_linear_solver.py` and
  `test_linear_solver_large.py`, where for each test an assignment with the asserted values is shown
  optimal for the problem of the model by a certificate (`Optimum.v`). These comparisons are evidence, not
  part of any proof.
* **Python.** Truthiness, slicing, string methods, `sorted` (stable), `itertools.combinations`,
  dictionary order, and integer division are modelled as documented.
* **Dependencies, modelled from their documentation and not from their source:**
  * PuLP 2.5.1 (`Pulp.v`): variables with identity, replaced characters in names, affine
    expressions, constraints in an ordered dictionary by name with duplicates refused, `variables()`
    as the variables that occur in the objective or a constraint, the dictionary form of a problem.
  * PyQUBO 1.3.1 (`Converters.v`): the logarithmic encoding `LogEncInteger`, energies of compiled
    expressions, decoding of samples.
  * dimod 0.12.3 (`Converters.v`, `Results.v`): constrained models, sample sets with energies and
    numbers of occurrences.
  * pandas and numpy (`DataTables.v`): boolean selection, `isna`, `astype`, `round` (half to even),
    `to_datetime` for `HH:MM` texts.

## 3. What is modelled

| file of `/repo` | model | remarks |
|---|---|---|
| `railway_solvers/railway_solvers/helpers_functions.py` | `Helpers.v` | all |
| `railway_solvers/railway_solvers/linear_solver.py` | `LinearSolver.v` | all but `solve_linear_problem`, which only calls the solver |
| `railway_solvers/railway_solvers/converter_bqm.py` | `Converters.v` | all |
| `railway_solvers/railway_solvers/converter_cqm.py` | `Converters.v` | all |
| `railway_solvers/railway_solvers/results_manipulation.py` | `Results.v` | all |
| `railway_solvers/railway_solvers/d_wave_solves.py` | not modelled | calls of remote samplers |
| `data_formatting/data_formatting/time_table_check.py` | `DataTables.v` | without the pickle file |
| `data_formatting/data_formatting/utils.py` | `DataTables.v`, `OldBlocks.v` | without `blocks_list_4station_depr` (every call raises a `TypeError`: it calls `train_time_table` with one parameter); lines 433-497 are a second, not exported copy of `scheduling_tools.py`, for which the model of that file stands |
| `data_formatting/data_formatting/new_time_tables.py` | `DataTables.v` | all |
| `data_formatting/data_formatting/make_switch_set.py` | `DataSets.v` | all |
| `data_formatting/data_formatting/make_J_taus.py` | `DataSets.v`, `DataTimes.v` | all |
| `data_formatting/data_formatting/scheduling_tools.py` | `DataTimes.v` | all |
| `helpers.py` | `Pipeline.v`, `Results.v` | without `load_*` (files) |
| `solve_real_problem.py` | `Pipeline.tables_to_problem`, `Pipeline.real_delays`, `Script` | the whole script from its arguments to the files it leaves; not `argparse`, measured times, printing and the pickle of the timetables |
| `solve_KO_GLC_problems.py` | `Pipeline.glc_3`, `Runs`, `GlcScript` | the whole script from its arguments to its file; not `argparse`, measured times, printing and the pickle format; the tables it reads are in `RealData` |
| `results_KO_GLC/fast_plot.py`, `fast_plot_lim.py` | `SpecRuns.drawn_quantum`, `drawn_lp`, `GlcScript` | the files read and the points of the upper diagram with height and colour; not the times (lower diagram) and the layout |
| `data/*.csv`, `data/network_paths.ods`, `data/important_stations*` | `RealData.v` | copied by a script; `X` in columns of times as missing |
| `solutions_quantum/cqm5_case0_Integer.pkl`, `cqm5_case3_Integer.pkl` | `RecordedRuns.v` | one sample of each, copied by a script |
| `solutions_quantum/cqm20_case7_Integer.pkl`, `cqm15_case9_Integer.pkl` | `RecordedSweeps.v` | one sample of each (the best of its sweep), copied by a script |
| `results_KO_GLC/results_PULP_CBC_CMD__*_Integer.pkl` | `GlcRecords.v` | numbers of variables and constraints, objectives; copied by a script |
| `wisla_problems.py` | `WislaData.v`, `WislaScript` | input and problem (lines 21, 56-101) copied by a script; from the arguments to the files it leaves (lines 94-163), not `argparse`, measured times and printing |
| `solutions_quantum/data4diagrams/train_utils.py`, `railway_lines.py`, `echo_gnuplot_file.py`, `read_quantum_pickle.py` | `Diagrams.v`, `DiagramFiles.v` | times in minutes from a reference day; printed lines as values; capitals of ASCII letters only; not titles, tics, colours and the command line |
| `solutions_quantum/data4diagrams/visualise_statistics.py` | `Diagrams.v`, `Statistics.v` | a figure is its name and the numbers drawn at each station; not colours, labels, titles and limits of axes |
| `solutions_quantum/tmin_plot.py` | `TminPlot` | files read, assertion and the points of the uppermost diagram; not the fit, measured times and layout; `tmin_plot_rev.py` draws the same heights over measured times |
| rest of `results_KO_GLC`, `solutions_quantum` | not modelled | scripts and plots |

Proof files: `BaseFacts`, `TreeFacts`, `HelperFacts`, `SpecFacts` (basics); `Emit` (the problem as a
list of emitted constraints), `Shapes`, `Origin`, `Sound`, `Complete`, `DelayVars`, `OrderVars`,
`Rules`, `Overtake`, `Objective`, `Names`, `ConstraintNames` (the ILP); `Sim`, `Compare` (two runs of
the builder side by side); `Builds`, `BuildNames` (no exceptions); `QuboFacts`, `QuboModel`,
`QuboEncode`, `Qubo`, `Created`, `Integral`, `Accept`, `CqmFacts`, `Interp`, `ResultFacts`
(conversion and results); `TableFacts`, `FileFacts`, `SetFacts`, `TimeFacts` (data formatting);
`EndFacts`, `PropsLines` (from tables to solutions); `FastSwitch`, `LineChecks` (faster or decided versions,
proved right, to run on the tables of the repository); `DiagramFacts` (diagrams and statistics); `RoomFacts` (which rows leave room for a slack), `TurnFacts` (turnarounds with and without delays); `BoundCheck` (a checker of branch-and-bound certificates, proved right), `GlcFacts`, `GlcLine3` (certificates), `GlcCheck3` (their check) for the recorded results. The theorems of the claims are in the `Props*.v` files, each
with a concrete case that meets its hypotheses (`Example C.._case`); larger cases are in
`Examples.v`, `Refute.v`, `RefutePlan.v`, `PropsEndCases.v` and `PropsTotalCases.v`. `RepoTests` and
`RepoSolver` are the repository's unit tests on the model; `Optimum` checks certificates of optimality for them.

## 4. The claims

`p` = proved as stated, `part` = the full claim is false of the code or not fully proved; the column
"how" says what is modelled and how the proof goes, and for partial claims what is missing.

| id | claim | status | theorems | how |
|---|---|---|---|---|
| C01 | Trains following each other keep the headway | p | `C01_headway` | `create_linear_problem` as a whole: the rule of the pair is among the constraints, the order variables of the pair are complementary, case split on the 0/1 value. |
| C02 | No two opposing trains on a single-track line | p | `C02_single_line` | `create_linear_problem` as a whole: the rule of the pair is among the constraints, as C01, with the running times of both trains. |
| C03 | Minimal running and stopping time is respected | p | `C03_minimal_stay` | `create_linear_problem` as a whole: the rule of the pair is among the constraints, and rules that were left out are implied by the bounds of the variables. |
| C04 | One train per station track | part | `C04_station_track_partial`, `C04_substring_refuted` | `create_linear_problem` as a whole: the rule of the pair is among the constraints, with the arrival or the preparation as beginning of the stay. The full claim is false of the code: the skip test is a substring test, so a train skipping KO(STM) loses the rule at KO (C04_substring_refuted). Proved for every pair whose name test does not hit this. |
| C05 | Switches are cleared before the next train | p | `C05_switches` | `create_linear_problem` as a whole: the rule of the pair is among the constraints, for every kind of movement (in/out) of both trains. |
| C06 | Turned-around rolling stock is available before it departs | p | `C06_circulation` | `create_linear_problem` as a whole: the rule of the pair is among the constraints, with and without the continuing train in the pair lists. |
| C07 | Departures stay between the earliest time and d_max after it | p | `C07_departure_bounds` | Delay variables and `earliest_dep_time`: bounds of the variables of the problem. |
| C08 | One order decision per pair of trains and place | p | `C08_one_decision`, `C08_decision_exists` | The nested dictionary of order variables: invariant over the four passes that build it. |
| C09 | Every conflict-free timetable is admitted | part | `C09_complete_partial`, `C09_starting_train_refuted` | Whole problem: an assignment is made from a plan; case analysis over the origin of each constraint. False as stated: keep_trains_order also equates orders when the other train only starts at the station, which can make a problem with a conflict-free on-time plan infeasible (C09_starting_train_refuted). Proved for all plans that respect this extra rule. |
| C10 | Continuous and integer delays give the same optimum on integer data | p | `C10_same_optimum` | Whole problem: all rules are difference constraints with integer constants; rounding down keeps them. |
| C11 | A larger d_max never removes solutions | p | `C11_larger_dmax` | Whole problem: two runs of the builder side by side (`Sim.v`, `Compare.v`). Variables that occur only in the larger problem take the value 0. |
| C12 | The reference time is irrelevant | p | `C12_moved_reference` | Whole problem: two runs of the builder side by side, with constants moved. |
| C13 | A delay variable exists exactly where a departure is decided | p | `C13_delay_variables` | Loops over paths: induction, with the nested dictionary read back. |
| C14 | The objective is the sum of the reported impacts and is bounded | p | `C14_objective`, `C14_zero_bound` | `objective` and `impact_to_objective`: sums over trains and stations. |
| C15 | earliest_dep_time is the least timetable | p | `C15_earliest_departures` | Recursion over paths: induction on the position; least solution. A station with its own initial condition is taken from there, not from the run before; the specification 'respects' says so. |
| C16 | Every constraint gets a name with the prefix of its kind | p | `C16_rule_names` | Names of constraints: each emitted name begins with its rule. |
| C17 | Well-formed input always builds | p | `C17_builds`, `C17_station_p_refuted`, `C17_order_refuted`, `C17_twice_refuted`, `C17_zero_refuted`, `C17_continuation_refuted` | Whole problem: every look-up succeeds and all names differ under `well_formed`; then the names of all emitted constraints are pairwise different. The _refuted theorems show that the naming, order, repetition, continuation and nonzero conditions of well-formedness are needed. |
| C18 | Reported times are delay plus earliest time | part | `C18_reported_times_partial`, `C18_replaced_characters_refuted` | `delay_and_acctual_time`: names are injective on plain identifiers. False for identifiers with characters PuLP replaces: the lookup by the unreplaced name finds nothing and (0,0,0) is reported (C18_replaced_characters_refuted). Proved for plain identifiers. |
| C19 | Different variables have different names | p | `C19_names_differ` | Names of variables: injectivity of joined strings. |
| C20 | Pair predicates are symmetric | p | `C20_symmetric` | Helper predicates: list reasoning. |
| C21 | Turnaround lookups are inverse | p | `C21_turnarounds` | `subsequent_train_at_Jround` and `previous_train_from_Jround`: list reasoning. |
| C22 | Next and previous station are inverse | p | `C22_neighbours` | Next and previous station: positions in a list without repetition. |
| C23 | Merging a variable never loses another | p | `C23_nested_update` | `update_dictofdicts`: induction on the nested dictionary. |
| C24 | Integer encoding covers exactly the range | p | `C24_encoding` | `LogEncInteger`: arithmetic of binary weights, induction on the number of bits. |
| C25 | QUBO energy is objective plus penalties | p | `C25_energy`, `created_conditions` | Compiled QUBO: energy of the expression tree by induction over the constraints. created_conditions shows that problems built by create_linear_problem meet the conditions of C25_energy. |
| C26 | Large enough penalties make the ground state optimal | p | `C26_ground_state`, `C26_created` | Penalties larger than the spread of the objective: comparison of energies. |
| C27 | Every feasible solution has a zero-penalty sample | p | `C27_zero_penalty`, `created_conditions` | Slack values exist for each satisfied rule with integer constants. |
| C28 | CQM has the same feasible set and objective | p | `C28_same_problem`, `C28_created`, `C28_total` | `convert_to_cqm`: constraint by constraint. `C28_total`: each generator of constraints leaves a variable in its expression, so nothing is refused. |
| C29 | Decoding a QUBO sample inverts encoding | p | `C29_decoding` | `interpreter`: bits of the encoding are read back. |
| C30 | Feasibility report is exact | p | `C30_report` | `analyze_constraints`: evaluation of each constraint. |
| C31 | Results are sorted and complete | p | `C31_results` | Sorting of results: permutation and order by insertion. |
| C32 | Best feasible sample is the best | p | `C32_best` | `get_best_feasible_sample`: first feasible entry of a sorted list. |
| C33 | A sample reported feasible is a conflict-free timetable | p | `C33_in_range`, `C33_feasible_flag`, `C33_solution` | Composition of C24, C29, C30 with C01-C07. conflict_free has the statements of C01-C07; for station tracks the restricted one of C04. |
| C34 | Couplings and fields are counted exactly | p | `C34_counts` | Counting of QUBO entries: induction over the table. |
| C35 | Timetable files round-trip | part | `C35_round_trip_partial`, `C35_last`, `C35_repeated_refuted` | Splitting and joining of the timetable file: induction over the rows. False if a number occurs twice in the file: the earlier train is lost (C35_repeated_refuted; C35_last says exactly what is read). Proved for files with different numbers. |
| C36 | Passing times between stations are additive | part | `C36_pass_partial`, `C36_stop_partial`, `C36_split_partial`, `C36_table_partial`, `C36_double_refuted` | `minimal_passing_time`, `minimal_stay`, `get_taus_pass`, `get_taus_stop`: a table is cut at its stations; induction over the rows. False for stations with several rows in a timetable: blocks of the station itself are counted both in the run and in the stop (C36_double_refuted). Proved, with the whole table of get_taus_pass and the loss-free split into stops and runs, for timetables with one row per station, as in the repository's data. |
| C37 | Headway is the least safe separation | p | `C37_headway`, `C37_table`, `C37_rounding` | `get_taus_headway`: maxima over blocks, in terms of the times at which blocks are left. C37_rounding is the case in which rounding gives an unsafe value. |
| C38 | Turnaround time is counted once | part | `C38_tables_partial`, `C38_first`, `C38_lost_refuted` | `get_taus_prep` and `get_taus_stop`: induction over the trains. False: the flag for the first station is never reset, so at intermediate stations the turnaround time is not part of the stop (C38_lost_refuted). Proved: what both tables have exactly, and that preparation times at first stations are right. |
| C39 | Trains sharing a station track are grouped together | p | `C39_groups`, `C39_entries` | `jtrack`: grouping by equal sets of blocks; invariant of the grouping loop. |
| C40 | Opposing trains on common blocks are found | part | `C40_opposing_partial`, `C40_exact`, `C40_once`, `C40_ending_refuted` | `josingle`: blocks of two trains between two stations compared in reverse. False as stated: two trains that each end at the far station are not listed although they run against each other (C40_ending_refuted). Proved: all listed pairs are opposing, no pair of stations is listed in both directions, and every opposing pair in which neither train ends at the far station is listed; C40_exact says exactly which pairs are. |
| C41 | Followers are grouped | part | `C41_groups_partial`, `C41_order`, `C41_common_refuted` | `jd`: termination and invariant of the loop that collects groups. Two trains of a group need not share a block: each is only compared with the first of the group (C41_common_refuted). Proved: termination, every leaving train is in a group, no other train is, and the blocks of each member belong to the blocks of the first member. |
| C42 | Switch conflicts are found and symmetric | part | `C42_switches_partial`, `C42_runs`, `C42_beyond_refuted` | `jswitch`: the switches of each movement from the network table, then all pairs. Movements on the line side of a train's first and last station are not looked at, so a conflict with a train going on from its last station is missed (C42_beyond_refuted). Proved for all other movements, exactly and without repetition, for network tables with one row per pair and trains with one row per station; C42_runs: no failure if all cells are readable. |
| C43 | Turnaround pairs are placed at the turning station | part | `C43_placed_partial`, `C43_stale_refuted` | `get_jround`: loop with a station kept from the round before. False if some pair does not meet: it is put at the station of the pair before it (C43_stale_refuted; the source names sys.exit without calling it). Proved when every pair meets on a block of a station. |
| C44 | Schedule times are differences to the reference time | p | `C44_difference`, `C44_refused`, `C44_laws`, `C44_schedule`, `C44_shift`, `C44_initial` | `get_schedule`, `get_initial_conditions`: minutes from texts HH:MM. |
| C45 | add_delay delays exactly the given train | part | `C45_digits`, `C45_delay_partial`, `C45_other_refuted` | `add_delay`: suffix test on keys. False: trains whose number ends with the digits of the delayed one are delayed too (C45_other_refuted; C45_digits says exactly which). Proved if there are no such trains. |
| C46 | Weights are put on the last decided station | part | `C46_weights_partial`, `C46_passenger_refuted` | `make_weights`: loop over the trains. False: a train whose number without the last digit is that of a train with an empty stock movement gets the weight of empty stock (C46_passenger_refuted). Proved if the train numbers have no such coincidence. |
| C47 | Skipped station is the end of the path | p | `C47_skip`, `C47_last_of_path`, `C47_total` | `get_skip_stations`: last rows of the timetables. |
| C48 | Passing times are read for the right direction | part | `C48_direction_partial`, `C48_accepted`, `C48_unknown_pair`, `C48_two_rows_refuted` | `get_path_type_colunm`, `get_passing_time_block`: look-up in one of two columns. False if the network table has a row for each direction of a pair, even with agreeing times: the first row is read in the column found in the second (C48_two_rows_refuted). Proved for tables with one row per pair, as in data/network_paths.ods. |
| C49 | Discontinuous paths are rejected | part | `C49_known_blocks_partial`, `C49_refuted` | `check_path_continuity`: look-up of each pair of neighbours. False as stated: a path that jumps between two known blocks is accepted (C49_refuted). Proved: the check accepts exactly the paths whose blocks all occur in the table, hence every continuous path, and fails only for discontinuous ones. |
| C50 | Variables are counted by kind | part | `C50_counts_partial`, `C50_checked_partial`, `C50_train_refuted` | `count_vars`: substring tests on names. False for trains whose name ends in y or z: the substring test counts their delay variables as order variables (C50_train_refuted). Proved for all other plain names. |
| C51 | Common paths are common | part | `C51_common_partial`, `C51_consecutive_refuted`, `C51_complete_refuted`, `C51_sublist_partial` | `common_path`: loop that collects runs. The test `sublist` on joined names is characterised by splitting at blanks. False as stated: pieces need not be consecutive in the second list (C51_consecutive_refuted) and a common run followed by another block is dropped (C51_complete_refuted). Proved: the pieces are common elements in order, a first part of all of them, and all of them if the first list ends with a common element. |
| C52 | Trains at a station | p | `C52_trains_at_station`, `C52_paths` | `get_trains_at_station`, `get_Paths`: filtering of tables. |
| C53 | The order on the line is the order on the station track | part | `C53_no_overtaking_partial`, `C53_entering_order`, `C53_listing_order_refuted` | Order variables that are equated along lines, tracks and switches. False if the input lists the pair in Jd in the other order than in Jtrack (C53_listing_order_refuted). The line part is proved for inputs that list the two trains in one order everywhere, the switch part whenever the line of the first listed train carries a headway entry. |
| C54 | The QUBO route refuses or preserves the problem | part | `C54_exact_partial`, `C54_turnarounds`, `C54_refused_exactly`, `C54_refused_refuted`, `C54_fractional_refuted` | Composition of the builder and the QUBO converter, with its refusals. An inequality over order variables and bounded delays always leaves room for a slack, apart from those of turnarounds: each shape of row is bounded from its own big constant (`RoomFacts.room_turns`). False as stated in two ways: a rule that leaves no slack room is refused although a feasible plan exists (C54_refused_refuted), and with times that are not whole minutes no positive penalties make the ground state feasible (C54_fractional_refuted). Proved, with an exact acceptance condition, for whole-minute times; if initial conditions are given at starting stations only, a problem that has a plan is refused exactly if a turnaround needs the whole largest delay to the minute (C54_refused_exactly). |
| C55 | Trains sharing a line get a headway rule | part | `C55_grouped_partial`, `C55_longer_refuted` | `jd` together with C41. False: if the train listed later uses more blocks than the one listed first they get separate groups (C55_longer_refuted). Proved when the blocks of the later one belong to those of the earlier one. |
| C56 | Complete tables give a problem | part | `C56_builds_partial`, `C56_groups_refuted` | Every function from `get_J`s to `create_linear_problem` is shown to return `Ok`; the sets made are shown to fulfil the hypotheses of C17 (`made_well_formed`). Proved if of two trains between the same stations none uses only some of the blocks of the other one. Without that, two trains can be listed together in two groups, and PuLP refuses the second constraint of the same name (C56_groups_refuted). |
| C57 | Following trains never share a block, from the tables on | part | `C57_following_partial`, `C57_rounded_partial`, `C57_longer_refuted`, `C57_rounding_refuted` | From the tables: `Pipeline.tables_to_problem`, then any feasible assignment. C41/C55, C37 and C01 composed. Proved for trains over the same blocks: never together with whole-minute times, and for at most half a minute with any times. |
| C58 | Opposing trains are never on a single line together, from the tables on | part | `C58_opposing_partial`, `C58_rounded_partial`, `C58_ending_refuted` | From the tables: `Pipeline.tables_to_problem`, then any feasible assignment. C40, C36 and C02 composed. Proved if neither train ends at its far station, or the pair is listed for another reason, or the trains use common switches at both ends (C58_rounded_partial, up to half a minute of rounding). |
| C59 | A station track is used by one train at a time, from the tables on | part | `C59_tracks_partial`, `C59_ending_refuted` | From the tables: `Pipeline.tables_to_problem`, then any feasible assignment. C39 and C04 composed. Proved if the name of the station is not part of the name of the last station of either train. |
| C60 | Movements over a common switch are a minute apart, from the tables on | part | `C60_switches_partial`, `C60_beyond_refuted` | From the tables: `Pipeline.tables_to_problem`, then any feasible assignment. C42 and C05 composed. Movements on the line side of a first or last station are not counted, see C42. |
| C61 | Rolling stock is turned before it leaves again, from the tables on | part | `C61_turnarounds_partial`, `C61_both_refuted` | From the tables: `Pipeline.tables_to_problem`, then any feasible assignment. C43, C38, C36 and C06 composed. Proved if the pair meets in one direction only. |
| C62 | Names have no characters reserved in LP files | p | `C62_names` | Names: character by character. |
| C63 | List parts and nested sizes | p | `C63_parts`, `C63_size` | `sub_lists` (two loops over end and start), nested lists as trees. |
| C64 | Views of the timetables | p | `C64_reverse`, `C64_same_stations`, `C64_common`, `C64_from_blocks`, `C64_times` | Helpers that read timetables, compared with membership in rows. |
| C65 | Common blocks and direction of two trains | part | `C65_direction_partial`, `C65_missing_refuted` | Positions of the stations on both paths; the blocks by C51. The direction is right. The common blocks are complete only if the last block of the first train before the second station is common (C65_missing_refuted). |
| C66 | Delays of a scenario reach the solution | part | `C66_delays_partial`, `C66_reached`, `C66_ignored`, `C66_real`, `C66_other_refuted`, `C66_glc_refuted`, `C66_real_refuted` | C44 and C45 composed with `tables_to_problem` and C07; induction over the list of delays. False: a delay also counts for every train whose number ends with the digits of the named one, and is ignored if no train has that number. C66_reached says exactly what each train gets; proved as stated if no other number ends with that of a delayed train. Of the scenarios in the repository, C66_glc_refuted and C66_real_refuted name the trains concerned. |
| C67 | The printed schedule is the solution | part | `C67_printed_partial`, `C67_prints`, `C67_prints_well_formed`, `C67_turnaround_refuted`, `C67_cut_refuted` | The printing loop as a function that returns the dictionary it fills; compared with departures and arrivals of the plan. Proved for whole minutes and stations where the problem has a variable for the departure. False elsewhere: a train that turns around is printed as leaving at the reference time, and values are cut, not rounded. |
| C68 | From the schedule file to the timetables | p | `C68_read`, `C68_accepted`, `C68_tidy` | C35 and C48 composed; the conditions of C56-C61 derived from conditions on the file. |
| C69 | The tables of the repository give a problem for every scenario | p | `C69_shipped` | The tables copied into `RealData.v`; the conditions of C56 decided by checkers that are proved correct and run on the tables; then C56 for all scenarios. The tables are copied into RealData.v by a script; that conditions of C56 hold of them is computed, the quantifier over scenarios is by C56. |
| C70 | Common switches at both ends keep opposing trains apart | p | `C70_switches_at_both_ends` | The switch rules at both stations; the order variables of the two stations combined with the running times, since either order at one end decides the other. |
| C71 | With the repository's tables trains are kept apart on lines and at switches | p | `C71_shipped_lines`, `C71_shipped_switches`, `C71_half_minute_needed` | `RealData.v` with C57, C58 (in the forms with rounding) and C60; a checker proved correct (`LineChecks.v`) decides that every pair of trains that shares a block of a line is covered by one of them. For the copies of the tables in RealData.v; that trains share lines only in ways C57 and C58 cover is computed, the quantifiers over scenarios and solutions are by C57, C58 and C60. C71_half_minute_needed: a recorded solution has two trains on one block for 2/5 of a minute. |
| C72 | With the repository's tables no two trains are on one track of a station | part | `C72_shipped_tracks_partial`, `C72_recorded_refuted` | `RealData.v` with C59; the refutation checks a recorded sample (`RecordedRuns.v`) against the problem computed from the tables, with checkers proved correct. False as stated: in the recorded, optimal solution of case 0 two trains are on track 2 of KO at the same time (C72_recorded_refuted). Proved for stations whose names are not part of the names of the trains' last stations, outside of the stations and depot tracks that the code leaves out. |
| C73 | In the Wisla problem trains keep apart on every section | part | `C73_wisla_partial`, `C73_wisla_refuted` | The input copied into `WislaData.v`; C01, C02, C03 and C06 applied to it, after checking by computation that every pair of runs is listed; Ic1 and Ic2 are kept apart by the chain of C03 and C06. `C73_optimum` shows with a certificate that the least objective is 0.54, as recorded. False for the section from 10 to 5: a misplaced brace in the input drops its headway rule, and a feasible solution lets two trains leave 10 together (C73_wisla_refuted). Proved for all other sections, for all opposing trains and for the turnaround. |
| C74 | The diagram of a train shows its path with times that never go back | part | `C74_drawn_path_partial`, `C74_points`, `C74_labels`, `C74_choice`, `C74_midnight_refuted` | `Diagrams.v` on top of the printed schedule (`Pipeline.v`). Arrivals along the path never decrease by C03 and C67, so the stable sort by arrival leaves the path as it is; points, labels and choice of trains by induction over the path and the schedule. False past midnight: only hours and minutes are printed, so the drawn times go back (C74_midnight_refuted). Proved for whole minutes, running times and stops that are not negative, and trains whose departures are decided at all stations but a last one that is left out. |
| C75 | Kilometres of segments agree with the railway lines | part | `C75_kilometres_partial`, `C75_kilometres_refuted`, `C75_route_on_lines_refuted` | The tables of `railway_lines.py` are copied into `Diagrams.v` by a script. The lookup is characterised for all names; the distances are compared by a checker proved correct. False for the segment 137139GLYTy, whose distances behind Katowice are wrong by up to 39 km; proved for the two other segments, on one up to 10 metres, and for this one up to Katowice Brynów. route_on_lines raises a NameError for every route. |
| C76 | Statistics of a station are those of the delays printed there | p | `C76_collected`, `C76_statistics` | `Diagrams.v`; induction over schedules and trains. Quantiles by linear interpolation between neighbours of the sorted list are characterised by counting: at least floor (q (n-1)) + 1 values are at most, at least n - ceiling (q (n-1)) at least the quantile. |
| C77 | A train gets the time for its blocks and keeps to its timetable | p | `C77_way`, `C77_timetable`, `C77_shipped`, `C77_rounding_refuted` | `tables_to_problem` with C36, C38, C44 and C07; induction over the rows between the two stations, one leg per station. `C77_rounding_refuted` has times for which the rounding takes 0.8 minutes from a train. C77_rounding_refuted shows that the minute lost by rounding is real: without whole minutes a train can be given less time than its blocks need. |
| C78 | No train is much later than it could be alone | p | `C78_latest`, `C77_shipped` | The same, and induction over the earliest departure times of `Spec.earliest`, which are compared with the plan. |
| C79 | The records of the runs over all scenarios are right | p | `C79_records`, `C79_sizes`, `C79_scenarios`, `C79_shipped` | `Runs.v` on top of `tables_to_problem`, `solve_on_quantum` and `count_vars`; induction over the scenarios with C30 to C33 and C50. `C79_shipped` computes that the named trains are in the tables and uses C69. |
| C80 | Exact runs are the lower bound in the comparison plot | part | `C80_above_partial`, `C79_records`, `C80_flag_refuted` | Both loops side by side; the problem of a scenario is the same. The refutation has two trains against each other on a line of 50 minutes; `solver` leaves values although there is no solution. A run with a PuLP solver is recorded as feasible whatever the solver found (C80_flag_refuted: a problem without any solution). Proved for quantum runs (C79_records), and the comparison for solvers that find an optimum whenever they leave values. |
| C81 | With the penalties of the scripts, ground states are optimal schedules | part | `C81_penalty_partial`, `C81_turnarounds_partial`, `C81_cheap_plan`, `C81_lines_partial`, `C81_default_refuted` | All times are integers (`MinuteFacts.made_integral`), the weights are at most 7/4 each; then C54_exact_partial with `script_pdict` of `Runs.v`; `C81_turnarounds_partial` replaces the room by the times of the turnarounds (`RoomFacts`). The refutation bounds the energy of every ground state by that of one sample that breaks a rule by a minute. `C81_cheap_plan`: a broken rule costs the penalty, so a sample that breaks one costs more than the cheap plan; the cheap plans of `C81_lines_partial` are those of `GlcLine3.v`. Proved for penalties above 7/4 times the number of trains (the largest possible objective), and if no turnaround needs the whole largest delay (else the conversion fails, C81_turnarounds_partial). False for the penalties the scripts use by themselves: C81_default_refuted has tables of three trains where no penalty below 273/80, so neither 1 nor 2.5, gives a ground state that keeps the rules although a plan exists. One feasible plan cheaper than the penalty is enough (C81_cheap_plan), so the penalty 2.5 of solve_KO_GLC_problems.py is large enough in all 12 scenarios of line 3 (C81_lines_partial); for lines 1 and 2 this is not proved. |
| C82 | Whole minutes are enough, from the tables on | p | `C82_same_optimum`, `C82_turn_refuted` | `MinuteFacts.made_integral` (induction over the loops that fill the time tables) and C10_same_optimum. `C82_turn_refuted` shows that the hypothesis on turnaround times is needed. |
| C83 | The recorded results of the Katowice-Gliwice line are reproduced | part | `C83_optima_partial`, `C83_reproduced_partial` | The sizes are computed (`GlcFacts.fast_sizes`, proved equal to the sizes of the problem). For the least objectives `GlcLine3.v` holds a plan and a branch-and-bound certificate for each scenario, found outside Coq and checked by `BoundCheck.bounded` (bounds propagated through constraints, branching on order variables); `bounded_ok` proves the checker right. `C83_reproduced_partial` then follows the loop of `Runs.glc_runs` for any exact solver. Missing: lines 1 and 2 (the checks of line 1 pass but are too large for coqchk; line 2 has no certificates). Sizes and least objectives in the 12 scenarios of line 3. Missing: lines 1 and 2, whose problems are about three times as large. The same check of line 1 passed in Coq's virtual machine with certificates found in the same way, but checking one of its scenarios again with coqchk takes 5 minutes and 10 GB, so it is not part of the development. For line 2 no certificate of the least objectives was found. |
| C84 | Running times are refused unless the train goes from the first to the second station | part | `C84_refused_partial`, `C84_first_refuted` | Case distinction over the way the blocks are cut out (`get_blocks_b2win_station4train`). The assertion of utils.py:360 only looks at the second station: a first station that is not visited, or comes later, gives the time 0 instead of an error. Proved: it is refused exactly if the first name is empty or the second station is not visited, and no other error occurs. |
| C85 | What a run of solve_real_problem.py stores is what its diagrams show | p | `C85_files_apart`, `C85_refused`, `C85_stored`, `C85_shown`, `C85_lp_shown`, `C85_answers`, `C85_repository`, `C85_hyb_refuted` | The whole script as a function from command line and files to files and an exception or not (`Script.script`); solvers, samplers and the text of floats are parameters. File names are taken apart at their underscores; what is printed is compared with the plan by C67 and C36; `C85_answers` uses C28_total; `C85_repository` uses C69. The method 'hyb' named in the help text of --solve_quantum is refused (C85_hyb_refuted); the accepted name is 'bqm'. |
| C86 | Every case of the repository can be given to the samplers for QUBOs | p | `C86_accepted`, `C86_glc_accepted`, `C86_script`, `C86_answers`, `C86_not_before`, `C86_late`, `C86_refused` | By C54_turnarounds only the turnarounds count. Their times without delays are computed from the tables in the kernel (`PropsTurns.real_turns_ok`); with delays each is later by at most the delay of its first train (`TurnFacts.turn_later`, an induction along the path of a train in two timetables). C86_refused: if train 34319 is 36 minutes late the problem with largest delay 40 is refused, so the condition on the turnarounds is needed. |
| C87 | A sampler that finds the ground state gives the optimal schedule | p | `C87_qubo`, `C87_cqm`, `C87_tables`, `C87_script`, `C87_script_cqm`, `C87_cqm_exhaustive`, `C87_exhaustive`, `C87_line3` | The returned sample set contains the decoded ground state (C29), which is optimal by C80/C81; the best feasible one of the sorted list is no worse (C32), and a feasible one cannot be better. The sampler is any function from QUBOs to samples with their right energies. `PropsSweep.trying_all`, which tries all rows, meets the conditions for the constrained model. C87_exhaustive: a sampler that tries every assignment meets the hypotheses. The CQM part asks for plain names of trains and stations (SpecNames.plain_names), as the tables have (C69). |
| C88 | wisla_problems.py stores optimal schedules if its sampler succeeds, and shows what it has stored | p | `C88_penalties`, `C88_stored`, `C88_shown`, `C88_lp_shown`, `C88_files_apart` | The whole script from line 94 on as a function from command line and files to files (`WislaScript`). The penalties are compared with the objective of the best plan (0.54, C73) by `cheap_exact`; printing is compared with the plan as in C67. C88_files_apart was added after a wrong program survived that stored runs of different length in one file; the names are split at their underscores. The optimum of the script's problem is 0.54 (C73). |
| C89 | Every run of solve_KO_GLC_problems.py keeps its own file, and the plots show what was stored | p | `C89_files_apart`, `C89_stored`, `C89_drawn`, `C89_limited`, `C89_answers`, `C89_line3` | The whole script and the upper diagrams of both plots as functions on files (`GlcScript`); solvers, samplers and the text of floats are parameters. File names are taken apart at their underscores; the records are those of C82 and C83; heights are compared by optimality of the exact solver. `C89_answers` uses C69 and C86. `C89_case` runs the script three times and plots. C89_files_apart asks that no solver's name contains _ilp_t_lim, the text that separates the time limit; no PuLP solver has such a name. |
| C90 | tmin_plot.py shows the runs of solve_real_problem.py and no point below an optimum | p | `C90_sweep`, `C90_reached`, `C90_flat`, `C90_recorded`, `C90_below` | The script up to the uppermost diagram as a function on files (`TminPlot`); the stored list is exactly the answers of the runs in order (`runs_list`, induction over the runs), each of which is right by C82; minimum, maximum and mean by induction. `C90_flat` runs the first script for each minimal time and then the second; `C90_recorded` evaluates all constraints on the recorded samples in the kernel. The line drawn for CPLEX is a constant of the script; that it is the optimum of these two problems is not shown. C90_case: sweeps of both networks with the repository's tables; C90_drawn_case: a sweep that is drawn and one that is refused; C90_below_case: a sampler that meets the conditions of C90_below. |
| C91 | The replaced lookup of blocks between stations gives what the new one gives | p | `C91_old_blocks`, `C91_two_blocks_refuted`, `C91_speed` | Both functions are modelled line by line (`DataTables`, `OldBlocks`); the loops of the replaced one are recursions over the path, compared with the split of the timetable at the two stations by induction. C91_case: a train through three stations, both directions and a station it does not come to. C91_two_blocks_refuted: with two rows at the second station the functions differ, so the condition of one row per station is needed; the tables of the repository meet it (C69). |
| C92 | The scripts for diagrams show the run that was asked for | part | `C92_realisation_partial`, `C92_exact`, `C92_listing_partial`, `C92_missing_refuted`, `C92_qubo_refuted`, `C92_conflicted_refuted` | The choice of the schedule by the letters of the file name, the loop over the trains and the listing (`DiagramFiles`), run on the files that `Script` leaves (C85). That a file of several runs without cqm in its name fails is shown by following the route of the first run taken for a train: its stations are train numbers. C92_case: every case of the repository with the constrained solver; C92_qubo_case: with samplers for QUBOs that look through all samples. False as a whole: a missing realisation is drawn as the first one (C92_missing_refuted), files of the samplers for QUBOs cannot be drawn (C92_qubo_refuted), and the listing shows the path of the solution under both statuses because one of them is misspelt (C92_conflicted_refuted). Proved for files of the constrained solver and of exact solvers, and what the listing does show. |
| C93 | The statistics of delays are those of the runs in the file of the case | p | `C93_statistics`, `C93_ends`, `C93_runs`, `C93_exact`, `C93_axis` | The main part of the script over the files that `Script` leaves (`Statistics`). The delays of a station after any number of schedules by induction over runs, trains and stops, without any assumption on the dictionaries; the five numbers by C76_statistics; the link to the stored answers by C85_shown; that no bar leaves its axis (C93_axis) by an invariant of the loops that print (every variable lies between 0 and 40, whatever the sampler answers). C93_case: twenty files with two runs of two trains; C93_gap: one station without delays in the last file, and the script fails; C93_runs_case: every case of the repository; C93_exact_case: case 0 with a solver that returns its optimum. The five numbers are specified by summary in PropsDiagrams (C76). |

## 5. Where specifications use the model

* The records `train_sets`, `timetable`, `row`, `netrow`, `lpproblem` and the types of identifiers.
* `dget` (look up a key of a dictionary), `dkeys`, `str` (printing of identifiers and numbers).
* `Pulp.feasible`, `Pulp.variables`, `Pulp.obj_value`: what a solution of a PuLP problem is.
* `SpecSets.cell_has` uses `int_of_str` to read the digits after the point of a number of two switches.
* `SpecDiagrams` uses the tables of `railway_lines.py` and the record of a printed stop.
* `SpecQubo` uses the constructors of PyQUBO expressions, with an evaluation of its own.

## 6. Findings about the code

Each is proved as a `_refuted` theorem about the model.

1. A skipped station is recognised by a substring test, so a train that skips `KO(STM)` loses the
   track rule at `KO` (C04), and delays and weights are looked up by parts of train numbers (C45, C46).
2. The order of trains is also fixed where the other train only starts at the station; this can make
   a problem infeasible that has a plan without conflict and delay (C09).
3. Identifiers with characters that PuLP replaces are reported as undelayed (C18).
4. Trains whose name ends in `y` or `z` are miscounted in the statistics of variables (C50).
5. A rule with no slack room is refused by the QUBO route, and with times that are not whole minutes
   no penalty makes the ground state feasible (C54).
6. Lists `Jd` and `Jtrack` in different orders allow overtaking on the line (C53).
7. Of a station with several rows in a timetable, blocks are counted in both run and stop (C36). The
   turnaround time is lost at intermediate stations (C38).
8. Network tables with a row per direction are read in the wrong column (C48). Jumps between
   known blocks pass the check of paths (C49). `common_path` may skip blocks and loses a last run (C51).
9. Opposing trains that end at each other's start are not listed (C40), so a solution may let them
   meet on a single line (C58).
10. Following trains get separate groups if the later listed one uses more blocks (C41, C55), so a
    solution may put them on one block (C57). Rounding block times down does the same (C37, C57).
11. A movement on the line side of a last station is not counted at switches (C42, C60).
12. A pair of trains that does not meet is put at the station of the pair before it, as
    `sys.exit` is not called (C43). A pair that turns at both ends is listed at one only (C61).
13. A train that ends at a station may arrive on an occupied track (C59).
14. Blocks common to two trains are dropped if the first train turns off after them (C65).
15. The schedule is printed with values cut off, so that a solver's 6.999999 becomes 6 minutes, and
    a train that turns around is printed as leaving its last station at the reference time (C67).
16. The test for a consecutive part accepts parts of names (C51, `sublist`).
17. Two trains that use only some of the blocks of two others are listed in the groups of both, the
    headway rule for them is made twice, and PuLP stops with an error (C56).
18. A delay named for a train is added to all trains whose number ends with its digits. In scenario 3
    of `solve_KO_GLC_problems.py`, meant for trains 1, 3 and 5, twenty more trains are delayed
    (C66_glc_refuted); most other scenarios of that script have the same problem.
19. A delay named for a number that no train has is ignored. Cases 3 and 5 to 9 of
    `solve_real_problem.py` name 26013, 45101, 49317, 64359 and 42009; the tables have 26103, 54101,
    94317, 64350 and 421009, so three to five delays of each of these cases have no effect
    (C66_real_refuted).
20. If a train number occurs twice in a schedule file, the first of the two trains is lost without a
    message (C35_repeated_refuted). This happens with the files of the repository: 102 occurs twice in
    `trains_schedules_KO_GLC.csv` and `trains_schedules_KO_RCB_ZZ_GLC.csv`, 103 twice in
    `trains_schedules_KO_RCB_ZZ_GLC_v2.csv`.
21. The optimal solution of case 0 that the repository keeps (no delays, objective 0) has two trains on track
    2 of station KO: 4500 from minute 30 to 35, 54101/541019 from 27 to 32 (C72_recorded_refuted). The train 541019
    ends at `KO(IC)`, whose name contains `KO`, so it loses the track rule at `KO` (finding 1). Recorded
    solutions of cases 2, 4 and 5 have the same, at tracks 2 and 8.
22. Because block times are rounded, the recorded solution of case 3 has two trains on the block from KZ to
    KO(STM) for 0.4 minutes (C71_half_minute_needed); with the tables of the repository it is never more
    than half a minute (C71).
23. In `wisla_problems.py` (line 63) the entry `10:{5:[["Ks2","Ks4","Ic2"]]}` lies outside of `"Jd"`, so no
    headway rule is made for the way from 10 to 5, and solutions may let two trains leave 10 together
    (C73_wisla_refuted). With the brace put right the script would stop with a `KeyError`, as the headway of
    Ic2 before Ks2 is filed under `Ic2_Ks2_5_10` instead of `Ic2_Ks2_10_5`. The weights have two entries for Ks2
    (at 3 and 5) and none for Ks4, so delays of Ks4 cost nothing.
24. In `railway_lines.py` the kilometres of the segment `137139GLYTy` behind Katowice Brynów are sums of positions instead
    of sums of distances: Ligota is put at 36.67 instead of 32.79, Tychy at 86.78 instead of 43.68 (C75_kilometres_refuted).
    `route_on_lines` calls `station_on_line`, which does not exist (C75_route_on_lines_refuted).
25. The diagrams print times without the date, so a train that runs past midnight is drawn back to the start of
    the day (C74_midnight_refuted).
26. `solve_KO_GLC_problems.py` records every run with a PuLP solver as feasible, also if the solver ended
    with an infeasible problem and left other values (C80_flag_refuted). Its 0 broken constraints go to a misspelt
    key of the wrong dictionary (`results["brolen_constraints"]`, line 202).
27. The penalties of the scripts (2.5 in `solve_KO_GLC_problems.py`, 1 by default in `solve_real_problem.py`) can be too small: there are
    tables of three trains with a feasible plan for which no sample of lowest energy keeps the rules (C81_default_refuted). Penalties above
    7/4 times the number of trains are large enough (C81_penalty_partial).
28. Turnaround times are the only times that are not rounded to whole minutes, so with a fractional one the integer
    model loses up to a minute against the continuous one (C82_turn_refuted).
29. `assert station1 and station2 in ...` in `minimal_passing_time` (`utils.py:360`) only asks whether the second station is visited; for a first station
    that the train does not visit, or visits later, the running time is 0 (C84_first_refuted).
30. The help text of `--solve_quantum` (`solve_real_problem.py:62`) names 'hyb', which is refused; 'bqm' is accepted (C85_hyb_refuted). The
    help text of `--case` does not fit either: case 2 delays five trains, not one IC, case 4 has no delays, and case 6 has the 14 delays of
    case 5. With `--show_timetable` and more runs than stored, the script fails after it has written the first diagrams.
31. In the tables of `solve_real_problem.py` two turnarounds at Katowice need more time than the timetable gives: trains 343199 and 541019 are due at 16:14 and
    16:28, but their rolling stock is ready at 16:18 and 16:32, so both are 4 minutes late in every solution, also in the case without disturbances (C86_late).
32. `read_quantum_pickle.py:26` writes the status as 'conflcted'; `kdtrain2trainpath` knows only 'conflicted', so the listing shows the path of the
    solution twice and never the path without conflicts that README.org promises (C92_listing_partial, C92_conflicted_refuted).
33. `solve_real_problem.py --show_timetable` writes the schedules of all samplers run by run, but `echo_gnuplot_file.py:85` expects runs only in files with cqm
    in their name: diagrams of 'sim', 'real' and 'bqm' runs end with an exception (C92_qubo_refuted).
34. `echo_gnuplot_file.py --realisation r` draws the first run if run r is not in the file, while the title (for `cqm5` files) still names r (C92_missing_refuted).

Not theorems, noticed while reading the data: the tables `data/important_stations*.py` write track 3
of station KO as `"KO","ST", 3, "(2)"` (no blank after the first comma), while `network_paths.ods`
and the block descriptions write `"KO", "ST", 3, "(2)"`, so this track would not be recognised as a
block of KO. The pair `("KTC-CB", "via Gt")` in `list_of_k1_pairs`
(`make_J_taus.py:519`) names no station of any table, so the shorter headway meant for that line is never used. In `network_paths.ods`
the cell of switches for the way from track 1 of `CB` to `"CB-RCB-1"` holds the number 16.2, surely meant as `16,20` (all other
ways to that block go over switch 20); it is read as switches 16 and 2, so conflicts at switch 20 are
missed for trains on this way. Four cells hold the whole numbers 415, 416, 3 and 3, at which `eval` would
raise a `TypeError` if a train used these ways next to a station; no train of the tables does (C69).
`data_formatting/print_timetable.py` reads files that are not in the repository and calls `get_arrdep` and
`train_time_table` with parameters they no longer have; it is not modelled.
If both `--solve_lp` and `--solve_quantum` are given, `solve_KO_GLC_problems.py` runs the ILP solver only, although its file is named after
both; and `results["method"]` is empty for the samplers.
`sim_anneal` (`d_wave_solves.py:31-33`) passes `num_sweeps` and `num_reads` by position; in the versions of `neal` known to us the
parameters of `sample` stand in the other order, so 4000 reads of 1000 sweeps would be made (the library is not in this sandbox, so not checked).
The figures of `visualise_statistics.py` for the classical solver are titled "CPLEX network" (line 58), but they are made from the files of
`PULP_CBC_CMD` (line 81).
