(** * GlcScript: model of /repo/solve_KO_GLC_problems.py from the command line to the file it leaves, and of the plots
      /repo/results_KO_GLC/fast_plot.py and fast_plot_lim.py of these files *)

From Coq Require Import List String ZArith QArith Bool.
From Verif Require Import Base Pulp Helpers LinearSolver Converters Results DataTables DataSets DataTimes Pipeline Runs Script.
Import ListNotations.
Open Scope string_scope.
Open Scope list_scope.

(** The command line, solve_KO_GLC_problems.py:29-68.  [--category] is one of the two categories of PuLP for numbers. *)
Record glc_args : Type := MkGlcArgs {
  g_case : Z;
  g_category : vcat;
  g_solve_lp : string;
  g_time_limit : Q;
  g_solve_quantum : string;
  g_min_t : Z }.

(** What the script finds outside: the text of a float in an f-string, the tables and the stations by file name, the network,
    the solvers of PuLP by name and time limit ([None]: not available), and the samplers by minimal time. *)
Record glc_outside : Type := MkGlcOutside {
  g_text : Q -> string;
  g_table : string -> option (list line);
  g_stations : string -> option station_blocks;
  g_network : list netrow;
  g_solver : string -> Q -> option (lpproblem -> option assignment);
  g_samplers : Z -> samplers }.

(** [results], solve_KO_GLC_problems.py:147-150 and 214-215: the entries under "method", "d_max", "case", under the numbers
    of the scenarios, and under "samples".  "brolen_constraints" (line 202), which nothing reads, is left out. *)
Record glc_results : Type := MkGlcResults {
  gr_method : string;
  gr_d_max : Q;
  gr_case : Z;
  gr_runs : list run_result;
  gr_samples : nat }.

Definition glc_files : Type := dict string glc_results.

(** The tables and stations of a line, solve_KO_GLC_problems.py:71-83 *)
Definition glc_input (case : Z) : string * string :=
  if eqb case 1%Z then ("./data/KO_GLC/trains_schedules_KO_GLC.csv", "./data/KO_GLC/important_stations_KO_GLC.npz")
  else if eqb case 2%Z then ("./data/KO_GLC/trains_schedules_KO_RCB_ZZ_GLC.csv", "./data/KO_GLC/important_stations_KO_GLC_R.npz")
  else ("./data/KO_GLC/trains_schedules_KO_RCB_ZZ_GLC_v2.csv", "./data/KO_GLC/important_stations_KO_GLC_R.npz").

(** Which branch the loop takes, solve_KO_GLC_problems.py:173-209: an ILP solver goes before a sampler *)
Definition glc_way (o : glc_outside) (a : glc_args) : res way_to_solve :=
  if negb (eqb (g_solve_lp a) "") then
    match g_solver o (g_solve_lp a) (g_time_limit a) with
    | Some solver => Ok (WithLp solver)
    | None => Err PulpError
    end
  else match method_of (g_solve_quantum a) with
  | Some m => Ok (WithQuantum (g_samplers o (g_min_t a)) m)
  | None => Ok OnlySizes
  end.

(** [p], solve_KO_GLC_problems.py:221-225: the minimal time that the hybrid solvers have put into the properties
    (d_wave_solves.py:71 and 84).  The result of an ILP solver has no properties, those of simulated annealing have no such
    entry and those of the annealer are a text; all this is caught. *)
Definition glc_p_text (a : glc_args) : string :=
  if eqb (g_solve_lp a) "" && lmem (g_solve_quantum a) ["bqm"; "cqm"] then str_of_Z (g_min_t a) else "".

(** The text of the time limit, solve_KO_GLC_problems.py:226-229 *)
Definition glc_limit_text (o : glc_outside) (a : glc_args) : string :=
  if Qeq_bool (g_time_limit a) 0 then "" else "_ilp_t_lim" ++ g_text o (g_time_limit a).

(** [file], solve_KO_GLC_problems.py:226-229 *)
Definition glc_file (o : glc_outside) (a : glc_args) : string :=
  "results_KO_GLC/results" ++ glc_p_text a ++ "_" ++ g_solve_lp a ++ glc_limit_text o a ++ "_" ++ g_solve_quantum a ++ "_" ++
  str_of_Z (g_case a) ++ "_" ++ category_text (g_category a) ++ ".pkl".

(** The script, solve_KO_GLC_problems.py:70-231.  The solver of PuLP is looked for before the first problem is made and not after that, so that of two
    exceptions another one may come first.  A missing file is an [OtherError].  Running times without rounding are made
    (line 88) but not used. *)
Definition glc_script (o : glc_outside) (a : glc_args) (f : glc_files) : glc_files * res unit :=
  if negb (lmem (g_case a) [1; 2; 3]%Z) then (f, Err AssertionError)
  else
    match (do data <- (match g_table o (fst (glc_input (g_case a))) with Some l => Ok l | None => Err OtherError end);
           do st <- (match g_stations o (snd (glc_input (g_case a))) with Some l => Ok l | None => Err OtherError end);
           do td <- build_timetables data st (g_network o);
           do _ <- make_taus td st 0;
           if negb (lmem (g_solve_quantum a) [""; "sim"; "real"; "bqm"; "cqm"]) then Err AssertionError
           else do how <- glc_way o a;
                glc_runs td st (g_network o) (g_case a) (g_category a) how) with
    | Err e => (f, Err e)
    | Ok runs => (dset (glc_file o a) (MkGlcResults (g_solve_lp a) 40 (g_case a) runs (List.length runs)) f, Ok tt)
    end.

(** ** The plots *)

(** A point: the number of the scenario, the height, and whether it is green (otherwise red) *)
Definition point : Type := (nat * Q * bool)%type.

(** The points of one series, fast_plot.py:29-43 and 63-70: the objective of each of the first [n] scenarios times
    [scale], green if [result["feasible"] is True] *)
Definition series (r : glc_results) (n : nat) (scale : Q) : res (list point) :=
  mapM (fun i => match nth_error (gr_runs r) i with
                 | Some x => match run_objective x, run_feasible x with
                             | Some q, Some b => Ok (i, q * scale, b)
                             | _, _ => Err KeyError
                             end
                 | None => Err KeyError
                 end) (seq 0 n).

(** fast_plot.py:27-28, in the directory results_KO_GLC *)
Definition plot_quantum_file (t case : Z) : string :=
  "results_KO_GLC/results" ++ str_of_Z t ++ "__cqm_" ++ str_of_Z case ++ "_Integer.pkl".

(** [load_data], fast_plot.py:11-14 and fast_plot_lim.py:11-17; [lim] is the text of the time limit, [None] for 0 *)
Definition plot_lp_file (solver : string) (case : Z) (lim : option string) : string :=
  match lim with
  | None => "results_KO_GLC/results_" ++ solver ++ "__" ++ str_of_Z case ++ "_Integer.pkl"
  | Some l => "results_KO_GLC/results_" ++ solver ++ "_ilp_t_lim" ++ l ++ "__" ++ str_of_Z case ++ "_Integer.pkl"
  end.

Definition read_results (f : glc_files) (file : string) : res glc_results :=
  match dget file f with Some r => Ok r | None => Err OtherError end.

(** The upper diagram of one line, fast_plot.py:22-80 and fast_plot_lim.py:25-94: a series for each minimal time of the hybrid
    solver (at most five, the number of [sizes]), and one of the ILP solver over as many scenarios as the last of them has.  The other two diagrams (measured times),
    labels and colours other than of points are not modelled. *)
Definition plot_case (f : glc_files) (solver : string) (case : Z) (times : list Z) (lim : option string)
  : res (list (list point) * list point) :=
  do quantum <- mapM (fun t => do r <- read_results f (plot_quantum_file t case);
                               do l <- series r (gr_samples r) (gr_d_max r);
                               Ok (gr_samples r, l)) (firstn 5 times);
  do results <- read_results f (plot_lp_file solver case lim);
  match rev quantum with
  | [] => Err UnboundLocalError
  | (n, _) :: _ => do l <- series results n 1; Ok (map snd quantum, l)
  end.
