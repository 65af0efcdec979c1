(** * Script: model of /repo/solve_real_problem.py, from the command line to the files it leaves *)

From Coq Require Import List String ZArith QArith Bool.
From Verif Require Import Base Pulp Helpers LinearSolver Converters Results DataTables DataSets DataTimes Pipeline Runs.
Import ListNotations.
Open Scope string_scope.
Open Scope list_scope.

(** The command line, solve_real_problem.py:34-93.  [--category] is one of the two categories of its help text;
    [--show_timetable] is a number of which only zero or not matters. *)
Record args : Type := MkArgs {
  a_case : Z;
  a_category : vcat;
  a_solve_lp : string;
  a_solve_quantum : string;
  a_min_t : Z;
  a_runs : Z;
  a_penalty : Q;
  a_show : bool }.

(** What the script finds outside: the text of a float in an f-string, the tables and the stations by file
    name, the network, the solvers of PuLP by name ([None]: not available, [PulpError]), each leaving values or none,
    and the samplers at each run. *)
Record outside : Type := MkOutside {
  o_text : Q -> string;
  o_table : string -> option (list line);
  o_stations : string -> option station_blocks;
  o_network : list netrow;
  o_solver : string -> option (lpproblem -> option assignment);
  o_samplers : Z -> samplers }.

(** What [print_optimisation_results] returns, and what the pickle files hold *)
Definition schedule : Type := dict pv (dict pv stop_entry).

Inductive content : Type :=
| Samples (l : dict Z entry)
| Schedules (l : dict Z schedule)
| OneSchedule (l : schedule).

Definition files : Type := dict string content.

(** The tables and stations of a case, solve_real_problem.py:99-113 *)
Definition input_files (case : Z) : string * string :=
  if lmem case [0; 1; 2; 3]%Z then ("./data/trains_schedules.csv", "./data/important_stations.npz")
  else if lmem case [4; 5]%Z then ("./data/trains_schedules_Gt.csv", "./data/important_stations_Gt.npz")
  else if eqb case 6%Z then ("./data/trains_schedules_1track.csv", "./data/important_stations.npz")
  else ("./data/trains_schedules_1track_Gt.csv", "./data/important_stations_Gt.npz").

(** The minute of the day of [reference_time], solve_real_problem.py:128 *)
Definition reference_minute : Z := 960.

(** From the tables to the problem, solve_real_problem.py:115-220, with the running times without
    rounding for printing.  The pickle of the timetables ([save=True]) is not modelled. *)
Definition prepare (o : outside) (a : args) : res (taus * train_sets * timetable * lpproblem) :=
  do data <- (match o_table o (fst (input_files (a_case a))) with Some l => Ok l | None => Err OtherError end);
  do st <- (match o_stations o (snd (input_files (a_case a))) with Some l => Ok l | None => Err OtherError end);
  do td <- build_timetables data st (o_network o);
  do t <- make_taus td st 0;
  do '(ts, tab, prob) <- tables_to_problem td st (o_network o) "16:00" (real_delays (Z.to_nat (a_case a))) 40 (a_category a);
  Ok (t, ts, tab, prob).

(** The text of a category *)
Definition category_text (c : vcat) : string := match c with Integer => "Integer" | Continuous => "Continuous" end.

(** The end of all file names *)
Definition case_text (a : args) : string :=
  "_case" ++ str_of_Z (a_case a) ++ "_" ++ category_text (a_category a) ++ ".pkl".

(** [p], solve_real_problem.py:273-276 *)
Definition p_text (a : args) : string := if lmem (a_solve_quantum a) ["cqm"; "bqm"] then str_of_Z (a_min_t a) else "".

(** [file], solve_real_problem.py:277-280, and [file_sched], lines 287-290, without the directory *)
Definition quantum_file (o : outside) (a : args) : string :=
  if eqb (a_solve_quantum a) "cqm" then a_solve_quantum a ++ p_text a ++ case_text a
  else a_solve_quantum a ++ p_text a ++ "_" ++ o_text o (a_penalty a) ++ case_text a.

Definition samples_file (o : outside) (a : args) : string := "solutions_quantum/" ++ quantum_file o a.
Definition diagrams_file (o : outside) (a : args) : string := "solutions_quantum/data4diagrams/" ++ quantum_file o a.

(** [file_sched] of an ILP solver, solve_real_problem.py:238 *)
Definition lp_file (a : args) : string := "solutions_quantum/data4diagrams/" ++ a_solve_lp a ++ case_text a.

(** [train_set["skip_station"]], which [make_train_set] always sets *)
Definition skip_of (ts : train_sets) : dict pv pv := match ts_skip ts with Some d => d | None => [] end.

(** What happens stays in the files, also if an exception comes later. *)
Definition outcome (A : Type) : Type := (files * res A)%type.

(** The part for ILP solvers, solve_real_problem.py:224-247.  Without values the variables are [None]: the schedule
    and the objective times [d_max] are TypeErrors, the check of the order variables an AssertionError. *)
Definition lp_part (o : outside) (a : args) (made : taus * train_sets * timetable * lpproblem) (f : files) : outcome unit :=
  let '(t, ts, tab, prob) := made in
  if eqb (a_solve_lp a) "" then (f, Ok tt)
  else match o_solver o (a_solve_lp a) with
  | None => (f, Err PulpError)
  | Some solver =>
      match solver prob with
      | None => (f, Err (if negb (a_show a) && existsb is_order_var (variables prob) then AssertionError else TypeError))
      | Some x =>
          let shown := if a_show a then
                         do s <- print_optimisation_results prob tab ts (t_pass t) (skip_of ts) 40 reference_minute
                                   (fun v => Some (x (v_id v)));
                         Ok (dset (lp_file a) (OneSchedule s) f)
                       else Ok f in
          match shown with
          | Err e => (f, Err e)
          | Ok f' => (f', do _ <- check_count_vars prob x; Ok tt)
          end
      end
  end.

(** [method] by its name *)
Definition method_of (s : string) : option method :=
  if eqb s "sim" then Some Sim else if eqb s "real" then Some Results.Real
  else if eqb s "bqm" then Some HybridBqm else if eqb s "cqm" then Some Cqm else None.

(** [range(args.runs)], counted from 1 *)
Definition run_numbers (a : args) : list Z := map (fun n => Z.of_nat n + 1)%Z (seq 0 (Z.to_nat (a_runs a))).

(** The loop that shows stored samples, solve_real_problem.py:283-293; the file is written in each pass *)
Fixpoint show_runs (file : string) (print : entry -> res schedule) (data : dict Z entry) (shown : dict Z schedule)
    (l : list Z) (f : files) : outcome unit :=
  match l with
  | [] => (f, Ok tt)
  | i :: l' =>
      match (do e <- dlookup i data; print e) with
      | Err e => (f, Err e)
      | Ok s => let shown := dset i s shown in show_runs file print data shown l' (dset file (Schedules shown) f)
      end
  end.

(** The loop over the runs, solve_real_problem.py:296-301; the file is written at the end *)
Definition solve_runs (o : outside) (a : args) (m : method) (prob : lpproblem) : res (dict Z entry) :=
  let pdict := match m with Cqm => [] | _ => script_pdict (a_penalty a) end in
  foldM (fun samples i => do e <- solve_on_quantum (o_samplers o i) prob m pdict; Ok (dset i e samples)) (run_numbers a) [].

(** The part for samplers, solve_real_problem.py:249-301.  A missing file is an [OtherError]. *)
Definition quantum_part (o : outside) (a : args) (made : taus * train_sets * timetable * lpproblem) (f : files) : outcome unit :=
  let '(t, ts, tab, prob) := made in
  match method_of (a_solve_quantum a) with
  | None => (f, Ok tt)
  | Some m =>
      if a_show a then
        match dget (samples_file o a) f with
        | Some (Samples data) =>
            show_runs (diagrams_file o a)
              (fun e => print_optimisation_results prob tab ts (t_pass t) (skip_of ts) 40 reference_minute
                          (fun v => dget (v_name v) (e_sample e)))
              data [] (run_numbers a) f
        | Some _ => (f, Err TypeError)
        | None => (f, Err OtherError)
        end
      else
        match solve_runs o a m prob with
        | Err e => (f, Err e)
        | Ok samples => (dset (samples_file o a) (Samples samples) f, Ok tt)
        end
  end.

(** The script *)
Definition script (o : outside) (a : args) (f : files) : outcome unit :=
  if negb (lmem (a_case a) [0; 1; 2; 3; 4; 5; 6; 7; 8; 9]%Z) then (f, Err AssertionError)
  else match prepare o a with
  | Err e => (f, Err e)
  | Ok made =>
      if negb (lmem (a_solve_quantum a) [""; "sim"; "real"; "bqm"; "cqm"]) then (f, Err AssertionError)
      else match lp_part o a made f with
      | (f', Err e) => (f', Err e)
      | (f', Ok _) => quantum_part o a made f'
      end
  end.
