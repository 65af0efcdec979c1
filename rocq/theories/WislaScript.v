(** * WislaScript: model of /repo/wisla_problems.py, from the command line to the files it leaves *)

From Coq Require Import List String ZArith QArith Bool.
From Verif Require Import Base Pulp Helpers LinearSolver Converters Results DataTimes Pipeline Runs Script WislaData.
Import ListNotations.
Open Scope string_scope.
Open Scope list_scope.

(** The command line, wisla_problems.py:20-53.  [--show_timetable] is a number of which only zero or not matters. *)
Record wisla_args : Type := MkWislaArgs {
  w_solve_lp : string;
  w_solve_quantum : string;
  w_min_t : Z;
  w_show : bool;
  w_time_limit : Q }.

(** What the script finds outside: the solvers of PuLP by name and time limit ([None]: not available), each leaving values or
    none, and the samplers by minimal time. *)
Record wisla_outside : Type := MkWislaOutside {
  w_solver : string -> Q -> option (lpproblem -> option assignment);
  w_samplers : Z -> samplers }.

(** What the pickle files hold: one sample, or one schedule *)
Inductive wisla_content : Type :=
| WislaSample (e : entry)
| WislaSchedule (s : schedule).

Definition wisla_files : Type := dict string wisla_content.

(** [pdict], wisla_problems.py:127-138 *)
Definition wisla_pdict : dict string Q :=
  [("minimal_span", 10); ("single_line", 10); ("minimal_stay", 10); ("track_occupation", 10); ("switch", 10);
   ("occupation", 10); ("circulation", 4); ("objective", 1)].

(** [p], wisla_problems.py:142-145, and [file], [file_sched], lines 146 and 151 *)
Definition wisla_p_text (a : wisla_args) : string :=
  if lmem (w_solve_quantum a) ["bqm"; "cqm"] then str_of_Z (w_min_t a) else "".
Definition wisla_name (a : wisla_args) : string := w_solve_quantum a ++ "_wisla" ++ wisla_p_text a ++ "_case1.pkl".
Definition wisla_file (a : wisla_args) : string := "solutions_quantum/wisla/" ++ wisla_name a.
Definition wisla_sched_file (a : wisla_args) : string := "solutions_quantum/wisla/data4diagrams/" ++ wisla_name a.

(** [file_sched] of an ILP solver, wisla_problems.py:119 *)
Definition wisla_lp_file (a : wisla_args) : string :=
  "solutions_quantum/wisla/data4diagrams/" ++ w_solve_lp a ++ "_wisla_case1.pkl".

(** [t_ref], wisla_problems.py:94: the minute of the day *)
Definition wisla_t_ref : Z := 480.

(** The calls of print_optimisation_results, wisla_problems.py:118 and 150 *)
Definition wisla_print (prob : lpproblem) (value : lpvar -> option Q) : res schedule :=
  print_optimisation_results prob wisla_tt wisla_ts (tt_pass wisla_tt) (skip_of wisla_ts) wisla_d_max wisla_t_ref value.

(** The part for ILP solvers, wisla_problems.py:100-124.  Without values the schedule is a TypeError and the check of the
    order variables an AssertionError; the objective is printed as it is. *)
Definition wisla_lp_part (o : wisla_outside) (a : wisla_args) (prob : lpproblem) (f : wisla_files) : wisla_files * res unit :=
  if eqb (w_solve_lp a) "" then (f, Ok tt)
  else match w_solver o (w_solve_lp a) (w_time_limit a) with
  | None => (f, Err PulpError)
  | Some solver =>
      match solver prob with
      | None => (f, if w_show a then Err TypeError else if existsb is_order_var (variables prob) then Err AssertionError else Ok tt)
      | Some x =>
          let shown := if w_show a then
                         do s <- wisla_print prob (fun v => Some (x (v_id v)));
                         Ok (dset (wisla_lp_file a) (WislaSchedule s) f)
                       else Ok f in
          match shown with
          | Err e => (f, Err e)
          | Ok f' => (f', do _ <- check_count_vars prob x; Ok tt)
          end
      end
  end.

(** The part for samplers, wisla_problems.py:126-163.  A missing file is an [OtherError]; a schedule read in the place of a
    sample has no key "sample". *)
Definition wisla_quantum_part (o : wisla_outside) (a : wisla_args) (prob : lpproblem) (f : wisla_files) : wisla_files * res unit :=
  match method_of (w_solve_quantum a) with
  | None => (f, Ok tt)
  | Some m =>
      if w_show a then
        match dget (wisla_file a) f with
        | Some (WislaSample e) =>
            match wisla_print prob (fun v => dget (v_name v) (e_sample e)) with
            | Err e => (f, Err e)
            | Ok s => (dset (wisla_sched_file a) (WislaSchedule s) f, Ok tt)
            end
        | Some (WislaSchedule _) => (f, Err KeyError)
        | None => (f, Err OtherError)
        end
      else
        match solve_on_quantum (w_samplers o (w_min_t a)) prob m (match m with Cqm => [] | _ => wisla_pdict end) with
        | Err e => (f, Err e)
        | Ok e => (dset (wisla_file a) (WislaSample e) f, Ok tt)
        end
  end.

(** The script, wisla_problems.py:96-163 *)
Definition wisla_script (o : wisla_outside) (a : wisla_args) (f : wisla_files) : wisla_files * res unit :=
  match create_linear_problem wisla_ts wisla_tt wisla_d_max Integer with
  | Err e => (f, Err e)
  | Ok prob =>
      if negb (lmem (w_solve_quantum a) [""; "sim"; "real"; "bqm"; "cqm"]) then (f, Err AssertionError)
      else match wisla_lp_part o a prob f with
      | (f', Err e) => (f', Err e)
      | (f', Ok _) => wisla_quantum_part o a prob f'
      end
  end.
