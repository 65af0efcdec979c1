(** * Runs: model of the loop of /repo/solve_KO_GLC_problems.py over its scenarios *)

From Coq Require Import List String ZArith QArith Bool.
From Verif Require Import Base Pulp Helpers LinearSolver Converters Results DataTables DataSets DataTimes Pipeline.
Import ListNotations.
Open Scope string_scope.
Open Scope list_scope.

(** [dict({i: i%m for i in train_set["J"]})], solve_KO_GLC_problems.py:114-115; numbers
    of trains are integers *)
Definition remainders (m : Z) (J : list pv) : list (Z * Q) :=
  flat_map (fun j => match j with PInt i => [(i, inject_Z (i mod m))] | _ => [] end) J.

Open Scope Z_scope.

(** [disturbances], solve_KO_GLC_problems.py:101-127, in the order of the keys 0, 1, ..., 11 *)
Definition disturbances (case : Z) (J : list pv) : list (list (Z * Q)) :=
  let delays (l : list (Z * Z)) := map (fun e => (fst e, inject_Z (snd e))) l in
  [] ::
  if negb (case =? 3) then
    map delays
      [[(4602, 2)];
       [(6401, 3); (4604, 13)];
       [(1, 2); (3, 2); (5, 7)];
       [(2, 2); (4, 2); (6405, 3); (6407, 3)];
       [(1, 5); (2, 3); (3, 7); (4, 2); (5, 1); (6401, 2)];
       [(3, 7); (4, 2); (5, 1); (23, 6); (1, 6); (6407, 2); (101, 4); (4602, 7)];
       [(1, 5); (11, 3); (21, 3); (25, 2); (2, 4); (4, 6); (6, 6); (8, 3); (10, 3); (22, 6); (24, 1)];
       [(1, 3); (2, 5); (3, 7); (4, 25); (5, 8); (6, 12); (7, 17); (23, 4); (25, 3); (24, 8); (10, 4); (6401, 3); (6403, 7);
        (101, 8)];
       [(2, 3); (4602, 1); (4, 10); (102, 2); (6, 15); (8, 7); (4604, 4); (10, 1); (12, 7); (1, 10); (101, 8); (3, 2);
        (6401, 6); (5, 15); (7, 1); (103, 30); (9, 7); (6403, 8)]]
    ++ [remainders 3 J; remainders 10 J]
  else
    map delays
      [[(2, 18)];
       [(2, 36); (4602, 20)];
       [(101, 18); (1, 29); (3, 25)];
       [(101, 18); (1, 29); (3, 25); (5, 15); (2, 18)];
       [(101, 18); (1, 29); (3, 25); (5, 15); (2, 36); (4602, 20); (9, 12)];
       [(101, 18); (1, 29); (3, 25); (5, 15); (2, 36); (4602, 20); (9, 12); (103, 15); (10, 50); (4606, 30)];
       [(2, 50); (4602, 32); (4, 10); (102, 5); (1, 12); (101, 10)];
       [(2, 90); (4602, 72); (4, 72); (102, 45); (4604, 10); (101, 47); (6401, 35); (3, 20)];
       [(2, 90); (4602, 72); (4, 72); (102, 45); (4604, 10); (101, 47); (6401, 35); (6403, 20); (5, 25); (103, 30); (3, 60);
        (10, 25)];
       [(1, 29); (2, 36); (4602, 20); (9, 12); (4606, 30); (102, 45); (101, 47); (6401, 35); (6403, 20); (5, 25); (103, 30);
        (3, 60); (4604, 10); (10, 25)];
       [(2, 92); (4602, 70); (4, 72); (102, 46); (101, 45); (6401, 33); (6403, 20); (5, 25); (103, 28); (3, 59); (4604, 12);
        (10, 25)]].
Close Scope Z_scope.

(** [pdict] of solve_KO_GLC_problems.py:132-144 ([p] is 2.5) and solve_real_problem.py:256-268 ([p] is
    [args.penalty]) *)
Definition script_pdict (p : Q) : dict string Q :=
  [("minimal_span", p); ("single_line", p); ("minimal_stay", p); ("track_occupation", p); ("switch", p);
   ("occupation", p); ("circulation", p); ("objective", 1)].

(** What the command line asks for: nothing but the sizes, [--solve_lp], or [--solve_quantum].  A PuLP
    solver is an oracle that leaves values in the variables, or none. *)
Inductive way_to_solve : Type :=
| OnlySizes
| WithLp (solver : lpproblem -> option assignment)
| WithQuantum (o : samplers) (m : method).

(** [result], solve_KO_GLC_problems.py:166-212 (without the measured times, solver properties and info; [None]:
    no such key).  With a PuLP solver the broken constraints are not put into [result]. *)
Record run_result : Type := MkRun {
  run_order_vars : nat;
  run_int_vars : nat;
  run_constraints : nat;
  run_objective : option Q;
  run_feasible : option bool;
  run_sample : option (dict string Q);
  run_broken : option Z }.

(** One pass of the loop, solve_KO_GLC_problems.py:152-214.  If the solver leaves no values
    [prob.objective.value()] is None and the product with [d_max] a TypeError (the objective of a problem with
    a decided departure has a term). *)
Definition glc_scenario (td : train_dict) (st : station_blocks) (skip_stations : dict Z string) (train_set : train_sets)
    (t_ref : string) (d_max : Q) (cat : vcat) (how : way_to_solve) (dist : list (Z * Q)) : res run_result :=
  do timetable <- make_timetable td st skip_stations t_ref None;
  do timetable <- foldM (fun tt iq =>
                           if lmem (PInt (fst iq)) (ts_J train_set) then Ok (with_delays [iq] tt) else Err AssertionError)
                        dist timetable;
  do prob <- create_linear_problem train_set timetable d_max cat;
  let '(order_vars, int_vars, constraints) := count_vars prob in
  match how with
  | OnlySizes => Ok (MkRun order_vars int_vars constraints None None None None)
  | WithLp solver =>
      match solver prob with
      | None => Err TypeError
      | Some x =>
          do _ <- check_count_vars prob x;
          Ok (MkRun order_vars int_vars constraints (Some (obj_value prob x * d_max)) (Some true) None None)
      end
  | WithQuantum o m =>
      do e <- solve_on_quantum o prob m (script_pdict (5 # 2));
      Ok (MkRun order_vars int_vars constraints (Some (e_objective e)) (Some (e_feasible e)) (Some (e_sample e))
            (Some (Z.of_nat constraints - Z.of_nat (snd (e_constraints e)))%Z))
  end.

(** The script from the tables on, solve_KO_GLC_problems.py:86-214 ([taus] is made but only used for
    printing); [results[0]], [results[1]], ... *)
Definition glc_runs (td : train_dict) (st : station_blocks) (net : list netrow) (case : Z) (cat : vcat)
    (how : way_to_solve) : res (list run_result) :=
  do skip_stations <- get_skip_stations td;
  do train_set <- make_train_set td st net skip_stations;
  mapM (glc_scenario td st skip_stations train_set "14:00" 40 cat how) (disturbances case (ts_J train_set)).
