(** * Pipeline: model of the root helpers.py: from the tables to the input of the solver, and from a
    solution to the printed schedule *)

From Coq Require Import List String ZArith QArith Qround Bool.
From Verif Require Import Base Pulp Helpers LinearSolver DataTables DataSets DataTimes.
Import ListNotations.
Open Scope string_scope.
Open Scope list_scope.

(** ** From the tables to the input of the solver *)

(** build_timetables, helpers.py:51-57 (reading the file with pandas and pickling the result are not
    modelled) *)
Definition build_timetables (data : list line) (st : station_blocks) (net : list netrow)
  : res train_dict :=
  do td <- timetable_to_train_dict data;
  update_all_timetables td net st.

(** The dictionary [taus] *)
Record taus : Type := MkTaus {
  t_pass : dict string Q;
  t_headway : dict string Q;
  t_prep : dict string Q;
  t_stop : dict string Q;
  t_res : Q }.

(** make_taus, helpers.py:59-67 *)
Definition make_taus (td : train_dict) (st : station_blocks) (r : Z) : res taus :=
  do pass <- get_taus_pass td None r;
  do headway <- get_taus_headway td st r;
  do prep <- get_taus_prep td st r;
  do '(stop, prep_extra) <- get_taus_stop td st None r;
  Ok (MkTaus pass headway (dupdate prep prep_extra) stop 1).

(** make_timetable, helpers.py:69-81 *)
Definition make_timetable (td : train_dict) (st : station_blocks) (skip_stations : dict Z string)
    (t1 : string) (given : option taus) : res timetable :=
  do t <- (match given with Some t => Ok t | None => make_taus td st 1 end);
  do init <- get_initial_conditions td t1;
  do w <- make_weights td skip_stations (MkWeights 1 (3 # 2) (7 # 4) 0);
  do sched <- get_schedule td t1;
  Ok (MkTT (t_pass t) (t_headway t) (t_stop t) (t_prep t) (Some (t_res t)) sched init w).

(** Trains are integers and stations strings on this side; in the solver both are any Python values. *)
Definition train (j : Z) : pv := PInt j.
Definition station (s : string) : pv := PStr s.
Definition trains (l : list Z) : list pv := map train l.
Definition two_trains (p : Z * Z) : pv * pv := (train (fst p), train (snd p)).

(** make_train_set, helpers.py:83-93 *)
Definition make_train_set (td : train_dict) (st : station_blocks) (net : list netrow)
    (skip_stations : dict Z string) : res train_sets :=
  do d <- jd td st None;
  do o <- josingle td st None;
  do r <- get_jround td st;
  do t <- jtrack td st None;
  do w <- jswitch td st net None;
  Ok (MkTS
    (Some (map (fun e => (train (fst e), station (snd e))) skip_stations))
    (map (fun e => (train (fst e), map station (snd e))) (get_Paths td))
    (trains (get_J td))
    (map (fun e => (station (fst e),
        map (fun f => (station (fst f), map trains (snd f))) (snd e))) d)
    (map (fun e => ((station (fst (fst e)), station (snd (fst e))), map two_trains (snd e))) o)
    (map (fun e => (station (fst e), map two_trains (snd e))) r)
    (map (fun e => (station (fst e), map trains (snd e))) t)
    (map (fun e => (station (fst e),
        map (fun m => map (fun f => (train (fst f), PStr (snd f))) m) (snd e))) w)
    None).

(** The delays of a scenario, solve_real_problem.py:131-217 and solve_KO_GLC_problems.py *)
Definition with_delays (delays : list (Z * Q)) (tt : timetable) : timetable :=
  MkTT (tt_pass tt) (tt_headway tt) (tt_stop tt) (tt_prep tt) (tt_res tt) (tt_schedule tt)
    (fold_left (fun init d => add_delay init (fst d) (snd d)) delays (tt_init tt))
    (tt_weights tt).

(** The delays of case 0 to 9, solve_real_problem.py:130-222: trains and delays of the same position *)
Definition real_delays (case : nat) : list (Z * Q) :=
  match case with
  | 1%nat => [(14006%Z, 12)]
  | 2%nat => [(94766%Z, 15); (40518%Z, 12); (41004%Z, 13); (44862%Z, 6); (4120%Z, 21)]
  | 3%nat | 5%nat | 6%nat | 7%nat =>
      [(94766%Z, 30); (26013%Z, 12); (5312%Z, 18); (40518%Z, 5); (34319%Z, 30); (14006%Z, 23); (40150%Z, 3); (41004%Z, 21);
       (45101%Z, 35); (4500%Z, 10); (49317%Z, 25); (64359%Z, 7); (44862%Z, 5); (73000%Z, 16)]
  | 8%nat =>
      [(94766%Z, 28); (26013%Z, 10); (42009%Z, 12); (5312%Z, 7); (34319%Z, 30); (14006%Z, 13); (94611%Z, 3); (40150%Z, 10);
       (41004%Z, 28); (45101%Z, 30); (94113%Z, 11); (40673%Z, 5); (54101%Z, 7)]
  | 9%nat =>
      [(94766%Z, 30); (26013%Z, 11); (42009%Z, 15); (5312%Z, 19); (40518%Z, 5); (34319%Z, 28); (14006%Z, 21); (40150%Z, 4);
       (41004%Z, 21); (45101%Z, 34); (4500%Z, 11); (49317%Z, 25); (64359%Z, 7); (44862%Z, 5); (73000%Z, 5)]
  | _ => []
  end.

(** Scenario 3 of the line from Katowice to Gliwice, [disturbances[3]] of
    solve_KO_GLC_problems.py:107 *)
Definition glc_3 : list (Z * Q) := [(1%Z, 2); (3%Z, 2); (5%Z, 7)].

(** From the tables to the problem, solve_real_problem.py:110-220.  The script also makes [taus]
    without rounding, which only the printing uses (here not evaluated, so an exception there is not
    modelled). *)
Definition tables_to_problem (td : train_dict) (st : station_blocks) (net : list netrow)
    (t_ref : string) (delays : list (Z * Q)) (d_max : Q) (cat : vcat)
  : res (train_sets * timetable * lpproblem) :=
  do skip_stations <- get_skip_stations td;
  do train_set <- make_train_set td st net skip_stations;
  do timetable <- make_timetable td st skip_stations t_ref None;
  let timetable := with_delays delays timetable in
  do prob <- create_linear_problem train_set timetable d_max cat;
  Ok (train_set, timetable, prob).

(** ** The printed schedule *)

(** [int(q)]: cut off towards zero *)
Definition py_int (q : Q) : Z := if qltb q 0 then (- Qfloor (- q))%Z else Qfloor q.

(** One [s_dict]; times are minutes on the clock of [t_ref] ([None]: no such key) *)
Record stop_entry : Type := MkStop {
  k_arrive : option Z;
  k_conflicted_arrive : option Z;
  k_departure : option Z;
  k_secondary_delay : option Z;
  k_conflicted_departure : option Z;
  k_impact : option Q }.

(** The state of the loop over the stations of a train: [s_prev], [departure_prev],
    [departure_conflict_prev], [train_sched] *)
Definition print_state : Type := (pv * Q * Q * dict pv stop_entry)%type.

(** One pass of the inner loop, helpers.py:105-130 *)
Definition print_stop (prob : lpproblem) (tt : timetable) (ts : train_sets) (pass : dict string Q)
    (skip_stations : dict pv pv) (d_max : Q) (t_ref : Z) (value : lpvar -> option Q) (j : pv)
    (acc : print_state) (s : pv) : res print_state :=
  let '(s_prev, departure_prev, departure_conflict_prev, sched) := acc in
  let '(arrive, conflicted_arrive) :=
    match dget (key_pass j s_prev s) pass with
    | Some q => (Some (t_ref + (py_round q + py_int departure_prev))%Z,
                 Some (t_ref + (py_round q + py_int departure_conflict_prev))%Z)
    | None => (None, None)
    end in
  if (match dget j skip_stations with Some sk => eqb s sk | None => false end) then
    Ok (s_prev, departure_prev, departure_conflict_prev,
        dset s (MkStop arrive conflicted_arrive None None None None) sched)
  else
    do delta_obj <- impact_to_objective prob tt j s d_max value;
    do '(delay, departure, conflicted) <- delay_and_acctual_time ts tt prob j s value;
    Ok (s, departure, conflicted,
        dset s (MkStop arrive conflicted_arrive (Some (t_ref + py_int departure)%Z)
                  (Some (py_int delay)) (Some (t_ref + py_int conflicted)%Z) (Some delta_obj)) sched).

(** print_optimisation_results, helpers.py:95-134 *)
Definition print_optimisation_results (prob : lpproblem) (tt : timetable) (ts : train_sets)
    (pass : dict string Q) (skip_stations : dict pv pv) (d_max : Q) (t_ref : Z)
    (value : lpvar -> option Q) : res (dict pv (dict pv stop_entry)) :=
  foldM (fun sched_dict j =>
    do path <- dlookup j (ts_Paths ts);
    do r <- foldM (print_stop prob tt ts pass skip_stations d_max t_ref value j) path
              (PInt 0, 0, 0, []);
    Ok (dset j (snd r) sched_dict))
  (ts_J ts) [].
