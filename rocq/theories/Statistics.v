(** * Statistics: the main part of visualise_statistics.py

    solutions_quantum/data4diagrams/visualise_statistics.py:42-88.  Its functions add_delays_one_realisation and
    get_print_statistics are in Diagrams; the files are those solve_real_problem.py leaves (Script), so their names have
    the directory the script runs in.

    Simplifications: a figure is its name and the numbers drawn for each station; colours, labels, sizes and the limits of
    the axis (line 53) are left out; what is printed or saved before an exception is not kept. *)

From Coq Require Import List String ZArith QArith Bool.
From Verif Require Import Base Pipeline Script Diagrams.
Import ListNotations.
Open Scope string_scope.
Open Scope list_scope.

(** visualise_statistics.py:71, 84 *)
Definition considered_stations : list pv := [PStr "KO(STM)"; PStr "KO"; PStr "CB"; PStr "KL"; PStr "MJ"].

(** The file names, visualise_statistics.py:67, 81 *)
Definition hybrid_file (k : Z) : string := "solutions_quantum/data4diagrams/cqm5_case" ++ str_of_Z k ++ "_Integer.pkl".
Definition classical_file (k : Z) : string :=
  "solutions_quantum/data4diagrams/PULP_CBC_CMD_case" ++ str_of_Z k ++ "_Integer.pkl".

(** [delays] after visualise_statistics.py:68-70: all runs of the file.  In a dictionary of trains the entries of an entry
    are no dictionaries of stations, the [except] of line 13 leaves them out. *)
Definition hybrid_delays (c : content) : res (dict pv (list Z)) :=
  match c with
  | Schedules l => Ok (fold_left (fun delays run => add_delays_one_realisation delays (snd run)) l [])
  | OneSchedule _ => Ok []
  | Samples _ => Err TypeError
  end.

(** [delays] after visualise_statistics.py:82-83 (a dictionary of runs gives nothing, as above) *)
Definition classical_delays (c : content) : res (dict pv (list Z)) :=
  match c with
  | OneSchedule s => Ok (add_delays_one_realisation [] s)
  | Schedules _ => Ok []
  | Samples _ => Err TypeError
  end.

(** What is drawn at a station: the mean, the bar below and above it, and two marks *)
Record drawn : Type := MkDrawn { d_station : pv; d_mean : Q; d_lower : Q; d_upper : Q; d_q25 : Q; d_q75 : Q }.

Record figure : Type := MkFigure { g_file : string; g_points : list drawn }.

(** plot_stats, visualise_statistics.py:42-62; [k] is the global variable of the main part *)
Definition plot_stats (k : Z) (delays : dict pv (list Z)) (stats : list (Z * Q * Q * Q * Z)) (name : string)
  : res (list figure) :=
  if lmem k [0; 4; 7]%Z then
    do points <- mapM (fun x : pv * (Z * Q * Q * Q * Z) =>
      let '(e, (_, q75, mean, q25, _)) := x in
      do l <- dlookup e delays;
      Ok (MkDrawn e mean (np_mean l - inject_Z (np_min l)) (inject_Z (np_max_z l) - np_mean l) q25 q75))
      (combine considered_stations stats);
    Ok [MkFigure (name ++ "_case" ++ str_of_Z k ++ ".pdf") points]
  else Ok [].

(** One pass of a loop, visualise_statistics.py:67-76 and 81-88 *)
Definition one_case (f : files) (file : string) (collect : content -> res (dict pv (list Z))) (name : string) (k : Z)
  : res (list (Z * Q * Q * Q * Z) * list figure) :=
  do data <- match dget file f with Some c => Ok c | None => Err OtherError end;
  do delays <- collect data;
  do stats <- get_print_statistics delays considered_stations;
  do figures <- plot_stats k delays stats name;
  Ok (stats, figures).

(** The main part, visualise_statistics.py:64-88: for each case what is printed and the figures it saves, first for
    the hybrid solver and then for the classical one *)
Definition visualise_statistics (f : files)
  : res (list (list (Z * Q * Q * Q * Z) * list figure) * list (list (Z * Q * Q * Q * Z) * list figure)) :=
  let cases := map Z.of_nat (seq 0 10) in
  do hybrid <- mapM (fun k => one_case f (hybrid_file k) hybrid_delays "statistics" k) cases;
  do classical <- mapM (fun k => one_case f (classical_file k) classical_delays "classical_statistics" k) cases;
  Ok (hybrid, classical).
