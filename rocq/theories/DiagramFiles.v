(** * DiagramFiles: how the scripts for diagrams choose a schedule from a file

    solutions_quantum/data4diagrams: echo_gnuplot_file.py from its arguments to the drawn paths (lines 39-91,
    126-137), and read_quantum_pickle.py.  The files are those solve_real_problem.py leaves (Script).

    Simplifications: the scripts run in the directory of the files, so the file is given by its content and by its name;
    a printed path is a value; the list of routes (echo_gnuplot_file.py:47-51, read_quantum_pickle.py:11-15) is never used
    and left out; what comes before an exception is not kept. *)

From Coq Require Import List String Ascii ZArith QArith Bool.
From Verif Require Import Base Pipeline Script Diagrams.
Import ListNotations.
Open Scope string_scope.
Open Scope list_scope.

(** ['cqm' in name]: the word stands at the start of a rest of the name *)
Fixpoint begins_with (word name : string) : bool :=
  match word, name with
  | EmptyString, _ => true
  | String c w, String d n => Ascii.eqb c d && begins_with w n
  | _, _ => false
  end.
Fixpoint contains (word name : string) : bool :=
  begins_with word name || match name with EmptyString => false | String _ r => contains word r end.

(** A schedule taken for a train: its entries are dictionaries of stations, which have no key 'arrive' or
    'departure' (unless a station is called so), so all times are missing *)
Definition as_train (s : schedule) : dict pv stop_entry :=
  map (fun e : pv * dict pv stop_entry => (fst e, MkStop None None None None None None)) s.

(** [data] itself, for files without cqm in their name: a dictionary of runs is read as one of trains *)
Definition whole_file (c : content) : res (dict pv (dict pv stop_entry)) :=
  match c with
  | OneSchedule s => Ok s
  | Schedules l => Ok (map (fun e : Z * schedule => (PInt (fst e), as_train (snd e))) l)
  | Samples _ => Err TypeError
  end.

(** echo_gnuplot_file.py:85-91: with cqm in the name the run asked for, or the first if it is missing ([except]).
    One schedule under such a name is a dictionary of trains: the stops of a train (if its number is asked for) are taken for
    trains, and reading their times fails. *)
Definition chosen (infile : string) (realisation : Z) (c : content) : res (dict pv (dict pv stop_entry)) :=
  if contains "cqm" infile then
    match c with
    | Schedules l =>
        match dget realisation l with
        | Some s => Ok s
        | None => dlookup 1%Z l
        end
    | OneSchedule s =>
        match dget (PInt realisation) s, dget (PInt 1) s with
        | None, None => Err KeyError
        | _, _ => Err TypeError
        end
    | Samples _ => Err TypeError
    end
  else whole_file c.

(** echo_gnuplot_file.py from its arguments to the drawn paths *)
Definition echo_gnuplot_file (infile : string) (realisation : Z) (segment : string) (fixedtrains : list string) (c : content)
  : res (list (string * bool * list (Q * Z) * list (Q * Z * string))) :=
  do kdtraindata <- chosen infile realisation c;
  echo_gnuplot kdtraindata segment fixedtrains.

(** read_quantum_pickle.py:20-23: the run asked for; [sys.argv[2]] is read only here *)
Definition listed (infile : string) (run : Z) (c : content) : res (dict pv (dict pv stop_entry)) :=
  if contains "cqm" infile then
    match c with
    | Schedules l => dlookup run l
    | OneSchedule s => match dget (PInt run) s with None => Err KeyError | Some _ => Err TypeError end
    | Samples _ => Err TypeError
    end
  else whole_file c.

(** The statuses of read_quantum_pickle.py:26, as they are written there *)
Definition statuses : list string := ["conflcted"; "resolved"].

(** read_quantum_pickle.py:25-29: for each train and status the number, the status and the path; [kdtrain2trainpath]
    takes the times without conflicts only for the status 'conflicted' (train_utils.py:42-45) *)
Definition read_quantum_pickle (infile : string) (run : Z) (c : content)
  : res (list (string * string * list (pv * option Z * option Z))) :=
  do kdtraindata <- listed infile run c;
  do out <- mapM (fun kd =>
    mapM (fun status =>
      do t <- kdtrain2trainpath (fst kd) (snd kd) (eqb status "conflicted");
      Ok (tp_number t, status, tp_path t)) statuses) kdtraindata;
  Ok (List.concat out).
