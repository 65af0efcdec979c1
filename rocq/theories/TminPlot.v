(** * TminPlot: model of /repo/solutions_quantum/tmin_plot.py, the sweep over the minimal time of the hybrid sampler *)

From Coq Require Import List String ZArith QArith Bool.
From Verif Require Import Base Results Script.
Import ListNotations.
Open Scope string_scope.
Open Scope list_scope.

(** The file of [load_data], tmin_plot.py:13-16; the script is run in the directory solutions_quantum, which is
    written in front as in [Script.files] *)
Definition tmin_file (solver case : string) (tmin : Z) : string :=
  "solutions_quantum/" ++ solver ++ str_of_Z tmin ++ "_" ++ case ++ "_Integer.pkl".

(** The objectives in minutes of one file, tmin_plot.py:33-34, and the assertion of lines 38-39: the product of truth values is 1 if
    all are true.  Lines 35-36 (measured times) are not modelled. *)
Definition tmin_objectives (data : dict Z entry) : res (list Q) :=
  do objectives <- mapM (fun i => do e <- dlookup (Z.of_nat i + 1)%Z data; Ok (e_objective e * 40)) (seq 0 (List.length data));
  do flags <- mapM (fun i => do e <- dlookup (Z.of_nat i + 1)%Z data; Ok (e_feasible e)) (seq 0 (List.length data));
  if forallb (fun b => b) flags then Ok objectives else Err AssertionError.

Definition load_data (f : files) (solver case : string) (tmin : Z) : res (dict Z entry) :=
  match dget (tmin_file solver case tmin) f with
  | Some (Samples data) => Ok data
  | Some _ => Err TypeError
  | None => Err OtherError
  end.

(** [np.mean], [np.min] and [np.max]; the mean of nothing is a NaN, here 0, and the minimum of nothing, taken next, a ValueError *)
Definition np_mean (l : list Q) : Q := fold_right Qplus 0 l / inject_Z (Z.of_nat (List.length l)).

Definition np_min (l : list Q) : res Q :=
  match l with
  | [] => Err ValueError
  | x :: l' => Ok (fold_left (fun m y => if Qle_bool m y then m else y) l' x)
  end.

Definition np_max (l : list Q) : res Q :=
  match l with
  | [] => Err ValueError
  | x :: l' => Ok (fold_left (fun m y => if Qle_bool m y then y else m) l' x)
  end.

(** The objective of CPLEX, tmin_plot.py:22-27; for another case the name is unbound (an [OtherError] at line 63) *)
Definition cplex_objective (case : string) : res Q :=
  if eqb case "case7" then Ok (18875 # 100) else if eqb case "case9" then Ok (1855 # 10) else Err OtherError.

(** What the uppermost diagram shows, tmin_plot.py:45-50 and 62-63: for each minimal time the mean, the least and the largest
    objective, and the line of CPLEX.  The logarithmic fit is not modelled, but it refuses an empty list of times (TypeError).  *)
Record sweep : Type := MkSweep {
  sw_mean : list Q;
  sw_min : list Q;
  sw_max : list Q;
  sw_cplex : list Q }.

(** plotting_objective, tmin_plot.py:20-64 *)
Definition plotting_objective (f : files) (solver case : string) (tmins : list Z) : res sweep :=
  do objectives <- mapM (fun t => do data <- load_data f solver case t; tmin_objectives data) tmins;
  let y1 := map np_mean objectives in
  do y2 <- mapM np_min objectives;
  do y3 <- mapM np_max objectives;
  do _ <- (match tmins with [] => Err TypeError | _ => Ok tt end);
  do c <- cplex_objective case;
  Ok (MkSweep y1 y2 y3 (map (fun _ => c) tmins)).
