(** * Results: model of railway_solvers/railway_solvers/results_manipulation.py and of the sampling part
      of /repo/helpers.py *)

From Coq Require Import List String ZArith QArith Bool.
From Verif Require Import Base Pulp Converters.
Import ListNotations.
Open Scope string_scope.
Open Scope list_scope.

(** [sum(val * sample[var.name] for var, val in terms)] *)
Definition sum_sample (terms : list (lpvar * Q)) (sample : dict string Q) : res Q :=
  foldM (fun acc vq => do q <- dlookup (v_name (fst vq)) sample; Ok (acc + snd vq * q)) terms 0.

(** The comparison of results_manipulation.py:25-30 *)
Definition compare_sense (s : sense) (expr rhs : Q) : bool :=
  match s with
  | EQ => Qeq_bool expr rhs
  | LE => Qle_bool expr rhs
  | GE => Qle_bool rhs expr
  end.

(** analyze_constraints, results_manipulation.py:8-31 *)
Definition analyze_constraints (prob : lpproblem) (sample : dict string Q) : res (dict string bool * nat) :=
  do result <- foldM (fun acc nc =>
                        do expr <- sum_sample (a_terms (c_aff (snd nc))) sample;
                        Ok (dset (fst nc) (compare_sense (c_sense (snd nc)) expr (- a_const (c_aff (snd nc)))) acc))
                     (p_constraints prob) [];
  Ok (result, List.length (filter (fun kb => snd kb) result)).

(** get_objective, results_manipulation.py:33-46 *)
Definition get_objective (prob : lpproblem) (sample : dict string Q) : res Q :=
  do s <- sum_sample (a_terms (p_objective prob)) sample;
  Ok (a_const (p_objective prob) + s).

(** An entry of the result list *)
Record entry : Type := MkEntry {
  e_energy : Q;
  e_objective : Q;
  e_feasible : bool;
  e_sample : dict string Q;
  e_constraints : dict string bool * nat }.

(** get_best_feasible_sample, results_manipulation.py:48-59 *)
Definition get_best_feasible_sample (l : list entry) : res entry :=
  match find e_feasible l with
  | Some e => Ok e
  | None => lnth (sorted_by e_energy l) 0
  end.

(** get_results, results_manipulation.py:61-87 *)
Definition get_results (sampleset : rows (dict string Q)) (prob : lpproblem) : res (list entry) :=
  do l <- mapM (fun se =>
                  do o <- get_objective prob (fst se);
                  do a <- analyze_constraints prob (fst se);
                  Ok (MkEntry (snd se) o (forallb snd (fst a)) (fst se) a))
               (data sampleset);
  Ok (sorted_by e_objective l).

(** count_quadratic_couplings, results_manipulation.py:92-100 *)
Definition count_quadratic_couplings (b : bqm) : nat :=
  fold_left (fun count J => if Qeq_bool J 0 then count else S count) (map snd (b_quadratic b)) 0%nat.

(** count_linear_fields, results_manipulation.py:103-111 *)
Definition count_linear_fields (b : bqm) : nat :=
  fold_left (fun count h => if Qeq_bool h 0 then count else S count) (map snd (b_linear b)) 0%nat.

(** The samplers of d_wave_solves.py as oracles: any rows for a model *)
Inductive method : Type := Sim | Real | HybridBqm | Cqm.

Record samplers : Type := MkSamplers {
  sample_bqm : method -> bqm -> rows bits;
  sample_cqm : cqm -> rows (dict string Q) }.

(** q_process, /repo/helpers.py:173-219 (solver properties and info are not modelled) *)
Definition q_process (o : samplers) (prob : lpproblem) (m : method) (pdict : dict string Q)
  : res (rows (dict string Q)) :=
  match m with
  | Cqm => do c <- convert_to_cqm prob; Ok (sample_cqm o c)
  | _ => do '(b, interp) <- convert_to_bqm prob pdict; interp (sample_bqm o m b)
  end.

(** solve_on_quantum, /repo/helpers.py:222-250 (without the measured times and printing) *)
Definition solve_on_quantum (o : samplers) (prob : lpproblem) (m : method) (pdict : dict string Q) : res entry :=
  do s <- q_process o prob m pdict;
  do l <- get_results s prob;
  get_best_feasible_sample l.

(** count_vars, /repo/helpers.py:158-168: order variables, other variables, constraints *)
Definition is_order_var (v : lpvar) : bool := str_contains "z_" (v_name v) || str_contains "y_" (v_name v).

Definition count_vars (prob : lpproblem) : nat * nat * nat :=
  let order_vars := fold_left (fun n v => if is_order_var v then S n else n) (variables prob) 0%nat in
  let int_vars := (List.length (variables prob) - order_vars)%nat in
  (order_vars, int_vars, List.length (p_constraints prob)).

(** [v in [pytest.approx(0), pytest.approx(1)]]: within 1e-12 of 0 or 1e-6 of 1 *)
Definition approx01 (q : Q) : bool :=
  (Qle_bool (- (1 # 1000000000000)) q && Qle_bool q (1 # 1000000000000)) ||
  (Qle_bool (1 - (1 # 1000000)) q && Qle_bool q (1 + (1 # 1000000))).

(** check_count_vars, /repo/helpers.py:140-154, on the values the solver has left in the problem; the numbers
    are printed *)
Definition check_count_vars (prob : lpproblem) (x : assignment) : res (nat * nat * nat) :=
  do order_vars <- foldM (fun n v => if is_order_var v then
                                       if approx01 (x (v_id v)) then Ok (S n) else Err AssertionError
                                     else Ok n) (variables prob) 0%nat;
  Ok (order_vars, (List.length (variables prob) - order_vars)%nat, List.length (p_constraints prob)).
