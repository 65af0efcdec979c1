(** * SpecRecords: agreement with recorded sizes and objectives (C83) *)

From Coq Require Import ZArith NArith QArith.
From Verif Require Import Base Pulp Results Runs.

(** The order variables, other variables and constraints that count_vars finds, as numbers *)
Definition has_sizes (p : lpproblem) (s : N * N * N) : Prop :=
  let '(a, b, c) := count_vars p in s = (N.of_nat a, N.of_nat b, N.of_nat c).

(** The record of a run has these sizes. *)
Definition records_sizes (r : run_result) (s : N * N * N) : Prop :=
  s = (N.of_nat (run_order_vars r), N.of_nat (run_int_vars r), N.of_nat (run_constraints r)).

(** The record of a run has this objective and is called feasible. *)
Definition records_objective (r : run_result) (q : Q) : Prop :=
  exists o, run_objective r = Some o /\ o == q /\ run_feasible r = Some true.
