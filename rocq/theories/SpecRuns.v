(** * SpecRuns: what the records of the runs over all scenarios must say (C79, C80) *)

From Coq Require Import List String ZArith QArith Bool.
From Verif Require Import Base Pulp Converters Results DataTables Pipeline Runs SpecQubo SpecNames SpecResults.
Import ListNotations.
Open Scope string_scope.
Open Scope list_scope.

(** The sizes in the record are those of the problem (the order and delay variables for stations whose names
    PuLP keeps, see C50). *)
Definition sizes_of (ts : Helpers.train_sets) (p : lpproblem) (r : run_result) : Prop :=
  (run_order_vars r + run_int_vars r = List.length (variables p))%nat /\
  run_constraints r = List.length (p_constraints p) /\
  (plain_names ts -> number_of order_variable (variables p) (run_order_vars r) /\
                     number_of delay_variable (variables p) (run_int_vars r)).

(** The record of a quantum run is right about its sample: the values are in their ranges, the objective is that of the
    sample, the broken constraints are counted, and it is called feasible if and only if none is broken. *)
Definition right_record (p : lpproblem) (r : run_result) : Prop :=
  exists d q b n,
    run_sample r = Some d /\ run_objective r = Some q /\ run_feasible r = Some b /\ run_broken r = Some (Z.of_nat n) /\
    in_range p (values d) /\ q == obj_value p (values d) /\
    number_of (fun nc : string * constr => ~ holds (snd nc) (values d)) (p_constraints p) n /\
    (b = true <-> n = 0%nat) /\ (b = true <-> feasible p (values d)).

(** The PuLP solver finds an optimum whenever it leaves values. *)
Definition exact_solver (solver : lpproblem -> option assignment) : Prop :=
  forall p x, solver p = Some x -> optimal p x.

(** The heights at which fast_plot.py draws the runs of one scenario (lines 31 and 63): the objective of a quantum
    run times [d_max], the objective of a PuLP run as recorded *)
Definition drawn_quantum (d_max : Q) (r : run_result) (y : Q) : Prop := exists q, run_objective r = Some q /\ y == q * d_max.
Definition drawn_lp (r : run_result) (y : Q) : Prop := exists q, run_objective r = Some q /\ y == q.
