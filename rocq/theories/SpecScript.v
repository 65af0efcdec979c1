(** * SpecScript: what the script solve_real_problem.py leaves behind (C85) *)

From Coq Require Import List String ZArith QArith.
From Verif Require Import Base Pulp Helpers Pipeline Spec SpecDurations.
Import ListNotations.

(** The printed schedule [sched] shows the plan [x] on a clock that starts at minute [t_ref]: departures, secondary
    delays and arrivals in whole minutes; no departure where a train is not followed any more. *)
Definition shows_plan (ts : train_sets) (tt : timetable) (p : lpproblem) (x : assignment) (t_ref : Z)
    (sched : dict pv (dict pv stop_entry)) : Prop :=
  forall j path, In j (ts_J ts) -> dget j (ts_Paths ts) = Some path ->
  exists printed, dget j sched = Some printed /\
  forall s, In s path -> exists k, dget s printed = Some k /\
    (skipped ts j s -> k_departure k = None /\ k_secondary_delay k = None) /\
    (In ("Delays"%string, [j; s]) (map v_id (variables p)) ->
       (forall z, Spec.departs ts tt p x j s (inject_Z z) -> k_departure k = Some (t_ref + z)%Z) /\
       (forall z, (x ("Delays"%string, [j; s]) == inject_Z z)%Q -> k_secondary_delay k = Some z)) /\
    (forall sp z, comes_before ts j sp s -> In ("Delays"%string, [j; sp]) (map v_id (variables p)) ->
       arrives ts tt p x j s (inject_Z z) -> k_arrive k = Some (t_ref + z)%Z).

(** Floats are written without underscore, and different ones differently. *)
Definition written_apart (text : Q -> string) : Prop :=
  (forall q, no_underscore (text q)) /\ forall q q', text q = text q' -> (q == q')%Q.
