(** * SpecTimes: timetables of one train (C15) *)

From Coq Require Import List String ZArith QArith Bool.
From Verif Require Import Base Pulp Helpers Spec.
Import ListNotations.
Open Scope list_scope.

Definition on_path (ts : train_sets) (j s : pv) : Prop :=
  exists path, dget j (ts_Paths ts) = Some path /\ In s path.

(** The train starts with an initial condition, and every later station has either its own initial
    condition or a running time from the station before and a minimal stop. *)
Definition times_given (ts : train_sets) (tt : timetable) (j : pv) : Prop :=
  (forall s, starts_at ts j s -> exists q, initially tt j s q) /\
  (forall sp s, comes_before ts j sp s ->
     (exists q, initially tt j s q) \/ (exists r st, running tt j sp s r /\ min_stop tt j s st)).

(** Departure times [f] of train [j] respect schedule, initial conditions, running times and stops.
    Where a station has its own initial condition, the position of the train is known there, and the
    run from the station before no longer counts. *)
Definition respects (ts : train_sets) (tt : timetable) (j : pv) (f : pv -> Q) : Prop :=
  forall s, on_path ts j s ->
    (forall q, scheduled tt j s q -> q <= f s) /\
    (forall q, initially tt j s q -> q <= f s) /\
    (forall sp r st, comes_before ts j sp s -> (forall q, ~ initially tt j s q) ->
       running tt j sp s r -> min_stop tt j s st -> f sp + r + st <= f s).

(** Same data except that initial conditions are later by at most [delta]. *)
Definition initially_later (delta : Q) (tt tt' : timetable) : Prop :=
  tt_pass tt' = tt_pass tt /\ tt_stop tt' = tt_stop tt /\ tt_schedule tt' = tt_schedule tt /\
  forall k, match dget k (tt_init tt), dget k (tt_init tt') with
            | Some q, Some q' => q <= q' <= q + delta
            | None, None => True
            | _, _ => False
            end.
