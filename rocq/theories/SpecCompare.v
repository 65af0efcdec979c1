(** * SpecCompare: vocabulary of the claims that compare two problems (C10-C12) *)

From Coq Require Import List String ZArith QArith Qround Bool.
From Verif Require Import Base Pulp Helpers Spec.
Import ListNotations.
Open Scope string_scope.
Open Scope list_scope.

Definition moved_by (delta : Q) (o o' : option Q) : Prop :=
  match o, o' with
  | Some q, Some q' => q' == q + delta
  | None, None => True
  | _, _ => False
  end.

(** [tt'] is [tt] with every schedule entry and initial condition moved by [delta]. *)
Definition moved_times (delta : Q) (tt tt' : timetable) : Prop :=
  tt_pass tt' = tt_pass tt /\ tt_headway tt' = tt_headway tt /\ tt_stop tt' = tt_stop tt /\
  tt_prep tt' = tt_prep tt /\ tt_res tt' = tt_res tt /\ tt_weights tt' = tt_weights tt /\
  (forall k, moved_by delta (dget k (tt_schedule tt)) (dget k (tt_schedule tt'))) /\
  (forall k, moved_by delta (dget k (tt_init tt)) (dget k (tt_init tt'))).

(** All times of the input are integers. *)
Definition integral_times (tt : timetable) : Prop :=
  (forall k q, dget k (tt_pass tt) = Some q -> is_int q) /\
  (forall k q, dget k (tt_headway tt) = Some q -> is_int q) /\
  (forall k q, dget k (tt_stop tt) = Some q -> is_int q) /\
  (forall k q, dget k (tt_prep tt) = Some q -> is_int q) /\
  (forall q, tt_res tt = Some q -> is_int q) /\
  (forall k q, dget k (tt_schedule tt) = Some q -> is_int q) /\
  (forall k q, dget k (tt_init tt) = Some q -> is_int q).

(** Delays rounded down, order decisions kept. *)
Definition round_down (x : assignment) : assignment :=
  fun v => if eqb (fst v) "Delays" then inject_Z (Qfloor (x v)) else x v.

(** No entry of the penalty table is negative. *)
Definition nonneg_weights (tt : timetable) : Prop :=
  forall k w, dget k (tt_weights tt) = Some w -> 0 <= w.

(** A solution whose objective is at most [q] exists. *)
Definition reachable_value (p : lpproblem) (q : Q) : Prop :=
  exists x, feasible p x /\ obj_value p x <= q.
