(** * SpecWay: what the way of a train through its stations must satisfy

    Vocabulary for the claims that follow one train from the tables to the departures of a
    solution (C77, C78). *)

From Coq Require Import List String ZArith QArith Bool.
From Verif Require Import Base DataTables SpecTables SpecSets SpecDurations.
Import ListNotations.
Open Scope string_scope.
Open Scope list_scope.

(** How many of the rows belong to stations *)
Fixpoint stations_on (l : list row) : nat :=
  match l with
  | [] => 0
  | r :: l => (match r_station r with Some _ => 1 | None => 0 end) + stations_on l
  end.

(** [plan] has departures (in minutes from [n1]) that the train could keep if it was alone and on
    time: not before it appears, not before its timetable, and with the times for all blocks. *)
Record could_keep (tb : table) (n1 : Z) (plan : string -> Q) : Prop := {
  keep_start : forall s n, appears tb n1 s n -> inject_Z (n - n1) <= plan s;
  keep_timetable : forall s dep n, departs tb s dep -> clock dep n -> inject_Z (n - n1) <= plan s;
  keep_times : forall s s2 mid r2, directly tb s s2 mid -> In r2 tb -> r_station r2 = Some s2 ->
    plan s + running mid + time_of r2 <= plan s2 }.
