(** * SpecRoom: turnarounds and the largest delay (C54, C81) *)

From Coq Require Import List QArith.
From Verif Require Import Base Pulp Helpers Spec.

(** The rolling stock of [j] can leave [s] as [jp] at [t] at the earliest, [jp] itself at [e]. *)
Definition turns_at (ts : train_sets) (tt : timetable) (s j jp : pv) (t e : Q) : Prop :=
  exists pairs sp e0 r pr, In (s, pairs) (ts_Jround ts) /\ In (j, jp) pairs /\
    comes_before ts j sp s /\ earliest ts tt j sp e0 /\ running tt j sp s r /\ preparation tt jp s pr /\
    t == e0 + r + pr /\ earliest ts tt jp s e.

(** No turnaround needs the whole largest delay. *)
Definition turns_in_time (ts : train_sets) (tt : timetable) (d_max : Q) : Prop :=
  forall s j jp t e, turns_at ts tt s j jp t e -> t < e + d_max.

(** No train needs the whole largest delay to leave a station after coming from the one before. *)
Definition stays_in_time (ts : train_sets) (tt : timetable) (d_max : Q) : Prop :=
  forall j sp s e r st e', decided ts j s -> comes_before ts j sp s -> earliest ts tt j sp e ->
    running tt j sp s r -> min_stop tt j s st -> earliest ts tt j s e' -> e + r + st < e' + d_max.

(** Initial conditions are only given where trains start. *)
Definition given_at_start (ts : train_sets) (tt : timetable) : Prop :=
  forall j sp s i, In j (ts_J ts) -> comes_before ts j sp s -> ~ initially tt j s i.
