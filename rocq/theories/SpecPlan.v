(** * SpecPlan: dispatching plans, independently of any optimisation problem

    A plan is what a dispatcher decides: when each train leaves each station, and which of
    two trains goes first wherever both need the same piece of infrastructure.  The rules
    below are the rules of the railway, in terms of the input sets and these decisions. *)

From Coq Require Import List String ZArith QArith Bool.
From Verif Require Import Base Pulp Helpers Spec.
Import ListNotations.
Open Scope string_scope.
Open Scope list_scope.

Record plan : Type := MkPlan {
  leave : pv -> pv -> Q;                       (** train, station: departure time *)
  goes_first : pv -> pv -> pv -> bool;         (** station, train, other train *)
  enters_first : pv -> pv -> pv -> bool;       (** station, train, other train *)
  meets_first : pv -> pv -> pv -> pv -> bool   (** from, train, other's from, other train *) }.

(** Of two different trains exactly one is first. *)
Definition orders_consistent (pl : plan) : Prop :=
  (forall s j k, j <> k -> goes_first pl s k j = negb (goes_first pl s j k)) /\
  (forall s j k, j <> k -> enters_first pl s k j = negb (enters_first pl s j k)) /\
  (forall s j sp k, j <> k -> meets_first pl sp k s j = negb (meets_first pl s j sp k)).

Section Rules.
  Variables (ts : train_sets) (tt : timetable) (d_max : Q) (cat : vcat) (pl : plan).

  (** [j] reaches [s] at time [t]. *)
  Definition reaches (j s : pv) (t : Q) : Prop :=
    exists sp r, comes_before ts j sp s /\ running tt j sp s r /\ t == leave pl j sp + r.

  (** The rolling stock of [j] stands at [s] from time [a] on. *)
  Definition stands_from (s j : pv) (a : Q) : Prop :=
    (exists jr, taken_from ts s jr j /\ reaches jr s a) \/
    ((forall jr, ~ taken_from ts s jr j) /\ reaches j s a) \/
    ((forall jr, ~ taken_from ts s jr j) /\ starts_at ts j s /\ earliest ts tt j s a).

  (** Departures lie in the window of secondary delays allowed (whole minutes of delay if
      delays are integers). *)
  Definition in_window : Prop := forall j s e,
    decided ts j s -> earliest ts tt j s e ->
    e <= leave pl j s <= e + d_max /\ (cat = Integer -> is_int (leave pl j s - e)).

  (** A train runs to the next station and stops there for the minimal time. *)
  Definition stays_kept : Prop := forall j sp s r st,
    In j (ts_J ts) -> comes_before ts j sp s -> decided ts j s ->
    running tt j sp s r -> min_stop tt j s st -> leave pl j sp + r + st <= leave pl j s.

  (** Two trains following each other keep the headway. *)
  Definition headways_kept : Prop := forall s inner sp groups js j k h,
    In (s, inner) (ts_Jd ts) -> In (sp, groups) inner -> In js groups ->
    (listed js j k \/ listed js k j) -> goes_first pl s j k = true ->
    headway tt j k s sp h -> leave pl j s + h <= leave pl k s.

  (** Two trains meeting on a single line: the second waits until the first has arrived. *)
  Definition line_kept : Prop := forall s sp l j k,
    In ((s, sp), l) (ts_Josingle ts) -> In (j, k) l -> ~ same_rolling_stock ts j k ->
    (meets_first pl s j sp k = true -> forall r, running tt j s sp r -> leave pl j s + r <= leave pl k sp) /\
    (meets_first pl sp k s j = true -> forall r, running tt k sp s r -> leave pl k sp + r <= leave pl j s).

  (** The rolling stock of an ending train is prepared before it leaves as the next train. *)
  Definition turnarounds_kept : Prop := forall s l j jn t r,
    In (s, l) (ts_Jround ts) -> In (j, jn) l -> reaches j s t -> preparation tt jn s r ->
    t + r <= leave pl jn s.

  (** A station track is left by the first train before the second one comes. *)
  Definition tracks_kept : Prop := forall s j k a g,
    shares_track ts s j k -> ~ same_rolling_stock ts j k -> ~ names_skip ts j s ->
    (forall jn, ~ continues_as ts s j jn) -> goes_first pl s j k = true ->
    stands_from s k a -> track_gap ts tt s g -> leave pl j s + g <= a.

  (** Rolling stock that turns around keeps its place in the order of the track. *)
  Definition turn_keeps_order : Prop := forall s j jn k,
    shares_track ts s j k -> ~ same_rolling_stock ts j k -> ~ names_skip ts j s ->
    continues_as ts s j jn -> goes_first pl s k jn = goes_first pl s k j.

  (** [j] and [k] cannot change their order between [sp] and [s]: they run on the same line. *)
  Definition same_line (sp s j k : pv) : Prop :=
    ts_Jd ts = [] \/
    exists inner groups js, dget sp (ts_Jd ts) = Some inner /\ dget s inner = Some groups /\
      In js groups /\ In j js /\ In k js.

  (** Trains on the same line that also share a track at its end keep their order. *)
  Definition no_overtaking : Prop := forall sp s j k,
    shares_track ts s j k -> ~ same_rolling_stock ts j k -> comes_before ts j sp s ->
    comes_before ts k sp s -> same_line sp s j k -> goes_first pl s j k = goes_first pl sp j k.

  (** Not a rule of the railway, but what the solver asks in addition (linear_solver.py:423-431):
      it treats [k] as following [j] on the line also if [k] only starts at [s], and takes the order at
      [s] to be the order at the station [sp] from which [j] comes. *)
  Definition starting_train_ordered_before : Prop := forall sp s j k,
    shares_track ts s j k -> ~ same_rolling_stock ts j k -> comes_before ts j sp s ->
    starts_at ts k s -> In sp (dkeys (ts_Jd ts)) -> goes_first pl s j k = goes_first pl sp j k.

  (** [j] and [k] are listed with one switch group of [s] which both pass when entering. *)
  Definition enter_together (s j k : pv) : Prop :=
    exists l pair, dget s (ts_Jswitch ts) = Some l /\ In pair l /\
      dget j pair = Some (PStr "in") /\ dget k pair = Some (PStr "in").

  (** Trains that enter through the same switches use a common track in the order in which
      they enter. *)
  Definition track_order_is_entering_order : Prop := forall s j k,
    shares_track ts s j k -> ~ same_rolling_stock ts j k -> enter_together s j k ->
    ~ (exists sp, comes_before ts j sp s /\ comes_before ts k sp s /\ same_line sp s j k) ->
    goes_first pl s j k = enters_first pl s j k.

  (** Time at which [j] passes the switch group [pair] of [s]. *)
  Definition passes_at (s : pv) (pair : dict pv pv) (j : pv) (t : Q) : Prop :=
    (dget j pair = Some (PStr "out") /\ t == leave pl j s) \/
    (dget j pair = Some (PStr "in") /\ reaches j s t).

  (** [j] passes the switch group before [k]: this is the order of departures if both leave;
      the order on the line if both come from the same line; the order of entering if they come
      from different lines; and the order of meeting if one enters and the other leaves. *)
  Inductive passes_before (s : pv) (pair : dict pv pv) (j k : pv) : bool -> Prop :=
  | pb_out_out : dget j pair = Some (PStr "out") -> dget k pair = Some (PStr "out") ->
      passes_before s pair j k (goes_first pl s j k)
  | pb_line sp : dget j pair = Some (PStr "in") -> dget k pair = Some (PStr "in") ->
      comes_before ts j sp s -> comes_before ts k sp s -> same_line sp s j k ->
      passes_before s pair j k (goes_first pl sp j k)
  | pb_in_in : dget j pair = Some (PStr "in") -> dget k pair = Some (PStr "in") ->
      ~ (exists sp, comes_before ts j sp s /\ comes_before ts k sp s /\ same_line sp s j k) ->
      passes_before s pair j k (enters_first pl s j k)
  | pb_in_out sp : dget j pair = Some (PStr "in") -> dget k pair = Some (PStr "out") ->
      comes_before ts j sp s -> passes_before s pair j k (meets_first pl sp j s k)
  | pb_out_in sp : dget j pair = Some (PStr "out") -> dget k pair = Some (PStr "in") ->
      comes_before ts k sp s -> passes_before s pair j k (meets_first pl s j sp k).

  (** Two trains pass a switch group one after the other. *)
  Definition switches_kept : Prop := forall s l pair j k t u r,
    In (s, l) (ts_Jswitch ts) -> In pair l -> j <> k -> ~ same_rolling_stock ts j k ->
    passes_before s pair j k true -> passes_at s pair j t -> passes_at s pair k u ->
    reservation tt r -> t + r <= u.

  Record conflict_free_plan : Prop := {
    cf_orders : orders_consistent pl;
    cf_window : in_window;
    cf_stays : stays_kept;
    cf_headways : headways_kept;
    cf_line : line_kept;
    cf_turnarounds : turnarounds_kept;
    cf_tracks : tracks_kept;
    cf_turn_order : turn_keeps_order;
    cf_no_overtaking : no_overtaking;
    cf_entering : track_order_is_entering_order;
    cf_switches : switches_kept }.
End Rules.

(** No train is listed against itself. *)
Definition distinct_pairs (ts : train_sets) : Prop :=
  (forall s inner sp groups js, In (s, inner) (ts_Jd ts) -> In (sp, groups) inner ->
     In js groups -> NoDup js) /\
  (forall k l j jp, In (k, l) (ts_Josingle ts) -> In (j, jp) l -> j <> jp) /\
  (forall s groups js, In (s, groups) (ts_Jtrack ts) -> In js groups -> NoDup js) /\
  (forall s l pair, In (s, l) (ts_Jswitch ts) -> In pair l -> NoDup (dkeys pair)).
