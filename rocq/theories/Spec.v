(** * Spec: what a conflict-free timetable is

    Independent of how the solver builds its problem: the definitions below use only the
    input sets, the time spans of the timetable file, and departure times.  They are the
    vocabulary of the theorems in Properties*.v. *)

From Coq Require Import List String ZArith QArith Bool.
From Verif Require Import Base Pulp Helpers.
Import ListNotations.
Open Scope string_scope.
Open Scope list_scope.

(** ** Identifiers *)

(** All trains and all stations mentioned anywhere in the input sets. *)
Definition mentioned_trains (ts : train_sets) : list pv :=
  ts_J ts ++ dkeys (ts_Paths ts)
  ++ flat_map (fun e => flat_map (fun p => [fst p; snd p]) (snd e)) (ts_Josingle ts)
  ++ flat_map (fun e => flat_map (fun f => List.concat (snd f)) (snd e)) (ts_Jd ts)
  ++ flat_map (fun e => flat_map (fun p => [fst p; snd p]) (snd e)) (ts_Jround ts)
  ++ flat_map (fun e => List.concat (snd e)) (ts_Jtrack ts)
  ++ flat_map (fun e => flat_map (fun d => dkeys d) (snd e)) (ts_Jswitch ts).

Definition mentioned_stations (ts : train_sets) : list pv :=
  List.concat (map snd (ts_Paths ts))
  ++ flat_map (fun e => [fst (fst e); snd (fst e)]) (ts_Josingle ts)
  ++ flat_map (fun e => fst e :: dkeys (snd e)) (ts_Jd ts)
  ++ dkeys (ts_Jround ts) ++ dkeys (ts_Jtrack ts) ++ dkeys (ts_Jswitch ts).

(** The two keywords the solver mixes with identifiers in one dictionary are not used as
    identifiers: no train is called "in" or "one_station", no station "one_station"; and
    Python's [None] is neither a train nor a station. *)
Definition reserved_free (ts : train_sets) : Prop :=
  (forall j, In j (mentioned_trains ts) ->
     j <> PNone /\ j <> PStr "in" /\ j <> PStr "one_station") /\
  (forall s, In s (mentioned_stations ts) -> s <> PNone /\ s <> PStr "one_station").

(** ** Time spans of the input *)

Definition joined (l : list pv) : string := join_us (map str l).

(** Running time of [j] from [s] to [sp]; minimal headway when [j] leaves [s] towards [sp]
    before [jp]; minimal stop; preparation; switch/track reservation time. *)
Definition running (tt : timetable) (j s sp : pv) (q : Q) : Prop :=
  dget (joined [j; s; sp]) (tt_pass tt) = Some q.
Definition headway (tt : timetable) (j jp s sp : pv) (q : Q) : Prop :=
  dget (joined [j; jp; s; sp]) (tt_headway tt) = Some q.
Definition min_stop (tt : timetable) (j s : pv) (q : Q) : Prop :=
  dget (joined [j; s]) (tt_stop tt) = Some q.
Definition preparation (tt : timetable) (j s : pv) (q : Q) : Prop :=
  dget (joined [j; s]) (tt_prep tt) = Some q.
Definition reservation (tt : timetable) (q : Q) : Prop := tt_res tt = Some q.
Definition scheduled (tt : timetable) (j s : pv) (q : Q) : Prop :=
  dget (joined [j; s]) (tt_schedule tt) = Some q.
Definition initially (tt : timetable) (j s : pv) (q : Q) : Prop :=
  dget (joined [j; s]) (tt_init tt) = Some q.

(** No initial condition is given for the "station" None. *)
Definition none_free (tt : timetable) : Prop := forall j q, ~ initially tt j PNone q.

(** ** Paths *)

(** [sp] is directly before [s] on the path of [j] ([s] taken at its first occurrence). *)
Definition comes_before (ts : train_sets) (j sp s : pv) : Prop :=
  exists path l1 l2, dget j (ts_Paths ts) = Some path /\
    path = l1 ++ sp :: s :: l2 /\ ~ In s (l1 ++ [sp]).

(** [j] starts at [s]. *)
Definition starts_at (ts : train_sets) (j s : pv) : Prop :=
  exists l, dget j (ts_Paths ts) = Some (s :: l).

(** [j] and [jp] stand (in this order, at different positions) in the list. *)
Definition listed {A : Type} (l : list A) (j jp : A) : Prop :=
  exists l1 l2 l3, l = l1 ++ j :: l2 ++ jp :: l3.

(** [j] and [jp] are linked by a turnaround somewhere. *)
Definition same_rolling_stock (ts : train_sets) (j jp : pv) : Prop :=
  j <> jp /\ exists s pairs, In (s, pairs) (ts_Jround ts) /\
    (In (j, jp) pairs \/ In (jp, j) pairs).

(** At station [s] the rolling stock of [j] continues as train [jn] (if several pairs of the
    turnaround list name [j], the first one counts). *)
Definition continues_as (ts : train_sets) (s j jn : pv) : Prop :=
  exists l1 l2, dget s (ts_Jround ts) = Some (l1 ++ (j, jn) :: l2) /\ ~ In j (map fst l1).

(** Dually: [j] is served at [s] by the rolling stock of [jr]. *)
Definition taken_from (ts : train_sets) (s jr j : pv) : Prop :=
  exists l1 l2, dget s (ts_Jround ts) = Some (l1 ++ (jr, j) :: l2) /\ ~ In j (map snd l1).

(** The input asks to skip station [s] for train [j]. *)
Definition skipped (ts : train_sets) (j s : pv) : Prop :=
  exists sk, ts_skip ts = Some sk /\ dget j sk = Some s.

(** The departure of [j] from [s] is a decision of the solver: [j] is a modelled train that
    visits [s], does not skip it, and does not end there as another train. *)
Definition decided (ts : train_sets) (j s : pv) : Prop :=
  In j (ts_J ts) /\ (exists path, dget j (ts_Paths ts) = Some path /\ In s path) /\
  ~ skipped ts j s /\ ~ (exists jn, continues_as ts s j jn).

(** ** Earliest departures *)

(** [e] is the later of [t] and the scheduled departure (if there is one). *)
Definition not_before_schedule (tt : timetable) (j s : pv) (t e : Q) : Prop :=
  (exists q, scheduled tt j s q /\ ((q <= t /\ e == t) \/ (t <= q /\ e == q))) \/
  ((forall q, ~ scheduled tt j s q) /\ e == t).

(** Earliest possible departure of [j] from [s] when no other train is in the way: the initial
    condition if one is given for [j] at [s], otherwise earliest departure from the station
    before, running time and minimal stop; never before the schedule. *)
Inductive earliest (ts : train_sets) (tt : timetable) (j : pv) : pv -> Q -> Prop :=
| earliest_init s i e :
    initially tt j s i -> not_before_schedule tt j s i e -> earliest ts tt j s e
| earliest_next s sp e0 r st e :
    (forall i, ~ initially tt j s i) -> comes_before ts j sp s ->
    earliest ts tt j sp e0 -> running tt j sp s r -> min_stop tt j s st ->
    not_before_schedule tt j s (e0 + r + st) e -> earliest ts tt j s e.

(** ** Departure times of a solution *)

(** Value of a variable of problem [p] in solution [x]; a variable that does not occur in the
    problem is not decided by the solver and counts as 0 (no delay). *)
Definition value_in (p : lpproblem) (x : assignment) (v : vid) : Q :=
  if lmem v (map v_id (variables p)) then x v else 0.

(** Solution [x] of [p] lets train [j] leave [s] at time [t]: earliest possible departure
    plus the secondary delay, the value of the variable Delays_j_s. *)
Definition departs (ts : train_sets) (tt : timetable) (p : lpproblem) (x : assignment)
    (j s : pv) (t : Q) : Prop :=
  exists e, earliest ts tt j s e /\ t == e + value_in p x ("Delays", [j; s]).

(** Train [j] arrives at [s] (coming from the station before) at time [t]. *)
Definition arrives (ts : train_sets) (tt : timetable) (p : lpproblem) (x : assignment)
    (j s : pv) (t : Q) : Prop :=
  exists sp t0 r, comes_before ts j sp s /\ departs ts tt p x j sp t0 /\
    running tt j sp s r /\ t == t0 + r.

(** ** Rules *)

(** Two events with times [a], [b]: either the second is at least [gab] after the first, or
    the first at least [gba] after the second. *)
Definition separated (a b gab gba : Q) : Prop := a + gab <= b \/ b + gba <= a.

(** The rolling stock of [j] stands on the track of [s] from time [a] on: from the arrival of
    the train it comes from, from its own arrival, or (a train that starts at [s]) from its
    earliest possible departure. *)
Definition occupies_from (ts : train_sets) (tt : timetable) (p : lpproblem) (x : assignment)
    (s j : pv) (a : Q) : Prop :=
  (exists jr, taken_from ts s jr j /\ arrives ts tt p x jr s a) \/
  ((forall jr, ~ taken_from ts s jr j) /\ arrives ts tt p x j s a) \/
  ((forall jr, ~ taken_from ts s jr j) /\ starts_at ts j s /\ earliest ts tt j s a).

(** ... until time [d]: its own departure, or the departure of the train it continues as. *)
Definition occupies_until (ts : train_sets) (tt : timetable) (p : lpproblem) (x : assignment)
    (s j : pv) (d : Q) : Prop :=
  (exists jn, continues_as ts s j jn /\ departs ts tt p x jn s d) \/
  ((forall jn, ~ continues_as ts s j jn) /\ departs ts tt p x j s d).

(** Extra time between two uses of a track: the reservation time where additional switches
    are declared, otherwise nothing. *)
Definition track_gap (ts : train_sets) (tt : timetable) (s : pv) (g : Q) : Prop :=
  (exists l, ts_add_switches ts = Some l /\ In s l /\ reservation tt g) \/
  ((forall l, ts_add_switches ts = Some l -> ~ In s l) /\ g == 0).

(** Train [j] uses the switch group [pair] of station [s] at time [t]: when leaving ("out")
    or when entering ("in"). *)
Definition uses_switch (ts : train_sets) (tt : timetable) (p : lpproblem) (x : assignment)
    (s : pv) (pair : dict pv pv) (j : pv) (t : Q) : Prop :=
  (dget j pair = Some (PStr "out") /\ departs ts tt p x j s t) \/
  (dget j pair = Some (PStr "in") /\ arrives ts tt p x j s t).

(** At [s], [j] leaves and [k] comes in over a common switch. *)
Definition crosses_at (ts : train_sets) (s j k : pv) : Prop :=
  exists l pair, In (s, l) (ts_Jswitch ts) /\ In pair l /\
    (pair = [(j, PStr "out"); (k, PStr "in")] \/ pair = [(k, PStr "in"); (j, PStr "out")]).

(** ** Station tracks *)

(** [j] and [jp] stand in one group of the trains that use the same track of [s]. *)
Definition shares_track (ts : train_sets) (s j jp : pv) : Prop :=
  exists groups js, In (s, groups) (ts_Jtrack ts) /\ In js groups /\
    (listed js j jp \/ listed js jp j).

(** [a] is a contiguous part of the string [b]. *)
Definition part_of (a b : string) : Prop := exists u v, b = (u ++ a ++ v)%string.

(** The name of the station to skip for [j] contains the name of [s]. *)
Definition names_skip (ts : train_sets) (j s : pv) : Prop :=
  exists sk name s', ts_skip ts = Some sk /\ dget j sk = Some (PStr name) /\ s = PStr s' /\
    part_of s' name.

(** If [j] turns around at [s] into [jn], then [jn] is listed on that track against [jp] as
    well, is other rolling stock than [jp], does not skip [s], and really leaves [s]. *)
Definition turnaround_closed (ts : train_sets) (s j jp : pv) : Prop :=
  forall jn, continues_as ts s j jn ->
    shares_track ts s jn jp /\ ~ same_rolling_stock ts jn jp /\
    ~ names_skip ts jn s /\ (forall k, ~ continues_as ts s jn k).

(** ** Order decisions *)

(** Two answers form one decision if one of them is a 0/1 variable and the other is one minus it. *)
Definition one_decision (a b : aff) : Prop :=
  exists v, v_lo v = Some 0 /\ v_up v = Some 1 /\ v_cat v = Integer /\
    ((forall x, eval a x == x (v_id v) /\ eval b x == 1 - x (v_id v)) \/
     (forall x, eval b x == x (v_id v) /\ eval a x == 1 - x (v_id v))).
