(** * SpecEnd: what a schedule computed from the tables must satisfy

    Vocabulary for the claims that go from the tables to the departure times of a solution
    (C56-C61, C66): tidy and complete tables, where a train is between two stations, and delays of a scenario. *)

From Coq Require Import List String ZArith QArith Bool.
From Verif Require Import Base DataTables SpecTables SpecSets SpecDurations SpecNames.
Import ListNotations.
Open Scope string_scope.
Open Scope list_scope.

(** Tables as in the repository: trains, stations and blocks listed once, stations marked in the
    timetables, no station or block visited twice by a train, and names of stations that are not
    empty, not "None", and have no underscore. *)
Record tidy (td : train_dict) (st : station_blocks) : Prop := {
  tidy_trains : NoDup (dkeys td);
  tidy_stations : stations_apart st;
  tidy_blocks : blocks_once st;
  tidy_marked : all_annotated st td;
  tidy_visits : all_visit_once td;
  tidy_path : all_blocks_once td;
  tidy_names : forall s, In s (dkeys st) -> s <> "" /\ s <> "None" /\ no_underscore s }.

(** The times of these rows are whole, nonnegative minutes. *)
Definition whole_minutes (l : list row) : Prop :=
  forall r, In r l -> exists n : nat, time_of r == inject_Z (Z.of_nat n).

(** A train that goes over the rows [mid], starting at time [a], is on block [c] from [f] to [e]. *)
Definition in_block (mid : list row) (a : Q) (c : string) (f e : Q) : Prop :=
  exists u r v, mid = u ++ r :: v /\ r_block r = c /\ f == a + running u /\ e == f + time_of r.

(** Of two trains that go over [mid] and [mid'], starting at [a] and [b], the second one enters each
    block only when the first one has left it and the following ones, [k] blocks in all. *)
Definition stays_behind (k : nat) (mid : list row) (a : Q) (mid' : list row) (b : Q) : Prop :=
  forall x, (x < List.length mid)%nat -> a + after (x + k) (map time_of mid) <= b + after x (map time_of mid').

(** Two trains are never on the same block at the same time. *)
Definition never_together (mid : list row) (a : Q) (mid' : list row) (b : Q) : Prop :=
  forall c f e f' e', in_block mid a c f e -> in_block mid' b c f' e' -> e <= f' \/ e' <= f.

(** The times of these rows are not negative. *)
Definition nonneg_times (l : list row) : Prop := forall r, In r l -> 0 <= time_of r.

(** Two trains that go over [mid] and [mid'], starting at [a] and [b], are never on a block together
    for more than [q] minutes: from [u] to [v] both are on it only if [v] is at most [q] later. *)
Definition together_at_most (q : Q) (mid : list row) (a : Q) (mid' : list row) (b : Q) : Prop :=
  forall c f e f' e' u v, in_block mid a c f e -> in_block mid' b c f' e' ->
    f <= u -> f' <= u -> v <= e -> v <= e' -> v - u <= q.

(** Of two trains that run against each other, one from [s] to [s2], the other one from [s2], the
    latter goes on from [s], and [s] is listed before [s2] or all trains that run against others from
    [s] end at [s2]. *)
Definition listed_under (td : train_dict) (st : station_blocks) (s s2 : string) (tk : table) : Prop :=
  ~ ends_at tk s /\
  (listed_first st None s s2 \/
   forall i i' ti ti', i <> i' -> runs td i ti -> runs td i' ti' -> opposing ti ti' s2 s -> ends_at ti' s2).

(** ... or they use a common switch at both ends of the line. *)
Definition guarded (td : train_dict) (st : station_blocks) (net : list netrow) (s s2 : string) (tj tk : table) : Prop :=
  listed_under td st s s2 tk \/ listed_under td st s2 s tj \/
  (switch_conflict net s tj "out" tk "in" /\ switch_conflict net s2 tk "out" tj "in").

(** Two trains that are not x and x9, hence not the same rolling stock *)
Definition different_stock (j k : Z) : Prop := j <> k /\ forall x, ~ same_stock x j k.

(** Every pair x, x9 meets on a block of a station. *)
Definition pairs_meet (td : train_dict) (st : station_blocks) : Prop :=
  (forall x, In x (dkeys td) -> In (x * 10 + 9)%Z (dkeys td) ->
     exists j j' b, same_stock x j j' /\ meets td j j' b) /\
  (forall x j j' b, same_stock x j j' -> meets td j j' b -> exists s, in_station st b s).

(** The delay a scenario gives to train [t] *)
Fixpoint total_delay (delays : list (Z * Q)) (t : Z) : Q :=
  match delays with
  | [] => 0
  | (u, q) :: rest => (if Z.eq_dec u t then q else 0) + total_delay rest t
  end.

(** What else the tables must contain for a problem to be built (C56) *)
Record complete (td : train_dict) (st : station_blocks) (net : list netrow) (t1 : string) : Prop := {
  (** Numbers of trains have no sign; names of stations have no character that PuLP replaces, are
      not "p", and are no numbers of trains. *)
  cp_numbers : forall t, In t (dkeys td) -> (0 <= t)%Z;
  cp_names : forall s, In s (dkeys st) -> s <> "p" /\ (forall n, In n lp_var_chars -> ~ has_char n s) /\
    forall t, In t (dkeys td) -> s <> str_of_Z t;
  (** Every train goes from a station to another one, is of a known kind, and has readable times. *)
  cp_two : forall t tt, runs td t tt -> exists s s2 mid, directly tt s s2 mid;
  cp_kinds : forall t info tt, dget t td = Some (info, tt) ->
    exists kind rest q, info = kind :: rest /\ kind_weight 1 (3 # 2) (7 # 4) kind q;
  cp_times : times_readable td;
  cp_start : exists n1, clock t1 n1 /\ forall t tt, runs td t tt -> exists s n, appears tt n1 s n;
  (** The network table has one row for two neighbouring blocks, with readable switches where a train
      comes to a station or leaves it. *)
  cp_rows : one_row_each net;
  cp_switches : forall n, In n net -> looked_at td n -> readable (n_switch n);
  (** Trains x and x9 meet at a station, and the time to turn around there is given. *)
  cp_pairs : pairs_meet td st;
  cp_turn : forall x j k s tk row, same_stock x j k -> turns td st s j k -> runs td k tk -> first_stop tk s row ->
    r_turn row <> None }.

(** What a scenario adds to train [t] if the delay of a train also counts for all trains whose numbers
    end with its digits *)
Inductive delay_reached (t : Z) : list (Z * Q) -> Q -> Prop :=
| dr_nil : delay_reached t [] 0
| dr_hit : forall u q delays d, number_ends_with t u -> delay_reached t delays d -> delay_reached t ((u, q) :: delays) (q + d)
| dr_miss : forall u q delays d, ~ number_ends_with t u -> delay_reached t delays d -> delay_reached t ((u, q) :: delays) d.

(** Of two trains from [s] to [s2], none uses only some of the blocks of the other one. *)
Definition no_part_lines (td : train_dict) : Prop :=
  forall t t' tt tt' s s2 line line', runs td t tt -> runs td t' tt' -> leaves tt s s2 line -> leaves tt' s s2 line' ->
    incl line line' -> incl line' line.
