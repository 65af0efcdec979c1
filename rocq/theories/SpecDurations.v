(** * SpecDurations: what passing, stopping, preparation and headway times, schedules, initial
    conditions and weights should be

    Only rows of timetables and clock texts are used here, not the functions of the model. *)

From Coq Require Import List String Ascii ZArith QArith Qabs Bool.
From Verif Require Import Base DataTables SpecTables SpecSets.
Import ListNotations.
Open Scope string_scope.
Open Scope list_scope.

(** ** Running times *)

(** A missing time counts as 0. *)
Definition time_of (r : row) : Q := match r_pass r with Some q => q | None => 0 end.
Definition turn_of (r : row) : Q := match r_turn r with Some q => q | None => 0 end.

(** Time for a part of a timetable *)
Fixpoint running (l : list row) : Q :=
  match l with [] => 0 | r :: l => time_of r + running l end.

Definition all_blocks_once (td : train_dict) : Prop :=
  forall t tt, runs td t tt -> NoDup (map r_block tt).

(** [q] is [x] in the given resolution: rounded to the nearest number, halves to the even
    one, if the resolution is 1, else unchanged. *)
Definition in_resolution (r : Z) (x q : Q) : Prop :=
  (r <> 1%Z -> q == x) /\
  (r = 1%Z -> exists z, q = inject_Z z /\ Qabs (x - inject_Z z) <= 1 # 2 /\
     (Qabs (x - inject_Z z) == 1 # 2 -> Z.even z = true)).

(** No underscore in the text *)
Definition no_underscore (s : string) : Prop := forall a b, s <> (a ++ "_" ++ b)%string.

(** ** Headways *)

(** When a train that starts at 0 has left the first [x] blocks *)
Definition after (x : nat) (t : list Q) : Q := fold_right Qplus 0 (firstn x t).

(** The second train, [h] later, enters each block only when the first one has left it and
    the following ones, [k] blocks in all (or all that are left). *)
Definition keeps_apart (k : nat) (t1 t2 : list Q) (h : Q) : Prop :=
  forall x, (x < List.length t1)%nat -> after (x + k) t1 <= h + after x t2.

(** ** Clock times *)

Definition digit (n : Z) : string := String (ascii_of_nat (48 + Z.to_nat n)) "".

(** The number written with two digits, or one *)
Definition written_as (s : string) (n : Z) : Prop :=
  (0 <= n)%Z /\ ((s = digit (n / 10) ++ digit (n mod 10))%string \/ ((n < 10)%Z /\ s = digit n)).

(** The text is the time [n] minutes after midnight. *)
Definition clock (t : string) (n : Z) : Prop :=
  exists h m hs ms, t = (hs ++ ":" ++ ms)%string /\ written_as hs h /\ written_as ms m /\
    (h < 24)%Z /\ (m < 60)%Z /\ n = (60 * h + m)%Z.

(** The train goes from [s] to [s2], the next station, over the rows [mid]. *)
Definition directly (tt : table) (s s2 : string) (mid : list row) : Prop :=
  goes tt s s2 mid /\ forall r, In r mid -> r_station r = None.

(** Trains asked for: the given ones, or all *)
Definition wanted (td : train_dict) (trains : option (list Z)) (t : Z) : Prop :=
  match trains with Some l => In t l | None => In t (dkeys td) end.

(** Names of stations are not empty and have no underscore. *)
Definition named_well (td : train_dict) : Prop :=
  forall t tt s, runs td t tt -> passes tt s -> s <> "" /\ no_underscore s.

(** Stretches where trains are kept one block apart; elsewhere it is two. *)
Definition one_block_stretches : list (string * string) :=
  [("KO(STM)", "KZ"); ("CB", "CM"); ("KTC-CB", "via Gt")].

Definition apart_on (s s2 : string) (k : nat) : Prop :=
  let one := In (s, s2) one_block_stretches \/ In (s2, s) one_block_stretches in
  (one -> k = 1%nat) /\ (~ one -> k = 2%nat).

(** [h] is the least separation that keeps the trains [k] blocks apart, 0 if there are no
    blocks. *)
Definition least_safe (k : nat) (t1 t2 : list Q) (h : Q) : Prop :=
  (t1 = [] -> h == 0) /\
  (t1 <> [] -> keeps_apart k t1 t2 h /\ forall h', keeps_apart k t1 t2 h' -> h <= h').

(** The first station of the train is [s], in row [r]. *)
Definition first_stop (tt : table) (s : string) (r : row) : Prop :=
  exists pre post, tt = pre ++ r :: post /\ (forall x, In x pre -> r_station x = None) /\ r_station r = Some s.

(** ** Schedules and initial conditions *)

(** [dep] is the first departure time the train has at [s]. *)
Definition departs (tt : table) (s dep : string) : Prop :=
  exists pre r post, tt = pre ++ r :: post /\ r_station r = Some s /\ r_dep r = Some dep /\
    forall x, In x pre -> r_station x = Some s -> r_dep x = None.

(** All departure times at stations are clock times. *)
Definition times_readable (td : train_dict) : Prop :=
  forall t tt r s dep, runs td t tt -> In r tt -> r_station r = Some s -> r_dep r = Some dep -> exists n, clock dep n.

(** Where and when the train appears: at its first station, at the departure time, else at
    the approximate time of entering, else (no time known) at the reference time [n1]. *)
Definition appears (tt : table) (n1 : Z) (s : string) (n : Z) : Prop :=
  exists r, first_stop tt s r /\
    match r_dep r, r_approx r with
    | Some dep, _ => clock dep n
    | None, Some enter => clock enter n
    | None, None => n = n1
    end.

(** ** Delays *)

(** The number of train [t] ends with the digits of [u], as 54120 with those of 4120. *)
Definition number_ends_with (t u : Z) : Prop := exists p, str_of_Z t = (p ++ str_of_Z u)%string.

(** The keys are train_station, with no underscore in the stations. *)
Definition train_station_keys (d : dict string Q) : Prop :=
  forall k, In k (dkeys d) -> exists t s, k = (str_of_Z t ++ "_" ++ s)%string /\ no_underscore s.

(** ** Weights *)

Definition kind_weight (stopping fast express : Q) (kind : string) (q : Q) : Prop :=
  ((kind = "KS - Os" \/ kind = "PR - R" \/ kind = "KS - OsP") /\ q = stopping) \/
  ((kind = "IC - TLK" \/ kind = "IC - IC") /\ q = fast) \/
  ((kind = "IC - EIP" \/ kind = "IC - EIC") /\ q = express).

(** A movement of empty stock: train x9 of a train x *)
Definition shunting (td : train_dict) (t : Z) : Prop :=
  exists x, In x (dkeys td) /\ In t (dkeys td) /\ t = (x * 10 + 9)%Z.

(** [s] is the last station of the train; if that one is left out, the one before *)
Definition last_decided (skip : option string) (tt : table) (s : string) : Prop :=
  exists pre r post, tt = pre ++ r :: post /\ r_station r = Some s /\
    (((forall x, In x post -> r_station x = None) /\ skip <> Some s) \/
     exists mid r2 rest s2, post = mid ++ r2 :: rest /\ r_station r2 = Some s2 /\ skip = Some s2 /\
       (forall x, In x mid \/ In x rest -> r_station x = None)).
