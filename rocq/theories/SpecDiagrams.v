(** * SpecDiagrams: words for the claims about train path diagrams and statistics (C74-C76) *)

From Coq Require Import List String Ascii ZArith QArith Qround Qabs Bool.
From Verif Require Import Base Diagrams.
Import ListNotations.
Open Scope list_scope.

(** ** Train paths *)

(** The times of a train path in the order in which they are drawn. *)
Definition given (o : option Z) : list Z := match o with Some t => [t] | None => [] end.
Definition moments (path : list (pv * option Z * option Z)) : list Z :=
  flat_map (fun s => given (snd (fst s)) ++ given (snd s)) path.

(** Times never go back. *)
Definition never_back (l : list Z) : Prop :=
  forall l1 a l2 b l3, l = l1 ++ a :: l2 ++ b :: l3 -> (a <= b)%Z.

(** ** Stations of a segment *)

(** The same letter, small or capital. *)
Definition same_letter (a b : ascii) : Prop :=
  a = b \/ exists i, (i < 26)%nat /\
    ((a = ascii_of_nat (65 + i) /\ b = ascii_of_nat (97 + i)) \/ (b = ascii_of_nat (65 + i) /\ a = ascii_of_nat (97 + i))).
Inductive same_word : string -> string -> Prop :=
| same_end : same_word EmptyString EmptyString
| same_next a b v w : same_letter a b -> same_word v w -> same_word (String a v) (String b w).

(** The record is about the station. *)
Definition about (x : station_rec) (station : pv) : Prop :=
  exists s, station = PStr s /\ (same_word (st_callsign x) s \/ same_word (st_name x) s).

(** The station lies on the segment at this kilometre. *)
Definition lies_at (segment : string) (station : pv) (km : Q) : Prop :=
  exists l pre x post, dget segment RAILWAYSEGMENTS = Some l /\ l = pre ++ x :: post /\ about x station /\
    (forall y, In y pre -> ~ about y station) /\ st_km x = km.

(** The minute of the day. *)
Definition minute_of_day (t m : Z) : Prop := (0 <= m < 1440)%Z /\ exists day, (t = 1440 * day + m)%Z.

(** Two stations of a segment are as far apart as on every railway line with both of them; up to [err]. *)
Definition true_distances (segment : string) (err : Q) : Prop :=
  forall l x y line m u v, dget segment RAILWAYSEGMENTS = Some l -> In x l -> In y l ->
    dget line RAILWAYLINES = Some m -> In u m -> In v m -> st_name u = st_name x -> st_name v = st_name y ->
    Qabs (Qabs (st_km x - st_km y) - Qabs (st_km u - st_km v)) <= err.

(** The same for the stations up to a kilometre of the segment *)
Definition true_distances_to (segment : string) (last err : Q) : Prop :=
  forall l x y line m u v, dget segment RAILWAYSEGMENTS = Some l -> In x l -> In y l -> st_km x <= last -> st_km y <= last ->
    dget line RAILWAYLINES = Some m -> In u m -> In v m -> st_name u = st_name x -> st_name v = st_name y ->
    Qabs (Qabs (st_km x - st_km y) - Qabs (st_km u - st_km v)) <= err.

(** ** Statistics *)

(** The secondary delays printed at a station, train by train. *)
Definition delays_at (s : pv) (d : dict pv (dict pv Pipeline.stop_entry)) : list Z :=
  flat_map (fun train => match dget s (snd train) with Some k => given (Pipeline.k_secondary_delay k) | None => [] end) d.

(** How many values are at most, and at least, a number. *)
Definition at_most (q : Q) (l : list Z) : nat := List.length (filter (fun z => Qle_bool (inject_Z z) q) l).
Definition at_least (q : Q) (l : list Z) : nat := List.length (filter (fun z => Qle_bool q (inject_Z z)) l).

(** [v] is a [q]-quantile of [l]: with n values, at least floor (q (n - 1)) + 1 of them are at most [v] and at least
    n - ceiling (q (n - 1)) at least [v]. *)
Definition quantile (l : list Z) (q v : Q) : Prop :=
  let pos := q * inject_Z (Z.of_nat (List.length l) - 1) in
  (Qfloor pos + 1 <= Z.of_nat (at_most v l))%Z /\
  (Z.of_nat (List.length l) - Qceiling pos <= Z.of_nat (at_least v l))%Z.
