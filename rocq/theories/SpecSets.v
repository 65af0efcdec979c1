(** * SpecSets: what the sets of trains should contain

    Only timetables (rows with block, station and times), station blocks and the network rows
    are used here; the functions of the model that build the sets are not. *)

From Coq Require Import List String Ascii ZArith QArith Bool.
From Verif Require Import Base DataTables SpecTables.
Import ListNotations.
Open Scope string_scope.
Open Scope list_scope.

(** No station has two rows of the timetable. *)
Definition visits_once (tt : table) : Prop :=
  forall u r v r' w s, tt = u ++ r :: v ++ r' :: w ->
    r_station r = Some s -> r_station r' <> Some s.

Definition all_visit_once (td : train_dict) : Prop :=
  forall t tt, runs td t tt -> visits_once tt.

(** The train goes from [s] to [s2] without another station, over [line]. *)
Definition leaves (tt : table) (s s2 : string) (line : list string) : Prop :=
  exists pre r1 mid r2 post, tt = pre ++ r1 :: mid ++ r2 :: post /\
    r_station r1 = Some s /\ r_station r2 = Some s2 /\
    (forall r, In r mid -> r_station r = None) /\ line = map r_block mid.

(** The train goes from [s] to [s2], maybe through other stations, over [mid]. *)
Definition goes (tt : table) (s s2 : string) (mid : list row) : Prop :=
  exists pre r1 r2 post, tt = pre ++ r1 :: mid ++ r2 :: post /\
    r_station r1 = Some s /\ r_station r2 = Some s2.

(** The train uses block [b]. *)
Definition uses (tt : table) (b : string) : Prop := exists r, In r tt /\ r_block r = b.

(** The two trains use the same blocks of station [s]. *)
Definition same_track (st : station_blocks) (s : string) (tt tt' : table) : Prop :=
  forall b, in_station st b s -> (uses tt b <-> uses tt' b).

(** The only block of the station the train uses is [x]. *)
Definition only_track (st : station_blocks) (s : string) (tt : table) (x : string) : Prop :=
  in_station st x s /\ forall b, in_station st b s -> (uses tt b <-> b = x).

(** No station lists a block twice. *)
Definition blocks_once (st : station_blocks) : Prop := forall s bs, In (s, bs) st -> NoDup bs.

(** Stations asked for: the given ones, or all *)
Definition asked (st : station_blocks) (imp : option (list string)) (s : string) : Prop :=
  match imp with Some l => In s l | None => In s (dkeys st) end.

(** [s] is asked for, and is listed before [s']. *)
Definition listed_first (st : station_blocks) (imp : option (list string)) (s s' : string) : Prop :=
  exists u v, match imp with Some l => l | None => dkeys st end = u ++ s :: v /\ ~ In s' u.

(** The two trains run against each other over the same blocks, which are not none. *)
Definition opposing (tt tt' : table) (s s' : string) : Prop :=
  exists line, line <> [] /\ leaves tt s s' line /\ leaves tt' s' s (rev line).

(** Parts of Katowice station, and depot tracks there, that get no track groups *)
Definition no_track_groups : list string := ["KO(KS)"; "KO(IC)"].
Definition depot_tracks : list string :=
  ["""KO"", ""ST-M"", 1114, ""(N/A)"""; """KO"", ""ST-M"", 1113, ""(N/A)""";
   """KO"", ""ST-M"", 1118, ""(N/A)"""].

(** ** Switches *)

(** The switches named in a cell: one number, several, or two written as a decimal number *)
Definition cell_has (c : swcell) (z : Z) : Prop :=
  match c with
  | SwOne n => z = n
  | SwMany l => In z l
  | SwFloat whole frac => z = whole \/ int_of_str frac = Ok z
  | SwInt _ | SwEmpty => False
  end.

(** The row of the network table for two neighbouring blocks, written in either direction *)
Definition row_for (n : netrow) (a b : string) : Prop :=
  (n_prev n = a /\ n_next n = b) \/ (n_prev n = b /\ n_next n = a).

(** The train comes to station [s], not its first one, over switch [z]. *)
Definition enters_over (net : list netrow) (tt : table) (s : string) (z : Z) : Prop :=
  exists pre r1 r post n, tt = pre ++ r1 :: r :: post /\ r_station r = Some s /\
    (exists r0, In r0 (pre ++ [r1]) /\ r_station r0 <> None) /\
    In n net /\ row_for n (r_block r1) (r_block r) /\ cell_has (n_switch n) z.

(** The train goes from station [s], not its last one, over switch [z]. *)
Definition exits_over (net : list netrow) (tt : table) (s : string) (z : Z) : Prop :=
  exists pre r r2 post n, tt = pre ++ r :: r2 :: post /\ r_station r = Some s /\
    (exists r0, In r0 (r2 :: post) /\ r_station r0 <> None) /\
    In n net /\ row_for n (r_block r) (r_block r2) /\ cell_has (n_switch n) z.

(** The train goes on from station [s], maybe its last one, over switch [z]. *)
Definition on_over (net : list netrow) (tt : table) (s : string) (z : Z) : Prop :=
  exists pre r r2 post n, tt = pre ++ r :: r2 :: post /\ r_station r = Some s /\
    In n net /\ row_for n (r_block r) (r_block r2) /\ cell_has (n_switch n) z.

Definition goes_over (net : list netrow) (tt : table) (s : string) (label : string) (z : Z) : Prop :=
  (label = "in" /\ enters_over net tt s z) \/ (label = "out" /\ exits_over net tt s z).

(** Conflicts are looked for everywhere but in KO(IC) and KO(KS); at KO(STM) not for movements
    from and to KO, which are counted there. *)
Definition counted (tt : table) (s label : string) : Prop :=
  s <> "KO(IC)" /\ s <> "KO(KS)" /\
  (s = "KO(STM)" ->
     (label = "in" -> forall line, ~ leaves tt "KO" s line) /\
     (label = "out" -> forall line, ~ leaves tt s "KO" line)).

(** The two movements use a common switch. *)
Definition switch_conflict (net : list netrow) (s : string) (tt : table) (label : string)
    (tt' : table) (label' : string) : Prop :=
  counted tt s label /\ counted tt' s label' /\
  exists z, goes_over net tt s label z /\ goes_over net tt' s label' z.

(** ** Turnarounds *)

Definition starts_on (tt : table) (b : string) : Prop := exists r w, tt = r :: w /\ r_block r = b.
Definition ends_on (tt : table) (b : string) : Prop := exists f r, tt = f ++ [r] /\ r_block r = b.

(** A cell that names switches: not empty, not a whole number, and digits after the point *)
Definition readable (c : swcell) : Prop :=
  match c with
  | SwOne _ | SwMany _ => True
  | SwFloat _ frac =>
      (exists z, int_of_str frac = Ok z) /\ ~ exists d rest, frac = String "0"%char (String d rest)
  | SwInt _ | SwEmpty => False
  end.

(** Some train comes from one station to another one, or goes on to it, over the way of this row. *)
Definition looked_at (td : train_dict) (n : netrow) : Prop :=
  exists t tt pre r1 r2 post, runs td t tt /\ tt = pre ++ r1 :: r2 :: post /\
    row_for n (r_block r1) (r_block r2) /\
    ((r_station r2 <> None /\ exists r0, In r0 (pre ++ [r1]) /\ r_station r0 <> None) \/
     (r_station r1 <> None /\ exists r0, In r0 (r2 :: post) /\ r_station r0 <> None)).

(** Train [j] is listed before train [j']. *)
Definition before (td : train_dict) (j j' : Z) : Prop :=
  exists u v w, dkeys td = u ++ j :: v ++ j' :: w.

(** [j] and [j'] are the trains [x] and [x9], in one of the two orders. *)
Definition same_stock (x j j' : Z) : Prop :=
  (j = x /\ j' = (x * 10 + 9)%Z) \/ (j = (x * 10 + 9)%Z /\ j' = x).

(** Train [j] ends on block [b], on which [j'] starts. *)
Definition meets (td : train_dict) (j j' : Z) (b : string) : Prop :=
  exists tt tt', runs td j tt /\ runs td j' tt' /\ ends_on tt b /\ starts_on tt' b.

(** ... which is a block of station [s]. *)
Definition turns (td : train_dict) (st : station_blocks) (s : string) (j j' : Z) : Prop :=
  exists b, meets td j j' b /\ in_station st b s.
