(** * SpecTables: what timetables, stations and network tables should mean

    Specification side of the claims about data_formatting (C35, C47-C49, C51, C52, C68); nothing
    here refers to the functions of the model, only to the data. *)

From Coq Require Import List String ZArith QArith Bool.
From Verif Require Import Base DataTables.
Import ListNotations.
Open Scope string_scope.
Open Scope list_scope.

(** ** Stations and blocks *)

(** Block [b] belongs to station [s]. *)
Definition in_station (st : station_blocks) (b s : string) : Prop :=
  exists bs, In (s, bs) st /\ In b bs.

(** Every station is listed once and no block belongs to two stations. *)
Definition stations_apart (st : station_blocks) : Prop :=
  NoDup (dkeys st) /\
  forall b s s', in_station st b s -> in_station st b s' -> s = s'.

(** The column important_station of a timetable agrees with the stations. *)
Definition annotated (st : station_blocks) (tt : table) : Prop :=
  forall r s, In r tt -> (r_station r = Some s <-> in_station st (r_block r) s).

Definition all_annotated (st : station_blocks) (td : train_dict) : Prop :=
  forall t info tt, In (t, (info, tt)) td -> annotated st tt.

(** The timetable of train [t] is [tt]. *)
Definition runs (td : train_dict) (t : Z) (tt : table) : Prop :=
  exists info, dget t td = Some (info, tt).

(** The train calls at (or runs through) station [s]. *)
Definition passes (tt : table) (s : string) : Prop :=
  exists r, In r tt /\ r_station r = Some s.

(** The last block of the train belongs to station [s]. *)
Definition ends_at (tt : table) (s : string) : Prop :=
  exists front r, tt = front ++ [r] /\ r_station r = Some s.

(** ** The network table (two columns of neighbouring blocks) *)

Definition net_cells (net : list (string * string)) : list (list (option string)) :=
  map (fun p => [Some (fst p); Some (snd p)]) net.

Definition adjacent (net : list (string * string)) (a b : string) : Prop :=
  In (a, b) net \/ In (b, a) net.

Definition known_block (net : list (string * string)) (a : string) : Prop :=
  exists b, adjacent net a b.

(** A path is continuous if neighbouring blocks are adjacent in the network. *)
Definition continuous (net : list (string * string)) (path : list string) : Prop :=
  forall u a b v, path = u ++ a :: b :: v -> adjacent net a b.

(** ** Passing times in the network table *)

(** The time of the row for running from [a] to [b], of a train of kind "R" or "IC": rows are
    written in one direction and have a column per direction. *)
Definition time_from_to (n : netrow) (kind a b : string) (q : option Q) : Prop :=
  (n_prev n = a /\ n_next n = b /\
     ((kind = "R" /\ q = n_r_ab n) \/ (kind = "IC" /\ q = n_ic_ab n))) \/
  (n_prev n = b /\ n_next n = a /\
     ((kind = "R" /\ q = n_r_ba n) \/ (kind = "IC" /\ q = n_ic_ba n))).

(** Everything that the file says about a block is kept. *)
Definition same_text (r r' : row) : Prop :=
  r_block r' = r_block r /\ r_speed r' = r_speed r /\ r_arr r' = r_arr r /\ r_dep r' = r_dep r /\
  r_approx r' = r_approx r /\ r_label r' = r_label r /\ r_shunt r' = r_shunt r /\ r_turn r' = r_turn r.

(** Each pair of neighbours has one row, and no block is its own neighbour. *)
Definition one_row_each (net : list netrow) : Prop :=
  (forall n, In n net -> n_prev n <> n_next n) /\
  forall u n v n' w, net = u ++ n :: v ++ n' :: w ->
    ~ (n_prev n' = n_prev n /\ n_next n' = n_next n) /\
    ~ (n_prev n' = n_next n /\ n_next n' = n_prev n).

(** ** Parts of lists *)

(** [p] is a consecutive part of [l]. *)
Definition consecutive {A : Type} (p l : list A) : Prop := exists u v, l = u ++ p ++ v.

(** ** The schedule file *)

(** One train of the file: number, kind ("IC - IC"), name, "from ..." and "to ..." lines and
    its blocks. *)
Record train_text : Type := MkText {
  x_number : Z;
  x_kind : string;
  x_name : string;
  x_from : string;
  x_to : string;
  x_blocks : list row }.

Definition bare (s : string) : line := MkLine (Some s) None None None None None None None.

Definition block_line (r : row) : line :=
  MkLine (Some (r_block r)) (r_speed r) (r_arr r) (r_dep r) (r_approx r) (r_label r)
    (r_shunt r) (r_turn r).

(** The lines of one train, as in data/trains_schedules.csv *)
Definition written (x : train_text) : list line :=
  [bare "####"; bare (x_kind x); bare (str_of_Z (x_number x)); bare (x_name x);
   bare (x_from x)]
  ++ map block_line (x_blocks x) ++ [bare (x_to x)].

Definition starts (p s : string) : Prop := exists r, s = (p ++ r)%string.

(** A nonempty text of digits *)
Definition number (s : string) : Prop :=
  s <> "" /\ forall c, In c (list_ascii_of_string s) -> In c (list_ascii_of_string "0123456789").

(** A text that is no number and announces no departure *)
Definition ordinary (s : string) : Prop :=
  ~ number s /\ ~ starts "from" s /\ ~ starts "depa" s.

Definition well_written (x : train_text) : Prop :=
  (0 <= x_number x)%Z /\
  ordinary (x_kind x) /\ ordinary (x_name x) /\
  (starts "from" (x_from x) \/ starts "depa" (x_from x)) /\
  (starts "to" (x_to x) \/ starts "te" (x_to x)) /\
  forall r, In r (x_blocks x) ->
    ordinary (r_block r) /\ ~ starts "to" (r_block r) /\ ~ starts "te" (r_block r) /\
    r_pass r = None /\ r_station r = None.

(** The last train of the list with number [n] *)
Definition last_with (l : list train_text) (n : Z) (x : train_text) : Prop :=
  exists u v, l = u ++ x :: v /\ x_number x = n /\ forall y, In y v -> x_number y <> n.
