(** * Diagrams: the train path diagrams and the statistics of delays

    solutions_quantum/data4diagrams: train_utils.py, railway_lines.py, echo_gnuplot_file.py,
    visualise_statistics.py.  The input is the printed schedule of helpers.py (Pipeline.print_optimisation_results).

    Simplifications: a time is a number of minutes counted from the start of a reference day (it is a
    datetime in the code); printed lines are values, a point "km HH:MM" is a number and the minute of the
    day; [upper] changes ASCII letters only; titles, tics and colours are left out. *)

From Coq Require Import List String Ascii ZArith QArith Qround Bool.
From Verif Require Import Base Pipeline.
Import ListNotations.
Open Scope string_scope.
Open Scope list_scope.

(** ** train_utils.py *)

(** TrainPath, train_utils.py:4-9.  [tp_path]: station, arrival, departure *)
Record train_path : Type := MkPath {
  tp_number : string;
  tp_conflicted : bool;
  tp_route : list pv;
  tp_path : list (pv * option Z * option Z) }.

(** arrival_for_sort, train_utils.py:15-20: the arrival, or a day in 1899 ([None]: before all others) *)
Definition arrival_for_sort (x : stop_entry) : option Z := k_arrive x.

(** The order of [arrival_for_sort]; [later a b] is a > b *)
Definition later (a b : option Z) : bool :=
  match a, b with
  | None, _ => false
  | Some _, None => true
  | Some x, Some y => (y <? x)%Z
  end.

(** [sorted(..., key=...)]: stable; insertion of the elements from the first to the last, each behind those that are
    not later *)
Fixpoint insert_stop (x : pv * option Z) (l : list (pv * option Z)) : list (pv * option Z) :=
  match l with
  | [] => [x]
  | y :: r => if later (snd y) (snd x) then x :: l else y :: insert_stop x r
  end.
Definition sorted_stops (l : list (pv * option Z)) : list (pv * option Z) :=
  fold_left (fun acc x => insert_stop x acc) l [].

(** none_if_not(kdtrain[k], prefix + 'arrive'), train_utils.py:22-27, 46-48: the prefix picks the field *)
Definition arrival_of (conflicted : bool) (k : stop_entry) : option Z :=
  if conflicted then k_conflicted_arrive k else k_arrive k.
Definition departure_of (conflicted : bool) (k : stop_entry) : option Z :=
  if conflicted then k_conflicted_departure k else k_departure k.

(** kdtrain2trainpath, train_utils.py:29-49 *)
Definition kdtrain2trainpath (trainNumber : pv) (kdtrain : dict pv stop_entry) (conflicted : bool) : res train_path :=
  let route := map fst (sorted_stops (map (fun kv => (fst kv, arrival_for_sort (snd kv))) kdtrain)) in
  do path <- mapM (fun k => do e <- dlookup k kdtrain; Ok (k, arrival_of conflicted e, departure_of conflicted e)) route;
  Ok (MkPath (str trainNumber) conflicted route path).

(** ** railway_lines.py *)

Record station_rec : Type := MkSt { st_name : string; st_callsign : string; st_type : string; st_km : Q }.

(** railway_lines.py:7-38 and 41-77, copied by a script *)
Definition RAILWAYLINES : dict string (list station_rec) :=
  [("131", [MkSt "Chorzów Batory" "CB" "st" (154 # 25);
     MkSt "Chorzów Miasto" "CM" "st" (449 # 50)]);
   ("137", [MkSt "Katowice" "KO" "st" (39 # 100);
     MkSt "Katowice Towarowa KTC" "KTC" "podg" (291 # 100);
     MkSt "Chorzów Batory" "CB" "st" (154 # 25);
     MkSt "Świętochłowice" "" "po" (841 # 100);
     MkSt "Ruda Chebzie" "RC" "st" (587 # 50);
     MkSt "Ruda Śląska" "RŚl" "po" (73 # 5);
     MkSt "Zabrze" "Zz" "st" (473 # 25);
     MkSt "Gliwice" "Gl" "st" (271 # 10)]);
   ("138", [MkSt "Katowice Zawodzie" "Kz" "st" (756 # 25);
     MkSt "Katowice" "KO" "st" (824 # 25)]);
   ("139", [MkSt "Katowice" "KO" "st" (0);
     MkSt "Katowice Brynów" "Bry" "po" (97 # 25);
     MkSt "Katowice Ligota" "KL" "st" (152 # 25);
     MkSt "Katowice Piotrowice" "KtP" "po" (31 # 4);
     MkSt "Katowice Podlesie" "" "po" (227 # 20);
     MkSt "Mąkołowiec" "Mc" "podg" (351 # 25);
     MkSt "Tychy" "Ty" "st" (1697 # 100)]);
   ("140", [MkSt "Katowice Ligota" "KL" "st" (0);
     MkSt "Katowice Piotrowice" "KtP" "po" (83 # 50);
     MkSt "Mikołów Jamna" "MJ" "st" (293 # 50);
     MkSt "Mikołów" "Mi" "st" (35 # 4)]);
   ("depot527", [MkSt "Katowice Stacja Manewrowa" "KO(STM)" "st" (0);
     MkSt "Katowice Zawodzie Postojowa" "KO(IC)" "depot" (9 # 10)]);
   ("depot200", [MkSt "Katowice" "KO" "st" (0);
     MkSt "Katowice Raciborska" "KO(KS)" "depot" (1 # 2)])].
Definition RAILWAYSEGMENTS : dict string (list station_rec) :=
  [("137139GLYTy", [MkSt "Gliwice" "GLC" "st" (0);
     MkSt "Zabrze" "ZZ" "st" (409 # 50);
     MkSt "Ruda Śląska" "RŚl" "po" (25 # 2);
     MkSt "Ruda Chebzie" "RCB" "st" (384 # 25);
     MkSt "Świętochłowice" "" "po" (1869 # 100);
     MkSt "Chorzów Batory" "CB" "st" (1047 # 50);
     MkSt "Katowice Towarowa KTC" "KTC" "podg" (2419 # 100);
     MkSt "Katowice" "KO" "st" (2671 # 100);
     MkSt "Katowice Brynów" "Bry" "po" (3059 # 100);
     MkSt "Katowice Ligota" "KL" "st" (3667 # 100);
     MkSt "Katowice Piotrowice" "KtP" "po" (2221 # 50);
     MkSt "Katowice Podlesie" "" "po" (5577 # 100);
     MkSt "Mąkołowiec" "Mc" "podg" (6981 # 100);
     MkSt "Tychy" "Ty" "st" (4339 # 50)]);
   ("137138GLYKZ", [MkSt "Gliwice" "GLC" "st" (0);
     MkSt "Zabrze" "ZZ" "st" (409 # 50);
     MkSt "Ruda Śląska" "RSl" "po" (25 # 2);
     MkSt "Ruda Chebzie" "RCB" "st" (384 # 25);
     MkSt "Świętochłowice" "" "po" (1869 # 100);
     MkSt "Chorzów Batory" "CB" "st" (1047 # 50);
     MkSt "Katowice Towarowa KTC" "KTC" "podg" (2419 # 100);
     MkSt "Katowice" "KO" "st" (2671 # 100);
     MkSt "Katowice Stacja Manewrowa" "KO(STM)" "st" (2721 # 100);
     MkSt "Katowice Zawodzie" "KZ" "st" (2943 # 100)]);
   ("138139KZTY", [MkSt "Katowice Zawodzie" "KZ" "st" (0);
     MkSt "Katowice Stacja Manewrowa" "KO(STM)" "st" (221 # 100);
     MkSt "Katowice" "KO" "st" (271 # 100);
     MkSt "Katowice Brynów" "Bry" "po" (33 # 5);
     MkSt "Katowice Ligota" "KL" "st" (44 # 5);
     MkSt "Katowice Piotrowice" "KtP" "po" (1047 # 100);
     MkSt "Katowice Podlesie" "" "po" (1407 # 100);
     MkSt "Mąkołowiec" "Mc" "podg" (419 # 25);
     MkSt "Tychy" "Ty" "st" (1969 # 100)])].
(** [s.upper()] *)
Definition upper_char (c : ascii) : ascii :=
  let n := nat_of_ascii c in
  if (Nat.leb 97 n && Nat.leb n 122)%bool then ascii_of_nat (n - 32) else c.
Fixpoint upper (s : string) : string :=
  match s with EmptyString => EmptyString | String c r => String (upper_char c) (upper r) end.

(** [l.index(x)] for the records of a line: the first equal record *)
Definition same_rec (a b : station_rec) : bool :=
  eqb (st_name a) (st_name b) && eqb (st_callsign a) (st_callsign b) && eqb (st_type a) (st_type b)
  && Qeq_bool (st_km a) (st_km b).
Fixpoint index_rec (x : station_rec) (l : list station_rec) : nat :=
  match l with
  | [] => 0
  | y :: r => if same_rec y x then 0 else S (index_rec x r)
  end.

(** station_on_lines, railway_lines.py:80-87 *)
Definition station_on_lines (station : string) : list (string * nat) :=
  flat_map (fun line =>
    map (fun found => (fst line, index_rec found (snd line)))
      (filter (fun x => eqb (st_callsign x) station || eqb (st_name x) station) (snd line)))
  RAILWAYLINES.

(** route_on_lines, railway_lines.py:89-96.  The loop calls [station_on_line], a name that does not exist
    (the function is called [station_on_lines]): every pass of the loop raises a NameError. *)
Definition route_on_lines (route : list string) (lines : list string) : res (list (list (string * nat))) :=
  do result <- foldM (fun (acc : list (list (string * nat))) (_ : string) => Err NameError) route [];
  Ok (filter (fun s => match s with [] => false | _ => true end) result).

(** The test of station2km and station_on_segment.  [station.upper()] of a number is an AttributeError. *)
Definition matches (station : string) (x : station_rec) : bool :=
  eqb (upper (st_callsign x)) (upper station) || eqb (upper (st_name x)) (upper station).

(** station2km, railway_lines.py:98-104: all exceptions become a ValueError *)
Definition station2km (station : pv) (segment : string) : res Q :=
  match station, dget segment RAILWAYSEGMENTS with
  | PStr s, Some l => match filter (matches s) l with x :: _ => Ok (st_km x) | [] => Err ValueError end
  | _, _ => Err ValueError
  end.

(** station_on_segment, railway_lines.py:106-110 *)
Definition station_on_segment (exceptions : list string) (station : pv) (segment : string) : res bool :=
  do l <- dlookup segment RAILWAYSEGMENTS;
  match station with
  | PStr s => Ok (Nat.ltb 0 (List.length (filter (fun x =>
                matches s x && negb (existsb (eqb (upper s)) (map upper exceptions))) l)))
  | _ => Err AttributeError
  end.

(** train_on_segment, railway_lines.py:112-113: the number of stations of the train on the segment *)
Definition train_on_segment (train : train_path) (segment : string) (exceptions : list string) : res nat :=
  foldM (fun n s => do b <- station_on_segment exceptions s segment; Ok (if b then S n else n)) (tp_route train) O.

(** ** echo_gnuplot_file.py *)

(** [strftime('%H:%M')]: the minute of the day *)
Definition clock (t : Z) : Z := (t mod 1440)%Z.

(** echo_gnuplot_train, echo_gnuplot_file.py:57-66 *)
Definition echo_gnuplot_train (train : train_path) (segment : string) : list (Q * Z) :=
  flat_map (fun s =>
    let '(station, arrival, departure) := s in
    match station2km station segment with
    | Ok km => (match arrival with Some a => [(km, clock a)] | None => [] end) ++
               (match departure with Some d => [(km, clock d)] | None => [] end)
    | Err _ => []
    end) (tp_path train).

(** echo_gnuplot_train_labels, echo_gnuplot_file.py:68-83: a label halfway between two drawn stations; the seconds of
    half minutes are not printed *)
Definition echo_gnuplot_train_labels (train : train_path) (segment : string) : list (Q * Z * string) :=
  snd (fold_left (fun acc s =>
    let '(prev, out) := acc in
    let '(station, arrival, departure) := s in
    match station2km station segment with
    | Err _ => acc
    | Ok km =>
        let out := match arrival, prev with
                   | Some a, Some (prev_km, prev_t) =>
                       out ++ [(prev_km + (km - prev_km) / 2, clock (prev_t + (a - prev_t) / 2)%Z, tp_number train)]
                   | _, _ => out
                   end in
        (match departure with Some d => Some (km, d) | None => prev end, out)
    end) (tp_path train) (None, [])).

(** EXCEPTIONS, echo_gnuplot_file.py:123 *)
Definition EXCEPTIONS : list string := ["KO"; "KO(STM)"].

(** The loop of echo_gnuplot_file.py:126-137: the drawn paths with their labels *)
Definition echo_gnuplot (kdtraindata : dict pv (dict pv stop_entry)) (segment : string) (fixedtrains : list string)
  : res (list (string * bool * list (Q * Z) * list (Q * Z * string))) :=
  foldM (fun out kd =>
    foldM (fun out conflicted =>
      do train <- kdtrain2trainpath (fst kd) (snd kd) conflicted;
      do n <- train_on_segment train segment EXCEPTIONS;
      Ok (if (Nat.leb 2 n || existsb (eqb (str (fst kd))) fixedtrains)%bool then
            out ++ [(tp_number train, conflicted, echo_gnuplot_train train segment, echo_gnuplot_train_labels train segment)]
          else out))
    [false; true] out)
  kdtraindata [].

(** ** visualise_statistics.py *)

(** add_delays_one_realisation, visualise_statistics.py:7-22 *)
Definition add_delays_one_realisation (delays : dict pv (list Z)) (d : dict pv (dict pv stop_entry)) : dict pv (list Z) :=
  fold_left (fun delays train =>
    fold_left (fun delays s =>
      match k_secondary_delay (snd s) with
      | None => delays
      | Some current_delay =>
          match dget (fst s) delays with
          | Some v => dset (fst s) (v ++ [current_delay]) delays
          | None => dset (fst s) [current_delay] delays
          end
      end) (snd train) delays)
  d delays.

(** [np.mean]; an empty list does not occur in the dictionary *)
Definition np_mean (l : list Z) : Q := inject_Z (fold_left Z.add l 0%Z) / inject_Z (Z.of_nat (List.length l)).

Fixpoint insert_z (x : Z) (l : list Z) : list Z :=
  match l with [] => [x] | y :: r => if (x <=? y)%Z then x :: l else y :: insert_z x r end.
Definition sort_z (l : list Z) : list Z := fold_right insert_z [] l.

(** [np.quantile(l, q)], method "linear": the value at position q (n - 1) of the sorted list, between two
    neighbours in proportion *)
Definition np_quantile (l : list Z) (q : Q) : Q :=
  let v := sort_z l in
  let pos := q * inject_Z (Z.of_nat (List.length l) - 1) in
  let i := Z.to_nat (Qfloor pos) in
  let lo := inject_Z (nth i v 0%Z) in
  let hi := inject_Z (nth (S i) v (nth i v 0%Z)) in
  lo + (hi - lo) * (pos - inject_Z (Qfloor pos)).

Definition np_min (l : list Z) : Z := match l with [] => 0%Z | a :: r => fold_left Z.min r a end.
Definition np_max_z (l : list Z) : Z := match l with [] => 0%Z | a :: r => fold_left Z.max r a end.

(** get_print_statistics, visualise_statistics.py:24-41: for each station the five numbers it prints
    (max, q75, mean, q25, min) *)
Definition get_print_statistics (delays : dict pv (list Z)) (considered_stations : list pv)
  : res (list (Z * Q * Q * Q * Z)) :=
  mapM (fun e => do l <- dlookup e delays;
                 Ok (np_max_z l, np_quantile l (3 # 4), np_mean l, np_quantile l (1 # 4), np_min l)) considered_stations.
