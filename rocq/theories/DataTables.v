(** * DataTables: model of data_formatting/data_formatting/time_table_check.py, utils.py and
    new_time_tables.py

    A timetable (pandas DataFrame) is a list of rows with the columns the code uses; its index
    is always 0, 1, 2, ... (time_table_check.py:33 resets it), so row labels are positions.
    Empty cells (NaN) are [None]. *)

From Coq Require Import List String Ascii ZArith QArith Qround Bool Arith DecimalString.
From Verif Require Import Base.
Import ListNotations.
Open Scope string_scope.
Open Scope list_scope.

(** One row of a train's timetable: a block of the train's route.  Columns of
    trains_schedules.csv, and "passing_time" and "important_station" added by
    update_all_timetables.  Times of day are the strings of the file. *)
Record row : Type := MkRow {
  r_block : string;             (* "path" *)
  r_speed : option string;
  r_arr : option string;
  r_dep : option string;
  r_approx : option string;     (* "Approx_enter" *)
  r_label : option string;
  r_shunt : option string;
  r_turn : option Q;            (* "Turnaround_time_minutes" *)
  r_pass : option Q;            (* "passing_time" *)
  r_station : option string }.  (* "important_station" *)

Definition table : Type := list row.

(** [train_dict]: train number to [info, timetable] *)
Definition train_dict : Type := dict Z (list string * table).

(** [important_stations]: station name to its blocks *)
Definition station_blocks : Type := dict string (list string).

(** [timetable["path"].tolist()] *)
Definition path_of (tt : table) : list string := map r_block tt.

(** Python's [l[a:b]] for nonnegative bounds *)
Definition slice {A : Type} (a b : nat) (l : list A) : list A := firstn (b - a) (skipn a l).

(** [l[-1]] and [l[-2]] *)
Definition last1 {A : Type} (l : list A) : res A :=
  match rev l with x :: _ => Ok x | [] => Err IndexError end.
Definition last2 {A : Type} (l : list A) : res A :=
  match rev l with _ :: x :: _ => Ok x | _ => Err IndexError end.

(** Positions of the elements satisfying [p], counted from [k] *)
Fixpoint positions {A : Type} (p : A -> bool) (l : list A) (k : nat) : list nat :=
  match l with
  | [] => []
  | x :: r => if p x then k :: positions p r (S k) else positions p r (S k)
  end.

(** Python's [round(x)]: to the nearest integer, halves to the even one.  Floats are
    idealised as rationals. *)
Definition py_round (q : Q) : Z :=
  let f := Qfloor q in
  let d := Qminus q (inject_Z f) in
  match Qcompare d (1 # 2) with
  | Lt => f
  | Gt => (f + 1)%Z
  | Eq => if Z.even f then f else (f + 1)%Z
  end.

(** [if r == 1: x = round(x)] *)
Definition round_if (r : Z) (q : Q) : Q :=
  if Z.eqb r 1 then inject_Z (py_round q) else q.

(** ** time_table_check.py *)

(** A line of the schedule file, before it is known to which train it belongs: the first
    column and the others (as a [row] whose block is the first column). *)
Record line : Type := MkLine {
  ln_head : option string;
  ln_speed : option string;
  ln_arr : option string;
  ln_dep : option string;
  ln_approx : option string;
  ln_label : option string;
  ln_shunt : option string;
  ln_turn : option Q }.

(** The columns before update_all_timetables; [None] for the two that it adds. *)
Definition row_of_line (b : string) (l : line) : row :=
  MkRow b (ln_speed l) (ln_arr l) (ln_dep l) (ln_approx l) (ln_label l) (ln_shunt l)
    (ln_turn l) None None.

(** [s.isnumeric()], for ASCII text *)
Definition is_digit (c : ascii) : bool :=
  let n := nat_of_ascii c in (48 <=? n)%nat && (n <=? 57)%nat.
Fixpoint all_digits (s : string) : bool :=
  match s with
  | EmptyString => true
  | String c r => is_digit c && all_digits r
  end.
Definition isnumeric (s : string) : bool :=
  match s with EmptyString => false | _ => all_digits s end.

(** [int(s)] *)
Definition int_of_str (s : string) : res Z :=
  match NilZero.int_of_string s with
  | Some d => Ok (Z.of_int d)
  | None => Err ValueError
  end.

(** [data["Unnamed: 0"][i]]: KeyError outside of the table *)
Definition head_at (data : list line) (i : nat) : res (option string) :=
  match nth_error data i with Some l => Ok (ln_head l) | None => Err KeyError end.

(** a string operation on a cell: AttributeError/TypeError if the cell is NaN *)
Definition as_str (e : err) (c : option string) : res string :=
  match c with Some s => Ok s | None => Err e end.

(** The loop of lines 29-31: the number of lines up to and excluding the first one that starts
    with "to" or "te", and that line's head *)
Fixpoint find_to (data : list line) : res (nat * string) :=
  match data with
  | [] => Err KeyError
  | l :: r =>
      do h <- as_str TypeError (ln_head l);
      if lmem (substring 0 2 h) ["to"; "te"] then Ok (0%nat, h)
      else do '(n, t) <- find_to r; Ok (S n, t)
  end.

(** rows of the lines; all heads are strings here since [find_to] looked at them *)
Fixpoint rows_of_lines (l : list line) : list row :=
  match l with
  | [] => []
  | x :: r =>
      match ln_head x with
      | Some b => row_of_line b x :: rows_of_lines r
      | None => rows_of_lines r
      end
  end.

(** Loop state: [info] and [train] (unbound before the first number), the dictionary *)
Definition ttd_state : Type := option (Z * list string) * train_dict.

(** Body of the loop of timetable_to_train_dict, time_table_check.py:18-38.  [info] is
    mutated in place while it is already stored in the dictionary (a second "from" line of
    the same train); the entry it is stored in is overwritten in the same step, so values
    suffice. *)
Definition ttd_step (data : list line) (st : ttd_state) (i : nat) : res ttd_state :=
  do h <- head_at data i;
  do h <- as_str AttributeError h;
  do st <-
    (if isnumeric h then
       do train <- int_of_str h;
       do a <- (if Nat.eqb i 0 then Err KeyError else head_at data (i - 1));
       do b <- head_at data (i + 1);
       do c <- head_at data (i + 2);
       (* the four cells may be NaN in Python; here they have to be strings *)
       do a <- as_str OtherError a;
       do b <- as_str OtherError b;
       do c <- as_str OtherError c;
       Ok (Some (train, [a; b; c]), snd st)
     else Ok st);
  if lmem (substring 0 4 h) ["from"; "depa"] then
    do '(n, t) <- find_to (skipn (i + 1) data);
    match fst st with
    | None => Err UnboundLocalError
    | Some (train, info) =>
        let info := info ++ [t] in
        Ok (Some (train, info),
            dset train (info, rows_of_lines (slice (i + 1) (i + 1 + n) data)) (snd st))
    end
  else Ok st.

(** timetable_to_train_dict, time_table_check.py:8-39 *)
Definition timetable_to_train_dict (data : list line) : res train_dict :=
  do st <- foldM (ttd_step data) (seq 0 (List.length data)) (None, []);
  Ok (snd st).

(** train_time_table, time_table_check.py:42-50 *)
Definition train_time_table (td : train_dict) (train : Z) : res table :=
  do e <- dlookup train td; Ok (snd e).

(** get_arr_dep_vals, time_table_check.py:53-73 (with get_arrdep) *)
Definition get_arr_dep_vals (tt : table) : list (option string * option string * option string) :=
  filter (fun t => match t with (None, None, None) => false | _ => true end)
    (map (fun r => (r_arr r, r_dep r, r_approx r)) tt).

(** train_important_stations, time_table_check.py:76-80 *)
Fixpoint train_important_stations (tt : table) : list string :=
  match tt with
  | [] => []
  | r :: t =>
      match r_station r with
      | Some s => s :: train_important_stations t
      | None => train_important_stations t
      end
  end.

(** train_important_stations1, time_table_check.py:83-95 *)
Definition train_important_stations1 (tt : table) (st : station_blocks) : list string :=
  flat_map (fun b => map fst (filter (fun kv => lmem b (snd kv)) st)) (path_of tt).

(** check_path_continuity, time_table_check.py:98-109.  [net] are the cells of the table
    given, row by row (the first two columns of network_paths.ods in the tests). *)
Definition cell_in (bs : list string) (c : option string) : bool :=
  match c with Some s => lmem s bs | None => false end.

Fixpoint check_path_continuity (paths : list string) (net : list (list (option string)))
  : res unit :=
  match paths with
  | a :: ((b :: _) as rest) =>
      if negb (existsb (forallb (cell_in [a; b])) net) then
        if negb (existsb (existsb (cell_in [a])) net) then Err AssertionError
        else if negb (existsb (existsb (cell_in [b])) net) then Err AssertionError
        else check_path_continuity rest net
      else check_path_continuity rest net
  | _ => Ok tt
  end.

(** ** utils.py *)

(** getSizeOfNestedList, utils.py:11-26, on lists nested to any depth *)
Inductive nested (A : Type) : Type :=
| NElem (a : A)
| NList (l : list (nested A)).
Arguments NElem {A} _.
Arguments NList {A} _.

Fixpoint nsize {A : Type} (n : nested A) : nat :=
  match n with
  | NElem _ => 1
  | NList l => fold_right (fun x c => nsize x + c)%nat 0%nat l
  end.

Definition getSizeOfNestedList {A : Type} (l : list (nested A)) : nat :=
  fold_left (fun count e => count + nsize e)%nat l 0%nat.

(** [" ".join(str(i) for i in l)]: elements are strings already *)
Fixpoint join_sp (l : list string) : string :=
  match l with
  | [] => ""
  | [s] => s
  | s :: r => (s ++ " " ++ join_sp r)%string
  end.

(** sublist, utils.py:102-108 *)
Definition sublist (l1 l2 : list string) : bool := str_contains (join_sp l1) (join_sp l2).

(** check_common_specific_elements_lists, utils.py:29-49: the while loop walks once over
    list1; [short] is the piece being collected, [found] is check_elements *)
Fixpoint common_loop (list1 list2 : list string) (short : list string)
    (found : list (list string)) : list (list string) :=
  match list1 with
  | [] => found
  | x :: r =>
      if lmem x list2 then
        let short := short ++ [x] in
        if sublist short list2 && negb (Nat.eqb (List.length r) 0)
        then common_loop r list2 short found
        else common_loop r list2 [] (found ++ [short])
      else common_loop r list2 short found
  end.

Definition check_common_specific_elements_lists (list1 list2 : list string)
  : list (list string) := common_loop list1 list2 [] [].

(** reverse_dict_of_lists, utils.py:52-57 *)
Definition reverse_dict_of_lists {A B : Type} `{EqDec A} `{EqDec B} (d : dict A (list B))
  : dict B (list A) :=
  fold_left (fun rd (kv : A * list B) =>
    fold_left (fun rd v =>
      dset v (match dget v rd with Some l => l | None => [] end ++ [fst kv]) rd)
    (snd kv) rd) d [].

(** flatten, utils.py:60-62 *)
Definition flatten {A : Type} (t : list (list A)) : list A := List.concat t.

(** common_elements, utils.py:65-67 *)
Definition common_elements {A : Type} `{EqDec A} (list1 list2 : list A) : list A :=
  filter (fun e => lmem e list2) list1.

(** sub_lists, utils.py:89-98 *)
Definition sub_lists {A : Type} (l : list A) (no_single : bool) : list (list A) :=
  flat_map (fun i =>
    flat_map (fun j =>
      let s := slice j i l in
      if no_single && (List.length s <? 2)%nat then [] else [s])
    (seq 0 i))
  (seq 0 (List.length l + 1)).

(** get_J, utils.py:336-339 *)
Definition get_J (td : train_dict) : list Z := dkeys td.

(** get_Paths, utils.py:349-356 *)
Definition get_Paths (td : train_dict) : dict Z (list string) :=
  map (fun e => (fst e, train_important_stations (snd (snd e)))) td.

(** check_common_station, utils.py:111-114.  The order of the result is that of a Python
    set, i.e. not specified; here that of the first path without repeats. *)
Definition check_common_station (td : train_dict) (train1 train2 : Z) : res (list string) :=
  do p1 <- dlookup train1 (get_Paths td);
  do p2 <- dlookup train2 (get_Paths td);
  Ok (nodup string_dec (common_elements p1 p2)).

(** get_trains_with_same_stations, utils.py:117-118 *)
Definition get_trains_with_same_stations (td : train_dict) : dict string (list Z) :=
  reverse_dict_of_lists (get_Paths td).

(** check_common_blocks_elements, utils.py:121-126 *)
Definition check_common_blocks_elements (td : train_dict) (train1 train2 : Z)
  : res (list string) :=
  do t1 <- train_time_table td train1;
  do t2 <- train_time_table td train2;
  Ok (common_elements (path_of t1) (path_of t2)).

(** get_block_station, utils.py:130-135; NaN is [None] *)
Definition get_block_station (block : string) (st : station_blocks) : option string :=
  match filter (fun kv => lmem block (snd kv)) st with
  | [] => None
  | kv :: _ => Some (fst kv)
  end.

(** blocks_list_4station, utils.py:138-145 *)
Definition blocks_list_4station (tt : table) (station : string) (st : station_blocks)
  : res (list string) :=
  if negb (lmem station (train_important_stations tt)) then Ok []
  else
    do bs <- dlookup station st;
    Ok (common_elements bs (path_of tt)).

(** rows of station1 or station2, utils.py:177-180 *)
Definition at_station (s : string) (r : row) : bool :=
  match r_station r with Some s' => eqb s' s | None => false end.

(** get_blocks_b2win_station4train, utils.py:162-183: blocks and the flag [rev] (None,
    False, True) *)
Definition get_blocks_b2win_station4train (tt : table) (station1 station2 : string)
  : res (list string * option bool) :=
  let sts := train_important_stations tt in
  if negb (lmem station1 sts) then Ok ([], None)
  else if negb (lmem station2 sts) then Ok ([], None)
  else
    do i1 <- lindex station1 sts;
    do i2 <- lindex station2 sts;
    if (i2 <? i1)%nat then Ok ([], Some true)
    else
      let ind := positions (fun r => at_station station1 r || at_station station2 r) tt 0 in
      do a <- lnth ind 0;
      do b <- last1 ind;
      Ok (slice (a + 1) b (path_of tt), Some false).

(** get_common_blocks_and_direction_b2win_trains, utils.py:235-256; [true] is "same".  With
    [train1 = train2] the Python dictionary has one entry, of the same value. *)
Definition get_common_blocks_and_direction_b2win_trains (td : train_dict)
    (train1 train2 : Z) (station1 station2 : string) : res (list string * bool) :=
  let blocks_order train :=
    do tt <- train_time_table td train;
    do '(blocks, rev) <- get_blocks_b2win_station4train tt station1 station2;
    match rev with
    | Some true =>
        do '(blocks', _) <- get_blocks_b2win_station4train tt station2 station1;
        Ok (blocks', rev)
    | _ => Ok (blocks, rev)
    end in
  do '(b1, r1) <- blocks_order train1;
  do '(b2, r2) <- blocks_order train2;
  Ok (flatten (check_common_specific_elements_lists b1 b2), eqb r1 r2).

(** common_path, utils.py:259-269 *)
Definition common_path (tt1 tt2 : table) (station1 station2 : string) : res (list string) :=
  do '(blocks1, _) <- get_blocks_b2win_station4train tt1 station1 station2;
  do '(blocks2, _) <- get_blocks_b2win_station4train tt2 station1 station2;
  if eqb blocks1 blocks2 then Ok blocks1
  else Ok (flatten (check_common_specific_elements_lists blocks1 blocks2)).

(** is_train_passing_thru_station, utils.py:272-274 *)
Definition is_train_passing_thru_station (tt : table) (station : string) : bool :=
  lmem station (train_important_stations tt).

(** subsequent_station, utils.py:278-287 *)
Definition next_station (tt : table) (station : string) : res (option string) :=
  let sts := train_important_stations tt in
  if negb (lmem station sts) then Ok None
  else
    do i <- lindex station sts;
    if Nat.eqb i (List.length sts - 1) then Ok None
    else do s <- lnth sts (i + 1); Ok (Some s).

(** subsequent_block, utils.py:290-300 *)
Definition subsequent_block (blocks : list string) (block : string) : res (option string) :=
  if negb (lmem block blocks) then Err AssertionError
  else
    do i <- lindex block blocks;
    if Nat.eqb i (List.length blocks - 1) then Ok None
    else do b <- lnth blocks (i + 1); Ok (Some b).

(** get_trains_at_station, utils.py:307-333 *)
Definition touches (bs : list string) (tt : table) : bool :=
  existsb (fun r => lmem (r_block r) bs) tt.
Definition ends_in (bs : list string) (tt : table) : bool :=
  match rev tt with r :: _ => lmem (r_block r) bs | [] => false end.

Definition get_trains_at_station (td : train_dict) (st : station_blocks) (only_departue : bool)
  : dict string (list Z) :=
  map (fun kv : string * list string =>
    (fst kv,
     map fst
       (filter (fun e : Z * (list string * table) =>
                  touches (snd kv) (snd (snd e))
                  && (negb only_departue || negb (ends_in (snd kv) (snd (snd e)))))
          td)))
  st.

(** get_passing_time_block, utils.py:424-430 (called with r = None): the first row with the
    block; IndexError if there is none; NaN counts 0 *)
Definition get_passing_time_block (block : string) (tt : table) : res Q :=
  match filter (fun r => eqb (r_block r) block) tt with
  | [] => Err IndexError
  | r :: _ => Ok (match r_pass r with Some q => q | None => 0 end)
  end.

(** minimal_passing_time, utils.py:359-368.  The assertion reads
    [station1 and (station2 in ...)]: it looks at the second station only, and fails for an
    empty first name. *)
Definition minimal_passing_time (tt : table) (station1 station2 : string) (resolution : Z)
  : res Q :=
  if negb (negb (eqb station1 ""%string) && lmem station2 (train_important_stations tt))
  then Err AssertionError
  else
    do '(blocks, _) <- get_blocks_b2win_station4train tt station1 station2;
    do times <- mapM (fun b => get_passing_time_block b tt) blocks;
    Ok (round_if resolution (qsum times)).

(** [get_indexes(time_table, block)[0][0]], utils.py:71-85: columns are searched in order and
    "path" is the first column, so this is the first row with that block *)
Definition first_row (tt : table) (block : string) : res row :=
  match filter (fun r => eqb (r_block r) block) tt with
  | [] => Err IndexError
  | r :: _ => Ok r
  end.

(** turn_around_time, utils.py:371-379 *)
Definition turn_around_time (tt : table) (station : string) (st : station_blocks) (r : Z)
  : res Q :=
  do st_block <- blocks_list_4station tt station st;
  do b <- lnth st_block 0;
  do w <- first_row tt b;
  Ok (round_if r (match r_turn w with Some q => q | None => 0 end)).

(** Keys of the dictionaries of times *)
Definition key2 (train : Z) (s : string) : string := (str_of_Z train ++ "_" ++ s)%string.
Definition key3 (train : Z) (s s2 : string) : string :=
  (str_of_Z train ++ "_" ++ s ++ "_" ++ s2)%string.
Definition key4 (train1 train2 : Z) (s s2 : string) : string :=
  (str_of_Z train1 ++ "_" ++ str_of_Z train2 ++ "_" ++ s ++ "_" ++ s2)%string.

(** minimal_stay, utils.py:384-403: the stop time and the extra preparation times *)
Definition stop_time (train : Z) (station : string) (td : train_dict) (st : station_blocks)
    (first_station : bool) (r : Z) : res (Q * dict string Q) :=
  do tt <- train_time_table td train;
  do st_block <- blocks_list_4station tt station st;
  do b <- lnth st_block 0;
  do w <- first_row tt b;
  do ts <- mapM (fun b => get_passing_time_block b tt) st_block;
  let t := qsum ts in
  match r_turn w with
  | None => Ok (round_if r t, [])
  | Some turn =>
      if first_station then Ok (round_if r t, [(key2 train station, turn)])
      else Ok (round_if r (t + turn), [])
  end.

(** get_skip_stations, utils.py:500-507: the last column (important_station) of the last
    row, where it is a string *)
Definition get_skip_stations (td : train_dict) : res (dict Z string) :=
  foldM (fun d (e : Z * (list string * table)) =>
    do w <- last1 (snd (snd e));
    match r_station w with
    | Some s => Ok (dset (fst e) s d)
    | None => Ok d
    end) td [].

(** ** new_time_tables.py *)

(** Cells of the column "switches" of network_paths.ods: text [eval]uated by Python to one
    number or to a tuple, an integer-valued number cell, another number cell (given by the
    digits before and after the decimal point of its shortest decimal form), an empty cell. *)
Inductive swcell : Type :=
| SwOne (n : Z)
| SwMany (l : list Z)
| SwInt (n : Z)
| SwFloat (whole : Z) (frac : string)
| SwEmpty.

(** A row of the network table: two neighbouring blocks *)
Record netrow : Type := MkNet {
  n_prev : string;
  n_next : string;
  n_switch : swcell;
  n_ic_ab : option Q;
  n_r_ab : option Q;
  n_ic_ba : option Q;
  n_r_ba : option Q }.

(** get_path_type_colunm, utils.py:407-421: [true] is "previous_block" *)
Definition get_path_type_colunm (path_type : option string) (prev : bool)
  : res (netrow -> option Q) :=
  match path_type with
  | Some "R"%string => Ok (if prev then n_r_ab else n_r_ba)
  | Some "IC"%string => Ok (if prev then n_ic_ab else n_ic_ba)
  | _ => Err SystemExit
  end.

(** single_passing_time, new_time_tables.py:6-27.  [get_indexes(data_check, value1)[0][1]] is
    the first column with value1; no column but the first two holds block names. *)
Definition single_passing_time (value1 value2 : string) (v1_speed : option string)
    (net : list netrow) : res (option Q) :=
  let vs := [value1; value2] in
  let data_check := filter (fun n => lmem (n_prev n) vs && lmem (n_next n) vs) net in
  match data_check with
  | [] => Err AssertionError
  | n :: _ =>
      do prev <-
        (if existsb (fun n => eqb (n_prev n) value1) data_check then Ok true
         else if existsb (fun n => eqb (n_next n) value1) data_check then Ok false
         else Err IndexError);
      do column <- get_path_type_colunm v1_speed prev;
      Ok (column n)
  end.

(** passing_times_4blocks, new_time_tables.py:30-46; the last entry is NaN *)
Fixpoint passing_times (tt : table) (net : list netrow) : res (list (option Q)) :=
  match tt with
  | a :: ((b :: _) as rest) =>
      do t <- single_passing_time (r_block a) (r_block b) (r_speed a) net;
      do ts <- passing_times rest net;
      Ok (t :: ts)
  | _ => Ok [None]
  end.

Definition with_times (r : row) (p : option Q) (s : option string) : row :=
  MkRow (r_block r) (r_speed r) (r_arr r) (r_dep r) (r_approx r) (r_label r) (r_shunt r)
    (r_turn r) p s.

(** One train of update_all_timetables, new_time_tables.py:62-71.  An empty timetable, to
    which pandas would add a row of NaN, is rejected here. *)
Definition update_timetable (tt : table) (net : list netrow) (st : station_blocks)
  : res table :=
  match tt with
  | [] => Err OtherError
  | _ =>
      do ts <- passing_times tt net;
      Ok (map (fun rp : row * option Q =>
                 with_times (fst rp) (snd rp) (get_block_station (r_block (fst rp)) st))
            (combine tt ts))
  end.

(** update_all_timetables, new_time_tables.py:49-75 (the pickle file is not modelled) *)
Definition update_all_timetables (td : train_dict) (net : list netrow) (st : station_blocks)
  : res train_dict :=
  mapM (fun e : Z * (list string * table) =>
    do tt <- update_timetable (snd (snd e)) net st;
    Ok (fst e, (fst (snd e), tt))) td.
