(** * DataTimes: model of the times made by make_J_taus.py, of scheduling_tools.py and of the
    builders of the root helpers.py *)

From Coq Require Import List String Ascii ZArith QArith Qround Bool Arith DecimalString.
From Verif Require Import Base DataTables DataSets.
Import ListNotations.
Open Scope string_scope.
Open Scope list_scope.

(** ** make_J_taus.py: taus *)

(** get_taus_pass, make_J_taus.py:412-443 *)
Definition get_taus_pass (td : train_dict) (trains : option (list Z)) (r : Z)
  : res (dict string Q) :=
  let paths := get_Paths td in
  foldM (fun d train =>
    do tt <- train_time_table td train;
    do path <- dlookup train paths;
    foldM (fun d s =>
      do s2 <- next_station tt s;
      match s2 with
      | None => Ok d
      | Some s2 =>
          do t <- minimal_passing_time tt s s2 r;
          Ok (dset (key3 train s s2) t d)
      end) path d)
  (match trains with Some l => l | None => dkeys paths end) [].

(** One station of get_taus_stop, make_J_taus.py:470-488 *)
Definition taus_stop_station (td : train_dict) (st : station_blocks) (r : Z) (train : Z)
    (len : nat) (acc : bool * (dict string Q * dict string Q)) (is : nat * string)
  : res (bool * (dict string Q * dict string Q)) :=
  let first_station := if Nat.eqb (fst is) 0 then true else fst acc in
  do skip <-
    (if Nat.eqb (fst is) (len - 1) then
       do tt <- train_time_table td train;
       do bs <- blocks_list_4station tt (snd is) st;
       do b <- lnth bs 0;
       do n <- subsequent_block (path_of tt) b;
       Ok (match n with None => true | Some _ => false end)
     else Ok false);
  if (skip : bool) then Ok (first_station, snd acc)
  else
    do '(t, prep) <- stop_time train (snd is) td st first_station r;
    Ok (first_station,
        (dset (key2 train (snd is)) t (fst (snd acc)), dupdate (snd (snd acc)) prep)).

(** get_taus_stop, make_J_taus.py:446-489.  [first_station] is set at the first station of the
    first train and never reset. *)
Definition get_taus_stop (td : train_dict) (st : station_blocks) (trains : option (list Z))
    (r : Z) : res (dict string Q * dict string Q) :=
  let paths := get_Paths td in
  do acc <-
    foldM (fun acc train =>
      do path <- dlookup train paths;
      foldM (taus_stop_station td st r train (List.length path))
        (combine (seq 0 (List.length path)) path) acc)
    (match trains with Some l => l | None => dkeys paths end) (false, ([], []));
  Ok (snd acc).

(** get_taus_prep, make_J_taus.py:492-512 *)
Definition get_taus_prep (td : train_dict) (st : station_blocks) (r : Z)
  : res (dict string Q) :=
  foldM (fun d (e : Z * list string) =>
    do s <- lnth (snd e) 0;
    do tt <- train_time_table td (fst e);
    do t <- turn_around_time tt s st r;
    if Qeq_bool t 0 then Ok d else Ok (dset (key2 (fst e) s) t d))
  (get_Paths td) [].

(** Stretches with one block between trains, make_J_taus.py:519 *)
Definition list_of_k1_pairs : list (string * string) :=
  [("KO(STM)", "KZ"); ("CB", "CM"); ("KTC-CB", "via Gt")].

(** [np.max] of a nonempty vector *)
Definition np_max (x : Q) (l : list Q) : Q := fold_left qmax l x.

(** The headway over given blocks, make_J_taus.py:530-556: [t1], [t2] are the passing times of
    the blocks for the first and the second train *)
Definition headway_terms (k : nat) (t1 t2 : list Q) : list Q :=
  map (fun x =>
    qsum (slice x (x + k) t1)
    + (if Nat.eqb x 0 then 0
       else qsum (map (fun p : Q * Q => fst p - snd p) (firstn x (combine t1 t2)))))
  (seq 0 (List.length t1)).

Definition headway (k : nat) (t1 t2 : list Q) : Q :=
  match headway_terms k t1 t2 with
  | [] => 0
  | x :: l => np_max x l
  end.

Definition headway_blocks (station1 station2 : string) : nat :=
  if lmem (station1, station2) list_of_k1_pairs || lmem (station2, station1) list_of_k1_pairs
  then 1 else 2.

(** One pair of trains of get_taus_headway, make_J_taus.py:527-556 *)
Definition pair_headway (td : train_dict) (station1 station2 : string) (train1 train2 : Z)
    (r : Z) : res Q :=
  do tt1 <- train_time_table td train1;
  do tt2 <- train_time_table td train2;
  do blocks <- common_path tt1 tt2 station1 station2;
  do t1 <- mapM (fun b => get_passing_time_block b tt1) blocks;
  do t2 <- mapM (fun b => get_passing_time_block b tt2) blocks;
  Ok (round_if r (headway (headway_blocks station1 station2) t1 t2)).

(** get_taus_headway, make_J_taus.py:515-558 *)
Definition get_taus_headway (td : train_dict) (st : station_blocks) (r : Z)
  : res (dict string Q) :=
  do jds <- jd td st None;
  foldM (fun d station1 =>
    do inner <- dlookup station1 jds;
    foldM (fun d (e : string * list (list Z)) =>
      let ts := flatten (snd e) in
      foldM (fun d (p : Z * Z) =>
        if eqb (fst p) (snd p) then Ok d
        else
          do h <- pair_headway td station1 (fst e) (fst p) (snd p) r;
          Ok (dset (key4 (fst p) (snd p) station1 (fst e)) h d))
      (list_prod ts ts) d)
    inner d)
  (dkeys st) [].

(** ** scheduling_tools.py *)

(** get_schedule_per_train, scheduling_tools.py:10-27 *)
Definition get_schedule_per_train (tt : table) : dict string string :=
  fold_left (fun d r =>
    match r_station r, r_dep r with
    | Some s, Some t => if dmem s d then d else dset s t d
    | _, _ => d
    end) tt [].

(** [datetime.strptime(t, "%H:%M")] as minutes after midnight: hours are one or two digits up
    to 23, minutes one or two digits up to 59 *)
Definition digit_val (c : ascii) : Z := Z.of_nat (nat_of_ascii c) - 48.

Definition clock_part (s : string) (bound : Z) : res Z :=
  match s with
  | String a EmptyString => if is_digit a then Ok (digit_val a) else Err ValueError
  | String a (String b EmptyString) =>
      if is_digit a && is_digit b then
        let n := (10 * digit_val a + digit_val b)%Z in
        if (n <? bound)%Z then Ok n else Err ValueError
      else Err ValueError
  | _ => Err ValueError
  end.

Fixpoint split_colon (s : string) : option (string * string) :=
  match s with
  | EmptyString => None
  | String ":" r => Some (EmptyString, r)
  | String c r =>
      match split_colon r with
      | Some (a, b) => Some (String c a, b)
      | None => None
      end
  end.

Definition strptime (t : string) : res Z :=
  match split_colon t with
  | None => Err ValueError
  | Some (h, m) =>
      do h <- clock_part h 24;
      do m <- clock_part m 60;
      Ok (60 * h + m)%Z
  end.

(** calc_time_diff, scheduling_tools.py:55-63: the distance of the two times, with the sign
    set afterwards *)
Definition calc_time_diff (t1 t2 : string) : res Z :=
  do a <- strptime t1;
  do b <- strptime t2;
  let time := if (a <=? b)%Z then (b - a)%Z else (a - b)%Z in
  Ok (if (b <? a)%Z then (time * -1)%Z else time).

(** get_schedule, scheduling_tools.py:30-52 *)
Definition get_schedule (td : train_dict) (t1 : string) : res (dict string Q) :=
  foldM (fun d (e : Z * (list string * table)) =>
    foldM (fun d (st : string * string) =>
      do t <- calc_time_diff t1 (snd st);
      Ok (dset (key2 (fst e) (fst st)) (inject_Z t) d))
    (get_schedule_per_train (snd (snd e))) d)
  td [].

(** get_initial_conditions, scheduling_tools.py:66-83 *)
Definition get_initial_conditions (td : train_dict) (t1 : string) : res (dict string Q) :=
  foldM (fun d (e : Z * (list string * table)) =>
    match filter (fun r => match r_station r with Some _ => true | None => false end)
            (snd (snd e)) with
    | [] => Err IndexError
    | r :: _ =>
        match r_station r with
        | None => Err OtherError
        | Some s =>
            do t <-
              (match r_dep r, r_approx r with
               | Some t2, _ => calc_time_diff t1 t2
               | None, Some t2 => calc_time_diff t1 t2
               | None, None => Ok 0%Z
               end);
            Ok (dset (key2 (fst e) s) (inject_Z t) d)
        end
    end)
  td [].

(** add_delay, scheduling_tools.py:86-95 *)
Definition add_delay (initial_conditions : dict string Q) (train : Z) (delay : Q)
  : dict string Q :=
  let t_string := (str_of_Z train ++ "_")%string in
  dupdate initial_conditions
    (map (fun kv => (fst kv, snd kv + delay))
       (filter (fun kv => str_contains t_string (fst kv)) initial_conditions)).

(** make_weights, scheduling_tools.py:98-123; the kind of a train is the first of its four
    header fields *)
Record weights : Type := MkWeights { w_stopping : Q; w_fast : Q; w_express : Q; w_empty : Q }.

Definition trains_weights (w : weights) : dict string Q :=
  [("KS - Os", w_stopping w); ("PR - R", w_stopping w); ("KS - OsP", w_stopping w);
   ("IC - TLK", w_fast w); ("IC - IC", w_fast w);
   ("IC - EIP", w_express w); ("IC - EIC", w_express w)].

Definition pair_trains (td : train_dict) : list Z :=
  flat_map (fun p : Z * Z => [fst p; snd p]) (get_trains_pair9 td).

Definition make_weights (td : train_dict) (skip_stations : dict Z string) (w : weights)
  : res (dict string Q) :=
  foldM (fun d (e : Z * (list string * table)) =>
    let train := fst e in
    do kind <- lnth (fst (snd e)) 0;
    do weight <- dlookup kind (trains_weights w);
    let weight := if lmem (train / 10)%Z (pair_trains td) then w_empty w else weight in
    let sts := train_important_stations (snd (snd e)) in
    do station <- last1 sts;
    do station <-
      (match dget train skip_stations with
       | Some sk => if eqb station sk then last2 sts else Ok station
       | None => Ok station
       end);
    Ok (dset (key2 train station) weight d))
  td [].
