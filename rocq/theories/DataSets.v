(** * DataSets: model of data_formatting/data_formatting/make_switch_set.py and of the
    functions of make_J_taus.py that make the sets of trains *)

From Coq Require Import List String Ascii ZArith QArith Bool Arith DecimalString.
From Verif Require Import Base DataTables.
Import ListNotations.
Open Scope string_scope.
Open Scope list_scope.

(** ** make_switch_set.py *)

(** block_indices_to_interprete_switches, make_switch_set.py:6-25 *)
Definition block_indices_to_interprete_switches (net : list netrow)
    (previous_block next_block : string) : list nat * list nat :=
  (positions (fun n => eqb (n_prev n) previous_block) net 0
     ++ positions (fun n => eqb (n_next n) previous_block) net 0,
   positions (fun n => eqb (n_prev n) next_block) net 0
     ++ positions (fun n => eqb (n_next n) next_block) net 0).

(** Reading a cell of the column "switches", make_switch_set.py:57-66 (and 102-111).  A number
    cell such as 16.19 (the text 16,19 taken for a number) becomes the text "16,19" again; the
    digits after the point are a Python integer literal, in which a leading 0 is a
    SyntaxError.  An empty cell is the text "nan" (NameError); [eval] of an integer is a
    TypeError.  Sets are lists. *)
Definition read_switch (c : swcell) : res (list Z) :=
  match c with
  | SwFloat whole frac =>
      match frac with
      | String "0" (String _ _) => Err OtherError
      | _ => do f <- int_of_str frac; Ok [whole; f]
      end
  | SwEmpty => Err NameError
  | SwInt _ => Err TypeError
  | SwOne n => Ok [n]
  | SwMany l => Ok l
  end.

(** [for s in switch_position: switch = ...]: the last position wins *)
Definition switches_at (net : list netrow) (pos : list nat) : res (list Z) :=
  foldM (fun _ p => do n <- lnth net p; read_switch (n_switch n)) pos [].

(** The switches between two blocks, make_switch_set.py:45-68 and 90-113 *)
Definition switches_between (net : list netrow) (previous_block next_block : string)
  : res (list Z) :=
  let '(lp, ln) := block_indices_to_interprete_switches net previous_block next_block in
  switches_at net (common_elements ln lp).

(** z_in, make_switch_set.py:28-70.  [switch] is unbound before the first occurrence of the
    station's block, and set again at each later occurrence.  [blocks_list[no - 1]] with
    [no = 0] is the last block. *)
Definition z_in (net : list netrow) (s : string) (sts station_block blocks_list : list string)
  : res (list Z) :=
  do r <-
    foldM (fun (acc : option (list Z) * bool) (nb : nat * string) =>
      if snd acc then Ok acc
      else
        do b0 <- lnth station_block 0;
        if eqb (snd nb) b0 then
          do i <- lindex s sts;
          if Nat.eqb i 0 then Ok (Some [], true)
          else
            do previous_block <-
              (if Nat.eqb (fst nb) 0 then last1 blocks_list else lnth blocks_list (fst nb - 1));
            do sw <- switches_between net previous_block (snd nb);
            Ok (Some sw, false)
        else Ok acc)
    (combine (seq 0 (List.length blocks_list)) blocks_list) (None, false);
  match fst r with
  | Some sw => Ok sw
  | None => Err UnboundLocalError
  end.

(** z_out, make_switch_set.py:73-115 *)
Definition z_out (net : list netrow) (s : string) (sts station_block blocks_list : list string)
  : res (list Z) :=
  do r <-
    foldM (fun (acc : option (list Z) * bool) (nb : nat * string) =>
      if snd acc then Ok acc
      else
        do b0 <- lnth station_block 0;
        if eqb (snd nb) b0 then
          do i <- lindex s sts;
          if Nat.eqb i (List.length sts - 1) then Ok (Some [], true)
          else
            do next_block <- lnth blocks_list (fst nb + 1);
            do sw <- switches_between net (snd nb) next_block;
            Ok (Some sw, false)
        else Ok acc)
    (combine (seq 0 (List.length blocks_list)) blocks_list) (None, false);
  match fst r with
  | Some sw => Ok sw
  | None => Err UnboundLocalError
  end.

(** ** make_J_taus.py *)

(** get_trains_pair9, make_J_taus.py:25-39 *)
Definition get_trains_pair9 (td : train_dict) : list (Z * Z) :=
  let trains := get_J td in
  flat_map (fun t => if lmem (t * 10 + 9)%Z trains then [(t, (t * 10 + 9)%Z)] else []) trains.

(** [d[k].append(v)], or [d[k] = [v]] for a new key *)
Definition dappend {K V : Type} `{EqDec K} (k : K) (v : V) (d : dict K (list V))
  : dict K (list V) :=
  match dget k d with
  | Some l => dset k (l ++ [v]) d
  | None => dset k [v] d
  end.

(** First station with the block, make_J_taus.py:71-73 (IndexError if none) *)
Definition station_with (block : string) (st : station_blocks) : res string :=
  match filter (fun kv => lmem block (snd kv)) st with
  | [] => Err IndexError
  | kv :: _ => Ok (fst kv)
  end.

(** get_jround, make_J_taus.py:43-78.  [block] keeps its value from the previous pair when
    neither test holds: line 70 names sys.exit without calling it. *)
Definition get_jround (td : train_dict) (st : station_blocks) : res (dict string (list (Z * Z))) :=
  do r <-
    foldM (fun (acc : option string * dict string (list (Z * Z))) (pair : Z * Z) =>
      do t0 <- train_time_table td (fst pair);
      do t1 <- train_time_table td (snd pair);
      do f0 <- lnth (path_of t0) 0;
      do l1 <- last1 (path_of t1);
      do f1 <- lnth (path_of t1) 0;
      do l0 <- last1 (path_of t0);
      let '(block, pr) :=
        if eqb f0 l1 then (Some f0, (snd pair, fst pair))
        else if eqb f1 l0 then (Some f1, pair)
        else (fst acc, pair) in
      match block with
      | None => Err UnboundLocalError
      | Some b =>
          do station <- station_with b st;
          Ok (block, dappend station pr (snd acc))
      end)
    (get_trains_pair9 td) (None, []);
  Ok (snd r).

(** josingle_dict_generate, make_J_taus.py:81-111.  The caller ignores what is returned and
    relies on the dictionary being changed in place. *)
Definition josingle_dict_generate (td : train_dict) (j j' : Z) (s s' : string)
    (d : dict (string * string) (list (Z * Z))) : res (dict (string * string) (list (Z * Z))) :=
  do tj <- train_time_table td j;
  do tj' <- train_time_table td j';
  do '(path, _) <- get_blocks_b2win_station4train tj s s';
  do '(path', _) <- get_blocks_b2win_station4train tj' s' s;
  if negb (Nat.eqb (List.length path) 0) && eqb path (rev path')
  then Ok (dappend (s, s') (j, j') d)
  else Ok d.

(** jtrack_dict_generation, make_J_taus.py:114-134 *)
Definition jtrack_dict_generation (d : dict string (list (list Z)))
  : dict string (list (list Z)) :=
  map (fun kv => (fst kv, filter (fun el => negb (Nat.eqb (List.length el) 0)) (snd kv))) d.

(** important_trains_and_stations, make_J_taus.py:137-168 *)
Definition imp_stations_list (st : station_blocks) (imp_stations : option (list string))
  : list string :=
  match imp_stations with Some l => l | None => dkeys st end.

(** exclusion_list_jtrack, make_J_taus.py:171-179 *)
Definition station_exclusion_list : list string := ["KO(KS)"; "KO(IC)"].
Definition block_exclusion_list : list (list string) :=
  [["""KO"", ""ST-M"", 1114, ""(N/A)"""];
   ["""KO"", ""ST-M"", 1113, ""(N/A)"""];
   ["""KO"", ""ST-M"", 1118, ""(N/A)"""]].

(** non_repeating_pair_for_jswitch, make_J_taus.py:182-187 *)
Definition non_repeating_0 : string := "KO".
Definition non_repeating_1 : string := "KO(STM)".
Definition non_repeating_singles : list string := ["KO(IC)"; "KO(KS)"].

(** josingle, make_J_taus.py:193-213 *)
Definition josingle (td : train_dict) (st : station_blocks) (imp_stations : option (list string))
  : res (dict (string * string) (list (Z * Z))) :=
  let stations := imp_stations_list st imp_stations in
  let trains_at := get_trains_at_station td st true in
  foldM (fun d s =>
    do trains <- dlookup s trains_at;
    foldM (fun d j =>
      do tj <- train_time_table td j;
      do s' <- next_station tj s;
      match s' with
      | None => Ok d
      | Some s' =>
          if lmem s' stations then
            foldM (fun d j' =>
              if eqb j' j then Ok d
              else
                do tj' <- train_time_table td j';
                do back <- next_station tj' s';
                if eqb back (Some s) && negb (dmem (s', s) d)
                then josingle_dict_generate td j j' s s' d
                else Ok d)
            trains d
          else Ok d
      end)
    trains d)
  stations [].

(** [vs[i].append(j)] *)
Fixpoint append_at {A : Type} (i : nat) (x : A) (vs : list (list A)) : list (list A) :=
  match i, vs with
  | O, v :: r => (v ++ [x]) :: r
  | S i, v :: r => v :: append_at i x r
  | _, [] => []
  end.

(** jtrack_subroutine, make_J_taus.py:216-234: [vs] starts with an empty group, hence the
    index is one more than the one of the blocks *)
Definition jtrack_subroutine (td : train_dict) (s : string) (st : station_blocks)
    (trains : list Z) : res (list (list Z)) :=
  do r <-
    foldM (fun (acc : list (list string) * list (list Z)) j =>
      do tj <- train_time_table td j;
      do b <- blocks_list_4station tj s st;
      if negb (lmem b block_exclusion_list) then
        if lmem b (fst acc) then
          do i <- lindex b (fst acc);
          Ok (fst acc, append_at (i + 1) j (snd acc))
        else Ok (fst acc ++ [b], snd acc ++ [[j]])
      else Ok acc)
    trains ([], [[]]);
  Ok (snd r).

(** jtrack, make_J_taus.py:237-260 ([vs] is never empty) *)
Definition jtrack (td : train_dict) (st : station_blocks) (imp_stations : option (list string))
  : res (dict string (list (list Z))) :=
  let trains_at := get_trains_at_station td st false in
  do d <-
    foldM (fun d s =>
      if negb (lmem s station_exclusion_list) then
        do trains <- dlookup s trains_at;
        do vs <- jtrack_subroutine td s st trains;
        Ok (dset s vs d)
      else Ok d)
    (imp_stations_list st imp_stations) [];
  Ok (jtrack_dict_generation d).

(** [bool(a.intersection(b))] *)
Definition share (a b : list Z) : bool := existsb (fun x => lmem x b) a.

(** make_jswitch_dict, make_J_taus.py:263-311: the entries added for one pair of (different)
    trains *)
Definition make_jswitch_dict (tj tj' : table) (s : string) (j j' : Z)
    (in_j in_j' out_j out_j' : list Z) : res (list (dict Z string)) :=
  do nj0 <- next_station tj non_repeating_0;
  do nj0' <- next_station tj' non_repeating_0;
  do njs <- next_station tj s;
  do njs' <- next_station tj' s;
  let free := negb (eqb s non_repeating_1) in
  let no_in n := negb (eqb n (Some s)) in
  let no_out n := negb (eqb n (Some non_repeating_0)) in
  let add (c : bool) (a b : string) : list (dict Z string) :=
    if c then [[(j, a); (j', b)]] else [] in
  Ok (add (share in_j in_j' && (free || (no_in nj0 && no_in nj0'))) "in" "in"
      ++ add (share in_j out_j' && (free || (no_in nj0 && no_out njs'))) "in" "out"
      ++ add (share out_j in_j' && (free || (no_out njs && no_in nj0'))) "out" "in"
      ++ add (share out_j out_j' && (free || (no_out njs && no_out njs'))) "out" "out").

(** jswitch, make_J_taus.py:314-365 *)
Definition jswitch (td : train_dict) (st : station_blocks) (net : list netrow)
    (imp_stations : option (list string)) : res (dict string (list (dict Z string))) :=
  let trains_at := get_trains_at_station td st false in
  foldM (fun d s =>
    do trains <- dlookup s trains_at;
    do blocks <-
      mapM (fun j =>
        do tj <- train_time_table td j;
        do b <- blocks_list_4station tj s st;
        Ok (j, b)) trains;
    do vec <-
      foldM (fun vec (p : Z * Z) =>
        do tj <- train_time_table td (fst p);
        do tj' <- train_time_table td (snd p);
        do b <- dlookup (fst p) blocks;
        do b' <- dlookup (snd p) blocks;
        let sts := train_important_stations tj in
        let sts' := train_important_stations tj' in
        do in_j <- z_in net s sts b (path_of tj);
        do out_j <- z_out net s sts b (path_of tj);
        do in_j' <- z_in net s sts' b' (path_of tj');
        do out_j' <- z_out net s sts' b' (path_of tj');
        if negb (lmem s non_repeating_singles) then
          do new <- make_jswitch_dict tj tj' s (fst p) (snd p) in_j in_j' out_j out_j';
          Ok (vec ++ new)
        else Ok vec)
      (combinations2 trains) [];
    Ok (dset s vec d))
  (imp_stations_list st imp_stations) [].

(** jd, make_J_taus.py:368-406.  One pass of the [while j not in flatten(...)] loop: the train
    joins every group whose first train has all its blocks between the stations, or a new
    group. *)
Definition jd_pass (td : train_dict) (s s2 : string) (j : Z) (tj : table)
    (groups : list (list Z)) : res (list (list Z)) :=
  do r <-
    foldM (fun (acc : list (list Z) * bool) (g : list Z) =>
      do first <- lnth g 0;
      do tf <- train_time_table td first;
      do common <- common_path tj tf s s2;
      do '(own, _) <- get_blocks_b2win_station4train tj s s2;
      if eqb common own then Ok (fst acc ++ [g ++ [j]], true)
      else Ok (fst acc ++ [g], snd acc))
    groups ([], false);
  if snd r then Ok (fst r) else Ok (fst r ++ [[j]]).

(** After one pass the train is in some group, so the loop body runs at most once
    ([jd_once] in PropsSets shows that the condition is then false). *)
Definition jd_add (td : train_dict) (s s2 : string) (j : Z) (tj : table)
    (groups : list (list Z)) : res (list (list Z)) :=
  if lmem j (flatten groups) then Ok groups else jd_pass td s s2 j tj groups.

Definition jd (td : train_dict) (st : station_blocks) (imp_stations : option (list string))
  : res (dict string (dict string (list (list Z)))) :=
  let trains_at := get_trains_at_station td st false in
  foldM (fun d s =>
    do trains <- dlookup s trains_at;
    do inner <-
      foldM (fun inner j =>
        do tj <- train_time_table td j;
        do s2 <- next_station tj s;
        match s2 with
        | None => Ok inner
        | Some s2 =>
            let groups := match dget s2 inner with Some g => g | None => [] end in
            do groups <- jd_add td s s2 j tj groups;
            Ok (dset s2 groups inner)
        end)
      trains [];
    Ok (dset s inner d))
  (imp_stations_list st imp_stations) [].
