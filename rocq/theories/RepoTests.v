(** * RepoTests: the unit tests of the data formatting part, on the model

    The assertions of data_formatting/test/*.py, with the values asserted there (copied by a script), stated
    of the model and the tables in RealData.v.  These are tests: they show that the model agrees with the
    code where the repository itself says what the code must return, and prove nothing else. *)

From Coq Require Import List String Ascii ZArith QArith Bool.
From Verif Require Import Base Pulp DataTables DataSets DataTimes Pipeline RealData.
Import ListNotations.
Open Scope string_scope.
Open Scope list_scope.

Definition is_ok_with {A : Type} `{EqDec A} (r : res A) (a : A) : bool := match r with Ok b => eqb b a | Err _ => false end.
Definition has_texts (r : res (dict Z string)) (d : dict Z string) : bool :=
  match r with Ok e => forallb (fun kv => eqb (dget (fst kv) e) (Some (snd kv))) d | Err _ => false end.
Definition has_times (r : res (dict string Q)) (d : dict string Q) : bool :=
  match r with
  | Ok e => forallb (fun kv => match dget (fst kv) e with Some q => Qeq_bool q (snd kv) | None => false end) d
  | Err _ => false
  end.
Definition same_times (r : res (dict string Q)) (d : dict string Q) : bool :=
  has_times r d && match r with Ok e => forallb (fun k => lmem k (dkeys d)) (dkeys e) | Err _ => false end.
Definition groups_at {A : Type} `{EqDec A} (d : dict string A) (s : string) (l : A) : bool := eqb (dget s d) (Some l).
Definition groups_on {A : Type} `{EqDec A} (d : dict string (dict string A)) (s s2 : string) (l : A) : bool :=
  match dget s d with Some e => groups_at e s2 l | None => false end.
Definition same_set (r : res (list Z)) (l : option (list Z)) : bool :=
  match l with
  | None => true
  | Some l => match r with Ok m => forallb (fun z => lmem z m) l && forallb (fun z => lmem z l) m | Err _ => false end
  end.
Definition sets_ok (td : train_dict) (j : Z) (s : string) (zin zout : option (list Z)) : bool :=
  match dget j td, dget j (get_Paths td) with
  | Some (_, tb), Some path =>
      match blocks_list_4station tb s stations_main with Err _ => false | Ok bs =>
      same_set (z_in network s path bs (path_of tb)) zin && same_set (z_out network s path bs (path_of tb)) zout end
  | _, _ => false
  end.
Definition stations_common (td : train_dict) (t t' : Z) (l : list string) : bool :=
  match check_common_station td t t' with Ok c => forallb (fun s => lmem s c) l | Err _ => false end.

Definition data_tests (td : train_dict) : list (string * bool) :=
  [("test_switch_set",
   sets_ok td 44862%Z "MJ" (Some [2%Z]) (Some [1%Z]) &&
   sets_ok td 44717%Z "MJ" (Some [1%Z]) (Some [2%Z]) &&
   sets_ok td 44862%Z "KL" (Some [78; 79; 83; 84; 85; 55; 56]%Z) (Some [8; 15]%Z) &&
   sets_ok td 26103%Z "KZ" None (Some [53; 47]%Z) &&
   sets_ok td 26103%Z "KO(STM)" (Some [18; 5]%Z) (Some [55; 54; 39]%Z) &&
   sets_ok td 26103%Z "KO" (Some [55; 54; 39]%Z) None);
   ("test_skip_station",
   has_texts (get_skip_stations td) [(94766%Z, "KO(STM)"); (421009%Z, "KO"); (40518%Z, "KO(STM)"); (34319%Z, "KO"); (343199%Z, "KO(STM)"); (40673%Z, "GLC"); (54101%Z, "KO"); (541019%Z, "KO(IC)"); (44862%Z, "KO(STM)"); (40675%Z, "GLC")]);
   ("test_taus_pass",
   has_times (get_taus_pass td None 1) [("94766_Ty_KL", (8));
     ("94766_KL_KO", (5));
     ("94766_KO_KO(STM)", (0));
     ("26103_KZ_KO(STM)", (1));
     ("26103_KO(STM)_KO", (0));
     ("26103_KO_CB", (3));
     ("26103_CB_GLC", (14));
     ("421009_KO(IC)_KO(STM)", (0));
     ("421009_KO(STM)_KO", (0));
     ("42100_KO_KO(STM)", (0));
     ("42100_KO(STM)_KZ", (1))]);
   ("test_taus_pass_not_round",
   has_times (get_taus_pass td None 0) [("94766_Ty_KL", (39 # 5));
     ("42100_KO_KO(STM)", (0));
     ("42100_KO(STM)_KZ", (13 # 10))]);
   ("test_taus_stop",
   has_times (do r <- get_taus_stop td stations_main None 1; Ok (fst r)) [("94766_Ty", (2));
     ("94766_KL", (1));
     ("94766_KO", (3));
     ("26103_KZ", (1));
     ("26103_KO(STM)", (2));
     ("26103_KO", (3));
     ("26103_CB", (2));
     ("26103_GLC", (1));
     ("421009_KO(STM)", (2));
     ("42100_KO", (3));
     ("42100_KO(STM)", (1));
     ("42100_KZ", (1))]);
   ("test_stop_not_round",
   has_times (do r <- get_taus_stop td stations_main None 0; Ok (fst r)) [("26103_KO(STM)", (17 # 10));
     ("421009_KO(STM)", (17 # 10));
     ("42100_KO", (3))]);
   ("test_taus_prep",
   same_times (get_taus_prep td stations_main 0) [("42100_KO", (5));
     ("343199_KO", (5));
     ("541019_KO", (5))]);
   ("test_taus_headway",
   has_times (get_taus_headway td stations_main 1) [("26103_14006_KZ_KO(STM)", (1));
     ("26103_40673_KZ_KO(STM)", (1));
     ("26103_54101_KZ_KO(STM)", (1));
     ("26103_40675_KZ_KO(STM)", (1));
     ("14006_40673_KZ_KO(STM)", (1));
     ("14006_54101_KZ_KO(STM)", (1));
     ("14006_40675_KZ_KO(STM)", (1));
     ("94766_40518_Ty_KL", (2));
     ("40518_94766_Ty_KL", (2));
     ("94766_41004_Ty_KL", (4));
     ("41004_94766_Ty_KL", (2))]);
   ("test_headway_not_round",
   has_times (get_taus_headway td stations_main 0) [("26103_14006_KZ_KO(STM)", (6 # 5));
     ("26103_40673_KZ_KO(STM)", (6 # 5));
     ("94766_40518_Ty_KL", (5 # 2));
     ("40518_94766_Ty_KL", (5 # 2));
     ("94766_41004_Ty_KL", (19 # 5));
     ("41004_94766_Ty_KL", (17 # 10))]);
   ("test_schedule",
   has_times (get_schedule td "16:00") [("94766_Ty", (-13));
     ("94766_KL", (-3));
     ("26103_KO", (11));
     ("26103_CB", (17));
     ("26103_GLC", (36));
     ("42100_KO", (8));
     ("41004_Ty", (1))]);
   ("test_initial_conditions",
   has_times (get_initial_conditions td "16:00") [("94766_Ty", (-13));
     ("26103_KZ", (0));
     ("421009_KO(IC)", (-10));
     ("42100_KO", (8));
     ("5312_GLC", (-18));
     ("40518_Ty", (-9));
     ("54101_KZ", (24));
     ("541019_KO", (28))]);
   ("test_add_delay_1",
   has_times (do i <- get_initial_conditions td "16:00"; Ok (add_delay (add_delay i 94766 20) 42100 10)) [("94766_Ty", (7));
     ("26103_KZ", (0));
     ("421009_KO(IC)", (-10));
     ("42100_KO", (18));
     ("5312_GLC", (-18));
     ("40518_Ty", (-9))]);
   ("test_penalty_weights",
   has_times (make_weights td [(94766%Z, "KO(STM)"); (421009%Z, "KO"); (40518%Z, "KO(STM)"); (34319%Z, "KO"); (343199%Z, "KO(STM)"); (40673%Z, "GLC"); (54101%Z, "KO"); (541019%Z, "KO(IC)"); (44862%Z, "KO(STM)"); (40675%Z, "GLC")] (MkWeights 1 (3 # 2) (7 # 4) 0)) [("94766_KO", (1));
     ("26103_GLC", (3 # 2));
     ("421009_KO(STM)", (0));
     ("42100_KZ", (3 # 2));
     ("5312_KZ", (3 # 2));
     ("40518_KO", (1));
     ("34319_KO(STM)", (1));
     ("343199_KO", (0));
     ("14006_Ty", (3 # 2));
     ("94611_Ty", (1));
     ("40150_KZ", (1));
     ("41004_KZ", (3 # 2));
     ("94113_Ty", (1));
     ("40673_CB", (1));
     ("54101_KO(STM)", (3 # 2));
     ("541019_KO(STM)", (0));
     ("40477_Ty", (1));
     ("4500_KZ", (7 # 4));
     ("94317_CM", (1));
     ("44717_Mi", (1));
     ("64350_KZ", (1));
     ("94717_Ty", (1));
     ("44862_KO", (1));
     ("40628_KZ", (1));
     ("40675_CB", (1));
     ("73000_KZ", (3 # 2));
     ("4120_KZ", (3 # 2))]);
   ("test_js",
   eqb (get_trains_pair9 td) [(42100, 421009)%Z; (34319, 343199)%Z; (54101, 541019)%Z] && is_ok_with (get_jround td stations_main) [("KO", [(421009, 42100)%Z; (34319, 343199)%Z; (54101, 541019)%Z])]);
   ("test_josingle",
   is_ok_with (josingle td stations_main (Some ["CM"; "CB"])) [] &&
   is_ok_with (josingle td stations_main (Some ["GLC"; "CB"])) [] &&
   is_ok_with (josingle td stations_main (Some ["Mi"; "MJ"])) [(("Mi", "MJ"), [(44862, 44717)%Z])] &&
   is_ok_with (josingle td stations_main (Some ["KL"; "MJ"; "Mi"])) [(("KL", "MJ"), [(44717, 44862)%Z]); (("MJ", "Mi"), [(44717, 44862)%Z])] &&
   match jtrack td stations_main None with Ok d =>
   groups_at d "KZ" [[26103%Z; 14006%Z; 40673%Z; 54101%Z; 40675%Z]; [42100%Z; 40150%Z; 41004%Z; 4500%Z; 40628%Z; 4120%Z]; [5312%Z; 64350%Z; 73000%Z]; [34319%Z; 94317%Z]] &&
   groups_at d "KO" [[94766%Z; 40518%Z; 34319%Z; 343199%Z; 64350%Z; 44862%Z]; [26103%Z; 40673%Z; 94317%Z]; [421009%Z; 42100%Z; 54101%Z; 541019%Z; 4500%Z; 40628%Z]; [5312%Z; 40150%Z; 73000%Z]; [14006%Z; 40477%Z; 40675%Z]; [94611%Z; 94113%Z; 44717%Z; 94717%Z]; [41004%Z; 4120%Z]] &&
   groups_at d "KO(STM)" [[26103%Z; 14006%Z; 40673%Z; 40675%Z]; [421009%Z; 42100%Z; 5312%Z; 34319%Z; 40150%Z; 54101%Z; 541019%Z; 4500%Z; 40628%Z; 73000%Z; 4120%Z]; [41004%Z; 64350%Z]; [94317%Z]] &&
   groups_at d "CB" [[26103%Z; 40673%Z; 40675%Z]; [5312%Z; 40150%Z; 4500%Z; 40628%Z; 73000%Z]; [94317%Z]; [64350%Z]] &&
   groups_at d "GLC" [[26103%Z]; [5312%Z]; [40150%Z; 40673%Z; 40628%Z; 40675%Z]; [4500%Z]; [73000%Z]] &&
   groups_at d "KL" [[94766%Z; 40518%Z; 41004%Z; 44862%Z; 4120%Z]; [14006%Z; 94611%Z; 94113%Z; 40477%Z; 94717%Z]; [44717%Z]] &&
   groups_at d "Mi" [[44717%Z]; [44862%Z]] &&
   groups_at d "MJ" [[44717%Z]; [44862%Z]] &&
   groups_at d "CM" [[94317%Z]; [64350%Z]] | Err _ => false end);
   ("test_jswitches",
   match jswitch td stations_main network (Some ["GLC"; "MJ"; "Mi"; "CB"; "KO(IC)"; "KO(KS)"]) with Ok d =>
   groups_at d "GLC" [[(26103%Z, "in"); (40673%Z, "in")]; [(26103%Z, "in"); (40675%Z, "in")]; [(5312%Z, "out"); (40150%Z, "out")]; [(5312%Z, "out"); (4500%Z, "out")]; [(5312%Z, "out"); (40628%Z, "out")]; [(5312%Z, "out"); (73000%Z, "out")]; [(40150%Z, "out"); (4500%Z, "out")]; [(40150%Z, "out"); (40628%Z, "out")]; [(40150%Z, "out"); (73000%Z, "out")]; [(40673%Z, "in"); (40675%Z, "in")]; [(4500%Z, "out"); (40628%Z, "out")]; [(4500%Z, "out"); (73000%Z, "out")]; [(40628%Z, "out"); (73000%Z, "out")]] &&
   groups_at d "MJ" [[(44717%Z, "in"); (44862%Z, "out")]; [(44717%Z, "out"); (44862%Z, "in")]] &&
   groups_at d "Mi" [[(44717%Z, "in"); (44862%Z, "out")]] &&
   groups_at d "CB" [[(26103%Z, "in"); (40673%Z, "in")]; [(26103%Z, "out"); (40673%Z, "out")]; [(26103%Z, "in"); (94317%Z, "in")]; [(26103%Z, "in"); (40675%Z, "in")]; [(26103%Z, "out"); (40675%Z, "out")]; [(5312%Z, "in"); (40150%Z, "in")]; [(5312%Z, "out"); (40150%Z, "out")]; [(5312%Z, "in"); (4500%Z, "in")]; [(5312%Z, "out"); (4500%Z, "out")]; [(5312%Z, "out"); (94317%Z, "in")]; [(5312%Z, "out"); (64350%Z, "out")]; [(5312%Z, "in"); (40628%Z, "in")]; [(5312%Z, "out"); (40628%Z, "out")]; [(5312%Z, "in"); (73000%Z, "in")]; [(5312%Z, "out"); (73000%Z, "out")]; [(40150%Z, "in"); (4500%Z, "in")]; [(40150%Z, "out"); (4500%Z, "out")]; [(40150%Z, "out"); (94317%Z, "in")]; [(40150%Z, "out"); (64350%Z, "out")]; [(40150%Z, "in"); (40628%Z, "in")]; [(40150%Z, "out"); (40628%Z, "out")]; [(40150%Z, "in"); (73000%Z, "in")]; [(40150%Z, "out"); (73000%Z, "out")]; [(40673%Z, "in"); (94317%Z, "in")]; [(40673%Z, "in"); (40675%Z, "in")]; [(40673%Z, "out"); (40675%Z, "out")]; [(4500%Z, "out"); (94317%Z, "in")]; [(4500%Z, "out"); (64350%Z, "out")]; [(4500%Z, "in"); (40628%Z, "in")]; [(4500%Z, "out"); (40628%Z, "out")]; [(4500%Z, "in"); (73000%Z, "in")]; [(4500%Z, "out"); (73000%Z, "out")]; [(94317%Z, "in"); (40628%Z, "out")]; [(94317%Z, "in"); (40675%Z, "in")]; [(94317%Z, "in"); (73000%Z, "out")]; [(64350%Z, "out"); (40628%Z, "out")]; [(64350%Z, "out"); (73000%Z, "out")]; [(40628%Z, "in"); (73000%Z, "in")]; [(40628%Z, "out"); (73000%Z, "out")]] &&
   groups_at d "KO(IC)" [] &&
   groups_at d "KO(KS)" [] | Err _ => false end);
   ("test_jd",
   match jd td stations_main (Some ["GLC"; "MJ"; "KZ"]), jd td stations_main None with Ok d, Ok d2 =>
   groups_on d "GLC" "CB" [[5312%Z; 40150%Z; 4500%Z; 40628%Z; 73000%Z]] &&
   groups_on d "MJ" "KL" [[44862%Z]] &&
   groups_on d "MJ" "Mi" [[44717%Z]] &&
   groups_on d "KZ" "KO(STM)" [[26103%Z; 14006%Z; 40673%Z; 54101%Z; 40675%Z]; [34319%Z; 94317%Z]] &&
   groups_on d2 "KO" "CB" [[26103%Z; 40673%Z; 94317%Z; 40675%Z]] &&
   groups_on d2 "KO" "KL" [[14006%Z; 94611%Z; 94113%Z; 40477%Z; 44717%Z; 94717%Z]] &&
   groups_on d2 "KO" "KO(STM)" [[94766%Z; 42100%Z; 5312%Z; 40518%Z; 343199%Z; 40150%Z; 41004%Z; 541019%Z; 4500%Z; 64350%Z; 44862%Z; 40628%Z; 73000%Z; 4120%Z]] &&
   groups_on d2 "KO(KS)" "KO" [[94611%Z; 94113%Z]] &&
   groups_on d2 "KO(STM)" "KO(IC)" [[541019%Z]] &&
   groups_on d2 "KO(IC)" "KO(STM)" [[421009%Z]] | _, _ => false end);
   ("test_helpers",
   eqb (common_elements ["a"; "b"; "c"] ["b"; "d"; "c"]) ["b"; "c"] && eqb (common_elements ["a"; "b"; "c"] ["c"; "d"; "b"]) ["b"; "c"] &&
   eqb (flatten [["a"; "b"]; ["c"; "d"]]) ["a"; "b"; "c"; "d"] &&
   Nat.eqb (getSizeOfNestedList [NList [NElem "a"; NElem "b"]; NList [NElem "c"; NElem "d"]]) 4);
   ("test_helpers4trains_paths",
   stations_common td 42100 5312 ["KZ"; "KO(STM)"; "KO"]);
   ("test_trains_path",
   eqb (get_J td) [94766%Z; 26103%Z; 421009%Z; 42100%Z; 5312%Z; 40518%Z; 34319%Z; 343199%Z; 14006%Z; 94611%Z; 40150%Z; 41004%Z; 94113%Z; 40673%Z; 54101%Z; 541019%Z; 40477%Z; 4500%Z; 94317%Z; 44717%Z; 64350%Z; 94717%Z; 44862%Z; 40628%Z; 40675%Z; 73000%Z; 4120%Z] &&
   eqb (dget 94766%Z (get_Paths td)) (Some ["Ty"; "KL"; "KO"; "KO(STM)"]) &&
   eqb (dget 26103%Z (get_Paths td)) (Some ["KZ"; "KO(STM)"; "KO"; "CB"; "GLC"]) &&
   eqb (dget 421009%Z (get_Paths td)) (Some ["KO(IC)"; "KO(STM)"; "KO"]));
   ("test_path_reffering_to_stations",
   stations_common td 44717 44862 ["KO(STM)"; "KO"; "MJ"; "Mi"; "KL"] &&
   match dget 44717%Z td, dget 26103%Z td with Some (_, t1), Some (_, t2) =>
   is_ok_with (get_blocks_b2win_station4train t1 "MJ" "Mi") (["""MJ-Mi"", ""Sem(odstep)"", 1, ""1"", ""(1)"""], Some false) &&
   is_ok_with (get_common_blocks_and_direction_b2win_trains td 44717 44862 "MJ" "Mi") (["""MJ-Mi"", ""Sem(odstep)"", 1, ""1"", ""(1)"""], false) &&
   groups_at (get_trains_at_station td stations_main true) "Mi" [44717%Z; 44862%Z] &&
   eqb (dget 26103%Z (get_Paths td)) (Some ["KZ"; "KO(STM)"; "KO"; "CB"; "GLC"]) &&
   is_train_passing_thru_station t2 "KO(STM)" && negb (is_train_passing_thru_station t2 "KL") &&
   is_ok_with (next_station t2 "KO(STM)") (Some "KO") && is_ok_with (next_station t2 "GLC") None &&
   groups_at (get_trains_at_station td stations_main false) "CB" [26103%Z; 5312%Z; 40150%Z; 40673%Z; 4500%Z; 94317%Z; 64350%Z; 40628%Z; 40675%Z; 73000%Z]
   | _, _ => false end);
   ("test_timetables",
   match timetable_to_train_dict schedule_main, dget 42100%Z td with Ok d, Some (_, t1) =>
   match dget 42100%Z d with Some (info, r0 :: r1 :: r2 :: _) =>
   eqb info ["IC - IC"; "SZTYGAR"; "from Katowice"; "to Lublin Główny"] && eqb (r_speed r0) (Some "IC") && eqb (r_speed r1) (Some "IC") && eqb (r_speed r2) (Some "IC") &&
   eqb (r_dep r0) (Some "16:08")
   | _ => false end &&
   match get_arr_dep_vals t1 with (_, d1, _) :: (_, _, a2) :: _ => eqb d1 (Some "16:08") && eqb a2 (Some "16:12") | _ => false end
   | _, _ => false end);
   ("test_trains_paths",
   match dget 42100%Z td with Some (_, t1) =>
   eqb (train_important_stations t1) ["KO"; "KO(STM)"; "KZ"] &&
   is_ok (check_path_continuity (path_of t1) (map (fun n => [Some (n_prev n); Some (n_next n)]) network))
   | None => false end)].

Definition if_built (r : res train_dict) : list (string * bool) :=
  match r with Ok td => data_tests td | Err _ => [("build_timetables", false)] end.
Definition run_data_tests : list (string * bool) := if_built (build_timetables schedule_main stations_main network).

Example data_tests_pass : forallb snd run_data_tests = true.
Proof. vm_cast_no_check (eq_refl true). Qed.
