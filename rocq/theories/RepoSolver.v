(** * RepoSolver: the unit tests of railway_solvers, on the model

    The inputs and the asserted values of railway_solvers/test/test_linear_solver.py, test_linear_solver_large.py
    and test_helpers.py (copied by a script), stated of the model.  The solver is not modelled; instead, each test
    has an assignment with the asserted values and a certificate (Optimum.v) that it is optimal.  These are tests:
    they show that the model agrees with the code where the repository itself says what the result must be. *)

From Coq Require Import List String ZArith QArith Bool.
From Verif Require Import Base BaseFacts Pulp Helpers LinearSolver Check SpecQubo Optimum.
Import ListNotations.
Open Scope string_scope.
Open Scope list_scope.

(** What a test asserts of the solution: the value of a variable, the result of delay_and_acctual_time and of
    impact_to_objective *)
Inductive asserted : Type :=
| Value (name : string) (q : Q)
| Times (j s : pv) (delay conflict_free conflicted : Q)
| Impact (j s : pv) (d_max q : Q).

Definition value_at (x : assignment) (v : lpvar) : option Q := Some (x (v_id v)).

Definition asserted_ok (ts : train_sets) (tab : timetable) (p : lpproblem) (x : assignment) (a : asserted) : bool :=
  match a with
  | Value n q => match find_var n (variables p) with Some v => Qeq_bool (x (v_id v)) q | None => false end
  | Times j s d t c =>
      match delay_and_acctual_time ts tab p j s (value_at x) with
      | Ok (d', t', c') => Qeq_bool d d' && Qeq_bool t t' && Qeq_bool c c'
      | Err _ => false
      end
  | Impact j s d_max q => match impact_to_objective p tab j s d_max (value_at x) with Ok q' => Qeq_bool q q' | Err _ => false end
  end.

Definition solved (ts : train_sets) (tab : timetable) (d_max : Q) (cat : vcat) (objective : Q) (l : list asserted)
    (x : assignment) (c : certificate) : bool :=
  match create_linear_problem ts tab d_max cat with
  | Err _ => false
  | Ok p => feasibleb p x && Qeq_bool (obj_value p x) objective && least_objective p (obj_value p x) c && forallb (asserted_ok ts tab p x) l
  end.

(** What [solved] shows *)
Theorem solved_ok ts tab d_max cat objective l x c :
  solved ts tab d_max cat objective l x c = true ->
  exists p, create_linear_problem ts tab d_max cat = Ok p /\ optimal p x /\ obj_value p x == objective /\
    (forall x', feasible p x' -> objective <= obj_value p x') /\ forall a, In a l -> asserted_ok ts tab p x a = true.
Proof.
  unfold solved. destruct (create_linear_problem ts tab d_max cat) as [p|]; [|discriminate].
  rewrite !andb_true_iff. intros [[[A B] C] D]. exists p. split; [reflexivity|].
  apply feasibleb_ok in A. apply Qeq_bool_iff in B. pose proof (certified_optimal p c x A C) as O.
  split; [exact O|]. split; [exact B|]. split; [|rewrite forallb_forall in D; exact D].
  intros x' F. rewrite <- B. exact (proj2 O x' F).
Qed.

(** test_minimal_span_two_trains *)
Definition ts_minimal_span_two_trains : train_sets := MkTS (None)
  [(PInt 0, [PStr "A"; PStr "B"]); (PInt 1, [PStr "A"; PStr "B"])]
  [PInt 0; PInt 1]
  [(PStr "A", [(PStr "B", [[PInt 0; PInt 1]])])]
  []
  []
  []
  []
  (None).

Definition tab_minimal_span_two_trains : timetable := MkTT [("0_A_B", 4); ("1_A_B", 8)]
  [("0_1_A_B", 2); ("1_0_A_B", 6)]
  [("0_B", 1); ("1_B", 1)]
  []
  (Some 1) []
  [("0_A", 3); ("1_A", 1)]
  [("0_A", 2); ("1_A", (1 # 2))].

Definition x_minimal_span_two_trains : assignment := Check.table
  [(("Delays", [PInt 1; PStr "A"]), 4); (("Delays", [PInt 1; PStr "B"]), 4); (("y", [PInt 0; PInt 1; PStr "one_station"; PStr "A"]), 1)].

Definition c_minimal_span_two_trains : certificate :=
  (Split ("y", [PInt 0; PInt 1; PStr "one_station"; PStr "A"])
    (Bound [(1%nat, (1 # 5)); (6%nat, (1 # 4))])
    (Bound [(0%nat, (1 # 20)); (4%nat, (1 # 4))])).

Example test_minimal_span_two_trains : solved ts_minimal_span_two_trains tab_minimal_span_two_trains 10 Integer (1 # 5)
  [Value "Delays_0_A" 0;
   Value "Delays_1_A" 4;
   Value "y_0_1_one_station_A" 1;
   Times (PInt 1) (PStr "A") 4 5 1;
   Impact (PInt 1) (PStr "A") 5 (2 # 5)]
  x_minimal_span_two_trains c_minimal_span_two_trains = true.
Proof. vm_compute. reflexivity. Qed.

(** test_deadlock_and_switches_two_trains *)
Definition ts_deadlock_and_switches_two_trains : train_sets := MkTS (None)
  [(PInt 0, [PStr "A"; PStr "B"]); (PInt 1, [PStr "B"; PStr "A"])]
  [PInt 0; PInt 1]
  []
  [((PStr "A", PStr "B"), [(PInt 0, PInt 1)])]
  []
  []
  [(PStr "A", [[(PInt 0, PStr "out"); (PInt 1, PStr "in")]]); (PStr "B", [[(PInt 0, PStr "in"); (PInt 1, PStr "out")]])]
  (None).

Definition tab_deadlock_and_switches_two_trains : timetable := MkTT [("0_A_B", 4); ("1_B_A", 8)]
  []
  [("0_B", 1); ("1_A", 1)]
  []
  (Some 1) []
  [("0_A", 3); ("1_B", 1)]
  [("0_A", 2); ("1_B", (1 # 2))].

Definition x_deadlock_and_switches_two_trains : assignment := Check.table
  [(("Delays", [PInt 1; PStr "B"]), 7); (("Delays", [PInt 1; PStr "A"]), 7); (("z", [PInt 0; PInt 1; PStr "A"; PStr "B"]), 1)].

Definition c_deadlock_and_switches_two_trains : certificate :=
  (Split ("z", [PInt 0; PInt 1; PStr "A"; PStr "B"])
    (Bound [(4%nat, (1 # 5)); (10%nat, (1 # 4))])
    (Bound [(7%nat, (1 # 20)); (8%nat, (1 # 4))])).

Example test_deadlock_and_switches_two_trains : solved ts_deadlock_and_switches_two_trains tab_deadlock_and_switches_two_trains 10 Integer (7 # 20)
  [Value "Delays_0_A" 0;
   Value "Delays_1_B" 7;
   Value "z_0_1_A_B" 1]
  x_deadlock_and_switches_two_trains c_deadlock_and_switches_two_trains = true.
Proof. vm_compute. reflexivity. Qed.

(** test_rolling_stock_circulation *)
Definition ts_rolling_stock_circulation : train_sets := MkTS (None)
  [(PInt 0, [PStr "A"; PStr "B"]); (PInt 1, [PStr "B"; PStr "A"])]
  [PInt 0; PInt 1]
  []
  []
  [(PStr "B", [(PInt 0, PInt 1)])]
  []
  []
  (None).

Definition tab_rolling_stock_circulation : timetable := MkTT [("0_A_B", 4); ("1_B_A", 8)]
  []
  [("1_A", 0); ("0_B", 0)]
  [("1_B", 2)]
  (None) []
  [("0_A", 3); ("1_B", 1)]
  [("0_A", 2); ("1_B", (1 # 2))].

Definition x_rolling_stock_circulation : assignment := Check.table
  [(("Delays", [PInt 1; PStr "B"]), 8); (("Delays", [PInt 1; PStr "A"]), 8)].

Definition c_rolling_stock_circulation : certificate :=
  (Bound [(1%nat, (1 # 20)); (2%nat, (1 # 4))]).

Example test_rolling_stock_circulation : solved ts_rolling_stock_circulation tab_rolling_stock_circulation 10 Integer (2 # 5)
  [Value "Delays_0_A" 0;
   Value "Delays_1_B" 8]
  x_rolling_stock_circulation c_rolling_stock_circulation = true.
Proof. vm_compute. reflexivity. Qed.

(** test_station_track_and_switches_two_trains *)
Definition ts_station_track_and_switches_two_trains : train_sets := MkTS (None)
  [(PInt 0, [PStr "A"; PStr "B"]); (PInt 1, [PStr "A"; PStr "B"])]
  [PInt 0; PInt 1]
  []
  []
  []
  [(PStr "B", [[PInt 0; PInt 1]])]
  []
  (Some [PStr "B"]).

Definition tab_station_track_and_switches_two_trains : timetable := MkTT [("0_A_B", 4); ("1_A_B", 4)]
  []
  [("0_B", 1); ("1_B", 1)]
  []
  (Some 2) []
  [("0_A", 1); ("1_A", 1)]
  [("0_A", 2); ("1_A", (1 # 2))].

Definition x_station_track_and_switches_two_trains : assignment := Check.table
  [(("Delays", [PInt 1; PStr "A"]), 3); (("Delays", [PInt 1; PStr "B"]), 3); (("y", [PInt 0; PInt 1; PStr "one_station"; PStr "B"]), 1)].

Definition c_station_track_and_switches_two_trains : certificate :=
  (Split ("y", [PInt 0; PInt 1; PStr "one_station"; PStr "B"])
    (Bound [(2%nat, (2 # 5)); (6%nat, (1 # 10)); (10%nat, (2 # 5))])
    (Bound [(3%nat, (1 # 10)); (4%nat, (2 # 5)); (8%nat, (1 # 10))])).

Example test_station_track_and_switches_two_trains : solved ts_station_track_and_switches_two_trains tab_station_track_and_switches_two_trains 5 Integer (3 # 10)
  [Value "Delays_0_A" 0;
   Value "Delays_1_A" 3;
   Value "y_0_1_one_station_B" 1]
  x_station_track_and_switches_two_trains c_station_track_and_switches_two_trains = true.
Proof. vm_compute. reflexivity. Qed.

(** test_M_P_with_switches_two_trains *)
Definition ts_M_P_with_switches_two_trains : train_sets := MkTS (None)
  [(PInt 0, [PStr "A"; PStr "B"]); (PInt 1, [PStr "A"; PStr "B"])]
  [PInt 0; PInt 1]
  [(PStr "A", [(PStr "B", [[PInt 0]; [PInt 1]])])]
  []
  []
  [(PStr "A", [[PInt 0; PInt 1]]); (PStr "B", [[PInt 0; PInt 1]])]
  [(PStr "A", [[(PInt 0, PStr "out"); (PInt 1, PStr "out")]]); (PStr "B", [[(PInt 0, PStr "in"); (PInt 1, PStr "in")]])]
  (None).

Definition tab_M_P_with_switches_two_trains : timetable := MkTT [("0_A_B", 6); ("1_A_B", 2)]
  []
  [("0_B", 1); ("1_B", 1)]
  []
  (Some 2) []
  [("0_A", 1); ("1_A", 5)]
  [("0_B", 1); ("1_B", 2)].

Definition x_M_P_with_switches_two_trains : assignment := Check.table
  [(("Delays", [PInt 0; PStr "B"]), 2); (("Delays", [PInt 0; PStr "A"]), 2); (("y", [PInt 0; PInt 1; PStr "one_station"; PStr "A"]), 1)].

Definition c_M_P_with_switches_two_trains : certificate :=
  (Split ("y", [PInt 0; PInt 1; PStr "one_station"; PStr "A"])
    (Empty [(2%nat, 1); (18%nat, 1)])
    (Split ("z", [PStr "in"; PInt 0; PInt 1; PStr "B"])
    (Split ("y", [PInt 0; PInt 1; PStr "one_station"; PStr "B"])
    (Bound [(0%nat, (1 # 5)); (10%nat, (1 # 5)); (14%nat, (2 # 5)); (18%nat, (1 # 5))])
    (Empty [(4%nat, 1)]))
    (Split ("y", [PInt 0; PInt 1; PStr "one_station"; PStr "B"])
    (Empty [(5%nat, 1)])
    (Bound [(1%nat, (2 # 5)); (11%nat, (2 # 5)); (12%nat, (1 # 5)); (16%nat, (2 # 5))])))).

Example test_M_P_with_switches_two_trains : solved ts_M_P_with_switches_two_trains tab_M_P_with_switches_two_trains 5 Integer (2 # 5)
  [Value "Delays_0_A" 2;
   Value "Delays_0_B" 2;
   Value "Delays_1_A" 0;
   Value "Delays_1_B" 0;
   Value "y_0_1_one_station_A" 1;
   Value "y_0_1_one_station_B" 0;
   Value "z_in_0_1_B" 0]
  x_M_P_with_switches_two_trains c_M_P_with_switches_two_trains = true.
Proof. vm_compute. reflexivity. Qed.

(** test_M_P_with_switches_two_trains_no_station *)
Definition ts_M_P_with_switches_two_trains_no_station : train_sets := MkTS (None)
  [(PInt 0, [PStr "A"; PStr "B"]); (PInt 1, [PStr "A"; PStr "B"])]
  [PInt 0; PInt 1]
  [(PStr "A", [(PStr "B", [[PInt 0]; [PInt 1]])])]
  []
  []
  [(PStr "A", [[PInt 0; PInt 1]])]
  [(PStr "A", [[(PInt 0, PStr "out"); (PInt 1, PStr "out")]]); (PStr "B", [[(PInt 0, PStr "in"); (PInt 1, PStr "in")]])]
  (None).

Definition tab_M_P_with_switches_two_trains_no_station : timetable := MkTT [("0_A_B", 6); ("1_A_B", 2)]
  []
  [("0_B", 1); ("1_B", 1)]
  []
  (Some 1) []
  [("0_A", 1); ("1_A", 5)]
  [("0_B", 1); ("1_B", 2)].

Definition x_M_P_with_switches_two_trains_no_station : assignment := Check.table
  [(("Delays", [PInt 0; PStr "B"]), 1); (("Delays", [PInt 0; PStr "A"]), 1); (("y", [PInt 0; PInt 1; PStr "one_station"; PStr "A"]), 1)].

Definition c_M_P_with_switches_two_trains_no_station : certificate :=
  (Split ("y", [PInt 0; PInt 1; PStr "one_station"; PStr "A"])
    (Empty [(2%nat, 1); (14%nat, 1)])
    (Split ("z", [PStr "in"; PInt 0; PInt 1; PStr "B"])
    (Bound [(0%nat, (1 # 5)); (6%nat, (1 # 5)); (10%nat, (2 # 5)); (14%nat, (1 # 5))])
    (Bound [(1%nat, (2 # 5)); (7%nat, (2 # 5)); (8%nat, (1 # 5)); (12%nat, (2 # 5))]))).

Example test_M_P_with_switches_two_trains_no_station : solved ts_M_P_with_switches_two_trains_no_station tab_M_P_with_switches_two_trains_no_station 5 Integer (1 # 5)
  [Value "Delays_0_A" 1;
   Value "Delays_0_B" 1;
   Value "Delays_1_A" 0;
   Value "Delays_1_B" 0;
   Value "y_0_1_one_station_A" 1;
   Value "z_in_0_1_B" 0]
  x_M_P_with_switches_two_trains_no_station c_M_P_with_switches_two_trains_no_station = true.
Proof. vm_compute. reflexivity. Qed.

(** test_swithes_three_trains *)
Definition ts_swithes_three_trains : train_sets := MkTS (None)
  [(PInt 0, [PStr "A"; PStr "B"]); (PInt 1, [PStr "C"; PStr "B"])]
  [PInt 0; PInt 1]
  [(PStr "A", [(PStr "B", [[PInt 0]])]); (PStr "C", [(PStr "B", [[PInt 1]])])]
  []
  []
  [(PStr "B", [[PInt 0; PInt 1]])]
  [(PStr "B", [[(PInt 0, PStr "in"); (PInt 1, PStr "in")]])]
  (None).

Definition tab_swithes_three_trains : timetable := MkTT [("0_A_B", 4); ("1_C_B", 4)]
  []
  [("0_B", 1); ("1_B", 1)]
  []
  (Some 2) []
  [("0_A", 1); ("1_C", 1)]
  [("0_B", 1); ("1_B", 2)].

Definition x_swithes_three_trains : assignment := Check.table
  [(("Delays", [PInt 0; PStr "B"]), 2); (("Delays", [PInt 0; PStr "A"]), 2)].

Definition c_swithes_three_trains : certificate :=
  (Split ("z", [PStr "in"; PInt 0; PInt 1; PStr "B"])
    (Split ("y", [PInt 0; PInt 1; PStr "one_station"; PStr "B"])
    (Bound [(0%nat, (1 # 5)); (6%nat, (1 # 5)); (10%nat, (2 # 5)); (14%nat, (1 # 5))])
    (Empty [(2%nat, 1)]))
    (Split ("y", [PInt 0; PInt 1; PStr "one_station"; PStr "B"])
    (Empty [(3%nat, 1)])
    (Bound [(1%nat, (2 # 5)); (7%nat, (2 # 5)); (8%nat, (1 # 5)); (12%nat, (2 # 5))]))).

Example test_swithes_three_trains : solved ts_swithes_three_trains tab_swithes_three_trains 5 Integer (2 # 5)
  [Value "Delays_0_A" 2;
   Value "Delays_0_B" 2;
   Value "Delays_1_B" 0;
   Value "Delays_1_C" 0;
   Value "y_0_1_one_station_B" 0;
   Value "z_in_0_1_B" 0]
  x_swithes_three_trains c_swithes_three_trains = true.
Proof. vm_compute. reflexivity. Qed.

(** test_station_track_and_circulation *)
Definition ts_station_track_and_circulation : train_sets := MkTS (None)
  [(PInt 0, [PStr "A"; PStr "B"]); (PInt 1, [PStr "B"; PStr "A"]); (PInt 2, [PStr "A"; PStr "B"])]
  [PInt 0; PInt 1; PInt 2]
  [(PStr "A", [(PStr "B", [[PInt 0; PInt 2]])]); (PStr "B", [(PStr "A", [[PInt 1]])])]
  []
  [(PStr "B", [(PInt 0, PInt 1)])]
  [(PStr "B", [[PInt 0; PInt 1; PInt 2]])]
  []
  (None).

Definition tab_station_track_and_circulation : timetable := MkTT [("0_A_B", 4); ("1_B_A", 4); ("2_A_B", 4)]
  [("0_2_A_B", 2); ("2_0_A_B", 2)]
  [("0_B", 0); ("1_A", 1); ("2_B", 1)]
  [("1_B", 5)]
  (Some 1) []
  [("0_A", 1); ("1_B", 2); ("2_A", 2)]
  [("0_A", 2); ("1_B", (1 # 2)); ("2_A", 1)].

Definition x_station_track_and_circulation : assignment := Check.table
  [(("Delays", [PInt 1; PStr "B"]), 8); (("Delays", [PInt 2; PStr "A"]), 4); (("Delays", [PInt 1; PStr "A"]), 8); (("Delays", [PInt 2; PStr "B"]), 4); (("y", [PInt 0; PInt 2; PStr "one_station"; PStr "A"]), 1); (("y", [PInt 1; PInt 2; PStr "one_station"; PStr "B"]), 1); (("y", [PInt 0; PInt 2; PStr "one_station"; PStr "B"]), 1)].

Definition c_station_track_and_circulation : certificate :=
  (Split ("y", [PInt 1; PInt 2; PStr "one_station"; PStr "B"])
    (Bound [(9%nat, (1 # 4)); (11%nat, (1 # 20)); (16%nat, (1 # 10)); (22%nat, (1 # 4))])
    (Split ("y", [PInt 0; PInt 2; PStr "one_station"; PStr "A"])
    (Empty [(1%nat, 1); (11%nat, 1); (15%nat, 1); (16%nat, 1)])
    (Split ("y", [PInt 0; PInt 2; PStr "one_station"; PStr "B"])
    (Empty [(4%nat, 1)])
    (Bound [(10%nat, (1 # 10)); (11%nat, (3 # 20)); (12%nat, (7 # 20))])))).

Example test_station_track_and_circulation : solved ts_station_track_and_circulation tab_station_track_and_circulation 10 Integer (4 # 5)
  [Value "y_0_2_one_station_A" 1;
   Value "y_0_2_one_station_B" 1;
   Value "y_1_2_one_station_B" 1;
   Times (PInt 0) (PStr "A") 0 1 1;
   Times (PInt 1) (PStr "B") 8 10 2;
   Times (PInt 2) (PStr "A") 4 6 2;
   Times (PInt 2) (PStr "B") 4 11 7]
  x_station_track_and_circulation c_station_track_and_circulation = true.
Proof. vm_compute. reflexivity. Qed.

(** test_station_track_and_circulation2 *)
Definition ts_station_track_and_circulation2 : train_sets := MkTS (None)
  [(PInt 0, [PStr "A"; PStr "B"]); (PInt 1, [PStr "B"; PStr "A"]); (PInt 2, [PStr "A"; PStr "B"])]
  [PInt 0; PInt 1; PInt 2]
  [(PStr "A", [(PStr "B", [[PInt 0; PInt 2]])]); (PStr "B", [(PStr "A", [[PInt 1]])])]
  []
  [(PStr "B", [(PInt 0, PInt 1)])]
  [(PStr "B", [[PInt 0; PInt 1; PInt 2]])]
  []
  (None).

Definition tab_station_track_and_circulation2 : timetable := MkTT [("0_A_B", 4); ("1_B_A", 4); ("2_A_B", 4)]
  [("0_2_A_B", 2); ("2_0_A_B", 2)]
  [("0_B", 0); ("1_A", 1); ("2_B", 1)]
  [("1_B", 10)]
  (Some 1) []
  [("0_A", 1); ("1_B", 2); ("2_A", 2)]
  [("0_A", 1); ("1_B", 1); ("2_A", 1)].

Definition x_station_track_and_circulation2 : assignment := Check.table
  [(("Delays", [PInt 0; PStr "A"]), 3); (("Delays", [PInt 1; PStr "B"]), 16); (("Delays", [PInt 1; PStr "A"]), 16)].

Definition c_station_track_and_circulation2 : certificate :=
  (Split ("y", [PInt 1; PInt 2; PStr "one_station"; PStr "B"])
    (Split ("y", [PInt 0; PInt 2; PStr "one_station"; PStr "A"])
    (Bound [(1%nat, (1 # 10)); (11%nat, (1 # 20)); (16%nat, (3 # 20))])
    (Empty [(0%nat, 3); (3%nat, 3); (9%nat, 3); (11%nat, 1); (12%nat, 1); (15%nat, 1)]))
    (Split ("y", [PInt 0; PInt 2; PStr "one_station"; PStr "A"])
    (Empty [(1%nat, 2); (10%nat, 1); (11%nat, 2); (15%nat, 1); (16%nat, 1)])
    (Split ("y", [PInt 0; PInt 2; PStr "one_station"; PStr "B"])
    (Empty [(4%nat, 1)])
    (Bound [(10%nat, (1 # 20)); (11%nat, (1 # 10)); (12%nat, (3 # 20))])))).

Example test_station_track_and_circulation2 : solved ts_station_track_and_circulation2 tab_station_track_and_circulation2 20 Integer (19 # 20)
  [Value "y_0_2_one_station_A" 0;
   Value "y_0_2_one_station_B" 0;
   Value "y_1_2_one_station_B" 0;
   Times (PInt 0) (PStr "A") 3 4 1;
   Times (PInt 1) (PStr "B") 16 18 2;
   Times (PInt 2) (PStr "A") 0 2 2]
  x_station_track_and_circulation2 c_station_track_and_circulation2 = true.
Proof. vm_compute. reflexivity. Qed.

(** test_station_followed_by_station_KO_STMcase *)
Definition ts_station_followed_by_station_KO_STMcase : train_sets := MkTS (None)
  [(PInt 0, [PStr "A"; PStr "B"; PStr "C"]); (PInt 1, [PStr "A"; PStr "B"; PStr "C"])]
  [PInt 0; PInt 1]
  [(PStr "A", [(PStr "B", [[PInt 0; PInt 1]])]); (PStr "B", [(PStr "C", [[PInt 0; PInt 1]])])]
  []
  []
  [(PStr "B", [[PInt 0; PInt 1]])]
  []
  (None).

Definition tab_station_followed_by_station_KO_STMcase : timetable := MkTT [("0_A_B", 0); ("1_A_B", 0); ("0_B_C", 4); ("1_B_C", 4)]
  [("0_1_B_C", 2); ("1_0_B_C", 2); ("0_1_A_B", 0); ("1_0_A_B", 0)]
  [("0_B", 3); ("1_B", 1); ("0_C", 1); ("1_C", 1)]
  []
  (None) []
  [("0_A", 1); ("1_A", 2)]
  [("0_C", 2); ("1_C", 1)].

Definition x_station_followed_by_station_KO_STMcase : assignment := Check.table
  [(("Delays", [PInt 1; PStr "C"]), 3); (("Delays", [PInt 1; PStr "A"]), 2); (("Delays", [PInt 1; PStr "B"]), 3); (("y", [PInt 0; PInt 1; PStr "one_station"; PStr "A"]), 1); (("y", [PInt 0; PInt 1; PStr "one_station"; PStr "B"]), 1)].

Definition c_station_followed_by_station_KO_STMcase : certificate :=
  (Split ("y", [PInt 0; PInt 1; PStr "one_station"; PStr "B"])
    (Bound [(4%nat, (2 # 5)); (5%nat, (2 # 5)); (10%nat, (2 # 5)); (14%nat, (1 # 5)); (22%nat, (2 # 5))])
    (Split ("y", [PInt 0; PInt 1; PStr "one_station"; PStr "A"])
    (Empty [(9%nat, 1)])
    (Bound [(2%nat, (1 # 5)); (7%nat, (1 # 5)); (12%nat, (2 # 5)); (24%nat, (1 # 5))]))).

Example test_station_followed_by_station_KO_STMcase : solved ts_station_followed_by_station_KO_STMcase tab_station_followed_by_station_KO_STMcase 5 Integer (3 # 5)
  [Times (PInt 0) (PStr "A") 0 1 1;
   Times (PInt 0) (PStr "B") 0 4 4;
   Times (PInt 0) (PStr "C") 0 9 9;
   Times (PInt 1) (PStr "A") 2 4 2;
   Times (PInt 1) (PStr "B") 3 6 3;
   Times (PInt 1) (PStr "C") 3 11 8]
  x_station_followed_by_station_KO_STMcase c_station_followed_by_station_KO_STMcase = true.
Proof. vm_compute. reflexivity. Qed.

(** test_3stationsIC_STM_KO_case *)
Definition ts_3stationsIC_STM_KO_case : train_sets := MkTS (None)
  [(PInt 0, [PStr "KO(IC)"; PStr "KO(STM)"; PStr "KO"]); (PInt 1, [PStr "KO(IC)"; PStr "KO(STM)"; PStr "KO"])]
  [PInt 0; PInt 1]
  [(PStr "KO(IC)", [(PStr "KO(STM)", [[PInt 0; PInt 1]])]); (PStr "KO(STM)", [(PStr "KO", [[PInt 0; PInt 1]])])]
  []
  []
  [(PStr "KO(STM)", [[PInt 0; PInt 1]]); (PStr "KO", [[PInt 0; PInt 1]])]
  []
  (None).

Definition tab_3stationsIC_STM_KO_case : timetable := MkTT [("0_KO(IC)_KO(STM)", 0); ("1_KO(IC)_KO(STM)", 0); ("0_KO(STM)_KO", 0); ("1_KO(STM)_KO", 0)]
  [("0_1_KO(STM)_KO", 0); ("1_0_KO(STM)_KO", 0); ("0_1_KO(IC)_KO(STM)", 0); ("1_0_KO(IC)_KO(STM)", 0)]
  [("0_KO(STM)", 3); ("1_KO(STM)", 1); ("0_KO", 1); ("1_KO", 1)]
  []
  (None) []
  [("0_KO(IC)", 1); ("1_KO(IC)", 2)]
  [("0_KO", 2); ("1_KO", 1)].

Definition x_3stationsIC_STM_KO_case : assignment := Check.table
  [(("Delays", [PInt 1; PStr "KO"]), 2); (("Delays", [PInt 1; PStr "KO(IC)"]), 2); (("Delays", [PInt 1; PStr "KO(STM)"]), 2); (("y", [PInt 0; PInt 1; PStr "one_station"; PStr "KO(IC)"]), 1); (("y", [PInt 0; PInt 1; PStr "one_station"; PStr "KO"]), 1); (("y", [PInt 0; PInt 1; PStr "one_station"; PStr "KO(STM)"]), 1)].

Definition c_3stationsIC_STM_KO_case : certificate :=
  (Split ("y", [PInt 0; PInt 1; PStr "one_station"; PStr "KO(STM)"])
    (Bound [(4%nat, (2 # 5)); (5%nat, (2 # 5)); (10%nat, (2 # 5)); (18%nat, (1 # 5)); (26%nat, (2 # 5))])
    (Split ("y", [PInt 0; PInt 1; PStr "one_station"; PStr "KO(IC)"])
    (Empty [(9%nat, 1)])
    (Split ("y", [PInt 0; PInt 1; PStr "one_station"; PStr "KO"])
    (Empty [(12%nat, 1)])
    (Bound [(7%nat, (1 # 5)); (15%nat, (1 # 5)); (16%nat, (3 # 5))])))).

Example test_3stationsIC_STM_KO_case : solved ts_3stationsIC_STM_KO_case tab_3stationsIC_STM_KO_case 5 Integer (2 # 5)
  [Times (PInt 0) (PStr "KO(IC)") 0 1 1;
   Times (PInt 0) (PStr "KO(STM)") 0 4 4;
   Times (PInt 0) (PStr "KO") 0 5 5;
   Times (PInt 1) (PStr "KO(IC)") 2 4 2;
   Times (PInt 1) (PStr "KO(STM)") 2 5 3;
   Times (PInt 1) (PStr "KO") 2 6 4]
  x_3stationsIC_STM_KO_case c_3stationsIC_STM_KO_case = true.
Proof. vm_compute. reflexivity. Qed.

(** test_QIP_problem1 *)
Definition ts_QIP_problem1 : train_sets := MkTS (Some [(PInt 2, PStr "A")])
  [(PInt 0, [PStr "A"; PStr "B"]); (PInt 1, [PStr "A"; PStr "B"]); (PInt 2, [PStr "B"; PStr "A"])]
  [PInt 0; PInt 1; PInt 2]
  [(PStr "A", [(PStr "B", [[PInt 0; PInt 1]])]); (PStr "B", [(PStr "A", [[PInt 2]])])]
  []
  []
  [(PStr "B", [[PInt 0; PInt 1]])]
  []
  (Some [PStr "B"]).

Definition tab_QIP_problem1 : timetable := MkTT [("0_A_B", 4); ("1_A_B", 8); ("2_B_A", 8)]
  [("0_1_A_B", 2); ("1_0_A_B", 6)]
  [("0_B", 1); ("1_B", 1)]
  []
  (Some 1) []
  [("0_A", 4); ("1_A", 1); ("2_B", 8)]
  [("0_A", 2); ("1_A", 1); ("2_B", 1)].

Definition x_QIP_problem1 : assignment := Check.table
  [(("Delays", [PInt 1; PStr "A"]), 5); (("Delays", [PInt 1; PStr "B"]), 5); (("y", [PInt 0; PInt 1; PStr "one_station"; PStr "A"]), 1); (("y", [PInt 0; PInt 1; PStr "one_station"; PStr "B"]), 1)].

Definition c_QIP_problem1 : certificate :=
  (Split ("y", [PInt 0; PInt 1; PStr "one_station"; PStr "A"])
    (Bound [(1%nat, (1 # 5)); (10%nat, (3 # 10)); (12%nat, (1 # 10))])
    (Split ("y", [PInt 0; PInt 1; PStr "one_station"; PStr "B"])
    (Empty [(4%nat, 1)])
    (Bound [(0%nat, (1 # 10)); (8%nat, (3 # 10)); (12%nat, (1 # 10))]))).

Example test_QIP_problem1 : solved ts_QIP_problem1 tab_QIP_problem1 10 Integer (1 # 2)
  [Value "Delays_0_A" 0;
   Value "Delays_0_B" 0;
   Value "Delays_1_A" 5;
   Value "Delays_2_B" 0;
   Times (PInt 0) (PStr "A") 0 4 4;
   Times (PInt 1) (PStr "A") 5 6 1;
   Times (PInt 2) (PStr "B") 0 8 8;
   Times (PInt 0) (PStr "B") 0 9 9;
   Impact (PInt 0) (PStr "A") 10 0;
   Impact (PInt 1) (PStr "A") 10 (1 # 2);
   Impact (PInt 2) (PStr "B") 10 0]
  x_QIP_problem1 c_QIP_problem1 = true.
Proof. vm_compute. reflexivity. Qed.

(** test_QIP_problem2 *)
Definition ts_QIP_problem2 : train_sets := MkTS (Some [(PInt 2, PStr "A")])
  [(PInt 0, [PStr "A"; PStr "B"]); (PInt 1, [PStr "A"; PStr "B"]); (PInt 2, [PStr "B"; PStr "A"])]
  [PInt 0; PInt 1; PInt 2]
  []
  [((PStr "A", PStr "B"), [(PInt 1, PInt 2)])]
  []
  [(PStr "B", [[PInt 0; PInt 1]])]
  [(PStr "A", [[(PInt 1, PStr "out"); (PInt 2, PStr "in")]]); (PStr "B", [[(PInt 1, PStr "in"); (PInt 2, PStr "out")]])]
  (Some [PStr "B"]).

Definition tab_QIP_problem2 : timetable := MkTT [("0_A_B", 4); ("1_A_B", 8); ("2_B_A", 8)]
  [("0_1_A_B", 2); ("1_0_A_B", 6)]
  [("0_B", 1); ("1_B", 1)]
  []
  (Some 1) []
  [("0_A", 4); ("1_A", 1); ("2_B", 8)]
  [("0_A", 2); ("1_A", 1); ("2_B", 1)].

Definition x_QIP_problem2 : assignment := Check.table
  [(("Delays", [PInt 1; PStr "A"]), 1); (("Delays", [PInt 2; PStr "B"]), 3); (("Delays", [PInt 1; PStr "B"]), 1); (("z", [PInt 1; PInt 2; PStr "A"; PStr "B"]), 1); (("y", [PInt 0; PInt 1; PStr "one_station"; PStr "B"]), 1)].

Definition c_QIP_problem2 : certificate :=
  (Split ("z", [PInt 1; PInt 2; PStr "A"; PStr "B"])
    (Empty [(2%nat, 1); (3%nat, 1); (6%nat, 1); (12%nat, 1); (13%nat, 1)])
    (Split ("y", [PInt 0; PInt 1; PStr "one_station"; PStr "B"])
    (Bound [(4%nat, (1 # 5)); (8%nat, (1 # 10)); (11%nat, (1 # 5)); (17%nat, (1 # 5))])
    (Bound [(5%nat, (1 # 5)); (8%nat, (1 # 10)); (9%nat, (1 # 5)); (15%nat, (1 # 5))]))).

Example test_QIP_problem2 : solved ts_QIP_problem2 tab_QIP_problem2 10 Integer (2 # 5)
  [Value "Delays_0_A" 0;
   Value "Delays_0_B" 0;
   Value "Delays_1_A" 1;
   Value "Delays_2_B" 3;
   Times (PInt 0) (PStr "A") 0 4 4;
   Times (PInt 1) (PStr "A") 1 2 1;
   Times (PInt 2) (PStr "B") 3 11 8;
   Times (PInt 0) (PStr "B") 0 9 9;
   Impact (PInt 0) (PStr "A") 10 0;
   Impact (PInt 1) (PStr "A") 10 (1 # 10);
   Impact (PInt 2) (PStr "B") 10 (3 # 10)]
  x_QIP_problem2 c_QIP_problem2 = true.
Proof. vm_compute. reflexivity. Qed.

(** test_QIP_problem3 *)
Definition ts_QIP_problem3 : train_sets := MkTS (Some [(PStr "j3", PStr "S1"); (PStr "j4", PStr "S1")])
  [(PStr "j1", [PStr "S1"; PStr "S2"]); (PStr "j2", [PStr "S1"; PStr "S2"]); (PStr "j3", [PStr "S2"; PStr "S1"]); (PStr "j4", [PStr "S2"; PStr "S1"])]
  [PStr "j1"; PStr "j2"; PStr "j3"; PStr "j4"]
  [(PStr "S1", [(PStr "S2", [[PStr "j1"; PStr "j2"]])]); (PStr "S2", [(PStr "S1", [[PStr "j3"; PStr "j4"]])])]
  []
  []
  [(PStr "S2", [[PStr "j1"; PStr "j2"]])]
  []
  (Some [PStr "S2"]).

Definition tab_QIP_problem3 : timetable := MkTT [("j1_S1_S2", 4); ("j2_S1_S2", 8); ("j3_S2_S1", 8); ("j4_S2_S1", 8)]
  [("j1_j2_S1_S2", 2); ("j2_j1_S1_S2", 6); ("j3_j4_S2_S1", 2); ("j4_j3_S2_S1", 2)]
  [("j1_S2", 1); ("j2_S2", 1)]
  []
  (Some 1) []
  [("j1_S1", 4); ("j2_S1", 1); ("j3_S2", 8); ("j4_S2", 9)]
  [("j1_S1", 2); ("j2_S1", 1); ("j3_S2", 1); ("j4_S2", 1)].

Definition x_QIP_problem3 : assignment := Check.table
  [(("Delays", [PStr "j2"; PStr "S1"]), 5); (("Delays", [PStr "j4"; PStr "S2"]), 1); (("Delays", [PStr "j2"; PStr "S2"]), 5); (("y", [PStr "j3"; PStr "j4"; PStr "one_station"; PStr "S2"]), 1); (("y", [PStr "j1"; PStr "j2"; PStr "one_station"; PStr "S2"]), 1); (("y", [PStr "j1"; PStr "j2"; PStr "one_station"; PStr "S1"]), 1)].

Definition c_QIP_problem3 : certificate :=
  (Split ("y", [PStr "j1"; PStr "j2"; PStr "one_station"; PStr "S1"])
    (Bound [(1%nat, (1 # 5)); (12%nat, (3 # 10)); (14%nat, (1 # 10)); (16%nat, (1 # 10))])
    (Split ("y", [PStr "j1"; PStr "j2"; PStr "one_station"; PStr "S2"])
    (Empty [(6%nat, 1)])
    (Split ("y", [PStr "j3"; PStr "j4"; PStr "one_station"; PStr "S2"])
    (Bound [(0%nat, (1 # 10)); (3%nat, (1 # 10)); (10%nat, (3 # 10)); (16%nat, (1 # 5))])
    (Bound [(0%nat, (1 # 10)); (2%nat, (1 # 10)); (10%nat, (3 # 10)); (14%nat, (1 # 5))])))).

Example test_QIP_problem3 : solved ts_QIP_problem3 tab_QIP_problem3 10 Integer (3 # 5)
  [Value "Delays_j1_S1" 0;
   Value "Delays_j1_S2" 0;
   Value "Delays_j2_S1" 5;
   Value "Delays_j3_S2" 0;
   Value "Delays_j4_S2" 1]
  x_QIP_problem3 c_QIP_problem3 = true.
Proof. vm_compute. reflexivity. Qed.

(** test_MLP *)
Definition ts_MLP : train_sets := MkTS (Some [(PInt 2, PStr "A")])
  [(PInt 0, [PStr "A"; PStr "B"]); (PInt 1, [PStr "A"; PStr "B"]); (PInt 2, [PStr "B"; PStr "A"])]
  [PInt 0; PInt 1; PInt 2]
  [(PStr "A", [(PStr "B", [[PInt 0; PInt 1]])]); (PStr "B", [(PStr "A", [[PInt 2]])])]
  []
  []
  [(PStr "B", [[PInt 0; PInt 1]])]
  []
  (Some [PStr "B"]).

Definition tab_MLP : timetable := MkTT [("0_A_B", (79 # 20)); ("1_A_B", (161 # 20)); ("2_B_A", (161 # 20))]
  [("0_1_A_B", (39 # 20)); ("1_0_A_B", (121 # 20))]
  [("0_B", 1); ("1_B", 1)]
  []
  (Some 1) []
  [("0_A", 4); ("1_A", 1); ("2_B", 8)]
  [("0_A", 2); ("1_A", 1); ("2_B", 1)].

Definition x_MLP : assignment := Check.table
  [(("Delays", [PInt 1; PStr "A"]), (99 # 20)); (("Delays", [PInt 0; PStr "B"]), (81 # 20)); (("Delays", [PInt 1; PStr "B"]), (99 # 20)); (("y", [PInt 0; PInt 1; PStr "one_station"; PStr "A"]), 1); (("y", [PInt 0; PInt 1; PStr "one_station"; PStr "B"]), 1)].

Definition c_MLP : certificate :=
  (Split ("y", [PInt 0; PInt 1; PStr "one_station"; PStr "A"])
    (Bound [(1%nat, (1 # 5)); (10%nat, (3 # 10)); (12%nat, (1 # 10))])
    (Split ("y", [PInt 0; PInt 1; PStr "one_station"; PStr "B"])
    (Empty [(4%nat, 1)])
    (Bound [(0%nat, (1 # 10)); (8%nat, (3 # 10)); (12%nat, (1 # 10))]))).

Example test_MLP : solved ts_MLP tab_MLP 10 Continuous (99 # 200)
  [Value "Delays_0_A" 0;
   Value "Delays_0_B" (81 # 20);
   Value "Delays_1_A" (99 # 20);
   Value "Delays_2_B" 0]
  x_MLP c_MLP = true.
Proof. vm_compute. reflexivity. Qed.

(** test_5_trains_all_cases *)
Definition ts_5_trains_all_cases : train_sets := MkTS (Some [(PInt 22, PStr "C"); (PInt 23, PStr "A"); (PInt 24, PStr "D"); (PInt 25, PStr "C")])
  [(PInt 21, [PStr "A"; PStr "B"; PStr "C"]); (PInt 22, [PStr "A"; PStr "B"; PStr "C"]); (PInt 23, [PStr "C"; PStr "B"; PStr "A"]); (PInt 24, [PStr "C"; PStr "D"]); (PInt 25, [PStr "D"; PStr "C"])]
  [PInt 21; PInt 22; PInt 23; PInt 24; PInt 25]
  [(PStr "A", [(PStr "B", [[PInt 21; PInt 22]])]); (PStr "B", [(PStr "C", [[PInt 21; PInt 22]])])]
  [((PStr "C", PStr "D"), [(PInt 24, PInt 25)])]
  [(PStr "C", [(PInt 22, PInt 23)])]
  [(PStr "B", [[PInt 21; PInt 22]]); (PStr "C", [[PInt 21; PInt 24]; [PInt 22; PInt 23]])]
  [(PStr "B", [[(PInt 21, PStr "out"); (PInt 22, PStr "out")]; [(PInt 21, PStr "in"); (PInt 22, PStr "in")]]); (PStr "C", [[(PInt 23, PStr "out"); (PInt 24, PStr "out")]; [(PInt 22, PStr "in"); (PInt 24, PStr "out")]; [(PInt 22, PStr "in"); (PInt 23, PStr "out")]; [(PInt 21, PStr "in"); (PInt 24, PStr "out")]]); (PStr "D", [[(PInt 24, PStr "in"); (PInt 25, PStr "out")]])]
  (None).

Definition tab_5_trains_all_cases : timetable := MkTT [("21_A_B", 4); ("22_A_B", 8); ("21_B_C", 4); ("22_B_C", 8); ("23_C_B", 6); ("23_B_A", 6); ("24_C_D", 3); ("25_D_C", 3)]
  [("21_22_A_B", 2); ("22_21_A_B", 6); ("21_22_B_C", 2); ("22_21_B_C", 6)]
  [("21_B", 1); ("22_B", 1); ("21_C", 1); ("23_B", 1)]
  [("23_C", 3)]
  (Some 1) []
  [("21_A", 6); ("22_A", 1); ("23_C", 26); ("24_C", 25); ("25_D", 28)]
  [("21_B", 2); ("22_B", (1 # 2)); ("21_A", 2); ("22_A", (1 # 2)); ("23_B", (4 # 5)); ("24_C", (1 # 2)); ("25_D", (1 # 2))].

Definition x_5_trains_all_cases : assignment := Check.table
  [(("Delays", [PInt 22; PStr "A"]), 7); (("Delays", [PInt 22; PStr "B"]), 7); (("Delays", [PInt 23; PStr "B"]), 2); (("Delays", [PInt 24; PStr "C"]), 1); (("Delays", [PInt 25; PStr "D"]), 2); (("Delays", [PInt 23; PStr "C"]), 2); (("y", [PInt 21; PInt 24; PStr "one_station"; PStr "C"]), 1); (("z", [PInt 21; PInt 24; PStr "B"; PStr "C"]), 1); (("y", [PInt 21; PInt 22; PStr "one_station"; PStr "A"]), 1); (("y", [PInt 21; PInt 22; PStr "one_station"; PStr "B"]), 1); (("z", [PInt 22; PInt 24; PStr "B"; PStr "C"]), 1); (("z", [PInt 24; PInt 25; PStr "C"; PStr "D"]), 1)].

Definition c_5_trains_all_cases : certificate :=
  (Split ("z", [PInt 21; PInt 24; PStr "B"; PStr "C"])
    (Empty [(25%nat, 1); (32%nat, 1); (39%nat, 1)])
    (Split ("y", [PInt 21; PInt 24; PStr "one_station"; PStr "C"])
    (Empty [(14%nat, 2); (26%nat, 1); (32%nat, 1); (39%nat, 1)])
    (Split ("z", [PInt 22; PInt 24; PStr "B"; PStr "C"])
    (Split ("y", [PInt 21; PInt 22; PStr "one_station"; PStr "B"])
    (Empty [(3%nat, 1); (5%nat, 1); (15%nat, 1); (23%nat, 1); (39%nat, 1)])
    (Split ("z", [PInt 24; PInt 25; PStr "C"; PStr "D"])
    (Empty [(8%nat, 1); (23%nat, 1); (36%nat, 1); (41%nat, 1)])
    (Split ("y", [PInt 21; PInt 22; PStr "one_station"; PStr "A"])
    (Empty [(11%nat, 1)])
    (Bound [(0%nat, (1 # 20)); (7%nat, (2 # 25)); (16%nat, (2 # 25)); (23%nat, (13 # 100)); (28%nat, (1 # 20)); (29%nat, (1 # 4)); (31%nat, (1 # 5)); (39%nat, (23 # 100))]))))
    (Split ("y", [PInt 21; PInt 22; PStr "one_station"; PStr "A"])
    (Split ("z", [PInt 24; PInt 25; PStr "C"; PStr "D"])
    (Split ("y", [PInt 23; PInt 24; PStr "one_station"; PStr "C"])
    (Bound [(1%nat, (2 # 5)); (4%nat, (1 # 5)); (7%nat, (2 # 25)); (8%nat, (13 # 100)); (21%nat, (2 # 25)); (33%nat, (9 # 20)); (35%nat, (1 # 20)); (41%nat, (9 # 50))])
    (Split ("y", [PInt 21; PInt 22; PStr "one_station"; PStr "B"])
    (Bound [(1%nat, (1 # 5)); (3%nat, (1 # 5)); (8%nat, (1 # 20)); (33%nat, (1 # 4)); (35%nat, (1 # 4)); (37%nat, (2 # 25)); (41%nat, (1 # 10))])
    (Empty [(11%nat, 1)])))
    (Split ("y", [PInt 21; PInt 22; PStr "one_station"; PStr "B"])
    (Bound [(1%nat, (1 # 5)); (3%nat, (1 # 5)); (28%nat, (1 # 20)); (33%nat, (1 # 4)); (35%nat, (1 # 4)); (37%nat, (2 # 25)); (39%nat, (1 # 10))])
    (Empty [(11%nat, 1)])))
    (Split ("y", [PInt 21; PInt 22; PStr "one_station"; PStr "B"])
    (Empty [(10%nat, 1)])
    (Split ("z", [PInt 24; PInt 25; PStr "C"; PStr "D"])
    (Bound [(0%nat, (9 # 50)); (6%nat, (13 # 100)); (7%nat, (2 # 25)); (8%nat, (1 # 20)); (16%nat, (2 # 25)); (29%nat, (19 # 50)); (31%nat, (1 # 5)); (41%nat, (1 # 10))])
    (Split ("y", [PInt 23; PInt 24; PStr "one_station"; PStr "C"])
    (Bound [(0%nat, (7 # 25)); (6%nat, (23 # 100)); (7%nat, (2 # 25)); (16%nat, (2 # 25)); (24%nat, (1 # 10)); (28%nat, (1 # 20)); (29%nat, (12 # 25)); (31%nat, (1 # 5))])
    (Bound [(0%nat, (7 # 25)); (6%nat, (23 # 100)); (7%nat, (2 # 25)); (16%nat, (9 # 50)); (22%nat, (1 # 10)); (28%nat, (1 # 20)); (29%nat, (12 # 25)); (31%nat, (1 # 5))])))))))).

Example test_5_trains_all_cases : solved ts_5_trains_all_cases tab_5_trains_all_cases 10 Integer (101 # 100)
  [Times (PInt 21) (PStr "A") 0 6 6;
   Times (PInt 22) (PStr "A") 7 8 1;
   Times (PInt 21) (PStr "B") 0 11 11;
   Times (PInt 22) (PStr "B") 7 17 10;
   Times (PInt 23) (PStr "C") 2 28 26;
   Times (PInt 23) (PStr "B") 2 35 33;
   Times (PInt 24) (PStr "C") 1 26 25;
   Times (PInt 25) (PStr "D") 2 30 28]
  x_5_trains_all_cases c_5_trains_all_cases = true.
Proof. vm_compute. reflexivity. Qed.

(** test_many_trains_single_line *)
Definition ts_many_trains_single_line : train_sets := MkTS (Some [(PInt 10, PStr "B"); (PInt 12, PStr "B"); (PInt 14, PStr "B"); (PInt 16, PStr "B"); (PInt 11, PStr "A"); (PInt 13, PStr "A"); (PInt 15, PStr "A"); (PInt 17, PStr "A")])
  [(PInt 10, [PStr "A"; PStr "B"]); (PInt 12, [PStr "A"; PStr "B"]); (PInt 14, [PStr "A"; PStr "B"]); (PInt 16, [PStr "A"; PStr "B"]); (PInt 11, [PStr "B"; PStr "A"]); (PInt 13, [PStr "B"; PStr "A"]); (PInt 15, [PStr "B"; PStr "A"]); (PInt 17, [PStr "B"; PStr "A"])]
  [PInt 10; PInt 11; PInt 12; PInt 13; PInt 14; PInt 15; PInt 16; PInt 17]
  [(PStr "A", [(PStr "B", [[PInt 10; PInt 12; PInt 14; PInt 16]])]); (PStr "B", [(PStr "A", [[PInt 11; PInt 13; PInt 15; PInt 17]])])]
  [((PStr "A", PStr "B"), [(PInt 10, PInt 11); (PInt 10, PInt 13); (PInt 10, PInt 15); (PInt 10, PInt 17); (PInt 12, PInt 11); (PInt 12, PInt 13); (PInt 12, PInt 15); (PInt 12, PInt 17); (PInt 14, PInt 11); (PInt 14, PInt 13); (PInt 14, PInt 15); (PInt 14, PInt 17); (PInt 16, PInt 11); (PInt 16, PInt 13); (PInt 16, PInt 15); (PInt 16, PInt 17)])]
  []
  [(PStr "A", [[PInt 10; PInt 12; PInt 14; PInt 16]]); (PStr "B", [[PInt 11; PInt 13; PInt 15; PInt 17]])]
  []
  (None).

Definition tab_many_trains_single_line : timetable := MkTT [("10_A_B", 4); ("12_A_B", 4); ("14_A_B", 4); ("16_A_B", 4); ("11_B_A", 4); ("13_B_A", 4); ("15_B_A", 4); ("17_B_A", 4)]
  [("10_12_A_B", 2); ("10_14_A_B", 2); ("10_16_A_B", 2); ("12_14_A_B", 2); ("12_16_A_B", 2); ("14_16_A_B", 2); ("12_10_A_B", 2); ("14_10_A_B", 2); ("16_10_A_B", 2); ("14_12_A_B", 2); ("16_12_A_B", 2); ("16_14_A_B", 2); ("11_13_B_A", 2); ("11_15_B_A", 2); ("11_17_B_A", 2); ("13_15_B_A", 2); ("13_17_B_A", 2); ("15_17_B_A", 2); ("13_11_B_A", 2); ("15_11_B_A", 2); ("17_11_B_A", 2); ("15_13_B_A", 2); ("17_13_B_A", 2); ("17_15_B_A", 2)]
  []
  []
  (Some 1) []
  [("10_A", 5); ("12_A", 10); ("14_A", 20); ("16_A", 30); ("11_B", 5); ("13_B", 15); ("15_B", 25); ("17_B", 35)]
  [("10_A", (1 # 2)); ("12_A", (1 # 2)); ("14_A", (1 # 2)); ("16_A", (1 # 2)); ("11_B", (1 # 2)); ("13_B", (1 # 2)); ("15_B", (1 # 2)); ("17_B", (1 # 2))].

Definition x_many_trains_single_line : assignment := Check.table
  [(("Delays", [PInt 10; PStr "A"]), 4); (("Delays", [PInt 12; PStr "A"]), 1); (("z", [PInt 10; PInt 17; PStr "A"; PStr "B"]), 1); (("z", [PInt 12; PInt 17; PStr "A"; PStr "B"]), 1); (("y", [PInt 15; PInt 17; PStr "one_station"; PStr "B"]), 1); (("y", [PInt 10; PInt 14; PStr "one_station"; PStr "A"]), 1); (("y", [PInt 13; PInt 17; PStr "one_station"; PStr "B"]), 1); (("z", [PInt 10; PInt 13; PStr "A"; PStr "B"]), 1); (("y", [PInt 12; PInt 16; PStr "one_station"; PStr "A"]), 1); (("y", [PInt 13; PInt 15; PStr "one_station"; PStr "B"]), 1); (("y", [PInt 11; PInt 15; PStr "one_station"; PStr "B"]), 1); (("y", [PInt 10; PInt 16; PStr "one_station"; PStr "A"]), 1); (("z", [PInt 10; PInt 15; PStr "A"; PStr "B"]), 1); (("z", [PInt 16; PInt 17; PStr "A"; PStr "B"]), 1); (("y", [PInt 14; PInt 16; PStr "one_station"; PStr "A"]), 1); (("z", [PInt 14; PInt 17; PStr "A"; PStr "B"]), 1); (("z", [PInt 12; PInt 13; PStr "A"; PStr "B"]), 1); (("y", [PInt 10; PInt 12; PStr "one_station"; PStr "A"]), 1); (("y", [PInt 11; PInt 13; PStr "one_station"; PStr "B"]), 1); (("z", [PInt 14; PInt 15; PStr "A"; PStr "B"]), 1); (("z", [PInt 12; PInt 15; PStr "A"; PStr "B"]), 1); (("y", [PInt 12; PInt 14; PStr "one_station"; PStr "A"]), 1); (("y", [PInt 11; PInt 17; PStr "one_station"; PStr "B"]), 1)].

Definition c_many_trains_single_line : certificate :=
  (Split ("z", [PInt 10; PInt 17; PStr "A"; PStr "B"])
    (Empty [(23%nat, 1); (56%nat, 1); (69%nat, 1)])
    (Split ("y", [PInt 11; PInt 17; PStr "one_station"; PStr "B"])
    (Empty [(51%nat, 1); (69%nat, 1)])
    (Split ("z", [PInt 12; PInt 17; PStr "A"; PStr "B"])
    (Empty [(29%nat, 1); (60%nat, 1); (69%nat, 1)])
    (Split ("z", [PInt 16; PInt 11; PStr "A"; PStr "B"])
    (Split ("y", [PInt 10; PInt 16; PStr "one_station"; PStr "A"])
    (Empty [(45%nat, 1); (67%nat, 1)])
    (Split ("z", [PInt 10; PInt 15; PStr "A"; PStr "B"])
    (Empty [(22%nat, 1); (56%nat, 1); (65%nat, 1)])
    (Split ("y", [PInt 12; PInt 16; PStr "one_station"; PStr "A"])
    (Empty [(47%nat, 1); (67%nat, 1)])
    (Split ("y", [PInt 11; PInt 15; PStr "one_station"; PStr "B"])
    (Empty [(50%nat, 1); (65%nat, 1)])
    (Split ("y", [PInt 13; PInt 17; PStr "one_station"; PStr "B"])
    (Empty [(53%nat, 1); (69%nat, 1)])
    (Split ("z", [PInt 12; PInt 15; PStr "A"; PStr "B"])
    (Empty [(28%nat, 1); (60%nat, 1); (65%nat, 1)])
    (Split ("z", [PInt 14; PInt 11; PStr "A"; PStr "B"])
    (Split ("z", [PInt 14; PInt 17; PStr "A"; PStr "B"])
    (Empty [(35%nat, 1); (64%nat, 1); (69%nat, 1)])
    (Split ("z", [PInt 16; PInt 13; PStr "A"; PStr "B"])
    (Split ("y", [PInt 10; PInt 14; PStr "one_station"; PStr "A"])
    (Empty [(44%nat, 1); (63%nat, 1)])
    (Split ("z", [PInt 10; PInt 13; PStr "A"; PStr "B"])
    (Empty [(20%nat, 1); (56%nat, 1); (61%nat, 1)])
    (Split ("y", [PInt 12; PInt 14; PStr "one_station"; PStr "A"])
    (Empty [(46%nat, 1); (63%nat, 1)])
    (Split ("y", [PInt 14; PInt 16; PStr "one_station"; PStr "A"])
    (Empty [(8%nat, 1); (44%nat, 1); (67%nat, 1)])
    (Split ("y", [PInt 11; PInt 13; PStr "one_station"; PStr "B"])
    (Empty [(49%nat, 1); (61%nat, 1)])
    (Split ("y", [PInt 13; PInt 15; PStr "one_station"; PStr "B"])
    (Empty [(14%nat, 1); (49%nat, 1); (65%nat, 1)])
    (Split ("y", [PInt 15; PInt 17; PStr "one_station"; PStr "B"])
    (Empty [(17%nat, 1); (50%nat, 1); (69%nat, 1)])
    (Split ("z", [PInt 12; PInt 11; PStr "A"; PStr "B"])
    (Split ("z", [PInt 12; PInt 13; PStr "A"; PStr "B"])
    (Bound [(4%nat, (1 # 20)); (26%nat, (1 # 10)); (55%nat, (1 # 20)); (57%nat, (1 # 20)); (61%nat, (3 # 20)); (65%nat, (1 # 20)); (67%nat, (1 # 20)); (69%nat, (1 # 20))])
    (Split ("z", [PInt 14; PInt 13; PStr "A"; PStr "B"])
    (Split ("z", [PInt 14; PInt 15; PStr "A"; PStr "B"])
    (Bound [(7%nat, (1 # 20)); (33%nat, (1 # 10)); (55%nat, (1 # 20)); (57%nat, (1 # 20)); (59%nat, (1 # 20)); (61%nat, (1 # 20)); (65%nat, (3 # 20)); (69%nat, (1 # 20))])
    (Split ("z", [PInt 16; PInt 15; PStr "A"; PStr "B"])
    (Split ("z", [PInt 16; PInt 17; PStr "A"; PStr "B"])
    (Bound [(40%nat, (1 # 20)); (55%nat, (1 # 20)); (57%nat, (1 # 20)); (59%nat, (1 # 20)); (61%nat, (1 # 20)); (63%nat, (1 # 20)); (65%nat, (1 # 20)); (69%nat, (1 # 10))])
    (Split ("y", [PInt 10; PInt 12; PStr "one_station"; PStr "A"])
    (Empty [(42%nat, 1); (59%nat, 1)])
    (Split ("z", [PInt 10; PInt 11; PStr "A"; PStr "B"])
    (Bound [(0%nat, (1 # 20)); (18%nat, (1 # 10)); (57%nat, (3 # 20)); (61%nat, (1 # 20)); (63%nat, (1 # 20)); (65%nat, (1 # 20)); (67%nat, (1 # 20)); (69%nat, (1 # 20))])
    (Bound [(19%nat, (1 # 5)); (24%nat, (3 # 20)); (27%nat, (1 # 10)); (31%nat, (1 # 20)); (55%nat, (1 # 4)); (65%nat, (1 # 20)); (67%nat, (1 # 20)); (69%nat, (1 # 20))]))))
    (Bound [(16%nat, (1 # 20)); (39%nat, (1 # 10)); (55%nat, (1 # 20)); (57%nat, (1 # 20)); (59%nat, (1 # 20)); (61%nat, (1 # 20)); (63%nat, (1 # 20)); (67%nat, (3 # 20))])))
    (Bound [(13%nat, (1 # 20)); (32%nat, (1 # 10)); (55%nat, (1 # 20)); (57%nat, (1 # 20)); (59%nat, (1 # 20)); (63%nat, (3 # 20)); (67%nat, (1 # 20)); (69%nat, (1 # 20))])))
    (Split ("z", [PInt 10; PInt 11; PStr "A"; PStr "B"])
    (Empty [(18%nat, 1); (25%nat, 1); (56%nat, 1); (59%nat, 1)])
    (Split ("z", [PInt 12; PInt 13; PStr "A"; PStr "B"])
    (Empty [(25%nat, 1); (26%nat, 1); (58%nat, 1); (61%nat, 1)])
    (Split ("z", [PInt 14; PInt 15; PStr "A"; PStr "B"])
    (Bound [(7%nat, (1 # 20)); (9%nat, (1 # 20)); (25%nat, (1 # 10)); (33%nat, (1 # 10)); (55%nat, (1 # 20)); (59%nat, (3 # 20)); (65%nat, (3 # 20)); (69%nat, (1 # 20))])
    (Split ("z", [PInt 16; PInt 15; PStr "A"; PStr "B"])
    (Split ("z", [PInt 16; PInt 17; PStr "A"; PStr "B"])
    (Bound [(9%nat, (1 # 20)); (25%nat, (1 # 10)); (40%nat, (1 # 20)); (55%nat, (1 # 20)); (59%nat, (3 # 20)); (63%nat, (1 # 20)); (65%nat, (1 # 20)); (69%nat, (1 # 10))])
    (Split ("z", [PInt 14; PInt 13; PStr "A"; PStr "B"])
    (Split ("y", [PInt 10; PInt 12; PStr "one_station"; PStr "A"])
    (Empty [(1%nat, 1); (19%nat, 1); (24%nat, 1); (42%nat, 1); (59%nat, 1)])
    (Bound [(9%nat, (1 # 20)); (25%nat, (1 # 10)); (55%nat, (1 # 20)); (59%nat, (3 # 20)); (63%nat, (1 # 20)); (65%nat, (1 # 20)); (67%nat, (1 # 20)); (69%nat, (1 # 20))]))
    (Split ("y", [PInt 10; PInt 12; PStr "one_station"; PStr "A"])
    (Empty [(1%nat, 1); (19%nat, 1); (24%nat, 1); (42%nat, 1); (59%nat, 1)])
    (Bound [(13%nat, (1 # 20)); (25%nat, (1 # 20)); (32%nat, (1 # 10)); (55%nat, (1 # 20)); (59%nat, (1 # 10)); (63%nat, (3 # 20)); (67%nat, (1 # 20)); (69%nat, (1 # 20))]))))
    (Split ("z", [PInt 16; PInt 17; PStr "A"; PStr "B"])
    (Empty [(39%nat, 1); (40%nat, 1); (50%nat, 1); (69%nat, 1)])
    (Split ("z", [PInt 14; PInt 13; PStr "A"; PStr "B"])
    (Split ("y", [PInt 10; PInt 12; PStr "one_station"; PStr "A"])
    (Empty [(1%nat, 1); (19%nat, 1); (24%nat, 1); (42%nat, 1); (59%nat, 1)])
    (Bound [(9%nat, (1 # 20)); (16%nat, (1 # 20)); (25%nat, (1 # 10)); (39%nat, (1 # 10)); (55%nat, (1 # 20)); (59%nat, (3 # 20)); (63%nat, (1 # 20)); (67%nat, (3 # 20))]))
    (Split ("y", [PInt 10; PInt 12; PStr "one_station"; PStr "A"])
    (Empty [(1%nat, 1); (19%nat, 1); (24%nat, 1); (42%nat, 1); (59%nat, 1)])
    (Bound [(16%nat, (1 # 20)); (25%nat, (1 # 20)); (32%nat, (1 # 20)); (39%nat, (1 # 10)); (55%nat, (1 # 20)); (59%nat, (1 # 10)); (63%nat, (1 # 10)); (67%nat, (3 # 20))]))))))))))))))))
    (Empty [(37%nat, 1); (62%nat, 1); (67%nat, 1)])))
    (Empty [(30%nat, 1); (58%nat, 1); (63%nat, 1)]))))))))
    (Empty [(36%nat, 1); (58%nat, 1); (67%nat, 1)]))))).

Example test_many_trains_single_line : solved ts_many_trains_single_line tab_many_trains_single_line 10 Integer (1 # 4)
  []
  x_many_trains_single_line c_many_trains_single_line = true.
Proof. vm_compute. reflexivity. Qed.

(** test_constraint_labels: no constraint gets a name of the form _C1, _C2, ... *)
Definition has_number_name (n : string) : bool := String.prefix "_C" n.
Definition labelled (ts : train_sets) (tab : timetable) : bool :=
  match create_linear_problem ts tab 10 Integer with
  | Ok p => forallb (fun nc => negb (has_number_name (fst nc))) (p_constraints p)
  | Err _ => false
  end.
Example test_constraint_labels :
  labelled ts_QIP_problem1 tab_QIP_problem1 && labelled ts_QIP_problem2 tab_QIP_problem2 = true.
Proof. vm_compute. reflexivity. Qed.

(** test_linear_varibles_creations *)
Fixpoint leaves (t : tree) : list (list pv * string) :=
  match t with
  | TLeaf v => [([], v_name v)]
  | TNode l => flat_map (fun kt => map (fun r => (fst kt :: fst r, snd r)) (leaves (snd kt))) l
  end.
Definition ts_creation : train_sets := MkTS None
  [(PInt 0, [PStr "A"; PStr "B"]); (PInt 1, [PStr "A"; PStr "B"])] [PInt 0; PInt 1]
  [(PStr "A", [(PStr "B", [[PInt 0; PInt 1]])])] [] [] [] [] None.
Example test_linear_varibles_creations :
  match delay_varibles ts_creation 5 Integer, order_variables ts_creation with
  | Ok dv, Ok y =>
      leaves dv = [([PInt 0; PStr "A"], "Delays_0_A"); ([PInt 0; PStr "B"], "Delays_0_B");
                   ([PInt 1; PStr "A"], "Delays_1_A"); ([PInt 1; PStr "B"], "Delays_1_B")] /\
      leaves y = [([PInt 0; PInt 1; PStr "one_station"; PStr "A"], "y_0_1_one_station_A")]
  | _, _ => False
  end.
Proof. vm_compute. split; reflexivity. Qed.

(** test_helpers.py *)
Definition lists : list (list pv) := [[PInt 1; PInt 2; PInt 3]; [PInt 4]; [PInt 5; PInt 6]].
Definition leaf (z : Z) : tree := TLeaf (MkVar "v" [PInt z] None None Integer).
Definition d1 : tree := TNode [(PInt 0, TNode [(PInt 0, leaf 1); (PInt 1, leaf 2)]); (PInt 1, TNode [(PInt 0, leaf 1)])].
Example test_pairs :
  occurs_as_pair (PInt 1) (PInt 2) lists = true /\ occurs_as_pair (PInt 2) (PInt 1) lists = true /\
  occurs_as_pair (PInt 1) (PInt 4) lists = false /\
  update_dictofdicts d1 (TNode [(PInt 0, TNode [(PInt 2, leaf 3)])]) =
    Ok (TNode [(PInt 0, TNode [(PInt 0, leaf 1); (PInt 1, leaf 2); (PInt 2, leaf 3)]); (PInt 1, TNode [(PInt 0, leaf 1)])]) /\
  update_dictofdicts d1 (TNode [(PInt 2, TNode [(PInt 2, leaf 3)])]) =
    Ok (TNode [(PInt 0, TNode [(PInt 0, leaf 1); (PInt 1, leaf 2)]); (PInt 1, TNode [(PInt 0, leaf 1)]); (PInt 2, TNode [(PInt 2, leaf 3)])]).
Proof. vm_compute. auto. Qed.

Example test_trains_paths :
  previous_station [PInt 0; PInt 1; PInt 2; PInt 4] (PInt 4) = Ok (PInt 2) /\
  previous_station [PInt 1; PInt 0] (PInt 1) = Ok PNone /\
  subsequent_station [PInt 0; PInt 1; PInt 2] (PInt 2) = Ok PNone /\
  subsequent_station [PInt 0; PInt 1; PInt 2; PInt 4] (PInt 2) = Ok (PInt 4) /\
  subsequent_station [PInt 1; PInt 0] (PInt 1) = Ok (PInt 0).
Proof. vm_compute. auto. Qed.

Definition tab_aux : timetable := MkTT
  [("0_0_1", 5); ("1_0_1", 7); ("2_1_0", 10)] [("0_1_0_1", 2); ("1_0_0_1", 5)] [("0_1", 1); ("1_1", 2); ("2_0", 1)] [] (Some 3)
  [("0_0", (-10)); ("1_0", 0); ("2_1", 0); ("0_1", (-3)); ("1_1", 9); ("2_0", 11)]
  [("0_0", 4); ("1_0", 1); ("2_1", 8)] [("0_0", 2); ("1_0", 1); ("2_1", 1)].
Definition paths_aux : dict pv (list pv) :=
  [(PInt 0, [PInt 0; PInt 1]); (PInt 1, [PInt 0; PInt 1]); (PInt 2, [PInt 1; PInt 0])].
Definition gives (r : res Q) (q : Q) : bool := match r with Ok q' => Qeq_bool q' q | Err _ => false end.
Example test_auxiliary_timetable_functions :
  gives (tau_pass tab_aux (PInt 0) (PInt 0) (PInt 1)) 5 && gives (tau_res tab_aux) 3 &&
  Qeq_bool (penalty_weights tab_aux (PInt 1) (PInt 0)) 1 && Qeq_bool (penalty_weights tab_aux (PInt 1) (PInt 1)) 0 &&
  Qeq_bool (penalty_weights tab_aux (PInt 2) (PInt 1)) 1 &&
  gives (earliest_dep_time paths_aux tab_aux (PInt 0) (PInt 0)) 4 && gives (earliest_dep_time paths_aux tab_aux (PInt 0) (PInt 1)) 10 &&
  gives (earliest_dep_time paths_aux tab_aux (PInt 2) (PInt 0)) 19 && gives (earliest_dep_time paths_aux tab_aux (PInt 2) (PInt 1)) 8 = true.
Proof. vm_compute. reflexivity. Qed.

Definition ts_sets : train_sets := MkTS None
  [(PInt 1, [PStr "A"; PStr "B"]); (PInt 2, [PStr "B"; PStr "A"]); (PInt 3, [PStr "A"; PStr "B"])] [] [] []
  [(PStr "B", [(PInt 1, PInt 2)])] []
  [(PStr "B", [[(PInt 1, PStr "out"); (PInt 3, PStr "out")]; [(PInt 1, PStr "in"); (PInt 3, PStr "in")]])] None.
Definition ts_lines (groups : list (list pv)) : train_sets := MkTS None
  [(PInt 1, [PStr "A"; PStr "B"]); (PInt 2, [PStr "C"; PStr "B"]); (PInt 3, [PStr "A"; PStr "B"])] []
  [(PStr "A", [(PStr "B", groups)]); (PStr "C", [(PStr "B", [[PInt 2]])])] [] [] [] [] None.
Example test_helpers_of_train_sets :
  not_the_same_rolling_stock (PInt 0) (PInt 1) ts_sets = true /\ not_the_same_rolling_stock (PInt 1) (PInt 2) ts_sets = false /\
  departure_station4switches (PStr "B") (PInt 1) [(PInt 1, PStr "out"); (PInt 3, PStr "out")] ts_sets = Ok (PStr "B") /\
  departure_station4switches (PStr "B") (PInt 1) [(PInt 1, PStr "in"); (PInt 3, PStr "in")] ts_sets = Ok (PStr "A") /\
  Qeq_bool (get_M 2 3 4) 5 = true /\ skip_station (PInt 1) (PStr "A") ts_sets = false /\
  previous_train_from_Jround ts_sets (PInt 2) (PStr "B") = PInt 1 /\ subsequent_train_at_Jround ts_sets (PInt 1) (PStr "B") = PInt 2 /\
  previous_train_from_Jround ts_sets (PInt 1) (PStr "B") = PNone /\ subsequent_train_at_Jround ts_sets (PInt 2) (PStr "B") = PNone /\
  entering_via_same_switches ts_sets (PStr "B") (PInt 1) (PInt 3) = true /\
  entering_via_same_switches ts_sets (PStr "B") (PInt 1) (PInt 2) = false /\
  entering_via_same_switches ts_sets (PStr "A") (PInt 1) (PInt 3) = false /\
  can_MO_on_line (PInt 1) (PInt 3) (PStr "B") (ts_lines [[PInt 1; PInt 3]]) = Ok false /\
  can_MO_on_line (PInt 1) (PInt 2) (PStr "B") (ts_lines [[PInt 1; PInt 3]]) = Ok true /\
  can_MO_on_line (PInt 1) (PInt 3) (PStr "B") (ts_lines [[PInt 1]; [PInt 3]]) = Ok true /\
  can_MO_on_line (PInt 1) (PInt 2) (PStr "B") (ts_lines [[PInt 1]; [PInt 3]]) = Ok true.
Proof. vm_compute. repeat split. Qed.
