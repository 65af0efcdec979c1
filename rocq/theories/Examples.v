(** * Examples: inputs of /repo's own tests, with the solutions those tests expect *)

From Coq Require Import List String ZArith QArith Bool.
From Verif Require Import Base Pulp Helpers LinearSolver BaseFacts Spec Check.
Import ListNotations.
Open Scope string_scope.
Open Scope list_scope.

Definition I (z : Z) : pv := PInt z.
Definition A := PStr "A".
Definition B := PStr "B".
Definition C := PStr "C".
Definition D := PStr "D".

(** ** railway_solvers/test/inputs4QUBO/5_trains_all_cases.py *)

Definition five_tt : timetable := MkTT
  [("21_A_B", 4); ("22_A_B", 8); ("21_B_C", 4); ("22_B_C", 8); ("23_C_B", 6); ("23_B_A", 6);
   ("24_C_D", 3); ("25_D_C", 3)]
  [("21_22_A_B", 2); ("22_21_A_B", 6); ("21_22_B_C", 2); ("22_21_B_C", 6)]
  [("21_B", 1); ("22_B", 1); ("21_C", 1); ("23_B", 1)]
  [("23_C", 3)] (Some 1) []
  [("21_A", 6); ("22_A", 1); ("23_C", 26); ("24_C", 25); ("25_D", 28)]
  [("21_B", 2); ("22_B", 1#2); ("21_A", 2); ("22_A", 1#2); ("23_B", 8#10); ("24_C", 1#2);
   ("25_D", 1#2)].

Definition five_ts : train_sets := MkTS
  (Some [(I 22, C); (I 23, A); (I 24, D); (I 25, C)])
  [(I 21, [A; B; C]); (I 22, [A; B; C]); (I 23, [C; B; A]); (I 24, [C; D]); (I 25, [D; C])]
  [I 21; I 22; I 23; I 24; I 25]
  [(A, [(B, [[I 21; I 22]])]); (B, [(C, [[I 21; I 22]])])]
  [((C, D), [(I 24, I 25)])]
  [(C, [(I 22, I 23)])]
  [(B, [[I 21; I 22]]); (C, [[I 21; I 24]; [I 22; I 23]])]
  [(B, [[(I 21, PStr "out"); (I 22, PStr "out")]; [(I 21, PStr "in"); (I 22, PStr "in")]]);
   (C, [[(I 23, PStr "out"); (I 24, PStr "out")]; [(I 22, PStr "in"); (I 24, PStr "out")];
        [(I 22, PStr "in"); (I 23, PStr "out")]; [(I 21, PStr "in"); (I 24, PStr "out")]]);
   (D, [[(I 24, PStr "in"); (I 25, PStr "out")]])]
  None.

Definition five_p : lpproblem := ok_or (create_linear_problem five_ts five_tt 10 Integer) empty_problem.

(** The delays test_linear_solver_large.py:48-77 expects. *)
Definition five_x : assignment := table
  [(("Delays", [I 21; A]), 0); (("Delays", [I 22; A]), 7); (("Delays", [I 21; B]), 0);
   (("Delays", [I 22; B]), 7); (("Delays", [I 23; C]), 2); (("Delays", [I 23; B]), 2);
   (("Delays", [I 24; C]), 1); (("Delays", [I 25; D]), 2);
   (("y", [I 21; I 22; PStr "one_station"; A]), 1);
   (("y", [I 21; I 22; PStr "one_station"; B]), 1);
   (("z", [I 24; I 25; C; D]), 1);
   (("z", [I 22; I 24; B; C]), 1);
   (("y", [I 21; I 24; PStr "one_station"; C]), 1);
   (("z", [I 21; I 24; B; C]), 1)].

Example five_reserved : reserved_free five_ts.
Proof. apply reserved_freeb_ok. vm_compute. reflexivity. Qed.
Example five_none : none_free five_tt.
Proof. apply none_freeb_ok. vm_compute. reflexivity. Qed.
Example five_built : create_linear_problem five_ts five_tt 10 Integer = Ok five_p.
Proof. apply ok_or_ok. vm_compute. reflexivity. Qed.
Example five_feasible : feasible five_p five_x.
Proof. apply feasibleb_ok. vm_compute. reflexivity. Qed.
(** test_linear_solver_large.py:76 *)
Example five_objective : obj_value five_p five_x == 101 # 100.
Proof. vm_compute. reflexivity. Qed.
Example five_counts :
  (List.length (p_constraints five_p), List.length (variables five_p)) = (28%nat, 16%nat).
Proof. vm_compute. reflexivity. Qed.

(** ** railway_solvers/test/inputs4QUBO/station_track_and_circ.py *)

Definition circ_tt : timetable := MkTT
  [("0_A_B", 4); ("1_B_A", 4); ("2_A_B", 4)]
  [("0_2_A_B", 2); ("2_0_A_B", 2)]
  [("0_B", 0); ("1_A", 1); ("2_B", 1)]
  [("1_B", 10)] (Some 1) []
  [("0_A", 1); ("1_B", 2); ("2_A", 2)]
  [("0_A", 1); ("1_B", 1); ("2_A", 1)].

Definition circ_ts : train_sets := MkTS None
  [(I 0, [A; B]); (I 1, [B; A]); (I 2, [A; B])]
  [I 0; I 1; I 2]
  [(A, [(B, [[I 0; I 2]])]); (B, [(A, [[I 1]])])]
  [] [(B, [(I 0, I 1)])] [(B, [[I 0; I 1; I 2]])] [] None.

Definition circ_p : lpproblem := ok_or (create_linear_problem circ_ts circ_tt 20 Integer) empty_problem.

(** The solution test_linear_solver.py:466-481 expects (Delays_2_B and Delays_1_A are free). *)
Definition circ_x : assignment := table
  [(("Delays", [I 0; A]), 3); (("Delays", [I 1; B]), 16); (("Delays", [I 2; A]), 0);
   (("Delays", [I 1; A]), 16); (("Delays", [I 2; B]), 0)].

Example circ_reserved : reserved_free circ_ts.
Proof. apply reserved_freeb_ok. vm_compute. reflexivity. Qed.
Example circ_none : none_free circ_tt.
Proof. apply none_freeb_ok. vm_compute. reflexivity. Qed.
Example circ_built : create_linear_problem circ_ts circ_tt 20 Integer = Ok circ_p.
Proof. apply ok_or_ok. vm_compute. reflexivity. Qed.
Example circ_feasible : feasible circ_p circ_x.
Proof. apply feasibleb_ok. vm_compute. reflexivity. Qed.
(** test_linear_solver.py:483 *)
Example circ_objective : obj_value circ_p circ_x == 95 # 100.
Proof. vm_compute. reflexivity. Qed.
(** test_linear_solver.py:466-468: names of the order variables. *)
Example circ_names : map v_name (filter (fun v => eqb (v_prefix v) "y") (variables circ_p)) =
  ["y_0_2_one_station_A"; "y_0_2_one_station_B"; "y_1_2_one_station_B"].
Proof. vm_compute. reflexivity. Qed.

(** ** Two trains against each other, ending at the far station, with common switches at both ends *)

Definition cross_tt : timetable := MkTT
  [("1_A_B", 5); ("2_B_A", 7)] [] [] [] (Some 1) []
  [("1_A", 0); ("2_B", 3)] [("1_A", 1); ("2_B", 1)].

Definition cross_ts : train_sets := MkTS
  (Some [(I 1, B); (I 2, A)]) [(I 1, [A; B]); (I 2, [B; A])] [I 1; I 2] [] [] [] []
  [(A, [[(I 1, PStr "out"); (I 2, PStr "in")]]); (B, [[(I 1, PStr "in"); (I 2, PStr "out")]])]
  None.

Definition cross_p : lpproblem := ok_or (create_linear_problem cross_ts cross_tt 10 Integer) empty_problem.

Definition cross_x : assignment := table
  [(("Delays", [I 1; A]), 0); (("Delays", [I 2; B]), 3); (("z", [I 1; I 2; A; B]), 1)].

Example cross_reserved : reserved_free cross_ts.
Proof. apply reserved_freeb_ok. vm_compute. reflexivity. Qed.
Example cross_none : none_free cross_tt.
Proof. apply none_freeb_ok. vm_compute. reflexivity. Qed.
Example cross_built : create_linear_problem cross_ts cross_tt 10 Integer = Ok cross_p.
Proof. apply ok_or_ok. vm_compute. reflexivity. Qed.
Example cross_feasible : feasible cross_p cross_x.
Proof. apply feasibleb_ok. vm_compute. reflexivity. Qed.
