(** * WislaData: the problem written down in wisla_problems.py

    Copied by a script from the literals of /repo/wisla_problems.py (read as text).  Stations are numbers
    there, trains texts.  The top-level key 10 of train_set (line 63: one brace too early, it was meant to be
    in "Jd") is read by no function and has no place in the model's record.  The two assignments and the
    certificate are not in /repo: they were found by a search outside Coq and are checked in PropsWisla.v. *)

From Coq Require Import List String ZArith QArith Bool.
From Verif Require Import Base Pulp Helpers Check Optimum.
Import ListNotations.
Open Scope string_scope.
Open Scope list_scope.
Open Scope Q_scope.

(** wisla_problems.py:56-72 (train_set) *)
Definition wisla_ts : train_sets := MkTS (Some [(PStr "Ks1", PInt 10); (PStr "Ks3", PInt 10); (PStr "Ic1",
   PInt 10); (PStr "Ks2", PInt 1); (PStr "Ks4", PInt 1); (PStr "Ic2", PInt 1)])
  [(PStr "Ks1", [PInt 1; PInt 3; PInt 5; PInt 10]); (PStr "Ks3", [PInt 1; PInt 3; PInt 5; PInt 10]); (PStr
   "Ic1", [PInt 1; PInt 3; PInt 5; PInt 10]); (PStr "Ks2", [PInt 10; PInt 5; PInt 3; PInt 1]); (PStr "Ks4",
   [PInt 10; PInt 5; PInt 3; PInt 1]); (PStr "Ic2", [PInt 10; PInt 5; PInt 3; PInt 1])]
  [PStr "Ks1"; PStr "Ks3"; PStr "Ic1"; PStr "Ks2"; PStr "Ks4"; PStr "Ic2"]
  [(PInt 1, [(PInt 3, [[PStr "Ks1"; PStr "Ks3"; PStr "Ic1"]])]); (PInt 3, [(PInt 1, [[PStr "Ks2"; PStr "Ks4";
   PStr "Ic2"]]); (PInt 5, [[PStr "Ks1"; PStr "Ks3"; PStr "Ic1"]])]); (PInt 5, [(PInt 3, [[PStr "Ks2"; PStr
   "Ks4"; PStr "Ic2"]]); (PInt 10, [[PStr "Ks1"; PStr "Ks3"; PStr "Ic1"]])])]
  [((PInt 1, PInt 3), [(PStr "Ks1", PStr "Ks2"); (PStr "Ks1", PStr "Ks4"); (PStr "Ks1", PStr "Ic2"); (PStr
   "Ks3", PStr "Ks2"); (PStr "Ks3", PStr "Ks4"); (PStr "Ks3", PStr "Ic2"); (PStr "Ic1", PStr "Ks2"); (PStr
   "Ic1", PStr "Ks4"); (PStr "Ic1", PStr "Ic2")]); ((PInt 3, PInt 5), [(PStr "Ks1", PStr "Ks2"); (PStr "Ks1",
   PStr "Ks4"); (PStr "Ks1", PStr "Ic2"); (PStr "Ks3", PStr "Ks2"); (PStr "Ks3", PStr "Ks4"); (PStr "Ks3",
   PStr "Ic2"); (PStr "Ic1", PStr "Ks2"); (PStr "Ic1", PStr "Ks4"); (PStr "Ic1", PStr "Ic2")]); ((PInt 5, PInt
   10), [(PStr "Ks1", PStr "Ks2"); (PStr "Ks1", PStr "Ks4"); (PStr "Ks1", PStr "Ic2"); (PStr "Ks3", PStr
   "Ks2"); (PStr "Ks3", PStr "Ks4"); (PStr "Ks3", PStr "Ic2"); (PStr "Ic1", PStr "Ks2"); (PStr "Ic1", PStr
   "Ks4"); (PStr "Ic1", PStr "Ic2")])]
  [(PInt 10, [(PStr "Ic1", PStr "Ic2")])]
  []
  []
  (None).

(** wisla_problems.py:73-97 (taus, timetable); line 21: d_max = 10 *)
Definition wisla_tt : timetable := MkTT [("Ks1_1_3", 4); ("Ks1_3_5", 6); ("Ks1_5_10", 6); ("Ks3_1_3", 4);
   ("Ks3_3_5", 6); ("Ks3_5_10", 6); ("Ic1_1_3", 4); ("Ic1_3_5", 4); ("Ic1_5_10", 5); ("Ks2_3_1", 4);
   ("Ks2_5_3", 6); ("Ks2_10_5", 6); ("Ks4_3_1", 4); ("Ks4_5_3", 6); ("Ks4_10_5", 6); ("Ic2_3_1", 4);
   ("Ic2_5_3", 4); ("Ic2_10_5", 5)]
  [("Ks1_Ks3_1_3", 2); ("Ks1_Ks3_3_5", 2); ("Ks1_Ks3_5_10", 2); ("Ks3_Ks1_1_3", 2); ("Ks3_Ks1_3_5", 2);
   ("Ks3_Ks1_5_10", 2); ("Ks1_Ic1_1_3", 2); ("Ks1_Ic1_3_5", 2); ("Ks1_Ic1_5_10", 2); ("Ks3_Ic1_1_3", 2);
   ("Ks3_Ic1_3_5", 2); ("Ks3_Ic1_5_10", 2); ("Ic1_Ks1_1_3", 2); ("Ic1_Ks1_3_5", 2); ("Ic1_Ks1_5_10", 2);
   ("Ic1_Ks3_1_3", 2); ("Ic1_Ks3_3_5", 2); ("Ic1_Ks3_5_10", 2); ("Ks2_Ks4_3_1", 2); ("Ks2_Ks4_5_3", 2);
   ("Ks2_Ks4_10_5", 2); ("Ks4_Ks2_3_1", 2); ("Ks4_Ks2_5_3", 2); ("Ks4_Ks2_10_5", 2); ("Ks2_Ic2_3_1", 2);
   ("Ks2_Ic2_5_3", 2); ("Ks2_Ic2_10_5", 2); ("Ks4_Ic2_3_1", 2); ("Ks4_Ic2_5_3", 2); ("Ks4_Ic2_10_5", 2);
   ("Ic2_Ks2_3_1", 2); ("Ic2_Ks2_5_3", 2); ("Ic2_Ks2_5_10", 2); ("Ic2_Ks4_3_1", 2); ("Ic2_Ks4_5_3", 2);
   ("Ic2_Ks4_10_5", 2)]
  [("Ks1_1", 1); ("Ks1_3", 1); ("Ks1_5", 1); ("Ks1_10", 1); ("Ks3_1", 1); ("Ks3_3", 1); ("Ks3_5", 1);
   ("Ks3_10", 1); ("Ic1_1", 1); ("Ic1_3", 1); ("Ic1_5", 1); ("Ic1_10", 1); ("Ks2_1", 1); ("Ks2_3", 1);
   ("Ks2_5", 1); ("Ks2_10", 1); ("Ks4_1", 1); ("Ks4_3", 1); ("Ks4_5", 1); ("Ks4_10", 1); ("Ic2_1", 1);
   ("Ic2_3", 1); ("Ic2_5", 1); ("Ic2_10", 1)]
  [("Ic2_10", 20)]
  (None) [("Ks1_1", 0); ("Ks3_1", 60); ("Ic1_1", 10); ("Ks2_10", 40); ("Ks4_10", 100); ("Ic2_10", 95)]
  [("Ks1_1", 0); ("Ks3_1", 60); ("Ic1_1", 30); ("Ks2_10", 40); ("Ks4_10", 100); ("Ic2_10", 95)]
  [("Ks1_5", (9 # 10)); ("Ks3_5", (9 # 10)); ("Ic1_5", (9 # 10)); ("Ks2_3", 1); ("Ks2_5", 1); ("Ic2_3", (3 #
   2))].
Definition wisla_d_max : Q := 10.

(** A solution of least objective *)
Definition wisla_best : assignment := Check.table
  [(("Delays", [PStr "Ic1"; PInt 5]), 6); (("z", [PStr "Ic1"; PStr "Ks2"; PInt 1; PInt 3]), 1); (("y", [PStr
   "Ks1"; PStr "Ic1"; PStr "one_station"; PInt 5]), 1); (("z", [PStr "Ks1"; PStr "Ic2"; PInt 1; PInt 3]), 1);
   (("z", [PStr "Ks3"; PStr "Ic2"; PInt 1; PInt 3]), 1); (("z", [PStr "Ic1"; PStr "Ks2"; PInt 3; PInt 5]), 1);
   (("z", [PStr "Ks3"; PStr "Ks4"; PInt 1; PInt 3]), 1); (("z", [PStr "Ks1"; PStr "Ic2"; PInt 3; PInt 5]), 1);
   (("z", [PStr "Ks3"; PStr "Ic2"; PInt 3; PInt 5]), 1); (("y", [PStr "Ks1"; PStr "Ks3"; PStr "one_station";
   PInt 1]), 1); (("z", [PStr "Ks3"; PStr "Ks4"; PInt 3; PInt 5]), 1); (("z", [PStr "Ks3"; PStr "Ic2"; PInt 5;
   PInt 10]), 1); (("z", [PStr "Ks1"; PStr "Ic2"; PInt 5; PInt 10]), 1); (("y", [PStr "Ks1"; PStr "Ic1"; PStr
   "one_station"; PInt 1]), 1); (("y", [PStr "Ks2"; PStr "Ks4"; PStr "one_station"; PInt 3]), 1); (("z", [PStr
   "Ic1"; PStr "Ks4"; PInt 1; PInt 3]), 1); (("z", [PStr "Ks3"; PStr "Ks4"; PInt 5; PInt 10]), 1); (("z",
   [PStr "Ic1"; PStr "Ks4"; PInt 3; PInt 5]), 1); (("y", [PStr "Ks1"; PStr "Ks3"; PStr "one_station"; PInt
   5]), 1); (("z", [PStr "Ks1"; PStr "Ks2"; PInt 3; PInt 5]), 1); (("y", [PStr "Ks2"; PStr "Ks4"; PStr
   "one_station"; PInt 5]), 1); (("z", [PStr "Ks1"; PStr "Ks4"; PInt 1; PInt 3]), 1); (("z", [PStr "Ic1"; PStr
   "Ks4"; PInt 5; PInt 10]), 1); (("y", [PStr "Ks1"; PStr "Ks3"; PStr "one_station"; PInt 3]), 1); (("z",
   [PStr "Ks1"; PStr "Ks2"; PInt 1; PInt 3]), 1); (("z", [PStr "Ks1"; PStr "Ks4"; PInt 5; PInt 10]), 1);
   (("z", [PStr "Ks1"; PStr "Ks4"; PInt 3; PInt 5]), 1); (("y", [PStr "Ks2"; PStr "Ic2"; PStr "one_station";
   PInt 5]), 1); (("z", [PStr "Ks1"; PStr "Ks2"; PInt 5; PInt 10]), 1); (("y", [PStr "Ks1"; PStr "Ic1"; PStr
   "one_station"; PInt 3]), 1); (("y", [PStr "Ks2"; PStr "Ic2"; PStr "one_station"; PInt 3]), 1)].

(** ... and why no solution has a smaller one *)
Definition wisla_certificate : certificate :=
  (Split ("z", [PStr "Ks1"; PStr "Ks4"; PInt 1; PInt 3])
    (Empty [(30%nat, 1); (69%nat, 1); (80%nat, 1)])
    (Split ("z", [PStr "Ks1"; PStr "Ic2"; PInt 1; PInt 3])
    (Empty [(31%nat, 1); (66%nat, 1); (69%nat, 1)])
    (Split ("z", [PStr "Ks1"; PStr "Ks4"; PInt 3; PInt 5])
    (Empty [(39%nat, 1); (89%nat, 1); (100%nat, 1)])
    (Split ("z", [PStr "Ks1"; PStr "Ic2"; PInt 3; PInt 5])
    (Empty [(40%nat, 1); (89%nat, 1); (104%nat, 1)])
    (Split ("z", [PStr "Ks1"; PStr "Ks4"; PInt 5; PInt 10])
    (Empty [(48%nat, 1); (57%nat, 1); (118%nat, 1)])
    (Split ("z", [PStr "Ic1"; PStr "Ks4"; PInt 1; PInt 3])
    (Empty [(37%nat, 1); (75%nat, 1); (80%nat, 1)])
    (Split ("z", [PStr "Ks1"; PStr "Ic2"; PInt 5; PInt 10])
    (Empty [(49%nat, 1); (57%nat, 1); (120%nat, 1)])
    (Split ("z", [PStr "Ic1"; PStr "Ks4"; PInt 3; PInt 5])
    (Empty [(46%nat, 1); (95%nat, 1); (100%nat, 1)])
    (Split ("z", [PStr "Ic1"; PStr "Ks4"; PInt 5; PInt 10])
    (Empty [(55%nat, 1); (61%nat, 1); (118%nat, 1)])
    (Split ("y", [PStr "Ks1"; PStr "Ks3"; PStr "one_station"; PInt 1])
    (Empty [(0%nat, 1); (17%nat, 1); (18%nat, 1); (57%nat, 1); (70%nat, 1)])
    (Split ("y", [PStr "Ks2"; PStr "Ks4"; PStr "one_station"; PInt 3])
    (Empty [(3%nat, 1); (65%nat, 1); (80%nat, 1)])
    (Split ("y", [PStr "Ks1"; PStr "Ks3"; PStr "one_station"; PInt 3])
    (Empty [(7%nat, 1); (18%nat, 1); (57%nat, 1); (90%nat, 1)])
    (Split ("y", [PStr "Ks2"; PStr "Ks4"; PStr "one_station"; PInt 5])
    (Empty [(10%nat, 1); (63%nat, 1); (100%nat, 1)])
    (Split ("y", [PStr "Ks1"; PStr "Ks3"; PStr "one_station"; PInt 5])
    (Empty [(14%nat, 1); (57%nat, 1); (58%nat, 1)])
    (Split ("z", [PStr "Ks1"; PStr "Ks2"; PInt 1; PInt 3])
    (Empty [(29%nat, 1); (64%nat, 1); (69%nat, 1)])
    (Split ("z", [PStr "Ks3"; PStr "Ks4"; PInt 1; PInt 3])
    (Empty [(34%nat, 1); (71%nat, 1); (80%nat, 1)])
    (Split ("y", [PStr "Ks2"; PStr "Ic2"; PStr "one_station"; PInt 5])
    (Empty [(11%nat, 1); (63%nat, 1); (104%nat, 1)])
    (Split ("y", [PStr "Ks2"; PStr "Ic2"; PStr "one_station"; PInt 3])
    (Empty [(4%nat, 1); (65%nat, 1); (66%nat, 1)])
    (Split ("z", [PStr "Ks3"; PStr "Ic2"; PInt 1; PInt 3])
    (Empty [(35%nat, 1); (66%nat, 1); (71%nat, 1)])
    (Split ("z", [PStr "Ks1"; PStr "Ks2"; PInt 3; PInt 5])
    (Empty [(38%nat, 1); (62%nat, 1); (89%nat, 1)])
    (Split ("z", [PStr "Ks3"; PStr "Ks4"; PInt 3; PInt 5])
    (Empty [(42%nat, 1); (91%nat, 1); (100%nat, 1)])
    (Split ("z", [PStr "Ks3"; PStr "Ic2"; PInt 3; PInt 5])
    (Empty [(43%nat, 1); (91%nat, 1); (104%nat, 1)])
    (Split ("z", [PStr "Ks3"; PStr "Ks2"; PInt 5; PInt 10])
    (Split ("y", [PStr "Ks3"; PStr "Ic1"; PStr "one_station"; PInt 5])
    (Split ("z", [PStr "Ks1"; PStr "Ks2"; PInt 5; PInt 10])
    (Empty [(47%nat, 1); (57%nat, 1); (116%nat, 1)])
    (Split ("z", [PStr "Ks3"; PStr "Ks4"; PInt 5; PInt 10])
    (Empty [(51%nat, 1); (59%nat, 1); (118%nat, 1)])
    (Split ("y", [PStr "Ks1"; PStr "Ic1"; PStr "one_station"; PInt 1])
    (Empty [(1%nat, 1); (17%nat, 1); (18%nat, 1); (57%nat, 1); (74%nat, 1)])
    (Split ("y", [PStr "Ks3"; PStr "Ic1"; PStr "one_station"; PInt 1])
    (Split ("y", [PStr "Ks1"; PStr "Ic1"; PStr "one_station"; PInt 3])
    (Empty [(8%nat, 1); (18%nat, 1); (57%nat, 1); (94%nat, 1)])
    (Split ("y", [PStr "Ks3"; PStr "Ic1"; PStr "one_station"; PInt 3])
    (Split ("y", [PStr "Ks1"; PStr "Ic1"; PStr "one_station"; PInt 5])
    (Empty [(15%nat, 1); (57%nat, 1); (60%nat, 1)])
    (Split ("z", [PStr "Ic1"; PStr "Ks2"; PInt 1; PInt 3])
    (Empty [(36%nat, 1); (64%nat, 1); (75%nat, 1)])
    (Split ("z", [PStr "Ks3"; PStr "Ic2"; PInt 5; PInt 10])
    (Empty [(52%nat, 1); (59%nat, 1); (120%nat, 1)])
    (Split ("z", [PStr "Ks3"; PStr "Ks2"; PInt 3; PInt 5])
    (Split ("z", [PStr "Ic1"; PStr "Ks2"; PInt 3; PInt 5])
    (Empty [(44%nat, 1); (62%nat, 1); (95%nat, 1)])
    (Split ("y", [PStr "Ks4"; PStr "Ic2"; PStr "one_station"; PInt 3])
    (Split ("z", [PStr "Ks3"; PStr "Ks2"; PInt 1; PInt 3])
    (Split ("y", [PStr "Ks4"; PStr "Ic2"; PStr "one_station"; PInt 5])
    (Split ("z", [PStr "Ic1"; PStr "Ks2"; PInt 5; PInt 10])
    (Bound [(53%nat, (9 # 100)); (56%nat, (9 # 100)); (58%nat, (9 # 100)); (62%nat, (1 # 10)); (64%nat, (1 #
   10)); (66%nat, (3 # 20)); (116%nat, (9 # 100))])
    (Bound [(19%nat, (9 # 100)); (20%nat, (9 # 100)); (23%nat, (29 # 100)); (24%nat, (19 # 100)); (32%nat, (9
   # 100)); (54%nat, (29 # 100)); (56%nat, (9 # 100)); (60%nat, (19 # 50)); (66%nat, (3 # 20))]))
    (Split ("z", [PStr "Ic1"; PStr "Ks2"; PInt 5; PInt 10])
    (Bound [(12%nat, (3 # 20)); (28%nat, (3 # 20)); (53%nat, (9 # 100)); (56%nat, (9 # 100)); (58%nat, (9 #
   100)); (62%nat, (1 # 10)); (64%nat, (1 # 10)); (100%nat, (3 # 20)); (116%nat, (9 # 100))])
    (Bound [(12%nat, (3 # 20)); (19%nat, (9 # 100)); (20%nat, (9 # 100)); (23%nat, (29 # 100)); (24%nat, (19 #
   100)); (28%nat, (3 # 20)); (32%nat, (9 # 100)); (54%nat, (29 # 100)); (56%nat, (9 # 100)); (60%nat, (19 #
   50)); (100%nat, (3 # 20))])))
    (Split ("y", [PStr "Ks4"; PStr "Ic2"; PStr "one_station"; PInt 5])
    (Split ("z", [PStr "Ic1"; PStr "Ks2"; PInt 5; PInt 10])
    (Bound [(33%nat, (1 # 10)); (53%nat, (9 # 100)); (56%nat, (9 # 100)); (58%nat, (9 # 100)); (62%nat, (1 #
   10)); (66%nat, (3 # 20)); (70%nat, (1 # 10)); (116%nat, (9 # 100))])
    (Bound [(23%nat, (1 # 10)); (33%nat, (1 # 10)); (54%nat, (1 # 10)); (56%nat, (9 # 100)); (58%nat, (9 #
   100)); (60%nat, (19 # 100)); (66%nat, (3 # 20)); (70%nat, (1 # 10))]))
    (Bound [(12%nat, (3 # 20)); (28%nat, (3 # 20)); (33%nat, (1 # 10)); (56%nat, (9 # 100)); (58%nat, (9 #
   100)); (60%nat, (9 # 100)); (62%nat, (1 # 10)); (70%nat, (1 # 10)); (100%nat, (3 # 20))])))
    (Split ("z", [PStr "Ks3"; PStr "Ks2"; PInt 1; PInt 3])
    (Split ("y", [PStr "Ks4"; PStr "Ic2"; PStr "one_station"; PInt 5])
    (Split ("z", [PStr "Ic1"; PStr "Ks2"; PInt 5; PInt 10])
    (Bound [(5%nat, (3 # 20)); (53%nat, (9 # 100)); (56%nat, (9 # 100)); (58%nat, (9 # 100)); (62%nat, (1 #
   10)); (64%nat, (1 # 10)); (80%nat, (3 # 20)); (116%nat, (9 # 100))])
    (Bound [(5%nat, (3 # 20)); (19%nat, (9 # 100)); (20%nat, (9 # 100)); (23%nat, (29 # 100)); (24%nat, (19 #
   100)); (32%nat, (9 # 100)); (54%nat, (29 # 100)); (56%nat, (9 # 100)); (60%nat, (19 # 50)); (80%nat, (3 #
   20))]))
    (Split ("z", [PStr "Ic1"; PStr "Ks2"; PInt 5; PInt 10])
    (Bound [(5%nat, (3 # 20)); (53%nat, (9 # 100)); (56%nat, (9 # 100)); (58%nat, (9 # 100)); (62%nat, (1 #
   10)); (64%nat, (1 # 10)); (80%nat, (3 # 20)); (116%nat, (9 # 100))])
    (Bound [(5%nat, (3 # 20)); (19%nat, (9 # 100)); (20%nat, (9 # 100)); (23%nat, (29 # 100)); (24%nat, (19 #
   100)); (32%nat, (9 # 100)); (54%nat, (29 # 100)); (56%nat, (9 # 100)); (60%nat, (19 # 50)); (80%nat, (3 #
   20))])))
    (Split ("y", [PStr "Ks4"; PStr "Ic2"; PStr "one_station"; PInt 5])
    (Split ("z", [PStr "Ic1"; PStr "Ks2"; PInt 5; PInt 10])
    (Bound [(5%nat, (3 # 20)); (33%nat, (1 # 10)); (53%nat, (9 # 100)); (56%nat, (9 # 100)); (58%nat, (9 #
   100)); (62%nat, (1 # 10)); (70%nat, (1 # 10)); (80%nat, (3 # 20)); (116%nat, (9 # 100))])
    (Bound [(5%nat, (3 # 20)); (23%nat, (1 # 10)); (33%nat, (1 # 10)); (54%nat, (1 # 10)); (56%nat, (9 #
   100)); (58%nat, (9 # 100)); (60%nat, (19 # 100)); (70%nat, (1 # 10)); (80%nat, (3 # 20))]))
    (Split ("z", [PStr "Ic1"; PStr "Ks2"; PInt 5; PInt 10])
    (Bound [(5%nat, (3 # 20)); (33%nat, (1 # 10)); (53%nat, (9 # 100)); (56%nat, (9 # 100)); (58%nat, (9 #
   100)); (62%nat, (1 # 10)); (70%nat, (1 # 10)); (80%nat, (3 # 20)); (116%nat, (9 # 100))])
    (Bound [(5%nat, (3 # 20)); (23%nat, (1 # 10)); (33%nat, (1 # 10)); (54%nat, (1 # 10)); (56%nat, (9 #
   100)); (58%nat, (9 # 100)); (60%nat, (19 # 100)); (70%nat, (1 # 10)); (80%nat, (3 # 20))]))))))
    (Empty [(41%nat, 1); (63%nat, 1); (90%nat, 1)])))))
    (Empty [(9%nat, 1); (22%nat, 1); (61%nat, 1); (90%nat, 1)])))
    (Empty [(2%nat, 1); (21%nat, 1); (22%nat, 1); (61%nat, 1); (70%nat, 1)])))))
    (Empty [(16%nat, 1); (58%nat, 1); (61%nat, 1)]))
    (Empty [(50%nat, 1); (58%nat, 1); (117%nat, 1)])))))))))))))))))))))))).

(** A solution in which Ic2 and Ks4 leave station 10 together *)
Definition wisla_together : assignment := Check.table
  [(("Delays", [PStr "Ic1"; PInt 5]), 6); (("Delays", [PStr "Ic2"; PInt 3]), 5); (("Delays", [PStr "Ks4"; PInt
   3]), 1); (("Delays", [PStr "Ks4"; PInt 5]), 1); (("Delays", [PStr "Ic2"; PInt 5]), 5); (("Delays", [PStr
   "Ic2"; PInt 10]), 5); (("z", [PStr "Ic1"; PStr "Ks2"; PInt 1; PInt 3]), 1); (("y", [PStr "Ks1"; PStr "Ic1";
   PStr "one_station"; PInt 5]), 1); (("z", [PStr "Ks1"; PStr "Ic2"; PInt 1; PInt 3]), 1); (("z", [PStr "Ks3";
   PStr "Ic2"; PInt 1; PInt 3]), 1); (("z", [PStr "Ic1"; PStr "Ks2"; PInt 3; PInt 5]), 1); (("z", [PStr "Ks3";
   PStr "Ks4"; PInt 1; PInt 3]), 1); (("z", [PStr "Ks1"; PStr "Ic2"; PInt 3; PInt 5]), 1); (("z", [PStr "Ks3";
   PStr "Ic2"; PInt 3; PInt 5]), 1); (("y", [PStr "Ks1"; PStr "Ks3"; PStr "one_station"; PInt 1]), 1); (("z",
   [PStr "Ks3"; PStr "Ks4"; PInt 3; PInt 5]), 1); (("z", [PStr "Ks3"; PStr "Ic2"; PInt 5; PInt 10]), 1);
   (("z", [PStr "Ks1"; PStr "Ic2"; PInt 5; PInt 10]), 1); (("y", [PStr "Ks1"; PStr "Ic1"; PStr "one_station";
   PInt 1]), 1); (("y", [PStr "Ks2"; PStr "Ks4"; PStr "one_station"; PInt 3]), 1); (("z", [PStr "Ic1"; PStr
   "Ks4"; PInt 1; PInt 3]), 1); (("z", [PStr "Ks3"; PStr "Ks4"; PInt 5; PInt 10]), 1); (("z", [PStr "Ic1";
   PStr "Ks4"; PInt 3; PInt 5]), 1); (("y", [PStr "Ks1"; PStr "Ks3"; PStr "one_station"; PInt 5]), 1); (("z",
   [PStr "Ks1"; PStr "Ks2"; PInt 3; PInt 5]), 1); (("y", [PStr "Ks2"; PStr "Ks4"; PStr "one_station"; PInt
   5]), 1); (("z", [PStr "Ks1"; PStr "Ks4"; PInt 1; PInt 3]), 1); (("z", [PStr "Ic1"; PStr "Ks4"; PInt 5; PInt
   10]), 1); (("y", [PStr "Ks1"; PStr "Ks3"; PStr "one_station"; PInt 3]), 1); (("z", [PStr "Ks1"; PStr "Ks2";
   PInt 1; PInt 3]), 1); (("z", [PStr "Ks1"; PStr "Ks4"; PInt 5; PInt 10]), 1); (("z", [PStr "Ks1"; PStr
   "Ks4"; PInt 3; PInt 5]), 1); (("y", [PStr "Ks2"; PStr "Ic2"; PStr "one_station"; PInt 5]), 1); (("z", [PStr
   "Ks1"; PStr "Ks2"; PInt 5; PInt 10]), 1); (("y", [PStr "Ks1"; PStr "Ic1"; PStr "one_station"; PInt 3]), 1);
   (("y", [PStr "Ks2"; PStr "Ic2"; PStr "one_station"; PInt 3]), 1)].

