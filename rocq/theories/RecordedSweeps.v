(** * RecordedSweeps: two solutions of the sweeps kept in the repository

    The best samples of the sweeps over the minimal time for cases 7 and 9 of solve_real_problem.py, copied by a script from
    solutions_quantum/cqm20_case7_Integer.pkl (fourth run) and cqm15_case9_Integer.pkl (fifth run): the variables that are not zero,
    with their values, and the recorded objectives times 40. *)

From Coq Require Import List String ZArith QArith.
From Verif Require Import Base Pulp.
Import ListNotations.
Open Scope string_scope.
Open Scope list_scope.

Definition sweep7 : list (vid * Q) :=
  [(("Delays", [PInt 26103; PStr "KO(STM)"]), 5);
   (("Delays", [PInt 343199; PStr "KO"]), 36);
   (("Delays", [PInt 40150; PStr "CB"]), 13);
   (("Delays", [PInt 40150; PStr "GLC"]), 13);
   (("Delays", [PInt 40150; PStr "KO"]), 17);
   (("Delays", [PInt 40150; PStr "KO(STM)"]), 18);
   (("Delays", [PInt 40150; PStr "KTC"]), 14);
   (("Delays", [PInt 40150; PStr "KZ"]), 18);
   (("Delays", [PInt 40477; PStr "KL"]), 12);
   (("Delays", [PInt 40477; PStr "KO"]), 11);
   (("Delays", [PInt 40477; PStr "KO(STM)"]), 36);
   (("Delays", [PInt 40477; PStr "Ty"]), 4);
   (("Delays", [PInt 40628; PStr "CB"]), 9);
   (("Delays", [PInt 40628; PStr "GLC"]), 8);
   (("Delays", [PInt 40628; PStr "KO"]), 9);
   (("Delays", [PInt 40628; PStr "KO(STM)"]), 9);
   (("Delays", [PInt 40628; PStr "KTC"]), 9);
   (("Delays", [PInt 40628; PStr "KZ"]), 9);
   (("Delays", [PInt 40673; PStr "CB"]), 22);
   (("Delays", [PInt 40673; PStr "KO"]), 13);
   (("Delays", [PInt 40673; PStr "KO(STM)"]), 10);
   (("Delays", [PInt 40673; PStr "KTC"]), 22);
   (("Delays", [PInt 40673; PStr "KZ"]), 4);
   (("Delays", [PInt 40675; PStr "CB"]), 23);
   (("Delays", [PInt 40675; PStr "KO"]), 9);
   (("Delays", [PInt 40675; PStr "KO(STM)"]), 8);
   (("Delays", [PInt 40675; PStr "KTC"]), 23);
   (("Delays", [PInt 40675; PStr "KZ"]), 1);
   (("Delays", [PInt 41004; PStr "KO"]), 1);
   (("Delays", [PInt 41004; PStr "KO(STM)"]), 3);
   (("Delays", [PInt 41004; PStr "KZ"]), 3);
   (("Delays", [PInt 4120; PStr "KL"]), 17);
   (("Delays", [PInt 4120; PStr "KO"]), 13);
   (("Delays", [PInt 4120; PStr "KO(STM)"]), 13);
   (("Delays", [PInt 4120; PStr "KZ"]), 13);
   (("Delays", [PInt 4120; PStr "Ty"]), 17);
   (("Delays", [PInt 421009; PStr "KO(IC)"]), 1);
   (("Delays", [PInt 421009; PStr "KO(STM)"]), 8);
   (("Delays", [PInt 44717; PStr "KL"]), 17);
   (("Delays", [PInt 44717; PStr "KO"]), 18);
   (("Delays", [PInt 44717; PStr "KO(STM)"]), 12);
   (("Delays", [PInt 44717; PStr "MJ"]), 16);
   (("Delays", [PInt 44717; PStr "Mi"]), 16);
   (("Delays", [PInt 4500; PStr "CB"]), 6);
   (("Delays", [PInt 4500; PStr "GLC"]), 3);
   (("Delays", [PInt 4500; PStr "KO"]), 6);
   (("Delays", [PInt 4500; PStr "KO(STM)"]), 6);
   (("Delays", [PInt 4500; PStr "KTC"]), 6);
   (("Delays", [PInt 4500; PStr "KZ"]), 6);
   (("Delays", [PInt 5312; PStr "CB"]), 13);
   (("Delays", [PInt 5312; PStr "GLC"]), 10);
   (("Delays", [PInt 5312; PStr "KO"]), 16);
   (("Delays", [PInt 5312; PStr "KO(STM)"]), 16);
   (("Delays", [PInt 5312; PStr "KTC"]), 16);
   (("Delays", [PInt 5312; PStr "KZ"]), 16);
   (("Delays", [PInt 541019; PStr "KO"]), 24);
   (("Delays", [PInt 541019; PStr "KO(STM)"]), 24);
   (("Delays", [PInt 64350; PStr "CB"]), 5);
   (("Delays", [PInt 64350; PStr "CM"]), 3);
   (("Delays", [PInt 64350; PStr "KO"]), 6);
   (("Delays", [PInt 64350; PStr "KO(STM)"]), 6);
   (("Delays", [PInt 64350; PStr "KTC"]), 5);
   (("Delays", [PInt 64350; PStr "KZ"]), 6);
   (("Delays", [PInt 73000; PStr "CB"]), 7);
   (("Delays", [PInt 73000; PStr "GLC"]), 7);
   (("Delays", [PInt 73000; PStr "KO"]), 8);
   (("Delays", [PInt 73000; PStr "KO(STM)"]), 8);
   (("Delays", [PInt 73000; PStr "KTC"]), 7);
   (("Delays", [PInt 73000; PStr "KZ"]), 8);
   (("Delays", [PInt 94113; PStr "KL"]), 13);
   (("Delays", [PInt 94113; PStr "KO"]), 13);
   (("Delays", [PInt 94113; PStr "KO(KS)"]), 7);
   (("Delays", [PInt 94113; PStr "Ty"]), 13);
   (("Delays", [PInt 94317; PStr "CB"]), 7);
   (("Delays", [PInt 94317; PStr "CM"]), 7);
   (("Delays", [PInt 94317; PStr "KO"]), 4);
   (("Delays", [PInt 94317; PStr "KO(STM)"]), 9);
   (("Delays", [PInt 94317; PStr "KTC"]), 7);
   (("Delays", [PInt 94611; PStr "KL"]), 10);
   (("Delays", [PInt 94611; PStr "KO(KS)"]), 1);
   (("Delays", [PInt 94611; PStr "Ty"]), 10);
   (("Delays", [PInt 94717; PStr "KL"]), 11);
   (("Delays", [PInt 94717; PStr "KO"]), 11);
   (("Delays", [PInt 94717; PStr "KO(STM)"]), 25);
   (("Delays", [PInt 94717; PStr "Ty"]), 10);
   (("Delays", [PInt 94766; PStr "KL"]), 1);
   (("Delays", [PInt 94766; PStr "KO"]), 1);
   (("y", [PInt 14006; PInt 40477; PStr "one_station"; PStr "KL"]), 1);
   (("y", [PInt 14006; PInt 40477; PStr "one_station"; PStr "KO"]), 1);
   (("y", [PInt 14006; PInt 40477; PStr "one_station"; PStr "KO(STM)"]), 1);
   (("y", [PInt 14006; PInt 40673; PStr "one_station"; PStr "KO"]), 1);
   (("y", [PInt 14006; PInt 40675; PStr "one_station"; PStr "KO"]), 1);
   (("y", [PInt 14006; PInt 40675; PStr "one_station"; PStr "KO(STM)"]), 1);
   (("y", [PInt 14006; PInt 40675; PStr "one_station"; PStr "KZ"]), 1);
   (("y", [PInt 14006; PInt 44717; PStr "one_station"; PStr "KL"]), 1);
   (("y", [PInt 14006; PInt 44717; PStr "one_station"; PStr "KO"]), 1);
   (("y", [PInt 14006; PInt 44717; PStr "one_station"; PStr "KO(STM)"]), 1);
   (("y", [PInt 14006; PInt 94113; PStr "one_station"; PStr "KL"]), 1);
   (("y", [PInt 14006; PInt 94113; PStr "one_station"; PStr "KO"]), 1);
   (("y", [PInt 14006; PInt 94317; PStr "one_station"; PStr "KO"]), 1);
   (("y", [PInt 14006; PInt 94317; PStr "one_station"; PStr "KO(STM)"]), 1);
   (("y", [PInt 14006; PInt 94317; PStr "one_station"; PStr "KZ"]), 1);
   (("y", [PInt 14006; PInt 94717; PStr "one_station"; PStr "KL"]), 1);
   (("y", [PInt 14006; PInt 94717; PStr "one_station"; PStr "KO"]), 1);
   (("y", [PInt 14006; PInt 94717; PStr "one_station"; PStr "KO(STM)"]), 1);
   (("y", [PInt 26103; PInt 14006; PStr "one_station"; PStr "KO"]), 1);
   (("y", [PInt 26103; PInt 14006; PStr "one_station"; PStr "KO(STM)"]), 1);
   (("y", [PInt 26103; PInt 14006; PStr "one_station"; PStr "KZ"]), 1);
   (("y", [PInt 26103; PInt 34319; PStr "one_station"; PStr "KO(STM)"]), 1);
   (("y", [PInt 26103; PInt 34319; PStr "one_station"; PStr "KZ"]), 1);
   (("y", [PInt 26103; PInt 40150; PStr "one_station"; PStr "CB"]), 1);
   (("y", [PInt 26103; PInt 40477; PStr "one_station"; PStr "KO"]), 1);
   (("y", [PInt 26103; PInt 40477; PStr "one_station"; PStr "KO(STM)"]), 1);
   (("y", [PInt 26103; PInt 40628; PStr "one_station"; PStr "CB"]), 1);
   (("y", [PInt 26103; PInt 40673; PStr "one_station"; PStr "CB"]), 1);
   (("y", [PInt 26103; PInt 40673; PStr "one_station"; PStr "KO"]), 1);
   (("y", [PInt 26103; PInt 40673; PStr "one_station"; PStr "KO(STM)"]), 1);
   (("y", [PInt 26103; PInt 40673; PStr "one_station"; PStr "KTC"]), 1);
   (("y", [PInt 26103; PInt 40673; PStr "one_station"; PStr "KZ"]), 1);
   (("y", [PInt 26103; PInt 40675; PStr "one_station"; PStr "CB"]), 1);
   (("y", [PInt 26103; PInt 40675; PStr "one_station"; PStr "KO"]), 1);
   (("y", [PInt 26103; PInt 40675; PStr "one_station"; PStr "KO(STM)"]), 1);
   (("y", [PInt 26103; PInt 40675; PStr "one_station"; PStr "KTC"]), 1);
   (("y", [PInt 26103; PInt 40675; PStr "one_station"; PStr "KZ"]), 1);
   (("y", [PInt 26103; PInt 44717; PStr "one_station"; PStr "KO(STM)"]), 1);
   (("y", [PInt 26103; PInt 4500; PStr "one_station"; PStr "CB"]), 1);
   (("y", [PInt 26103; PInt 5312; PStr "one_station"; PStr "CB"]), 1);
   (("y", [PInt 26103; PInt 54101; PStr "one_station"; PStr "KO(STM)"]), 1);
   (("y", [PInt 26103; PInt 54101; PStr "one_station"; PStr "KZ"]), 1);
   (("y", [PInt 26103; PInt 64350; PStr "one_station"; PStr "CB"]), 1);
   (("y", [PInt 26103; PInt 73000; PStr "one_station"; PStr "CB"]), 1);
   (("y", [PInt 26103; PInt 94317; PStr "one_station"; PStr "CB"]), 1);
   (("y", [PInt 26103; PInt 94317; PStr "one_station"; PStr "KO"]), 1);
   (("y", [PInt 26103; PInt 94317; PStr "one_station"; PStr "KO(STM)"]), 1);
   (("y", [PInt 26103; PInt 94317; PStr "one_station"; PStr "KTC"]), 1);
   (("y", [PInt 26103; PInt 94317; PStr "one_station"; PStr "KZ"]), 1);
   (("y", [PInt 26103; PInt 94717; PStr "one_station"; PStr "KO(STM)"]), 1);
   (("y", [PInt 343199; PInt 40628; PStr "one_station"; PStr "KO"]), 1);
   (("y", [PInt 343199; PInt 4120; PStr "one_station"; PStr "KO"]), 1);
   (("y", [PInt 343199; PInt 44862; PStr "one_station"; PStr "KO"]), 1);
   (("y", [PInt 343199; PInt 4500; PStr "one_station"; PStr "KO"]), 1);
   (("y", [PInt 343199; PInt 541019; PStr "one_station"; PStr "KO"]), 1);
   (("y", [PInt 343199; PInt 64350; PStr "one_station"; PStr "KO"]), 1);
   (("y", [PInt 343199; PInt 73000; PStr "one_station"; PStr "KO"]), 1);
   (("y", [PInt 34319; PInt 40150; PStr "one_station"; PStr "KO(STM)"]), 1);
   (("y", [PInt 34319; PInt 40628; PStr "one_station"; PStr "KO(STM)"]), 1);
   (("y", [PInt 34319; PInt 40675; PStr "one_station"; PStr "KO(STM)"]), 1);
   (("y", [PInt 34319; PInt 40675; PStr "one_station"; PStr "KZ"]), 1);
   (("y", [PInt 34319; PInt 4120; PStr "one_station"; PStr "KO(STM)"]), 1);
   (("y", [PInt 34319; PInt 4500; PStr "one_station"; PStr "KO(STM)"]), 1);
   (("y", [PInt 34319; PInt 541019; PStr "one_station"; PStr "KO(STM)"]), 1);
   (("y", [PInt 34319; PInt 64350; PStr "one_station"; PStr "KO"]), 1);
   (("y", [PInt 34319; PInt 73000; PStr "one_station"; PStr "KO(STM)"]), 1);
   (("y", [PInt 34319; PInt 94317; PStr "one_station"; PStr "KO(STM)"]), 1);
   (("y", [PInt 34319; PInt 94717; PStr "one_station"; PStr "KO(STM)"]), 1);
   (("y", [PInt 40150; PInt 40628; PStr "one_station"; PStr "CB"]), 1);
   (("y", [PInt 40150; PInt 40628; PStr "one_station"; PStr "GLC"]), 1);
   (("y", [PInt 40150; PInt 40628; PStr "one_station"; PStr "KO"]), 1);
   (("y", [PInt 40150; PInt 40628; PStr "one_station"; PStr "KO(STM)"]), 1);
   (("y", [PInt 40150; PInt 40628; PStr "one_station"; PStr "KTC"]), 1);
   (("y", [PInt 40150; PInt 40628; PStr "one_station"; PStr "KZ"]), 1);
   (("y", [PInt 40150; PInt 40673; PStr "one_station"; PStr "CB"]), 1);
   (("y", [PInt 40150; PInt 40675; PStr "one_station"; PStr "CB"]), 1);
   (("y", [PInt 40150; PInt 4120; PStr "one_station"; PStr "KO"]), 1);
   (("y", [PInt 40150; PInt 4120; PStr "one_station"; PStr "KO(STM)"]), 1);
   (("y", [PInt 40150; PInt 4120; PStr "one_station"; PStr "KZ"]), 1);
   (("y", [PInt 40150; PInt 44862; PStr "one_station"; PStr "KO"]), 1);
   (("y", [PInt 40150; PInt 4500; PStr "one_station"; PStr "CB"]), 1);
   (("y", [PInt 40150; PInt 4500; PStr "one_station"; PStr "GLC"]), 1);
   (("y", [PInt 40150; PInt 4500; PStr "one_station"; PStr "KO"]), 1);
   (("y", [PInt 40150; PInt 4500; PStr "one_station"; PStr "KO(STM)"]), 1);
   (("y", [PInt 40150; PInt 4500; PStr "one_station"; PStr "KTC"]), 1);
   (("y", [PInt 40150; PInt 4500; PStr "one_station"; PStr "KZ"]), 1);
   (("y", [PInt 40150; PInt 541019; PStr "one_station"; PStr "KO"]), 1);
   (("y", [PInt 40150; PInt 541019; PStr "one_station"; PStr "KO(STM)"]), 1);
   (("y", [PInt 40150; PInt 64350; PStr "one_station"; PStr "CB"]), 1);
   (("y", [PInt 40150; PInt 64350; PStr "one_station"; PStr "KO"]), 1);
   (("y", [PInt 40150; PInt 64350; PStr "one_station"; PStr "KO(STM)"]), 1);
   (("y", [PInt 40150; PInt 64350; PStr "one_station"; PStr "KTC"]), 1);
   (("y", [PInt 40150; PInt 73000; PStr "one_station"; PStr "CB"]), 1);
   (("y", [PInt 40150; PInt 73000; PStr "one_station"; PStr "GLC"]), 1);
   (("y", [PInt 40150; PInt 73000; PStr "one_station"; PStr "KO"]), 1);
   (("y", [PInt 40150; PInt 73000; PStr "one_station"; PStr "KO(STM)"]), 1);
   (("y", [PInt 40150; PInt 73000; PStr "one_station"; PStr "KTC"]), 1);
   (("y", [PInt 40150; PInt 94317; PStr "one_station"; PStr "CB"]), 1);
   (("y", [PInt 40477; PInt 40675; PStr "one_station"; PStr "KO"]), 1);
   (("y", [PInt 40477; PInt 40675; PStr "one_station"; PStr "KO(STM)"]), 1);
   (("y", [PInt 40477; PInt 44717; PStr "one_station"; PStr "KL"]), 1);
   (("y", [PInt 40477; PInt 44717; PStr "one_station"; PStr "KO"]), 1);
   (("y", [PInt 40477; PInt 44717; PStr "one_station"; PStr "KO(STM)"]), 1);
   (("y", [PInt 40477; PInt 94317; PStr "one_station"; PStr "KO"]), 1);
   (("y", [PInt 40477; PInt 94317; PStr "one_station"; PStr "KO(STM)"]), 1);
   (("y", [PInt 40477; PInt 94717; PStr "one_station"; PStr "KL"]), 1);
   (("y", [PInt 40477; PInt 94717; PStr "one_station"; PStr "KO"]), 1);
   (("y", [PInt 40477; PInt 94717; PStr "one_station"; PStr "KO(STM)"]), 1);
   (("y", [PInt 40477; PInt 94717; PStr "one_station"; PStr "Ty"]), 1);
   (("y", [PInt 40518; PInt 343199; PStr "one_station"; PStr "KO"]), 1);
   (("y", [PInt 40518; PInt 40150; PStr "one_station"; PStr "KO"]), 1);
   (("y", [PInt 40518; PInt 40628; PStr "one_station"; PStr "KO"]), 1);
   (("y", [PInt 40518; PInt 41004; PStr "one_station"; PStr "KL"]), 1);
   (("y", [PInt 40518; PInt 41004; PStr "one_station"; PStr "KO"]), 1);
   (("y", [PInt 40518; PInt 41004; PStr "one_station"; PStr "Ty"]), 1);
   (("y", [PInt 40518; PInt 4120; PStr "one_station"; PStr "KL"]), 1);
   (("y", [PInt 40518; PInt 4120; PStr "one_station"; PStr "KO"]), 1);
   (("y", [PInt 40518; PInt 4120; PStr "one_station"; PStr "Ty"]), 1);
   (("y", [PInt 40518; PInt 44717; PStr "one_station"; PStr "KL"]), 1);
   (("y", [PInt 40518; PInt 44862; PStr "one_station"; PStr "KL"]), 1);
   (("y", [PInt 40518; PInt 44862; PStr "one_station"; PStr "KO"]), 1);
   (("y", [PInt 40518; PInt 4500; PStr "one_station"; PStr "KO"]), 1);
   (("y", [PInt 40518; PInt 541019; PStr "one_station"; PStr "KO"]), 1);
   (("y", [PInt 40518; PInt 64350; PStr "one_station"; PStr "KO"]), 1);
   (("y", [PInt 40518; PInt 73000; PStr "one_station"; PStr "KO"]), 1);
   (("y", [PInt 40628; PInt 40675; PStr "one_station"; PStr "CB"]), 1);
   (("y", [PInt 40628; PInt 4120; PStr "one_station"; PStr "KO"]), 1);
   (("y", [PInt 40628; PInt 4120; PStr "one_station"; PStr "KO(STM)"]), 1);
   (("y", [PInt 40628; PInt 4120; PStr "one_station"; PStr "KZ"]), 1);
   (("y", [PInt 40628; PInt 73000; PStr "one_station"; PStr "CB"]), 1);
   (("y", [PInt 40628; PInt 73000; PStr "one_station"; PStr "GLC"]), 1);
   (("y", [PInt 40628; PInt 73000; PStr "one_station"; PStr "KO"]), 1);
   (("y", [PInt 40628; PInt 73000; PStr "one_station"; PStr "KO(STM)"]), 1);
   (("y", [PInt 40628; PInt 73000; PStr "one_station"; PStr "KTC"]), 1);
   (("y", [PInt 40673; PInt 40477; PStr "one_station"; PStr "KO(STM)"]), 1);
   (("y", [PInt 40673; PInt 40675; PStr "one_station"; PStr "CB"]), 1);
   (("y", [PInt 40673; PInt 40675; PStr "one_station"; PStr "KO"]), 1);
   (("y", [PInt 40673; PInt 40675; PStr "one_station"; PStr "KO(STM)"]), 1);
   (("y", [PInt 40673; PInt 40675; PStr "one_station"; PStr "KTC"]), 1);
   (("y", [PInt 40673; PInt 40675; PStr "one_station"; PStr "KZ"]), 1);
   (("y", [PInt 40673; PInt 44717; PStr "one_station"; PStr "KO(STM)"]), 1);
   (("y", [PInt 40673; PInt 54101; PStr "one_station"; PStr "KZ"]), 1);
   (("y", [PInt 40673; PInt 73000; PStr "one_station"; PStr "CB"]), 1);
   (("y", [PInt 40673; PInt 94317; PStr "one_station"; PStr "CB"]), 1);
   (("y", [PInt 40673; PInt 94317; PStr "one_station"; PStr "KO"]), 1);
   (("y", [PInt 40673; PInt 94317; PStr "one_station"; PStr "KO(STM)"]), 1);
   (("y", [PInt 40673; PInt 94317; PStr "one_station"; PStr "KTC"]), 1);
   (("y", [PInt 40673; PInt 94317; PStr "one_station"; PStr "KZ"]), 1);
   (("y", [PInt 40673; PInt 94717; PStr "one_station"; PStr "KO(STM)"]), 1);
   (("y", [PInt 41004; PInt 40628; PStr "one_station"; PStr "KO"]), 1);
   (("y", [PInt 41004; PInt 40628; PStr "one_station"; PStr "KO(STM)"]), 1);
   (("y", [PInt 41004; PInt 40628; PStr "one_station"; PStr "KZ"]), 1);
   (("y", [PInt 41004; PInt 4120; PStr "one_station"; PStr "KL"]), 1);
   (("y", [PInt 41004; PInt 4120; PStr "one_station"; PStr "KO"]), 1);
   (("y", [PInt 41004; PInt 4120; PStr "one_station"; PStr "KO(STM)"]), 1);
   (("y", [PInt 41004; PInt 4120; PStr "one_station"; PStr "KZ"]), 1);
   (("y", [PInt 41004; PInt 4120; PStr "one_station"; PStr "Ty"]), 1);
   (("y", [PInt 41004; PInt 44717; PStr "one_station"; PStr "KL"]), 1);
   (("y", [PInt 41004; PInt 44862; PStr "one_station"; PStr "KL"]), 1);
   (("y", [PInt 41004; PInt 44862; PStr "one_station"; PStr "KO"]), 1);
   (("y", [PInt 41004; PInt 4500; PStr "one_station"; PStr "KO"]), 1);
   (("y", [PInt 41004; PInt 4500; PStr "one_station"; PStr "KO(STM)"]), 1);
   (("y", [PInt 41004; PInt 4500; PStr "one_station"; PStr "KZ"]), 1);
   (("y", [PInt 41004; PInt 541019; PStr "one_station"; PStr "KO"]), 1);
   (("y", [PInt 41004; PInt 541019; PStr "one_station"; PStr "KO(STM)"]), 1);
   (("y", [PInt 41004; PInt 64350; PStr "one_station"; PStr "KO"]), 1);
   (("y", [PInt 41004; PInt 64350; PStr "one_station"; PStr "KO(STM)"]), 1);
   (("y", [PInt 41004; PInt 73000; PStr "one_station"; PStr "KO"]), 1);
   (("y", [PInt 41004; PInt 73000; PStr "one_station"; PStr "KO(STM)"]), 1);
   (("y", [PInt 421009; PInt 14006; PStr "one_station"; PStr "KO(STM)"]), 1);
   (("y", [PInt 421009; PInt 34319; PStr "one_station"; PStr "KO(STM)"]), 1);
   (("y", [PInt 421009; PInt 40150; PStr "one_station"; PStr "KO(STM)"]), 1);
   (("y", [PInt 421009; PInt 40477; PStr "one_station"; PStr "KO(STM)"]), 1);
   (("y", [PInt 421009; PInt 40628; PStr "one_station"; PStr "KO"]), 1);
   (("y", [PInt 421009; PInt 40628; PStr "one_station"; PStr "KO(STM)"]), 1);
   (("y", [PInt 421009; PInt 40673; PStr "one_station"; PStr "KO(STM)"]), 1);
   (("y", [PInt 421009; PInt 40675; PStr "one_station"; PStr "KO(STM)"]), 1);
   (("y", [PInt 421009; PInt 4120; PStr "one_station"; PStr "KO(STM)"]), 1);
   (("y", [PInt 421009; PInt 44717; PStr "one_station"; PStr "KO(STM)"]), 1);
   (("y", [PInt 421009; PInt 4500; PStr "one_station"; PStr "KO"]), 1);
   (("y", [PInt 421009; PInt 4500; PStr "one_station"; PStr "KO(STM)"]), 1);
   (("y", [PInt 421009; PInt 5312; PStr "one_station"; PStr "KO(STM)"]), 1);
   (("y", [PInt 421009; PInt 541019; PStr "one_station"; PStr "KO(STM)"]), 1);
   (("y", [PInt 421009; PInt 54101; PStr "one_station"; PStr "KO(STM)"]), 1);
   (("y", [PInt 421009; PInt 73000; PStr "one_station"; PStr "KO(STM)"]), 1);
   (("y", [PInt 421009; PInt 94317; PStr "one_station"; PStr "KO(STM)"]), 1);
   (("y", [PInt 421009; PInt 94717; PStr "one_station"; PStr "KO(STM)"]), 1);
   (("y", [PInt 42100; PInt 343199; PStr "one_station"; PStr "KO"]), 1);
   (("y", [PInt 42100; PInt 34319; PStr "one_station"; PStr "KO(STM)"]), 1);
   (("y", [PInt 42100; PInt 40150; PStr "one_station"; PStr "KO"]), 1);
   (("y", [PInt 42100; PInt 40150; PStr "one_station"; PStr "KO(STM)"]), 1);
   (("y", [PInt 42100; PInt 40150; PStr "one_station"; PStr "KZ"]), 1);
   (("y", [PInt 42100; PInt 40518; PStr "one_station"; PStr "KO"]), 1);
   (("y", [PInt 42100; PInt 40628; PStr "one_station"; PStr "KO"]), 1);
   (("y", [PInt 42100; PInt 40628; PStr "one_station"; PStr "KO(STM)"]), 1);
   (("y", [PInt 42100; PInt 40628; PStr "one_station"; PStr "KZ"]), 1);
   (("y", [PInt 42100; PInt 41004; PStr "one_station"; PStr "KO"]), 1);
   (("y", [PInt 42100; PInt 41004; PStr "one_station"; PStr "KO(STM)"]), 1);
   (("y", [PInt 42100; PInt 41004; PStr "one_station"; PStr "KZ"]), 1);
   (("y", [PInt 42100; PInt 4120; PStr "one_station"; PStr "KO"]), 1);
   (("y", [PInt 42100; PInt 4120; PStr "one_station"; PStr "KO(STM)"]), 1);
   (("y", [PInt 42100; PInt 4120; PStr "one_station"; PStr "KZ"]), 1);
   (("y", [PInt 42100; PInt 44862; PStr "one_station"; PStr "KO"]), 1);
   (("y", [PInt 42100; PInt 4500; PStr "one_station"; PStr "KO"]), 1);
   (("y", [PInt 42100; PInt 4500; PStr "one_station"; PStr "KO(STM)"]), 1);
   (("y", [PInt 42100; PInt 4500; PStr "one_station"; PStr "KZ"]), 1);
   (("y", [PInt 42100; PInt 5312; PStr "one_station"; PStr "KO"]), 1);
   (("y", [PInt 42100; PInt 5312; PStr "one_station"; PStr "KO(STM)"]), 1);
   (("y", [PInt 42100; PInt 541019; PStr "one_station"; PStr "KO"]), 1);
   (("y", [PInt 42100; PInt 541019; PStr "one_station"; PStr "KO(STM)"]), 1);
   (("y", [PInt 42100; PInt 54101; PStr "one_station"; PStr "KO(STM)"]), 1);
   (("y", [PInt 42100; PInt 64350; PStr "one_station"; PStr "KO"]), 1);
   (("y", [PInt 42100; PInt 64350; PStr "one_station"; PStr "KO(STM)"]), 1);
   (("y", [PInt 42100; PInt 73000; PStr "one_station"; PStr "KO"]), 1);
   (("y", [PInt 42100; PInt 73000; PStr "one_station"; PStr "KO(STM)"]), 1);
   (("y", [PInt 44717; PInt 40675; PStr "one_station"; PStr "KO(STM)"]), 1);
   (("y", [PInt 44717; PInt 4120; PStr "one_station"; PStr "KL"]), 1);
   (("y", [PInt 44717; PInt 94717; PStr "one_station"; PStr "KL"]), 1);
   (("y", [PInt 44717; PInt 94717; PStr "one_station"; PStr "KO"]), 1);
   (("y", [PInt 44717; PInt 94717; PStr "one_station"; PStr "KO(STM)"]), 1);
   (("y", [PInt 44862; PInt 40628; PStr "one_station"; PStr "KO"]), 1);
   (("y", [PInt 44862; PInt 4120; PStr "one_station"; PStr "KL"]), 1);
   (("y", [PInt 44862; PInt 4120; PStr "one_station"; PStr "KO"]), 1);
   (("y", [PInt 44862; PInt 73000; PStr "one_station"; PStr "KO"]), 1);
   (("y", [PInt 4500; PInt 40628; PStr "one_station"; PStr "CB"]), 1);
   (("y", [PInt 4500; PInt 40628; PStr "one_station"; PStr "GLC"]), 1);
   (("y", [PInt 4500; PInt 40628; PStr "one_station"; PStr "KO"]), 1);
   (("y", [PInt 4500; PInt 40628; PStr "one_station"; PStr "KO(STM)"]), 1);
   (("y", [PInt 4500; PInt 40628; PStr "one_station"; PStr "KTC"]), 1);
   (("y", [PInt 4500; PInt 40628; PStr "one_station"; PStr "KZ"]), 1);
   (("y", [PInt 4500; PInt 40675; PStr "one_station"; PStr "CB"]), 1);
   (("y", [PInt 4500; PInt 4120; PStr "one_station"; PStr "KO"]), 1);
   (("y", [PInt 4500; PInt 4120; PStr "one_station"; PStr "KO(STM)"]), 1);
   (("y", [PInt 4500; PInt 4120; PStr "one_station"; PStr "KZ"]), 1);
   (("y", [PInt 4500; PInt 44862; PStr "one_station"; PStr "KO"]), 1);
   (("y", [PInt 4500; PInt 73000; PStr "one_station"; PStr "CB"]), 1);
   (("y", [PInt 4500; PInt 73000; PStr "one_station"; PStr "GLC"]), 1);
   (("y", [PInt 4500; PInt 73000; PStr "one_station"; PStr "KO"]), 1);
   (("y", [PInt 4500; PInt 73000; PStr "one_station"; PStr "KO(STM)"]), 1);
   (("y", [PInt 4500; PInt 73000; PStr "one_station"; PStr "KTC"]), 1);
   (("y", [PInt 4500; PInt 94317; PStr "one_station"; PStr "CB"]), 1);
   (("y", [PInt 5312; PInt 343199; PStr "one_station"; PStr "KO"]), 1);
   (("y", [PInt 5312; PInt 40628; PStr "one_station"; PStr "CB"]), 1);
   (("y", [PInt 5312; PInt 40628; PStr "one_station"; PStr "GLC"]), 1);
   (("y", [PInt 5312; PInt 40628; PStr "one_station"; PStr "KO"]), 1);
   (("y", [PInt 5312; PInt 40628; PStr "one_station"; PStr "KO(STM)"]), 1);
   (("y", [PInt 5312; PInt 40628; PStr "one_station"; PStr "KTC"]), 1);
   (("y", [PInt 5312; PInt 40673; PStr "one_station"; PStr "CB"]), 1);
   (("y", [PInt 5312; PInt 40675; PStr "one_station"; PStr "CB"]), 1);
   (("y", [PInt 5312; PInt 4120; PStr "one_station"; PStr "KO"]), 1);
   (("y", [PInt 5312; PInt 4120; PStr "one_station"; PStr "KO(STM)"]), 1);
   (("y", [PInt 5312; PInt 44862; PStr "one_station"; PStr "KO"]), 1);
   (("y", [PInt 5312; PInt 4500; PStr "one_station"; PStr "CB"]), 1);
   (("y", [PInt 5312; PInt 4500; PStr "one_station"; PStr "GLC"]), 1);
   (("y", [PInt 5312; PInt 4500; PStr "one_station"; PStr "KO"]), 1);
   (("y", [PInt 5312; PInt 4500; PStr "one_station"; PStr "KO(STM)"]), 1);
   (("y", [PInt 5312; PInt 4500; PStr "one_station"; PStr "KTC"]), 1);
   (("y", [PInt 5312; PInt 541019; PStr "one_station"; PStr "KO"]), 1);
   (("y", [PInt 5312; PInt 541019; PStr "one_station"; PStr "KO(STM)"]), 1);
   (("y", [PInt 5312; PInt 64350; PStr "one_station"; PStr "CB"]), 1);
   (("y", [PInt 5312; PInt 64350; PStr "one_station"; PStr "KO"]), 1);
   (("y", [PInt 5312; PInt 64350; PStr "one_station"; PStr "KO(STM)"]), 1);
   (("y", [PInt 5312; PInt 64350; PStr "one_station"; PStr "KTC"]), 1);
   (("y", [PInt 5312; PInt 64350; PStr "one_station"; PStr "KZ"]), 1);
   (("y", [PInt 5312; PInt 73000; PStr "one_station"; PStr "CB"]), 1);
   (("y", [PInt 5312; PInt 73000; PStr "one_station"; PStr "GLC"]), 1);
   (("y", [PInt 5312; PInt 73000; PStr "one_station"; PStr "KO"]), 1);
   (("y", [PInt 5312; PInt 73000; PStr "one_station"; PStr "KO(STM)"]), 1);
   (("y", [PInt 5312; PInt 73000; PStr "one_station"; PStr "KTC"]), 1);
   (("y", [PInt 5312; PInt 73000; PStr "one_station"; PStr "KZ"]), 1);
   (("y", [PInt 5312; PInt 94317; PStr "one_station"; PStr "CB"]), 1);
   (("y", [PInt 541019; PInt 40628; PStr "one_station"; PStr "KO"]), 1);
   (("y", [PInt 541019; PInt 40628; PStr "one_station"; PStr "KO(STM)"]), 1);
   (("y", [PInt 541019; PInt 4120; PStr "one_station"; PStr "KO"]), 1);
   (("y", [PInt 541019; PInt 4120; PStr "one_station"; PStr "KO(STM)"]), 1);
   (("y", [PInt 541019; PInt 44862; PStr "one_station"; PStr "KO"]), 1);
   (("y", [PInt 541019; PInt 4500; PStr "one_station"; PStr "KO"]), 1);
   (("y", [PInt 541019; PInt 4500; PStr "one_station"; PStr "KO(STM)"]), 1);
   (("y", [PInt 541019; PInt 73000; PStr "one_station"; PStr "KO"]), 1);
   (("y", [PInt 541019; PInt 73000; PStr "one_station"; PStr "KO(STM)"]), 1);
   (("y", [PInt 54101; PInt 40477; PStr "one_station"; PStr "KO(STM)"]), 1);
   (("y", [PInt 54101; PInt 40628; PStr "one_station"; PStr "KO"]), 1);
   (("y", [PInt 54101; PInt 40628; PStr "one_station"; PStr "KO(STM)"]), 1);
   (("y", [PInt 54101; PInt 40675; PStr "one_station"; PStr "KO(STM)"]), 1);
   (("y", [PInt 54101; PInt 40675; PStr "one_station"; PStr "KZ"]), 1);
   (("y", [PInt 54101; PInt 4120; PStr "one_station"; PStr "KO(STM)"]), 1);
   (("y", [PInt 54101; PInt 44717; PStr "one_station"; PStr "KO(STM)"]), 1);
   (("y", [PInt 54101; PInt 4500; PStr "one_station"; PStr "KO"]), 1);
   (("y", [PInt 54101; PInt 4500; PStr "one_station"; PStr "KO(STM)"]), 1);
   (("y", [PInt 54101; PInt 73000; PStr "one_station"; PStr "KO(STM)"]), 1);
   (("y", [PInt 54101; PInt 94317; PStr "one_station"; PStr "KO(STM)"]), 1);
   (("y", [PInt 54101; PInt 94317; PStr "one_station"; PStr "KZ"]), 1);
   (("y", [PInt 54101; PInt 94717; PStr "one_station"; PStr "KO(STM)"]), 1);
   (("y", [PInt 64350; PInt 40628; PStr "one_station"; PStr "CB"]), 1);
   (("y", [PInt 64350; PInt 40628; PStr "one_station"; PStr "KO"]), 1);
   (("y", [PInt 64350; PInt 40628; PStr "one_station"; PStr "KO(STM)"]), 1);
   (("y", [PInt 64350; PInt 40628; PStr "one_station"; PStr "KTC"]), 1);
   (("y", [PInt 64350; PInt 40675; PStr "one_station"; PStr "CB"]), 1);
   (("y", [PInt 64350; PInt 4120; PStr "one_station"; PStr "KO"]), 1);
   (("y", [PInt 64350; PInt 4120; PStr "one_station"; PStr "KO(STM)"]), 1);
   (("y", [PInt 64350; PInt 44862; PStr "one_station"; PStr "KO"]), 1);
   (("y", [PInt 64350; PInt 73000; PStr "one_station"; PStr "CB"]), 1);
   (("y", [PInt 64350; PInt 73000; PStr "one_station"; PStr "KO"]), 1);
   (("y", [PInt 64350; PInt 73000; PStr "one_station"; PStr "KO(STM)"]), 1);
   (("y", [PInt 64350; PInt 73000; PStr "one_station"; PStr "KTC"]), 1);
   (("y", [PInt 64350; PInt 73000; PStr "one_station"; PStr "KZ"]), 1);
   (("y", [PInt 94113; PInt 40477; PStr "one_station"; PStr "KL"]), 1);
   (("y", [PInt 94113; PInt 40477; PStr "one_station"; PStr "KO"]), 1);
   (("y", [PInt 94113; PInt 40477; PStr "one_station"; PStr "Ty"]), 1);
   (("y", [PInt 94113; PInt 44717; PStr "one_station"; PStr "KL"]), 1);
   (("y", [PInt 94113; PInt 44717; PStr "one_station"; PStr "KO"]), 1);
   (("y", [PInt 94113; PInt 94717; PStr "one_station"; PStr "KL"]), 1);
   (("y", [PInt 94113; PInt 94717; PStr "one_station"; PStr "KO"]), 1);
   (("y", [PInt 94113; PInt 94717; PStr "one_station"; PStr "Ty"]), 1);
   (("y", [PInt 94317; PInt 40675; PStr "one_station"; PStr "CB"]), 1);
   (("y", [PInt 94317; PInt 40675; PStr "one_station"; PStr "KO"]), 1);
   (("y", [PInt 94317; PInt 40675; PStr "one_station"; PStr "KO(STM)"]), 1);
   (("y", [PInt 94317; PInt 40675; PStr "one_station"; PStr "KTC"]), 1);
   (("y", [PInt 94317; PInt 40675; PStr "one_station"; PStr "KZ"]), 1);
   (("y", [PInt 94317; PInt 73000; PStr "one_station"; PStr "CB"]), 1);
   (("y", [PInt 94317; PInt 94717; PStr "one_station"; PStr "KO(STM)"]), 1);
   (("y", [PInt 94611; PInt 40477; PStr "one_station"; PStr "KL"]), 1);
   (("y", [PInt 94611; PInt 40477; PStr "one_station"; PStr "KO"]), 1);
   (("y", [PInt 94611; PInt 40477; PStr "one_station"; PStr "Ty"]), 1);
   (("y", [PInt 94611; PInt 44717; PStr "one_station"; PStr "KL"]), 1);
   (("y", [PInt 94611; PInt 44717; PStr "one_station"; PStr "KO"]), 1);
   (("y", [PInt 94611; PInt 94113; PStr "one_station"; PStr "KL"]), 1);
   (("y", [PInt 94611; PInt 94113; PStr "one_station"; PStr "KO"]), 1);
   (("y", [PInt 94611; PInt 94113; PStr "one_station"; PStr "KO(KS)"]), 1);
   (("y", [PInt 94611; PInt 94113; PStr "one_station"; PStr "Ty"]), 1);
   (("y", [PInt 94611; PInt 94717; PStr "one_station"; PStr "KL"]), 1);
   (("y", [PInt 94611; PInt 94717; PStr "one_station"; PStr "KO"]), 1);
   (("y", [PInt 94611; PInt 94717; PStr "one_station"; PStr "Ty"]), 1);
   (("y", [PInt 94766; PInt 343199; PStr "one_station"; PStr "KO"]), 1);
   (("y", [PInt 94766; PInt 40150; PStr "one_station"; PStr "KO"]), 1);
   (("y", [PInt 94766; PInt 40628; PStr "one_station"; PStr "KO"]), 1);
   (("y", [PInt 94766; PInt 41004; PStr "one_station"; PStr "KL"]), 1);
   (("y", [PInt 94766; PInt 41004; PStr "one_station"; PStr "KO"]), 1);
   (("y", [PInt 94766; PInt 41004; PStr "one_station"; PStr "Ty"]), 1);
   (("y", [PInt 94766; PInt 4120; PStr "one_station"; PStr "KL"]), 1);
   (("y", [PInt 94766; PInt 4120; PStr "one_station"; PStr "KO"]), 1);
   (("y", [PInt 94766; PInt 4120; PStr "one_station"; PStr "Ty"]), 1);
   (("y", [PInt 94766; PInt 44717; PStr "one_station"; PStr "KL"]), 1);
   (("y", [PInt 94766; PInt 44862; PStr "one_station"; PStr "KL"]), 1);
   (("y", [PInt 94766; PInt 44862; PStr "one_station"; PStr "KO"]), 1);
   (("y", [PInt 94766; PInt 4500; PStr "one_station"; PStr "KO"]), 1);
   (("y", [PInt 94766; PInt 5312; PStr "one_station"; PStr "KO"]), 1);
   (("y", [PInt 94766; PInt 541019; PStr "one_station"; PStr "KO"]), 1);
   (("y", [PInt 94766; PInt 64350; PStr "one_station"; PStr "KO"]), 1);
   (("y", [PInt 94766; PInt 73000; PStr "one_station"; PStr "KO"]), 1);
   (("z", [PInt 14006; PInt 40150; PStr "KO"; PStr "KTC"]), 1);
   (("z", [PInt 14006; PInt 40150; PStr "KZ"; PStr "KO(STM)"]), 1);
   (("z", [PInt 14006; PInt 40628; PStr "KO"; PStr "KTC"]), 1);
   (("z", [PInt 14006; PInt 40628; PStr "KZ"; PStr "KO(STM)"]), 1);
   (("z", [PInt 14006; PInt 41004; PStr "KZ"; PStr "KO(STM)"]), 1);
   (("z", [PInt 14006; PInt 4120; PStr "KL"; PStr "Ty"]), 1);
   (("z", [PInt 14006; PInt 4120; PStr "KO"; PStr "KL"]), 1);
   (("z", [PInt 14006; PInt 4120; PStr "KZ"; PStr "KO(STM)"]), 1);
   (("z", [PInt 14006; PInt 44862; PStr "KL"; PStr "MJ"]), 1);
   (("z", [PInt 14006; PInt 44862; PStr "KO"; PStr "KL"]), 1);
   (("z", [PInt 14006; PInt 4500; PStr "KO"; PStr "KTC"]), 1);
   (("z", [PInt 14006; PInt 4500; PStr "KZ"; PStr "KO(STM)"]), 1);
   (("z", [PInt 14006; PInt 5312; PStr "KZ"; PStr "KO(STM)"]), 1);
   (("z", [PInt 14006; PInt 64350; PStr "KZ"; PStr "KO(STM)"]), 1);
   (("z", [PInt 14006; PInt 73000; PStr "KO"; PStr "KTC"]), 1);
   (("z", [PInt 14006; PInt 73000; PStr "KZ"; PStr "KO(STM)"]), 1);
   (("z", [PInt 26103; PInt 40150; PStr "CB"; PStr "GLC"]), 1);
   (("z", [PInt 26103; PInt 40150; PStr "KZ"; PStr "KO(STM)"]), 1);
   (("z", [PInt 26103; PInt 40628; PStr "CB"; PStr "GLC"]), 1);
   (("z", [PInt 26103; PInt 40628; PStr "KZ"; PStr "KO(STM)"]), 1);
   (("z", [PInt 26103; PInt 41004; PStr "KZ"; PStr "KO(STM)"]), 1);
   (("z", [PInt 26103; PInt 4120; PStr "KZ"; PStr "KO(STM)"]), 1);
   (("z", [PInt 26103; PInt 42100; PStr "KZ"; PStr "KO(STM)"]), 1);
   (("z", [PInt 26103; PInt 4500; PStr "CB"; PStr "GLC"]), 1);
   (("z", [PInt 26103; PInt 4500; PStr "KZ"; PStr "KO(STM)"]), 1);
   (("z", [PInt 26103; PInt 5312; PStr "CB"; PStr "GLC"]), 1);
   (("z", [PInt 26103; PInt 5312; PStr "KZ"; PStr "KO(STM)"]), 1);
   (("z", [PInt 26103; PInt 64350; PStr "CB"; PStr "CM"]), 1);
   (("z", [PInt 26103; PInt 64350; PStr "KZ"; PStr "KO(STM)"]), 1);
   (("z", [PInt 26103; PInt 73000; PStr "CB"; PStr "GLC"]), 1);
   (("z", [PInt 26103; PInt 73000; PStr "KZ"; PStr "KO(STM)"]), 1);
   (("z", [PInt 34319; PInt 40150; PStr "KO(STM)"; PStr "KO"]), 1);
   (("z", [PInt 34319; PInt 40150; PStr "KZ"; PStr "KO(STM)"]), 1);
   (("z", [PInt 34319; PInt 40628; PStr "KO(STM)"; PStr "KO"]), 1);
   (("z", [PInt 34319; PInt 40628; PStr "KZ"; PStr "KO(STM)"]), 1);
   (("z", [PInt 34319; PInt 41004; PStr "KZ"; PStr "KO(STM)"]), 1);
   (("z", [PInt 34319; PInt 4120; PStr "KO(STM)"; PStr "KO"]), 1);
   (("z", [PInt 34319; PInt 4120; PStr "KZ"; PStr "KO(STM)"]), 1);
   (("z", [PInt 34319; PInt 44862; PStr "KO(STM)"; PStr "KO"]), 1);
   (("z", [PInt 34319; PInt 4500; PStr "KO(STM)"; PStr "KO"]), 1);
   (("z", [PInt 34319; PInt 4500; PStr "KZ"; PStr "KO(STM)"]), 1);
   (("z", [PInt 34319; PInt 5312; PStr "KZ"; PStr "KO(STM)"]), 1);
   (("z", [PInt 34319; PInt 541019; PStr "KO(STM)"; PStr "KO"]), 1);
   (("z", [PInt 34319; PInt 541019; PStr "KZ"; PStr "KO(STM)"]), 1);
   (("z", [PInt 34319; PInt 64350; PStr "KO(STM)"; PStr "KO"]), 1);
   (("z", [PInt 34319; PInt 64350; PStr "KZ"; PStr "KO(STM)"]), 1);
   (("z", [PInt 34319; PInt 73000; PStr "KO(STM)"; PStr "KO"]), 1);
   (("z", [PInt 34319; PInt 73000; PStr "KZ"; PStr "KO(STM)"]), 1);
   (("z", [PInt 40150; PInt 40477; PStr "KTC"; PStr "KO"]), 1);
   (("z", [PInt 40150; PInt 40673; PStr "CB"; PStr "KTC"]), 1);
   (("z", [PInt 40150; PInt 40673; PStr "GLC"; PStr "CB"]), 1);
   (("z", [PInt 40150; PInt 40675; PStr "CB"; PStr "KTC"]), 1);
   (("z", [PInt 40150; PInt 40675; PStr "GLC"; PStr "CB"]), 1);
   (("z", [PInt 40150; PInt 44717; PStr "KTC"; PStr "KO"]), 1);
   (("z", [PInt 40150; PInt 94317; PStr "CB"; PStr "KTC"]), 1);
   (("z", [PInt 40150; PInt 94317; PStr "GLC"; PStr "CB"]), 1);
   (("z", [PInt 40150; PInt 94717; PStr "KTC"; PStr "KO"]), 1);
   (("z", [PInt 40477; PInt 40628; PStr "KO"; PStr "KTC"]), 1);
   (("z", [PInt 40477; PInt 4120; PStr "KL"; PStr "Ty"]), 1);
   (("z", [PInt 40477; PInt 4120; PStr "KO"; PStr "KL"]), 1);
   (("z", [PInt 40477; PInt 44717; PStr "KO(STM)"; PStr "KO"]), 1);
   (("z", [PInt 40477; PInt 44862; PStr "KO"; PStr "KL"]), 1);
   (("z", [PInt 40477; PInt 4500; PStr "KO"; PStr "KTC"]), 1);
   (("z", [PInt 40477; PInt 73000; PStr "KO"; PStr "KTC"]), 1);
   (("z", [PInt 40477; PInt 94717; PStr "KO(STM)"; PStr "KO"]), 1);
   (("z", [PInt 40518; PInt 34319; PStr "KO"; PStr "KO(STM)"]), 1);
   (("z", [PInt 40518; PInt 40477; PStr "KO"; PStr "KO(STM)"]), 1);
   (("z", [PInt 40518; PInt 44717; PStr "Ty"; PStr "KL"]), 1);
   (("z", [PInt 40518; PInt 54101; PStr "KO"; PStr "KO(STM)"]), 1);
   (("z", [PInt 40518; PInt 94717; PStr "KO"; PStr "KO(STM)"]), 1);
   (("z", [PInt 40628; PInt 40673; PStr "CB"; PStr "KTC"]), 1);
   (("z", [PInt 40628; PInt 40675; PStr "CB"; PStr "KTC"]), 1);
   (("z", [PInt 40628; PInt 40675; PStr "GLC"; PStr "CB"]), 1);
   (("z", [PInt 40628; PInt 94317; PStr "CB"; PStr "KTC"]), 1);
   (("z", [PInt 40673; PInt 40150; PStr "KZ"; PStr "KO(STM)"]), 1);
   (("z", [PInt 40673; PInt 40628; PStr "KZ"; PStr "KO(STM)"]), 1);
   (("z", [PInt 40673; PInt 41004; PStr "KZ"; PStr "KO(STM)"]), 1);
   (("z", [PInt 40673; PInt 4120; PStr "KZ"; PStr "KO(STM)"]), 1);
   (("z", [PInt 40673; PInt 4500; PStr "KZ"; PStr "KO(STM)"]), 1);
   (("z", [PInt 40673; PInt 5312; PStr "KZ"; PStr "KO(STM)"]), 1);
   (("z", [PInt 40673; PInt 64350; PStr "KZ"; PStr "KO(STM)"]), 1);
   (("z", [PInt 40673; PInt 73000; PStr "CB"; PStr "GLC"]), 1);
   (("z", [PInt 40673; PInt 73000; PStr "KZ"; PStr "KO(STM)"]), 1);
   (("z", [PInt 40675; PInt 40150; PStr "KZ"; PStr "KO(STM)"]), 1);
   (("z", [PInt 40675; PInt 40628; PStr "KZ"; PStr "KO(STM)"]), 1);
   (("z", [PInt 40675; PInt 4120; PStr "KZ"; PStr "KO(STM)"]), 1);
   (("z", [PInt 40675; PInt 4500; PStr "KZ"; PStr "KO(STM)"]), 1);
   (("z", [PInt 40675; PInt 5312; PStr "KZ"; PStr "KO(STM)"]), 1);
   (("z", [PInt 40675; PInt 64350; PStr "KZ"; PStr "KO(STM)"]), 1);
   (("z", [PInt 40675; PInt 73000; PStr "KZ"; PStr "KO(STM)"]), 1);
   (("z", [PInt 41004; PInt 44717; PStr "Ty"; PStr "KL"]), 1);
   (("z", [PInt 421009; PInt 40150; PStr "KO(IC)"; PStr "KO(STM)"]), 1);
   (("z", [PInt 421009; PInt 40150; PStr "KO(STM)"; PStr "KO"]), 1);
   (("z", [PInt 421009; PInt 40518; PStr "KO(STM)"; PStr "KO"]), 1);
   (("z", [PInt 421009; PInt 40628; PStr "KO(IC)"; PStr "KO(STM)"]), 1);
   (("z", [PInt 421009; PInt 40628; PStr "KO(STM)"; PStr "KO"]), 1);
   (("z", [PInt 421009; PInt 41004; PStr "KO(IC)"; PStr "KO(STM)"]), 1);
   (("z", [PInt 421009; PInt 4120; PStr "KO(IC)"; PStr "KO(STM)"]), 1);
   (("z", [PInt 421009; PInt 4120; PStr "KO(STM)"; PStr "KO"]), 1);
   (("z", [PInt 421009; PInt 4500; PStr "KO(IC)"; PStr "KO(STM)"]), 1);
   (("z", [PInt 421009; PInt 4500; PStr "KO(STM)"; PStr "KO"]), 1);
   (("z", [PInt 421009; PInt 5312; PStr "KO(IC)"; PStr "KO(STM)"]), 1);
   (("z", [PInt 421009; PInt 5312; PStr "KO(STM)"; PStr "KO"]), 1);
   (("z", [PInt 421009; PInt 541019; PStr "KO(IC)"; PStr "KO(STM)"]), 1);
   (("z", [PInt 421009; PInt 541019; PStr "KO(STM)"; PStr "KO"]), 1);
   (("z", [PInt 421009; PInt 64350; PStr "KO(IC)"; PStr "KO(STM)"]), 1);
   (("z", [PInt 421009; PInt 73000; PStr "KO(IC)"; PStr "KO(STM)"]), 1);
   (("z", [PInt 421009; PInt 73000; PStr "KO(STM)"; PStr "KO"]), 1);
   (("z", [PInt 42100; PInt 34319; PStr "KO"; PStr "KO(STM)"]), 1);
   (("z", [PInt 42100; PInt 54101; PStr "KO"; PStr "KO(STM)"]), 1);
   (("z", [PInt 44717; PInt 40628; PStr "KO"; PStr "KTC"]), 1);
   (("z", [PInt 44717; PInt 4120; PStr "KL"; PStr "Ty"]), 1);
   (("z", [PInt 44717; PInt 4120; PStr "KO"; PStr "KL"]), 1);
   (("z", [PInt 44717; PInt 73000; PStr "KO"; PStr "KTC"]), 1);
   (("z", [PInt 44862; PInt 44717; PStr "Mi"; PStr "MJ"]), 1);
   (("z", [PInt 4500; PInt 40673; PStr "CB"; PStr "KTC"]), 1);
   (("z", [PInt 4500; PInt 40675; PStr "CB"; PStr "KTC"]), 1);
   (("z", [PInt 4500; PInt 40675; PStr "GLC"; PStr "CB"]), 1);
   (("z", [PInt 4500; PInt 44717; PStr "KTC"; PStr "KO"]), 1);
   (("z", [PInt 4500; PInt 94317; PStr "CB"; PStr "KTC"]), 1);
   (("z", [PInt 4500; PInt 94317; PStr "GLC"; PStr "CB"]), 1);
   (("z", [PInt 4500; PInt 94717; PStr "KTC"; PStr "KO"]), 1);
   (("z", [PInt 5312; PInt 40673; PStr "CB"; PStr "KTC"]), 1);
   (("z", [PInt 5312; PInt 40673; PStr "GLC"; PStr "CB"]), 1);
   (("z", [PInt 5312; PInt 40675; PStr "CB"; PStr "KTC"]), 1);
   (("z", [PInt 5312; PInt 40675; PStr "GLC"; PStr "CB"]), 1);
   (("z", [PInt 5312; PInt 44717; PStr "KTC"; PStr "KO"]), 1);
   (("z", [PInt 5312; PInt 94317; PStr "CB"; PStr "KTC"]), 1);
   (("z", [PInt 5312; PInt 94317; PStr "GLC"; PStr "CB"]), 1);
   (("z", [PInt 5312; PInt 94717; PStr "KTC"; PStr "KO"]), 1);
   (("z", [PInt 54101; PInt 40150; PStr "KZ"; PStr "KO(STM)"]), 1);
   (("z", [PInt 54101; PInt 40628; PStr "KO(STM)"; PStr "KO"]), 1);
   (("z", [PInt 54101; PInt 40628; PStr "KZ"; PStr "KO(STM)"]), 1);
   (("z", [PInt 54101; PInt 41004; PStr "KZ"; PStr "KO(STM)"]), 1);
   (("z", [PInt 54101; PInt 4120; PStr "KO(STM)"; PStr "KO"]), 1);
   (("z", [PInt 54101; PInt 4120; PStr "KZ"; PStr "KO(STM)"]), 1);
   (("z", [PInt 54101; PInt 4500; PStr "KO(STM)"; PStr "KO"]), 1);
   (("z", [PInt 54101; PInt 4500; PStr "KZ"; PStr "KO(STM)"]), 1);
   (("z", [PInt 54101; PInt 5312; PStr "KZ"; PStr "KO(STM)"]), 1);
   (("z", [PInt 54101; PInt 64350; PStr "KZ"; PStr "KO(STM)"]), 1);
   (("z", [PInt 54101; PInt 73000; PStr "KO(STM)"; PStr "KO"]), 1);
   (("z", [PInt 54101; PInt 73000; PStr "KZ"; PStr "KO(STM)"]), 1);
   (("z", [PInt 64350; PInt 40673; PStr "CB"; PStr "KTC"]), 1);
   (("z", [PInt 64350; PInt 40675; PStr "CB"; PStr "KTC"]), 1);
   (("z", [PInt 64350; PInt 40675; PStr "CM"; PStr "CB"]), 1);
   (("z", [PInt 64350; PInt 94317; PStr "CB"; PStr "KTC"]), 1);
   (("z", [PInt 73000; PInt 40675; PStr "CB"; PStr "KTC"]), 1);
   (("z", [PInt 94113; PInt 40477; PStr "KO(KS)"; PStr "KO"]), 1);
   (("z", [PInt 94113; PInt 40628; PStr "KO"; PStr "KTC"]), 1);
   (("z", [PInt 94113; PInt 4120; PStr "KL"; PStr "Ty"]), 1);
   (("z", [PInt 94113; PInt 4120; PStr "KO"; PStr "KL"]), 1);
   (("z", [PInt 94113; PInt 44717; PStr "KO(KS)"; PStr "KO"]), 1);
   (("z", [PInt 94113; PInt 44862; PStr "KL"; PStr "MJ"]), 1);
   (("z", [PInt 94113; PInt 44862; PStr "KO"; PStr "KL"]), 1);
   (("z", [PInt 94113; PInt 4500; PStr "KO"; PStr "KTC"]), 1);
   (("z", [PInt 94113; PInt 73000; PStr "KO"; PStr "KTC"]), 1);
   (("z", [PInt 94113; PInt 94317; PStr "KO"; PStr "KO(STM)"]), 1);
   (("z", [PInt 94113; PInt 94717; PStr "KO(KS)"; PStr "KO"]), 1);
   (("z", [PInt 94317; PInt 40150; PStr "KZ"; PStr "KO(STM)"]), 1);
   (("z", [PInt 94317; PInt 40628; PStr "KZ"; PStr "KO(STM)"]), 1);
   (("z", [PInt 94317; PInt 41004; PStr "KZ"; PStr "KO(STM)"]), 1);
   (("z", [PInt 94317; PInt 4120; PStr "KZ"; PStr "KO(STM)"]), 1);
   (("z", [PInt 94317; PInt 44717; PStr "KO(STM)"; PStr "KO"]), 1);
   (("z", [PInt 94317; PInt 4500; PStr "KZ"; PStr "KO(STM)"]), 1);
   (("z", [PInt 94317; PInt 5312; PStr "KZ"; PStr "KO(STM)"]), 1);
   (("z", [PInt 94317; PInt 64350; PStr "KZ"; PStr "KO(STM)"]), 1);
   (("z", [PInt 94317; PInt 73000; PStr "CB"; PStr "GLC"]), 1);
   (("z", [PInt 94317; PInt 73000; PStr "KZ"; PStr "KO(STM)"]), 1);
   (("z", [PInt 94317; PInt 94717; PStr "KO(STM)"; PStr "KO"]), 1);
   (("z", [PInt 94611; PInt 40150; PStr "KO"; PStr "KTC"]), 1);
   (("z", [PInt 94611; PInt 40477; PStr "KO(KS)"; PStr "KO"]), 1);
   (("z", [PInt 94611; PInt 40477; PStr "KO"; PStr "KO(STM)"]), 1);
   (("z", [PInt 94611; PInt 40628; PStr "KO"; PStr "KTC"]), 1);
   (("z", [PInt 94611; PInt 41004; PStr "KO"; PStr "KL"]), 1);
   (("z", [PInt 94611; PInt 4120; PStr "KL"; PStr "Ty"]), 1);
   (("z", [PInt 94611; PInt 4120; PStr "KO"; PStr "KL"]), 1);
   (("z", [PInt 94611; PInt 44717; PStr "KO(KS)"; PStr "KO"]), 1);
   (("z", [PInt 94611; PInt 44862; PStr "KL"; PStr "MJ"]), 1);
   (("z", [PInt 94611; PInt 44862; PStr "KO"; PStr "KL"]), 1);
   (("z", [PInt 94611; PInt 4500; PStr "KO"; PStr "KTC"]), 1);
   (("z", [PInt 94611; PInt 73000; PStr "KO"; PStr "KTC"]), 1);
   (("z", [PInt 94611; PInt 94113; PStr "KO(KS)"; PStr "KO"]), 1);
   (("z", [PInt 94611; PInt 94113; PStr "KO"; PStr "KO(KS)"]), 1);
   (("z", [PInt 94611; PInt 94317; PStr "KO"; PStr "KO(STM)"]), 1);
   (("z", [PInt 94611; PInt 94717; PStr "KO(KS)"; PStr "KO"]), 1);
   (("z", [PInt 94611; PInt 94766; PStr "KO"; PStr "KL"]), 1);
   (("z", [PInt 94717; PInt 4120; PStr "KO"; PStr "KL"]), 1);
   (("z", [PInt 94717; PInt 73000; PStr "KO"; PStr "KTC"]), 1);
   (("z", [PInt 94766; PInt 34319; PStr "KO"; PStr "KO(STM)"]), 1);
   (("z", [PInt 94766; PInt 44717; PStr "KO"; PStr "KO(STM)"]), 1);
   (("z", [PInt 94766; PInt 44717; PStr "Ty"; PStr "KL"]), 1);
   (("z", [PStr "in"; PInt 40150; PInt 64350; PStr "CB"]), 1);
   (("z", [PStr "in"; PInt 40518; PInt 44862; PStr "KL"]), 1);
   (("z", [PStr "in"; PInt 40518; PInt 64350; PStr "KO"]), 1);
   (("z", [PStr "in"; PInt 41004; PInt 44862; PStr "KL"]), 1);
   (("z", [PStr "in"; PInt 41004; PInt 64350; PStr "KO"]), 1);
   (("z", [PStr "in"; PInt 421009; PInt 34319; PStr "KO(STM)"]), 1);
   (("z", [PStr "in"; PInt 421009; PInt 54101; PStr "KO(STM)"]), 1);
   (("z", [PStr "in"; PInt 44862; PInt 4120; PStr "KL"]), 1);
   (("z", [PStr "in"; PInt 5312; PInt 64350; PStr "CB"]), 1);
   (("z", [PStr "in"; PInt 64350; PInt 40628; PStr "CB"]), 1);
   (("z", [PStr "in"; PInt 64350; PInt 4120; PStr "KO"]), 1);
   (("z", [PStr "in"; PInt 64350; PInt 44862; PStr "KO"]), 1);
   (("z", [PStr "in"; PInt 64350; PInt 73000; PStr "CB"]), 1);
   (("z", [PStr "in"; PInt 94113; PInt 40477; PStr "KO"]), 1);
   (("z", [PStr "in"; PInt 94113; PInt 40628; PStr "KO"]), 1);
   (("z", [PStr "in"; PInt 94113; PInt 4500; PStr "KO"]), 1);
   (("z", [PStr "in"; PInt 94113; PInt 73000; PStr "KO"]), 1);
   (("z", [PStr "in"; PInt 94113; PInt 94317; PStr "KO"]), 1);
   (("z", [PStr "in"; PInt 94611; PInt 40150; PStr "KO"]), 1);
   (("z", [PStr "in"; PInt 94611; PInt 40477; PStr "KO"]), 1);
   (("z", [PStr "in"; PInt 94611; PInt 40628; PStr "KO"]), 1);
   (("z", [PStr "in"; PInt 94611; PInt 4500; PStr "KO"]), 1);
   (("z", [PStr "in"; PInt 94611; PInt 73000; PStr "KO"]), 1);
   (("z", [PStr "in"; PInt 94611; PInt 94317; PStr "KO"]), 1);
   (("z", [PStr "in"; PInt 94766; PInt 44862; PStr "KL"]), 1);
   (("z", [PStr "in"; PInt 94766; PInt 64350; PStr "KO"]), 1)].

Definition minutes7 : Q := 419 # 2.

Definition sweep9 : list (vid * Q) :=
  [(("Delays", [PInt 14006; PStr "KL"]), 28);
   (("Delays", [PInt 14006; PStr "KO"]), 28);
   (("Delays", [PInt 14006; PStr "KO(STM)"]), 14);
   (("Delays", [PInt 14006; PStr "Ty"]), 28);
   (("Delays", [PInt 26103; PStr "CB"]), 14);
   (("Delays", [PInt 26103; PStr "GLC"]), 14);
   (("Delays", [PInt 26103; PStr "KO"]), 4);
   (("Delays", [PInt 26103; PStr "KO(STM)"]), 5);
   (("Delays", [PInt 26103; PStr "KTC"]), 14);
   (("Delays", [PInt 26103; PStr "KZ"]), 1);
   (("Delays", [PInt 343199; PStr "KO"]), 37);
   (("Delays", [PInt 40477; PStr "KL"]), 12);
   (("Delays", [PInt 40477; PStr "KO"]), 10);
   (("Delays", [PInt 40477; PStr "KO(STM)"]), 27);
   (("Delays", [PInt 40477; PStr "Ty"]), 4);
   (("Delays", [PInt 40628; PStr "CB"]), 8);
   (("Delays", [PInt 40628; PStr "GLC"]), 8);
   (("Delays", [PInt 40628; PStr "KO"]), 8);
   (("Delays", [PInt 40628; PStr "KO(STM)"]), 8);
   (("Delays", [PInt 40628; PStr "KTC"]), 8);
   (("Delays", [PInt 40628; PStr "KZ"]), 8);
   (("Delays", [PInt 40673; PStr "KO(STM)"]), 2);
   (("Delays", [PInt 40675; PStr "CB"]), 16);
   (("Delays", [PInt 40675; PStr "KO"]), 15);
   (("Delays", [PInt 40675; PStr "KO(STM)"]), 17);
   (("Delays", [PInt 40675; PStr "KTC"]), 16);
   (("Delays", [PInt 41004; PStr "KO"]), 2);
   (("Delays", [PInt 41004; PStr "KO(STM)"]), 2);
   (("Delays", [PInt 41004; PStr "KZ"]), 2);
   (("Delays", [PInt 4120; PStr "KL"]), 4);
   (("Delays", [PInt 4120; PStr "KO"]), 1);
   (("Delays", [PInt 4120; PStr "KO(STM)"]), 1);
   (("Delays", [PInt 4120; PStr "KZ"]), 1);
   (("Delays", [PInt 421009; PStr "KO(IC)"]), 2);
   (("Delays", [PInt 421009; PStr "KO(STM)"]), 4);
   (("Delays", [PInt 44717; PStr "KO"]), 1);
   (("Delays", [PInt 44717; PStr "KO(STM)"]), 1);
   (("Delays", [PInt 44862; PStr "KL"]), 8);
   (("Delays", [PInt 44862; PStr "KO"]), 8);
   (("Delays", [PInt 44862; PStr "MJ"]), 8);
   (("Delays", [PInt 44862; PStr "Mi"]), 5);
   (("Delays", [PInt 4500; PStr "CB"]), 14);
   (("Delays", [PInt 4500; PStr "GLC"]), 12);
   (("Delays", [PInt 4500; PStr "KO"]), 14);
   (("Delays", [PInt 4500; PStr "KO(STM)"]), 14);
   (("Delays", [PInt 4500; PStr "KTC"]), 14);
   (("Delays", [PInt 4500; PStr "KZ"]), 14);
   (("Delays", [PInt 541019; PStr "KO"]), 14);
   (("Delays", [PInt 541019; PStr "KO(STM)"]), 28);
   (("Delays", [PInt 64350; PStr "CB"]), 29);
   (("Delays", [PInt 64350; PStr "CM"]), 29);
   (("Delays", [PInt 64350; PStr "KO"]), 29);
   (("Delays", [PInt 64350; PStr "KO(STM)"]), 29);
   (("Delays", [PInt 64350; PStr "KTC"]), 29);
   (("Delays", [PInt 64350; PStr "KZ"]), 29);
   (("Delays", [PInt 73000; PStr "CB"]), 1);
   (("Delays", [PInt 73000; PStr "GLC"]), 1);
   (("Delays", [PInt 73000; PStr "KO"]), 1);
   (("Delays", [PInt 73000; PStr "KO(STM)"]), 1);
   (("Delays", [PInt 73000; PStr "KTC"]), 1);
   (("Delays", [PInt 73000; PStr "KZ"]), 1);
   (("Delays", [PInt 94113; PStr "KL"]), 21);
   (("Delays", [PInt 94113; PStr "KO"]), 20);
   (("Delays", [PInt 94113; PStr "KO(KS)"]), 34);
   (("Delays", [PInt 94113; PStr "Ty"]), 21);
   (("Delays", [PInt 94317; PStr "CB"]), 16);
   (("Delays", [PInt 94317; PStr "CM"]), 16);
   (("Delays", [PInt 94317; PStr "KO"]), 6);
   (("Delays", [PInt 94317; PStr "KO(STM)"]), 11);
   (("Delays", [PInt 94317; PStr "KTC"]), 16);
   (("Delays", [PInt 94611; PStr "KL"]), 10);
   (("Delays", [PInt 94611; PStr "KO"]), 7);
   (("Delays", [PInt 94611; PStr "KO(KS)"]), 12);
   (("Delays", [PInt 94611; PStr "Ty"]), 10);
   (("Delays", [PInt 94717; PStr "KL"]), 2);
   (("Delays", [PInt 94717; PStr "KO"]), 1);
   (("Delays", [PInt 94717; PStr "KO(STM)"]), 14);
   (("Delays", [PInt 94717; PStr "Ty"]), 1);
   (("y", [PInt 14006; PInt 40675; PStr "one_station"; PStr "KO"]), 1);
   (("y", [PInt 14006; PInt 40675; PStr "one_station"; PStr "KO(STM)"]), 1);
   (("y", [PInt 14006; PInt 40675; PStr "one_station"; PStr "KZ"]), 1);
   (("y", [PInt 14006; PInt 94317; PStr "one_station"; PStr "KO(STM)"]), 1);
   (("y", [PInt 14006; PInt 94317; PStr "one_station"; PStr "KZ"]), 1);
   (("y", [PInt 26103; PInt 14006; PStr "one_station"; PStr "KO"]), 1);
   (("y", [PInt 26103; PInt 14006; PStr "one_station"; PStr "KO(STM)"]), 1);
   (("y", [PInt 26103; PInt 14006; PStr "one_station"; PStr "KZ"]), 1);
   (("y", [PInt 26103; PInt 34319; PStr "one_station"; PStr "KO(STM)"]), 1);
   (("y", [PInt 26103; PInt 34319; PStr "one_station"; PStr "KZ"]), 1);
   (("y", [PInt 26103; PInt 40477; PStr "one_station"; PStr "KO"]), 1);
   (("y", [PInt 26103; PInt 40477; PStr "one_station"; PStr "KO(STM)"]), 1);
   (("y", [PInt 26103; PInt 40628; PStr "one_station"; PStr "CB"]), 1);
   (("y", [PInt 26103; PInt 40673; PStr "one_station"; PStr "CB"]), 1);
   (("y", [PInt 26103; PInt 40673; PStr "one_station"; PStr "KO"]), 1);
   (("y", [PInt 26103; PInt 40673; PStr "one_station"; PStr "KO(STM)"]), 1);
   (("y", [PInt 26103; PInt 40673; PStr "one_station"; PStr "KTC"]), 1);
   (("y", [PInt 26103; PInt 40673; PStr "one_station"; PStr "KZ"]), 1);
   (("y", [PInt 26103; PInt 40675; PStr "one_station"; PStr "CB"]), 1);
   (("y", [PInt 26103; PInt 40675; PStr "one_station"; PStr "KO"]), 1);
   (("y", [PInt 26103; PInt 40675; PStr "one_station"; PStr "KO(STM)"]), 1);
   (("y", [PInt 26103; PInt 40675; PStr "one_station"; PStr "KTC"]), 1);
   (("y", [PInt 26103; PInt 40675; PStr "one_station"; PStr "KZ"]), 1);
   (("y", [PInt 26103; PInt 44717; PStr "one_station"; PStr "KO(STM)"]), 1);
   (("y", [PInt 26103; PInt 4500; PStr "one_station"; PStr "CB"]), 1);
   (("y", [PInt 26103; PInt 54101; PStr "one_station"; PStr "KO(STM)"]), 1);
   (("y", [PInt 26103; PInt 54101; PStr "one_station"; PStr "KZ"]), 1);
   (("y", [PInt 26103; PInt 64350; PStr "one_station"; PStr "CB"]), 1);
   (("y", [PInt 26103; PInt 73000; PStr "one_station"; PStr "CB"]), 1);
   (("y", [PInt 26103; PInt 94317; PStr "one_station"; PStr "CB"]), 1);
   (("y", [PInt 26103; PInt 94317; PStr "one_station"; PStr "KO"]), 1);
   (("y", [PInt 26103; PInt 94317; PStr "one_station"; PStr "KO(STM)"]), 1);
   (("y", [PInt 26103; PInt 94317; PStr "one_station"; PStr "KTC"]), 1);
   (("y", [PInt 26103; PInt 94317; PStr "one_station"; PStr "KZ"]), 1);
   (("y", [PInt 26103; PInt 94717; PStr "one_station"; PStr "KO(STM)"]), 1);
   (("y", [PInt 343199; PInt 40628; PStr "one_station"; PStr "KO"]), 1);
   (("y", [PInt 343199; PInt 4120; PStr "one_station"; PStr "KO"]), 1);
   (("y", [PInt 343199; PInt 44862; PStr "one_station"; PStr "KO"]), 1);
   (("y", [PInt 343199; PInt 4500; PStr "one_station"; PStr "KO"]), 1);
   (("y", [PInt 343199; PInt 64350; PStr "one_station"; PStr "KO"]), 1);
   (("y", [PInt 343199; PInt 73000; PStr "one_station"; PStr "KO"]), 1);
   (("y", [PInt 34319; PInt 14006; PStr "one_station"; PStr "KO(STM)"]), 1);
   (("y", [PInt 34319; PInt 40628; PStr "one_station"; PStr "KO(STM)"]), 1);
   (("y", [PInt 34319; PInt 40675; PStr "one_station"; PStr "KO(STM)"]), 1);
   (("y", [PInt 34319; PInt 40675; PStr "one_station"; PStr "KZ"]), 1);
   (("y", [PInt 34319; PInt 4120; PStr "one_station"; PStr "KO(STM)"]), 1);
   (("y", [PInt 34319; PInt 4500; PStr "one_station"; PStr "KO(STM)"]), 1);
   (("y", [PInt 34319; PInt 541019; PStr "one_station"; PStr "KO(STM)"]), 1);
   (("y", [PInt 34319; PInt 64350; PStr "one_station"; PStr "KO"]), 1);
   (("y", [PInt 34319; PInt 73000; PStr "one_station"; PStr "KO(STM)"]), 1);
   (("y", [PInt 34319; PInt 94317; PStr "one_station"; PStr "KO(STM)"]), 1);
   (("y", [PInt 34319; PInt 94317; PStr "one_station"; PStr "KZ"]), 1);
   (("y", [PInt 34319; PInt 94717; PStr "one_station"; PStr "KO(STM)"]), 1);
   (("y", [PInt 40150; PInt 40628; PStr "one_station"; PStr "CB"]), 1);
   (("y", [PInt 40150; PInt 40628; PStr "one_station"; PStr "GLC"]), 1);
   (("y", [PInt 40150; PInt 40628; PStr "one_station"; PStr "KO"]), 1);
   (("y", [PInt 40150; PInt 40628; PStr "one_station"; PStr "KO(STM)"]), 1);
   (("y", [PInt 40150; PInt 40628; PStr "one_station"; PStr "KTC"]), 1);
   (("y", [PInt 40150; PInt 40628; PStr "one_station"; PStr "KZ"]), 1);
   (("y", [PInt 40150; PInt 40673; PStr "one_station"; PStr "CB"]), 1);
   (("y", [PInt 40150; PInt 40675; PStr "one_station"; PStr "CB"]), 1);
   (("y", [PInt 40150; PInt 41004; PStr "one_station"; PStr "KO"]), 1);
   (("y", [PInt 40150; PInt 41004; PStr "one_station"; PStr "KO(STM)"]), 1);
   (("y", [PInt 40150; PInt 41004; PStr "one_station"; PStr "KZ"]), 1);
   (("y", [PInt 40150; PInt 4120; PStr "one_station"; PStr "KO"]), 1);
   (("y", [PInt 40150; PInt 4120; PStr "one_station"; PStr "KO(STM)"]), 1);
   (("y", [PInt 40150; PInt 4120; PStr "one_station"; PStr "KZ"]), 1);
   (("y", [PInt 40150; PInt 44862; PStr "one_station"; PStr "KO"]), 1);
   (("y", [PInt 40150; PInt 4500; PStr "one_station"; PStr "CB"]), 1);
   (("y", [PInt 40150; PInt 4500; PStr "one_station"; PStr "GLC"]), 1);
   (("y", [PInt 40150; PInt 4500; PStr "one_station"; PStr "KO"]), 1);
   (("y", [PInt 40150; PInt 4500; PStr "one_station"; PStr "KO(STM)"]), 1);
   (("y", [PInt 40150; PInt 4500; PStr "one_station"; PStr "KTC"]), 1);
   (("y", [PInt 40150; PInt 4500; PStr "one_station"; PStr "KZ"]), 1);
   (("y", [PInt 40150; PInt 541019; PStr "one_station"; PStr "KO"]), 1);
   (("y", [PInt 40150; PInt 541019; PStr "one_station"; PStr "KO(STM)"]), 1);
   (("y", [PInt 40150; PInt 64350; PStr "one_station"; PStr "CB"]), 1);
   (("y", [PInt 40150; PInt 64350; PStr "one_station"; PStr "KO"]), 1);
   (("y", [PInt 40150; PInt 64350; PStr "one_station"; PStr "KO(STM)"]), 1);
   (("y", [PInt 40150; PInt 64350; PStr "one_station"; PStr "KTC"]), 1);
   (("y", [PInt 40150; PInt 73000; PStr "one_station"; PStr "CB"]), 1);
   (("y", [PInt 40150; PInt 73000; PStr "one_station"; PStr "GLC"]), 1);
   (("y", [PInt 40150; PInt 73000; PStr "one_station"; PStr "KO"]), 1);
   (("y", [PInt 40150; PInt 73000; PStr "one_station"; PStr "KO(STM)"]), 1);
   (("y", [PInt 40150; PInt 73000; PStr "one_station"; PStr "KTC"]), 1);
   (("y", [PInt 40150; PInt 94317; PStr "one_station"; PStr "CB"]), 1);
   (("y", [PInt 40477; PInt 40675; PStr "one_station"; PStr "KO"]), 1);
   (("y", [PInt 40477; PInt 40675; PStr "one_station"; PStr "KO(STM)"]), 1);
   (("y", [PInt 40477; PInt 94317; PStr "one_station"; PStr "KO"]), 1);
   (("y", [PInt 40477; PInt 94317; PStr "one_station"; PStr "KO(STM)"]), 1);
   (("y", [PInt 40477; PInt 94717; PStr "one_station"; PStr "KL"]), 1);
   (("y", [PInt 40477; PInt 94717; PStr "one_station"; PStr "KO"]), 1);
   (("y", [PInt 40477; PInt 94717; PStr "one_station"; PStr "KO(STM)"]), 1);
   (("y", [PInt 40477; PInt 94717; PStr "one_station"; PStr "Ty"]), 1);
   (("y", [PInt 40518; PInt 343199; PStr "one_station"; PStr "KO"]), 1);
   (("y", [PInt 40518; PInt 40150; PStr "one_station"; PStr "KO"]), 1);
   (("y", [PInt 40518; PInt 40628; PStr "one_station"; PStr "KO"]), 1);
   (("y", [PInt 40518; PInt 41004; PStr "one_station"; PStr "KL"]), 1);
   (("y", [PInt 40518; PInt 41004; PStr "one_station"; PStr "KO"]), 1);
   (("y", [PInt 40518; PInt 41004; PStr "one_station"; PStr "Ty"]), 1);
   (("y", [PInt 40518; PInt 4120; PStr "one_station"; PStr "KL"]), 1);
   (("y", [PInt 40518; PInt 4120; PStr "one_station"; PStr "KO"]), 1);
   (("y", [PInt 40518; PInt 4120; PStr "one_station"; PStr "Ty"]), 1);
   (("y", [PInt 40518; PInt 44717; PStr "one_station"; PStr "KL"]), 1);
   (("y", [PInt 40518; PInt 44862; PStr "one_station"; PStr "KL"]), 1);
   (("y", [PInt 40518; PInt 44862; PStr "one_station"; PStr "KO"]), 1);
   (("y", [PInt 40518; PInt 4500; PStr "one_station"; PStr "KO"]), 1);
   (("y", [PInt 40518; PInt 541019; PStr "one_station"; PStr "KO"]), 1);
   (("y", [PInt 40518; PInt 64350; PStr "one_station"; PStr "KO"]), 1);
   (("y", [PInt 40518; PInt 73000; PStr "one_station"; PStr "KO"]), 1);
   (("y", [PInt 40628; PInt 40675; PStr "one_station"; PStr "CB"]), 1);
   (("y", [PInt 40628; PInt 4120; PStr "one_station"; PStr "KO"]), 1);
   (("y", [PInt 40628; PInt 4120; PStr "one_station"; PStr "KO(STM)"]), 1);
   (("y", [PInt 40628; PInt 4120; PStr "one_station"; PStr "KZ"]), 1);
   (("y", [PInt 40628; PInt 73000; PStr "one_station"; PStr "CB"]), 1);
   (("y", [PInt 40628; PInt 73000; PStr "one_station"; PStr "GLC"]), 1);
   (("y", [PInt 40628; PInt 73000; PStr "one_station"; PStr "KO"]), 1);
   (("y", [PInt 40628; PInt 73000; PStr "one_station"; PStr "KO(STM)"]), 1);
   (("y", [PInt 40628; PInt 73000; PStr "one_station"; PStr "KTC"]), 1);
   (("y", [PInt 40673; PInt 40477; PStr "one_station"; PStr "KO"]), 1);
   (("y", [PInt 40673; PInt 40477; PStr "one_station"; PStr "KO(STM)"]), 1);
   (("y", [PInt 40673; PInt 40628; PStr "one_station"; PStr "CB"]), 1);
   (("y", [PInt 40673; PInt 40628; PStr "one_station"; PStr "GLC"]), 1);
   (("y", [PInt 40673; PInt 40675; PStr "one_station"; PStr "CB"]), 1);
   (("y", [PInt 40673; PInt 40675; PStr "one_station"; PStr "KO"]), 1);
   (("y", [PInt 40673; PInt 40675; PStr "one_station"; PStr "KO(STM)"]), 1);
   (("y", [PInt 40673; PInt 40675; PStr "one_station"; PStr "KTC"]), 1);
   (("y", [PInt 40673; PInt 40675; PStr "one_station"; PStr "KZ"]), 1);
   (("y", [PInt 40673; PInt 44717; PStr "one_station"; PStr "KO(STM)"]), 1);
   (("y", [PInt 40673; PInt 4500; PStr "one_station"; PStr "CB"]), 1);
   (("y", [PInt 40673; PInt 54101; PStr "one_station"; PStr "KO(STM)"]), 1);
   (("y", [PInt 40673; PInt 54101; PStr "one_station"; PStr "KZ"]), 1);
   (("y", [PInt 40673; PInt 64350; PStr "one_station"; PStr "CB"]), 1);
   (("y", [PInt 40673; PInt 73000; PStr "one_station"; PStr "CB"]), 1);
   (("y", [PInt 40673; PInt 94317; PStr "one_station"; PStr "CB"]), 1);
   (("y", [PInt 40673; PInt 94317; PStr "one_station"; PStr "KO"]), 1);
   (("y", [PInt 40673; PInt 94317; PStr "one_station"; PStr "KO(STM)"]), 1);
   (("y", [PInt 40673; PInt 94317; PStr "one_station"; PStr "KTC"]), 1);
   (("y", [PInt 40673; PInt 94317; PStr "one_station"; PStr "KZ"]), 1);
   (("y", [PInt 40673; PInt 94717; PStr "one_station"; PStr "KO(STM)"]), 1);
   (("y", [PInt 41004; PInt 40628; PStr "one_station"; PStr "KO"]), 1);
   (("y", [PInt 41004; PInt 40628; PStr "one_station"; PStr "KO(STM)"]), 1);
   (("y", [PInt 41004; PInt 40628; PStr "one_station"; PStr "KZ"]), 1);
   (("y", [PInt 41004; PInt 4120; PStr "one_station"; PStr "KL"]), 1);
   (("y", [PInt 41004; PInt 4120; PStr "one_station"; PStr "KO"]), 1);
   (("y", [PInt 41004; PInt 4120; PStr "one_station"; PStr "KO(STM)"]), 1);
   (("y", [PInt 41004; PInt 4120; PStr "one_station"; PStr "KZ"]), 1);
   (("y", [PInt 41004; PInt 4120; PStr "one_station"; PStr "Ty"]), 1);
   (("y", [PInt 41004; PInt 44717; PStr "one_station"; PStr "KL"]), 1);
   (("y", [PInt 41004; PInt 44862; PStr "one_station"; PStr "KL"]), 1);
   (("y", [PInt 41004; PInt 44862; PStr "one_station"; PStr "KO"]), 1);
   (("y", [PInt 41004; PInt 4500; PStr "one_station"; PStr "KO"]), 1);
   (("y", [PInt 41004; PInt 4500; PStr "one_station"; PStr "KO(STM)"]), 1);
   (("y", [PInt 41004; PInt 4500; PStr "one_station"; PStr "KZ"]), 1);
   (("y", [PInt 41004; PInt 541019; PStr "one_station"; PStr "KO"]), 1);
   (("y", [PInt 41004; PInt 541019; PStr "one_station"; PStr "KO(STM)"]), 1);
   (("y", [PInt 41004; PInt 64350; PStr "one_station"; PStr "KO"]), 1);
   (("y", [PInt 41004; PInt 64350; PStr "one_station"; PStr "KO(STM)"]), 1);
   (("y", [PInt 41004; PInt 73000; PStr "one_station"; PStr "KO"]), 1);
   (("y", [PInt 41004; PInt 73000; PStr "one_station"; PStr "KO(STM)"]), 1);
   (("y", [PInt 421009; PInt 14006; PStr "one_station"; PStr "KO(STM)"]), 1);
   (("y", [PInt 421009; PInt 34319; PStr "one_station"; PStr "KO(STM)"]), 1);
   (("y", [PInt 421009; PInt 40150; PStr "one_station"; PStr "KO(STM)"]), 1);
   (("y", [PInt 421009; PInt 40477; PStr "one_station"; PStr "KO(STM)"]), 1);
   (("y", [PInt 421009; PInt 40628; PStr "one_station"; PStr "KO"]), 1);
   (("y", [PInt 421009; PInt 40628; PStr "one_station"; PStr "KO(STM)"]), 1);
   (("y", [PInt 421009; PInt 40673; PStr "one_station"; PStr "KO(STM)"]), 1);
   (("y", [PInt 421009; PInt 40675; PStr "one_station"; PStr "KO(STM)"]), 1);
   (("y", [PInt 421009; PInt 4120; PStr "one_station"; PStr "KO(STM)"]), 1);
   (("y", [PInt 421009; PInt 44717; PStr "one_station"; PStr "KO(STM)"]), 1);
   (("y", [PInt 421009; PInt 4500; PStr "one_station"; PStr "KO"]), 1);
   (("y", [PInt 421009; PInt 4500; PStr "one_station"; PStr "KO(STM)"]), 1);
   (("y", [PInt 421009; PInt 5312; PStr "one_station"; PStr "KO(STM)"]), 1);
   (("y", [PInt 421009; PInt 541019; PStr "one_station"; PStr "KO(STM)"]), 1);
   (("y", [PInt 421009; PInt 54101; PStr "one_station"; PStr "KO(STM)"]), 1);
   (("y", [PInt 421009; PInt 73000; PStr "one_station"; PStr "KO(STM)"]), 1);
   (("y", [PInt 421009; PInt 94317; PStr "one_station"; PStr "KO(STM)"]), 1);
   (("y", [PInt 421009; PInt 94717; PStr "one_station"; PStr "KO(STM)"]), 1);
   (("y", [PInt 42100; PInt 343199; PStr "one_station"; PStr "KO"]), 1);
   (("y", [PInt 42100; PInt 34319; PStr "one_station"; PStr "KO(STM)"]), 1);
   (("y", [PInt 42100; PInt 40150; PStr "one_station"; PStr "KO"]), 1);
   (("y", [PInt 42100; PInt 40150; PStr "one_station"; PStr "KO(STM)"]), 1);
   (("y", [PInt 42100; PInt 40150; PStr "one_station"; PStr "KZ"]), 1);
   (("y", [PInt 42100; PInt 40518; PStr "one_station"; PStr "KO"]), 1);
   (("y", [PInt 42100; PInt 40628; PStr "one_station"; PStr "KO"]), 1);
   (("y", [PInt 42100; PInt 40628; PStr "one_station"; PStr "KO(STM)"]), 1);
   (("y", [PInt 42100; PInt 40628; PStr "one_station"; PStr "KZ"]), 1);
   (("y", [PInt 42100; PInt 41004; PStr "one_station"; PStr "KO"]), 1);
   (("y", [PInt 42100; PInt 41004; PStr "one_station"; PStr "KO(STM)"]), 1);
   (("y", [PInt 42100; PInt 41004; PStr "one_station"; PStr "KZ"]), 1);
   (("y", [PInt 42100; PInt 4120; PStr "one_station"; PStr "KO"]), 1);
   (("y", [PInt 42100; PInt 4120; PStr "one_station"; PStr "KO(STM)"]), 1);
   (("y", [PInt 42100; PInt 4120; PStr "one_station"; PStr "KZ"]), 1);
   (("y", [PInt 42100; PInt 44862; PStr "one_station"; PStr "KO"]), 1);
   (("y", [PInt 42100; PInt 4500; PStr "one_station"; PStr "KO"]), 1);
   (("y", [PInt 42100; PInt 4500; PStr "one_station"; PStr "KO(STM)"]), 1);
   (("y", [PInt 42100; PInt 4500; PStr "one_station"; PStr "KZ"]), 1);
   (("y", [PInt 42100; PInt 5312; PStr "one_station"; PStr "KO"]), 1);
   (("y", [PInt 42100; PInt 5312; PStr "one_station"; PStr "KO(STM)"]), 1);
   (("y", [PInt 42100; PInt 541019; PStr "one_station"; PStr "KO"]), 1);
   (("y", [PInt 42100; PInt 541019; PStr "one_station"; PStr "KO(STM)"]), 1);
   (("y", [PInt 42100; PInt 54101; PStr "one_station"; PStr "KO(STM)"]), 1);
   (("y", [PInt 42100; PInt 64350; PStr "one_station"; PStr "KO"]), 1);
   (("y", [PInt 42100; PInt 64350; PStr "one_station"; PStr "KO(STM)"]), 1);
   (("y", [PInt 42100; PInt 73000; PStr "one_station"; PStr "KO"]), 1);
   (("y", [PInt 42100; PInt 73000; PStr "one_station"; PStr "KO(STM)"]), 1);
   (("y", [PInt 44717; PInt 40675; PStr "one_station"; PStr "KO(STM)"]), 1);
   (("y", [PInt 44717; PInt 4120; PStr "one_station"; PStr "KL"]), 1);
   (("y", [PInt 44717; PInt 44862; PStr "one_station"; PStr "KL"]), 1);
   (("y", [PInt 44717; PInt 94717; PStr "one_station"; PStr "KL"]), 1);
   (("y", [PInt 44717; PInt 94717; PStr "one_station"; PStr "KO"]), 1);
   (("y", [PInt 44717; PInt 94717; PStr "one_station"; PStr "KO(STM)"]), 1);
   (("y", [PInt 44862; PInt 73000; PStr "one_station"; PStr "KO"]), 1);
   (("y", [PInt 4500; PInt 40675; PStr "one_station"; PStr "CB"]), 1);
   (("y", [PInt 4500; PInt 44862; PStr "one_station"; PStr "KO"]), 1);
   (("y", [PInt 4500; PInt 64350; PStr "one_station"; PStr "CB"]), 1);
   (("y", [PInt 4500; PInt 64350; PStr "one_station"; PStr "KO"]), 1);
   (("y", [PInt 4500; PInt 64350; PStr "one_station"; PStr "KO(STM)"]), 1);
   (("y", [PInt 4500; PInt 64350; PStr "one_station"; PStr "KTC"]), 1);
   (("y", [PInt 4500; PInt 73000; PStr "one_station"; PStr "CB"]), 1);
   (("y", [PInt 4500; PInt 73000; PStr "one_station"; PStr "GLC"]), 1);
   (("y", [PInt 4500; PInt 73000; PStr "one_station"; PStr "KO"]), 1);
   (("y", [PInt 4500; PInt 73000; PStr "one_station"; PStr "KO(STM)"]), 1);
   (("y", [PInt 4500; PInt 73000; PStr "one_station"; PStr "KTC"]), 1);
   (("y", [PInt 4500; PInt 94317; PStr "one_station"; PStr "CB"]), 1);
   (("y", [PInt 5312; PInt 343199; PStr "one_station"; PStr "KO"]), 1);
   (("y", [PInt 5312; PInt 34319; PStr "one_station"; PStr "KO(STM)"]), 1);
   (("y", [PInt 5312; PInt 40628; PStr "one_station"; PStr "CB"]), 1);
   (("y", [PInt 5312; PInt 40628; PStr "one_station"; PStr "GLC"]), 1);
   (("y", [PInt 5312; PInt 40628; PStr "one_station"; PStr "KO"]), 1);
   (("y", [PInt 5312; PInt 40628; PStr "one_station"; PStr "KO(STM)"]), 1);
   (("y", [PInt 5312; PInt 40628; PStr "one_station"; PStr "KTC"]), 1);
   (("y", [PInt 5312; PInt 40673; PStr "one_station"; PStr "CB"]), 1);
   (("y", [PInt 5312; PInt 40675; PStr "one_station"; PStr "CB"]), 1);
   (("y", [PInt 5312; PInt 41004; PStr "one_station"; PStr "KO"]), 1);
   (("y", [PInt 5312; PInt 41004; PStr "one_station"; PStr "KO(STM)"]), 1);
   (("y", [PInt 5312; PInt 4120; PStr "one_station"; PStr "KO"]), 1);
   (("y", [PInt 5312; PInt 4120; PStr "one_station"; PStr "KO(STM)"]), 1);
   (("y", [PInt 5312; PInt 44862; PStr "one_station"; PStr "KO"]), 1);
   (("y", [PInt 5312; PInt 4500; PStr "one_station"; PStr "CB"]), 1);
   (("y", [PInt 5312; PInt 4500; PStr "one_station"; PStr "GLC"]), 1);
   (("y", [PInt 5312; PInt 4500; PStr "one_station"; PStr "KO"]), 1);
   (("y", [PInt 5312; PInt 4500; PStr "one_station"; PStr "KO(STM)"]), 1);
   (("y", [PInt 5312; PInt 4500; PStr "one_station"; PStr "KTC"]), 1);
   (("y", [PInt 5312; PInt 541019; PStr "one_station"; PStr "KO"]), 1);
   (("y", [PInt 5312; PInt 541019; PStr "one_station"; PStr "KO(STM)"]), 1);
   (("y", [PInt 5312; PInt 64350; PStr "one_station"; PStr "CB"]), 1);
   (("y", [PInt 5312; PInt 64350; PStr "one_station"; PStr "KO"]), 1);
   (("y", [PInt 5312; PInt 64350; PStr "one_station"; PStr "KO(STM)"]), 1);
   (("y", [PInt 5312; PInt 64350; PStr "one_station"; PStr "KTC"]), 1);
   (("y", [PInt 5312; PInt 64350; PStr "one_station"; PStr "KZ"]), 1);
   (("y", [PInt 5312; PInt 73000; PStr "one_station"; PStr "CB"]), 1);
   (("y", [PInt 5312; PInt 73000; PStr "one_station"; PStr "GLC"]), 1);
   (("y", [PInt 5312; PInt 73000; PStr "one_station"; PStr "KO"]), 1);
   (("y", [PInt 5312; PInt 73000; PStr "one_station"; PStr "KO(STM)"]), 1);
   (("y", [PInt 5312; PInt 73000; PStr "one_station"; PStr "KTC"]), 1);
   (("y", [PInt 5312; PInt 73000; PStr "one_station"; PStr "KZ"]), 1);
   (("y", [PInt 5312; PInt 94317; PStr "one_station"; PStr "CB"]), 1);
   (("y", [PInt 541019; PInt 40628; PStr "one_station"; PStr "KO"]), 1);
   (("y", [PInt 541019; PInt 40628; PStr "one_station"; PStr "KO(STM)"]), 1);
   (("y", [PInt 541019; PInt 4120; PStr "one_station"; PStr "KO"]), 1);
   (("y", [PInt 541019; PInt 4120; PStr "one_station"; PStr "KO(STM)"]), 1);
   (("y", [PInt 541019; PInt 44862; PStr "one_station"; PStr "KO"]), 1);
   (("y", [PInt 541019; PInt 4500; PStr "one_station"; PStr "KO"]), 1);
   (("y", [PInt 541019; PInt 4500; PStr "one_station"; PStr "KO(STM)"]), 1);
   (("y", [PInt 541019; PInt 64350; PStr "one_station"; PStr "KO"]), 1);
   (("y", [PInt 541019; PInt 64350; PStr "one_station"; PStr "KO(STM)"]), 1);
   (("y", [PInt 541019; PInt 73000; PStr "one_station"; PStr "KO"]), 1);
   (("y", [PInt 541019; PInt 73000; PStr "one_station"; PStr "KO(STM)"]), 1);
   (("y", [PInt 54101; PInt 40477; PStr "one_station"; PStr "KO(STM)"]), 1);
   (("y", [PInt 54101; PInt 40628; PStr "one_station"; PStr "KO"]), 1);
   (("y", [PInt 54101; PInt 40628; PStr "one_station"; PStr "KO(STM)"]), 1);
   (("y", [PInt 54101; PInt 40675; PStr "one_station"; PStr "KO(STM)"]), 1);
   (("y", [PInt 54101; PInt 40675; PStr "one_station"; PStr "KZ"]), 1);
   (("y", [PInt 54101; PInt 4120; PStr "one_station"; PStr "KO(STM)"]), 1);
   (("y", [PInt 54101; PInt 4500; PStr "one_station"; PStr "KO"]), 1);
   (("y", [PInt 54101; PInt 4500; PStr "one_station"; PStr "KO(STM)"]), 1);
   (("y", [PInt 54101; PInt 73000; PStr "one_station"; PStr "KO(STM)"]), 1);
   (("y", [PInt 54101; PInt 94317; PStr "one_station"; PStr "KO(STM)"]), 1);
   (("y", [PInt 54101; PInt 94317; PStr "one_station"; PStr "KZ"]), 1);
   (("y", [PInt 54101; PInt 94717; PStr "one_station"; PStr "KO(STM)"]), 1);
   (("y", [PInt 64350; PInt 40675; PStr "one_station"; PStr "CB"]), 1);
   (("y", [PInt 94113; PInt 94717; PStr "one_station"; PStr "KL"]), 1);
   (("y", [PInt 94113; PInt 94717; PStr "one_station"; PStr "KO"]), 1);
   (("y", [PInt 94113; PInt 94717; PStr "one_station"; PStr "Ty"]), 1);
   (("y", [PInt 94317; PInt 40675; PStr "one_station"; PStr "CB"]), 1);
   (("y", [PInt 94317; PInt 40675; PStr "one_station"; PStr "KO"]), 1);
   (("y", [PInt 94317; PInt 40675; PStr "one_station"; PStr "KO(STM)"]), 1);
   (("y", [PInt 94317; PInt 40675; PStr "one_station"; PStr "KTC"]), 1);
   (("y", [PInt 94317; PInt 40675; PStr "one_station"; PStr "KZ"]), 1);
   (("y", [PInt 94611; PInt 40477; PStr "one_station"; PStr "KL"]), 1);
   (("y", [PInt 94611; PInt 40477; PStr "one_station"; PStr "KO"]), 1);
   (("y", [PInt 94611; PInt 40477; PStr "one_station"; PStr "Ty"]), 1);
   (("y", [PInt 94611; PInt 44717; PStr "one_station"; PStr "KL"]), 1);
   (("y", [PInt 94611; PInt 44717; PStr "one_station"; PStr "KO"]), 1);
   (("y", [PInt 94611; PInt 94113; PStr "one_station"; PStr "KL"]), 1);
   (("y", [PInt 94611; PInt 94113; PStr "one_station"; PStr "KO"]), 1);
   (("y", [PInt 94611; PInt 94113; PStr "one_station"; PStr "KO(KS)"]), 1);
   (("y", [PInt 94611; PInt 94113; PStr "one_station"; PStr "Ty"]), 1);
   (("y", [PInt 94611; PInt 94717; PStr "one_station"; PStr "KL"]), 1);
   (("y", [PInt 94611; PInt 94717; PStr "one_station"; PStr "KO"]), 1);
   (("y", [PInt 94611; PInt 94717; PStr "one_station"; PStr "Ty"]), 1);
   (("y", [PInt 94717; PInt 40675; PStr "one_station"; PStr "KO(STM)"]), 1);
   (("y", [PInt 94766; PInt 343199; PStr "one_station"; PStr "KO"]), 1);
   (("y", [PInt 94766; PInt 40628; PStr "one_station"; PStr "KO"]), 1);
   (("y", [PInt 94766; PInt 41004; PStr "one_station"; PStr "KL"]), 1);
   (("y", [PInt 94766; PInt 41004; PStr "one_station"; PStr "KO"]), 1);
   (("y", [PInt 94766; PInt 41004; PStr "one_station"; PStr "Ty"]), 1);
   (("y", [PInt 94766; PInt 4120; PStr "one_station"; PStr "KL"]), 1);
   (("y", [PInt 94766; PInt 4120; PStr "one_station"; PStr "KO"]), 1);
   (("y", [PInt 94766; PInt 4120; PStr "one_station"; PStr "Ty"]), 1);
   (("y", [PInt 94766; PInt 44717; PStr "one_station"; PStr "KL"]), 1);
   (("y", [PInt 94766; PInt 44862; PStr "one_station"; PStr "KL"]), 1);
   (("y", [PInt 94766; PInt 44862; PStr "one_station"; PStr "KO"]), 1);
   (("y", [PInt 94766; PInt 4500; PStr "one_station"; PStr "KO"]), 1);
   (("y", [PInt 94766; PInt 541019; PStr "one_station"; PStr "KO"]), 1);
   (("y", [PInt 94766; PInt 64350; PStr "one_station"; PStr "KO"]), 1);
   (("y", [PInt 94766; PInt 73000; PStr "one_station"; PStr "KO"]), 1);
   (("z", [PInt 14006; PInt 40150; PStr "KZ"; PStr "KO(STM)"]), 1);
   (("z", [PInt 14006; PInt 40628; PStr "KZ"; PStr "KO(STM)"]), 1);
   (("z", [PInt 14006; PInt 41004; PStr "KZ"; PStr "KO(STM)"]), 1);
   (("z", [PInt 14006; PInt 4120; PStr "KZ"; PStr "KO(STM)"]), 1);
   (("z", [PInt 14006; PInt 4500; PStr "KZ"; PStr "KO(STM)"]), 1);
   (("z", [PInt 14006; PInt 5312; PStr "KZ"; PStr "KO(STM)"]), 1);
   (("z", [PInt 14006; PInt 64350; PStr "KZ"; PStr "KO(STM)"]), 1);
   (("z", [PInt 14006; PInt 73000; PStr "KO"; PStr "KTC"]), 1);
   (("z", [PInt 14006; PInt 73000; PStr "KZ"; PStr "KO(STM)"]), 1);
   (("z", [PInt 26103; PInt 40150; PStr "KZ"; PStr "KO(STM)"]), 1);
   (("z", [PInt 26103; PInt 40628; PStr "CB"; PStr "GLC"]), 1);
   (("z", [PInt 26103; PInt 40628; PStr "KZ"; PStr "KO(STM)"]), 1);
   (("z", [PInt 26103; PInt 41004; PStr "KZ"; PStr "KO(STM)"]), 1);
   (("z", [PInt 26103; PInt 4120; PStr "KZ"; PStr "KO(STM)"]), 1);
   (("z", [PInt 26103; PInt 42100; PStr "KZ"; PStr "KO(STM)"]), 1);
   (("z", [PInt 26103; PInt 4500; PStr "CB"; PStr "GLC"]), 1);
   (("z", [PInt 26103; PInt 4500; PStr "KZ"; PStr "KO(STM)"]), 1);
   (("z", [PInt 26103; PInt 5312; PStr "KZ"; PStr "KO(STM)"]), 1);
   (("z", [PInt 26103; PInt 64350; PStr "CB"; PStr "CM"]), 1);
   (("z", [PInt 26103; PInt 64350; PStr "KZ"; PStr "KO(STM)"]), 1);
   (("z", [PInt 26103; PInt 73000; PStr "CB"; PStr "GLC"]), 1);
   (("z", [PInt 26103; PInt 73000; PStr "KZ"; PStr "KO(STM)"]), 1);
   (("z", [PInt 34319; PInt 40628; PStr "KO(STM)"; PStr "KO"]), 1);
   (("z", [PInt 34319; PInt 40628; PStr "KZ"; PStr "KO(STM)"]), 1);
   (("z", [PInt 34319; PInt 41004; PStr "KZ"; PStr "KO(STM)"]), 1);
   (("z", [PInt 34319; PInt 4120; PStr "KO(STM)"; PStr "KO"]), 1);
   (("z", [PInt 34319; PInt 4120; PStr "KZ"; PStr "KO(STM)"]), 1);
   (("z", [PInt 34319; PInt 44862; PStr "KO(STM)"; PStr "KO"]), 1);
   (("z", [PInt 34319; PInt 4500; PStr "KO(STM)"; PStr "KO"]), 1);
   (("z", [PInt 34319; PInt 4500; PStr "KZ"; PStr "KO(STM)"]), 1);
   (("z", [PInt 34319; PInt 541019; PStr "KO(STM)"; PStr "KO"]), 1);
   (("z", [PInt 34319; PInt 541019; PStr "KZ"; PStr "KO(STM)"]), 1);
   (("z", [PInt 34319; PInt 64350; PStr "KO(STM)"; PStr "KO"]), 1);
   (("z", [PInt 34319; PInt 64350; PStr "KZ"; PStr "KO(STM)"]), 1);
   (("z", [PInt 34319; PInt 73000; PStr "KO(STM)"; PStr "KO"]), 1);
   (("z", [PInt 34319; PInt 73000; PStr "KZ"; PStr "KO(STM)"]), 1);
   (("z", [PInt 40150; PInt 26103; PStr "CB"; PStr "KTC"]), 1);
   (("z", [PInt 40150; PInt 40477; PStr "KTC"; PStr "KO"]), 1);
   (("z", [PInt 40150; PInt 40673; PStr "CB"; PStr "KTC"]), 1);
   (("z", [PInt 40150; PInt 40673; PStr "GLC"; PStr "CB"]), 1);
   (("z", [PInt 40150; PInt 40675; PStr "CB"; PStr "KTC"]), 1);
   (("z", [PInt 40150; PInt 40675; PStr "GLC"; PStr "CB"]), 1);
   (("z", [PInt 40150; PInt 44717; PStr "KTC"; PStr "KO"]), 1);
   (("z", [PInt 40150; PInt 94113; PStr "KTC"; PStr "KO"]), 1);
   (("z", [PInt 40150; PInt 94317; PStr "CB"; PStr "KTC"]), 1);
   (("z", [PInt 40150; PInt 94317; PStr "GLC"; PStr "CB"]), 1);
   (("z", [PInt 40150; PInt 94717; PStr "KTC"; PStr "KO"]), 1);
   (("z", [PInt 40477; PInt 40628; PStr "KO"; PStr "KTC"]), 1);
   (("z", [PInt 40477; PInt 4120; PStr "KO"; PStr "KL"]), 1);
   (("z", [PInt 40477; PInt 44717; PStr "KO(STM)"; PStr "KO"]), 1);
   (("z", [PInt 40477; PInt 44862; PStr "KL"; PStr "MJ"]), 1);
   (("z", [PInt 40477; PInt 44862; PStr "KO"; PStr "KL"]), 1);
   (("z", [PInt 40477; PInt 4500; PStr "KO"; PStr "KTC"]), 1);
   (("z", [PInt 40477; PInt 73000; PStr "KO"; PStr "KTC"]), 1);
   (("z", [PInt 40477; PInt 94717; PStr "KO(STM)"; PStr "KO"]), 1);
   (("z", [PInt 40518; PInt 34319; PStr "KO"; PStr "KO(STM)"]), 1);
   (("z", [PInt 40518; PInt 40477; PStr "KO"; PStr "KO(STM)"]), 1);
   (("z", [PInt 40518; PInt 44717; PStr "Ty"; PStr "KL"]), 1);
   (("z", [PInt 40518; PInt 54101; PStr "KO"; PStr "KO(STM)"]), 1);
   (("z", [PInt 40518; PInt 94717; PStr "KO"; PStr "KO(STM)"]), 1);
   (("z", [PInt 40628; PInt 40675; PStr "CB"; PStr "KTC"]), 1);
   (("z", [PInt 40628; PInt 40675; PStr "GLC"; PStr "CB"]), 1);
   (("z", [PInt 40628; PInt 94317; PStr "CB"; PStr "KTC"]), 1);
   (("z", [PInt 40673; PInt 40150; PStr "KZ"; PStr "KO(STM)"]), 1);
   (("z", [PInt 40673; PInt 40628; PStr "CB"; PStr "GLC"]), 1);
   (("z", [PInt 40673; PInt 40628; PStr "KZ"; PStr "KO(STM)"]), 1);
   (("z", [PInt 40673; PInt 41004; PStr "KZ"; PStr "KO(STM)"]), 1);
   (("z", [PInt 40673; PInt 4120; PStr "KZ"; PStr "KO(STM)"]), 1);
   (("z", [PInt 40673; PInt 4500; PStr "CB"; PStr "GLC"]), 1);
   (("z", [PInt 40673; PInt 4500; PStr "KZ"; PStr "KO(STM)"]), 1);
   (("z", [PInt 40673; PInt 5312; PStr "KZ"; PStr "KO(STM)"]), 1);
   (("z", [PInt 40673; PInt 64350; PStr "CB"; PStr "CM"]), 1);
   (("z", [PInt 40673; PInt 64350; PStr "KZ"; PStr "KO(STM)"]), 1);
   (("z", [PInt 40673; PInt 73000; PStr "CB"; PStr "GLC"]), 1);
   (("z", [PInt 40673; PInt 73000; PStr "KZ"; PStr "KO(STM)"]), 1);
   (("z", [PInt 40675; PInt 40628; PStr "KZ"; PStr "KO(STM)"]), 1);
   (("z", [PInt 40675; PInt 4120; PStr "KZ"; PStr "KO(STM)"]), 1);
   (("z", [PInt 40675; PInt 4500; PStr "KZ"; PStr "KO(STM)"]), 1);
   (("z", [PInt 40675; PInt 64350; PStr "KZ"; PStr "KO(STM)"]), 1);
   (("z", [PInt 40675; PInt 73000; PStr "KZ"; PStr "KO(STM)"]), 1);
   (("z", [PInt 41004; PInt 44717; PStr "Ty"; PStr "KL"]), 1);
   (("z", [PInt 421009; PInt 40150; PStr "KO(IC)"; PStr "KO(STM)"]), 1);
   (("z", [PInt 421009; PInt 40150; PStr "KO(STM)"; PStr "KO"]), 1);
   (("z", [PInt 421009; PInt 40518; PStr "KO(STM)"; PStr "KO"]), 1);
   (("z", [PInt 421009; PInt 40628; PStr "KO(IC)"; PStr "KO(STM)"]), 1);
   (("z", [PInt 421009; PInt 40628; PStr "KO(STM)"; PStr "KO"]), 1);
   (("z", [PInt 421009; PInt 41004; PStr "KO(IC)"; PStr "KO(STM)"]), 1);
   (("z", [PInt 421009; PInt 4120; PStr "KO(IC)"; PStr "KO(STM)"]), 1);
   (("z", [PInt 421009; PInt 4120; PStr "KO(STM)"; PStr "KO"]), 1);
   (("z", [PInt 421009; PInt 4500; PStr "KO(IC)"; PStr "KO(STM)"]), 1);
   (("z", [PInt 421009; PInt 4500; PStr "KO(STM)"; PStr "KO"]), 1);
   (("z", [PInt 421009; PInt 5312; PStr "KO(IC)"; PStr "KO(STM)"]), 1);
   (("z", [PInt 421009; PInt 5312; PStr "KO(STM)"; PStr "KO"]), 1);
   (("z", [PInt 421009; PInt 541019; PStr "KO(IC)"; PStr "KO(STM)"]), 1);
   (("z", [PInt 421009; PInt 541019; PStr "KO(STM)"; PStr "KO"]), 1);
   (("z", [PInt 421009; PInt 64350; PStr "KO(IC)"; PStr "KO(STM)"]), 1);
   (("z", [PInt 421009; PInt 73000; PStr "KO(IC)"; PStr "KO(STM)"]), 1);
   (("z", [PInt 421009; PInt 73000; PStr "KO(STM)"; PStr "KO"]), 1);
   (("z", [PInt 42100; PInt 34319; PStr "KO"; PStr "KO(STM)"]), 1);
   (("z", [PInt 42100; PInt 54101; PStr "KO"; PStr "KO(STM)"]), 1);
   (("z", [PInt 44717; PInt 40628; PStr "KO"; PStr "KTC"]), 1);
   (("z", [PInt 44717; PInt 4120; PStr "KL"; PStr "Ty"]), 1);
   (("z", [PInt 44717; PInt 4120; PStr "KO"; PStr "KL"]), 1);
   (("z", [PInt 44717; PInt 44862; PStr "KL"; PStr "MJ"]), 1);
   (("z", [PInt 44717; PInt 44862; PStr "KO"; PStr "KL"]), 1);
   (("z", [PInt 44717; PInt 73000; PStr "KO"; PStr "KTC"]), 1);
   (("z", [PInt 44862; PInt 44717; PStr "Mi"; PStr "MJ"]), 1);
   (("z", [PInt 4500; PInt 40675; PStr "CB"; PStr "KTC"]), 1);
   (("z", [PInt 4500; PInt 40675; PStr "GLC"; PStr "CB"]), 1);
   (("z", [PInt 4500; PInt 94317; PStr "CB"; PStr "KTC"]), 1);
   (("z", [PInt 4500; PInt 94317; PStr "GLC"; PStr "CB"]), 1);
   (("z", [PInt 5312; PInt 14006; PStr "KTC"; PStr "KO"]), 1);
   (("z", [PInt 5312; PInt 26103; PStr "CB"; PStr "KTC"]), 1);
   (("z", [PInt 5312; PInt 34319; PStr "KO"; PStr "KO(STM)"]), 1);
   (("z", [PInt 5312; PInt 40477; PStr "KTC"; PStr "KO"]), 1);
   (("z", [PInt 5312; PInt 40673; PStr "CB"; PStr "KTC"]), 1);
   (("z", [PInt 5312; PInt 40673; PStr "GLC"; PStr "CB"]), 1);
   (("z", [PInt 5312; PInt 40675; PStr "CB"; PStr "KTC"]), 1);
   (("z", [PInt 5312; PInt 40675; PStr "GLC"; PStr "CB"]), 1);
   (("z", [PInt 5312; PInt 44717; PStr "KTC"; PStr "KO"]), 1);
   (("z", [PInt 5312; PInt 94113; PStr "KTC"; PStr "KO"]), 1);
   (("z", [PInt 5312; PInt 94317; PStr "CB"; PStr "KTC"]), 1);
   (("z", [PInt 5312; PInt 94317; PStr "GLC"; PStr "CB"]), 1);
   (("z", [PInt 5312; PInt 94717; PStr "KTC"; PStr "KO"]), 1);
   (("z", [PInt 54101; PInt 40150; PStr "KZ"; PStr "KO(STM)"]), 1);
   (("z", [PInt 54101; PInt 40628; PStr "KO(STM)"; PStr "KO"]), 1);
   (("z", [PInt 54101; PInt 40628; PStr "KZ"; PStr "KO(STM)"]), 1);
   (("z", [PInt 54101; PInt 41004; PStr "KZ"; PStr "KO(STM)"]), 1);
   (("z", [PInt 54101; PInt 4120; PStr "KO(STM)"; PStr "KO"]), 1);
   (("z", [PInt 54101; PInt 4120; PStr "KZ"; PStr "KO(STM)"]), 1);
   (("z", [PInt 54101; PInt 4500; PStr "KO(STM)"; PStr "KO"]), 1);
   (("z", [PInt 54101; PInt 4500; PStr "KZ"; PStr "KO(STM)"]), 1);
   (("z", [PInt 54101; PInt 5312; PStr "KZ"; PStr "KO(STM)"]), 1);
   (("z", [PInt 54101; PInt 64350; PStr "KZ"; PStr "KO(STM)"]), 1);
   (("z", [PInt 54101; PInt 73000; PStr "KO(STM)"; PStr "KO"]), 1);
   (("z", [PInt 54101; PInt 73000; PStr "KZ"; PStr "KO(STM)"]), 1);
   (("z", [PInt 64350; PInt 40675; PStr "CB"; PStr "KTC"]), 1);
   (("z", [PInt 64350; PInt 40675; PStr "CM"; PStr "CB"]), 1);
   (("z", [PInt 64350; PInt 94317; PStr "CB"; PStr "KTC"]), 1);
   (("z", [PInt 73000; PInt 40675; PStr "CB"; PStr "KTC"]), 1);
   (("z", [PInt 73000; PInt 94317; PStr "CB"; PStr "KTC"]), 1);
   (("z", [PInt 94113; PInt 40628; PStr "KO"; PStr "KTC"]), 1);
   (("z", [PInt 94113; PInt 4120; PStr "KO"; PStr "KL"]), 1);
   (("z", [PInt 94113; PInt 44862; PStr "KL"; PStr "MJ"]), 1);
   (("z", [PInt 94113; PInt 44862; PStr "KO"; PStr "KL"]), 1);
   (("z", [PInt 94113; PInt 4500; PStr "KO"; PStr "KTC"]), 1);
   (("z", [PInt 94113; PInt 73000; PStr "KO"; PStr "KTC"]), 1);
   (("z", [PInt 94113; PInt 94317; PStr "KO"; PStr "KO(STM)"]), 1);
   (("z", [PInt 94113; PInt 94717; PStr "KO(KS)"; PStr "KO"]), 1);
   (("z", [PInt 94317; PInt 40628; PStr "KZ"; PStr "KO(STM)"]), 1);
   (("z", [PInt 94317; PInt 41004; PStr "KZ"; PStr "KO(STM)"]), 1);
   (("z", [PInt 94317; PInt 4120; PStr "KZ"; PStr "KO(STM)"]), 1);
   (("z", [PInt 94317; PInt 4500; PStr "KZ"; PStr "KO(STM)"]), 1);
   (("z", [PInt 94317; PInt 64350; PStr "KZ"; PStr "KO(STM)"]), 1);
   (("z", [PInt 94317; PInt 73000; PStr "KZ"; PStr "KO(STM)"]), 1);
   (("z", [PInt 94611; PInt 40150; PStr "KO"; PStr "KTC"]), 1);
   (("z", [PInt 94611; PInt 40477; PStr "KO(KS)"; PStr "KO"]), 1);
   (("z", [PInt 94611; PInt 40477; PStr "KO"; PStr "KO(STM)"]), 1);
   (("z", [PInt 94611; PInt 40628; PStr "KO"; PStr "KTC"]), 1);
   (("z", [PInt 94611; PInt 41004; PStr "KO"; PStr "KL"]), 1);
   (("z", [PInt 94611; PInt 4120; PStr "KL"; PStr "Ty"]), 1);
   (("z", [PInt 94611; PInt 4120; PStr "KO"; PStr "KL"]), 1);
   (("z", [PInt 94611; PInt 44717; PStr "KO(KS)"; PStr "KO"]), 1);
   (("z", [PInt 94611; PInt 44862; PStr "KL"; PStr "MJ"]), 1);
   (("z", [PInt 94611; PInt 44862; PStr "KO"; PStr "KL"]), 1);
   (("z", [PInt 94611; PInt 4500; PStr "KO"; PStr "KTC"]), 1);
   (("z", [PInt 94611; PInt 73000; PStr "KO"; PStr "KTC"]), 1);
   (("z", [PInt 94611; PInt 94113; PStr "KO(KS)"; PStr "KO"]), 1);
   (("z", [PInt 94611; PInt 94113; PStr "KO"; PStr "KO(KS)"]), 1);
   (("z", [PInt 94611; PInt 94317; PStr "KO"; PStr "KO(STM)"]), 1);
   (("z", [PInt 94611; PInt 94717; PStr "KO(KS)"; PStr "KO"]), 1);
   (("z", [PInt 94611; PInt 94766; PStr "KO"; PStr "KL"]), 1);
   (("z", [PInt 94717; PInt 40628; PStr "KO"; PStr "KTC"]), 1);
   (("z", [PInt 94717; PInt 4120; PStr "KO"; PStr "KL"]), 1);
   (("z", [PInt 94717; PInt 44862; PStr "KO"; PStr "KL"]), 1);
   (("z", [PInt 94717; PInt 73000; PStr "KO"; PStr "KTC"]), 1);
   (("z", [PInt 94766; PInt 34319; PStr "KO"; PStr "KO(STM)"]), 1);
   (("z", [PInt 94766; PInt 44717; PStr "Ty"; PStr "KL"]), 1);
   (("z", [PStr "in"; PInt 40150; PInt 64350; PStr "CB"]), 1);
   (("z", [PStr "in"; PInt 40150; PInt 94113; PStr "KO"]), 1);
   (("z", [PStr "in"; PInt 40518; PInt 44862; PStr "KL"]), 1);
   (("z", [PStr "in"; PInt 40518; PInt 64350; PStr "KO"]), 1);
   (("z", [PStr "in"; PInt 41004; PInt 44862; PStr "KL"]), 1);
   (("z", [PStr "in"; PInt 41004; PInt 64350; PStr "KO"]), 1);
   (("z", [PStr "in"; PInt 421009; PInt 34319; PStr "KO(STM)"]), 1);
   (("z", [PStr "in"; PInt 421009; PInt 54101; PStr "KO(STM)"]), 1);
   (("z", [PStr "in"; PInt 4500; PInt 64350; PStr "CB"]), 1);
   (("z", [PStr "in"; PInt 5312; PInt 64350; PStr "CB"]), 1);
   (("z", [PStr "in"; PInt 5312; PInt 94113; PStr "KO"]), 1);
   (("z", [PStr "in"; PInt 94113; PInt 40628; PStr "KO"]), 1);
   (("z", [PStr "in"; PInt 94113; PInt 4500; PStr "KO"]), 1);
   (("z", [PStr "in"; PInt 94113; PInt 73000; PStr "KO"]), 1);
   (("z", [PStr "in"; PInt 94113; PInt 94317; PStr "KO"]), 1);
   (("z", [PStr "in"; PInt 94611; PInt 40150; PStr "KO"]), 1);
   (("z", [PStr "in"; PInt 94611; PInt 40477; PStr "KO"]), 1);
   (("z", [PStr "in"; PInt 94611; PInt 40628; PStr "KO"]), 1);
   (("z", [PStr "in"; PInt 94611; PInt 4500; PStr "KO"]), 1);
   (("z", [PStr "in"; PInt 94611; PInt 73000; PStr "KO"]), 1);
   (("z", [PStr "in"; PInt 94611; PInt 94317; PStr "KO"]), 1);
   (("z", [PStr "in"; PInt 94766; PInt 44862; PStr "KL"]), 1);
   (("z", [PStr "in"; PInt 94766; PInt 64350; PStr "KO"]), 1)].

Definition minutes9 : Q := 413 # 2.
