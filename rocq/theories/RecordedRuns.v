(** * RecordedRuns: two solutions kept in the repository

    Samples of the hybrid solver for cases 0 and 3 of solve_real_problem.py, copied by a script from
    solutions_quantum/cqm5_case0_Integer.pkl and cqm5_case3_Integer.pkl (first run of each): the
    variables that are not zero, with their values. *)

From Coq Require Import List String ZArith QArith.
From Verif Require Import Base Pulp.
Import ListNotations.
Open Scope string_scope.
Open Scope list_scope.

Definition run0 : list (vid * Q) :=
  [(("Delays", [PInt 14006; PStr "KL"]), 1);
   (("Delays", [PInt 14006; PStr "KO"]), 1);
   (("Delays", [PInt 14006; PStr "KO(STM)"]), 5);
   (("Delays", [PInt 14006; PStr "KZ"]), 1);
   (("Delays", [PInt 26103; PStr "KO(STM)"]), 1);
   (("Delays", [PInt 343199; PStr "KO"]), 5);
   (("Delays", [PInt 40150; PStr "GLC"]), 1);
   (("Delays", [PInt 40150; PStr "KO"]), 1);
   (("Delays", [PInt 40150; PStr "KO(STM)"]), 1);
   (("Delays", [PInt 40477; PStr "KL"]), 3);
   (("Delays", [PInt 40477; PStr "KO"]), 2);
   (("Delays", [PInt 40477; PStr "KO(STM)"]), 21);
   (("Delays", [PInt 40518; PStr "Ty"]), 3);
   (("Delays", [PInt 40628; PStr "CB"]), 2);
   (("Delays", [PInt 40628; PStr "GLC"]), 1);
   (("Delays", [PInt 40673; PStr "KO(STM)"]), 9);
   (("Delays", [PInt 40673; PStr "KZ"]), 4);
   (("Delays", [PInt 40675; PStr "KO(STM)"]), 4);
   (("Delays", [PInt 40675; PStr "KZ"]), 1);
   (("Delays", [PInt 41004; PStr "KL"]), 4);
   (("Delays", [PInt 41004; PStr "Ty"]), 1);
   (("Delays", [PInt 4120; PStr "KL"]), 3);
   (("Delays", [PInt 4120; PStr "Ty"]), 3);
   (("Delays", [PInt 421009; PStr "KO(IC)"]), 1);
   (("Delays", [PInt 421009; PStr "KO(STM)"]), 11);
   (("Delays", [PInt 44717; PStr "KL"]), 1);
   (("Delays", [PInt 44717; PStr "KO(STM)"]), 7);
   (("Delays", [PInt 4500; PStr "CB"]), 4);
   (("Delays", [PInt 4500; PStr "GLC"]), 3);
   (("Delays", [PInt 5312; PStr "CB"]), 2);
   (("Delays", [PInt 5312; PStr "GLC"]), 1);
   (("Delays", [PInt 541019; PStr "KO"]), 4);
   (("Delays", [PInt 541019; PStr "KO(STM)"]), 4);
   (("Delays", [PInt 64350; PStr "CB"]), 1);
   (("Delays", [PInt 64350; PStr "CM"]), 2);
   (("Delays", [PInt 73000; PStr "CB"]), 3);
   (("Delays", [PInt 73000; PStr "GLC"]), 2);
   (("Delays", [PInt 94113; PStr "KL"]), 1);
   (("Delays", [PInt 94113; PStr "KO(KS)"]), 6);
   (("Delays", [PInt 94317; PStr "CB"]), 1);
   (("Delays", [PInt 94317; PStr "KO"]), 1);
   (("Delays", [PInt 94317; PStr "KO(STM)"]), 3);
   (("Delays", [PInt 94317; PStr "KZ"]), 3);
   (("Delays", [PInt 94611; PStr "KO(KS)"]), 14);
   (("Delays", [PInt 94717; PStr "KL"]), 1);
   (("Delays", [PInt 94717; PStr "KO"]), 1);
   (("Delays", [PInt 94717; PStr "KO(STM)"]), 8);
   (("Delays", [PInt 94766; PStr "Ty"]), 1);
   (("y", [PInt 14006; PInt 40477; PStr "one_station"; PStr "KL"]), 1);
   (("y", [PInt 14006; PInt 40477; PStr "one_station"; PStr "KO"]), 1);
   (("y", [PInt 14006; PInt 40477; PStr "one_station"; PStr "KO(STM)"]), 1);
   (("y", [PInt 14006; PInt 40673; PStr "one_station"; PStr "KO"]), 1);
   (("y", [PInt 14006; PInt 40673; PStr "one_station"; PStr "KO(STM)"]), 1);
   (("y", [PInt 14006; PInt 40673; PStr "one_station"; PStr "KZ"]), 1);
   (("y", [PInt 14006; PInt 40675; PStr "one_station"; PStr "KO"]), 1);
   (("y", [PInt 14006; PInt 40675; PStr "one_station"; PStr "KO(STM)"]), 1);
   (("y", [PInt 14006; PInt 40675; PStr "one_station"; PStr "KZ"]), 1);
   (("y", [PInt 14006; PInt 44717; PStr "one_station"; PStr "KO"]), 1);
   (("y", [PInt 14006; PInt 44717; PStr "one_station"; PStr "KO(STM)"]), 1);
   (("y", [PInt 14006; PInt 54101; PStr "one_station"; PStr "KO(STM)"]), 1);
   (("y", [PInt 14006; PInt 54101; PStr "one_station"; PStr "KZ"]), 1);
   (("y", [PInt 14006; PInt 94113; PStr "one_station"; PStr "KL"]), 1);
   (("y", [PInt 14006; PInt 94113; PStr "one_station"; PStr "KO"]), 1);
   (("y", [PInt 14006; PInt 94317; PStr "one_station"; PStr "KO"]), 1);
   (("y", [PInt 14006; PInt 94317; PStr "one_station"; PStr "KO(STM)"]), 1);
   (("y", [PInt 14006; PInt 94717; PStr "one_station"; PStr "KL"]), 1);
   (("y", [PInt 14006; PInt 94717; PStr "one_station"; PStr "KO"]), 1);
   (("y", [PInt 14006; PInt 94717; PStr "one_station"; PStr "KO(STM)"]), 1);
   (("y", [PInt 26103; PInt 14006; PStr "one_station"; PStr "KO"]), 1);
   (("y", [PInt 26103; PInt 14006; PStr "one_station"; PStr "KO(STM)"]), 1);
   (("y", [PInt 26103; PInt 14006; PStr "one_station"; PStr "KZ"]), 1);
   (("y", [PInt 26103; PInt 34319; PStr "one_station"; PStr "KO(STM)"]), 1);
   (("y", [PInt 26103; PInt 40477; PStr "one_station"; PStr "KO"]), 1);
   (("y", [PInt 26103; PInt 40477; PStr "one_station"; PStr "KO(STM)"]), 1);
   (("y", [PInt 26103; PInt 40673; PStr "one_station"; PStr "CB"]), 1);
   (("y", [PInt 26103; PInt 40673; PStr "one_station"; PStr "KO"]), 1);
   (("y", [PInt 26103; PInt 40673; PStr "one_station"; PStr "KO(STM)"]), 1);
   (("y", [PInt 26103; PInt 40673; PStr "one_station"; PStr "KZ"]), 1);
   (("y", [PInt 26103; PInt 40675; PStr "one_station"; PStr "CB"]), 1);
   (("y", [PInt 26103; PInt 40675; PStr "one_station"; PStr "KO"]), 1);
   (("y", [PInt 26103; PInt 40675; PStr "one_station"; PStr "KO(STM)"]), 1);
   (("y", [PInt 26103; PInt 40675; PStr "one_station"; PStr "KZ"]), 1);
   (("y", [PInt 26103; PInt 44717; PStr "one_station"; PStr "KO(STM)"]), 1);
   (("y", [PInt 26103; PInt 54101; PStr "one_station"; PStr "KO(STM)"]), 1);
   (("y", [PInt 26103; PInt 54101; PStr "one_station"; PStr "KZ"]), 1);
   (("y", [PInt 26103; PInt 94317; PStr "one_station"; PStr "KO"]), 1);
   (("y", [PInt 26103; PInt 94317; PStr "one_station"; PStr "KO(STM)"]), 1);
   (("y", [PInt 26103; PInt 94717; PStr "one_station"; PStr "KO(STM)"]), 1);
   (("y", [PInt 343199; PInt 40628; PStr "one_station"; PStr "KO"]), 1);
   (("y", [PInt 343199; PInt 41004; PStr "one_station"; PStr "KO"]), 1);
   (("y", [PInt 343199; PInt 4120; PStr "one_station"; PStr "KO"]), 1);
   (("y", [PInt 343199; PInt 44862; PStr "one_station"; PStr "KO"]), 1);
   (("y", [PInt 343199; PInt 4500; PStr "one_station"; PStr "KO"]), 1);
   (("y", [PInt 343199; PInt 541019; PStr "one_station"; PStr "KO"]), 1);
   (("y", [PInt 343199; PInt 64350; PStr "one_station"; PStr "KO"]), 1);
   (("y", [PInt 343199; PInt 73000; PStr "one_station"; PStr "KO"]), 1);
   (("y", [PInt 34319; PInt 14006; PStr "one_station"; PStr "KO(STM)"]), 1);
   (("y", [PInt 34319; PInt 40150; PStr "one_station"; PStr "KO(STM)"]), 1);
   (("y", [PInt 34319; PInt 40477; PStr "one_station"; PStr "KO(STM)"]), 1);
   (("y", [PInt 34319; PInt 40628; PStr "one_station"; PStr "KO(STM)"]), 1);
   (("y", [PInt 34319; PInt 40673; PStr "one_station"; PStr "KO(STM)"]), 1);
   (("y", [PInt 34319; PInt 40675; PStr "one_station"; PStr "KO(STM)"]), 1);
   (("y", [PInt 34319; PInt 4120; PStr "one_station"; PStr "KO(STM)"]), 1);
   (("y", [PInt 34319; PInt 44717; PStr "one_station"; PStr "KO(STM)"]), 1);
   (("y", [PInt 34319; PInt 4500; PStr "one_station"; PStr "KO(STM)"]), 1);
   (("y", [PInt 34319; PInt 541019; PStr "one_station"; PStr "KO(STM)"]), 1);
   (("y", [PInt 34319; PInt 54101; PStr "one_station"; PStr "KO(STM)"]), 1);
   (("y", [PInt 34319; PInt 64350; PStr "one_station"; PStr "KO"]), 1);
   (("y", [PInt 34319; PInt 73000; PStr "one_station"; PStr "KO(STM)"]), 1);
   (("y", [PInt 34319; PInt 94317; PStr "one_station"; PStr "KO(STM)"]), 1);
   (("y", [PInt 34319; PInt 94317; PStr "one_station"; PStr "KZ"]), 1);
   (("y", [PInt 34319; PInt 94717; PStr "one_station"; PStr "KO(STM)"]), 1);
   (("y", [PInt 40150; PInt 40628; PStr "one_station"; PStr "CB"]), 1);
   (("y", [PInt 40150; PInt 40628; PStr "one_station"; PStr "GLC"]), 1);
   (("y", [PInt 40150; PInt 40628; PStr "one_station"; PStr "KO"]), 1);
   (("y", [PInt 40150; PInt 40628; PStr "one_station"; PStr "KO(STM)"]), 1);
   (("y", [PInt 40150; PInt 40628; PStr "one_station"; PStr "KZ"]), 1);
   (("y", [PInt 40150; PInt 41004; PStr "one_station"; PStr "KO"]), 1);
   (("y", [PInt 40150; PInt 41004; PStr "one_station"; PStr "KO(STM)"]), 1);
   (("y", [PInt 40150; PInt 41004; PStr "one_station"; PStr "KZ"]), 1);
   (("y", [PInt 40150; PInt 4120; PStr "one_station"; PStr "KO"]), 1);
   (("y", [PInt 40150; PInt 4120; PStr "one_station"; PStr "KO(STM)"]), 1);
   (("y", [PInt 40150; PInt 4120; PStr "one_station"; PStr "KZ"]), 1);
   (("y", [PInt 40150; PInt 44862; PStr "one_station"; PStr "KO"]), 1);
   (("y", [PInt 40150; PInt 4500; PStr "one_station"; PStr "CB"]), 1);
   (("y", [PInt 40150; PInt 4500; PStr "one_station"; PStr "GLC"]), 1);
   (("y", [PInt 40150; PInt 4500; PStr "one_station"; PStr "KO"]), 1);
   (("y", [PInt 40150; PInt 4500; PStr "one_station"; PStr "KO(STM)"]), 1);
   (("y", [PInt 40150; PInt 4500; PStr "one_station"; PStr "KZ"]), 1);
   (("y", [PInt 40150; PInt 541019; PStr "one_station"; PStr "KO"]), 1);
   (("y", [PInt 40150; PInt 541019; PStr "one_station"; PStr "KO(STM)"]), 1);
   (("y", [PInt 40150; PInt 54101; PStr "one_station"; PStr "KO(STM)"]), 1);
   (("y", [PInt 40150; PInt 64350; PStr "one_station"; PStr "CB"]), 1);
   (("y", [PInt 40150; PInt 64350; PStr "one_station"; PStr "KO"]), 1);
   (("y", [PInt 40150; PInt 73000; PStr "one_station"; PStr "CB"]), 1);
   (("y", [PInt 40150; PInt 73000; PStr "one_station"; PStr "GLC"]), 1);
   (("y", [PInt 40150; PInt 73000; PStr "one_station"; PStr "KO"]), 1);
   (("y", [PInt 40150; PInt 73000; PStr "one_station"; PStr "KO(STM)"]), 1);
   (("y", [PInt 40477; PInt 40675; PStr "one_station"; PStr "KO"]), 1);
   (("y", [PInt 40477; PInt 40675; PStr "one_station"; PStr "KO(STM)"]), 1);
   (("y", [PInt 40477; PInt 44717; PStr "one_station"; PStr "KO"]), 1);
   (("y", [PInt 40477; PInt 44717; PStr "one_station"; PStr "KO(STM)"]), 1);
   (("y", [PInt 40477; PInt 94317; PStr "one_station"; PStr "KO"]), 1);
   (("y", [PInt 40477; PInt 94317; PStr "one_station"; PStr "KO(STM)"]), 1);
   (("y", [PInt 40477; PInt 94717; PStr "one_station"; PStr "KL"]), 1);
   (("y", [PInt 40477; PInt 94717; PStr "one_station"; PStr "KO"]), 1);
   (("y", [PInt 40477; PInt 94717; PStr "one_station"; PStr "KO(STM)"]), 1);
   (("y", [PInt 40477; PInt 94717; PStr "one_station"; PStr "Ty"]), 1);
   (("y", [PInt 40518; PInt 343199; PStr "one_station"; PStr "KO"]), 1);
   (("y", [PInt 40518; PInt 40150; PStr "one_station"; PStr "KO"]), 1);
   (("y", [PInt 40518; PInt 40628; PStr "one_station"; PStr "KO"]), 1);
   (("y", [PInt 40518; PInt 41004; PStr "one_station"; PStr "KL"]), 1);
   (("y", [PInt 40518; PInt 41004; PStr "one_station"; PStr "KO"]), 1);
   (("y", [PInt 40518; PInt 41004; PStr "one_station"; PStr "Ty"]), 1);
   (("y", [PInt 40518; PInt 4120; PStr "one_station"; PStr "KL"]), 1);
   (("y", [PInt 40518; PInt 4120; PStr "one_station"; PStr "KO"]), 1);
   (("y", [PInt 40518; PInt 4120; PStr "one_station"; PStr "Ty"]), 1);
   (("y", [PInt 40518; PInt 44862; PStr "one_station"; PStr "KL"]), 1);
   (("y", [PInt 40518; PInt 44862; PStr "one_station"; PStr "KO"]), 1);
   (("y", [PInt 40518; PInt 4500; PStr "one_station"; PStr "KO"]), 1);
   (("y", [PInt 40518; PInt 541019; PStr "one_station"; PStr "KO"]), 1);
   (("y", [PInt 40518; PInt 64350; PStr "one_station"; PStr "KO"]), 1);
   (("y", [PInt 40518; PInt 73000; PStr "one_station"; PStr "KO"]), 1);
   (("y", [PInt 40628; PInt 4120; PStr "one_station"; PStr "KO"]), 1);
   (("y", [PInt 40628; PInt 4120; PStr "one_station"; PStr "KO(STM)"]), 1);
   (("y", [PInt 40628; PInt 4120; PStr "one_station"; PStr "KZ"]), 1);
   (("y", [PInt 40628; PInt 73000; PStr "one_station"; PStr "CB"]), 1);
   (("y", [PInt 40628; PInt 73000; PStr "one_station"; PStr "GLC"]), 1);
   (("y", [PInt 40628; PInt 73000; PStr "one_station"; PStr "KO"]), 1);
   (("y", [PInt 40628; PInt 73000; PStr "one_station"; PStr "KO(STM)"]), 1);
   (("y", [PInt 40673; PInt 40477; PStr "one_station"; PStr "KO"]), 1);
   (("y", [PInt 40673; PInt 40675; PStr "one_station"; PStr "CB"]), 1);
   (("y", [PInt 40673; PInt 40675; PStr "one_station"; PStr "KO"]), 1);
   (("y", [PInt 40673; PInt 40675; PStr "one_station"; PStr "KO(STM)"]), 1);
   (("y", [PInt 40673; PInt 40675; PStr "one_station"; PStr "KZ"]), 1);
   (("y", [PInt 40673; PInt 44717; PStr "one_station"; PStr "KO(STM)"]), 1);
   (("y", [PInt 40673; PInt 54101; PStr "one_station"; PStr "KO(STM)"]), 1);
   (("y", [PInt 40673; PInt 54101; PStr "one_station"; PStr "KZ"]), 1);
   (("y", [PInt 40673; PInt 94317; PStr "one_station"; PStr "KO"]), 1);
   (("y", [PInt 40673; PInt 94317; PStr "one_station"; PStr "KO(STM)"]), 1);
   (("y", [PInt 40673; PInt 94717; PStr "one_station"; PStr "KO(STM)"]), 1);
   (("y", [PInt 41004; PInt 40628; PStr "one_station"; PStr "KO"]), 1);
   (("y", [PInt 41004; PInt 40628; PStr "one_station"; PStr "KO(STM)"]), 1);
   (("y", [PInt 41004; PInt 40628; PStr "one_station"; PStr "KZ"]), 1);
   (("y", [PInt 41004; PInt 4120; PStr "one_station"; PStr "KL"]), 1);
   (("y", [PInt 41004; PInt 4120; PStr "one_station"; PStr "KO"]), 1);
   (("y", [PInt 41004; PInt 4120; PStr "one_station"; PStr "KO(STM)"]), 1);
   (("y", [PInt 41004; PInt 4120; PStr "one_station"; PStr "KZ"]), 1);
   (("y", [PInt 41004; PInt 4120; PStr "one_station"; PStr "Ty"]), 1);
   (("y", [PInt 41004; PInt 44862; PStr "one_station"; PStr "KL"]), 1);
   (("y", [PInt 41004; PInt 44862; PStr "one_station"; PStr "KO"]), 1);
   (("y", [PInt 41004; PInt 4500; PStr "one_station"; PStr "KO"]), 1);
   (("y", [PInt 41004; PInt 4500; PStr "one_station"; PStr "KO(STM)"]), 1);
   (("y", [PInt 41004; PInt 4500; PStr "one_station"; PStr "KZ"]), 1);
   (("y", [PInt 41004; PInt 541019; PStr "one_station"; PStr "KO"]), 1);
   (("y", [PInt 41004; PInt 541019; PStr "one_station"; PStr "KO(STM)"]), 1);
   (("y", [PInt 41004; PInt 64350; PStr "one_station"; PStr "KO"]), 1);
   (("y", [PInt 41004; PInt 64350; PStr "one_station"; PStr "KO(STM)"]), 1);
   (("y", [PInt 41004; PInt 73000; PStr "one_station"; PStr "KO"]), 1);
   (("y", [PInt 41004; PInt 73000; PStr "one_station"; PStr "KO(STM)"]), 1);
   (("y", [PInt 421009; PInt 14006; PStr "one_station"; PStr "KO(STM)"]), 1);
   (("y", [PInt 421009; PInt 34319; PStr "one_station"; PStr "KO(STM)"]), 1);
   (("y", [PInt 421009; PInt 40150; PStr "one_station"; PStr "KO(STM)"]), 1);
   (("y", [PInt 421009; PInt 40477; PStr "one_station"; PStr "KO(STM)"]), 1);
   (("y", [PInt 421009; PInt 40628; PStr "one_station"; PStr "KO"]), 1);
   (("y", [PInt 421009; PInt 40628; PStr "one_station"; PStr "KO(STM)"]), 1);
   (("y", [PInt 421009; PInt 40673; PStr "one_station"; PStr "KO(STM)"]), 1);
   (("y", [PInt 421009; PInt 40675; PStr "one_station"; PStr "KO(STM)"]), 1);
   (("y", [PInt 421009; PInt 4120; PStr "one_station"; PStr "KO(STM)"]), 1);
   (("y", [PInt 421009; PInt 44717; PStr "one_station"; PStr "KO(STM)"]), 1);
   (("y", [PInt 421009; PInt 4500; PStr "one_station"; PStr "KO"]), 1);
   (("y", [PInt 421009; PInt 4500; PStr "one_station"; PStr "KO(STM)"]), 1);
   (("y", [PInt 421009; PInt 5312; PStr "one_station"; PStr "KO(STM)"]), 1);
   (("y", [PInt 421009; PInt 541019; PStr "one_station"; PStr "KO(STM)"]), 1);
   (("y", [PInt 421009; PInt 54101; PStr "one_station"; PStr "KO(STM)"]), 1);
   (("y", [PInt 421009; PInt 73000; PStr "one_station"; PStr "KO(STM)"]), 1);
   (("y", [PInt 421009; PInt 94317; PStr "one_station"; PStr "KO(STM)"]), 1);
   (("y", [PInt 421009; PInt 94717; PStr "one_station"; PStr "KO(STM)"]), 1);
   (("y", [PInt 42100; PInt 343199; PStr "one_station"; PStr "KO"]), 1);
   (("y", [PInt 42100; PInt 34319; PStr "one_station"; PStr "KO(STM)"]), 1);
   (("y", [PInt 42100; PInt 40150; PStr "one_station"; PStr "KO"]), 1);
   (("y", [PInt 42100; PInt 40150; PStr "one_station"; PStr "KO(STM)"]), 1);
   (("y", [PInt 42100; PInt 40150; PStr "one_station"; PStr "KZ"]), 1);
   (("y", [PInt 42100; PInt 40518; PStr "one_station"; PStr "KO"]), 1);
   (("y", [PInt 42100; PInt 40628; PStr "one_station"; PStr "KO"]), 1);
   (("y", [PInt 42100; PInt 40628; PStr "one_station"; PStr "KO(STM)"]), 1);
   (("y", [PInt 42100; PInt 40628; PStr "one_station"; PStr "KZ"]), 1);
   (("y", [PInt 42100; PInt 41004; PStr "one_station"; PStr "KO"]), 1);
   (("y", [PInt 42100; PInt 41004; PStr "one_station"; PStr "KO(STM)"]), 1);
   (("y", [PInt 42100; PInt 41004; PStr "one_station"; PStr "KZ"]), 1);
   (("y", [PInt 42100; PInt 4120; PStr "one_station"; PStr "KO"]), 1);
   (("y", [PInt 42100; PInt 4120; PStr "one_station"; PStr "KO(STM)"]), 1);
   (("y", [PInt 42100; PInt 4120; PStr "one_station"; PStr "KZ"]), 1);
   (("y", [PInt 42100; PInt 44862; PStr "one_station"; PStr "KO"]), 1);
   (("y", [PInt 42100; PInt 4500; PStr "one_station"; PStr "KO"]), 1);
   (("y", [PInt 42100; PInt 4500; PStr "one_station"; PStr "KO(STM)"]), 1);
   (("y", [PInt 42100; PInt 4500; PStr "one_station"; PStr "KZ"]), 1);
   (("y", [PInt 42100; PInt 5312; PStr "one_station"; PStr "KO"]), 1);
   (("y", [PInt 42100; PInt 5312; PStr "one_station"; PStr "KO(STM)"]), 1);
   (("y", [PInt 42100; PInt 541019; PStr "one_station"; PStr "KO"]), 1);
   (("y", [PInt 42100; PInt 541019; PStr "one_station"; PStr "KO(STM)"]), 1);
   (("y", [PInt 42100; PInt 54101; PStr "one_station"; PStr "KO(STM)"]), 1);
   (("y", [PInt 42100; PInt 64350; PStr "one_station"; PStr "KO"]), 1);
   (("y", [PInt 42100; PInt 73000; PStr "one_station"; PStr "KO"]), 1);
   (("y", [PInt 42100; PInt 73000; PStr "one_station"; PStr "KO(STM)"]), 1);
   (("y", [PInt 44717; PInt 40675; PStr "one_station"; PStr "KO(STM)"]), 1);
   (("y", [PInt 44717; PInt 94717; PStr "one_station"; PStr "KO"]), 1);
   (("y", [PInt 44717; PInt 94717; PStr "one_station"; PStr "KO(STM)"]), 1);
   (("y", [PInt 44862; PInt 40628; PStr "one_station"; PStr "KO"]), 1);
   (("y", [PInt 44862; PInt 4120; PStr "one_station"; PStr "KL"]), 1);
   (("y", [PInt 44862; PInt 4120; PStr "one_station"; PStr "KO"]), 1);
   (("y", [PInt 44862; PInt 73000; PStr "one_station"; PStr "KO"]), 1);
   (("y", [PInt 4500; PInt 40628; PStr "one_station"; PStr "CB"]), 1);
   (("y", [PInt 4500; PInt 40628; PStr "one_station"; PStr "GLC"]), 1);
   (("y", [PInt 4500; PInt 40628; PStr "one_station"; PStr "KO"]), 1);
   (("y", [PInt 4500; PInt 40628; PStr "one_station"; PStr "KO(STM)"]), 1);
   (("y", [PInt 4500; PInt 40628; PStr "one_station"; PStr "KZ"]), 1);
   (("y", [PInt 4500; PInt 4120; PStr "one_station"; PStr "KO"]), 1);
   (("y", [PInt 4500; PInt 4120; PStr "one_station"; PStr "KO(STM)"]), 1);
   (("y", [PInt 4500; PInt 4120; PStr "one_station"; PStr "KZ"]), 1);
   (("y", [PInt 4500; PInt 44862; PStr "one_station"; PStr "KO"]), 1);
   (("y", [PInt 4500; PInt 64350; PStr "one_station"; PStr "CB"]), 1);
   (("y", [PInt 4500; PInt 64350; PStr "one_station"; PStr "KO"]), 1);
   (("y", [PInt 4500; PInt 73000; PStr "one_station"; PStr "CB"]), 1);
   (("y", [PInt 4500; PInt 73000; PStr "one_station"; PStr "GLC"]), 1);
   (("y", [PInt 4500; PInt 73000; PStr "one_station"; PStr "KO"]), 1);
   (("y", [PInt 4500; PInt 73000; PStr "one_station"; PStr "KO(STM)"]), 1);
   (("y", [PInt 5312; PInt 343199; PStr "one_station"; PStr "KO"]), 1);
   (("y", [PInt 5312; PInt 34319; PStr "one_station"; PStr "KO(STM)"]), 1);
   (("y", [PInt 5312; PInt 40150; PStr "one_station"; PStr "CB"]), 1);
   (("y", [PInt 5312; PInt 40150; PStr "one_station"; PStr "GLC"]), 1);
   (("y", [PInt 5312; PInt 40150; PStr "one_station"; PStr "KO"]), 1);
   (("y", [PInt 5312; PInt 40150; PStr "one_station"; PStr "KO(STM)"]), 1);
   (("y", [PInt 5312; PInt 40518; PStr "one_station"; PStr "KO"]), 1);
   (("y", [PInt 5312; PInt 40628; PStr "one_station"; PStr "CB"]), 1);
   (("y", [PInt 5312; PInt 40628; PStr "one_station"; PStr "GLC"]), 1);
   (("y", [PInt 5312; PInt 40628; PStr "one_station"; PStr "KO"]), 1);
   (("y", [PInt 5312; PInt 40628; PStr "one_station"; PStr "KO(STM)"]), 1);
   (("y", [PInt 5312; PInt 41004; PStr "one_station"; PStr "KO"]), 1);
   (("y", [PInt 5312; PInt 41004; PStr "one_station"; PStr "KO(STM)"]), 1);
   (("y", [PInt 5312; PInt 4120; PStr "one_station"; PStr "KO"]), 1);
   (("y", [PInt 5312; PInt 4120; PStr "one_station"; PStr "KO(STM)"]), 1);
   (("y", [PInt 5312; PInt 44862; PStr "one_station"; PStr "KO"]), 1);
   (("y", [PInt 5312; PInt 4500; PStr "one_station"; PStr "CB"]), 1);
   (("y", [PInt 5312; PInt 4500; PStr "one_station"; PStr "GLC"]), 1);
   (("y", [PInt 5312; PInt 4500; PStr "one_station"; PStr "KO"]), 1);
   (("y", [PInt 5312; PInt 4500; PStr "one_station"; PStr "KO(STM)"]), 1);
   (("y", [PInt 5312; PInt 541019; PStr "one_station"; PStr "KO"]), 1);
   (("y", [PInt 5312; PInt 541019; PStr "one_station"; PStr "KO(STM)"]), 1);
   (("y", [PInt 5312; PInt 54101; PStr "one_station"; PStr "KO(STM)"]), 1);
   (("y", [PInt 5312; PInt 64350; PStr "one_station"; PStr "CB"]), 1);
   (("y", [PInt 5312; PInt 64350; PStr "one_station"; PStr "KO"]), 1);
   (("y", [PInt 5312; PInt 64350; PStr "one_station"; PStr "KO(STM)"]), 1);
   (("y", [PInt 5312; PInt 64350; PStr "one_station"; PStr "KZ"]), 1);
   (("y", [PInt 5312; PInt 73000; PStr "one_station"; PStr "CB"]), 1);
   (("y", [PInt 5312; PInt 73000; PStr "one_station"; PStr "GLC"]), 1);
   (("y", [PInt 5312; PInt 73000; PStr "one_station"; PStr "KO"]), 1);
   (("y", [PInt 5312; PInt 73000; PStr "one_station"; PStr "KO(STM)"]), 1);
   (("y", [PInt 5312; PInt 73000; PStr "one_station"; PStr "KZ"]), 1);
   (("y", [PInt 541019; PInt 40628; PStr "one_station"; PStr "KO"]), 1);
   (("y", [PInt 541019; PInt 40628; PStr "one_station"; PStr "KO(STM)"]), 1);
   (("y", [PInt 541019; PInt 4120; PStr "one_station"; PStr "KO"]), 1);
   (("y", [PInt 541019; PInt 4120; PStr "one_station"; PStr "KO(STM)"]), 1);
   (("y", [PInt 541019; PInt 44862; PStr "one_station"; PStr "KO"]), 1);
   (("y", [PInt 541019; PInt 4500; PStr "one_station"; PStr "KO"]), 1);
   (("y", [PInt 541019; PInt 4500; PStr "one_station"; PStr "KO(STM)"]), 1);
   (("y", [PInt 541019; PInt 64350; PStr "one_station"; PStr "KO"]), 1);
   (("y", [PInt 541019; PInt 64350; PStr "one_station"; PStr "KO(STM)"]), 1);
   (("y", [PInt 541019; PInt 73000; PStr "one_station"; PStr "KO"]), 1);
   (("y", [PInt 541019; PInt 73000; PStr "one_station"; PStr "KO(STM)"]), 1);
   (("y", [PInt 54101; PInt 40628; PStr "one_station"; PStr "KO"]), 1);
   (("y", [PInt 54101; PInt 40628; PStr "one_station"; PStr "KO(STM)"]), 1);
   (("y", [PInt 54101; PInt 40675; PStr "one_station"; PStr "KO(STM)"]), 1);
   (("y", [PInt 54101; PInt 40675; PStr "one_station"; PStr "KZ"]), 1);
   (("y", [PInt 54101; PInt 4120; PStr "one_station"; PStr "KO(STM)"]), 1);
   (("y", [PInt 54101; PInt 44717; PStr "one_station"; PStr "KO(STM)"]), 1);
   (("y", [PInt 54101; PInt 4500; PStr "one_station"; PStr "KO"]), 1);
   (("y", [PInt 54101; PInt 4500; PStr "one_station"; PStr "KO(STM)"]), 1);
   (("y", [PInt 54101; PInt 73000; PStr "one_station"; PStr "KO(STM)"]), 1);
   (("y", [PInt 54101; PInt 94317; PStr "one_station"; PStr "KO(STM)"]), 1);
   (("y", [PInt 54101; PInt 94717; PStr "one_station"; PStr "KO(STM)"]), 1);
   (("y", [PInt 64350; PInt 40628; PStr "one_station"; PStr "CB"]), 1);
   (("y", [PInt 64350; PInt 40628; PStr "one_station"; PStr "KO"]), 1);
   (("y", [PInt 64350; PInt 4120; PStr "one_station"; PStr "KO"]), 1);
   (("y", [PInt 64350; PInt 44862; PStr "one_station"; PStr "KO"]), 1);
   (("y", [PInt 64350; PInt 73000; PStr "one_station"; PStr "CB"]), 1);
   (("y", [PInt 64350; PInt 73000; PStr "one_station"; PStr "KO"]), 1);
   (("y", [PInt 64350; PInt 73000; PStr "one_station"; PStr "KO(STM)"]), 1);
   (("y", [PInt 64350; PInt 73000; PStr "one_station"; PStr "KZ"]), 1);
   (("y", [PInt 73000; PInt 4120; PStr "one_station"; PStr "KO"]), 1);
   (("y", [PInt 73000; PInt 4120; PStr "one_station"; PStr "KO(STM)"]), 1);
   (("y", [PInt 94113; PInt 40477; PStr "one_station"; PStr "KL"]), 1);
   (("y", [PInt 94113; PInt 40477; PStr "one_station"; PStr "KO"]), 1);
   (("y", [PInt 94113; PInt 40477; PStr "one_station"; PStr "Ty"]), 1);
   (("y", [PInt 94113; PInt 44717; PStr "one_station"; PStr "KO"]), 1);
   (("y", [PInt 94113; PInt 94717; PStr "one_station"; PStr "KL"]), 1);
   (("y", [PInt 94113; PInt 94717; PStr "one_station"; PStr "KO"]), 1);
   (("y", [PInt 94113; PInt 94717; PStr "one_station"; PStr "Ty"]), 1);
   (("y", [PInt 94317; PInt 40675; PStr "one_station"; PStr "KO"]), 1);
   (("y", [PInt 94317; PInt 40675; PStr "one_station"; PStr "KO(STM)"]), 1);
   (("y", [PInt 94611; PInt 40477; PStr "one_station"; PStr "KL"]), 1);
   (("y", [PInt 94611; PInt 40477; PStr "one_station"; PStr "KO"]), 1);
   (("y", [PInt 94611; PInt 40477; PStr "one_station"; PStr "Ty"]), 1);
   (("y", [PInt 94611; PInt 44717; PStr "one_station"; PStr "KO"]), 1);
   (("y", [PInt 94611; PInt 94113; PStr "one_station"; PStr "KL"]), 1);
   (("y", [PInt 94611; PInt 94113; PStr "one_station"; PStr "KO"]), 1);
   (("y", [PInt 94611; PInt 94113; PStr "one_station"; PStr "KO(KS)"]), 1);
   (("y", [PInt 94611; PInt 94113; PStr "one_station"; PStr "Ty"]), 1);
   (("y", [PInt 94611; PInt 94717; PStr "one_station"; PStr "KL"]), 1);
   (("y", [PInt 94611; PInt 94717; PStr "one_station"; PStr "KO"]), 1);
   (("y", [PInt 94611; PInt 94717; PStr "one_station"; PStr "Ty"]), 1);
   (("y", [PInt 94717; PInt 40675; PStr "one_station"; PStr "KO(STM)"]), 1);
   (("y", [PInt 94766; PInt 343199; PStr "one_station"; PStr "KO"]), 1);
   (("y", [PInt 94766; PInt 40150; PStr "one_station"; PStr "KO"]), 1);
   (("y", [PInt 94766; PInt 40518; PStr "one_station"; PStr "KL"]), 1);
   (("y", [PInt 94766; PInt 40518; PStr "one_station"; PStr "KO"]), 1);
   (("y", [PInt 94766; PInt 40518; PStr "one_station"; PStr "Ty"]), 1);
   (("y", [PInt 94766; PInt 40628; PStr "one_station"; PStr "KO"]), 1);
   (("y", [PInt 94766; PInt 41004; PStr "one_station"; PStr "KL"]), 1);
   (("y", [PInt 94766; PInt 41004; PStr "one_station"; PStr "KO"]), 1);
   (("y", [PInt 94766; PInt 41004; PStr "one_station"; PStr "Ty"]), 1);
   (("y", [PInt 94766; PInt 4120; PStr "one_station"; PStr "KL"]), 1);
   (("y", [PInt 94766; PInt 4120; PStr "one_station"; PStr "KO"]), 1);
   (("y", [PInt 94766; PInt 4120; PStr "one_station"; PStr "Ty"]), 1);
   (("y", [PInt 94766; PInt 42100; PStr "one_station"; PStr "KO"]), 1);
   (("y", [PInt 94766; PInt 44862; PStr "one_station"; PStr "KL"]), 1);
   (("y", [PInt 94766; PInt 44862; PStr "one_station"; PStr "KO"]), 1);
   (("y", [PInt 94766; PInt 4500; PStr "one_station"; PStr "KO"]), 1);
   (("y", [PInt 94766; PInt 5312; PStr "one_station"; PStr "KO"]), 1);
   (("y", [PInt 94766; PInt 541019; PStr "one_station"; PStr "KO"]), 1);
   (("y", [PInt 94766; PInt 64350; PStr "one_station"; PStr "KO"]), 1);
   (("y", [PInt 94766; PInt 73000; PStr "one_station"; PStr "KO"]), 1);
   (("z", [PInt 14006; PInt 44862; PStr "KL"; PStr "MJ"]), 1);
   (("z", [PInt 34319; PInt 40150; PStr "KO(STM)"; PStr "KO"]), 1);
   (("z", [PInt 34319; PInt 40150; PStr "KZ"; PStr "KO(STM)"]), 1);
   (("z", [PInt 34319; PInt 40628; PStr "KO(STM)"; PStr "KO"]), 1);
   (("z", [PInt 34319; PInt 40628; PStr "KZ"; PStr "KO(STM)"]), 1);
   (("z", [PInt 34319; PInt 41004; PStr "KO(STM)"; PStr "KO"]), 1);
   (("z", [PInt 34319; PInt 41004; PStr "KZ"; PStr "KO(STM)"]), 1);
   (("z", [PInt 34319; PInt 4120; PStr "KO(STM)"; PStr "KO"]), 1);
   (("z", [PInt 34319; PInt 4120; PStr "KZ"; PStr "KO(STM)"]), 1);
   (("z", [PInt 34319; PInt 44862; PStr "KO(STM)"; PStr "KO"]), 1);
   (("z", [PInt 34319; PInt 4500; PStr "KO(STM)"; PStr "KO"]), 1);
   (("z", [PInt 34319; PInt 4500; PStr "KZ"; PStr "KO(STM)"]), 1);
   (("z", [PInt 34319; PInt 541019; PStr "KO(STM)"; PStr "KO"]), 1);
   (("z", [PInt 34319; PInt 541019; PStr "KZ"; PStr "KO(STM)"]), 1);
   (("z", [PInt 34319; PInt 64350; PStr "KO(STM)"; PStr "KO"]), 1);
   (("z", [PInt 34319; PInt 73000; PStr "KO(STM)"; PStr "KO"]), 1);
   (("z", [PInt 34319; PInt 73000; PStr "KZ"; PStr "KO(STM)"]), 1);
   (("z", [PInt 40150; PInt 54101; PStr "KO(STM)"; PStr "KZ"]), 1);
   (("z", [PInt 40150; PInt 54101; PStr "KO"; PStr "KO(STM)"]), 1);
   (("z", [PInt 40150; PInt 94317; PStr "CB"; PStr "KO"]), 1);
   (("z", [PInt 40150; PInt 94317; PStr "KO(STM)"; PStr "KZ"]), 1);
   (("z", [PInt 40477; PInt 44862; PStr "KL"; PStr "MJ"]), 1);
   (("z", [PInt 40518; PInt 34319; PStr "KO"; PStr "KO(STM)"]), 1);
   (("z", [PInt 40518; PInt 40477; PStr "KO"; PStr "KO(STM)"]), 1);
   (("z", [PInt 40518; PInt 54101; PStr "KO"; PStr "KO(STM)"]), 1);
   (("z", [PInt 40518; PInt 94717; PStr "KO"; PStr "KO(STM)"]), 1);
   (("z", [PInt 41004; PInt 40477; PStr "Ty"; PStr "KL"]), 1);
   (("z", [PInt 41004; PInt 94113; PStr "Ty"; PStr "KL"]), 1);
   (("z", [PInt 41004; PInt 94317; PStr "KO(STM)"; PStr "KZ"]), 1);
   (("z", [PInt 41004; PInt 94717; PStr "Ty"; PStr "KL"]), 1);
   (("z", [PInt 421009; PInt 40150; PStr "KO(IC)"; PStr "KO(STM)"]), 1);
   (("z", [PInt 421009; PInt 40150; PStr "KO(STM)"; PStr "KO"]), 1);
   (("z", [PInt 421009; PInt 40518; PStr "KO(STM)"; PStr "KO"]), 1);
   (("z", [PInt 421009; PInt 40628; PStr "KO(IC)"; PStr "KO(STM)"]), 1);
   (("z", [PInt 421009; PInt 40628; PStr "KO(STM)"; PStr "KO"]), 1);
   (("z", [PInt 421009; PInt 41004; PStr "KO(IC)"; PStr "KO(STM)"]), 1);
   (("z", [PInt 421009; PInt 4120; PStr "KO(IC)"; PStr "KO(STM)"]), 1);
   (("z", [PInt 421009; PInt 4120; PStr "KO(STM)"; PStr "KO"]), 1);
   (("z", [PInt 421009; PInt 4500; PStr "KO(IC)"; PStr "KO(STM)"]), 1);
   (("z", [PInt 421009; PInt 4500; PStr "KO(STM)"; PStr "KO"]), 1);
   (("z", [PInt 421009; PInt 5312; PStr "KO(IC)"; PStr "KO(STM)"]), 1);
   (("z", [PInt 421009; PInt 5312; PStr "KO(STM)"; PStr "KO"]), 1);
   (("z", [PInt 421009; PInt 541019; PStr "KO(IC)"; PStr "KO(STM)"]), 1);
   (("z", [PInt 421009; PInt 541019; PStr "KO(STM)"; PStr "KO"]), 1);
   (("z", [PInt 421009; PInt 64350; PStr "KO(IC)"; PStr "KO(STM)"]), 1);
   (("z", [PInt 421009; PInt 73000; PStr "KO(IC)"; PStr "KO(STM)"]), 1);
   (("z", [PInt 421009; PInt 73000; PStr "KO(STM)"; PStr "KO"]), 1);
   (("z", [PInt 42100; PInt 34319; PStr "KO(STM)"; PStr "KZ"]), 1);
   (("z", [PInt 42100; PInt 34319; PStr "KO"; PStr "KO(STM)"]), 1);
   (("z", [PInt 42100; PInt 54101; PStr "KO(STM)"; PStr "KZ"]), 1);
   (("z", [PInt 42100; PInt 54101; PStr "KO"; PStr "KO(STM)"]), 1);
   (("z", [PInt 42100; PInt 94317; PStr "KO(STM)"; PStr "KZ"]), 1);
   (("z", [PInt 44862; PInt 44717; PStr "Mi"; PStr "MJ"]), 1);
   (("z", [PInt 4500; PInt 94317; PStr "CB"; PStr "KO"]), 1);
   (("z", [PInt 4500; PInt 94317; PStr "KO(STM)"; PStr "KZ"]), 1);
   (("z", [PInt 5312; PInt 34319; PStr "KO(STM)"; PStr "KZ"]), 1);
   (("z", [PInt 5312; PInt 34319; PStr "KO"; PStr "KO(STM)"]), 1);
   (("z", [PInt 5312; PInt 54101; PStr "KO(STM)"; PStr "KZ"]), 1);
   (("z", [PInt 5312; PInt 54101; PStr "KO"; PStr "KO(STM)"]), 1);
   (("z", [PInt 5312; PInt 94317; PStr "CB"; PStr "KO"]), 1);
   (("z", [PInt 54101; PInt 40628; PStr "KO(STM)"; PStr "KO"]), 1);
   (("z", [PInt 54101; PInt 40628; PStr "KZ"; PStr "KO(STM)"]), 1);
   (("z", [PInt 54101; PInt 4120; PStr "KO(STM)"; PStr "KO"]), 1);
   (("z", [PInt 54101; PInt 4120; PStr "KZ"; PStr "KO(STM)"]), 1);
   (("z", [PInt 54101; PInt 4500; PStr "KO(STM)"; PStr "KO"]), 1);
   (("z", [PInt 54101; PInt 4500; PStr "KZ"; PStr "KO(STM)"]), 1);
   (("z", [PInt 54101; PInt 73000; PStr "KO(STM)"; PStr "KO"]), 1);
   (("z", [PInt 54101; PInt 73000; PStr "KZ"; PStr "KO(STM)"]), 1);
   (("z", [PInt 94113; PInt 44717; PStr "KO(KS)"; PStr "KO"]), 1);
   (("z", [PInt 94113; PInt 44862; PStr "KL"; PStr "MJ"]), 1);
   (("z", [PInt 94113; PInt 94717; PStr "KO(KS)"; PStr "KO"]), 1);
   (("z", [PInt 94317; PInt 40628; PStr "KZ"; PStr "KO(STM)"]), 1);
   (("z", [PInt 94317; PInt 4120; PStr "KZ"; PStr "KO(STM)"]), 1);
   (("z", [PInt 94611; PInt 44717; PStr "KO(KS)"; PStr "KO"]), 1);
   (("z", [PInt 94611; PInt 44862; PStr "KL"; PStr "MJ"]), 1);
   (("z", [PInt 94611; PInt 94113; PStr "KO(KS)"; PStr "KO"]), 1);
   (("z", [PInt 94611; PInt 94113; PStr "KO"; PStr "KO(KS)"]), 1);
   (("z", [PInt 94611; PInt 94717; PStr "KO(KS)"; PStr "KO"]), 1);
   (("z", [PInt 94766; PInt 34319; PStr "KO"; PStr "KO(STM)"]), 1);
   (("z", [PInt 94766; PInt 44717; PStr "KO"; PStr "KO(STM)"]), 1);
   (("z", [PInt 94766; PInt 54101; PStr "KO"; PStr "KO(STM)"]), 1);
   (("z", [PStr "in"; PInt 34319; PInt 54101; PStr "KO(STM)"]), 1);
   (("z", [PStr "in"; PInt 40518; PInt 44862; PStr "KL"]), 1);
   (("z", [PStr "in"; PInt 40518; PInt 64350; PStr "KO"]), 1);
   (("z", [PStr "in"; PInt 41004; PInt 44862; PStr "KL"]), 1);
   (("z", [PStr "in"; PInt 41004; PInt 64350; PStr "KO"]), 1);
   (("z", [PStr "in"; PInt 421009; PInt 34319; PStr "KO(STM)"]), 1);
   (("z", [PStr "in"; PInt 421009; PInt 54101; PStr "KO(STM)"]), 1);
   (("z", [PStr "in"; PInt 44862; PInt 4120; PStr "KL"]), 1);
   (("z", [PStr "in"; PInt 5312; PInt 94113; PStr "KO"]), 1);
   (("z", [PStr "in"; PInt 5312; PInt 94611; PStr "KO"]), 1);
   (("z", [PStr "in"; PInt 54101; PInt 94317; PStr "KO(STM)"]), 1);
   (("z", [PStr "in"; PInt 64350; PInt 4120; PStr "KO"]), 1);
   (("z", [PStr "in"; PInt 64350; PInt 44862; PStr "KO"]), 1);
   (("z", [PStr "in"; PInt 94113; PInt 40477; PStr "KO"]), 1);
   (("z", [PStr "in"; PInt 94113; PInt 40628; PStr "KO"]), 1);
   (("z", [PStr "in"; PInt 94113; PInt 4500; PStr "KO"]), 1);
   (("z", [PStr "in"; PInt 94113; PInt 73000; PStr "KO"]), 1);
   (("z", [PStr "in"; PInt 94113; PInt 94317; PStr "KO"]), 1);
   (("z", [PStr "in"; PInt 94611; PInt 40150; PStr "KO"]), 1);
   (("z", [PStr "in"; PInt 94611; PInt 40477; PStr "KO"]), 1);
   (("z", [PStr "in"; PInt 94611; PInt 40628; PStr "KO"]), 1);
   (("z", [PStr "in"; PInt 94611; PInt 4500; PStr "KO"]), 1);
   (("z", [PStr "in"; PInt 94611; PInt 73000; PStr "KO"]), 1);
   (("z", [PStr "in"; PInt 94611; PInt 94317; PStr "KO"]), 1);
   (("z", [PStr "in"; PInt 94766; PInt 44862; PStr "KL"]), 1);
   (("z", [PStr "in"; PInt 94766; PInt 64350; PStr "KO"]), 1)].

Definition run3 : list (vid * Q) :=
  [(("Delays", [PInt 26103; PStr "CB"]), 4);
   (("Delays", [PInt 26103; PStr "KO"]), 1);
   (("Delays", [PInt 26103; PStr "KO(STM)"]), 5);
   (("Delays", [PInt 26103; PStr "KZ"]), 5);
   (("Delays", [PInt 343199; PStr "KO"]), 35);
   (("Delays", [PInt 34319; PStr "KO(STM)"]), 1);
   (("Delays", [PInt 34319; PStr "KZ"]), 1);
   (("Delays", [PInt 40477; PStr "KO(STM)"]), 6);
   (("Delays", [PInt 40628; PStr "CB"]), 6);
   (("Delays", [PInt 40628; PStr "GLC"]), 5);
   (("Delays", [PInt 40673; PStr "KO(STM)"]), 9);
   (("Delays", [PInt 40673; PStr "KZ"]), 4);
   (("Delays", [PInt 40675; PStr "KO(STM)"]), 1);
   (("Delays", [PInt 4120; PStr "KL"]), 3);
   (("Delays", [PInt 4120; PStr "Ty"]), 1);
   (("Delays", [PInt 44717; PStr "KL"]), 4);
   (("Delays", [PInt 44717; PStr "KO"]), 4);
   (("Delays", [PInt 44717; PStr "KO(STM)"]), 2);
   (("Delays", [PInt 44717; PStr "MJ"]), 3);
   (("Delays", [PInt 44717; PStr "Mi"]), 3);
   (("Delays", [PInt 5312; PStr "CB"]), 1);
   (("Delays", [PInt 5312; PStr "KO"]), 1);
   (("Delays", [PInt 5312; PStr "KO(STM)"]), 1);
   (("Delays", [PInt 5312; PStr "KZ"]), 1);
   (("Delays", [PInt 541019; PStr "KO"]), 5);
   (("Delays", [PInt 541019; PStr "KO(STM)"]), 6);
   (("Delays", [PInt 64350; PStr "CB"]), 3);
   (("Delays", [PInt 64350; PStr "CM"]), 1);
   (("Delays", [PInt 64350; PStr "KO"]), 2);
   (("Delays", [PInt 64350; PStr "KO(STM)"]), 2);
   (("Delays", [PInt 64350; PStr "KZ"]), 2);
   (("Delays", [PInt 94113; PStr "KL"]), 1);
   (("Delays", [PInt 94113; PStr "KO(KS)"]), 14);
   (("Delays", [PInt 94317; PStr "KO(STM)"]), 3);
   (("Delays", [PInt 94317; PStr "KZ"]), 1);
   (("Delays", [PInt 94611; PStr "KO(KS)"]), 12);
   (("Delays", [PInt 94717; PStr "KO(STM)"]), 10);
   (("y", [PInt 14006; PInt 40675; PStr "one_station"; PStr "KO"]), 1);
   (("y", [PInt 14006; PInt 40675; PStr "one_station"; PStr "KO(STM)"]), 1);
   (("y", [PInt 14006; PInt 40675; PStr "one_station"; PStr "KZ"]), 1);
   (("y", [PInt 14006; PInt 44717; PStr "one_station"; PStr "KO"]), 1);
   (("y", [PInt 14006; PInt 94317; PStr "one_station"; PStr "KO"]), 1);
   (("y", [PInt 14006; PInt 94317; PStr "one_station"; PStr "KO(STM)"]), 1);
   (("y", [PInt 14006; PInt 94717; PStr "one_station"; PStr "KL"]), 1);
   (("y", [PInt 14006; PInt 94717; PStr "one_station"; PStr "KO"]), 1);
   (("y", [PInt 14006; PInt 94717; PStr "one_station"; PStr "KO(STM)"]), 1);
   (("y", [PInt 26103; PInt 14006; PStr "one_station"; PStr "KO"]), 1);
   (("y", [PInt 26103; PInt 14006; PStr "one_station"; PStr "KO(STM)"]), 1);
   (("y", [PInt 26103; PInt 14006; PStr "one_station"; PStr "KZ"]), 1);
   (("y", [PInt 26103; PInt 34319; PStr "one_station"; PStr "KO(STM)"]), 1);
   (("y", [PInt 26103; PInt 40477; PStr "one_station"; PStr "KO"]), 1);
   (("y", [PInt 26103; PInt 40673; PStr "one_station"; PStr "CB"]), 1);
   (("y", [PInt 26103; PInt 40673; PStr "one_station"; PStr "KO"]), 1);
   (("y", [PInt 26103; PInt 40673; PStr "one_station"; PStr "KO(STM)"]), 1);
   (("y", [PInt 26103; PInt 40673; PStr "one_station"; PStr "KZ"]), 1);
   (("y", [PInt 26103; PInt 40675; PStr "one_station"; PStr "CB"]), 1);
   (("y", [PInt 26103; PInt 40675; PStr "one_station"; PStr "KO"]), 1);
   (("y", [PInt 26103; PInt 40675; PStr "one_station"; PStr "KO(STM)"]), 1);
   (("y", [PInt 26103; PInt 40675; PStr "one_station"; PStr "KZ"]), 1);
   (("y", [PInt 26103; PInt 44717; PStr "one_station"; PStr "KO(STM)"]), 1);
   (("y", [PInt 26103; PInt 54101; PStr "one_station"; PStr "KO(STM)"]), 1);
   (("y", [PInt 26103; PInt 54101; PStr "one_station"; PStr "KZ"]), 1);
   (("y", [PInt 26103; PInt 94317; PStr "one_station"; PStr "KO"]), 1);
   (("y", [PInt 26103; PInt 94317; PStr "one_station"; PStr "KO(STM)"]), 1);
   (("y", [PInt 26103; PInt 94717; PStr "one_station"; PStr "KO(STM)"]), 1);
   (("y", [PInt 343199; PInt 40628; PStr "one_station"; PStr "KO"]), 1);
   (("y", [PInt 343199; PInt 4120; PStr "one_station"; PStr "KO"]), 1);
   (("y", [PInt 343199; PInt 44862; PStr "one_station"; PStr "KO"]), 1);
   (("y", [PInt 343199; PInt 73000; PStr "one_station"; PStr "KO"]), 1);
   (("y", [PInt 34319; PInt 40628; PStr "one_station"; PStr "KO(STM)"]), 1);
   (("y", [PInt 34319; PInt 40675; PStr "one_station"; PStr "KO(STM)"]), 1);
   (("y", [PInt 34319; PInt 4120; PStr "one_station"; PStr "KO(STM)"]), 1);
   (("y", [PInt 34319; PInt 64350; PStr "one_station"; PStr "KO"]), 1);
   (("y", [PInt 34319; PInt 73000; PStr "one_station"; PStr "KO(STM)"]), 1);
   (("y", [PInt 34319; PInt 94317; PStr "one_station"; PStr "KO(STM)"]), 1);
   (("y", [PInt 40150; PInt 40628; PStr "one_station"; PStr "CB"]), 1);
   (("y", [PInt 40150; PInt 40628; PStr "one_station"; PStr "GLC"]), 1);
   (("y", [PInt 40150; PInt 40628; PStr "one_station"; PStr "KO"]), 1);
   (("y", [PInt 40150; PInt 40628; PStr "one_station"; PStr "KO(STM)"]), 1);
   (("y", [PInt 40150; PInt 40628; PStr "one_station"; PStr "KZ"]), 1);
   (("y", [PInt 40150; PInt 41004; PStr "one_station"; PStr "KO"]), 1);
   (("y", [PInt 40150; PInt 41004; PStr "one_station"; PStr "KO(STM)"]), 1);
   (("y", [PInt 40150; PInt 41004; PStr "one_station"; PStr "KZ"]), 1);
   (("y", [PInt 40150; PInt 4120; PStr "one_station"; PStr "KO"]), 1);
   (("y", [PInt 40150; PInt 4120; PStr "one_station"; PStr "KO(STM)"]), 1);
   (("y", [PInt 40150; PInt 4120; PStr "one_station"; PStr "KZ"]), 1);
   (("y", [PInt 40150; PInt 44862; PStr "one_station"; PStr "KO"]), 1);
   (("y", [PInt 40150; PInt 4500; PStr "one_station"; PStr "CB"]), 1);
   (("y", [PInt 40150; PInt 4500; PStr "one_station"; PStr "GLC"]), 1);
   (("y", [PInt 40150; PInt 4500; PStr "one_station"; PStr "KO"]), 1);
   (("y", [PInt 40150; PInt 4500; PStr "one_station"; PStr "KO(STM)"]), 1);
   (("y", [PInt 40150; PInt 4500; PStr "one_station"; PStr "KZ"]), 1);
   (("y", [PInt 40150; PInt 541019; PStr "one_station"; PStr "KO"]), 1);
   (("y", [PInt 40150; PInt 541019; PStr "one_station"; PStr "KO(STM)"]), 1);
   (("y", [PInt 40150; PInt 54101; PStr "one_station"; PStr "KO(STM)"]), 1);
   (("y", [PInt 40150; PInt 64350; PStr "one_station"; PStr "CB"]), 1);
   (("y", [PInt 40150; PInt 64350; PStr "one_station"; PStr "KO"]), 1);
   (("y", [PInt 40150; PInt 73000; PStr "one_station"; PStr "CB"]), 1);
   (("y", [PInt 40150; PInt 73000; PStr "one_station"; PStr "GLC"]), 1);
   (("y", [PInt 40150; PInt 73000; PStr "one_station"; PStr "KO"]), 1);
   (("y", [PInt 40150; PInt 73000; PStr "one_station"; PStr "KO(STM)"]), 1);
   (("y", [PInt 40477; PInt 40675; PStr "one_station"; PStr "KO"]), 1);
   (("y", [PInt 40477; PInt 40675; PStr "one_station"; PStr "KO(STM)"]), 1);
   (("y", [PInt 40477; PInt 44717; PStr "one_station"; PStr "KO"]), 1);
   (("y", [PInt 40477; PInt 44717; PStr "one_station"; PStr "KO(STM)"]), 1);
   (("y", [PInt 40477; PInt 94317; PStr "one_station"; PStr "KO"]), 1);
   (("y", [PInt 40477; PInt 94317; PStr "one_station"; PStr "KO(STM)"]), 1);
   (("y", [PInt 40477; PInt 94717; PStr "one_station"; PStr "KL"]), 1);
   (("y", [PInt 40477; PInt 94717; PStr "one_station"; PStr "KO"]), 1);
   (("y", [PInt 40477; PInt 94717; PStr "one_station"; PStr "KO(STM)"]), 1);
   (("y", [PInt 40477; PInt 94717; PStr "one_station"; PStr "Ty"]), 1);
   (("y", [PInt 40518; PInt 343199; PStr "one_station"; PStr "KO"]), 1);
   (("y", [PInt 40518; PInt 40150; PStr "one_station"; PStr "KO"]), 1);
   (("y", [PInt 40518; PInt 40628; PStr "one_station"; PStr "KO"]), 1);
   (("y", [PInt 40518; PInt 41004; PStr "one_station"; PStr "KL"]), 1);
   (("y", [PInt 40518; PInt 41004; PStr "one_station"; PStr "KO"]), 1);
   (("y", [PInt 40518; PInt 41004; PStr "one_station"; PStr "Ty"]), 1);
   (("y", [PInt 40518; PInt 4120; PStr "one_station"; PStr "KL"]), 1);
   (("y", [PInt 40518; PInt 4120; PStr "one_station"; PStr "KO"]), 1);
   (("y", [PInt 40518; PInt 4120; PStr "one_station"; PStr "Ty"]), 1);
   (("y", [PInt 40518; PInt 44862; PStr "one_station"; PStr "KL"]), 1);
   (("y", [PInt 40518; PInt 44862; PStr "one_station"; PStr "KO"]), 1);
   (("y", [PInt 40518; PInt 4500; PStr "one_station"; PStr "KO"]), 1);
   (("y", [PInt 40518; PInt 541019; PStr "one_station"; PStr "KO"]), 1);
   (("y", [PInt 40518; PInt 64350; PStr "one_station"; PStr "KO"]), 1);
   (("y", [PInt 40518; PInt 73000; PStr "one_station"; PStr "KO"]), 1);
   (("y", [PInt 40628; PInt 4120; PStr "one_station"; PStr "KO"]), 1);
   (("y", [PInt 40628; PInt 4120; PStr "one_station"; PStr "KO(STM)"]), 1);
   (("y", [PInt 40628; PInt 4120; PStr "one_station"; PStr "KZ"]), 1);
   (("y", [PInt 40628; PInt 73000; PStr "one_station"; PStr "CB"]), 1);
   (("y", [PInt 40628; PInt 73000; PStr "one_station"; PStr "GLC"]), 1);
   (("y", [PInt 40628; PInt 73000; PStr "one_station"; PStr "KO"]), 1);
   (("y", [PInt 40628; PInt 73000; PStr "one_station"; PStr "KO(STM)"]), 1);
   (("y", [PInt 40673; PInt 40628; PStr "one_station"; PStr "GLC"]), 1);
   (("y", [PInt 40673; PInt 40675; PStr "one_station"; PStr "CB"]), 1);
   (("y", [PInt 40673; PInt 40675; PStr "one_station"; PStr "KO"]), 1);
   (("y", [PInt 40673; PInt 40675; PStr "one_station"; PStr "KO(STM)"]), 1);
   (("y", [PInt 40673; PInt 40675; PStr "one_station"; PStr "KZ"]), 1);
   (("y", [PInt 40673; PInt 44717; PStr "one_station"; PStr "KO(STM)"]), 1);
   (("y", [PInt 40673; PInt 54101; PStr "one_station"; PStr "KO(STM)"]), 1);
   (("y", [PInt 40673; PInt 54101; PStr "one_station"; PStr "KZ"]), 1);
   (("y", [PInt 40673; PInt 94317; PStr "one_station"; PStr "KO"]), 1);
   (("y", [PInt 40673; PInt 94317; PStr "one_station"; PStr "KO(STM)"]), 1);
   (("y", [PInt 40673; PInt 94717; PStr "one_station"; PStr "KO(STM)"]), 1);
   (("y", [PInt 41004; PInt 40628; PStr "one_station"; PStr "KO"]), 1);
   (("y", [PInt 41004; PInt 40628; PStr "one_station"; PStr "KO(STM)"]), 1);
   (("y", [PInt 41004; PInt 40628; PStr "one_station"; PStr "KZ"]), 1);
   (("y", [PInt 41004; PInt 4120; PStr "one_station"; PStr "KL"]), 1);
   (("y", [PInt 41004; PInt 4120; PStr "one_station"; PStr "KO"]), 1);
   (("y", [PInt 41004; PInt 4120; PStr "one_station"; PStr "KO(STM)"]), 1);
   (("y", [PInt 41004; PInt 4120; PStr "one_station"; PStr "KZ"]), 1);
   (("y", [PInt 41004; PInt 4120; PStr "one_station"; PStr "Ty"]), 1);
   (("y", [PInt 41004; PInt 44862; PStr "one_station"; PStr "KL"]), 1);
   (("y", [PInt 41004; PInt 44862; PStr "one_station"; PStr "KO"]), 1);
   (("y", [PInt 41004; PInt 4500; PStr "one_station"; PStr "KO"]), 1);
   (("y", [PInt 41004; PInt 4500; PStr "one_station"; PStr "KO(STM)"]), 1);
   (("y", [PInt 41004; PInt 4500; PStr "one_station"; PStr "KZ"]), 1);
   (("y", [PInt 41004; PInt 64350; PStr "one_station"; PStr "KO"]), 1);
   (("y", [PInt 41004; PInt 64350; PStr "one_station"; PStr "KO(STM)"]), 1);
   (("y", [PInt 41004; PInt 73000; PStr "one_station"; PStr "KO"]), 1);
   (("y", [PInt 41004; PInt 73000; PStr "one_station"; PStr "KO(STM)"]), 1);
   (("y", [PInt 421009; PInt 14006; PStr "one_station"; PStr "KO(STM)"]), 1);
   (("y", [PInt 421009; PInt 34319; PStr "one_station"; PStr "KO(STM)"]), 1);
   (("y", [PInt 421009; PInt 40150; PStr "one_station"; PStr "KO(STM)"]), 1);
   (("y", [PInt 421009; PInt 40477; PStr "one_station"; PStr "KO(STM)"]), 1);
   (("y", [PInt 421009; PInt 40628; PStr "one_station"; PStr "KO"]), 1);
   (("y", [PInt 421009; PInt 40628; PStr "one_station"; PStr "KO(STM)"]), 1);
   (("y", [PInt 421009; PInt 40673; PStr "one_station"; PStr "KO(STM)"]), 1);
   (("y", [PInt 421009; PInt 40675; PStr "one_station"; PStr "KO(STM)"]), 1);
   (("y", [PInt 421009; PInt 4120; PStr "one_station"; PStr "KO(STM)"]), 1);
   (("y", [PInt 421009; PInt 44717; PStr "one_station"; PStr "KO(STM)"]), 1);
   (("y", [PInt 421009; PInt 4500; PStr "one_station"; PStr "KO"]), 1);
   (("y", [PInt 421009; PInt 4500; PStr "one_station"; PStr "KO(STM)"]), 1);
   (("y", [PInt 421009; PInt 5312; PStr "one_station"; PStr "KO(STM)"]), 1);
   (("y", [PInt 421009; PInt 541019; PStr "one_station"; PStr "KO(STM)"]), 1);
   (("y", [PInt 421009; PInt 54101; PStr "one_station"; PStr "KO(STM)"]), 1);
   (("y", [PInt 421009; PInt 73000; PStr "one_station"; PStr "KO(STM)"]), 1);
   (("y", [PInt 421009; PInt 94317; PStr "one_station"; PStr "KO(STM)"]), 1);
   (("y", [PInt 421009; PInt 94717; PStr "one_station"; PStr "KO(STM)"]), 1);
   (("y", [PInt 42100; PInt 343199; PStr "one_station"; PStr "KO"]), 1);
   (("y", [PInt 42100; PInt 34319; PStr "one_station"; PStr "KO(STM)"]), 1);
   (("y", [PInt 42100; PInt 40150; PStr "one_station"; PStr "KO"]), 1);
   (("y", [PInt 42100; PInt 40150; PStr "one_station"; PStr "KO(STM)"]), 1);
   (("y", [PInt 42100; PInt 40150; PStr "one_station"; PStr "KZ"]), 1);
   (("y", [PInt 42100; PInt 40518; PStr "one_station"; PStr "KO"]), 1);
   (("y", [PInt 42100; PInt 40628; PStr "one_station"; PStr "KO"]), 1);
   (("y", [PInt 42100; PInt 40628; PStr "one_station"; PStr "KO(STM)"]), 1);
   (("y", [PInt 42100; PInt 40628; PStr "one_station"; PStr "KZ"]), 1);
   (("y", [PInt 42100; PInt 41004; PStr "one_station"; PStr "KO"]), 1);
   (("y", [PInt 42100; PInt 41004; PStr "one_station"; PStr "KO(STM)"]), 1);
   (("y", [PInt 42100; PInt 41004; PStr "one_station"; PStr "KZ"]), 1);
   (("y", [PInt 42100; PInt 4120; PStr "one_station"; PStr "KO"]), 1);
   (("y", [PInt 42100; PInt 4120; PStr "one_station"; PStr "KO(STM)"]), 1);
   (("y", [PInt 42100; PInt 4120; PStr "one_station"; PStr "KZ"]), 1);
   (("y", [PInt 42100; PInt 44862; PStr "one_station"; PStr "KO"]), 1);
   (("y", [PInt 42100; PInt 4500; PStr "one_station"; PStr "KO"]), 1);
   (("y", [PInt 42100; PInt 4500; PStr "one_station"; PStr "KO(STM)"]), 1);
   (("y", [PInt 42100; PInt 4500; PStr "one_station"; PStr "KZ"]), 1);
   (("y", [PInt 42100; PInt 5312; PStr "one_station"; PStr "KO"]), 1);
   (("y", [PInt 42100; PInt 5312; PStr "one_station"; PStr "KO(STM)"]), 1);
   (("y", [PInt 42100; PInt 541019; PStr "one_station"; PStr "KO"]), 1);
   (("y", [PInt 42100; PInt 541019; PStr "one_station"; PStr "KO(STM)"]), 1);
   (("y", [PInt 42100; PInt 54101; PStr "one_station"; PStr "KO"]), 1);
   (("y", [PInt 42100; PInt 54101; PStr "one_station"; PStr "KO(STM)"]), 1);
   (("y", [PInt 42100; PInt 64350; PStr "one_station"; PStr "KO"]), 1);
   (("y", [PInt 42100; PInt 73000; PStr "one_station"; PStr "KO"]), 1);
   (("y", [PInt 42100; PInt 73000; PStr "one_station"; PStr "KO(STM)"]), 1);
   (("y", [PInt 44717; PInt 40675; PStr "one_station"; PStr "KO(STM)"]), 1);
   (("y", [PInt 44717; PInt 94717; PStr "one_station"; PStr "KO"]), 1);
   (("y", [PInt 44717; PInt 94717; PStr "one_station"; PStr "KO(STM)"]), 1);
   (("y", [PInt 44862; PInt 4120; PStr "one_station"; PStr "KL"]), 1);
   (("y", [PInt 44862; PInt 4120; PStr "one_station"; PStr "KO"]), 1);
   (("y", [PInt 44862; PInt 73000; PStr "one_station"; PStr "KO"]), 1);
   (("y", [PInt 4500; PInt 40628; PStr "one_station"; PStr "CB"]), 1);
   (("y", [PInt 4500; PInt 40628; PStr "one_station"; PStr "GLC"]), 1);
   (("y", [PInt 4500; PInt 40628; PStr "one_station"; PStr "KO"]), 1);
   (("y", [PInt 4500; PInt 40628; PStr "one_station"; PStr "KO(STM)"]), 1);
   (("y", [PInt 4500; PInt 40628; PStr "one_station"; PStr "KZ"]), 1);
   (("y", [PInt 4500; PInt 4120; PStr "one_station"; PStr "KO"]), 1);
   (("y", [PInt 4500; PInt 4120; PStr "one_station"; PStr "KO(STM)"]), 1);
   (("y", [PInt 4500; PInt 4120; PStr "one_station"; PStr "KZ"]), 1);
   (("y", [PInt 4500; PInt 44862; PStr "one_station"; PStr "KO"]), 1);
   (("y", [PInt 4500; PInt 64350; PStr "one_station"; PStr "CB"]), 1);
   (("y", [PInt 4500; PInt 64350; PStr "one_station"; PStr "KO"]), 1);
   (("y", [PInt 4500; PInt 73000; PStr "one_station"; PStr "CB"]), 1);
   (("y", [PInt 4500; PInt 73000; PStr "one_station"; PStr "GLC"]), 1);
   (("y", [PInt 4500; PInt 73000; PStr "one_station"; PStr "KO"]), 1);
   (("y", [PInt 4500; PInt 73000; PStr "one_station"; PStr "KO(STM)"]), 1);
   (("y", [PInt 5312; PInt 343199; PStr "one_station"; PStr "KO"]), 1);
   (("y", [PInt 5312; PInt 34319; PStr "one_station"; PStr "KO(STM)"]), 1);
   (("y", [PInt 5312; PInt 40628; PStr "one_station"; PStr "CB"]), 1);
   (("y", [PInt 5312; PInt 40628; PStr "one_station"; PStr "GLC"]), 1);
   (("y", [PInt 5312; PInt 40628; PStr "one_station"; PStr "KO"]), 1);
   (("y", [PInt 5312; PInt 40628; PStr "one_station"; PStr "KO(STM)"]), 1);
   (("y", [PInt 5312; PInt 41004; PStr "one_station"; PStr "KO"]), 1);
   (("y", [PInt 5312; PInt 41004; PStr "one_station"; PStr "KO(STM)"]), 1);
   (("y", [PInt 5312; PInt 4120; PStr "one_station"; PStr "KO"]), 1);
   (("y", [PInt 5312; PInt 4120; PStr "one_station"; PStr "KO(STM)"]), 1);
   (("y", [PInt 5312; PInt 44862; PStr "one_station"; PStr "KO"]), 1);
   (("y", [PInt 5312; PInt 4500; PStr "one_station"; PStr "CB"]), 1);
   (("y", [PInt 5312; PInt 4500; PStr "one_station"; PStr "GLC"]), 1);
   (("y", [PInt 5312; PInt 4500; PStr "one_station"; PStr "KO"]), 1);
   (("y", [PInt 5312; PInt 4500; PStr "one_station"; PStr "KO(STM)"]), 1);
   (("y", [PInt 5312; PInt 541019; PStr "one_station"; PStr "KO"]), 1);
   (("y", [PInt 5312; PInt 541019; PStr "one_station"; PStr "KO(STM)"]), 1);
   (("y", [PInt 5312; PInt 54101; PStr "one_station"; PStr "KO(STM)"]), 1);
   (("y", [PInt 5312; PInt 64350; PStr "one_station"; PStr "CB"]), 1);
   (("y", [PInt 5312; PInt 64350; PStr "one_station"; PStr "KO"]), 1);
   (("y", [PInt 5312; PInt 64350; PStr "one_station"; PStr "KO(STM)"]), 1);
   (("y", [PInt 5312; PInt 64350; PStr "one_station"; PStr "KZ"]), 1);
   (("y", [PInt 5312; PInt 73000; PStr "one_station"; PStr "CB"]), 1);
   (("y", [PInt 5312; PInt 73000; PStr "one_station"; PStr "GLC"]), 1);
   (("y", [PInt 5312; PInt 73000; PStr "one_station"; PStr "KO"]), 1);
   (("y", [PInt 5312; PInt 73000; PStr "one_station"; PStr "KO(STM)"]), 1);
   (("y", [PInt 5312; PInt 73000; PStr "one_station"; PStr "KZ"]), 1);
   (("y", [PInt 541019; PInt 40628; PStr "one_station"; PStr "KO"]), 1);
   (("y", [PInt 541019; PInt 40628; PStr "one_station"; PStr "KO(STM)"]), 1);
   (("y", [PInt 541019; PInt 4120; PStr "one_station"; PStr "KO"]), 1);
   (("y", [PInt 541019; PInt 4120; PStr "one_station"; PStr "KO(STM)"]), 1);
   (("y", [PInt 541019; PInt 44862; PStr "one_station"; PStr "KO"]), 1);
   (("y", [PInt 541019; PInt 4500; PStr "one_station"; PStr "KO"]), 1);
   (("y", [PInt 541019; PInt 4500; PStr "one_station"; PStr "KO(STM)"]), 1);
   (("y", [PInt 541019; PInt 64350; PStr "one_station"; PStr "KO"]), 1);
   (("y", [PInt 541019; PInt 64350; PStr "one_station"; PStr "KO(STM)"]), 1);
   (("y", [PInt 541019; PInt 73000; PStr "one_station"; PStr "KO"]), 1);
   (("y", [PInt 541019; PInt 73000; PStr "one_station"; PStr "KO(STM)"]), 1);
   (("y", [PInt 54101; PInt 40628; PStr "one_station"; PStr "KO"]), 1);
   (("y", [PInt 54101; PInt 40628; PStr "one_station"; PStr "KO(STM)"]), 1);
   (("y", [PInt 54101; PInt 40675; PStr "one_station"; PStr "KO(STM)"]), 1);
   (("y", [PInt 54101; PInt 40675; PStr "one_station"; PStr "KZ"]), 1);
   (("y", [PInt 54101; PInt 4120; PStr "one_station"; PStr "KO(STM)"]), 1);
   (("y", [PInt 54101; PInt 44717; PStr "one_station"; PStr "KO(STM)"]), 1);
   (("y", [PInt 54101; PInt 4500; PStr "one_station"; PStr "KO"]), 1);
   (("y", [PInt 54101; PInt 4500; PStr "one_station"; PStr "KO(STM)"]), 1);
   (("y", [PInt 54101; PInt 73000; PStr "one_station"; PStr "KO(STM)"]), 1);
   (("y", [PInt 54101; PInt 94317; PStr "one_station"; PStr "KO(STM)"]), 1);
   (("y", [PInt 54101; PInt 94717; PStr "one_station"; PStr "KO(STM)"]), 1);
   (("y", [PInt 64350; PInt 40628; PStr "one_station"; PStr "CB"]), 1);
   (("y", [PInt 64350; PInt 40628; PStr "one_station"; PStr "KO"]), 1);
   (("y", [PInt 64350; PInt 4120; PStr "one_station"; PStr "KO"]), 1);
   (("y", [PInt 64350; PInt 44862; PStr "one_station"; PStr "KO"]), 1);
   (("y", [PInt 64350; PInt 73000; PStr "one_station"; PStr "CB"]), 1);
   (("y", [PInt 64350; PInt 73000; PStr "one_station"; PStr "KO"]), 1);
   (("y", [PInt 64350; PInt 73000; PStr "one_station"; PStr "KO(STM)"]), 1);
   (("y", [PInt 64350; PInt 73000; PStr "one_station"; PStr "KZ"]), 1);
   (("y", [PInt 94113; PInt 40477; PStr "one_station"; PStr "KL"]), 1);
   (("y", [PInt 94113; PInt 40477; PStr "one_station"; PStr "KO"]), 1);
   (("y", [PInt 94113; PInt 40477; PStr "one_station"; PStr "Ty"]), 1);
   (("y", [PInt 94113; PInt 44717; PStr "one_station"; PStr "KO"]), 1);
   (("y", [PInt 94113; PInt 94717; PStr "one_station"; PStr "KL"]), 1);
   (("y", [PInt 94113; PInt 94717; PStr "one_station"; PStr "KO"]), 1);
   (("y", [PInt 94113; PInt 94717; PStr "one_station"; PStr "Ty"]), 1);
   (("y", [PInt 94317; PInt 40675; PStr "one_station"; PStr "KO"]), 1);
   (("y", [PInt 94317; PInt 40675; PStr "one_station"; PStr "KO(STM)"]), 1);
   (("y", [PInt 94611; PInt 40477; PStr "one_station"; PStr "KL"]), 1);
   (("y", [PInt 94611; PInt 40477; PStr "one_station"; PStr "KO"]), 1);
   (("y", [PInt 94611; PInt 40477; PStr "one_station"; PStr "Ty"]), 1);
   (("y", [PInt 94611; PInt 44717; PStr "one_station"; PStr "KO"]), 1);
   (("y", [PInt 94611; PInt 94113; PStr "one_station"; PStr "KL"]), 1);
   (("y", [PInt 94611; PInt 94113; PStr "one_station"; PStr "KO"]), 1);
   (("y", [PInt 94611; PInt 94113; PStr "one_station"; PStr "KO(KS)"]), 1);
   (("y", [PInt 94611; PInt 94113; PStr "one_station"; PStr "Ty"]), 1);
   (("y", [PInt 94611; PInt 94717; PStr "one_station"; PStr "KL"]), 1);
   (("y", [PInt 94611; PInt 94717; PStr "one_station"; PStr "KO"]), 1);
   (("y", [PInt 94611; PInt 94717; PStr "one_station"; PStr "Ty"]), 1);
   (("y", [PInt 94717; PInt 40675; PStr "one_station"; PStr "KO(STM)"]), 1);
   (("y", [PInt 94766; PInt 343199; PStr "one_station"; PStr "KO"]), 1);
   (("y", [PInt 94766; PInt 40628; PStr "one_station"; PStr "KO"]), 1);
   (("y", [PInt 94766; PInt 41004; PStr "one_station"; PStr "KL"]), 1);
   (("y", [PInt 94766; PInt 41004; PStr "one_station"; PStr "KO"]), 1);
   (("y", [PInt 94766; PInt 41004; PStr "one_station"; PStr "Ty"]), 1);
   (("y", [PInt 94766; PInt 4120; PStr "one_station"; PStr "KL"]), 1);
   (("y", [PInt 94766; PInt 4120; PStr "one_station"; PStr "KO"]), 1);
   (("y", [PInt 94766; PInt 4120; PStr "one_station"; PStr "Ty"]), 1);
   (("y", [PInt 94766; PInt 44862; PStr "one_station"; PStr "KL"]), 1);
   (("y", [PInt 94766; PInt 44862; PStr "one_station"; PStr "KO"]), 1);
   (("y", [PInt 94766; PInt 4500; PStr "one_station"; PStr "KO"]), 1);
   (("y", [PInt 94766; PInt 64350; PStr "one_station"; PStr "KO"]), 1);
   (("y", [PInt 94766; PInt 73000; PStr "one_station"; PStr "KO"]), 1);
   (("z", [PInt 14006; PInt 44862; PStr "KL"; PStr "MJ"]), 1);
   (("z", [PInt 34319; PInt 40628; PStr "KO(STM)"; PStr "KO"]), 1);
   (("z", [PInt 34319; PInt 40628; PStr "KZ"; PStr "KO(STM)"]), 1);
   (("z", [PInt 34319; PInt 4120; PStr "KO(STM)"; PStr "KO"]), 1);
   (("z", [PInt 34319; PInt 4120; PStr "KZ"; PStr "KO(STM)"]), 1);
   (("z", [PInt 34319; PInt 44862; PStr "KO(STM)"; PStr "KO"]), 1);
   (("z", [PInt 34319; PInt 73000; PStr "KO(STM)"; PStr "KO"]), 1);
   (("z", [PInt 34319; PInt 73000; PStr "KZ"; PStr "KO(STM)"]), 1);
   (("z", [PInt 40150; PInt 54101; PStr "KO(STM)"; PStr "KZ"]), 1);
   (("z", [PInt 40150; PInt 54101; PStr "KO"; PStr "KO(STM)"]), 1);
   (("z", [PInt 40150; PInt 94317; PStr "CB"; PStr "KO"]), 1);
   (("z", [PInt 40150; PInt 94317; PStr "KO(STM)"; PStr "KZ"]), 1);
   (("z", [PInt 40477; PInt 44862; PStr "KL"; PStr "MJ"]), 1);
   (("z", [PInt 40518; PInt 34319; PStr "KO"; PStr "KO(STM)"]), 1);
   (("z", [PInt 40518; PInt 54101; PStr "KO"; PStr "KO(STM)"]), 1);
   (("z", [PInt 40518; PInt 94717; PStr "KO"; PStr "KO(STM)"]), 1);
   (("z", [PInt 41004; PInt 40477; PStr "Ty"; PStr "KL"]), 1);
   (("z", [PInt 41004; PInt 94113; PStr "Ty"; PStr "KL"]), 1);
   (("z", [PInt 41004; PInt 94317; PStr "KO(STM)"; PStr "KZ"]), 1);
   (("z", [PInt 41004; PInt 94717; PStr "Ty"; PStr "KL"]), 1);
   (("z", [PInt 421009; PInt 40150; PStr "KO(IC)"; PStr "KO(STM)"]), 1);
   (("z", [PInt 421009; PInt 40150; PStr "KO(STM)"; PStr "KO"]), 1);
   (("z", [PInt 421009; PInt 40518; PStr "KO(STM)"; PStr "KO"]), 1);
   (("z", [PInt 421009; PInt 40628; PStr "KO(IC)"; PStr "KO(STM)"]), 1);
   (("z", [PInt 421009; PInt 40628; PStr "KO(STM)"; PStr "KO"]), 1);
   (("z", [PInt 421009; PInt 41004; PStr "KO(IC)"; PStr "KO(STM)"]), 1);
   (("z", [PInt 421009; PInt 4120; PStr "KO(IC)"; PStr "KO(STM)"]), 1);
   (("z", [PInt 421009; PInt 4120; PStr "KO(STM)"; PStr "KO"]), 1);
   (("z", [PInt 421009; PInt 4500; PStr "KO(IC)"; PStr "KO(STM)"]), 1);
   (("z", [PInt 421009; PInt 4500; PStr "KO(STM)"; PStr "KO"]), 1);
   (("z", [PInt 421009; PInt 5312; PStr "KO(IC)"; PStr "KO(STM)"]), 1);
   (("z", [PInt 421009; PInt 5312; PStr "KO(STM)"; PStr "KO"]), 1);
   (("z", [PInt 421009; PInt 541019; PStr "KO(IC)"; PStr "KO(STM)"]), 1);
   (("z", [PInt 421009; PInt 541019; PStr "KO(STM)"; PStr "KO"]), 1);
   (("z", [PInt 421009; PInt 64350; PStr "KO(IC)"; PStr "KO(STM)"]), 1);
   (("z", [PInt 421009; PInt 73000; PStr "KO(IC)"; PStr "KO(STM)"]), 1);
   (("z", [PInt 421009; PInt 73000; PStr "KO(STM)"; PStr "KO"]), 1);
   (("z", [PInt 42100; PInt 34319; PStr "KO(STM)"; PStr "KZ"]), 1);
   (("z", [PInt 42100; PInt 34319; PStr "KO"; PStr "KO(STM)"]), 1);
   (("z", [PInt 42100; PInt 54101; PStr "KO(STM)"; PStr "KZ"]), 1);
   (("z", [PInt 42100; PInt 54101; PStr "KO"; PStr "KO(STM)"]), 1);
   (("z", [PInt 42100; PInt 94317; PStr "KO(STM)"; PStr "KZ"]), 1);
   (("z", [PInt 44862; PInt 44717; PStr "Mi"; PStr "MJ"]), 1);
   (("z", [PInt 4500; PInt 94317; PStr "CB"; PStr "KO"]), 1);
   (("z", [PInt 4500; PInt 94317; PStr "KO(STM)"; PStr "KZ"]), 1);
   (("z", [PInt 5312; PInt 34319; PStr "KO(STM)"; PStr "KZ"]), 1);
   (("z", [PInt 5312; PInt 34319; PStr "KO"; PStr "KO(STM)"]), 1);
   (("z", [PInt 5312; PInt 54101; PStr "KO(STM)"; PStr "KZ"]), 1);
   (("z", [PInt 5312; PInt 54101; PStr "KO"; PStr "KO(STM)"]), 1);
   (("z", [PInt 5312; PInt 94317; PStr "CB"; PStr "KO"]), 1);
   (("z", [PInt 54101; PInt 40628; PStr "KO(STM)"; PStr "KO"]), 1);
   (("z", [PInt 54101; PInt 40628; PStr "KZ"; PStr "KO(STM)"]), 1);
   (("z", [PInt 54101; PInt 4120; PStr "KO(STM)"; PStr "KO"]), 1);
   (("z", [PInt 54101; PInt 4120; PStr "KZ"; PStr "KO(STM)"]), 1);
   (("z", [PInt 54101; PInt 4500; PStr "KO(STM)"; PStr "KO"]), 1);
   (("z", [PInt 54101; PInt 4500; PStr "KZ"; PStr "KO(STM)"]), 1);
   (("z", [PInt 54101; PInt 73000; PStr "KO(STM)"; PStr "KO"]), 1);
   (("z", [PInt 54101; PInt 73000; PStr "KZ"; PStr "KO(STM)"]), 1);
   (("z", [PInt 94113; PInt 44717; PStr "KO(KS)"; PStr "KO"]), 1);
   (("z", [PInt 94113; PInt 44862; PStr "KL"; PStr "MJ"]), 1);
   (("z", [PInt 94113; PInt 94717; PStr "KO(KS)"; PStr "KO"]), 1);
   (("z", [PInt 94317; PInt 40628; PStr "KZ"; PStr "KO(STM)"]), 1);
   (("z", [PInt 94317; PInt 4120; PStr "KZ"; PStr "KO(STM)"]), 1);
   (("z", [PInt 94317; PInt 73000; PStr "KO"; PStr "CB"]), 1);
   (("z", [PInt 94611; PInt 44717; PStr "KO(KS)"; PStr "KO"]), 1);
   (("z", [PInt 94611; PInt 44862; PStr "KL"; PStr "MJ"]), 1);
   (("z", [PInt 94611; PInt 94113; PStr "KO(KS)"; PStr "KO"]), 1);
   (("z", [PInt 94611; PInt 94113; PStr "KO"; PStr "KO(KS)"]), 1);
   (("z", [PInt 94611; PInt 94717; PStr "KO(KS)"; PStr "KO"]), 1);
   (("z", [PInt 94766; PInt 34319; PStr "KO"; PStr "KO(STM)"]), 1);
   (("z", [PStr "in"; PInt 40150; PInt 94113; PStr "KO"]), 1);
   (("z", [PStr "in"; PInt 40518; PInt 44862; PStr "KL"]), 1);
   (("z", [PStr "in"; PInt 40518; PInt 64350; PStr "KO"]), 1);
   (("z", [PStr "in"; PInt 41004; PInt 44862; PStr "KL"]), 1);
   (("z", [PStr "in"; PInt 41004; PInt 64350; PStr "KO"]), 1);
   (("z", [PStr "in"; PInt 421009; PInt 34319; PStr "KO(STM)"]), 1);
   (("z", [PStr "in"; PInt 421009; PInt 54101; PStr "KO(STM)"]), 1);
   (("z", [PStr "in"; PInt 44862; PInt 4120; PStr "KL"]), 1);
   (("z", [PStr "in"; PInt 5312; PInt 94113; PStr "KO"]), 1);
   (("z", [PStr "in"; PInt 54101; PInt 94317; PStr "KO(STM)"]), 1);
   (("z", [PStr "in"; PInt 64350; PInt 4120; PStr "KO"]), 1);
   (("z", [PStr "in"; PInt 64350; PInt 44862; PStr "KO"]), 1);
   (("z", [PStr "in"; PInt 94113; PInt 40628; PStr "KO"]), 1);
   (("z", [PStr "in"; PInt 94113; PInt 4500; PStr "KO"]), 1);
   (("z", [PStr "in"; PInt 94113; PInt 73000; PStr "KO"]), 1);
   (("z", [PStr "in"; PInt 94113; PInt 94317; PStr "KO"]), 1);
   (("z", [PStr "in"; PInt 94611; PInt 40150; PStr "KO"]), 1);
   (("z", [PStr "in"; PInt 94611; PInt 40628; PStr "KO"]), 1);
   (("z", [PStr "in"; PInt 94611; PInt 4500; PStr "KO"]), 1);
   (("z", [PStr "in"; PInt 94611; PInt 73000; PStr "KO"]), 1);
   (("z", [PStr "in"; PInt 94611; PInt 94317; PStr "KO"]), 1);
   (("z", [PStr "in"; PInt 94766; PInt 44862; PStr "KL"]), 1);
   (("z", [PStr "in"; PInt 94766; PInt 64350; PStr "KO"]), 1)].
