(** * GlcRecords: what the repository has recorded for the Katowice-Gliwice line (C83)

    /repo/results_KO_GLC/results_PULP_CBC_CMD__1_Integer.pkl, ..__2_.. and ..__3_..: for each of the twelve scenarios the
    keys 'order_vars', 'int_vars' and 'constraints', and 'objective' (the objective times d_max = 40).  The objectives
    are recorded as floats; here they are without their rounding errors (all below 1e-13). *)

From Coq Require Import List ZArith NArith QArith.
Import ListNotations.
Open Scope Q_scope.

Definition recorded_sizes (case : Z) : list (N * N * N) :=
  match case with
  | 1%Z => [(1538, 118, 7916); (1538, 118, 7917); (1538, 118, 7917); (1538, 118, 7919); (1538, 118, 7904); (1538, 118, 7893); (1538, 118, 7905); (1538, 118, 7894); (1538, 118, 7784); (1538, 118, 7897); (1538, 118, 7890); (1538, 118, 7831)]%N
  | 2%Z => [(1394, 142, 8542); (1394, 142, 8544); (1394, 142, 8534); (1394, 142, 8514); (1394, 142, 8519); (1394, 142, 8524); (1394, 142, 8506); (1394, 142, 8517); (1394, 142, 8344); (1394, 142, 8505); (1394, 142, 8498); (1394, 142, 8340)]%N
  | 3%Z => [(592, 79, 3044); (592, 79, 3040); (592, 79, 3053); (592, 79, 3034); (592, 79, 3044); (592, 79, 3086); (592, 79, 3047); (592, 79, 3063); (592, 79, 3089); (592, 79, 3058); (592, 79, 3076); (592, 79, 3054)]%N
  | _ => []
  end.

Definition recorded_objectives (case : Z) : list Q :=
  match case with
  | 1%Z => [0; 1; 3; 21; 3; 71 # 2; 57; 81 # 2; 171 # 2; 121 # 2; 14; 91 # 2]
  | 2%Z => [230; 230; 228; 204; 224; 251; 553 # 2; 266; 539 # 2; 589 # 2; 221; 465 # 2]
  | 3%Z => [0; 3; 12; 16; 14; 83 # 2; 44; 44; 42; 52; 64; 111 # 2]
  | _ => []
  end.
