(** * GlcLine3: plans and certificates for the twelve scenarios of line 3 (C83)

    Sizes and objectives are those of /repo/results_KO_GLC/results_PULP_CBC_CMD__3_Integer.pkl (the objectives without
    their rounding errors); plans and certificates were computed for the problems of the model and are checked in Coq. *)

From Coq Require Import List ZArith NArith QArith.
From Verif Require Import Base Pulp BoundCheck GlcFacts.
Import ListNotations.
Open Scope Q_scope.
Open Scope list_scope.

Definition line3_0 : scenario := MkScenario (592, 79, 3044)%N 0
  ([0; 0; 1; 0; 1; 0; 1; 0; 1; 0; 1; 0; 1; 0; 1; 0; 1; 0; 1; 0; 1; 1; 1; 1; 1; 1; 1; 1; 1; 1;
    1; 1; 1; 1; 1; 1; 1; 1; 1; 1; 1; 1; 1; 1; 1; 1; 1; 1; 1; 1; 1; 1; 1; 1; 1; 1; 1; 1; 1; 1;
    1; 1; 1; 1; 1; 1; 0; 0; 1; 0; 1; 0; 1; 0; 1; 0; 1; 0; 1; 0; 1; 0; 1; 0; 1; 1; 1; 1; 1; 1;
    1; 1; 1; 1; 1; 1; 1; 1; 1; 1; 1; 1; 1; 1; 1; 1; 1; 1; 1; 1; 1; 1; 1; 1; 1; 1; 1; 1; 1; 1;
    1; 0; 0; 1; 0; 1; 0; 1; 0; 1; 0; 1; 0; 1; 0; 1; 0; 1; 0; 1; 1; 1; 1; 1; 1; 1; 1; 1; 1; 1;
    1; 1; 1; 1; 1; 1; 1; 1; 1; 1; 1; 0; 0; 0; 0; 1; 1; 1; 1; 1; 1; 1; 1; 1; 1; 1; 0; 0; 1; 0;
    1; 0; 1; 0; 1; 1; 1; 0; 1; 0; 1; 0; 1; 0; 1; 1; 1; 1; 1; 1; 1; 1; 1; 1; 1; 1; 1; 1; 1; 1;
    1; 1; 1; 1; 1; 1; 1; 1; 1; 1; 1; 1; 1; 1; 1; 1; 1; 1; 1; 1; 1; 0; 0; 1; 0; 1; 0; 1; 0; 1;
    0; 1; 0; 1; 0; 1; 1; 1; 1; 1; 1; 1; 1; 1; 1; 1; 1; 1; 1; 1; 1; 1; 1; 1; 1; 1; 1; 0; 0; 1;
    0; 1; 0; 1; 0; 1; 0; 1; 0; 1; 0; 1; 0; 1; 0; 1; 1; 1; 1; 1; 1; 1; 1; 1; 1; 1; 1; 1; 1; 1;
    1; 1; 1; 1; 1; 1; 1; 1; 1; 1; 1; 1; 1; 1; 1; 1; 1; 1; 1; 1; 1; 1; 0; 0; 1; 0; 1; 0; 1; 0;
    1; 0; 1; 0; 1; 0; 1; 1; 1; 1; 1; 1; 1; 1; 1; 1; 1; 1; 1; 1; 1; 1; 1; 1; 1; 1; 1; 1; 0; 0;
    1; 0; 1; 0; 1; 0; 1; 0; 1; 0; 1; 0; 1; 1; 1; 1; 1; 1; 1; 1; 1; 1; 1; 1; 1; 1; 1; 1; 1; 1;
    1; 1; 1; 1; 0; 0; 0; 0; 0; 0; 1; 1; 1; 1; 1; 1; 1; 1; 1; 0; 0; 1; 1; 1; 1; 1; 1; 1; 1; 1;
    0; 0; 0; 0; 1; 1; 1; 1; 1; 1; 1; 0; 0; 0; 0; 0; 1; 1; 1; 1; 1; 1; 0; 0; 0; 0; 0; 0; 0; 0;
    0; 0; 0; 0; 0; 0; 0; 0; 0; 0; 1; 1; 1; 1; 0; 0; 0; 0; 0; 0; 0; 0; 1; 1; 1; 0; 0; 0; 0; 0;
    0; 0; 0; 0; 0; 1; 0; 0; 0; 0; 0; 0; 0; 0; 0; 0; 0; 0; 0; 0; 0; 0; 0; 0; 0; 0; 0; 0; 0; 1;
    1; 1; 1; 1; 1; 1; 0; 1; 1; 1; 1; 1; 1; 1; 0; 0; 1; 1; 1; 1; 1; 1; 0; 0; 0; 1; 1; 1; 1; 1;
    0; 0; 0; 1; 1; 1; 1; 1; 0; 0; 0; 0; 0; 1; 1; 1; 0; 0; 0; 0; 0; 0; 1; 1; 0; 0; 0; 0; 0; 0;
    1; 1; 0; 0; 0; 0; 0; 0; 0; 1; 0; 0; 0; 0; 0; 0; 0; 0; 0; 1; 1; 1; 1; 1; 1; 1; 0; 0; 1; 1] ++
   [1; 1; 1; 1; 0; 0; 0; 1; 1; 1; 1; 1; 0; 0; 0; 0; 1; 1; 1; 1; 0; 0; 0; 0; 1; 1; 1; 1; 0; 0;
    0; 0; 0; 0; 1; 1; 0; 0; 0; 0; 0; 0; 0; 1; 0; 0; 0; 0; 0; 0; 0; 1; 0; 0; 0; 0; 0; 0; 0; 0;
    0; 0; 0; 0; 0; 0; 0; 0; 1; 1; 1])%Z
  (MkCert 80%positive
   ([1; 2; 3; 4; 5; 6; 7; 8; 9; 10; 11; 12; 13; 14; 15; 16; 17; 18; 19; 20; 21])%positive
   ([])
   ([0])%Z) 0%Z.

Definition line3_1 : scenario := MkScenario (592, 79, 3040)%N 3
  ([0; 0; 1; 0; 1; 0; 1; 0; 1; 0; 1; 0; 1; 0; 1; 0; 1; 0; 1; 1; 1; 1; 1; 1; 1; 1; 1; 1; 1; 1;
    1; 1; 1; 1; 1; 1; 1; 1; 1; 1; 1; 1; 1; 1; 1; 1; 1; 1; 1; 1; 1; 1; 1; 1; 1; 1; 1; 1; 1; 1;
    1; 1; 1; 1; 1; 1; 0; 0; 1; 0; 1; 0; 1; 0; 1; 0; 1; 0; 1; 0; 1; 0; 1; 0; 1; 1; 1; 1; 1; 1;
    1; 1; 1; 1; 1; 1; 1; 1; 1; 1; 1; 1; 1; 1; 1; 1; 1; 1; 1; 1; 1; 1; 1; 1; 1; 1; 1; 1; 1; 1;
    1; 0; 0; 1; 0; 1; 0; 1; 0; 1; 0; 1; 0; 1; 0; 1; 0; 1; 0; 1; 1; 1; 1; 1; 1; 1; 1; 1; 1; 1;
    1; 1; 1; 1; 1; 1; 1; 1; 1; 1; 1; 0; 0; 0; 0; 1; 1; 1; 1; 1; 1; 1; 1; 1; 1; 1; 0; 0; 1; 0;
    1; 0; 1; 0; 1; 1; 1; 0; 1; 0; 1; 0; 1; 0; 1; 1; 1; 1; 1; 1; 1; 1; 1; 1; 1; 1; 1; 1; 1; 1;
    1; 1; 1; 1; 1; 1; 1; 1; 1; 1; 1; 1; 1; 1; 1; 1; 1; 1; 1; 1; 1; 0; 0; 1; 0; 1; 0; 1; 0; 1;
    0; 1; 0; 1; 0; 1; 1; 1; 1; 1; 1; 1; 1; 1; 1; 1; 1; 1; 1; 1; 1; 1; 1; 1; 1; 1; 1; 0; 3; 1;
    0; 1; 0; 1; 0; 1; 0; 1; 0; 1; 0; 1; 0; 1; 0; 1; 1; 1; 1; 1; 1; 1; 1; 1; 1; 1; 1; 1; 1; 1;
    1; 1; 1; 1; 1; 1; 1; 1; 1; 1; 1; 1; 1; 1; 1; 1; 1; 1; 1; 1; 1; 1; 0; 0; 1; 0; 1; 0; 1; 0;
    1; 0; 1; 0; 1; 3; 1; 1; 1; 1; 1; 1; 1; 1; 1; 1; 1; 1; 1; 1; 1; 1; 1; 1; 1; 1; 1; 1; 0; 0;
    1; 3; 1; 0; 1; 0; 1; 0; 1; 0; 1; 0; 1; 1; 1; 1; 1; 1; 1; 1; 1; 1; 1; 1; 1; 1; 1; 1; 1; 1;
    1; 1; 1; 1; 0; 0; 0; 0; 0; 1; 1; 1; 1; 1; 1; 1; 1; 1; 1; 0; 1; 1; 1; 1; 1; 1; 1; 1; 1; 1;
    0; 0; 0; 1; 1; 1; 1; 1; 1; 1; 1; 0; 0; 0; 0; 0; 1; 1; 1; 1; 1; 1; 0; 0; 0; 0; 0; 0; 0; 0;
    0; 0; 0; 0; 0; 0; 0; 0; 0; 0; 1; 1; 1; 1; 0; 0; 0; 0; 0; 0; 0; 0; 1; 1; 1; 0; 0; 0; 0; 0;
    0; 0; 0; 0; 1; 1; 0; 0; 0; 0; 0; 0; 0; 0; 0; 0; 0; 0; 0; 0; 0; 0; 0; 0; 0; 0; 0; 0; 0; 1;
    1; 1; 1; 1; 1; 1; 0; 0; 1; 1; 1; 1; 1; 1; 0; 0; 1; 1; 1; 1; 1; 1; 0; 0; 0; 1; 1; 1; 1; 1;
    0; 0; 0; 1; 1; 1; 1; 1; 0; 0; 0; 0; 0; 1; 1; 1; 0; 0; 0; 0; 0; 0; 1; 1; 0; 0; 0; 0; 0; 0;
    1; 1; 0; 0; 0; 0; 0; 0; 0; 1; 0; 0; 0; 0; 0; 0; 0; 0; 0; 0; 1; 1; 1; 1; 1; 1; 0; 0; 1; 1] ++
   [1; 1; 1; 1; 0; 0; 0; 1; 1; 1; 1; 1; 0; 0; 0; 0; 1; 1; 1; 1; 0; 0; 0; 0; 1; 1; 1; 1; 0; 0;
    0; 0; 0; 0; 1; 1; 0; 0; 0; 0; 0; 0; 0; 1; 0; 0; 0; 0; 0; 0; 0; 1; 0; 0; 0; 0; 0; 0; 0; 0;
    0; 0; 0; 0; 0; 0; 0; 0; 1; 1; 1])%Z
  (MkCert 80%positive
   ([1; 2; 3; 4; 5; 6; 7; 8; 9; 10; 11; 12; 13; 14; 15; 16; 17; 18; 19; 20; 21])%positive
   ([(466%nat, false, [22; 23]%positive); (1%nat, false, [24; 22]%positive); (1%nat, false, [14; 24]%positive); (1977%nat, false, [1; 25; 23]%positive); (401%nat, false, [23; 25; 1]%positive)])
   ([0; 18; 0; 14; 10; 6; 22; 101])%Z) 6%Z.

Definition line3_2 : scenario := MkScenario (592, 79, 3053)%N 12
  ([0; 0; 1; 1; 1; 1; 1; 0; 1; 4; 1; 0; 1; 0; 1; 0; 1; 0; 1; 0; 1; 0; 1; 1; 1; 1; 1; 1; 1; 1;
    1; 1; 1; 1; 1; 1; 1; 1; 0; 1; 1; 1; 1; 1; 1; 1; 1; 1; 1; 1; 1; 1; 1; 1; 1; 1; 1; 1; 1; 1;
    1; 1; 1; 1; 1; 0; 0; 0; 1; 0; 1; 0; 1; 4; 1; 0; 1; 0; 1; 0; 1; 0; 1; 0; 1; 0; 1; 1; 1; 1;
    1; 1; 1; 1; 1; 1; 1; 1; 1; 1; 1; 1; 1; 1; 1; 1; 1; 1; 1; 1; 1; 1; 1; 1; 1; 1; 1; 1; 1; 1;
    0; 0; 0; 1; 0; 1; 4; 1; 5; 1; 0; 1; 0; 1; 0; 1; 0; 1; 0; 1; 1; 1; 1; 1; 1; 1; 1; 1; 1; 1;
    1; 1; 1; 1; 1; 1; 1; 1; 1; 1; 1; 0; 0; 0; 0; 1; 1; 1; 1; 1; 1; 1; 1; 1; 1; 1; 0; 0; 1; 0;
    1; 0; 1; 4; 1; 1; 1; 0; 1; 0; 1; 0; 1; 0; 1; 0; 1; 1; 1; 1; 1; 1; 1; 1; 1; 1; 1; 1; 1; 1;
    1; 1; 1; 1; 1; 1; 1; 1; 1; 1; 1; 1; 1; 1; 1; 1; 1; 1; 1; 1; 0; 0; 0; 1; 1; 1; 3; 1; 0; 1;
    0; 1; 0; 1; 0; 1; 1; 1; 1; 1; 1; 1; 1; 1; 1; 1; 1; 1; 1; 1; 1; 1; 1; 1; 1; 1; 1; 0; 0; 1;
    1; 1; 1; 1; 2; 1; 0; 1; 0; 1; 0; 1; 0; 1; 0; 1; 0; 1; 1; 1; 1; 1; 1; 1; 1; 1; 1; 1; 1; 1;
    1; 1; 1; 1; 1; 1; 1; 1; 1; 1; 1; 1; 1; 1; 1; 1; 1; 1; 1; 1; 1; 0; 0; 0; 1; 2; 1; 3; 1; 0;
    1; 0; 1; 0; 1; 0; 1; 1; 1; 1; 1; 1; 1; 1; 1; 1; 1; 1; 1; 1; 1; 1; 1; 1; 1; 1; 1; 1; 0; 0;
    1; 5; 1; 1; 1; 0; 1; 0; 1; 0; 1; 0; 1; 1; 1; 1; 1; 1; 1; 1; 1; 1; 1; 1; 1; 1; 1; 1; 1; 1;
    1; 1; 1; 1; 0; 1; 0; 0; 1; 1; 1; 1; 1; 1; 1; 1; 1; 1; 1; 1; 1; 1; 1; 1; 1; 1; 1; 1; 1; 1;
    0; 1; 0; 1; 1; 1; 1; 1; 1; 1; 1; 0; 0; 0; 0; 0; 1; 1; 1; 1; 1; 1; 0; 0; 0; 0; 0; 0; 0; 0;
    0; 0; 0; 0; 0; 0; 0; 0; 0; 0; 1; 1; 1; 1; 0; 0; 0; 0; 0; 0; 0; 0; 1; 1; 1; 0; 0; 0; 0; 0;
    0; 0; 0; 0; 1; 1; 0; 0; 0; 0; 0; 0; 0; 0; 0; 1; 0; 0; 0; 0; 0; 0; 0; 0; 0; 0; 0; 0; 0; 0;
    1; 1; 1; 1; 1; 1; 0; 0; 0; 1; 1; 1; 1; 1; 0; 0; 1; 1; 1; 1; 1; 1; 0; 0; 0; 1; 1; 1; 1; 1;
    0; 0; 0; 1; 1; 1; 1; 1; 0; 0; 0; 0; 0; 1; 1; 1; 0; 0; 0; 0; 0; 0; 1; 1; 0; 0; 0; 0; 0; 0;
    1; 1; 0; 0; 0; 0; 0; 0; 0; 0; 0; 0; 0; 0; 0; 0; 0; 0; 0; 0; 1; 1; 1; 1; 1; 1; 0; 0; 0; 1] ++
   [1; 1; 1; 1; 0; 0; 0; 1; 1; 1; 1; 1; 0; 0; 0; 0; 1; 1; 1; 1; 0; 0; 0; 0; 1; 1; 1; 1; 0; 0;
    0; 0; 0; 0; 1; 1; 0; 0; 0; 0; 0; 0; 0; 1; 0; 0; 0; 0; 0; 0; 0; 1; 0; 0; 0; 0; 0; 0; 0; 0;
    0; 0; 0; 0; 0; 0; 0; 0; 1; 1; 1])%Z
  (MkCert 80%positive
   ([1; 2; 3; 4; 5; 6; 7; 8; 9; 10; 11; 12; 13; 14; 15; 16; 17; 18; 19; 20; 21])%positive
   ([(37%nat, false, [22; 23; 24]%positive); (1%nat, false, [23; 22; 24]%positive); (405%nat, false, [2; 25]%positive); (4%nat, false, [4; 23]%positive); (1%nat, false, [26; 22]%positive); (1%nat, false, [27; 26]%positive); (1%nat, false, [5; 27]%positive); (15%nat, false, [28; 29]%positive); (1%nat, false, [30; 28]%positive); (1%nat, false, [10; 30]%positive); (10%nat, false, [31; 32]%positive); (1%nat, false, [33; 31]%positive); (1%nat, false, [15; 33]%positive); (1%nat, false, [34; 35]%positive); (1%nat, false, [36; 34]%positive); (1%nat, false, [17; 36]%positive); (1068%nat, false, [23; 37; 15]%positive); (20%nat, false, [22; 38; 15]%positive); (90%nat, false, [29; 39; 16]%positive); (202%nat, false, [15; 37; 23]%positive); (29%nat, false, [15; 38; 22]%positive); (113%nat, false, [16; 39; 29]%positive); (453%nat, false, [1; 40; 32]%positive); (44%nat, false, [25; 41; 35]%positive); (37%nat, false, [3; 42; 32]%positive); (38%nat, false, [5; 43; 35]%positive); (283%nat, false, [32; 40; 1]%positive); (23%nat, false, [35; 41; 25]%positive); (20%nat, false, [32; 42; 3]%positive); (19%nat, false, [35; 43; 5]%positive)])
   ([0; 94; 0; 14; 98; 0; 82; 18; 10; 0; 86; 0; 30; 26; 22; 74; 153; 6; 97; 106; 0; 66; 62; 58; 122; 173; 114; 165; 102; 0;
    54; 50; 46; 118; 169; 110; 161; 90; 0; 94; 0; 14; 98; 0; 82; 10; 0; 86; 0; 30; 26; 22; 74; 153; 6; 97; 106; 0; 66; 62;
    58; 122; 173; 114; 165; 102; 0; 54; 50; 46; 118; 169; 110; 161; 42; 38; 34; 78; 157; 82; 0; 90; 0; 42; 38; 34; 78; 157; 18; 70;
    149])%Z) 24%Z.

Definition line3_3 : scenario := MkScenario (592, 79, 3034)%N 16
  ([0; 0; 1; 0; 1; 0; 1; 9; 1; 1; 1; 0; 1; 0; 1; 0; 1; 0; 1; 0; 1; 1; 1; 1; 1; 1; 1; 1; 1; 1;
    1; 1; 1; 1; 1; 1; 1; 1; 1; 1; 1; 1; 1; 1; 1; 1; 1; 1; 1; 1; 1; 1; 1; 1; 1; 1; 1; 1; 1; 1;
    1; 1; 1; 1; 1; 1; 0; 0; 1; 0; 1; 9; 1; 3; 1; 0; 1; 0; 1; 0; 1; 0; 1; 0; 1; 1; 1; 1; 1; 1;
    1; 1; 1; 1; 1; 1; 1; 1; 1; 1; 1; 1; 1; 1; 1; 1; 1; 1; 1; 1; 1; 1; 1; 1; 1; 1; 1; 1; 1; 1;
    1; 0; 5; 1; 2; 1; 0; 1; 0; 1; 0; 1; 0; 1; 0; 1; 0; 1; 2; 1; 1; 1; 1; 1; 1; 1; 1; 1; 1; 1;
    1; 1; 1; 1; 1; 1; 1; 1; 1; 1; 1; 0; 0; 0; 0; 1; 1; 1; 1; 1; 0; 1; 1; 1; 1; 1; 0; 0; 1; 0;
    1; 6; 1; 4; 1; 0; 1; 0; 1; 1; 1; 0; 1; 0; 1; 1; 1; 1; 1; 1; 1; 1; 1; 1; 1; 1; 1; 1; 1; 1;
    1; 1; 1; 1; 1; 1; 1; 1; 1; 1; 1; 1; 1; 1; 1; 1; 1; 1; 1; 1; 1; 0; 5; 1; 0; 1; 3; 1; 0; 1;
    0; 1; 0; 1; 2; 1; 1; 1; 1; 1; 1; 1; 1; 1; 1; 1; 1; 1; 1; 1; 1; 0; 1; 1; 1; 1; 1; 0; 0; 1;
    3; 1; 3; 1; 2; 1; 0; 1; 0; 1; 0; 1; 0; 1; 0; 1; 1; 1; 1; 1; 1; 1; 1; 1; 1; 1; 1; 1; 1; 1;
    1; 1; 1; 1; 1; 1; 1; 1; 1; 1; 1; 1; 1; 1; 1; 1; 1; 1; 1; 1; 1; 1; 0; 5; 1; 0; 1; 3; 1; 0;
    1; 0; 1; 0; 1; 2; 1; 1; 1; 1; 1; 1; 1; 1; 1; 1; 1; 1; 1; 1; 1; 1; 0; 1; 1; 1; 1; 1; 0; 5;
    1; 0; 1; 0; 1; 0; 1; 0; 1; 0; 1; 2; 1; 1; 1; 1; 1; 1; 1; 1; 1; 1; 1; 1; 1; 1; 1; 1; 0; 1;
    1; 1; 1; 1; 0; 0; 0; 0; 0; 0; 0; 0; 1; 1; 1; 1; 1; 1; 1; 0; 0; 0; 0; 1; 1; 1; 1; 1; 1; 1;
    0; 0; 0; 0; 1; 1; 1; 1; 1; 1; 1; 0; 0; 0; 0; 0; 0; 1; 1; 1; 1; 1; 0; 0; 0; 0; 0; 0; 0; 0;
    0; 0; 0; 0; 0; 0; 0; 0; 0; 0; 1; 1; 1; 1; 0; 0; 0; 0; 0; 0; 0; 0; 0; 0; 1; 0; 0; 0; 0; 0;
    0; 0; 0; 0; 0; 1; 0; 0; 0; 0; 0; 0; 0; 0; 0; 0; 0; 0; 0; 0; 0; 0; 0; 0; 0; 0; 0; 0; 1; 1;
    1; 1; 1; 1; 1; 1; 1; 1; 1; 1; 1; 1; 1; 1; 0; 1; 1; 1; 1; 1; 1; 1; 0; 0; 0; 1; 1; 1; 1; 1;
    0; 0; 0; 1; 1; 1; 1; 1; 0; 0; 0; 0; 1; 1; 1; 1; 0; 0; 0; 0; 1; 0; 1; 1; 0; 0; 0; 0; 0; 0;
    1; 1; 0; 0; 0; 0; 0; 0; 0; 1; 0; 0; 0; 0; 0; 0; 0; 1; 1; 1; 1; 1; 1; 1; 1; 1; 0; 1; 1; 1] ++
   [1; 1; 1; 1; 0; 0; 1; 1; 1; 1; 1; 1; 0; 0; 0; 0; 1; 1; 1; 1; 0; 0; 0; 0; 1; 1; 1; 1; 0; 0;
    0; 0; 1; 0; 1; 1; 0; 0; 0; 0; 0; 0; 0; 1; 0; 0; 0; 0; 0; 0; 0; 1; 0; 0; 0; 0; 0; 0; 0; 1;
    0; 0; 0; 0; 0; 0; 0; 1; 1; 1; 1])%Z
  (MkCert 80%positive
   ([1; 2; 3; 4; 5; 6; 7; 8; 9; 10; 11; 12; 13; 14; 15; 16; 17; 18; 19; 20; 21])%positive
   ([(147%nat, false, [14; 13; 22]%positive); (1%nat, false, [13; 14; 22]%positive); (292%nat, false, [23; 24]%positive); (1%nat, false, [25; 23]%positive); (1%nat, false, [5; 25]%positive); (21%nat, false, [26; 27]%positive); (1%nat, false, [28; 26]%positive); (1%nat, false, [12; 28]%positive); (1%nat, false, [29; 30]%positive); (1%nat, false, [31; 29]%positive); (1%nat, false, [14; 31]%positive); (16%nat, false, [32; 33]%positive); (1%nat, false, [34; 32]%positive); (1%nat, false, [21; 34]%positive); (1064%nat, false, [24; 35; 13]%positive); (2%nat, false, [24; 36; 14]%positive); (316%nat, false, [13; 35; 24]%positive); (2%nat, false, [14; 36; 24]%positive); (565%nat, false, [1; 37; 27]%positive); (78%nat, false, [3; 38; 30]%positive); (238%nat, false, [11; 39; 33]%positive); (86%nat, false, [27; 37; 1]%positive); (40%nat, false, [30; 38; 3]%positive); (120%nat, false, [33; 39; 11]%positive)])
   ([0; 10; 74; 0; 70; 0; 22; 18; 14; 62; 141; 82; 0; 46; 42; 38; 94; 153; 22; 18; 14; 66; 145; 78; 0; 10; 74; 0; 70; 0;
    22; 18; 14; 62; 141; 82; 0; 46; 42; 38; 94; 153; 22; 18; 14; 66; 145; 34; 30; 26; 90; 149; 10; 0; 6; 70; 0; 74; 0; 82;
    0; 46; 42; 38; 94; 153; 22; 18; 14; 66; 145; 62; 141; 78; 0; 6; 70; 0; 74; 0; 86; 0; 58; 54; 50; 98; 157; 82; 0; 46;
    42; 38; 94; 153; 22; 18; 14; 66; 145; 62; 141; 34; 30; 26; 90; 149; 6; 89])%Z) 32%Z.

Definition line3_4 : scenario := MkScenario (592, 79, 3044)%N 14
  ([0; 0; 1; 0; 1; 0; 1; 9; 1; 1; 1; 0; 1; 0; 1; 0; 1; 0; 1; 1; 1; 1; 1; 1; 1; 1; 1; 1; 1; 1;
    1; 1; 1; 1; 1; 1; 1; 1; 1; 1; 1; 1; 1; 1; 1; 1; 1; 1; 1; 1; 1; 1; 1; 1; 1; 1; 1; 1; 1; 1;
    1; 1; 1; 1; 1; 1; 0; 0; 1; 0; 1; 9; 1; 3; 1; 0; 1; 0; 1; 0; 1; 0; 1; 0; 1; 1; 1; 1; 1; 1;
    1; 1; 1; 1; 1; 1; 1; 1; 1; 1; 1; 1; 1; 1; 1; 1; 1; 1; 1; 1; 1; 1; 1; 1; 1; 1; 1; 1; 1; 1;
    1; 0; 0; 1; 2; 1; 0; 1; 0; 1; 3; 1; 0; 1; 0; 1; 0; 1; 2; 1; 1; 1; 1; 1; 1; 1; 1; 1; 1; 1;
    1; 1; 1; 1; 1; 1; 1; 1; 1; 1; 1; 0; 0; 0; 0; 1; 1; 1; 1; 1; 0; 1; 1; 1; 1; 1; 0; 0; 1; 0;
    1; 6; 1; 4; 1; 0; 1; 0; 1; 1; 1; 0; 1; 0; 1; 1; 1; 1; 1; 1; 1; 1; 1; 1; 1; 1; 1; 1; 1; 1;
    1; 1; 1; 1; 1; 1; 1; 1; 1; 1; 1; 1; 1; 1; 1; 1; 1; 1; 1; 1; 1; 0; 0; 1; 0; 1; 3; 1; 0; 1;
    0; 1; 0; 1; 2; 1; 1; 1; 1; 1; 1; 1; 1; 1; 1; 1; 1; 1; 1; 1; 1; 0; 1; 1; 1; 1; 1; 0; 0; 1;
    3; 1; 3; 1; 2; 1; 0; 1; 0; 1; 0; 1; 0; 1; 0; 1; 1; 1; 1; 1; 1; 1; 1; 1; 1; 1; 1; 1; 1; 1;
    1; 1; 1; 1; 1; 1; 1; 1; 1; 1; 1; 1; 1; 1; 1; 1; 1; 1; 1; 1; 1; 1; 0; 0; 1; 0; 1; 3; 1; 0;
    1; 0; 1; 0; 1; 2; 1; 1; 1; 1; 1; 1; 1; 1; 1; 1; 1; 1; 1; 1; 1; 1; 0; 1; 1; 1; 1; 1; 0; 0;
    1; 0; 1; 3; 1; 0; 1; 0; 1; 0; 1; 2; 1; 1; 1; 1; 1; 1; 1; 1; 1; 1; 1; 1; 1; 1; 1; 1; 0; 1;
    1; 1; 1; 1; 0; 0; 0; 0; 0; 0; 0; 1; 1; 1; 1; 1; 1; 1; 1; 0; 0; 0; 0; 1; 1; 1; 1; 1; 1; 1;
    0; 0; 0; 0; 1; 1; 1; 1; 1; 1; 1; 0; 0; 0; 0; 0; 0; 1; 1; 1; 1; 1; 0; 0; 0; 0; 0; 0; 0; 0;
    0; 0; 0; 0; 0; 0; 0; 0; 0; 0; 0; 1; 1; 1; 0; 0; 0; 0; 0; 0; 0; 0; 0; 1; 1; 0; 0; 0; 0; 0;
    0; 0; 0; 0; 1; 1; 0; 0; 0; 0; 0; 0; 0; 0; 0; 0; 0; 0; 0; 0; 0; 0; 0; 0; 0; 0; 0; 0; 1; 1;
    1; 1; 1; 1; 1; 1; 0; 1; 1; 1; 1; 1; 1; 1; 0; 1; 1; 1; 1; 1; 1; 1; 0; 0; 0; 1; 1; 1; 1; 1;
    0; 0; 0; 1; 1; 1; 1; 1; 0; 0; 0; 0; 1; 1; 1; 1; 0; 0; 0; 0; 1; 0; 1; 1; 0; 0; 0; 0; 0; 0;
    1; 1; 0; 0; 0; 0; 0; 0; 0; 1; 0; 0; 0; 0; 0; 0; 0; 1; 0; 1; 1; 1; 1; 1; 1; 1; 0; 1; 1; 1] ++
   [1; 1; 1; 1; 0; 0; 1; 1; 1; 1; 1; 1; 0; 0; 0; 1; 1; 1; 1; 1; 0; 0; 0; 1; 1; 1; 1; 1; 0; 0;
    0; 0; 1; 0; 1; 1; 0; 0; 0; 0; 0; 0; 0; 1; 0; 0; 0; 0; 0; 0; 0; 1; 0; 0; 0; 0; 0; 0; 0; 1;
    0; 0; 0; 0; 0; 0; 0; 1; 1; 1; 1])%Z
  (MkCert 80%positive
   ([1; 2; 3; 4; 5; 6; 7; 8; 9; 10; 11; 12; 13; 14; 15; 16; 17; 18; 19; 20; 21])%positive
   ([(147%nat, false, [14; 13; 22]%positive); (1%nat, false, [13; 14; 22]%positive); (76%nat, false, [23; 24; 25]%positive); (97%nat, false, [5; 26; 27]%positive); (116%nat, false, [28; 29]%positive); (1%nat, false, [24; 28]%positive); (1%nat, false, [5; 24]%positive); (3%nat, false, [26; 23]%positive); (1%nat, false, [6; 26]%positive); (4%nat, false, [30; 31]%positive); (1%nat, false, [32; 30]%positive); (1%nat, false, [8; 32]%positive); (14%nat, false, [33; 34]%positive); (1%nat, false, [35; 33]%positive); (1%nat, false, [14; 35]%positive); (4%nat, false, [36; 37]%positive); (1%nat, false, [38; 36]%positive); (1%nat, false, [17; 38]%positive); (2%nat, false, [39; 40]%positive); (1%nat, false, [18; 39]%positive); (7%nat, false, [41; 42]%positive); (1%nat, false, [43; 41]%positive); (1%nat, false, [21; 43]%positive); (471%nat, false, [44; 45]%positive); (0%nat, true, [44; 45]%positive); (171%nat, false, [25; 44]%positive); (0%nat, true, [25; 44]%positive); (169%nat, true, [27; 25]%positive); (259%nat, false, [29; 46; 13]%positive); (2%nat, false, [29; 47; 14]%positive);
    (63%nat, false, [31; 48; 17]%positive); (255%nat, false, [13; 46; 29]%positive); (2%nat, false, [14; 47; 29]%positive); (81%nat, false, [17; 48; 31]%positive); (333%nat, false, [32; 49; 40]%positive); (231%nat, false, [3; 50; 34]%positive); (44%nat, false, [5; 51; 37]%positive); (36%nat, false, [26; 52; 37]%positive); (71%nat, false, [40; 49; 32]%positive); (87%nat, false, [11; 53; 42]%positive); (128%nat, false, [34; 50; 3]%positive); (22%nat, false, [37; 51; 5]%positive); (18%nat, false, [37; 52; 26]%positive); (80%nat, false, [42; 53; 11]%positive)])
   ([0; 10; 0; 6; 130; 0; 134; 0; 30; 26; 22; 122; 189; 118; 185; 6; 89; 162; 0; 146; 0; 62; 58; 54; 166; 201; 10; 134; 0; 130;
    0; 150; 0; 146; 0; 62; 58; 54; 166; 201; 74; 70; 66; 170; 205; 30; 26; 22; 118; 185; 30; 26; 22; 122; 189; 10; 0; 6; 130; 0;
    150; 0; 74; 70; 66; 170; 205; 18; 114; 110; 102; 0; 134; 0; 38; 154; 0; 74; 70; 66; 174; 209; 138; 0; 50; 142; 0; 82; 78; 158;
    197; 50; 46; 42; 126; 193; 146; 0; 62; 58; 54; 166; 201; 34; 14; 30; 26; 22; 122; 189; 106; 98; 181; 118; 185; 6; 89; 94; 90; 86;
    178; 213])%Z) 28%Z.

Definition line3_5 : scenario := MkScenario (592, 79, 3086)%N (83 # 2)
  ([0; 0; 1; 1; 1; 11; 1; 10; 1; 5; 1; 0; 1; 0; 1; 0; 1; 5; 1; 0; 1; 0; 1; 1; 1; 1; 1; 1; 1; 1;
    1; 1; 1; 1; 1; 1; 1; 1; 0; 1; 1; 1; 1; 1; 1; 1; 1; 1; 1; 1; 1; 1; 1; 1; 1; 1; 1; 1; 1; 1;
    1; 1; 1; 1; 1; 0; 0; 0; 1; 0; 1; 10; 1; 5; 1; 0; 1; 0; 1; 0; 1; 5; 1; 0; 1; 0; 1; 1; 1; 1;
    1; 1; 1; 1; 1; 1; 1; 1; 1; 1; 1; 1; 1; 1; 1; 1; 1; 1; 1; 1; 1; 1; 1; 1; 1; 1; 1; 1; 1; 1;
    0; 4; 0; 1; 0; 1; 2; 1; 0; 1; 4; 1; 0; 1; 0; 1; 0; 1; 2; 1; 0; 1; 1; 1; 1; 1; 1; 1; 1; 1;
    1; 1; 1; 1; 1; 1; 1; 1; 1; 1; 1; 0; 0; 0; 0; 1; 1; 1; 1; 1; 0; 1; 1; 1; 1; 1; 0; 0; 1; 0;
    1; 7; 1; 5; 1; 1; 1; 0; 1; 1; 1; 5; 1; 0; 1; 0; 1; 1; 1; 1; 1; 1; 1; 1; 1; 1; 1; 1; 1; 1;
    1; 1; 1; 1; 1; 1; 1; 1; 1; 1; 1; 1; 1; 1; 1; 1; 1; 1; 1; 1; 0; 0; 0; 1; 2; 1; 4; 1; 0; 1;
    0; 1; 0; 1; 2; 1; 1; 1; 1; 1; 1; 1; 1; 1; 1; 1; 1; 1; 1; 1; 1; 0; 1; 1; 1; 1; 1; 0; 0; 1;
    3; 1; 4; 1; 3; 1; 0; 1; 0; 1; 5; 1; 7; 1; 0; 1; 0; 1; 1; 1; 1; 1; 1; 1; 1; 1; 1; 1; 1; 1;
    1; 1; 1; 1; 1; 1; 1; 1; 1; 1; 1; 1; 1; 1; 1; 1; 1; 1; 1; 1; 1; 0; 0; 0; 1; 2; 1; 4; 1; 0;
    1; 0; 1; 0; 1; 2; 1; 1; 1; 1; 1; 1; 1; 1; 1; 1; 1; 1; 1; 1; 1; 1; 0; 1; 1; 1; 1; 1; 0; 0;
    1; 0; 1; 4; 1; 0; 1; 0; 1; 0; 1; 2; 1; 1; 1; 1; 1; 1; 1; 1; 1; 1; 1; 1; 1; 1; 1; 1; 0; 1;
    1; 1; 1; 1; 0; 11; 0; 3; 0; 1; 0; 1; 1; 1; 1; 1; 1; 1; 1; 0; 0; 0; 1; 1; 1; 1; 1; 1; 1; 1;
    0; 0; 0; 1; 1; 1; 1; 1; 1; 1; 1; 0; 0; 0; 0; 0; 0; 1; 1; 1; 1; 1; 0; 0; 0; 0; 0; 0; 0; 0;
    0; 0; 0; 0; 0; 0; 0; 0; 0; 0; 0; 1; 1; 1; 0; 0; 0; 0; 0; 0; 0; 0; 0; 1; 1; 0; 0; 0; 0; 0;
    0; 0; 0; 0; 1; 1; 0; 0; 0; 0; 0; 0; 0; 0; 0; 1; 0; 0; 0; 0; 0; 0; 0; 0; 0; 0; 0; 0; 0; 1;
    1; 1; 1; 1; 1; 1; 0; 0; 1; 1; 1; 1; 1; 1; 0; 1; 1; 1; 1; 1; 1; 1; 0; 0; 0; 1; 1; 1; 1; 1;
    0; 0; 0; 1; 1; 1; 1; 1; 0; 0; 0; 0; 1; 1; 1; 1; 0; 0; 0; 0; 1; 0; 1; 1; 0; 0; 0; 0; 0; 0;
    1; 1; 0; 0; 0; 0; 0; 0; 0; 1; 0; 0; 0; 0; 0; 0; 0; 1; 0; 1; 1; 1; 1; 1; 1; 1; 0; 0; 0; 1] ++
   [1; 1; 1; 1; 0; 0; 1; 1; 1; 1; 1; 1; 0; 0; 0; 1; 1; 1; 1; 1; 0; 0; 0; 1; 1; 1; 1; 1; 0; 0;
    0; 0; 1; 0; 1; 1; 0; 0; 0; 0; 0; 0; 1; 1; 0; 0; 0; 0; 0; 0; 0; 1; 0; 0; 0; 0; 0; 0; 0; 0;
    0; 0; 0; 0; 0; 0; 0; 1; 1; 1; 1])%Z
  (MkCert 80%positive
   ([1; 2; 3; 4; 5; 6; 7; 8; 9; 10; 11; 12; 13; 14; 15; 16; 17; 18; 19; 20; 21])%positive
   ([(37%nat, false, [22; 23; 24]%positive); (1%nat, false, [23; 22; 24]%positive); (115%nat, false, [14; 13; 25]%positive); (1%nat, false, [13; 14; 25]%positive); (78%nat, false, [26; 27; 28]%positive); (98%nat, false, [29; 5; 30]%positive); (1%nat, false, [5; 29; 30]%positive); (29%nat, false, [10; 11; 31]%positive); (78%nat, false, [32; 33]%positive); (1%nat, false, [34; 32]%positive); (1%nat, false, [35; 34]%positive); (1%nat, false, [2; 35]%positive); (4%nat, false, [4; 23]%positive); (1%nat, false, [36; 22]%positive); (1%nat, false, [27; 36]%positive); (1%nat, false, [5; 27]%positive); (1%nat, false, [37; 38]%positive); (1%nat, false, [26; 37]%positive); (1%nat, false, [29; 26]%positive); (1%nat, false, [6; 29]%positive); (3%nat, false, [7; 39]%positive); (1%nat, false, [40; 41]%positive); (1%nat, false, [42; 40]%positive); (1%nat, false, [8; 42]%positive); (4%nat, false, [9; 43]%positive); (1%nat, false, [44; 45]%positive); (1%nat, false, [46; 44]%positive); (1%nat, false, [10; 46]%positive); (7%nat, false, [47; 48]%positive); (1%nat, false, [49; 47]%positive);
    (1%nat, false, [14; 49]%positive); (2%nat, false, [50; 51]%positive); (1%nat, false, [15; 50]%positive); (1%nat, false, [52; 53]%positive); (1%nat, false, [54; 52]%positive); (1%nat, false, [17; 54]%positive); (1%nat, false, [55; 56]%positive); (1%nat, false, [57; 55]%positive); (1%nat, false, [18; 57]%positive); (4%nat, false, [58; 59]%positive); (1%nat, false, [60; 58]%positive); (1%nat, false, [20; 60]%positive); (1%nat, false, [61; 62]%positive); (1%nat, false, [63; 61]%positive); (1%nat, false, [21; 63]%positive); (417%nat, false, [45; 64]%positive); (61%nat, false, [65; 66]%positive); (0%nat, true, [65; 66]%positive); (50%nat, true, [67; 64]%positive); (123%nat, false, [28; 65]%positive); (0%nat, true, [28; 65]%positive); (48%nat, true, [68; 67]%positive); (123%nat, false, [30; 28]%positive); (0%nat, true, [30; 28]%positive); (49%nat, true, [31; 68]%positive); (151%nat, false, [33; 69; 13]%positive); (2%nat, false, [33; 70; 14]%positive); (42%nat, false, [23; 71; 13]%positive); (2%nat, false, [23; 72; 14]%positive); (20%nat, false, [22; 73; 13]%positive);
    (2%nat, false, [22; 74; 14]%positive); (19%nat, false, [38; 75; 13]%positive); (2%nat, false, [38; 76; 14]%positive); (41%nat, false, [41; 77; 17]%positive); (39%nat, false, [45; 78; 20]%positive); (139%nat, false, [13; 69; 33]%positive); (2%nat, false, [14; 70; 33]%positive); (52%nat, false, [13; 71; 23]%positive); (2%nat, false, [14; 72; 23]%positive); (28%nat, false, [13; 73; 22]%positive); (2%nat, false, [14; 74; 22]%positive); (24%nat, false, [13; 75; 38]%positive); (2%nat, false, [14; 76; 38]%positive); (53%nat, false, [17; 77; 41]%positive); (45%nat, false, [20; 78; 45]%positive); (171%nat, false, [34; 79; 51]%positive); (54%nat, false, [27; 80; 51]%positive); (47%nat, false, [39; 81; 52]%positive); (221%nat, false, [51; 79; 34]%positive); (38%nat, false, [3; 82; 48]%positive); (39%nat, false, [51; 80; 27]%positive); (5%nat, false, [5; 83; 53]%positive); (36%nat, false, [29; 84; 53]%positive); (32%nat, false, [52; 81; 39]%positive); (5%nat, false, [7; 85; 56]%positive); (41%nat, false, [8; 86; 59]%positive); (31%nat, false, [43; 87; 59]%positive); (26%nat, false, [10; 88; 62]%positive); (20%nat, false, [11; 89; 62]%positive); (132%nat, false, [48; 82; 3]%positive);
    (22%nat, false, [53; 83; 5]%positive); (18%nat, false, [53; 84; 29]%positive); (19%nat, false, [56; 85; 7]%positive); (20%nat, false, [59; 86; 8]%positive); (16%nat, false, [59; 87; 43]%positive); (13%nat, false, [62; 88; 10]%positive); (10%nat, false, [62; 89; 11]%positive)])
   ([0; 298; 0; 346; 0; 170; 166; 162; 378; 345; 98; 94; 90; 258; 309; 322; 0; 18; 126; 122; 118; 362; 329; 18; 0; 298; 0; 98; 94; 90;
    258; 309; 14; 101; 274; 0; 278; 54; 234; 266; 0; 50; 46; 42; 38; 226; 277; 298; 0; 346; 0; 278; 54; 234; 266; 0; 50; 46; 42; 38;
    226; 277; 170; 166; 162; 378; 345; 98; 94; 90; 258; 309; 278; 54; 234; 285; 278; 0; 274; 54; 238; 286; 0; 298; 0; 346; 0; 170; 166; 162;
    378; 345; 98; 94; 90; 258; 309; 322; 0; 274; 54; 238; 126; 122; 118; 362; 329; 66; 62; 58; 246; 297; 274; 0; 322; 0; 54; 234; 18; 126;
    122; 118; 362; 329; 54; 234; 18; 286; 0; 330; 0; 322; 0; 54; 234; 18; 126; 122; 118; 362; 329; 146; 142; 138; 366; 333; 30; 218; 206; 194;
    0; 54; 234; 282; 0; 330; 0; 50; 46; 306; 0; 82; 334; 0; 146; 142; 138; 370; 337; 134; 130; 318; 317; 298; 0; 346; 0; 170; 166; 162;
    378; 345; 98; 94; 90; 258; 309; 322; 0; 54; 234; 18; 126; 122; 118; 362; 329; 146; 142; 138; 366; 333; 78; 22; 66; 62; 58; 242; 293; 202;
    190; 265; 66; 62; 58; 246; 297; 54; 234; 285; 18; 0; 54; 238; 14; 282; 0; 54; 238; 286; 0; 50; 46; 306; 0; 134; 130; 318; 317; 54;
    66; 62; 58; 246; 238; 14; 266; 0; 50; 46; 42; 38; 226; 277; 298; 0; 346; 0; 330; 0; 170; 166; 162; 378; 98; 94; 90; 258; 146; 142;
    138; 366; 333; 54; 66; 62; 58; 246; 238; 14; 266; 0; 50; 46; 42; 38; 226; 277; 170; 166; 162; 378; 345; 98; 94; 90; 258; 309; 322; 0;
    54; 238; 126; 122; 118; 362; 329; 66; 62; 58; 246; 297; 242; 293; 54; 238; 14; 101; 54; 238; 289; 34; 358; 0; 290; 0; 298; 0; 98; 94;
    90; 258; 309; 294; 250; 301; 354; 0; 290; 0; 302; 0; 182; 178; 174; 386; 114; 110; 106; 262; 313; 294; 250; 301; 182; 178; 174; 386; 353; 274;
    0; 278; 54; 234; 282; 0; 54; 234; 266; 0; 50; 46; 42; 38; 226; 277; 298; 0; 54; 66; 62; 58; 242; 234; 266; 0; 50; 46; 42; 38;
    226; 277; 98; 94; 90; 258; 309; 293; 302; 0; 278; 54; 234; 282; 0; 50; 46; 306; 0; 102; 350; 0; 114; 110; 106; 262; 170; 166; 162; 382;
    349; 134; 130; 318; 317; 54; 66; 62; 58; 242; 234; 266; 0; 50; 46; 42; 38; 226; 277; 298; 0; 346; 0; 82; 334; 0; 50; 46; 306; 0;
    134; 130; 318; 317; 170; 166; 162; 378; 98; 94; 90; 258; 146; 142; 138; 370; 337; 54; 66; 62; 58; 242; 234; 266; 0; 50; 46; 42; 38; 226;
    277; 170; 166; 162; 378; 345; 98; 94; 90; 258; 309; 293; 313; 354; 0; 278; 54; 234; 282; 0; 54; 66; 62; 58; 242; 234; 266; 0; 50; 46;
    42; 38; 226; 277; 298; 0; 82; 334; 0; 98; 94; 90; 258; 146; 142; 138; 370; 337; 54; 66; 62; 58; 242; 234; 266; 0; 50; 46; 42; 38;
    226; 277; 98; 94; 90; 258; 309; 293; 302; 0; 298; 0; 98; 94; 90; 258; 309; 182; 178; 174; 386; 114; 110; 106; 262; 313; 182; 178; 174; 386;
    353; 54; 234; 285; 294; 0; 50; 46; 306; 0; 134; 130; 318; 317; 298; 0; 346; 0; 82; 334; 0; 170; 166; 162; 378; 98; 94; 90; 258; 146] ++
   [142; 138; 370; 337; 170; 166; 162; 378; 345; 98; 94; 90; 258; 309; 322; 0; 290; 254; 126; 122; 118; 362; 329; 354; 0; 322; 0; 290; 254; 126;
    122; 118; 362; 329; 302; 0; 182; 178; 174; 386; 114; 110; 106; 262; 313; 182; 178; 174; 386; 353; 290; 0; 50; 46; 306; 0; 66; 310; 0; 134;
    130; 326; 321; 134; 130; 318; 317; 298; 0; 50; 46; 306; 0; 82; 334; 0; 98; 94; 90; 258; 146; 142; 138; 370; 337; 66; 310; 0; 134; 130;
    326; 321; 134; 130; 318; 317; 98; 94; 90; 258; 309; 322; 0; 18; 126; 122; 118; 362; 329; 302; 0; 50; 46; 306; 0; 82; 334; 0; 102; 350;
    0; 114; 110; 106; 262; 170; 166; 162; 382; 349; 146; 142; 138; 370; 337; 66; 310; 0; 134; 130; 326; 321; 134; 130; 318; 317; 298; 0; 346; 0;
    50; 46; 306; 0; 82; 334; 0; 114; 110; 106; 262; 170; 166; 162; 378; 98; 94; 90; 258; 146; 142; 138; 370; 337; 66; 310; 0; 134; 130; 326;
    321; 134; 130; 318; 317; 170; 166; 162; 378; 345; 98; 94; 90; 258; 309; 322; 0; 50; 46; 306; 0; 134; 130; 318; 317; 298; 0; 346; 0; 50;
    46; 306; 0; 134; 130; 318; 317; 170; 166; 162; 378; 345; 98; 94; 90; 258; 309; 82; 78; 74; 70; 250; 18; 126; 122; 118; 362; 329; 313; 78;
    74; 70; 250; 18; 0; 50; 46; 306; 0; 134; 130; 318; 317; 298; 0; 50; 46; 306; 0; 66; 310; 0; 134; 130; 326; 321; 134; 130; 318; 317;
    98; 94; 90; 258; 309; 302; 0; 50; 46; 306; 0; 82; 334; 0; 342; 0; 158; 154; 150; 374; 341; 86; 314; 0; 146; 142; 338; 325; 146; 142;
    138; 370; 337; 66; 310; 0; 134; 130; 326; 321; 134; 130; 318; 317; 298; 0; 346; 0; 50; 46; 306; 0; 82; 334; 0; 114; 110; 106; 262; 170;
    166; 162; 378; 98; 94; 90; 258; 146; 142; 138; 370; 337; 66; 310; 0; 134; 130; 326; 321; 134; 130; 318; 317; 170; 166; 162; 378; 345; 98; 94;
    90; 258; 309; 313; 78; 74; 70; 254; 14; 101; 354; 0; 50; 46; 306; 0; 82; 334; 0; 146; 142; 138; 370; 337; 66; 310; 0; 134; 130; 326;
    321; 134; 130; 318; 317; 298; 0; 50; 46; 306; 0; 82; 334; 0; 98; 94; 90; 258; 146; 142; 138; 370; 337; 66; 310; 0; 134; 130; 326; 321;
    134; 130; 318; 317; 98; 94; 90; 258; 309; 322; 0; 82; 78; 74; 70; 250; 18; 126; 122; 118; 362; 329; 302; 0; 50; 46; 306; 0; 134; 130;
    318; 317; 298; 0; 346; 0; 182; 178; 174; 386; 114; 110; 106; 262; 170; 166; 162; 378; 345; 98; 94; 90; 258; 309; 322; 0; 18; 126; 122; 118;
    362; 329; 182; 178; 174; 386; 114; 110; 106; 262; 313; 78; 74; 70; 250; 18; 0; 50; 46; 306; 0; 82; 334; 0; 146; 142; 138; 370; 337; 66;
    310; 0; 134; 130; 326; 321; 134; 130; 318; 317; 298; 0; 50; 46; 306; 0; 82; 334; 0; 98; 94; 90; 258; 146; 142; 138; 370; 337; 66; 310;
    0; 134; 130; 326; 321; 134; 130; 318; 317; 98; 94; 90; 258; 309; 302; 0; 298; 0; 346; 0; 182; 178; 174; 386; 114; 110; 106; 262; 170; 166;
    162; 378; 345; 98; 94; 90; 258; 309; 182; 178; 174; 386; 114; 110; 106; 262; 313; 78; 74; 70; 254; 14; 101; 182; 178; 174; 386; 353; 301; 274] ++
   [0; 278; 54; 234; 282; 0; 82; 78; 74; 70; 254; 278; 54; 66; 62; 58; 242; 234; 266; 0; 50; 46; 42; 38; 226; 277; 298; 0; 50; 46;
    306; 0; 134; 130; 318; 317; 82; 78; 74; 70; 254; 278; 54; 66; 62; 58; 242; 234; 266; 0; 50; 46; 42; 38; 226; 277; 98; 94; 90; 258;
    309; 293; 302; 0; 82; 78; 74; 70; 254; 278; 54; 234; 282; 0; 50; 46; 306; 0; 82; 334; 0; 146; 142; 138; 370; 337; 134; 130; 318; 317;
    82; 78; 74; 70; 254; 278; 54; 66; 62; 58; 242; 234; 266; 0; 50; 46; 42; 38; 226; 277; 298; 0; 278; 54; 234; 266; 0; 50; 46; 42;
    38; 226; 277; 346; 0; 50; 46; 306; 0; 82; 334; 0; 114; 110; 106; 262; 170; 166; 162; 378; 98; 94; 90; 258; 146; 142; 138; 370; 337; 134;
    130; 318; 317; 82; 78; 74; 70; 254; 278; 54; 66; 62; 58; 242; 234; 266; 0; 50; 46; 42; 38; 226; 277; 170; 166; 162; 378; 345; 98; 94;
    90; 258; 309; 293; 313; 354; 0; 278; 54; 234; 282; 0; 50; 46; 306; 0; 134; 130; 318; 317; 82; 78; 74; 70; 254; 278; 54; 66; 62; 58;
    242; 234; 266; 0; 50; 46; 42; 38; 226; 277; 298; 0; 346; 0; 50; 46; 306; 0; 82; 334; 0; 170; 166; 162; 378; 98; 94; 90; 258; 146;
    142; 138; 370; 337; 134; 130; 318; 317; 82; 78; 74; 70; 254; 278; 54; 66; 62; 58; 242; 234; 266; 0; 50; 46; 42; 38; 226; 277; 345; 98;
    94; 90; 258; 309; 293; 302; 0; 82; 78; 74; 70; 254; 278; 54; 234; 266; 0; 50; 46; 42; 38; 226; 277; 298; 0; 346; 0; 278; 54; 234;
    266; 0; 50; 46; 42; 38; 226; 277; 182; 178; 174; 386; 114; 110; 106; 262; 170; 166; 162; 378; 345; 98; 94; 90; 258; 309; 182; 178; 174; 386;
    114; 110; 106; 262; 313; 182; 178; 174; 386; 353; 278; 54; 234; 285; 254; 305; 278; 0; 274; 54; 238; 286; 0; 50; 46; 306; 0; 134; 130; 318;
    317; 290; 0; 82; 78; 74; 70; 250; 301; 298; 0; 82; 334; 0; 98; 94; 90; 258; 146; 142; 138; 370; 337; 290; 0; 50; 46; 306; 0; 134;
    130; 318; 317; 82; 78; 74; 70; 250; 301; 98; 94; 90; 258; 309; 322; 0; 274; 54; 238; 126; 122; 118; 362; 329; 66; 62; 58; 246; 297; 302;
    0; 298; 0; 98; 94; 90; 258; 309; 322; 0; 274; 54; 238; 126; 122; 118; 362; 329; 274; 54; 238; 286; 0; 50; 46; 306; 0; 102; 350; 0;
    114; 110; 106; 262; 170; 166; 162; 382; 349; 134; 130; 318; 317; 290; 0; 50; 46; 306; 0; 82; 334; 0; 146; 142; 138; 370; 337; 134; 130; 318;
    317; 82; 78; 74; 70; 250; 301; 298; 0; 346; 0; 82; 334; 0; 50; 46; 306; 0; 102; 350; 0; 114; 110; 106; 262; 170; 166; 162; 382; 349;
    134; 130; 318; 317; 170; 166; 162; 378; 98; 94; 90; 258; 146; 142; 138; 370; 337; 290; 0; 50; 46; 306; 0; 82; 334; 0; 114; 110; 106; 262;
    170; 166; 162; 378; 98; 94; 90; 258; 146; 142; 138; 370; 337; 134; 130; 318; 317; 82; 78; 74; 70; 250; 301; 170; 166; 162; 378; 345; 98; 94;
    90; 258; 309; 322; 0; 274; 54; 238; 126; 122; 118; 362; 329; 66; 62; 58; 246; 297; 313; 274; 0; 298; 0; 98; 94; 90; 258; 309; 322; 0] ++
   [54; 234; 18; 126; 122; 118; 362; 329; 54; 234; 18; 286; 0; 330; 0; 50; 46; 306; 0; 134; 130; 318; 317; 322; 0; 54; 234; 18; 126; 122;
    118; 362; 329; 146; 142; 138; 366; 333; 30; 218; 206; 194; 0; 54; 234; 282; 0; 330; 0; 50; 46; 306; 0; 82; 334; 0; 102; 350; 0; 54;
    10; 0; 146; 142; 138; 370; 78; 22; 66; 62; 58; 6; 97; 170; 166; 162; 382; 349; 146; 142; 138; 370; 337; 134; 130; 318; 317; 298; 0; 50;
    46; 306; 0; 82; 334; 0; 98; 94; 90; 258; 146; 142; 138; 370; 337; 134; 130; 318; 317; 98; 94; 90; 258; 309; 322; 0; 54; 234; 18; 126;
    122; 118; 362; 329; 146; 142; 138; 366; 333; 78; 22; 66; 62; 58; 242; 293; 202; 190; 265; 66; 62; 58; 246; 297; 302; 0; 50; 46; 306; 0;
    102; 350; 0; 114; 110; 106; 262; 170; 166; 162; 382; 349; 66; 310; 0; 134; 130; 326; 321; 134; 130; 318; 317; 298; 0; 346; 0; 82; 334; 0;
    50; 46; 306; 0; 134; 130; 318; 317; 170; 166; 162; 378; 98; 94; 90; 258; 146; 142; 138; 370; 337; 170; 166; 162; 378; 345; 98; 94; 90; 258;
    309; 322; 0; 54; 234; 18; 126; 122; 118; 362; 329; 54; 234; 18; 286; 0; 30; 334; 0; 330; 370; 337; 298; 0; 346; 0; 30; 334; 0; 170;
    166; 162; 378; 98; 94; 90; 258; 146; 142; 330; 138; 370; 337; 170; 166; 162; 378; 345; 98; 94; 90; 258; 309; 322; 0; 54; 234; 18; 126; 122;
    118; 362; 329; 330; 0; 50; 46; 306; 0; 102; 350; 0; 114; 110; 106; 262; 170; 166; 162; 382; 349; 134; 130; 318; 317; 322; 0; 54; 234; 18;
    126; 122; 118; 362; 329; 146; 142; 138; 366; 333; 30; 218; 206; 194; 0; 54; 234; 290; 0; 82; 78; 74; 70; 250; 301; 322; 0; 54; 234; 282;
    246; 126; 122; 118; 362; 329; 54; 234; 282; 0; 82; 26; 330; 0; 50; 46; 306; 0; 82; 334; 0; 54; 10; 0; 146; 142; 138; 370; 78; 22;
    66; 62; 58; 6; 97; 102; 350; 0; 114; 110; 106; 262; 170; 166; 162; 382; 349; 146; 142; 138; 370; 337; 134; 130; 318; 317; 298; 0; 50; 46;
    306; 0; 134; 130; 318; 317; 346; 0; 50; 46; 306; 0; 82; 334; 0; 114; 110; 106; 262; 170; 166; 162; 378; 98; 94; 90; 258; 146; 142; 138;
    370; 337; 134; 130; 318; 317; 170; 166; 162; 378; 345; 98; 94; 90; 258; 309; 322; 0; 54; 66; 62; 58; 242; 234; 18; 126; 122; 118; 362; 329;
    146; 142; 138; 366; 333; 78; 22; 66; 62; 58; 242; 293; 214; 202; 190; 265; 66; 62; 58; 246; 297; 313; 54; 234; 285; 18; 0; 54; 238; 14;
    282; 0; 322; 0; 54; 238; 126; 122; 118; 362; 329; 330; 0; 54; 238; 14; 266; 0; 50; 46; 42; 38; 226; 277; 322; 0; 54; 238; 126; 122;
    118; 362; 329; 146; 142; 138; 366; 333; 30; 218; 206; 194; 0; 54; 238; 286; 0; 330; 0; 50; 46; 306; 0; 82; 334; 0; 146; 142; 138; 370;
    337; 134; 130; 318; 317; 366; 333; 54; 78; 22; 66; 62; 58; 246; 238; 14; 266; 0; 50; 46; 42; 38; 226; 277; 298; 0; 330; 0; 50; 46;
    306; 0; 82; 334; 0; 98; 94; 90; 258; 146; 142; 138; 370; 337; 134; 130; 318; 317; 98; 94; 90; 258; 146; 142; 138; 366; 333; 54; 78; 22] ++
   [66; 62; 58; 246; 238; 14; 266; 0; 50; 46; 42; 38; 226; 277; 98; 94; 90; 258; 309; 322; 0; 54; 238; 126; 122; 118; 362; 329; 66; 62;
    58; 246; 297; 202; 190; 265; 242; 293; 302; 0; 298; 0; 346; 0; 170; 166; 162; 378; 345; 98; 94; 90; 258; 309; 322; 0; 54; 238; 126; 122;
    118; 362; 329; 54; 238; 14; 282; 0; 54; 238; 14; 266; 0; 50; 46; 42; 38; 226; 277; 298; 0; 346; 0; 54; 238; 14; 266; 0; 50; 46;
    42; 38; 226; 277; 170; 166; 162; 378; 345; 98; 94; 90; 258; 309; 322; 0; 54; 238; 126; 122; 118; 362; 329; 330; 0; 50; 46; 306; 0; 102;
    350; 0; 114; 110; 106; 262; 170; 166; 162; 382; 349; 134; 130; 318; 317; 54; 238; 14; 266; 0; 50; 46; 42; 38; 226; 277; 322; 0; 54; 238;
    126; 122; 118; 362; 329; 146; 142; 138; 366; 333; 30; 218; 206; 194; 0; 66; 62; 54; 238; 286; 58; 242; 266; 0; 50; 46; 42; 38; 226; 277;
    298; 0; 346; 0; 66; 62; 54; 238; 286; 58; 242; 266; 0; 50; 46; 42; 38; 226; 277; 170; 166; 162; 378; 345; 98; 94; 90; 258; 309; 54;
    238; 286; 0; 330; 0; 50; 46; 306; 0; 82; 334; 0; 54; 10; 0; 146; 142; 138; 370; 78; 22; 66; 62; 58; 6; 97; 102; 350; 0; 114;
    110; 106; 262; 170; 166; 162; 382; 349; 146; 142; 138; 370; 337; 134; 130; 318; 317; 366; 333; 54; 78; 22; 66; 62; 58; 246; 238; 14; 266; 0;
    54; 238; 270; 0; 50; 46; 42; 38; 230; 281; 50; 46; 42; 38; 226; 277; 298; 0; 54; 66; 62; 58; 246; 238; 14; 266; 0; 50; 46; 42;
    38; 226; 277; 346; 0; 330; 0; 50; 46; 306; 0; 82; 334; 0; 114; 110; 106; 262; 170; 166; 162; 378; 98; 94; 90; 258; 146; 142; 138; 370;
    337; 134; 130; 318; 317; 170; 166; 162; 378; 98; 94; 90; 258; 146; 142; 138; 366; 333; 54; 78; 22; 66; 62; 58; 246; 238; 14; 266; 0; 54;
    238; 270; 0; 50; 46; 42; 38; 230; 281; 50; 46; 42; 38; 226; 277; 170; 166; 162; 378; 345; 98; 94; 90; 258; 309; 322; 0; 54; 66; 62;
    58; 246; 238; 126; 122; 118; 362; 329; 66; 62; 58; 246; 297; 202; 190; 265; 242; 293; 313; 54; 238; 14; 101; 354; 0; 274; 54; 238; 286; 0;
    50; 46; 306; 0; 102; 350; 0; 170; 166; 162; 382; 349; 134; 130; 318; 317; 290; 0; 50; 46; 306; 0; 134; 130; 318; 317; 82; 78; 74; 70;
    250; 301; 298; 0; 346; 0; 82; 334; 0; 50; 46; 306; 0; 134; 130; 318; 317; 98; 94; 90; 258; 146; 142; 138; 370; 337; 290; 0; 50; 46;
    306; 0; 82; 334; 0; 170; 166; 162; 378; 98; 94; 90; 258; 146; 142; 138; 370; 337; 134; 130; 318; 317; 82; 78; 74; 70; 250; 301; 345; 98;
    94; 90; 258; 309; 322; 0; 274; 54; 238; 126; 122; 118; 362; 329; 66; 62; 58; 246; 297; 302; 0; 274; 54; 238; 286; 0; 290; 0; 82; 78;
    74; 70; 250; 301; 298; 0; 346; 0; 182; 178; 174; 386; 114; 110; 106; 262; 170; 166; 162; 378; 345; 98; 94; 90; 258; 309; 322; 0; 274; 54;
    238; 126; 122; 118; 362; 329; 66; 62; 58; 246; 297; 182; 178; 174; 386; 114; 110; 106; 262; 313; 274; 0; 50; 46; 306; 0; 134; 130; 318; 317] ++
   [298; 0; 82; 334; 0; 98; 94; 90; 258; 146; 142; 138; 370; 337; 98; 94; 90; 258; 309; 322; 0; 54; 234; 18; 126; 122; 118; 362; 329; 54;
    234; 18; 286; 0; 322; 0; 54; 234; 18; 126; 122; 118; 362; 329; 330; 0; 50; 46; 306; 0; 102; 350; 0; 170; 166; 162; 382; 349; 134; 130;
    318; 317; 322; 0; 54; 234; 18; 126; 122; 118; 362; 329; 146; 142; 138; 366; 333; 30; 218; 206; 194; 0; 54; 234; 282; 0; 82; 26; 330; 0;
    50; 46; 306; 0; 82; 334; 0; 102; 350; 0; 54; 10; 0; 146; 142; 138; 370; 78; 22; 66; 62; 58; 6; 97; 170; 166; 162; 382; 349; 146;
    142; 138; 370; 337; 134; 130; 318; 317; 298; 0; 50; 46; 306; 0; 82; 334; 0; 98; 94; 90; 258; 146; 142; 138; 370; 337; 134; 130; 318; 317;
    98; 94; 90; 258; 309; 322; 0; 54; 234; 18; 126; 122; 118; 362; 329; 146; 142; 138; 366; 333; 78; 22; 66; 62; 58; 242; 293; 214; 202; 190;
    265; 66; 62; 58; 246; 297; 302; 0; 322; 0; 54; 234; 18; 126; 122; 118; 362; 329; 54; 234; 18; 286; 0; 330; 0; 322; 0; 54; 234; 18;
    126; 122; 118; 362; 329; 146; 142; 138; 366; 333; 30; 218; 206; 194; 0; 54; 234; 282; 0; 330; 0; 50; 46; 306; 0; 82; 334; 0; 146; 142;
    138; 370; 337; 134; 130; 318; 317; 298; 0; 346; 0; 182; 178; 174; 386; 114; 110; 106; 262; 170; 166; 162; 378; 345; 98; 94; 90; 258; 309; 322;
    0; 54; 234; 18; 126; 122; 118; 362; 329; 146; 142; 138; 366; 333; 78; 22; 66; 62; 58; 242; 293; 202; 190; 265; 66; 62; 58; 246; 297; 182;
    178; 174; 386; 114; 110; 106; 262; 313; 54; 234; 285; 18; 0; 322; 0; 54; 238; 126; 122; 118; 362; 329; 54; 238; 14; 282; 0; 298; 0; 98;
    94; 90; 258; 309; 322; 0; 54; 238; 126; 122; 118; 362; 329; 330; 0; 50; 46; 306; 0; 134; 130; 318; 317; 54; 238; 14; 266; 0; 50; 46;
    42; 38; 226; 277; 322; 0; 54; 238; 126; 122; 118; 362; 329; 146; 142; 138; 366; 333; 30; 218; 206; 194; 0; 298; 0; 98; 94; 90; 258; 309;
    54; 238; 286; 0; 330; 0; 50; 46; 306; 0; 82; 334; 0; 102; 350; 0; 54; 10; 0; 146; 142; 138; 370; 78; 22; 66; 62; 58; 6; 97;
    170; 166; 162; 382; 349; 146; 142; 138; 370; 337; 134; 130; 318; 317; 366; 333; 54; 78; 22; 66; 62; 58; 246; 238; 14; 266; 0; 50; 46; 42;
    38; 226; 277; 298; 0; 330; 0; 50; 46; 306; 0; 82; 334; 0; 98; 94; 90; 258; 146; 142; 138; 370; 337; 134; 130; 318; 317; 98; 94; 90;
    258; 146; 142; 138; 366; 333; 54; 78; 22; 66; 62; 58; 246; 238; 14; 266; 0; 50; 46; 42; 38; 226; 277; 98; 94; 90; 258; 309; 322; 0;
    54; 66; 62; 58; 246; 238; 126; 122; 118; 362; 329; 66; 62; 58; 246; 297; 202; 190; 265; 242; 293; 302; 0; 54; 238; 14; 282; 0; 54; 238;
    286; 0; 50; 46; 306; 0; 134; 130; 318; 317; 54; 66; 62; 58; 246; 238; 14; 266; 0; 50; 46; 42; 38; 226; 277; 298; 0; 346; 0; 54;
    66; 62; 58; 246; 238; 14; 266; 0; 50; 46; 42; 38; 226; 277; 182; 178; 174; 386; 114; 110; 106; 262; 170; 166; 162; 378; 345; 98; 94; 90] ++
   [258; 309; 322; 0; 54; 238; 126; 122; 118; 362; 329; 66; 62; 58; 246; 297; 242; 293; 182; 178; 174; 386; 114; 110; 106; 262; 313; 54; 238; 14;
    101; 182; 178; 174; 386; 353; 54; 238; 289; 182; 178; 174; 390; 357; 222; 210; 198; 0; 186; 257])%Z) 83%Z.

Definition line3_6 : scenario := MkScenario (592, 79, 3047)%N 44
  ([0; 0; 1; 1; 1; 11; 1; 10; 1; 5; 1; 0; 1; 0; 1; 0; 1; 0; 1; 10; 1; 0; 1; 1; 1; 1; 1; 1; 1; 1;
    1; 1; 1; 1; 1; 1; 1; 1; 0; 1; 1; 1; 1; 1; 1; 1; 1; 1; 1; 1; 1; 1; 1; 1; 1; 1; 1; 1; 1; 1;
    0; 1; 0; 1; 1; 0; 0; 0; 1; 0; 1; 10; 1; 5; 1; 0; 1; 0; 1; 0; 1; 0; 1; 0; 1; 0; 1; 1; 1; 1;
    1; 1; 1; 1; 1; 1; 1; 1; 1; 1; 1; 1; 1; 1; 1; 1; 1; 1; 1; 1; 1; 1; 1; 1; 1; 0; 1; 0; 1; 1;
    0; 4; 0; 1; 0; 1; 2; 1; 0; 1; 4; 1; 0; 1; 0; 1; 6; 1; 8; 1; 0; 1; 1; 1; 1; 1; 1; 1; 1; 1;
    1; 1; 1; 1; 1; 1; 1; 1; 1; 1; 1; 0; 0; 0; 0; 1; 1; 1; 1; 1; 0; 1; 1; 1; 1; 1; 0; 0; 1; 0;
    1; 7; 1; 5; 1; 1; 1; 0; 1; 0; 1; 0; 1; 0; 1; 0; 1; 1; 1; 1; 1; 1; 1; 1; 1; 1; 1; 1; 1; 1;
    1; 1; 1; 1; 1; 1; 1; 1; 1; 1; 1; 1; 1; 1; 1; 0; 1; 0; 1; 1; 0; 0; 0; 1; 2; 1; 4; 1; 0; 1;
    0; 1; 0; 1; 8; 1; 1; 1; 1; 1; 1; 1; 1; 1; 1; 1; 1; 1; 1; 1; 1; 0; 1; 1; 1; 1; 1; 0; 0; 1;
    3; 1; 4; 1; 3; 1; 0; 1; 1; 1; 0; 1; 1; 1; 0; 1; 0; 1; 1; 1; 1; 1; 1; 1; 1; 1; 1; 1; 1; 1;
    1; 1; 1; 1; 1; 1; 1; 1; 1; 1; 1; 1; 1; 1; 1; 1; 0; 1; 0; 1; 1; 0; 0; 0; 1; 2; 1; 4; 1; 0;
    1; 0; 1; 0; 1; 8; 1; 1; 1; 1; 1; 1; 1; 1; 1; 1; 1; 1; 1; 1; 1; 1; 0; 1; 1; 1; 1; 1; 0; 0;
    1; 0; 1; 4; 1; 0; 1; 0; 1; 0; 1; 8; 1; 1; 1; 1; 1; 1; 1; 1; 1; 1; 1; 1; 1; 1; 1; 1; 0; 1;
    1; 1; 1; 1; 0; 11; 0; 0; 0; 1; 0; 1; 1; 1; 1; 1; 1; 1; 1; 0; 0; 0; 1; 1; 1; 1; 1; 1; 1; 1;
    0; 0; 0; 1; 1; 1; 1; 1; 1; 1; 1; 0; 0; 0; 0; 0; 0; 1; 1; 1; 1; 1; 0; 0; 0; 0; 0; 0; 0; 0;
    0; 0; 0; 0; 0; 0; 0; 0; 0; 0; 1; 1; 1; 1; 0; 0; 0; 0; 0; 0; 0; 1; 1; 1; 1; 0; 0; 0; 0; 0;
    0; 0; 1; 1; 1; 1; 0; 0; 0; 0; 0; 0; 0; 0; 0; 0; 0; 0; 0; 0; 0; 0; 0; 0; 0; 0; 0; 0; 0; 1;
    1; 1; 1; 1; 1; 1; 0; 0; 1; 1; 1; 1; 1; 1; 0; 1; 1; 1; 1; 1; 1; 1; 0; 0; 0; 1; 1; 1; 1; 1;
    0; 0; 0; 1; 1; 1; 1; 1; 0; 0; 0; 0; 1; 1; 1; 1; 0; 0; 0; 0; 0; 0; 0; 1; 0; 0; 0; 0; 0; 0;
    0; 1; 0; 0; 0; 0; 0; 0; 0; 1; 0; 0; 0; 0; 0; 0; 0; 1; 0; 1; 1; 1; 1; 1; 1; 1; 0; 0; 0; 1] ++
   [1; 1; 1; 1; 0; 0; 1; 1; 1; 1; 1; 1; 0; 0; 0; 1; 1; 1; 1; 1; 0; 0; 0; 1; 1; 1; 1; 1; 0; 0;
    0; 0; 1; 0; 1; 1; 0; 0; 0; 0; 0; 0; 0; 1; 0; 0; 0; 0; 0; 0; 0; 1; 0; 0; 0; 0; 0; 0; 0; 1;
    0; 0; 0; 0; 0; 0; 0; 1; 1; 1; 1])%Z
  (MkCert 80%positive
   ([1; 2; 3; 4; 5; 6; 7; 8; 9; 10; 11; 12; 13; 14; 15; 16; 17; 18; 19; 20; 21])%positive
   ([(37%nat, false, [22; 23; 24]%positive); (1%nat, false, [23; 22; 24]%positive); (9%nat, false, [25; 22; 26]%positive); (103%nat, false, [14; 13; 27]%positive); (1%nat, false, [13; 14; 27]%positive); (29%nat, false, [21; 16; 28]%positive); (1%nat, false, [16; 21; 28]%positive); (48%nat, false, [29; 30; 31]%positive); (98%nat, false, [32; 5; 33]%positive); (1%nat, false, [5; 32; 33]%positive); (19%nat, false, [10; 8; 34]%positive); (3%nat, false, [8; 11; 35]%positive); (84%nat, false, [36; 37]%positive); (1%nat, false, [38; 36]%positive); (1%nat, false, [39; 38]%positive); (1%nat, false, [2; 39]%positive); (4%nat, false, [4; 23]%positive); (1%nat, false, [40; 22]%positive); (1%nat, false, [30; 40]%positive); (1%nat, false, [5; 30]%positive); (1%nat, false, [41; 25]%positive); (1%nat, false, [29; 41]%positive); (1%nat, false, [32; 29]%positive); (1%nat, false, [6; 32]%positive); (11%nat, false, [42; 43]%positive); (1%nat, false, [44; 42]%positive); (1%nat, false, [10; 44]%positive); (7%nat, false, [45; 46]%positive); (1%nat, false, [47; 45]%positive); (1%nat, false, [14; 47]%positive);
    (2%nat, false, [48; 49]%positive); (1%nat, false, [15; 48]%positive); (1%nat, false, [50; 51]%positive); (1%nat, false, [52; 50]%positive); (1%nat, false, [17; 52]%positive); (10%nat, false, [53; 54]%positive); (1%nat, false, [55; 53]%positive); (1%nat, false, [21; 55]%positive); (404%nat, false, [43; 56]%positive); (1%nat, false, [57; 56]%positive); (2%nat, false, [57; 58]%positive); (63%nat, false, [59; 26]%positive); (0%nat, true, [59; 26]%positive); (36%nat, false, [60; 56]%positive); (3%nat, true, [61; 58]%positive); (132%nat, false, [31; 59]%positive); (0%nat, true, [31; 59]%positive); (36%nat, false, [62; 60]%positive); (3%nat, true, [63; 61]%positive); (132%nat, false, [33; 31]%positive); (0%nat, true, [33; 31]%positive); (36%nat, false, [34; 62]%positive); (3%nat, true, [35; 63]%positive); (160%nat, false, [37; 64; 13]%positive); (44%nat, false, [23; 65; 13]%positive); (2%nat, false, [23; 66; 14]%positive); (20%nat, false, [22; 67; 13]%positive); (2%nat, false, [22; 68; 14]%positive); (18%nat, false, [25; 69; 13]%positive); (2%nat, false, [25; 70; 14]%positive);
    (44%nat, false, [57; 71; 20]%positive); (33%nat, false, [43; 72; 20]%positive); (138%nat, false, [13; 64; 37]%positive); (54%nat, false, [13; 65; 23]%positive); (2%nat, false, [14; 66; 23]%positive); (28%nat, false, [13; 67; 22]%positive); (2%nat, false, [14; 68; 22]%positive); (23%nat, false, [13; 69; 25]%positive); (2%nat, false, [14; 70; 25]%positive); (57%nat, false, [20; 71; 57]%positive); (40%nat, false, [20; 72; 43]%positive); (169%nat, false, [38; 73; 49]%positive); (54%nat, false, [30; 74; 49]%positive); (266%nat, false, [49; 73; 38]%positive); (38%nat, false, [3; 75; 46]%positive); (39%nat, false, [49; 74; 30]%positive); (5%nat, false, [5; 76; 51]%positive); (36%nat, false, [32; 77; 51]%positive); (75%nat, false, [8; 78; 54]%positive); (53%nat, false, [10; 79; 54]%positive); (20%nat, false, [11; 80; 54]%positive); (132%nat, false, [46; 75; 3]%positive); (22%nat, false, [51; 76; 5]%positive); (18%nat, false, [51; 77; 32]%positive); (37%nat, false, [54; 78; 8]%positive); (25%nat, false, [54; 79; 10]%positive); (10%nat, false, [54; 80; 11]%positive)])
   ([0; 158; 0; 258; 0; 262; 222; 261; 30; 0; 26; 113; 262; 0; 258; 0; 70; 222; 261; 22; 0; 70; 226; 18; 266; 0; 70; 226; 270; 0;
    82; 78; 74; 234; 273; 230; 269; 70; 226; 18; 109; 30; 0; 26; 113; 70; 226; 265; 46; 50; 326; 0; 30; 0; 26; 113; 22; 0; 18; 109;
    258; 0; 30; 0; 26; 113; 262; 70; 222; 261; 262; 0; 258; 70; 226; 270; 0; 82; 78; 74; 234; 273; 258; 0; 70; 222; 22; 270; 0; 70;
    222; 266; 0; 310; 0; 302; 0; 70; 222; 22; 122; 118; 114; 330; 301; 142; 138; 134; 334; 305; 82; 78; 74; 230; 269; 82; 78; 74; 234; 273;
    70; 222; 261; 22; 0; 70; 226; 18; 266; 0; 70; 226; 270; 0; 282; 0; 162; 246; 285; 302; 0; 70; 226; 122; 118; 114; 330; 301; 82; 78;
    74; 234; 273; 230; 269; 70; 226; 18; 109; 30; 0; 258; 0; 70; 222; 22; 270; 0; 70; 222; 266; 0; 310; 0; 142; 138; 134; 334; 305; 82;
    78; 74; 230; 269; 82; 78; 74; 234; 273; 70; 222; 261; 22; 0; 70; 226; 18; 266; 0; 70; 226; 270; 0; 282; 0; 162; 246; 285; 302; 0;
    70; 226; 122; 118; 114; 330; 301; 82; 78; 74; 234; 273; 230; 269; 70; 226; 18; 109; 26; 113; 70; 226; 265; 46; 318; 0; 258; 0; 70; 222;
    261; 30; 0; 258; 0; 282; 0; 162; 246; 285; 70; 222; 261; 26; 113; 278; 0; 302; 0; 22; 122; 118; 114; 330; 301; 22; 0; 18; 109; 258;
    0; 282; 0; 162; 246; 285; 262; 70; 222; 261; 30; 0; 274; 0; 98; 314; 0; 142; 138; 134; 338; 309; 282; 0; 162; 246; 285; 302; 0; 22;
    122; 118; 114; 330; 301; 94; 90; 86; 238; 22; 0; 282; 0; 162; 246; 285; 18; 109; 277; 258; 0; 98; 94; 90; 86; 242; 262; 70; 222; 254;
    0; 66; 62; 58; 54; 218; 257; 282; 0; 162; 246; 285; 262; 70; 222; 261; 26; 113; 242; 281; 262; 0; 258; 70; 226; 270; 0; 302; 0; 258;
    226; 122; 118; 114; 330; 301; 82; 78; 74; 234; 273; 258; 0; 70; 222; 22; 270; 0; 70; 222; 266; 0; 310; 0; 282; 0; 162; 246; 285; 302;
    0; 70; 222; 22; 122; 118; 114; 330; 301; 142; 138; 134; 334; 305; 82; 78; 74; 230; 269; 82; 78; 74; 234; 273; 70; 222; 261; 22; 0; 70;
    226; 18; 266; 0; 70; 226; 270; 0; 70; 82; 78; 74; 234; 226; 18; 254; 0; 66; 62; 58; 54; 218; 257; 282; 0; 162; 246; 285; 302; 0;
    70; 226; 122; 118; 114; 330; 301; 82; 78; 74; 234; 273; 230; 269; 70; 226; 18; 109; 30; 0; 258; 70; 226; 270; 0; 274; 0; 98; 94; 90;
    86; 238; 277; 282; 0; 162; 246; 285; 302; 0; 258; 70; 226; 122; 118; 114; 330; 301; 82; 78; 74; 234; 273; 258; 0; 282; 0; 162; 246; 285;
    302; 0; 70; 222; 22; 122; 118; 114; 330; 301; 70; 222; 22; 270; 0; 310; 0; 302; 0; 70; 222; 22; 122; 118; 114; 330; 301; 142; 138; 134;
    334; 305; 42; 206; 190; 174; 0; 70; 222; 266; 0; 310; 0; 98; 314; 0; 142; 138; 134; 338; 309; 282; 0; 162; 246; 285; 302; 0; 70; 222;
    22; 122; 118; 114; 330; 301; 142; 138; 134; 334; 305; 94; 34; 82; 78; 74; 230; 269; 186; 170; 105; 82; 78; 74; 234; 273; 70; 222; 261; 22] ++
   [0; 70; 226; 18; 266; 0; 302; 0; 70; 226; 122; 118; 114; 330; 301; 310; 0; 282; 0; 162; 246; 285; 302; 0; 70; 226; 122; 118; 114; 330;
    301; 142; 138; 134; 334; 305; 42; 206; 190; 174; 0; 70; 226; 270; 0; 310; 0; 98; 314; 0; 142; 138; 134; 338; 309; 142; 138; 134; 334; 305;
    70; 94; 34; 82; 78; 74; 234; 226; 18; 254; 0; 66; 62; 58; 54; 218; 257; 282; 0; 162; 246; 285; 302; 0; 70; 226; 122; 118; 114; 330;
    301; 82; 78; 74; 234; 273; 186; 170; 105; 230; 269; 70; 226; 18; 109; 26; 113; 70; 226; 265; 322; 0; 274; 0; 286; 0; 154; 150; 146; 346;
    110; 106; 102; 250; 289; 278; 238; 277; 258; 0; 262; 70; 222; 266; 0; 66; 62; 290; 0; 130; 126; 298; 293; 70; 82; 78; 74; 230; 222; 254;
    0; 66; 62; 58; 54; 218; 257; 269; 286; 0; 154; 150; 146; 346; 110; 106; 102; 250; 282; 0; 162; 246; 285; 289; 70; 222; 261; 278; 0; 302;
    0; 274; 242; 122; 118; 114; 330; 301; 286; 0; 154; 150; 146; 346; 110; 106; 102; 250; 289; 274; 0; 98; 314; 0; 66; 62; 290; 0; 130; 126;
    298; 293; 142; 138; 134; 338; 309; 302; 0; 98; 94; 90; 86; 238; 22; 122; 118; 114; 330; 301; 286; 0; 154; 150; 146; 346; 110; 106; 102; 250;
    282; 0; 162; 246; 285; 302; 0; 22; 122; 118; 114; 330; 301; 154; 150; 146; 346; 110; 106; 102; 250; 289; 94; 90; 86; 238; 22; 0; 98; 314;
    0; 142; 138; 134; 338; 309; 286; 0; 154; 150; 146; 346; 110; 106; 102; 250; 282; 0; 162; 246; 285; 289; 94; 90; 86; 242; 18; 109; 277; 258;
    0; 262; 70; 222; 266; 0; 98; 314; 0; 142; 138; 134; 338; 309; 98; 94; 90; 86; 242; 262; 70; 82; 78; 74; 230; 222; 254; 0; 66; 62;
    58; 54; 218; 257; 269; 286; 0; 154; 150; 146; 346; 110; 106; 102; 250; 282; 0; 162; 246; 285; 289; 262; 70; 222; 261; 242; 281; 262; 0; 258;
    70; 226; 270; 0; 310; 0; 142; 138; 134; 334; 305; 42; 206; 190; 174; 0; 66; 62; 290; 0; 98; 314; 0; 258; 70; 10; 0; 142; 138; 134;
    338; 94; 34; 78; 274; 14; 74; 6; 97; 142; 138; 134; 338; 309; 130; 126; 298; 293; 274; 0; 98; 314; 0; 142; 138; 134; 338; 309; 98; 94;
    90; 86; 238; 277; 302; 0; 258; 70; 226; 122; 118; 114; 330; 301; 186; 170; 105; 82; 78; 74; 234; 273; 286; 0; 258; 70; 226; 270; 0; 154;
    150; 146; 346; 110; 106; 102; 250; 282; 0; 162; 246; 285; 302; 0; 258; 70; 226; 122; 118; 114; 330; 301; 82; 78; 74; 234; 273; 154; 150; 146;
    346; 110; 106; 102; 250; 289; 258; 0; 66; 62; 290; 0; 82; 294; 0; 130; 126; 306; 297; 130; 126; 298; 293; 302; 0; 70; 222; 22; 122; 118;
    114; 330; 301; 70; 222; 22; 270; 0; 302; 0; 70; 222; 22; 122; 118; 114; 330; 301; 310; 0; 66; 62; 290; 0; 130; 126; 298; 293; 302; 0;
    70; 222; 22; 122; 118; 114; 330; 301; 142; 138; 134; 334; 305; 42; 206; 190; 174; 0; 70; 222; 266; 0; 98; 38; 310; 0; 98; 314; 0; 66;
    62; 290; 0; 70; 10; 0; 142; 138; 134; 338; 94; 34; 82; 78; 74; 6; 97; 130; 126; 298; 293; 142; 138; 134; 338; 309; 302; 0; 70; 222] ++
   [22; 122; 118; 114; 330; 301; 142; 138; 134; 334; 305; 94; 34; 82; 78; 74; 230; 269; 202; 186; 170; 105; 82; 78; 74; 234; 273; 286; 0; 154;
    150; 146; 346; 110; 106; 102; 250; 282; 0; 162; 246; 285; 302; 0; 70; 222; 22; 122; 118; 114; 330; 301; 70; 222; 22; 270; 0; 70; 222; 266;
    0; 310; 0; 154; 150; 146; 346; 110; 106; 102; 250; 282; 0; 162; 246; 285; 302; 0; 70; 222; 22; 122; 118; 114; 330; 301; 142; 138; 134; 334;
    305; 82; 78; 74; 230; 269; 82; 78; 74; 234; 273; 154; 150; 146; 346; 110; 106; 102; 250; 289; 70; 222; 261; 22; 0; 302; 0; 70; 226; 122;
    118; 114; 330; 301; 70; 226; 18; 266; 0; 302; 0; 70; 226; 122; 118; 114; 330; 301; 310; 0; 66; 62; 290; 0; 130; 126; 298; 293; 70; 226;
    18; 254; 0; 66; 62; 58; 54; 218; 257; 302; 0; 70; 226; 122; 118; 114; 330; 301; 142; 138; 134; 334; 305; 42; 206; 190; 174; 0; 70; 226;
    270; 230; 254; 0; 66; 62; 58; 54; 218; 257; 70; 226; 270; 0; 310; 0; 98; 314; 0; 66; 62; 290; 0; 70; 10; 0; 142; 138; 134; 338;
    94; 34; 82; 78; 74; 6; 97; 130; 126; 298; 293; 142; 138; 134; 338; 309; 142; 138; 134; 334; 305; 70; 94; 34; 82; 78; 74; 234; 226; 18;
    254; 0; 66; 62; 58; 54; 218; 257; 302; 0; 70; 82; 78; 74; 234; 226; 122; 118; 114; 330; 301; 82; 78; 74; 234; 273; 186; 170; 105; 230;
    269; 286; 0; 70; 226; 18; 266; 0; 70; 226; 270; 0; 70; 82; 78; 74; 234; 226; 18; 254; 0; 66; 62; 58; 54; 218; 257; 154; 150; 146;
    346; 110; 106; 102; 250; 282; 0; 162; 246; 285; 302; 0; 70; 226; 122; 118; 114; 330; 301; 82; 78; 74; 234; 273; 230; 269; 154; 150; 146; 346;
    110; 106; 102; 250; 289; 70; 226; 18; 109; 70; 226; 265; 154; 150; 146; 346; 317; 154; 150; 146; 342; 313; 154; 150; 146; 350; 321; 46; 50; 214;
    198; 182; 0; 166; 233; 210; 194; 178; 225])%Z) 88%Z.

Definition line3_7 : scenario := MkScenario (592, 79, 3063)%N 44
  ([1; 3; 1; 0; 0; 2; 1; 0; 1; 0; 1; 0; 1; 0; 1; 0; 1; 0; 1; 12; 1; 0; 0; 0; 0; 1; 1; 1; 1; 1;
    1; 1; 1; 1; 1; 1; 1; 1; 0; 0; 1; 1; 1; 1; 1; 1; 1; 1; 1; 1; 1; 1; 1; 1; 1; 1; 1; 1; 1; 1;
    1; 1; 1; 1; 1; 0; 1; 3; 1; 0; 0; 0; 1; 0; 1; 0; 1; 0; 1; 0; 1; 0; 1; 12; 1; 0; 0; 0; 1; 1;
    1; 1; 1; 1; 1; 1; 1; 1; 1; 1; 1; 1; 1; 1; 1; 1; 1; 1; 1; 1; 1; 1; 1; 1; 1; 1; 1; 1; 1; 1;
    0; 4; 0; 1; 0; 1; 0; 1; 0; 1; 0; 1; 0; 1; 0; 1; 0; 1; 0; 1; 1; 1; 1; 1; 1; 1; 1; 1; 1; 1;
    1; 1; 1; 1; 1; 1; 1; 1; 1; 1; 1; 0; 0; 0; 0; 1; 1; 1; 1; 1; 1; 1; 1; 1; 1; 1; 1; 7; 1; 0;
    0; 0; 1; 3; 1; 1; 1; 2; 1; 0; 1; 0; 1; 12; 1; 0; 0; 0; 1; 1; 1; 1; 1; 1; 1; 1; 1; 1; 1; 1;
    1; 1; 1; 1; 1; 1; 1; 1; 1; 1; 1; 1; 1; 1; 1; 1; 1; 1; 1; 1; 0; 0; 0; 1; 2; 1; 0; 1; 0; 1;
    1; 1; 0; 1; 0; 1; 1; 1; 1; 1; 1; 1; 1; 1; 1; 1; 1; 1; 1; 1; 1; 1; 1; 1; 1; 1; 1; 1; 8; 1;
    0; 0; 0; 1; 8; 1; 2; 1; 0; 1; 0; 1; 0; 1; 11; 1; 0; 0; 0; 1; 1; 1; 1; 1; 1; 1; 1; 1; 1; 1;
    1; 1; 1; 1; 1; 1; 1; 1; 1; 1; 1; 1; 1; 1; 1; 1; 1; 1; 1; 1; 1; 0; 0; 0; 1; 3; 1; 0; 1; 0;
    1; 2; 1; 0; 1; 0; 1; 1; 1; 1; 1; 1; 1; 1; 1; 1; 1; 1; 1; 1; 1; 1; 1; 1; 1; 1; 1; 1; 0; 0;
    1; 0; 1; 0; 1; 0; 1; 2; 1; 0; 1; 0; 1; 1; 1; 1; 1; 1; 1; 1; 1; 1; 1; 1; 1; 1; 1; 1; 1; 1;
    1; 1; 1; 1; 8; 2; 8; 0; 1; 1; 1; 1; 1; 1; 1; 1; 1; 1; 1; 0; 1; 0; 1; 1; 1; 1; 1; 1; 1; 1;
    0; 1; 0; 1; 1; 1; 1; 1; 1; 1; 1; 0; 1; 0; 1; 0; 1; 1; 1; 1; 1; 1; 0; 0; 0; 0; 0; 0; 0; 0;
    0; 1; 1; 0; 0; 0; 0; 0; 0; 0; 1; 1; 1; 1; 0; 0; 0; 0; 0; 0; 0; 0; 1; 1; 1; 0; 0; 0; 0; 0;
    0; 0; 0; 0; 1; 1; 0; 0; 0; 0; 0; 0; 0; 0; 0; 1; 1; 0; 0; 0; 0; 0; 0; 0; 0; 0; 0; 0; 0; 0;
    1; 1; 1; 1; 1; 1; 0; 0; 0; 0; 1; 1; 1; 1; 0; 0; 1; 1; 1; 1; 1; 1; 0; 0; 0; 1; 1; 1; 1; 1;
    0; 0; 0; 0; 1; 1; 1; 1; 0; 0; 0; 0; 0; 1; 1; 1; 0; 0; 0; 0; 0; 0; 1; 1; 0; 0; 0; 0; 0; 0;
    1; 1; 0; 0; 0; 0; 0; 0; 0; 0; 0; 0; 0; 0; 0; 0; 0; 0; 0; 0; 0; 1; 1; 1; 1; 1; 0; 0; 0; 0] ++
   [0; 1; 1; 1; 0; 0; 0; 1; 1; 1; 1; 1; 0; 0; 0; 0; 1; 1; 1; 1; 0; 0; 0; 0; 0; 1; 1; 1; 0; 0;
    0; 0; 0; 0; 1; 1; 0; 0; 0; 0; 0; 0; 0; 1; 0; 0; 0; 0; 0; 0; 0; 1; 0; 0; 0; 0; 0; 0; 0; 0;
    0; 0; 0; 0; 0; 0; 0; 0; 0; 1; 1])%Z
  (MkCert 80%positive
   ([1; 2; 3; 4; 5; 6; 7; 8; 9; 10; 11; 12; 13; 14; 15; 16; 17; 18; 19; 20; 21])%positive
   ([(2%nat, false, [22; 23; 24]%positive); (35%nat, false, [25; 26; 27]%positive); (1%nat, false, [26; 25; 27]%positive); (139%nat, false, [20; 16; 28]%positive); (1%nat, false, [16; 20; 28]%positive); (118%nat, false, [1; 3; 29]%positive); (13%nat, false, [30; 31; 32]%positive); (121%nat, false, [33; 22]%positive); (1%nat, false, [34; 33]%positive); (1%nat, false, [1; 34]%positive); (3%nat, false, [30; 35]%positive); (1%nat, false, [2; 30]%positive); (4%nat, false, [4; 26]%positive); (6%nat, false, [31; 36]%positive); (1%nat, false, [6; 31]%positive); (3%nat, false, [7; 37]%positive); (4%nat, false, [38; 39]%positive); (1%nat, false, [40; 38]%positive); (1%nat, false, [41; 40]%positive); (1%nat, false, [9; 41]%positive); (4%nat, false, [42; 43]%positive); (1%nat, false, [44; 42]%positive); (1%nat, false, [11; 44]%positive); (11%nat, false, [45; 46]%positive); (1%nat, false, [17; 45]%positive); (1%nat, false, [47; 48]%positive); (1%nat, false, [49; 47]%positive); (1%nat, false, [18; 49]%positive); (1%nat, false, [50; 51]%positive); (1%nat, false, [52; 50]%positive);
    (1%nat, false, [19; 52]%positive); (2%nat, false, [53; 54]%positive); (1%nat, false, [20; 53]%positive); (2%nat, false, [55; 56]%positive); (1%nat, false, [21; 55]%positive); (382%nat, false, [23; 24]%positive); (1%nat, false, [22; 24]%positive); (26%nat, false, [25; 57]%positive); (1%nat, false, [58; 57]%positive); (5%nat, true, [59; 24]%positive); (23%nat, true, [60; 57]%positive); (130%nat, false, [61; 62]%positive); (0%nat, true, [61; 62]%positive); (19%nat, true, [63; 59]%positive); (23%nat, true, [64; 60]%positive); (130%nat, false, [62; 65]%positive); (0%nat, true, [62; 65]%positive); (18%nat, true, [29; 63]%positive); (23%nat, true, [32; 64]%positive); (131%nat, false, [65; 66]%positive); (0%nat, true, [65; 66]%positive); (49%nat, false, [51; 66]%positive); (1%nat, false, [48; 66]%positive); (23%nat, false, [22; 67; 13]%positive); (2%nat, false, [22; 68; 14]%positive); (49%nat, false, [23; 69; 13]%positive); (126%nat, false, [39; 70; 18]%positive); (27%nat, false, [43; 71; 16]%positive); (7%nat, false, [43; 72; 20]%positive); (89%nat, false, [13; 67; 22]%positive);
    (2%nat, false, [14; 68; 22]%positive); (68%nat, false, [13; 69; 23]%positive); (155%nat, false, [18; 70; 39]%positive); (28%nat, false, [16; 71; 43]%positive); (6%nat, false, [20; 72; 43]%positive); (159%nat, false, [35; 73; 46]%positive); (81%nat, false, [36; 74; 46]%positive); (25%nat, false, [37; 75; 47]%positive); (2%nat, false, [37; 76; 50]%positive); (39%nat, false, [40; 77; 54]%positive); (25%nat, false, [44; 78; 56]%positive); (151%nat, false, [46; 73; 35]%positive); (5%nat, false, [30; 79; 48]%positive); (4%nat, false, [30; 80; 51]%positive); (105%nat, false, [46; 74; 36]%positive); (5%nat, false, [31; 81; 48]%positive); (34%nat, false, [47; 75; 37]%positive); (4%nat, false, [50; 76; 37]%positive); (1%nat, false, [7; 82; 51]%positive); (63%nat, false, [54; 77; 40]%positive); (45%nat, false, [56; 78; 44]%positive); (117%nat, false, [48; 79; 30]%positive); (2%nat, false, [51; 80; 30]%positive); (55%nat, false, [48; 81; 31]%positive); (19%nat, false, [51; 82; 7]%positive)])
   ([0; 210; 203; 187; 171; 0; 50; 30; 62; 306; 0; 114; 110; 50; 294; 106; 338; 58; 270; 0; 102; 98; 302; 297; 66; 274; 0; 114; 110; 310;
    301; 114; 110; 50; 294; 106; 338; 325; 94; 286; 0; 50; 298; 0; 54; 14; 0; 154; 10; 109; 318; 0; 126; 122; 118; 342; 329; 334; 321; 50;
    30; 62; 306; 0; 114; 110; 50; 294; 106; 338; 58; 270; 0; 102; 98; 302; 297; 66; 274; 0; 114; 110; 310; 301; 114; 110; 50; 294; 106; 338;
    325; 142; 138; 326; 313; 0; 114; 110; 106; 330; 50; 30; 62; 58; 270; 0; 214; 330; 46; 266; 0; 66; 274; 0; 114; 110; 310; 301; 102; 98;
    290; 293; 302; 297; 94; 286; 0; 254; 0; 54; 14; 0; 154; 10; 109; 82; 78; 74; 70; 230; 281; 114; 110; 106; 330; 50; 30; 62; 58; 270;
    0; 214; 330; 46; 266; 0; 66; 278; 0; 126; 122; 314; 305; 66; 274; 0; 254; 0; 54; 14; 0; 154; 10; 109; 82; 78; 74; 70; 230; 281;
    114; 110; 310; 301; 102; 98; 290; 293; 302; 297; 142; 138; 326; 313; 114; 110; 106; 330; 317; 22; 0; 50; 30; 62; 306; 0; 66; 274; 0; 114;
    110; 310; 301; 114; 110; 50; 294; 106; 338; 325; 94; 286; 0; 50; 298; 0; 318; 0; 126; 122; 118; 342; 329; 334; 321; 50; 30; 62; 306; 0;
    114; 110; 50; 294; 106; 338; 58; 270; 0; 102; 98; 302; 297; 66; 274; 0; 114; 110; 310; 301; 114; 110; 50; 294; 106; 338; 325; 142; 138; 326;
    313; 0; 114; 110; 106; 330; 50; 30; 62; 58; 270; 0; 214; 330; 46; 266; 0; 66; 274; 0; 114; 110; 310; 301; 102; 98; 290; 293; 302; 297;
    94; 286; 0; 254; 0; 82; 78; 74; 70; 230; 281; 114; 110; 106; 330; 50; 30; 62; 58; 270; 0; 214; 330; 46; 266; 0; 66; 274; 0; 254;
    0; 82; 78; 74; 70; 230; 281; 114; 110; 310; 301; 102; 98; 290; 293; 302; 297; 142; 138; 326; 313; 114; 110; 106; 330; 317; 18; 113; 262; 0;
    50; 298; 0; 54; 14; 0; 154; 10; 109; 318; 0; 126; 122; 118; 342; 329; 334; 321; 94; 286; 0; 142; 138; 326; 313; 50; 30; 62; 306; 0;
    114; 66; 274; 110; 50; 294; 106; 338; 58; 270; 0; 102; 98; 302; 297; 66; 274; 0; 254; 0; 82; 78; 74; 70; 230; 281; 114; 110; 310; 301;
    114; 110; 50; 294; 106; 338; 325; 0; 254; 0; 82; 78; 282; 0; 54; 14; 0; 154; 10; 109; 94; 90; 258; 86; 238; 134; 130; 322; 309; 82;
    78; 74; 70; 230; 281; 114; 110; 106; 330; 50; 30; 62; 58; 270; 0; 214; 330; 46; 266; 0; 66; 278; 0; 94; 286; 0; 142; 138; 326; 313;
    126; 122; 314; 305; 66; 274; 0; 254; 0; 82; 78; 282; 0; 54; 14; 0; 154; 10; 109; 94; 90; 258; 86; 238; 134; 130; 322; 309; 82; 78;
    74; 70; 230; 281; 114; 110; 310; 301; 102; 98; 290; 293; 302; 297; 114; 110; 106; 330; 317; 258; 0; 50; 298; 0; 54; 14; 0; 154; 10; 109;
    318; 0; 126; 122; 118; 342; 329; 334; 321; 50; 30; 62; 306; 0; 114; 110; 50; 294; 106; 338; 58; 270; 0; 102; 98; 302; 297; 66; 274; 0;
    114; 110; 310; 301; 114; 110; 50; 294; 106; 338; 325; 0; 254; 0; 82; 78; 282; 0; 54; 14; 0; 154; 10; 109; 134; 130; 322; 309; 82; 78] ++
   [74; 70; 230; 281; 114; 110; 106; 330; 50; 30; 62; 58; 270; 0; 214; 330; 46; 266; 0; 66; 278; 0; 126; 122; 314; 305; 66; 274; 0; 254;
    0; 82; 78; 282; 0; 54; 14; 0; 154; 10; 109; 134; 130; 322; 309; 82; 78; 74; 70; 230; 281; 114; 110; 310; 301; 102; 98; 290; 293; 302;
    297; 114; 110; 106; 330; 317; 94; 90; 86; 234; 285; 94; 90; 86; 238; 289; 242; 0; 50; 30; 62; 306; 0; 114; 110; 50; 294; 106; 338; 325;
    94; 286; 0; 50; 30; 62; 306; 0; 114; 110; 50; 294; 106; 338; 325; 142; 138; 326; 313; 0; 114; 110; 106; 330; 50; 30; 58; 270; 0; 102;
    98; 302; 297; 94; 286; 0; 114; 110; 106; 330; 50; 30; 58; 270; 0; 214; 330; 46; 266; 0; 102; 98; 290; 293; 302; 297; 142; 138; 326; 313;
    114; 110; 106; 330; 317; 22; 0; 50; 30; 62; 306; 0; 114; 110; 50; 294; 106; 338; 325; 94; 286; 0; 50; 30; 62; 306; 0; 114; 110; 50;
    294; 106; 338; 325; 142; 138; 326; 313; 0; 114; 110; 106; 330; 30; 58; 270; 0; 102; 98; 302; 297; 94; 286; 0; 114; 110; 106; 330; 50; 30;
    58; 270; 0; 214; 330; 46; 266; 0; 102; 98; 290; 293; 302; 297; 142; 138; 326; 313; 114; 110; 106; 330; 317; 18; 113; 262; 0; 50; 30; 62;
    306; 0; 66; 274; 0; 114; 110; 310; 301; 114; 110; 50; 294; 106; 338; 325; 0; 114; 110; 106; 330; 50; 30; 62; 58; 270; 0; 214; 330; 46;
    266; 0; 66; 274; 0; 114; 110; 310; 301; 102; 98; 290; 293; 302; 297; 114; 110; 106; 330; 317; 258; 0; 50; 30; 62; 306; 0; 66; 274; 0;
    114; 110; 310; 301; 114; 110; 50; 294; 106; 338; 325; 0; 114; 110; 106; 330; 50; 30; 62; 58; 270; 0; 214; 330; 46; 266; 0; 66; 274; 0;
    114; 110; 310; 301; 102; 98; 290; 293; 302; 297; 114; 110; 106; 330; 317; 94; 90; 86; 234; 285; 94; 90; 86; 238; 289; 246; 0; 50; 30; 306;
    0; 50; 294; 338; 325; 94; 286; 0; 50; 30; 62; 306; 0; 114; 110; 50; 294; 106; 338; 325; 142; 138; 326; 313; 0; 114; 110; 106; 330; 30;
    58; 270; 0; 102; 98; 302; 297; 94; 286; 0; 114; 110; 106; 330; 30; 58; 270; 0; 102; 98; 302; 297; 142; 138; 326; 313; 114; 110; 106; 330;
    317; 22; 0; 50; 30; 306; 0; 50; 294; 338; 325; 94; 286; 0; 50; 30; 306; 0; 50; 294; 338; 325; 142; 138; 326; 313; 0; 94; 286; 0;
    114; 110; 106; 330; 30; 58; 270; 0; 102; 98; 302; 297; 142; 138; 326; 313; 114; 110; 106; 330; 317; 18; 113; 262; 0; 50; 30; 62; 306; 0;
    114; 110; 50; 294; 106; 338; 325; 0; 114; 110; 106; 330; 50; 30; 58; 270; 0; 102; 98; 302; 297; 114; 110; 106; 330; 317; 258; 0; 50; 30;
    62; 306; 0; 114; 110; 50; 294; 106; 338; 325; 0; 114; 110; 106; 330; 30; 58; 270; 0; 102; 98; 302; 297; 114; 110; 106; 330; 317; 94; 90;
    86; 234; 285; 94; 90; 86; 238; 289; 42; 38; 34; 222; 273; 42; 38; 34; 218; 269; 250; 0; 146; 226; 277; 207; 191; 175; 245; 198; 182; 166;
    0; 158; 229; 26; 6; 194; 178; 162; 0; 150; 97])%Z) 88%Z.

Definition line3_8 : scenario := MkScenario (592, 79, 3089)%N 42
  ([1; 0; 1; 0; 1; 4; 1; 0; 0; 0; 1; 0; 1; 0; 1; 0; 1; 0; 1; 1; 1; 0; 1; 0; 0; 0; 0; 0; 1; 1;
    1; 0; 1; 1; 1; 1; 1; 1; 0; 0; 0; 0; 0; 1; 1; 1; 1; 1; 1; 1; 1; 0; 0; 0; 1; 1; 1; 1; 1; 1;
    1; 1; 1; 1; 1; 1; 1; 0; 1; 0; 1; 0; 0; 0; 1; 0; 1; 0; 1; 0; 1; 0; 1; 1; 1; 0; 0; 0; 0; 0;
    0; 1; 1; 0; 1; 1; 1; 1; 1; 1; 1; 1; 1; 1; 1; 1; 0; 0; 0; 1; 1; 1; 1; 1; 1; 1; 1; 1; 1; 1;
    1; 0; 5; 1; 1; 1; 1; 1; 1; 1; 2; 1; 8; 1; 0; 1; 0; 1; 3; 1; 1; 1; 1; 1; 1; 1; 1; 1; 1; 1;
    1; 1; 1; 1; 1; 1; 1; 1; 1; 1; 1; 0; 0; 0; 0; 0; 1; 1; 1; 1; 0; 1; 1; 1; 1; 1; 1; 1; 1; 0;
    1; 0; 0; 0; 1; 3; 1; 0; 1; 4; 1; 0; 1; 1; 1; 0; 0; 0; 0; 0; 0; 1; 1; 0; 1; 1; 1; 1; 1; 1;
    1; 1; 1; 1; 1; 1; 0; 0; 0; 1; 1; 1; 1; 1; 1; 1; 1; 1; 1; 1; 1; 0; 0; 1; 0; 1; 5; 1; 8; 1;
    0; 1; 1; 1; 4; 1; 1; 1; 1; 1; 1; 1; 1; 1; 1; 1; 1; 1; 1; 1; 1; 0; 1; 1; 1; 1; 1; 1; 1; 1;
    6; 1; 0; 0; 0; 1; 3; 1; 0; 1; 2; 1; 0; 1; 1; 1; 0; 0; 0; 0; 0; 0; 1; 1; 0; 1; 1; 1; 1; 1;
    1; 1; 1; 1; 1; 1; 1; 0; 0; 0; 1; 1; 1; 1; 1; 1; 1; 1; 1; 1; 1; 1; 0; 0; 1; 0; 1; 5; 1; 8;
    1; 0; 1; 1; 1; 8; 1; 1; 1; 1; 1; 1; 1; 1; 1; 1; 1; 1; 1; 1; 1; 1; 0; 1; 1; 1; 1; 1; 0; 0;
    1; 0; 1; 0; 1; 8; 1; 0; 1; 0; 1; 0; 1; 1; 1; 1; 1; 1; 1; 1; 1; 1; 1; 1; 1; 1; 1; 1; 0; 1;
    1; 1; 1; 1; 1; 4; 0; 0; 1; 1; 1; 1; 1; 1; 1; 1; 1; 1; 1; 1; 1; 1; 1; 0; 1; 1; 1; 1; 1; 1;
    1; 1; 1; 1; 0; 1; 1; 1; 1; 1; 1; 0; 1; 1; 1; 0; 1; 1; 1; 1; 1; 1; 0; 0; 0; 0; 0; 0; 0; 0;
    0; 1; 1; 0; 1; 0; 1; 0; 1; 0; 1; 1; 1; 1; 0; 1; 0; 1; 0; 1; 0; 0; 0; 1; 1; 0; 1; 0; 1; 0;
    1; 0; 0; 0; 1; 1; 0; 1; 0; 1; 0; 0; 0; 0; 0; 1; 1; 0; 0; 0; 0; 0; 0; 0; 0; 0; 1; 1; 0; 0;
    0; 1; 1; 1; 1; 1; 0; 0; 0; 0; 0; 0; 0; 0; 0; 0; 0; 0; 1; 1; 1; 1; 0; 0; 0; 1; 1; 1; 1; 1;
    0; 0; 0; 0; 0; 0; 0; 1; 0; 0; 0; 0; 1; 1; 1; 1; 0; 0; 0; 0; 1; 0; 1; 1; 0; 0; 0; 0; 0; 0;
    1; 1; 0; 0; 0; 0; 0; 0; 0; 0; 0; 0; 0; 0; 0; 0; 0; 0; 0; 0; 0; 0; 1; 1; 1; 1; 0; 0; 0; 0] ++
   [0; 0; 0; 0; 0; 0; 0; 0; 1; 0; 1; 1; 0; 0; 0; 0; 1; 1; 1; 1; 0; 0; 0; 0; 0; 0; 0; 0; 0; 0;
    0; 0; 1; 0; 1; 1; 0; 0; 0; 0; 0; 0; 0; 1; 0; 0; 0; 0; 0; 0; 0; 1; 0; 0; 0; 0; 0; 0; 0; 0;
    0; 0; 0; 0; 0; 0; 0; 0; 0; 0; 0])%Z
  (MkCert 80%positive
   ([1; 2; 3; 4; 5; 6; 7; 8; 9; 10; 11; 12; 13; 14; 15; 16; 17; 18; 19; 20; 21])%positive
   ([(5%nat, false, [22; 23; 24]%positive); (10%nat, false, [25; 26; 27]%positive); (1%nat, false, [26; 25; 27]%positive); (129%nat, false, [14; 13; 28]%positive); (1%nat, false, [13; 14; 28]%positive); (1%nat, false, [15; 13; 29]%positive); (1%nat, false, [13; 15; 29]%positive); (8%nat, false, [15; 14; 30]%positive); (21%nat, false, [21; 16; 31]%positive); (1%nat, false, [16; 21; 31]%positive); (8%nat, false, [18; 19; 32]%positive); (135%nat, false, [7; 3; 33]%positive); (22%nat, false, [8; 7; 34]%positive); (12%nat, false, [11; 10; 35]%positive); (30%nat, false, [36; 37; 38]%positive); (39%nat, false, [39; 40; 41]%positive); (1%nat, false, [42; 39; 43]%positive); (10%nat, false, [44; 22]%positive); (1%nat, false, [45; 44]%positive); (1%nat, false, [1; 45]%positive); (1%nat, false, [46; 26]%positive); (1%nat, false, [47; 46]%positive); (1%nat, false, [48; 47]%positive); (1%nat, false, [2; 48]%positive); (4%nat, false, [4; 25]%positive); (1%nat, false, [49; 23]%positive); (1%nat, false, [50; 49]%positive); (1%nat, false, [5; 50]%positive); (3%nat, false, [51; 52]%positive); (1%nat, false, [6; 51]%positive);
    (6%nat, false, [8; 53]%positive); (21%nat, false, [54; 55]%positive); (1%nat, false, [17; 54]%positive); (1%nat, false, [36; 39]%positive); (1%nat, false, [56; 36]%positive); (1%nat, false, [18; 56]%positive); (1%nat, false, [37; 40]%positive); (1%nat, false, [57; 37]%positive); (1%nat, false, [19; 57]%positive); (1%nat, false, [58; 42]%positive); (1%nat, false, [59; 58]%positive); (1%nat, false, [20; 59]%positive); (2%nat, false, [60; 61]%positive); (1%nat, false, [21; 60]%positive); (388%nat, false, [22; 24]%positive); (9%nat, false, [62; 63]%positive); (11%nat, false, [64; 65]%positive); (6%nat, false, [66; 67]%positive); (53%nat, false, [68; 63]%positive); (37%nat, false, [69; 65]%positive); (21%nat, false, [70; 67]%positive); (17%nat, false, [30; 71]%positive); (35%nat, false, [32; 72]%positive); (0%nat, true, [32; 72]%positive); (3%nat, false, [73; 74]%positive); (0%nat, true, [73; 74]%positive); (60%nat, false, [75; 68]%positive); (38%nat, false, [76; 69]%positive); (21%nat, false, [77; 70]%positive); (17%nat, false, [71; 78]%positive);
    (35%nat, false, [72; 38]%positive); (0%nat, true, [72; 38]%positive); (3%nat, false, [74; 79]%positive); (0%nat, true, [74; 79]%positive); (60%nat, false, [33; 75]%positive); (38%nat, false, [34; 76]%positive); (2%nat, false, [53; 7; 34]%positive); (19%nat, false, [35; 77]%positive); (17%nat, false, [78; 80]%positive); (35%nat, false, [38; 41]%positive); (0%nat, true, [38; 41]%positive); (1%nat, false, [39; 37; 38]%positive); (2%nat, false, [79; 43]%positive); (0%nat, true, [79; 43]%positive); (31%nat, false, [81; 80]%positive); (19%nat, false, [40; 41]%positive); (1%nat, false, [39; 41]%positive); (1%nat, false, [42; 43]%positive); (1%nat, false, [39; 43]%positive); (23%nat, false, [22; 82; 13]%positive); (2%nat, false, [22; 83; 14]%positive); (2%nat, false, [22; 84; 15]%positive); (32%nat, false, [26; 85; 20]%positive); (50%nat, false, [25; 86; 20]%positive); (12%nat, false, [23; 87; 13]%positive); (2%nat, false, [23; 88; 14]%positive); (199%nat, false, [13; 82; 22]%positive); (2%nat, false, [14; 83; 22]%positive); (2%nat, false, [15; 84; 22]%positive); (42%nat, false, [20; 85; 26]%positive);
    (63%nat, false, [20; 86; 25]%positive); (19%nat, false, [13; 87; 23]%positive); (2%nat, false, [14; 88; 23]%positive); (256%nat, false, [45; 89; 55]%positive); (35%nat, false, [47; 90; 61]%positive); (85%nat, false, [52; 91; 61]%positive); (40%nat, false, [53; 92; 36]%positive); (2%nat, false, [53; 93; 37]%positive); (154%nat, false, [55; 89; 45]%positive); (51%nat, false, [61; 90; 47]%positive); (37%nat, false, [3; 94; 39]%positive); (4%nat, false, [3; 95; 40]%positive); (78%nat, false, [61; 91; 52]%positive); (27%nat, false, [7; 96; 39]%positive); (4%nat, false, [7; 97; 40]%positive); (4%nat, false, [7; 98; 42]%positive); (22%nat, false, [36; 92; 53]%positive); (4%nat, false, [37; 93; 53]%positive); (5%nat, false, [8; 99; 42]%positive); (208%nat, false, [39; 94; 3]%positive); (2%nat, false, [40; 95; 3]%positive); (52%nat, false, [39; 96; 7]%positive); (2%nat, false, [40; 97; 7]%positive); (2%nat, false, [42; 98; 7]%positive); (16%nat, false, [42; 99; 8]%positive)])
   ([0; 186; 0; 190; 0; 194; 0; 302; 279; 243; 211; 0; 314; 295; 255; 223; 0; 370; 0; 374; 0; 114; 110; 106; 346; 353; 342; 349; 50; 406;
    0; 22; 0; 18; 113; 370; 0; 354; 0; 82; 78; 74; 326; 333; 374; 0; 114; 110; 106; 346; 353; 342; 349; 146; 142; 418; 138; 442; 377; 410;
    0; 350; 0; 82; 78; 74; 322; 329; 22; 0; 354; 0; 82; 378; 0; 122; 118; 386; 0; 178; 174; 414; 365; 134; 130; 398; 357; 358; 0; 82;
    78; 74; 330; 337; 82; 78; 74; 326; 333; 18; 113; 370; 0; 354; 0; 82; 378; 0; 134; 130; 398; 357; 358; 0; 82; 78; 74; 330; 337; 82;
    78; 74; 326; 333; 374; 0; 358; 0; 82; 78; 74; 330; 337; 114; 110; 82; 78; 74; 6; 106; 346; 353; 342; 349; 46; 158; 154; 418; 66; 150;
    446; 381; 0; 22; 0; 354; 0; 82; 378; 0; 134; 130; 398; 357; 358; 0; 82; 78; 74; 330; 337; 82; 78; 74; 326; 333; 18; 113; 370; 0;
    354; 0; 358; 0; 82; 78; 74; 330; 337; 82; 78; 74; 326; 333; 374; 0; 114; 110; 82; 78; 74; 6; 106; 346; 353; 342; 349; 146; 142; 138;
    450; 50; 410; 0; 22; 0; 18; 113; 370; 0; 354; 0; 82; 78; 74; 326; 333; 374; 0; 114; 110; 106; 346; 353; 342; 349; 146; 142; 138; 450;
    422; 0; 306; 454; 389; 158; 154; 150; 446; 381; 385; 366; 0; 54; 426; 0; 350; 0; 82; 78; 74; 322; 329; 22; 0; 354; 0; 358; 0; 82;
    78; 74; 330; 337; 438; 0; 102; 338; 170; 166; 162; 462; 397; 82; 78; 74; 326; 333; 18; 113; 370; 0; 354; 0; 358; 0; 82; 78; 74; 330;
    337; 438; 0; 102; 338; 170; 166; 162; 462; 397; 82; 78; 74; 326; 333; 374; 0; 438; 0; 102; 338; 170; 166; 162; 462; 397; 114; 110; 82; 78;
    74; 6; 106; 346; 353; 342; 349; 458; 393; 50; 406; 0; 370; 0; 374; 0; 114; 110; 106; 346; 353; 342; 349; 54; 426; 0; 22; 0; 354; 0;
    358; 0; 82; 78; 74; 330; 337; 82; 78; 74; 326; 333; 18; 113; 370; 0; 354; 0; 358; 0; 82; 78; 74; 330; 337; 82; 78; 74; 326; 333;
    374; 0; 114; 110; 82; 78; 74; 6; 106; 346; 353; 342; 349; 438; 0; 102; 338; 362; 0; 98; 94; 90; 86; 334; 341; 102; 338; 170; 166; 162;
    462; 397; 458; 393; 146; 142; 418; 138; 442; 377; 410; 0; 370; 0; 354; 0; 82; 78; 74; 326; 333; 374; 0; 114; 110; 106; 346; 353; 342; 349;
    54; 426; 0; 30; 0; 26; 117; 350; 0; 82; 378; 0; 134; 130; 398; 357; 438; 0; 102; 338; 170; 166; 162; 462; 397; 358; 0; 82; 78; 74;
    330; 337; 82; 78; 74; 322; 329; 22; 0; 354; 0; 122; 118; 386; 0; 178; 174; 414; 365; 82; 378; 0; 126; 390; 0; 146; 142; 430; 369; 394;
    0; 318; 290; 434; 270; 418; 290; 434; 270; 418; 290; 434; 270; 418; 290; 434; 373; 122; 118; 386; 0; 126; 390; 0; 146; 142; 430; 369; 394; 0;
    318; 290; 434; 270; 418; 290; 434; 270; 418; 290; 434; 270; 418; 290; 434; 373; 98; 94; 382; 0; 178; 174; 402; 361; 42; 0; 38; 125; 178; 174;
    414; 365; 134; 130; 398; 357; 358; 0; 122; 118; 386; 0; 178; 174; 414; 365; 82; 78; 74; 330; 337; 438; 0; 102; 338; 362; 0; 98; 94; 90] ++
   [86; 334; 341; 102; 338; 170; 166; 162; 462; 397; 82; 78; 74; 326; 333; 18; 113; 370; 0; 82; 378; 0; 134; 130; 398; 357; 438; 0; 102; 338;
    170; 166; 162; 462; 397; 34; 354; 0; 122; 118; 386; 0; 178; 174; 414; 365; 82; 378; 0; 122; 118; 386; 0; 42; 0; 38; 125; 178; 174; 414;
    365; 134; 130; 398; 357; 438; 0; 102; 338; 170; 166; 162; 462; 397; 358; 0; 122; 118; 386; 0; 178; 174; 414; 365; 438; 0; 102; 338; 170; 166;
    162; 462; 397; 82; 78; 74; 330; 337; 82; 78; 74; 326; 333; 374; 0; 82; 378; 0; 122; 118; 386; 0; 178; 174; 414; 365; 134; 130; 398; 357;
    438; 0; 102; 338; 170; 166; 162; 462; 397; 358; 0; 438; 0; 102; 338; 170; 166; 162; 462; 397; 82; 78; 74; 330; 337; 114; 110; 82; 78; 74;
    6; 106; 346; 353; 342; 349; 458; 393; 46; 158; 62; 154; 418; 66; 150; 446; 381; 0; 350; 0; 82; 378; 0; 134; 130; 398; 357; 358; 0; 82;
    78; 74; 330; 337; 82; 78; 74; 322; 329; 22; 0; 354; 0; 122; 118; 386; 0; 178; 174; 414; 365; 82; 378; 0; 98; 94; 90; 86; 14; 0;
    102; 10; 109; 122; 118; 386; 0; 98; 94; 90; 86; 14; 0; 102; 10; 109; 98; 94; 382; 0; 178; 174; 402; 361; 42; 0; 38; 125; 178; 174;
    414; 365; 134; 130; 398; 357; 358; 0; 122; 118; 386; 0; 178; 174; 414; 365; 82; 78; 74; 330; 337; 82; 78; 74; 326; 333; 18; 113; 370; 0;
    82; 378; 0; 134; 130; 398; 357; 34; 354; 0; 122; 118; 386; 0; 178; 174; 414; 365; 82; 378; 0; 122; 118; 386; 0; 42; 0; 38; 125; 178;
    174; 414; 365; 134; 130; 398; 357; 358; 0; 122; 118; 386; 0; 178; 174; 414; 365; 82; 78; 74; 330; 337; 82; 78; 74; 326; 333; 374; 0; 82;
    378; 0; 122; 118; 386; 0; 178; 174; 414; 365; 134; 130; 398; 357; 358; 0; 82; 78; 74; 330; 337; 114; 110; 82; 78; 74; 6; 106; 346; 353;
    342; 349; 146; 142; 138; 450; 50; 410; 0; 350; 0; 358; 0; 82; 78; 74; 330; 337; 82; 78; 74; 322; 329; 22; 0; 354; 0; 82; 378; 0;
    122; 118; 386; 0; 178; 174; 414; 365; 134; 130; 398; 357; 358; 0; 82; 78; 74; 330; 337; 438; 0; 102; 338; 170; 166; 162; 462; 397; 82; 78;
    74; 326; 333; 18; 113; 370; 0; 354; 0; 82; 378; 0; 134; 130; 398; 357; 438; 0; 102; 338; 170; 166; 162; 462; 397; 358; 0; 82; 78; 74;
    330; 337; 82; 78; 74; 326; 333; 374; 0; 438; 0; 102; 338; 170; 166; 162; 462; 397; 358; 0; 82; 78; 74; 330; 337; 114; 110; 82; 78; 74;
    6; 106; 346; 353; 342; 349; 146; 142; 70; 138; 450; 422; 0; 306; 454; 389; 158; 154; 150; 446; 381; 385; 102; 338; 345; 299; 259; 227; 293; 46;
    283; 247; 215; 0; 310; 287; 251; 219; 129; 121; 58; 274; 238; 206; 269; 266; 234; 202; 261; 262; 230; 198; 253; 0; 182; 97])%Z) 84%Z.

Definition line3_9 : scenario := MkScenario (592, 79, 3058)%N 52
  ([1; 3; 1; 0; 1; 2; 1; 0; 0; 0; 1; 0; 1; 0; 1; 4; 1; 0; 1; 1; 1; 0; 0; 0; 0; 0; 0; 0; 1; 1;
    1; 0; 1; 1; 1; 1; 1; 1; 0; 0; 0; 0; 0; 1; 1; 1; 1; 1; 1; 1; 1; 0; 0; 0; 1; 1; 1; 1; 1; 1;
    0; 1; 1; 1; 1; 1; 1; 3; 1; 0; 1; 0; 0; 0; 1; 9; 1; 0; 1; 4; 1; 0; 1; 1; 1; 0; 0; 0; 0; 0;
    0; 1; 1; 0; 1; 1; 1; 1; 1; 1; 1; 1; 1; 1; 1; 1; 0; 0; 0; 1; 1; 1; 1; 1; 1; 0; 1; 1; 1; 1;
    1; 0; 5; 1; 1; 1; 0; 1; 0; 1; 0; 1; 0; 1; 6; 1; 0; 1; 3; 1; 1; 1; 1; 1; 1; 1; 1; 1; 1; 1;
    1; 1; 1; 1; 1; 1; 1; 1; 1; 1; 1; 0; 0; 0; 0; 0; 1; 1; 1; 1; 0; 0; 0; 1; 1; 1; 1; 3; 1; 12;
    1; 0; 0; 0; 1; 10; 1; 4; 1; 4; 1; 0; 1; 1; 1; 0; 0; 0; 0; 0; 0; 1; 1; 0; 1; 1; 1; 1; 1; 1;
    1; 1; 1; 1; 1; 1; 0; 0; 0; 1; 1; 1; 1; 1; 1; 0; 1; 1; 1; 1; 1; 0; 0; 1; 0; 1; 0; 1; 0; 1;
    6; 1; 1; 1; 4; 1; 1; 1; 1; 1; 1; 1; 1; 1; 1; 1; 1; 1; 1; 1; 1; 0; 0; 0; 1; 1; 1; 1; 5; 1;
    12; 1; 0; 0; 0; 1; 9; 1; 4; 1; 2; 1; 0; 1; 1; 1; 0; 0; 0; 0; 0; 0; 1; 1; 0; 1; 1; 1; 1; 1;
    1; 1; 1; 1; 1; 1; 1; 0; 0; 0; 1; 1; 1; 1; 1; 1; 0; 1; 1; 1; 1; 1; 0; 0; 1; 0; 1; 0; 1; 0;
    1; 7; 1; 1; 1; 8; 1; 1; 1; 1; 1; 1; 1; 1; 1; 1; 1; 1; 1; 1; 1; 1; 0; 0; 0; 1; 1; 1; 0; 0;
    1; 0; 1; 0; 1; 0; 1; 0; 1; 2; 1; 0; 1; 1; 1; 1; 1; 1; 1; 1; 1; 1; 1; 1; 1; 1; 1; 1; 0; 0;
    0; 1; 1; 1; 5; 2; 0; 0; 1; 1; 1; 1; 1; 1; 1; 1; 1; 1; 1; 1; 1; 1; 1; 0; 1; 1; 1; 1; 1; 1;
    1; 1; 1; 1; 0; 1; 1; 1; 1; 1; 1; 0; 1; 0; 1; 0; 1; 0; 1; 1; 1; 1; 0; 0; 0; 0; 0; 0; 0; 0;
    0; 0; 0; 0; 1; 0; 1; 0; 1; 0; 1; 1; 1; 1; 0; 0; 0; 0; 0; 0; 0; 0; 0; 1; 1; 0; 1; 0; 1; 0;
    1; 0; 0; 0; 1; 1; 0; 1; 0; 1; 0; 0; 0; 0; 0; 1; 1; 0; 0; 0; 0; 0; 0; 0; 0; 0; 1; 1; 0; 0;
    1; 1; 1; 1; 1; 1; 0; 0; 0; 0; 1; 0; 0; 0; 0; 0; 0; 0; 1; 1; 1; 1; 0; 0; 1; 1; 1; 1; 1; 1;
    0; 0; 0; 0; 1; 0; 0; 1; 0; 0; 0; 0; 1; 1; 1; 1; 0; 0; 0; 0; 1; 0; 0; 1; 0; 0; 0; 0; 1; 0;
    1; 1; 0; 0; 0; 0; 0; 0; 0; 0; 0; 0; 0; 0; 0; 0; 0; 0; 0; 0; 1; 1; 1; 1; 1; 1; 0; 0; 0; 0] ++
   [0; 0; 0; 0; 0; 0; 0; 0; 1; 0; 1; 1; 0; 0; 1; 1; 1; 1; 1; 1; 0; 0; 0; 0; 1; 0; 0; 0; 0; 0;
    0; 0; 1; 0; 1; 1; 0; 0; 0; 0; 1; 0; 0; 0; 0; 0; 0; 0; 1; 0; 0; 1; 0; 0; 0; 0; 0; 0; 0; 0;
    0; 0; 0; 0; 0; 0; 0; 0; 0; 0; 0])%Z
  (MkCert 80%positive
   ([1; 2; 3; 4; 5; 6; 7; 8; 9; 10; 11; 12; 13; 14; 15; 16; 17; 18; 19; 20; 21])%positive
   ([(5%nat, false, [22; 23; 24]%positive); (51%nat, false, [25; 26; 27]%positive); (12%nat, false, [28; 25; 29]%positive); (1%nat, false, [25; 28; 29]%positive); (78%nat, false, [14; 13; 30]%positive); (1%nat, false, [13; 14; 30]%positive); (16%nat, false, [17; 15; 31]%positive); (14%nat, false, [19; 17; 32]%positive); (9%nat, false, [18; 21; 33]%positive); (1%nat, false, [20; 19; 34]%positive); (32%nat, false, [35; 36; 37]%positive); (99%nat, false, [7; 3; 38]%positive); (17%nat, false, [39; 8; 40]%positive); (11%nat, false, [41; 8; 42]%positive); (1%nat, false, [8; 41; 42]%positive); (5%nat, false, [11; 10; 43]%positive); (15%nat, false, [44; 45; 46]%positive); (9%nat, false, [47; 44; 48]%positive); (53%nat, false, [49; 22]%positive); (1%nat, false, [50; 49]%positive); (1%nat, false, [1; 50]%positive); (3%nat, false, [51; 52]%positive); (1%nat, false, [2; 51]%positive); (3%nat, false, [3; 36]%positive); (1%nat, false, [4; 53]%positive); (1%nat, false, [54; 23]%positive); (1%nat, false, [55; 54]%positive); (1%nat, false, [5; 55]%positive); (1%nat, false, [56; 26]%positive); (1%nat, false, [57; 56]%positive);
    (1%nat, false, [39; 57]%positive); (1%nat, false, [6; 39]%positive); (3%nat, false, [7; 35]%positive); (1%nat, false, [58; 25]%positive); (1%nat, false, [59; 58]%positive); (1%nat, false, [8; 59]%positive); (1%nat, false, [60; 28]%positive); (1%nat, false, [61; 60]%positive); (1%nat, false, [41; 61]%positive); (1%nat, false, [9; 41]%positive); (14%nat, false, [62; 45]%positive); (1%nat, false, [15; 62]%positive); (2%nat, false, [63; 44]%positive); (1%nat, false, [17; 63]%positive); (1%nat, false, [64; 65]%positive); (1%nat, false, [66; 64]%positive); (1%nat, false, [18; 66]%positive); (1%nat, false, [47; 67]%positive); (1%nat, false, [68; 47]%positive); (1%nat, false, [19; 68]%positive); (1%nat, false, [69; 70]%positive); (1%nat, false, [71; 69]%positive); (1%nat, false, [20; 71]%positive); (1%nat, false, [72; 73]%positive); (1%nat, false, [74; 72]%positive); (1%nat, false, [21; 74]%positive); (388%nat, false, [22; 24]%positive); (8%nat, false, [75; 76]%positive); (16%nat, false, [77; 78]%positive); (53%nat, false, [79; 76]%positive);
    (27%nat, true, [80; 27]%positive); (20%nat, false, [81; 29]%positive); (0%nat, true, [81; 29]%positive); (11%nat, false, [82; 78]%positive); (29%nat, false, [31; 83]%positive); (0%nat, true, [31; 83]%positive); (5%nat, false, [84; 85]%positive); (0%nat, true, [84; 85]%positive); (10%nat, false, [32; 86]%positive); (0%nat, true, [32; 86]%positive); (13%nat, true, [33; 87]%positive); (3%nat, false, [34; 88]%positive); (0%nat, true, [34; 88]%positive); (54%nat, false, [37; 79]%positive); (27%nat, true, [89; 80]%positive); (20%nat, false, [90; 81]%positive); (0%nat, true, [90; 81]%positive); (11%nat, false, [91; 82]%positive); (29%nat, false, [83; 46]%positive); (0%nat, true, [83; 46]%positive); (5%nat, false, [85; 92]%positive); (0%nat, true, [85; 92]%positive); (10%nat, false, [86; 48]%positive); (0%nat, true, [86; 48]%positive); (13%nat, true, [87; 93]%positive); (3%nat, false, [88; 94]%positive); (0%nat, true, [88; 94]%positive); (54%nat, false, [38; 37]%positive); (2%nat, false, [35; 3; 38]%positive); (25%nat, true, [40; 89]%positive);
    (20%nat, false, [42; 90]%positive); (0%nat, true, [42; 90]%positive); (11%nat, false, [43; 91]%positive); (29%nat, false, [46; 95]%positive); (2%nat, false, [96; 45; 46]%positive); (3%nat, false, [92; 97]%positive); (2%nat, false, [67; 45; 92]%positive); (8%nat, false, [48; 98]%positive); (0%nat, true, [48; 98]%positive); (2%nat, false, [67; 44; 48]%positive); (10%nat, true, [93; 99]%positive); (3%nat, false, [94; 100]%positive); (0%nat, true, [94; 100]%positive); (31%nat, false, [96; 95]%positive); (3%nat, false, [67; 97]%positive); (6%nat, false, [67; 98]%positive); (1%nat, false, [96; 98]%positive); (7%nat, false, [65; 99]%positive); (1%nat, false, [70; 100]%positive); (1%nat, false, [67; 100]%positive); (18%nat, false, [22; 101; 13]%positive); (2%nat, false, [22; 102; 14]%positive); (85%nat, false, [53; 103; 20]%positive); (12%nat, false, [23; 104; 13]%positive); (2%nat, false, [23; 105; 14]%positive); (25%nat, false, [26; 106; 19]%positive); (36%nat, false, [25; 107; 17]%positive); (3%nat, false, [25; 108; 19]%positive); (2%nat, false, [25; 109; 20]%positive); (8%nat, false, [28; 110; 15]%positive);
    (3%nat, false, [28; 111; 17]%positive); (3%nat, false, [28; 112; 19]%positive); (114%nat, false, [13; 101; 22]%positive); (2%nat, false, [14; 102; 22]%positive); (103%nat, false, [20; 103; 53]%positive); (19%nat, false, [13; 104; 23]%positive); (2%nat, false, [14; 105; 23]%positive); (33%nat, false, [19; 106; 26]%positive); (46%nat, false, [17; 107; 25]%positive); (3%nat, false, [19; 108; 25]%positive); (2%nat, false, [20; 109; 25]%positive); (11%nat, false, [15; 110; 28]%positive); (3%nat, false, [17; 111; 28]%positive); (3%nat, false, [19; 112; 28]%positive); (191%nat, false, [52; 113; 72]%positive); (24%nat, false, [36; 114; 45]%positive); (2%nat, false, [36; 115; 44]%positive); (3%nat, false, [36; 116; 47]%positive); (52%nat, false, [57; 117; 72]%positive); (16%nat, false, [35; 118; 45]%positive); (2%nat, false, [35; 119; 44]%positive); (3%nat, false, [35; 120; 47]%positive); (22%nat, false, [59; 121; 69]%positive); (15%nat, false, [61; 122; 47]%positive); (2%nat, false, [61; 123; 69]%positive); (178%nat, false, [51; 124; 65]%positive); (8%nat, false, [72; 113; 52]%positive); (28%nat, false, [45; 114; 36]%positive); (4%nat, false, [44; 115; 36]%positive); (1%nat, false, [3; 125; 96]%positive);
    (5%nat, false, [47; 116; 36]%positive); (1%nat, false, [3; 126; 67]%positive); (79%nat, false, [72; 117; 57]%positive); (1%nat, false, [39; 127; 73]%positive); (19%nat, false, [45; 118; 35]%positive); (4%nat, false, [44; 119; 35]%positive); (6%nat, false, [47; 120; 35]%positive); (1%nat, false, [7; 128; 67]%positive); (4%nat, false, [7; 129; 70]%positive); (30%nat, false, [69; 121; 59]%positive); (5%nat, false, [8; 130; 73]%positive); (22%nat, false, [47; 122; 61]%positive); (4%nat, false, [69; 123; 61]%positive); (156%nat, false, [65; 124; 51]%positive); (20%nat, false, [96; 125; 3]%positive); (3%nat, false, [67; 126; 3]%positive); (40%nat, false, [73; 127; 39]%positive); (15%nat, false, [67; 128; 7]%positive); (2%nat, false, [70; 129; 7]%positive); (17%nat, false, [73; 130; 8]%positive)])
   ([0; 234; 0; 238; 0; 418; 379; 319; 263; 0; 422; 387; 327; 271; 0; 426; 395; 335; 279; 0; 438; 411; 347; 291; 0; 130; 126; 558; 0; 226;
    222; 614; 469; 94; 586; 0; 190; 186; 182; 658; 497; 134; 46; 98; 550; 0; 130; 126; 558; 0; 494; 0; 86; 82; 78; 446; 405; 226; 222; 614;
    469; 94; 586; 0; 130; 126; 558; 0; 226; 222; 614; 469; 190; 186; 182; 658; 497; 178; 174; 598; 461; 134; 46; 98; 546; 0; 30; 530; 0; 534;
    482; 441; 94; 586; 0; 30; 530; 0; 534; 482; 441; 190; 186; 182; 658; 497; 0; 162; 158; 582; 0; 502; 0; 102; 454; 413; 214; 210; 654; 493;
    162; 158; 154; 150; 486; 445; 170; 178; 174; 70; 166; 594; 457; 522; 0; 134; 46; 98; 554; 0; 146; 142; 138; 474; 202; 134; 570; 198; 606; 465;
    94; 586; 0; 190; 186; 182; 658; 497; 134; 570; 0; 94; 586; 0; 190; 186; 182; 658; 497; 146; 142; 138; 474; 202; 198; 630; 481; 134; 46; 98;
    550; 0; 494; 0; 134; 566; 0; 442; 402; 626; 358; 610; 402; 626; 358; 610; 402; 626; 358; 610; 402; 626; 358; 610; 402; 626; 358; 610; 402; 626;
    358; 610; 402; 626; 358; 610; 402; 626; 358; 610; 402; 626; 477; 86; 82; 78; 446; 405; 130; 126; 558; 0; 494; 0; 134; 566; 0; 442; 402; 626;
    358; 610; 402; 626; 358; 610; 402; 626; 358; 610; 402; 626; 358; 610; 402; 626; 358; 610; 402; 626; 358; 610; 402; 626; 358; 610; 402; 626; 358; 610;
    402; 626; 477; 86; 82; 78; 446; 405; 226; 222; 614; 469; 94; 586; 0; 494; 0; 86; 82; 78; 446; 405; 130; 126; 558; 0; 494; 0; 134; 566;
    0; 442; 402; 626; 358; 610; 402; 626; 358; 610; 402; 626; 358; 610; 402; 626; 358; 610; 402; 626; 358; 610; 402; 626; 358; 610; 402; 626; 358; 610;
    402; 626; 358; 610; 402; 626; 477; 86; 82; 78; 446; 405; 226; 222; 614; 469; 190; 186; 182; 658; 497; 178; 174; 598; 461; 134; 46; 98; 546; 0;
    146; 142; 138; 474; 34; 30; 530; 0; 146; 142; 138; 474; 34; 534; 482; 441; 94; 586; 0; 146; 142; 138; 474; 34; 30; 530; 0; 146; 142; 138;
    474; 34; 534; 482; 441; 190; 186; 182; 658; 497; 0; 162; 158; 582; 0; 502; 0; 102; 454; 413; 214; 210; 654; 493; 146; 142; 138; 474; 538; 0;
    146; 142; 138; 18; 0; 162; 58; 366; 306; 250; 117; 162; 158; 154; 150; 490; 449; 162; 158; 154; 150; 486; 445; 170; 178; 174; 70; 166; 594; 457;
    146; 142; 138; 474; 433; 26; 0; 130; 126; 558; 0; 502; 0; 498; 0; 86; 82; 78; 450; 409; 102; 454; 413; 226; 222; 614; 469; 94; 586; 0;
    130; 126; 558; 0; 226; 222; 614; 469; 190; 186; 182; 658; 497; 134; 46; 98; 550; 0; 134; 566; 0; 442; 402; 626; 358; 610; 402; 626; 358; 610;
    402; 626; 358; 610; 402; 626; 358; 610; 402; 626; 358; 610; 402; 626; 358; 610; 402; 626; 358; 610; 402; 626; 358; 610; 402; 626; 477; 130; 126; 558;
    0; 134; 566; 0; 442; 402; 626; 358; 610; 402; 626; 358; 610; 402; 626; 358; 610; 402; 626; 358; 610; 402; 626; 358; 610; 402; 626; 358; 610; 402;
    626; 358; 610; 402; 626; 358; 610; 402; 626; 477; 226; 222; 614; 469; 94; 586; 0; 130; 126; 558; 0; 134; 566; 0; 442; 402; 626; 358; 610; 402] ++
   [626; 358; 610; 402; 626; 358; 610; 402; 626; 358; 610; 402; 626; 358; 610; 402; 626; 358; 610; 402; 626; 358; 610; 402; 626; 358; 610; 402; 626; 477;
    226; 222; 614; 469; 190; 186; 182; 658; 497; 178; 174; 598; 461; 134; 46; 98; 546; 0; 30; 530; 0; 34; 518; 0; 522; 470; 429; 534; 482; 441;
    94; 586; 0; 30; 530; 0; 534; 482; 441; 190; 186; 182; 658; 497; 0; 162; 158; 582; 0; 94; 586; 0; 190; 186; 182; 658; 497; 502; 0; 94;
    586; 0; 190; 186; 182; 658; 497; 102; 454; 413; 214; 210; 654; 493; 162; 158; 154; 150; 486; 445; 170; 178; 174; 70; 166; 594; 457; 522; 0; 98;
    554; 0; 146; 142; 138; 474; 202; 198; 606; 465; 94; 586; 0; 190; 186; 182; 658; 497; 638; 0; 134; 46; 98; 554; 0; 146; 142; 138; 474; 202;
    214; 210; 206; 678; 134; 570; 198; 606; 465; 94; 586; 0; 134; 46; 98; 554; 0; 146; 142; 138; 474; 202; 134; 570; 198; 606; 465; 190; 186; 182;
    658; 497; 517; 0; 130; 126; 558; 0; 226; 222; 614; 469; 94; 586; 0; 190; 186; 182; 658; 497; 146; 142; 138; 474; 202; 198; 630; 481; 134; 46;
    98; 550; 0; 134; 566; 0; 442; 402; 626; 358; 610; 402; 626; 358; 610; 402; 626; 358; 610; 402; 626; 358; 610; 402; 626; 358; 610; 402; 626; 358;
    610; 402; 626; 358; 610; 402; 626; 358; 610; 402; 626; 477; 130; 126; 558; 0; 134; 570; 0; 146; 142; 138; 474; 202; 198; 630; 481; 134; 566; 0;
    442; 402; 626; 358; 610; 402; 626; 358; 610; 402; 626; 358; 610; 402; 626; 358; 610; 402; 626; 358; 610; 402; 626; 358; 610; 402; 626; 358; 610; 402;
    626; 358; 610; 402; 626; 477; 226; 222; 614; 469; 94; 586; 0; 134; 566; 0; 442; 402; 626; 358; 610; 402; 626; 358; 610; 402; 626; 358; 610; 402;
    626; 358; 610; 402; 626; 358; 610; 402; 626; 358; 610; 402; 626; 358; 610; 402; 626; 358; 610; 402; 626; 477; 130; 126; 558; 0; 134; 566; 0; 442;
    402; 626; 358; 610; 402; 626; 358; 610; 402; 626; 358; 610; 402; 626; 358; 610; 402; 626; 358; 610; 402; 626; 358; 610; 402; 626; 358; 610; 402; 626;
    358; 610; 402; 626; 477; 226; 222; 614; 469; 190; 186; 182; 658; 497; 178; 74; 174; 598; 461; 46; 98; 546; 0; 146; 142; 138; 474; 34; 30; 530;
    0; 130; 126; 558; 0; 226; 222; 614; 469; 146; 142; 138; 474; 34; 534; 482; 441; 94; 586; 0; 146; 142; 138; 474; 34; 30; 530; 0; 146; 142;
    138; 474; 34; 534; 482; 441; 190; 186; 182; 658; 497; 0; 162; 158; 582; 0; 502; 0; 102; 454; 413; 214; 210; 654; 493; 146; 142; 138; 474; 538;
    0; 94; 586; 0; 190; 186; 182; 658; 497; 146; 142; 138; 18; 0; 162; 58; 366; 306; 250; 117; 162; 158; 154; 150; 490; 449; 162; 158; 154; 150;
    486; 445; 170; 178; 174; 70; 166; 594; 457; 146; 142; 138; 474; 433; 22; 121; 506; 0; 498; 0; 86; 82; 78; 450; 409; 130; 126; 558; 0; 498;
    0; 502; 0; 102; 454; 413; 86; 82; 78; 450; 409; 226; 222; 614; 469; 94; 586; 0; 130; 126; 558; 0; 498; 0; 86; 82; 78; 450; 409; 226;
    222; 614; 469; 190; 186; 182; 658; 497; 134; 46; 98; 550; 0; 498; 0; 134; 566; 0; 442; 402; 626; 358; 610; 402; 626; 358; 610; 402; 626; 358] ++
   [610; 402; 626; 358; 610; 402; 626; 358; 610; 402; 626; 358; 610; 402; 626; 358; 610; 402; 626; 358; 610; 402; 626; 477; 86; 82; 78; 450; 409; 130;
    126; 558; 0; 498; 0; 134; 566; 0; 442; 402; 626; 358; 610; 402; 626; 358; 610; 402; 626; 358; 610; 402; 626; 358; 610; 402; 626; 358; 610; 402;
    626; 358; 610; 402; 626; 358; 610; 402; 626; 358; 610; 402; 626; 477; 86; 82; 78; 450; 409; 226; 222; 614; 469; 94; 586; 0; 498; 0; 86; 82;
    78; 450; 409; 130; 126; 558; 0; 498; 0; 134; 566; 0; 442; 402; 626; 358; 610; 402; 626; 358; 610; 402; 626; 358; 610; 402; 626; 358; 610; 402;
    626; 358; 610; 402; 626; 358; 610; 402; 626; 358; 610; 402; 626; 358; 610; 402; 626; 477; 86; 82; 78; 450; 409; 226; 222; 614; 469; 190; 186; 182;
    658; 497; 178; 174; 598; 461; 134; 46; 98; 546; 0; 30; 530; 0; 34; 518; 0; 130; 126; 558; 0; 226; 222; 614; 469; 522; 470; 429; 534; 482;
    441; 94; 586; 0; 30; 530; 0; 34; 518; 0; 522; 470; 429; 534; 482; 441; 190; 186; 182; 658; 497; 0; 62; 370; 310; 254; 0; 162; 58; 366;
    306; 250; 117; 162; 158; 582; 0; 94; 586; 0; 190; 186; 182; 658; 497; 502; 0; 94; 586; 0; 190; 186; 182; 658; 497; 102; 454; 413; 214; 210;
    654; 493; 162; 158; 154; 150; 486; 445; 170; 178; 174; 70; 166; 594; 457; 522; 0; 98; 554; 0; 130; 126; 558; 0; 226; 222; 614; 469; 146; 142;
    138; 474; 202; 198; 606; 465; 94; 586; 0; 190; 186; 182; 658; 497; 638; 0; 134; 46; 98; 554; 0; 146; 142; 138; 474; 202; 214; 210; 206; 678;
    134; 570; 198; 606; 465; 94; 586; 0; 134; 46; 98; 554; 0; 146; 142; 138; 474; 202; 134; 570; 198; 606; 465; 190; 186; 182; 658; 497; 517; 0;
    130; 126; 558; 0; 498; 0; 86; 82; 78; 450; 409; 226; 222; 614; 469; 94; 586; 0; 130; 126; 558; 0; 226; 222; 614; 469; 190; 186; 182; 658;
    497; 146; 142; 138; 474; 202; 198; 630; 481; 134; 46; 98; 550; 0; 498; 0; 134; 566; 0; 442; 402; 626; 358; 610; 402; 626; 358; 610; 402; 626;
    358; 610; 402; 626; 358; 610; 402; 626; 358; 610; 402; 626; 358; 610; 402; 626; 358; 610; 402; 626; 358; 610; 402; 626; 477; 86; 82; 78; 450; 409;
    130; 126; 558; 0; 134; 566; 0; 442; 402; 626; 358; 610; 402; 626; 358; 610; 402; 626; 358; 610; 402; 626; 358; 610; 402; 626; 358; 610; 402; 626;
    358; 610; 402; 626; 358; 610; 402; 626; 358; 610; 402; 626; 477; 498; 0; 134; 570; 0; 146; 142; 138; 474; 202; 198; 630; 481; 134; 566; 0; 442;
    402; 626; 358; 610; 402; 626; 358; 610; 402; 626; 358; 610; 402; 626; 358; 610; 402; 626; 358; 610; 402; 626; 358; 610; 402; 626; 358; 610; 402; 626;
    358; 610; 402; 626; 477; 86; 82; 78; 450; 409; 226; 222; 614; 469; 94; 586; 0; 498; 0; 134; 566; 0; 442; 402; 626; 358; 610; 402; 626; 358;
    610; 402; 626; 358; 610; 402; 626; 358; 610; 402; 626; 358; 610; 402; 626; 358; 610; 402; 626; 358; 610; 402; 626; 358; 610; 402; 626; 477; 86; 82;
    78; 450; 409; 130; 126; 558; 0; 498; 0; 134; 566; 0; 442; 402; 626; 358; 610; 402; 626; 358; 610; 402; 626; 358; 610; 402; 626; 358; 610; 402] ++
   [626; 358; 610; 402; 626; 358; 610; 402; 626; 358; 610; 402; 626; 358; 610; 402; 626; 477; 86; 82; 78; 450; 409; 226; 222; 614; 469; 190; 186; 182;
    658; 497; 178; 74; 174; 598; 461; 134; 46; 98; 546; 0; 146; 142; 138; 474; 34; 30; 530; 0; 130; 126; 558; 0; 134; 562; 0; 442; 390; 622;
    358; 610; 390; 622; 358; 610; 390; 622; 358; 610; 390; 622; 358; 610; 390; 622; 358; 610; 390; 622; 358; 610; 390; 622; 358; 610; 390; 622; 358; 610;
    390; 622; 358; 610; 390; 622; 473; 226; 222; 614; 469; 146; 142; 138; 474; 34; 534; 482; 441; 94; 586; 0; 146; 142; 138; 474; 34; 30; 530; 0;
    130; 126; 558; 0; 226; 222; 614; 469; 146; 142; 138; 474; 34; 534; 482; 441; 190; 186; 182; 658; 497; 0; 94; 586; 0; 190; 186; 182; 658; 497;
    162; 158; 582; 0; 94; 586; 0; 190; 186; 182; 658; 497; 502; 0; 94; 586; 0; 190; 186; 182; 658; 497; 102; 454; 413; 214; 210; 654; 493; 146;
    142; 138; 474; 538; 0; 94; 586; 0; 190; 186; 182; 658; 497; 146; 142; 138; 18; 0; 162; 58; 366; 306; 250; 117; 162; 158; 154; 150; 490; 449;
    162; 158; 154; 150; 486; 445; 170; 178; 174; 70; 166; 594; 457; 146; 142; 138; 474; 433; 510; 0; 130; 126; 558; 0; 226; 222; 614; 469; 94; 586;
    0; 190; 186; 182; 658; 497; 134; 46; 98; 550; 0; 130; 126; 558; 0; 134; 566; 0; 442; 402; 626; 358; 610; 402; 626; 358; 610; 402; 626; 358;
    610; 402; 626; 358; 610; 402; 626; 358; 610; 402; 626; 358; 610; 402; 626; 358; 610; 402; 626; 358; 610; 402; 626; 477; 226; 222; 614; 469; 94; 586;
    0; 130; 126; 558; 0; 226; 222; 614; 469; 190; 186; 182; 658; 497; 178; 174; 598; 461; 134; 46; 98; 546; 0; 30; 530; 0; 534; 482; 441; 94;
    586; 0; 30; 530; 0; 534; 482; 441; 190; 186; 182; 658; 497; 0; 162; 158; 582; 0; 502; 0; 102; 454; 413; 214; 210; 654; 493; 162; 158; 154;
    150; 486; 445; 170; 178; 174; 70; 166; 594; 457; 522; 0; 134; 46; 98; 554; 0; 146; 142; 138; 474; 202; 134; 570; 198; 606; 465; 94; 586; 0;
    190; 186; 182; 658; 497; 134; 570; 0; 94; 586; 0; 190; 186; 182; 658; 497; 146; 142; 138; 474; 202; 198; 630; 481; 134; 46; 98; 550; 0; 134;
    566; 0; 442; 402; 626; 358; 610; 402; 626; 358; 610; 402; 626; 358; 610; 402; 626; 358; 610; 402; 626; 358; 610; 402; 626; 358; 610; 402; 626; 358;
    610; 402; 626; 358; 610; 402; 626; 477; 130; 126; 558; 0; 134; 566; 0; 442; 402; 626; 358; 610; 402; 626; 358; 610; 402; 626; 358; 610; 402; 626;
    358; 610; 402; 626; 358; 610; 402; 626; 358; 610; 402; 626; 358; 610; 402; 626; 358; 610; 402; 626; 477; 226; 222; 614; 469; 94; 586; 0; 134; 566;
    0; 442; 402; 626; 358; 610; 402; 626; 358; 610; 402; 626; 358; 610; 402; 626; 358; 610; 402; 626; 358; 610; 402; 626; 358; 610; 402; 626; 358; 610;
    402; 626; 358; 610; 402; 626; 477; 130; 126; 558; 0; 134; 566; 0; 442; 402; 626; 358; 610; 402; 626; 358; 610; 402; 626; 358; 610; 402; 626; 358;
    610; 402; 626; 358; 610; 402; 626; 358; 610; 402; 626; 358; 610; 402; 626; 358; 610; 402; 626; 477; 226; 222; 614; 469; 190; 186; 182; 658; 497; 178] ++
   [174; 598; 461; 46; 98; 546; 0; 146; 142; 138; 474; 34; 30; 530; 0; 146; 142; 138; 474; 34; 534; 482; 441; 94; 586; 0; 146; 142; 138; 474;
    34; 30; 530; 0; 146; 142; 138; 474; 34; 534; 482; 441; 190; 186; 182; 658; 497; 0; 162; 158; 582; 0; 502; 0; 102; 454; 413; 214; 210; 654;
    493; 146; 142; 138; 474; 538; 0; 146; 142; 138; 18; 0; 162; 58; 366; 306; 250; 117; 162; 158; 154; 150; 490; 449; 162; 158; 154; 150; 486; 445;
    170; 178; 174; 70; 166; 594; 457; 146; 142; 138; 474; 433; 114; 110; 86; 82; 78; 6; 106; 462; 421; 458; 417; 358; 50; 610; 0; 202; 198; 634;
    194; 666; 98; 550; 0; 178; 174; 598; 461; 202; 198; 634; 194; 666; 98; 546; 0; 30; 530; 0; 34; 518; 0; 522; 470; 429; 534; 482; 441; 94;
    586; 0; 30; 530; 0; 534; 482; 441; 190; 186; 182; 658; 497; 0; 162; 158; 582; 0; 502; 0; 102; 454; 413; 214; 210; 654; 493; 162; 158; 154;
    150; 486; 445; 170; 178; 174; 70; 166; 594; 457; 26; 0; 202; 198; 634; 194; 666; 98; 550; 0; 94; 586; 0; 190; 186; 182; 658; 497; 178; 174;
    598; 461; 202; 198; 634; 194; 666; 98; 546; 0; 30; 530; 0; 34; 518; 0; 130; 126; 558; 0; 226; 222; 614; 469; 522; 470; 429; 534; 482; 441;
    94; 586; 0; 30; 530; 0; 34; 518; 0; 522; 470; 429; 534; 482; 441; 190; 186; 182; 658; 497; 0; 94; 586; 0; 190; 186; 182; 658; 497; 62;
    370; 310; 254; 0; 162; 58; 366; 306; 250; 117; 162; 158; 582; 0; 94; 586; 0; 190; 186; 182; 658; 497; 502; 0; 94; 586; 0; 190; 186; 182;
    658; 497; 102; 454; 413; 214; 210; 654; 493; 162; 158; 154; 150; 486; 445; 170; 178; 174; 70; 166; 594; 457; 22; 121; 506; 0; 202; 198; 634; 194;
    666; 98; 550; 0; 94; 586; 0; 190; 186; 182; 658; 497; 178; 174; 598; 461; 202; 198; 634; 194; 666; 98; 546; 0; 34; 518; 0; 522; 470; 429;
    30; 530; 0; 34; 518; 0; 130; 126; 558; 0; 134; 566; 0; 146; 142; 522; 138; 470; 178; 174; 626; 477; 226; 222; 614; 469; 522; 470; 429; 534;
    482; 441; 94; 586; 0; 30; 530; 0; 34; 518; 0; 130; 126; 558; 0; 226; 222; 614; 469; 522; 470; 429; 534; 482; 441; 190; 186; 182; 658; 497;
    562; 0; 430; 382; 622; 358; 602; 0; 430; 662; 501; 382; 622; 473; 0; 94; 586; 0; 190; 186; 182; 658; 497; 62; 370; 310; 254; 0; 162; 58;
    366; 306; 250; 117; 162; 158; 582; 0; 94; 586; 0; 190; 186; 182; 658; 497; 502; 0; 94; 586; 0; 190; 186; 182; 658; 497; 102; 454; 413; 214;
    210; 654; 493; 162; 158; 154; 150; 486; 445; 170; 178; 174; 70; 166; 594; 457; 510; 0; 202; 198; 634; 194; 666; 98; 550; 0; 178; 174; 598; 461;
    202; 198; 634; 194; 666; 98; 546; 0; 30; 530; 0; 34; 518; 0; 522; 470; 429; 534; 482; 441; 94; 586; 0; 30; 530; 0; 534; 482; 441; 190;
    186; 182; 658; 497; 0; 162; 158; 582; 0; 502; 0; 102; 454; 413; 214; 210; 654; 493; 162; 158; 154; 150; 486; 445; 170; 178; 174; 70; 166; 594;
    457; 114; 110; 86; 82; 78; 6; 106; 462; 421; 458; 417; 634; 0; 442; 674; 134; 46; 550; 0; 94; 586; 0; 190; 186; 182; 658; 497; 178; 174] ++
   [598; 461; 162; 158; 578; 0; 42; 514; 0; 130; 126; 122; 118; 466; 425; 202; 198; 650; 489; 202; 198; 194; 674; 134; 46; 98; 546; 0; 94; 586;
    0; 190; 186; 182; 658; 497; 202; 198; 194; 674; 134; 562; 0; 430; 382; 622; 358; 602; 0; 430; 662; 501; 382; 622; 473; 534; 0; 162; 158; 582;
    0; 214; 210; 654; 493; 202; 198; 194; 674; 134; 562; 0; 170; 162; 158; 154; 150; 486; 178; 174; 70; 166; 622; 473; 162; 158; 154; 150; 486; 445;
    170; 178; 174; 70; 166; 594; 457; 26; 0; 442; 674; 134; 46; 550; 0; 94; 586; 0; 190; 186; 182; 658; 497; 178; 174; 598; 461; 162; 158; 578;
    0; 502; 0; 102; 454; 413; 42; 514; 0; 442; 674; 134; 46; 550; 0; 178; 174; 598; 461; 130; 126; 122; 118; 466; 425; 202; 198; 650; 489; 202;
    198; 194; 674; 134; 46; 98; 546; 0; 30; 530; 0; 534; 482; 441; 94; 586; 0; 190; 186; 182; 658; 497; 202; 198; 194; 674; 134; 562; 0; 430;
    382; 622; 358; 602; 0; 430; 662; 501; 382; 622; 473; 534; 0; 162; 158; 582; 0; 502; 0; 102; 454; 413; 214; 210; 654; 493; 202; 198; 194; 674;
    134; 562; 0; 170; 162; 158; 154; 150; 486; 178; 174; 70; 166; 622; 473; 162; 158; 154; 150; 486; 445; 170; 178; 174; 70; 166; 594; 457; 22; 121;
    506; 0; 442; 674; 134; 46; 550; 0; 130; 126; 558; 0; 226; 222; 614; 469; 94; 586; 0; 190; 186; 182; 658; 497; 178; 174; 598; 461; 162; 158;
    578; 0; 502; 0; 102; 454; 413; 42; 514; 0; 442; 674; 134; 46; 550; 0; 178; 174; 598; 461; 130; 126; 122; 118; 466; 425; 202; 198; 650; 489;
    202; 198; 194; 674; 134; 46; 98; 546; 0; 30; 530; 0; 534; 482; 441; 94; 586; 0; 190; 186; 182; 658; 497; 202; 198; 194; 674; 134; 562; 0;
    430; 382; 622; 358; 602; 0; 430; 662; 501; 382; 622; 473; 534; 0; 162; 158; 582; 0; 502; 0; 102; 454; 413; 214; 210; 654; 493; 202; 198; 194;
    674; 134; 562; 0; 146; 142; 522; 138; 18; 0; 162; 58; 366; 306; 250; 117; 170; 162; 158; 154; 150; 486; 178; 174; 70; 166; 622; 473; 162; 158;
    154; 150; 486; 445; 170; 178; 174; 70; 166; 594; 457; 510; 0; 442; 674; 134; 46; 550; 0; 94; 586; 0; 190; 186; 182; 658; 497; 178; 174; 598;
    461; 162; 158; 578; 0; 42; 514; 0; 130; 126; 122; 118; 466; 425; 202; 198; 650; 489; 202; 198; 194; 674; 134; 46; 98; 546; 0; 94; 586; 0;
    190; 186; 182; 658; 497; 202; 198; 194; 674; 134; 562; 0; 430; 382; 622; 358; 602; 0; 430; 662; 501; 382; 622; 473; 534; 0; 162; 158; 582; 0;
    214; 210; 654; 493; 202; 198; 194; 674; 134; 562; 0; 170; 162; 158; 154; 150; 486; 178; 174; 70; 166; 622; 473; 162; 158; 154; 150; 486; 445; 170;
    178; 174; 70; 166; 594; 457; 114; 110; 86; 82; 78; 6; 106; 462; 421; 458; 417; 202; 198; 194; 674; 513; 522; 0; 146; 142; 138; 474; 202; 198;
    634; 194; 666; 98; 546; 0; 30; 530; 0; 130; 126; 558; 0; 226; 222; 614; 469; 534; 482; 441; 94; 586; 0; 30; 530; 0; 534; 482; 441; 190;
    186; 182; 658; 497; 0; 162; 158; 582; 0; 502; 0; 102; 454; 413; 214; 210; 654; 493; 162; 158; 154; 150; 486; 445; 170; 178; 174; 70; 166; 594] ++
   [457; 26; 0; 146; 142; 138; 474; 202; 198; 634; 194; 666; 98; 546; 0; 30; 530; 0; 130; 126; 558; 0; 134; 566; 0; 178; 146; 142; 138; 474;
    202; 198; 74; 174; 626; 477; 226; 222; 614; 469; 534; 482; 441; 94; 586; 0; 30; 530; 0; 130; 126; 558; 0; 226; 222; 614; 469; 534; 482; 441;
    190; 186; 182; 658; 497; 562; 0; 430; 382; 622; 358; 602; 0; 430; 662; 501; 382; 622; 473; 0; 94; 586; 0; 190; 186; 182; 658; 497; 162; 158;
    582; 0; 94; 586; 0; 190; 186; 182; 658; 497; 502; 0; 94; 586; 0; 190; 186; 182; 658; 497; 102; 454; 413; 214; 210; 654; 493; 162; 158; 154;
    150; 486; 445; 170; 178; 174; 70; 166; 594; 457; 22; 121; 506; 0; 130; 54; 362; 302; 246; 0; 146; 142; 138; 10; 109; 146; 142; 138; 474; 202;
    198; 634; 194; 666; 98; 546; 0; 130; 126; 558; 0; 226; 222; 614; 469; 30; 530; 0; 134; 566; 0; 178; 146; 142; 138; 474; 202; 198; 74; 174;
    626; 477; 130; 126; 558; 0; 134; 566; 0; 178; 146; 142; 138; 474; 202; 198; 74; 174; 626; 477; 226; 222; 614; 469; 534; 482; 441; 94; 586; 0;
    30; 530; 0; 130; 126; 558; 0; 134; 566; 0; 178; 146; 142; 138; 474; 202; 198; 74; 174; 626; 477; 226; 222; 614; 469; 534; 482; 441; 190; 186;
    182; 658; 497; 562; 0; 430; 382; 622; 358; 602; 0; 430; 662; 501; 382; 622; 473; 0; 94; 586; 0; 190; 186; 182; 658; 497; 162; 158; 582; 0;
    94; 586; 0; 190; 186; 182; 658; 497; 502; 0; 94; 586; 0; 190; 186; 182; 658; 497; 102; 454; 413; 214; 210; 654; 493; 162; 158; 154; 150; 486;
    445; 170; 178; 174; 70; 166; 594; 457; 510; 0; 146; 142; 138; 474; 202; 198; 634; 194; 666; 98; 546; 0; 30; 530; 0; 130; 126; 558; 0; 226;
    222; 614; 469; 534; 482; 441; 94; 586; 0; 30; 530; 0; 534; 482; 441; 190; 186; 182; 658; 497; 0; 162; 158; 582; 0; 502; 0; 102; 454; 413;
    214; 210; 654; 493; 162; 158; 154; 150; 486; 445; 170; 178; 174; 70; 166; 594; 457; 114; 110; 86; 82; 78; 6; 106; 462; 421; 458; 417; 634; 0;
    146; 142; 138; 474; 202; 198; 194; 674; 134; 46; 98; 546; 0; 146; 142; 138; 474; 202; 198; 194; 674; 134; 562; 0; 170; 178; 174; 70; 166; 622;
    473; 534; 0; 146; 142; 138; 474; 202; 198; 194; 674; 134; 562; 0; 170; 162; 158; 154; 150; 486; 178; 174; 70; 166; 622; 473; 162; 158; 154; 150;
    486; 445; 170; 178; 174; 70; 166; 594; 457; 26; 0; 162; 158; 578; 0; 146; 142; 138; 474; 202; 198; 650; 489; 526; 0; 146; 142; 138; 478; 437;
    146; 142; 138; 474; 202; 198; 194; 674; 134; 46; 98; 546; 0; 146; 142; 138; 474; 202; 198; 194; 674; 134; 562; 0; 430; 382; 622; 358; 602; 0;
    430; 662; 501; 382; 622; 473; 534; 0; 146; 142; 138; 474; 202; 198; 194; 674; 134; 562; 0; 170; 162; 158; 154; 150; 486; 178; 174; 70; 166; 622;
    473; 162; 158; 154; 150; 486; 445; 170; 178; 174; 70; 166; 594; 457; 22; 121; 506; 0; 442; 674; 134; 46; 550; 0; 178; 174; 598; 461; 162; 158;
    578; 0; 146; 142; 138; 474; 202; 198; 650; 489; 526; 0; 146; 142; 138; 478; 437; 146; 142; 138; 474; 202; 198; 194; 674; 134; 46; 98; 546; 0] ++
   [146; 142; 138; 474; 202; 198; 194; 674; 134; 562; 0; 430; 382; 622; 358; 602; 0; 430; 662; 501; 382; 622; 473; 534; 0; 146; 142; 138; 474; 202;
    198; 194; 674; 134; 562; 0; 170; 162; 158; 154; 150; 486; 178; 174; 70; 166; 622; 473; 162; 158; 154; 150; 486; 445; 170; 178; 174; 70; 166; 594;
    457; 510; 0; 146; 142; 138; 474; 202; 198; 194; 674; 134; 46; 98; 546; 0; 146; 142; 138; 474; 202; 198; 194; 674; 134; 562; 0; 170; 178; 174;
    70; 166; 622; 473; 534; 0; 146; 142; 138; 474; 202; 198; 194; 674; 134; 562; 0; 170; 162; 158; 154; 150; 486; 178; 174; 70; 166; 622; 473; 162;
    158; 154; 150; 486; 445; 170; 178; 174; 70; 166; 594; 457; 114; 110; 86; 82; 78; 6; 106; 462; 421; 458; 417; 146; 142; 138; 474; 202; 198; 194;
    674; 513; 146; 142; 138; 474; 433; 202; 198; 194; 666; 505; 646; 0; 494; 0; 226; 222; 218; 682; 146; 574; 0; 214; 210; 642; 485; 86; 82; 78;
    446; 405; 94; 586; 0; 494; 0; 86; 82; 78; 446; 405; 190; 186; 182; 658; 497; 134; 46; 98; 550; 0; 494; 0; 134; 566; 0; 442; 402; 626;
    358; 610; 402; 626; 358; 610; 402; 626; 358; 610; 402; 626; 358; 610; 402; 626; 358; 610; 402; 626; 358; 610; 402; 626; 358; 610; 402; 626; 358; 610;
    402; 626; 477; 86; 82; 78; 446; 405; 94; 586; 0; 494; 0; 134; 566; 0; 442; 402; 626; 358; 610; 402; 626; 358; 610; 402; 626; 358; 610; 402;
    626; 358; 610; 402; 626; 358; 610; 402; 626; 358; 610; 402; 626; 358; 610; 402; 626; 358; 610; 402; 626; 477; 86; 82; 78; 446; 405; 190; 186; 182;
    658; 497; 178; 174; 598; 461; 134; 46; 98; 546; 0; 30; 530; 0; 34; 518; 0; 522; 470; 429; 534; 482; 441; 94; 586; 0; 30; 530; 0; 534;
    482; 441; 190; 186; 182; 658; 497; 0; 162; 158; 582; 0; 502; 0; 102; 454; 413; 214; 210; 654; 493; 162; 158; 154; 150; 486; 445; 170; 178; 174;
    70; 166; 594; 457; 522; 0; 134; 570; 0; 226; 94; 90; 542; 222; 218; 682; 146; 142; 138; 474; 202; 198; 630; 481; 134; 46; 98; 550; 0; 494;
    0; 134; 566; 0; 442; 402; 626; 358; 610; 402; 626; 358; 610; 402; 626; 358; 610; 402; 626; 358; 610; 402; 626; 358; 610; 402; 626; 358; 610; 402;
    626; 358; 610; 402; 626; 358; 610; 402; 626; 477; 86; 82; 78; 446; 405; 178; 174; 598; 461; 134; 46; 98; 546; 0; 94; 90; 542; 218; 682; 146;
    142; 138; 474; 34; 30; 530; 0; 226; 94; 90; 542; 222; 218; 682; 146; 142; 138; 474; 34; 534; 482; 441; 0; 162; 158; 154; 150; 486; 445; 170;
    178; 174; 70; 166; 594; 457; 94; 90; 542; 0; 134; 570; 0; 146; 142; 138; 474; 202; 198; 630; 481; 134; 46; 98; 550; 0; 94; 586; 0; 190;
    186; 182; 658; 497; 178; 174; 598; 461; 134; 46; 98; 546; 0; 94; 586; 0; 190; 186; 182; 658; 497; 534; 0; 162; 158; 154; 150; 486; 445; 170;
    178; 174; 70; 166; 594; 457; 226; 222; 590; 453; 226; 222; 218; 682; 146; 142; 138; 474; 433; 26; 0; 502; 0; 102; 454; 413; 226; 222; 218; 682;
    146; 574; 0; 214; 210; 642; 485; 94; 586; 0; 226; 222; 218; 682; 146; 574; 0; 214; 210; 642; 485; 190; 186; 182; 658; 497; 134; 46; 98; 550] ++
   [0; 134; 570; 0; 202; 198; 630; 481; 134; 566; 0; 442; 402; 626; 358; 610; 402; 626; 358; 610; 402; 626; 358; 610; 402; 626; 358; 610; 402; 626;
    358; 610; 402; 626; 358; 610; 402; 626; 358; 610; 402; 626; 358; 610; 402; 626; 477; 94; 586; 0; 134; 566; 0; 442; 402; 626; 358; 610; 402; 626;
    358; 610; 402; 626; 358; 610; 402; 626; 358; 610; 402; 626; 358; 610; 402; 626; 358; 610; 402; 626; 358; 610; 402; 626; 358; 610; 402; 626; 477; 190;
    186; 182; 658; 497; 178; 74; 174; 598; 461; 46; 98; 546; 0; 30; 530; 0; 34; 518; 0; 226; 222; 218; 682; 146; 142; 522; 138; 470; 429; 534;
    482; 441; 94; 586; 0; 30; 530; 0; 34; 518; 0; 522; 470; 429; 534; 482; 441; 190; 186; 182; 658; 497; 0; 226; 222; 218; 682; 62; 370; 310;
    254; 0; 538; 0; 162; 158; 154; 150; 490; 449; 14; 117; 162; 158; 582; 0; 94; 586; 0; 190; 186; 182; 658; 497; 502; 0; 94; 586; 0; 190;
    186; 182; 658; 497; 102; 454; 413; 214; 210; 654; 493; 162; 158; 154; 150; 486; 445; 170; 178; 174; 70; 166; 594; 457; 522; 0; 134; 570; 0; 226;
    94; 90; 542; 222; 218; 682; 146; 142; 138; 474; 202; 198; 630; 481; 134; 46; 98; 550; 0; 134; 566; 0; 442; 402; 626; 358; 610; 402; 626; 358;
    610; 402; 626; 358; 610; 402; 626; 358; 610; 402; 626; 358; 610; 402; 626; 358; 610; 402; 626; 358; 610; 402; 626; 358; 610; 402; 626; 477; 178; 174;
    598; 461; 46; 98; 546; 0; 226; 94; 90; 542; 222; 218; 682; 146; 142; 138; 474; 34; 30; 530; 0; 226; 94; 90; 542; 222; 218; 682; 146; 142;
    138; 474; 34; 534; 482; 441; 0; 226; 94; 90; 542; 222; 218; 682; 146; 142; 138; 474; 538; 0; 162; 158; 154; 150; 490; 449; 162; 158; 154; 150;
    486; 445; 170; 178; 174; 70; 166; 594; 457; 94; 90; 542; 0; 134; 570; 0; 146; 142; 138; 474; 202; 198; 630; 481; 134; 46; 98; 550; 0; 94;
    586; 0; 190; 186; 182; 658; 497; 178; 174; 598; 461; 134; 46; 98; 546; 0; 94; 586; 0; 190; 186; 182; 658; 497; 534; 0; 146; 142; 138; 474;
    538; 0; 162; 158; 154; 150; 490; 449; 162; 158; 154; 150; 486; 445; 170; 178; 174; 70; 166; 594; 457; 226; 222; 590; 453; 226; 222; 218; 682; 146;
    142; 138; 474; 433; 22; 121; 506; 0; 498; 0; 502; 0; 102; 454; 413; 226; 222; 218; 682; 146; 574; 0; 214; 210; 642; 485; 86; 82; 78; 450;
    409; 94; 586; 0; 498; 0; 226; 222; 218; 682; 146; 574; 0; 214; 210; 642; 485; 86; 82; 78; 450; 409; 190; 186; 182; 658; 497; 134; 46; 98;
    550; 0; 134; 566; 0; 442; 402; 626; 358; 610; 402; 626; 358; 610; 402; 626; 358; 610; 402; 626; 358; 610; 402; 626; 358; 610; 402; 626; 358; 610;
    402; 626; 358; 610; 402; 626; 358; 610; 402; 626; 477; 498; 0; 134; 570; 0; 202; 198; 630; 481; 134; 566; 0; 442; 402; 626; 358; 610; 402; 626;
    358; 610; 402; 626; 358; 610; 402; 626; 358; 610; 402; 626; 358; 610; 402; 626; 358; 610; 402; 626; 358; 610; 402; 626; 358; 610; 402; 626; 477; 86;
    82; 78; 450; 409; 94; 586; 0; 498; 0; 134; 566; 0; 442; 402; 626; 358; 610; 402; 626; 358; 610; 402; 626; 358; 610; 402; 626; 358; 610; 402] ++
   [626; 358; 610; 402; 626; 358; 610; 402; 626; 358; 610; 402; 626; 358; 610; 402; 626; 477; 86; 82; 78; 450; 409; 190; 186; 182; 658; 497; 178; 74;
    174; 598; 461; 134; 46; 98; 546; 0; 518; 0; 522; 470; 429; 30; 530; 0; 34; 518; 0; 226; 222; 218; 682; 146; 142; 522; 138; 470; 429; 534;
    482; 441; 94; 586; 0; 30; 530; 0; 34; 518; 0; 226; 222; 218; 682; 146; 142; 522; 138; 470; 429; 534; 482; 441; 190; 186; 182; 658; 497; 0;
    226; 222; 218; 682; 62; 370; 310; 254; 0; 94; 586; 0; 190; 186; 182; 658; 497; 538; 0; 162; 158; 154; 150; 490; 449; 14; 117; 162; 158; 582;
    0; 94; 586; 0; 190; 186; 182; 658; 497; 502; 0; 94; 586; 0; 190; 186; 182; 658; 497; 102; 454; 413; 214; 210; 654; 493; 162; 158; 154; 150;
    486; 445; 170; 178; 174; 70; 166; 594; 457; 522; 0; 134; 46; 98; 554; 0; 226; 94; 90; 542; 222; 218; 682; 146; 142; 138; 474; 202; 134; 570;
    198; 606; 465; 0; 226; 94; 90; 542; 222; 218; 682; 146; 142; 138; 474; 202; 198; 630; 481; 134; 46; 98; 550; 0; 498; 0; 134; 566; 0; 442;
    402; 626; 358; 610; 402; 626; 358; 610; 402; 626; 358; 610; 402; 626; 358; 610; 402; 626; 358; 610; 402; 626; 358; 610; 402; 626; 358; 610; 402; 626;
    358; 610; 402; 626; 477; 86; 82; 78; 450; 409; 178; 174; 598; 461; 134; 46; 98; 546; 0; 226; 94; 90; 542; 222; 218; 682; 146; 142; 138; 474;
    34; 30; 530; 0; 226; 94; 90; 542; 222; 218; 682; 146; 142; 138; 474; 34; 534; 482; 441; 0; 226; 94; 90; 542; 222; 218; 682; 146; 142; 138;
    474; 538; 0; 162; 158; 154; 150; 490; 449; 162; 158; 154; 150; 486; 445; 170; 178; 174; 70; 166; 594; 457; 94; 90; 542; 0; 94; 586; 0; 190;
    186; 182; 658; 497; 134; 570; 0; 146; 142; 138; 474; 202; 198; 630; 481; 134; 46; 98; 550; 0; 498; 0; 86; 82; 78; 450; 409; 94; 586; 0;
    190; 186; 182; 658; 497; 178; 174; 598; 461; 134; 46; 98; 546; 0; 94; 586; 0; 190; 186; 182; 658; 497; 534; 0; 146; 142; 138; 474; 538; 0;
    162; 158; 154; 150; 490; 449; 162; 158; 154; 150; 486; 445; 170; 178; 174; 70; 166; 594; 457; 226; 222; 590; 453; 226; 222; 218; 682; 146; 142; 138;
    474; 433; 510; 0; 226; 222; 218; 682; 146; 574; 0; 214; 210; 642; 485; 94; 586; 0; 226; 222; 218; 682; 146; 574; 0; 214; 210; 642; 485; 190;
    186; 182; 658; 497; 134; 46; 98; 550; 0; 134; 566; 0; 442; 402; 626; 358; 610; 402; 626; 358; 610; 402; 626; 358; 610; 402; 626; 358; 610; 402;
    626; 358; 610; 402; 626; 358; 610; 402; 626; 358; 610; 402; 626; 358; 610; 402; 626; 477; 94; 586; 0; 134; 566; 0; 442; 402; 626; 358; 610; 402;
    626; 358; 610; 402; 626; 358; 610; 402; 626; 358; 610; 402; 626; 358; 610; 402; 626; 358; 610; 402; 626; 358; 610; 402; 626; 358; 610; 402; 626; 477;
    190; 186; 182; 658; 497; 178; 174; 598; 461; 46; 98; 546; 0; 30; 530; 0; 34; 518; 0; 522; 470; 429; 534; 482; 441; 94; 586; 0; 30; 530;
    0; 534; 482; 441; 190; 186; 182; 658; 497; 0; 162; 158; 582; 0; 502; 0; 102; 454; 413; 214; 210; 654; 493; 162; 158; 154; 150; 486; 445; 170] ++
   [178; 174; 70; 166; 594; 457; 522; 0; 134; 570; 0; 226; 94; 90; 542; 222; 218; 682; 146; 142; 138; 474; 202; 198; 630; 481; 134; 46; 98; 550;
    0; 134; 566; 0; 442; 402; 626; 358; 610; 402; 626; 358; 610; 402; 626; 358; 610; 402; 626; 358; 610; 402; 626; 358; 610; 402; 626; 358; 610; 402;
    626; 358; 610; 402; 626; 358; 610; 402; 626; 477; 178; 174; 598; 461; 46; 98; 546; 0; 94; 90; 542; 218; 682; 146; 142; 138; 474; 34; 30; 530;
    0; 226; 94; 90; 542; 222; 218; 682; 146; 142; 138; 474; 34; 534; 482; 441; 0; 162; 158; 154; 150; 486; 445; 170; 178; 174; 70; 166; 594; 457;
    94; 90; 542; 0; 134; 570; 0; 146; 142; 138; 474; 202; 198; 630; 481; 134; 46; 98; 550; 0; 94; 586; 0; 190; 186; 182; 658; 497; 178; 174;
    598; 461; 134; 46; 98; 546; 0; 94; 586; 0; 190; 186; 182; 658; 497; 534; 0; 162; 158; 154; 150; 486; 445; 170; 178; 174; 70; 166; 594; 457;
    226; 222; 590; 453; 226; 222; 218; 682; 146; 142; 138; 474; 433; 114; 110; 86; 82; 78; 6; 106; 462; 421; 458; 417; 50; 610; 0; 202; 198; 634;
    194; 666; 98; 550; 0; 94; 586; 0; 190; 186; 182; 658; 497; 178; 174; 598; 461; 202; 198; 634; 194; 666; 98; 546; 0; 30; 530; 0; 34; 518;
    0; 226; 222; 218; 682; 146; 142; 522; 138; 470; 429; 534; 482; 441; 94; 586; 0; 30; 530; 0; 34; 518; 0; 522; 470; 429; 534; 482; 441; 190;
    186; 182; 658; 497; 0; 226; 222; 218; 682; 62; 370; 310; 254; 0; 538; 0; 162; 158; 154; 150; 490; 449; 14; 117; 162; 158; 582; 0; 94; 586;
    0; 190; 186; 182; 658; 497; 502; 0; 94; 586; 0; 190; 186; 182; 658; 497; 102; 454; 413; 214; 210; 654; 493; 162; 158; 154; 150; 486; 445; 170;
    178; 174; 70; 166; 594; 457; 26; 0; 202; 198; 634; 194; 666; 98; 550; 0; 94; 586; 0; 190; 186; 182; 658; 497; 178; 174; 598; 461; 202; 198;
    634; 194; 666; 98; 546; 0; 34; 518; 0; 522; 470; 429; 30; 530; 0; 34; 518; 0; 226; 222; 218; 682; 146; 142; 522; 138; 470; 429; 534; 482;
    441; 94; 586; 0; 30; 530; 0; 34; 518; 0; 226; 222; 218; 682; 146; 142; 522; 138; 470; 429; 534; 482; 441; 190; 186; 182; 658; 497; 0; 226;
    222; 218; 682; 62; 370; 310; 254; 0; 94; 586; 0; 190; 186; 182; 658; 497; 538; 0; 162; 158; 154; 150; 490; 449; 14; 117; 162; 158; 582; 0;
    94; 586; 0; 190; 186; 182; 658; 497; 502; 0; 94; 586; 0; 190; 186; 182; 658; 497; 102; 454; 413; 214; 210; 654; 493; 162; 158; 154; 150; 486;
    445; 170; 178; 174; 70; 166; 594; 457; 22; 121; 506; 0; 202; 198; 634; 194; 666; 98; 550; 0; 94; 586; 0; 190; 186; 182; 658; 497; 178; 174;
    598; 461; 202; 198; 634; 194; 666; 98; 546; 0; 34; 518; 0; 226; 222; 218; 682; 146; 142; 522; 138; 470; 429; 30; 530; 0; 34; 518; 0; 226;
    222; 218; 682; 146; 142; 522; 138; 470; 429; 534; 482; 441; 94; 586; 0; 518; 0; 522; 470; 429; 30; 530; 0; 34; 518; 0; 226; 222; 218; 682;
    146; 142; 522; 138; 470; 429; 534; 482; 441; 190; 186; 182; 658; 497; 0; 226; 222; 218; 682; 62; 370; 310; 254; 0; 94; 586; 0; 190; 186; 182] ++
   [658; 497; 538; 0; 162; 158; 154; 150; 490; 449; 14; 117; 162; 158; 582; 0; 94; 586; 0; 190; 186; 182; 658; 497; 502; 0; 94; 586; 0; 190;
    186; 182; 658; 497; 102; 454; 413; 214; 210; 654; 493; 162; 158; 154; 150; 486; 445; 170; 178; 174; 70; 166; 594; 457; 510; 0; 202; 198; 634; 194;
    666; 98; 550; 0; 94; 586; 0; 190; 186; 182; 658; 497; 178; 174; 598; 461; 202; 198; 634; 194; 666; 98; 546; 0; 30; 530; 0; 34; 518; 0;
    226; 222; 218; 682; 146; 142; 522; 138; 470; 429; 534; 482; 441; 94; 586; 0; 30; 530; 0; 34; 518; 0; 522; 470; 429; 534; 482; 441; 190; 186;
    182; 658; 497; 0; 226; 222; 218; 682; 62; 370; 310; 254; 0; 538; 0; 162; 158; 154; 150; 490; 449; 14; 117; 162; 158; 582; 0; 94; 586; 0;
    190; 186; 182; 658; 497; 502; 0; 94; 586; 0; 190; 186; 182; 658; 497; 102; 454; 413; 214; 210; 654; 493; 162; 158; 154; 150; 486; 445; 170; 178;
    174; 70; 166; 594; 457; 114; 110; 86; 82; 78; 6; 106; 462; 421; 458; 417; 634; 0; 442; 674; 134; 46; 550; 0; 94; 586; 0; 190; 186; 182;
    658; 497; 178; 174; 598; 461; 162; 158; 578; 0; 502; 0; 102; 454; 413; 42; 514; 0; 130; 126; 122; 118; 466; 425; 202; 198; 650; 489; 202; 198;
    194; 674; 134; 46; 98; 546; 0; 94; 586; 0; 190; 186; 182; 658; 497; 202; 198; 194; 674; 134; 562; 0; 430; 382; 622; 358; 602; 0; 430; 662;
    501; 382; 622; 473; 534; 0; 162; 158; 582; 0; 214; 210; 654; 493; 202; 198; 194; 674; 134; 562; 0; 170; 162; 158; 154; 150; 486; 178; 174; 70;
    166; 622; 473; 162; 158; 154; 150; 486; 445; 170; 178; 174; 70; 166; 594; 457; 26; 0; 442; 674; 134; 46; 550; 0; 442; 674; 134; 566; 0; 178;
    174; 626; 477; 94; 586; 0; 190; 186; 182; 658; 497; 178; 174; 598; 461; 162; 158; 578; 0; 502; 0; 102; 454; 413; 42; 514; 0; 442; 674; 134;
    46; 550; 0; 178; 174; 598; 461; 130; 126; 122; 118; 466; 425; 202; 198; 650; 489; 202; 198; 194; 674; 134; 46; 98; 546; 0; 30; 530; 0; 534;
    482; 441; 94; 586; 0; 190; 186; 182; 658; 497; 202; 198; 194; 674; 134; 562; 0; 430; 382; 622; 358; 602; 0; 430; 662; 501; 382; 622; 473; 534;
    0; 162; 158; 582; 0; 502; 0; 102; 454; 413; 214; 210; 654; 493; 202; 198; 194; 674; 134; 562; 0; 430; 382; 622; 358; 602; 0; 430; 662; 501;
    382; 622; 473; 162; 158; 154; 150; 486; 445; 170; 178; 174; 70; 166; 594; 457; 22; 121; 506; 0; 442; 674; 134; 46; 550; 0; 498; 0; 86; 82;
    78; 450; 409; 94; 586; 0; 190; 186; 182; 658; 497; 178; 174; 598; 461; 162; 158; 578; 0; 442; 674; 134; 46; 550; 0; 178; 174; 598; 461; 502;
    0; 442; 674; 134; 46; 550; 0; 178; 174; 598; 461; 102; 454; 413; 42; 514; 0; 442; 674; 134; 46; 550; 0; 178; 174; 598; 461; 130; 126; 122;
    118; 466; 425; 202; 198; 650; 489; 202; 198; 194; 674; 134; 46; 98; 546; 0; 30; 530; 0; 518; 0; 226; 222; 218; 682; 146; 142; 138; 470; 429;
    534; 482; 441; 94; 586; 0; 30; 530; 0; 534; 482; 441; 190; 186; 182; 658; 497; 202; 198; 194; 674; 134; 562; 0; 430; 382; 622; 358; 602; 0] ++
   [430; 662; 501; 382; 622; 473; 0; 162; 158; 582; 0; 502; 0; 102; 454; 413; 214; 210; 654; 493; 202; 198; 194; 674; 134; 562; 0; 430; 382; 622;
    358; 602; 0; 430; 662; 501; 382; 622; 473; 162; 158; 154; 150; 486; 445; 170; 178; 174; 70; 166; 594; 457; 510; 0; 442; 674; 134; 46; 550; 0;
    94; 586; 0; 190; 186; 182; 658; 497; 178; 174; 598; 461; 162; 158; 578; 0; 502; 0; 102; 454; 413; 42; 514; 0; 130; 126; 122; 118; 466; 425;
    202; 198; 650; 489; 202; 198; 194; 674; 134; 46; 98; 546; 0; 94; 586; 0; 190; 186; 182; 658; 497; 202; 198; 194; 674; 134; 562; 0; 430; 382;
    622; 358; 602; 0; 430; 662; 501; 382; 622; 473; 534; 0; 162; 158; 582; 0; 214; 210; 654; 493; 202; 198; 194; 674; 134; 562; 0; 170; 162; 158;
    154; 150; 486; 178; 174; 70; 166; 622; 473; 162; 158; 154; 150; 486; 445; 170; 178; 174; 70; 166; 594; 457; 114; 110; 86; 82; 78; 6; 106; 462;
    421; 458; 417; 202; 198; 194; 674; 513; 522; 0; 226; 222; 218; 682; 146; 142; 138; 474; 202; 198; 634; 194; 666; 98; 546; 0; 94; 586; 0; 190;
    186; 182; 658; 497; 534; 0; 162; 158; 154; 150; 486; 445; 170; 178; 174; 70; 166; 594; 457; 26; 0; 226; 222; 218; 682; 146; 142; 138; 474; 202;
    198; 634; 194; 666; 98; 546; 0; 94; 586; 0; 190; 186; 182; 658; 497; 534; 0; 162; 158; 582; 0; 214; 210; 654; 493; 162; 158; 154; 150; 486;
    445; 170; 178; 174; 70; 166; 594; 457; 22; 121; 506; 0; 226; 222; 218; 682; 146; 142; 138; 474; 202; 198; 634; 194; 666; 98; 546; 0; 130; 618;
    0; 226; 222; 218; 670; 509; 94; 586; 0; 190; 186; 182; 658; 497; 534; 0; 162; 158; 582; 0; 502; 0; 102; 454; 413; 214; 210; 654; 493; 162;
    158; 154; 150; 486; 445; 170; 178; 174; 70; 166; 594; 457; 510; 0; 226; 222; 218; 682; 146; 142; 138; 474; 202; 198; 634; 194; 666; 98; 546; 0;
    94; 586; 0; 190; 186; 182; 658; 497; 534; 0; 162; 158; 154; 150; 486; 445; 170; 178; 174; 70; 166; 594; 457; 114; 110; 86; 82; 78; 6; 106;
    462; 421; 458; 417; 634; 0; 26; 0; 226; 222; 218; 682; 146; 142; 138; 474; 202; 198; 194; 674; 134; 46; 546; 0; 170; 166; 594; 457; 22; 121;
    506; 0; 226; 222; 218; 682; 146; 142; 138; 474; 202; 198; 194; 674; 134; 46; 546; 0; 170; 166; 594; 457; 510; 0; 114; 110; 86; 82; 78; 6;
    106; 462; 421; 458; 417; 38; 226; 222; 218; 682; 146; 142; 138; 474; 202; 198; 194; 674; 513; 226; 222; 218; 682; 146; 142; 138; 474; 433; 202; 198;
    194; 666; 505; 226; 222; 218; 682; 521; 415; 351; 295; 137; 0; 434; 407; 343; 287; 133; 399; 339; 283; 129; 331; 275; 337; 323; 267; 125; 66; 374;
    314; 258; 313; 354; 298; 242; 305; 0; 230; 97])%Z) 104%Z.

Definition line3_10 : scenario := MkScenario (592, 79, 3076)%N 64
  ([0; 0; 1; 1; 1; 0; 1; 0; 1; 0; 1; 5; 1; 7; 1; 0; 1; 5; 1; 10; 1; 0; 1; 1; 1; 1; 1; 1; 1; 1;
    1; 1; 1; 1; 1; 1; 1; 1; 0; 0; 0; 1; 1; 1; 1; 1; 1; 1; 1; 1; 1; 1; 1; 1; 1; 1; 1; 1; 1; 1;
    1; 1; 1; 1; 1; 0; 0; 0; 1; 0; 1; 0; 1; 0; 1; 5; 1; 7; 1; 0; 1; 5; 1; 0; 1; 0; 1; 1; 1; 1;
    1; 1; 1; 1; 1; 1; 1; 1; 1; 1; 1; 1; 1; 1; 1; 1; 1; 1; 1; 1; 1; 1; 1; 1; 1; 1; 1; 1; 1; 1;
    0; 0; 0; 1; 0; 1; 0; 1; 0; 1; 9; 1; 0; 1; 2; 1; 0; 1; 13; 1; 1; 1; 1; 1; 1; 1; 1; 1; 1; 1;
    1; 1; 1; 1; 1; 1; 1; 1; 1; 1; 1; 0; 0; 0; 0; 0; 1; 1; 1; 1; 0; 0; 1; 1; 1; 1; 0; 0; 1; 0;
    1; 0; 1; 3; 1; 4; 1; 9; 1; 0; 1; 5; 1; 0; 1; 0; 1; 1; 1; 1; 1; 1; 1; 1; 1; 1; 1; 1; 1; 1;
    1; 1; 1; 1; 1; 1; 1; 1; 1; 1; 1; 1; 1; 1; 1; 1; 1; 1; 1; 1; 0; 0; 0; 1; 0; 1; 9; 1; 0; 1;
    4; 1; 0; 1; 13; 1; 1; 1; 1; 1; 1; 1; 1; 1; 1; 1; 1; 1; 1; 1; 1; 0; 0; 1; 1; 1; 1; 0; 0; 1;
    0; 1; 2; 1; 8; 1; 3; 1; 9; 1; 0; 1; 6; 1; 8; 1; 0; 1; 1; 1; 1; 1; 1; 1; 1; 1; 1; 1; 1; 1;
    1; 1; 1; 1; 1; 1; 1; 1; 1; 1; 1; 1; 1; 1; 1; 1; 1; 1; 1; 1; 1; 0; 0; 0; 1; 0; 1; 9; 1; 0;
    1; 5; 1; 0; 1; 13; 1; 1; 1; 1; 1; 1; 1; 1; 1; 1; 1; 1; 1; 1; 1; 1; 0; 0; 1; 1; 1; 1; 0; 0;
    1; 0; 1; 7; 1; 0; 1; 3; 1; 0; 1; 13; 1; 1; 1; 1; 1; 1; 1; 1; 1; 1; 1; 1; 1; 1; 1; 1; 0; 0;
    1; 1; 1; 1; 0; 0; 8; 0; 0; 1; 0; 1; 1; 1; 1; 1; 1; 1; 1; 0; 0; 0; 1; 0; 0; 1; 1; 1; 1; 1;
    0; 0; 0; 1; 0; 0; 1; 1; 1; 1; 1; 0; 0; 0; 0; 0; 0; 0; 1; 1; 1; 1; 0; 0; 0; 0; 0; 0; 0; 0;
    0; 0; 0; 0; 0; 0; 0; 0; 0; 0; 1; 1; 1; 1; 0; 0; 0; 0; 0; 0; 0; 0; 0; 0; 0; 0; 0; 0; 0; 0;
    0; 0; 1; 1; 1; 1; 0; 0; 0; 0; 0; 0; 0; 0; 0; 1; 0; 0; 0; 0; 0; 0; 0; 0; 0; 0; 0; 0; 0; 1;
    1; 1; 1; 1; 1; 1; 0; 1; 1; 1; 1; 1; 1; 1; 0; 1; 1; 1; 1; 1; 1; 1; 0; 1; 1; 1; 1; 1; 1; 1;
    0; 0; 1; 1; 1; 1; 1; 1; 0; 0; 0; 1; 1; 1; 1; 1; 0; 0; 0; 0; 1; 0; 0; 1; 0; 0; 0; 0; 1; 0;
    0; 1; 0; 0; 0; 0; 1; 0; 0; 1; 0; 0; 0; 0; 1; 0; 0; 1; 0; 1; 1; 1; 1; 1; 1; 1; 0; 1; 1; 1] ++
   [1; 1; 1; 1; 0; 1; 1; 1; 1; 1; 1; 1; 0; 0; 1; 1; 1; 1; 1; 1; 0; 0; 0; 1; 1; 1; 1; 1; 0; 0;
    0; 0; 1; 0; 1; 1; 0; 0; 0; 0; 1; 0; 0; 1; 0; 0; 0; 0; 1; 0; 0; 1; 0; 0; 0; 0; 0; 0; 0; 1;
    0; 0; 0; 0; 0; 0; 0; 1; 1; 1; 1])%Z
  (MkCert 80%positive
   ([1; 2; 3; 4; 5; 6; 7; 8; 9; 10; 11; 12; 13; 14; 15; 16; 17; 18; 19; 20; 21])%positive
   ([(184%nat, false, [19; 17; 22]%positive); (175%nat, false, [10; 11; 23]%positive); (17%nat, false, [24; 25; 26]%positive); (8%nat, false, [27; 24; 28]%positive); (8%nat, false, [29; 30; 31]%positive); (31%nat, false, [32; 33; 34]%positive); (25%nat, false, [4; 35]%positive); (6%nat, false, [36; 37]%positive); (1%nat, false, [6; 36]%positive); (1%nat, false, [38; 39]%positive); (1%nat, false, [40; 38]%positive); (1%nat, false, [7; 40]%positive); (1%nat, false, [41; 42]%positive); (1%nat, false, [43; 41]%positive); (1%nat, false, [8; 43]%positive); (3%nat, false, [44; 45]%positive); (1%nat, false, [9; 44]%positive); (1%nat, false, [46; 47]%positive); (1%nat, false, [48; 46]%positive); (1%nat, false, [10; 48]%positive); (7%nat, false, [49; 50]%positive); (1%nat, false, [51; 49]%positive); (1%nat, false, [14; 51]%positive); (1%nat, false, [25; 52]%positive); (1%nat, false, [53; 25]%positive); (1%nat, false, [15; 53]%positive); (1%nat, false, [24; 33]%positive); (1%nat, false, [54; 24]%positive); (1%nat, false, [17; 54]%positive); (4%nat, false, [27; 32]%positive);
    (1%nat, false, [55; 27]%positive); (1%nat, false, [19; 55]%positive); (2%nat, false, [56; 57]%positive); (1%nat, false, [20; 56]%positive); (1%nat, false, [29; 58]%positive); (1%nat, false, [59; 29]%positive); (1%nat, false, [21; 59]%positive); (377%nat, false, [11; 58; 60]%positive); (26%nat, false, [61; 62]%positive); (1%nat, false, [42; 62]%positive); (2%nat, false, [47; 63]%positive); (110%nat, true, [64; 63]%positive); (32%nat, false, [65; 66]%positive); (0%nat, true, [65; 66]%positive); (14%nat, false, [22; 67]%positive); (0%nat, true, [22; 67]%positive); (13%nat, false, [68; 69]%positive); (0%nat, true, [68; 69]%positive); (115%nat, true, [70; 64]%positive); (32%nat, false, [66; 26]%positive); (0%nat, true, [66; 26]%positive); (14%nat, false, [67; 28]%positive); (0%nat, true, [67; 28]%positive); (13%nat, false, [69; 31]%positive); (0%nat, true, [69; 31]%positive); (114%nat, true, [23; 70]%positive); (1%nat, false, [48; 11; 23]%positive); (31%nat, false, [26; 71]%positive); (0%nat, true, [26; 71]%positive); (14%nat, false, [28; 34]%positive);
    (0%nat, true, [28; 34]%positive); (2%nat, false, [32; 24; 28]%positive); (11%nat, false, [31; 72]%positive); (0%nat, true, [31; 72]%positive); (2%nat, false, [58; 30; 31]%positive); (32%nat, false, [33; 71]%positive); (1%nat, false, [52; 71]%positive); (7%nat, false, [32; 34]%positive); (8%nat, false, [58; 72]%positive); (1%nat, false, [73; 72]%positive); (88%nat, false, [35; 74; 14]%positive); (58%nat, false, [39; 75; 14]%positive); (24%nat, false, [42; 76; 17]%positive); (3%nat, false, [42; 77; 19]%positive); (37%nat, false, [47; 78; 20]%positive); (189%nat, false, [14; 74; 35]%positive); (80%nat, false, [14; 75; 39]%positive); (30%nat, false, [17; 76; 42]%positive); (3%nat, false, [19; 77; 42]%positive); (42%nat, false, [20; 78; 47]%positive); (241%nat, false, [37; 79; 49]%positive); (24%nat, false, [40; 80; 25]%positive); (2%nat, false, [40; 81; 24]%positive); (3%nat, false, [40; 82; 27]%positive); (25%nat, false, [43; 83; 57]%positive); (18%nat, false, [45; 84; 57]%positive); (12%nat, false, [48; 85; 30]%positive); (5%nat, false, [48; 86; 29]%positive); (230%nat, false, [5; 87; 50]%positive); (35%nat, false, [49; 79; 37]%positive);
    (5%nat, false, [36; 88; 52]%positive); (4%nat, false, [36; 89; 33]%positive); (6%nat, false, [36; 90; 32]%positive); (23%nat, false, [25; 80; 40]%positive); (4%nat, false, [24; 81; 40]%positive); (6%nat, false, [27; 82; 40]%positive); (1%nat, false, [7; 91; 32]%positive); (37%nat, false, [57; 83; 43]%positive); (30%nat, false, [57; 84; 45]%positive); (20%nat, false, [30; 85; 48]%positive); (10%nat, false, [29; 86; 48]%positive); (1%nat, false, [10; 92; 58]%positive); (12%nat, false, [11; 93; 73]%positive); (10%nat, false, [11; 60; 58]%positive); (151%nat, false, [50; 87; 5]%positive); (20%nat, false, [52; 88; 36]%positive); (2%nat, false, [33; 89; 36]%positive); (3%nat, false, [32; 90; 36]%positive); (16%nat, false, [32; 91; 7]%positive); (47%nat, false, [58; 92; 10]%positive); (6%nat, false, [73; 93; 11]%positive); (5%nat, false, [58; 60; 11]%positive)])
   ([0; 158; 0; 266; 235; 203; 175; 0; 274; 243; 211; 183; 0; 278; 255; 219; 191; 0; 38; 366; 0; 270; 426; 34; 326; 0; 94; 90; 362; 317;
    106; 118; 114; 14; 102; 98; 426; 353; 50; 338; 0; 38; 370; 0; 130; 126; 386; 50; 334; 110; 430; 357; 38; 366; 0; 270; 426; 34; 326; 0;
    306; 0; 30; 286; 297; 94; 90; 362; 317; 106; 118; 50; 334; 114; 14; 102; 98; 426; 353; 329; 50; 334; 0; 38; 370; 0; 6; 314; 0; 82;
    350; 0; 154; 262; 402; 230; 418; 262; 402; 230; 418; 262; 402; 230; 418; 262; 402; 230; 418; 262; 402; 230; 418; 262; 402; 230; 418; 262; 402; 230;
    418; 262; 402; 230; 418; 262; 402; 230; 418; 262; 402; 230; 418; 262; 402; 230; 418; 262; 402; 230; 418; 262; 402; 230; 418; 262; 402; 230; 418; 262;
    402; 230; 418; 262; 402; 341; 390; 0; 130; 126; 122; 438; 50; 330; 0; 106; 102; 378; 321; 130; 126; 122; 438; 365; 62; 58; 318; 54; 294; 305;
    118; 114; 26; 110; 430; 357; 38; 366; 0; 6; 314; 0; 318; 294; 305; 118; 114; 382; 50; 330; 0; 6; 314; 0; 62; 58; 318; 54; 294; 305;
    106; 118; 114; 14; 102; 378; 321; 106; 102; 98; 426; 353; 118; 114; 382; 325; 358; 0; 38; 366; 0; 50; 334; 14; 98; 426; 353; 50; 334; 0;
    38; 366; 0; 106; 102; 98; 426; 353; 118; 114; 382; 325; 306; 0; 38; 366; 0; 106; 50; 334; 14; 102; 98; 426; 353; 50; 334; 0; 38; 366;
    0; 118; 114; 382; 330; 0; 106; 118; 114; 14; 102; 378; 321; 106; 102; 98; 426; 353; 118; 114; 382; 325; 30; 286; 297; 94; 90; 86; 422; 349;
    322; 0; 38; 370; 0; 118; 50; 338; 18; 114; 110; 430; 357; 38; 366; 0; 62; 342; 0; 270; 426; 34; 326; 0; 306; 0; 30; 286; 297; 94;
    90; 362; 317; 138; 134; 394; 333; 106; 118; 114; 14; 102; 98; 426; 353; 50; 338; 0; 62; 342; 0; 82; 350; 0; 418; 262; 402; 230; 418; 262;
    402; 230; 418; 262; 402; 230; 418; 262; 402; 230; 418; 262; 402; 230; 418; 262; 402; 230; 418; 262; 402; 230; 418; 262; 402; 230; 418; 262; 402; 230;
    418; 262; 402; 230; 418; 262; 402; 230; 418; 262; 402; 230; 418; 262; 402; 230; 418; 262; 402; 230; 418; 262; 402; 341; 78; 74; 302; 138; 134; 394;
    333; 38; 370; 0; 118; 130; 126; 386; 50; 334; 114; 110; 430; 357; 38; 366; 0; 270; 426; 34; 326; 0; 94; 90; 362; 317; 62; 342; 0; 270;
    426; 34; 326; 0; 306; 0; 82; 350; 0; 418; 262; 402; 230; 418; 262; 402; 230; 418; 262; 402; 230; 418; 262; 402; 230; 418; 262; 402; 230; 418;
    262; 402; 230; 418; 262; 402; 230; 418; 262; 402; 230; 418; 262; 402; 230; 418; 262; 402; 230; 418; 262; 402; 230; 418; 262; 402; 230; 418; 262; 402;
    230; 418; 262; 402; 230; 418; 262; 402; 341; 30; 286; 297; 94; 90; 362; 317; 78; 74; 302; 138; 134; 394; 333; 106; 118; 50; 334; 114; 14; 102;
    98; 426; 353; 329; 50; 334; 0; 38; 374; 0; 62; 342; 0; 138; 134; 394; 333; 390; 0; 62; 342; 0; 138; 134; 394; 333; 130; 126; 122; 438;
    365; 434; 361; 38; 370; 0; 6; 314; 0; 62; 342; 0; 82; 350; 0; 154; 262; 402; 230; 418; 262; 402; 230; 418; 262; 402; 230; 418; 262; 402] ++
   [230; 418; 262; 402; 230; 418; 262; 402; 230; 418; 262; 402; 230; 418; 262; 402; 230; 418; 262; 402; 230; 418; 262; 402; 230; 418; 262; 402; 230; 418;
    262; 402; 230; 418; 262; 402; 230; 418; 262; 402; 230; 418; 262; 402; 341; 78; 74; 302; 138; 134; 394; 333; 390; 0; 62; 342; 0; 82; 350; 0;
    154; 262; 402; 230; 418; 262; 402; 230; 418; 262; 402; 230; 418; 262; 402; 230; 418; 262; 402; 230; 418; 262; 402; 230; 418; 262; 402; 230; 418; 262;
    402; 230; 418; 262; 402; 230; 418; 262; 402; 230; 418; 262; 402; 230; 418; 262; 402; 230; 418; 262; 402; 230; 418; 262; 402; 230; 418; 262; 402; 341;
    78; 74; 302; 138; 134; 394; 333; 130; 126; 122; 438; 365; 62; 58; 318; 54; 294; 305; 118; 114; 26; 110; 430; 357; 38; 366; 0; 6; 314; 0;
    62; 58; 318; 54; 294; 305; 118; 114; 382; 50; 330; 0; 6; 314; 0; 62; 342; 0; 82; 78; 74; 302; 138; 134; 394; 333; 62; 58; 318; 54;
    294; 305; 106; 118; 114; 14; 102; 378; 321; 106; 102; 98; 426; 353; 118; 114; 382; 325; 358; 0; 38; 366; 0; 106; 118; 50; 334; 114; 14; 102;
    98; 426; 353; 50; 334; 0; 38; 366; 0; 118; 114; 382; 330; 0; 106; 118; 114; 14; 102; 378; 321; 106; 102; 98; 426; 353; 118; 114; 382; 325;
    306; 0; 38; 370; 0; 50; 334; 110; 430; 357; 38; 366; 0; 62; 342; 0; 138; 134; 394; 333; 106; 118; 50; 334; 114; 14; 102; 98; 426; 353;
    50; 334; 0; 38; 370; 0; 118; 114; 110; 430; 357; 38; 366; 0; 118; 114; 382; 50; 330; 0; 106; 118; 114; 14; 102; 378; 321; 106; 102; 98;
    426; 353; 118; 114; 382; 325; 30; 286; 297; 94; 90; 86; 422; 349; 313; 318; 0; 38; 366; 0; 106; 118; 114; 14; 102; 98; 426; 353; 62; 342;
    0; 38; 366; 0; 270; 426; 34; 326; 0; 94; 90; 362; 317; 106; 118; 114; 14; 102; 98; 426; 353; 138; 134; 394; 333; 50; 338; 0; 38; 370;
    0; 162; 298; 130; 126; 386; 334; 110; 430; 357; 366; 0; 270; 426; 34; 326; 0; 94; 90; 362; 317; 106; 118; 62; 58; 54; 298; 130; 126; 386;
    50; 334; 114; 14; 102; 98; 426; 353; 62; 58; 54; 298; 130; 126; 386; 329; 50; 334; 0; 38; 370; 0; 82; 350; 0; 154; 262; 402; 230; 418;
    262; 402; 230; 418; 262; 402; 230; 418; 262; 402; 230; 418; 262; 402; 230; 418; 262; 402; 230; 418; 262; 402; 230; 418; 262; 402; 230; 418; 262; 402;
    230; 418; 262; 402; 230; 418; 262; 402; 230; 418; 262; 402; 230; 418; 262; 402; 230; 418; 262; 402; 230; 418; 262; 402; 230; 418; 262; 402; 341; 390;
    0; 162; 298; 130; 126; 122; 438; 365; 118; 114; 26; 110; 430; 357; 38; 366; 0; 118; 130; 126; 18; 114; 382; 50; 330; 0; 106; 118; 130; 126;
    18; 114; 14; 102; 378; 321; 106; 102; 98; 426; 353; 62; 342; 0; 38; 370; 0; 82; 350; 0; 154; 262; 402; 230; 418; 262; 402; 230; 418; 262;
    402; 230; 418; 262; 402; 230; 418; 262; 402; 230; 418; 262; 402; 230; 418; 262; 402; 230; 418; 262; 402; 230; 418; 262; 402; 230; 418; 262; 402; 230;
    418; 262; 402; 230; 418; 262; 402; 230; 418; 262; 402; 230; 418; 262; 402; 230; 418; 262; 402; 230; 418; 262; 402; 341; 390; 0; 162; 298; 130; 126] ++
   [122; 438; 365; 118; 114; 26; 110; 430; 357; 38; 366; 0; 118; 138; 134; 394; 62; 58; 54; 298; 130; 126; 18; 114; 382; 330; 0; 106; 118; 138;
    134; 394; 62; 58; 54; 298; 130; 126; 18; 114; 14; 102; 378; 321; 106; 102; 98; 426; 353; 138; 134; 394; 333; 118; 114; 382; 325; 358; 0; 50;
    338; 0; 38; 366; 0; 62; 58; 54; 298; 130; 126; 386; 50; 334; 14; 98; 426; 353; 62; 58; 54; 298; 130; 126; 386; 329; 50; 334; 0; 38;
    366; 0; 106; 102; 98; 426; 353; 62; 342; 0; 38; 366; 0; 106; 102; 98; 426; 353; 138; 134; 394; 333; 118; 114; 382; 325; 306; 0; 50; 338;
    0; 38; 366; 0; 106; 62; 58; 54; 298; 130; 126; 386; 50; 334; 14; 102; 98; 426; 353; 62; 58; 54; 298; 130; 126; 386; 329; 50; 334; 0;
    38; 366; 0; 118; 114; 382; 330; 0; 106; 102; 378; 321; 106; 102; 98; 426; 353; 62; 342; 0; 38; 366; 0; 118; 138; 134; 394; 58; 54; 298;
    130; 126; 18; 114; 382; 330; 0; 106; 118; 138; 134; 394; 58; 54; 298; 130; 126; 18; 114; 14; 102; 378; 321; 106; 102; 98; 426; 353; 138; 134;
    394; 333; 118; 114; 382; 325; 30; 286; 297; 94; 90; 86; 422; 349; 322; 0; 38; 370; 0; 50; 338; 18; 110; 430; 357; 38; 366; 0; 270; 426;
    34; 326; 0; 306; 0; 30; 286; 297; 94; 90; 362; 317; 106; 118; 114; 14; 102; 98; 426; 353; 62; 342; 0; 82; 354; 0; 150; 146; 406; 345;
    82; 78; 74; 302; 138; 134; 394; 333; 50; 338; 0; 62; 342; 0; 82; 78; 74; 302; 138; 134; 394; 333; 38; 370; 0; 162; 298; 130; 126; 386;
    334; 110; 430; 357; 366; 0; 270; 426; 34; 326; 0; 306; 0; 30; 286; 297; 94; 90; 362; 317; 106; 118; 62; 58; 54; 298; 130; 126; 386; 50;
    334; 114; 14; 102; 98; 426; 353; 62; 58; 54; 298; 130; 126; 386; 329; 50; 334; 0; 38; 374; 0; 390; 0; 162; 298; 130; 126; 122; 438; 365;
    130; 126; 122; 434; 361; 38; 370; 0; 82; 350; 0; 154; 262; 402; 230; 418; 262; 402; 230; 418; 262; 402; 230; 418; 262; 402; 230; 418; 262; 402;
    230; 418; 262; 402; 230; 418; 262; 402; 230; 418; 262; 402; 230; 418; 262; 402; 230; 418; 262; 402; 230; 418; 262; 402; 230; 418; 262; 402; 230; 418;
    262; 402; 230; 418; 262; 402; 230; 418; 262; 402; 230; 418; 262; 402; 341; 390; 0; 162; 298; 130; 126; 122; 438; 365; 118; 114; 26; 110; 430; 357;
    38; 366; 0; 270; 426; 34; 326; 0; 94; 90; 362; 317; 118; 130; 126; 18; 114; 382; 50; 330; 0; 270; 426; 34; 326; 0; 94; 90; 362; 317;
    390; 0; 162; 298; 130; 126; 122; 438; 365; 106; 118; 130; 126; 250; 18; 114; 14; 102; 378; 321; 106; 102; 98; 426; 353; 62; 342; 0; 38; 366;
    0; 118; 138; 134; 394; 58; 54; 298; 130; 126; 18; 114; 382; 330; 0; 106; 118; 138; 134; 394; 58; 54; 298; 130; 126; 18; 114; 14; 102; 378;
    321; 106; 102; 98; 426; 353; 82; 354; 0; 38; 366; 0; 118; 150; 146; 406; 82; 78; 74; 302; 138; 134; 394; 58; 54; 298; 130; 126; 18; 114;
    382; 330; 0; 106; 118; 150; 146; 406; 82; 78; 74; 302; 138; 134; 394; 58; 54; 298; 130; 126; 18; 114; 14; 102; 378; 321; 106; 102; 98; 426] ++
   [353; 150; 146; 406; 345; 82; 78; 74; 302; 138; 134; 394; 333; 118; 114; 382; 325; 358; 0; 62; 342; 0; 82; 78; 74; 302; 138; 134; 394; 333;
    50; 338; 0; 38; 366; 0; 106; 62; 58; 54; 298; 130; 126; 386; 50; 334; 14; 102; 98; 426; 353; 62; 58; 54; 298; 130; 126; 386; 329; 50;
    334; 0; 38; 366; 0; 118; 114; 382; 330; 0; 106; 118; 114; 14; 102; 378; 321; 106; 102; 98; 426; 353; 62; 342; 0; 82; 78; 74; 302; 138;
    134; 394; 333; 118; 114; 382; 325; 306; 0; 38; 366; 0; 106; 102; 98; 426; 353; 62; 342; 0; 82; 78; 74; 302; 138; 134; 394; 333; 50; 338;
    0; 38; 366; 0; 106; 62; 58; 54; 298; 130; 126; 386; 50; 334; 14; 102; 98; 426; 353; 62; 58; 54; 298; 130; 126; 386; 329; 50; 334; 0;
    38; 366; 0; 118; 114; 382; 50; 330; 0; 106; 118; 114; 14; 102; 378; 321; 106; 102; 98; 426; 353; 62; 342; 0; 82; 354; 0; 150; 146; 406;
    345; 82; 78; 74; 302; 138; 134; 394; 333; 118; 114; 382; 325; 30; 286; 297; 94; 90; 86; 422; 349; 313; 62; 58; 54; 298; 309; 310; 0; 38;
    374; 0; 82; 350; 0; 154; 262; 402; 230; 418; 262; 402; 230; 418; 262; 402; 230; 418; 262; 402; 230; 418; 262; 402; 230; 418; 262; 402; 230; 418;
    262; 402; 230; 418; 262; 402; 230; 418; 262; 402; 230; 418; 262; 402; 230; 418; 262; 402; 230; 418; 262; 402; 230; 418; 262; 402; 230; 418; 262; 402;
    230; 418; 262; 402; 230; 418; 262; 402; 341; 50; 334; 0; 118; 114; 382; 325; 390; 0; 130; 126; 122; 438; 50; 334; 0; 118; 114; 382; 325; 130;
    126; 122; 438; 365; 434; 361; 38; 370; 0; 6; 314; 0; 50; 334; 0; 82; 350; 0; 154; 262; 402; 230; 418; 262; 402; 230; 418; 262; 402; 230;
    418; 262; 402; 230; 418; 262; 402; 230; 418; 262; 402; 230; 418; 262; 402; 230; 418; 262; 402; 230; 418; 262; 402; 230; 418; 262; 402; 230; 418; 262;
    402; 230; 418; 262; 402; 230; 418; 262; 402; 230; 418; 262; 402; 230; 418; 262; 402; 230; 418; 262; 402; 341; 62; 58; 318; 54; 294; 118; 114; 382;
    325; 62; 58; 318; 54; 294; 305; 118; 114; 110; 430; 357; 38; 366; 0; 270; 426; 34; 326; 0; 50; 46; 42; 290; 306; 0; 30; 286; 297; 50;
    46; 42; 290; 94; 90; 362; 317; 106; 118; 114; 14; 102; 98; 426; 353; 358; 0; 50; 46; 42; 290; 306; 0; 30; 286; 297; 50; 46; 42; 290;
    94; 90; 86; 422; 349; 322; 0; 50; 334; 0; 38; 374; 250; 382; 325; 38; 374; 0; 82; 350; 0; 154; 262; 402; 230; 418; 262; 402; 230; 418;
    262; 402; 230; 418; 262; 402; 230; 418; 262; 402; 230; 418; 262; 402; 230; 418; 262; 402; 230; 418; 262; 402; 230; 418; 262; 402; 230; 418; 262; 402;
    230; 418; 262; 402; 230; 418; 262; 402; 230; 418; 262; 402; 230; 418; 262; 402; 230; 418; 262; 402; 230; 418; 262; 402; 341; 62; 342; 0; 82; 354;
    0; 150; 146; 406; 345; 82; 350; 0; 418; 262; 402; 230; 418; 262; 402; 230; 418; 262; 402; 230; 418; 262; 402; 230; 418; 262; 402; 230; 418; 262;
    402; 230; 418; 262; 402; 230; 418; 262; 402; 230; 418; 262; 402; 230; 418; 262; 402; 230; 418; 262; 402; 230; 418; 262; 402; 230; 418; 262; 402; 230] ++
   [418; 262; 402; 230; 418; 262; 402; 341; 78; 74; 302; 138; 134; 394; 333; 50; 334; 0; 6; 314; 0; 62; 58; 318; 54; 294; 305; 118; 114; 382;
    325; 390; 0; 62; 342; 0; 138; 134; 394; 333; 130; 126; 122; 438; 50; 334; 0; 118; 114; 382; 325; 130; 126; 122; 438; 365; 434; 361; 38; 370;
    0; 62; 342; 0; 138; 134; 394; 333; 6; 314; 0; 50; 334; 0; 82; 350; 0; 154; 262; 402; 230; 418; 262; 402; 230; 418; 262; 402; 230; 418;
    262; 402; 230; 418; 262; 402; 230; 418; 262; 402; 230; 418; 262; 402; 230; 418; 262; 402; 230; 418; 262; 402; 230; 418; 262; 402; 230; 418; 262; 402;
    230; 418; 262; 402; 230; 418; 262; 402; 230; 418; 262; 402; 230; 418; 262; 402; 230; 418; 262; 402; 341; 318; 294; 118; 114; 382; 325; 62; 342; 0;
    82; 354; 0; 150; 146; 406; 345; 82; 350; 0; 154; 262; 402; 230; 418; 262; 402; 230; 418; 262; 402; 230; 418; 262; 402; 230; 418; 262; 402; 230;
    418; 262; 402; 230; 418; 262; 402; 230; 418; 262; 402; 230; 418; 262; 402; 230; 418; 262; 402; 230; 418; 262; 402; 230; 418; 262; 402; 230; 418; 262;
    402; 230; 418; 262; 402; 230; 418; 262; 402; 341; 78; 74; 302; 138; 134; 394; 333; 62; 58; 318; 54; 294; 305; 118; 114; 110; 430; 357; 38; 366;
    0; 270; 426; 34; 326; 0; 50; 46; 42; 290; 94; 90; 362; 317; 62; 342; 0; 270; 426; 34; 326; 0; 50; 46; 42; 290; 306; 0; 82; 350;
    0; 418; 262; 402; 230; 418; 262; 402; 230; 418; 262; 402; 230; 418; 262; 402; 230; 418; 262; 402; 230; 418; 262; 402; 230; 418; 262; 402; 230; 418;
    262; 402; 230; 418; 262; 402; 230; 418; 262; 402; 230; 418; 262; 402; 230; 418; 262; 402; 230; 418; 262; 402; 230; 418; 262; 402; 230; 418; 262; 402;
    341; 30; 286; 297; 50; 46; 42; 290; 94; 90; 362; 317; 78; 74; 302; 138; 134; 394; 333; 106; 118; 114; 14; 102; 98; 426; 353; 358; 0; 50;
    46; 42; 290; 306; 0; 38; 366; 0; 106; 118; 114; 14; 102; 98; 426; 353; 30; 286; 297; 50; 46; 42; 290; 94; 90; 86; 422; 349; 313; 318;
    0; 38; 374; 0; 82; 350; 0; 154; 262; 402; 230; 418; 262; 402; 230; 418; 262; 402; 230; 418; 262; 402; 230; 418; 262; 402; 230; 418; 262; 402;
    230; 418; 262; 402; 230; 418; 262; 402; 230; 418; 262; 402; 230; 418; 262; 402; 230; 418; 262; 402; 230; 418; 262; 402; 230; 418; 262; 402; 230; 418;
    262; 402; 230; 418; 262; 402; 230; 418; 262; 402; 341; 50; 334; 0; 118; 114; 382; 325; 390; 0; 162; 298; 130; 126; 122; 438; 365; 130; 126; 122;
    434; 361; 38; 370; 0; 50; 334; 0; 82; 350; 0; 154; 262; 402; 230; 418; 262; 402; 230; 418; 262; 402; 230; 418; 262; 402; 230; 418; 262; 402;
    230; 418; 262; 402; 230; 418; 262; 402; 230; 418; 262; 402; 230; 418; 262; 402; 230; 418; 262; 402; 230; 418; 262; 402; 230; 418; 262; 402; 230; 418;
    262; 402; 230; 418; 262; 402; 230; 418; 262; 402; 230; 418; 262; 402; 341; 118; 130; 126; 18; 114; 382; 325; 118; 114; 110; 430; 357; 38; 366; 0;
    270; 426; 34; 326; 0; 94; 90; 362; 317; 50; 338; 0; 270; 426; 34; 326; 0; 62; 58; 54; 298; 130; 126; 386; 50; 46; 42; 290; 94; 90] ++
   [362; 317; 329; 106; 118; 114; 14; 102; 98; 426; 353; 62; 342; 0; 38; 374; 0; 82; 350; 0; 154; 262; 402; 230; 418; 262; 402; 230; 418; 262;
    402; 230; 418; 262; 402; 230; 418; 262; 402; 230; 418; 262; 402; 230; 418; 262; 402; 230; 418; 262; 402; 230; 418; 262; 402; 230; 418; 262; 402; 230;
    418; 262; 402; 230; 418; 262; 402; 230; 418; 262; 402; 230; 418; 262; 402; 230; 418; 262; 402; 230; 418; 262; 402; 341; 50; 334; 0; 118; 138; 134;
    394; 62; 58; 54; 298; 130; 126; 18; 114; 382; 325; 390; 0; 162; 298; 130; 126; 122; 438; 365; 138; 134; 394; 62; 58; 54; 298; 130; 126; 122;
    434; 361; 38; 370; 0; 50; 334; 0; 118; 138; 134; 394; 62; 58; 54; 298; 130; 126; 18; 114; 382; 325; 118; 114; 110; 430; 357; 38; 366; 0;
    270; 426; 34; 326; 0; 94; 90; 362; 317; 50; 338; 0; 70; 66; 346; 0; 138; 134; 398; 337; 138; 134; 394; 62; 58; 54; 298; 130; 126; 386;
    329; 50; 334; 0; 270; 426; 34; 326; 0; 162; 298; 130; 126; 18; 382; 46; 42; 290; 94; 90; 362; 317; 325; 106; 118; 114; 14; 102; 98; 426;
    353; 138; 134; 394; 333; 358; 0; 50; 46; 42; 290; 306; 0; 62; 342; 0; 138; 134; 394; 333; 30; 286; 297; 50; 46; 42; 290; 94; 90; 86;
    422; 349; 322; 0; 38; 374; 0; 82; 350; 0; 154; 262; 402; 230; 418; 262; 402; 230; 418; 262; 402; 230; 418; 262; 402; 230; 418; 262; 402; 230;
    418; 262; 402; 230; 418; 262; 402; 230; 418; 262; 402; 230; 418; 262; 402; 230; 418; 262; 402; 230; 418; 262; 402; 230; 418; 262; 402; 230; 418; 262;
    402; 230; 418; 262; 402; 230; 418; 262; 402; 230; 418; 262; 402; 341; 50; 334; 0; 118; 130; 126; 18; 114; 382; 325; 390; 0; 162; 298; 130; 126;
    122; 438; 365; 130; 126; 122; 434; 361; 38; 370; 0; 50; 338; 0; 162; 298; 130; 126; 386; 329; 334; 0; 82; 350; 0; 154; 262; 402; 230; 418;
    262; 402; 230; 418; 262; 402; 230; 418; 262; 402; 230; 418; 262; 402; 230; 418; 262; 402; 230; 418; 262; 402; 230; 418; 262; 402; 230; 418; 262; 402;
    230; 418; 262; 402; 230; 418; 262; 402; 230; 418; 262; 402; 230; 418; 262; 402; 230; 418; 262; 402; 230; 418; 262; 402; 230; 418; 262; 402; 341; 118;
    130; 126; 18; 114; 382; 325; 118; 18; 114; 110; 430; 357; 38; 366; 0; 270; 426; 34; 326; 0; 50; 46; 42; 290; 306; 0; 30; 286; 297; 94;
    90; 362; 317; 50; 338; 0; 270; 426; 34; 326; 0; 62; 58; 54; 298; 130; 126; 386; 50; 46; 42; 290; 94; 90; 362; 317; 329; 106; 118; 114;
    14; 102; 98; 426; 353; 62; 342; 0; 38; 370; 0; 118; 114; 110; 430; 357; 38; 366; 0; 50; 338; 0; 138; 134; 394; 62; 58; 54; 298; 130;
    126; 386; 329; 50; 334; 0; 118; 138; 134; 394; 62; 58; 54; 298; 130; 126; 18; 114; 382; 325; 106; 118; 114; 14; 102; 98; 426; 353; 82; 354;
    0; 38; 370; 0; 118; 114; 110; 430; 357; 38; 366; 0; 50; 338; 0; 150; 146; 406; 82; 78; 74; 302; 138; 134; 394; 58; 54; 298; 130; 126;
    386; 329; 50; 334; 0; 118; 150; 146; 406; 82; 78; 74; 302; 138; 134; 394; 62; 58; 54; 298; 130; 126; 18; 114; 382; 325; 106; 118; 114; 14] ++
   [102; 98; 426; 353; 150; 146; 406; 345; 82; 78; 74; 302; 138; 134; 394; 333; 358; 0; 50; 46; 42; 290; 306; 0; 38; 366; 0; 106; 102; 98;
    426; 353; 62; 342; 0; 82; 78; 74; 302; 138; 134; 394; 333; 30; 286; 297; 50; 46; 42; 290; 94; 90; 86; 422; 349; 313; 62; 58; 54; 298;
    309; 50; 46; 42; 290; 301; 230; 10; 418; 0; 38; 366; 0; 106; 118; 50; 334; 114; 14; 102; 98; 426; 353; 50; 334; 0; 38; 366; 0; 118;
    114; 382; 50; 330; 0; 106; 118; 114; 14; 102; 378; 321; 106; 102; 98; 426; 353; 118; 114; 382; 325; 358; 0; 50; 334; 0; 118; 114; 382; 325;
    306; 0; 50; 334; 0; 118; 114; 382; 325; 30; 286; 297; 94; 90; 86; 422; 349; 318; 0; 62; 342; 0; 138; 134; 394; 333; 50; 338; 0; 38;
    366; 0; 106; 62; 58; 54; 298; 130; 126; 386; 50; 334; 14; 102; 98; 426; 353; 62; 58; 54; 298; 130; 126; 386; 329; 50; 334; 0; 38; 366;
    0; 118; 114; 382; 330; 0; 106; 118; 114; 14; 102; 378; 321; 106; 102; 98; 426; 353; 62; 342; 0; 38; 366; 0; 106; 102; 98; 426; 353; 138;
    134; 394; 333; 118; 114; 382; 325; 358; 0; 50; 334; 0; 118; 114; 382; 325; 306; 0; 50; 334; 0; 62; 342; 0; 138; 134; 394; 333; 118; 114;
    382; 325; 30; 286; 297; 94; 90; 86; 422; 349; 62; 58; 54; 298; 309; 310; 0; 38; 374; 0; 390; 0; 130; 126; 122; 438; 365; 434; 361; 38;
    370; 0; 314; 0; 318; 294; 305; 118; 114; 110; 430; 357; 38; 366; 0; 62; 342; 0; 270; 426; 34; 326; 0; 50; 46; 42; 290; 94; 90; 362;
    317; 138; 134; 394; 333; 50; 334; 0; 6; 314; 0; 62; 342; 0; 138; 134; 394; 333; 62; 58; 318; 54; 294; 305; 118; 114; 382; 325; 106; 118;
    114; 14; 102; 98; 426; 353; 358; 0; 50; 46; 42; 290; 94; 90; 86; 422; 349; 318; 0; 38; 370; 0; 118; 114; 110; 430; 357; 38; 366; 0;
    50; 338; 0; 130; 126; 386; 329; 50; 334; 0; 270; 426; 34; 326; 0; 162; 298; 130; 126; 18; 382; 46; 42; 290; 94; 90; 362; 317; 325; 106;
    118; 114; 14; 102; 98; 426; 353; 62; 342; 0; 38; 370; 0; 118; 114; 110; 430; 357; 38; 366; 0; 50; 334; 0; 118; 138; 134; 394; 62; 58;
    54; 298; 130; 126; 18; 114; 382; 325; 106; 118; 114; 14; 102; 98; 426; 353; 138; 134; 394; 333; 358; 0; 50; 46; 42; 290; 94; 90; 86; 422;
    349; 62; 58; 54; 298; 309; 50; 46; 42; 290; 301; 410; 0; 38; 366; 0; 106; 118; 50; 334; 114; 14; 102; 98; 426; 353; 50; 334; 0; 38;
    366; 0; 118; 114; 382; 50; 330; 0; 106; 118; 114; 14; 102; 378; 321; 106; 102; 98; 426; 353; 118; 114; 382; 325; 358; 0; 50; 334; 0; 118;
    114; 382; 325; 306; 0; 50; 334; 0; 118; 114; 382; 325; 30; 286; 297; 94; 90; 86; 422; 349; 322; 0; 38; 366; 0; 62; 342; 0; 150; 146;
    142; 442; 82; 78; 74; 302; 138; 134; 394; 333; 106; 118; 114; 14; 102; 98; 426; 353; 50; 338; 0; 38; 370; 0; 130; 126; 386; 50; 334; 110;
    430; 357; 38; 366; 0; 62; 342; 0; 150; 146; 142; 442; 82; 78; 74; 302; 138; 134; 394; 333; 106; 118; 50; 334; 114; 14; 102; 98; 426; 353] ++
   [329; 50; 334; 0; 38; 370; 0; 314; 0; 390; 0; 130; 126; 122; 438; 365; 62; 58; 318; 54; 294; 305; 118; 114; 26; 110; 430; 357; 38; 366;
    0; 6; 314; 0; 318; 294; 305; 118; 114; 382; 50; 330; 0; 6; 314; 0; 318; 294; 305; 106; 118; 114; 14; 102; 378; 321; 106; 102; 98; 426;
    353; 118; 114; 382; 325; 358; 0; 38; 366; 0; 50; 334; 14; 98; 426; 353; 50; 334; 0; 38; 366; 0; 106; 102; 98; 426; 353; 118; 114; 382;
    325; 306; 0; 38; 366; 0; 106; 50; 334; 14; 102; 98; 426; 353; 50; 334; 0; 38; 366; 0; 118; 114; 382; 330; 0; 106; 118; 114; 14; 102;
    378; 321; 106; 102; 98; 426; 353; 118; 114; 382; 325; 30; 286; 297; 94; 90; 86; 422; 349; 313; 318; 0; 62; 342; 0; 38; 366; 0; 106; 102;
    98; 426; 353; 138; 134; 394; 333; 50; 338; 0; 38; 366; 0; 106; 62; 58; 54; 298; 130; 126; 386; 50; 334; 14; 102; 98; 426; 353; 62; 58;
    54; 298; 130; 126; 386; 329; 50; 334; 0; 38; 366; 0; 118; 114; 382; 330; 0; 106; 118; 114; 14; 102; 378; 321; 106; 102; 98; 426; 353; 62;
    342; 0; 38; 366; 0; 118; 138; 134; 394; 62; 58; 54; 298; 130; 126; 18; 114; 382; 330; 0; 106; 118; 138; 134; 394; 58; 54; 298; 130; 126;
    18; 114; 14; 102; 378; 321; 106; 102; 98; 426; 353; 138; 134; 394; 333; 118; 114; 382; 325; 358; 0; 50; 334; 0; 118; 114; 382; 325; 306; 0;
    50; 334; 0; 62; 342; 0; 138; 134; 394; 333; 118; 114; 382; 325; 30; 286; 297; 94; 90; 86; 422; 349; 322; 0; 38; 366; 0; 106; 118; 114;
    14; 102; 98; 426; 353; 62; 342; 0; 150; 146; 142; 442; 82; 78; 74; 302; 138; 134; 394; 333; 50; 338; 0; 38; 370; 0; 162; 298; 130; 126;
    386; 334; 110; 430; 357; 366; 0; 106; 118; 62; 58; 54; 298; 130; 126; 386; 50; 334; 114; 14; 102; 98; 426; 353; 62; 58; 54; 298; 130; 126;
    386; 329; 50; 334; 0; 38; 370; 0; 118; 114; 110; 430; 357; 38; 366; 0; 118; 114; 382; 50; 330; 0; 106; 118; 114; 14; 102; 378; 321; 106;
    102; 98; 426; 353; 62; 342; 0; 150; 146; 142; 442; 82; 78; 74; 302; 138; 134; 394; 333; 118; 114; 382; 325; 358; 0; 50; 338; 0; 62; 58;
    54; 298; 130; 126; 386; 329; 50; 334; 0; 62; 342; 0; 150; 146; 142; 442; 82; 78; 74; 302; 138; 134; 394; 333; 118; 114; 382; 325; 306; 0;
    50; 338; 0; 38; 366; 0; 62; 58; 54; 298; 130; 126; 386; 50; 334; 14; 98; 426; 353; 62; 58; 54; 298; 130; 126; 386; 329; 50; 334; 0;
    38; 366; 0; 106; 102; 98; 426; 353; 62; 342; 0; 150; 146; 142; 442; 82; 78; 74; 302; 138; 134; 394; 333; 118; 114; 382; 325; 30; 286; 297;
    94; 90; 86; 422; 349; 313; 62; 58; 54; 298; 309; 310; 0; 38; 374; 0; 390; 0; 130; 126; 122; 438; 365; 434; 361; 38; 370; 0; 314; 0;
    318; 294; 305; 118; 114; 110; 430; 357; 38; 366; 0; 270; 426; 34; 326; 0; 50; 46; 42; 290; 94; 90; 362; 317; 106; 118; 114; 14; 102; 98;
    426; 353; 358; 0; 50; 46; 42; 290; 94; 90; 86; 422; 349; 322; 0; 38; 374; 0; 62; 342; 0; 150; 146; 142; 442; 82; 78; 74; 302; 138] ++
   [134; 394; 333; 50; 334; 0; 118; 114; 382; 325; 390; 0; 130; 126; 122; 438; 50; 334; 0; 118; 114; 382; 325; 130; 126; 122; 438; 365; 434; 361;
    38; 370; 0; 6; 314; 0; 62; 342; 0; 150; 146; 142; 442; 82; 78; 74; 302; 138; 134; 394; 333; 62; 58; 318; 54; 294; 305; 118; 114; 110;
    430; 357; 38; 366; 0; 270; 426; 34; 326; 0; 50; 46; 42; 290; 94; 90; 362; 317; 62; 342; 0; 270; 426; 34; 326; 0; 50; 46; 42; 290;
    94; 90; 362; 317; 150; 146; 142; 442; 82; 78; 74; 302; 138; 134; 394; 333; 106; 118; 114; 14; 102; 98; 426; 353; 358; 0; 50; 46; 42; 290;
    306; 0; 30; 286; 297; 50; 46; 42; 290; 94; 90; 86; 422; 349; 313; 318; 0; 38; 370; 0; 118; 114; 110; 430; 357; 38; 366; 0; 50; 338;
    0; 130; 126; 386; 329; 50; 334; 0; 270; 426; 34; 326; 0; 162; 298; 130; 126; 18; 382; 46; 42; 290; 94; 90; 362; 317; 325; 106; 118; 114;
    14; 102; 98; 426; 353; 62; 342; 0; 38; 370; 0; 118; 114; 110; 430; 357; 38; 366; 0; 270; 426; 34; 326; 0; 94; 90; 362; 317; 50; 338;
    0; 138; 134; 394; 62; 58; 54; 298; 130; 126; 386; 329; 50; 334; 0; 118; 138; 134; 394; 62; 58; 54; 298; 130; 126; 18; 114; 382; 325; 106;
    118; 114; 14; 102; 98; 426; 353; 138; 134; 394; 333; 358; 0; 50; 46; 42; 290; 94; 90; 86; 422; 349; 322; 0; 38; 374; 0; 50; 334; 0;
    118; 114; 382; 325; 390; 0; 162; 298; 130; 126; 122; 438; 365; 130; 126; 122; 434; 361; 38; 370; 0; 50; 334; 0; 118; 130; 126; 18; 114; 382;
    325; 118; 114; 110; 430; 357; 38; 366; 0; 270; 426; 34; 326; 0; 94; 90; 362; 317; 50; 338; 0; 270; 426; 34; 326; 0; 62; 58; 54; 298;
    130; 126; 386; 50; 46; 42; 290; 94; 90; 362; 317; 329; 106; 118; 114; 14; 102; 98; 426; 353; 62; 342; 0; 38; 366; 0; 106; 118; 114; 14;
    102; 98; 426; 353; 150; 146; 142; 442; 82; 78; 74; 302; 138; 134; 394; 333; 358; 0; 50; 46; 42; 290; 306; 0; 30; 286; 297; 50; 46; 42;
    290; 94; 90; 86; 422; 349; 313; 62; 58; 54; 298; 309; 50; 46; 42; 290; 301; 150; 146; 142; 442; 369; 150; 146; 142; 450; 10; 414; 0; 282;
    446; 373; 241; 150; 146; 22; 259; 223; 195; 273; 247; 215; 187; 89; 239; 207; 179; 261; 226; 198; 170; 0; 166; 253; 249])%Z) 128%Z.

Definition line3_11 : scenario := MkScenario (592, 79, 3054)%N (111 # 2)
  ([0; 5; 1; 0; 1; 1; 1; 4; 0; 0; 1; 0; 1; 0; 1; 4; 1; 3; 1; 0; 1; 0; 0; 0; 0; 0; 0; 0; 1; 1;
    1; 0; 1; 1; 1; 1; 1; 1; 0; 0; 0; 0; 0; 1; 1; 1; 1; 1; 1; 1; 1; 0; 0; 0; 1; 1; 1; 1; 1; 1;
    0; 1; 1; 1; 1; 0; 0; 5; 1; 0; 1; 4; 0; 0; 1; 9; 1; 0; 1; 4; 1; 3; 1; 0; 1; 0; 0; 0; 0; 0;
    0; 1; 1; 0; 1; 1; 1; 1; 1; 1; 1; 1; 1; 1; 1; 1; 0; 0; 0; 1; 1; 1; 1; 1; 1; 0; 1; 1; 1; 1;
    0; 0; 0; 1; 3; 1; 2; 1; 0; 1; 0; 1; 1; 1; 6; 1; 2; 1; 0; 1; 1; 1; 1; 1; 1; 1; 1; 1; 1; 1;
    1; 1; 1; 1; 1; 1; 1; 1; 1; 1; 1; 0; 0; 0; 0; 0; 1; 1; 1; 1; 0; 0; 0; 1; 1; 1; 0; 5; 1; 12;
    1; 1; 0; 2; 1; 10; 1; 4; 1; 4; 1; 3; 1; 0; 1; 0; 0; 0; 0; 0; 0; 1; 1; 0; 1; 1; 1; 1; 1; 1;
    1; 1; 1; 1; 1; 1; 0; 0; 0; 1; 1; 1; 1; 1; 1; 0; 1; 1; 1; 1; 0; 0; 0; 1; 2; 1; 0; 1; 1; 1;
    6; 1; 1; 1; 0; 1; 1; 1; 1; 1; 1; 1; 1; 1; 1; 1; 1; 1; 1; 1; 1; 0; 0; 0; 1; 1; 1; 0; 5; 1;
    12; 1; 0; 0; 2; 1; 9; 1; 4; 1; 2; 1; 3; 1; 0; 1; 0; 0; 0; 0; 0; 0; 1; 1; 0; 1; 1; 1; 1; 1;
    1; 1; 1; 1; 1; 1; 1; 0; 0; 0; 1; 1; 1; 1; 1; 1; 0; 1; 1; 1; 1; 0; 0; 0; 1; 2; 1; 0; 1; 1;
    1; 7; 1; 1; 1; 0; 1; 1; 1; 1; 1; 1; 1; 1; 1; 1; 1; 1; 1; 1; 1; 1; 0; 0; 0; 1; 1; 1; 0; 0;
    1; 2; 1; 0; 1; 1; 1; 0; 1; 2; 1; 0; 1; 1; 1; 1; 1; 1; 1; 1; 1; 1; 1; 1; 1; 1; 1; 1; 0; 0;
    0; 1; 1; 1; 5; 1; 2; 0; 1; 1; 1; 1; 1; 1; 1; 1; 1; 1; 1; 1; 1; 1; 1; 1; 1; 1; 1; 1; 1; 1;
    1; 1; 1; 1; 0; 1; 1; 1; 1; 1; 1; 0; 1; 0; 1; 0; 1; 0; 1; 1; 1; 1; 0; 0; 0; 0; 0; 0; 0; 0;
    0; 0; 0; 0; 1; 0; 1; 0; 1; 0; 1; 1; 1; 1; 0; 0; 0; 0; 0; 0; 0; 0; 0; 1; 1; 0; 1; 0; 1; 0;
    1; 0; 0; 0; 1; 1; 0; 1; 0; 1; 0; 0; 0; 0; 0; 1; 1; 0; 0; 0; 0; 0; 0; 0; 0; 0; 1; 1; 0; 0;
    1; 1; 1; 1; 1; 1; 0; 0; 0; 0; 1; 0; 0; 0; 0; 0; 0; 0; 1; 1; 1; 1; 0; 0; 1; 1; 1; 1; 1; 1;
    0; 0; 0; 0; 1; 0; 0; 0; 0; 0; 0; 0; 1; 1; 1; 1; 0; 0; 0; 0; 1; 0; 0; 1; 0; 0; 0; 0; 1; 0;
    1; 1; 0; 0; 0; 0; 0; 0; 0; 0; 0; 0; 0; 0; 0; 0; 0; 0; 0; 0; 1; 1; 1; 1; 1; 1; 0; 0; 0; 0] ++
   [0; 0; 0; 0; 0; 0; 0; 0; 1; 0; 1; 1; 0; 0; 1; 1; 1; 1; 1; 1; 0; 0; 0; 0; 1; 0; 0; 0; 0; 0;
    0; 0; 1; 0; 1; 1; 0; 0; 0; 0; 1; 0; 0; 0; 0; 0; 0; 0; 1; 0; 0; 1; 0; 0; 0; 0; 0; 0; 0; 0;
    0; 0; 0; 0; 0; 0; 0; 0; 0; 0; 0])%Z
  (MkCert 80%positive
   ([1; 2; 3; 4; 5; 6; 7; 8; 9; 10; 11; 12; 13; 14; 15; 16; 17; 18; 19; 20; 21])%positive
   ([(14%nat, false, [22; 23; 24]%positive); (1%nat, false, [23; 22; 24]%positive); (3%nat, false, [23; 25; 26]%positive); (38%nat, false, [27; 25; 28]%positive); (12%nat, false, [29; 27; 30]%positive); (1%nat, false, [27; 29; 30]%positive); (78%nat, false, [14; 13; 31]%positive); (1%nat, false, [13; 14; 31]%positive); (16%nat, false, [17; 15; 32]%positive); (14%nat, false, [19; 17; 33]%positive); (9%nat, false, [18; 21; 34]%positive); (1%nat, false, [20; 19; 35]%positive); (32%nat, false, [36; 37; 38]%positive); (28%nat, false, [39; 40; 41]%positive); (60%nat, false, [42; 43; 44]%positive); (11%nat, false, [7; 3; 45]%positive); (17%nat, false, [43; 8; 46]%positive); (11%nat, false, [47; 8; 48]%positive); (1%nat, false, [8; 47; 48]%positive); (5%nat, false, [11; 10; 49]%positive); (1%nat, false, [10; 11; 49]%positive); (14%nat, false, [50; 51; 52]%positive); (9%nat, false, [53; 50; 54]%positive); (47%nat, false, [55; 56; 57]%positive); (9%nat, false, [58; 23]%positive); (1%nat, false, [59; 58]%positive); (1%nat, false, [42; 59]%positive); (1%nat, false, [2; 42]%positive); (3%nat, false, [3; 37]%positive); (1%nat, false, [4; 22]%positive);
    (1%nat, false, [60; 61]%positive); (1%nat, false, [62; 60]%positive); (1%nat, false, [5; 62]%positive); (1%nat, false, [63; 25]%positive); (1%nat, false, [64; 63]%positive); (1%nat, false, [43; 64]%positive); (1%nat, false, [6; 43]%positive); (3%nat, false, [7; 36]%positive); (1%nat, false, [65; 27]%positive); (1%nat, false, [40; 65]%positive); (1%nat, false, [8; 40]%positive); (1%nat, false, [66; 29]%positive); (1%nat, false, [39; 66]%positive); (1%nat, false, [47; 39]%positive); (1%nat, false, [9; 47]%positive); (13%nat, false, [51; 67]%positive); (1%nat, false, [68; 51]%positive); (1%nat, false, [15; 68]%positive); (2%nat, false, [69; 50]%positive); (1%nat, false, [17; 69]%positive); (1%nat, false, [70; 71]%positive); (1%nat, false, [72; 70]%positive); (1%nat, false, [18; 72]%positive); (1%nat, false, [53; 56]%positive); (1%nat, false, [73; 53]%positive); (1%nat, false, [19; 73]%positive); (1%nat, false, [74; 55]%positive); (1%nat, false, [75; 74]%positive); (1%nat, false, [20; 75]%positive); (1%nat, false, [76; 77]%positive);
    (1%nat, false, [78; 76]%positive); (1%nat, false, [21; 78]%positive); (394%nat, false, [79; 80]%positive); (18%nat, false, [25; 26]%positive); (1%nat, false, [23; 26]%positive); (30%nat, true, [81; 26]%positive); (20%nat, false, [82; 80]%positive); (27%nat, true, [83; 28]%positive); (20%nat, false, [84; 30]%positive); (0%nat, true, [84; 30]%positive); (11%nat, false, [85; 86]%positive); (0%nat, true, [85; 86]%positive); (29%nat, false, [32; 87]%positive); (0%nat, true, [32; 87]%positive); (5%nat, false, [88; 89]%positive); (0%nat, true, [88; 89]%positive); (10%nat, false, [33; 90]%positive); (0%nat, true, [33; 90]%positive); (13%nat, true, [34; 91]%positive); (3%nat, false, [35; 92]%positive); (0%nat, true, [35; 92]%positive); (34%nat, true, [93; 81]%positive); (20%nat, false, [38; 82]%positive); (27%nat, true, [94; 83]%positive); (20%nat, false, [41; 84]%positive); (0%nat, true, [41; 84]%positive); (11%nat, false, [95; 85]%positive); (0%nat, true, [95; 85]%positive); (29%nat, false, [87; 52]%positive); (0%nat, true, [87; 52]%positive);
    (5%nat, false, [89; 96]%positive); (0%nat, true, [89; 96]%positive); (10%nat, false, [90; 54]%positive); (0%nat, true, [90; 54]%positive); (13%nat, true, [91; 97]%positive); (3%nat, false, [92; 98]%positive); (0%nat, true, [92; 98]%positive); (34%nat, true, [44; 93]%positive); (20%nat, false, [45; 38]%positive); (2%nat, false, [36; 3; 45]%positive); (25%nat, true, [46; 94]%positive); (20%nat, false, [48; 41]%positive); (0%nat, true, [48; 41]%positive); (11%nat, false, [49; 95]%positive); (0%nat, true, [49; 95]%positive); (29%nat, false, [52; 99]%positive); (2%nat, false, [100; 51; 52]%positive); (3%nat, false, [96; 101]%positive); (2%nat, false, [56; 51; 96]%positive); (8%nat, false, [54; 102]%positive); (0%nat, true, [54; 102]%positive); (2%nat, false, [56; 50; 54]%positive); (11%nat, true, [97; 103]%positive); (3%nat, false, [98; 57]%positive); (0%nat, true, [98; 57]%positive); (31%nat, false, [100; 99]%positive); (3%nat, false, [56; 101]%positive); (6%nat, false, [56; 102]%positive); (1%nat, false, [100; 102]%positive); (7%nat, false, [71; 103]%positive);
    (1%nat, false, [55; 57]%positive); (1%nat, false, [56; 57]%positive); (53%nat, false, [23; 104; 20]%positive); (50%nat, false, [22; 105; 20]%positive); (12%nat, false, [61; 106; 13]%positive); (2%nat, false, [61; 107; 14]%positive); (25%nat, false, [25; 108; 19]%positive); (2%nat, false, [25; 109; 20]%positive); (34%nat, false, [27; 110; 17]%positive); (3%nat, false, [27; 111; 19]%positive); (2%nat, false, [27; 112; 20]%positive); (8%nat, false, [29; 113; 15]%positive); (3%nat, false, [29; 114; 17]%positive); (3%nat, false, [29; 115; 19]%positive); (161%nat, false, [20; 104; 23]%positive); (59%nat, false, [20; 105; 22]%positive); (19%nat, false, [13; 106; 61]%positive); (2%nat, false, [14; 107; 61]%positive); (32%nat, false, [19; 108; 25]%positive); (2%nat, false, [20; 109; 25]%positive); (44%nat, false, [17; 110; 27]%positive); (3%nat, false, [19; 111; 27]%positive); (2%nat, false, [20; 112; 27]%positive); (11%nat, false, [15; 113; 29]%positive); (3%nat, false, [17; 114; 29]%positive); (3%nat, false, [19; 115; 29]%positive); (191%nat, false, [59; 116; 76]%positive); (24%nat, false, [37; 117; 51]%positive); (2%nat, false, [37; 118; 50]%positive); (3%nat, false, [37; 119; 53]%positive);
    (52%nat, false, [64; 120; 76]%positive); (16%nat, false, [36; 121; 51]%positive); (2%nat, false, [36; 122; 50]%positive); (3%nat, false, [36; 123; 53]%positive); (22%nat, false, [40; 124; 74]%positive); (2%nat, false, [40; 125; 76]%positive); (13%nat, false, [39; 126; 53]%positive); (2%nat, false, [39; 127; 74]%positive); (130%nat, false, [1; 128; 67]%positive); (48%nat, false, [42; 129; 71]%positive); (8%nat, false, [76; 116; 59]%positive); (28%nat, false, [51; 117; 37]%positive); (4%nat, false, [50; 118; 37]%positive); (1%nat, false, [3; 130; 100]%positive); (5%nat, false, [53; 119; 37]%positive); (1%nat, false, [3; 131; 56]%positive); (4%nat, false, [3; 132; 55]%positive); (66%nat, false, [43; 133; 71]%positive); (9%nat, false, [76; 120; 64]%positive); (20%nat, false, [51; 121; 36]%positive); (4%nat, false, [50; 122; 36]%positive); (6%nat, false, [53; 123; 36]%positive); (1%nat, false, [7; 134; 56]%positive); (4%nat, false, [7; 135; 55]%positive); (30%nat, false, [74; 124; 40]%positive); (4%nat, false, [76; 125; 40]%positive); (1%nat, false, [8; 136; 77]%positive); (21%nat, false, [53; 126; 39]%positive); (4%nat, false, [74; 127; 39]%positive); (5%nat, false, [47; 137; 77]%positive);
    (126%nat, false, [67; 128; 1]%positive); (25%nat, false, [71; 129; 42]%positive); (20%nat, false, [100; 130; 3]%positive); (3%nat, false, [56; 131; 3]%positive); (2%nat, false, [55; 132; 3]%positive); (34%nat, false, [71; 133; 43]%positive); (19%nat, false, [56; 134; 7]%positive); (2%nat, false, [55; 135; 7]%positive); (17%nat, false, [77; 136; 8]%positive); (14%nat, false, [77; 137; 47]%positive)])
   ([0; 254; 0; 466; 427; 359; 295; 0; 470; 435; 367; 303; 0; 474; 443; 375; 311; 0; 486; 459; 387; 323; 0; 638; 0; 150; 146; 606; 0; 250;
    246; 678; 481; 194; 190; 186; 726; 513; 114; 642; 0; 214; 210; 206; 730; 517; 34; 0; 638; 0; 194; 190; 186; 726; 513; 114; 642; 0; 214; 210;
    206; 730; 517; 30; 125; 550; 0; 638; 0; 542; 0; 114; 110; 106; 102; 494; 546; 0; 150; 674; 0; 214; 210; 206; 746; 533; 114; 110; 106; 102;
    10; 122; 498; 421; 150; 146; 606; 0; 114; 110; 106; 102; 494; 546; 0; 114; 110; 106; 102; 10; 122; 498; 421; 250; 246; 678; 481; 0; 150; 674;
    0; 114; 642; 746; 533; 150; 146; 606; 0; 250; 246; 678; 481; 122; 6; 97; 494; 417; 194; 190; 186; 726; 513; 114; 642; 0; 638; 0; 542; 0;
    214; 210; 206; 730; 110; 106; 102; 494; 417; 194; 190; 186; 726; 513; 214; 210; 206; 730; 517; 554; 0; 638; 0; 542; 0; 114; 110; 106; 102; 494;
    546; 0; 150; 674; 0; 214; 210; 206; 746; 533; 114; 110; 106; 102; 10; 122; 498; 421; 150; 146; 606; 0; 114; 110; 106; 102; 494; 546; 0; 114;
    110; 106; 102; 10; 498; 421; 250; 246; 678; 481; 0; 150; 674; 0; 114; 642; 746; 533; 150; 146; 606; 0; 250; 246; 678; 481; 122; 6; 97; 494;
    417; 194; 190; 186; 726; 513; 114; 642; 0; 638; 0; 542; 0; 214; 210; 206; 730; 110; 106; 102; 494; 417; 194; 190; 186; 726; 513; 214; 210; 206;
    730; 517; 134; 130; 126; 506; 429; 502; 425; 570; 0; 118; 602; 0; 114; 642; 0; 214; 210; 206; 730; 517; 166; 162; 158; 522; 226; 222; 662; 477;
    34; 0; 118; 602; 0; 114; 642; 0; 214; 210; 206; 730; 517; 166; 162; 158; 522; 226; 222; 662; 477; 30; 125; 550; 0; 66; 670; 0; 698; 742;
    529; 118; 602; 0; 638; 0; 194; 190; 186; 726; 513; 114; 642; 0; 214; 210; 206; 730; 517; 166; 162; 158; 522; 226; 222; 662; 477; 554; 0; 66;
    670; 0; 698; 742; 529; 118; 602; 0; 638; 0; 194; 190; 186; 726; 513; 114; 642; 0; 214; 210; 206; 730; 517; 166; 162; 158; 522; 226; 222; 662;
    477; 134; 130; 126; 506; 429; 502; 425; 698; 0; 238; 234; 230; 754; 154; 54; 118; 602; 0; 542; 0; 114; 110; 106; 102; 494; 417; 166; 162; 158;
    522; 226; 238; 234; 230; 754; 154; 618; 222; 662; 477; 34; 0; 154; 54; 118; 602; 0; 166; 162; 158; 522; 226; 238; 234; 230; 754; 154; 618; 222;
    662; 477; 30; 125; 550; 0; 114; 642; 0; 214; 210; 206; 730; 517; 238; 234; 230; 754; 154; 54; 118; 602; 0; 546; 0; 122; 498; 421; 542; 0;
    114; 110; 106; 102; 494; 546; 0; 122; 498; 421; 114; 110; 106; 102; 494; 417; 166; 162; 158; 522; 226; 238; 234; 230; 754; 154; 618; 222; 662; 477;
    554; 0; 114; 642; 0; 214; 210; 206; 730; 517; 238; 234; 230; 754; 154; 54; 118; 602; 0; 546; 0; 122; 498; 421; 542; 0; 114; 110; 106; 102;
    494; 546; 0; 122; 498; 421; 114; 110; 106; 102; 494; 417; 166; 162; 158; 522; 226; 238; 234; 230; 754; 154; 618; 222; 662; 477; 134; 130; 126; 506;
    429; 502; 425; 541; 0; 638; 0; 194; 190; 186; 726; 513; 114; 642; 0; 214; 210; 206; 730; 517; 34; 0; 114; 642; 0; 214; 210; 206; 730; 517] ++
   [30; 125; 550; 0; 638; 0; 166; 626; 0; 150; 146; 606; 706; 501; 150; 146; 606; 0; 250; 246; 678; 481; 194; 190; 186; 726; 513; 114; 642; 0;
    214; 210; 206; 730; 517; 554; 0; 638; 0; 166; 626; 0; 150; 146; 606; 706; 501; 150; 146; 606; 0; 250; 246; 678; 481; 194; 190; 186; 726; 513;
    114; 642; 0; 214; 210; 206; 730; 517; 134; 130; 126; 506; 429; 502; 425; 166; 162; 158; 522; 226; 222; 690; 493; 166; 162; 158; 522; 445; 154; 54;
    118; 598; 0; 154; 618; 0; 226; 222; 690; 493; 154; 614; 0; 490; 450; 686; 402; 666; 450; 686; 402; 666; 450; 686; 402; 666; 450; 686; 402; 666;
    450; 686; 402; 666; 450; 686; 402; 666; 450; 686; 402; 666; 450; 686; 402; 666; 450; 686; 402; 666; 450; 686; 489; 114; 642; 0; 154; 614; 0; 490;
    450; 686; 402; 666; 450; 686; 402; 666; 450; 686; 402; 666; 450; 686; 402; 666; 450; 686; 402; 666; 450; 686; 402; 666; 450; 686; 402; 666; 450; 686;
    402; 666; 450; 686; 402; 666; 450; 686; 489; 214; 210; 206; 730; 517; 34; 0; 154; 614; 0; 490; 450; 686; 402; 666; 450; 686; 402; 666; 450; 686;
    402; 666; 450; 686; 402; 666; 450; 686; 402; 666; 450; 686; 402; 666; 450; 686; 402; 666; 450; 686; 402; 666; 450; 686; 402; 666; 450; 686; 489; 114;
    642; 0; 154; 614; 0; 490; 450; 686; 402; 666; 450; 686; 402; 666; 450; 686; 402; 666; 450; 686; 402; 666; 450; 686; 402; 666; 450; 686; 402; 666;
    450; 686; 402; 666; 450; 686; 402; 666; 450; 686; 402; 666; 450; 686; 489; 214; 210; 206; 730; 517; 30; 125; 550; 0; 698; 0; 166; 622; 0; 238;
    234; 702; 497; 230; 754; 154; 618; 0; 638; 0; 202; 226; 222; 690; 154; 614; 198; 654; 118; 594; 186; 726; 513; 226; 222; 690; 493; 541; 154; 614;
    0; 490; 450; 686; 402; 666; 450; 686; 402; 666; 450; 686; 402; 666; 450; 686; 402; 666; 450; 686; 402; 666; 450; 686; 402; 666; 450; 686; 402; 666;
    450; 686; 402; 666; 450; 686; 402; 666; 450; 686; 489; 114; 642; 0; 154; 614; 0; 490; 450; 686; 402; 666; 450; 686; 402; 666; 450; 686; 402; 666;
    450; 686; 402; 666; 450; 686; 402; 666; 450; 686; 402; 666; 450; 686; 402; 666; 450; 686; 402; 666; 450; 686; 402; 666; 450; 686; 489; 214; 210; 206;
    730; 517; 554; 0; 698; 0; 166; 622; 0; 238; 234; 702; 497; 230; 754; 154; 618; 0; 638; 0; 202; 226; 222; 690; 154; 614; 198; 654; 118; 594;
    186; 726; 513; 226; 222; 690; 493; 541; 154; 614; 0; 490; 450; 686; 402; 666; 450; 686; 402; 666; 450; 686; 402; 666; 450; 686; 402; 666; 450; 686;
    402; 666; 450; 686; 402; 666; 450; 686; 402; 666; 450; 686; 402; 666; 450; 686; 402; 666; 450; 686; 489; 114; 642; 0; 154; 614; 0; 490; 450; 686;
    402; 666; 450; 686; 402; 666; 450; 686; 402; 666; 450; 686; 402; 666; 450; 686; 402; 666; 450; 686; 402; 666; 450; 686; 402; 666; 450; 686; 402; 666;
    450; 686; 402; 666; 450; 686; 489; 214; 210; 206; 730; 517; 134; 130; 126; 506; 429; 502; 425; 570; 0; 638; 0; 202; 166; 162; 158; 522; 226; 154;
    618; 222; 94; 198; 654; 118; 594; 186; 726; 513; 154; 618; 0; 166; 162; 158; 522; 226; 222; 690; 493; 154; 614; 0; 490; 450; 686; 402; 666; 450] ++
   [686; 402; 666; 450; 686; 402; 666; 450; 686; 402; 666; 450; 686; 402; 666; 450; 686; 402; 666; 450; 686; 402; 666; 450; 686; 402; 666; 450; 686; 402;
    666; 450; 686; 489; 114; 642; 0; 154; 614; 0; 490; 450; 686; 402; 666; 450; 686; 402; 666; 450; 686; 402; 666; 450; 686; 402; 666; 450; 686; 402;
    666; 450; 686; 402; 666; 450; 686; 402; 666; 450; 686; 402; 666; 450; 686; 402; 666; 450; 686; 489; 214; 210; 206; 730; 517; 34; 0; 154; 618; 0;
    166; 162; 158; 522; 226; 222; 690; 493; 154; 614; 0; 490; 450; 686; 402; 666; 450; 686; 402; 666; 450; 686; 402; 666; 450; 686; 402; 666; 450; 686;
    402; 666; 450; 686; 402; 666; 450; 686; 402; 666; 450; 686; 402; 666; 450; 686; 402; 666; 450; 686; 489; 114; 642; 0; 154; 614; 0; 490; 450; 686;
    402; 666; 450; 686; 402; 666; 450; 686; 402; 666; 450; 686; 402; 666; 450; 686; 402; 666; 450; 686; 402; 666; 450; 686; 402; 666; 450; 686; 402; 666;
    450; 686; 402; 666; 450; 686; 489; 214; 210; 206; 730; 517; 30; 125; 550; 0; 638; 0; 202; 166; 162; 158; 522; 226; 222; 94; 198; 654; 118; 594;
    186; 726; 513; 698; 0; 638; 0; 202; 166; 162; 158; 522; 226; 238; 234; 230; 754; 154; 618; 222; 94; 198; 654; 118; 594; 186; 726; 513; 154; 618;
    0; 166; 162; 158; 522; 226; 222; 690; 493; 541; 154; 614; 0; 490; 450; 686; 402; 666; 450; 686; 402; 666; 450; 686; 402; 666; 450; 686; 402; 666;
    450; 686; 402; 666; 450; 686; 402; 666; 450; 686; 402; 666; 450; 686; 402; 666; 450; 686; 402; 666; 450; 686; 489; 114; 642; 0; 638; 0; 202; 166;
    162; 158; 522; 226; 154; 618; 222; 94; 198; 654; 118; 594; 186; 726; 513; 154; 618; 0; 166; 162; 158; 522; 226; 222; 690; 493; 154; 614; 0; 490;
    450; 686; 402; 666; 450; 686; 402; 666; 450; 686; 402; 666; 450; 686; 402; 666; 450; 686; 402; 666; 450; 686; 402; 666; 450; 686; 402; 666; 450; 686;
    402; 666; 450; 686; 402; 666; 450; 686; 489; 214; 210; 206; 730; 517; 554; 0; 638; 0; 202; 166; 162; 158; 522; 226; 222; 94; 198; 654; 118; 594;
    186; 726; 513; 698; 0; 638; 0; 202; 166; 162; 158; 522; 226; 238; 234; 230; 754; 154; 618; 222; 94; 198; 654; 118; 594; 186; 726; 513; 154; 618;
    0; 166; 162; 158; 522; 226; 222; 690; 493; 541; 154; 614; 0; 490; 450; 686; 402; 666; 450; 686; 402; 666; 450; 686; 402; 666; 450; 686; 402; 666;
    450; 686; 402; 666; 450; 686; 402; 666; 450; 686; 402; 666; 450; 686; 402; 666; 450; 686; 402; 666; 450; 686; 489; 114; 642; 0; 638; 0; 202; 166;
    162; 158; 522; 226; 154; 618; 222; 94; 198; 654; 118; 594; 186; 726; 513; 154; 618; 0; 166; 162; 158; 522; 226; 222; 690; 493; 154; 614; 0; 490;
    450; 686; 402; 666; 450; 686; 402; 666; 450; 686; 402; 666; 450; 686; 402; 666; 450; 686; 402; 666; 450; 686; 402; 666; 450; 686; 402; 666; 450; 686;
    402; 666; 450; 686; 402; 666; 450; 686; 489; 214; 210; 206; 730; 517; 134; 130; 126; 506; 429; 502; 425; 166; 162; 158; 522; 445; 202; 94; 198; 654;
    473; 54; 594; 0; 38; 578; 0; 42; 566; 0; 154; 610; 0; 490; 438; 682; 402; 666; 438; 682; 402; 666; 438; 682; 402; 666; 438; 682; 402; 666] ++
   [438; 682; 402; 666; 438; 682; 402; 666; 438; 682; 402; 666; 438; 682; 402; 666; 438; 682; 402; 666; 438; 682; 485; 570; 518; 441; 582; 530; 453; 34;
    0; 38; 578; 0; 42; 566; 0; 570; 518; 441; 582; 530; 453; 30; 125; 550; 0; 42; 566; 0; 154; 610; 0; 490; 438; 682; 402; 666; 438; 682;
    402; 666; 438; 682; 402; 666; 438; 682; 402; 666; 438; 682; 402; 666; 438; 682; 402; 666; 438; 682; 402; 666; 438; 682; 402; 666; 438; 682; 402; 666;
    438; 682; 485; 570; 518; 441; 38; 578; 0; 42; 566; 0; 154; 614; 0; 490; 450; 686; 402; 666; 450; 686; 402; 666; 450; 686; 402; 666; 450; 686;
    402; 666; 450; 686; 402; 666; 450; 686; 402; 666; 450; 686; 402; 666; 450; 686; 489; 610; 0; 490; 438; 682; 402; 666; 438; 682; 402; 666; 438; 682;
    402; 666; 438; 682; 402; 666; 438; 682; 402; 666; 438; 682; 402; 666; 438; 682; 402; 666; 438; 682; 402; 666; 438; 682; 402; 666; 438; 682; 485; 570;
    518; 441; 582; 530; 453; 554; 0; 42; 566; 0; 154; 610; 0; 490; 438; 682; 402; 666; 438; 682; 402; 666; 438; 682; 402; 666; 438; 682; 402; 666;
    438; 682; 402; 666; 438; 682; 402; 666; 438; 682; 402; 666; 438; 682; 402; 666; 438; 682; 402; 666; 438; 682; 485; 570; 518; 441; 38; 578; 0; 42;
    566; 0; 154; 614; 0; 490; 450; 686; 402; 666; 450; 686; 402; 666; 450; 686; 402; 666; 450; 686; 402; 666; 450; 686; 402; 666; 450; 686; 402; 666;
    450; 686; 402; 666; 450; 686; 489; 610; 0; 490; 438; 682; 402; 666; 438; 682; 402; 666; 438; 682; 402; 666; 438; 682; 402; 666; 438; 682; 402; 666;
    438; 682; 402; 666; 438; 682; 402; 666; 438; 682; 402; 666; 438; 682; 402; 666; 438; 682; 485; 570; 518; 441; 582; 530; 453; 134; 130; 126; 506; 429;
    502; 425; 570; 0; 166; 162; 158; 522; 42; 38; 578; 0; 154; 614; 0; 490; 450; 686; 402; 666; 450; 686; 402; 666; 450; 686; 402; 666; 450; 686;
    402; 666; 450; 686; 402; 666; 450; 686; 402; 666; 450; 686; 402; 666; 450; 686; 489; 610; 0; 490; 438; 682; 402; 666; 438; 682; 402; 666; 438; 682;
    402; 666; 438; 682; 402; 666; 438; 682; 402; 666; 438; 682; 402; 666; 438; 682; 402; 666; 438; 682; 402; 666; 438; 682; 402; 666; 438; 682; 485; 166;
    162; 158; 522; 42; 582; 530; 453; 34; 0; 166; 162; 158; 522; 42; 38; 578; 0; 154; 610; 0; 490; 438; 682; 402; 666; 438; 682; 402; 666; 438;
    682; 402; 666; 438; 682; 402; 666; 438; 682; 402; 666; 438; 682; 402; 666; 438; 682; 402; 666; 438; 682; 402; 666; 438; 682; 402; 666; 438; 682; 485;
    166; 162; 158; 522; 42; 582; 530; 453; 30; 125; 550; 0; 154; 614; 0; 490; 450; 686; 402; 666; 450; 686; 402; 666; 450; 686; 402; 666; 450; 686;
    402; 666; 450; 686; 402; 666; 450; 686; 402; 666; 450; 686; 402; 666; 450; 686; 489; 610; 0; 490; 438; 682; 402; 666; 438; 682; 402; 666; 438; 682;
    402; 666; 438; 682; 402; 666; 438; 682; 402; 666; 438; 682; 402; 666; 438; 682; 402; 666; 438; 682; 402; 666; 438; 682; 402; 666; 438; 682; 485; 166;
    162; 158; 522; 42; 38; 578; 0; 154; 618; 0; 166; 162; 158; 522; 226; 222; 690; 493; 154; 614; 0; 490; 450; 686; 402; 666; 450; 686; 402; 666] ++
   [450; 686; 402; 666; 450; 686; 402; 666; 450; 686; 402; 666; 450; 686; 402; 666; 450; 686; 402; 666; 450; 686; 489; 610; 0; 490; 438; 682; 402; 666;
    438; 682; 402; 666; 438; 682; 402; 666; 438; 682; 402; 666; 438; 682; 402; 666; 438; 682; 402; 666; 438; 682; 402; 666; 438; 682; 402; 666; 438; 682;
    402; 666; 438; 682; 485; 166; 162; 158; 522; 42; 582; 530; 453; 554; 0; 154; 614; 0; 490; 450; 686; 402; 666; 450; 686; 402; 666; 450; 686; 402;
    666; 450; 686; 402; 666; 450; 686; 402; 666; 450; 686; 402; 666; 450; 686; 402; 666; 450; 686; 489; 610; 0; 490; 438; 682; 402; 666; 438; 682; 402;
    666; 438; 682; 402; 666; 438; 682; 402; 666; 438; 682; 402; 666; 438; 682; 402; 666; 438; 682; 402; 666; 438; 682; 402; 666; 438; 682; 402; 666; 438;
    682; 485; 166; 162; 158; 522; 42; 38; 578; 0; 154; 618; 0; 166; 162; 158; 522; 226; 222; 690; 493; 154; 614; 0; 490; 450; 686; 402; 666; 450;
    686; 402; 666; 450; 686; 402; 666; 450; 686; 402; 666; 450; 686; 402; 666; 450; 686; 402; 666; 450; 686; 402; 666; 450; 686; 489; 610; 0; 490; 438;
    682; 402; 666; 438; 682; 402; 666; 438; 682; 402; 666; 438; 682; 402; 666; 438; 682; 402; 666; 438; 682; 402; 666; 438; 682; 402; 666; 438; 682; 402;
    666; 438; 682; 402; 666; 438; 682; 485; 166; 162; 158; 522; 42; 582; 530; 453; 134; 130; 126; 506; 429; 502; 425; 445; 0; 550; 0; 554; 0; 134;
    130; 126; 506; 429; 502; 425; 78; 414; 346; 282; 0; 586; 182; 74; 22; 410; 342; 278; 121; 182; 178; 634; 0; 542; 0; 114; 110; 106; 102; 494;
    417; 34; 0; 542; 0; 114; 110; 106; 102; 494; 417; 30; 125; 550; 0; 546; 0; 122; 498; 421; 542; 0; 154; 610; 0; 490; 438; 682; 402; 666;
    438; 682; 402; 666; 438; 682; 402; 666; 438; 682; 402; 666; 438; 682; 402; 666; 438; 682; 402; 666; 438; 682; 402; 666; 438; 682; 402; 666; 438; 682;
    402; 666; 438; 682; 485; 114; 110; 106; 102; 494; 417; 554; 0; 546; 0; 122; 498; 421; 542; 0; 154; 610; 0; 490; 438; 682; 402; 666; 438; 682;
    402; 666; 438; 682; 402; 666; 438; 682; 402; 666; 438; 682; 402; 666; 438; 682; 402; 666; 438; 682; 402; 666; 438; 682; 402; 666; 438; 682; 402; 666;
    438; 682; 485; 114; 110; 106; 102; 494; 417; 134; 130; 126; 506; 429; 502; 425; 238; 234; 718; 509; 570; 0; 550; 0; 554; 0; 134; 130; 126; 506;
    429; 502; 425; 182; 178; 634; 0; 542; 0; 114; 110; 106; 102; 494; 417; 34; 0; 542; 0; 114; 110; 106; 102; 494; 417; 30; 125; 550; 0; 546;
    0; 122; 498; 421; 542; 0; 154; 610; 0; 490; 438; 682; 402; 666; 438; 682; 402; 666; 438; 682; 402; 666; 438; 682; 402; 666; 438; 682; 402; 666;
    438; 682; 402; 666; 438; 682; 402; 666; 438; 682; 402; 666; 438; 682; 402; 666; 438; 682; 485; 114; 110; 106; 102; 494; 417; 554; 0; 546; 0; 122;
    498; 421; 542; 0; 154; 610; 0; 490; 438; 682; 402; 666; 438; 682; 402; 666; 438; 682; 402; 666; 438; 682; 402; 666; 438; 682; 402; 666; 438; 682;
    402; 666; 438; 682; 402; 666; 438; 682; 402; 666; 438; 682; 402; 666; 438; 682; 485; 114; 110; 106; 102; 494; 417; 134; 130; 126; 506; 429; 502; 425] ++
   [238; 234; 718; 509; 166; 162; 158; 522; 445; 586; 0; 34; 0; 30; 125; 550; 0; 154; 614; 0; 490; 450; 686; 402; 666; 450; 686; 402; 666; 450;
    686; 402; 666; 450; 686; 402; 666; 450; 686; 402; 666; 450; 686; 402; 666; 450; 686; 402; 666; 450; 686; 489; 610; 0; 490; 438; 682; 402; 666; 438;
    682; 402; 666; 438; 682; 402; 666; 438; 682; 402; 666; 438; 682; 402; 666; 438; 682; 402; 666; 438; 682; 402; 666; 438; 682; 402; 666; 438; 682; 402;
    666; 438; 682; 485; 554; 0; 154; 610; 0; 490; 438; 682; 402; 666; 438; 682; 402; 666; 438; 682; 402; 666; 438; 682; 402; 666; 438; 682; 402; 666;
    438; 682; 402; 666; 438; 682; 402; 666; 438; 682; 402; 666; 438; 682; 402; 666; 438; 682; 485; 134; 130; 126; 506; 429; 502; 425; 166; 162; 158; 26;
    0; 182; 178; 174; 170; 538; 570; 0; 550; 0; 554; 0; 134; 130; 126; 506; 429; 502; 425; 182; 178; 58; 166; 162; 158; 522; 445; 342; 278; 121;
    182; 178; 174; 170; 538; 461; 182; 178; 174; 170; 534; 457; 194; 202; 198; 90; 190; 650; 469; 402; 66; 666; 0; 698; 0; 238; 234; 230; 754; 541;
    226; 222; 694; 98; 218; 738; 118; 598; 0; 114; 642; 0; 214; 210; 206; 730; 517; 34; 0; 114; 642; 0; 214; 210; 206; 730; 517; 30; 125; 550;
    0; 638; 0; 226; 222; 218; 738; 202; 154; 614; 198; 654; 118; 594; 186; 726; 513; 0; 202; 198; 686; 489; 114; 642; 0; 214; 210; 206; 730; 517;
    554; 0; 638; 0; 226; 222; 218; 738; 202; 154; 614; 198; 654; 118; 594; 186; 726; 513; 0; 202; 198; 686; 489; 114; 642; 0; 214; 210; 206; 730;
    517; 134; 130; 126; 506; 429; 502; 425; 202; 198; 654; 473; 226; 222; 694; 218; 738; 54; 118; 594; 0; 42; 566; 0; 570; 518; 441; 38; 578; 0;
    42; 566; 0; 114; 642; 0; 214; 210; 206; 730; 517; 154; 614; 0; 166; 162; 570; 158; 518; 202; 198; 686; 489; 570; 518; 441; 582; 530; 453; 34;
    0; 566; 0; 570; 518; 441; 38; 578; 0; 42; 566; 0; 154; 614; 0; 166; 162; 570; 158; 518; 202; 198; 686; 489; 570; 518; 441; 582; 530; 453;
    30; 125; 550; 0; 42; 566; 0; 154; 614; 0; 166; 162; 570; 158; 518; 202; 198; 686; 489; 570; 518; 441; 38; 578; 0; 114; 642; 0; 214; 210;
    206; 730; 517; 42; 566; 0; 114; 642; 0; 214; 210; 206; 730; 517; 154; 614; 0; 114; 642; 0; 214; 210; 206; 730; 517; 166; 162; 570; 158; 518;
    202; 198; 686; 489; 570; 518; 441; 582; 530; 453; 554; 0; 42; 566; 0; 154; 614; 0; 166; 162; 570; 158; 518; 202; 198; 686; 489; 570; 518; 441;
    38; 578; 0; 114; 642; 0; 214; 210; 206; 730; 517; 42; 566; 0; 114; 642; 0; 214; 210; 206; 730; 517; 154; 614; 0; 114; 642; 0; 214; 210;
    206; 730; 517; 166; 162; 570; 158; 518; 202; 198; 686; 489; 570; 518; 441; 582; 530; 453; 134; 130; 126; 506; 429; 502; 425; 610; 0; 478; 430; 682;
    402; 658; 0; 478; 734; 521; 430; 682; 485; 0; 550; 0; 154; 614; 0; 182; 178; 174; 570; 26; 170; 534; 202; 198; 686; 489; 554; 0; 154; 614;
    0; 182; 178; 174; 570; 26; 170; 534; 202; 198; 686; 489; 134; 130; 126; 506; 429; 502; 425; 78; 414; 346; 282; 0; 586; 0; 182; 178; 174; 170] ++
   [538; 461; 182; 74; 22; 410; 342; 278; 121; 182; 178; 634; 0; 546; 0; 122; 498; 421; 542; 0; 154; 614; 0; 182; 114; 110; 106; 102; 494; 238;
    234; 718; 178; 174; 170; 534; 202; 198; 686; 489; 114; 110; 106; 102; 494; 417; 34; 0; 542; 0; 114; 110; 106; 102; 494; 417; 30; 125; 550; 0;
    154; 614; 0; 182; 178; 174; 170; 534; 202; 198; 686; 489; 546; 0; 122; 498; 421; 542; 0; 166; 622; 0; 114; 110; 106; 102; 494; 238; 234; 702;
    497; 154; 614; 0; 182; 114; 110; 106; 102; 494; 238; 234; 718; 178; 174; 170; 534; 202; 198; 686; 489; 114; 110; 106; 102; 494; 417; 554; 0; 154;
    614; 0; 182; 178; 174; 170; 534; 202; 198; 686; 489; 546; 0; 122; 498; 421; 542; 0; 166; 622; 0; 114; 110; 106; 102; 494; 238; 234; 702; 497;
    154; 614; 0; 182; 114; 110; 106; 102; 494; 238; 234; 718; 178; 174; 170; 534; 202; 198; 686; 489; 114; 110; 106; 102; 494; 417; 134; 130; 126; 506;
    429; 502; 425; 238; 234; 718; 509; 610; 0; 570; 26; 0; 182; 74; 410; 342; 278; 121; 194; 182; 178; 174; 170; 534; 202; 198; 90; 190; 682; 485;
    182; 178; 174; 170; 534; 457; 194; 202; 198; 90; 190; 650; 469; 694; 0; 490; 750; 154; 54; 598; 0; 490; 750; 154; 614; 0; 202; 198; 686; 489;
    114; 642; 0; 214; 210; 206; 730; 517; 34; 0; 490; 750; 154; 614; 0; 202; 198; 686; 489; 114; 642; 0; 214; 210; 206; 730; 517; 30; 125; 550;
    0; 490; 750; 154; 614; 0; 566; 0; 638; 0; 226; 222; 218; 750; 166; 162; 158; 518; 202; 198; 686; 154; 54; 118; 594; 186; 726; 513; 441; 202;
    198; 686; 489; 114; 642; 0; 490; 750; 154; 614; 0; 202; 198; 686; 489; 214; 210; 206; 730; 517; 554; 0; 490; 750; 154; 614; 0; 566; 0; 638;
    0; 226; 222; 218; 750; 166; 162; 158; 518; 202; 198; 686; 154; 54; 118; 594; 186; 726; 513; 441; 202; 198; 686; 489; 114; 642; 0; 490; 750; 154;
    614; 0; 202; 198; 686; 489; 214; 210; 206; 730; 517; 134; 130; 126; 506; 429; 502; 425; 182; 178; 630; 0; 558; 0; 562; 510; 433; 34; 0; 558;
    0; 562; 510; 433; 30; 125; 550; 0; 50; 558; 0; 150; 146; 142; 562; 138; 510; 433; 554; 0; 50; 558; 0; 150; 146; 142; 562; 138; 510; 433;
    134; 130; 126; 506; 429; 502; 425; 226; 222; 714; 505; 202; 198; 654; 473; 226; 222; 218; 750; 154; 54; 118; 594; 0; 38; 578; 0; 582; 530; 453;
    34; 0; 38; 578; 0; 582; 530; 453; 30; 125; 550; 0; 38; 578; 0; 566; 0; 490; 750; 154; 614; 0; 182; 178; 630; 0; 226; 222; 714; 505;
    166; 162; 158; 518; 202; 198; 686; 489; 441; 174; 170; 530; 453; 554; 0; 38; 578; 0; 566; 0; 490; 750; 154; 614; 0; 182; 178; 630; 0; 226;
    222; 714; 505; 166; 162; 158; 518; 202; 198; 686; 489; 441; 174; 170; 530; 453; 134; 130; 126; 506; 429; 502; 425; 226; 222; 218; 750; 154; 610; 0;
    478; 430; 682; 402; 658; 0; 478; 734; 521; 430; 682; 485; 0; 182; 178; 634; 0; 34; 0; 30; 125; 550; 0; 542; 0; 114; 110; 106; 102; 494;
    417; 554; 0; 542; 0; 114; 110; 106; 102; 494; 417; 134; 130; 126; 506; 429; 502; 425; 238; 234; 718; 509; 226; 222; 218; 750; 154; 610; 0; 478] ++
   [430; 682; 402; 658; 0; 478; 734; 521; 430; 682; 485; 182; 178; 174; 170; 534; 457; 194; 202; 198; 90; 190; 650; 469; 537; 570; 0; 166; 162; 158;
    522; 226; 222; 694; 218; 738; 118; 598; 0; 166; 626; 0; 550; 0; 554; 0; 134; 130; 126; 506; 429; 502; 425; 250; 246; 706; 501; 202; 198; 654;
    473; 166; 162; 158; 522; 226; 222; 694; 218; 738; 118; 594; 0; 154; 614; 0; 202; 166; 162; 158; 522; 226; 222; 94; 198; 686; 489; 38; 578; 0;
    114; 642; 0; 214; 210; 206; 730; 517; 154; 614; 0; 114; 642; 0; 214; 210; 206; 730; 517; 202; 166; 162; 158; 522; 226; 222; 94; 198; 686; 489;
    582; 530; 453; 34; 0; 38; 578; 0; 114; 642; 0; 214; 210; 206; 730; 517; 154; 614; 0; 202; 166; 162; 158; 522; 226; 222; 94; 198; 686; 489;
    582; 530; 453; 30; 125; 550; 0; 114; 642; 0; 214; 210; 206; 730; 517; 154; 614; 0; 114; 642; 0; 214; 210; 206; 730; 517; 202; 166; 162; 158;
    522; 226; 222; 94; 198; 686; 489; 38; 578; 0; 150; 146; 606; 0; 250; 246; 678; 481; 114; 642; 0; 214; 210; 206; 730; 517; 154; 614; 0; 166;
    626; 0; 150; 146; 606; 0; 250; 246; 678; 481; 706; 501; 114; 642; 0; 214; 210; 206; 730; 517; 202; 166; 162; 158; 522; 226; 222; 94; 198; 686;
    489; 582; 530; 453; 554; 0; 114; 642; 0; 214; 210; 206; 730; 517; 154; 614; 0; 114; 642; 0; 214; 210; 206; 730; 517; 202; 166; 162; 158; 522;
    226; 222; 94; 198; 686; 489; 38; 578; 0; 150; 146; 606; 0; 250; 246; 678; 481; 114; 642; 0; 214; 210; 206; 730; 517; 154; 614; 0; 166; 626;
    0; 150; 146; 606; 0; 250; 246; 678; 481; 706; 501; 114; 642; 0; 214; 210; 206; 730; 517; 202; 166; 162; 158; 522; 226; 222; 94; 198; 686; 489;
    582; 530; 453; 134; 130; 126; 506; 429; 502; 425; 610; 0; 478; 430; 682; 402; 658; 0; 478; 734; 521; 430; 682; 485; 0; 550; 0; 154; 614; 0;
    182; 178; 174; 170; 534; 202; 166; 162; 158; 522; 226; 222; 94; 198; 686; 489; 554; 0; 154; 614; 0; 182; 178; 174; 170; 534; 202; 166; 162; 158;
    522; 226; 222; 94; 198; 686; 489; 134; 130; 126; 506; 429; 502; 425; 182; 178; 634; 0; 542; 0; 114; 110; 106; 102; 494; 417; 34; 0; 542; 0;
    114; 110; 106; 102; 494; 417; 30; 125; 550; 0; 154; 614; 0; 182; 178; 174; 170; 534; 202; 198; 686; 489; 546; 0; 122; 498; 421; 542; 0; 182;
    722; 0; 150; 146; 606; 0; 250; 246; 678; 481; 242; 762; 549; 154; 614; 0; 182; 114; 110; 106; 102; 494; 238; 234; 718; 178; 174; 170; 534; 202;
    198; 686; 489; 114; 110; 106; 102; 494; 417; 554; 0; 154; 614; 0; 182; 178; 174; 170; 534; 202; 198; 686; 489; 546; 0; 122; 498; 421; 542; 0;
    182; 722; 0; 150; 146; 606; 0; 250; 246; 678; 481; 242; 762; 549; 154; 614; 0; 182; 114; 110; 106; 102; 494; 238; 234; 718; 178; 174; 170; 534;
    202; 198; 686; 489; 114; 110; 106; 102; 494; 417; 134; 130; 126; 506; 429; 502; 425; 238; 234; 718; 509; 610; 0; 194; 182; 178; 174; 170; 534; 202;
    198; 90; 190; 682; 485; 182; 178; 174; 170; 534; 457; 194; 202; 198; 90; 190; 650; 469; 694; 0; 490; 750; 154; 54; 598; 0; 550; 0; 554; 0] ++
   [134; 130; 126; 506; 429; 502; 425; 182; 178; 630; 0; 166; 162; 158; 522; 226; 222; 714; 505; 202; 198; 654; 473; 150; 70; 406; 338; 274; 0; 490;
    750; 154; 54; 598; 0; 202; 198; 654; 473; 574; 0; 166; 162; 158; 526; 449; 166; 162; 158; 18; 113; 166; 162; 158; 522; 226; 222; 218; 750; 154;
    54; 118; 594; 0; 166; 162; 158; 522; 226; 222; 218; 750; 154; 610; 0; 478; 430; 682; 402; 658; 0; 478; 734; 521; 430; 682; 485; 582; 0; 166;
    162; 158; 522; 226; 222; 218; 750; 154; 610; 0; 194; 182; 178; 174; 170; 534; 202; 198; 90; 190; 682; 485; 182; 178; 174; 170; 534; 457; 194; 202;
    198; 90; 190; 650; 469; 166; 162; 158; 522; 226; 222; 218; 750; 537; 166; 162; 158; 522; 445; 226; 222; 218; 738; 525; 562; 0; 114; 62; 150; 674;
    0; 214; 210; 206; 746; 533; 570; 0; 114; 62; 150; 674; 0; 214; 210; 206; 746; 533; 154; 618; 0; 150; 674; 0; 214; 210; 206; 746; 533; 166;
    162; 158; 522; 226; 222; 690; 493; 166; 162; 158; 522; 445; 154; 54; 118; 598; 0; 114; 62; 150; 674; 0; 550; 0; 554; 0; 134; 130; 126; 506;
    429; 502; 425; 214; 210; 206; 746; 533; 570; 0; 550; 0; 554; 0; 134; 130; 126; 506; 429; 502; 425; 114; 62; 150; 674; 0; 550; 0; 154; 614;
    0; 490; 450; 686; 402; 666; 450; 686; 402; 666; 450; 686; 402; 666; 450; 686; 402; 666; 450; 686; 402; 666; 450; 686; 402; 666; 450; 686; 402; 666;
    450; 686; 402; 666; 450; 686; 402; 666; 450; 686; 489; 554; 0; 154; 614; 0; 490; 450; 686; 402; 666; 450; 686; 402; 666; 450; 686; 402; 666; 450;
    686; 402; 666; 450; 686; 402; 666; 450; 686; 402; 666; 450; 686; 402; 666; 450; 686; 402; 666; 450; 686; 402; 666; 450; 686; 489; 134; 130; 126; 506;
    429; 502; 425; 214; 210; 206; 746; 533; 166; 162; 158; 522; 445; 202; 198; 654; 473; 54; 594; 0; 114; 62; 150; 674; 0; 214; 210; 206; 746; 533;
    570; 0; 114; 62; 150; 674; 0; 550; 0; 554; 0; 134; 130; 126; 506; 429; 502; 425; 214; 210; 206; 746; 533; 166; 162; 158; 522; 445; 582; 0;
    182; 178; 634; 0; 258; 514; 238; 234; 718; 509; 570; 0; 182; 178; 634; 0; 258; 514; 238; 234; 718; 509; 166; 162; 158; 522; 445; 586; 0; 182;
    178; 174; 170; 538; 461; 174; 170; 534; 457; 194; 202; 198; 90; 190; 650; 469; 66; 666; 0; 226; 222; 694; 218; 738; 118; 598; 0; 150; 674; 0;
    214; 210; 206; 746; 533; 202; 198; 654; 473; 226; 222; 694; 218; 738; 118; 594; 0; 114; 62; 150; 674; 0; 214; 210; 206; 746; 533; 582; 0; 182;
    178; 634; 0; 258; 514; 238; 234; 718; 509; 174; 170; 534; 457; 194; 202; 198; 90; 190; 650; 469; 694; 0; 490; 750; 154; 54; 598; 0; 114; 62;
    150; 674; 0; 214; 210; 206; 746; 533; 182; 178; 630; 0; 226; 222; 714; 505; 202; 198; 654; 473; 226; 222; 218; 750; 154; 54; 118; 594; 0; 150;
    674; 0; 214; 210; 206; 746; 533; 226; 222; 218; 750; 154; 610; 0; 478; 430; 682; 402; 658; 0; 478; 734; 521; 430; 682; 485; 582; 0; 226; 222;
    218; 750; 154; 610; 0; 194; 182; 178; 174; 170; 534; 202; 198; 90; 190; 682; 485; 182; 178; 174; 170; 534; 457; 194; 202; 198; 90; 190; 650; 469] ++
   [226; 222; 218; 750; 537; 570; 0; 166; 162; 158; 522; 226; 222; 694; 218; 738; 118; 594; 0; 114; 62; 150; 674; 0; 214; 210; 206; 746; 533; 582;
    0; 182; 178; 634; 0; 258; 514; 238; 234; 718; 509; 174; 170; 534; 457; 194; 202; 198; 90; 190; 650; 469; 694; 0; 166; 162; 158; 522; 226; 222;
    218; 750; 154; 54; 118; 594; 0; 166; 162; 158; 522; 226; 222; 218; 750; 154; 610; 0; 194; 202; 198; 90; 190; 682; 485; 582; 0; 182; 178; 174;
    170; 534; 457; 194; 202; 198; 90; 190; 650; 469; 166; 162; 158; 522; 226; 222; 218; 750; 537; 166; 162; 158; 522; 445; 226; 222; 218; 738; 525; 150;
    146; 142; 114; 110; 106; 102; 14; 138; 514; 437; 710; 0; 150; 146; 606; 0; 166; 622; 0; 238; 234; 702; 497; 250; 246; 678; 481; 114; 642; 0;
    214; 210; 206; 730; 517; 34; 0; 150; 146; 606; 0; 166; 622; 0; 238; 234; 702; 497; 250; 246; 678; 481; 114; 642; 0; 214; 210; 206; 730; 517;
    30; 125; 550; 0; 150; 146; 606; 0; 166; 622; 0; 238; 234; 702; 497; 250; 246; 678; 481; 114; 642; 0; 214; 210; 206; 730; 517; 582; 0; 150;
    146; 606; 0; 638; 0; 542; 0; 114; 110; 106; 102; 494; 546; 0; 182; 178; 634; 0; 250; 246; 242; 758; 166; 622; 718; 509; 114; 110; 106; 102;
    10; 122; 498; 421; 0; 122; 6; 97; 494; 417; 194; 190; 186; 726; 513; 166; 622; 0; 542; 0; 114; 110; 106; 102; 494; 417; 238; 234; 702; 497;
    250; 246; 678; 481; 114; 642; 0; 214; 210; 206; 730; 62; 150; 146; 606; 0; 214; 210; 206; 730; 110; 590; 0; 250; 246; 646; 465; 250; 246; 678;
    481; 214; 210; 206; 730; 517; 174; 170; 534; 457; 554; 0; 150; 146; 606; 0; 638; 0; 542; 0; 114; 110; 106; 102; 494; 546; 0; 114; 110; 106;
    102; 10; 122; 498; 421; 0; 122; 6; 97; 494; 417; 194; 190; 186; 726; 513; 166; 622; 0; 542; 0; 114; 110; 106; 102; 494; 417; 238; 234; 702;
    497; 250; 246; 678; 481; 114; 642; 0; 214; 210; 206; 730; 62; 146; 606; 0; 214; 210; 206; 730; 110; 590; 0; 250; 246; 646; 465; 250; 246; 678;
    481; 214; 210; 206; 730; 517; 134; 130; 126; 506; 429; 502; 425; 570; 0; 550; 0; 154; 54; 118; 602; 0; 250; 114; 110; 590; 246; 242; 758; 166;
    162; 158; 522; 226; 154; 618; 222; 662; 477; 554; 0; 134; 130; 126; 506; 429; 502; 425; 154; 618; 0; 250; 114; 110; 590; 246; 242; 758; 166; 162;
    158; 522; 226; 222; 690; 493; 114; 110; 590; 0; 550; 0; 554; 0; 134; 130; 126; 506; 429; 502; 425; 154; 618; 0; 550; 0; 554; 0; 134; 130;
    126; 506; 429; 502; 425; 166; 162; 158; 522; 226; 222; 690; 493; 46; 250; 246; 646; 465; 250; 246; 242; 758; 166; 162; 158; 522; 445; 154; 54; 118;
    598; 0; 150; 146; 606; 0; 154; 614; 0; 490; 450; 686; 402; 666; 450; 686; 402; 666; 450; 686; 402; 666; 450; 686; 402; 666; 450; 686; 402; 666;
    450; 686; 402; 666; 450; 686; 402; 666; 450; 686; 402; 666; 450; 686; 402; 666; 450; 686; 489; 250; 246; 678; 481; 114; 642; 0; 214; 210; 206; 730;
    62; 150; 146; 606; 0; 214; 210; 206; 730; 110; 590; 0; 250; 246; 646; 465; 250; 246; 678; 481; 214; 210; 206; 730; 517; 34; 0; 150; 146; 606] ++
   [0; 154; 614; 0; 490; 450; 686; 402; 666; 450; 686; 402; 666; 450; 686; 402; 666; 450; 686; 402; 666; 450; 686; 402; 666; 450; 686; 402; 666; 450;
    686; 402; 666; 450; 686; 402; 666; 450; 686; 402; 666; 450; 686; 489; 250; 246; 678; 481; 114; 642; 0; 214; 210; 206; 730; 62; 146; 606; 0; 214;
    210; 206; 730; 110; 590; 0; 250; 246; 646; 465; 250; 246; 678; 481; 214; 210; 206; 730; 517; 30; 125; 550; 0; 114; 62; 150; 674; 0; 114; 642;
    746; 533; 150; 146; 606; 0; 698; 0; 250; 114; 110; 590; 246; 242; 758; 166; 622; 0; 238; 234; 702; 497; 230; 754; 154; 618; 0; 638; 0; 202;
    250; 246; 242; 758; 166; 622; 230; 754; 226; 222; 690; 154; 614; 198; 654; 118; 594; 186; 726; 513; 166; 622; 0; 238; 234; 702; 497; 226; 222; 690;
    493; 541; 154; 614; 0; 490; 450; 686; 402; 666; 450; 686; 402; 666; 450; 686; 402; 666; 450; 686; 402; 666; 450; 686; 402; 666; 450; 686; 402; 666;
    450; 686; 402; 666; 450; 686; 402; 666; 450; 686; 402; 666; 450; 686; 489; 0; 154; 614; 0; 490; 450; 686; 402; 666; 450; 686; 402; 666; 450; 686;
    402; 666; 450; 686; 402; 666; 450; 686; 402; 666; 450; 686; 402; 666; 450; 686; 402; 666; 450; 686; 402; 666; 450; 686; 402; 666; 450; 686; 489; 46;
    250; 246; 646; 465; 250; 246; 678; 481; 114; 642; 0; 214; 210; 206; 730; 62; 150; 146; 606; 0; 214; 210; 206; 730; 114; 110; 590; 0; 250; 246;
    646; 465; 250; 246; 678; 481; 214; 210; 206; 730; 517; 554; 0; 114; 62; 150; 674; 0; 114; 642; 746; 533; 150; 146; 606; 0; 698; 0; 250; 114;
    110; 590; 246; 242; 758; 166; 622; 0; 238; 234; 702; 497; 230; 754; 154; 618; 0; 638; 0; 202; 250; 246; 242; 758; 166; 622; 230; 754; 226; 222;
    690; 154; 614; 198; 654; 118; 594; 186; 726; 513; 166; 622; 0; 238; 234; 702; 497; 226; 222; 690; 493; 541; 154; 614; 0; 490; 450; 686; 402; 666;
    450; 686; 402; 666; 450; 686; 402; 666; 450; 686; 402; 666; 450; 686; 402; 666; 450; 686; 402; 666; 450; 686; 402; 666; 450; 686; 402; 666; 450; 686;
    402; 666; 450; 686; 489; 0; 154; 614; 0; 490; 450; 686; 402; 666; 450; 686; 402; 666; 450; 686; 402; 666; 450; 686; 402; 666; 450; 686; 402; 666;
    450; 686; 402; 666; 450; 686; 402; 666; 450; 686; 402; 666; 450; 686; 402; 666; 450; 686; 489; 46; 250; 246; 646; 465; 250; 246; 678; 481; 114; 642;
    0; 214; 210; 206; 730; 62; 150; 146; 606; 0; 214; 210; 206; 730; 114; 110; 590; 0; 250; 246; 646; 465; 250; 246; 678; 481; 214; 210; 206; 730;
    517; 134; 130; 126; 506; 429; 502; 425; 570; 0; 154; 614; 0; 490; 450; 686; 402; 666; 450; 686; 402; 666; 450; 686; 402; 666; 450; 686; 402; 666;
    450; 686; 402; 666; 450; 686; 402; 666; 450; 686; 402; 666; 450; 686; 402; 666; 450; 686; 402; 666; 450; 686; 489; 34; 0; 154; 614; 0; 490; 450;
    686; 402; 666; 450; 686; 402; 666; 450; 686; 402; 666; 450; 686; 402; 666; 450; 686; 402; 666; 450; 686; 402; 666; 450; 686; 402; 666; 450; 686; 402;
    666; 450; 686; 402; 666; 450; 686; 489; 30; 125; 550; 0; 154; 618; 0; 250; 114; 110; 590; 246; 242; 758; 166; 162; 158; 522; 226; 222; 690; 493] ++
   [154; 614; 0; 490; 450; 686; 402; 666; 450; 686; 402; 666; 450; 686; 402; 666; 450; 686; 402; 666; 450; 686; 402; 666; 450; 686; 402; 666; 450; 686;
    402; 666; 450; 686; 402; 666; 450; 686; 402; 666; 450; 686; 489; 554; 0; 154; 618; 0; 250; 114; 110; 590; 246; 242; 758; 166; 162; 158; 522; 226;
    222; 690; 493; 154; 614; 0; 490; 450; 686; 402; 666; 450; 686; 402; 666; 450; 686; 402; 666; 450; 686; 402; 666; 450; 686; 402; 666; 450; 686; 402;
    666; 450; 686; 402; 666; 450; 686; 402; 666; 450; 686; 402; 666; 450; 686; 489; 134; 130; 126; 506; 429; 502; 425; 114; 110; 590; 0; 114; 642; 0;
    214; 210; 206; 730; 517; 34; 0; 114; 642; 0; 214; 210; 206; 730; 517; 30; 125; 550; 0; 154; 614; 0; 490; 450; 686; 402; 666; 450; 686; 402;
    666; 450; 686; 402; 666; 450; 686; 402; 666; 450; 686; 402; 666; 450; 686; 402; 666; 450; 686; 402; 666; 450; 686; 402; 666; 450; 686; 402; 666; 450;
    686; 489; 114; 642; 0; 214; 210; 206; 730; 517; 554; 0; 154; 614; 0; 490; 450; 686; 402; 666; 450; 686; 402; 666; 450; 686; 402; 666; 450; 686;
    402; 666; 450; 686; 402; 666; 450; 686; 402; 666; 450; 686; 402; 666; 450; 686; 402; 666; 450; 686; 402; 666; 450; 686; 489; 114; 642; 0; 214; 210;
    206; 730; 517; 134; 130; 126; 506; 429; 502; 425; 46; 250; 246; 646; 465; 250; 246; 242; 758; 166; 162; 158; 522; 445; 202; 94; 198; 654; 473; 54;
    594; 0; 42; 566; 0; 570; 518; 441; 38; 578; 0; 42; 566; 0; 250; 246; 242; 758; 166; 162; 570; 158; 518; 441; 582; 530; 453; 34; 0; 38;
    578; 0; 42; 566; 0; 250; 246; 242; 758; 166; 162; 570; 158; 518; 441; 582; 530; 453; 30; 125; 550; 0; 42; 566; 0; 250; 246; 242; 758; 166;
    162; 570; 158; 518; 441; 38; 578; 0; 154; 610; 0; 490; 438; 682; 402; 666; 438; 682; 402; 666; 438; 682; 402; 666; 438; 682; 402; 666; 438; 682;
    402; 666; 438; 682; 402; 666; 438; 682; 402; 666; 438; 682; 402; 666; 438; 682; 402; 666; 438; 682; 485; 42; 566; 0; 114; 110; 590; 0; 250; 246;
    646; 465; 250; 246; 242; 758; 166; 162; 570; 158; 518; 441; 582; 530; 453; 554; 0; 42; 566; 0; 250; 246; 242; 758; 166; 162; 570; 158; 518; 441;
    38; 578; 0; 154; 610; 0; 490; 438; 682; 402; 666; 438; 682; 402; 666; 438; 682; 402; 666; 438; 682; 402; 666; 438; 682; 402; 666; 438; 682; 402;
    666; 438; 682; 402; 666; 438; 682; 402; 666; 438; 682; 402; 666; 438; 682; 485; 42; 566; 0; 114; 110; 590; 0; 250; 246; 646; 465; 250; 246; 242;
    758; 166; 162; 570; 158; 518; 441; 582; 530; 453; 134; 130; 126; 506; 429; 502; 425; 570; 0; 34; 0; 30; 125; 550; 0; 250; 114; 110; 590; 246;
    242; 758; 166; 162; 158; 522; 42; 38; 578; 0; 250; 114; 110; 590; 246; 242; 758; 166; 162; 158; 522; 42; 582; 530; 453; 554; 0; 250; 114; 110;
    590; 246; 242; 758; 166; 162; 158; 522; 42; 38; 578; 0; 250; 114; 110; 590; 246; 242; 758; 166; 162; 158; 522; 42; 582; 530; 453; 134; 130; 126;
    506; 429; 502; 425; 114; 110; 590; 0; 34; 0; 30; 125; 550; 0; 38; 578; 0; 166; 162; 158; 522; 42; 582; 530; 453; 554; 0; 38; 578; 0] ++
   [166; 162; 158; 522; 42; 582; 530; 453; 134; 130; 126; 506; 429; 502; 425; 46; 250; 246; 646; 465; 250; 246; 242; 758; 166; 162; 158; 522; 445; 582;
    0; 250; 246; 242; 758; 78; 414; 346; 282; 0; 550; 0; 154; 610; 0; 490; 438; 682; 402; 666; 438; 682; 402; 666; 438; 682; 402; 666; 438; 682;
    402; 666; 438; 682; 402; 666; 438; 682; 402; 666; 438; 682; 402; 666; 438; 682; 402; 666; 438; 682; 402; 666; 438; 682; 485; 554; 0; 134; 130; 126;
    506; 429; 502; 425; 586; 22; 121; 182; 178; 634; 0; 542; 0; 114; 110; 106; 102; 494; 417; 34; 0; 542; 0; 114; 110; 106; 102; 494; 417; 30;
    125; 550; 0; 154; 610; 0; 490; 438; 682; 402; 666; 438; 682; 402; 666; 438; 682; 402; 666; 438; 682; 402; 666; 438; 682; 402; 666; 438; 682; 402;
    666; 438; 682; 402; 666; 438; 682; 402; 666; 438; 682; 402; 666; 438; 682; 485; 546; 0; 122; 498; 421; 542; 0; 154; 614; 0; 490; 450; 686; 402;
    666; 450; 686; 402; 666; 450; 686; 402; 666; 450; 686; 402; 666; 450; 686; 402; 666; 450; 686; 402; 666; 450; 686; 402; 666; 450; 686; 489; 610; 0;
    490; 438; 682; 402; 666; 438; 682; 402; 666; 438; 682; 402; 666; 438; 682; 402; 666; 438; 682; 402; 666; 438; 682; 402; 666; 438; 682; 402; 666; 438;
    682; 402; 666; 438; 682; 402; 666; 438; 682; 485; 114; 110; 106; 102; 494; 417; 554; 0; 154; 610; 0; 490; 438; 682; 402; 666; 438; 682; 402; 666;
    438; 682; 402; 666; 438; 682; 402; 666; 438; 682; 402; 666; 438; 682; 402; 666; 438; 682; 402; 666; 438; 682; 402; 666; 438; 682; 402; 666; 438; 682;
    485; 546; 0; 122; 498; 421; 542; 0; 154; 614; 0; 490; 450; 686; 402; 666; 450; 686; 402; 666; 450; 686; 402; 666; 450; 686; 402; 666; 450; 686;
    402; 666; 450; 686; 402; 666; 450; 686; 402; 666; 450; 686; 489; 610; 0; 490; 438; 682; 402; 666; 438; 682; 402; 666; 438; 682; 402; 666; 438; 682;
    402; 666; 438; 682; 402; 666; 438; 682; 402; 666; 438; 682; 402; 666; 438; 682; 402; 666; 438; 682; 402; 666; 438; 682; 485; 114; 110; 106; 102; 494;
    417; 134; 130; 126; 506; 429; 502; 425; 238; 234; 718; 509; 570; 0; 182; 178; 634; 0; 550; 0; 554; 0; 134; 130; 126; 506; 429; 502; 425; 238;
    234; 718; 509; 250; 246; 242; 758; 166; 162; 158; 522; 445; 586; 0; 182; 178; 174; 170; 538; 570; 0; 250; 246; 242; 758; 166; 162; 158; 26; 0;
    182; 74; 410; 342; 278; 121; 250; 246; 242; 758; 166; 162; 158; 522; 445; 182; 178; 174; 170; 538; 461; 182; 178; 174; 170; 534; 457; 194; 202; 198;
    90; 190; 650; 469; 402; 66; 666; 0; 550; 0; 554; 0; 134; 130; 126; 506; 429; 502; 425; 698; 0; 550; 0; 554; 0; 134; 130; 126; 506; 429;
    502; 425; 238; 234; 230; 754; 541; 226; 222; 694; 98; 218; 738; 118; 598; 0; 114; 642; 0; 214; 210; 206; 730; 517; 34; 0; 114; 642; 0; 214;
    210; 206; 730; 517; 30; 125; 550; 0; 150; 146; 606; 0; 166; 622; 0; 238; 234; 702; 497; 250; 246; 678; 481; 114; 642; 0; 214; 210; 206; 730;
    517; 554; 0; 150; 146; 606; 0; 166; 622; 0; 238; 234; 702; 497; 250; 246; 678; 481; 114; 642; 0; 214; 210; 206; 730; 517; 134; 130; 126; 506] ++
   [429; 502; 425; 202; 198; 654; 473; 226; 222; 694; 218; 738; 118; 594; 0; 42; 566; 0; 250; 246; 242; 758; 166; 162; 570; 158; 518; 441; 38; 578;
    0; 42; 566; 0; 250; 246; 242; 758; 166; 162; 570; 158; 518; 441; 582; 530; 453; 34; 0; 42; 566; 0; 250; 246; 242; 758; 166; 162; 570; 158;
    518; 441; 38; 578; 0; 42; 566; 0; 250; 246; 242; 758; 166; 162; 570; 158; 518; 441; 582; 530; 453; 30; 125; 550; 0; 42; 566; 0; 250; 246;
    242; 758; 166; 162; 570; 158; 518; 441; 38; 578; 0; 114; 642; 0; 214; 210; 206; 730; 517; 42; 566; 0; 114; 110; 590; 0; 250; 246; 646; 465;
    250; 246; 242; 758; 166; 162; 570; 158; 518; 441; 582; 530; 453; 554; 0; 42; 566; 0; 250; 246; 242; 758; 166; 162; 570; 158; 518; 441; 38; 578;
    0; 114; 642; 0; 214; 210; 206; 730; 517; 42; 566; 0; 114; 110; 590; 0; 250; 246; 646; 465; 250; 246; 242; 758; 166; 162; 570; 158; 518; 441;
    582; 530; 453; 134; 130; 126; 506; 429; 502; 425; 0; 250; 246; 242; 758; 78; 414; 346; 282; 0; 34; 0; 30; 125; 550; 0; 154; 614; 0; 182;
    178; 174; 586; 170; 534; 202; 198; 686; 489; 554; 0; 154; 614; 0; 182; 178; 174; 586; 170; 534; 202; 198; 686; 489; 134; 130; 126; 506; 429; 502;
    425; 586; 0; 550; 0; 554; 0; 134; 130; 126; 506; 429; 502; 425; 182; 178; 174; 170; 538; 461; 22; 121; 182; 178; 634; 0; 546; 0; 122; 498;
    421; 542; 0; 154; 614; 0; 182; 114; 110; 106; 102; 494; 238; 234; 718; 178; 174; 170; 534; 202; 198; 686; 489; 114; 110; 106; 102; 494; 417; 34;
    0; 546; 0; 122; 498; 421; 542; 0; 154; 614; 0; 182; 114; 110; 106; 102; 494; 238; 234; 718; 178; 174; 170; 534; 202; 198; 686; 489; 114; 110;
    106; 102; 494; 417; 30; 125; 550; 0; 114; 642; 0; 214; 210; 206; 730; 517; 154; 614; 0; 182; 178; 174; 170; 534; 202; 198; 686; 489; 546; 0;
    122; 498; 421; 542; 0; 250; 246; 242; 758; 166; 622; 0; 114; 110; 106; 102; 494; 238; 234; 702; 497; 154; 614; 0; 182; 114; 110; 106; 102; 494;
    238; 234; 718; 178; 174; 170; 534; 202; 198; 686; 489; 114; 110; 106; 102; 494; 417; 554; 0; 114; 642; 0; 214; 210; 206; 730; 517; 154; 614; 0;
    182; 178; 174; 170; 534; 202; 198; 686; 489; 546; 0; 122; 498; 421; 542; 0; 250; 246; 242; 758; 166; 622; 0; 114; 110; 106; 102; 494; 238; 234;
    702; 497; 154; 614; 0; 182; 114; 110; 106; 102; 494; 238; 234; 718; 178; 174; 170; 534; 202; 198; 686; 489; 114; 110; 106; 102; 494; 417; 134; 130;
    126; 506; 429; 502; 425; 238; 234; 718; 509; 610; 0; 478; 430; 682; 402; 658; 0; 478; 734; 521; 430; 682; 485; 182; 178; 174; 170; 534; 457; 194;
    202; 198; 90; 190; 650; 469; 694; 0; 490; 750; 154; 54; 598; 0; 150; 146; 606; 0; 490; 750; 154; 614; 0; 202; 198; 686; 489; 250; 246; 678;
    481; 114; 642; 0; 214; 210; 206; 730; 517; 34; 0; 150; 146; 606; 0; 250; 246; 678; 481; 114; 642; 0; 214; 210; 206; 730; 517; 30; 125; 550;
    0; 150; 146; 606; 0; 490; 750; 154; 614; 0; 566; 0; 638; 0; 226; 222; 218; 750; 250; 114; 110; 590; 246; 242; 758; 166; 162; 158; 518; 202] ++
   [198; 686; 154; 54; 118; 594; 186; 726; 513; 166; 162; 158; 518; 441; 202; 198; 686; 489; 0; 250; 246; 646; 465; 250; 246; 678; 481; 114; 642; 0;
    214; 210; 206; 730; 62; 146; 606; 0; 214; 210; 206; 730; 110; 590; 0; 250; 246; 646; 465; 250; 246; 678; 481; 214; 210; 206; 730; 517; 554; 0;
    150; 146; 606; 0; 490; 750; 154; 614; 0; 566; 0; 166; 162; 158; 518; 441; 202; 198; 686; 489; 250; 246; 678; 481; 114; 642; 0; 214; 210; 206;
    730; 62; 146; 606; 0; 250; 246; 678; 481; 214; 210; 206; 730; 517; 134; 130; 126; 506; 429; 502; 425; 182; 178; 630; 0; 50; 558; 0; 150; 146;
    142; 562; 138; 510; 433; 34; 0; 558; 0; 562; 510; 433; 30; 125; 550; 0; 50; 558; 0; 150; 146; 142; 562; 138; 510; 433; 554; 0; 50; 558;
    0; 150; 146; 142; 562; 138; 510; 433; 134; 130; 126; 506; 429; 502; 425; 226; 222; 714; 505; 202; 198; 654; 473; 226; 222; 218; 750; 154; 54; 118;
    594; 0; 38; 578; 0; 566; 0; 250; 246; 242; 758; 166; 162; 158; 518; 441; 582; 530; 453; 34; 0; 38; 578; 0; 582; 530; 453; 30; 125; 550;
    0; 566; 0; 250; 246; 242; 758; 166; 162; 158; 518; 441; 38; 578; 0; 566; 0; 250; 246; 242; 758; 166; 162; 158; 518; 441; 582; 530; 453; 554;
    0; 566; 0; 250; 246; 242; 758; 166; 162; 158; 518; 441; 38; 578; 0; 566; 0; 250; 246; 242; 758; 166; 162; 158; 518; 441; 582; 530; 453; 134;
    130; 126; 506; 429; 502; 425; 226; 222; 218; 750; 154; 610; 0; 478; 430; 682; 402; 658; 0; 478; 734; 521; 430; 682; 485; 0; 550; 0; 554; 0;
    134; 130; 126; 506; 429; 502; 425; 182; 178; 634; 0; 34; 0; 30; 125; 550; 0; 542; 0; 114; 110; 106; 102; 494; 417; 554; 0; 542; 0; 114;
    110; 106; 102; 494; 417; 134; 130; 126; 506; 429; 502; 425; 238; 234; 718; 509; 226; 222; 218; 750; 154; 610; 0; 478; 430; 682; 402; 658; 0; 478;
    734; 521; 430; 682; 485; 182; 178; 174; 170; 534; 457; 194; 202; 198; 90; 190; 650; 469; 537; 570; 0; 250; 246; 242; 758; 166; 162; 158; 522; 226;
    222; 694; 218; 738; 118; 594; 0; 38; 578; 0; 582; 530; 453; 34; 0; 30; 125; 550; 0; 38; 578; 0; 114; 110; 590; 0; 250; 246; 646; 465;
    582; 530; 453; 554; 0; 38; 578; 0; 114; 110; 590; 0; 250; 246; 646; 465; 582; 530; 453; 134; 130; 126; 506; 429; 502; 425; 582; 0; 182; 178;
    634; 0; 550; 0; 542; 0; 114; 110; 106; 102; 494; 417; 554; 0; 542; 0; 114; 110; 106; 102; 494; 417; 134; 130; 126; 506; 429; 502; 425; 238;
    234; 718; 509; 182; 178; 174; 170; 534; 457; 194; 202; 198; 90; 190; 650; 469; 694; 0; 46; 250; 246; 242; 758; 166; 162; 158; 522; 226; 222; 218;
    750; 154; 54; 594; 0; 194; 202; 198; 90; 190; 650; 469; 46; 250; 246; 242; 758; 166; 162; 158; 522; 226; 222; 218; 750; 537; 250; 246; 242; 758;
    166; 162; 158; 522; 445; 226; 222; 218; 738; 525; 562; 0; 114; 62; 150; 674; 0; 214; 210; 206; 746; 533; 570; 0; 150; 146; 606; 0; 250; 246;
    678; 481; 250; 246; 242; 758; 166; 162; 158; 522; 445; 154; 54; 118; 598; 0; 114; 62; 150; 674; 0; 550; 0; 554; 0; 134; 130; 126; 506; 429] ++
   [502; 425; 214; 210; 206; 746; 533; 570; 0; 114; 62; 150; 146; 606; 0; 150; 674; 0; 214; 210; 206; 746; 533; 250; 246; 678; 481; 250; 246; 242;
    758; 166; 162; 158; 522; 445; 202; 198; 654; 473; 594; 0; 114; 62; 150; 674; 0; 214; 210; 206; 746; 533; 570; 0; 150; 146; 606; 0; 250; 246;
    678; 481; 250; 246; 242; 758; 166; 162; 158; 522; 445; 582; 0; 182; 178; 634; 0; 258; 514; 238; 234; 718; 509; 570; 0; 250; 246; 242; 758; 166;
    162; 158; 522; 445; 586; 0; 182; 178; 174; 170; 538; 461; 182; 178; 174; 170; 534; 457; 194; 202; 198; 90; 190; 650; 469; 66; 666; 0; 226; 222;
    694; 218; 738; 118; 598; 0; 150; 674; 0; 214; 210; 206; 746; 533; 202; 198; 654; 473; 226; 222; 694; 218; 738; 118; 594; 0; 114; 62; 150; 674;
    0; 550; 0; 554; 0; 134; 130; 126; 506; 429; 502; 425; 214; 210; 206; 746; 533; 582; 0; 182; 178; 634; 0; 258; 514; 238; 234; 718; 509; 174;
    170; 534; 457; 194; 202; 198; 90; 190; 650; 469; 694; 0; 490; 750; 154; 54; 598; 0; 114; 62; 150; 674; 0; 214; 210; 206; 746; 533; 182; 178;
    630; 0; 150; 674; 0; 214; 210; 206; 746; 533; 226; 222; 714; 505; 202; 198; 654; 473; 226; 222; 218; 750; 154; 54; 118; 594; 0; 150; 674; 0;
    214; 210; 206; 746; 533; 226; 222; 218; 750; 154; 610; 0; 478; 430; 682; 402; 658; 0; 478; 734; 521; 430; 682; 485; 582; 0; 226; 222; 218; 750;
    154; 610; 0; 194; 182; 178; 174; 170; 534; 202; 198; 90; 190; 682; 485; 182; 178; 174; 170; 534; 457; 194; 202; 198; 90; 190; 650; 469; 226; 222;
    218; 750; 537; 570; 0; 250; 114; 110; 590; 246; 242; 758; 166; 162; 158; 522; 226; 222; 218; 738; 118; 594; 0; 194; 190; 650; 469; 114; 110; 590;
    0; 46; 250; 246; 646; 465; 694; 0; 250; 246; 242; 758; 166; 162; 158; 522; 226; 222; 218; 750; 537; 250; 246; 242; 758; 166; 162; 158; 522; 445;
    226; 222; 218; 738; 525; 150; 146; 142; 114; 110; 106; 102; 14; 138; 514; 437; 250; 246; 242; 758; 545; 86; 422; 354; 290; 0; 638; 0; 150; 146;
    606; 0; 250; 246; 678; 481; 194; 190; 186; 726; 513; 114; 642; 0; 214; 210; 206; 730; 517; 34; 0; 638; 0; 194; 190; 186; 726; 513; 114; 642;
    0; 214; 210; 206; 730; 517; 30; 125; 550; 0; 638; 0; 542; 0; 114; 110; 106; 102; 494; 546; 0; 150; 674; 0; 214; 210; 206; 746; 533; 114;
    110; 106; 102; 10; 122; 498; 421; 150; 146; 606; 0; 114; 110; 106; 102; 494; 546; 0; 114; 110; 106; 102; 10; 122; 498; 421; 250; 246; 678; 481;
    0; 150; 674; 0; 114; 642; 746; 533; 150; 146; 606; 0; 250; 246; 678; 481; 122; 6; 97; 494; 417; 194; 190; 186; 726; 513; 114; 642; 0; 638;
    0; 542; 0; 214; 210; 206; 730; 110; 106; 102; 494; 417; 194; 190; 186; 726; 513; 214; 210; 206; 730; 517; 554; 0; 638; 0; 542; 0; 114; 110;
    106; 102; 494; 546; 0; 150; 674; 0; 214; 210; 206; 746; 533; 114; 110; 106; 102; 10; 122; 498; 421; 150; 146; 606; 0; 114; 110; 106; 102; 494;
    546; 0; 114; 110; 106; 102; 10; 498; 421; 250; 246; 678; 481; 0; 150; 674; 0; 114; 642; 746; 533; 150; 146; 606; 0; 250; 246; 678; 481; 122] ++
   [6; 97; 494; 417; 194; 190; 186; 726; 513; 114; 642; 0; 638; 0; 542; 0; 214; 210; 206; 730; 110; 106; 102; 494; 417; 194; 190; 186; 726; 513;
    214; 210; 206; 730; 517; 134; 130; 126; 506; 429; 502; 425; 570; 0; 118; 602; 0; 114; 642; 0; 214; 210; 206; 730; 517; 166; 162; 158; 522; 226;
    222; 662; 477; 34; 0; 118; 602; 0; 114; 642; 0; 214; 210; 206; 730; 517; 166; 162; 158; 522; 226; 222; 662; 477; 30; 125; 550; 0; 66; 670;
    0; 698; 742; 529; 118; 602; 0; 638; 0; 194; 190; 186; 726; 513; 114; 642; 0; 214; 210; 206; 730; 517; 166; 162; 158; 522; 226; 222; 662; 477;
    554; 0; 66; 670; 0; 698; 742; 529; 118; 602; 0; 638; 0; 194; 190; 186; 726; 513; 114; 642; 0; 214; 210; 206; 730; 517; 166; 162; 158; 522;
    226; 222; 662; 477; 134; 130; 126; 506; 429; 502; 425; 698; 0; 238; 234; 230; 754; 154; 54; 118; 602; 0; 542; 0; 114; 110; 106; 102; 494; 417;
    166; 162; 158; 522; 226; 238; 234; 230; 754; 154; 618; 222; 662; 477; 34; 0; 154; 54; 118; 602; 0; 166; 162; 158; 522; 226; 238; 234; 230; 754;
    154; 618; 222; 662; 477; 30; 125; 550; 0; 114; 642; 0; 214; 210; 206; 730; 517; 238; 234; 230; 754; 154; 54; 118; 602; 0; 546; 0; 122; 498;
    421; 542; 0; 114; 110; 106; 102; 494; 546; 0; 122; 498; 421; 114; 110; 106; 102; 494; 417; 166; 162; 158; 522; 226; 238; 234; 230; 754; 154; 618;
    222; 662; 477; 554; 0; 114; 642; 0; 214; 210; 206; 730; 517; 238; 234; 230; 754; 154; 54; 118; 602; 0; 546; 0; 122; 498; 421; 542; 0; 114;
    110; 106; 102; 494; 546; 0; 122; 498; 421; 114; 110; 106; 102; 494; 417; 166; 162; 158; 522; 226; 238; 234; 230; 754; 154; 618; 222; 662; 477; 134;
    130; 126; 506; 429; 502; 425; 541; 0; 638; 0; 194; 190; 186; 726; 513; 114; 642; 0; 214; 210; 206; 730; 517; 34; 0; 114; 642; 0; 214; 210;
    206; 730; 517; 30; 125; 550; 0; 638; 0; 166; 626; 0; 150; 146; 606; 706; 501; 150; 146; 606; 0; 250; 246; 678; 481; 194; 190; 186; 726; 513;
    114; 642; 0; 214; 210; 206; 730; 517; 554; 0; 638; 0; 166; 626; 0; 150; 146; 606; 706; 501; 150; 146; 606; 0; 250; 246; 678; 481; 194; 190;
    186; 726; 513; 114; 642; 0; 214; 210; 206; 730; 517; 134; 130; 126; 506; 429; 502; 425; 166; 162; 158; 522; 226; 222; 690; 493; 166; 162; 158; 522;
    445; 154; 54; 118; 598; 0; 154; 618; 0; 226; 222; 690; 493; 154; 614; 0; 490; 450; 686; 402; 666; 450; 686; 402; 666; 450; 686; 402; 666; 450;
    686; 402; 666; 450; 686; 402; 666; 450; 686; 402; 666; 450; 686; 402; 666; 450; 686; 402; 666; 450; 686; 402; 666; 450; 686; 489; 114; 642; 0; 154;
    614; 0; 490; 450; 686; 402; 666; 450; 686; 402; 666; 450; 686; 402; 666; 450; 686; 402; 666; 450; 686; 402; 666; 450; 686; 402; 666; 450; 686; 402;
    666; 450; 686; 402; 666; 450; 686; 402; 666; 450; 686; 489; 214; 210; 206; 730; 517; 34; 0; 154; 614; 0; 490; 450; 686; 402; 666; 450; 686; 402;
    666; 450; 686; 402; 666; 450; 686; 402; 666; 450; 686; 402; 666; 450; 686; 402; 666; 450; 686; 402; 666; 450; 686; 402; 666; 450; 686; 402; 666; 450] ++
   [686; 489; 114; 642; 0; 154; 614; 0; 490; 450; 686; 402; 666; 450; 686; 402; 666; 450; 686; 402; 666; 450; 686; 402; 666; 450; 686; 402; 666; 450;
    686; 402; 666; 450; 686; 402; 666; 450; 686; 402; 666; 450; 686; 402; 666; 450; 686; 489; 214; 210; 206; 730; 517; 30; 125; 550; 0; 698; 0; 166;
    622; 0; 238; 234; 702; 497; 230; 754; 154; 618; 0; 638; 0; 202; 226; 222; 690; 154; 614; 198; 654; 118; 594; 186; 726; 513; 226; 222; 690; 493;
    541; 154; 614; 0; 490; 450; 686; 402; 666; 450; 686; 402; 666; 450; 686; 402; 666; 450; 686; 402; 666; 450; 686; 402; 666; 450; 686; 402; 666; 450;
    686; 402; 666; 450; 686; 402; 666; 450; 686; 402; 666; 450; 686; 489; 114; 642; 0; 154; 614; 0; 490; 450; 686; 402; 666; 450; 686; 402; 666; 450;
    686; 402; 666; 450; 686; 402; 666; 450; 686; 402; 666; 450; 686; 402; 666; 450; 686; 402; 666; 450; 686; 402; 666; 450; 686; 402; 666; 450; 686; 489;
    214; 210; 206; 730; 517; 554; 0; 698; 0; 166; 622; 0; 238; 234; 702; 497; 230; 754; 154; 618; 0; 638; 0; 202; 226; 222; 690; 154; 614; 198;
    654; 118; 594; 186; 726; 513; 226; 222; 690; 493; 541; 154; 614; 0; 490; 450; 686; 402; 666; 450; 686; 402; 666; 450; 686; 402; 666; 450; 686; 402;
    666; 450; 686; 402; 666; 450; 686; 402; 666; 450; 686; 402; 666; 450; 686; 402; 666; 450; 686; 402; 666; 450; 686; 489; 114; 642; 0; 154; 614; 0;
    490; 450; 686; 402; 666; 450; 686; 402; 666; 450; 686; 402; 666; 450; 686; 402; 666; 450; 686; 402; 666; 450; 686; 402; 666; 450; 686; 402; 666; 450;
    686; 402; 666; 450; 686; 402; 666; 450; 686; 489; 214; 210; 206; 730; 517; 134; 130; 126; 506; 429; 502; 425; 570; 0; 638; 0; 202; 166; 162; 158;
    522; 226; 154; 618; 222; 94; 198; 654; 118; 594; 186; 726; 513; 154; 618; 0; 166; 162; 158; 522; 226; 222; 690; 493; 154; 614; 0; 490; 450; 686;
    402; 666; 450; 686; 402; 666; 450; 686; 402; 666; 450; 686; 402; 666; 450; 686; 402; 666; 450; 686; 402; 666; 450; 686; 402; 666; 450; 686; 402; 666;
    450; 686; 402; 666; 450; 686; 489; 114; 642; 0; 154; 614; 0; 490; 450; 686; 402; 666; 450; 686; 402; 666; 450; 686; 402; 666; 450; 686; 402; 666;
    450; 686; 402; 666; 450; 686; 402; 666; 450; 686; 402; 666; 450; 686; 402; 666; 450; 686; 402; 666; 450; 686; 489; 214; 210; 206; 730; 517; 34; 0;
    154; 618; 0; 166; 162; 158; 522; 226; 222; 690; 493; 154; 614; 0; 490; 450; 686; 402; 666; 450; 686; 402; 666; 450; 686; 402; 666; 450; 686; 402;
    666; 450; 686; 402; 666; 450; 686; 402; 666; 450; 686; 402; 666; 450; 686; 402; 666; 450; 686; 402; 666; 450; 686; 489; 114; 642; 0; 154; 614; 0;
    490; 450; 686; 402; 666; 450; 686; 402; 666; 450; 686; 402; 666; 450; 686; 402; 666; 450; 686; 402; 666; 450; 686; 402; 666; 450; 686; 402; 666; 450;
    686; 402; 666; 450; 686; 402; 666; 450; 686; 489; 214; 210; 206; 730; 517; 30; 125; 550; 0; 638; 0; 202; 166; 162; 158; 522; 226; 222; 94; 198;
    654; 118; 594; 186; 726; 513; 698; 0; 638; 0; 202; 166; 162; 158; 522; 226; 238; 234; 230; 754; 154; 618; 222; 94; 198; 654; 118; 594; 186; 726] ++
   [513; 154; 618; 0; 166; 162; 158; 522; 226; 222; 690; 493; 541; 154; 614; 0; 490; 450; 686; 402; 666; 450; 686; 402; 666; 450; 686; 402; 666; 450;
    686; 402; 666; 450; 686; 402; 666; 450; 686; 402; 666; 450; 686; 402; 666; 450; 686; 402; 666; 450; 686; 402; 666; 450; 686; 489; 114; 642; 0; 638;
    0; 202; 166; 162; 158; 522; 226; 154; 618; 222; 94; 198; 654; 118; 594; 186; 726; 513; 154; 618; 0; 166; 162; 158; 522; 226; 222; 690; 493; 154;
    614; 0; 490; 450; 686; 402; 666; 450; 686; 402; 666; 450; 686; 402; 666; 450; 686; 402; 666; 450; 686; 402; 666; 450; 686; 402; 666; 450; 686; 402;
    666; 450; 686; 402; 666; 450; 686; 402; 666; 450; 686; 489; 214; 210; 206; 730; 517; 554; 0; 638; 0; 202; 166; 162; 158; 522; 226; 222; 94; 198;
    654; 118; 594; 186; 726; 513; 698; 0; 638; 0; 202; 166; 162; 158; 522; 226; 238; 234; 230; 754; 154; 618; 222; 94; 198; 654; 118; 594; 186; 726;
    513; 154; 618; 0; 166; 162; 158; 522; 226; 222; 690; 493; 541; 154; 614; 0; 490; 450; 686; 402; 666; 450; 686; 402; 666; 450; 686; 402; 666; 450;
    686; 402; 666; 450; 686; 402; 666; 450; 686; 402; 666; 450; 686; 402; 666; 450; 686; 402; 666; 450; 686; 402; 666; 450; 686; 489; 114; 642; 0; 638;
    0; 202; 166; 162; 158; 522; 226; 154; 618; 222; 94; 198; 654; 118; 594; 186; 726; 513; 154; 618; 0; 166; 162; 158; 522; 226; 222; 690; 493; 154;
    614; 0; 490; 450; 686; 402; 666; 450; 686; 402; 666; 450; 686; 402; 666; 450; 686; 402; 666; 450; 686; 402; 666; 450; 686; 402; 666; 450; 686; 402;
    666; 450; 686; 402; 666; 450; 686; 402; 666; 450; 686; 489; 214; 210; 206; 730; 517; 134; 130; 126; 506; 429; 502; 425; 166; 162; 158; 522; 445; 202;
    94; 198; 654; 473; 54; 594; 0; 38; 578; 0; 42; 566; 0; 154; 610; 0; 490; 438; 682; 402; 666; 438; 682; 402; 666; 438; 682; 402; 666; 438;
    682; 402; 666; 438; 682; 402; 666; 438; 682; 402; 666; 438; 682; 402; 666; 438; 682; 402; 666; 438; 682; 402; 666; 438; 682; 485; 570; 518; 441; 582;
    530; 453; 34; 0; 38; 578; 0; 42; 566; 0; 570; 518; 441; 582; 530; 453; 30; 125; 550; 0; 42; 566; 0; 154; 610; 0; 490; 438; 682; 402;
    666; 438; 682; 402; 666; 438; 682; 402; 666; 438; 682; 402; 666; 438; 682; 402; 666; 438; 682; 402; 666; 438; 682; 402; 666; 438; 682; 402; 666; 438;
    682; 402; 666; 438; 682; 485; 570; 518; 441; 38; 578; 0; 42; 566; 0; 154; 614; 0; 490; 450; 686; 402; 666; 450; 686; 402; 666; 450; 686; 402;
    666; 450; 686; 402; 666; 450; 686; 402; 666; 450; 686; 402; 666; 450; 686; 402; 666; 450; 686; 489; 610; 0; 490; 438; 682; 402; 666; 438; 682; 402;
    666; 438; 682; 402; 666; 438; 682; 402; 666; 438; 682; 402; 666; 438; 682; 402; 666; 438; 682; 402; 666; 438; 682; 402; 666; 438; 682; 402; 666; 438;
    682; 485; 570; 518; 441; 582; 530; 453; 554; 0; 42; 566; 0; 154; 610; 0; 490; 438; 682; 402; 666; 438; 682; 402; 666; 438; 682; 402; 666; 438;
    682; 402; 666; 438; 682; 402; 666; 438; 682; 402; 666; 438; 682; 402; 666; 438; 682; 402; 666; 438; 682; 402; 666; 438; 682; 485; 570; 518; 441; 38] ++
   [578; 0; 42; 566; 0; 154; 614; 0; 490; 450; 686; 402; 666; 450; 686; 402; 666; 450; 686; 402; 666; 450; 686; 402; 666; 450; 686; 402; 666; 450;
    686; 402; 666; 450; 686; 402; 666; 450; 686; 489; 610; 0; 490; 438; 682; 402; 666; 438; 682; 402; 666; 438; 682; 402; 666; 438; 682; 402; 666; 438;
    682; 402; 666; 438; 682; 402; 666; 438; 682; 402; 666; 438; 682; 402; 666; 438; 682; 402; 666; 438; 682; 485; 570; 518; 441; 582; 530; 453; 134; 130;
    126; 506; 429; 502; 425; 570; 0; 166; 162; 158; 522; 42; 38; 578; 0; 154; 614; 0; 490; 450; 686; 402; 666; 450; 686; 402; 666; 450; 686; 402;
    666; 450; 686; 402; 666; 450; 686; 402; 666; 450; 686; 402; 666; 450; 686; 402; 666; 450; 686; 489; 610; 0; 490; 438; 682; 402; 666; 438; 682; 402;
    666; 438; 682; 402; 666; 438; 682; 402; 666; 438; 682; 402; 666; 438; 682; 402; 666; 438; 682; 402; 666; 438; 682; 402; 666; 438; 682; 402; 666; 438;
    682; 485; 166; 162; 158; 522; 42; 582; 530; 453; 34; 0; 166; 162; 158; 522; 42; 38; 578; 0; 154; 610; 0; 490; 438; 682; 402; 666; 438; 682;
    402; 666; 438; 682; 402; 666; 438; 682; 402; 666; 438; 682; 402; 666; 438; 682; 402; 666; 438; 682; 402; 666; 438; 682; 402; 666; 438; 682; 402; 666;
    438; 682; 485; 166; 162; 158; 522; 42; 582; 530; 453; 30; 125; 550; 0; 154; 614; 0; 490; 450; 686; 402; 666; 450; 686; 402; 666; 450; 686; 402;
    666; 450; 686; 402; 666; 450; 686; 402; 666; 450; 686; 402; 666; 450; 686; 402; 666; 450; 686; 489; 610; 0; 490; 438; 682; 402; 666; 438; 682; 402;
    666; 438; 682; 402; 666; 438; 682; 402; 666; 438; 682; 402; 666; 438; 682; 402; 666; 438; 682; 402; 666; 438; 682; 402; 666; 438; 682; 402; 666; 438;
    682; 485; 166; 162; 158; 522; 42; 38; 578; 0; 154; 618; 0; 166; 162; 158; 522; 226; 222; 690; 493; 154; 614; 0; 490; 450; 686; 402; 666; 450;
    686; 402; 666; 450; 686; 402; 666; 450; 686; 402; 666; 450; 686; 402; 666; 450; 686; 402; 666; 450; 686; 402; 666; 450; 686; 489; 610; 0; 490; 438;
    682; 402; 666; 438; 682; 402; 666; 438; 682; 402; 666; 438; 682; 402; 666; 438; 682; 402; 666; 438; 682; 402; 666; 438; 682; 402; 666; 438; 682; 402;
    666; 438; 682; 402; 666; 438; 682; 485; 166; 162; 158; 522; 42; 582; 530; 453; 554; 0; 154; 614; 0; 490; 450; 686; 402; 666; 450; 686; 402; 666;
    450; 686; 402; 666; 450; 686; 402; 666; 450; 686; 402; 666; 450; 686; 402; 666; 450; 686; 402; 666; 450; 686; 489; 610; 0; 490; 438; 682; 402; 666;
    438; 682; 402; 666; 438; 682; 402; 666; 438; 682; 402; 666; 438; 682; 402; 666; 438; 682; 402; 666; 438; 682; 402; 666; 438; 682; 402; 666; 438; 682;
    402; 666; 438; 682; 485; 166; 162; 158; 522; 42; 38; 578; 0; 154; 618; 0; 166; 162; 158; 522; 226; 222; 690; 493; 154; 614; 0; 490; 450; 686;
    402; 666; 450; 686; 402; 666; 450; 686; 402; 666; 450; 686; 402; 666; 450; 686; 402; 666; 450; 686; 402; 666; 450; 686; 402; 666; 450; 686; 489; 610;
    0; 490; 438; 682; 402; 666; 438; 682; 402; 666; 438; 682; 402; 666; 438; 682; 402; 666; 438; 682; 402; 666; 438; 682; 402; 666; 438; 682; 402; 666] ++
   [438; 682; 402; 666; 438; 682; 402; 666; 438; 682; 485; 166; 162; 158; 522; 42; 582; 530; 453; 134; 130; 126; 506; 429; 502; 425; 445; 0; 550; 0;
    554; 0; 134; 130; 126; 506; 429; 502; 425; 78; 414; 346; 282; 0; 586; 182; 74; 22; 410; 342; 278; 121; 182; 178; 634; 0; 542; 0; 114; 110;
    106; 102; 494; 417; 34; 0; 542; 0; 114; 110; 106; 102; 494; 417; 30; 125; 550; 0; 546; 0; 122; 498; 421; 542; 0; 154; 610; 0; 490; 438;
    682; 402; 666; 438; 682; 402; 666; 438; 682; 402; 666; 438; 682; 402; 666; 438; 682; 402; 666; 438; 682; 402; 666; 438; 682; 402; 666; 438; 682; 402;
    666; 438; 682; 402; 666; 438; 682; 485; 114; 110; 106; 102; 494; 417; 554; 0; 546; 0; 122; 498; 421; 542; 0; 154; 610; 0; 490; 438; 682; 402;
    666; 438; 682; 402; 666; 438; 682; 402; 666; 438; 682; 402; 666; 438; 682; 402; 666; 438; 682; 402; 666; 438; 682; 402; 666; 438; 682; 402; 666; 438;
    682; 402; 666; 438; 682; 485; 114; 110; 106; 102; 494; 417; 134; 130; 126; 506; 429; 502; 425; 238; 234; 718; 509; 570; 0; 550; 0; 554; 0; 134;
    130; 126; 506; 429; 502; 425; 182; 178; 634; 0; 542; 0; 114; 110; 106; 102; 494; 417; 34; 0; 542; 0; 114; 110; 106; 102; 494; 417; 30; 125;
    550; 0; 546; 0; 122; 498; 421; 542; 0; 154; 610; 0; 490; 438; 682; 402; 666; 438; 682; 402; 666; 438; 682; 402; 666; 438; 682; 402; 666; 438;
    682; 402; 666; 438; 682; 402; 666; 438; 682; 402; 666; 438; 682; 402; 666; 438; 682; 402; 666; 438; 682; 485; 114; 110; 106; 102; 494; 417; 554; 0;
    546; 0; 122; 498; 421; 542; 0; 154; 610; 0; 490; 438; 682; 402; 666; 438; 682; 402; 666; 438; 682; 402; 666; 438; 682; 402; 666; 438; 682; 402;
    666; 438; 682; 402; 666; 438; 682; 402; 666; 438; 682; 402; 666; 438; 682; 402; 666; 438; 682; 485; 114; 110; 106; 102; 494; 417; 134; 130; 126; 506;
    429; 502; 425; 238; 234; 718; 509; 166; 162; 158; 522; 445; 586; 0; 34; 0; 30; 125; 550; 0; 154; 614; 0; 490; 450; 686; 402; 666; 450; 686;
    402; 666; 450; 686; 402; 666; 450; 686; 402; 666; 450; 686; 402; 666; 450; 686; 402; 666; 450; 686; 402; 666; 450; 686; 489; 610; 0; 490; 438; 682;
    402; 666; 438; 682; 402; 666; 438; 682; 402; 666; 438; 682; 402; 666; 438; 682; 402; 666; 438; 682; 402; 666; 438; 682; 402; 666; 438; 682; 402; 666;
    438; 682; 402; 666; 438; 682; 485; 554; 0; 154; 610; 0; 490; 438; 682; 402; 666; 438; 682; 402; 666; 438; 682; 402; 666; 438; 682; 402; 666; 438;
    682; 402; 666; 438; 682; 402; 666; 438; 682; 402; 666; 438; 682; 402; 666; 438; 682; 402; 666; 438; 682; 485; 134; 130; 126; 506; 429; 502; 425; 166;
    162; 158; 26; 0; 182; 178; 174; 170; 538; 570; 0; 550; 0; 554; 0; 134; 130; 126; 506; 429; 502; 425; 182; 178; 58; 166; 162; 158; 522; 445;
    342; 278; 121; 182; 178; 174; 170; 538; 461; 182; 178; 174; 170; 534; 457; 194; 202; 198; 90; 190; 650; 469; 402; 66; 666; 0; 698; 0; 238; 234;
    230; 754; 541; 226; 222; 694; 98; 218; 738; 118; 598; 0; 114; 642; 0; 214; 210; 206; 730; 517; 34; 0; 114; 642; 0; 214; 210; 206; 730; 517] ++
   [30; 125; 550; 0; 638; 0; 226; 222; 218; 738; 202; 154; 614; 198; 654; 118; 594; 186; 726; 513; 0; 202; 198; 686; 489; 114; 642; 0; 214; 210;
    206; 730; 517; 554; 0; 638; 0; 226; 222; 218; 738; 202; 154; 614; 198; 654; 118; 594; 186; 726; 513; 0; 202; 198; 686; 489; 114; 642; 0; 214;
    210; 206; 730; 517; 134; 130; 126; 506; 429; 502; 425; 202; 198; 654; 473; 226; 222; 694; 218; 738; 54; 118; 594; 0; 42; 566; 0; 570; 518; 441;
    38; 578; 0; 42; 566; 0; 114; 642; 0; 214; 210; 206; 730; 517; 154; 614; 0; 166; 162; 570; 158; 518; 202; 198; 686; 489; 570; 518; 441; 582;
    530; 453; 34; 0; 566; 0; 570; 518; 441; 38; 578; 0; 42; 566; 0; 154; 614; 0; 166; 162; 570; 158; 518; 202; 198; 686; 489; 570; 518; 441;
    582; 530; 453; 30; 125; 550; 0; 42; 566; 0; 154; 614; 0; 166; 162; 570; 158; 518; 202; 198; 686; 489; 570; 518; 441; 38; 578; 0; 114; 642;
    0; 214; 210; 206; 730; 517; 42; 566; 0; 114; 642; 0; 214; 210; 206; 730; 517; 154; 614; 0; 114; 642; 0; 214; 210; 206; 730; 517; 166; 162;
    570; 158; 518; 202; 198; 686; 489; 570; 518; 441; 582; 530; 453; 554; 0; 42; 566; 0; 154; 614; 0; 166; 162; 570; 158; 518; 202; 198; 686; 489;
    570; 518; 441; 38; 578; 0; 114; 642; 0; 214; 210; 206; 730; 517; 42; 566; 0; 114; 642; 0; 214; 210; 206; 730; 517; 154; 614; 0; 114; 642;
    0; 214; 210; 206; 730; 517; 166; 162; 570; 158; 518; 202; 198; 686; 489; 570; 518; 441; 582; 530; 453; 134; 130; 126; 506; 429; 502; 425; 610; 0;
    478; 430; 682; 402; 658; 0; 478; 734; 521; 430; 682; 485; 0; 550; 0; 154; 614; 0; 182; 178; 174; 570; 26; 170; 534; 202; 198; 686; 489; 554;
    0; 154; 614; 0; 182; 178; 174; 570; 26; 170; 534; 202; 198; 686; 489; 134; 130; 126; 506; 429; 502; 425; 78; 414; 346; 282; 0; 586; 0; 182;
    178; 174; 170; 538; 461; 182; 74; 22; 410; 342; 278; 121; 182; 178; 634; 0; 546; 0; 122; 498; 421; 542; 0; 154; 614; 0; 182; 114; 110; 106;
    102; 494; 238; 234; 718; 178; 174; 170; 534; 202; 198; 686; 489; 114; 110; 106; 102; 494; 417; 34; 0; 542; 0; 114; 110; 106; 102; 494; 417; 30;
    125; 550; 0; 154; 614; 0; 182; 178; 174; 170; 534; 202; 198; 686; 489; 546; 0; 122; 498; 421; 542; 0; 166; 622; 0; 114; 110; 106; 102; 494;
    238; 234; 702; 497; 154; 614; 0; 182; 114; 110; 106; 102; 494; 238; 234; 718; 178; 174; 170; 534; 202; 198; 686; 489; 114; 110; 106; 102; 494; 417;
    554; 0; 154; 614; 0; 182; 178; 174; 170; 534; 202; 198; 686; 489; 546; 0; 122; 498; 421; 542; 0; 166; 622; 0; 114; 110; 106; 102; 494; 238;
    234; 702; 497; 154; 614; 0; 182; 114; 110; 106; 102; 494; 238; 234; 718; 178; 174; 170; 534; 202; 198; 686; 489; 114; 110; 106; 102; 494; 417; 134;
    130; 126; 506; 429; 502; 425; 238; 234; 718; 509; 610; 0; 570; 26; 0; 182; 74; 410; 342; 278; 121; 194; 182; 178; 174; 170; 534; 202; 198; 90;
    190; 682; 485; 182; 178; 174; 170; 534; 457; 194; 202; 198; 90; 190; 650; 469; 694; 0; 490; 750; 154; 54; 598; 0; 490; 750; 154; 614; 0; 202] ++
   [198; 686; 489; 114; 642; 0; 214; 210; 206; 730; 517; 34; 0; 490; 750; 154; 614; 0; 202; 198; 686; 489; 114; 642; 0; 214; 210; 206; 730; 517;
    30; 125; 550; 0; 490; 750; 154; 614; 0; 566; 0; 638; 0; 226; 222; 218; 750; 166; 162; 158; 518; 202; 198; 686; 154; 54; 118; 594; 186; 726;
    513; 441; 202; 198; 686; 489; 114; 642; 0; 490; 750; 154; 614; 0; 202; 198; 686; 489; 214; 210; 206; 730; 517; 554; 0; 490; 750; 154; 614; 0;
    566; 0; 638; 0; 226; 222; 218; 750; 166; 162; 158; 518; 202; 198; 686; 154; 54; 118; 594; 186; 726; 513; 441; 202; 198; 686; 489; 114; 642; 0;
    490; 750; 154; 614; 0; 202; 198; 686; 489; 214; 210; 206; 730; 517; 134; 130; 126; 506; 429; 502; 425; 182; 178; 630; 0; 558; 0; 562; 510; 433;
    34; 0; 558; 0; 562; 510; 433; 30; 125; 550; 0; 50; 558; 0; 150; 146; 142; 562; 138; 510; 433; 554; 0; 50; 558; 0; 150; 146; 142; 562;
    138; 510; 433; 134; 130; 126; 506; 429; 502; 425; 226; 222; 714; 505; 202; 198; 654; 473; 226; 222; 218; 750; 154; 54; 118; 594; 0; 38; 578; 0;
    582; 530; 453; 34; 0; 38; 578; 0; 582; 530; 453; 30; 125; 550; 0; 38; 578; 0; 566; 0; 490; 750; 154; 614; 0; 182; 178; 630; 0; 226;
    222; 714; 505; 166; 162; 158; 518; 202; 198; 686; 489; 441; 174; 170; 530; 453; 554; 0; 38; 578; 0; 566; 0; 490; 750; 154; 614; 0; 182; 178;
    630; 0; 226; 222; 714; 505; 166; 162; 158; 518; 202; 198; 686; 489; 441; 174; 170; 530; 453; 134; 130; 126; 506; 429; 502; 425; 226; 222; 218; 750;
    154; 610; 0; 478; 430; 682; 402; 658; 0; 478; 734; 521; 430; 682; 485; 0; 182; 178; 634; 0; 34; 0; 30; 125; 550; 0; 542; 0; 114; 110;
    106; 102; 494; 417; 554; 0; 542; 0; 114; 110; 106; 102; 494; 417; 134; 130; 126; 506; 429; 502; 425; 238; 234; 718; 509; 226; 222; 218; 750; 154;
    610; 0; 478; 430; 682; 402; 658; 0; 478; 734; 521; 430; 682; 485; 182; 178; 174; 170; 534; 457; 194; 202; 198; 90; 190; 650; 469; 537; 570; 0;
    166; 162; 158; 522; 226; 222; 694; 218; 738; 118; 598; 0; 166; 626; 0; 550; 0; 554; 0; 134; 130; 126; 506; 429; 502; 425; 250; 246; 706; 501;
    202; 198; 654; 473; 166; 162; 158; 522; 226; 222; 694; 218; 738; 118; 594; 0; 154; 614; 0; 202; 166; 162; 158; 522; 226; 222; 94; 198; 686; 489;
    38; 578; 0; 114; 642; 0; 214; 210; 206; 730; 517; 154; 614; 0; 114; 642; 0; 214; 210; 206; 730; 517; 202; 166; 162; 158; 522; 226; 222; 94;
    198; 686; 489; 582; 530; 453; 34; 0; 38; 578; 0; 114; 642; 0; 214; 210; 206; 730; 517; 154; 614; 0; 202; 166; 162; 158; 522; 226; 222; 94;
    198; 686; 489; 582; 530; 453; 30; 125; 550; 0; 114; 642; 0; 214; 210; 206; 730; 517; 154; 614; 0; 114; 642; 0; 214; 210; 206; 730; 517; 202;
    166; 162; 158; 522; 226; 222; 94; 198; 686; 489; 38; 578; 0; 150; 146; 606; 0; 250; 246; 678; 481; 114; 642; 0; 214; 210; 206; 730; 517; 154;
    614; 0; 166; 626; 0; 150; 146; 606; 0; 250; 246; 678; 481; 706; 501; 114; 642; 0; 214; 210; 206; 730; 517; 202; 166; 162; 158; 522; 226; 222] ++
   [94; 198; 686; 489; 582; 530; 453; 554; 0; 114; 642; 0; 214; 210; 206; 730; 517; 154; 614; 0; 114; 642; 0; 214; 210; 206; 730; 517; 202; 166;
    162; 158; 522; 226; 222; 94; 198; 686; 489; 38; 578; 0; 150; 146; 606; 0; 250; 246; 678; 481; 114; 642; 0; 214; 210; 206; 730; 517; 154; 614;
    0; 166; 626; 0; 150; 146; 606; 0; 250; 246; 678; 481; 706; 501; 114; 642; 0; 214; 210; 206; 730; 517; 202; 166; 162; 158; 522; 226; 222; 94;
    198; 686; 489; 582; 530; 453; 134; 130; 126; 506; 429; 502; 425; 610; 0; 478; 430; 682; 402; 658; 0; 478; 734; 521; 430; 682; 485; 0; 550; 0;
    154; 614; 0; 182; 178; 174; 170; 534; 202; 166; 162; 158; 522; 226; 222; 94; 198; 686; 489; 554; 0; 154; 614; 0; 182; 178; 174; 170; 534; 202;
    166; 162; 158; 522; 226; 222; 94; 198; 686; 489; 134; 130; 126; 506; 429; 502; 425; 182; 178; 634; 0; 542; 0; 114; 110; 106; 102; 494; 417; 34;
    0; 542; 0; 114; 110; 106; 102; 494; 417; 30; 125; 550; 0; 154; 614; 0; 182; 178; 174; 170; 534; 202; 198; 686; 489; 546; 0; 122; 498; 421;
    542; 0; 182; 722; 0; 150; 146; 606; 0; 250; 246; 678; 481; 242; 762; 549; 154; 614; 0; 182; 114; 110; 106; 102; 494; 238; 234; 718; 178; 174;
    170; 534; 202; 198; 686; 489; 114; 110; 106; 102; 494; 417; 554; 0; 154; 614; 0; 182; 178; 174; 170; 534; 202; 198; 686; 489; 546; 0; 122; 498;
    421; 542; 0; 182; 722; 0; 150; 146; 606; 0; 250; 246; 678; 481; 242; 762; 549; 154; 614; 0; 182; 114; 110; 106; 102; 494; 238; 234; 718; 178;
    174; 170; 534; 202; 198; 686; 489; 114; 110; 106; 102; 494; 417; 134; 130; 126; 506; 429; 502; 425; 238; 234; 718; 509; 610; 0; 194; 182; 178; 174;
    170; 534; 202; 198; 90; 190; 682; 485; 182; 178; 174; 170; 534; 457; 194; 202; 198; 90; 190; 650; 469; 694; 0; 490; 750; 154; 54; 598; 0; 550;
    0; 554; 0; 134; 130; 126; 506; 429; 502; 425; 182; 178; 630; 0; 166; 162; 158; 522; 226; 222; 714; 505; 202; 198; 654; 473; 150; 70; 406; 338;
    274; 0; 490; 750; 154; 54; 598; 0; 202; 198; 654; 473; 574; 0; 166; 162; 158; 526; 449; 166; 162; 158; 18; 113; 166; 162; 158; 522; 226; 222;
    218; 750; 154; 54; 118; 594; 0; 166; 162; 158; 522; 226; 222; 218; 750; 154; 610; 0; 478; 430; 682; 402; 658; 0; 478; 734; 521; 430; 682; 485;
    582; 0; 166; 162; 158; 522; 226; 222; 218; 750; 154; 610; 0; 194; 182; 178; 174; 170; 534; 202; 198; 90; 190; 682; 485; 182; 178; 174; 170; 534;
    457; 194; 202; 198; 90; 190; 650; 469; 166; 162; 158; 522; 226; 222; 218; 750; 537; 166; 162; 158; 522; 445; 226; 222; 218; 738; 525; 562; 0; 114;
    62; 150; 674; 0; 214; 210; 206; 746; 533; 570; 0; 114; 62; 150; 674; 0; 214; 210; 206; 746; 533; 154; 618; 0; 150; 674; 0; 214; 210; 206;
    746; 533; 166; 162; 158; 522; 226; 222; 690; 493; 166; 162; 158; 522; 445; 154; 54; 118; 598; 0; 114; 62; 150; 674; 0; 550; 0; 554; 0; 134;
    130; 126; 506; 429; 502; 425; 214; 210; 206; 746; 533; 570; 0; 550; 0; 554; 0; 134; 130; 126; 506; 429; 502; 425; 114; 62; 150; 674; 0; 550] ++
   [0; 154; 614; 0; 490; 450; 686; 402; 666; 450; 686; 402; 666; 450; 686; 402; 666; 450; 686; 402; 666; 450; 686; 402; 666; 450; 686; 402; 666; 450;
    686; 402; 666; 450; 686; 402; 666; 450; 686; 402; 666; 450; 686; 489; 554; 0; 154; 614; 0; 490; 450; 686; 402; 666; 450; 686; 402; 666; 450; 686;
    402; 666; 450; 686; 402; 666; 450; 686; 402; 666; 450; 686; 402; 666; 450; 686; 402; 666; 450; 686; 402; 666; 450; 686; 402; 666; 450; 686; 489; 134;
    130; 126; 506; 429; 502; 425; 214; 210; 206; 746; 533; 166; 162; 158; 522; 445; 202; 198; 654; 473; 54; 594; 0; 114; 62; 150; 674; 0; 214; 210;
    206; 746; 533; 570; 0; 114; 62; 150; 674; 0; 550; 0; 554; 0; 134; 130; 126; 506; 429; 502; 425; 214; 210; 206; 746; 533; 166; 162; 158; 522;
    445; 582; 0; 182; 178; 634; 0; 258; 514; 238; 234; 718; 509; 570; 0; 182; 178; 634; 0; 258; 514; 238; 234; 718; 509; 166; 162; 158; 522; 445;
    586; 0; 182; 178; 174; 170; 538; 461; 174; 170; 534; 457; 194; 202; 198; 90; 190; 650; 469; 66; 666; 0; 226; 222; 694; 218; 738; 118; 598; 0;
    150; 674; 0; 214; 210; 206; 746; 533; 202; 198; 654; 473; 226; 222; 694; 218; 738; 118; 594; 0; 114; 62; 150; 674; 0; 214; 210; 206; 746; 533;
    582; 0; 182; 178; 634; 0; 258; 514; 238; 234; 718; 509; 174; 170; 534; 457; 194; 202; 198; 90; 190; 650; 469; 694; 0; 490; 750; 154; 54; 598;
    0; 114; 62; 150; 674; 0; 214; 210; 206; 746; 533; 182; 178; 630; 0; 226; 222; 714; 505; 202; 198; 654; 473; 226; 222; 218; 750; 154; 54; 118;
    594; 0; 150; 674; 0; 214; 210; 206; 746; 533; 226; 222; 218; 750; 154; 610; 0; 478; 430; 682; 402; 658; 0; 478; 734; 521; 430; 682; 485; 582;
    0; 226; 222; 218; 750; 154; 610; 0; 194; 182; 178; 174; 170; 534; 202; 198; 90; 190; 682; 485; 182; 178; 174; 170; 534; 457; 194; 202; 198; 90;
    190; 650; 469; 226; 222; 218; 750; 537; 570; 0; 166; 162; 158; 522; 226; 222; 694; 218; 738; 118; 594; 0; 114; 62; 150; 674; 0; 214; 210; 206;
    746; 533; 582; 0; 182; 178; 634; 0; 258; 514; 238; 234; 718; 509; 174; 170; 534; 457; 194; 202; 198; 90; 190; 650; 469; 694; 0; 166; 162; 158;
    522; 226; 222; 218; 750; 154; 54; 118; 594; 0; 166; 162; 158; 522; 226; 222; 218; 750; 154; 610; 0; 194; 202; 198; 90; 190; 682; 485; 582; 0;
    182; 178; 174; 170; 534; 457; 194; 202; 198; 90; 190; 650; 469; 166; 162; 158; 522; 226; 222; 218; 750; 537; 166; 162; 158; 522; 445; 226; 222; 218;
    738; 525; 150; 146; 142; 114; 110; 106; 102; 14; 138; 514; 437; 710; 0; 150; 146; 606; 0; 166; 622; 0; 238; 234; 702; 497; 250; 246; 678; 481;
    114; 642; 0; 214; 210; 206; 730; 517; 34; 0; 150; 146; 606; 0; 166; 622; 0; 238; 234; 702; 497; 250; 246; 678; 481; 114; 642; 0; 214; 210;
    206; 730; 517; 30; 125; 550; 0; 150; 146; 606; 0; 166; 622; 0; 238; 234; 702; 497; 250; 246; 678; 481; 114; 642; 0; 214; 210; 206; 730; 517;
    582; 0; 150; 146; 606; 0; 638; 0; 542; 0; 114; 110; 106; 102; 494; 546; 0; 182; 178; 634; 0; 250; 246; 242; 758; 166; 622; 718; 509; 114] ++
   [110; 106; 102; 10; 122; 498; 421; 0; 122; 6; 97; 494; 417; 194; 190; 186; 726; 513; 166; 622; 0; 542; 0; 114; 110; 106; 102; 494; 417; 238;
    234; 702; 497; 250; 246; 678; 481; 114; 642; 0; 214; 210; 206; 730; 62; 150; 146; 606; 0; 214; 210; 206; 730; 110; 590; 0; 250; 246; 646; 465;
    250; 246; 678; 481; 214; 210; 206; 730; 517; 174; 170; 534; 457; 554; 0; 150; 146; 606; 0; 638; 0; 542; 0; 114; 110; 106; 102; 494; 546; 0;
    114; 110; 106; 102; 10; 122; 498; 421; 0; 122; 6; 97; 494; 417; 194; 190; 186; 726; 513; 166; 622; 0; 542; 0; 114; 110; 106; 102; 494; 417;
    238; 234; 702; 497; 250; 246; 678; 481; 114; 642; 0; 214; 210; 206; 730; 62; 146; 606; 0; 214; 210; 206; 730; 110; 590; 0; 250; 246; 646; 465;
    250; 246; 678; 481; 214; 210; 206; 730; 517; 134; 130; 126; 506; 429; 502; 425; 570; 0; 550; 0; 154; 54; 118; 602; 0; 250; 114; 110; 590; 246;
    242; 758; 166; 162; 158; 522; 226; 154; 618; 222; 662; 477; 554; 0; 134; 130; 126; 506; 429; 502; 425; 154; 618; 0; 250; 114; 110; 590; 246; 242;
    758; 166; 162; 158; 522; 226; 222; 690; 493; 114; 110; 590; 0; 550; 0; 554; 0; 134; 130; 126; 506; 429; 502; 425; 154; 618; 0; 550; 0; 554;
    0; 134; 130; 126; 506; 429; 502; 425; 166; 162; 158; 522; 226; 222; 690; 493; 46; 250; 246; 646; 465; 250; 246; 242; 758; 166; 162; 158; 522; 445;
    154; 54; 118; 598; 0; 150; 146; 606; 0; 154; 614; 0; 490; 450; 686; 402; 666; 450; 686; 402; 666; 450; 686; 402; 666; 450; 686; 402; 666; 450;
    686; 402; 666; 450; 686; 402; 666; 450; 686; 402; 666; 450; 686; 402; 666; 450; 686; 402; 666; 450; 686; 489; 250; 246; 678; 481; 114; 642; 0; 214;
    210; 206; 730; 62; 150; 146; 606; 0; 214; 210; 206; 730; 110; 590; 0; 250; 246; 646; 465; 250; 246; 678; 481; 214; 210; 206; 730; 517; 34; 0;
    150; 146; 606; 0; 154; 614; 0; 490; 450; 686; 402; 666; 450; 686; 402; 666; 450; 686; 402; 666; 450; 686; 402; 666; 450; 686; 402; 666; 450; 686;
    402; 666; 450; 686; 402; 666; 450; 686; 402; 666; 450; 686; 402; 666; 450; 686; 489; 250; 246; 678; 481; 114; 642; 0; 214; 210; 206; 730; 62; 146;
    606; 0; 214; 210; 206; 730; 110; 590; 0; 250; 246; 646; 465; 250; 246; 678; 481; 214; 210; 206; 730; 517; 30; 125; 550; 0; 114; 62; 150; 674;
    0; 114; 642; 746; 533; 150; 146; 606; 0; 698; 0; 250; 114; 110; 590; 246; 242; 758; 166; 622; 0; 238; 234; 702; 497; 230; 754; 154; 618; 0;
    638; 0; 202; 250; 246; 242; 758; 166; 622; 230; 754; 226; 222; 690; 154; 614; 198; 654; 118; 594; 186; 726; 513; 166; 622; 0; 238; 234; 702; 497;
    226; 222; 690; 493; 541; 154; 614; 0; 490; 450; 686; 402; 666; 450; 686; 402; 666; 450; 686; 402; 666; 450; 686; 402; 666; 450; 686; 402; 666; 450;
    686; 402; 666; 450; 686; 402; 666; 450; 686; 402; 666; 450; 686; 402; 666; 450; 686; 489; 0; 154; 614; 0; 490; 450; 686; 402; 666; 450; 686; 402;
    666; 450; 686; 402; 666; 450; 686; 402; 666; 450; 686; 402; 666; 450; 686; 402; 666; 450; 686; 402; 666; 450; 686; 402; 666; 450; 686; 402; 666; 450] ++
   [686; 489; 46; 250; 246; 646; 465; 250; 246; 678; 481; 114; 642; 0; 214; 210; 206; 730; 62; 150; 146; 606; 0; 214; 210; 206; 730; 114; 110; 590;
    0; 250; 246; 646; 465; 250; 246; 678; 481; 214; 210; 206; 730; 517; 554; 0; 114; 62; 150; 674; 0; 114; 642; 746; 533; 150; 146; 606; 0; 698;
    0; 250; 114; 110; 590; 246; 242; 758; 166; 622; 0; 238; 234; 702; 497; 230; 754; 154; 618; 0; 638; 0; 202; 250; 246; 242; 758; 166; 622; 230;
    754; 226; 222; 690; 154; 614; 198; 654; 118; 594; 186; 726; 513; 166; 622; 0; 238; 234; 702; 497; 226; 222; 690; 493; 541; 154; 614; 0; 490; 450;
    686; 402; 666; 450; 686; 402; 666; 450; 686; 402; 666; 450; 686; 402; 666; 450; 686; 402; 666; 450; 686; 402; 666; 450; 686; 402; 666; 450; 686; 402;
    666; 450; 686; 402; 666; 450; 686; 489; 0; 154; 614; 0; 490; 450; 686; 402; 666; 450; 686; 402; 666; 450; 686; 402; 666; 450; 686; 402; 666; 450;
    686; 402; 666; 450; 686; 402; 666; 450; 686; 402; 666; 450; 686; 402; 666; 450; 686; 402; 666; 450; 686; 489; 46; 250; 246; 646; 465; 250; 246; 678;
    481; 114; 642; 0; 214; 210; 206; 730; 62; 150; 146; 606; 0; 214; 210; 206; 730; 114; 110; 590; 0; 250; 246; 646; 465; 250; 246; 678; 481; 214;
    210; 206; 730; 517; 134; 130; 126; 506; 429; 502; 425; 570; 0; 154; 614; 0; 490; 450; 686; 402; 666; 450; 686; 402; 666; 450; 686; 402; 666; 450;
    686; 402; 666; 450; 686; 402; 666; 450; 686; 402; 666; 450; 686; 402; 666; 450; 686; 402; 666; 450; 686; 402; 666; 450; 686; 489; 34; 0; 154; 614;
    0; 490; 450; 686; 402; 666; 450; 686; 402; 666; 450; 686; 402; 666; 450; 686; 402; 666; 450; 686; 402; 666; 450; 686; 402; 666; 450; 686; 402; 666;
    450; 686; 402; 666; 450; 686; 402; 666; 450; 686; 489; 30; 125; 550; 0; 154; 618; 0; 250; 114; 110; 590; 246; 242; 758; 166; 162; 158; 522; 226;
    222; 690; 493; 154; 614; 0; 490; 450; 686; 402; 666; 450; 686; 402; 666; 450; 686; 402; 666; 450; 686; 402; 666; 450; 686; 402; 666; 450; 686; 402;
    666; 450; 686; 402; 666; 450; 686; 402; 666; 450; 686; 402; 666; 450; 686; 489; 554; 0; 154; 618; 0; 250; 114; 110; 590; 246; 242; 758; 166; 162;
    158; 522; 226; 222; 690; 493; 154; 614; 0; 490; 450; 686; 402; 666; 450; 686; 402; 666; 450; 686; 402; 666; 450; 686; 402; 666; 450; 686; 402; 666;
    450; 686; 402; 666; 450; 686; 402; 666; 450; 686; 402; 666; 450; 686; 402; 666; 450; 686; 489; 134; 130; 126; 506; 429; 502; 425; 114; 110; 590; 0;
    114; 642; 0; 214; 210; 206; 730; 517; 34; 0; 114; 642; 0; 214; 210; 206; 730; 517; 30; 125; 550; 0; 154; 614; 0; 490; 450; 686; 402; 666;
    450; 686; 402; 666; 450; 686; 402; 666; 450; 686; 402; 666; 450; 686; 402; 666; 450; 686; 402; 666; 450; 686; 402; 666; 450; 686; 402; 666; 450; 686;
    402; 666; 450; 686; 489; 114; 642; 0; 214; 210; 206; 730; 517; 554; 0; 154; 614; 0; 490; 450; 686; 402; 666; 450; 686; 402; 666; 450; 686; 402;
    666; 450; 686; 402; 666; 450; 686; 402; 666; 450; 686; 402; 666; 450; 686; 402; 666; 450; 686; 402; 666; 450; 686; 402; 666; 450; 686; 489; 114; 642] ++
   [0; 214; 210; 206; 730; 517; 134; 130; 126; 506; 429; 502; 425; 46; 250; 246; 646; 465; 250; 246; 242; 758; 166; 162; 158; 522; 445; 202; 94; 198;
    654; 473; 54; 594; 0; 42; 566; 0; 570; 518; 441; 38; 578; 0; 42; 566; 0; 250; 246; 242; 758; 166; 162; 570; 158; 518; 441; 582; 530; 453;
    34; 0; 38; 578; 0; 42; 566; 0; 250; 246; 242; 758; 166; 162; 570; 158; 518; 441; 582; 530; 453; 30; 125; 550; 0; 42; 566; 0; 250; 246;
    242; 758; 166; 162; 570; 158; 518; 441; 38; 578; 0; 154; 610; 0; 490; 438; 682; 402; 666; 438; 682; 402; 666; 438; 682; 402; 666; 438; 682; 402;
    666; 438; 682; 402; 666; 438; 682; 402; 666; 438; 682; 402; 666; 438; 682; 402; 666; 438; 682; 402; 666; 438; 682; 485; 42; 566; 0; 114; 110; 590;
    0; 250; 246; 646; 465; 250; 246; 242; 758; 166; 162; 570; 158; 518; 441; 582; 530; 453; 554; 0; 42; 566; 0; 250; 246; 242; 758; 166; 162; 570;
    158; 518; 441; 38; 578; 0; 154; 610; 0; 490; 438; 682; 402; 666; 438; 682; 402; 666; 438; 682; 402; 666; 438; 682; 402; 666; 438; 682; 402; 666;
    438; 682; 402; 666; 438; 682; 402; 666; 438; 682; 402; 666; 438; 682; 402; 666; 438; 682; 485; 42; 566; 0; 114; 110; 590; 0; 250; 246; 646; 465;
    250; 246; 242; 758; 166; 162; 570; 158; 518; 441; 582; 530; 453; 134; 130; 126; 506; 429; 502; 425; 570; 0; 34; 0; 30; 125; 550; 0; 250; 114;
    110; 590; 246; 242; 758; 166; 162; 158; 522; 42; 38; 578; 0; 250; 114; 110; 590; 246; 242; 758; 166; 162; 158; 522; 42; 582; 530; 453; 554; 0;
    250; 114; 110; 590; 246; 242; 758; 166; 162; 158; 522; 42; 38; 578; 0; 250; 114; 110; 590; 246; 242; 758; 166; 162; 158; 522; 42; 582; 530; 453;
    134; 130; 126; 506; 429; 502; 425; 114; 110; 590; 0; 34; 0; 30; 125; 550; 0; 38; 578; 0; 166; 162; 158; 522; 42; 582; 530; 453; 554; 0;
    38; 578; 0; 166; 162; 158; 522; 42; 582; 530; 453; 134; 130; 126; 506; 429; 502; 425; 46; 250; 246; 646; 465; 250; 246; 242; 758; 166; 162; 158;
    522; 445; 582; 0; 250; 246; 242; 758; 78; 414; 346; 282; 0; 550; 0; 154; 610; 0; 490; 438; 682; 402; 666; 438; 682; 402; 666; 438; 682; 402;
    666; 438; 682; 402; 666; 438; 682; 402; 666; 438; 682; 402; 666; 438; 682; 402; 666; 438; 682; 402; 666; 438; 682; 402; 666; 438; 682; 485; 554; 0;
    134; 130; 126; 506; 429; 502; 425; 586; 22; 121; 182; 178; 634; 0; 542; 0; 114; 110; 106; 102; 494; 417; 34; 0; 542; 0; 114; 110; 106; 102;
    494; 417; 30; 125; 550; 0; 154; 610; 0; 490; 438; 682; 402; 666; 438; 682; 402; 666; 438; 682; 402; 666; 438; 682; 402; 666; 438; 682; 402; 666;
    438; 682; 402; 666; 438; 682; 402; 666; 438; 682; 402; 666; 438; 682; 402; 666; 438; 682; 485; 546; 0; 122; 498; 421; 542; 0; 154; 614; 0; 490;
    450; 686; 402; 666; 450; 686; 402; 666; 450; 686; 402; 666; 450; 686; 402; 666; 450; 686; 402; 666; 450; 686; 402; 666; 450; 686; 402; 666; 450; 686;
    489; 610; 0; 490; 438; 682; 402; 666; 438; 682; 402; 666; 438; 682; 402; 666; 438; 682; 402; 666; 438; 682; 402; 666; 438; 682; 402; 666; 438; 682] ++
   [402; 666; 438; 682; 402; 666; 438; 682; 402; 666; 438; 682; 485; 114; 110; 106; 102; 494; 417; 554; 0; 154; 610; 0; 490; 438; 682; 402; 666; 438;
    682; 402; 666; 438; 682; 402; 666; 438; 682; 402; 666; 438; 682; 402; 666; 438; 682; 402; 666; 438; 682; 402; 666; 438; 682; 402; 666; 438; 682; 402;
    666; 438; 682; 485; 546; 0; 122; 498; 421; 542; 0; 154; 614; 0; 490; 450; 686; 402; 666; 450; 686; 402; 666; 450; 686; 402; 666; 450; 686; 402;
    666; 450; 686; 402; 666; 450; 686; 402; 666; 450; 686; 402; 666; 450; 686; 489; 610; 0; 490; 438; 682; 402; 666; 438; 682; 402; 666; 438; 682; 402;
    666; 438; 682; 402; 666; 438; 682; 402; 666; 438; 682; 402; 666; 438; 682; 402; 666; 438; 682; 402; 666; 438; 682; 402; 666; 438; 682; 485; 114; 110;
    106; 102; 494; 417; 134; 130; 126; 506; 429; 502; 425; 238; 234; 718; 509; 570; 0; 182; 178; 634; 0; 550; 0; 554; 0; 134; 130; 126; 506; 429;
    502; 425; 238; 234; 718; 509; 250; 246; 242; 758; 166; 162; 158; 522; 445; 586; 0; 182; 178; 174; 170; 538; 570; 0; 250; 246; 242; 758; 166; 162;
    158; 26; 0; 182; 74; 410; 342; 278; 121; 250; 246; 242; 758; 166; 162; 158; 522; 445; 182; 178; 174; 170; 538; 461; 182; 178; 174; 170; 534; 457;
    194; 202; 198; 90; 190; 650; 469; 402; 66; 666; 0; 550; 0; 554; 0; 134; 130; 126; 506; 429; 502; 425; 698; 0; 550; 0; 554; 0; 134; 130;
    126; 506; 429; 502; 425; 238; 234; 230; 754; 541; 226; 222; 694; 98; 218; 738; 118; 598; 0; 114; 642; 0; 214; 210; 206; 730; 517; 34; 0; 114;
    642; 0; 214; 210; 206; 730; 517; 30; 125; 550; 0; 150; 146; 606; 0; 166; 622; 0; 238; 234; 702; 497; 250; 246; 678; 481; 114; 642; 0; 214;
    210; 206; 730; 517; 554; 0; 150; 146; 606; 0; 166; 622; 0; 238; 234; 702; 497; 250; 246; 678; 481; 114; 642; 0; 214; 210; 206; 730; 517; 134;
    130; 126; 506; 429; 502; 425; 202; 198; 654; 473; 226; 222; 694; 218; 738; 118; 594; 0; 42; 566; 0; 250; 246; 242; 758; 166; 162; 570; 158; 518;
    441; 38; 578; 0; 42; 566; 0; 250; 246; 242; 758; 166; 162; 570; 158; 518; 441; 582; 530; 453; 34; 0; 42; 566; 0; 250; 246; 242; 758; 166;
    162; 570; 158; 518; 441; 38; 578; 0; 42; 566; 0; 250; 246; 242; 758; 166; 162; 570; 158; 518; 441; 582; 530; 453; 30; 125; 550; 0; 42; 566;
    0; 250; 246; 242; 758; 166; 162; 570; 158; 518; 441; 38; 578; 0; 114; 642; 0; 214; 210; 206; 730; 517; 42; 566; 0; 114; 110; 590; 0; 250;
    246; 646; 465; 250; 246; 242; 758; 166; 162; 570; 158; 518; 441; 582; 530; 453; 554; 0; 42; 566; 0; 250; 246; 242; 758; 166; 162; 570; 158; 518;
    441; 38; 578; 0; 114; 642; 0; 214; 210; 206; 730; 517; 42; 566; 0; 114; 110; 590; 0; 250; 246; 646; 465; 250; 246; 242; 758; 166; 162; 570;
    158; 518; 441; 582; 530; 453; 134; 130; 126; 506; 429; 502; 425; 0; 250; 246; 242; 758; 78; 414; 346; 282; 0; 34; 0; 30; 125; 550; 0; 154;
    614; 0; 182; 178; 174; 586; 170; 534; 202; 198; 686; 489; 554; 0; 154; 614; 0; 182; 178; 174; 586; 170; 534; 202; 198; 686; 489; 134; 130; 126] ++
   [506; 429; 502; 425; 586; 0; 550; 0; 554; 0; 134; 130; 126; 506; 429; 502; 425; 182; 178; 174; 170; 538; 461; 22; 121; 182; 178; 634; 0; 546;
    0; 122; 498; 421; 542; 0; 154; 614; 0; 182; 114; 110; 106; 102; 494; 238; 234; 718; 178; 174; 170; 534; 202; 198; 686; 489; 114; 110; 106; 102;
    494; 417; 34; 0; 546; 0; 122; 498; 421; 542; 0; 154; 614; 0; 182; 114; 110; 106; 102; 494; 238; 234; 718; 178; 174; 170; 534; 202; 198; 686;
    489; 114; 110; 106; 102; 494; 417; 30; 125; 550; 0; 114; 642; 0; 214; 210; 206; 730; 517; 154; 614; 0; 182; 178; 174; 170; 534; 202; 198; 686;
    489; 546; 0; 122; 498; 421; 542; 0; 250; 246; 242; 758; 166; 622; 0; 114; 110; 106; 102; 494; 238; 234; 702; 497; 154; 614; 0; 182; 114; 110;
    106; 102; 494; 238; 234; 718; 178; 174; 170; 534; 202; 198; 686; 489; 114; 110; 106; 102; 494; 417; 554; 0; 114; 642; 0; 214; 210; 206; 730; 517;
    154; 614; 0; 182; 178; 174; 170; 534; 202; 198; 686; 489; 546; 0; 122; 498; 421; 542; 0; 250; 246; 242; 758; 166; 622; 0; 114; 110; 106; 102;
    494; 238; 234; 702; 497; 154; 614; 0; 182; 114; 110; 106; 102; 494; 238; 234; 718; 178; 174; 170; 534; 202; 198; 686; 489; 114; 110; 106; 102; 494;
    417; 134; 130; 126; 506; 429; 502; 425; 238; 234; 718; 509; 610; 0; 478; 430; 682; 402; 658; 0; 478; 734; 521; 430; 682; 485; 182; 178; 174; 170;
    534; 457; 194; 202; 198; 90; 190; 650; 469; 694; 0; 490; 750; 154; 54; 598; 0; 150; 146; 606; 0; 490; 750; 154; 614; 0; 202; 198; 686; 489;
    250; 246; 678; 481; 114; 642; 0; 214; 210; 206; 730; 517; 34; 0; 150; 146; 606; 0; 250; 246; 678; 481; 114; 642; 0; 214; 210; 206; 730; 517;
    30; 125; 550; 0; 150; 146; 606; 0; 490; 750; 154; 614; 0; 566; 0; 638; 0; 226; 222; 218; 750; 250; 114; 110; 590; 246; 242; 758; 166; 162;
    158; 518; 202; 198; 686; 154; 54; 118; 594; 186; 726; 513; 166; 162; 158; 518; 441; 202; 198; 686; 489; 0; 250; 246; 646; 465; 250; 246; 678; 481;
    114; 642; 0; 214; 210; 206; 730; 62; 146; 606; 0; 214; 210; 206; 730; 110; 590; 0; 250; 246; 646; 465; 250; 246; 678; 481; 214; 210; 206; 730;
    517; 554; 0; 150; 146; 606; 0; 490; 750; 154; 614; 0; 566; 0; 166; 162; 158; 518; 441; 202; 198; 686; 489; 250; 246; 678; 481; 114; 642; 0;
    214; 210; 206; 730; 62; 146; 606; 0; 250; 246; 678; 481; 214; 210; 206; 730; 517; 134; 130; 126; 506; 429; 502; 425; 182; 178; 630; 0; 50; 558;
    0; 150; 146; 142; 562; 138; 510; 433; 34; 0; 558; 0; 562; 510; 433; 30; 125; 550; 0; 50; 558; 0; 150; 146; 142; 562; 138; 510; 433; 554;
    0; 50; 558; 0; 150; 146; 142; 562; 138; 510; 433; 134; 130; 126; 506; 429; 502; 425; 226; 222; 714; 505; 202; 198; 654; 473; 226; 222; 218; 750;
    154; 54; 118; 594; 0; 38; 578; 0; 566; 0; 250; 246; 242; 758; 166; 162; 158; 518; 441; 582; 530; 453; 34; 0; 38; 578; 0; 582; 530; 453;
    30; 125; 550; 0; 566; 0; 250; 246; 242; 758; 166; 162; 158; 518; 441; 38; 578; 0; 566; 0; 250; 246; 242; 758; 166; 162; 158; 518; 441; 582] ++
   [530; 453; 554; 0; 566; 0; 250; 246; 242; 758; 166; 162; 158; 518; 441; 38; 578; 0; 566; 0; 250; 246; 242; 758; 166; 162; 158; 518; 441; 582;
    530; 453; 134; 130; 126; 506; 429; 502; 425; 226; 222; 218; 750; 154; 610; 0; 478; 430; 682; 402; 658; 0; 478; 734; 521; 430; 682; 485; 0; 550;
    0; 554; 0; 134; 130; 126; 506; 429; 502; 425; 182; 178; 634; 0; 34; 0; 30; 125; 550; 0; 542; 0; 114; 110; 106; 102; 494; 417; 554; 0;
    542; 0; 114; 110; 106; 102; 494; 417; 134; 130; 126; 506; 429; 502; 425; 238; 234; 718; 509; 226; 222; 218; 750; 154; 610; 0; 478; 430; 682; 402;
    658; 0; 478; 734; 521; 430; 682; 485; 182; 178; 174; 170; 534; 457; 194; 202; 198; 90; 190; 650; 469; 537; 570; 0; 250; 246; 242; 758; 166; 162;
    158; 522; 226; 222; 694; 218; 738; 118; 594; 0; 38; 578; 0; 582; 530; 453; 34; 0; 30; 125; 550; 0; 38; 578; 0; 114; 110; 590; 0; 250;
    246; 646; 465; 582; 530; 453; 554; 0; 38; 578; 0; 114; 110; 590; 0; 250; 246; 646; 465; 582; 530; 453; 134; 130; 126; 506; 429; 502; 425; 582;
    0; 182; 178; 634; 0; 550; 0; 542; 0; 114; 110; 106; 102; 494; 417; 554; 0; 542; 0; 114; 110; 106; 102; 494; 417; 134; 130; 126; 506; 429;
    502; 425; 238; 234; 718; 509; 182; 178; 174; 170; 534; 457; 194; 202; 198; 90; 190; 650; 469; 694; 0; 46; 250; 246; 242; 758; 166; 162; 158; 522;
    226; 222; 218; 750; 154; 54; 594; 0; 194; 202; 198; 90; 190; 650; 469; 46; 250; 246; 242; 758; 166; 162; 158; 522; 226; 222; 218; 750; 537; 250;
    246; 242; 758; 166; 162; 158; 522; 445; 226; 222; 218; 738; 525; 562; 0; 114; 62; 150; 674; 0; 214; 210; 206; 746; 533; 570; 0; 150; 146; 606;
    0; 250; 246; 678; 481; 250; 246; 242; 758; 166; 162; 158; 522; 445; 154; 54; 118; 598; 0; 114; 62; 150; 674; 0; 550; 0; 554; 0; 134; 130;
    126; 506; 429; 502; 425; 214; 210; 206; 746; 533; 570; 0; 114; 62; 150; 146; 606; 0; 150; 674; 0; 214; 210; 206; 746; 533; 250; 246; 678; 481;
    250; 246; 242; 758; 166; 162; 158; 522; 445; 202; 198; 654; 473; 594; 0; 114; 62; 150; 674; 0; 214; 210; 206; 746; 533; 570; 0; 150; 146; 606;
    0; 250; 246; 678; 481; 250; 246; 242; 758; 166; 162; 158; 522; 445; 582; 0; 182; 178; 634; 0; 258; 514; 238; 234; 718; 509; 570; 0; 250; 246;
    242; 758; 166; 162; 158; 522; 445; 586; 0; 182; 178; 174; 170; 538; 461; 182; 178; 174; 170; 534; 457; 194; 202; 198; 90; 190; 650; 469; 66; 666;
    0; 226; 222; 694; 218; 738; 118; 598; 0; 150; 674; 0; 214; 210; 206; 746; 533; 202; 198; 654; 473; 226; 222; 694; 218; 738; 118; 594; 0; 114;
    62; 150; 674; 0; 550; 0; 554; 0; 134; 130; 126; 506; 429; 502; 425; 214; 210; 206; 746; 533; 582; 0; 182; 178; 634; 0; 258; 514; 238; 234;
    718; 509; 174; 170; 534; 457; 194; 202; 198; 90; 190; 650; 469; 694; 0; 490; 750; 154; 54; 598; 0; 114; 62; 150; 674; 0; 214; 210; 206; 746;
    533; 182; 178; 630; 0; 150; 674; 0; 214; 210; 206; 746; 533; 226; 222; 714; 505; 202; 198; 654; 473; 226; 222; 218; 750; 154; 54; 118; 594; 0] ++
   [150; 674; 0; 214; 210; 206; 746; 533; 226; 222; 218; 750; 154; 610; 0; 478; 430; 682; 402; 658; 0; 478; 734; 521; 430; 682; 485; 582; 0; 226;
    222; 218; 750; 154; 610; 0; 194; 182; 178; 174; 170; 534; 202; 198; 90; 190; 682; 485; 182; 178; 174; 170; 534; 457; 194; 202; 198; 90; 190; 650;
    469; 226; 222; 218; 750; 537; 570; 0; 250; 114; 110; 590; 246; 242; 758; 166; 162; 158; 522; 226; 222; 218; 738; 118; 594; 0; 194; 190; 650; 469;
    114; 110; 590; 0; 46; 250; 246; 646; 465; 694; 0; 250; 246; 242; 758; 166; 162; 158; 522; 226; 222; 218; 750; 537; 250; 246; 242; 758; 166; 162;
    158; 522; 445; 226; 222; 218; 738; 525; 150; 146; 142; 114; 110; 106; 102; 14; 138; 514; 437; 250; 246; 242; 758; 545; 82; 418; 350; 286; 345; 463;
    391; 327; 141; 0; 482; 455; 383; 319; 137; 447; 379; 315; 133; 371; 307; 353; 363; 299; 129; 398; 334; 270; 321; 394; 330; 266; 0; 262; 105])%Z) 111%Z.

Definition line3 : list scenario := [line3_0; line3_1; line3_2; line3_3; line3_4; line3_5; line3_6; line3_7; line3_8; line3_9; line3_10; line3_11].
