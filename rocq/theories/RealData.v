(** * RealData: the tables of the repository, copied from /repo/data

    Written by a script from the files named below, without changes, so that claims about all tables
    can be applied to these.  Cells of the schedules and of the network table are as pandas reads
    them: empty cells are missing values, cells of the column "switches" that the file stores as
    numbers are numbers.  The entry "X" of the columns of times (no train may run that way), at which
    [float] would fail, is written [None]; PropsReal shows that no train uses such an entry.  "N/A" in
    the column "switches" is a missing value for pandas.  The stations, which the program reads from
    the .npz files, are the same in the .py files.  Names of blocks are given once, below. *)

From Coq Require Import List String ZArith QArith.
From Verif Require Import Base DataTables.
Import ListNotations.
Open Scope string_scope.
Open Scope list_scope.
Open Scope Q_scope.

Definition head (x : option string) : line := MkLine x None None None None None None None.

(** ** Names of blocks *)

Definition b001 : string := """SG-KZ"", ""SBL"", 1, ""3"", ""(3)""".
Definition b002 : string := """KZ"", ""ST"", 1, ""(1)""".
Definition b003 : string := """KZ"", ""ST"", 2, ""(1)""".
Definition b004 : string := """KZ"", ""ST"", 3, ""(2)""".
Definition b005 : string := """KZ"", ""ST"", 4, ""(2)""".
Definition b006 : string := """KZ-SG"", ""SBL+Sem(ST)"", 2, ""1"", ""(3)""".
Definition b007 : string := """Szb-KZ-3"", ""SBL"", 3, ""2"", ""(2)""".
Definition b008 : string := """KZ-Szb-1"", ""SBL+Sem(ST)"", 4, ""1"", ""(3)""".
Definition b009 : string := """KZ-KO"", ""SBL+Sem(ST)"", 1, ""1"", ""(1)""".
Definition b010 : string := """KO-KZ"", ""SBL+Sem(ST)"", 2, ""1"", ""(1)""".
Definition b011 : string := """KZ-KO"", ""SBL+Sem(ST)"", 3, ""1"", ""(1)""".
Definition b012 : string := """KO-KZ"", ""SBL+Sem(ST)"", 4, ""1"", ""(1)""".
Definition b013 : string := """KO"", ""ST"", 113, ""(N/A)""".
Definition b014 : string := """KO"", ""ST"", 114, ""(N/A)""".
Definition b015 : string := """KO"", ""ST"", 115, ""(N/A)""".
Definition b016 : string := """KO"", ""ST"", 116, ""(N/A)""".
Definition b017 : string := """KO"", ""ST"", 117, ""(N/A)""".
Definition b018 : string := """KO"", ""ST"", 118, ""(N/A)""".
Definition b019 : string := """KO"", ""ST"", 120, ""(5)""".
Definition b020 : string := """KO(IC)"", ""B-M"", 500, ""(N/A)""".
Definition b021 : string := """KO"", ""ST"", 9, ""(1)""".
Definition b022 : string := """KO"", ""ST"", 7, ""(1)""".
Definition b023 : string := """KO"", ""ST"", 5, ""(N/A)""".
Definition b024 : string := """KO"", ""ST"", 3, ""(2)""".
Definition b025 : string := """KO"", ""ST"", 1, ""(2)""".
Definition b026 : string := """KO"", ""ST-M"", 1113, ""(N/A)""".
Definition b027 : string := """KO"", ""ST"", 2, ""(3)""".
Definition b028 : string := """KO"", ""ST"", 4, ""(3)""".
Definition b029 : string := """KO"", ""ST"", 6, ""(N/A)""".
Definition b030 : string := """KO"", ""ST"", 8, ""(4)""".
Definition b031 : string := """KO"", ""ST"", 10, ""(4)""".
Definition b032 : string := """KO"", ""ST-M"", 1114, ""(N/A)""".
Definition b033 : string := """KO"", ""ST-M"", 1118, ""(N/A)""".
Definition b034 : string := """KO-Bugla-Bry-1"", ""Sem(ST)+SBL"", 1, ""1"", ""(2)""".
Definition b035 : string := """KO-KTC-1"", ""SBL"", 1, ""1"", ""(2)""".
Definition b036 : string := """KTC-KO-2"", ""SBL+Sem(ST)"", 2, ""2"", ""(2)""".
Definition b037 : string := """Rac(KS)"", ""B-M"", 200, ""(N/A)""".
Definition b038 : string := """KO-Bry"", ""ST+Sem(PODG)"", 3, ""1"", ""(1)""".
Definition b039 : string := """Bry-KO"", ""PODG+Sem(ST)"", 2, ""1"", ""(1)""".
Definition b040 : string := """KO-KTC-2"", ""SBL+POGP"", 1, ""2"", ""(2)""".
Definition b041 : string := """KTC-KO-1"", ""SBL+PO(Załęże)"", 2, ""1"", ""(2)""".
Definition b042 : string := """KTC-CB-1"", ""SBL"", 1, ""1"", ""(2)""".
Definition b043 : string := """CB-KTC-2"", ""SBL+Sem(PODG)"", 2, ""2"", ""(2)""".
Definition b044 : string := """KTC-Gt"", ""Sem(PODG)+Sem(PODG)"", 1, ""1"", ""(1)""".
Definition b045 : string := """KTC-CB-2"", ""SBL+Sem(ST)"", 1, ""2"", ""(2)""".
Definition b046 : string := """CB-KTC-1"", ""SBL"", 2, ""1"", ""(2)""".
Definition b047 : string := """CB"", ""ST"", 1, ""(1)""".
Definition b048 : string := """CB"", ""ST"", 2, ""(1)""".
Definition b049 : string := """CB"", ""ST"", 3, ""(2)""".
Definition b050 : string := """CB"", ""ST"", 4, ""(2)""".
Definition b051 : string := """Gt-CB"", ""Sem(PODG)+Sem(ST)"", 1, ""1"", ""(1)""".
Definition b052 : string := """CB"", ""ST"", 5, ""(N/A)""".
Definition b053 : string := """CB"", ""ST"", 10, ""(N/A)""".
Definition b054 : string := """CB-RCB-1"", ""SBL"", 1, ""1"", ""(3)""".
Definition b055 : string := """RCB-CB-3"", ""SBL+Sem(ST)"", 2, ""3"", ""(3)""".
Definition b056 : string := """CB-CM"", ""SBL+Sem(ST)"", 1, ""1"", ""(1)""".
Definition b057 : string := """CM-CB"", ""SBL+Sem(ST)"", 2, ""1"", ""(1)""".
Definition b058 : string := """CM"", ""ST"", 1, ""(1)""".
Definition b059 : string := """CM"", ""ST"", 2, ""(1)""".
Definition b060 : string := """CM-CS"", ""Sem(odstęp)"", 1, ""1"", ""(1)""".
Definition b061 : string := """CS-CM"", ""Sem(odstęp)"", 2, ""1"", ""(1)""".
Definition b062 : string := """CB-RCB-2"", ""SBL+PO(Świętochłowice)"", 1, ""2"", ""(3)""".
Definition b063 : string := """RCB-CB-2"", ""SBL+PO(Świętochłowice)"", 2, ""2"", ""(3)""".
Definition b064 : string := """CB-RCB-3"", ""SBL+Sem(ST)"", 1, ""3"", ""(3)""".
Definition b065 : string := """RCB-CB-1"", ""SBL"", 2, ""1"", ""(3)""".
Definition b066 : string := """RCB"", ""ST"", 1, ""(1)""".
Definition b067 : string := """RCB"", ""ST"", 2, ""(1)""".
Definition b068 : string := """RCB-ZZ-1"", ""SBL"", 1, ""1"", ""(4)""".
Definition b069 : string := """ZZ-RCB-4"", ""SBL+Sem(ST)"", 2, ""4"", ""(4)""".
Definition b070 : string := """RCB-ZZ-2"", ""SBL+PO(Ruda Śląska)"", 1, ""2"", ""(4)""".
Definition b071 : string := """ZZ-RCB-3"", ""SBL+PO(Ruda Śląska)"", 2, ""3"", ""(4)""".
Definition b072 : string := """RCB-ZZ-3"", ""SBL"", 1, ""3"", ""(4)""".
Definition b073 : string := """ZZ-RCB-2"", ""SBL"", 2, ""2"", ""(4)""".
Definition b074 : string := """RCB-ZZ-4"", ""SBL+Sem(ST)"", 1, ""4"", ""(4)""".
Definition b075 : string := """ZZ-RCB-1"", ""SBL"", 2, ""1"", ""(4)""".
Definition b076 : string := """ZZ"", ""ST"", 1, ""(1)""".
Definition b077 : string := """ZZ"", ""ST"", 2, ""(1)""".
Definition b078 : string := """ZZ-GLC-1"", ""SBL"", 1, ""1"", ""(5)""".
Definition b079 : string := """GLC-ZZ-5"", ""SBL+Sem(ST)"", 2, ""5"", ""(5)""".
Definition b080 : string := """ZZ-GLC-2"", ""SBL"", 1, ""2"", ""(5)""".
Definition b081 : string := """GLC-ZZ-4"", ""SBL"", 2, ""4"", ""(5)""".
Definition b082 : string := """ZZ-GLC-3"", ""SBL"", 1, ""3"", ""(5)""".
Definition b083 : string := """GLC-ZZ-3"", ""SBL"", 2, ""3"", ""(5)""".
Definition b084 : string := """ZZ-GLC-4"", ""SBL"", 1, ""4"", ""(5)""".
Definition b085 : string := """GLC-ZZ-2"", ""SBL"", 2, ""2"", ""(5)""".
Definition b086 : string := """ZZ-GLC-5"", ""SBL+Sem(ST)"", 1, ""5"", ""(5)""".
Definition b087 : string := """GLC-ZZ-1"", ""SBL"", 2, ""1"", ""(5)""".
Definition b088 : string := """GLC"", ""ST"", 6, ""(2)""".
Definition b089 : string := """GLC"", ""ST"", 7, ""(3)""".
Definition b090 : string := """GLC"", ""ST"", 8, ""(3)""".
Definition b091 : string := """GLC"", ""ST"", 9, ""(4)""".
Definition b092 : string := """GLC"", ""ST"", 11, ""(4)""".
Definition b093 : string := """GLC"", ""ST"", 3, ""(1)""".
Definition b094 : string := """GLC"", ""ST"", 4, ""(1)""".
Definition b095 : string := """GLC"", ""ST"", 5, ""(2)""".
Definition b096 : string := """GLC"", ""B-M"", 200, ""(N/A)""".
Definition b097 : string := """GLC-Szo"", ""Sem(odstep)"", 1, ""1"", ""(1)""".
Definition b098 : string := """Szo-GLC"", ""SBL(odstep)"", 2, ""1"", ""(1)""".
Definition b099 : string := """KO-Bugla-Bry-2"", ""SBL+Sem(PODG)"", 1, ""2"", ""(2)""".
Definition b100 : string := """Bry-KL-1"", ""SBL+POGP"", 1, ""1"", ""(2)""".
Definition b101 : string := """KL-Bry-2"", ""SBL+Sem(PODG)"", 2, ""2"", ""(2)""".
Definition b102 : string := """Bry"", ""PODG"", 2, ""1"", ""(1)""".
Definition b103 : string := """Bry"", ""PODG"", 1, ""1"", ""(1)""".
Definition b104 : string := """Bry-KL-2"", ""SBL+Sem(ST)"", 1, ""2"", ""(2)""".
Definition b105 : string := """KL-Bry-1"", ""SBL"", 2, ""1"", ""(2)""".
Definition b106 : string := """KL"", ""ST"", 1, ""(2)""".
Definition b107 : string := """KL"", ""ST"", 2, ""(2)""".
Definition b108 : string := """KL"", ""ST"", 3, ""(1)""".
Definition b109 : string := """KL-MJ-1"", ""Sem(odstep)+PO(Piotrowice)"", 1, ""1"", ""(2)""".
Definition b110 : string := """KL-Mc-1"", ""SBL+PO(Piotrowice)"", 1, ""1"", ""(6)""".
Definition b111 : string := """Mc-KL-5"", ""SBL+Sem(ST)"", 2, ""5"", ""(5)""".
Definition b112 : string := """KL-MJ-2"", ""Sem(odstep)"", 1, ""2"", ""(2)""".
Definition b113 : string := """MJ"", ""ST"", 1, ""(1)""".
Definition b114 : string := """MJ"", ""ST"", 3, ""(1)""".
Definition b115 : string := """MJ-Mi"", ""Sem(odstep)"", 1, ""1"", ""(1)""".
Definition b116 : string := """Mi"", ""ST"", 1, ""(2)""".
Definition b117 : string := """Mi"", ""ST"", 2, ""(1)""".
Definition b118 : string := """Mi_ŁGB"", ""Sem(odstęp)"", 1, ""1"", ""(1)""".
Definition b119 : string := """KL-Mc-2"", ""SBL"", 1, ""2"", ""(6)""".
Definition b120 : string := """Mc-KL-4"", ""SBL"", 2, ""4"", ""(5)""".
Definition b121 : string := """KL-Mc-3"", ""SBL"", 1, ""3"", ""(6)""".
Definition b122 : string := """Mc-KL-3"", ""SBL"", 2, ""3"", ""(5)""".
Definition b123 : string := """KL-Mc-4"", ""SBL+PO(Podlesie)"", 1, ""4"", ""(6)""".
Definition b124 : string := """Mc-KL-2"", ""SBL+PO(Podlesie)"", 2, ""2"", ""(5)""".
Definition b125 : string := """KL-Mc-5"", ""SBL"", 1, ""5"", ""(6)""".
Definition b126 : string := """Mc-KL-1"", ""SBL"", 2, ""1"", ""(5)""".
Definition b127 : string := """KL-Mc-6"", ""SBL+Sem(PODG)"", 1, ""6"", ""(6)""".
Definition b128 : string := """Mc"", ""PODG"", 1, ""(N/A)""".
Definition b129 : string := """Mc"", ""PODG"", 2, ""(N/A)""".
Definition b130 : string := """Mc"", ""PODG"", 3, ""(N/A)""".
Definition b131 : string := """Mc-Ty"", ""Sem(odstep)+Sem(ST)"", 1, ""1"", ""(1)""".
Definition b132 : string := """Ty-Mc"", ""Sem(odstep)"", 2, ""1"", ""(1)""".
Definition b133 : string := """Ty-Mc"", ""Sem(odstep)+Sem(PODG)"", 3, ""1"", ""(1)""".
Definition b134 : string := """Ty"", ""ST"", 101, ""(N/A)""".
Definition b135 : string := """Ty"", ""ST"", 102, ""(N/A)""".
Definition b136 : string := """Ty"", ""ST"", 108, ""(N/A)""".
Definition b137 : string := """Ty"", ""ST"", 1, ""(2)""".
Definition b138 : string := """Ty"", ""ST"", 7, ""(3)""".
Definition b139 : string := """Ty"", ""ST"", 9, ""(3)""".
Definition b140 : string := """Ty"", ""ST"", 2, ""(2)""".
Definition b141 : string := """Ty"", ""ST"", 8, ""(1)""".
Definition b142 : string := """Ty-Kob-1"", ""SBL"", 1, ""1"", ""(6)""".
Definition b143 : string := """Kob-Ty-6"", ""SBL+Sem(ST)"", 2, ""6"", ""(6)""".
Definition b144 : string := """Ty-TMo "", ""SBL"", 1, ""1"", ""(2)""".
Definition b145 : string := """TMo-Ty"", ""Sem(odstęp)"", 2, ""1"", ""(1)""".
Definition b146 : string := """Ty-ŁŚ"", ""Sem(odstep)"", 1, ""1"", ""(1)""".
Definition b147 : string := """KO"",""ST"", 3, ""(2)""".

(** data/network_paths.ods, columns previous_block, next_block, switches and the four columns of times *)
Definition network : list netrow :=
  [MkNet b001 b002 (SwOne 10) (Some (7 # 10)) (Some (7 # 10)) (Some (7 # 10)) (Some (21 # 10));
   MkNet b001 b003 (SwMany [10; 11]%Z) (Some (6 # 5)) (Some (6 # 5)) (Some (6 # 5)) (Some (13 # 5));
   MkNet b001 b004 (SwMany [10; 11; 12]%Z) (Some (6 # 5)) (Some (6 # 5)) (Some (6 # 5)) (Some (13 # 5));
   MkNet b001 b005 (SwMany [10; 11; 12; 13]%Z) (Some (6 # 5)) (Some (6 # 5)) (Some (6 # 5)) (Some (13 # 5));
   MkNet b006 b002 (SwMany [11; 21; 22]%Z) (Some (7 # 10)) (Some (7 # 10)) (Some (6 # 5)) (Some (13 # 5));
   MkNet b006 b003 (SwMany [11; 21]%Z) (Some (6 # 5)) (Some (6 # 5)) (Some (7 # 10)) (Some (21 # 10));
   MkNet b006 b004 (SwMany [11; 12]%Z) (Some (6 # 5)) (Some (6 # 5)) (Some (6 # 5)) (Some (13 # 5));
   MkNet b006 b005 (SwMany [11; 12; 13]%Z) (Some (6 # 5)) (Some (6 # 5)) (Some (6 # 5)) (Some (13 # 5));
   MkNet b007 b004 (SwOne 12) (Some (2 # 5)) (Some (9 # 10)) (Some (7 # 10)) (Some (21 # 10));
   MkNet b007 b005 (SwMany [12; 13]%Z) (Some (9 # 10)) (Some (7 # 5)) (Some (6 # 5)) (Some (13 # 5));
   MkNet b008 b005 (SwOne 13) (Some (2 # 5)) (Some (9 # 10)) (Some (7 # 10)) (Some (21 # 10));
   MkNet b002 b009 (SwFloat 47 "53") (Some (7 # 10)) (Some (17 # 10)) (Some (9 # 5)) (Some (23 # 10));
   MkNet b002 b010 (SwMany [47; 48; 52]%Z) (Some (6 # 5)) (Some (11 # 5)) (Some (9 # 5)) (Some (23 # 10));
   MkNet b002 b011 (SwMany [47; 48; 49; 51]%Z) (Some (6 # 5)) (Some (11 # 5)) (Some (9 # 5)) (Some (23 # 10));
   MkNet b002 b012 (SwMany [47; 48; 49; 50]%Z) (Some (6 # 5)) (Some (11 # 5)) (Some (9 # 5)) (Some (23 # 10));
   MkNet b003 b009 (SwMany [48; 52; 53]%Z) (Some (6 # 5)) (Some (11 # 5)) (Some (9 # 5)) (Some (23 # 10));
   MkNet b003 b010 (SwFloat 48 "52") (Some (6 # 5)) (Some (11 # 5)) (Some (13 # 10)) (Some (9 # 5));
   MkNet b003 b011 (SwMany [48; 49; 51]%Z) (Some (6 # 5)) (Some (11 # 5)) (Some (9 # 5)) (Some (23 # 10));
   MkNet b003 b012 (SwMany [48; 49; 50]%Z) (Some (6 # 5)) (Some (11 # 5)) (Some (9 # 5)) (Some (23 # 10));
   MkNet b004 b009 (SwMany [42; 49; 51; 52; 53]%Z) (Some (6 # 5)) (Some (11 # 5)) (Some (9 # 5)) (Some (23 # 10));
   MkNet b004 b010 (SwMany [42; 49; 51; 52]%Z) (Some (6 # 5)) (Some (11 # 5)) (Some (9 # 5)) (Some (23 # 10));
   MkNet b004 b011 (SwMany [42; 49; 51]%Z) (Some (7 # 10)) (Some (17 # 10)) (Some (9 # 5)) (Some (23 # 10));
   MkNet b004 b012 (SwMany [42; 49; 50]%Z) (Some (6 # 5)) (Some (11 # 5)) (Some (9 # 5)) (Some (23 # 10));
   MkNet b005 b009 (SwMany [41; 42; 49; 51; 52; 53]%Z) (Some (6 # 5)) (Some (11 # 5)) (Some (9 # 5)) (Some (23 # 10));
   MkNet b005 b010 (SwMany [41; 42; 49; 51; 52]%Z) (Some (6 # 5)) (Some (11 # 5)) (Some (9 # 5)) (Some (23 # 10));
   MkNet b005 b011 (SwMany [41; 42; 49; 51]%Z) (Some (6 # 5)) (Some (11 # 5)) (Some (9 # 5)) (Some (23 # 10));
   MkNet b005 b012 (SwMany [41; 50]%Z) (Some (6 # 5)) (Some (11 # 5)) (Some (13 # 10)) (Some (9 # 5));
   MkNet b009 b013 (SwMany [5; 6; 13; 24]%Z) (Some (6 # 5)) (Some (7 # 5)) (Some (17 # 10)) (Some (19 # 10));
   MkNet b009 b014 (SwMany [5; 6; 7; 11; 17; 20; 23]%Z) (Some (6 # 5)) (Some (7 # 5)) (Some (17 # 10)) (Some (19 # 10));
   MkNet b009 b015 (SwMany [5; 18; 22; 25]%Z) (Some (17 # 10)) (Some (19 # 10)) (Some (17 # 10)) (Some (19 # 10));
   MkNet b009 b016 (SwMany [5; 5; 7; 11; 17; 20; 23]%Z) (Some (17 # 10)) (Some (19 # 10)) (Some (17 # 10)) (Some (19 # 10));
   MkNet b009 b017 (SwMany [5; 18]%Z) (Some (6 # 5)) (Some (7 # 5)) (Some (17 # 10)) (Some (19 # 10));
   MkNet b009 b018 (SwMany [5; 6; 7; 8; 14; 21]%Z) (Some (17 # 10)) (Some (19 # 10)) (Some (17 # 10)) (Some (19 # 10));
   MkNet b009 b019 (SwMany [5; 6; 7; 8; 15; 16; 28]%Z) (Some (17 # 10)) (Some (19 # 10)) (Some (17 # 10)) (Some (19 # 10));
   MkNet b010 b013 (SwMany [6; 13; 24]%Z) (Some (17 # 10)) (Some (19 # 10)) (Some (6 # 5)) (Some (7 # 5));
   MkNet b010 b014 (SwMany [6; 7; 11; 17; 20; 23]%Z) (Some (17 # 10)) (Some (19 # 10)) (Some (6 # 5)) (Some (7 # 5));
   MkNet b010 b015 (SwMany [6; 13; 22; 25]%Z) (Some (17 # 10)) (Some (19 # 10)) (Some (6 # 5)) (Some (7 # 5));
   MkNet b010 b016 (SwMany [6; 7; 11; 17; 20; 23]%Z) (Some (17 # 10)) (Some (19 # 10)) (Some (6 # 5)) (Some (7 # 5));
   MkNet b010 b018 (SwMany [6; 7; 8; 14; 21]%Z) (Some (17 # 10)) (Some (19 # 10)) (Some (6 # 5)) (Some (7 # 5));
   MkNet b010 b019 (SwMany [6; 7; 8; 15; 16; 28]%Z) (Some (17 # 10)) (Some (19 # 10)) (Some (17 # 10)) (Some (19 # 10));
   MkNet b011 b013 (SwMany [7; 11; 13; 24]%Z) (Some (6 # 5)) (Some (7 # 5)) (Some (17 # 10)) (Some (19 # 10));
   MkNet b011 b014 (SwMany [7; 11; 20; 23]%Z) (Some (6 # 5)) (Some (7 # 5)) (Some (17 # 10)) (Some (19 # 10));
   MkNet b011 b015 (SwMany [7; 11; 13; 22; 25]%Z) (Some (17 # 10)) (Some (19 # 10)) (Some (17 # 10)) (Some (19 # 10));
   MkNet b011 b016 (SwMany [7; 11; 17; 20; 23]%Z) (Some (17 # 10)) (Some (19 # 10)) (Some (17 # 10)) (Some (19 # 10));
   MkNet b011 b018 (SwMany [7; 8; 14; 21]%Z) (Some (17 # 10)) (Some (19 # 10)) (Some (17 # 10)) (Some (19 # 10));
   MkNet b011 b019 (SwMany [7; 8; 15; 16; 28]%Z) (Some (17 # 10)) (Some (19 # 10)) (Some (17 # 10)) (Some (19 # 10));
   MkNet b012 b013 (SwMany [8; 14; 17; 19; 24]%Z) (Some (17 # 10)) (Some (19 # 10)) (Some (4 # 5)) (Some (9 # 10));
   MkNet b012 b014 (SwMany [8; 14; 21; 23]%Z) (Some (17 # 10)) (Some (19 # 10)) (Some (4 # 5)) (Some (9 # 10));
   MkNet b012 b015 (SwMany [8; 14; 17; 19; 24; 25]%Z) (Some (17 # 10)) (Some (19 # 10)) (Some (17 # 10)) (Some (19 # 10));
   MkNet b012 b016 (SwMany [8; 14; 21; 23]%Z) (Some (17 # 10)) (Some (19 # 10)) (Some (17 # 10)) (Some (19 # 10));
   MkNet b012 b018 (SwMany [8; 14; 21]%Z) (Some (17 # 10)) (Some (19 # 10)) (Some (4 # 5)) (Some (9 # 10));
   MkNet b012 b019 (SwMany [8; 15; 16; 28]%Z) (Some (17 # 10)) (Some (19 # 10)) (Some (17 # 10)) (Some (19 # 10));
   MkNet b020 b013 (SwMany [1; 9; 14; 17; 19; 24]%Z) (Some (17 # 10)) (Some (19 # 10)) (Some (17 # 10)) (Some (19 # 10));
   MkNet b020 b014 (SwMany [1; 9; 15; 21; 23]%Z) (Some (17 # 10)) (Some (19 # 10)) (Some (17 # 10)) (Some (19 # 10));
   MkNet b020 b015 (SwMany [1; 9; 14; 17; 19; 24; 25]%Z) (Some (17 # 10)) (Some (19 # 10)) (Some (17 # 10)) (Some (19 # 10));
   MkNet b020 b016 (SwMany [1; 9; 15; 21; 23]%Z) (Some (17 # 10)) (Some (19 # 10)) (Some (17 # 10)) (Some (19 # 10));
   MkNet b020 b018 (SwMany [1; 9; 15; 21]%Z) (Some (17 # 10)) (Some (19 # 10)) (Some (17 # 10)) (Some (19 # 10));
   MkNet b020 b019 (SwMany [1; 9; 15; 16; 28]%Z) (Some (17 # 10)) (Some (19 # 10)) (Some (17 # 10)) (Some (19 # 10));
   MkNet b017 b021 (SwMany [39; 54]%Z) (Some (17 # 10)) (Some (17 # 10)) (Some (17 # 10)) (Some (19 # 10));
   MkNet b017 b022 (SwMany [39; 54; 55]%Z) (Some (17 # 10)) (Some (17 # 10)) (Some (17 # 10)) (Some (19 # 10));
   MkNet b015 b021 (SwMany [37; 39; 54]%Z) (Some (17 # 10)) (Some (17 # 10)) (Some 3) (Some 3);
   MkNet b015 b022 (SwMany [37; 53; 55]%Z) (Some (17 # 10)) (Some (17 # 10)) (Some 3) (Some 3);
   MkNet b015 b023 (SwMany [37; 53]%Z) (Some (17 # 10)) (Some (17 # 10)) (Some (3 # 2)) (Some (3 # 2));
   MkNet b013 b021 (SwMany [36; 67; 39; 54]%Z) (Some (17 # 10)) (Some (17 # 10)) (Some 3) (Some 3);
   MkNet b013 b022 (SwMany [36; 67; 53; 55]%Z) (Some (17 # 10)) (Some (17 # 10)) (Some 3) (Some 3);
   MkNet b013 b023 (SwMany [36; 37; 53]%Z) (Some (17 # 10)) (Some (17 # 10)) (Some (3 # 2)) (Some (3 # 2));
   MkNet b013 b024 (SwMany [36; 52]%Z) (Some (17 # 10)) (Some (17 # 10)) (Some 3) (Some 3);
   MkNet b013 b025 (SwMany [36; 52]%Z) (Some (17 # 10)) (Some (17 # 10)) (Some 3) (Some 3);
   MkNet b026 b021 (SwMany [32; 33; 36; 67; 39; 54]%Z) (Some (17 # 10)) (Some (17 # 10)) (Some 3) (Some 3);
   MkNet b026 b022 (SwMany [32; 33; 36; 67; 53; 55]%Z) (Some (17 # 10)) (Some (17 # 10)) (Some 3) (Some 3);
   MkNet b026 b023 (SwMany [32; 33; 36; 37; 53]%Z) (Some (17 # 10)) (Some (17 # 10)) (Some (3 # 2)) (Some (3 # 2));
   MkNet b026 b024 (SwMany [32; 33; 36; 52]%Z) (Some (17 # 10)) (Some (17 # 10)) (Some 3) (Some 3);
   MkNet b026 b025 (SwMany [32; 33; 36; 52]%Z) (Some (17 # 10)) (Some (17 # 10)) (Some 3) (Some 3);
   MkNet b026 b027 (SwMany [32; 34; 35; 51]%Z) (Some (17 # 10)) (Some (17 # 10)) (Some 3) (Some 3);
   MkNet b026 b028 (SwMany [32; 34; 35; 51; 56]%Z) (Some (17 # 10)) (Some (17 # 10)) (Some 3) (Some 3);
   MkNet b026 b029 (SwMany [32; 34; 35; 40; 48; 50; 57]%Z) (Some (17 # 10)) (Some (17 # 10)) (Some (3 # 2)) (Some (3 # 2));
   MkNet b026 b030 (SwMany [32; 34; 35; 40; 41; 42; 49]%Z) (Some (17 # 10)) (Some (17 # 10)) (Some 3) (Some 3);
   MkNet b026 b031 (SwMany [32; 34; 35; 40; 41; 42]%Z) (Some (17 # 10)) (Some (17 # 10)) (Some 3) (Some 3);
   MkNet b032 b021 (SwMany [31; 33; 36; 67; 39; 54]%Z) (Some (17 # 10)) (Some (17 # 10)) (Some 3) (Some 3);
   MkNet b032 b022 (SwMany [31; 33; 36; 67; 53; 55]%Z) (Some (17 # 10)) (Some (17 # 10)) (Some 3) (Some 3);
   MkNet b032 b023 (SwMany [31; 33; 36; 37; 53]%Z) (Some (17 # 10)) (Some (17 # 10)) (Some (3 # 2)) (Some (3 # 2));
   MkNet b032 b024 (SwMany [31; 33; 36; 52]%Z) (Some (17 # 10)) (Some (17 # 10)) (Some 3) (Some 3);
   MkNet b032 b025 (SwMany [31; 33; 36; 52]%Z) (Some (17 # 10)) (Some (17 # 10)) (Some 3) (Some 3);
   MkNet b032 b027 (SwMany [31; 34; 35; 51]%Z) (Some (17 # 10)) (Some (17 # 10)) (Some 3) (Some 3);
   MkNet b032 b028 (SwMany [31; 34; 35; 51; 56]%Z) (Some (17 # 10)) (Some (17 # 10)) (Some 3) (Some 3);
   MkNet b032 b029 (SwMany [31; 34; 35; 40; 48; 50; 57]%Z) (Some (17 # 10)) (Some (17 # 10)) (Some (3 # 2)) (Some (3 # 2));
   MkNet b032 b030 (SwMany [31; 34; 35; 40; 41; 42; 49]%Z) (Some (17 # 10)) (Some (17 # 10)) (Some 3) (Some 3);
   MkNet b032 b031 (SwMany [31; 34; 35; 40; 41; 42]%Z) (Some (17 # 10)) (Some (17 # 10)) (Some 3) (Some 3);
   MkNet b014 b027 (SwMany [35; 51]%Z) (Some (17 # 10)) (Some (17 # 10)) (Some 3) (Some 3);
   MkNet b014 b028 (SwMany [35; 51; 56]%Z) (Some (17 # 10)) (Some (17 # 10)) (Some 3) (Some 3);
   MkNet b014 b029 (SwMany [35; 40; 48; 50; 57]%Z) (Some (17 # 10)) (Some (17 # 10)) (Some (3 # 2)) (Some (3 # 2));
   MkNet b014 b030 (SwMany [35; 40; 41; 42; 49]%Z) (Some (17 # 10)) (Some (17 # 10)) (Some 3) (Some 3);
   MkNet b014 b031 (SwMany [35; 40; 41; 42; 47]%Z) (Some (17 # 10)) (Some (17 # 10)) (Some 3) (Some 3);
   MkNet b016 b028 (SwMany [40; 48; 50; 56]%Z) (Some (17 # 10)) (Some (17 # 10)) (Some 3) (Some 3);
   MkNet b016 b029 (SwMany [40; 48; 50; 57]%Z) (Some (17 # 10)) (Some (17 # 10)) (Some (3 # 2)) (Some (3 # 2));
   MkNet b016 b030 (SwMany [40; 41; 42]%Z) (Some (17 # 10)) (Some (17 # 10)) (Some 3) (Some 3);
   MkNet b016 b031 (SwMany [40; 41; 42; 47]%Z) (Some (17 # 10)) (Some (17 # 10)) (Some 3) (Some 3);
   MkNet b018 b028 (SwMany [38; 48; 50; 56]%Z) (Some (17 # 10)) (Some (17 # 10)) (Some 3) (Some 3);
   MkNet b018 b029 (SwMany [38; 48; 50; 57]%Z) (Some (17 # 10)) (Some (17 # 10)) (Some (3 # 2)) (Some (3 # 2));
   MkNet b018 b030 (SwMany [38; 41; 42]%Z) (Some (17 # 10)) (Some (17 # 10)) (Some 3) (Some 3);
   MkNet b018 b031 (SwMany [38; 41; 42; 47]%Z) (Some (17 # 10)) (Some (17 # 10)) (Some 3) (Some 3);
   MkNet b033 b029 (SwMany [43; 42; 49; 57]%Z) (Some (17 # 10)) (Some (17 # 10)) (Some (3 # 2)) (Some (3 # 2));
   MkNet b033 b030 (SwMany [43; 42; 49]%Z) (Some (17 # 10)) (Some (17 # 10)) (Some 3) (Some 3);
   MkNet b033 b031 (SwMany [43; 42]%Z) (Some (17 # 10)) (Some (17 # 10)) (Some 3) (Some 3);
   MkNet b019 b031 (SwMany [45; 46; 47]%Z) (Some (17 # 10)) (Some (17 # 10)) (Some 3) (Some 3);
   MkNet b021 b034 (SwMany [62; 64; 69; 70; 72; 74]%Z) (Some 3) (Some 3) (Some 1) (Some 1);
   MkNet b021 b035 (SwMany [62; 64; 69; 71; 87; 92]%Z) (Some 3) (Some 3) (Some 1) (Some 1);
   MkNet b021 b036 (SwMany [62; 64; 69; 71; 87; 88; 91]%Z) (Some 3) (Some 3) (Some 1) (Some 1);
   MkNet b021 b037 (SwMany [62; 64; 69; 71; 87; 88; 90; 95]%Z) (Some 3) (Some 3) (Some 1) (Some 1);
   MkNet b021 b038 (SwMany [62; 64; 69; 71; 87; 88; 90; 95]%Z) (Some 3) (Some 3) (Some 1) (Some 1);
   MkNet b021 b039 (SwMany [62; 64; 69; 71; 87; 88; 90; 93]%Z) (Some 3) (Some 3) (Some 1) (Some 1);
   MkNet b022 b034 (SwMany [61; 64; 69; 70; 72; 74]%Z) (Some 3) (Some 3) (Some 1) (Some 1);
   MkNet b022 b035 (SwMany [61; 64; 69; 71; 87; 92]%Z) (Some 3) (Some 3) (Some 1) (Some 1);
   MkNet b022 b036 (SwMany [61; 64; 69; 71; 87; 88; 91]%Z) (Some 3) (Some 3) (Some 1) (Some 1);
   MkNet b022 b037 (SwMany [61; 64; 69; 71; 87; 88; 90; 95]%Z) (Some 3) (Some 3) (Some 1) (Some 1);
   MkNet b022 b038 (SwMany [61; 64; 69; 71; 87; 88; 90; 95]%Z) (Some 3) (Some 3) (Some 1) (Some 1);
   MkNet b022 b039 (SwMany [61; 64; 69; 71; 87; 88; 90; 93]%Z) (Some 3) (Some 3) (Some 1) (Some 1);
   MkNet b023 b034 (SwMany [61; 64; 69; 70; 72; 74]%Z) (Some (3 # 2)) (Some (3 # 2)) (Some 1) (Some 1);
   MkNet b023 b035 (SwMany [61; 64; 69; 71; 87; 92]%Z) (Some (3 # 2)) (Some (3 # 2)) (Some 1) (Some 1);
   MkNet b023 b036 (SwMany [61; 64; 69; 71; 87; 88; 91]%Z) (Some (3 # 2)) (Some (3 # 2)) (Some 1) (Some 1);
   MkNet b023 b037 (SwMany [61; 64; 69; 71; 87; 88; 90; 95]%Z) (Some (3 # 2)) (Some (3 # 2)) (Some 1) (Some 1);
   MkNet b023 b038 (SwMany [61; 64; 69; 71; 87; 88; 90; 95]%Z) (Some (3 # 2)) (Some (3 # 2)) (Some 1) (Some 1);
   MkNet b023 b039 (SwMany [61; 64; 69; 71; 87; 88; 90; 93]%Z) (Some (3 # 2)) (Some (3 # 2)) (Some 1) (Some 1);
   MkNet b024 b034 (SwMany [65; 68; 70; 72; 74]%Z) (Some 3) (Some 3) (Some 1) (Some 1);
   MkNet b024 b035 (SwMany [65; 68; 71; 87; 92]%Z) (Some 3) (Some 3) (Some 1) (Some 1);
   MkNet b024 b036 (SwMany [65; 67; 85; 88; 91]%Z) (Some 3) (Some 3) (Some 1) (Some 1);
   MkNet b024 b037 (SwMany [65; 67; 85; 88; 90; 95]%Z) (Some 3) (Some 3) (Some 1) (Some 1);
   MkNet b024 b038 (SwMany [65; 67; 85; 88; 90; 95]%Z) (Some 3) (Some 3) (Some 1) (Some 1);
   MkNet b024 b039 (SwMany [65; 67; 85; 88; 90; 93]%Z) (Some 3) (Some 3) (Some 1) (Some 1);
   MkNet b025 b034 (SwMany [66; 68; 70; 72; 74]%Z) (Some 3) (Some 3) (Some 1) (Some 1);
   MkNet b025 b035 (SwMany [66; 68; 71; 87; 92]%Z) (Some 3) (Some 3) (Some 1) (Some 1);
   MkNet b025 b036 (SwMany [66; 67; 85; 88; 91]%Z) (Some 3) (Some 3) (Some 1) (Some 1);
   MkNet b025 b037 (SwMany [66; 67; 85; 88; 90; 95]%Z) (Some 3) (Some 3) (Some 1) (Some 1);
   MkNet b025 b038 (SwMany [66; 67; 85; 88; 90; 95]%Z) (Some 3) (Some 3) (Some 1) (Some 1);
   MkNet b025 b039 (SwMany [66; 67; 85; 88; 90; 93]%Z) (Some 3) (Some 3) (Some 1) (Some 1);
   MkNet b027 b035 (SwMany [81; 85; 88; 81; 92]%Z) (Some 3) (Some 3) (Some 1) (Some 1);
   MkNet b027 b036 (SwMany [81; 85; 88; 91]%Z) (Some 3) (Some 3) (Some 1) (Some 1);
   MkNet b027 b037 (SwMany [81; 83; 89; 90; 95]%Z) (Some 3) (Some 3) (Some 1) (Some 1);
   MkNet b027 b038 (SwMany [81; 83; 89; 90; 95]%Z) (Some 3) (Some 3) (Some 1) (Some 1);
   MkNet b027 b039 (SwMany [81; 83; 89; 90; 93]%Z) (Some 3) (Some 3) (Some 1) (Some 1);
   MkNet b028 b035 (SwMany [81; 85; 88; 81; 92]%Z) (Some 3) (Some 3) (Some 1) (Some 1);
   MkNet b028 b036 (SwMany [81; 85; 88; 91]%Z) (Some 3) (Some 3) (Some 1) (Some 1);
   MkNet b028 b037 (SwMany [81; 83; 89; 90; 95]%Z) (Some 3) (Some 3) (Some 1) (Some 1);
   MkNet b028 b038 (SwMany [81; 83; 89; 90; 95]%Z) (Some 3) (Some 3) (Some 1) (Some 1);
   MkNet b028 b039 (SwMany [81; 83; 89; 90; 93]%Z) (Some 3) (Some 3) (Some 1) (Some 1);
   MkNet b029 b035 (SwMany [83; 89; 91; 92]%Z) (Some (3 # 2)) (Some (3 # 2)) (Some 1) (Some 1);
   MkNet b029 b036 (SwMany [83; 89; 91]%Z) (Some (3 # 2)) (Some (3 # 2)) (Some 1) (Some 1);
   MkNet b029 b037 (SwMany [83; 89; 90; 95]%Z) (Some (3 # 2)) (Some (3 # 2)) (Some 1) (Some 1);
   MkNet b029 b038 (SwMany [83; 89; 90; 95]%Z) (Some (3 # 2)) (Some (3 # 2)) (Some 1) (Some 1);
   MkNet b029 b039 (SwMany [83; 89; 90; 93]%Z) (Some (3 # 2)) (Some (3 # 2)) (Some 1) (Some 1);
   MkNet b030 b035 (SwMany [82; 84; 86; 89; 90; 92]%Z) (Some 3) (Some 3) (Some 1) (Some 1);
   MkNet b030 b036 (SwMany [82; 84; 86; 89; 91]%Z) (Some 3) (Some 3) (Some 1) (Some 1);
   MkNet b030 b037 (SwMany [82; 84; 86; 89; 90; 95]%Z) (Some 3) (Some 3) (Some 1) (Some 1);
   MkNet b030 b038 (SwMany [82; 84; 86; 89; 90; 95]%Z) (Some 3) (Some 3) (Some 1) (Some 1);
   MkNet b030 b039 (SwMany [82; 84; 86; 93]%Z) (Some 3) (Some 3) (Some 1) (Some 1);
   MkNet b031 b035 (SwMany [82; 84; 86; 89; 90; 92]%Z) (Some 3) (Some 3) (Some 1) (Some 1);
   MkNet b031 b036 (SwMany [82; 84; 86; 89; 91]%Z) (Some 3) (Some 3) (Some 1) (Some 1);
   MkNet b031 b037 (SwMany [82; 84; 86; 89; 90; 95]%Z) (Some 3) (Some 3) (Some 1) (Some 1);
   MkNet b031 b038 (SwMany [82; 84; 86; 89; 90; 95]%Z) (Some 3) (Some 3) (Some 1) (Some 1);
   MkNet b031 b039 (SwMany [82; 84; 86; 93]%Z) (Some 3) (Some 3) (Some 1) (Some 1);
   MkNet b035 b040 (SwOne 100) (Some (9 # 10)) (Some (9 # 10)) (Some (6 # 5)) (Some (11 # 5));
   MkNet b036 b041 (SwOne 200) (Some (9 # 10)) (Some (9 # 10)) (Some (6 # 5)) (Some (11 # 5));
   MkNet b040 b042 (SwInt 415) (Some (6 # 5)) (Some (19 # 10)) (Some (11 # 10)) (Some (13 # 10));
   MkNet b040 b043 (SwFloat 415 "416") (Some (17 # 10)) (Some (19 # 10)) (Some (3 # 5)) (Some (4 # 5));
   MkNet b040 b044 (SwMany [415; 416; 417]%Z) (Some (5 # 2)) (Some (5 # 2)) (Some (5 # 2)) (Some (5 # 2));
   MkNet b041 b043 (SwInt 416) (Some (17 # 10)) (Some (19 # 10)) (Some 1) (Some (6 # 5));
   MkNet b041 b044 (SwFloat 416 "417") (Some (5 # 2)) (Some (5 # 2)) (Some (5 # 2)) (Some (5 # 2));
   MkNet b042 b045 SwEmpty (Some (3 # 5)) (Some (4 # 5)) (Some (4 # 5)) (Some (4 # 5));
   MkNet b043 b046 SwEmpty (Some (3 # 5)) (Some (4 # 5)) (Some (3 # 5)) (Some (4 # 5));
   MkNet b045 b047 (SwFloat 5 "8") (Some (7 # 10)) (Some (4 # 5)) (Some 1) (Some 2);
   MkNet b045 b048 (SwFloat 5 "8") (Some (6 # 5)) (Some (13 # 10)) (Some 1) (Some 2);
   MkNet b045 b049 (SwMany [5; 8; 9]%Z) (Some (7 # 10)) (Some 1) (Some 1) (Some 2);
   MkNet b045 b050 (SwMany [5; 6; 7]%Z) (Some (6 # 5)) (Some (13 # 10)) (Some 1) (Some 2);
   MkNet b046 b048 (SwMany [9; 7; 6]%Z) (Some (6 # 5)) (Some (13 # 10)) (Some (1 # 2)) (Some (3 # 2));
   MkNet b046 b049 (SwMany [9; 7; 6]%Z) (Some (6 # 5)) (Some (13 # 10)) (Some 1) (Some 2);
   MkNet b046 b050 (SwFloat 7 "6") (Some (6 # 5)) (Some (13 # 10)) (Some 1) (Some 2);
   MkNet b044 b051 SwEmpty (Some (5 # 2)) (Some (5 # 2)) (Some (5 # 2)) (Some (5 # 2));
   MkNet b051 b052 (SwOne 1) (Some (5 # 2)) (Some (5 # 2)) (Some (5 # 2)) (Some (5 # 2));
   MkNet b052 b053 (SwFloat 25 "26") (Some (3 # 2)) (Some (3 # 2)) (Some (3 # 2)) (Some (3 # 2));
   MkNet b047 b054 (SwFloat 16 "2") (Some (7 # 10)) (Some (17 # 10)) (Some (9 # 10)) (Some (9 # 10));
   MkNet b047 b055 (SwFloat 16 "19") (Some (6 # 5)) (Some (11 # 5)) (Some (7 # 5)) (Some (7 # 5));
   MkNet b048 b054 (SwMany [17; 20]%Z) (Some (6 # 5)) (Some (11 # 5)) (Some (7 # 5)) (Some (7 # 5));
   MkNet b048 b055 (SwMany [17; 19]%Z) (Some (7 # 10)) (Some (17 # 10)) (Some (9 # 10)) (Some (9 # 10));
   MkNet b049 b056 (SwMany [12; 14]%Z) (Some (6 # 5)) (Some (11 # 5)) (Some (5 # 2)) (Some (5 # 2));
   MkNet b049 b057 (SwMany [12; 15]%Z) (Some (17 # 10)) (Some (27 # 10)) (Some 3) (Some 3);
   MkNet b049 b054 (SwMany [12; 14; 17; 20]%Z) (Some (17 # 10)) (Some (27 # 10)) (Some (7 # 5)) (Some (7 # 5));
   MkNet b049 b055 (SwMany [12; 14; 17; 19]%Z) (Some (17 # 10)) (Some (27 # 10)) (Some (7 # 5)) (Some (7 # 5));
   MkNet b050 b057 (SwMany [11; 15]%Z) (Some (6 # 5)) (Some (11 # 5)) (Some (5 # 2)) (Some (5 # 2));
   MkNet b050 b056 (SwMany [14; 11]%Z) (Some (17 # 10)) (Some (27 # 10)) (Some 3) (Some 3);
   MkNet b050 b054 (SwMany [11; 14; 17; 20]%Z) (Some (17 # 10)) (Some (27 # 10)) (Some (7 # 5)) (Some (7 # 5));
   MkNet b050 b055 (SwMany [11; 14; 17; 19]%Z) (Some (17 # 10)) (Some (27 # 10)) (Some (7 # 5)) (Some (7 # 5));
   MkNet b053 b056 (SwMany [10; 11; 14]%Z) (Some 3) (Some 3) (Some 3) (Some 3);
   MkNet b053 b057 (SwMany [10; 11; 15]%Z) (Some 3) (Some 3) (Some 3) (Some 3);
   MkNet b053 b054 (SwMany [10; 11; 14; 17; 20]%Z) (Some 3) (Some 3) (Some (7 # 5)) (Some (7 # 5));
   MkNet b053 b055 (SwMany [10; 11; 14; 17; 19]%Z) (Some 3) (Some 3) (Some (7 # 5)) (Some (7 # 5));
   MkNet b056 b058 (SwMany [1; 9]%Z) (Some (12 # 5)) (Some (12 # 5)) (Some (3 # 2)) (Some (3 # 2));
   MkNet b056 b059 (SwMany [1; 2; 16]%Z) (Some (12 # 5)) (Some (12 # 5)) (Some 2) (Some 2);
   MkNet b057 b058 (SwMany [2; 16; 9]%Z) (Some (12 # 5)) (Some (12 # 5)) (Some 2) (Some 2);
   MkNet b057 b059 (SwMany [2; 16]%Z) (Some (12 # 5)) (Some (12 # 5)) (Some (3 # 2)) (Some (3 # 2));
   MkNet b058 b060 (SwOne 59) (Some (11 # 5)) (Some (11 # 5)) (Some (7 # 2)) (Some (7 # 2));
   MkNet b059 b060 (SwMany [58; 59]%Z) (Some (11 # 5)) (Some (11 # 5)) (Some (7 # 2)) (Some (7 # 2));
   MkNet b059 b061 (SwOne 58) (Some (11 # 5)) (Some (11 # 5)) (Some (7 # 2)) (Some (7 # 2));
   MkNet b054 b062 SwEmpty (Some (11 # 10)) (Some (3 # 2)) (Some (7 # 10)) (Some (17 # 10));
   MkNet b055 b063 SwEmpty (Some (11 # 10)) (Some (3 # 2)) (Some (7 # 10)) (Some (17 # 10));
   MkNet b062 b064 SwEmpty (Some (9 # 10)) (Some (7 # 5)) (Some (11 # 10)) (Some (11 # 10));
   MkNet b063 b065 SwEmpty (Some (9 # 10)) (Some (7 # 5)) (Some (11 # 10)) (Some (11 # 10));
   MkNet b064 b066 (SwOne 107) (Some (4 # 5)) (Some (4 # 5)) (Some (3 # 5)) (Some (8 # 5));
   MkNet b065 b066 (SwMany [106; 107]%Z) (Some (4 # 5)) (Some (4 # 5)) (Some (11 # 10)) (Some (21 # 10));
   MkNet b065 b067 (SwOne 106) (Some (13 # 10)) (Some (13 # 10)) (Some (3 # 5)) (Some (8 # 5));
   MkNet b066 b068 (SwMany [161; 164]%Z) (Some (7 # 10)) (Some (7 # 5)) (Some (11 # 10)) (Some (11 # 10));
   MkNet b066 b069 (SwMany [161; 164; 165]%Z) (Some (6 # 5)) (Some (19 # 10)) (Some (8 # 5)) (Some (8 # 5));
   MkNet b067 b068 (SwMany [160; 161; 164]%Z) (Some (6 # 5)) (Some (19 # 10)) (Some (8 # 5)) (Some (8 # 5));
   MkNet b067 b069 (SwMany [160; 165]%Z) (Some (7 # 10)) (Some (7 # 5)) (Some (11 # 10)) (Some (11 # 10));
   MkNet b068 b070 SwEmpty (Some (13 # 10)) (Some (13 # 10)) (Some (9 # 10)) (Some (19 # 10));
   MkNet b069 b071 SwEmpty (Some (13 # 10)) (Some (13 # 10)) (Some (9 # 10)) (Some (19 # 10));
   MkNet b070 b072 SwEmpty (Some (7 # 10)) (Some (13 # 10)) (Some (1 # 2)) (Some (1 # 2));
   MkNet b071 b073 SwEmpty (Some (7 # 10)) (Some (13 # 10)) (Some (1 # 2)) (Some (1 # 2));
   MkNet b072 b074 SwEmpty (Some (7 # 10)) (Some (7 # 10)) (Some (23 # 10)) (Some (23 # 10));
   MkNet b073 b075 SwEmpty (Some (7 # 10)) (Some (7 # 10)) (Some (23 # 10)) (Some (23 # 10));
   MkNet b074 b076 (SwMany [18; 23]%Z) (Some (9 # 10)) (Some (9 # 10)) (Some 2) (Some 2);
   MkNet b074 b077 (SwMany [18; 23; 24]%Z) (Some (7 # 5)) (Some (7 # 5)) (Some 2) (Some 2);
   MkNet b075 b076 (SwMany [23; 18; 17]%Z) (Some (7 # 5)) (Some (7 # 5)) (Some 2) (Some 2);
   MkNet b075 b077 (SwMany [24; 17]%Z) (Some (9 # 10)) (Some (9 # 10)) (Some 2) (Some 2);
   MkNet b076 b078 (SwMany [47; 48]%Z) (Some (3 # 2)) (Some (3 # 2)) (Some (6 # 5)) (Some (6 # 5));
   MkNet b076 b079 (SwMany [47; 48; 49]%Z) (Some 2) (Some 2) (Some (6 # 5)) (Some (6 # 5));
   MkNet b077 b078 (SwMany [48; 47; 46]%Z) (Some 2) (Some 2) (Some (6 # 5)) (Some (6 # 5));
   MkNet b077 b079 (SwMany [46; 49]%Z) (Some (3 # 2)) (Some (3 # 2)) (Some (6 # 5)) (Some (6 # 5));
   MkNet b078 b080 SwEmpty (Some (13 # 10)) (Some (13 # 10)) (Some (4 # 5)) (Some (4 # 5));
   MkNet b079 b081 SwEmpty (Some (13 # 10)) (Some (13 # 10)) (Some (4 # 5)) (Some (4 # 5));
   MkNet b080 b082 SwEmpty (Some (9 # 10)) (Some (9 # 10)) (Some (3 # 5)) (Some (3 # 5));
   MkNet b081 b083 SwEmpty (Some (9 # 10)) (Some (9 # 10)) (Some (3 # 5)) (Some (3 # 5));
   MkNet b082 b084 SwEmpty (Some (1 # 2)) (Some (1 # 2)) (Some (7 # 10)) (Some (7 # 10));
   MkNet b083 b085 SwEmpty (Some (1 # 2)) (Some (1 # 2)) (Some (7 # 10)) (Some (7 # 10));
   MkNet b084 b086 SwEmpty (Some (7 # 10)) (Some (7 # 10)) (Some (9 # 5)) (Some (9 # 5));
   MkNet b085 b087 SwEmpty (Some (7 # 10)) (Some (7 # 10)) (Some (9 # 5)) (Some (9 # 5));
   MkNet b086 b088 (SwMany [31; 33; 41]%Z) (Some 2) (Some 2) (Some 2) (Some 2);
   MkNet b086 b089 (SwMany [31; 33]%Z) (Some 2) (Some 2) (Some 2) (Some 2);
   MkNet b086 b090 (SwMany [31; 34]%Z) (Some 2) (Some 2) (Some 2) (Some 2);
   MkNet b086 b091 (SwMany [31; 34; 43]%Z) (Some 2) (Some 2) (Some 2) (Some 2);
   MkNet b086 b092 (SwMany [31; 34; 43]%Z) (Some 2) (Some 2) (Some 2) (Some 2);
   MkNet b087 b093 (SwMany [37; 36; 30; 22]%Z) (Some 2) (Some 2) (Some 2) (Some 2);
   MkNet b087 b094 (SwMany [36; 30; 22]%Z) (Some 2) (Some 2) (Some 2) (Some 2);
   MkNet b087 b095 (SwMany [30; 22]%Z) (Some 2) (Some 2) (Some 2) (Some 2);
   MkNet b087 b088 (SwMany [29; 24; 22]%Z) (Some 2) (Some 2) (Some 2) (Some 2);
   MkNet b096 b093 (SwMany [37; 36; 30; 29]%Z) (Some 2) (Some 2) (Some 2) (Some 2);
   MkNet b096 b094 (SwMany [36; 30; 29]%Z) (Some 2) (Some 2) (Some 2) (Some 2);
   MkNet b096 b095 (SwMany [30; 29]%Z) (Some 2) (Some 2) (Some 2) (Some 2);
   MkNet b096 b088 (SwMany [41; 29]%Z) (Some 2) (Some 2) (Some 2) (Some 2);
   MkNet b096 b089 (SwMany [27; 28; 32; 33]%Z) (Some 2) (Some 2) (Some 2) (Some 2);
   MkNet b096 b090 (SwMany [27; 28; 32; 34]%Z) (Some 2) (Some 2) (Some 2) (Some 2);
   MkNet b096 b091 (SwMany [27; 28; 32; 34; 43]%Z) (Some 2) (Some 2) (Some 2) (Some 2);
   MkNet b096 b092 (SwMany [27; 28; 32; 34; 43]%Z) (Some 2) (Some 2) (Some 2) (Some 2);
   MkNet b093 b097 (SwMany [76; 77; 84; 87; 89; 90]%Z) (Some (13 # 10)) (Some (13 # 10)) (Some (11 # 10)) (Some (11 # 10));
   MkNet b093 b098 (SwMany [76; 77; 84; 87; 93]%Z) (Some (13 # 10)) (Some (13 # 10)) (Some (11 # 10)) (Some (11 # 10));
   MkNet b094 b097 (SwMany [76; 77; 84; 87; 89; 90]%Z) (Some (13 # 10)) (Some (13 # 10)) (Some (11 # 10)) (Some (11 # 10));
   MkNet b094 b098 (SwMany [76; 77; 84; 87; 93]%Z) (Some (13 # 10)) (Some (13 # 10)) (Some (11 # 10)) (Some (11 # 10));
   MkNet b095 b097 (SwMany [85; 87; 89; 90]%Z) (Some (13 # 10)) (Some (13 # 10)) (Some (11 # 10)) (Some (11 # 10));
   MkNet b095 b098 (SwMany [85; 87; 93]%Z) (Some (13 # 10)) (Some (13 # 10)) (Some (11 # 10)) (Some (11 # 10));
   MkNet b088 b097 (SwMany [85; 87; 89; 90]%Z) (Some (13 # 10)) (Some (13 # 10)) (Some (11 # 10)) (Some (11 # 10));
   MkNet b088 b098 (SwMany [85; 87; 93]%Z) (Some (13 # 10)) (Some (13 # 10)) (Some (11 # 10)) (Some (11 # 10));
   MkNet b089 b097 (SwMany [86; 89; 90]%Z) (Some (13 # 10)) (Some (13 # 10)) (Some (11 # 10)) (Some (11 # 10));
   MkNet b089 b098 (SwMany [86; 89; 90; 93]%Z) (Some (13 # 10)) (Some (13 # 10)) (Some (11 # 10)) (Some (11 # 10));
   MkNet b090 b097 (SwMany [82; 83; 86; 89; 90]%Z) (Some (13 # 10)) (Some (13 # 10)) (Some (11 # 10)) (Some (11 # 10));
   MkNet b090 b098 (SwMany [82; 83; 86; 89; 90; 93]%Z) (Some (13 # 10)) (Some (13 # 10)) (Some (11 # 10)) (Some (11 # 10));
   MkNet b091 b097 (SwMany [81; 83; 86; 89; 90]%Z) (Some (13 # 10)) (Some (13 # 10)) (Some (11 # 10)) (Some (11 # 10));
   MkNet b091 b098 (SwMany [81; 83; 86; 89; 90; 93]%Z) (Some (13 # 10)) (Some (13 # 10)) (Some (11 # 10)) (Some (11 # 10));
   MkNet b092 b097 (SwMany [81; 83; 86; 89; 90]%Z) (Some (13 # 10)) (Some (13 # 10)) (Some (11 # 10)) (Some (11 # 10));
   MkNet b092 b098 (SwMany [81; 83; 86; 89; 90; 93]%Z) (Some (13 # 10)) (Some (13 # 10)) (Some (11 # 10)) (Some (11 # 10));
   MkNet b034 b099 SwEmpty (Some 1) (Some 1) (Some (9 # 10)) (Some (9 # 10));
   MkNet b099 b100 (SwFloat 1 "2") (Some (9 # 10)) (Some (9 # 10)) None None;
   MkNet b099 b101 (SwMany [1; 2; 3]%Z) (Some (7 # 5)) (Some (7 # 5)) None None;
   MkNet b099 b102 (SwMany [1; 2; 3]%Z) None None (Some (7 # 5)) (Some (7 # 5));
   MkNet b099 b103 (SwFloat 1 "2") None None (Some (7 # 5)) (Some (7 # 5));
   MkNet b038 b100 (SwFloat 1 "2") (Some (9 # 10)) (Some (9 # 10)) None None;
   MkNet b038 b101 (SwMany [1; 2; 3]%Z) (Some (7 # 5)) (Some (7 # 5)) None None;
   MkNet b038 b102 (SwMany [1; 2; 3]%Z) None None (Some (7 # 5)) (Some (7 # 5));
   MkNet b038 b103 (SwFloat 1 "2") None None (Some (7 # 5)) (Some (7 # 5));
   MkNet b039 b101 (SwInt 3) (Some 1) (Some 1) None None;
   MkNet b039 b102 (SwInt 3) (Some 1) (Some 1) (Some (4 # 5)) (Some (9 # 10));
   MkNet b102 b101 SwEmpty (Some (7 # 5)) (Some (7 # 5)) (Some (9 # 10)) (Some (3 # 2));
   MkNet b103 b100 SwEmpty None None (Some (7 # 5)) (Some (19 # 10));
   MkNet b100 b104 SwEmpty (Some (8 # 5)) (Some (13 # 5)) (Some 1) (Some 1);
   MkNet b101 b105 SwEmpty (Some 1) (Some 1) (Some (8 # 5)) (Some (7 # 5));
   MkNet b104 b106 (SwFloat 9 "16") (Some (9 # 10)) (Some (9 # 10)) (Some (8 # 5)) (Some (7 # 5));
   MkNet b104 b107 (SwMany [9; 16; 15]%Z) (Some (9 # 10)) (Some (9 # 10)) (Some 1) (Some 2);
   MkNet b104 b108 (SwMany [9; 16; 17]%Z) (Some (9 # 10)) (Some (9 # 10)) (Some (8 # 5)) (Some (7 # 5));
   MkNet b105 b106 (SwMany [16; 9; 8]%Z) (Some (9 # 10)) (Some (9 # 10)) (Some 1) (Some 2);
   MkNet b105 b107 (SwFloat 15 "8") (Some (9 # 10)) (Some (9 # 10)) (Some (8 # 5)) (Some (7 # 5));
   MkNet b106 b109 (SwMany [54; 57; 84; 85]%Z) (Some (11 # 10)) (Some (21 # 10)) (Some (7 # 5)) (Some (12 # 5));
   MkNet b106 b110 (SwMany [54; 57; 84]%Z) (Some (11 # 10)) (Some (21 # 10)) (Some (9 # 10)) (Some (19 # 10));
   MkNet b106 b111 (SwMany [54; 55; 56; 78; 79; 83]%Z) (Some (8 # 5)) (Some (13 # 5)) (Some (7 # 5)) (Some (12 # 5));
   MkNet b107 b109 (SwMany [55; 56; 78; 79; 83; 84; 85]%Z) (Some (11 # 10)) (Some (21 # 10)) (Some (7 # 5)) (Some (12 # 5));
   MkNet b107 b110 (SwMany [55; 56; 78; 79; 83; 84]%Z) (Some (8 # 5)) (Some (13 # 5)) (Some (7 # 5)) (Some (12 # 5));
   MkNet b107 b111 (SwMany [55; 56; 78; 79; 83]%Z) (Some (11 # 10)) (Some (21 # 10)) (Some (9 # 10)) (Some (19 # 10));
   MkNet b108 b109 (SwMany [42; 43; 53; 58; 85]%Z) (Some (11 # 10)) (Some (21 # 10)) (Some (7 # 5)) (Some (12 # 5));
   MkNet b108 b110 (SwMany [42; 43; 53; 54; 57; 84]%Z) (Some (11 # 10)) (Some (21 # 10)) (Some (9 # 10)) (Some (19 # 10));
   MkNet b108 b111 (SwMany [42; 43; 53; 54; 55; 56; 78; 79; 83]%Z) (Some (8 # 5)) (Some (13 # 5)) (Some (7 # 5)) (Some (12 # 5));
   MkNet b109 b112 SwEmpty (Some (14 # 5)) (Some (7 # 2)) (Some (11 # 5)) (Some (11 # 5));
   MkNet b112 b113 (SwOne 1) (Some (3 # 2)) (Some (3 # 2)) (Some (7 # 10)) (Some (17 # 10));
   MkNet b112 b114 (SwOne 1) (Some (3 # 2)) (Some (3 # 2)) (Some (7 # 10)) (Some (17 # 10));
   MkNet b113 b115 (SwOne 2) (Some (3 # 5)) (Some (8 # 5)) (Some (17 # 10)) (Some (17 # 10));
   MkNet b114 b115 (SwOne 2) (Some (3 # 5)) (Some (8 # 5)) (Some (17 # 10)) (Some (17 # 10));
   MkNet b115 b116 (SwMany [1; 2]%Z) (Some (7 # 5)) (Some (19 # 10)) (Some (12 # 5)) (Some (12 # 5));
   MkNet b115 b117 (SwMany [1; 11]%Z) (Some (7 # 5)) (Some (19 # 10)) (Some (12 # 5)) (Some (12 # 5));
   MkNet b116 b118 (SwMany [22; 23; 24]%Z) (Some 2) (Some 2) (Some (41 # 10)) (Some (41 # 10));
   MkNet b117 b118 (SwOne 24) (Some 2) (Some 2) (Some (41 # 10)) (Some (41 # 10));
   MkNet b110 b119 SwEmpty (Some (19 # 10)) (Some (29 # 10)) (Some (3 # 5)) (Some (3 # 5));
   MkNet b111 b120 SwEmpty (Some (19 # 10)) (Some (29 # 10)) (Some (3 # 5)) (Some (3 # 5));
   MkNet b119 b121 SwEmpty (Some (3 # 5)) (Some (3 # 5)) (Some (1 # 2)) (Some (4 # 5));
   MkNet b120 b122 SwEmpty (Some (3 # 5)) (Some (3 # 5)) (Some (1 # 2)) (Some (4 # 5));
   MkNet b121 b123 SwEmpty (Some (1 # 2)) (Some (1 # 2)) (Some (3 # 5)) (Some (8 # 5));
   MkNet b122 b124 SwEmpty (Some (1 # 2)) (Some (1 # 2)) (Some (3 # 5)) (Some (8 # 5));
   MkNet b123 b125 SwEmpty (Some (3 # 5)) (Some (8 # 5)) (Some (3 # 5)) (Some (3 # 5));
   MkNet b124 b126 SwEmpty (Some (3 # 5)) (Some (8 # 5)) (Some (3 # 5)) (Some (3 # 5));
   MkNet b125 b127 SwEmpty (Some (2 # 5)) (Some (7 # 10)) None None;
   MkNet b127 b128 (SwMany [4; 7]%Z) (Some (1 # 2)) (Some (1 # 2)) (Some (3 # 5)) (Some (3 # 5));
   MkNet b127 b129 (SwMany [4; 5; 6; 8]%Z) (Some 1) (Some 1) (Some (11 # 10)) (Some (11 # 10));
   MkNet b127 b130 (SwMany [4; 5; 6; 8; 9]%Z) (Some 1) (Some 1) (Some (11 # 10)) (Some (11 # 10));
   MkNet b126 b128 (SwMany [3; 5; 6; 7]%Z) (Some 1) (Some 1) (Some (11 # 10)) (Some (11 # 10));
   MkNet b126 b129 (SwMany [3; 5; 6]%Z) (Some (1 # 2)) (Some (1 # 2)) (Some (3 # 5)) (Some (3 # 5));
   MkNet b126 b130 (SwMany [3; 5; 6; 9]%Z) (Some 1) (Some 1) (Some (11 # 10)) (Some (11 # 10));
   MkNet b128 b131 SwEmpty (Some (7 # 10)) (Some (7 # 10)) (Some (7 # 10)) (Some (7 # 10));
   MkNet b129 b132 SwEmpty (Some (7 # 10)) (Some (7 # 10)) (Some (7 # 10)) (Some (7 # 10));
   MkNet b130 b133 SwEmpty (Some (6 # 5)) (Some (6 # 5)) (Some (6 # 5)) (Some (6 # 5));
   MkNet b131 b134 SwEmpty (Some (3 # 5)) (Some (3 # 5)) (Some 1) (Some 1);
   MkNet b132 b135 SwEmpty (Some (3 # 5)) (Some (3 # 5)) (Some 1) (Some 1);
   MkNet b133 b136 SwEmpty (Some 1) (Some 1) (Some (3 # 2)) (Some (3 # 2));
   MkNet b134 b137 (SwMany [2; 3; 14; 16]%Z) (Some (3 # 5)) (Some (9 # 10)) (Some 2) (Some 2);
   MkNet b134 b138 (SwMany [2; 3; 4; 7; 11; 20; 21; 22]%Z) (Some (11 # 10)) (Some (7 # 5)) (Some 2) (Some 2);
   MkNet b134 b139 (SwMany [2; 3; 4; 7; 11; 20; 21]%Z) (Some (11 # 10)) (Some (7 # 5)) (Some 2) (Some 2);
   MkNet b135 b137 (SwMany [112; 1; 2; 3; 14; 16]%Z) (Some (11 # 10)) (Some (7 # 5)) (Some 2) (Some 2);
   MkNet b135 b140 (SwMany [112; 1; 114; 15]%Z) (Some (3 # 5)) (Some (9 # 10)) (Some 2) (Some 2);
   MkNet b135 b138 (SwMany [112; 1; 2; 3; 4; 7; 11; 20; 21; 22]%Z) (Some (11 # 10)) (Some (7 # 5)) (Some 2) (Some 2);
   MkNet b135 b139 (SwMany [112; 1; 2; 3; 4; 7; 11; 20; 21]%Z) (Some (11 # 10)) (Some (7 # 5)) (Some 2) (Some 2);
   MkNet b136 b137 (SwMany [111; 112; 1; 2; 3; 14; 16]%Z) (Some (11 # 10)) (Some (7 # 5)) (Some 2) (Some 2);
   MkNet b136 b140 (SwMany [111; 112; 1; 114; 15]%Z) (Some (11 # 10)) (Some (7 # 5)) (Some 2) (Some 2);
   MkNet b136 b141 (SwMany [111; 113; 117; 24]%Z) (Some (11 # 10)) (Some (7 # 5)) (Some 2) (Some 2);
   MkNet b136 b138 (SwMany [111; 112; 1; 2; 3; 4; 7; 11; 20; 21; 22]%Z) (Some (11 # 10)) (Some (7 # 5)) (Some 2) (Some 2);
   MkNet b136 b139 (SwMany [111; 112; 1; 2; 3; 4; 7; 11; 20; 21]%Z) (Some (11 # 10)) (Some (7 # 5)) (Some 2) (Some 2);
   MkNet b137 b142 (SwMany [45; 49; 53; 103]%Z) (Some 2) (Some 2) (Some (3 # 5)) (Some (3 # 5));
   MkNet b137 b143 (SwMany [45; 49; 50; 102; 55]%Z) (Some 2) (Some 2) (Some (11 # 10)) (Some (11 # 10));
   MkNet b137 b144 (SwMany [45; 49; 50; 51]%Z) (Some 2) (Some 2) (Some (7 # 5)) (Some (7 # 5));
   MkNet b137 b145 (SwMany [45; 46; 47; 48]%Z) (Some 2) (Some 2) (Some (19 # 10)) (Some (19 # 10));
   MkNet b140 b142 (SwMany [46; 50; 102; 103]%Z) (Some 2) (Some 2) (Some (11 # 10)) (Some (11 # 10));
   MkNet b140 b143 (SwMany [46; 50; 102; 55]%Z) (Some 2) (Some 2) (Some (3 # 5)) (Some (3 # 5));
   MkNet b140 b144 (SwMany [46; 50; 51]%Z) (Some 2) (Some 2) (Some (19 # 10)) (Some (19 # 10));
   MkNet b140 b145 (SwMany [46; 47; 48]%Z) (Some 2) (Some 2) (Some (7 # 5)) (Some (7 # 5));
   MkNet b141 b143 (SwMany [31; 47; 51; 54; 55]%Z) (Some 2) (Some 2) (Some (11 # 10)) (Some (11 # 10));
   MkNet b141 b144 (SwMany [31; 47; 51]%Z) (Some 2) (Some 2) (Some (19 # 10)) (Some (19 # 10));
   MkNet b141 b145 (SwMany [31; 47; 48]%Z) (Some 2) (Some 2) (Some (19 # 10)) (Some (19 # 10));
   MkNet b138 b142 (SwMany [40; 41; 44; 45; 49; 53; 103]%Z) (Some 2) (Some 2) (Some (11 # 10)) (Some (11 # 10));
   MkNet b138 b143 (SwMany [40; 41; 44; 45; 49; 50; 102; 55]%Z) (Some 2) (Some 2) (Some (11 # 10)) (Some (11 # 10));
   MkNet b138 b146 (SwMany [40; 42]%Z) (Some 2) (Some 2) (Some (5 # 2)) (Some (5 # 2));
   MkNet b138 b144 (SwMany [40; 41; 44; 45; 49; 50; 51]%Z) (Some 2) (Some 2) (Some (19 # 10)) (Some (19 # 10));
   MkNet b138 b145 (SwMany [40; 41; 44; 45; 46; 47]%Z) (Some 2) (Some 2) (Some (19 # 10)) (Some (19 # 10));
   MkNet b139 b142 (SwMany [37; 40; 41; 44; 45; 49; 53; 103]%Z) (Some 2) (Some 2) (Some (11 # 10)) (Some (11 # 10));
   MkNet b139 b143 (SwMany [37; 40; 41; 44; 45; 49; 50; 102; 55]%Z) (Some 2) (Some 2) (Some (11 # 10)) (Some (11 # 10));
   MkNet b139 b146 (SwMany [37; 40; 42]%Z) (Some 2) (Some 2) (Some (5 # 2)) (Some (5 # 2));
   MkNet b139 b144 (SwMany [37; 40; 41; 44; 45; 49; 50; 51]%Z) (Some 2) (Some 2) (Some (19 # 10)) (Some (19 # 10));
   MkNet b139 b145 (SwMany [37; 40; 41; 44; 45; 46; 47]%Z) (Some 2) (Some 2) (Some (19 # 10)) (Some (19 # 10))].

(** data/important_stations.py *)
Definition stations_main : station_blocks :=
  [("KZ", [b002; b003; b004; b005]);
   ("KO", [b021; b022; b147; b025; b027; b028; b030; b031]);
   ("KO(STM)", [b017; b015; b013; b018; b016; b014; b032; b026; b033; b019]);
   ("KO(KS)", [b037]);
   ("KO(IC)", [b020]);
   ("CB", [b047; b048; b049; b050; b053]);
   ("GLC", [b093; b094; b095; b088; b089; b090; b091; b092]);
   ("CM", [b058; b059]);
   ("KL", [b106; b107; b108]);
   ("Ty", [b137; b140; b141; b138; b139]);
   ("Mi", [b116; b117]);
   ("MJ", [b114; b113])].

(** data/important_stations_Gt.py *)
Definition stations_gt : station_blocks :=
  [("KZ", [b002; b003; b004; b005]);
   ("KO", [b021; b022; b147; b025; b027; b028; b030; b031]);
   ("KO(STM)", [b017; b015; b013; b018; b016; b014; b032; b026; b033; b019]);
   ("KO(KS)", [b037]);
   ("KO(IC)", [b020]);
   ("CB", [b047; b048; b049; b050; b053]);
   ("GLC", [b093; b094; b095; b088; b089; b090; b091; b092]);
   ("CM", [b058; b059]);
   ("KL", [b106; b107; b108]);
   ("Ty", [b137; b140; b141; b138; b139]);
   ("Mi", [b116; b117]);
   ("MJ", [b114; b113]);
   ("KTC", [b041; b040])].

(** data/KO_GLC/important_stations_KO_GLC.py *)
Definition stations_glc : station_blocks :=
  [("KO", [b021; b022; b147; b025; b027; b028; b030; b031]);
   ("CB", [b047; b048; b049; b050; b053]);
   ("GLC", [b093; b094; b095; b088; b089; b090; b091; b092])].

(** data/KO_GLC/important_stations_KO_GLC_R.py *)
Definition stations_glc_r : station_blocks :=
  [("KO", [b021; b022; b147; b025; b027; b028; b030; b031]);
   ("CB", [b047; b048; b049; b050; b053]);
   ("RCB", [b066; b067]);
   ("ZZ", [b076; b077]);
   ("GLC", [b093; b094; b095; b088; b089; b090; b091; b092])].

(** data/trains_schedules.csv *)
Definition schedule_main : list line :=
  [head (Some "####");
   head (Some "KS - Os");
   head (Some "94766");
   head (Some "S5");
   head (Some "from Zwardoń");
   MkLine (Some b143) (Some "R") None None None None None None;
   MkLine (Some b140) (Some "R") (Some "15:46") (Some "15:47") None None None None;
   MkLine (Some b135) (Some "R") None None None None None None;
   MkLine (Some b132) (Some "R") None None None None None None;
   MkLine (Some b129) (Some "R") None None None None None None;
   MkLine (Some b126) (Some "R") None None None None None None;
   MkLine (Some b124) (Some "R") (Some "15:51") (Some "15:51") None (Some "Katowice Podlesie") None None;
   MkLine (Some b122) (Some "R") None None None None None None;
   MkLine (Some b120) (Some "R") None None None None None None;
   MkLine (Some b111) (Some "R") (Some "15:54") (Some "15:54") None (Some "Katowice Piotrowice") None None;
   MkLine (Some b107) (Some "R") (Some "15:57") (Some "15:57") None (Some "Katowice Ligota") None None;
   MkLine (Some b105) (Some "R") None None None None None None;
   MkLine (Some b101) (Some "R") (Some "16:00") (Some "16:00") None (Some "Katowice Brynów") None None;
   MkLine (Some b102) (Some "R") None None None None None None;
   MkLine (Some b039) (Some "R") None None None None None None;
   MkLine (Some b030) (Some "R") (Some "16:04") None None (Some "Katowice") None None;
   MkLine (Some b032) (Some "R") None None (Some "16:07") None (Some "Y") None;
   head (Some "terminates in Katowice");
   head (Some "####");
   head (Some "IC - IC");
   head (Some "26103");
   head (Some "BOLKO");
   head (Some "from Lublin Główny");
   MkLine (Some b001) (Some "IC") None None None None None None;
   MkLine (Some b002) (Some "IC") None None (Some "16:00") None None None;
   MkLine (Some b009) (Some "IC") None None None None None None;
   MkLine (Some b017) (Some "IC") None None None None None None;
   MkLine (Some b022) (Some "IC") (Some "16:04") (Some "16:11") None (Some "Katowice") None None;
   MkLine (Some b035) (Some "IC") None None None None None None;
   MkLine (Some b040) (Some "IC") None None None None None None;
   MkLine (Some b042) (Some "IC") None None None None None None;
   MkLine (Some b045) (Some "IC") None None None None None None;
   MkLine (Some b047) (Some "R") (Some "16:17") (Some "16:17") None (Some "Chorz�w Batory") None None;
   MkLine (Some b054) (Some "IC") None None None None None None;
   MkLine (Some b062) (Some "IC") None None None None None None;
   MkLine (Some b064) (Some "IC") None None None None None None;
   MkLine (Some b066) (Some "IC") None None None None None None;
   MkLine (Some b068) (Some "IC") None None None None None None;
   MkLine (Some b070) (Some "IC") None None None None None None;
   MkLine (Some b072) (Some "IC") None None None None None None;
   MkLine (Some b074) (Some "IC") None None None None None None;
   MkLine (Some b076) (Some "IC") (Some "16:27") (Some "16:27") None (Some "Zabrze") None None;
   MkLine (Some b078) (Some "IC") None None None None None None;
   MkLine (Some b080) (Some "IC") None None None None None None;
   MkLine (Some b082) (Some "IC") None None None None None None;
   MkLine (Some b084) (Some "IC") None None None None None None;
   MkLine (Some b086) (Some "IC") None None None None None None;
   MkLine (Some b091) (Some "IC") (Some "16:34") (Some "16:36") None (Some "Gliwice") None None;
   MkLine (Some b097) (Some "IC") None None None None None None;
   head (Some "to Wrocław Główny");
   head (Some "####");
   head (Some "IC - IC");
   head (Some "421009");
   head (Some "SZTYGAR");
   head (Some "from Katowice IC");
   MkLine (Some b020) (Some "R") None None (Some "15:50") None (Some "Y") None;
   MkLine (Some b014) (Some "R") None None None None (Some "Y") None;
   MkLine (Some b027) (Some "R") None None (Some "15:55") (Some "Katowice") (Some "Y") None;
   head (Some "to Katowice platforms");
   head (Some "####");
   head (Some "IC - IC");
   head (Some "42100");
   head (Some "SZTYGAR");
   head (Some "from Katowice");
   MkLine (Some b027) (Some "IC") None (Some "16:08") None (Some "Katowice") None (Some 5);
   MkLine (Some b014) (Some "IC") None None None None None None;
   MkLine (Some b010) (Some "IC") None None None None None None;
   MkLine (Some b003) (Some "IC") None None (Some "16:12") None None None;
   MkLine (Some b006) (Some "IC") None None None None None None;
   head (Some "to Lublin Główny");
   head (Some "####");
   head (Some "IC - IC");
   head (Some "5312");
   head (Some "PIAST");
   head (Some "from Gdynia Główna via Wrocław");
   MkLine (Some b098) (Some "IC") None None None None None None;
   MkLine (Some b094) (Some "IC") (Some "15:34") (Some "15:42") None (Some "Gliwice") None None;
   MkLine (Some b087) (Some "IC") None None None None None None;
   MkLine (Some b085) (Some "IC") None None None None None None;
   MkLine (Some b083) (Some "IC") None None None None None None;
   MkLine (Some b081) (Some "IC") None None None None None None;
   MkLine (Some b079) (Some "IC") None None None None None None;
   MkLine (Some b077) (Some "IC") (Some "15:50") (Some "15:50") None (Some "Zabrze") None None;
   MkLine (Some b075) (Some "IC") None None None None None None;
   MkLine (Some b073) (Some "IC") None None None None None None;
   MkLine (Some b071) (Some "IC") None None None None None None;
   MkLine (Some b069) (Some "IC") None None None None None None;
   MkLine (Some b067) (Some "IC") None None None None None None;
   MkLine (Some b065) (Some "IC") None None None None None None;
   MkLine (Some b063) (Some "IC") None None None None None None;
   MkLine (Some b055) (Some "IC") None None None None None None;
   MkLine (Some b048) (Some "IC") None None None None None None;
   MkLine (Some b046) (Some "IC") None None None None None None;
   MkLine (Some b043) (Some "IC") None None None None None None;
   MkLine (Some b041) (Some "IC") None None None None None None;
   MkLine (Some b036) (Some "IC") None None None None None None;
   MkLine (Some b028) (Some "IC") (Some "16:06") (Some "16:09") None (Some "Katowice") None None;
   MkLine (Some b014) (Some "IC") None None None None None None;
   MkLine (Some b012) (Some "IC") None None None None None None;
   MkLine (Some b005) (Some "IC") None None (Some "16:13") None None None;
   MkLine (Some b008) (Some "IC") None None None None None None;
   head (Some "to Kraków Główny");
   head (Some "####");
   head (Some "KS - Os");
   head (Some "40518");
   head (Some "S4");
   head (Some "from Tychy Lodowisko");
   MkLine (Some b145) (Some "R") None None None None None None;
   MkLine (Some b140) (Some "R") (Some "15:44") (Some "15:51") None (Some "Tychy") None None;
   MkLine (Some b135) (Some "R") None None None None None None;
   MkLine (Some b132) (Some "R") None None None None None None;
   MkLine (Some b129) (Some "R") None None None None None None;
   MkLine (Some b126) (Some "R") None None None None None None;
   MkLine (Some b124) (Some "R") (Some "15:57") (Some "15:57") None (Some "Katowice Podlesie") None None;
   MkLine (Some b122) (Some "R") None None None None None None;
   MkLine (Some b120) (Some "R") None None None None None None;
   MkLine (Some b111) (Some "R") (Some "16:00") (Some "16:00") None (Some "Katowice Piotrowice") None None;
   MkLine (Some b107) (Some "R") (Some "16:02") (Some "16:03") None (Some "Katowice Ligota") None None;
   MkLine (Some b105) (Some "R") None None None None None None;
   MkLine (Some b101) (Some "R") None None None None None None;
   MkLine (Some b102) (Some "R") (Some "16:06") (Some "16:06") None (Some "Katowice Brynów") None None;
   MkLine (Some b039) (Some "R") None None None None None None;
   MkLine (Some b030) (Some "R") (Some "16:09") None None (Some "Katowice") None None;
   MkLine (Some b026) (Some "R") None None (Some "16:12") None (Some "Y") None;
   head (Some "terminates in Katowice");
   head (Some "####");
   head (Some "PR - R");
   head (Some "34319");
   head (Some "No name");
   head (Some "from Kraków Główny");
   MkLine (Some b007) (Some "R") None None None None None None;
   MkLine (Some b004) (Some "R") (Some "16:10") (Some "16:10") None (Some "Katowice Zawodzie") None None;
   MkLine (Some b011) (Some "R") None None None None None None;
   MkLine (Some b014) (Some "R") None None None None None None;
   MkLine (Some b030) (Some "R") (Some "16:14") None None (Some "Katowice") None None;
   head (Some "to Katowice");
   head (Some "####");
   head (Some "PR - R");
   head (Some "343199");
   head (Some "No name");
   head (Some "from Katowice platforms");
   MkLine (Some b030) (Some "R") None None (Some "16:14") (Some "Katowice") (Some "Y") (Some 5);
   MkLine (Some b033) (Some "R") None None (Some "16:22") None (Some "Y") None;
   head (Some "to Katowice STM");
   head (Some "####");
   head (Some "IC - IC");
   head (Some "14006");
   head (Some "SILESIA");
   head (Some "from Warszawa Wschodnia");
   MkLine (Some b001) (Some "IC") None None None None None None;
   MkLine (Some b002) (Some "IC") None None (Some "16:06") None None None;
   MkLine (Some b009) (Some "IC") None None None None None None;
   MkLine (Some b017) (Some "IC") None None None None None None;
   MkLine (Some b021) (Some "IC") (Some "16:10") (Some "16:19") None (Some "Katowice") None None;
   MkLine (Some b034) (Some "IC") None None None None None None;
   MkLine (Some b099) (Some "IC") None None None None None None;
   MkLine (Some b100) (Some "IC") None None None None None None;
   MkLine (Some b104) (Some "IC") None None None None None None;
   MkLine (Some b106) (Some "IC") None None None None None None;
   MkLine (Some b110) (Some "IC") None None None None None None;
   MkLine (Some b119) (Some "IC") None None None None None None;
   MkLine (Some b121) (Some "IC") None None None None None None;
   MkLine (Some b123) (Some "IC") None None None None None None;
   MkLine (Some b125) (Some "IC") None None None None None None;
   MkLine (Some b127) (Some "IC") None None None None None None;
   MkLine (Some b128) (Some "IC") None None None None None None;
   MkLine (Some b131) (Some "IC") None None None None None None;
   MkLine (Some b134) (Some "IC") None None None None None None;
   MkLine (Some b139) (Some "IC") (Some "16:33") (Some "16:34") None (Some "Tychy") None None;
   MkLine (Some b146) (Some "IC") None None None None None None;
   head (Some "to Praha Hlavni Nadrazi");
   head (Some "####");
   head (Some "KS - OsP");
   head (Some "94611");
   head (Some "S6");
   head (Some "departs from Katowice");
   MkLine (Some b037) (Some "R") None None (Some "15:55") None (Some "Y") None;
   MkLine (Some b025) (Some "R") None (Some "16:12") None (Some "Katowice") None (Some 5);
   MkLine (Some b034) (Some "R") None None None None None None;
   MkLine (Some b099) (Some "R") None None None None None None;
   MkLine (Some b100) (Some "IC") None None None None None None;
   MkLine (Some b104) (Some "R") None None None None None None;
   MkLine (Some b106) (Some "R") (Some "16:17") (Some "16:18") None (Some "Katowice Ligota") None None;
   MkLine (Some b110) (Some "R") (Some "16:21") (Some "16:21") None (Some "Katowice Piotrowice") None None;
   MkLine (Some b119) (Some "R") None None None None None None;
   MkLine (Some b121) (Some "R") None None None None None None;
   MkLine (Some b123) (Some "IC") None None None None None None;
   MkLine (Some b125) (Some "R") None None None None None None;
   MkLine (Some b127) (Some "R") None None None None None None;
   MkLine (Some b128) (Some "R") None None None None None None;
   MkLine (Some b131) (Some "R") None None None None None None;
   MkLine (Some b134) (Some "R") None None None None None None;
   MkLine (Some b137) (Some "R") (Some "16:27") (Some "16:28") None (Some "Tychy") None None;
   MkLine (Some b142) (Some "R") None None None None None None;
   head (Some "to Wisła Głębce");
   head (Some "####");
   head (Some "KS - OsP");
   head (Some "40150");
   head (Some "S1 KARLIK");
   head (Some "from Gliwice");
   MkLine (Some b088) (Some "R") None (Some "15:49") None (Some "Gliwice") None None;
   MkLine (Some b087) (Some "R") None None None None None None;
   MkLine (Some b085) (Some "R") None None None None None None;
   MkLine (Some b083) (Some "R") None None None None None None;
   MkLine (Some b081) (Some "R") None None None None None None;
   MkLine (Some b079) (Some "R") None None None None None None;
   MkLine (Some b077) (Some "R") (Some "15:56") (Some "15:56") None (Some "Zabrze") None None;
   MkLine (Some b075) (Some "R") None None None None None None;
   MkLine (Some b073) (Some "R") None None None None None None;
   MkLine (Some b071) (Some "R") (Some "16:01") (Some "16:01") None (Some "Ruda Slaska") None None;
   MkLine (Some b069) (Some "R") None None None None None None;
   MkLine (Some b067) (Some "R") (Some "16:03") (Some "16:03") None (Some "Ruda Chebzie") None None;
   MkLine (Some b065) (Some "R") None None None None None None;
   MkLine (Some b063) (Some "R") (Some "16:06") (Some "16:06") None (Some "Swietochlowice") None None;
   MkLine (Some b055) (Some "R") None None None None None None;
   MkLine (Some b048) (Some "R") (Some "16:10") (Some "16:10") None (Some "Chorzów Batory") None None;
   MkLine (Some b046) (Some "R") None None None None None None;
   MkLine (Some b043) (Some "R") None None None None None None;
   MkLine (Some b041) (Some "R") (Some "16:13") (Some "16:13") None (Some "Katowice Załęże") None None;
   MkLine (Some b036) (Some "R") None None None None None None;
   MkLine (Some b028) (Some "R") (Some "16:16") (Some "16:18") None (Some "Katowice") None None;
   MkLine (Some b014) (Some "R") None None None None None None;
   MkLine (Some b010) (Some "R") None None None None None None;
   MkLine (Some b003) (Some "R") (Some "16:26") (Some "16:26") None (Some "Katowice Zawodzie") None None;
   MkLine (Some b006) (Some "R") None None None None None None;
   head (Some "to Częstochowa");
   head (Some "####");
   head (Some "IC - IC");
   head (Some "41004");
   head (Some "BATHORY");
   head (Some "from Budapest-Nyugati");
   MkLine (Some b146) (Some "IC") None None None None None None;
   MkLine (Some b138) (Some "IC") (Some "16:00") (Some "16:01") None None None None;
   MkLine (Some b135) (Some "IC") None None None None None None;
   MkLine (Some b132) (Some "IC") None None None None None None;
   MkLine (Some b129) (Some "IC") None None None None None None;
   MkLine (Some b126) (Some "IC") None None None None None None;
   MkLine (Some b124) (Some "IC") None None None None None None;
   MkLine (Some b122) (Some "IC") None None None None None None;
   MkLine (Some b120) (Some "IC") None None None None None None;
   MkLine (Some b111) (Some "IC") None None None None None None;
   MkLine (Some b107) (Some "IC") None None None None None None;
   MkLine (Some b105) (Some "IC") None None None None None None;
   MkLine (Some b101) (Some "IC") None None None None None None;
   MkLine (Some b102) (Some "IC") None None None None None None;
   MkLine (Some b039) (Some "IC") None None None None None None;
   MkLine (Some b031) (Some "IC") (Some "16:15") (Some "16:25") None (Some "Katowice") None None;
   MkLine (Some b018) (Some "IC") None None None None None None;
   MkLine (Some b010) (Some "IC") None None None None None None;
   MkLine (Some b003) (Some "IC") None None (Some "16:29") None None None;
   MkLine (Some b006) (Some "IC") None None None None None None;
   head (Some "to Brest-Centralnyi");
   head (Some "####");
   head (Some "KS - OsP");
   head (Some "94113");
   head (Some "S5 SPRINTER");
   head (Some "departs from Katowice");
   MkLine (Some b037) (Some "R") None None (Some "16:07") None (Some "Y") None;
   MkLine (Some b025) (Some "R") None (Some "16:24") None (Some "Katowice") None (Some 5);
   MkLine (Some b034) (Some "R") None None None None None None;
   MkLine (Some b099) (Some "R") None None None None None None;
   MkLine (Some b100) (Some "IC") None None None None None None;
   MkLine (Some b104) (Some "R") None None None None None None;
   MkLine (Some b106) (Some "R") (Some "16:30") (Some "16:30") None (Some "Katowice Ligota") None None;
   MkLine (Some b110) (Some "R") (Some "16:33") (Some "16:33") None (Some "Katowice Piotrowice") None None;
   MkLine (Some b119) (Some "R") None None None None None None;
   MkLine (Some b121) (Some "R") None None None None None None;
   MkLine (Some b123) (Some "IC") None None None None None None;
   MkLine (Some b125) (Some "R") None None None None None None;
   MkLine (Some b127) (Some "R") None None None None None None;
   MkLine (Some b128) (Some "R") None None None None None None;
   MkLine (Some b131) (Some "R") None None None None None None;
   MkLine (Some b134) (Some "R") None None None None None None;
   MkLine (Some b137) (Some "R") (Some "16:39") (Some "16:41") None (Some "Tychy") None None;
   MkLine (Some b142) (Some "R") None None None None None None;
   head (Some "to Żywiec");
   head (Some "####");
   head (Some "KS - Os");
   head (Some "40673");
   head (Some "S1");
   head (Some "from Czestochowa");
   MkLine (Some b001) (Some "R") None None None None None None;
   MkLine (Some b002) (Some "R") (Some "16:14") (Some "16:14") None (Some "Katowice Zawodzie") None None;
   MkLine (Some b009) (Some "R") None None None None None None;
   MkLine (Some b017) (Some "R") None None None None None None;
   MkLine (Some b022) (Some "R") (Some "16:18") (Some "16:30") None (Some "Katowice") None None;
   MkLine (Some b035) (Some "R") None None None None None None;
   MkLine (Some b040) (Some "R") (Some "16:33") (Some "16:33") None (Some "Katowice Załęże") None None;
   MkLine (Some b042) (Some "R") None None None None None None;
   MkLine (Some b045) (Some "R") None None None None None None;
   MkLine (Some b047) (Some "R") (Some "16:36") (Some "16:36") None (Some "Chorzów Batory") None None;
   MkLine (Some b054) (Some "R") None None None None None None;
   MkLine (Some b062) (Some "R") (Some "16:39") (Some "16:39") None (Some "Świętochłowice") None None;
   MkLine (Some b064) (Some "R") None None None None None None;
   MkLine (Some b066) (Some "R") (Some "16:43") (Some "16:43") None (Some "Ruda Chebzie") None None;
   MkLine (Some b068) (Some "R") None None None None None None;
   MkLine (Some b070) (Some "R") (Some "16:45") (Some "16:45") None (Some "Ruda Śląska") None None;
   MkLine (Some b072) (Some "R") None None None None None None;
   MkLine (Some b074) (Some "R") None None None None None None;
   MkLine (Some b076) (Some "R") (Some "16:50") (Some "16:50") None (Some "Zabrze") None None;
   MkLine (Some b078) (Some "R") None None None None None None;
   MkLine (Some b080) (Some "R") None None None None None None;
   MkLine (Some b082) (Some "R") None None None None None None;
   MkLine (Some b084) (Some "R") None None None None None None;
   MkLine (Some b086) (Some "R") None None None None None None;
   MkLine (Some b088) (Some "R") (Some "16:57") None None (Some "Gliwice") None None;
   head (Some "to Gliwice");
   head (Some "####");
   head (Some "IC - TLK");
   head (Some "54101");
   head (Some "DOKER");
   head (Some "from Gdynia Główna via Koluszki");
   MkLine (Some b001) (Some "IC") None None None None None None;
   MkLine (Some b002) (Some "IC") None None (Some "16:24") None None None;
   MkLine (Some b009) (Some "IC") None None None None None None;
   MkLine (Some b014) (Some "IC") None None None None None None;
   MkLine (Some b027) (Some "IC") (Some "16:28") None None (Some "Katowice") None None;
   head (Some "to Katowice");
   head (Some "####");
   head (Some "IC - TLK");
   head (Some "541019");
   head (Some "DOKER");
   head (Some "from Katowice platforms");
   MkLine (Some b027) (Some "R") None None (Some "16:28") (Some "Katowice") (Some "Y") (Some 5);
   MkLine (Some b014) (Some "R") None None None None (Some "Y") None;
   MkLine (Some b020) (Some "R") None None (Some "16:43") None (Some "Y") None;
   head (Some "to Katowice KO(IC)");
   head (Some "####");
   head (Some "KS - Os");
   head (Some "40477");
   head (Some "S4");
   head (Some "departs from Katowice");
   MkLine (Some b026) (Some "R") None None None None (Some "Y") None;
   MkLine (Some b021) (Some "R") None (Some "16:29") None (Some "Katowice") None None;
   MkLine (Some b034) (Some "R") None None None None None None;
   MkLine (Some b099) (Some "R") None None None None None None;
   MkLine (Some b100) (Some "R") (Some "16:33") (Some "16:33") None (Some "Katowice Brynów") None None;
   MkLine (Some b104) (Some "R") None None None None None None;
   MkLine (Some b106) (Some "R") (Some "16:35") (Some "16:36") None (Some "Katowice Ligota") None None;
   MkLine (Some b110) (Some "R") (Some "16:39") (Some "16:39") None (Some "Katowice Piotrowice") None None;
   MkLine (Some b119) (Some "R") None None None None None None;
   MkLine (Some b121) (Some "R") None None None None None None;
   MkLine (Some b123) (Some "R") (Some "16:42") (Some "16:42") None (Some "Katowice Podlesie") None None;
   MkLine (Some b125) (Some "R") None None None None None None;
   MkLine (Some b127) (Some "R") None None None None None None;
   MkLine (Some b128) (Some "R") None None None None None None;
   MkLine (Some b131) (Some "R") None None None None None None;
   MkLine (Some b134) (Some "R") None None None None None None;
   MkLine (Some b137) (Some "R") (Some "16:47") (Some "16:55") None (Some "Tychy") None None;
   MkLine (Some b144) (Some "R") None None None None None None;
   head (Some "to Tychy Lodowisko");
   head (Some "####");
   head (Some "IC - EIP");
   head (Some "4500");
   head (Some "Pendolino");
   head (Some "from Gliwice");
   MkLine (Some b093) (Some "IC") None (Some "16:07") None (Some "Gliwice") None None;
   MkLine (Some b087) (Some "IC") None None None None None None;
   MkLine (Some b085) (Some "IC") None None None None None None;
   MkLine (Some b083) (Some "IC") None None None None None None;
   MkLine (Some b081) (Some "IC") None None None None None None;
   MkLine (Some b079) (Some "IC") None None None None None None;
   MkLine (Some b077) (Some "IC") (Some "16:16") (Some "16:16") None (Some "Zabrze ") None None;
   MkLine (Some b075) (Some "IC") None None None None None None;
   MkLine (Some b073) (Some "IC") None None None None None None;
   MkLine (Some b071) (Some "IC") None None None None None None;
   MkLine (Some b069) (Some "IC") None None None None None None;
   MkLine (Some b067) (Some "IC") None None None None None None;
   MkLine (Some b065) (Some "IC") None None None None None None;
   MkLine (Some b063) (Some "IC") None None None None None None;
   MkLine (Some b055) (Some "IC") None None None None None None;
   MkLine (Some b048) (Some "IC") None None None None None None;
   MkLine (Some b046) (Some "IC") None None None None None None;
   MkLine (Some b043) (Some "IC") None None None None None None;
   MkLine (Some b041) (Some "IC") None None None None None None;
   MkLine (Some b036) (Some "IC") None None None None None None;
   MkLine (Some b027) (Some "IC") (Some "16:31") (Some "16:35") None (Some "Katowice") None None;
   MkLine (Some b014) (Some "IC") None None None None None None;
   MkLine (Some b010) (Some "IC") None None None None None None;
   MkLine (Some b003) (Some "IC") None None (Some "16:39") None None None;
   MkLine (Some b006) (Some "IC") None None None None None None;
   head (Some "to Gdynia Główna via Warszawa");
   head (Some "####");
   head (Some "KS - Os");
   head (Some "94317");
   head (Some "S8");
   head (Some "from Oświęcim");
   MkLine (Some b007) (Some "R") None None None None None None;
   MkLine (Some b004) (Some "R") (Some "16:39") (Some "16:39") None (Some "Katowice Zawodzie") None None;
   MkLine (Some b011) (Some "R") None None None None None None;
   MkLine (Some b013) (Some "R") None None None None None None;
   MkLine (Some b022) (Some "R") (Some "16:44") (Some "16:50") None (Some "Katowice") None None;
   MkLine (Some b035) (Some "R") None None None None None None;
   MkLine (Some b040) (Some "R") (Some "16:53") (Some "16:53") None (Some "Katowice Załęże") None None;
   MkLine (Some b042) (Some "R") None None None None None None;
   MkLine (Some b045) (Some "R") None None None None None None;
   MkLine (Some b049) (Some "R") (Some "16:57") (Some "16:58") None (Some "Chorzów Batory") None None;
   MkLine (Some b056) (Some "R") None None None None None None;
   MkLine (Some b058) (Some "R") (Some "17:03") (Some "17:03") None (Some "Chorzów Miasto") None None;
   MkLine (Some b060) (Some "R") None None None None None None;
   head (Some "to Lubliniec");
   head (Some "####");
   head (Some "KS - Os");
   head (Some "44717");
   head (Some "S7");
   head (Some "departs from Katowice");
   MkLine (Some b032) (Some "R") None None (Some "16:25") None (Some "Y") None;
   MkLine (Some b025) (Some "R") None (Some "16:36") None (Some "Katowice") None None;
   MkLine (Some b034) (Some "R") None None None None None None;
   MkLine (Some b099) (Some "R") None None None None None None;
   MkLine (Some b100) (Some "R") (Some "16:39") (Some "16:39") None (Some "Katowice Brynów") None None;
   MkLine (Some b104) (Some "R") None None None None None None;
   MkLine (Some b108) (Some "R") (Some "16:43") (Some "16:43") None (Some "Katowice Ligota") None None;
   MkLine (Some b109) (Some "R") (Some "16:47") (Some "16:47") None (Some "Katowice Piotrowice") None None;
   MkLine (Some b112) (Some "R") None None None None None None;
   MkLine (Some b113) (Some "R") (Some "16:51") (Some "16:51") None (Some "Miko��w Jamna") None None;
   MkLine (Some b115) (Some "R") None None None None None None;
   MkLine (Some b116) (Some "R") (Some "16:54") (Some "16:55") None (Some "Miko��w") None None;
   MkLine (Some b118) (Some "R") None None None None None None;
   head (Some "to Racibórz");
   head (Some "####");
   head (Some "KS - Os");
   head (Some "64350");
   head (Some "S8");
   head (Some "from Kluczbork");
   MkLine (Some b061) (Some "R") None None None None None None;
   MkLine (Some b059) (Some "R") (Some "16:25") (Some "16:25") None (Some "Chorzów Miasto") None None;
   MkLine (Some b057) (Some "R") None None None None None None;
   MkLine (Some b050) (Some "R") (Some "16:30") (Some "16:31") None (Some "Chorzów Batory") None None;
   MkLine (Some b046) (Some "R") None None None None None None;
   MkLine (Some b043) (Some "R") None None None None None None;
   MkLine (Some b041) (Some "R") (Some "16:34") (Some "16:34") None (Some "Katowice Załęże") None None;
   MkLine (Some b036) (Some "R") None None None None None None;
   MkLine (Some b030) (Some "R") (Some "16:38") (Some "16:40") None (Some "Katowice") None None;
   MkLine (Some b018) (Some "R") None None None None None None;
   MkLine (Some b012) (Some "R") None None None None None None;
   MkLine (Some b005) (Some "R") (Some "16:44") (Some "16:44") None (Some "Katowice Zawodzie") None None;
   MkLine (Some b008) (Some "R") None None None None None None;
   head (Some "to Oświęcim");
   head (Some "####");
   head (Some "KS - Os");
   head (Some "94717");
   head (Some "S5");
   head (Some "departs from Katowice");
   MkLine (Some b026) (Some "R") None None (Some "16:30") None (Some "Y") None;
   MkLine (Some b025) (Some "R") None (Some "16:47") None (Some "Katowice") None None;
   MkLine (Some b034) (Some "R") None None None None None None;
   MkLine (Some b099) (Some "R") None None None None None None;
   MkLine (Some b100) (Some "R") (Some "16:51") (Some "16:51") None (Some "Katowice Brynów") None None;
   MkLine (Some b104) (Some "R") None None None None None None;
   MkLine (Some b106) (Some "R") (Some "16:54") (Some "16:54") None (Some "Katowice Ligota") None None;
   MkLine (Some b110) (Some "R") (Some "16:57") (Some "16:57") None (Some "Katowice Piotrowice") None None;
   MkLine (Some b119) (Some "R") None None None None None None;
   MkLine (Some b121) (Some "R") None None None None None None;
   MkLine (Some b123) (Some "R") (Some "17:01") (Some "17:01") None (Some "Katowice Podlesie") None None;
   MkLine (Some b125) (Some "R") None None None None None None;
   MkLine (Some b127) (Some "R") None None None None None None;
   MkLine (Some b128) (Some "R") None None None None None None;
   MkLine (Some b131) (Some "R") None None None None None None;
   MkLine (Some b134) (Some "R") None None None None None None;
   MkLine (Some b137) (Some "R") (Some "17:05") (Some "17:06") None (Some "Tychy") None None;
   MkLine (Some b142) (Some "R") None None None None None None;
   head (Some "to Żywiec");
   head (Some "####");
   head (Some "KS - Os");
   head (Some "44862");
   head (Some "S71");
   head (Some "from Chałupki");
   MkLine (Some b118) (Some "R") None None (Some "16:21") None None None;
   MkLine (Some b117) (Some "R") (Some "16:25") (Some "16:32") None (Some "Miko��w") None None;
   MkLine (Some b115) (Some "R") None None None None None None;
   MkLine (Some b114) (Some "R") (Some "16:35") (Some "16:35") None (Some "Miko��w Jamna") None None;
   MkLine (Some b112) (Some "R") None None None None None None;
   MkLine (Some b109) (Some "R") (Some "16:39") (Some "16:39") None None None None;
   MkLine (Some b107) (Some "R") (Some "16:42") (Some "16:42") None (Some "Katowice Ligota") None None;
   MkLine (Some b105) (Some "R") None None None None None None;
   MkLine (Some b101) (Some "R") None None None None None None;
   MkLine (Some b102) (Some "R") (Some "16:45") (Some "16:45") None (Some "Katowice Brynów") None None;
   MkLine (Some b039) (Some "R") None None None None None None;
   MkLine (Some b030) (Some "R") (Some "16:48") None None (Some "Katowice") None None;
   MkLine (Some b033) (Some "R") None None None None (Some "Y") None;
   head (Some "terminates in Katowice");
   head (Some "####");
   head (Some "KS - Os");
   head (Some "40628");
   head (Some "S1");
   head (Some "from Gliwice");
   MkLine (Some b088) (Some "R") None (Some "16:16") None (Some "Gliwice") None None;
   MkLine (Some b087) (Some "R") None None None None None None;
   MkLine (Some b085) (Some "R") None None None None None None;
   MkLine (Some b083) (Some "R") None None None None None None;
   MkLine (Some b081) (Some "R") None None None None None None;
   MkLine (Some b079) (Some "R") None None None None None None;
   MkLine (Some b077) (Some "R") (Some "16:23") (Some "16:23") None (Some "Zabrze") None None;
   MkLine (Some b075) (Some "R") None None None None None None;
   MkLine (Some b073) (Some "R") None None None None None None;
   MkLine (Some b071) (Some "R") (Some "16:27") (Some "16:27") None (Some "Ruda Slaska") None None;
   MkLine (Some b069) (Some "R") None None None None None None;
   MkLine (Some b067) (Some "R") (Some "16:30") (Some "16:30") None (Some "Ruda Chebzie") None None;
   MkLine (Some b065) (Some "R") None None None None None None;
   MkLine (Some b063) (Some "R") (Some "16:33") (Some "16:33") None (Some "Swietochlowice") None None;
   MkLine (Some b055) (Some "R") None None None None None None;
   MkLine (Some b048) (Some "R") (Some "16:36") (Some "16:36") None (Some "Chorzów Batory") None None;
   MkLine (Some b046) (Some "R") None None None None None None;
   MkLine (Some b043) (Some "R") None None None None None None;
   MkLine (Some b041) (Some "R") (Some "16:40") (Some "16:40") None (Some "Katowice Załęże") None None;
   MkLine (Some b036) (Some "R") None None None None None None;
   MkLine (Some b027) (Some "R") (Some "16:44") (Some "16:51") None (Some "Katowice") None None;
   MkLine (Some b014) (Some "R") None None None None None None;
   MkLine (Some b010) (Some "R") None None None None None None;
   MkLine (Some b003) (Some "R") (Some "16:54") (Some "16:54") None (Some "Katowice Zawodzie") None None;
   MkLine (Some b006) (Some "R") None None None None None None;
   head (Some "to Częstochowa");
   head (Some "####");
   head (Some "KS - OsP");
   head (Some "40675");
   head (Some "S1");
   head (Some "from Czestochowa");
   MkLine (Some b001) (Some "R") None None None None None None;
   MkLine (Some b002) (Some "R") (Some "16:44") (Some "16:44") None (Some "Katowice Zawodzie") None None;
   MkLine (Some b009) (Some "R") None None None None None None;
   MkLine (Some b017) (Some "R") None None None None None None;
   MkLine (Some b021) (Some "R") (Some "16:48") (Some "16:55") None (Some "Katowice") None None;
   MkLine (Some b035) (Some "R") None None None None None None;
   MkLine (Some b040) (Some "R") (Some "16:58") (Some "16:58") None (Some "Katowice Załęże") None None;
   MkLine (Some b042) (Some "R") None None None None None None;
   MkLine (Some b045) (Some "R") None None None None None None;
   MkLine (Some b047) (Some "R") (Some "17:02") (Some "17:02") None (Some "Chorz�w Batory") None None;
   MkLine (Some b054) (Some "R") None None None None None None;
   MkLine (Some b062) (Some "R") (Some "17:05") (Some "17:05") None (Some "�wi�toch�owice") None None;
   MkLine (Some b064) (Some "R") None None None None None None;
   MkLine (Some b066) (Some "R") (Some "17:08") (Some "17:08") None (Some "Ruda Chebzie") None None;
   MkLine (Some b068) (Some "R") None None None None None None;
   MkLine (Some b070) (Some "R") (Some "17:10") (Some "17:10") None (Some "Ruda �l�ska") None None;
   MkLine (Some b072) (Some "R") None None None None None None;
   MkLine (Some b074) (Some "R") None None None None None None;
   MkLine (Some b076) (Some "R") (Some "17:15") (Some "17:15") None (Some "Zabrze") None None;
   MkLine (Some b078) (Some "R") None None None None None None;
   MkLine (Some b080) (Some "R") None None None None None None;
   MkLine (Some b082) (Some "R") None None None None None None;
   MkLine (Some b084) (Some "R") None None None None None None;
   MkLine (Some b086) (Some "R") None None None None None None;
   MkLine (Some b088) (Some "R") (Some "17:22") None None (Some "Gliwice") None None;
   head (Some "to Gliwice");
   head (Some "####");
   head (Some "IC - IC");
   head (Some "73000");
   head (Some "WAWEL");
   head (Some "from Berlin Hauptbahnhof");
   MkLine (Some b098) (Some "IC") None None (Some "16:27") None None None;
   MkLine (Some b095) (Some "IC") (Some "16:29") (Some "16:31") None (Some "Gliwice") None None;
   MkLine (Some b087) (Some "IC") None None None None None None;
   MkLine (Some b085) (Some "IC") None None None None None None;
   MkLine (Some b083) (Some "IC") None None None None None None;
   MkLine (Some b081) (Some "IC") None None None None None None;
   MkLine (Some b079) (Some "IC") None None None None None None;
   MkLine (Some b077) (Some "IC") (Some "16:38") (Some "16:38") None (Some "Zabrze") None None;
   MkLine (Some b075) (Some "IC") None None None None None None;
   MkLine (Some b073) (Some "IC") None None None None None None;
   MkLine (Some b071) (Some "IC") None None None None None None;
   MkLine (Some b069) (Some "IC") None None None None None None;
   MkLine (Some b067) (Some "IC") None None None None None None;
   MkLine (Some b065) (Some "IC") None None None None None None;
   MkLine (Some b063) (Some "IC") None None None None None None;
   MkLine (Some b055) (Some "IC") None None None None None None;
   MkLine (Some b048) (Some "IC") None None None None None None;
   MkLine (Some b046) (Some "IC") None None None None None None;
   MkLine (Some b043) (Some "IC") None None None None None None;
   MkLine (Some b041) (Some "IC") None None None None None None;
   MkLine (Some b036) (Some "IC") None None None None None None;
   MkLine (Some b028) (Some "IC") (Some "16:53") (Some "16:58") None (Some "Katowice") None None;
   MkLine (Some b014) (Some "IC") None None None None None None;
   MkLine (Some b012) (Some "IC") None None None None None None;
   MkLine (Some b005) (Some "IC") None None (Some "17:02") None None None;
   MkLine (Some b008) (Some "IC") None None None None None None;
   head (Some "to Kraków Główny");
   head (Some "####");
   head (Some "IC - IC");
   head (Some "4120");
   head (Some "DASZYŃSKI");
   head (Some "from Bielsko-Biała Główna");
   MkLine (Some b143) (Some "IC") None None None None None None;
   MkLine (Some b140) (Some "IC") (Some "16:41") (Some "16:41") None (Some "Tychy") None None;
   MkLine (Some b135) (Some "IC") None None None None None None;
   MkLine (Some b132) (Some "IC") None None None None None None;
   MkLine (Some b129) (Some "IC") None None None None None None;
   MkLine (Some b126) (Some "IC") None None None None None None;
   MkLine (Some b124) (Some "IC") None None None None None None;
   MkLine (Some b122) (Some "IC") None None None None None None;
   MkLine (Some b120) (Some "IC") None None None None None None;
   MkLine (Some b111) (Some "IC") None None None None None None;
   MkLine (Some b107) (Some "IC") None None None None None None;
   MkLine (Some b105) (Some "IC") None None None None None None;
   MkLine (Some b101) (Some "IC") None None None None None None;
   MkLine (Some b102) (Some "IC") None None None None None None;
   MkLine (Some b039) (Some "IC") None None None None None None;
   MkLine (Some b031) (Some "IC") (Some "16:54") (Some "17:00") None (Some "Katowice") None None;
   MkLine (Some b014) (Some "IC") None None None None None None;
   MkLine (Some b010) (Some "IC") None None None None None None;
   MkLine (Some b003) (Some "IC") None None (Some "17:04") None None None;
   MkLine (Some b006) (Some "IC") None None None None None None;
   head (Some "to Warszawa Wschodnia")].

(** data/trains_schedules_Gt.csv *)
Definition schedule_gt : list line :=
  [head (Some "####");
   head (Some "KS - Os");
   head (Some "94766");
   head (Some "S5");
   head (Some "from Zwardoń");
   MkLine (Some b143) (Some "R") None None None None None None;
   MkLine (Some b140) (Some "R") (Some "15:46") (Some "15:47") None None None None;
   MkLine (Some b135) (Some "R") None None None None None None;
   MkLine (Some b132) (Some "R") None None None None None None;
   MkLine (Some b129) (Some "R") None None None None None None;
   MkLine (Some b126) (Some "R") None None None None None None;
   MkLine (Some b124) (Some "R") (Some "15:51") (Some "15:51") None (Some "Katowice Podlesie") None None;
   MkLine (Some b122) (Some "R") None None None None None None;
   MkLine (Some b120) (Some "R") None None None None None None;
   MkLine (Some b111) (Some "R") (Some "15:54") (Some "15:54") None (Some "Katowice Piotrowice") None None;
   MkLine (Some b107) (Some "R") (Some "15:57") (Some "15:57") None (Some "Katowice Ligota") None None;
   MkLine (Some b105) (Some "R") None None None None None None;
   MkLine (Some b101) (Some "R") (Some "16:00") (Some "16:00") None (Some "Katowice Brynów") None None;
   MkLine (Some b102) (Some "R") None None None None None None;
   MkLine (Some b039) (Some "R") None None None None None None;
   MkLine (Some b030) (Some "R") (Some "16:04") None None (Some "Katowice") None None;
   MkLine (Some b032) (Some "R") None None (Some "16:07") None (Some "Y") None;
   head (Some "terminates in Katowice");
   head (Some "####");
   head (Some "IC - IC");
   head (Some "26103");
   head (Some "BOLKO");
   head (Some "from Lublin Główny");
   MkLine (Some b001) (Some "IC") None None None None None None;
   MkLine (Some b002) (Some "IC") None None (Some "16:00") None None None;
   MkLine (Some b009) (Some "IC") None None None None None None;
   MkLine (Some b017) (Some "IC") None None None None None None;
   MkLine (Some b022) (Some "IC") (Some "16:04") (Some "16:11") None (Some "Katowice") None None;
   MkLine (Some b035) (Some "IC") None None None None None None;
   MkLine (Some b040) (Some "IC") None None None None None None;
   MkLine (Some b044) (Some "IC") None None None None None None;
   MkLine (Some b051) (Some "IC") None None None None None None;
   MkLine (Some b052) (Some "IC") None None None None None None;
   MkLine (Some b053) (Some "R") (Some "16:17") (Some "16:17") None (Some "Chorz�w Batory") None None;
   MkLine (Some b054) (Some "IC") None None None None None None;
   MkLine (Some b062) (Some "IC") None None None None None None;
   MkLine (Some b064) (Some "IC") None None None None None None;
   MkLine (Some b066) (Some "IC") None None None None None None;
   MkLine (Some b068) (Some "IC") None None None None None None;
   MkLine (Some b070) (Some "IC") None None None None None None;
   MkLine (Some b072) (Some "IC") None None None None None None;
   MkLine (Some b074) (Some "IC") None None None None None None;
   MkLine (Some b076) (Some "IC") (Some "16:27") (Some "16:27") None (Some "Zabrze") None None;
   MkLine (Some b078) (Some "IC") None None None None None None;
   MkLine (Some b080) (Some "IC") None None None None None None;
   MkLine (Some b082) (Some "IC") None None None None None None;
   MkLine (Some b084) (Some "IC") None None None None None None;
   MkLine (Some b086) (Some "IC") None None None None None None;
   MkLine (Some b091) (Some "IC") (Some "16:34") (Some "16:36") None (Some "Gliwice") None None;
   MkLine (Some b097) (Some "IC") None None None None None None;
   head (Some "to Wrocław Główny");
   head (Some "####");
   head (Some "IC - IC");
   head (Some "421009");
   head (Some "SZTYGAR");
   head (Some "from Katowice IC");
   MkLine (Some b020) (Some "R") None None (Some "15:50") None (Some "Y") None;
   MkLine (Some b014) (Some "R") None None None None (Some "Y") None;
   MkLine (Some b027) (Some "R") None None (Some "15:55") (Some "Katowice") (Some "Y") None;
   head (Some "to Katowice platforms");
   head (Some "####");
   head (Some "IC - IC");
   head (Some "42100");
   head (Some "SZTYGAR");
   head (Some "from Katowice");
   MkLine (Some b027) (Some "IC") None (Some "16:08") None (Some "Katowice") None (Some 5);
   MkLine (Some b014) (Some "IC") None None None None None None;
   MkLine (Some b010) (Some "IC") None None None None None None;
   MkLine (Some b003) (Some "IC") None None (Some "16:12") None None None;
   MkLine (Some b006) (Some "IC") None None None None None None;
   head (Some "to Lublin Główny");
   head (Some "####");
   head (Some "IC - IC");
   head (Some "5312");
   head (Some "PIAST");
   head (Some "from Gdynia Główna via Wrocław");
   MkLine (Some b098) (Some "IC") None None None None None None;
   MkLine (Some b094) (Some "IC") (Some "15:34") (Some "15:42") None (Some "Gliwice") None None;
   MkLine (Some b087) (Some "IC") None None None None None None;
   MkLine (Some b085) (Some "IC") None None None None None None;
   MkLine (Some b083) (Some "IC") None None None None None None;
   MkLine (Some b081) (Some "IC") None None None None None None;
   MkLine (Some b079) (Some "IC") None None None None None None;
   MkLine (Some b077) (Some "IC") (Some "15:50") (Some "15:50") None (Some "Zabrze") None None;
   MkLine (Some b075) (Some "IC") None None None None None None;
   MkLine (Some b073) (Some "IC") None None None None None None;
   MkLine (Some b071) (Some "IC") None None None None None None;
   MkLine (Some b069) (Some "IC") None None None None None None;
   MkLine (Some b067) (Some "IC") None None None None None None;
   MkLine (Some b065) (Some "IC") None None None None None None;
   MkLine (Some b063) (Some "IC") None None None None None None;
   MkLine (Some b055) (Some "IC") None None None None None None;
   MkLine (Some b053) (Some "IC") None None None None None None;
   MkLine (Some b052) (Some "IC") None None None None None None;
   MkLine (Some b051) (Some "IC") None None None None None None;
   MkLine (Some b044) (Some "IC") None None None None None None;
   MkLine (Some b041) (Some "IC") None None None None None None;
   MkLine (Some b036) (Some "IC") None None None None None None;
   MkLine (Some b028) (Some "IC") (Some "16:06") (Some "16:09") None (Some "Katowice") None None;
   MkLine (Some b014) (Some "IC") None None None None None None;
   MkLine (Some b012) (Some "IC") None None None None None None;
   MkLine (Some b005) (Some "IC") None None (Some "16:13") None None None;
   MkLine (Some b008) (Some "IC") None None None None None None;
   head (Some "to Kraków Główny");
   head (Some "####");
   head (Some "KS - Os");
   head (Some "40518");
   head (Some "S4");
   head (Some "from Tychy Lodowisko");
   MkLine (Some b145) (Some "R") None None None None None None;
   MkLine (Some b140) (Some "R") (Some "15:44") (Some "15:51") None (Some "Tychy") None None;
   MkLine (Some b135) (Some "R") None None None None None None;
   MkLine (Some b132) (Some "R") None None None None None None;
   MkLine (Some b129) (Some "R") None None None None None None;
   MkLine (Some b126) (Some "R") None None None None None None;
   MkLine (Some b124) (Some "R") (Some "15:57") (Some "15:57") None (Some "Katowice Podlesie") None None;
   MkLine (Some b122) (Some "R") None None None None None None;
   MkLine (Some b120) (Some "R") None None None None None None;
   MkLine (Some b111) (Some "R") (Some "16:00") (Some "16:00") None (Some "Katowice Piotrowice") None None;
   MkLine (Some b107) (Some "R") (Some "16:02") (Some "16:03") None (Some "Katowice Ligota") None None;
   MkLine (Some b105) (Some "R") None None None None None None;
   MkLine (Some b101) (Some "R") None None None None None None;
   MkLine (Some b102) (Some "R") (Some "16:06") (Some "16:06") None (Some "Katowice Brynów") None None;
   MkLine (Some b039) (Some "R") None None None None None None;
   MkLine (Some b030) (Some "R") (Some "16:09") None None (Some "Katowice") None None;
   MkLine (Some b026) (Some "R") None None (Some "16:12") None (Some "Y") None;
   head (Some "terminates in Katowice");
   head (Some "####");
   head (Some "PR - R");
   head (Some "34319");
   head (Some "No name");
   head (Some "from Kraków Główny");
   MkLine (Some b007) (Some "R") None None None None None None;
   MkLine (Some b004) (Some "R") (Some "16:10") (Some "16:10") None (Some "Katowice Zawodzie") None None;
   MkLine (Some b011) (Some "R") None None None None None None;
   MkLine (Some b014) (Some "R") None None None None None None;
   MkLine (Some b030) (Some "R") (Some "16:14") None None (Some "Katowice") None None;
   head (Some "to Katowice");
   head (Some "####");
   head (Some "PR - R");
   head (Some "343199");
   head (Some "No name");
   head (Some "from Katowice platforms");
   MkLine (Some b030) (Some "R") None None (Some "16:14") (Some "Katowice") (Some "Y") (Some 5);
   MkLine (Some b033) (Some "R") None None (Some "16:22") None (Some "Y") None;
   head (Some "to Katowice STM");
   head (Some "####");
   head (Some "IC - IC");
   head (Some "14006");
   head (Some "SILESIA");
   head (Some "from Warszawa Wschodnia");
   MkLine (Some b001) (Some "IC") None None None None None None;
   MkLine (Some b002) (Some "IC") None None (Some "16:06") None None None;
   MkLine (Some b009) (Some "IC") None None None None None None;
   MkLine (Some b017) (Some "IC") None None None None None None;
   MkLine (Some b021) (Some "IC") (Some "16:10") (Some "16:19") None (Some "Katowice") None None;
   MkLine (Some b034) (Some "IC") None None None None None None;
   MkLine (Some b099) (Some "IC") None None None None None None;
   MkLine (Some b100) (Some "IC") None None None None None None;
   MkLine (Some b104) (Some "IC") None None None None None None;
   MkLine (Some b106) (Some "IC") None None None None None None;
   MkLine (Some b110) (Some "IC") None None None None None None;
   MkLine (Some b119) (Some "IC") None None None None None None;
   MkLine (Some b121) (Some "IC") None None None None None None;
   MkLine (Some b123) (Some "IC") None None None None None None;
   MkLine (Some b125) (Some "IC") None None None None None None;
   MkLine (Some b127) (Some "IC") None None None None None None;
   MkLine (Some b128) (Some "IC") None None None None None None;
   MkLine (Some b131) (Some "IC") None None None None None None;
   MkLine (Some b134) (Some "IC") None None None None None None;
   MkLine (Some b139) (Some "IC") (Some "16:33") (Some "16:34") None (Some "Tychy") None None;
   MkLine (Some b146) (Some "IC") None None None None None None;
   head (Some "to Praha Hlavni Nadrazi");
   head (Some "####");
   head (Some "KS - OsP");
   head (Some "94611");
   head (Some "S6");
   head (Some "departs from Katowice");
   MkLine (Some b037) (Some "R") None None (Some "15:55") None (Some "Y") None;
   MkLine (Some b025) (Some "R") None (Some "16:12") None (Some "Katowice") None (Some 5);
   MkLine (Some b034) (Some "R") None None None None None None;
   MkLine (Some b099) (Some "R") None None None None None None;
   MkLine (Some b100) (Some "IC") None None None None None None;
   MkLine (Some b104) (Some "R") None None None None None None;
   MkLine (Some b106) (Some "R") (Some "16:17") (Some "16:18") None (Some "Katowice Ligota") None None;
   MkLine (Some b110) (Some "R") (Some "16:21") (Some "16:21") None (Some "Katowice Piotrowice") None None;
   MkLine (Some b119) (Some "R") None None None None None None;
   MkLine (Some b121) (Some "R") None None None None None None;
   MkLine (Some b123) (Some "IC") None None None None None None;
   MkLine (Some b125) (Some "R") None None None None None None;
   MkLine (Some b127) (Some "R") None None None None None None;
   MkLine (Some b128) (Some "R") None None None None None None;
   MkLine (Some b131) (Some "R") None None None None None None;
   MkLine (Some b134) (Some "R") None None None None None None;
   MkLine (Some b137) (Some "R") (Some "16:27") (Some "16:28") None (Some "Tychy") None None;
   MkLine (Some b142) (Some "R") None None None None None None;
   head (Some "to Wisła Głębce");
   head (Some "####");
   head (Some "KS - OsP");
   head (Some "40150");
   head (Some "S1 KARLIK");
   head (Some "from Gliwice");
   MkLine (Some b088) (Some "R") None (Some "15:49") None (Some "Gliwice") None None;
   MkLine (Some b087) (Some "R") None None None None None None;
   MkLine (Some b085) (Some "R") None None None None None None;
   MkLine (Some b083) (Some "R") None None None None None None;
   MkLine (Some b081) (Some "R") None None None None None None;
   MkLine (Some b079) (Some "R") None None None None None None;
   MkLine (Some b077) (Some "R") (Some "15:56") (Some "15:56") None (Some "Zabrze") None None;
   MkLine (Some b075) (Some "R") None None None None None None;
   MkLine (Some b073) (Some "R") None None None None None None;
   MkLine (Some b071) (Some "R") (Some "16:01") (Some "16:01") None (Some "Ruda Slaska") None None;
   MkLine (Some b069) (Some "R") None None None None None None;
   MkLine (Some b067) (Some "R") (Some "16:03") (Some "16:03") None (Some "Ruda Chebzie") None None;
   MkLine (Some b065) (Some "R") None None None None None None;
   MkLine (Some b063) (Some "R") (Some "16:06") (Some "16:06") None (Some "Swietochlowice") None None;
   MkLine (Some b055) (Some "R") None None None None None None;
   MkLine (Some b053) (Some "R") (Some "16:10") (Some "16:10") None (Some "Chorzów Batory") None None;
   MkLine (Some b052) (Some "R") None None None None None None;
   MkLine (Some b051) (Some "R") None None None None None None;
   MkLine (Some b044) (Some "R") None None None None None None;
   MkLine (Some b041) (Some "R") (Some "16:13") (Some "16:13") None (Some "Katowice Załęże") None None;
   MkLine (Some b036) (Some "R") None None None None None None;
   MkLine (Some b028) (Some "R") (Some "16:16") (Some "16:18") None (Some "Katowice") None None;
   MkLine (Some b014) (Some "R") None None None None None None;
   MkLine (Some b010) (Some "R") None None None None None None;
   MkLine (Some b003) (Some "R") (Some "16:26") (Some "16:26") None (Some "Katowice Zawodzie") None None;
   MkLine (Some b006) (Some "R") None None None None None None;
   head (Some "to Częstochowa");
   head (Some "####");
   head (Some "IC - IC");
   head (Some "41004");
   head (Some "BATHORY");
   head (Some "from Budapest-Nyugati");
   MkLine (Some b146) (Some "IC") None None None None None None;
   MkLine (Some b138) (Some "IC") (Some "16:00") (Some "16:01") None None None None;
   MkLine (Some b135) (Some "IC") None None None None None None;
   MkLine (Some b132) (Some "IC") None None None None None None;
   MkLine (Some b129) (Some "IC") None None None None None None;
   MkLine (Some b126) (Some "IC") None None None None None None;
   MkLine (Some b124) (Some "IC") None None None None None None;
   MkLine (Some b122) (Some "IC") None None None None None None;
   MkLine (Some b120) (Some "IC") None None None None None None;
   MkLine (Some b111) (Some "IC") None None None None None None;
   MkLine (Some b107) (Some "IC") None None None None None None;
   MkLine (Some b105) (Some "IC") None None None None None None;
   MkLine (Some b101) (Some "IC") None None None None None None;
   MkLine (Some b102) (Some "IC") None None None None None None;
   MkLine (Some b039) (Some "IC") None None None None None None;
   MkLine (Some b031) (Some "IC") (Some "16:15") (Some "16:25") None (Some "Katowice") None None;
   MkLine (Some b018) (Some "IC") None None None None None None;
   MkLine (Some b010) (Some "IC") None None None None None None;
   MkLine (Some b003) (Some "IC") None None (Some "16:29") None None None;
   MkLine (Some b006) (Some "IC") None None None None None None;
   head (Some "to Brest-Centralnyi");
   head (Some "####");
   head (Some "KS - OsP");
   head (Some "94113");
   head (Some "S5 SPRINTER");
   head (Some "departs from Katowice");
   MkLine (Some b037) (Some "R") None None (Some "16:07") None (Some "Y") None;
   MkLine (Some b025) (Some "R") None (Some "16:24") None (Some "Katowice") None (Some 5);
   MkLine (Some b034) (Some "R") None None None None None None;
   MkLine (Some b099) (Some "R") None None None None None None;
   MkLine (Some b100) (Some "IC") None None None None None None;
   MkLine (Some b104) (Some "R") None None None None None None;
   MkLine (Some b106) (Some "R") (Some "16:30") (Some "16:30") None (Some "Katowice Ligota") None None;
   MkLine (Some b110) (Some "R") (Some "16:33") (Some "16:33") None (Some "Katowice Piotrowice") None None;
   MkLine (Some b119) (Some "R") None None None None None None;
   MkLine (Some b121) (Some "R") None None None None None None;
   MkLine (Some b123) (Some "IC") None None None None None None;
   MkLine (Some b125) (Some "R") None None None None None None;
   MkLine (Some b127) (Some "R") None None None None None None;
   MkLine (Some b128) (Some "R") None None None None None None;
   MkLine (Some b131) (Some "R") None None None None None None;
   MkLine (Some b134) (Some "R") None None None None None None;
   MkLine (Some b137) (Some "R") (Some "16:39") (Some "16:41") None (Some "Tychy") None None;
   MkLine (Some b142) (Some "R") None None None None None None;
   head (Some "to Żywiec");
   head (Some "####");
   head (Some "KS - Os");
   head (Some "40673");
   head (Some "S1");
   head (Some "from Czestochowa");
   MkLine (Some b001) (Some "R") None None None None None None;
   MkLine (Some b002) (Some "R") (Some "16:14") (Some "16:14") None (Some "Katowice Zawodzie") None None;
   MkLine (Some b009) (Some "R") None None None None None None;
   MkLine (Some b017) (Some "R") None None None None None None;
   MkLine (Some b022) (Some "R") (Some "16:18") (Some "16:30") None (Some "Katowice") None None;
   MkLine (Some b035) (Some "R") None None None None None None;
   MkLine (Some b040) (Some "R") (Some "16:33") (Some "16:33") None (Some "Katowice Załęże") None None;
   MkLine (Some b044) (Some "R") None None None None None None;
   MkLine (Some b051) (Some "R") None None None None None None;
   MkLine (Some b052) (Some "R") None None None None None None;
   MkLine (Some b053) (Some "R") (Some "16:36") (Some "16:36") None (Some "Chorzów Batory") None None;
   MkLine (Some b054) (Some "R") None None None None None None;
   MkLine (Some b062) (Some "R") (Some "16:39") (Some "16:39") None (Some "Świętochłowice") None None;
   MkLine (Some b064) (Some "R") None None None None None None;
   MkLine (Some b066) (Some "R") (Some "16:43") (Some "16:43") None (Some "Ruda Chebzie") None None;
   MkLine (Some b068) (Some "R") None None None None None None;
   MkLine (Some b070) (Some "R") (Some "16:45") (Some "16:45") None (Some "Ruda Śląska") None None;
   MkLine (Some b072) (Some "R") None None None None None None;
   MkLine (Some b074) (Some "R") None None None None None None;
   MkLine (Some b076) (Some "R") (Some "16:50") (Some "16:50") None (Some "Zabrze") None None;
   MkLine (Some b078) (Some "R") None None None None None None;
   MkLine (Some b080) (Some "R") None None None None None None;
   MkLine (Some b082) (Some "R") None None None None None None;
   MkLine (Some b084) (Some "R") None None None None None None;
   MkLine (Some b086) (Some "R") None None None None None None;
   MkLine (Some b088) (Some "R") (Some "16:57") None None (Some "Gliwice") None None;
   head (Some "to Gliwice");
   head (Some "####");
   head (Some "IC - TLK");
   head (Some "54101");
   head (Some "DOKER");
   head (Some "from Gdynia Główna via Koluszki");
   MkLine (Some b001) (Some "IC") None None None None None None;
   MkLine (Some b002) (Some "IC") None None (Some "16:24") None None None;
   MkLine (Some b009) (Some "IC") None None None None None None;
   MkLine (Some b014) (Some "IC") None None None None None None;
   MkLine (Some b027) (Some "IC") (Some "16:28") None None (Some "Katowice") None None;
   head (Some "to Katowice");
   head (Some "####");
   head (Some "IC - TLK");
   head (Some "541019");
   head (Some "DOKER");
   head (Some "from Katowice platforms");
   MkLine (Some b027) (Some "R") None None (Some "16:28") (Some "Katowice") (Some "Y") (Some 5);
   MkLine (Some b014) (Some "R") None None None None (Some "Y") None;
   MkLine (Some b020) (Some "R") None None (Some "16:43") None (Some "Y") None;
   head (Some "to Katowice KO(IC)");
   head (Some "####");
   head (Some "KS - Os");
   head (Some "40477");
   head (Some "S4");
   head (Some "departs from Katowice");
   MkLine (Some b026) (Some "R") None None None None (Some "Y") None;
   MkLine (Some b021) (Some "R") None (Some "16:29") None (Some "Katowice") None None;
   MkLine (Some b034) (Some "R") None None None None None None;
   MkLine (Some b099) (Some "R") None None None None None None;
   MkLine (Some b100) (Some "R") (Some "16:33") (Some "16:33") None (Some "Katowice Brynów") None None;
   MkLine (Some b104) (Some "R") None None None None None None;
   MkLine (Some b106) (Some "R") (Some "16:35") (Some "16:36") None (Some "Katowice Ligota") None None;
   MkLine (Some b110) (Some "R") (Some "16:39") (Some "16:39") None (Some "Katowice Piotrowice") None None;
   MkLine (Some b119) (Some "R") None None None None None None;
   MkLine (Some b121) (Some "R") None None None None None None;
   MkLine (Some b123) (Some "R") (Some "16:42") (Some "16:42") None (Some "Katowice Podlesie") None None;
   MkLine (Some b125) (Some "R") None None None None None None;
   MkLine (Some b127) (Some "R") None None None None None None;
   MkLine (Some b128) (Some "R") None None None None None None;
   MkLine (Some b131) (Some "R") None None None None None None;
   MkLine (Some b134) (Some "R") None None None None None None;
   MkLine (Some b137) (Some "R") (Some "16:47") (Some "16:55") None (Some "Tychy") None None;
   MkLine (Some b144) (Some "R") None None None None None None;
   head (Some "to Tychy Lodowisko");
   head (Some "####");
   head (Some "IC - EIP");
   head (Some "4500");
   head (Some "Pendolino");
   head (Some "from Gliwice");
   MkLine (Some b093) (Some "IC") None (Some "16:07") None (Some "Gliwice") None None;
   MkLine (Some b087) (Some "IC") None None None None None None;
   MkLine (Some b085) (Some "IC") None None None None None None;
   MkLine (Some b083) (Some "IC") None None None None None None;
   MkLine (Some b081) (Some "IC") None None None None None None;
   MkLine (Some b079) (Some "IC") None None None None None None;
   MkLine (Some b077) (Some "IC") (Some "16:16") (Some "16:16") None (Some "Zabrze ") None None;
   MkLine (Some b075) (Some "IC") None None None None None None;
   MkLine (Some b073) (Some "IC") None None None None None None;
   MkLine (Some b071) (Some "IC") None None None None None None;
   MkLine (Some b069) (Some "IC") None None None None None None;
   MkLine (Some b067) (Some "IC") None None None None None None;
   MkLine (Some b065) (Some "IC") None None None None None None;
   MkLine (Some b063) (Some "IC") None None None None None None;
   MkLine (Some b055) (Some "IC") None None None None None None;
   MkLine (Some b053) (Some "IC") None None None None None None;
   MkLine (Some b052) (Some "IC") None None None None None None;
   MkLine (Some b051) (Some "IC") None None None None None None;
   MkLine (Some b044) (Some "IC") None None None None None None;
   MkLine (Some b041) (Some "IC") None None None None None None;
   MkLine (Some b036) (Some "IC") None None None None None None;
   MkLine (Some b027) (Some "IC") (Some "16:31") (Some "16:35") None (Some "Katowice") None None;
   MkLine (Some b014) (Some "IC") None None None None None None;
   MkLine (Some b010) (Some "IC") None None None None None None;
   MkLine (Some b003) (Some "IC") None None (Some "16:39") None None None;
   MkLine (Some b006) (Some "IC") None None None None None None;
   head (Some "to Gdynia Główna via Warszawa");
   head (Some "####");
   head (Some "KS - Os");
   head (Some "94317");
   head (Some "S8");
   head (Some "from Oświęcim");
   MkLine (Some b007) (Some "R") None None None None None None;
   MkLine (Some b004) (Some "R") (Some "16:39") (Some "16:39") None (Some "Katowice Zawodzie") None None;
   MkLine (Some b011) (Some "R") None None None None None None;
   MkLine (Some b013) (Some "R") None None None None None None;
   MkLine (Some b022) (Some "R") (Some "16:44") (Some "16:50") None (Some "Katowice") None None;
   MkLine (Some b035) (Some "R") None None None None None None;
   MkLine (Some b040) (Some "R") (Some "16:53") (Some "16:53") None (Some "Katowice Załęże") None None;
   MkLine (Some b044) (Some "R") None None None None None None;
   MkLine (Some b051) (Some "R") None None None None None None;
   MkLine (Some b052) (Some "R") None None None None None None;
   MkLine (Some b053) (Some "R") (Some "16:57") (Some "16:58") None (Some "Chorzów Batory") None None;
   MkLine (Some b056) (Some "R") None None None None None None;
   MkLine (Some b058) (Some "R") (Some "17:03") (Some "17:03") None (Some "Chorzów Miasto") None None;
   MkLine (Some b060) (Some "R") None None None None None None;
   head (Some "to Lubliniec");
   head (Some "####");
   head (Some "KS - Os");
   head (Some "44717");
   head (Some "S7");
   head (Some "departs from Katowice");
   MkLine (Some b032) (Some "R") None None (Some "16:25") None (Some "Y") None;
   MkLine (Some b025) (Some "R") None (Some "16:36") None (Some "Katowice") None None;
   MkLine (Some b034) (Some "R") None None None None None None;
   MkLine (Some b099) (Some "R") None None None None None None;
   MkLine (Some b100) (Some "R") (Some "16:39") (Some "16:39") None (Some "Katowice Brynów") None None;
   MkLine (Some b104) (Some "R") None None None None None None;
   MkLine (Some b108) (Some "R") (Some "16:43") (Some "16:43") None (Some "Katowice Ligota") None None;
   MkLine (Some b109) (Some "R") (Some "16:47") (Some "16:47") None (Some "Katowice Piotrowice") None None;
   MkLine (Some b112) (Some "R") None None None None None None;
   MkLine (Some b113) (Some "R") (Some "16:51") (Some "16:51") None (Some "Miko��w Jamna") None None;
   MkLine (Some b115) (Some "R") None None None None None None;
   MkLine (Some b116) (Some "R") (Some "16:54") (Some "16:55") None (Some "Miko��w") None None;
   MkLine (Some b118) (Some "R") None None None None None None;
   head (Some "to Racibórz");
   head (Some "####");
   head (Some "KS - Os");
   head (Some "64350");
   head (Some "S8");
   head (Some "from Kluczbork");
   MkLine (Some b061) (Some "R") None None None None None None;
   MkLine (Some b059) (Some "R") (Some "16:25") (Some "16:25") None (Some "Chorzów Miasto") None None;
   MkLine (Some b057) (Some "R") None None None None None None;
   MkLine (Some b053) (Some "R") (Some "16:30") (Some "16:31") None (Some "Chorzów Batory") None None;
   MkLine (Some b052) (Some "R") None None None None None None;
   MkLine (Some b051) (Some "R") None None None None None None;
   MkLine (Some b044) (Some "R") None None None None None None;
   MkLine (Some b041) (Some "R") (Some "16:34") (Some "16:34") None (Some "Katowice Załęże") None None;
   MkLine (Some b036) (Some "R") None None None None None None;
   MkLine (Some b030) (Some "R") (Some "16:38") (Some "16:40") None (Some "Katowice") None None;
   MkLine (Some b018) (Some "R") None None None None None None;
   MkLine (Some b012) (Some "R") None None None None None None;
   MkLine (Some b005) (Some "R") (Some "16:44") (Some "16:44") None (Some "Katowice Zawodzie") None None;
   MkLine (Some b008) (Some "R") None None None None None None;
   head (Some "to Oświęcim");
   head (Some "####");
   head (Some "KS - Os");
   head (Some "94717");
   head (Some "S5");
   head (Some "departs from Katowice");
   MkLine (Some b026) (Some "R") None None (Some "16:30") None (Some "Y") None;
   MkLine (Some b025) (Some "R") None (Some "16:47") None (Some "Katowice") None None;
   MkLine (Some b034) (Some "R") None None None None None None;
   MkLine (Some b099) (Some "R") None None None None None None;
   MkLine (Some b100) (Some "R") (Some "16:51") (Some "16:51") None (Some "Katowice Brynów") None None;
   MkLine (Some b104) (Some "R") None None None None None None;
   MkLine (Some b106) (Some "R") (Some "16:54") (Some "16:54") None (Some "Katowice Ligota") None None;
   MkLine (Some b110) (Some "R") (Some "16:57") (Some "16:57") None (Some "Katowice Piotrowice") None None;
   MkLine (Some b119) (Some "R") None None None None None None;
   MkLine (Some b121) (Some "R") None None None None None None;
   MkLine (Some b123) (Some "R") (Some "17:01") (Some "17:01") None (Some "Katowice Podlesie") None None;
   MkLine (Some b125) (Some "R") None None None None None None;
   MkLine (Some b127) (Some "R") None None None None None None;
   MkLine (Some b128) (Some "R") None None None None None None;
   MkLine (Some b131) (Some "R") None None None None None None;
   MkLine (Some b134) (Some "R") None None None None None None;
   MkLine (Some b137) (Some "R") (Some "17:05") (Some "17:06") None (Some "Tychy") None None;
   MkLine (Some b142) (Some "R") None None None None None None;
   head (Some "to Żywiec");
   head (Some "####");
   head (Some "KS - Os");
   head (Some "44862");
   head (Some "S71");
   head (Some "from Chałupki");
   MkLine (Some b118) (Some "R") None None (Some "16:21") None None None;
   MkLine (Some b117) (Some "R") (Some "16:25") (Some "16:32") None (Some "Miko��w") None None;
   MkLine (Some b115) (Some "R") None None None None None None;
   MkLine (Some b114) (Some "R") (Some "16:35") (Some "16:35") None (Some "Miko��w Jamna") None None;
   MkLine (Some b112) (Some "R") None None None None None None;
   MkLine (Some b109) (Some "R") (Some "16:39") (Some "16:39") None None None None;
   MkLine (Some b107) (Some "R") (Some "16:42") (Some "16:42") None (Some "Katowice Ligota") None None;
   MkLine (Some b105) (Some "R") None None None None None None;
   MkLine (Some b101) (Some "R") None None None None None None;
   MkLine (Some b102) (Some "R") (Some "16:45") (Some "16:45") None (Some "Katowice Brynów") None None;
   MkLine (Some b039) (Some "R") None None None None None None;
   MkLine (Some b030) (Some "R") (Some "16:48") None None (Some "Katowice") None None;
   MkLine (Some b033) (Some "R") None None None None (Some "Y") None;
   head (Some "terminates in Katowice");
   head (Some "####");
   head (Some "KS - Os");
   head (Some "40628");
   head (Some "S1");
   head (Some "from Gliwice");
   MkLine (Some b088) (Some "R") None (Some "16:16") None (Some "Gliwice") None None;
   MkLine (Some b087) (Some "R") None None None None None None;
   MkLine (Some b085) (Some "R") None None None None None None;
   MkLine (Some b083) (Some "R") None None None None None None;
   MkLine (Some b081) (Some "R") None None None None None None;
   MkLine (Some b079) (Some "R") None None None None None None;
   MkLine (Some b077) (Some "R") (Some "16:23") (Some "16:23") None (Some "Zabrze") None None;
   MkLine (Some b075) (Some "R") None None None None None None;
   MkLine (Some b073) (Some "R") None None None None None None;
   MkLine (Some b071) (Some "R") (Some "16:27") (Some "16:27") None (Some "Ruda Slaska") None None;
   MkLine (Some b069) (Some "R") None None None None None None;
   MkLine (Some b067) (Some "R") (Some "16:30") (Some "16:30") None (Some "Ruda Chebzie") None None;
   MkLine (Some b065) (Some "R") None None None None None None;
   MkLine (Some b063) (Some "R") (Some "16:33") (Some "16:33") None (Some "Swietochlowice") None None;
   MkLine (Some b055) (Some "R") None None None None None None;
   MkLine (Some b053) (Some "R") (Some "16:36") (Some "16:36") None (Some "Chorzów Batory") None None;
   MkLine (Some b052) (Some "R") None None None None None None;
   MkLine (Some b051) (Some "R") None None None None None None;
   MkLine (Some b044) (Some "R") None None None None None None;
   MkLine (Some b041) (Some "R") (Some "16:40") (Some "16:40") None (Some "Katowice Załęże") None None;
   MkLine (Some b036) (Some "R") None None None None None None;
   MkLine (Some b027) (Some "R") (Some "16:44") (Some "16:51") None (Some "Katowice") None None;
   MkLine (Some b014) (Some "R") None None None None None None;
   MkLine (Some b010) (Some "R") None None None None None None;
   MkLine (Some b003) (Some "R") (Some "16:54") (Some "16:54") None (Some "Katowice Zawodzie") None None;
   MkLine (Some b006) (Some "R") None None None None None None;
   head (Some "to Częstochowa");
   head (Some "####");
   head (Some "KS - OsP");
   head (Some "40675");
   head (Some "S1");
   head (Some "from Czestochowa");
   MkLine (Some b001) (Some "R") None None None None None None;
   MkLine (Some b002) (Some "R") (Some "16:44") (Some "16:44") None (Some "Katowice Zawodzie") None None;
   MkLine (Some b009) (Some "R") None None None None None None;
   MkLine (Some b017) (Some "R") None None None None None None;
   MkLine (Some b021) (Some "R") (Some "16:48") (Some "16:55") None (Some "Katowice") None None;
   MkLine (Some b035) (Some "R") None None None None None None;
   MkLine (Some b040) (Some "R") (Some "16:58") (Some "16:58") None (Some "Katowice Załęże") None None;
   MkLine (Some b044) (Some "R") None None None None None None;
   MkLine (Some b051) (Some "R") None None None None None None;
   MkLine (Some b052) (Some "R") None None None None None None;
   MkLine (Some b053) (Some "R") (Some "17:02") (Some "17:02") None (Some "Chorz�w Batory") None None;
   MkLine (Some b054) (Some "R") None None None None None None;
   MkLine (Some b062) (Some "R") (Some "17:05") (Some "17:05") None (Some "�wi�toch�owice") None None;
   MkLine (Some b064) (Some "R") None None None None None None;
   MkLine (Some b066) (Some "R") (Some "17:08") (Some "17:08") None (Some "Ruda Chebzie") None None;
   MkLine (Some b068) (Some "R") None None None None None None;
   MkLine (Some b070) (Some "R") (Some "17:10") (Some "17:10") None (Some "Ruda �l�ska") None None;
   MkLine (Some b072) (Some "R") None None None None None None;
   MkLine (Some b074) (Some "R") None None None None None None;
   MkLine (Some b076) (Some "R") (Some "17:15") (Some "17:15") None (Some "Zabrze") None None;
   MkLine (Some b078) (Some "R") None None None None None None;
   MkLine (Some b080) (Some "R") None None None None None None;
   MkLine (Some b082) (Some "R") None None None None None None;
   MkLine (Some b084) (Some "R") None None None None None None;
   MkLine (Some b086) (Some "R") None None None None None None;
   MkLine (Some b088) (Some "R") (Some "17:22") None None (Some "Gliwice") None None;
   head (Some "to Gliwice");
   head (Some "####");
   head (Some "IC - IC");
   head (Some "73000");
   head (Some "WAWEL");
   head (Some "from Berlin Hauptbahnhof");
   MkLine (Some b098) (Some "IC") None None (Some "16:27") None None None;
   MkLine (Some b095) (Some "IC") (Some "16:29") (Some "16:31") None (Some "Gliwice") None None;
   MkLine (Some b087) (Some "IC") None None None None None None;
   MkLine (Some b085) (Some "IC") None None None None None None;
   MkLine (Some b083) (Some "IC") None None None None None None;
   MkLine (Some b081) (Some "IC") None None None None None None;
   MkLine (Some b079) (Some "IC") None None None None None None;
   MkLine (Some b077) (Some "IC") (Some "16:38") (Some "16:38") None (Some "Zabrze") None None;
   MkLine (Some b075) (Some "IC") None None None None None None;
   MkLine (Some b073) (Some "IC") None None None None None None;
   MkLine (Some b071) (Some "IC") None None None None None None;
   MkLine (Some b069) (Some "IC") None None None None None None;
   MkLine (Some b067) (Some "IC") None None None None None None;
   MkLine (Some b065) (Some "IC") None None None None None None;
   MkLine (Some b063) (Some "IC") None None None None None None;
   MkLine (Some b055) (Some "IC") None None None None None None;
   MkLine (Some b053) (Some "IC") None None None None None None;
   MkLine (Some b052) (Some "IC") None None None None None None;
   MkLine (Some b051) (Some "IC") None None None None None None;
   MkLine (Some b044) (Some "IC") None None None None None None;
   MkLine (Some b041) (Some "IC") None None None None None None;
   MkLine (Some b036) (Some "IC") None None None None None None;
   MkLine (Some b028) (Some "IC") (Some "16:53") (Some "16:58") None (Some "Katowice") None None;
   MkLine (Some b014) (Some "IC") None None None None None None;
   MkLine (Some b012) (Some "IC") None None None None None None;
   MkLine (Some b005) (Some "IC") None None (Some "17:02") None None None;
   MkLine (Some b008) (Some "IC") None None None None None None;
   head (Some "to Kraków Główny");
   head (Some "####");
   head (Some "IC - IC");
   head (Some "4120");
   head (Some "DASZYŃSKI");
   head (Some "from Bielsko-Biała Główna");
   MkLine (Some b143) (Some "IC") None None None None None None;
   MkLine (Some b140) (Some "IC") (Some "16:41") (Some "16:41") None (Some "Tychy") None None;
   MkLine (Some b135) (Some "IC") None None None None None None;
   MkLine (Some b132) (Some "IC") None None None None None None;
   MkLine (Some b129) (Some "IC") None None None None None None;
   MkLine (Some b126) (Some "IC") None None None None None None;
   MkLine (Some b124) (Some "IC") None None None None None None;
   MkLine (Some b122) (Some "IC") None None None None None None;
   MkLine (Some b120) (Some "IC") None None None None None None;
   MkLine (Some b111) (Some "IC") None None None None None None;
   MkLine (Some b107) (Some "IC") None None None None None None;
   MkLine (Some b105) (Some "IC") None None None None None None;
   MkLine (Some b101) (Some "IC") None None None None None None;
   MkLine (Some b102) (Some "IC") None None None None None None;
   MkLine (Some b039) (Some "IC") None None None None None None;
   MkLine (Some b031) (Some "IC") (Some "16:54") (Some "17:00") None (Some "Katowice") None None;
   MkLine (Some b014) (Some "IC") None None None None None None;
   MkLine (Some b010) (Some "IC") None None None None None None;
   MkLine (Some b003) (Some "IC") None None (Some "17:04") None None None;
   MkLine (Some b006) (Some "IC") None None None None None None;
   head (Some "to Warszawa Wschodnia")].

(** data/trains_schedules_1track.csv *)
Definition schedule_1track : list line :=
  [head (Some "####");
   head (Some "KS - Os");
   head (Some "94766");
   head (Some "S5");
   head (Some "from Zwardoń");
   MkLine (Some b143) (Some "R") None None None None None None;
   MkLine (Some b140) (Some "R") (Some "15:46") (Some "15:47") None None None None;
   MkLine (Some b135) (Some "R") None None None None None None;
   MkLine (Some b132) (Some "R") None None None None None None;
   MkLine (Some b129) (Some "R") None None None None None None;
   MkLine (Some b126) (Some "R") None None None None None None;
   MkLine (Some b124) (Some "R") (Some "15:51") (Some "15:51") None (Some "Katowice Podlesie") None None;
   MkLine (Some b122) (Some "R") None None None None None None;
   MkLine (Some b120) (Some "R") None None None None None None;
   MkLine (Some b111) (Some "R") (Some "15:54") (Some "15:54") None (Some "Katowice Piotrowice") None None;
   MkLine (Some b107) (Some "R") (Some "15:57") (Some "15:57") None (Some "Katowice Ligota") None None;
   MkLine (Some b105) (Some "R") None None None None None None;
   MkLine (Some b101) (Some "R") (Some "16:00") (Some "16:00") None (Some "Katowice Brynów") None None;
   MkLine (Some b102) (Some "R") None None None None None None;
   MkLine (Some b039) (Some "R") None None None None None None;
   MkLine (Some b030) (Some "R") (Some "16:04") None None (Some "Katowice") None None;
   MkLine (Some b032) (Some "R") None None (Some "16:07") None (Some "Y") None;
   head (Some "terminates in Katowice");
   head (Some "####");
   head (Some "IC - IC");
   head (Some "26103");
   head (Some "BOLKO");
   head (Some "from Lublin Główny");
   MkLine (Some b001) (Some "IC") None None None None None None;
   MkLine (Some b002) (Some "IC") None None (Some "16:00") None None None;
   MkLine (Some b009) (Some "IC") None None None None None None;
   MkLine (Some b017) (Some "IC") None None None None None None;
   MkLine (Some b022) (Some "IC") (Some "16:04") (Some "16:11") None (Some "Katowice") None None;
   MkLine (Some b035) (Some "IC") None None None None None None;
   MkLine (Some b040) (Some "IC") None None None None None None;
   MkLine (Some b042) (Some "IC") None None None None None None;
   MkLine (Some b045) (Some "IC") None None None None None None;
   MkLine (Some b047) (Some "R") (Some "16:17") (Some "16:17") None (Some "Chorz�w Batory") None None;
   MkLine (Some b054) (Some "IC") None None None None None None;
   MkLine (Some b062) (Some "IC") None None None None None None;
   MkLine (Some b064) (Some "IC") None None None None None None;
   MkLine (Some b066) (Some "IC") None None None None None None;
   MkLine (Some b068) (Some "IC") None None None None None None;
   MkLine (Some b070) (Some "IC") None None None None None None;
   MkLine (Some b072) (Some "IC") None None None None None None;
   MkLine (Some b074) (Some "IC") None None None None None None;
   MkLine (Some b076) (Some "IC") (Some "16:27") (Some "16:27") None (Some "Zabrze") None None;
   MkLine (Some b078) (Some "IC") None None None None None None;
   MkLine (Some b080) (Some "IC") None None None None None None;
   MkLine (Some b082) (Some "IC") None None None None None None;
   MkLine (Some b084) (Some "IC") None None None None None None;
   MkLine (Some b086) (Some "IC") None None None None None None;
   MkLine (Some b091) (Some "IC") (Some "16:34") (Some "16:36") None (Some "Gliwice") None None;
   MkLine (Some b097) (Some "IC") None None None None None None;
   head (Some "to Wrocław Główny");
   head (Some "####");
   head (Some "IC - IC");
   head (Some "421009");
   head (Some "SZTYGAR");
   head (Some "from Katowice IC");
   MkLine (Some b020) (Some "R") None None (Some "15:50") None (Some "Y") None;
   MkLine (Some b014) (Some "R") None None None None (Some "Y") None;
   MkLine (Some b027) (Some "R") None None (Some "15:55") (Some "Katowice") (Some "Y") None;
   head (Some "to Katowice platforms");
   head (Some "####");
   head (Some "IC - IC");
   head (Some "42100");
   head (Some "SZTYGAR");
   head (Some "from Katowice");
   MkLine (Some b027) (Some "IC") None (Some "16:08") None (Some "Katowice") None (Some 5);
   MkLine (Some b014) (Some "IC") None None None None None None;
   MkLine (Some b009) (Some "IC") None None None None None None;
   MkLine (Some b003) (Some "IC") None None (Some "16:12") None None None;
   MkLine (Some b006) (Some "IC") None None None None None None;
   head (Some "to Lublin Główny");
   head (Some "####");
   head (Some "IC - IC");
   head (Some "5312");
   head (Some "PIAST");
   head (Some "from Gdynia Główna via Wrocław");
   MkLine (Some b098) (Some "IC") None None None None None None;
   MkLine (Some b094) (Some "IC") (Some "15:34") (Some "15:42") None (Some "Gliwice") None None;
   MkLine (Some b087) (Some "IC") None None None None None None;
   MkLine (Some b085) (Some "IC") None None None None None None;
   MkLine (Some b083) (Some "IC") None None None None None None;
   MkLine (Some b081) (Some "IC") None None None None None None;
   MkLine (Some b079) (Some "IC") None None None None None None;
   MkLine (Some b077) (Some "IC") (Some "15:50") (Some "15:50") None (Some "Zabrze") None None;
   MkLine (Some b075) (Some "IC") None None None None None None;
   MkLine (Some b073) (Some "IC") None None None None None None;
   MkLine (Some b071) (Some "IC") None None None None None None;
   MkLine (Some b069) (Some "IC") None None None None None None;
   MkLine (Some b067) (Some "IC") None None None None None None;
   MkLine (Some b065) (Some "IC") None None None None None None;
   MkLine (Some b063) (Some "IC") None None None None None None;
   MkLine (Some b055) (Some "IC") None None None None None None;
   MkLine (Some b048) (Some "IC") None None None None None None;
   MkLine (Some b046) (Some "IC") None None None None None None;
   MkLine (Some b043) (Some "IC") None None None None None None;
   MkLine (Some b041) (Some "IC") None None None None None None;
   MkLine (Some b036) (Some "IC") None None None None None None;
   MkLine (Some b028) (Some "IC") (Some "16:06") (Some "16:09") None (Some "Katowice") None None;
   MkLine (Some b014) (Some "IC") None None None None None None;
   MkLine (Some b009) (Some "IC") None None None None None None;
   MkLine (Some b005) (Some "IC") None None (Some "16:13") None None None;
   MkLine (Some b008) (Some "IC") None None None None None None;
   head (Some "to Kraków Główny");
   head (Some "####");
   head (Some "KS - Os");
   head (Some "40518");
   head (Some "S4");
   head (Some "from Tychy Lodowisko");
   MkLine (Some b145) (Some "R") None None None None None None;
   MkLine (Some b140) (Some "R") (Some "15:44") (Some "15:51") None (Some "Tychy") None None;
   MkLine (Some b135) (Some "R") None None None None None None;
   MkLine (Some b132) (Some "R") None None None None None None;
   MkLine (Some b129) (Some "R") None None None None None None;
   MkLine (Some b126) (Some "R") None None None None None None;
   MkLine (Some b124) (Some "R") (Some "15:57") (Some "15:57") None (Some "Katowice Podlesie") None None;
   MkLine (Some b122) (Some "R") None None None None None None;
   MkLine (Some b120) (Some "R") None None None None None None;
   MkLine (Some b111) (Some "R") (Some "16:00") (Some "16:00") None (Some "Katowice Piotrowice") None None;
   MkLine (Some b107) (Some "R") (Some "16:02") (Some "16:03") None (Some "Katowice Ligota") None None;
   MkLine (Some b105) (Some "R") None None None None None None;
   MkLine (Some b101) (Some "R") None None None None None None;
   MkLine (Some b102) (Some "R") (Some "16:06") (Some "16:06") None (Some "Katowice Brynów") None None;
   MkLine (Some b039) (Some "R") None None None None None None;
   MkLine (Some b030) (Some "R") (Some "16:09") None None (Some "Katowice") None None;
   MkLine (Some b026) (Some "R") None None (Some "16:12") None (Some "Y") None;
   head (Some "terminates in Katowice");
   head (Some "####");
   head (Some "PR - R");
   head (Some "34319");
   head (Some "No name");
   head (Some "from Kraków Główny");
   MkLine (Some b007) (Some "R") None None None None None None;
   MkLine (Some b004) (Some "R") (Some "16:10") (Some "16:10") None (Some "Katowice Zawodzie") None None;
   MkLine (Some b009) (Some "R") None None None None None None;
   MkLine (Some b014) (Some "R") None None None None None None;
   MkLine (Some b030) (Some "R") (Some "16:14") None None (Some "Katowice") None None;
   head (Some "to Katowice");
   head (Some "####");
   head (Some "PR - R");
   head (Some "343199");
   head (Some "No name");
   head (Some "from Katowice platforms");
   MkLine (Some b030) (Some "R") None None (Some "16:14") (Some "Katowice") (Some "Y") (Some 5);
   MkLine (Some b033) (Some "R") None None (Some "16:22") None (Some "Y") None;
   head (Some "to Katowice STM");
   head (Some "####");
   head (Some "IC - IC");
   head (Some "14006");
   head (Some "SILESIA");
   head (Some "from Warszawa Wschodnia");
   MkLine (Some b001) (Some "IC") None None None None None None;
   MkLine (Some b002) (Some "IC") None None (Some "16:06") None None None;
   MkLine (Some b009) (Some "IC") None None None None None None;
   MkLine (Some b017) (Some "IC") None None None None None None;
   MkLine (Some b021) (Some "IC") (Some "16:10") (Some "16:19") None (Some "Katowice") None None;
   MkLine (Some b039) (Some "IC") None None None None None None;
   MkLine (Some b102) (Some "IC") None None None None None None;
   MkLine (Some b101) (Some "IC") None None None None None None;
   MkLine (Some b105) (Some "IC") None None None None None None;
   MkLine (Some b106) (Some "IC") None None None None None None;
   MkLine (Some b111) (Some "IC") None None None None None None;
   MkLine (Some b120) (Some "IC") None None None None None None;
   MkLine (Some b122) (Some "IC") None None None None None None;
   MkLine (Some b124) (Some "IC") None None None None None None;
   MkLine (Some b126) (Some "IC") None None None None None None;
   MkLine (Some b129) (Some "IC") None None None None None None;
   MkLine (Some b132) (Some "IC") None None None None None None;
   MkLine (Some b135) (Some "IC") None None None None None None;
   MkLine (Some b139) (Some "IC") (Some "16:33") (Some "16:34") None (Some "Tychy") None None;
   MkLine (Some b146) (Some "IC") None None None None None None;
   head (Some "to Praha Hlavni Nadrazi");
   head (Some "####");
   head (Some "KS - OsP");
   head (Some "94611");
   head (Some "S6");
   head (Some "departs from Katowice");
   MkLine (Some b037) (Some "R") None None (Some "15:55") None (Some "Y") None;
   MkLine (Some b025) (Some "R") None (Some "16:12") None (Some "Katowice") None (Some 5);
   MkLine (Some b039) (Some "R") None None None None None None;
   MkLine (Some b102) (Some "R") None None None None None None;
   MkLine (Some b101) (Some "IC") None None None None None None;
   MkLine (Some b105) (Some "R") None None None None None None;
   MkLine (Some b106) (Some "R") (Some "16:17") (Some "16:18") None (Some "Katowice Ligota") None None;
   MkLine (Some b111) (Some "R") (Some "16:21") (Some "16:21") None (Some "Katowice Piotrowice") None None;
   MkLine (Some b120) (Some "R") None None None None None None;
   MkLine (Some b122) (Some "R") None None None None None None;
   MkLine (Some b124) (Some "IC") None None None None None None;
   MkLine (Some b126) (Some "R") None None None None None None;
   MkLine (Some b129) (Some "R") None None None None None None;
   MkLine (Some b132) (Some "R") None None None None None None;
   MkLine (Some b135) (Some "R") None None None None None None;
   MkLine (Some b137) (Some "R") (Some "16:27") (Some "16:28") None (Some "Tychy") None None;
   MkLine (Some b142) (Some "R") None None None None None None;
   head (Some "to Wisła Głębce");
   head (Some "####");
   head (Some "KS - OsP");
   head (Some "40150");
   head (Some "S1 KARLIK");
   head (Some "from Gliwice");
   MkLine (Some b088) (Some "R") None (Some "15:49") None (Some "Gliwice") None None;
   MkLine (Some b087) (Some "R") None None None None None None;
   MkLine (Some b085) (Some "R") None None None None None None;
   MkLine (Some b083) (Some "R") None None None None None None;
   MkLine (Some b081) (Some "R") None None None None None None;
   MkLine (Some b079) (Some "R") None None None None None None;
   MkLine (Some b077) (Some "R") (Some "15:56") (Some "15:56") None (Some "Zabrze") None None;
   MkLine (Some b075) (Some "R") None None None None None None;
   MkLine (Some b073) (Some "R") None None None None None None;
   MkLine (Some b071) (Some "R") (Some "16:01") (Some "16:01") None (Some "Ruda Slaska") None None;
   MkLine (Some b069) (Some "R") None None None None None None;
   MkLine (Some b067) (Some "R") (Some "16:03") (Some "16:03") None (Some "Ruda Chebzie") None None;
   MkLine (Some b065) (Some "R") None None None None None None;
   MkLine (Some b063) (Some "R") (Some "16:06") (Some "16:06") None (Some "Swietochlowice") None None;
   MkLine (Some b055) (Some "R") None None None None None None;
   MkLine (Some b048) (Some "R") (Some "16:10") (Some "16:10") None (Some "Chorzów Batory") None None;
   MkLine (Some b046) (Some "R") None None None None None None;
   MkLine (Some b043) (Some "R") None None None None None None;
   MkLine (Some b041) (Some "R") (Some "16:13") (Some "16:13") None (Some "Katowice Załęże") None None;
   MkLine (Some b036) (Some "R") None None None None None None;
   MkLine (Some b028) (Some "R") (Some "16:16") (Some "16:18") None (Some "Katowice") None None;
   MkLine (Some b014) (Some "R") None None None None None None;
   MkLine (Some b009) (Some "R") None None None None None None;
   MkLine (Some b003) (Some "R") (Some "16:26") (Some "16:26") None (Some "Katowice Zawodzie") None None;
   MkLine (Some b006) (Some "R") None None None None None None;
   head (Some "to Częstochowa");
   head (Some "####");
   head (Some "IC - IC");
   head (Some "41004");
   head (Some "BATHORY");
   head (Some "from Budapest-Nyugati");
   MkLine (Some b146) (Some "IC") None None None None None None;
   MkLine (Some b138) (Some "IC") (Some "16:00") (Some "16:01") None None None None;
   MkLine (Some b135) (Some "IC") None None None None None None;
   MkLine (Some b132) (Some "IC") None None None None None None;
   MkLine (Some b129) (Some "IC") None None None None None None;
   MkLine (Some b126) (Some "IC") None None None None None None;
   MkLine (Some b124) (Some "IC") None None None None None None;
   MkLine (Some b122) (Some "IC") None None None None None None;
   MkLine (Some b120) (Some "IC") None None None None None None;
   MkLine (Some b111) (Some "IC") None None None None None None;
   MkLine (Some b107) (Some "IC") None None None None None None;
   MkLine (Some b105) (Some "IC") None None None None None None;
   MkLine (Some b101) (Some "IC") None None None None None None;
   MkLine (Some b102) (Some "IC") None None None None None None;
   MkLine (Some b039) (Some "IC") None None None None None None;
   MkLine (Some b031) (Some "IC") (Some "16:15") (Some "16:25") None (Some "Katowice") None None;
   MkLine (Some b018) (Some "IC") None None None None None None;
   MkLine (Some b009) (Some "IC") None None None None None None;
   MkLine (Some b003) (Some "IC") None None (Some "16:29") None None None;
   MkLine (Some b006) (Some "IC") None None None None None None;
   head (Some "to Brest-Centralnyi");
   head (Some "####");
   head (Some "KS - OsP");
   head (Some "94113");
   head (Some "S5 SPRINTER");
   head (Some "departs from Katowice");
   MkLine (Some b037) (Some "R") None None (Some "16:07") None (Some "Y") None;
   MkLine (Some b025) (Some "R") None (Some "16:24") None (Some "Katowice") None (Some 5);
   MkLine (Some b039) (Some "R") None None None None None None;
   MkLine (Some b102) (Some "R") None None None None None None;
   MkLine (Some b101) (Some "IC") None None None None None None;
   MkLine (Some b105) (Some "R") None None None None None None;
   MkLine (Some b106) (Some "R") (Some "16:30") (Some "16:30") None (Some "Katowice Ligota") None None;
   MkLine (Some b111) (Some "R") (Some "16:33") (Some "16:33") None (Some "Katowice Piotrowice") None None;
   MkLine (Some b120) (Some "R") None None None None None None;
   MkLine (Some b122) (Some "R") None None None None None None;
   MkLine (Some b124) (Some "IC") None None None None None None;
   MkLine (Some b126) (Some "R") None None None None None None;
   MkLine (Some b129) (Some "R") None None None None None None;
   MkLine (Some b132) (Some "R") None None None None None None;
   MkLine (Some b135) (Some "R") None None None None None None;
   MkLine (Some b137) (Some "R") (Some "16:39") (Some "16:41") None (Some "Tychy") None None;
   MkLine (Some b142) (Some "R") None None None None None None;
   head (Some "to Żywiec");
   head (Some "####");
   head (Some "KS - Os");
   head (Some "40673");
   head (Some "S1");
   head (Some "from Czestochowa");
   MkLine (Some b001) (Some "R") None None None None None None;
   MkLine (Some b002) (Some "R") (Some "16:14") (Some "16:14") None (Some "Katowice Zawodzie") None None;
   MkLine (Some b009) (Some "R") None None None None None None;
   MkLine (Some b017) (Some "R") None None None None None None;
   MkLine (Some b022) (Some "R") (Some "16:18") (Some "16:30") None (Some "Katowice") None None;
   MkLine (Some b035) (Some "R") None None None None None None;
   MkLine (Some b040) (Some "R") (Some "16:33") (Some "16:33") None (Some "Katowice Załęże") None None;
   MkLine (Some b042) (Some "R") None None None None None None;
   MkLine (Some b045) (Some "R") None None None None None None;
   MkLine (Some b047) (Some "R") (Some "16:36") (Some "16:36") None (Some "Chorzów Batory") None None;
   MkLine (Some b054) (Some "R") None None None None None None;
   MkLine (Some b062) (Some "R") (Some "16:39") (Some "16:39") None (Some "Świętochłowice") None None;
   MkLine (Some b064) (Some "R") None None None None None None;
   MkLine (Some b066) (Some "R") (Some "16:43") (Some "16:43") None (Some "Ruda Chebzie") None None;
   MkLine (Some b068) (Some "R") None None None None None None;
   MkLine (Some b070) (Some "R") (Some "16:45") (Some "16:45") None (Some "Ruda Śląska") None None;
   MkLine (Some b072) (Some "R") None None None None None None;
   MkLine (Some b074) (Some "R") None None None None None None;
   MkLine (Some b076) (Some "R") (Some "16:50") (Some "16:50") None (Some "Zabrze") None None;
   MkLine (Some b078) (Some "R") None None None None None None;
   MkLine (Some b080) (Some "R") None None None None None None;
   MkLine (Some b082) (Some "R") None None None None None None;
   MkLine (Some b084) (Some "R") None None None None None None;
   MkLine (Some b086) (Some "R") None None None None None None;
   MkLine (Some b088) (Some "R") (Some "16:57") None None (Some "Gliwice") None None;
   head (Some "to Gliwice");
   head (Some "####");
   head (Some "IC - TLK");
   head (Some "54101");
   head (Some "DOKER");
   head (Some "from Gdynia Główna via Koluszki");
   MkLine (Some b001) (Some "IC") None None None None None None;
   MkLine (Some b002) (Some "IC") None None (Some "16:24") None None None;
   MkLine (Some b009) (Some "IC") None None None None None None;
   MkLine (Some b014) (Some "IC") None None None None None None;
   MkLine (Some b027) (Some "IC") (Some "16:28") None None (Some "Katowice") None None;
   head (Some "to Katowice");
   head (Some "####");
   head (Some "IC - TLK");
   head (Some "541019");
   head (Some "DOKER");
   head (Some "from Katowice platforms");
   MkLine (Some b027) (Some "R") None None (Some "16:28") (Some "Katowice") (Some "Y") (Some 5);
   MkLine (Some b014) (Some "R") None None None None (Some "Y") None;
   MkLine (Some b020) (Some "R") None None (Some "16:43") None (Some "Y") None;
   head (Some "to Katowice KO(IC)");
   head (Some "####");
   head (Some "KS - Os");
   head (Some "40477");
   head (Some "S4");
   head (Some "departs from Katowice");
   MkLine (Some b026) (Some "R") None None None None (Some "Y") None;
   MkLine (Some b021) (Some "R") None (Some "16:29") None (Some "Katowice") None None;
   MkLine (Some b039) (Some "R") None None None None None None;
   MkLine (Some b102) (Some "R") None None None None None None;
   MkLine (Some b101) (Some "R") (Some "16:33") (Some "16:33") None (Some "Katowice Brynów") None None;
   MkLine (Some b105) (Some "R") None None None None None None;
   MkLine (Some b106) (Some "R") (Some "16:35") (Some "16:36") None (Some "Katowice Ligota") None None;
   MkLine (Some b111) (Some "R") (Some "16:39") (Some "16:39") None (Some "Katowice Piotrowice") None None;
   MkLine (Some b120) (Some "R") None None None None None None;
   MkLine (Some b122) (Some "R") None None None None None None;
   MkLine (Some b124) (Some "R") (Some "16:42") (Some "16:42") None (Some "Katowice Podlesie") None None;
   MkLine (Some b126) (Some "R") None None None None None None;
   MkLine (Some b129) (Some "R") None None None None None None;
   MkLine (Some b132) (Some "R") None None None None None None;
   MkLine (Some b135) (Some "R") None None None None None None;
   MkLine (Some b137) (Some "R") (Some "16:47") (Some "16:55") None (Some "Tychy") None None;
   MkLine (Some b144) (Some "R") None None None None None None;
   head (Some "to Tychy Lodowisko");
   head (Some "####");
   head (Some "IC - EIP");
   head (Some "4500");
   head (Some "Pendolino");
   head (Some "from Gliwice");
   MkLine (Some b093) (Some "IC") None (Some "16:07") None (Some "Gliwice") None None;
   MkLine (Some b087) (Some "IC") None None None None None None;
   MkLine (Some b085) (Some "IC") None None None None None None;
   MkLine (Some b083) (Some "IC") None None None None None None;
   MkLine (Some b081) (Some "IC") None None None None None None;
   MkLine (Some b079) (Some "IC") None None None None None None;
   MkLine (Some b077) (Some "IC") (Some "16:16") (Some "16:16") None (Some "Zabrze ") None None;
   MkLine (Some b075) (Some "IC") None None None None None None;
   MkLine (Some b073) (Some "IC") None None None None None None;
   MkLine (Some b071) (Some "IC") None None None None None None;
   MkLine (Some b069) (Some "IC") None None None None None None;
   MkLine (Some b067) (Some "IC") None None None None None None;
   MkLine (Some b065) (Some "IC") None None None None None None;
   MkLine (Some b063) (Some "IC") None None None None None None;
   MkLine (Some b055) (Some "IC") None None None None None None;
   MkLine (Some b048) (Some "IC") None None None None None None;
   MkLine (Some b046) (Some "IC") None None None None None None;
   MkLine (Some b043) (Some "IC") None None None None None None;
   MkLine (Some b041) (Some "IC") None None None None None None;
   MkLine (Some b036) (Some "IC") None None None None None None;
   MkLine (Some b027) (Some "IC") (Some "16:31") (Some "16:35") None (Some "Katowice") None None;
   MkLine (Some b014) (Some "IC") None None None None None None;
   MkLine (Some b009) (Some "IC") None None None None None None;
   MkLine (Some b003) (Some "IC") None None (Some "16:39") None None None;
   MkLine (Some b006) (Some "IC") None None None None None None;
   head (Some "to Gdynia Główna via Warszawa");
   head (Some "####");
   head (Some "KS - Os");
   head (Some "94317");
   head (Some "S8");
   head (Some "from Oświęcim");
   MkLine (Some b007) (Some "R") None None None None None None;
   MkLine (Some b004) (Some "R") (Some "16:39") (Some "16:39") None (Some "Katowice Zawodzie") None None;
   MkLine (Some b009) (Some "R") None None None None None None;
   MkLine (Some b013) (Some "R") None None None None None None;
   MkLine (Some b022) (Some "R") (Some "16:44") (Some "16:50") None (Some "Katowice") None None;
   MkLine (Some b035) (Some "R") None None None None None None;
   MkLine (Some b040) (Some "R") (Some "16:53") (Some "16:53") None (Some "Katowice Załęże") None None;
   MkLine (Some b042) (Some "R") None None None None None None;
   MkLine (Some b045) (Some "R") None None None None None None;
   MkLine (Some b049) (Some "R") (Some "16:57") (Some "16:58") None (Some "Chorzów Batory") None None;
   MkLine (Some b056) (Some "R") None None None None None None;
   MkLine (Some b058) (Some "R") (Some "17:03") (Some "17:03") None (Some "Chorzów Miasto") None None;
   MkLine (Some b060) (Some "R") None None None None None None;
   head (Some "to Lubliniec");
   head (Some "####");
   head (Some "KS - Os");
   head (Some "44717");
   head (Some "S7");
   head (Some "departs from Katowice");
   MkLine (Some b032) (Some "R") None None (Some "16:25") None (Some "Y") None;
   MkLine (Some b025) (Some "R") None (Some "16:36") None (Some "Katowice") None None;
   MkLine (Some b039) (Some "R") None None None None None None;
   MkLine (Some b102) (Some "R") None None None None None None;
   MkLine (Some b101) (Some "R") (Some "16:39") (Some "16:39") None (Some "Katowice Brynów") None None;
   MkLine (Some b105) (Some "R") None None None None None None;
   MkLine (Some b107) (Some "R") (Some "16:43") (Some "16:43") None (Some "Katowice Ligota") None None;
   MkLine (Some b109) (Some "R") (Some "16:47") (Some "16:47") None (Some "Katowice Piotrowice") None None;
   MkLine (Some b112) (Some "R") None None None None None None;
   MkLine (Some b113) (Some "R") (Some "16:51") (Some "16:51") None (Some "Miko��w Jamna") None None;
   MkLine (Some b115) (Some "R") None None None None None None;
   MkLine (Some b116) (Some "R") (Some "16:54") (Some "16:55") None (Some "Miko��w") None None;
   MkLine (Some b118) (Some "R") None None None None None None;
   head (Some "to Racibórz");
   head (Some "####");
   head (Some "KS - Os");
   head (Some "64350");
   head (Some "S8");
   head (Some "from Kluczbork");
   MkLine (Some b061) (Some "R") None None None None None None;
   MkLine (Some b059) (Some "R") (Some "16:25") (Some "16:25") None (Some "Chorzów Miasto") None None;
   MkLine (Some b057) (Some "R") None None None None None None;
   MkLine (Some b050) (Some "R") (Some "16:30") (Some "16:31") None (Some "Chorzów Batory") None None;
   MkLine (Some b046) (Some "R") None None None None None None;
   MkLine (Some b043) (Some "R") None None None None None None;
   MkLine (Some b041) (Some "R") (Some "16:34") (Some "16:34") None (Some "Katowice Załęże") None None;
   MkLine (Some b036) (Some "R") None None None None None None;
   MkLine (Some b030) (Some "R") (Some "16:38") (Some "16:40") None (Some "Katowice") None None;
   MkLine (Some b018) (Some "R") None None None None None None;
   MkLine (Some b009) (Some "R") None None None None None None;
   MkLine (Some b005) (Some "R") (Some "16:44") (Some "16:44") None (Some "Katowice Zawodzie") None None;
   MkLine (Some b008) (Some "R") None None None None None None;
   head (Some "to Oświęcim");
   head (Some "####");
   head (Some "KS - Os");
   head (Some "94717");
   head (Some "S5");
   head (Some "departs from Katowice");
   MkLine (Some b026) (Some "R") None None (Some "16:30") None (Some "Y") None;
   MkLine (Some b025) (Some "R") None (Some "16:47") None (Some "Katowice") None None;
   MkLine (Some b039) (Some "R") None None None None None None;
   MkLine (Some b102) (Some "R") None None None None None None;
   MkLine (Some b101) (Some "R") (Some "16:51") (Some "16:51") None (Some "Katowice Brynów") None None;
   MkLine (Some b105) (Some "R") None None None None None None;
   MkLine (Some b106) (Some "R") (Some "16:54") (Some "16:54") None (Some "Katowice Ligota") None None;
   MkLine (Some b111) (Some "R") (Some "16:57") (Some "16:57") None (Some "Katowice Piotrowice") None None;
   MkLine (Some b120) (Some "R") None None None None None None;
   MkLine (Some b122) (Some "R") None None None None None None;
   MkLine (Some b124) (Some "R") (Some "17:01") (Some "17:01") None (Some "Katowice Podlesie") None None;
   MkLine (Some b126) (Some "R") None None None None None None;
   MkLine (Some b129) (Some "R") None None None None None None;
   MkLine (Some b132) (Some "R") None None None None None None;
   MkLine (Some b135) (Some "R") None None None None None None;
   MkLine (Some b137) (Some "R") (Some "17:05") (Some "17:06") None (Some "Tychy") None None;
   MkLine (Some b142) (Some "R") None None None None None None;
   head (Some "to Żywiec");
   head (Some "####");
   head (Some "KS - Os");
   head (Some "44862");
   head (Some "S71");
   head (Some "from Chałupki");
   MkLine (Some b118) (Some "R") None None (Some "16:21") None None None;
   MkLine (Some b117) (Some "R") (Some "16:25") (Some "16:32") None (Some "Miko��w") None None;
   MkLine (Some b115) (Some "R") None None None None None None;
   MkLine (Some b114) (Some "R") (Some "16:35") (Some "16:35") None (Some "Miko��w Jamna") None None;
   MkLine (Some b112) (Some "R") None None None None None None;
   MkLine (Some b109) (Some "R") (Some "16:39") (Some "16:39") None None None None;
   MkLine (Some b107) (Some "R") (Some "16:42") (Some "16:42") None (Some "Katowice Ligota") None None;
   MkLine (Some b105) (Some "R") None None None None None None;
   MkLine (Some b101) (Some "R") None None None None None None;
   MkLine (Some b102) (Some "R") (Some "16:45") (Some "16:45") None (Some "Katowice Brynów") None None;
   MkLine (Some b039) (Some "R") None None None None None None;
   MkLine (Some b030) (Some "R") (Some "16:48") None None (Some "Katowice") None None;
   MkLine (Some b033) (Some "R") None None None None (Some "Y") None;
   head (Some "terminates in Katowice");
   head (Some "####");
   head (Some "KS - Os");
   head (Some "40628");
   head (Some "S1");
   head (Some "from Gliwice");
   MkLine (Some b088) (Some "R") None (Some "16:16") None (Some "Gliwice") None None;
   MkLine (Some b087) (Some "R") None None None None None None;
   MkLine (Some b085) (Some "R") None None None None None None;
   MkLine (Some b083) (Some "R") None None None None None None;
   MkLine (Some b081) (Some "R") None None None None None None;
   MkLine (Some b079) (Some "R") None None None None None None;
   MkLine (Some b077) (Some "R") (Some "16:23") (Some "16:23") None (Some "Zabrze") None None;
   MkLine (Some b075) (Some "R") None None None None None None;
   MkLine (Some b073) (Some "R") None None None None None None;
   MkLine (Some b071) (Some "R") (Some "16:27") (Some "16:27") None (Some "Ruda Slaska") None None;
   MkLine (Some b069) (Some "R") None None None None None None;
   MkLine (Some b067) (Some "R") (Some "16:30") (Some "16:30") None (Some "Ruda Chebzie") None None;
   MkLine (Some b065) (Some "R") None None None None None None;
   MkLine (Some b063) (Some "R") (Some "16:33") (Some "16:33") None (Some "Swietochlowice") None None;
   MkLine (Some b055) (Some "R") None None None None None None;
   MkLine (Some b048) (Some "R") (Some "16:36") (Some "16:36") None (Some "Chorzów Batory") None None;
   MkLine (Some b046) (Some "R") None None None None None None;
   MkLine (Some b043) (Some "R") None None None None None None;
   MkLine (Some b041) (Some "R") (Some "16:40") (Some "16:40") None (Some "Katowice Załęże") None None;
   MkLine (Some b036) (Some "R") None None None None None None;
   MkLine (Some b027) (Some "R") (Some "16:44") (Some "16:51") None (Some "Katowice") None None;
   MkLine (Some b014) (Some "R") None None None None None None;
   MkLine (Some b009) (Some "R") None None None None None None;
   MkLine (Some b003) (Some "R") (Some "16:54") (Some "16:54") None (Some "Katowice Zawodzie") None None;
   MkLine (Some b006) (Some "R") None None None None None None;
   head (Some "to Częstochowa");
   head (Some "####");
   head (Some "KS - OsP");
   head (Some "40675");
   head (Some "S1");
   head (Some "from Czestochowa");
   MkLine (Some b001) (Some "R") None None None None None None;
   MkLine (Some b002) (Some "R") (Some "16:44") (Some "16:44") None (Some "Katowice Zawodzie") None None;
   MkLine (Some b009) (Some "R") None None None None None None;
   MkLine (Some b017) (Some "R") None None None None None None;
   MkLine (Some b021) (Some "R") (Some "16:48") (Some "16:55") None (Some "Katowice") None None;
   MkLine (Some b035) (Some "R") None None None None None None;
   MkLine (Some b040) (Some "R") (Some "16:58") (Some "16:58") None (Some "Katowice Załęże") None None;
   MkLine (Some b042) (Some "R") None None None None None None;
   MkLine (Some b045) (Some "R") None None None None None None;
   MkLine (Some b047) (Some "R") (Some "17:02") (Some "17:02") None (Some "Chorz�w Batory") None None;
   MkLine (Some b054) (Some "R") None None None None None None;
   MkLine (Some b062) (Some "R") (Some "17:05") (Some "17:05") None (Some "�wi�toch�owice") None None;
   MkLine (Some b064) (Some "R") None None None None None None;
   MkLine (Some b066) (Some "R") (Some "17:08") (Some "17:08") None (Some "Ruda Chebzie") None None;
   MkLine (Some b068) (Some "R") None None None None None None;
   MkLine (Some b070) (Some "R") (Some "17:10") (Some "17:10") None (Some "Ruda �l�ska") None None;
   MkLine (Some b072) (Some "R") None None None None None None;
   MkLine (Some b074) (Some "R") None None None None None None;
   MkLine (Some b076) (Some "R") (Some "17:15") (Some "17:15") None (Some "Zabrze") None None;
   MkLine (Some b078) (Some "R") None None None None None None;
   MkLine (Some b080) (Some "R") None None None None None None;
   MkLine (Some b082) (Some "R") None None None None None None;
   MkLine (Some b084) (Some "R") None None None None None None;
   MkLine (Some b086) (Some "R") None None None None None None;
   MkLine (Some b088) (Some "R") (Some "17:22") None None (Some "Gliwice") None None;
   head (Some "to Gliwice");
   head (Some "####");
   head (Some "IC - IC");
   head (Some "73000");
   head (Some "WAWEL");
   head (Some "from Berlin Hauptbahnhof");
   MkLine (Some b098) (Some "IC") None None (Some "16:27") None None None;
   MkLine (Some b095) (Some "IC") (Some "16:29") (Some "16:31") None (Some "Gliwice") None None;
   MkLine (Some b087) (Some "IC") None None None None None None;
   MkLine (Some b085) (Some "IC") None None None None None None;
   MkLine (Some b083) (Some "IC") None None None None None None;
   MkLine (Some b081) (Some "IC") None None None None None None;
   MkLine (Some b079) (Some "IC") None None None None None None;
   MkLine (Some b077) (Some "IC") (Some "16:38") (Some "16:38") None (Some "Zabrze") None None;
   MkLine (Some b075) (Some "IC") None None None None None None;
   MkLine (Some b073) (Some "IC") None None None None None None;
   MkLine (Some b071) (Some "IC") None None None None None None;
   MkLine (Some b069) (Some "IC") None None None None None None;
   MkLine (Some b067) (Some "IC") None None None None None None;
   MkLine (Some b065) (Some "IC") None None None None None None;
   MkLine (Some b063) (Some "IC") None None None None None None;
   MkLine (Some b055) (Some "IC") None None None None None None;
   MkLine (Some b048) (Some "IC") None None None None None None;
   MkLine (Some b046) (Some "IC") None None None None None None;
   MkLine (Some b043) (Some "IC") None None None None None None;
   MkLine (Some b041) (Some "IC") None None None None None None;
   MkLine (Some b036) (Some "IC") None None None None None None;
   MkLine (Some b028) (Some "IC") (Some "16:53") (Some "16:58") None (Some "Katowice") None None;
   MkLine (Some b014) (Some "IC") None None None None None None;
   MkLine (Some b009) (Some "IC") None None None None None None;
   MkLine (Some b005) (Some "IC") None None (Some "17:02") None None None;
   MkLine (Some b008) (Some "IC") None None None None None None;
   head (Some "to Kraków Główny");
   head (Some "####");
   head (Some "IC - IC");
   head (Some "4120");
   head (Some "DASZYŃSKI");
   head (Some "from Bielsko-Biała Główna");
   MkLine (Some b143) (Some "IC") None None None None None None;
   MkLine (Some b140) (Some "IC") (Some "16:41") (Some "16:41") None (Some "Tychy") None None;
   MkLine (Some b135) (Some "IC") None None None None None None;
   MkLine (Some b132) (Some "IC") None None None None None None;
   MkLine (Some b129) (Some "IC") None None None None None None;
   MkLine (Some b126) (Some "IC") None None None None None None;
   MkLine (Some b124) (Some "IC") None None None None None None;
   MkLine (Some b122) (Some "IC") None None None None None None;
   MkLine (Some b120) (Some "IC") None None None None None None;
   MkLine (Some b111) (Some "IC") None None None None None None;
   MkLine (Some b107) (Some "IC") None None None None None None;
   MkLine (Some b105) (Some "IC") None None None None None None;
   MkLine (Some b101) (Some "IC") None None None None None None;
   MkLine (Some b102) (Some "IC") None None None None None None;
   MkLine (Some b039) (Some "IC") None None None None None None;
   MkLine (Some b031) (Some "IC") (Some "16:54") (Some "17:00") None (Some "Katowice") None None;
   MkLine (Some b014) (Some "IC") None None None None None None;
   MkLine (Some b009) (Some "IC") None None None None None None;
   MkLine (Some b003) (Some "IC") None None (Some "17:04") None None None;
   MkLine (Some b006) (Some "IC") None None None None None None;
   head (Some "to Warszawa Wschodnia")].

(** data/trains_schedules_1track_Gt.csv *)
Definition schedule_1track_gt : list line :=
  [head (Some "####");
   head (Some "KS - Os");
   head (Some "94766");
   head (Some "S5");
   head (Some "from Zwardoń");
   MkLine (Some b143) (Some "R") None None None None None None;
   MkLine (Some b140) (Some "R") (Some "15:46") (Some "15:47") None None None None;
   MkLine (Some b135) (Some "R") None None None None None None;
   MkLine (Some b132) (Some "R") None None None None None None;
   MkLine (Some b129) (Some "R") None None None None None None;
   MkLine (Some b126) (Some "R") None None None None None None;
   MkLine (Some b124) (Some "R") (Some "15:51") (Some "15:51") None (Some "Katowice Podlesie") None None;
   MkLine (Some b122) (Some "R") None None None None None None;
   MkLine (Some b120) (Some "R") None None None None None None;
   MkLine (Some b111) (Some "R") (Some "15:54") (Some "15:54") None (Some "Katowice Piotrowice") None None;
   MkLine (Some b107) (Some "R") (Some "15:57") (Some "15:57") None (Some "Katowice Ligota") None None;
   MkLine (Some b105) (Some "R") None None None None None None;
   MkLine (Some b101) (Some "R") (Some "16:00") (Some "16:00") None (Some "Katowice Brynów") None None;
   MkLine (Some b102) (Some "R") None None None None None None;
   MkLine (Some b039) (Some "R") None None None None None None;
   MkLine (Some b030) (Some "R") (Some "16:04") None None (Some "Katowice") None None;
   MkLine (Some b032) (Some "R") None None (Some "16:07") None (Some "Y") None;
   head (Some "terminates in Katowice");
   head (Some "####");
   head (Some "IC - IC");
   head (Some "26103");
   head (Some "BOLKO");
   head (Some "from Lublin Główny");
   MkLine (Some b001) (Some "IC") None None None None None None;
   MkLine (Some b002) (Some "IC") None None (Some "16:00") None None None;
   MkLine (Some b009) (Some "IC") None None None None None None;
   MkLine (Some b017) (Some "IC") None None None None None None;
   MkLine (Some b022) (Some "IC") (Some "16:04") (Some "16:11") None (Some "Katowice") None None;
   MkLine (Some b035) (Some "IC") None None None None None None;
   MkLine (Some b040) (Some "IC") None None None None None None;
   MkLine (Some b044) (Some "IC") None None None None None None;
   MkLine (Some b051) (Some "IC") None None None None None None;
   MkLine (Some b052) (Some "IC") None None None None None None;
   MkLine (Some b053) (Some "R") (Some "16:17") (Some "16:17") None (Some "Chorz�w Batory") None None;
   MkLine (Some b054) (Some "IC") None None None None None None;
   MkLine (Some b062) (Some "IC") None None None None None None;
   MkLine (Some b064) (Some "IC") None None None None None None;
   MkLine (Some b066) (Some "IC") None None None None None None;
   MkLine (Some b068) (Some "IC") None None None None None None;
   MkLine (Some b070) (Some "IC") None None None None None None;
   MkLine (Some b072) (Some "IC") None None None None None None;
   MkLine (Some b074) (Some "IC") None None None None None None;
   MkLine (Some b076) (Some "IC") (Some "16:27") (Some "16:27") None (Some "Zabrze") None None;
   MkLine (Some b078) (Some "IC") None None None None None None;
   MkLine (Some b080) (Some "IC") None None None None None None;
   MkLine (Some b082) (Some "IC") None None None None None None;
   MkLine (Some b084) (Some "IC") None None None None None None;
   MkLine (Some b086) (Some "IC") None None None None None None;
   MkLine (Some b091) (Some "IC") (Some "16:34") (Some "16:36") None (Some "Gliwice") None None;
   MkLine (Some b097) (Some "IC") None None None None None None;
   head (Some "to Wrocław Główny");
   head (Some "####");
   head (Some "IC - IC");
   head (Some "421009");
   head (Some "SZTYGAR");
   head (Some "from Katowice IC");
   MkLine (Some b020) (Some "R") None None (Some "15:50") None (Some "Y") None;
   MkLine (Some b014) (Some "R") None None None None (Some "Y") None;
   MkLine (Some b027) (Some "R") None None (Some "15:55") (Some "Katowice") (Some "Y") None;
   head (Some "to Katowice platforms");
   head (Some "####");
   head (Some "IC - IC");
   head (Some "42100");
   head (Some "SZTYGAR");
   head (Some "from Katowice");
   MkLine (Some b027) (Some "IC") None (Some "16:08") None (Some "Katowice") None (Some 5);
   MkLine (Some b014) (Some "IC") None None None None None None;
   MkLine (Some b009) (Some "IC") None None None None None None;
   MkLine (Some b003) (Some "IC") None None (Some "16:12") None None None;
   MkLine (Some b006) (Some "IC") None None None None None None;
   head (Some "to Lublin Główny");
   head (Some "####");
   head (Some "IC - IC");
   head (Some "5312");
   head (Some "PIAST");
   head (Some "from Gdynia Główna via Wrocław");
   MkLine (Some b098) (Some "IC") None None None None None None;
   MkLine (Some b094) (Some "IC") (Some "15:34") (Some "15:42") None (Some "Gliwice") None None;
   MkLine (Some b087) (Some "IC") None None None None None None;
   MkLine (Some b085) (Some "IC") None None None None None None;
   MkLine (Some b083) (Some "IC") None None None None None None;
   MkLine (Some b081) (Some "IC") None None None None None None;
   MkLine (Some b079) (Some "IC") None None None None None None;
   MkLine (Some b077) (Some "IC") (Some "15:50") (Some "15:50") None (Some "Zabrze") None None;
   MkLine (Some b075) (Some "IC") None None None None None None;
   MkLine (Some b073) (Some "IC") None None None None None None;
   MkLine (Some b071) (Some "IC") None None None None None None;
   MkLine (Some b069) (Some "IC") None None None None None None;
   MkLine (Some b067) (Some "IC") None None None None None None;
   MkLine (Some b065) (Some "IC") None None None None None None;
   MkLine (Some b063) (Some "IC") None None None None None None;
   MkLine (Some b055) (Some "IC") None None None None None None;
   MkLine (Some b053) (Some "IC") None None None None None None;
   MkLine (Some b052) (Some "IC") None None None None None None;
   MkLine (Some b051) (Some "IC") None None None None None None;
   MkLine (Some b044) (Some "IC") None None None None None None;
   MkLine (Some b041) (Some "IC") None None None None None None;
   MkLine (Some b036) (Some "IC") None None None None None None;
   MkLine (Some b028) (Some "IC") (Some "16:06") (Some "16:09") None (Some "Katowice") None None;
   MkLine (Some b014) (Some "IC") None None None None None None;
   MkLine (Some b009) (Some "IC") None None None None None None;
   MkLine (Some b005) (Some "IC") None None (Some "16:13") None None None;
   MkLine (Some b008) (Some "IC") None None None None None None;
   head (Some "to Kraków Główny");
   head (Some "####");
   head (Some "KS - Os");
   head (Some "40518");
   head (Some "S4");
   head (Some "from Tychy Lodowisko");
   MkLine (Some b145) (Some "R") None None None None None None;
   MkLine (Some b140) (Some "R") (Some "15:44") (Some "15:51") None (Some "Tychy") None None;
   MkLine (Some b135) (Some "R") None None None None None None;
   MkLine (Some b132) (Some "R") None None None None None None;
   MkLine (Some b129) (Some "R") None None None None None None;
   MkLine (Some b126) (Some "R") None None None None None None;
   MkLine (Some b124) (Some "R") (Some "15:57") (Some "15:57") None (Some "Katowice Podlesie") None None;
   MkLine (Some b122) (Some "R") None None None None None None;
   MkLine (Some b120) (Some "R") None None None None None None;
   MkLine (Some b111) (Some "R") (Some "16:00") (Some "16:00") None (Some "Katowice Piotrowice") None None;
   MkLine (Some b107) (Some "R") (Some "16:02") (Some "16:03") None (Some "Katowice Ligota") None None;
   MkLine (Some b105) (Some "R") None None None None None None;
   MkLine (Some b101) (Some "R") None None None None None None;
   MkLine (Some b102) (Some "R") (Some "16:06") (Some "16:06") None (Some "Katowice Brynów") None None;
   MkLine (Some b039) (Some "R") None None None None None None;
   MkLine (Some b030) (Some "R") (Some "16:09") None None (Some "Katowice") None None;
   MkLine (Some b026) (Some "R") None None (Some "16:12") None (Some "Y") None;
   head (Some "terminates in Katowice");
   head (Some "####");
   head (Some "PR - R");
   head (Some "34319");
   head (Some "No name");
   head (Some "from Kraków Główny");
   MkLine (Some b007) (Some "R") None None None None None None;
   MkLine (Some b004) (Some "R") (Some "16:10") (Some "16:10") None (Some "Katowice Zawodzie") None None;
   MkLine (Some b009) (Some "R") None None None None None None;
   MkLine (Some b014) (Some "R") None None None None None None;
   MkLine (Some b030) (Some "R") (Some "16:14") None None (Some "Katowice") None None;
   head (Some "to Katowice");
   head (Some "####");
   head (Some "PR - R");
   head (Some "343199");
   head (Some "No name");
   head (Some "from Katowice platforms");
   MkLine (Some b030) (Some "R") None None (Some "16:14") (Some "Katowice") (Some "Y") (Some 5);
   MkLine (Some b033) (Some "R") None None (Some "16:22") None (Some "Y") None;
   head (Some "to Katowice STM");
   head (Some "####");
   head (Some "IC - IC");
   head (Some "14006");
   head (Some "SILESIA");
   head (Some "from Warszawa Wschodnia");
   MkLine (Some b001) (Some "IC") None None None None None None;
   MkLine (Some b002) (Some "IC") None None (Some "16:06") None None None;
   MkLine (Some b009) (Some "IC") None None None None None None;
   MkLine (Some b017) (Some "IC") None None None None None None;
   MkLine (Some b021) (Some "IC") (Some "16:10") (Some "16:19") None (Some "Katowice") None None;
   MkLine (Some b039) (Some "IC") None None None None None None;
   MkLine (Some b102) (Some "IC") None None None None None None;
   MkLine (Some b101) (Some "IC") None None None None None None;
   MkLine (Some b105) (Some "IC") None None None None None None;
   MkLine (Some b106) (Some "IC") None None None None None None;
   MkLine (Some b111) (Some "IC") None None None None None None;
   MkLine (Some b120) (Some "IC") None None None None None None;
   MkLine (Some b122) (Some "IC") None None None None None None;
   MkLine (Some b124) (Some "IC") None None None None None None;
   MkLine (Some b126) (Some "IC") None None None None None None;
   MkLine (Some b129) (Some "IC") None None None None None None;
   MkLine (Some b132) (Some "IC") None None None None None None;
   MkLine (Some b135) (Some "IC") None None None None None None;
   MkLine (Some b139) (Some "IC") (Some "16:33") (Some "16:34") None (Some "Tychy") None None;
   MkLine (Some b146) (Some "IC") None None None None None None;
   head (Some "to Praha Hlavni Nadrazi");
   head (Some "####");
   head (Some "KS - OsP");
   head (Some "94611");
   head (Some "S6");
   head (Some "departs from Katowice");
   MkLine (Some b037) (Some "R") None None (Some "15:55") None (Some "Y") None;
   MkLine (Some b025) (Some "R") None (Some "16:12") None (Some "Katowice") None (Some 5);
   MkLine (Some b039) (Some "R") None None None None None None;
   MkLine (Some b102) (Some "R") None None None None None None;
   MkLine (Some b101) (Some "IC") None None None None None None;
   MkLine (Some b105) (Some "R") None None None None None None;
   MkLine (Some b106) (Some "R") (Some "16:17") (Some "16:18") None (Some "Katowice Ligota") None None;
   MkLine (Some b111) (Some "R") (Some "16:21") (Some "16:21") None (Some "Katowice Piotrowice") None None;
   MkLine (Some b120) (Some "R") None None None None None None;
   MkLine (Some b122) (Some "R") None None None None None None;
   MkLine (Some b124) (Some "IC") None None None None None None;
   MkLine (Some b126) (Some "R") None None None None None None;
   MkLine (Some b129) (Some "R") None None None None None None;
   MkLine (Some b132) (Some "R") None None None None None None;
   MkLine (Some b135) (Some "R") None None None None None None;
   MkLine (Some b137) (Some "R") (Some "16:27") (Some "16:28") None (Some "Tychy") None None;
   MkLine (Some b142) (Some "R") None None None None None None;
   head (Some "to Wisła Głębce");
   head (Some "####");
   head (Some "KS - OsP");
   head (Some "40150");
   head (Some "S1 KARLIK");
   head (Some "from Gliwice");
   MkLine (Some b088) (Some "R") None (Some "15:49") None (Some "Gliwice") None None;
   MkLine (Some b087) (Some "R") None None None None None None;
   MkLine (Some b085) (Some "R") None None None None None None;
   MkLine (Some b083) (Some "R") None None None None None None;
   MkLine (Some b081) (Some "R") None None None None None None;
   MkLine (Some b079) (Some "R") None None None None None None;
   MkLine (Some b077) (Some "R") (Some "15:56") (Some "15:56") None (Some "Zabrze") None None;
   MkLine (Some b075) (Some "R") None None None None None None;
   MkLine (Some b073) (Some "R") None None None None None None;
   MkLine (Some b071) (Some "R") (Some "16:01") (Some "16:01") None (Some "Ruda Slaska") None None;
   MkLine (Some b069) (Some "R") None None None None None None;
   MkLine (Some b067) (Some "R") (Some "16:03") (Some "16:03") None (Some "Ruda Chebzie") None None;
   MkLine (Some b065) (Some "R") None None None None None None;
   MkLine (Some b063) (Some "R") (Some "16:06") (Some "16:06") None (Some "Swietochlowice") None None;
   MkLine (Some b055) (Some "R") None None None None None None;
   MkLine (Some b053) (Some "R") (Some "16:10") (Some "16:10") None (Some "Chorzów Batory") None None;
   MkLine (Some b052) (Some "R") None None None None None None;
   MkLine (Some b051) (Some "R") None None None None None None;
   MkLine (Some b044) (Some "R") None None None None None None;
   MkLine (Some b041) (Some "R") (Some "16:13") (Some "16:13") None (Some "Katowice Załęże") None None;
   MkLine (Some b036) (Some "R") None None None None None None;
   MkLine (Some b028) (Some "R") (Some "16:16") (Some "16:18") None (Some "Katowice") None None;
   MkLine (Some b014) (Some "R") None None None None None None;
   MkLine (Some b009) (Some "R") None None None None None None;
   MkLine (Some b003) (Some "R") (Some "16:26") (Some "16:26") None (Some "Katowice Zawodzie") None None;
   MkLine (Some b006) (Some "R") None None None None None None;
   head (Some "to Częstochowa");
   head (Some "####");
   head (Some "IC - IC");
   head (Some "41004");
   head (Some "BATHORY");
   head (Some "from Budapest-Nyugati");
   MkLine (Some b146) (Some "IC") None None None None None None;
   MkLine (Some b138) (Some "IC") (Some "16:00") (Some "16:01") None None None None;
   MkLine (Some b135) (Some "IC") None None None None None None;
   MkLine (Some b132) (Some "IC") None None None None None None;
   MkLine (Some b129) (Some "IC") None None None None None None;
   MkLine (Some b126) (Some "IC") None None None None None None;
   MkLine (Some b124) (Some "IC") None None None None None None;
   MkLine (Some b122) (Some "IC") None None None None None None;
   MkLine (Some b120) (Some "IC") None None None None None None;
   MkLine (Some b111) (Some "IC") None None None None None None;
   MkLine (Some b107) (Some "IC") None None None None None None;
   MkLine (Some b105) (Some "IC") None None None None None None;
   MkLine (Some b101) (Some "IC") None None None None None None;
   MkLine (Some b102) (Some "IC") None None None None None None;
   MkLine (Some b039) (Some "IC") None None None None None None;
   MkLine (Some b031) (Some "IC") (Some "16:15") (Some "16:25") None (Some "Katowice") None None;
   MkLine (Some b018) (Some "IC") None None None None None None;
   MkLine (Some b009) (Some "IC") None None None None None None;
   MkLine (Some b003) (Some "IC") None None (Some "16:29") None None None;
   MkLine (Some b006) (Some "IC") None None None None None None;
   head (Some "to Brest-Centralnyi");
   head (Some "####");
   head (Some "KS - OsP");
   head (Some "94113");
   head (Some "S5 SPRINTER");
   head (Some "departs from Katowice");
   MkLine (Some b037) (Some "R") None None (Some "16:07") None (Some "Y") None;
   MkLine (Some b025) (Some "R") None (Some "16:24") None (Some "Katowice") None (Some 5);
   MkLine (Some b039) (Some "R") None None None None None None;
   MkLine (Some b102) (Some "R") None None None None None None;
   MkLine (Some b101) (Some "IC") None None None None None None;
   MkLine (Some b105) (Some "R") None None None None None None;
   MkLine (Some b106) (Some "R") (Some "16:30") (Some "16:30") None (Some "Katowice Ligota") None None;
   MkLine (Some b111) (Some "R") (Some "16:33") (Some "16:33") None (Some "Katowice Piotrowice") None None;
   MkLine (Some b120) (Some "R") None None None None None None;
   MkLine (Some b122) (Some "R") None None None None None None;
   MkLine (Some b124) (Some "IC") None None None None None None;
   MkLine (Some b126) (Some "R") None None None None None None;
   MkLine (Some b129) (Some "R") None None None None None None;
   MkLine (Some b132) (Some "R") None None None None None None;
   MkLine (Some b135) (Some "R") None None None None None None;
   MkLine (Some b137) (Some "R") (Some "16:39") (Some "16:41") None (Some "Tychy") None None;
   MkLine (Some b142) (Some "R") None None None None None None;
   head (Some "to Żywiec");
   head (Some "####");
   head (Some "KS - Os");
   head (Some "40673");
   head (Some "S1");
   head (Some "from Czestochowa");
   MkLine (Some b001) (Some "R") None None None None None None;
   MkLine (Some b002) (Some "R") (Some "16:14") (Some "16:14") None (Some "Katowice Zawodzie") None None;
   MkLine (Some b009) (Some "R") None None None None None None;
   MkLine (Some b017) (Some "R") None None None None None None;
   MkLine (Some b022) (Some "R") (Some "16:18") (Some "16:30") None (Some "Katowice") None None;
   MkLine (Some b035) (Some "R") None None None None None None;
   MkLine (Some b040) (Some "R") (Some "16:33") (Some "16:33") None (Some "Katowice Załęże") None None;
   MkLine (Some b044) (Some "R") None None None None None None;
   MkLine (Some b051) (Some "R") None None None None None None;
   MkLine (Some b052) (Some "R") None None None None None None;
   MkLine (Some b053) (Some "R") (Some "16:36") (Some "16:36") None (Some "Chorzów Batory") None None;
   MkLine (Some b054) (Some "R") None None None None None None;
   MkLine (Some b062) (Some "R") (Some "16:39") (Some "16:39") None (Some "Świętochłowice") None None;
   MkLine (Some b064) (Some "R") None None None None None None;
   MkLine (Some b066) (Some "R") (Some "16:43") (Some "16:43") None (Some "Ruda Chebzie") None None;
   MkLine (Some b068) (Some "R") None None None None None None;
   MkLine (Some b070) (Some "R") (Some "16:45") (Some "16:45") None (Some "Ruda Śląska") None None;
   MkLine (Some b072) (Some "R") None None None None None None;
   MkLine (Some b074) (Some "R") None None None None None None;
   MkLine (Some b076) (Some "R") (Some "16:50") (Some "16:50") None (Some "Zabrze") None None;
   MkLine (Some b078) (Some "R") None None None None None None;
   MkLine (Some b080) (Some "R") None None None None None None;
   MkLine (Some b082) (Some "R") None None None None None None;
   MkLine (Some b084) (Some "R") None None None None None None;
   MkLine (Some b086) (Some "R") None None None None None None;
   MkLine (Some b088) (Some "R") (Some "16:57") None None (Some "Gliwice") None None;
   head (Some "to Gliwice");
   head (Some "####");
   head (Some "IC - TLK");
   head (Some "54101");
   head (Some "DOKER");
   head (Some "from Gdynia Główna via Koluszki");
   MkLine (Some b001) (Some "IC") None None None None None None;
   MkLine (Some b002) (Some "IC") None None (Some "16:24") None None None;
   MkLine (Some b009) (Some "IC") None None None None None None;
   MkLine (Some b014) (Some "IC") None None None None None None;
   MkLine (Some b027) (Some "IC") (Some "16:28") None None (Some "Katowice") None None;
   head (Some "to Katowice");
   head (Some "####");
   head (Some "IC - TLK");
   head (Some "541019");
   head (Some "DOKER");
   head (Some "from Katowice platforms");
   MkLine (Some b027) (Some "R") None None (Some "16:28") (Some "Katowice") (Some "Y") (Some 5);
   MkLine (Some b014) (Some "R") None None None None (Some "Y") None;
   MkLine (Some b020) (Some "R") None None (Some "16:43") None (Some "Y") None;
   head (Some "to Katowice KO(IC)");
   head (Some "####");
   head (Some "KS - Os");
   head (Some "40477");
   head (Some "S4");
   head (Some "departs from Katowice");
   MkLine (Some b026) (Some "R") None None None None (Some "Y") None;
   MkLine (Some b021) (Some "R") None (Some "16:29") None (Some "Katowice") None None;
   MkLine (Some b039) (Some "R") None None None None None None;
   MkLine (Some b102) (Some "R") None None None None None None;
   MkLine (Some b101) (Some "R") (Some "16:33") (Some "16:33") None (Some "Katowice Brynów") None None;
   MkLine (Some b105) (Some "R") None None None None None None;
   MkLine (Some b106) (Some "R") (Some "16:35") (Some "16:36") None (Some "Katowice Ligota") None None;
   MkLine (Some b111) (Some "R") (Some "16:39") (Some "16:39") None (Some "Katowice Piotrowice") None None;
   MkLine (Some b120) (Some "R") None None None None None None;
   MkLine (Some b122) (Some "R") None None None None None None;
   MkLine (Some b124) (Some "R") (Some "16:42") (Some "16:42") None (Some "Katowice Podlesie") None None;
   MkLine (Some b126) (Some "R") None None None None None None;
   MkLine (Some b129) (Some "R") None None None None None None;
   MkLine (Some b132) (Some "R") None None None None None None;
   MkLine (Some b135) (Some "R") None None None None None None;
   MkLine (Some b137) (Some "R") (Some "16:47") (Some "16:55") None (Some "Tychy") None None;
   MkLine (Some b144) (Some "R") None None None None None None;
   head (Some "to Tychy Lodowisko");
   head (Some "####");
   head (Some "IC - EIP");
   head (Some "4500");
   head (Some "Pendolino");
   head (Some "from Gliwice");
   MkLine (Some b093) (Some "IC") None (Some "16:07") None (Some "Gliwice") None None;
   MkLine (Some b087) (Some "IC") None None None None None None;
   MkLine (Some b085) (Some "IC") None None None None None None;
   MkLine (Some b083) (Some "IC") None None None None None None;
   MkLine (Some b081) (Some "IC") None None None None None None;
   MkLine (Some b079) (Some "IC") None None None None None None;
   MkLine (Some b077) (Some "IC") (Some "16:16") (Some "16:16") None (Some "Zabrze ") None None;
   MkLine (Some b075) (Some "IC") None None None None None None;
   MkLine (Some b073) (Some "IC") None None None None None None;
   MkLine (Some b071) (Some "IC") None None None None None None;
   MkLine (Some b069) (Some "IC") None None None None None None;
   MkLine (Some b067) (Some "IC") None None None None None None;
   MkLine (Some b065) (Some "IC") None None None None None None;
   MkLine (Some b063) (Some "IC") None None None None None None;
   MkLine (Some b055) (Some "IC") None None None None None None;
   MkLine (Some b053) (Some "IC") None None None None None None;
   MkLine (Some b052) (Some "IC") None None None None None None;
   MkLine (Some b051) (Some "IC") None None None None None None;
   MkLine (Some b044) (Some "IC") None None None None None None;
   MkLine (Some b041) (Some "IC") None None None None None None;
   MkLine (Some b036) (Some "IC") None None None None None None;
   MkLine (Some b027) (Some "IC") (Some "16:31") (Some "16:35") None (Some "Katowice") None None;
   MkLine (Some b014) (Some "IC") None None None None None None;
   MkLine (Some b009) (Some "IC") None None None None None None;
   MkLine (Some b003) (Some "IC") None None (Some "16:39") None None None;
   MkLine (Some b006) (Some "IC") None None None None None None;
   head (Some "to Gdynia Główna via Warszawa");
   head (Some "####");
   head (Some "KS - Os");
   head (Some "94317");
   head (Some "S8");
   head (Some "from Oświęcim");
   MkLine (Some b007) (Some "R") None None None None None None;
   MkLine (Some b004) (Some "R") (Some "16:39") (Some "16:39") None (Some "Katowice Zawodzie") None None;
   MkLine (Some b009) (Some "R") None None None None None None;
   MkLine (Some b013) (Some "R") None None None None None None;
   MkLine (Some b022) (Some "R") (Some "16:44") (Some "16:50") None (Some "Katowice") None None;
   MkLine (Some b035) (Some "R") None None None None None None;
   MkLine (Some b040) (Some "R") (Some "16:53") (Some "16:53") None (Some "Katowice Załęże") None None;
   MkLine (Some b044) (Some "R") None None None None None None;
   MkLine (Some b051) (Some "R") None None None None None None;
   MkLine (Some b052) (Some "R") None None None None None None;
   MkLine (Some b053) (Some "R") (Some "16:57") (Some "16:58") None (Some "Chorzów Batory") None None;
   MkLine (Some b056) (Some "R") None None None None None None;
   MkLine (Some b058) (Some "R") (Some "17:03") (Some "17:03") None (Some "Chorzów Miasto") None None;
   MkLine (Some b060) (Some "R") None None None None None None;
   head (Some "to Lubliniec");
   head (Some "####");
   head (Some "KS - Os");
   head (Some "44717");
   head (Some "S7");
   head (Some "departs from Katowice");
   MkLine (Some b032) (Some "R") None None (Some "16:25") None (Some "Y") None;
   MkLine (Some b025) (Some "R") None (Some "16:36") None (Some "Katowice") None None;
   MkLine (Some b039) (Some "R") None None None None None None;
   MkLine (Some b102) (Some "R") None None None None None None;
   MkLine (Some b101) (Some "R") (Some "16:39") (Some "16:39") None (Some "Katowice Brynów") None None;
   MkLine (Some b105) (Some "R") None None None None None None;
   MkLine (Some b107) (Some "R") (Some "16:43") (Some "16:43") None (Some "Katowice Ligota") None None;
   MkLine (Some b109) (Some "R") (Some "16:47") (Some "16:47") None (Some "Katowice Piotrowice") None None;
   MkLine (Some b112) (Some "R") None None None None None None;
   MkLine (Some b113) (Some "R") (Some "16:51") (Some "16:51") None (Some "Miko��w Jamna") None None;
   MkLine (Some b115) (Some "R") None None None None None None;
   MkLine (Some b116) (Some "R") (Some "16:54") (Some "16:55") None (Some "Miko��w") None None;
   MkLine (Some b118) (Some "R") None None None None None None;
   head (Some "to Racibórz");
   head (Some "####");
   head (Some "KS - Os");
   head (Some "64350");
   head (Some "S8");
   head (Some "from Kluczbork");
   MkLine (Some b061) (Some "R") None None None None None None;
   MkLine (Some b059) (Some "R") (Some "16:25") (Some "16:25") None (Some "Chorzów Miasto") None None;
   MkLine (Some b057) (Some "R") None None None None None None;
   MkLine (Some b053) (Some "R") (Some "16:30") (Some "16:31") None (Some "Chorzów Batory") None None;
   MkLine (Some b052) (Some "R") None None None None None None;
   MkLine (Some b051) (Some "R") None None None None None None;
   MkLine (Some b044) (Some "R") None None None None None None;
   MkLine (Some b041) (Some "R") (Some "16:34") (Some "16:34") None (Some "Katowice Załęże") None None;
   MkLine (Some b036) (Some "R") None None None None None None;
   MkLine (Some b030) (Some "R") (Some "16:38") (Some "16:40") None (Some "Katowice") None None;
   MkLine (Some b018) (Some "R") None None None None None None;
   MkLine (Some b009) (Some "R") None None None None None None;
   MkLine (Some b005) (Some "R") (Some "16:44") (Some "16:44") None (Some "Katowice Zawodzie") None None;
   MkLine (Some b008) (Some "R") None None None None None None;
   head (Some "to Oświęcim");
   head (Some "####");
   head (Some "KS - Os");
   head (Some "94717");
   head (Some "S5");
   head (Some "departs from Katowice");
   MkLine (Some b026) (Some "R") None None (Some "16:30") None (Some "Y") None;
   MkLine (Some b025) (Some "R") None (Some "16:47") None (Some "Katowice") None None;
   MkLine (Some b039) (Some "R") None None None None None None;
   MkLine (Some b102) (Some "R") None None None None None None;
   MkLine (Some b101) (Some "R") (Some "16:51") (Some "16:51") None (Some "Katowice Brynów") None None;
   MkLine (Some b105) (Some "R") None None None None None None;
   MkLine (Some b106) (Some "R") (Some "16:54") (Some "16:54") None (Some "Katowice Ligota") None None;
   MkLine (Some b111) (Some "R") (Some "16:57") (Some "16:57") None (Some "Katowice Piotrowice") None None;
   MkLine (Some b120) (Some "R") None None None None None None;
   MkLine (Some b122) (Some "R") None None None None None None;
   MkLine (Some b124) (Some "R") (Some "17:01") (Some "17:01") None (Some "Katowice Podlesie") None None;
   MkLine (Some b126) (Some "R") None None None None None None;
   MkLine (Some b129) (Some "R") None None None None None None;
   MkLine (Some b132) (Some "R") None None None None None None;
   MkLine (Some b135) (Some "R") None None None None None None;
   MkLine (Some b137) (Some "R") (Some "17:05") (Some "17:06") None (Some "Tychy") None None;
   MkLine (Some b142) (Some "R") None None None None None None;
   head (Some "to Żywiec");
   head (Some "####");
   head (Some "KS - Os");
   head (Some "44862");
   head (Some "S71");
   head (Some "from Chałupki");
   MkLine (Some b118) (Some "R") None None (Some "16:21") None None None;
   MkLine (Some b117) (Some "R") (Some "16:25") (Some "16:32") None (Some "Miko��w") None None;
   MkLine (Some b115) (Some "R") None None None None None None;
   MkLine (Some b114) (Some "R") (Some "16:35") (Some "16:35") None (Some "Miko��w Jamna") None None;
   MkLine (Some b112) (Some "R") None None None None None None;
   MkLine (Some b109) (Some "R") (Some "16:39") (Some "16:39") None None None None;
   MkLine (Some b107) (Some "R") (Some "16:42") (Some "16:42") None (Some "Katowice Ligota") None None;
   MkLine (Some b105) (Some "R") None None None None None None;
   MkLine (Some b101) (Some "R") None None None None None None;
   MkLine (Some b102) (Some "R") (Some "16:45") (Some "16:45") None (Some "Katowice Brynów") None None;
   MkLine (Some b039) (Some "R") None None None None None None;
   MkLine (Some b030) (Some "R") (Some "16:48") None None (Some "Katowice") None None;
   MkLine (Some b033) (Some "R") None None None None (Some "Y") None;
   head (Some "terminates in Katowice");
   head (Some "####");
   head (Some "KS - Os");
   head (Some "40628");
   head (Some "S1");
   head (Some "from Gliwice");
   MkLine (Some b088) (Some "R") None (Some "16:16") None (Some "Gliwice") None None;
   MkLine (Some b087) (Some "R") None None None None None None;
   MkLine (Some b085) (Some "R") None None None None None None;
   MkLine (Some b083) (Some "R") None None None None None None;
   MkLine (Some b081) (Some "R") None None None None None None;
   MkLine (Some b079) (Some "R") None None None None None None;
   MkLine (Some b077) (Some "R") (Some "16:23") (Some "16:23") None (Some "Zabrze") None None;
   MkLine (Some b075) (Some "R") None None None None None None;
   MkLine (Some b073) (Some "R") None None None None None None;
   MkLine (Some b071) (Some "R") (Some "16:27") (Some "16:27") None (Some "Ruda Slaska") None None;
   MkLine (Some b069) (Some "R") None None None None None None;
   MkLine (Some b067) (Some "R") (Some "16:30") (Some "16:30") None (Some "Ruda Chebzie") None None;
   MkLine (Some b065) (Some "R") None None None None None None;
   MkLine (Some b063) (Some "R") (Some "16:33") (Some "16:33") None (Some "Swietochlowice") None None;
   MkLine (Some b055) (Some "R") None None None None None None;
   MkLine (Some b053) (Some "R") (Some "16:36") (Some "16:36") None (Some "Chorzów Batory") None None;
   MkLine (Some b052) (Some "R") None None None None None None;
   MkLine (Some b051) (Some "R") None None None None None None;
   MkLine (Some b044) (Some "R") None None None None None None;
   MkLine (Some b041) (Some "R") (Some "16:40") (Some "16:40") None (Some "Katowice Załęże") None None;
   MkLine (Some b036) (Some "R") None None None None None None;
   MkLine (Some b027) (Some "R") (Some "16:44") (Some "16:51") None (Some "Katowice") None None;
   MkLine (Some b014) (Some "R") None None None None None None;
   MkLine (Some b009) (Some "R") None None None None None None;
   MkLine (Some b003) (Some "R") (Some "16:54") (Some "16:54") None (Some "Katowice Zawodzie") None None;
   MkLine (Some b006) (Some "R") None None None None None None;
   head (Some "to Częstochowa");
   head (Some "####");
   head (Some "KS - OsP");
   head (Some "40675");
   head (Some "S1");
   head (Some "from Czestochowa");
   MkLine (Some b001) (Some "R") None None None None None None;
   MkLine (Some b002) (Some "R") (Some "16:44") (Some "16:44") None (Some "Katowice Zawodzie") None None;
   MkLine (Some b009) (Some "R") None None None None None None;
   MkLine (Some b017) (Some "R") None None None None None None;
   MkLine (Some b021) (Some "R") (Some "16:48") (Some "16:55") None (Some "Katowice") None None;
   MkLine (Some b035) (Some "R") None None None None None None;
   MkLine (Some b040) (Some "R") (Some "16:58") (Some "16:58") None (Some "Katowice Załęże") None None;
   MkLine (Some b044) (Some "R") None None None None None None;
   MkLine (Some b051) (Some "R") None None None None None None;
   MkLine (Some b052) (Some "R") None None None None None None;
   MkLine (Some b053) (Some "R") (Some "17:02") (Some "17:02") None (Some "Chorz�w Batory") None None;
   MkLine (Some b054) (Some "R") None None None None None None;
   MkLine (Some b062) (Some "R") (Some "17:05") (Some "17:05") None (Some "�wi�toch�owice") None None;
   MkLine (Some b064) (Some "R") None None None None None None;
   MkLine (Some b066) (Some "R") (Some "17:08") (Some "17:08") None (Some "Ruda Chebzie") None None;
   MkLine (Some b068) (Some "R") None None None None None None;
   MkLine (Some b070) (Some "R") (Some "17:10") (Some "17:10") None (Some "Ruda �l�ska") None None;
   MkLine (Some b072) (Some "R") None None None None None None;
   MkLine (Some b074) (Some "R") None None None None None None;
   MkLine (Some b076) (Some "R") (Some "17:15") (Some "17:15") None (Some "Zabrze") None None;
   MkLine (Some b078) (Some "R") None None None None None None;
   MkLine (Some b080) (Some "R") None None None None None None;
   MkLine (Some b082) (Some "R") None None None None None None;
   MkLine (Some b084) (Some "R") None None None None None None;
   MkLine (Some b086) (Some "R") None None None None None None;
   MkLine (Some b088) (Some "R") (Some "17:22") None None (Some "Gliwice") None None;
   head (Some "to Gliwice");
   head (Some "####");
   head (Some "IC - IC");
   head (Some "73000");
   head (Some "WAWEL");
   head (Some "from Berlin Hauptbahnhof");
   MkLine (Some b098) (Some "IC") None None (Some "16:27") None None None;
   MkLine (Some b095) (Some "IC") (Some "16:29") (Some "16:31") None (Some "Gliwice") None None;
   MkLine (Some b087) (Some "IC") None None None None None None;
   MkLine (Some b085) (Some "IC") None None None None None None;
   MkLine (Some b083) (Some "IC") None None None None None None;
   MkLine (Some b081) (Some "IC") None None None None None None;
   MkLine (Some b079) (Some "IC") None None None None None None;
   MkLine (Some b077) (Some "IC") (Some "16:38") (Some "16:38") None (Some "Zabrze") None None;
   MkLine (Some b075) (Some "IC") None None None None None None;
   MkLine (Some b073) (Some "IC") None None None None None None;
   MkLine (Some b071) (Some "IC") None None None None None None;
   MkLine (Some b069) (Some "IC") None None None None None None;
   MkLine (Some b067) (Some "IC") None None None None None None;
   MkLine (Some b065) (Some "IC") None None None None None None;
   MkLine (Some b063) (Some "IC") None None None None None None;
   MkLine (Some b055) (Some "IC") None None None None None None;
   MkLine (Some b053) (Some "IC") None None None None None None;
   MkLine (Some b052) (Some "IC") None None None None None None;
   MkLine (Some b051) (Some "IC") None None None None None None;
   MkLine (Some b044) (Some "IC") None None None None None None;
   MkLine (Some b041) (Some "IC") None None None None None None;
   MkLine (Some b036) (Some "IC") None None None None None None;
   MkLine (Some b028) (Some "IC") (Some "16:53") (Some "16:58") None (Some "Katowice") None None;
   MkLine (Some b014) (Some "IC") None None None None None None;
   MkLine (Some b009) (Some "IC") None None None None None None;
   MkLine (Some b005) (Some "IC") None None (Some "17:02") None None None;
   MkLine (Some b008) (Some "IC") None None None None None None;
   head (Some "to Kraków Główny");
   head (Some "####");
   head (Some "IC - IC");
   head (Some "4120");
   head (Some "DASZYŃSKI");
   head (Some "from Bielsko-Biała Główna");
   MkLine (Some b143) (Some "IC") None None None None None None;
   MkLine (Some b140) (Some "IC") (Some "16:41") (Some "16:41") None (Some "Tychy") None None;
   MkLine (Some b135) (Some "IC") None None None None None None;
   MkLine (Some b132) (Some "IC") None None None None None None;
   MkLine (Some b129) (Some "IC") None None None None None None;
   MkLine (Some b126) (Some "IC") None None None None None None;
   MkLine (Some b124) (Some "IC") None None None None None None;
   MkLine (Some b122) (Some "IC") None None None None None None;
   MkLine (Some b120) (Some "IC") None None None None None None;
   MkLine (Some b111) (Some "IC") None None None None None None;
   MkLine (Some b107) (Some "IC") None None None None None None;
   MkLine (Some b105) (Some "IC") None None None None None None;
   MkLine (Some b101) (Some "IC") None None None None None None;
   MkLine (Some b102) (Some "IC") None None None None None None;
   MkLine (Some b039) (Some "IC") None None None None None None;
   MkLine (Some b031) (Some "IC") (Some "16:54") (Some "17:00") None (Some "Katowice") None None;
   MkLine (Some b014) (Some "IC") None None None None None None;
   MkLine (Some b009) (Some "IC") None None None None None None;
   MkLine (Some b003) (Some "IC") None None (Some "17:04") None None None;
   MkLine (Some b006) (Some "IC") None None None None None None;
   head (Some "to Warszawa Wschodnia")].

(** data/KO_GLC/trains_schedules_KO_GLC.csv *)
Definition schedule_glc : list line :=
  [head (Some "####");
   head (Some "KS - Os");
   head (Some "2");
   head (Some "S1");
   head (Some "from Katowice");
   MkLine (Some b022) (Some "R") None (Some "14:00") None (Some "Katowice") None None;
   MkLine (Some b035) (Some "R") None None None None None None;
   MkLine (Some b040) (Some "R") (Some "14:03") (Some "14:03") None (Some "Katowice Załęże") None None;
   MkLine (Some b042) (Some "R") None None None None None None;
   MkLine (Some b045) (Some "R") None None None None None None;
   MkLine (Some b047) (Some "R") (Some "14:06") (Some "14:06") None (Some "Chorzów Batory") None None;
   MkLine (Some b054) (Some "R") None None None None None None;
   MkLine (Some b062) (Some "R") (Some "14:09") (Some "14:09") None (Some "Świętochłowice") None None;
   MkLine (Some b064) (Some "R") None None None None None None;
   MkLine (Some b066) (Some "R") (Some "14:13") (Some "14:13") None (Some "Ruda Chebzie") None None;
   MkLine (Some b068) (Some "R") None None None None None None;
   MkLine (Some b070) (Some "R") (Some "14:15") (Some "14:15") None (Some "Ruda Śląska") None None;
   MkLine (Some b072) (Some "R") None None None None None None;
   MkLine (Some b074) (Some "R") None None None None None None;
   MkLine (Some b076) (Some "R") (Some "14:20") (Some "14:20") None (Some "Zabrze") None None;
   MkLine (Some b078) (Some "R") None None None None None None;
   MkLine (Some b080) (Some "R") None None None None None None;
   MkLine (Some b082) (Some "R") None None None None None None;
   MkLine (Some b084) (Some "R") None None None None None None;
   MkLine (Some b086) (Some "R") None None None None None None;
   MkLine (Some b088) (Some "R") (Some "14:27") None None (Some "Gliwice") None None;
   head (Some "to Gliwice");
   head (Some "####");
   head (Some "IC - IC");
   head (Some "4602");
   head (Some "Intercity");
   head (Some "from Katowice");
   MkLine (Some b025) (Some "IC") None (Some "14:07") None (Some "Katowice") None None;
   MkLine (Some b035) (Some "IC") None None None None None None;
   MkLine (Some b040) (Some "IC") None None None None None None;
   MkLine (Some b042) (Some "IC") None None None None None None;
   MkLine (Some b045) (Some "IC") None None None None None None;
   MkLine (Some b047) (Some "R") (Some "14:13") (Some "14:13") None (Some "Chorz�w Batory") None None;
   MkLine (Some b054) (Some "IC") None None None None None None;
   MkLine (Some b062) (Some "IC") None None None None None None;
   MkLine (Some b064) (Some "IC") None None None None None None;
   MkLine (Some b066) (Some "IC") None None None None None None;
   MkLine (Some b068) (Some "IC") None None None None None None;
   MkLine (Some b070) (Some "IC") None None None None None None;
   MkLine (Some b072) (Some "IC") None None None None None None;
   MkLine (Some b074) (Some "IC") None None None None None None;
   MkLine (Some b076) (Some "IC") (Some "14:23") (Some "14:23") None (Some "Zabrze") None None;
   MkLine (Some b078) (Some "IC") None None None None None None;
   MkLine (Some b080) (Some "IC") None None None None None None;
   MkLine (Some b082) (Some "IC") None None None None None None;
   MkLine (Some b084) (Some "IC") None None None None None None;
   MkLine (Some b086) (Some "IC") None None None None None None;
   MkLine (Some b091) (Some "IC") (Some "14:30") (Some "14:32") None (Some "Gliwice") None None;
   MkLine (Some b097) (Some "IC") None None None None None None;
   head (Some "to Wrocław Główny");
   head (Some "####");
   head (Some "KS - Os");
   head (Some "4");
   head (Some "S1");
   head (Some "from Katowice");
   MkLine (Some b022) (Some "R") None (Some "14:10") None (Some "Katowice") None None;
   MkLine (Some b035) (Some "R") None None None None None None;
   MkLine (Some b040) (Some "R") (Some "14:13") (Some "14:13") None (Some "Katowice Załęże") None None;
   MkLine (Some b042) (Some "R") None None None None None None;
   MkLine (Some b045) (Some "R") None None None None None None;
   MkLine (Some b047) (Some "R") (Some "14:16") (Some "14:16") None (Some "Chorzów Batory") None None;
   MkLine (Some b054) (Some "R") None None None None None None;
   MkLine (Some b062) (Some "R") (Some "14:19") (Some "14:19") None (Some "Świętochłowice") None None;
   MkLine (Some b064) (Some "R") None None None None None None;
   MkLine (Some b066) (Some "R") (Some "14:23") (Some "14:23") None (Some "Ruda Chebzie") None None;
   MkLine (Some b068) (Some "R") None None None None None None;
   MkLine (Some b070) (Some "R") (Some "14:25") (Some "14:25") None (Some "Ruda Śląska") None None;
   MkLine (Some b072) (Some "R") None None None None None None;
   MkLine (Some b074) (Some "R") None None None None None None;
   MkLine (Some b076) (Some "R") (Some "14:30") (Some "14:30") None (Some "Zabrze") None None;
   MkLine (Some b078) (Some "R") None None None None None None;
   MkLine (Some b080) (Some "R") None None None None None None;
   MkLine (Some b082) (Some "R") None None None None None None;
   MkLine (Some b084) (Some "R") None None None None None None;
   MkLine (Some b086) (Some "R") None None None None None None;
   MkLine (Some b088) (Some "R") (Some "14:37") None None (Some "Gliwice") None None;
   head (Some "to Gliwice");
   head (Some "####");
   head (Some "KS - Os");
   head (Some "102");
   head (Some "S8");
   head (Some "from Katowice");
   MkLine (Some b021) (Some "R") None (Some "14:15") None (Some "Katowice") None None;
   MkLine (Some b035) (Some "R") None None None None None None;
   MkLine (Some b040) (Some "R") (Some "14:18") (Some "14:18") None (Some "Katowice Załęże") None None;
   MkLine (Some b042) (Some "R") None None None None None None;
   MkLine (Some b045) (Some "R") None None None None None None;
   MkLine (Some b049) (Some "R") (Some "14:22") (Some "14:23") None (Some "Chorzów Batory") None None;
   MkLine (Some b056) (Some "R") None None None None None None;
   head (Some "to Bytom");
   head (Some "####");
   head (Some "KS - Os");
   head (Some "6");
   head (Some "S1");
   head (Some "from Katowice");
   MkLine (Some b022) (Some "R") None (Some "14:20") None (Some "Katowice") None None;
   MkLine (Some b035) (Some "R") None None None None None None;
   MkLine (Some b040) (Some "R") (Some "14:23") (Some "14:23") None (Some "Katowice Załęże") None None;
   MkLine (Some b042) (Some "R") None None None None None None;
   MkLine (Some b045) (Some "R") None None None None None None;
   MkLine (Some b047) (Some "R") (Some "14:26") (Some "14:26") None (Some "Chorzów Batory") None None;
   MkLine (Some b054) (Some "R") None None None None None None;
   MkLine (Some b062) (Some "R") (Some "14:29") (Some "14:29") None (Some "Świętochłowice") None None;
   MkLine (Some b064) (Some "R") None None None None None None;
   MkLine (Some b066) (Some "R") (Some "14:33") (Some "14:33") None (Some "Ruda Chebzie") None None;
   MkLine (Some b068) (Some "R") None None None None None None;
   MkLine (Some b070) (Some "R") (Some "14:35") (Some "14:35") None (Some "Ruda Śląska") None None;
   MkLine (Some b072) (Some "R") None None None None None None;
   MkLine (Some b074) (Some "R") None None None None None None;
   MkLine (Some b076) (Some "R") (Some "14:40") (Some "14:40") None (Some "Zabrze") None None;
   MkLine (Some b078) (Some "R") None None None None None None;
   MkLine (Some b080) (Some "R") None None None None None None;
   MkLine (Some b082) (Some "R") None None None None None None;
   MkLine (Some b084) (Some "R") None None None None None None;
   MkLine (Some b086) (Some "R") None None None None None None;
   MkLine (Some b088) (Some "R") (Some "14:47") None None (Some "Gliwice") None None;
   head (Some "to Gliwice");
   head (Some "####");
   head (Some "KS - Os");
   head (Some "8");
   head (Some "S1");
   head (Some "from Katowice");
   MkLine (Some b022) (Some "R") None (Some "14:30") None (Some "Katowice") None None;
   MkLine (Some b035) (Some "R") None None None None None None;
   MkLine (Some b040) (Some "R") (Some "14:33") (Some "14:33") None (Some "Katowice Załęże") None None;
   MkLine (Some b042) (Some "R") None None None None None None;
   MkLine (Some b045) (Some "R") None None None None None None;
   MkLine (Some b047) (Some "R") (Some "14:36") (Some "14:36") None (Some "Chorzów Batory") None None;
   MkLine (Some b054) (Some "R") None None None None None None;
   MkLine (Some b062) (Some "R") (Some "14:39") (Some "14:39") None (Some "Świętochłowice") None None;
   MkLine (Some b064) (Some "R") None None None None None None;
   MkLine (Some b066) (Some "R") (Some "14:43") (Some "14:43") None (Some "Ruda Chebzie") None None;
   MkLine (Some b068) (Some "R") None None None None None None;
   MkLine (Some b070) (Some "R") (Some "14:45") (Some "14:45") None (Some "Ruda Śląska") None None;
   MkLine (Some b072) (Some "R") None None None None None None;
   MkLine (Some b074) (Some "R") None None None None None None;
   MkLine (Some b076) (Some "R") (Some "14:50") (Some "14:50") None (Some "Zabrze") None None;
   MkLine (Some b078) (Some "R") None None None None None None;
   MkLine (Some b080) (Some "R") None None None None None None;
   MkLine (Some b082) (Some "R") None None None None None None;
   MkLine (Some b084) (Some "R") None None None None None None;
   MkLine (Some b086) (Some "R") None None None None None None;
   MkLine (Some b088) (Some "R") (Some "14:57") None None (Some "Gliwice") None None;
   head (Some "to Gliwice");
   head (Some "####");
   head (Some "IC - IC");
   head (Some "4604");
   head (Some "Intercity");
   head (Some "from Katowice");
   MkLine (Some b025) (Some "IC") None (Some "14:37") None (Some "Katowice") None None;
   MkLine (Some b035) (Some "IC") None None None None None None;
   MkLine (Some b040) (Some "IC") None None None None None None;
   MkLine (Some b042) (Some "IC") None None None None None None;
   MkLine (Some b045) (Some "IC") None None None None None None;
   MkLine (Some b047) (Some "R") (Some "14:43") (Some "14:43") None (Some "Chorz�w Batory") None None;
   MkLine (Some b054) (Some "IC") None None None None None None;
   MkLine (Some b062) (Some "IC") None None None None None None;
   MkLine (Some b064) (Some "IC") None None None None None None;
   MkLine (Some b066) (Some "IC") None None None None None None;
   MkLine (Some b068) (Some "IC") None None None None None None;
   MkLine (Some b070) (Some "IC") None None None None None None;
   MkLine (Some b072) (Some "IC") None None None None None None;
   MkLine (Some b074) (Some "IC") None None None None None None;
   MkLine (Some b076) (Some "IC") (Some "14:53") (Some "14:53") None (Some "Zabrze") None None;
   MkLine (Some b078) (Some "IC") None None None None None None;
   MkLine (Some b080) (Some "IC") None None None None None None;
   MkLine (Some b082) (Some "IC") None None None None None None;
   MkLine (Some b084) (Some "IC") None None None None None None;
   MkLine (Some b086) (Some "IC") None None None None None None;
   MkLine (Some b091) (Some "IC") (Some "15:00") (Some "15:02") None (Some "Gliwice") None None;
   MkLine (Some b097) (Some "IC") None None None None None None;
   head (Some "to Wrocław Główny");
   head (Some "####");
   head (Some "KS - Os");
   head (Some "10");
   head (Some "S1");
   head (Some "from Katowice");
   MkLine (Some b022) (Some "R") None (Some "14:40") None (Some "Katowice") None None;
   MkLine (Some b035) (Some "R") None None None None None None;
   MkLine (Some b040) (Some "R") (Some "14:43") (Some "14:43") None (Some "Katowice Załęże") None None;
   MkLine (Some b042) (Some "R") None None None None None None;
   MkLine (Some b045) (Some "R") None None None None None None;
   MkLine (Some b047) (Some "R") (Some "14:46") (Some "14:46") None (Some "Chorzów Batory") None None;
   MkLine (Some b054) (Some "R") None None None None None None;
   MkLine (Some b062) (Some "R") (Some "14:49") (Some "14:49") None (Some "Świętochłowice") None None;
   MkLine (Some b064) (Some "R") None None None None None None;
   MkLine (Some b066) (Some "R") (Some "14:53") (Some "14:53") None (Some "Ruda Chebzie") None None;
   MkLine (Some b068) (Some "R") None None None None None None;
   MkLine (Some b070) (Some "R") (Some "14:55") (Some "14:55") None (Some "Ruda Śląska") None None;
   MkLine (Some b072) (Some "R") None None None None None None;
   MkLine (Some b074) (Some "R") None None None None None None;
   MkLine (Some b076) (Some "R") (Some "15:00") (Some "15:00") None (Some "Zabrze") None None;
   MkLine (Some b078) (Some "R") None None None None None None;
   MkLine (Some b080) (Some "R") None None None None None None;
   MkLine (Some b082) (Some "R") None None None None None None;
   MkLine (Some b084) (Some "R") None None None None None None;
   MkLine (Some b086) (Some "R") None None None None None None;
   MkLine (Some b088) (Some "R") (Some "15:07") None None (Some "Gliwice") None None;
   head (Some "to Gliwice");
   head (Some "####");
   head (Some "KS - Os");
   head (Some "102");
   head (Some "S8");
   head (Some "from Katowice");
   MkLine (Some b021) (Some "R") None (Some "14:45") None (Some "Katowice") None None;
   MkLine (Some b035) (Some "R") None None None None None None;
   MkLine (Some b040) (Some "R") (Some "14:48") (Some "14:48") None (Some "Katowice Załęże") None None;
   MkLine (Some b042) (Some "R") None None None None None None;
   MkLine (Some b045) (Some "R") None None None None None None;
   MkLine (Some b049) (Some "R") (Some "14:52") (Some "14:53") None (Some "Chorzów Batory") None None;
   MkLine (Some b056) (Some "R") None None None None None None;
   head (Some "to Bytom");
   head (Some "####");
   head (Some "KS - Os");
   head (Some "12");
   head (Some "S1");
   head (Some "from Katowice");
   MkLine (Some b022) (Some "R") None (Some "14:50") None (Some "Katowice") None None;
   MkLine (Some b035) (Some "R") None None None None None None;
   MkLine (Some b040) (Some "R") (Some "14:53") (Some "14:53") None (Some "Katowice Załęże") None None;
   MkLine (Some b042) (Some "R") None None None None None None;
   MkLine (Some b045) (Some "R") None None None None None None;
   MkLine (Some b047) (Some "R") (Some "14:56") (Some "14:56") None (Some "Chorzów Batory") None None;
   MkLine (Some b054) (Some "R") None None None None None None;
   MkLine (Some b062) (Some "R") (Some "14:59") (Some "14:59") None (Some "Świętochłowice") None None;
   MkLine (Some b064) (Some "R") None None None None None None;
   MkLine (Some b066) (Some "R") (Some "15:03") (Some "15:03") None (Some "Ruda Chebzie") None None;
   MkLine (Some b068) (Some "R") None None None None None None;
   MkLine (Some b070) (Some "R") (Some "15:05") (Some "15:05") None (Some "Ruda Śląska") None None;
   MkLine (Some b072) (Some "R") None None None None None None;
   MkLine (Some b074) (Some "R") None None None None None None;
   MkLine (Some b076) (Some "R") (Some "15:10") (Some "15:10") None (Some "Zabrze") None None;
   MkLine (Some b078) (Some "R") None None None None None None;
   MkLine (Some b080) (Some "R") None None None None None None;
   MkLine (Some b082) (Some "R") None None None None None None;
   MkLine (Some b084) (Some "R") None None None None None None;
   MkLine (Some b086) (Some "R") None None None None None None;
   MkLine (Some b088) (Some "R") (Some "15:17") None None (Some "Gliwice") None None;
   head (Some "to Gliwice");
   head (Some "####");
   head (Some "KS - Os");
   head (Some "1");
   head (Some "S1 ");
   head (Some "from Gliwice");
   MkLine (Some b095) (Some "R") None (Some "13:53") None (Some "Gliwice") None None;
   MkLine (Some b087) (Some "R") None None None None None None;
   MkLine (Some b085) (Some "R") None None None None None None;
   MkLine (Some b083) (Some "R") None None None None None None;
   MkLine (Some b081) (Some "R") None None None None None None;
   MkLine (Some b079) (Some "R") None None None None None None;
   MkLine (Some b077) (Some "R") (Some "14:01") (Some "14:01") None (Some "Zabrze") None None;
   MkLine (Some b075) (Some "R") None None None None None None;
   MkLine (Some b073) (Some "R") None None None None None None;
   MkLine (Some b071) (Some "R") (Some "14:06") (Some "14:06") None (Some "Ruda Slaska") None None;
   MkLine (Some b069) (Some "R") None None None None None None;
   MkLine (Some b067) (Some "R") (Some "14:08") (Some "14:08") None (Some "Ruda Chebzie") None None;
   MkLine (Some b065) (Some "R") None None None None None None;
   MkLine (Some b063) (Some "R") (Some "14:11") (Some "14:11") None (Some "Swietochlowice") None None;
   MkLine (Some b055) (Some "R") None None None None None None;
   MkLine (Some b048) (Some "R") (Some "14:15") (Some "14:15") None (Some "Chorzów Batory") None None;
   MkLine (Some b046) (Some "R") None None None None None None;
   MkLine (Some b043) (Some "R") None None None None None None;
   MkLine (Some b041) (Some "R") (Some "14:18") (Some "14:18") None (Some "Katowice Załęże") None None;
   MkLine (Some b036) (Some "R") None None None None None None;
   MkLine (Some b030) (Some "R") (Some "14:21") None None (Some "Katowice") None None;
   head (Some "to Katowice");
   head (Some "####");
   head (Some "KS - Os");
   head (Some "101");
   head (Some "S8");
   head (Some "from Bytom");
   MkLine (Some b057) (Some "R") None None None None None None;
   MkLine (Some b050) (Some "R") (Some "14:20") (Some "14:21") None (Some "Chorzów Batory") None None;
   MkLine (Some b046) (Some "R") None None None None None None;
   MkLine (Some b043) (Some "R") None None None None None None;
   MkLine (Some b041) (Some "R") (Some "14:24") (Some "14:24") None (Some "Katowice Załęże") None None;
   MkLine (Some b036) (Some "R") None None None None None None;
   MkLine (Some b031) (Some "R") (Some "14:28") None None (Some "Katowice") None None;
   head (Some "to Katowice");
   head (Some "####");
   head (Some "KS - Os");
   head (Some "3");
   head (Some "S1 ");
   head (Some "from Gliwice");
   MkLine (Some b095) (Some "R") None (Some "14:03") None (Some "Gliwice") None None;
   MkLine (Some b087) (Some "R") None None None None None None;
   MkLine (Some b085) (Some "R") None None None None None None;
   MkLine (Some b083) (Some "R") None None None None None None;
   MkLine (Some b081) (Some "R") None None None None None None;
   MkLine (Some b079) (Some "R") None None None None None None;
   MkLine (Some b077) (Some "R") (Some "14:11") (Some "14:11") None (Some "Zabrze") None None;
   MkLine (Some b075) (Some "R") None None None None None None;
   MkLine (Some b073) (Some "R") None None None None None None;
   MkLine (Some b071) (Some "R") (Some "14:16") (Some "14:16") None (Some "Ruda Slaska") None None;
   MkLine (Some b069) (Some "R") None None None None None None;
   MkLine (Some b067) (Some "R") (Some "14:18") (Some "14:18") None (Some "Ruda Chebzie") None None;
   MkLine (Some b065) (Some "R") None None None None None None;
   MkLine (Some b063) (Some "R") (Some "14:21") (Some "14:21") None (Some "Swietochlowice") None None;
   MkLine (Some b055) (Some "R") None None None None None None;
   MkLine (Some b048) (Some "R") (Some "14:25") (Some "14:25") None (Some "Chorzów Batory") None None;
   MkLine (Some b046) (Some "R") None None None None None None;
   MkLine (Some b043) (Some "R") None None None None None None;
   MkLine (Some b041) (Some "R") (Some "14:28") (Some "14:28") None (Some "Katowice Załęże") None None;
   MkLine (Some b036) (Some "R") None None None None None None;
   MkLine (Some b030) (Some "R") (Some "14:31") None None (Some "Katowice") None None;
   head (Some "to Katowice");
   head (Some "####");
   head (Some "IC - IC");
   head (Some "6401");
   head (Some "Intercity");
   head (Some "from Wrocław");
   MkLine (Some b098) (Some "IC") None None None None None None;
   MkLine (Some b094) (Some "IC") (Some "14:08") (Some "14:14") None (Some "Gliwice") None None;
   MkLine (Some b087) (Some "IC") None None None None None None;
   MkLine (Some b085) (Some "IC") None None None None None None;
   MkLine (Some b083) (Some "IC") None None None None None None;
   MkLine (Some b081) (Some "IC") None None None None None None;
   MkLine (Some b079) (Some "IC") None None None None None None;
   MkLine (Some b077) (Some "IC") (Some "14:22") (Some "14:22") None (Some "Zabrze") None None;
   MkLine (Some b075) (Some "IC") None None None None None None;
   MkLine (Some b073) (Some "IC") None None None None None None;
   MkLine (Some b071) (Some "IC") None None None None None None;
   MkLine (Some b069) (Some "IC") None None None None None None;
   MkLine (Some b067) (Some "IC") None None None None None None;
   MkLine (Some b065) (Some "IC") None None None None None None;
   MkLine (Some b063) (Some "IC") None None None None None None;
   MkLine (Some b055) (Some "IC") None None None None None None;
   MkLine (Some b048) (Some "IC") None None None None None None;
   MkLine (Some b046) (Some "IC") None None None None None None;
   MkLine (Some b043) (Some "IC") None None None None None None;
   MkLine (Some b041) (Some "IC") None None None None None None;
   MkLine (Some b036) (Some "IC") None None None None None None;
   MkLine (Some b028) (Some "IC") (Some "14:38") None None (Some "Katowice") None None;
   head (Some "to Katowice");
   head (Some "####");
   head (Some "KS - Os");
   head (Some "5");
   head (Some "S1 ");
   head (Some "from Gliwice");
   MkLine (Some b095) (Some "R") None (Some "14:18") None (Some "Gliwice") None None;
   MkLine (Some b087) (Some "R") None None None None None None;
   MkLine (Some b085) (Some "R") None None None None None None;
   MkLine (Some b083) (Some "R") None None None None None None;
   MkLine (Some b081) (Some "R") None None None None None None;
   MkLine (Some b079) (Some "R") None None None None None None;
   MkLine (Some b077) (Some "R") (Some "14:26") (Some "14:26") None (Some "Zabrze") None None;
   MkLine (Some b075) (Some "R") None None None None None None;
   MkLine (Some b073) (Some "R") None None None None None None;
   MkLine (Some b071) (Some "R") (Some "14:31") (Some "14:31") None (Some "Ruda Slaska") None None;
   MkLine (Some b069) (Some "R") None None None None None None;
   MkLine (Some b067) (Some "R") (Some "14:33") (Some "14:33") None (Some "Ruda Chebzie") None None;
   MkLine (Some b065) (Some "R") None None None None None None;
   MkLine (Some b063) (Some "R") (Some "14:36") (Some "14:36") None (Some "Swietochlowice") None None;
   MkLine (Some b055) (Some "R") None None None None None None;
   MkLine (Some b048) (Some "R") (Some "14:40") (Some "14:40") None (Some "Chorzów Batory") None None;
   MkLine (Some b046) (Some "R") None None None None None None;
   MkLine (Some b043) (Some "R") None None None None None None;
   MkLine (Some b041) (Some "R") (Some "14:43") (Some "14:43") None (Some "Katowice Załęże") None None;
   MkLine (Some b036) (Some "R") None None None None None None;
   MkLine (Some b030) (Some "R") (Some "14:46") None None (Some "Katowice") None None;
   head (Some "to Katowice");
   head (Some "####");
   head (Some "KS - Os");
   head (Some "7");
   head (Some "S1 ");
   head (Some "from Gliwice");
   MkLine (Some b095) (Some "R") None (Some "14:23") None (Some "Gliwice") None None;
   MkLine (Some b087) (Some "R") None None None None None None;
   MkLine (Some b085) (Some "R") None None None None None None;
   MkLine (Some b083) (Some "R") None None None None None None;
   MkLine (Some b081) (Some "R") None None None None None None;
   MkLine (Some b079) (Some "R") None None None None None None;
   MkLine (Some b077) (Some "R") (Some "14:31") (Some "14:31") None (Some "Zabrze") None None;
   MkLine (Some b075) (Some "R") None None None None None None;
   MkLine (Some b073) (Some "R") None None None None None None;
   MkLine (Some b071) (Some "R") (Some "14:36") (Some "14:36") None (Some "Ruda Slaska") None None;
   MkLine (Some b069) (Some "R") None None None None None None;
   MkLine (Some b067) (Some "R") (Some "14:38") (Some "14:38") None (Some "Ruda Chebzie") None None;
   MkLine (Some b065) (Some "R") None None None None None None;
   MkLine (Some b063) (Some "R") (Some "14:41") (Some "14:41") None (Some "Swietochlowice") None None;
   MkLine (Some b055) (Some "R") None None None None None None;
   MkLine (Some b048) (Some "R") (Some "14:45") (Some "14:45") None (Some "Chorzów Batory") None None;
   MkLine (Some b046) (Some "R") None None None None None None;
   MkLine (Some b043) (Some "R") None None None None None None;
   MkLine (Some b041) (Some "R") (Some "14:48") (Some "14:48") None (Some "Katowice Załęże") None None;
   MkLine (Some b036) (Some "R") None None None None None None;
   MkLine (Some b030) (Some "R") (Some "14:51") None None (Some "Katowice") None None;
   head (Some "to Katowice");
   head (Some "####");
   head (Some "KS - Os");
   head (Some "103");
   head (Some "S8");
   head (Some "from Bytom");
   MkLine (Some b057) (Some "R") None None None None None None;
   MkLine (Some b050) (Some "R") (Some "14:50") (Some "14:51") None (Some "Chorzów Batory") None None;
   MkLine (Some b046) (Some "R") None None None None None None;
   MkLine (Some b043) (Some "R") None None None None None None;
   MkLine (Some b041) (Some "R") (Some "14:54") (Some "14:54") None (Some "Katowice Załęże") None None;
   MkLine (Some b036) (Some "R") None None None None None None;
   MkLine (Some b031) (Some "R") (Some "14:58") None None (Some "Katowice") None None;
   head (Some "to Katowice");
   head (Some "####");
   head (Some "KS - Os");
   head (Some "9");
   head (Some "S1 ");
   head (Some "from Gliwice");
   MkLine (Some b095) (Some "R") None (Some "14:33") None (Some "Gliwice") None None;
   MkLine (Some b087) (Some "R") None None None None None None;
   MkLine (Some b085) (Some "R") None None None None None None;
   MkLine (Some b083) (Some "R") None None None None None None;
   MkLine (Some b081) (Some "R") None None None None None None;
   MkLine (Some b079) (Some "R") None None None None None None;
   MkLine (Some b077) (Some "R") (Some "14:41") (Some "14:41") None (Some "Zabrze") None None;
   MkLine (Some b075) (Some "R") None None None None None None;
   MkLine (Some b073) (Some "R") None None None None None None;
   MkLine (Some b071) (Some "R") (Some "14:46") (Some "14:46") None (Some "Ruda Slaska") None None;
   MkLine (Some b069) (Some "R") None None None None None None;
   MkLine (Some b067) (Some "R") (Some "14:48") (Some "14:48") None (Some "Ruda Chebzie") None None;
   MkLine (Some b065) (Some "R") None None None None None None;
   MkLine (Some b063) (Some "R") (Some "14:51") (Some "14:51") None (Some "Swietochlowice") None None;
   MkLine (Some b055) (Some "R") None None None None None None;
   MkLine (Some b048) (Some "R") (Some "14:55") (Some "14:55") None (Some "Chorzów Batory") None None;
   MkLine (Some b046) (Some "R") None None None None None None;
   MkLine (Some b043) (Some "R") None None None None None None;
   MkLine (Some b041) (Some "R") (Some "14:58") (Some "14:58") None (Some "Katowice Załęże") None None;
   MkLine (Some b036) (Some "R") None None None None None None;
   MkLine (Some b030) (Some "R") (Some "15:01") None None (Some "Katowice") None None;
   head (Some "to Katowice");
   head (Some "####");
   head (Some "IC - IC");
   head (Some "6403");
   head (Some "Intercity");
   head (Some "from Wrocław");
   MkLine (Some b098) (Some "IC") None None None None None None;
   MkLine (Some b094) (Some "IC") (Some "14:38") (Some "14:44") None (Some "Gliwice") None None;
   MkLine (Some b087) (Some "IC") None None None None None None;
   MkLine (Some b085) (Some "IC") None None None None None None;
   MkLine (Some b083) (Some "IC") None None None None None None;
   MkLine (Some b081) (Some "IC") None None None None None None;
   MkLine (Some b079) (Some "IC") None None None None None None;
   MkLine (Some b077) (Some "IC") (Some "14:52") (Some "14:52") None (Some "Zabrze") None None;
   MkLine (Some b075) (Some "IC") None None None None None None;
   MkLine (Some b073) (Some "IC") None None None None None None;
   MkLine (Some b071) (Some "IC") None None None None None None;
   MkLine (Some b069) (Some "IC") None None None None None None;
   MkLine (Some b067) (Some "IC") None None None None None None;
   MkLine (Some b065) (Some "IC") None None None None None None;
   MkLine (Some b063) (Some "IC") None None None None None None;
   MkLine (Some b055) (Some "IC") None None None None None None;
   MkLine (Some b048) (Some "IC") None None None None None None;
   MkLine (Some b046) (Some "IC") None None None None None None;
   MkLine (Some b043) (Some "IC") None None None None None None;
   MkLine (Some b041) (Some "IC") None None None None None None;
   MkLine (Some b036) (Some "IC") None None None None None None;
   MkLine (Some b028) (Some "IC") (Some "15:08") None None (Some "Katowice") None None;
   head (Some "to Katowice");
   head (Some "####");
   head (Some "KS - Os");
   head (Some "11");
   head (Some "S1 ");
   head (Some "from Gliwice");
   MkLine (Some b095) (Some "R") None (Some "14:48") None (Some "Gliwice") None None;
   MkLine (Some b087) (Some "R") None None None None None None;
   MkLine (Some b085) (Some "R") None None None None None None;
   MkLine (Some b083) (Some "R") None None None None None None;
   MkLine (Some b081) (Some "R") None None None None None None;
   MkLine (Some b079) (Some "R") None None None None None None;
   MkLine (Some b077) (Some "R") (Some "14:56") (Some "14:56") None (Some "Zabrze") None None;
   MkLine (Some b075) (Some "R") None None None None None None;
   MkLine (Some b073) (Some "R") None None None None None None;
   MkLine (Some b071) (Some "R") (Some "15:01") (Some "15:01") None (Some "Ruda Slaska") None None;
   MkLine (Some b069) (Some "R") None None None None None None;
   MkLine (Some b067) (Some "R") (Some "15:03") (Some "15:03") None (Some "Ruda Chebzie") None None;
   MkLine (Some b065) (Some "R") None None None None None None;
   MkLine (Some b063) (Some "R") (Some "15:06") (Some "15:06") None (Some "Swietochlowice") None None;
   MkLine (Some b055) (Some "R") None None None None None None;
   MkLine (Some b048) (Some "R") (Some "15:10") (Some "15:10") None (Some "Chorzów Batory") None None;
   MkLine (Some b046) (Some "R") None None None None None None;
   MkLine (Some b043) (Some "R") None None None None None None;
   MkLine (Some b041) (Some "R") (Some "15:13") (Some "15:13") None (Some "Katowice Załęże") None None;
   MkLine (Some b036) (Some "R") None None None None None None;
   MkLine (Some b030) (Some "R") (Some "15:16") None None (Some "Katowice") None None;
   head (Some "to Katowice");
   head (Some "####");
   head (Some "KS - Os");
   head (Some "14");
   head (Some "S1");
   head (Some "from Katowice");
   MkLine (Some b022) (Some "R") None (Some "15:00") None (Some "Katowice") None None;
   MkLine (Some b035) (Some "R") None None None None None None;
   MkLine (Some b040) (Some "R") (Some "15:03") (Some "15:03") None (Some "Katowice Załęże") None None;
   MkLine (Some b042) (Some "R") None None None None None None;
   MkLine (Some b045) (Some "R") None None None None None None;
   MkLine (Some b047) (Some "R") (Some "15:06") (Some "15:06") None (Some "Chorzów Batory") None None;
   MkLine (Some b054) (Some "R") None None None None None None;
   MkLine (Some b062) (Some "R") (Some "15:09") (Some "15:09") None (Some "Świętochłowice") None None;
   MkLine (Some b064) (Some "R") None None None None None None;
   MkLine (Some b066) (Some "R") (Some "15:13") (Some "15:13") None (Some "Ruda Chebzie") None None;
   MkLine (Some b068) (Some "R") None None None None None None;
   MkLine (Some b070) (Some "R") (Some "15:15") (Some "15:15") None (Some "Ruda Śląska") None None;
   MkLine (Some b072) (Some "R") None None None None None None;
   MkLine (Some b074) (Some "R") None None None None None None;
   MkLine (Some b076) (Some "R") (Some "15:20") (Some "15:20") None (Some "Zabrze") None None;
   MkLine (Some b078) (Some "R") None None None None None None;
   MkLine (Some b080) (Some "R") None None None None None None;
   MkLine (Some b082) (Some "R") None None None None None None;
   MkLine (Some b084) (Some "R") None None None None None None;
   MkLine (Some b086) (Some "R") None None None None None None;
   MkLine (Some b088) (Some "R") (Some "15:27") None None (Some "Gliwice") None None;
   head (Some "to Gliwice");
   head (Some "####");
   head (Some "IC - IC");
   head (Some "4606");
   head (Some "Intercity");
   head (Some "from Katowice");
   MkLine (Some b025) (Some "IC") None (Some "15:07") None (Some "Katowice") None None;
   MkLine (Some b035) (Some "IC") None None None None None None;
   MkLine (Some b040) (Some "IC") None None None None None None;
   MkLine (Some b042) (Some "IC") None None None None None None;
   MkLine (Some b045) (Some "IC") None None None None None None;
   MkLine (Some b047) (Some "R") (Some "15:13") (Some "15:13") None (Some "Chorz�w Batory") None None;
   MkLine (Some b054) (Some "IC") None None None None None None;
   MkLine (Some b062) (Some "IC") None None None None None None;
   MkLine (Some b064) (Some "IC") None None None None None None;
   MkLine (Some b066) (Some "IC") None None None None None None;
   MkLine (Some b068) (Some "IC") None None None None None None;
   MkLine (Some b070) (Some "IC") None None None None None None;
   MkLine (Some b072) (Some "IC") None None None None None None;
   MkLine (Some b074) (Some "IC") None None None None None None;
   MkLine (Some b076) (Some "IC") (Some "15:23") (Some "15:23") None (Some "Zabrze") None None;
   MkLine (Some b078) (Some "IC") None None None None None None;
   MkLine (Some b080) (Some "IC") None None None None None None;
   MkLine (Some b082) (Some "IC") None None None None None None;
   MkLine (Some b084) (Some "IC") None None None None None None;
   MkLine (Some b086) (Some "IC") None None None None None None;
   MkLine (Some b091) (Some "IC") (Some "15:30") (Some "15:32") None (Some "Gliwice") None None;
   MkLine (Some b097) (Some "IC") None None None None None None;
   head (Some "to Wrocław Główny");
   head (Some "####");
   head (Some "KS - Os");
   head (Some "16");
   head (Some "S1");
   head (Some "from Katowice");
   MkLine (Some b022) (Some "R") None (Some "15:10") None (Some "Katowice") None None;
   MkLine (Some b035) (Some "R") None None None None None None;
   MkLine (Some b040) (Some "R") (Some "15:13") (Some "15:13") None (Some "Katowice Załęże") None None;
   MkLine (Some b042) (Some "R") None None None None None None;
   MkLine (Some b045) (Some "R") None None None None None None;
   MkLine (Some b047) (Some "R") (Some "15:16") (Some "15:16") None (Some "Chorzów Batory") None None;
   MkLine (Some b054) (Some "R") None None None None None None;
   MkLine (Some b062) (Some "R") (Some "15:19") (Some "15:19") None (Some "Świętochłowice") None None;
   MkLine (Some b064) (Some "R") None None None None None None;
   MkLine (Some b066) (Some "R") (Some "15:23") (Some "15:23") None (Some "Ruda Chebzie") None None;
   MkLine (Some b068) (Some "R") None None None None None None;
   MkLine (Some b070) (Some "R") (Some "15:25") (Some "15:25") None (Some "Ruda Śląska") None None;
   MkLine (Some b072) (Some "R") None None None None None None;
   MkLine (Some b074) (Some "R") None None None None None None;
   MkLine (Some b076) (Some "R") (Some "15:30") (Some "15:30") None (Some "Zabrze") None None;
   MkLine (Some b078) (Some "R") None None None None None None;
   MkLine (Some b080) (Some "R") None None None None None None;
   MkLine (Some b082) (Some "R") None None None None None None;
   MkLine (Some b084) (Some "R") None None None None None None;
   MkLine (Some b086) (Some "R") None None None None None None;
   MkLine (Some b088) (Some "R") (Some "15:37") None None (Some "Gliwice") None None;
   head (Some "to Gliwice");
   head (Some "####");
   head (Some "KS - Os");
   head (Some "106");
   head (Some "S8");
   head (Some "from Katowice");
   MkLine (Some b021) (Some "R") None (Some "15:15") None (Some "Katowice") None None;
   MkLine (Some b035) (Some "R") None None None None None None;
   MkLine (Some b040) (Some "R") (Some "15:18") (Some "15:18") None (Some "Katowice Załęże") None None;
   MkLine (Some b042) (Some "R") None None None None None None;
   MkLine (Some b045) (Some "R") None None None None None None;
   MkLine (Some b049) (Some "R") (Some "15:22") (Some "15:23") None (Some "Chorzów Batory") None None;
   MkLine (Some b056) (Some "R") None None None None None None;
   head (Some "to Bytom");
   head (Some "####");
   head (Some "KS - Os");
   head (Some "18");
   head (Some "S1");
   head (Some "from Katowice");
   MkLine (Some b022) (Some "R") None (Some "15:20") None (Some "Katowice") None None;
   MkLine (Some b035) (Some "R") None None None None None None;
   MkLine (Some b040) (Some "R") (Some "15:23") (Some "15:23") None (Some "Katowice Załęże") None None;
   MkLine (Some b042) (Some "R") None None None None None None;
   MkLine (Some b045) (Some "R") None None None None None None;
   MkLine (Some b047) (Some "R") (Some "15:26") (Some "15:26") None (Some "Chorzów Batory") None None;
   MkLine (Some b054) (Some "R") None None None None None None;
   MkLine (Some b062) (Some "R") (Some "15:29") (Some "15:29") None (Some "Świętochłowice") None None;
   MkLine (Some b064) (Some "R") None None None None None None;
   MkLine (Some b066) (Some "R") (Some "15:33") (Some "15:33") None (Some "Ruda Chebzie") None None;
   MkLine (Some b068) (Some "R") None None None None None None;
   MkLine (Some b070) (Some "R") (Some "15:35") (Some "15:35") None (Some "Ruda Śląska") None None;
   MkLine (Some b072) (Some "R") None None None None None None;
   MkLine (Some b074) (Some "R") None None None None None None;
   MkLine (Some b076) (Some "R") (Some "15:40") (Some "15:40") None (Some "Zabrze") None None;
   MkLine (Some b078) (Some "R") None None None None None None;
   MkLine (Some b080) (Some "R") None None None None None None;
   MkLine (Some b082) (Some "R") None None None None None None;
   MkLine (Some b084) (Some "R") None None None None None None;
   MkLine (Some b086) (Some "R") None None None None None None;
   MkLine (Some b088) (Some "R") (Some "15:47") None None (Some "Gliwice") None None;
   head (Some "to Gliwice");
   head (Some "####");
   head (Some "KS - Os");
   head (Some "20");
   head (Some "S1");
   head (Some "from Katowice");
   MkLine (Some b022) (Some "R") None (Some "15:30") None (Some "Katowice") None None;
   MkLine (Some b035) (Some "R") None None None None None None;
   MkLine (Some b040) (Some "R") (Some "15:33") (Some "15:33") None (Some "Katowice Załęże") None None;
   MkLine (Some b042) (Some "R") None None None None None None;
   MkLine (Some b045) (Some "R") None None None None None None;
   MkLine (Some b047) (Some "R") (Some "15:36") (Some "15:36") None (Some "Chorzów Batory") None None;
   MkLine (Some b054) (Some "R") None None None None None None;
   MkLine (Some b062) (Some "R") (Some "15:39") (Some "15:39") None (Some "Świętochłowice") None None;
   MkLine (Some b064) (Some "R") None None None None None None;
   MkLine (Some b066) (Some "R") (Some "15:43") (Some "15:43") None (Some "Ruda Chebzie") None None;
   MkLine (Some b068) (Some "R") None None None None None None;
   MkLine (Some b070) (Some "R") (Some "15:45") (Some "15:45") None (Some "Ruda Śląska") None None;
   MkLine (Some b072) (Some "R") None None None None None None;
   MkLine (Some b074) (Some "R") None None None None None None;
   MkLine (Some b076) (Some "R") (Some "15:50") (Some "15:50") None (Some "Zabrze") None None;
   MkLine (Some b078) (Some "R") None None None None None None;
   MkLine (Some b080) (Some "R") None None None None None None;
   MkLine (Some b082) (Some "R") None None None None None None;
   MkLine (Some b084) (Some "R") None None None None None None;
   MkLine (Some b086) (Some "R") None None None None None None;
   MkLine (Some b088) (Some "R") (Some "15:57") None None (Some "Gliwice") None None;
   head (Some "to Gliwice");
   head (Some "####");
   head (Some "IC - IC");
   head (Some "4608");
   head (Some "Intercity");
   head (Some "from Katowice");
   MkLine (Some b025) (Some "IC") None (Some "15:37") None (Some "Katowice") None None;
   MkLine (Some b035) (Some "IC") None None None None None None;
   MkLine (Some b040) (Some "IC") None None None None None None;
   MkLine (Some b042) (Some "IC") None None None None None None;
   MkLine (Some b045) (Some "IC") None None None None None None;
   MkLine (Some b047) (Some "R") (Some "15:43") (Some "15:43") None (Some "Chorz�w Batory") None None;
   MkLine (Some b054) (Some "IC") None None None None None None;
   MkLine (Some b062) (Some "IC") None None None None None None;
   MkLine (Some b064) (Some "IC") None None None None None None;
   MkLine (Some b066) (Some "IC") None None None None None None;
   MkLine (Some b068) (Some "IC") None None None None None None;
   MkLine (Some b070) (Some "IC") None None None None None None;
   MkLine (Some b072) (Some "IC") None None None None None None;
   MkLine (Some b074) (Some "IC") None None None None None None;
   MkLine (Some b076) (Some "IC") (Some "15:53") (Some "15:53") None (Some "Zabrze") None None;
   MkLine (Some b078) (Some "IC") None None None None None None;
   MkLine (Some b080) (Some "IC") None None None None None None;
   MkLine (Some b082) (Some "IC") None None None None None None;
   MkLine (Some b084) (Some "IC") None None None None None None;
   MkLine (Some b086) (Some "IC") None None None None None None;
   MkLine (Some b091) (Some "IC") (Some "16:00") (Some "16:02") None (Some "Gliwice") None None;
   MkLine (Some b097) (Some "IC") None None None None None None;
   head (Some "to Wrocław Główny");
   head (Some "####");
   head (Some "KS - Os");
   head (Some "22");
   head (Some "S1");
   head (Some "from Katowice");
   MkLine (Some b022) (Some "R") None (Some "15:40") None (Some "Katowice") None None;
   MkLine (Some b035) (Some "R") None None None None None None;
   MkLine (Some b040) (Some "R") (Some "15:43") (Some "15:43") None (Some "Katowice Załęże") None None;
   MkLine (Some b042) (Some "R") None None None None None None;
   MkLine (Some b045) (Some "R") None None None None None None;
   MkLine (Some b047) (Some "R") (Some "15:46") (Some "15:46") None (Some "Chorzów Batory") None None;
   MkLine (Some b054) (Some "R") None None None None None None;
   MkLine (Some b062) (Some "R") (Some "15:49") (Some "15:49") None (Some "Świętochłowice") None None;
   MkLine (Some b064) (Some "R") None None None None None None;
   MkLine (Some b066) (Some "R") (Some "15:53") (Some "15:53") None (Some "Ruda Chebzie") None None;
   MkLine (Some b068) (Some "R") None None None None None None;
   MkLine (Some b070) (Some "R") (Some "15:55") (Some "15:55") None (Some "Ruda Śląska") None None;
   MkLine (Some b072) (Some "R") None None None None None None;
   MkLine (Some b074) (Some "R") None None None None None None;
   MkLine (Some b076) (Some "R") (Some "16:00") (Some "16:00") None (Some "Zabrze") None None;
   MkLine (Some b078) (Some "R") None None None None None None;
   MkLine (Some b080) (Some "R") None None None None None None;
   MkLine (Some b082) (Some "R") None None None None None None;
   MkLine (Some b084) (Some "R") None None None None None None;
   MkLine (Some b086) (Some "R") None None None None None None;
   MkLine (Some b088) (Some "R") (Some "16:07") None None (Some "Gliwice") None None;
   head (Some "to Gliwice");
   head (Some "####");
   head (Some "KS - Os");
   head (Some "108");
   head (Some "S8");
   head (Some "from Katowice");
   MkLine (Some b021) (Some "R") None (Some "15:45") None (Some "Katowice") None None;
   MkLine (Some b035) (Some "R") None None None None None None;
   MkLine (Some b040) (Some "R") (Some "15:48") (Some "15:48") None (Some "Katowice Załęże") None None;
   MkLine (Some b042) (Some "R") None None None None None None;
   MkLine (Some b045) (Some "R") None None None None None None;
   MkLine (Some b049) (Some "R") (Some "15:52") (Some "15:53") None (Some "Chorzów Batory") None None;
   MkLine (Some b056) (Some "R") None None None None None None;
   head (Some "to Bytom");
   head (Some "####");
   head (Some "KS - Os");
   head (Some "24");
   head (Some "S1");
   head (Some "from Katowice");
   MkLine (Some b022) (Some "R") None (Some "15:50") None (Some "Katowice") None None;
   MkLine (Some b035) (Some "R") None None None None None None;
   MkLine (Some b040) (Some "R") (Some "15:53") (Some "15:53") None (Some "Katowice Załęże") None None;
   MkLine (Some b042) (Some "R") None None None None None None;
   MkLine (Some b045) (Some "R") None None None None None None;
   MkLine (Some b047) (Some "R") (Some "15:56") (Some "15:56") None (Some "Chorzów Batory") None None;
   MkLine (Some b054) (Some "R") None None None None None None;
   MkLine (Some b062) (Some "R") (Some "15:59") (Some "15:59") None (Some "Świętochłowice") None None;
   MkLine (Some b064) (Some "R") None None None None None None;
   MkLine (Some b066) (Some "R") (Some "16:03") (Some "16:03") None (Some "Ruda Chebzie") None None;
   MkLine (Some b068) (Some "R") None None None None None None;
   MkLine (Some b070) (Some "R") (Some "16:05") (Some "16:05") None (Some "Ruda Śląska") None None;
   MkLine (Some b072) (Some "R") None None None None None None;
   MkLine (Some b074) (Some "R") None None None None None None;
   MkLine (Some b076) (Some "R") (Some "16:10") (Some "16:10") None (Some "Zabrze") None None;
   MkLine (Some b078) (Some "R") None None None None None None;
   MkLine (Some b080) (Some "R") None None None None None None;
   MkLine (Some b082) (Some "R") None None None None None None;
   MkLine (Some b084) (Some "R") None None None None None None;
   MkLine (Some b086) (Some "R") None None None None None None;
   MkLine (Some b088) (Some "R") (Some "16:17") None None (Some "Gliwice") None None;
   head (Some "to Gliwice");
   head (Some "####");
   head (Some "KS - Os");
   head (Some "13");
   head (Some "S1 ");
   head (Some "from Gliwice");
   MkLine (Some b095) (Some "R") None (Some "14:53") None (Some "Gliwice") None None;
   MkLine (Some b087) (Some "R") None None None None None None;
   MkLine (Some b085) (Some "R") None None None None None None;
   MkLine (Some b083) (Some "R") None None None None None None;
   MkLine (Some b081) (Some "R") None None None None None None;
   MkLine (Some b079) (Some "R") None None None None None None;
   MkLine (Some b077) (Some "R") (Some "15:01") (Some "15:01") None (Some "Zabrze") None None;
   MkLine (Some b075) (Some "R") None None None None None None;
   MkLine (Some b073) (Some "R") None None None None None None;
   MkLine (Some b071) (Some "R") (Some "15:06") (Some "15:06") None (Some "Ruda Slaska") None None;
   MkLine (Some b069) (Some "R") None None None None None None;
   MkLine (Some b067) (Some "R") (Some "15:08") (Some "15:08") None (Some "Ruda Chebzie") None None;
   MkLine (Some b065) (Some "R") None None None None None None;
   MkLine (Some b063) (Some "R") (Some "15:11") (Some "15:11") None (Some "Swietochlowice") None None;
   MkLine (Some b055) (Some "R") None None None None None None;
   MkLine (Some b048) (Some "R") (Some "15:15") (Some "15:15") None (Some "Chorzów Batory") None None;
   MkLine (Some b046) (Some "R") None None None None None None;
   MkLine (Some b043) (Some "R") None None None None None None;
   MkLine (Some b041) (Some "R") (Some "15:18") (Some "15:18") None (Some "Katowice Załęże") None None;
   MkLine (Some b036) (Some "R") None None None None None None;
   MkLine (Some b030) (Some "R") (Some "15:21") None None (Some "Katowice") None None;
   head (Some "to Katowice");
   head (Some "####");
   head (Some "KS - Os");
   head (Some "105");
   head (Some "S8");
   head (Some "from Bytom");
   MkLine (Some b057) (Some "R") None None None None None None;
   MkLine (Some b050) (Some "R") (Some "15:20") (Some "15:21") None (Some "Chorzów Batory") None None;
   MkLine (Some b046) (Some "R") None None None None None None;
   MkLine (Some b043) (Some "R") None None None None None None;
   MkLine (Some b041) (Some "R") (Some "15:24") (Some "15:24") None (Some "Katowice Załęże") None None;
   MkLine (Some b036) (Some "R") None None None None None None;
   MkLine (Some b031) (Some "R") (Some "15:28") None None (Some "Katowice") None None;
   head (Some "to Katowice");
   head (Some "####");
   head (Some "KS - Os");
   head (Some "15");
   head (Some "S1 ");
   head (Some "from Gliwice");
   MkLine (Some b095) (Some "R") None (Some "15:03") None (Some "Gliwice") None None;
   MkLine (Some b087) (Some "R") None None None None None None;
   MkLine (Some b085) (Some "R") None None None None None None;
   MkLine (Some b083) (Some "R") None None None None None None;
   MkLine (Some b081) (Some "R") None None None None None None;
   MkLine (Some b079) (Some "R") None None None None None None;
   MkLine (Some b077) (Some "R") (Some "15:11") (Some "15:11") None (Some "Zabrze") None None;
   MkLine (Some b075) (Some "R") None None None None None None;
   MkLine (Some b073) (Some "R") None None None None None None;
   MkLine (Some b071) (Some "R") (Some "15:16") (Some "15:16") None (Some "Ruda Slaska") None None;
   MkLine (Some b069) (Some "R") None None None None None None;
   MkLine (Some b067) (Some "R") (Some "15:18") (Some "15:18") None (Some "Ruda Chebzie") None None;
   MkLine (Some b065) (Some "R") None None None None None None;
   MkLine (Some b063) (Some "R") (Some "15:21") (Some "15:21") None (Some "Swietochlowice") None None;
   MkLine (Some b055) (Some "R") None None None None None None;
   MkLine (Some b048) (Some "R") (Some "15:25") (Some "15:25") None (Some "Chorzów Batory") None None;
   MkLine (Some b046) (Some "R") None None None None None None;
   MkLine (Some b043) (Some "R") None None None None None None;
   MkLine (Some b041) (Some "R") (Some "15:28") (Some "15:28") None (Some "Katowice Załęże") None None;
   MkLine (Some b036) (Some "R") None None None None None None;
   MkLine (Some b030) (Some "R") (Some "15:31") None None (Some "Katowice") None None;
   head (Some "to Katowice");
   head (Some "####");
   head (Some "IC - IC");
   head (Some "6405");
   head (Some "Intercity");
   head (Some "from Wrocław");
   MkLine (Some b098) (Some "IC") None None None None None None;
   MkLine (Some b094) (Some "IC") (Some "15:08") (Some "15:14") None (Some "Gliwice") None None;
   MkLine (Some b087) (Some "IC") None None None None None None;
   MkLine (Some b085) (Some "IC") None None None None None None;
   MkLine (Some b083) (Some "IC") None None None None None None;
   MkLine (Some b081) (Some "IC") None None None None None None;
   MkLine (Some b079) (Some "IC") None None None None None None;
   MkLine (Some b077) (Some "IC") (Some "15:22") (Some "15:22") None (Some "Zabrze") None None;
   MkLine (Some b075) (Some "IC") None None None None None None;
   MkLine (Some b073) (Some "IC") None None None None None None;
   MkLine (Some b071) (Some "IC") None None None None None None;
   MkLine (Some b069) (Some "IC") None None None None None None;
   MkLine (Some b067) (Some "IC") None None None None None None;
   MkLine (Some b065) (Some "IC") None None None None None None;
   MkLine (Some b063) (Some "IC") None None None None None None;
   MkLine (Some b055) (Some "IC") None None None None None None;
   MkLine (Some b048) (Some "IC") None None None None None None;
   MkLine (Some b046) (Some "IC") None None None None None None;
   MkLine (Some b043) (Some "IC") None None None None None None;
   MkLine (Some b041) (Some "IC") None None None None None None;
   MkLine (Some b036) (Some "IC") None None None None None None;
   MkLine (Some b028) (Some "IC") (Some "15:38") None None (Some "Katowice") None None;
   head (Some "to Katowice");
   head (Some "####");
   head (Some "KS - Os");
   head (Some "17");
   head (Some "S1 ");
   head (Some "from Gliwice");
   MkLine (Some b095) (Some "R") None (Some "15:18") None (Some "Gliwice") None None;
   MkLine (Some b087) (Some "R") None None None None None None;
   MkLine (Some b085) (Some "R") None None None None None None;
   MkLine (Some b083) (Some "R") None None None None None None;
   MkLine (Some b081) (Some "R") None None None None None None;
   MkLine (Some b079) (Some "R") None None None None None None;
   MkLine (Some b077) (Some "R") (Some "15:26") (Some "15:26") None (Some "Zabrze") None None;
   MkLine (Some b075) (Some "R") None None None None None None;
   MkLine (Some b073) (Some "R") None None None None None None;
   MkLine (Some b071) (Some "R") (Some "15:31") (Some "15:31") None (Some "Ruda Slaska") None None;
   MkLine (Some b069) (Some "R") None None None None None None;
   MkLine (Some b067) (Some "R") (Some "15:33") (Some "15:33") None (Some "Ruda Chebzie") None None;
   MkLine (Some b065) (Some "R") None None None None None None;
   MkLine (Some b063) (Some "R") (Some "15:36") (Some "15:36") None (Some "Swietochlowice") None None;
   MkLine (Some b055) (Some "R") None None None None None None;
   MkLine (Some b048) (Some "R") (Some "15:40") (Some "15:40") None (Some "Chorzów Batory") None None;
   MkLine (Some b046) (Some "R") None None None None None None;
   MkLine (Some b043) (Some "R") None None None None None None;
   MkLine (Some b041) (Some "R") (Some "15:43") (Some "15:43") None (Some "Katowice Załęże") None None;
   MkLine (Some b036) (Some "R") None None None None None None;
   MkLine (Some b030) (Some "R") (Some "15:46") None None (Some "Katowice") None None;
   head (Some "to Katowice");
   head (Some "####");
   head (Some "KS - Os");
   head (Some "21");
   head (Some "S1 ");
   head (Some "from Gliwice");
   MkLine (Some b095) (Some "R") None (Some "15:23") None (Some "Gliwice") None None;
   MkLine (Some b087) (Some "R") None None None None None None;
   MkLine (Some b085) (Some "R") None None None None None None;
   MkLine (Some b083) (Some "R") None None None None None None;
   MkLine (Some b081) (Some "R") None None None None None None;
   MkLine (Some b079) (Some "R") None None None None None None;
   MkLine (Some b077) (Some "R") (Some "15:31") (Some "15:31") None (Some "Zabrze") None None;
   MkLine (Some b075) (Some "R") None None None None None None;
   MkLine (Some b073) (Some "R") None None None None None None;
   MkLine (Some b071) (Some "R") (Some "15:36") (Some "15:36") None (Some "Ruda Slaska") None None;
   MkLine (Some b069) (Some "R") None None None None None None;
   MkLine (Some b067) (Some "R") (Some "15:38") (Some "15:38") None (Some "Ruda Chebzie") None None;
   MkLine (Some b065) (Some "R") None None None None None None;
   MkLine (Some b063) (Some "R") (Some "15:41") (Some "15:41") None (Some "Swietochlowice") None None;
   MkLine (Some b055) (Some "R") None None None None None None;
   MkLine (Some b048) (Some "R") (Some "15:45") (Some "15:45") None (Some "Chorzów Batory") None None;
   MkLine (Some b046) (Some "R") None None None None None None;
   MkLine (Some b043) (Some "R") None None None None None None;
   MkLine (Some b041) (Some "R") (Some "15:48") (Some "15:48") None (Some "Katowice Załęże") None None;
   MkLine (Some b036) (Some "R") None None None None None None;
   MkLine (Some b030) (Some "R") (Some "15:51") None None (Some "Katowice") None None;
   head (Some "to Katowice");
   head (Some "####");
   head (Some "KS - Os");
   head (Some "107");
   head (Some "S8");
   head (Some "from Bytom");
   MkLine (Some b057) (Some "R") None None None None None None;
   MkLine (Some b050) (Some "R") (Some "15:50") (Some "15:51") None (Some "Chorzów Batory") None None;
   MkLine (Some b046) (Some "R") None None None None None None;
   MkLine (Some b043) (Some "R") None None None None None None;
   MkLine (Some b041) (Some "R") (Some "15:54") (Some "15:54") None (Some "Katowice Załęże") None None;
   MkLine (Some b036) (Some "R") None None None None None None;
   MkLine (Some b031) (Some "R") (Some "15:58") None None (Some "Katowice") None None;
   head (Some "to Katowice");
   head (Some "####");
   head (Some "KS - Os");
   head (Some "23");
   head (Some "S1 ");
   head (Some "from Gliwice");
   MkLine (Some b095) (Some "R") None (Some "15:33") None (Some "Gliwice") None None;
   MkLine (Some b087) (Some "R") None None None None None None;
   MkLine (Some b085) (Some "R") None None None None None None;
   MkLine (Some b083) (Some "R") None None None None None None;
   MkLine (Some b081) (Some "R") None None None None None None;
   MkLine (Some b079) (Some "R") None None None None None None;
   MkLine (Some b077) (Some "R") (Some "15:41") (Some "15:41") None (Some "Zabrze") None None;
   MkLine (Some b075) (Some "R") None None None None None None;
   MkLine (Some b073) (Some "R") None None None None None None;
   MkLine (Some b071) (Some "R") (Some "15:46") (Some "15:46") None (Some "Ruda Slaska") None None;
   MkLine (Some b069) (Some "R") None None None None None None;
   MkLine (Some b067) (Some "R") (Some "15:48") (Some "15:48") None (Some "Ruda Chebzie") None None;
   MkLine (Some b065) (Some "R") None None None None None None;
   MkLine (Some b063) (Some "R") (Some "15:51") (Some "15:51") None (Some "Swietochlowice") None None;
   MkLine (Some b055) (Some "R") None None None None None None;
   MkLine (Some b048) (Some "R") (Some "15:55") (Some "15:55") None (Some "Chorzów Batory") None None;
   MkLine (Some b046) (Some "R") None None None None None None;
   MkLine (Some b043) (Some "R") None None None None None None;
   MkLine (Some b041) (Some "R") (Some "15:58") (Some "15:58") None (Some "Katowice Załęże") None None;
   MkLine (Some b036) (Some "R") None None None None None None;
   MkLine (Some b030) (Some "R") (Some "16:01") None None (Some "Katowice") None None;
   head (Some "to Katowice");
   head (Some "####");
   head (Some "IC - IC");
   head (Some "6407");
   head (Some "Intercity");
   head (Some "from Wrocław");
   MkLine (Some b098) (Some "IC") None None None None None None;
   MkLine (Some b094) (Some "IC") (Some "15:38") (Some "15:44") None (Some "Gliwice") None None;
   MkLine (Some b087) (Some "IC") None None None None None None;
   MkLine (Some b085) (Some "IC") None None None None None None;
   MkLine (Some b083) (Some "IC") None None None None None None;
   MkLine (Some b081) (Some "IC") None None None None None None;
   MkLine (Some b079) (Some "IC") None None None None None None;
   MkLine (Some b077) (Some "IC") (Some "15:52") (Some "15:52") None (Some "Zabrze") None None;
   MkLine (Some b075) (Some "IC") None None None None None None;
   MkLine (Some b073) (Some "IC") None None None None None None;
   MkLine (Some b071) (Some "IC") None None None None None None;
   MkLine (Some b069) (Some "IC") None None None None None None;
   MkLine (Some b067) (Some "IC") None None None None None None;
   MkLine (Some b065) (Some "IC") None None None None None None;
   MkLine (Some b063) (Some "IC") None None None None None None;
   MkLine (Some b055) (Some "IC") None None None None None None;
   MkLine (Some b048) (Some "IC") None None None None None None;
   MkLine (Some b046) (Some "IC") None None None None None None;
   MkLine (Some b043) (Some "IC") None None None None None None;
   MkLine (Some b041) (Some "IC") None None None None None None;
   MkLine (Some b036) (Some "IC") None None None None None None;
   MkLine (Some b028) (Some "IC") (Some "16:08") None None (Some "Katowice") None None;
   head (Some "to Katowice");
   head (Some "####");
   head (Some "KS - Os");
   head (Some "25");
   head (Some "S1 ");
   head (Some "from Gliwice");
   MkLine (Some b095) (Some "R") None (Some "15:48") None (Some "Gliwice") None None;
   MkLine (Some b087) (Some "R") None None None None None None;
   MkLine (Some b085) (Some "R") None None None None None None;
   MkLine (Some b083) (Some "R") None None None None None None;
   MkLine (Some b081) (Some "R") None None None None None None;
   MkLine (Some b079) (Some "R") None None None None None None;
   MkLine (Some b077) (Some "R") (Some "15:56") (Some "15:56") None (Some "Zabrze") None None;
   MkLine (Some b075) (Some "R") None None None None None None;
   MkLine (Some b073) (Some "R") None None None None None None;
   MkLine (Some b071) (Some "R") (Some "16:01") (Some "16:01") None (Some "Ruda Slaska") None None;
   MkLine (Some b069) (Some "R") None None None None None None;
   MkLine (Some b067) (Some "R") (Some "16:03") (Some "16:03") None (Some "Ruda Chebzie") None None;
   MkLine (Some b065) (Some "R") None None None None None None;
   MkLine (Some b063) (Some "R") (Some "16:06") (Some "16:06") None (Some "Swietochlowice") None None;
   MkLine (Some b055) (Some "R") None None None None None None;
   MkLine (Some b048) (Some "R") (Some "16:10") (Some "16:10") None (Some "Chorzów Batory") None None;
   MkLine (Some b046) (Some "R") None None None None None None;
   MkLine (Some b043) (Some "R") None None None None None None;
   MkLine (Some b041) (Some "R") (Some "16:13") (Some "16:13") None (Some "Katowice Załęże") None None;
   MkLine (Some b036) (Some "R") None None None None None None;
   MkLine (Some b030) (Some "R") (Some "16:16") None None (Some "Katowice") None None;
   head (Some "to Katowice");
   head (Some "####");
   head (Some "KS - Os");
   head (Some "26");
   head (Some "S1");
   head (Some "from Katowice");
   MkLine (Some b022) (Some "R") None (Some "16:00") None (Some "Katowice") None None;
   MkLine (Some b035) (Some "R") None None None None None None;
   MkLine (Some b040) (Some "R") (Some "16:03") (Some "16:03") None (Some "Katowice Załęże") None None;
   MkLine (Some b042) (Some "R") None None None None None None;
   MkLine (Some b045) (Some "R") None None None None None None;
   MkLine (Some b047) (Some "R") (Some "16:06") (Some "16:06") None (Some "Chorzów Batory") None None;
   MkLine (Some b054) (Some "R") None None None None None None;
   MkLine (Some b062) (Some "R") (Some "16:09") (Some "16:09") None (Some "Świętochłowice") None None;
   MkLine (Some b064) (Some "R") None None None None None None;
   MkLine (Some b066) (Some "R") (Some "16:13") (Some "16:13") None (Some "Ruda Chebzie") None None;
   MkLine (Some b068) (Some "R") None None None None None None;
   MkLine (Some b070) (Some "R") (Some "16:15") (Some "16:15") None (Some "Ruda Śląska") None None;
   MkLine (Some b072) (Some "R") None None None None None None;
   MkLine (Some b074) (Some "R") None None None None None None;
   MkLine (Some b076) (Some "R") (Some "16:20") (Some "16:20") None (Some "Zabrze") None None;
   MkLine (Some b078) (Some "R") None None None None None None;
   MkLine (Some b080) (Some "R") None None None None None None;
   MkLine (Some b082) (Some "R") None None None None None None;
   MkLine (Some b084) (Some "R") None None None None None None;
   MkLine (Some b086) (Some "R") None None None None None None;
   MkLine (Some b088) (Some "R") (Some "16:27") None None (Some "Gliwice") None None;
   head (Some "to Gliwice");
   head (Some "####");
   head (Some "IC - IC");
   head (Some "4610");
   head (Some "Intercity");
   head (Some "from Katowice");
   MkLine (Some b025) (Some "IC") None (Some "16:07") None (Some "Katowice") None None;
   MkLine (Some b035) (Some "IC") None None None None None None;
   MkLine (Some b040) (Some "IC") None None None None None None;
   MkLine (Some b042) (Some "IC") None None None None None None;
   MkLine (Some b045) (Some "IC") None None None None None None;
   MkLine (Some b047) (Some "R") (Some "16:13") (Some "16:13") None (Some "Chorz�w Batory") None None;
   MkLine (Some b054) (Some "IC") None None None None None None;
   MkLine (Some b062) (Some "IC") None None None None None None;
   MkLine (Some b064) (Some "IC") None None None None None None;
   MkLine (Some b066) (Some "IC") None None None None None None;
   MkLine (Some b068) (Some "IC") None None None None None None;
   MkLine (Some b070) (Some "IC") None None None None None None;
   MkLine (Some b072) (Some "IC") None None None None None None;
   MkLine (Some b074) (Some "IC") None None None None None None;
   MkLine (Some b076) (Some "IC") (Some "16:23") (Some "16:23") None (Some "Zabrze") None None;
   MkLine (Some b078) (Some "IC") None None None None None None;
   MkLine (Some b080) (Some "IC") None None None None None None;
   MkLine (Some b082) (Some "IC") None None None None None None;
   MkLine (Some b084) (Some "IC") None None None None None None;
   MkLine (Some b086) (Some "IC") None None None None None None;
   MkLine (Some b091) (Some "IC") (Some "16:30") (Some "16:32") None (Some "Gliwice") None None;
   MkLine (Some b097) (Some "IC") None None None None None None;
   head (Some "to Wrocław Główny");
   head (Some "####");
   head (Some "KS - Os");
   head (Some "28");
   head (Some "S1");
   head (Some "from Katowice");
   MkLine (Some b022) (Some "R") None (Some "16:10") None (Some "Katowice") None None;
   MkLine (Some b035) (Some "R") None None None None None None;
   MkLine (Some b040) (Some "R") (Some "16:13") (Some "16:13") None (Some "Katowice Załęże") None None;
   MkLine (Some b042) (Some "R") None None None None None None;
   MkLine (Some b045) (Some "R") None None None None None None;
   MkLine (Some b047) (Some "R") (Some "16:16") (Some "16:16") None (Some "Chorzów Batory") None None;
   MkLine (Some b054) (Some "R") None None None None None None;
   MkLine (Some b062) (Some "R") (Some "16:19") (Some "16:19") None (Some "Świętochłowice") None None;
   MkLine (Some b064) (Some "R") None None None None None None;
   MkLine (Some b066) (Some "R") (Some "16:23") (Some "16:23") None (Some "Ruda Chebzie") None None;
   MkLine (Some b068) (Some "R") None None None None None None;
   MkLine (Some b070) (Some "R") (Some "16:25") (Some "16:25") None (Some "Ruda Śląska") None None;
   MkLine (Some b072) (Some "R") None None None None None None;
   MkLine (Some b074) (Some "R") None None None None None None;
   MkLine (Some b076) (Some "R") (Some "16:30") (Some "16:30") None (Some "Zabrze") None None;
   MkLine (Some b078) (Some "R") None None None None None None;
   MkLine (Some b080) (Some "R") None None None None None None;
   MkLine (Some b082) (Some "R") None None None None None None;
   MkLine (Some b084) (Some "R") None None None None None None;
   MkLine (Some b086) (Some "R") None None None None None None;
   MkLine (Some b088) (Some "R") (Some "16:37") None None (Some "Gliwice") None None;
   head (Some "to Gliwice");
   head (Some "####");
   head (Some "KS - Os");
   head (Some "112");
   head (Some "S8");
   head (Some "from Katowice");
   MkLine (Some b021) (Some "R") None (Some "16:15") None (Some "Katowice") None None;
   MkLine (Some b035) (Some "R") None None None None None None;
   MkLine (Some b040) (Some "R") (Some "16:18") (Some "16:18") None (Some "Katowice Załęże") None None;
   MkLine (Some b042) (Some "R") None None None None None None;
   MkLine (Some b045) (Some "R") None None None None None None;
   MkLine (Some b049) (Some "R") (Some "16:22") (Some "16:23") None (Some "Chorzów Batory") None None;
   MkLine (Some b056) (Some "R") None None None None None None;
   head (Some "to Bytom");
   head (Some "####");
   head (Some "KS - Os");
   head (Some "30");
   head (Some "S1");
   head (Some "from Katowice");
   MkLine (Some b022) (Some "R") None (Some "16:20") None (Some "Katowice") None None;
   MkLine (Some b035) (Some "R") None None None None None None;
   MkLine (Some b040) (Some "R") (Some "16:23") (Some "16:23") None (Some "Katowice Załęże") None None;
   MkLine (Some b042) (Some "R") None None None None None None;
   MkLine (Some b045) (Some "R") None None None None None None;
   MkLine (Some b047) (Some "R") (Some "16:26") (Some "16:26") None (Some "Chorzów Batory") None None;
   MkLine (Some b054) (Some "R") None None None None None None;
   MkLine (Some b062) (Some "R") (Some "16:29") (Some "16:29") None (Some "Świętochłowice") None None;
   MkLine (Some b064) (Some "R") None None None None None None;
   MkLine (Some b066) (Some "R") (Some "16:33") (Some "16:33") None (Some "Ruda Chebzie") None None;
   MkLine (Some b068) (Some "R") None None None None None None;
   MkLine (Some b070) (Some "R") (Some "16:35") (Some "16:35") None (Some "Ruda Śląska") None None;
   MkLine (Some b072) (Some "R") None None None None None None;
   MkLine (Some b074) (Some "R") None None None None None None;
   MkLine (Some b076) (Some "R") (Some "16:40") (Some "16:40") None (Some "Zabrze") None None;
   MkLine (Some b078) (Some "R") None None None None None None;
   MkLine (Some b080) (Some "R") None None None None None None;
   MkLine (Some b082) (Some "R") None None None None None None;
   MkLine (Some b084) (Some "R") None None None None None None;
   MkLine (Some b086) (Some "R") None None None None None None;
   MkLine (Some b088) (Some "R") (Some "16:47") None None (Some "Gliwice") None None;
   head (Some "to Gliwice");
   head (Some "####");
   head (Some "KS - Os");
   head (Some "32");
   head (Some "S1");
   head (Some "from Katowice");
   MkLine (Some b022) (Some "R") None (Some "16:30") None (Some "Katowice") None None;
   MkLine (Some b035) (Some "R") None None None None None None;
   MkLine (Some b040) (Some "R") (Some "16:33") (Some "16:33") None (Some "Katowice Załęże") None None;
   MkLine (Some b042) (Some "R") None None None None None None;
   MkLine (Some b045) (Some "R") None None None None None None;
   MkLine (Some b047) (Some "R") (Some "16:36") (Some "16:36") None (Some "Chorzów Batory") None None;
   MkLine (Some b054) (Some "R") None None None None None None;
   MkLine (Some b062) (Some "R") (Some "16:39") (Some "16:39") None (Some "Świętochłowice") None None;
   MkLine (Some b064) (Some "R") None None None None None None;
   MkLine (Some b066) (Some "R") (Some "16:43") (Some "16:43") None (Some "Ruda Chebzie") None None;
   MkLine (Some b068) (Some "R") None None None None None None;
   MkLine (Some b070) (Some "R") (Some "16:45") (Some "16:45") None (Some "Ruda Śląska") None None;
   MkLine (Some b072) (Some "R") None None None None None None;
   MkLine (Some b074) (Some "R") None None None None None None;
   MkLine (Some b076) (Some "R") (Some "16:50") (Some "16:50") None (Some "Zabrze") None None;
   MkLine (Some b078) (Some "R") None None None None None None;
   MkLine (Some b080) (Some "R") None None None None None None;
   MkLine (Some b082) (Some "R") None None None None None None;
   MkLine (Some b084) (Some "R") None None None None None None;
   MkLine (Some b086) (Some "R") None None None None None None;
   MkLine (Some b088) (Some "R") (Some "16:57") None None (Some "Gliwice") None None;
   head (Some "to Gliwice");
   head (Some "####");
   head (Some "IC - IC");
   head (Some "4612");
   head (Some "Intercity");
   head (Some "from Katowice");
   MkLine (Some b025) (Some "IC") None (Some "16:37") None (Some "Katowice") None None;
   MkLine (Some b035) (Some "IC") None None None None None None;
   MkLine (Some b040) (Some "IC") None None None None None None;
   MkLine (Some b042) (Some "IC") None None None None None None;
   MkLine (Some b045) (Some "IC") None None None None None None;
   MkLine (Some b047) (Some "R") (Some "16:43") (Some "16:43") None (Some "Chorz�w Batory") None None;
   MkLine (Some b054) (Some "IC") None None None None None None;
   MkLine (Some b062) (Some "IC") None None None None None None;
   MkLine (Some b064) (Some "IC") None None None None None None;
   MkLine (Some b066) (Some "IC") None None None None None None;
   MkLine (Some b068) (Some "IC") None None None None None None;
   MkLine (Some b070) (Some "IC") None None None None None None;
   MkLine (Some b072) (Some "IC") None None None None None None;
   MkLine (Some b074) (Some "IC") None None None None None None;
   MkLine (Some b076) (Some "IC") (Some "16:53") (Some "16:53") None (Some "Zabrze") None None;
   MkLine (Some b078) (Some "IC") None None None None None None;
   MkLine (Some b080) (Some "IC") None None None None None None;
   MkLine (Some b082) (Some "IC") None None None None None None;
   MkLine (Some b084) (Some "IC") None None None None None None;
   MkLine (Some b086) (Some "IC") None None None None None None;
   MkLine (Some b091) (Some "IC") (Some "17:00") (Some "17:02") None (Some "Gliwice") None None;
   MkLine (Some b097) (Some "IC") None None None None None None;
   head (Some "to Wrocław Główny");
   head (Some "####");
   head (Some "KS - Os");
   head (Some "34");
   head (Some "S1");
   head (Some "from Katowice");
   MkLine (Some b022) (Some "R") None (Some "16:40") None (Some "Katowice") None None;
   MkLine (Some b035) (Some "R") None None None None None None;
   MkLine (Some b040) (Some "R") (Some "16:43") (Some "16:43") None (Some "Katowice Załęże") None None;
   MkLine (Some b042) (Some "R") None None None None None None;
   MkLine (Some b045) (Some "R") None None None None None None;
   MkLine (Some b047) (Some "R") (Some "16:46") (Some "16:46") None (Some "Chorzów Batory") None None;
   MkLine (Some b054) (Some "R") None None None None None None;
   MkLine (Some b062) (Some "R") (Some "16:49") (Some "16:49") None (Some "Świętochłowice") None None;
   MkLine (Some b064) (Some "R") None None None None None None;
   MkLine (Some b066) (Some "R") (Some "16:53") (Some "16:53") None (Some "Ruda Chebzie") None None;
   MkLine (Some b068) (Some "R") None None None None None None;
   MkLine (Some b070) (Some "R") (Some "16:55") (Some "16:55") None (Some "Ruda Śląska") None None;
   MkLine (Some b072) (Some "R") None None None None None None;
   MkLine (Some b074) (Some "R") None None None None None None;
   MkLine (Some b076) (Some "R") (Some "17:00") (Some "17:00") None (Some "Zabrze") None None;
   MkLine (Some b078) (Some "R") None None None None None None;
   MkLine (Some b080) (Some "R") None None None None None None;
   MkLine (Some b082) (Some "R") None None None None None None;
   MkLine (Some b084) (Some "R") None None None None None None;
   MkLine (Some b086) (Some "R") None None None None None None;
   MkLine (Some b088) (Some "R") (Some "17:07") None None (Some "Gliwice") None None;
   head (Some "to Gliwice");
   head (Some "####");
   head (Some "KS - Os");
   head (Some "114");
   head (Some "S8");
   head (Some "from Katowice");
   MkLine (Some b021) (Some "R") None (Some "16:45") None (Some "Katowice") None None;
   MkLine (Some b035) (Some "R") None None None None None None;
   MkLine (Some b040) (Some "R") (Some "16:48") (Some "16:48") None (Some "Katowice Załęże") None None;
   MkLine (Some b042) (Some "R") None None None None None None;
   MkLine (Some b045) (Some "R") None None None None None None;
   MkLine (Some b049) (Some "R") (Some "16:52") (Some "16:53") None (Some "Chorzów Batory") None None;
   MkLine (Some b056) (Some "R") None None None None None None;
   head (Some "to Bytom");
   head (Some "####");
   head (Some "KS - Os");
   head (Some "36");
   head (Some "S1");
   head (Some "from Katowice");
   MkLine (Some b022) (Some "R") None (Some "16:50") None (Some "Katowice") None None;
   MkLine (Some b035) (Some "R") None None None None None None;
   MkLine (Some b040) (Some "R") (Some "16:53") (Some "16:53") None (Some "Katowice Załęże") None None;
   MkLine (Some b042) (Some "R") None None None None None None;
   MkLine (Some b045) (Some "R") None None None None None None;
   MkLine (Some b047) (Some "R") (Some "16:56") (Some "16:56") None (Some "Chorzów Batory") None None;
   MkLine (Some b054) (Some "R") None None None None None None;
   MkLine (Some b062) (Some "R") (Some "16:59") (Some "16:59") None (Some "Świętochłowice") None None;
   MkLine (Some b064) (Some "R") None None None None None None;
   MkLine (Some b066) (Some "R") (Some "17:03") (Some "17:03") None (Some "Ruda Chebzie") None None;
   MkLine (Some b068) (Some "R") None None None None None None;
   MkLine (Some b070) (Some "R") (Some "17:05") (Some "17:05") None (Some "Ruda Śląska") None None;
   MkLine (Some b072) (Some "R") None None None None None None;
   MkLine (Some b074) (Some "R") None None None None None None;
   MkLine (Some b076) (Some "R") (Some "17:10") (Some "17:10") None (Some "Zabrze") None None;
   MkLine (Some b078) (Some "R") None None None None None None;
   MkLine (Some b080) (Some "R") None None None None None None;
   MkLine (Some b082) (Some "R") None None None None None None;
   MkLine (Some b084) (Some "R") None None None None None None;
   MkLine (Some b086) (Some "R") None None None None None None;
   MkLine (Some b088) (Some "R") (Some "17:17") None None (Some "Gliwice") None None;
   head (Some "to Gliwice");
   head (Some "####");
   head (Some "KS - Os");
   head (Some "27");
   head (Some "S1 ");
   head (Some "from Gliwice");
   MkLine (Some b095) (Some "R") None (Some "15:53") None (Some "Gliwice") None None;
   MkLine (Some b087) (Some "R") None None None None None None;
   MkLine (Some b085) (Some "R") None None None None None None;
   MkLine (Some b083) (Some "R") None None None None None None;
   MkLine (Some b081) (Some "R") None None None None None None;
   MkLine (Some b079) (Some "R") None None None None None None;
   MkLine (Some b077) (Some "R") (Some "16:01") (Some "16:01") None (Some "Zabrze") None None;
   MkLine (Some b075) (Some "R") None None None None None None;
   MkLine (Some b073) (Some "R") None None None None None None;
   MkLine (Some b071) (Some "R") (Some "16:06") (Some "16:06") None (Some "Ruda Slaska") None None;
   MkLine (Some b069) (Some "R") None None None None None None;
   MkLine (Some b067) (Some "R") (Some "16:08") (Some "16:08") None (Some "Ruda Chebzie") None None;
   MkLine (Some b065) (Some "R") None None None None None None;
   MkLine (Some b063) (Some "R") (Some "16:11") (Some "16:11") None (Some "Swietochlowice") None None;
   MkLine (Some b055) (Some "R") None None None None None None;
   MkLine (Some b048) (Some "R") (Some "16:15") (Some "16:15") None (Some "Chorzów Batory") None None;
   MkLine (Some b046) (Some "R") None None None None None None;
   MkLine (Some b043) (Some "R") None None None None None None;
   MkLine (Some b041) (Some "R") (Some "16:18") (Some "16:18") None (Some "Katowice Załęże") None None;
   MkLine (Some b036) (Some "R") None None None None None None;
   MkLine (Some b030) (Some "R") (Some "16:21") None None (Some "Katowice") None None;
   head (Some "to Katowice");
   head (Some "####");
   head (Some "KS - Os");
   head (Some "111");
   head (Some "S8");
   head (Some "from Bytom");
   MkLine (Some b057) (Some "R") None None None None None None;
   MkLine (Some b050) (Some "R") (Some "16:20") (Some "16:21") None (Some "Chorzów Batory") None None;
   MkLine (Some b046) (Some "R") None None None None None None;
   MkLine (Some b043) (Some "R") None None None None None None;
   MkLine (Some b041) (Some "R") (Some "16:24") (Some "16:24") None (Some "Katowice Załęże") None None;
   MkLine (Some b036) (Some "R") None None None None None None;
   MkLine (Some b031) (Some "R") (Some "16:28") None None (Some "Katowice") None None;
   head (Some "to Katowice");
   head (Some "####");
   head (Some "KS - Os");
   head (Some "31");
   head (Some "S1 ");
   head (Some "from Gliwice");
   MkLine (Some b095) (Some "R") None (Some "16:03") None (Some "Gliwice") None None;
   MkLine (Some b087) (Some "R") None None None None None None;
   MkLine (Some b085) (Some "R") None None None None None None;
   MkLine (Some b083) (Some "R") None None None None None None;
   MkLine (Some b081) (Some "R") None None None None None None;
   MkLine (Some b079) (Some "R") None None None None None None;
   MkLine (Some b077) (Some "R") (Some "16:11") (Some "16:11") None (Some "Zabrze") None None;
   MkLine (Some b075) (Some "R") None None None None None None;
   MkLine (Some b073) (Some "R") None None None None None None;
   MkLine (Some b071) (Some "R") (Some "16:16") (Some "16:16") None (Some "Ruda Slaska") None None;
   MkLine (Some b069) (Some "R") None None None None None None;
   MkLine (Some b067) (Some "R") (Some "16:18") (Some "16:18") None (Some "Ruda Chebzie") None None;
   MkLine (Some b065) (Some "R") None None None None None None;
   MkLine (Some b063) (Some "R") (Some "16:21") (Some "16:21") None (Some "Swietochlowice") None None;
   MkLine (Some b055) (Some "R") None None None None None None;
   MkLine (Some b048) (Some "R") (Some "16:25") (Some "16:25") None (Some "Chorzów Batory") None None;
   MkLine (Some b046) (Some "R") None None None None None None;
   MkLine (Some b043) (Some "R") None None None None None None;
   MkLine (Some b041) (Some "R") (Some "16:28") (Some "16:28") None (Some "Katowice Załęże") None None;
   MkLine (Some b036) (Some "R") None None None None None None;
   MkLine (Some b030) (Some "R") (Some "16:31") None None (Some "Katowice") None None;
   head (Some "to Katowice");
   head (Some "####");
   head (Some "IC - IC");
   head (Some "6411");
   head (Some "Intercity");
   head (Some "from Wrocław");
   MkLine (Some b098) (Some "IC") None None None None None None;
   MkLine (Some b094) (Some "IC") (Some "16:08") (Some "16:14") None (Some "Gliwice") None None;
   MkLine (Some b087) (Some "IC") None None None None None None;
   MkLine (Some b085) (Some "IC") None None None None None None;
   MkLine (Some b083) (Some "IC") None None None None None None;
   MkLine (Some b081) (Some "IC") None None None None None None;
   MkLine (Some b079) (Some "IC") None None None None None None;
   MkLine (Some b077) (Some "IC") (Some "16:22") (Some "16:22") None (Some "Zabrze") None None;
   MkLine (Some b075) (Some "IC") None None None None None None;
   MkLine (Some b073) (Some "IC") None None None None None None;
   MkLine (Some b071) (Some "IC") None None None None None None;
   MkLine (Some b069) (Some "IC") None None None None None None;
   MkLine (Some b067) (Some "IC") None None None None None None;
   MkLine (Some b065) (Some "IC") None None None None None None;
   MkLine (Some b063) (Some "IC") None None None None None None;
   MkLine (Some b055) (Some "IC") None None None None None None;
   MkLine (Some b048) (Some "IC") None None None None None None;
   MkLine (Some b046) (Some "IC") None None None None None None;
   MkLine (Some b043) (Some "IC") None None None None None None;
   MkLine (Some b041) (Some "IC") None None None None None None;
   MkLine (Some b036) (Some "IC") None None None None None None;
   MkLine (Some b028) (Some "IC") (Some "16:38") None None (Some "Katowice") None None;
   head (Some "to Katowice");
   head (Some "####");
   head (Some "KS - Os");
   head (Some "33");
   head (Some "S1 ");
   head (Some "from Gliwice");
   MkLine (Some b095) (Some "R") None (Some "16:18") None (Some "Gliwice") None None;
   MkLine (Some b087) (Some "R") None None None None None None;
   MkLine (Some b085) (Some "R") None None None None None None;
   MkLine (Some b083) (Some "R") None None None None None None;
   MkLine (Some b081) (Some "R") None None None None None None;
   MkLine (Some b079) (Some "R") None None None None None None;
   MkLine (Some b077) (Some "R") (Some "16:26") (Some "16:26") None (Some "Zabrze") None None;
   MkLine (Some b075) (Some "R") None None None None None None;
   MkLine (Some b073) (Some "R") None None None None None None;
   MkLine (Some b071) (Some "R") (Some "16:31") (Some "16:31") None (Some "Ruda Slaska") None None;
   MkLine (Some b069) (Some "R") None None None None None None;
   MkLine (Some b067) (Some "R") (Some "16:33") (Some "16:33") None (Some "Ruda Chebzie") None None;
   MkLine (Some b065) (Some "R") None None None None None None;
   MkLine (Some b063) (Some "R") (Some "16:36") (Some "16:36") None (Some "Swietochlowice") None None;
   MkLine (Some b055) (Some "R") None None None None None None;
   MkLine (Some b048) (Some "R") (Some "16:40") (Some "16:40") None (Some "Chorzów Batory") None None;
   MkLine (Some b046) (Some "R") None None None None None None;
   MkLine (Some b043) (Some "R") None None None None None None;
   MkLine (Some b041) (Some "R") (Some "16:43") (Some "16:43") None (Some "Katowice Załęże") None None;
   MkLine (Some b036) (Some "R") None None None None None None;
   MkLine (Some b030) (Some "R") (Some "16:46") None None (Some "Katowice") None None;
   head (Some "to Katowice");
   head (Some "####");
   head (Some "KS - Os");
   head (Some "35");
   head (Some "S1 ");
   head (Some "from Gliwice");
   MkLine (Some b095) (Some "R") None (Some "16:23") None (Some "Gliwice") None None;
   MkLine (Some b087) (Some "R") None None None None None None;
   MkLine (Some b085) (Some "R") None None None None None None;
   MkLine (Some b083) (Some "R") None None None None None None;
   MkLine (Some b081) (Some "R") None None None None None None;
   MkLine (Some b079) (Some "R") None None None None None None;
   MkLine (Some b077) (Some "R") (Some "16:31") (Some "16:31") None (Some "Zabrze") None None;
   MkLine (Some b075) (Some "R") None None None None None None;
   MkLine (Some b073) (Some "R") None None None None None None;
   MkLine (Some b071) (Some "R") (Some "16:36") (Some "16:36") None (Some "Ruda Slaska") None None;
   MkLine (Some b069) (Some "R") None None None None None None;
   MkLine (Some b067) (Some "R") (Some "16:38") (Some "16:38") None (Some "Ruda Chebzie") None None;
   MkLine (Some b065) (Some "R") None None None None None None;
   MkLine (Some b063) (Some "R") (Some "16:41") (Some "16:41") None (Some "Swietochlowice") None None;
   MkLine (Some b055) (Some "R") None None None None None None;
   MkLine (Some b048) (Some "R") (Some "16:45") (Some "16:45") None (Some "Chorzów Batory") None None;
   MkLine (Some b046) (Some "R") None None None None None None;
   MkLine (Some b043) (Some "R") None None None None None None;
   MkLine (Some b041) (Some "R") (Some "16:48") (Some "16:48") None (Some "Katowice Załęże") None None;
   MkLine (Some b036) (Some "R") None None None None None None;
   MkLine (Some b030) (Some "R") (Some "16:51") None None (Some "Katowice") None None;
   head (Some "to Katowice");
   head (Some "####");
   head (Some "KS - Os");
   head (Some "113");
   head (Some "S8");
   head (Some "from Bytom");
   MkLine (Some b057) (Some "R") None None None None None None;
   MkLine (Some b050) (Some "R") (Some "16:50") (Some "16:51") None (Some "Chorzów Batory") None None;
   MkLine (Some b046) (Some "R") None None None None None None;
   MkLine (Some b043) (Some "R") None None None None None None;
   MkLine (Some b041) (Some "R") (Some "16:54") (Some "16:54") None (Some "Katowice Załęże") None None;
   MkLine (Some b036) (Some "R") None None None None None None;
   MkLine (Some b031) (Some "R") (Some "16:58") None None (Some "Katowice") None None;
   head (Some "to Katowice");
   head (Some "####");
   head (Some "KS - Os");
   head (Some "37");
   head (Some "S1 ");
   head (Some "from Gliwice");
   MkLine (Some b095) (Some "R") None (Some "16:33") None (Some "Gliwice") None None;
   MkLine (Some b087) (Some "R") None None None None None None;
   MkLine (Some b085) (Some "R") None None None None None None;
   MkLine (Some b083) (Some "R") None None None None None None;
   MkLine (Some b081) (Some "R") None None None None None None;
   MkLine (Some b079) (Some "R") None None None None None None;
   MkLine (Some b077) (Some "R") (Some "16:41") (Some "16:41") None (Some "Zabrze") None None;
   MkLine (Some b075) (Some "R") None None None None None None;
   MkLine (Some b073) (Some "R") None None None None None None;
   MkLine (Some b071) (Some "R") (Some "16:46") (Some "16:46") None (Some "Ruda Slaska") None None;
   MkLine (Some b069) (Some "R") None None None None None None;
   MkLine (Some b067) (Some "R") (Some "16:48") (Some "16:48") None (Some "Ruda Chebzie") None None;
   MkLine (Some b065) (Some "R") None None None None None None;
   MkLine (Some b063) (Some "R") (Some "16:51") (Some "16:51") None (Some "Swietochlowice") None None;
   MkLine (Some b055) (Some "R") None None None None None None;
   MkLine (Some b048) (Some "R") (Some "16:55") (Some "16:55") None (Some "Chorzów Batory") None None;
   MkLine (Some b046) (Some "R") None None None None None None;
   MkLine (Some b043) (Some "R") None None None None None None;
   MkLine (Some b041) (Some "R") (Some "16:58") (Some "16:58") None (Some "Katowice Załęże") None None;
   MkLine (Some b036) (Some "R") None None None None None None;
   MkLine (Some b030) (Some "R") (Some "17:01") None None (Some "Katowice") None None;
   head (Some "to Katowice");
   head (Some "####");
   head (Some "IC - IC");
   head (Some "6413");
   head (Some "Intercity");
   head (Some "from Wrocław");
   MkLine (Some b098) (Some "IC") None None None None None None;
   MkLine (Some b094) (Some "IC") (Some "16:38") (Some "16:44") None (Some "Gliwice") None None;
   MkLine (Some b087) (Some "IC") None None None None None None;
   MkLine (Some b085) (Some "IC") None None None None None None;
   MkLine (Some b083) (Some "IC") None None None None None None;
   MkLine (Some b081) (Some "IC") None None None None None None;
   MkLine (Some b079) (Some "IC") None None None None None None;
   MkLine (Some b077) (Some "IC") (Some "16:52") (Some "16:52") None (Some "Zabrze") None None;
   MkLine (Some b075) (Some "IC") None None None None None None;
   MkLine (Some b073) (Some "IC") None None None None None None;
   MkLine (Some b071) (Some "IC") None None None None None None;
   MkLine (Some b069) (Some "IC") None None None None None None;
   MkLine (Some b067) (Some "IC") None None None None None None;
   MkLine (Some b065) (Some "IC") None None None None None None;
   MkLine (Some b063) (Some "IC") None None None None None None;
   MkLine (Some b055) (Some "IC") None None None None None None;
   MkLine (Some b048) (Some "IC") None None None None None None;
   MkLine (Some b046) (Some "IC") None None None None None None;
   MkLine (Some b043) (Some "IC") None None None None None None;
   MkLine (Some b041) (Some "IC") None None None None None None;
   MkLine (Some b036) (Some "IC") None None None None None None;
   MkLine (Some b028) (Some "IC") (Some "17:08") None None (Some "Katowice") None None;
   head (Some "to Katowice");
   head (Some "####");
   head (Some "KS - Os");
   head (Some "41");
   head (Some "S1 ");
   head (Some "from Gliwice");
   MkLine (Some b095) (Some "R") None (Some "16:48") None (Some "Gliwice") None None;
   MkLine (Some b087) (Some "R") None None None None None None;
   MkLine (Some b085) (Some "R") None None None None None None;
   MkLine (Some b083) (Some "R") None None None None None None;
   MkLine (Some b081) (Some "R") None None None None None None;
   MkLine (Some b079) (Some "R") None None None None None None;
   MkLine (Some b077) (Some "R") (Some "16:56") (Some "16:56") None (Some "Zabrze") None None;
   MkLine (Some b075) (Some "R") None None None None None None;
   MkLine (Some b073) (Some "R") None None None None None None;
   MkLine (Some b071) (Some "R") (Some "17:01") (Some "17:01") None (Some "Ruda Slaska") None None;
   MkLine (Some b069) (Some "R") None None None None None None;
   MkLine (Some b067) (Some "R") (Some "17:03") (Some "17:03") None (Some "Ruda Chebzie") None None;
   MkLine (Some b065) (Some "R") None None None None None None;
   MkLine (Some b063) (Some "R") (Some "17:06") (Some "17:06") None (Some "Swietochlowice") None None;
   MkLine (Some b055) (Some "R") None None None None None None;
   MkLine (Some b048) (Some "R") (Some "17:10") (Some "17:10") None (Some "Chorzów Batory") None None;
   MkLine (Some b046) (Some "R") None None None None None None;
   MkLine (Some b043) (Some "R") None None None None None None;
   MkLine (Some b041) (Some "R") (Some "17:13") (Some "17:13") None (Some "Katowice Załęże") None None;
   MkLine (Some b036) (Some "R") None None None None None None;
   MkLine (Some b030) (Some "R") (Some "17:16") None None (Some "Katowice") None None;
   head (Some "to Katowice")].

(** data/KO_GLC/trains_schedules_KO_RCB_ZZ_GLC.csv *)
Definition schedule_glc_r : list line :=
  [head (Some "####");
   head (Some "KS - Os");
   head (Some "2");
   head (Some "S1");
   head (Some "from Katowice");
   MkLine (Some b022) (Some "R") None (Some "14:00") None (Some "Katowice") None None;
   MkLine (Some b035) (Some "R") None None None None None None;
   MkLine (Some b040) (Some "R") (Some "14:03") (Some "14:03") None (Some "Katowice Załęże") None None;
   MkLine (Some b042) (Some "R") None None None None None None;
   MkLine (Some b045) (Some "R") None None None None None None;
   MkLine (Some b047) (Some "R") (Some "14:06") (Some "14:06") None (Some "Chorzów Batory") None None;
   MkLine (Some b054) (Some "R") None None None None None None;
   MkLine (Some b062) (Some "R") (Some "14:09") (Some "14:09") None (Some "Świętochłowice") None None;
   MkLine (Some b064) (Some "R") None None None None None None;
   MkLine (Some b066) (Some "R") (Some "14:13") (Some "14:13") None (Some "Ruda Chebzie") None None;
   MkLine (Some b068) (Some "R") None None None None None None;
   MkLine (Some b070) (Some "R") (Some "14:15") (Some "14:15") None (Some "Ruda Śląska") None None;
   MkLine (Some b072) (Some "R") None None None None None None;
   MkLine (Some b074) (Some "R") None None None None None None;
   MkLine (Some b076) (Some "R") (Some "14:20") (Some "14:20") None (Some "Zabrze") None None;
   MkLine (Some b078) (Some "R") None None None None None None;
   MkLine (Some b080) (Some "R") None None None None None None;
   MkLine (Some b082) (Some "R") None None None None None None;
   MkLine (Some b084) (Some "R") None None None None None None;
   MkLine (Some b086) (Some "R") None None None None None None;
   MkLine (Some b088) (Some "R") (Some "14:27") None None (Some "Gliwice") None None;
   head (Some "to Gliwice");
   head (Some "####");
   head (Some "IC - IC");
   head (Some "4602");
   head (Some "Intercity");
   head (Some "from Katowice");
   MkLine (Some b025) (Some "IC") None (Some "14:07") None (Some "Katowice") None None;
   MkLine (Some b035) (Some "IC") None None None None None None;
   MkLine (Some b040) (Some "IC") None None None None None None;
   MkLine (Some b042) (Some "IC") None None None None None None;
   MkLine (Some b045) (Some "IC") None None None None None None;
   MkLine (Some b047) (Some "R") (Some "14:13") (Some "14:13") None (Some "Chorz�w Batory") None None;
   MkLine (Some b054) (Some "IC") None None None None None None;
   MkLine (Some b062) (Some "IC") None None None None None None;
   MkLine (Some b064) (Some "IC") None None None None None None;
   MkLine (Some b066) (Some "IC") None None None None None None;
   MkLine (Some b068) (Some "IC") None None None None None None;
   MkLine (Some b070) (Some "IC") None None None None None None;
   MkLine (Some b072) (Some "IC") None None None None None None;
   MkLine (Some b074) (Some "IC") None None None None None None;
   MkLine (Some b076) (Some "IC") (Some "14:23") (Some "14:23") None (Some "Zabrze") None None;
   MkLine (Some b078) (Some "IC") None None None None None None;
   MkLine (Some b080) (Some "IC") None None None None None None;
   MkLine (Some b082) (Some "IC") None None None None None None;
   MkLine (Some b084) (Some "IC") None None None None None None;
   MkLine (Some b086) (Some "IC") None None None None None None;
   MkLine (Some b091) (Some "IC") (Some "14:30") (Some "14:32") None (Some "Gliwice") None None;
   MkLine (Some b097) (Some "IC") None None None None None None;
   head (Some "to Wrocław Główny");
   head (Some "####");
   head (Some "KS - Os");
   head (Some "4");
   head (Some "S1");
   head (Some "from Katowice");
   MkLine (Some b022) (Some "R") None (Some "14:10") None (Some "Katowice") None None;
   MkLine (Some b035) (Some "R") None None None None None None;
   MkLine (Some b040) (Some "R") (Some "14:13") (Some "14:13") None (Some "Katowice Załęże") None None;
   MkLine (Some b042) (Some "R") None None None None None None;
   MkLine (Some b045) (Some "R") None None None None None None;
   MkLine (Some b047) (Some "R") (Some "14:16") (Some "14:16") None (Some "Chorzów Batory") None None;
   MkLine (Some b054) (Some "R") None None None None None None;
   MkLine (Some b062) (Some "R") (Some "14:19") (Some "14:19") None (Some "Świętochłowice") None None;
   MkLine (Some b064) (Some "R") None None None None None None;
   MkLine (Some b066) (Some "R") (Some "14:23") (Some "14:23") None (Some "Ruda Chebzie") None None;
   MkLine (Some b068) (Some "R") None None None None None None;
   MkLine (Some b070) (Some "R") (Some "14:25") (Some "14:25") None (Some "Ruda Śląska") None None;
   MkLine (Some b072) (Some "R") None None None None None None;
   MkLine (Some b074) (Some "R") None None None None None None;
   MkLine (Some b076) (Some "R") (Some "14:30") (Some "14:30") None (Some "Zabrze") None None;
   MkLine (Some b078) (Some "R") None None None None None None;
   MkLine (Some b080) (Some "R") None None None None None None;
   MkLine (Some b082) (Some "R") None None None None None None;
   MkLine (Some b084) (Some "R") None None None None None None;
   MkLine (Some b086) (Some "R") None None None None None None;
   MkLine (Some b088) (Some "R") (Some "14:37") None None (Some "Gliwice") None None;
   head (Some "to Gliwice");
   head (Some "####");
   head (Some "KS - Os");
   head (Some "102");
   head (Some "S8");
   head (Some "from Katowice");
   MkLine (Some b021) (Some "R") None (Some "14:15") None (Some "Katowice") None None;
   MkLine (Some b035) (Some "R") None None None None None None;
   MkLine (Some b040) (Some "R") (Some "14:18") (Some "14:18") None (Some "Katowice Załęże") None None;
   MkLine (Some b042) (Some "R") None None None None None None;
   MkLine (Some b045) (Some "R") None None None None None None;
   MkLine (Some b049) (Some "R") (Some "14:22") (Some "14:23") None (Some "Chorzów Batory") None None;
   MkLine (Some b056) (Some "R") None None None None None None;
   head (Some "to Bytom");
   head (Some "####");
   head (Some "KS - Os");
   head (Some "6");
   head (Some "S1");
   head (Some "from Katowice");
   MkLine (Some b022) (Some "R") None (Some "14:20") None (Some "Katowice") None None;
   MkLine (Some b035) (Some "R") None None None None None None;
   MkLine (Some b040) (Some "R") (Some "14:23") (Some "14:23") None (Some "Katowice Załęże") None None;
   MkLine (Some b042) (Some "R") None None None None None None;
   MkLine (Some b045) (Some "R") None None None None None None;
   MkLine (Some b047) (Some "R") (Some "14:26") (Some "14:26") None (Some "Chorzów Batory") None None;
   MkLine (Some b054) (Some "R") None None None None None None;
   MkLine (Some b062) (Some "R") (Some "14:29") (Some "14:29") None (Some "Świętochłowice") None None;
   MkLine (Some b064) (Some "R") None None None None None None;
   MkLine (Some b066) (Some "R") (Some "14:33") (Some "14:33") None (Some "Ruda Chebzie") None None;
   MkLine (Some b068) (Some "R") None None None None None None;
   MkLine (Some b070) (Some "R") (Some "14:35") (Some "14:35") None (Some "Ruda Śląska") None None;
   MkLine (Some b072) (Some "R") None None None None None None;
   MkLine (Some b074) (Some "R") None None None None None None;
   MkLine (Some b076) (Some "R") (Some "14:40") (Some "14:40") None (Some "Zabrze") None None;
   MkLine (Some b078) (Some "R") None None None None None None;
   MkLine (Some b080) (Some "R") None None None None None None;
   MkLine (Some b082) (Some "R") None None None None None None;
   MkLine (Some b084) (Some "R") None None None None None None;
   MkLine (Some b086) (Some "R") None None None None None None;
   MkLine (Some b088) (Some "R") (Some "14:47") None None (Some "Gliwice") None None;
   head (Some "to Gliwice");
   head (Some "####");
   head (Some "KS - Os");
   head (Some "8");
   head (Some "S1");
   head (Some "from Katowice");
   MkLine (Some b022) (Some "R") None (Some "14:30") None (Some "Katowice") None None;
   MkLine (Some b035) (Some "R") None None None None None None;
   MkLine (Some b040) (Some "R") (Some "14:33") (Some "14:33") None (Some "Katowice Załęże") None None;
   MkLine (Some b042) (Some "R") None None None None None None;
   MkLine (Some b045) (Some "R") None None None None None None;
   MkLine (Some b047) (Some "R") (Some "14:36") (Some "14:36") None (Some "Chorzów Batory") None None;
   MkLine (Some b054) (Some "R") None None None None None None;
   MkLine (Some b062) (Some "R") (Some "14:39") (Some "14:39") None (Some "Świętochłowice") None None;
   MkLine (Some b064) (Some "R") None None None None None None;
   MkLine (Some b066) (Some "R") (Some "14:43") (Some "14:43") None (Some "Ruda Chebzie") None None;
   MkLine (Some b068) (Some "R") None None None None None None;
   MkLine (Some b070) (Some "R") (Some "14:45") (Some "14:45") None (Some "Ruda Śląska") None None;
   MkLine (Some b072) (Some "R") None None None None None None;
   MkLine (Some b074) (Some "R") None None None None None None;
   MkLine (Some b076) (Some "R") (Some "14:50") (Some "14:50") None (Some "Zabrze") None None;
   MkLine (Some b078) (Some "R") None None None None None None;
   MkLine (Some b080) (Some "R") None None None None None None;
   MkLine (Some b082) (Some "R") None None None None None None;
   MkLine (Some b084) (Some "R") None None None None None None;
   MkLine (Some b086) (Some "R") None None None None None None;
   MkLine (Some b088) (Some "R") (Some "14:57") None None (Some "Gliwice") None None;
   head (Some "to Gliwice");
   head (Some "####");
   head (Some "IC - IC");
   head (Some "4604");
   head (Some "Intercity");
   head (Some "from Katowice");
   MkLine (Some b025) (Some "IC") None (Some "14:37") None (Some "Katowice") None None;
   MkLine (Some b035) (Some "IC") None None None None None None;
   MkLine (Some b040) (Some "IC") None None None None None None;
   MkLine (Some b042) (Some "IC") None None None None None None;
   MkLine (Some b045) (Some "IC") None None None None None None;
   MkLine (Some b047) (Some "R") (Some "14:43") (Some "14:43") None (Some "Chorz�w Batory") None None;
   MkLine (Some b054) (Some "IC") None None None None None None;
   MkLine (Some b062) (Some "IC") None None None None None None;
   MkLine (Some b064) (Some "IC") None None None None None None;
   MkLine (Some b066) (Some "IC") None None None None None None;
   MkLine (Some b068) (Some "IC") None None None None None None;
   MkLine (Some b070) (Some "IC") None None None None None None;
   MkLine (Some b072) (Some "IC") None None None None None None;
   MkLine (Some b074) (Some "IC") None None None None None None;
   MkLine (Some b076) (Some "IC") (Some "14:53") (Some "14:53") None (Some "Zabrze") None None;
   MkLine (Some b078) (Some "IC") None None None None None None;
   MkLine (Some b080) (Some "IC") None None None None None None;
   MkLine (Some b082) (Some "IC") None None None None None None;
   MkLine (Some b084) (Some "IC") None None None None None None;
   MkLine (Some b086) (Some "IC") None None None None None None;
   MkLine (Some b091) (Some "IC") (Some "15:00") (Some "15:02") None (Some "Gliwice") None None;
   MkLine (Some b097) (Some "IC") None None None None None None;
   head (Some "to Wrocław Główny");
   head (Some "####");
   head (Some "KS - Os");
   head (Some "10");
   head (Some "S1");
   head (Some "from Katowice");
   MkLine (Some b022) (Some "R") None (Some "14:40") None (Some "Katowice") None None;
   MkLine (Some b035) (Some "R") None None None None None None;
   MkLine (Some b040) (Some "R") (Some "14:43") (Some "14:43") None (Some "Katowice Załęże") None None;
   MkLine (Some b042) (Some "R") None None None None None None;
   MkLine (Some b045) (Some "R") None None None None None None;
   MkLine (Some b047) (Some "R") (Some "14:46") (Some "14:46") None (Some "Chorzów Batory") None None;
   MkLine (Some b054) (Some "R") None None None None None None;
   MkLine (Some b062) (Some "R") (Some "14:49") (Some "14:49") None (Some "Świętochłowice") None None;
   MkLine (Some b064) (Some "R") None None None None None None;
   MkLine (Some b066) (Some "R") (Some "14:53") (Some "14:53") None (Some "Ruda Chebzie") None None;
   MkLine (Some b068) (Some "R") None None None None None None;
   MkLine (Some b070) (Some "R") (Some "14:55") (Some "14:55") None (Some "Ruda Śląska") None None;
   MkLine (Some b072) (Some "R") None None None None None None;
   MkLine (Some b074) (Some "R") None None None None None None;
   MkLine (Some b076) (Some "R") (Some "15:00") (Some "15:00") None (Some "Zabrze") None None;
   MkLine (Some b078) (Some "R") None None None None None None;
   MkLine (Some b080) (Some "R") None None None None None None;
   MkLine (Some b082) (Some "R") None None None None None None;
   MkLine (Some b084) (Some "R") None None None None None None;
   MkLine (Some b086) (Some "R") None None None None None None;
   MkLine (Some b088) (Some "R") (Some "15:07") None None (Some "Gliwice") None None;
   head (Some "to Gliwice");
   head (Some "####");
   head (Some "KS - Os");
   head (Some "102");
   head (Some "S8");
   head (Some "from Katowice");
   MkLine (Some b021) (Some "R") None (Some "14:45") None (Some "Katowice") None None;
   MkLine (Some b035) (Some "R") None None None None None None;
   MkLine (Some b040) (Some "R") (Some "14:48") (Some "14:48") None (Some "Katowice Załęże") None None;
   MkLine (Some b042) (Some "R") None None None None None None;
   MkLine (Some b045) (Some "R") None None None None None None;
   MkLine (Some b049) (Some "R") (Some "14:52") (Some "14:53") None (Some "Chorzów Batory") None None;
   MkLine (Some b056) (Some "R") None None None None None None;
   head (Some "to Bytom");
   head (Some "####");
   head (Some "KS - Os");
   head (Some "12");
   head (Some "S1");
   head (Some "from Katowice");
   MkLine (Some b022) (Some "R") None (Some "14:50") None (Some "Katowice") None None;
   MkLine (Some b035) (Some "R") None None None None None None;
   MkLine (Some b040) (Some "R") (Some "14:53") (Some "14:53") None (Some "Katowice Załęże") None None;
   MkLine (Some b042) (Some "R") None None None None None None;
   MkLine (Some b045) (Some "R") None None None None None None;
   MkLine (Some b047) (Some "R") (Some "14:56") (Some "14:56") None (Some "Chorzów Batory") None None;
   MkLine (Some b054) (Some "R") None None None None None None;
   MkLine (Some b062) (Some "R") (Some "14:59") (Some "14:59") None (Some "Świętochłowice") None None;
   MkLine (Some b064) (Some "R") None None None None None None;
   MkLine (Some b066) (Some "R") (Some "15:03") (Some "15:03") None (Some "Ruda Chebzie") None None;
   MkLine (Some b068) (Some "R") None None None None None None;
   MkLine (Some b070) (Some "R") (Some "15:05") (Some "15:05") None (Some "Ruda Śląska") None None;
   MkLine (Some b072) (Some "R") None None None None None None;
   MkLine (Some b074) (Some "R") None None None None None None;
   MkLine (Some b076) (Some "R") (Some "15:10") (Some "15:10") None (Some "Zabrze") None None;
   MkLine (Some b078) (Some "R") None None None None None None;
   MkLine (Some b080) (Some "R") None None None None None None;
   MkLine (Some b082) (Some "R") None None None None None None;
   MkLine (Some b084) (Some "R") None None None None None None;
   MkLine (Some b086) (Some "R") None None None None None None;
   MkLine (Some b088) (Some "R") (Some "15:17") None None (Some "Gliwice") None None;
   head (Some "to Gliwice");
   head (Some "####");
   head (Some "KS - Os");
   head (Some "1");
   head (Some "S1 ");
   head (Some "from Gliwice");
   MkLine (Some b095) (Some "R") None (Some "13:53") None (Some "Gliwice") None None;
   MkLine (Some b087) (Some "R") None None None None None None;
   MkLine (Some b085) (Some "R") None None None None None None;
   MkLine (Some b083) (Some "R") None None None None None None;
   MkLine (Some b081) (Some "R") None None None None None None;
   MkLine (Some b079) (Some "R") None None None None None None;
   MkLine (Some b077) (Some "R") (Some "14:01") (Some "14:01") None (Some "Zabrze") None None;
   MkLine (Some b074) (Some "R") None None None None None None;
   MkLine (Some b072) (Some "R") None None None None None None;
   MkLine (Some b070) (Some "R") (Some "14:06") (Some "14:06") None (Some "Ruda Slaska") None None;
   MkLine (Some b068) (Some "R") None None None None None None;
   MkLine (Some b067) (Some "R") (Some "14:08") (Some "14:08") None (Some "Ruda Chebzie") None None;
   MkLine (Some b065) (Some "R") None None None None None None;
   MkLine (Some b063) (Some "R") (Some "14:11") (Some "14:11") None (Some "Swietochlowice") None None;
   MkLine (Some b055) (Some "R") None None None None None None;
   MkLine (Some b048) (Some "R") (Some "14:15") (Some "14:15") None (Some "Chorzów Batory") None None;
   MkLine (Some b046) (Some "R") None None None None None None;
   MkLine (Some b043) (Some "R") None None None None None None;
   MkLine (Some b041) (Some "R") (Some "14:18") (Some "14:18") None (Some "Katowice Załęże") None None;
   MkLine (Some b036) (Some "R") None None None None None None;
   MkLine (Some b030) (Some "R") (Some "14:21") None None (Some "Katowice") None None;
   head (Some "to Katowice");
   head (Some "####");
   head (Some "KS - Os");
   head (Some "101");
   head (Some "S8");
   head (Some "from Bytom");
   MkLine (Some b057) (Some "R") None None None None None None;
   MkLine (Some b050) (Some "R") (Some "14:20") (Some "14:21") None (Some "Chorzów Batory") None None;
   MkLine (Some b046) (Some "R") None None None None None None;
   MkLine (Some b043) (Some "R") None None None None None None;
   MkLine (Some b041) (Some "R") (Some "14:24") (Some "14:24") None (Some "Katowice Załęże") None None;
   MkLine (Some b036) (Some "R") None None None None None None;
   MkLine (Some b031) (Some "R") (Some "14:28") None None (Some "Katowice") None None;
   head (Some "to Katowice");
   head (Some "####");
   head (Some "KS - Os");
   head (Some "3");
   head (Some "S1 ");
   head (Some "from Gliwice");
   MkLine (Some b095) (Some "R") None (Some "14:03") None (Some "Gliwice") None None;
   MkLine (Some b087) (Some "R") None None None None None None;
   MkLine (Some b085) (Some "R") None None None None None None;
   MkLine (Some b083) (Some "R") None None None None None None;
   MkLine (Some b081) (Some "R") None None None None None None;
   MkLine (Some b079) (Some "R") None None None None None None;
   MkLine (Some b077) (Some "R") (Some "14:11") (Some "14:11") None (Some "Zabrze") None None;
   MkLine (Some b074) (Some "R") None None None None None None;
   MkLine (Some b072) (Some "R") None None None None None None;
   MkLine (Some b070) (Some "R") (Some "14:16") (Some "14:16") None (Some "Ruda Slaska") None None;
   MkLine (Some b068) (Some "R") None None None None None None;
   MkLine (Some b067) (Some "R") (Some "14:18") (Some "14:18") None (Some "Ruda Chebzie") None None;
   MkLine (Some b065) (Some "R") None None None None None None;
   MkLine (Some b063) (Some "R") (Some "14:21") (Some "14:21") None (Some "Swietochlowice") None None;
   MkLine (Some b055) (Some "R") None None None None None None;
   MkLine (Some b048) (Some "R") (Some "14:25") (Some "14:25") None (Some "Chorzów Batory") None None;
   MkLine (Some b046) (Some "R") None None None None None None;
   MkLine (Some b043) (Some "R") None None None None None None;
   MkLine (Some b041) (Some "R") (Some "14:28") (Some "14:28") None (Some "Katowice Załęże") None None;
   MkLine (Some b036) (Some "R") None None None None None None;
   MkLine (Some b030) (Some "R") (Some "14:31") None None (Some "Katowice") None None;
   head (Some "to Katowice");
   head (Some "####");
   head (Some "IC - IC");
   head (Some "6401");
   head (Some "Intercity");
   head (Some "from Wrocław");
   MkLine (Some b098) (Some "IC") None None None None None None;
   MkLine (Some b094) (Some "IC") (Some "14:08") (Some "14:14") None (Some "Gliwice") None None;
   MkLine (Some b087) (Some "IC") None None None None None None;
   MkLine (Some b085) (Some "IC") None None None None None None;
   MkLine (Some b083) (Some "IC") None None None None None None;
   MkLine (Some b081) (Some "IC") None None None None None None;
   MkLine (Some b079) (Some "IC") None None None None None None;
   MkLine (Some b077) (Some "IC") (Some "14:22") (Some "14:22") None (Some "Zabrze") None None;
   MkLine (Some b074) (Some "IC") None None None None None None;
   MkLine (Some b072) (Some "IC") None None None None None None;
   MkLine (Some b070) (Some "IC") None None None None None None;
   MkLine (Some b068) (Some "IC") None None None None None None;
   MkLine (Some b067) (Some "IC") None None None None None None;
   MkLine (Some b065) (Some "IC") None None None None None None;
   MkLine (Some b063) (Some "IC") None None None None None None;
   MkLine (Some b055) (Some "IC") None None None None None None;
   MkLine (Some b048) (Some "IC") None None None None None None;
   MkLine (Some b046) (Some "IC") None None None None None None;
   MkLine (Some b043) (Some "IC") None None None None None None;
   MkLine (Some b041) (Some "IC") None None None None None None;
   MkLine (Some b036) (Some "IC") None None None None None None;
   MkLine (Some b028) (Some "IC") (Some "14:38") None None (Some "Katowice") None None;
   head (Some "to Katowice");
   head (Some "####");
   head (Some "KS - Os");
   head (Some "5");
   head (Some "S1 ");
   head (Some "from Gliwice");
   MkLine (Some b095) (Some "R") None (Some "14:18") None (Some "Gliwice") None None;
   MkLine (Some b087) (Some "R") None None None None None None;
   MkLine (Some b085) (Some "R") None None None None None None;
   MkLine (Some b083) (Some "R") None None None None None None;
   MkLine (Some b081) (Some "R") None None None None None None;
   MkLine (Some b079) (Some "R") None None None None None None;
   MkLine (Some b077) (Some "R") (Some "14:26") (Some "14:26") None (Some "Zabrze") None None;
   MkLine (Some b074) (Some "R") None None None None None None;
   MkLine (Some b072) (Some "R") None None None None None None;
   MkLine (Some b070) (Some "R") (Some "14:31") (Some "14:31") None (Some "Ruda Slaska") None None;
   MkLine (Some b068) (Some "R") None None None None None None;
   MkLine (Some b067) (Some "R") (Some "14:33") (Some "14:33") None (Some "Ruda Chebzie") None None;
   MkLine (Some b065) (Some "R") None None None None None None;
   MkLine (Some b063) (Some "R") (Some "14:36") (Some "14:36") None (Some "Swietochlowice") None None;
   MkLine (Some b055) (Some "R") None None None None None None;
   MkLine (Some b048) (Some "R") (Some "14:40") (Some "14:40") None (Some "Chorzów Batory") None None;
   MkLine (Some b046) (Some "R") None None None None None None;
   MkLine (Some b043) (Some "R") None None None None None None;
   MkLine (Some b041) (Some "R") (Some "14:43") (Some "14:43") None (Some "Katowice Załęże") None None;
   MkLine (Some b036) (Some "R") None None None None None None;
   MkLine (Some b030) (Some "R") (Some "14:46") None None (Some "Katowice") None None;
   head (Some "to Katowice");
   head (Some "####");
   head (Some "KS - Os");
   head (Some "7");
   head (Some "S1 ");
   head (Some "from Gliwice");
   MkLine (Some b095) (Some "R") None (Some "14:23") None (Some "Gliwice") None None;
   MkLine (Some b087) (Some "R") None None None None None None;
   MkLine (Some b085) (Some "R") None None None None None None;
   MkLine (Some b083) (Some "R") None None None None None None;
   MkLine (Some b081) (Some "R") None None None None None None;
   MkLine (Some b079) (Some "R") None None None None None None;
   MkLine (Some b077) (Some "R") (Some "14:31") (Some "14:31") None (Some "Zabrze") None None;
   MkLine (Some b074) (Some "R") None None None None None None;
   MkLine (Some b072) (Some "R") None None None None None None;
   MkLine (Some b070) (Some "R") (Some "14:36") (Some "14:36") None (Some "Ruda Slaska") None None;
   MkLine (Some b068) (Some "R") None None None None None None;
   MkLine (Some b067) (Some "R") (Some "14:38") (Some "14:38") None (Some "Ruda Chebzie") None None;
   MkLine (Some b065) (Some "R") None None None None None None;
   MkLine (Some b063) (Some "R") (Some "14:41") (Some "14:41") None (Some "Swietochlowice") None None;
   MkLine (Some b055) (Some "R") None None None None None None;
   MkLine (Some b048) (Some "R") (Some "14:45") (Some "14:45") None (Some "Chorzów Batory") None None;
   MkLine (Some b046) (Some "R") None None None None None None;
   MkLine (Some b043) (Some "R") None None None None None None;
   MkLine (Some b041) (Some "R") (Some "14:48") (Some "14:48") None (Some "Katowice Załęże") None None;
   MkLine (Some b036) (Some "R") None None None None None None;
   MkLine (Some b030) (Some "R") (Some "14:51") None None (Some "Katowice") None None;
   head (Some "to Katowice");
   head (Some "####");
   head (Some "KS - Os");
   head (Some "103");
   head (Some "S8");
   head (Some "from Bytom");
   MkLine (Some b057) (Some "R") None None None None None None;
   MkLine (Some b050) (Some "R") (Some "14:50") (Some "14:51") None (Some "Chorzów Batory") None None;
   MkLine (Some b046) (Some "R") None None None None None None;
   MkLine (Some b043) (Some "R") None None None None None None;
   MkLine (Some b041) (Some "R") (Some "14:54") (Some "14:54") None (Some "Katowice Załęże") None None;
   MkLine (Some b036) (Some "R") None None None None None None;
   MkLine (Some b031) (Some "R") (Some "14:58") None None (Some "Katowice") None None;
   head (Some "to Katowice");
   head (Some "####");
   head (Some "KS - Os");
   head (Some "9");
   head (Some "S1 ");
   head (Some "from Gliwice");
   MkLine (Some b095) (Some "R") None (Some "14:33") None (Some "Gliwice") None None;
   MkLine (Some b087) (Some "R") None None None None None None;
   MkLine (Some b085) (Some "R") None None None None None None;
   MkLine (Some b083) (Some "R") None None None None None None;
   MkLine (Some b081) (Some "R") None None None None None None;
   MkLine (Some b079) (Some "R") None None None None None None;
   MkLine (Some b077) (Some "R") (Some "14:41") (Some "14:41") None (Some "Zabrze") None None;
   MkLine (Some b074) (Some "R") None None None None None None;
   MkLine (Some b072) (Some "R") None None None None None None;
   MkLine (Some b070) (Some "R") (Some "14:46") (Some "14:46") None (Some "Ruda Slaska") None None;
   MkLine (Some b068) (Some "R") None None None None None None;
   MkLine (Some b067) (Some "R") (Some "14:48") (Some "14:48") None (Some "Ruda Chebzie") None None;
   MkLine (Some b065) (Some "R") None None None None None None;
   MkLine (Some b063) (Some "R") (Some "14:51") (Some "14:51") None (Some "Swietochlowice") None None;
   MkLine (Some b055) (Some "R") None None None None None None;
   MkLine (Some b048) (Some "R") (Some "14:55") (Some "14:55") None (Some "Chorzów Batory") None None;
   MkLine (Some b046) (Some "R") None None None None None None;
   MkLine (Some b043) (Some "R") None None None None None None;
   MkLine (Some b041) (Some "R") (Some "14:58") (Some "14:58") None (Some "Katowice Załęże") None None;
   MkLine (Some b036) (Some "R") None None None None None None;
   MkLine (Some b030) (Some "R") (Some "15:01") None None (Some "Katowice") None None;
   head (Some "to Katowice");
   head (Some "####");
   head (Some "IC - IC");
   head (Some "6403");
   head (Some "Intercity");
   head (Some "from Wrocław");
   MkLine (Some b098) (Some "IC") None None None None None None;
   MkLine (Some b094) (Some "IC") (Some "14:38") (Some "14:44") None (Some "Gliwice") None None;
   MkLine (Some b087) (Some "IC") None None None None None None;
   MkLine (Some b085) (Some "IC") None None None None None None;
   MkLine (Some b083) (Some "IC") None None None None None None;
   MkLine (Some b081) (Some "IC") None None None None None None;
   MkLine (Some b079) (Some "IC") None None None None None None;
   MkLine (Some b077) (Some "IC") (Some "14:52") (Some "14:52") None (Some "Zabrze") None None;
   MkLine (Some b074) (Some "IC") None None None None None None;
   MkLine (Some b072) (Some "IC") None None None None None None;
   MkLine (Some b070) (Some "IC") None None None None None None;
   MkLine (Some b068) (Some "IC") None None None None None None;
   MkLine (Some b067) (Some "IC") None None None None None None;
   MkLine (Some b065) (Some "IC") None None None None None None;
   MkLine (Some b063) (Some "IC") None None None None None None;
   MkLine (Some b055) (Some "IC") None None None None None None;
   MkLine (Some b048) (Some "IC") None None None None None None;
   MkLine (Some b046) (Some "IC") None None None None None None;
   MkLine (Some b043) (Some "IC") None None None None None None;
   MkLine (Some b041) (Some "IC") None None None None None None;
   MkLine (Some b036) (Some "IC") None None None None None None;
   MkLine (Some b028) (Some "IC") (Some "15:08") None None (Some "Katowice") None None;
   head (Some "to Katowice");
   head (Some "####");
   head (Some "KS - Os");
   head (Some "11");
   head (Some "S1 ");
   head (Some "from Gliwice");
   MkLine (Some b095) (Some "R") None (Some "14:48") None (Some "Gliwice") None None;
   MkLine (Some b087) (Some "R") None None None None None None;
   MkLine (Some b085) (Some "R") None None None None None None;
   MkLine (Some b083) (Some "R") None None None None None None;
   MkLine (Some b081) (Some "R") None None None None None None;
   MkLine (Some b079) (Some "R") None None None None None None;
   MkLine (Some b077) (Some "R") (Some "14:56") (Some "14:56") None (Some "Zabrze") None None;
   MkLine (Some b074) (Some "R") None None None None None None;
   MkLine (Some b072) (Some "R") None None None None None None;
   MkLine (Some b070) (Some "R") (Some "15:01") (Some "15:01") None (Some "Ruda Slaska") None None;
   MkLine (Some b068) (Some "R") None None None None None None;
   MkLine (Some b067) (Some "R") (Some "15:03") (Some "15:03") None (Some "Ruda Chebzie") None None;
   MkLine (Some b065) (Some "R") None None None None None None;
   MkLine (Some b063) (Some "R") (Some "15:06") (Some "15:06") None (Some "Swietochlowice") None None;
   MkLine (Some b055) (Some "R") None None None None None None;
   MkLine (Some b048) (Some "R") (Some "15:10") (Some "15:10") None (Some "Chorzów Batory") None None;
   MkLine (Some b046) (Some "R") None None None None None None;
   MkLine (Some b043) (Some "R") None None None None None None;
   MkLine (Some b041) (Some "R") (Some "15:13") (Some "15:13") None (Some "Katowice Załęże") None None;
   MkLine (Some b036) (Some "R") None None None None None None;
   MkLine (Some b030) (Some "R") (Some "15:16") None None (Some "Katowice") None None;
   head (Some "to Katowice");
   head (Some "####");
   head (Some "KS - Os");
   head (Some "14");
   head (Some "S1");
   head (Some "from Katowice");
   MkLine (Some b022) (Some "R") None (Some "15:00") None (Some "Katowice") None None;
   MkLine (Some b035) (Some "R") None None None None None None;
   MkLine (Some b040) (Some "R") (Some "15:03") (Some "15:03") None (Some "Katowice Załęże") None None;
   MkLine (Some b042) (Some "R") None None None None None None;
   MkLine (Some b045) (Some "R") None None None None None None;
   MkLine (Some b047) (Some "R") (Some "15:06") (Some "15:06") None (Some "Chorzów Batory") None None;
   MkLine (Some b054) (Some "R") None None None None None None;
   MkLine (Some b062) (Some "R") (Some "15:09") (Some "15:09") None (Some "Świętochłowice") None None;
   MkLine (Some b064) (Some "R") None None None None None None;
   MkLine (Some b066) (Some "R") (Some "15:13") (Some "15:13") None (Some "Ruda Chebzie") None None;
   MkLine (Some b068) (Some "R") None None None None None None;
   MkLine (Some b070) (Some "R") (Some "15:15") (Some "15:15") None (Some "Ruda Śląska") None None;
   MkLine (Some b072) (Some "R") None None None None None None;
   MkLine (Some b074) (Some "R") None None None None None None;
   MkLine (Some b076) (Some "R") (Some "15:20") (Some "15:20") None (Some "Zabrze") None None;
   MkLine (Some b078) (Some "R") None None None None None None;
   MkLine (Some b080) (Some "R") None None None None None None;
   MkLine (Some b082) (Some "R") None None None None None None;
   MkLine (Some b084) (Some "R") None None None None None None;
   MkLine (Some b086) (Some "R") None None None None None None;
   MkLine (Some b088) (Some "R") (Some "15:27") None None (Some "Gliwice") None None;
   head (Some "to Gliwice");
   head (Some "####");
   head (Some "IC - IC");
   head (Some "4606");
   head (Some "Intercity");
   head (Some "from Katowice");
   MkLine (Some b025) (Some "IC") None (Some "15:07") None (Some "Katowice") None None;
   MkLine (Some b035) (Some "IC") None None None None None None;
   MkLine (Some b040) (Some "IC") None None None None None None;
   MkLine (Some b042) (Some "IC") None None None None None None;
   MkLine (Some b045) (Some "IC") None None None None None None;
   MkLine (Some b047) (Some "R") (Some "15:13") (Some "15:13") None (Some "Chorz�w Batory") None None;
   MkLine (Some b054) (Some "IC") None None None None None None;
   MkLine (Some b062) (Some "IC") None None None None None None;
   MkLine (Some b064) (Some "IC") None None None None None None;
   MkLine (Some b066) (Some "IC") None None None None None None;
   MkLine (Some b068) (Some "IC") None None None None None None;
   MkLine (Some b070) (Some "IC") None None None None None None;
   MkLine (Some b072) (Some "IC") None None None None None None;
   MkLine (Some b074) (Some "IC") None None None None None None;
   MkLine (Some b076) (Some "IC") (Some "15:23") (Some "15:23") None (Some "Zabrze") None None;
   MkLine (Some b078) (Some "IC") None None None None None None;
   MkLine (Some b080) (Some "IC") None None None None None None;
   MkLine (Some b082) (Some "IC") None None None None None None;
   MkLine (Some b084) (Some "IC") None None None None None None;
   MkLine (Some b086) (Some "IC") None None None None None None;
   MkLine (Some b091) (Some "IC") (Some "15:30") (Some "15:32") None (Some "Gliwice") None None;
   MkLine (Some b097) (Some "IC") None None None None None None;
   head (Some "to Wrocław Główny");
   head (Some "####");
   head (Some "KS - Os");
   head (Some "16");
   head (Some "S1");
   head (Some "from Katowice");
   MkLine (Some b022) (Some "R") None (Some "15:10") None (Some "Katowice") None None;
   MkLine (Some b035) (Some "R") None None None None None None;
   MkLine (Some b040) (Some "R") (Some "15:13") (Some "15:13") None (Some "Katowice Załęże") None None;
   MkLine (Some b042) (Some "R") None None None None None None;
   MkLine (Some b045) (Some "R") None None None None None None;
   MkLine (Some b047) (Some "R") (Some "15:16") (Some "15:16") None (Some "Chorzów Batory") None None;
   MkLine (Some b054) (Some "R") None None None None None None;
   MkLine (Some b062) (Some "R") (Some "15:19") (Some "15:19") None (Some "Świętochłowice") None None;
   MkLine (Some b064) (Some "R") None None None None None None;
   MkLine (Some b066) (Some "R") (Some "15:23") (Some "15:23") None (Some "Ruda Chebzie") None None;
   MkLine (Some b068) (Some "R") None None None None None None;
   MkLine (Some b070) (Some "R") (Some "15:25") (Some "15:25") None (Some "Ruda Śląska") None None;
   MkLine (Some b072) (Some "R") None None None None None None;
   MkLine (Some b074) (Some "R") None None None None None None;
   MkLine (Some b076) (Some "R") (Some "15:30") (Some "15:30") None (Some "Zabrze") None None;
   MkLine (Some b078) (Some "R") None None None None None None;
   MkLine (Some b080) (Some "R") None None None None None None;
   MkLine (Some b082) (Some "R") None None None None None None;
   MkLine (Some b084) (Some "R") None None None None None None;
   MkLine (Some b086) (Some "R") None None None None None None;
   MkLine (Some b088) (Some "R") (Some "15:37") None None (Some "Gliwice") None None;
   head (Some "to Gliwice");
   head (Some "####");
   head (Some "KS - Os");
   head (Some "106");
   head (Some "S8");
   head (Some "from Katowice");
   MkLine (Some b021) (Some "R") None (Some "15:15") None (Some "Katowice") None None;
   MkLine (Some b035) (Some "R") None None None None None None;
   MkLine (Some b040) (Some "R") (Some "15:18") (Some "15:18") None (Some "Katowice Załęże") None None;
   MkLine (Some b042) (Some "R") None None None None None None;
   MkLine (Some b045) (Some "R") None None None None None None;
   MkLine (Some b049) (Some "R") (Some "15:22") (Some "15:23") None (Some "Chorzów Batory") None None;
   MkLine (Some b056) (Some "R") None None None None None None;
   head (Some "to Bytom");
   head (Some "####");
   head (Some "KS - Os");
   head (Some "18");
   head (Some "S1");
   head (Some "from Katowice");
   MkLine (Some b022) (Some "R") None (Some "15:20") None (Some "Katowice") None None;
   MkLine (Some b035) (Some "R") None None None None None None;
   MkLine (Some b040) (Some "R") (Some "15:23") (Some "15:23") None (Some "Katowice Załęże") None None;
   MkLine (Some b042) (Some "R") None None None None None None;
   MkLine (Some b045) (Some "R") None None None None None None;
   MkLine (Some b047) (Some "R") (Some "15:26") (Some "15:26") None (Some "Chorzów Batory") None None;
   MkLine (Some b054) (Some "R") None None None None None None;
   MkLine (Some b062) (Some "R") (Some "15:29") (Some "15:29") None (Some "Świętochłowice") None None;
   MkLine (Some b064) (Some "R") None None None None None None;
   MkLine (Some b066) (Some "R") (Some "15:33") (Some "15:33") None (Some "Ruda Chebzie") None None;
   MkLine (Some b068) (Some "R") None None None None None None;
   MkLine (Some b070) (Some "R") (Some "15:35") (Some "15:35") None (Some "Ruda Śląska") None None;
   MkLine (Some b072) (Some "R") None None None None None None;
   MkLine (Some b074) (Some "R") None None None None None None;
   MkLine (Some b076) (Some "R") (Some "15:40") (Some "15:40") None (Some "Zabrze") None None;
   MkLine (Some b078) (Some "R") None None None None None None;
   MkLine (Some b080) (Some "R") None None None None None None;
   MkLine (Some b082) (Some "R") None None None None None None;
   MkLine (Some b084) (Some "R") None None None None None None;
   MkLine (Some b086) (Some "R") None None None None None None;
   MkLine (Some b088) (Some "R") (Some "15:47") None None (Some "Gliwice") None None;
   head (Some "to Gliwice");
   head (Some "####");
   head (Some "KS - Os");
   head (Some "20");
   head (Some "S1");
   head (Some "from Katowice");
   MkLine (Some b022) (Some "R") None (Some "15:30") None (Some "Katowice") None None;
   MkLine (Some b035) (Some "R") None None None None None None;
   MkLine (Some b040) (Some "R") (Some "15:33") (Some "15:33") None (Some "Katowice Załęże") None None;
   MkLine (Some b042) (Some "R") None None None None None None;
   MkLine (Some b045) (Some "R") None None None None None None;
   MkLine (Some b047) (Some "R") (Some "15:36") (Some "15:36") None (Some "Chorzów Batory") None None;
   MkLine (Some b054) (Some "R") None None None None None None;
   MkLine (Some b062) (Some "R") (Some "15:39") (Some "15:39") None (Some "Świętochłowice") None None;
   MkLine (Some b064) (Some "R") None None None None None None;
   MkLine (Some b066) (Some "R") (Some "15:43") (Some "15:43") None (Some "Ruda Chebzie") None None;
   MkLine (Some b068) (Some "R") None None None None None None;
   MkLine (Some b070) (Some "R") (Some "15:45") (Some "15:45") None (Some "Ruda Śląska") None None;
   MkLine (Some b072) (Some "R") None None None None None None;
   MkLine (Some b074) (Some "R") None None None None None None;
   MkLine (Some b076) (Some "R") (Some "15:50") (Some "15:50") None (Some "Zabrze") None None;
   MkLine (Some b078) (Some "R") None None None None None None;
   MkLine (Some b080) (Some "R") None None None None None None;
   MkLine (Some b082) (Some "R") None None None None None None;
   MkLine (Some b084) (Some "R") None None None None None None;
   MkLine (Some b086) (Some "R") None None None None None None;
   MkLine (Some b088) (Some "R") (Some "15:57") None None (Some "Gliwice") None None;
   head (Some "to Gliwice");
   head (Some "####");
   head (Some "IC - IC");
   head (Some "4608");
   head (Some "Intercity");
   head (Some "from Katowice");
   MkLine (Some b025) (Some "IC") None (Some "15:37") None (Some "Katowice") None None;
   MkLine (Some b035) (Some "IC") None None None None None None;
   MkLine (Some b040) (Some "IC") None None None None None None;
   MkLine (Some b042) (Some "IC") None None None None None None;
   MkLine (Some b045) (Some "IC") None None None None None None;
   MkLine (Some b047) (Some "R") (Some "15:43") (Some "15:43") None (Some "Chorz�w Batory") None None;
   MkLine (Some b054) (Some "IC") None None None None None None;
   MkLine (Some b062) (Some "IC") None None None None None None;
   MkLine (Some b064) (Some "IC") None None None None None None;
   MkLine (Some b066) (Some "IC") None None None None None None;
   MkLine (Some b068) (Some "IC") None None None None None None;
   MkLine (Some b070) (Some "IC") None None None None None None;
   MkLine (Some b072) (Some "IC") None None None None None None;
   MkLine (Some b074) (Some "IC") None None None None None None;
   MkLine (Some b076) (Some "IC") (Some "15:53") (Some "15:53") None (Some "Zabrze") None None;
   MkLine (Some b078) (Some "IC") None None None None None None;
   MkLine (Some b080) (Some "IC") None None None None None None;
   MkLine (Some b082) (Some "IC") None None None None None None;
   MkLine (Some b084) (Some "IC") None None None None None None;
   MkLine (Some b086) (Some "IC") None None None None None None;
   MkLine (Some b091) (Some "IC") (Some "16:00") (Some "16:02") None (Some "Gliwice") None None;
   MkLine (Some b097) (Some "IC") None None None None None None;
   head (Some "to Wrocław Główny");
   head (Some "####");
   head (Some "KS - Os");
   head (Some "22");
   head (Some "S1");
   head (Some "from Katowice");
   MkLine (Some b022) (Some "R") None (Some "15:40") None (Some "Katowice") None None;
   MkLine (Some b035) (Some "R") None None None None None None;
   MkLine (Some b040) (Some "R") (Some "15:43") (Some "15:43") None (Some "Katowice Załęże") None None;
   MkLine (Some b042) (Some "R") None None None None None None;
   MkLine (Some b045) (Some "R") None None None None None None;
   MkLine (Some b047) (Some "R") (Some "15:46") (Some "15:46") None (Some "Chorzów Batory") None None;
   MkLine (Some b054) (Some "R") None None None None None None;
   MkLine (Some b062) (Some "R") (Some "15:49") (Some "15:49") None (Some "Świętochłowice") None None;
   MkLine (Some b064) (Some "R") None None None None None None;
   MkLine (Some b066) (Some "R") (Some "15:53") (Some "15:53") None (Some "Ruda Chebzie") None None;
   MkLine (Some b068) (Some "R") None None None None None None;
   MkLine (Some b070) (Some "R") (Some "15:55") (Some "15:55") None (Some "Ruda Śląska") None None;
   MkLine (Some b072) (Some "R") None None None None None None;
   MkLine (Some b074) (Some "R") None None None None None None;
   MkLine (Some b076) (Some "R") (Some "16:00") (Some "16:00") None (Some "Zabrze") None None;
   MkLine (Some b078) (Some "R") None None None None None None;
   MkLine (Some b080) (Some "R") None None None None None None;
   MkLine (Some b082) (Some "R") None None None None None None;
   MkLine (Some b084) (Some "R") None None None None None None;
   MkLine (Some b086) (Some "R") None None None None None None;
   MkLine (Some b088) (Some "R") (Some "16:07") None None (Some "Gliwice") None None;
   head (Some "to Gliwice");
   head (Some "####");
   head (Some "KS - Os");
   head (Some "108");
   head (Some "S8");
   head (Some "from Katowice");
   MkLine (Some b021) (Some "R") None (Some "15:45") None (Some "Katowice") None None;
   MkLine (Some b035) (Some "R") None None None None None None;
   MkLine (Some b040) (Some "R") (Some "15:48") (Some "15:48") None (Some "Katowice Załęże") None None;
   MkLine (Some b042) (Some "R") None None None None None None;
   MkLine (Some b045) (Some "R") None None None None None None;
   MkLine (Some b049) (Some "R") (Some "15:52") (Some "15:53") None (Some "Chorzów Batory") None None;
   MkLine (Some b056) (Some "R") None None None None None None;
   head (Some "to Bytom");
   head (Some "####");
   head (Some "KS - Os");
   head (Some "24");
   head (Some "S1");
   head (Some "from Katowice");
   MkLine (Some b022) (Some "R") None (Some "15:50") None (Some "Katowice") None None;
   MkLine (Some b035) (Some "R") None None None None None None;
   MkLine (Some b040) (Some "R") (Some "15:53") (Some "15:53") None (Some "Katowice Załęże") None None;
   MkLine (Some b042) (Some "R") None None None None None None;
   MkLine (Some b045) (Some "R") None None None None None None;
   MkLine (Some b047) (Some "R") (Some "15:56") (Some "15:56") None (Some "Chorzów Batory") None None;
   MkLine (Some b054) (Some "R") None None None None None None;
   MkLine (Some b062) (Some "R") (Some "15:59") (Some "15:59") None (Some "Świętochłowice") None None;
   MkLine (Some b064) (Some "R") None None None None None None;
   MkLine (Some b066) (Some "R") (Some "16:03") (Some "16:03") None (Some "Ruda Chebzie") None None;
   MkLine (Some b068) (Some "R") None None None None None None;
   MkLine (Some b070) (Some "R") (Some "16:05") (Some "16:05") None (Some "Ruda Śląska") None None;
   MkLine (Some b072) (Some "R") None None None None None None;
   MkLine (Some b074) (Some "R") None None None None None None;
   MkLine (Some b076) (Some "R") (Some "16:10") (Some "16:10") None (Some "Zabrze") None None;
   MkLine (Some b078) (Some "R") None None None None None None;
   MkLine (Some b080) (Some "R") None None None None None None;
   MkLine (Some b082) (Some "R") None None None None None None;
   MkLine (Some b084) (Some "R") None None None None None None;
   MkLine (Some b086) (Some "R") None None None None None None;
   MkLine (Some b088) (Some "R") (Some "16:17") None None (Some "Gliwice") None None;
   head (Some "to Gliwice");
   head (Some "####");
   head (Some "KS - Os");
   head (Some "13");
   head (Some "S1 ");
   head (Some "from Gliwice");
   MkLine (Some b095) (Some "R") None (Some "14:53") None (Some "Gliwice") None None;
   MkLine (Some b087) (Some "R") None None None None None None;
   MkLine (Some b085) (Some "R") None None None None None None;
   MkLine (Some b083) (Some "R") None None None None None None;
   MkLine (Some b081) (Some "R") None None None None None None;
   MkLine (Some b079) (Some "R") None None None None None None;
   MkLine (Some b077) (Some "R") (Some "15:01") (Some "15:01") None (Some "Zabrze") None None;
   MkLine (Some b074) (Some "R") None None None None None None;
   MkLine (Some b072) (Some "R") None None None None None None;
   MkLine (Some b070) (Some "R") (Some "15:06") (Some "15:06") None (Some "Ruda Slaska") None None;
   MkLine (Some b068) (Some "R") None None None None None None;
   MkLine (Some b067) (Some "R") (Some "15:08") (Some "15:08") None (Some "Ruda Chebzie") None None;
   MkLine (Some b065) (Some "R") None None None None None None;
   MkLine (Some b063) (Some "R") (Some "15:11") (Some "15:11") None (Some "Swietochlowice") None None;
   MkLine (Some b055) (Some "R") None None None None None None;
   MkLine (Some b048) (Some "R") (Some "15:15") (Some "15:15") None (Some "Chorzów Batory") None None;
   MkLine (Some b046) (Some "R") None None None None None None;
   MkLine (Some b043) (Some "R") None None None None None None;
   MkLine (Some b041) (Some "R") (Some "15:18") (Some "15:18") None (Some "Katowice Załęże") None None;
   MkLine (Some b036) (Some "R") None None None None None None;
   MkLine (Some b030) (Some "R") (Some "15:21") None None (Some "Katowice") None None;
   head (Some "to Katowice");
   head (Some "####");
   head (Some "KS - Os");
   head (Some "105");
   head (Some "S8");
   head (Some "from Bytom");
   MkLine (Some b057) (Some "R") None None None None None None;
   MkLine (Some b050) (Some "R") (Some "15:20") (Some "15:21") None (Some "Chorzów Batory") None None;
   MkLine (Some b046) (Some "R") None None None None None None;
   MkLine (Some b043) (Some "R") None None None None None None;
   MkLine (Some b041) (Some "R") (Some "15:24") (Some "15:24") None (Some "Katowice Załęże") None None;
   MkLine (Some b036) (Some "R") None None None None None None;
   MkLine (Some b031) (Some "R") (Some "15:28") None None (Some "Katowice") None None;
   head (Some "to Katowice");
   head (Some "####");
   head (Some "KS - Os");
   head (Some "15");
   head (Some "S1 ");
   head (Some "from Gliwice");
   MkLine (Some b095) (Some "R") None (Some "15:03") None (Some "Gliwice") None None;
   MkLine (Some b087) (Some "R") None None None None None None;
   MkLine (Some b085) (Some "R") None None None None None None;
   MkLine (Some b083) (Some "R") None None None None None None;
   MkLine (Some b081) (Some "R") None None None None None None;
   MkLine (Some b079) (Some "R") None None None None None None;
   MkLine (Some b077) (Some "R") (Some "15:11") (Some "15:11") None (Some "Zabrze") None None;
   MkLine (Some b074) (Some "R") None None None None None None;
   MkLine (Some b072) (Some "R") None None None None None None;
   MkLine (Some b070) (Some "R") (Some "15:16") (Some "15:16") None (Some "Ruda Slaska") None None;
   MkLine (Some b068) (Some "R") None None None None None None;
   MkLine (Some b067) (Some "R") (Some "15:18") (Some "15:18") None (Some "Ruda Chebzie") None None;
   MkLine (Some b065) (Some "R") None None None None None None;
   MkLine (Some b063) (Some "R") (Some "15:21") (Some "15:21") None (Some "Swietochlowice") None None;
   MkLine (Some b055) (Some "R") None None None None None None;
   MkLine (Some b048) (Some "R") (Some "15:25") (Some "15:25") None (Some "Chorzów Batory") None None;
   MkLine (Some b046) (Some "R") None None None None None None;
   MkLine (Some b043) (Some "R") None None None None None None;
   MkLine (Some b041) (Some "R") (Some "15:28") (Some "15:28") None (Some "Katowice Załęże") None None;
   MkLine (Some b036) (Some "R") None None None None None None;
   MkLine (Some b030) (Some "R") (Some "15:31") None None (Some "Katowice") None None;
   head (Some "to Katowice");
   head (Some "####");
   head (Some "IC - IC");
   head (Some "6405");
   head (Some "Intercity");
   head (Some "from Wrocław");
   MkLine (Some b098) (Some "IC") None None None None None None;
   MkLine (Some b094) (Some "IC") (Some "15:08") (Some "15:14") None (Some "Gliwice") None None;
   MkLine (Some b087) (Some "IC") None None None None None None;
   MkLine (Some b085) (Some "IC") None None None None None None;
   MkLine (Some b083) (Some "IC") None None None None None None;
   MkLine (Some b081) (Some "IC") None None None None None None;
   MkLine (Some b079) (Some "IC") None None None None None None;
   MkLine (Some b077) (Some "IC") (Some "15:22") (Some "15:22") None (Some "Zabrze") None None;
   MkLine (Some b074) (Some "IC") None None None None None None;
   MkLine (Some b072) (Some "IC") None None None None None None;
   MkLine (Some b070) (Some "IC") None None None None None None;
   MkLine (Some b068) (Some "IC") None None None None None None;
   MkLine (Some b067) (Some "IC") None None None None None None;
   MkLine (Some b065) (Some "IC") None None None None None None;
   MkLine (Some b063) (Some "IC") None None None None None None;
   MkLine (Some b055) (Some "IC") None None None None None None;
   MkLine (Some b048) (Some "IC") None None None None None None;
   MkLine (Some b046) (Some "IC") None None None None None None;
   MkLine (Some b043) (Some "IC") None None None None None None;
   MkLine (Some b041) (Some "IC") None None None None None None;
   MkLine (Some b036) (Some "IC") None None None None None None;
   MkLine (Some b028) (Some "IC") (Some "15:38") None None (Some "Katowice") None None;
   head (Some "to Katowice");
   head (Some "####");
   head (Some "KS - Os");
   head (Some "17");
   head (Some "S1 ");
   head (Some "from Gliwice");
   MkLine (Some b095) (Some "R") None (Some "15:18") None (Some "Gliwice") None None;
   MkLine (Some b087) (Some "R") None None None None None None;
   MkLine (Some b085) (Some "R") None None None None None None;
   MkLine (Some b083) (Some "R") None None None None None None;
   MkLine (Some b081) (Some "R") None None None None None None;
   MkLine (Some b079) (Some "R") None None None None None None;
   MkLine (Some b077) (Some "R") (Some "15:26") (Some "15:26") None (Some "Zabrze") None None;
   MkLine (Some b074) (Some "R") None None None None None None;
   MkLine (Some b072) (Some "R") None None None None None None;
   MkLine (Some b070) (Some "R") (Some "15:31") (Some "15:31") None (Some "Ruda Slaska") None None;
   MkLine (Some b068) (Some "R") None None None None None None;
   MkLine (Some b067) (Some "R") (Some "15:33") (Some "15:33") None (Some "Ruda Chebzie") None None;
   MkLine (Some b065) (Some "R") None None None None None None;
   MkLine (Some b063) (Some "R") (Some "15:36") (Some "15:36") None (Some "Swietochlowice") None None;
   MkLine (Some b055) (Some "R") None None None None None None;
   MkLine (Some b048) (Some "R") (Some "15:40") (Some "15:40") None (Some "Chorzów Batory") None None;
   MkLine (Some b046) (Some "R") None None None None None None;
   MkLine (Some b043) (Some "R") None None None None None None;
   MkLine (Some b041) (Some "R") (Some "15:43") (Some "15:43") None (Some "Katowice Załęże") None None;
   MkLine (Some b036) (Some "R") None None None None None None;
   MkLine (Some b030) (Some "R") (Some "15:46") None None (Some "Katowice") None None;
   head (Some "to Katowice");
   head (Some "####");
   head (Some "KS - Os");
   head (Some "21");
   head (Some "S1 ");
   head (Some "from Gliwice");
   MkLine (Some b095) (Some "R") None (Some "15:23") None (Some "Gliwice") None None;
   MkLine (Some b087) (Some "R") None None None None None None;
   MkLine (Some b085) (Some "R") None None None None None None;
   MkLine (Some b083) (Some "R") None None None None None None;
   MkLine (Some b081) (Some "R") None None None None None None;
   MkLine (Some b079) (Some "R") None None None None None None;
   MkLine (Some b077) (Some "R") (Some "15:31") (Some "15:31") None (Some "Zabrze") None None;
   MkLine (Some b074) (Some "R") None None None None None None;
   MkLine (Some b072) (Some "R") None None None None None None;
   MkLine (Some b070) (Some "R") (Some "15:36") (Some "15:36") None (Some "Ruda Slaska") None None;
   MkLine (Some b068) (Some "R") None None None None None None;
   MkLine (Some b067) (Some "R") (Some "15:38") (Some "15:38") None (Some "Ruda Chebzie") None None;
   MkLine (Some b065) (Some "R") None None None None None None;
   MkLine (Some b063) (Some "R") (Some "15:41") (Some "15:41") None (Some "Swietochlowice") None None;
   MkLine (Some b055) (Some "R") None None None None None None;
   MkLine (Some b048) (Some "R") (Some "15:45") (Some "15:45") None (Some "Chorzów Batory") None None;
   MkLine (Some b046) (Some "R") None None None None None None;
   MkLine (Some b043) (Some "R") None None None None None None;
   MkLine (Some b041) (Some "R") (Some "15:48") (Some "15:48") None (Some "Katowice Załęże") None None;
   MkLine (Some b036) (Some "R") None None None None None None;
   MkLine (Some b030) (Some "R") (Some "15:51") None None (Some "Katowice") None None;
   head (Some "to Katowice");
   head (Some "####");
   head (Some "KS - Os");
   head (Some "107");
   head (Some "S8");
   head (Some "from Bytom");
   MkLine (Some b057) (Some "R") None None None None None None;
   MkLine (Some b050) (Some "R") (Some "15:50") (Some "15:51") None (Some "Chorzów Batory") None None;
   MkLine (Some b046) (Some "R") None None None None None None;
   MkLine (Some b043) (Some "R") None None None None None None;
   MkLine (Some b041) (Some "R") (Some "15:54") (Some "15:54") None (Some "Katowice Załęże") None None;
   MkLine (Some b036) (Some "R") None None None None None None;
   MkLine (Some b031) (Some "R") (Some "15:58") None None (Some "Katowice") None None;
   head (Some "to Katowice");
   head (Some "####");
   head (Some "KS - Os");
   head (Some "23");
   head (Some "S1 ");
   head (Some "from Gliwice");
   MkLine (Some b095) (Some "R") None (Some "15:33") None (Some "Gliwice") None None;
   MkLine (Some b087) (Some "R") None None None None None None;
   MkLine (Some b085) (Some "R") None None None None None None;
   MkLine (Some b083) (Some "R") None None None None None None;
   MkLine (Some b081) (Some "R") None None None None None None;
   MkLine (Some b079) (Some "R") None None None None None None;
   MkLine (Some b077) (Some "R") (Some "15:41") (Some "15:41") None (Some "Zabrze") None None;
   MkLine (Some b074) (Some "R") None None None None None None;
   MkLine (Some b072) (Some "R") None None None None None None;
   MkLine (Some b070) (Some "R") (Some "15:46") (Some "15:46") None (Some "Ruda Slaska") None None;
   MkLine (Some b068) (Some "R") None None None None None None;
   MkLine (Some b067) (Some "R") (Some "15:48") (Some "15:48") None (Some "Ruda Chebzie") None None;
   MkLine (Some b065) (Some "R") None None None None None None;
   MkLine (Some b063) (Some "R") (Some "15:51") (Some "15:51") None (Some "Swietochlowice") None None;
   MkLine (Some b055) (Some "R") None None None None None None;
   MkLine (Some b048) (Some "R") (Some "15:55") (Some "15:55") None (Some "Chorzów Batory") None None;
   MkLine (Some b046) (Some "R") None None None None None None;
   MkLine (Some b043) (Some "R") None None None None None None;
   MkLine (Some b041) (Some "R") (Some "15:58") (Some "15:58") None (Some "Katowice Załęże") None None;
   MkLine (Some b036) (Some "R") None None None None None None;
   MkLine (Some b030) (Some "R") (Some "16:01") None None (Some "Katowice") None None;
   head (Some "to Katowice");
   head (Some "####");
   head (Some "IC - IC");
   head (Some "6407");
   head (Some "Intercity");
   head (Some "from Wrocław");
   MkLine (Some b098) (Some "IC") None None None None None None;
   MkLine (Some b094) (Some "IC") (Some "15:38") (Some "15:44") None (Some "Gliwice") None None;
   MkLine (Some b087) (Some "IC") None None None None None None;
   MkLine (Some b085) (Some "IC") None None None None None None;
   MkLine (Some b083) (Some "IC") None None None None None None;
   MkLine (Some b081) (Some "IC") None None None None None None;
   MkLine (Some b079) (Some "IC") None None None None None None;
   MkLine (Some b077) (Some "IC") (Some "15:52") (Some "15:52") None (Some "Zabrze") None None;
   MkLine (Some b074) (Some "IC") None None None None None None;
   MkLine (Some b072) (Some "IC") None None None None None None;
   MkLine (Some b070) (Some "IC") None None None None None None;
   MkLine (Some b068) (Some "IC") None None None None None None;
   MkLine (Some b067) (Some "IC") None None None None None None;
   MkLine (Some b065) (Some "IC") None None None None None None;
   MkLine (Some b063) (Some "IC") None None None None None None;
   MkLine (Some b055) (Some "IC") None None None None None None;
   MkLine (Some b048) (Some "IC") None None None None None None;
   MkLine (Some b046) (Some "IC") None None None None None None;
   MkLine (Some b043) (Some "IC") None None None None None None;
   MkLine (Some b041) (Some "IC") None None None None None None;
   MkLine (Some b036) (Some "IC") None None None None None None;
   MkLine (Some b028) (Some "IC") (Some "16:08") None None (Some "Katowice") None None;
   head (Some "to Katowice");
   head (Some "####");
   head (Some "KS - Os");
   head (Some "25");
   head (Some "S1 ");
   head (Some "from Gliwice");
   MkLine (Some b095) (Some "R") None (Some "15:48") None (Some "Gliwice") None None;
   MkLine (Some b087) (Some "R") None None None None None None;
   MkLine (Some b085) (Some "R") None None None None None None;
   MkLine (Some b083) (Some "R") None None None None None None;
   MkLine (Some b081) (Some "R") None None None None None None;
   MkLine (Some b079) (Some "R") None None None None None None;
   MkLine (Some b077) (Some "R") (Some "15:56") (Some "15:56") None (Some "Zabrze") None None;
   MkLine (Some b074) (Some "R") None None None None None None;
   MkLine (Some b072) (Some "R") None None None None None None;
   MkLine (Some b070) (Some "R") (Some "16:01") (Some "16:01") None (Some "Ruda Slaska") None None;
   MkLine (Some b068) (Some "R") None None None None None None;
   MkLine (Some b067) (Some "R") (Some "16:03") (Some "16:03") None (Some "Ruda Chebzie") None None;
   MkLine (Some b065) (Some "R") None None None None None None;
   MkLine (Some b063) (Some "R") (Some "16:06") (Some "16:06") None (Some "Swietochlowice") None None;
   MkLine (Some b055) (Some "R") None None None None None None;
   MkLine (Some b048) (Some "R") (Some "16:10") (Some "16:10") None (Some "Chorzów Batory") None None;
   MkLine (Some b046) (Some "R") None None None None None None;
   MkLine (Some b043) (Some "R") None None None None None None;
   MkLine (Some b041) (Some "R") (Some "16:13") (Some "16:13") None (Some "Katowice Załęże") None None;
   MkLine (Some b036) (Some "R") None None None None None None;
   MkLine (Some b030) (Some "R") (Some "16:16") None None (Some "Katowice") None None;
   head (Some "to Katowice")].

(** data/KO_GLC/trains_schedules_KO_RCB_ZZ_GLC_v2.csv *)
Definition schedule_glc_v2 : list line :=
  [head (Some "####");
   head (Some "KS - Os");
   head (Some "2");
   head (Some "S1");
   head (Some "from Katowice");
   MkLine (Some b022) (Some "R") None (Some "14:00") None (Some "Katowice") None None;
   MkLine (Some b035) (Some "R") None None None None None None;
   MkLine (Some b040) (Some "R") (Some "14:03") (Some "14:03") None (Some "Katowice Załęże") None None;
   MkLine (Some b042) (Some "R") None None None None None None;
   MkLine (Some b045) (Some "R") None None None None None None;
   MkLine (Some b047) (Some "R") (Some "14:06") (Some "14:08") None (Some "Chorzów Batory") None None;
   MkLine (Some b054) (Some "R") None None None None None None;
   MkLine (Some b062) (Some "R") (Some "14:11") (Some "14:11") None (Some "Świętochłowice") None None;
   MkLine (Some b064) (Some "R") None None None None None None;
   MkLine (Some b066) (Some "R") (Some "14:15") (Some "14:17") None (Some "Ruda Chebzie") None None;
   MkLine (Some b068) (Some "R") None None None None None None;
   MkLine (Some b070) (Some "R") (Some "14:19") (Some "14:19") None (Some "Ruda Śląska") None None;
   MkLine (Some b072) (Some "R") None None None None None None;
   MkLine (Some b074) (Some "R") None None None None None None;
   MkLine (Some b076) (Some "R") (Some "14:24") (Some "14:26") None (Some "Zabrze") None None;
   MkLine (Some b078) (Some "R") None None None None None None;
   MkLine (Some b080) (Some "R") None None None None None None;
   MkLine (Some b082) (Some "R") None None None None None None;
   MkLine (Some b084) (Some "R") None None None None None None;
   MkLine (Some b086) (Some "R") None None None None None None;
   MkLine (Some b088) (Some "R") (Some "14:32") None None (Some "Gliwice") None None;
   head (Some "to Gliwice");
   head (Some "####");
   head (Some "IC - IC");
   head (Some "4602");
   head (Some "Intercity");
   head (Some "from Katowice");
   MkLine (Some b025) (Some "IC") None (Some "14:18") None (Some "Katowice") None None;
   MkLine (Some b035) (Some "IC") None None None None None None;
   MkLine (Some b040) (Some "IC") None None None None None None;
   MkLine (Some b042) (Some "IC") None None None None None None;
   MkLine (Some b045) (Some "IC") None None None None None None;
   MkLine (Some b047) (Some "R") (Some "14:24") (Some "14:25") None (Some "Chorz�w Batory") None None;
   MkLine (Some b054) (Some "IC") None None None None None None;
   MkLine (Some b062) (Some "IC") None None None None None None;
   MkLine (Some b064) (Some "IC") None None None None None None;
   MkLine (Some b066) (Some "IC") None None None None None None;
   MkLine (Some b068) (Some "IC") None None None None None None;
   MkLine (Some b070) (Some "IC") None None None None None None;
   MkLine (Some b072) (Some "IC") None None None None None None;
   MkLine (Some b074) (Some "IC") None None None None None None;
   MkLine (Some b076) (Some "IC") (Some "14:35") (Some "14:38") None (Some "Zabrze") None None;
   MkLine (Some b078) (Some "IC") None None None None None None;
   MkLine (Some b080) (Some "IC") None None None None None None;
   MkLine (Some b082) (Some "IC") None None None None None None;
   MkLine (Some b084) (Some "IC") None None None None None None;
   MkLine (Some b086) (Some "IC") None None None None None None;
   MkLine (Some b091) (Some "IC") (Some "14:45") (Some "14:47") None (Some "Gliwice") None None;
   MkLine (Some b097) (Some "IC") None None None None None None;
   head (Some "to Wrocław Główny");
   head (Some "####");
   head (Some "KS - Os");
   head (Some "4");
   head (Some "S1");
   head (Some "from Katowice");
   MkLine (Some b022) (Some "R") None (Some "14:38") None (Some "Katowice") None None;
   MkLine (Some b035) (Some "R") None None None None None None;
   MkLine (Some b040) (Some "R") (Some "14:41") (Some "14:41") None (Some "Katowice Załęże") None None;
   MkLine (Some b042) (Some "R") None None None None None None;
   MkLine (Some b045) (Some "R") None None None None None None;
   MkLine (Some b047) (Some "R") (Some "14:44") (Some "14:46") None (Some "Chorzów Batory") None None;
   MkLine (Some b054) (Some "R") None None None None None None;
   MkLine (Some b062) (Some "R") (Some "14:49") (Some "14:49") None (Some "Świętochłowice") None None;
   MkLine (Some b064) (Some "R") None None None None None None;
   MkLine (Some b066) (Some "R") (Some "14:53") (Some "14:55") None (Some "Ruda Chebzie") None None;
   MkLine (Some b068) (Some "R") None None None None None None;
   MkLine (Some b070) (Some "R") (Some "14:58") (Some "14:58") None (Some "Ruda Śląska") None None;
   MkLine (Some b072) (Some "R") None None None None None None;
   MkLine (Some b074) (Some "R") None None None None None None;
   MkLine (Some b076) (Some "R") (Some "15:02") (Some "15:04") None (Some "Zabrze") None None;
   MkLine (Some b078) (Some "R") None None None None None None;
   MkLine (Some b080) (Some "R") None None None None None None;
   MkLine (Some b082) (Some "R") None None None None None None;
   MkLine (Some b084) (Some "R") None None None None None None;
   MkLine (Some b086) (Some "R") None None None None None None;
   MkLine (Some b088) (Some "R") (Some "15:11") None None (Some "Gliwice") None None;
   head (Some "to Gliwice");
   head (Some "####");
   head (Some "KS - Os");
   head (Some "102");
   head (Some "S8");
   head (Some "from Katowice");
   MkLine (Some b021) (Some "R") None (Some "14:43") None (Some "Katowice") None None;
   MkLine (Some b035) (Some "R") None None None None None None;
   MkLine (Some b040) (Some "R") (Some "14:46") (Some "14:46") None (Some "Katowice Załęże") None None;
   MkLine (Some b042) (Some "R") None None None None None None;
   MkLine (Some b045) (Some "R") None None None None None None;
   MkLine (Some b049) (Some "R") (Some "14:50") (Some "14:52") None (Some "Chorzów Batory") None None;
   MkLine (Some b056) (Some "R") None None None None None None;
   head (Some "to Bytom");
   head (Some "####");
   head (Some "KS - Os");
   head (Some "6");
   head (Some "S1");
   head (Some "from Katowice");
   MkLine (Some b022) (Some "R") None (Some "15:17") None (Some "Katowice") None None;
   MkLine (Some b035) (Some "R") None None None None None None;
   MkLine (Some b040) (Some "R") (Some "15:19") (Some "15:19") None (Some "Katowice Załęże") None None;
   MkLine (Some b042) (Some "R") None None None None None None;
   MkLine (Some b045) (Some "R") None None None None None None;
   MkLine (Some b047) (Some "R") (Some "15:22") (Some "15:23") None (Some "Chorzów Batory") None None;
   MkLine (Some b054) (Some "R") None None None None None None;
   MkLine (Some b062) (Some "R") (Some "15:25") (Some "15:25") None (Some "Świętochłowice") None None;
   MkLine (Some b064) (Some "R") None None None None None None;
   MkLine (Some b066) (Some "R") (Some "15:29") (Some "15:31") None (Some "Ruda Chebzie") None None;
   MkLine (Some b068) (Some "R") None None None None None None;
   MkLine (Some b070) (Some "R") (Some "14:33") (Some "15:33") None (Some "Ruda Śląska") None None;
   MkLine (Some b072) (Some "R") None None None None None None;
   MkLine (Some b074) (Some "R") None None None None None None;
   MkLine (Some b076) (Some "R") (Some "15:38") (Some "15:40") None (Some "Zabrze") None None;
   MkLine (Some b078) (Some "R") None None None None None None;
   MkLine (Some b080) (Some "R") None None None None None None;
   MkLine (Some b082) (Some "R") None None None None None None;
   MkLine (Some b084) (Some "R") None None None None None None;
   MkLine (Some b086) (Some "R") None None None None None None;
   MkLine (Some b088) (Some "R") (Some "15:47") None None (Some "Gliwice") None None;
   head (Some "to Gliwice");
   head (Some "####");
   head (Some "IC - IC");
   head (Some "4604");
   head (Some "Intercity");
   head (Some "from Katowice");
   MkLine (Some b025) (Some "IC") None (Some "15:28") None (Some "Katowice") None None;
   MkLine (Some b035) (Some "IC") None None None None None None;
   MkLine (Some b040) (Some "IC") None None None None None None;
   MkLine (Some b042) (Some "IC") None None None None None None;
   MkLine (Some b045) (Some "IC") None None None None None None;
   MkLine (Some b047) (Some "IC") None None None None None None;
   MkLine (Some b054) (Some "IC") None None None None None None;
   MkLine (Some b062) (Some "IC") None None None None None None;
   MkLine (Some b064) (Some "IC") None None None None None None;
   MkLine (Some b066) (Some "IC") None None None None None None;
   MkLine (Some b068) (Some "IC") None None None None None None;
   MkLine (Some b070) (Some "IC") None None None None None None;
   MkLine (Some b072) (Some "IC") None None None None None None;
   MkLine (Some b074) (Some "IC") None None None None None None;
   MkLine (Some b076) (Some "IC") (Some "15:41") (Some "15:44") None (Some "Zabrze") None None;
   MkLine (Some b078) (Some "IC") None None None None None None;
   MkLine (Some b080) (Some "IC") None None None None None None;
   MkLine (Some b082) (Some "IC") None None None None None None;
   MkLine (Some b084) (Some "IC") None None None None None None;
   MkLine (Some b086) (Some "IC") None None None None None None;
   MkLine (Some b091) (Some "IC") (Some "15:52") (Some "15:54") None (Some "Gliwice") None None;
   MkLine (Some b097) (Some "IC") None None None None None None;
   head (Some "to Wrocław Główny");
   head (Some "####");
   head (Some "KS - Os");
   head (Some "8");
   head (Some "S1");
   head (Some "from Katowice");
   MkLine (Some b022) (Some "R") None (Some "15:54") None (Some "Katowice") None None;
   MkLine (Some b035) (Some "R") None None None None None None;
   MkLine (Some b040) (Some "R") (Some "15:57") (Some "15:57") None (Some "Katowice Załęże") None None;
   MkLine (Some b042) (Some "R") None None None None None None;
   MkLine (Some b045) (Some "R") None None None None None None;
   MkLine (Some b047) (Some "R") (Some "16:00") (Some "16:00") None (Some "Chorzów Batory") None None;
   MkLine (Some b054) (Some "R") None None None None None None;
   MkLine (Some b062) (Some "R") (Some "16:03") (Some "16:03") None (Some "Świętochłowice") None None;
   MkLine (Some b064) (Some "R") None None None None None None;
   MkLine (Some b066) (Some "R") (Some "16:06") (Some "16:06") None (Some "Ruda Chebzie") None None;
   MkLine (Some b068) (Some "R") None None None None None None;
   MkLine (Some b070) (Some "R") (Some "16:09") (Some "16:09") None (Some "Ruda Śląska") None None;
   MkLine (Some b072) (Some "R") None None None None None None;
   MkLine (Some b074) (Some "R") None None None None None None;
   MkLine (Some b076) (Some "R") (Some "16:13") (Some "16:13") None (Some "Zabrze") None None;
   MkLine (Some b078) (Some "R") None None None None None None;
   MkLine (Some b080) (Some "R") None None None None None None;
   MkLine (Some b082) (Some "R") None None None None None None;
   MkLine (Some b084) (Some "R") None None None None None None;
   MkLine (Some b086) (Some "R") None None None None None None;
   MkLine (Some b088) (Some "R") (Some "16:21") None None (Some "Gliwice") None None;
   head (Some "to Gliwice");
   head (Some "####");
   head (Some "KS - Os");
   head (Some "10");
   head (Some "S1");
   head (Some "from Katowice");
   MkLine (Some b022) (Some "R") None (Some "16:07") None (Some "Katowice") None None;
   MkLine (Some b035) (Some "R") None None None None None None;
   MkLine (Some b040) (Some "R") (Some "16:09") (Some "16:09") None (Some "Katowice Załęże") None None;
   MkLine (Some b042) (Some "R") None None None None None None;
   MkLine (Some b045) (Some "R") None None None None None None;
   MkLine (Some b047) (Some "R") (Some "16:12") (Some "16:13") None (Some "Chorzów Batory") None None;
   MkLine (Some b054) (Some "R") None None None None None None;
   MkLine (Some b062) (Some "R") (Some "16:15") (Some "16:15") None (Some "Świętochłowice") None None;
   MkLine (Some b064) (Some "R") None None None None None None;
   MkLine (Some b066) (Some "R") (Some "16:20") (Some "16:21") None (Some "Ruda Chebzie") None None;
   MkLine (Some b068) (Some "R") None None None None None None;
   MkLine (Some b070) (Some "R") (Some "16:23") (Some "16:23") None (Some "Ruda Śląska") None None;
   MkLine (Some b072) (Some "R") None None None None None None;
   MkLine (Some b074) (Some "R") None None None None None None;
   MkLine (Some b076) (Some "R") (Some "16:28") (Some "16:32") None (Some "Zabrze") None None;
   MkLine (Some b078) (Some "R") None None None None None None;
   MkLine (Some b080) (Some "R") None None None None None None;
   MkLine (Some b082) (Some "R") None None None None None None;
   MkLine (Some b084) (Some "R") None None None None None None;
   MkLine (Some b086) (Some "R") None None None None None None;
   MkLine (Some b088) (Some "R") (Some "16:39") None None (Some "Gliwice") None None;
   head (Some "to Gliwice");
   head (Some "####");
   head (Some "IC - IC");
   head (Some "4606");
   head (Some "Intercity");
   head (Some "from Katowice");
   MkLine (Some b025) (Some "IC") None (Some "16:22") None (Some "Katowice") None None;
   MkLine (Some b035) (Some "IC") None None None None None None;
   MkLine (Some b040) (Some "IC") None None None None None None;
   MkLine (Some b042) (Some "IC") None None None None None None;
   MkLine (Some b045) (Some "IC") None None None None None None;
   MkLine (Some b047) (Some "R") (Some "16:26") (Some "16:27") None (Some "Chorz�w Batory") None None;
   MkLine (Some b054) (Some "IC") None None None None None None;
   MkLine (Some b062) (Some "IC") None None None None None None;
   MkLine (Some b064) (Some "IC") None None None None None None;
   MkLine (Some b066) (Some "IC") None None None None None None;
   MkLine (Some b068) (Some "IC") None None None None None None;
   MkLine (Some b070) (Some "IC") None None None None None None;
   MkLine (Some b072) (Some "IC") None None None None None None;
   MkLine (Some b074) (Some "IC") None None None None None None;
   MkLine (Some b076) (Some "IC") (Some "16:37") (Some "16:39") None (Some "Zabrze") None None;
   MkLine (Some b078) (Some "IC") None None None None None None;
   MkLine (Some b080) (Some "IC") None None None None None None;
   MkLine (Some b082) (Some "IC") None None None None None None;
   MkLine (Some b084) (Some "IC") None None None None None None;
   MkLine (Some b086) (Some "IC") None None None None None None;
   MkLine (Some b091) (Some "IC") (Some "16:45") (Some "16:47") None (Some "Gliwice") None None;
   MkLine (Some b097) (Some "IC") None None None None None None;
   head (Some "to Wrocław Główny");
   head (Some "####");
   head (Some "KS - Os");
   head (Some "12");
   head (Some "S1");
   head (Some "from Katowice");
   MkLine (Some b022) (Some "R") None (Some "16:24") None (Some "Katowice") None None;
   MkLine (Some b035) (Some "R") None None None None None None;
   MkLine (Some b040) (Some "R") (Some "16:27") (Some "16:27") None (Some "Katowice Załęże") None None;
   MkLine (Some b042) (Some "R") None None None None None None;
   MkLine (Some b045) (Some "R") None None None None None None;
   MkLine (Some b047) (Some "R") (Some "16:30") (Some "16:32") None (Some "Chorzów Batory") None None;
   MkLine (Some b054) (Some "R") None None None None None None;
   MkLine (Some b062) (Some "R") (Some "16:35") (Some "16:35") None (Some "Świętochłowice") None None;
   MkLine (Some b064) (Some "R") None None None None None None;
   MkLine (Some b066) (Some "R") (Some "16:39") (Some "16:46") None (Some "Ruda Chebzie") None None;
   MkLine (Some b068) (Some "R") None None None None None None;
   MkLine (Some b070) (Some "R") (Some "16:49") (Some "16:49") None (Some "Ruda Śląska") None None;
   MkLine (Some b072) (Some "R") None None None None None None;
   MkLine (Some b074) (Some "R") None None None None None None;
   MkLine (Some b076) (Some "R") (Some "16:52") (Some "16:54") None (Some "Zabrze") None None;
   MkLine (Some b078) (Some "R") None None None None None None;
   MkLine (Some b080) (Some "R") None None None None None None;
   MkLine (Some b082) (Some "R") None None None None None None;
   MkLine (Some b084) (Some "R") None None None None None None;
   MkLine (Some b086) (Some "R") None None None None None None;
   MkLine (Some b088) (Some "R") (Some "17:01") None None (Some "Gliwice") None None;
   head (Some "to Gliwice");
   head (Some "####");
   head (Some "KS - Os");
   head (Some "14");
   head (Some "S1");
   head (Some "from Katowice");
   MkLine (Some b022) (Some "R") None (Some "16:44") None (Some "Katowice") None None;
   MkLine (Some b035) (Some "R") None None None None None None;
   MkLine (Some b040) (Some "R") (Some "16:47") (Some "16:47") None (Some "Katowice Załęże") None None;
   MkLine (Some b042) (Some "R") None None None None None None;
   MkLine (Some b045) (Some "R") None None None None None None;
   MkLine (Some b047) (Some "R") (Some "16:50") (Some "17:00") None (Some "Chorzów Batory") None None;
   MkLine (Some b054) (Some "R") None None None None None None;
   MkLine (Some b062) (Some "R") (Some "17:03") (Some "17:03") None (Some "Świętochłowice") None None;
   MkLine (Some b064) (Some "R") None None None None None None;
   MkLine (Some b066) (Some "R") (Some "17:05") (Some "17:05") None (Some "Ruda Chebzie") None None;
   MkLine (Some b068) (Some "R") None None None None None None;
   MkLine (Some b070) (Some "R") (Some "17:08") (Some "17:08") None (Some "Ruda Śląska") None None;
   MkLine (Some b072) (Some "R") None None None None None None;
   MkLine (Some b074) (Some "R") None None None None None None;
   MkLine (Some b076) (Some "R") (Some "17:11") (Some "17:12") None (Some "Zabrze") None None;
   MkLine (Some b078) (Some "R") None None None None None None;
   MkLine (Some b080) (Some "R") None None None None None None;
   MkLine (Some b082) (Some "R") None None None None None None;
   MkLine (Some b084) (Some "R") None None None None None None;
   MkLine (Some b086) (Some "R") None None None None None None;
   MkLine (Some b088) (Some "R") (Some "17:19") None None (Some "Gliwice") None None;
   head (Some "to Gliwice");
   head (Some "####");
   head (Some "KS - Os");
   head (Some "1");
   head (Some "S1 ");
   head (Some "from Gliwice");
   MkLine (Some b089) (Some "R") None (Some "13:58") None (Some "Gliwice") None None;
   MkLine (Some b086) (Some "R") None None None None None None;
   MkLine (Some b084) (Some "R") None None None None None None;
   MkLine (Some b082) (Some "R") None None None None None None;
   MkLine (Some b080) (Some "R") None None None None None None;
   MkLine (Some b078) (Some "R") None None None None None None;
   MkLine (Some b077) (Some "R") (Some "14:06") (Some "14:08") None (Some "Zabrze") None None;
   MkLine (Some b074) (Some "R") None None None None None None;
   MkLine (Some b072) (Some "R") None None None None None None;
   MkLine (Some b070) (Some "R") (Some "14:13") (Some "14:13") None (Some "Ruda Slaska") None None;
   MkLine (Some b068) (Some "R") None None None None None None;
   MkLine (Some b067) (Some "R") (Some "14:15") (Some "14:17") None (Some "Ruda Chebzie") None None;
   MkLine (Some b065) (Some "R") None None None None None None;
   MkLine (Some b063) (Some "R") (Some "14:20") (Some "14:20") None (Some "Swietochlowice") None None;
   MkLine (Some b055) (Some "R") None None None None None None;
   MkLine (Some b048) (Some "R") (Some "14:24") (Some "14:26") None (Some "Chorzów Batory") None None;
   MkLine (Some b045) (Some "R") None None None None None None;
   MkLine (Some b042) (Some "R") None None None None None None;
   MkLine (Some b040) (Some "R") (Some "14:29") (Some "14:29") None (Some "Katowice Załęże") None None;
   MkLine (Some b035) (Some "R") None None None None None None;
   MkLine (Some b030) (Some "R") (Some "14:32") None None (Some "Katowice") None None;
   head (Some "to Katowice");
   head (Some "####");
   head (Some "KS - Os");
   head (Some "101");
   head (Some "S8");
   head (Some "from Bytom");
   MkLine (Some b057) (Some "R") None None None None None None;
   MkLine (Some b050) (Some "R") (Some "14:26") (Some "14:30") None (Some "Chorzów Batory") None None;
   MkLine (Some b045) (Some "R") None None None None None None;
   MkLine (Some b042) (Some "R") None None None None None None;
   MkLine (Some b040) (Some "R") (Some "14:33") (Some "14:33") None (Some "Katowice Załęże") None None;
   MkLine (Some b035) (Some "R") None None None None None None;
   MkLine (Some b031) (Some "R") (Some "14:37") None None (Some "Katowice") None None;
   head (Some "to Katowice");
   head (Some "####");
   head (Some "IC - IC");
   head (Some "6401");
   head (Some "Intercity");
   head (Some "from Wrocław");
   MkLine (Some b098) (Some "IC") None None None None None None;
   MkLine (Some b089) (Some "IC") (Some "14:29") (Some "14:32") None (Some "Gliwice") None None;
   MkLine (Some b086) (Some "IC") None None None None None None;
   MkLine (Some b084) (Some "IC") None None None None None None;
   MkLine (Some b082) (Some "IC") None None None None None None;
   MkLine (Some b080) (Some "IC") None None None None None None;
   MkLine (Some b078) (Some "IC") None None None None None None;
   MkLine (Some b077) (Some "IC") (Some "14:38") (Some "14:39") None (Some "Zabrze") None None;
   MkLine (Some b074) (Some "IC") None None None None None None;
   MkLine (Some b072) (Some "IC") None None None None None None;
   MkLine (Some b070) (Some "IC") None None None None None None;
   MkLine (Some b068) (Some "IC") None None None None None None;
   MkLine (Some b067) (Some "IC") None None None None None None;
   MkLine (Some b065) (Some "IC") None None None None None None;
   MkLine (Some b063) (Some "IC") None None None None None None;
   MkLine (Some b055) (Some "IC") None None None None None None;
   MkLine (Some b048) (Some "R") (Some "14:48") (Some "14:50") None (Some "Chorzów Batory") None None;
   MkLine (Some b045) (Some "IC") None None None None None None;
   MkLine (Some b042) (Some "IC") None None None None None None;
   MkLine (Some b040) (Some "IC") None None None None None None;
   MkLine (Some b035) (Some "IC") None None None None None None;
   MkLine (Some b028) (Some "IC") (Some "14:55") None None (Some "Katowice") None None;
   head (Some "to Katowice");
   head (Some "####");
   head (Some "KS - Os");
   head (Some "3");
   head (Some "S1 ");
   head (Some "from Gliwice");
   MkLine (Some b089) (Some "R") None (Some "14:54") None (Some "Gliwice") None None;
   MkLine (Some b086) (Some "R") None None None None None None;
   MkLine (Some b084) (Some "R") None None None None None None;
   MkLine (Some b082) (Some "R") None None None None None None;
   MkLine (Some b080) (Some "R") None None None None None None;
   MkLine (Some b078) (Some "R") None None None None None None;
   MkLine (Some b077) (Some "R") (Some "15:02") (Some "15:04") None (Some "Zabrze") None None;
   MkLine (Some b074) (Some "R") None None None None None None;
   MkLine (Some b072) (Some "R") None None None None None None;
   MkLine (Some b070) (Some "R") (Some "15:09") (Some "15:09") None (Some "Ruda Slaska") None None;
   MkLine (Some b068) (Some "R") None None None None None None;
   MkLine (Some b067) (Some "R") (Some "15:11") (Some "15:13") None (Some "Ruda Chebzie") None None;
   MkLine (Some b065) (Some "R") None None None None None None;
   MkLine (Some b063) (Some "R") (Some "15:16") (Some "15:16") None (Some "Swietochlowice") None None;
   MkLine (Some b055) (Some "R") None None None None None None;
   MkLine (Some b048) (Some "R") (Some "15:20") (Some "15:22") None (Some "Chorzów Batory") None None;
   MkLine (Some b045) (Some "R") None None None None None None;
   MkLine (Some b042) (Some "R") None None None None None None;
   MkLine (Some b040) (Some "R") (Some "15:25") (Some "15:25") None (Some "Katowice Załęże") None None;
   MkLine (Some b035) (Some "R") None None None None None None;
   MkLine (Some b030) (Some "R") (Some "15:28") None None (Some "Katowice") None None;
   head (Some "to Katowice");
   head (Some "####");
   head (Some "KS - Os");
   head (Some "103");
   head (Some "S8");
   head (Some "from Bytom");
   MkLine (Some b057) (Some "R") None None None None None None;
   MkLine (Some b050) (Some "R") (Some "15:48") (Some "15:50") None (Some "Chorzów Batory") None None;
   MkLine (Some b045) (Some "R") None None None None None None;
   MkLine (Some b042) (Some "R") None None None None None None;
   MkLine (Some b040) (Some "R") (Some "15:53") (Some "15:53") None (Some "Katowice Załęże") None None;
   MkLine (Some b035) (Some "R") None None None None None None;
   MkLine (Some b031) (Some "R") (Some "15:57") None None (Some "Katowice") None None;
   head (Some "to Katowice");
   head (Some "####");
   head (Some "KS - Os");
   head (Some "5");
   head (Some "S1 ");
   head (Some "from Gliwice");
   MkLine (Some b089) (Some "R") None (Some "15:34") None (Some "Gliwice") None None;
   MkLine (Some b086) (Some "R") None None None None None None;
   MkLine (Some b084) (Some "R") None None None None None None;
   MkLine (Some b082) (Some "R") None None None None None None;
   MkLine (Some b080) (Some "R") None None None None None None;
   MkLine (Some b078) (Some "R") None None None None None None;
   MkLine (Some b077) (Some "R") (Some "15:41") (Some "15:42") None (Some "Zabrze") None None;
   MkLine (Some b074) (Some "R") None None None None None None;
   MkLine (Some b072) (Some "R") None None None None None None;
   MkLine (Some b070) (Some "R") (Some "15:47") (Some "15:47") None (Some "Ruda Slaska") None None;
   MkLine (Some b068) (Some "R") None None None None None None;
   MkLine (Some b067) (Some "R") (Some "15:49") (Some "15:50") None (Some "Ruda Chebzie") None None;
   MkLine (Some b065) (Some "R") None None None None None None;
   MkLine (Some b063) (Some "R") (Some "15:53") (Some "15:53") None (Some "Swietochlowice") None None;
   MkLine (Some b055) (Some "R") None None None None None None;
   MkLine (Some b048) (Some "R") (Some "15:57") (Some "15:59") None (Some "Chorzów Batory") None None;
   MkLine (Some b045) (Some "R") None None None None None None;
   MkLine (Some b042) (Some "R") None None None None None None;
   MkLine (Some b040) (Some "R") (Some "16:02") (Some "16:02") None (Some "Katowice Załęże") None None;
   MkLine (Some b035) (Some "R") None None None None None None;
   MkLine (Some b030) (Some "R") (Some "16:05") None None (Some "Katowice") None None;
   head (Some "to Katowice");
   head (Some "####");
   head (Some "IC - IC");
   head (Some "6403");
   head (Some "Intercity");
   head (Some "from Wrocław");
   MkLine (Some b098) (Some "IC") None None None None None None;
   MkLine (Some b089) (Some "IC") (Some "15:49") (Some "15:54") None (Some "Gliwice") None None;
   MkLine (Some b086) (Some "IC") None None None None None None;
   MkLine (Some b084) (Some "IC") None None None None None None;
   MkLine (Some b082) (Some "IC") None None None None None None;
   MkLine (Some b080) (Some "IC") None None None None None None;
   MkLine (Some b078) (Some "IC") None None None None None None;
   MkLine (Some b077) (Some "IC") (Some "16:01") (Some "16:01") None (Some "Zabrze") None None;
   MkLine (Some b074) (Some "IC") None None None None None None;
   MkLine (Some b072) (Some "IC") None None None None None None;
   MkLine (Some b070) (Some "IC") None None None None None None;
   MkLine (Some b068) (Some "IC") None None None None None None;
   MkLine (Some b067) (Some "IC") None None None None None None;
   MkLine (Some b065) (Some "IC") None None None None None None;
   MkLine (Some b063) (Some "IC") None None None None None None;
   MkLine (Some b055) (Some "IC") None None None None None None;
   MkLine (Some b048) (Some "R") (Some "16:10") (Some "16:12") None (Some "Chorzów Batory") None None;
   MkLine (Some b045) (Some "IC") None None None None None None;
   MkLine (Some b042) (Some "IC") None None None None None None;
   MkLine (Some b040) (Some "IC") None None None None None None;
   MkLine (Some b035) (Some "IC") None None None None None None;
   MkLine (Some b028) (Some "IC") (Some "16:16") None None (Some "Katowice") None None;
   head (Some "to Katowice");
   head (Some "####");
   head (Some "KS - Os");
   head (Some "7");
   head (Some "S1 ");
   head (Some "from Gliwice");
   MkLine (Some b089) (Some "R") None (Some "16:07") None (Some "Gliwice") None None;
   MkLine (Some b086) (Some "R") None None None None None None;
   MkLine (Some b084) (Some "R") None None None None None None;
   MkLine (Some b082) (Some "R") None None None None None None;
   MkLine (Some b080) (Some "R") None None None None None None;
   MkLine (Some b078) (Some "R") None None None None None None;
   MkLine (Some b077) (Some "R") (Some "16:12") (Some "16:14") None (Some "Zabrze") None None;
   MkLine (Some b074) (Some "R") None None None None None None;
   MkLine (Some b072) (Some "R") None None None None None None;
   MkLine (Some b070) (Some "R") (Some "16:19") (Some "16:19") None (Some "Ruda Slaska") None None;
   MkLine (Some b068) (Some "R") None None None None None None;
   MkLine (Some b067) (Some "R") (Some "16:21") (Some "16:23") None (Some "Ruda Chebzie") None None;
   MkLine (Some b065) (Some "R") None None None None None None;
   MkLine (Some b063) (Some "R") (Some "16:25") (Some "16:25") None (Some "Swietochlowice") None None;
   MkLine (Some b055) (Some "R") None None None None None None;
   MkLine (Some b048) (Some "R") (Some "16:29") (Some "16:31") None (Some "Chorzów Batory") None None;
   MkLine (Some b045) (Some "R") None None None None None None;
   MkLine (Some b042) (Some "R") None None None None None None;
   MkLine (Some b040) (Some "R") (Some "16:35") (Some "16:35") None (Some "Katowice Załęże") None None;
   MkLine (Some b035) (Some "R") None None None None None None;
   MkLine (Some b030) (Some "R") (Some "16:40") None None (Some "Katowice") None None;
   head (Some "to Katowice");
   head (Some "####");
   head (Some "KS - Os");
   head (Some "9");
   head (Some "S1 ");
   head (Some "from Gliwice");
   MkLine (Some b089) (Some "R") None (Some "16:26") None (Some "Gliwice") None None;
   MkLine (Some b086) (Some "R") None None None None None None;
   MkLine (Some b084) (Some "R") None None None None None None;
   MkLine (Some b082) (Some "R") None None None None None None;
   MkLine (Some b080) (Some "R") None None None None None None;
   MkLine (Some b078) (Some "R") None None None None None None;
   MkLine (Some b077) (Some "R") (Some "16:34") (Some "16:39") None (Some "Zabrze") None None;
   MkLine (Some b074) (Some "R") None None None None None None;
   MkLine (Some b072) (Some "R") None None None None None None;
   MkLine (Some b070) (Some "R") (Some "16:44") (Some "16:44") None (Some "Ruda Slaska") None None;
   MkLine (Some b068) (Some "R") None None None None None None;
   MkLine (Some b067) (Some "R") (Some "16:47") (Some "16:47") None (Some "Ruda Chebzie") None None;
   MkLine (Some b065) (Some "R") None None None None None None;
   MkLine (Some b063) (Some "R") (Some "16:50") (Some "16:50") None (Some "Swietochlowice") None None;
   MkLine (Some b055) (Some "R") None None None None None None;
   MkLine (Some b048) (Some "R") (Some "16:54") (Some "16:54") None (Some "Chorzów Batory") None None;
   MkLine (Some b045) (Some "R") None None None None None None;
   MkLine (Some b042) (Some "R") None None None None None None;
   MkLine (Some b040) (Some "R") (Some "16:58") (Some "16:58") None (Some "Katowice Załęże") None None;
   MkLine (Some b035) (Some "R") None None None None None None;
   MkLine (Some b030) (Some "R") (Some "17:00") None None (Some "Katowice") None None;
   head (Some "to Katowice");
   head (Some "####");
   head (Some "KS - Os");
   head (Some "103");
   head (Some "S8");
   head (Some "from Bytom");
   MkLine (Some b057) (Some "R") None None None None None None;
   MkLine (Some b050) (Some "R") (Some "16:58") (Some "17:00") None (Some "Chorzów Batory") None None;
   MkLine (Some b045) (Some "R") None None None None None None;
   MkLine (Some b042) (Some "R") None None None None None None;
   MkLine (Some b040) (Some "R") (Some "17:03") (Some "17:03") None (Some "Katowice Załęże") None None;
   MkLine (Some b035) (Some "R") None None None None None None;
   MkLine (Some b031) (Some "R") (Some "17:07") None None (Some "Katowice") None None;
   head (Some "to Katowice");
   head (Some "####");
   head (Some "KS - Os");
   head (Some "11");
   head (Some "S1 ");
   head (Some "from Gliwice");
   MkLine (Some b089) (Some "R") None (Some "16:47") None (Some "Gliwice") None None;
   MkLine (Some b086) (Some "R") None None None None None None;
   MkLine (Some b084) (Some "R") None None None None None None;
   MkLine (Some b082) (Some "R") None None None None None None;
   MkLine (Some b080) (Some "R") None None None None None None;
   MkLine (Some b078) (Some "R") None None None None None None;
   MkLine (Some b077) (Some "R") (Some "16:55") (Some "16:55") None (Some "Zabrze") None None;
   MkLine (Some b074) (Some "R") None None None None None None;
   MkLine (Some b072) (Some "R") None None None None None None;
   MkLine (Some b070) (Some "R") (Some "17:02") (Some "17:02") None (Some "Ruda Slaska") None None;
   MkLine (Some b068) (Some "R") None None None None None None;
   MkLine (Some b067) (Some "R") (Some "17:05") (Some "17:07") None (Some "Ruda Chebzie") None None;
   MkLine (Some b065) (Some "R") None None None None None None;
   MkLine (Some b063) (Some "R") (Some "17:08") (Some "17:10") None (Some "Swietochlowice") None None;
   MkLine (Some b055) (Some "R") None None None None None None;
   MkLine (Some b048) (Some "R") (Some "17:14") (Some "17:14") None (Some "Chorzów Batory") None None;
   MkLine (Some b045) (Some "R") None None None None None None;
   MkLine (Some b042) (Some "R") None None None None None None;
   MkLine (Some b040) (Some "R") (Some "17:18") (Some "17:18") None (Some "Katowice Załęże") None None;
   MkLine (Some b035) (Some "R") None None None None None None;
   MkLine (Some b030) (Some "R") (Some "17:21") None None (Some "Katowice") None None;
   head (Some "to Katowice")].
