(** * GlcCheck3: line 3 passes the checks (C81, C83) *)
From Coq Require Import List ZArith.
From Verif Require Import Base RealData DataTables Pipeline PropsReal GlcFacts GlcLine3.

Lemma line3_ok : if_read (build_timetables schedule_glc_v2 stations_glc_r network) (on_line scenario_okb 3 stations_glc_r line3) = true.
Proof. vm_cast_no_check (eq_refl true). Qed.
