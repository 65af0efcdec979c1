(** * PropsMinutes: whole minutes and penalties of the scripts, from the tables on (C81, C82) *)

From Coq Require Import List String Ascii ZArith QArith Qround Bool Lia Lqa.
From Verif Require Import Base BaseFacts Pulp Helpers LinearSolver Converters Results DataTables DataSets DataTimes Pipeline Runs
  Spec SpecCompare SpecTables SpecSets SpecDurations SpecEnd SpecQubo SpecNames SpecResults SpecMinutes Created Integral Compare Interp Check
  Accept Qubo QuboEncode QuboModel QuboFacts HelperFacts ConstraintNames EndFacts MinuteFacts PropsVars PropsCompare PropsQubo PropsTotal PropsEndCases PropsTotalCases PropsRuns.
Import ListNotations.
Open Scope string_scope.
Open Scope list_scope.

Lemma whole_value p x v up : in_range p x -> In v (variables p) -> v_lo v = Some 0 -> v_up v = Some (inject_Z up) -> v_cat v = Integer ->
  exists z, x (v_id v) == inject_Z z /\ (0 <= z <= up)%Z.
Proof.
  intros R I L U C. destruct (R v I) as (R1 & R2 & R3). destruct (R3 C) as [z Hz]. exists z. split; [exact Hz|].
  specialize (R1 _ L). specialize (R2 _ U). rewrite Hz in R1, R2. split; rewrite Zle_Qle; assumption.
Qed.

Definition whole_turnsb (td : train_dict) : bool :=
  forallb (fun e : Z * (list string * DataTables.table) =>
    forallb (fun r => match r_turn r with Some q => is_intb q | None => true end) (snd (snd e))) td.

Lemma whole_turnsb_ok td : whole_turnsb td = true -> whole_turns td.
Proof.
  unfold whole_turnsb. rewrite forallb_forall. intros H i tb r q (nm & R) I Q. apply dget_in in R. specialize (H _ R). cbn [snd] in H.
  rewrite forallb_forall in H. specialize (H r I). rewrite Q in H. apply is_intb_ok, H.
Qed.

(** ** Continuous and integer delays (C82) *)

(** With whole times to turn around and whole delays, a problem is built for continuous delays if and only if one is
    built for integer delays, and both reach the same objective values: rounding all values down keeps every rule. *)
Theorem C82_same_optimum : forall td st net t1 delays d_max,
  tidy td st -> 0 < d_max -> whole_turns td -> whole_delays delays ->
  forall ts tt,
  ((exists p, tables_to_problem td st net t1 delays d_max Continuous = Ok (ts, tt, p)) <->
   (exists p, tables_to_problem td st net t1 delays d_max Integer = Ok (ts, tt, p))) /\
  forall pc pi, tables_to_problem td st net t1 delays d_max Continuous = Ok (ts, tt, pc) ->
    tables_to_problem td st net t1 delays d_max Integer = Ok (ts, tt, pi) ->
    (forall x, feasible pc x -> feasible pi (round_down x) /\ obj_value pi (round_down x) <= obj_value pc x) /\
    (forall x, feasible pi x -> feasible pc x /\ obj_value pc x == obj_value pi x) /\
    (forall q, reachable_value pc q <-> reachable_value pi q).
Proof.
  intros td st net t1 delays d_max T Pos W D ts tt.
  assert (K : forall cat p, tables_to_problem td st net t1 delays d_max cat = Ok (ts, tt, p) ->
    create_linear_problem ts tt d_max cat = Ok p /\ reserved_free ts /\ integral_times tt /\ nonneg_weights tt).
  { intros cat p H. pose proof (reserved_ok _ _ _ _ _ _ _ _ _ _ T H) as RF. destruct (parts _ _ _ _ _ _ _ _ _ _ H) as (Cr & M).
    split; [exact Cr|]. split; [exact RF|]. split; [exact (made_integral _ _ _ _ _ _ _ W D M)|].
    destruct M as ((sk & w & _ & _ & Ew & Et) & _). intros k q G. rewrite Et in G. apply dget_in in G. apply (proj1 (weights_made _ _ _ Ew) k q G). }
  assert (B : forall cat cat' p p', tables_to_problem td st net t1 delays d_max cat = Ok (ts, tt, p) ->
    create_linear_problem ts tt d_max cat' = Ok p' -> tables_to_problem td st net t1 delays d_max cat' = Ok (ts, tt, p')).
  { intros cat cat' p p' H C. unfold tables_to_problem in *. inv_bind H. inv_bind H. inv_bind H. inv_bind H. inversion H; subst.
    rewrite E; cbn [bind]; rewrite E0; cbn [bind]; rewrite E1; cbn [bind]; rewrite C. reflexivity. }
  split.
  - split; intros (p & H); destruct (K _ _ H) as (Cr & RF & IT & NW); pose proof (proj1 (C10_same_optimum ts tt d_max RF Pos IT NW)) as E.
    + destruct (create_linear_problem ts tt d_max Integer) as [p'|e] eqn:C; [exists p'; eapply B; eauto|]. pose proof (proj2 (E e) eq_refl). congruence.
    + destruct (create_linear_problem ts tt d_max Continuous) as [p'|e] eqn:C; [exists p'; eapply B; eauto|]. pose proof (proj1 (E e) eq_refl). congruence.
  - intros pc pi Hc Hi. destruct (K _ _ Hc) as (Cc & RF & IT & NW). destruct (K _ _ Hi) as (Ci & _).
    exact (proj2 (C10_same_optimum ts tt d_max RF Pos IT NW) pc pi Cc Ci).
Qed.
Print Assumptions C82_same_optimum.

Definition day_delays : list (Z * Q) := [(12%Z, 5)].
Definition late_day (cat : vcat) : train_sets * timetable * lpproblem :=
  ok_or (tables_to_problem day_td day_st day_net "16:00" day_delays 15 cat) no_input.

Definition late_x : assignment := Check.table
  [(("y", [train 11; train 12; PStr "one_station"; station "A"]), 1); (("y", [train 11; train 12; PStr "one_station"; station "B"]), 1);
   (("z", [train 11; train 13; station "A"; station "B"]), 1)].

Example C82_case : tidy day_td day_st /\ whole_turns day_td /\ whole_delays day_delays /\
  fst (late_day Continuous) = fst (late_day Integer) /\
  tables_to_problem day_td day_st day_net "16:00" day_delays 15 Continuous = Ok (late_day Continuous) /\
  tables_to_problem day_td day_st day_net "16:00" day_delays 15 Integer = Ok (late_day Integer).
Proof.
  split; [apply tidyb_ok; vm_compute; reflexivity|]. split; [apply whole_turnsb_ok; vm_compute; reflexivity|].
  split; [intros i q [E|[]]; inversion E; subst; exact (is_int_Z 5)|]. split; [vm_compute; reflexivity|].
  split; vm_compute; reflexivity.
Qed.

(** The times to turn around are the only ones that are not rounded.  Train 119 arrives at B at 14:02, needs three and
    a half minutes and should leave as 11 at 14:04: continuous delays make it 1.5 minutes late, integer ones 2. *)
Definition turn_td : train_dict :=
  [(119%Z, (["KS - Os"], [trow "a1" (Some "A") 1 (Some "14:00") None; trow "x" None 2 None None; trow "b1" (Some "B") 0 None None]));
   (11%Z, (["KS - Os"], [trow "b1" (Some "B") 1 (Some "14:04") (Some (7 # 2)); trow "z" None 2 None None; trow "a2" (Some "A") 1 None None]))].
Definition turn_st : station_blocks := [("A", ["a1"; "a2"]); ("B", ["b1"])].
Definition turn_net : list netrow := [free "a1" "x"; free "x" "b1"; free "b1" "z"; free "z" "a2"].
Definition turn_built (cat : vcat) : train_sets * timetable * lpproblem :=
  ok_or (tables_to_problem turn_td turn_st turn_net "14:00" [] 40 cat) no_input.

Theorem C82_turn_refuted : exists td st net ts tt pc pi, tidy td st /\
  tables_to_problem td st net "14:00" [] 40 Continuous = Ok (ts, tt, pc) /\
  tables_to_problem td st net "14:00" [] 40 Integer = Ok (ts, tt, pi) /\
  (exists x, feasible pc x /\ obj_value pc x == 3 # 80) /\
  (exists x, feasible pi x) /\ forall x, feasible pi x -> 1 # 20 <= obj_value pi x.
Proof.
  exists turn_td, turn_st, turn_net, (fst (fst (turn_built Integer))), (snd (fst (turn_built Integer))), (snd (turn_built Continuous)), (snd (turn_built Integer)).
  split; [apply tidyb_ok; vm_compute; reflexivity|]. split; [vm_compute; reflexivity|]. split; [vm_compute; reflexivity|].
  split; [exists (table [(("Delays", [PInt 11; PStr "B"]), 3 # 2)]); split; [apply feasibleb_ok; vm_compute; reflexivity|vm_compute; reflexivity]|].
  split; [exists (table [(("Delays", [PInt 11; PStr "B"]), 2)]); apply feasibleb_ok; vm_compute; reflexivity|].
  set (v := fun j s => MkVar "Delays" [PInt j; PStr s] (Some 0) (Some 40) Integer).
  assert (E : exists k k', snd (turn_built Integer) = MkProb
     [("circulation_119_11_B", MkConstr (MkAff [(v 11%Z "B", 1); (v 119%Z "A", -1)] k) GE)] (MkAff [(v 11%Z "B", 1 # 40)] k') /\ k == -3 # 2 /\ k' == 0).
  { exists (-3 # 2), (0 # 40). split; [vm_compute; reflexivity|]. split; reflexivity. }
  intros x [F R].
  destruct (whole_value _ x (v 11%Z "B") 40 R ltac:(vm_compute; auto) eq_refl eq_refl eq_refl) as (a & Ea & _).
  destruct (whole_value _ x (v 119%Z "A") 40 R ltac:(vm_compute; auto) eq_refl eq_refl eq_refl) as (b & Eb & Rb).
  clear R. destruct E as (k & k' & E & K & K'). rewrite E in F. rewrite E. clear E. clearbody v.
  pose proof (F _ _ (or_introl eq_refl)) as A.
  unfold holds, eval, eval_terms, qsum in A. cbn [c_sense c_aff a_terms a_const map fold_right fst snd] in A.
  unfold obj_value, eval, eval_terms, qsum. cbn [p_objective a_terms a_const map fold_right fst snd].
  rewrite Ea, Eb, K in A. rewrite Ea, K'.
  assert (B : 0 <= inject_Z b) by (change 0 with (inject_Z 0); rewrite <- Zle_Qle; lia).
  assert (2 <= a)%Z by (assert (1 < a)%Z by (rewrite Zlt_Qlt; change (inject_Z 1) with 1; lra); lia).
  assert (2 <= inject_Z a) by (change 2 with (inject_Z 2); rewrite <- Zle_Qle; lia). lra.
Qed.
Print Assumptions C82_turn_refuted.

(** ** Penalties of the scripts (C81) *)

(** Every rule is given the penalty [q] and the objective the weight 1. *)
Lemma script_weight q r : In r rule_names -> weight (script_pdict q) r = q.
Proof. intros I. cbn in I. repeat (destruct I as [<-|I]; [reflexivity|]). destruct I. Qed.

Lemma script_complete q : all_penalties (script_pdict q).
Proof. intros r I. cbn in I. repeat (destruct I as [<-|I]; [cbn; auto 10|]). destruct I. Qed.

Theorem C81_penalty_partial : forall td st net t1 delays d_max q ts tt p,
  tidy td st -> complete td st net t1 -> no_part_lines td -> whole_turns td -> whole_delays delays ->
  is_int d_max -> 0 < d_max -> (7 # 4) * inject_Z (Z.of_nat (List.length td)) < q ->
  tables_to_problem td st net t1 delays d_max Integer = Ok (ts, tt, p) -> (exists v, In v (variables p)) ->
  (leaves_room p ->
     exists b interp, convert_to_bqm p (script_pdict q) = Ok (b, interp) /\
       ((exists x, feasible p x) ->
          (forall s e d, ground b s -> interp [(s, e)] = Ok [(d, e)] -> optimal p (values d)) /\
          (forall x, optimal p x -> exists s d, ground b s /\ (forall e, interp [(s, e)] = Ok [(d, e)]) /\
             forall v, occurs p v -> values d (v_id v) == x (v_id v)))) /\
  (~ leaves_room p -> forall b interp, convert_to_bqm p (script_pdict q) <> Ok (b, interp)).
Proof.
  intros td st net t1 delays d_max q ts tt p T C NP W D DI Pos Q H HV.
  pose proof (reserved_ok _ _ _ _ _ _ _ _ _ _ T H) as RF. destruct (parts _ _ _ _ _ _ _ _ _ _ H) as (Cr & M).
  pose proof (made_integral _ _ _ _ _ _ _ W D M) as IT. pose proof (w_plain _ _ _ _ _ _ _ T C NP M) as PN.
  destruct M as ((sk & w & _ & _ & Ew & Et) & _). destruct (weights_made _ _ _ Ew) as (TR & ND & LE).
  apply (C54_exact_partial ts tt d_max p (script_pdict q) RF PN IT DI Pos); auto.
  - intros k x G. rewrite Et in G. apply dget_in in G. apply (TR k x G).
  - rewrite Et. exact ND.
  - apply script_complete.
  - reflexivity.
  - intros r I. rewrite (script_weight q r I), Et. change (weight (script_pdict q) "objective") with 1.
    pose proof (tariff_sum w TR). apply Nat2Z.inj_le in LE. rewrite Zle_Qle in LE. lra.
Qed.
Print Assumptions C81_penalty_partial.

Lemma room_checked td st net t1 delays d_max ts tt p : tidy td st -> whole_turns td -> whole_delays delays -> is_int d_max -> 0 < d_max ->
  tables_to_problem td st net t1 delays d_max Integer = Ok (ts, tt, p) -> (exists v, In v (variables p)) ->
  is_ok (convert_to_bqm p (script_pdict 1)) = true -> leaves_room p.
Proof.
  intros T W D DI Pos H HV X. pose proof (reserved_ok _ _ _ _ _ _ _ _ _ _ T H) as RF. destruct (parts _ _ _ _ _ _ _ _ _ _ H) as (Cr & M).
  apply (created_accepted _ _ _ _ (script_pdict 1) RF Cr (made_integral _ _ _ _ _ _ _ W D M) DI Pos HV (script_complete 1)).
  destruct (convert_to_bqm p (script_pdict 1)) as [[b i]|e]; [eauto|discriminate X].
Qed.

Example C81_case : exists ts tt p, complete day_td day_st day_net "16:00" /\ no_part_lines day_td /\
  tables_to_problem day_td day_st day_net "16:00" day_delays 15 Integer = Ok (ts, tt, p) /\
  (7 # 4) * inject_Z (Z.of_nat (List.length day_td)) < 15 # 2 /\
  (exists v, In v (variables p)) /\ leaves_room p /\ exists x, feasible p x.
Proof.
  destruct C82_case as (T & W & D & _ & _ & H).
  assert (V : match variables (snd (late_day Integer)) with [] => false | _ => true end = true) by (vm_compute; reflexivity).
  assert (X : is_ok (convert_to_bqm (snd (late_day Integer)) (script_pdict 1)) = true) by (vm_compute; reflexivity).
  assert (F : feasibleb (snd (late_day Integer)) late_x = true) by (vm_compute; reflexivity).
  revert H V X F. generalize (late_day Integer). intros [[ts tt] p] H V X F. cbn [snd] in *. exists ts, tt, p.
  assert (HV : exists v, In v (variables p)) by (destruct (variables p) as [|v l]; [discriminate V|exists v; left; reflexivity]). clear V.
  split; [exact day_complete|]. split; [apply linesb_ok; vm_compute; reflexivity|]. split; [exact H|]. split; [vm_compute; reflexivity|].
  split; [exact HV|]. split; [|exists late_x; apply feasibleb_ok, F].
  apply (room_checked _ _ _ _ _ _ _ _ _ T W D (is_int_Z 15 : is_int 15) (eq_refl : 0 < 15) H HV X).
Qed.

(** No ground state costs more than any values in range with any slacks. *)
Lemma ground_below p pdict b interp x (z : string -> Z) :
  consistent p -> apart p -> names_distinct p -> convert_to_bqm p pdict = Ok (b, interp) ->
  (forall n c, In (n, c) (p_constraints p) -> 0 < weight pdict (rule_of n)) ->
  in_range p x ->
  (forall n c ub, In (n, c) (p_constraints p) -> c_sense c <> EQ -> slack_ub c = Ok ub -> (0 <= z n <= ub)%Z) ->
  forall s e d, ground b s -> interp [(s, e)] = Ok [(d, e)] ->
  weight pdict "objective" * obj_value p (values d) <= weight pdict "objective" * obj_value p x + penalties p pdict x z.
Proof.
  intros HC HA HD H HW R Z s e d [HS HG] Hd.
  destruct (bqm_split _ _ _ _ H) as (m & CM & CB & EI). subst interp. apply PropsQubo.one_row in Hd.
  destruct (model_built p m CM HC HA) as (t & Hs & Ho & BT).
  destruct (encode p m pdict b CM CB HC HA HD x z R Z) as (s1 & HS1 & HV1 & HZ1).
  destruct (decode_total p m pdict b CB HC t Hs Ho BT s1 HS1) as (d1 & Hd1 & _ & _ & HVd1).
  assert (XV : forall v, occurs p v -> values d1 (v_id v) == x (v_id v)).
  { intros v Hv. destruct (b_forms _ _ _ _ _ BT v Hv) as (a & Hf & _). rewrite (HVd1 v a Hv Hf). apply HV1; assumption. }
  pose proof (energy_value p m pdict b CB HC HA t Hs Ho BT s1 HS1 d1 Hd1) as E1.
  pose proof (energy_value p m pdict b CB HC HA t Hs Ho BT s HS d Hd) as E.
  pose proof (proj1 (penalties_zero p pdict (values d) (slack_value p s) HW)) as P0.
  specialize (HG s1 HS1). rewrite (obj_ext p _ _ XV) in E1.
  assert (P : penalties p pdict (values d1) (slack_value p s1) == penalties p pdict x z).
  { unfold penalties. assert (G : forall cs, (forall nc, In nc cs -> In nc (p_constraints p)) ->
      qsum (map (fun nc => weight pdict (rule_of (fst nc)) *
        (defect (snd nc) (values d1) (slack_value p s1 (fst nc)) * defect (snd nc) (values d1) (slack_value p s1 (fst nc)))) cs) ==
      qsum (map (fun nc => weight pdict (rule_of (fst nc)) * (defect (snd nc) x (z (fst nc)) * defect (snd nc) x (z (fst nc)))) cs)).
    { induction cs as [|[n c] cs IH]; intros Hin; unfold qsum in *; cbn [map fold_right fst snd]; [reflexivity|].
      rewrite IH by (intros; apply Hin; right; assumption).
      pose proof (Hin (n, c) (or_introl eq_refl)) as Hc. pose proof (eval_ext p c n _ _ Hc XV) as EE. pose proof (HZ1 n c Hc) as HZn.
      assert (DE : defect c (values d1) (slack_value p s1 n) == defect c x (z n)).
      { unfold defect. destruct (c_sense c); rewrite EE; [rewrite HZn by discriminate; reflexivity|reflexivity|rewrite HZn by discriminate; reflexivity]. }
      rewrite DE. reflexivity. }
    apply G. auto. }
  rewrite P in E1. lra.
Qed.

(** Equal penalties weigh the sum of the squares. *)
Definition defects (p : lpproblem) (x : assignment) (z : string -> Z) : Q :=
  qsum (map (fun nc => defect (snd nc) x (z (fst nc)) * defect (snd nc) x (z (fst nc))) (p_constraints p)).

Lemma script_penalties ts tt d_max cat p q x z : create_linear_problem ts tt d_max cat = Ok p ->
  (forall n c, In (n, c) (p_constraints p) -> weight (script_pdict q) (rule_of n) = q) /\
  penalties p (script_pdict q) x z == q * defects p x z.
Proof.
  intros H.
  assert (W : forall n c, In (n, c) (p_constraints p) -> weight (script_pdict q) (rule_of n) = q).
  { intros n c Hc. destruct (every_name _ _ _ _ _ _ _ H Hc) as (rule & HR & HS).
    rewrite (placeholder_rule n rule (placeholder_of_rule rule n HR HS)). apply script_weight, HR. }
  split; [exact W|]. unfold penalties, defects.
  assert (G : forall cs, (forall nc, In nc cs -> In nc (p_constraints p)) ->
    qsum (map (fun nc => weight (script_pdict q) (rule_of (fst nc)) * (defect (snd nc) x (z (fst nc)) * defect (snd nc) x (z (fst nc)))) cs) ==
    q * qsum (map (fun nc => defect (snd nc) x (z (fst nc)) * defect (snd nc) x (z (fst nc))) cs)).
  { induction cs as [|[n c] cs IH]; intros Hin; unfold qsum in *; cbn [map fold_right fst snd]; [lra|].
    rewrite IH by (intros; apply Hin; right; assumption). rewrite (W n c) by (apply Hin; left; reflexivity). lra. }
  apply G. auto.
Qed.

(** *** The penalties the scripts use are too small *)

(** Train 1 runs from A to B on a line of 19 blocks, trains 3 and 5 the other way at about the same time.  All keep
    the rules only if 3 and 5 wait for 1, almost the largest delay each.  It is cheaper to let 1 wait for both and
    break the rule for 5 by one minute. *)
Definition line (i : nat) : string := ("x" ++ str_of_Z (Z.of_nat i))%string.
Definition crowd_line : list row := map (fun i => trow (line i) None 2 None None) (seq 1 19).
Definition crowd_rows (i : Z) : DataTables.table :=
  if (i =? 1)%Z then
    [trow "a1" (Some "A") 1 (Some "14:05") None] ++ crowd_line ++
    [trow "b1" (Some "B") 1 (Some "15:40") None;
     trow "y" None 5 None None; trow "c1" (Some "C") 0 None None]
  else if (i =? 3)%Z then
    [trow "b3" (Some "B") 1 (Some "14:04") None] ++ rev crowd_line ++
    [trow "a3" (Some "A") 1 None None;
     trow "w" None 5 None None; trow "d3" (Some "D") 0 None None]
  else
    [trow "b5" (Some "B") 1 (Some "14:08") None] ++ rev crowd_line ++
    [trow "a5" (Some "A") 1 None None;
     trow "v" None 5 None None; trow "d5" (Some "D") 0 None None].
Definition crowd_td : train_dict :=
  [(1%Z, (["KS - Os"], crowd_rows 1)); (3%Z, (["IC - EIC"], crowd_rows 3)); (5%Z, (["IC - EIC"], crowd_rows 5))].
Definition crowd_st : station_blocks := [("A", ["a1"; "a3"; "a5"]); ("B", ["b1"; "b3"; "b5"]); ("C", ["c1"]); ("D", ["d3"; "d5"])].
Definition crowd_net : list netrow :=
  map (fun i => free (line i) (line (S i))) (seq 1 18) ++
  [free "a1" (line 1); free (line 19) "b1"; free "b1" "y"; free "y" "c1"; free "b3" (line 19); free (line 1) "a3"; free "a3" "w"; free "w" "d3";
   free "b5" (line 19); free (line 1) "a5"; free "a5" "v"; free "v" "d5"].
Definition crowd : train_sets * timetable * lpproblem :=
  ok_or (tables_to_problem crowd_td crowd_st crowd_net "14:00" [] 40 Integer) no_input.
Definition crowd_p : lpproblem := snd crowd.

Lemma crowd_tidy : tidy crowd_td crowd_st.
Proof. apply tidyb_ok. vm_compute. reflexivity. Qed.

Lemma crowd_built : tables_to_problem crowd_td crowd_st crowd_net "14:00" [] 40 Integer = Ok (fst (fst crowd), snd (fst crowd), crowd_p).
Proof. vm_compute. reflexivity. Qed.

Definition crowd_v (j : Z) (s : string) : lpvar := MkVar "Delays" [PInt j; PStr s] (Some 0) (Some 40) Integer.
Definition crowd_y : lpvar := MkVar "y" [PInt 3; PInt 5; PStr "one_station"; PStr "B"] (Some 0) (Some 1) Integer.
Definition crowd_z (j : Z) : lpvar := MkVar "z" [PInt 1; PInt j; PStr "A"; PStr "B"] (Some 0) (Some 1) Integer.

Definition at_least (terms : list (lpvar * Q)) (k : Q) : constr := MkConstr (MkAff terms k) GE.

Lemma crowd_problem : exists k, crowd_p = MkProb
  [("minimal_span_5_3_B_A", at_least [(crowd_v 5 "B", 1); (crowd_v 3 "B", -1); (crowd_y, -40)] 40);
   ("minimal_span_3_5_B_A", at_least [(crowd_v 3 "B", 1); (crowd_v 5 "B", -1); (crowd_y, 48)] (-8));
   ("minimal_stay_1_B", at_least [(crowd_v 1 "B", 1); (crowd_v 1 "A", -1)] 56);
   ("minimal_stay_3_A", at_least [(crowd_v 3 "A", 1); (crowd_v 3 "B", -1)] 0);
   ("minimal_stay_5_A", at_least [(crowd_v 5 "A", 1); (crowd_v 5 "B", -1)] 0);
   ("single_line_1_3_A_B", at_least [(crowd_v 1 "A", 1); (crowd_v 3 "B", -1); (crowd_z 3, 77)] (-37));
   ("single_line_3_1_B_A", at_least [(crowd_v 3 "B", 1); (crowd_v 1 "A", -1); (crowd_z 3, -79)] 40);
   ("single_line_1_5_A_B", at_least [(crowd_v 1 "A", 1); (crowd_v 5 "B", -1); (crowd_z 5, 81)] (-41));
   ("single_line_5_1_B_A", at_least [(crowd_v 5 "B", 1); (crowd_v 1 "A", -1); (crowd_z 5, -75)] 40)]
  (MkAff [(crowd_v 1 "B", 1 # 40); (crowd_v 3 "A", 7 # 160); (crowd_v 5 "A", 7 # 160)] k) /\ k == 0.
Proof. exists (0 # 1024000). split; [vm_compute; reflexivity|reflexivity]. Qed.

(** All plans that keep the rules *)
Lemma crowd_late x : feasible crowd_p x -> 273 # 80 <= obj_value crowd_p x.
Proof.
  intros [F R].
  assert (V : forall v up, In v (variables crowd_p) -> v_lo v = Some 0 -> v_up v = Some (inject_Z up) -> v_cat v = Integer ->
    exists z, x (v_id v) == inject_Z z /\ (0 <= z <= up)%Z) by (intros v up; apply whole_value; exact R). clear R.
  destruct (V (crowd_v 1 "A") 40%Z ltac:(vm_compute; auto 20) eq_refl eq_refl eq_refl) as (a & Ea & Ra).
  destruct (V (crowd_v 1 "B") 40%Z ltac:(vm_compute; auto 20) eq_refl eq_refl eq_refl) as (a' & Ea' & Ra').
  destruct (V (crowd_v 3 "B") 40%Z ltac:(vm_compute; auto 20) eq_refl eq_refl eq_refl) as (b & Eb & Rb).
  destruct (V (crowd_v 3 "A") 40%Z ltac:(vm_compute; auto 20) eq_refl eq_refl eq_refl) as (b' & Eb' & Rb').
  destruct (V (crowd_v 5 "B") 40%Z ltac:(vm_compute; auto 20) eq_refl eq_refl eq_refl) as (c & Ec & Rc).
  destruct (V (crowd_v 5 "A") 40%Z ltac:(vm_compute; auto 20) eq_refl eq_refl eq_refl) as (c' & Ec' & Rc').
  destruct (V crowd_y 1%Z ltac:(vm_compute; auto 20) eq_refl eq_refl eq_refl) as (y & Ey & Ry).
  destruct (V (crowd_z 3) 1%Z ltac:(vm_compute; auto 20) eq_refl eq_refl eq_refl) as (z & Ez & Rz).
  destruct (V (crowd_z 5) 1%Z ltac:(vm_compute; auto 20) eq_refl eq_refl eq_refl) as (w & Ew & Rw). clear V.
  destruct crowd_problem as (k & E & K). rewrite E in F. rewrite E. clear E. unfold obj_value.
  cbn [p_constraints p_objective] in *. unfold at_least in F.
  assert (G : forall (n : string) terms q l, (forall m c, In (m, c) ((n, MkConstr (MkAff terms q) GE) :: l) -> holds c x) ->
    0 <= eval_terms terms x + q /\ forall n c, In (n, c) l -> holds c x).
  { intros n terms q l H. split; [exact (H n _ (or_introl eq_refl))|intros; eapply H; right; eauto]. }
  repeat (apply G in F as [? F]). clear F G. unfold eval, eval_terms, qsum in *. cbn [map fold_right fst snd a_terms a_const] in *.
  assert (I : forall q z up, q == inject_Z z -> (0 <= z <= up)%Z -> 0 <= q <= inject_Z up).
  { clear. intros q z0 up E [L U]. rewrite Zle_Qle in L, U. rewrite E. split; assumption. }
  apply (I _ _ _ Ea) in Ra. apply (I _ _ _ Ea') in Ra'. apply (I _ _ _ Eb) in Rb. apply (I _ _ _ Eb') in Rb'.
  apply (I _ _ _ Ec) in Rc. apply (I _ _ _ Ec') in Rc'. clear I Ea Ea' Eb Eb' Ec Ec' a a' b b' c c'.
  change (inject_Z 40) with 40 in *.
  assert (y = 0 \/ y = 1)%Z as [->| ->] by lia; assert (z = 0 \/ z = 1)%Z as [->| ->] by lia;
  assert (w = 0 \/ w = 1)%Z as [->| ->] by lia; change (inject_Z 0) with 0 in *; change (inject_Z 1) with 1 in *; lra.
Qed.

(** The second claim: for these tables no penalty below 3.4, so neither 1 (solve_real_problem.py) nor 2.5
    (solve_KO_GLC_problems.py), makes a ground state a plan that keeps the rules. *)
Definition crowd_x : assignment :=
  table [(("Delays", [PInt 1; PStr "A"]), 40); (("y", [PInt 3; PInt 5; PStr "one_station"; PStr "B"]), 1)].
Definition crowd_slack (n : string) : Z :=
  match find (fun nc : string * constr => eqb (fst nc) n) (p_constraints crowd_p) with
  | Some (_, c) => Z.max 0 (Qfloor (eval (c_aff c) crowd_x))
  | None => 0%Z
  end.

Theorem C81_default_refuted : exists td st net ts tt p, tidy td st /\ whole_turns td /\
  tables_to_problem td st net "14:00" [] 40 Integer = Ok (ts, tt, p) /\ (exists x, feasible p x) /\
  forall q, 0 < q -> q < 273 # 80 ->
    exists b interp, convert_to_bqm p (script_pdict q) = Ok (b, interp) /\
      forall s e d, ground b s -> interp [(s, e)] = Ok [(d, e)] -> ~ feasible p (values d).
Proof.
  exists crowd_td, crowd_st, crowd_net, (fst (fst crowd)), (snd (fst crowd)), crowd_p.
  split; [exact crowd_tidy|]. split; [apply whole_turnsb_ok; vm_compute; reflexivity|]. split; [exact crowd_built|]. split.
  { exists (table [(("Delays", [PInt 3; PStr "B"]), 39); (("Delays", [PInt 3; PStr "A"]), 39); (("Delays", [PInt 5; PStr "B"]), 39);
      (("Delays", [PInt 5; PStr "A"]), 39); (("y", [PInt 3; PInt 5; PStr "one_station"; PStr "B"]), 1);
      (("z", [PInt 1; PInt 3; PStr "A"; PStr "B"]), 1); (("z", [PInt 1; PInt 5; PStr "A"; PStr "B"]), 1)]).
    apply feasibleb_ok. vm_compute. reflexivity. }
  intros q Q0 Q1.
  pose proof (reserved_ok _ _ _ _ _ _ _ _ _ _ crowd_tidy crowd_built) as RF. destruct (parts _ _ _ _ _ _ _ _ _ _ crowd_built) as (Cr & M).
  assert (IT : integral_times (snd (fst crowd))).
  { apply (made_integral crowd_td crowd_st crowd_net "14:00" [] (fst (fst crowd))); [apply whole_turnsb_ok; vm_compute; reflexivity| |exact M].
    intros t x []. }
  assert (PN : plain_names (fst (fst crowd))) by (apply plain_namesb_ok; vm_compute; reflexivity).
  assert (DI : is_int 40) by exact (is_int_Z 40).
  assert (HV : exists v, In v (variables crowd_p)) by (exists crowd_y; vm_compute; auto 20).
  assert (LR : leaves_room crowd_p).
  { apply (created_accepted _ _ _ _ (script_pdict 1) RF Cr IT DI eq_refl HV (script_complete 1)).
    assert (X : is_ok (convert_to_bqm crowd_p (script_pdict 1)) = true) by (vm_compute; reflexivity).
    destruct (convert_to_bqm crowd_p (script_pdict 1)) as [[b i]|e]; [eauto|discriminate X]. }
  destruct (proj2 (created_accepted _ _ _ _ (script_pdict q) RF Cr IT DI eq_refl HV (script_complete q)) LR) as (b & i & B).
  exists b, i. split; [exact B|]. intros s e d G Hd Fe. apply crowd_late in Fe.
  destruct (created_conditions _ _ _ _ _ RF Cr) as (HC & HA & HD & _). specialize (HD PN).
  destruct (script_penalties _ _ _ _ _ q crowd_x crowd_slack Cr) as (W & P).
  assert (R : in_range crowd_p crowd_x).
  { assert (HB : forallb (fun v => var_okb v (crowd_x (v_id v))) (variables crowd_p) = true) by (vm_compute; reflexivity).
    rewrite forallb_forall in HB. intros v Hv. apply var_okb_ok. exact (HB v Hv). }
  pose proof (ground_below crowd_p (script_pdict q) b i crowd_x crowd_slack HC HA HD B) as L.
  specialize (L ltac:(intros n c Hc; rewrite (W n c Hc); exact Q0) R).
  assert (SL : forall n c ub, In (n, c) (p_constraints crowd_p) -> c_sense c <> EQ -> slack_ub c = Ok ub -> (0 <= crowd_slack n <= ub)%Z).
  { assert (SB : forallb (fun nc : string * constr => match slack_ub (snd nc) with Ok ub => (0 <=? crowd_slack (fst nc))%Z && (crowd_slack (fst nc) <=? ub)%Z
                                                  | Err _ => true end) (p_constraints crowd_p) = true) by (vm_compute; reflexivity).
    rewrite forallb_forall in SB. intros n c ub Hc _ Hu. specialize (SB (n, c) Hc). cbn [fst snd] in SB. rewrite Hu in SB.
    apply andb_true_iff in SB as [A1 A2]. apply Z.leb_le in A1, A2. split; assumption. }
  specialize (L SL s e d G Hd). rewrite P in L.
  assert (DX : defects crowd_p crowd_x crowd_slack == 1) by (vm_compute; reflexivity).
  assert (OX : obj_value crowd_p crowd_x == 0) by (vm_compute; reflexivity).
  rewrite DX, OX in L. change (weight (script_pdict q) "objective") with 1 in L. lra.
Qed.
Print Assumptions C81_default_refuted.
