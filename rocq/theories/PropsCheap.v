(** * PropsCheap: one plan cheap enough settles the penalties (C81) *)

From Coq Require Import List String Ascii ZArith QArith Qround Bool Lia Lqa.
From Verif Require Import Base BaseFacts Pulp Helpers LinearSolver Converters Results DataTables DataSets DataTimes Pipeline Runs
  Spec SpecCompare SpecTables SpecSets SpecDurations SpecEnd SpecQubo SpecNames SpecResults SpecMinutes Created Integral Objective Compare Interp Check
  Accept Qubo QuboEncode QuboModel QuboFacts HelperFacts ConstraintNames EndFacts MinuteFacts PropsVars PropsCompare PropsQubo PropsTotal
  PropsEndCases PropsTotalCases PropsRuns PropsMinutes.
Import ListNotations.
Open Scope string_scope.
Open Scope list_scope.

(** If some feasible plan costs less than each single penalty, the sample of least energy breaks no rule: one broken
    rule costs at least its penalty, and delays are never rewarded. *)
Lemma cheap_exact ts tt d_max p pdict b interp x0 :
  reserved_free ts -> plain_names ts -> integral_times tt -> is_int d_max -> 0 < d_max -> nonneg_weights tt ->
  create_linear_problem ts tt d_max Integer = Ok p -> convert_to_bqm p pdict = Ok (b, interp) ->
  0 < weight pdict "objective" ->
  feasible p x0 ->
  (forall rule, In rule rule_names -> weight pdict "objective" * obj_value p x0 < weight pdict rule) ->
  (forall s e d, ground b s -> interp [(s, e)] = Ok [(d, e)] -> optimal p (values d)) /\
  (forall x, optimal p x -> exists s d, ground b s /\ (forall e, interp [(s, e)] = Ok [(d, e)]) /\
     forall v, occurs p v -> values d (v_id v) == x (v_id v)).
Proof.
  intros RF PN HI Hd Pos HW Hp H HO F0 HP.
  destruct (created_conditions _ _ _ _ _ RF Hp) as (HC & HA & HD & HIC). specialize (HD PN). specialize (HIC HI Hd).
  destruct (bqm_split _ _ _ _ H) as (m & CM & CB & Ei).
  assert (PW : forall n c, In (n, c) (p_constraints p) -> weight pdict "objective" * obj_value p x0 < weight pdict (rule_of n)).
  { intros n c Hc. destruct (every_name _ _ _ _ _ _ _ Hp Hc) as (rule & HR & HSt).
    rewrite (placeholder_rule n rule (placeholder_of_rule rule n HR HSt)). exact (HP rule HR). }
  pose proof (obj_nonneg ts tt d_max Integer p x0 RF Hp Pos HW (proj2 F0)) as N0.
  assert (PP : forall n c, In (n, c) (p_constraints p) -> 0 < weight pdict (rule_of n)).
  { intros n c Hc. specialize (PW n c Hc). nra. }
  (* the energy of any sample: below that of [x0] only without a broken rule *)
  assert (K : forall s d, sample_of b s -> decode_row p m s = Ok d ->
    weight pdict "objective" * obj_value p (values d) <= energy b s /\
    (energy b s <= weight pdict "objective" * obj_value p x0 ->
       feasible p (values d) /\ energy b s == weight pdict "objective" * obj_value p (values d))).
  { intros s d HS Dd. destruct (model_built p m CM HC HA) as (t & Hs & Ho & BT).
    pose proof (energy_value p m pdict b CB HC HA t Hs Ho BT s HS d Dd) as EE.
    pose proof (decoded_in_range p m pdict b CM CB HC HA s d HS Dd) as HR.
    destruct (penalties_zero p pdict (values d) (slack_value p s) PP) as [P1 P2].
    split; [lra|]. intros LE.
    pose proof (obj_nonneg ts tt d_max Integer p (values d) RF Hp Pos HW HR) as Y0.
    assert (Z : forall n c, In (n, c) (p_constraints p) -> defect c (values d) (slack_value p s n) == 0).
    { intros n c Hc. destruct (Qeq_dec (defect c (values d) (slack_value p s n)) 0) as [|N]; [assumption|exfalso].
      pose proof (int_square _ (defect_int p m CM HC HA HIC n c (values d) (slack_value p s n) Hc HR) N) as SQ.
      pose proof (penalties_one p pdict (values d) (slack_value p s) n c (fun n c Hc => Qlt_le_weak _ _ (PP n c Hc)) Hc) as P0.
      specialize (PW n c Hc). specialize (PP n c Hc).
      assert (weight pdict (rule_of n) <= weight pdict (rule_of n) *
        (defect c (values d) (slack_value p s n) * defect c (values d) (slack_value p s n))) by nra.
      assert (0 <= weight pdict "objective" * obj_value p (values d)) by nra. lra. }
    split.
    - split; [|exact HR]. intros n c Hc. eapply defect_holds; [apply slack_value_nonneg; exact HA|exact Hc|]. apply Z. exact Hc.
    - rewrite (proj2 P2 Z) in EE. lra. }
  assert (ZP : forall x, feasible p x -> exists s d, sample_of b s /\ decode_row p m s = Ok d /\
    (forall v, occurs p v -> values d (v_id v) == x (v_id v)) /\ energy b s == weight pdict "objective" * obj_value p x).
  { intros x Fx. destruct (C27_zero_penalty p pdict b interp HC HA HD HIC H x Fx) as (s & dd & slack & HS & Hdd & HVd & _ & _ & HE).
    exists s, dd. split; [exact HS|]. split; [|split; [exact HVd|exact HE]].
    specialize (Hdd 0). rewrite Ei in Hdd. exact (PropsQubo.one_row _ _ _ _ _ _ Hdd). }
  destruct (ZP x0 F0) as (s0 & d0 & HS0 & Dd0 & _ & E0).
  split.
  - intros s e d [HS HG] Hi. rewrite Ei in Hi. apply PropsQubo.one_row in Hi.
    destruct (K s d HS Hi) as [K1 K2]. pose proof (HG s0 HS0) as L0. destruct (K2 ltac:(lra)) as [Fd Ed].
    split; [exact Fd|]. intros x Fx. destruct (ZP x Fx) as (sx & dx & HSx & _ & _ & Ex). specialize (HG sx HSx).
    destruct (Qlt_le_dec (obj_value p x) (obj_value p (values d))) as [C|C]; [exfalso; nra|exact C].
  - intros x [Fx Ox]. destruct (C27_zero_penalty p pdict b interp HC HA HD HIC H x Fx) as (s & dd & slack & HS & Hdd & HVd & _ & _ & HE).
    exists s, dd. split; [|split; [exact Hdd|exact HVd]]. split; [exact HS|]. intros s' HS'.
    destruct (C25_energy p pdict b interp HC HA H s' HS') as (d' & _ & Hd' & _).
    specialize (Hd' 0). rewrite Ei in Hd'. apply PropsQubo.one_row in Hd'.
    destruct (K s' d' HS' Hd') as [K1 K2]. rewrite HE.
    destruct (Qlt_le_dec (weight pdict "objective" * obj_value p x0) (energy b s')) as [C|C].
    + pose proof (Ox x0 F0). nra.
    + destruct (K2 C) as [Fd Ed]. pose proof (Ox _ Fd). nra.
Qed.

(** From the tables on: if some feasible plan costs less than the penalty of the scripts, the samples of least energy
    decode to optimal plans, and every optimal plan is decoded from one of them. *)
Theorem C81_cheap_plan : forall td st net t1 delays d_max q ts tt p b interp,
  tidy td st -> complete td st net t1 -> no_part_lines td -> whole_turns td -> whole_delays delays ->
  is_int d_max -> 0 < d_max ->
  tables_to_problem td st net t1 delays d_max Integer = Ok (ts, tt, p) ->
  convert_to_bqm p (script_pdict q) = Ok (b, interp) ->
  (exists x, feasible p x /\ obj_value p x < q) ->
  (forall s e d, ground b s -> interp [(s, e)] = Ok [(d, e)] -> optimal p (values d)) /\
  (forall x, optimal p x -> exists s d, ground b s /\ (forall e, interp [(s, e)] = Ok [(d, e)]) /\
     forall v, occurs p v -> values d (v_id v) == x (v_id v)).
Proof.
  intros td st net t1 delays d_max q ts tt p b interp T C NP W D DI Pos H B (x0 & F0 & L).
  pose proof (reserved_ok _ _ _ _ _ _ _ _ _ _ T H) as RF. destruct (parts _ _ _ _ _ _ _ _ _ _ H) as (Cr & M).
  pose proof (made_integral _ _ _ _ _ _ _ W D M) as IT. pose proof (w_plain _ _ _ _ _ _ _ T C NP M) as PN.
  destruct M as ((sk & w & _ & _ & Ew & Et) & _). destruct (weights_made _ _ _ Ew) as (TR & ND & LE).
  apply (cheap_exact ts tt d_max p (script_pdict q) b interp x0 RF PN IT DI Pos); [|exact Cr|exact B|reflexivity|exact F0|].
  - intros k x G. rewrite Et in G. apply dget_in in G. apply (TR k x G).
  - intros r I. rewrite (script_weight q r I). change (weight (script_pdict q) "objective") with 1. lra.
Qed.
Print Assumptions C81_cheap_plan.
