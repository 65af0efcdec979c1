(** * PropsSweepRuns: the best recorded samples of the sweeps over the minimal time (C90) *)

From Coq Require Import List String ZArith QArith Bool Lia Lqa.
From Verif Require Import Base BaseFacts Pulp Helpers LinearSolver Converters Results DataTables DataSets DataTimes Pipeline Runs Script TminPlot
  Spec SpecTables SpecSets SpecDurations SpecEnd SpecBuild SpecQubo SpecNames SpecResults SpecMinutes SpecScript Check EndFacts
  RealData RecordedSweeps PropsReal PropsTotal PropsResults PropsRecorded PropsScript PropsReached PropsTmin PropsSweep.
Import ListNotations.
Open Scope string_scope.
Open Scope list_scope.

Definition sweep_check (x : assignment) (minutes : Q) (td : train_dict) (ts : train_sets) (tab : timetable) (p : lpproblem) : bool :=
  if run_okb p x then Qeq_bool (obj_value p x * 40) minutes else false.

Lemma sweep7_checked : on_problem schedule_1track_gt stations_gt "16:00" (real_delays 7) 40 (sweep_check (Check.table sweep7) minutes7) = true.
Proof. vm_cast_no_check (eq_refl true). Qed.

Lemma sweep9_checked : on_problem schedule_1track_gt stations_gt "16:00" (real_delays 9) 40 (sweep_check (Check.table sweep9) minutes9) = true.
Proof. vm_cast_no_check (eq_refl true). Qed.

(** The recorded objective in minutes *)
Definition recorded_minutes (case : Z) : Q := if (case =? 7)%Z then minutes7 else minutes9.

(** C90. The best sample that the repository has kept of each sweep is a solution of the problem made from the repository's tables, with
    the recorded objective. *)
Theorem C90_recorded : forall o case n penalty, repository o -> In case [7; 9]%Z ->
  exists td st ts tab p x, made_by o (sweep_args case 5 n penalty) td st ts tab p /\
    feasible p x /\ obj_value p x * 40 == recorded_minutes case.
Proof.
  intros o case n penalty R IC.
  assert (K : forall x m, on_problem schedule_1track_gt stations_gt "16:00" (real_delays (Z.to_nat case)) 40 (sweep_check x m) = true ->
    input_files case = ("./data/trains_schedules_1track_Gt.csv", "./data/important_stations_Gt.npz") -> recorded_minutes case = m ->
    exists td st ts tab p x, made_by o (sweep_args case 5 n penalty) td st ts tab p /\ feasible p x /\ obj_value p x * 40 == recorded_minutes case).
  { intros x m H IF ->. destruct (on_problem_ok _ _ _ _ _ _ H) as (td & ts & tab & p & B & Tp & C). clear H.
    destruct R as (_ & _ & _ & R4 & _ & R6 & EN).
    exists td, stations_gt, ts, tab, p, x. split.
    - exists schedule_1track_gt. cbn [sweep_args a_case a_category]. rewrite IF, EN. cbn [fst snd]. split; [exact R4|]. split; [exact R6|]. split; [exact B|exact Tp].
    - unfold sweep_check in C. destruct (run_okb p x) eqn:RO; [|discriminate C]. split; [apply run_okb_ok; exact RO|apply Qeq_bool_iff; exact C]. }
  destruct IC as [<-|[<-|[]]]; [exact (K _ _ sweep7_checked eq_refl eq_refl)|exact (K _ _ sweep9_checked eq_refl eq_refl)].
Qed.
Print Assumptions C90_recorded.

(** C90. So the one line that a constrained solver reaching the optimum each time would give is drawn, and it is not above the best of what
    the repository has recorded. *)
Theorem C90_below : forall o case n penalty tmins f0,
  repository o -> In case [7; 9]%Z -> (1 <= n)%Z -> tmins <> [] -> (forall i, real_samplers (o_samplers o i)) ->
  (forall td st ts tab p, made_by o (sweep_args case 5 n penalty) td st ts tab p -> forall i, reaches_best (o_samplers o i) p) ->
  exists s z, plotting_objective (sweep_runs o case n penalty tmins f0) "cqm" (network_name case) tmins = Ok s /\
    z <= recorded_minutes case /\
    forall l, In l [sw_mean s; sw_min s; sw_max s] -> List.length l = List.length tmins /\ forall y, In y l -> y == z.
Proof.
  intros o case n penalty tmins f0 R IC Hn NE RS RB.
  destruct (C90_recorded o case n penalty R IC) as (td & st & ts & tab & p & x & MB & Fx & Ox). specialize (RB td st ts tab p MB).
  assert (IA : In (a_case (sweep_args case 5 n penalty)) [0; 1; 2; 3; 4; 5; 6; 7; 8; 9]%Z) by (cbn [a_case sweep_args In]; destruct IC as [<-|[<-|[]]]; lia).
  destruct (C85_repository o (sweep_args case 5 n penalty) R IA) as (td1 & st1 & ts1 & tab1 & p1 & MB1 & T & C & NP).
  assert (E : td1 = td /\ st1 = st).
  { destruct MB as (d1 & A1 & A2 & A3 & _), MB1 as (d2 & B1 & B2 & B3 & _). assert (X : d2 = d1) by congruence. assert (Y : st1 = st) by congruence.
    rewrite X, Y in B3. split; [congruence|exact Y]. }
  destruct E as [E1 E2]. rewrite E1 in T, C, NP. rewrite E2 in T, C. clear MB1 E1 E2.
  destruct (C87_script_cqm o (sweep_args case 5 n penalty) f0 td st ts tab p IA eq_refl eq_refl eq_refl eq_refl MB T C NP RS RB) as (f1 & samples & _ & _ & _ & BF).
  destruct (BF 1%Z) as (en & _ & _ & OP & _); [cbn [a_runs sweep_args]; lia|].
  destruct (C90_flat o case n penalty tmins f0 td st ts tab p _ R IC Hn NE MB OP RS RB) as (s & E & K).
  exists s, (obj_value p (values (e_sample en)) * 40). split; [exact E|]. split; [|exact K].
  destruct OP as [_ OPT]. specialize (OPT x Fx). lra.
Qed.
Print Assumptions C90_below.

(** The sampler that tries everything meets the conditions. *)
Example C90_below_case : forall case, In case [7; 9]%Z -> exists s z,
  plotting_objective (sweep_runs trying_outside case 3 1 [5; 10; 60]%Z []) "cqm" (network_name case) [5; 10; 60]%Z = Ok s /\
  z <= recorded_minutes case /\ forall y, In y (sw_mean s) -> y == z.
Proof.
  intros case IC. destruct (C90_flat_case case IC) as (td & st & ts & tab & p & R & MB & RS & RB).
  destruct (C90_below trying_outside case 3 1 [5; 10; 60]%Z [] R IC ltac:(lia) ltac:(discriminate) RS) as (s & z & E & L & K).
  - intros td' st' ts' tab' p' MB'. assert (X : p' = p).
    { destruct MB as (d1 & A1 & A2 & A3 & A4), MB' as (d2 & B1 & B2 & B3 & B4). assert (X : d2 = d1) by congruence. assert (Y : st' = st) by congruence.
      rewrite X, Y in B3. assert (W : td' = td) by congruence. rewrite W, Y, A4 in B4. injection B4 as _ _ B4. symmetry. exact B4. }
    rewrite X. apply RB. destruct (C90_recorded trying_outside case 3 1 R IC) as (td1 & st1 & ts1 & tab1 & p1 & x & MB1 & Fx & _). exists x.
    assert (Y : p1 = p).
    { destruct MB as (d1 & A1 & A2 & A3 & A4), MB1 as (d2 & B1 & B2 & B3 & B4). assert (V : d2 = d1) by congruence. assert (Y : st1 = st) by congruence.
      rewrite V, Y in B3. assert (W : td1 = td) by congruence. rewrite W, Y, A4 in B4. injection B4 as _ _ B4. symmetry. exact B4. }
    rewrite <- Y. exact Fx.
  - exists s, z. split; [exact E|]. split; [exact L|]. intros y I. apply (K (sw_mean s)); [left; reflexivity|exact I].
Qed.
