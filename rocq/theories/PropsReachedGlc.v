(** * PropsReachedGlc: on line 3 of solve_KO_GLC_problems.py a sampler that succeeds finds the recorded objective (C87) *)

From Coq Require Import List String ZArith QArith Bool Lia Lqa.
From Verif Require Import Base Pulp LinearSolver Converters Results DataTables DataSets Pipeline Runs
  Spec SpecTables SpecEnd SpecQubo SpecNames SpecResults Created EndFacts RealData PropsReal PropsRuns PropsRecorded PropsShippedRuns GlcRecords GlcFacts PropsGlc PropsReached.
Import ListNotations.
Open Scope string_scope.
Open Scope list_scope.

(** With the penalty 2.5 of the script: where the sampler returns a ground state of the QUBO of scenario [k], the result is an optimal
    plan whose objective, times 40 minutes, is the one recorded for the ILP solvers. *)
Theorem C87_line3 : forall data st td k dist ts tab p q o m b interp s e,
  In (3%Z, data, st) glc_cases -> build_timetables data st network = Ok td ->
  nth_error (disturbances 3 (map PInt (dkeys td))) k = Some dist -> nth_error (recorded_objectives 3) k = Some q ->
  tables_to_problem td st network "14:00" dist 40 Integer = Ok (ts, tab, p) ->
  real_samplers o -> m <> Cqm -> convert_to_bqm p (script_pdict (5 # 2)) = Ok (b, interp) ->
  In (s, e) (sample_bqm o m b) -> ground b s ->
  exists en, solve_on_quantum o p m (script_pdict (5 # 2)) = Ok en /\ best_found p en /\ e_objective en * 40 == q.
Proof.
  intros data st td k dist ts tab p q o m b interp s e I E Nd Nq H RS NC HC IS G.
  destruct (PropsGlc.glc_shipped _ _ _ I) as [_ S]. destruct (C69_shipped data st "14:00" S) as (td' & E' & T & _).
  assert (Et : td' = td) by congruence. rewrite Et in T. clear E' Et.
  destruct (C81_lines_partial 3%Z data st td k dist ts tab p I eq_refl E Nd H) as (b' & i' & HC' & GO & _).
  rewrite HC in HC'. injection HC' as E1 E2. rewrite <- E1, <- E2 in GO. clear E1 E2.
  destruct (C87_qubo ts tab 40 p o m (script_pdict (5 # 2)) b interp s e (reserved_ok _ _ _ _ _ _ _ _ _ _ T H)
    (proj1 (EndFacts.parts _ _ _ _ _ _ _ _ _ _ H)) RS NC HC GO IS G) as (en & SO & B).
  exists en. split; [exact SO|]. split; [exact B|].
  destruct (proj2 (C83_optima_partial 3%Z data st td k dist ts tab p I eq_refl E Nd H) q Nq) as (x & [Fx Ox] & V).
  destruct B as (_ & [F O] & EO). assert (EQ : e_objective en == obj_value p x) by (rewrite EO; apply Qle_antisym; [apply O, Fx|apply Ox, F]).
  rewrite EQ. exact V.
Qed.
Print Assumptions C87_line3.

(** The sampler that tries everything, in every scenario *)
Example C87_line3_case : forall data st td k dist ts tab p q,
  In (3%Z, data, st) glc_cases -> build_timetables data st network = Ok td ->
  nth_error (disturbances 3 (map PInt (dkeys td))) k = Some dist -> nth_error (recorded_objectives 3) k = Some q ->
  tables_to_problem td st network "14:00" dist 40 Integer = Ok (ts, tab, p) ->
  exists en, solve_on_quantum exhaustive p Sim (script_pdict (5 # 2)) = Ok en /\ best_found p en /\ e_objective en * 40 == q.
Proof.
  intros data st td k dist ts tab p q I E Nd Nq H.
  destruct (C81_lines_partial 3%Z data st td k dist ts tab p I eq_refl E Nd H) as (b & i & HC & _).
  destruct (exhaustive_reaches Sim b) as (s & e & IS & G).
  exact (C87_line3 data st td k dist ts tab p q exhaustive Sim b i s e I E Nd Nq H exhaustive_real ltac:(discriminate) HC IS G).
Qed.
