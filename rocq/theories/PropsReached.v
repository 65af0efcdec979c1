(** * PropsReached: a sampler that finds the best sample gives the best schedule (C87) *)

From Coq Require Import List String ZArith QArith Bool Lia Lqa Permutation.
From Verif Require Import Base BaseFacts Pulp Helpers LinearSolver Converters Results DataTables DataSets DataTimes Pipeline Runs
  Spec SpecFacts SpecTables SpecDurations SpecSets SpecEnd SpecQubo SpecNames SpecMinutes SpecCompare SpecRoom SpecResults Created Check Integral
  QuboModel QuboFacts Interp HelperFacts ResultFacts EndFacts MinuteFacts RealData Script PropsResults PropsQubo PropsTotal PropsMinutes PropsReal PropsScenario
  PropsScript RoomFacts PropsRoom TurnFacts PropsTurns PropsEndCases PropsTotalCases.
From Verif Require Import DataTables.
Import ListNotations.
Open Scope string_scope.
Open Scope list_scope.

(** The best of the reported samples is an optimal plan, with the objective of this plan. *)
Definition best_found (p : lpproblem) (e : entry) : Prop :=
  e_feasible e = true /\ optimal p (values (e_sample e)) /\ e_objective e == obj_value p (values (e_sample e)).

(** A sample of a constrained model that keeps all its constraints, and none that does is better *)
Definition cqm_best (c : cqm) (q : string -> Q) : Prop :=
  cqm_feasible c q /\ forall q', cqm_feasible c q' -> lin_value (q_objective c) q <= lin_value (q_objective c) q'.

(** ** From the rows on *)

Lemma best_of_rows ts tab d_max cat p o m pdict rows d e :
  reserved_free ts -> create_linear_problem ts tab d_max cat = Ok p -> real_samplers o -> q_process o p m pdict = Ok rows ->
  In (d, e) rows -> optimal p (values d) ->
  exists en, solve_on_quantum o p m pdict = Ok en /\ best_found p en.
Proof.
  intros RF Cr RS QP I [F O]. destruct (created_apart _ _ _ _ _ RF Cr) as (ND & _).
  pose proof (C33_in_range ts tab d_max cat p o m pdict rows RF Cr RS QP) as R.
  assert (AS : forall d e, In (d, e) rows -> assigns p d) by (intros d' e' H; exact (proj1 (R d' e' H))).
  destruct (C31_results p rows ND AS) as (out & HO & PE & _ & _ & RE).
  destruct (proj2 (C32_best p rows out ND AS HO)) as (en & He & Ie & (EO & EF & _) & B); [intros X; rewrite X in I; destruct I|].
  exists en. split; [unfold solve_on_quantum; rewrite QP; cbn [bind]; rewrite HO; exact He|].
  assert (I' : In (d, e) (map (fun e => (e_sample e, e_energy e)) out)) by (eapply Permutation_in; [exact PE|exact I]).
  apply in_map_iff in I' as (e0 & E0 & I0). injection E0 as Ed Ee. destruct (RE e0 I0) as (EO0 & EF0 & _). rewrite Ed in EO0, EF0.
  assert (F0 : e_feasible e0 = true) by (apply EF0, F).
  destruct B as [[Fe B]|[B _]]; [|rewrite (B e0 I0) in F0; discriminate F0].
  assert (Ie' : In (e_sample en, e_energy en) rows).
  { eapply Permutation_in; [apply Permutation_sym; exact PE|]. apply in_map_iff. exists en. auto. }
  assert (FE : feasible p (values (e_sample en))) by (split; [apply EF, Fe|exact (proj2 (R _ _ Ie'))]).
  split; [exact Fe|]. split; [split; [exact FE|]|exact EO].
  intros x' Fx. specialize (B e0 I0 F0). specialize (O x' Fx). rewrite EO, EO0 in B. lra.
Qed.

(** ** C87 *)

(** QUBOs: if ground states decode to optimal plans and the sampler returns a ground state, the best sample is an optimal plan. *)
Theorem C87_qubo : forall ts tab d_max p o m pdict b interp s e,
  reserved_free ts -> create_linear_problem ts tab d_max Integer = Ok p -> real_samplers o -> m <> Cqm ->
  convert_to_bqm p pdict = Ok (b, interp) ->
  (forall s e d, ground b s -> interp [(s, e)] = Ok [(d, e)] -> optimal p (values d)) ->
  In (s, e) (sample_bqm o m b) -> ground b s ->
  exists en, solve_on_quantum o p m pdict = Ok en /\ best_found p en.
Proof.
  intros ts tab d_max p o m pdict b interp s e RF Cr RS NC HC G I GS.
  destruct (created_conditions _ _ _ _ _ RF Cr) as (CC & CA & _).
  destruct (proj1 (C29_decoding p pdict b interp CC CA HC) (sample_bqm o m b) (fun s e => proj1 RS m b s e)) as (rows & sam & HI & PE & _ & F).
  assert (QP : q_process o p m pdict = Ok rows) by (unfold q_process; destruct m; try contradiction; rewrite HC; exact HI).
  destruct (bqm_split _ _ _ _ HC) as (qm & CM & CB & Ei). rewrite Ei in HI.
  assert (K : exists d, In (d, e) rows /\ decode_row p qm s = Ok d).
  { unfold interpreter in HI. inv_bind HI. inversion HI; subst rows. clear - E I.
    assert (I' : In (s, e) (data (sample_bqm o m b))) by (eapply Permutation_in; [apply (sorted_perm snd)|exact I]).
    clear I. revert a E I'. induction (data (sample_bqm o m b)) as [|[s1 e1] l IH]; intros a E I; [destruct I|].
    cbn in E. inv_bind E. inv_bind E. inversion E; subst a. cbn [map combine snd fst]. destruct I as [X|I].
    - injection X as -> ->. exists a0. split; [left; reflexivity|exact E0].
    - destruct (IH _ E1 I) as (d & I2 & D). exists d. split; [right; exact I2|exact D]. }
  destruct K as (d & Id & Dd).
  apply (best_of_rows ts tab d_max Integer p o m pdict rows d e RF Cr RS QP Id).
  apply (G s e d GS). rewrite Ei. apply interpreter_one. exact Dd.
Qed.
Print Assumptions C87_qubo.

(** Constrained models: whatever the penalties, if the sampler returns a best sample of the model. *)
Theorem C87_cqm : forall ts tab d_max p o pdict c d e,
  reserved_free ts -> plain_names ts -> create_linear_problem ts tab d_max Integer = Ok p -> real_samplers o ->
  convert_to_cqm p = Ok c -> In (d, e) (sample_cqm o c) ->
  cqm_best c (fun n => match dget n d with Some q => q | None => 0 end) ->
  exists en, solve_on_quantum o p Cqm pdict = Ok en /\ best_found p en.
Proof.
  intros ts tab d_max p o pdict c d e RF PN Cr RS HC I [F B].
  destruct (created_conditions _ _ _ _ _ RF Cr) as (_ & _ & HD & _). specialize (HD PN).
  destruct (C28_created ts tab d_max Integer p RF Cr) as (_ & _ & SAME). specialize (SAME c HC).
  assert (QP : q_process o p Cqm pdict = Ok (sample_cqm o c)) by (unfold q_process; rewrite HC; reflexivity).
  apply (best_of_rows ts tab d_max Integer p o Cqm pdict _ d e RF Cr RS QP I). split; [exact (proj1 (proj1 (SAME _)) F)|].
  intros x Fx.
  destruct (C28_same_problem p c HC) as (_ & _ & K).
  { intros v lo Hv L. destruct (created_bounds _ _ _ _ _ RF Cr v (variables_occurs p v Hv)) as [Lo _]. rewrite Lo in L. inversion L. exists 0%Z. reflexivity. }
  set (q := fun n => match find (fun v => String.eqb (v_name v) n) (variables p) with Some v => x (v_id v) | None => 0 end).
  assert (CL : counted_from_lower p q x).
  { intros v lo Hv L. destruct (created_bounds _ _ _ _ _ RF Cr v (variables_occurs p v Hv)) as [Lo _]. rewrite Lo in L. inversion L; subst lo.
    unfold q. destruct (find _ (variables p)) as [w|] eqn:Fd.
    - apply find_some in Fd as [Iw E]. apply String.eqb_eq in E. rewrite (HD w v (variables_occurs p w Iw) (variables_occurs p v Hv) E). lra.
    - exfalso. pose proof (find_none _ _ Fd v Hv) as N. cbn beta in N. rewrite String.eqb_refl in N. discriminate N. }
  destruct (K q x CL) as [K1 K2]. specialize (B q (proj2 K1 Fx)). rewrite K2 in B.
  rewrite (proj2 (SAME _)) in B. exact B.
Qed.
Print Assumptions C87_cqm.

(** From the tables on: with a penalty above the largest possible objective, a sampler of QUBOs that returns a ground state makes
    [solve_on_quantum] return an optimal plan. *)
Theorem C87_tables : forall td st net t1 delays d_max q ts tab p o m b interp s e,
  tidy td st -> complete td st net t1 -> no_part_lines td -> whole_turns td -> whole_delays delays ->
  is_int d_max -> 0 < d_max -> (7 # 4) * inject_Z (Z.of_nat (List.length td)) < q ->
  tables_to_problem td st net t1 delays d_max Integer = Ok (ts, tab, p) -> (exists x, feasible p x) -> (exists v, In v (variables p)) ->
  real_samplers o -> m <> Cqm -> convert_to_bqm p (script_pdict q) = Ok (b, interp) ->
  In (s, e) (sample_bqm o m b) -> ground b s ->
  exists en, solve_on_quantum o p m (script_pdict q) = Ok en /\ best_found p en.
Proof.
  intros td st net t1 delays d_max q ts tab p o m b interp s e T C NP W D DI Pos Q H FE HV RS NC HC I G.
  pose proof (reserved_ok _ _ _ _ _ _ _ _ _ _ T H) as RF. destruct (EndFacts.parts _ _ _ _ _ _ _ _ _ _ H) as (Cr & M).
  apply (C87_qubo ts tab d_max p o m (script_pdict q) b interp s e RF Cr RS NC HC); [|exact I|exact G].
  destruct (C81_turnarounds_partial td st net t1 delays d_max q ts tab p T C NP W D DI Pos Q H HV) as [A B].
  assert (TI : turns_in_time ts tab d_max).
  { destruct (turns_decided ts tab d_max p RF (none_ok _ _ _ _ _ _ _ _ _ _ T H) Cr) as [T1|(s' & j & jp & t & e' & TA & L)]; [exact T1|].
    exfalso. refine (B _ b interp HC). intros X. specialize (X s' j jp t e' TA). lra. }
  destruct (A TI) as (b' & i' & HC' & K). assert (E : (b', i') = (b, interp)) by congruence. injection E as -> ->.
  exact (proj1 (K FE)).
Qed.
Print Assumptions C87_tables.

(** A run of solve_real_problem.py with the repository's tables and a penalty above the largest possible objective: wherever its
    sampler has returned a ground state of the QUBO, an optimal plan is stored. *)
Theorem C87_script : forall o a m f f1 i td st ts tab p b interp s e,
  repository o -> In (a_case a) [0; 1; 2; 3; 4; 5; 6; 7; 8; 9]%Z -> a_category a = Integer -> a_show a = false ->
  method_of (a_solve_quantum a) = Some m -> m <> Cqm -> (forall i, real_samplers (o_samplers o i)) ->
  script o a f = (f1, Ok tt) -> (1 <= i <= a_runs a)%Z ->
  made_by o a td st ts tab p -> (exists x, feasible p x) -> (7 # 4) * inject_Z (Z.of_nat (List.length td)) < a_penalty a ->
  convert_to_bqm p (script_pdict (a_penalty a)) = Ok (b, interp) ->
  In (s, e) (sample_bqm (o_samplers o i) m b) -> ground b s ->
  exists samples en, dget (samples_file o a) f1 = Some (Samples samples) /\ dget i samples = Some en /\ best_found p en.
Proof.
  intros o a m f f1 i td st ts tab p b interp s e R IC CA SH HM NC RS H Hi MB2 FE Q HC I G.
  assert (IM : In (a_solve_quantum a) methods) by (apply methods_ok; exists m; exact HM).
  destruct (C85_stored o a f f1 SH IM H) as (td' & st' & ts' & tab' & p' & samples & MB & GS & _ & Runs & _).
  destruct (C85_repository o a R IC) as (td1 & st1 & ts1 & tab1 & p1 & (d1 & C1 & C2 & C3 & C4) & T & C & NP).
  destruct (real_cases o a R IC) as (data' & st2 & X1 & X2 & Ish). destruct R as (_ & _ & _ & _ & _ & _ & EN).
  destruct MB as (da & A1 & A2 & A3 & A4), MB2 as (db & B1 & B2 & B3 & B4).
  rewrite A1 in X1, C1, B1. rewrite A2 in X2, C2, B2. injection X1 as X1. injection X2 as X2. injection C1 as C1. injection C2 as C2.
  injection B1 as B1. injection B2 as B2. rewrite <- X1, <- X2 in Ish. rewrite <- C1, <- C2 in C3. rewrite <- C2 in T, C. rewrite <- B1, <- B2 in B3. rewrite <- B2 in B4.
  clear C4 X1 X2 C1 C2 B1 B2 A1 A2.
  rewrite A3 in C3, B3. injection C3 as C3. injection B3 as B3. rewrite <- C3 in T, C, NP. rewrite <- B3 in Q, B4. rewrite A4 in B4. injection B4 as E1 E2 E3.
  subst ts' tab' p'. clear C3 B3. rewrite CA in A4. rewrite EN in A3, A4, C.
  destruct (Runs i Hi) as (m' & pd & en & Hm & Pd & S & Gi). rewrite HM in Hm. injection Hm as Hm. subst m'. rewrite (Pd NC) in S.
  exists samples, en. split; [exact GS|]. split; [exact Gi|].
  destruct (turn_tables_facts _ _ real_turns_ok _ _ _ _ Ish A3) as (W & WB & _).
  assert (K : (Z.to_nat (a_case a) < 10)%nat) by (clear - IC; cbn [In] in IC; lia).
  assert (WD : whole_delays (real_delays (Z.to_nat (a_case a)))).
  { assert (Sg : forallb (fun c => forallb (fun e => Pos.eqb (Qden (snd e)) 1) (real_delays c)) (seq 0 10) = true) by (vm_compute; reflexivity).
    rewrite forallb_forall in Sg. specialize (Sg (Z.to_nat (a_case a))). rewrite in_seq in Sg. specialize (Sg ltac:(lia)). rewrite forallb_forall in Sg.
    intros k x J. apply Sg in J. apply Pos.eqb_eq in J. cbn [snd] in J. exists (Qnum x). destruct x as [nu de]. cbn in J |- *. subst. reflexivity. }
  pose proof (reserved_ok _ _ _ _ _ _ _ _ _ _ T A4) as RF. destruct (EndFacts.parts _ _ _ _ _ _ _ _ _ _ A4) as (Cr & M).
  destruct (C87_tables td' st' network "16:00" (real_delays (Z.to_nat (a_case a))) 40 (a_penalty a) ts tab p (o_samplers o i) m b interp s e
    T C NP W WD (ex_intro _ 40%Z (Qeq_refl 40)) eq_refl Q A4 FE (weightedb_ok _ _ _ _ _ _ _ _ _ _ T M Cr RF WB) (RS i) NC HC I G) as (en' & S' & BF).
  rewrite S in S'. injection S' as S'. rewrite S'. exact BF.
Qed.
Print Assumptions C87_script.

(** ** A sampler that always finds it *)

Fixpoint all_bits (keys : list string) : list bits :=
  match keys with
  | [] => [[]]
  | k :: l => flat_map (fun s => [(k, false) :: s; (k, true) :: s]) (all_bits l)
  end.

(** The sampler of QUBOs that tries everything *)
Definition exhaustive : samplers :=
  MkSamplers (fun _ b => map (fun s => (s, energy b s)) (all_bits (nodup string_dec (dkeys (b_linear b))))) (fun _ => []).

Lemma all_bits_keys l : forall s, In s (all_bits l) -> dkeys s = l.
Proof.
  induction l as [|k l IH]; intros s I; cbn [all_bits] in I; [destruct I as [<-|[]]; reflexivity|].
  apply in_flat_map in I as (s0 & I0 & [<-|[<-|[]]]); cbn; f_equal; apply IH; exact I0.
Qed.

Lemma all_bits_in (f : string -> bool) l : In (map (fun k => (k, f k)) l) (all_bits l).
Proof.
  induction l as [|k l IH]; [left; reflexivity|]. cbn [all_bits map]. apply in_flat_map. eexists. split; [exact IH|].
  destruct (f k); [right; left; reflexivity|left; reflexivity].
Qed.

Lemma exhaustive_real : real_samplers exhaustive.
Proof.
  split; [|intros c d e []]. intros m b s e I. cbn in I. apply in_map_iff in I as (s0 & E & I). injection E as <- _.
  apply all_bits_keys in I. unfold sample_of. rewrite I. split; [apply NoDup_nodup|]. intros k. apply nodup_In.
Qed.

Lemma least {A : Type} (f : A -> Q) (l : list A) : l <> [] -> exists x, In x l /\ forall y, In y l -> f x <= f y.
Proof.
  induction l as [|a l IH]; intros N; [contradiction|]. destruct l as [|c l].
  - exists a. split; [left; reflexivity|]. intros y [<-|[]]. apply Qle_refl.
  - destruct IH as (x & I & H); [discriminate|]. destruct (Qlt_le_dec (f a) (f x)) as [L|L].
    + exists a. split; [left; reflexivity|]. intros y [<-|J]; [apply Qle_refl|]. specialize (H y J). lra.
    + exists x. split; [right; exact I|]. intros y [<-|J]; [exact L|exact (H y J)].
Qed.

Lemma exhaustive_reaches m b : exists s e, In (s, e) (sample_bqm exhaustive m b) /\ ground b s.
Proof.
  set (keys := nodup string_dec (dkeys (b_linear b))).
  destruct (least (energy b) (all_bits keys)) as (s & I & H).
  { intros X. pose proof (all_bits_in (fun _ => false) keys) as J. rewrite X in J. destruct J. }
  exists s, (energy b s). assert (J : In (s, energy b s) (sample_bqm exhaustive m b)) by (cbn; apply in_map_iff; exists s; auto).
  split; [exact J|]. split; [exact (proj1 exhaustive_real m b s _ J)|].
  intros s' [ND K]. set (f := fun k => match dget k s' with Some true => true | _ => false end).
  assert (E : forall k, bit (map (fun k => (k, f k)) keys) k = bit s' k).
  { intros k. unfold bit. destruct (in_dec string_dec k keys) as [Ik|Nk].
    - assert (G : dget k (map (fun k => (k, f k)) keys) = Some (f k)).
      { apply in_dget; [unfold dkeys; rewrite map_map, map_id; apply NoDup_nodup|]. apply in_map_iff. exists k. auto. }
      rewrite G. unfold f. destruct (dget k s') as [[|]|]; reflexivity.
    - assert (N1 : dget k (map (fun k => (k, f k)) keys) = None).
      { destruct (dget k _) as [x|] eqn:G; [|reflexivity]. apply dget_in in G. apply in_map_iff in G as (k' & X & I'). inversion X; subst. contradiction. }
      assert (N2 : dget k s' = None).
      { destruct (dget k s') as [x|] eqn:G; [|reflexivity]. exfalso. apply Nk, nodup_In, K. apply dget_in in G. apply (in_map fst) in G. exact G. }
      rewrite N1, N2. reflexivity. }
  assert (EE : energy b (map (fun k => (k, f k)) keys) = energy b s').
  { unfold energy. f_equal; [f_equal|]; f_equal; apply map_ext; intros x; rewrite ?E; reflexivity. }
  rewrite <- EE. apply H, all_bits_in.
Qed.

(** C87 with this sampler: from the tables on, an optimal plan is always found. *)
Theorem C87_exhaustive : forall td st net t1 delays d_max q ts tab p m,
  tidy td st -> complete td st net t1 -> no_part_lines td -> whole_turns td -> whole_delays delays ->
  is_int d_max -> 0 < d_max -> (7 # 4) * inject_Z (Z.of_nat (List.length td)) < q ->
  tables_to_problem td st net t1 delays d_max Integer = Ok (ts, tab, p) -> (exists x, feasible p x) -> (exists v, In v (variables p)) ->
  m <> Cqm -> turns_in_time ts tab d_max ->
  exists en, solve_on_quantum exhaustive p m (script_pdict q) = Ok en /\ best_found p en.
Proof.
  intros td st net t1 delays d_max q ts tab p m T C NP W D DI Pos Q H FE HV NC TI.
  destruct (proj1 (C81_turnarounds_partial td st net t1 delays d_max q ts tab p T C NP W D DI Pos Q H HV) TI) as (b & i & HC & _).
  destruct (exhaustive_reaches m b) as (s & e & I & G).
  exact (C87_tables td st net t1 delays d_max q ts tab p exhaustive m b i s e T C NP W D DI Pos Q H FE HV exhaustive_real NC HC I G).
Qed.
Print Assumptions C87_exhaustive.

(** The day of C81_case: three trains, one of them late, and the penalty 15/2 *)
Example C87_case : exists ts tab p en, tables_to_problem day_td day_st day_net "16:00" day_delays 15 Integer = Ok (ts, tab, p) /\
  solve_on_quantum exhaustive p Sim (script_pdict (15 # 2)) = Ok en /\ best_found p en.
Proof.
  destruct C81_case as (ts & tab & p & C & NP & H & L & HV & LR & FE). destruct C82_case as (T & W & D & _ & _ & _).
  assert (TI : turns_in_time ts tab 15).
  { apply (room_turns ts tab 15 p (reserved_ok _ _ _ _ _ _ _ _ _ _ T H) (none_ok _ _ _ _ _ _ _ _ _ _ T H) (ex_intro _ 15%Z (Qeq_refl 15)) eq_refl
      (proj1 (EndFacts.parts _ _ _ _ _ _ _ _ _ _ H)) (made_starts _ _ _ _ _ _ _ T C (proj2 (EndFacts.parts _ _ _ _ _ _ _ _ _ _ H)))); exact LR. }
  destruct (C87_exhaustive day_td day_st day_net "16:00" day_delays 15 (15 # 2) ts tab p Sim T C NP W D (ex_intro _ 15%Z (Qeq_refl 15)) eq_refl L H FE HV
    ltac:(discriminate) TI) as (en & S & B).
  exists ts, tab, p, en. auto.
Qed.
