(** * PropsRuns: the loop over the scenarios of the line from Katowice to Gliwice (C79, C80) *)

From Coq Require Import List String Ascii ZArith QArith Bool Lia Lqa.
From Verif Require Import Base BaseFacts Pulp Helpers LinearSolver Converters Results DataTables DataSets DataTimes Pipeline Runs
  Spec SpecTables SpecSets SpecDurations SpecEnd SpecQubo SpecNames SpecResults SpecRuns Created ResultFacts PropsResults Interp Check Check
  EndFacts SpecFacts PropsIlp HelperFacts PropsEnd PropsEndCases QuboFacts FastSwitch.
Import ListNotations.
Open Scope string_scope.
Open Scope list_scope.

Lemma number_not_yz z : ~ ends_yz (PInt z).
Proof.
  intros (u & E).
  assert (A : allc (fun c => negb (Ascii.eqb c "y"%char || Ascii.eqb c "z"%char)) (str_of_Z z) = true).
  { unfold str_of_Z, DecimalString.NilZero.string_of_int.
    assert (H : forall u, allc (fun c => negb (Ascii.eqb c "y"%char || Ascii.eqb c "z"%char)) (DecimalString.NilEmpty.string_of_uint u) = true)
      by (induction u0; cbn; auto).
    assert (H' : forall u, allc (fun c => negb (Ascii.eqb c "y"%char || Ascii.eqb c "z"%char)) (DecimalString.NilZero.string_of_uint u) = true)
      by (intros []; cbn; auto).
    destruct (Z.to_int z) as [w|w]; cbn [allc]; rewrite ?H'; reflexivity. }
  cbn [str] in E. destruct E as [E|E]; rewrite E, allc_app in A; apply andb_true_iff in A as [_ A]; discriminate A.
Qed.

Lemma number_split {A} (P : A -> Prop) l k : number_of P l k ->
  (k <= List.length l)%nat /\ number_of (fun x => ~ P x) l (List.length l - k).
Proof.
  induction 1 as [|x l n Px H [L IH]|x l n Px H [L IH]]; cbn [List.length].
  - split; [lia|constructor].
  - split; [lia|]. replace (S (List.length l) - S n)%nat with (List.length l - n)%nat by lia. apply number_no; auto.
  - split; [lia|]. replace (S (List.length l) - n)%nat with (S (List.length l - n)) by lia. apply number_yes; auto.
Qed.

Lemma number_zero {A} (P : A -> Prop) l n : number_of P l n -> (n = 0%nat <-> forall x, In x l -> ~ P x).
Proof.
  induction 1 as [|x l n Px H IH|x l n Px H IH].
  - split; [intros _ ? []|reflexivity].
  - split; [discriminate|]. intros Q. exfalso. apply (Q x); [left; reflexivity|exact Px].
  - split.
    + intros E y [<-|I]; [exact Px|]. apply (proj1 IH E y I).
    + intros Q. apply IH. intros y I. apply Q. right. exact I.
Qed.

(** Delays one by one and all at once *)
Lemma delays_once J dist : forall tt tt', foldM (fun t iq =>
    if lmem (PInt (fst iq)) J then Ok (with_delays [iq] t) else Err AssertionError) dist tt = Ok tt' ->
  tt' = with_delays dist tt /\ forall i q, In (i, q) dist -> In (PInt i) J.
Proof.
  induction dist as [|[i q] dist IH]; intros tt tt' H; cbn [foldM] in H.
  - inversion H; subst. split; [destruct tt'; reflexivity|intros ? ? []].
  - cbn [fst] in H. destruct (lmem (PInt i) J) eqn:M; [|discriminate H]. cbn [bind] in H. apply IH in H as [-> K]. split.
    + reflexivity.
    + intros i' q' [E|I]; [inversion E; subst; apply lmem_true; exact M|eauto].
Qed.

(** ** One scenario *)

Section Scenario.
  Context (td : train_dict) (st : station_blocks) (net : list netrow) (t1 : string) (d_max : Q) (cat : vcat) (how : way_to_solve).
  Context (dist : list (Z * Q)) (skip : dict Z string) (ts : train_sets) (r : run_result).
  Hypothesis T : tidy td st.
  Hypothesis D0 : 0 <= d_max.
  Hypothesis Hs : get_skip_stations td = Ok skip.
  Hypothesis Hts : make_train_set td st net skip = Ok ts.
  Hypothesis H : glc_scenario td st skip ts t1 d_max cat how dist = Ok r.

  Lemma scenario_parts : exists tt p, tables_to_problem td st net t1 dist d_max cat = Ok (ts, tt, p) /\
    (forall i q, In (i, q) dist -> In i (dkeys td)) /\
    (run_order_vars r, run_int_vars r, run_constraints r) = count_vars p /\
    match how with
    | OnlySizes => run_objective r = None /\ run_feasible r = None /\ run_sample r = None /\ run_broken r = None
    | WithLp solver => exists x, solver p = Some x /\ run_objective r = Some (obj_value p x * d_max) /\ run_feasible r = Some true
    | WithQuantum o m => exists e, solve_on_quantum o p m (script_pdict (5 # 2)) = Ok e /\
        run_objective r = Some (e_objective e) /\ run_feasible r = Some (e_feasible e) /\ run_sample r = Some (e_sample e) /\
        run_broken r = Some (Z.of_nat (List.length (p_constraints p)) - Z.of_nat (snd (e_constraints e)))%Z
    end.
  Proof.
    unfold glc_scenario in H. destruct (make_timetable td st skip t1 None) as [tt0|] eqn:E0; [|discriminate H]. cbn [bind] in H.
    destruct (foldM _ dist tt0) as [tt|] eqn:E1; [|discriminate H]. cbn [bind] in H.
    destruct (create_linear_problem ts tt d_max cat) as [p|] eqn:E2; [|discriminate H]. cbn [bind] in H.
    apply delays_once in E1 as [E1 K].
    assert (TP : tables_to_problem td st net t1 dist d_max cat = Ok (ts, tt, p)).
    { unfold tables_to_problem. rewrite Hs. cbn [bind]. rewrite Hts. cbn [bind]. rewrite E0. cbn [bind]. cbv zeta.
      rewrite <- E1, E2. reflexivity. }
    exists tt, p. split; [exact TP|]. split.
    { intros i q I. apply K in I. destruct (parts _ _ _ _ _ _ _ _ _ _ TP) as (_ & M). destruct M as (_ & _ & EJ & _). rewrite EJ in I.
      unfold trains in I. apply in_map_iff in I as (z & E & I). unfold train in E. congruence. }
    destruct (count_vars p) as [[a b] c] eqn:EC.
    assert (c = List.length (p_constraints p)) by (unfold count_vars in EC; congruence).
    destruct how as [|solver|o m].
    - inversion H; subst r. cbn. auto.
    - destruct (solver p) as [x|]; [|discriminate H]. destruct (check_count_vars p x); [|discriminate H]. cbn [bind] in H.
      inversion H; subst r. cbn. eauto.
    - destruct (solve_on_quantum o p m (script_pdict (5 # 2))) as [e|]; [|discriminate H]. cbn [bind] in H. inversion H; subst r. cbn. subst c. eauto 10.
  Qed.
End Scenario.

Lemma sizes_right td st net t1 delays d_max cat ts tt p r : tidy td st ->
  tables_to_problem td st net t1 delays d_max cat = Ok (ts, tt, p) ->
  (run_order_vars r, run_int_vars r, run_constraints r) = count_vars p -> sizes_of ts p r.
Proof.
  intros T H E. destruct (parts _ _ _ _ _ _ _ _ _ _ H) as (Cr & M).
  assert (L : (run_order_vars r + run_int_vars r = List.length (variables p))%nat /\ run_constraints r = List.length (p_constraints p)).
  { unfold count_vars in E. injection E as E1 E2 E3. split; [|exact E3]. rewrite E2, <- E1.
    assert (X : forall l n, (fold_left (fun n v => if is_order_var v then S n else n) l n <= n + List.length l)%nat).
    { induction l as [|v l IH]; intros n; cbn [fold_left List.length]; [lia|]. destruct (is_order_var v); [specialize (IH (S n))|specialize (IH n)]; lia. }
    specialize (X (variables p) 0%nat). rewrite <- E1 in X. lia. }
  destruct L as [L1 L2]. split; [exact L1|]. split; [exact L2|]. intros PN.
  destruct M as (_ & _ & EJ & _).
  destruct (C50_counts_partial ts tt d_max cat p (reserved_ok _ _ _ _ _ _ _ _ _ _ T H) PN Cr) as (o & d & C & N1 & N2 & _).
  { intros j I. rewrite EJ in I. unfold trains in I. apply in_map_iff in I as (z & <- & _). apply number_not_yz. }
  rewrite C in E. injection E as -> -> _. auto.
Qed.

Lemma record_right td st net t1 delays d_max cat ts tt p o m pdict e r : tidy td st -> 0 <= d_max ->
  tables_to_problem td st net t1 delays d_max cat = Ok (ts, tt, p) -> real_samplers o ->
  solve_on_quantum o p m pdict = Ok e ->
  run_objective r = Some (e_objective e) -> run_feasible r = Some (e_feasible e) -> run_sample r = Some (e_sample e) ->
  run_broken r = Some (Z.of_nat (List.length (p_constraints p)) - Z.of_nat (snd (e_constraints e)))%Z ->
  right_record p r.
Proof.
  intros T D0 H RS S R1 R2 R3 R4. destruct (parts _ _ _ _ _ _ _ _ _ _ H) as (Cr & _).
  pose proof (reserved_ok _ _ _ _ _ _ _ _ _ _ T H) as RF.
  unfold solve_on_quantum in S. inv_bind S. inv_bind S. rename a into rows, a0 into out.
  pose proof (C33_in_range ts tt d_max cat p o m pdict rows RF Cr RS E) as R.
  destruct (created_apart _ _ _ _ _ RF Cr) as (ND & _).
  assert (I : In e out).
  { unfold get_best_feasible_sample in S. destruct (find e_feasible out) as [e'|] eqn:F.
    - inversion S; subst. apply find_some in F. apply F.
    - unfold lnth in S. destruct (nth_error (sorted_by e_energy out) 0) as [e'|] eqn:N; [|discriminate]. inversion S; subst.
      apply nth_error_In in N. eapply Permutation.Permutation_in; [symmetry; apply (sorted_perm e_energy)|exact N]. }
  destruct (results_right p rows ND (fun d e H => proj1 (R d e H))) as (out' & H' & _ & _ & _ & RE).
  assert (out' = out) by congruence. subst out'. destruct (RE e I) as (EO & EF & _ & _ & NB).
  destruct (results_inv p rows out E0 e I) as (d & q & Hd & Ed & _). subst d.
  apply number_split in NB as [LB NB]. apply number_zero in NB as Z0.
  exists (e_sample e), (e_objective e), (e_feasible e), (List.length (p_constraints p) - snd (e_constraints e))%nat.
  split; [exact R3|]. split; [exact R1|]. split; [exact R2|]. split; [rewrite R4; f_equal; lia|].
  destruct (R _ _ Hd) as [_ IR]. split; [exact IR|]. split; [exact EO|]. split; [exact NB|].
  assert (B : e_feasible e = true <-> (List.length (p_constraints p) - snd (e_constraints e))%nat = 0%nat).
  { rewrite EF, Z0. split.
    - intros A x Ix. destruct x as [n c]. cbn [snd]. intros N. apply N. apply (A n c Ix).
    - intros A n c Ix. specialize (A (n, c) Ix). cbn [snd] in A. rewrite <- Check.holdsb_iff in A |- *. destruct (Check.holdsb c (values (e_sample e))); [reflexivity|exfalso; apply A; discriminate]. }
  split; [exact B|]. rewrite EF. split.
  - intros A. split; [exact A|exact IR].
  - intros [A _]. exact A.
Qed.

(** ** C79: all scenarios *)

Lemma all_scenarios td st net case cat how results : tidy td st -> glc_runs td st net case cat how = Ok results ->
  exists skip ts, get_skip_stations td = Ok skip /\ make_train_set td st net skip = Ok ts /\
  Forall2 (fun dist r => glc_scenario td st skip ts "14:00" 40 cat how dist = Ok r) (disturbances case (map PInt (dkeys td))) results.
Proof.
  intros T H. unfold glc_runs in H. destruct (get_skip_stations td) as [skip|] eqn:Hs; [|discriminate H]. cbn [bind] in H.
  destruct (make_train_set td st net skip) as [ts|] eqn:Hts; [|discriminate H]. cbn [bind] in H.
  exists skip, ts. split; [reflexivity|]. split; [exact Hts|]. apply mapM_all in H.
  assert (EJ : ts_J ts = map PInt (dkeys td)).
  { unfold make_train_set in Hts. inv_bind Hts. inv_bind Hts. inv_bind Hts. inv_bind Hts. inv_bind Hts. inversion Hts; subst. reflexivity. }
  rewrite EJ in H. exact H.
Qed.

(** There is one record per scenario, in order; every train named in a scenario is in the tables (otherwise the
    script stops), and the record is right about the problem with the delays of the scenario. *)
Theorem C79_records : forall td st net case cat o m results,
  tidy td st -> real_samplers o -> glc_runs td st net case cat (WithQuantum o m) = Ok results ->
  Forall2 (fun dist r => (forall i q, In (i, q) dist -> In i (dkeys td)) /\
      exists ts tt p, tables_to_problem td st net "14:00" dist 40 cat = Ok (ts, tt, p) /\ sizes_of ts p r /\ right_record p r)
    (disturbances case (map PInt (dkeys td))) results.
Proof.
  intros td st net case cat o m results T RS H. destruct (all_scenarios _ _ _ _ _ _ _ T H) as (skip & ts & Hs & Hts & F).
  clear H. induction F as [|dist r l l' H F IH]; constructor; [|exact IH].
  destruct (scenario_parts td st net "14:00" 40 cat _ dist skip ts r Hs Hts H) as (tt & p & TP & K & C & e & S & R1 & R2 & R3 & R4).
  split; [exact K|]. exists ts, tt, p. split; [exact TP|]. split; [eapply sizes_right; eauto|].
  eapply record_right; eauto. lra.
Qed.
Print Assumptions C79_records.

(** The sizes do not depend on the way the problems are solved. *)
Theorem C79_sizes : forall td st net case cat how results,
  tidy td st -> glc_runs td st net case cat how = Ok results ->
  Forall2 (fun dist r => exists ts tt p, tables_to_problem td st net "14:00" dist 40 cat = Ok (ts, tt, p) /\ sizes_of ts p r)
    (disturbances case (map PInt (dkeys td))) results.
Proof.
  intros td st net case cat how results T H. destruct (all_scenarios _ _ _ _ _ _ _ T H) as (skip & ts & Hs & Hts & F).
  clear H. induction F as [|dist r l l' H F IH]; constructor; [|exact IH].
  destruct (scenario_parts td st net "14:00" 40 cat _ dist skip ts r Hs Hts H) as (tt & p & TP & K & C & _).
  exists ts, tt, p. split; [exact TP|]. eapply sizes_right; eauto.
Qed.
Print Assumptions C79_sizes.

(** Twelve scenarios: the first without delays, and on lines 1 and 2 the last two with a delay for every train, its number
    modulo 3 and modulo 10. *)
Theorem C79_scenarios : forall case trains,
  List.length (disturbances case (map PInt trains)) = 12%nat /\
  nth_error (disturbances case (map PInt trains)) 0 = Some [] /\
  (case <> 3%Z -> exists l l', nth_error (disturbances case (map PInt trains)) 10 = Some l /\
     nth_error (disturbances case (map PInt trains)) 11 = Some l' /\
     (forall i q, In (i, q) l <-> In i trains /\ q = inject_Z (i mod 3)) /\
     (forall i q, In (i, q) l' <-> In i trains /\ q = inject_Z (i mod 10))).
Proof.
  intros case trains.
  assert (R : forall m i q, In (i, q) (remainders m (map PInt trains)) <-> In i trains /\ q = inject_Z (i mod m)).
  { intros m i q. unfold remainders. rewrite in_flat_map. split.
    - intros (j & I & J). apply in_map_iff in I as (z & <- & I). destruct J as [E|[]]. inversion E; subst. auto.
    - intros [I ->]. exists (PInt i). split; [apply in_map; exact I|]. left. reflexivity. }
  unfold disturbances. destruct (Z.eqb_spec case 3) as [->|N]; cbn [negb].
  - split; [reflexivity|]. split; [reflexivity|]. intros N. exfalso. apply N. reflexivity.
  - split; [reflexivity|]. split; [reflexivity|]. intros _. exists (remainders 3 (map PInt trains)), (remainders 10 (map PInt trains)).
    split; [reflexivity|]. split; [reflexivity|]. split; apply R.
Qed.
Print Assumptions C79_scenarios.

(** ** C80: the comparison of quantum and exact runs *)

(** In the plot of fast_plot.py no feasible quantum run of a scenario lies below the exact run. *)
Theorem C80_above_partial : forall td st net case cat o m solver lps qs,
  tidy td st -> real_samplers o -> exact_solver solver ->
  glc_runs td st net case cat (WithLp solver) = Ok lps -> glc_runs td st net case cat (WithQuantum o m) = Ok qs ->
  forall k l r, nth_error lps k = Some l -> nth_error qs k = Some r -> run_feasible r = Some true ->
  exists z y, drawn_lp l z /\ drawn_quantum 40 r y /\ z <= y.
Proof.
  intros td st net case cat o m solver lps qs T RS EX HL HQ k l r Nl Nr F.
  destruct (all_scenarios _ _ _ _ _ _ _ T HL) as (skip & ts & Hs & Hts & FL).
  destruct (all_scenarios _ _ _ _ _ _ _ T HQ) as (skip' & ts' & Hs' & Hts' & FQ).
  assert (skip' = skip) by congruence. subst skip'. assert (ts' = ts) by congruence. subst ts'.
  clear HL HQ. revert k qs Nl Nr FQ. induction FL as [|dist a l1 l2 H FL IH]; intros k qs Nl Nr FQ; [destruct k; discriminate Nl|].
  inversion FQ as [|? b ? l3 H' FQ' E1 E2]; subst. destruct k as [|k]; [|eapply IH; eauto].
  cbn in Nl, Nr. injection Nl as <-. injection Nr as <-.
  destruct (scenario_parts td st net "14:00" 40 cat _ dist skip ts a Hs Hts H) as (tt & p & TP & _ & _ & x & S & O1 & _).
  destruct (scenario_parts td st net "14:00" 40 cat _ dist skip ts b Hs Hts H') as (tt' & p' & TP' & _ & _ & e & S' & R1 & R2 & R3 & R4).
  rewrite TP in TP'. inversion TP'; subst tt' p'.
  destruct (record_right td st net "14:00" dist 40 cat ts tt p o m (script_pdict (5 # 2)) e b T ltac:(lra) TP RS S' R1 R2 R3 R4)
    as (d & q & fl & n & _ & Q1 & Q2 & _ & _ & Q3 & _ & _ & Q4).
  assert (fl = true) by congruence. subst fl. apply proj1 in Q4. specialize (Q4 eq_refl).
  destruct (EX p x S) as [_ OPT]. specialize (OPT _ Q4).
  exists (obj_value p x * 40), (q * 40). split; [eexists; split; [exact O1|reflexivity]|]. split; [eexists; split; [exact Q1|reflexivity]|].
  rewrite Q3. lra.
Qed.
Print Assumptions C80_above_partial.

(** ** A case: each train of line 3 has blocks of its own *)

Definition own_trains : list Z := [1; 2; 3; 4; 5; 9; 10; 101; 102; 103; 4602; 4604; 4606; 6401; 6403]%Z.
Definition own (b : string) (i : Z) : string := (b ++ str_of_Z i)%string.
Definition own_tb (i : Z) : DataTables.table :=
  [trow (own "a" i) (Some "A") 1 (Some "14:05") None; trow (own "x" i) None 5 None None; trow (own "b" i) (Some "B") 1 None None;
   trow (own "y" i) None 5 None None; trow (own "c" i) (Some "C") 0 None None].
Definition own_td : train_dict := map (fun i => (i, (["KS - Os"], own_tb i))) own_trains.
Definition own_st : station_blocks :=
  [("A", map (own "a") own_trains); ("B", map (own "b") own_trains); ("C", map (own "c") own_trains)].
Definition own_net : list netrow :=
  flat_map (fun i => [free (own "a" i) (own "x" i); free (own "x" i) (own "b" i); free (own "b" i) (own "y" i); free (own "y" i) (own "c" i)]) own_trains.

(** A sampler that gives 0 to every variable where it may *)
Definition zero_samplers : samplers :=
  MkSamplers (fun _ _ => [])
    (fun c => if forallb (fun v => match snd v with CBinary => true | CInteger ub => Qle_bool 0 ub end) (q_vars c)
              then [(map (fun v => (fst v, 0)) (q_vars c), 0)] else []).

Lemma zero_samplers_real : real_samplers zero_samplers.
Proof.
  split; [intros ? ? ? ? []|]. intros c d e I. cbn in I.
  destruct (forallb _ (q_vars c)) eqn:A; [|destruct I]. destruct I as [E|[]]. injection E as <- <-. split.
  - intros n N. unfold dkeys in *. rewrite map_map. exact N.
  - intros n t I. rewrite forallb_forall in A. specialize (A _ I). cbn [snd] in A.
    assert (Z0 : match dget n (map (fun v : string * cqm_type => (fst v, 0)) (q_vars c)) with Some q => q | None => 0 end = 0).
    { destruct (dget n _) as [q|] eqn:D; [|reflexivity]. apply dget_in in D. apply in_map_iff in D as (v & E & _). inversion E. reflexivity. }
    rewrite Z0. destruct t as [|ub]; [left; reflexivity|]. cbn. split; [exists 0%Z; reflexivity|]. apply Qle_bool_iff in A. lra.
Qed.

(** A solver that answers if the assignment of 0 to all variables is the optimum *)
Definition zero_solver (p : lpproblem) : option assignment :=
  if feasibleb p (fun _ => 0) &&
     forallb (fun vq => existsb (fun v => eqb (v_id v) (v_id (fst vq)) && match v_lo v with Some lo => Qle_bool 0 lo | None => false end) (variables p) &&
                        Qle_bool 0 (snd vq)) (a_terms (p_objective p))
  then Some (fun _ => 0) else None.

Lemma zero_solver_exact : exact_solver zero_solver.
Proof.
  intros p x H. unfold zero_solver in H. destruct (feasibleb p (fun _ => 0)) eqn:F; [|discriminate H]. cbn [andb] in H.
  destruct (forallb _ (a_terms (p_objective p))) eqn:A; [|discriminate H]. injection H as <-. apply feasibleb_ok in F. split; [exact F|].
  intros x' [_ B]. unfold obj_value, eval, eval_terms. rewrite forallb_forall in A.
  assert (X : qsum (map (fun vq => snd vq * 0) (a_terms (p_objective p))) <= qsum (map (fun vq => snd vq * x' (v_id (fst vq))) (a_terms (p_objective p)))).
  { revert A. induction (a_terms (p_objective p)) as [|vq l IH]; intros A; [apply Qle_refl|]. specialize (IH (fun y I => A y (or_intror I))).
    unfold qsum in *. cbn [map fold_right]. specialize (A vq (or_introl eq_refl)). apply andb_true_iff in A as [A1 A2]. apply existsb_exists in A1 as (v & I & V).
    apply andb_true_iff in V as [V1 V2]. apply eqb_eq in V1. rewrite <- V1. destruct (B v I) as (LO & _). destruct (v_lo v) as [lo|]; [|discriminate V2].
    specialize (LO lo eq_refl). apply Qle_bool_iff in V2, A2. assert (0 <= snd vq * x' (v_id v)) by (apply Qmult_le_0_compat; lra). lra. }
  lra.
Qed.

Example C79_case : tidy own_td own_st /\ real_samplers zero_samplers /\
  exists results, glc_runs own_td own_st own_net 3 Integer (WithQuantum zero_samplers Cqm) = Ok results /\
  map run_feasible results = repeat (Some true) 12 /\ map run_broken results = repeat (Some 0%Z) 12 /\
  map run_constraints results = repeat 15%nat 12.
Proof.
  split; [apply tidyb_ok; vm_compute; reflexivity|]. split; [exact zero_samplers_real|].
  exists (ok_or (glc_runs own_td own_st own_net 3 Integer (WithQuantum zero_samplers Cqm)) []).
  split; [apply ok_or_ok; vm_compute; reflexivity|]. vm_compute. auto.
Qed.

Example C80_case : tidy own_td own_st /\ real_samplers zero_samplers /\ exact_solver zero_solver /\
  exists lps qs, glc_runs own_td own_st own_net 3 Integer (WithLp zero_solver) = Ok lps /\
  glc_runs own_td own_st own_net 3 Integer (WithQuantum zero_samplers Cqm) = Ok qs /\
  List.length lps = 12%nat /\ map run_feasible qs = repeat (Some true) 12.
Proof.
  split; [apply tidyb_ok; vm_compute; reflexivity|]. split; [exact zero_samplers_real|]. split; [exact zero_solver_exact|].
  exists (ok_or (glc_runs own_td own_st own_net 3 Integer (WithLp zero_solver)) []),
    (ok_or (glc_runs own_td own_st own_net 3 Integer (WithQuantum zero_samplers Cqm)) []).
  split; [apply ok_or_ok; vm_compute; reflexivity|]. split; [apply ok_or_ok; vm_compute; reflexivity|]. vm_compute. auto.
Qed.

(** ** The flag of a PuLP run *)

(** Trains 1 and 2 leave at 14:05 against each other on a line of 50 minutes: no delay up to 40 minutes helps. *)
Definition stuck_rows (i : Z) : DataTables.table :=
  if (i =? 1)%Z then
    [trow "a1" (Some "A") 1 (Some "14:05") None; trow "x" None 50 None None; trow "b1" (Some "B") 1 None None;
     trow "y1" None 5 None None; trow "c1" (Some "C") 0 None None]
  else if (i =? 2)%Z then
    [trow "b2" (Some "B") 1 (Some "14:05") None; trow "x" None 50 None None; trow "a2" (Some "A") 1 None None;
     trow "w" None 5 None None; trow "d2" (Some "D") 0 None None]
  else own_tb i.
Definition stuck_td : train_dict := map (fun i => (i, (["KS - Os"], stuck_rows i))) own_trains.
Definition stuck_st : station_blocks := own_st ++ [("D", ["d2"])].
Definition stuck_net : list netrow :=
  [free "a1" "x"; free "x" "b1"; free "b2" "x"; free "x" "a2"; free "a2" "w"; free "w" "d2"] ++ own_net.
Definition stuck_built : train_sets * timetable * lpproblem :=
  ok_or (tables_to_problem stuck_td stuck_st stuck_net "14:00" [] 40 Integer) no_input.
Definition any_solver (p : lpproblem) : option assignment := Some (fun _ => 0).

Lemma built_is {A B C} (r : res (A * B * C)) d : is_ok r = true -> r = Ok (fst (fst (ok_or r d)), snd (fst (ok_or r d)), snd (ok_or r d)).
Proof. destruct r as [[[a b] c]|]; [reflexivity|discriminate]. Qed.

Lemma stuck_ok : tables_to_problem stuck_td stuck_st stuck_net "14:00" [] 40 Integer =
  Ok (fst (fst stuck_built), snd (fst stuck_built), snd stuck_built).
Proof. unfold stuck_built. apply (built_is (tables_to_problem stuck_td stuck_st stuck_net "14:00" [] 40 Integer) no_input). vm_compute. reflexivity. Qed.

Lemma stuck_tidy : tidy stuck_td stuck_st.
Proof. apply tidyb_ok. vm_compute. reflexivity. Qed.

Lemma stuck_bounds ts tt p x j s a : tables_to_problem stuck_td stuck_st stuck_net "14:00" [] 40 Integer = Ok (ts, tt, p) ->
  feasible p x -> earliest_dep_time (ts_Paths ts) tt (train j) (station s) = Ok 5 ->
  Spec.departs ts tt p x (train j) (station s) a -> 5 <= a <= 45.
Proof.
  intros H F E D. destruct (parts _ _ _ _ _ _ _ _ _ _ H) as (Cr & _).
  pose proof (reserved_ok _ _ _ _ _ _ _ _ _ _ stuck_tidy H) as RF. pose proof (none_ok _ _ _ _ _ _ _ _ _ _ stuck_tidy H) as NF.
  destruct (C07_departure_bounds _ _ 40 _ _ x RF NF ltac:(lra) Cr F _ _ _ D) as (_ & _ & B).
  apply (earliest_dep_time_sound) in E; [|exact RF|exact NF]. apply B in E. clear - E. lra.
Qed.

Lemma stuck_none ts tt p x : tables_to_problem stuck_td stuck_st stuck_net "14:00" [] 40 Integer = Ok (ts, tt, p) ->
  earliest_dep_time (ts_Paths ts) tt (train 1) (station "A") = Ok 5 ->
  earliest_dep_time (ts_Paths ts) tt (train 2) (station "B") = Ok 5 -> ~ feasible p x.
Proof.
  intros H E1 E2 F.
  assert (N : forall i s s', (i = 1 /\ s = "B" /\ s' = "C" \/ i = 2 /\ s = "A" /\ s' = "D")%Z -> ~ ends_at (stuck_rows i) s).
  { intros i s s' C (u & r & E & R). assert (Er : r = last (stuck_rows i) r) by (rewrite E, last_last; reflexivity).
    destruct C as [(-> & -> & ->)|(-> & -> & ->)]; cbn in Er; rewrite Er in R; discriminate R. }
  destruct (C58_opposing_partial stuck_td stuck_st stuck_net "14:00" [] 40 Integer ts tt p x stuck_tidy ltac:(lra) H F 1 2
    (stuck_rows 1) (stuck_rows 2) "A" "B" [trow "x" None 50 None None] [trow "x" None 50 None None]) as (a & b & Da & Db & S).
  - split; [intros Q; discriminate Q|]. intros y [[Q1 Q2]|[Q1 Q2]]; clear - Q1 Q2; lia.
  - exists ["KS - Os"]. reflexivity.
  - exists ["KS - Os"]. reflexivity.
  - direct (@nil row) (tl (tl (tl (stuck_rows 1)))).
  - direct (@nil row) (tl (tl (tl (stuck_rows 2)))).
  - intros Q. discriminate Q.
  - reflexivity.
  - intros ? [<-|[]]. exists 50%nat. reflexivity.
  - intros ? [<-|[]]. exists 50%nat. reflexivity.
  - apply (N 1%Z "B" "C"). left. auto.
  - apply (N 2%Z "A" "D"). right. auto.
  - apply (stuck_bounds _ _ _ _ _ _ _ H F E1) in Da. apply (stuck_bounds _ _ _ _ _ _ _ H F E2) in Db. clear - Da Db S.
    cbn in S. destruct S; lra.
Qed.

(** A run with a PuLP solver is recorded as feasible whatever the solver found, here for a problem without any
    solution. *)
Theorem C80_flag_refuted : exists td st net solver results, tidy td st /\
  glc_runs td st net 3 Integer (WithLp solver) = Ok results /\
  exists r ts tt p, nth_error results 0 = Some r /\ run_feasible r = Some true /\
    tables_to_problem td st net "14:00" [] 40 Integer = Ok (ts, tt, p) /\ forall x, ~ feasible p x.
Proof.
  exists stuck_td, stuck_st, stuck_net, any_solver, (ok_or (glc_runs stuck_td stuck_st stuck_net 3 Integer (WithLp any_solver)) []).
  split; [exact stuck_tidy|]. split; [apply ok_or_ok; vm_compute; reflexivity|].
  assert (R : exists r, nth_error (ok_or (glc_runs stuck_td stuck_st stuck_net 3 Integer (WithLp any_solver)) []) 0 = Some r /\ run_feasible r = Some true).
  { eexists. split; [vm_compute; reflexivity|reflexivity]. }
  destruct R as (r & R1 & R2). exists r, (fst (fst stuck_built)), (snd (fst stuck_built)), (snd stuck_built).
  split; [exact R1|]. split; [exact R2|]. split; [exact stuck_ok|]. clear R1 R2. intros x.
  apply (stuck_none _ _ _ x stuck_ok); vm_compute; reflexivity.
Qed.
Print Assumptions C80_flag_refuted.
