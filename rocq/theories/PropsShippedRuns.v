(** * PropsShippedRuns: the way of trains and the loop over scenarios with the tables of the repository (C77, C78, C79) *)

From Coq Require Import List String ZArith QArith Bool Lia Lqa.
From Verif Require Import Base BaseFacts Pulp Helpers LinearSolver Results DataTables DataSets DataTimes Pipeline Runs
  Spec SpecTables SpecSets SpecDurations SpecEnd SpecWay EndFacts PropsEnd PropsWay PropsRuns RealData PropsReal PropsTotal.
Import ListNotations.
Open Scope string_scope.
Open Scope list_scope.

(** C77 and C78 for all tables that the scripts load: every solution gives each train the times of its blocks up to
    the rounding, no train leaves before its timetable, and none is later than a plan it could keep alone, plus its delay,
    plus [d_max], up to the rounding. *)
Theorem C77_shipped : forall data st t1 n1 td, In (data, st, t1) shipped -> clock t1 n1 -> build_timetables data st network = Ok td ->
  forall delays d_max cat ts tt p x, 0 <= d_max ->
  tables_to_problem td st network t1 delays d_max cat = Ok (ts, tt, p) -> feasible p x ->
  forall t tb, runs td t tb ->
  (forall pre r1 mid r2 post s s2,
     tb = pre ++ r1 :: mid ++ r2 :: post -> r_station r1 = Some s -> r_station r2 = Some s2 -> post <> [] ->
     exists a b, Spec.departs ts tt p x (train t) (station s) a /\ Spec.departs ts tt p x (train t) (station s2) b /\
       a + SpecDurations.running (mid ++ [r2]) <= b + inject_Z (Z.of_nat (1 + stations_on mid))) /\
  (forall s dep n a, SpecDurations.departs tb s dep -> clock dep n ->
     Spec.departs ts tt p x (train t) (station s) a -> inject_Z (n - n1) <= a) /\
  (forall d plan pre r post s a, delay_reached t delays d -> 0 <= d -> could_keep tb n1 plan ->
     tb = pre ++ r :: post -> r_station r = Some s -> post <> [] -> Spec.departs ts tt p x (train t) (station s) a ->
     a <= plan s + d + d_max + inject_Z (Z.of_nat (stations_on pre))).
Proof.
  intros data st t1 n1 td I CL E delays d_max cat ts tt p x D0 H F t tb R.
  destruct (shipped_facts data st t1 I) as (td' & E' & T & C & _). assert (td' = td) by congruence. subst td'.
  split; [|split].
  - intros pre r1 mid r2 post s s2 Etb R1 R2 N.
    destruct (C77_way td st network t1 delays d_max cat ts tt p x T (cp_pairs _ _ _ _ C) H F t tb pre r1 mid r2 post s s2 R Etb R1 R2 N)
      as (a & b & A & B & L & _). exists a, b. auto.
  - intros s dep n a D Cd A.
    exact (C77_timetable td st network t1 n1 delays d_max cat ts tt p x T D0 CL (cp_times _ _ _ _ C) H F t tb s dep n a R D Cd A).
  - intros d plan pre r post s a DR Dp K Etb Er N A.
    destruct (cp_start _ _ _ _ C) as (n1' & CL' & AP). rewrite (PropsSchedule.clock_fun _ _ _ CL' CL) in AP.
    exact (proj1 (C78_latest td st network t1 n1 delays d_max cat ts tt p x T D0 CL (cp_times _ _ _ _ C) AP H F t tb d plan pre r post s a
      R DR Dp K Etb Er N A)).
Qed.
Print Assumptions C77_shipped.

(** The input of solve_KO_GLC_problems.py:71-84 *)
Definition glc_cases : list (Z * list line * station_blocks) :=
  [(1%Z, schedule_glc, stations_glc); (2%Z, schedule_glc_r, stations_glc_r); (3%Z, schedule_glc_v2, stations_glc_r)].

Definition named_run (case : Z) (td : train_dict) : bool :=
  forallb (forallb (fun iq => lmem (fst iq) (dkeys td))) (disturbances case (map PInt (dkeys td))).

Lemma glc_named : forallb (fun c => let '(case, data, st) := c in if_read (build_timetables data st network) (named_run case)) glc_cases = true.
Proof. vm_cast_no_check (eq_refl true). Qed.

Lemma sizes_done td st net case cat : tidy td st -> named_run case td = true ->
  (forall dist, exists ts tt p, tables_to_problem td st net "14:00" dist 40 cat = Ok (ts, tt, p)) ->
  exists results, glc_runs td st net case cat OnlySizes = Ok results.
Proof.
  intros T N B. unfold glc_runs. destruct (B []) as (ts0 & tt0 & p0 & H0). unfold tables_to_problem in H0.
  destruct (get_skip_stations td) as [skip|] eqn:Es; [|discriminate H0]. cbn [bind] in *.
  destruct (make_train_set td st net skip) as [ts|] eqn:Et; [|discriminate H0]. cbn [bind] in *. clear H0 ts0 tt0 p0.
  assert (EJ : ts_J ts = map PInt (dkeys td)).
  { unfold make_train_set in Et. inv_bind Et. inv_bind Et. inv_bind Et. inv_bind Et. inv_bind Et. inversion Et; subst. reflexivity. }
  rewrite EJ. unfold named_run in N. rewrite forallb_forall in N. apply TimeFacts.mapM_total. intros dist I. apply N in I.
  unfold glc_scenario. destruct (B dist) as (ts1 & tt1 & p1 & H1). unfold tables_to_problem in H1. rewrite Es in H1. cbn [bind] in H1.
  rewrite Et in H1. cbn [bind] in H1. destruct (make_timetable td st skip "14:00" None) as [tt|] eqn:Em; [|discriminate H1]. cbn [bind] in *. cbv zeta in H1.
  assert (D : forall t, foldM (fun t iq => if lmem (PInt (fst iq)) (ts_J ts) then Ok (with_delays [iq] t) else Err AssertionError) dist t = Ok (with_delays dist t)).
  { rewrite EJ. clear - I. induction dist as [|[i q] dist IH]; intros t; [destruct t; reflexivity|]. cbn [forallb fst] in I. apply andb_true_iff in I as [I1 I2].
    cbn [foldM fst]. assert (M : lmem (PInt i) (map PInt (dkeys td)) = true) by (apply lmem_true, in_map, lmem_true; exact I1).
    rewrite M. cbn [bind]. rewrite (IH I2). reflexivity. }
  rewrite D. cbn [bind]. destruct (create_linear_problem ts (with_delays dist tt) 40 cat) as [p|]; [|discriminate H1]. cbn [bind].
  destruct (count_vars p) as [[a b] c]. eauto.
Qed.

(** With the tables of the repository no scenario of solve_KO_GLC_problems.py names a train that does not run, and all
    36 problems are built. *)
Theorem C79_shipped : forall case data st, In (case, data, st) glc_cases ->
  exists td, build_timetables data st network = Ok td /\ tidy td st /\
  forall cat, exists results, glc_runs td st network case cat OnlySizes = Ok results /\ List.length results = 12%nat.
Proof.
  intros case data st I. pose proof glc_named as N. rewrite forallb_forall in N. apply N in I as N'. cbn beta iota in N'.
  apply if_read_ok in N' as (td & E & N'). exists td. split; [exact E|].
  assert (S : In (data, st, "14:00") shipped).
  { unfold shipped. unfold glc_cases in I. destruct I as [I|[I|[I|[]]]]; inversion I; subst; do 4 right; [left|right; left|right; right; left]; reflexivity. }
  destruct (C69_shipped data st "14:00" S) as (td' & E' & T & _ & _ & _ & B). assert (td' = td) by congruence. subst td'.
  split; [exact T|]. intros cat. destruct (sizes_done td st network case cat T N') as (results & H).
  { intros dist. apply B. intros Q. discriminate Q. }
  exists results. split; [exact H|]. destruct (all_scenarios _ _ _ _ _ _ _ T H) as (skip & ts & _ & _ & F).
  rewrite <- (proj1 (C79_scenarios case (dkeys td))). clear - F. induction F; cbn [List.length]; congruence.
Qed.
Print Assumptions C79_shipped.
