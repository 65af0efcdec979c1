(** * PropsDiagramFiles: which schedule the scripts for diagrams show (C92) *)

From Coq Require Import List String Ascii ZArith QArith Bool Lia Permutation.
From Verif Require Import Base BaseFacts Pulp Helpers LinearSolver Converters Results DataTables DataSets DataTimes Pipeline Runs Script
  Spec SpecTimes SpecBuild SpecTables SpecSets SpecDurations SpecEnd SpecQubo SpecNames SpecResults SpecScript
  HelperFacts CqmFacts DelayVars Rules Interp Created QuboModel SpecFacts Names TableFacts SetFacts TimeFacts QuboFacts ResultFacts Builds EndFacts PropsVars PropsBuild PropsTimes PropsSets PropsHeadway
  PropsSchedule PropsPrep PropsPrint PropsResults PropsEnd PropsTotal PropsRuns PropsCqm PropsReal PropsRecorded RealData
  FastSwitch PropsQubo PropsTurns PropsReached PropsScript Diagrams DiagramFiles.
Import ListNotations.
Open Scope string_scope.
Open Scope list_scope.

(** The name contains the letters cqm. *)
Definition has_cqm (name : string) : Prop := exists u v, name = (u ++ "cqm" ++ v)%string.

Lemma starts_iff w s : begins_with w s = true <-> exists v, s = (w ++ v)%string.
Proof.
  revert s. induction w as [|c w IH]; intros s; cbn [begins_with].
  - split; [intros _; exists s; reflexivity|reflexivity].
  - destruct s as [|d s]; [split; [discriminate|intros (v & E); discriminate E]|].
    rewrite andb_true_iff, IH, Ascii.eqb_eq. split.
    + intros (<- & v & ->). exists v. reflexivity.
    + intros (v & E). cbn in E. inversion E. eauto.
Qed.

Lemma contains_iff s : contains "cqm" s = true <-> has_cqm s.
Proof.
  unfold has_cqm. induction s as [|d s IH].
  - cbn. split; [discriminate|]. intros (u & v & E). destruct u; discriminate E.
  - cbn [contains]. rewrite orb_true_iff, IH, starts_iff. split.
    + intros [(v & E)|(u & v & E)]; [exists "", v; exact E|exists (String d u), v; rewrite E; reflexivity].
    + intros (u & v & E). destruct u as [|c u]; [left; exists v; exact E|right]. inversion E. exists u, v. reflexivity.
Qed.

Lemma contains_not s : ~ has_cqm s -> contains "cqm" s = false.
Proof. intros N. destruct (contains "cqm" s) eqn:E; [apply contains_iff in E; contradiction|reflexivity]. Qed.

(** ** Files of runs with the solver for constrained models *)

(** C92. After a run with the solver for constrained models and a later one with [--show_timetable], the diagram of
    realisation [i] is the diagram of the plan of the [i]-th stored answer; the listing of run [i] is made of it. *)
Theorem C92_realisation_partial : forall o a f f1 n f2 td st ts tab p,
  a_show a = false -> a_solve_quantum a = "cqm" -> (forall i, real_samplers (o_samplers o i)) ->
  script o a f = (f1, Ok tt) -> (0 <= n <= a_runs a)%Z -> dget (samples_file o a) f2 = dget (samples_file o a) f1 ->
  made_by o a td st ts tab p -> tidy td st -> complete td st (o_network o) "16:00" -> no_part_lines td ->
  exists f3, script o (to_show a n) f2 = (f3, Ok tt) /\
    forall i, (1 <= i <= n)%Z ->
      exists samples e c sched, dget (samples_file o a) f1 = Some (Samples samples) /\ dget i samples = Some e /\
        dget (diagrams_file o a) f3 = Some c /\ shows_plan ts tab p (values (e_sample e)) 960 sched /\
        (forall seg fixed, echo_gnuplot_file (diagrams_file o a) i seg fixed c = echo_gnuplot sched seg fixed) /\
        listed (diagrams_file o a) i c = Ok sched.
Proof.
  intros o a f f1 n f2 td st ts tab p NS Q RS H Hn F2 MB T C NP.
  assert (M : In (a_solve_quantum a) methods) by (rewrite Q; cbn; auto).
  destruct (C85_shown o a f f1 n f2 td st ts tab p NS M RS H Hn F2 MB T C NP) as (f3 & S & _ & K).
  exists f3. split; [exact S|]. intros i Hi. destruct (K i Hi) as (samples & e & shown & sched & G1 & G2 & G3 & G4 & G5 & _).
  exists samples, e, (Schedules shown), sched. split; [exact G1|]. split; [exact G2|]. split; [exact G3|]. split; [exact G5|].
  assert (N : contains "cqm" (diagrams_file o a) = true).
  { apply contains_iff. exists "solutions_quantum/data4diagrams/". unfold diagrams_file, quantum_file. rewrite Q.
    change (eqb "cqm" "cqm") with true. cbn iota. eexists. reflexivity. }
  split.
  - intros seg fixed. unfold echo_gnuplot_file, chosen. rewrite N, G4. reflexivity.
  - unfold listed. rewrite N. apply dlookup_ok. exact G4.
Qed.
Print Assumptions C92_realisation_partial.

(** A realisation that is not in the file is drawn as the first one (the listing fails instead). *)
Theorem C92_missing_refuted : forall infile l r seg fixed, has_cqm infile -> dget r l = None ->
  echo_gnuplot_file infile r seg fixed (Schedules l) = echo_gnuplot_file infile 1 seg fixed (Schedules l) /\
  read_quantum_pickle infile r (Schedules l) = Err KeyError.
Proof.
  intros infile l r seg fixed N G. apply contains_iff in N. unfold echo_gnuplot_file, chosen, read_quantum_pickle, listed.
  rewrite N, G. split.
  - unfold dlookup. destruct (dget 1%Z l); reflexivity.
  - unfold dlookup. rewrite G. reflexivity.
Qed.
Print Assumptions C92_missing_refuted.

(** ** Files of exact solvers *)

(** C92. What an exact solver leaves is drawn, whatever realisation is asked for. *)
Theorem C92_exact : forall o a f sv x td st ts tab p,
  In (a_case a) [0; 1; 2; 3; 4; 5; 6; 7; 8; 9]%Z -> a_show a = true -> a_solve_lp a <> "" -> a_solve_quantum a = "" ->
  made_by o a td st ts tab p -> tidy td st -> complete td st (o_network o) "16:00" -> no_part_lines td ->
  o_solver o (a_solve_lp a) = Some sv -> sv p = Some x -> feasible p x -> ~ has_cqm (lp_file a) ->
  exists f1 c sched, script o a f = (f1, Ok tt) /\ dget (lp_file a) f1 = Some c /\ shows_plan ts tab p x 960 sched /\
    forall r, (forall seg fixed, echo_gnuplot_file (lp_file a) r seg fixed c = echo_gnuplot sched seg fixed) /\
      listed (lp_file a) r c = Ok sched.
Proof.
  intros o a f sv x td st ts tab p IC SH NL NQ MB T C NP HS HX FE NC.
  destruct (C85_lp_shown o a f sv x td st ts tab p IC SH NL NQ MB T C NP HS HX FE) as (f1 & sched & S & G & SP & _).
  exists f1, (OneSchedule sched), sched. split; [exact S|]. split; [exact G|]. split; [exact SP|].
  intros r. apply contains_not in NC. split; [intros seg fixed|]; [unfold echo_gnuplot_file, chosen|unfold listed]; rewrite NC; reflexivity.
Qed.
Print Assumptions C92_exact.

(** ** Files of the other samplers *)

Lemma insert_in x l y : In y (insert_stop x l) <-> y = x \/ In y l.
Proof.
  induction l as [|z l IH]; cbn [insert_stop]; [cbn; intuition auto|].
  destruct (later (snd z) (snd x)); cbn [In]; [intuition auto|]. rewrite IH. intuition auto.
Qed.

Lemma sorted_in l y : In y (sorted_stops l) <-> In y l.
Proof.
  unfold sorted_stops. assert (G : forall acc, In y (fold_left (fun acc x => insert_stop x acc) l acc) <-> In y l \/ In y acc).
  { induction l as [|x l IH]; intros acc; cbn [fold_left]; [cbn; tauto|]. rewrite IH, insert_in. cbn [In]. intuition auto. }
  rewrite G. cbn [In]. tauto.
Qed.

Lemma foldM_stuck {A B} (f : B -> A -> res B) l x : In x l -> (forall acc, exists e, f acc x = Err e) ->
  forall acc, exists e, foldM f l acc = Err e.
Proof.
  intros I H acc. destruct (foldM f l acc) as [r|e] eqn:E; [|eauto].
  destruct (foldM_each f l acc r x E I) as (b & b' & F). destruct (H b) as (e & F'). congruence.
Qed.

Lemma number_route j d c z s tp : In (PInt z, s) d -> kdtrain2trainpath j d c = Ok tp -> In (PInt z) (tp_route tp).
Proof.
  intros I K. unfold kdtrain2trainpath in K. destruct (mapM _ _) as [path|e]; cbn [bind] in K; [|discriminate K].
  inversion K. cbn [tp_route]. apply in_map_iff. exists (PInt z, arrival_for_sort s). split; [reflexivity|].
  apply sorted_in, in_map_iff. exists (PInt z, s). auto.
Qed.

Lemma number_stuck tp seg ex z : In (PInt z) (tp_route tp) -> exists e, train_on_segment tp seg ex = Err e.
Proof.
  intros I. unfold train_on_segment. apply (foldM_stuck _ _ _ I). intros acc. unfold station_on_segment.
  destruct (dlookup seg RAILWAYSEGMENTS); cbn [bind]; eauto.
Qed.

Lemma runs_stuck infile l i s z stops r seg fixed : ~ has_cqm infile -> In (i, s) l -> In (PInt z, stops) s ->
  exists e, echo_gnuplot_file infile r seg fixed (Schedules l) = Err e.
Proof.
  intros N I J. apply contains_not in N. unfold echo_gnuplot_file, chosen. rewrite N. cbn [whole_file bind]. unfold echo_gnuplot.
  apply (foldM_stuck _ _ (PInt i, as_train s)); [apply in_map_iff; exists (i, s); auto|].
  intros acc. apply (foldM_stuck _ _ false); [left; reflexivity|]. intros acc'. cbn [fst snd].
  destruct (kdtrain2trainpath (PInt i) (as_train s) false) as [tp|e] eqn:K; cbn [bind]; [|eauto].
  assert (R : In (PInt z) (tp_route tp)).
  { refine (number_route _ _ _ z _ _ _ K). unfold as_train. apply in_map_iff. exists (PInt z, stops). split; [reflexivity|exact J]. }
  destruct (number_stuck tp seg EXCEPTIONS z R) as (e & ->). cbn [bind]. eauto.
Qed.

(** The schedules of the samplers for QUBOs, which [--show_timetable] stores in the same way, cannot be drawn: without cqm
    in the name the file is read as one schedule, and the script ends with an exception for every segment. *)
Theorem C92_qubo_refuted : forall o a f f1 n f2 td st ts tab p,
  a_show a = false -> In (a_solve_quantum a) ["sim"; "real"; "bqm"] -> (forall i, real_samplers (o_samplers o i)) ->
  script o a f = (f1, Ok tt) -> (1 <= n <= a_runs a)%Z -> dget (samples_file o a) f2 = dget (samples_file o a) f1 ->
  made_by o a td st ts tab p -> tidy td st -> complete td st (o_network o) "16:00" -> no_part_lines td ->
  td <> [] -> ~ has_cqm (diagrams_file o a) ->
  exists f3 c, script o (to_show a n) f2 = (f3, Ok tt) /\ dget (diagrams_file o a) f3 = Some c /\
    forall r seg fixed, exists e, echo_gnuplot_file (diagrams_file o a) r seg fixed c = Err e.
Proof.
  intros o a f f1 n f2 td st ts tab p NS Q RS H Hn F2 MB T C NP NE NC.
  assert (M : In (a_solve_quantum a) methods) by (unfold methods; cbn [In] in *; tauto).
  assert (Hn' : (0 <= n <= a_runs a)%Z) by lia.
  destruct (C85_shown o a f f1 n f2 td st ts tab p NS M RS H Hn' F2 MB T C NP) as (f3 & S & _ & K).
  destruct (K 1%Z) as (samples & e & shown & sched & _ & _ & G3 & G4 & G5 & _); [lia|].
  exists f3, (Schedules shown). split; [exact S|]. split; [exact G3|]. intros r seg fixed.
  destruct MB as (data & _ & _ & _ & A4). pose proof (parts _ _ _ _ _ _ _ _ _ _ A4) as [_ Md].
  destruct td as [|(z, (info, x)) td']; [congruence|].
  assert (J : In (PInt z) (ts_J ts)).
  { destruct Md as (_ & _ & EJ & _). rewrite EJ. unfold trains. cbn. left. reflexivity. }
  destruct (dget (PInt z) (ts_Paths ts)) as [path|] eqn:P.
  - destruct (G5 (PInt z) path J P) as (printed & GP & _). apply dget_in in GP. apply dget_in in G4.
    exact (runs_stuck _ _ _ _ _ _ r seg fixed NC G4 GP).
  - exfalso. destruct Md as (_ & EP & _). rewrite EP in P. cbn in P.
    destruct (Z.eq_dec z z); [|congruence]. discriminate P.
Qed.
Print Assumptions C92_qubo_refuted.

(** ** The listing *)

(** C92. The listing has the trains of the chosen schedule in their order, each with the path of the solution (the one
    drawn as "resolved"), twice: once under each status. *)
Theorem C92_listing_partial : forall infile run c sched out, listed infile run c = Ok sched -> read_quantum_pickle infile run c = Ok out ->
  exists tps, Forall2 (fun kd tp => kdtrain2trainpath (fst kd) (snd kd) false = Ok tp) sched tps /\
    out = flat_map (fun tp => [(tp_number tp, "conflcted", tp_path tp); (tp_number tp, "resolved", tp_path tp)]) tps.
Proof.
  intros infile run c sched out L R. unfold read_quantum_pickle in R. rewrite L in R. cbn [bind] in R.
  destruct (mapM _ sched) as [l|e] eqn:E; cbn [bind] in R; [|discriminate R]. injection R as <-. clear L.
  apply mapM_all in E. induction E as [|kd x sched l H E IH]; [exists []; split; [constructor|reflexivity]|].
  destruct IH as (tps & F & EQ). unfold statuses in H. cbn [mapM] in H.
  change (eqb "conflcted" "conflicted") with false in H. change (eqb "resolved" "conflicted") with false in H.
  destruct (kdtrain2trainpath (fst kd) (snd kd) false) as [tp|e] eqn:K; cbn [bind] in H; [|discriminate H].
  injection H as <-. exists (tp :: tps). split; [constructor; assumption|]. cbn [flat_map List.concat]. rewrite EQ. reflexivity.
Qed.
Print Assumptions C92_listing_partial.

(** A train that could leave A at 16:00 and reach B at 16:10, and in the solution leaves at 16:07 *)
Definition late_train : dict pv stop_entry :=
  [(PStr "A", MkStop None None (Some 967%Z) (Some 7%Z) (Some 960%Z) None);
   (PStr "B", MkStop (Some 977%Z) (Some 970%Z) None None None None)].
Definition late_file : content := Schedules [(1%Z, [(PInt 94766, late_train)])].

(** The path without conflicts, which the listing announces first for each train and README.org promises, is never in it: the
    status is misspelt. *)
Theorem C92_conflicted_refuted : exists infile run c sched out j kd free,
  has_cqm infile /\ listed infile run c = Ok sched /\ read_quantum_pickle infile run c = Ok out /\
  In (j, kd) sched /\ kdtrain2trainpath j kd true = Ok free /\
  forall status path, In (tp_number free, status, path) out -> path <> tp_path free.
Proof.
  exists "cqm5_case3_Integer.pkl", 1%Z, late_file. do 2 eexists. exists (PInt 94766), late_train. eexists.
  split; [exists "", "5_case3_Integer.pkl"; reflexivity|]. split; [reflexivity|]. split; [vm_compute; reflexivity|].
  split; [left; reflexivity|]. split; [vm_compute; reflexivity|].
  intros status path [E|[E|[]]]; injection E as <- <-; discriminate.
Qed.
Print Assumptions C92_conflicted_refuted.

(** ** Cases *)

(** Every case of the repository, with a solver for constrained models that answers: what is drawn and listed for the last run *)
Example C92_case : forall case runs, (0 <= case <= 9)%Z -> (1 <= runs)%Z ->
  let a := MkArgs case Integer "" "cqm" 5 runs (3 # 2) false in
  exists f1 f3 td st ts tab p samples e c sched, script zero_outside a [] = (f1, Ok tt) /\
    script zero_outside (to_show a runs) f1 = (f3, Ok tt) /\ made_by zero_outside a td st ts tab p /\
    dget (samples_file zero_outside a) f1 = Some (Samples samples) /\ dget runs samples = Some e /\
    dget (diagrams_file zero_outside a) f3 = Some c /\ shows_plan ts tab p (values (e_sample e)) 960 sched /\
    echo_gnuplot_file (diagrams_file zero_outside a) runs "137138GLYKZ" [] c = echo_gnuplot sched "137138GLYKZ" [].
Proof.
  intros case runs HC HR a. assert (R : repository zero_outside) by (repeat split; reflexivity).
  assert (IC : In (a_case a) [0; 1; 2; 3; 4; 5; 6; 7; 8; 9]%Z) by (cbn [a_case a In]; lia).
  destruct (C85_repository zero_outside a R IC) as (td & st & ts & tab & p & MB & T & C & NP).
  assert (AN : answering zero_outside p).
  { intros i c CC. pose proof MB as (data & _ & _ & _ & A4). pose proof (parts _ _ _ _ _ _ _ _ _ _ A4) as [Cr Md].
    assert (DM : ~ 40 == 0) by (intros X; discriminate X). pose proof (made_well_formed _ _ _ _ _ _ _ T C NP Md 40 DM) as WF.
    apply (zero_answers ts tab 40 p c); [discriminate|exact (wf_reserved _ _ _ WF)|exact Cr|exact CC]. }
  destruct (C85_answers zero_outside a [] td st ts tab p IC eq_refl eq_refl eq_refl eq_refl MB T C NP (fun _ => zero_real) AN) as (f1 & S1).
  destruct (C92_realisation_partial zero_outside a [] f1 runs f1 td st ts tab p eq_refl eq_refl (fun _ => zero_real) S1) as (f3 & S3 & K);
    [cbn [a_runs a]; lia|reflexivity|exact MB|exact T|exact C|exact NP|].
  destruct (K runs) as (samples & e & c & sched & G1 & G2 & G3 & G4 & G5 & _); [lia|].
  exists f1, f3, td, st, ts, tab, p, samples, e, c, sched. repeat (split; [assumption|]). apply G5.
Qed.

(** Samplers that look through all samples, with the repository's tables: every case runs with every QUBO method, and the
    schedules it shows cannot be drawn. *)
Definition exhaustive_outside : outside :=
  MkOutside (o_text zero_outside) (o_table zero_outside) (o_stations zero_outside) network (fun _ => None) (fun _ => exhaustive).

Lemma exhaustive_repository : repository exhaustive_outside.
Proof. repeat split; reflexivity. Qed.

Example C92_qubo_case : forall case runs, (0 <= case <= 9)%Z -> (1 <= runs)%Z ->
  let a := MkArgs case Integer "" "sim" 5 runs (3 # 2) false in
  exists f1 f3 c, script exhaustive_outside a [] = (f1, Ok tt) /\ script exhaustive_outside (to_show a runs) f1 = (f3, Ok tt) /\
    dget (diagrams_file exhaustive_outside a) f3 = Some c /\
    forall r seg fixed, exists e, echo_gnuplot_file (diagrams_file exhaustive_outside a) r seg fixed c = Err e.
Proof.
  intros case runs HC HR a.
  assert (IC : In (a_case a) [0; 1; 2; 3; 4; 5; 6; 7; 8; 9]%Z) by (cbn [a_case a In]; lia).
  destruct (C86_answers exhaustive_outside a Sim [] exhaustive_repository IC eq_refl eq_refl eq_refl (or_introl eq_refl) eq_refl) as (f1 & S1).
  { intros i. exact exhaustive_real. }
  { intros i b. destruct (exhaustive_reaches Sim b) as (s & e & I & _). intros E. cbn [o_samplers exhaustive_outside] in E. rewrite E in I. destruct I. }
  destruct (C85_repository exhaustive_outside a exhaustive_repository IC) as (td & st & ts & tab & p & MB & T & C & NP).
  destruct (C92_qubo_refuted exhaustive_outside a [] f1 runs f1 td st ts tab p) as (f3 & c & S3 & G & K); auto.
  - left. reflexivity.
  - intros i. exact exhaustive_real.
  - cbn [a_runs a]. lia.
  - intros E. destruct (real_cases exhaustive_outside a exhaustive_repository IC) as (data' & st' & B1 & B2 & I).
    destruct MB as (data & A1 & A2 & A3 & _). rewrite A1 in B1. injection B1 as B1. rewrite A2 in B2. injection B2 as B2. rewrite <- B1, <- B2 in I.
    destruct (turn_tables_facts _ _ real_turns_ok _ _ _ _ I A3) as (_ & WB & _). rewrite E in WB. discriminate WB.
  - assert (D : forall s, contains "cqm" s = false -> ~ has_cqm s) by (intros s E N; apply contains_iff in N; congruence).
    apply D. cbn [a_case a In] in IC. destruct IC as [<-|[<-|[<-|[<-|[<-|[<-|[<-|[<-|[<-|[<-|[]]]]]]]]]]]; vm_compute; reflexivity.
  - exists f1, f3, c. auto.
Qed.

(** The names meant by C92_exact and C92_qubo_refuted *)
Example C92_names_case : let a := MkArgs 0 Integer "PULP_CBC_CMD" "" 5 1 (3 # 2) true in
  ~ has_cqm (lp_file a) /\ ~ has_cqm (diagrams_file zero_outside (MkArgs 3 Integer "" "sim" 5 1 (3 # 2) false)).
Proof.
  assert (D : forall s, contains "cqm" s = false -> ~ has_cqm s) by (intros s E N; apply contains_iff in N; congruence).
  split; apply D; vm_compute; reflexivity.
Qed.
