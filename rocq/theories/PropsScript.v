(** * PropsScript: from a run of solve_real_problem.py to the diagrams (C85) *)

From Coq Require Import List String Ascii ZArith QArith Bool Lia Lqa.
From Verif Require Import Base BaseFacts Pulp Helpers LinearSolver Converters Results DataTables DataSets DataTimes Pipeline Runs Script
  Spec SpecTimes SpecBuild SpecTables SpecSets SpecDurations SpecEnd SpecQubo SpecNames SpecResults SpecScript
  HelperFacts CqmFacts DelayVars Rules Interp Created QuboModel SpecFacts Names TableFacts SetFacts TimeFacts QuboFacts ResultFacts Builds EndFacts PropsVars PropsBuild PropsTimes PropsSets PropsHeadway
  PropsSchedule PropsPrep PropsPrint PropsResults PropsEnd PropsTotal PropsRuns PropsCqm PropsReal PropsRecorded RealData.
Import ListNotations.
Open Scope string_scope.
Open Scope list_scope.

(** ** File names *)

Lemma app_head a b c : (a ++ b)%string = (a ++ c)%string -> b = c.
Proof. induction a as [|x a IH]; cbn; [auto|]. intros E. inversion E. auto. Qed.

Lemma case_no_us z : no_underscore ("case" ++ str_of_Z z).
Proof. apply no_us_allc. cbn. apply no_us_allc. apply number_no_us. Qed.

Lemma case_text_inj a b : case_text a = case_text b -> a_case a = a_case b /\ a_category a = a_category b.
Proof.
  unfold case_text. intros E. apply (app_head "_case") in E. apply us_split in E as [E1 E2]; try apply number_no_us.
  apply str_of_Z_inj in E1. split; [exact E1|]. destruct (a_category a), (a_category b); cbn in E2; congruence.
Qed.

Definition methods : list string := ["sim"; "real"; "bqm"; "cqm"].

Lemma methods_ok a : In (a_solve_quantum a) methods <-> exists m, method_of (a_solve_quantum a) = Some m.
Proof.
  unfold methods, method_of. split.
  - intros [<-|[<-|[<-|[<-|[]]]]]; cbn; eauto.
  - intros (m & H). cbn [In]. destruct (eqb (a_solve_quantum a) "sim") eqn:E1; [apply eqb_eq in E1; auto|].
    destruct (eqb (a_solve_quantum a) "real") eqn:E2; [apply eqb_eq in E2; auto|].
    destruct (eqb (a_solve_quantum a) "bqm") eqn:E3; [apply eqb_eq in E3; auto|].
    destruct (eqb (a_solve_quantum a) "cqm") eqn:E4; [apply eqb_eq in E4; auto 6|discriminate].
Qed.

(** C85. Two invocations that use the same file of samples do the same: the same method on the same case in the same
    category, with the same time for hybrid solvers and the same penalty for QUBOs.  The samples never go into a file of
    schedules. *)
Theorem C85_files_apart : forall o a b, written_apart (o_text o) ->
  In (a_solve_quantum a) methods -> In (a_solve_quantum b) methods ->
  (samples_file o a = samples_file o b ->
     a_solve_quantum a = a_solve_quantum b /\ a_case a = a_case b /\ a_category a = a_category b /\
     (In (a_solve_quantum a) ["bqm"; "cqm"] -> a_min_t a = a_min_t b) /\
     (a_solve_quantum a <> "cqm" -> a_penalty a == a_penalty b)) /\
  (diagrams_file o a = diagrams_file o b <-> samples_file o a = samples_file o b) /\
  samples_file o a <> diagrams_file o b /\ samples_file o a <> lp_file b.
Proof.
  intros o a b [NU INJ] Ma Mb. split; [|split; [|split]].
  - unfold samples_file. intros E. apply (app_head "solutions_quantum/") in E. unfold quantum_file, p_text in E.
    destruct Ma as [Ma|[Ma|[Ma|[Ma|[]]]]], Mb as [Mb|[Mb|[Mb|[Mb|[]]]]]; rewrite <- Ma, <- Mb in *; cbn [eqb lmem] in E;
      vm_compute (lmem _ _) in E; vm_compute (eqb _ _) in E; try discriminate E.
    + apply (app_head "sim") in E. apply (app_head "_") in E. unfold case_text in E at 1. unfold case_text in E at 1.
      apply us_split in E as [E1 E2]; [|apply NU|apply NU]. assert (E3 : case_text a = case_text b) by (unfold case_text; cbn; f_equal; exact E2).
      apply case_text_inj in E3 as [E3 E4]. split; [reflexivity|]. split; [exact E3|]. split; [exact E4|]. split; [intros [X|[X|[]]]; discriminate X|auto].
    + apply (app_head "real") in E. apply (app_head "_") in E. unfold case_text in E at 1. unfold case_text in E at 1.
      apply us_split in E as [E1 E2]; [|apply NU|apply NU]. assert (E3 : case_text a = case_text b) by (unfold case_text; cbn; f_equal; exact E2).
      apply case_text_inj in E3 as [E3 E4]. split; [reflexivity|]. split; [exact E3|]. split; [exact E4|]. split; [intros [X|[X|[]]]; discriminate X|auto].
    + apply (app_head "bqm") in E. apply us_split in E as [E0 E]; try apply number_no_us. unfold case_text in E at 1. unfold case_text in E at 1.
      apply us_split in E as [E1 E2]; [|apply NU|apply NU]. assert (E3 : case_text a = case_text b) by (unfold case_text; cbn; f_equal; exact E2).
      apply case_text_inj in E3 as [E3 E4]. split; [reflexivity|]. split; [exact E3|]. split; [exact E4|]. split; [intros _; apply str_of_Z_inj; exact E0|auto].
    + apply (app_head "cqm") in E. unfold case_text in E at 1. unfold case_text in E at 1.
      apply us_split in E as [E1 E2]; try apply number_no_us. assert (E3 : case_text a = case_text b) by (unfold case_text; cbn; f_equal; exact E2).
      apply case_text_inj in E3 as [E3 E4]. split; [reflexivity|]. split; [exact E3|]. split; [exact E4|]. split; [intros _; apply str_of_Z_inj; exact E1|congruence].
  - unfold samples_file, diagrams_file. split; intros E.
    + apply (app_head "solutions_quantum/data4diagrams/") in E. congruence.
    + apply (app_head "solutions_quantum/") in E. congruence.
  - unfold samples_file, diagrams_file, quantum_file. intros E. apply (app_head "solutions_quantum/") in E.
    destruct Ma as [Ma|[Ma|[Ma|[Ma|[]]]]]; rewrite <- Ma in E; cbn in E; discriminate E.
  - unfold samples_file, lp_file, quantum_file. intros E. apply (app_head "solutions_quantum/") in E.
    destruct Ma as [Ma|[Ma|[Ma|[Ma|[]]]]]; rewrite <- Ma in E; cbn in E; discriminate E.
Qed.
Print Assumptions C85_files_apart.

(** An unknown case or method is refused and no file is touched.  'hyb', which the help text of [--solve_quantum] offers
    for the hybrid solver, is such a method. *)
Theorem C85_refused : forall o a f,
  ~ (0 <= a_case a <= 9)%Z \/ (a_solve_quantum a <> "" /\ ~ In (a_solve_quantum a) methods) ->
  exists e, script o a f = (f, Err e).
Proof.
  intros o a f H. unfold script. destruct (lmem (a_case a) _) eqn:M; cbn [negb]; [|eauto]. apply lmem_true in M.
  assert (C : (0 <= a_case a <= 9)%Z) by (cbn [In] in M; lia). destruct H as [H|[N H]]; [contradiction|].
  destruct (prepare o a); [|eauto]. destruct (lmem (a_solve_quantum a) _) eqn:L; cbn [negb]; [|eauto].
  apply lmem_true in L. exfalso. destruct L as [L|L]; [congruence|]. exact (H L).
Qed.
Print Assumptions C85_refused.

Theorem C85_hyb_refuted : forall o a f, a_solve_quantum a = "hyb" -> exists e, script o a f = (f, Err e).
Proof.
  intros o a f E. apply C85_refused. right. rewrite E. split; [discriminate|].
  intros [X|[X|[X|[X|[]]]]]; discriminate X.
Qed.
Print Assumptions C85_hyb_refuted.

(** ** Storing *)

Lemma numbers_in a i : In i (run_numbers a) <-> (1 <= i <= a_runs a)%Z.
Proof.
  unfold run_numbers. rewrite in_map_iff. split.
  - intros (n & <- & I). apply in_seq in I. lia.
  - intros H. exists (Z.to_nat (i - 1)). split; [lia|]. apply in_seq. lia.
Qed.

Lemma numbers_nodup a : NoDup (run_numbers a).
Proof.
  unfold run_numbers. generalize 0%nat. induction (Z.to_nat (a_runs a)) as [|n IH]; intros k; cbn [seq map]; constructor; [|apply IH].
  intros I. apply in_map_iff in I as (x & E & I). apply in_seq in I. lia.
Qed.

Lemma runs_kept (g : Z -> res entry) l : NoDup l -> forall acc samples,
  foldM (fun samples i => do e <- g i; Ok (dset i e samples)) l acc = Ok samples ->
  forall i, (In i l -> exists e, g i = Ok e /\ dget i samples = Some e) /\ (~ In i l -> dget i samples = dget i acc).
Proof.
  induction 1 as [|k l NI ND IH]; intros acc samples E i; cbn [foldM] in E.
  - inversion E. split; [intros []|auto].
  - inv_bind E. inv_bind E0. inversion E0; subst a. specialize (IH _ _ E i). destruct IH as [I1 I2]. split.
    + intros [<-|I]; [|auto]. exists a0. split; [exact E1|]. rewrite (I2 NI), dget_dset. destruct (eq_dec k k); congruence.
    + intros N. rewrite I2 by (intros X; apply N; right; exact X). rewrite dget_dset. destruct (eq_dec i k) as [->|]; [|reflexivity].
      exfalso. apply N. left. reflexivity.
Qed.

(** [p] and the other data of the run, made from the tables *)
Definition made_by (o : outside) (a : args) (td : train_dict) (st : station_blocks) (ts : train_sets) (tab : timetable) (p : lpproblem) : Prop :=
  exists data, o_table o (fst (input_files (a_case a))) = Some data /\ o_stations o (snd (input_files (a_case a))) = Some st /\
    build_timetables data st (o_network o) = Ok td /\
    tables_to_problem td st (o_network o) "16:00" (real_delays (Z.to_nat (a_case a))) 40 (a_category a) = Ok (ts, tab, p).

Lemma prepare_ok o a t ts tab p : prepare o a = Ok (t, ts, tab, p) ->
  exists td st, made_by o a td st ts tab p /\ make_taus td st 0 = Ok t.
Proof.
  unfold prepare, made_by. destruct (o_table o _) as [data|]; [|discriminate]. cbn [bind]. destruct (o_stations o _) as [st|]; [|discriminate].
  cbn [bind]. intros H. inv_bind H. inv_bind H. inv_bind H. destruct a2 as [[ts' tab'] p']. inversion H; subst. exists a0, st. split; [|exact E0].
  exists data. auto.
Qed.

(** Without [--show_timetable] a run with a sampler stores one entry for each run, each the answer for the problem of the case,
    and leaves all other files alone. *)
Theorem C85_stored : forall o a f f1, a_show a = false -> In (a_solve_quantum a) methods -> script o a f = (f1, Ok tt) ->
  exists td st ts tab p samples, made_by o a td st ts tab p /\
    dget (samples_file o a) f1 = Some (Samples samples) /\
    (forall i, In i (dkeys samples) <-> (1 <= i <= a_runs a)%Z) /\
    (forall i, (1 <= i <= a_runs a)%Z -> exists m pdict e, method_of (a_solve_quantum a) = Some m /\
       (m <> Cqm -> pdict = script_pdict (a_penalty a)) /\
       solve_on_quantum (o_samplers o i) p m pdict = Ok e /\ dget i samples = Some e) /\
    (forall g, g <> samples_file o a -> dget g f1 = dget g f).
Proof.
  intros o a f f1 NS M H. unfold script in H. destruct (lmem (a_case a) _); cbn [negb] in H; [|discriminate H].
  destruct (prepare o a) as [[[[t ts] tab] p]|] eqn:P; [|discriminate H]. destruct (lmem (a_solve_quantum a) _); cbn [negb] in H; [|discriminate H].
  assert (L : fst (lp_part o a (t, ts, tab, p) f) = f).
  { unfold lp_part. destruct (eqb (a_solve_lp a) ""); [reflexivity|]. destruct (o_solver o _) as [sv|]; [|reflexivity].
    destruct (sv p); [|reflexivity]. rewrite NS. reflexivity. }
  destruct (lp_part o a (t, ts, tab, p) f) as [f' [[]|]]; [|discriminate H]. cbn [fst] in L. subst f'.
  unfold quantum_part in H. apply methods_ok in M as (m & Hm). rewrite Hm, NS in H.
  destruct (solve_runs o a m p) as [samples|] eqn:S; [|discriminate H]. inversion H; subst f1. clear H.
  destruct (prepare_ok _ _ _ _ _ _ P) as (td & st & MB & _). exists td, st, ts, tab, p, samples. split; [exact MB|].
  split; [rewrite dget_dset; destruct (eq_dec (samples_file o a) (samples_file o a)); congruence|].
  unfold solve_runs in S. set (pdict := match m with Cqm => [] | _ => script_pdict (a_penalty a) end) in S.
  pose proof (runs_kept (fun i => solve_on_quantum (o_samplers o i) p m pdict) (run_numbers a) (numbers_nodup a) [] samples S) as K.
  split; [|split].
  - intros i. rewrite <- numbers_in. destruct (K i) as [K1 K2]. split.
    + intros I. destruct (in_dec Z.eq_dec i (run_numbers a)) as [|N]; [assumption|]. apply K2 in N. cbn in N. apply key_get in I as (e & G). congruence.
    + intros I. destruct (K1 I) as (e & _ & G). apply dget_in in G. apply (in_map fst) in G. exact G.
  - intros i I. apply numbers_in in I. destruct (K i) as [K1 _]. destruct (K1 I) as (e & E & G). exists m, pdict, e.
    split; [exact Hm|]. split; [intros N; unfold pdict; destruct m; congruence|]. split; assumption.
  - intros g N. rewrite dget_dset. destruct (eq_dec g (samples_file o a)); congruence.
Qed.
Print Assumptions C85_stored.

(** ** Showing *)

Lemma delay_decided ts tab d cat p j s : reserved_free ts -> create_linear_problem ts tab d cat = Ok p ->
  In ("Delays", [j; s]) (map v_id (variables p)) -> decided ts j s.
Proof.
  intros RF Cr I. apply in_map_iff in I as (v & E & I). destruct (C13_delay_variables ts d cat RF) as [_ K].
  destruct (K tab p Cr v I) as (j' & s' & D & ->); [unfold v_id in E; congruence|]. unfold v_id in E. cbn in E. inversion E; subst. exact D.
Qed.

(** Printing a problem from well-formed data never fails. *)
Theorem C67_prints_well_formed : forall ts tab d_max cat p x value pass skip t_ref,
  well_formed ts tab d_max -> ~ d_max == 0 -> create_linear_problem ts tab d_max cat = Ok p ->
  (forall v, In v (variables p) -> value v = Some (x (v_id v))) ->
  exists sched, print_optimisation_results p tab ts pass skip d_max t_ref value = Ok sched.
Proof.
  intros ts tab d cat p x value pass skip t_ref WF DM Cr HV. unfold print_optimisation_results.
  pose proof (wf_reserved _ _ _ WF) as RF. pose proof (wf_plain _ _ _ WF) as PN.
  destruct (foldM_total (fun _ : dict pv (dict pv stop_entry) => True) (fun sched_dict j =>
    do path <- dlookup j (ts_Paths ts);
    do r <- foldM (print_stop p tab ts pass skip d t_ref value j) path (PInt 0, 0, 0, []);
    Ok (dset j (snd r) sched_dict)) (ts_J ts) []) as (r & E & _); [exact Logic.I| |exists r; exact E].
  intros acc j Ij _. destruct (wf_paths _ _ _ WF j Ij) as (path & G & ND). unfold dlookup. rewrite G. cbn [bind].
  destruct (foldM_total (fun _ : print_state => True) (print_stop p tab ts pass skip d t_ref value j) path (PInt 0, 0, 0, [])) as (r & E & _); [exact Logic.I| |].
  2:{ rewrite E. cbn [bind]. eexists. split; [reflexivity|exact Logic.I]. }
  intros [[[sp dp] dc] sc] s Is _. unfold print_stop. destruct (match dget _ pass with Some q => _ | None => _ end) as [ar ca].
  destruct (match dget j skip with Some _ => _ | None => _ end); [eexists; split; [reflexivity|exact Logic.I]|].
  unfold impact_to_objective, delay_and_acctual_time.
  rewrite (find_delay ts tab d cat p RF PN Cr j s).
  2:{ unfold mentioned_trains. apply in_app_iff. auto. }
  2:{ unfold mentioned_stations. rewrite in_app_iff. left. apply in_concat. exists path. split; [apply dget_in in G; apply (in_map snd) in G; exact G|exact Is]. }
  destruct (lmem (delay_id (j, s)) (map v_id (variables p))) eqn:M; [|cbn [bind]; eexists; split; [reflexivity|exact Logic.I]].
  apply lmem_true in M. pose proof (delay_decided _ _ _ _ _ j s RF Cr M) as D.
  apply in_map_iff in M as (v & EV & Hv). pose proof (HV v Hv) as VV.
  assert (v = delay_var_of j s d cat).
  { destruct (C13_delay_variables ts d cat RF) as [_ K]. destruct (K tab p Cr v Hv) as (j' & s' & _ & ->); [unfold v_id in EV; unfold delay_id in EV; congruence|].
    unfold v_id, delay_id in EV. cbn in EV. inversion EV; subst. reflexivity. }
  subst v. rewrite VV. cbn [bind]. destruct (Qeq_bool d 0) eqn:Ed; [apply Qeq_bool_eq in Ed; contradiction|]. cbn [bind].
  destruct (edt_decided ts tab d WF j s D) as (e & ->). cbn [bind]. eexists; split; [reflexivity|exact Logic.I].
Qed.
Print Assumptions C67_prints_well_formed.

Lemma show_all file print data l : forall shown f,
  (forall i, In i l -> exists e s, dget i data = Some e /\ print e = Ok s) -> NoDup l ->
  exists f', show_runs file print data shown l f = (f', Ok tt) /\
    (l <> [] -> exists shown', dget file f' = Some (Schedules shown') /\
       (forall i, In i l -> exists e s, dget i data = Some e /\ print e = Ok s /\ dget i shown' = Some s) /\
       forall i, ~ In i l -> dget i shown' = dget i shown) /\
    (forall g, g <> file -> dget g f' = dget g f).
Proof.
  induction l as [|i l IH]; intros shown f H ND; cbn [show_runs].
  - exists f. split; [reflexivity|]. split; [congruence|auto].
  - destruct (H i (or_introl eq_refl)) as (e & s & G & P). unfold dlookup. rewrite G. cbn [bind]. rewrite P.
    inversion ND as [|? ? NI ND']; subst.
    destruct (IH (dset i s shown) (dset file (Schedules (dset i s shown)) f)) as (f' & E & S & O); [intros k I; apply H; right; exact I|exact ND'|].
    exists f'. split; [exact E|]. split.
    + intros _. destruct l as [|k l'].
      * cbn [show_runs] in E. inversion E; subst f'. exists (dset i s shown). split; [rewrite dget_dset; destruct (eq_dec file file); congruence|]. split.
        -- intros k [<-|[]]. exists e, s. split; [exact G|]. split; [exact P|]. rewrite dget_dset. destruct (eq_dec i i); congruence.
        -- intros k N. rewrite dget_dset. destruct (eq_dec k i) as [->|]; [exfalso; apply N; left; reflexivity|reflexivity].
      * destruct S as (shown' & F & A & B); [discriminate|]. exists shown'. split; [exact F|]. split.
        -- intros n [<-|I]; [|apply A; exact I]. exists e, s. split; [exact G|]. split; [exact P|]. rewrite (B i NI), dget_dset. destruct (eq_dec i i); congruence.
        -- intros n N. rewrite B by (intros X; apply N; right; exact X). rewrite dget_dset.
           destruct (eq_dec n i) as [->|]; [exfalso; apply N; left; reflexivity|reflexivity].
    + intros g N. rewrite (O g N), dget_dset. destruct (eq_dec g file); congruence.
Qed.

Lemma taus_made td st net t1 r : tidy td st -> complete td st net t1 -> exists t, make_taus td st r = Ok t.
Proof.
  intros T C. pose proof (tidy_trains _ _ T) as ND. pose proof (tidy_stations _ _ T) as SA. pose proof (tidy_blocks _ _ T) as BO.
  pose proof (tidy_marked _ _ T) as AN. pose proof (tidy_visits _ _ T) as AV. pose proof (tidy_path _ _ T) as AB.
  destruct (C36_table_partial td None r AV AB (named _ _ T) (fun _ x => x)) as (pass & Ep & _).
  destruct (C37_table td st r ND SA AN AV AB (named _ _ T)) as (hd & Eh & _).
  destruct (C38_first td st r ND SA BO AN AV AB) as (prep & Epr & _).
  { intros u ub R. destruct (cp_two _ _ _ _ C u ub R) as (s & s2 & mid & D & _). exists s. apply (goes_passes _ _ _ _ D). }
  destruct (C38_tables_partial td st None r SA BO AN AV AB (fun _ x => x)) as (stop & extra & Es & _).
  unfold make_taus. rewrite Ep, Eh, Epr, Es. cbn [bind]. eauto.
Qed.

(** What is printed for a problem made from the tables shows the plan. *)
Lemma printed_shows td st net t1 delays cat ts tab p t x value sched :
  tidy td st -> complete td st net t1 -> no_part_lines td -> tables_to_problem td st net t1 delays 40 cat = Ok (ts, tab, p) ->
  make_taus td st 0 = Ok t -> (forall v, In v (variables p) -> value v = Some (x (v_id v))) ->
  print_optimisation_results p tab ts (t_pass t) (skip_of ts) 40 reference_minute value = Ok sched ->
  shows_plan ts tab p x 960 sched.
Proof.
  intros T C NP A4 Et V1 Pe. pose proof (parts _ _ _ _ _ _ _ _ _ _ A4) as [Cr Md].
  assert (DM : ~ 40 == 0) by (intros X; discriminate X).
  pose proof (made_well_formed _ _ _ _ _ _ _ T C NP Md 40 DM) as WF.
  pose proof (wf_reserved _ _ _ WF) as RF. pose proof (wf_plain _ _ _ WF) as PN.
  pose proof (none_ok _ _ _ _ _ _ _ _ _ _ T A4) as NF.
  intros j path Ij Gj. destruct (wf_paths _ _ _ WF j Ij) as (path' & Gj' & NDp). assert (path' = path) by congruence. subst path'.
  destruct (C67_printed_partial ts tab 40 cat p x value (t_pass t) (skip_of ts) reference_minute sched RF PN Cr V1 Pe j path Ij Gj NDp)
    as (printed & Gp & Pr). exists printed. split; [exact Gp|]. intros s Is. destruct (Pr s Is) as (k & Gk & K1 & K2 & K3). exists k. split; [exact Gk|].
  assert (SK : forall q, skipped ts j q <-> dget j (skip_of ts) = Some q).
  { intros q. unfold skipped, skip_of. destruct (ts_skip ts) as [sk|]; [|split; [intros (sk & X & _); discriminate X|discriminate]].
    split; [intros (sk' & X & Y); congruence|eauto]. }
  split; [intros S; apply SK in S; destruct (K1 S) as (X & Y & _); auto|]. split.
  + intros Iv. pose proof (delay_decided _ _ _ _ _ j s RF Cr Iv) as D. assert (NSk : dget j (skip_of ts) <> Some s) by (rewrite <- SK; apply D).
    destruct (K2 NSk Iv) as (X & Y & _). split; [exact X|]. intros z Hz. apply Y; [exact Hz|].
    destruct (edt_decided ts tab 40 WF j s D) as (e1 & He1). exists e1. eapply earliest_dep_time_sound; eauto.
  + intros sp z CB Iv Ar. pose proof (delay_decided _ _ _ _ _ j sp RF Cr Iv) as D.
    assert (NSk : dget j (skip_of ts) <> Some sp) by (rewrite <- SK; apply D).
    destruct (before_inv _ _ _ _ _ _ _ Md j sp s CB) as (tn & tb & x0 & y & line & -> & -> & -> & R & L).
    apply leaves_directly in L as (mid & Dr & _).
    assert (EP0 : get_taus_pass td None 0 = Ok (t_pass t)).
    { unfold make_taus in Et. inv_bind Et. inv_bind Et. inv_bind Et. inv_bind Et. destruct a2 as [stop extra]. inversion Et. exact E. }
    pose proof Md as (_ & _ & _ & _ & _ & _ & _ & _ & _ & EP1 & _).
    destruct (C36_table_partial td None 0 (tidy_visits _ _ T) (tidy_path _ _ T) (named _ _ T) (fun _ x => x)) as (d0 & Ed0 & _ & P0).
    destruct (C36_table_partial td None 1 (tidy_visits _ _ T) (tidy_path _ _ T) (named _ _ T) (fun _ x => x)) as (d1 & Ed1 & _ & P1).
    assert (d0 = t_pass t) by congruence. assert (d1 = tt_pass tab) by congruence. subst d0 d1.
    destruct (P0 tn tb x0 y mid (runs_key _ _ _ R) R Dr) as (q0 & G0 & R0). destruct (P1 tn tb x0 y mid (runs_key _ _ _ R) R Dr) as (q1 & G1 & R1).
    destruct (K3 (station x0) q1 q0 CB NSk Iv) as [X _].
    * unfold Spec.running. rewrite joined3. exact G1.
    * rewrite joined3. exact G0.
    * destruct R0 as [R0 _]. specialize (R0 ltac:(discriminate)). split; [intros N; congruence|]. intros _.
      destruct R1 as [_ R1]. destruct (R1 eq_refl) as (w & -> & B1 & B2). exists w. split; [reflexivity|]. rewrite R0. auto.
    * exact (X z Ar).
Qed.

(** The same invocation with [--show_timetable], for the first [n] runs *)
Definition to_show (a : args) (n : Z) : args :=
  MkArgs (a_case a) (a_category a) "" (a_solve_quantum a) (a_min_t a) n (a_penalty a) true.

(** C85. Whatever a run with a sampler has stored, a later one with [--show_timetable] puts into the diagrams: for each of
    its runs the plan of the stored sample, which is free of conflicts if the sample was called feasible. *)
Theorem C85_shown : forall o a f f1 n f2 td st ts tab p,
  a_show a = false -> In (a_solve_quantum a) methods -> (forall i, real_samplers (o_samplers o i)) ->
  script o a f = (f1, Ok tt) -> (0 <= n <= a_runs a)%Z -> dget (samples_file o a) f2 = dget (samples_file o a) f1 ->
  made_by o a td st ts tab p -> tidy td st -> complete td st (o_network o) "16:00" -> no_part_lines td ->
  exists f3, script o (to_show a n) f2 = (f3, Ok tt) /\
    (forall g, g <> diagrams_file o a -> dget g f3 = dget g f2) /\
    forall i, (1 <= i <= n)%Z ->
      exists samples e shown sched, dget (samples_file o a) f1 = Some (Samples samples) /\ dget i samples = Some e /\
        dget (diagrams_file o a) f3 = Some (Schedules shown) /\ dget i shown = Some sched /\
        shows_plan ts tab p (values (e_sample e)) 960 sched /\
        (e_feasible e = true -> conflict_free ts tab 40 p (values (e_sample e))).
Proof.
  intros o a f f1 n f2 td st ts tab p NS M RS H Hn F2 MB T C NP.
  destruct (C85_stored o a f f1 NS M H) as (td' & st' & ts' & tab' & p' & samples & MB' & G & Keys & Runs & _).
  assert (E0 : td' = td /\ st' = st /\ ts' = ts /\ tab' = tab /\ p' = p).
  { destruct MB as (d1 & A1 & A2 & A3 & A4), MB' as (d2 & B1 & B2 & B3 & B4). assert (d2 = d1) by congruence. assert (st' = st) by congruence. subst.
    assert (td' = td) by congruence. subst. rewrite A4 in B4. inversion B4; subst. auto. }
  destruct E0 as (-> & -> & -> & -> & ->). clear MB'.
  destruct MB as (data & A1 & A2 & A3 & A4). pose proof (parts _ _ _ _ _ _ _ _ _ _ A4) as [Cr Md].
  assert (DM : ~ 40 == 0) by (intros X; discriminate X).
  pose proof (made_well_formed _ _ _ _ _ _ _ T C NP Md 40 DM) as WF.
  pose proof (wf_reserved _ _ _ WF) as RF. pose proof (wf_plain _ _ _ WF) as PN.
  pose proof (none_ok _ _ _ _ _ _ _ _ _ _ T A4) as NF.
  destruct (taus_made td st (o_network o) "16:00" 0 T C) as (t & Et).
  assert (P : prepare o (to_show a n) = Ok (t, ts, tab, p)).
  { unfold prepare, to_show. cbn [a_case a_category]. rewrite A1, A2. cbn [bind]. rewrite A3. cbn [bind]. rewrite Et. cbn [bind]. rewrite A4. reflexivity. }
  (* what is stored can be printed *)
  assert (V : forall i e, (1 <= i <= a_runs a)%Z -> dget i samples = Some e ->
    (forall v, In v (variables p) -> dget (v_name v) (e_sample e) = Some (values (e_sample e) (v_id v))) /\
    (e_feasible e = true -> conflict_free ts tab 40 p (values (e_sample e)))).
  { intros i e Hi Ge. destruct (Runs i Hi) as (m & pdict & e' & Hm & _ & S & Ge'). assert (e' = e) by congruence. subst e'. split.
    - unfold solve_on_quantum in S. inv_bind S. inv_bind S. rename a0 into rows, a1 into out.
      assert (In e out).
      { unfold get_best_feasible_sample in S. destruct (find e_feasible out) as [e'|] eqn:Fd.
        - inversion S; subst. apply find_some in Fd. tauto.
        - unfold lnth in S. destruct (nth_error (sorted_by e_energy out) 0) as [e'|] eqn:N; [|discriminate]. inversion S; subst.
          apply nth_error_In in N. eapply Permutation.Permutation_in; [symmetry; apply (sorted_perm e_energy)|exact N]. }
      destruct (results_inv p rows out E0 e H0) as (d & q & Hd & <- & _).
      pose proof (proj1 (C33_in_range ts tab 40 (a_category a) p (o_samplers o i) m pdict rows RF Cr (RS i) E _ _ Hd)) as As.
      intros v Hv. specialize (As v (variables_occurs p v Hv)). apply key_get in As as (y & Gy). unfold values.
      change (id_name (v_id v)) with (v_name v). rewrite Gy. reflexivity.
    - intros Fe. apply (C33_solution ts tab 40 (a_category a) p (o_samplers o i) m pdict e RF NF); auto. discriminate. }
  assert (PR : forall i e, (1 <= i <= a_runs a)%Z -> dget i samples = Some e -> exists sched,
    print_optimisation_results p tab ts (t_pass t) (skip_of ts) 40 reference_minute (fun v => dget (v_name v) (e_sample e)) = Ok sched).
  { intros i e Hi Ge. apply (C67_prints_well_formed ts tab 40 (a_category a) p (values (e_sample e)) _ _ _ _ WF DM Cr). exact (proj1 (V i e Hi Ge)). }
  destruct (show_all (diagrams_file o a)
     (fun e => print_optimisation_results p tab ts (t_pass t) (skip_of ts) 40 reference_minute (fun v => dget (v_name v) (e_sample e)))
     samples (run_numbers (to_show a n)) [] f2) as (f3 & E3 & Sh & Other).
  { intros i I. apply numbers_in in I. cbn [a_runs to_show] in I. destruct (Runs i) as (m & pdict & e & _ & _ & _ & Ge); [lia|].
    destruct (PR i e) as (s & Es); [lia|exact Ge|]. exists e, s. auto. }
  { apply numbers_nodup. }
  exists f3. split; [|split; [exact Other|]].
  - unfold script. cbn [a_case a_solve_quantum to_show].
    unfold script in H. destruct (lmem (a_case a) _); cbn [negb] in H |- *; [|discriminate H]. rewrite P.
    destruct (prepare o a); [|discriminate H]. destruct (lmem (a_solve_quantum a) _); cbn [negb] in H |- *; [|discriminate H].
    unfold lp_part. cbn [a_solve_lp to_show]. change (eqb "" "") with true. cbn iota. unfold quantum_part. cbn [a_solve_quantum a_show to_show].
    apply methods_ok in M as (m & ->). change (samples_file o (to_show a n)) with (samples_file o a). rewrite F2, G. exact E3.
  - intros i Hi. assert (I : In i (run_numbers (to_show a n))) by (apply numbers_in; exact Hi).
    destruct Sh as (shown & Fs & A & _); [intros X; rewrite X in I; destruct I|]. destruct (A i I) as (e & sched & Ge & Pe & Gs).
    exists samples, e, shown, sched. split; [exact G|]. split; [exact Ge|]. split; [exact Fs|]. split; [exact Gs|].
    destruct (V i e) as [V1 V2]; [lia|exact Ge|]. split; [|exact V2].
    exact (printed_shows td st (o_network o) "16:00" _ (a_category a) ts tab p t _ _ sched T C NP A4 Et V1 Pe).
Qed.
Print Assumptions C85_shown.

(** With [--solve_lp] and [--show_timetable], if the solver leaves a feasible plan, this plan is put into its diagram. *)
Theorem C85_lp_shown : forall o a f sv x td st ts tab p,
  In (a_case a) [0; 1; 2; 3; 4; 5; 6; 7; 8; 9]%Z -> a_show a = true -> a_solve_lp a <> "" -> a_solve_quantum a = "" ->
  made_by o a td st ts tab p -> tidy td st -> complete td st (o_network o) "16:00" -> no_part_lines td ->
  o_solver o (a_solve_lp a) = Some sv -> sv p = Some x -> feasible p x ->
  exists f1 sched, script o a f = (f1, Ok tt) /\
    dget (lp_file a) f1 = Some (OneSchedule sched) /\ shows_plan ts tab p x 960 sched /\ conflict_free ts tab 40 p x /\
    forall g, g <> lp_file a -> dget g f1 = dget g f.
Proof.
  intros o a f sv x td st ts tab p IC SH NL NQ MB T C NP HS HX FE.
  destruct MB as (data & A1 & A2 & A3 & A4). pose proof (parts _ _ _ _ _ _ _ _ _ _ A4) as [Cr Md].
  assert (DM : ~ 40 == 0) by (intros X; discriminate X).
  pose proof (made_well_formed _ _ _ _ _ _ _ T C NP Md 40 DM) as WF.
  pose proof (wf_reserved _ _ _ WF) as RF. pose proof (wf_plain _ _ _ WF) as PN.
  pose proof (none_ok _ _ _ _ _ _ _ _ _ _ T A4) as NF.
  destruct (taus_made td st (o_network o) "16:00" 0 T C) as (t & Et).
  assert (V : forall v, In v (variables p) -> Some (x (v_id v)) = Some (x (v_id v))) by reflexivity.
  destruct (C67_prints_well_formed ts tab 40 (a_category a) p x (fun v => Some (x (v_id v))) (t_pass t) (skip_of ts) reference_minute WF DM Cr V) as (sched & Es).
  exists (dset (lp_file a) (OneSchedule sched) f), sched. split; [|split; [|split; [|split]]].
  - unfold script. assert (IC' : lmem (a_case a) [0; 1; 2; 3; 4; 5; 6; 7; 8; 9]%Z = true) by (apply lmem_true; exact IC). rewrite IC'. cbn [negb].
    assert (P : prepare o a = Ok (t, ts, tab, p)).
    { unfold prepare. rewrite A1, A2. cbn [bind]. rewrite A3. cbn [bind]. rewrite Et. cbn [bind]. rewrite A4. reflexivity. }
    rewrite P, NQ. change (lmem "" [""; "sim"; "real"; "bqm"; "cqm"]) with true. cbn [negb].
    assert (L : lp_part o a (t, ts, tab, p) f = (dset (lp_file a) (OneSchedule sched) f, Ok tt)).
    { unfold lp_part. destruct (eqb (a_solve_lp a) "") eqn:EL; [apply eqb_eq in EL; contradiction|]. rewrite HS, HX, SH, Es. cbn [bind].
      assert (YZ : forall j, In j (ts_J ts) -> ~ ends_yz j).
      { destruct Md as (_ & _ & EJ' & _). rewrite EJ'. unfold trains. intros j J. apply in_map_iff in J as (z & <- & _). apply number_not_yz. }
      destruct (C50_checked_partial ts tab 40 (a_category a) p x RF PN Cr YZ) as [K _]. rewrite K; [reflexivity|].
      intros v Hv O. destruct FE as [_ FV]. specialize (FV v Hv).
      assert (B : v_lo v = Some 0 /\ v_up v = Some 1 /\ v_cat v = Integer).
      { destruct (occurs_canon _ _ _ _ _ RF Cr v (variables_occurs p v Hv)) as [(j & s & _ & ->)|(q & [->| ->])].
        - destruct O as [O|O]; discriminate O.
        - auto.
        - auto. }
      destruct B as (B1 & B2 & B3), FV as (F1 & F2 & F3). specialize (F1 0 B1). specialize (F2 1 B2). destruct (F3 B3) as (z & Hz).
      assert (Z : (0 <= z <= 1)%Z) by (split; rewrite Zle_Qle; [change (inject_Z 0) with 0|change (inject_Z 1) with 1]; lra).
      unfold almost_0_or_1. rewrite Hz. assert (z = 0 \/ z = 1)%Z as [->| ->] by lia.
      - left. split; discriminate.
      - right. split; discriminate. }
    rewrite L. unfold quantum_part. rewrite NQ. reflexivity.
  - rewrite dget_dset. destruct (eq_dec (lp_file a) (lp_file a)); congruence.
  - exact (printed_shows td st (o_network o) "16:00" _ (a_category a) ts tab p t x _ sched T C NP A4 Et V Es).
  - apply (feasible_conflict_free ts tab 40 (a_category a)); auto. discriminate.
  - intros g N. rewrite dget_dset. destruct (eq_dec g (lp_file a)); congruence.
Qed.
Print Assumptions C85_lp_shown.

(** ** The hybrid solver for constrained models always answers *)

(** The solvers for constrained models return at least one sample for the problem. *)
Definition answering (o : outside) (p : lpproblem) : Prop := forall i c, convert_to_cqm p = Ok c -> sample_cqm (o_samplers o i) c <> [].

Theorem C85_answers : forall o a f td st ts tab p,
  In (a_case a) [0; 1; 2; 3; 4; 5; 6; 7; 8; 9]%Z -> a_show a = false -> a_solve_lp a = "" -> a_solve_quantum a = "cqm" ->
  a_category a = Integer -> made_by o a td st ts tab p -> tidy td st -> complete td st (o_network o) "16:00" -> no_part_lines td ->
  (forall i, real_samplers (o_samplers o i)) -> answering o p ->
  exists f1, script o a f = (f1, Ok tt).
Proof.
  intros o a f td st ts tab p IC SH NL Q CA MB T C NP RS AN.
  destruct MB as (data & A1 & A2 & A3 & A4). pose proof (parts _ _ _ _ _ _ _ _ _ _ A4) as [Cr Md]. rewrite CA in Cr.
  assert (DM : ~ 40 == 0) by (intros X; discriminate X).
  pose proof (made_well_formed _ _ _ _ _ _ _ T C NP Md 40 DM) as WF.
  pose proof (wf_reserved _ _ _ WF) as RF.
  destruct (taus_made td st (o_network o) "16:00" 0 T C) as (t & Et).
  destruct (C28_total ts tab 40 p RF Cr) as (cq & HC).
  assert (S : exists samples, solve_runs o a Cqm p = Ok samples).
  { unfold solve_runs. cbn iota.
    destruct (foldM_total (fun _ : dict Z entry => True) (fun samples i => do e <- solve_on_quantum (o_samplers o i) p Cqm []; Ok (dset i e samples))
      (run_numbers a) []) as (r & E & _); [exact Logic.I| |exists r; exact E].
    intros acc i _ _. assert (E : exists e, solve_on_quantum (o_samplers o i) p Cqm [] = Ok e); [|destruct E as (e & ->); cbn [bind]; eauto].
    unfold solve_on_quantum. assert (QP : q_process (o_samplers o i) p Cqm [] = Ok (sample_cqm (o_samplers o i) cq)) by (unfold q_process; rewrite HC; reflexivity).
    rewrite QP. cbn [bind].
    destruct (created_apart _ _ _ _ _ RF Cr) as (ND & _).
    destruct (results_right p (sample_cqm (o_samplers o i) cq) ND) as (out & HO & PE & _).
    { intros d e H. exact (proj1 (C33_in_range ts tab 40 Integer p (o_samplers o i) Cqm [] _ RF Cr (RS i) QP d e H)). }
    rewrite HO. cbn [bind]. unfold get_best_feasible_sample. destruct (find e_feasible out); [eauto|]. unfold lnth.
    pose proof (sorted_perm e_energy out) as SP.
    destruct (sorted_by e_energy out) as [|e l]; [|cbn; eauto]. exfalso. apply Permutation.Permutation_sym, Permutation.Permutation_nil in SP. subst out.
    cbn [map] in PE. apply Permutation.Permutation_sym, Permutation.Permutation_nil in PE. exact (AN i cq HC PE). }
  destruct S as (samples & S). exists (dset (samples_file o a) (Samples samples) f).
  unfold script. assert (IC' : lmem (a_case a) [0; 1; 2; 3; 4; 5; 6; 7; 8; 9]%Z = true) by (apply lmem_true; exact IC). rewrite IC'. cbn [negb].
  assert (P : prepare o a = Ok (t, ts, tab, p)).
  { unfold prepare. rewrite A1, A2. cbn [bind]. rewrite A3. cbn [bind]. rewrite Et. cbn [bind]. rewrite A4. reflexivity. }
  rewrite P, Q. change (lmem "cqm" [""; "sim"; "real"; "bqm"; "cqm"]) with true. cbn [negb].
  unfold lp_part. rewrite NL. change (eqb "" "") with true. cbn iota. unfold quantum_part. rewrite Q, SH. change (method_of "cqm") with (Some Cqm). cbn iota.
  rewrite S. reflexivity.
Qed.
Print Assumptions C85_answers.

(** ** The repository's own tables *)

(** The files that the script reads are those of the repository. *)
Definition repository (o : outside) : Prop :=
  o_table o "./data/trains_schedules.csv" = Some schedule_main /\
  o_table o "./data/trains_schedules_Gt.csv" = Some schedule_gt /\
  o_table o "./data/trains_schedules_1track.csv" = Some schedule_1track /\
  o_table o "./data/trains_schedules_1track_Gt.csv" = Some schedule_1track_gt /\
  o_stations o "./data/important_stations.npz" = Some stations_main /\
  o_stations o "./data/important_stations_Gt.npz" = Some stations_gt /\
  o_network o = network.

Lemma repository_cases o a : repository o -> In (a_case a) [0; 1; 2; 3; 4; 5; 6; 7; 8; 9]%Z ->
  exists data st, o_table o (fst (input_files (a_case a))) = Some data /\ o_stations o (snd (input_files (a_case a))) = Some st /\
    In (data, st, "16:00") shipped.
Proof.
  intros (R1 & R2 & R3 & R4 & R5 & R6 & _) IC. unfold shipped. cbn [In] in IC.
  assert (K : (a_case a = 0 \/ a_case a = 1 \/ a_case a = 2 \/ a_case a = 3)%Z \/ (a_case a = 4 \/ a_case a = 5)%Z \/ (a_case a = 6)%Z \/
    (a_case a = 7 \/ a_case a = 8 \/ a_case a = 9)%Z) by lia. clear IC.
  destruct K as [K|[K|[K|K]]].
  - exists schedule_main, stations_main.
    assert (E : input_files (a_case a) = ("./data/trains_schedules.csv", "./data/important_stations.npz")) by (destruct K as [->|[->|[->| ->]]]; reflexivity).
    rewrite E. cbn [fst snd]. split; [exact R1|]. split; [exact R5|]. left. reflexivity.
  - exists schedule_gt, stations_gt.
    assert (E : input_files (a_case a) = ("./data/trains_schedules_Gt.csv", "./data/important_stations_Gt.npz")) by (destruct K as [->| ->]; reflexivity).
    rewrite E. cbn [fst snd]. split; [exact R2|]. split; [exact R6|]. right; left. reflexivity.
  - exists schedule_1track, stations_main.
    assert (E : input_files (a_case a) = ("./data/trains_schedules_1track.csv", "./data/important_stations.npz")) by (rewrite K; reflexivity).
    rewrite E. cbn [fst snd]. split; [exact R3|]. split; [exact R5|]. right; right; left. reflexivity.
  - exists schedule_1track_gt, stations_gt.
    assert (E : input_files (a_case a) = ("./data/trains_schedules_1track_Gt.csv", "./data/important_stations_Gt.npz")) by (destruct K as [->|[->| ->]]; reflexivity).
    rewrite E. cbn [fst snd]. split; [exact R4|]. split; [exact R6|]. right; right; right; left. reflexivity.
Qed.

(** For each case and category of the repository there is a problem, and its tables are as the theorems above ask. *)
Theorem C85_repository : forall o a, repository o -> In (a_case a) [0; 1; 2; 3; 4; 5; 6; 7; 8; 9]%Z ->
  exists td st ts tab p, made_by o a td st ts tab p /\ tidy td st /\ complete td st (o_network o) "16:00" /\ no_part_lines td.
Proof.
  intros o a R IC. destruct (repository_cases o a R IC) as (data & st & E1 & E2 & I). destruct R as (_ & _ & _ & _ & _ & _ & EN).
  destruct (C69_shipped data st "16:00" I) as (td & E & T & C & NP & _ & B).
  assert (DM : ~ 40 == 0) by (intros X; discriminate X).
  destruct (B (real_delays (Z.to_nat (a_case a))) 40 (a_category a) DM) as (ts & tab & p & H).
  exists td, st, ts, tab, p. rewrite EN. split; [|auto]. exists data. rewrite EN. auto.
Qed.
Print Assumptions C85_repository.

(** A solver that always answers with a sample of zeros, where that is allowed *)
Definition zero_ok (t : cqm_type) : bool := match t with CBinary => true | CInteger ub => Qle_bool 0 ub end.
Definition zero_samplers : samplers := MkSamplers (fun _ _ => [])
  (fun c => if forallb (fun nt => zero_ok (snd nt)) (q_vars c) then [(map (fun nt => (fst nt, 0)) (q_vars c), 0)] else []).

Example zero_real : real_samplers zero_samplers.
Proof.
  split; [intros m b s e []|]. intros c d e. cbn [sample_cqm zero_samplers].
  destruct (forallb _ (q_vars c)) eqn:F; [|intros []]. intros [H|[]]. inversion H; subst. rewrite forallb_forall in F. split.
  - intros n I. unfold dkeys. rewrite map_map. exact I.
  - intros n t I. specialize (F (n, t) I). cbn [snd] in F.
    assert (Z : match dget n (map (fun nt : string * cqm_type => (fst nt, 0)) (q_vars c)) with Some q => q | None => 0 end = 0).
    { induction (q_vars c) as [|[m u] l IH]; [reflexivity|]. cbn [map dget fst]. destruct (eq_dec n m); [reflexivity|].
      destruct I as [I|I]; [inversion I; subst; contradiction|]. apply IH; [reflexivity|exact I]. }
    rewrite Z. destruct t as [|ub]; cbn in F |- *; [left; reflexivity|]. apply Qle_bool_iff in F.
    split; [exists 0%Z; reflexivity|]. split; [apply Qle_refl|exact F].
Qed.

(** The repository's files, with this solver *)
Definition zero_outside : outside := MkOutside (fun _ => "1.5")
  (fun n => if eqb n "./data/trains_schedules.csv" then Some schedule_main
            else if eqb n "./data/trains_schedules_Gt.csv" then Some schedule_gt
            else if eqb n "./data/trains_schedules_1track.csv" then Some schedule_1track
            else if eqb n "./data/trains_schedules_1track_Gt.csv" then Some schedule_1track_gt else None)
  (fun n => if eqb n "./data/important_stations.npz" then Some stations_main
            else if eqb n "./data/important_stations_Gt.npz" then Some stations_gt else None)
  network (fun _ => None) (fun _ => zero_samplers).

Example zero_answers : forall ts tab d p c, 0 <= d -> reserved_free ts -> create_linear_problem ts tab d Integer = Ok p ->
  convert_to_cqm p = Ok c -> sample_cqm zero_samplers c <> [].
Proof.
  intros ts tab d p c Pos RF Cr CC. destruct (cqm_split p c CC) as (t & H1 & _).
  destruct (cqm_vars _ _ _ _ _ (variables_nodup p) H1) as (_ & _ & _ & K). cbn [sample_cqm zero_samplers].
  assert (F : forallb (fun nt => zero_ok (snd nt)) (q_vars c) = true); [|rewrite F; discriminate].
  apply forallb_forall. intros [n u] I. destruct (K n u I) as [[]|(v & off & Hv & _ & TV)]. cbn [snd].
  destruct (created_bounds _ _ _ _ _ RF Cr v (variables_occurs p v Hv)) as (Lo & Up).
  destruct TV as [(_ & -> & _)|(_ & _ & lb & ub & Hl & Hu & -> & _)]; [reflexivity|]. apply Qle_bool_iff.
  assert (lb = 0) by congruence. subst lb. destruct Up as [[Up _]|[Up _]]; assert (ub = _) by (rewrite Up in Hu; symmetry; injection Hu; intros X; exact X); subst ub; lra.
Qed.

(** Each of the ten cases, with any number of runs: solved, stored and shown. *)
Example C85_case : forall case runs, (0 <= case <= 9)%Z -> (1 <= runs)%Z ->
  let a := MkArgs case Integer "" "cqm" 5 runs (3 # 2) false in
  repository zero_outside /\
  exists f1 f3 td st ts tab p, script zero_outside a [] = (f1, Ok tt) /\ script zero_outside (to_show a runs) f1 = (f3, Ok tt) /\
    made_by zero_outside a td st ts tab p /\
    exists samples e shown sched, dget (samples_file zero_outside a) f3 = Some (Samples samples) /\ dget runs samples = Some e /\
      dget (diagrams_file zero_outside a) f3 = Some (Schedules shown) /\ dget runs shown = Some sched /\
      shows_plan ts tab p (values (e_sample e)) 960 sched.
Proof.
  intros case runs HC HR a. assert (R : repository zero_outside) by (repeat split; reflexivity). split; [exact R|].
  assert (IC : In (a_case a) [0; 1; 2; 3; 4; 5; 6; 7; 8; 9]%Z) by (cbn [a_case a In]; lia).
  destruct (C85_repository zero_outside a R IC) as (td & st & ts & tab & p & MB & T & C & NP).
  assert (AN : answering zero_outside p).
  { intros i c CC. pose proof MB as (data & _ & _ & _ & A4). pose proof (parts _ _ _ _ _ _ _ _ _ _ A4) as [Cr Md].
    assert (DM : ~ 40 == 0) by (intros X; discriminate X). pose proof (made_well_formed _ _ _ _ _ _ _ T C NP Md 40 DM) as WF.
    apply (zero_answers ts tab 40 p c); [discriminate|exact (wf_reserved _ _ _ WF)|exact Cr|exact CC]. }
  destruct (C85_answers zero_outside a [] td st ts tab p IC eq_refl eq_refl eq_refl eq_refl MB T C NP (fun _ => zero_real) AN) as (f1 & S1).
  destruct (C85_shown zero_outside a [] f1 runs f1 td st ts tab p eq_refl) as (f3 & S3 & O & K); auto; [cbn; auto|intros; apply zero_real|cbn [a_runs a]; lia|].
  exists f1, f3, td, st, ts, tab, p. split; [exact S1|]. split; [exact S3|]. split; [exact MB|].
  destruct (K runs) as (samples & e & shown & sched & G1 & G2 & G3 & G4 & G5 & _); [lia|].
  exists samples, e, shown, sched. split; [rewrite O; [exact G1|discriminate]|]. auto.
Qed.

(** The optimum of the undisturbed case, which C72 knows, left by the solver "CBC" *)
Example C85_lp_case : exists o td st ts tab p x f1 sched,
  let a := MkArgs 0 Integer "CBC" "" 5 1 (3 # 2) true in
  repository o /\ made_by o a td st ts tab p /\ optimal p x /\ script o a [] = (f1, Ok tt) /\
  dget "solutions_quantum/data4diagrams/CBC_case0_Integer.pkl" f1 = Some (OneSchedule sched) /\ shows_plan ts tab p x 960 sched.
Proof.
  destruct C72_recorded_refuted as (td & ts & tab & p & x & _ & _ & B & H & OP & _).
  set (o := MkOutside (o_text zero_outside) (o_table zero_outside) (o_stations zero_outside) network (fun _ => Some (fun _ => Some x)) (fun _ => zero_samplers)).
  set (a := MkArgs 0 Integer "CBC" "" 5 1 (3 # 2) true).
  assert (R : repository o) by (repeat split; reflexivity).
  assert (MB : made_by o a td stations_main ts tab p) by (exists schedule_main; split; [reflexivity|]; split; [reflexivity|]; split; [exact B|exact H]).
  destruct (C85_repository o a R) as (td' & st' & ts' & tab' & p' & MB' & T & C & NP); [left; reflexivity|].
  assert (E : st' = stations_main /\ td' = td).
  { destruct MB' as (d2 & X1 & X2 & X3 & _). assert (d2 = schedule_main) by (injection X1; intros X; symmetry; exact X).
    assert (st' = stations_main) by (injection X2; intros X; symmetry; exact X). subst d2 st'. split; [reflexivity|].
    change (o_network o) with network in X3. rewrite B in X3. injection X3; intros X; symmetry; exact X. }
  destruct E as [-> ->].
  destruct (C85_lp_shown o a [] (fun _ => Some x) x td stations_main ts tab p) as (f1 & sched & S & G & SP & _); try reflexivity; try assumption;
    [left; reflexivity|discriminate|exact (proj1 OP)|].
  exists o, td, stations_main, ts, tab, p, x, f1, sched. split; [exact R|]. split; [exact MB|]. split; [exact OP|]. split; [exact S|]. split; [exact G|exact SP].
Qed.
