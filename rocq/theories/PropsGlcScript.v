(** * PropsGlcScript: solve_KO_GLC_problems.py from the command line to its file and to the plots of it (C89) *)

From Coq Require Import List String ZArith QArith Bool Lia Lqa.
From Verif Require Import Base BaseFacts Pulp Helpers LinearSolver Converters Results DataTables DataSets DataTimes Pipeline Runs
  Spec SpecTables SpecSets SpecDurations SpecEnd SpecQubo SpecNames SpecTimes SpecResults SpecRuns SpecScript QuboFacts TimeFacts EndFacts PropsRuns Script PropsScript GlcScript.
Import ListNotations.
Open Scope string_scope.
Open Scope list_scope.

(** ** Names of files *)

Lemma app_cons_assoc (a b c : string) : ((a ++ b) ++ c)%string = (a ++ b ++ c)%string.
Proof. induction a; cbn; congruence. Qed.

Lemma app_cancel_tail a b c : (a ++ c)%string = (b ++ c)%string -> a = b.
Proof.
  assert (L : forall x y : string, String.length (x ++ y) = (String.length x + String.length y)%nat) by (induction x; cbn; auto).
  revert b. induction a as [|x a IH]; intros b E.
  - destruct b as [|y b]; [reflexivity|]. apply (f_equal String.length) in E. cbn in E. rewrite L in E. lia.
  - destruct b as [|y b]; [|cbn in E; injection E as -> E; f_equal; auto].
    apply (f_equal String.length) in E. cbn in E. rewrite L in E. lia.
Qed.

(** Texts that end differently behind their last underscores *)
Lemma us_last a a' x x' : no_underscore x -> no_underscore x' -> (a ++ "_" ++ x = a' ++ "_" ++ x')%string -> a = a' /\ x = x'.
Proof.
  intros N N' E. assert (K : forall u v w, no_underscore v -> (u ++ "_" ++ w)%string <> v).
  { intros u v w Nv X. subst v. apply no_us_allc in Nv. rewrite allc_app in Nv. apply andb_true_iff in Nv as [_ Nv]. discriminate Nv. }
  revert a' E. induction a as [|c a IH]; intros [|c' a'] E.
  - cbn in E. injection E as E. auto.
  - cbn in E. injection E as _ E. exfalso. exact (K a' x x' N (eq_sym E)).
  - cbn in E. injection E as _ E. exfalso. exact (K a x' x N' E).
  - cbn in E. injection E as -> E. apply IH in E as [-> ->]. auto.
Qed.

(** The name of a solver does not look as if it had a time limit. *)
Definition plain_solver (s : string) : Prop := forall u v, s <> (u ++ "_ilp_t_lim" ++ v)%string.

Definition known_method (a : glc_args) : Prop := In (g_solve_quantum a) [""; "sim"; "real"; "bqm"; "cqm"].

Lemma method_no_us a : known_method a -> no_underscore (g_solve_quantum a).
Proof. intros [E|[E|[E|[E|[E|[]]]]]]; rewrite <- E; apply no_us_allc; reflexivity. Qed.

(** C89. Two invocations that write the same file solve the same problems in the same way. *)
Theorem C89_files_apart : forall o a b, written_apart (g_text o) -> known_method a -> known_method b ->
  plain_solver (g_solve_lp a) -> plain_solver (g_solve_lp b) -> glc_file o a = glc_file o b ->
  g_case a = g_case b /\ g_category a = g_category b /\ g_solve_lp a = g_solve_lp b /\ g_solve_quantum a = g_solve_quantum b /\
  g_time_limit a == g_time_limit b /\
  (g_solve_lp a = "" -> In (g_solve_quantum a) ["bqm"; "cqm"] -> g_min_t a = g_min_t b).
Proof.
  intros o a b [NU INJ] Ma Mb Sa Sb E. unfold glc_file in E. apply (app_head "results_KO_GLC/results") in E.
  assert (NP : forall c, no_underscore (glc_p_text c)).
  { intros c. unfold glc_p_text. destruct (eqb (g_solve_lp c) "" && _); [apply number_no_us|apply no_us_allc; reflexivity]. }
  assert (NC : forall c, no_underscore (category_text c ++ ".pkl")) by (intros []; apply no_us_allc; reflexivity).
  apply us_split in E as [EP E]; try apply NP.
  assert (A : forall c, (g_solve_lp c ++ glc_limit_text o c ++ "_" ++ g_solve_quantum c ++ "_" ++ str_of_Z (g_case c) ++ "_" ++ category_text (g_category c) ++ ".pkl")%string =
    ((((g_solve_lp c ++ glc_limit_text o c) ++ "_" ++ g_solve_quantum c) ++ "_" ++ str_of_Z (g_case c)) ++ "_" ++ category_text (g_category c) ++ ".pkl")%string)
    by (intros c; rewrite !app_cons_assoc; reflexivity).
  rewrite !A in E. clear A.
  apply us_last in E as [E EC]; try apply NC. apply us_last in E as [E EZ]; try apply number_no_us.
  apply us_last in E as [E EQ]; try (apply method_no_us; assumption).
  apply str_of_Z_inj in EZ. split; [exact EZ|].
  assert (EC' : g_category a = g_category b) by (destruct (g_category a), (g_category b); cbn in EC; congruence). split; [exact EC'|].
  assert (K : g_solve_lp a = g_solve_lp b /\ g_time_limit a == g_time_limit b).
  { unfold glc_limit_text in E.
    assert (N0 : forall c, (c ++ "")%string = c) by (induction c; cbn; congruence).
    destruct (Qeq_bool (g_time_limit a) 0) eqn:Qa, (Qeq_bool (g_time_limit b) 0) eqn:Qb; rewrite ?N0 in E.
    - apply Qeq_bool_iff in Qa, Qb. split; [exact E|lra].
    - exfalso. exact (Sa _ _ E).
    - exfalso. exact (Sb _ _ (eq_sym E)).
    - assert (A : forall x t, (x ++ "_ilp_t_lim" ++ t)%string = ((x ++ "_ilp_t") ++ "_" ++ "lim" ++ t)%string) by (intros x t; rewrite app_cons_assoc; reflexivity).
      rewrite !A in E.
      assert (NL : forall q, no_underscore ("lim" ++ g_text o q)) by (intros q; apply no_us_allc; cbn; apply no_us_allc, NU).
      apply us_last in E as [E ET]; try apply NL. split; [exact (app_cancel_tail _ _ _ E)|]. apply INJ. exact (app_head "lim" _ _ ET). }
  destruct K as [K1 K2]. split; [exact K1|]. split; [exact EQ|]. split; [exact K2|].
  intros L I. unfold glc_p_text in EP. rewrite <- K1, <- EQ, L in EP. apply lmem_true in I. rewrite I in EP. change (eqb "" "") with true in EP. cbn [andb] in EP.
  apply str_of_Z_inj. exact EP.
Qed.
Print Assumptions C89_files_apart.

(** ** What is stored *)

(** The timetables and stations that an invocation reads *)
Definition glc_reads (o : glc_outside) (a : glc_args) (td : train_dict) (st : station_blocks) : Prop :=
  exists data, g_table o (fst (glc_input (g_case a))) = Some data /\ g_stations o (snd (glc_input (g_case a))) = Some st /\
    build_timetables data st (g_network o) = Ok td.

Lemma glc_inv o a f f1 u : glc_script o a f = (f1, Ok u) ->
  In (g_case a) [1; 2; 3]%Z /\ known_method a /\
  exists td st how runs, glc_reads o a td st /\ glc_way o a = Ok how /\ glc_runs td st (g_network o) (g_case a) (g_category a) how = Ok runs /\
    f1 = dset (glc_file o a) (MkGlcResults (g_solve_lp a) 40 (g_case a) runs (List.length runs)) f.
Proof.
  unfold glc_script. destruct (lmem (g_case a) [1; 2; 3]%Z) eqn:IC; cbn [negb]; [|discriminate].
  apply lmem_true in IC.
  destruct (g_table o _) as [data|] eqn:E1; [|discriminate]. cbn [bind]. destruct (g_stations o _) as [st|] eqn:E2; [|discriminate]. cbn [bind].
  destruct (build_timetables data st (g_network o)) as [td|] eqn:E3; [|discriminate]. cbn [bind].
  destruct (make_taus td st 0) as [t|]; [|discriminate]. cbn [bind].
  destruct (lmem (g_solve_quantum a) _) eqn:IQ; cbn [negb]; [|discriminate]. apply lmem_true in IQ.
  destruct (glc_way o a) as [how|] eqn:E4; [|discriminate]. cbn [bind].
  destruct (glc_runs td st (g_network o) (g_case a) (g_category a) how) as [runs|] eqn:E5; [|discriminate].
  intros H. injection H as <- _. split; [exact IC|]. split; [exact IQ|]. exists td, st, how, runs. split; [|auto]. exists data. auto.
Qed.

Lemma reads_same o a td st td' st' : glc_reads o a td st -> glc_reads o a td' st' -> td' = td /\ st' = st.
Proof. intros (d & A & B & C) (d' & A' & B' & C'). assert (d' = d) by congruence. assert (st' = st) by congruence. subst. split; congruence. Qed.

(** A run that fails, in whichever scenario, leaves no file; a run that ends well has written one file, with the largest delay, the
    line, and the records of the twelve scenarios in order, each with the sizes of its problem.  The records of a sampler
    are right about their samples. *)
Theorem C89_stored : forall o a f f1,
  (forall e, glc_script o a f = (f1, Err e) -> f1 = f) /\
  (forall td st, glc_reads o a td st -> tidy td st -> glc_script o a f = (f1, Ok tt) ->
     (forall g, g <> glc_file o a -> dget g f1 = dget g f) /\
     exists r, dget (glc_file o a) f1 = Some r /\ gr_case r = g_case a /\ gr_d_max r = 40 /\ gr_method r = g_solve_lp a /\
       gr_samples r = 12%nat /\
       Forall2 (fun dist x => exists ts tab p, tables_to_problem td st (g_network o) "14:00" dist 40 (g_category a) = Ok (ts, tab, p) /\ sizes_of ts p x)
         (disturbances (g_case a) (map PInt (dkeys td))) (gr_runs r) /\
       (g_solve_lp a = "" -> g_solve_quantum a <> "" -> real_samplers (g_samplers o (g_min_t a)) ->
        Forall2 (fun dist x => exists ts tab p, tables_to_problem td st (g_network o) "14:00" dist 40 (g_category a) = Ok (ts, tab, p) /\ right_record p x)
         (disturbances (g_case a) (map PInt (dkeys td))) (gr_runs r))).
Proof.
  intros o a f f1. split.
  - intros e. unfold glc_script. destruct (negb (lmem (g_case a) _)); [intros H; injection H as <- _; reflexivity|].
    destruct (bind _ _); intros H; [discriminate H|injection H as <- _; reflexivity].
  - intros td st RD T H. apply glc_inv in H as (IC & IQ & td' & st' & how & runs & RD' & HW & HR & ->).
    destruct (reads_same _ _ _ _ _ _ RD RD') as [-> ->]. split.
    { intros g N. rewrite dget_dset. destruct (eq_dec g (glc_file o a)); congruence. }
    eexists. split; [rewrite dget_dset; destruct (eq_dec (glc_file o a) (glc_file o a)); [reflexivity|congruence]|].
    cbn [gr_case gr_d_max gr_method gr_samples gr_runs]. split; [reflexivity|]. split; [reflexivity|]. split; [reflexivity|].
    pose proof (C79_sizes td st (g_network o) (g_case a) (g_category a) how runs T HR) as SZ. split.
    { rewrite <- (proj1 (C79_scenarios (g_case a) (dkeys td))). clear - SZ. induction SZ; cbn [List.length]; congruence. }
    split; [exact SZ|]. intros NL NQ RS. unfold glc_way in HW. rewrite NL in HW. change (eqb "" "") with true in HW. cbn [negb] in HW.
    destruct (method_of (g_solve_quantum a)) as [m|] eqn:HM.
    + injection HW as <-. pose proof (C79_records td st (g_network o) (g_case a) (g_category a) (g_samplers o (g_min_t a)) m runs T RS HR) as CR.
      clear - CR. induction CR as [|dist x l l' (_ & ts & tab & p & H1 & _ & H2) CR IH]; constructor; [|exact IH]. exists ts, tab, p. auto.
    + exfalso. unfold known_method in IQ. unfold method_of in HM. cbn [In] in IQ.
      destruct IQ as [X|[X|[X|[X|[X|[]]]]]]; rewrite <- X in HM; try discriminate HM. congruence.
Qed.
Print Assumptions C89_stored.

(** ** The plots *)

Lemma mapM_points {A B} (g : A -> res B) l : (forall x, In x l -> exists y, g x = Ok y) ->
  exists ys, mapM g l = Ok ys /\ List.length ys = List.length l /\
    (forall k x, nth_error l k = Some x -> exists y, nth_error ys k = Some y /\ g x = Ok y) /\
    (forall y, In y ys -> exists x, In x l /\ g x = Ok y).
Proof.
  induction l as [|x l IH]; intros H.
  - exists []. split; [reflexivity|]. split; [reflexivity|]. split; [intros [|k] x N; discriminate N|intros y []].
  - destruct (H x (or_introl eq_refl)) as (y & E). destruct IH as (ys & E' & L & N & M); [intros z I; apply H; right; exact I|].
    exists (y :: ys). cbn [mapM]. rewrite E. cbn [bind]. rewrite E'. cbn [bind]. split; [reflexivity|]. split; [cbn; congruence|]. split.
    + intros [|k] z Nz; cbn in Nz; [injection Nz as <-; exists y; auto|apply N; exact Nz].
    + intros z [<-|I]; [exists x; split; [left; reflexivity|exact E]|]. destruct (M z I) as (w & I' & E2). exists w. split; [right; exact I'|exact E2].
Qed.

Lemma nth_seq n : forall s k, (k < n)%nat -> nth_error (seq s n) k = Some (s + k)%nat.
Proof. induction n as [|n IH]; intros s [|k] H; [lia|lia|cbn; f_equal; lia|]. cbn. rewrite IH by lia. f_equal. lia. Qed.

Lemma series_ok r n scale : n = List.length (gr_runs r) ->
  (forall x, In x (gr_runs r) -> exists q b, run_objective x = Some q /\ run_feasible x = Some b) ->
  exists l, series r n scale = Ok l /\ List.length l = n /\
    forall k x q b, nth_error (gr_runs r) k = Some x -> run_objective x = Some q -> run_feasible x = Some b -> nth_error l k = Some (k, q * scale, b).
Proof.
  intros L H. unfold series.
  match goal with |- exists l, mapM ?g _ = _ /\ _ => destruct (mapM_points g (seq 0 n)) as (l & E & LL & N & _) end.
  - intros i I. apply in_seq in I. destruct (nth_error (gr_runs r) i) as [x|] eqn:Nx; [|apply nth_error_None in Nx; lia].
    destruct (H x (nth_error_In _ _ Nx)) as (q & b & -> & ->). eauto.
  - exists l. split; [exact E|]. split; [etransitivity; [exact LL|apply seq_length]|]. intros k x q b Nx O F.
    assert (K : (k < n)%nat) by (rewrite L; apply nth_error_Some; congruence).
    destruct (N k k (nth_seq n 0 k K)) as (y & Ny & G). rewrite Nx, O, F in G. injection G as <-. exact Ny.
Qed.

(** The file of an invocation holds what a run of it has stored, at whatever time, from the tables [td] and [st].  The samplers of the
    run return values of the right kind, and what its solver leaves is [good]. *)
Definition stored_by (text : Q -> string) (net : list netrow) (td : train_dict) (st : station_blocks) (good : lpproblem -> assignment -> Prop)
    (a : glc_args) (f : glc_files) : Prop :=
  exists o f0 f1, g_text o = text /\ g_network o = net /\ glc_reads o a td st /\ real_samplers (g_samplers o (g_min_t a)) /\
    (forall sv p x, g_solver o (g_solve_lp a) (g_time_limit a) = Some sv -> sv p = Some x -> good p x) /\
    glc_script o a f0 = (f1, Ok tt) /\ dget (glc_file o a) f = dget (glc_file o a) f1.

(** The invocations whose files are drawn *)
Definition with_cqm (case t : Z) : glc_args := MkGlcArgs case Integer "" 0 "cqm" t.
Definition with_lp (case : Z) (solver : string) (limit : Q) (t : Z) : glc_args := MkGlcArgs case Integer solver limit "" t.

Definition limit_text (text : Q -> string) (limit : Q) : option string := if Qeq_bool limit 0 then None else Some (text limit).

Lemma cqm_name o case t : glc_file o (with_cqm case t) = plot_quantum_file t case.
Proof. unfold glc_file, with_cqm, plot_quantum_file, glc_p_text, glc_limit_text. cbn. reflexivity. Qed.

Lemma lp_name o case solver limit t : solver <> "" -> glc_file o (with_lp case solver limit t) = plot_lp_file solver case (limit_text (g_text o) limit).
Proof.
  intros N. unfold glc_file, with_lp, plot_lp_file, glc_p_text, glc_limit_text, limit_text. cbn [g_solve_lp g_time_limit g_solve_quantum g_case g_category g_min_t].
  destruct (eqb solver "") eqn:E; [apply eqb_eq in E; contradiction|]. cbn [andb]. destruct (Qeq_bool limit 0); cbn; rewrite ?app_cons_assoc; reflexivity.
Qed.

Section Drawn.
  Context (text : Q -> string) (net : list netrow) (td : train_dict) (st : station_blocks) (f : glc_files) (case : Z).
  Hypothesis T : tidy td st.

  (** What a stored run of the hybrid solver is drawn as *)
  Lemma cqm_series good t : stored_by text net td st good (with_cqm case t) f ->
    exists r l, read_results f (plot_quantum_file t case) = Ok r /\ gr_samples r = 12%nat /\ series r (gr_samples r) (gr_d_max r) = Ok l /\
      List.length l = 12%nat /\
      forall k dist, nth_error (disturbances case (map PInt (dkeys td))) k = Some dist ->
        exists ts tab p y g d, tables_to_problem td st net "14:00" dist 40 Integer = Ok (ts, tab, p) /\ nth_error l k = Some (k, y, g) /\
          in_range p (values d) /\ y == obj_value p (values d) * 40 /\ (g = true <-> feasible p (values d)).
  Proof.
    intros (o & f0 & f1 & Et & En & RD & RS & _ & H & G). rewrite cqm_name in G.
    destruct (proj2 (C89_stored o (with_cqm case t) f0 f1) td st RD T H) as (_ & r & Gr & _ & D & _ & S12 & _ & RR).
    rewrite cqm_name in Gr. rewrite Gr in G. specialize (RR eq_refl ltac:(discriminate) RS). cbn [with_cqm g_case g_category] in RR. rewrite En in RR.
    assert (L : List.length (gr_runs r) = 12%nat).
    { rewrite <- (proj1 (C79_scenarios case (dkeys td))). clear - RR. induction RR; cbn [List.length]; congruence. }
    destruct (series_ok r (gr_samples r) (gr_d_max r)) as (l & E & LL & N).
    { congruence. }
    { intros x I. clear - RR I. induction RR as [|dist y l l' (ts & tab & p & _ & RP) RR IH]; [destruct I|]. destruct I as [<-|I]; [|auto].
      destruct RP as (d & q & b & n & _ & O & F & _). eauto. }
    exists r, l. split; [unfold read_results; rewrite G; reflexivity|]. split; [exact S12|]. split; [exact E|]. split; [congruence|].
    intros k dist Nd. assert (X : exists x, nth_error (gr_runs r) k = Some x /\ exists ts tab p, tables_to_problem td st net "14:00" dist 40 Integer = Ok (ts, tab, p) /\ right_record p x).
    { clear - RR Nd. revert k Nd. induction RR as [|dist' x l l' R RR IH]; intros [|k] Nd; cbn in Nd |- *; try discriminate Nd; [injection Nd as <-; eauto|apply IH; exact Nd]. }
    destruct X as (x & Nx & ts & tab & p & TP & d & q & b & n & _ & O & F & _ & IR & V & _ & _ & FE).
    exists ts, tab, p, (q * gr_d_max r), b, d. split; [exact TP|]. split; [exact (N k x q b Nx O F)|]. split; [exact IR|]. split; [rewrite D, V; reflexivity|exact FE].
  Qed.

  (** What a stored run of an ILP solver is drawn as *)
  Lemma lp_series good solver limit t : solver <> "" -> stored_by text net td st good (with_lp case solver limit t) f ->
    exists r l, read_results f (plot_lp_file solver case (limit_text text limit)) = Ok r /\ series r 12 1 = Ok l /\ List.length l = 12%nat /\
      forall k dist, nth_error (disturbances case (map PInt (dkeys td))) k = Some dist ->
        exists ts tab p z x, tables_to_problem td st net "14:00" dist 40 Integer = Ok (ts, tab, p) /\ nth_error l k = Some (k, z, true) /\
          good p x /\ z == obj_value p x * 40.
  Proof.
    intros NS (o & f0 & f1 & Et & En & RD & RS & GS & H & G). rewrite (lp_name o case solver limit t NS) in G. rewrite Et in G.
    apply glc_inv in H as (_ & _ & td' & st' & how & runs & RD' & HW & HR & ->).
    destruct (reads_same _ _ _ _ _ _ RD RD') as [-> ->]. rewrite (lp_name o case solver limit t NS), Et in G.
    rewrite dget_dset in G. destruct (eq_dec _ _) as [_|X]; [|congruence].
    unfold glc_way in HW. cbn [with_lp g_solve_lp g_time_limit] in HW, GS. destruct (eqb solver "") eqn:E0; [apply eqb_eq in E0; contradiction|]. cbn [negb] in HW.
    destruct (g_solver o solver limit) as [sv|] eqn:SV; [|discriminate HW]. injection HW as <-.
    cbn [with_lp g_case g_category] in HR. rewrite En in HR.
    destruct (all_scenarios _ _ _ _ _ _ _ T HR) as (skip & ts & Hs & Hts & F).
    assert (P : Forall2 (fun dist r => exists tab p x, tables_to_problem td st net "14:00" dist 40 Integer = Ok (ts, tab, p) /\ good p x /\
       run_objective r = Some (obj_value p x * 40) /\ run_feasible r = Some true) (disturbances case (map PInt (dkeys td))) runs).
    { clear - F Hs Hts GS. induction F as [|dist r l l' H F IH]; constructor; [|exact IH].
      destruct (scenario_parts td st net "14:00" 40 Integer _ dist skip ts r Hs Hts H) as (tab & p & TP & _ & _ & x & SX & O & FE).
      exists tab, p, x. split; [exact TP|]. split; [exact (GS sv p x eq_refl SX)|]. auto. }
    assert (L : List.length runs = 12%nat).
    { rewrite <- (proj1 (C79_scenarios case (dkeys td))). clear - P. induction P; cbn [List.length]; congruence. }
    set (r := MkGlcResults _ _ _ runs _) in G.
    destruct (series_ok r 12 1) as (l & E & LL & N).
    { symmetry. exact L. }
    { intros x I. change (gr_runs r) with runs in I. clear - P I. induction P as [|dist y l l' (tab & p & v & _ & _ & O & FE) P IH]; [destruct I|]. destruct I as [<-|I]; [eauto|auto]. }
    exists r, l. split; [unfold read_results; rewrite G; reflexivity|]. split; [exact E|]. split; [exact LL|].
    intros k dist Nd. assert (X : exists y, nth_error runs k = Some y /\ exists tab p x, tables_to_problem td st net "14:00" dist 40 Integer = Ok (ts, tab, p) /\ good p x /\
       run_objective y = Some (obj_value p x * 40) /\ run_feasible y = Some true).
    { clear - P Nd. revert k Nd. induction P as [|dist' x l l' R P IH]; intros [|k] Nd; cbn in Nd |- *; try discriminate Nd; [injection Nd as <-; eauto|apply IH; exact Nd]. }
    destruct X as (y & Ny & tab & p & x & TP & GP & O & FE).
    exists ts, tab, p, (obj_value p x * 40 * 1), x. split; [exact TP|]. split; [exact (N k y _ _ Ny O FE)|]. split; [exact GP|lra].
  Qed.

  (** The plot is made, with twelve points for each run. *)
  Lemma plotted good good' solver limit times t' : solver <> "" -> times <> [] -> (List.length times <= 5)%nat ->
    (forall t, In t times -> stored_by text net td st good (with_cqm case t) f) -> stored_by text net td st good' (with_lp case solver limit t') f ->
    exists qs ls, plot_case f solver case times (limit_text text limit) = Ok (qs, ls) /\ List.length qs = List.length times /\ List.length ls = 12%nat /\
      (exists r, read_results f (plot_lp_file solver case (limit_text text limit)) = Ok r /\ series r 12 1 = Ok ls) /\
      forall i t, nth_error times i = Some t -> exists r l, nth_error qs i = Some l /\ read_results f (plot_quantum_file t case) = Ok r /\ series r (gr_samples r) (gr_d_max r) = Ok l /\ List.length l = 12%nat.
  Proof.
    intros NS NE L5 Q P. destruct (lp_series good' solver limit t' NS P) as (r & ls & Er & Es & Ll & _). unfold plot_case.
    rewrite (firstn_all2 times L5).
    match goal with |- context [mapM ?g times] => destruct (mapM_points g times) as (ys & E & LL & N & M) end.
    { intros t I. destruct (cqm_series good t (Q t I)) as (r' & l & E1 & _ & E2 & _). rewrite E1. cbn [bind]. rewrite E2. cbn [bind]. eauto. }
    rewrite E. cbn [bind]. rewrite Er. cbn [bind].
    destruct (rev ys) as [|[n l0] rest] eqn:RV.
    { apply (f_equal (@List.length _)) in RV. rewrite rev_length, LL in RV. destruct times; [contradiction|discriminate RV]. }
    assert (I0 : In (n, l0) ys) by (apply in_rev; rewrite RV; left; reflexivity).
    destruct (M _ I0) as (t & It & G). destruct (cqm_series good t (Q t It)) as (r' & l & E1 & S12 & E2 & _).
    rewrite E1 in G. cbn [bind] in G. rewrite E2 in G. cbn [bind] in G. injection G as <- _. rewrite S12, Es. cbn [bind].
    exists (map snd ys), ls. split; [reflexivity|]. split; [rewrite map_length; exact LL|]. split; [exact Ll|]. split; [eauto|].
    intros i t0 Nt. destruct (N i t0 Nt) as (y & Ny & G). destruct (cqm_series good t0 (Q t0 (nth_error_In _ _ Nt))) as (r0 & l1 & F1 & _ & F2 & F3 & _).
    exists r0, l1. rewrite F1 in G. cbn [bind] in G. rewrite F2 in G. cbn [bind] in G. injection G as <-.
    split; [rewrite nth_error_map, Ny; reflexivity|auto].
  Qed.
End Drawn.

Lemma some_scenario (td : train_dict) case k : (k < 12)%nat -> exists dist, nth_error (disturbances case (map PInt (dkeys td))) k = Some dist.
Proof.
  intros K. destruct (nth_error _ k) as [d|] eqn:E; [eauto|]. apply nth_error_None in E. rewrite (proj1 (C79_scenarios case (dkeys td))) in E. lia.
Qed.

(** fast_plot.py after runs of the hybrid solver with up to five minimal times and of an exact ILP solver: twelve points for each run.
    A point of the hybrid solver is at the objective of its sample in minutes and green if and only if the sample is a feasible
    plan; a point of the ILP solver is at the least objective; so no green point lies below it. *)
Theorem C89_drawn : forall text net td st f case times solver t',
  tidy td st -> solver <> "" -> times <> [] -> (List.length times <= 5)%nat ->
  (forall t, In t times -> stored_by text net td st optimal (with_cqm case t) f) -> stored_by text net td st optimal (with_lp case solver 0 t') f ->
  exists qs ls, plot_case f solver case times None = Ok (qs, ls) /\ List.length qs = List.length times /\ List.length ls = 12%nat /\
    (forall l, In l qs -> List.length l = 12%nat) /\
    forall k, (k < 12)%nat -> exists dist ts tab p z, nth_error (disturbances case (map PInt (dkeys td))) k = Some dist /\
      tables_to_problem td st net "14:00" dist 40 Integer = Ok (ts, tab, p) /\
      nth_error ls k = Some (k, z, true) /\ (exists x, optimal p x /\ z == obj_value p x * 40) /\
      forall l, In l qs -> exists y g x, nth_error l k = Some (k, y, g) /\ in_range p x /\ y == obj_value p x * 40 /\ (g = true <-> feasible p x) /\
        (g = true -> z <= y).
Proof.
  intros text net td st f case times solver t' T NS NE L5 Q P.
  destruct (plotted text net td st f case T optimal optimal solver 0 times t' NS NE L5 Q P) as (qs & ls & E & L & Ll & (r & E1 & E2) & N).
  assert (NQ : forall l, In l qs -> exists t r, In t times /\ read_results f (plot_quantum_file t case) = Ok r /\ series r (gr_samples r) (gr_d_max r) = Ok l /\ List.length l = 12%nat).
  { intros l I. apply In_nth_error in I as (i & Ni). destruct (nth_error times i) as [t|] eqn:Nt.
    - destruct (N i t Nt) as (r0 & l0 & A & B & C & D). assert (l0 = l) by congruence. subst l0. exists t, r0. split; [exact (nth_error_In _ _ Nt)|auto].
    - exfalso. apply nth_error_None in Nt. assert (i < List.length qs)%nat by (apply nth_error_Some; congruence). lia. }
  exists qs, ls. split; [exact E|]. split; [exact L|]. split; [exact Ll|]. split; [intros l I; destruct (NQ l I) as (? & ? & _ & _ & _ & X); exact X|].
  intros k K. destruct (some_scenario td case k K) as (dist & Nd).
  destruct (lp_series text net td st f case T optimal solver 0 t' NS P) as (r' & l' & F1 & F2 & _ & F3).
  assert (r' = r) by congruence. subst r'. assert (l' = ls) by congruence. subst l'.
  destruct (F3 k dist Nd) as (ts & tab & p & z & x & TP & Nz & OP & V).
  exists dist, ts, tab, p, z. split; [exact Nd|]. split; [exact TP|]. split; [exact Nz|]. split; [eauto|].
  intros l I. destruct (NQ l I) as (t & r0 & It & G1 & G2 & _).
  destruct (cqm_series text net td st f case T optimal t (Q t It)) as (r1 & l1 & H1 & _ & H2 & _ & H3).
  assert (r1 = r0) by congruence. subst r1. assert (l1 = l) by congruence. subst l1.
  destruct (H3 k dist Nd) as (ts' & tab' & p' & y & g & d & TP' & Ny & IR & Y & FE). rewrite TP in TP'. injection TP' as _ _ <-.
  exists y, g, (values d). split; [exact Ny|]. split; [exact IR|]. split; [exact Y|]. split; [exact FE|].
  intros G. apply FE in G. destruct OP as [_ O]. specialize (O _ G). lra.
Qed.
Print Assumptions C89_drawn.

(** fast_plot_lim.py also draws runs of the solver with a time limit: if what it leaves within the limit is feasible, its points are at the
    objectives of feasible plans and not below those of the exact runs. *)
Theorem C89_limited : forall text net td st f case times solver limit t' t2,
  tidy td st -> solver <> "" -> times <> [] -> (List.length times <= 5)%nat -> ~ limit == 0 ->
  (forall t, In t times -> stored_by text net td st optimal (with_cqm case t) f) ->
  stored_by text net td st optimal (with_lp case solver 0 t') f -> stored_by text net td st feasible (with_lp case solver limit t2) f ->
  exists qs ls lims, plot_case f solver case times None = Ok (qs, ls) /\ plot_case f solver case times (Some (text limit)) = Ok (qs, lims) /\
    List.length lims = 12%nat /\
    forall k, (k < 12)%nat -> exists dist ts tab p z z' x, nth_error (disturbances case (map PInt (dkeys td))) k = Some dist /\
      tables_to_problem td st net "14:00" dist 40 Integer = Ok (ts, tab, p) /\
      nth_error ls k = Some (k, z, true) /\ nth_error lims k = Some (k, z', true) /\ feasible p x /\ z' == obj_value p x * 40 /\ z <= z'.
Proof.
  intros text net td st f case times solver limit t' t2 T NS NE L5 NL Q P P2.
  destruct (plotted text net td st f case T optimal optimal solver 0 times t' NS NE L5 Q P) as (qs & ls & E & L & Ll & (r & E1 & E2) & N).
  destruct (plotted text net td st f case T optimal feasible solver limit times t2 NS NE L5 Q P2) as (qs2 & lims & E' & L' & Ll' & (r2 & E1' & E2') & N').
  assert (LT : limit_text text limit = Some (text limit)).
  { unfold limit_text. destruct (Qeq_bool limit 0) eqn:X; [apply Qeq_bool_iff in X; contradiction|reflexivity]. }
  change (limit_text text 0) with (@None string) in E, E1. rewrite LT in E', E1'.
  assert (QQ : qs2 = qs).
  { unfold plot_case in E, E'. destruct (mapM _ (firstn 5 times)) as [ys|]; [|discriminate E]. cbn [bind] in E, E'. rewrite E1 in E. rewrite E1' in E'. cbn [bind] in E, E'.
    destruct (rev ys) as [|[n l0] rest]; [discriminate E|]. destruct (series r n 1); [|discriminate E]. destruct (series r2 n 1); [|discriminate E'].
    cbn [bind] in E, E'. congruence. }
  subst qs2. exists qs, ls, lims. split; [exact E|]. split; [exact E'|]. split; [exact Ll'|].
  intros k K. destruct (some_scenario td case k K) as (dist & Nd).
  destruct (lp_series text net td st f case T optimal solver 0 t' NS P) as (ra & la & F1 & F2 & _ & F3).
  destruct (lp_series text net td st f case T feasible solver limit t2 NS P2) as (rb & lb & G1 & G2 & _ & G3).
  change (limit_text text 0) with (@None string) in F1. rewrite LT in G1.
  assert (ra = r) by congruence. subst ra. assert (la = ls) by congruence. subst la. assert (rb = r2) by congruence. subst rb. assert (lb = lims) by congruence. subst lb.
  destruct (F3 k dist Nd) as (ts & tab & p & z & x & TP & Nz & [_ OP] & V). destruct (G3 k dist Nd) as (ts' & tab' & p' & z' & x' & TP' & Nz' & FE & V').
  rewrite TP in TP'. injection TP' as _ _ <-. exists dist, ts, tab, p, z, z', x'. split; [exact Nd|]. split; [exact TP|]. split; [exact Nz|]. split; [exact Nz'|].
  split; [exact FE|]. split; [exact V'|]. specialize (OP _ FE). lra.
Qed.
Print Assumptions C89_limited.
