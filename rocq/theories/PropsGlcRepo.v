(** * PropsGlcRepo: solve_KO_GLC_problems.py on the tables of the repository, and what fast_plot.py draws of line 3 (C89) *)

From Coq Require Import List String Ascii ZArith NArith QArith Bool Lia Lqa.
From Verif Require Import Base BaseFacts Pulp Helpers LinearSolver Converters Results DataTables DataSets DataTimes Pipeline Runs Script GlcScript
  Spec SpecTables SpecSets SpecDurations SpecEnd SpecQubo SpecNames SpecResults SpecMinutes SpecRuns SpecRecords SpecScript Created Check EndFacts ResultFacts
  RealData PropsReal PropsTotal PropsRuns PropsResults PropsMinutes PropsCqm PropsShippedRuns PropsScript PropsTurns GlcRecords GlcLine3 PropsGlc PropsGlcScript.
Import ListNotations.
Open Scope string_scope.
Open Scope list_scope.

(** The files that the script reads are those of the repository. *)
Definition glc_repository (o : glc_outside) : Prop :=
  g_table o "./data/KO_GLC/trains_schedules_KO_GLC.csv" = Some schedule_glc /\
  g_table o "./data/KO_GLC/trains_schedules_KO_RCB_ZZ_GLC.csv" = Some schedule_glc_r /\
  g_table o "./data/KO_GLC/trains_schedules_KO_RCB_ZZ_GLC_v2.csv" = Some schedule_glc_v2 /\
  g_stations o "./data/KO_GLC/important_stations_KO_GLC.npz" = Some stations_glc /\
  g_stations o "./data/KO_GLC/important_stations_KO_GLC_R.npz" = Some stations_glc_r /\
  g_network o = network.

Lemma glc_repository_cases o case : glc_repository o -> In case [1; 2; 3]%Z ->
  exists data st, g_table o (fst (glc_input case)) = Some data /\ g_stations o (snd (glc_input case)) = Some st /\ In (case, data, st) glc_cases.
Proof.
  intros (R1 & R2 & R3 & R4 & R5 & _) [<-|[<-|[<-|[]]]].
  - exists schedule_glc, stations_glc. split; [exact R1|]. split; [exact R4|]. left. reflexivity.
  - exists schedule_glc_r, stations_glc_r. split; [exact R2|]. split; [exact R5|]. right; left. reflexivity.
  - exists schedule_glc_v2, stations_glc_r. split; [exact R3|]. split; [exact R5|]. right; right; left. reflexivity.
Qed.

Lemma scenario_whole case J dist : In dist (disturbances case J) -> whole_delays dist.
Proof.
  assert (M : forall l, whole_delays (map (fun e : Z * Z => (fst e, inject_Z (snd e))) l)).
  { intros l i q I. apply in_map_iff in I as ([a b] & E & _). cbn [fst snd] in E. injection E as _ <-. exists b. reflexivity. }
  assert (R : forall m, whole_delays (remainders m J)).
  { intros m i q I. unfold remainders in I. apply in_flat_map in I as (j & _ & I). destruct j as [|z|]; try contradiction I.
    destruct I as [E|[]]. injection E as _ <-. eexists. reflexivity. }
  unfold disturbances. intros [<-|I]; [intros i q []|]. destruct (negb (case =? 3)%Z).
  - apply in_app_or in I as [I|I]; [apply in_map_iff in I as (l & <- & _); apply M|]. destruct I as [<-|[<-|[]]]; apply R.
  - apply in_map_iff in I as (l & <- & _). apply M.
Qed.

Lemma runs_done td st case cat how : tidy td st -> named_run case td = true ->
  (forall dist, exists ts tt p, tables_to_problem td st network "14:00" dist 40 cat = Ok (ts, tt, p) /\
     (In dist (disturbances case (map PInt (dkeys td))) ->
        match how with
        | OnlySizes => True
        | WithLp solver => exists x, solver p = Some x /\ exists s, check_count_vars p x = Ok s
        | WithQuantum o m => exists e, solve_on_quantum o p m (script_pdict (5 # 2)) = Ok e
        end)) ->
  exists results, glc_runs td st network case cat how = Ok results.
Proof.
  intros T N B. unfold glc_runs. destruct (B []) as (ts0 & tt0 & p0 & H0 & _). unfold tables_to_problem in H0.
  destruct (get_skip_stations td) as [skip|] eqn:Es; [|discriminate H0]. cbn [bind] in *.
  destruct (make_train_set td st network skip) as [ts|] eqn:Et; [|discriminate H0]. cbn [bind] in *. clear H0 ts0 tt0 p0.
  assert (EJ : ts_J ts = map PInt (dkeys td)).
  { unfold make_train_set in Et. inv_bind Et. inv_bind Et. inv_bind Et. inv_bind Et. inv_bind Et. inversion Et; subst. reflexivity. }
  rewrite EJ. unfold named_run in N. rewrite forallb_forall in N. apply TimeFacts.mapM_total. intros dist ID. pose proof (N _ ID) as I.
  unfold glc_scenario. destruct (B dist) as (ts1 & tt1 & p1 & H1 & SV). specialize (SV ID). unfold tables_to_problem in H1. rewrite Es in H1. cbn [bind] in H1.
  rewrite Et in H1. cbn [bind] in H1. destruct (make_timetable td st skip "14:00" None) as [tt|] eqn:Em; [|discriminate H1]. cbn [bind] in *. cbv zeta in H1.
  assert (D : forall t, foldM (fun t iq => if lmem (PInt (fst iq)) (ts_J ts) then Ok (with_delays [iq] t) else Err AssertionError) dist t = Ok (with_delays dist t)).
  { rewrite EJ. clear - I. induction dist as [|[i q] dist IH]; intros t; [destruct t; reflexivity|]. cbn [forallb fst] in I. apply andb_true_iff in I as [I1 I2].
    cbn [foldM fst]. assert (M : lmem (PInt i) (map PInt (dkeys td)) = true) by (apply lmem_true, in_map, lmem_true; exact I1).
    rewrite M. cbn [bind]. rewrite (IH I2). reflexivity. }
  rewrite D. cbn [bind]. destruct (create_linear_problem ts (with_delays dist tt) 40 cat) as [p|]; [|discriminate H1]. cbn [bind] in *.
  injection H1 as _ _ <-. destruct (count_vars p) as [[a b] c]. destruct how as [|solver|o m]; [eauto| |].
  - destruct SV as (x & SV & s & CC). rewrite SV, CC. cbn [bind]. eauto.
  - destruct SV as (e & ->). cbn [bind]. eauto.
Qed.

(** The sampler returns something for the model of a problem. *)
Definition answers (o : samplers) (m : method) (p : lpproblem) : Prop :=
  match m with
  | Cqm => forall c, convert_to_cqm p = Ok c -> sample_cqm o c <> []
  | _ => forall b interp, convert_to_bqm p (script_pdict (5 # 2)) = Ok (b, interp) -> sample_bqm o m b <> []
  end.

(** It does so for all problems of an invocation. *)
Definition always_answers (o : glc_outside) (a : glc_args) : Prop :=
  forall m td st dist ts tab p, method_of (g_solve_quantum a) = Some m -> glc_reads o a td st ->
  tables_to_problem td st (g_network o) "14:00" dist 40 Integer = Ok (ts, tab, p) -> answers (g_samplers o (g_min_t a)) m p.

Lemma cqm_answer ts tab p o : reserved_free ts -> create_linear_problem ts tab 40 Integer = Ok p -> real_samplers o -> answers o Cqm p ->
  forall pdict, exists e, solve_on_quantum o p Cqm pdict = Ok e.
Proof.
  intros RF Cr RS AN pdict. destruct (C28_total ts tab 40 p RF Cr) as (cq & HC).
  assert (QP : q_process o p Cqm pdict = Ok (sample_cqm o cq)) by (unfold q_process; rewrite HC; reflexivity).
  destruct (created_apart _ _ _ _ _ RF Cr) as (ND & _).
  assert (AS : forall d e, In (d, e) (sample_cqm o cq) -> assigns p d) by (intros d e H; exact (proj1 (C33_in_range ts tab 40 Integer p o Cqm pdict _ RF Cr RS QP d e H))).
  destruct (C31_results p _ ND AS) as (out & HO & _).
  destruct (proj2 (C32_best p _ out ND AS HO) (AN cq HC)) as (e & He & _). exists e. unfold solve_on_quantum. rewrite QP. cbn [bind]. rewrite HO. exact He.
Qed.

(** Every invocation with integer variables on one of the three lines, without solver or with one of the four samplers, ends without
    exception, if the sampler returns samples at all. *)
Theorem C89_answers : forall o a f, glc_repository o -> In (g_case a) [1; 2; 3]%Z -> g_category a = Integer -> g_solve_lp a = "" -> known_method a ->
  real_samplers (g_samplers o (g_min_t a)) -> always_answers o a ->
  exists f1, glc_script o a f = (f1, Ok tt).
Proof.
  intros o a f R IC CA NL KM RS AN. destruct (glc_repository_cases o (g_case a) R IC) as (data & st & E1 & E2 & I).
  assert (EN : g_network o = network) by apply R.
  destruct (PropsGlc.glc_shipped _ _ _ I) as [_ S]. destruct (C69_shipped data st "14:00" S) as (td & E3 & T & C & NP & _ & B).
  pose proof glc_named as N. rewrite forallb_forall in N. specialize (N _ I). cbn beta iota in N. apply if_read_ok in N as (td' & E' & N).
  assert (td' = td) by congruence. subst td'. clear E'.
  destruct (taus_made td st network "14:00" 0 T C) as (t & Et).
  assert (IG : In (data, st, "14:00") shipped_glc).
  { unfold glc_cases in I. unfold shipped_glc. destruct I as [I|[I|[I|[]]]]; injection I as _ <- <-; [left|right; left|right; right; left]; reflexivity. }
  assert (HW : exists how, glc_way o a = Ok how /\ exists runs, glc_runs td st network (g_case a) Integer how = Ok runs).
  { unfold glc_way. rewrite NL. change (eqb "" "") with true. cbn [negb].
    assert (DM : ~ 40 == 0) by (intros Q; discriminate Q).
    destruct (method_of (g_solve_quantum a)) as [m|] eqn:HM; eexists; (split; [reflexivity|]); apply (runs_done td st (g_case a) Integer _ T N); intros dist;
      destruct (B dist 40 Integer DM) as (ts & tab & p & H); exists ts, tab, p; (split; [exact H|]); [|intros _; exact Logic.I].
    intros ID. assert (RD : glc_reads o a td st) by (exists data; rewrite EN; auto).
    rewrite <- EN in H. specialize (AN m td st dist ts tab p HM RD H). rewrite EN in H. pose proof (reserved_ok _ _ _ _ _ _ _ _ _ _ T H) as RF. destruct (EndFacts.parts _ _ _ _ _ _ _ _ _ _ H) as [Cr _].
    assert (MC : m = Cqm \/ m <> Cqm) by (destruct m; [right; discriminate|right; discriminate|right; discriminate|left; reflexivity]). destruct MC as [->|NC].
    - exact (cqm_answer ts tab p _ RF Cr RS AN (script_pdict (5 # 2))).
    - destruct (C86_glc_accepted data st "14:00" td dist 40 ts tab p (script_pdict (5 # 2)) IG E3 (scenario_whole _ _ _ ID) (ex_intro _ 40%Z (Qeq_refl 40)) eq_refl
        (script_complete (5 # 2)) H) as (b & interp & HC).
      apply (qubo_answer ts tab p _ m (script_pdict (5 # 2)) b interp RF Cr NC HC RS). destruct m; try (exact (AN b interp HC)). contradiction. }
  destruct HW as (how & HW & runs & HR).
  exists (dset (glc_file o a) (MkGlcResults (g_solve_lp a) 40 (g_case a) runs (List.length runs)) f). unfold glc_script.
  apply lmem_true in IC. rewrite IC. cbn [negb]. rewrite E1, E2. cbn [bind]. rewrite EN, E3. cbn [bind]. rewrite Et. cbn [bind].
  unfold known_method in KM. apply lmem_true in KM. rewrite KM. cbn [negb]. rewrite HW. cbn [bind]. rewrite CA, HR. reflexivity.
Qed.
Print Assumptions C89_answers.

(** fast_plot.py of line 3 after runs on the tables of the repository: the ILP points are exactly at the objectives
    in the recorded files, and no green point of the hybrid solver lies below them. *)
Theorem C89_line3 : forall text td f times solver t',
  build_timetables schedule_glc_v2 stations_glc_r network = Ok td ->
  solver <> "" -> times <> [] -> (List.length times <= 5)%nat ->
  (forall t, In t times -> stored_by text network td stations_glc_r optimal (with_cqm 3 t) f) ->
  stored_by text network td stations_glc_r optimal (with_lp 3 solver 0 t') f ->
  exists qs ls, plot_case f solver 3 times None = Ok (qs, ls) /\
    Forall2 (fun (pt : point) q => snd (fst pt) == q /\ snd pt = true) ls (recorded_objectives 3) /\
    forall l k y q, In l qs -> nth_error l k = Some (k, y, true) -> nth_error (recorded_objectives 3) k = Some q -> q <= y.
Proof.
  intros text td f times solver t' E NS NE L5 Q P.
  assert (I : In (3%Z, schedule_glc_v2, stations_glc_r) glc_cases) by (right; right; left; reflexivity).
  destruct (PropsGlc.glc_shipped _ _ _ I) as [C3 S]. destruct (C69_shipped schedule_glc_v2 stations_glc_r "14:00" S) as (td' & E' & T & _).
  assert (Et : td' = td) by congruence. rewrite Et in T. clear E' Et.
  destruct (C89_drawn text network td stations_glc_r f 3 times solver t' T NS NE L5 Q P) as (qs & ls & PL & _ & LL & _ & K).
  destruct (recorded_lengths 3 C3) as [_ LR].
  assert (V : forall k q, nth_error (recorded_objectives 3) k = Some q -> exists z, nth_error ls k = Some (k, z, true) /\ z == q /\
    forall l y, In l qs -> nth_error l k = Some (k, y, true) -> z <= y).
  { intros k q Nq. assert (K12 : (k < 12)%nat) by (rewrite <- LR; apply nth_error_Some; rewrite Nq; discriminate).
    destruct (K k K12) as (dist & ts & tab & p & z & Nd & TP & Nz & (x & [Fx Ox] & Z) & G).
    exists z. split; [exact Nz|]. split.
    - destruct (proj2 (C83_optima_partial 3%Z schedule_glc_v2 stations_glc_r td k dist ts tab p I eq_refl E Nd TP) q Nq) as (x' & [F' O'] & V').
      specialize (Ox x' F'). specialize (O' x Fx). lra.
    - intros l y Il Ny. destruct (G l Il) as (y' & g & x2 & Ny' & _ & _ & _ & GZ). rewrite Ny in Ny'. injection Ny' as <- <-. exact (GZ eq_refl). }
  exists qs, ls. split; [exact PL|]. split.
  - apply all_nth; [congruence|]. intros k pt q Np Nq. destruct (V k q Nq) as (z & Nz & EQ & _). rewrite Np in Nz. injection Nz as ->. cbn. auto.
  - intros l k y q Il Ny Nq. destruct (V k q Nq) as (z & _ & EQ & G). specialize (G l y Il Ny). lra.
Qed.
Print Assumptions C89_line3.

(** ** A case: line 3, with a sampler that returns zeros and the solver of C83 *)

(** A text of numbers as [written_apart] asks for *)
Definition fraction_text (q : Q) : string := (str_of_Z (Qnum (Qred q)) ++ "/" ++ str_of_Z (Zpos (Qden (Qred q))))%string.

Lemma fraction_apart : written_apart fraction_text.
Proof.
  assert (NS : forall z, QuboFacts.allc (fun c => negb (Ascii.eqb c "/"%char)) (str_of_Z z) = true).
  { intros z. unfold str_of_Z, DecimalString.NilZero.string_of_int.
    assert (H : forall u, QuboFacts.allc (fun c => negb (Ascii.eqb c "/"%char)) (DecimalString.NilEmpty.string_of_uint u) = true) by (induction u; cbn; auto).
    assert (H' : forall u, QuboFacts.allc (fun c => negb (Ascii.eqb c "/"%char)) (DecimalString.NilZero.string_of_uint u) = true) by (intros []; cbn; auto).
    destruct (Z.to_int z) as [w|w]; cbn [QuboFacts.allc]; rewrite ?H'; reflexivity. }
  assert (SP : forall a b a' b', QuboFacts.allc (fun c => negb (Ascii.eqb c "/"%char)) a = true -> QuboFacts.allc (fun c => negb (Ascii.eqb c "/"%char)) a' = true ->
    (a ++ "/" ++ b)%string = (a' ++ "/" ++ b')%string -> a = a' /\ b = b').
  { induction a as [|x a IH]; intros b [|x' a'] b' Ha Ha' E; cbn in *.
    - injection E as E. auto.
    - injection E as <- _. discriminate Ha'.
    - injection E as -> _. discriminate Ha.
    - injection E as -> E. apply andb_true_iff in Ha as [_ Ha]. apply andb_true_iff in Ha' as [_ Ha']. destruct (IH b a' b' Ha Ha' E) as [-> ->]. auto. }
  split.
  - intros q. unfold fraction_text. apply TimeFacts.no_us_allc. rewrite !QuboFacts.allc_app. rewrite !(proj1 (TimeFacts.no_us_allc _) (TimeFacts.number_no_us _)). reflexivity.
  - intros q q' E. apply SP in E as [E1 E2]; try apply NS. apply QuboFacts.str_of_Z_inj in E1, E2. rewrite <- (Qred_correct q), <- (Qred_correct q').
    destruct (Qred q) as [n d], (Qred q') as [n' d']. cbn in E1, E2. injection E2 as ->. subst n'. reflexivity.
Qed.

Definition glc_outside_case : glc_outside := MkGlcOutside fraction_text
  (fun n => if eqb n "./data/KO_GLC/trains_schedules_KO_GLC.csv" then Some schedule_glc
            else if eqb n "./data/KO_GLC/trains_schedules_KO_RCB_ZZ_GLC.csv" then Some schedule_glc_r
            else if eqb n "./data/KO_GLC/trains_schedules_KO_RCB_ZZ_GLC_v2.csv" then Some schedule_glc_v2 else None)
  (fun n => if eqb n "./data/KO_GLC/important_stations_KO_GLC.npz" then Some stations_glc
            else if eqb n "./data/KO_GLC/important_stations_KO_GLC_R.npz" then Some stations_glc_r else None)
  network (fun n _ => if eqb n "CBC" then Some (certified_solver line3) else None) (fun _ => PropsScript.zero_samplers).

Lemma case_repository : glc_repository glc_outside_case.
Proof. repeat split; reflexivity. Qed.

Lemma case_answers case t : In case [1; 2; 3]%Z -> always_answers glc_outside_case (with_cqm case t).
Proof.
  intros IC m td st dist ts tab p HM RD H. injection HM as <-. intros c CC.
  destruct (glc_repository_cases _ case case_repository IC) as (data & st1 & E1 & E2 & I).
  destruct RD as (data' & E1' & E2' & E3). change (g_case (with_cqm case t)) with case in E1', E2'.
  assert (X : data' = data) by congruence. assert (Y : st1 = st) by congruence. rewrite X in E3. rewrite Y in I. clear X Y E1 E2 E1' E2'.
  change (g_network glc_outside_case) with network in E3, H.
  destruct (PropsGlc.glc_shipped _ _ _ I) as [_ S]. destruct (C69_shipped data st "14:00" S) as (td' & E' & T & _).
  assert (X : td' = td) by congruence. rewrite X in T. clear E' X.
  apply (zero_answers ts tab 40 p c (Qle_bool_imp_le 0 40 eq_refl) (reserved_ok _ _ _ _ _ _ _ _ _ _ T H) (proj1 (EndFacts.parts _ _ _ _ _ _ _ _ _ _ H)) CC).
Qed.

(** Three runs one after another, and the plot *)
Example C89_case : exists td f1 f2 f3 qs ls,
  build_timetables schedule_glc_v2 stations_glc_r network = Ok td /\
  glc_script glc_outside_case (with_cqm 3 5) [] = (f1, Ok tt) /\ glc_script glc_outside_case (with_cqm 3 20) f1 = (f2, Ok tt) /\
  glc_script glc_outside_case (with_lp 3 "CBC" 0 5) f2 = (f3, Ok tt) /\
  (forall t, In t [5; 20]%Z -> stored_by fraction_text network td stations_glc_r optimal (with_cqm 3 t) f3) /\
  stored_by fraction_text network td stations_glc_r optimal (with_lp 3 "CBC" 0 5) f3 /\
  plot_case f3 "CBC" 3 [5; 20]%Z None = Ok (qs, ls) /\ Forall2 (fun (pt : point) q => snd (fst pt) == q /\ snd pt = true) ls (recorded_objectives 3).
Proof.
  assert (IC : In 3%Z [1; 2; 3]%Z) by (right; right; left; reflexivity).
  assert (KM : forall t, known_method (with_cqm 3 t)) by (intros t; do 4 right; left; reflexivity).
  destruct (C89_answers glc_outside_case (with_cqm 3 5) [] case_repository IC eq_refl eq_refl (KM 5%Z) PropsScript.zero_real (case_answers 3 5 IC)) as (f1 & S1).
  destruct (C89_answers glc_outside_case (with_cqm 3 20) f1 case_repository IC eq_refl eq_refl (KM 20%Z) PropsScript.zero_real (case_answers 3 20 IC)) as (f2 & S2).
  assert (I : In (3%Z, schedule_glc_v2, stations_glc_r) glc_cases) by (right; right; left; reflexivity).
  destruct (C83_case 3%Z schedule_glc_v2 stations_glc_r I eq_refl) as (td & runs & E & EX & HR).
  destruct (PropsGlc.glc_shipped _ _ _ I) as [_ S]. destruct (C69_shipped schedule_glc_v2 stations_glc_r "14:00" S) as (td' & E' & T & C & _).
  assert (X : td' = td) by congruence. rewrite X in T, C. clear E' X. destruct (taus_made td stations_glc_r network "14:00" 0 T C) as (t & Et).
  pose (f3 := dset (glc_file glc_outside_case (with_lp 3 "CBC" 0 5)) (MkGlcResults "CBC" 40 3 runs (List.length runs)) f2).
  assert (S3 : glc_script glc_outside_case (with_lp 3 "CBC" 0 5) f2 = (f3, Ok tt)).
  { unfold glc_script. cbn [with_lp g_case g_solve_quantum g_category g_solve_lp].
    change (lmem 3%Z [1; 2; 3]%Z) with true. cbn [negb].
    change (g_table glc_outside_case (fst (glc_input 3))) with (Some schedule_glc_v2). change (g_stations glc_outside_case (snd (glc_input 3))) with (Some stations_glc_r).
    change (g_network glc_outside_case) with network. cbn [bind]. rewrite E. cbn [bind]. rewrite Et. cbn [bind].
    change (lmem "" [""; "sim"; "real"; "bqm"; "cqm"]) with true. cbn [negb].
    change (glc_way glc_outside_case (with_lp 3 "CBC" 0 5)) with (Ok (WithLp (certified_solver line3)) : res way_to_solve). cbn [bind]. rewrite HR. reflexivity. }
  assert (ST : forall t fa fb, glc_script glc_outside_case (with_cqm 3 t) fa = (fb, Ok tt) ->
    dget (plot_quantum_file t 3) f3 = dget (plot_quantum_file t 3) fb -> stored_by fraction_text network td stations_glc_r optimal (with_cqm 3 t) f3).
  { intros t0 fa fb Sr G. exists glc_outside_case, fa, fb. split; [reflexivity|]. split; [reflexivity|]. split.
    { exists schedule_glc_v2. split; [reflexivity|]. split; [reflexivity|exact E]. }
    split; [exact PropsScript.zero_real|]. split; [intros sv p x SV; discriminate SV|]. split; [exact Sr|]. rewrite cqm_name. exact G. }
  assert (G3 : forall g, g <> glc_file glc_outside_case (with_lp 3 "CBC" 0 5) -> dget g f3 = dget g f2).
  { intros g N. unfold f3. rewrite dget_dset. destruct (eq_dec g _); congruence. }
  assert (RD : glc_reads glc_outside_case (with_cqm 3 20) td stations_glc_r) by (exists schedule_glc_v2; split; [reflexivity|]; split; [reflexivity|exact E]).
  pose proof (proj1 (proj2 (C89_stored glc_outside_case (with_cqm 3 20) f1 f2) td stations_glc_r RD T S2)) as G2.
  assert (Q : forall t, In t [5; 20]%Z -> stored_by fraction_text network td stations_glc_r optimal (with_cqm 3 t) f3).
  { intros t0 [<-|[<-|[]]].
    - apply (ST 5%Z [] f1 S1). rewrite G3 by discriminate. apply G2. discriminate.
    - apply (ST 20%Z f1 f2 S2). apply G3. discriminate. }
  assert (P : stored_by fraction_text network td stations_glc_r optimal (with_lp 3 "CBC" 0 5) f3).
  { exists glc_outside_case, f2, f3. split; [reflexivity|]. split; [reflexivity|]. split; [exact RD|]. split; [exact PropsScript.zero_real|]. split.
    - intros sv p x SV. change (g_solver glc_outside_case "CBC" 0) with (Some (certified_solver line3)) in SV. injection SV as <-. apply EX.
    - split; [exact S3|reflexivity]. }
  destruct (C89_line3 fraction_text td f3 [5; 20]%Z "CBC" 5%Z E) as (qs & ls & PL & F & _); [discriminate|discriminate|cbn; lia|exact Q|exact P|].
  exists td, f1, f2, f3, qs, ls. split; [exact E|]. split; [exact S1|]. split; [exact S2|]. split; [exact S3|]. split; [exact Q|]. split; [exact P|]. split; [exact PL|exact F].
Qed.

(** File names of runs with and without a time limit, which [C89_files_apart] tells apart *)
Example C89_files_case : written_apart (g_text glc_outside_case) /\ known_method (with_lp 3 "PULP_CBC_CMD" 5 5) /\ plain_solver "PULP_CBC_CMD" /\
  glc_file glc_outside_case (with_lp 3 "PULP_CBC_CMD" 5 5) = "results_KO_GLC/results_PULP_CBC_CMD_ilp_t_lim5/1__3_Integer.pkl" /\
  glc_file glc_outside_case (with_cqm 3 20) = "results_KO_GLC/results20__cqm_3_Integer.pkl".
Proof.
  split; [exact fraction_apart|]. split; [left; reflexivity|]. split; [|split; reflexivity].
  intros u v E. do 12 (destruct u as [|? u]; [discriminate E|cbn in E; injection E as _ E]). destruct u; discriminate E.
Qed.
