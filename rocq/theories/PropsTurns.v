(** * PropsTurns: which scenarios of the repository's tables become QUBOs (C86) *)

From Coq Require Import List String ZArith QArith Bool Lia Lqa.
From Verif Require Import Base BaseFacts Pulp Helpers LinearSolver Converters DataTables DataSets DataTimes Pipeline Runs
  Spec SpecFacts SpecTables SpecDurations SpecSets SpecEnd SpecQubo SpecNames SpecMinutes SpecCompare SpecRoom Created Check Accept Integral QuboModel
  TableFacts SetFacts TimeFacts EndFacts MinuteFacts Sound Objective RealData Results Script PropsSchedule PropsTotal PropsQubo PropsScenario PropsMinutes PropsReal
  PropsScript RoomFacts PropsRoom TurnFacts.
From Verif Require Import DataTables SpecResults PropsResults ResultFacts.
Import ListNotations.
Open Scope string_scope.
Open Scope list_scope.

(** ** What is checked of the tables *)

(** The tables of solve_real_problem.py and those of solve_KO_GLC_problems.py *)
Definition shipped_real : list (list line * station_blocks * string) :=
  [(schedule_main, stations_main, "16:00"); (schedule_gt, stations_gt, "16:00");
   (schedule_1track, stations_main, "16:00"); (schedule_1track_gt, stations_gt, "16:00")].
Definition shipped_glc : list (list line * station_blocks * string) :=
  [(schedule_glc, stations_glc, "14:00"); (schedule_glc_r, stations_glc_r, "14:00"); (schedule_glc_v2, stations_glc_r, "14:00")].

(** The three turnarounds at Katowice: the rolling stock is ready at the first time (in minutes after 16:00), the next train
    is due at the second one. *)
Definition real_turns : list turn :=
  [("KO", (421009, 42100)%Z, (-3, 8)); ("KO", (34319, 343199)%Z, (18, 14)); ("KO", (54101, 541019)%Z, (32, 28))].

Definition turn_eqb (a b : turn) : bool :=
  let '(s, (j, k), (t, e)) := a in let '(s', (j', k'), (t', e')) := b in
  String.eqb s s' && Z.eqb j j' && Z.eqb k k' && Qeq_bool t t' && Qeq_bool e e'.

Fixpoint turns_eqb (l l' : list turn) : bool :=
  match l, l' with
  | [], [] => true
  | a :: l, b :: l' => turn_eqb a b && turns_eqb l l'
  | _, _ => false
  end.

(** Some delay is part of the objective. *)
Definition weightedb (td : train_dict) : bool :=
  match get_skip_stations td with
  | Err _ => false
  | Ok sk =>
      match make_weights td sk (MkWeights 1 (3 # 2) (7 # 4) 0) with
      | Err _ => false
      | Ok w =>
          existsb (fun e => existsb (fun s => match dget (key_js (train (fst e)) (station s)) w with
                                              | Some q => negb (Qeq_bool q 0)
                                              | None => false
                                              end) (snd e)) (get_Paths td)
      end
  end.

Definition turnsb (td : train_dict) (st : station_blocks) (t1 : string) (known : list (Z * Q)) (expected : list turn) : bool :=
  match turns_of td st t1 known with Ok l => turns_eqb l expected | Err _ => false end.

Definition turn_tables_ok (expected : list turn) (x : list line * station_blocks * string) : bool :=
  let '(data, st, t1) := x in
  if_read (build_timetables data st network) (fun td => whole_turnsb td && weightedb td && turnsb td st t1 [] expected).

(** The same if train 34319 is 36 minutes late *)
Definition late_turns : list turn :=
  [("KO", (421009, 42100)%Z, (-3, 8)); ("KO", (34319, 343199)%Z, (54, 14)); ("KO", (54101, 541019)%Z, (32, 28))].
Definition late_turns_ok : bool :=
  if_read (build_timetables schedule_main stations_main network) (fun td => turnsb td stations_main "16:00" [(34319%Z, 36)] late_turns).

Lemma real_turns_ok : forallb (turn_tables_ok real_turns) shipped_real = true.
Proof. vm_cast_no_check (eq_refl true). Qed.
Lemma glc_turns_ok : forallb (turn_tables_ok []) shipped_glc = true.
Proof. vm_cast_no_check (eq_refl true). Qed.
Lemma late_ok : late_turns_ok = true.
Proof. vm_cast_no_check (eq_refl true). Qed.

Lemma turns_eqb_in l : forall l' s j k t e, turns_eqb l l' = true ->
  (In (s, (j, k), (t, e)) l -> exists t' e', In (s, (j, k), (t', e')) l' /\ t == t' /\ e == e') /\
  (In (s, (j, k), (t, e)) l' -> exists t' e', In (s, (j, k), (t', e')) l /\ t == t' /\ e == e').
Proof.
  induction l as [|[[s0 [j0 k0]] [t0 e0]] l IH]; intros [|[[s1 [j1 k1]] [t1 e1]] l'] s j k t e H; try discriminate H; [split; intros []|].
  cbn in H. rewrite !andb_true_iff in H. destruct H as [[[[[H1 H2] H3] H4] H5] H]. apply String.eqb_eq in H1. apply Z.eqb_eq in H2, H3.
  apply Qeq_bool_iff in H4, H5. subst. destruct (IH l' s j k t e H) as [A B]. split; intros [E|I].
  - inversion E; subst. exists t1, e1. split; [left; reflexivity|auto].
  - destruct (A I) as (t' & e' & I' & Q). exists t', e'. split; [right; exact I'|exact Q].
  - inversion E; subst. exists t0, e0. split; [left; reflexivity|]. split; lra.
  - destruct (B I) as (t' & e' & I' & Q). exists t', e'. split; [right; exact I'|exact Q].
Qed.

Lemma turnsb_ok td st t1 known expected : turnsb td st t1 known expected = true ->
  exists l, turns_of td st t1 known = Ok l /\ turns_eqb l expected = true.
Proof. unfold turnsb. destruct (turns_of td st t1 known) as [l|]; [eauto|discriminate]. Qed.

Lemma weightedb_ok td st net t1 delays d_max cat ts tab p : tidy td st -> made td st net t1 delays ts tab ->
  create_linear_problem ts tab d_max cat = Ok p -> reserved_free ts -> weightedb td = true -> exists v, In v (variables p).
Proof.
  intros T M Cr RF W. pose proof M as ((sk & w & Esk & _ & Ew & Et) & Ep & EJ & _). unfold weightedb in W. rewrite Esk, Ew in W.
  apply existsb_exists in W as ([t path] & I & W). apply existsb_exists in W as (s & Is & W). cbn [fst snd] in *.
  destruct (dget (key_js (train t) (station s)) w) as [q|] eqn:G; [|discriminate W].
  assert (V : In (train t, station s) (visits ts)).
  { unfold visits, stations_of. rewrite EJ, Ep. apply in_flat_map.
    assert (N : NoDup (dkeys (get_Paths td))) by (unfold get_Paths, dkeys; rewrite map_map; exact (tidy_trains _ _ T)).
    exists (train t). split.
    - unfold trains. apply in_map. unfold get_Paths in I. apply in_map_iff in I as (x & E & I). inversion E; subst. apply in_map. exact I.
    - apply in_map_iff. exists (station s). split; [reflexivity|].
      unfold emb_paths. rewrite (dget_embed train (map station) _ t train_inj). rewrite (in_dget t path _ N I). cbn. apply in_map. exact Is. }
  assert (NZ : ~ penalty_weights tab (fst (train t, station s)) (snd (train t, station s)) == 0).
  { cbn [fst snd]. unfold penalty_weights. rewrite Et, G. intros X. apply Qeq_bool_iff in X. rewrite X in W. discriminate W. }
  destruct (weighted_in ts tab d_max cat p RF Cr _ V NZ) as (X & _). apply in_map_iff in X as (v & _ & X). eauto.
Qed.

Lemma turn_tables_facts expected l : forallb (turn_tables_ok expected) l = true ->
  forall data st t1 td, In (data, st, t1) l -> build_timetables data st network = Ok td ->
  whole_turns td /\ weightedb td = true /\ exists turns, turns_of td st t1 [] = Ok turns /\ turns_eqb turns expected = true.
Proof.
  intros B data st t1 td I E. rewrite forallb_forall in B. apply B in I. unfold turn_tables_ok in I. apply if_read_ok in I as (td' & E' & I).
  rewrite E in E'. injection E' as E'. rewrite <- E' in I. apply andb_true_iff in I as [I C]. apply andb_true_iff in I as [A W].
  split; [apply whole_turnsb_ok; exact A|]. split; [exact W|apply turnsb_ok; exact C].
Qed.

Lemma real_shipped x : In x shipped_real -> In x shipped.
Proof. unfold shipped_real, shipped. intros [<-|[<-|[<-|[<-|[]]]]]; [left|right; left|right; right; left|right; right; right; left]; reflexivity. Qed.
Lemma glc_shipped x : In x shipped_glc -> In x shipped.
Proof.
  unfold shipped_glc, shipped. intros [<-|[<-|[<-|[]]]]; do 4 right; [left|right; left|right; right; left]; reflexivity.
Qed.

(** ** Accepted scenarios *)

(** The delay that a scenario without any delay needs at each of the three turnarounds (negative: time to spare) *)
Definition turn_needs : list (Z * Q) := [(421009%Z, -11); (34319%Z, 4); (54101%Z, 4)].

(** C86: with the tables of solve_real_problem.py, a scenario of delays in whole minutes becomes a QUBO if each turning train is
    so little late that its rolling stock can leave again with less than the largest delay. *)
Theorem C86_accepted : forall data st t1 td delays d_max ts tab p pdict,
  In (data, st, t1) shipped_real -> build_timetables data st network = Ok td ->
  whole_delays delays -> (forall i q, In (i, q) delays -> 0 <= q) -> is_int d_max -> 0 < d_max -> all_penalties pdict ->
  (forall a n D, In (a, n) turn_needs -> delay_reached a delays D -> D + n < d_max) ->
  tables_to_problem td st network t1 delays d_max Integer = Ok (ts, tab, p) ->
  exists b interp, convert_to_bqm p pdict = Ok (b, interp).
Proof.
  intros data st t1 td delays d ts tab p pdict I E WD Pos DI DP PD L H.
  destruct (shipped_facts data st t1 (real_shipped _ I)) as (td' & E' & T & C & _).
  rewrite E in E'. injection E' as E'. rewrite <- E' in T, C. clear E'.
  destruct (turn_tables_facts _ _ real_turns_ok _ _ _ _ I E) as (W & WB & turns & Et & Eq). clear I E.
  pose proof (reserved_ok _ _ _ _ _ _ _ _ _ _ T H) as RF. pose proof (none_ok _ _ _ _ _ _ _ _ _ _ T H) as NF.
  destruct (EndFacts.parts _ _ _ _ _ _ _ _ _ _ H) as (Cr & M).
  apply (C54_turnarounds ts tab d p pdict RF NF (made_starts _ _ _ _ _ _ _ T C M) (made_integral _ _ _ _ _ _ _ W WD M) DI DP Cr
    (weightedb_ok _ _ _ _ _ _ _ _ _ _ T M Cr RF WB) PD).
  intros s j jp t e TA.
  destruct (turn_later td st network t1 [] delays ts tab turns T M RF Et Pos s j jp t e TA) as (s' & a & b & t0 & e0 & -> & -> & -> & IT & B).
  destruct (B (reaches delays a) (reaches delays b) (reaches_ok delays a) (reaches_ok delays b)) as [B1 B2].
  destruct (proj1 (turns_eqb_in turns real_turns s' a b t0 e0 Eq) IT) as (t2 & e2 & I2 & Q1 & Q2).
  assert (N : exists n, In (a, n) turn_needs /\ n == t2 - e2).
  { unfold real_turns in I2. cbn [In] in I2. destruct I2 as [X|[X|[X|[]]]]; inversion X; subst;
      [exists (-11)|exists 4|exists 4]; (split; [unfold turn_needs; cbn [In]; auto|reflexivity]). }
  destruct N as (n & IN & En). pose proof (L a n _ IN (reaches_ok delays a)). lra.
Qed.
Print Assumptions C86_accepted.

(** The tables of solve_KO_GLC_problems.py have no turnarounds: every scenario in whole minutes becomes a QUBO. *)
Theorem C86_glc_accepted : forall data st t1 td delays d_max ts tab p pdict,
  In (data, st, t1) shipped_glc -> build_timetables data st network = Ok td ->
  whole_delays delays -> is_int d_max -> 0 < d_max -> all_penalties pdict ->
  tables_to_problem td st network t1 delays d_max Integer = Ok (ts, tab, p) ->
  exists b interp, convert_to_bqm p pdict = Ok (b, interp).
Proof.
  intros data st t1 td delays d ts tab p pdict I E WD DI DP PD H.
  destruct (shipped_facts data st t1 (glc_shipped _ I)) as (td' & E' & T & C & _).
  rewrite E in E'. injection E' as E'. rewrite <- E' in T, C. clear E'.
  destruct (turn_tables_facts _ _ glc_turns_ok _ _ _ _ I E) as (W & WB & turns & Et & Eq). clear I E.
  pose proof (reserved_ok _ _ _ _ _ _ _ _ _ _ T H) as RF. pose proof (none_ok _ _ _ _ _ _ _ _ _ _ T H) as NF.
  destruct (EndFacts.parts _ _ _ _ _ _ _ _ _ _ H) as (Cr & M).
  apply (C54_turnarounds ts tab d p pdict RF NF (made_starts _ _ _ _ _ _ _ T C M) (made_integral _ _ _ _ _ _ _ W WD M) DI DP Cr
    (weightedb_ok _ _ _ _ _ _ _ _ _ _ T M Cr RF WB) PD).
  intros s j jp t e (pairs & sp & e1 & r & pr & I & J & _).
  destruct (base_parts td st network t1 [] delays ts tab M) as (tt0 & d0 & Bt & Ed & Jr & _).
  destruct (round_in ts d0 s pairs j jp Jr I J) as (s' & a & b & _ & _ & _ & F). unfold turns_of in Et. rewrite Ed, Bt in Et. cbn [bind] in Et.
  destruct (mapM_image _ _ _ _ Et F) as (x & _ & Ix). destruct turns as [|y turns]; [destruct Ix|discriminate Eq].
Qed.
Print Assumptions C86_glc_accepted.

Lemma real_cases o a : repository o -> In (a_case a) [0; 1; 2; 3; 4; 5; 6; 7; 8; 9]%Z ->
  exists data st, o_table o (fst (input_files (a_case a))) = Some data /\ o_stations o (snd (input_files (a_case a))) = Some st /\
    In (data, st, "16:00") shipped_real.
Proof.
  intros (R1 & R2 & R3 & R4 & R5 & R6 & _) IC. unfold shipped_real. cbn [In] in IC.
  assert (K : (a_case a = 0 \/ a_case a = 1 \/ a_case a = 2 \/ a_case a = 3)%Z \/ (a_case a = 4 \/ a_case a = 5)%Z \/ (a_case a = 6)%Z \/
    (a_case a = 7 \/ a_case a = 8 \/ a_case a = 9)%Z) by lia. clear IC.
  destruct K as [K|[K|[K|K]]].
  - exists schedule_main, stations_main.
    assert (E : input_files (a_case a) = ("./data/trains_schedules.csv", "./data/important_stations.npz")) by (destruct K as [->|[->|[->| ->]]]; reflexivity).
    rewrite E. cbn [fst snd]. split; [exact R1|]. split; [exact R5|]. left. reflexivity.
  - exists schedule_gt, stations_gt.
    assert (E : input_files (a_case a) = ("./data/trains_schedules_Gt.csv", "./data/important_stations_Gt.npz")) by (destruct K as [->| ->]; reflexivity).
    rewrite E. cbn [fst snd]. split; [exact R2|]. split; [exact R6|]. right; left. reflexivity.
  - exists schedule_1track, stations_main.
    assert (E : input_files (a_case a) = ("./data/trains_schedules_1track.csv", "./data/important_stations.npz")) by (rewrite K; reflexivity).
    rewrite E. cbn [fst snd]. split; [exact R3|]. split; [exact R5|]. right; right; left. reflexivity.
  - exists schedule_1track_gt, stations_gt.
    assert (E : input_files (a_case a) = ("./data/trains_schedules_1track_Gt.csv", "./data/important_stations_Gt.npz")) by (destruct K as [->|[->| ->]]; reflexivity).
    rewrite E. cbn [fst snd]. split; [exact R4|]. split; [exact R6|]. right; right; right; left. reflexivity.
Qed.

Lemma reached_fun t ds d : delay_reached t ds d -> forall d', delay_reached t ds d' -> d == d'.
Proof.
  induction 1 as [|u q ds d E H IH|u q ds d E H IH]; intros d' H'; inversion H'; subst; try contradiction; [reflexivity| |]; auto.
  rewrite (IH _ ltac:(eassumption)). reflexivity.
Qed.

Lemma real_delays_small a n D case : (case < 10)%nat -> In (a, n) turn_needs -> delay_reached a (real_delays case) D -> D + n < 40.
Proof.
  intros C I DR.
  assert (X : forallb (fun c => forallb (fun e => negb (Qle_bool 40 (reaches (real_delays c) (fst e) + snd e))) turn_needs) (seq 0 10) = true) by (vm_compute; reflexivity).
  rewrite forallb_forall in X. specialize (X case). rewrite in_seq in X. specialize (X ltac:(lia)). rewrite forallb_forall in X. apply X in I.
  cbn [fst snd] in I. apply negb_true_iff in I. rewrite (reached_fun _ _ _ DR _ (reaches_ok _ _)).
  destruct (Qlt_le_dec (reaches (real_delays case) a + n) 40) as [L|L]; [exact L|]. apply Qle_bool_iff in L. congruence.
Qed.

(** Every case of solve_real_problem.py becomes a QUBO, with every penalty. *)
Theorem C86_script : forall o a t ts tab p q, repository o -> In (a_case a) [0; 1; 2; 3; 4; 5; 6; 7; 8; 9]%Z -> a_category a = Integer ->
  prepare o a = Ok (t, ts, tab, p) -> exists b interp, convert_to_bqm p (script_pdict q) = Ok (b, interp).
Proof.
  intros o a t ts tab p q R IC CA P. destruct (prepare_ok _ _ _ _ _ _ P) as (td & st & (data & A1 & A2 & A3 & A4) & _).
  destruct (real_cases o a R IC) as (data' & st' & B1 & B2 & I). destruct R as (_ & _ & _ & _ & _ & _ & EN).
  rewrite A1 in B1. injection B1 as B1. rewrite A2 in B2. injection B2 as B2. rewrite <- B1, <- B2 in I. rewrite EN in A3, A4. rewrite CA in A4.
  assert (K : (Z.to_nat (a_case a) < 10)%nat) by (cbn [In] in IC; lia).
  assert (Sg : forallb (fun c => forallb (fun e => Qle_bool 0 (snd e) && Pos.eqb (Qden (snd e)) 1) (real_delays c)) (seq 0 10) = true) by (vm_compute; reflexivity).
  rewrite forallb_forall in Sg. specialize (Sg (Z.to_nat (a_case a))). rewrite in_seq in Sg. specialize (Sg ltac:(lia)). rewrite forallb_forall in Sg.
  apply (C86_accepted data st "16:00" td (real_delays (Z.to_nat (a_case a))) 40 ts tab p (script_pdict q) I A3); auto.
  - intros i x J. apply Sg in J. apply andb_true_iff in J as [_ J]. apply Pos.eqb_eq in J. cbn [snd] in J. exists (Qnum x). destruct x as [nu de]. cbn in J |- *. subst. reflexivity.
  - intros i x J. apply Sg in J. apply andb_true_iff in J as [J _]. apply Qle_bool_iff in J. exact J.
  - exists 40%Z. reflexivity.
  - reflexivity.
  - apply script_complete.
  - intros u n D J DR. exact (real_delays_small u n D _ K J DR).
Qed.
Print Assumptions C86_script.

(** ** Trains that cannot be on time *)

(** C86: in every solution, whatever the delays, the trains 343199 and 541019 leave Katowice at 16:18 and 16:32 at the earliest,
    since their rolling stock is not ready before; *)
Theorem C86_not_before : forall data st t1 td delays d_max cat ts tab p x,
  In (data, st, t1) shipped_real -> build_timetables data st network = Ok td ->
  (forall i q, In (i, q) delays -> 0 <= q) -> 0 < d_max ->
  tables_to_problem td st network t1 delays d_max cat = Ok (ts, tab, p) -> feasible p x ->
  (forall a, Spec.departs ts tab p x (train 343199) (station "KO") a -> 18 <= a) /\
  (forall a, Spec.departs ts tab p x (train 541019) (station "KO") a -> 32 <= a).
Proof.
  intros data st t1 td delays d cat ts tab p x I E Pos DP H F.
  destruct (shipped_facts data st t1 (real_shipped _ I)) as (td' & E' & T & C & _).
  rewrite E in E'. injection E' as E'. rewrite <- E' in T, C. clear E'.
  destruct (turn_tables_facts _ _ real_turns_ok _ _ _ _ I E) as (W & WB & turns & Et & Eq). clear I E.
  pose proof (reserved_ok _ _ _ _ _ _ _ _ _ _ T H) as RF. pose proof (none_ok _ _ _ _ _ _ _ _ _ _ T H) as NF.
  destruct (EndFacts.parts _ _ _ _ _ _ _ _ _ _ H) as (Cr & M).
  assert (K : forall j k t0 e0 a, In ("KO", (j, k), (t0, e0)) real_turns -> Spec.departs ts tab p x (train k) (station "KO") a -> t0 <= a).
  { intros j k t0 e0 a IR DA. destruct (proj2 (turns_eqb_in turns real_turns "KO" j k t0 e0 Eq) IR) as (t2 & e2 & I2 & Q1 & Q2).
    destruct (turn_listed td st network t1 [] delays ts tab turns M Et "KO" j k t2 e2 I2) as (pairs & J1 & J2).
    destruct (circulation_kept ts tab d cat p x RF NF (Qlt_le_weak _ _ DP) Cr F (station "KO") pairs (train j) (train k) J1 J2)
      as (u1 & u2 & pr & (sp & u0 & r & Bf & (e1 & E1 & V1) & R & T1) & (eb & Eb1 & Eb2) & Pr & LE).
    pose proof (departure_bounds ts tab d cat p x RF (Qlt_le_weak _ _ DP) Cr F (train j) sp u0 (ex_intro _ e1 (conj E1 V1))) as (_ & _ & A).
    specialize (A e1 E1). assert (TA : turns_at ts tab (station "KO") (train j) (train k) (e1 + r + pr) eb).
    { exists pairs, sp, e1, r, pr. repeat (split; [assumption|]). split; [reflexivity|assumption]. }
    destruct (turn_later td st network t1 [] delays ts tab turns T M RF Et Pos _ _ _ _ _ TA) as (s' & a' & b' & t3 & e3 & Es & Ea & Eb & IT & B).
    injection Es as Es. injection Ea as Ea. injection Eb as Eb. rewrite <- Es, <- Ea, <- Eb in IT.
    destruct (B (reaches delays a') (reaches delays b') (reaches_ok delays a') (reaches_ok delays b')) as [B1 _].
    destruct (proj1 (turns_eqb_in turns real_turns "KO" j k t3 e3 Eq) IT) as (t4 & e4 & I4 & Q3 & Q4).
    assert (t4 == t0).
    { unfold real_turns in IR, I4. cbn [In] in IR, I4. destruct IR as [X|[X|[X|[]]]]; inversion X; subst;
        (destruct I4 as [Y|[Y|[Y|[]]]]; inversion Y; subst; reflexivity). }
    destruct DA as (ea & Ea1 & Ea2). pose proof (earliest_fun ts tab _ _ _ _ Ea1 Eb1). lra. }
  split; intros a DA.
  - apply (K 34319%Z 343199%Z 18 14 a); [right; left; reflexivity|exact DA].
  - apply (K 54101%Z 541019%Z 32 28 a); [right; right; left; reflexivity|exact DA].
Qed.
Print Assumptions C86_not_before.

(** without any delay they are due at 16:14 and 16:28, so both are at least 4 minutes late in every solution. *)
Theorem C86_late : forall data st t1 td d_max cat ts tab p x,
  In (data, st, t1) shipped_real -> build_timetables data st network = Ok td -> 0 < d_max ->
  tables_to_problem td st network t1 [] d_max cat = Ok (ts, tab, p) -> feasible p x ->
  forall k, In k [343199; 541019]%Z -> 4 <= value_in p x ("Delays", [train k; station "KO"]).
Proof.
  intros data st t1 td d cat ts tab p x I E DP H F k IK.
  assert (Pos : forall (i : Z) q, In (i, q) (@nil (Z * Q)) -> 0 <= q) by (intros ? ? []).
  destruct (C86_not_before _ _ _ _ _ _ _ _ _ _ _ I E Pos DP H F) as [N1 N2].
  destruct (shipped_facts data st t1 (real_shipped _ I)) as (td' & E' & T & C & _).
  rewrite E in E'. injection E' as E'. rewrite <- E' in T, C. clear E'.
  destruct (turn_tables_facts _ _ real_turns_ok _ _ _ _ I E) as (W & WB & turns & Et & Eq). clear I E.
  pose proof (reserved_ok _ _ _ _ _ _ _ _ _ _ T H) as RF. pose proof (none_ok _ _ _ _ _ _ _ _ _ _ T H) as NF.
  destruct (EndFacts.parts _ _ _ _ _ _ _ _ _ _ H) as (Cr & M).
  assert (K : forall j k t0 e0, In ("KO", (j, k), (t0, e0)) real_turns -> exists e, earliest ts tab (train k) (station "KO") e /\ e == e0).
  { clear k IK. intros j k t0 e0 IR. destruct (proj2 (turns_eqb_in turns real_turns "KO" j k t0 e0 Eq) IR) as (t2 & e2 & I2 & Q1 & Q2).
    destruct (turn_listed td st network t1 [] [] ts tab turns M Et "KO" j k t2 e2 I2) as (pairs & J1 & J2).
    destruct (circulation_kept ts tab d cat p x RF NF (Qlt_le_weak _ _ DP) Cr F (station "KO") pairs (train j) (train k) J1 J2)
      as (u1 & u2 & pr & (sp & u0 & r & Bf & (e1 & E1 & V1) & R & T1) & (eb & Eb1 & Eb2) & Pr & LE).
    assert (TA : turns_at ts tab (station "KO") (train j) (train k) (e1 + r + pr) eb).
    { exists pairs, sp, e1, r, pr. repeat (split; [assumption|]). split; [reflexivity|assumption]. }
    destruct (turn_later td st network t1 [] [] ts tab turns T M RF Et Pos _ _ _ _ _ TA) as (s' & a' & b' & t3 & e3 & Es & Ea & Eb & IT & B).
    injection Es as Es. injection Ea as Ea. injection Eb as Eb. rewrite <- Es, <- Ea, <- Eb in IT.
    destruct (B 0 0 (dr_nil a') (dr_nil b')) as [_ B2].
    destruct (proj1 (turns_eqb_in turns real_turns "KO" j k t3 e3 Eq) IT) as (t4 & e4 & I4 & Q3 & Q4).
    assert (e4 == e0).
    { unfold real_turns in IR, I4. cbn [In] in IR, I4. destruct IR as [X|[X|[X|[]]]]; inversion X; subst;
        (destruct I4 as [Y|[Y|[Y|[]]]]; inversion Y; subst; reflexivity). }
    exists eb. split; [exact Eb1|lra]. }
  destruct IK as [<-|[<-|[]]].
  - destruct (K 34319%Z 343199%Z 18 14) as (e & Ee & Q); [right; left; reflexivity|].
    specialize (N1 _ (ex_intro _ e (conj Ee (Qeq_refl _)))). lra.
  - destruct (K 54101%Z 541019%Z 32 28) as (e & Ee & Q); [right; right; left; reflexivity|].
    specialize (N2 _ (ex_intro _ e (conj Ee (Qeq_refl _)))). lra.
Qed.
Print Assumptions C86_late.

(** ** A refused scenario *)

(** If train 34319 is 36 minutes late, no problem with largest delay 40 becomes a QUBO. *)
Theorem C86_refused : forall td ts tab p pdict, build_timetables schedule_main stations_main network = Ok td -> all_penalties pdict ->
  tables_to_problem td stations_main network "16:00" [(34319%Z, 36)] 40 Integer = Ok (ts, tab, p) ->
  forall b interp, convert_to_bqm p pdict <> Ok (b, interp).
Proof.
  intros td ts tab p pdict E PD H b interp Cv.
  assert (I : In (schedule_main, stations_main, "16:00") shipped_real) by (left; reflexivity).
  destruct (shipped_facts _ _ _ (real_shipped _ I)) as (td' & E' & T & C & _).
  rewrite E in E'. injection E' as E'. rewrite <- E' in T, C. clear E'.
  destruct (turn_tables_facts _ _ real_turns_ok _ _ _ _ I E) as (W & WB & _).
  pose proof late_ok as LO. unfold late_turns_ok in LO. apply if_read_ok in LO as (td2 & E2 & LO). rewrite E in E2. injection E2 as E2.
  rewrite <- E2 in LO. clear E2 I E. apply turnsb_ok in LO as (turns & Et & Eq).
  pose proof (reserved_ok _ _ _ _ _ _ _ _ _ _ T H) as RF. pose proof (none_ok _ _ _ _ _ _ _ _ _ _ T H) as NF.
  destruct (EndFacts.parts _ _ _ _ _ _ _ _ _ _ H) as (Cr & M).
  assert (WD : whole_delays [(34319%Z, 36)]) by (intros i q [X|[]]; injection X as <- <-; exists 36%Z; reflexivity).
  assert (TT : turns_in_time ts tab 40).
  { apply (C54_turnarounds ts tab 40 p pdict RF NF (made_starts _ _ _ _ _ _ _ T C M) (made_integral _ _ _ _ _ _ _ W WD M)
      (ex_intro _ 40%Z (Qeq_refl 40)) eq_refl Cr (weightedb_ok _ _ _ _ _ _ _ _ _ _ T M Cr RF WB) PD). exists b, interp. exact Cv. }
  clear Cv. assert (IR : In ("KO", (34319, 343199)%Z, (54, 14)) late_turns) by (right; left; reflexivity).
  destruct (proj2 (turns_eqb_in turns late_turns "KO" 34319 343199 54 14 Eq) IR) as (t2 & e2 & I2 & Q1 & Q2).
  destruct (turn_listed td stations_main network "16:00" [(34319%Z, 36)] [] ts tab turns M Et "KO" 34319 343199 t2 e2 I2) as (pairs & J1 & J2).
  destruct (turn_times ts tab 40 p RF NF Cr (station "KO") pairs (train 34319) (train 343199) J1 J2) as (t & e & TA & _).
  pose proof (TT _ _ _ _ _ TA) as L.
  destruct (turn_later td stations_main network "16:00" [(34319%Z, 36)] [] ts tab turns T M RF Et (fun i q (F : In (i, q) []) => match F with end) _ _ _ _ _ TA)
    as (s' & a' & b' & t3 & e3 & Es & Ea & Eb & IT & B).
  injection Es as Es. injection Ea as Ea. injection Eb as Eb. rewrite <- Es, <- Ea, <- Eb in IT.
  destruct (B 0 0 (dr_nil a') (dr_nil b')) as [B1 B2].
  destruct (proj1 (turns_eqb_in turns late_turns "KO" 34319 343199 t3 e3 Eq) IT) as (t4 & e4 & I4 & Q3 & Q4).
  assert (X : t4 == 54 /\ e4 == 14).
  { unfold late_turns in I4. cbn [In] in I4. destruct I4 as [Y|[Y|[Y|[]]]]; inversion Y; subst; split; reflexivity. }
  lra.
Qed.
Print Assumptions C86_refused.

(** The conditions are met: with the delays of case 9 there is a problem for each of the tables, and one of the refused scenario. *)
Example C86_case : exists td ts tab p, build_timetables schedule_main stations_main network = Ok td /\
  tables_to_problem td stations_main network "16:00" (real_delays 9) 40 Integer = Ok (ts, tab, p) /\
  (exists b interp, convert_to_bqm p (script_pdict 1) = Ok (b, interp)).
Proof.
  destruct (C69_shipped schedule_main stations_main "16:00" (or_introl eq_refl)) as (td & E & T & C & L & TM & B).
  assert (DM : ~ 40 == 0) by (intros X; discriminate X).
  destruct (B (real_delays 9) 40 Integer DM) as (ts & tab & p & H). exists td, ts, tab, p. split; [exact E|]. split; [exact H|].
  apply (C86_accepted schedule_main stations_main "16:00" td (real_delays 9) 40 ts tab p (script_pdict 1)); auto.
  - left. reflexivity.
  - intros i q I. unfold real_delays in I. cbn [In] in I. repeat (destruct I as [I|I]; [injection I as _ <-; eexists; reflexivity|]). destruct I.
  - intros i q I. unfold real_delays in I. cbn [In] in I. repeat (destruct I as [I|I]; [injection I as _ <-; discriminate|]). destruct I.
  - exists 40%Z. reflexivity.
  - reflexivity.
  - apply script_complete.
  - intros a n D I DR. eapply real_delays_small; [|exact I|exact DR]. lia.
Qed.

Example C86_refused_case : exists td ts tab p, build_timetables schedule_main stations_main network = Ok td /\
  tables_to_problem td stations_main network "16:00" [(34319%Z, 36)] 40 Integer = Ok (ts, tab, p).
Proof.
  destruct (C69_shipped schedule_main stations_main "16:00" (or_introl eq_refl)) as (td & E & T & C & L & TM & B).
  assert (DM : ~ 40 == 0) by (intros X; discriminate X).
  destruct (B [(34319%Z, 36)] 40 Integer DM) as (ts & tab & p & H). exists td, ts, tab, p. split; [exact E|exact H].
Qed.

(** ** The script with samplers *)

(** The samplers return at least one sample for every QUBO. *)
Definition answering_qubo (o : outside) (m : method) : Prop := forall i b, sample_bqm (o_samplers o i) m b <> [].

Lemma qubo_answer ts tab p o m pdict b interp : reserved_free ts -> create_linear_problem ts tab 40 Integer = Ok p -> m <> Cqm ->
  convert_to_bqm p pdict = Ok (b, interp) -> real_samplers o -> sample_bqm o m b <> [] -> exists e, solve_on_quantum o p m pdict = Ok e.
Proof.
  intros RF Cr NC HC RS AN. destruct (created_conditions _ _ _ _ _ RF Cr) as (CC & CA & _).
  destruct (proj1 (C29_decoding p pdict b interp CC CA HC) (sample_bqm o m b) (fun s e => proj1 RS m b s e)) as (rows & sam & HI & PE & _ & F).
  assert (NE : rows <> []).
  { intros ->. inversion F; subst. apply Permutation.Permutation_sym, Permutation.Permutation_nil in PE. exact (AN PE). }
  assert (QP : q_process o p m pdict = Ok rows) by (unfold q_process; destruct m; try contradiction; rewrite HC; exact HI).
  destruct (created_apart _ _ _ _ _ RF Cr) as (ND & _).
  assert (AS : forall d e, In (d, e) rows -> assigns p d) by (intros d e H; exact (proj1 (C33_in_range ts tab 40 Integer p o m pdict rows RF Cr RS QP d e H))).
  destruct (C31_results p rows ND AS) as (out & HO & _).
  destruct (proj2 (C32_best p rows out ND AS HO) NE) as (e & He & _). exists e. unfold solve_on_quantum. rewrite QP. cbn [bind]. rewrite HO. exact He.
Qed.

(** Each case of the repository's tables is solved and stored with each of the samplers for QUBOs, if they return samples at all. *)
Theorem C86_answers : forall o a m f, repository o -> In (a_case a) [0; 1; 2; 3; 4; 5; 6; 7; 8; 9]%Z -> a_category a = Integer ->
  a_show a = false -> a_solve_lp a = "" -> In (a_solve_quantum a) ["sim"; "real"; "bqm"] -> method_of (a_solve_quantum a) = Some m ->
  (forall i, real_samplers (o_samplers o i)) -> answering_qubo o m ->
  exists f1, script o a f = (f1, Ok tt).
Proof.
  intros o a m f R IC CA SH NL IQ HM RS AN.
  destruct (C85_repository o a R IC) as (td & st & ts & tab & p & MB & T & C & NP).
  destruct MB as (data & A1 & A2 & A3 & A4).
  destruct (taus_made td st (o_network o) "16:00" 0 T C) as (t & Et).
  assert (P : prepare o a = Ok (t, ts, tab, p)).
  { unfold prepare. rewrite A1, A2. cbn [bind]. rewrite A3. cbn [bind]. rewrite Et. cbn [bind]. rewrite A4. reflexivity. }
  destruct (C86_script o a t ts tab p (a_penalty a) R IC CA P) as (b & interp & HC).
  pose proof (EndFacts.parts _ _ _ _ _ _ _ _ _ _ A4) as [Cr _]. rewrite CA in Cr. pose proof (reserved_ok _ _ _ _ _ _ _ _ _ _ T A4) as RF.
  assert (NC : m <> Cqm).
  { intros ->. cbn [In] in IQ. destruct IQ as [X|[X|[X|[]]]]; rewrite <- X in HM; discriminate HM. }
  assert (S : exists samples, solve_runs o a m p = Ok samples).
  { unfold solve_runs. assert (PD : match m with Cqm => [] | _ => script_pdict (a_penalty a) end = script_pdict (a_penalty a)) by (destruct m; try reflexivity; contradiction).
    rewrite PD.
    destruct (foldM_total (fun _ : dict Z entry => True) (fun samples i => do e <- solve_on_quantum (o_samplers o i) p m (script_pdict (a_penalty a)); Ok (dset i e samples))
      (run_numbers a) []) as (r & E & _); [exact Logic.I| |exists r; exact E].
    intros acc i _ _. destruct (qubo_answer ts tab p (o_samplers o i) m (script_pdict (a_penalty a)) b interp RF Cr NC HC (RS i) (AN i b)) as (e & ->). cbn [bind]. eauto. }
  destruct S as (samples & S). exists (dset (samples_file o a) (Samples samples) f).
  unfold script. assert (IC' : lmem (a_case a) [0; 1; 2; 3; 4; 5; 6; 7; 8; 9]%Z = true) by (apply lmem_true; exact IC). rewrite IC'. cbn [negb].
  rewrite P. assert (IQ' : lmem (a_solve_quantum a) [""; "sim"; "real"; "bqm"; "cqm"] = true) by (apply lmem_true; cbn [In] in IQ |- *; intuition).
  rewrite IQ'. cbn [negb].
  unfold lp_part. rewrite NL. change (eqb "" "") with true. cbn iota. unfold quantum_part. rewrite HM, SH. cbn iota.
  rewrite S. reflexivity.
Qed.
Print Assumptions C86_answers.

(** A sampler that answers with a sample of zeros *)
Definition zero_bits : samplers := MkSamplers (fun _ b => [(map (fun k => (k, false)) (nodup string_dec (dkeys (b_linear b))), 0)]) (fun _ => []).
Definition bits_outside : outside := MkOutside (o_text zero_outside) (o_table zero_outside) (o_stations zero_outside) network (fun _ => None) (fun _ => zero_bits).

Example C86_answers_case : forall case runs, (0 <= case <= 9)%Z ->
  repository bits_outside /\ real_samplers zero_bits /\ answering_qubo bits_outside HybridBqm /\
  exists f1, script bits_outside (MkArgs case Integer "" "bqm" 5 runs (3 # 2) false) [] = (f1, Ok tt).
Proof.
  intros case runs HC. assert (R : repository bits_outside) by (repeat split; reflexivity).
  assert (RS : real_samplers zero_bits).
  { split; [|intros c d e []]. intros m b s e [X|[]]. injection X as <- E0. split.
    - unfold dkeys. rewrite map_map, map_id. apply NoDup_nodup.
    - intros k. unfold dkeys at 1. rewrite map_map, map_id. apply nodup_In. }
  assert (AN : answering_qubo bits_outside HybridBqm) by (intros i b; discriminate).
  split; [exact R|]. split; [exact RS|]. split; [exact AN|].
  apply (C86_answers bits_outside (MkArgs case Integer "" "bqm" 5 runs (3 # 2) false) HybridBqm []); try reflexivity; try assumption.
  - cbn [a_case In]. lia.
  - right; right; left. reflexivity.
  - intros i. exact RS.
Qed.
