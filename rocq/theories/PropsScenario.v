(** * PropsScenario: delays of a scenario reach the solution (C66) *)

From Coq Require Import List String Ascii ZArith QArith Bool Lia Lqa.
From Verif Require Import Base BaseFacts Pulp Helpers LinearSolver Spec SpecFacts DataTables DataSets DataTimes Pipeline
  SpecDurations SpecEnd FileFacts TableFacts SetFacts TimeFacts Builds
  PropsIlp PropsTables PropsSets PropsSwitch PropsTimes PropsHeadway PropsPrep PropsSchedule EndFacts PropsEnd QuboFacts Check Examples PropsEndCases.
From Verif Require Import DataTables SpecTables SpecSets.
Import ListNotations.
Open Scope string_scope.
Open Scope list_scope.

Lemma delays_ok delays : forall d, NoDup (dkeys d) -> train_station_keys d ->
  forall t s v q, no_underscore s -> dget (str_of_Z t ++ "_" ++ s)%string d = Some v -> delay_reached t delays q ->
  exists v', dget (str_of_Z t ++ "_" ++ s)%string (fold_left (fun init d => add_delay init (fst d) (snd d)) delays d) = Some v' /\
    v' == v + q.
Proof.
  induction delays as [|[u q] delays IH]; intros d N K t s v r U G DR; cbn [fold_left].
  { inversion DR; subst. exists v. split; [exact G|]. ring. }
  cbn [fst snd]. destruct (C45_digits d u q N K) as [Ek C]. destruct (C t s v U G) as [C1 C2].
  assert (N' : NoDup (dkeys (add_delay d u q))) by (rewrite Ek; exact N).
  assert (K' : train_station_keys (add_delay d u q)) by (intros k I; apply K; rewrite <- Ek; exact I).
  inversion DR as [|? ? ? r' E DR' |? ? ? ? E DR']; subst.
  - destruct (IH _ N' K' t s (v + q) r' U (C1 E) DR') as (v' & G' & Ev). exists v'. split; [exact G'|]. rewrite Ev. ring.
  - destruct (IH _ N' K' t s v r U (C2 E) DR') as (v' & G' & Ev). exists v'. auto.
Qed.

Lemma reached_total delays t : (forall u q, In (u, q) delays -> t <> u -> ~ number_ends_with t u) ->
  exists d, delay_reached t delays d /\ d == total_delay delays t.
Proof.
  induction delays as [|[u q] delays IH]; intros N; cbn [total_delay].
  { exists 0. split; [constructor|reflexivity]. }
  destruct IH as (d & D & E); [intros u' q' I; apply (N u' q'); right; exact I|]. destruct (Z.eq_dec u t) as [->|X].
  - exists (q + d). split; [constructor; [exists ""; reflexivity|exact D]|]. rewrite E. ring.
  - exists d. split; [apply dr_miss; [apply (N u q); [left; reflexivity|congruence]|exact D]|]. rewrite E. ring.
Qed.

Lemma initial_nodup td t1 d : get_initial_conditions td t1 = Ok d -> NoDup (dkeys d).
Proof.
  intros H. unfold get_initial_conditions in H. refine (foldM_inv (fun d => NoDup (dkeys d)) _ _ _ _ _ _ H); [constructor|].
  intros acc [t [info tt]] acc' _ N E. cbn [fst snd] in E. destruct (filter _ tt) as [|r f]; [discriminate|].
  destruct (r_station r) as [s|]; [|discriminate]. inv_bind E. inversion E; subst. apply dset_nodup, N.
Qed.

(** C66 without conditions on the numbers: every train appears at its first station at the planned time
    plus the delays of all trains whose number it ends with, and in every solution leaves it not
    earlier. *)
Theorem C66_reached : forall td st net t1 n1 delays d_max cat ts tt p x,
  tidy td st -> 0 <= d_max -> clock t1 n1 ->
  (forall t tb, runs td t tb -> exists s n, appears tb n1 s n) ->
  tables_to_problem td st net t1 delays d_max cat = Ok (ts, tt, p) -> feasible p x ->
  forall t tb s n d, runs td t tb -> appears tb n1 s n -> delay_reached t delays d ->
  (exists q, initially tt (train t) (station s) q /\ q == inject_Z (n - n1) + d) /\
  exists a, Spec.departs ts tt p x (train t) (station s) a /\ inject_Z (n - n1) + d <= a.
Proof.
  intros td st net t1 n1 delays d cat ts tt p x T D0 CL AP H F t tb s n rd R A DR.
  destruct (parts _ _ _ _ _ _ _ _ _ _ H) as (C & _ & _ & _ & _ & _ & _ & _ & _ & _ & _ & _ & _ & _ & _ & (init & Ei & Et)).
  destruct (C44_initial td t1 n1 (tidy_trains _ _ T) CL AP) as (init' & Ei' & CI). assert (init' = init) by congruence. subst init'.
  assert (PS : forall t tb s n, runs td t tb -> appears tb n1 s n -> In s (dkeys st)).
  { intros t0 tb0 s0 n0 R0 (r & (pre & post & E & _ & Rs) & _). apply (passes_station td st t0 tb0 s0 T R0). exists r. split; [|exact Rs].
    rewrite E. apply in_or_app. right. left. reflexivity. }
  assert (Us : no_underscore s) by (destruct (tidy_names _ _ T s (PS _ _ _ _ R A)) as (_ & _ & U); exact U).
  assert (G : dget (str_of_Z t ++ "_" ++ s)%string init = Some (inject_Z (n - n1))).
  { apply CI. exists t, tb, s, n. auto. }
  destruct (delays_ok delays init) with (t := t) (s := s) (v := inject_Z (n - n1)) (q := rd) as (q & Gq & Eq); auto.
  - eapply initial_nodup; eauto.
  - intros k I. destruct (initial_keys _ _ _ _ _ T Ei I) as (t' & tb' & s' & R' & P' & ->). exists t', s'. split; [reflexivity|].
    destruct (tidy_names _ _ T s' (passes_station _ _ _ _ _ T R' P')) as (_ & _ & U). exact U.
  - assert (Ini : initially tt (train t) (station s) q).
    { unfold initially. rewrite Et. exact Gq. }
    split; [exists q; split; [exact Ini|exact Eq]|].
    assert (NB : exists e, earliest ts tt (train t) (station s) e).
    { destruct (dget (joined [train t; station s]) (tt_schedule tt)) as [c|] eqn:Sc.
      - destruct (Qlt_le_dec q c) as [L|L].
        + exists c. apply earliest_init with (i := q); [exact Ini|]. left. exists c. split; [exact Sc|]. right. split; [lra|reflexivity].
        + exists q. apply earliest_init with (i := q); [exact Ini|]. left. exists c. split; [exact Sc|]. left. split; [lra|reflexivity].
      - exists q. apply earliest_init with (i := q); [exact Ini|]. right. split; [|reflexivity]. intros c X. unfold scheduled in X. congruence. }
    destruct NB as (e & Ee). exists (e + value_in p x ("Delays", [train t; station s])).
    assert (De : Spec.departs ts tt p x (train t) (station s) (e + value_in p x ("Delays", [train t; station s]))) by (exists e; split; [exact Ee|reflexivity]).
    split; [exact De|]. rewrite <- Eq.
    destruct (C07_departure_bounds ts tt d cat p x) with (j := train t) (s := station s) (t := e + value_in p x ("Delays", [train t; station s])) as (_ & B & _); auto.
    + eapply reserved_ok; eauto.
    + eapply none_ok; eauto.
Qed.
Print Assumptions C66_reached.

(** C66. In a scenario in which no other train's number ends with the number of a delayed train, every
    train appears at its first station at the planned time plus its delay, and in every solution leaves
    it not earlier; the other initial conditions are the planned ones. *)
Theorem C66_delays_partial : forall td st net t1 n1 delays d_max cat ts tt p x,
  tidy td st -> 0 <= d_max -> clock t1 n1 ->
  (forall t tb, runs td t tb -> exists s n, appears tb n1 s n) ->
  (forall u q t, In (u, q) delays -> In t (dkeys td) -> t <> u -> ~ number_ends_with t u) ->
  tables_to_problem td st net t1 delays d_max cat = Ok (ts, tt, p) -> feasible p x ->
  forall t tb s n, runs td t tb -> appears tb n1 s n ->
  (exists q, initially tt (train t) (station s) q /\ q == inject_Z (n - n1) + total_delay delays t) /\
  exists a, Spec.departs ts tt p x (train t) (station s) a /\ inject_Z (n - n1) + total_delay delays t <= a.
Proof.
  intros td st net t1 n1 delays dm cat ts tt p x T D0 CL AP SF H F t tb s n R A.
  destruct (reached_total delays t) as (d & DR & E); [intros u q I; apply (SF u q t I); eapply runs_key; eauto|].
  destruct (C66_reached _ _ _ _ _ _ _ _ _ _ _ _ T D0 CL AP H F t tb s n d R A DR) as [(q & Q1 & Q2) (a & A1 & A2)].
  split; [exists q; split; [exact Q1|]; rewrite Q2, E; reflexivity|]. exists a. split; [exact A1|]. rewrite <- E. exact A2.
Qed.
Print Assumptions C66_delays_partial.

(** ** A scenario: two trains on separate lines, one of them 3 minutes late *)

Definition late_st : station_blocks := [("A", ["a1"]); ("B", ["b1"]); ("C", ["c1"]); ("D", ["d1"])].
Definition late_td (k : Z) : train_dict :=
  [(20%Z, (["KS - Os"], [trow "a1" (Some "A") 1 (Some "16:05") None; trow "x" None 5 None None; trow "b1" (Some "B") 0 None None]));
   (k, (["KS - Os"], [trow "c1" (Some "C") 1 (Some "16:07") None; trow "y" None 5 None None; trow "d1" (Some "D") 0 None None]))].
Definition late_net : list netrow := [free "a1" "x"; free "x" "b1"; free "c1" "y"; free "y" "d1"].
Definition late_built (k : Z) : train_sets * timetable * lpproblem :=
  ok_or (tables_to_problem (late_td k) late_st late_net "16:00" [(20%Z, 3)] 10 Integer) no_input.

Lemma late_ok k : is_ok (tables_to_problem (late_td k) late_st late_net "16:00" [(20%Z, 3)] 10 Integer) = true ->
  tables_to_problem (late_td k) late_st late_net "16:00" [(20%Z, 3)] 10 Integer =
    Ok (fst (fst (late_built k)), snd (fst (late_built k)), snd (late_built k)).
Proof. intros H. rewrite (ok_or_ok _ no_input H). unfold late_built. destruct (ok_or _ _) as [[a b] c]. reflexivity. Qed.

Example C66_case : tidy (late_td 21) late_st /\
  (forall u q t, In (u, q) [(20%Z, 3)] -> In t (dkeys (late_td 21)) -> t <> u -> ~ number_ends_with t u) /\
  exists ts tt p, tables_to_problem (late_td 21) late_st late_net "16:00" [(20%Z, 3)] 10 Integer = Ok (ts, tt, p) /\
    feasible p (Check.table []) /\
    initially tt (train 20) (station "A") (5 + 3) /\ initially tt (train 21) (station "C") 7.
Proof.
  split; [apply tidyb_ok; vm_compute; reflexivity|]. split.
  { intros u q t [E|[]] I N; cbn in I. inversion E; subst. destruct I as [<-|[<-|[]]]; [destruct (N eq_refl)|]. intros (w & W). cbv in W.
    destruct w as [|? w]; [discriminate|]. inversion W. destruct w as [|? [|? ?]]; discriminate. }
  exists (fst (fst (late_built 21))), (snd (fst (late_built 21))), (snd (late_built 21)).
  split; [apply late_ok; vm_compute; reflexivity|]. split; [apply feasibleb_ok; vm_compute; reflexivity|].
  split; vm_compute; reflexivity.
Qed.

(** A train whose number ends with the number of the late train is made late too: in the scenario
    that delays only train 20, train 120 appears 3 minutes after its planned time as well. *)
Theorem C66_other_refuted : exists td st net delays ts tt p, tidy td st /\
  tables_to_problem td st net "16:00" delays 10 Integer = Ok (ts, tt, p) /\
  exists t tb s n, runs td t tb /\ appears tb 960 s n /\ total_delay delays t == 0 /\
  initially tt (train t) (station s) (inject_Z (n - 960) + 3).
Proof.
  exists (late_td 120), late_st, late_net, [(20%Z, 3)], (fst (fst (late_built 120))), (snd (fst (late_built 120))), (snd (late_built 120)).
  split; [apply tidyb_ok; vm_compute; reflexivity|]. split; [apply late_ok; vm_compute; reflexivity|].
  exists 120%Z, [trow "c1" (Some "C") 1 (Some "16:07") None; trow "y" None 5 None None; trow "d1" (Some "D") 0 None None], "C", 967%Z.
  split; [exists ["KS - Os"]; reflexivity|]. split; [|split; vm_compute; reflexivity].
  exists (trow "c1" (Some "C") 1 (Some "16:07") None). split.
  - exists [], [trow "y" None 5 None None; trow "d1" (Some "D") 0 None None]. repeat split; try reflexivity. intros ? [].
  - apply strptime_clock. reflexivity.
Qed.
Print Assumptions C66_other_refuted.

(** ** Numbers of no train *)

Lemma add_unknown d u q : (forall k, In k (dkeys d) -> str_contains (str_of_Z u ++ "_") k = false) -> add_delay d u q = d.
Proof.
  intros H. unfold add_delay. cbv zeta. replace (filter _ d) with (@nil (string * Q)); [reflexivity|].
  symmetry. assert (X : forall l : dict string Q, incl l d -> filter (fun kv => str_contains (str_of_Z u ++ "_") (fst kv)) l = []); [|apply X; intros ? ?; assumption].
  induction l as [|kv l IH]; intros I; [reflexivity|]. cbn [filter]. rewrite (H (fst kv)).
  - apply IH. intros e J. apply I. right. exact J.
  - apply in_map. apply I. left. reflexivity.
Qed.

Lemma skip_unknown known delays : forall d, NoDup (dkeys d) -> train_station_keys d ->
  (forall u q k, In (u, q) delays -> known u = false -> In k (dkeys d) -> str_contains (str_of_Z u ++ "_") k = false) ->
  fold_left (fun init e => add_delay init (fst e) (snd e)) delays d =
  fold_left (fun init e => add_delay init (fst e) (snd e)) (filter (fun e => known (fst e)) delays) d.
Proof.
  induction delays as [|[u q] delays IH]; intros d N K H; [reflexivity|]. cbn [fold_left filter fst snd]. destruct (known u) eqn:E.
  - cbn [fold_left fst snd]. destruct (C45_digits d u q N K) as [Ek _]. apply IH.
    + rewrite Ek. exact N.
    + intros k I. apply K. rewrite <- Ek. exact I.
    + intros u' q' k I J L. rewrite Ek in L. apply (H u' q' k); [right; exact I|exact J|exact L].
  - rewrite add_unknown by (intros k I; apply (H u q k); [left; reflexivity|exact E|exact I]). apply IH; auto.
    intros u' q' k I. apply (H u' q' k). right. exact I.
Qed.

(** A delay for a number with which no train's number ends is ignored without a message: the problem is
    the one of the scenario without it. *)
Theorem C66_ignored : forall td st net t1 delays d_max cat known, tidy td st ->
  (forall u q t, In (u, q) delays -> known u = false -> In t (dkeys td) -> ~ number_ends_with t u) ->
  tables_to_problem td st net t1 delays d_max cat =
  tables_to_problem td st net t1 (filter (fun e => known (fst e)) delays) d_max cat.
Proof.
  intros td st net t1 delays d_max cat known T H. unfold tables_to_problem.
  destruct (get_skip_stations td) as [sk|]; [|reflexivity]. cbn [bind].
  destruct (make_train_set td st net sk) as [ts|]; [|reflexivity]. cbn [bind].
  destruct (make_timetable td st sk t1 None) as [tt|] eqn:E; [|reflexivity]. cbn [bind]. cbv zeta.
  replace (with_delays (filter (fun e => known (fst e)) delays) tt) with (with_delays delays tt); [reflexivity|].
  unfold with_delays. f_equal.
  assert (EI : get_initial_conditions td t1 = Ok (tt_init tt)).
  { unfold make_timetable in E. inv_bind E. inv_bind E. inv_bind E. inv_bind E. inversion E. assumption. }
  apply skip_unknown.
  - eapply initial_nodup; eauto.
  - intros k I. destruct (initial_keys _ _ _ _ _ T EI I) as (t' & tb' & s' & R' & P' & ->). exists t', s'. split; [reflexivity|].
    destruct (tidy_names _ _ T s' (passes_station _ _ _ _ _ T R' P')) as (_ & _ & U). exact U.
  - intros u q k I J L. destruct (initial_keys _ _ _ _ _ T EI L) as (t' & tb' & s' & R' & P' & ->).
    destruct (tidy_names _ _ T s' (passes_station _ _ _ _ _ T R' P')) as (_ & _ & U).
    apply not_true_iff_false. intros C. apply (key_contains u t' s' U) in C. apply (H u q t' I J); [eapply runs_key; eauto|exact C].
Qed.
Print Assumptions C66_ignored.

(** ** Scenarios of the repository *)

(** The trains of data/trains_schedules.csv and of its variants *)
Definition real_trains : list Z :=
  [94766; 26103; 421009; 42100; 5312; 40518; 34319; 343199; 14006; 94611; 40150; 41004; 94113; 40673; 54101; 541019; 40477; 4500; 94317;
   44717; 64350; 94717; 44862; 40628; 40675; 73000; 4120]%Z.

(** The trains of data/KO_GLC/trains_schedules_KO_GLC.csv, scenario 3 of which names trains 1, 3 and 5 *)
Definition glc_trains : list Z :=
  [2; 4602; 4; 102; 6; 8; 4604; 10; 102; 12; 1; 101; 3; 6401; 5; 7; 103; 9; 6403; 11; 14; 4606; 16; 106; 18; 20; 4608; 22; 108; 24;
   13; 105; 15; 6405; 17; 21; 107; 23; 6407; 25; 26; 4610; 28; 112; 30; 32; 4612; 34; 114; 36; 27; 111; 31; 6411; 33; 35; 113; 37;
   6413; 41]%Z.

(** Twenty more trains are delayed. *)
Definition glc_3_more : list (Z * Q) :=
  [(101%Z, 2); (6401%Z, 2); (103%Z, 2); (6403%Z, 2); (11%Z, 2); (13%Z, 2); (105%Z, 7); (15%Z, 7); (6405%Z, 7); (21%Z, 2); (23%Z, 2); (25%Z, 7); (111%Z, 2);
   (31%Z, 2); (6411%Z, 2); (33%Z, 2); (35%Z, 7); (113%Z, 2); (6413%Z, 2); (41%Z, 2)].

Fixpoint ends_withb (n : nat) (a b : string) : bool :=
  String.eqb a b || match n, a with S n, String _ a => ends_withb n a b | _, _ => false end.

Lemma ends_withb_ok n : forall a b, (String.length a <= n)%nat -> (ends_withb n a b = true <-> exists p, a = (p ++ b)%string).
Proof.
  induction n as [|n IH]; intros a b L; cbn [ends_withb]; rewrite orb_true_iff, String.eqb_eq.
  - destruct a; [|cbn in L; lia]. split; [intros [<-|X]; [exists ""; reflexivity|discriminate]|].
    intros (p & E). destruct p; [left; exact E|discriminate].
  - destruct a as [|c a].
    + split; [intros [<-|X]; [exists ""; reflexivity|discriminate]|]. intros (p & E). destruct p; [left; exact E|discriminate].
    + cbn in L. rewrite (IH a b) by lia. split.
      * intros [<-|(p & ->)]; [exists ""; reflexivity|exists (String c p); reflexivity].
      * intros ([|c' p] & E); [left; exact E|]. inversion E; subst. right. exists p. reflexivity.
Qed.

Definition ends_num (t u : Z) : bool := ends_withb (String.length (str_of_Z t)) (str_of_Z t) (str_of_Z u).

Lemma ends_num_ok t u : ends_num t u = true <-> number_ends_with t u.
Proof. apply ends_withb_ok. lia. Qed.

Definition reaches (delays : list (Z * Q)) (t : Z) : Q := fold_right (fun e d => if ends_num t (fst e) then snd e + d else d) 0 delays.

Lemma reaches_ok delays t : delay_reached t delays (reaches delays t).
Proof.
  induction delays as [|[u q] delays IH]; cbn; [constructor|]. destruct (ends_num t u) eqn:E.
  - constructor; [apply ends_num_ok; exact E|exact IH].
  - apply dr_miss; [intros X; apply ends_num_ok in X; congruence|exact IH].
Qed.

Definition in_table (u : Z) : bool := lmem u real_trains.

(** In the tables of solve_real_problem.py no train is delayed by the delay of another one, *)
Lemma real_numbers case u q t : In (u, q) (real_delays case) -> In t real_trains -> t <> u -> ~ number_ends_with t u.
Proof.
  intros I J N E. apply ends_num_ok in E.
  assert (X : forall c, (c < 10)%nat -> forallb (fun e => forallb (fun t => Z.eqb t (fst e) || negb (ends_num t (fst e))) real_trains) (real_delays c) = true).
  { intros c L. do 10 (destruct c as [|c]; [vm_compute; reflexivity|]). lia. }
  assert (L : (case < 10)%nat) by (do 10 (destruct case as [|case]; [lia|]); destruct I).
  specialize (X case L). rewrite forallb_forall in X. specialize (X _ I). cbn [fst] in X. rewrite forallb_forall in X. specialize (X _ J).
  rewrite E in X. cbn in X. rewrite orb_false_r in X. apply Z.eqb_eq in X. contradiction.
Qed.

(** so every named train that exists is delayed as the scenario says; *)
Theorem C66_real : forall case td st net t1 n1 d_max cat ts tt p x,
  tidy td st -> incl (dkeys td) real_trains -> 0 <= d_max -> clock t1 n1 ->
  (forall t tb, runs td t tb -> exists s n, appears tb n1 s n) ->
  tables_to_problem td st net t1 (real_delays case) d_max cat = Ok (ts, tt, p) -> feasible p x ->
  forall t tb s n, runs td t tb -> appears tb n1 s n ->
  (exists q, initially tt (train t) (station s) q /\ q == inject_Z (n - n1) + total_delay (real_delays case) t) /\
  exists a, Spec.departs ts tt p x (train t) (station s) a /\ inject_Z (n - n1) + total_delay (real_delays case) t <= a.
Proof.
  intros case td st net t1 n1 d_max cat ts tt p x T I D0 CL AP H F.
  apply (C66_delays_partial td st net t1 n1 (real_delays case) d_max cat ts tt p x); auto.
  intros u q t J K N. apply (real_numbers case u q t J); auto.
Qed.
Print Assumptions C66_real.

(** but cases 3 and 5 to 9 name trains that are in no table (26013, 45101, 49317, 64359 and 42009; the
    tables have 26103, 54101, 94317, 64350 and 421009), and the problem is that of a scenario without
    these delays. *)
Theorem C66_real_refuted : forall case td st net t1 d_max cat,
  tidy td st -> incl (dkeys td) real_trains ->
  tables_to_problem td st net t1 (real_delays case) d_max cat =
    tables_to_problem td st net t1 (filter (fun e => in_table (fst e)) (real_delays case)) d_max cat /\
  (In case [3; 5; 6; 7]%nat -> filter (fun e => negb (in_table (fst e))) (real_delays case) =
    [(26013%Z, 12); (45101%Z, 35); (49317%Z, 25); (64359%Z, 7)]) /\
  (case = 8%nat -> filter (fun e => negb (in_table (fst e))) (real_delays case) = [(26013%Z, 10); (42009%Z, 12); (45101%Z, 30)]) /\
  (case = 9%nat -> filter (fun e => negb (in_table (fst e))) (real_delays case) =
    [(26013%Z, 11); (42009%Z, 15); (45101%Z, 34); (49317%Z, 25); (64359%Z, 7)]).
Proof.
  intros case td st net t1 d_max cat T I. split; [|split; [|split]].
  - apply C66_ignored; auto. intros u q t J K L. apply (real_numbers case u q t J); auto. intros ->.
    unfold in_table in K. apply lmem_false in K. auto.
  - intros [<-|[<-|[<-|[<-|[]]]]]; vm_compute; reflexivity.
  - intros ->. vm_compute. reflexivity.
  - intros ->. vm_compute. reflexivity.
Qed.
Print Assumptions C66_real_refuted.

Definition real_td : train_dict :=
  [(94766%Z, (["KS - Os"], [trow "a1" (Some "A") 1 (Some "16:05") None; trow "x" None 5 None None; trow "b1" (Some "B") 0 None None]));
   (26103%Z, (["KS - Os"], [trow "c1" (Some "C") 1 (Some "16:07") None; trow "y" None 5 None None; trow "d1" (Some "D") 0 None None]))].

Example C66_real_case : tidy real_td late_st /\ incl (dkeys real_td) real_trains /\ exists ts tt p,
  tables_to_problem real_td late_st late_net "16:00" (real_delays 3) 40 Integer = Ok (ts, tt, p) /\ feasible p (Check.table []) /\
  initially tt (train 94766) (station "A") (5 + 30) /\ initially tt (train 26103) (station "C") 7.
Proof.
  split; [apply tidyb_ok; vm_compute; reflexivity|]. split; [intros t [<-|[<-|[]]]; apply lmem_true; vm_compute; reflexivity|].
  set (b := ok_or (tables_to_problem real_td late_st late_net "16:00" (real_delays 3) 40 Integer) no_input).
  exists (fst (fst b)), (snd (fst b)), (snd b).
  split; [rewrite (ok_or_ok _ no_input) by (vm_compute; reflexivity); fold b; destruct b as [[? ?] ?]; reflexivity|].
  split; [apply feasibleb_ok; vm_compute; reflexivity|]. split; vm_compute; reflexivity.
Qed.

(** Whatever the tables with these trains are, the scenario that names three trains delays these twenty
    other ones, too. *)
Theorem C66_glc_refuted :
  incl (map fst glc_3) glc_trains /\ incl (map fst glc_3_more) glc_trains /\ NoDup (map fst glc_3_more) /\
  forall td st net t1 n1 d_max cat ts tt p x,
  tidy td st -> 0 <= d_max -> clock t1 n1 ->
  (forall t tb, runs td t tb -> exists s n, appears tb n1 s n) ->
  tables_to_problem td st net t1 glc_3 d_max cat = Ok (ts, tt, p) -> feasible p x ->
  forall t d tb s n, In (t, d) glc_3_more -> runs td t tb -> appears tb n1 s n ->
  total_delay glc_3 t == 0 /\ 0 < d /\
  exists q, initially tt (train t) (station s) q /\ q == inject_Z (n - n1) + d.
Proof.
  assert (X : forall l, forallb (fun t => lmem t glc_trains) l = true -> incl l glc_trains).
  { intros l B t I. rewrite forallb_forall in B. apply lmem_true, B, I. }
  split; [apply X; vm_compute; reflexivity|]. split; [apply X; vm_compute; reflexivity|]. clear X. split; [apply nodupb_ok; vm_compute; reflexivity|].
  intros td st net t1 n1 d_max cat ts tt p x T D0 CL AP H F t d tb s n I R A.
  assert (X : forallb (fun e => Qeq_bool (total_delay glc_3 (fst e)) 0 && negb (Qle_bool (snd e) 0) &&
    Qeq_bool (reaches glc_3 (fst e)) (snd e)) glc_3_more = true) by (vm_compute; reflexivity).
  rewrite forallb_forall in X. apply X in I. cbn [fst snd] in I. rewrite !andb_true_iff in I. destruct I as [[I1 I2] I3].
  apply Qeq_bool_eq in I1, I3. split; [exact I1|]. split.
  { apply Qnot_le_lt. intros L. apply Qle_bool_iff in L. rewrite L in I2. discriminate. }
  destruct (C66_reached _ _ _ _ _ _ _ _ _ _ _ _ T D0 CL AP H F t tb s n _ R A (reaches_ok glc_3 t)) as [(q & Q1 & Q2) _].
  exists q. split; [exact Q1|]. rewrite Q2, I3. reflexivity.
Qed.
Print Assumptions C66_glc_refuted.

Definition glc_td : train_dict :=
  [(1%Z, (["KS - Os"], [trow "a1" (Some "A") 1 (Some "14:05") None; trow "x" None 5 None None; trow "b1" (Some "B") 0 None None]));
   (101%Z, (["KS - Os"], [trow "c1" (Some "C") 1 (Some "14:07") None; trow "y" None 5 None None; trow "d1" (Some "D") 0 None None]))].

Example C66_glc_case : tidy glc_td late_st /\ exists ts tt p,
  tables_to_problem glc_td late_st late_net "14:00" glc_3 40 Integer = Ok (ts, tt, p) /\ feasible p (Check.table []) /\
  initially tt (train 101) (station "C") (7 + 2).
Proof.
  split; [apply tidyb_ok; vm_compute; reflexivity|].
  set (b := ok_or (tables_to_problem glc_td late_st late_net "14:00" glc_3 40 Integer) no_input).
  exists (fst (fst b)), (snd (fst b)), (snd b).
  split; [rewrite (ok_or_ok _ no_input) by (vm_compute; reflexivity); fold b; destruct b as [[? ?] ?]; reflexivity|].
  split; [apply feasibleb_ok; vm_compute; reflexivity|vm_compute; reflexivity].
Qed.
