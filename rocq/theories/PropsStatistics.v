(** * PropsStatistics: what visualise_statistics.py prints and draws (C93) *)

From Coq Require Import List String Ascii ZArith QArith Qround Bool Lia Lqa Permutation.
From Verif Require Import Base BaseFacts Pulp Helpers LinearSolver Converters Results DataTables DataSets DataTimes Pipeline Runs Script
  Spec SpecTimes SpecBuild SpecTables SpecSets SpecDurations SpecEnd SpecQubo SpecNames SpecResults SpecScript
  HelperFacts CqmFacts DelayVars Rules Interp Created QuboModel SpecFacts Names TableFacts SetFacts TimeFacts QuboFacts ResultFacts Builds EndFacts PropsVars PropsBuild PropsTimes PropsSets PropsHeadway
  PropsSchedule PropsPrep PropsPrint PropsResults PropsEnd PropsTotal PropsRuns PropsCqm PropsReal PropsRecorded RealData
  FastSwitch PropsQubo PropsTurns PropsReached PropsScript Diagrams SpecDiagrams DiagramFacts PropsDiagrams Statistics.
Import ListNotations.
Open Scope string_scope.
Open Scope list_scope.

(** The secondary delays a schedule gives at a station: one for each stop of a train there that has one. *)
Definition at_stop (s : pv) (e : pv * stop_entry) : list Z := if eqb (fst e) s then given (k_secondary_delay (snd e)) else [].
Definition shown_at (s : pv) (sched : schedule) : list Z := flat_map (fun train => flat_map (at_stop s) (snd train)) sched.

Definition appended (old : option (list Z)) (m : list Z) : option (list Z) :=
  match m with [] => old | _ => Some (match old with Some v => v | None => [] end ++ m) end.

Lemma appended_app o a b : appended (appended o a) b = appended o (a ++ b).
Proof.
  destruct a as [|x a]; [reflexivity|]. destruct b as [|y b]; [rewrite app_nil_r; reflexivity|].
  cbn [appended app]. rewrite <- app_assoc. reflexivity.
Qed.

Lemma added s sched : forall delays, dget s (add_delays_one_realisation delays sched) = appended (dget s delays) (shown_at s sched).
Proof.
  unfold add_delays_one_realisation, shown_at. induction sched as [|[j kd] l IH]; intros delays; [reflexivity|].
  cbn [fold_left flat_map snd]. rewrite IH, <- appended_app. f_equal. clear IH. revert delays.
  induction kd as [|[t k] r IH]; intros delays; [reflexivity|]. cbn [fold_left flat_map fst snd]. rewrite IH, <- appended_app. f_equal.
  unfold at_stop. cbn [fst snd]. destruct (k_secondary_delay k) as [z|]; cbn [given]; [|destruct (eqb t s); reflexivity].
  destruct (eqb t s) eqn:E.
  - apply (proj1 (eqb_true _ _)) in E. subst t. destruct (dget s delays) as [v|]; rewrite dget_dset; destruct (eq_dec s s); try contradiction; reflexivity.
  - assert (N : s <> t) by (intros ->; rewrite eqb_refl in E; discriminate E).
    destruct (dget t delays) as [v|]; rewrite dget_dset; destruct (eq_dec s t); try contradiction; reflexivity.
Qed.

Lemma added_runs s (l : dict Z schedule) : forall delays,
  dget s (fold_left (fun delays run => add_delays_one_realisation delays (snd run)) l delays) =
  appended (dget s delays) (flat_map (fun run => shown_at s (snd run)) l).
Proof.
  induction l as [|r l IH]; intros delays; [reflexivity|]. cbn [fold_left flat_map]. rewrite IH, added, appended_app. reflexivity.
Qed.

(** The delays of a file at a station: of the hybrid solver those of all its runs, of the classical one those of its schedule. *)
Definition hybrid_at (f : files) (k : Z) (s : pv) (m : list Z) : Prop :=
  exists l, dget ("solutions_quantum/data4diagrams/cqm5_case" ++ str_of_Z k ++ "_Integer.pkl")%string f = Some (Schedules l) /\ m = flat_map (fun run => shown_at s (snd run)) l.
Definition classical_at (f : files) (k : Z) (s : pv) (m : list Z) : Prop :=
  exists d, dget ("solutions_quantum/data4diagrams/PULP_CBC_CMD_case" ++ str_of_Z k ++ "_Integer.pkl")%string f = Some (OneSchedule d) /\ m = shown_at s d.

(** A station of a figure: a bar from the least to the largest delay with the mean marked on it, and the quantiles. *)
Definition pictures (m : list Z) (g : drawn) : Prop :=
  exists max min, summary m (max, d_q75 g, d_mean g, d_q25 g, min) /\
    d_mean g - d_lower g == inject_Z min /\ d_mean g + d_upper g == inject_Z max.

(** The five stations, one after the other *)
Definition five_stations : list pv := map PStr ["KO(STM)"; "KO"; "CB"; "KL"; "MJ"].

(** The pass for a case: the numbers printed, and a figure for the cases 0, 4 and 7 only *)
Definition right_pass (at_station : pv -> list Z -> Prop) (name : string) (k : Z)
    (out : list (Z * Q * Q * Q * Z) * list figure) : Prop :=
  Forall2 (fun s five => exists m, at_station s m /\ summary m five) five_stations (fst out) /\
  if lmem k [0; 4; 7]%Z then
    exists points, snd out = [MkFigure (name ++ "_case" ++ str_of_Z k ++ ".pdf") points] /\
      Forall2 (fun s g => d_station g = s /\ exists m, at_station s m /\ pictures m g) five_stations points
  else snd out = [].

Lemma pass_right f file collect name k out (at_station : pv -> list Z -> Prop) :
  (forall c delays, dget file f = Some c -> collect c = Ok delays ->
     forall s l, dget s delays = Some l -> l <> [] /\ at_station s l) ->
  one_case f file collect name k = Ok out -> right_pass at_station name k out.
Proof.
  intros K H. unfold one_case in H. inv_bind H. destruct (dget file f) as [c|] eqn:G; [|discriminate E].
  injection E as <-. inv_bind H. rename a into delays. inv_bind H. rename a into stats. inv_bind H. rename a into figures.
  injection H as <-. specialize (K c delays eq_refl E).
  pose proof (C76_statistics delays considered_stations stats (fun s l _ D => proj1 (K s l D)) E0) as S.
  split; cbn [fst snd].
  - change five_stations with considered_stations. clear - S K. induction S as [|s five ss st (l & D & X) _ IH]; constructor; [|exact IH].
    exists l. split; [exact (proj2 (K s l D))|exact X].
  - unfold plot_stats in E1. destruct (lmem k [0; 4; 7]%Z); [|injection E1 as <-; reflexivity].
    inv_bind E1. injection E1 as <-. rename a into points. exists points. split; [reflexivity|].
    change five_stations with considered_stations.
    assert (Sm : Forall2 (fun s five => exists l, dget s delays = Some l /\ summary l five /\
        five = (np_max_z l, np_quantile l (3 # 4), np_mean l, np_quantile l (1 # 4), np_min l)) considered_stations stats).
    { clear - S E0. unfold get_print_statistics in E0. apply mapM_all in E0. revert S. induction E0 as [|s five ss st X _ IH]; intros S; constructor;
      inversion S as [|? ? ? ? (l & D & Y) R]; subst; [|exact (IH R)]. exists l. split; [exact D|]. split; [exact Y|].
      unfold dlookup in X. rewrite D in X. injection X as <-. reflexivity. }
    clear S E0. apply mapM_all in E2. revert points E2. induction Sm as [|s five ss st (l & D & Y & F) _ IH]; intros points P; cbn [combine] in P;
      inversion P as [|? g ? gs X R]; subst; constructor; [|exact (IH _ R)].
    unfold dlookup in X. rewrite D in X. injection X as <-. cbn [d_station]. split; [reflexivity|]. exists l. split; [exact (proj2 (K s l D))|].
    exists (np_max_z l), (np_min l). cbn [d_q75 d_mean d_q25 d_lower d_upper]. split; [exact Y|]. split; ring.
Qed.

Lemma appended_some m l : appended None m = Some l -> l <> [] /\ l = m.
Proof. destruct m as [|z m]; cbn; [discriminate|]. intros X. injection X as <-. split; [discriminate|reflexivity]. Qed.

(** C93. If the script ends, it has printed for each of the ten cases and each of the five stations the maximum, the
    quantiles, the mean and the minimum of the delays of all runs in the file of that case (of no other), first for the
    hybrid solver and then for the classical one, and it has saved a figure with these numbers for the cases 0, 4 and 7. *)
Theorem C93_statistics : forall f hybrid classical, visualise_statistics f = Ok (hybrid, classical) ->
  Forall2 (fun k out => right_pass (hybrid_at f k) "statistics" k out) [0; 1; 2; 3; 4; 5; 6; 7; 8; 9]%Z hybrid /\
  Forall2 (fun k out => right_pass (classical_at f k) "classical_statistics" k out) [0; 1; 2; 3; 4; 5; 6; 7; 8; 9]%Z classical.
Proof.
  intros f hybrid classical H. unfold visualise_statistics in H. change (map Z.of_nat (seq 0 10)) with [0; 1; 2; 3; 4; 5; 6; 7; 8; 9]%Z in H.
  inv_bind H. inv_bind H. injection H as <- <-. apply mapM_all in E, E0. split.
  - clear E0. induction E as [|k out ks outs X _ IH]; constructor; [|exact IH].
    refine (pass_right _ _ _ _ _ _ _ _ X). intros c delays G Y s l D.
    destruct c as [sm|r|d]; cbn [hybrid_delays] in Y; [discriminate Y| |]; injection Y as <-; [|discriminate D].
    rewrite added_runs in D. apply appended_some in D. destruct D as [N ->]. split; [exact N|]. exists r. split; [exact G|reflexivity].
  - clear E. induction E0 as [|k out ks outs X _ IH]; constructor; [|exact IH].
    refine (pass_right _ _ _ _ _ _ _ _ X). intros c delays G Y s l D.
    destruct c as [sm|r|d]; cbn [classical_delays] in Y; [discriminate Y| |]; injection Y as <-; [discriminate D|].
    rewrite added in D. apply appended_some in D. destruct D as [N ->]. split; [exact N|]. exists d. split; [exact G|reflexivity].
Qed.
Print Assumptions C93_statistics.

(** The script ends exactly if each of the twenty files is there, of its kind, and gives a delay at each of the five
    stations; one station without delays in one file and there are no statistics at all. *)
Lemma pass_ends f file collect name k : (exists out, one_case f file collect name k = Ok out) <->
  exists c delays, dget file f = Some c /\ collect c = Ok delays /\ forall s, In s five_stations -> dget s delays <> None.
Proof.
  unfold one_case. split.
  - intros (out & H). inv_bind H. destruct (dget file f) as [c|]; [|discriminate E]. injection E as <-. inv_bind H. inv_bind H.
    exists c, a. split; [reflexivity|]. split; [exact E|]. change five_stations with considered_stations. intros s I.
    unfold get_print_statistics in E0. apply mapM_all in E0. clear - I E0. induction E0 as [|t r ts rs X _ IH]; [destruct I|].
    destruct I as [->|I]; [|exact (IH I)]. unfold dlookup in X. destruct (dget s a); discriminate.
  - intros (c & delays & G & Y & D). rewrite G. cbn [bind]. rewrite Y. cbn [bind]. change five_stations with considered_stations in D.
    assert (D' : forall s, In s considered_stations -> exists l, dlookup s delays = Ok l).
    { intros s I. specialize (D s I). unfold dlookup. destruct (dget s delays) as [l|]; [exists l; reflexivity|contradiction]. }
    unfold get_print_statistics.
    destruct (mapM_total (fun e => do l <- dlookup e delays;
      Ok (np_max_z l, np_quantile l (3 # 4), np_mean l, np_quantile l (1 # 4), np_min l)) considered_stations) as (st & S).
    { intros s I. destruct (D' s I) as (l & ->). eexists. reflexivity. }
    rewrite S. cbn [bind]. unfold plot_stats. destruct (lmem k [0; 4; 7]%Z); [|eexists; reflexivity].
    match goal with |- context [mapM ?F ?L] => destruct (mapM_total F L) as (ps & P) end.
    { intros [s [[[[mx q75] mean] q25] mn]] I. apply in_combine_l in I. destruct (D' s I) as (l & ->). eexists. reflexivity. }
    rewrite P. eexists. reflexivity.
Qed.

Theorem C93_ends : forall f, (exists out, visualise_statistics f = Ok out) <->
  forall k s, (0 <= k <= 9)%Z -> In s five_stations ->
    (exists m, hybrid_at f k s m /\ m <> []) /\ (exists m, classical_at f k s m /\ m <> []).
Proof.
  intros f.
  assert (KO : In (PStr "KO") five_stations) by (right; left; reflexivity).
  assert (HY : forall k, (exists out, one_case f (hybrid_file k) hybrid_delays "statistics" k = Ok out) <->
     forall s, In s five_stations -> exists m, hybrid_at f k s m /\ m <> []).
  { intros k. rewrite pass_ends. split.
    - intros (c & delays & G & Y & D) s I. specialize (D s I).
      destruct c as [sm|r|d]; cbn [hybrid_delays] in Y; [discriminate Y| |]; injection Y as <-; [|exfalso; apply D; reflexivity].
      eexists. split; [exists r; split; [exact G|reflexivity]|]. rewrite added_runs in D. intros X. rewrite X in D. apply D. reflexivity.
    - intros A. destruct (A _ KO) as (m & (r & G & _) & _). exists (Schedules r). eexists. split; [exact G|]. split; [reflexivity|].
      intros s I. destruct (A s I) as (m' & (r' & G' & ->) & N). rewrite G in G'. injection G' as <-. rewrite added_runs.
      destruct (flat_map (fun run => shown_at s (snd run)) r); [contradiction|cbn; discriminate]. }
  assert (CL : forall k, (exists out, one_case f (classical_file k) classical_delays "classical_statistics" k = Ok out) <->
     forall s, In s five_stations -> exists m, classical_at f k s m /\ m <> []).
  { intros k. rewrite pass_ends. split.
    - intros (c & delays & G & Y & D) s I. specialize (D s I).
      destruct c as [sm|r|d]; cbn [classical_delays] in Y; [discriminate Y| |]; injection Y as <-; [exfalso; apply D; reflexivity|].
      eexists. split; [exists d; split; [exact G|reflexivity]|]. rewrite added in D. intros X. rewrite X in D. apply D. reflexivity.
    - intros A. destruct (A _ KO) as (m & (r & G & _) & _). exists (OneSchedule r). eexists. split; [exact G|]. split; [reflexivity|].
      intros s I. destruct (A s I) as (m' & (r' & G' & ->) & N). rewrite G in G'. injection G' as <-. rewrite added.
      destruct (shown_at s r); [contradiction|cbn; discriminate]. }
  assert (CS : forall k, In k [0; 1; 2; 3; 4; 5; 6; 7; 8; 9]%Z <-> (0 <= k <= 9)%Z) by (intros k; cbn [In]; lia).
  unfold visualise_statistics. change (map Z.of_nat (seq 0 10)) with [0; 1; 2; 3; 4; 5; 6; 7; 8; 9]%Z.
  assert (PI : forall (F : Z -> res (list (Z * Q * Q * Q * Z) * list figure)) l r, mapM F l = Ok r -> forall k, In k l -> exists out, F k = Ok out).
  { intros F l r M. apply mapM_all in M. induction M as [|k0 o0 ks os X _ IH]; intros k I; [destruct I|]. destruct I as [<-|I]; [eauto|auto]. }
  split.
  - intros (out & H) k s Hk I. inv_bind H. inv_bind H. apply CS in Hk. split.
    + exact (proj1 (HY k) (PI _ _ _ E k Hk) s I).
    + exact (proj1 (CL k) (PI _ _ _ E0 k Hk) s I).
  - intros A.
    match goal with |- context [bind (mapM ?F ?L) _] => destruct (mapM_total F L) as (hs & P) end.
    { intros k I. apply CS in I. apply HY. intros s Is. exact (proj1 (A k s I Is)). }
    rewrite P. cbn [bind].
    match goal with |- context [bind (mapM ?F ?L) _] => destruct (mapM_total F L) as (cs & P2) end.
    { intros k I. apply CS in I. apply CL. intros s Is. exact (proj2 (A k s I Is)). }
    rewrite P2. cbn [bind]. eexists. reflexivity.
Qed.
Print Assumptions C93_ends.

(** The delays of the runs stored by solve_real_problem.py are among the delays the statistics are made of: whatever a
    stored answer gives as the delay of a train at a station, the numbers of that station lie around it. *)
Theorem C93_runs : forall o a f f1 n f2 td st ts tab p,
  a_show a = false -> a_solve_quantum a = "cqm" -> a_min_t a = 5%Z -> a_category a = Integer ->
  (forall i, real_samplers (o_samplers o i)) -> script o a f = (f1, Ok tt) -> (0 <= n <= a_runs a)%Z ->
  dget (samples_file o a) f2 = dget (samples_file o a) f1 ->
  made_by o a td st ts tab p -> tidy td st -> complete td st (o_network o) "16:00" -> no_part_lines td ->
  exists f3, script o (to_show a n) f2 = (f3, Ok tt) /\
    forall i, (1 <= i <= n)%Z -> exists samples e, dget (samples_file o a) f1 = Some (Samples samples) /\ dget i samples = Some e /\
      forall j path s z m five, In j (ts_J ts) -> dget j (ts_Paths ts) = Some path -> In s path ->
        In ("Delays", [j; s]) (map v_id (variables p)) -> values (e_sample e) ("Delays", [j; s]) == inject_Z z ->
        hybrid_at f3 (a_case a) s m -> summary m five ->
        In z m /\ let '(max, _, _, _, min) := five in (min <= z <= max)%Z.
Proof.
  intros o a f f1 n f2 td st ts tab p NS Q MT CAT RS H Hn F2 MB T C NP.
  assert (M : In (a_solve_quantum a) methods) by (rewrite Q; cbn; auto).
  destruct (C85_shown o a f f1 n f2 td st ts tab p NS M RS H Hn F2 MB T C NP) as (f3 & S & _ & K).
  exists f3. split; [exact S|]. intros i Hi. destruct (K i Hi) as (samples & e & shown & sched & G1 & G2 & G3 & G4 & G5 & _).
  exists samples, e. split; [exact G1|]. split; [exact G2|]. intros j path s z m five Ij Pj Is V X (r & GH & ->) SU.
  change (dget (hybrid_file (a_case a)) f3 = Some (Schedules r)) in GH.
  assert (FN : hybrid_file (a_case a) = diagrams_file o a).
  { unfold hybrid_file, diagrams_file, quantum_file, p_text, case_text. rewrite Q, MT, CAT. reflexivity. }
  rewrite FN, G3 in GH. injection GH as <-.
  destruct (G5 j path Ij Pj) as (printed & D & W). destruct (W s Is) as (k & Dk & _ & W2 & _). destruct (W2 V) as (_ & W3).
  specialize (W3 z X).
  assert (IZ : In z (flat_map (fun run => shown_at s (snd run)) shown)).
  { apply in_flat_map. exists (i, sched). split; [exact (dget_in _ _ _ G4)|]. cbn [snd]. apply in_flat_map. exists (j, printed).
    split; [exact (dget_in _ _ _ D)|]. cbn [snd]. apply in_flat_map. exists (s, k). split; [exact (dget_in _ _ _ Dk)|].
    unfold at_stop. cbn [fst snd]. rewrite eqb_refl, W3. left. reflexivity. }
  split; [exact IZ|]. destruct five as [[[[max q75] mean] q25] min]. destruct SU as ((_ & MX) & (_ & MN) & _). split; [exact (MN _ IZ)|exact (MX _ IZ)].
Qed.
Print Assumptions C93_runs.

(** The same for the plan an exact solver leaves. *)
Theorem C93_exact : forall o a f sv x td st ts tab p,
  In (a_case a) [0; 1; 2; 3; 4; 5; 6; 7; 8; 9]%Z -> a_show a = true -> a_solve_lp a = "PULP_CBC_CMD" -> a_solve_quantum a = "" ->
  a_category a = Integer ->
  made_by o a td st ts tab p -> tidy td st -> complete td st (o_network o) "16:00" -> no_part_lines td ->
  o_solver o (a_solve_lp a) = Some sv -> sv p = Some x -> feasible p x ->
  exists f1, script o a f = (f1, Ok tt) /\
    forall j path s z m five, In j (ts_J ts) -> dget j (ts_Paths ts) = Some path -> In s path ->
      In ("Delays", [j; s]) (map v_id (variables p)) -> x ("Delays", [j; s]) == inject_Z z ->
      classical_at f1 (a_case a) s m -> summary m five ->
      In z m /\ let '(max, _, _, _, min) := five in (min <= z <= max)%Z.
Proof.
  intros o a f sv x td st ts tab p IC SH LP NQ CAT MB T C NP HS HX FE.
  assert (NL : a_solve_lp a <> "") by (rewrite LP; discriminate).
  destruct (C85_lp_shown o a f sv x td st ts tab p IC SH NL NQ MB T C NP HS HX FE) as (f1 & sched & S & G & SP & _).
  exists f1. split; [exact S|]. intros j path s z m five Ij Pj Is V X (d & GH & ->) SU.
  change (dget (classical_file (a_case a)) f1 = Some (OneSchedule d)) in GH.
  assert (FN : classical_file (a_case a) = lp_file a) by (unfold classical_file, lp_file, case_text; rewrite LP, CAT; reflexivity).
  rewrite FN, G in GH. injection GH as <-.
  destruct (SP j path Ij Pj) as (printed & D & W). destruct (W s Is) as (k & Dk & _ & W2 & _). destruct (W2 V) as (_ & W3).
  specialize (W3 z X).
  assert (IZ : In z (shown_at s sched)).
  { apply in_flat_map. exists (j, printed). split; [exact (dget_in _ _ _ D)|]. cbn [snd]. apply in_flat_map. exists (s, k).
    split; [exact (dget_in _ _ _ Dk)|]. unfold at_stop. cbn [fst snd]. rewrite eqb_refl, W3. left. reflexivity. }
  split; [exact IZ|]. destruct five as [[[[max q75] mean] q25] min]. destruct SU as ((_ & MX) & (_ & MN) & _). split; [exact (MN _ IZ)|exact (MX _ IZ)].
Qed.
Print Assumptions C93_exact.

(** ** Nothing outside the figures *)

Lemma dset_in {A B} `{EqDec A} (k : A) (v : B) (d : dict A B) k' v' : In (k', v') (dset k v d) -> (k', v') = (k, v) \/ In (k', v') d.
Proof.
  induction d as [|[a b] d IH]; cbn [dset]; [intros [E|[]]; left; symmetry; exact E|].
  destruct (eq_dec k a) as [->|]; cbn [In]; intros [E|I]; auto. destruct (IH I); auto.
Qed.

Lemma found_in name vars v : find_var name vars = Some v -> In v vars.
Proof. intros F. unfold find_var in F. apply find_some in F. tauto. Qed.

Lemma py_int_between q b : 0 <= q <= b -> (0 <= py_int q)%Z /\ inject_Z (py_int q) <= b.
Proof.
  intros [L U]. unfold py_int. destruct (qltb q 0) eqn:E.
  - exfalso. unfold qltb in E. apply negb_true_iff in E. assert (Qle_bool 0 q = true) by (apply Qle_bool_iff; exact L). congruence.
  - split; [change 0%Z with (Qfloor 0); apply Qfloor_resp_le; exact L|]. eapply Qle_trans; [apply Qfloor_le|exact U].
Qed.

Lemma printed_between p tab ts pass skip d t_ref value sched b : print_optimisation_results p tab ts pass skip d t_ref value = Ok sched ->
  0 <= b -> (forall v q, In v (variables p) -> value v = Some q -> 0 <= q <= b) ->
  forall s z, In z (shown_at s sched) -> (0 <= z)%Z /\ inject_Z z <= b.
Proof.
  intros H B V.
  assert (G : forall j kd s k z, In (j, kd) sched -> In (s, k) kd -> k_secondary_delay k = Some z -> (0 <= z)%Z /\ inject_Z z <= b).
  { unfold print_optimisation_results in H. revert H.
    apply (foldM_inv (fun sched => forall j kd s k z, In (j, kd) sched -> In (s, k) kd -> k_secondary_delay k = Some z -> (0 <= z)%Z /\ inject_Z z <= b));
      [intros ? ? ? ? ? []|].
    intros acc j acc' _ IH E. inv_bind E. inv_bind E. injection E as <-. intros j' kd s k z I. apply dset_in in I as [I|I]; [|exact (IH j' kd s k z I)].
    injection I as -> ->. clear IH E0. revert s k z. revert E1.
    apply (foldM_inv (fun r : print_state => forall s k z, In (s, k) (snd r) -> k_secondary_delay k = Some z -> (0 <= z)%Z /\ inject_Z z <= b));
      [intros ? ? ? []|].
    intros [[[sp dp] dc] m] q acc'' _ IH E s k z I D. cbn [snd] in IH. unfold print_stop in E.
    destruct (match dget (key_pass j sp q) pass with Some _ => _ | None => _ end) as [ar ca].
    destruct (match dget j skip with Some sk => eqb q sk | None => false end).
    - injection E as <-. cbn [snd] in I. apply dset_in in I as [I|I]; [injection I as -> ->; discriminate D|exact (IH s k z I D)].
    - inv_bind E. inv_bind E. destruct a2 as [[delay dep] conf]. injection E as <-. cbn [snd] in I. apply dset_in in I as [I|I]; [|exact (IH s k z I D)].
      injection I as -> ->. cbn [k_secondary_delay] in D. injection D as <-. apply py_int_between. unfold delay_and_acctual_time in E1.
      destruct (find_var _ (variables p)) as [v|] eqn:F; [|injection E1 as <- _ _; split; [apply Qle_refl|exact B]].
      inv_bind E1. inv_bind E1. injection E1 as <- _ _. destruct (value v) as [w|] eqn:W; [|discriminate E]. injection E as <-.
      exact (V v w (found_in _ _ _ F) W). }
  intros s z I. apply in_flat_map in I as ([j kd] & I1 & I). apply in_flat_map in I as ([q k] & I2 & I). unfold at_stop in I. cbn [fst snd] in *.
  destruct (eqb q s); [|destruct I]. apply (G j kd q k z I1 I2). destruct (k_secondary_delay k) as [w|]; cbn [given] in I; [|destruct I].
  destruct I as [->|[]]. reflexivity.
Qed.

Lemma shown_from file print data (P : schedule -> Prop) l : forall shown f f', show_runs file print data shown l f = (f', Ok tt) ->
  (forall i e s, In i l -> dget i data = Some e -> print e = Ok s -> P s) -> (forall i s, In (i, s) shown -> P s) ->
  l <> [] -> forall shown', dget file f' = Some (Schedules shown') -> forall i s, In (i, s) shown' -> P s.
Proof.
  induction l as [|i l IH]; intros shown f f' H Q S N shown' G; [contradiction|]. cbn [show_runs] in H. unfold dlookup in H.
  destruct (dget i data) as [e|] eqn:Gi; [|discriminate H]. cbn [bind] in H. destruct (print e) as [sc|] eqn:Pe; [|discriminate H].
  assert (S' : forall k s, In (k, s) (dset i sc shown) -> P s).
  { intros k s I. apply dset_in in I as [I|I]; [injection I as -> ->; exact (Q i e sc (or_introl eq_refl) Gi Pe)|exact (S k s I)]. }
  destruct l as [|i2 l].
  - cbn [show_runs] in H. injection H as <-. rewrite dget_dset in G. destruct (eq_dec file file); [|contradiction]. injection G as <-. exact S'.
  - apply (IH _ _ _ H); [intros k e' s I; apply Q; right; exact I|exact S'|discriminate|exact G].
Qed.

(** All variables of a problem lie between 0 and the largest delay (40 in the script). *)
Lemma values_between ts tab cat p x v : reserved_free ts -> create_linear_problem ts tab 40 cat = Ok p -> in_range p x -> In v (variables p) ->
  0 <= x (v_id v) <= 40.
Proof.
  intros RF Cr R I. specialize (R v I). destruct R as (R1 & R2 & _).
  destruct (occurs_canon _ _ _ _ _ RF Cr v (variables_occurs p v I)) as [(j & s & _ & ->)|(q & [->| ->])];
    specialize (R1 _ eq_refl); specialize (R2 _ eq_refl); lra.
Qed.

(** Whatever the constrained solver answers, feasible or not: all delays in the file lie between 0 and 40, so that no bar of
    a figure leaves its axis, which goes from -2 to 60. *)
Theorem C93_axis : forall o a f f1 n f2 f3 td st ts tab p,
  a_show a = false -> a_solve_quantum a = "cqm" -> a_min_t a = 5%Z -> a_category a = Integer ->
  (forall i, real_samplers (o_samplers o i)) -> script o a f = (f1, Ok tt) -> (1 <= n <= a_runs a)%Z ->
  dget (samples_file o a) f2 = dget (samples_file o a) f1 ->
  made_by o a td st ts tab p -> tidy td st -> complete td st (o_network o) "16:00" -> no_part_lines td ->
  script o (to_show a n) f2 = (f3, Ok tt) ->
  forall s m, hybrid_at f3 (a_case a) s m ->
    (forall z, In z m -> (0 <= z <= 40)%Z) /\
    forall g, pictures m g -> -2 <= d_mean g - d_lower g /\ d_mean g + d_upper g <= 60.
Proof.
  intros o a f f1 n f2 f3 td st ts tab p NS Q MT CAT RS H Hn F2 MB T C NP H3 s m HA.
  assert (Z40 : forall z, In z m -> (0 <= z <= 40)%Z).
  { assert (M : In (a_solve_quantum a) methods) by (rewrite Q; cbn; auto).
    destruct (C85_stored o a f f1 NS M H) as (td' & st' & ts' & tab' & p' & samples & MB' & G & Keys & Runs & _).
    assert (E0 : td' = td /\ st' = st /\ ts' = ts /\ tab' = tab /\ p' = p).
    { destruct MB as (d1 & A1 & A2 & A3 & A4), MB' as (d2 & B1 & B2 & B3 & B4). assert (d2 = d1) by congruence. assert (st' = st) by congruence. subst.
      assert (td' = td) by congruence. subst. rewrite A4 in B4. inversion B4; subst. auto. }
    destruct E0 as (-> & -> & -> & -> & ->). clear MB'.
    destruct MB as (data & A1 & A2 & A3 & A4). pose proof (parts _ _ _ _ _ _ _ _ _ _ A4) as [Cr Md].
    assert (DM : ~ 40 == 0) by (intros X; discriminate X).
    pose proof (made_well_formed _ _ _ _ _ _ _ T C NP Md 40 DM) as WF. pose proof (wf_reserved _ _ _ WF) as RF.
    destruct (taus_made td st (o_network o) "16:00" 0 T C) as (t & Et).
    assert (P : prepare o (to_show a n) = Ok (t, ts, tab, p)).
    { unfold prepare, to_show. cbn [a_case a_category]. rewrite A1, A2. cbn [bind]. rewrite A3. cbn [bind]. rewrite Et. cbn [bind]. rewrite A4. reflexivity. }
    assert (V : forall i e v q, (1 <= i <= a_runs a)%Z -> dget i samples = Some e -> In v (variables p) -> dget (v_name v) (e_sample e) = Some q -> 0 <= q <= 40).
    { intros i e v q Hi Ge Iv Gq. destruct (Runs i Hi) as (mt & pdict & e' & Hm & _ & S & Ge'). assert (e' = e) by congruence. subst e'.
      unfold solve_on_quantum in S. inv_bind S. inv_bind S. rename a0 into rows, a1 into out.
      assert (Io : In e out).
      { unfold get_best_feasible_sample in S. destruct (find e_feasible out) as [e'|] eqn:Fd.
        - inversion S; subst. apply find_some in Fd. tauto.
        - unfold lnth in S. destruct (nth_error (sorted_by e_energy out) 0) as [e'|] eqn:N; [|discriminate]. inversion S; subst.
          apply nth_error_In in N. eapply Permutation.Permutation_in; [symmetry; apply (sorted_perm e_energy)|exact N]. }
      destruct (results_inv p rows out E0 e Io) as (d & en & Hd & Ed & _).
      pose proof (proj2 (C33_in_range ts tab 40 (a_category a) p (o_samplers o i) mt pdict rows RF Cr (RS i) E _ _ Hd)) as IR.
      pose proof (values_between _ _ _ _ _ v RF Cr IR Iv) as B. unfold values in B. change (id_name (v_id v)) with (v_name v) in B.
      rewrite <- Ed, Gq in B. exact B. }
    unfold script in H3. cbn [a_case a_solve_quantum to_show] in H3. destruct (lmem (a_case a) _); cbn [negb] in H3; [|discriminate H3]. rewrite P in H3.
    destruct (lmem (a_solve_quantum a) _); cbn [negb] in H3; [|discriminate H3].
    unfold lp_part in H3. cbn [a_solve_lp to_show] in H3. change (eqb "" "") with true in H3. cbn iota in H3. unfold quantum_part in H3.
    cbn [a_solve_quantum a_show to_show] in H3. rewrite Q in H3. change (method_of "cqm") with (Some Cqm) in H3. cbn iota in H3.
    change (samples_file o (to_show a n)) with (samples_file o a) in H3. change (diagrams_file o (to_show a n)) with (diagrams_file o a) in H3.
    rewrite F2, G in H3.
    destruct HA as (r & GH & ->). change (dget (hybrid_file (a_case a)) f3 = Some (Schedules r)) in GH.
    assert (FN : hybrid_file (a_case a) = diagrams_file o a).
    { unfold hybrid_file, diagrams_file, quantum_file, p_text, case_text. rewrite Q, MT, CAT. reflexivity. }
    rewrite FN in GH. intros z I. apply in_flat_map in I as ([i sched] & I1 & I2). cbn [snd] in I2.
    assert (R : (0 <= z)%Z /\ inject_Z z <= 40).
    { revert s z I2. refine (shown_from _ _ _ (fun sched => forall s z, In z (shown_at s sched) -> (0 <= z)%Z /\ inject_Z z <= 40) _ _ _ _ H3 _ _ _ r GH i sched I1).
      - intros i' e s' I' Ge Pe. apply numbers_in in I'. cbn [a_runs to_show] in I'. apply (printed_between _ _ _ _ _ _ _ _ _ 40 Pe); [discriminate|].
        intros v q Iv Gq. apply (V i' e v q); [lia|exact Ge|exact Iv|exact Gq].
      - intros ? ? [].
      - intros X. assert (I' : In 1%Z (run_numbers (to_show a n))) by (apply numbers_in; cbn [a_runs to_show]; lia). rewrite X in I'. destruct I'. }
    destruct R as [R1 R2]. split; [exact R1|]. change 40 with (inject_Z 40) in R2. rewrite <- Zle_Qle in R2. exact R2. }
  split; [exact Z40|]. intros g (max & min & ((IM & _) & (IN & _) & _) & L & U). apply Z40 in IM, IN.
  assert (X1 : inject_Z 0 <= inject_Z min) by (rewrite <- Zle_Qle; lia). assert (X2 : inject_Z max <= inject_Z 40) by (rewrite <- Zle_Qle; lia).
  change (inject_Z 0) with 0 in X1. change (inject_Z 40) with 40 in X2. split; lra.
Qed.
Print Assumptions C93_axis.

(** ** Cases *)

(** A train with delays at the five stations, a stop without delay and a stop elsewhere *)
Definition delayed (number d : Z) : pv * dict pv stop_entry :=
  (PInt number, map (fun x : Z * pv => (snd x, MkStop None None None (Some (d + fst x)%Z) None None))
     (combine [0; 1; 2; 3; 4; 7]%Z (five_stations ++ [PStr "GLC"])) ++ [(PStr "Ty", MkStop None None None None None None)]).

Definition ten_cases : files :=
  flat_map (fun k => [(hybrid_file k, Schedules [(1%Z, [delayed 5312 k; delayed 94766 0]); (2%Z, [delayed 5312 (k + 8); delayed 94766 2])]);
                      (classical_file k, OneSchedule [delayed 5312 k; delayed 94766 (2 * k)])]) [0; 1; 2; 3; 4; 5; 6; 7; 8; 9]%Z.

Example C93_case : exists hybrid classical, visualise_statistics ten_cases = Ok (hybrid, classical) /\
  map (fun x => map g_file (snd x)) hybrid =
    [["statistics_case0.pdf"]; []; []; []; ["statistics_case4.pdf"]; []; []; ["statistics_case7.pdf"]; []; []] /\
  map (fun x => map g_file (snd x)) classical =
    [["classical_statistics_case0.pdf"]; []; []; []; ["classical_statistics_case4.pdf"]; []; []; ["classical_statistics_case7.pdf"]; []; []] /\
  hybrid_at ten_cases 4 (PStr "CB") [6; 2; 14; 4]%Z /\ classical_at ten_cases 4 (PStr "CB") [6; 10]%Z /\
  (exists five out, nth_error hybrid 4 = Some out /\ nth_error (fst out) 2 = Some five /\
     let '(max, q75, mean, q25, min) := five in max = 14%Z /\ q75 == 8 /\ mean == 13 # 2 /\ q25 == 7 # 2 /\ min = 2%Z) /\
  exists out g d, nth_error hybrid 4 = Some out /\ nth_error (snd out) 0 = Some g /\ nth_error (g_points g) 2 = Some d /\
    d_station d = PStr "CB" /\ d_mean d == 13 # 2 /\ d_lower d == 9 # 2 /\ d_upper d == 15 # 2.
Proof.
  do 2 eexists. split; [vm_compute; reflexivity|]. split; [reflexivity|]. split; [reflexivity|].
  split; [eexists; split; vm_compute; reflexivity|]. split; [eexists; split; vm_compute; reflexivity|]. split.
  - do 2 eexists. split; [reflexivity|]. split; [reflexivity|]. repeat split; vm_compute; reflexivity.
  - do 3 eexists. split; [reflexivity|]. split; [reflexivity|]. split; [reflexivity|]. repeat split; vm_compute; reflexivity.
Qed.

(** The same files, but in the last one no train has a delay at MJ: nothing ends *)
Example C93_gap : visualise_statistics (dset (classical_file 9)
    (OneSchedule [(PInt 5312, map (fun s => (PStr s, MkStop None None None (Some 1%Z) None None)) ["KO(STM)"; "KO"; "CB"; "KL"])]) ten_cases) = Err KeyError.
Proof. vm_compute. reflexivity. Qed.

(** The hypotheses of [C93_runs] and [C93_axis], for every case of the repository and a solver that answers *)
Example C93_runs_case : forall case runs, (0 <= case <= 9)%Z -> (1 <= runs)%Z ->
  let a := MkArgs case Integer "" "cqm" 5 runs (3 # 2) false in
  exists f1 f3 td st ts tab p samples e, script zero_outside a [] = (f1, Ok tt) /\
    script zero_outside (to_show a runs) f1 = (f3, Ok tt) /\ made_by zero_outside a td st ts tab p /\
    dget (samples_file zero_outside a) f1 = Some (Samples samples) /\ dget runs samples = Some e /\
    (forall j path s z m five, In j (ts_J ts) -> dget j (ts_Paths ts) = Some path -> In s path ->
      In ("Delays", [j; s]) (map v_id (variables p)) -> values (e_sample e) ("Delays", [j; s]) == inject_Z z ->
      hybrid_at f3 case s m -> summary m five ->
      In z m /\ let '(max, _, _, _, min) := five in (min <= z <= max)%Z) /\
    forall s m, hybrid_at f3 case s m -> forall z, In z m -> (0 <= z <= 40)%Z.
Proof.
  intros case runs HC HR a. assert (R : repository zero_outside) by (repeat split; reflexivity).
  assert (IC : In (a_case a) [0; 1; 2; 3; 4; 5; 6; 7; 8; 9]%Z) by (cbn [a_case a In]; lia).
  destruct (C85_repository zero_outside a R IC) as (td & st & ts & tab & p & MB & T & C & NP).
  assert (AN : answering zero_outside p).
  { intros i c CC. pose proof MB as (data & _ & _ & _ & A4). pose proof (parts _ _ _ _ _ _ _ _ _ _ A4) as [Cr Md].
    assert (DM : ~ 40 == 0) by (intros X; discriminate X). pose proof (made_well_formed _ _ _ _ _ _ _ T C NP Md 40 DM) as WF.
    apply (zero_answers ts tab 40 p c); [discriminate|exact (wf_reserved _ _ _ WF)|exact Cr|exact CC]. }
  destruct (C85_answers zero_outside a [] td st ts tab p IC eq_refl eq_refl eq_refl eq_refl MB T C NP (fun _ => zero_real) AN) as (f1 & S1).
  destruct (C93_runs zero_outside a [] f1 runs f1 td st ts tab p eq_refl eq_refl eq_refl eq_refl (fun _ => zero_real) S1) as (f3 & S3 & K);
    [cbn [a_runs a]; lia|reflexivity|exact MB|exact T|exact C|exact NP|].
  destruct (K runs) as (samples & e & G1 & G2 & G3); [lia|].
  exists f1, f3, td, st, ts, tab, p, samples, e. do 5 (split; [assumption|]). split; [exact G3|]. intros s m HA.
  refine (proj1 (C93_axis zero_outside a [] f1 runs f1 f3 td st ts tab p eq_refl eq_refl eq_refl eq_refl (fun _ => zero_real) S1 _ eq_refl MB T C NP S3 s m HA)).
  cbn [a_runs a]. lia.
Qed.

(** The hypotheses of [C93_exact]: case 0 of the repository and a solver that returns an optimum of it *)
Example C93_exact_case : exists o td st ts tab p x f1,
  let a := MkArgs 0 Integer "PULP_CBC_CMD" "" 5 1 (3 # 2) true in
  repository o /\ made_by o a td st ts tab p /\ optimal p x /\ script o a [] = (f1, Ok tt) /\
  forall j path s z m five, In j (ts_J ts) -> dget j (ts_Paths ts) = Some path -> In s path ->
    In ("Delays", [j; s]) (map v_id (variables p)) -> x ("Delays", [j; s]) == inject_Z z ->
    classical_at f1 0 s m -> summary m five ->
    In z m /\ let '(max, _, _, _, min) := five in (min <= z <= max)%Z.
Proof.
  destruct C72_recorded_refuted as (td & ts & tab & p & x & _ & _ & B & H & OP & _).
  set (o := MkOutside (o_text zero_outside) (o_table zero_outside) (o_stations zero_outside) network (fun _ => Some (fun _ => Some x)) (fun _ => zero_samplers)).
  set (a := MkArgs 0 Integer "PULP_CBC_CMD" "" 5 1 (3 # 2) true).
  assert (R : repository o) by (repeat split; reflexivity).
  assert (MB : made_by o a td stations_main ts tab p) by (exists schedule_main; split; [reflexivity|]; split; [reflexivity|]; split; [exact B|exact H]).
  destruct (C85_repository o a R) as (td' & st' & ts' & tab' & p' & MB' & T & C & NP); [left; reflexivity|].
  assert (E : st' = stations_main /\ td' = td).
  { destruct MB' as (d2 & X1 & X2 & X3 & _). assert (d2 = schedule_main) by (injection X1; intros X; symmetry; exact X).
    assert (st' = stations_main) by (injection X2; intros X; symmetry; exact X). subst d2 st'. split; [reflexivity|].
    change (o_network o) with network in X3. rewrite B in X3. injection X3; intros X; symmetry; exact X. }
  destruct E as [-> ->].
  destruct (C93_exact o a [] (fun _ => Some x) x td stations_main ts tab p) as (f1 & S & K); try reflexivity; try assumption;
    [left; reflexivity|exact (proj1 OP)|].
  exists o, td, stations_main, ts, tab, p, x, f1. split; [exact R|]. split; [exact MB|]. split; [exact OP|]. split; [exact S|exact K].
Qed.
