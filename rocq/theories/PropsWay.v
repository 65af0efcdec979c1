(** * PropsWay: the way of one train, from the tables to the departures of a solution (C77, C78) *)

From Coq Require Import List String Ascii ZArith QArith Qabs Bool Lia Lqa.
From Verif Require Import Base BaseFacts Pulp Helpers LinearSolver Spec SpecFacts DataTables DataSets DataTimes Pipeline
  SpecDurations SpecEnd SpecWay FileFacts TableFacts SetFacts TimeFacts Builds
  PropsIlp PropsTables PropsSets PropsSwitch PropsTimes PropsHeadway PropsPrep PropsSchedule EndFacts PropsEnd QuboFacts Check Examples
  PropsEndCases PropsScenario.
From Verif Require Import DataTables SpecTables SpecSets.
Import ListNotations.
Open Scope string_scope.
Open Scope list_scope.

Lemma in_half h q : in_resolution 1 h q -> h - (1 # 2) <= q /\ q <= h + (1 # 2).
Proof. intros [_ H]. destruct (H eq_refl) as (y & -> & A & _). apply Qabs_Qle_condition in A as [A1 A2]. split; lra. Qed.

Section Way.
  Context (td : train_dict) (st : station_blocks) (net : list netrow) (t1 : string) (delays : list (Z * Q)) (d_max : Q) (cat : vcat)
    (ts : train_sets) (tt : timetable) (p : lpproblem) (x : assignment).
  Hypothesis T : tidy td st.
  Hypothesis PM : pairs_meet td st.
  Hypothesis H : tables_to_problem td st net t1 delays d_max cat = Ok (ts, tt, p).
  Hypothesis F : feasible p x.
  Context (t : Z) (tb : table).
  Hypothesis R : runs td t tb.

  Lemma way_path : dget (train t) (ts_Paths ts) = Some (map station (train_important_stations tb)).
  Proof.
    destruct (parts _ _ _ _ _ _ _ _ _ _ H) as (_ & _ & P & _). rewrite P. unfold emb_paths.
    rewrite (dget_embed train (map station) (get_Paths td) t train_inj), paths_get. destruct R as (i & ->). reflexivity.
  Qed.

  Lemma way_nodup : NoDup (train_important_stations tb).
  Proof. apply visits_once_nodup, (tidy_visits _ _ T _ _ R). Qed.

  Lemma directly_list s s2 mid : directly tb s s2 mid -> exists u v, train_important_stations tb = u ++ s :: s2 :: v.
  Proof.
    intros [(pre & r1 & r2 & post & -> & E1 & E2) N].
    exists (train_important_stations pre), (train_important_stations post). rewrite stations_app.
    change (r1 :: mid ++ r2 :: post) with ([r1] ++ mid ++ [r2] ++ post).
    rewrite !stations_app, (proj2 (stations_nil mid) N). simpl. rewrite E1, E2. reflexivity.
  Qed.

  Lemma list_directly u s s2 v : train_important_stations tb = u ++ s :: s2 :: v -> exists mid, directly tb s s2 mid.
  Proof.
    intros E. apply stations_split in E as (pre & r & post & E & _ & Er & Ep).
    apply (stations_split post [] s2 v) in Ep as (mid & r2 & w & -> & N & Er2 & _).
    exists mid. split; [exists pre, r, r2, w; auto|]. apply stations_nil, N.
  Qed.

  Lemma way_before s s2 mid : directly tb s s2 mid -> comes_before ts (train t) (station s) (station s2).
  Proof.
    intros D. destruct (directly_list _ _ _ D) as (u & v & E). pose proof way_nodup as ND. rewrite E in ND.
    exists (map station (u ++ s :: s2 :: v)), (map station u), (map station v). rewrite way_path, E. split; [reflexivity|].
    split; [rewrite map_app; reflexivity|]. intros I.
    replace (map station u ++ [station s]) with (map station (u ++ [s])) in I by (rewrite map_app; reflexivity).
    apply in_map_iff in I as (s' & Es & I). apply station_inj in Es. subst s'.
    replace (u ++ s :: s2 :: v) with ((u ++ [s]) ++ s2 :: v) in ND by (rewrite <- app_assoc; reflexivity).
    apply NoDup_remove_2 in ND. apply ND, in_or_app. left. exact I.
  Qed.

  Lemma before_way q q' : comes_before ts (train t) q q' ->
    exists s s2 mid, q = station s /\ q' = station s2 /\ directly tb s s2 mid.
  Proof.
    intros (path & l1 & l2 & G & E & _). rewrite way_path in G. inversion G; subst path.
    apply map_eq_app in H1 as (u & w & Eu & <- & Ew). destruct w as [|s [|s2 v]]; inversion Ew; subst.
    destruct (list_directly u s s2 v Eu) as (mid & D). exists s, s2, mid. auto.
  Qed.

  Lemma way_not_skipped s : ~ ends_at tb s -> ~ skipped ts (train t) (station s).
  Proof.
    intros N (sk' & E & G). destruct (parts _ _ _ _ _ _ _ _ _ _ H) as (_ & (sk & w & Ek & Sk & _) & _).
    rewrite Sk in E. inversion E; subst sk'. unfold emb_skip in G. rewrite (dget_embed train station sk t train_inj) in G.
    destruct (dget t sk) as [e|] eqn:Ge; [|discriminate G]. cbn in G. assert (EE : station e = station s) by congruence. apply station_inj in EE. subst e.
    apply (C47_skip td sk (tidy_trains _ _ T) Ek) in Ge as (t' & R' & En). rewrite (runs_fun _ _ _ _ R R') in N. exact (N En).
  Qed.

  Lemma way_decided s : passes tb s -> ~ ends_at tb s -> decided ts (train t) (station s).
  Proof.
    intros P N. destruct (parts _ _ _ _ _ _ _ _ _ _ H) as (_ & _ & _ & J & _). split; [|split; [|split]].
    - rewrite J. unfold trains. apply in_map. apply (runs_key _ _ _ R).
    - eexists. split; [exact way_path|]. apply in_map, stations_in, P.
    - apply way_not_skipped, N.
    - intros (jn & Cn). apply N. eapply continues_ends; eauto.
  Qed.

  Lemma way_pass s s2 mid q : directly tb s s2 mid -> Spec.running tt (train t) (station s) (station s2) q ->
    in_resolution 1 (SpecDurations.running mid) q.
  Proof.
    intros D Q. destruct (parts _ _ _ _ _ _ _ _ _ _ H) as (_ & _ & _ & _ & _ & _ & _ & _ & _ & _ & EP & _).
    destruct (C36_table_partial td None 1 (tidy_visits _ _ T) (tidy_path _ _ T) (named _ _ T) (fun _ x => x)) as (d & Ed & _ & P).
    assert (d = tt_pass tt) by congruence. subst d.
    destruct (P t tb s s2 mid (runs_key _ _ _ R) R D) as (q' & G & Rq). unfold Spec.running in Q. rewrite joined3 in Q. unfold key3 in Q.
    assert (q' = q) by congruence. subst q'. exact Rq.
  Qed.

  Lemma way_stop s r q : In r tb -> r_station r = Some s -> ~ ends_at tb s -> min_stop tt (train t) (station s) q ->
    in_resolution 1 (time_of r) q.
  Proof.
    intros I E N Q. destruct (parts _ _ _ _ _ _ _ _ _ _ H) as (_ & _ & _ & _ & _ & _ & _ & _ & _ & _ & _ & _ & (prep & extra & _ & Es & _) & _).
    destruct (C38_tables_partial td st None 1 (tidy_stations _ _ T) (tidy_blocks _ _ T) (tidy_marked _ _ T) (tidy_visits _ _ T) (tidy_path _ _ T) (fun _ x => x))
      as (stop' & extra' & Es' & SP & _).
    rewrite Es in Es'. inversion Es'; subst stop' extra'.
    destruct (SP t tb s r (runs_key _ _ _ R) R I E N) as [(q' & G & Rq) _]. unfold min_stop in Q. rewrite joined2 in Q. unfold key2 in Q.
    assert (q' = q) by congruence. subst q'. exact Rq.
  Qed.

  Lemma departs_fun s a b : Spec.departs ts tt p x (train t) s a -> Spec.departs ts tt p x (train t) s b -> a == b.
  Proof. intros (e & E & A) (e' & E' & B). rewrite A, B, (earliest_fun _ _ _ _ _ _ E E'). reflexivity. Qed.

  (** One leg *)
  Lemma leg s s2 mid r2 : directly tb s s2 mid -> In r2 tb -> r_station r2 = Some s2 -> ~ ends_at tb s2 ->
    exists a b, Spec.departs ts tt p x (train t) (station s) a /\ Spec.departs ts tt p x (train t) (station s2) b /\
      a + SpecDurations.running mid + time_of r2 <= b + 1 /\
      (whole_minutes (mid ++ [r2]) -> a + SpecDurations.running mid + time_of r2 <= b).
  Proof.
    intros D I E N. destruct (parts _ _ _ _ _ _ _ _ _ _ H) as (C & _ & _ & J & _).
    destruct (C03_minimal_stay ts tt d_max cat p x (reserved_ok _ _ _ _ _ _ _ _ _ _ T H) (none_ok _ _ _ _ _ _ _ _ _ _ T H) C F
      (train t) (station s) (station s2)) as (a & b & q & u & Da & Db & Q & U & L).
    - rewrite J. unfold trains. apply in_map, (runs_key _ _ _ R).
    - exact (way_before _ _ _ D).
    - apply way_decided; [exists r2; auto|exact N].
    - exists a, b. split; [exact Da|]. split; [exact Db|].
      pose proof (way_pass _ _ _ _ D Q) as RQ. pose proof (way_stop _ _ _ I E N U) as RU. split.
      + apply in_half in RQ as [RQ _]. apply in_half in RU as [RU _]. lra.
      + intros W. apply rounding_whole in RQ; [|apply whole_running; intros r Ir; apply W, in_or_app; auto].
        apply rounding_whole in RU; [lra|]. destruct (W r2) as [n Hn]; [apply in_or_app; right; left; reflexivity|]. exists (Z.of_nat n). exact Hn.
  Qed.

  Lemma row_splits mid : (forall r, In r mid -> r_station r = None) \/
    exists u r v s, mid = u ++ r :: v /\ r_station r = Some s /\ forall y, In y u -> r_station y = None.
  Proof.
    induction mid as [|r mid IH]; [left; intros r []|]. destruct (r_station r) as [s|] eqn:E.
    - right. exists [], r, mid, s. split; [reflexivity|]. split; [exact E|]. intros y [].
    - destruct IH as [IH|(u & r' & v & s & -> & E' & N)].
      + left. intros y [<-|I]; auto.
      + right. exists (r :: u), r', v, s. split; [reflexivity|]. split; [exact E'|]. intros y [<-|I]; auto.
  Qed.

  Lemma stations_on_none l : (forall r, In r l -> r_station r = None) -> stations_on l = 0%nat.
  Proof.
    induction l as [|r l IH]; intros N; [reflexivity|]. cbn [stations_on]. rewrite (N r (or_introl eq_refl)), IH; [reflexivity|].
    intros y I. apply N. right. exact I.
  Qed.
  Lemma stations_on_app a b : stations_on (a ++ b) = (stations_on a + stations_on b)%nat.
  Proof. induction a as [|r a IH]; [reflexivity|]. cbn [app stations_on]. rewrite IH. lia. Qed.

  Lemma trip n : forall pre r1 mid r2 post s s2, (List.length mid <= n)%nat ->
    tb = pre ++ r1 :: mid ++ r2 :: post -> r_station r1 = Some s -> r_station r2 = Some s2 -> post <> [] ->
    exists a b, Spec.departs ts tt p x (train t) (station s) a /\ Spec.departs ts tt p x (train t) (station s2) b /\
      a + SpecDurations.running (mid ++ [r2]) <= b + inject_Z (Z.of_nat (1 + stations_on mid)) /\
      (whole_minutes (mid ++ [r2]) -> a + SpecDurations.running (mid ++ [r2]) <= b).
  Proof.
    induction n as [n IH] using lt_wf_ind. intros pre r1 mid r2 post s s2 L E E1 E2 NP.
    assert (LAST : forall u r v s0, tb = u ++ r :: v -> r_station r = Some s0 -> v <> [] -> ~ ends_at tb s0).
    { intros u r v s0 Eu Er Nv X. apply Nv. apply (last_row tb u r v s0 (tidy_visits _ _ T _ _ R) Eu Er). exact X. }
    assert (I2 : In r2 tb) by (rewrite E; apply in_or_app; right; right; apply in_or_app; right; left; reflexivity).
    assert (N2 : ~ ends_at tb s2).
    { apply (LAST (pre ++ r1 :: mid) r2 post s2); auto. rewrite E, <- app_assoc. reflexivity. }
    assert (RR : SpecDurations.running (mid ++ [r2]) == SpecDurations.running mid + time_of r2).
    { rewrite running_app. cbn [SpecDurations.running]. lra. }
    destruct (row_splits mid) as [NS|(u & r & v & s1 & Em & Er & NS)].
    - destruct (leg s s2 mid r2) as (a & b & Da & Db & L1 & L2); auto.
      { split; [exists pre, r1, r2, post; auto|exact NS]. }
      exists a, b. split; [exact Da|]. split; [exact Db|]. rewrite (stations_on_none _ NS). change (inject_Z (Z.of_nat (1 + 0))) with 1.
      rewrite RR. split; [lra|]. intros W. specialize (L2 W). lra.
    - subst mid.
      destruct (leg s s1 u r) as (a & c & Da & Dc & L1 & L2).
      { split; [|exact NS]. exists pre, r1, r, (v ++ r2 :: post). rewrite E, <- app_assoc. auto. }
      { rewrite E. apply in_or_app. right. right. apply in_or_app. left. apply in_or_app. right. left. reflexivity. }
      { exact Er. }
      { apply (LAST (pre ++ r1 :: u) r (v ++ r2 :: post) s1); auto.
        - rewrite E, <- !app_assoc. reflexivity.
        - destruct v; discriminate. }
      destruct (IH (List.length v)) with (pre := pre ++ r1 :: u) (r1 := r) (mid := v) (r2 := r2) (post := post) (s := s1) (s2 := s2)
        as (c' & b & Dc' & Db & L3 & L4); auto.
      { rewrite app_length in L. cbn in L. lia. }
      { rewrite E, <- !app_assoc. reflexivity. }
      pose proof (departs_fun _ _ _ Dc Dc') as CC.
      exists a, b. split; [exact Da|]. split; [exact Db|].
      assert (RS : SpecDurations.running ((u ++ r :: v) ++ [r2]) == SpecDurations.running u + time_of r + SpecDurations.running (v ++ [r2])).
      { rewrite <- app_assoc, running_app. cbn [app SpecDurations.running]. lra. }
      rewrite RS. split.
      + rewrite stations_on_app. cbn [stations_on]. rewrite Er, (stations_on_none _ NS).
        replace (Z.of_nat (1 + (0 + (1 + stations_on v)))) with (1 + Z.of_nat (1 + stations_on v))%Z by lia.
        rewrite inject_Z_plus. change (inject_Z 1) with 1. lra.
      + intros W. specialize (L4 (fun y I => W y ltac:(rewrite <- app_assoc; apply in_or_app; right; right; exact I))).
        assert (W2 : whole_minutes (u ++ [r])).
        { intros y I. apply W. rewrite <- app_assoc. apply in_app_or in I as [I|[<-|[]]]; apply in_or_app; [left; exact I|right; left; reflexivity]. }
        specialize (L2 W2). lra.
  Qed.

End Way.

(** C77. From the departure at [s] to the departure at a later station [s2] a train takes at least the
    times of all blocks between them and of the block at [s2]: with whole minutes exactly, otherwise up
    to a minute of rounding per station (half for the run, half for the stop). *)
Theorem C77_way : forall td st net t1 delays d_max cat ts tt p x,
  tidy td st -> pairs_meet td st ->
  tables_to_problem td st net t1 delays d_max cat = Ok (ts, tt, p) -> feasible p x ->
  forall t tb pre r1 mid r2 post s s2,
  runs td t tb -> tb = pre ++ r1 :: mid ++ r2 :: post -> r_station r1 = Some s -> r_station r2 = Some s2 -> post <> [] ->
  exists a b, Spec.departs ts tt p x (train t) (station s) a /\ Spec.departs ts tt p x (train t) (station s2) b /\
    a + SpecDurations.running (mid ++ [r2]) <= b + inject_Z (Z.of_nat (1 + stations_on mid)) /\
    (whole_minutes (mid ++ [r2]) -> a + SpecDurations.running (mid ++ [r2]) <= b).
Proof.
  intros td st net t1 delays d_max cat ts tt p x T PM H F t tb pre r1 mid r2 post s s2 R E E1 E2 NP.
  eapply trip; eauto.
Qed.
Print Assumptions C77_way.

(** ... and it leaves no station before the time in its timetable. *)
Theorem C77_timetable : forall td st net t1 n1 delays d_max cat ts tt p x,
  tidy td st -> 0 <= d_max -> clock t1 n1 -> times_readable td ->
  tables_to_problem td st net t1 delays d_max cat = Ok (ts, tt, p) -> feasible p x ->
  forall t tb s dep n a, runs td t tb -> SpecDurations.departs tb s dep -> clock dep n ->
  Spec.departs ts tt p x (train t) (station s) a -> inject_Z (n - n1) <= a.
Proof.
  intros td st net t1 n1 delays d_max cat ts tt p x T D0 CL TR H F t tb s dep n a R D C A.
  destruct (parts _ _ _ _ _ _ _ _ _ _ H) as (Cr & _ & _ & _ & _ & _ & _ & _ & _ & _ & _ & _ & _ & _ & Es & _).
  destruct (C44_schedule td t1 n1 (tidy_trains _ _ T) CL TR) as (d & Ed & S). assert (d = tt_schedule tt) by congruence. subst d.
  destruct (C07_departure_bounds ts tt d_max cat p x (reserved_ok _ _ _ _ _ _ _ _ _ _ T H) (none_ok _ _ _ _ _ _ _ _ _ _ T H) D0 Cr F
    _ _ _ A) as (B & _). apply B. unfold scheduled. rewrite joined2. apply S. exists t, tb, s, dep, n. auto.
Qed.
Print Assumptions C77_timetable.

(** ** How late a train can be *)

Lemma same_place tb s : forall u r v u' r' v', visits_once tb -> tb = u ++ r :: v -> tb = u' ++ r' :: v' ->
  r_station r = Some s -> r_station r' = Some s -> u = u'.
Proof.
  intros u r v u' r' v' V E E' S S'.
  assert (L : forall u r v u' r' v', tb = u ++ r :: v -> tb = u' ++ r' :: v' -> r_station r = Some s -> r_station r' = Some s ->
    (List.length u <= List.length u')%nat -> u = u').
  { clear u r v u' r' v' E E' S S'. intros u r v u' r' v' E E' S S' L.
    assert (X : firstn (List.length u) tb = firstn (List.length u) u').
    { rewrite E', firstn_app. replace (List.length u - List.length u')%nat with 0%nat by lia. cbn [firstn]. apply app_nil_r. }
    rewrite E, firstn_app_len in X. destruct (Nat.eq_dec (List.length u) (List.length u')) as [Q|Q].
    - rewrite Q, firstn_all in X. exact X.
    - exfalso. assert (Y : exists w, u' = u ++ w /\ w <> []).
      { exists (skipn (List.length u) u'). split; [rewrite X at 1; symmetry; apply firstn_skipn|]. intros Z.
        apply (f_equal (@List.length row)) in Z. rewrite skipn_length in Z. cbn in Z. lia. }
      destruct Y as (w & -> & NW). rewrite E, <- app_assoc in E'. apply app_inv_head in E'. destruct w as [|y w]; [congruence|]. inversion E'; subst.
      apply (V u y w r' v' s); auto. }
  destruct (Nat.le_ge_cases (List.length u) (List.length u')); [eapply L; eauto|symmetry; eapply L; eauto].
Qed.

Section Late.
  Context (td : train_dict) (st : station_blocks) (net : list netrow) (t1 : string) (n1 : Z) (delays : list (Z * Q)) (d_max : Q) (cat : vcat)
    (ts : train_sets) (tt : timetable) (p : lpproblem) (x : assignment).
  Hypothesis T : tidy td st.
  Hypothesis D0 : 0 <= d_max.
  Hypothesis CL : clock t1 n1.
  Hypothesis TR : times_readable td.
  Hypothesis AP : forall t tb, runs td t tb -> exists s n, appears tb n1 s n.
  Hypothesis H : tables_to_problem td st net t1 delays d_max cat = Ok (ts, tt, p).
  Hypothesis F : feasible p x.
  Context (t : Z) (tb : table) (d : Q) (plan : string -> Q).
  Hypothesis R : runs td t tb.
  Hypothesis DR : delay_reached t delays d.
  Hypothesis Dp : 0 <= d.
  Hypothesis K : could_keep tb n1 plan.
  (* how much is lost by rounding at each station *)
  Context (eps : Q).
  Hypothesis EP : 0 <= eps.
  Hypothesis W : forall l q, incl l tb -> in_resolution 1 (SpecDurations.running l) q -> q <= SpecDurations.running l + (1 # 2) * eps.

  Lemma initially_appears s i : initially tt (train t) (station s) i -> exists n, appears tb n1 s n /\ i == inject_Z (n - n1) + d.
  Proof.
    intros I. destruct (parts _ _ _ _ _ _ _ _ _ _ H) as (_ & _ & _ & _ & _ & _ & _ & _ & _ & _ & _ & _ & _ & _ & _ & (init & Ei & Et)).
    destruct (C44_initial td t1 n1 (tidy_trains _ _ T) CL AP) as (init' & Ei' & CI). assert (init' = init) by congruence. subst init'.
    pose proof I as I'. unfold initially in I'. rewrite joined2, Et in I'. unfold key2 in I'.
    assert (KI : In (str_of_Z t ++ "_" ++ s)%string (dkeys init)).
    { rewrite <- (delays_keys delays init). apply dget_in in I'. apply (in_map fst) in I'. exact I'. }
    apply key_get in KI as (q & G). pose proof G as G'. apply CI in G' as (t' & tb' & s' & n & R' & A & E & _).
    change (key2 t s = key2 t' s') in E. apply key2_inj in E as [-> ->]. rewrite (runs_fun _ _ _ _ R' R) in A.
    exists n. split; [exact A|].
    destruct (C66_reached _ _ _ _ _ _ _ _ _ _ _ _ T D0 CL AP H F t' tb s' n d R A DR) as [(q' & Q1 & Q2) _].
    unfold initially in I, Q1. assert (q' = i) by congruence. subst q'. exact Q2.
  Qed.

  Lemma scheduled_departs s q : scheduled tt (train t) (station s) q ->
    exists dep n, SpecDurations.departs tb s dep /\ clock dep n /\ q = inject_Z (n - n1).
  Proof.
    intros S. destruct (parts _ _ _ _ _ _ _ _ _ _ H) as (_ & _ & _ & _ & _ & _ & _ & _ & _ & _ & _ & _ & _ & _ & Es & _).
    destruct (C44_schedule td t1 n1 (tidy_trains _ _ T) CL TR) as (m & Em & C). assert (m = tt_schedule tt) by congruence. subst m.
    unfold scheduled in S. rewrite joined2 in S. apply C in S as (t' & tb' & s' & dep & n & R' & D & Cd & E & Q).
    change (key2 t s = key2 t' s') in E. apply key2_inj in E as [-> ->]. rewrite (runs_fun _ _ _ _ R' R) in D. exists dep, n. auto.
  Qed.

  Lemma not_later s m e b : not_before_schedule tt (train t) (station s) m e -> m <= b -> plan s + d <= b -> e <= b.
  Proof.
    intros [(q & S & [[_ E]|[_ E]])|[_ E]] L P; rewrite E; try exact L.
    apply scheduled_departs in S as (dep & n & Dd & Cd & ->). pose proof (keep_timetable _ _ _ K _ _ _ Dd Cd). lra.
  Qed.

  Lemma earliest_latest q e : earliest ts tt (train t) q e ->
    forall s pre r post, q = station s -> tb = pre ++ r :: post -> r_station r = Some s -> ~ ends_at tb s ->
    e <= plan s + d + eps * inject_Z (Z.of_nat (stations_on pre)).
  Proof.
    assert (NN : forall l, 0 <= eps * inject_Z (Z.of_nat (stations_on l))).
    { intros l. apply Qmult_le_0_compat; [exact EP|]. change 0 with (inject_Z 0). rewrite <- Zle_Qle. lia. }
    induction 1 as [q i e Hi Hb|q sp e0 u v e Hi Hc He IH Hr Hu Hb]; intros s pre r post Eq Etb Er N; subst q.
    - specialize (NN pre). apply (not_later _ _ _ _ Hb); [|lra]. apply initially_appears in Hi as (n & A & E). pose proof (keep_start _ _ _ K _ _ A). lra.
    - pose proof (NN pre) as NNp. apply (not_later _ _ _ _ Hb); [|lra].
      destruct (before_way _ _ _ _ _ _ _ _ _ _ H t tb R _ _ Hc) as (s1 & s2 & mid & E1 & E2 & D). apply station_inj in E2. subst sp s2.
      pose proof D as [(pre1 & r1 & r2 & post2 & E & R1 & R2) NM].
      assert (I2 : In r2 tb) by (rewrite E; apply in_or_app; right; right; apply in_or_app; right; left; reflexivity).
      assert (N1 : ~ ends_at tb s1).
      { intros X. apply (last_row tb pre1 r1 (mid ++ r2 :: post2) s1 (tidy_visits _ _ T _ _ R) E R1) in X. destruct mid; discriminate. }
      specialize (IH s1 pre1 r1 (mid ++ r2 :: post2) eq_refl E R1 N1).
      assert (PE : stations_on pre = (1 + stations_on pre1)%nat).
      { assert (X : pre = pre1 ++ r1 :: mid).
        { apply (same_place tb s pre r post (pre1 ++ r1 :: mid) r2 post2 (tidy_visits _ _ T _ _ R) Etb); auto. rewrite E, <- app_assoc. reflexivity. }
        rewrite X, stations_on_app. cbn [stations_on]. rewrite R1, (stations_on_none _ NM). lia. }
      pose proof (way_pass _ _ _ _ _ _ _ _ _ _ T H t tb R _ _ _ _ D Hr) as RQ. pose proof (way_stop _ _ _ _ _ _ _ _ _ _ T H t tb R _ _ _ I2 R2 N Hu) as RU.
      apply W in RQ; [|intros y Iy; rewrite E; apply in_or_app; right; right; apply in_or_app; left; exact Iy].
      assert (RU' : in_resolution 1 (SpecDurations.running [r2]) v) by (eapply in_resolution_eq; [|exact RU]; cbn [SpecDurations.running]; lra).
      apply W in RU'; [|intros y [<-|[]]; exact I2]. cbn [SpecDurations.running] in RU'.
      pose proof (keep_times _ _ _ K _ _ _ _ D I2 R2). rewrite PE, Nat2Z.inj_add, inject_Z_plus. change (inject_Z (Z.of_nat 1)) with 1. lra.
  Qed.
End Late.

(** C78. No train is later than a plan it could keep when alone and on time, plus the delay of the scenario,
    plus [d_max]; if the times are not whole minutes, plus a minute of rounding for each station before. *)
Theorem C78_latest : forall td st net t1 n1 delays d_max cat ts tt p x,
  tidy td st -> 0 <= d_max -> clock t1 n1 -> times_readable td ->
  (forall t tb, runs td t tb -> exists s n, appears tb n1 s n) ->
  tables_to_problem td st net t1 delays d_max cat = Ok (ts, tt, p) -> feasible p x ->
  forall t tb d plan pre r post s a, runs td t tb -> delay_reached t delays d -> 0 <= d -> could_keep tb n1 plan ->
  tb = pre ++ r :: post -> r_station r = Some s -> post <> [] -> Spec.departs ts tt p x (train t) (station s) a ->
  a <= plan s + d + d_max + inject_Z (Z.of_nat (stations_on pre)) /\
  (whole_minutes tb -> a <= plan s + d + d_max).
Proof.
  intros td st net t1 n1 delays d_max cat ts tt p x T D0 CL TR AP H F t tb d plan pre r post s a R DR Dp K Etb Er NP A.
  pose proof A as (e & E & _).
  assert (N : ~ ends_at tb s).
  { intros X. apply NP. apply (last_row tb pre r post s (tidy_visits _ _ T _ _ R) Etb Er). exact X. }
  destruct (parts _ _ _ _ _ _ _ _ _ _ H) as (Cr & _).
  destruct (C07_departure_bounds ts tt d_max cat p x (reserved_ok _ _ _ _ _ _ _ _ _ _ T H) (none_ok _ _ _ _ _ _ _ _ _ _ T H) D0 Cr F
    _ _ _ A) as (_ & _ & C). destruct (C e E) as [_ C2].
  pose proof (earliest_latest td st net t1 n1 delays d_max cat ts tt p x T D0 CL TR AP H F t tb d plan R DR Dp K) as B.
  split.
  - assert (X : e <= plan s + d + 1 * inject_Z (Z.of_nat (stations_on pre))); [|lra].
    apply (B 1 ltac:(lra)) with (q := station s) (r := r) (post := post); auto. intros l q _ Q. apply in_half in Q. lra.
  - intros W. assert (X : e <= plan s + d + 0 * inject_Z (Z.of_nat (stations_on pre))); [|lra].
    apply (B 0 ltac:(lra)) with (q := station s) (r := r) (post := post); auto. intros l q I Q.
    apply rounding_whole in Q; [lra|]. apply whole_running. intros y Iy. apply W, I, Iy.
Qed.
Print Assumptions C78_latest.

(** ** A case: one train over three stations that have blocks between them *)

Definition way_tb : table :=
  [trow "a1" (Some "A") 1 (Some "16:05") None; trow "x" None 5 None None; trow "b1" (Some "B") 2 (Some "16:10") None;
   trow "y" None 3 None None; trow "c1" (Some "C") 1 None None; trow "z" None 4 None None; trow "d1" (Some "D") 0 None None].
Definition way_td : train_dict := [(20%Z, (["KS - Os"], way_tb))].
Definition way_net : list netrow :=
  [free "a1" "x"; free "x" "b1"; free "b1" "y"; free "y" "c1"; free "c1" "z"; free "z" "d1"].
Definition way_built : train_sets * timetable * lpproblem :=
  ok_or (tables_to_problem way_td late_st way_net "16:00" [(20%Z, 3)] 10 Integer) no_input.

Definition way_plan (s : string) : Q :=
  if (s =? "A")%string then 5 else if (s =? "B")%string then 12 else if (s =? "C")%string then 16 else 20.

(** Checking a plan along the rows; [last] has the station left and the minutes since *)
Fixpoint keepsb (plan : string -> Q) (last : option (string * Q)) (tb : table) : bool :=
  match tb with
  | [] => true
  | r :: l => match r_station r with
    | Some s2 => match last with Some (s, q) => Qle_bool (plan s + q + time_of r) (plan s2) | None => true end && keepsb plan (Some (s2, 0)) l
    | None => keepsb plan (option_map (fun sq => (fst sq, snd sq + time_of r)) last) l
    end
  end.

Lemma keepsb_skip plan l : forall pre last, keepsb plan last (pre ++ l) = true -> exists last', keepsb plan last' l = true.
Proof.
  induction pre as [|r pre IH]; cbn [app keepsb]; intros last H; [eauto|]. destruct (r_station r); [|eauto].
  apply andb_true_iff in H as [_ H]. eauto.
Qed.

Lemma keepsb_leg plan s s2 r2 post : r_station r2 = Some s2 -> forall mid q, (forall r, In r mid -> r_station r = None) ->
  keepsb plan (Some (s, q)) (mid ++ r2 :: post) = true -> plan s + (q + SpecDurations.running mid) + time_of r2 <= plan s2.
Proof.
  intros R. induction mid as [|r mid IH]; cbn [app keepsb]; intros q N H.
  - rewrite R in H. apply andb_true_iff in H as [H _]. apply Qle_bool_iff in H. cbn [SpecDurations.running]. lra.
  - rewrite (N r (or_introl eq_refl)) in H. cbn [option_map fst snd] in H. apply IH in H; [|intros y I; apply N; right; exact I]. cbn [SpecDurations.running]. lra.
Qed.

Lemma keepsb_ok tb plan : visits_once tb -> keepsb plan None tb = true ->
  forall s s2 mid r2, directly tb s s2 mid -> In r2 tb -> r_station r2 = Some s2 -> plan s + SpecDurations.running mid + time_of r2 <= plan s2.
Proof.
  intros V H s s2 mid r2' [(pre & r1 & r2 & post & E & R1 & R2) NM] I R2'.
  assert (Q : r2' = r2).
  { apply in_split in I as (u & v & I).
    assert (P : u = pre ++ r1 :: mid).
    { apply (same_place tb s2 u r2' v (pre ++ r1 :: mid) r2 post V I); auto. rewrite E, <- app_assoc. reflexivity. }
    rewrite P, E, <- app_assoc in I. apply app_inv_head in I. injection I as I. apply app_inv_head in I. injection I as I _. symmetry. exact I. }
  subst r2'. rewrite E in H. apply keepsb_skip in H as (w & H). cbn [keepsb] in H. rewrite R1 in H. apply andb_true_iff in H as [_ H].
  apply (keepsb_leg _ _ _ _ _ R2 _ _ NM) in H. lra.
Qed.

Lemma way_keeps : could_keep way_tb 960 way_plan.
Proof.
  assert (C5 : forall n, clock "16:05" n -> n = 965%Z).
  { intros n C. apply (clock_fun "16:05"); [exact C|apply strptime_clock; reflexivity]. }
  assert (C10 : forall n, clock "16:10" n -> n = 970%Z).
  { intros n C. apply (clock_fun "16:10"); [exact C|apply strptime_clock; reflexivity]. }
  constructor.
  - intros s n (r & (pre & post & E & N & R) & M). unfold way_tb in E.
    destruct pre as [|y pre]; [|exfalso; injection E as <- _; specialize (N _ (or_introl eq_refl)); discriminate N].
    injection E as <- _. injection R as <-. cbn in M. rewrite (C5 _ M). vm_compute. discriminate.
  - intros s dep n (pre & r & post & E & R & D & _) C. unfold way_tb in E.
    assert (I : In r way_tb) by (unfold way_tb; rewrite E; apply in_or_app; right; left; reflexivity). clear E.
    repeat (destruct I as [<-|I]; [cbn in R, D; try discriminate R; try discriminate D; injection R as <-; injection D as <-;
      first [rewrite (C5 _ C)|rewrite (C10 _ C)]; vm_compute; discriminate|]). destruct I.
  - apply keepsb_ok; [|vm_compute; reflexivity]. apply visits_once_nodup, nodupb_ok. vm_compute. reflexivity.
Qed.

Lemma way_ok : tables_to_problem way_td late_st way_net "16:00" [(20%Z, 3)] 10 Integer =
  Ok (fst (fst way_built), snd (fst way_built), snd way_built).
Proof.
  rewrite (ok_or_ok _ no_input) by (vm_compute; reflexivity). fold way_built. destruct way_built as [[a b] c]. reflexivity.
Qed.

Lemma way_tidy : tidy way_td late_st.
Proof. apply tidyb_ok. vm_compute. reflexivity. Qed.

Lemma way_departs s a : departs_at way_built (Check.table []) 20 s a = true ->
  Spec.departs (fst (fst way_built)) (snd (fst way_built)) (snd way_built) (Check.table []) (train 20) (station s) a.
Proof.
  intros E. unfold departs_at in E. destruct (earliest_dep_time _ _ _ _) as [e|] eqn:D; [|discriminate E].
  exists e. split; [|apply Qeq_bool_iff; exact E].
  eapply earliest_dep_time_sound; [eapply reserved_ok; [exact way_tidy|exact way_ok]|eapply none_ok; [exact way_tidy|exact way_ok]|exact D].
Qed.

(** The train is 3 minutes late: it leaves A at 16:08 and C at 16:19, as late as the blocks make it. *)
Example C77_case : tidy way_td late_st /\ pairs_meet way_td late_st /\ times_readable way_td /\
  exists ts tt p, tables_to_problem way_td late_st way_net "16:00" [(20%Z, 3)] 10 Integer = Ok (ts, tt, p) /\
  feasible p (Check.table []) /\ runs way_td 20 way_tb /\ whole_minutes way_tb /\
  SpecDurations.departs way_tb "B" "16:10" /\
  Spec.departs ts tt p (Check.table []) (train 20) (station "A") 8 /\
  Spec.departs ts tt p (Check.table []) (train 20) (station "C") 19 /\
  8 + SpecDurations.running [trow "x" None 5 None None; trow "b1" (Some "B") 2 (Some "16:10") None;
    trow "y" None 3 None None; trow "c1" (Some "C") 1 None None] == 19.
Proof.
  split; [exact way_tidy|]. split.
  { split.
    - intros x [<-|[]] [E|[]]. discriminate E.
    - assert (O : forall j tb, runs way_td j tb -> j = 20%Z).
      { intros j tb (i & E). apply dget_in in E. destruct E as [E|[]]. injection E as <- _ _. reflexivity. }
      intros x j j' b S (tb & tb' & R & R' & _). apply O in R, R'. destruct S as [[-> ->]|[-> ->]]; lia. }
  split.
  { intros t tb r s dep (i & E) I _ D. apply dget_in in E. destruct E as [E|[]]. injection E as _ _ <-.
    unfold way_tb in I. repeat (destruct I as [<-|I]; [cbn in D; try discriminate D; injection D as <-; eexists; apply strptime_clock; reflexivity|]). destruct I. }
  exists (fst (fst way_built)), (snd (fst way_built)), (snd way_built). split; [exact way_ok|].
  split; [apply feasibleb_ok; vm_compute; reflexivity|]. split; [exists ["KS - Os"]; reflexivity|].
  split; [minutes|]. split.
  { exists [trow "a1" (Some "A") 1 (Some "16:05") None; trow "x" None 5 None None].
    eexists. eexists. split; [reflexivity|]. split; [reflexivity|]. split; [reflexivity|].
    intros y [<-|[<-|[]]] Q; discriminate Q. }
  split; [apply way_departs; vm_compute; reflexivity|]. split; [apply way_departs; vm_compute; reflexivity|reflexivity].
Qed.

(** The plan of the same train leaves C at 16:16; 3 minutes late it leaves at 16:19, not after 16:29. *)
Example C78_case : tidy way_td late_st /\ (forall t tb, runs way_td t tb -> exists s n, appears tb 960 s n) /\
  clock "16:00" 960 /\ could_keep way_tb 960 way_plan /\ delay_reached 20 [(20%Z, 3)] (3 + 0) /\
  exists ts tt p, tables_to_problem way_td late_st way_net "16:00" [(20%Z, 3)] 10 Integer = Ok (ts, tt, p) /\
  feasible p (Check.table []) /\ runs way_td 20 way_tb /\
  Spec.departs ts tt p (Check.table []) (train 20) (station "C") 19 /\ way_plan "C" + 3 == 19.
Proof.
  split; [exact way_tidy|]. split.
  { intros t tb (i & E). apply dget_in in E. destruct E as [E|[]]. injection E as _ _ <-.
    exists "A", 965%Z, (trow "a1" (Some "A") 1 (Some "16:05") None). split; [|apply strptime_clock; reflexivity].
    exists []. eexists. split; [reflexivity|]. split; [intros ? []|reflexivity]. }
  split; [apply strptime_clock; reflexivity|]. split; [exact way_keeps|].
  split; [apply dr_hit; [exists ""; reflexivity|constructor]|].
  exists (fst (fst way_built)), (snd (fst way_built)), (snd way_built). split; [exact way_ok|].
  split; [apply feasibleb_ok; vm_compute; reflexivity|]. split; [exists ["KS - Os"]; reflexivity|].
  split; [apply way_departs; vm_compute; reflexivity|vm_compute; reflexivity].
Qed.

(** With times that are not whole minutes a train may be given less time than its blocks need: the
    model rounds 5.4 and 1.4 minutes to 5 and 1, and the train leaves B after 6 minutes, not 6.8. *)
Definition short_td : train_dict := [(20%Z, (["KS - Os"],
  [trow "a1" (Some "A") 1 (Some "16:05") None; trow "x" None (27 # 5) None None; trow "b1" (Some "B") (7 # 5) None None;
   trow "y" None 3 None None; trow "c1" (Some "C") 1 None None]))].
Definition short_net : list netrow := [free "a1" "x"; free "x" "b1"; free "b1" "y"; free "y" "c1"].

Theorem C77_rounding_refuted : exists td st net ts tt p x, solved td st net ts tt p x /\
  exists t tb pre r1 mid r2 post s s2 a b, runs td t tb /\ tb = pre ++ r1 :: mid ++ r2 :: post /\
    r_station r1 = Some s /\ r_station r2 = Some s2 /\ post <> [] /\
    Spec.departs ts tt p x (train t) (station s) a /\ Spec.departs ts tt p x (train t) (station s2) b /\
    b + (4 # 5) == a + SpecDurations.running (mid ++ [r2]).
Proof.
  pose proof (solved_ok short_td late_st short_net (fun _ => 0) ltac:(vm_compute; reflexivity) ltac:(vm_compute; reflexivity) ltac:(vm_compute; reflexivity)) as S0.
  eexists _, _, _, _, _, _, _. split; [exact S0|].
  eexists 20%Z, _, [], _, [trow "x" None (27 # 5) None None], _, _, "A", "B", 5, 11.
  split; [eexists; reflexivity|]. split; [reflexivity|]. split; [reflexivity|]. split; [reflexivity|]. split; [discriminate|].
  split; [eapply solved_departs; [exact S0|vm_compute; reflexivity]|].
  split; [eapply solved_departs; [exact S0|vm_compute; reflexivity]|reflexivity].
Qed.
Print Assumptions C77_rounding_refuted.
