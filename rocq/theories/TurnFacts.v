(** * TurnFacts: turnarounds of a scenario compared with those of the timetable (C86) *)

From Coq Require Import List String ZArith QArith Bool Lia Lqa.
From Verif Require Import Base BaseFacts Pulp Helpers LinearSolver DataTables DataSets DataTimes Pipeline
  Spec SpecFacts SpecTables SpecDurations SpecSets SpecEnd SpecRoom
  TableFacts SetFacts TimeFacts EndFacts Objective SpecNames PropsSchedule PropsTotal PropsScenario PropsRoom.
Import ListNotations.
Open Scope string_scope.
Open Scope list_scope.

(** ** Two timetables, the second one with later trains *)

Section Later.
  Variables (ts : train_sets) (tt0 tt : timetable) (j : pv) (D : Q).
  Hypothesis Hp : tt_pass tt = tt_pass tt0.
  Hypothesis Hs : tt_stop tt = tt_stop tt0.
  Hypothesis Hc : tt_schedule tt = tt_schedule tt0.
  Hypothesis Hi : forall s q, initially tt0 j s q -> exists q', initially tt j s q' /\ q <= q' <= q + D.
  Hypothesis Hb : forall s q, initially tt j s q -> exists q', initially tt0 j s q'.
  Hypothesis D0 : 0 <= D.

  Lemma not_before_later s t t' e e' : t <= t' <= t + D -> not_before_schedule tt0 j s t e -> not_before_schedule tt j s t' e' ->
    e <= e' <= e + D.
  Proof.
    unfold not_before_schedule, scheduled. rewrite Hc. intros L [(q & Q1 & A)|[Q1 A]] [(q' & Q2 & B)|[Q2 B]].
    - assert (q' = q) by congruence. subst. destruct A as [[]|[]], B as [[]|[]]; lra.
    - exfalso. exact (Q2 q Q1).
    - exfalso. exact (Q1 q' Q2).
    - lra.
  Qed.

  Lemma earliest_later s e : earliest ts tt0 j s e -> forall e', earliest ts tt j s e' -> e <= e' <= e + D.
  Proof.
    induction 1 as [s i e I N|s sp e0 r st e I B E IH R M N]; intros e' E'.
    - destruct (Hi s i I) as (i' & I' & L). inversion E' as [? i1 ? I1 N1|? ? ? ? ? ? I1]; subst; [|exfalso; exact (I1 i' I')].
      assert (i1 = i') by (unfold initially in *; congruence). subst. eapply not_before_later; eauto.
    - inversion E' as [? i1 ? I1 N1|? sp1 e1 r1 st1 ? I1 B1 E1 R1 M1 N1]; subst.
      + exfalso. destruct (Hb s i1 I1) as (q & Q). exact (I q Q).
      + assert (sp1 = sp) by (eapply comes_before_fun; eauto). subst sp1. unfold Spec.running, min_stop in *. rewrite Hp in R1. rewrite Hs in M1.
        assert (r1 = r) by congruence. assert (st1 = st) by congruence. subst. specialize (IH _ E1).
        eapply not_before_later; [|exact N|exact N1]. lra.
  Qed.
End Later.

(** ** The turnarounds of the tables with the delays [known] *)

Definition base_timetable (td : train_dict) (st : station_blocks) (t1 : string) (known : list (Z * Q)) : res timetable :=
  do pass <- get_taus_pass td None 1;
  do prep <- get_taus_prep td st 1;
  do '(stop, extra) <- get_taus_stop td st None 1;
  do sched <- get_schedule td t1;
  do init <- get_initial_conditions td t1;
  Ok (MkTT pass [] stop (dupdate prep extra) None sched (fold_left (fun init d => add_delay init (fst d) (snd d)) known init) []).

(** Station, trains, the earliest time of the rolling stock and that of the next train *)
Definition turn : Type := string * (Z * Z) * (Q * Q).

Definition one_turn (paths : dict pv (list pv)) (tab : timetable) (x : string * (Z * Z)) : res turn :=
  let '(s, (j, k)) := x in
  do path <- dlookup (train j) paths;
  do sp <- previous_station path (station s);
  do e0 <- earliest_dep_time paths tab (train j) sp;
  do r <- tau_pass tab (train j) sp (station s);
  do pr <- tau_prep tab (train k) (station s);
  do e <- earliest_dep_time paths tab (train k) (station s);
  Ok (s, (j, k), (e0 + r + pr, e)).

Definition turns_of (td : train_dict) (st : station_blocks) (t1 : string) (known : list (Z * Q)) : res (list turn) :=
  do d <- get_jround td st;
  do tab <- base_timetable td st t1 known;
  mapM (one_turn (emb_paths (get_Paths td)) tab) (flat_map (fun e => map (fun jk => (fst e, jk)) (snd e)) d).

Lemma mapM_image {A B} (f : A -> res B) : forall l l' a, mapM f l = Ok l' -> In a l -> exists b, f a = Ok b /\ In b l'.
Proof.
  induction l as [|x l IH]; intros l' a H I; [destruct I|]. cbn in H. inv_bind H. inv_bind H. inversion H; subst. destruct I as [->|I].
  - exists a0. split; [exact E|left; reflexivity].
  - destruct (IH _ _ E0 I) as (b & Fb & Ib). exists b. split; [exact Fb|right; exact Ib].
Qed.

Lemma mapM_source {A B} (f : A -> res B) : forall l l' b, mapM f l = Ok l' -> In b l' -> exists a, f a = Ok b /\ In a l.
Proof.
  induction l as [|x l IH]; intros l' b H I; cbn in H; [inversion H; subst; destruct I|]. inv_bind H. inv_bind H. inversion H; subst. destruct I as [->|I].
  - exists x. split; [exact E|left; reflexivity].
  - destruct (IH _ _ E0 I) as (a' & Fb & Ib). exists a'. split; [exact Fb|right; exact Ib].
Qed.

Section Made.
  Variables (td : train_dict) (st : station_blocks) (net : list netrow) (t1 : string) (known delays : list (Z * Q)).
  Variables (ts : train_sets) (tt : timetable) (l : list turn).
  Hypothesis T : tidy td st.
  Hypothesis M : made td st net t1 (known ++ delays) ts tt.
  Hypothesis RF : reserved_free ts.
  Hypothesis L : turns_of td st t1 known = Ok l.
  Hypothesis Pos : forall i q, In (i, q) delays -> 0 <= q.

  Lemma reached_nonneg ds t d : (forall i q, In (i, q) ds -> 0 <= q) -> delay_reached t ds d -> 0 <= d.
  Proof.
    intros P H. induction H as [|u q ds d E H IH|u q ds d E H IH]; [lra| |].
    - assert (0 <= q) by (apply (P u); left; reflexivity). assert (0 <= d) by (apply IH; intros i q' I; apply (P i); right; exact I). lra.
    - apply IH. intros i q' I. apply (P i). right. exact I.
  Qed.

  Lemma base_parts : exists tt0 d, base_timetable td st t1 known = Ok tt0 /\ get_jround td st = Ok d /\ ts_Jround ts = emb_round d /\
    tt_pass tt = tt_pass tt0 /\ tt_stop tt = tt_stop tt0 /\ tt_schedule tt = tt_schedule tt0 /\ tt_prep tt = tt_prep tt0 /\
    (exists init, get_initial_conditions td t1 = Ok init /\ dkeys (tt_init tt0) = dkeys init) /\
    tt_init tt = fold_left (fun init d => add_delay init (fst d) (snd d)) delays (tt_init tt0).
  Proof.
    pose proof M as (_ & _ & _ & _ & _ & (d & Ed & Jr) & _ & _ & _ & Ep & _ & (prep & extra & Epr & Est & Etp) & _ & Es & (init & Ei & Et)).
    exists (MkTT (tt_pass tt) [] (tt_stop tt) (dupdate prep extra) None (tt_schedule tt) (fold_left (fun init d => add_delay init (fst d) (snd d)) known init) []), d.
    unfold base_timetable. rewrite Ep, Epr, Est, Es, Ei. cbn. repeat split; auto.
    - exists init. split; [reflexivity|apply delays_keys].
    - rewrite Et, fold_left_app. reflexivity.
  Qed.

  (** Initial conditions of the scenario *)
  Lemma init_later tt0 init t D : get_initial_conditions td t1 = Ok init -> dkeys (tt_init tt0) = dkeys init ->
    tt_init tt = fold_left (fun init d => add_delay init (fst d) (snd d)) delays (tt_init tt0) -> delay_reached t delays D ->
    (forall s q, initially tt0 (train t) s q -> exists q', initially tt (train t) s q' /\ q <= q' <= q + D) /\
    (forall s q, initially tt (train t) s q -> exists q', initially tt0 (train t) s q').
  Proof.
    intros Ei Ek Et DR. pose proof (reached_nonneg _ _ _ Pos DR) as D0. split.
    - intros s q I. unfold initially in *. pose proof (in_map fst _ _ (dget_in _ _ _ I)) as K. cbn [fst] in K.
      fold (dkeys (tt_init tt0)) in K. rewrite Ek in K. destruct (initial_keys _ _ _ _ _ T Ei K) as (t' & tb & s' & R & P & E).
      assert (U : no_underscore s') by (destruct (tidy_names _ _ T s' (passes_station _ _ _ _ _ T R P)) as (_ & _ & U); exact U).
      assert (E' : joined [train t; s] = key2 t (str s)) by reflexivity. rewrite E' in *. apply key2_inj in E as [<- E]. rewrite E in *.
      destruct (delays_ok delays (tt_init tt0)) with (t := t) (s := s') (v := q) (q := D) as (q' & G & Eq); auto.
      + rewrite Ek. eapply initial_nodup; eauto.
      + intros k Ik. rewrite Ek in Ik. destruct (initial_keys _ _ _ _ _ T Ei Ik) as (t2 & tb2 & s2 & R2 & P2 & ->). exists t2, s2. split; [reflexivity|].
        destruct (tidy_names _ _ T s2 (passes_station _ _ _ _ _ T R2 P2)) as (_ & _ & U2). exact U2.
      + exists q'. split; [rewrite Et; exact G|lra].
    - intros s q I. unfold initially in *. rewrite Et in I. pose proof (in_map fst _ _ (dget_in _ _ _ I)) as K. cbn [fst] in K.
      fold (dkeys (fold_left (fun init d => add_delay init (fst d) (snd d)) delays (tt_init tt0))) in K. rewrite delays_keys in K.
      apply key_get in K as (q' & G). exists q'. exact G.
  Qed.

  Lemma round_in d s pairs j jp : ts_Jround ts = emb_round d -> In (s, pairs) (ts_Jround ts) -> In (j, jp) pairs ->
    exists s' a b, s = station s' /\ j = train a /\ jp = train b /\
      In (s', (a, b)) (flat_map (fun e => map (fun jk => (fst e, jk)) (snd e)) d).
  Proof.
    intros -> I J. unfold emb_round in I. apply in_map_iff in I as ([s' ab] & E & I). cbn in E. inversion E; subst.
    apply in_map_iff in J as ([a b] & E' & J). inversion E'; subst. exists s', a, b. repeat (split; [reflexivity|]).
    apply in_flat_map. exists (s', ab). split; [exact I|]. cbn. apply in_map_iff. exists (a, b). auto.
  Qed.

  Lemma round_out d s a b : ts_Jround ts = emb_round d -> In (s, (a, b)) (flat_map (fun e => map (fun jk => (fst e, jk)) (snd e)) d) ->
    exists pairs, In (station s, pairs) (ts_Jround ts) /\ In (train a, train b) pairs.
  Proof.
    intros -> I. apply in_flat_map in I as ([s' ab] & I & J). apply in_map_iff in J as ([a' b'] & E & J). cbn in E, J. inversion E; subst.
    exists (map two_trains ab). split; [unfold emb_round; apply in_map_iff; exists (s, ab); auto|apply in_map_iff; exists (a, b); auto].
  Qed.

  (** Every turnaround of the scenario is one of the tables, later by at most the delay of its first train. *)
  Theorem turn_later s j jp t e : turns_at ts tt s j jp t e ->
    exists s' a b t0 e0, s = station s' /\ j = train a /\ jp = train b /\ In (s', (a, b), (t0, e0)) l /\
      forall D D', delay_reached a delays D -> delay_reached b delays D' -> t0 <= t <= t0 + D /\ e0 <= e <= e0 + D'.
  Proof.
    intros (pairs & sp & e1 & r & pr & I & J & B & E & R & Pr & Et & E2).
    destruct base_parts as (tt0 & d & Bt & Ed & Jr & H1 & H2 & H3 & H4 & (init & H5 & H5') & H6).
    destruct (round_in d s pairs j jp Jr I J) as (s' & a & b & -> & -> & -> & F). unfold turns_of in L. rewrite Ed, Bt in L. cbn [bind] in L.
    destruct (mapM_image _ _ _ _ L F) as (x & Hx & Ix). unfold one_turn in Hx. inv_bind Hx. inv_bind Hx. inv_bind Hx. inv_bind Hx. inv_bind Hx. inv_bind Hx.
    inversion Hx; subst; clear Hx.
    exists s', a, b, (a2 + a3 + a4), a5. repeat (split; [reflexivity|]). split; [exact Ix|]. intros D D' DR DR'.
    assert (P : ts_Paths ts = emb_paths (get_Paths td)) by apply M. rewrite <- P in E0, E3, E6. apply dlookup_ok in E0.
    assert (NF : none_free tt0).
    { intros k q X. unfold initially in X. apply dget_in in X. apply (in_map fst) in X. cbn [fst] in X.
      fold (dkeys (tt_init tt0)) in X. rewrite H5' in X. destruct (initial_keys _ _ _ _ _ T H5 X) as (t' & tb & s & R' & P' & E'').
      destruct (tidy_names _ _ T s (passes_station _ _ _ _ _ T R' P')) as (_ & N & U).
      apply N. symmetry. unfold joined, key2 in E''. cbn [map join_us str] in E''. eapply last_us; [| |exact E'']; [|exact U].
      intros a' b'. apply no_us_allc. reflexivity. }
    pose proof (earliest_dep_time_sound ts RF tt0 NF _ _ _ E3) as S1.
    pose proof (earliest_dep_time_sound ts RF tt0 NF _ _ _ E6) as S2.
    assert (a1 = sp). { destruct (proj1 (comes_before_prev _ _ _ _) B) as (path & P' & Q' & _). congruence. } subst a1.
    apply dlookup_ok in E4, E5. unfold Spec.running in R. unfold preparation in Pr. rewrite H1 in R. rewrite H4 in Pr.
    assert (a3 = r) by (change (joined [train a; sp; station s']) with (join_us [str (train a); str sp; str (station s')]) in R; cbn in *; congruence).
    assert (a4 = pr) by (cbn in *; congruence). subst.
    destruct (init_later tt0 init a D H5 H5' H6 DR) as [I1 I2]. destruct (init_later tt0 init b D' H5 H5' H6 DR') as [J1 J2].
    pose proof (earliest_later ts tt0 tt (train a) D H1 H2 H3 I1 I2 (reached_nonneg _ _ _ Pos DR) _ _ S1 _ E).
    pose proof (earliest_later ts tt0 tt (train b) D' H1 H2 H3 J1 J2 (reached_nonneg _ _ _ Pos DR') _ _ S2 _ E2). lra.
  Qed.

  Lemma turn_listed s a b t0 e0 : In (s, (a, b), (t0, e0)) l -> exists pairs, In (station s, pairs) (ts_Jround ts) /\ In (train a, train b) pairs.
  Proof.
    intros I. destruct base_parts as (tt0 & d & Bt & Ed & Jr & _). unfold turns_of in L. rewrite Ed, Bt in L. cbn [bind] in L.
    destruct (mapM_source _ _ _ _ L I) as ([s' [a' b']] & Hx & Ix). unfold one_turn in Hx. inv_bind Hx. inv_bind Hx. inv_bind Hx. inv_bind Hx. inv_bind Hx. inv_bind Hx.
    inversion Hx; subst. eapply round_out; eauto.
  Qed.
End Made.
