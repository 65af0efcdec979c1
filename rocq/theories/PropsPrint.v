(** * PropsPrint: the printed schedule (C67) *)

From Coq Require Import List String ZArith QArith Qround Qabs Bool Lia Lqa.
From Verif Require Import Base BaseFacts Pulp Helpers LinearSolver Emit Origin Complete Spec SpecFacts DelayVars SpecCompare
  SpecNames SpecTimes SpecDurations Rules Names Objective Check Examples DataTables DataTimes Pipeline TimeFacts PropsIlp PropsVars PropsTimes.
From Verif Require Import Spec.
Import ListNotations.
Open Scope string_scope.
Open Scope list_scope.

Lemma floor_whole q z : q == inject_Z z -> Qfloor q = z.
Proof. intros E. rewrite E. apply Qfloor_Z. Qed.

Lemma py_int_whole q z : q == inject_Z z -> py_int q = z.
Proof.
  intros E. unfold py_int. destruct (qltb q 0).
  - rewrite (floor_whole (- q) (- z)); [lia|]. rewrite E, inject_Z_opp. reflexivity.
  - apply floor_whole, E.
Qed.

Section Fold.
  Context (prob : lpproblem) (tt : timetable) (ts : train_sets) (pass : dict string Q) (skip : dict pv pv) (d_max : Q)
    (t_ref : Z) (value : lpvar -> option Q) (j : pv).
  Notation step := (print_stop prob tt ts pass skip d_max t_ref value j).

  Lemma step_other acc s acc' s' : step acc s = Ok acc' -> s' <> s -> dget s' (snd acc') = dget s' (snd acc).
  Proof.
    destruct acc as [[[sp dp] dc] sched]. unfold print_stop. destruct (match dget _ pass with Some q => _ | None => _ end) as [ar ca].
    destruct (match dget j skip with Some _ => _ | None => _ end).
    - intros H N. inversion H; subst. cbn [snd]. rewrite dget_dset. destruct (eq_dec s' s); [congruence|reflexivity].
    - intros H N. inv_bind H. inv_bind H. destruct a0 as [[? ?] ?]. inversion H; subst. cbn [snd]. rewrite dget_dset. destruct (eq_dec s' s); [congruence|reflexivity].
  Qed.

  Lemma fold_other l : forall acc acc' s', foldM step l acc = Ok acc' -> ~ In s' l -> dget s' (snd acc') = dget s' (snd acc).
  Proof.
    induction l as [|s l IH]; intros acc acc' s' H N; [cbn in H; inversion H; reflexivity|]. cbn [foldM] in H. inv_bind H.
    rewrite (IH _ _ _ H); [|intros I; apply N; right; exact I]. apply (step_other _ _ _ _ E). intros ->. apply N. left. reflexivity.
  Qed.

  Lemma fold_at u s v acc r : NoDup (u ++ s :: v) -> foldM step (u ++ s :: v) acc = Ok r ->
    exists a1 a2, foldM step u acc = Ok a1 /\ step a1 s = Ok a2 /\ dget s (snd r) = dget s (snd a2).
  Proof.
    intros N H. rewrite foldM_app in H. inv_bind H. cbn [foldM] in H. inv_bind H. exists a, a0. split; [exact E|]. split; [exact E0|].
    apply (fold_other v _ _ _ H). apply NoDup_remove_2 in N. intros I. apply N, in_or_app. right. exact I.
  Qed.

  Lemma step_skip acc s acc' : step acc s = Ok acc' -> dget j skip = Some s ->
    exists k, dget s (snd acc') = Some k /\ k_departure k = None /\ k_secondary_delay k = None /\
      k_conflicted_departure k = None /\ k_impact k = None.
  Proof.
    destruct acc as [[[sp dp] dc] sched]. unfold print_stop. destruct (match dget _ pass with Some q => _ | None => _ end) as [ar ca].
    intros H E. rewrite E in H. rewrite eqb_refl in H. inversion H; subst. cbn [snd]. rewrite dget_dset. destruct (eq_dec s s); [|congruence].
    eexists. split; [reflexivity|]. auto.
  Qed.

  Lemma step_stop acc s acc' : step acc s = Ok acc' -> dget j skip <> Some s ->
    exists k late t e i, dget s (snd acc') = Some k /\ delay_and_acctual_time ts tt prob j s value = Ok (late, t, e) /\
      impact_to_objective prob tt j s d_max value = Ok i /\
      k_departure k = Some (t_ref + py_int t)%Z /\ k_secondary_delay k = Some (py_int late) /\
      k_conflicted_departure k = Some (t_ref + py_int e)%Z /\ k_impact k = Some i /\
      fst acc' = (s, t, e).
  Proof.
    destruct acc as [[[sp dp] dc] sched]. unfold print_stop. destruct (match dget _ pass with Some q => _ | None => _ end) as [ar ca].
    intros H E.
    assert (B : (match dget j skip with Some sk => eqb s sk | None => false end) = false).
    { destruct (dget j skip) as [sk|]; [|reflexivity]. apply eqb_false. intros ->. apply E. reflexivity. }
    rewrite B in H. inv_bind H. inv_bind H. destruct a0 as [[late t] e]. inversion H; subst. cbn [snd fst]. rewrite dget_dset.
    destruct (eq_dec s s); [|congruence]. do 5 eexists. split; [reflexivity|]. split; [exact E1|]. split; [exact E0|]. repeat split.
  Qed.

  Lemma step_arrive sp t e sched s acc' : step (sp, t, e, sched) s = Ok acc' ->
    exists k, dget s (snd acc') = Some k /\
      match dget (joined [j; sp; s]) pass with
      | Some q => k_arrive k = Some (t_ref + (py_round q + py_int t))%Z /\ k_conflicted_arrive k = Some (t_ref + (py_round q + py_int e))%Z
      | None => k_arrive k = None /\ k_conflicted_arrive k = None
      end.
  Proof.
    unfold print_stop. change (key_pass j sp s) with (joined [j; sp; s]).
    intros H. destruct (dget (joined [j; sp; s]) pass) as [q|];
      (destruct (match dget j skip with Some _ => _ | None => _ end); [|inv_bind H; inv_bind H; destruct a0 as [[? ?] ?]];
       inversion H; subst; cbn [snd]; rewrite dget_dset; destruct (eq_dec s s); try congruence; eexists; split; [reflexivity|auto|reflexivity|auto]).
  Qed.
End Fold.

Lemma nearest_fun x q z : in_resolution 1 x q -> q == inject_Z z -> py_round x = z.
Proof.
  intros H E.
  assert (P : in_resolution 1 x (inject_Z (py_round x))) by (exact (round_ok 1 x)).
  destruct H as [_ H], P as [_ P]. destruct (H eq_refl) as (a & Ea & A & Ae). destruct (P eq_refl) as (b & Eb & B & Be).
  subst q. assert (a = z) by (apply inject_Z_injective; exact E). subst a. assert (b = py_round x) by (apply inject_Z_injective; rewrite Eb; reflexivity). subst b.
  apply Qabs_Qle_condition in A as [A1 A2]. apply Qabs_Qle_condition in B as [B1 B2].
  destruct (Z.eq_dec (py_round x) z) as [|N]; [assumption|exfalso].
  assert (D : (py_round x = z + 1 \/ z = py_round x + 1)%Z).
  { assert (-1 <= py_round x - z <= 1)%Z; [|lia].
    split; apply Z.le_ngt; intros L; [assert (L' : (py_round x + 2 <= z)%Z) by lia | assert (L' : (z + 2 <= py_round x)%Z) by lia];
      rewrite Zle_Qle, inject_Z_plus in L'; change (inject_Z 2) with 2 in L'; lra. }
  assert (X : Qabs (x - inject_Z z) == 1 # 2 /\ Qabs (x - inject_Z (py_round x)) == 1 # 2).
  { destruct D as [D|D].
    - assert (Dq : inject_Z (py_round x) == inject_Z z + 1) by (rewrite D, inject_Z_plus; reflexivity).
      split; [assert (X : x - inject_Z z == 1 # 2) by lra | assert (X : x - inject_Z (py_round x) == - (1 # 2)) by lra]; rewrite X; reflexivity.
    - assert (Dq : inject_Z z == inject_Z (py_round x) + 1) by (rewrite D at 1; rewrite inject_Z_plus; reflexivity).
      split; [assert (X : x - inject_Z z == - (1 # 2)) by lra | assert (X : x - inject_Z (py_round x) == 1 # 2) by lra]; rewrite X; reflexivity. }
  specialize (Ae (proj1 X)). specialize (Be (proj2 X)). destruct D as [D|D].
  - rewrite D, Z.add_1_r, Z.even_succ, <- Z.negb_even, Ae in Be. discriminate.
  - rewrite D, Z.add_1_r, Z.even_succ, <- Z.negb_even, Be in Ae. discriminate.
Qed.

(** C67. The printed schedule of a train: at a station left out only arrivals; else the departure of the
    solution, its secondary delay and the departure without conflicts, on the clock of [t_ref]; the
    arrivals are departures from the station before plus running times.  All of them whole minutes. *)
Theorem C67_printed_partial : forall ts tt d_max cat p x value pass skip t_ref sched,
  reserved_free ts -> plain_names ts -> create_linear_problem ts tt d_max cat = Ok p ->
  (forall v, In v (variables p) -> value v = Some (x (v_id v))) ->
  print_optimisation_results p tt ts pass skip d_max t_ref value = Ok sched ->
  forall j path, In j (ts_J ts) -> dget j (ts_Paths ts) = Some path -> NoDup path ->
  exists printed, dget j sched = Some printed /\
  forall s, In s path -> exists k, dget s printed = Some k /\
    (dget j skip = Some s -> k_departure k = None /\ k_secondary_delay k = None /\ k_conflicted_departure k = None) /\
    (dget j skip <> Some s -> In ("Delays", [j; s]) (map v_id (variables p)) ->
       (forall z, departs ts tt p x j s (inject_Z z) -> k_departure k = Some (t_ref + z)%Z) /\
       (forall z, x ("Delays", [j; s]) == inject_Z z -> (exists e, earliest ts tt j s e) -> k_secondary_delay k = Some z) /\
       (forall e z, earliest ts tt j s e -> e == inject_Z z -> k_conflicted_departure k = Some (t_ref + z)%Z)) /\
    (forall sp r q, comes_before ts j sp s -> dget j skip <> Some sp -> In ("Delays", [j; sp]) (map v_id (variables p)) ->
       Spec.running tt j sp s r -> dget (joined [j; sp; s]) pass = Some q -> in_resolution 1 q r ->
       (forall z, arrives ts tt p x j s (inject_Z z) -> k_arrive k = Some (t_ref + z)%Z) /\
       (forall e z, earliest ts tt j sp e -> e + r == inject_Z z -> k_conflicted_arrive k = Some (t_ref + z)%Z)).
Proof.
  intros ts tt d cat p x value pass skip t_ref sched RF PN Hp HV HP j path Ij Gj ND.
  assert (J : exists r, dget j sched = Some (snd r) /\
     foldM (print_stop p tt ts pass skip d t_ref value j) path (PInt 0, 0, 0, []) = Ok r).
  { unfold print_optimisation_results in HP.
    refine (foldM_reach (fun sched => exists r, dget j sched = Some (snd r) /\
      foldM (print_stop p tt ts pass skip d t_ref value j) path (PInt 0, 0, 0, []) = Ok r) (fun _ => True) _ _ _ _ j Ij Logic.I _ _ _ HP); auto.
    - intros acc acc' _ E. inv_bind E. inv_bind E. inversion E; subst; clear E. unfold dlookup in E0. rewrite Gj in E0. inversion E0; subst.
      exists a0. rewrite dget_dset. destruct (eq_dec j j); [|congruence]. auto.
    - intros acc k acc' _ _ (r & G & F) E. inv_bind E. inv_bind E. inversion E; subst; clear E. rewrite dget_dset. destruct (eq_dec j k) as [->|].
      + unfold dlookup in E0. rewrite Gj in E0. inversion E0; subst. exists a0. auto.
      + eauto. }
  destruct J as (r & Gr & F). exists (snd r). split; [exact Gr|]. intros s Is. apply in_split in Is as (u & v & E). subst path.
  destruct (fold_at _ _ _ _ _ _ _ _ _ u s v _ _ ND F) as (a1 & a2 & F1 & S1 & G). rewrite G. clear G.
  assert (KEY : forall s t late e, delay_and_acctual_time ts tt p j s value = Ok (late, t, e) ->
     In ("Delays", [j; s]) (map v_id (variables p)) -> forall e0, earliest ts tt j s e0 ->
     late = x ("Delays", [j; s]) /\ departs ts tt p x j s t /\ e == e0).
  { intros s0 t late e D I0 e0 E0. destruct (C18_reported_times_partial ts tt d cat p x value j s0 e0 RF PN Hp HV I0 E0) as (l' & t' & e' & D' & L & T & E').
    rewrite D in D'. inversion D'; subst. auto. }
  assert (DF : forall s a b, departs ts tt p x j s a -> departs ts tt p x j s b -> a == b).
  { intros s0 a b (ea & Ea & Xa) (eb & Eb & Xb). rewrite Xa, Xb, (earliest_fun _ _ _ _ _ _ Ea Eb). reflexivity. }
  assert (ENT : exists k, dget s (snd a2) = Some k).
  { destruct a1 as [[[sp t] e] sc]. destruct (step_arrive _ _ _ _ _ _ _ _ _ _ _ _ _ _ _ S1) as (k & G & _). eauto. }
  destruct ENT as (k & Gk). exists k. split; [exact Gk|]. split; [|split].
  - intros Sk. destruct (step_skip _ _ _ _ _ _ _ _ _ _ _ _ S1 Sk) as (k' & G & A & B & C & _). assert (k' = k) by congruence. subst. auto.
  - intros Sk Iv. destruct (step_stop _ _ _ _ _ _ _ _ _ _ _ _ S1 Sk) as (k' & late & t & e & i & G & D & _ & A & B & C & _).
    assert (k' = k) by congruence. subst k'. split; [|split].
    + intros z Dz. destruct Dz as (e0 & E0 & Xz). destruct (KEY _ _ _ _ D Iv e0 E0) as (_ & T & _).
      rewrite A. f_equal. f_equal. apply py_int_whole. apply (DF s _ _ T). exists e0. auto.
    + intros z Xz (e0 & E0). destruct (KEY _ _ _ _ D Iv e0 E0) as (-> & _). rewrite B. f_equal. apply py_int_whole, Xz.
    + intros e0 z E0 Ez. destruct (KEY _ _ _ _ D Iv e0 E0) as (_ & _ & Ee). rewrite C. f_equal. f_equal. apply py_int_whole. rewrite Ee. exact Ez.
  - intros sp rr q CB Sk Iv Ru Gq Rq.
    destruct CB as (path & l1 & l2 & Gp & Ep & Nin). rewrite Gj in Gp. injection Gp as Gp. rewrite <- Gp in Ep. clear path Gp.
    assert (U : u = l1 ++ [sp]).
    { assert (Eq : (u ++ s :: v) = (l1 ++ [sp]) ++ s :: l2) by (rewrite Ep, <- app_assoc; reflexivity).
      assert (Nu : ~ In s u) by (apply NoDup_remove_2 in ND; intros X; apply ND, in_or_app; left; exact X).
      clear - Eq Nu Nin. revert Eq Nu Nin. generalize (l1 ++ [sp]). intros m. revert m. induction u as [|y u IH]; intros [|y' m] Eq N1 N2; cbn in *; auto.
      - inversion Eq; subst. exfalso. apply N2. left. reflexivity.
      - inversion Eq; subst. exfalso. apply N1. left. reflexivity.
      - inversion Eq; subst. f_equal. apply IH; auto. }
    subst u. rewrite foldM_app in F1. inv_bind F1. cbn [foldM] in F1. inv_bind F1. inversion F1; subst a0.
    destruct (step_stop _ _ _ _ _ _ _ _ _ _ _ _ E0 Sk) as (k' & late & t & e & i & G & D & _ & _ & _ & _ & _ & Fa).
    destruct a1 as [[[sp' t'] e'] sc]. cbn [fst] in Fa. inversion Fa; subst sp' t' e'. clear Fa.
    destruct (step_arrive _ _ _ _ _ _ _ _ _ _ _ _ _ _ _ S1) as (k2 & G2 & A). assert (k2 = k) by congruence. subst k2. rewrite Gq in A. destruct A as [A1 A2].
    assert (W : exists w, rr == inject_Z w) by (destruct Rq as [_ Rq]; destruct (Rq eq_refl) as (w & -> & _); exists w; reflexivity).
    destruct W as (w & Ew). rewrite (nearest_fun q rr w Rq Ew) in A1, A2. split.
    + intros z (sp2 & t0 & r0 & CB2 & Dt & R2 & Ez).
      assert (sp2 = sp).
      { apply (comes_before_fun ts j s); [exact CB2|]. exists ((l1 ++ [sp]) ++ s :: v), l1, l2. auto. }
      subst sp2. unfold Spec.running in Ru, R2. rewrite Ru in R2. inversion R2; subst r0.
      destruct Dt as (e0 & Ee0 & Xt). destruct (KEY _ _ _ _ D Iv e0 Ee0) as (_ & T & _).
      assert (TT : t == t0) by (apply (DF sp); [exact T|exists e0; auto]).
      rewrite A1. f_equal. f_equal. rewrite (py_int_whole t (z - w)); [lia|]. unfold Zminus. rewrite inject_Z_plus, inject_Z_opp. lra.
    + intros e0 z Ee0 Ez. destruct (KEY _ _ _ _ D Iv e0 Ee0) as (_ & _ & X). rewrite A2. f_equal. f_equal.
      rewrite (py_int_whole e (z - w)); [lia|]. unfold Zminus. rewrite inject_Z_plus, inject_Z_opp. lra.
Qed.
Print Assumptions C67_printed_partial.

(** Printing does not fail. *)
Theorem C67_prints : forall ts tt d_max p x value pass skip t_ref,
  ~ d_max == 0 -> (forall v, In v (variables p) -> value v = Some (x (v_id v))) ->
  (forall j, In j (ts_J ts) -> exists path, dget j (ts_Paths ts) = Some path) ->
  (forall j s, In j (ts_J ts) -> on_path ts j s -> exists e, earliest ts tt j s e) ->
  exists sched, print_optimisation_results p tt ts pass skip d_max t_ref value = Ok sched.
Proof.
  intros ts tt d p x value pass skip t_ref D HV HJ HE. unfold print_optimisation_results.
  destruct (foldM_total (fun _ : dict pv (dict pv stop_entry) => True) (fun sched_dict j =>
    do path <- dlookup j (ts_Paths ts);
    do r <- foldM (print_stop p tt ts pass skip d t_ref value j) path (PInt 0, 0, 0, []);
    Ok (dset j (snd r) sched_dict)) (ts_J ts) []) as (r & E & _); [exact Logic.I| |exists r; exact E].
  intros acc j Ij _. destruct (HJ j Ij) as (path & G). unfold dlookup. rewrite G. cbn [bind].
  destruct (foldM_total (fun _ : print_state => True) (print_stop p tt ts pass skip d t_ref value j) path (PInt 0, 0, 0, [])) as (r & E & _); [exact Logic.I| |].
  2:{ rewrite E. cbn [bind]. eexists. split; [reflexivity|exact Logic.I]. }
  intros [[[sp dp] dc] sc] s Is _. unfold print_stop. destruct (match dget _ pass with Some q => _ | None => _ end) as [ar ca].
  destruct (match dget j skip with Some _ => _ | None => _ end); [eexists; split; [reflexivity|exact Logic.I]|].
  unfold impact_to_objective, delay_and_acctual_time, find_var.
  destruct (find _ (variables p)) as [v|] eqn:Fv; [|cbn [bind]; eexists; split; [reflexivity|exact Logic.I]].
  apply find_some in Fv as [Iv _]. rewrite (HV v Iv). cbn [bind].
  destruct (Qeq_bool d 0) eqn:Ed; [apply Qeq_bool_eq in Ed; contradiction|]. cbn [bind].
  destruct (HE j s Ij) as (e & He); [exists path; auto|]. destruct (earliest_dep_time_complete ts tt j s e He) as (e' & -> & _). cbn [bind]. eexists; split; [reflexivity|exact Logic.I].
Qed.
Print Assumptions C67_prints.

(** The five trains: train 22 leaves A at 8 and B at 17, waits 7 at each, and comes to C at 25. *)
Definition five_value (v : lpvar) : option Q := Some (five_x (v_id v)).
Definition five_skip : dict pv pv := [(I 22, C); (I 23, A); (I 24, D); (I 25, C)].
Definition five_printed : dict pv (dict pv stop_entry) :=
  ok_or (print_optimisation_results five_p five_tt five_ts (tt_pass five_tt) five_skip 10 900 five_value) [].

Example C67_case :
  print_optimisation_results five_p five_tt five_ts (tt_pass five_tt) five_skip 10 900 five_value = Ok five_printed /\
  (exists printed ka kb kc, dget (I 22) five_printed = Some printed /\
     dget A printed = Some ka /\ dget B printed = Some kb /\ dget C printed = Some kc /\
     k_departure ka = Some 908%Z /\ k_secondary_delay ka = Some 7%Z /\ k_conflicted_departure ka = Some 901%Z /\
     k_arrive kb = Some 916%Z /\ k_conflicted_arrive kb = Some 909%Z /\ k_departure kb = Some 917%Z /\
     k_arrive kc = Some 925%Z /\ k_departure kc = None) /\
  departs five_ts five_tt five_p five_x (I 22) A (inject_Z 8).
Proof.
  split; [apply ok_or_ok; vm_compute; reflexivity|]. split; [|exact C07_case].
  do 4 eexists. split; [vm_compute; reflexivity|]. repeat (split; [vm_compute; reflexivity|]). vm_compute. reflexivity.
Qed.

(** Without a list of stations left out, a train that turns around is printed as leaving its last station
    at the reference time, before it arrives there. *)
Theorem C67_turnaround_refuted : exists ts tt p x value t_ref sched j s printed k d,
  reserved_free ts /\ plain_names ts /\ create_linear_problem ts tt d Integer = Ok p /\ feasible p x /\
  (forall v, In v (variables p) -> value v = Some (x (v_id v))) /\
  print_optimisation_results p tt ts (tt_pass tt) [] d t_ref value = Ok sched /\
  dget j sched = Some printed /\ dget s printed = Some k /\
  ~ decided ts j s /\ k_departure k = Some t_ref /\ k_arrive k = Some (t_ref + 25)%Z.
Proof.
  exists five_ts, five_tt, five_p, five_x, five_value, 900%Z,
    (ok_or (print_optimisation_results five_p five_tt five_ts (tt_pass five_tt) [] 10 900 five_value) []), (I 22), C.
  do 2 eexists. exists 10. split; [exact five_reserved|]. split; [exact five_plain|]. split; [exact five_built|]. split; [exact five_feasible|].
  split; [reflexivity|]. split; [apply ok_or_ok; vm_compute; reflexivity|]. split; [vm_compute; reflexivity|]. split; [vm_compute; reflexivity|].
  split; [|split; vm_compute; reflexivity]. intros (_ & _ & N & _). apply N. eexists. split; reflexivity.
Qed.
Print Assumptions C67_turnaround_refuted.

(** Solvers return values a little off whole numbers; cut off, a delay of 7 minutes becomes 6. *)
Theorem C67_cut_refuted : exists ts tt p x value t_ref sched j s printed k d,
  reserved_free ts /\ plain_names ts /\ create_linear_problem ts tt d Integer = Ok p /\ feasible p x /\
  (forall v, In v (variables p) -> exists q, value v = Some q /\ Qabs (q - x (v_id v)) <= 1 # 1000000000) /\
  print_optimisation_results p tt ts (tt_pass tt) five_skip d t_ref value = Ok sched /\
  dget j sched = Some printed /\ dget s printed = Some k /\
  departs ts tt p x j s (inject_Z 8) /\ k_departure k = Some (t_ref + 7)%Z /\
  x ("Delays", [j; s]) == 7 /\ k_secondary_delay k = Some 6%Z.
Proof.
  set (value := fun v => Some (five_x (v_id v) - (1 # 1000000000))).
  exists five_ts, five_tt, five_p, five_x, value, 900%Z,
    (ok_or (print_optimisation_results five_p five_tt five_ts (tt_pass five_tt) five_skip 10 900 value) []), (I 22), A.
  do 2 eexists. exists 10. split; [exact five_reserved|]. split; [exact five_plain|]. split; [exact five_built|]. split; [exact five_feasible|].
  split.
  { intros v _. eexists. split; [reflexivity|]. setoid_replace (five_x (v_id v) - (1 # 1000000000) - five_x (v_id v)) with (- (1 # 1000000000)) by ring. discriminate. }
  split; [apply ok_or_ok; vm_compute; reflexivity|]. split; [vm_compute; reflexivity|]. split; [vm_compute; reflexivity|].
  split; [exact C07_case|]. split; [vm_compute; reflexivity|]. split; [reflexivity|]. vm_compute. reflexivity.
Qed.
Print Assumptions C67_cut_refuted.
