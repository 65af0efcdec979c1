(** * Objective: the objective is the sum of the reported impacts (C14) *)

From Coq Require Import List String Ascii ZArith QArith Bool Arith Lia Lqa.
From Verif Require Import Base Pulp Helpers LinearSolver BaseFacts Spec TreeFacts OrderVars
  Emit DelayVars Shapes Origin SpecFacts Sound Sim Rules SpecCompare Compare SpecNames Names.
Import ListNotations.
Open Scope string_scope.
Open Scope list_scope.

Lemma visits_eq ts : visits ts = path_pairs ts.
Proof. reflexivity. Qed.

Lemma in_visits ts j s : In (j, s) (visits ts) <->
  In j (ts_J ts) /\ exists path, dget j (ts_Paths ts) = Some path /\ In s path.
Proof.
  unfold visits, stations_of. rewrite in_flat_map. split.
  - intros (k & Hk & H). apply in_map_iff in H as (t & E & Ht). inversion E; subst. split; auto.
    destruct (dget j (ts_Paths ts)) as [path|]; [eauto|destruct Ht].
  - intros (Hj & path & Hp & Hs). exists j. split; auto. rewrite Hp. apply in_map_iff. eauto.
Qed.

Lemma visit_mentioned ts j s : In (j, s) (visits ts) ->
  In j (mentioned_trains ts) /\ In s (mentioned_stations ts).
Proof.
  rewrite in_visits. intros (Hj & path & Hp & Hs). split.
  - unfold mentioned_trains. apply in_app_iff. auto.
  - eapply mention_path; eauto.
Qed.

Lemma mapM_map {A B} (f : A -> res B) (g : A -> B) l :
  (forall a, In a l -> f a = Ok (g a)) -> mapM f l = Ok (map g l).
Proof.
  induction l as [|a l IH]; intros H; cbn [mapM map]; [reflexivity|].
  rewrite (H a (or_introl eq_refl)). cbn [bind]. rewrite IH; [reflexivity|]. intros; apply H; right; auto.
Qed.

(** Sum of a dictionary's values over different keys. *)
Definition at_key (W : dict string Q) (k : string) : Q :=
  match dget k W with Some w => w | None => 0 end.

Lemma sum_keys_le (W : dict string Q) l :
  NoDup (dkeys W) -> (forall k w, In (k, w) W -> 0 <= w) -> NoDup l ->
  qsum (map (at_key W) l) <= qsum (map snd W).
Proof.
  induction W as [|[k0 w0] W IH]; intros HN HW HL.
  - clear. induction l as [|k l IH]; cbn [map qsum fold_right] in *; [lra|].
    unfold qsum in IH. change (at_key [] k) with 0. lra.
  - cbn [dkeys map fst] in HN. inversion HN as [|? ? Hk HN']; subst.
    assert (W0 : 0 <= w0) by (eapply HW; left; reflexivity).
    assert (IH' := IH HN' (fun k w H => HW k w (or_intror H)) HL). clear IH.
    cbn [map qsum fold_right snd]. unfold qsum in IH'.
    cut (qsum (map (at_key ((k0, w0) :: W)) l) <= w0 + qsum (map (at_key W) l)); [unfold qsum; lra|].
    assert (A0 : at_key W k0 = 0).
    { unfold at_key. destruct (dget k0 W) eqn:E; [|reflexivity]. apply dget_in in E. exfalso. apply Hk.
      apply (in_map fst) in E. exact E. }
    clear IH' HN HW HN'.
    assert (G : forall m, ~ In k0 m -> qsum (map (at_key ((k0, w0) :: W)) m) == qsum (map (at_key W) m)).
    { induction m as [|k m IH]; intros Hn; [reflexivity|]. cbn [map qsum fold_right].
      unfold qsum in IH. rewrite IH by (intros ?; apply Hn; right; auto).
      unfold at_key at 1. cbn [dget]. destruct (eq_dec k k0); [subst; exfalso; apply Hn; left; auto|reflexivity]. }
    induction l as [|k l IH]; [cbn; lra|]. inversion HL; subst. cbn [map qsum fold_right].
    destruct (eq_dec k k0) as [->|N].
    + assert (E := G l H1). unfold qsum in E. rewrite E, A0.
      unfold at_key at 1. cbn [dget]. destruct (eq_dec k0 k0); [|congruence]. unfold qsum. lra.
    + assert (E : at_key ((k0, w0) :: W) k = at_key W k).
      { unfold at_key. cbn [dget]. destruct (eq_dec k k0); [congruence|reflexivity]. }
      rewrite E. specialize (IH H2). unfold qsum in IH. lra.
Qed.

Lemma qsum_le {A} (f g : A -> Q) l : (forall a, In a l -> f a <= g a) -> qsum (map f l) <= qsum (map g l).
Proof.
  induction l as [|a l IH]; intros H; cbn [map qsum fold_right]; [lra|].
  assert (f a <= g a) by (apply H; left; auto).
  unfold qsum in IH. assert (X := IH (fun b Hb => H b (or_intror Hb))). lra.
Qed.

Lemma qsum_zero {A} (f : A -> Q) l : (forall a, In a l -> f a == 0) -> qsum (map f l) == 0.
Proof.
  induction l as [|a l IH]; intros H; cbn [map qsum fold_right]; [reflexivity|].
  rewrite (H a (or_introl eq_refl)). unfold qsum in IH. rewrite IH; [reflexivity|].
  intros; apply H; right; auto.
Qed.

Lemma qsum_nonneg {A} (f : A -> Q) l : (forall a, In a l -> 0 <= f a) -> 0 <= qsum (map f l).
Proof.
  intros H. assert (X := qsum_le (fun _ => 0) f l H). rewrite (qsum_zero (fun _ => 0) l) in X; auto.
  intros; reflexivity.
Qed.

Lemma qsum_filter {A} (b : A -> bool) (f : A -> Q) l :
  (forall a, In a l -> b a = false -> f a == 0) -> qsum (map f l) == qsum (map f (filter b l)).
Proof.
  induction l as [|a l IH]; intros H; [reflexivity|]. cbn [map filter qsum fold_right].
  assert (X := IH (fun c Hc => H c (or_intror Hc))). unfold qsum in X.
  destruct (b a) eqn:E; cbn [map qsum fold_right]; rewrite X; [reflexivity|].
  rewrite (H a (or_introl eq_refl) E). ring.
Qed.

Lemma NoDup_map_inj {A B} (f : A -> B) l :
  (forall a b, In a l -> In b l -> f a = f b -> a = b) -> NoDup l -> NoDup (map f l).
Proof.
  induction l as [|a l IH]; intros H ND; cbn; constructor; inversion ND; subst.
  - intros Hin. apply in_map_iff in Hin as (b & E & Hb). apply H2.
    rewrite <- (H b a); auto; [right; auto|left; auto].
  - apply IH; auto. intros; apply H; auto; right; auto.
Qed.

Section Obj.
  Variables (ts : train_sets) (tt : timetable) (d : Q) (cat : vcat) (p : lpproblem) (x : assignment).
  Hypothesis RF : reserved_free ts.
  Hypothesis Hp : create_linear_problem ts tt d cat = Ok p.

  Lemma obj_sum : obj_value p x == qsum (map (obj_term tt d x) (visits ts)).
  Proof.
    destruct (built_calls _ _ _ _ _ Hp) as (dv & y & A1 & A2 & A3 & _).
    apply (obj_closed _ _ _ _ _ A1) in A3 as (A3 & _). unfold obj_value. rewrite A3, eval_const.
    change (path_pairs ts) with (visits ts). ring.
  Qed.

  Lemma weighted_in js : In js (visits ts) -> ~ penalty_weights tt (fst js) (snd js) == 0 ->
    In (delay_id js) (map v_id (variables p)) /\ has_delay ts (fst js) (snd js) /\ ~ d == 0.
  Proof.
    intros Hin Hw. destruct (built_calls _ _ _ _ _ Hp) as (dv & y & A1 & A2 & A3 & _).
    apply (obj_closed _ _ _ _ _ A1) in A3 as (_ & A4 & A5).
    assert (M : In (delay_id js) (map v_id (variables p))).
    { apply variables_ids. left. apply A4. right. eauto. }
    split; [exact M|]. split; [|exact (A5 js Hin Hw)].
    apply in_map_iff in M as (v & E & Hv).
    destruct (problem_ids _ _ _ _ _ RF Hp v Hv) as [[(j & s & HD & E')|(q & u & HS & E')] _].
    - rewrite E' in E. destruct js. inversion E; subst. exact HD.
    - exfalso. rewrite E' in E.
      destruct HS as (a & b & _ & _ & [(c & _ & -> & ->)|[(c & _ & -> & ->)|(c & e & _ & _ & -> & ->)]]);
        discriminate E.
  Qed.

  (** Only the values of weighted delays matter. *)
  Lemma obj_zero :
    (forall j s, In (j, s) (visits ts) -> ~ penalty_weights tt j s == 0 -> x ("Delays", [j; s]) == 0) ->
    obj_value p x == 0.
  Proof.
    intros H. rewrite obj_sum. apply qsum_zero. intros [j s] Hin. unfold obj_term. cbn [fst snd].
    destruct (Qeq_dec (penalty_weights tt j s) 0) as [E|E].
    - unfold Qdiv. rewrite E. ring.
    - unfold delay_id. cbn [fst snd]. rewrite (H j s Hin E). ring.
  Qed.

  Section Bounds.
    Hypothesis Hd : 0 < d.
    Hypothesis Hw : nonneg_weights tt.
    Hypothesis Hx : forall v, In v (variables p) -> var_ok v (x (v_id v)).

    Lemma obj_term_bounds js : In js (visits ts) ->
      0 <= obj_term tt d x js <= penalty_weights tt (fst js) (snd js).
    Proof.
      intros Hin. assert (W := weights_nonneg tt Hw (fst js) (snd js)). unfold obj_term.
      destruct (Qeq_dec (penalty_weights tt (fst js) (snd js)) 0) as [E|E].
      - unfold Qdiv. rewrite E. setoid_replace (0 * / d * x (delay_id js)) with 0 by ring. lra.
      - destruct (weighted_in js Hin E) as (M & _ & _). apply in_map_iff in M as (v & EV & Hv).
        destruct (problem_ids _ _ _ _ _ RF Hp v Hv) as [_ V]. destruct js as [j s].
        specialize (V j s EV). destruct (Hx v Hv) as (Lo & Up & _). subst v.
        specialize (Lo 0 eq_refl). specialize (Up d eq_refl). rewrite EV in *. cbn [fst snd] in *.
        assert (I : 0 < / d) by (apply Qinv_lt_0_compat; exact Hd).
        assert (D : d * / d == 1) by (field; lra).
        set (w := penalty_weights tt j s) in *. set (X := x (delay_id (j, s))) in *.
        assert (Q1 : 0 <= X * / d) by (apply Qmult_le_0_compat; lra).
        assert (Q2 : X * / d <= 1) by (rewrite <- D; apply Qmult_le_compat_r; lra).
        setoid_replace (w / d * X) with (w * (X * / d)) by (unfold Qdiv; ring).
        split; [apply Qmult_le_0_compat; lra|].
        setoid_replace w with (w * 1) at 2 by ring.
        rewrite (Qmult_comm w (X * / d)), (Qmult_comm w 1). apply Qmult_le_compat_r; lra.
    Qed.

    Lemma obj_nonneg : 0 <= obj_value p x.
    Proof. rewrite obj_sum. apply qsum_nonneg. intros a Ha. apply obj_term_bounds. exact Ha. Qed.

    Definition weighted (js : pv * pv) : bool := negb (Qeq_bool (penalty_weights tt (fst js) (snd js)) 0).

    Lemma weighted_nodup : NoDup (filter weighted (visits ts)).
    Proof.
      destruct (create_inv _ _ _ _ _ Hp) as (dv & y & H1 & _).
      apply delay_varibles_char in H1 as (_ & ND & _).
      assert (E : filter weighted (visits ts) = filter weighted (filter (fun js => wants ts (fst js) (snd js)) (visits ts))).
      { assert (G : forall js, In js (visits ts) -> weighted js = true -> wants ts (fst js) (snd js) = true).
        { intros js Hin W. unfold weighted in W. apply negb_true_iff in W.
          destruct (weighted_in js Hin) as (_ & (_ & q & _ & _ & HS & HR) & _).
          - intros X. apply Qeq_eq_bool in X. congruence.
          - apply wants_true. auto. }
        induction (visits ts) as [|js l IH]; [reflexivity|]. cbn [filter].
        assert (G0 := G js (or_introl eq_refl)). rewrite IH by (intros; apply G; [right|]; auto).
        destruct (wants ts (fst js) (snd js)) eqn:Ew; cbn [filter].
        - reflexivity.
        - destruct (weighted js); [discriminate (G0 eq_refl)|reflexivity]. }
      rewrite E. apply NoDup_filter.
      assert (E2 : filter (fun js => wants ts (fst js) (snd js)) (visits ts) = delay_pairs ts).
      { unfold visits, delay_pairs. clear. induction (ts_J ts) as [|j l IH]; [reflexivity|].
        cbn [flat_map]. rewrite filter_app, IH. f_equal. unfold pairs_of, stations_of, path_of.
        destruct (dget j (ts_Paths ts)) as [path|]; [|reflexivity].
        clear. induction path as [|s path IH]; [reflexivity|]. cbn [map filter fst snd].
        destruct (wants ts j s); cbn [map]; rewrite IH; reflexivity. }
      rewrite E2. exact ND.
    Qed.

    Lemma obj_upper : plain_names ts -> NoDup (dkeys (tt_weights tt)) ->
      obj_value p x <= qsum (map snd (tt_weights tt)).
    Proof.
      intros PN HN. rewrite obj_sum. rewrite (qsum_filter weighted).
      - apply Qle_trans with (qsum (map (at_key (tt_weights tt)) (map (fun js => key_js (fst js) (snd js)) (filter weighted (visits ts))))).
        + rewrite map_map. apply qsum_le. intros js Hin. apply filter_In in Hin as [Hin _].
          apply obj_term_bounds. exact Hin.
        + apply sum_keys_le; auto.
          * intros k w Hkw. apply (Hw k). apply in_dget; auto.
          * apply NoDup_map_inj; [|apply weighted_nodup].
            intros [j s] [k t] H1 H2 E. apply filter_In in H1 as [H1 _]. apply filter_In in H2 as [H2 _].
            apply visit_mentioned in H1 as [M1 M2]. apply visit_mentioned in H2 as [N1 N2].
            unfold key_js in E. cbn [fst snd] in E.
            apply split_us in E as [E1 E2]; [|exact (train_plain ts PN j M1)|exact (train_plain ts PN k N1)].
            apply (train_str ts PN) in E1; auto. apply (station_str ts PN) in E2; [|right; auto..].
            subst. reflexivity.
      - intros js Hin W. unfold weighted in W. apply negb_false_iff, Qeq_bool_eq in W.
        unfold obj_term, Qdiv. rewrite W. ring.
    Qed.
  End Bounds.

  Lemma obj_impacts value : plain_names ts -> ~ d == 0 ->
    (forall v, In v (variables p) -> value v = Some (x (v_id v))) ->
    exists l, mapM (fun js => impact_to_objective p tt (fst js) (snd js) d value) (visits ts) = Ok l /\
      obj_value p x == qsum l.
  Proof.
    intros PN Hd Hv.
    set (g := fun js => if lmem (delay_id js) (map v_id (variables p))
                        then penalty_weights tt (fst js) (snd js) / d * x (delay_id js) else 0).
    exists (map g (visits ts)). split.
    - apply mapM_map. intros [j s] Hin. cbn [fst snd]. unfold impact_to_objective.
      destruct (visit_mentioned ts j s Hin) as [M1 M2].
      rewrite (find_delay ts tt d cat p RF PN Hp j s M1 M2). subst g. cbn beta.
      destruct (lmem _ _) eqn:E; [|reflexivity]. apply lmem_true in E.
      apply in_map_iff in E as (v & EV & HV).
      destruct (problem_ids _ _ _ _ _ RF Hp v HV) as [_ V]. rewrite (V j s EV) in HV.
      rewrite (Hv _ HV). cbn [bind]. destruct (Qeq_bool d 0) eqn:E0.
      + apply Qeq_bool_eq in E0. contradiction.
      + reflexivity.
    - rewrite obj_sum. apply qsum_ext. intros js Hin. subst g. cbn beta.
      destruct (lmem _ _) eqn:E; [reflexivity|]. unfold obj_term.
      destruct (Qeq_dec (penalty_weights tt (fst js) (snd js)) 0) as [E0|E0].
      + unfold Qdiv. rewrite E0. ring.
      + apply lmem_false in E. exfalso. apply E. apply weighted_in; auto.
  Qed.
End Obj.
