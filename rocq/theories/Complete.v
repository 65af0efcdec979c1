(** * Complete: every conflict-free plan is a feasible point of the problem *)

From Coq Require Import List String ZArith QArith Bool Arith Lia Lqa.
From Verif Require Import Base Pulp Helpers LinearSolver BaseFacts Spec SpecPlan TreeFacts OrderVars
  Emit DelayVars Shapes Origin SpecFacts Sound.
Import ListNotations.
Open Scope string_scope.
Open Scope list_scope.

Definition b2q (b : bool) : Q := if b then 1 else 0.

Lemma b2q_negb b : b2q (negb b) == 1 - b2q b.
Proof. destruct b; simpl; lra. Qed.

Section Complete.
  Variables (ts : train_sets) (tt : timetable) (d_max : Q) (cat : vcat) (p : lpproblem)
            (pl : plan).
  Hypothesis RF : reserved_free ts.
  Hypothesis NF : none_free tt.
  Hypothesis DP : distinct_pairs ts.
  Hypothesis Hd : 0 <= d_max.
  Hypothesis Hp : create_linear_problem ts tt d_max cat = Ok p.
  Hypothesis CF : conflict_free_plan ts tt d_max cat pl.
  Hypothesis ST : starting_train_ordered_before ts pl.

  Let edt := earliest_dep_time (ts_Paths ts) tt.

  (** The point that encodes the plan. *)
  Definition point : assignment := fun v =>
    match v with
    | (n, [j; s]) =>
        if eqb n "Delays" then match edt j s with Ok e => leave pl j s - e | Err _ => 0 end else 0
    | (_, [a; b; c; d]) =>
        b2q (if eqb c one_station then goes_first pl d a b
             else if eqb a in_ then enters_first pl d b c
             else meets_first pl c a d b)
    | _ => 0
    end.

  Lemma point_delay j s e :
    edt j s = Ok e -> point ("Delays", [j; s]) == leave pl j s - e.
  Proof. intros H. unfold point. rewrite eqb_refl, H. reflexivity. Qed.

  Lemma point_order q : point ("y", q) == 0 \/ point ("y", q) == 1.
  Proof.
    unfold point. destruct q as [|a [|b [|c [|d [|e l]]]]]; try (left; reflexivity).
    destruct (if eqb c one_station then _ else _); [right|left]; reflexivity.
  Qed.

  Lemma point_order' q : point ("z", q) == 0 \/ point ("z", q) == 1.
  Proof.
    unfold point. destruct q as [|a [|b [|c [|d [|e l]]]]]; try (left; reflexivity).
    destruct (if eqb c one_station then _ else _); [right|left]; reflexivity.
  Qed.

  Variables (dv y : tree).
  Hypothesis Hdv : delay_varibles ts d_max cat = Ok dv.
  Hypothesis Hy : order_variables ts = Ok y.
  Let SO : store_ok y := order_variables_ok ts RF y Hy.

  Lemma store_id q v : tpath q y = Some v -> v_id v = ("y", q) \/ v_id v = ("z", q).
  Proof. intros H. apply (so_var _ SO) in H as [->| ->]; auto. Qed.

  Lemma point_y3 j k s a : get_y3 y j k s = Ok a -> j <> k -> eval a point == b2q (goes_first pl s j k).
  Proof.
    intros H Hne. apply get_y3_value in H as [(v & H1 & ->)|(v & _ & H1 & ->)].
    - rewrite eval_var. destruct (store_id _ _ H1) as [->| ->]; reflexivity.
    - rewrite one_minus_eval.
      rewrite (proj1 (cf_orders _ _ _ _ _ CF) s k j) by auto. rewrite b2q_negb.
      destruct (store_id _ _ H1) as [->| ->]; reflexivity.
  Qed.

  Lemma point_in j k s a : get_y4_in y in_ j k s = Ok a -> j <> k ->
    train_name_ok j -> train_name_ok k -> eval a point == b2q (enters_first pl s j k).
  Proof.
    intros H Hne Nj Nk.
    assert (E : forall i a b, train_name_ok b -> point (i, [in_; a; b; s]) = b2q (enters_first pl s a b)).
    { intros i a0 b [_ Hb]. unfold point. apply eqb_false in Hb. rewrite Hb, eqb_refl. reflexivity. }
    apply get_in_value in H as [(v & H1 & ->)|(v & _ & H1 & ->)].
    - rewrite eval_var. destruct (store_id _ _ H1) as [->| ->]; rewrite E by auto; reflexivity.
    - rewrite one_minus_eval.
      rewrite (proj1 (proj2 (cf_orders _ _ _ _ _ CF)) s k j) by auto. rewrite b2q_negb.
      destruct (store_id _ _ H1) as [->| ->]; rewrite E by auto; reflexivity.
  Qed.

  Lemma point_y4 j k s sp a : get_y4_singleline y j k s sp = Ok a -> j <> k ->
    train_name_ok j -> train_name_ok k -> station_name_ok s -> station_name_ok sp ->
    eval a point == b2q (meets_first pl s j sp k).
  Proof.
    intros H Hne Nj Nk Ns Nsp.
    assert (E : forall i a b c d, train_name_ok a -> station_name_ok c ->
              point (i, [a; b; c; d]) = b2q (meets_first pl c a d b)).
    { intros i a0 b c d [Ha _] Hc. unfold point. apply eqb_false in Hc. apply eqb_false in Ha.
      rewrite Hc, Ha. reflexivity. }
    apply get_y4_value in H as [(v & H1 & ->)|(v & _ & H1 & ->)].
    - rewrite eval_var. destruct (store_id _ _ H1) as [->| ->]; rewrite E by auto; reflexivity.
    - rewrite one_minus_eval.
      rewrite (proj2 (proj2 (cf_orders _ _ _ _ _ CF)) sp k s j) by auto. rewrite b2q_negb.
      destruct (store_id _ _ H1) as [->| ->]; rewrite E by auto; reflexivity.
  Qed.

  Lemma dval j s v e :
    get2 dv j s = Ok v -> edt j s = Ok e ->
    point (v_id v) == leave pl j s - e /\ e <= leave pl j s <= e + d_max.
  Proof.
    intros H He. apply (get2_char ts d_max cat dv j s v Hdv) in H as [H ->].
    split; [apply point_delay; exact He|].
    apply (cf_window _ _ _ _ _ CF); [apply has_delay_decided; auto|].
    eapply earliest_dep_time_sound; eauto.
  Qed.

  (** Big-M constraints: enough slack if the order is the other one. *)
  Lemma bigM L R l r b yv :
    yv == b2q b -> 0 <= l <= d_max -> 0 <= r <= d_max ->
    (b = false -> R + r <= L + l) -> R + r - get_M L R d_max * yv <= L + l.
  Proof.
    intros E Bl Br H. rewrite E. destruct b; simpl.
    - unfold get_M. pose proof (qmax_l (R + d_max - L) 1). lra.
    - specialize (H eq_refl). lra.
  Qed.

  Lemma reaches_edt j sp s r :
    comes_before ts j sp s -> tau_pass tt j sp s = Ok r -> reaches ts tt pl j s (leave pl j sp + r).
  Proof.
    intros Hb Hr. exists sp, r. split; [exact Hb|]. split; [apply dlookup_ok; exact Hr|reflexivity].
  Qed.

  Lemma gf_flip s j k : j <> k -> goes_first pl s k j = false -> goes_first pl s j k = true.
  Proof.
    intros Hne H. rewrite (proj1 (cf_orders _ _ _ _ _ CF) s k j), H by auto. reflexivity.
  Qed.

  Lemma ms_point s sp j k n c :
    in_span ts s sp j k \/ in_span ts s sp k j ->
    ms_emit tt dv y ts d_max s sp j k = Ok (Some (n, c)) -> holds c point.
  Proof.
    intros HS H. apply ms_shape in H as (L & R & h & HL & HR & Hh & [[? _]|X]); [discriminate|].
    destruct X as (vk & vj & yv & Hvk & Hvj & Hyv & _ & Eo). inversion Eo; subst; clear Eo.
    assert (HX : exists inner groups js, In (s, inner) (ts_Jd ts) /\ In (sp, groups) inner /\
              In js groups /\ (listed js j k \/ listed js k j) /\ j <> k).
    { destruct DP as [D _].
      destruct HS as [(inner & groups & js & H1 & H2 & H3 & H4)|(inner & groups & js & H1 & H2 & H3 & H4)];
        exists inner, groups, js; (repeat split; auto);
        try (left; apply listed_combinations; exact H4); try (right; apply listed_combinations; exact H4);
        intros E; (apply combinations2_neq in H4; [auto|eauto]). }
    destruct HX as (inner & groups & js & H1 & H2 & H3 & H4 & Hne).
    destruct (dval _ _ _ _ Hvk HL) as [Ek Bk]. destruct (dval _ _ _ _ Hvj HR) as [Ej Bj].
    apply holds_ge. unfold plus_var.
    rewrite eval_sub, eval_scale, !eval_add, !eval_const, !eval_var, Ek, Ej.
    apply (bigM L (R + h) (leave pl k s - L) (leave pl j s - R) (goes_first pl s k j)); [|lra|lra|].
    - apply point_y3; auto.
    - intros Hf. assert (HK := cf_headways _ _ _ _ _ CF s inner sp groups js j k h H1 H2 H3 H4
        (gf_flip _ _ _ Hne Hf) (proj1 (dlookup_ok _ _ _) Hh)). lra.
  Qed.

  Lemma mf_flip s j sp k : j <> k -> meets_first pl s j sp k = false -> meets_first pl sp k s j = true.
  Proof.
    intros Hne H. rewrite (proj2 (proj2 (cf_orders _ _ _ _ _ CF)) s j sp k), H by auto. reflexivity.
  Qed.

  Lemma sl_point s sp j k n c :
    in_line ts s sp j k \/ in_line ts sp s k j ->
    sl_emit tt dv y ts d_max s sp j k = Ok (Some (n, c)) -> holds c point.
  Proof.
    intros HS H. apply sl_shape in H as (L & R & h & HL & HR & Hh & [[? _]|X]); [discriminate|].
    destruct X as (vj & vk & yv & Hvj & Hvk & Hyv & _ & Eo). inversion Eo; subst; clear Eo.
    apply dlookup_ok in Hh.
    assert (HX : j <> k /\ (train_name_ok j /\ train_name_ok k) /\ (station_name_ok s /\ station_name_ok sp) /\
              (meets_first pl sp k s j = true -> leave pl k sp + h <= leave pl j s)).
    { destruct DP as (_ & D & _).
      destruct HS as [(l & H1 & H2 & H3)|(l & H1 & H2 & H3)];
        apply not_same_rolling_spec in H3;
        destruct (mention_single ts _ _ _ _ H1 H2) as (M1 & M2 & M3 & M4);
        destruct (cf_line _ _ _ _ _ CF _ _ _ _ _ H1 H2 H3) as [K1 K2];
        (split; [pose proof (D _ _ _ _ H1 H2); auto|]);
        (split; [split; eapply rf_train; eauto|]); (split; [split; eapply rf_station; eauto|]);
        intros G; [exact (K2 G h Hh)|exact (K1 G h Hh)]. }
    destruct HX as (Hne & [Nj Nk] & [Ns Nsp] & HK).
    destruct (dval _ _ _ _ Hvk HR) as [Ek Bk]. destruct (dval _ _ _ _ Hvj HL) as [Ej Bj].
    apply holds_ge. unfold plus_var.
    rewrite eval_sub, eval_scale, !eval_add, !eval_const, !eval_var, Ek, Ej.
    apply (bigM L (R + h) (leave pl j s - L) (leave pl k sp - R) (meets_first pl s j sp k)); [|lra|lra|].
    - apply point_y4; auto.
    - intros Hf. specialize (HK (mf_flip _ _ _ _ Hne Hf)). lra.
  Qed.

  Lemma stay_point j s n c :
    In j (ts_J ts) -> stay_emit tt dv ts j s = Ok (Some (n, c)) -> holds c point.
  Proof.
    intros Hj H. apply stay_shape in H as (path & sp & Hpath & Hprev & [[? _]|[Hn (dj & _ & [[? _]|[_ X]])]]);
      [discriminate|discriminate|].
    destruct X as (v & vp & L & R & tp & st & Hv & Hvp & HL & HR & Htp & Hst & Eo).
    inversion Eo; subst; clear Eo.
    destruct (prev_cases ts RF _ _ _ _ Hpath Hprev) as [[? _]|[_ Hb]]; [contradiction|].
    destruct (dval _ _ _ _ Hv HL) as [E1 B1]. destruct (dval _ _ _ _ Hvp HR) as [E2 B2].
    apply holds_ge. unfold plus_var. rewrite !eval_add, !eval_const, !eval_var, E1, E2.
    assert (HD : decided ts j s).
    { apply (get2_char ts d_max cat dv j s v Hdv) in Hv as [Hv _]. apply has_delay_decided; auto. }
    assert (K := cf_stays _ _ _ _ _ CF j sp s tp st Hj Hb HD (proj1 (dlookup_ok _ _ _) Htp)
                   (proj1 (dlookup_ok _ _ _) Hst)). lra.
  Qed.

  Lemma circ_point s j k n c :
    in_circ ts s j k -> circ_emit tt dv ts d_max s j k = Ok (Some (n, c)) -> holds c point.
  Proof.
    intros (l & H1 & H2) H.
    apply circ_shape in H as (path & sp & L0 & R & tp & pr & Hpath & Hprev & HL & HR & Htp & Hpr & [[? _]|X]);
      [discriminate|]. destruct X as (v1 & v2 & Hv1 & Hv2 & _ & Eo). inversion Eo; subst; clear Eo.
    destruct (prev_cases ts RF _ _ _ _ Hpath Hprev) as [[-> _]|[_ Hb]].
    { exfalso. eapply edt_not_none; eauto. }
    destruct (dval _ _ _ _ Hv1 HL) as [E1 B1]. destruct (dval _ _ _ _ Hv2 HR) as [E2 B2].
    apply holds_ge. unfold plus_var. rewrite !eval_add, !eval_const, !eval_var, E1, E2.
    assert (K := cf_turnarounds _ _ _ _ _ CF s l j k _ pr H1 H2 (reaches_edt _ _ _ _ Hb Htp)
                   (proj1 (dlookup_ok _ _ _) Hpr)). lra.
  Qed.

  Lemma in_track_shares s j k : in_track ts s j k ->
    shares_track ts s j k /\ j <> k /\ ~ same_rolling_stock ts j k.
  Proof.
    intros (groups & js & H1 & H2 & H3 & H4). split; [|split].
    - exists groups, js. split; auto. split; auto. left. apply listed_combinations. exact H3.
    - destruct DP as (_ & _ & D & _). intros E. apply combinations2_neq in H3; [auto|eauto].
    - apply not_same_rolling_spec. exact H4.
  Qed.

  Lemma shares_track_sym s j k : shares_track ts s j k -> shares_track ts s k j.
  Proof. intros (g & js & H1 & H2 & H3). exists g, js. tauto. Qed.

  Lemma MO_spec s j k b :
    j <> k -> can_MO_on_line j k s ts = Ok b ->
    if b then ts_Jd ts <> [] /\
              ~ (exists sp, comes_before ts j sp s /\ comes_before ts k sp s /\ same_line ts sp s j k)
    else ts_Jd ts = [] \/ starts_at ts j s \/ starts_at ts k s \/
         exists sp, comes_before ts j sp s /\ comes_before ts k sp s /\ same_line ts sp s j k.
  Proof.
    intros Hne H. unfold can_MO_on_line in H. inv_bind H. inv_bind H. inv_bind H. inv_bind H.
    apply dlookup_ok in E, E1.
    assert (HJJ : ts_Jd ts = [] \/ ts_Jd ts <> []) by (destruct (ts_Jd ts); [auto|right; discriminate]).
    destruct HJJ as [EJ|HJ].
    { rewrite EJ in H. inversion H; subst. left. exact EJ. }
    match type of H with match ?d with [] => _ | _ :: _ => ?r end = _ =>
      assert (H0 : r = Ok b) by (destruct d; [congruence|exact H]) end.
    clear H; rename H0 into H. unfold is_none in H.
    destruct (prev_cases ts RF _ _ _ _ E E0) as [[-> S1]|[N1 B1]].
    { inversion H; subst. auto. }
    destruct (prev_cases ts RF _ _ _ _ E1 E2) as [[-> S2]|[N2 B2]].
    { rewrite orb_comm in H. inversion H; subst. auto. }
    apply eqb_false in N1, N2. rewrite N1, N2 in H. cbn [orb] in H.
    destruct (eqb a0 a2) eqn:Es; cbn [negb] in H.
    - apply eqb_eq in Es. subst a2. inv_bind H. inv_bind H. apply dlookup_ok in E3, E4.
      destruct (occurs_as_pair j k a3) eqn:Eo; inversion H; subst b; cbn [negb].
      + apply occurs_as_pair_true in Eo as [_ (v & Hv & Hj & Hk)].
        right; right; right. exists a0. split; auto. split; auto. right. exists a2, a3, v. auto.
      + split; [exact HJ|]. intros (sp & C1 & C2 & SL).
        assert (sp = a0) by (eapply comes_before_fun; eauto). subst sp.
        destruct SL as [HE|(inner' & groups' & js & G1 & G2 & G3 & G4 & G5)]; [congruence|].
        assert (inner' = a2) by congruence; subst. assert (groups' = a3) by congruence; subst.
        rewrite <- not_true_iff_false in Eo. apply Eo. apply occurs_as_pair_true. eauto.
    - inversion H; subst b. split; [exact HJ|]. intros (sp & C1 & C2 & _). apply eqb_neq in Es.
      apply Es. transitivity sp; [|symmetry]; eapply comes_before_fun; eauto.
  Qed.

  Lemma entering_spec s j k : entering_via_same_switches ts s j k = true -> enter_together ts s j k.
  Proof.
    unfold entering_via_same_switches, enter_together. destruct (dget s (ts_Jswitch ts)) as [l|]; [|discriminate].
    intros H. apply existsb_exists in H as (pair & Hp' & H). exists l, pair.
    destruct (dget j pair); [|discriminate]. destruct (dget k pair); [|discriminate].
    apply andb_true_iff in H as [H1 H2]. apply eqb_eq in H1, H2. subst. auto.
  Qed.

  Lemma kto_point s j k n c :
    in_track ts s j k -> kto_emit y ts s j k = Ok (Some (n, c)) -> holds c point.
  Proof.
    intros HT H. destruct (in_track_shares _ _ _ HT) as (HS & Hne & Hns).
    apply kto_shape in H as (path & sp & Hpath & Hprev & [?|X]); [discriminate|].
    destruct X as (c' & inner & groups & Eo & Hk & Hjd & Hm & Hg & Hocc).
    inversion Eo; subst; clear Eo.
    assert (Hsp : sp <> PNone).
    { intros ->. pose proof (proj2 RF) as RS. cut (In PNone (mentioned_stations ts)); [intros F; apply RS in F as [F _]; congruence|].
      unfold mentioned_stations. rewrite !in_app_iff. right; right; left.
      apply in_flat_map. exists (PNone, inner). split; [apply dget_in; exact Hjd|simpl; auto]. }
    destruct (prev_cases ts RF _ _ _ _ Hpath Hprev) as [[? _]|[_ Hb]]; [contradiction|].
    inversion Hk as [sp' path0 v1 v2 E1 E2 EM H1 H2|yin v EM Ein H1 H2]; subst; apply holds_eq.
    - assert (path0 = path) by congruence; subst. assert (sp' = sp) by congruence; subst.
      apply get4_tpath in H1, H2. rewrite !eval_var.
      assert (K : goes_first pl s j k = goes_first pl sp j k).
      { apply MO_spec in EM; [|exact Hne]. destruct EM as [EM|[EM|[EM|(sp' & C1 & C2 & SL)]]].
        - rewrite EM in Hjd. discriminate.
        - exfalso. eapply comes_before_not_start; eauto.
        - apply ST; auto. apply dget_in in Hjd.
          apply (in_map fst) in Hjd. exact Hjd.
        - assert (sp' = sp) by (exact (comes_before_fun _ _ _ _ _ C1 Hb)). subst.
          apply (cf_no_overtaking _ _ _ _ _ CF); auto. }
      destruct (store_id _ _ H1) as [->| ->]; destruct (store_id _ _ H2) as [->| ->];
        unfold point; rewrite !eqb_refl, K; reflexivity.
    - apply get4_tpath in H2. rewrite eval_var.
      destruct HT as (g & js & T1 & T2 & T3 & _). apply combinations2_mem in T3 as [T3 T4].
      rewrite (point_in j k s yin) by eauto using track_names.
      apply MO_spec in EM; [|exact Hne]. destruct EM as [_ EM].
      rewrite <- (cf_entering _ _ _ _ _ CF s j k HS Hns (entering_spec _ _ _ Ein) EM).
      destruct (store_id _ _ H2) as [->| ->]; unfold point; rewrite eqb_refl; reflexivity.
  Qed.

  Lemma before_name_ok j sp s : comes_before ts j sp s -> station_name_ok sp.
  Proof.
    intros H. destruct (before_on_path ts j sp s H) as (path & Hp' & Hs & _).
    apply (rf_station ts RF). eapply mention_path; eauto.
  Qed.

  Lemma track_not_named j s : track_skip j s ts = Ok false -> ~ names_skip ts j s.
  Proof.
    intros H (sk & name & s' & E1 & E2 & -> & E3). unfold track_skip in H. rewrite E1, E2 in H.
    inversion H as [H']. apply str_contains_iff in E3. congruence.
  Qed.

  Lemma tos_point s j k n c :
    in_track ts s j k \/ in_track ts s k j -> track_skip j s ts = Ok false ->
    tos_emit tt dv y ts d_max s j k = Ok (Some (n, c)) -> holds c point.
  Proof.
    intros HT Hsk H. apply track_not_named in Hsk.
    assert (HX : shares_track ts s j k /\ j <> k /\ ~ same_rolling_stock ts j k).
    { destruct HT as [HT|HT]; apply in_track_shares in HT as (A1 & A2 & A3); [auto|].
      split; [apply shares_track_sym; auto|]. split; auto. intros F. apply A3.
      apply same_rolling_sym. exact F. }
    destruct HX as (HS & Hne & Hns).
    apply tos_shape in H as [(Hn & y1 & y2 & H1 & H2 & Eo)|(Hn & L & src & R0 & R & Ha & HR0 & HR & [[? _]|X])];
      [|discriminate|].
    - inversion Eo; subst; clear Eo. apply holds_eq.
      destruct (subsequent_train_spec ts RF j s) as [[_ Hc]|[E _]]; [|congruence].
      assert (Hne2 : k <> subsequent_train_at_Jround ts j s).
      { intros E. apply Hns. split; [exact Hne|].
        destruct Hc as (l1 & l2 & Hc & _). apply dget_in in Hc. eexists. eexists. split; [exact Hc|].
        left. rewrite E at 1. apply in_app_iff; simpl; auto. }
      transitivity (b2q (goes_first pl s k j)); [apply point_y3; auto|].
      rewrite <- (cf_turn_order _ _ _ _ _ CF s j _ k HS Hns Hsk Hc).
      symmetry. apply point_y3; auto.
    - destruct X as (La & yv & v & HLa & Hyv & Hv & _ & Eo). inversion Eo; subst; clear Eo.
      destruct (extra_gap ts tt _ _ _ HR) as (g & Hg & Eg).
      assert (Hnc : forall jn, ~ continues_as ts s j jn).
      { destruct (subsequent_train_spec ts RF j s) as [[? _]|[_ H]]; [congruence|exact H]. }
      destruct (dval _ _ _ _ Hv HR0) as [Ev Bv].
      assert (HA : exists a, stands_from ts tt pl s k a /\ eval La point == a /\ 0 <= a - L <= d_max).
      { apply arrival_shape in Ha as (path & sp & Hpath & Hprev & [X|[X|X]]).
        - destruct X as (pr & s_rp & e & tp & Hn' & Hpr & Hprev' & He & Htp & -> & ->).
          cbn [arrival_aff] in HLa. inv_bind HLa. inversion HLa; subst La; clear HLa.
          destruct (dval _ _ _ _ E He) as [Ea Ba].
          destruct (prev_cases ts RF _ _ _ _ Hpr Hprev') as [[-> _]|[_ Hb]].
          { exfalso. eapply edt_not_none; eauto. }
          exists (leave pl (previous_train_from_Jround ts k s) s_rp + tp). split; [|split].
          + left. exists (previous_train_from_Jround ts k s). split.
            * destruct (previous_train_spec ts RF k s) as [[_ H]|[H _]]; [exact H|congruence].
            * apply reaches_edt; auto.
          + unfold plus_var. rewrite eval_add, eval_const, eval_var, Ea. ring.
          + lra.
        - destruct X as (e & tp & Hn' & Hsp & He & Htp & -> & ->).
          cbn [arrival_aff] in HLa. inv_bind HLa. inversion HLa; subst La; clear HLa.
          destruct (dval _ _ _ _ E He) as [Ea Ba].
          destruct (prev_cases ts RF _ _ _ _ Hpath Hprev) as [[? _]|[_ Hb]]; [contradiction|].
          exists (leave pl k sp + tp). split; [|split].
          + right; left. split; [|apply reaches_edt; auto].
            destruct (previous_train_spec ts RF k s) as [[H _]|[_ H]]; [congruence|exact H].
          + unfold plus_var. rewrite eval_add, eval_const, eval_var, Ea. ring.
          + lra.
        - destruct X as (Hn' & -> & He & ->). cbn [arrival_aff] in HLa. inversion HLa; subst La; clear HLa.
          exists L. split; [|split; [apply eval_const|lra]]. right; right. split; [|split].
          + destruct (previous_train_spec ts RF k s) as [[H _]|[_ H]]; [congruence|exact H].
          + destruct (prev_cases ts RF _ _ _ _ Hpath Hprev) as [[_ H]|[H _]]; [exact H|congruence].
          + eapply earliest_dep_time_sound; eauto. }
      destruct HA as (a & HA & Ea & Ba).
      apply holds_ge. rewrite !eval_sub, eval_scale, eval_const, eval_var, Ev, Ea.
      assert (K := bigM L R (a - L) (leave pl j s - R0) (goes_first pl s k j) (eval yv point)).
      cut (R + (leave pl j s - R0) - get_M L R d_max * eval yv point <= L + (a - L)); [lra|].
      apply K; [apply point_y3; auto|exact Ba|lra|]. intros Hf.
      assert (HK := cf_tracks _ _ _ _ _ CF s j k a g HS Hns Hsk Hnc (gf_flip _ _ _ Hne Hf) HA Hg). lra.
  Qed.

  Lemma unpack2_dget pair j k : NoDup (dkeys pair) -> unpack2 pair = Ok (j, k) -> j <> k.
  Proof.
    destruct pair as [|[a u] [|[b v] [|c l]]]; simpl; try discriminate.
    intros N H; inversion H; subst. inversion N as [|? ? N1 _]; subst. simpl in N1. auto.
  Qed.

  Lemma at_switch_plan s j pair sp t :
    departure_station4switches s j pair ts = Ok sp -> at_switch tt ts s j sp t ->
    exists e, edt j sp = Ok e /\
      ((dget j pair = Some (PStr "out") /\ sp = s /\ t = e) \/
       (dget j pair = Some (PStr "in") /\ comes_before ts j sp s /\ s <> sp /\
        exists r, tau_pass tt j sp s = Ok r /\ t = e + r)).
  Proof.
    unfold departure_station4switches. intros H (e & He & HC). inv_bind H. exists e. split; [exact He|].
    apply dlookup_ok in E. destruct (eqb a (PStr "out")) eqn:Eo.
    - apply eqb_eq in Eo. inversion H; subst a sp. left. split; [exact E|].
      destruct HC as [[_ ->]|[Hn _]]; [auto|congruence].
    - destruct (eqb a (PStr "in")) eqn:Ei.
      + apply eqb_eq in Ei. subst a. inv_bind H. apply dlookup_ok in E0.
        right. split; [exact E|].
        destruct (prev_cases ts RF _ _ _ _ E0 H) as [[-> _]|[_ Hb]].
        { exfalso. eapply edt_not_none; eauto. }
        split; [exact Hb|].
        destruct HC as [[<- _]|[Hn HC]]; [|auto].
        exfalso. destruct Hb as (path & l1 & l2 & _ & _ & Hs). apply Hs.
        apply in_app_iff; simpl; auto.
      + inversion H; subst. exfalso. eapply edt_not_none; eauto.
  Qed.

  Lemma passes_flip s pair j k b :
    j <> k -> passes_before ts pl s pair j k b -> passes_before ts pl s pair k j (negb b).
  Proof.
    destruct (cf_orders _ _ _ _ _ CF) as (O1 & O2 & O3). intros Hne H. inversion H; subst.
    - rewrite <- O1 by auto. apply pb_out_out; auto.
    - rewrite <- O1 by auto. apply pb_line; auto.
      destruct H4 as [H4|(a & b & c & H4)]; [left; auto|right; exists a, b, c; tauto].
    - rewrite <- O2 by auto. apply pb_in_in; auto. intros (sp & C1 & C2 & C3). apply H2.
      exists sp. split; auto. split; auto.
      destruct C3 as [C3|(a & b & c & C3)]; [left; auto|right; exists a, b, c; tauto].
    - rewrite <- O3 by auto. eapply pb_out_in; eauto.
    - rewrite <- O3 by auto. eapply pb_in_out; eauto.
  Qed.

  Lemma sw_point s l pair j k sp spp n c :
    In (s, l) (ts_Jswitch ts) -> In pair l -> j <> k -> ~ same_rolling_stock ts j k ->
    train_name_ok j -> train_name_ok k ->
    departure_station4switches s j pair ts = Ok sp ->
    departure_station4switches s k pair ts = Ok spp ->
    sw_emit tt dv y ts d_max s j sp k spp = Ok (Some (n, c)) -> holds c point.
  Proof.
    intros H1 H2 Hne Hns Nj Nk D1 D2 H.
    apply sw_shape in H as (L & R & r & HL & HR & Hr & [[? _]|X]); [discriminate|].
    destruct X as (Rr & yv & v1 & v2 & ERr & Hyv & Hv1 & Hv2 & _ & Eo). inversion Eo; subst; clear Eo.
    destruct (at_switch_plan _ _ _ _ _ D1 HL) as (e1 & He1 & C1).
    destruct (at_switch_plan _ _ _ _ _ D2 HR) as (e2 & He2 & C2).
    destruct (dval _ _ _ _ Hv1 He1) as [E1 B1]. destruct (dval _ _ _ _ Hv2 He2) as [E2 B2].
    assert (P1 : passes_at ts tt pl s pair j (L + (leave pl j sp - e1))).
    { destruct C1 as [(G1 & -> & ->)|(G1 & G2 & _ & q & G3 & ->)].
      - left. split; [exact G1|]. ring.
      - right. split; [exact G1|]. exists sp, q. split; auto. split; [apply dlookup_ok; exact G3|]. ring. }
    assert (P2 : passes_at ts tt pl s pair k (R + (leave pl k spp - e2))).
    { destruct C2 as [(G1 & -> & ->)|(G1 & G2 & _ & q & G3 & ->)].
      - left. split; [exact G1|]. ring.
      - right. split; [exact G1|]. exists spp, q. split; auto. split; [apply dlookup_ok; exact G3|]. ring. }
    assert (HB : exists b, passes_before ts pl s pair j k b /\ eval yv point == b2q b).
    { unfold sw_order in Hyv.
      destruct (mention_switch ts s l pair j H1 H2) as [_ Ms].
      { destruct C1 as [(G & _)|(G & _)]; apply dget_in, (in_map fst) in G; exact G. }
      assert (Ns := rf_station ts RF s Ms).
      destruct C1 as [(G1 & -> & ->)|(G1 & G2 & Gn & q & G3 & ->)];
      destruct C2 as [(G1' & -> & ->)|(G1' & G2' & Gn' & q' & G3' & ->)].
      - rewrite !eqb_refl in Hyv. eexists. split; [apply pb_out_out; auto|apply point_y3; auto].
      - assert (EQ : eqb spp s = false) by (apply eqb_false; auto). rewrite EQ in Hyv.
        rewrite eqb_refl, orb_true_r in Hyv. eexists. split; [eapply pb_out_in; eauto|].
        apply point_y4; auto. eapply before_name_ok; eauto.
      - assert (EQ : eqb s sp = false) by (apply eqb_false; auto). rewrite EQ in Hyv.
        rewrite eqb_refl in Hyv. cbn [orb] in Hyv. eexists. split; [eapply pb_in_out; eauto|].
        apply point_y4; auto. eapply before_name_ok; eauto.
      - destruct (eqb spp sp) eqn:Es.
        + apply eqb_eq in Es. subst spp. assert (EQ : eqb sp s = false) by (apply eqb_false; auto).
          rewrite EQ in Hyv. inv_bind Hyv. apply MO_spec in E; [|exact Hne]. destruct a.
          * destruct E as [_ E]. eexists. split; [apply pb_in_in; auto|]. apply point_in; auto.
          * eexists. split; [eapply (pb_line _ _ _ _ _ _ sp); auto|apply point_y3; auto].
            destruct E as [E|[E|[E|(sp' & X1 & X2 & X3)]]].
            -- left. exact E.
            -- exfalso. eapply comes_before_not_start; [|exact E]; eauto.
            -- exfalso. eapply comes_before_not_start; [|exact E]; eauto.
            -- assert (sp' = sp) by (eapply comes_before_fun; eauto). subst. exact X3.
        + apply eqb_neq in Es. assert (EQ : eqb s sp = false) by (apply eqb_false; auto).
          assert (EQ' : eqb s spp = false) by (apply eqb_false; auto).
          rewrite EQ, EQ' in Hyv. cbn [orb] in Hyv.
          eexists. split; [apply pb_in_in; auto|apply point_in; auto].
          intros (sp' & X1 & X2 & _). apply Es.
          transitivity sp'; [|symmetry]; eapply comes_before_fun; eauto. }
    destruct HB as (b & HB & Eb).
    apply holds_ge. unfold plus_var.
    rewrite !eval_add, !eval_sub, !eval_scale, !eval_const, !eval_var, E1, E2.
    cut (Rr + (leave pl k spp - e2) - get_M L Rr d_max * eval yv point <= L + (leave pl j sp - e1)); [lra|].
    apply (bigM _ _ _ _ b); [exact Eb|lra|lra|]. intros ->.
    apply passes_flip in HB; [|exact Hne]. cbn [negb] in HB.
    assert (Hr' : reservation tt r).
    { unfold tau_res in Hr. unfold reservation. destruct (tt_res tt); congruence. }
    assert (Hns' : ~ same_rolling_stock ts k j) by (intros F; apply Hns; apply same_rolling_sym; exact F).
    assert (K := cf_switches _ _ _ _ _ CF s l pair k j _ _ r H1 H2 (not_eq_sym Hne) Hns' HB P2 P1 Hr').
    lra.
  Qed.

  Lemma origin_point n c : origin tt dv y ts d_max (Ok (Some (n, c))) -> holds c point.
  Proof.
    intros H. inversion H as
      [s sp j jp HS Ee|s sp j jp HS Ee|j s path Hj _ _ Ee|s sp j jp HS Ee|s sp j jp HS Ee
      |s j jp HS Hk Ee|s j jp HS Hk Ee|s j jp HS Hk Ee|s j jp HS Ee
      |s pair jp jpp sp spp HS D1 D2 Ee|s pair jp jpp sp spp HS D1 D2 Ee]; clear H.
    - eapply ms_point; [|exact Ee]; auto.
    - eapply ms_point; [|exact Ee]; auto.
    - eapply stay_point; [|exact Ee]; auto.
    - eapply sl_point; [|exact Ee]; auto.
    - eapply sl_point; [|exact Ee]; auto.
    - eapply kto_point; [|exact Ee]; auto.
    - eapply tos_point; [|exact Hk|exact Ee]; auto.
    - eapply tos_point; [|exact Hk|exact Ee]; auto.
    - eapply circ_point; [|exact Ee]; auto.
    - destruct HS as (l & H1 & H2 & H3 & H4). destruct (unpack2_keys _ _ _ H3) as [K1 K2].
      apply not_same_rolling_spec in H4. destruct DP as (_ & _ & _ & D).
      assert (Hne := unpack2_dget _ _ _ (D _ _ _ H1 H2) H3).
      destruct (mention_switch ts s l pair jp H1 H2 K1) as [M1 _].
      destruct (mention_switch ts s l pair jpp H1 H2 K2) as [M2 _].
      apply (sw_point s l pair jp jpp sp spp n c); auto; eapply rf_train; eauto.
    - destruct HS as (l & H1 & H2 & H3 & H4). destruct (unpack2_keys _ _ _ H3) as [K1 K2].
      apply not_same_rolling_spec in H4. destruct DP as (_ & _ & _ & D).
      assert (Hne := unpack2_dget _ _ _ (D _ _ _ H1 H2) H3).
      destruct (mention_switch ts s l pair jp H1 H2 K1) as [M1 _].
      destruct (mention_switch ts s l pair jpp H1 H2 K2) as [M2 _].
      assert (H4' : ~ same_rolling_stock ts jpp jp) by (intros F; apply H4; apply same_rolling_sym; exact F).
      apply (sw_point s l pair jpp jp spp sp n c); auto; eapply rf_train; eauto.
  Qed.
End Complete.

Theorem plan_feasible ts tt d_max cat p pl :
  reserved_free ts -> none_free tt -> distinct_pairs ts -> 0 <= d_max ->
  create_linear_problem ts tt d_max cat = Ok p ->
  conflict_free_plan ts tt d_max cat pl -> starting_train_ordered_before ts pl ->
  exists x, feasible p x /\
    forall j s e, decided ts j s -> earliest ts tt j s e ->
      x ("Delays", [j; s]) == leave pl j s - e.
Proof.
  intros RF NF DP Hd Hp CF ST. exists (point ts tt pl).
  destruct (create_inv _ _ _ _ _ Hp) as (dv & y & H1 & H2 & H3 & _ & H4 & H5).
  split; [split|].
  - intros n c Hc. rewrite H3 in Hc. apply somes_emitted in Hc as (m & Hc & _).
    apply emission_origin in Hc as [[e He]|Ho]; [discriminate|].
    eapply origin_point; eauto.
  - intros v Hv.
    destruct (variables_canon ts tt d_max cat p RF dv y H1 H2 H3 H5 v Hv)
      as [(j & s & HD & ->)|(q & Hq)].
    + apply has_delay_decided in HD; [|exact RF].
      change (v_id (delay_var_of j s d_max cat)) with ("Delays", [j; s]).
      destruct (earliest_dep_time (ts_Paths ts) tt j s) as [e|er] eqn:E.
      * destruct (cf_window _ _ _ _ _ CF j s e HD (earliest_dep_time_sound ts RF tt NF j s e E)) as [B1 B2].
        assert (EP := point_delay ts tt pl j s e E).
        repeat split; cbn [v_lo v_up v_cat delay_var_of].
        -- intros lo Hlo. inversion Hlo; subst. rewrite EP. lra.
        -- intros up Hup. inversion Hup; subst. rewrite EP. lra.
        -- intros Hc. destruct (B2 Hc) as [z Hz]. exists z. rewrite EP. exact Hz.
      * unfold point. rewrite eqb_refl, E. repeat split; cbn [v_lo v_up v_cat delay_var_of].
        -- intros lo Hlo. inversion Hlo; subst. lra.
        -- intros up Hup. inversion Hup; subst. exact Hd.
        -- intros _. exists 0%Z. reflexivity.
    + assert (HQ : point ts tt pl (v_id v) == 0 \/ point ts tt pl (v_id v) == 1).
      { destruct Hq as [->| ->]; [apply point_order|apply point_order']. }
      assert (HB : v_lo v = Some 0 /\ v_up v = Some 1) by (destruct Hq as [->| ->]; auto).
      destruct HB as [E1 E2]. repeat split.
      * intros lo Hlo. rewrite E1 in Hlo; inversion Hlo; subst. lra.
      * intros up Hup. rewrite E2 in Hup; inversion Hup; subst. lra.
      * intros _. destruct HQ as [HQ|HQ]; [exists 0%Z|exists 1%Z]; exact HQ.
  - intros j s e HD He. destruct (earliest_dep_time_complete ts tt j s e He) as (e' & E & EE).
    rewrite (point_delay ts tt pl j s e' E), EE. reflexivity.
Qed.
