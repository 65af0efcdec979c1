(** * PropsQubo: claims about names of constraints and the QUBO conversion (C16, C24-C27, C29, C54) *)

From Coq Require Import List String Ascii ZArith QArith Qround Bool Lqa Lia Permutation.
From Verif Require Import Base Pulp Helpers LinearSolver BaseFacts Spec Check SpecNames Names Objective SpecCompare Examples
  PropsVars Converters SpecQubo ConstraintNames QuboFacts QuboModel Qubo QuboEncode Interp Created Integral Accept.
Import ListNotations.
Open Scope string_scope.
Open Scope list_scope.

(** ** C16 *)

(** Each stage of create_linear_problem adds constraints named after its rule only; the converter reads the rule
    off such a name; in a created problem all names differ and every one belongs to a rule. *)
Theorem C16_rule_names :
  (forall tt dv y ts d_max p p',
    (minimal_span p tt dv y ts d_max = Ok p' -> adds_rule "minimal_span" p p') /\
    (minimal_stay p tt dv ts = Ok p' -> adds_rule "minimal_stay" p p') /\
    (single_line p tt dv y ts d_max = Ok p' -> adds_rule "single_line" p p') /\
    (track_occuparion p tt dv y ts d_max = Ok p' -> adds_rule "track_occupation" p p') /\
    (rolling_stock_circ p tt dv ts d_max = Ok p' -> adds_rule "circulation" p p') /\
    (switch_occupation p tt dv y ts d_max = Ok p' -> adds_rule "switch" p p')) /\
  (forall rule n, In rule rule_names -> starts_with (rule ++ "_") n -> get_placeholder n = Ok rule) /\
  (forall ts tt d_max cat p, create_linear_problem ts tt d_max cat = Ok p ->
     NoDup (dkeys (p_constraints p)) /\
     forall n c, In (n, c) (p_constraints p) ->
       exists rule, In rule rule_names /\ starts_with (rule ++ "_") n /\ get_placeholder n = Ok rule).
Proof.
  split; [exact stages_named|]. split; [exact placeholder_of_rule|].
  intros ts tt d cat p Hp. split; [exact (names_nodup _ _ _ _ _ Hp)|]. intros n c Hc.
  destruct (every_name _ _ _ _ _ _ _ Hp Hc) as (rule & HR & HS). exists rule.
  split; [exact HR|]. split; [exact HS|]. exact (placeholder_of_rule rule n HR HS).
Qed.
Print Assumptions C16_rule_names.

(** The rules of the 28 constraints of the five-train problem, in order *)
Example C16_case : mapM (fun nc => get_placeholder (fst nc)) (p_constraints five_p) = Ok
  (repeat "minimal_span" 4 ++ repeat "minimal_stay" 4 ++ repeat "single_line" 2 ++
   repeat "track_occupation" 5 ++ repeat "circulation" 1 ++ repeat "switch" 12).
Proof. vm_compute. reflexivity. Qed.

(** ** C24 *)

Theorem C24_encoding :
  (forall label lo up,
     ((exists a, log_enc label lo up = Ok a) <-> (lo < up)%Z) /\
     forall a, log_enc label lo up = Ok a ->
       (forall f, boolean f -> exists z, (lo <= z <= up)%Z /\ lin_value a f == inject_Z z) /\
       (forall z, (lo <= z <= up)%Z -> exists f, boolean f /\ lin_value a f == inject_Z z)) /\
  (forall v a, var_form v = Ok a ->
     (forall f, boolean f -> var_ok v (lin_value a f)) /\
     (forall q, var_ok v q -> exists f, boolean f /\ lin_value a f == q)).
Proof.
  split.
  - intros label lo up. split.
    + unfold log_enc. destruct (Z.leb_spec up lo); split; try lia; try (intros (a & Ha); discriminate); eauto.
    + intros a Ha. split; intros; [eapply log_range|eapply log_cover]; eassumption.
  - intros v a Ha. split; intros; [eapply var_form_range|eapply var_form_cover]; eassumption.
Qed.
Print Assumptions C24_encoding.

(** 3 to 13 needs four bits, the last one worth 3: all ones is 13 *)
Example C24_case : log_enc "d" 3 13 = Ok (MkLin [("d[0]", 1); ("d[1]", 2); ("d[2]", 4); ("d[3]", 3)] 3) /\
  lin_value (MkLin [("d[0]", 1); ("d[1]", 2); ("d[2]", 4); ("d[3]", 3)] 3) (fun _ => 1) == 13.
Proof. split; vm_compute; reflexivity. Qed.

(** ** Problems made by create_linear_problem meet the conditions below *)

Theorem created_conditions : forall ts tt d_max cat p,
  reserved_free ts -> create_linear_problem ts tt d_max cat = Ok p ->
  consistent p /\ apart p /\ (plain_names ts -> names_distinct p) /\
  (integral_times tt -> is_int d_max -> integer_coefficients p).
Proof.
  intros ts tt d cat p RF Hp. split; [exact (created_consistent _ _ _ _ _ RF Hp)|].
  split; [exact (created_apart _ _ _ _ _ RF Hp)|]. split; [exact (created_names _ _ _ _ _ RF Hp)|].
  exact (created_integer_coefficients _ _ _ _ _ Hp).
Qed.
Print Assumptions created_conditions.

(** ** C25 *)

Lemma one_row p m s e d e' : interpreter p m [(s, e)] = Ok [(d, e')] -> decode_row p m s = Ok d.
Proof.
  unfold interpreter, data, sorted_by. cbn. intros H. destruct (decode_row p m s) as [d'|]; cbn in H; [|discriminate].
  inversion H. reflexivity.
Qed.

Lemma penalties_zero p pdict x slack :
  (forall n c, In (n, c) (p_constraints p) -> 0 < weight pdict (rule_of n)) ->
  0 <= penalties p pdict x slack /\
  (penalties p pdict x slack == 0 <-> forall n c, In (n, c) (p_constraints p) -> defect c x (slack n) == 0).
Proof.
  unfold penalties. induction (p_constraints p) as [|[n c] l IH]; intros HW; unfold qsum in *; cbn [map fold_right fst snd].
  - split; [lra|]. split; [intros _ n c []|reflexivity].
  - destruct IH as [I1 I2]; [intros k e He; apply (HW k e); right; exact He|].
    pose proof (HW n c (or_introl eq_refl)) as W.
    assert (SQ : 0 <= defect c x (slack n) * defect c x (slack n)) by nra. split; [nra|]. split.
    + intros E k e [H|H].
      * inversion H; subst. destruct (Qeq_dec (defect e x (slack k)) 0) as [|N]; [assumption|].
        assert (0 < defect e x (slack k) * defect e x (slack k)).
        { destruct (Qlt_le_dec 0 (defect e x (slack k))); [nra|].
          assert (defect e x (slack k) < 0) by (destruct (Qlt_le_dec (defect e x (slack k)) 0); [assumption|exfalso; apply N; lra]). nra. }
        nra.
      * apply I2; [nra|exact H].
    + intros H. rewrite (proj2 I2) by (intros k e He; apply H; right; exact He).
      rewrite (H n c) by (left; reflexivity). lra.
Qed.

Theorem C25_energy : forall p pdict b interp,
  consistent p -> apart p -> convert_to_bqm p pdict = Ok (b, interp) ->
  forall s, sample_of b s ->
  exists d slack, (forall e, interp [(s, e)] = Ok [(d, e)]) /\
    (forall n c, In (n, c) (p_constraints p) -> c_sense c <> EQ -> slack_of s n (slack n)) /\
    energy b s == weight pdict "objective" * obj_value p (values d) + penalties p pdict (values d) slack /\
    ((forall n c, In (n, c) (p_constraints p) -> 0 < weight pdict (rule_of n)) ->
       weight pdict "objective" * obj_value p (values d) <= energy b s /\
       (energy b s == weight pdict "objective" * obj_value p (values d) <->
          forall n c, In (n, c) (p_constraints p) -> defect c (values d) (slack n) == 0) /\
       (energy b s == weight pdict "objective" * obj_value p (values d) -> feasible p (values d))).
Proof.
  intros p pdict b interp HC HA H s HS. destruct (bqm_split _ _ _ _ H) as (m & CM & CB & ->).
  destruct (model_built p m CM HC HA) as (t & Hs & Ho & BT).
  destruct (decode_decoded p m pdict b CM CB HC HA s HS) as (d & Hd & _).
  pose proof (energy_value p m pdict b CB HC HA t Hs Ho BT s HS d Hd) as EE.
  exists d, (slack_value p s). split; [intros e; apply interpreter_one; exact Hd|].
  assert (SL : forall n c, In (n, c) (p_constraints p) -> c_sense c <> EQ -> slack_of s n (slack_value p s n)).
  { intros n c Hc NE. destruct (forall2_in _ _ _ _ (b_cons _ _ _ _ _ BT) Hc) as (sm & _ & ph & e & a & fo & _ & _ & _ & SF & _).
    cbn [fst snd] in SF. destruct SF as [S|ub a _ Hu Ha]; [congruence|].
    destruct (slack_value_ok p HA s n c ub a Hc Hu Ha) as [E R]. exists ub. split; [|split; [exact R|]].
    - unfold log_enc in Ha. destruct (Z.leb_spec ub 0); [discriminate|lia].
    - rewrite E, (log_encoded _ _ _ _ s Ha), Z.sub_0_r. reflexivity. }
  split; [exact SL|]. split; [exact EE|]. intros HW.
  destruct (penalties_zero p pdict (values d) (slack_value p s) HW) as [P1 P2].
  assert (EQV : energy b s == weight pdict "objective" * obj_value p (values d) <->
          forall n c, In (n, c) (p_constraints p) -> defect c (values d) (slack_value p s n) == 0).
  { rewrite <- P2, EE. split; intros; lra. }
  split; [lra|]. split; [exact EQV|]. intros E. split.
  - intros n c Hc. apply (defect_holds p n c (values d) (slack_value p s n)); [apply slack_value_nonneg; exact HA|exact Hc|].
    apply EQV; assumption.
  - exact (decoded_in_range p m pdict b CM CB HC HA s d HS Hd).
Qed.
Print Assumptions C25_energy.

(** ** C26 *)

Theorem C26_ground_state : forall p pdict b interp,
  consistent p -> apart p -> names_distinct p -> integer_coefficients p ->
  convert_to_bqm p pdict = Ok (b, interp) ->
  0 < weight pdict "objective" ->
  (forall n c x y, In (n, c) (p_constraints p) -> in_range p x -> in_range p y ->
     weight pdict "objective" * (obj_value p x - obj_value p y) < weight pdict (rule_of n)) ->
  (exists x, feasible p x) ->
  forall s e d, ground b s -> interp [(s, e)] = Ok [(d, e)] -> optimal p (values d).
Proof.
  intros p pdict b interp HC HA HD HI H HW HP HF s e d [HS HM] Hd.
  destruct (bqm_split _ _ _ _ H) as (m & CM & CB & ->). apply one_row in Hd.
  exact (ground_state p m pdict b CM CB HC HA HD HI s d HW HP HF HS HM Hd).
Qed.
Print Assumptions C26_ground_state.

(** For created problems the weighted objective spreads over at most the sum of the weights. *)
Theorem C26_created : forall ts tt d_max p pdict b interp,
  reserved_free ts -> plain_names ts -> integral_times tt -> is_int d_max -> 0 < d_max ->
  nonneg_weights tt -> NoDup (dkeys (tt_weights tt)) ->
  create_linear_problem ts tt d_max Integer = Ok p -> convert_to_bqm p pdict = Ok (b, interp) ->
  0 < weight pdict "objective" ->
  (forall rule, In rule rule_names ->
     weight pdict "objective" * qsum (map snd (tt_weights tt)) < weight pdict rule) ->
  (exists x, feasible p x) ->
  forall s e d, ground b s -> interp [(s, e)] = Ok [(d, e)] -> optimal p (values d).
Proof.
  intros ts tt d p pdict b interp RF PN HI Hd Pos HW ND Hp H HO HP HF.
  destruct (created_conditions _ _ _ _ _ RF Hp) as (HC & HA & HD & HIC).
  apply (C26_ground_state p pdict b interp HC HA (HD PN) (HIC HI Hd) H HO); [|exact HF].
  intros n c x y Hc Hx Hy.
  pose proof (obj_nonneg ts tt d Integer p y RF Hp Pos HW Hy) as Y.
  pose proof (obj_upper ts tt d Integer p x RF Hp Pos HW Hx PN ND) as X.
  destruct (every_name _ _ _ _ _ _ _ Hp Hc) as (rule & HR & HS).
  rewrite (placeholder_rule n rule (placeholder_of_rule rule n HR HS)) in *.
  specialize (HP rule HR). apply Qle_lt_trans with (weight pdict "objective" * qsum (map snd (tt_weights tt))); [|exact HP].
  rewrite !(Qmult_comm (weight pdict "objective")). apply Qmult_le_compat_r; lra.
Qed.
Print Assumptions C26_created.

(** ** C27 *)

Theorem C27_zero_penalty : forall p pdict b interp,
  consistent p -> apart p -> names_distinct p -> integer_coefficients p ->
  convert_to_bqm p pdict = Ok (b, interp) ->
  forall x, feasible p x ->
  exists s d slack, sample_of b s /\ (forall e, interp [(s, e)] = Ok [(d, e)]) /\
    (forall v, occurs p v -> values d (v_id v) == x (v_id v)) /\
    (forall n c, In (n, c) (p_constraints p) ->
       (c_sense c <> EQ -> slack_of s n (slack n)) /\ defect c (values d) (slack n) == 0) /\
    penalties p pdict (values d) slack == 0 /\
    energy b s == weight pdict "objective" * obj_value p x.
Proof.
  intros p pdict b interp HC HA HD HI H x HF. destruct (bqm_split _ _ _ _ H) as (m & CM & CB & EI).
  destruct (zero_penalty p m pdict b CM CB HC HA HD HI x HF) as (s & d & HS & Hd & HV & HZ & HE).
  destruct (model_built p m CM HC HA) as (t & Hs & Ho & BT).
  exists s, d, (slack_value p s). split; [exact HS|]. split; [intros e; rewrite EI; apply interpreter_one; exact Hd|].
  split; [exact HV|]. split; [|split; [|exact HE]].
  - intros n c Hc. split; [|exact (HZ n c Hc)]. intros NE.
    destruct (forall2_in _ _ _ _ (b_cons _ _ _ _ _ BT) Hc) as (sm & _ & ph & e & a & fo & _ & _ & _ & SF & _).
    cbn [fst snd] in SF. destruct SF as [S|ub a _ Hu Ha]; [congruence|].
    destruct (slack_value_ok p HA s n c ub a Hc Hu Ha) as [E R]. exists ub. split; [|split; [exact R|]].
    + unfold log_enc in Ha. destruct (Z.leb_spec ub 0); [discriminate|lia].
    + rewrite E, (log_encoded _ _ _ _ s Ha), Z.sub_0_r. reflexivity.
  - unfold penalties. assert (G : forall cs, (forall nc, In nc cs -> In nc (p_constraints p)) ->
       qsum (map (fun nc => weight pdict (rule_of (fst nc)) *
          (defect (snd nc) (values d) (slack_value p s (fst nc)) * defect (snd nc) (values d) (slack_value p s (fst nc)))) cs) == 0).
    { induction cs as [|[n c] cs IH]; intros Hin; unfold qsum in *; cbn [map fold_right fst snd]; [reflexivity|].
      rewrite IH by (intros; apply Hin; right; assumption).
      rewrite (HZ n c) by (apply Hin; left; reflexivity). lra. }
    apply G. auto.
Qed.
Print Assumptions C27_zero_penalty.

(** ** C29 *)

Theorem C29_decoding : forall p pdict b interp,
  consistent p -> apart p -> convert_to_bqm p pdict = Ok (b, interp) ->
  (forall samples, (forall s e, In (s, e) samples -> sample_of b s) ->
     exists out samples', interp samples = Ok out /\ Permutation samples samples' /\ ordered_by snd samples' /\
       Forall2 (fun se de => snd de = snd se /\ decoded p (fst se) (fst de)) samples' out) /\
  (names_distinct p -> forall x, in_range p x ->
     exists s d, sample_of b s /\ (forall e, interp [(s, e)] = Ok [(d, e)]) /\
       forall v, In v (variables p) -> values d (v_id v) == x (v_id v)).
Proof.
  intros p pdict b interp HC HA H. destruct (bqm_split _ _ _ _ H) as (m & CM & CB & ->). split.
  - exact (interpreter_rows p m pdict b CM CB HC HA).
  - intros HD x HR. destruct (encode_decode p m pdict b CM CB HC HA x HD HR) as (s & d & HS & Hd & HV).
    exists s, d. split; [exact HS|]. split; [intros e; apply interpreter_one; exact Hd|exact HV].
Qed.
Print Assumptions C29_decoding.

(** ** C54 *)

(** With integer times, and if each single inequality leaves room in the range of the delays, the conversion
    accepts the problem, and with penalties above the sum of the weights its ground states are exactly optimal
    plans; a problem one of whose inequalities leaves no room is refused. *)
Theorem C54_exact_partial : forall ts tt d_max p pdict,
  reserved_free ts -> plain_names ts -> integral_times tt -> is_int d_max -> 0 < d_max ->
  nonneg_weights tt -> NoDup (dkeys (tt_weights tt)) ->
  create_linear_problem ts tt d_max Integer = Ok p -> (exists v, In v (variables p)) ->
  all_penalties pdict ->
  0 < weight pdict "objective" ->
  (forall rule, In rule rule_names ->
     weight pdict "objective" * qsum (map snd (tt_weights tt)) < weight pdict rule) ->
  (leaves_room p ->
     exists b interp, convert_to_bqm p pdict = Ok (b, interp) /\
       ((exists x, feasible p x) ->
          (forall s e d, ground b s -> interp [(s, e)] = Ok [(d, e)] -> optimal p (values d)) /\
          (forall x, optimal p x -> exists s d, ground b s /\ (forall e, interp [(s, e)] = Ok [(d, e)]) /\
             forall v, occurs p v -> values d (v_id v) == x (v_id v)))) /\
  (~ leaves_room p -> forall b interp, convert_to_bqm p pdict <> Ok (b, interp)).
Proof.
  intros ts tt d p pdict RF PN HI Hd Pos HW ND Hp HV HPD HO HP.
  pose proof (created_accepted ts tt d p pdict RF Hp HI Hd Pos HV HPD) as ACC. split.
  - intros LR. destruct (proj2 ACC LR) as (b & i & H). exists b, i. split; [exact H|]. intros HF.
    destruct (created_conditions _ _ _ _ _ RF Hp) as (HC & HA & HD & HIC).
    pose proof (C26_created ts tt d p pdict b i RF PN HI Hd Pos HW ND Hp H HO HP HF) as GS. split; [exact GS|].
    intros x [Fx Ox]. destruct (C27_zero_penalty p pdict b i HC HA (HD PN) (HIC HI Hd) H x Fx)
      as (s & dd & slack & HS & Hdd & HVd & HZ & _ & HE).
    exists s, dd. split; [|split; [exact Hdd|exact HVd]]. split; [exact HS|]. intros s' HS'.
    destruct (C25_energy p pdict b i HC HA H s' HS') as (d' & slack' & Hd' & _ & E' & HPos).
    assert (PW : forall n c, In (n, c) (p_constraints p) -> weight pdict "objective" * qsum (map snd (tt_weights tt)) < weight pdict (rule_of n)).
    { intros n c Hc. destruct (every_name _ _ _ _ _ _ _ Hp Hc) as (rule & HR & HSt).
      rewrite (placeholder_rule n rule (placeholder_of_rule rule n HR HSt)). exact (HP rule HR). }
    assert (IR : forall x, feasible p x -> 0 <= obj_value p x /\ obj_value p x <= qsum (map snd (tt_weights tt))).
    { intros y [_ Hy]. split; [exact (obj_nonneg ts tt d Integer p y RF Hp Pos HW Hy)|].
      exact (obj_upper ts tt d Integer p y RF Hp Pos HW Hy PN ND). }
    destruct (IR x Fx) as [X0 X1].
    assert (PP : forall n c, In (n, c) (p_constraints p) -> 0 < weight pdict (rule_of n)).
    { intros n c Hc. specialize (PW n c Hc). nra. }
    destruct (HPos PP) as (L1 & L2 & L3). rewrite HE.
    destruct (bqm_split _ _ _ _ H) as (m & CM & CB & Ei).
    assert (Dd : decode_row p m s' = Ok d') by (specialize (Hd' 0); rewrite Ei in Hd'; exact (one_row _ _ _ _ _ _ Hd')).
    pose proof (decoded_in_range p m pdict b CM CB HC HA s' d' HS' Dd) as HR'.
    pose proof (obj_nonneg ts tt d Integer p (values d') RF Hp Pos HW HR') as Y0.
    destruct (Qlt_le_dec (weight pdict "objective" * obj_value p (values d') ) (energy b s')) as [LT|GE].
    + (* some defect: the penalty exceeds the objective of [x] *)
      destruct (penalties_zero p pdict (values d') slack' PP) as [P1 P2].
      assert (NZ : exists n c, In (n, c) (p_constraints p) /\ ~ defect c (values d') (slack' n) == 0).
      { assert (DEC : forall l, (exists n c, In (n, c) l /\ ~ defect c (values d') (slack' n) == 0) \/
                                (forall n c, In (n, c) l -> defect c (values d') (slack' n) == 0)).
        { induction l as [|[n c] l [(n0 & c0 & H0 & N0)|IH]].
          - right. intros n c [].
          - left. exists n0, c0. split; [right; exact H0|exact N0].
          - destruct (Qeq_dec (defect c (values d') (slack' n)) 0) as [Z|N].
            + right. intros n0 c0 [E|E]; [inversion E; subst; exact Z|auto].
            + left. exists n, c. split; [left; reflexivity|exact N]. }
        destruct (DEC (p_constraints p)) as [|A]; [assumption|exfalso].
        apply P2 in A. rewrite A in E'. lra. }
      destruct NZ as (n & c & Hc & N).
      pose proof (int_square _ (defect_int p m CM HC HA (HIC HI Hd) n c (values d') (slack' n) Hc HR') N) as SQ.
      pose proof (penalties_one p pdict (values d') slack' n c (fun n c Hc => Qlt_le_weak _ _ (PP n c Hc)) Hc) as PO.
      specialize (PW n c Hc). specialize (PP n c Hc).
      assert (W1 : weight pdict (rule_of n) <= weight pdict (rule_of n) * (defect c (values d') (slack' n) * defect c (values d') (slack' n))) by nra.
      assert (W2 : weight pdict "objective" * obj_value p x <= weight pdict "objective" * qsum (map snd (tt_weights tt))) by nra.
      assert (W3 : 0 <= weight pdict "objective" * obj_value p (values d')) by nra.
      lra.
    + assert (EE : energy b s' == weight pdict "objective" * obj_value p (values d')) by lra.
      specialize (Ox _ (L3 EE)). rewrite EE. nra.
  - intros NR b i H. apply NR. apply ACC. eauto.
Qed.
Print Assumptions C54_exact_partial.

(** ** Worked cases *)

(** Two trains leaving A for B with headways 2 and 3, delays up to 3 *)
Definition small_tt : timetable := MkTT [("1_A_B", 4); ("2_A_B", 5)] [("1_2_A_B", 2); ("2_1_A_B", 3)] [] [] (Some 1) []
  [("1_A", 0); ("2_A", 1)] [("1_A", 1); ("2_A", 2)].
Definition small_ts : train_sets := MkTS (Some [(I 1, B); (I 2, B)]) [(I 1, [A; B]); (I 2, [A; B])] [I 1; I 2]
  [(A, [(B, [[I 1; I 2]])])] [] [] [] [] None.
Definition small_p : lpproblem := ok_or (create_linear_problem small_ts small_tt 3 Integer) empty_problem.
Definition small_pd : dict string Q := map (fun r => (r, 4)) rule_names ++ [("objective", 1)].
Definition small_b : bqm := ok_or (do '(b, _) <- convert_to_bqm small_p small_pd; Ok b) empty_bqm.

Example small_reserved : reserved_free small_ts.
Proof. apply reserved_freeb_ok. vm_compute. reflexivity. Qed.
Example small_plain : plain_names small_ts.
Proof. apply plain_namesb_ok. vm_compute. reflexivity. Qed.
Example small_built : create_linear_problem small_ts small_tt 3 Integer = Ok small_p.
Proof. apply ok_or_ok. vm_compute. reflexivity. Qed.
Example small_integral : integral_times small_tt /\ is_int 3.
Proof.
  split; [|exists 3%Z; reflexivity].
  repeat split; intros; match goal with H : dget _ _ = Some _ |- _ => apply dget_in in H; cbn in H | H : _ = Some _ |- _ => cbn in H; inversion H; subst end;
    repeat match goal with H : _ \/ _ |- _ => destruct H as [H|H] | H : (_, _) = (_, _) |- _ => inversion H; subst; clear H | H : False |- _ => destruct H end;
    try (exists 0%Z; reflexivity); try (exists 1%Z; reflexivity); try (exists 2%Z; reflexivity); try (exists 3%Z; reflexivity);
    try (exists 4%Z; reflexivity); try (exists 5%Z; reflexivity).
Qed.

(** Eleven binary variables: two bits for each delay, the order, and three bits for each of the two slacks. *)
Example small_converted : exists interp, convert_to_bqm small_p small_pd = Ok (small_b, interp) /\
  dkeys (b_linear small_b) =
    ["Delays_2_A[0]"; "Delays_2_A[1]"; "Delays_1_A[0]"; "Delays_1_A[1]"; "y_1_2_one_station_A";
     "minimal_span_2_1_A_B[0]"; "minimal_span_2_1_A_B[1]"; "minimal_span_2_1_A_B[2]";
     "minimal_span_1_2_A_B[0]"; "minimal_span_1_2_A_B[1]"; "minimal_span_1_2_A_B[2]"].
Proof.
  destruct (convert_to_bqm small_p small_pd) as [[b i]|e] eqn:E.
  - exists i. assert (EB : b = small_b) by (unfold small_b; rewrite E; reflexivity). subst b.
    split; [reflexivity|]. vm_compute. reflexivity.
  - exfalso. assert (X : match convert_to_bqm small_p small_pd with Ok _ => true | Err _ => false end = true)
      by (vm_compute; reflexivity). rewrite E in X. discriminate.
Qed.

(** The second train one minute late, first train first: objective 2/3, both constraints met with slack 0 and 2. *)
Definition small_s : bits :=
  [("Delays_2_A[0]", true); ("Delays_2_A[1]", false); ("Delays_1_A[0]", false); ("Delays_1_A[1]", false);
   ("y_1_2_one_station_A", true);
   ("minimal_span_2_1_A_B[0]", false); ("minimal_span_2_1_A_B[1]", false); ("minimal_span_2_1_A_B[2]", false);
   ("minimal_span_1_2_A_B[0]", false); ("minimal_span_1_2_A_B[1]", true); ("minimal_span_1_2_A_B[2]", false)].

Example small_energy : energy small_b small_s == 2 # 3.
Proof. vm_compute. reflexivity. Qed.

Lemma small_conditions :
  consistent small_p /\ apart small_p /\ names_distinct small_p /\ integer_coefficients small_p.
Proof.
  destruct (created_conditions _ _ _ _ _ small_reserved small_built) as (H1 & H2 & H3 & H4).
  destruct small_integral as [I1 I2]. split; [exact H1|]. split; [exact H2|]. split; [exact (H3 small_plain)|exact (H4 I1 I2)].
Qed.

Definition small_x : assignment := table
  [(("Delays", [I 2; A]), 1); (("y", [I 1; I 2; PStr "one_station"; A]), 1)].

Example small_feasible : feasible small_p small_x.
Proof. apply feasibleb_ok. vm_compute. reflexivity. Qed.

Lemma small_variable : exists v, In v (variables small_p).
Proof. exists (MkVar "Delays" [I 1; A] (Some 0) (Some 3) Integer). vm_compute. auto. Qed.
Lemma small_penalties : all_penalties small_pd.
Proof. intros r Hr. vm_compute in Hr |- *. tauto. Qed.

Lemma small_room : leaves_room small_p.
Proof.
  destruct small_integral as [I1 I2].
  apply (created_accepted _ _ _ _ small_pd small_reserved small_built I1 I2); [reflexivity|exact small_variable|exact small_penalties|].
  destruct small_converted as (i & H & _). eauto.
Qed.

(** All hypotheses of C25-C29 and C54 hold for this problem; penalty 4 exceeds the sum 3 of the weights. *)
Example C26_case : exists interp, convert_to_bqm small_p small_pd = Ok (small_b, interp) /\
  (exists s d, ground small_b s /\ (forall e, interp [(s, e)] = Ok [(d, e)])) /\
  forall s e d, ground small_b s -> interp [(s, e)] = Ok [(d, e)] ->
    optimal small_p (values d) /\ obj_value small_p (values d) <= 2 # 3.
Proof.
  destruct small_converted as (i & H & _). exists i. split; [exact H|]. destruct small_integral as [I1 I2].
  assert (NW : nonneg_weights small_tt).
  { intros k w Hk. apply dget_in in Hk. cbn in Hk.
    repeat (destruct Hk as [Hk|Hk]; [inversion Hk; subst; discriminate|]). destruct Hk. }
  assert (PW : forall rule, In rule rule_names ->
     weight small_pd "objective" * qsum (map snd (tt_weights small_tt)) < weight small_pd rule).
  { intros rule HR. cbn [rule_names In] in HR. intuition subst; reflexivity. }
  assert (NDW : NoDup (dkeys (tt_weights small_tt))) by (cbn; repeat constructor; cbn; intuition discriminate).
  pose proof (C26_created _ _ _ _ _ _ _ small_reserved small_plain I1 I2 ltac:(reflexivity) NW NDW small_built H ltac:(reflexivity) PW
    (ex_intro _ small_x small_feasible)) as G.
  assert (HO : optimal small_p small_x).
  { split; [exact small_feasible|]. intros x [Fc Fv].
    (* the order decides which train waits: at least one minute for the second or four for the first *)
    pose proof (Fc "minimal_span_2_1_A_B" _ (or_introl eq_refl)) as K1.
    pose proof (Fc "minimal_span_1_2_A_B" _ (or_intror (or_introl eq_refl))) as K2.
    pose proof (Fv (MkVar "Delays" [I 1; A] (Some 0) (Some 3) Integer) ltac:(vm_compute; auto)) as (A1 & A2 & [z1 A3]); [reflexivity|].
    pose proof (Fv (MkVar "Delays" [I 2; A] (Some 0) (Some 3) Integer) ltac:(vm_compute; auto)) as (B1 & B2 & [z2 B3]); [reflexivity|].
    pose proof (Fv (MkVar "y" [I 1; I 2; PStr "one_station"; A] (Some 0) (Some 1) Integer) ltac:(vm_compute; auto)) as (Y1 & Y2 & [zy Y3]); [reflexivity|].
    specialize (A1 _ eq_refl). specialize (A2 _ eq_refl). specialize (B1 _ eq_refl). specialize (B2 _ eq_refl).
    specialize (Y1 _ eq_refl). specialize (Y2 _ eq_refl).
    unfold v_id in *. cbn [v_prefix v_index] in *.
    set (u := x ("Delays", [I 1; A])) in *. set (w := x ("Delays", [I 2; A])) in *.
    set (y := x ("y", [I 1; I 2; PStr "one_station"; A])) in *.
    assert (OV : obj_value small_p x == (1 # 3) * u + (2 # 3) * w).
    { unfold obj_value, eval, eval_terms.
      change (p_objective small_p) with (MkAff [(MkVar "Delays" [I 1; A] (Some 0) (Some 3) Integer, 1 # 3);
        (MkVar "Delays" [I 2; A] (Some 0) (Some 3) Integer, 2 # 3)] (0 # 9)).
      unfold qsum. cbn [a_terms a_const map fold_right fst snd]. unfold v_id. cbn [v_prefix v_index]. fold u w. lra. }
    rewrite OV. assert (OX : obj_value small_p small_x == 2 # 3) by (vm_compute; reflexivity). rewrite OX.
    change (0 <= (1 * w + (-1 * u + (-4 * y + 0))) + 3) in K1.
    change (0 <= (1 * u + (-1 * w + (7 * y + 0))) + -4) in K2.
    assert (R : (0 <= zy <= 1)%Z).
    { split; rewrite Zle_Qle; [change (inject_Z 0) with 0|change (inject_Z 1) with 1]; lra. }
    assert (zy = 0 \/ zy = 1)%Z as [->| ->] by lia.
    - change (inject_Z 0) with 0 in Y3. lra.
    - change (inject_Z 1) with 1 in Y3. lra. }
  destruct (proj1 (C54_exact_partial _ _ _ _ small_pd small_reserved small_plain I1 I2 ltac:(reflexivity) NW NDW small_built
     small_variable small_penalties ltac:(reflexivity) PW) small_room) as (b & i' & H' & R).
  rewrite H in H'. inversion H'; subst b i'. destruct (R (ex_intro _ small_x small_feasible)) as [_ R2]. split.
  - destruct (R2 small_x HO) as (s & d & HG & Hd & _). exists s, d. split; assumption.
  - intros s e d HG Hd. pose proof (G s e d HG Hd) as O. split; [exact O|].
    apply Qle_trans with (obj_value small_p small_x); [apply O, small_feasible|]. vm_compute. discriminate.
Qed.

(** The small problem and its zero-penalty sample *)
Example C25_case : exists interp d, convert_to_bqm small_p small_pd = Ok (small_b, interp) /\ 
  sample_of small_b small_s /\ interp [(small_s, 0)] = Ok [(d, 0)] /\ d = [("Delays_1_A", 0); ("Delays_2_A", 1); ("y_1_2_one_station_A", 1)].
Proof.
  unfold small_b. destruct (convert_to_pyqubo small_p) as [m|e] eqn:EM; [|exfalso; vm_compute in EM; discriminate].
  destruct small_converted as (i & H & K). fold small_b. exists i. eexists. split; [exact H|].
  split; [|split; [|reflexivity]].
  - split; [|intros k; rewrite K; reflexivity]. cbn. repeat constructor; cbn; intuition discriminate.
  - destruct (bqm_split _ _ _ _ H) as (m' & CM & _ & ->). vm_compute in CM. inversion CM; subst. vm_compute. reflexivity.
Qed.

(** ** Findings: where the full claim C54 fails *)

(** A turnaround so tight that the returning train must use its whole delay: the plan exists, the range of the
    slack is empty, and the conversion fails on an assertion of PyQUBO. *)
Definition tight_tt : timetable := MkTT [("1_A_B", 4); ("2_B_A", 4)] [] [] [("2_B", 2)] (Some 1) []
  [("1_A", 0); ("2_B", 3)] [("1_A", 1); ("2_B", 1)].
Definition tight_ts : train_sets := MkTS (Some [(I 1, B); (I 2, A)]) [(I 1, [A; B]); (I 2, [B; A])] [I 1; I 2]
  [] [] [(B, [(I 1, I 2)])] [] [] None.
Definition tight_p : lpproblem := ok_or (create_linear_problem tight_ts tight_tt 3 Integer) empty_problem.

Theorem C54_refused_refuted :
  create_linear_problem tight_ts tight_tt 3 Integer = Ok tight_p /\ reserved_free tight_ts /\ plain_names tight_ts /\
  (exists x, feasible tight_p x) /\ forall pdict, convert_to_bqm tight_p pdict = Err AssertionError.
Proof.
  split; [apply ok_or_ok; vm_compute; reflexivity|]. split; [apply reserved_freeb_ok; vm_compute; reflexivity|].
  split; [apply plain_namesb_ok; vm_compute; reflexivity|]. split.
  - exists (table [(("Delays", [I 2; B]), 3)]). apply feasibleb_ok. vm_compute. reflexivity.
  - intros pdict. unfold convert_to_bqm.
    assert (E : convert_to_pyqubo tight_p = Err AssertionError) by (vm_compute; reflexivity). rewrite E. reflexivity.
Qed.
Print Assumptions C54_refused_refuted.

(** Headways of a minute and a half: the conversion succeeds, but no whole number closes the gap of a headway
    that is kept, and one that falls short by half a minute costs no more.  Whatever the positive penalties, the
    ground state is not a feasible plan. *)
Definition frac_tt : timetable := MkTT [("1_A_B", 4); ("2_A_B", 4)] [("1_2_A_B", 3 # 2); ("2_1_A_B", 3 # 2)] [] [] (Some 1) []
  [("1_A", 0); ("2_A", 0)] [("1_A", 1); ("2_A", 1)].
Definition frac_ts : train_sets := small_ts.
Definition frac_p : lpproblem := ok_or (create_linear_problem frac_ts frac_tt 3 Integer) empty_problem.

Definition frac_v (z : Z) : lpvar := MkVar "Delays" [I z; A] (Some 0) (Some 3) Integer.
Definition frac_y : lpvar := MkVar "y" [I 1; I 2; PStr "one_station"; A] (Some 0) (Some 1) Integer.

Lemma frac_problem : exists k1 k2 k3,
  frac_p = MkProb
    [("minimal_span_2_1_A_B", MkConstr (MkAff [(frac_v 2, 1); (frac_v 1, -1); (frac_y, -9 # 2)] k1) GE);
     ("minimal_span_1_2_A_B", MkConstr (MkAff [(frac_v 1, 1); (frac_v 2, -1); (frac_y, 9 # 2)] k2) GE)]
    (MkAff [(frac_v 1, 1 # 3); (frac_v 2, 1 # 3)] k3) /\ k1 == 3 /\ k2 == - (3 # 2) /\ k3 == 0.
Proof. exists (12 # 4), (-6 # 4), (0 # 9). split; [vm_compute; reflexivity|]. repeat split; reflexivity. Qed.

Lemma frac_built : create_linear_problem frac_ts frac_tt 3 Integer = Ok frac_p.
Proof. apply ok_or_ok. vm_compute. reflexivity. Qed.

(** Objective and penalties in terms of the two delays, the order and the two slacks *)
Lemma frac_objective x :
  obj_value frac_p x == (1 # 3) * x (v_id (frac_v 1)) + (1 # 3) * x (v_id (frac_v 2)).
Proof.
  destruct frac_problem as (k1 & k2 & k3 & -> & _ & _ & E). unfold obj_value, eval, eval_terms, qsum.
  cbn [p_objective a_terms a_const map fold_right fst snd]. rewrite E. lra.
Qed.

Definition frac_gap1 (x : assignment) (z : Z) : Q :=
  x (v_id (frac_v 2)) - x (v_id (frac_v 1)) - (9 # 2) * x (v_id frac_y) + 3 - inject_Z z.
Definition frac_gap2 (x : assignment) (z : Z) : Q :=
  x (v_id (frac_v 1)) - x (v_id (frac_v 2)) + (9 # 2) * x (v_id frac_y) - (3 # 2) - inject_Z z.

Lemma frac_penalties pdict x slack :
  penalties frac_p pdict x slack ==
  weight pdict "minimal_span" *
    (frac_gap1 x (slack "minimal_span_2_1_A_B") * frac_gap1 x (slack "minimal_span_2_1_A_B") +
     frac_gap2 x (slack "minimal_span_1_2_A_B") * frac_gap2 x (slack "minimal_span_1_2_A_B")).
Proof.
  destruct frac_problem as (k1 & k2 & k3 & -> & E1 & E2 & _). unfold penalties.
  cbn [p_constraints map fst snd]. change (rule_of "minimal_span_2_1_A_B") with "minimal_span".
  change (rule_of "minimal_span_1_2_A_B") with "minimal_span".
  unfold qsum, defect, eval, eval_terms, qsum. cbn [c_sense c_aff a_terms a_const map fold_right fst snd].
  rewrite E1, E2. unfold frac_gap1, frac_gap2. ring.
Qed.

Lemma frac_range x : in_range frac_p x ->
  exists u w y : Z, x (v_id (frac_v 1)) == inject_Z u /\ x (v_id (frac_v 2)) == inject_Z w /\ x (v_id frac_y) == inject_Z y /\
    (0 <= u <= 3)%Z /\ (0 <= w <= 3)%Z /\ (0 <= y <= 1)%Z.
Proof.
  intros HR.
  assert (V : forall v, In v (variables frac_p) -> forall up : Z, v_lo v = Some 0 -> v_up v = Some (inject_Z up) -> v_cat v = Integer ->
            exists z, x (v_id v) == inject_Z z /\ (0 <= z <= up)%Z).
  { intros v Hv up Hl Hu C. destruct (HR v Hv) as (R1 & R2 & R3). destruct (R3 C) as [z Hz]. exists z. split; [exact Hz|].
    specialize (R1 _ Hl). specialize (R2 _ Hu). rewrite Hz in R1, R2. split; rewrite Zle_Qle; assumption. }
  destruct (V (frac_v 1) ltac:(vm_compute; auto) 3%Z eq_refl eq_refl eq_refl) as (u & Eu & Ru).
  destruct (V (frac_v 2) ltac:(vm_compute; auto) 3%Z eq_refl eq_refl eq_refl) as (w & Ew & Rw).
  destruct (V frac_y ltac:(vm_compute; auto) 1%Z eq_refl eq_refl eq_refl) as (y & Ey & Ry).
  exists u, w, y. auto 10.
Qed.

Lemma inject_Z_sub (a b : Z) : inject_Z (a - b) == inject_Z a - inject_Z b.
Proof. unfold Z.sub. rewrite inject_Z_plus, inject_Z_opp. reflexivity. Qed.

Lemma half_square a (z : Z) : a == inject_Z z + (1 # 2) -> 1 # 4 <= a * a.
Proof.
  intros ->. assert (z <= -1 \/ 0 <= z)%Z as [H|H] by lia; rewrite Zle_Qle in H.
  - change (inject_Z (-1)) with (-1) in H. nra.
  - change (inject_Z 0) with 0 in H. nra.
Qed.

Theorem C54_fractional_refuted :
  create_linear_problem frac_ts frac_tt 3 Integer = Ok frac_p /\ (exists x, feasible frac_p x) /\
  forall pdict, all_penalties pdict ->
    0 < weight pdict "objective" -> 0 < weight pdict "minimal_span" ->
    exists b interp, convert_to_bqm frac_p pdict = Ok (b, interp) /\
      forall s e d, ground b s -> interp [(s, e)] = Ok [(d, e)] -> ~ feasible frac_p (values d).
Proof.
  split; [exact frac_built|]. split.
  { exists (table [(("Delays", [I 2; A]), 2); (("y", [I 1; I 2; PStr "one_station"; A]), 1)]).
    apply feasibleb_ok. vm_compute. reflexivity. }
  intros pdict HP HO HM.
  destruct (created_conditions _ _ _ _ _ small_reserved frac_built) as (HC & HA & HD & _). specialize (HD small_plain).
  assert (CV : exists b interp, convert_to_bqm frac_p pdict = Ok (b, interp)).
  { unfold convert_to_bqm. destruct (convert_to_pyqubo frac_p) as [m|] eqn:CM; [|exfalso; vm_compute in CM; discriminate].
    cbn [bind]. destruct (to_bqm_total m pdict) as (b & ->); [|cbn [bind]; eauto].
    intros sm Hsm. pose proof (model_placeholders frac_p m CM (proj1 HA) sm Hsm) as HMp.
    assert (K : forall r, In r ("objective" :: rule_names) -> exists k, dget r pdict = Some k)
      by (intros r Hr; apply key_dget, HP, Hr).
    destruct sm as [ph a|ph a].
    - destruct HMp as (n & c & Hc & Hph).
      destruct (every_name _ _ _ _ _ _ _ frac_built Hc) as (rule & HR & HSt).
      rewrite (placeholder_of_rule rule n HR HSt) in Hph. inversion Hph; subst. apply K. right. exact HR.
    - subst ph. apply K. left. reflexivity. }
  destruct CV as (b & i & H). exists b, i. split; [exact H|]. intros s e d [HS HG] Hd HF.
  destruct (bqm_split _ _ _ _ H) as (m & CM & CB & EI). subst i. apply one_row in Hd.
  destruct (model_built frac_p m CM HC HA) as (t & Hs & Ho & BT).
  (* a cheap sample: the second train leaves one minute after the first *)
  set (x1 := table [(("Delays", [I 2; A]), 1); (("y", [I 1; I 2; PStr "one_station"; A]), 1)]).
  set (z1 := fun n : string => if eqb n "minimal_span_1_2_A_B" then 2%Z else 0%Z).
  assert (R1 : in_range frac_p x1).
  { assert (HB : forallb (fun v => var_okb v (x1 (v_id v))) (variables frac_p) = true) by (vm_compute; reflexivity).
    rewrite forallb_forall in HB. intros v Hv. apply var_okb_ok. exact (HB v Hv). }
  destruct (encode frac_p m pdict b CM CB HC HA HD x1 z1 R1) as (s1 & HS1 & HV1 & HZ1).
  { intros n c ub Hc NE Hu. assert (ub = 6%Z).
    { vm_compute in Hc. destruct Hc as [Hc|[Hc|[]]]; inversion Hc; subst; vm_compute in Hu; congruence. }
    subst ub. unfold z1. destruct (eqb n _); lia. }
  destruct (decode_total frac_p m pdict b CB HC t Hs Ho BT s1 HS1) as (d1 & Hd1 & _ & _ & HVd1).
  assert (XV : forall v, In v (variables frac_p) -> values d1 (v_id v) == x1 (v_id v)).
  { intros v Hv. apply variables_occurs in Hv. destruct (b_forms _ _ _ _ _ BT v Hv) as (a & Hf & _).
    rewrite (HVd1 v a Hv Hf). apply HV1; assumption. }
  pose proof (XV (frac_v 1) ltac:(vm_compute; auto)) as X1. pose proof (XV (frac_v 2) ltac:(vm_compute; auto)) as X2.
  pose proof (XV frac_y ltac:(vm_compute; auto)) as X3.
  change (x1 (v_id (frac_v 1))) with 0 in X1. change (x1 (v_id (frac_v 2))) with 1 in X2.
  change (x1 (v_id frac_y)) with 1 in X3.
  pose proof (energy_value frac_p m pdict b CB HC HA t Hs Ho BT s1 HS1 d1 Hd1) as E1.
  rewrite frac_objective, frac_penalties in E1.
  assert (S1 : slack_value frac_p s1 "minimal_span_2_1_A_B" = 0%Z).
  { destruct frac_problem as (k1 & k2 & k3 & EP & _).
    refine (HZ1 "minimal_span_2_1_A_B" (MkConstr (MkAff [(frac_v 2, 1); (frac_v 1, -1); (frac_y, -9 # 2)] k1) GE) _ ltac:(discriminate)).
    rewrite EP. left. reflexivity. }
  assert (S2 : slack_value frac_p s1 "minimal_span_1_2_A_B" = 2%Z).
  { destruct frac_problem as (k1 & k2 & k3 & EP & _).
    refine (HZ1 "minimal_span_1_2_A_B" (MkConstr (MkAff [(frac_v 1, 1); (frac_v 2, -1); (frac_y, 9 # 2)] k2) GE) _ ltac:(discriminate)).
    rewrite EP. right. left. reflexivity. }
  rewrite S1, S2 in E1. unfold frac_gap1, frac_gap2 in E1. rewrite X1, X2, X3 in E1.
  change (inject_Z 0) with 0 in E1. change (inject_Z 2) with 2 in E1.
  (* any feasible sample *)
  pose proof (energy_value frac_p m pdict b CB HC HA t Hs Ho BT s HS d Hd) as E.
  rewrite frac_objective, frac_penalties in E. specialize (HG s1 HS1).
  destruct (frac_range (values d) (proj2 HF)) as (u & w & y & Eu & Ew & Ey & Ru & Rw & Ry).
  assert (K1 : 0 <= frac_gap1 (values d) 0 /\ 0 <= frac_gap2 (values d) 0).
  { destruct HF as [HF _]. destruct frac_problem as (k1 & k2 & k3 & EP & K1 & K2 & _). rewrite EP in HF.
    pose proof (HF _ _ (or_introl eq_refl)) as F1. pose proof (HF _ _ (or_intror (or_introl eq_refl))) as F2.
    unfold holds, eval, eval_terms, qsum in F1, F2. cbn [c_sense c_aff a_terms a_const map fold_right fst snd] in F1, F2.
    unfold frac_gap1, frac_gap2. change (inject_Z 0) with 0. rewrite K1 in F1. rewrite K2 in F2. split; lra. }
  destruct K1 as [K1 K2]. set (a := slack_value frac_p s "minimal_span_2_1_A_B") in *. set (c := slack_value frac_p s "minimal_span_1_2_A_B") in *.
  unfold frac_gap1 in K1, E. unfold frac_gap2 in K2, E. rewrite Eu, Ew, Ey in K1, K2, E. change (inject_Z 0) with 0 in K1, K2.
  set (g1 := inject_Z w - inject_Z u - (9 # 2) * inject_Z y + 3 - inject_Z a) in *.
  set (g2 := inject_Z u - inject_Z w + (9 # 2) * inject_Z y - (3 # 2) - inject_Z c) in *.
  assert (Q1 : 0 <= g1 * g1) by nra. assert (Q2 : 0 <= g2 * g2) by nra.
  assert (y = 0 \/ y = 1)%Z as [->| ->] by lia.
  - change (inject_Z 0) with 0 in *.
    assert (G2 : 1 # 4 <= g2 * g2).
    { apply (half_square g2 (u - w - 2 - c)%Z). unfold g2. rewrite !inject_Z_sub. change (inject_Z 2) with 2. lra. }
    assert (UW : (2 <= u - w)%Z).
    { assert (1 < u - w)%Z; [|lia]. rewrite Zlt_Qlt, inject_Z_sub. change (inject_Z 1) with 1. lra. }
    assert (U2 : 2 <= inject_Z u + inject_Z w).
    { rewrite <- inject_Z_plus. change 2 with (inject_Z 2). rewrite <- Zle_Qle. lia. }
    nra.
  - change (inject_Z 1) with 1 in *.
    assert (G1 : 1 # 4 <= g1 * g1).
    { apply (half_square g1 (w - u - 2 - a)%Z). unfold g1. rewrite !inject_Z_sub. change (inject_Z 2) with 2. lra. }
    assert (UW : (2 <= w - u)%Z).
    { assert (1 < w - u)%Z; [|lia]. rewrite Zlt_Qlt, inject_Z_sub. change (inject_Z 1) with 1. lra. }
    assert (U2 : 2 <= inject_Z u + inject_Z w).
    { rewrite <- inject_Z_plus. change 2 with (inject_Z 2). rewrite <- Zle_Qle. lia. }
    nra.
Qed.
Print Assumptions C54_fractional_refuted.
