(** * Compare: problems built from related data

    Proofs of C10 (category of the delays), C11 (larger d_max) and C12 (moved times), and the
    closed form of the objective. *)

From Coq Require Import List String ZArith QArith Qround Bool Arith Lia Lqa.
From Verif Require Import Base Pulp Helpers LinearSolver BaseFacts Spec TreeFacts OrderVars
  Emit DelayVars Shapes Origin SpecFacts Sound Sim Rules SpecCompare.
Import ListNotations.
Open Scope string_scope.
Open Scope list_scope.

(** ** A built problem is the set of realised calls *)

Lemma built_calls ts tt d_max cat p :
  create_linear_problem ts tt d_max cat = Ok p ->
  exists dv y, delay_varibles ts d_max cat = Ok dv /\ order_variables ts = Ok y /\
    obj_aff tt dv ts d_max = Ok (p_objective p) /\
    (forall k, called ts k -> exists o, emit_of tt dv y ts d_max k = Ok o /\
       forall nc, o = Some nc -> In (constraint_name (fst nc), snd nc) (p_constraints p)) /\
    (forall nc, In nc (p_constraints p) ->
       exists k n, called ts k /\ emit_of tt dv y ts d_max k = Ok (Some (n, snd nc)) /\ fst nc = constraint_name n).
Proof.
  intros H. destruct (create_inv _ _ _ _ _ H) as (dv & y & H1 & H2 & H3 & _ & H4 & H5).
  exists dv, y. repeat split; auto.
  - intros k Hk.
    assert (Ho : origin tt dv y ts d_max (emit_of tt dv y ts d_max k)) by (apply origin_call; eauto).
    apply origin_emission in Ho; auto.
    destruct (emit_of tt dv y ts d_max k) as [o|e]; [|exfalso; eapply H4; eauto].
    exists o; split; auto. intros [n c] ->. rewrite H3. apply emitted_in. exact Ho.
  - intros nc Hnc. rewrite H3 in Hnc. apply in_somes in Hnc as (n & Hnc & En).
    apply emission_origin in Hnc as [[e He]|Ho]; [discriminate|].
    apply origin_call in Ho as (k & Hk & E). eauto 6.
Qed.

(** ** The objective *)

Definition path_pairs (ts : train_sets) : list (pv * pv) :=
  flat_map (fun j => map (pair j) (path_of ts j)) (ts_J ts).

Definition obj_term (tt : timetable) (d_max : Q) (x : assignment) (js : pv * pv) : Q :=
  penalty_weights tt (fst js) (snd js) / d_max * x (delay_id js).

Definition obj_facts (tt : timetable) (d_max : Q) (l : list (pv * pv)) (a0 a : aff) : Prop :=
  (forall x, eval a x == eval a0 x + qsum (map (obj_term tt d_max x) l)) /\
  (forall i, In i (aff_ids a) <-> In i (aff_ids a0) \/
     exists js, In js l /\ ~ penalty_weights tt (fst js) (snd js) == 0 /\ i = delay_id js) /\
  (forall js, In js l -> ~ penalty_weights tt (fst js) (snd js) == 0 -> ~ d_max == 0).

Lemma obj_facts_app tt d l m a b c :
  obj_facts tt d l a b -> obj_facts tt d m b c -> obj_facts tt d (l ++ m) a c.
Proof.
  intros (H1 & H2 & H3) (G1 & G2 & G3). split; [|split].
  - intros x. rewrite map_app, qsum_app, G1, H1. ring.
  - intros i. rewrite G2, H2. split.
    + intros [[?|(js & ? & ? & ?)]|(js & ? & ? & ?)]; auto; right; exists js; rewrite in_app_iff; auto.
    + intros [?|(js & Hin & ? & ?)]; auto. apply in_app_iff in Hin as [?|?]; eauto 10.
  - intros js Hin. apply in_app_iff in Hin as [?|?]; eauto.
Qed.

Lemma obj_facts_nil tt d a : obj_facts tt d [] a a.
Proof.
  split; [|split].
  - intros x. cbn. ring.
  - intros i. split; auto. intros [?|(js & [] & _)]; auto.
  - intros js [].
Qed.

Section Objective.
  Variables (ts : train_sets) (tt : timetable) (d_max : Q) (cat : vcat) (dv : tree).
  Hypothesis Hdv : delay_varibles ts d_max cat = Ok dv.

  Lemma obj_add_facts a j s b :
    obj_add tt dv d_max a j s = Ok b -> obj_facts tt d_max [(j, s)] a b.
  Proof.
    unfold obj_add. cbv zeta. destruct (Qeq_bool (penalty_weights tt j s) 0) eqn:E; intros H.
    - apply Qeq_bool_eq in E. inversion H; subst. split; [|split].
      + intros x. unfold obj_term, Qdiv. cbn [map qsum fold_right fst snd]. rewrite E. ring.
      + intros i. split; auto. intros [?|(js & [<-|[]] & Hn & _)]; auto. contradiction.
      + intros js [<-|[]] Hn. contradiction.
    - inv_bind H. inv_bind H. inversion H; subst.
      assert (E' : ~ penalty_weights tt j s == 0).
      { intros X. apply Qeq_eq_bool in X. congruence. }
      assert (Hid := g2id ts d_max cat dv Hdv _ _ _ E0).
      unfold objective_term in E1. destruct (Qeq_bool d_max 0) eqn:Ed; [discriminate|].
      inversion E1; subst.
      split; [|split].
      + intros x. rewrite eval_add, !eval_scale, eval_var. unfold obj_term. cbn [map qsum fold_right fst snd].
        rewrite Hid. field. intros X. apply Qeq_eq_bool in X. congruence.
      + intros i. rewrite aff_add_ids, !aff_scale_ids, aff_var_ids, Hid. split.
        * intros [?|?]; auto. right. exists (j, s). cbn. auto.
        * intros [?|(js & [<-|[]] & _ & ->)]; auto.
      + intros js [<-|[]] _ X. apply Qeq_eq_bool in X. congruence.
  Qed.

  Lemma obj_inner j path : forall a b,
    foldM (fun acc s => obj_add tt dv d_max acc j s) path a = Ok b ->
    obj_facts tt d_max (map (pair j) path) a b.
  Proof.
    induction path as [|s path IH]; intros a b H; cbn [foldM] in H.
    - inversion H; subst. apply obj_facts_nil.
    - inv_bind H. cbn [map]. apply (obj_facts_app tt d_max [(j, s)] _ a a0 b); auto.
      apply obj_add_facts. exact E.
  Qed.

  Lemma obj_outer l : forall a b,
    foldM (fun acc i => do path <- dlookup i (ts_Paths ts);
             foldM (fun acc j => obj_add tt dv d_max acc i j) path acc) l a = Ok b ->
    obj_facts tt d_max (flat_map (fun j => map (pair j) (path_of ts j)) l) a b.
  Proof.
    induction l as [|j l IH]; intros a b H; cbn [foldM] in H.
    - inversion H; subst. apply obj_facts_nil.
    - inv_bind H. inv_bind E. apply dlookup_ok in E0. cbn [flat_map].
      eapply obj_facts_app; [|apply IH; exact H]. unfold path_of. rewrite E0. apply obj_inner. exact E.
  Qed.

  Theorem obj_closed a :
    obj_aff tt dv ts d_max = Ok a -> obj_facts tt d_max (path_pairs ts) (aff_const 0) a.
  Proof. apply obj_outer. Qed.
End Objective.

(** ** C12: moved times *)

Lemma edt_moved delta tt tt' S_ : moved_times delta tt tt' -> forall fuel j s,
  rsim (moved delta) (earliest_fuel fuel S_ tt j s) (earliest_fuel fuel S_ tt' j s).
Proof.
  intros (Hp & _ & Hs & _ & _ & _ & Hsc & Hin).
  assert (HM : forall k q q', moved delta q q' ->
            moved delta (max_opt (dget k (tt_schedule tt)) q) (max_opt (dget k (tt_schedule tt')) q')).
  { intros k q q' Hq. specialize (Hsc k). unfold moved, max_opt in *.
    destruct (dget k (tt_schedule tt)), (dget k (tt_schedule tt')); cbn in Hsc; try tauto.
    destruct (qmax_spec q0 q) as [[? E]|[? E]], (qmax_spec q1 q') as [[? E']|[? E']]; rewrite E, E'; lra. }
  induction fuel as [|fuel IH]; intros j s; cbn [earliest_fuel];
    specialize (Hin (key_js j s));
    destruct (dget (key_js j s) (tt_init tt)), (dget (key_js j s) (tt_init tt')); cbn in Hin; try tauto;
    try (apply HM; exact Hin).
  - apply rsim_same; intros path _. apply rsim_same; intros sp _.
    unfold tau_pass, tau_stop. rewrite Hp, Hs. apply rsim_same; intros tp _. apply rsim_same; intros st _.
    reflexivity.
  - apply rsim_same; intros path _. apply rsim_same; intros sp _.
    unfold tau_pass, tau_stop. rewrite Hp, Hs. apply rsim_same; intros tp _. apply rsim_same; intros st _.
    eapply rsim_bind; [apply IH|]. intros e e' He. apply HM. unfold moved in *. lra.
Qed.

Lemma Forall2_eq {A} (l l' : list A) : Forall2 eq l l' -> l = l'.
Proof. induction 1; congruence. Qed.

Theorem moved_problem ts tt tt' delta d_max cat :
  moved_times delta tt tt' ->
  rsim (psim eq) (create_linear_problem ts tt d_max cat) (create_linear_problem ts tt' d_max cat).
Proof.
  intros HT. rewrite !create_linear_problem_eq.
  apply rsim_same; intros dv Hdv. apply rsim_same; intros y Hy.
  assert (HT' := HT). destruct HT' as (H1 & H2 & H3 & H4 & H5 & H6 & _ & _).
  eapply (built_sim eq) with (delta := delta); auto.
  - intros; congruence.
  - intros j s. apply edt_moved. exact HT.
  - intros j s. apply rsim_refl; auto.
  - intros j. apply rsim_refl; auto.
Qed.

(** ** C11: larger d_max *)

Lemma get_M_pos L R d : 0 < get_M L R d.
Proof. unfold get_M. pose proof (qmax_r (R + d - L) 1). lra. Qed.

Lemma get_M_big L R d : R + d - L <= get_M L R d.
Proof. unfold get_M. apply qmax_l. Qed.

Lemma cond_suff L R d Da Db yq :
  Da <= d -> 0 <= Da -> Db <= d -> (yq == 0 \/ yq == 1) -> (yq == 0 -> R + Db <= L + Da) ->
  0 <= L + Da - (R + Db) + get_M L R d * yq.
Proof.
  intros H1 H2 H3 [E|E] H; rewrite E.
  - specialize (H E). lra.
  - pose proof (get_M_big L R d). lra.
Qed.

Section Larger.
  Variables (ts : train_sets) (tt : timetable) (d d' : Q) (cat : vcat) (p p' : lpproblem)
            (x : assignment).
  Hypothesis RF : reserved_free ts.
  Hypothesis Hd : 0 <= d.
  Hypothesis Hdd : d <= d'.
  Hypothesis Hp : create_linear_problem ts tt d cat = Ok p.
  Hypothesis Hp' : create_linear_problem ts tt d' cat = Ok p'.
  Hypothesis Hx : feasible p x.
  Let X := value_in p x.

  Lemma X_eq i : In i (map v_id (variables p)) -> X i = x i.
  Proof. apply value_in_present. Qed.

  Lemma X_delay a : 0 <= delay_of X a <= d.
  Proof.
    destruct a as [[j s]|]; cbn [delay_of]; [|split; lra].
    exact (delay_bounds ts tt d cat p x RF Hd Hp Hx j s).
  Qed.

  Lemma X_order i q : i = ("y", q) \/ i = ("z", q) -> X i == 0 \/ X i == 1.
  Proof.
    intros Hi. unfold X, value_in. destruct (lmem _ _) eqn:E; [|left; reflexivity].
    apply lmem_true in E. exact (order_binary ts tt d cat p x RF Hp Hx i q E Hi).
  Qed.

  Lemma X_reading y a : store_ok y -> reading y a -> eval a X == 0 \/ eval a X == 1.
  Proof.
    intros Hy (q & v & Hq & Ha).
    assert (HV : v_id v = ("y", q) \/ v_id v = ("z", q)).
    { apply (so_var _ Hy) in Hq. destruct Hq; subst; auto. }
    destruct (X_order (v_id v) q HV) as [E|E]; destruct Ha; subst a;
      rewrite ?eval_var, ?one_minus_eval, E; first [left; lra|right; lra].
  Qed.

  Lemma cond_order y : store_ok y -> forall k L R a b yv,
    rule_of tt y ts k = Ok (RCond L R a b (Ok yv)) -> eval yv X == 0 \/ eval yv X == 1.
  Proof.
    intros Hst k L R a b yv H. apply rule_reading in H as [H| ->]; [eapply X_reading; eauto|].
    left. apply eval_const.
  Qed.

  Lemma eval_X a : (forall i, In i (aff_ids a) -> In i (map v_id (variables p))) -> eval a X == eval a x.
  Proof.
    intros H. unfold eval. apply Qplus_inj_r. unfold aff_ids, aff_vars in H.
    rewrite map_map in H. unfold eval_terms.
    induction (a_terms a) as [|[w r] l IH]; [reflexivity|]. cbn [map qsum fold_right fst snd] in *.
    rewrite X_eq by (apply H; left; reflexivity). unfold qsum in IH. rewrite IH; [reflexivity|].
    intros i Hi. apply H; right; exact Hi.
  Qed.

  Lemma larger_vars i : In i (map v_id (variables p)) -> In i (map v_id (variables p')).
  Proof.
    destruct (built_calls _ _ _ _ _ Hp) as (dv & y & A1 & A2 & A3 & A4 & A5).
    destruct (built_calls _ _ _ _ _ Hp') as (dv' & y' & B1 & B2 & B3 & B4 & B5).
    assert (y' = y) by congruence; subst y'.
    rewrite !variables_ids. intros [Hi|(n & c & Hc & Hi)].
    - left. apply (obj_closed _ _ _ _ _ A1) in A3 as (_ & A3 & _).
      apply (obj_closed _ _ _ _ _ B1) in B3 as (_ & B3 & _). apply B3, A3. exact Hi.
    - right. destruct (A5 _ Hc) as (k & m0 & Hk & E & _). cbn [snd] in E. destruct (B4 _ Hk) as (o & E' & Ho).
      destruct (realise ts tt d cat dv y A1 _ _ Hk E) as (r & R1 & R2).
      destruct (realise ts tt d' cat dv' y B1 _ _ Hk E') as (r' & R1' & R2').
      assert (r' = r) by congruence; subst r'.
      inversion R2; subst; inversion R2'; subst.
      + exfalso. lra.
      + eexists _, c0. split; [apply (Ho _ eq_refl)|].
        match goal with H : forall i, In i (aff_ids (c_aff c)) <-> _, H' : forall i, In i (aff_ids (c_aff c0)) <-> _ |- _ =>
          apply H', H; exact Hi end.
      + eexists _, c0. split; [apply (Ho _ eq_refl)|].
        match goal with H : forall i, In i (aff_ids (c_aff c)) <-> _, H' : forall i, In i (aff_ids (c_aff c0)) <-> _ |- _ =>
          apply H', H; exact Hi end.
      + eexists _, c. split; [apply (Ho _ eq_refl)|exact Hi].
  Qed.

  Theorem larger_feasible : feasible p' X.
  Proof.
    destruct (built_calls _ _ _ _ _ Hp) as (dv & y & A1 & A2 & A3 & A4 & A5).
    destruct (built_calls _ _ _ _ _ Hp') as (dv' & y' & B1 & B2 & B3 & B4 & B5).
    assert (y' = y) by congruence; subst y'.
    assert (Hst : store_ok y) by (eapply order_variables_ok; eauto).
    split.
    - intros n c Hc. destruct (B5 _ Hc) as (k & m0 & Hk & E' & _). cbn [snd] in E'. destruct (A4 _ Hk) as (o & E & Ho).
      destruct (realise ts tt d cat dv y A1 _ _ Hk E) as (r & R1 & R2).
      destruct (realise ts tt d' cat dv' y B1 _ _ Hk E') as (r' & R1' & R2').
      assert (r' = r) by congruence; subst r'.
      assert (Hh : forall nc, o = Some nc -> holds (snd nc) X).
      { intros [m e] ->. pose proof (proj1 Hx (constraint_name m) e (Ho _ eq_refl)) as HH.
        assert (EE : eval (c_aff e) X == eval (c_aff e) x).
        { apply eval_X. intros i Hi. apply variables_ids. right. exists (constraint_name m), e. split; [exact (Ho _ eq_refl)|auto]. }
        unfold holds in *. cbn [snd]. destruct (c_sense e); rewrite EE; exact HH. }
      inversion R2' as [|L R a b yv Hle|L R a b yv m e Hlt Hs Hev Hid|L R a b m e Hs Hev Hid|e m]; subst;
        inversion R2 as [|L1 R3 a1 b1 yv1 Hle1|L1 R3 a1 b1 yv1 m1 e1 Hlt1 Hs1 Hev1 Hid1|L1 R3 a1 b1 m1 e1 Hs1 Hev1 Hid1|e1 m1]; subst.
      + (* dropped for d *)
        unfold holds. rewrite Hs, Hev. pose proof (X_delay a). pose proof (X_delay (Some b)).
        apply cond_suff; try lra. eapply cond_order; eauto.
      + unfold holds. rewrite Hs, Hev. pose proof (X_delay a). pose proof (X_delay (Some b)).
        assert (HO := cond_order y Hst _ _ _ _ _ _ R1).
        apply cond_suff; try lra.
        intros E0. specialize (Hh _ eq_refl). unfold holds in Hh. cbn [snd] in Hh.
        rewrite Hs1, Hev1, E0 in Hh. lra.
      + unfold holds. rewrite Hs, Hev. specialize (Hh _ eq_refl). unfold holds in Hh. cbn [snd] in Hh.
        rewrite Hs1, Hev1 in Hh. exact Hh.
      + exact (Hh _ eq_refl).
    - intros v Hv.
      assert (HC : canon ts d' cat v).
      { destruct (create_inv _ _ _ _ _ Hp') as (dv1 & y1 & H1 & H2 & H3 & _ & _ & H5).
        eapply variables_canon; eauto. }
      destruct HC as [(j & s & _ & ->)|(q & Hq)].
      + pose proof (X_delay (Some (j, s))) as HB. cbn [delay_of] in HB.
        change (v_id (delay_var_of j s d' cat)) with (delay_id (j, s)).
        split; [|split]; cbn [delay_var_of v_lo v_up v_cat].
        * intros lo El; inversion El; subst. apply HB.
        * intros up El; inversion El; subst. destruct HB. lra.
        * intros ->. unfold X, value_in.
          destruct (lmem _ _) eqn:E; [|exists 0%Z; reflexivity].
          apply lmem_true in E. apply in_map_iff in E as (w & Ew & Hw).
          destruct (create_inv _ _ _ _ _ Hp) as (dv1 & y1 & H1 & H2 & H3 & _ & _ & H5).
          assert (HCw : canon ts d Integer w) by (eapply variables_canon; eauto).
          destruct (proj2 Hx w Hw) as (_ & _ & HI). rewrite <- Ew. apply HI.
          destruct HCw as [(a & b & _ & ->)|(q & [->| ->])]; reflexivity.
      + assert (HB : X (v_id v) == 0 \/ X (v_id v) == 1).
        { apply (X_order _ q). destruct Hq; subst; auto. }
        assert (HV : v_lo v = Some 0 /\ v_up v = Some 1) by (destruct Hq; subst; auto).
        destruct HV as [V1 V2]. split; [|split].
        * intros lo El. rewrite V1 in El; inversion El; subst. destruct HB as [HB|HB]; rewrite HB; lra.
        * intros up El. rewrite V2 in El; inversion El; subst. destruct HB as [HB|HB]; rewrite HB; lra.
        * intros _. destruct HB as [HB|HB]; [exists 0%Z|exists 1%Z]; exact HB.
  Qed.

  Lemma qsum_ext {A} (f g : A -> Q) l : (forall z, In z l -> f z == g z) -> qsum (map f l) == qsum (map g l).
  Proof.
    induction l as [|z l IH]; intros H; [reflexivity|]. cbn [map qsum fold_right].
    rewrite (H z (or_introl eq_refl)). unfold qsum in IH. rewrite IH; [reflexivity|].
    intros; apply H; right; auto.
  Qed.

  Lemma qsum_scale {A} (f : A -> Q) k l : k * qsum (map f l) == qsum (map (fun z => k * f z) l).
  Proof.
    induction l as [|z l IH]; cbn [map qsum fold_right]; [ring|]. unfold qsum in IH. rewrite <- IH. ring.
  Qed.

  Theorem larger_objective : d' * obj_value p' X == d * obj_value p x.
  Proof.
    destruct (built_calls _ _ _ _ _ Hp) as (dv & y & A1 & A2 & A3 & _).
    destruct (built_calls _ _ _ _ _ Hp') as (dv' & y' & B1 & B2 & B3 & _).
    apply (obj_closed _ _ _ _ _ A1) in A3 as (A3 & A4 & A5).
    apply (obj_closed _ _ _ _ _ B1) in B3 as (B3 & B4 & B5).
    unfold obj_value. rewrite A3, B3, !eval_const, !Qplus_0_l, !qsum_scale.
    apply qsum_ext. intros js Hjs. unfold obj_term.
    destruct (Qeq_dec (penalty_weights tt (fst js) (snd js)) 0) as [E|E].
    - unfold Qdiv. rewrite E. ring.
    - rewrite X_eq.
      + field. split; [exact (A5 _ Hjs E)|exact (B5 _ Hjs E)].
      + apply variables_ids. left. apply A4. right. eauto.
  Qed.

  Theorem larger_departs j s t : departs ts tt p x j s t <-> departs ts tt p' X j s t.
  Proof.
    unfold departs. assert (E : value_in p' X ("Delays", [j; s]) = value_in p x ("Delays", [j; s])).
    { unfold value_in at 1. destruct (lmem _ (map v_id (variables p'))) eqn:E; [reflexivity|].
      unfold value_in. destruct (lmem _ (map v_id (variables p))) eqn:E1; [|reflexivity].
      apply lmem_true in E1. apply larger_vars in E1. apply lmem_false in E. contradiction. }
    rewrite E. reflexivity.
  Qed.
End Larger.

(** ** C10: the category of the delay variables *)

(** The same variable up to the category of a delay. *)
Definition recat (c c' : vcat) (v v' : lpvar) : Prop :=
  v = v' \/ exists j s d, v = delay_var_of j s d c /\ v' = delay_var_of j s d c'.

Lemma recat_id c c' v v' : recat c c' v v' -> v_id v = v_id v'.
Proof. intros [->|(j & s & d & -> & ->)]; reflexivity. Qed.

(** Trees of the same shape with related leaves. *)
Inductive same_tree (R : lpvar -> lpvar -> Prop) : tree -> tree -> Prop :=
| st_leaf v v' : R v v' -> same_tree R (TLeaf v) (TLeaf v')
| st_node e e' : same_entries R e e' -> same_tree R (TNode e) (TNode e')
with same_entries (R : lpvar -> lpvar -> Prop) : list (pv * tree) -> list (pv * tree) -> Prop :=
| se_nil : same_entries R [] []
| se_cons k t t' e e' : same_tree R t t' -> same_entries R e e' ->
    same_entries R ((k, t) :: e) ((k, t') :: e').

Section SameTree.
  Variable R : lpvar -> lpvar -> Prop.

  Lemma same_dget k e e' : same_entries R e e' ->
    match dget k e, dget k e' with
    | Some t, Some t' => same_tree R t t'
    | None, None => True
    | _, _ => False
    end.
  Proof.
    induction 1 as [|k' t t' e e' Ht He IH]; cbn [dget]; [exact I|].
    destruct (eq_dec k k'); auto.
  Qed.

  Lemma same_dset k t t' e e' : same_entries R e e' -> same_tree R t t' ->
    same_entries R (dset k t e) (dset k t' e').
  Proof.
    intros He Ht. induction He as [|k' u u' e e' Hu He IH]; cbn [dset].
    - constructor; auto. constructor.
    - destruct (eq_dec k k'); constructor; auto.
  Qed.

  Lemma same_single path v v' : R v v' -> same_tree R (single path v) (single path v').
  Proof.
    intros H. induction path as [|k path IH]; cbn; [constructor; auto|].
    constructor. constructor; auto. constructor.
  Qed.

  Lemma same_update path v v' : R v v' -> forall t t', same_tree R t t' ->
    rsim (same_tree R) (update_dictofdicts t (single path v)) (update_dictofdicts t' (single path v')).
  Proof.
    intros Hv. induction path as [|k path IH]; intros t t' Ht; [reflexivity|].
    destruct Ht as [w w' Hw|e e' He]; [reflexivity|]. rewrite !update_single_eq.
    pose proof (same_dget k e e' He) as HG. destruct (dget k e), (dget k e'); try tauto.
    - eapply rsim_bind; [apply IH; exact HG|]. intros c c' Hc. cbn. constructor. apply same_dset; auto.
    - cbn. constructor. apply same_dset; auto. apply same_single; auto.
  Qed.

  Lemma same_tlookup k t t' : same_tree R t t' -> rsim (same_tree R) (tlookup k t) (tlookup k t').
  Proof.
    intros [v v' Hv|e e' He]; cbn; [reflexivity|]. unfold dlookup.
    pose proof (same_dget k e e' He) as HG. destruct (dget k e), (dget k e'); cbn; tauto.
  Qed.

  Lemma same_tmem k t t' : same_tree R t t' -> tmem k t = tmem k t'.
  Proof.
    intros [v v' Hv|e e' He]; cbn; [reflexivity|]. unfold dmem.
    pose proof (same_dget k e e' He) as HG. destruct (dget k e), (dget k e'); cbn; tauto.
  Qed.

  Lemma same_get2 j s t t' : same_tree R t t' -> rsim R (get2 t j s) (get2 t' j s).
  Proof.
    intros H. unfold get2. eapply rsim_bind; [apply same_tlookup; exact H|]. intros a a' Ha.
    eapply rsim_bind; [apply same_tlookup; exact Ha|]. intros b b' Hb. destruct Hb; cbn; auto.
  Qed.
End SameTree.

Lemma delay_varibles_recat ts d c c' :
  rsim (same_tree (recat c c')) (delay_varibles ts d c) (delay_varibles ts d c').
Proof.
  unfold delay_varibles. apply rsim_foldM; [constructor; constructor|].
  intros t t' j _ Ht. apply rsim_same; intros path _. apply rsim_foldM; [exact Ht|].
  intros u u' s _ Hu. destruct (negb (skip_station j s ts) && _); [|exact Hu].
  apply same_update; auto. right. eauto.
Qed.

Theorem recat_problem ts tt d c c' :
  rsim (psim (recat c c')) (create_linear_problem ts tt d c) (create_linear_problem ts tt d c').
Proof.
  rewrite !create_linear_problem_eq. eapply rsim_bind; [apply delay_varibles_recat|].
  intros dv dv' Hdv. apply rsim_same; intros y _.
  eapply (built_sim (recat c c')) with (delta := 0); auto.
  - apply recat_id.
  - intros j s. apply rsim_refl. intros q. unfold moved. lra.
  - intros j s. apply same_get2. exact Hdv.
  - intros j. assert (H := same_tlookup _ j _ _ Hdv).
    destruct (tlookup j dv), (tlookup j dv'); cbn in *; auto. intros s. eapply same_tmem; eauto.
  - intros q v _. left. reflexivity.
Qed.

Lemma is_int_plus a b : is_int a -> is_int b -> is_int (a + b).
Proof. intros [u Hu] [v Hv]. exists (u + v)%Z. rewrite inject_Z_plus, Hu, Hv. reflexivity. Qed.

Lemma is_int_max o q : (forall s, o = Some s -> is_int s) -> is_int q -> is_int (max_opt o q).
Proof.
  intros Ho Hq. destruct o as [s|]; [|exact Hq]. cbn. destruct (qmax_spec s q) as [[_ E]|[_ E]]; rewrite E; auto.
Qed.

Section Integral.
  Variables (ts : train_sets) (tt : timetable) (y : tree).
  Hypothesis HI : integral_times tt.

  Lemma int_pass j s sp q : tau_pass tt j s sp = Ok q -> is_int q.
  Proof. intros H. apply dlookup_ok in H. destruct HI as (H1 & _). eauto. Qed.
  Lemma int_headway j jp s sp q : tau_headway tt j jp s sp = Ok q -> is_int q.
  Proof. intros H. apply dlookup_ok in H. destruct HI as (_ & H1 & _). eauto. Qed.
  Lemma int_stop j s q : tau_stop tt j s = Ok q -> is_int q.
  Proof. intros H. apply dlookup_ok in H. destruct HI as (_ & _ & H1 & _). eauto. Qed.
  Lemma int_prep j s q : tau_prep tt j s = Ok q -> is_int q.
  Proof. intros H. apply dlookup_ok in H. destruct HI as (_ & _ & _ & H1 & _). eauto. Qed.
  Lemma int_res q : tau_res tt = Ok q -> is_int q.
  Proof.
    unfold tau_res. intros H. destruct HI as (_ & _ & _ & _ & H1 & _).
    destruct (tt_res tt) eqn:E; inversion H; subst. auto.
  Qed.

  Lemma int_fuel S_ fuel : forall j s q, earliest_fuel fuel S_ tt j s = Ok q -> is_int q.
  Proof.
    destruct HI as (_ & _ & _ & _ & _ & H1 & H2).
    induction fuel as [|fuel IH]; intros j s q H; cbn [earliest_fuel] in H;
      destruct (dget (key_js j s) (tt_init tt)) eqn:E.
    - inversion H; subst. apply is_int_max; eauto.
    - inv_bind H. inv_bind H. inv_bind H. inv_bind H. discriminate.
    - inversion H; subst. apply is_int_max; eauto.
    - inv_bind H. inv_bind H. inv_bind H. inv_bind H. inv_bind H. inversion H; subst.
      apply is_int_max; eauto. apply is_int_plus; [apply is_int_plus|].
      + eapply IH; eauto.
      + eapply int_pass; eauto.
      + eapply int_stop; eauto.
  Qed.

  Lemma int_edt j s q : earliest_dep_time (ts_Paths ts) tt j s = Ok q -> is_int q.
  Proof. apply int_fuel. Qed.

  Definition rule_int (r : rule) : Prop :=
    match r with
    | RCond L R _ _ _ | RHard L R _ _ => is_int L /\ is_int R
    | _ => True
    end.

  Lemma rule_of_int k r : rule_of tt y ts k = Ok r -> rule_int r.
  Proof.
    assert (A := int_edt). assert (B := int_pass). assert (C := int_headway). assert (D := int_stop).
    assert (E' := int_prep). assert (F := int_res). assert (P := is_int_plus).
    destruct k; cbn [rule_of]; intros H.
    - inv_bind H. inv_bind H. inv_bind H. inversion H; subst. cbn. split; eauto.
    - inv_bind H. inv_bind H. destruct (is_none a0); [inversion H; exact I|].
      destruct (wants ts j s); [|inversion H; exact I].
      inv_bind H. inv_bind H. inv_bind H. inv_bind H. inversion H; subst. cbn. split; eauto 8.
    - inv_bind H. inv_bind H. inv_bind H. inversion H; subst. cbn. split; eauto.
    - inv_bind H. inversion H; subst. destruct a as [[n c]|]; exact I.
    - cbv zeta in H. destruct (negb _).
      + inv_bind H. inv_bind H. inversion H; subst. exact I.
      + inv_bind H. destruct a as [L src]. inv_bind H. inv_bind H. inversion H; subst. cbn. split.
        * apply arrival_shape in E as (path & sp & _ & _ & [X|[X|X]]).
          -- destruct X as (pr & srp & e & tp & _ & _ & _ & He & Htp & -> & _). eauto.
          -- destruct X as (e & tp & _ & _ & He & Htp & -> & _). eauto.
          -- destruct X as (_ & _ & He & _). eauto.
        * apply extra_shape in E1 as [[-> _]|(l & r & _ & _ & Hr & ->)]; eauto.
    - inv_bind H. inv_bind H. inv_bind H. inv_bind H. inv_bind H. inv_bind H. inversion H; subst.
      cbn. split; eauto 8.
    - inv_bind H. inv_bind H. inv_bind H. inv_bind H. inv_bind H. inversion H; subst. cbn. split.
      + destruct (eqb s sp); [inversion E2; subst; eauto|]. inv_bind E2. inversion E2; subst. eauto.
      + destruct (eqb s spp); [inversion E3; subst; eauto|]. inv_bind E3. inversion E3; subst. eauto 8.
  Qed.
End Integral.

Lemma round_order x i : fst i <> "Delays" -> round_down x i = x i.
Proof.
  intros H. unfold round_down. destruct (eqb (fst i) "Delays") eqn:E; [apply eqb_eq in E; contradiction|reflexivity].
Qed.

Lemma round_delay x a : round_down x (delay_id a) = inject_Z (Qfloor (x (delay_id a))).
Proof. reflexivity. Qed.

Lemma round_reading x y a : store_ok y -> reading y a -> eval a (round_down x) == eval a x.
Proof.
  intros Hy (q & v & Hq & Ha).
  assert (HV : fst (v_id v) <> "Delays").
  { apply (so_var _ Hy) in Hq. destruct Hq; subst; cbn; discriminate. }
  destruct Ha; subst a; rewrite ?eval_var, ?one_minus_eval, round_order by exact HV; reflexivity.
Qed.

(** Rounding both delays down keeps a distance between integers. *)
Lemma round_le L R a b :
  is_int L -> is_int R -> R + b <= L + a -> R + inject_Z (Qfloor b) <= L + inject_Z (Qfloor a).
Proof.
  intros [l Hl] [r Hr] H. rewrite Hl, Hr in *. rewrite <- !inject_Z_plus, <- Zle_Qle.
  assert (inject_Z (r + Qfloor b - l) <= a).
  { unfold Z.sub. rewrite !inject_Z_plus, inject_Z_opp. pose proof (Qfloor_le b). lra. }
  apply Qfloor_resp_le in H0. rewrite Qfloor_Z in H0. lia.
Qed.

Section Rounding.
  Variables (ts : train_sets) (tt : timetable) (d : Q) (p : lpproblem) (x : assignment).
  Variable cat : vcat.
  Hypothesis RF : reserved_free ts.
  Hypothesis Hd : 0 <= d.
  Hypothesis HI : integral_times tt.
  Hypothesis Hp : create_linear_problem ts tt d cat = Ok p.
  Hypothesis Hx : feasible p x.

  Lemma var_bounds i : In i (map v_id (variables p)) -> fst i = "Delays" -> 0 <= x i <= d.
  Proof.
    intros Hi Hf. apply in_map_iff in Hi as (v & Ev & Hv).
    destruct (create_inv _ _ _ _ _ Hp) as (dv & y & H1 & H2 & H3 & _ & _ & H5).
    assert (HC : canon ts d cat v) by (eapply variables_canon; eauto).
    destruct HC as [(a & b & _ & ->)|(q & [->| ->])]; subst i; cbn in Hf; try discriminate.
    destruct (proj2 Hx _ Hv) as (Hlo & Hup & _). split; [apply Hlo|apply Hup]; reflexivity.
  Qed.

  Lemma round_holds n c : In (n, c) (p_constraints p) -> holds c (round_down x).
  Proof.
    intros Hc. assert (HH := proj1 Hx _ _ Hc).
    destruct (built_calls _ _ _ _ _ Hp) as (dv & y & A1 & A2 & A3 & A4 & A5).
    assert (Hst : store_ok y) by (eapply order_variables_ok; eauto).
    destruct (A5 _ Hc) as (k & m0 & Hk & E & _). cbn [snd] in E.
    destruct (realise ts tt d cat dv y A1 _ _ Hk E) as (r & R1 & R2).
    assert (Hint := rule_of_int ts tt y HI _ _ R1).
    assert (HV : forall i, In i (aff_ids (c_aff c)) -> In i (map v_id (variables p))).
    { intros i Hi. apply variables_ids. right. exists n, c; auto. }
    inversion R2 as [| |L R a b yv m e Hlt Hs Hev Hid|L R a b m e Hs Hev Hid|e m]; subst.
    - cbn in Hint. destruct Hint as [IL IR].
      unfold holds in *. rewrite Hs in *. rewrite Hev in HH |- *.
      assert (HO : (eval yv x == 0 \/ eval yv x == 1) /\ eval yv (round_down x) == eval yv x).
      { destruct (rule_reading ts tt y _ _ _ _ _ _ R1) as [Hr| ->].
        - split; [|apply (round_reading x y); auto].
          apply (reading_binary ts tt d cat p x RF Hp Hx y yv Hst Hr).
          intros i Hi. apply HV, Hid. right; right; exact Hi.
        - rewrite !eval_const. split; [left; reflexivity|reflexivity]. }
      destruct HO as [HO HO']. rewrite HO'.
      assert (Ba : exists z, delay_of (round_down x) a == inject_Z z /\ 0 <= inject_Z z <= d /\
                     (forall r, is_int r -> R + delay_of x (Some b) <= r + delay_of x a ->
                                R + delay_of (round_down x) (Some b) <= r + inject_Z z)).
      { cbn [delay_of]. rewrite round_delay. destruct a as [q|]; cbn [delay_of].
        - rewrite round_delay. exists (Qfloor (x (delay_id q))). split; [reflexivity|].
          assert (HB := var_bounds (delay_id q)). destruct HB as [B1 B2]; [|reflexivity|].
          { apply HV, Hid. left. eauto. }
          split; [|intros r Hr; apply round_le; auto]. split.
          + change 0 with (inject_Z 0). rewrite <- Zle_Qle.
            apply Qfloor_resp_le in B1. exact B1.
          + pose proof (Qfloor_le (x (delay_id q))). lra.
        - exists 0%Z. split; [reflexivity|]. split; [split; [apply Qle_refl|exact Hd]|].
          intros r Hr H. apply (round_le r R 0 (x (delay_id b)) Hr IR H). }
      destruct Ba as (z & Ez & Bz & Hz). rewrite Ez.
      assert (Bb : delay_of (round_down x) (Some b) <= d).
      { cbn [delay_of]. rewrite round_delay. pose proof (Qfloor_le (x (delay_id b))).
        destruct (var_bounds (delay_id b)) as [B1 B2]; [|reflexivity|lra].
        apply HV, Hid. right; left; reflexivity. }
      apply cond_suff; try tauto.
      intros E0. apply Hz; auto. rewrite E0 in HH. lra.
    - cbn in Hint. destruct Hint as [IL IR].
      unfold holds in *. rewrite Hs in *. rewrite Hev in HH |- *. cbn [delay_of] in *.
      rewrite !round_delay.
      assert (R + inject_Z (Qfloor (x (delay_id b))) <= L + inject_Z (Qfloor (x (delay_id a)))).
      { apply round_le; auto. lra. }
      lra.
    - destruct (rule_same ts tt y _ _ R1) as (a & b & -> & Ha & Hb).
      apply holds_eq. apply holds_eq in HH.
      rewrite (round_reading x y a Hst Ha), (round_reading x y b Hst Hb). exact HH.
  Qed.

  Lemma round_vars v : In v (variables p) ->
    (forall lo, v_lo v = Some lo -> lo <= round_down x (v_id v)) /\
    (forall up, v_up v = Some up -> round_down x (v_id v) <= up) /\
    is_int (round_down x (v_id v)).
  Proof.
    intros Hv.
    destruct (create_inv _ _ _ _ _ Hp) as (dv & y & H1 & H2 & H3 & _ & _ & H5).
    assert (HC : canon ts d cat v) by (eapply variables_canon; eauto).
    destruct (proj2 Hx _ Hv) as (Hlo & Hup & Hint).
    destruct HC as [(j & s & _ & ->)|(q & Hq)].
    - change (v_id (delay_var_of j s d cat)) with (delay_id (j, s)) in *. rewrite round_delay.
      specialize (Hlo 0 eq_refl). specialize (Hup d eq_refl).
      split; [|split].
      + intros lo El. cbn in El. inversion El; subst. change 0 with (inject_Z 0). rewrite <- Zle_Qle.
        apply Qfloor_resp_le in Hlo. exact Hlo.
      + intros up El. cbn in El. inversion El; subst. pose proof (Qfloor_le (x (delay_id (j, s)))). lra.
      + eexists; reflexivity.
    - rewrite round_order by (destruct Hq; subst; cbn; discriminate).
      split; [exact Hlo|]. split; [exact Hup|]. apply Hint. destruct Hq; subst; reflexivity.
  Qed.

  Lemma round_obj :
    0 < d -> (forall j s, 0 <= penalty_weights tt j s) -> obj_value p (round_down x) <= obj_value p x.
  Proof.
    intros Hpos Hw. destruct (built_calls _ _ _ _ _ Hp) as (dv & y & A1 & A2 & A3 & _).
    apply (obj_closed _ _ _ _ _ A1) in A3 as (A3 & _). unfold obj_value. rewrite !A3, !eval_const. clear A3.
    apply Qplus_le_r. induction (path_pairs ts) as [|js l IH]; [apply Qle_refl|].
    cbn [map qsum fold_right]. apply Qplus_le_compat; [|exact IH].
    unfold obj_term. rewrite round_delay.
    rewrite (Qmult_comm _ (inject_Z _)), (Qmult_comm _ (x _)). apply Qmult_le_compat_r; [apply Qfloor_le|].
    unfold Qdiv. apply Qmult_le_0_compat; [apply Hw|]. apply Qlt_le_weak, Qinv_lt_0_compat. exact Hpos.
  Qed.
End Rounding.

Lemma weights_nonneg tt : nonneg_weights tt -> forall j s, 0 <= penalty_weights tt j s.
Proof.
  intros H j s. unfold penalty_weights. destruct (dget _ _) eqn:E; [eapply H; eauto|apply Qle_refl].
Qed.

Theorem continuous_integer ts tt d pc :
  reserved_free ts -> 0 < d -> integral_times tt ->
  nonneg_weights tt ->
  create_linear_problem ts tt d Continuous = Ok pc ->
  exists pi, create_linear_problem ts tt d Integer = Ok pi /\
    (forall x, feasible pc x ->
       feasible pi (round_down x) /\ obj_value pi (round_down x) <= obj_value pc x) /\
    (forall x, feasible pi x -> feasible pc x /\ obj_value pc x == obj_value pi x).
Proof.
  intros RF Hd HI Hw0 Hpc. assert (Hw := weights_nonneg tt Hw0).
  assert (HS := recat_problem ts tt d Continuous Integer). rewrite Hpc in HS.
  destruct (create_linear_problem ts tt d Integer) as [pi|] eqn:Hpi; [|destruct HS]. cbn in HS.
  exists pi. split; [reflexivity|].
  assert (HV := variables_sim _ (recat_id _ _) _ _ HS).
  assert (HD : 0 <= d) by lra. split.
  - intros x Hx. split.
    + split.
      * apply (psim_holds _ (recat_id _ _) _ _ (round_down x) HS).
        intros n c Hc. eapply round_holds with (cat := Continuous); eauto.
      * intros v' Hv'. destruct (Forall2_in_r _ _ _ _ HV Hv') as (v & Hv & HR).
        destruct (round_vars ts tt d pc x Continuous RF HD Hpc Hx v Hv) as (B1 & B2 & B3).
        rewrite <- (recat_id _ _ _ _ HR). split; [|split; [|intros _; exact B3]].
        -- intros lo El. apply B1. destruct HR as [->|(j & s & dd & -> & ->)]; exact El.
        -- intros up El. apply B2. destruct HR as [->|(j & s & dd & -> & ->)]; exact El.
    + rewrite <- (psim_obj _ (recat_id _ _) _ _ _ HS). eapply round_obj; eauto.
  - intros x Hx. split.
    + split.
      * apply (psim_holds _ (recat_id _ _) _ _ x HS). apply Hx.
      * intros v Hv. destruct (Forall2_in_l _ _ _ _ HV Hv) as (v' & Hv' & HR).
        destruct (proj2 Hx v' Hv') as (B1 & B2 & B3). rewrite (recat_id _ _ _ _ HR).
        split; [|split].
        -- intros lo El. apply B1. destruct HR as [->|(j & s & dd & -> & ->)]; exact El.
        -- intros up El. apply B2. destruct HR as [->|(j & s & dd & -> & ->)]; exact El.
        -- intros Ec. apply B3. destruct HR as [->|(j & s & dd & -> & ->)]; [exact Ec|reflexivity].
    + apply (psim_obj _ (recat_id _ _) _ _ _ HS).
Qed.

Theorem same_optimum ts tt d :
  reserved_free ts -> 0 < d -> integral_times tt -> nonneg_weights tt ->
  (forall e, create_linear_problem ts tt d Continuous = Err e <-> create_linear_problem ts tt d Integer = Err e) /\
  forall pc pi, create_linear_problem ts tt d Continuous = Ok pc ->
    create_linear_problem ts tt d Integer = Ok pi ->
    (forall x, feasible pc x ->
       feasible pi (round_down x) /\ obj_value pi (round_down x) <= obj_value pc x) /\
    (forall x, feasible pi x -> feasible pc x /\ obj_value pc x == obj_value pi x) /\
    (forall q, reachable_value pc q <-> reachable_value pi q).
Proof.
  intros RF Hd HI Hw. split.
  - assert (HS := recat_problem ts tt d Continuous Integer). intros e.
    destruct (create_linear_problem ts tt d Continuous), (create_linear_problem ts tt d Integer);
      cbn in HS; try tauto; [split; discriminate|]. subst. reflexivity.
  - intros pc pi Hpc Hpi.
    destruct (continuous_integer ts tt d pc RF Hd HI Hw Hpc) as (pi' & Hpi' & H1 & H2).
    assert (pi' = pi) by congruence; subst pi'. split; [exact H1|]. split; [exact H2|].
    intros q. split; intros (x & Hx & Hq).
    + destruct (H1 x Hx) as [G1 G2]. exists (round_down x). split; auto. lra.
    + destruct (H2 x Hx) as [G1 G2]. exists x. split; auto. rewrite G2. exact Hq.
Qed.

Lemma earliest_moved ts tt tt' delta j s e :
  moved_times delta tt tt' -> earliest ts tt j s e -> earliest ts tt' j s (e + delta).
Proof.
  intros HT. assert (HT' := HT). destruct HT' as (Hp & _ & Hs & _ & _ & _ & Hsc & Hin).
  assert (HN : forall s t e, not_before_schedule tt j s t e -> not_before_schedule tt' j s (t + delta) (e + delta)).
  { intros s0 t e0 H. specialize (Hsc (joined [j; s0])). unfold not_before_schedule, scheduled in *.
    destruct (dget (joined [j; s0]) (tt_schedule tt)) as [a|], (dget (joined [j; s0]) (tt_schedule tt')) as [b|];
      cbn in Hsc; try tauto.
    - left. exists b. split; auto. destruct H as [(q & Eq & H)|[H _]]; [|exfalso; eapply H; eauto].
      inversion Eq; subst. destruct H as [[? ?]|[? ?]]; [left|right]; split; lra.
    - right. split; [discriminate|]. destruct H as [(q & Eq & _)|[_ H]]; [discriminate|]. lra. }
  assert (HC : forall s0 t t' e0, t == t' -> not_before_schedule tt' j s0 t e0 -> not_before_schedule tt' j s0 t' e0).
  { intros s0 t t' e0 Ht H. unfold not_before_schedule in *. destruct H as [(q & Hq & H)|[H1 H2]].
    - left. exists q. split; auto. destruct H as [[? ?]|[? ?]]; [left|right]; split; lra.
    - right. split; auto. lra. }
  induction 1 as [s i e Hi Hb|s sp e0 r st e Hi Hc He IH Hr Hst Hb].
  - specialize (Hin (joined [j; s])). unfold initially in Hi. rewrite Hi in Hin.
    destruct (dget (joined [j; s]) (tt_init tt')) as [i'|] eqn:E; cbn in Hin; [|tauto].
    apply earliest_init with (i := i'); [exact E|]. eapply HC; [|apply HN; exact Hb]. lra.
  - eapply earliest_next with (r := r) (st := st).
    + intros i Hi'. specialize (Hin (joined [j; s])). unfold initially in *. rewrite Hi' in Hin.
      destruct (dget (joined [j; s]) (tt_init tt)) as [i'|] eqn:E; cbn in Hin; [eapply Hi; eauto|tauto].
    + exact Hc.
    + exact IH.
    + unfold running. rewrite Hp. exact Hr.
    + unfold min_stop. rewrite Hs. exact Hst.
    + eapply HC; [|apply HN; exact Hb]. lra.
Qed.

Theorem moved_equivalent ts tt tt' delta d cat :
  moved_times delta tt tt' ->
  (forall e, create_linear_problem ts tt d cat = Err e <-> create_linear_problem ts tt' d cat = Err e) /\
  forall p p', create_linear_problem ts tt d cat = Ok p -> create_linear_problem ts tt' d cat = Ok p' ->
    variables p' = variables p /\
    dkeys (p_constraints p') = dkeys (p_constraints p) /\
    (forall n c c', dget n (p_constraints p) = Some c -> dget n (p_constraints p') = Some c' ->
       c_sense c' = c_sense c /\ forall x, eval (c_aff c') x == eval (c_aff c) x) /\
    (forall x, feasible p' x <-> feasible p x) /\
    (forall x, obj_value p' x == obj_value p x) /\
    (forall x j s t, departs ts tt p x j s t -> departs ts tt' p' x j s (t + delta)).
Proof.
  intros HT. assert (HS := moved_problem ts tt tt' delta d cat HT). split.
  - intros e. destruct (create_linear_problem ts tt d cat), (create_linear_problem ts tt' d cat);
      cbn in HS; try tauto; [split; discriminate|]. subst. reflexivity.
  - intros p p' Hp Hp'. rewrite Hp, Hp' in HS. cbn in HS.
    assert (EI : forall v v' : lpvar, v = v' -> v_id v = v_id v') by congruence.
    assert (EV : variables p' = variables p).
    { symmetry. apply Forall2_eq. apply (variables_sim eq EI). exact HS. }
    assert (EN : dkeys (p_constraints p') = dkeys (p_constraints p)).
    { symmetry. eapply psim_names; eauto. }
    split; [exact EV|]. split; [exact EN|]. split; [|split; [|split]].
    + destruct HS as [HS _]. revert HS. generalize (p_constraints p), (p_constraints p').
      induction 1 as [|[m c] [m' c'] l l' [Hn [Ha Hs]] HS IH]; intros n e e' He He'; [discriminate|].
      cbn [fst snd dget] in *. subst m'. destruct (eq_dec n m); [|eapply IH; eauto].
      inversion He; inversion He'; subst. split; [auto|]. intros x. symmetry. apply (asim_eval eq EI); auto.
    + intros x. unfold feasible. rewrite EV. rewrite (psim_holds eq EI p p' x HS). reflexivity.
    + intros x. symmetry. apply (psim_obj eq EI). exact HS.
    + intros x j s t (e & He & Ht). exists (e + delta). split; [eapply earliest_moved; eauto|].
      unfold value_in in *. rewrite EV. lra.
Qed.
