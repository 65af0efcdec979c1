(** * Integral: with integer times the created problem has integer coefficients *)

From Coq Require Import List String ZArith QArith Bool Arith Lia Lqa.
From Verif Require Import Base Pulp Helpers LinearSolver BaseFacts Spec TreeFacts OrderVars
  Emit DelayVars Shapes Origin SpecFacts Sound SpecCompare Sim Compare Converters SpecQubo QuboFacts QuboModel QuboEncode.
Import ListNotations.
Open Scope string_scope.
Open Scope list_scope.

(** Integer coefficients, each variable once *)
Definition ia (a : aff) : Prop :=
  is_int (a_const a) /\ (forall v q, In (v, q) (a_terms a) -> is_int q) /\ NoDup (map v_id (aff_vars a)).

Lemma addterm_ia v q l :
  is_int q -> (forall w r, In (w, r) l -> is_int r) -> NoDup (map v_id (map fst l)) ->
  (forall w r, In (w, r) (addterm v q l) -> is_int r) /\ NoDup (map v_id (map fst (addterm v q l))) /\
  (forall i, In i (map v_id (map fst (addterm v q l))) -> i = v_id v \/ In i (map v_id (map fst l))).
Proof.
  intros Hq. induction l as [|[w r] l IH]; intros Hl ND; cbn [addterm].
  - split; [|split].
    + intros w r [E|[]]. inversion E; subst; exact Hq.
    + cbn. constructor; [intros []|constructor].
    + cbn. intuition.
  - destruct (eq_dec (v_id v) (v_id w)) as [E|E].
    + split; [|split].
      * intros w' r' [E'|H'].
        -- inversion E'; subst. apply is_int_plus; [apply (Hl w' r); left; reflexivity|exact Hq].
        -- apply (Hl w' r'); right; exact H'.
      * exact ND.
      * cbn. intuition.
    + cbn in ND. inversion ND; subst.
      destruct IH as (I1 & I2 & I3); [intros w' r' H'; apply (Hl w' r'); right; exact H'|assumption|].
      split; [|split].
      * intros w' r' [E'|H']; [inversion E'; subst; apply (Hl w' r'); left; reflexivity|eauto].
      * cbn. constructor; [|exact I2]. intros H. apply I3 in H as [H|H]; [congruence|contradiction].
      * cbn. intros i [H|H]; [auto|]. apply I3 in H. tauto.
Qed.

Lemma add_terms_ia m : forall l,
  (forall w r, In (w, r) m -> is_int r) ->
  (forall w r, In (w, r) l -> is_int r) -> NoDup (map v_id (map fst l)) ->
  (forall w r, In (w, r) (add_terms l m) -> is_int r) /\ NoDup (map v_id (map fst (add_terms l m))).
Proof.
  induction m as [|[v q] m IH]; intros l Hm Hl ND; [split; assumption|].
  unfold add_terms. cbn [fold_left fst snd].
  destruct (addterm_ia v q l) as (A1 & A2 & _); [apply (Hm v q); left; reflexivity|assumption|assumption|].
  apply IH; [|exact A1|exact A2]. intros w r H. apply (Hm w r); right; exact H.
Qed.

Lemma ia_add a b : ia a -> ia b -> ia (aff_add a b).
Proof.
  intros (A1 & A2 & A3) (B1 & B2 & B3). destruct (add_terms_ia (a_terms b) (a_terms a) B2 A2 A3) as [C1 C2].
  split; [apply is_int_plus; assumption|]. split; assumption.
Qed.

Lemma ia_scale k a : is_int k -> ia a -> ia (aff_scale k a).
Proof.
  intros Hk (A1 & A2 & A3). split; [|split].
  - apply is_int_mul; assumption.
  - cbn. unfold scale_terms. intros v q H. apply in_map_iff in H as ([w r] & E & H). inversion E; subst.
    apply is_int_mul; [exact Hk|apply (A2 v r H)].
  - rewrite aff_scale_vars. exact A3.
Qed.

Lemma ia_sub a b : ia a -> ia b -> ia (aff_sub a b).
Proof.
  intros Ha Hb. apply ia_add; [exact Ha|]. apply ia_scale; [|exact Hb]. exists (-1)%Z. reflexivity.
Qed.

Lemma ia_const q : is_int q -> ia (aff_const q).
Proof. intros H. split; [exact H|]. split; [intros v r []|constructor]. Qed.

Lemma ia_var v : ia (aff_var v).
Proof.
  split; [exists 0%Z; reflexivity|]. split.
  - intros w q [E|[]]. inversion E; subst. exists 1%Z; reflexivity.
  - cbn. constructor; [intros []|constructor].
Qed.

Lemma ia_plus q v : is_int q -> ia (plus_var q v).
Proof. intros H. unfold plus_var. apply ia_add; [apply ia_const, H|apply ia_var]. Qed.

Lemma ia_reading y a : reading y a -> ia a.
Proof.
  intros (q & v & _ & [->| ->]); [apply ia_var|]. unfold one_minus. apply ia_sub; [|apply ia_var].
  apply ia_const. exists 1%Z; reflexivity.
Qed.

Lemma int_M L R d : is_int L -> is_int R -> is_int d -> is_int (get_M L R d).
Proof.
  intros HL HR Hd. unfold get_M. destruct (qmax_spec (R + d - L) 1) as [[_ E]|[_ E]]; rewrite E.
  - exists 1%Z; reflexivity.
  - apply is_int_plus; [apply is_int_plus; assumption|apply is_int_opp; exact HL].
Qed.

Section Integral.
  Variables (ts : train_sets) (tt : timetable) (d_max : Q) (dv y : tree).
  Hypothesis HI : integral_times tt.
  Hypothesis Hd : is_int d_max.

  Lemma arrival_aff_ia L src a : is_int L -> arrival_aff dv L src = Ok a -> ia a.
  Proof.
    unfold arrival_aff. destruct src as [[j s]|]; intros HL H.
    - inv_bind H. inversion H; subst. apply ia_plus, HL.
    - inversion H; subst. apply ia_const, HL.
  Qed.

  Lemma origin_integral n c : origin tt dv y ts d_max (Ok (Some (n, c))) -> ia (c_aff c).
  Proof.
    assert (A := int_edt ts tt HI). assert (B := int_pass tt HI). assert (C := int_headway tt HI).
    assert (D := int_stop tt HI). assert (E' := int_prep tt HI). assert (F := int_res tt HI).
    assert (P := is_int_plus).
    intros H. inversion H as
      [s sp j jp _ Ee|s sp j jp _ Ee|j s path _ _ _ Ee|s sp j jp _ Ee|s sp j jp _ Ee
      |s j jp _ _ Ee|s j jp _ _ Ee|s j jp _ _ Ee|s j jp _ Ee
      |s pair jp jpp sp spp _ _ _ Ee|s pair jp jpp sp spp _ _ _ Ee];
      clear H.
    1,2: apply ms_shape in Ee as (L & R & h & HL & HR & Hh & [[? _]|(u & v & yv & Hu & Hv & Hyv & _ & Eo)]);
      [discriminate|]; inversion Eo; subst; cbn [c_aff mk_ge];
      assert (is_int L) by eauto; assert (is_int (R + h)) by eauto;
      eauto 10 using ia_sub, ia_plus, ia_scale, ia_reading, get_y3_reading, int_M.
    - apply stay_shape in Ee as (path' & sp & _ & _ & [[? _]|[_ (dj & _ & [[? _]|[_ X]])]]);
        [discriminate|discriminate|].
      destruct X as (v & vp & L & R & tp & st & Hv & Hvp & HL & HR & Ht & Hst & Eo).
      inversion Eo; subst; cbn [c_aff mk_ge].
      assert (is_int L) by eauto. assert (is_int (R + tp + st)) by eauto 8. eauto 12 using ia_sub, ia_plus.
    - apply sl_shape in Ee as (L & R & h & HL & HR & Hh & [[? _]|(u & v & yv & Hu & Hv & Hyv & _ & Eo)]);
      [discriminate|]; inversion Eo; subst; cbn [c_aff mk_ge].
      assert (is_int L) by eauto; assert (is_int (R + h)) by eauto.
      eauto 10 using ia_sub, ia_plus, ia_scale, ia_reading, get_y4_reading, int_M.
    - apply sl_shape in Ee as (L & R & h & HL & HR & Hh & [[? _]|(u & v & yv & Hu & Hv & Hyv & _ & Eo)]);
      [discriminate|]; inversion Eo; subst; cbn [c_aff mk_ge].
      assert (is_int L) by eauto; assert (is_int (R + h)) by eauto.
      eauto 10 using ia_sub, ia_plus, ia_scale, ia_reading, get_y4_reading, int_M.
    - apply kto_shape in Ee as (path & sp & _ & _ & [?|(c' & inner & groups & Eo & Hk & _)]);
        [discriminate|]. inversion Eo; subst.
      inversion Hk as [sp' path' v1 v2 _ _ _ H1 H2|yin v _ _ H1 H2]; subst; cbn [c_aff mk_eq].
      + apply ia_sub; apply ia_var.
      + apply ia_sub; [eapply ia_reading, get_in_reading; eauto|apply ia_var].
    - apply tos_shape in Ee as [(_ & y1 & y2 & H1 & H2 & Eo)|(_ & L & src & R0 & R & HA & HR0 & HR & [[? _]|X])];
        [|discriminate|].
      + inversion Eo; subst. cbn [c_aff mk_eq].
        eauto 10 using ia_sub, ia_reading, get_y3_reading.
      + destruct X as (La & yv & v & Ha & Hyv & Hv & _ & Eo). inversion Eo; subst. cbn [c_aff mk_ge].
        assert (is_int L).
        { apply arrival_shape in HA as (path & sp & _ & _ & [X|[X|X]]).
          - destruct X as (pr & srp & e & tp & _ & _ & _ & He & Htp & -> & _). eauto.
          - destruct X as (e & tp & _ & _ & He & Htp & -> & _). eauto.
          - destruct X as (_ & _ & He & _). eauto. }
        assert (is_int R).
        { apply extra_shape in HR as [[-> _]|(l & r & _ & _ & Hr & ->)]; eauto. }
        apply ia_sub; apply ia_sub; eauto 12 using ia_var, ia_const, ia_scale, ia_reading, get_y3_reading, int_M, arrival_aff_ia.
    - apply tos_shape in Ee as [(_ & y1 & y2 & H1 & H2 & Eo)|(_ & L & src & R0 & R & HA & HR0 & HR & [[? _]|X])];
        [|discriminate|].
      + inversion Eo; subst. cbn [c_aff mk_eq].
        eauto 10 using ia_sub, ia_reading, get_y3_reading.
      + destruct X as (La & yv & v & Ha & Hyv & Hv & _ & Eo). inversion Eo; subst. cbn [c_aff mk_ge].
        assert (is_int L).
        { apply arrival_shape in HA as (path & sp & _ & _ & [X|[X|X]]).
          - destruct X as (pr & srp & e & tp & _ & _ & _ & He & Htp & -> & _). eauto.
          - destruct X as (e & tp & _ & _ & He & Htp & -> & _). eauto.
          - destruct X as (_ & _ & He & _). eauto. }
        assert (is_int R).
        { apply extra_shape in HR as [[-> _]|(l & r & _ & _ & Hr & ->)]; eauto. }
        apply ia_sub; apply ia_sub; eauto 12 using ia_var, ia_const, ia_scale, ia_reading, get_y3_reading, int_M, arrival_aff_ia.
    - apply circ_shape in Ee as (path & sp & L0 & R & tp & pr & _ & _ & HL & HR & Htp & Hpr & [[? _]|X]);
        [discriminate|]. destruct X as (v1 & v2 & H1 & H2 & _ & Eo). inversion Eo; subst.
      cbn [c_aff mk_ge]. assert (is_int R) by eauto. assert (is_int (L0 + tp + pr)) by eauto 8.
      eauto 12 using ia_sub, ia_plus.
    - apply sw_shape in Ee as (L & R & r & HL & HR & Hr & [[? _]|X]); [discriminate|].
      destruct X as (Rr & yv & v1 & v2 & HRr & Hyv & H1 & H2 & _ & Eo). inversion Eo; subst.
      cbn [c_aff mk_ge].
      assert (AS : forall s j sp t, at_switch tt ts s j sp t -> is_int t).
      { intros s0 j0 sp0 t (e & He & [[_ ->]|[_ (p & Hp & ->)]]); eauto. }
      assert (is_int L) by eauto. assert (is_int Rr) by (apply (is_int_eq (R + r)); [symmetry; exact HRr|eauto]).
      apply ia_sub; [eauto 12 using ia_plus|]. apply ia_add; [|eauto using ia_var].
      apply ia_sub; [apply ia_const; assumption|]. apply ia_scale; [eauto using int_M|].
      eapply ia_reading, sw_order_reading; eauto.
    - apply sw_shape in Ee as (L & R & r & HL & HR & Hr & [[? _]|X]); [discriminate|].
      destruct X as (Rr & yv & v1 & v2 & HRr & Hyv & H1 & H2 & _ & Eo). inversion Eo; subst.
      cbn [c_aff mk_ge].
      assert (AS : forall s j sp t, at_switch tt ts s j sp t -> is_int t).
      { intros s0 j0 sp0 t (e & He & [[_ ->]|[_ (p & Hp & ->)]]); eauto. }
      assert (is_int L) by eauto. assert (is_int Rr) by (apply (is_int_eq (R + r)); [symmetry; exact HRr|eauto]).
      apply ia_sub; [eauto 12 using ia_plus|]. apply ia_add; [|eauto using ia_var].
      apply ia_sub; [apply ia_const; assumption|]. apply ia_scale; [eauto using int_M|].
      eapply ia_reading, sw_order_reading; eauto.
  Qed.
End Integral.

Theorem created_integral ts tt d_max cat p :
  create_linear_problem ts tt d_max cat = Ok p -> integral_times tt -> is_int d_max ->
  forall n c, In (n, c) (p_constraints p) -> ia (c_aff c).
Proof.
  intros Hp HI Hd n c Hc. destruct (create_inv _ _ _ _ _ Hp) as (dv & y & H1 & H2 & H3 & _ & _ & H5).
  rewrite H3 in Hc. apply somes_emitted in Hc as (m & Hc & _).
  apply emission_origin in Hc as [[e He]|Ho]; [discriminate|]. eapply origin_integral; eauto.
Qed.

Theorem created_integer_coefficients ts tt d_max cat p :
  create_linear_problem ts tt d_max cat = Ok p -> integral_times tt -> is_int d_max -> integer_coefficients p.
Proof.
  intros Hp HI Hd n c Hc. destruct (created_integral _ _ _ _ _ Hp HI Hd n c Hc) as (A & B & _). auto.
Qed.
