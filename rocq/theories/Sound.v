(** * Sound: feasible solutions are conflict-free timetables *)

From Coq Require Import List String ZArith QArith Bool Arith Lia Lqa.
From Verif Require Import Base Pulp Helpers LinearSolver BaseFacts Spec TreeFacts OrderVars
  Emit DelayVars Shapes Origin SpecFacts.
Import ListNotations.
Open Scope string_scope.
Open Scope list_scope.

(** ** Variables occurring in the problem *)

Definition canon (ts : train_sets) (d_max : Q) (cat : vcat) (v : lpvar) : Prop :=
  (exists j s, has_delay ts j s /\ v = delay_var_of j s d_max cat) \/ (exists q, v = y_var q \/ v = z_var q).

Lemma plus_var_vars q v w : In w (aff_vars (plus_var q v)) -> w = v.
Proof. unfold plus_var. intros H. apply aff_add_vars in H. simpl in H. intuition congruence. Qed.

Lemma plus_var_ids q v i : In i (aff_ids (plus_var q v)) <-> i = v_id v.
Proof. unfold plus_var. rewrite aff_add_ids. simpl. intuition congruence. Qed.

Lemma aff_var_ids v i : In i (aff_ids (aff_var v)) <-> i = v_id v.
Proof. simpl. intuition congruence. Qed.

Lemma one_minus_vars v w : In w (aff_vars (one_minus v)) -> w = v.
Proof. unfold one_minus. intros H. apply aff_sub_vars in H. simpl in H. intuition congruence. Qed.

Lemma one_minus_ids v i : In i (aff_ids (one_minus v)) <-> i = v_id v.
Proof. unfold one_minus. rewrite aff_sub_ids. simpl. intuition congruence. Qed.

(** An order reading: a variable of the store or one minus it. *)
Definition reading (y : tree) (a : aff) : Prop :=
  exists q v, tpath q y = Some v /\ (a = aff_var v \/ a = one_minus v).

Lemma get_y3_reading y j jp s a : get_y3 y j jp s = Ok a -> reading y a.
Proof.
  intros H. apply get_y3_value in H as [(v & H1 & ->)|(v & _ & H1 & ->)]; red; eauto.
Qed.

Lemma get_y4_reading y j jp s sp a : get_y4_singleline y j jp s sp = Ok a -> reading y a.
Proof.
  intros H. apply get_y4_value in H as [(v & H1 & ->)|(v & _ & H1 & ->)]; red; eauto.
Qed.

Lemma get_in_reading y j jp s a : get_y4_in y in_ j jp s = Ok a -> reading y a.
Proof.
  intros H. apply get_in_value in H as [(v & H1 & ->)|(v & _ & H1 & ->)]; red; eauto.
Qed.

Lemma sw_order_reading y ts s jp sp jpp spp a : sw_order y ts s jp sp jpp spp = Ok a -> reading y a.
Proof.
  unfold sw_order. destruct (eqb spp sp).
  - destruct (eqb sp s); [apply get_y3_reading|]. intros H. inv_bind H.
    destruct a0; [eapply get_in_reading; eauto|eapply get_y3_reading; eauto].
  - destruct (eqb s spp || eqb s sp); [apply get_y4_reading|apply get_in_reading].
Qed.

Section Vars.
  Variables (ts : train_sets) (tt : timetable) (d_max : Q) (cat : vcat) (dv y : tree).
  Hypothesis Hdv : delay_varibles ts d_max cat = Ok dv.
  Hypothesis Hy : store_ok y.

  Lemma get2_canon j s v : get2 dv j s = Ok v -> canon ts d_max cat v.
  Proof. rewrite (get2_char ts d_max cat dv j s v Hdv). intros [H ->]. left. eauto. Qed.

  Lemma store_canon q v : tpath q y = Some v -> canon ts d_max cat v.
  Proof. intros H. apply (so_var _ Hy) in H. right. eauto. Qed.

  Lemma reading_canon a w : reading y a -> In w (aff_vars a) -> canon ts d_max cat w.
  Proof.
    intros (q & v & Hq & [->| ->]) Hw.
    - simpl in Hw. destruct Hw as [<-|[]]. eapply store_canon; eauto.
    - apply one_minus_vars in Hw; subst. eapply store_canon; eauto.
  Qed.

  Lemma arrival_aff_canon L src a w : arrival_aff dv L src = Ok a -> In w (aff_vars a) -> canon ts d_max cat w.
  Proof.
    unfold arrival_aff. destruct src as [[j s]|].
    - intros H Hw. inv_bind H. inversion H; subst. apply plus_var_vars in Hw; subst.
      eapply get2_canon; eauto.
    - intros H Hw. inversion H; subst. destruct Hw.
  Qed.

  (** Expressions whose variables are all canonical. *)
  Definition ca (a : aff) : Prop := forall w, In w (aff_vars a) -> canon ts d_max cat w.

  Lemma ca_plus q v : canon ts d_max cat v -> ca (plus_var q v).
  Proof. intros H w Hw. apply plus_var_vars in Hw; subst; auto. Qed.
  Lemma ca_var v : canon ts d_max cat v -> ca (aff_var v).
  Proof. intros H w [<-|[]]; auto. Qed.
  Lemma ca_const q : ca (aff_const q).
  Proof. intros w []. Qed.
  Lemma ca_add a b : ca a -> ca b -> ca (aff_add a b).
  Proof. intros Ha Hb w Hw. apply aff_add_vars in Hw as [?|?]; auto. Qed.
  Lemma ca_sub a b : ca a -> ca b -> ca (aff_sub a b).
  Proof. intros Ha Hb w Hw. apply aff_sub_vars in Hw as [?|?]; auto. Qed.
  Lemma ca_scale k a : ca a -> ca (aff_scale k a).
  Proof. intros Ha w Hw. rewrite aff_scale_vars in Hw. auto. Qed.
  Lemma ca_reading a : reading y a -> ca a.
  Proof. intros H w Hw. eapply reading_canon; eauto. Qed.

  Lemma origin_canon n c :
    origin tt dv y ts d_max (Ok (Some (n, c))) -> ca (c_aff c).
  Proof.
    assert (G2 := get2_canon).
    intros H. inversion H as
      [s sp j jp _ Ee|s sp j jp _ Ee|j s path _ _ _ Ee|s sp j jp _ Ee|s sp j jp _ Ee
      |s j jp _ _ Ee|s j jp _ _ Ee|s j jp _ _ Ee|s j jp _ Ee
      |s pair jp jpp sp spp _ _ _ Ee|s pair jp jpp sp spp _ _ _ Ee];
      clear H.
    1,2: apply ms_shape in Ee as (L & R & h & _ & _ & _ & [[? _]|(u & v & yv & Hu & Hv & Hyv & _ & Eo)]);
      [discriminate|]; inversion Eo; subst; cbn [c_aff mk_ge];
      eauto 10 using ca_sub, ca_plus, ca_scale, ca_reading, get_y3_reading.
    - apply stay_shape in Ee as (path' & sp & _ & _ & [[? _]|[_ (dj & _ & [[? _]|[_ X]])]]);
        [discriminate|discriminate|].
      destruct X as (v & vp & L & R & tp & st & Hv & Hvp & _ & _ & _ & _ & Eo).
      inversion Eo; subst; cbn [c_aff mk_ge]. eauto 12 using ca_sub, ca_plus.
    - apply sl_shape in Ee as (L & R & h & _ & _ & _ & [[? _]|(u & v & yv & Hu & Hv & Hyv & _ & Eo)]);
      [discriminate|]; inversion Eo; subst; cbn [c_aff mk_ge].
      eauto 10 using ca_sub, ca_plus, ca_scale, ca_reading, get_y4_reading.
    - apply sl_shape in Ee as (L & R & h & _ & _ & _ & [[? _]|(u & v & yv & Hu & Hv & Hyv & _ & Eo)]);
      [discriminate|]; inversion Eo; subst; cbn [c_aff mk_ge].
      eauto 10 using ca_sub, ca_plus, ca_scale, ca_reading, get_y4_reading.
    - apply kto_shape in Ee as (path & sp & _ & _ & [?|(c' & inner & groups & Eo & Hk & _)]);
        [discriminate|]. inversion Eo; subst.
      inversion Hk as [sp' path' v1 v2 _ _ _ H1 H2|yin v _ _ H1 H2]; subst; cbn [c_aff mk_eq].
      + apply get4_tpath in H1, H2. apply ca_sub; apply ca_var; eapply store_canon; eauto.
      + apply get4_tpath in H2. apply ca_sub; [eapply ca_reading, get_in_reading; eauto|].
        apply ca_var; eapply store_canon; eauto.
    - apply tos_shape in Ee as [(_ & y1 & y2 & H1 & H2 & Eo)|(_ & L & src & R0 & R & _ & _ & _ & [[? _]|X])];
        [|discriminate|].
      + inversion Eo; subst. cbn [c_aff mk_eq].
        eauto 10 using ca_sub, ca_reading, get_y3_reading.
      + destruct X as (La & yv & v & Ha & Hyv & Hv & _ & Eo). inversion Eo; subst. cbn [c_aff mk_ge].
        apply ca_sub; apply ca_sub; eauto 12 using ca_var, ca_const, ca_scale, ca_reading, get_y3_reading.
        intros w Hw. eapply arrival_aff_canon; eauto.
    - apply tos_shape in Ee as [(_ & y1 & y2 & H1 & H2 & Eo)|(_ & L & src & R0 & R & _ & _ & _ & [[? _]|X])];
        [|discriminate|].
      + inversion Eo; subst. cbn [c_aff mk_eq].
        eauto 10 using ca_sub, ca_reading, get_y3_reading.
      + destruct X as (La & yv & v & Ha & Hyv & Hv & _ & Eo). inversion Eo; subst. cbn [c_aff mk_ge].
        apply ca_sub; apply ca_sub; eauto 12 using ca_var, ca_const, ca_scale, ca_reading, get_y3_reading.
        intros w Hw. eapply arrival_aff_canon; eauto.
    - apply circ_shape in Ee as (path & sp & L0 & R & tp & pr & _ & _ & _ & _ & _ & _ & [[? _]|X]);
        [discriminate|]. destruct X as (v1 & v2 & H1 & H2 & _ & Eo). inversion Eo; subst.
      cbn [c_aff mk_ge]. eauto 12 using ca_sub, ca_plus.
    - apply sw_shape in Ee as (L & R & r & _ & _ & _ & [[? _]|X]); [discriminate|].
      destruct X as (Rr & yv & v1 & v2 & _ & Hyv & H1 & H2 & _ & Eo). inversion Eo; subst.
      cbn [c_aff mk_ge].
      apply ca_sub; [eauto 12 using ca_plus|]. apply ca_add; [|eauto using ca_var].
      apply ca_sub; [apply ca_const|]. apply ca_scale. eapply ca_reading, sw_order_reading; eauto.
    - apply sw_shape in Ee as (L & R & r & _ & _ & _ & [[? _]|X]); [discriminate|].
      destruct X as (Rr & yv & v1 & v2 & _ & Hyv & H1 & H2 & _ & Eo). inversion Eo; subst.
      cbn [c_aff mk_ge].
      apply ca_sub; [eauto 12 using ca_plus|]. apply ca_add; [|eauto using ca_var].
      apply ca_sub; [apply ca_const|]. apply ca_scale. eapply ca_reading, sw_order_reading; eauto.
  Qed.

  Lemma obj_canon a : obj_aff tt dv ts d_max = Ok a -> ca a.
  Proof.
    unfold obj_aff. intros H. eapply (foldM_inv ca); [apply ca_const| |exact H].
    intros acc i acc' _ Hacc Hf. inv_bind Hf. eapply (foldM_inv ca); [exact Hacc| |exact Hf].
    intros acc1 s acc2 _ H1 H2. unfold obj_add in H2. cbv zeta in H2.
    destruct (Qeq_bool (penalty_weights tt i s) 0); [inversion H2; subst; auto|].
    inv_bind H2. inv_bind H2. inversion H2; subst. apply ca_add; auto.
    unfold objective_term in E1. destruct (Qeq_bool d_max 0); [discriminate|].
    inversion E1; subst. apply ca_scale, ca_scale, ca_var. eapply get2_canon; eauto.
  Qed.
End Vars.

(** ** A feasible solution of a constructed problem *)

Section Solution.
  Variables (ts : train_sets) (tt : timetable) (d_max : Q) (cat : vcat) (p : lpproblem)
            (x : assignment).
  Hypothesis RF : reserved_free ts.
  Hypothesis NF : none_free tt.
  Hypothesis Hd : 0 <= d_max.
  Hypothesis Hp : create_linear_problem ts tt d_max cat = Ok p.
  Hypothesis Hx : feasible p x.

  Lemma variables_canon dv y :
    delay_varibles ts d_max cat = Ok dv -> order_variables ts = Ok y ->
    p_constraints p = somes (emissions tt dv y ts d_max) ->
    obj_aff tt dv ts d_max = Ok (p_objective p) ->
    forall v, In v (variables p) -> canon ts d_max cat v.
  Proof.
    intros H1 H2 H3 H5 v Hv. apply variables_in in Hv as [Hv|(n & c & Hc & Hv)].
    - eapply obj_canon; eauto.
    - rewrite H3 in Hc. apply somes_emitted in Hc as (m & Hc & _). apply emission_origin in Hc as [[e He]|Ho]; [discriminate|].
      eapply origin_canon; [exact H1| |exact Ho|exact Hv]. eapply order_variables_ok; eauto.
  Qed.

  Lemma value_in_present i : In i (map v_id (variables p)) -> value_in p x i = x i.
  Proof. intros H. unfold value_in. apply lmem_true in H. rewrite H. reflexivity. Qed.

  Lemma delay_bounds j s : 0 <= value_in p x ("Delays", [j; s]) <= d_max.
  Proof.
    unfold value_in. destruct (lmem _ _) eqn:E; [|split; lra].
    apply lmem_true in E. apply in_map_iff in E as (v & Ev & Hv).
    destruct (create_inv _ _ _ _ _ Hp) as (dv & y & H1 & H2 & H3 & _ & _ & H5).
    assert (Hc := variables_canon dv y H1 H2 H3 H5 v Hv).
    assert (v = delay_var_of j s d_max cat).
    { destruct Hc as [(a & b & _ & ->)|(q & [->| ->])].
      - unfold v_id in Ev. simpl in Ev. inversion Ev; subst. reflexivity.
      - unfold v_id in Ev. simpl in Ev. inversion Ev.
      - unfold v_id in Ev. simpl in Ev. inversion Ev. }
    subst v. destruct Hx as [_ HB]. destruct (HB _ Hv) as (Hlo & Hup & _).
    specialize (Hlo 0 eq_refl). specialize (Hup d_max eq_refl). exact (conj Hlo Hup).
  Qed.

  Lemma order_binary i q :
    In i (map v_id (variables p)) -> (i = ("y", q) \/ i = ("z", q)) -> x i == 0 \/ x i == 1.
  Proof.
    intros Hi Hq. apply in_map_iff in Hi as (v & Ev & Hv).
    destruct (create_inv _ _ _ _ _ Hp) as (dv & y & H1 & H2 & H3 & _ & _ & H5).
    assert (Hc := variables_canon dv y H1 H2 H3 H5 v Hv).
    assert (HV : v_lo v = Some 0 /\ v_up v = Some 1 /\ v_cat v = Integer).
    { destruct Hc as [(a & b & _ & ->)|(q' & [->| ->])]; auto.
      unfold v_id in Ev; simpl in Ev. destruct Hq; subst i; discriminate. }
    destruct HV as (V1 & V2 & V3). destruct Hx as [_ HB]. destruct (HB _ Hv) as (Hlo & Hup & Hint).
    specialize (Hlo 0 V1). specialize (Hup 1 V2). destruct (Hint V3) as [z Hz].
    rewrite Ev in *. rewrite Hz in Hlo, Hup.
    assert (0 <= z <= 1)%Z.
    { unfold Qle in Hlo, Hup. simpl in Hlo, Hup. lia. }
    assert (z = 0 \/ z = 1)%Z as [->| ->] by lia; [left|right]; exact Hz.
  Qed.

  Lemma reading_binary y a :
    store_ok y -> reading y a ->
    (forall i, In i (aff_ids a) -> In i (map v_id (variables p))) ->
    eval a x == 0 \/ eval a x == 1.
  Proof.
    intros Hy (q & v & Hq & Ha) Hi.
    assert (HV : exists q', v_id v = ("y", q') \/ v_id v = ("z", q')).
    { apply (so_var _ Hy) in Hq. exists q. destruct Hq; subst; auto. }
    destruct HV as [q' HV].
    assert (Hin : In (v_id v) (map v_id (variables p))).
    { apply Hi. destruct Ha; subst a; [apply aff_var_ids|apply one_minus_ids]; reflexivity. }
    destruct (order_binary (v_id v) q' Hin HV) as [E|E]; destruct Ha; subst a;
      rewrite ?eval_var, ?one_minus_eval, E; first [left; lra|right; lra].
  Qed.

  (** The parts of the construction. *)
  Record parts (dv y : tree) : Prop := {
    pt_dv : delay_varibles ts d_max cat = Ok dv;
    pt_y : order_variables ts = Ok y;
    pt_store : store_ok y;
    pt_ok : forall e, origin tt dv y ts d_max e -> exists o, e = Ok o;
    pt_holds : forall n c, origin tt dv y ts d_max (Ok (Some (n, c))) -> holds c x;
    pt_vars : forall n c i, origin tt dv y ts d_max (Ok (Some (n, c))) ->
                In i (aff_ids (c_aff c)) -> In i (map v_id (variables p));
    pt_noerr : forall e, ~ In (Err e) (emissions tt dv y ts d_max) }.

  Lemma get_parts : exists dv y, parts dv y.
  Proof.
    destruct (create_inv _ _ _ _ _ Hp) as (dv & y & H1 & H2 & H3 & _ & H4 & H5).
    exists dv, y. split; auto.
    - eapply order_variables_ok; eauto.
    - intros e Ho. apply origin_emission in Ho; auto. destruct e as [o|e]; [eauto|].
      exfalso; eapply H4; eauto.
    - intros n c Ho. apply origin_emission in Ho; auto. destruct Hx as [HC _].
      apply (HC (constraint_name n)). rewrite H3. apply emitted_in. exact Ho.
    - intros n c i Ho Hi. apply origin_emission in Ho; auto. apply variables_ids. right.
      exists (constraint_name n), c. split; auto. rewrite H3. apply emitted_in. exact Ho.
  Qed.

  (** Departure time of a pair with known earliest departure. *)
  Definition dep (j s : pv) (e : Q) : Q := e + value_in p x ("Delays", [j; s]).

  Lemma departs_dep j s e :
    earliest_dep_time (ts_Paths ts) tt j s = Ok e -> departs ts tt p x j s (dep j s e).
  Proof.
    intros H. exists e. split; [|reflexivity]. eapply earliest_dep_time_sound; eauto.
  Qed.

  Section Parts.
    Variables (dv y : tree).
    Hypothesis P : parts dv y.

    Lemma get2_id j s v : get2 dv j s = Ok v -> v_id v = ("Delays", [j; s]).
    Proof.
      rewrite (get2_char ts d_max cat dv j s v (pt_dv _ _ P)). intros [_ ->]. reflexivity.
    Qed.

    Lemma get2_decided j s v : get2 dv j s = Ok v -> decided ts j s.
    Proof.
      rewrite (get2_char ts d_max cat dv j s v (pt_dv _ _ P)). intros [H _].
      apply has_delay_decided; auto.
    Qed.

    (** A conditional inequality with big M and a 0/1 order reading. *)
    Lemma conditional L R M yv :
      reading y yv -> (forall i, In i (aff_ids yv) -> In i (map v_id (variables p))) ->
      R - M * eval yv x <= L ->
      (eval yv x == 0 -> R <= L) /\ (eval yv x == 0 \/ eval yv x == 1).
    Proof.
      intros Hr Hi H. split.
      - intros E. rewrite E in H. lra.
      - eapply reading_binary; eauto. apply P.
    Qed.

    (** Directed guarantees of the generators. *)
    Lemma ms_dir s sp j jp :
      origin tt dv y ts d_max (ms_emit tt dv y ts d_max s sp j jp) ->
      exists e e' h, earliest_dep_time (ts_Paths ts) tt j s = Ok e /\
        earliest_dep_time (ts_Paths ts) tt jp s = Ok e' /\ headway tt j jp s sp h /\
        (dep j s e + h <= dep jp s e' \/
         exists yv, get_y3 y jp j s = Ok yv /\ (eval yv x == 0 \/ eval yv x == 1) /\
           (eval yv x == 0 -> dep j s e + h <= dep jp s e')).
    Proof.
      intros Ho. destruct (pt_ok _ _ P _ Ho) as [o Eo].
      destruct (ms_shape _ _ _ _ _ _ _ _ _ _ Eo) as (L & R & h & HL & HR & Hh & HC).
      exists R, L, h. split; [exact HR|]. split; [exact HL|].
      split; [apply dlookup_ok; exact Hh|].
      pose proof (delay_bounds j s) as B1. pose proof (delay_bounds jp s) as B2.
      unfold dep. destruct HC as [[_ HC]|(vjp & vj & yv & H1 & H2 & H3 & _ & ->)].
      - left. lra.
      - right. exists yv. split; [exact H3|]. rewrite Eo in Ho.
        pose proof (pt_holds _ _ P _ _ Ho) as HH. apply holds_ge in HH.
        unfold plus_var in HH. rewrite eval_sub, eval_scale, !eval_add, !eval_const, !eval_var in HH.
        rewrite (get2_id _ _ _ H1), (get2_id _ _ _ H2) in HH.
        rewrite !value_in_present.
        2:{ eapply (pt_vars _ _ P); [exact Ho|]. cbn [c_aff mk_ge]. rewrite aff_sub_ids, plus_var_ids.
            left. symmetry; eapply get2_id; eauto. }
        2:{ eapply (pt_vars _ _ P); [exact Ho|]. cbn [c_aff mk_ge].
            rewrite !aff_sub_ids, !plus_var_ids. right; left. symmetry; eapply get2_id; eauto. }
        destruct (conditional (L + x ("Delays", [jp; s])) (R + h + x ("Delays", [j; s]))
                    (get_M L (R + h) d_max) yv) as [C1 C2].
        + eapply get_y3_reading; eauto.
        + intros i Hi. eapply (pt_vars _ _ P); [exact Ho|]. cbn [c_aff mk_ge].
          rewrite !aff_sub_ids, aff_scale_ids. auto.
        + lra.
        + split; [exact C2|]. intros E. specialize (C1 E). lra.
    Qed.

    Lemma sl_dir s sp j jp :
      origin tt dv y ts d_max (sl_emit tt dv y ts d_max s sp j jp) ->
      exists e e' h, earliest_dep_time (ts_Paths ts) tt j s = Ok e /\
        earliest_dep_time (ts_Paths ts) tt jp sp = Ok e' /\ running tt jp sp s h /\
        (dep jp sp e' + h <= dep j s e \/
         exists yv, get_y4_singleline y j jp s sp = Ok yv /\ (eval yv x == 0 \/ eval yv x == 1) /\
           (eval yv x == 0 -> dep jp sp e' + h <= dep j s e)).
    Proof.
      intros Ho. destruct (pt_ok _ _ P _ Ho) as [o Eo].
      destruct (sl_shape _ _ _ _ _ _ _ _ _ _ Eo) as (L & R & h & HL & HR & Hh & HC).
      exists L, R, h. split; [exact HL|]. split; [exact HR|].
      split; [apply dlookup_ok; exact Hh|].
      pose proof (delay_bounds j s) as B1. pose proof (delay_bounds jp sp) as B2.
      unfold dep. destruct HC as [[_ HC]|(vj & vjp & yv & H1 & H2 & H3 & _ & ->)].
      - left. lra.
      - right. exists yv. split; [exact H3|]. rewrite Eo in Ho.
        pose proof (pt_holds _ _ P _ _ Ho) as HH. apply holds_ge in HH.
        unfold plus_var in HH. rewrite eval_sub, eval_scale, !eval_add, !eval_const, !eval_var in HH.
        rewrite (get2_id _ _ _ H1), (get2_id _ _ _ H2) in HH.
        rewrite !value_in_present.
        2:{ eapply (pt_vars _ _ P); [exact Ho|]. cbn [c_aff mk_ge]. rewrite aff_sub_ids, plus_var_ids.
            left. symmetry; eapply get2_id; eauto. }
        2:{ eapply (pt_vars _ _ P); [exact Ho|]. cbn [c_aff mk_ge].
            rewrite !aff_sub_ids, !plus_var_ids. right; left. symmetry; eapply get2_id; eauto. }
        destruct (conditional (L + x ("Delays", [j; s])) (R + h + x ("Delays", [jp; sp]))
                    (get_M L (R + h) d_max) yv) as [C1 C2].
        + eapply get_y4_reading; eauto.
        + intros i Hi. eapply (pt_vars _ _ P); [exact Ho|]. cbn [c_aff mk_ge].
          rewrite !aff_sub_ids, aff_scale_ids. auto.
        + lra.
        + split; [exact C2|]. intros E. specialize (C1 E). lra.
    Qed.
    (** Arrival time on the track, with the delay of the source of the arrival. *)
    Definition arr (L : Q) (src : option (pv * pv)) : Q :=
      match src with
      | Some (a, b) => L + value_in p x ("Delays", [a; b])
      | None => L
      end.

    Lemma arrival_occupies s jp L src :
      arrival tt ts s jp = Ok (L, src) -> occupies_from ts tt p x s jp (arr L src).
    Proof.
      intros H. apply arrival_shape in H as (path & sp & Hpath & Hprev & [X|[X|X]]).
      - destruct X as (pr & s_rp & e & tp & Hn & Hpr & Hprev' & He & Htp & -> & ->).
        left. exists (previous_train_from_Jround ts jp s). split.
        + destruct (previous_train_spec ts RF jp s) as [[_ H]|[H _]]; [exact H|congruence].
        + destruct (prev_cases ts RF _ _ _ _ Hpr Hprev') as [[-> _]|[_ Hb]].
          { exfalso. eapply edt_not_none; eauto. }
          exists s_rp, (dep (previous_train_from_Jround ts jp s) s_rp e), tp.
          split; [exact Hb|]. split; [apply departs_dep; exact He|].
          split; [apply dlookup_ok; exact Htp|]. unfold arr, dep. lra.
      - destruct X as (e & tp & Hn & Hsp & He & Htp & -> & ->). right; left. split.
        + destruct (previous_train_spec ts RF jp s) as [[H _]|[_ H]]; [congruence|exact H].
        + destruct (prev_cases ts RF _ _ _ _ Hpath Hprev) as [[-> _]|[_ Hb]]; [congruence|].
          exists sp, (dep jp sp e), tp.
          split; [exact Hb|]. split; [apply departs_dep; exact He|].
          split; [apply dlookup_ok; exact Htp|]. unfold arr, dep. lra.
      - destruct X as (Hn & -> & He & ->). right; right. split; [|split].
        + destruct (previous_train_spec ts RF jp s) as [[H _]|[_ H]]; [congruence|exact H].
        + destruct (prev_cases ts RF _ _ _ _ Hpath Hprev) as [[_ H]|[H _]]; [exact H|congruence].
        + eapply earliest_dep_time_sound; eauto.
    Qed.

    Lemma extra_gap s R0 R :
      extra_res s tt ts R0 = Ok R -> exists g, track_gap ts tt s g /\ R == R0 + g.
    Proof.
      intros H. apply extra_shape in H as [[-> H]|(l & r & H1 & H2 & H3 & ->)].
      - exists 0. split; [|ring]. right. split; [exact H|reflexivity].
      - exists r. split; [|reflexivity]. left. exists l. repeat split; auto.
        unfold tau_res in H3. unfold reservation. destruct (tt_res tt); congruence.
    Qed.

    Lemma tos_dir s j jp :
      origin tt dv y ts d_max (tos_emit tt dv y ts d_max s j jp) ->
      (exists jn y1 y2, continues_as ts s j jn /\ get_y3 y jp j s = Ok y1 /\
         get_y3 y jp jn s = Ok y2 /\ eval y1 x == eval y2 x /\
         (eval y1 x == 0 \/ eval y1 x == 1)) \/
      ((forall jn, ~ continues_as ts s j jn) /\
       exists a d g, occupies_from ts tt p x s jp a /\ departs ts tt p x j s d /\
         track_gap ts tt s g /\
         (d + g <= a \/
          exists yv, get_y3 y jp j s = Ok yv /\ (eval yv x == 0 \/ eval yv x == 1) /\
            (eval yv x == 0 -> d + g <= a))).
    Proof.
      intros Ho. destruct (pt_ok _ _ P _ Ho) as [o Eo]. rewrite Eo in Ho.
      destruct (tos_shape _ _ _ _ _ _ _ _ _ Eo) as [(Hn & y1 & y2 & H1 & H2 & Eo')|X].
      - left. subst o. destruct (subsequent_train_spec ts RF j s) as [[_ Hc]|[H _]]; [|congruence].
        exists (subsequent_train_at_Jround ts j s), y1, y2. repeat split; auto.
        + pose proof (pt_holds _ _ P _ _ Ho) as HH. apply holds_eq in HH. exact HH.
        + eapply reading_binary; [apply P|eapply get_y3_reading; eauto|].
          intros i Hi. eapply (pt_vars _ _ P); [exact Ho|]. cbn [c_aff mk_eq].
          rewrite aff_sub_ids. auto.
      - right. destruct X as (Hn & L & src & R0 & R & Ha & HR0 & HR & HC). split.
        { destruct (subsequent_train_spec ts RF j s) as [[H _]|[_ H]]; [congruence|exact H]. }
        destruct (extra_gap _ _ _ HR) as (g & Hg & Eg).
        exists (arr L src), (dep j s R0), g.
        split; [apply arrival_occupies; exact Ha|]. split; [apply departs_dep; exact HR0|].
        split; [exact Hg|].
        pose proof (delay_bounds j s) as B1.
        assert (B2 : L <= arr L src).
        { unfold arr. destruct src as [[a b]|]; [|lra]. pose proof (delay_bounds a b). lra. }
        unfold dep. destruct HC as [[_ HC]|(La & yv & v & HLa & Hyv & Hv & _ & ->)].
        + left. lra.
        + right. exists yv. split; [exact Hyv|].
          pose proof (pt_holds _ _ P _ _ Ho) as HH. apply holds_ge in HH.
          rewrite !eval_sub, eval_scale, eval_const, eval_var, (get2_id _ _ _ Hv) in HH.
          assert (EL : eval La x == arr L src).
          { unfold arrival_aff in HLa. destruct src as [[a b]|]; simpl.
            - inv_bind HLa. inversion HLa; subst La. unfold plus_var.
              rewrite eval_add, eval_const, eval_var, (get2_id _ _ _ E).
              rewrite value_in_present; [reflexivity|].
              eapply (pt_vars _ _ P); [exact Ho|]. cbn [c_aff mk_ge].
              rewrite !aff_sub_ids, plus_var_ids. left; left. symmetry; eapply get2_id; eauto.
            - inversion HLa; subst La. apply eval_const. }
          rewrite (value_in_present ("Delays", [j; s])).
          2:{ eapply (pt_vars _ _ P); [exact Ho|]. cbn [c_aff mk_ge].
              rewrite !aff_sub_ids, aff_var_ids. left; right. symmetry; eapply get2_id; eauto. }
          destruct (conditional (arr L src) (R + x ("Delays", [j; s]))
                    (get_M L R d_max) yv) as [C1 C2].
          * eapply get_y3_reading; eauto.
          * intros i Hi. eapply (pt_vars _ _ P); [exact Ho|]. cbn [c_aff mk_ge].
            rewrite !aff_sub_ids, aff_scale_ids. auto.
          * rewrite <- EL. lra.
          * split; [exact C2|]. intros E0. specialize (C1 E0). lra.
    Qed.

    (** Use of a switch, from the departure station of the pair. *)
    Lemma at_switch_uses s j pair sp t :
      departure_station4switches s j pair ts = Ok sp -> at_switch tt ts s j sp t ->
      uses_switch ts tt p x s pair j (t + value_in p x ("Delays", [j; sp])).
    Proof.
      unfold departure_station4switches. intros H (e & He & HC). inv_bind H.
      apply dlookup_ok in E. destruct (eqb a (PStr "out")) eqn:Eo.
      - apply eqb_eq in Eo. inversion H; subst a sp. left. split; [exact E|].
        destruct HC as [[_ ->]|[Hn _]]; [|congruence]. apply departs_dep. exact He.
      - destruct (eqb a (PStr "in")) eqn:Ei.
        + apply eqb_eq in Ei. subst a. inv_bind H. apply dlookup_ok in E0.
          right. split; [exact E|].
          destruct (prev_cases ts RF _ _ _ _ E0 H) as [[-> _]|[_ Hb]].
          { exfalso. eapply edt_not_none; eauto. }
          destruct HC as [[<- _]|[_ (r & Hr & ->)]].
          { exfalso. destruct Hb as (path & l1 & l2 & _ & _ & Hs). apply Hs.
            apply in_app_iff; simpl; auto. }
          exists sp, (dep j sp e), r. split; [exact Hb|]. split; [apply departs_dep; exact He|].
          split; [apply dlookup_ok; exact Hr|]. unfold dep. lra.
        + inversion H; subst. exfalso. eapply edt_not_none; eauto.
    Qed.

    Lemma sw_dir s jp sp jpp spp pair :
      departure_station4switches s jp pair ts = Ok sp ->
      departure_station4switches s jpp pair ts = Ok spp ->
      origin tt dv y ts d_max (sw_emit tt dv y ts d_max s jp sp jpp spp) ->
      exists t t' r, uses_switch ts tt p x s pair jp (t + value_in p x ("Delays", [jp; sp])) /\
        uses_switch ts tt p x s pair jpp (t' + value_in p x ("Delays", [jpp; spp])) /\
        at_switch tt ts s jp sp t /\ at_switch tt ts s jpp spp t' /\
        reservation tt r /\
        (t' + value_in p x ("Delays", [jpp; spp]) + r <= t + value_in p x ("Delays", [jp; sp]) \/
         exists yv, sw_order y ts s jp sp jpp spp = Ok yv /\
           (eval yv x == 0 \/ eval yv x == 1) /\
           (eval yv x == 0 ->
            t' + value_in p x ("Delays", [jpp; spp]) + r <= t + value_in p x ("Delays", [jp; sp]))).
    Proof.
      intros D1 D2 Ho. destruct (pt_ok _ _ P _ Ho) as [o Eo]. rewrite Eo in Ho.
      destruct (sw_shape _ _ _ _ _ _ _ _ _ _ _ Eo) as (L & R & r & HL & HR & Hr & HC).
      exists L, R, r. split; [eapply at_switch_uses; eauto|]. split; [eapply at_switch_uses; eauto|].
      split; [exact HL|]. split; [exact HR|]. split.
      { unfold tau_res in Hr. unfold reservation. destruct (tt_res tt); congruence. }
      pose proof (delay_bounds jp sp) as B1. pose proof (delay_bounds jpp spp) as B2.
      destruct HC as [[_ HC]|(Rr & yv & v1 & v2 & ERr & Hyv & H1 & H2 & _ & ->)].
      - left. lra.
      - right. exists yv. split; [exact Hyv|].
        pose proof (pt_holds _ _ P _ _ Ho) as HH. apply holds_ge in HH.
        unfold plus_var in HH.
        rewrite !eval_add, !eval_sub, !eval_scale, !eval_const, !eval_var in HH.
        rewrite (get2_id _ _ _ H1), (get2_id _ _ _ H2) in HH.
        rewrite !value_in_present.
        2:{ eapply (pt_vars _ _ P); [exact Ho|]. cbn [c_aff mk_ge]. rewrite aff_sub_ids, plus_var_ids.
            left. symmetry; eapply get2_id; eauto. }
        2:{ eapply (pt_vars _ _ P); [exact Ho|]. cbn [c_aff mk_ge].
            rewrite !aff_sub_ids, aff_add_ids, aff_var_ids. right; right.
            symmetry; eapply get2_id; eauto. }
        destruct (conditional (L + x ("Delays", [jp; sp])) (Rr + x ("Delays", [jpp; spp]))
                    (get_M L Rr d_max) yv) as [C1 C2].
        + eapply sw_order_reading; eauto.
        + intros i Hi. eapply (pt_vars _ _ P); [exact Ho|]. cbn [c_aff mk_ge].
          rewrite !aff_sub_ids, aff_add_ids, aff_sub_ids, aff_scale_ids. auto.
        + lra.
        + split; [exact C2|]. intros E. specialize (C1 E). lra.
    Qed.
  End Parts.

  (** ** Conflict-freeness *)

  Lemma complementary_zero a b :
    complementary a b -> (eval a x == 0 \/ eval a x == 1) -> eval a x == 0 \/ eval b x == 0.
  Proof.
    intros Hc [H|H]; [auto|]. right. pose proof (complementary_eval a b x Hc) as E.
    rewrite H in E. lra.
  Qed.

  (** C01 *)
  Theorem headways_kept s inner sp groups js j jp :
    In (s, inner) (ts_Jd ts) -> In (sp, groups) inner -> In js groups -> listed js j jp -> j <> jp ->
    exists t t' h h', departs ts tt p x j s t /\ departs ts tt p x jp s t' /\
      headway tt j jp s sp h /\ headway tt jp j s sp h' /\ separated t t' h h'.
  Proof.
    intros H1 H2 H3 H4 Hne. destruct get_parts as (dv & y & P).
    assert (HS : in_span ts s sp j jp)
      by (exists inner, groups, js; repeat split; auto; apply listed_combinations; auto).
    destruct (ms_dir dv y P s sp j jp (o_ms _ _ _ _ _ _ _ _ _ HS))
      as (e & e' & h & He & He' & Hh & D1).
    destruct (ms_dir dv y P s sp jp j (o_ms' _ _ _ _ _ _ _ _ _ HS))
      as (e1 & e1' & h' & He1 & He1' & Hh' & D2).
    assert (e1 = e') by congruence. assert (e1' = e) by congruence. subst e1 e1'.
    exists (dep j s e), (dep jp s e'), h, h'.
    split; [apply departs_dep; auto|]. split; [apply departs_dep; auto|].
    split; [exact Hh|]. split; [exact Hh'|]. unfold separated.
    destruct D1 as [D1|(y1 & Hy1 & B1 & D1)]; [auto|].
    destruct D2 as [D2|(y2 & Hy2 & B2 & D2)]; [auto|].
    destruct (complementary_zero y1 y2) as [Z|Z]; auto.
    eapply get_y3_complementary; [apply P| |exact Hy1|exact Hy2]. auto.
  Qed.

  (** C02 *)
  Theorem single_line_kept s sp l j jp :
    In ((s, sp), l) (ts_Josingle ts) -> In (j, jp) l -> j <> jp -> ~ same_rolling_stock ts j jp ->
    exists t t' r r', departs ts tt p x j s t /\ departs ts tt p x jp sp t' /\
      running tt j s sp r /\ running tt jp sp s r' /\ separated t t' r r'.
  Proof.
    intros H1 H2 Hne Hns. destruct get_parts as (dv & y & P).
    assert (HS : in_line ts s sp j jp)
      by (exists l; repeat split; auto; apply not_same_rolling_spec; auto).
    destruct (sl_dir dv y P s sp j jp (o_sl _ _ _ _ _ _ _ _ _ HS))
      as (e & e' & r' & He & He' & Hr' & D1).
    destruct (sl_dir dv y P sp s jp j (o_sl' _ _ _ _ _ _ _ _ _ HS))
      as (e1 & e1' & r & He1 & He1' & Hr & D2).
    assert (e1 = e') by congruence. assert (e1' = e) by congruence. subst e1 e1'.
    exists (dep j s e), (dep jp sp e'), r, r'.
    split; [apply departs_dep; auto|]. split; [apply departs_dep; auto|].
    split; [exact Hr|]. split; [exact Hr'|]. unfold separated.
    destruct D1 as [D1|(y1 & Hy1 & B1 & D1)]; [auto|].
    destruct D2 as [D2|(y2 & Hy2 & B2 & D2)]; [auto|].
    destruct (complementary_zero y1 y2) as [Z|Z]; auto.
    destruct (mention_single ts _ _ _ _ H1 H2) as (M1 & M2 & M3 & M4).
    eapply get_y4_complementary; [apply P|exact Hne| | | | |exact Hy1|exact Hy2];
      eauto using rf_train, rf_station.
  Qed.

  (** C03 *)
  Theorem minimal_stay_kept j sp s :
    In j (ts_J ts) -> comes_before ts j sp s -> decided ts j s ->
    exists t t' r st, departs ts tt p x j sp t /\ departs ts tt p x j s t' /\
      running tt j sp s r /\ min_stop tt j s st /\ t + r + st <= t'.
  Proof.
    intros Hj Hb Hdec. destruct get_parts as (dv & y & P).
    destruct (proj1 (comes_before_prev ts j sp s) Hb) as (path & Hpath & Hprev & Hns).
    destruct (before_on_path ts j sp s Hb) as (path' & Hpath' & _ & Hin).
    assert (path' = path) by congruence; subst path'.
    assert (Ho := o_stay tt dv y ts d_max j s path Hj Hpath Hin).
    destruct (pt_ok _ _ P _ Ho) as [o Eo]. rewrite Eo in Ho.
    destruct (stay_shape _ _ _ _ _ _ Eo) as (path' & sp' & Hpath'' & Hprev' & X).
    assert (path' = path) by congruence; subst path'.
    assert (sp' = sp) by congruence; subst sp'.
    destruct X as [[_ Hn]|[_ (dj & Hdj & X)]]; [exfalso; eapply before_not_none; eauto|].
    assert (Hleaf : tpath [j; s] dv = Some (delay_var_of j s d_max cat)).
    { apply (delay_varibles_char ts d_max cat dv (pt_dv _ _ P)).
      split; [apply has_delay_decided; auto|reflexivity]. }
    destruct X as [[_ Hm]|[_ (v & vp & L & R & tp & st & Hv & Hvp & HL & HR & Htp & Hst & ->)]].
    - exfalso. destruct dv as [w|e]; [discriminate Hleaf|]. simpl in Hdj.
      apply dlookup_ok in Hdj. cbn [tpath] in Hleaf. rewrite Hdj in Hleaf.
      destruct dj as [w|e']; [discriminate|]. simpl in Hm. apply dmem_false in Hm.
      apply dget_none in Hm. rewrite Hm in Hleaf. discriminate.
    - exists (dep j sp R), (dep j s L), tp, st.
      split; [apply departs_dep; auto|]. split; [apply departs_dep; auto|].
      split; [apply dlookup_ok; exact Htp|]. split; [apply dlookup_ok; exact Hst|].
      pose proof (pt_holds _ _ P _ _ Ho) as HH. apply holds_ge in HH. unfold plus_var in HH.
      rewrite !eval_add, !eval_const, !eval_var, (get2_id dv y P _ _ _ Hv), (get2_id dv y P _ _ _ Hvp) in HH.
      unfold dep. rewrite !value_in_present; [lra| |].
      + eapply (pt_vars _ _ P); [exact Ho|]. cbn [c_aff mk_ge]. rewrite aff_sub_ids, !plus_var_ids.
        left. symmetry; eapply get2_id; eauto.
      + eapply (pt_vars _ _ P); [exact Ho|]. cbn [c_aff mk_ge]. rewrite aff_sub_ids, !plus_var_ids.
        right. symmetry; eapply get2_id; eauto.
  Qed.

  (** C06 *)
  Theorem circulation_kept s l j jp :
    In (s, l) (ts_Jround ts) -> In (j, jp) l ->
    exists t t' pr, arrives ts tt p x j s t /\ departs ts tt p x jp s t' /\
      preparation tt jp s pr /\ t + pr <= t'.
  Proof.
    intros H1 H2. destruct get_parts as (dv & y & P).
    assert (HS : in_circ ts s j jp) by (exists l; auto).
    assert (Ho := o_circ tt dv y ts d_max s j jp HS).
    destruct (pt_ok _ _ P _ Ho) as [o Eo]. rewrite Eo in Ho.
    destruct (circ_shape _ _ _ _ _ _ _ _ Eo)
      as (path & sp & L0 & R & tp & pr & Hpath & Hprev & HL & HR & Htp & Hpr & X).
    exists (dep j sp L0 + tp), (dep jp s R), pr. split.
    { destruct (prev_cases ts RF _ _ _ _ Hpath Hprev) as [[-> _]|[_ Hb]].
      - exfalso. eapply edt_not_none; eauto.
      - exists sp, (dep j sp L0), tp. split; [exact Hb|]. split; [apply departs_dep; auto|].
        split; [apply dlookup_ok; exact Htp|reflexivity]. }
    split; [apply departs_dep; auto|]. split; [apply dlookup_ok; exact Hpr|].
    pose proof (delay_bounds j sp) as B1. pose proof (delay_bounds jp s) as B2.
    unfold dep. destruct X as [[_ X]|(v1 & v2 & Hv1 & Hv2 & _ & ->)]; [lra|].
    pose proof (pt_holds _ _ P _ _ Ho) as HH. apply holds_ge in HH. unfold plus_var in HH.
    rewrite !eval_add, !eval_const, !eval_var, (get2_id dv y P _ _ _ Hv1), (get2_id dv y P _ _ _ Hv2) in HH.
    rewrite !value_in_present; [lra| |].
    - eapply (pt_vars _ _ P); [exact Ho|]. cbn [c_aff mk_ge]. rewrite aff_sub_ids, !plus_var_ids.
      left. symmetry; eapply get2_id; eauto.
    - eapply (pt_vars _ _ P); [exact Ho|]. cbn [c_aff mk_ge]. rewrite aff_sub_ids, !plus_var_ids.
      right. symmetry; eapply get2_id; eauto.
  Qed.

  (** C07 *)
  Lemma not_before_schedule_ge j s t e :
    not_before_schedule tt j s t e -> t <= e /\ forall q, scheduled tt j s q -> q <= e.
  Proof.
    intros [(q & Hq & HC)|[Hn E]]; (split; [lra|]); intros q' Hq'.
    - unfold scheduled in *. assert (q' = q) by congruence. subst. lra.
    - exfalso. eapply Hn; eauto.
  Qed.

  Lemma earliest_ge j s e :
    earliest ts tt j s e ->
    (forall q, scheduled tt j s q -> q <= e) /\ (forall q, initially tt j s q -> q <= e).
  Proof.
    intros H. inversion H as [s' i e' H1 H2|s' sp e0 r st e' H1 H2 H3 H4 H5 H6]; subst;
      [apply not_before_schedule_ge in H2|apply not_before_schedule_ge in H6].
    - split; [tauto|]. intros q Hq. unfold initially in *. assert (q = i) by congruence. subst. tauto.
    - split; [tauto|]. intros q Hq. exfalso. eapply H1; eauto.
  Qed.

  Theorem departure_bounds j s t :
    departs ts tt p x j s t ->
    (forall q, scheduled tt j s q -> q <= t) /\ (forall q, initially tt j s q -> q <= t) /\
    (forall e, earliest ts tt j s e -> e <= t <= e + d_max).
  Proof.
    intros (e & He & Et). pose proof (delay_bounds j s) as B.
    destruct (earliest_ge j s e He) as [G1 G2]. repeat split.
    - intros q Hq. specialize (G1 q Hq). lra.
    - intros q Hq. specialize (G2 q Hq). lra.
    - assert (E := earliest_fun ts tt j s e0 e H He). lra.
    - assert (E := earliest_fun ts tt j s e0 e H He). lra.
  Qed.

  (** Orders of a switch pair read in both directions. *)
  Lemma sw_complementary y s jp sp jpp spp pair l a b :
    store_ok y -> In (s, l) (ts_Jswitch ts) -> In pair l -> jp <> jpp ->
    In jp (dkeys pair) -> In jpp (dkeys pair) ->
    departure_station4switches s jp pair ts = Ok sp ->
    departure_station4switches s jpp pair ts = Ok spp ->
    sw_order y ts s jp sp jpp spp = Ok a -> sw_order y ts s jpp spp jp sp = Ok b ->
    complementary a b.
  Proof.
    intros Hy H1 H2 Hne K1 K2 D1 D2 Ha Hb. unfold sw_order in *.
    assert (N1 : train_name_ok jp) by (eapply rf_train; eauto; eapply mention_switch; eauto).
    assert (N2 : train_name_ok jpp) by (eapply rf_train; eauto; eapply mention_switch; eauto).
    assert (S1 : station_name_ok sp) by (eapply departure_station_ok; [|exact H1|exact H2|exact K1|]; eauto).
    assert (S2 : station_name_ok spp) by (eapply departure_station_ok; [|exact H1|exact H2|exact K2|]; eauto).
    rewrite (eqb_sym sp spp) in Hb. destruct (eqb spp sp) eqn:E.
    - apply eqb_eq in E; subst spp. destruct (eqb sp s).
      + exact (get_y3_complementary _ _ _ _ _ _ Hy Hne Ha Hb).
      + inv_bind Ha. inv_bind Hb. rename a0 into m1, a1 into m2.
        assert (m1 = m2).
        { clear - E E0. unfold can_MO_on_line in *.
          inv_bind E. inv_bind E. inv_bind E. inv_bind E.
          inv_bind E0. inv_bind E0. inv_bind E0. inv_bind E0.
          assert (a3 = a1) by congruence. subst a3. assert (a5 = a) by congruence. subst a5.
          assert (a4 = a2) by congruence. subst a4. assert (a6 = a0) by congruence. subst a6.
          destruct (ts_Jd ts); [congruence|].
          rewrite (orb_comm (is_none a2)) in E0. destruct (is_none a0 || is_none a2); [congruence|].
          rewrite (eqb_sym a2 a0) in E0. destruct (eqb a0 a2) eqn:Eq; cbn [negb] in *; [|congruence].
          apply eqb_eq in Eq; subst a2. inv_bind E. inv_bind E. inv_bind E0. inv_bind E0.
          assert (a4 = a2) by congruence. subst a4. assert (a5 = a3) by congruence. subst a5.
          rewrite occurs_as_pair_sym in E0. congruence. }
        subst m2. destruct m1.
        * exact (get_in_complementary _ _ _ _ _ _ Hy Hne N1 N2 Ha Hb).
        * exact (get_y3_complementary _ _ _ _ _ _ Hy Hne Ha Hb).
    - rewrite (orb_comm (eqb s sp)) in Hb. destruct (eqb s spp || eqb s sp).
      + exact (get_y4_complementary _ _ _ _ _ _ _ Hy Hne N1 N2 S1 S2 Ha Hb).
      + exact (get_in_complementary _ _ _ _ _ _ Hy Hne N1 N2 Ha Hb).
  Qed.

  (** C05 *)
  Theorem switches_kept s l pair jp jpp a b :
    In (s, l) (ts_Jswitch ts) -> In pair l -> pair = [(jp, a); (jpp, b)] -> jp <> jpp ->
    ~ same_rolling_stock ts jp jpp ->
    exists t t' r, uses_switch ts tt p x s pair jp t /\ uses_switch ts tt p x s pair jpp t' /\
      reservation tt r /\ separated t t' r r.
  Proof.
    intros H1 H2 Epair Hne Hns. destruct get_parts as (dv & y & P).
    assert (HS : in_switch ts s pair jp jpp).
    { exists l. repeat split; auto; [subst pair; reflexivity|]. apply not_same_rolling_spec; auto. }
    destruct (switch_departures_ok tt dv y ts d_max (pt_noerr _ _ P) s pair jp jpp HS)
      as (sp & spp & D1 & D2).
    destruct (sw_dir dv y P s jp sp jpp spp pair D1 D2 (o_sw _ _ _ _ _ _ _ _ _ _ _ HS D1 D2))
      as (t & t' & r & U1 & U2 & A1 & A2 & Hr & X1).
    destruct (sw_dir dv y P s jpp spp jp sp pair D2 D1 (o_sw' _ _ _ _ _ _ _ _ _ _ _ HS D1 D2))
      as (u' & u & r' & _ & _ & A2' & A1' & Hr' & X2).
    assert (r' = r) by (unfold reservation in *; congruence). subst r'.
    assert (u = t).
    { clear - A1 A1'. destruct A1 as (e & He & HC), A1' as (e' & He' & HC').
      assert (e' = e) by congruence; subst e'.
      destruct HC as [[? ->]|[? (q & Hq & ->)]], HC' as [[? ->]|[? (q' & Hq' & ->)]]; congruence. }
    assert (u' = t').
    { clear - A2 A2'. destruct A2 as (e & He & HC), A2' as (e' & He' & HC').
      assert (e' = e) by congruence; subst e'.
      destruct HC as [[? ->]|[? (q & Hq & ->)]], HC' as [[? ->]|[? (q' & Hq' & ->)]]; congruence. }
    subst u u'.
    exists (t + value_in p x ("Delays", [jp; sp])), (t' + value_in p x ("Delays", [jpp; spp])), r.
    split; [exact U1|]. split; [exact U2|]. split; [exact Hr|]. unfold separated.
    destruct X1 as [X1|(y1 & Hy1 & B1 & X1)]; [auto|].
    destruct X2 as [X2|(y2 & Hy2 & B2 & X2)]; [auto|].
    destruct (complementary_zero y1 y2) as [Z|Z]; auto.
    eapply sw_complementary; [apply P|exact H1|exact H2|exact Hne| | |exact D1|exact D2|exact Hy1|exact Hy2];
      subst pair; simpl; auto.
  Qed.

  (** C70 *)
  Lemma sw_pair s j k : crosses_at ts s j k -> j <> k -> ~ same_rolling_stock ts j k ->
    exists l pair, In (s, l) (ts_Jswitch ts) /\ In pair l /\
      dget j pair = Some (PStr "out") /\ dget k pair = Some (PStr "in") /\
      In j (dkeys pair) /\ In k (dkeys pair) /\
      forall dv y sp spp, departure_station4switches s j pair ts = Ok sp -> departure_station4switches s k pair ts = Ok spp ->
        origin tt dv y ts d_max (sw_emit tt dv y ts d_max s j sp k spp) /\
        origin tt dv y ts d_max (sw_emit tt dv y ts d_max s k spp j sp).
  Proof.
    intros (l & pair & H1 & H2 & HP) Hne Hns. exists l, pair. split; [exact H1|]. split; [exact H2|].
    assert (NS : not_the_same_rolling_stock j k ts = true) by (apply not_same_rolling_spec; auto).
    assert (NS' : not_the_same_rolling_stock k j ts = true).
    { apply not_same_rolling_spec; auto. intros [N (s0 & ps & I & J)]. apply Hns. split; [auto|]. exists s0, ps. tauto. }
    destruct HP as [E|E].
    - assert (HS : in_switch ts s pair j k) by (exists l; repeat split; auto; subst pair; reflexivity).
      subst pair. cbn. destruct (eq_dec j j); [|congruence]. destruct (eq_dec k j); [congruence|]. destruct (eq_dec k k); [|congruence].
      split; [reflexivity|]. split; [reflexivity|]. split; [auto|]. split; [auto|].
      intros dv y sp spp D1 D2. split; [eapply o_sw|eapply o_sw']; eauto.
    - assert (HS : in_switch ts s pair k j) by (exists l; repeat split; auto; subst pair; reflexivity).
      subst pair. cbn. destruct (eq_dec j j); [|congruence]. destruct (eq_dec j k); [congruence|]. destruct (eq_dec k k); [|congruence].
      split; [reflexivity|]. split; [reflexivity|]. split; [auto|]. split; [auto|].
      intros dv y sp spp D1 D2. split; [eapply o_sw'|eapply o_sw]; eauto.
  Qed.

  Theorem opposite_switches_kept s s2 j k :
    crosses_at ts s j k -> crosses_at ts s2 k j -> comes_before ts j s s2 -> comes_before ts k s2 s ->
    j <> k -> s <> s2 -> ~ same_rolling_stock ts j k ->
    exists a b q q' r, departs ts tt p x j s a /\ departs ts tt p x k s2 b /\
      running tt j s s2 q /\ running tt k s2 s q' /\ reservation tt r /\
      separated a b (q + r) (q' + r).
  Proof.
    intros C1 C2 B1 B2 Hne Hss Hns. destruct get_parts as (dv & y & P).
    assert (Hns' : ~ same_rolling_stock ts k j).
    { intros [N (s0 & ps & I & J)]. apply Hns. split; [auto|]. exists s0, ps. tauto. }
    destruct (sw_pair s j k C1 Hne Hns) as (l & pair & H1 & H2 & L1 & L2 & I1 & I2 & O).
    destruct (sw_pair s2 k j C2 (not_eq_sym Hne) Hns') as (l' & pair' & H1' & H2' & L1' & L2' & I1' & I2' & O').
    apply comes_before_prev in B1 as (pj & Pj & Qj & _). apply comes_before_prev in B2 as (pk & Pk & Qk & _).
    assert (D1 : departure_station4switches s j pair ts = Ok s) by (unfold departure_station4switches, dlookup; rewrite L1; reflexivity).
    assert (D2 : departure_station4switches s k pair ts = Ok s2) by (unfold departure_station4switches, dlookup; rewrite L2, Pk; exact Qk).
    assert (D1' : departure_station4switches s2 k pair' ts = Ok s2) by (unfold departure_station4switches, dlookup; rewrite L1'; reflexivity).
    assert (D2' : departure_station4switches s2 j pair' ts = Ok s) by (unfold departure_station4switches, dlookup; rewrite L2', Pj; exact Qj).
    destruct (O dv y _ _ D1 D2) as [O1 _]. destruct (O' dv y _ _ D1' D2') as [O2 _].
    destruct (sw_dir dv y P s j s k s2 pair D1 D2 O1) as (t & t' & r & _ & _ & A1 & A2 & Hr & X1).
    destruct (sw_dir dv y P s2 k s2 j s pair' D1' D2' O2) as (u' & u & r' & _ & _ & A2' & A1' & Hr' & X2).
    assert (r' = r) by (unfold reservation in *; congruence). subst r'.
    destruct A1 as (e & He & [[_ ->]|[N _]]); [|congruence]. destruct A2' as (e' & He' & [[_ ->]|[N _]]); [|congruence].
    destruct A2 as (e2 & He2 & [[N _]|[_ (q' & Hq' & ->)]]); [congruence|].
    destruct A1' as (e1 & He1 & [[N _]|[_ (q & Hq & ->)]]); [congruence|].
    assert (e2 = e') by congruence. assert (e1 = e) by congruence. subst e1 e2.
    exists (e + value_in p x ("Delays", [j; s])), (e' + value_in p x ("Delays", [k; s2])), q, q', r.
    split; [apply departs_dep; exact He|]. split; [apply departs_dep; exact He'|].
    split; [apply dlookup_ok; exact Hq|]. split; [apply dlookup_ok; exact Hq'|]. split; [exact Hr|].
    unfold separated.
    destruct X1 as [X1|(y1 & Hy1 & V1 & X1)]; [right; lra|].
    destruct X2 as [X2|(y2 & Hy2 & V2 & X2)]; [left; lra|].
    assert (CO : complementary y1 y2).
    { apply (sw_complementary y s j s k s2 pair l y1 y2); auto; [apply P|].
      unfold sw_order in *. assert (E1 : eqb s s2 = false) by (apply eqb_false; exact Hss).
      rewrite (eqb_sym s2 s) in Hy2. rewrite E1 in Hy2 |- *. rewrite eqb_refl in *. rewrite orb_true_r in Hy2. cbn [orb]. exact Hy2. }
    destruct (complementary_zero y1 y2 CO V1) as [Z|Z].
    - right. specialize (X1 Z). lra.
    - left. specialize (X2 Z). lra.
  Qed.

  (** C04 *)
  Lemma track_skip_spec j s b :
    track_skip j s ts = Ok b -> ~ names_skip ts j s -> b = false.
  Proof.
    unfold track_skip. intros H Hn. destruct (ts_skip ts) as [sk|] eqn:Esk; [|congruence].
    destruct (dget j sk) as [[| |name]|] eqn:Ed; try congruence.
    destruct s as [| |s']; try congruence. inversion H; subst b.
    destruct (str_contains s' name) eqn:E; [|reflexivity].
    exfalso. apply Hn. exists sk, name, s'. apply str_contains_iff in E. auto.
  Qed.

  Lemma same_rolling_sym j jp : same_rolling_stock ts j jp -> same_rolling_stock ts jp j.
  Proof. intros (Hn & s & pairs & H & H'). split; [auto|]. exists s, pairs. tauto. Qed.

  Lemma tos_origin dv y (P : parts dv y) s j jp :
    shares_track ts s j jp -> ~ same_rolling_stock ts j jp -> ~ names_skip ts j s ->
    origin tt dv y ts d_max (tos_emit tt dv y ts d_max s j jp).
  Proof.
    intros (groups & js & H1 & H2 & [H3|H3]) Hns Hsk.
    - assert (HT : in_track ts s j jp).
      { exists groups, js. repeat split; auto; [apply listed_combinations; auto|].
        apply not_same_rolling_spec; auto. }
      destruct (track_skip_ok tt dv y ts d_max (pt_noerr _ _ P) s j jp HT) as (b1 & b2 & E1 & E2).
      apply o_tos'; auto. rewrite E2. f_equal. eapply track_skip_spec; eauto.
    - assert (HT : in_track ts s jp j).
      { exists groups, js. repeat split; auto; [apply listed_combinations; auto|].
        apply not_same_rolling_spec; auto. intros H; apply Hns, same_rolling_sym; auto. }
      destruct (track_skip_ok tt dv y ts d_max (pt_noerr _ _ P) s jp j HT) as (b1 & b2 & E1 & E2).
      apply o_tos; auto. rewrite E1. f_equal. eapply track_skip_spec; eauto.
  Qed.

  Lemma track_gap_fun s g g' : track_gap ts tt s g -> track_gap ts tt s g' -> g == g'.
  Proof.
    intros [(l & H1 & H2 & H3)|[H1 H2]] [(l' & H1' & H2' & H3')|[H1' H2']].
    - unfold reservation in *. rewrite H3 in H3'. inversion H3'; reflexivity.
    - exfalso. eapply H1'; eauto.
    - exfalso. eapply H1; eauto.
    - lra.
  Qed.

  (** One direction: [jp] comes only after [j] (or its continuation) has gone, if the order
      variable says so. *)
  Lemma track_dir dv y (P : parts dv y) s j jp :
    shares_track ts s j jp -> ~ same_rolling_stock ts j jp -> ~ names_skip ts j s ->
    turnaround_closed ts s j jp ->
    exists a d g, occupies_from ts tt p x s jp a /\ occupies_until ts tt p x s j d /\
      track_gap ts tt s g /\
      (d + g <= a \/
       exists yv, get_y3 y jp j s = Ok yv /\ (eval yv x == 0 \/ eval yv x == 1) /\
         (eval yv x == 0 -> d + g <= a)).
  Proof.
    intros H1 H2 H3 HC.
    destruct (tos_dir dv y P s j jp (tos_origin dv y P s j jp H1 H2 H3)) as [X|X].
    - destruct X as (jn & y1 & y2 & Hc & Hy1 & Hy2 & E12 & B).
      destruct (HC jn Hc) as (C1 & C2 & C4 & C5).
      destruct (tos_dir dv y P s jn jp (tos_origin dv y P s jn jp C1 C2 C4)) as [Z|Z].
      { destruct Z as (k & _ & _ & Hk & _). exfalso. eapply C5; eauto. }
      destruct Z as (_ & a & d & g & Ha & Hdep & Hg & D). exists a, d, g.
      split; [exact Ha|]. split; [left; exists jn; split; [exact Hc|exact Hdep]|].
      split; [exact Hg|]. destruct D as [D|(yv & Hyv & B' & D)]; [left; exact D|].
      right. exists y1. split; [exact Hy1|]. split; [exact B|].
      intros E. apply D. assert (yv = y2) by congruence. subst yv. rewrite <- E12. exact E.
    - destruct X as (Hn & a & d & g & Ha & Hdep & Hg & D). exists a, d, g.
      split; [exact Ha|]. split; [right; split; [exact Hn|exact Hdep]|].
      split; [exact Hg|exact D].
  Qed.

  Theorem tracks_kept s j jp :
    shares_track ts s j jp -> j <> jp -> ~ same_rolling_stock ts j jp ->
    ~ names_skip ts j s -> ~ names_skip ts jp s ->
    turnaround_closed ts s j jp -> turnaround_closed ts s jp j ->
    exists a d a' d' g,
      occupies_from ts tt p x s j a /\ occupies_until ts tt p x s j d /\
      occupies_from ts tt p x s jp a' /\ occupies_until ts tt p x s jp d' /\
      track_gap ts tt s g /\ (d + g <= a' \/ d' + g <= a).
  Proof.
    intros H1 Hne H2 H3 H4 C1 C2. destruct get_parts as (dv & y & P).
    destruct (track_dir dv y P s j jp H1 H2 H3 C1) as (a' & d & g & Ha' & Hdd & Hg & D1).
    assert (H1' : shares_track ts s jp j).
    { destruct H1 as (groups & js & X1 & X2 & X3). exists groups, js. tauto. }
    assert (H2' : ~ same_rolling_stock ts jp j) by (intros H; apply H2, same_rolling_sym; auto).
    destruct (track_dir dv y P s jp j H1' H2' H4 C2) as (a & d' & g' & Ha & Hdd' & Hg' & D2).
    exists a, d, a', d', g. repeat (split; [assumption|]).
    pose proof (track_gap_fun s g g' Hg Hg') as Egg.
    destruct D1 as [D1|(y1 & Hy1 & B1 & D1)]; [left; exact D1|].
    destruct D2 as [D2|(y2 & Hy2 & B2 & D2)]; [right; lra|].
    destruct (complementary_zero y1 y2) as [Z|Z]; auto.
    - assert (Hne' : jp <> j) by auto.
      exact (get_y3_complementary _ _ _ _ _ _ (pt_store _ _ P) Hne' Hy1 Hy2).
    - right. specialize (D2 Z). lra.
  Qed.
End Solution.

(** ** C08 *)

Lemma complementary_decision y a b :
  store_ok y -> reading y a -> complementary a b -> one_decision a b.
Proof.
  intros Hy (q & v & Hv & Ha) Hc.
  assert (Hb : v_lo v = Some 0 /\ v_up v = Some 1 /\ v_cat v = Integer)
    by (destruct (so_var _ Hy _ _ Hv) as [->| ->]; repeat split).
  exists v. split; [apply Hb|]. split; [apply Hb|]. split; [apply Hb|].
  inversion Hc; subst.
  - destruct Ha as [Ha|Ha]; [|discriminate]. injection Ha as ->. left. intros x.
    split; [apply eval_var|apply one_minus_eval].
  - destruct Ha as [Ha|Ha]; [discriminate|].
    assert (v0 = v) by (unfold one_minus in Ha; cbn in Ha; inversion Ha; reflexivity). subst v0.
    right. intros x. split; [apply eval_var|apply one_minus_eval].
Qed.

Lemma one_decision_lemma : forall ts y,
  reserved_free ts -> order_variables ts = Ok y ->
  forall j jp, j <> jp -> In j (mentioned_trains ts) -> In jp (mentioned_trains ts) ->
  (forall s a b, get_y3 y j jp s = Ok a -> get_y3 y jp j s = Ok b -> one_decision a b) /\
  (forall s sp a b, In s (mentioned_stations ts) -> In sp (mentioned_stations ts) ->
     get_y4_singleline y j jp s sp = Ok a -> get_y4_singleline y jp j sp s = Ok b ->
     one_decision a b) /\
  (forall s a b, get_y4_in y in_ j jp s = Ok a -> get_y4_in y in_ jp j s = Ok b ->
     one_decision a b).
Proof.
  intros ts y RF Hy j jp Hne Hj Hjp. apply (order_variables_ok ts RF) in Hy.
  pose proof (rf_train ts RF _ Hj) as N1. pose proof (rf_train ts RF _ Hjp) as N2.
  split; [|split].
  - intros s a b Ha Hb. eapply complementary_decision; [exact Hy|eapply get_y3_reading; eauto|].
    exact (get_y3_complementary _ _ _ _ _ _ Hy Hne Ha Hb).
  - intros s sp a b Hs Hsp Ha Hb.
    eapply complementary_decision; [exact Hy|eapply get_y4_reading; eauto|].
    exact (get_y4_complementary _ _ _ _ _ _ _ Hy Hne N1 N2 (rf_station ts RF _ Hs)
             (rf_station ts RF _ Hsp) Ha Hb).
  - intros s a b Ha Hb. eapply complementary_decision; [exact Hy|eapply get_in_reading; eauto|].
    exact (get_in_complementary _ _ _ _ _ _ Hy Hne N1 N2 Ha Hb).
Qed.

Lemma get_total y a b c d a' b' c' d' :
  udepth 4 y -> present y [a; b; c; d] \/ present y [a'; b'; c'; d'] ->
  exists r, (if check_order_var_4arg y a b c d then do v <- get4 y a b c d; Ok (aff_var v)
             else do v <- get4 y a' b' c' d'; Ok (one_minus v)) = Ok r.
Proof.
  intros Hd H. destruct (check_order_var_4arg y a b c d) eqn:E.
  - apply udepth4_leaf in E as [v Hv]; auto. apply get4_tpath in Hv. rewrite Hv. simpl; eauto.
  - destruct H as [[v Hv]|[v Hv]].
    + apply tpath_check4 in Hv. congruence.
    + apply get4_tpath in Hv. rewrite Hv. simpl; eauto.
Qed.

Lemma get_y3_total y j jp s :
  store_ok y -> covered3 j jp s y -> exists a b, get_y3 y j jp s = Ok a /\ get_y3 y jp j s = Ok b.
Proof.
  intros Hy H. destruct (get_total y j jp one_station s jp j one_station s) as [a Ha]; [apply Hy|auto|].
  destruct (get_total y jp j one_station s j jp one_station s) as [b Hb]; [apply Hy|unfold covered3 in H; tauto|].
  exists a, b. split; assumption.
Qed.

Lemma get_y4_total y j jp s sp :
  store_ok y -> present y [j; jp; s; sp] \/ present y [jp; j; sp; s] ->
  exists a b, get_y4_singleline y j jp s sp = Ok a /\ get_y4_singleline y jp j sp s = Ok b.
Proof.
  intros Hy H. destruct (get_total y j jp s sp jp j sp s) as [a Ha]; [apply Hy|auto|].
  destruct (get_total y jp j sp s j jp s sp) as [b Hb]; [apply Hy|tauto|].
  exists a, b. split; assumption.
Qed.

Lemma get_in_total y j jp s :
  store_ok y -> present y [in_; j; jp; s] \/ present y [in_; jp; j; s] ->
  exists a b, get_y4_in y in_ j jp s = Ok a /\ get_y4_in y in_ jp j s = Ok b.
Proof.
  intros Hy H. destruct (get_total y in_ j jp s in_ jp j s) as [a Ha]; [apply Hy|auto|].
  destruct (get_total y in_ jp j s in_ j jp s) as [b Hb]; [apply Hy|tauto|].
  exists a, b. split; assumption.
Qed.

Lemma decision_exists_lemma : forall ts y,
  reserved_free ts -> order_variables ts = Ok y ->
  (forall s inner sp groups js j jp, In (s, inner) (ts_Jd ts) -> In (sp, groups) inner ->
     In js groups -> listed js j jp -> exists a b, get_y3 y j jp s = Ok a /\ get_y3 y jp j s = Ok b) /\
  (forall s j jp, shares_track ts s j jp ->
     exists a b, get_y3 y j jp s = Ok a /\ get_y3 y jp j s = Ok b) /\
  (forall s sp l j jp, In ((s, sp), l) (ts_Josingle ts) -> In (j, jp) l ->
     exists a b, get_y4_singleline y j jp s sp = Ok a /\ get_y4_singleline y jp j sp s = Ok b).
Proof.
  intros ts y RF Hy. assert (SO := order_variables_ok ts RF y Hy).
  destruct (order_variables_cover ts RF y Hy) as (C1 & C2 & C3 & _). split; [|split].
  - intros. apply get_y3_total; auto. eapply C2; eauto. apply listed_combinations; auto.
  - intros s j jp (groups & js & H1 & H2 & [H3|H3]).
    + apply get_y3_total; auto. eapply C3; eauto. apply listed_combinations; auto.
    + destruct (get_y3_total y jp j s SO) as (a & b & Ha & Hb); [|eauto].
      eapply C3; eauto. apply listed_combinations; auto.
  - intros s sp l j jp H1 H2. apply get_y4_total; auto. exact (C1 _ _ _ _ H1 H2).
Qed.
