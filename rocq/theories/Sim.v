(** * Sim: two runs of the construction side by side

    A relational description of [create_linear_problem] used for the claims that compare two
    problems: shifted times (C12) and different categories of the delay variables (C10). *)

From Coq Require Import List String ZArith QArith Bool Arith Lia Lqa.
From Verif Require Import Base Pulp Helpers LinearSolver BaseFacts Spec TreeFacts OrderVars
  Emit DelayVars SpecFacts Sound.
Import ListNotations.
Open Scope string_scope.
Open Scope list_scope.

(** ** Results *)

Definition rsim {A B} (P : A -> B -> Prop) (r : res A) (r' : res B) : Prop :=
  match r, r' with
  | Ok a, Ok b => P a b
  | Err e, Err e' => e = e'
  | _, _ => False
  end.

Lemma rsim_bind {A A' B B'} (P : A -> A' -> Prop) (Q : B -> B' -> Prop) r r' f f' :
  rsim P r r' -> (forall a a', P a a' -> rsim Q (f a) (f' a')) -> rsim Q (bind r f) (bind r' f').
Proof. destruct r, r'; simpl; intros H1 H2; try tauto; auto. Qed.

Lemma rsim_same {A B B'} (Q : B -> B' -> Prop) (r : res A) f f' :
  (forall a, r = Ok a -> rsim Q (f a) (f' a)) -> rsim Q (bind r f) (bind r f').
Proof. destruct r; simpl; auto. Qed.

Lemma rsim_refl {A} (P : A -> A -> Prop) r : (forall a, P a a) -> rsim P r r.
Proof. destruct r; simpl; auto. Qed.

Lemma rsim_foldM {A B B'} (P : B -> B' -> Prop) f f' (l : list A) : forall acc acc',
  P acc acc' -> (forall b b' x, In x l -> P b b' -> rsim P (f b x) (f' b' x)) ->
  rsim P (foldM f l acc) (foldM f' l acc').
Proof.
  induction l as [|x l IH]; intros acc acc' H0 Hf; cbn [foldM]; [exact H0|].
  eapply rsim_bind; [apply Hf; [left; reflexivity|exact H0]|].
  intros b b' Hb. apply IH; auto. intros; apply Hf; auto. right; auto.
Qed.

(** ** Expressions: the same variables (up to [RV]) with equal coefficients *)

Section Exprs.
  Variable RV : lpvar -> lpvar -> Prop.
  Hypothesis RV_id : forall v v', RV v v' -> v_id v = v_id v'.

  Definition tsim (t t' : lpvar * Q) : Prop := RV (fst t) (fst t') /\ snd t == snd t'.

  Definition asim (a a' : aff) : Prop :=
    Forall2 tsim (a_terms a) (a_terms a') /\ a_const a == a_const a'.

  Lemma asim_const q q' : q == q' -> asim (aff_const q) (aff_const q').
  Proof. intros H. split; [constructor|exact H]. Qed.

  Lemma asim_var v v' : RV v v' -> asim (aff_var v) (aff_var v').
  Proof. intros H. split; [|reflexivity]. constructor; [|constructor]. split; [exact H|reflexivity]. Qed.

  Lemma addterm_sim v v' q q' l l' :
    RV v v' -> q == q' -> Forall2 tsim l l' -> Forall2 tsim (addterm v q l) (addterm v' q' l').
  Proof.
    intros Hv Hq H. induction H as [|[w r] [w' r'] l l' [H1 H2] H IH]; cbn [addterm].
    - repeat constructor; auto.
    - cbn [fst snd] in *. rewrite <- (RV_id _ _ Hv), <- (RV_id _ _ H1).
      destruct (eq_dec (v_id v) (v_id w)).
      + constructor; [|exact H]. split; cbn [fst snd]; [exact H1|]. rewrite H2, Hq. reflexivity.
      + constructor; [split; auto|exact IH].
  Qed.

  Lemma add_terms_sim m m' : Forall2 tsim m m' -> forall l l', Forall2 tsim l l' ->
    Forall2 tsim (add_terms l m) (add_terms l' m').
  Proof.
    induction 1 as [|[w r] [w' r'] m m' [H1 H2] H IH]; intros l l' Hl; cbn; auto.
    apply IH. apply addterm_sim; auto.
  Qed.

  Lemma asim_add a a' b b' : asim a a' -> asim b b' -> asim (aff_add a b) (aff_add a' b').
  Proof.
    intros [H1 H2] [H3 H4]. split; cbn [aff_add a_terms a_const].
    - apply add_terms_sim; auto.
    - rewrite H2, H4. reflexivity.
  Qed.

  Lemma asim_scale k k' a a' : k == k' -> asim a a' -> asim (aff_scale k a) (aff_scale k' a').
  Proof.
    intros Hk [H1 H2]. split; cbn [aff_scale a_terms a_const].
    - unfold scale_terms. induction H1 as [|[w r] [w' r'] l l' [H3 H4] H IH]; cbn; constructor; auto.
      split; cbn [fst snd] in *; auto. rewrite H4, Hk. reflexivity.
    - rewrite Hk, H2. reflexivity.
  Qed.

  Lemma asim_sub a a' b b' : asim a a' -> asim b b' -> asim (aff_sub a b) (aff_sub a' b').
  Proof. intros H1 H2. apply asim_add; auto. apply asim_scale; auto. reflexivity. Qed.

  Lemma asim_plus q q' v v' : q == q' -> RV v v' -> asim (plus_var q v) (plus_var q' v').
  Proof. intros H1 H2. apply asim_add; [apply asim_const|apply asim_var]; auto. Qed.

  Lemma asim_eval a a' x : asim a a' -> eval a x == eval a' x.
  Proof.
    intros [H1 H2]. unfold eval, eval_terms. rewrite H2. apply Qplus_inj_r.
    induction H1 as [|[w r] [w' r'] l l' [H3 H4] H IH]; [reflexivity|].
    cbn [map qsum fold_right fst snd] in *. rewrite (RV_id _ _ H3), H4.
    unfold qsum in IH. rewrite IH. reflexivity.
  Qed.

  Definition csim (c c' : constr) : Prop := asim (c_aff c) (c_aff c') /\ c_sense c = c_sense c'.

  Lemma csim_ge a a' b b' : asim a a' -> asim b b' -> csim (mk_ge a b) (mk_ge a' b').
  Proof. intros; split; [apply asim_sub; auto|reflexivity]. Qed.

  Lemma csim_eq a a' b b' : asim a a' -> asim b b' -> csim (mk_eq a b) (mk_eq a' b').
  Proof. intros; split; [apply asim_sub; auto|reflexivity]. Qed.

  Lemma csim_holds c c' x : csim c c' -> (holds c x <-> holds c' x).
  Proof.
    intros [H1 H2]. apply (asim_eval _ _ x) in H1. unfold holds. rewrite <- H2.
    destruct (c_sense c); rewrite H1; reflexivity.
  Qed.

  (** Two problems with the same names, senses and (up to [RV]) expressions. *)
  Definition nsim (nc nc' : string * constr) : Prop := fst nc = fst nc' /\ csim (snd nc) (snd nc').

  Definition psim (p p' : lpproblem) : Prop :=
    Forall2 nsim (p_constraints p) (p_constraints p') /\ asim (p_objective p) (p_objective p').

  Lemma psim_obj p p' x : psim p p' -> obj_value p x == obj_value p' x.
  Proof. intros [_ H]. apply asim_eval. exact H. Qed.

  Lemma Forall2_in_l {A B} (P : A -> B -> Prop) l l' x :
    Forall2 P l l' -> In x l -> exists y, In y l' /\ P x y.
  Proof.
    induction 1 as [|a b l l' H1 H2 IH]; intros Hx; [destruct Hx|].
    destruct Hx as [->|Hx]; [exists b; split; simpl; auto|].
    destruct (IH Hx) as (y & ? & ?). exists y; simpl; auto.
  Qed.

  Lemma Forall2_in_r {A B} (P : A -> B -> Prop) l l' y :
    Forall2 P l l' -> In y l' -> exists x, In x l /\ P x y.
  Proof.
    induction 1 as [|a b l l' H1 H2 IH]; intros Hx; [destruct Hx|].
    destruct Hx as [->|Hx]; [exists a; split; simpl; auto|].
    destruct (IH Hx) as (z & ? & ?). exists z; simpl; auto.
  Qed.

  Lemma Forall2_names l l' : Forall2 nsim l l' -> map fst l = map fst l'.
  Proof. induction 1 as [|a b l l' [H1 _] H2 IH]; simpl; congruence. Qed.

  Lemma psim_names p p' : psim p p' -> dkeys (p_constraints p) = dkeys (p_constraints p').
  Proof. intros [H _]. apply Forall2_names. exact H. Qed.

  Lemma psim_holds p p' x : psim p p' ->
    ((forall n c, In (n, c) (p_constraints p) -> holds c x) <->
     (forall n c, In (n, c) (p_constraints p') -> holds c x)).
  Proof.
    intros [H _]. split; intros HH n c Hc.
    - destruct (Forall2_in_r _ _ _ _ H Hc) as ([m d] & Hin & [_ Hs]). cbn [fst snd] in *.
      apply (csim_holds _ _ x Hs). eapply HH; eauto.
    - destruct (Forall2_in_l _ _ _ _ H Hc) as ([m d] & Hin & [_ Hs]). cbn [fst snd] in *.
      apply (csim_holds _ _ x Hs). eapply HH; eauto.
  Qed.

  (** Variables correspond, in the same order. *)
  Lemma vars_sim a a' : asim a a' -> Forall2 RV (aff_vars a) (aff_vars a').
  Proof. intros [H _]. unfold aff_vars. induction H as [|? ? ? ? [H1 _] _ IH]; cbn; constructor; auto. Qed.

  Lemma ids_sim l l' : Forall2 RV l l' -> map v_id l = map v_id l'.
  Proof. induction 1 as [|? ? ? ? H1 _ IH]; cbn; [reflexivity|]. rewrite (RV_id _ _ H1), IH. reflexivity. Qed.

  Lemma add_vars_sim m m' : Forall2 RV m m' -> forall l l', Forall2 RV l l' ->
    Forall2 RV (add_vars m l) (add_vars m' l').
  Proof.
    induction 1 as [|v v' m m' H1 H2 IH]; intros l l' Hl; cbn [add_vars]; auto.
    apply IH. unfold vmem. rewrite <- (ids_sim _ _ Hl), (RV_id _ _ H1).
    destruct (lmem _ _); auto. apply Forall2_app; auto.
  Qed.

  Lemma variables_sim p p' : psim p p' -> Forall2 RV (variables p) (variables p').
  Proof.
    intros [H1 H2]. unfold variables.
    cut (forall l l', Forall2 RV l l' ->
      Forall2 RV (fold_left (fun acc nc => add_vars (aff_vars (c_aff (snd nc))) acc) (p_constraints p) l)
        (fold_left (fun acc nc => add_vars (aff_vars (c_aff (snd nc))) acc) (p_constraints p') l')).
    { intros HC. apply HC. apply add_vars_sim; [apply vars_sim; exact H2|constructor]. }
    induction H1 as [|a b l l' [_ [Ha _]] H IH]; intros m m' Hm; cbn [fold_left]; auto.
    apply IH. apply add_vars_sim; auto. apply vars_sim. exact Ha.
  Qed.

  (** ** Emissions *)

  Definition esim : emission -> emission -> Prop :=
    rsim (fun o o' => match o, o' with
                      | Some nc, Some nc' => nsim nc nc'
                      | None, None => True
                      | _, _ => False
                      end).

  Lemma apply_emit_sim e e' p p' :
    esim e e' -> psim p p' -> rsim psim (apply_emit p e) (apply_emit p' e').
  Proof.
    intros He Hp. destruct e as [[[n c]|]|x], e' as [[[n' c']|]|x']; cbn in He |- *; try tauto.
    destruct He as [Hn Hc]. cbn [fst snd] in *. subst n'. unfold add_constraint, dmem. cbn zeta. generalize (constraint_name n). clear n. intros n.
    assert (E : dget n (p_constraints p) = None <-> dget n (p_constraints p') = None).
    { rewrite !dget_none. rewrite (psim_names _ _ Hp). reflexivity. }
    destruct (dget n (p_constraints p)), (dget n (p_constraints p')); cbn; auto;
      try (exfalso; destruct E as [E1 E2];
           first [specialize (E1 eq_refl); discriminate|specialize (E2 eq_refl); discriminate]).
    destruct Hp as [H1 H2]. split; cbn; auto. apply Forall2_app; auto. constructor; [|constructor].
    split; auto.
  Qed.

  Lemma foldM_sim l l' : Forall2 esim l l' -> forall p p', psim p p' ->
    rsim psim (foldM apply_emit l p) (foldM apply_emit l' p').
  Proof.
    induction 1 as [|e e' l l' H1 H2 IH]; intros p p' Hp; cbn [foldM]; [exact Hp|].
    eapply rsim_bind; [apply apply_emit_sim; eauto|]. auto.
  Qed.

  Lemma Forall2_flat_map {A B B'} (P : B -> B' -> Prop) (f : A -> list B) (g : A -> list B') l :
    (forall x, In x l -> Forall2 P (f x) (g x)) -> Forall2 P (flat_map f l) (flat_map g l).
  Proof.
    induction l as [|x l IH]; intros H; cbn [flat_map]; [constructor|].
    apply Forall2_app; [apply H; left; reflexivity|]. apply IH. intros; apply H; right; auto.
  Qed.

  Lemma Forall2_map {A B B'} (P : B -> B' -> Prop) (f : A -> B) (g : A -> B') l :
    (forall x, In x l -> P (f x) (g x)) -> Forall2 P (map f l) (map g l).
  Proof.
    induction l as [|x l IH]; intros H; cbn [map]; constructor.
    - apply H; left; reflexivity.
    - apply IH. intros; apply H; right; auto.
  Qed.

  Lemma Forall2_or_fail {A} (r : res A) f g :
    (forall a, r = Ok a -> Forall2 esim (f a) (g a)) -> Forall2 esim (or_fail r f) (or_fail r g).
  Proof. destruct r; cbn; auto. intros _. constructor; [reflexivity|constructor]. Qed.

  (** ** The generators *)

  Variables (tt tt' : timetable) (dv dv' y : tree) (ts : train_sets) (d_max delta : Q).

  Definition moved (q q' : Q) : Prop := q' == q + delta.

  Hypothesis Hedt : forall j s,
    rsim moved (earliest_dep_time (ts_Paths ts) tt j s) (earliest_dep_time (ts_Paths ts) tt' j s).
  Hypothesis Hpass : tt_pass tt' = tt_pass tt.
  Hypothesis Hhead : tt_headway tt' = tt_headway tt.
  Hypothesis Hstop : tt_stop tt' = tt_stop tt.
  Hypothesis Hprep : tt_prep tt' = tt_prep tt.
  Hypothesis Hres : tt_res tt' = tt_res tt.
  Hypothesis Hwei : tt_weights tt' = tt_weights tt.
  Hypothesis Hget2 : forall j s, rsim RV (get2 dv j s) (get2 dv' j s).
  Hypothesis Hlook : forall j, rsim (fun t t' => forall s, tmem s t = tmem s t') (tlookup j dv) (tlookup j dv').
  Hypothesis Hy : forall q v, tpath q y = Some v -> RV v v.

  Lemma tau_pass_eq j s sp : tau_pass tt' j s sp = tau_pass tt j s sp.
  Proof. unfold tau_pass. rewrite Hpass. reflexivity. Qed.
  Lemma tau_headway_eq j jp s sp : tau_headway tt' j jp s sp = tau_headway tt j jp s sp.
  Proof. unfold tau_headway. rewrite Hhead. reflexivity. Qed.
  Lemma tau_stop_eq j s : tau_stop tt' j s = tau_stop tt j s.
  Proof. unfold tau_stop. rewrite Hstop. reflexivity. Qed.
  Lemma tau_prep_eq j s : tau_prep tt' j s = tau_prep tt j s.
  Proof. unfold tau_prep. rewrite Hprep. reflexivity. Qed.
  Lemma tau_res_eq : tau_res tt' = tau_res tt.
  Proof. unfold tau_res. rewrite Hres. reflexivity. Qed.

  Lemma reading_sim a : reading y a -> asim a a.
  Proof.
    intros (q & v & Hq & [->| ->]).
    - apply asim_var. eauto.
    - apply asim_sub; [apply asim_const; reflexivity|apply asim_var; eauto].
  Qed.

  Lemma get_M_sim L L' R R' : moved L L' -> moved R R' -> get_M L R d_max == get_M L' R' d_max.
  Proof.
    unfold moved, get_M. intros H1 H2.
    destruct (qmax_spec (R + d_max - L) 1) as [[? E]|[? E]],
             (qmax_spec (R' + d_max - L') 1) as [[? E']|[? E']]; rewrite E, E'; lra.
  Qed.

  Lemma qltb_sim a b a' b' : (a < b <-> a' < b') -> qltb a b = qltb a' b'.
  Proof.
    intros H. destruct (qltb a b) eqn:E, (qltb a' b') eqn:E'; auto.
    - apply qltb_true in E. apply qltb_false in E'. apply H in E. lra.
    - apply qltb_false in E. apply qltb_true in E'. apply H in E'. lra.
  Qed.

  (** A conditional constraint [L + a >= R + b - M y]: moving both constants changes it by a
      constant on both sides. *)
  Lemma csim_cond L L' R R' a a' b b' m m' :
    moved L L' -> moved R R' -> RV a a' -> RV b b' -> asim m m' ->
    csim (mk_ge (plus_var L a) (aff_sub (plus_var R b) m))
         (mk_ge (plus_var L' a') (aff_sub (plus_var R' b') m')).
  Proof.
    intros H1 H2 H3 H4 [H5 H6]. split; [|reflexivity]. cbn [c_aff mk_ge].
    unfold moved in *.
    split.
    - assert (X : forall q r, asim (aff_sub (plus_var q a) (aff_sub (plus_var r b) m))
                     (aff_sub (plus_var q a') (aff_sub (plus_var r b') m'))).
      { intros. apply asim_sub; [apply asim_plus; auto; reflexivity|].
        apply asim_sub; [apply asim_plus; auto; reflexivity|split; auto]. }
      destruct (X L R) as [X1 _]. exact X1.
    - cbn. rewrite H1, H2, H6. ring.
  Qed.

  Ltac same := apply rsim_same; intros.
  Ltac edt := eapply rsim_bind; [apply Hedt|intros].
  Ltac g2 := eapply rsim_bind; [apply Hget2|intros].

  Lemma ms_sim s sp j jp :
    esim (ms_emit tt dv y ts d_max s sp j jp) (ms_emit tt' dv' y ts d_max s sp j jp).
  Proof.
    unfold ms_emit, esim. edt. edt. rewrite tau_headway_eq. same. cbv zeta.
    rename a into L, a' into L', a0 into R, a'0 into R', a1 into h.
    assert (HR : moved (R + h) (R' + h)) by (unfold moved in *; lra).
    rewrite (qltb_sim (L' - d_max) (R' + h) (L - d_max) (R + h)) by (unfold moved in *; split; lra).
    destruct (qltb _ _); [|exact I]. g2. g2. same. cbn. split; [reflexivity|]. cbn [snd].
    apply csim_cond; auto. apply asim_scale; [apply get_M_sim; auto|].
    eapply reading_sim, get_y3_reading; eauto.
  Qed.

  Lemma sl_sim s sp j jp :
    esim (sl_emit tt dv y ts d_max s sp j jp) (sl_emit tt' dv' y ts d_max s sp j jp).
  Proof.
    unfold sl_emit, esim. edt. edt. rewrite tau_pass_eq. same. cbv zeta.
    rename a into L, a' into L', a0 into R, a'0 into R', a1 into h.
    assert (HR : moved (R + h) (R' + h)) by (unfold moved in *; lra).
    rewrite (qltb_sim (L' - d_max) (R' + h) (L - d_max) (R + h)) by (unfold moved in *; split; lra).
    destruct (qltb _ _); [|exact I]. g2. g2. same. cbn. split; [reflexivity|]. cbn [snd].
    apply csim_cond; auto. apply asim_scale; [apply get_M_sim; auto|].
    eapply reading_sim, get_y4_reading; eauto.
  Qed.

  Lemma csim_hard L L' R R' a a' b b' :
    moved L L' -> moved R R' -> RV a a' -> RV b b' ->
    csim (mk_ge (plus_var L a) (plus_var R b)) (mk_ge (plus_var L' a') (plus_var R' b')).
  Proof.
    intros H1 H2 H3 H4. unfold moved in *. split; [|reflexivity]. cbn [c_aff mk_ge]. split.
    - assert (X : asim (aff_sub (plus_var L a) (plus_var R b)) (aff_sub (plus_var L a') (plus_var R b'))).
      { apply asim_sub; apply asim_plus; auto; reflexivity. }
      destruct X as [X1 _]. exact X1.
    - cbn. rewrite H1, H2. ring.
  Qed.

  Lemma stay_sim j s : esim (stay_emit tt dv ts j s) (stay_emit tt' dv' ts j s).
  Proof.
    unfold stay_emit, esim. same. same. destruct (is_none a0); [exact I|].
    eapply rsim_bind; [apply Hlook|]. intros t t' Ht. rewrite <- Ht. destruct (tmem s t); [|exact I].
    g2. edt. g2. edt. rewrite tau_pass_eq, tau_stop_eq. same. same. cbn. split; [reflexivity|].
    cbn [snd]. apply csim_hard; auto. unfold moved in *. lra.
  Qed.

  Lemma get4_reading_sim a b c d v : get4 y a b c d = Ok v -> asim (aff_var v) (aff_var v).
  Proof. intros H. apply get4_tpath in H. apply asim_var. eauto. Qed.

  Lemma esim_refl_kto s j jp : esim (kto_emit y ts s j jp) (kto_emit y ts s j jp).
  Proof.
    unfold kto_emit, esim. same. same. destruct (dget _ _); [|exact I]. destruct (dmem s _); [|exact I].
    same. destruct (occurs_as_pair j jp a1); [|exact I]. same. destruct (negb a2).
    - same. same. destruct a4; [|exact I]. same. same. cbn. split; [reflexivity|]. cbn [snd].
      apply csim_eq; eapply get4_reading_sim; eauto.
    - destruct (entering_via_same_switches ts s j jp); [|exact I]. same. same. cbn. split; [reflexivity|].
      cbn [snd]. apply csim_eq; [eapply reading_sim, get_in_reading; eauto|eapply get4_reading_sim; eauto].
  Qed.

  Lemma arrival_sim s jp :
    rsim (fun r r' => moved (fst r) (fst r') /\ snd r = snd r') (arrival tt ts s jp) (arrival tt' ts s jp).
  Proof.
    unfold arrival. cbv zeta. same. same. destruct (negb (is_none (previous_train_from_Jround ts jp s))).
    - same. same. edt. rewrite tau_pass_eq. same. cbn. split; [|reflexivity]. unfold moved in *. lra.
    - destruct (negb (is_none a0)).
      + edt. rewrite tau_pass_eq. same. cbn. split; [|reflexivity]. unfold moved in *. lra.
      + edt. cbn. auto.
  Qed.

  Lemma extra_sim s R R' : moved R R' -> rsim moved (extra_res s tt ts R) (extra_res s tt' ts R').
  Proof.
    intros H. unfold extra_res. destruct (ts_add_switches ts); [|exact H].
    destruct (lmem s l); [|exact H]. rewrite tau_res_eq. same. cbn. unfold moved in *. lra.
  Qed.

  (** The variable part of a sum does not depend on its constants. *)
  Lemma tos_sim s j jp :
    esim (tos_emit tt dv y ts d_max s j jp) (tos_emit tt' dv' y ts d_max s j jp).
  Proof.
    unfold tos_emit, esim. cbv zeta. destruct (negb (is_none (subsequent_train_at_Jround ts j s))).
    - same. same. cbn. split; [reflexivity|]. cbn [snd].
      apply csim_eq; eapply reading_sim, get_y3_reading; eauto.
    - eapply rsim_bind; [apply arrival_sim|]. intros [L src] [L' src'] [HL Hs]. cbn [fst snd] in *.
      subst src'. edt. eapply rsim_bind; [apply extra_sim; exact H|]. intros R R' HR.
      rewrite (qltb_sim (L' - d_max) R' (L - d_max) R) by (unfold moved in *; split; lra).
      destruct (qltb _ _); [|exact I].
      eapply rsim_bind with (P := fun A A' => Forall2 tsim (a_terms A) (a_terms A') /\ moved (a_const A) (a_const A')).
      { unfold arrival_aff. destruct src as [[u w]|].
        - g2. cbn. split; [|unfold moved in *; lra]. constructor; [|constructor]. split; [auto|reflexivity].
        - cbn. split; [constructor|exact HL]. }
      intros A A' [HA1 HA2]. same. g2. cbn. split; [reflexivity|]. cbn [snd].
      split; [|reflexivity]. cbn [c_aff mk_ge].
      assert (HS : asim (aff_scale (get_M L R d_max) a0) (aff_scale (get_M L' R' d_max) a0)).
      { apply asim_scale; [apply get_M_sim; auto|eapply reading_sim, get_y3_reading; eauto]. }
      split.
      + assert (X : asim (aff_sub (aff_sub (MkAff (a_terms A) 0) (aff_var a1))
                          (aff_sub (aff_const 0) (aff_scale (get_M L R d_max) a0)))
                         (aff_sub (aff_sub (MkAff (a_terms A') 0) (aff_var a'0))
                          (aff_sub (aff_const 0) (aff_scale (get_M L' R' d_max) a0)))).
        { apply asim_sub; [apply asim_sub; [split; [exact HA1|reflexivity]|apply asim_var; auto]|].
          apply asim_sub; [apply asim_const; reflexivity|exact HS]. }
        destruct X as [X _]. exact X.
      + destruct HS as [_ HS]. cbn [aff_sub aff_add aff_scale aff_const aff_var a_const] in HS |- *.
        unfold moved in *. lra.
  Qed.

  Lemma sw_sim s jp sp jpp spp :
    esim (sw_emit tt dv y ts d_max s jp sp jpp spp) (sw_emit tt' dv' y ts d_max s jp sp jpp spp).
  Proof.
    unfold sw_emit, esim. edt. edt. rewrite tau_res_eq. same. rename a1 into r.
    eapply rsim_bind with (P := moved).
    { destruct (eqb s sp); [exact H|]. rewrite tau_pass_eq. same. cbn. unfold moved in *. lra. }
    intros L L' HL. eapply rsim_bind with (P := moved).
    { destruct (eqb s spp); [cbn; unfold moved in *; lra|]. rewrite tau_pass_eq. same. cbn.
      unfold moved in *. lra. }
    intros R R' HR. cbv zeta.
    rewrite (qltb_sim L' (R' + d_max) L (R + d_max)) by (unfold moved in *; split; lra).
    destruct (qltb _ _); [|exact I]. same. g2. g2. cbn. split; [reflexivity|]. cbn [snd].
    split; [|reflexivity]. cbn [c_aff mk_ge].
    assert (HS : asim (aff_scale (get_M L R d_max) a1) (aff_scale (get_M L' R' d_max) a1)).
    { apply asim_scale; [apply get_M_sim; auto|eapply reading_sim, sw_order_reading; eauto]. }
    split.
    - assert (X : asim (aff_sub (plus_var 0 a2) (aff_add (aff_sub (aff_const 0) (aff_scale (get_M L R d_max) a1)) (aff_var a3)))
                       (aff_sub (plus_var 0 a'1) (aff_add (aff_sub (aff_const 0) (aff_scale (get_M L' R' d_max) a1)) (aff_var a'2)))).
      { apply asim_sub; [apply asim_plus; auto; reflexivity|]. apply asim_add; [|apply asim_var; auto].
        apply asim_sub; [apply asim_const; reflexivity|exact HS]. }
      destruct X as [X _]. exact X.
    - destruct HS as [_ HS]. cbn [plus_var aff_sub aff_add aff_scale aff_const aff_var a_const] in HS |- *.
      unfold moved in *. lra.
  Qed.

  Lemma circ_sim s j jp :
    esim (circ_emit tt dv ts d_max s j jp) (circ_emit tt' dv' ts d_max s j jp).
  Proof.
    unfold circ_emit, esim. same. same. edt. edt. rewrite tau_pass_eq. same. rewrite tau_prep_eq. same.
    cbv zeta. rename a1 into L, a'  into L', a2 into R, a'0 into R', a3 into tp, a4 into pr.
    rewrite (qltb_sim R' (L' + tp + pr + d_max) R (L + tp + pr + d_max)) by (unfold moved in *; split; lra).
    destruct (qltb _ _); [|exact I]. g2. g2. cbn. split; [reflexivity|]. cbn [snd].
    apply csim_hard; auto. unfold moved in *. lra.
  Qed.

  Lemma emissions_sim :
    Forall2 esim (emissions tt dv y ts d_max) (emissions tt' dv' y ts d_max).
  Proof.
    unfold emissions. repeat apply Forall2_app.
    - unfold span_list. do 4 (apply Forall2_flat_map; intros ? _).
      constructor; [apply ms_sim|constructor; [apply ms_sim|constructor]].
    - unfold stay_list. apply Forall2_flat_map; intros ? _. apply Forall2_or_fail; intros path _.
      apply Forall2_map. intros ? _. apply stay_sim.
    - unfold line_list. do 2 (apply Forall2_flat_map; intros ? _).
      destruct (not_the_same_rolling_stock _ _ ts); [|constructor].
      constructor; [apply sl_sim|constructor; [apply sl_sim|constructor]].
    - unfold track_list. do 3 (apply Forall2_flat_map; intros ? _). unfold track_emits.
      destruct (not_the_same_rolling_stock _ _ ts); [|constructor].
      apply Forall2_or_fail; intros k1 _. apply Forall2_app.
      + destruct k1; [constructor|]. constructor; [apply esim_refl_kto|]. constructor; [apply tos_sim|constructor].
      + apply Forall2_or_fail; intros k2 _. destruct k2; [constructor|].
        constructor; [apply tos_sim|constructor].
    - unfold circ_list. apply Forall2_flat_map; intros ? _. apply Forall2_map; intros ? _. apply circ_sim.
    - unfold switch_list. do 2 (apply Forall2_flat_map; intros ? _). unfold switch_emits.
      apply Forall2_or_fail; intros jj _. destruct (not_the_same_rolling_stock _ _ ts); [|constructor].
      apply Forall2_or_fail; intros sp _. apply Forall2_or_fail; intros spp _.
      constructor; [apply sw_sim|constructor; [apply sw_sim|constructor]].
  Qed.

  Lemma obj_sim : rsim asim (obj_aff tt dv ts d_max) (obj_aff tt' dv' ts d_max).
  Proof.
    unfold obj_aff. apply rsim_foldM; [apply asim_const; reflexivity|].
    intros a a' i _ Ha. same. apply rsim_foldM; auto. intros b b' s _ Hb.
    unfold obj_add, penalty_weights. cbv zeta. rewrite Hwei.
    destruct (Qeq_bool _ 0); [exact Hb|]. g2. unfold objective_term.
    destruct (Qeq_bool d_max 0); [reflexivity|]. cbn [bind]. cbn. apply asim_add; auto.
    apply asim_scale; [reflexivity|]. apply asim_scale; [reflexivity|]. apply asim_var; auto.
  Qed.

  Lemma built_sim :
    rsim psim
      (do p <- foldM apply_emit (emissions tt dv y ts d_max) empty_problem;
       do a <- obj_aff tt dv ts d_max; Ok (set_objective p a))
      (do p <- foldM apply_emit (emissions tt' dv' y ts d_max) empty_problem;
       do a <- obj_aff tt' dv' ts d_max; Ok (set_objective p a)).
  Proof.
    eapply rsim_bind; [apply foldM_sim; [apply emissions_sim|]|].
    - split; cbn; [constructor|]. apply asim_const. reflexivity.
    - intros p p' Hp. eapply rsim_bind; [apply obj_sim|]. intros a a' Ha. cbn. split; cbn; auto. apply Hp.
  Qed.
End Exprs.
