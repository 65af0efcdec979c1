(** * Shapes: inversion of the constraint generators *)

From Coq Require Import List String ZArith QArith Bool Arith Lia.
From Verif Require Import Base Pulp Helpers LinearSolver BaseFacts Spec TreeFacts OrderVars Emit DelayVars.
Import ListNotations.
Open Scope string_scope.
Open Scope list_scope.

Section Shapes.
  Variables (tt : timetable) (dv y : tree) (ts : train_sets) (d_max : Q).
  Let edt := earliest_dep_time (ts_Paths ts) tt.

  Lemma ms_shape s sp j jp o :
    ms_emit tt dv y ts d_max s sp j jp = Ok o ->
    exists L R h, edt jp s = Ok L /\ edt j s = Ok R /\ tau_headway tt j jp s sp = Ok h /\
      ((o = None /\ R + h <= L - d_max) \/
       (exists vjp vj yv, get2 dv jp s = Ok vjp /\ get2 dv j s = Ok vj /\ get_y3 y jp j s = Ok yv /\
          L - d_max < R + h /\
          o = Some (ms_name s sp j jp,
                    mk_ge (plus_var L vjp)
                      (aff_sub (plus_var (R + h) vj) (aff_scale (get_M L (R + h) d_max) yv))))).
  Proof.
    unfold ms_emit, emit1. intros H. inv_bind H. inv_bind H. inv_bind H. cbv zeta in H.
    exists a, a0, a1. repeat split; auto. destruct (qltb (a - d_max) (a0 + a1)) eqn:Eb.
    - inv_bind H. inv_bind H. inv_bind H. right. exists a2, a3, a4. apply qltb_true in Eb.
      repeat split; auto. congruence.
    - left. apply qltb_false in Eb. split; [congruence|exact Eb].
  Qed.

  Lemma sl_shape s sp j jp o :
    sl_emit tt dv y ts d_max s sp j jp = Ok o ->
    exists L R h, edt j s = Ok L /\ edt jp sp = Ok R /\ tau_pass tt jp sp s = Ok h /\
      ((o = None /\ R + h <= L - d_max) \/
       (exists vj vjp yv, get2 dv j s = Ok vj /\ get2 dv jp sp = Ok vjp /\
          get_y4_singleline y j jp s sp = Ok yv /\ L - d_max < R + h /\
          o = Some (sl_name s sp j jp,
                    mk_ge (plus_var L vj)
                      (aff_sub (plus_var (R + h) vjp) (aff_scale (get_M L (R + h) d_max) yv))))).
  Proof.
    unfold sl_emit, emit1. intros H. inv_bind H. inv_bind H. inv_bind H. cbv zeta in H.
    exists a, a0, a1. repeat split; auto. destruct (qltb (a - d_max) (a0 + a1)) eqn:Eb.
    - inv_bind H. inv_bind H. inv_bind H. right. exists a2, a3, a4. apply qltb_true in Eb.
      repeat split; auto. congruence.
    - left. apply qltb_false in Eb. split; [congruence|exact Eb].
  Qed.

  Lemma stay_shape j s o :
    stay_emit tt dv ts j s = Ok o ->
    exists path sp, dget j (ts_Paths ts) = Some path /\ previous_station path s = Ok sp /\
      ((o = None /\ sp = PNone) \/
       (sp <> PNone /\ exists dj, tlookup j dv = Ok dj /\
         ((o = None /\ tmem s dj = false) \/
          (tmem s dj = true /\ exists v vp L R tp st,
             get2 dv j s = Ok v /\ get2 dv j sp = Ok vp /\
             edt j s = Ok L /\ edt j sp = Ok R /\ tau_pass tt j sp s = Ok tp /\
             tau_stop tt j s = Ok st /\
             o = Some (stay_name j s, mk_ge (plus_var L v) (plus_var (R + tp + st) vp)))))).
  Proof.
    unfold stay_emit, emit1. intros H. inv_bind H. inv_bind H. apply dlookup_ok in E.
    exists a, a0. repeat split; auto. unfold is_none in H. destruct (eqb a0 PNone) eqn:En.
    - left. apply eqb_eq in En. split; congruence.
    - right. apply eqb_neq in En. split; auto. inv_bind H. exists a1. split; auto.
      destruct (tmem s a1) eqn:Em.
      + right. split; auto. inv_bind H. inv_bind H. inv_bind H. inv_bind H. inv_bind H. inv_bind H.
        do 6 eexists. repeat split; eauto. congruence.
      + left. split; auto. congruence.
  Qed.

  (** The equality constraints of keep_trains_order. *)
  Inductive kto_eq (s j jp : pv) : constr -> Prop :=
  | kto_eq_line sp path v1 v2 :
      dget j (ts_Paths ts) = Some path -> previous_station path s = Ok sp ->
      can_MO_on_line j jp s ts = Ok false ->
      get4 y j jp one_station s = Ok v1 -> get4 y j jp one_station sp = Ok v2 ->
      kto_eq s j jp (mk_eq (aff_var v1) (aff_var v2))
  | kto_eq_in yin v :
      can_MO_on_line j jp s ts = Ok true -> entering_via_same_switches ts s j jp = true ->
      get_y4_in y in_ j jp s = Ok yin -> get4 y j jp one_station s = Ok v ->
      kto_eq s j jp (mk_eq yin (aff_var v)).

  Lemma kto_shape s j jp o :
    kto_emit y ts s j jp = Ok o ->
    exists path sp, dget j (ts_Paths ts) = Some path /\ previous_station path s = Ok sp /\
      (o = None \/
       exists c inner groups, o = Some (kto_name s j jp sp, c) /\ kto_eq s j jp c /\
         dget sp (ts_Jd ts) = Some inner /\ dmem s inner = true /\
         dget s (ts_Jtrack ts) = Some groups /\ occurs_as_pair j jp groups = true).
  Proof.
    unfold kto_emit, emit1. intros H. inv_bind H. inv_bind H. apply dlookup_ok in E.
    exists a, a0. repeat split; auto.
    destruct (dget a0 (ts_Jd ts)) as [inner|] eqn:Ed; [|left; congruence].
    destruct (dmem s inner) eqn:Em; [|left; congruence].
    inv_bind H. apply dlookup_ok in E1.
    destruct (occurs_as_pair j jp a1) eqn:Eo; [|left; congruence].
    inv_bind H. destruct a2; cbn [negb] in H.
    - destruct (entering_via_same_switches ts s j jp) eqn:Es; [|left; congruence].
      inv_bind H. inv_bind H. right. do 3 eexists. split; [symmetry; injection H; intros <-; reflexivity|].
      repeat split; eauto. eapply kto_eq_in; eauto.
    - inv_bind H. inv_bind H. destruct a3; [|left; congruence].
      inv_bind H. inv_bind H. right. do 3 eexists. split; [symmetry; injection H; intros <-; reflexivity|].
      repeat split; eauto. eapply kto_eq_line; eauto.
  Qed.

  Lemma arrival_shape s jp L src :
    arrival tt ts s jp = Ok (L, src) ->
    exists path sp, dget jp (ts_Paths ts) = Some path /\ previous_station path s = Ok sp /\
    ((exists pr s_rp e tp, previous_train_from_Jround ts jp s <> PNone /\
        dget (previous_train_from_Jround ts jp s) (ts_Paths ts) = Some pr /\
        previous_station pr s = Ok s_rp /\
        edt (previous_train_from_Jround ts jp s) s_rp = Ok e /\
        tau_pass tt (previous_train_from_Jround ts jp s) s_rp s = Ok tp /\
        L = e + tp /\ src = Some (previous_train_from_Jround ts jp s, s_rp)) \/
     (exists e tp, previous_train_from_Jround ts jp s = PNone /\ sp <> PNone /\
        edt jp sp = Ok e /\ tau_pass tt jp sp s = Ok tp /\ L = e + tp /\ src = Some (jp, sp)) \/
     (previous_train_from_Jround ts jp s = PNone /\ sp = PNone /\ edt jp s = Ok L /\ src = None)).
  Proof.
    unfold arrival. intros H. inv_bind H. inv_bind H. apply dlookup_ok in E.
    exists a, a0. repeat split; auto. unfold is_none in H.
    destruct (eqb (previous_train_from_Jround ts jp s) PNone) eqn:Ep; cbn [negb] in H.
    - apply eqb_eq in Ep. right. destruct (eqb a0 PNone) eqn:En; cbn [negb] in H.
      + apply eqb_eq in En. inv_bind H. inversion H; subst. right. auto.
      + apply eqb_neq in En. inv_bind H. inv_bind H. inversion H; subst. left.
        exists a1, a2. repeat split; auto.
    - apply eqb_neq in Ep. left. inv_bind H. inv_bind H. inv_bind H. inv_bind H.
      apply dlookup_ok in E1. inversion H; subst. exists a1, a2, a3, a4. repeat split; auto.
  Qed.

  Lemma tos_shape s j jp o :
    tos_emit tt dv y ts d_max s j jp = Ok o ->
    (subsequent_train_at_Jround ts j s <> PNone /\
     exists y1 y2, get_y3 y jp j s = Ok y1 /\
       get_y3 y jp (subsequent_train_at_Jround ts j s) s = Ok y2 /\
       o = Some (rr_name s j jp (subsequent_train_at_Jround ts j s), mk_eq y1 y2)) \/
    (subsequent_train_at_Jround ts j s = PNone /\
     exists L src R0 R, arrival tt ts s jp = Ok (L, src) /\ edt j s = Ok R0 /\
       extra_res s tt ts R0 = Ok R /\
       ((o = None /\ R <= L - d_max) \/
        (exists La yv v, arrival_aff dv L src = Ok La /\ get_y3 y jp j s = Ok yv /\
           get2 dv j s = Ok v /\ L - d_max < R /\
           o = Some (tos_name s j jp,
                     mk_ge (aff_sub La (aff_var v))
                       (aff_sub (aff_const R) (aff_scale (get_M L R d_max) yv)))))).
  Proof.
    unfold tos_emit, emit1. cbv zeta. unfold is_none.
    destruct (eqb (subsequent_train_at_Jround ts j s) PNone) eqn:En; cbn [negb]; intros H.
    - apply eqb_eq in En. right. split; auto. inv_bind H. destruct a as [L src].
      inv_bind H. inv_bind H. exists L, src, a, a0. repeat split; auto.
      destruct (qltb (L - d_max) a0) eqn:Eb.
      + inv_bind H. inv_bind H. inv_bind H. right. exists a1, a2, a3. apply qltb_true in Eb.
        repeat split; auto. congruence.
      + left. apply qltb_false in Eb. split; [congruence|exact Eb].
    - apply eqb_neq in En. left. split; auto. inv_bind H. inv_bind H. exists a, a0.
      repeat split; auto. congruence.
  Qed.

  Lemma extra_shape s R0 R :
    extra_res s tt ts R0 = Ok R ->
    (R = R0 /\ (forall l, ts_add_switches ts = Some l -> ~ In s l)) \/
    (exists l r, ts_add_switches ts = Some l /\ In s l /\ tau_res tt = Ok r /\ R = R0 + r).
  Proof.
    unfold extra_res. destruct (ts_add_switches ts) as [l|].
    - destruct (lmem s l) eqn:El.
      + intros H. inv_bind H. inversion H; subst. right. exists l, a.
        apply lmem_true in El. auto.
      + intros H; inversion H; subst. left. split; auto. intros l' Hl; inversion Hl; subst.
        apply lmem_false. exact El.
    - intros H; inversion H; subst. left. split; auto. discriminate.
  Qed.

  (** Time (constant part) at which a train occupies the switch, without the reservation. *)
  Definition at_switch (s j sp : pv) (t : Q) : Prop :=
    exists e, edt j sp = Ok e /\
      ((s = sp /\ t = e) \/ (s <> sp /\ exists p, tau_pass tt j sp s = Ok p /\ t = e + p)).

  Lemma sw_shape s jp sp jpp spp o :
    sw_emit tt dv y ts d_max s jp sp jpp spp = Ok o ->
    exists L R r, at_switch s jp sp L /\ at_switch s jpp spp R /\ tau_res tt = Ok r /\
      ((o = None /\ R + r + d_max <= L) \/
       (exists Rr yv v1 v2, Rr == R + r /\ sw_order y ts s jp sp jpp spp = Ok yv /\
          get2 dv jp sp = Ok v1 /\ get2 dv jpp spp = Ok v2 /\
          L < Rr + d_max /\
          o = Some (sw_name s jp sp jpp spp,
                    mk_ge (plus_var L v1)
                      (aff_add (aff_sub (aff_const Rr) (aff_scale (get_M L Rr d_max) yv))
                         (aff_var v2))))).
  Proof.
    unfold sw_emit, emit1. intros H. inv_bind H. inv_bind H. inv_bind H. inv_bind H. inv_bind H.
    cbv zeta in H. rename a into L0, a0 into R0, a1 into r, a2 into L, a3 into Rr.
    assert (HL : at_switch s jp sp L).
    { exists L0. split; auto. destruct (eqb s sp) eqn:Es.
      - apply eqb_eq in Es. left. split; congruence.
      - apply eqb_neq in Es. right. split; auto. inv_bind E2. exists a. split; congruence. }
    assert (HR : exists R, at_switch s jpp spp R /\ Rr == R + r).
    { destruct (eqb s spp) eqn:Es.
      - apply eqb_eq in Es. exists R0. split; [|inversion E3; reflexivity].
        exists R0. split; auto.
      - apply eqb_neq in Es. inv_bind E3. inversion E3; subst. exists (R0 + a). split.
        + exists R0. split; auto. right. split; auto. exists a; auto.
        + ring. }
    destruct HR as (R & HR & HRr). exists L, R, r. split; [exact HL|]. split; [exact HR|].
    split; [exact E1|]. destruct (qltb L (Rr + d_max)) eqn:Eb.
    - right. apply qltb_true in Eb. inv_bind H. inv_bind H. inv_bind H.
      exists Rr, a, a0, a1. repeat split; auto. congruence.
    - left. apply qltb_false in Eb. split; [congruence|]. rewrite HRr in Eb. exact Eb.
  Qed.

  Lemma circ_shape s j jp o :
    circ_emit tt dv ts d_max s j jp = Ok o ->
    exists path sp L0 R tp pr, dget j (ts_Paths ts) = Some path /\
      previous_station path s = Ok sp /\ edt j sp = Ok L0 /\ edt jp s = Ok R /\
      tau_pass tt j sp s = Ok tp /\ tau_prep tt jp s = Ok pr /\
      ((o = None /\ L0 + tp + pr + d_max <= R) \/
       (exists v1 v2, get2 dv j sp = Ok v1 /\ get2 dv jp s = Ok v2 /\
          R < L0 + tp + pr + d_max /\
          o = Some (circ_name s j jp, mk_ge (plus_var R v2) (plus_var (L0 + tp + pr) v1)))).
  Proof.
    unfold circ_emit, emit1. intros H. inv_bind H. inv_bind H. inv_bind H. inv_bind H.
    inv_bind H. inv_bind H. cbv zeta in H. apply dlookup_ok in E.
    exists a, a0, a1, a2, a3, a4. repeat split; auto.
    destruct (qltb a2 (a1 + a3 + a4 + d_max)) eqn:Eb.
    - inv_bind H. inv_bind H. right. exists a5, a6. apply qltb_true in Eb. repeat split; auto. congruence.
    - left. apply qltb_false in Eb. split; [congruence|exact Eb].
  Qed.
End Shapes.
