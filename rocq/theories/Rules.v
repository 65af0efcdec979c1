(** * Rules: every emitted constraint in one of three forms

    The generators of Emit.v, seen as calls whose rule (a conditional or unconditional time
    distance, or an equality of order decisions) does not depend on [d_max] nor on the category
    of the delay variables. *)

From Coq Require Import List String ZArith QArith Bool Arith Lia Lqa.
From Verif Require Import Base Pulp Helpers LinearSolver BaseFacts Spec TreeFacts OrderVars
  Emit DelayVars Shapes Origin SpecFacts Sound.
Import ListNotations.
Open Scope string_scope.
Open Scope list_scope.

Inductive call : Type :=
| KMs (s sp j jp : pv) | KStay (j s : pv) | KSl (s sp j jp : pv) | KKto (s j jp : pv)
| KTos (s j jp : pv) | KCirc (s j jp : pv) | KSw (s jp sp jpp spp : pv).

Definition emit_of (tt : timetable) (dv y : tree) (ts : train_sets) (d_max : Q) (k : call) : emission :=
  match k with
  | KMs s sp j jp => ms_emit tt dv y ts d_max s sp j jp
  | KStay j s => stay_emit tt dv ts j s
  | KSl s sp j jp => sl_emit tt dv y ts d_max s sp j jp
  | KKto s j jp => kto_emit y ts s j jp
  | KTos s j jp => tos_emit tt dv y ts d_max s j jp
  | KCirc s j jp => circ_emit tt dv ts d_max s j jp
  | KSw s jp sp jpp spp => sw_emit tt dv y ts d_max s jp sp jpp spp
  end.

(** The calls made for the given sets. *)
Definition called (ts : train_sets) (k : call) : Prop :=
  match k with
  | KMs s sp j jp => in_span ts s sp j jp \/ in_span ts s sp jp j
  | KStay j s => In j (ts_J ts) /\ exists path, dget j (ts_Paths ts) = Some path /\ In s path
  | KSl s sp j jp => in_line ts s sp j jp \/ in_line ts sp s jp j
  | KKto s j jp => in_track ts s j jp /\ track_skip jp s ts = Ok false
  | KTos s j jp => track_skip j s ts = Ok false /\ (in_track ts s j jp \/ in_track ts s jp j)
  | KCirc s j jp => in_circ ts s j jp
  | KSw s jp sp jpp spp => exists pair,
      (in_switch ts s pair jp jpp \/ in_switch ts s pair jpp jp) /\
      departure_station4switches s jp pair ts = Ok sp /\
      departure_station4switches s jpp pair ts = Ok spp
  end.

Lemma origin_call tt dv y ts d_max e :
  origin tt dv y ts d_max e <-> exists k, called ts k /\ e = emit_of tt dv y ts d_max k.
Proof.
  split.
  - intros H. inversion H; subst.
    + exists (KMs s sp j jp). cbn. auto.
    + exists (KMs s sp jp j). cbn. auto.
    + exists (KStay j s). cbn. eauto.
    + exists (KSl s sp j jp). cbn. auto.
    + exists (KSl sp s jp j). cbn. auto.
    + exists (KKto s j jp). cbn. auto.
    + exists (KTos s jp j). cbn. auto.
    + exists (KTos s j jp). cbn. auto.
    + exists (KCirc s j jp). cbn. auto.
    + exists (KSw s jp sp jpp spp). cbn. eauto 6.
    + exists (KSw s jpp spp jp sp). cbn. eauto 6.
  - intros (k & Hk & ->). destruct k; cbn in *.
    + destruct Hk; [apply o_ms|apply o_ms']; auto.
    + destruct Hk as (? & path & ? & ?). eapply o_stay; eauto.
    + destruct Hk; [apply o_sl|apply o_sl']; auto.
    + destruct Hk. apply o_kto; auto.
    + destruct Hk as [? [?|?]]; [apply o_tos'|apply o_tos]; auto.
    + apply o_circ; auto.
    + destruct Hk as (pair & [?|?] & ? & ?); [eapply o_sw|eapply o_sw']; eauto.
Qed.

Inductive rule : Type :=
| RNone                                                                (* nothing *)
| RCond (L R : Q) (a : option (pv * pv)) (b : pv * pv) (yv : res aff)   (* L + a >= R + b unless yv *)
| RHard (L R : Q) (a b : pv * pv)                                       (* L + a >= R + b *)
| RSame (c : constr).                                                   (* a fixed constraint *)

(** The rule of a call. *)
Definition rule_of (tt : timetable) (y : tree) (ts : train_sets) (k : call) : res rule :=
  let edt := earliest_dep_time (ts_Paths ts) tt in
  match k with
  | KMs s sp j jp =>
      do L <- edt jp s; do R <- edt j s; do h <- tau_headway tt j jp s sp;
      Ok (RCond L (R + h) (Some (jp, s)) (j, s) (get_y3 y jp j s))
  | KStay j s =>
      do path <- dlookup j (ts_Paths ts);
      do sp <- previous_station path s;
      if is_none sp then Ok RNone
      else if wants ts j s then
        do L <- edt j s; do R <- edt j sp; do tp <- tau_pass tt j sp s; do st <- tau_stop tt j s;
        Ok (RHard L (R + tp + st) (j, s) (j, sp))
      else Ok RNone
  | KSl s sp j jp =>
      do L <- edt j s; do R <- edt jp sp; do h <- tau_pass tt jp sp s;
      Ok (RCond L (R + h) (Some (j, s)) (jp, sp) (get_y4_singleline y j jp s sp))
  | KKto s j jp =>
      do o <- kto_emit y ts s j jp;
      Ok (match o with Some (_, c) => RSame c | None => RNone end)
  | KTos s j jp =>
      let j_rr := subsequent_train_at_Jround ts j s in
      if negb (is_none j_rr) then
        do y1 <- get_y3 y jp j s; do y2 <- get_y3 y jp j_rr s; Ok (RSame (mk_eq y1 y2))
      else
        do '(L, src) <- arrival tt ts s jp;
        do R0 <- edt j s;
        do R <- extra_res s tt ts R0;
        Ok (RCond L R src (j, s) (get_y3 y jp j s))
  | KCirc s j jp =>
      do pj <- dlookup j (ts_Paths ts);
      do sp <- previous_station pj s;
      do R <- edt j sp; do L <- edt jp s; do tp <- tau_pass tt j sp s; do pr <- tau_prep tt jp s;
      Ok (RCond L (R + tp + pr) (Some (jp, s)) (j, sp) (Ok (aff_const 0)))
  | KSw s jp sp jpp spp =>
      do L0 <- edt jp sp; do R0 <- edt jpp spp; do r <- tau_res tt;
      do L <- (if eqb s sp then Ok L0 else do p <- tau_pass tt jp sp s; Ok (L0 + p));
      do R <- (if eqb s spp then Ok (R0 + r) else do p <- tau_pass tt jpp spp s; Ok (R0 + r + p));
      Ok (RCond L R (Some (jp, sp)) (jpp, spp) (sw_order y ts s jp sp jpp spp))
  end.

Definition delay_id (a : pv * pv) : vid := ("Delays", [fst a; snd a]).
Definition delay_of (x : assignment) (a : option (pv * pv)) : Q :=
  match a with Some p => x (delay_id p) | None => 0 end.

Definition cond_ids (a : option (pv * pv)) (b : pv * pv) (yv : aff) (i : vid) : Prop :=
  (exists p, a = Some p /\ i = delay_id p) \/ i = delay_id b \/ In i (aff_ids yv).

(** How a rule appears in the problem. *)
Inductive realises (d_max : Q) : rule -> option (string * constr) -> Prop :=
| rz_none : realises d_max RNone None
| rz_drop L R a b yv : R <= L - d_max -> realises d_max (RCond L R a b yv) None
| rz_cond L R a b yv n c :
    L - d_max < R -> c_sense c = GE ->
    (forall x, eval (c_aff c) x ==
       (L + delay_of x a) - (R + delay_of x (Some b)) + get_M L R d_max * eval yv x) ->
    (forall i, In i (aff_ids (c_aff c)) <-> cond_ids a b yv i) ->
    realises d_max (RCond L R a b (Ok yv)) (Some (n, c))
| rz_hard L R a b n c :
    c_sense c = GE ->
    (forall x, eval (c_aff c) x == (L + delay_of x (Some a)) - (R + delay_of x (Some b))) ->
    (forall i, In i (aff_ids (c_aff c)) <-> i = delay_id a \/ i = delay_id b) ->
    realises d_max (RHard L R a b) (Some (n, c))
| rz_same c n : realises d_max (RSame c) (Some (n, c)).

Section Realise.
  Variables (ts : train_sets) (tt : timetable) (d_max : Q) (cat : vcat) (dv y : tree).
  Hypothesis Hdv : delay_varibles ts d_max cat = Ok dv.

  Lemma g2id j s v : get2 dv j s = Ok v -> v_id v = delay_id (j, s).
  Proof. rewrite (get2_char ts d_max cat dv j s v Hdv). intros [_ ->]. reflexivity. Qed.

  (** Membership in the inner delay dictionary. *)
  Lemma tmem_delay j s dj : tlookup j dv = Ok dj -> (tmem s dj = true <-> has_delay ts j s).
  Proof.
    intros Hj. destruct (delay_varibles_char ts d_max cat dv Hdv) as (HD & _ & HC).
    destruct dv as [w|e]; cbn in Hj; [discriminate|]. apply dlookup_ok in Hj.
    assert (Hu := udepth_child _ _ _ _ HD Hj). destruct dj as [w|e1]; [cbn in Hu; tauto|].
    unfold tmem, dmem. destruct (dget s e1) as [c|] eqn:E.
    - split; [intros _|auto]. assert (Hc := udepth_child _ _ _ _ Hu E).
      destruct c as [v|]; [|cbn in Hc; tauto].
      assert (tpath [j; s] (TNode e) = Some v) by (cbn; rewrite Hj, E; reflexivity).
      apply HC in H. apply H.
    - split; [discriminate|]. intros HH.
      assert (tpath [j; s] (TNode e) = Some (delay_var_of j s d_max cat)) by (apply HC; auto).
      cbn in H. rewrite Hj, E in H. discriminate.
  Qed.

  Lemma ids_cond L R v1 v2 M yv a b i :
    v_id v1 = delay_id a -> v_id v2 = delay_id b ->
    (In i (aff_ids (c_aff (mk_ge (plus_var L v1) (aff_sub (plus_var R v2) (aff_scale M yv))))) <->
     cond_ids (Some a) b yv i).
  Proof.
    intros H1 H2. cbn [c_aff mk_ge]. unfold cond_ids.
    rewrite !aff_sub_ids, !plus_var_ids, aff_scale_ids, H1, H2.
    split; [intros [?|[?|?]]; eauto|intros [(p & E & ?)|[?|?]]; auto]. inversion E; subst; auto.
  Qed.

  Theorem realise k o :
    called ts k -> emit_of tt dv y ts d_max k = Ok o ->
    exists r, rule_of tt y ts k = Ok r /\ realises d_max r o.
  Proof.
    intros HK H. destruct k; cbn [emit_of rule_of] in *.
    - apply ms_shape in H as (L & R & h & HL & HR & Hh & HC). rewrite HL, HR, Hh. cbn [bind].
      eexists; split; [reflexivity|].
      destruct HC as [[-> HC]|(vjp & vj & yv & H1 & H2 & H3 & Hlt & ->)]; [apply rz_drop; exact HC|].
      rewrite H3. apply rz_cond; auto.
      + intros x. cbn [c_aff mk_ge delay_of]. unfold plus_var.
        rewrite !eval_sub, eval_scale, !eval_add, !eval_const, !eval_var.
        rewrite (g2id _ _ _ H1), (g2id _ _ _ H2). ring.
      + intros i. apply ids_cond; eapply g2id; eauto.
    - destruct HK as [Hj (path0 & Hp0 & Hs0)].
      apply stay_shape in H as (path & sp & Hp & Hsp & HC).
      unfold dlookup. rewrite Hp. cbn [bind]. rewrite Hsp. cbn [bind].
      destruct HC as [[-> ->]|[Hn (dj & Hdj & HC)]].
      + unfold is_none. rewrite eqb_refl. eexists; split; [reflexivity|constructor].
      + unfold is_none. destruct (eqb sp PNone) eqn:En; [apply eqb_eq in En; contradiction|].
        assert (HW : wants ts j s = true <-> has_delay ts j s).
        { rewrite wants_true. unfold has_delay. split.
          - intros [? ?]. split; auto. exists path. repeat split; auto. congruence.
          - intros (_ & q & ? & ? & ? & ?). auto. }
        rewrite <- (tmem_delay j s dj Hdj) in HW.
        destruct HC as [[-> Hm]|[Hm X]].
        * destruct (wants ts j s); [|eexists; split; [reflexivity|constructor]].
          destruct HW as [HW _]. specialize (HW eq_refl). congruence.
        * destruct X as (v & vp & L & R & tp & st & H1 & H2 & HL & HR & Htp & Hst & ->).
          destruct (wants ts j s); [|destruct HW as [_ HW]; specialize (HW Hm); discriminate].
          rewrite HL, HR, Htp, Hst. cbn [bind]. eexists; split; [reflexivity|].
          apply rz_hard; [reflexivity| |].
          -- intros x. cbn [c_aff mk_ge delay_of]. unfold plus_var.
             rewrite !eval_sub, !eval_add, !eval_const, !eval_var.
             rewrite (g2id _ _ _ H1), (g2id _ _ _ H2). ring.
          -- intros i. cbn [c_aff mk_ge]. rewrite aff_sub_ids, !plus_var_ids.
             rewrite (g2id _ _ _ H1), (g2id _ _ _ H2). reflexivity.
    - apply sl_shape in H as (L & R & h & HL & HR & Hh & HC). rewrite HL, HR, Hh. cbn [bind].
      eexists; split; [reflexivity|].
      destruct HC as [[-> HC]|(vjp & vj & yv & H1 & H2 & H3 & Hlt & ->)]; [apply rz_drop; exact HC|].
      rewrite H3. apply rz_cond; auto.
      + intros x. cbn [c_aff mk_ge delay_of]. unfold plus_var.
        rewrite !eval_sub, eval_scale, !eval_add, !eval_const, !eval_var.
        rewrite (g2id _ _ _ H1), (g2id _ _ _ H2). ring.
      + intros i. apply ids_cond; eapply g2id; eauto.
    - rewrite H. cbn [bind]. eexists; split; [reflexivity|]. destruct o as [[n c]|]; constructor.
    - cbv zeta. apply tos_shape in H as [(Hn & y1 & y2 & H1 & H2 & ->)|(Hn & L & src & R0 & R & HA & HR0 & HR & HC)].
      + unfold is_none. destruct (eqb _ PNone) eqn:En; [apply eqb_eq in En; contradiction|]. cbn [negb].
        rewrite H1, H2. cbn [bind]. eexists; split; [reflexivity|constructor].
      + unfold is_none. rewrite Hn, eqb_refl. cbn [negb]. rewrite HA. cbn [bind]. rewrite HR0. cbn [bind].
        rewrite HR. cbn [bind]. eexists; split; [reflexivity|].
        destruct HC as [[-> HC]|(La & yv & v & H1 & H2 & H3 & Hlt & ->)]; [apply rz_drop; exact HC|].
        rewrite H2.
        assert (HLa : (forall x, eval La x == L + delay_of x src) /\
                      (forall i, In i (aff_ids La) <-> exists p, src = Some p /\ i = delay_id p)).
        { unfold arrival_aff in H1. destruct src as [[u w]|].
          - inv_bind H1. inversion H1; subst. split.
            + intros x. unfold plus_var. rewrite eval_add, eval_const, eval_var, (g2id _ _ _ E). reflexivity.
            + intros i. rewrite plus_var_ids, (g2id _ _ _ E). split; [eauto|].
              intros (p & Ep & ->). inversion Ep; subst; reflexivity.
          - inversion H1; subst. split.
            + intros x. rewrite eval_const. cbn. ring.
            + intros i. cbn. split; [tauto|]. intros (p & Ep & _). discriminate. }
        destruct HLa as [HL1 HL2].
        apply rz_cond; auto.
        * intros x. cbn [c_aff mk_ge]. rewrite !eval_sub, eval_scale, eval_const, eval_var, HL1.
          cbn [delay_of]. rewrite (g2id _ _ _ H3). ring.
        * intros i. cbn [c_aff mk_ge]. rewrite !aff_sub_ids, aff_scale_ids, HL2, aff_var_ids, (g2id _ _ _ H3).
          unfold cond_ids. cbn. tauto.
    - apply circ_shape in H as (path & sp & L0 & R & tp & pr & Hp & Hsp & HL & HR & Htp & Hpr & HC).
      unfold dlookup. rewrite Hp. cbn [bind]. rewrite Hsp. cbn [bind]. rewrite HL, HR, Htp, Hpr. cbn [bind].
      eexists; split; [reflexivity|].
      destruct HC as [[-> HC]|(v1 & v2 & H1 & H2 & Hlt & ->)]; [apply rz_drop; lra|].
      apply rz_cond; auto; [lra| |].
      + intros x. cbn [c_aff mk_ge delay_of]. unfold plus_var.
        rewrite !eval_sub, !eval_add, !eval_const, !eval_var.
        rewrite (g2id _ _ _ H1), (g2id _ _ _ H2). ring.
      + intros i. cbn [c_aff mk_ge]. rewrite aff_sub_ids, !plus_var_ids.
        rewrite (g2id _ _ _ H1), (g2id _ _ _ H2). unfold cond_ids. cbn.
        split; [intros [?|?]; eauto|intros [(p & E & ?)|[?|[]]]; auto]. inversion E; subst; auto.
    - unfold sw_emit, emit1 in H. inv_bind H. inv_bind H. inv_bind H. inv_bind H. inv_bind H.
      cbv zeta in H. rename a into L0, a0 into R0, a1 into r, a2 into L, a3 into R.
      cbv zeta. rewrite ?E, ?E0, ?E1. cbn [bind]. rewrite E2, E3. cbn [bind].
      eexists; split; [reflexivity|]. destruct (qltb L (R + d_max)) eqn:Eb.
      + apply qltb_true in Eb. inv_bind H. inv_bind H. inv_bind H. inversion H; subst. rewrite E4.
        apply rz_cond; auto; [lra| |].
        * intros x. cbn [c_aff mk_ge delay_of]. unfold plus_var.
          rewrite !eval_sub, !eval_add, !eval_sub, eval_scale, !eval_const, !eval_var.
          rewrite (g2id _ _ _ E5), (g2id _ _ _ E6). ring.
        * intros i. cbn [c_aff mk_ge]. rewrite aff_sub_ids, aff_add_ids, aff_sub_ids, !plus_var_ids, aff_scale_ids.
          rewrite aff_var_ids, (g2id _ _ _ E5), (g2id _ _ _ E6). unfold cond_ids.
          split; [intros [?|[[Hc|?]|?]]; eauto; destruct Hc|].
          intros [(p & Ep & ?)|[?|?]]; auto. inversion Ep; subst; auto.
      + apply qltb_false in Eb. inversion H; subst. apply rz_drop. lra.
  Qed.

  (** The order reading of a conditional rule. *)
  Lemma rule_reading k L R a b yv :
    rule_of tt y ts k = Ok (RCond L R a b (Ok yv)) -> reading y yv \/ yv = aff_const 0.
  Proof.
    destruct k; cbn [rule_of]; intros H.
    - inv_bind H. inv_bind H. inv_bind H. inversion H; subst. left. eapply get_y3_reading; eauto.
    - inv_bind H. inv_bind H. destruct (is_none a1); [discriminate|]. destruct (wants ts j s); [|discriminate].
      inv_bind H. inv_bind H. inv_bind H. inv_bind H. discriminate.
    - inv_bind H. inv_bind H. inv_bind H. inversion H; subst. left. eapply get_y4_reading; eauto.
    - inv_bind H. destruct a0 as [[n c]|]; discriminate.
    - cbv zeta in H. destruct (negb _).
      + inv_bind H. inv_bind H. discriminate.
      + inv_bind H. destruct a0 as [L1 src]. inv_bind H. inv_bind H. inversion H; subst. left.
        eapply get_y3_reading; eauto.
    - inv_bind H. inv_bind H. inv_bind H. inv_bind H. inv_bind H. inv_bind H. inversion H; subst. auto.
    - inv_bind H. inv_bind H. inv_bind H. inv_bind H. inv_bind H. inversion H; subst. left.
      eapply sw_order_reading; eauto.
  Qed.

  (** Fixed constraints equate two order readings. *)
  Lemma rule_same k c :
    rule_of tt y ts k = Ok (RSame c) -> exists a b, c = mk_eq a b /\ reading y a /\ reading y b.
  Proof.
    destruct k; cbn [rule_of]; intros H.
    - inv_bind H. inv_bind H. inv_bind H. discriminate.
    - inv_bind H. inv_bind H. destruct (is_none a0); [discriminate|]. destruct (wants ts j s); [|discriminate].
      inv_bind H. inv_bind H. inv_bind H. inv_bind H. discriminate.
    - inv_bind H. inv_bind H. inv_bind H. discriminate.
    - inv_bind H. destruct a as [[n c']|]; [|discriminate]. inversion H; subst.
      apply kto_shape in E as (path & sp & _ & _ & [?|(c' & inner & groups & Eo & Hk & _)]); [discriminate|].
      inversion Eo; subst. inversion Hk as [sp' path' v1 v2 _ _ _ H1 H2|yin v _ _ H1 H2]; subst.
      + apply get4_tpath in H1, H2. exists (aff_var v1), (aff_var v2). unfold reading. eauto 12.
      + apply get4_tpath in H2. exists yin, (aff_var v). split; auto. split; [eapply get_in_reading; eauto|].
        unfold reading. eauto.
    - cbv zeta in H. destruct (negb _).
      + inv_bind H. inv_bind H. inversion H; subst. exists a, a0. split; auto.
        split; eapply get_y3_reading; eauto.
      + inv_bind H. destruct a as [L1 src]. inv_bind H. inv_bind H. discriminate.
    - inv_bind H. inv_bind H. inv_bind H. inv_bind H. inv_bind H. inv_bind H. discriminate.
    - inv_bind H. inv_bind H. inv_bind H. inv_bind H. inv_bind H. discriminate.
  Qed.
End Realise.
