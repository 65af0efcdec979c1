(** * Accept: which problems the QUBO converter accepts (C54) *)

From Coq Require Import List String Ascii ZArith QArith Qround Bool Lqa Lia.
From Verif Require Import Base Pulp Helpers LinearSolver BaseFacts Spec OrderVars Emit Origin Sound SpecNames Names
  SpecCompare Sim Compare Converters SpecQubo ConstraintNames QuboFacts QuboModel Qubo QuboEncode Created Integral.
Import ListNotations.
Open Scope string_scope.
Open Scope list_scope.

Lemma as_int_total q : is_int q -> exists z, as_int q = Some z.
Proof.
  intros [z Hz]. unfold as_int. exists (Qfloor q).
  assert (E : Qfloor q = z) by (exact (eq_trans (Qfloor_comp _ _ Hz) (Qfloor_Z z))). rewrite E.
  assert (B : Qeq_bool q (inject_Z z) = true) by (apply Qeq_bool_iff; exact Hz). rewrite B. reflexivity.
Qed.

(** The point where a linear expression is smallest *)
Definition lowest_point (l : list (lpvar * Q)) (base : assignment) : assignment :=
  fun i => match find (fun vq => eqb (v_id (fst vq)) i) l with
           | Some (v, q) => match (if qltb q 0 then v_up v else v_lo v) with Some b => b | None => 0 end
           | None => base i
           end.

Lemma lowest_in l base v q : NoDup (map v_id (map fst l)) -> In (v, q) l ->
  lowest_point l base (v_id v) = match (if qltb q 0 then v_up v else v_lo v) with Some b => b | None => 0 end.
Proof.
  intros ND H. unfold lowest_point.
  assert (F : find (fun vq : lpvar * Q => eqb (v_id (fst vq)) (v_id v)) l = Some (v, q)).
  { induction l as [|[w r] l IH]; [destruct H|]. cbn [find fst]. cbn in ND. inversion ND; subst.
    destruct H as [E|H].
    - inversion E; subst. rewrite eqb_refl. reflexivity.
    - destruct (eqb (v_id w) (v_id v)) eqn:B; [|auto]. apply eqb_eq in B. exfalso. apply H2. rewrite B.
      apply in_map. apply (in_map fst) in H. exact H. }
  rewrite F. reflexivity.
Qed.

Lemma slack_lowest l off ub base : get_slack_ub l off = Ok ub -> NoDup (map v_id (map fst l)) ->
  - (eval_terms l (lowest_point l base) + off) == inject_Z ub.
Proof.
  unfold get_slack_ub. intros H ND. inv_bind H.
  destruct (as_int (- (a + off))) as [z|] eqn:A; [|discriminate]. inversion H; subst. apply as_int_ok in A.
  assert (G : forall l' acc a, foldM (fun acc (vq : lpvar * Q) =>
              match (if qltb (snd vq) 0 then v_up (fst vq) else v_lo (fst vq)) with
              | Some b => Ok (acc + snd vq * b) | None => Err TypeError end) l' acc = Ok a ->
            (forall v q, In (v, q) l' -> In (v, q) l) -> a == acc + eval_terms l' (lowest_point l base)).
  { clear E A. induction l' as [|[v q] l' IH]; intros acc a' E HV; cbn [foldM] in E.
    - inversion E. unfold eval_terms, qsum. cbn [map fold_right]. lra.
    - inv_bind E. apply IH in E; [|intros; apply HV; right; assumption]. cbn [fst snd] in E0.
      unfold eval_terms, qsum in *. cbn [map fold_right fst snd] in *.
      rewrite (lowest_in l base v q ND (HV v q (or_introl eq_refl))).
      destruct (if qltb q 0 then v_up v else v_lo v) as [bd|]; [|discriminate]. inversion E0; subst. lra. }
  pose proof (G _ _ _ E (fun _ _ H => H)) as GE'. rewrite <- A, GE'. lra.
Qed.

Lemma slack_total l off : is_int off ->
  (forall v q, In (v, q) l -> is_int q /\ exists lo up, v_lo v = Some lo /\ v_up v = Some up /\ is_int lo /\ is_int up) ->
  exists ub, get_slack_ub l off = Ok ub.
Proof.
  intros Ho HV. unfold get_slack_ub.
  assert (G : forall l' acc, is_int acc -> (forall v q, In (v, q) l' -> In (v, q) l) ->
            exists a, is_int a /\ foldM (fun acc (vq : lpvar * Q) =>
              match (if qltb (snd vq) 0 then v_up (fst vq) else v_lo (fst vq)) with
              | Some b => Ok (acc + snd vq * b) | None => Err TypeError end) l' acc = Ok a).
  { induction l' as [|[v q] l' IH]; intros acc HA HL; cbn [foldM fst snd]; [eauto|].
    destruct (HV v q (HL v q (or_introl eq_refl))) as (Iq & lo & up & Hl & Hu & Il & Iu).
    rewrite Hl, Hu.
    destruct (qltb q 0); cbn [bind]; apply IH; try (intros; apply HL; right; assumption);
      apply is_int_add; auto using is_int_mul. }
  destruct (G l 0 (is_int_Z 0) (fun _ _ H => H)) as (a & Ia & ->). cbn [bind].
  destruct (as_int_total (- (a + off))) as (z & ->); [apply is_int_opp, is_int_add; assumption|]. eauto.
Qed.

(** What a variable needs to be encoded *)
Definition encodable (v : lpvar) : Prop :=
  v_cat v = Integer /\ exists lo up, v_lo v = Some lo /\ v_up v = Some up /\ is_int lo /\ is_int up /\ lo < up.

Lemma encodable_form v : encodable v -> exists a, var_form v = Ok a.
Proof.
  intros (C & lo & up & Hl & Hu & Il & Iu & L). unfold var_form. rewrite C. destruct (is_binary v); [eauto|].
  unfold log_enc_var. rewrite Hl, Hu. destruct (as_int_total lo Il) as (l & El), (as_int_total up Iu) as (u & Eu).
  rewrite El, Eu. unfold log_enc. destruct (Z.leb_spec u l); [|eauto].
  exfalso. apply as_int_ok in El, Eu. rewrite Zle_Qle in H. lra.
Qed.

Lemma qubo_vars_total vs : (forall v, In v vs -> encodable v) -> forall t0 s0,
  exists t s, foldM qubo_var vs (t0, s0) = Ok (t, s).
Proof.
  induction vs as [|v vs IH]; intros HV t0 s0; cbn [foldM]; [eauto|].
  destruct (encodable_form v (HV v (or_introl eq_refl))) as (a & Ha).
  assert (ST : exists t1 s1, qubo_var (t0, s0) v = Ok (t1, s1)).
  { unfold qubo_var. unfold var_form in Ha. destruct (v_cat v); [|discriminate].
    destruct (is_binary v); [|rewrite Ha]; cbn [bind]; eauto. }
  destruct ST as (t1 & s1 & ->). cbn [bind]. apply IH; intros w Hw; apply HV; right; exact Hw.
Qed.

Lemma translate_total t l : (forall v q, In (v, q) l -> exists a, dget (v_id v) t = Some a) ->
  exists e, translate t l = Ok e.
Proof.
  intros HV. unfold translate.
  generalize (lin_const 0). induction l as [|[v q] l IH]; intros acc; cbn [foldM fst snd]; [eauto|].
  destruct (HV v q (or_introl eq_refl)) as (a & Ha). unfold dlookup. rewrite Ha. cbn [bind].
  apply IH. intros; eapply HV; right; eassumption.
Qed.

Section Accept.
  Variable p : lpproblem.
  Hypothesis HC : consistent p.
  Hypothesis HA : apart p.
  Hypothesis HE : forall v, occurs p v -> encodable v.
  Hypothesis HT : forall n c, In (n, c) (p_constraints p) -> ia (c_aff c).

  (** The smallest values, a point in range *)
  Definition floor_point : assignment :=
    fun i => match find (fun v => eqb (v_id v) i) (variables p) with
             | Some v => match v_lo v with Some lo => lo | None => 0 end
             | None => 0
             end.

  Lemma floor_ok v : In v (variables p) -> var_ok v (floor_point (v_id v)).
  Proof.
    intros Hv. unfold floor_point. destruct (find (fun w => eqb (v_id w) (v_id v)) (variables p)) as [w|] eqn:F.
    - apply find_some in F as [Hw E]. apply eqb_eq in E.
      apply variables_occurs in Hw. apply variables_occurs in Hv.
      destruct (HC w v Hw Hv (same_id_name _ _ E)) as (E1 & E2 & E3).
      destruct (HE v Hv) as (C & lo & up & Hl & Hu & Il & Iu & L). rewrite E1, Hl.
      unfold var_ok. rewrite Hl, Hu. split; [|split].
      + intros q H; inversion H; subst; lra.
      + intros q H; inversion H; subst; lra.
      + intros _; exact Il.
    - exfalso. apply (find_none _ _ F v) in Hv. rewrite eqb_refl in Hv. discriminate.
  Qed.

  Lemma lowest_in_range l : (forall v q, In (v, q) l -> occurs p v) ->
    in_range p (lowest_point l floor_point).
  Proof.
    intros HO v Hv. unfold lowest_point.
    destruct (find (fun vq : lpvar * Q => eqb (v_id (fst vq)) (v_id v)) l) as [[w q]|] eqn:F; [|apply floor_ok, Hv].
    apply find_some in F as [Hw E]. apply eqb_eq in E. cbn [fst] in E.
    apply variables_occurs in Hv. destruct (HC w v (HO w q Hw) Hv (same_id_name _ _ E)) as (E1 & E2 & E3).
    destruct (HE v Hv) as (C & lo & up & Hl & Hu & Il & Iu & L). rewrite E1, E2, Hl, Hu.
    unfold var_ok. rewrite Hl, Hu. split; [|split]; try intros r H; try (inversion H; subst);
      destruct (qltb q 0); try lra; intros _; assumption.
  Qed.

  (** The computed slack range is positive exactly if there is room *)
  Lemma room n c : In (n, c) (p_constraints p) -> c_sense c <> EQ ->
    ((exists ub, slack_ub c = Ok ub /\ (0 < ub)%Z) <-> exists x, in_range p x /\ holds_strictly c x).
  Proof.
    intros Hc NE. destruct (HT n c Hc) as (I1 & I2 & I3).
    assert (HO : forall v q, In (v, q) (a_terms (c_aff c)) -> occurs p v).
    { intros v q Hv. right. exists n, c. split; [exact Hc|]. apply (in_map fst) in Hv. exact Hv. }
    assert (HON : forall v q, In (v, q) (negate (a_terms (c_aff c))) -> occurs p v).
    { intros v q Hv. unfold negate in Hv. apply in_map_iff in Hv as ([w r] & E & Hv). inversion E; subst. eauto. }
    assert (NDN : NoDup (map v_id (map fst (negate (a_terms (c_aff c)))))).
    { unfold negate. rewrite !map_map. cbn [fst]. unfold aff_vars in I3. rewrite map_map in I3. exact I3. }
    split.
    - intros (ub & Hu & Pos). unfold slack_ub in Hu. unfold holds_strictly.
      rewrite Zlt_Qlt in Pos. change (inject_Z 0) with 0 in Pos. destruct (c_sense c); [|congruence|].
      + pose proof (slack_lowest _ _ _ floor_point Hu I3) as E. eexists. split; [apply lowest_in_range, HO|].
        unfold eval. lra.
      + pose proof (slack_lowest _ _ _ floor_point Hu NDN) as E. rewrite eval_negate in E.
        eexists. split; [apply lowest_in_range, HON|]. unfold eval. lra.
    - intros (x & HR & HS).
      assert (TB : forall v q, In (v, q) (a_terms (c_aff c)) ->
                is_int q /\ exists lo up, v_lo v = Some lo /\ v_up v = Some up /\ is_int lo /\ is_int up).
      { intros v q Hv. split; [eauto|]. destruct (HE v (HO v q Hv)) as (_ & lo & up & Hl & Hu & Il & Iu & _). eauto 8. }
      assert (TBN : forall v q, In (v, q) (negate (a_terms (c_aff c))) ->
                is_int q /\ exists lo up, v_lo v = Some lo /\ v_up v = Some up /\ is_int lo /\ is_int up).
      { intros v q Hv. unfold negate in Hv. apply in_map_iff in Hv as ([w r] & E & Hv). cbn [fst snd] in E. inversion E; subst.
        destruct (TB _ _ Hv) as [Ir R]. split; [apply is_int_opp, Ir|exact R]. }
      assert (VO : forall v, occurs p v -> var_ok v (x (v_id v))) by (intros v; apply in_range_occurs; assumption).
      unfold slack_ub. unfold holds_strictly in HS. destruct (c_sense c); [|congruence|].
      + destruct (slack_total (a_terms (c_aff c)) (a_const (c_aff c)) I1 TB) as (ub & Hu). exists ub. split; [exact Hu|].
        pose proof (slack_bound _ _ _ x Hu (fun v q Hv => VO v (HO v q Hv))) as SB. unfold eval in HS.
        rewrite Zlt_Qlt. change (inject_Z 0) with 0. lra.
      + destruct (slack_total _ (- a_const (c_aff c)) (is_int_opp _ I1) TBN) as (ub & Hu). exists ub. split; [exact Hu|].
        pose proof (slack_bound _ _ _ x Hu (fun v q Hv => VO v (HON v q Hv))) as SB. rewrite eval_negate in SB.
        unfold eval in HS. rewrite Zlt_Qlt. change (inject_Z 0) with 0. lra.
  Qed.

  Lemma qubo_constraints_total t cs : (forall n c, In (n, c) cs -> In (n, c) (p_constraints p)) ->
    (forall v, occurs p v -> exists a, dget (v_id v) t = Some a) ->
    (forall n c, In (n, c) (p_constraints p) -> exists ph, get_placeholder n = Ok ph) ->
    leaves_room p -> forall H0 s0, exists Hs s, foldM (qubo_constraint t) cs (H0, s0) = Ok (H0 ++ Hs, s) /\
      List.length Hs = List.length cs.
  Proof.
    intros Hcs Ht HP HL. induction cs as [|[n c] cs IH]; intros H0 s0.
    - exists [], s0. rewrite app_nil_r. auto.
    - specialize (IH (fun n c H => Hcs n c (or_intror H))). pose proof (Hcs n c (or_introl eq_refl)) as Hc.
      destruct (translate_total t (a_terms (c_aff c))) as (e & He).
      { intros v q Hv. apply Ht. right. exists n, c. split; [exact Hc|]. apply (in_map fst) in Hv. exact Hv. }
      destruct (HP n c Hc) as (ph & Hph).
      assert (STEP : exists sm s1, qubo_constraint t (H0, s0) (n, c) = Ok (H0 ++ [sm], s1)).
      { unfold qubo_constraint. rewrite He, Hph. cbn [bind].
        destruct (c_sense c) eqn:S; [| eauto |];
          (destruct (proj2 (room n c Hc ltac:(rewrite S; discriminate)) (HL n c Hc ltac:(rewrite S; discriminate)))
             as (ub & Hu & Pos); unfold slack_ub in Hu; rewrite S in Hu; unfold negate in Hu; rewrite Hu; cbn [bind];
           unfold log_enc; destruct (Z.leb_spec ub 0); [lia|]; cbn [bind]; eauto). }
      destruct STEP as (sm & s1 & ST). cbn [foldM]. rewrite ST. cbn [bind].
      destruct (IH (H0 ++ [sm]) s1) as (Hs & s & E & L). exists (sm :: Hs), s. rewrite E, <- app_assoc. cbn.
      split; [reflexivity|congruence].
  Qed.

  Theorem accepts_iff :
    (exists v, In v (variables p)) ->
    (forall n c, In (n, c) (p_constraints p) -> exists ph, get_placeholder n = Ok ph) ->
    ((exists m, convert_to_pyqubo p = Ok m) <-> leaves_room p).
  Proof.
    intros [v0 Hv0] HP. split.
    - intros (m & CM) n c Hc NE. apply (room n c Hc NE).
      unfold convert_to_pyqubo in CM. inv_bind CM. destruct a as [t s]. inv_bind CM. destruct a as [H s'].
      destruct (qubo_constraints _ _ _ _ _ _ E0 (proj1 HA)) as (Hs & _ & F2 & _).
      destruct (Forall2_in_l _ _ _ _ F2 Hc) as (sm & _ & ph & e & a & form & _ & _ & _ & SF & _).
      cbn [fst snd] in SF. inversion SF as [S|ub a' _ Hu HL]; subst; [congruence|]. exists ub. split; [exact Hu|].
      unfold log_enc in HL. destruct (Z.leb_spec ub 0); [discriminate|lia].
    - intros HL.
      destruct (qubo_vars_total (variables p) (fun v Hv => HE v (variables_occurs p v Hv)) [] []) as (t & s & EV).
      destruct (qubo_vars _ _ _ _ _ EV (variables_nodup p)) as (V1 & _).
      assert (Ht : forall v, occurs p v -> exists a, dget (v_id v) t = Some a).
      { intros v Hv. destruct (occurs_variables p v Hv) as (w & Hw & E). destruct (V1 w Hw) as (a & _ & Ha).
        rewrite E in Ha. eauto. }
      destruct (qubo_constraints_total t (p_constraints p) (fun _ _ H => H) Ht HP HL [] s) as (Hs & s' & EC & LC).
      unfold convert_to_pyqubo.
      match goal with |- context [foldM qubo_var ?l ?a] => replace (foldM qubo_var l a) with (Ok (t, s)) by (symmetry; exact EV) end.
      cbn [bind].
      match goal with |- context [foldM (qubo_constraint t) ?l ?a] =>
        replace (foldM (qubo_constraint t) l a) with (Ok (Hs, s')) by (symmetry; exact EC) end.
      cbn [bind app].
      destruct (has_objective (p_objective p)) eqn:HO.
      + destruct (translate_total t (a_terms (p_objective p))) as (e & He).
        { intros v q Hv. apply Ht. left. apply (in_map fst) in Hv. exact Hv. }
        rewrite He. cbn [bind]. destruct Hs; cbn [app]; eauto.
      + destruct Hs as [|sm Hs]; cbn [bind]; [|eauto]. exfalso.
        apply variables_occurs in Hv0 as [Hv|(n & c & Hc & _)].
        * unfold has_objective in HO. apply orb_false_iff in HO as [_ HO]. apply negb_false_iff, Nat.eqb_eq in HO.
          unfold aff_vars in Hv. destruct (a_terms (p_objective p)); [destruct Hv|discriminate].
        * cbn in LC. destruct (p_constraints p); [destruct Hc|discriminate].
  Qed.
End Accept.

Lemma placeholder_total n rule : In rule rule_names -> starts_with (rule ++ "_") n -> exists ph, get_placeholder n = Ok ph.
Proof. intros HR HS. exists rule. apply placeholder_of_rule; assumption. Qed.

Lemma to_bqm_total m pdict :
  (forall sm, In sm (m_sum m) -> match sm with Square ph _ | Linear ph _ => exists k, dget ph pdict = Some k end) ->
  exists b, to_bqm m pdict = Ok b.
Proof.
  unfold to_bqm. generalize empty_bqm. induction (m_sum m) as [|sm l IH]; intros b0 H; cbn [foldM]; [eauto|].
  pose proof (H sm (or_introl eq_refl)) as Hs. destruct sm as [ph a|ph a]; destruct Hs as (k & ->); cbn [bind];
    apply IH; intros s' Hs'; apply H; right; exact Hs'.
Qed.

Lemma model_placeholders p m : convert_to_pyqubo p = Ok m -> NoDup (dkeys (p_constraints p)) ->
  forall sm, In sm (m_sum m) ->
    match sm with
    | Square ph _ => exists n c, In (n, c) (p_constraints p) /\ get_placeholder n = Ok ph
    | Linear ph _ => ph = "objective"
    end.
Proof.
  intros CM ND sm Hsm. unfold convert_to_pyqubo in CM. inv_bind CM. destruct a as [t s]. inv_bind CM. destruct a as [H s'].
  destruct (qubo_constraints _ _ _ _ _ _ E0 ND) as (Hs & EH & F2 & _). cbn [app] in EH. subst Hs.
  assert (HF : forall sm, In sm H -> match sm with
    | Square ph _ => exists n c, In (n, c) (p_constraints p) /\ get_placeholder n = Ok ph
    | Linear ph _ => ph = "objective" end).
  { intros s1 H1. destruct (Forall2_in_r _ _ _ _ F2 H1) as ([n c] & Hc & ph & e & a & form & -> & Hph & _).
    exists n, c. auto. }
  inv_bind CM. destruct (has_objective (p_objective p)).
  - inv_bind E1. inversion E1; subst. destruct (H ++ _) eqn:EA; [discriminate|]. inversion CM; subst. cbn [m_sum] in Hsm.
    rewrite <- EA in Hsm. apply in_app_iff in Hsm as [Hsm|[<-|[]]]; [exact (HF _ Hsm)|reflexivity].
  - inversion E1; subst. destruct a; [discriminate|]. inversion CM; subst. exact (HF _ Hsm).
Qed.

Theorem created_accepted ts tt d_max p pdict :
  reserved_free ts ->
  create_linear_problem ts tt d_max Integer = Ok p -> integral_times tt -> is_int d_max -> 0 < d_max ->
  (exists v, In v (variables p)) -> all_penalties pdict ->
  ((exists b i, convert_to_bqm p pdict = Ok (b, i)) <-> leaves_room p).
Proof.
  intros RF Hp HI Hd Pos HV HPD.
  assert (HE : forall v, occurs p v -> encodable v).
  { intros v Hv. destruct (created_bounds _ _ _ _ _ RF Hp v Hv) as [Hl [[Hu C]|[Hu C]]].
    - split; [exact C|]. exists 0, d_max. rewrite Hl, Hu. do 4 (split; [first [reflexivity|exact Hd|exact (is_int_Z 0)]|]). exact Pos.
    - split; [exact C|]. exists 0, 1. rewrite Hl, Hu.
      do 4 (split; [first [reflexivity|exact (is_int_Z 1)|exact (is_int_Z 0)]|]). reflexivity. }
  assert (HR : forall n c, In (n, c) (p_constraints p) -> exists ph, get_placeholder n = Ok ph /\ In ph rule_names).
  { intros n c Hc. destruct (every_name _ _ _ _ _ _ _ Hp Hc) as (rule & HR & HS).
    exists rule. split; [apply placeholder_of_rule; assumption|exact HR]. }
  rewrite <- (accepts_iff p (created_consistent _ _ _ _ _ RF Hp) (created_apart _ _ _ _ _ RF Hp) HE
                (created_integral _ _ _ _ _ Hp HI Hd) HV (fun n c Hc => match HR n c Hc with ex_intro _ ph H => ex_intro _ ph (proj1 H) end)).
  unfold convert_to_bqm. split.
  - intros (b & i & H). inv_bind H. exists a. exact E.
  - intros (m & CM). rewrite CM. cbn [bind].
    destruct (to_bqm_total m pdict) as (b & ->); [|cbn [bind]; eauto].
    intros sm Hsm. pose proof (model_placeholders p m CM (proj1 (created_apart _ _ _ _ _ RF Hp)) sm Hsm) as HM.
    destruct sm as [ph a|ph a].
    + destruct HM as (n & c & Hc & Hph). destruct (HR n c Hc) as (ph' & Hph' & Hin). rewrite Hph in Hph'. inversion Hph'; subst.
      apply key_dget, HPD. right. exact Hin.
    + subst ph. apply key_dget, HPD. left. reflexivity.
Qed.
