(** * Qubo: energy, decoding and encoding of the QUBO route (C25-C27, C29) *)

From Coq Require Import List String Ascii ZArith QArith Qround Bool Lqa Lia Permutation.
From Verif Require Import Base Pulp BaseFacts Names Converters SpecQubo QuboFacts QuboModel.
Import ListNotations.
Open Scope string_scope.
Open Scope list_scope.

Lemma placeholder_rule n ph : get_placeholder n = Ok ph -> rule_of n = ph.
Proof.
  assert (G : forall r, String.prefix (r ++ "_") n = true -> In r rule_names -> rule_of n = r).
  { intros r H Hr. assert (E : exists rest, n = ((r ++ "_") ++ rest)%string).
    { clear Hr. revert n H. generalize (r ++ "_")%string. clear r. intros q.
      induction q as [|c q IH]; intros n H; [exists n; reflexivity|].
      destruct n as [|c' n]; cbn in H; [discriminate|]. destruct (ascii_dec c c') as [->|]; [|discriminate].
      destruct (IH n H) as [rest ->]. exists rest. reflexivity. }
    destruct E as [rest ->]. cbn [rule_names In] in Hr. intuition subst; destruct rest; reflexivity. }
  unfold get_placeholder. intros H.
  destruct (String.prefix "minimal_span_" n) eqn:P1; [inversion H; subst; apply G; [exact P1|cbn; tauto]|].
  destruct (String.prefix "circulation_" n) eqn:P2; [inversion H; subst; apply G; [exact P2|cbn; tauto]|].
  destruct (String.prefix "single_line_" n) eqn:P3; [inversion H; subst; apply G; [exact P3|cbn; tauto]|].
  destruct (String.prefix "minimal_stay_" n) eqn:P4; [inversion H; subst; apply G; [exact P4|cbn; tauto]|].
  destruct (String.prefix "track_occupation_" n) eqn:P5; [inversion H; subst; apply G; [exact P5|cbn; tauto]|].
  destruct (String.prefix "switch_" n) eqn:P6; [inversion H; subst; apply G; [exact P6|cbn; tauto]|].
  discriminate.
Qed.

Lemma bit_boolean s : boolean (bit s).
Proof. intros l. unfold bit. destruct (dget l s) as [[]|]; [right|left|left]; reflexivity. Qed.

Lemma is_binary_bounds v : is_binary v = true ->
  exists lo up, v_lo v = Some lo /\ v_up v = Some up /\ lo == 0 /\ up == 1 /\ v_cat v = Integer.
Proof.
  unfold is_binary. destruct (v_cat v); [|discriminate]. destruct (v_lo v) as [lo|], (v_up v) as [up|]; try discriminate.
  rewrite andb_true_iff. intros [H1 H2]. apply Qeq_bool_iff in H1, H2. exists lo, up. auto.
Qed.

Lemma as_int_ok q z : as_int q = Some z -> q == inject_Z z.
Proof.
  unfold as_int. destruct (Qeq_bool q (inject_Z (Qfloor q))) eqn:E; [|discriminate].
  intros H. inversion H; subst. apply Qeq_bool_iff in E. exact E.
Qed.

(** Encoded variables take values in range, and all of them *)
Lemma var_form_range v a f : var_form v = Ok a -> boolean f -> var_ok v (lin_value a f).
Proof.
  unfold var_form. destruct (v_cat v) eqn:C; [|discriminate]. destruct (is_binary v) eqn:B; intros E Bf.
  - inversion E; subst. apply is_binary_bounds in B as (lo & up & Hl & Hu & El & Eu & _).
    assert (V : lin_value (MkLin [(v_name v, 1)] 0) f == f (v_name v)).
    { unfold lin_value, qsum. cbn [l_terms l_off map fold_right fst snd]. lra. }
    unfold var_ok. rewrite Hl, Hu. destruct (Bf (v_name v)) as [F|F]; rewrite F in V; split.
    + intros q Hq; inversion Hq; subst; lra.
    + split; [intros q Hq; inversion Hq; subst; lra|]. intros _. exists 0%Z. exact V.
    + intros q Hq; inversion Hq; subst; lra.
    + split; [intros q Hq; inversion Hq; subst; lra|]. intros _. exists 1%Z. exact V.
  - unfold log_enc_var in E. destruct (v_lo v) as [lo|] eqn:Hl, (v_up v) as [up|] eqn:Hu; try discriminate.
    destruct (as_int lo) as [l|] eqn:Al; [|discriminate]. destruct (as_int up) as [u|] eqn:Au; [|discriminate].
    destruct (log_range _ _ _ _ f E Bf) as (z & Hz & EZ). apply as_int_ok in Al, Au.
    unfold var_ok. rewrite Hl, Hu. split; [|split].
    + intros q Hq; inversion Hq; subst. rewrite EZ, Al, <- Zle_Qle. lia.
    + intros q Hq; inversion Hq; subst. rewrite EZ, Au, <- Zle_Qle. lia.
    + intros _. exists z. exact EZ.
Qed.

Lemma var_form_cover v a q : var_form v = Ok a -> var_ok v q -> exists f, boolean f /\ lin_value a f == q.
Proof.
  unfold var_form. destruct (v_cat v) eqn:C; [|discriminate]. destruct (is_binary v) eqn:B; intros E (H1 & H2 & H3).
  - inversion E; subst. apply is_binary_bounds in B as (lo & up & Hl & Hu & El & Eu & _).
    specialize (H1 _ Hl). specialize (H2 _ Hu). destruct (H3 C) as [z Hz].
    assert (R : (0 <= z <= 1)%Z).
    { split; rewrite Zle_Qle; [change (inject_Z 0) with 0|change (inject_Z 1) with 1]; lra. }
    exists (fun _ => q). split.
    + intros _. assert (z = 0 \/ z = 1)%Z as [->| ->] by lia; [left|right]; exact Hz.
    + unfold lin_value, qsum. cbn [l_terms l_off map fold_right fst snd]. lra.
  - unfold log_enc_var in E. destruct (v_lo v) as [lo|] eqn:Hl, (v_up v) as [up|] eqn:Hu; try discriminate.
    destruct (as_int lo) as [l|] eqn:Al; [|discriminate]. destruct (as_int up) as [u|] eqn:Au; [|discriminate].
    apply as_int_ok in Al, Au. specialize (H1 _ eq_refl). specialize (H2 _ eq_refl). destruct (H3 C) as [z Hz].
    destruct (log_cover _ _ _ _ z E) as (f & Bf & Ef).
    + split; rewrite Zle_Qle, <- ?Al, <- ?Au, <- Hz; assumption.
    + exists f. split; [exact Bf|]. rewrite Ef. symmetry. exact Hz.
Qed.

(** Labels of a form belong to one name *)
Definition owned (key : string) (a : lin) : Prop :=
  (forall k, In k (map fst (l_terms a)) -> exists i, k = bit_label key i) \/
  (allc no_bracket key = true /\ map fst (l_terms a) = [key]).

Lemma var_form_owned v a : var_form v = Ok a -> owned (v_name v) a.
Proof.
  unfold var_form. destruct (v_cat v); [|discriminate]. destruct (is_binary v); intros E.
  - inversion E; subst. right. split; [apply v_name_no_bracket|reflexivity].
  - left. unfold log_enc_var in E. destruct (v_lo v), (v_up v); try discriminate.
    destruct (as_int q); [|discriminate]. destruct (as_int q0); [|discriminate].
    intros k Hk. eapply in_log_labels; eassumption.
Qed.

Lemma var_form_binary v a : var_form v = Ok a -> is_binary v = true -> a = MkLin [(v_name v, 1)] 0.
Proof. unfold var_form. destruct (v_cat v); [|discriminate]. intros E B. rewrite B in E. congruence. Qed.

Lemma var_form_bits v a k : var_form v = Ok a -> is_binary v = false -> In k (map fst (l_terms a)) ->
  exists i, k = bit_label (v_name v) i.
Proof.
  unfold var_form. destruct (v_cat v); [|discriminate]. intros E B. rewrite B in E. unfold log_enc_var in E.
  destruct (v_lo v), (v_up v); try discriminate.
  destruct (as_int q); [|discriminate]. destruct (as_int q0); [|discriminate].
  eapply in_log_labels; eassumption.
Qed.

Lemma slack_form_bits n c a k : slack_form n c a -> In k (map fst (l_terms a)) -> exists i, k = bit_label n i.
Proof. intros [_|ub b NE Hu Hl] H; [destruct H|]. eapply in_log_labels; eassumption. Qed.

Section Model.
  Variables (p : lpproblem) (m : qmodel) (pdict : dict string Q) (b : bqm).
  Hypothesis CM : convert_to_pyqubo p = Ok m.
  Hypothesis CB : to_bqm m pdict = Ok b.
  Hypothesis HC : consistent p.
  Hypothesis HA : apart p.

  Definition objective_part (t : dict vid lin) (Ho : list summand) : Prop :=
    (has_objective (p_objective p) = true /\ exists o, translate t (a_terms (p_objective p)) = Ok o /\
       Ho = [Linear "objective" (lin_add (lin_const (a_const (p_objective p))) o)]) \/
    (has_objective (p_objective p) = false /\ Ho = []).

  Record built (t : dict vid lin) (Hs Ho : list summand) : Prop := MkBuilt {
    b_sum : m_sum m = Hs ++ Ho;
    b_forms : forall v, occurs p v -> exists a, var_form v = Ok a /\ dget (v_id v) t = Some a;
    b_cons : Forall2 (fun nc sm => summand_of t (fst nc) (snd nc) sm) (p_constraints p) Hs;
    b_obj : objective_part t Ho;
    b_sub : forall n a, dget n (m_sub m) = Some a ->
      (exists v, occurs p v /\ is_binary v = false /\ n = v_name v /\ var_form v = Ok a) \/
      (exists c, In (n, c) (p_constraints p) /\ slack_form n c a);
    b_have : forall v, occurs p v -> is_binary v = false ->
      exists a, var_form v = Ok a /\ dget (v_name v) (m_sub m) = Some a;
    b_nodup : NoDup (dkeys (m_sub m)) }.

  Lemma same_form v w : occurs p v -> occurs p w -> v_name v = v_name w ->
    var_form v = var_form w /\ is_binary v = is_binary w.
  Proof. intros Hv Hw E. destruct (HC v w Hv Hw E) as (H1 & H2 & H3). apply var_form_ext; assumption. Qed.

  Lemma model_built : exists t Hs Ho, built t Hs Ho.
  Proof.
    unfold convert_to_pyqubo in CM. pose proof CM as H. inv_bind H. destruct a as [t s1]. inv_bind H.
    destruct a as [H1 s2]. inv_bind H.
    destruct (qubo_vars _ _ _ _ _ E (variables_nodup p)) as (V1 & _ & V3 & V4 & _ & V6).
    destruct HA as [HN HD].
    destruct (qubo_constraints _ _ _ _ _ _ E0 HN) as (Hs & -> & F2 & C1 & C2 & C3).
    assert (M : m_sum m = a /\ m_sub m = s2) by (destruct a; inversion H; auto). destruct M as [M1 M2].
    assert (O : exists Ho, a = Hs ++ Ho /\ objective_part t Ho).
    { cbn [app] in E1. destruct (has_objective (p_objective p)) eqn:HO.
      - inv_bind E1. inversion E1; subst. eexists. split; [reflexivity|]. left. split; [exact HO|]. eauto.
      - inversion E1; subst. exists []. rewrite app_nil_r. split; [reflexivity|]. right. auto. }
    destruct O as (Ho & -> & HO).
    exists t, Hs, Ho. split.
    - exact M1.
    - intros v Hv. destruct (occurs_variables p v Hv) as (w & Hw & E2).
      destruct (V1 w Hw) as (a & Hf & Hg). exists a. rewrite <- E2. split; [|exact Hg].
      destruct (same_form v w Hv (variables_occurs p w Hw)) as [-> _]; [|exact Hf].
      apply same_id_name. symmetry. exact E2.
    - exact F2.
    - exact HO.
    - intros n a Ha. rewrite M2 in Ha. destruct (C2 n a Ha) as [Hn|(c & Hc & SF & _)]; [|right; eauto].
      destruct (V3 n a Hn) as [Hx|(v & Hv & R)]; [discriminate|]. left. exists v.
      split; [apply variables_occurs; exact Hv|exact R].
    - intros v Hv B. destruct (occurs_variables p v Hv) as (w & Hw & E2). pose proof (variables_occurs p w Hw) as Ow.
      destruct (same_form v w Hv Ow (same_id_name _ _ (eq_sym E2))) as [EF EB].
      rewrite B in EB. pose proof (V4 w Hw (eq_sym EB)) as K. apply key_dget in K as [a Ha].
      assert (ED : dget (v_name w) (m_sub m) = Some a).
      { rewrite M2, C1; [exact Ha|]. intros Hk. apply (HD w (v_name w) Ow Hk). reflexivity. }
      exists a. rewrite (same_id_name v w (eq_sym E2)). split; [|exact ED].
      destruct (V3 _ _ Ha) as [Hx|(u & Hu & _ & EN & Hf)]; [discriminate|].
      destruct (same_form v u Hv (variables_occurs p u Hu)) as [-> _]; [|exact Hf].
      rewrite (same_id_name v w (eq_sym E2)). exact EN.
    - rewrite M2. apply C3, V6. constructor.
  Qed.

  Section Built.
    Variables (t : dict vid lin) (Hs Ho : list summand).
    Hypothesis BT : built t Hs Ho.

    (** Every bit of a variable is a variable of the binary model *)
    Lemma summand_labels sm k : In sm (m_sum m) -> In k (sm_labels sm) -> In k (dkeys (b_linear b)).
    Proof. intros H1 H2. apply (to_bqm_keys _ _ _ k CB). eauto. Qed.

    Lemma forall2_in {A B} (R : A -> B -> Prop) l l' a : Forall2 R l l' -> In a l -> exists b, In b l' /\ R a b.
    Proof.
      intros F. induction F; intros H1; [destruct H1|]. destruct H1 as [->|H1]; [exists y; cbn; auto|].
      destruct (IHF H1) as (b' & Hb & R'). exists b'. cbn. auto.
    Qed.

    Lemma forall2_in_r {A B} (R : A -> B -> Prop) l l' b' : Forall2 R l l' -> In b' l' -> exists a, In a l /\ R a b'.
    Proof.
      intros F. induction F; intros H1; [destruct H1|]. destruct H1 as [->|H1]; [exists x; cbn; auto|].
      destruct (IHF H1) as (a' & Hb & R'). exists a'. cbn. auto.
    Qed.

    Lemma slack_labels n c a k : In (n, c) (p_constraints p) -> slack_form n c a -> In k (map fst (l_terms a)) ->
      In k (dkeys (b_linear b)).
    Proof.
      intros Hc SF Hk. destruct (forall2_in _ _ _ _ (b_cons _ _ _ BT) Hc) as (sm & Hsm & ph & e & a' & form & -> & _ & _ & SF' & _ & HL).
      apply (summand_labels (Square ph form)); [rewrite (b_sum _ _ _ BT); apply in_app_iff; auto|].
      cbn. apply HL. right. cbn [fst snd] in SF'.
      assert (a = a'). { inversion SF; inversion SF'; subst; congruence. } subst a'. exact Hk.
    Qed.

    Lemma var_labels v a k : occurs p v -> var_form v = Ok a -> In k (map fst (l_terms a)) ->
      In k (dkeys (b_linear b)).
    Proof.
      intros Hv Hf Hk. destruct (b_forms _ _ _ BT v Hv) as (a' & Hf' & Hg). assert (a' = a) by congruence. subst a'.
      destruct Hv as [Hv|(n & c & Hc & Hv)].
      - destruct (b_obj _ _ _ BT) as [(_ & o & Ht & EO)|(HO & _)].
        + eapply summand_labels; [rewrite (b_sum _ _ _ BT); apply in_app_iff; right; rewrite EO; left; reflexivity|].
          cbn [sm_labels]. apply add_labels. right. apply (translate_labels _ _ _ k Ht).
          unfold aff_vars in Hv. apply in_map_iff in Hv as ([w q] & EW & Hw). cbn in EW. subst w. eauto 6.
        + exfalso. unfold has_objective in HO. unfold aff_vars in Hv. apply orb_false_iff in HO as [_ HO].
          destruct (a_terms (p_objective p)); [destruct Hv|discriminate].
      - destruct (forall2_in _ _ _ _ (b_cons _ _ _ BT) Hc) as (sm & Hsm & ph & e & a' & form & -> & _ & Ht & _ & _ & HL).
        apply (summand_labels (Square ph form)); [rewrite (b_sum _ _ _ BT); apply in_app_iff; auto|].
        cbn. apply HL. left. apply (translate_labels _ _ _ k Ht).
        unfold aff_vars in Hv. apply in_map_iff in Hv as ([w q] & EW & Hw). cbn in EW. subst w. eauto 6.
    Qed.

    (** Conversely the binary model has no other variables *)
    Lemma translate_owner l e k : (forall v q, In (v, q) l -> occurs p v) -> translate t l = Ok e ->
      In k (map fst (l_terms e)) -> exists v a, occurs p v /\ var_form v = Ok a /\ In k (map fst (l_terms a)).
    Proof.
      intros HO Ht Hk. apply (translate_labels _ _ _ k Ht) in Hk as (v & q & a & Hv & Hg & Hk).
      pose proof (HO v q Hv) as Ov. destruct (b_forms _ _ _ BT v Ov) as (a' & Hf & Hg').
      exists v, a. split; [exact Ov|]. split; [congruence|exact Hk].
    Qed.

    Lemma label_owner k : In k (dkeys (b_linear b)) ->
      (exists v a, occurs p v /\ var_form v = Ok a /\ In k (map fst (l_terms a))) \/
      (exists n c a, In (n, c) (p_constraints p) /\ slack_form n c a /\ In k (map fst (l_terms a))).
    Proof.
      intros H. apply (to_bqm_keys _ _ _ k CB) in H as (sm & Hsm & Hk). rewrite (b_sum _ _ _ BT), in_app_iff in Hsm.
      destruct Hsm as [Hsm|Hsm].
      - destruct (forall2_in_r _ _ _ _ (b_cons _ _ _ BT) Hsm) as ([n c] & Hc & ph & e & a & form & -> & _ & Ht & SF & _ & HL).
        cbn [fst snd] in *. cbn in Hk. apply HL in Hk as [Hk|Hk]; [left|right; eauto 6].
        eapply translate_owner; [|exact Ht|exact Hk]. intros v q Hv. right. exists n, c. split; [exact Hc|].
        apply (in_map fst) in Hv. exact Hv.
      - destruct (b_obj _ _ _ BT) as [(_ & o & Ht & EO)|(_ & EO)]; rewrite EO in Hsm; [|destruct Hsm].
        destruct Hsm as [<-|[]]. cbn [sm_labels] in Hk. apply add_labels in Hk as [[]|Hk]. left.
        eapply translate_owner; [|exact Ht|exact Hk]. intros v q Hv. left. apply (in_map fst) in Hv. exact Hv.
    Qed.

    (** ** Decoding *)

    Variable s : bits.
    Hypothesis HS : sample_of b s.

    Lemma eval_bits_ok a : (forall k, In k (map fst (l_terms a)) -> In k (dkeys s)) ->
      exists q, eval_bits a s = Ok q /\ q == lin_value a (bit s).
    Proof.
      unfold eval_bits, lin_value. generalize (l_off a). induction (l_terms a) as [|[k w] l IH]; intros z Hk.
      - exists z. split; [reflexivity|]. unfold qsum. cbn [map fold_right]. lra.
      - cbn [foldM fst snd]. destruct (key_dget k s) as [v Hv]; [apply Hk; left; reflexivity|].
        unfold dlookup. rewrite Hv. cbn [bind].
        destruct (IH (z + w * b2q v)) as (q & Hq & E); [intros; apply Hk; right; assumption|].
        exists q. split; [exact Hq|]. rewrite E. unfold qsum. cbn [map fold_right fst snd].
        assert (EB : bit s k == b2q v) by (unfold bit; rewrite Hv; destruct v; reflexivity). rewrite EB. lra.
    Qed.

    Lemma sub_total (l : dict string lin) : (forall n a k, In (n, a) l -> In k (map fst (l_terms a)) -> In k (dkeys s)) ->
      NoDup (dkeys l) ->
      exists subh, mapM (fun la => do q <- eval_bits (snd la) s; Ok (fst la, q)) l = Ok subh /\
        dkeys subh = dkeys l /\
        forall n a, dget n l = Some a -> exists q, dget n subh = Some q /\ q == lin_value a (bit s).
    Proof.
      induction l as [|[n a] l IH]; intros HK ND.
      - exists []. do 2 (split; [reflexivity|]). intros; discriminate.
      - cbn [mapM fst snd]. destruct (eval_bits_ok a) as (q & Hq & EQ'); [intros; eapply HK; [left; reflexivity|assumption]|].
        rewrite Hq. cbn [bind]. cbn in ND. inversion ND; subst.
        destruct IH as (subh & HM & HKeys & HG); [intros; eapply HK; [right; eassumption|assumption]|assumption|].
        rewrite HM. cbn [bind]. eexists. split; [reflexivity|]. split; [cbn; f_equal; exact HKeys|].
        intros n' a'. cbn [dget]. destruct (eq_dec n' n) as [->|N]; [|apply HG].
        intros E. inversion E; subst. eauto.
    Qed.

    Lemma dupdate_dget (l : dict string Q) : forall d k, NoDup (dkeys l) ->
      dget k (dupdate d l) = match dget k l with Some q => Some q | None => dget k d end.
    Proof.
      unfold dupdate. induction l as [|[n q] l IH]; intros d k ND; cbn [fold_left dget]; [reflexivity|].
      cbn in ND. inversion ND as [|? ? HN ND']; subst. rewrite IH by exact ND'. cbn [fst snd].
      destruct (eq_dec k n) as [->|N].
      - apply dget_none in HN. rewrite HN, dget_dset. destruct (eq_dec n n); congruence.
      - rewrite dget_dset. destruct (eq_dec k n); [congruence|]. reflexivity.
    Qed.

    Lemma b2q_keys (l : bits) k :
      dget k (map (fun kb => (fst kb, b2q (snd kb))) l) = option_map b2q (dget k l).
    Proof.
      induction l as [|[n v] l IH]; [reflexivity|]. cbn [map dget fst snd].
      destruct (eq_dec k n); [reflexivity|exact IH].
    Qed.

    Lemma sub_labels_in n a k : In (n, a) (m_sub m) -> In k (map fst (l_terms a)) -> In k (dkeys s).
    Proof.
      intros H1 Hk. apply (proj2 HS). apply (in_dget n a _ (b_nodup _ _ _ BT)) in H1.
      destruct (b_sub _ _ _ BT _ _ H1) as [(v & Hv & _ & _ & Hf)|(c & Hc & SF)].
      - eapply var_labels; eassumption.
      - eapply slack_labels; eassumption.
    Qed.

    (** A name of a variable that is not binary is not a bit *)
    Lemma nonbinary_not_bit v : occurs p v -> is_binary v = false -> dget (v_name v) s = None.
    Proof.
      intros Hv B. apply dget_none. intros H. apply (proj2 HS) in H. apply label_owner in H.
      destruct H as [(w & a & Hw & Hf & Hk)|(n & c & a & Hc & SF & Hk)].
      - destruct (is_binary w) eqn:BW.
        + rewrite (var_form_binary _ _ Hf BW) in Hk. destruct Hk as [Hk|[]]. cbn in Hk.
          destruct (same_form v w Hv Hw (eq_sym Hk)) as [_ E]. congruence.
        + destruct (var_form_bits _ _ _ Hf BW Hk) as [i E]. exact (v_name_not_bit _ _ _ E).
      - destruct (slack_form_bits _ _ _ _ SF Hk) as [i E]. exact (v_name_not_bit _ _ _ E).
    Qed.

    Lemma fold_vars (D : dict string Q) vs : (forall v, In v vs -> exists q, dget (v_name v) D = Some q) ->
      forall acc, exists d,
      foldM (fun acc v => do q <- dlookup (v_name v) D; Ok (dset (v_name v) q acc)) vs acc = Ok d /\
      (forall k, In k (dkeys d) <-> In k (dkeys acc) \/ In k (map v_name vs)) /\
      (forall k, dget k d = if lmem k (map v_name vs) then dget k D else dget k acc) /\
      (NoDup (dkeys acc) -> NoDup (dkeys d)).
    Proof.
      induction vs as [|v vs IH]; intros HV acc.
      - exists acc. cbn. repeat split; try tauto; auto.
      - cbn [foldM]. destruct (HV v) as [q Hq]; [left; reflexivity|]. unfold dlookup at 1. rewrite Hq. cbn [bind].
        destruct (IH (fun w Hw => HV w (or_intror Hw)) (dset (v_name v) q acc)) as (d & Hd & HK & HG & HN).
        exists d. split; [exact Hd|]. split; [|split].
        + intros k. rewrite HK, dset_keys. cbn. intuition.
        + intros k. rewrite HG, dget_dset. cbn [map lmem]. destruct (eq_dec k (v_name v)) as [->|N].
          * destruct (lmem (v_name v) (map v_name vs)); auto.
          * reflexivity.
        + intros H1. apply HN, dset_nodup, H1.
    Qed.

    Theorem decode_total : exists d, decode_row p m s = Ok d /\
      (forall k, In k (dkeys d) <-> In k (map v_name (variables p))) /\ NoDup (dkeys d) /\
      forall v a, occurs p v -> var_form v = Ok a -> values d (v_id v) == lin_value a (bit s).
    Proof.
      unfold decode_row.
      destruct (sub_total (m_sub m)) as (subh & HM & HK & HG); [apply sub_labels_in|exact (b_nodup _ _ _ BT)|].
      rewrite HM. cbn [bind]. set (D := dupdate subh (map (fun kb => (fst kb, b2q (snd kb))) s)).
      assert (DG : forall k, dget k D = match dget k s with Some v => Some (b2q v) | None => dget k subh end).
      { intros k. unfold D. rewrite dupdate_dget.
        - rewrite b2q_keys. destruct (dget k s); reflexivity.
        - unfold dkeys. rewrite map_map. cbn [fst]. apply (proj1 HS). }
      assert (DV : forall v a, occurs p v -> var_form v = Ok a ->
                exists q, dget (v_name v) D = Some q /\ q == lin_value a (bit s)).
      { intros v a Hv Hf. destruct (is_binary v) eqn:B.
        - pose proof (var_form_binary _ _ Hf B) as EA.
          assert (K : In (v_name v) (dkeys s)).
          { apply (proj2 HS). apply (var_labels v a); [exact Hv|exact Hf|]. rewrite EA. left. reflexivity. }
          apply key_dget in K as [bv Hb]. exists (b2q bv). rewrite DG, Hb. split; [reflexivity|].
          rewrite EA. unfold lin_value, qsum. cbn [l_terms l_off map fold_right fst snd].
          unfold bit. rewrite Hb. destruct bv; cbn [b2q]; lra.
        - rewrite DG, (nonbinary_not_bit v Hv B).
          destruct (b_have _ _ _ BT v Hv B) as (a' & Hf' & Hg). assert (a' = a) by congruence. subst a'.
          exact (HG _ _ Hg). }
      assert (T : forall v, In v (variables p) -> exists q, dget (v_name v) D = Some q).
      { intros v Hv. apply variables_occurs in Hv. destruct (b_forms _ _ _ BT v Hv) as (a & Hf & _).
        destruct (DV v a Hv Hf) as (q & Hq & _). eauto. }
      destruct (fold_vars D (variables p) T []) as (d & Hd & K1 & K2 & K3). exists d. split; [exact Hd|].
      split; [intros k; rewrite K1; cbn; tauto|]. split; [apply K3; constructor|].
      intros v a Hv Hf. unfold values. rewrite <- v_name_of, K2.
      destruct (occurs_variables p v Hv) as (w & Hw & EW).
      replace (lmem (v_name v) (map v_name (variables p))) with true.
      - destruct (DV v a Hv Hf) as (q & Hq & EQ'). rewrite Hq. exact EQ'.
      - symmetry. apply lmem_true. rewrite (same_id_name v w (eq_sym EW)). apply in_map. exact Hw.
    Qed.

    Lemma reading_values d : decode_row p m s = Ok d -> forall v, occurs p v ->
      reading_of t (bit s) (v_id v) == values d (v_id v).
    Proof.
      intros Hd v Hv. destruct decode_total as (d' & Hd' & _ & _ & HV). assert (d' = d) by congruence. subst d'.
      destruct (b_forms _ _ _ BT v Hv) as (a & Hf & Hg). unfold reading_of. rewrite Hg. symmetry. apply HV; assumption.
    Qed.

    (** ** Energy *)

    Definition slack_value (n : string) : Z :=
      match dget n (p_constraints p) with
      | Some c => match slack_ub c with
                  | Ok ub => match log_enc n 0 ub with Ok a => Qfloor (lin_value a (bit s)) | Err _ => 0%Z end
                  | Err _ => 0%Z
                  end
      | None => 0%Z
      end.

    Lemma slack_value_ok n c ub a : In (n, c) (p_constraints p) -> slack_ub c = Ok ub -> log_enc n 0 ub = Ok a ->
      inject_Z (slack_value n) == lin_value a (bit s) /\ (0 <= slack_value n <= ub)%Z.
    Proof.
      intros Hc Hu Ha. unfold slack_value. rewrite (in_dget _ _ _ (proj1 HA) Hc), Hu, Ha.
      destruct (log_range _ _ _ _ (bit s) Ha (bit_boolean s)) as (z & Hz & E).
      rewrite (eq_trans (Qfloor_comp _ _ E) (Qfloor_Z z)). split; [symmetry; exact E|exact Hz].
    Qed.

    Lemma slack_value_nonneg n : (0 <= slack_value n)%Z.
    Proof.
      destruct (dget n (p_constraints p)) as [c|] eqn:Hc; [|unfold slack_value; rewrite Hc; lia].
      destruct (slack_ub c) as [ub|] eqn:Hu; [|unfold slack_value; rewrite Hc, Hu; lia].
      destruct (log_enc n 0 ub) as [a|] eqn:Ha; [|unfold slack_value; rewrite Hc, Hu, Ha; lia].
      apply (slack_value_ok n c ub a); auto. apply dget_in. exact Hc.
    Qed.

    Lemma eval_terms_ext l x y : (forall v q, In (v, q) l -> x (v_id v) == y (v_id v)) ->
      eval_terms l x == eval_terms l y.
    Proof.
      intros H. unfold eval_terms. apply qsum_ext. intros [v q] Hv. cbn [fst snd]. rewrite (H v q Hv). reflexivity.
    Qed.

    Lemma constraint_value d n c sm : decode_row p m s = Ok d ->
      In (n, c) (p_constraints p) -> summand_of t n c sm ->
      summand_value (bit s) pdict sm ==
        weight pdict (rule_of n) * (defect c (values d) (slack_value n) * defect c (values d) (slack_value n)).
    Proof.
      intros Hd Hc (ph & e & a & form & -> & Hph & Ht & SF & HV & _). cbn [summand_value].
      rewrite (placeholder_rule n ph Hph).
      assert (E : lin_value form (bit s) == defect c (values d) (slack_value n)).
      { rewrite HV, (translate_value _ _ _ (bit s) Ht).
        rewrite (eval_terms_ext _ _ (values d)).
        - unfold defect, eval, sign. destruct SF as [S|ub b' NE Hu Ha].
          + rewrite S, lin_value_const. lra.
          + destruct (slack_value_ok n c ub b' Hc Hu Ha) as [E _]. destruct (c_sense c); [|congruence|]; rewrite E; lra.
        - intros v q Hv. apply (reading_values d Hd). right. exists n, c. split; [exact Hc|].
          apply (in_map fst) in Hv. exact Hv. }
      rewrite E. reflexivity.
    Qed.

    Lemma objective_value d sm : decode_row p m s = Ok d -> objective_part t sm ->
      qsum (map (summand_value (bit s) pdict) sm) == weight pdict "objective" * obj_value p (values d).
    Proof.
      intros Hd [(HO & o & Ht & ->)|(HO & ->)]; unfold qsum; cbn [map fold_right].
      - cbn [summand_value]. rewrite lin_value_add, lin_value_const, (translate_value _ _ _ (bit s) Ht).
        rewrite (eval_terms_ext _ _ (values d)); [unfold obj_value, eval; lra|].
        intros v q Hv. apply (reading_values d Hd). left. apply (in_map fst) in Hv. exact Hv.
      - unfold has_objective in HO. apply orb_false_iff in HO as [H1 H2]. apply negb_false_iff, Qeq_bool_iff in H1.
        unfold obj_value, eval, eval_terms. destruct (a_terms (p_objective p)); [|discriminate].
        unfold qsum. cbn [map fold_right]. rewrite H1. lra.
    Qed.

    Theorem energy_value d : decode_row p m s = Ok d ->
      energy b s == weight pdict "objective" * obj_value p (values d) + penalties p pdict (values d) slack_value.
    Proof.
      intros Hd. change (energy b s) with (esum (bit s) b).
      rewrite (to_bqm_sum (bit s) (bit_boolean s) m pdict b CB), (b_sum _ _ _ BT), map_app, qsum_app.
      rewrite (objective_value d Ho Hd (b_obj _ _ _ BT)).
      assert (P : qsum (map (summand_value (bit s) pdict) Hs) == penalties p pdict (values d) slack_value).
      { unfold penalties. pose proof (b_cons _ _ _ BT) as F.
        assert (HI : forall nc, In nc (p_constraints p) -> In nc (p_constraints p)) by auto.
        revert F HI. generalize (p_constraints p) at 1 2 4. generalize Hs. clear -Hd CB BT HC HA HS CM.
        intros hs cs F. induction F as [|[n c] sm cs hs H F IH]; intros HI; [reflexivity|].
        unfold qsum in *. cbn [map fold_right]. rewrite IH; [|intros; apply HI; right; assumption].
        cbn [fst snd] in *. rewrite (constraint_value d n c sm Hd); [reflexivity| |exact H].
        apply HI. left. reflexivity. }
      rewrite P. lra.
    Qed.
  End Built.
End Model.
