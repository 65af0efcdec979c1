(** * QuboModel: what convert_to_pyqubo builds *)

From Coq Require Import List String Ascii ZArith QArith Qround Bool Lqa Lia Permutation.
From Verif Require Import Base Pulp BaseFacts Names Converters SpecQubo QuboFacts.
Import ListNotations.
Open Scope string_scope.
Open Scope list_scope.

Lemma occurs_variables p v : occurs p v -> exists w, In w (variables p) /\ v_id w = v_id v.
Proof.
  intros H. assert (HI : In (v_id v) (map v_id (variables p))).
  { apply variables_ids. unfold aff_ids. destruct H as [H|(n & c & Hc & H)].
    - left. apply in_map. exact H.
    - right. exists n, c. split; [exact Hc|]. apply in_map. exact H. }
  apply in_map_iff in HI as (w & E & Hw). eauto.
Qed.

Lemma variables_occurs p v : In v (variables p) -> occurs p v.
Proof. intros H. apply variables_in in H. exact H. Qed.

Lemma v_name_of v : v_name v = id_name (v_id v).
Proof. reflexivity. Qed.

Lemma same_id_name v w : v_id v = v_id w -> v_name v = v_name w.
Proof. rewrite !v_name_of. congruence. Qed.

(** ** Variables *)

Definition var_form (v : lpvar) : res lin :=
  match v_cat v with
  | Continuous => Err AssertionError
  | Integer => if is_binary v then Ok (MkLin [(v_name v, 1)] 0) else log_enc_var v
  end.

Lemma var_form_ext v w : v_name v = v_name w -> v_lo v = v_lo w -> v_up v = v_up w -> v_cat v = v_cat w ->
  var_form v = var_form w /\ is_binary v = is_binary w.
Proof.
  intros H1 H2 H3 H4. unfold var_form, is_binary, log_enc_var. rewrite H1, H2, H3, H4. auto.
Qed.

Lemma dset_keys {V} k (a : V) (d : dict string V) n : In n (dkeys (dset k a d)) <-> n = k \/ In n (dkeys d).
Proof.
  rewrite dkeys_dset. destruct (dmem k d) eqn:E.
  - apply dmem_true in E. split; [auto|]. intros [->|]; assumption.
  - rewrite in_app_iff. cbn. intuition.
Qed.

Lemma dget_some_key {V} k (a : V) (d : dict string V) : dget k d = Some a -> In k (dkeys d).
Proof. intros H. apply dget_in in H. apply (in_map fst) in H. exact H. Qed.

Lemma key_dget {V} k (d : dict string V) : In k (dkeys d) -> exists a, dget k d = Some a.
Proof. intros H. destruct (dget k d) eqn:E; [eauto|]. apply dget_none in E. tauto. Qed.

Lemma dset_nodup {V} k (a : V) (d : dict string V) : NoDup (dkeys d) -> NoDup (dkeys (dset k a d)).
Proof.
  intros H. rewrite dkeys_dset. destruct (dmem k d) eqn:E; [exact H|]. apply dmem_false in E.
  apply NoDup_rev in H. rewrite <- (rev_involutive (dkeys d ++ [k])). apply NoDup_rev.
  rewrite rev_app_distr. cbn. constructor; [|exact H]. rewrite <- in_rev. exact E.
Qed.

Lemma qubo_vars vs : forall t0 s0 t s,
  foldM qubo_var vs (t0, s0) = Ok (t, s) -> NoDup (map v_id vs) ->
  (forall v, In v vs -> exists a, var_form v = Ok a /\ dget (v_id v) t = Some a) /\
  (forall i, ~ In i (map v_id vs) -> dget i t = dget i t0) /\
  (forall n a, dget n s = Some a -> dget n s0 = Some a \/
     exists v, In v vs /\ is_binary v = false /\ n = v_name v /\ var_form v = Ok a) /\
  (forall v, In v vs -> is_binary v = false -> In (v_name v) (dkeys s)) /\
  (forall n, In n (dkeys s0) -> In n (dkeys s)) /\
  (NoDup (dkeys s0) -> NoDup (dkeys s)).
Proof.
  induction vs as [|v vs IH]; intros t0 s0 t s H ND; cbn [foldM] in H.
  - inversion H; subst. cbn. repeat split; try tauto. 
  - inv_bind H. destruct a as [t1 s1]. cbn [map] in ND. inversion ND as [|? ? HN ND']; subst.
    destruct (IH _ _ _ _ H ND') as (I1 & I2 & I3 & I4 & I5 & I6).
    assert (V : exists a, var_form v = Ok a /\ t1 = dset (v_id v) a t0 /\
                ((is_binary v = true /\ s1 = s0) \/ (is_binary v = false /\ s1 = dset (v_name v) a s0))).
    { unfold qubo_var in E. unfold var_form. destruct (v_cat v); [|discriminate].
      destruct (is_binary v).
      - inversion E. eexists. split; [reflexivity|]. split; [reflexivity|]. left. auto.
      - inv_bind E. inversion E. exists a. split; [exact E0|]. split; [reflexivity|]. right. auto. }
    destruct V as (a & Hf & -> & Hs).
    split; [|split; [|split; [|split; [|split]]]].
    + intros w [<-|Hw]; [|auto]. exists a. split; [exact Hf|]. rewrite I2 by exact HN.
      rewrite dget_dset. destruct (eq_dec (v_id v) (v_id v)); congruence.
    + intros i Hi. cbn in Hi. rewrite I2 by tauto. rewrite dget_dset.
      destruct (eq_dec i (v_id v)) as [->|]; [tauto|reflexivity].
    + intros n b Hb. destruct (I3 n b Hb) as [H1|(w & Hw & Hr)].
      * destruct Hs as [[_ ->]|[B ->]]; [auto|]. rewrite dget_dset in H1.
        destruct (eq_dec n (v_name v)) as [->|]; [|auto]. inversion H1; subst. right. exists v.
        cbn. auto.
      * right. exists w. cbn. tauto.
    + intros w [<-|Hw] HB; [|auto]. apply I5. destruct Hs as [[B _]|[_ ->]]; [congruence|].
      apply dset_keys. auto.
    + intros n Hn. apply I5. destruct Hs as [[_ ->]|[_ ->]]; [exact Hn|]. apply dset_keys. auto.
    + intros HD. apply I6. destruct Hs as [[_ ->]|[_ ->]]; [exact HD|]. apply dset_nodup. exact HD.
Qed.

(** ** Constraints *)

Definition negate (l : list (lpvar * Q)) : list (lpvar * Q) := map (fun vq => (fst vq, - snd vq)) l.

(** The upper bound of the slack of a constraint *)
Definition slack_ub (c : constr) : res Z :=
  match c_sense c with
  | LE => get_slack_ub (a_terms (c_aff c)) (a_const (c_aff c))
  | EQ => Ok 0%Z
  | GE => get_slack_ub (negate (a_terms (c_aff c))) (- a_const (c_aff c))
  end.

(** The slack form *)
Inductive slack_form (n : string) (c : constr) : lin -> Prop :=
| slack_none : c_sense c = EQ -> slack_form n c (lin_const 0)
| slack_some ub a : c_sense c <> EQ -> slack_ub c = Ok ub -> log_enc n 0 ub = Ok a -> slack_form n c a.

Definition sign (c : constr) : Q := match c_sense c with GE => -1 | _ => 1 end.

(** The summand of a constraint, up to value *)
Definition summand_of (t : dict vid lin) (n : string) (c : constr) (sm : summand) : Prop :=
  exists ph e a form, sm = Square ph form /\ get_placeholder n = Ok ph /\
    translate t (a_terms (c_aff c)) = Ok e /\ slack_form n c a /\
    (forall f, lin_value form f == lin_value e f + a_const (c_aff c) + sign c * lin_value a f) /\
    (forall k, In k (map fst (l_terms form)) <-> In k (map fst (l_terms e)) \/ In k (map fst (l_terms a))).

Lemma scale_labels k a : map fst (l_terms (lin_scale k a)) = map fst (l_terms a).
Proof. unfold lin_scale. cbn. rewrite map_map. reflexivity. Qed.

Lemma add_labels a b k :
  In k (map fst (l_terms (lin_add a b))) <-> In k (map fst (l_terms a)) \/ In k (map fst (l_terms b)).
Proof. unfold lin_add. cbn. rewrite map_app, in_app_iff. reflexivity. Qed.

Lemma qubo_constraints t cs : forall H0 s0 H s,
  foldM (qubo_constraint t) cs (H0, s0) = Ok (H, s) -> NoDup (dkeys cs) ->
  exists Hs, H = H0 ++ Hs /\ Forall2 (fun nc sm => summand_of t (fst nc) (snd nc) sm) cs Hs /\
  (forall k, ~ In k (dkeys cs) -> dget k s = dget k s0) /\
  (forall k a, dget k s = Some a -> dget k s0 = Some a \/ exists c, In (k, c) cs /\ slack_form k c a /\ c_sense c <> EQ) /\
  (NoDup (dkeys s0) -> NoDup (dkeys s)).
Proof.
  induction cs as [|[n c] cs IH]; intros H0 s0 H s E ND; cbn [foldM] in E.
  - inversion E; subst. exists []. rewrite app_nil_r. do 2 (split; [auto|]). cbn. repeat split; auto.
  - inv_bind E. destruct a as [H1 s1]. cbn [dkeys map fst] in ND. inversion ND as [|? ? HN ND']; subst.
    destruct (IH _ _ _ _ E ND') as (Hs & -> & F2 & G1 & G2 & G3).
    assert (V : exists sm, H1 = H0 ++ [sm] /\ summand_of t n c sm /\
               (s1 = s0 \/ exists a, slack_form n c a /\ c_sense c <> EQ /\ s1 = dset n a s0)).
    { clear -E0. unfold qubo_constraint in E0. inv_bind E0. inv_bind E0. destruct (c_sense c) eqn:S.
      - inv_bind E0. inv_bind E0. inversion E0; subst.
        assert (SF : slack_form n c a2).
        { econstructor 2; [rewrite S; discriminate|unfold slack_ub; rewrite S; exact E2|exact E3]. }
        eexists. split; [reflexivity|]. split.
        + exists a0, a, a2. eexists. split; [reflexivity|]. do 3 (split; [assumption|]). split.
          * intros f. unfold sign. rewrite S. rewrite !lin_value_add, lin_value_const. lra.
          * intros k. rewrite !add_labels. cbn. tauto.
        + right. exists a2. split; [assumption|]. split; [discriminate|reflexivity].
      - inversion E0; subst. eexists. split; [reflexivity|]. split; [|left; reflexivity].
        exists a0, a, (lin_const 0). eexists. split; [reflexivity|]. do 2 (split; [assumption|]).
        split; [constructor; exact S|]. split.
        + intros f. unfold sign. rewrite S. rewrite !lin_value_add, !lin_value_const. lra.
        + intros k. rewrite !add_labels. cbn. tauto.
      - inv_bind E0. inv_bind E0. inversion E0; subst.
        assert (SF : slack_form n c a2).
        { econstructor 2; [rewrite S; discriminate|unfold slack_ub; rewrite S; exact E2|exact E3]. }
        eexists. split; [reflexivity|]. split.
        + exists a0, a, a2. eexists. split; [reflexivity|]. do 3 (split; [assumption|]). split.
          * intros f. unfold sign. rewrite S. rewrite !lin_value_add, lin_value_scale, lin_value_const. lra.
          * intros k. rewrite !add_labels, scale_labels. cbn. tauto.
        + right. exists a2. split; [assumption|]. split; [discriminate|reflexivity]. }
    destruct V as (sm & -> & HS & Hsub). exists (sm :: Hs). rewrite <- app_assoc. split; [reflexivity|].
    split; [constructor; assumption|]. split; [|split].
    + intros k Hk. cbn in Hk. rewrite G1 by tauto. destruct Hsub as [->|(a & _ & _ & ->)]; [reflexivity|].
      rewrite dget_dset. destruct (eq_dec k n) as [->|]; [tauto|reflexivity].
    + intros k a Ha. destruct (G2 k a Ha) as [Hk|(c' & Hc & SF)].
      * destruct Hsub as [->|(b & SF & NE & ->)]; [auto|]. rewrite dget_dset in Hk.
        destruct (eq_dec k n) as [->|]; [|auto]. inversion Hk; subst. right. exists c. cbn. auto.
      * right. exists c'. cbn. tauto.
    + intros HD. apply G3. destruct Hsub as [->|(b & _ & _ & ->)]; [exact HD|]. apply dset_nodup. exact HD.
Qed.

(** ** Translation of expressions *)

(** The assignment read off the bits through the translation of the variables *)
Definition reading_of (t : dict vid lin) (f : string -> Q) : assignment :=
  fun i => match dget i t with Some a => lin_value a f | None => 0 end.

Lemma translate_value t l e f : translate t l = Ok e -> lin_value e f == eval_terms l (reading_of t f).
Proof.
  unfold translate, eval_terms.
  assert (G : forall l acc e, foldM (fun acc vq => do t0 <- dlookup (v_id (fst vq)) t;
             Ok (lin_add acc (lin_scale (snd vq) t0))) l acc = Ok e ->
             lin_value e f == lin_value acc f + qsum (map (fun vq => snd vq * reading_of t f (v_id (fst vq))) l)).
  { clear. induction l as [|vq l IH]; intros acc e H; cbn [foldM] in H.
    - inversion H. unfold qsum. cbn [map fold_right]. lra.
    - inv_bind H. inv_bind E. inversion E; subst. rewrite (IH _ _ H), lin_value_add, lin_value_scale.
      apply dlookup_ok in E0. assert (RV : reading_of t f (v_id (fst vq)) = lin_value a0 f) by (unfold reading_of; rewrite E0; reflexivity).
      unfold qsum. cbn [map fold_right]. rewrite RV. lra. }
  intros H. rewrite (G _ _ _ H), lin_value_const. lra.
Qed.

Lemma translate_labels t l e k : translate t l = Ok e ->
  (In k (map fst (l_terms e)) <->
   exists v q a, In (v, q) l /\ dget (v_id v) t = Some a /\ In k (map fst (l_terms a))).
Proof.
  unfold translate.
  assert (G : forall l acc e, foldM (fun acc vq => do t0 <- dlookup (v_id (fst vq)) t;
             Ok (lin_add acc (lin_scale (snd vq) t0))) l acc = Ok e ->
             (In k (map fst (l_terms e)) <-> In k (map fst (l_terms acc)) \/
              exists v q a, In (v, q) l /\ dget (v_id v) t = Some a /\ In k (map fst (l_terms a)))).
  { clear. induction l as [|[v q] l IH]; intros acc e H; cbn [foldM] in H.
    - inversion H; subst. split; [auto|]. intros [|(v & q & a & [] & _)]; assumption.
    - inv_bind H. inv_bind E. cbn [fst snd] in *. inversion E; subst. apply dlookup_ok in E0.
      rewrite (IH _ _ H), add_labels, scale_labels. split.
      + intros [[A|A]|(w & r & b & Hw & R)]; [auto| |].
        * right. exists v, q, a0. cbn. auto.
        * right. exists w, r, b. cbn. auto.
      + intros [A|(w & r & b & [Hw|Hw] & R & K)]; [auto| |].
        * inversion Hw; subst. rewrite E0 in R. inversion R; subst. auto.
        * right. exists w, r, b. auto. }
  intros H. rewrite (G _ _ _ H). cbn. tauto.
Qed.

(** ** Variables of the expanded model *)

Definition sm_labels (sm : summand) : list string :=
  match sm with Square _ a => map fst (l_terms a) | Linear _ a => map fst (l_terms a) end.

Lemma add_linear_keys u q b k : In k (dkeys (b_linear (add_linear u q b))) <-> k = u \/ In k (dkeys (b_linear b)).
Proof. unfold add_linear, add_to. cbn [b_linear]. apply dset_keys. Qed.

Lemma fold_linear_keys g (l : list (string * Q)) k : forall b,
  In k (dkeys (b_linear (fold_left (fun acc t => add_linear (fst t) (g t) acc) l b))) <->
  In k (map fst l) \/ In k (dkeys (b_linear b)).
Proof.
  induction l as [|t l IH]; intros b; cbn [fold_left map In]; [tauto|].
  rewrite IH, add_linear_keys. split; intuition.
Qed.

Lemma add_product_keys u v q b k :
  In k (dkeys (b_linear (add_product u v q b))) -> k = u \/ In k (dkeys (b_linear b)).
Proof.
  unfold add_product. destruct (eqb u v); [apply add_linear_keys|].
  destruct (dmem (v, u) (b_quadratic b)); cbn [b_linear]; auto.
Qed.

Lemma add_product_keeps u v q b k :
  In k (dkeys (b_linear b)) -> In k (dkeys (b_linear (add_product u v q b))).
Proof.
  unfold add_product. destruct (eqb u v); [intros; apply add_linear_keys; auto|].
  destruct (dmem (v, u) (b_quadratic b)); cbn [b_linear]; auto.
Qed.

Lemma add_square_keys q a b k :
  In k (dkeys (b_linear (add_square q a b))) <-> In k (map fst (l_terms a)) \/ In k (dkeys (b_linear b)).
Proof.
  unfold add_square. cbn [add_offset b_linear]. rewrite fold_linear_keys.
  set (l := list_prod (l_terms a) (l_terms a)).
  assert (HL : forall p, In p l -> In (fst p) (l_terms a)).
  { intros [x y] Hp. apply in_prod_iff in Hp. apply Hp. }
  revert HL. generalize l. clear l. intros l. revert b. induction l as [|p l IH]; intros b HL; cbn [fold_left]; [tauto|].
  rewrite IH by (intros; apply HL; right; assumption). split.
  - intros [H|H]; [auto|]. apply add_product_keys in H as [->|H]; [|auto].
    left. apply in_map. apply HL. left; reflexivity.
  - intros [H|H]; [auto|]. right. apply add_product_keeps. exact H.
Qed.

Lemma to_bqm_keys m pdict b k : to_bqm m pdict = Ok b ->
  (In k (dkeys (b_linear b)) <-> exists sm, In sm (m_sum m) /\ In k (sm_labels sm)).
Proof.
  unfold to_bqm.
  assert (G : forall l b0 b, foldM (fun acc s =>
           match s with
           | Square ph a => match dget ph pdict with Some k => Ok (add_square k a acc) | None => Err OtherError end
           | Linear ph a => match dget ph pdict with Some k => Ok (add_lin k a acc) | None => Err OtherError end
           end) l b0 = Ok b ->
     (In k (dkeys (b_linear b)) <-> (exists sm, In sm l /\ In k (sm_labels sm)) \/ In k (dkeys (b_linear b0)))).
  { clear. induction l as [|s l IH]; intros b0 b H; cbn [foldM] in H.
    - inversion H; subst. split; [auto|]. intros [(sm & [] & _)|]; assumption.
    - inv_bind H. rewrite (IH _ _ H).
      assert (K : In k (dkeys (b_linear a)) <-> In k (sm_labels s) \/ In k (dkeys (b_linear b0))).
      { destruct s as [ph c|ph c]; destruct (dget ph pdict); try discriminate; inversion E; subst; cbn [sm_labels].
        - apply add_square_keys.
        - unfold add_lin. cbn [add_offset b_linear]. apply fold_linear_keys. }
      rewrite K. split.
      + intros [(sm & H1 & H2)|[H1|H1]]; [left; exists sm; cbn; auto|left; exists s; cbn; auto|auto].
      + intros [(sm & [->|H1] & H2)|H1]; [auto|left; exists sm; auto|auto]. }
  intros H. rewrite (G _ _ _ H). cbn. tauto.
Qed.
