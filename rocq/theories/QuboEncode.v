(** * QuboEncode: samples for given values, ground states (C26, C27, C29) *)

From Coq Require Import List String Ascii ZArith QArith Qround Bool Lqa Lia Permutation.
From Verif Require Import Base Pulp BaseFacts Names Converters SpecQubo QuboFacts QuboModel Qubo.
Import ListNotations.
Open Scope string_scope.
Open Scope list_scope.

(** ** Bits for several forms at once *)

Definition labels (a : lin) : list string := map fst (l_terms a).

Lemma joint (L : list (string * lin * Q)) :
  (forall k a q, In (k, a, q) L -> owned k a /\ exists f, boolean f /\ lin_value a f == q) ->
  NoDup (map (fun e => fst (fst e)) L) ->
  exists g, boolean g /\ forall k a q, In (k, a, q) L -> lin_value a g == q.
Proof.
  induction L as [|[[k a] q] L IH]; intros H ND.
  - exists (fun _ => 0). split; [left; reflexivity|]. intros ? ? ? [].
  - cbn in ND. inversion ND as [|? ? HN ND']; subst.
    destruct IH as (g & Bg & Hg); [intros; apply H; right; assumption|exact ND'|].
    destruct (H k a q) as (OW & f & Bf & Hf); [left; reflexivity|].
    exists (fun l => if lmem l (labels a) then f l else g l). split.
    + intros l. destruct (lmem l (labels a)); [apply Bf|apply Bg].
    + intros k' a' q' [E|Hin].
      * inversion E; subst. rewrite <- Hf. apply lin_value_ext. intros l Hl.
        apply lmem_true in Hl. fold (labels a') in Hl. rewrite Hl. reflexivity.
      * rewrite <- (Hg _ _ _ Hin). apply lin_value_ext. intros l Hl.
        destruct (lmem l (labels a)) eqn:M; [|reflexivity]. exfalso. apply lmem_true in M.
        assert (NE : k <> k').
        { intros ->. apply HN. apply in_map_iff. exists (k', a', q'). auto. }
        destruct (H k' a' q') as (OW' & _); [right; exact Hin|]. unfold labels in M.
        destruct OW as [O|[NB O]], OW' as [O'|[NB' O']].
        -- destruct (O l M) as [i ->]. destruct (O' _ Hl) as [i' E']. apply bit_label_inj in E'. tauto.
        -- rewrite O' in Hl. destruct Hl as [<-|[]]. destruct (O _ M) as [i E]. rewrite E, bit_label_bracket in NB'.
           discriminate.
        -- rewrite O in M. destruct M as [<-|[]]. destruct (O' _ Hl) as [i E]. rewrite E, bit_label_bracket in NB.
           discriminate.
        -- rewrite O in M. rewrite O' in Hl. destruct M as [<-|[]]. destruct Hl as [E|[]]. congruence.
Qed.

(** ** Slack bounds *)

Lemma slack_bound l off ub x : get_slack_ub l off = Ok ub ->
  (forall v q, In (v, q) l -> var_ok v (x (v_id v))) -> - (eval_terms l x + off) <= inject_Z ub.
Proof.
  unfold get_slack_ub. intros H HV. inv_bind H.
  destruct (as_int (- (a + off))) as [z|] eqn:A; [|discriminate]. inversion H; subst. apply as_int_ok in A.
  assert (G : forall l acc a, foldM (fun acc (vq : lpvar * Q) =>
              match (if qltb (snd vq) 0 then v_up (fst vq) else v_lo (fst vq)) with
              | Some b => Ok (acc + snd vq * b) | None => Err TypeError end) l acc = Ok a ->
            (forall v q, In (v, q) l -> var_ok v (x (v_id v))) -> a <= acc + eval_terms l x).
  { clear. induction l as [|[v q] l IH]; intros acc a H HV; cbn [foldM] in H.
    - inversion H. unfold eval_terms, qsum. cbn [map fold_right]. lra.
    - inv_bind H. apply IH in H; [|intros; eapply HV; right; eassumption].
      unfold eval_terms, qsum in *. cbn [map fold_right fst snd] in *.
      destruct (HV v q (or_introl eq_refl)) as (H1 & H2 & _).
      destruct (qltb q 0) eqn:S.
      + apply qltb_true in S. destruct (v_up v) as [u|]; [|discriminate]. inversion E; subst.
        specialize (H2 _ eq_refl). assert (q * u <= q * x (v_id v)) by nra. lra.
      + apply qltb_false in S. destruct (v_lo v) as [u|]; [|discriminate]. inversion E; subst.
        specialize (H1 _ eq_refl). assert (q * u <= q * x (v_id v)) by nra. lra. }
  specialize (G _ _ _ E HV). rewrite <- A. lra.
Qed.

Lemma eval_negate l x : eval_terms (negate l) x == - eval_terms l x.
Proof.
  unfold eval_terms, negate, qsum. induction l as [|[v q] l IH]; cbn [map fold_right fst snd]; [lra|].
  rewrite IH. lra.
Qed.

Lemma is_int_add a b : is_int a -> is_int b -> is_int (a + b).
Proof. intros [x Hx] [y Hy]. exists (x + y)%Z. rewrite inject_Z_plus, Hx, Hy. reflexivity. Qed.
Lemma is_int_mul a b : is_int a -> is_int b -> is_int (a * b).
Proof. intros [x Hx] [y Hy]. exists (x * y)%Z. rewrite inject_Z_mult, Hx, Hy. reflexivity. Qed.
Lemma is_int_opp a : is_int a -> is_int (- a).
Proof. intros [x Hx]. exists (- x)%Z. rewrite inject_Z_opp, Hx. reflexivity. Qed.
Lemma is_int_Z z : is_int (inject_Z z).
Proof. exists z. reflexivity. Qed.
Lemma is_int_eq a b : a == b -> is_int a -> is_int b.
Proof. intros E [z H]. exists z. rewrite <- E. exact H. Qed.

Lemma nodup_app {A} (l m : list A) : NoDup l -> NoDup m -> (forall a, In a l -> ~ In a m) -> NoDup (l ++ m).
Proof.
  induction l as [|a l IH]; intros H1 H2 H; [exact H2|]. inversion H1; subst. cbn. constructor.
  - rewrite in_app_iff. intros [Ha|Ha]; [auto|]. apply (H a); [left; reflexivity|exact Ha].
  - apply IH; auto. intros c Hc. apply H. right. exact Hc.
Qed.

Section Encode.
  Variables (p : lpproblem) (m : qmodel) (pdict : dict string Q) (b : bqm).
  Hypothesis CM : convert_to_pyqubo p = Ok m.
  Hypothesis CB : to_bqm m pdict = Ok b.
  Hypothesis HC : consistent p.
  Hypothesis HA : apart p.

  Lemma in_range_occurs x v : in_range p x -> occurs p v -> var_ok v (x (v_id v)).
  Proof.
    intros HR Hv. destruct (occurs_variables p v Hv) as (w & Hw & E).
    destruct (HC v w Hv (variables_occurs p w Hw) (same_id_name _ _ (eq_sym E))) as (H1 & H2 & H3).
    specialize (HR w Hw). rewrite E in HR. unfold var_ok. rewrite H1, H2, H3. exact HR.
  Qed.

  Lemma all_integer v : occurs p v -> v_cat v = Integer.
  Proof.
    intros Hv. destruct (model_built p m CM HC HA) as (t & Hs & Ho & BT).
    destruct (b_forms _ _ _ _ _ BT v Hv) as (a & Hf & _). unfold var_form in Hf.
    destruct (v_cat v); [reflexivity|discriminate].
  Qed.

  (** Decoded values are in range *)
  Lemma decoded_in_range s d : sample_of b s -> decode_row p m s = Ok d -> in_range p (values d).
  Proof.
    intros HS Hd v Hv. apply variables_occurs in Hv.
    destruct (model_built p m CM HC HA) as (t & Hs & Ho & BT).
    destruct (decode_total p m pdict b CB HC t Hs Ho BT s HS) as (d' & Hd' & _ & _ & HV).
    assert (d' = d) by congruence. subst d'. destruct (b_forms _ _ _ _ _ BT v Hv) as (a & Hf & _).
    destruct (var_form_range v a (bit s) Hf (bit_boolean s)) as (H1 & H2 & H3).
    pose proof (HV v a Hv Hf) as E. unfold var_ok. split; [|split].
    - intros lo Hl. rewrite E. apply H1, Hl.
    - intros up Hu. rewrite E. apply H2, Hu.
    - intros C. apply (is_int_eq (lin_value a (bit s))); [symmetry; exact E|apply H3, C].
  Qed.

  Hypothesis HD : names_distinct p.

  Lemma var_names_nodup : NoDup (map v_name (variables p)).
  Proof.
    pose proof (variables_nodup p) as ND.
    assert (HI : forall v, In v (variables p) -> occurs p v) by apply variables_occurs.
    induction (variables p) as [|v l IH]; [constructor|]. cbn in *. inversion ND; subst. constructor.
    - intros H. apply in_map_iff in H as (w & E & Hw). apply H1. apply in_map_iff. exists w.
      split; [|exact Hw]. apply HD; auto.
    - apply IH; auto.
  Qed.

  Theorem encode x (z : string -> Z) : in_range p x ->
    (forall n c ub, In (n, c) (p_constraints p) -> c_sense c <> EQ -> slack_ub c = Ok ub -> (0 <= z n <= ub)%Z) ->
    exists s, sample_of b s /\
      (forall v a, occurs p v -> var_form v = Ok a -> lin_value a (bit s) == x (v_id v)) /\
      (forall n c, In (n, c) (p_constraints p) -> c_sense c <> EQ -> slack_value p s n = z n).
  Proof.
    intros HR HZ. destruct (model_built p m CM HC HA) as (t & Hs & Ho & BT).
    set (vform := fun v => match var_form v with Ok a => a | Err _ => lin_const 0 end).
    set (sform := fun nc : string * constr =>
           match slack_ub (snd nc) with
           | Ok ub => match log_enc (fst nc) 0 ub with Ok a => a | Err _ => lin_const 0 end
           | Err _ => lin_const 0 end).
    set (cs := filter (fun nc : string * constr => match c_sense (snd nc) with EQ => false | _ => true end) (p_constraints p)).
    set (L := map (fun v => (v_name v, vform v, x (v_id v))) (variables p)
              ++ map (fun nc => (fst nc, sform nc, inject_Z (z (fst nc)))) cs).
    assert (CS : forall n c, In (n, c) cs <-> In (n, c) (p_constraints p) /\ c_sense c <> EQ).
    { intros n c. unfold cs. rewrite filter_In. cbn [snd]. destruct (c_sense c); intuition congruence. }
    assert (SB : forall n c, In (n, c) (p_constraints p) -> c_sense c <> EQ ->
               exists ub a, slack_ub c = Ok ub /\ log_enc n 0 ub = Ok a).
    { intros n c Hc NE. destruct (forall2_in _ _ _ _ (b_cons _ _ _ _ _ BT) Hc) as (sm & _ & ph & e & a & fo & _ & _ & _ & SF & _).
      destruct SF as [S|ub a' _ Hu Ha]; [cbn in *; congruence|eauto]. }
    destruct (joint L) as (g & Bg & Hg).
    { intros k a q Hin. unfold L in Hin. apply in_app_iff in Hin as [Hin|Hin]; apply in_map_iff in Hin.
      - destruct Hin as (v & E & Hv). inversion E; subst. apply variables_occurs in Hv as Ov.
        destruct (b_forms _ _ _ _ _ BT v Ov) as (a & Hf & _). unfold vform. rewrite Hf.
        split; [apply var_form_owned; exact Hf|]. apply (var_form_cover v a _ Hf). apply HR. exact Hv.
      - destruct Hin as ([n c] & E & Hc). cbn [fst] in E. injection E as <- <- <-. apply CS in Hc as [Hc NE].
        destruct (SB n c Hc NE) as (ub & a & Hu & Ha). unfold sform. cbn [fst snd]. rewrite Hu, Ha. split.
        + left. intros k Hk. eapply in_log_labels; eassumption.
        + apply (log_cover _ _ _ _ (z n) Ha). eapply HZ; eassumption. }
    { unfold L. rewrite map_app, !map_map. cbn [fst]. rewrite (map_ext _ fst) by reflexivity.
      assert (N1 := var_names_nodup). destruct HA as [N2 N3].
      assert (N4 : NoDup (map fst cs)).
      { unfold cs. clear -N2. unfold dkeys in N2. induction (p_constraints p) as [|[n c] l IH]; [constructor|].
        cbn in *. inversion N2; subst. destruct (c_sense c); [| |]; cbn; auto; constructor; auto;
          intros H; apply H1; apply in_map_iff in H as ([n' c'] & E & H); apply filter_In in H as [H _];
          cbn in E; subst; apply (in_map fst) in H; exact H. }
      apply nodup_app; [exact N1|exact N4|]. intros k H1 H2. apply in_map_iff in H1 as (v & <- & Hv).
      apply variables_occurs in Hv. apply in_map_iff in H2 as ([n c] & E & Hc). cbn in E.
      apply CS in Hc as [Hc _]. apply (in_map fst) in Hc. apply (N3 v n Hv Hc). symmetry. exact E. }
    set (ks := nodup string_dec (dkeys (b_linear b))).
    set (s := map (fun k => (k, Qeq_bool (g k) 1)) ks).
    assert (KS : dkeys s = ks).
    { unfold s, dkeys. rewrite map_map. cbn [fst]. apply map_id. }
    assert (HS : sample_of b s).
    { split; rewrite KS; unfold ks; [apply NoDup_nodup|]. intros k. apply nodup_In. }
    assert (BS : forall k, In k (dkeys (b_linear b)) -> bit s k == g k).
    { intros k Hk. assert (G : dget k s = Some (Qeq_bool (g k) 1)).
      { apply in_dget; [apply (proj1 HS)|]. unfold s. apply in_map_iff. exists k. split; [reflexivity|].
        unfold ks. apply nodup_In. exact Hk. }
      unfold bit. rewrite G. destruct (Bg k) as [E|E].
      - destruct (Qeq_bool (g k) 1) eqn:Q1; [apply Qeq_bool_iff in Q1; lra|]. symmetry. exact E.
      - replace (Qeq_bool (g k) 1) with true by (symmetry; apply Qeq_bool_iff; exact E). symmetry. exact E. }
    exists s. split; [exact HS|]. split.
    - intros v a Hv Hf. destruct (occurs_variables p v Hv) as (w & Hw & E). rewrite <- E.
      rewrite (lin_value_ext a (bit s) g).
      + apply (Hg (v_name w) a). unfold L. apply in_app_iff. left. apply in_map_iff. exists w.
        split; [|exact Hw]. unfold vform.
        destruct (same_form p HC v w Hv (variables_occurs p w Hw) (same_id_name _ _ (eq_sym E))) as [EF _].
        rewrite <- EF, Hf. reflexivity.
      + intros k Hk. apply BS. eapply var_labels; eassumption.
    - intros n c Hc NE. destruct (SB n c Hc NE) as (ub & a & Hu & Ha).
      destruct (slack_value_ok p HA s n c ub a Hc Hu Ha) as [E _].
      assert (EZ : lin_value a (bit s) == inject_Z (z n)).
      { rewrite (lin_value_ext a (bit s) g).
        - apply (Hg n a). unfold L. apply in_app_iff. right. apply in_map_iff. exists (n, c).
          split; [|apply CS; auto]. unfold sform. cbn [fst snd]. rewrite Hu, Ha. reflexivity.
        - intros k Hk. apply BS. eapply slack_labels; try eassumption. econstructor 2; eassumption. }
      rewrite EZ in E. apply inject_Z_injective. exact E.
  Qed.

  (** ** Feasible points cost nothing *)

  Hypothesis HI : integer_coefficients p.

  Lemma eval_int n c x : In (n, c) (p_constraints p) -> in_range p x -> is_int (eval (c_aff c) x).
  Proof.
    intros Hc HR. destruct (HI n c Hc) as [H0 HT]. unfold eval. apply is_int_add; [|exact H0].
    unfold eval_terms, qsum.
    assert (HO : forall v q, In (v, q) (a_terms (c_aff c)) -> occurs p v).
    { intros v q Hv. right. exists n, c. split; [exact Hc|]. apply (in_map fst) in Hv. exact Hv. }
    revert HT HO. induction (a_terms (c_aff c)) as [|[v q] l IH]; intros HT HO; cbn [map fold_right fst snd].
    - exists 0%Z. reflexivity.
    - apply is_int_add.
      + apply is_int_mul; [apply (HT v q); left; reflexivity|].
        assert (Ov : occurs p v) by (apply (HO v q); left; reflexivity).
        apply (in_range_occurs x v HR Ov). apply all_integer. exact Ov.
      + apply IH; [intros w r Hw; apply (HT w r); right; exact Hw|intros w r Hw; apply (HO w r); right; exact Hw].
  Qed.

  (** The slack a feasible point needs *)
  Definition needed_slack (x : assignment) (n : string) : Z :=
    match dget n (p_constraints p) with
    | Some c => match c_sense c with
                | LE => - Qfloor (eval (c_aff c) x)
                | EQ => 0
                | GE => Qfloor (eval (c_aff c) x)
                end
    | None => 0
    end.

  Lemma floor_int q : is_int q -> q == inject_Z (Qfloor q).
  Proof. intros [z Hz]. rewrite (Qfloor_comp _ _ Hz), Qfloor_Z. exact Hz. Qed.

  Lemma needed_ok x n c : feasible p x -> In (n, c) (p_constraints p) ->
    defect c x (needed_slack x n) == 0.
  Proof.
    intros [HF HR] Hc. pose proof (eval_int n c x Hc HR) as EI. apply floor_int in EI.
    specialize (HF n c Hc). unfold defect, needed_slack. rewrite (in_dget _ _ _ (proj1 HA) Hc).
    unfold holds in HF. destruct (c_sense c).
    - rewrite inject_Z_opp, <- EI. lra.
    - exact HF.
    - rewrite <- EI. lra.
  Qed.

  Lemma needed_bound x n c ub : feasible p x -> In (n, c) (p_constraints p) -> c_sense c <> EQ ->
    slack_ub c = Ok ub -> (0 <= needed_slack x n <= ub)%Z.
  Proof.
    intros [HF HR] Hc NE Hu. pose proof (eval_int n c x Hc HR) as EI. apply floor_int in EI.
    assert (HV : forall v q, In (v, q) (a_terms (c_aff c)) -> var_ok v (x (v_id v))).
    { intros v q Hv. apply in_range_occurs; [exact HR|]. right. exists n, c. split; [exact Hc|].
      apply (in_map fst) in Hv. exact Hv. }
    specialize (HF n c Hc). unfold holds in HF. unfold needed_slack. rewrite (in_dget _ _ _ (proj1 HA) Hc).
    unfold slack_ub in Hu. destruct (c_sense c); [| congruence |].
    - pose proof (slack_bound _ _ _ x Hu HV) as SBd. fold (eval (c_aff c) x) in SBd. rewrite EI in HF, SBd.
      rewrite <- inject_Z_opp, <- Zle_Qle in SBd. change 0 with (inject_Z 0) in HF. rewrite <- Zle_Qle in HF. lia.
    - assert (SBd := slack_bound _ _ _ x Hu). rewrite eval_negate in SBd.
      assert (Hneg : forall v q, In (v, q) (negate (a_terms (c_aff c))) -> var_ok v (x (v_id v))).
      { intros v q Hv. apply in_map_iff in Hv as ([w r] & E & Hw). inversion E; subst. eapply HV. exact Hw. }
      specialize (SBd Hneg).
      assert (E2 : - (- eval_terms (a_terms (c_aff c)) x + - a_const (c_aff c)) == inject_Z (Qfloor (eval (c_aff c) x))).
      { rewrite <- EI. unfold eval. lra. }
      rewrite E2, <- Zle_Qle in SBd. rewrite EI in HF. change 0 with (inject_Z 0) in HF.
      rewrite <- Zle_Qle in HF. lia.
  Qed.

  Lemma eval_ext c n x y : In (n, c) (p_constraints p) -> (forall v, occurs p v -> x (v_id v) == y (v_id v)) ->
    eval (c_aff c) x == eval (c_aff c) y.
  Proof.
    intros Hc E. unfold eval. rewrite (eval_terms_ext _ x y); [reflexivity|].
    intros v q Hv. apply E. right. exists n, c. split; [exact Hc|]. apply (in_map fst) in Hv. exact Hv.
  Qed.

  Lemma obj_ext x y : (forall v, occurs p v -> x (v_id v) == y (v_id v)) -> obj_value p x == obj_value p y.
  Proof.
    intros E. unfold obj_value, eval. rewrite (eval_terms_ext _ x y); [reflexivity|].
    intros v q Hv. apply E. left. apply (in_map fst) in Hv. exact Hv.
  Qed.

  Theorem zero_penalty x : feasible p x ->
    exists s d, sample_of b s /\ decode_row p m s = Ok d /\
      (forall v, occurs p v -> values d (v_id v) == x (v_id v)) /\
      (forall n c, In (n, c) (p_constraints p) -> defect c (values d) (slack_value p s n) == 0) /\
      energy b s == weight pdict "objective" * obj_value p x.
  Proof.
    intros HF. destruct (encode x (needed_slack x) (proj2 HF)) as (s & HS & HV & HZ).
    { intros n c ub Hc NE Hu. exact (needed_bound x n c ub HF Hc NE Hu). }
    destruct (model_built p m CM HC HA) as (t & Hs & Ho & BT).
    destruct (decode_total p m pdict b CB HC t Hs Ho BT s HS) as (d & Hd & _ & _ & HVd).
    assert (EV : forall v, occurs p v -> values d (v_id v) == x (v_id v)).
    { intros v Hv. destruct (b_forms _ _ _ _ _ BT v Hv) as (a & Hf & _).
      rewrite (HVd v a Hv Hf). apply HV; assumption. }
    assert (ED : forall n c, In (n, c) (p_constraints p) -> defect c (values d) (slack_value p s n) == 0).
    { intros n c Hc. rewrite <- (needed_ok x n c HF Hc). pose proof (eval_ext c n _ _ Hc EV) as EE.
      pose proof (HZ n c Hc) as HZn. unfold defect. destruct (c_sense c); rewrite EE.
      - rewrite HZn by discriminate. reflexivity.
      - reflexivity.
      - rewrite HZn by discriminate. reflexivity. }
    exists s, d. do 4 (split; [assumption|]).
    rewrite (energy_value p m pdict b CB HC HA t Hs Ho BT s HS d Hd), (obj_ext _ _ EV).
    assert (P : penalties p pdict (values d) (slack_value p s) == 0).
    { unfold penalties. assert (G : forall cs, (forall nc, In nc cs -> In nc (p_constraints p)) ->
         qsum (map (fun nc => weight pdict (rule_of (fst nc)) *
            (defect (snd nc) (values d) (slack_value p s (fst nc)) * defect (snd nc) (values d) (slack_value p s (fst nc)))) cs) == 0).
      { induction cs as [|[n c] cs IH]; intros Hin; unfold qsum in *; cbn [map fold_right fst snd]; [reflexivity|].
        rewrite IH by (intros; apply Hin; right; assumption).
        rewrite (ED n c) by (apply Hin; left; reflexivity). lra. }
      apply G. auto. }
    rewrite P. lra.
  Qed.

  (** ** Ground states *)

  Lemma defect_holds n c x z : (0 <= z)%Z -> In (n, c) (p_constraints p) -> defect c x z == 0 -> holds c x.
  Proof.
    intros Hz _ E. unfold defect in E. unfold holds. rewrite Zle_Qle in Hz. change (inject_Z 0) with 0 in Hz.
    destruct (c_sense c); lra.
  Qed.

  Lemma int_square q : is_int q -> ~ q == 0 -> 1 <= q * q.
  Proof.
    intros [z Hz] N. rewrite Hz in *. assert (z <> 0)%Z by (intros ->; apply N; reflexivity).
    rewrite <- inject_Z_mult. change 1 with (inject_Z 1). rewrite <- Zle_Qle. nia.
  Qed.

  Lemma defect_int n c x z : In (n, c) (p_constraints p) -> in_range p x -> is_int (defect c x z).
  Proof.
    intros Hc HR. pose proof (eval_int n c x Hc HR). unfold defect. destruct (c_sense c).
    - apply is_int_add; [assumption|apply is_int_Z].
    - assumption.
    - apply is_int_add; [assumption|apply is_int_opp, is_int_Z].
  Qed.

  Lemma penalties_one x slack n c : (forall n c, In (n, c) (p_constraints p) -> 0 <= weight pdict (rule_of n)) ->
    In (n, c) (p_constraints p) ->
    weight pdict (rule_of n) * (defect c x (slack n) * defect c x (slack n)) <= penalties p pdict x slack.
  Proof.
    intros HW Hc. unfold penalties. revert Hc. assert (HIn : forall nc, In nc (p_constraints p) -> In nc (p_constraints p)) by auto.
    revert HIn. generalize (p_constraints p) at 1 3 4. intros cs.
    assert (NN : forall a, 0 <= a * a) by (intros; nra).
    assert (NS : forall l, (forall nc, In nc l -> In nc (p_constraints p)) -> 0 <= qsum (map (fun nc => weight pdict (rule_of (fst nc)) *
          (defect (snd nc) x (slack (fst nc)) * defect (snd nc) x (slack (fst nc)))) l)).
    { induction l as [|[k e] l IH]; intros Hl; unfold qsum in *; cbn [map fold_right fst snd]; [lra|].
      pose proof (IH (fun nc H => Hl nc (or_intror H))).
      pose proof (HW k e (Hl _ (or_introl eq_refl))). pose proof (NN (defect e x (slack k))). nra. }
    induction cs as [|[k e] cs IH]; intros HIn Hc; [destruct Hc|]. unfold qsum in *. cbn [map fold_right fst snd].
    pose proof (HW k e (HIn _ (or_introl eq_refl))) as W. pose proof (NN (defect e x (slack k))) as N2.
    destruct Hc as [E|Hc].
    - inversion E; subst. pose proof (NS cs (fun nc H => HIn nc (or_intror H))). lra.
    - pose proof (IH (fun nc H => HIn nc (or_intror H)) Hc). nra.
  Qed.

  Theorem ground_state s d :
    0 < weight pdict "objective" ->
    (forall n c x y, In (n, c) (p_constraints p) -> in_range p x -> in_range p y ->
       weight pdict "objective" * (obj_value p x - obj_value p y) < weight pdict (rule_of n)) ->
    (exists x, feasible p x) ->
    sample_of b s -> (forall s', sample_of b s' -> energy b s <= energy b s') -> decode_row p m s = Ok d ->
    feasible p (values d) /\ forall x, feasible p x -> obj_value p (values d) <= obj_value p x.
  Proof.
    intros HW HP [x0 F0] HS HM Hd.
    destruct (model_built p m CM HC HA) as (t & Hs & Ho & BT).
    pose proof (energy_value p m pdict b CB HC HA t Hs Ho BT s HS d Hd) as EE.
    pose proof (decoded_in_range s d HS Hd) as HR.
    assert (NN : forall n c, In (n, c) (p_constraints p) -> 0 <= weight pdict (rule_of n)).
    { intros n c Hc. specialize (HP n c x0 x0 Hc (proj2 F0) (proj2 F0)).
      assert (E : weight pdict "objective" * (obj_value p x0 - obj_value p x0) == 0) by ring. lra. }
    destruct (zero_penalty x0 F0) as (s0 & d0 & HS0 & _ & _ & _ & E0).
    assert (Z : forall n c, In (n, c) (p_constraints p) -> defect c (values d) (slack_value p s n) == 0).
    { intros n c Hc. destruct (Qeq_dec (defect c (values d) (slack_value p s n)) 0) as [|N]; [assumption|exfalso].
      pose proof (int_square _ (defect_int n c (values d) (slack_value p s n) Hc HR) N) as SQ.
      pose proof (penalties_one (values d) (slack_value p s) n c NN Hc) as P1.
      pose proof (HM s0 HS0) as M0. rewrite E0, EE in M0.
      pose proof (HP n c x0 (values d) Hc (proj2 F0) HR) as PP.
      pose proof (NN n c Hc) as NW.
      assert (weight pdict (rule_of n) <= weight pdict (rule_of n) *
        (defect c (values d) (slack_value p s n) * defect c (values d) (slack_value p s n))) by nra.
      lra. }
    split.
    - split; [|exact HR]. intros n c Hc. eapply defect_holds; [apply slack_value_nonneg; exact HA|exact Hc|].
      apply Z. exact Hc.
    - intros x Fx. destruct (zero_penalty x Fx) as (sx & dx & HSx & _ & _ & _ & Ex).
      pose proof (HM sx HSx) as M. rewrite Ex, EE in M.
      assert (P0 : 0 <= penalties p pdict (values d) (slack_value p s)).
      { unfold penalties. clear -Z NN. assert (HIn : forall nc, In nc (p_constraints p) -> In nc (p_constraints p)) by auto.
        revert HIn. generalize (p_constraints p) at 1 3. intros l. induction l as [|[n c] l IH]; intros HIn; unfold qsum in *; cbn [map fold_right fst snd]; [lra|].
        specialize (IH (fun nc H => HIn nc (or_intror H))). rewrite (Z n c) by (apply HIn; left; reflexivity). lra. }
      nra.
  Qed.
End Encode.
