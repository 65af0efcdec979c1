(** * CqmFacts: the constrained model says the same as the integer problem (C28) *)

From Coq Require Import List String Ascii ZArith QArith Qround Bool Lqa Lia.
From Verif Require Import Base Pulp BaseFacts Names Converters SpecQubo SpecResults QuboFacts QuboModel Qubo.
Import ListNotations.
Open Scope string_scope.
Open Scope list_scope.

(** Type and offset a variable gets *)
Definition type_of (v : lpvar) (t : cqm_type) (off : Q) : Prop :=
  (is_binary v = true /\ t = CBinary /\ off = 0) \/
  (is_binary v = false /\ v_cat v = Integer /\ exists lb ub, v_lo v = Some lb /\ v_up v = Some ub /\
     t = CInteger (ub - lb) /\ off = lb).

Definition same (a b : cqm_type) : Prop := same_type a b = true.

Lemma same_in a b q : same a b -> (in_type a q <-> in_type b q).
Proof.
  unfold same, same_type, in_type. destruct a, b; try discriminate; [tauto|].
  intros H. apply Qeq_bool_iff in H. rewrite H. tauto.
Qed.

Lemma same_refl a : same a a.
Proof. destruct a; [reflexivity|]. unfold same. cbn. apply Qeq_bool_iff. reflexivity. Qed.

Lemma declare_ok n t d d' : declare n t d = Ok d' ->
  (exists t', dget n d' = Some t' /\ same t' t) /\
  (forall k t', In (k, t') d' <-> In (k, t') d \/ (dget n d = None /\ k = n /\ t' = t)) /\
  (forall k t', dget k d = Some t' -> dget k d' = Some t').
Proof.
  unfold declare. destruct (dget n d) as [t'|] eqn:E.
  - destruct (same_type t' t) eqn:S; [|discriminate]. intros H. inversion H; subst. split; [eauto|]. split; [|auto].
    intros k u. split; [auto|]. intros [H1|(H1 & _)]; [exact H1|congruence].
  - intros H. inversion H; subst. clear H.
    assert (NI : ~ In n (dkeys d)) by (apply dget_none; exact E). rewrite <- dset_absent by exact NI. split; [|split].
    + exists t. split; [|apply same_refl]. rewrite dget_dset. destruct (eq_dec n n); congruence.
    + intros k u. rewrite dset_absent by exact NI. rewrite in_app_iff. cbn. split.
      * intros [H|[H|[]]]; [auto|]. inversion H; auto.
      * intros [H|(_ & -> & ->)]; auto.
    + intros k u H. rewrite dget_dset. destruct (eq_dec k n); [subst; congruence|exact H].
Qed.

Lemma cqm_var_ok t0 d0 v t d : cqm_var (t0, d0) v = Ok (t, d) ->
  exists ty off, type_of v ty off /\ t = dset (v_id v) (MkLin [(v_name v, 1)] off) t0 /\
    declare (v_name v) ty d0 = Ok d.
Proof.
  unfold cqm_var. destruct (is_binary v) eqn:B; intros H.
  - inv_bind H. inversion H; subst. exists CBinary, 0. split; [left; auto|]. split; [reflexivity|assumption].
  - destruct (v_cat v) eqn:C; [|discriminate]. destruct (v_lo v) as [lb|] eqn:Hl; [|discriminate].
    destruct (v_up v) as [ub|] eqn:Hu; [|discriminate]. inv_bind H. inversion H; subst.
    exists (CInteger (ub - lb)), lb. split; [|split; [reflexivity|assumption]].
    right. split; [exact B|]. split; [exact C|]. exists lb, ub. auto.
Qed.

Lemma cqm_vars vs : forall t0 d0 t d, NoDup (map v_id vs) -> foldM cqm_var vs (t0, d0) = Ok (t, d) ->
  (forall v, In v vs -> exists ty ty' off, type_of v ty off /\
     dget (v_id v) t = Some (MkLin [(v_name v, 1)] off) /\ dget (v_name v) d = Some ty' /\ same ty' ty) /\
  (forall i, ~ In i (map v_id vs) -> dget i t = dget i t0) /\
  (forall k u, dget k d0 = Some u -> dget k d = Some u) /\
  (forall k u, In (k, u) d -> In (k, u) d0 \/ exists v off, In v vs /\ v_name v = k /\ type_of v u off).
Proof.
  induction vs as [|v vs IH]; intros t0 d0 t d ND H; cbn [foldM] in H.
  - inversion H; subst. split; [intros v []|]. auto.
  - inv_bind H. destruct a as [t1 d1]. inversion ND as [|? ? N1 N2]; subst.
    destruct (cqm_var_ok _ _ _ _ _ E) as (ty & off & HT & -> & HD). destruct (declare_ok _ _ _ _ HD) as (D1 & D2 & D3).
    destruct (IH _ _ _ _ N2 H) as (I1 & I2 & I3 & I4). split; [|split; [|split]].
    + intros w [<-|Hw]; [|apply I1; exact Hw]. destruct D1 as (ty' & G & S).
      exists ty, ty', off. split; [exact HT|]. split; [|split; [apply I3; exact G|exact S]].
      rewrite I2 by exact N1. rewrite dget_dset. destruct (eq_dec (v_id v) (v_id v)); congruence.
    + intros i Hi. cbn in Hi. rewrite I2 by tauto. rewrite dget_dset. destruct (eq_dec i (v_id v)); [subst; tauto|reflexivity].
    + intros k u Hk. apply I3, D3, Hk.
    + intros k u Hk. destruct (I4 k u Hk) as [Hd|(w & o & Hw & EW & TW)].
      * apply D2 in Hd as [Hd|(_ & -> & ->)]; [left; exact Hd|]. right. exists v, off. split; [left; reflexivity|auto].
      * right. exists w, o. split; [right; exact Hw|auto].
Qed.

Lemma type_in_range v t off q : type_of v t off -> is_int off -> (in_type t q <-> var_ok v (q + off)).
Proof.
  intros [(B & -> & ->)|(B & C & lb & ub & Hl & Hu & -> & ->)] HI.
  - apply is_binary_bounds in B as (lo & up & Hl & Hu & El & Eu & C). unfold in_type, var_ok. rewrite Hl, Hu. split.
    + intros H. assert (R : 0 <= q <= 1 /\ is_int q).
      { destruct H as [H|H]; (split; [lra|]); [exists 0%Z|exists 1%Z]; exact H. }
      destruct R as (R & z & Hz). split; [intros a E; inversion E; subst; lra|].
      split; [intros a E; inversion E; subst; lra|]. intros _. exists z. rewrite <- Hz. lra.
    + intros (H1 & H2 & H3). specialize (H1 _ eq_refl). specialize (H2 _ eq_refl). destruct (H3 C) as [z Hz].
      assert (R : (0 <= z <= 1)%Z).
      { split; rewrite Zle_Qle; [change (inject_Z 0) with 0|change (inject_Z 1) with 1]; lra. }
      assert (z = 0 \/ z = 1)%Z as [->| ->] by lia; [left|right].
      * change (inject_Z 0) with 0 in Hz. lra.
      * change (inject_Z 1) with 1 in Hz. lra.
  - unfold in_type, var_ok. rewrite Hl, Hu. destruct HI as [l El]. split.
    + intros ((z & Hz) & H). split; [intros a E; inversion E; subst; lra|].
      split; [intros a E; inversion E; subst; lra|]. intros _. exists (z + l)%Z. rewrite inject_Z_plus, Hz, El. reflexivity.
    + intros (H1 & H2 & H3). specialize (H1 _ eq_refl). specialize (H2 _ eq_refl). destruct (H3 C) as [z Hz]. split; [|lra].
      exists (z - l)%Z. unfold Z.sub. rewrite inject_Z_plus, inject_Z_opp, <- Hz, <- El. lra.
Qed.

Lemma type_lower v t off : type_of v t off -> exists lo, v_lo v = Some lo /\ lo == off.
Proof.
  intros [(B & -> & ->)|(B & C & lb & ub & Hl & Hu & -> & ->)].
  - apply is_binary_bounds in B as (lo & up & Hl & _ & El & _). eauto.
  - exists lb. split; [exact Hl|reflexivity].
Qed.

Lemma cqm_constraints t cs : forall k0 k, foldM (cqm_constraint t) cs k0 = Ok k ->
  exists new, k = k0 ++ new /\
    Forall2 (fun (nc : string * constr) (nk : string * cqm_constr) => fst nk = fst nc /\ a_terms (c_aff (snd nc)) <> [] /\
               cc_sense (snd nk) = c_sense (snd nc) /\ cc_rhs (snd nk) = - a_const (c_aff (snd nc)) /\
               translate t (a_terms (c_aff (snd nc))) = Ok (cc_lhs (snd nk))) cs new.
Proof.
  induction cs as [|[n c] cs IH]; intros k0 k H; cbn [foldM] in H.
  - inversion H; subst. exists []. rewrite app_nil_r. split; [reflexivity|constructor].
  - inv_bind H. cbn [cqm_constraint] in E. inv_bind E.
    destruct (a_terms (c_aff c)) as [|t1 l] eqn:ET; [discriminate|]. inversion E; subst. clear E.
    destruct (IH _ _ H) as (new & -> & F). rewrite <- app_assoc. cbn [app]. eexists. split; [reflexivity|].
    constructor; [|exact F]. cbn [fst snd cc_sense cc_rhs cc_lhs]. rewrite ET. split; [reflexivity|]. split; [discriminate|]. auto.
Qed.

Section Cqm.
  Variables (p : lpproblem) (cq : cqm).
  Hypothesis HQ : convert_to_cqm p = Ok cq.

  Lemma cqm_split : exists t, foldM cqm_var (variables p) ([], []) = Ok (t, q_vars cq) /\
    foldM (cqm_constraint t) (p_constraints p) [] = Ok (q_constraints cq) /\
    ((has_objective (p_objective p) = false /\ q_objective cq = lin_const 0) \/
     exists o, translate t (a_terms (p_objective p)) = Ok o /\
       q_objective cq = lin_add (lin_const (a_const (p_objective p))) o).
  Proof.
    pose proof HQ as H. unfold convert_to_cqm in H. inv_bind H. destruct a as [t d]. inv_bind H.
    exists t. destruct (has_objective (p_objective p)).
    - destruct (a_terms (p_objective p)) eqn:ET; [discriminate|]. rewrite <- ET in *. inv_bind H. inversion H; subst.
      cbn [q_vars q_constraints q_objective]. split; [assumption|]. split; [assumption|]. right. eauto.
    - inversion H; subst. cbn [q_vars q_constraints q_objective]. split; [assumption|]. split; [assumption|]. left. auto.
  Qed.

  Theorem cqm_labels n : In n (dkeys (q_vars cq)) <-> exists v, In v (variables p) /\ v_name v = n.
  Proof.
    destruct cqm_split as (t & H1 & _). destruct (cqm_vars _ _ _ _ _ (variables_nodup p) H1) as (A1 & _ & _ & A4). split.
    - intros H. apply in_map_iff in H as ([k u] & <- & H). destruct (A4 k u H) as [[]|(v & o & Hv & E & _)]. eauto.
    - intros (v & Hv & <-). destruct (A1 v Hv) as (ty & ty' & off & _ & _ & G & _). eapply dget_some_key; eassumption.
  Qed.

  Theorem cqm_names : dkeys (q_constraints cq) = dkeys (p_constraints p).
  Proof.
    destruct cqm_split as (t & _ & H2 & _). destruct (cqm_constraints _ _ _ _ H2) as (new & -> & F). cbn [app].
    unfold dkeys. clear -F. induction F as [|a b l l' H F IH]; cbn [map]; [reflexivity|]. destruct H as (E & _). rewrite E. f_equal.
    apply IH.
  Qed.

  Hypothesis HL : forall v lo, In v (variables p) -> v_lo v = Some lo -> is_int lo.
  Variables (q : string -> Q) (x : assignment).
  Hypothesis HX : counted_from_lower p q x.

  Lemma cqm_reading t : foldM cqm_var (variables p) ([], []) = Ok (t, q_vars cq) ->
    forall l e, (forall v k, In (v, k) l -> occurs p v) -> translate t l = Ok e -> lin_value e q == eval_terms l x.
  Proof.
    intros H1 l e HO HE. rewrite (translate_value t l e q HE). unfold eval_terms. apply qsum_ext. intros [v k] Hv. cbn [fst snd].
    destruct (occurs_variables p v (HO v k Hv)) as (w & Hw & E).
    destruct (cqm_vars _ _ _ _ _ (variables_nodup p) H1) as (A1 & _).
    destruct (A1 w Hw) as (ty & ty' & off & HT & G & _). destruct (type_lower _ _ _ HT) as (lo & Hlo & El).
    unfold reading_of. rewrite <- E, G. rewrite (HX w lo Hw Hlo).
    unfold lin_value, qsum. cbn [l_terms l_off map fold_right fst snd]. rewrite El. lra.
  Qed.

  Lemma constraint_occurs n c v k : In (n, c) (p_constraints p) -> In (v, k) (a_terms (c_aff c)) -> occurs p v.
  Proof. intros Hc Hv. right. exists n, c. split; [exact Hc|]. apply in_map_iff. exists (v, k). auto. Qed.

  Theorem cqm_same_feasible : cqm_feasible cq q <-> feasible p x.
  Proof.
    destruct cqm_split as (t & H1 & H2 & _).
    destruct (cqm_vars _ _ _ _ _ (variables_nodup p) H1) as (A1 & _ & _ & A4).
    destruct (cqm_constraints _ _ _ _ H2) as (new & EN & F). cbn [app] in EN.
    assert (HV : typed cq q <-> in_range p x).
    { split.
      - intros HT v Hv. destruct (A1 v Hv) as (ty & ty' & off & T & _ & G & S).
        destruct (type_lower _ _ _ T) as (lo & Hlo & El).
        assert (IO : is_int off) by (destruct (HL v lo Hv Hlo) as [z Hz]; exists z; rewrite <- El; exact Hz).
        apply dget_in in G. specialize (HT _ _ G). apply (same_in _ _ _ S) in HT. apply (type_in_range _ _ _ _ T IO) in HT.
        pose proof (HX v lo Hv Hlo) as E. assert (E' : q (v_name v) + off == x (v_id v)) by (rewrite E, El; reflexivity).
        unfold var_ok in *. destruct HT as (R1 & R2 & R3). setoid_rewrite E' in R1. setoid_rewrite E' in R2.
        split; [exact R1|]. split; [exact R2|]. intros C. destruct (R3 C) as [z Hz]. exists z. rewrite <- E'. exact Hz.
      - intros HR n ty Hn. destruct (A4 n ty Hn) as [[]|(v & off & Hv & <- & T)].
        destruct (type_lower _ _ _ T) as (lo & Hlo & El).
        assert (IO : is_int off) by (destruct (HL v lo Hv Hlo) as [z Hz]; exists z; rewrite <- El; exact Hz).
        apply (type_in_range _ _ _ _ T IO).
        pose proof (HX v lo Hv Hlo) as E. assert (E' : x (v_id v) == q (v_name v) + off) by (rewrite E, El; reflexivity).
        destruct (HR v Hv) as (R1 & R2 & R3). setoid_rewrite E' in R1. setoid_rewrite E' in R2.
        split; [exact R1|]. split; [exact R2|]. intros C. destruct (R3 C) as [z Hz]. exists z. rewrite <- E'. exact Hz. }
    assert (HCS : (forall n k, In (n, k) (q_constraints cq) -> related (cc_sense k) (lin_value (cc_lhs k) q) (cc_rhs k)) <->
                  (forall n c, In (n, c) (p_constraints p) -> holds c x)).
    { assert (ONE : forall n c k, In (n, c) (p_constraints p) ->
                cc_sense k = c_sense c -> cc_rhs k = - a_const (c_aff c) -> translate t (a_terms (c_aff c)) = Ok (cc_lhs k) ->
                (related (cc_sense k) (lin_value (cc_lhs k) q) (cc_rhs k) <-> holds c x)).
      { intros n c k Hc E1 E2 E3. pose proof (cqm_reading t H1 _ _ (fun v w => constraint_occurs n c v w Hc) E3) as EV.
        unfold related, holds, eval. rewrite E1, E2. destruct (c_sense c); rewrite EV; split; intros; lra. }
      rewrite EN. split.
      - intros H n c Hc. destruct (forall2_in _ _ _ _ F Hc) as ([n' k] & Hk & _ & _ & E1 & E2 & E3). cbn [fst snd] in *.
        apply (ONE n c k Hc E1 E2 E3). exact (H _ _ Hk).
      - intros H n k Hk. apply in_split in Hk as (l1 & l2 & ->). apply Forall2_app_inv_r in F as (m1 & m2 & _ & F2 & E).
        inversion F2 as [|[n' c] ? m3 ? (_ & _ & E1 & E2 & E3) _]; subst. cbn [fst snd] in *.
        assert (Hc : In (n', c) (p_constraints p)) by (rewrite E; apply in_app_iff; right; left; reflexivity).
        apply (ONE n' c k Hc E1 E2 E3). exact (H _ _ Hc). }
    unfold cqm_feasible, feasible. rewrite HCS. unfold in_range in HV. tauto.
  Qed.

  Theorem cqm_same_objective : lin_value (q_objective cq) q == obj_value p x.
  Proof.
    destruct cqm_split as (t & H1 & _ & [(HO & ->)|(o & HO & ->)]).
    - rewrite lin_value_const. unfold has_objective in HO. rewrite orb_false_iff, !negb_false_iff in HO.
      destruct HO as [H2 H3]. apply Qeq_bool_iff in H2. unfold obj_value, eval.
      destruct (a_terms (p_objective p)); [|discriminate]. unfold eval_terms, qsum. cbn. lra.
    - rewrite lin_value_add, lin_value_const. unfold obj_value, eval.
      rewrite (cqm_reading t H1 (a_terms (p_objective p)) o); [lra| |exact HO].
      intros v k Hv. left. apply in_map_iff. exists (v, k). auto.
  Qed.
End Cqm.

(** ** Rejection and acceptance *)

Lemma cqm_continuous p v : In v (variables p) -> v_cat v = Continuous -> exists e, convert_to_cqm p = Err e.
Proof.
  intros Hv C. destruct (convert_to_cqm p) as [cq|e] eqn:E; [|eauto]. exfalso.
  destruct (cqm_split p cq E) as (t & H1 & _). destruct (cqm_vars _ _ _ _ _ (variables_nodup p) H1) as (A1 & _).
  destruct (A1 v Hv) as (ty & ty' & off & [(B & _)|(_ & C' & _)] & _).
  - apply is_binary_bounds in B as (_ & _ & _ & _ & _ & _ & C'). congruence.
  - congruence.
Qed.

Lemma type_ext v w t off : v_lo v = v_lo w -> v_up v = v_up w -> v_cat v = v_cat w -> type_of v t off -> type_of w t off.
Proof. unfold type_of, is_binary. intros -> -> ->. auto. Qed.

Lemma type_total v lb ub : v_cat v = Integer -> v_lo v = Some lb -> v_up v = Some ub -> exists t off, type_of v t off.
Proof.
  intros C Hl Hu. destruct (is_binary v) eqn:B.
  - exists CBinary, 0. left. auto.
  - exists (CInteger (ub - lb)), lb. right. split; [exact B|]. split; [exact C|]. exists lb, ub. auto.
Qed.

Lemma type_fun v t off t' off' : type_of v t off -> type_of v t' off' -> t = t'.
Proof.
  intros [(B & -> & ->)|(B & C & lb & ub & Hl & Hu & -> & ->)] [(B' & -> & ->)|(B' & C' & lb' & ub' & Hl' & Hu' & -> & ->)];
    congruence.
Qed.

Lemma cqm_var_total t0 d0 v ty off : type_of v ty off ->
  (forall u, dget (v_name v) d0 = Some u -> same u ty) -> exists t d, cqm_var (t0, d0) v = Ok (t, d) /\
  declare (v_name v) ty d0 = Ok d.
Proof.
  intros HT HS. assert (HD : exists d, declare (v_name v) ty d0 = Ok d).
  { unfold declare. destruct (dget (v_name v) d0) as [u|] eqn:E; [|eauto].
    replace (same_type u ty) with true by (symmetry; apply (HS u); reflexivity). eauto. }
  destruct HD as [d HD]. unfold cqm_var. destruct HT as [(B & -> & ->)|(B & C & lb & ub & Hl & Hu & -> & ->)].
  - rewrite B, HD. cbn [bind]. eauto.
  - rewrite B, C, Hl, Hu, HD. cbn [bind]. eauto.
Qed.

Lemma translate_ok t l : (forall v k, In (v, k) l -> exists a, dget (v_id v) t = Some a) -> exists e, translate t l = Ok e.
Proof.
  intros H. unfold translate. generalize (lin_const 0). induction l as [|[v k] l IH]; intros acc; cbn [foldM]; [eauto|].
  destruct (H v k (or_introl eq_refl)) as [a Ha]. cbn [fst snd]. unfold dlookup at 1. rewrite Ha. cbn [bind]. apply IH.
  intros; eapply H; right; eassumption.
Qed.

(** Accepted: bounded integers of consistent names, and a variable in each constraint *)
Theorem cqm_accepts p :
  consistent p ->
  (forall v, In v (variables p) -> v_cat v = Integer /\ exists lb ub, v_lo v = Some lb /\ v_up v = Some ub) ->
  ((exists cq, convert_to_cqm p = Ok cq) <->
   (forall n c, In (n, c) (p_constraints p) -> a_terms (c_aff c) <> []) /\
   (a_terms (p_objective p) = [] -> a_const (p_objective p) == 0)).
Proof.
  intros HC HV. split.
  - intros (cq & H). split.
    + destruct (cqm_split p cq H) as (t & _ & H2 & _). destruct (cqm_constraints _ _ _ _ H2) as (new & _ & F).
      intros n c Hc. destruct (forall2_in _ _ _ _ F Hc) as ([n' k] & _ & _ & NE & _). exact NE.
    + intros E. unfold convert_to_cqm in H. inv_bind H. destruct a as [t d]. inv_bind H. unfold has_objective in H.
      rewrite E in H. destruct (Qeq_bool (a_const (p_objective p)) 0) eqn:Z; [apply Qeq_bool_iff; exact Z|discriminate].
  - intros [HT HO]. unfold convert_to_cqm.
    assert (G : forall vs, incl vs (variables p) -> forall t0 d0,
      (forall k u, In (k, u) d0 -> exists v off, In v (variables p) /\ v_name v = k /\ type_of v u off) ->
      exists t d, foldM cqm_var vs (t0, d0) = Ok (t, d)).
    { induction vs as [|v vs IH]; intros HI t0 d0 HD; cbn [foldM]; [eauto|].
      assert (Hv : In v (variables p)) by (apply HI; left; reflexivity).
      destruct (HV v Hv) as (C & lb & ub & Hl & Hu). destruct (type_total v lb ub C Hl Hu) as (ty & off & T).
      destruct (cqm_var_total t0 d0 v ty off T) as (t & d & E & DE).
      - intros u Hu'. apply dget_in in Hu'. destruct (HD _ _ Hu') as (w & o & Hw & EN & TW).
        destruct (HC w v (variables_occurs p w Hw) (variables_occurs p v Hv) EN) as (E1 & E2 & E3).
        apply (type_ext w v _ _ E1 E2 E3) in TW. rewrite (type_fun _ _ _ _ _ TW T). apply same_refl.
      - match goal with |- context [cqm_var ?a v] => replace (cqm_var a v) with (Ok (t, d)) by (symmetry; exact E) end.
        cbn [bind]. apply IH; [intros w Hw; apply HI; right; exact Hw|].
        intros k u Hk. destruct (declare_ok _ _ _ _ DE) as (_ & D2 & _).
        apply D2 in Hk as [Hk|(_ & -> & ->)]; [auto|exists v, off; auto]. }
    destruct (G (variables p) (incl_refl _) [] []) as (t & d & E1); [intros k u []|].
    match goal with |- context [foldM cqm_var ?a ?b] => replace (foldM cqm_var a b) with (Ok (t, d)) by (symmetry; exact E1) end.
    cbn [bind].
    destruct (cqm_vars _ _ _ _ _ (variables_nodup p) E1) as (A1 & _).
    assert (TR : forall l, (forall v k, In (v, k) l -> occurs p v) -> exists e, translate t l = Ok e).
    { intros l Hl. apply translate_ok. intros v k Hv. destruct (occurs_variables p v (Hl v k Hv)) as (w & Hw & <-).
      destruct (A1 w Hw) as (ty & ty' & off & _ & Gt & _). eauto. }
    assert (E2 : exists cs, foldM (cqm_constraint t) (p_constraints p) [] = Ok cs).
    { assert (K : forall l, incl l (p_constraints p) -> forall acc, exists cs, foldM (cqm_constraint t) l acc = Ok cs).
      { induction l as [|[n c] l IH]; intros HI acc; cbn [foldM]; [eauto|].
        assert (Hc : In (n, c) (p_constraints p)) by (apply HI; left; reflexivity).
        destruct (TR (a_terms (c_aff c))) as [e He]; [intros v k; eapply constraint_occurs; eassumption|].
        cbn [cqm_constraint]. rewrite He. cbn [bind]. specialize (HT n c Hc).
        destruct (a_terms (c_aff c)); [congruence|]. cbn [bind]. apply IH. intros w Hw. apply HI. right. exact Hw. }
      apply K, incl_refl. }
    destruct E2 as [cs ->]. cbn [bind]. unfold has_objective.
    destruct (TR (a_terms (p_objective p))) as [o Ho].
    { intros v k Hv. left. apply in_map_iff. exists (v, k). auto. }
    destruct (a_terms (p_objective p)) eqn:EO.
    + replace (Qeq_bool (a_const (p_objective p)) 0) with true by (symmetry; apply Qeq_bool_iff; auto). cbn. eauto.
    + rewrite orb_true_r. rewrite Ho. cbn [bind]. eauto.
Qed.
