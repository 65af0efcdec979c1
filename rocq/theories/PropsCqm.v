(** * PropsCqm: every problem with integer variables becomes a constrained quadratic model (C28) *)

From Coq Require Import List String ZArith QArith Bool Lia.
From Verif Require Import Base BaseFacts Pulp Helpers LinearSolver Converters Spec TreeFacts OrderVars Emit DelayVars Shapes Origin
  CqmFacts PropsResults.
Import ListNotations.
Open Scope string_scope.
Open Scope list_scope.

Lemma addterm_some v q l : addterm v q l <> [].
Proof. destruct l as [|[w r] t]; cbn [addterm]; [discriminate|]. match goal with |- context [if ?c then _ else _] => destruct c end; discriminate. Qed.

Lemma add_terms_left l m : l <> [] -> add_terms l m <> [].
Proof. unfold add_terms. revert l. induction m as [|x m IH]; intros l H; cbn [fold_left]; [exact H|]. apply IH, addterm_some. Qed.

Lemma add_terms_right l m : m <> [] -> add_terms l m <> [].
Proof. destruct m as [|x m]; [congruence|]. intros _. unfold add_terms. cbn [fold_left]. apply (add_terms_left _ m), addterm_some. Qed.

Lemma add_left a b : a_terms a <> [] -> a_terms (aff_add a b) <> [].
Proof. apply add_terms_left. Qed.
Lemma add_right a b : a_terms b <> [] -> a_terms (aff_add a b) <> [].
Proof. apply add_terms_right. Qed.
Lemma sub_left a b : a_terms a <> [] -> a_terms (aff_sub a b) <> [].
Proof. apply add_left. Qed.
Lemma sub_right a b : a_terms b <> [] -> a_terms (aff_sub a b) <> [].
Proof. intros H. apply add_right. cbn. destruct (a_terms b); [congruence|discriminate]. Qed.
Lemma plus_some q v : a_terms (plus_var q v) <> [].
Proof. apply add_right. discriminate. Qed.
Lemma var_some v : a_terms (aff_var v) <> [].
Proof. discriminate. Qed.
Lemma minus_some v : a_terms (one_minus v) <> [].
Proof. apply sub_right. discriminate. Qed.

Lemma y3_some y j jp s a : get_y3 y j jp s = Ok a -> a_terms a <> [].
Proof.
  unfold get_y3. destruct (check_order_var_3arg y j jp s); intros H; inv_bind H; inversion H; subst; [apply var_some|apply minus_some].
Qed.
Lemma y4_in_some y i j jp s a : get_y4_in y i j jp s = Ok a -> a_terms a <> [].
Proof.
  unfold get_y4_in. destruct (check_order_var_4arg y i j jp s); intros H; inv_bind H; inversion H; subst; [apply var_some|apply minus_some].
Qed.

Section Terms.
  Variables (tt : timetable) (dv y : tree) (ts : train_sets) (d_max : Q).

  Lemma emitted_terms e n c : origin tt dv y ts d_max e -> e = Ok (Some (n, c)) -> a_terms (c_aff c) <> [].
  Proof.
    intros O E. destruct O as [s sp j jp _|s sp j jp _|j s path _ _ _|s sp j jp _|s sp j jp _|s j jp _ _|s j jp _ _|s j jp _ _|s j jp _
      |s pair jp jpp sp spp _ _ _|s pair jp jpp sp spp _ _ _].
    1,2: apply ms_shape in E as (L & R & h & _ & _ & _ & [[X _]|(v1 & v2 & yv & _ & _ & _ & _ & X)]); [discriminate X|];
      inversion X; subst; unfold mk_ge, mk_eq; cbn [c_aff]; apply sub_left, plus_some.
    - apply stay_shape in E as (path' & sp & _ & _ & [[X _]|(_ & dj & _ & [[X _]|(_ & v & vp & L & R & tp & st & _ & _ & _ & _ & _ & _ & X)])]);
        [discriminate X|discriminate X|]. inversion X; subst; unfold mk_ge, mk_eq; cbn [c_aff]; apply sub_left, plus_some.
    - apply sl_shape in E as (L & R & h & _ & _ & _ & [[X _]|(v1 & v2 & yv & _ & _ & _ & _ & X)]); [discriminate X|];
      inversion X; subst; unfold mk_ge, mk_eq; cbn [c_aff]; apply sub_left, plus_some.
    - apply sl_shape in E as (L & R & h & _ & _ & _ & [[X _]|(v1 & v2 & yv & _ & _ & _ & _ & X)]); [discriminate X|];
      inversion X; subst; unfold mk_ge, mk_eq; cbn [c_aff]; apply sub_left, plus_some.
    - apply kto_shape in E as (path & sp & _ & _ & [X|(c' & inner & groups & X & K & _)]); [discriminate X|]. inversion X; subst.
      destruct K; unfold mk_ge, mk_eq; cbn [c_aff]; apply sub_left; [apply var_some|eapply y4_in_some; eassumption].
    - apply tos_shape in E as [(_ & y1 & y2 & Y1 & _ & X)|(_ & L & src & R0 & R & _ & _ & _ & [[X _]|(La & yv & v & _ & _ & _ & _ & X)])].
      + inversion X; subst; unfold mk_ge, mk_eq; cbn [c_aff]; apply sub_left. eapply y3_some; eassumption.
      + discriminate X.
      + inversion X; subst; unfold mk_ge, mk_eq; cbn [c_aff]; apply sub_left, sub_right, var_some.
    - apply tos_shape in E as [(_ & y1 & y2 & Y1 & _ & X)|(_ & L & src & R0 & R & _ & _ & _ & [[X _]|(La & yv & v & _ & _ & _ & _ & X)])].
      + inversion X; subst; unfold mk_ge, mk_eq; cbn [c_aff]; apply sub_left. eapply y3_some; eassumption.
      + discriminate X.
      + inversion X; subst; unfold mk_ge, mk_eq; cbn [c_aff]; apply sub_left, sub_right, var_some.
    - apply circ_shape in E as (path & sp & L0 & R & tp & pr & _ & _ & _ & _ & _ & _ & [[X _]|(v1 & v2 & _ & _ & _ & X)]); [discriminate X|].
      inversion X; subst; unfold mk_ge, mk_eq; cbn [c_aff]; apply sub_left, plus_some.
    - apply sw_shape in E as (L & R & r & _ & _ & _ & [[X _]|(Rr & yv & v1 & v2 & _ & _ & _ & _ & _ & X)]); [discriminate X|].
      inversion X; subst; unfold mk_ge, mk_eq; cbn [c_aff]; apply sub_left, plus_some.
    - apply sw_shape in E as (L & R & r & _ & _ & _ & [[X _]|(Rr & yv & v1 & v2 & _ & _ & _ & _ & _ & X)]); [discriminate X|].
      inversion X; subst; unfold mk_ge, mk_eq; cbn [c_aff]; apply sub_left, plus_some.
  Qed.

  Lemma objective_terms a : obj_aff tt dv ts d_max = Ok a -> a_terms a = [] -> a_const a == 0.
  Proof.
    intros H. assert (G : a = aff_const 0 \/ a_terms a <> []); [|destruct G as [->|G]; [reflexivity|congruence]].
    unfold obj_aff in H. revert H.
    assert (K : forall l acc b, acc = aff_const 0 \/ a_terms acc <> [] ->
      foldM (fun acc i => do path <- dlookup i (ts_Paths ts); foldM (fun acc j => obj_add tt dv d_max acc i j) path acc) l acc = Ok b ->
      b = aff_const 0 \/ a_terms b <> []); [|apply K; auto].
    assert (K0 : forall i path acc b, acc = aff_const 0 \/ a_terms acc <> [] ->
      foldM (fun acc j => obj_add tt dv d_max acc i j) path acc = Ok b -> b = aff_const 0 \/ a_terms b <> []).
    { intros i path. induction path as [|j path IH]; intros acc b HA H; cbn [foldM] in H; [inversion H; subst; exact HA|].
      inv_bind H. apply (IH _ _) in H; [exact H|]. unfold obj_add in E. destruct (Qeq_bool _ 0); [inversion E; subst; exact HA|].
      inv_bind E. inv_bind E. inversion E; subst. right. apply add_right. unfold objective_term in E1.
      destruct (Qeq_bool d_max 0); [discriminate|]. inversion E1; subst. discriminate. }
    induction l as [|i l IH]; intros acc b HA H; cbn [foldM] in H; [inversion H; subst; exact HA|].
    inv_bind H. apply (IH _ _) in H; [exact H|]. inv_bind E. eapply K0; eassumption.
  Qed.
End Terms.

(** Each constraint that is created mentions a variable, so a problem with integer variables is always accepted. *)
Theorem C28_total : forall ts tt d_max p,
  reserved_free ts -> create_linear_problem ts tt d_max Integer = Ok p -> exists cq, convert_to_cqm p = Ok cq.
Proof.
  intros ts tab d p RF Cr. apply (proj1 (C28_created ts tab d Integer p RF Cr)); [reflexivity|].
  destruct (create_inv _ _ _ _ _ Cr) as (dv & y & _ & _ & PC & _ & NE & OB). split.
  - intros n c H. rewrite PC in H. apply somes_emitted in H as (n' & H & _).
    destruct (emission_origin _ _ _ _ _ _ H) as [(x & X)|O]; [discriminate X|]. eapply emitted_terms; [exact O|reflexivity].
  - apply (objective_terms _ _ _ _ _ OB).
Qed.
Print Assumptions C28_total.
