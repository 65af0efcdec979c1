(** * Optimum: certificates that no feasible assignment has a smaller objective

    Not part of the code: PuLP hands problems to a solver.  To show on examples what the smallest objective
    of a problem of the model is, a tree of case distinctions on 0-1 variables is checked.  At a leaf either
    a combination of the constraints and bounds with non-negative factors shows that there is no feasible
    assignment, or one shows that the objective is at least the bound. *)

From Coq Require Import List String ZArith QArith Bool Lqa Lia.
From Verif Require Import Base Pulp BaseFacts Check SpecQubo.
Import ListNotations.
Open Scope list_scope.

Inductive certificate : Type :=
| Bound (ms : list (nat * Q))
| Empty (ms : list (nat * Q))
| Split (v : vid) (at0 at1 : certificate).

(** Expressions that are at least 0 for feasible assignments *)
Definition sides (c : constr) : list aff :=
  match c_sense c with
  | GE => [c_aff c]
  | LE => [aff_scale (-1) (c_aff c)]
  | EQ => [c_aff c; aff_scale (-1) (c_aff c)]
  end.
Definition bounds (v : lpvar) : list aff :=
  (match v_lo v with Some lo => [aff_sub (aff_var v) (aff_const lo)] | None => [] end) ++
  (match v_up v with Some up => [aff_sub (aff_const up) (aff_var v)] | None => [] end).
Definition facts (p : lpproblem) : list aff :=
  flat_map (fun nc => sides (snd nc)) (p_constraints p) ++ flat_map bounds (variables p).

Fixpoint combine_facts (fs : list aff) (ms : list (nat * Q)) (acc : aff) : option aff :=
  match ms with
  | [] => Some acc
  | (n, m) :: r =>
      if Qle_bool 0 m then
        match nth_error fs n with Some f => combine_facts fs r (aff_add acc (aff_scale m f)) | None => None end
      else None
  end.

(** The value of an expression in which only variables of known value are left *)
Fixpoint known_terms (known : list (vid * Q)) (l : list (lpvar * Q)) : option Q :=
  match l with
  | [] => Some 0
  | (v, c) :: r =>
      match known_terms known r with
      | None => None
      | Some q =>
          if Qeq_bool c 0 then Some q
          else match dget (v_id v) known with Some k => Some (Qred (c * k + q)) | None => None end
      end
  end.
Definition known_value (known : list (vid * Q)) (a : aff) : option Q :=
  match known_terms known (a_terms a) with Some q => Some (Qred (q + a_const a)) | None => None end.

Definition binary (p : lpproblem) (v : vid) : bool :=
  existsb (fun w => eqb (v_id w) v && match v_lo w, v_up w, v_cat w with
                                      | Some lo, Some up, Integer => Qle_bool 0 lo && Qle_bool up 1
                                      | _, _, _ => false
                                      end) (variables p).

Fixpoint certified (p : lpproblem) (fs : list aff) (bound : Q) (c : certificate) (known : list (vid * Q)) : bool :=
  match c with
  | Bound ms =>
      match combine_facts fs ms (aff_const 0) with
      | None => false
      | Some a => match known_value known (aff_sub (p_objective p) a) with
                  | Some q => Qle_bool bound q
                  | None => false
                  end
      end
  | Empty ms =>
      match combine_facts fs ms (aff_const 0) with
      | None => false
      | Some a => match known_value known a with Some q => negb (Qle_bool 0 q) | None => false end
      end
  | Split v c0 c1 =>
      if binary p v
      then if certified p fs bound c0 ((v, 0) :: known) then certified p fs bound c1 ((v, 1) :: known) else false
      else false
  end.

Definition least_objective (p : lpproblem) (bound : Q) (c : certificate) : bool := certified p (facts p) bound c [].

Section Sound.
  Variables (p : lpproblem) (x : assignment).
  Hypothesis F : feasible p x.

  Lemma facts_hold f : In f (facts p) -> 0 <= eval f x.
  Proof.
    destruct F as [F1 F2]. unfold facts. rewrite in_app_iff, !in_flat_map.
    intros [[[n c] [H1 H2]]|[v [H1 H2]]].
    - specialize (F1 n c H1). cbn [snd] in H2. unfold sides in H2. unfold holds in F1.
      destruct (c_sense c); cbn [In] in H2.
      + destruct H2 as [<-|[]]. rewrite eval_scale. lra.
      + destruct H2 as [<-|[<-|[]]]; [|rewrite eval_scale]; lra.
      + destruct H2 as [<-|[]]. exact F1.
    - destruct (F2 v H1) as (L & U & _). unfold bounds in H2. apply in_app_iff in H2 as [H2|H2].
      + destruct (v_lo v) as [lo|]; [|destruct H2]. destruct H2 as [<-|[]].
        rewrite eval_sub, eval_var, eval_const. specialize (L lo eq_refl). lra.
      + destruct (v_up v) as [up|]; [|destruct H2]. destruct H2 as [<-|[]].
        rewrite eval_sub, eval_var, eval_const. specialize (U up eq_refl). lra.
  Qed.

  Lemma combine_facts_ok ms : forall acc a,
    combine_facts (facts p) ms acc = Some a -> eval acc x <= eval a x.
  Proof.
    induction ms as [|[n m] r IH]; intros acc a H; cbn [combine_facts] in H.
    - injection H as <-. lra.
    - destruct (Qle_bool 0 m) eqn:M; [|discriminate]. apply Qle_bool_iff in M.
      destruct (nth_error (facts p) n) as [f|] eqn:E; [|discriminate].
      apply IH in H. apply nth_error_In in E. apply facts_hold in E.
      rewrite eval_add, eval_scale in H. assert (0 <= m * eval f x) by (apply Qmult_le_0_compat; assumption). lra.
  Qed.

  Definition agrees (known : list (vid * Q)) : Prop := forall v q, dget v known = Some q -> x v == q.

  Lemma known_terms_ok known l q : agrees known -> known_terms known l = Some q -> eval_terms l x == q.
  Proof.
    intros K. revert q. induction l as [|[v c] r IH]; intros q H; cbn [known_terms] in H.
    - injection H as <-. reflexivity.
    - rewrite eval_terms_cons. destruct (known_terms known r) as [q'|]; [|discriminate].
      specialize (IH q' eq_refl). destruct (Qeq_bool c 0) eqn:C.
      + apply Qeq_bool_iff in C. assert (q' = q) as <- by congruence. rewrite IH, C. ring.
      + destruct (dget (v_id v) known) as [k|] eqn:D; [|discriminate].
        assert (q = Qred (c * k + q')) as -> by congruence. rewrite Qred_correct, IH, (K _ _ D). reflexivity.
  Qed.

  Lemma known_value_ok known a q : agrees known -> known_value known a = Some q -> eval a x == q.
  Proof.
    intros K H. unfold known_value in H. destruct (known_terms known (a_terms a)) as [q'|] eqn:E; [|discriminate].
    apply (known_terms_ok known) in E; [|exact K].
    assert (q = Qred (q' + a_const a)) as -> by congruence. unfold eval. rewrite E, Qred_correct. reflexivity.
  Qed.

  Lemma binary_ok v : binary p v = true -> x v == 0 \/ x v == 1.
  Proof.
    intros H. apply existsb_exists in H as (w & I & H). apply andb_true_iff in H as [E H].
    apply eqb_eq in E. subst v. destruct F as [_ F2]. destruct (F2 w I) as (L & U & Z).
    destruct (v_lo w) as [lo|]; [|discriminate]. destruct (v_up w) as [up|]; [|discriminate].
    destruct (v_cat w); [|discriminate]. apply andb_true_iff in H as [H1 H2].
    apply Qle_bool_iff in H1, H2. specialize (L lo eq_refl). specialize (U up eq_refl).
    destruct (Z eq_refl) as [z E]. rewrite E in L, U |- *.
    assert (A : inject_Z 0 <= inject_Z z) by (unfold inject_Z at 1; lra).
    assert (B : inject_Z z <= inject_Z 1) by (unfold inject_Z at 2; lra).
    rewrite <- Zle_Qle in A, B. assert (z = 0 \/ z = 1)%Z as [->| ->] by lia; [left|right]; reflexivity.
  Qed.

  Lemma certified_ok bound c : forall known,
    agrees known -> certified p (facts p) bound c known = true -> bound <= obj_value p x.
  Proof.
    induction c as [ms|ms|v c0 IH0 c1 IH1]; intros known K H; cbn [certified] in H.
    - destruct (combine_facts (facts p) ms (aff_const 0)) as [a|] eqn:E; [|discriminate].
      apply combine_facts_ok in E. rewrite eval_const in E.
      destruct (known_value known (aff_sub (p_objective p) a)) as [q|] eqn:V; [|discriminate].
      apply known_value_ok in V; [|exact K]. apply Qle_bool_iff in H. rewrite eval_sub in V.
      unfold obj_value. lra.
    - destruct (combine_facts (facts p) ms (aff_const 0)) as [a|] eqn:E; [|discriminate].
      apply combine_facts_ok in E. rewrite eval_const in E.
      destruct (known_value known a) as [q|] eqn:V; [|discriminate].
      apply known_value_ok in V; [|exact K]. apply negb_true_iff in H.
      assert (0 <= q) as G by lra. apply Qle_bool_iff in G. congruence.
    - destruct (binary p v) eqn:B; [|discriminate].
      destruct (certified p (facts p) bound c0 ((v, 0) :: known)) eqn:H0; [|discriminate].
      assert (C : forall k, x v == k -> agrees ((v, k) :: known)).
      { intros k E w q D. cbn [dget] in D. destruct (eq_dec w v) as [->|N].
        - assert (q = k) as -> by congruence. exact E.
        - exact (K w q D). }
      destruct (binary_ok v B) as [E|E].
      + exact (IH0 _ (C 0 E) H0).
      + exact (IH1 _ (C 1 E) H).
  Qed.
End Sound.

(** A certificate is right for every feasible assignment *)
Theorem least_objective_ok p bound c x :
  least_objective p bound c = true -> feasible p x -> bound <= obj_value p x.
Proof.
  intros H F. apply (certified_ok p x F bound c []); [|exact H]. intros v q D. discriminate D.
Qed.

(** ... so an assignment that reaches the bound is optimal *)
Theorem certified_optimal p c x :
  feasible p x -> least_objective p (obj_value p x) c = true -> optimal p x.
Proof. intros F H. split; [exact F|]. intros x' F'. exact (least_objective_ok p _ c x' H F'). Qed.
