(** * Check: deciding hypotheses on concrete inputs

    Boolean versions of the hypotheses of the theorems, used by Examples*.v to show that
    concrete inputs meet them.  Not part of the model. *)

From Coq Require Import List String ZArith QArith Bool Lia.
From Verif Require Import Base Pulp Helpers LinearSolver BaseFacts Spec.
Import ListNotations.
Open Scope string_scope.
Open Scope list_scope.

(** An assignment given by a finite table of names and values; everything else is 0. *)
Definition table (l : list (vid * Q)) : assignment :=
  fun v => match dget v l with Some q => q | None => 0 end.

Definition holdsb (c : constr) (x : assignment) : bool :=
  match c_sense c with
  | LE => Qle_bool (eval (c_aff c) x) 0
  | EQ => Qeq_bool (eval (c_aff c) x) 0
  | GE => Qle_bool 0 (eval (c_aff c) x)
  end.

Lemma holdsb_iff c x : holdsb c x = true <-> holds c x.
Proof.
  unfold holdsb, holds. destruct (c_sense c);
    [apply Qle_bool_iff|apply Qeq_bool_iff|apply Qle_bool_iff].
Qed.

Definition is_intb (q : Q) : bool := Z.eqb (Zpos (Qden (Qred q))) 1.

Lemma is_intb_ok q : is_intb q = true -> is_int q.
Proof.
  unfold is_intb. intros H. apply Z.eqb_eq in H. exists (Qnum (Qred q)).
  rewrite <- (Qred_correct q) at 1. destruct (Qred q) as [n d]. simpl in *.
  injection H as ->. reflexivity.
Qed.

Definition var_okb (v : lpvar) (x : Q) : bool :=
  (match v_lo v with Some lo => Qle_bool lo x | None => true end) &&
  (match v_up v with Some up => Qle_bool x up | None => true end) &&
  (match v_cat v with Integer => is_intb x | Continuous => true end).

Lemma var_okb_ok v x : var_okb v x = true -> var_ok v x.
Proof.
  unfold var_okb, var_ok. rewrite !andb_true_iff. intros [[H1 H2] H3]. repeat split.
  - intros lo E. rewrite E in H1. apply Qle_bool_iff; auto.
  - intros up E. rewrite E in H2. apply Qle_bool_iff; auto.
  - intros E. rewrite E in H3. apply is_intb_ok; auto.
Qed.

Definition feasibleb (p : lpproblem) (x : assignment) : bool :=
  forallb (fun nc => holdsb (snd nc) x) (p_constraints p) &&
  forallb (fun v => var_okb v (x (v_id v))) (variables p).

Lemma feasibleb_ok p x : feasibleb p x = true -> feasible p x.
Proof.
  unfold feasibleb. rewrite andb_true_iff, !forallb_forall. intros [H1 H2]. split.
  - intros n c H. apply holdsb_iff. exact (H1 (n, c) H).
  - intros v H. apply var_okb_ok. exact (H2 v H).
Qed.

Definition reserved_freeb (ts : train_sets) : bool :=
  forallb (fun j => negb (lmem j [PNone; PStr "in"; PStr "one_station"])) (mentioned_trains ts) &&
  forallb (fun s => negb (lmem s [PNone; PStr "one_station"])) (mentioned_stations ts).

Lemma reserved_freeb_ok ts : reserved_freeb ts = true -> reserved_free ts.
Proof.
  unfold reserved_freeb. rewrite andb_true_iff, !forallb_forall. intros [H1 H2]. split.
  - intros j Hj. specialize (H1 j Hj). apply negb_true_iff in H1.
    apply lmem_false in H1. simpl in H1. intuition.
  - intros s Hs. specialize (H2 s Hs). apply negb_true_iff in H2.
    apply lmem_false in H2. simpl in H2. intuition.
Qed.

Definition none_freeb (tt : timetable) : bool :=
  forallb (fun k => negb (str_contains "_None" k)) (dkeys (tt_init tt)).

Lemma none_freeb_ok tt : none_freeb tt = true -> none_free tt.
Proof.
  unfold none_freeb. rewrite forallb_forall. intros H j q Hq. unfold initially in Hq.
  apply dget_in in Hq. specialize (H (joined [j; PNone])).
  assert (Hin : In (joined [j; PNone]) (dkeys (tt_init tt))).
  { apply in_map_iff. exists (joined [j; PNone], q). auto. }
  specialize (H Hin). apply negb_true_iff in H.
  assert (E : str_contains "_None" (joined [j; PNone]) = true).
  { apply str_contains_iff. exists (str j), EmptyString. reflexivity. }
  congruence.
Qed.

Definition ok_or {A} (r : res A) (d : A) : A := match r with Ok a => a | Err _ => d end.
Lemma ok_or_ok {A} (r : res A) d : is_ok r = true -> r = Ok (ok_or r d).
Proof. destruct r; [reflexivity|discriminate]. Qed.

(** A total order on identifiers, to write down order decisions in examples. *)
Definition pv_before (a b : pv) : bool :=
  match a, b with
  | PNone, PNone => false
  | PNone, _ => true
  | PInt m, PInt n => Z.ltb m n
  | PInt _, PStr _ => true
  | PStr s, PStr t => match String.compare s t with Lt => true | _ => false end
  | _, _ => false
  end.

Lemma pv_before_flip a b : a <> b -> pv_before b a = negb (pv_before a b).
Proof.
  destruct a as [|m|s], b as [|n|t]; simpl; intros H; try reflexivity; try congruence.
  - destruct (Z.ltb_spec n m), (Z.ltb_spec m n); try reflexivity; try lia.
    exfalso. apply H. f_equal. lia.
  - rewrite String.compare_antisym. destruct (String.compare s t) eqn:E; try reflexivity.
    apply String.compare_eq_iff in E. congruence.
Qed.
