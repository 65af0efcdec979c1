(** * PropsPlan: every conflict-free plan is admitted (C09) *)

From Coq Require Import List String ZArith QArith Bool Lia Lqa.
From Verif Require Import Base Pulp Helpers LinearSolver BaseFacts Spec SpecPlan SpecFacts OrderVars
  DelayVars Complete Check Examples RefutePlan.
Import ListNotations.
Open Scope string_scope.
Open Scope list_scope.

(** C09: every conflict-free plan (SpecPlan.v) whose departures lie at most d_max after the earliest
    possible ones is a feasible point of the problem, with exactly its delays as values of the delay
    variables.  Partial: the solver asks one thing more than the rules of the railway
    ([starting_train_ordered_before]); C09_starting_train_refuted shows that without it the claim fails. *)
Theorem C09_complete_partial : forall ts tt d_max cat p pl,
  reserved_free ts -> none_free tt -> distinct_pairs ts -> 0 <= d_max ->
  create_linear_problem ts tt d_max cat = Ok p ->
  conflict_free_plan ts tt d_max cat pl -> starting_train_ordered_before ts pl ->
  exists x, feasible p x /\
    forall j s e, decided ts j s -> earliest ts tt j s e ->
      x ("Delays", [j; s]) == leave pl j s - e.
Proof. exact plan_feasible. Qed.
Print Assumptions C09_complete_partial.

(** The plan test_linear_solver.py:466-481 expects for station_track_and_circ.py: train 2 overtakes
    the delayed train 0, whose rolling stock then leaves as train 1. *)
Definition circ_plan : plan := MkPlan
  (fun j s => if eqb j (I 0) then 4
              else if eqb j (I 1) then (if eqb s B then 18 else 23)
              else (if eqb s A then 2 else 7))
  (fun s j k => pv_before k j) (fun s j k => pv_before k j) (fun s j sp k => pv_before k j).

Lemma circ_before j sp s : comes_before circ_ts j sp s ->
  (j, sp, s) = (I 0, A, B) \/ (j, sp, s) = (I 1, B, A) \/ (j, sp, s) = (I 2, A, B).
Proof.
  intros (path & l1 & l2 & H & -> & _). apply dget_in in H. cbn in H.
  destruct H as [H|[H|[H|[]]]]; injection H; clear H; intros E <-;
    destruct l1 as [|a [|b [|c l1]]]; cbn in E; inversion E; subst; auto.
Qed.

Lemma circ_continues s j jn : continues_as circ_ts s j jn -> (s, j, jn) = (B, I 0, I 1).
Proof.
  intros (l1 & l2 & H & _). apply dget_in in H. cbn in H. destruct H as [H|[]].
  injection H; clear H; intros E <-. destruct l1 as [|a [|b l1]]; cbn in E; inversion E; subst; auto.
Qed.

Lemma circ_taken s jr j : taken_from circ_ts s jr j -> (s, jr, j) = (B, I 0, I 1).
Proof.
  intros (l1 & l2 & H & _). apply dget_in in H. cbn in H. destruct H as [H|[]].
  injection H; clear H; intros E <-. destruct l1 as [|a [|b l1]]; cbn in E; inversion E; subst; auto.
Qed.

Lemma circ_taken_1 : taken_from circ_ts B (I 0) (I 1).
Proof. exists [], []. split; [reflexivity|intros []]. Qed.

Lemma circ_rolling : same_rolling_stock circ_ts (I 0) (I 1).
Proof. split; [discriminate|]. exists B, [(I 0, I 1)]. cbn. auto. Qed.

Lemma circ_plan_ok : conflict_free_plan circ_ts circ_tt 20 Integer circ_plan.
Proof.
  assert (FL : forall j k, j <> k -> pv_before j k = negb (pv_before k j)).
  { intros j k H. apply pv_before_flip. auto. }
  split.
  - split; [|split]; intros; apply FL; auto.
  - intros j s e (_ & (path & Hp & Hs) & _ & Hn) He.
    apply earliest_dep_time_complete in He as (e' & Ee & EE).
    apply dget_in in Hp. cbn in Hp. in_cases; vm_compute in Ee; inversion Ee; subst e';
      try (exfalso; apply Hn; exists (I 1); exists [], []; split; [reflexivity|intros []]);
      (split; [rewrite EE; split; discriminate|]); intros _;
      [exists 3%Z|exists 16%Z|exists 16%Z|exists 0%Z|exists 0%Z]; rewrite EE; reflexivity.
  - intros j sp s r st _ Hb HD Hr Hst. apply circ_before in Hb as [E|[E|E]]; inversion E; subst.
    + exfalso. destruct HD as (_ & _ & _ & Hn). apply Hn. exists (I 1), [], []. split; [reflexivity|intros []].
    + vm_compute in Hr, Hst. inversion Hr; inversion Hst; subst. discriminate.
    + vm_compute in Hr, Hst. inversion Hr; inversion Hst; subst. discriminate.
  - intros s inner sp groups js j k h H1 H2 H3 H4 Hf Hh.
    rewrite !listed_combinations in H4. in_cases; try discriminate Hf;
    vm_compute in Hh; inversion Hh; subst; discriminate.
  - intros s sp l j k [].
  - intros s l j jn t r H1 H2 (sp & q & Hb & Hq & E) Hr. in_cases.
    apply circ_before in Hb as [F|[F|F]]; inversion F; subst.
    vm_compute in Hq, Hr. inversion Hq; inversion Hr; subst. rewrite E. discriminate.
  - intros s j k a g HS Hns _ Hc Hf Ha Hg. apply shares_cases in HS as (groups & js & H1 & H2 & H3).
    assert (Eg : g == 0).
    { destruct Hg as [(l & E & _)|[_ E]]; [discriminate|exact E]. }
    destruct Ha as [(jr & HT & sp & r & Hb & Hr & E)|[(HT & sp & r & Hb & Hr & E)|(HT & (l & E) & He)]].
    + apply circ_taken in HT. inversion HT; subst. clear HT.
      apply circ_before in Hb as [F|[F|F]]; inversion F; subst.
      vm_compute in Hr; inversion Hr; subst.
      in_cases; try discriminate Hf; rewrite Eg, E; discriminate.
    + apply circ_before in Hb as [F|[F|F]]; inversion F; subst; in_cases; try discriminate Hf;
      try (exfalso; apply Hns; apply circ_rolling);
      try (exfalso; apply Hns; destruct circ_rolling as (N & t & l & Hl & Hin); split; [auto|];
           exists t, l; tauto);
      vm_compute in Hr; inversion Hr; subst; rewrite Eg, E; discriminate.
    + exfalso. in_cases; try discriminate E; try discriminate Hf; apply (HT (I 0)), circ_taken_1.
  - intros s j jn k HS Hns _ Hc. apply circ_continues in Hc. inversion Hc; subst.
    apply shares_cases in HS as (groups & js & H1 & H2 & H3).
    in_cases; try reflexivity; exfalso; apply Hns; apply circ_rolling.
  - intros sp s j k _ _ H1 H2 _. reflexivity.
  - intros s j k _ _ (l & pair & H & _). discriminate.
  - intros s l pair j k t u r [].
Qed.

Lemma circ_distinct : distinct_pairs circ_ts.
Proof.
  split; [|split; [|split]].
  - intros s inner sp groups js H1 H2 H3. in_cases; repeat constructor; cbn; intuition discriminate.
  - intros k l j jp [].
  - intros s groups js H1 H2. in_cases; repeat constructor; cbn; intuition discriminate.
  - intros s l pair [].
Qed.

Example C09_case : exists x, feasible circ_p x /\
  x ("Delays", [I 0; A]) == 3 /\ x ("Delays", [I 1; B]) == 16 /\ x ("Delays", [I 2; B]) == 0.
Proof.
  destruct (C09_complete_partial circ_ts circ_tt 20 Integer circ_p circ_plan circ_reserved circ_none
              circ_distinct ltac:(discriminate) circ_built circ_plan_ok) as (x & Hx & Hv).
  - intros sp s j k _ _ _ _ _. reflexivity.
  - exists x. split; [exact Hx|].
    assert (ND : forall j s, ~ skipped circ_ts j s) by (intros j s (sk & E & _); discriminate).
    assert (G : forall j s e q, has_delay circ_ts j s -> earliest_dep_time (ts_Paths circ_ts) circ_tt j s = Ok e ->
              Qeq_bool q (leave circ_plan j s - e) = true -> x ("Delays", [j; s]) == q).
    { intros j s e q HD He Hq. apply Qeq_bool_iff in Hq. rewrite Hq. apply Hv.
      - apply has_delay_decided; [apply circ_reserved|exact HD].
      - eapply earliest_dep_time_sound; eauto using circ_reserved, circ_none. }
    split; [|split].
    + eapply G; [|vm_compute; reflexivity|reflexivity]. split; [vm_compute; tauto|].
      exists [A; B]. repeat split; vm_compute; tauto.
    + eapply G; [|vm_compute; reflexivity|reflexivity]. split; [vm_compute; tauto|].
      exists [B; A]. repeat split; vm_compute; tauto.
    + eapply G; [|vm_compute; reflexivity|reflexivity]. split; [vm_compute; tauto|].
      exists [A; B]. repeat split; vm_compute; tauto.
Qed.
