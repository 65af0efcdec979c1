(** * RefutePlan: a conflict-free plan that the ILP does not admit *)

From Coq Require Import List String ZArith QArith Bool Lia Lqa.
From Verif Require Import Base Pulp Helpers LinearSolver BaseFacts Spec SpecPlan SpecFacts OrderVars
  Complete Check Examples.
Import ListNotations.
Open Scope string_scope.
Open Scope list_scope.

(** Proving that a plan on literal data meets the rules: every hypothesis of a rule is reduced to
    membership in literal lists. *)
Ltac path_cases H :=
  let path := fresh "path" in let HP := fresh "HP" in let HV := fresh "HV" in
  apply comes_before_prev in H as (path & HP & HV & _);
  apply dget_in in HP; cbn in HP.
Ltac in_cases :=
  repeat match goal with
  | H : In _ _ |- _ => progress cbn in H
  | H : _ \/ _ |- _ => destruct H
  | H : False |- _ => destruct H
  | H : (_, _) = (_, _) |- _ => injection H; clear H; intros; subst
  | H : ?a = _ |- _ => is_var a; subst a
  | H : _ = ?a |- _ => is_var a; subst a
  end.

(** Two stations A and B with one track each; train 1 runs from A to B and train 2 from B to A on
    separate line tracks.  Each leaves on time long before the other arrives. *)
Definition swap_tt : timetable := MkTT
  [("1_A_B", 4); ("2_B_A", 4)] [] [("1_B", 1); ("2_A", 1)] [] (Some 1)
  [] [("1_A", 0); ("2_B", 0)] [("1_A", 1); ("2_B", 1)].
Definition swap_ts : train_sets := MkTS None
  [(I 1, [A; B]); (I 2, [B; A])] [I 1; I 2]
  [(A, [(B, [[I 1]])]); (B, [(A, [[I 2]])])]
  [] [] [(A, [[I 1; I 2]]); (B, [[I 1; I 2]])] [] None.
Definition swap_p : lpproblem := ok_or (create_linear_problem swap_ts swap_tt 20 Integer) empty_problem.

(** Both trains on time; the starting train is first on each track. *)
Definition swap_plan : plan := MkPlan
  (fun j s => if eqb j (I 1) then if eqb s A then 0 else 5 else if eqb s B then 0 else 5)
  (fun s j k => if eqb s A then pv_before j k else pv_before k j)
  (fun s j k => pv_before j k) (fun s j sp k => pv_before j k).

Lemma swap_reserved : reserved_free swap_ts.
Proof. apply reserved_freeb_ok. vm_compute. reflexivity. Qed.
Lemma swap_none : none_free swap_tt.
Proof. apply none_freeb_ok. vm_compute. reflexivity. Qed.
Lemma swap_built : create_linear_problem swap_ts swap_tt 20 Integer = Ok swap_p.
Proof. apply ok_or_ok. vm_compute. reflexivity. Qed.

Lemma shares_cases ts s j k : shares_track ts s j k ->
  exists groups js, In (s, groups) (ts_Jtrack ts) /\ In js groups /\
    (In (j, k) (combinations2 js) \/ In (k, j) (combinations2 js)).
Proof.
  intros (groups & js & H1 & H2 & H3). exists groups, js. rewrite <- !listed_combinations. auto.
Qed.

Lemma swap_before j sp s : comes_before swap_ts j sp s ->
  (j, sp, s) = (I 1, A, B) \/ (j, sp, s) = (I 2, B, A).
Proof.
  intros (path & l1 & l2 & H & -> & _). apply dget_in in H. cbn in H.
  destruct H as [H|[H|[]]]; injection H; clear H; intros E <-;
    destruct l1 as [|a [|b [|c l1]]]; cbn in E; inversion E; subst; auto.
Qed.

Lemma swap_plan_ok : conflict_free_plan swap_ts swap_tt 20 Integer swap_plan.
Proof.
  split.
  - split; [|split].
    + intros s j k Hne. cbn [goes_first swap_plan]. destruct (eqb s A); apply pv_before_flip; auto.
    + intros s j k Hne. apply pv_before_flip; auto.
    + intros s j sp k Hne. apply pv_before_flip; auto.
  - intros j s e (_ & (path & Hp & Hs) & _) He.
    apply earliest_dep_time_complete in He as (e' & Ee & EE).
    apply dget_in in Hp. cbn in Hp. in_cases; vm_compute in Ee; inversion Ee; subst e';
      (split; [rewrite EE; split; discriminate|]); intros _; exists 0%Z; rewrite EE; reflexivity.
  - intros j sp s r st _ Hb _ Hr Hst. apply swap_before in Hb as [E|E]; inversion E; subst.
    + vm_compute in Hr, Hst. inversion Hr; inversion Hst; subst. discriminate.
    + vm_compute in Hr, Hst. inversion Hr; inversion Hst; subst. discriminate.
  - intros s inner sp groups js j k h H1 H2 H3 H4. exfalso.
    rewrite !listed_combinations in H4. in_cases.
  - intros s sp l j k [].
  - intros s l j jn t r [].
  - intros s j k a g HS _ _ _ Hf Ha Hg. apply shares_cases in HS as (groups & js & H1 & H2 & H3).
    assert (Eg : g == 0).
    { destruct Hg as [(l & E & _)|[_ E]]; [discriminate|exact E]. }
    destruct Ha as [(jr & (l1 & l2 & E & _) & _)|[(_ & sp & r & Hb & Hr & E)|(_ & (l & E) & He)]].
    + discriminate.
    + apply swap_before in Hb as [F|F]; inversion F; subst; in_cases; try discriminate Hf;
        vm_compute in Hr; inversion Hr; subst; rewrite Eg, E; discriminate.
    + apply earliest_dep_time_complete in He as (e & Ee & EE). rewrite EE.
      in_cases; vm_compute in Hf; try discriminate Hf;
      vm_compute in E; inversion E.
  - intros s j jn k _ _ _ (l1 & l2 & E & _). discriminate.
  - intros sp s j k _ _ H1 H2. apply swap_before in H1 as [F|F]; apply swap_before in H2 as [G|G];
      inversion F; inversion G; subst; try discriminate; intros; reflexivity.
  - intros s j k _ _ (l & pair & H & _). discriminate.
  - intros s l pair j k t u r [].
Qed.

Lemma swap_distinct : distinct_pairs swap_ts.
Proof.
  split; [|split; [|split]].
  - intros s inner sp groups js H1 H2 H3. in_cases; repeat constructor; intros [].
  - intros k l j jp [].
  - intros s groups js H1 H2.
    in_cases; (constructor; [intros [H|[]]; discriminate|repeat constructor; intros []]).
  - intros s l pair [].
Qed.

(** The problem has no feasible point: train 1 must be first at A and second at B, but the
    constraint track_occupation_1_2_B_A makes both orders equal. *)
Lemma swap_infeasible x : ~ feasible swap_p x.
Proof.
  intros [HC HV].
  set (ya := x ("y", [I 1; I 2; one_station; A])).
  set (yb := x ("y", [I 1; I 2; one_station; B])).
  set (da := x ("Delays", [I 2; A])). set (db := x ("Delays", [I 1; B])).
  assert (V : forall v, In v (variables swap_p) -> var_ok v (x (v_id v))) by exact HV. clear HV.
  assert (Hda : 0 <= da).
  { refine (proj1 (V (delay_var_of (I 2) A 20 Integer) _) 0 eq_refl). vm_compute. tauto. }
  assert (Hdb : 0 <= db).
  { refine (proj1 (V (delay_var_of (I 1) B 20 Integer) _) 0 eq_refl). vm_compute. tauto. }
  assert (Hya : 0 <= ya <= 1 /\ is_int ya).
  { destruct (V (y_var [I 1; I 2; one_station; A])) as (L & U & Z); [vm_compute; tauto|].
    specialize (L 0 eq_refl). specialize (U 1 eq_refl). specialize (Z eq_refl). auto. }
  assert (H : forall k nc, nth_error (p_constraints swap_p) k = Some nc -> holds (snd nc) x).
  { intros k [n c] Hk. apply nth_error_In in Hk. exact (HC n c Hk). }
  let c := eval vm_compute in (nth_error (p_constraints swap_p) 2) in
    match c with Some ?nc => assert (H1 : holds (snd nc) x) by (apply (H 2%nat); vm_compute; reflexivity) end.
  let c := eval vm_compute in (nth_error (p_constraints swap_p) 4) in
    match c with Some ?nc => assert (H2 : holds (snd nc) x) by (apply (H 4%nat); vm_compute; reflexivity) end.
  let c := eval vm_compute in (nth_error (p_constraints swap_p) 6) in
    match c with Some ?nc => assert (H3 : holds (snd nc) x) by (apply (H 6%nat); vm_compute; reflexivity) end.
  clear H HC V. unfold holds, eval, eval_terms, qsum in H1, H2, H3.
  cbn [c_sense c_aff a_terms a_const map fold_right fst snd] in H1, H2, H3.
  unfold v_id in H1, H2, H3. cbn [v_prefix v_index] in H1, H2, H3.
  unfold I, A, B, one_station in ya, yb, da, db.
  fold ya da in H1. fold ya yb in H2. fold yb db in H3.
  destruct Hya as [Bya [z Hz]].
  assert (z = 1)%Z.
  { assert (0 < inject_Z z <= 1) by (rewrite <- Hz; split; lra).
    unfold inject_Z, Qlt, Qle in H. cbn in H. lia. }
  subst z. change (inject_Z 1) with 1 in Hz. lra.
Qed.

(** C09 as first stated is false: this input has a conflict-free plan without any delay,
    but the problem built for it has no feasible point at all. *)
Theorem C09_starting_train_refuted : exists ts tt d_max p pl,
  reserved_free ts /\ none_free tt /\ distinct_pairs ts /\ 0 <= d_max /\
  create_linear_problem ts tt d_max Integer = Ok p /\
  conflict_free_plan ts tt d_max Integer pl /\
  (forall j s e, decided ts j s -> earliest ts tt j s e -> leave pl j s == e) /\
  forall x, ~ feasible p x.
Proof.
  exists swap_ts, swap_tt, 20, swap_p, swap_plan.
  split; [apply swap_reserved|]. split; [apply swap_none|]. split; [apply swap_distinct|].
  split; [discriminate|]. split; [apply swap_built|]. split; [apply swap_plan_ok|].
  split; [|apply swap_infeasible].
  intros j s e (_ & (path & Hp & Hs) & _) He.
  apply earliest_dep_time_complete in He as (e' & Ee & EE).
  apply dget_in in Hp. cbn in Hp. in_cases; vm_compute in Ee; inversion Ee; subst e'; rewrite EE; reflexivity.
Qed.
Print Assumptions C09_starting_train_refuted.
