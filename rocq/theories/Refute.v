(** * Refute: claims that are false of the code, with concrete witnesses *)

From Coq Require Import List String ZArith QArith Bool Lqa.
From Verif Require Import Base Pulp Helpers LinearSolver BaseFacts Spec SpecFacts Check Examples.
Import ListNotations.
Open Scope string_scope.
Open Scope list_scope.

(** ** C04: the exemption of skipped stations is a substring test

    Train 1 skips "KO(STM)"; since "KO" is a substring of that name, the solver also drops the
    rule that nobody enters the track of KO before train 1 has left it. *)

Definition KO := PStr "KO".
Definition STM := PStr "KO(STM)".

Definition ko_tt : timetable := MkTT
  [("1_A_KO", 4); ("1_KO_KO(STM)", 2); ("2_C_KO", 4); ("2_KO_D", 4)] []
  [("1_KO", 10); ("1_KO(STM)", 1); ("2_KO", 1); ("2_D", 1)] [] (Some 1) []
  [("1_A", 0); ("2_C", 5)] [("1_A", 1)].

Definition ko_ts : train_sets := MkTS (Some [(I 1, STM)])
  [(I 1, [A; KO; STM]); (I 2, [C; KO; D])] [I 1; I 2] [] [] [] [(KO, [[I 1; I 2]])] [] None.

Definition ko_p : lpproblem := ok_or (create_linear_problem ko_ts ko_tt 10 Integer) empty_problem.
Definition ko_x : assignment := table [(("y", [I 1; I 2; PStr "one_station"; KO]), 1)].

Lemma ko_reserved : reserved_free ko_ts.
Proof. apply reserved_freeb_ok. vm_compute. reflexivity. Qed.
Lemma ko_none : none_free ko_tt.
Proof. apply none_freeb_ok. vm_compute. reflexivity. Qed.
Lemma ko_built : create_linear_problem ko_ts ko_tt 10 Integer = Ok ko_p.
Proof. apply ok_or_ok. vm_compute. reflexivity. Qed.

Lemma ko_departs j s e t :
  earliest_dep_time (ts_Paths ko_ts) ko_tt j s = Ok e ->
  Qeq_bool t (e + value_in ko_p ko_x ("Delays", [j; s])) = true -> departs ko_ts ko_tt ko_p ko_x j s t.
Proof.
  intros He Ht. exists e. split; [|apply Qeq_bool_iff; exact Ht].
  eapply earliest_dep_time_sound; eauto using ko_reserved, ko_none.
Qed.

Theorem C04_substring_refuted : exists ts tt d_max p x s j jp,
  reserved_free ts /\ none_free tt /\ 0 <= d_max /\
  create_linear_problem ts tt d_max Integer = Ok p /\ feasible p x /\
  shares_track ts s j jp /\ j <> jp /\ ~ same_rolling_stock ts j jp /\
  ~ skipped ts j s /\ ~ skipped ts jp s /\
  turnaround_closed ts s j jp /\ turnaround_closed ts s jp j /\
  exists a d a' d',
    occupies_from ts tt p x s j a /\ occupies_until ts tt p x s j d /\
    occupies_from ts tt p x s jp a' /\ occupies_until ts tt p x s jp d' /\
    a < a' /\ d' < d.
Proof.
  exists ko_ts, ko_tt, 10, ko_p, ko_x, KO, (I 1), (I 2).
  assert (NC : forall s j k, ~ continues_as ko_ts s j k).
  { intros s j k (l1 & l2 & H & _). vm_compute in H. discriminate. }
  assert (NT : forall s j k, ~ taken_from ko_ts s j k).
  { intros s j k (l1 & l2 & H & _). vm_compute in H. discriminate. }
  split; [apply ko_reserved|]. split; [apply ko_none|]. split; [discriminate|].
  split; [apply ko_built|]. split; [apply feasibleb_ok; vm_compute; reflexivity|].
  split; [exists [[I 1; I 2]], [I 1; I 2]; split; [left; reflexivity|]; split; [left; reflexivity|];
          left; exists [], [], []; reflexivity|].
  split; [discriminate|]. split; [apply not_same_rolling_spec; vm_compute; reflexivity|].
  split; [intros (sk & E & H); inversion E; subst; vm_compute in H; discriminate|].
  split; [intros (sk & E & H); inversion E; subst; vm_compute in H; discriminate|].
  split; [intros jn H; exfalso; eapply NC; eauto|].
  split; [intros jn H; exfalso; eapply NC; eauto|].
  exists 4, 14, 9, 10. split; [|split; [|split; [|split]]].
  - right; left. split; [intros jr; apply NT|]. exists A, 0, 4.
      split; [exists [A; KO; STM], [], [STM]; repeat split; simpl; intuition discriminate|].
      split; [eapply ko_departs; vm_compute; reflexivity|]. split; reflexivity.
  - right. split; [intros jn; apply NC|]. eapply ko_departs; vm_compute; reflexivity.
  - right; left. split; [intros jr; apply NT|]. exists C, 5, 4.
      split; [exists [C; KO; D], [], [D]; repeat split; simpl; intuition discriminate|].
      split; [eapply ko_departs; vm_compute; reflexivity|]. split; reflexivity.
  - right. split; [intros jn; apply NC|]. eapply ko_departs; vm_compute; reflexivity.
  - split; reflexivity.
Qed.
Print Assumptions C04_substring_refuted.
