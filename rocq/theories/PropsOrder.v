(** * PropsOrder: the order on the line and the order on the station track agree (C53) *)

From Coq Require Import List String ZArith QArith Bool.
From Verif Require Import Base Pulp Helpers LinearSolver Spec SpecOrder BaseFacts OrderVars SpecFacts Sound
  Check Examples Overtake.
Import ListNotations.
Open Scope string_scope.
Open Scope list_scope.

(** C53, line part: two trains that run sp -> s one behind the other and share a track at s use the
    track in the order in which they left sp.

    Restriction: [listed_in_order] - all lists of the input mention [j] before [k].  Without it the claim
    is false, see [C53_listing_order_refuted]. *)
Theorem C53_no_overtaking_partial : forall ts tt d_max cat p x,
  reserved_free ts -> none_free tt -> 0 <= d_max ->
  create_linear_problem ts tt d_max cat = Ok p -> feasible p x ->
  forall sp s inner groups js tgroups tjs j k,
  dget sp (ts_Jd ts) = Some inner -> dget s inner = Some groups -> In js groups -> listed js j k ->
  dget s (ts_Jtrack ts) = Some tgroups -> In tjs tgroups -> listed tjs j k ->
  listed_in_order ts j k -> j <> k -> ~ same_rolling_stock ts j k ->
  comes_before ts j sp s -> comes_before ts k sp s ->
  ~ names_skip ts j s -> ~ names_skip ts k s ->
  turnaround_closed ts s j k -> turnaround_closed ts s k j ->
  exists t t' h h' a d a' d' g,
    departs ts tt p x j sp t /\ departs ts tt p x k sp t' /\
    headway tt j k sp s h /\ headway tt k j sp s h' /\
    occupies_from ts tt p x s j a /\ occupies_until ts tt p x s j d /\
    occupies_from ts tt p x s k a' /\ occupies_until ts tt p x s k d' /\ track_gap ts tt s g /\
    ((t + h <= t' /\ d + g <= a') \/ (t' + h' <= t /\ d' + g <= a)).
Proof. exact no_overtaking. Qed.
Print Assumptions C53_no_overtaking_partial.

(** C53, switch part: two trains that enter s by the same switches, not one behind the other on one line,
    use a common track in the order in which they pass the switches - provided the line of the first
    listed train carries a headway entry. *)
Theorem C53_entering_order : forall ts tt d_max cat p x,
  reserved_free ts -> none_free tt -> 0 <= d_max ->
  create_linear_problem ts tt d_max cat = Ok p -> feasible p x ->
  forall sp spk s inner groups tgroups tjs l pair j k,
  dget s (ts_Jtrack ts) = Some tgroups -> In tjs tgroups -> listed tjs j k ->
  dget s (ts_Jswitch ts) = Some l -> In pair l ->
  (pair = [(j, PStr "in"); (k, PStr "in")] \/ pair = [(k, PStr "in"); (j, PStr "in")]) ->
  comes_before ts j sp s -> comes_before ts k spk s ->
  dget sp (ts_Jd ts) = Some inner -> dget s inner = Some groups ->
  (sp = spk -> forall js, In js groups -> ~ (In j js /\ In k js)) ->
  j <> k -> ~ same_rolling_stock ts j k ->
  ~ names_skip ts j s -> ~ names_skip ts k s ->
  turnaround_closed ts s j k -> turnaround_closed ts s k j ->
  exists t t' r a d a' d' g,
    uses_switch ts tt p x s pair j t /\ uses_switch ts tt p x s pair k t' /\ reservation tt r /\
    occupies_from ts tt p x s j a /\ occupies_until ts tt p x s j d /\
    occupies_from ts tt p x s k a' /\ occupies_until ts tt p x s k d' /\ track_gap ts tt s g /\
    ((t + r <= t' /\ d + g <= a') \/ (t' + r <= t /\ d' + g <= a)).
Proof. exact entering_order_kept. Qed.
Print Assumptions C53_entering_order.

(** ** A case of the line part *)

Definition line_ts : train_sets := MkTS None
  [(I 1, [A; B; C]); (I 2, [A; B; C])] [I 1; I 2]
  [(A, [(B, [[I 1; I 2]])])] [] [] [(B, [[I 1; I 2]])] [] None.
Definition line_tt : timetable := MkTT
  [("1_A_B", 10); ("2_A_B", 4); ("1_B_C", 3); ("2_B_C", 3)]
  [("1_2_A_B", 8); ("2_1_A_B", 2)]
  [("1_B", 1); ("2_B", 1); ("1_C", 1); ("2_C", 1)] [] (Some 1) [] [("1_A", 0); ("2_A", 1)] [("1_A", 1); ("2_A", 1)].
Definition line_p : lpproblem := ok_or (create_linear_problem line_ts line_tt 20 Integer) empty_problem.
Definition line_x : assignment := table
  [(("Delays", [I 2; A]), 7); (("Delays", [I 2; B]), 7); (("Delays", [I 2; C]), 7);
   (("y", [I 1; I 2; PStr "one_station"; A]), 1); (("y", [I 1; I 2; PStr "one_station"; B]), 1)].

Lemma line_reserved : reserved_free line_ts.
Proof. apply reserved_freeb_ok. vm_compute. reflexivity. Qed.
Lemma line_none : none_free line_tt.
Proof. apply none_freeb_ok. vm_compute. reflexivity. Qed.
Lemma line_built : create_linear_problem line_ts line_tt 20 Integer = Ok line_p.
Proof. apply ok_or_ok. vm_compute. reflexivity. Qed.
Lemma line_feasible : feasible line_p line_x.
Proof. apply feasibleb_ok. vm_compute. reflexivity. Qed.

Lemma not_listed2 (a b u v : pv) : (u, v) <> (a, b) -> ~ listed [a; b] u v.
Proof.
  intros N (l1 & l2 & l3 & E). destruct l1 as [|c l1].
  - injection E as <- E. destruct l2 as [|c l2]; [injection E as <- _; congruence|].
    destruct l2; discriminate.
  - destruct l1 as [|c' l1]; [|destruct l1; discriminate]. injection E as _ _ E. destruct l2; discriminate.
Qed.

Lemma line_in_order : listed_in_order line_ts (I 1) (I 2).
Proof.
  split; [|split].
  - intros s inner sp groups js H1 H2 H3. vm_compute in H1. destruct H1 as [H1|[]]. injection H1 as <- <-.
    destruct H2 as [H2|[]]. injection H2 as <- <-. destruct H3 as [<-|[]]. apply not_listed2. discriminate.
  - intros s groups js H1 H2. vm_compute in H1. destruct H1 as [H1|[]]. injection H1 as <- <-.
    destruct H2 as [<-|[]]. apply not_listed2. discriminate.
  - intros s l a b [].
Qed.

Example C53_line_case : exists t t' h h' a d a' d' g,
  departs line_ts line_tt line_p line_x (I 1) A t /\ departs line_ts line_tt line_p line_x (I 2) A t' /\
  headway line_tt (I 1) (I 2) A B h /\ headway line_tt (I 2) (I 1) A B h' /\
  occupies_from line_ts line_tt line_p line_x B (I 1) a /\ occupies_until line_ts line_tt line_p line_x B (I 1) d /\
  occupies_from line_ts line_tt line_p line_x B (I 2) a' /\ occupies_until line_ts line_tt line_p line_x B (I 2) d' /\
  track_gap line_ts line_tt B g /\
  ((t + h <= t' /\ d + g <= a') \/ (t' + h' <= t /\ d' + g <= a)).
Proof.
  assert (NC : forall s j k, ~ continues_as line_ts s j k).
  { intros s j k (l1 & l2 & H & _). vm_compute in H. discriminate. }
  apply (C53_no_overtaking_partial line_ts line_tt 20 Integer line_p line_x line_reserved line_none
           ltac:(discriminate) line_built line_feasible A B [(B, [[I 1; I 2]])] [[I 1; I 2]] [I 1; I 2]
           [[I 1; I 2]] [I 1; I 2]); try reflexivity; try (left; reflexivity);
    try (exists [], [], []; reflexivity).
  - apply line_in_order.
  - discriminate.
  - apply not_same_rolling_spec. vm_compute. reflexivity.
  - exists [A; B; C], [], [C]; repeat split; simpl; intuition discriminate.
  - exists [A; B; C], [], [C]; repeat split; simpl; intuition discriminate.
  - intros (sk & name & s' & H & _). discriminate.
  - intros (sk & name & s' & H & _). discriminate.
  - intros jn H; exfalso; eapply NC; eauto.
  - intros jn H; exfalso; eapply NC; eauto.
Qed.

(** ** A case of the switch part *)

Definition join_ts : train_sets := MkTS None
  [(I 1, [A; B; D]); (I 2, [C; B; D])] [I 1; I 2]
  [(A, [(B, [[I 1]])])] [] [] [(B, [[I 1; I 2]])]
  [(B, [[(I 2, PStr "in"); (I 1, PStr "in")]])] None.
Definition join_tt : timetable := MkTT
  [("1_A_B", 10); ("2_C_B", 4); ("1_B_D", 3); ("2_B_D", 3)] []
  [("1_B", 1); ("2_B", 1); ("1_D", 1); ("2_D", 1)] [] (Some 2) [] [("1_A", 0); ("2_C", 6)] [("1_A", 1); ("2_C", 1)].
Definition join_p : lpproblem := ok_or (create_linear_problem join_ts join_tt 20 Integer) empty_problem.
Definition join_x : assignment := table
  [(("Delays", [I 1; A]), 3); (("Delays", [I 1; B]), 3); (("Delays", [I 1; D]), 3);
   (("z", [PStr "in"; I 2; I 1; B]), 1)].

Lemma join_reserved : reserved_free join_ts.
Proof. apply reserved_freeb_ok. vm_compute. reflexivity. Qed.
Lemma join_none : none_free join_tt.
Proof. apply none_freeb_ok. vm_compute. reflexivity. Qed.
Lemma join_built : create_linear_problem join_ts join_tt 20 Integer = Ok join_p.
Proof. apply ok_or_ok. vm_compute. reflexivity. Qed.
Lemma join_feasible : feasible join_p join_x.
Proof. apply feasibleb_ok. vm_compute. reflexivity. Qed.

Example C53_entering_case : exists t t' r a d a' d' g,
  uses_switch join_ts join_tt join_p join_x B [(I 2, PStr "in"); (I 1, PStr "in")] (I 1) t /\
  uses_switch join_ts join_tt join_p join_x B [(I 2, PStr "in"); (I 1, PStr "in")] (I 2) t' /\
  reservation join_tt r /\
  occupies_from join_ts join_tt join_p join_x B (I 1) a /\ occupies_until join_ts join_tt join_p join_x B (I 1) d /\
  occupies_from join_ts join_tt join_p join_x B (I 2) a' /\ occupies_until join_ts join_tt join_p join_x B (I 2) d' /\
  track_gap join_ts join_tt B g /\
  ((t + r <= t' /\ d + g <= a') \/ (t' + r <= t /\ d' + g <= a)).
Proof.
  assert (NC : forall s j k, ~ continues_as join_ts s j k).
  { intros s j k (l1 & l2 & H & _). vm_compute in H. discriminate. }
  apply (C53_entering_order join_ts join_tt 20 Integer join_p join_x join_reserved join_none
           ltac:(discriminate) join_built join_feasible A C B [(B, [[I 1]])] [[I 1]]
           [[I 1; I 2]] [I 1; I 2] [[(I 2, PStr "in"); (I 1, PStr "in")]] [(I 2, PStr "in"); (I 1, PStr "in")]);
    try reflexivity; try (left; reflexivity); try (exists [], [], []; reflexivity).
  - right; reflexivity.
  - exists [A; B; D], [], [D]; repeat split; simpl; intuition discriminate.
  - exists [C; B; D], [], [D]; repeat split; simpl; intuition discriminate.
  - discriminate.
  - discriminate.
  - apply not_same_rolling_spec. vm_compute. reflexivity.
  - intros (sk & name & s' & H & _). discriminate.
  - intros (sk & name & s' & H & _). discriminate.
  - intros jn H; exfalso; eapply NC; eauto.
  - intros jn H; exfalso; eapply NC; eauto.
Qed.

(** ** The claim without the restriction is false

    Jd lists the pair as 2, 1 and Jtrack as 1, 2.  The order variable of the line is then
    [y[2][1]["one_station"]["A"]], and keep_trains_order (linear_solver.py:404-436) looks for
    [y[1][2]["one_station"]["A"]] and silently emits nothing: train 2 leaves A behind train 1 and is on
    the track at B before it. *)

Definition swap_ts : train_sets := MkTS None
  [(I 1, [A; B; C]); (I 2, [A; B; C])] [I 1; I 2]
  [(A, [(B, [[I 2; I 1]])])] [] [] [(B, [[I 1; I 2]])] [] None.
Definition swap_tt : timetable := MkTT
  [("1_A_B", 10); ("2_A_B", 2); ("1_B_C", 3); ("2_B_C", 3)]
  [("1_2_A_B", 2); ("2_1_A_B", 2)]
  [("1_B", 1); ("2_B", 1); ("1_C", 1); ("2_C", 1)] [] (Some 1) [] [("1_A", 0); ("2_A", 2)] [("1_A", 1); ("2_A", 1)].
Definition swap_p : lpproblem := ok_or (create_linear_problem swap_ts swap_tt 20 Integer) empty_problem.
Definition swap_x : assignment := table [].

Lemma swap_reserved : reserved_free swap_ts.
Proof. apply reserved_freeb_ok. vm_compute. reflexivity. Qed.
Lemma swap_none : none_free swap_tt.
Proof. apply none_freeb_ok. vm_compute. reflexivity. Qed.
Lemma swap_built : create_linear_problem swap_ts swap_tt 20 Integer = Ok swap_p.
Proof. apply ok_or_ok. vm_compute. reflexivity. Qed.

Lemma swap_departs j s e t :
  earliest_dep_time (ts_Paths swap_ts) swap_tt j s = Ok e ->
  Qeq_bool t (e + value_in swap_p swap_x ("Delays", [j; s])) = true -> departs swap_ts swap_tt swap_p swap_x j s t.
Proof.
  intros He Ht. exists e. split; [|apply Qeq_bool_iff; exact Ht].
  eapply earliest_dep_time_sound; eauto using swap_reserved, swap_none.
Qed.

Theorem C53_listing_order_refuted : exists ts tt d_max p x sp s inner groups js tgroups tjs j k,
  reserved_free ts /\ none_free tt /\ 0 <= d_max /\
  create_linear_problem ts tt d_max Integer = Ok p /\ feasible p x /\
  dget sp (ts_Jd ts) = Some inner /\ dget s inner = Some groups /\ In js groups /\ In j js /\ In k js /\
  dget s (ts_Jtrack ts) = Some tgroups /\ In tjs tgroups /\ In j tjs /\ In k tjs /\
  j <> k /\ ~ same_rolling_stock ts j k /\
  comes_before ts j sp s /\ comes_before ts k sp s /\
  exists t t' a d',
    departs ts tt p x j sp t /\ departs ts tt p x k sp t' /\
    occupies_from ts tt p x s j a /\ occupies_until ts tt p x s k d' /\
    t < t' /\ d' < a.
Proof.
  exists swap_ts, swap_tt, 20, swap_p, swap_x, A, B, [(B, [[I 2; I 1]])], [[I 2; I 1]], [I 2; I 1],
    [[I 1; I 2]], [I 1; I 2], (I 1), (I 2).
  assert (NC : forall s j k, ~ continues_as swap_ts s j k).
  { intros s j k (l1 & l2 & H & _). vm_compute in H. discriminate. }
  assert (NT : forall s j k, ~ taken_from swap_ts s j k).
  { intros s j k (l1 & l2 & H & _). vm_compute in H. discriminate. }
  assert (CB : forall j, j = I 1 \/ j = I 2 -> comes_before swap_ts j A B).
  { intros j [->| ->]; exists [A; B; C], [], [C]; repeat split; simpl; intuition discriminate. }
  split; [apply swap_reserved|]. split; [apply swap_none|]. split; [discriminate|].
  split; [apply swap_built|]. split; [apply feasibleb_ok; vm_compute; reflexivity|].
  do 2 (split; [reflexivity|]). split; [left; reflexivity|]. split; [right; left; reflexivity|].
  split; [left; reflexivity|]. split; [reflexivity|]. split; [left; reflexivity|].
  split; [left; reflexivity|]. split; [right; left; reflexivity|].
  split; [discriminate|]. split; [apply not_same_rolling_spec; vm_compute; reflexivity|].
  split; [apply CB; auto|]. split; [apply CB; auto|].
  exists 0, 2, 10, 5.
  split; [eapply swap_departs; vm_compute; reflexivity|].
  split; [eapply swap_departs; vm_compute; reflexivity|].
  split.
  { right; left. split; [intros jr; apply NT|]. exists A, 0, 10. split; [apply CB; auto|].
    split; [eapply swap_departs; vm_compute; reflexivity|]. split; reflexivity. }
  split; [right; split; [intros jn; apply NC|]; eapply swap_departs; vm_compute; reflexivity|].
  split; reflexivity.
Qed.
Print Assumptions C53_listing_order_refuted.
