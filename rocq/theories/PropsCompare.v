(** * PropsCompare: continuous and integer delays, larger d_max, moved reference time (C10-C12) *)

From Coq Require Import List String ZArith QArith Bool Lqa Lia.
From Verif Require Import Base Pulp Helpers LinearSolver BaseFacts Spec SpecCompare Compare Check Examples.
Import ListNotations.
Open Scope string_scope.
Open Scope list_scope.

(** C10: on integer data, rounding the delays of a feasible point of the continuous problem down gives
    a feasible point of the integer problem with no larger objective; points of the integer problem are
    points of the continuous one with equal objective; so both reach the same objective values.
    d_max itself need not be an integer. *)
Theorem C10_same_optimum : forall ts tt d_max,
  reserved_free ts -> 0 < d_max -> integral_times tt -> nonneg_weights tt ->
  (forall e, create_linear_problem ts tt d_max Continuous = Err e <->
             create_linear_problem ts tt d_max Integer = Err e) /\
  forall pc pi, create_linear_problem ts tt d_max Continuous = Ok pc ->
    create_linear_problem ts tt d_max Integer = Ok pi ->
    (forall x, feasible pc x ->
       feasible pi (round_down x) /\ obj_value pi (round_down x) <= obj_value pc x) /\
    (forall x, feasible pi x -> feasible pc x /\ obj_value pc x == obj_value pi x) /\
    (forall q, reachable_value pc q <-> reachable_value pi q).
Proof. exact same_optimum. Qed.
Print Assumptions C10_same_optimum.

(** Fractional delays on integer data: train 22 waits 7.5 at A, train 23 is 2.25 late. *)
Definition five_xc : assignment := table
  [(("Delays", [I 21; A]), 0); (("Delays", [I 22; A]), 15 # 2); (("Delays", [I 21; B]), 0);
   (("Delays", [I 22; B]), 15 # 2); (("Delays", [I 23; C]), 5 # 2); (("Delays", [I 23; B]), 11 # 4);
   (("Delays", [I 24; C]), 3 # 2); (("Delays", [I 25; D]), 5 # 2);
   (("y", [I 21; I 22; PStr "one_station"; A]), 1);
   (("y", [I 21; I 22; PStr "one_station"; B]), 1);
   (("z", [I 24; I 25; C; D]), 1);
   (("z", [I 22; I 24; B; C]), 1);
   (("y", [I 21; I 24; PStr "one_station"; C]), 1);
   (("z", [I 21; I 24; B; C]), 1)].
Definition five_pc : lpproblem := ok_or (create_linear_problem five_ts five_tt 10 Continuous) empty_problem.

Definition integralb (q : Q) : bool := Qeq_bool (inject_Z (Qround.Qfloor q)) q.

Lemma values_int {K} {E : EqDec K} (l : dict K Q) :
  forallb (fun kv => integralb (snd kv)) l = true -> forall k q, dget k l = Some q -> is_int q.
Proof.
  intros H k q Hq. apply dget_in in Hq. rewrite forallb_forall in H. apply H in Hq.
  exists (Qround.Qfloor q). symmetry. apply Qeq_bool_iff. exact Hq.
Qed.

Lemma five_integral : integral_times five_tt.
Proof.
  split; [|split; [|split; [|split; [|split; [|split]]]]];
    try (apply values_int; vm_compute; reflexivity).
  intros q E. inversion E. exists 1%Z. reflexivity.
Qed.

Lemma five_weights : nonneg_weights five_tt.
Proof.
  intros k w H. apply dget_in in H. cbn in H.
  repeat (destruct H as [H|H]; [inversion H; subst; discriminate|]). destruct H.
Qed.

Example C10_case : feasible five_pc five_xc /\ feasible five_p (round_down five_xc) /\
  obj_value five_p (round_down five_xc) <= obj_value five_pc five_xc /\
  round_down five_xc ("Delays", [I 22; A]) == 7 /\ ~ feasible five_p five_xc.
Proof.
  assert (H1 : feasible five_pc five_xc) by (apply feasibleb_ok; vm_compute; reflexivity).
  assert (Hc : create_linear_problem five_ts five_tt 10 Continuous = Ok five_pc)
    by (apply ok_or_ok; vm_compute; reflexivity).
  destruct (C10_same_optimum five_ts five_tt 10 five_reserved ltac:(reflexivity) five_integral five_weights)
    as [_ H]. destruct (H _ _ Hc five_built) as (G & _ & _). destruct (G _ H1) as [G1 G2].
  split; [exact H1|]. split; [exact G1|]. split; [exact G2|]. split; [vm_compute; reflexivity|].
  intros [_ F].
  assert (Hv : In (MkVar "Delays" [I 22; A] (Some 0) (Some 10) Integer) (variables five_p)).
  { vm_compute. repeat (first [left; reflexivity|right]). }
  apply F in Hv as (_ & _ & Hv). destruct (Hv eq_refl) as [z Hz].
  change (15 # 2 == inject_Z z) in Hz. unfold Qeq in Hz. cbn [Qnum Qden inject_Z] in Hz. Lia.lia.
Qed.

(** C11: solutions survive a larger d_max (variables that occur only in the larger problem, where fewer
    constraints are redundant, take the value 0), departures are the same, and the objective times d_max
    is unchanged. *)
Theorem C11_larger_dmax : forall ts tt d_max d_max' cat p p' x,
  reserved_free ts -> 0 <= d_max -> d_max <= d_max' ->
  create_linear_problem ts tt d_max cat = Ok p ->
  create_linear_problem ts tt d_max' cat = Ok p' -> feasible p x ->
  feasible p' (value_in p x) /\
  (forall i, In i (map v_id (variables p)) ->
     In i (map v_id (variables p')) /\ value_in p x i = x i) /\
  (forall j s t, departs ts tt p x j s t <-> departs ts tt p' (value_in p x) j s t) /\
  d_max' * obj_value p' (value_in p x) == d_max * obj_value p x.
Proof.
  intros ts tt d d' cat p p' x RF H0 Hd Hp Hp' Hx.
  split; [exact (larger_feasible ts tt d d' cat p p' x RF H0 Hd Hp Hp' Hx)|].
  split; [intros i Hi; split; [exact (larger_vars ts tt d d' cat p p' Hd Hp Hp' i Hi)|apply X_eq; exact Hi]|].
  split; [intros; apply (larger_departs ts tt d d' cat p p' x Hd Hp Hp')|].
  exact (larger_objective ts tt d d' cat p p' x Hp Hp').
Qed.
Print Assumptions C11_larger_dmax.

Definition five_p7 : lpproblem := ok_or (create_linear_problem five_ts five_tt 7 Integer) empty_problem.

(** From d_max = 7 to 10 some constraints are no longer redundant, the tight solution survives. *)
Example C11_case :
  (List.length (p_constraints five_p7) < List.length (p_constraints five_p))%nat /\
  feasible five_p7 five_x /\ obj_value five_p7 five_x == 101 # 70 /\
  feasible five_p (value_in five_p7 five_x) /\
  obj_value five_p (value_in five_p7 five_x) == 101 # 100.
Proof.
  assert (Hp : create_linear_problem five_ts five_tt 7 Integer = Ok five_p7)
    by (apply ok_or_ok; vm_compute; reflexivity).
  assert (Hx : feasible five_p7 five_x) by (apply feasibleb_ok; vm_compute; reflexivity).
  assert (Ho : obj_value five_p7 five_x == 101 # 70) by (vm_compute; reflexivity).
  split; [vm_compute; repeat constructor|]. split; [exact Hx|]. split; [exact Ho|].
  destruct (C11_larger_dmax five_ts five_tt 7 10 Integer _ _ five_x five_reserved ltac:(discriminate)
              ltac:(discriminate) Hp five_built Hx) as (H1 & _ & _ & H2).
  split; [exact H1|]. rewrite Ho in H2. lra.
Qed.

(** C12: moving every schedule entry and initial condition by [delta] gives the same exception, or a
    problem with the same variables, constraint names, senses, equal constraint functions, hence the same
    feasible points and objective; departures move by [delta]. *)
Theorem C12_moved_reference : forall ts tt tt' delta d_max cat,
  moved_times delta tt tt' ->
  (forall e, create_linear_problem ts tt d_max cat = Err e <->
             create_linear_problem ts tt' d_max cat = Err e) /\
  forall p p', create_linear_problem ts tt d_max cat = Ok p ->
    create_linear_problem ts tt' d_max cat = Ok p' ->
    variables p' = variables p /\
    dkeys (p_constraints p') = dkeys (p_constraints p) /\
    (forall n c c', dget n (p_constraints p) = Some c -> dget n (p_constraints p') = Some c' ->
       c_sense c' = c_sense c /\ forall x, eval (c_aff c') x == eval (c_aff c) x) /\
    (forall x, feasible p' x <-> feasible p x) /\
    (forall x, obj_value p' x == obj_value p x) /\
    (forall x j s t, departs ts tt p x j s t -> departs ts tt' p' x j s (t + delta)).
Proof. exact moved_equivalent. Qed.
Print Assumptions C12_moved_reference.

(** The five trains one hour later. *)
Definition hour_later (l : dict string Q) : dict string Q := map (fun kv => (fst kv, snd kv + 60)) l.
Definition five_later : timetable := MkTT (tt_pass five_tt) (tt_headway five_tt) (tt_stop five_tt)
  (tt_prep five_tt) (tt_res five_tt) (hour_later (tt_schedule five_tt)) (hour_later (tt_init five_tt))
  (tt_weights five_tt).

Lemma hour_later_moved l k : moved_by 60 (dget k l) (dget k (hour_later l)).
Proof.
  induction l as [|[a q] l IH]; cbn [hour_later map dget fst snd]; [exact Logic.I|].
  destruct (eq_dec k a); [cbn; reflexivity|exact IH].
Qed.

Example C12_case : exists p', create_linear_problem five_ts five_later 10 Integer = Ok p' /\
  feasible p' five_x /\ obj_value p' five_x == 101 # 100 /\ departs five_ts five_later p' five_x (I 22) A 68.
Proof.
  exists (ok_or (create_linear_problem five_ts five_later 10 Integer) empty_problem).
  assert (Hp' : create_linear_problem five_ts five_later 10 Integer =
                Ok (ok_or (create_linear_problem five_ts five_later 10 Integer) empty_problem))
    by (apply ok_or_ok; vm_compute; reflexivity).
  split; [exact Hp'|].
  assert (HM : moved_times 60 five_tt five_later).
  { do 6 (split; [reflexivity|]). split; intros k; apply hour_later_moved. }
  destruct (C12_moved_reference five_ts five_tt five_later 60 10 Integer HM) as [_ H].
  destruct (H _ _ five_built Hp') as (_ & _ & _ & H1 & H2 & H3).
  split; [apply H1, five_feasible|]. split; [rewrite H2; apply five_objective|].
  change 68 with (8 + 60)%Q. apply (H3 five_x (I 22) A 8).
  exists 1. split; [|vm_compute; reflexivity]. apply earliest_init with (i := 1); [reflexivity|].
  right. split; [|reflexivity]. intros q E. vm_compute in E. discriminate.
Qed.
