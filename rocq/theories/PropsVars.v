(** * PropsVars: delay variables, objective, reported times, variable names (C13, C14, C18, C19) *)

From Coq Require Import List String ZArith QArith Bool Lqa Lia.
From Verif Require Import Base Pulp Helpers LinearSolver BaseFacts Emit Origin Complete Spec SpecFacts DelayVars SpecCompare
  SpecNames Rules Names Objective Check Examples.
Import ListNotations.
Open Scope string_scope.
Open Scope list_scope.

(** C13: [delay_vars[j][s]] exists exactly for the pairs whose departure is a decision (train in J, station
    on its path, not skipped, not continued by another train), with bounds 0 and d_max and the requested
    category; and a created problem has no other variables called "Delays". *)
Theorem C13_delay_variables : forall ts d_max cat,
  reserved_free ts ->
  (forall dv, delay_varibles ts d_max cat = Ok dv ->
     forall j s v, get2 dv j s = Ok v <->
       decided ts j s /\ v = MkVar "Delays" [j; s] (Some 0) (Some d_max) cat) /\
  (forall tt p, create_linear_problem ts tt d_max cat = Ok p ->
     forall v, In v (variables p) -> v_prefix v = "Delays" ->
       exists j s, decided ts j s /\ v = MkVar "Delays" [j; s] (Some 0) (Some d_max) cat).
Proof.
  intros ts d cat RF. split.
  - intros dv H j s v. rewrite (get2_char ts d cat dv j s v H), (has_delay_decided ts j s RF). reflexivity.
  - intros tt p Hp v Hv E. destruct (problem_ids ts tt d cat p RF Hp v Hv) as [[(j & s & HD & EI)|(q & u & HS & EI)] V].
    + exists j, s. split; [apply has_delay_decided; assumption|]. exact (V j s EI).
    + exfalso. unfold v_id in EI. rewrite E in EI.
      destruct HS as (a & b & _ & _ & [(c & _ & -> & ->)|[(c & _ & -> & ->)|(c & e & _ & _ & -> & ->)]]);
        discriminate EI.
Qed.
Print Assumptions C13_delay_variables.

(** In the five-train input, 22 has no delay variable at C, where it becomes train 23 and which it skips;
    21 has one there. *)
Example C13_case : exists dv, delay_varibles five_ts 10 Integer = Ok dv /\
  decided five_ts (I 21) C /\ ~ decided five_ts (I 22) C /\ get2 dv (I 22) C = Err KeyError.
Proof.
  exists (ok_or (delay_varibles five_ts 10 Integer) (TNode [])).
  assert (H : delay_varibles five_ts 10 Integer = Ok (ok_or (delay_varibles five_ts 10 Integer) (TNode [])))
    by (apply ok_or_ok; vm_compute; reflexivity).
  destruct (C13_delay_variables five_ts 10 Integer five_reserved) as [G _]. specialize (G _ H).
  split; [exact H|]. split; [|split; [|vm_compute; reflexivity]].
  - apply (G (I 21) C (MkVar "Delays" [I 21; C] (Some 0) (Some 10) Integer)). vm_compute. reflexivity.
  - intros HD.
    assert (E : get2 (ok_or (delay_varibles five_ts 10 Integer) (TNode [])) (I 22) C = Err KeyError)
      by (vm_compute; reflexivity).
    rewrite (proj2 (G _ _ _) (conj HD eq_refl)) in E. discriminate.
Qed.

(** C14: the objective is the sum of [impact_to_objective] over all visits; it is 0 when nothing weighted is
    late; with nonnegative weights it lies between 0 and the sum of all weights. *)
Theorem C14_objective : forall ts tt d_max cat p x value,
  reserved_free ts -> plain_names ts -> 0 < d_max ->
  create_linear_problem ts tt d_max cat = Ok p ->
  (forall v, In v (variables p) -> value v = Some (x (v_id v))) ->
  (exists l, mapM (fun js => impact_to_objective p tt (fst js) (snd js) d_max value) (visits ts) = Ok l /\
     obj_value p x == qsum l) /\
  ((forall j s, In (j, s) (visits ts) -> ~ penalty_weights tt j s == 0 -> x ("Delays", [j; s]) == 0) ->
     obj_value p x == 0) /\
  (nonneg_weights tt -> (forall v, In v (variables p) -> var_ok v (x (v_id v))) ->
     0 <= obj_value p x /\
     (NoDup (dkeys (tt_weights tt)) -> obj_value p x <= qsum (map snd (tt_weights tt)))).
Proof.
  intros ts tt d cat p x value RF PN Hd Hp HV. split; [|split].
  - apply (obj_impacts ts tt d cat p x RF Hp value PN); [lra|exact HV].
  - exact (obj_zero ts tt d cat p x Hp).
  - intros Hw Hx. split; [exact (obj_nonneg ts tt d cat p x RF Hp Hd Hw Hx)|].
    exact (obj_upper ts tt d cat p x RF Hp Hd Hw Hx PN).
Qed.
Print Assumptions C14_objective.

(** With [d_max] = 0 there is nothing to divide by: no problem with a weighted visit is created, and the impact of
    a visit with a delay variable cannot be computed. *)
Theorem C14_zero_bound : forall ts tt d_max cat p, d_max == 0 -> create_linear_problem ts tt d_max cat = Ok p ->
  (forall j s, In (j, s) (visits ts) -> penalty_weights tt j s == 0) /\
  forall j s x, In ("Delays_" ++ str j ++ "_" ++ str s)%string (map v_name (variables p)) ->
    impact_to_objective p tt j s d_max (fun v => Some (x (v_id v))) = Err ZeroDivisionError.
Proof.
  intros ts tt d cat p Hd Hp. assert (D : Qeq_bool d 0 = true) by (apply Qeq_bool_iff; exact Hd). split.
  - intros j s H. unfold create_linear_problem in Hp. do 8 (inv_bind Hp). unfold objective in Hp. inv_bind Hp. clear Hp E E0 E1 E2 E3 E4 E5 E6. rename E7 into HF.
    assert (ALL : forall (A B : Type) (f : B -> A -> res B) l acc r, foldM f l acc = Ok r -> forall x, In x l -> exists b c, f b x = Ok c).
    { clear. intros A B f. induction l as [|y l IH]; intros acc r H x I; [destruct I|]. cbn [foldM] in H. inv_bind H. destruct I as [<-|I]; eauto. }
    unfold visits in H. apply in_flat_map in H as (j' & Ij & H).
    destruct (ALL _ _ _ _ _ _ HF j' Ij) as (b & c & E). apply in_map_iff in H as (s' & Es & Is). injection Es as -> ->. unfold stations_of in Is.
    unfold dlookup in E. destruct (dget j (ts_Paths ts)) as [path|]; [|discriminate E]. cbn [bind] in E.
    destruct (ALL _ _ _ _ _ _ E s Is) as (b' & c' & E'). cbv zeta in E'. destruct (Qeq_bool (penalty_weights tt j s) 0) eqn:W; [apply Qeq_bool_iff; exact W|].
    inv_bind E'. unfold objective_term in E'. rewrite D in E'. discriminate E'.
  - intros j s x I. unfold impact_to_objective, find_var. destruct (find _ (variables p)) as [v|] eqn:F; [cbn [bind]; rewrite D; reflexivity|].
    exfalso. apply in_map_iff in I as (v & E & Iv). apply (find_none _ _ F) in Iv. rewrite E, eqb_refl in Iv. discriminate Iv.
Qed.
Print Assumptions C14_zero_bound.

Example C14_zero_case : create_linear_problem five_ts five_tt 0 Integer = Err ZeroDivisionError /\
  is_ok (create_linear_problem five_ts (MkTT (tt_pass five_tt) (tt_headway five_tt) (tt_stop five_tt) (tt_prep five_tt) (tt_res five_tt)
    (tt_schedule five_tt) (tt_init five_tt) []) 0 Integer) = true.
Proof. split; vm_compute; reflexivity. Qed.

Fixpoint inj_strb (l : list pv) : bool :=
  match l with
  | [] => true
  | a :: r => forallb (fun b => negb (eqb (str a) (str b)) || eqb a b) r && inj_strb r
  end.

Lemma inj_strb_ok l : inj_strb l = true -> forall a b, In a l -> In b l -> str a = str b -> a = b.
Proof.
  induction l as [|c r IH]; cbn [inj_strb]; intros H a b Ha Hb E; [destruct Ha|].
  apply andb_true_iff in H as [H1 H2]. rewrite forallb_forall in H1.
  destruct Ha as [->|Ha], Hb as [->|Hb]; [reflexivity| | |apply IH; auto].
  - specialize (H1 b Hb). rewrite E, eqb_refl in H1. cbn in H1. apply eqb_eq in H1. exact H1.
  - specialize (H1 a Ha). rewrite E, eqb_refl in H1. cbn in H1. apply eqb_eq in H1. congruence.
Qed.

Definition plain_namesb (ts : train_sets) : bool :=
  forallb (fun x => all_chars plain_char (str x)) (mentioned_trains ts) &&
  forallb (fun x => all_chars plain_char (str x)) (mentioned_stations ts) &&
  inj_strb (mentioned_trains ts) && inj_strb (PNone :: mentioned_stations ts).

Lemma plain_namesb_ok ts : plain_namesb ts = true -> plain_names ts.
Proof.
  unfold plain_namesb. rewrite !andb_true_iff, !forallb_forall. intros [[[H1 H2] H3] H4].
  split; [exact H1|]. split; [exact H2|]. split.
  - intros j k Hj Hk. exact (inj_strb_ok _ H3 j k Hj Hk).
  - intros s t Hs Ht. exact (inj_strb_ok _ H4 s t Hs Ht).
Qed.

Lemma five_plain : plain_names five_ts.
Proof. apply plain_namesb_ok. vm_compute. reflexivity. Qed.

(** Impacts of the five trains: 22 is 7 late with weight 1/2 at A and B, 23, 24 and 25 a little. *)
Example C14_case : exists l,
  mapM (fun js => impact_to_objective five_p five_tt (fst js) (snd js) 10
                    (fun v => Some (five_x (v_id v)))) (visits five_ts) = Ok l /\
  obj_value five_p five_x == qsum l /\ qsum l == 101 # 100 /\
  obj_value five_p five_x <= 68 # 10.
Proof.
  destruct (C14_objective five_ts five_tt 10 Integer five_p five_x (fun v => Some (five_x (v_id v)))
              five_reserved five_plain ltac:(reflexivity) five_built ltac:(reflexivity)) as (H1 & _ & H3).
  destruct H1 as (l & Hl & Ho). exists l. split; [exact Hl|]. split; [exact Ho|].
  split; [rewrite <- Ho; apply five_objective|].
  assert (W : nonneg_weights five_tt).
  { intros k w H. apply dget_in in H. cbn in H.
    repeat (destruct H as [H|H]; [inversion H; subst; discriminate|]). destruct H. }
  destruct (H3 W (proj2 five_feasible)) as [_ H4].
  apply Qle_trans with (qsum (map snd (tt_weights five_tt))); [apply H4|vm_compute; discriminate].
  cbn. repeat constructor; cbn; intuition discriminate.
Qed.

(** C18, for identifiers that print without underscores and replaced characters: the reported triple is
    delay, departure, earliest departure. *)
Theorem C18_reported_times_partial : forall ts tt d_max cat p x value j s e,
  reserved_free ts -> plain_names ts ->
  create_linear_problem ts tt d_max cat = Ok p ->
  (forall v, In v (variables p) -> value v = Some (x (v_id v))) ->
  In ("Delays", [j; s]) (map v_id (variables p)) -> earliest ts tt j s e ->
  exists late t e', delay_and_acctual_time ts tt p j s value = Ok (late, t, e') /\
    late = x ("Delays", [j; s]) /\ departs ts tt p x j s t /\ e' == e.
Proof.
  intros ts tt d cat p x value j s e RF PN Hp HV Hin He.
  assert (M : In j (mentioned_trains ts) /\ In s (mentioned_stations ts)).
  { apply in_map_iff in Hin as (v & EV & Hv).
    destruct (problem_ids ts tt d cat p RF Hp v Hv) as [K _]. rewrite EV in K.
    destruct K as [(k & t & HD & EK)|(q & u & HS & EK)].
    - inversion EK; subst. apply delay_mentioned. exact HD.
    - exfalso. destruct HS as (a & b & _ & _ & [(c & _ & -> & ->)|[(c & _ & -> & ->)|(c & g & _ & _ & -> & ->)]]);
        discriminate EK. }
  destruct M as [Mj Ms]. unfold delay_and_acctual_time.
  rewrite (find_delay ts tt d cat p RF PN Hp j s Mj Ms).
  replace (lmem (delay_id (j, s)) (map v_id (variables p))) with true
    by (symmetry; apply lmem_true; exact Hin).
  apply in_map_iff in Hin as (v & EV & Hv).
  destruct (problem_ids ts tt d cat p RF Hp v Hv) as [_ V]. rewrite (V j s EV) in Hv.
  rewrite (HV _ Hv). cbn [bind].
  destruct (earliest_dep_time_complete ts tt j s e He) as (e' & He' & Ee). rewrite He'. cbn [bind].
  do 3 eexists. split; [reflexivity|]. split; [reflexivity|]. split; [|symmetry; exact Ee].
  exists e. split; [exact He|]. unfold value_in.
  replace (lmem ("Delays", [j; s]) (map v_id (variables p))) with true
    by (symmetry; apply lmem_true, in_map_iff; exists (delay_var_of j s d cat); auto).
  change (v_id (delay_var_of j s d cat)) with ("Delays", [j; s]). rewrite Ee. apply Qplus_comm.
Qed.
Print Assumptions C18_reported_times_partial.

Example C18_case : exists t, delay_and_acctual_time five_ts five_tt five_p (I 22) A
  (fun v => Some (five_x (v_id v))) = Ok (7, t, 1) /\ t == 8.
Proof. eexists. split; [vm_compute; reflexivity|reflexivity]. Qed.

(** Without that restriction the claim is false: PuLP renames the variable of the station "Bielsko-Biala",
    the lookup by the unchanged name finds nothing, and a train 3 late is reported as (0, 0, 0). *)
Definition BB := PStr "Bielsko-Biala".
Definition bb_ts : train_sets := MkTS None [(I 1, [BB; A])] [I 1] [] [] [] [] [] None.
Definition bb_tt : timetable := MkTT [("1_Bielsko-Biala_A", 4)] [] [("1_A", 1)] [] (Some 1) []
  [("1_Bielsko-Biala", 5)] [("1_Bielsko-Biala", 1)].
Definition bb_p : lpproblem := ok_or (create_linear_problem bb_ts bb_tt 10 Integer) empty_problem.
Definition bb_x : assignment := table [(("Delays", [I 1; BB]), 3); (("Delays", [I 1; A]), 3)].

Theorem C18_replaced_characters_refuted : exists ts tt d_max p x value j s,
  reserved_free ts /\ create_linear_problem ts tt d_max Integer = Ok p /\ feasible p x /\
  (forall v, In v (variables p) -> value v = Some (x (v_id v))) /\
  In ("Delays", [j; s]) (map v_id (variables p)) /\
  departs ts tt p x j s 8 /\ x ("Delays", [j; s]) = 3 /\
  delay_and_acctual_time ts tt p j s value = Ok (0, 0, 0).
Proof.
  exists bb_ts, bb_tt, 10, bb_p, bb_x, (fun v => Some (bb_x (v_id v))), (I 1), BB.
  split; [apply reserved_freeb_ok; vm_compute; reflexivity|].
  split; [apply ok_or_ok; vm_compute; reflexivity|].
  split; [apply feasibleb_ok; vm_compute; reflexivity|].
  split; [reflexivity|].
  split; [vm_compute; repeat (first [left; reflexivity|right])|].
  split; [|split; [reflexivity|vm_compute; reflexivity]].
  exists 5. split; [|vm_compute; reflexivity].
  apply earliest_init with (i := 5); [reflexivity|]. right. split; [|reflexivity].
  intros q E. vm_compute in E. discriminate.
Qed.
Print Assumptions C18_replaced_characters_refuted.

(** C19: different variables have different names. *)
Theorem C19_names_differ : forall ts tt d_max cat p,
  reserved_free ts -> plain_names ts -> create_linear_problem ts tt d_max cat = Ok p ->
  forall v w, In v (variables p) -> In w (variables p) -> v_name v = v_name w -> v = w.
Proof. intros ts tt d cat p RF PN Hp. exact (names_differ ts tt d cat p RF PN Hp). Qed.
Print Assumptions C19_names_differ.

Example C19_case : plain_names five_ts /\ List.length (variables five_p) = 16%nat /\
  map v_name (firstn 3 (variables five_p)) = ["Delays_21_A"; "Delays_21_B"; "Delays_22_A"].
Proof. split; [exact five_plain|]. split; vm_compute; reflexivity. Qed.

(** The hypothesis is needed: train 1 at station "2_3" and train "1_2" at station 3 share "Delays_1_2_3". *)
Example C19_underscores :
  let ts := MkTS None [(I 1, [PStr "2_3"; A]); (PStr "1_2", [I 3; A])] [I 1; PStr "1_2"] [] [] [] [] [] None in
  let tt := MkTT [("1_2_3_A", 4)] [] [("1_A", 1); ("1_2_A", 1)] [] (Some 1) []
              [("1_2_3", 5)] [("1_2_3", 1)] in
  exists p v w, create_linear_problem ts tt 10 Integer = Ok p /\ In v (variables p) /\ In w (variables p) /\
    v_name v = v_name w /\ v <> w.
Proof.
  intros ts tt. exists (ok_or (create_linear_problem ts tt 10 Integer) empty_problem).
  exists (MkVar "Delays" [I 1; PStr "2_3"] (Some 0) (Some 10) Integer),
    (MkVar "Delays" [PStr "1_2"; I 3] (Some 0) (Some 10) Integer).
  split; [apply ok_or_ok; vm_compute; reflexivity|].
  split; [vm_compute; repeat (first [left; reflexivity|right])|].
  split; [vm_compute; repeat (first [left; reflexivity|right])|].
  split; [reflexivity|discriminate].
Qed.

(** ** C62: names without characters that have a meaning in LP files *)

Lemma sanitize_replaced s : replaced lp_var_chars s (sanitize s).
Proof.
  induction s as [|c s IH]; [constructor|]. change (sanitize (String c s)) with (String (sanitize_char c) (sanitize s)).
  destruct c as [[] [] [] [] [] [] [] []];
    first [constructor 2; [cbn; tauto|exact IH] | constructor 3; [cbn; intuition discriminate|exact IH]].
Qed.

Lemma cname_replaced s : replaced lp_chars s (constraint_name s).
Proof.
  induction s as [|c s IH]; [constructor|]. change (constraint_name (String c s)) with (String (cname_char c) (constraint_name s)).
  destruct c as [[] [] [] [] [] [] [] []];
    first [constructor 2; [cbn; tauto|exact IH] | constructor 3; [cbn; intuition discriminate|exact IH]].
Qed.

Lemma replaced_free bad s t : ~ In 95%nat bad -> replaced bad s t -> forall n, In n bad -> ~ has_char n t.
Proof.
  intros NU. induction 1 as [|c s t I R IH|c s t N R IH]; intros n J (u & d & v & E & D).
  - destruct u; discriminate.
  - destruct u as [|e u]; inversion E; subst; [apply NU; exact J|]. apply (IH _ J). exists u, d, v. auto.
  - destruct u as [|e u]; inversion E; subst; [apply N; exact J|]. apply (IH _ J). exists u, d, v. auto.
Qed.

Lemma join_underscored l : join_us l = underscored l.
Proof. induction l as [|a [|b l] IH]; [reflexivity|reflexivity|]. cbn [join_us underscored]. cbn [join_us underscored] in IH. rewrite <- IH. reflexivity. Qed.

Theorem C62_names : forall ts tt d_max cat p, create_linear_problem ts tt d_max cat = Ok p ->
  (forall v, In v (variables p) ->
     replaced lp_var_chars (underscored (v_prefix v :: map str (v_index v))) (v_name v) /\
     forall n, In n lp_var_chars -> ~ has_char n (v_name v)) /\
  (forall name c, In (name, c) (p_constraints p) -> forall n, In n lp_chars -> ~ has_char n name).
Proof.
  intros ts tt d_max cat p H. split.
  - intros v _. assert (R : replaced lp_var_chars (underscored (v_prefix v :: map str (v_index v))) (v_name v)).
    { unfold v_name. rewrite <- (join_underscored (v_prefix v :: map str (v_index v))). apply sanitize_replaced. }
    split; [exact R|]. eapply replaced_free; [|exact R]. cbn. intuition discriminate.
  - intros name c I. destruct (create_inv _ _ _ _ _ H) as (dv & y & _ & _ & E & _). rewrite E in I. apply somes_emitted in I as (m & _ & ->).
    eapply replaced_free; [|apply cname_replaced]. cbn. intuition discriminate.
Qed.
Print Assumptions C62_names.

(** Station "A-B 1": the variable is called Delays_21_A_B_1. *)
Example C62_case : v_name (MkVar "Delays" [I 21; PStr "A-B 1"] (Some 0) (Some 10) Integer) = "Delays_21_A_B_1" /\
  List.length (variables five_p) = 16%nat.
Proof. split; vm_compute; reflexivity. Qed.
