(** * PropsRecorded: two solutions kept in the repository (C71, C72)

    The recorded samples of RecordedRuns.v are feasible in the model of the problems they were computed
    for, the first one is optimal, and they show what the rules do not exclude. *)

From Coq Require Import List String Ascii ZArith QArith Bool Lia Lqa.
From Verif Require Import Base BaseFacts Pulp Helpers LinearSolver Spec SpecFacts SpecNames SpecCompare SpecQubo Objective Check
  DataTables DataSets DataTimes Pipeline
  SpecDurations SpecEnd TableFacts SetFacts TimeFacts EndFacts PropsTotalCases FastSwitch LineChecks RealData RecordedRuns PropsReal PropsShipped.
From Verif Require Import DataTables SpecTables SpecSets.
Import ListNotations.
Open Scope string_scope.
Open Scope list_scope.

(** ** Reading times from a solution *)

Definition value_of (p : lpproblem) (x : assignment) (v : vid) : Q :=
  if lmem v (aff_ids (p_objective p)) then x v
  else if existsb (fun nc => lmem v (aff_ids (c_aff (snd nc)))) (p_constraints p) then x v else 0.

Lemma value_of_ok p x v : value_of p x v = value_in p x v.
Proof.
  unfold value_of, value_in. destruct (lmem v (map v_id (variables p))) eqn:E.
  - apply lmem_true in E. apply variables_ids in E as [E|(n & c & I & E)].
    + apply lmem_true in E. rewrite E. reflexivity.
    + destruct (lmem v (aff_ids (p_objective p))); [reflexivity|].
      replace (existsb (fun nc => lmem v (aff_ids (c_aff (snd nc)))) (p_constraints p)) with true; [reflexivity|].
      symmetry. apply existsb_exists. exists (n, c). split; [exact I|apply lmem_true; exact E].
  - apply lmem_false in E. destruct (lmem v (aff_ids (p_objective p))) eqn:E1.
    + exfalso. apply E, variables_ids. left. apply lmem_true. exact E1.
    + destruct (existsb (fun nc => lmem v (aff_ids (c_aff (snd nc)))) (p_constraints p)) eqn:E2; [|reflexivity].
      exfalso. apply E, variables_ids. right. apply existsb_exists in E2 as ([n c] & I & L). exists n, c. split; [exact I|apply lmem_true; exact L].
Qed.

Definition dep_time (ts : train_sets) (tt : timetable) (p : lpproblem) (x : assignment) (j s : pv) : option Q :=
  match earliest_dep_time (ts_Paths ts) tt j s with
  | Ok e => Some (Qred (e + value_of p x ("Delays", [j; s])))
  | Err _ => None
  end.

Definition arr_time (ts : train_sets) (tt : timetable) (p : lpproblem) (x : assignment) (j s : pv) : option Q :=
  match dget j (ts_Paths ts) with
  | Some path =>
      match path with
      | s0 :: _ => if eqb s0 s then None else
          match previous_station path s with
          | Ok sp =>
              match dep_time ts tt p x j sp, dget (joined [j; sp; s]) (tt_pass tt) with
              | Some t, Some r => Some (Qred (t + r))
              | _, _ => None
              end
          | Err _ => None
          end
      | [] => None
      end
  | None => None
  end.

Definition taken_by (ts : train_sets) (s j : pv) : option pv :=
  match dget s (ts_Jround ts) with
  | Some l => match find (fun q => eqb (snd q) j) l with Some q => Some (fst q) | None => None end
  | None => None
  end.

Definition occ_time (ts : train_sets) (tt : timetable) (p : lpproblem) (x : assignment) (s j : pv) : option Q :=
  match taken_by ts s j with
  | Some jr => arr_time ts tt p x jr s
  | None =>
      match dget j (ts_Paths ts) with
      | Some (s0 :: _) =>
          if eqb s0 s then match earliest_dep_time (ts_Paths ts) tt j s with Ok e => Some e | Err _ => None end
          else arr_time ts tt p x j s
      | _ => None
      end
  end.

Section Times.
  Variables (ts : train_sets) (tt : timetable) (p : lpproblem) (x : assignment).
  Hypotheses (RF : reserved_free ts) (NF : none_free tt).

  Lemma dep_time_ok j s t : dep_time ts tt p x j s = Some t -> Spec.departs ts tt p x j s t.
  Proof.
    unfold dep_time. destruct (earliest_dep_time (ts_Paths ts) tt j s) as [e|] eqn:E; [|discriminate]. intros H.
    assert (t = Qred (e + value_of p x ("Delays", [j; s]))) as -> by congruence. exists e. split; [apply (earliest_dep_time_sound ts RF tt NF); exact E|]. rewrite <- value_of_ok. apply Qred_correct.
  Qed.

  Lemma arr_time_ok j s t : arr_time ts tt p x j s = Some t -> Spec.arrives ts tt p x j s t.
  Proof.
    unfold arr_time. destruct (dget j (ts_Paths ts)) as [path|] eqn:P; [|discriminate]. destruct path as [|s0 path]; [discriminate|].
    destruct (eqb s0 s) eqn:S0; [discriminate|]. destruct (previous_station (s0 :: path) s) as [sp|] eqn:V; [|discriminate].
    destruct (dep_time ts tt p x j sp) as [t0|] eqn:D; [|discriminate]. destruct (dget (joined [j; sp; s]) (tt_pass tt)) as [r|] eqn:R; [|discriminate].
    intros H. assert (t = Qred (t0 + r)) as -> by congruence. exists sp, t0, r. split; [|split; [apply dep_time_ok; exact D|split; [exact R|apply Qred_correct]]].
    apply comes_before_prev. exists (s0 :: path). split; [exact P|]. split; [exact V|]. intros (l & E). injection E as -> _. rewrite eqb_refl in S0. discriminate.
  Qed.

  Lemma taken_by_some s j jr : taken_by ts s j = Some jr -> taken_from ts s jr j.
  Proof.
    unfold taken_by, taken_from. destruct (dget s (ts_Jround ts)) as [l|]; [|discriminate].
    intros H. enough (exists l1 l2, l = l1 ++ (jr, j) :: l2 /\ ~ In j (map snd l1)) as (l1 & l2 & -> & N) by (exists l1, l2; auto).
    revert H. induction l as [|[a b] l IH]; [discriminate|]. cbn. destruct (eqb b j) eqn:B.
    - apply eqb_eq in B. subst b. cbn. intros H. injection H as ->. exists [], l. split; [reflexivity|intros []].
    - intros H. destruct (IH H) as (l1 & l2 & -> & N). exists ((a, b) :: l1), l2. split; [reflexivity|]. apply eqb_neq in B.
      intros [X|X]; [cbn in X; congruence|contradiction].
  Qed.

  Lemma taken_by_none s j : taken_by ts s j = None -> forall jr, ~ taken_from ts s jr j.
  Proof.
    unfold taken_by. intros H jr (l1 & l2 & E & N). rewrite E in H.
    destruct (find (fun q => eqb (snd q) j) (l1 ++ (jr, j) :: l2)) eqn:F; [discriminate|].
    apply find_none with (x := (jr, j)) in F; [|apply in_elt]. cbn in F. rewrite eqb_refl in F. discriminate.
  Qed.

  Lemma occ_time_ok s j t : occ_time ts tt p x s j = Some t -> occupies_from ts tt p x s j t.
  Proof.
    unfold occ_time. destruct (taken_by ts s j) as [jr|] eqn:T.
    - intros H. left. exists jr. split; [apply taken_by_some; exact T|apply arr_time_ok; exact H].
    - pose proof (taken_by_none _ _ T) as N. destruct (dget j (ts_Paths ts)) as [path|] eqn:P; [|discriminate].
      destruct path as [|s0 path]; [discriminate|]. destruct (eqb s0 s) eqn:S0.
      + apply eqb_eq in S0. subst s0. destruct (earliest_dep_time (ts_Paths ts) tt j s) as [e|] eqn:E; [|discriminate].
        intros H. injection H as <-. right. right. split; [exact N|]. split; [exists path; exact P|apply (earliest_dep_time_sound ts RF tt NF); exact E].
      + intros H. right. left. split; [exact N|apply arr_time_ok; exact H].
  Qed.
End Times.

(** ** Feasibility of a recorded sample *)

Definition run_okb (p : lpproblem) (x : assignment) : bool :=
  if forallb (fun nc => holdsb (snd nc) x) (p_constraints p)
  then if forallb (fun v => var_okb v (x (v_id v))) (aff_vars (p_objective p))
  then forallb (fun nc => forallb (fun v => var_okb v (x (v_id v))) (aff_vars (c_aff (snd nc)))) (p_constraints p)
  else false else false.

Lemma run_okb_ok p x : run_okb p x = true -> feasible p x.
Proof.
  unfold run_okb. destruct (forallb (fun nc => holdsb (snd nc) x) (p_constraints p)) eqn:A; [|discriminate].
  destruct (forallb (fun v => var_okb v (x (v_id v))) (aff_vars (p_objective p))) eqn:B; [|discriminate].
  rewrite forallb_forall in A, B. rewrite forallb_forall. intros C. split.
  - intros n c I. apply holdsb_iff. exact (A (n, c) I).
  - intros v I. apply var_okb_ok. apply variables_in in I as [I|(n & c & I & J)]; [apply B; exact I|].
    specialize (C (n, c) I). rewrite forallb_forall in C. apply C. exact J.
Qed.

Definition same_trackb (st : station_blocks) (s : string) (tt tt' : table) : bool :=
  forallb (fun e => if eqb (fst e) s then
    forallb (fun b => Bool.eqb (lmem b (map r_block tt)) (lmem b (map r_block tt'))) (snd e) else true) st.

Lemma uses_blocks tt b : uses tt b <-> In b (map r_block tt).
Proof. unfold uses. rewrite in_map_iff. split; intros (r & A & B); exists r; auto. Qed.

Lemma same_trackb_ok st s tt tt' : same_trackb st s tt tt' = true -> same_track st s tt tt'.
Proof.
  unfold same_trackb. rewrite forallb_forall. intros H b (bs & I & J). specialize (H _ I). cbn in H. rewrite eqb_refl in H.
  rewrite forallb_forall in H. specialize (H b J). apply eqb_prop in H. rewrite !uses_blocks, <- !lmem_true, H. reflexivity.
Qed.

(** The rows of a train between two stations *)
Fixpoint until (tt : table) (s2 : string) : option (list row) :=
  match tt with
  | [] => None
  | r :: rest =>
      match r_station r with
      | Some z => if eqb z s2 then Some [] else None
      | None => match until rest s2 with Some l => Some (r :: l) | None => None end
      end
  end.

Fixpoint rows_between (tt : table) (s s2 : string) : option (list row) :=
  match tt with
  | [] => None
  | r :: rest =>
      if eqb (r_station r) (Some s)
      then match until rest s2 with Some l => Some l | None => rows_between rest s s2 end
      else rows_between rest s s2
  end.

Lemma until_ok tt s2 mid : until tt s2 = Some mid ->
  (exists r2 post, tt = mid ++ r2 :: post /\ r_station r2 = Some s2) /\ forall r, In r mid -> r_station r = None.
Proof.
  revert mid. induction tt as [|r tt IH]; [discriminate|]. intros mid. cbn. destruct (r_station r) as [z|] eqn:R.
  - destruct (eqb z s2) eqn:Z; [|discriminate]. apply eqb_eq in Z. subst z. intros H. injection H as <-. split; [|intros y []].
    exists r, tt. auto.
  - destruct (until tt s2) as [l|] eqn:U; [|discriminate]. intros H. injection H as <-. destruct (IH l eq_refl) as [(r2 & post & -> & E) N].
    split; [exists r2, post; auto|]. intros y [<-|I]; auto.
Qed.

Lemma between_ok tt s s2 mid : rows_between tt s s2 = Some mid -> directly tt s s2 mid.
Proof.
  revert mid. induction tt as [|r tt IH]; [discriminate|]. intros mid. cbn.
  assert (G : rows_between tt s s2 = Some mid -> directly (r :: tt) s s2 mid).
  { intros H. destruct (IH mid H) as [(pre & r1 & r2 & post & -> & E) N]. split; [|exact N]. exists (r :: pre), r1, r2, post. auto. }
  destruct (eqb (r_station r) (Some s)) eqn:E; [|exact G]. destruct (until tt s2) as [l|] eqn:U; [|exact G].
  intros H. injection H as <-. apply eqb_eq in E. apply until_ok in U as [(r2 & post & -> & E2) N]. split; [|exact N].
  exists [], r, r2, post. auto.
Qed.

Fixpoint on_block (mid : list row) (a : Q) (c : string) : option (Q * Q) :=
  match mid with
  | [] => None
  | r :: rest => if eqb (r_block r) c then Some (a, a + time_of r) else on_block rest (a + time_of r) c
  end.

Lemma on_block_ok mid a c f e : on_block mid a c = Some (f, e) -> in_block mid a c f e.
Proof.
  revert a. induction mid as [|r mid IH]; [discriminate|]. intros a. cbn. destruct (eqb (r_block r) c) eqn:B.
  - intros H. injection H as <- <-. apply eqb_eq in B. exists [], r, mid. split; [reflexivity|]. split; [exact B|].
    cbn. split; [lra|reflexivity].
  - intros H. destruct (IH _ H) as (u & r' & v & -> & Bl & F & E). exists (r :: u), r', v. split; [reflexivity|]. split; [exact Bl|].
    split; [|exact E]. rewrite F. cbn. lra.
Qed.

Definition weightsb (tt : timetable) : bool := forallb (fun kw => Qle_bool 0 (snd kw)) (tt_weights tt).

Lemma weightsb_ok tt : weightsb tt = true -> nonneg_weights tt.
Proof.
  unfold weightsb. rewrite forallb_forall. intros H k w E. apply dget_in in E. apply Qle_bool_iff. exact (H _ E).
Qed.

(** ** The two runs *)

(** [f] of the problem made from the tables *)
Definition on_problem (data : list line) (st : station_blocks) (t1 : string) (delays : list (Z * Q)) (d_max : Q)
    (f : train_dict -> train_sets -> timetable -> lpproblem -> bool) : bool :=
  match build_timetables data st network with
  | Ok td => match fast_problem td st network t1 delays d_max Integer with Ok (ts, ttb, p) => f td ts ttb p | Err _ => false end
  | Err _ => false
  end.

Lemma on_problem_ok data st t1 delays d_max f : on_problem data st t1 delays d_max f = true ->
  exists td ts ttb p, build_timetables data st network = Ok td /\
    tables_to_problem td st network t1 delays d_max Integer = Ok (ts, ttb, p) /\ f td ts ttb p = true.
Proof.
  unfold on_problem. destruct (build_timetables data st network) as [td|]; [|discriminate].
  destruct (fast_problem td st network t1 delays d_max Integer) as [[[ts ttb] p]|] eqn:F; [|discriminate].
  intros H. exists td, ts, ttb, p. split; [reflexivity|]. split; [apply fast_problem_ok; exact F|exact H].
Qed.

Definition some_eq (a : option Q) (q : Q) : bool := match a with Some b => Z.eqb (Qnum b) (Qnum q) && Pos.eqb (Qden b) (Qden q) | None => false end.

Lemma some_eq_ok a q : some_eq a q = true -> a = Some q.
Proof. destruct a as [b|]; [|discriminate]. cbn. rewrite andb_true_iff, Z.eqb_eq, Pos.eqb_eq.
  destruct b, q. cbn. intros [-> ->]. reflexivity. Qed.

Definition case0_check (x : assignment) (td : train_dict) (ts : train_sets) (ttb : timetable) (p : lpproblem) : bool :=
  match dget 4500%Z td, dget 541019%Z td with
  | Some (_, tj), Some (_, tk) =>
      if run_okb p x then
      weightsb ttb && Qeq_bool (obj_value p x) 0 && same_trackb stations_main "KO" tj tk &&
      some_eq (occ_time ts ttb p x (station "KO") (train 4500)) 30 && some_eq (dep_time ts ttb p x (train 4500) (station "KO")) 35 &&
      some_eq (occ_time ts ttb p x (station "KO") (train 541019)) 27 && some_eq (dep_time ts ttb p x (train 541019) (station "KO")) 32
      else false
  | _, _ => false
  end.

Lemma case0_check_ok x td ts ttb p : reserved_free ts -> none_free ttb -> case0_check x td ts ttb p = true ->
  exists tj tk, feasible p x /\ nonneg_weights ttb /\ obj_value p x == 0 /\
  runs td 4500 tj /\ runs td 541019 tk /\ same_track stations_main "KO" tj tk /\
  occupies_from ts ttb p x (station "KO") (train 4500) 30 /\ Spec.departs ts ttb p x (train 4500) (station "KO") 35 /\
  occupies_from ts ttb p x (station "KO") (train 541019) 27 /\ Spec.departs ts ttb p x (train 541019) (station "KO") 32.
Proof.
  intros RF NF C. unfold case0_check in C.
  destruct (dget 4500%Z td) as [[ij tj]|] eqn:Ej; [|discriminate]. destruct (dget 541019%Z td) as [[ik tk]|] eqn:Ek; [|discriminate].
  destruct (run_okb p x) eqn:RO; [|discriminate]. rewrite !andb_true_iff in C. destruct C as ((((((W & O) & ST) & A) & D) & A') & D').
  exists tj, tk. split; [apply run_okb_ok; exact RO|]. split; [apply weightsb_ok; exact W|]. split; [apply Qeq_bool_iff; exact O|].
  split; [exists ij; exact Ej|]. split; [exists ik; exact Ek|]. split; [apply same_trackb_ok; exact ST|].
  split; [apply (occ_time_ok ts ttb p x RF NF), some_eq_ok; exact A|]. split; [apply (dep_time_ok ts ttb p x RF NF), some_eq_ok; exact D|].
  split; [apply (occ_time_ok ts ttb p x RF NF), some_eq_ok; exact A'|apply (dep_time_ok ts ttb p x RF NF), some_eq_ok; exact D'].
Qed.

Lemma case0_checked : on_problem schedule_main stations_main "16:00" [] 40 (case0_check (Check.table run0)) = true.
Proof. vm_cast_no_check (eq_refl true). Qed.

(** C72 is false as stated: the recorded solution of case 0 (no delays) is feasible and even optimal, and
    4500 and 541019 (the train 54101 after turning around) use track 2 of KO, the first one from 30 to 35,
    the other one from 27 to 32. *)
Theorem C72_recorded_refuted : exists td ts ttb p x tj tk,
  build_timetables schedule_main stations_main network = Ok td /\
  tables_to_problem td stations_main network "16:00" [] 40 Integer = Ok (ts, ttb, p) /\ optimal p x /\
  different_stock 4500 541019 /\ runs td 4500 tj /\ runs td 541019 tk /\ same_track stations_main "KO" tj tk /\
  occupies_from ts ttb p x (station "KO") (train 4500) 30 /\ Spec.departs ts ttb p x (train 4500) (station "KO") 35 /\
  occupies_from ts ttb p x (station "KO") (train 541019) 27 /\ Spec.departs ts ttb p x (train 541019) (station "KO") 32.
Proof.
  destruct (on_problem_ok _ _ _ _ _ _ case0_checked) as (td & ts & ttb & p & B & H & C).
  destruct (shipped_facts schedule_main stations_main "16:00") as (td' & B' & T & _); [left; reflexivity|].
  assert (td' = td) by congruence. subst td'.
  pose proof (reserved_ok _ _ _ _ _ _ _ _ _ _ T H) as RF. pose proof (none_ok _ _ _ _ _ _ _ _ _ _ T H) as NF.
  destruct (case0_check_ok _ _ _ _ _ RF NF C) as (tj & tk & F & W & O & R & R' & X).
  exists td, ts, ttb, p, (Check.table run0), tj, tk. split; [exact B|]. split; [exact H|]. split; [|split; [|tauto]].
  - split; [exact F|]. intros x' F'. rewrite O.
    apply (obj_nonneg ts ttb 40 Integer p x' RF (proj1 (parts _ _ _ _ _ _ _ _ _ _ H))); [reflexivity|exact W|apply F'].
  - split; [discriminate|]. intros y [[E1 E2]|[E1 E2]]; lia.
Qed.
Print Assumptions C72_recorded_refuted.

Definition case3_check (x : assignment) (td : train_dict) (ts : train_sets) (ttb : timetable) (p : lpproblem) : bool :=
  match dget 94317%Z td, dget 34319%Z td with
  | Some (_, tj), Some (_, tk) =>
      match rows_between tj "KZ" "KO(STM)", rows_between tk "KZ" "KO(STM)" with
      | Some mid, Some mid' =>
          if run_okb p x then
          some_eq (dep_time ts ttb p x (train 94317) (station "KZ")) 40 && some_eq (dep_time ts ttb p x (train 34319) (station "KZ")) 41 &&
          match on_block mid 40 b011, on_block mid' 41 b011 with
          | Some (f, e), Some (f', e') => Qeq_bool f 40 && Qeq_bool e (207 # 5) && Qeq_bool f' 41 && Qeq_bool e' (212 # 5)
          | _, _ => false
          end
          else false
      | _, _ => false
      end
  | _, _ => false
  end.

Lemma case3_check_ok x td ts ttb p : reserved_free ts -> none_free ttb -> case3_check x td ts ttb p = true ->
  exists tj tk mid mid' f e f' e', feasible p x /\
  runs td 94317 tj /\ runs td 34319 tk /\ directly tj "KZ" "KO(STM)" mid /\ directly tk "KZ" "KO(STM)" mid' /\
  Spec.departs ts ttb p x (train 94317) (station "KZ") 40 /\ Spec.departs ts ttb p x (train 34319) (station "KZ") 41 /\
  in_block mid 40 b011 f e /\ in_block mid' 41 b011 f' e' /\ f == 40 /\ e == 207 # 5 /\ f' == 41 /\ e' == 212 # 5.
Proof.
  intros RF NF C.
  unfold case3_check in C.
  destruct (dget 94317%Z td) as [[ij tj]|] eqn:Ej; [|discriminate]. destruct (dget 34319%Z td) as [[ik tk]|] eqn:Ek; [|discriminate].
  destruct (rows_between tj "KZ" "KO(STM)") as [mid|] eqn:Mj; [|discriminate].
  destruct (rows_between tk "KZ" "KO(STM)") as [mid'|] eqn:Mk; [|discriminate].
  destruct (run_okb p x) eqn:RO; [|discriminate].
  destruct (on_block mid 40 b011) as [[f e]|] eqn:Oj; [|rewrite andb_false_r in C; discriminate].
  destruct (on_block mid' 41 b011) as [[f' e']|] eqn:Ok; [|rewrite andb_false_r in C; discriminate].
  rewrite !andb_true_iff, !Qeq_bool_iff in C. destruct C as [[A A'] [[[F E] F'] E']].
  exists tj, tk, mid, mid', f, e, f', e'.
  split; [apply run_okb_ok; exact RO|]. split; [exists ij; exact Ej|]. split; [exists ik; exact Ek|].
  split; [apply between_ok; exact Mj|]. split; [apply between_ok; exact Mk|].
  split; [apply (dep_time_ok ts ttb p x RF NF), some_eq_ok; exact A|]. split; [apply (dep_time_ok ts ttb p x RF NF), some_eq_ok; exact A'|].
  split; [apply on_block_ok; exact Oj|]. split; [apply on_block_ok; exact Ok|]. auto.
Qed.

Lemma case3_checked : on_problem schedule_main stations_main "16:00" (real_delays 3) 40 (case3_check (Check.table run3)) = true.
Proof. vm_cast_no_check (eq_refl true). Qed.

Lemma case3_solution : exists td ts ttb p x tj tk mid mid' f e f' e',
  build_timetables schedule_main stations_main network = Ok td /\
  tables_to_problem td stations_main network "16:00" (real_delays 3) 40 Integer = Ok (ts, ttb, p) /\ feasible p x /\
  runs td 94317 tj /\ runs td 34319 tk /\ directly tj "KZ" "KO(STM)" mid /\ directly tk "KZ" "KO(STM)" mid' /\
  Spec.departs ts ttb p x (train 94317) (station "KZ") 40 /\ Spec.departs ts ttb p x (train 34319) (station "KZ") 41 /\
  in_block mid 40 b011 f e /\ in_block mid' 41 b011 f' e' /\ f == 40 /\ e == 207 # 5 /\ f' == 41 /\ e' == 212 # 5.
Proof.
  destruct (on_problem_ok _ _ _ _ _ _ case3_checked) as (td & ts & ttb & p & B & H & C).
  destruct (shipped_facts schedule_main stations_main "16:00") as (td' & B' & T & _); [left; reflexivity|].
  assert (td' = td) by congruence. subst td'.
  pose proof (reserved_ok _ _ _ _ _ _ _ _ _ _ T H) as RF. pose proof (none_ok _ _ _ _ _ _ _ _ _ _ T H) as NF.
  destruct (case3_check_ok _ _ _ _ _ RF NF C) as (tj & tk & mid & mid' & f & e & f' & e' & X).
  exists td, ts, ttb, p, (Check.table run3), tj, tk, mid, mid', f, e, f', e'. split; [exact B|]. split; [exact H|]. exact X.
Qed.

(** C71 with "never" in place of "at most half a minute" is false: in the recorded solution of case 3,
    94317 is on the block from KZ to KO(STM) from 40 to 41.4, and 34319 from 41 to 42.4. *)
Theorem C71_half_minute_needed : exists td ts ttb p x tj tk mid mid',
  build_timetables schedule_main stations_main network = Ok td /\
  tables_to_problem td stations_main network "16:00" (real_delays 3) 40 Integer = Ok (ts, ttb, p) /\ feasible p x /\
  runs td 94317 tj /\ runs td 34319 tk /\ directly tj "KZ" "KO(STM)" mid /\ directly tk "KZ" "KO(STM)" mid' /\
  Spec.departs ts ttb p x (train 94317) (station "KZ") 40 /\ Spec.departs ts ttb p x (train 34319) (station "KZ") 41 /\
  ~ never_together mid 40 mid' 41.
Proof.
  destruct case3_solution as (td & ts & ttb & p & x & tj & tk & mid & mid' & f & e & f' & e' & B & H & F & Rj & Rk & Dj & Dk & A & A' & I & I' & E1 & E2 & E3 & E4).
  exists td, ts, ttb, p, x, tj, tk, mid, mid'. repeat (split; [assumption|]). intros N. destruct (N _ _ _ _ _ I I') as [L|L]; lra.
Qed.
Print Assumptions C71_half_minute_needed.

(** The same solution as a case of C71: 2/5 of a minute together, and the theorem says at most 1/2. *)
Example C71_case : exists td ts ttb p x tj tk mid mid' a b,
  build_timetables schedule_main stations_main network = Ok td /\
  tables_to_problem td stations_main network "16:00" (real_delays 3) 40 Integer = Ok (ts, ttb, p) /\ feasible p x /\
  runs td 94317 tj /\ runs td 34319 tk /\ directly tj "KZ" "KO(STM)" mid /\ directly tk "KZ" "KO(STM)" mid' /\
  Spec.departs ts ttb p x (train 94317) (station "KZ") a /\ Spec.departs ts ttb p x (train 34319) (station "KZ") b /\
  together_at_most (1 # 2) mid a mid' b.
Proof.
  destruct case3_solution as (td & ts & ttb & p & x & tj & tk & mid & mid' & f & e & f' & e' & B & H & F & Rj & Rk & Dj & Dk & A & A' & I & I' & E1 & E2 & E3 & E4).
  destruct I as (u & r & v & Em & Er & _). destruct I' as (u' & r' & v' & Em' & Er' & _).
  destruct (C71_shipped_lines schedule_main stations_main "16:00" td (or_introl eq_refl) B (real_delays 3) 40 Integer ts ttb p x ltac:(discriminate) H F
    94317 34319 tj tk "KZ" "KO(STM)" mid "KZ" "KO(STM)" mid' r r' ltac:(discriminate) Rj Rk Dj Dk) as (a & b & X).
  - rewrite Em. apply in_elt.
  - rewrite Em'. apply in_elt.
  - congruence.
  - exists td, ts, ttb, p, x, tj, tk, mid, mid', a, b.
    split; [exact B|]. split; [exact H|]. split; [exact F|]. split; [exact Rj|]. split; [exact Rk|]. split; [exact Dj|]. split; [exact Dk|exact X].
Qed.

(** Cases of the other statements on the shipped tables: in the same recorded solution of case 0, 4500 leaves CB over
    a switch over which 94317 comes in, and 4500 and 40150 use the same track of CB. *)
Definition cb_check (td : train_dict) : bool :=
  match dget 4500%Z td, dget 94317%Z td, dget 40150%Z td with
  | Some (_, tj), Some (_, tk), Some (_, tm) =>
      crossb network "CB" tj tk && same_trackb stations_main "CB" tj tm &&
      eqb (station_at_end tj) None && eqb (station_at_end tm) None &&
      existsb (fun r => eqb (r_station r) (Some "CB")) tj && existsb (fun r => eqb (r_station r) (Some "CB")) tm &&
      negb (existsb (fun d => lmem d (map r_block tj)) depot_tracks)
  | _, _, _ => false
  end.

Lemma cb_checked : match build_timetables schedule_main stations_main network with Ok td => cb_check td | Err _ => false end = true.
Proof. vm_cast_no_check (eq_refl true). Qed.

Lemma passesb_ok (ttb : table) s : existsb (fun r => eqb (r_station r) (Some s)) ttb = true -> passes ttb s.
Proof. intros H. apply existsb_exists in H as (r & I & E). apply eqb_eq in E. exists r. auto. Qed.

Lemma no_last_not_named ttb s : eqb (station_at_end ttb) None = true -> PropsEnd.not_named_last ttb s.
Proof. intros E e (f & r & -> & R). rewrite station_at_end_snoc, R in E. apply eqb_eq in E. discriminate. Qed.

Lemma cb_check_ok td : cb_check td = true -> exists tj tk tm, runs td 4500 tj /\ runs td 94317 tk /\ runs td 40150 tm /\
  switch_conflict network "CB" tj "out" tk "in" /\ same_track stations_main "CB" tj tm /\ passes tj "CB" /\ passes tm "CB" /\
  (forall d, In d depot_tracks -> ~ only_track stations_main "CB" tj d) /\
  PropsEnd.not_named_last tj "CB" /\ PropsEnd.not_named_last tm "CB".
Proof.
  unfold cb_check. destruct (dget 4500%Z td) as [[ij tj]|] eqn:Ej; [|discriminate]. destruct (dget 94317%Z td) as [[ik tk]|] eqn:Ek; [|discriminate].
  destruct (dget 40150%Z td) as [[im tm]|] eqn:Em; [|discriminate]. rewrite !andb_true_iff, negb_true_iff. intros ((((((C & S) & L) & L') & P) & P') & D).
  exists tj, tk, tm. split; [exists ij; exact Ej|]. split; [exists ik; exact Ek|]. split; [exists im; exact Em|]. split; [apply crossb_ok; exact C|].
  split; [apply same_trackb_ok; exact S|]. split; [apply passesb_ok; exact P|]. split; [apply passesb_ok; exact P'|].
  split; [|split; apply no_last_not_named; assumption]. intros d I (In1 & U). destruct (proj2 (U d In1) eq_refl) as (r & Ir & Er).
  rewrite <- not_true_iff_false in D. apply D. apply existsb_exists. exists d. split; [exact I|]. apply lmem_true. rewrite <- Er. apply in_map. exact Ir.
Qed.

Example C71_switch_case : exists td ts ttb p x t t',
  tables_to_problem td stations_main network "16:00" [] 40 Integer = Ok (ts, ttb, p) /\ feasible p x /\
  PropsEnd.moves ts ttb p x 4500 "CB" "out" t /\ PropsEnd.moves ts ttb p x 94317 "CB" "in" t' /\ (t + 1 <= t' \/ t' + 1 <= t).
Proof.
  destruct C72_recorded_refuted as (td & ts & ttb & p & x & _ & _ & B & H & [F _] & _). pose proof cb_checked as C. rewrite B in C.
  destruct (cb_check_ok td C) as (tj & tk & tm & Rj & Rk & Rm & SC & _).
  destruct (C71_shipped_switches schedule_main stations_main "16:00" td (or_introl eq_refl) B [] 40 Integer ts ttb p x ltac:(discriminate) H F
    4500 94317 tj tk "CB" "out" "in" ltac:(apply stockb_ok; reflexivity) Rj Rk SC) as (t & t' & X).
  exists td, ts, ttb, p, x, t, t'. split; [exact H|]. split; [exact F|exact X].
Qed.

Example C72_tracks_case : exists td ts ttb p x a d a' d',
  tables_to_problem td stations_main network "16:00" [] 40 Integer = Ok (ts, ttb, p) /\ feasible p x /\
  occupies_from ts ttb p x (station "CB") (train 4500) a /\ Spec.departs ts ttb p x (train 4500) (station "CB") d /\
  occupies_from ts ttb p x (station "CB") (train 40150) a' /\ Spec.departs ts ttb p x (train 40150) (station "CB") d' /\
  (d <= a' \/ d' <= a).
Proof.
  destruct C72_recorded_refuted as (td & ts & ttb & p & x & _ & _ & B & H & [F _] & _). pose proof cb_checked as C. rewrite B in C.
  destruct (cb_check_ok td C) as (tj & tk & tm & Rj & Rk & Rm & _ & ST & P & P' & D & L & L').
  destruct (C72_shipped_tracks_partial schedule_main stations_main "16:00" td (or_introl eq_refl) B [] 40 Integer ts ttb p x ltac:(discriminate) H F
    4500 40150 tj tm "CB" ltac:(apply stockb_ok; reflexivity) Rj Rm P P' ST) as (a & d & a' & d' & X);
    [intros [E|[E|[]]]; discriminate|exact D|exact L|exact L'|].
  exists td, ts, ttb, p, x, a, d, a', d'. split; [exact H|]. split; [exact F|exact X].
Qed.
